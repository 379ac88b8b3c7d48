(* SftpProofs11.v - proofs about the SFTP server: the directory handles, and
   READDIR requests. *)
From Verif Require Import Base WireModel WireSpec WireProofs PathModel PathSpec PathProofs NegoSpec ReqSpec ReqProofs ReqProofs3.
From Verif Require Import SftpModel SftpProofs SftpSpec SftpProofs2 SftpProofs3 SftpProofs4 SftpProofs5 SftpProofs6 SftpProofs7 SftpProofs8 SftpProofs9 SftpProofs10.
From Coq Require Import List NArith ZArith Bool Lia String.
Import ListNotations.
Open Scope N_scope.

(* ---- the table of directories ------------------------------------------------------------------ *)

Lemma str_bytes : forall hb b x, str hb b -> bytes_ok (b ++ x) -> bytes_ok hb.
Proof. intros hb b x (lb & _ & Eb) H. rewrite Eb, !bytes_ok_app in H. tauto. Qed.
Lemma seteof_in : forall h l e', In e' (SetEof h l) -> exists e, In e l /\ dkey e' = dkey e /\ (d_eof e = true -> d_eof e' = true) /\ (d_id e <> h -> e' = e).
Proof.
  induction l as [|x l IH]; intros e' H; cbn [SetEof] in H; [destruct H|]. destruct (hid_eqb (d_id x) h) eqn:Q.
  - apply hid_eqb_eq in Q. destruct H as [<-|H].
    + exists x. split; [left; reflexivity|]. split; [reflexivity|]. split; [reflexivity|]. intros K. contradiction.
    + exists e'. split; [right; assumption|]. auto.
  - destruct H as [<-|H]; [exists x; split; [left; reflexivity|]; auto|].
    destruct (IH _ H) as (e & He & K). exists e. split; [right; assumption|assumption].
Qed.
Lemma seteof_fwd : forall h l e, In e l -> exists e', In e' (SetEof h l) /\ dkey e' = dkey e /\ (d_id e <> h -> e' = e).
Proof.
  induction l as [|x l IH]; intros e H; [destruct H|]. cbn [SetEof]. destruct (hid_eqb (d_id x) h) eqn:Q.
  - apply hid_eqb_eq in Q. destruct H as [->|H].
    + eexists. split; [left; reflexivity|]. split; [reflexivity|]. intros K. contradiction.
    + exists e. split; [right; assumption|]. auto.
  - destruct H as [->|H]; [exists e; split; [left; reflexivity|]; auto|].
    destruct (IH _ H) as (e' & He & K). exists e'. split; [right; assumption|assumption].
Qed.
Lemma seteof_set : forall h l, NoDup (map d_id l) -> forall e', In e' (SetEof h l) -> d_id e' = h -> d_eof e' = true.
Proof.
  induction l as [|x l IH]; intros Nd e' H K; cbn [SetEof] in H; [destruct H|]. cbn [map] in Nd. inversion Nd as [|? ? N1 N2]; subst.
  destruct (hid_eqb (d_id x) (d_id e')) eqn:Q.
  - destruct H as [<-|H]; [reflexivity|]. exfalso. apply hid_eqb_eq in Q. apply N1. rewrite Q. apply in_map. assumption.
  - destruct H as [<-|H].
    + rewrite (proj2 (hid_eqb_eq _ _) eq_refl) in Q. discriminate.
    + apply IH; auto.
Qed.

Record dinv (h : list hev) (s : srv) : Prop := {
  j_at : forall path hb d, live (opened_at path) hb d h ->
    exists e, In e (s_dirs s) /\ HandleIdEncode (d_id e) = hb /\ d_dir e = d /\ d_name e = path;
  j_un : forall path hb d, unlisted path hb d h ->
    exists e, In e (s_dirs s) /\ HandleIdEncode (d_id e) = hb /\ d_dir e = d /\ d_name e = path /\ d_eof e = false;
  j_eof : forall ev hb m l, In ev h -> lists ev hb -> q_reply ev = Some m -> name_msg (q_id ev) l m ->
    (exists i, hb = HandleIdEncode i /\ ok_id i /\ val i < val (s_next s)) /\
    forall e, In e (s_dirs s) -> HandleIdEncode (d_id e) = hb -> d_eof e = true }.

(* a READDIR that is answered with names *)
Lemma names_eof : forall E id data s r out s' hb x m l, RecvReadDir_t E id data s = (r, out, s') -> p_str data = Some (hb, x) ->
  out = Some m -> is32 id -> name_msg id l m ->
  lenN hb = 8 /\ (exists e, FindDir (decode_t hb) (s_dirs s) = Some e) /\ s_dirs s' = SetEof (decode_t hb) (s_dirs s).
Proof.
  intros E id data s r out s' hb x m l D P Q Hi Nm. unfold RecvReadDir_t in D. rewrite P in D.
  destruct (_ <? _); [apply triple_inv in D; destruct D as (_ & D & _); congruence|].
  destruct (N.eqb_spec (lenN hb) HANDLE_ID_SZ) as [L8|L8]; cbn [negb] in D; [|apply triple_inv in D; destruct D as (_ & D & _); congruence]. cbv zeta in D.
  destruct (FindDir (decode_t hb) (s_dirs s)) as [e|] eqn:F; [|apply triple_inv in D; destruct D as (_ & D & _); congruence].
  split; [exact L8|]. split; [eauto|].
  destruct (if d_eof e then _ else _) as (L, s2) eqn:Lp.
  assert (Ds : s_dirs s2 = s_dirs s).
  { destruct (d_eof e); [congruence|]. apply readdir_grow in Lp. destruct Lp as (Lp & _). exact Lp. }
  destruct L as [|y L].
  { exfalso. destruct (mem E (s_log s2) 1); apply triple_inv in D; destruct D as (_ & D & _); [|congruence].
    assert (m = CreateStatus FTP_EOF id (ascii "No More Files In Directory") English) as -> by congruence.
    destruct (status_ok id FTP_EOF (ascii "No More Files In Directory") Hi eq_refl eq_refl) as (b1 & b2 & b3 & b4 & b5 & _ & _ & _ & Fr).
    destruct Nm as (cb & bs & _ & _ & Fn). destruct (frame_inj _ _ _ _ _ _ _ Fr Fn) as (Qf & _). discriminate Qf. }
  destruct (negb _); [apply triple_inv in D; destruct D as (_ & D & _); congruence|].
  destruct (_ <? 13); [apply triple_inv in D; destruct D as (_ & D & _); congruence|].
  destruct (put_names _ _); apply triple_inv in D; destruct D as (_ & D1 & D2); [|congruence]. rewrite <- D2. cbn [s_dirs set_dirs]. rewrite Ds. reflexivity.
Qed.

Lemma eff_dinv : forall E s ty id data r out s' l h, lenN (mkHev ty id data out l :: h) < W64 -> is32 id -> bytes_ok data ->
  inv h s -> dinv h s -> dispatch_t E ty id data s = (r, out, s') -> eff E s ty id data out s' l -> dinv (mkHev ty id data out l :: h) s'.
Proof.
  intros E s ty id data r out s' l h Hlen Hid Hbd I [J1 J2 J3] D F. set (ev := mkHev ty id data out l).
  rewrite lenN_cons in Hlen. destruct (next_val (s_next s) (i_next h s I)) as (V1 & V2); [pose proof (i_le h s I); lia|].
  assert (OKD : forall e, In e (s_dirs s) -> ok_id (d_id e) /\ val (d_id e) < val (s_next s)).
  { intros e He. apply (i_ids h s I). apply in_or_app. right. apply in_map. assumption. }
  assert (ND : NoDup (map d_id (s_dirs s))) by (eapply nd_app_r; apply (i_nd h s I)).
  (* what becomes of an entry *)
  assert (KEEP : forall e, In e (s_dirs s) -> ~ closes ev (HandleIdEncode (d_id e)) ->
    exists e', In e' (s_dirs s') /\ dkey e' = dkey e /\ (~ lists ev (HandleIdEncode (d_id e)) -> e' = e)).
  { intros e He NC. destruct (OKD e He) as ((O1 & O2) & _).
    destruct F as [F Dk N Q O Cl Sd | dir fl mode st a Hty El Ha Cp F Dk N O | dir fl mode st a y Hty El Ha F Dk N O
      | dir a Hty El Ha Cp F Dk N O | dir a y Hty El Ha F Dk N O | hb b x e0 a Hty Sb Ed L8 Fd Ff El F Dk N O | hb b x e0 a Hty Sb Ed L8 Fd El F Dk N O];
      try (rewrite Dk; exists e; auto; fail).
    - destruct Sd as [Sd|(Hty & hb & b & x & Sb & Ed & L8 & Sd)]; [rewrite Sd; exists e; auto|]. rewrite Sd.
      destruct (seteof_fwd (decode_t hb) _ _ He) as (e' & He' & Kd & Ke). exists e'. split; [assumption|]. split; [assumption|]. intros NL. apply Ke.
      intros Q2. apply NL. split; [exact Hty|]. split; [change (q_ty ev) with ty; rewrite Hty; cbn; tauto|]. exists b, x. split; [|exact Ed].
      rewrite Q2. rewrite decode_encode; [assumption| |assumption]. eapply str_bytes; [exact Sb|]. rewrite Ed in Hbd. exact Hbd.
    - rewrite Dk. exists e. split; [right; assumption|]. auto.
    - rewrite Dk. destruct (findd_split _ _ _ Fd) as (u & v & Eq & R & Ei). exists e. split; [|auto]. rewrite R. rewrite Eq in He.
      apply in_or_app. apply in_app_or in He. destruct He as [He|[He|He] ]; auto. subst e0. exfalso. apply NC. split; [exact Hty|].
      split; [change (q_ty ev) with ty; rewrite Hty; cbn; tauto|]. exists b, x. split; [|exact Ed].
      rewrite Ei. rewrite decode_encode; [assumption| |assumption]. eapply str_bytes; [exact Sb|]. rewrite Ed in Hbd. exact Hbd. }
  (* what is new *)
  assert (NEW : forall path hb d, opened_at path ev hb d ->
    exists e, In e (s_dirs s') /\ HandleIdEncode (d_id e) = hb /\ d_dir e = d /\ d_name e = path /\ d_eof e = false).
  { intros path hb d (Ht & (m & R & M) & Hd & a0 & Hin & Hr). cbn in R, M. change (q_ty ev) with ty in Ht. change (q_calls ev) with l in Hin.
    destruct F as [F Dk N Q O Cl Sd | dir fl mode st a Hty El Ha Cp F Dk N O | dir fl mode st a y Hty El Ha F Dk N O
      | dir a Hty El Ha Cp F Dk N O | dir a y Hty El Ha F Dk N O | hb' b x e0 a Hty Sb Ed L8 Fd Ff El F Dk N O | hb' b x e0 a Hty Sb Ed L8 Fd El F Dk N O];
      try (exfalso; exact (O _ _ R M)); try congruence.
    destruct O as [O|O]; [congruence|]. rewrite O in R.
    assert (m = CreatePacket FTP_HANDLE id (HandleIdEncode (s_next s))) by congruence. subst m.
    pose proof (handle_fun _ _ _ _ _ M (handle_ok id (s_next s) Hid)) as ->. rewrite El in Hin. destruct Hin as [Hin|[] ].
    rewrite Dk. eexists. split; [left; reflexivity|]. cbn [d_id d_dir d_name d_eof]. assert (a0 = a /\ path = dir) as (-> & ->) by (split; congruence). auto. }
  (* where entries come from *)
  assert (BACK : forall e', In e' (s_dirs s') -> d_id e' = s_next s \/ exists e, In e (s_dirs s) /\ dkey e' = dkey e /\ (d_eof e = true -> d_eof e' = true)).
  { intros e' He'.
    destruct F as [F Dk N Q O Cl Sd | dir fl mode st a Hty El Ha Cp F Dk N O | dir fl mode st a y Hty El Ha F Dk N O
      | dir a Hty El Ha Cp F Dk N O | dir a y Hty El Ha F Dk N O | hb' b x e0 a Hty Sb Ed L8 Fd Ff El F Dk N O | hb' b x e0 a Hty Sb Ed L8 Fd El F Dk N O];
      try (rewrite Dk in He'; right; exists e'; auto; fail).
    - destruct Sd as [Sd|(Hty & hb & b & x & Sb & Ed & L8 & Sd)]; rewrite Sd in He'; [right; exists e'; auto|].
      right. destruct (seteof_in _ _ _ He') as (e & He & Kd & Ke & _). exists e. auto.
    - rewrite Dk in He'. destruct He' as [<-|He']; [left; reflexivity|]. right. exists e'. auto.
    - rewrite Dk in He'. destruct (findd_split _ _ _ Fd) as (u & v & Eq & R & Ei). rewrite R in He'. right. exists e'. rewrite Eq. split; [|auto].
      apply in_or_app. apply in_app_or in He'. destruct He'; [left|right; right]; assumption. }
  assert (NX : val (s_next s) <= val (s_next s')).
  { destruct F as [F Dk N Q O Cl Sd | dir fl mode st a Hty El Ha Cp F Dk N O | dir fl mode st a y Hty El Ha F Dk N O
      | dir a Hty El Ha Cp F Dk N O | dir a y Hty El Ha F Dk N O | hb' b x e0 a Hty Sb Ed L8 Fd Ff El F Dk N O | hb' b x e0 a Hty Sb Ed L8 Fd El F Dk N O];
      rewrite N; lia. }
  constructor.
  - intros path hb d H. apply live_cons in H. destruct H as [H|(H & NC)].
    + destruct (NEW _ _ _ H) as (e & A & B & C & G & _). exists e. auto.
    + destruct (J1 _ _ _ H) as (e & He & <- & <- & <-). destruct (KEEP e He NC) as (e' & He' & Kd & _). unfold dkey in Kd.
      exists e'. split; [assumption|]. split; [congruence|]. split; congruence.
  - intros path hb d H. inversion H as [ev' h' Ho|ev' h' Hu NC NL]; subst.
    + exact (NEW _ _ _ Ho).
    + destruct (J2 _ _ _ Hu) as (e & He & <- & <- & <- & Ef). destruct (KEEP e He NC) as (e' & He' & Kd & Ke). rewrite (Ke NL) in *.
      exists e. auto.
  - intros ev' hb m ls [<-|Hin] Li R M.
    + destruct Li as (Ty & A). pose proof (about_str ev hb A Hbd) as (x & P & Bh). change (q_ty ev) with ty in Ty. change (q_data ev) with data in P.
      assert (D' : RecvReadDir_t E id data s = (r, out, s')) by (rewrite Ty in D; exact D).
      destruct (names_eof _ _ _ _ _ _ _ _ _ _ _ D' P R Hid M) as (L8 & (e & Fe) & Sd). apply findd_in in Fe. destruct Fe as (He & Ei).
      destruct (OKD e He) as (Ok & Vl). split.
      * exists (d_id e). split; [rewrite Ei; symmetry; apply decode_encode; assumption|]. split; [assumption|lia].
      * intros e2 He2 K. rewrite Sd in He2. eapply seteof_set; [exact ND|exact He2|].
        destruct (seteof_in _ _ _ He2) as (e3 & He3 & Kd & _). destruct (OKD e3 He3) as ((O1 & O2) & _). unfold dkey in Kd.
        rewrite <- K. assert (Q : d_id e2 = d_id e3) by congruence. rewrite Q. symmetry. apply encode_decode; assumption.
    + destruct (J3 _ _ _ _ Hin Li R M) as ((i & -> & Oi & Vi) & K). split; [exists i; split; [reflexivity|]; split; [assumption|lia]|].
      intros e' He' Qe. destruct (BACK e' He') as [Bk|(e & He & Kd & Ke)].
      * exfalso. apply encode_inj in Qe; [|rewrite Bk; apply (i_next h s I)|assumption]. rewrite Bk in Qe. subst i. lia.
      * apply Ke. apply K; [assumption|]. unfold dkey in Kd. congruence.
Qed.

Lemma hst_dinv : forall E p h s, hst E p h s -> lenN h < W64 -> dinv h s.
Proof.
  intros E p h s H. induction H as [|h s ty id data r out s' l H0 H IH Hb Hl Hi Hp D F L A]; intros Hn.
  - constructor; [intros path hb d H|intros path hb d H|intros ev hb m l [] ]; inversion H.
  - pose proof Hn as Hn'. rewrite lenN_cons in Hn. eapply eff_dinv; try eassumption.
    + eapply hst_inv; [exact H|lia].
    + apply IH. lia.
Qed.

(* ---- READDIR -------------------------------------------------------------------- *)

Lemma names_sz_cons : forall f g a l, names_sz ((f, g, a) :: l) = lenN f + lenN g + 8 + AttributesSz a + names_sz l.
Proof. intros. cbn [names_sz fold_right]. fold (names_sz l). lia. Qed.
Lemma put_names_some : forall l room, names_sz l <= room -> put_names l room <> None.
Proof.
  induction l as [|((f, g), a) l IH]; intros room H; [discriminate|]. rewrite names_sz_cons in H. cbn [put_names].
  destruct (N.ltb_spec room (lenN f + lenN g + 8)) as [L1|_]; [lia|]. cbv zeta.
  destruct (N.ltb_spec (room - (lenN f + lenN g + 8)) (AttributesSz a)) as [L2|_]; [lia|].
  destruct (put_names l _) eqn:Q; [discriminate|]. exfalso. revert Q. apply IH. lia.
Qed.
Lemma names_sz_app : forall a b, names_sz (a ++ b) = names_sz a + names_sz b.
Proof. induction a as [|((f, g), x) a IH]; intros b; [reflexivity|]. cbn [app]. rewrite !names_sz_cons, IH. lia. Qed.
Lemma names_sz_rev : forall l, names_sz (rev l) = names_sz l.
Proof. induction l as [|((f, g), x) a IH]; [reflexivity|]. cbn [rev]. rewrite names_sz_app, IH, !names_sz_cons. change (names_sz []) with 0. lia. Qed.
Lemma names_sz_le : forall l, Forall (fun e => AttributesSz (snd e) <= 32) l -> 13 + names_sz l <= listing_size l.
Proof.
  induction 1 as [|((f, g), x) l H _ IH]; [cbn; lia|]. rewrite names_sz_cons. unfold listing_size in *. cbn [fold_right fst snd] in *. lia.
Qed.

Lemma readdir_sz : forall E, stat_env E -> forall dn names acc s l s', readdir_loop E dn names acc s = (l, s') ->
  Forall (fun e => AttributesSz (snd e) <= 32) acc -> Forall (fun e => AttributesSz (snd e) <= 32) l.
Proof.
  intros E Se dn. induction names as [|n t IH]; intros acc s l s' H Ha; cbn [readdir_loop] in H.
  - assert (l = acc) as -> by congruence. assumption.
  - destruct (negb _); [assert (l = acc) as -> by congruence; assumption|].
    destruct (readdir_path _ _ _) as [p|]; [|assert (l = acc) as -> by congruence; assumption]. cbv zeta in H.
    destruct (longname _ _ _) as [ln|]; [|assert (l = acc) as -> by congruence; assumption].
    eapply IH; [exact H|]. constructor; [|assumption]. cbn [snd]. destruct (_ =? 0)%Z.
    + destruct (stat_wire _ (Se (s_log (ask (FStat p true) s)))) as (_ & B & C). rewrite <- B, C. lia.
    + vm_compute. discriminate.
Qed.

Definition eof_msg (id : N) : bytes := CreateStatus FTP_EOF id (ascii "No More Files In Directory") English.

Lemma readdir_done : forall E id data s r out s' hb x e (l : list (fscall * ans)),
  RecvReadDir_t E id data s = (r, out, s') -> p_str data = Some (hb, x) -> lenN hb = 8 -> FindDir (decode_t hb) (s_dirs s) = Some e ->
  stat_env E -> is32 id -> s_log s' = rev (map fst l) ++ s_log s -> l = answered E (s_log s) (map fst l) ->
  (d_eof e = true -> l = [] /\ (out = None \/ out = Some (eof_msg id))) /\
  (d_eof e = false -> exists a es left new extra,
     l = (FReaddir (d_dir e), a) :: new ++ extra /\ r_names a = map entry_key es ++ left /\ (exists lg, a = fs E lg) /\
     Forall2 (made E (s_paths s) (d_name e)) es new /\
     (roomy_dir E -> (forall n, In n (r_names a) -> readdir_path (s_paths s) (d_name e) n <> None) -> left = [] /\ extra = []) /\
     (es = [] -> (out = None \/ out = Some (eof_msg id)) /\ (roomy E -> out <> None)) /\
     (es <> [] -> (forall m, out = Some m -> name_msg id (rev es) m) /\ (roomy E -> listing_size es < W32 -> out <> None))).
Proof.
  intros E id data s r out s' hb x e l D P L8 F Se Hi Lg An. unfold RecvReadDir_t in D. rewrite P in D.
  destruct (N.ltb_spec MAX_HANDLE (lenN hb)) as [K|_]; [unfold MAX_HANDLE in K; lia|].
  rewrite L8 in D. change (negb (8 =? HANDLE_ID_SZ)) with false in D. cbv iota zeta in D. rewrite F in D. split; intros Ef; rewrite Ef in D.
  - assert (s' = s /\ (out = None \/ out = Some (eof_msg id))) as (-> & O).
    { destruct (mem E (s_log s) 1); apply triple_inv in D; destruct D as (_ & <- & <-); auto. }
    split; [eapply log_same; eassumption|assumption].
  - set (s1 := ask (FReaddir (d_dir e)) s) in *. set (a := fs E (s_log s1)) in *.
    destruct (readdir_loop E (d_name e) (r_names a) [] s1) as (L, s2) eqn:Lp.
    destruct (loop_spec _ _ _ _ _ _ _ Lp) as (es & left & new & extra & Q1 & Q2 & Q3 & Q4 & Q5 & Q6).
    assert (Ok : Forall (fun e => okat (snd e)) L) by (eapply readdir_okat; [exact Se|exact Lp|constructor]).
    assert (Sz : Forall (fun e => AttributesSz (snd e) <= 32) L) by (eapply readdir_sz; [exact Se|exact Lp|constructor]).
    rewrite app_nil_r in Q1.
    assert (LgS : s_log s' = s_log s2 /\ (es = [] -> (out = None \/ out = Some (eof_msg id)) /\ (roomy E -> out <> None)) /\
     (es <> [] -> (forall m, out = Some m -> name_msg id (rev es) m) /\ (roomy E -> listing_size es < W32 -> out <> None))).
    { destruct L as [|y L].
      - assert (es = []) by (destruct es as [|z es]; [reflexivity|]; cbn [rev] in Q1; symmetry in Q1; apply app_eq_nil in Q1; destruct Q1; discriminate).
        destruct (mem E (s_log s2) 1) eqn:Me; apply triple_inv in D; destruct D as (_ & <- & <-); (split; [reflexivity|]; split; [|intros; contradiction]); intros _; (split; [auto|]); intros R; try discriminate. rewrite R in Me. discriminate.
      - assert (es <> []) by (intros ->; discriminate Q1).
        set (LL := y :: L) in *. clearbody LL. subst LL. set (s3 := set_dirs _ s2) in *. assert (s_log s3 = s_log s2) by reflexivity.
        destruct (mem E (s_log s3) 1) eqn:Me; cbn [negb] in D.
        2: { apply triple_inv in D. destruct D as (_ & <- & <-). split; [assumption|]. split; [intros; contradiction|]. intros _. split; [discriminate|].
             intros R. rewrite R in Me. discriminate. }
        assert (LE : 13 + names_sz (rev es) <= listing_size es).
        { rewrite names_sz_rev. apply names_sz_le. apply Forall_rev in Sz. rewrite rev_involutive in Sz. exact Sz. }
        destruct (w32 (13 + names_sz (rev es)) <? 13) eqn:W.
        { apply triple_inv in D. destruct D as (_ & <- & <-). split; [assumption|]. split; [intros; contradiction|]. intros _. split; [discriminate|].
          intros _ Lt. exfalso. apply N.ltb_lt in W. rewrite w32_small in W by (unfold is32; lia). lia. }
        destruct (put_names (rev es) _) as [b|] eqn:Pn.
        + apply triple_inv in D. destruct D as (_ & <- & <-). split; [assumption|]. split; [intros; contradiction|]. intros _. split; [|discriminate].
          intros m Qm. assert (m = SetHeader id FTP_NAME (w32 (13 + names_sz (rev es)) - 9) ++ c32toa (lenN (rev es)) ++ b) as -> by congruence.
          destruct (wrap_out (rev es) W ltac:(rewrite Pn; discriminate) Ok) as (W1 & W2). apply name_good; try assumption. rewrite W1. assumption.
        + apply triple_inv in D. destruct D as (_ & <- & <-). split; [assumption|]. split; [intros; contradiction|]. intros _. split; [discriminate|].
          intros _ Lt. exfalso. rewrite w32_small in Pn by (unfold is32; lia). revert Pn. apply put_names_some. lia. }
    destruct LgS as (Lg2 & O1 & O2).
    exists a, es, left, (answered E (s_log s1) new), (answered E (rev new ++ s_log s1) extra).
    assert (Ql : l = answered E (s_log s) (FReaddir (d_dir e) :: new ++ extra)).
    { eapply log_is; [|exact Lg|exact An]. rewrite Lg2, Q3. cbn [rev]. rewrite <- app_assoc. reflexivity. }
    split; [rewrite Ql; cbn [answered]; rewrite answered_app; reflexivity|]. split; [exact Q2|]. split; [exists (s_log s1); reflexivity|].
    split; [exact Q4|]. split.
    + intros R K. destruct (Q6 R K) as (-> & ->). split; reflexivity.
    + split; assumption.
Qed.

(* ---- the directory behind a handle -------------------------------------------------- *)

Lemma nd_key : forall (l : list dent) a b, NoDup (map d_id l) -> In a l -> In b l -> d_id a = d_id b -> a = b.
Proof.
  induction l as [|x l IH]; intros a b Nd Ha Hb Q; [destruct Ha|]. cbn [map] in Nd. inversion Nd as [|? ? N1 N2]; subst.
  destruct Ha as [->|Ha]; destruct Hb as [->|Hb].
  - reflexivity.
  - exfalso. apply N1. rewrite Q. apply in_map. assumption.
  - exfalso. apply N1. rewrite <- Q. apply in_map. assumption.
  - apply IH; assumption.
Qed.

Lemma find_entry : forall h s e, inv h s -> In e (s_dirs s) ->
  FindDir (decode_t (HandleIdEncode (d_id e))) (s_dirs s) = Some e /\ lenN (HandleIdEncode (d_id e)) = 8.
Proof.
  intros h s e I He.
  assert (O : ok_id (d_id e)) by (apply (i_ids h s I); apply in_or_app; right; apply in_map; assumption). destruct O as (O1 & O2).
  assert (ND : NoDup (map d_id (s_dirs s))) by (eapply nd_app_r; apply (i_nd h s I)).
  rewrite encode_decode by assumption. split; [|apply encode_len].
  destruct (findd_some (d_id e) _ e He eq_refl) as (e' & F). rewrite F. f_equal. destruct (findd_in _ _ _ F) as (He' & Q).
  eapply nd_key; eassumption.
Qed.

(* ---- all paths of a session ----------------------------------------------------------- *)

Lemma up_inside : forall root cs n, inside root cs -> entry_name n ->
  inside root (walk1 cs n) \/ walk1 cs n = removelast root.
Proof.
  intros root cs n (r & ->) [P|[-> | ->] ].
  - left. rewrite walk1_down by assumption. exists (r ++ [n]). rewrite app_assoc. reflexivity.
  - left. exists r. reflexivity.
  - change (walk1 (root ++ r) dotdot) with (removelast (root ++ r)). destruct r as [|x r]; [right; rewrite app_nil_r; reflexivity|].
    left. rewrite removelast_app by discriminate. eexists. reflexivity.
Qed.

Definition call_in (root : list bytes) (ty : N) (c : fscall) : Prop :=
  forall x, In x (names c) -> names_inside root x \/ (ty = 12 /\ c = FStat x true /\ x = path_of (removelast root)).

Lemma hst_inside : forall E p h s, hst E p h s -> dir_env E -> forall root, Forall plain root -> sp_confine p = Some (path_of root) ->
  forall ev, In ev h -> forall c a, In (c, a) (q_calls ev) -> call_in root (q_ty ev) c.
Proof.
  intros E p h s H De root Pr Hc. induction H as [|h s ty id data r out s' l H0 H IH Hb Hl Hi Hp D F L A]; [intros ev []|].
  intros ev [<-|Hin]; [|apply IH; assumption]. cbn [q_ty q_calls]. intros c a Hca. clear IH F.
  pose proof (hst_confine _ _ _ _ H) as C1. pose proof (hst_placed _ _ _ _ H) as Pl. rewrite Forall_forall in Pl.
  destruct (N.eq_dec ty 16) as [->|T].
  - change (dispatch_t E 16 id data s) with (RecvRealPathMsg_t E id data s) in D. apply realpath_paths in D. destruct D as ((new & Q & Nw) & _).
    pose proof (log_is _ _ _ _ _ Q L A) as K. rewrite K in Hca. destruct Nw as [-> | ->]; [destruct Hca|]. destruct Hca as [Hca|[] ].
    assert (c = FGetcwd) as -> by congruence. intros x [].
  - destruct (safe_dispatch E id data s r out s' (names_inside root) (fun y => call_in root ty (fst y))) with (ty := ty) as (G & _); try assumption.
    + intros path dir C. destruct (clean_place _ _ _ _ Hp C) as (cs & P & -> & Al). exists cs. split; [assumption|]. split; [reflexivity|].
      apply Al; [assumption|]. rewrite C1. exact Hc.
    + intros c0 y K x Hx. left. rewrite Forall_forall in K. apply K. exact Hx.
    + intros T2 e n q y log He Hn Rq x Hx. destruct (Pl e He) as (cs & Pcs & Nm & In1). rewrite Nm in Rq.
      assert (En : entry_name n) by (pose proof (De log) as K; rewrite Forall_forall in K; apply K; assumption).
      destruct (readdir_spec _ _ _ _ Hp Pcs En Rq) as (-> & P1). cbn [names In fst] in Hx. destruct Hx as [<-|[] ].
      destruct (up_inside root cs n (In1 root Pr Hc) En) as [U|U].
      * left. exists (walk1 cs n). auto.
      * right. split; [exact T2|]. rewrite U. split; reflexivity.
    + pose proof (logs_all _ _ _ _ _ G L A) as K. rewrite Forall_forall in K. exact (K _ Hca).
Qed.
