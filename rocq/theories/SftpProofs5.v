(* SftpProofs5.v - proofs about the SFTP server: handles. *)
From Verif Require Import Base WireModel WireSpec WireProofs PathModel PathSpec PathProofs NegoSpec ReqSpec ReqProofs ReqProofs3.
From Verif Require Import SftpModel SftpProofs SftpSpec SftpProofs2 SftpProofs3 SftpProofs4.
From Coq Require Import List NArith ZArith Bool Lia String.
Import ListNotations.
Open Scope N_scope.

Definition val (h : hid) : N := fst h + snd h * W32.
Definition ok_id (i : hid) : Prop := is32 (fst i) /\ is32 (snd i).

Lemma next_val : forall n, ok_id n -> val n + 1 < W64 -> val (AddAssign64 n 1) = val n + 1 /\ ok_id (AddAssign64 n 1).
Proof.
  intros (a, b) (Ha & Hb) H. unfold val, ok_id, AddAssign64, W64, is32 in *. cbn [fst snd] in *.
  destruct (N.lt_ge_cases (a + 1) W32) as [L|L].
  - rewrite add32_small by assumption. destruct (N.ltb_spec (a + 1) a); [lia|]. split; [lia|]. split; assumption.
  - assert (a + 1 = W32) by lia.
    assert (Z : add32 a 1 = 0) by (unfold add32, w32; rewrite H0; reflexivity).
    rewrite Z. destruct (N.ltb_spec 0 a); [|unfold W32 in *; lia].
    assert (b + 1 < W32) by (unfold W32 in *; lia). rewrite add32_small by assumption.
    split; [unfold W32 in *; lia|]. split; [unfold W32; lia|assumption].
Qed.

Lemma val_inj : forall a b, ok_id a -> ok_id b -> val a = val b -> a = b.
Proof.
  intros (a, b) (c, d) (H1 & H2) (H3 & H4) H. unfold val, is32 in *. cbn [fst snd] in *.
  unfold W32 in *. f_equal; lia.
Qed.
Lemma encode_inj : forall a b, ok_id a -> ok_id b -> HandleIdEncode a = HandleIdEncode b -> a = b.
Proof.
  intros a b (A1 & A2) (B1 & B2) H. rewrite <- (encode_decode a A1 A2), <- (encode_decode b B1 B2), H. reflexivity.
Qed.

Record inv (h : list hev) (s : srv) : Prop := {
  i_next : ok_id (s_next s);
  i_le : val (s_next s) <= lenN h;
  i_ids : forall i, In i (map f_id (s_files s) ++ map d_id (s_dirs s)) -> ok_id i /\ val i < val (s_next s);
  i_nd : NoDup (map f_id (s_files s) ++ map d_id (s_dirs s));
  i_live : forall hb fd, live opened hb fd h <-> exists e, In e (s_files s) /\ HandleIdEncode (f_id e) = hb /\ f_fd e = fd;
  i_given : forall ev hb m, In ev h -> q_reply ev = Some m -> handle_msg (q_id ev) hb m ->
    exists i, hb = HandleIdEncode i /\ ok_id i /\ val i < val (s_next s);
  i_dlive : forall hb d, live opened_dir hb d h -> exists e, In e (s_dirs s) /\ HandleIdEncode (d_id e) = hb /\ d_dir e = d;
  i_dback : (forall ev path a, In ev h -> In (FOpendir path, a) (q_calls ev) -> q_reply ev <> None) ->
    forall e, In e (s_dirs s) -> live opened_dir (HandleIdEncode (d_id e)) (d_dir e) h }.

Lemma live_cons : forall op hb fd ev h, live op hb fd (ev :: h) <-> op ev hb fd \/ (live op hb fd h /\ ~ closes ev hb).
Proof.
  intros. split.
  - intros H. inversion H; subst; auto.
  - intros [H|(H & K)]; [apply L_open|apply L_keep]; assumption.
Qed.

Lemma noh_opened : forall ty id data out l hb fd, nohandle id out -> ~ opened (mkHev ty id data out l) hb fd.
Proof. intros ty id data out l hb fd H (_ & (m & R & M) & _). cbn in *. exact (H _ _ R M). Qed.
Lemma noh_opened_dir : forall ty id data out l hb fd, nohandle id out -> ~ opened_dir (mkHev ty id data out l) hb fd.
Proof. intros ty id data out l hb fd H (_ & (m & R & M) & _). cbn in *. exact (H _ _ R M). Qed.
Lemma closes_ty : forall ev hb, closes ev hb -> q_ty ev = 4.
Proof. intros ev hb (H & _). exact H. Qed.

Lemma dkey_in : forall l l', map dkey l' = map dkey l -> forall e, In e l -> exists e', In e' l' /\ d_id e' = d_id e /\ d_dir e' = d_dir e.
Proof.
  intros l l' H e He. assert (K : In (dkey e) (map dkey l')) by (rewrite H; apply in_map; assumption).
  apply in_map_iff in K. destruct K as (e' & K & Ki). exists e'. unfold dkey in K. split; [assumption|]. split; congruence.
Qed.

Lemma eff_inv : forall E s ty id data out s' l h, lenN (mkHev ty id data out l :: h) < W64 -> is32 id -> bytes_ok data ->
  inv h s -> eff E s ty id data out s' l -> inv (mkHev ty id data out l :: h) s'.
Proof.
  intros E s ty id data out s' l h Hlen Hid Hbd [N1 N2 N3 N4 N5 N6 N7 N8] F.
  rewrite lenN_cons in Hlen.
  destruct (next_val (s_next s) N1) as (V1 & V2); [lia|].
  assert (OKF : forall e, In e (s_files s) -> ok_id (f_id e) /\ val (f_id e) < val (s_next s)).
  { intros e He. apply N3. apply in_or_app. left. apply in_map. assumption. }
  assert (OKD : forall e, In e (s_dirs s) -> ok_id (d_id e) /\ val (d_id e) < val (s_next s)).
  { intros e He. apply N3. apply in_or_app. right. apply in_map. assumption. }
  assert (NFD : forall e e', In e (s_files s) -> In e' (s_dirs s) -> f_id e <> d_id e').
  { intros e e' He He' K. apply in_split in He. destruct He as (u & v & Eq). rewrite Eq, map_app in N4. cbn [map] in N4.
    rewrite <- app_assoc in N4. cbn [app] in N4. apply NoDup_remove_2 in N4. apply N4. rewrite K. apply in_or_app. right.
    apply in_or_app. right. apply in_map. assumption. }
  set (ev := mkHev ty id data out l).
  assert (GV : forall n', val (s_next s) <= val n' -> (forall m hb, out = Some m -> handle_msg id hb m -> exists i, hb = HandleIdEncode i /\ ok_id i /\ val i < val n') ->
     forall ev' hb m, In ev' (ev :: h) -> q_reply ev' = Some m -> handle_msg (q_id ev') hb m ->
       exists i, hb = HandleIdEncode i /\ ok_id i /\ val i < val n').
  { intros n' Hn Ho ev' hb m [<-|Hi] R M; [eapply Ho; eassumption|].
    destruct (N6 _ _ _ Hi R M) as (i & A & B & C). exists i. split; [assumption|]. split; [assumption|lia]. }
  assert (NH : forall n', nohandle id out -> forall m hb, out = Some m -> handle_msg id hb m -> exists i, hb = HandleIdEncode i /\ ok_id i /\ val i < val n').
  { intros n' H m hb Ho M. exfalso. exact (H _ _ Ho M). }
  assert (SUB : (forall ev' path a, In ev' (ev :: h) -> In (FOpendir path, a) (q_calls ev') -> q_reply ev' <> None) ->
     forall ev' path a, In ev' h -> In (FOpendir path, a) (q_calls ev') -> q_reply ev' <> None).
  { intros H ev' path a Hi. apply (H ev' path a). right. assumption. }
  destruct F as [F D N Q O Cl _ | dir fl mode st a Hty El Ha Cp F D N O | dir fl mode st a y Hty El Ha F D N O
    | dir a Hty El Ha Cp F D N O | dir a y Hty El Ha F D N O | hb b x e a Hty Sb Ed L8 Fd Ff El F D N O | hb b x e a Hty Sb Ed L8 Fd El F D N O].
  - destruct (key_dirs _ _ D) as (K1 & K2 & K3 & K4).
    assert (NC : forall e, In e (s_files s) -> ~ closes ev (HandleIdEncode (f_id e))).
    { intros e He (Ct & _ & b & x & Sb & Ed). destruct (OKF e He) as ((O1 & O2) & _).
      destruct (Cl Ct _ _ _ Sb Ed (encode_len _)) as (_ & Ff). rewrite encode_decode in Ff by assumption.
      exact (ffind_none _ _ Ff e He eq_refl). }
    assert (NC2 : forall e, In e (s_dirs s) -> ~ closes ev (HandleIdEncode (d_id e))).
    { intros e He (Ct & _ & b & x & Sb & Ed). destruct (OKD e He) as ((O1 & O2) & _).
      destruct (Cl Ct _ _ _ Sb Ed (encode_len _)) as (Ff & _). rewrite encode_decode in Ff by assumption.
      exact (findd_none _ _ Ff e He eq_refl). }
    constructor.
    + rewrite N. assumption.
    + rewrite N, lenN_cons. lia.
    + rewrite F, K2, N. assumption.
    + rewrite F, K2. assumption.
    + intros hb fd. rewrite live_cons, N5, F. split.
      * intros [H|(H & _)]; [exfalso; exact (noh_opened _ _ _ _ _ _ _ O H)|assumption].
      * intros (e & He & <- & <-). right. split; [exists e; auto|apply NC; assumption].
    + rewrite N. apply GV; [lia|apply NH; assumption].
    + intros hb d H. apply live_cons in H. destruct H as [H|(H & _)]; [exfalso; exact (noh_opened_dir _ _ _ _ _ _ _ O H)|].
      destruct (N7 _ _ H) as (e & He & A & B). destruct (dkey_in _ _ D e He) as (e' & He' & A' & B').
      exists e'. rewrite A', B'. auto.
    + intros H e He. destruct (dkey_in _ _ (eq_sym D) e He) as (e' & He' & <- & <-).
      apply L_keep; [apply N8; [exact (SUB H)|assumption]|apply NC2; assumption].
  - assert (HM : handle_msg id (HandleIdEncode (s_next s)) (CreatePacket FTP_HANDLE id (HandleIdEncode (s_next s)))) by (apply handle_ok; assumption).
    assert (NC : forall hb, ~ closes ev hb) by (intros hb C; apply closes_ty in C; cbn in C; congruence).
    constructor.
    + rewrite N. assumption.
    + rewrite N, V1, lenN_cons. lia.
    + rewrite F, D, N, V1. cbn [map app]. intros i [<-|Hi]; [cbn [f_id]; split; [assumption|lia]|].
      destruct (N3 i Hi). split; [assumption|lia].
    + rewrite F, D. cbn [map app f_id]. constructor; [|assumption]. intros Hi. apply N3 in Hi. lia.
    + intros hb fd. rewrite live_cons, N5, F. split.
      * intros [(_ & (m & R & M) & Hfd & path & fl' & mode' & a' & Hin & Hr)|((e & He & A & B) & _)].
        -- cbn in R, M. rewrite O in R. assert (m = CreatePacket FTP_HANDLE id (HandleIdEncode (s_next s))) by congruence. subst m.
           pose proof (handle_fun _ _ _ _ _ M HM) as ->. change (q_calls ev) with l in Hin. rewrite El in Hin.
           destruct Hin as [Hin|[Hin|[]]]; [discriminate|]. assert (a' = a) by congruence. subst a'.
           eexists. split; [left; reflexivity|]. cbn [f_id f_fd]. auto.
        -- exists e. split; [right; assumption|]. auto.
      * intros (e & [<-|He] & <- & <-).
        -- left. cbn [f_id f_fd]. split; [exact Hty|]. split; [eexists; split; [exact O|exact HM]|]. split; [exact Ha|].
           exists dir, fl, mode, a. change (q_calls ev) with l. rewrite El. split; [right; left; reflexivity|reflexivity].
        -- right. split; [exists e; auto|apply NC].
    + rewrite N. apply GV; [lia|]. intros m hb R M. rewrite O in R. assert (m = CreatePacket FTP_HANDLE id (HandleIdEncode (s_next s))) by congruence. subst m.
      rewrite (handle_fun _ _ _ _ _ M HM). exists (s_next s). split; [reflexivity|]. split; [assumption|lia].
    + intros hb d H. apply live_cons in H. rewrite D. destruct H as [(Ht & _)|(H & _)]; [cbn in Ht; lia|auto].
    + intros H e He. rewrite D in He. apply L_keep; [apply N8; [exact (SUB H)|assumption]|apply NC].
  - assert (NC : forall hb, ~ closes ev hb) by (intros hb C; apply closes_ty in C; cbn in C; congruence).
    constructor.
    + rewrite N. assumption.
    + rewrite N, V1, lenN_cons. lia.
    + rewrite F, D, N, V1. intros i Hi. destruct (N3 i Hi). split; [assumption|lia].
    + rewrite F, D. assumption.
    + intros hb fd. rewrite live_cons, N5, F. split.
      * intros [H|(H & _)]; [exfalso; exact (noh_opened _ _ _ _ _ _ _ O H)|assumption].
      * intros H. right. split; [assumption|apply NC].
    + rewrite N. apply GV; [lia|apply NH; assumption].
    + intros hb d H. apply live_cons in H. rewrite D. destruct H as [H|(H & _)]; [exfalso; exact (noh_opened_dir _ _ _ _ _ _ _ O H)|auto].
    + intros H e He. rewrite D in He. apply L_keep; [apply N8; [exact (SUB H)|assumption]|apply NC].
  - assert (HM : handle_msg id (HandleIdEncode (s_next s)) (CreatePacket FTP_HANDLE id (HandleIdEncode (s_next s)))) by (apply handle_ok; assumption).
    assert (NC : forall hb, ~ closes ev hb) by (intros hb C; apply closes_ty in C; cbn in C; congruence).
    constructor.
    + rewrite N. assumption.
    + rewrite N, V1, lenN_cons. lia.
    + rewrite F, D, N, V1. cbn [map]. intros i Hi. apply in_app_or in Hi. destruct Hi as [Hi|[<-|Hi]].
      * destruct (N3 i (in_or_app _ _ _ (or_introl Hi))). split; [assumption|lia].
      * cbn [d_id]. split; [assumption|lia].
      * destruct (N3 i (in_or_app _ _ _ (or_intror Hi))). split; [assumption|lia].
    + rewrite F, D. cbn [map d_id]. apply NoDup_Add with (a := s_next s) (l := map f_id (s_files s) ++ map d_id (s_dirs s)).
      * apply Add_app.
      * split; [assumption|]. intros Hi. apply N3 in Hi. lia.
    + intros hb fd. rewrite live_cons, N5, F. split.
      * intros [(Ht & _)|(H & _)]; [cbn in Ht; lia|assumption].
      * intros H. right. split; [assumption|apply NC].
    + rewrite N. apply GV; [lia|]. intros m hb R M. destruct O as [O|O]; [congruence|]. rewrite O in R.
      assert (m = CreatePacket FTP_HANDLE id (HandleIdEncode (s_next s))) by congruence. subst m.
      rewrite (handle_fun _ _ _ _ _ M HM). exists (s_next s). split; [reflexivity|]. split; [assumption|lia].
    + intros hb d H. apply live_cons in H. rewrite D.
      destruct H as [(_ & (m & R & M) & Hfd & path & a' & Hin & Hr)|(H & _)].
      * cbn in R, M. destruct O as [O|O]; [congruence|]. rewrite O in R.
        assert (m = CreatePacket FTP_HANDLE id (HandleIdEncode (s_next s))) by congruence. subst m.
        pose proof (handle_fun _ _ _ _ _ M HM) as ->. change (q_calls ev) with l in Hin. rewrite El in Hin.
        destruct Hin as [Hin|[]]. assert (a' = a) by congruence. subst a'.
        eexists. split; [left; reflexivity|]. cbn [d_id d_dir]. auto.
      * destruct (N7 _ _ H) as (e & He & A & B). exists e. split; [right; assumption|auto].
    + intros H e He. rewrite D in He. destruct He as [<-|He].
      * apply L_open. cbn [d_id d_dir]. split; [exact Hty|]. split.
        -- destruct O as [O|O].
           ++ exfalso. apply (H ev dir a); [left; reflexivity|change (q_calls ev) with l; rewrite El; left; reflexivity|exact O].
           ++ eexists. split; [exact O|exact HM].
        -- split; [exact Ha|]. exists dir, a. change (q_calls ev) with l. rewrite El. split; [left; reflexivity|reflexivity].
      * apply L_keep; [apply N8; [exact (SUB H)|assumption]|apply NC].
  - assert (NC : forall hb, ~ closes ev hb) by (intros hb C; apply closes_ty in C; cbn in C; congruence).
    constructor.
    + rewrite N. assumption.
    + rewrite N, lenN_cons. lia.
    + rewrite F, D, N. assumption.
    + rewrite F, D. assumption.
    + intros hb fd. rewrite live_cons, N5, F. split.
      * intros [H|(H & _)]; [exfalso; exact (noh_opened _ _ _ _ _ _ _ O H)|assumption].
      * intros H. right. split; [assumption|apply NC].
    + rewrite N. apply GV; [lia|apply NH; assumption].
    + intros hb d H. apply live_cons in H. rewrite D. destruct H as [H|(H & _)]; [exfalso; exact (noh_opened_dir _ _ _ _ _ _ _ O H)|auto].
    + intros H e He. rewrite D in He. apply L_keep; [apply N8; [exact (SUB H)|assumption]|apply NC].
  - assert (CL : forall hb', closes ev hb' -> hb' = hb).
    { intros hb' (_ & _ & b' & x' & Sb' & Ed'). change (q_data ev) with data in Ed'. rewrite Ed in Ed'. destruct (str_inj _ _ _ _ _ _ Sb' Sb (eq_sym Ed')). assumption. }
    assert (CL' : closes ev hb).
    { split; [exact Hty|]. split; [change (q_ty ev) with ty; rewrite Hty; left; reflexivity|]. exists b, x. auto. }
    destruct (find_split _ _ _ Ff) as (u & v & E1 & R & Eid).
    assert (InR : forall e', In e' (RemoveFileHandle (decode_t hb) (s_files s)) <-> In e' (s_files s) /\ f_id e' <> decode_t hb).
    { intros e'. rewrite R. rewrite E1 in N4. rewrite map_app in N4. cbn [map] in N4. rewrite <- app_assoc in N4. cbn [app] in N4.
      apply NoDup_remove_2 in N4. rewrite E1. split.
      - intros Hi. split.
        + apply in_app_or in Hi. apply in_or_app. destruct Hi as [Hi|Hi]; [left; assumption|right; right; assumption].
        + intros K. apply N4. rewrite Eid, <- K. rewrite app_assoc, <- map_app. apply in_or_app. left. apply in_map. assumption.
      - intros (Hi & K). apply in_app_or in Hi. apply in_or_app. destruct Hi as [Hi|[Hi|Hi]]; [left; assumption| |right; assumption].
        subst e'. contradiction. }
    assert (HB : forall e', In e' (s_files s) -> HandleIdEncode (f_id e') = hb -> f_id e' = decode_t hb).
    { intros e' He' <-. destruct (OKF e' He') as ((A & B) & _). rewrite encode_decode by assumption. reflexivity. }
    assert (Bh : bytes_ok hb).
    { destruct Sb as (lb & _ & Eb). rewrite Ed, Eb, !bytes_ok_app in Hbd. tauto. }
    pose proof (decode_encode hb Bh L8) as DE.
    assert (Ie : In e (s_files s)) by (rewrite E1; apply in_or_app; right; left; reflexivity).
    constructor.
    + rewrite N. assumption.
    + rewrite N, lenN_cons. lia.
    + rewrite F, D, N. intros i Hi. apply N3. apply in_app_or in Hi. apply in_or_app. destruct Hi as [Hi|Hi]; [left|right; assumption].
      apply in_map_iff in Hi. destruct Hi as (e' & <- & Hi). apply InR in Hi. apply in_map. tauto.
    + rewrite F, D, R. rewrite E1 in N4. rewrite map_app in N4 |- *. cbn [map] in N4. rewrite <- app_assoc in N4 |- *. cbn [app] in N4.
      eapply NoDup_remove_1. exact N4.
    + intros hb' fd. rewrite live_cons, N5, F. split.
      * intros [H|((e' & He' & A & B) & K)]; [exfalso; exact (noh_opened _ _ _ _ _ _ _ O H)|].
        exists e'. split; [|auto]. apply InR. split; [assumption|]. intros K2. apply K.
        assert (hb' = hb); [|subst; assumption]. rewrite <- A, K2.
        exact DE.
      * intros (e' & He' & <- & <-). apply InR in He'. destruct He' as (He' & K). right. split; [exists e'; auto|].
        intros C. apply CL in C. apply K. apply HB; assumption.
    + rewrite N. apply GV; [lia|apply NH; assumption].
    + intros hb' d H. apply live_cons in H. rewrite D. destruct H as [H|(H & _)]; [exfalso; exact (noh_opened_dir _ _ _ _ _ _ _ O H)|auto].
    + intros H e' He'. rewrite D in He'. apply L_keep; [apply N8; [exact (SUB H)|assumption]|].
      intros C. apply CL in C. apply (NFD e e' Ie He'). rewrite Eid, <- C.
      destruct (OKD e' He') as ((A & B) & _). rewrite encode_decode by assumption. reflexivity.
  - assert (CL : forall hb', closes ev hb' -> hb' = hb).
    { intros hb' (_ & _ & b' & x' & Sb' & Ed'). change (q_data ev) with data in Ed'. rewrite Ed in Ed'. destruct (str_inj _ _ _ _ _ _ Sb' Sb (eq_sym Ed')). assumption. }
    destruct (findd_split _ _ _ Fd) as (u & v & E1 & R & Eid).
    assert (CL' : closes ev hb).
    { split; [exact Hty|]. split; [change (q_ty ev) with ty; rewrite Hty; left; reflexivity|]. exists b, x. auto. }
    assert (InR : forall e', In e' (RemoveDir (decode_t hb) (s_dirs s)) <-> In e' (s_dirs s) /\ d_id e' <> decode_t hb).
    { intros e'. rewrite R. rewrite E1 in N4. rewrite map_app in N4. cbn [map] in N4. rewrite app_assoc in N4.
      apply NoDup_remove_2 in N4. rewrite E1. split.
      - intros Hi. split.
        + apply in_app_or in Hi. apply in_or_app. destruct Hi as [Hi|Hi]; [left; assumption|right; right; assumption].
        + intros K. apply N4. rewrite Eid, <- K. rewrite <- app_assoc, <- map_app. apply in_or_app. right. apply in_map. assumption.
      - intros (Hi & K). apply in_app_or in Hi. apply in_or_app. destruct Hi as [Hi|[Hi|Hi]]; [left; assumption| |right; assumption].
        subst e'. contradiction. }
    assert (HB : forall e', In e' (s_dirs s) -> HandleIdEncode (d_id e') = hb -> d_id e' = decode_t hb).
    { intros e' He' <-. destruct (OKD e' He') as ((A & B) & _). rewrite encode_decode by assumption. reflexivity. }
    assert (Bh : bytes_ok hb).
    { destruct Sb as (lb & _ & Eb). rewrite Ed, Eb, !bytes_ok_app in Hbd. tauto. }
    pose proof (decode_encode hb Bh L8) as DE.
    assert (Ie : In e (s_dirs s)) by (rewrite E1; apply in_or_app; right; left; reflexivity).
    constructor.
    + rewrite N. assumption.
    + rewrite N, lenN_cons. lia.
    + rewrite F, D, N. intros i Hi. apply N3. apply in_app_or in Hi. apply in_or_app. destruct Hi as [Hi|Hi]; [left; assumption|right].
      apply in_map_iff in Hi. destruct Hi as (e' & <- & Hi). apply InR in Hi. apply in_map. tauto.
    + rewrite F, D, R. rewrite E1 in N4. rewrite map_app in N4 |- *. cbn [map] in N4. rewrite app_assoc in N4 |- *.
      eapply NoDup_remove_1. exact N4.
    + intros hb' fd. rewrite live_cons, N5, F. split.
      * intros [H|(H & _)]; [exfalso; exact (noh_opened _ _ _ _ _ _ _ O H)|assumption].
      * intros (e' & He' & <- & <-). right. split; [exists e'; auto|].
        intros C. apply CL in C. apply (NFD e' e He' Ie). rewrite Eid, <- C.
        destruct (OKF e' He') as ((A & B) & _). rewrite encode_decode by assumption. reflexivity.
    + rewrite N. apply GV; [lia|apply NH; assumption].
    + intros hb' d H. apply live_cons in H. rewrite D. destruct H as [H|(H & K)]; [exfalso; exact (noh_opened_dir _ _ _ _ _ _ _ O H)|].
      destruct (N7 _ _ H) as (e' & He' & A & B). exists e'. split; [|auto]. apply InR. split; [assumption|]. intros K2. apply K.
      assert (hb' = hb); [|subst; assumption]. rewrite <- A, K2. exact DE.
    + intros H e' He'. rewrite D in He'. apply InR in He'. destruct He' as (He' & K).
      apply L_keep; [apply N8; [exact (SUB H)|assumption]|]. intros C. apply CL in C. apply K. apply HB; assumption.
Qed.

Lemma hst_inv : forall E p h s, hst E p h s -> lenN h < W64 -> inv h s.
Proof.
  intros E p h s H. induction H as [|h s ty id data r out s' l H0 H IH Hb Hl Hi Hp D F L A]; intros Hn.
  - constructor; cbn.
    + split; unfold is32, W32; cbn; lia.
    + unfold val. cbn. lia.
    + intros i [].
    + constructor.
    + intros hb fd. split; [intros K; inversion K|intros (e & [] & _)].
    + intros ev hb m [].
    + intros hb fd K. inversion K.
    + intros _ e [].
  - eapply eff_inv; try eassumption. apply IH. rewrite lenN_cons in Hn. lia.
Qed.
