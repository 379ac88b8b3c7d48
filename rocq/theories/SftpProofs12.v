(* SftpProofs12.v - proofs about the SFTP server: the receive loop. *)
From Verif Require Import Base WireModel WireSpec WireProofs PathModel PathSpec PathProofs NegoSpec ReqSpec ReqProofs ReqProofs3.
From Verif Require Import SftpModel SftpProofs SftpSpec SftpSpec2 SftpProofs2 SftpProofs3 SftpProofs4 SftpProofs5 SftpProofs6 SftpProofs7 SftpProofs8 SftpProofs9.
From Coq Require Import List NArith ZArith Bool Lia String.
Import ListNotations.
Open Scope N_scope.

(* ---- frames ---------------------------------------------------------------------- *)

Lemma frame_len : forall ty id d m, frame ty id d m -> lenN m = 9 + lenN d.
Proof. intros ty id d m (l & i & (L1 & _) & (L2 & _) & ->). rewrite !lenN_app. change (lenN [ty]) with 1. lia. Qed.

Lemma frame_app : forall ty id b m x ty' id' b' m' x', frame ty id b m -> frame ty' id' b' m' -> m ++ x = m' ++ x' ->
  (ty, id, b) = (ty', id', b') /\ m = m' /\ x = x'.
Proof.
  intros ty id b m x ty' id' b' m' x' F F' H.
  assert (L : lenN m = lenN m').
  { pose proof (frame_len _ _ _ _ F) as E1. pose proof (frame_len _ _ _ _ F') as E2.
    destruct F as (l & i & (Hl & Vl) & _ & ->). destruct F' as (l' & i' & (Hl' & Vl') & _ & ->).
    rewrite <- !app_assoc in H. apply app_lenN_inj in H; [|lia]. destruct H as (-> & _). rewrite E1, E2. lia. }
  apply app_lenN_inj in H; [|assumption]. destruct H as (-> & ->).
  destruct (frame_inj _ _ _ _ _ _ _ F F') as (-> & -> & ->). auto.
Qed.

Lemma frames_cmp : forall q1 m1, Forall2 req_frame q1 m1 -> forall q2 m2, Forall2 req_frame q2 m2 -> forall r1 r2,
  List.concat m1 ++ r1 = List.concat m2 ++ r2 ->
  (exists x mx, q1 = q2 ++ x /\ m1 = m2 ++ mx) \/ (exists x mx, q2 = q1 ++ x /\ m2 = m1 ++ mx).
Proof.
  induction 1 as [|((ty, id), d) m q1 m1 F H IH]; intros q2 m2 H2 r1 r2 E.
  - right. exists q2, m2. split; reflexivity.
  - destruct H2 as [|((ty', id'), d') m' q2 m2 F' H2]; [left; eexists; eexists; split; reflexivity|].
    cbn [List.concat] in E. rewrite <- !app_assoc in E. cbn [req_frame] in F, F'.
    destruct (frame_app _ _ _ _ _ _ _ _ _ _ F F' E) as (-> & -> & E').
    destruct (IH _ _ H2 _ _ E') as [(x & mx & -> & ->)|(x & mx & -> & ->)]; [left|right]; exists x, mx; split; reflexivity.
Qed.

Lemma forall2_app_l : forall A B (R : A -> B -> Prop) a x b y, Forall2 R (a ++ x) (b ++ y) -> Datatypes.length a = Datatypes.length b ->
  Forall2 R a b /\ Forall2 R x y.
Proof.
  induction a as [|z a IH]; intros x b y H L; destruct b as [|w b]; try discriminate L; [split; [constructor|assumption]|].
  cbn [app] in H. inversion H; subst. destruct (IH x b y) as (A1 & A2); [assumption|cbn in L; lia|]. split; [constructor; assumption|assumption].
Qed.
Lemma forall2_len : forall A B (R : A -> B -> Prop) a b, Forall2 R a b -> Datatypes.length a = Datatypes.length b.
Proof. induction 1; cbn; congruence. Qed.

(* ---- histories -------------------------------------------------------------------- *)

Lemma replies_cons : forall ev h, replies (ev :: h) = replies h ++ match q_reply ev with Some m => m | None => [] end.
Proof. intros. unfold replies. cbn [rev]. rewrite map_app, concat_app. cbn. rewrite app_nil_r. reflexivity. Qed.
Lemma requests_cons : forall ev h, requests (ev :: h) = requests h ++ [req ev].
Proof. intros. unfold requests. cbn [rev]. rewrite map_app. reflexivity. Qed.

Lemma hist_cut : forall E p a b s, hist E p (a ++ b) s -> exists s0, hist E p b s0.
Proof.
  induction a as [|ev a IH]; intros b s H; [exists s; assumption|]. cbn [app] in H. inversion H; subst. eapply IH. eassumption.
Qed.
Lemma hist_det : forall E p h1 s1, hist E p h1 s1 -> forall h2 s2, hist E p h2 s2 -> requests h1 = requests h2 -> h1 = h2 /\ s1 = s2.
Proof.
  intros E p h1 s1 H. induction H as [|h s ty id data r out s' new H IH Hb Hl Hi D L]; intros h2 s2 H2 Q.
  - destruct H2 as [|h2 t ty2 id2 data2 r2 out2 t' new2 K1 K2 K3 K4 K5 K6]; [split; reflexivity|].
    rewrite requests_cons in Q. destruct (requests h2); discriminate Q.
  - destruct H2 as [|h2 t ty2 id2 data2 r2 out2 t' new2 K1 K2 K3 K4 K5 K6].
    + rewrite requests_cons in Q. destruct (requests h); discriminate Q.
    + rewrite !requests_cons in Q. apply app_inj_tail in Q. destruct Q as (Q1 & Q2). unfold req in Q2. cbn [q_ty q_id q_data] in Q2.
      destruct (IH _ _ K1 Q1) as (-> & ->). assert (ty = ty2 /\ id = id2 /\ data = data2) as (-> & -> & ->) by (split; [|split]; congruence).
      rewrite D in K5. assert (out = out2 /\ s' = t') as (-> & ->) by (split; congruence). rewrite L in K6.
      apply app_inv_tail in K6. apply (f_equal (@rev fscall)) in K6. rewrite !rev_involutive in K6. subst new2. split; reflexivity.
Qed.
Lemma requests_len : forall h, Datatypes.length (requests h) = Datatypes.length h.
Proof. intros. unfold requests. rewrite map_length, rev_length. reflexivity. Qed.
Lemma hist_prefix : forall E p h1 s1 h2 s2, hist E p h1 s1 -> hist E p h2 s2 -> forall x, requests h1 = requests h2 ++ x -> exists y, h1 = y ++ h2 /\ requests y = x.
Proof.
  intros E p h1 s1 h2 s2 H1 H2 x Q.
  set (k := (Datatypes.length h1 - Datatypes.length h2)%nat).
  assert (Lh : (Datatypes.length h2 <= Datatypes.length h1)%nat).
  { apply (f_equal (@Datatypes.length _)) in Q. rewrite app_length, !requests_len in Q. lia. }
  pose proof H1 as H1'. rewrite <- (firstn_skipn k h1) in H1'. destruct (hist_cut _ _ _ _ _ H1') as (s0 & H0).
  assert (Q0 : requests h1 = requests (skipn k h1) ++ requests (firstn k h1)).
  { rewrite <- (firstn_skipn k h1) at 1. unfold requests. rewrite rev_app_distr, map_app. reflexivity. }
  assert (QQ : requests (skipn k h1) = requests h2 /\ requests (firstn k h1) = x).
  { rewrite Q in Q0. symmetry in Q0.
    assert (LL : Datatypes.length (requests (skipn k h1)) = Datatypes.length (requests h2)) by (rewrite !requests_len, skipn_length; unfold k; lia).
    clear - Q0 LL. revert Q0 LL. generalize (requests (skipn k h1)) (requests h2) (requests (firstn k h1)). clear.
    induction l as [|a l IH]; intros [|b l2] z Q LL; try discriminate LL; [split; [reflexivity|assumption]|].
    cbn [app] in Q. destruct (IH l2 z) as (-> & ->); [congruence|cbn in LL; lia|]. split; [congruence|reflexivity]. }
  destruct QQ as (Q1 & Q2). destruct (hist_det _ _ _ _ H0 _ _ H2 Q1) as (Q3 & _).
  exists (firstn k h1). split; [rewrite <- Q3; symmetry; apply firstn_skipn|assumption].
Qed.

(* ---- the loop ----------------------------------------------------------------------- *)

Definition head (hd : bytes) (ty id sz : N) : Prop :=
  exists lb ib, u32 (5 + sz) lb /\ u32 id ib /\ hd = lb ++ [ty] ++ ib.
Lemma head_frame : forall hd ty id sz d, head hd ty id sz -> lenN d = sz -> frame ty id d (hd ++ d).
Proof. intros hd ty id sz d (lb & ib & A & B & ->) L. exists lb, ib. rewrite L. split; [assumption|]. split; [assumption|]. rewrite <- !app_assoc. reflexivity. Qed.
Lemma head_len : forall hd ty id sz, head hd ty id sz -> lenN hd = 9.
Proof. intros hd ty id sz (lb & ib & (A & _) & (B & _) & ->). rewrite !lenN_app. change (lenN [ty]) with 1. lia. Qed.

Lemma header : forall got, lenN got = 9 -> bytes_ok got ->
  exists lb ty ib, got = lb ++ [ty] ++ ib /\ lenN lb = 4 /\ lenN ib = 4 /\
   ato32 got 0 = Some (be_value lb) /\ rd got 4 = Some ty /\ ato32 got 5 = Some (be_value ib) /\ is32 (be_value lb) /\ is32 (be_value ib).
Proof.
  intros got L B. destruct got as [|a [|b [|c [|d [|e [|f [|g [|h [|i [|j got]]]]]]]]]]; try discriminate L.
  2: { rewrite !lenN_cons in L. lia. }
  exists [a; b; c; d], e, [f; g; h; i]. split; [reflexivity|]. split; [reflexivity|]. split; [reflexivity|].
  rewrite (ato32_slice _ 0) by (assumption || (rewrite L; lia)). rewrite (ato32_slice _ 5) by (assumption || (rewrite L; lia)).
  split; [reflexivity|]. split; [reflexivity|]. split; [reflexivity|].
  split; [exact (be_value_lt _ 0 B ltac:(rewrite L; lia))|exact (be_value_lt _ 5 B ltac:(rewrite L; lia))].
Qed.

Section loop.
  Variables (E : senv) (p : paths) (input : bytes).
  Hypothesis Hp : paths_ok p.
  Hypothesis Hin : bytes_ok input.

  Definition linv (c : conn) (h : list hev) : Prop :=
    hist E p h (c_srv c) /\
    match c_st c with
    | RHead got => holds input (requests h) (got ++ c_in c) /\ c_out c = replies h /\ lenN got < 9
    | RBody ty id sz got => exists hd, head hd ty id sz /\ is32 id /\ holds input (requests h) (hd ++ got ++ c_in c) /\ c_out c = replies h /\
                            lenN got < sz /\ sz <= 65536
    | RSend m idx => exists ev h', h = ev :: h' /\ q_reply ev = Some m /\ idx <= lenN m /\ c_out c = replies h' ++ takeN idx m /\
                     holds input (requests h) (c_in c)
    | RDead => (exists part, holds input (requests h) (part ++ c_in c) /\ lenN part <= 65545 /\ (c_out c = replies h \/ part = [])) /\
               exists unsent, replies h = c_out c ++ unsent /\ (unsent = [] \/ exists ev h' m, h = ev :: h' /\ q_reply ev = Some m /\ lenN unsent <= lenN m)
    end.

  Lemma holds_ok : forall qs rest, holds input qs rest -> bytes_ok rest.
  Proof using Hin. intros qs rest (ms & _ & Q). rewrite Q in Hin. apply bytes_ok_app in Hin. tauto. Qed.

  Lemma handled_inv : forall c h ty id d hd, hist E p h (c_srv c) -> head hd ty id (lenN d) -> is32 id -> 1 <= lenN d <= 65536 ->
    holds input (requests h) (hd ++ d ++ c_in c) -> c_out c = replies h ->
    exists c' ev, handled E ty id d c = Some c' /\ linv c' (ev :: h) /\ req ev = (ty, id, d) /\ c_in c' = c_in c /\
      ((exists m, q_reply ev = Some m /\ c_st c' = RSend m 0) \/ (q_reply ev = None /\ (c_st c' = RHead [] \/ c_st c' = RDead))).
  Proof using Hp Hin.
    intros c h ty id d hd H Hh Hi Hd Ho Hc.
    pose proof (hist_paths _ _ _ _ Hp H) as (P1 & _).
    assert (Bd : bytes_ok d). { apply holds_ok in Ho. apply bytes_ok_app in Ho. destruct Ho as (_ & Ho). apply bytes_ok_app in Ho. tauto. }
    destruct (dispatch_t E ty id d (c_srv c)) as ((r, out), s') eqn:D.
    destruct (dispatch_effs _ _ _ _ _ _ _ _ D) as (new & L & _).
    assert (D' : dispatch E ty id d (c_srv c) = Some (r, out, s')) by (rewrite dispatch_eq; try assumption; [congruence|apply s_is32; lia]).
    set (ev := mkHev ty id d out (answered E (s_log (c_srv c)) new)).
    assert (H' : hist E p (ev :: h) s') by (eapply (H_req E p h (c_srv c)); try eassumption; lia).
    assert (Ho' : holds input (requests (ev :: h)) (c_in c)).
    { destruct Ho as (ms & F & Q). exists (ms ++ [hd ++ d]). rewrite requests_cons. split.
      - apply Forall2_app; [assumption|]. constructor; [|constructor]. cbn [req req_frame ev q_ty q_id q_data]. eapply head_frame; [exact Hh|reflexivity].
      - rewrite concat_app. cbn [List.concat]. rewrite app_nil_r, Q, <- !app_assoc. reflexivity. }
    unfold handled. rewrite D'. destruct out as [m|].
    - eexists. exists ev. split; [reflexivity|]. split; [|split; [reflexivity|split; [reflexivity|left; exists m; split; reflexivity]]].
      split; [exact H'|]. cbn [c_st c_out c_in]. exists ev, h. split; [reflexivity|]. split; [reflexivity|]. split; [lia|]. rewrite takeN_0, app_nil_r. split; assumption.
    - assert (R : replies (ev :: h) = c_out c) by (rewrite replies_cons; cbn [q_reply ev]; rewrite app_nil_r; symmetry; assumption).
      destruct (rc_neg r).
      + eexists. exists ev. split; [reflexivity|]. split; [|split; [reflexivity|split; [reflexivity|right; split; [reflexivity|right; reflexivity]]]].
        split; [exact H'|]. cbn [c_st c_out c_in]. split.
        * exists []. split; [exact Ho'|]. split; [cbn; lia|]. right. reflexivity.
        * exists []. rewrite app_nil_r. split; [exact R|left; reflexivity].
      + eexists. exists ev. split; [reflexivity|]. split; [|split; [reflexivity|split; [reflexivity|right; split; [reflexivity|left; reflexivity]]]].
        split; [exact H'|]. cbn [c_st c_out c_in app]. split; [exact Ho'|]. split; [symmetry; exact R|reflexivity].
  Qed.

  Lemma die_inv : forall c h, linv c h -> linv (mkConn (c_srv c) (c_in c) (c_out c) RDead) h.
  Proof using.
    intros c h (H & S). split; [exact H|]. cbn [c_st c_in c_out]. destruct (c_st c) as [got|ty id sz got|m idx|].
    - destruct S as (A & B & L). split; [exists got; split; [exact A|]; split; [lia|left; exact B]|]. exists []. rewrite app_nil_r. split; [symmetry; exact B|left; reflexivity].
    - destruct S as (hd & Hh & Hi & A & B & L & S). split.
      + exists (hd ++ got). rewrite <- app_assoc. split; [exact A|]. split; [rewrite lenN_app, (head_len _ _ _ _ Hh); lia|left; exact B].
      + exists []. rewrite app_nil_r. split; [symmetry; exact B|left; reflexivity].
    - destruct S as (ev & h' & -> & R & Li & O & A). split; [exists []; split; [exact A|]; split; [cbn; lia|right; reflexivity]|].
      exists (dropN idx m). rewrite replies_cons, R, O, <- app_assoc, takeN_dropN. split; [reflexivity|]. right. exists ev, h', m. split; [reflexivity|].
      split; [assumption|]. rewrite lenN_dropN. lia.
    - exact S.
  Qed.

  Lemma io_inv : forall e c h, linv c h -> exists c' new, sftp_io E e c = Some c' /\ linv c' (new ++ h).
  Proof using Hp Hin.
    intros e c h I. pose proof (die_inv c h I) as Dead. unfold sftp_io. cbv zeta.
    destruct (c_st c) as [got|ty id sz got|m idx|] eqn:St.
    4: { exists c, []. destruct e; auto. }
    all: destruct e as [n pend| |]; [|exists c, []; auto|eexists; exists []; split; [reflexivity|exact Dead] ].
    - (* header *)
      destruct I as (H & S). rewrite St in S. destruct S as (A & B & L).
      set (k := N.min n (SFTP_HEADER - lenN got)). set (g := got ++ takeN k (c_in c)).
      assert (Lk : lenN g <= 9). { unfold g. rewrite lenN_app, lenN_takeN. unfold k, SFTP_HEADER. lia. }
      assert (A' : holds input (requests h) (g ++ dropN k (c_in c))) by (unfold g; rewrite <- app_assoc, takeN_dropN; exact A).
      destruct (N.ltb_spec (lenN g) SFTP_HEADER) as [K|K]; unfold SFTP_HEADER in K.
      { eexists. exists []. split; [reflexivity|]. split; [exact H|]. cbn [c_st c_in c_out]. auto. }
      assert (Bg : bytes_ok g) by (apply holds_ok in A'; apply bytes_ok_app in A'; tauto).
      destruct (header g ltac:(lia) Bg) as (lb & ty & ib & Qg & L4 & L4' & -> & -> & -> & I1 & I2).
      set (sz := sub32 (be_value lb) 5).
      assert (DD : linv (mkConn (c_srv c) (dropN k (c_in c)) (c_out c) RDead) h).
      { split; [exact H|]. cbn [c_st c_in c_out]. split; [exists g; split; [exact A'|]; split; [lia|left; exact B]|].
        exists []. rewrite app_nil_r. split; [symmetry; exact B|left; reflexivity]. }
      cbn [c_srv c_in c_out].
      destruct ((sz =? 0) || (MAX_SFTP_PACKET <? sz)) eqn:Z; [eexists; exists []; split; [reflexivity|exact DD]|].
      destruct (negb _); [eexists; exists []; split; [reflexivity|exact DD]|].
      eexists. exists []. split; [reflexivity|]. split; [exact H|]. cbn [c_st c_in c_out app].
      apply orb_false_elim in Z. destruct Z as (Z1 & Z2). apply N.eqb_neq in Z1. apply N.ltb_ge in Z2. unfold MAX_SFTP_PACKET in Z2.
      exists g. split; [|split; [assumption|split; [exact A'|split; [exact B|split; [change (lenN []) with 0; lia|exact Z2]]]]].
      exists lb, ib. split; [split; [assumption|]|split; [split; [assumption|reflexivity]|exact Qg]].
      revert Z1 Z2. unfold sz, sub32, w32. change (5 mod W32) with 5. unfold is32, W32 in *. intros Z1 Z2.
      destruct (N.lt_ge_cases (be_value lb) 5) as [C|C]; [rewrite N.mod_small in Z2 by lia; lia|].
      replace (be_value lb + (4294967296 - 5)) with (be_value lb - 5 + 1 * 4294967296) by lia.
      rewrite N.mod_add by discriminate. rewrite N.mod_small by lia. lia.
    - (* body *)
      destruct I as (H & S). rewrite St in S. destruct S as (hd & Hh & Hi & A & B & L & S).
      set (k := N.min n (sz - lenN got)). set (g := got ++ takeN k (c_in c)).
      assert (Lk : lenN g <= sz). { unfold g. rewrite lenN_app, lenN_takeN. unfold k. lia. }
      assert (A' : holds input (requests h) (hd ++ g ++ dropN k (c_in c))) by (unfold g; rewrite <- app_assoc, takeN_dropN; exact A).
      destruct (N.ltb_spec (lenN g) sz) as [K|K].
      { eexists. exists []. split; [reflexivity|]. split; [exact H|]. cbn [c_st c_in c_out]. exists hd. auto 7. }
      assert (Eq : lenN g = sz) by lia.
      destruct (handled_inv (mkConn (c_srv c) (dropN k (c_in c)) (c_out c) (RBody ty id sz g)) h ty id g hd) as (c' & ev & Q & I' & _);
        cbn [c_srv c_in c_out]; try assumption; [rewrite Eq; assumption|lia|].
      exists c', [ev]. split; [exact Q|exact I'].
    - (* sending *)
      destruct I as (H & S). rewrite St in S. destruct S as (ev & h' & -> & R & Li & O & A).
      set (k := N.min n (lenN m - idx)).
      assert (O' : c_out c ++ takeN k (dropN idx m) = replies h' ++ takeN (idx + k) m) by (rewrite O, <- app_assoc, takeN_add; reflexivity).
      assert (Lk : idx + k <= lenN m) by (unfold k; lia).
      destruct ((idx + k <? lenN m) || pend) eqn:Z.
      { eexists. exists []. split; [reflexivity|]. split; [exact H|]. cbn [c_st c_in c_out]. exists ev, h'. auto 7. }
      apply orb_false_elim in Z. destruct Z as (Z & _). apply N.ltb_ge in Z.
      eexists. exists []. split; [reflexivity|]. split; [exact H|]. cbn [c_st c_in c_out app]. split; [exact A|]. split; [|reflexivity].
      rewrite replies_cons, R, O', takeN_all by lia. reflexivity.
  Qed.

  Lemma run_inv : forall es c h, linv c h -> exists c' new, sftp_run E es c = Some c' /\ linv c' (new ++ h).
  Proof using Hp Hin.
    induction es as [|e es IH]; intros c h I; cbn [sftp_run]; [exists c, []; auto|].
    destruct (io_inv e c h I) as (c1 & n1 & -> & I1). destruct (IH _ _ I1) as (c2 & n2 & -> & I2).
    exists c2, (n2 ++ n1). rewrite <- app_assoc. auto.
  Qed.
  Lemma linv0 : linv (conn0 p input) [].
  Proof using. split; [constructor|]. cbn [c_st conn0 c_in c_out app]. split; [exists []; split; [constructor|reflexivity]|]. split; reflexivity. Qed.
  Lemma run_all : forall es, exists c h, sftp_run E es (conn0 p input) = Some c /\ linv c h.
  Proof using Hp Hin. intros es. destruct (run_inv es _ _ linv0) as (c & n & Q & I). rewrite app_nil_r in I. eauto. Qed.

  (* what is left of a complete input *)
  Lemma left_over : forall qs fr h rest, Forall2 req_frame qs fr -> input = List.concat fr -> holds input (requests h) rest ->
    exists x mx, qs = requests h ++ x /\ Forall2 req_frame x mx /\ rest = List.concat mx.
  Proof using.
    intros qs fr h rest F Q (ms & Fm & Qm).
    assert (E0 : List.concat fr ++ [] = List.concat ms ++ rest) by (rewrite app_nil_r, <- Q; exact Qm).
    destruct (frames_cmp _ _ F _ _ Fm _ _ E0) as [(x & mx & -> & ->)|(x & mx & Qx & ->)].
    - exists x, mx. split; [reflexivity|]. destruct (forall2_app_l _ _ _ _ _ _ _ F (forall2_len _ _ _ _ _ Fm)) as (_ & Fx).
      split; [assumption|]. rewrite concat_app, <- app_assoc in E0. apply app_inv_head in E0. rewrite app_nil_r in E0. symmetry. exact E0.
    - rewrite concat_app, <- app_assoc in E0. apply app_inv_head in E0. symmetry in E0. apply app_eq_nil in E0. destruct E0 as (E1 & ->).
      rewrite Qx in Fm. destruct (forall2_app_l _ _ _ _ _ _ _ Fm (forall2_len _ _ _ _ _ F)) as (_ & Fx).
      destruct Fx as [|((ty, id), d) m x mx Fy Fx].
      + exists [], []. rewrite app_nil_r in *. split; [symmetry; exact Qx|]. split; [constructor|reflexivity].
      + exfalso. cbn [req_frame] in Fy. apply frame_len in Fy. cbn [List.concat] in E1. apply app_eq_nil in E1. destruct E1 as (-> & _). change (lenN (@nil N)) with 0 in Fy. lia.
  Qed.

  Definition finished (qs : list request) (c : conn) (h : list hev) : Prop :=
    linv c h /\
    ((c_st c = RHead [] /\ requests h = qs) \/
     (c_st c = RDead /\ (exists x, qs = requests h ++ x) /\ exists ev h', h = ev :: h' /\ q_reply ev = None)).
  Definition moves (es : list io) : Prop := Forall (fun e => exists n, e = IMove n false) es.

  Lemma run_app : forall a b c, sftp_run E (a ++ b) c = match sftp_run E a c with Some c => sftp_run E b c | None => None end.
  Proof using. induction a as [|e a IH]; intros b c; [reflexivity|]. cbn [app sftp_run]. destruct (sftp_io E e c); [apply IH|reflexivity]. Qed.

  Section drive.
  Variables (qs : list request) (fr : list bytes).
  Hypothesis Hqs : Forall2 req_frame qs fr.
  Hypothesis Hinp : input = List.concat fr.
  Hypothesis Htk : Forall takes qs.
  Hypothesis Hro : roomy E.

  Definition ends (c : conn) : Prop := exists more c' h', moves more /\ sftp_run E more c = Some c' /\ finished qs c' h'.

  Lemma ends_step : forall n c c', sftp_io E (IMove n false) c = Some c' -> ends c' -> ends c.
  Proof using.
    intros n c c' Q (more & c2 & h2 & M & R & F). exists (IMove n false :: more), c2, h2.
    split; [constructor; [exists n; reflexivity|assumption]|]. split; [cbn [sftp_run]; rewrite Q; exact R|exact F].
  Qed.

  Lemma send_io : forall c h m idx, linv c h -> c_st c = RSend m idx ->
    exists c', sftp_io E (IMove (lenN m) false) c = Some c' /\ linv c' h /\ c_st c' = RHead [].
  Proof using.
    intros c h m idx (H & S) St. rewrite St in S. destruct S as (ev & h' & -> & R & Li & O & A).
    unfold sftp_io. rewrite St. cbv zeta. set (k := N.min (lenN m) (lenN m - idx)).
    assert (O' : c_out c ++ takeN k (dropN idx m) = replies h' ++ takeN (idx + k) m) by (rewrite O, <- app_assoc, takeN_add; reflexivity).
    assert (Lk : idx + k = lenN m) by (unfold k; lia). rewrite Lk, N.ltb_irrefl. cbn [orb].
    eexists. split; [reflexivity|]. split; [|reflexivity]. split; [exact H|]. cbn [c_st c_in c_out app]. split; [exact A|]. split; [|reflexivity].
    rewrite replies_cons, R, O', Lk, takeN_all by lia. reflexivity.
  Qed.

  Lemma split_at : forall (a b x y : bytes) n, a ++ b = x ++ y -> lenN x = n -> lenN a <= n ->
    a ++ takeN (n - lenN a) b = x /\ dropN (n - lenN a) b = y.
  Proof using.
    intros a b x y n Q L La.
    assert (T : takeN n (a ++ b) = x) by (rewrite Q; apply takeN_app_exact; symmetry; assumption).
    assert (D : dropN n (a ++ b) = y) by (rewrite Q; apply dropN_app_exact; symmetry; assumption).
    rewrite takeN_app_r in T by assumption. rewrite dropN_app_r in D by assumption. split; assumption.
  Qed.

  Lemma head_io : forall c h got ty id d m x, linv c h -> c_st c = RHead got -> got ++ c_in c = m ++ x -> frame ty id d m ->
    1 <= lenN d <= 65536 ->
    exists c', sftp_io E (IMove 9 false) c = Some c' /\ linv c' h /\ c_st c' = RBody ty id (lenN d) [] /\ c_in c' = d ++ x.
  Proof using Hp Hin Hro.
    intros c h got ty id d m x I St Q F Hd.
    destruct I as (H & S). rewrite St in S. destruct S as (A & B & L).
    destruct F as (lb & ib & (L1 & V1) & (L2 & V2) & Qm).
    assert (Qs : got ++ c_in c = (lb ++ [ty] ++ ib) ++ d ++ x) by (rewrite Q, Qm, <- !app_assoc; reflexivity).
    assert (L9 : lenN (lb ++ [ty] ++ ib) = 9) by (rewrite !lenN_app; change (lenN [ty]) with 1; lia).
    destruct (split_at _ _ _ _ 9 Qs L9 ltac:(lia)) as (T & D).
    unfold sftp_io. rewrite St. cbv zeta. replace (N.min 9 (SFTP_HEADER - lenN got)) with (9 - lenN got) by (unfold SFTP_HEADER; lia).
    rewrite T, D. cbn [c_srv c_in c_out]. change SFTP_HEADER with 9. rewrite L9. change (9 <? 9) with false. cbv iota.
    assert (A' : holds input (requests h) ((lb ++ [ty] ++ ib) ++ d ++ x)) by (rewrite <- Qs; exact A).
    assert (Bg : bytes_ok (lb ++ [ty] ++ ib)) by (apply holds_ok in A'; apply bytes_ok_app in A'; tauto).
    destruct (header _ L9 Bg) as (lb' & ty' & ib' & Qg & L4 & L4' & -> & -> & -> & I1 & I2).
    apply app_lenN_inj in Qg; [|lia]. destruct Qg as (<- & Qg). cbn [app] in Qg. assert (ty' = ty /\ ib' = ib) as (-> & ->) by (split; congruence). clear Qg.
    rewrite V1, V2 in *.
    assert (Sz : sub32 (5 + lenN d) 5 = lenN d).
    { unfold sub32, w32. change (5 mod W32) with 5. replace (5 + lenN d + (W32 - 5)) with (lenN d + 1 * W32) by (unfold W32; lia).
      rewrite N.mod_add by discriminate. apply N.mod_small. unfold W32. lia. }
    rewrite Sz. replace (lenN d =? 0) with false by (symmetry; apply N.eqb_neq; lia).
    replace (MAX_SFTP_PACKET <? lenN d) with false by (symmetry; apply N.ltb_ge; unfold MAX_SFTP_PACKET; lia). cbn [orb].
    rewrite Hro. cbn [negb]. eexists. split; [reflexivity|]. split; [|split; reflexivity]. split; [exact H|]. cbn [c_st c_in c_out app].
    exists (lb ++ [ty] ++ ib). split; [exists lb, ib; split; [split; assumption|split; [split; assumption|reflexivity]]|].
    split; [assumption|]. split; [exact A'|]. split; [exact B|]. change (lenN []) with 0. lia.
  Qed.

  Lemma body_io : forall c h ty id got d x, linv c h -> c_st c = RBody ty id (lenN d) got -> got ++ c_in c = d ++ x ->
    exists c' ev, sftp_io E (IMove (lenN d) false) c = Some c' /\ linv c' (ev :: h) /\ req ev = (ty, id, d) /\ c_in c' = x /\
      ((exists m, q_reply ev = Some m /\ c_st c' = RSend m 0) \/ (q_reply ev = None /\ (c_st c' = RHead [] \/ c_st c' = RDead))).
  Proof using Hp Hin.
    intros c h ty id got d x I St Q. destruct I as (H & S). rewrite St in S. destruct S as (hd & Hh & Hi & A & B & L & S).
    destruct (split_at _ _ _ _ (lenN d) Q eq_refl ltac:(lia)) as (T & D).
    unfold sftp_io. rewrite St. cbv zeta. replace (N.min (lenN d) (lenN d - lenN got)) with (lenN d - lenN got) by lia.
    rewrite T, D, N.ltb_irrefl. rewrite Q in A.
    apply (handled_inv (mkConn (c_srv c) x (c_out c) (RBody ty id (lenN d) d)) h ty id d hd); cbn [c_srv c_in c_out]; try assumption. lia.
  Qed.

  Lemma after_body : forall c h ev x, linv c (ev :: h) ->
    (exists m, q_reply ev = Some m /\ c_st c = RSend m 0) \/ (q_reply ev = None /\ (c_st c = RHead [] \/ c_st c = RDead)) ->
    qs = requests (ev :: h) ++ x ->
    (forall c', linv c' (ev :: h) -> c_st c' = RHead [] -> ends c') -> ends c.
  Proof using.
    intros c h ev x I [(m & R & St)|(R & [St|St])] Qx Go.
    - destruct (send_io _ _ _ _ I St) as (c' & Q & I' & St'). eapply ends_step; [exact Q|]. apply Go; assumption.
    - apply Go; assumption.
    - exists [], c, (ev :: h). split; [constructor|]. split; [reflexivity|]. split; [assumption|]. right. split; [assumption|].
      split; [exists x; assumption|]. exists ev, h. split; [reflexivity|assumption].
  Qed.

  Lemma head_ends : forall x c h got, linv c h -> c_st c = RHead got -> qs = requests h ++ x -> ends c.
  Proof using Hp Hin Hqs Hinp Htk Hro.
    induction x as [|((ty, id), d) x IH]; intros c h got I St Qx.
    - pose proof I as (H & S). rewrite St in S. destruct S as (A & B & L).
      destruct (left_over qs fr h _ Hqs Hinp A) as (y & my & Qy & Fy & Q). rewrite Qx in Qy. apply app_inv_head in Qy. subst y.
      inversion Fy; subst. cbn [List.concat] in Q. apply app_eq_nil in Q. destruct Q as (-> & Q).
      exists [], c, h. split; [constructor|]. split; [reflexivity|]. split; [assumption|]. left. split; [assumption|]. rewrite Qx, app_nil_r. reflexivity.
    - pose proof I as (H & S). rewrite St in S. destruct S as (A & B & L).
      destruct (left_over qs fr h _ Hqs Hinp A) as (y & my & Qy & Fy & Q). rewrite Qx in Qy. apply app_inv_head in Qy. subst y.
      inversion Fy as [|? m ? mx F1 F2]; subst. cbn [List.concat req_frame] in *.
      assert (Tk : takes (ty, id, d)) by (rewrite Qx in Htk; apply Forall_app in Htk; destruct Htk as (_ & K); inversion K; assumption). cbn [takes] in Tk.
      destruct (head_io c h got ty id d m (List.concat mx) I St Q F1 Tk) as (c1 & Q1 & I1 & St1 & In1). eapply ends_step; [exact Q1|].
      destruct (body_io c1 h ty id [] d (List.concat mx) I1 St1 In1) as (c2 & ev & Q2 & I2 & Re & In2 & Ca). eapply ends_step; [exact Q2|].
      assert (Qx' : qs = requests (ev :: h) ++ x) by (rewrite requests_cons, Re, <- app_assoc; exact Qx).
      apply (after_body c2 h ev x I2 Ca Qx'). intros c3 I3 St3. eapply IH; eassumption.
  Qed.

  Lemma all_end : forall c h, linv c h -> c_st c <> RDead -> ends c.
  Proof using Hp Hin Hqs Hinp Htk Hro.
    intros c h I Nd. destruct (c_st c) as [got|ty id sz got|m idx|] eqn:St; [| | |congruence].
    - pose proof I as (H & S). rewrite St in S. destruct S as (A & _).
      destruct (left_over qs fr h _ Hqs Hinp A) as (y & my & Qy & _). eapply head_ends; eassumption.
    - pose proof I as (H & S). rewrite St in S. destruct S as (hd & Hh & Hi & A & B & L & S).
      destruct (left_over qs fr h _ Hqs Hinp A) as (y & my & Qy & Fy & Q).
      destruct Fy as [|((ty', id'), d) m y mx F1 F2].
      { exfalso. apply (f_equal (@lenN N)) in Q. rewrite lenN_app, (head_len _ _ _ _ Hh) in Q. cbn [List.concat] in Q. change (lenN (@nil N)) with 0 in Q. lia. }
      cbn [req_frame List.concat] in *. destruct F1 as (lb & ib & (L1 & V1) & (L2 & V2) & ->). destruct Hh as (lb' & ib' & (L1' & V1') & (L2' & V2') & ->).
      rewrite <- !app_assoc in Q. apply app_lenN_inj in Q; [|lia]. destruct Q as (<- & Q). cbn [app] in Q.
      assert (ty' = ty /\ ib' ++ got ++ c_in c = ib ++ d ++ List.concat mx) as (-> & Q') by (split; congruence). clear Q.
      apply app_lenN_inj in Q'; [|lia]. destruct Q' as (-> & Q'). assert (lenN d = sz) as <- by lia. assert (id' = id) as -> by congruence.
      destruct (body_io c h ty id got d (List.concat mx) I St Q') as (c2 & ev & Q2 & I2 & Re & In2 & Ca). eapply ends_step; [exact Q2|].
      assert (Qx' : qs = requests (ev :: h) ++ y) by (rewrite requests_cons, Re, <- app_assoc; exact Qy).
      apply (after_body c2 h ev y I2 Ca Qx'). intros c3 I3 St3. eapply head_ends; eassumption.
    - destruct (send_io _ _ _ _ I St) as (c' & Q & I' & St'). eapply ends_step; [exact Q|].
      pose proof I' as (H & S). rewrite St' in S. destruct S as (A & _). destruct (left_over qs fr h _ Hqs Hinp A) as (y & my & Qy & _).
      eapply head_ends; eassumption.
  Qed.
  End drive.
End loop.
