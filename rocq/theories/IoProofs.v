(* IoProofs.v - proofs about flushing, version lines and thresholds. *)
From Verif Require Import Base BufModel BufSpec BufProofs PacketModel IoModel IoSpec.
From Coq Require Import List NArith PeanoNat Lia Bool ZifyBool ZifyNat ZifyN.
Import ListNotations.
Open Scope N_scope.

(* ---- flushing -------------------------------------------------------- *)
Lemma SendPacket_spec : forall sched b out, buf_inv b -> honest_from (lenN (unread b)) sched ->
  exists f, SendPacket sched b out = Some f /\ buf_inv (f_buf f) /\
    (In SGeneral sched \/ (exists o, f_out f = out ++ o /\ o ++ unread (f_buf f) = unread b)) /\
    (f_rc f = WS_SUCCESS -> unread (f_buf f) = [] /\ f_out f = out ++ unread b) /\
    (f_rc f = WS_SUCCESS \/ f_rc f = WS_WANT_WRITE \/ f_rc f = WS_SOCKET_ERROR_E) /\
    (f_rc f = WS_WANT_WRITE -> exists o, f_out f = out ++ o /\ o ++ unread (f_buf f) = unread b).
Proof.
  assert (FIN : forall sched b out, buf_inv b -> b_len b <= b_idx b ->
    exists f, match ShrinkBuffer b false with BOk _ b' => Some (mkFlush WS_SUCCESS b' out sched) | BOob => None end = Some f /\
    buf_inv (f_buf f) /\
    (In SGeneral sched \/ (exists o, f_out f = out ++ o /\ o ++ unread (f_buf f) = unread b)) /\
    (f_rc f = WS_SUCCESS -> unread (f_buf f) = [] /\ f_out f = out ++ unread b) /\
    (f_rc f = WS_SUCCESS \/ f_rc f = WS_WANT_WRITE \/ f_rc f = WS_SOCKET_ERROR_E) /\
    (f_rc f = WS_WANT_WRITE -> exists o, f_out f = out ++ o /\ o ++ unread (f_buf f) = unread b)).
  { intros sched b out Hi Hl. destruct (ShrinkBuffer_spec b false Hi) as (b' & E & Hi' & Eu & _).
    rewrite E. eexists. split; [reflexivity|]. cbn [f_buf f_out f_rc].
    assert (U : unread b = []) by (apply lenN_0; rewrite lenN_unread; lia).
    rewrite Eu, U. split; [assumption|]. split; [right; exists []; rewrite app_nil_r; auto|].
    split; [rewrite app_nil_r; auto|]. split; [auto|]. discriminate. }
  induction sched as [|e sched IH]; intros b out Hi Hh; cbn [SendPacket];
    (destruct (N.leb_spec (b_len b) (b_idx b)) as [Hl|Hl]; [apply FIN; assumption|]);
    pose proof Hi as (H1 & H2 & H3 & H4);
    (destruct (N.ltb_spec (b_cap b) (b_len b)) as [Hc|Hc]; [lia|]).
  - eexists. split; [reflexivity|]. cbn [f_buf f_out f_rc]. split; [assumption|].
    split; [right; exists []; rewrite app_nil_r; auto|]. split; [discriminate|]. split; [auto|].
    intros _. exists []. rewrite app_nil_r; auto.
  - destruct e.
    + cbn [honest_from] in Hh. destruct Hh as [Hn Hh]. rewrite lenN_unread in Hn.
      destruct (N.ltb_spec (b_len b) n) as [Hn2|Hn2]; [lia|].
      set (b1 := mkBuf (b_data b) (add32 (b_idx b) n) (b_cap b) (b_dyn b)).
      assert (Ea : add32 (b_idx b) n = b_idx b + n) by (apply add32_small; unfold is32 in *; lia).
      assert (Hi1 : buf_inv b1).
      { unfold buf_inv, b1, b_len in *; cbn [b_data b_idx b_cap]. rewrite Ea. repeat split; try assumption. lia. }
      assert (Eu : unread b = takeN n (unread b) ++ unread b1).
      { unfold unread at 3, b1; cbn [b_data b_idx]. rewrite Ea. rewrite <- dropN_dropN.
        fold (unread b). symmetry. apply takeN_dropN. }
      assert (Hh1 : honest_from (lenN (unread b1)) sched).
      { replace (lenN (unread b1)) with (lenN (unread b) - n); [assumption|].
        rewrite !lenN_unread. unfold b1, b_len; cbn [b_data b_idx]. lia. }
      destruct (IH b1 (out ++ takeN n (dropN (b_idx b) (b_data b))) Hi1 Hh1) as (f & E & Hi' & K1 & K2 & K3 & K4).
      exists f. split; [assumption|]. split; [assumption|].
      fold (unread b) in *.
      assert (G : forall o, f_out f = (out ++ takeN n (unread b)) ++ o -> o ++ unread (f_buf f) = unread b1 ->
                  exists o0, f_out f = out ++ o0 /\ o0 ++ unread (f_buf f) = unread b).
      { intros o Eo Er. exists (takeN n (unread b) ++ o). rewrite app_assoc. split; [assumption|].
        rewrite <- app_assoc, Er. symmetry; assumption. }
      split. { destruct K1 as [K1|(o & Eo & Er)]; [left; right; assumption|right; eauto]. }
      split. { intros Hs. destruct (K2 Hs) as (U & V). split; [assumption|]. rewrite V, <- app_assoc, <- Eu. reflexivity. }
      split; [assumption|]. intros Hw. destruct (K4 Hw) as (o & Eo & Er). eauto.
    + eexists. split; [reflexivity|]. cbn [f_buf f_out f_rc]. split; [assumption|].
      split; [right; exists []; rewrite app_nil_r; auto|]. split; [discriminate|]. split; [auto|].
      intros _. exists []. rewrite app_nil_r; auto.
    + eexists. split; [reflexivity|]. cbn [f_buf f_out f_rc]. split; [assumption|].
      split; [right; exists []; rewrite app_nil_r; auto|]. split; [discriminate|]. split; [auto|]. discriminate.
    + eexists. split; [reflexivity|]. cbn [f_buf f_out f_rc]. split; [assumption|].
      split; [right; exists []; rewrite app_nil_r; auto|]. split; [discriminate|]. split; [auto|]. discriminate.
    + destruct (ShrinkBuffer_spec b true Hi) as (b' & E & Hi' & Eu & _). rewrite E.
      eexists. split; [reflexivity|]. cbn [f_buf f_out f_rc]. split; [assumption|].
      split; [left; left; reflexivity|]. split; [discriminate|]. split; [auto|]. discriminate.
    + eexists. split; [reflexivity|]. cbn [f_buf f_out f_rc]. split; [assumption|].
      split; [right; exists []; rewrite app_nil_r; auto|]. split; [discriminate|]. split; [auto|]. discriminate.
Qed.

Lemma out_run_conserves : forall b ops sent b', out_run b ops sent b' -> buf_inv b ->
  buf_inv b' /\ sent ++ unread b' = unread b ++ queued ops.
Proof.
  intros b ops sent b' H. induction H as [b|b d b1 ops sent b' Hq Hs Hr IH|b sched f ops sent b' Hf Hh Hg Hr IH]; intros Hi.
  - unfold queued; cbn. rewrite app_nil_r. auto.
  - destruct (bstep_spec b (BReserve true (lenN d) d) Hi) as (r & b2 & E & Hi2 & Eu).
    { cbn. split; lia. }
    rewrite Hq in E. injection E as <- <-. destruct (IH Hi2) as (Hi' & K). split; [assumption|].
    rewrite K, Eu. cbn. rewrite <- app_assoc. reflexivity.
  - destruct (SendPacket_spec sched b [] Hi Hh) as (f' & E & Hi2 & [K|(o & Eo & Er)] & _).
    + contradiction (Hg K).
    + rewrite Hf in E. injection E as <-. destruct (IH Hi2) as (Hi' & K). split; [assumption|].
      cbn in Eo. rewrite Eo, <- app_assoc, K, app_assoc, Er. reflexivity.
Qed.

(* ---- the network stream --------------------------------------------- *)
Lemma no_err_tl : forall e net, no_err (e :: net) -> no_err net.
Proof. unfold no_err; intros e net H K. apply H. right; assumption. Qed.

Lemma ReceiveData_spec : forall net sz, no_err net -> 0 < sz ->
  match ReceiveData net sz with
  | Got d n => 0 < lenN d /\ lenN d <= sz /\ stream net = d ++ stream n /\ no_err n
  | WouldBlock n => stream net = stream n /\ no_err n
  | Failed _ => False
  end.
Proof.
  induction net as [|e net IH]; intros sz Hn Hs; cbn [ReceiveData].
  - auto.
  - destruct e as [d| |]; cbn [stream].
    + destruct (N.eqb_spec (lenN d) 0) as [E|E].
      * apply lenN_0 in E. subst d. cbn [app]. apply IH; [eapply no_err_tl; eassumption|assumption].
      * destruct (N.leb_spec (lenN d) sz) as [L|L].
        { repeat split; try lia. eapply no_err_tl; eassumption. }
        { rewrite lenN_takeN. repeat split; try lia.
          - cbn [stream]. rewrite app_assoc, takeN_dropN. reflexivity.
          - intros [K|K]; [discriminate|]. apply (no_err_tl _ _ Hn K). }
    + split; [reflexivity|eapply no_err_tl; eassumption].
    + apply Hn. left; reflexivity.
Qed.

(* ---- searching the line ---------------------------------------------- *)
Lemma wstrnstr_some : forall d i j, wstrnstr_lf d i = Some j ->
  exists l r, d = l ++ LF :: r /\ ~ In LF l /\ ~ In 0 l /\ j = i + lenN l.
Proof.
  induction d as [|x d IH]; intros i j H; cbn [wstrnstr_lf] in H; [discriminate|].
  destruct (N.eqb_spec x 0) as [E|E]; [discriminate|].
  destruct (N.eqb_spec x LF) as [E2|E2].
  - injection H as <-. exists [], d. subst x. cbn. unfold lenN; cbn. repeat split; auto. lia.
  - destruct (IH _ _ H) as (l & r & -> & N1 & N2 & ->). exists (x :: l), r.
    rewrite lenN_cons. split; [reflexivity|]. split; [intros [K|K]; auto; congruence|].
    split; [intros [K|K]; auto; congruence|]. lia.
Qed.
Lemma wstrnstr_none : forall d i, wstrnstr_lf d i = None ->
  forall l r, ~ In LF l -> ~ In 0 l -> d <> l ++ LF :: r.
Proof.
  induction d as [|x d IH]; intros i H l r N1 N2 E.
  - destruct l; discriminate.
  - cbn [wstrnstr_lf] in H. destruct (N.eqb_spec x 0) as [E0|E0].
    + subst x. destruct l as [|y l]; injection E as Ey Et; [discriminate|]. subst y. apply N2; left; reflexivity.
    + destruct (N.eqb_spec x LF) as [E2|E2]; [discriminate|].
      destruct l as [|y l]; injection E as Ey Et; [congruence|].
      apply (IH _ H l r); [intro K; apply N1; right; exact K|intro K; apply N2; right; exact K|assumption].
Qed.

Lemma split_unique : forall (x : N) l r l2 r2, ~ In x l -> ~ In x l2 -> l ++ x :: r = l2 ++ x :: r2 -> l = l2 /\ r = r2.
Proof.
  induction l as [|y l IH]; intros r l2 r2 H1 H2 E; destruct l2 as [|z l2]; cbn in E.
  - injection E as E2. auto.
  - injection E as E1 E2. subst z. exfalso; apply H2; left; reflexivity.
  - injection E as E1 E2. subst y. exfalso; apply H1; left; reflexivity.
  - injection E as E1 E2. subst z. destruct (IH r l2 r2) as [-> ->]; auto; intro K; [apply H1|apply H2]; right; assumption.
Qed.

Lemma gil_loop_spec : forall fuel b net,
  buf_inv b -> b_idx b = 0 -> b_len b <= PROTOID_LIMIT -> no_err net ->
  PROTOID_LIMIT <= b_len b + N.of_nat fuel ->
  match gil_loop fuel b net with
  | LOk eol b' n => buf_inv b' /\ b_idx b' = 0 /\ b_len b' <= PROTOID_LIMIT /\ no_err n /\
      b_data b' ++ stream n = b_data b ++ stream net /\
      exists lf, wstrnstr_lf (b_data b') 0 = Some lf /\ eol = eol_of (b_data b') lf
  | LErr e b' n => buf_inv b' /\ b_idx b' = 0 /\ b_len b' <= PROTOID_LIMIT /\ no_err n /\
      b_data b' ++ stream n = b_data b ++ stream net /\ wstrnstr_lf (b_data b') 0 = None /\
      (e = WS_WANT_READ \/ (e = WS_VERSION_E /\ PROTOID_LIMIT <= b_len b'))
  | _ => False
  end.
Proof.
  induction fuel as [|fuel IH]; intros b net Hi Hx Hl Hn Hf; cbn [gil_loop];
    (destruct (wstrnstr_lf (b_data b) 0) as [lf|] eqn:W; [repeat (split; [assumption || reflexivity|]); eauto|]);
    (destruct (N.leb_spec PROTOID_LIMIT (b_len b)) as [L|L]; [repeat (split; [assumption || reflexivity|]); right; auto|]).
  - lia.
  - assert (Eu : unread b = b_data b) by (unfold unread; rewrite Hx; reflexivity).
    destruct (GrowBuffer_spec true b (PROTOID_LIMIT - b_len b) Hi) as (r & b1 & E & [K|(_ & K & _)]);
      [|  |discriminate].
    { rewrite Eu. fold (b_len b). unfold PROTOID_LIMIT, W32 in *. lia. }
    destruct K as (-> & Hi1 & Eu1 & Ex1 & Ed1 & Hr1 & _). rewrite E. cbn [rc_eqb negb].
    rewrite Eu in Ed1. change (rc_eqb WS_SUCCESS WS_SUCCESS) with true. cbn [negb].
    assert (El1 : b_len b1 = b_len b) by (unfold b_len; rewrite Ed1; reflexivity).
    pose proof (ReceiveData_spec net (PROTOID_LIMIT - b_len b) Hn) as R.
    destruct (ReceiveData net (PROTOID_LIMIT - b_len b)) as [d n|n|n].
    + destruct R as (R1 & R2 & R3 & R4); [lia|].
      destruct (put_end_spec b1 d Hi1) as (b2 & E2 & Hi2 & Eu2 & Ex2 & Ed2 & Ec2); [lia|].
      rewrite E2. assert (El2 : b_len b2 = b_len b1 + lenN d) by (unfold b_len; rewrite Ed2, lenN_app; reflexivity).
      specialize (IH b2 n). destruct (gil_loop fuel b2 n) as [eol b' n'|e b' n'| |]; apply IH in Hi2; try lia; try assumption.
      * destruct Hi2 as (K1 & K2 & K3 & K4 & K5 & K6). repeat (split; [assumption|]). split; [|assumption].
        rewrite K5, Ed2, Ed1, R3, <- app_assoc. reflexivity.
      * destruct Hi2 as (K1 & K2 & K3 & K4 & K5 & K6). repeat (split; [assumption|]). split; [|assumption].
        rewrite K5, Ed2, Ed1, R3, <- app_assoc. reflexivity.
    + destruct R as (R1 & R2); [lia|]. split; [assumption|]. split; [assumption|]. split; [lia|]. split; [assumption|].
      rewrite Ed1, R1. split; [reflexivity|]. auto.
    + destruct R; lia.
Qed.

Lemma GetInputLine_spec : forall b net,
  buf_inv b -> b_len b <= PROTOID_LIMIT -> no_err net ->
  match GetInputLine b net with
  | LOk eol b' n => buf_inv b' /\ b_idx b' = 0 /\ b_len b' <= PROTOID_LIMIT /\ no_err n /\
      b_data b' ++ stream n = unread b ++ stream net /\
      exists lf, wstrnstr_lf (b_data b') 0 = Some lf /\ eol = eol_of (b_data b') lf
  | LErr e b' n => buf_inv b' /\ b_idx b' = 0 /\ b_len b' <= PROTOID_LIMIT /\ no_err n /\
      b_data b' ++ stream n = unread b ++ stream net /\ wstrnstr_lf (b_data b') 0 = None /\
      (e = WS_WANT_READ \/ (e = WS_VERSION_E /\ PROTOID_LIMIT <= b_len b'))
  | _ => False
  end.
Proof.
  intros b net Hi Hl Hn. unfold GetInputLine.
  destruct (GrowBuffer_spec true b 0 Hi) as (r & b1 & E & [K|(_ & K & _)]); [| |discriminate].
  { rewrite lenN_unread. unfold PROTOID_LIMIT, W32 in *. lia. }
  destruct K as (-> & Hi1 & Eu1 & Ex1 & Ed1 & Hr1 & _). rewrite E.
  change (rc_eqb WS_SUCCESS WS_SUCCESS) with true. cbn [negb]. rewrite <- Ed1.
  apply gil_loop_spec; try assumption.
  - unfold b_len. rewrite Ed1, lenN_unread. lia.
  - rewrite N2Nat.id. lia.
Qed.

(* ---- prefixes, terminators ------------------------------------------- *)
Lemma has_prefix_begins : forall p d, has_prefix p d = true <-> begins p d.
Proof.
  unfold begins. induction p as [|x p IH]; intros d; cbn [has_prefix].
  - split; [intros _; exists d; reflexivity|reflexivity].
  - destruct d as [|y d]; [split; [discriminate|intros (r & H); discriminate]|].
    rewrite andb_true_iff, IH, N.eqb_eq. split.
    + intros (-> & r & ->). exists r. reflexivity.
    + intros (r & H). injection H as -> ->. eauto.
Qed.
Lemma has_prefix_line : forall p l r, ~ In LF p -> has_prefix p (l ++ LF :: r) = has_prefix p l.
Proof.
  induction p as [|x p IH]; intros l r H; [reflexivity|]. cbn [has_prefix].
  destruct l as [|y l]; cbn [app].
  - destruct (N.eqb_spec x LF) as [E|E]; [exfalso; apply H; left; auto|reflexivity].
  - rewrite IH; [reflexivity|]. intro K; apply H; right; assumption.
Qed.

Lemma eol_facts : forall l r, exists c,
  rd (l ++ LF :: r) (eol_of (l ++ LF :: r) (lenN l)) = Some c /\
  eol_of (l ++ LF :: r) (lenN l) + (if c =? CR then 2 else 1) = lenN l + 1 /\
  takeN (eol_of (l ++ LF :: r) (lenN l)) (l ++ LF :: r) = strip_cr l.
Proof.
  intros l r. unfold eol_of.
  destruct (rev l) as [|c rl] eqn:El.
  - assert (l = []) by (rewrite <- (rev_involutive l), El; reflexivity). subst l.
    exists LF. split; [reflexivity|split; reflexivity].
  - assert (E : l = rev rl ++ [c]) by (rewrite <- (rev_involutive l), El; reflexivity).
    set (q := rev rl) in *. subst l. rewrite lenN_app, lenN_cons, lenN_nil.
    unfold strip_cr. rewrite El.
    assert (Er : rev rl = q) by reflexivity. clearbody q. rewrite Er.
    assert (R1 : rd ((q ++ [c]) ++ LF :: r) (lenN q + (1 + 0) - 1) = Some c).
    { rewrite <- app_assoc. replace (lenN q + (1 + 0) - 1) with (lenN q + 0) by lia.
      rewrite rd_app_r. reflexivity. }
    rewrite R1. destruct (N.ltb_spec 0 (lenN q + (1 + 0))); [|lia]. cbn [andb].
    destruct (N.eqb_spec c CR) as [E2|E2].
    + exists c. rewrite R1. split; [reflexivity|]. rewrite (proj2 (N.eqb_eq c CR) E2). split; [lia|].
      rewrite <- app_assoc. rewrite takeN_app_exact by lia. reflexivity.
    + exists LF. split; [|split].
      * replace (lenN q + (1 + 0)) with (lenN (q ++ [c]) + 0) by (rewrite lenN_app, lenN_cons, lenN_nil; lia).
        rewrite rd_app_r. reflexivity.
      * cbn. lia.
      * apply takeN_app_exact. rewrite lenN_app, lenN_cons, lenN_nil. lia.
Qed.

(* what one round of the version loop sees *)
Lemma line_round : forall v net, v_fresh v -> no_err net ->
  let total := unread (v_buf v) ++ stream net in
  match GetInputLine (v_buf v) net with
  | LOk eol b n => no_err n /\ buf_inv b /\ b_len b <= PROTOID_LIMIT /\ b_idx b = 0 /\
      exists l rest c, b_data b = l ++ LF :: rest /\ text_line l /\
        total = l ++ LF :: (rest ++ stream n) /\
        rd (b_data b) eol = Some c /\ eol + (if c =? CR then 2 else 1) = lenN l + 1 /\
        takeN eol (b_data b) = strip_cr l
  | LErr e b n => no_err n /\ buf_inv b /\ b_len b <= PROTOID_LIMIT /\ unread b ++ stream n = total /\
      (e = WS_WANT_READ \/ (e = WS_VERSION_E /\ forall l s, text_line l -> total <> l ++ LF :: s))
  | _ => False
  end.
Proof.
  intros v net (Hi & Hl & Hb & Hd) Hn total.
  pose proof (GetInputLine_spec (v_buf v) net Hi Hl Hn) as G.
  destruct (GetInputLine (v_buf v) net) as [eol b n|e b n| |]; try assumption.
  - destruct G as (G1 & G2 & G3 & G4 & G5 & lf & W & ->). repeat (split; [assumption|]).
    destruct (wstrnstr_some _ _ _ W) as (l & r & Ed & N1 & N2 & ->).
    destruct (eol_facts l r) as (c & F1 & F2 & F3).
    exists l, r, c. rewrite Ed. rewrite ?N.add_0_l. repeat (split; [assumption || reflexivity|]).
    split. { split; [assumption|]. split; [assumption|]. unfold b_len in G3. rewrite Ed, lenN_app, lenN_cons in G3.
             unfold PROTOID_LIMIT in *. lia. }
    split. { unfold total. rewrite <- G5, Ed, <- app_assoc. reflexivity. }
    auto.
  - destruct G as (G1 & G2 & G3 & G4 & G5 & G6 & G7). repeat (split; [assumption|]).
    split. { unfold unread. rewrite G2. cbn. assumption. }
    destruct G7 as [->|(-> & G7)]; [auto|]. right. split; [reflexivity|].
    intros l s (T1 & T2 & T3) E. unfold total in E. rewrite <- G5 in E.
    assert (Ed : takeN (lenN l + 1) (b_data b ++ stream n) = l ++ [LF]).
    { rewrite E. rewrite takeN_app_r by lia. replace (lenN l + 1 - lenN l) with 1 by lia. reflexivity. }
    rewrite takeN_app_l in Ed by (fold (b_len b); unfold PROTOID_LIMIT in *; lia).
    apply (wstrnstr_none _ _ G6 l (dropN (lenN l + 1) (b_data b)) T1 T2).
    rewrite <- (takeN_dropN _ (lenN l + 1) (b_data b)) at 1. rewrite Ed, <- app_assoc. reflexivity.
Qed.

Lemma prefix_no_lf : ~ In LF SSH_DASH /\ ~ In LF SSH_PROTO_PREFIX.
Proof. split; cbn; intuition discriminate. Qed.

(* buffer after consuming a line *)
Lemma consume_line : forall b l rest k, buf_inv b -> b_idx b = 0 -> b_len b <= PROTOID_LIMIT ->
  b_data b = l ++ LF :: rest -> k = lenN l + 1 ->
  buf_inv (mkBuf (b_data b) k (b_cap b) (b_dyn b)) /\ unread (mkBuf (b_data b) k (b_cap b) (b_dyn b)) = rest /\
  b_len (mkBuf (b_data b) k (b_cap b) (b_dyn b)) <= PROTOID_LIMIT.
Proof.
  intros b l rest k (H1 & H2 & H3 & H4) Hx Hl Ed ->. unfold buf_inv, unread, b_len in *. cbn [b_data b_idx b_cap].
  split; [|split; [|assumption]].
  - repeat split; try assumption. rewrite Ed, lenN_app, lenN_cons. lia.
  - rewrite Ed. rewrite dropN_app_r by lia. replace (lenN l + 1 - lenN l) with 1 by lia. reflexivity.
Qed.

(* soundness of one call *)
Lemma proto_loop_sound : forall fuel server v net, v_fresh v -> no_err net ->
  match proto_loop fuel server v net with
  | VRet r v' n =>
      no_err n /\ (v_done v' = true <-> r = WS_SUCCESS) /\
      (r = WS_SUCCESS -> version_in server (v_banners v) (unread (v_buf v) ++ stream net) (v_id v') (unread (v_buf v') ++ stream n)) /\
      (r = WS_WANT_READ -> v_fresh v' /\
         forall id rest, version_in server (v_banners v') (unread (v_buf v') ++ stream n) id rest ->
                         version_in server (v_banners v) (unread (v_buf v) ++ stream net) id rest)
  | VOob => False
  | VNoFuel => N.of_nat fuel + v_banners v <= MAX_BANNER_LINES + 1
  end.
Proof.
  induction fuel as [|fuel IH]; intros server v net Hf Hn; cbn [proto_loop].
  - destruct Hf as (_ & _ & Hb & _). lia.
  - pose proof (line_round v net Hf Hn) as L. cbv zeta in L. pose proof Hf as (Hi & Hl & Hb & Hd).
    destruct (GetInputLine (v_buf v) net) as [eol b n|e b n| |]; try contradiction.
    + destruct L as (L1 & L2 & L3 & L4 & l & rest & c & Ed & T & Et & Ec & Ee & Es).
      rewrite Ec.
      assert (PL : forall p, ~ In LF p -> has_prefix p (b_data b) = has_prefix p l) by (intros p Hp; rewrite Ed; apply has_prefix_line; assumption).
      rewrite (PL SSH_DASH), (PL SSH_PROTO_PREFIX) by apply prefix_no_lf.
      pose proof (fun k => consume_line b l rest k L2 L4 L3 Ed) as CL.
      assert (Hlen : lenN l + 1 <= 255) by apply T.
      destruct (has_prefix SSH_DASH l) eqn:P1.
      * destruct (has_prefix SSH_PROTO_PREFIX l) eqn:P2.
        { assert (A : add32 (add32 (b_idx b) eol) (if c =? CR then 2 else 1) = lenN l + 1).
          { rewrite L4. unfold add32, w32, W32. set (z := if c =? CR then 2 else 1) in *. clearbody z. lia. }
          rewrite A. destruct (CL (lenN l + 1) eq_refl) as (C1 & C2 & C3).
          destruct (ShrinkBuffer_spec _ false C1) as (b' & E & Hi' & Eu & _). rewrite E.
          cbn [v_done v_buf v_id v_banners]. split; [assumption|]. split; [tauto|].
          split; [|discriminate]. intros _. rewrite Et, Eu, C2, Es. apply vi_line; [assumption|].
          apply has_prefix_begins; assumption. }
        { cbn [v_done]. split; [assumption|]. split; [rewrite Hd; split; discriminate|]. split; discriminate. }
      * destruct server.
        { cbn [v_done]. split; [assumption|]. split; [rewrite Hd; split; discriminate|]. split; discriminate. }
        destruct (N.ltb_spec MAX_BANNER_LINES (v_banners v + 1)) as [B|B].
        { cbn [v_done]. split; [assumption|]. split; [rewrite Hd; split; discriminate|]. split; discriminate. }
        assert (A : add32 (b_idx b) (add32 eol (if c =? CR then 2 else 1)) = lenN l + 1).
        { rewrite L4. unfold add32, w32, W32. set (z := if c =? CR then 2 else 1) in *. clearbody z. lia. }
        rewrite A. destruct (CL (lenN l + 1) eq_refl) as (C1 & C2 & C3).
        set (v1 := mkV (mkBuf (b_data b) (lenN l + 1) (b_cap b) (b_dyn b)) (v_banners v + 1) (v_done v) (v_id v)).
        assert (Hf1 : v_fresh v1) by (unfold v_fresh, v1; cbn [v_buf v_banners v_done]; auto).
        specialize (IH false v1 n Hf1 L1). destruct (proto_loop fuel false v1 n) as [r v' n'| |]; [|assumption|].
        { destruct IH as (I1 & I2 & I3 & I4). split; [assumption|]. split; [assumption|].
          assert (STEP : forall id rst, version_in false (v_banners v1) (unread (v_buf v1) ++ stream n) id rst ->
                   version_in false (v_banners v) (unread (v_buf v) ++ stream net) id rst).
          { intros id rst H. unfold v1 in H; cbn [v_buf v_banners] in H. rewrite C2 in H.
            rewrite Et. apply vi_banner; try assumption; try reflexivity. { lia. }
            intro K. apply has_prefix_begins in K. congruence. }
          split. { intros Hr. apply STEP, I3, Hr. }
          intros Hr. destruct (I4 Hr) as (J1 & J2). split; [assumption|]. intros id rst H. apply STEP, J2, H. }
        { unfold v1 in IH; cbn [v_banners] in IH. lia. }
    + destruct L as (L1 & L2 & L3 & L4 & L5). cbn [v_done v_buf v_banners].
      split; [assumption|]. split. { rewrite Hd. destruct L5 as [->|(-> & _)]; split; discriminate. }
      split. { destruct L5 as [->|(-> & _)]; discriminate. }
      intros ->. split. { unfold v_fresh; cbn [v_buf v_banners v_done]; auto. }
      intros id rst H. rewrite L4 in H. exact H.
Qed.

(* completeness of one call *)
Lemma proto_loop_complete : forall fuel server v net id rest, v_fresh v -> no_err net ->
  MAX_BANNER_LINES + 1 < N.of_nat fuel + v_banners v ->
  version_in server (v_banners v) (unread (v_buf v) ++ stream net) id rest ->
  exists r v' n, proto_loop fuel server v net = VRet r v' n /\ no_err n /\
   ((r = WS_SUCCESS /\ v_id v' = id /\ unread (v_buf v') ++ stream n = rest) \/
    (r = WS_WANT_READ /\ v_fresh v' /\ version_in server (v_banners v') (unread (v_buf v') ++ stream n) id rest)).
Proof.
  induction fuel as [|fuel IH]; intros server v net id rest Hf Hn Hk V; cbn [proto_loop].
  - destruct Hf as (_ & _ & Hb & _). lia.
  - pose proof (line_round v net Hf Hn) as L. cbv zeta in L. pose proof Hf as (Hi & Hl & Hb & Hd).
    remember (unread (v_buf v) ++ stream net) as total eqn:Tot.
    assert (Vl : exists l s, total = l ++ LF :: s /\ text_line l).
    { inversion V; subst; eauto. }
    destruct (GetInputLine (v_buf v) net) as [eol b n|e b n| |]; try contradiction.
    + destruct L as (L1 & L2 & L3 & L4 & l & rs & c & Ed & T & Et & Ec & Ee & Es).
      rewrite Ec.
      assert (PL : forall p, ~ In LF p -> has_prefix p (b_data b) = has_prefix p l) by (intros p Hp; rewrite Ed; apply has_prefix_line; assumption).
      rewrite (PL SSH_DASH), (PL SSH_PROTO_PREFIX) by apply prefix_no_lf.
      pose proof (fun k => consume_line b l rs k L2 L4 L3 Ed) as CL.
      destruct (CL (lenN l + 1) eq_refl) as (C1 & C2 & C3).
      assert (Hlen : lenN l + 1 <= 255) by apply T.
      inversion V as [n0 l0 rest0 T0 B0 E1 E2 E3 E4|n0 l0 s0 id0 rest0 Es0 Hb0 T0 B0 V0 E1 E2 E3 E4].
      * subst n0 id rest0. rewrite Et in E2.
        destruct (split_unique LF l0 rest l (rs ++ stream n)) as (-> & Er); [apply T0|apply T|assumption|].
        assert (P2 : has_prefix SSH_PROTO_PREFIX l = true) by (apply has_prefix_begins; assumption).
        assert (P1 : has_prefix SSH_DASH l = true).
        { apply has_prefix_begins. destruct B0 as (q & ->). exists ([50;46;48;45] ++ q). reflexivity. }
        rewrite P1, P2.
        assert (A : add32 (add32 (b_idx b) eol) (if c =? CR then 2 else 1) = lenN l + 1).
        { rewrite L4. unfold add32, w32, W32. set (z := if c =? CR then 2 else 1) in *. clearbody z. lia. }
        rewrite A. destruct (ShrinkBuffer_spec _ false C1) as (b' & E & Hi' & Eu & _). rewrite E.
        do 3 eexists. split; [reflexivity|]. split; [assumption|]. left. cbn [v_id v_buf].
        split; [reflexivity|]. split; [assumption|]. rewrite Eu, C2, Er. reflexivity.
      * subst n0 id0 rest0. rewrite Et in E2.
        destruct (split_unique LF l0 s0 l (rs ++ stream n)) as (-> & Er); [apply T0|apply T|assumption|].
        assert (P1 : has_prefix SSH_DASH l = false).
        { destruct (has_prefix SSH_DASH l) eqn:P; [|reflexivity]. exfalso. apply B0, has_prefix_begins. assumption. }
        rewrite P1. subst server.
        destruct (N.ltb_spec MAX_BANNER_LINES (v_banners v + 1)) as [B|B]; [lia|].
        assert (A : add32 (b_idx b) (add32 eol (if c =? CR then 2 else 1)) = lenN l + 1).
        { rewrite L4. unfold add32, w32, W32. set (z := if c =? CR then 2 else 1) in *. clearbody z. lia. }
        rewrite A.
        apply IH.
        { unfold v_fresh; cbn [v_buf v_banners v_done]; auto. }
        { assumption. }
        { cbn [v_banners]. lia. }
        { cbn [v_banners v_buf]. rewrite C2, <- Er. assumption. }
    + destruct L as (L1 & L2 & L3 & L4 & [->|(-> & L5)]).
      * do 3 eexists. split; [reflexivity|]. split; [assumption|]. right. split; [reflexivity|].
        split. { unfold v_fresh; cbn [v_buf v_banners v_done]; auto. }
        cbn [v_buf v_banners]. rewrite L4. assumption.
      * destruct Vl as (l & s & E & T). exfalso. exact (L5 l s T E).
Qed.

Lemma proto_run_sound : forall server v net r v' net', proto_run server v net r v' net' ->
  v_fresh v -> no_err net ->
  (v_done v' = true <-> r = WS_SUCCESS) /\
  (r = WS_SUCCESS -> version_in server (v_banners v) (unread (v_buf v) ++ stream net) (v_id v') (unread (v_buf v') ++ stream net')).
Proof.
  intros server v net r v' net' H. induction H as [v net r v' net' E|v net v1 net1 r v' net' E H IH]; intros Hf Hn;
    unfold DoProtoId in E; set (fuel := (N.to_nat MAX_BANNER_LINES + 2)%nat) in *; clearbody fuel;
    pose proof (proto_loop_sound fuel server v net Hf Hn) as S; rewrite E in S.
  - tauto.
  - destruct S as (S1 & _ & _ & S4). destruct (S4 eq_refl) as (F & K).
    destruct (IH F S1) as (I1 & I2). split; [assumption|]. intros Hr. apply K, I2, Hr.
Qed.

Lemma proto_run_complete : forall server v net r v' net', proto_run server v net r v' net' ->
  forall id rest, v_fresh v -> no_err net ->
  version_in server (v_banners v) (unread (v_buf v) ++ stream net) id rest -> r <> WS_WANT_READ ->
  r = WS_SUCCESS /\ v_id v' = id /\ unread (v_buf v') ++ stream net' = rest.
Proof.
  assert (FU : forall v, MAX_BANNER_LINES + 1 < N.of_nat (N.to_nat MAX_BANNER_LINES + 2) + v_banners v).
  { intros v. unfold MAX_BANNER_LINES. lia. }
  intros server v net r v' net' H. induction H as [v net r v' net' E|v net v1 net1 r v' net' E H IH];
    intros id rest Hf Hn V Hr; unfold DoProtoId in E;
    destruct (proto_loop_complete _ server v net id rest Hf Hn (FU v) V) as (r0 & v0 & n0 & E0 & Hn0 & [K|K]);
    rewrite E in E0; injection E0 as <- <- <-.
  - tauto.
  - destruct K as (-> & _). contradiction Hr; reflexivity.
  - destruct K as (K & _). discriminate.
  - destruct K as (_ & F & V1). apply IH; assumption.
Qed.

(* ---- thresholds ------------------------------------------------------ *)
Definition lim (m : N) : nat := if m =? 0 then 0%nat else 1%nat.

(* stored counters are the true ones modulo 2^32; the invocations of the
   current epoch are at most the flags set *)
Definition hw_ok (mark mmark : N) (h : hw) (p : epoch) (calls : list nat) : Prop :=
  h_mark h = mark /\ h_mmark h = mmark /\
  h_tx h = w32 (e_tx p) /\ h_rx h = w32 (e_rx p) /\ h_txm h = w32 (e_txm p) /\ h_rxm h = w32 (e_rxm p) /\
  (h_flag h = true -> mark <> 0) /\ (h_mflag h = true -> mmark <> 0) /\
  exists c t, calls = c :: t /\
    (c <= (if h_flag h then 1 else 0) + (if h_mflag h then 1 else 0))%nat /\
    ((h_flag h = true \/ h_mflag h = true) -> (1 <= c)%nat) /\
    Forall (fun c => (c <= lim mark + lim mmark)%nat) t.

Lemma w32_add : forall a n, add32 (w32 a) n = w32 (a + n).
Proof. intros a n. unfold add32, w32, W32. lia. Qed.

Lemma check_ok : forall mark mmark h p calls r, hw_ok mark mmark h p calls ->
  let '(h', _, n) := HighwaterCheck (Some r) h in
  match calls with c :: t => hw_ok mark mmark h' p ((c + n)%nat :: t) | [] => False end /\
  ((n > 0)%nat -> (mark <> 0 /\ (mark <= e_tx p \/ mark <= e_rx p)) \/ (mmark <> 0 /\ (mmark <= e_txm p \/ mmark <= e_rxm p))) /\
  (mark <> 0 -> (mark <= w32 (e_tx p) \/ mark <= w32 (e_rx p)) -> h_flag h' = true) /\
  (mmark <> 0 -> (mmark <= w32 (e_txm p) \/ mmark <= w32 (e_rxm p)) -> h_mflag h' = true).
Proof.
  intros mark mmark h p calls r (M & MM & A1 & A2 & A3 & A4 & F1 & F2 & c & t & -> & C1 & C2 & C3).
  assert (FB : hw_byte_fires h = true <-> h_flag h = false /\ mark <> 0 /\ (mark <= w32 (e_tx p) \/ mark <= w32 (e_rx p))).
  { unfold hw_byte_fires. rewrite M, A1, A2. destruct (h_flag h); lia. }
  assert (FM : hw_msg_fires h = true <-> h_mflag h = false /\ mmark <> 0 /\ (mmark <= w32 (e_txm p) \/ mmark <= w32 (e_rxm p))).
  { unfold hw_msg_fires. rewrite MM, A3, A4. destruct (h_mflag h); lia. }
  assert (W : forall x, w32 x <= x) by (intros x; unfold w32, W32; lia).
  pose proof (W (e_tx p)). pose proof (W (e_rx p)). pose proof (W (e_txm p)). pose proof (W (e_rxm p)).
  unfold HighwaterCheck. unfold hw_ok.
  destruct (hw_byte_fires h), (hw_msg_fires h); cbn [orb h_flag h_mark h_mflag h_mmark h_tx h_rx h_txm h_rxm];
    (split; [do 6 (split; [assumption|])|]).
  all: destruct (h_flag h) eqn:Ef, (h_mflag h) eqn:Em; cbn [orb] in *.
  all: try (exfalso; intuition discriminate).
  all: try (split; [|split]; [intros; lia| intros; try reflexivity; exfalso; intuition discriminate | intros; try reflexivity; exfalso; intuition discriminate]).
  all: try (do 2 (split; [intros; tauto|]); eexists; exists t; split; [reflexivity|];
            split; [lia|]; split; [intuition (try lia; try discriminate)|assumption]).
  all: try (split; [tauto|split; tauto]).
Qed.

Lemma hw_ok_app : forall mark mmark h p calls e, has_cb e -> hw_ok mark mmark h p calls ->
  let '(h', n) := hw_step h e in
  hw_ok mark mmark h' (ep_step p e)
    (match e with HRecvNewKeys => O :: match calls with [] => [n] | c :: t => (c + n)%nat :: t end
                | _ => match calls with [] => [n] | c :: t => (c + n)%nat :: t end end) /\
  ((n > 0)%nat ->
     (mark <> 0 /\ (mark <= e_tx (ep_step p e) \/ mark <= e_rx (ep_step p e))) \/
     (mmark <> 0 /\ (mmark <= e_txm (ep_step p e) \/ mmark <= e_rxm (ep_step p e)))) /\
  (is_check e = true ->
   (mark <> 0 -> (mark <= w32 (e_tx (ep_step p e)) \/ mark <= w32 (e_rx (ep_step p e))) -> h_flag h' = true) /\
   (mmark <> 0 -> (mmark <= w32 (e_txm (ep_step p e)) \/ mmark <= w32 (e_rxm (ep_step p e))) -> h_mflag h' = true)).
Proof.
  intros mark mmark h p calls e Hc Hk.
  assert (CNT : forall h' p', hw_ok mark mmark h p calls ->
     h_flag h' = h_flag h -> h_mflag h' = h_mflag h -> h_mark h' = h_mark h -> h_mmark h' = h_mmark h ->
     h_tx h' = w32 (e_tx p') -> h_rx h' = w32 (e_rx p') -> h_txm h' = w32 (e_txm p') -> h_rxm h' = w32 (e_rxm p') ->
     hw_ok mark mmark h' p' (match calls with [] => [0%nat] | c :: t => (c + 0)%nat :: t end)).
  { intros h' p' (M & MM & _ & _ & _ & _ & F1 & F2 & c & t & -> & C1 & C2 & C3) E1 E2 E3 E4 E5 E6 E7 E8.
    unfold hw_ok. rewrite E1, E2, E3, E4. do 8 (split; [assumption|]). exists (c + 0)%nat, t.
    rewrite Nat.add_0_r. auto. }
  pose proof Hk as (M & MM & A1 & A2 & A3 & A4 & F1 & F2 & c & t & Ec & C1 & C2 & C3).
  destruct e as [n|n| |cb|cb| |]; cbn [hw_step ep_step is_check has_cb] in *.
  - split; [|split; [lia|discriminate]].
    apply CNT; try assumption; try reflexivity; cbn; rewrite ?A1, ?A2, ?A3, ?A4, ?w32_add; reflexivity.
  - split; [|split; [lia|discriminate]].
    apply CNT; try assumption; try reflexivity; cbn; rewrite ?A1, ?A2, ?A3, ?A4, ?w32_add; reflexivity.
  - split; [|split; [lia|discriminate]].
    apply CNT; try assumption; try reflexivity; cbn; rewrite ?A1, ?A2, ?A3, ?A4, ?w32_add; reflexivity.
  - destruct cb as [r|]; [|contradiction].
    pose proof (check_ok mark mmark h p calls r Hk) as K.
    destruct (HighwaterCheck (Some r) h) as [[h' r'] n]. rewrite Ec in *. tauto.
  - destruct cb as [r|]; [|contradiction].
    set (h1 := mkHw (h_flag h) (h_mark h) (h_mflag h) (h_mmark h) (h_tx h) (h_rx h) (h_txm h) (add32 (h_rxm h) 1)).
    set (p1 := mkEp (e_tx p) (e_rx p) (e_txm p) (e_rxm p + 1)).
    assert (Hk1 : hw_ok mark mmark h1 p1 calls).
    { unfold hw_ok, h1, p1; cbn [h_flag h_mark h_mflag h_mmark h_tx h_rx h_txm h_rxm e_tx e_rx e_txm e_rxm].
      rewrite A4, w32_add. do 8 (split; [assumption || reflexivity|]). exists c, t. auto. }
    pose proof (check_ok mark mmark h1 p1 calls r Hk1) as K.
    destruct (HighwaterCheck (Some r) h1) as [[h' r'] n]. rewrite Ec in *. tauto.
  - split; [|split; [lia|discriminate]].
    apply CNT; try assumption; try reflexivity; cbn; rewrite ?A1, ?A2, ?A3, ?A4, ?w32_add; reflexivity.
  - split; [|split; [lia|discriminate]].
    rewrite Ec. unfold hw_ok; cbn [h_flag h_mark h_mflag h_mmark h_tx h_rx h_txm h_rxm e_tx e_rx e_txm e_rxm].
    do 6 (split; [assumption || reflexivity|]). do 2 (split; [discriminate|]).
    exists 0%nat, ((c + 0)%nat :: t). split; [reflexivity|]. split; [lia|]. split; [intuition discriminate|].
    constructor; [|assumption]. rewrite Nat.add_0_r. unfold lim.
    destruct (h_flag h), (h_mflag h); destruct (N.eqb_spec mark 0), (N.eqb_spec mmark 0);
      try (exfalso; apply F1; auto; fail); try (exfalso; apply F2; auto; fail); lia.
Qed.

Lemma hw_run_ok : forall mark mmark es h p calls h' p' calls',
  Forall has_cb es -> hw_ok mark mmark h p calls -> hw_run h p calls es = (h', p', calls') ->
  hw_ok mark mmark h' p' calls'.
Proof.
  intros mark mmark es. induction es as [|e es IH]; intros h p calls h' p' calls' Hc Hk E; cbn [hw_run] in E.
  - injection E as <- <- <-. assumption.
  - inversion Hc as [|? ? Hc1 Hc2]; subst. pose proof (hw_ok_app mark mmark h p calls e Hc1 Hk) as K.
    destruct (hw_step h e) as [h1 n]. destruct K as (K & _).
    eapply IH; [assumption|exact K|exact E].
Qed.

Lemma hw_run_app : forall es1 es2 h p calls,
  hw_run h p calls (es1 ++ es2) = let '(h', p', calls') := hw_run h p calls es1 in hw_run h' p' calls' es2.
Proof.
  induction es1 as [|e es1 IH]; intros es2 h p calls; cbn [hw_run app]; [reflexivity|].
  destruct (hw_step h e) as [h1 n]. apply IH.
Qed.

Lemma hw_start_ok : forall mark mmark, hw_ok mark mmark (hw_start mark mmark) ep_start [0%nat].
Proof.
  intros. unfold hw_ok, hw_start, ep_start; cbn. repeat split; try discriminate.
  exists 0%nat, []. repeat split; auto. intuition discriminate.
Qed.
