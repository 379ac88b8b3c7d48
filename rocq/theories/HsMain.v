(* HsMain.v - the invariants along histories of calls. *)
From Verif Require Import Base WireModel WireSpec WireProofs NegoModel AuthModel AuthSpec AuthProofs AuthStep HsModel HsSpec HsProofs HsStep HsStep2 HsStep3 HsRun HsAccept HsConnect.
From Coq Require Import List NArith Bool Lia.
Import ListNotations.
Open Scope N_scope.

Lemma init_INV : forall c user max q io, INV c (init_hs c user max q io).
Proof.
  intros. constructor; unfold keying, expecting, agreed, kexof, hashing, client_state; cbn; try discriminate; try reflexivity; try tauto; try (intros; discriminate); try (intros; lia); auto.
  all: try (intros _; split; lia).
  intros ->. discriminate.
Qed.
Lemma init_rest7 : forall c user max q io, rest7 (init_hs c user max q io).
Proof. intros. unfold rest7. cbn. lia. Qed.
Lemma init_K : forall c user max q io, K (init_hs c user max q io).
Proof. intros. unfold K. cbn. discriminate. Qed.
Lemma init_Arest : forall c user max q io, Arest (init_hs c user max q io).
Proof.
  intros. right. split; [left; reflexivity|]. cbn [s_acc init_hs].
  constructor; cbn; try lia; try exact Logic.I; auto; try (intros; lia).
  - apply init_K.
  - split; cbn; [lia|tauto].
Qed.
Lemma init_Crest : forall c user max q io, Crest (init_hs c user max q io).
Proof.
  intros. right. split; [left; reflexivity|]. cbn [s_con init_hs].
  constructor; cbn; try lia; try exact Logic.I; auto; try (intros; lia).
  - apply init_K.
  - exists OGexRequest. split; [left; reflexivity|reflexivity].
Qed.

(* a DoReceive that reports anything but a fatal error left no fatal error *)
Lemma DoReceive_fatal : forall c x s, snd (DoReceive c x s) <> WS_FATAL_ERROR -> alive (s_err (fst (DoReceive c x s))) = true.
Proof.
  intros c x s. assert (Q : forall r, classify r <> WS_FATAL_ERROR -> alive r = true) by (intros []; cbn; congruence).
  assert (P : forall a k s, snd (process c a k s) <> WS_FATAL_ERROR -> alive (s_err (fst (process c a k s))) = true).
  { intros a k t. destruct k as [m p|e]; cbn [process]; [|cbn [fst snd]; pj; apply Q].
    destruct (DoPacket c a m p t) as [[s1 r] b]. cbn [fst snd]. destruct b; pj; apply Q. }
  unfold DoReceive. destruct (s_held s); [apply P|]. destruct (sl_rx x); cbn [fst snd]; try congruence. apply P.
Qed.

Lemma worker_rx : forall c x1 x2 s, INV c s -> wf_slot x1 -> wf_slot x2 ->
  rxp c (live (fst (worker c x1 x2 s))) s (fst (worker c x1 x2 s)).
Proof.
  intros c x1 x2 s I W1 W2. unfold worker.
  pose proof (DoReceive_rx c x1 s I W1) as P1. pose proof (DoReceive_fatal c x1 s) as F1.
  destruct (DoReceive c x1 s) as [s1 r1]. cbn [fst snd] in *.
  set (mid := match r1 with
    | WS_SUCCESS | WS_WANT_READ | WS_CHAN_RXD =>
        let '(s, sr) := if s_pend s1 then flush c s1 else (s1, WS_SUCCESS) in
        match sr with
        | WS_WANT_WRITE | WS_WINDOW_FULL =>
            let '(s, r2) := DoReceive c x2 s in
            match r2 with
            | WS_SUCCESS | WS_WANT_READ | WS_CHAN_RXD => (s, sr)
            | _ => (s, r2)
            end
        | WS_SUCCESS => (s, r1)
        | _ => (s, sr)
        end
    | _ => (s1, r1)
    end).
  assert (M : rxp c (live (fst mid) \/ snd mid = WS_SUCCESS \/ snd mid = WS_CHAN_RXD) s (fst mid)).
  { assert (G : r1 <> WS_FATAL_ERROR -> rxp c True s s1) by (intros N; eapply rxp_weak; [|exact P1]; intros _; apply F1, N).
    assert (Z : r1 = WS_SUCCESS \/ r1 = WS_WANT_READ \/ r1 = WS_CHAN_RXD \/ (mid = (s1, r1) /\ r1 <> WS_SUCCESS /\ r1 <> WS_CHAN_RXD)).
    { destruct r1; auto; right; right; right; repeat split; discriminate. }
    assert (B : r1 <> WS_FATAL_ERROR -> rxp c True s (fst (if s_pend s1 then flush c s1 else (s1, WS_SUCCESS)))).
    { intros N. destruct (s_pend s1); [|exact (G N)]. eapply rxp_then_bg; [exact (G N)|]. unfold flush. apply flush_tx. }
    assert (X : r1 = WS_SUCCESS \/ r1 = WS_WANT_READ \/ r1 = WS_CHAN_RXD -> rxp c (live (fst mid) \/ snd mid = WS_SUCCESS \/ snd mid = WS_CHAN_RXD) s (fst mid)).
    { intros Y. assert (N : r1 <> WS_FATAL_ERROR) by (destruct Y as [-> | [-> | ->]]; discriminate). specialize (B N).
      assert (Em : mid = let '(s, sr) := if s_pend s1 then flush c s1 else (s1, WS_SUCCESS) in
        match sr with
        | WS_WANT_WRITE | WS_WINDOW_FULL =>
            let '(s, r2) := DoReceive c x2 s in
            match r2 with
            | WS_SUCCESS | WS_WANT_READ | WS_CHAN_RXD => (s, sr)
            | _ => (s, r2)
            end
        | WS_SUCCESS => (s, r1)
        | _ => (s, sr)
        end) by (unfold mid; destruct Y as [-> | [-> | ->]]; reflexivity).
      clearbody mid. subst mid. destruct (if s_pend s1 then flush c s1 else (s1, WS_SUCCESS)) as [s2 sr]. cbn [fst] in B.
      pose proof (DoReceive_rx c x2 s2 (r_inv _ _ _ _ B) W2) as P2.
      destruct (DoReceive c x2 s2) as [s3 r2]. cbn [fst snd] in P2.
      assert (P3 : rxp c (live s3) s s3) by (eapply (rxp_trans c True); [| |exact B|exact P2]; auto).
      assert (Q1 : rxp c (live s2 \/ r1 = WS_SUCCESS \/ r1 = WS_CHAN_RXD) s s2) by (eapply rxp_weak; [|exact B]; auto).
      destruct sr; cbn [fst snd]; try (eapply rxp_weak; [|exact B]; auto; fail);
        (destruct r2; cbn [fst snd]; (eapply rxp_weak; [|exact P3]; intros [Q|[Q|Q] ]; [exact Q|discriminate Q|discriminate Q])). }
    destruct Z as [Z|[Z|[Z|(Z & Z1 & Z2)] ] ]; auto. rewrite Z. cbn [fst snd].
    eapply rxp_weak; [|exact P1]. intros [Q|[Q|Q] ]; [exact Q|contradiction|contradiction]. }
  clearbody mid. destruct mid as [s2 ret]. cbn [fst snd] in M.
  assert (P' : ret = WS_SUCCESS \/ ret = WS_CHAN_RXD -> rxp c True s s2) by (intros Y; eapply rxp_weak; [|exact M]; auto).
  assert (D : rxp c (live s2) s s2) by (eapply rxp_weak; [|exact M]; auto).
  destruct ret; cbn [fst]; try exact D; (destruct (keying s2); cbn [fst]; [|exact D]);
    (eapply rxp_weak; [|apply rxp_then_err, P'; auto]; auto).
Qed.

(* what every call keeps *)
Record good (c : hcfg) (s : hs) : Prop := mkGood { g_inv : INV c s; g_7 : c_side c = Server -> rest7 s }.
Definition kept (s : hs) : Prop := K s /\ kin (s_log s).

Lemma rxp_good : forall c ok s s', good c s -> rxp c ok s s' ->
  good c s' /\ (exists n, s_log s' = n ++ s_log s) /\ (kept s -> (ok -> K s') /\ kin (s_log s')).
Proof.
  intros c ok s s' [I R] [A1 A2 A3 (n & A4 & _) A5 A6 A7 A8]. split; [|split].
  - split; [exact A1|]. intros C. specialize (R C). unfold rest7 in *. rewrite A2, A4. intros E. apply success_app. auto.
  - exists n. exact A4.
  - intros (k & l). split; auto.
Qed.

Lemma step_good : forall c o s, good c s -> fits c o -> wf_op o ->
  good c (fst (step c o s)) /\ (exists n, s_log (fst (step c o s)) = n ++ s_log s) /\
  (kept s -> (live (fst (step c o s)) -> K (fst (step c o s))) /\ kin (s_log (fst (step c o s)))).
Proof.
  intros c o s G Hf Hw. pose proof (g_inv c s G) as I. destruct o as [kind sl|a opts sl|x1 x2|x| |n pg e chans]; cbn [step].
  - cbn in Hf, Hw. destruct (accept c kind s sl) as [s' r] eqn:E.
    destruct (accept_inv c kind s sl s' r Hf I (g_7 c s G Hf) Hw E) as (A & B & C & D & _). cbn [fst].
    split; [split; auto|]. split; [exact C|exact D].
  - cbn in Hf, Hw. destruct (connect c a opts s sl) as [s' r] eqn:E.
    destruct (connect_inv c a opts s sl s' r Hf I (proj1 Hw) (proj2 Hw) E) as (A & C & D & _). cbn [fst].
    split; [split; [exact A|]; intros F; rewrite Hf in F; discriminate|]. split; [exact C|exact D].
  - destruct Hw as (W1 & W2). pose proof (worker_rx c x1 x2 s I W1 W2) as P.
    destruct (worker c x1 x2 s) as [s' r]. cbn [fst] in *. eapply rxp_good; eauto.
  - pose proof (DoReceive_rx c x s I Hw) as P. destruct (DoReceive c x s) as [s' r]. cbn [fst] in *.
    eapply rxp_good; eauto.
  - pose proof (Trigger_tx c s) as T. destruct (Trigger c s) as [s' r]. cbn [fst] in *.
    eapply rxp_good; [exact G|]. apply rxp_bg; assumption.
  - pose proof (sends_tx c n s) as T. destruct (sends c n s) as [s1 r]. cbn [fst] in *.
    assert (P : rxp c True s (if pg then purge s1 else s1)).
    { destruct pg; [|apply rxp_bg; assumption]. eapply rxp_then_bg; [apply (rxp_bg c True s s1 I T)|]. apply tx_pend. }
    apply (rxp_then_err c True s _ e) in P. set (s2 := w_err e _) in *. clearbody s2.
    destruct (rxp_good _ _ _ _ G P) as ([A1 A2] & B & C).
    split; [split|split].
    + eapply INV_ext; [exact A1|..]; reflexivity.
    + exact A2.
    + exact B.
    + intros Kp. destruct (C Kp) as (D & D'). split; [intros _; exact (D Logic.I)|exact D'].
Qed.

Lemma run_good : forall c ops s, good c s -> Forall (fits c) ops -> Forall wf_op ops ->
  good c (run_hs c s ops) /\ exists n, s_log (run_hs c s ops) = n ++ s_log s.
Proof.
  intros c ops. induction ops as [|o t IH]; intros s G F W; cbn [run_hs]; [split; [exact G|exists []; reflexivity]|].
  inversion F; subst; inversion W; subst. pose proof (step_good c o s G) as S.
  destruct (step c o s) as [s1 r]. cbn [fst] in S. destruct S as (S1 & (n & S2) & _); auto.
  destruct (IH s1 S1) as (A & (n' & B)); auto.
  assert (X : good c (run_hs c s1 t) /\ exists n, s_log (run_hs c s1 t) = n ++ s_log s).
  { split; [exact A|]. exists (n' ++ n). rewrite B, S2. apply app_assoc. }
  destruct r; try exact X. split; [exact S1|]. exists n; exact S2.
Qed.
Lemma careful_good : forall c ops s, good c s -> kept s -> Forall (fits c) ops -> Forall wf_op ops ->
  good c (run_careful c s ops) /\ kin (s_log (run_careful c s ops)).
Proof.
  intros c ops. induction ops as [|o t IH]; intros s G Kp F W; cbn [run_careful]; [split; [exact G|apply Kp]|].
  inversion F; subst; inversion W; subst. pose proof (step_good c o s G) as S.
  destruct (step c o s) as [s1 r]. cbn [fst] in S. destruct S as (S1 & _ & S3); auto. destruct (S3 Kp) as (S4 & S5).
  destruct (alive (s_err s1)) eqn:Al; [|destruct r; split; assumption].
  assert (X : good c (run_careful c s1 t) /\ kin (s_log (run_careful c s1 t))) by (apply IH; auto; split; auto).
  destruct r; try exact X. split; assumption.
Qed.
Lemma init_good : forall c user max q io, good c (init_hs c user max q io).
Proof. intros. split; [apply init_INV|intros _; apply init_rest7]. Qed.
Lemma init_kept : forall c user max q io, kept (init_hs c user max q io).
Proof. intros. split; [apply init_K|exact Logic.I]. Qed.

Theorem reachable_inv : forall c s, reachable c s -> good c s.
Proof.
  intros c s (user & max & q & io & ops & F & W & ->). apply run_good; auto. apply init_good.
Qed.
Theorem careful_inv : forall c s, carefully_reachable c s -> good c s /\ kin (s_log s).
Proof.
  intros c s (user & max & q & io & ops & F & W & ->). apply careful_good; auto; [apply init_good|apply init_kept].
Qed.

(* accept-only and connect-only histories *)
Lemma accept_dead : forall c kind s sl, ~ live s -> accept c kind s sl = (s, ARet WS_INVALID_STATE_E).
Proof.
  intros c kind s sl N. unfold accept. unfold live in N.
  assert (E : is_want (s_err s) = false /\ rc_neg (s_err s) = true) by (destruct (s_err s); cbn in *; try (contradiction N; reflexivity); split; reflexivity).
  destruct E as (E1 & E2). rewrite E1. cbn zeta. rewrite E2. reflexivity.
Qed.
Theorem accepting_inv : forall c s r, c_side c = Server -> accepting c s r ->
  good c s /\ ordered (s_log s) /\ (live s -> Arest s) /\ (isok r = true -> AF 10 s).
Proof.
  intros c s r Hs A. induction A as [user max q io kind sl s r F E|s0 r0 kind sl s r A IH N F E].
  - destruct (accept_inv _ _ _ _ _ _ Hs (init_INV c user max q io) (init_rest7 c user max q io) F E) as (I & R & _ & _ & D).
    destruct (D (init_Arest c user max q io)) as (D0 & D1 & D2). split; [split; auto|]. auto.
  - destruct IH as (G & Or & L & O). destruct (alive (s_err s0)) eqn:Al.
    + destruct (accept_inv _ _ _ _ _ _ Hs (g_inv _ _ G) (g_7 _ _ G Hs) F E) as (I & R & _ & _ & D).
      destruct (D (L Al)) as (D0 & D1 & D2). split; [split; auto|]. auto.
    + assert (Nl : ~ live s0) by (unfold live; rewrite Al; discriminate). rewrite (accept_dead _ _ _ _ Nl) in E.
      apply pair_equal_spec in E. destruct E as (<- & <-). split; [exact G|]. split; [exact Or|]. split; [exact L|discriminate].
Qed.
Theorem connecting_inv : forall c s r, c_side c = Client -> connecting c s r ->
  INV c s /\ (retry s -> Crest s) /\ (isok r = true -> CF 16 s).
Proof.
  intros c s r Hs A. induction A as [user max q io a opts sl s r Ha F E|s0 r0 a opts sl s r A IH N Wn Ha F E].
  - destruct (connect_inv _ _ _ _ _ _ _ Hs (init_INV c user max q io) Ha F E) as (I & _ & _ & D).
    destruct (D (init_Crest c user max q io)) as (D1 & D2). auto.
  - destruct IH as (G & L & O). destruct (connect_inv _ _ _ _ _ _ _ Hs G Ha F E) as (I & _ & _ & D).
    destruct (D (L Wn)) as (D1 & D2). auto.
Qed.

(* positions in histories *)
Lemma in_happened : forall l e, In e l -> exists pre, happened l e pre.
Proof. intros l e H. apply in_split in H. destruct H as (a & b & ->). exists b, a. reflexivity. Qed.
Lemma happened_in : forall l e pre, happened l e pre -> In e l.
Proof. intros l e pre (p & ->). apply in_elt. Qed.
Lemma happened_app : forall n l e pre, happened l e pre -> happened (n ++ l) e pre.
Proof. intros n l e pre (p & ->). exists (n ++ p). apply app_assoc. Qed.
Lemma happened_pre : forall l e pre e' pre', happened l e pre -> happened pre e' pre' -> happened l e' pre'.
Proof. intros l e pre e' pre' (p & ->) (p' & ->). exists (p ++ e :: p'). rewrite <- app_assoc. reflexivity. Qed.
Lemma in_pre : forall l e pre e', happened l e pre -> In e' pre -> In e' l.
Proof. intros l e pre e' (p & ->) H. apply in_or_app. right. right. exact H. Qed.
Lemma exchange_in : forall l e, In e (exchange l) -> exists pre, happened l e pre /\ exists n, exchange l = n ++ e :: exchange pre.
Proof.
  induction l as [|x t IH]; cbn; intros e H; [contradiction|]. destruct (is_kexinit x) eqn:E; [contradiction|].
  destruct H as [->|H].
  - exists t. split; [exists []; reflexivity|]. exists []. reflexivity.
  - destruct (IH e H) as (pre & Hp & n & En). exists pre. split; [apply (happened_app [x]), Hp|]. exists (x :: n). rewrite En. reflexivity.
Qed.
Lemma exchange_sub : forall l e, In e (exchange l) -> In e l.
Proof. intros l e H. destruct (exchange_in l e H) as (p & H1 & _). eapply happened_in, H1. Qed.
Lemma host_proved_app : forall c H n l, host_proved c H l -> host_proved c H (n ++ l).
Proof.
  intros c H n l (m & p & key & sig & A & B & C & D & E). exists m, p, key, sig.
  split; [apply in_app_r, A|]. split; [exact B|]. split; [exact C|]. split; [apply in_app_r, D|exact E].
Qed.
Lemma session_id_app : forall n l, session_id l <> [] -> session_id (n ++ l) = session_id l.
Proof.
  induction n as [|e n IH]; intros l H; [reflexivity|]. cbn. rewrite IH by exact H. destruct e; try reflexivity.
  destruct (session_id l); [contradiction|reflexivity].
Qed.
