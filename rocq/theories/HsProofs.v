(* HsProofs.v - invariants of the connection state machine. *)
From Verif Require Import Base WireModel WireSpec WireProofs NegoModel AuthModel AuthSpec AuthProofs AuthStep HsModel HsSpec.
From Coq Require Import List NArith Bool Lia.
Import ListNotations.
Open Scope N_scope.

Ltac pj := cbn [s_acc s_con s_srv s_kself s_kpeer s_hand s_err s_pend s_held s_marks s_chans s_auth s_q s_io s_log
  w_acc w_con w_srv w_kself w_kpeer w_hand w_err w_pend w_held w_marks w_chans w_auth w_q w_io w_log
  logev purge w_client client_state keying on_hand option_map fst snd
  a_user a_authId a_requests a_failures a_max a_pending a_prompts a_client a_sid a_log a_ans
  set_user set_authId set_requests set_failures set_max set_pending set_prompts set_client set_ans set_sid set_log
  h_expect h_kex h_skip h_hash h_agreed hw_expect hw_kex hw_skip hw_hash hw_agreed] in *.

(* ---- facts about logs -------------------------------------------------------- *)
Fixpoint holds (P : ev -> list ev -> Prop) (l : list ev) : Prop :=
  match l with [] => True | e :: t => P e t /\ holds P t end.
Lemma holds_happened : forall P l e pre, holds P l -> happened l e pre -> P e pre.
Proof. intros P l e pre H (post & ->). induction post as [|x t IH]; cbn in H; [apply H|apply IH, H]. Qed.
Lemma holds_app : forall P n l, holds P l ->
  (forall e t, In e n -> P e (t ++ l)) -> holds P (n ++ l).
Proof.
  intros P n l H; induction n as [|e t IH]; intros Q; cbn; [exact H|]. split; [apply Q; left; reflexivity|].
  apply IH. intros x u Hx. apply Q. right; exact Hx.
Qed.

Definition neutral (e : ev) : Prop :=
  match e with ESent _ o => reply_to o = None | EStepFailed _ => True | _ => False end.
(* what the library sends by itself *)
Definition bg (e : ev) : Prop := e = ESent None OKexInit \/ e = ESent None OOther.
Lemma bg_neutral : forall e, bg e -> neutral e. Proof. intros e [-> | ->]; reflexivity. Qed.

(* events that change none of the summaries *)
Definition inert (e : ev) : Prop :=
  match e with
  | ESent _ o => reply_to o = None
  | EAct _ _ | EHash _ | EKeysIn _ => False
  | EAgreed b _ => b = false
  | _ => True
  end.
Lemma neutral_inert : forall e, neutral e -> inert e. Proof. intros []; cbn; tauto. Qed.

Lemma in_kex_inert : forall n l, Forall inert n -> in_kex (n ++ l) = in_kex l.
Proof. induction 1 as [|e t H _ IH]; cbn; [reflexivity|]. destruct e; cbn in *; auto; contradiction. Qed.
Lemma awaited_inert : forall n l, Forall inert n -> awaited (n ++ l) = awaited l.
Proof.
  induction 1 as [|e t H _ IH]; cbn; [reflexivity|]. destruct e; cbn in *; auto; try contradiction.
  - rewrite H. exact IH.
  - subst. exact IH.
Qed.
Lemma session_inert : forall n l, Forall inert n -> session_id (n ++ l) = session_id l.
Proof. induction 1 as [|e t H _ IH]; cbn; [reflexivity|]. destruct e; cbn in *; auto; contradiction. Qed.
Lemma exchange_app : forall n l, Forall (fun e => is_kexinit e = false) n -> exchange (n ++ l) = n ++ exchange l.
Proof. induction 1 as [|e t H _ IH]; cbn; [reflexivity|]. rewrite H, IH. reflexivity. Qed.
Lemma inert_nokex : forall e, inert e -> is_kexinit e = false.
Proof. intros []; cbn; tauto. Qed.
Lemma exchange_inert : forall n l, Forall inert n -> exchange (n ++ l) = n ++ exchange l.
Proof. intros n l H. apply exchange_app. eapply Forall_impl; [|exact H]. apply inert_nokex. Qed.
Lemma exchange_in : forall l e, In e (exchange l) -> In e l.
Proof.
  induction l as [|x t IH]; cbn; [tauto|]. intros e. destruct (is_kexinit x); [intros []|].
  intros [->|H]; [left; reflexivity|right; auto].
Qed.

(* ---- sending ------------------------------------------------------------------- *)
Record tx (P : ev -> Prop) (s s' : hs) : Prop := mkTx {
  tx_acc : s_acc s' = s_acc s; tx_con : s_con s' = s_con s; tx_srv : s_srv s' = s_srv s;
  tx_kpeer : s_kpeer s' = s_kpeer s; tx_held : s_held s' = s_held s; tx_chans : s_chans s' = s_chans s;
  tx_auth : s_auth s' = s_auth s;
  tx_kself : s_kself s' = s_kself s \/ (s_kself s' = true /\ s_hand s' <> None);
  tx_hand : s_hand s' = s_hand s \/ (s_hand s = None /\ s_hand s' = Some hand0);
  tx_log : exists n, s_log s' = n ++ s_log s /\ Forall P n }.

Lemma tx_refl : forall P s, tx P s s.
Proof. intros P s. constructor; auto. exists []. split; [reflexivity|constructor]. Qed.
Lemma tx_trans : forall P a b c, tx P a b -> tx P b c -> tx P a c.
Proof.
  intros P a b c [A1 A2 A3 A4 A5 A6 A7 A8 A9 (n & A10 & A11)] [B1 B2 B3 B4 B5 B6 B7 B8 B9 (m & B10 & B11)].
  constructor; try congruence.
  - destruct B8 as [B8|B8]; [|auto]. destruct A8 as [A8|(A8 & A8')]; [left; congruence|right]. split; [congruence|].
    destruct B9 as [-> | (_ & ->)]; [assumption|discriminate].
  - destruct B9 as [B9|(B9 & B9')]; [destruct A9 as [A9|(A9 & A9')]; [left|right]; [|split]; congruence|].
    destruct A9 as [A9|(A9 & A9')]; [right; split; congruence|congruence].
  - exists (m ++ n). rewrite B10, A10, app_assoc. split; [reflexivity|]. apply Forall_app. auto.
Qed.
Lemma tx_impl : forall (P Q : ev -> Prop) s s', (forall e, P e -> Q e) -> tx P s s' -> tx Q s s'.
Proof.
  intros P Q s s' H [A1 A2 A3 A4 A5 A6 A7 A8 A9 (n & A10 & A11)]. constructor; try assumption.
  exists n. split; [assumption|]. eapply Forall_impl; [|exact A11]. exact H.
Qed.
(* changes outside of what tx and the invariants look at *)
Ltac tx0 := constructor; pj; auto; eexists []; split; [reflexivity|constructor].
Lemma tx_err : forall P v s, tx P s (w_err v s). Proof. intros; tx0. Qed.
Lemma tx_pend : forall P v s, tx P s (w_pend v s). Proof. intros; tx0. Qed.
Lemma tx_marks : forall P v s, tx P s (w_marks v s). Proof. intros; tx0. Qed.
Lemma tx_io : forall P v s, tx P s (w_io v s). Proof. intros; tx0. Qed.
Lemma tx_q : forall P v s, tx P s (w_q v s). Proof. intros; tx0. Qed.
Lemma tx_log1 : forall (P : ev -> Prop) e s, P e -> tx P s (logev e s).
Proof. intros. constructor; pj; auto. exists [e]. split; [reflexivity|repeat constructor; assumption]. Qed.

(* the events of step k, and those in the background *)
Definition stepev (own : option N) (o : out) (e : ev) : Prop :=
  bg e \/ e = ESent own o \/ (exists k, own = Some k /\ e = EStepFailed k).

Lemma queue_tx : forall own o s s' ok, queue own o s = (s', ok) -> tx (stepev own o) s s'.
Proof.
  intros own o s s' ok H. unfold queue in H.
  assert (A : forall t, tx (stepev own o) s (logev (ESent own o) (w_pend true (w_q t s)))).
  { intros t. eapply tx_trans; [eapply tx_trans; [apply tx_q|apply tx_pend]|apply tx_log1]. right; left; reflexivity. }
  destruct (s_q s) as [|[|] t] eqn:Eq; injection H as <- <-.
  - eapply tx_trans; [apply tx_pend|apply tx_log1]. right; left; reflexivity.
  - apply A.
  - destruct own as [k|]; [|apply tx_q]. eapply tx_trans; [apply tx_q|apply tx_log1]. right; right. exists k. auto.
Qed.
(* what the log says after queueing *)
Lemma queue_log : forall own o s s' ok, queue own o s = (s', ok) ->
  s_hand s' = s_hand s /\ s_kself s' = s_kself s /\
  if ok then s_log s' = ESent own o :: s_log s /\ s_pend s' = true
  else s_log s' = match own with Some k => [EStepFailed k] | None => [] end ++ s_log s /\ s_pend s' = s_pend s.
Proof.
  intros own o s s' ok H. unfold queue in H.
  destruct (s_q s) as [|[|] t] eqn:Eq; injection H as <- <-; pj; auto. destruct own; pj; auto.
Qed.

Definition okres (r : rc) : Prop := r = WS_SUCCESS \/ r = WS_WANT_WRITE \/ alive r = false.

Lemma kexinit_tx : forall c own fl s,
  (forall t, tx bg t (fst (fl t))) ->
  tx (stepev own OKexInit) s (fst (kexinit_with c own fl s)).
Proof.
  intros c own fl s Hf. unfold kexinit_with.
  set (b := match c_side c with Server => _ | Client => _ end). destruct b.
  { pj. destruct own as [k|]; (eapply tx_trans; [|apply tx_pend]); [apply tx_log1; right; right; exists k; auto|apply tx_refl]. }
  set (s1 := w_hand _ (w_kself true s)).
  assert (T1 : tx (stepev own OKexInit) s s1).
  { unfold s1. constructor; pj; auto.
    - right. split; [reflexivity|discriminate].
    - destruct (s_hand s); [left|right]; auto.
    - exists []. split; [reflexivity|constructor]. }
  destruct (queue own OKexInit s1) as [s2 ok] eqn:Q. apply queue_tx in Q.
  assert (T3 : forall s3 r, (if ok then fl s2 else (s2, WS_MEMORY_E)) = (s3, r) -> tx (stepev own OKexInit) s s3).
  { intros s3 r E. eapply tx_trans; [exact T1|]. eapply tx_trans; [exact Q|]. destruct ok.
    - specialize (Hf s2). rewrite E in Hf. eapply tx_impl; [|exact Hf]. intros e He. left; exact He.
    - injection E as <- _. apply tx_refl. }
  destruct (if ok then fl s2 else (s2, WS_MEMORY_E)) as [s3 r]. specialize (T3 s3 r eq_refl).
  assert (T4 : tx (stepev own OKexInit) s (purge s3)) by (eapply tx_trans; [exact T3|apply tx_pend]).
  destruct r; pj; assumption.
Qed.
Lemma kexinit_res : forall c own fl s,
  (forall t, okres (snd (fl t)) /\ (snd (fl t) = WS_WANT_WRITE -> s_pend (fst (fl t)) = true \/ s_pend t = false)) ->
  okres (snd (kexinit_with c own fl s)) /\
  (snd (kexinit_with c own fl s) = WS_WANT_WRITE -> s_pend (fst (kexinit_with c own fl s)) = true).
Proof.
  intros c own fl s Hf. unfold kexinit_with.
  set (b := match c_side c with Server => _ | Client => _ end). destruct b.
  { pj. split; [right; right; reflexivity|]. discriminate. }
  set (s1 := w_hand _ (w_kself true s)).
  destruct (queue own OKexInit s1) as [s2 ok] eqn:Q. apply queue_log in Q. destruct Q as (_ & _ & Q). destruct ok.
  - specialize (Hf s2). destruct Q as (_ & Q). destruct (fl s2) as [s3 r]. cbn [fst snd] in Hf. destruct Hf as (F1 & F2).
    destruct (rc_eq_dec r WS_SUCCESS) as [-> |]; [pj; split; [left; reflexivity|]; discriminate|].
    destruct (rc_eq_dec r WS_WANT_WRITE) as [-> |].
    + cbn [fst snd]. split; [right; left; reflexivity|]. intros _. destruct (F2 eq_refl) as [F|F]; [exact F|congruence].
    + assert (D : alive r = false) by (destruct F1 as [F|[F|F]]; [congruence|congruence|exact F]).
      split.
      * right; right. destruct r; try exact D; discriminate D.
      * destruct r; cbn [snd fst]; congruence.
  - pj. split; [right; right; reflexivity|]. discriminate.
Qed.

Lemma flush_tx : forall n c s, tx bg s (fst (flush_n n c s)).
Proof.
  induction n as [|n IH]; intros c s; cbn [flush_n]; destruct (s_io s) as [|[[|]| |k] t]; pj;
    try (apply tx_pend); try (eapply tx_trans; [apply tx_io|apply tx_pend]); try (eapply tx_trans; [apply tx_io|apply tx_err]).
  pose proof (kexinit_tx c None (flush_n n c) (w_marks n (w_pend false (w_io t s))) (IH c)) as K.
  destruct (kexinit_with c None (flush_n n c) (w_marks n (w_pend false (w_io t s)))) as [s2 r]. cbn [fst] in *.
  eapply tx_trans; [|apply tx_err].
  eapply tx_trans; [eapply tx_trans; [apply tx_io|apply tx_pend]|]. eapply tx_trans; [apply tx_marks|].
  eapply tx_impl; [|exact K]. intros e [H|[H|(k & H & _)]]; [exact H|left; exact H|discriminate].
Qed.
Lemma flush_res : forall n c s, okres (snd (flush_n n c s)) /\
  (snd (flush_n n c s) = WS_WANT_WRITE -> s_pend (fst (flush_n n c s)) = true \/ s_pend s = false).
Proof.
  induction n as [|n IH]; intros c s; cbn [flush_n]; destruct (s_io s) as [|[[|]| |k] t] eqn:E; pj;
    try (split; [left; reflexivity|discriminate]); try (split; [right; right; reflexivity|discriminate]);
    try (split; [right; left; reflexivity|]; intros _; destruct (s_pend s); auto).
  pose proof (kexinit_res c None (flush_n n c) (w_marks n (w_pend false (w_io t s))) (IH c)) as (K1 & K2).
  destruct (kexinit_with c None (flush_n n c) (w_marks n (w_pend false (w_io t s)))) as [s2 r]. cbn [fst snd] in *. pj. auto.
Qed.
Lemma SendKexInit_tx : forall c own s, tx (stepev own OKexInit) s (fst (SendKexInit c own s)).
Proof. intros. apply kexinit_tx. intros; apply flush_tx. Qed.
Lemma SendKexInit_res : forall c own s, okres (snd (SendKexInit c own s)) /\
  (snd (SendKexInit c own s) = WS_WANT_WRITE -> s_pend (fst (SendKexInit c own s)) = true).
Proof.
  intros. unfold SendKexInit. pose proof (kexinit_res c own (flush c) s (fun t => flush_res (s_marks t) c t)). tauto.
Qed.
Lemma stepev_none_bg : forall e, stepev None OKexInit e -> bg e.
Proof. intros e [H|[->|(k & H & _)]]; [exact H|left; reflexivity|discriminate]. Qed.
Lemma Trigger_tx : forall c s, tx bg s (fst (Trigger c s)).
Proof.
  intros. unfold Trigger. pose proof (SendKexInit_tx c None s) as H. destruct (SendKexInit c None s) as [s1 r]. cbn [fst] in *.
  eapply tx_trans; [|apply tx_err]. eapply tx_impl; [apply stepev_none_bg|exact H].
Qed.
Lemma highwater_tx : forall c f s, tx bg s (fst (highwater c f s)).
Proof.
  intros. unfold highwater. destruct f; [|apply tx_refl]. destruct (s_marks s); [apply tx_refl|].
  eapply tx_trans; [|apply Trigger_tx]. apply tx_marks.
Qed.
Lemma send1_tx : forall c own o s, tx (stepev own o) s (fst (send1 c own o s)).
Proof.
  intros. unfold send1. destruct (queue own o s) as [s1 ok] eqn:Q. apply queue_tx in Q. destruct ok; [|exact Q].
  eapply tx_trans; [exact Q|]. eapply tx_impl; [|apply flush_tx]. intros e H; left; exact H.
Qed.
Lemma send1_bg : forall c s, tx bg s (fst (send1 c None OOther s)).
Proof.
  intros. eapply tx_impl; [|apply send1_tx]. intros e [H|[->|(k & H & _)]]; [exact H|right; reflexivity|discriminate].
Qed.
Lemma sends_tx : forall c n s, tx bg s (fst (sends c n s)).
Proof.
  induction n as [|n IH]; intros s; cbn [sends]; [apply tx_refl|].
  pose proof (send1_bg c s) as H. destruct (send1 c None OOther s) as [s1 r]. specialize (IH s1).
  destruct (sends c n s1) as [s2 r2]. cbn [fst] in *. eapply tx_trans; eassumption.
Qed.
Lemma credits_tx : forall c n s, tx bg s (fst (credits c n s)).
Proof.
  intros. unfold credits. destruct (keying s); [apply tx_refl|]. pose proof (sends_tx c n s) as H.
  destruct (sends c n s) as [s1 r]. cbn [fst] in *. eapply tx_trans; [exact H|apply tx_err].
Qed.
Lemma other_tx : forall c a s, tx bg s (fst (other c a s)).
Proof.
  intros. unfold other. pj. destruct (ha_purge a); [eapply tx_trans; [apply sends_tx|apply tx_pend]|apply sends_tx].
Qed.
Lemma send1_res : forall c own o s, okres (snd (send1 c own o s)) /\
  (snd (send1 c own o s) = WS_WANT_WRITE -> s_pend (fst (send1 c own o s)) = true) /\
  (alive (snd (send1 c own o s)) = true -> exists n, s_log (fst (send1 c own o s)) = n ++ ESent own o :: s_log s /\ Forall bg n).
Proof.
  intros. unfold send1. destruct (queue own o s) as [s1 ok] eqn:Q. apply queue_log in Q. destruct Q as (_ & _ & Q). destruct ok.
  - unfold flush. pose proof (flush_res (s_marks s1) c s1) as (F1 & F2). pose proof (tx_log _ _ _ (flush_tx (s_marks s1) c s1)) as (n & L & Fn).
    destruct Q as (Q1 & Q2). split; [exact F1|]. split.
    + intros E. destruct (F2 E); congruence.
    + intros _. exists n. rewrite L, Q1. auto.
  - cbn [snd fst]. split; [right; right; reflexivity|]. split; discriminate.
Qed.

(* ---- the invariant --------------------------------------------------------------- *)
Definition expecting s := match s_hand s with Some h => h_expect h | None => None end.
Definition agreed s := match s_hand s with Some h => h_agreed h | None => None end.
Definition kexof s := match s_hand s with Some h => h_kex h | None => None end.
Definition hashing s := match s_hand s with Some h => h_hash h | None => false end.

Definition legit (c : hcfg) (u : bytes) (cr : cred) (pre : list ev) : Prop :=
  exists m p am bound, In (EAct m p) pre /\ auth_msg m p am /\
    legitimate (c_crypto c) (session_id pre) bound u am cr /\ In (EAuth (ECallback u cr CbSuccess)) pre.

Definition okev (c : hcfg) (e : ev) (pre : list ev) : Prop :=
  match e with
  | EAct m p =>
      (m = 20 -> in_kex pre = false) /\
      (kex_number m -> (in_kex pre = false -> m = 20) /\ (forall x, awaited pre = Some x -> m = x)) /\
      (c_side c = Server ->
         m <> 6 /\ (80 <= m -> granted pre /\ success_sent pre) /\
         (50 <= m < 80 -> forall m' p', In (EAct m' p') pre -> m' < 80)) /\
      (c_side c = Client ->
         m <> 5 /\ m <> 50 /\ (80 <= m -> In (EAct 52 []) pre) /\
         (50 <= m < 80 -> forall m' p', In (EAct m' p') pre -> m' < 80) /\
         (kex_number m -> m = 20 \/ (awaited pre = Some m /\ (m = 21 \/ m = 31 \/ m = 33))))
  | EKeysIn o =>
      (exists pre', pre = EAct 21 [] :: pre') /\
      (c_side c = Client -> exists H, o = Some H /\ In (EAgreed true H) (exchange pre))
  | EKeysOut o => exists H b, o = Some H /\ In (EAgreed b H) (exchange pre) /\ (c_side c = Client -> b = true)
  | EAgreed b H => in_kex pre = true /\ (c_side c = Client -> b = true) /\
                   (forall b' H', ~ In (EAgreed b' H') (exchange pre)) /\
                   (b = true -> host_proved c H (exchange pre))
  | EAuth (EGranted u cr) => legit c u cr pre
  | EChanOpen => exists p pre', pre = EAct 90 p :: pre'
  | EChanConf => exists p pre', pre = EAct 91 p :: pre'
  | EChanReq => exists p pre', pre = EAct 98 p :: pre'
  | EChanOk => exists p pre', pre = EAct 99 p :: pre'
  | EHash H => H <> []
  | ECrash => False
  | _ => True
  end.

Record INV (c : hcfg) (s : hs) : Prop := mkINV {
  i_hand : keying s = true -> s_hand s <> None;
  i_kex : s_kpeer s = in_kex (s_log s);
  i_idle : s_kpeer s = false -> expecting s = None /\ kexof s = None /\ agreed s = None /\ hashing s = false;
  i_await : expecting s = awaited (s_log s);
  i_agreed : forall H, agreed s = Some H -> exists b, In (EAgreed b H) (exchange (s_log s)) /\ (c_side c = Client -> b = true);
  i_none : agreed s = None -> s_kpeer s = true -> forall b H, ~ In (EAgreed b H) (exchange (s_log s));
  i_21 : expecting s = Some 21 -> agreed s <> None;
  i_hash : hashing s = true -> agreed s = None;
  i_sid : a_sid (s_auth s) = session_id (s_log s);
  i_sid32 : is32 (lenN (a_sid (s_auth s)));
  i_kb : kb_bound (s_auth s);
  i_user : c_side c = Client -> a_user (s_auth s) <> None;
  i_client : c_side c = Server -> (5 <= client_state s -> granted (s_log s)) /\ (7 <= client_state s -> In EChanReq (s_log s));
  i_acc : c_side c = Server -> (7 <= s_acc s -> granted (s_log s)) /\ (8 <= s_acc s -> success_sent (s_log s));
  i_acc80 : c_side c = Server -> s_acc s < 8 -> forall m p, In (EAct m p) (s_log s) -> m < 80;
  i_srv : c_side c = Client -> (4 <= s_srv s -> In (EAct 52 []) (s_log s)) /\ (6 <= s_srv s -> In EChanOk (s_log s));
  i_con : c_side c = Client -> 10 <= s_con s -> In (EAct 52 []) (s_log s);
  i_con80 : c_side c = Client -> s_con s < 10 -> forall m p, In (EAct m p) (s_log s) -> m < 80;
  i_exp : c_side c = Client -> forall m, expecting s = Some m -> m = 21 \/ m = 31 \/ m = 33;
  i_held : forall k, s_held s = Some k -> wf_pkt k;
  i_ok : holds (okev c) (s_log s) }.

Ltac inv_destruct I := destruct I as [I1 I2 I3 I4 I5 I5' I6 I7 I8 I9 I10 I11 I12 I13 I13' I14 I15 I15' I16 I17 I18].

Lemma in_app_r : forall (n l : list ev) e, In e l -> In e (n ++ l).
Proof. intros. apply in_or_app. auto. Qed.
Lemma granted_app : forall n l, granted l -> granted (n ++ l).
Proof. intros n l (u & cr & H). exists u, cr. apply in_app_r, H. Qed.
Lemma success_app : forall n l, success_sent l -> success_sent (n ++ l).
Proof. intros n l [H|H]; [left|right]; apply in_app_r, H. Qed.
Lemma inert_noact : forall n m p, Forall inert n -> ~ In (EAct m p) n.
Proof. intros n m p F H. rewrite Forall_forall in F. apply (F _ H). Qed.

(* INV only depends on these fields *)
Lemma INV_ext : forall c s s', INV c s ->
  s_acc s' = s_acc s -> s_con s' = s_con s -> s_srv s' = s_srv s -> s_kself s' = s_kself s -> s_kpeer s' = s_kpeer s ->
  s_hand s' = s_hand s -> s_held s' = s_held s -> s_auth s' = s_auth s -> s_log s' = s_log s -> INV c s'.
Proof.
  intros c s s' I E1 E2 E3 E4 E5 E6 E7 E8 E9. inv_destruct I.
  unfold keying, expecting, agreed, kexof, hashing, client_state in *.
  constructor; unfold keying, expecting, agreed, kexof, hashing, client_state; rewrite ?E1, ?E2, ?E3, ?E4, ?E5, ?E6, ?E7, ?E8, ?E9; assumption.
Qed.

(* inert events *)
Lemma INV_log : forall c s n, INV c s -> Forall inert n -> (forall b H, ~ In (EAgreed b H) n) ->
  holds (okev c) (n ++ s_log s) -> INV c (w_log (n ++ s_log s) s).
Proof.
  intros c s n I Hn Hna Hh. inv_destruct I.
  constructor; unfold expecting, agreed, kexof, hashing in *; pj; try assumption.
  - rewrite in_kex_inert; assumption.
  - rewrite awaited_inert; assumption.
  - intros H E. destruct (I5 H E) as (b & A & B). exists b. rewrite exchange_inert by assumption. split; [apply in_app_r; exact A|exact B].
  - intros E E' b H X. rewrite exchange_inert in X by assumption. apply in_app_or in X. destruct X as [X|X]; [eapply Hna; exact X|eapply I5'; eassumption].
  - rewrite session_inert; assumption.
  - intros E. destruct (I12 E) as (A & B). split; intros L; [apply granted_app; auto|apply in_app_r; auto].
  - intros E. destruct (I13 E) as (A & B). split; intros L; [apply granted_app; auto|apply success_app; auto].
  - intros E L m p X. apply in_app_or in X. destruct X as [X|X]; [exfalso; eapply inert_noact; eassumption|eauto].
  - intros E. destruct (I14 E) as (A & B). split; intros L; apply in_app_r; auto.
  - intros E L. apply in_app_r. auto.
  - intros E L m p X. apply in_app_or in X. destruct X as [X|X]; [exfalso; eapply inert_noact; eassumption|eauto].
Qed.
Lemma INV_push : forall c s e, INV c s -> inert e -> (forall b H, e <> EAgreed b H) -> okev c e (s_log s) -> INV c (logev e s).
Proof.
  intros c s e I H1 H2 H3. change (logev e s) with (w_log ([e] ++ s_log s) s). apply INV_log; auto.
  - intros b H [X|[]]. exact (H2 _ _ X).
  - split; [exact H3|apply I].
Qed.
Lemma neutral_ok : forall c e l, neutral e -> okev c e l.
Proof. intros c [] l; cbn; tauto. Qed.

Lemma INV_hand0 : forall c s s', INV c s -> s_hand s = None -> s_hand s' = Some hand0 -> s_kpeer s' = s_kpeer s ->
  s_acc s' = s_acc s -> s_con s' = s_con s -> s_srv s' = s_srv s -> s_held s' = s_held s -> s_auth s' = s_auth s -> s_log s' = s_log s ->
  INV c s'.
Proof.
  intros c s s' I H0 H1 E5 E1 E2 E3 E7 E8 E9. inv_destruct I.
  unfold keying, expecting, agreed, kexof, hashing, client_state in *. rewrite H0 in *.
  constructor; unfold keying, expecting, agreed, kexof, hashing, client_state; rewrite ?E1, ?E2, ?E3, ?E5, ?E7, ?E8, ?E9, ?H1; cbn; try assumption.
  discriminate.
Qed.
Lemma INV_kself : forall c s, INV c s -> s_hand s <> None -> INV c (w_kself true s).
Proof.
  intros c s I H. inv_destruct I. constructor; unfold expecting, agreed, kexof, hashing in *; pj; try assumption. intros _; exact H.
Qed.

Lemma INV_tx : forall c s s', INV c s -> tx neutral s s' -> INV c s'.
Proof.
  intros c s s' I [A1 A2 A3 A4 A5 A6 A7 A8 A9 (n & A10 & A11)].
  assert (I1 : INV c (w_log (n ++ s_log s) s)).
  { apply INV_log; [exact I| | |].
    - eapply Forall_impl; [|exact A11]. apply neutral_inert.
    - intros b H X. rewrite Forall_forall in A11. apply (A11 _ X).
    - apply holds_app; [apply I|]. intros e t He. apply neutral_ok. rewrite Forall_forall in A11. auto. }
  set (s1 := w_log (n ++ s_log s) s) in *.
  assert (I2 : INV c (w_hand (s_hand s') s1)).
  { destruct A9 as [A9|(A9 & A9')].
    - eapply INV_ext; [exact I1|..]; subst s1; pj; auto.
    - eapply INV_hand0; [exact I1|..]; subst s1; pj; auto. }
  destruct A8 as [A8|(A8 & A8')].
  - eapply INV_ext; [exact I2|..]; subst s1; pj; auto.
  - apply INV_kself in I2; [|subst s1; pj; exact A8']. eapply INV_ext; [exact I2|..]; subst s1; pj; auto.
Qed.
Lemma INV_bg : forall c s s', INV c s -> tx bg s s' -> INV c s'.
Proof. intros c s s' I T. eapply INV_tx; [exact I|]. eapply tx_impl; [apply bg_neutral|exact T]. Qed.
