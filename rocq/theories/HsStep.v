(* HsStep.v - handlers keep the invariant. *)
From Verif Require Import Base WireModel WireSpec WireProofs NegoModel AuthModel AuthSpec AuthProofs AuthStep HsModel HsSpec HsProofs.
From Coq Require Import List NArith Bool Lia.
Import ListNotations.
Open Scope N_scope.

(* events a handler may add *)
Definition plain (e : ev) : Prop :=
  match e with EAct _ _ | ESent (Some _) _ | EStepFailed _ | EKeysIn _ => False | _ => True end.
Lemma bg_plain : forall e, bg e -> plain e. Proof. intros e [-> | ->]; exact I. Qed.

(* in key exchange with our side done: the keys sent with are this exchange's *)
Definition K s := s_kpeer s = true -> s_kself s = false ->
  exists H, agreed s = Some H /\ In (EKeysOut (Some H)) (exchange (s_log s)).
Definition W s := keying s = true \/ keyed (s_log s).
Definition J s := (0 < s_chans s -> In EChanOpen (s_log s)) /\ (In EChanReq (s_log s) -> In EChanOpen (s_log s)).

Record post (c : hcfg) (P : ev -> Prop) (ok : Prop) (s s' : hs) : Prop := mkPost {
  p_inv : INV c s';
  p_acc : s_acc s' = s_acc s; p_con : s_con s' = s_con s; p_held : s_held s' = s_held s;
  p_log : exists n, s_log s' = n ++ s_log s /\ Forall P n;
  p_k : K s -> ok -> K s';
  p_w : K s -> W s -> ok -> W s';
  p_j : J s -> J s' }.

Lemma post_refl : forall c P ok s, INV c s -> post c P ok s s.
Proof. intros. constructor; auto. exists []. split; [reflexivity|constructor]. Qed.
Lemma post_trans : forall c P (ok1 ok2 ok : Prop) s s1 s2, (ok -> ok1 /\ ok2) ->
  post c P ok1 s s1 -> post c P ok2 s1 s2 -> post c P ok s s2.
Proof.
  intros c P ok1 ok2 ok s s1 s2 Ho [A1 A2 A3 A4 (n & A5 & A5') A6 A7 A8] [B1 B2 B3 B4 (m & B5 & B5') B6 B7 B8].
  constructor; try congruence.
  - exists (m ++ n). rewrite B5, A5, app_assoc. split; [reflexivity|apply Forall_app; auto].
  - intros k o. apply Ho in o. destruct o. auto.
  - intros k w o. apply Ho in o. destruct o. auto.
  - auto.
Qed.
Lemma post_weak : forall c P (ok ok' : Prop) s s', (ok' -> ok) -> post c P ok s s' -> post c P ok' s s'.
Proof. intros c P ok ok' s s' H []. constructor; auto. Qed.
Lemma post_impl : forall c (P Q : ev -> Prop) ok s s', (forall e, P e -> Q e) -> post c P ok s s' -> post c Q ok s s'.
Proof. intros c P Q ok s s' H [A1 A2 A3 A4 (n & A5 & A5') A6 A7 A8]. constructor; auto. exists n. split; [assumption|]. eapply Forall_impl; eassumption. Qed.

Lemma keyed_app : forall n l, keyed l -> keyed (n ++ l).
Proof. intros n l (H & A & B). exists H. split; apply in_app_r; assumption. Qed.
Lemma J_app : forall n l, (forall e, In e n -> e <> EChanReq) -> (In EChanReq l -> In EChanOpen l) -> In EChanReq (n ++ l) -> In EChanOpen (n ++ l).
Proof. intros n l H0 H X. apply in_app_or in X. destruct X as [X|X]; [exfalso; eapply H0; [exact X|reflexivity]|apply in_app_r; auto]. Qed.

(* sending *)
Lemma post_tx : forall c (P : ev -> Prop) (ok : Prop) s s', (forall e, P e -> neutral e) -> INV c s -> tx P s s' -> post c P ok s s'.
Proof.
  intros c P ok s s' HP I T. assert (I' : INV c s') by (eapply INV_tx; [exact I|eapply tx_impl; eassumption]).
  destruct T as [A1 A2 A3 A4 A5 A6 A7 A8 A9 (n & A10 & A11)].
  assert (Fn : Forall neutral n) by (eapply Forall_impl; [|exact A11]; exact HP).
  constructor; try assumption.
  - exists n; auto.
  - intros k _ Hp Hs. rewrite A4 in Hp. destruct A8 as [A8|(A8 & _)]; [|congruence]. rewrite A8 in Hs.
    destruct (k Hp Hs) as (H & E & X). exists H. unfold agreed in *.
    destruct A9 as [-> | (A9 & _)].
    + split; [exact E|]. rewrite A10, exchange_inert; [apply in_app_r; exact X|].
      eapply Forall_impl; [|exact Fn]. apply neutral_inert.
    + rewrite A9 in E. discriminate.
  - intros _ [w|w] _.
    + left. unfold keying in *. rewrite A4. destruct A8 as [-> | (-> & _)]; [exact w|reflexivity].
    + right. rewrite A10. apply keyed_app, w.
  - intros (J1 & J2). unfold J. rewrite A6, A10. split; [intros L; apply in_app_r; auto|].
    apply J_app; [|exact J2]. intros e He ->. rewrite Forall_forall in Fn. apply (Fn _ He).
Qed.
Lemma post_bg : forall c ok s s', INV c s -> tx bg s s' -> post c plain ok s s'.
Proof. intros. eapply post_impl; [apply bg_plain|]. apply post_tx; auto. apply bg_neutral. Qed.

(* then-steps *)
Lemma post_then_bg : forall c ok s s1 s2, post c plain ok s s1 -> tx bg s1 s2 -> post c plain ok s s2.
Proof. intros c ok s s1 s2 P T. eapply (post_trans c plain ok True); [auto|exact P|]. apply post_bg; [apply P|exact T]. Qed.

(* a message that will be answered *)
Lemma INV_sent : forall c s own o m s1, INV c s -> queue own o s = (s1, true) -> reply_to o = Some m ->
  s_kpeer s = true -> s_hand s <> None -> (m = 21 -> agreed s <> None) ->
  (c_side c = Client -> m = 21 \/ m = 31 \/ m = 33) ->
  INV c (on_hand (hw_expect (Some m)) s1).
Proof.
  intros c s own o m s1 I Q R Kp Hh H21 Hc. pose proof (queue_tx _ _ _ _ _ Q) as T. apply queue_log in Q.
  destruct Q as (Q1 & Q2 & Q3 & _). destruct T as [A1 A2 A3 A4 A5 A6 A7 _ _ _]. clear A6.
  inv_destruct I. unfold keying, expecting, agreed, kexof, hashing, client_state in *.
  destruct (s_hand s) as [h|] eqn:Eh; [|congruence].
  constructor; unfold keying, expecting, agreed, kexof, hashing, client_state in *; pj; rewrite ?A1, ?A2, ?A3, ?A4, ?A5, ?A7, ?Q1, ?Q2, ?Q3; pj; try assumption.
  - discriminate.
  - rewrite Kp. discriminate.
  - cbn. rewrite R. reflexivity.
  - intros H E. destruct (I5 H E) as (b & X & Y). exists b. split; [right; exact X|exact Y].
  - intros E E' b H [X|X]; [discriminate|eapply I5'; eassumption].
  - intros E. apply H21. congruence.
  - intros E. destruct (I12 E) as (A & B). split; intros L; [apply (granted_app [_]); auto|right; auto].
  - intros E. destruct (I13 E) as (A & B). split; intros L; [apply (granted_app [_]); auto|apply (success_app [_]); auto].
  - intros E L m' p [X|X]; [discriminate|eauto].
  - intros E. destruct (I14 E) as (A & B). split; intros L; right; auto.
  - intros E L. right; auto.
  - intros E L m' p [X|X]; [discriminate|eauto].
  - intros E m' E'. injection E' as <-. auto.
  - split; [exact I|exact I18].
Qed.

Definition pset (own : option N) (o : out) (e : ev) : Prop := plain e \/ stepev own o e.

(* queue an answered message, set the expectation, flush *)
Lemma sent_post : forall c s own o m ok, INV c s -> reply_to o = Some m ->
  s_kpeer s = true -> s_hand s <> None -> (m = 21 -> agreed s <> None) ->
  (c_side c = Client -> m = 21 \/ m = 31 \/ m = 33) ->
  forall s1, queue own o s = (s1, true) ->
  post c (pset own o) ok s (on_hand (hw_expect (Some m)) s1).
Proof.
  intros c s own o m ok I R Kp Hh H21 Hc s1 Q.
  pose proof (INV_sent c s own o m s1 I Q R Kp Hh H21 Hc) as I'. pose proof (queue_tx _ _ _ _ _ Q) as T. apply queue_log in Q.
  destruct Q as (Q1 & Q2 & Q3 & _). destruct T as [A1 A2 A3 A4 A5 A6 A7 _ _ _].
  constructor; try assumption; pj.
  - exists [ESent own o]. split; [exact Q3|]. constructor; [|constructor]. right; right; left; reflexivity.
  - intros k _ Hp Hs. pj. rewrite Q2 in Hs. rewrite A4 in Hp. destruct (k Hp Hs) as (H & E & X). exists H. unfold agreed in *. pj. rewrite Q1.
    destruct (s_hand s); [|discriminate]. pj. split; [exact E|]. rewrite Q3. cbn. right; exact X.
  - intros _ [w|w] _; [left; unfold keying in *; pj; rewrite A4, Q2; exact w|right; pj; rewrite Q3; apply (keyed_app [_]); exact w].
  - intros (J1 & J2). unfold J; pj. rewrite A6, Q3. split; [intros L; right; auto|]. intros [X|X]; [discriminate|right; auto].
Qed.

Lemma pset_none : forall o e, pset None o e -> plain e.
Proof. intros o e [H|[H|[->|(k & H & _)]]]; [exact H|apply bg_plain; exact H|exact Logic.I|discriminate]. Qed.

(* a step that fails *)
Lemma failed_post : forall c s own o ok, INV c s ->
  post c (pset own o) ok s (match own with Some k => logev (EStepFailed k) s | None => s end).
Proof.
  intros c s [k|] o ok I; [|apply post_refl; exact I].
  eapply post_impl; [|apply (post_tx c (eq (EStepFailed k))); [|exact I|apply tx_log1; reflexivity] ].
  - intros e <-. right; right; right. exists k. auto.
  - intros e <-. exact Logic.I.
Qed.
(* any of our own messages that is not answered *)
Lemma send1_post : forall c own o ok s, INV c s -> reply_to o = None -> post c (pset own o) ok s (fst (send1 c own o s)).
Proof.
  intros c own o ok s I R. eapply post_impl; [|apply (post_tx c (stepev own o)); [|exact I|apply send1_tx] ].
  - intros e H; right; exact H.
  - intros e [H|[->|(k & _ & ->)]]; [apply bg_neutral; exact H|exact R|exact Logic.I].
Qed.
Lemma send1_plain : forall c ok s, INV c s -> post c plain ok s (fst (send1 c None OOther s)).
Proof. intros. apply post_bg; [assumption|apply send1_bg]. Qed.

Lemma post_then_bg' : forall c own o ok s s1 s2, post c (pset own o) ok s s1 -> tx bg s1 s2 -> post c (pset own o) ok s s2.
Proof.
  intros c own o ok s s1 s2 P T. eapply (post_trans c _ ok True); [auto|exact P|].
  eapply post_impl; [|apply post_bg; [apply P|exact T] ]. intros e H; left; exact H.
Qed.

(* ---- client's key exchange messages -------------------------------------------- *)
Lemma SendKexDhInit_post : forall c own a ok s, INV c s -> s_hand s <> None ->
  exists gex, post c (pset own (ODhInit gex)) ok s (fst (SendKexDhInit c own a s)).
Proof.
  intros c own a ok s I Hh. unfold SendKexDhInit. destruct (s_hand s) as [h|] eqn:Eh; [|congruence].
  destruct (h_kex h) as [gex|] eqn:Ek; [|exists false; apply failed_post; exact I].
  exists gex. destruct (negb (ha_mid a)); [apply failed_post; exact I|].
  assert (Kp : s_kpeer s = true).
  { destruct (s_kpeer s) eqn:E; [reflexivity|]. apply (i_idle c s I) in E. unfold kexof in E. rewrite Eh in E. destruct E as (_ & E & _). congruence. }
  destruct (queue own (ODhInit gex) s) as [s1 okq] eqn:Q. destruct okq; cbn [negb].
  - eapply post_then_bg'; [|apply flush_tx].
    eapply sent_post; try eassumption; [destruct gex; reflexivity|congruence| |]; destruct gex; auto; discriminate.
  - cbn [fst]. pose proof (queue_log _ _ _ _ _ Q) as (_ & _ & Q1 & _). apply queue_tx in Q.
    assert (T : tx (fun e => exists k, own = Some k /\ e = EStepFailed k) s s1).
    { destruct Q as [A1 A2 A3 A4 A5 A6 A7 A8 A9 _]. constructor; try assumption. eexists. split; [exact Q1|].
      destruct own as [k|]; repeat constructor. exists k; auto. }
    eapply post_impl; [|apply post_tx; [|exact I|exact T] ].
    + intros e (k & -> & ->). right; right; right. exists k; auto.
    + intros e (k & _ & ->). exact Logic.I.
Qed.

Lemma SendGexRequest_post : forall c own a ok s, INV c s -> s_kpeer s = true ->
  post c (pset own OGexRequest) ok s (fst (SendKexDhGexRequest c own a s)).
Proof.
  intros c own a ok s I Kp. unfold SendKexDhGexRequest. destruct (s_hand s) as [h|] eqn:Eh; [|apply failed_post; exact I].
  destruct (negb (ha_mid a)); [apply failed_post; exact I|].
  destruct (queue own OGexRequest s) as [s1 okq] eqn:Q. destruct okq; cbn [negb].
  - eapply post_then_bg'; [|apply flush_tx].
    eapply sent_post; try eassumption; [reflexivity|congruence|discriminate|auto].
  - cbn [fst]. pose proof (queue_log _ _ _ _ _ Q) as (_ & _ & Q1 & _). apply queue_tx in Q.
    assert (T : tx (fun e => exists k, own = Some k /\ e = EStepFailed k) s s1).
    { destruct Q as [A1 A2 A3 A4 A5 A6 A7 A8 A9 _]. constructor; try assumption. eexists. split; [exact Q1|].
      destruct own as [k|]; repeat constructor. exists k; auto. }
    eapply post_impl; [|apply post_tx; [|exact I|exact T] ].
    + intros e (k & -> & ->). right; right; right. exists k; auto.
    + intros e (k & _ & ->). exact Logic.I.
Qed.

Lemma SendKexFirst_post : forall c own a ok s, INV c s -> s_hand s <> None ->
  exists o, (o = OGexRequest \/ exists g, o = ODhInit g) /\ post c (pset own o) ok s (fst (SendKexFirst c own a s)).
Proof.
  intros c own a ok s I Hh. unfold SendKexFirst. destruct (s_hand s) as [h|] eqn:Eh; [|congruence].
  assert (D : exists o, (o = OGexRequest \/ exists g, o = ODhInit g) /\ post c (pset own o) ok s (fst (SendKexDhInit c own a s))).
  { destruct (SendKexDhInit_post c own a ok s I) as (g & P); [congruence|]. exists (ODhInit g). split; [right; exists g; reflexivity|exact P]. }
  destruct (h_kex h) as [[|]|] eqn:Ek; try exact D.
  exists OGexRequest. split; [auto|]. apply SendGexRequest_post; [exact I|].
  destruct (s_kpeer s) eqn:E; [reflexivity|]. apply (i_idle c s I) in E. unfold kexof in E. rewrite Eh in E. destruct E as (_ & E & _). congruence.
Qed.

Lemma SendKexDhGexGroup_post : forall c a ok s, INV c s -> s_kpeer s = true -> c_side c = Server ->
  post c plain ok s (fst (SendKexDhGexGroup c a s)).
Proof.
  intros c a ok s I Kp Hc. unfold SendKexDhGexGroup. destruct (s_hand s) as [h|] eqn:Eh; [|apply post_refl; exact I].
  destruct (negb (ha_mid a)); [apply post_refl; exact I|].
  destruct (queue None OGexGroup s) as [s1 okq] eqn:Q. destruct okq; cbn [negb].
  - eapply post_then_bg; [|apply flush_tx]. eapply post_impl; [apply (pset_none OGexGroup)|].
    eapply sent_post; try eassumption; [reflexivity|congruence|discriminate|congruence].
  - cbn [fst]. pose proof (queue_log _ _ _ _ _ Q) as (_ & _ & Q1 & _). apply queue_tx in Q. apply post_bg; [exact I|].
    destruct Q as [A1 A2 A3 A4 A5 A6 A7 A8 A9 _]. constructor; try assumption. exists []. split; [exact Q1|constructor].
Qed.

(* a failed build in the background *)
Lemma queue_fail_bg : forall o s s1, queue None o s = (s1, false) -> tx bg s s1.
Proof.
  intros o s s1 Q. pose proof (queue_log _ _ _ _ _ Q) as (_ & _ & Q1 & _). apply queue_tx in Q.
  destruct Q as [A1 A2 A3 A4 A5 A6 A7 A8 A9 _]. constructor; try assumption. exists []. split; [exact Q1|constructor].
Qed.

(* ---- SendNewKeys ------------------------------------------------------------------ *)
Lemma INV_kself_false : forall c s, INV c s -> INV c (w_kself false s).
Proof.
  intros c s I. inv_destruct I. constructor; unfold expecting, agreed, kexof, hashing in *; pj; try assumption.
  intros E. apply I1. unfold keying in *. pj. cbn in E. rewrite E. apply orb_true_r.
Qed.

Lemma SendNewKeys_post : forall c a s H, INV c s -> agreed s = Some H -> s_kpeer s = true ->
  post c plain (alive (snd (SendNewKeys c a s)) = true) s (fst (SendNewKeys c a s)).
Proof.
  intros c a s H I Ha Kp. unfold SendNewKeys. destruct (queue None ONewKeys s) as [s1 okq] eqn:Q.
  destruct okq; cbn [negb].
  2:{ apply post_bg; [exact I|]. cbn [fst]. eapply queue_fail_bg; exact Q. }
  pose proof (queue_log _ _ _ _ _ Q) as (Q1 & Q2 & Q3 & _). apply queue_tx in Q.
  assert (P1 : post c plain True s s1).
  { eapply post_impl; [|apply (post_tx c (stepev None ONewKeys)); [|exact I|exact Q] ].
    - intros e [X|[->|(k & X & _)]]; [apply bg_plain; exact X|exact Logic.I|discriminate].
    - intros e [X|[->|(k & X & _)]]; [apply bg_neutral; exact X|reflexivity|discriminate]. }
  assert (Kp1 : s_kpeer s1 = true) by (rewrite (tx_kpeer _ _ _ Q); exact Kp).
  assert (Ha1 : agreed s1 = Some H) by (unfold agreed; rewrite Q1; exact Ha).
  destruct (s_hand s1) as [h|] eqn:Eh; [|unfold agreed in Ha1; rewrite Eh in Ha1; discriminate].
  assert (Eh' : h_agreed h = Some H) by (unfold agreed in Ha1; rewrite Eh in Ha1; exact Ha1). rewrite Eh'.
  pose proof (p_inv _ _ _ _ _ P1) as I1.
  set (s2 := logev (EKeysOut (Some H)) s1) in *.
  assert (I2 : INV c s2).
  { apply INV_push; [exact I1|exact Logic.I|discriminate|]. destruct (i_agreed c s1 I1 H Ha1) as (b & X & Y). exists H, b. auto. }
  assert (T3 : tx bg s2 (fst (flush c s2))) by apply flush_tx.
  destruct (flush c s2) as [s3 r] eqn:Ef. cbn [fst] in T3.
  pose proof (INV_bg _ _ _ I2 T3) as I3. pose proof (INV_kself_false _ _ I3) as I4.
  pose proof (credits_tx c (ha_owe a) (w_kself false s3)) as T5.
  assert (P4 : post c plain True s (w_kself false s3)).
  { destruct T3 as [A1 A2 A3 A4 A5 A6 A7 A8 A9 (n & A10 & A11)].
    assert (Fn : Forall inert n) by (eapply Forall_impl; [|exact A11]; intros e X; apply neutral_inert, bg_neutral, X).
    destruct P1 as [B1 B2 B3 B4 (m & B5 & B6) B7 B8 B9].
    constructor; try assumption; pj.
    - rewrite A1. exact B2.
    - rewrite A2. exact B3.
    - rewrite A5. exact B4.
    - exists (n ++ EKeysOut (Some H) :: m). rewrite A10. unfold s2; pj. rewrite B5, <- app_assoc. split; [reflexivity|].
      apply Forall_app. split; [eapply Forall_impl; [|exact A11]; apply bg_plain|]. constructor; [exact Logic.I|exact B6].
    - intros _ _ _ _. exists H. split.
      + unfold agreed; pj. destruct A9 as [-> | (A9 & _)]; [exact Ha1|]. unfold s2 in A9. pj. rewrite Eh in A9. discriminate.
      + pj. rewrite A10, exchange_inert by exact Fn. apply in_app_r. left; reflexivity.
    - intros _ _ _. left. unfold keying; pj. rewrite A4. unfold s2; pj. exact Kp1.
    - intros j. specialize (B9 j). destruct B9 as (J1 & J2). unfold J; pj. rewrite A6, A10. unfold s2; pj.
      split; [intros L; apply in_app_r; right; auto|]. apply J_app.
      + intros e He ->. rewrite Forall_forall in A11. destruct (A11 _ He); discriminate.
      + intros [X|X]; [discriminate|right; auto]. }
  destruct (credits c (ha_owe a) (w_kself false s3)) as [s5 r5]. cbn [fst snd] in *.
  eapply post_weak; [|eapply post_then_bg; [exact P4|exact T5] ]. auto.
Qed.

(* ---- the exchange hash ------------------------------------------------------------- *)
Lemma INV_hash : forall c s H, INV c s -> H <> [] -> is32 (lenN H) -> INV c (new_hash H s).
Proof.
  intros c s H I HH H32. inv_destruct I.
  assert (Hs : a_sid (s_auth (new_hash H s)) = session_id (s_log (new_hash H s)) /\ is32 (lenN (a_sid (s_auth (new_hash H s))))).
  { unfold new_hash. pj. destruct (N.eqb_spec (lenN (a_sid (s_auth s))) 0) as [E|E]; pj.
    - cbn. rewrite <- I8. destruct (a_sid (s_auth s)); [split; [reflexivity|exact H32]|unfold lenN in E; cbn in E; lia].
    - cbn. rewrite <- I8. destruct (a_sid (s_auth s)); [contradiction E; reflexivity|]. split; [reflexivity|exact I9]. }
  assert (HH' : new_hash H s = w_auth (set_sid (a_sid (s_auth (new_hash H s))) (s_auth s)) (logev (EHash H) (on_hand (hw_hash false) s))).
  { unfold new_hash. pj. destruct (lenN (a_sid (s_auth s)) =? 0); pj; [reflexivity|]. destruct s as [? ? ? ? ? ? ? ? ? ? ? [] ? ? ?]; reflexivity. }
  destruct Hs as (Hs1 & Hs2). set (sid := a_sid (s_auth (new_hash H s))) in *.
  assert (Lg : s_log (new_hash H s) = EHash H :: s_log s) by (rewrite HH'; reflexivity).
  rewrite Lg in Hs1. rewrite HH'. clearbody sid. clear HH' Lg.
  unfold keying, expecting, agreed, kexof, hashing, client_state in *.
  constructor; unfold keying, expecting, agreed, kexof, hashing, client_state; pj; try assumption.
  - intros E. specialize (I1 E). destruct (s_hand s); [discriminate|exact I1].
  - intros E. specialize (I3 E). destruct (s_hand s); pj; tauto.
  - cbn. rewrite <- I4. destruct (s_hand s); reflexivity.
  - intros H0 E. destruct (I5 H0) as (b & X & Y); [destruct (s_hand s); exact E|]. exists b. split; [right; exact X|exact Y].
  - intros E E' b H0 [X|X]; [discriminate|]. eapply I5'; [destruct (s_hand s); exact E|exact E'|exact X].
  - intros E. assert (X : match s_hand s with Some h => h_agreed h | None => None end <> None) by (apply I6; destruct (s_hand s); exact E).
    destruct (s_hand s); exact X.
  - destruct (s_hand s); discriminate.
  - intros E. destruct (I12 E) as (A & B). split; intros L; [apply (granted_app [_]); auto|right; auto].
  - intros E. destruct (I13 E) as (A & B). split; intros L; [apply (granted_app [_]); auto|apply (success_app [_]); auto].
  - intros E L m' p [X|X]; [discriminate|eauto].
  - intros E. destruct (I14 E) as (A & B). split; intros L; right; auto.
  - intros E L. right; auto.
  - intros E L m' p [X|X]; [discriminate|eauto].
  - intros E m' E'. apply (I16 E). destruct (s_hand s); exact E'.
  - split; [exact HH|exact I18].
Qed.
Lemma new_hash_same : forall H s,
  s_acc (new_hash H s) = s_acc s /\ s_con (new_hash H s) = s_con s /\ s_held (new_hash H s) = s_held s /\
  s_kpeer (new_hash H s) = s_kpeer s /\ s_kself (new_hash H s) = s_kself s /\ s_chans (new_hash H s) = s_chans s /\
  s_log (new_hash H s) = EHash H :: s_log s /\ agreed (new_hash H s) = agreed s /\ hashing (new_hash H s) = false /\
  (s_hand s <> None -> s_hand (new_hash H s) <> None).
Proof.
  intros H s. unfold new_hash, agreed, hashing. destruct (lenN _ =? 0); pj; destruct (s_hand s); pj; repeat split; auto; discriminate.
Qed.
Lemma hash_post : forall c ok s H, INV c s -> H <> [] -> is32 (lenN H) -> post c plain ok s (new_hash H s).
Proof.
  intros c ok s H I HH H32. pose proof (INV_hash c s H I HH H32) as I'.
  destruct (new_hash_same H s) as (E1 & E2 & E3 & E4 & E5 & E6 & E7 & E8 & _).
  constructor; try assumption.
  - exists [EHash H]. split; [exact E7|repeat constructor].
  - intros k _ Hp Hs. rewrite E4 in Hp. rewrite E5 in Hs. destruct (k Hp Hs) as (H0 & X & Y). exists H0. rewrite E8, E7. split; [exact X|right; exact Y].
  - intros _ [w|w] _; [left; unfold keying in *; rewrite E4, E5; exact w|right; rewrite E7; apply (keyed_app [_]); exact w].
  - intros (J1 & J2). unfold J. rewrite E6, E7. split; [intros L; right; auto|intros [X|X]; [discriminate|right; auto] ].
Qed.

(* ---- the keys are derived ------------------------------------------------------------ *)
Definition agree (b : bool) (H : bytes) (s : hs) : hs :=
  logev (EAgreed b H) (on_hand (fun h => (if b then hw_expect (Some 21) else (fun h => h)) (hw_agreed (Some H) h)) s).
Lemma INV_agree : forall c s b H, INV c s -> s_kpeer s = true -> agreed s = None -> s_hand s <> None -> hashing s = false ->
  (c_side c = Client -> b = true) -> (b = true -> host_proved c H (exchange (s_log s))) -> (b = false -> expecting s <> Some 21 \/ True) ->
  INV c (agree b H s).
Proof.
  intros c s b H I Kp Ha Hh Hz Hc Hp _. pose proof (i_none c s I Ha Kp) as Hn. inv_destruct I.
  unfold keying, expecting, agreed, kexof, hashing, client_state in *.
  destruct (s_hand s) as [h|] eqn:Eh; [|congruence].
  constructor; unfold keying, expecting, agreed, kexof, hashing, client_state, agree; pj; rewrite ?Eh; pj; try assumption.
  - discriminate.
  - rewrite Kp; discriminate.
  - destruct b; cbn; [reflexivity|exact I4].
  - intros H0 E. exists b. split; [|exact Hc]. left. destruct b; cbn in E; congruence.
  - intros E. destruct b; discriminate E.
  - intros _. destruct b; discriminate.
  - intros E. destruct b; pj; congruence.
  - intros E. destruct (I12 E) as (A & B). split; intros L; [apply (granted_app [_]); auto|right; auto].
  - intros E. destruct (I13 E) as (A & B). split; intros L; [apply (granted_app [_]); auto|apply (success_app [_]); auto].
  - intros E L m' p [X|X]; [discriminate|eauto].
  - intros E. destruct (I14 E) as (A & B). split; intros L; right; auto.
  - intros E L. right; auto.
  - intros E L m' p [X|X]; [discriminate|eauto].
  - intros E m' E'. destruct b; cbn in E'; [injection E' as <-; auto|eauto].
  - split; [|exact I18]. cbn. split; [congruence|]. auto.
Qed.
Lemma agree_post : forall c ok s b H, INV c s -> s_kpeer s = true -> agreed s = None -> s_hand s <> None -> hashing s = false ->
  (c_side c = Client -> b = true) -> (b = true -> host_proved c H (exchange (s_log s))) ->
  post c plain ok s (agree b H s) /\ agreed (agree b H s) = Some H.
Proof.
  intros c ok s b H I Kp Ha Hh Hz Hc Hp. split.
  - assert (I' : INV c (agree b H s)) by (apply INV_agree; auto).
    constructor; try assumption; unfold agree; pj; auto.
    + exists [EAgreed b H]. split; [reflexivity|repeat constructor].
    + intros k _ Hp' Hs. pj. destruct (k Hp' Hs) as (H0 & X & _). congruence.
    + intros _ _ _. left. unfold keying; pj. rewrite Kp. apply orb_true_r.
    + intros (J1 & J2). unfold J; pj. split; [intros L; right; auto|intros [X|X]; [discriminate|right; auto] ].
  - unfold agree, agreed; pj. destruct (s_hand s) as [h|]; [|congruence]. destruct b; reflexivity.
Qed.

Lemma purge_post : forall c P ok s s1, post c P ok s s1 -> post c P ok s (purge s1).
Proof.
  intros c P ok s s1 Q. eapply (post_trans c P ok True); [auto|exact Q|].
  eapply post_impl; [|apply (post_tx c (fun _ => False)); [|apply Q|apply tx_pend] ]; intros e [].
Qed.

(* ---- SendKexDhReply ------------------------------------------------------------------ *)
Lemma SendKexDhReply_post : forall c a s, INV c s -> s_kpeer s = true -> c_side c = Server -> wf_hans a ->
  post c plain (alive (snd (SendKexDhReply c a s)) = true) s (fst (SendKexDhReply c a s)).
Proof.
  intros c a s I Kp Hc Ha. unfold SendKexDhReply.
  set (fail := fun (s : hs) (r : rc) => match r with WS_SUCCESS | WS_WANT_WRITE => (s, r) | _ => (purge s, r) end).
  assert (F : forall s1 r, post c plain (alive r = true) s s1 -> post c plain (alive (snd (fail s1 r)) = true) s (fst (fail s1 r))).
  { intros s1 r P. assert (P' : post c plain (alive r = true) s (purge s1)) by (apply purge_post; exact P). destruct r; exact P || exact P'. }
  assert (R : forall r, post c plain (alive r = true) s s) by (intros; apply post_refl; exact I).
  destruct (s_hand s) as [h|] eqn:Eh; [|apply (F s WS_BAD_ARGUMENT), R].
  destruct (h_hash h) eqn:Ez; [|apply (F s WS_CRYPTO_FAILED), R]. unfold wf_hans in Ha. destruct (ha_hash a) as [[|b H]|]; [apply (F s WS_CRYPTO_FAILED), R| |apply (F s WS_CRYPTO_FAILED), R].
  assert (P1 : post c plain True s (new_hash (b :: H) s)) by (apply hash_post; [exact I|discriminate|exact Ha]).
  destruct (new_hash_same (b :: H) s) as (_ & _ & _ & E4 & E5 & _ & _ & E8 & E9 & E10).
  set (s1 := new_hash (b :: H) s) in *.
  destruct (negb (ha_mid a)). { apply (F s1 WS_CRYPTO_FAILED). eapply post_weak; [|exact P1]. auto. }
  assert (Ag : agreed s = None) by (apply (i_hash c s I); unfold hashing; rewrite Eh; exact Ez).
  destruct (agree_post c True s1 false (b :: H)) as (P2 & A2).
  { apply P1. } { congruence. } { congruence. } { apply E10; congruence. } { exact E9. } { congruence. } { discriminate. }
  change (logev (EAgreed false (b :: H)) (on_hand (hw_agreed (Some (b :: H))) s1)) with (agree false (b :: H) s1).
  set (s2 := agree false (b :: H) s1) in *.
  assert (P12 : post c plain True s s2) by (eapply post_trans; [|exact P1|exact P2]; auto).
  assert (Kp2 : s_kpeer s2 = true) by (unfold s2, agree; pj; congruence).
  destruct (queue None ODhReply s2) as [s3 okq] eqn:Q. destruct okq; cbn [negb].
  2:{ apply (F s3 WS_MEMORY_E). eapply post_weak; [|eapply post_then_bg; [exact P12|eapply queue_fail_bg; exact Q] ]. auto. }
  assert (Hh2 : s_hand s2 <> None) by (intros X; unfold agreed in A2; rewrite X in A2; discriminate).
  assert (P3 : post c plain True s2 (on_hand (hw_expect (Some MSG_NEWKEYS)) s3)).
  { eapply post_impl; [apply (pset_none ODhReply)|].
    eapply sent_post; try eassumption; [apply P12|reflexivity|congruence|congruence]. }
  pose proof (queue_log _ _ _ _ _ Q) as (Q1 & _). apply queue_tx in Q.
  set (s4 := on_hand (hw_expect (Some MSG_NEWKEYS)) s3) in *.
  assert (A4 : agreed s4 = Some (b :: H)).
  { unfold s4, agreed in *; pj. rewrite Q1. destruct (s_hand s2); [exact A2|discriminate]. }
  assert (P14 : post c plain True s s4) by (eapply post_trans; [|exact P12|exact P3]; auto).
  assert (P5 : post c plain (alive (snd (SendNewKeys c a s4)) = true) s4 (fst (SendNewKeys c a s4))).
  { eapply SendNewKeys_post; [apply P14|exact A4|]. unfold s4; pj. rewrite (tx_kpeer _ _ _ Q). exact Kp2. }
  destruct (SendNewKeys c a s4) as [s5 r5]. cbn [fst snd] in P5.
  assert (P15 : post c plain (alive r5 = true) s s5) by (eapply post_trans; [|exact P14|exact P5]; auto).
  destruct (rc_eqb r5 WS_SUCCESS && ha_ext a) eqn:Ee.
  - pose proof (send1_bg c s5) as T. destruct (send1 c None OOther s5) as [s6 r6]. apply F.
    apply andb_prop in Ee. destruct Ee as (Ee & _). apply rc_eqb_eq in Ee. subst r5.
    eapply post_weak; [|eapply post_then_bg; [exact P15|exact T] ]. auto.
  - apply F. exact P15.
Qed.
