(* HsRun.v - receiving, accept, connect, worker: the invariant of histories. *)
From Verif Require Import Base WireModel WireSpec WireProofs NegoModel AuthModel AuthSpec AuthProofs AuthStep HsModel HsSpec HsProofs HsStep HsStep2 HsStep3.
From Coq Require Import List NArith Bool Lia.
Import ListNotations.
Open Scope N_scope.

(* events of receiving: no step of accept or connect, and messages of
   authentication and later only in the states that allow them *)
Definition seen (c : hcfg) (acc con : N) (e : ev) : Prop :=
  match e with
  | EAct m _ => (c_side c = Server -> 50 <= m -> 4 <= acc) /\ (c_side c = Client -> 50 <= m -> 7 <= con) /\
                (c_side c = Server -> 50 <= m < 80 -> acc < 8)
  | ESent (Some _) _ | EStepFailed _ => False
  | _ => True
  end.
(* received keys come from this exchange's agreement, like those sent with *)
Definition kin (l : list ev) : Prop :=
  holds (fun e pre => match e with EKeysIn o => exists H, o = Some H /\ In (EKeysOut (Some H)) (exchange pre) | _ => True end) l.
Lemma kin_plain : forall n l, Forall plain n -> kin l -> kin (n ++ l).
Proof. intros n l F H. induction F as [|e t Fe Ft IH]; [exact H|]. split; [|exact IH]. destruct e; try exact Logic.I. contradiction. Qed.
Lemma plain_seen : forall c a b e, plain e -> seen c a b e.
Proof. intros c a b e Hp; destruct e; try exact Logic.I; try contradiction. exact Hp. Qed.

Record rxp (c : hcfg) (ok : Prop) (s s' : hs) : Prop := mkRxp {
  r_inv : INV c s';
  r_acc : s_acc s' = s_acc s; r_con : s_con s' = s_con s;
  r_log : exists n, s_log s' = n ++ s_log s /\ Forall (seen c (s_acc s) (s_con s)) n;
  r_k : K s -> ok -> K s';
  r_w : K s -> W s -> ok -> W s';
  r_j : J s -> J s';
  r_e : K s -> kin (s_log s) -> kin (s_log s') }.
Lemma rxp_refl : forall c ok s, INV c s -> rxp c ok s s.
Proof. intros. constructor; auto. exists []. split; [reflexivity|constructor]. Qed.
Lemma rxp_trans : forall c (ok1 ok2 ok : Prop) s s1 s2, (ok -> ok1 /\ ok2) -> (ok1 \/ forall n, s_log s2 = n ++ s_log s1 -> Forall plain n) ->
  rxp c ok1 s s1 -> rxp c ok2 s1 s2 -> rxp c ok s s2.
Proof.
  intros c ok1 ok2 ok s s1 s2 Ho Hx [A1 A2 A3 (n & A5 & A5') A6 A7 A8 A9] [B1 B2 B3 (m & B5 & B5') B6 B7 B8 B9].
  constructor; try congruence.
  - exists (m ++ n). rewrite B5, A5, app_assoc. split; [reflexivity|apply Forall_app]. rewrite A2, A3 in B5'. auto.
  - intros k o. apply Ho in o. destruct o. auto.
  - intros k w o. apply Ho in o. destruct o. auto.
  - auto.
  - intros k e. destruct Hx as [Hx|Hx]; [auto|]. rewrite B5. apply kin_plain; auto.
Qed.
Lemma rxp_weak : forall c (ok ok' : Prop) s s', (ok' -> ok) -> rxp c ok s s' -> rxp c ok' s s'.
Proof. intros c ok ok' s s' H []. constructor; auto. Qed.
Lemma rxp_post : forall c (ok : Prop) s s', post c plain ok s s' -> rxp c ok s s'.
Proof.
  intros c ok s s' [A1 A2 A3 A4 (n & A5 & A5') A6 A7 A8]. constructor; auto.
  - exists n. split; [exact A5|]. eapply Forall_impl; [|exact A5']. apply plain_seen.
  - intros _ e. rewrite A5. apply kin_plain; assumption.
Qed.
(* fields the invariant does not depend on, and the held packet *)
Lemma rxp_misc : forall c ok s s', INV c s ->
  s_acc s' = s_acc s -> s_con s' = s_con s -> s_srv s' = s_srv s -> s_kself s' = s_kself s -> s_kpeer s' = s_kpeer s ->
  s_hand s' = s_hand s -> s_auth s' = s_auth s -> s_log s' = s_log s -> s_chans s' = s_chans s ->
  (forall k, s_held s' = Some k -> wf_pkt k) -> rxp c ok s s'.
Proof.
  intros c ok s s' I E1 E2 E3 E4 E5 E6 E7 E8 E9 Hh. constructor; try assumption.
  - inv_destruct I. unfold keying, expecting, agreed, kexof, hashing, client_state in *.
    constructor; unfold keying, expecting, agreed, kexof, hashing, client_state; rewrite ?E1, ?E2, ?E3, ?E4, ?E5, ?E6, ?E7, ?E8; assumption.
  - exists []. rewrite E8. split; [reflexivity|constructor].
  - unfold K, agreed. rewrite E4, E5, E6, E8. auto.
  - unfold W, keying. rewrite E4, E5, E8. auto.
  - unfold J. rewrite E8, E9. auto.
  - rewrite E8. auto.
Qed.
Lemma same_plain : forall s1 s2 : hs, s_log s2 = s_log s1 -> forall n, s_log s2 = n ++ s_log s1 -> Forall plain n.
Proof.
  intros s1 s2 E n H. rewrite E in H. assert (n = []) as -> ; [|constructor].
  destruct n as [|x n]; [reflexivity|]. exfalso. apply (f_equal (@length ev)) in H. cbn in H. rewrite app_length in H. lia.
Qed.
Lemma rxp_err : forall c ok s v, INV c s -> rxp c ok s (w_err v s).
Proof. intros. apply rxp_misc; pj; auto. apply (i_held c s H). Qed.
Lemma rxp_held : forall c ok s h, INV c s -> (forall k, h = Some k -> wf_pkt k) -> rxp c ok s (w_held h s).
Proof. intros. apply rxp_misc; pj; auto. Qed.
Lemma rxp_then_err : forall c ok s s1 v, rxp c ok s s1 -> rxp c ok s (w_err v s1).
Proof. intros. apply (rxp_trans c ok True ok s s1); [auto|right; apply same_plain; reflexivity|exact H|]. apply rxp_err. apply H. Qed.
Lemma rxp_bg : forall c ok s s', INV c s -> tx bg s s' -> rxp c ok s s'.
Proof. intros. apply rxp_post, post_bg; assumption. Qed.
Lemma rxp_then_bg : forall c ok s s1 s2, rxp c ok s s1 -> tx bg s1 s2 -> rxp c ok s s2.
Proof.
  intros c ok s s1 s2 H T. eapply (rxp_trans c ok True); [auto| |exact H|apply rxp_bg; [apply H|exact T] ].
  right. intros n E. destruct (tx_log _ _ _ T) as (n' & E' & F). rewrite E' in E. apply app_inv_tail in E. subst n'.
  eapply Forall_impl; [|exact F]. apply bg_plain.
Qed.

Lemma allowed_false : forall c m s s1, allowed c m s = (false, s1) -> s1 = s.
Proof.
  intros c m s s1 H.
  assert (F : forall ok s2, kex_filter m s = Some (ok, s2) -> ok = false -> s2 = s).
  { intros ok s2. unfold kex_filter. destruct (s_kpeer s); [|congruence]. destruct (m =? MSG_KEXINIT); [congruence|].
    destruct (option_map h_expect (s_hand s)) as [[x|]|]; try discriminate. destruct (m =? x); congruence. }
  unfold allowed in H. destruct (c_side c).
  - unfold allowed_server in H. destruct (m =? MSG_SERVICE_ACCEPT); [congruence|]. destruct (m =? MSG_SERVICE_REQUEST); [congruence|].
    destruct (trans_gen m); [congruence|]. destruct (trans m); [|congruence].
    destruct (kex_filter m s) as [[ok s2]|]; [|congruence]. injection H as -> ->. eapply F; reflexivity.
  - unfold allowed_client in H. destruct (_ || _); [congruence|]. destruct (m =? MSG_SERVICE_ACCEPT); [congruence|].
    destruct (trans_gen m); [congruence|]. destruct (trans m); [|congruence].
    destruct (kex_filter m s) as [[ok s2]|]; [|congruence]. injection H as -> ->. eapply F; reflexivity.
Qed.

Lemma act_rel : forall c m p s s1, INV c s -> passed c m s s1 -> let s2 := logev (EAct m p) s1 in
  s_acc s2 = s_acc s /\ s_con s2 = s_con s /\ s_log s2 = EAct m p :: s_log s /\ s_held s2 = s_held s /\
  (K s -> K s2) /\ (W s -> W s2) /\ (J s -> J s2).
Proof.
  intros c m p s s1 I F s2.
  assert (E : s_acc s1 = s_acc s /\ s_con s1 = s_con s /\ s_log s1 = s_log s /\ s_held s1 = s_held s /\ agreed s1 = agreed s /\
              s_kpeer s1 = s_kpeer s /\ s_kself s1 = s_kself s /\ s_chans s1 = s_chans s).
  { destruct (f_st _ _ _ _ F) as [(-> & _)|(-> & _)]; [auto 10|]. unfold agreed; pj. destruct (s_hand s); pj; auto 10. }
  destruct E as (E1 & E2 & E3 & E4 & E5 & E6 & E7 & E8). unfold s2; pj. rewrite E3.
  split; [exact E1|]. split; [exact E2|]. split; [reflexivity|]. split; [exact E4|]. split; [|split].
  - unfold K; pj. change (agreed (logev (EAct m p) s1)) with (agreed s1). rewrite E3, E5, E6, E7. intros k Hp Hs.
    destruct (k Hp Hs) as (H & A & B). exists H. split; [exact A|]. cbn [exchange].
    destruct (is_kexinit (EAct m p)) eqn:Z; [|right; exact B].
    cbn in Z. apply andb_prop in Z. destruct Z as (Z & _). apply N.eqb_eq in Z. rewrite (f_20 _ _ _ _ F Z) in Hp. discriminate.
  - unfold W, keying; pj. rewrite E3, E6, E7. intros [w|w]; [left; exact w|right; apply (keyed_app [_]); exact w].
  - unfold J; pj. rewrite E3, E8. intros (J1 & J2). split; [intros L; right; auto|]. intros [X|X]; [discriminate|right; auto].
Qed.

Lemma DoPacket_rx : forall c a m p s s' r b, INV c s -> wf_hans a -> bytes_ok p -> is32 (lenN p) ->
  DoPacket c a m p s = (s', r, b) -> rxp c (alive r = true) s s' /\ s_held s' = s_held s.
Proof.
  intros c a m p s s' r b I Ha Hp Hl H. unfold DoPacket in H. destruct (allowed c m s) as [ok s1] eqn:A. destruct ok; cbn [negb] in H.
  2: { injection H as <- <- <-. apply allowed_false in A. subst s1. split; [apply rxp_refl; exact I|reflexivity]. }
  apply allowed_spec in A; [|exact I]. pose proof (dispatch_post c a m p s s1 I A Ha Hp Hl) as P.
  destruct (act_rel c m p s s1 I A) as (R1 & R2 & R3 & R4 & R5 & R6 & R7).
  assert (R0 : m = 21 -> s_kpeer (logev (EAct m p) s1) = true).
  { intros ->. assert (E : s_kpeer s1 = s_kpeer s) by (destruct (f_st _ _ _ _ A) as [(-> & _)|(-> & _)]; reflexivity).
    pj. rewrite E. apply (f_kp _ _ _ _ A); [unfold kex_number; lia|discriminate]. } set (s2 := logev (EAct m p) s1) in *.
  destruct (dispatch c a m p s2) as [s3 r3]. cbn [fst snd] in P.
  assert (Q : rxp c (alive r3 = true) s s3 /\ s_held s3 = s_held s).
  { destruct P as [P1 P2 P3 P4 (n & P5 & P5') P6 P7 P8]. split; [|congruence]. constructor; try congruence; auto.
    - exists (n ++ [EAct m p]). rewrite P5, R3, <- app_assoc. split; [reflexivity|]. apply Forall_app. split.
      + eapply Forall_impl; [|exact P5']. intros e [He|(_ & [He|(-> & _)])]; [apply plain_seen; exact He|apply plain_seen; exact He|exact Logic.I].
      + constructor; [|constructor]. cbn. split; [exact (f_50 _ _ _ _ A)|]. split; [exact (f_c50 _ _ _ _ A)|exact (f_79 _ _ _ _ A)].
    - intros k e. apply R5 in k. rewrite P5, R3. clear -k e P5' R3 A R0.
      assert (Hs : kin (EAct m p :: s_log s)) by (split; [exact Logic.I|exact e]). rewrite <- R3 in *. clear e.
      induction P5' as [|e t Fe Ft IH]; [exact Hs|]. split; [|exact IH]. destruct e as [ |m' p'|k' o| | | | | |o| | | | | | | ]; try exact Logic.I.
      destruct Fe as [Fe|(E21 & [Fe|(E & _ & Ks)])]; [contradiction|contradiction|]. injection E as ->.
      destruct (k (R0 E21) Ks) as (H & E1 & E2). exists H. split; [exact E1|].
      clear -Ft E2. induction Ft as [|e t Fe Ft IH]; [exact E2|]. cbn [app exchange].
      destruct (is_kexinit e) eqn:Z; [|right; exact IH]. destruct e; try discriminate. destruct Fe as [Fe|(_ & [Fe|(Fe & _)])]; [contradiction|contradiction|discriminate]. }
  destruct (rc_eqb r3 WS_AUTH_PENDING) eqn:Ep.
  { injection H as <- <- <-. exact Q. }
  pose proof (highwater_tx c (ha_hw a) s3) as T. destruct (highwater c (ha_hw a) s3) as [s4 h]. cbn [fst] in T.
  injection H as <- <- <-. destruct Q as (Q & Qh). split; [|destruct T; congruence].
  eapply rxp_then_bg; [|exact T]. eapply rxp_weak; [|exact Q]. destruct (rc_eqb r3 WS_SUCCESS) eqn:Es; [|auto].
  apply rc_eqb_eq in Es. subst r3. auto.
Qed.

Lemma process_rx : forall c a k s, INV c s -> wf_hans a -> wf_pkt k ->
  rxp c (alive (s_err (fst (process c a k s))) = true) s (fst (process c a k s)).
Proof.
  intros c a k s I Ha Hk. destruct k as [m p|e]; cbn [process].
  2: { cbn [fst]. apply rxp_err, I. }
  destruct (DoPacket c a m p s) as [[s1 r] b] eqn:D. destruct Hk as (Hp & Hl).
  pose proof (DoPacket_rx c a m p s s1 r b I Ha Hp Hl D) as (P & _). cbn [fst].
  destruct b; pj; [|apply rxp_then_err; exact P].
  apply (rxp_trans c (alive r = true) True _ s (w_err r s1)); [auto|right; apply same_plain; reflexivity|apply rxp_then_err; exact P|].
  apply rxp_held; [|discriminate]. apply (rxp_err c True), P.
Qed.

Lemma DoReceive_rx : forall c x s, INV c s -> wf_slot x ->
  rxp c (alive (s_err (fst (DoReceive c x s))) = true) s (fst (DoReceive c x s)).
Proof.
  intros c x s I (Hx & Ha). unfold DoReceive. destruct (s_held s) as [k|] eqn:Eh.
  { apply process_rx; [exact I|exact Ha|apply (i_held c s I k Eh)]. }
  set (s1 := if rc_eqb (s_err s) WS_WANT_READ then w_err WS_SUCCESS s else s).
  assert (P1 : rxp c True s s1) by (unfold s1; destruct (rc_eqb _ _); [apply rxp_err, I|apply rxp_refl, I]).
  destruct (sl_rx x) as [e| |k]; cbn [fst].
  - eapply rxp_weak; [|apply rxp_then_err; exact P1]. auto.
  - eapply rxp_weak; [|apply rxp_then_err; exact P1]. auto.
  - assert (P2 : rxp c True s (w_held (Some k) s1)).
    { eapply (rxp_trans c True True); [auto|auto|exact P1|]. apply rxp_held; [apply P1|]. intros k' E. injection E as <-. exact Hx. }
    eapply rxp_trans; [| |exact P2|apply process_rx; [apply P2|exact Ha|exact Hx] ]; auto.
Qed.

Lemma classify_alive : forall r, rc_neg (classify r) = false -> alive r = true.
Proof. intros []; cbn; congruence. Qed.
Lemma DoReceive_alive : forall c x s, rc_neg (snd (DoReceive c x s)) = false -> alive (s_err (fst (DoReceive c x s))) = true.
Proof.
  intros c x s. assert (P : forall a k s, rc_neg (snd (process c a k s)) = false -> alive (s_err (fst (process c a k s))) = true).
  { intros a k t. destruct k as [m p|e]; cbn [process]; [|cbn [fst snd]; pj; apply classify_alive].
    destruct (DoPacket c a m p t) as [[s1 r] b]. cbn [fst snd]. destruct b; pj; apply classify_alive. }
  unfold DoReceive. destruct (s_held s); [apply P|]. destruct (sl_rx x); cbn [fst snd]; try discriminate. apply P.
Qed.

Definition fstate (f : flow) : hs := match f with Go s _ => s | Stop s _ => s end.
Definition live (s : hs) : Prop := alive (s_err s) = true.
(* the flow ended with fine state *)
Definition okflow (f : flow) : Prop := match f with Go _ _ => True | Stop s _ => live s end.

Definition isok (r : ares) : bool :=
  match r with ARet r => rc_eqb r WS_SUCCESS | AMore => false | _ => true end.

Lemma recv_rx : forall c dn sl s, INV c s -> Forall wf_slot sl ->
  rxp c (okflow (recv_until c dn s sl)) s (fstate (recv_until c dn s sl)) /\
  (forall s' sl', recv_until c dn s sl = Go s' sl' -> dn s' = true /\ Forall wf_slot sl') /\
  (forall s' r, recv_until c dn s sl = Stop s' r -> isok r = false).
Proof.
  induction sl as [|x t IH]; intros s I F; cbn [recv_until]; destruct (dn s) eqn:D.
  - split; [apply rxp_refl, I|]. split; [|discriminate]. intros s' sl' E. injection E as <- <-. auto.
  - split; [apply rxp_refl, I|]. split; [discriminate|]. intros s' r E. injection E as <- <-. reflexivity.
  - split; [apply rxp_refl, I|]. split; [|discriminate]. intros s' sl' E. injection E as <- <-. auto.
  - inversion F as [|? ? Fx Ft]; subst. pose proof (DoReceive_rx c x s I Fx) as P. pose proof (DoReceive_alive c x s) as Al.
    destruct (DoReceive c x s) as [s1 r]. cbn [fst snd] in *. destruct (rc_neg r).
    + cbn [fstate okflow]. split; [exact P|]. split; [discriminate|]. intros s' r' E. injection E as <- <-. reflexivity.
    + specialize (Al eq_refl). destruct (IH s1 (r_inv _ _ _ _ P) Ft) as (Q & Q2 & Q3). split; [|auto].
      eapply (rxp_trans c _ _ _); [| |exact P|exact Q]; auto.
Qed.
