(* HsConnect.v - connect keeps the invariant, and what a connect-only history
   has gone through. *)
From Verif Require Import Base WireModel WireSpec WireProofs NegoModel AuthModel AuthSpec AuthProofs AuthStep HsModel HsSpec HsProofs HsStep HsStep2 HsStep3 HsRun HsAccept.
From Coq Require Import List NArith Bool Lia.
Import ListNotations.
Open Scope N_scope.

(* the messages sent by connect before state k; o4 begins the key exchange *)
Definition cown (o4 : out) (k : N) : list (N * out) :=
  (if 1 <=? k then [(0, OVersion)] else []) ++ (if 3 <=? k then [(2, OKexInit)] else []) ++
  (if 5 <=? k then [(4, o4)] else []) ++ (if 7 <=? k then [(6, OServiceRequest)] else []) ++
  (if 9 <=? k then [(8, OAuthRequest)] else []) ++ (if 11 <=? k then [(10, OChanOpen)] else []) ++
  (if 15 <=? k then [(14, OChanRequest)] else []).
Definition kexfirst (o : out) : Prop := o = OGexRequest \/ exists g, o = ODhInit g.
Definition cmsg (k : N) (o : out) : Prop :=
  (k = 0 /\ o = OVersion) \/ (k = 2 /\ o = OKexInit) \/ (k = 4 /\ kexfirst o) \/ (k = 6 /\ o = OServiceRequest) \/
  (k = 8 /\ o = OAuthRequest) \/ (k = 10 /\ o = OChanOpen) \/ (k = 12 /\ o = OOther) \/ (k = 13 /\ o = OOther) \/ (k = 14 /\ o = OChanRequest).
Definition cnonkeep (k : N) : Prop := k = 0 \/ k = 2 \/ k = 4 \/ k = 6 \/ k = 8 \/ k = 10 \/ k = 12 \/ k = 13 \/ k = 14.

Record CF (k : N) (s : hs) : Prop := mkCF {
  cf_k : K s; cf_w : 3 <= k -> W s; cf_keyed : 6 <= k -> keyed (s_log s);
  cf_srv : k <= 1 -> s_srv s = 0; cf_v : 2 <= k -> In EVersion (s_log s);
  cf_own : exists o4, kexfirst o4 /\ own_msgs (s_log s) = cown o4 k;
  cf_ok : 16 <= k -> In EChanOk (s_log s); cf_ord : ordered (s_log s) }.

Definition Crest (s : hs) : Prop :=
  (s_pend s = true /\ cnonkeep (s_con s) /\ CF (s_con s + 1) s) \/
  ((s_pend s = false \/ ~ cnonkeep (s_con s)) /\ CF (s_con s) s).
Definition retry (s : hs) : Prop := is_want (s_err s) = true.
Lemma retry_live : forall s, retry s -> live s.
Proof. intros s. unfold retry, live. destruct (s_err s); cbn; congruence. Qed.

Record stp (c : hcfg) (s s' : hs) : Prop := mkStp {
  q_inv : INV c s'; q_con : s_con s' = s_con s; q_log : exists n, s_log s' = n ++ s_log s;
  q_k : K s -> K s'; q_w : K s -> W s -> W s';
  q_e : kin (s_log s) -> kin (s_log s') }.
Lemma post_stp : forall c own o s s', post c (pset own o) True s s' -> stp c s s'.
Proof.
  intros c own o s s' P. pose proof (post_kin _ _ _ _ _ _ P). destruct P as [A1 A2 A3 A4 (n & A5 & _) A6 A7 A8].
  constructor; auto. exists n; exact A5.
Qed.

Section Connect.
Variable c : hcfg.
Hypothesis Hc : c_side c = Client.
Variables (L0 : list ev) (X Y : Prop).

Record CI (s : hs) : Prop := mkCI {
  ci_inv : INV c s; ci_log : exists n, s_log s = n ++ L0; ci_k : X -> K s /\ kin (s_log s);
  ci_a : Y -> CF (s_con s) s /\ (s_con s <= 4 -> s_err s = WS_SUCCESS \/ s_pend s = false) }.
Record CR (s : hs) : Prop := mkCR {
  cr_inv : INV c s; cr_log : exists n, s_log s = n ++ L0; cr_k : X -> (live s -> K s) /\ kin (s_log s); cr_a : Y -> retry s -> Crest s }.

Definition cfl (k : N) (f : flow) : Prop :=
  match f with
  | Go s sl => CI s /\ k <= s_con s /\ Forall wf_slot sl
  | Stop s r => CR s /\ isok r = false
  end.
Lemma cfl_bind : forall k j f g, cfl k f -> (forall s sl, CI s -> k <= s_con s -> Forall wf_slot sl -> cfl j (g s sl)) -> cfl j (fbind f g).
Proof. intros k j [s sl|s r] g H Hg; cbn in *; [destruct H as (A & B & C); auto|exact H]. Qed.
Lemma cat_fl : forall k f s sl, CI s -> k <= s_con s -> Forall wf_slot sl -> (s_con s = k -> cfl (k + 1) (f s sl)) -> cfl (k + 1) (at_state s_con k f s sl).
Proof.
  intros k f s sl A B C D. unfold at_state. destruct (N.eqb_spec (s_con s) k) as [E|E]; [auto|]. cbn. split; [exact A|]. split; [lia|exact C].
Qed.

Lemma INV_con : forall k s, INV c s -> (10 <= k -> In (EAct 52 []) (s_log s)) -> s_con s <= k -> INV c (w_con k s).
Proof.
  intros k s I H10 L. inv_destruct I. constructor; unfold keying, expecting, agreed, kexof, hashing, client_state in *; pj; try assumption.
  - intros _. auto.
  - intros E Lk. apply I15'; [exact E|lia].
Qed.
Lemma CF_same : forall k s s', s_kself s' = s_kself s -> s_kpeer s' = s_kpeer s -> s_hand s' = s_hand s -> s_log s' = s_log s ->
  s_srv s' = s_srv s -> CF k s -> CF k s'.
Proof.
  intros k s s' E1 E2 E3 E5 E6 [A1 A2 A3 A4 A5 A6 A7 A8].
  constructor; unfold K, W, agreed, keying in *; rewrite ?E1, ?E2, ?E3, ?E5, ?E6; assumption.
Qed.
Lemma CF_rx : forall k (ok : Prop) s s', CF k s -> s_con s = k -> 2 <= k -> rxp c ok s s' -> ok -> CF k s'.
Proof.
  intros k ok s s' [A1 A2 A3 A4 A5 A6 A7 A8] Ek Lk [R1 R2 R3 (n & R4 & R4') R5 R6 R7] Hok.
  constructor; rewrite ?R4; auto; try lia; try (intros; apply in_app_r; auto).
  - intros L. apply keyed_app; auto.
  - rewrite (own_seen _ _ _ _ _ R4'). exact A6.
  - eapply ordered_app; [exact R4'|congruence|intros; apply A3; lia| |exact A8]. intros _. destruct A6 as (o4 & _ & ->). unfold cown.
    clear. repeat destruct (_ <=? _); cbn; intuition discriminate.
Qed.

Lemma crecv_fl : forall k dn s sl (g : hs -> list slot -> flow), CI s -> s_con s = k -> 2 <= k -> ~ cnonkeep k -> Forall wf_slot sl ->
  (forall s' sl', CI s' -> s_con s' = k -> dn s' = true -> Forall wf_slot sl' -> cfl (k + 1) (g s' sl')) ->
  cfl (k + 1) (fbind (recv_until c dn s sl) g).
Proof.
  intros k dn s sl g [A1 (m & A2) A3 A4] E L Nk F Hg.
  assert (Er : forall s' sl', recv_until c dn s sl = Go s' sl' -> s' = s \/ s_err s' = WS_SUCCESS).
  { clear - F. revert s. induction sl as [|x t IH]; intros s s' sl'; cbn [recv_until]; destruct (dn s); try (intros E; injection E as <- _; auto; fail); try discriminate.
    assert (P : forall a k s1, rc_neg (snd (process c a k s1)) = false -> s_err (fst (process c a k s1)) = WS_SUCCESS).
    { assert (Z : forall r, rc_neg (classify r) = false -> r = WS_SUCCESS) by (intros []; cbn; congruence).
      intros a k t'. destruct k as [m p|e]; cbn [process]; [|cbn [fst snd]; pj; apply Z].
      destruct (DoPacket c a m p t') as [[s1 r] b]. cbn [fst snd]. destruct b; pj; apply Z. }
    assert (Q : rc_neg (snd (DoReceive c x s)) = false -> s_err (fst (DoReceive c x s)) = WS_SUCCESS).
    { unfold DoReceive. destruct (s_held s); [apply P|]. destruct (sl_rx x); cbn [fst snd]; try discriminate. apply P. }
    destruct (DoReceive c x s) as [s1 r]. cbn [fst snd] in Q. destruct (rc_neg r); [discriminate|]. intros E.
    inversion F; subst. destruct (IH H2 _ _ _ E) as [-> | E2]; [right; auto|right; exact E2]. }
  destruct (recv_rx c dn sl s A1 F) as (R & R2 & R3).
  destruct (recv_until c dn s sl) as [s' sl'|s' r]; cbn [fstate okflow fbind] in *; pose proof (r_log _ _ _ _ R) as (n & Rl & _).
  - destruct (R2 s' sl' eq_refl) as (D & F'). apply Hg; [|rewrite (r_con _ _ _ _ R); exact E|exact D|exact F']. constructor.
    + apply R.
    + exists (n ++ m). rewrite Rl, A2, app_assoc. reflexivity.
    + intros x. destruct (A3 x). split; [apply (r_k _ _ _ _ R)|apply (r_e _ _ _ _ R)]; auto.
    + intros y. destruct (A4 y) as (B1 & B2). rewrite (r_con _ _ _ _ R). split; [eapply CF_rx; eauto; lia|]. intros L4.
      destruct (Er _ _ eq_refl) as [-> |]; auto.
  - cbn. split; [|exact (R3 s' r eq_refl)]. constructor.
    + apply R.
    + exists (n ++ m). rewrite Rl, A2, app_assoc. reflexivity.
    + intros x. destruct (A3 x). split; [intros l; apply (r_k _ _ _ _ R)|apply (r_e _ _ _ _ R)]; auto.
    + intros y l. destruct (A4 y) as (B1 & B2). right. rewrite (r_con _ _ _ _ R), E. split; [auto|]. rewrite E in B1.
      eapply CF_rx; [exact B1|exact E|exact L|exact R|apply retry_live; exact l].
Qed.

Lemma cmsg_nonkeep : forall k o, cmsg k o -> cnonkeep k.
Proof. unfold cmsg, cnonkeep. intros k o H. intuition. Qed.

Ltac leb := repeat match goal with |- context [?a <=? ?b] => destruct (N.leb_spec a b); try lia end.

Lemma CF_sent : forall k o s s' n, CF k s -> cmsg k o -> stp c s s' ->
  s_log s' = n ++ ESent (Some k) o :: s_log s -> Forall bg n -> s_srv s' = s_srv s -> (k = 2 -> W s') -> CF (k + 1) s'.
Proof.
  intros k o s s' n [A1 A2 A3 A4 A5 (o4 & A6 & A6') A7 A8] Hn [P1 P2 _ P6 P7 _] Hl Fn Ha Hw.
  assert (Fs : Forall (seen c 0 0) n) by (eapply Forall_impl; [|exact Fn]; apply bg_seen).
  assert (Hk : cnonkeep k) by (eapply cmsg_nonkeep; exact Hn). unfold cnonkeep in Hk.
  constructor; rewrite ?Hl; auto; try (intros; apply in_app_r; right; apply A5; lia); try lia.
  - intros L. destruct (N.eq_dec k 2); [auto|]. apply P7; auto. apply A2. lia.
  - intros L. apply keyed_app. apply (keyed_app [_]). apply A3. lia.
  - exists (if k =? 4 then o else o4). split.
    + destruct (N.eqb_spec k 4); [|exact A6]. subst k. unfold cmsg in Hn. intuition discriminate.
    + rewrite (own_seen _ _ _ _ _ Fs). cbn [own_msgs]. rewrite A6'. clear -Hn. unfold cmsg in Hn.
      decompose [or and] Hn; subst; try reflexivity.
  - apply ordered_bg; [exact Fn|]. split; [exact Logic.I|exact A8].
Qed.

Lemma cown_fl : forall k (o : hs -> out) s sl s' r, CI s -> s_con s = k -> (alive r = true -> exists o n, cmsg k o /\ s_log s' = n ++ ESent (Some k) o :: s_log s /\ Forall bg n) ->
  cnonkeep k -> stp c s s' -> s_srv s' = s_srv s ->
  okres r -> (r = WS_WANT_WRITE -> s_pend s' = true) -> (k = 2 -> alive r = true -> W s') ->
  Forall wf_slot sl -> cfl (k + 1) (own_step (w_con (k + 1)) (s', r) sl).
Proof.
  intros k _ s sl s' r [A1 (m & A2) A3 A4] Ek Hal Hk P Ha Hr Hp Hw F. unfold own_step.
  assert (Lg : exists n, s_log s' = n ++ L0).
  { destruct (q_log _ _ _ P) as (n & Pl). exists (n ++ m). rewrite Pl, A2, app_assoc. reflexivity. }
  assert (Hcon : s_con s' = k) by (rewrite (q_con _ _ _ P); exact Ek).
  assert (CFk : Y -> alive r = true -> CF (k + 1) s').
  { intros y al. destruct (Hal al) as (o & n & Hn & Hl & Fn). eapply CF_sent; eauto. rewrite <- Ek. apply A4, y. }
  destruct (rc_neg r) eqn:Er; cbn.
  - split; [|reflexivity]. constructor; unfold live, retry; pj.
    + eapply INV_ext; [apply P|..]; reflexivity.
    + exact Lg.
    + intros x. destruct (A3 x). split; [intros _; change (K s'); apply (q_k _ _ _ P); auto|apply (q_e _ _ _ P); assumption].
    + intros y al. left. pj. rewrite Hcon.
      assert (al2 : alive r = true) by (destruct r; cbn in al; try discriminate; reflexivity).
      split; [|split; [exact Hk|eapply CF_same; [..|exact (CFk y al2)]; reflexivity] ].
      apply Hp. destruct Hr as [Hr|[Hr|Hr]]; [subst r; discriminate|exact Hr|congruence].
  - assert (r = WS_SUCCESS) as -> by (unfold rc_neg in Er; apply negb_false_iff in Er; apply rc_eqb_eq; exact Er).
    split; [|split; [pj; lia|exact F] ]. constructor; pj.
    + apply INV_con; pj.
      * eapply INV_ext; [apply P|..]; reflexivity.
      * intros L. apply (i_con c s' (q_inv _ _ _ P) Hc). rewrite Hcon. unfold cnonkeep in Hk. lia.
      * lia.
    + exact Lg.
    + intros x. destruct (A3 x). split; [change (K s'); apply (q_k _ _ _ P); auto|apply (q_e _ _ _ P); assumption].
    + intros y. split; [|intros _; left; reflexivity]. eapply CF_same; [..|exact (CFk y eq_refl)]; reflexivity.
Qed.

Lemma csend_fl : forall k o s sl, CI s -> s_con s = k -> cmsg k o -> k <> 2 -> reply_to o = None -> Forall wf_slot sl ->
  cfl (k + 1) (own_step (w_con (k + 1)) (send1 c (Some k) o s) sl).
Proof.
  intros k o s sl A Ek Hn N2 Hr F. pose proof (post_stp _ _ _ _ _ (send1_post c (Some k) o True s (ci_inv s A) Hr)) as P.
  destruct (send1_res c (Some k) o s) as (R1 & R2 & R3). pose proof (send1_tx c (Some k) o s) as T.
  destruct (send1 c (Some k) o s) as [s' r]. cbn [fst snd] in *.
  eapply (cown_fl k (fun _ => o)); eauto; [|eapply cmsg_nonkeep; exact Hn|destruct T; assumption|intros; contradiction].
  intros al. destruct (R3 al) as (n & H1 & H2). exists o, n. auto.
Qed.

Lemma CI_next : forall k s, CI s -> s_con s = k -> 2 <= k -> ~ cnonkeep k \/ k = 12 \/ k = 13 -> (k = 9 -> In (EAct 52 []) (s_log s)) ->
  (k = 5 -> Y -> keyed (s_log s)) -> (k = 15 -> Y -> In EChanOk (s_log s)) -> CI (w_con (k + 1) s).
Proof.
  intros k s [A1 A2 A3 A4] Ek L Nk G H3 H9. constructor; pj; auto.
  - apply INV_con; auto; [|lia]. intros L8. destruct (N.eq_dec k 9); [auto|]. apply (i_con c s A1 Hc). lia.
  - intros y. rewrite Ek in A4. destruct (A4 y) as ([B1 B2 B3 B4 B5 (o4 & B6 & B6') B7 B8] & B9). split; [|intros L4; apply B9; lia].
    assert (Hn : k <> 2 /\ k <> 4 /\ k <> 6 /\ k <> 8 /\ k <> 10 /\ k <> 14) by (unfold cnonkeep in Nk; lia). clear Nk.
    destruct Hn as (N2 & N4 & N6 & N8 & N10 & N14).
    constructor; pj; auto; try (intros; apply B2; lia); try (intros; apply B5; lia); try lia.
    + intros L4. destruct (N.eq_dec k 5); [auto|]. apply B3. lia.
    + exists o4. split; [exact B6|]. rewrite B6'. clear -L N2 N4 N6 N8 N10 N14. unfold cown.
      replace (1 <=? k + 1) with (1 <=? k) by (leb; reflexivity). replace (3 <=? k + 1) with (3 <=? k) by (leb; reflexivity).
      replace (5 <=? k + 1) with (5 <=? k) by (leb; reflexivity). replace (7 <=? k + 1) with (7 <=? k) by (leb; reflexivity).
      replace (9 <=? k + 1) with (9 <=? k) by (leb; reflexivity). replace (11 <=? k + 1) with (11 <=? k) by (leb; reflexivity).
      replace (15 <=? k + 1) with (15 <=? k) by (leb; reflexivity). reflexivity.
    + intros L10. destruct (N.eq_dec k 15); [auto|]. apply B7. lia.
Qed.

Lemma kexfirst_sent : forall own a s, let f := SendKexFirst c own a s in
  okres (snd f) /\ (snd f = WS_WANT_WRITE -> s_pend (fst f) = true) /\
  (alive (snd f) = true -> exists o n, kexfirst o /\ s_log (fst f) = n ++ ESent own o :: s_log s /\ Forall bg n).
Proof.
  intros own a s. cbv zeta.
  assert (G : forall o h (s1 : hs) (ok : bool), kexfirst o -> queue own o s = (s1, ok) ->
     let f := if negb ok then (s1, WS_MEMORY_E) else flush c (on_hand h s1) in
     okres (snd f) /\ (snd f = WS_WANT_WRITE -> s_pend (fst f) = true) /\
     (alive (snd f) = true -> exists o n, kexfirst o /\ s_log (fst f) = n ++ ESent own o :: s_log s /\ Forall bg n)).
  { intros o h s1 ok Ho Q. cbv zeta. apply queue_log in Q. destruct Q as (_ & _ & Q). destruct ok; cbn [negb].
    - unfold flush. set (s2 := on_hand h s1). pose proof (flush_res (s_marks s2) c s2) as (F1 & F2).
      pose proof (tx_log _ _ _ (flush_tx (s_marks s2) c s2)) as (n & L & Fn). destruct Q as (Q1 & Q2).
      assert (E : s_log s2 = s_log s1 /\ s_pend s2 = s_pend s1) by (split; reflexivity). destruct E as (E1 & E2).
      split; [exact F1|]. split; [intros E; destruct (F2 E); congruence|]. intros _. exists o, n. rewrite L, E1, Q1. auto.
    - cbn [fst snd]. split; [right; right; reflexivity|]. split; discriminate. }
  assert (B : forall (s1 : hs) r, alive r = false -> r <> WS_WANT_WRITE -> let f := (s1, r) in okres (snd f) /\ (snd f = WS_WANT_WRITE -> s_pend (fst f) = true) /\
     (alive (snd f) = true -> exists o n, kexfirst o /\ s_log (fst f) = n ++ ESent own o :: s_log s /\ Forall bg n)).
  { intros s1 r H1 H2. cbn. split; [right; right; exact H1|]. split; [intros; contradiction|congruence]. }
  unfold SendKexFirst. destruct (s_hand s) as [h|] eqn:Eh; [|apply B; [reflexivity|discriminate] ].
  assert (D : let f := SendKexDhInit c own a s in okres (snd f) /\ (snd f = WS_WANT_WRITE -> s_pend (fst f) = true) /\
     (alive (snd f) = true -> exists o n, kexfirst o /\ s_log (fst f) = n ++ ESent own o :: s_log s /\ Forall bg n)).
  { unfold SendKexDhInit. rewrite Eh. destruct (h_kex h) as [g|]; [|apply B; [reflexivity|discriminate] ].
    destruct (negb (ha_mid a)); [apply B; [reflexivity|discriminate]|].
    destruct (queue own (ODhInit g) s) as [s1 ok] eqn:Q. eapply G; [right; exists g; reflexivity|exact Q]. }
  destruct (h_kex h) as [[|]|]; try exact D.
  unfold SendKexDhGexRequest. rewrite Eh. destruct (negb (ha_mid a)); [apply B; [reflexivity|discriminate]|].
  destruct (queue own OGexRequest s) as [s1 ok] eqn:Q. eapply G; [left; reflexivity|exact Q].
Qed.

Lemma csteps_fl : forall a opts s sl, CI s -> Forall wf_slot sl -> cfl 16 (connect_steps c a opts s sl).
Proof.
  intros a opts s sl A F. unfold connect_steps. cbv zeta.
  assert (Nk : ~ cnonkeep 3 /\ ~ cnonkeep 5 /\ ~ cnonkeep 7 /\ ~ cnonkeep 9 /\ ~ cnonkeep 11 /\ ~ cnonkeep 15) by (unfold cnonkeep; lia).
  destruct Nk as (N3 & N5 & N7 & N9 & N11 & N15).
  (* waiting *)
  assert (Wt : forall k n s sl, 2 <= k -> k <> 5 -> ~ cnonkeep k -> (k = 9 -> n = 4) -> (k = 15 -> n = 6) -> CI s -> k <= s_con s -> Forall wf_slot sl ->
     cfl (k + 1) (at_state s_con k (fun s sl => fbind (recv_until c (fun s => n <=? s_srv s) s sl) (fun s sl => Go (w_con (k + 1) s) sl)) s sl)).
  { clear s sl A F. intros k n s sl L2 K5 Nk H9 H15 A L F. apply cat_fl; auto. intros E. apply crecv_fl; auto. intros s' sl' A' E' D F'.
    cbn. split; [|split; [pj; lia|exact F'] ]. apply N.leb_le in D. apply CI_next; auto; try (intros; contradiction).
    - intros Ek. specialize (H9 Ek). apply (i_srv c s' (ci_inv s' A') Hc). lia.
    - intros Ek _. specialize (H15 Ek). apply (i_srv c s' (ci_inv s' A') Hc). lia. }
  eapply cfl_bind; [apply (cat_fl 0); auto; [lia|]; intros E; apply (csend_fl 0 OVersion); auto; [unfold cmsg; auto|discriminate]|]. clear s sl A F. intros s sl A L F.
  eapply cfl_bind; [apply (cat_fl 1); auto|].
  { intros E. unfold version_until. destruct (1 <=? s_srv s) eqn:Ecs.
    - cbn [fbind]. apply N.leb_le in Ecs. split; [|split; [pj; lia|exact F] ].
      destruct A as [A1 A2 A3 A4]. constructor; auto.
      + apply INV_con; auto; lia.
      + intros y. rewrite E in A4. destruct (A4 y) as (B & _). pose proof (cf_srv _ _ B). lia.
    - assert (N1 : ~ cnonkeep 1) by (unfold cnonkeep; lia).
      assert (St : forall v, CR (w_err v s)).
      { intros v. destruct A as [A1 A2 A3 A4]. constructor; auto.
        - eapply INV_ext; [exact A1|..]; reflexivity.
        - intros x. destruct (A3 x). split; [intros _; assumption|assumption].
        - intros y _. right. pj. rewrite E in *. split; [right; exact N1|]. eapply CF_same; [..|exact (proj1 (A4 y))]; reflexivity. }
      destruct sl as [|x t].
      + cbn. split; [|reflexivity]. specialize (St (s_err s)). destruct s; exact St.
      + inversion F as [|? ? Fx Ft]; subst. destruct (sl_rx x); cbn [fbind]; [split; [apply St|reflexivity]| |split; [apply St|reflexivity] ].
        split; [|split; [pj; lia|exact Ft] ].
        destruct A as [A1 (n & A2) A3 A4].
        assert (P : post c plain True s (w_srv 1 (w_err WS_SUCCESS s))).
        { eapply (post_trans c plain True True); [auto|apply post_bg; [exact A1|apply (tx_err bg WS_SUCCESS)]|]. apply srv_post; [|lia].
          eapply INV_ext; [exact A1|..]; reflexivity. }
        assert (P2 : post c plain True s (logev EVersion (w_srv 1 (w_err WS_SUCCESS s)))).
        { eapply (post_trans c plain True True); [auto|exact P|]. apply push_post; try exact Logic.I; try discriminate. apply P. }
        assert (Al : s_con (logev EVersion (w_srv 1 (w_err WS_SUCCESS s))) = 1) by (pj; exact E).
        assert (Ee : s_err (logev EVersion (w_srv 1 (w_err WS_SUCCESS s))) = WS_SUCCESS) by reflexivity.
        set (s2 := logev EVersion (w_srv 1 (w_err WS_SUCCESS s))) in *. assert (Hl : s_log s2 = EVersion :: s_log s) by reflexivity. clearbody s2.
        constructor; pj; auto.
        * apply INV_con; [apply P2|lia|lia].
        * exists (EVersion :: n). rewrite Hl, A2. reflexivity.
        * intros y. destruct (A3 y). split; [change (K s2); apply (p_k _ _ _ _ _ P2); auto|]. rewrite Hl. split; [exact Logic.I|assumption].
        * intros y. split; [|auto]. rewrite E in A4. destruct (A4 y) as ([B1 B2 B3 B4 B5 B6 B7 B8] & _). destruct P2 as [Q1 Q2 Q3 Q4 Q5 Q6 Q7 Q8].
          apply (CF_same _ s2); try reflexivity. constructor; rewrite ?Hl; auto; try lia; [left; reflexivity|split; [exact Logic.I|exact B8] ]. }
  clear s sl A L F. intros s sl A L F. change (1 + 1) with 2 in L.
  eapply cfl_bind; [apply (cat_fl 2); auto|].
  { intros E. pose proof (SendKexInit_tx c (Some 2) s) as T. destruct (SendKexInit_res c (Some 2) s) as (R1 & R2).
    pose proof (kexinit_sent c (Some 2) s) as R3. pose proof (SendKexInit_kself c (Some 2) s) as R4.
    assert (P : post c (pset (Some 2) OKexInit) True s (fst (SendKexInit c (Some 2) s))).
    { eapply post_impl; [|apply (post_tx c (stepev (Some 2) OKexInit)); [|exact (ci_inv s A)|exact T] ].
      - intros e H; right; exact H.
      - intros e [H|[->|(k & _ & ->)]]; [apply bg_neutral; exact H|reflexivity|exact Logic.I]. }
    destruct (SendKexInit c (Some 2) s) as [s' r]. cbn [fst snd] in *.
    eapply (cown_fl 2 (fun _ => OKexInit)); eauto; [|unfold cnonkeep; auto|eapply post_stp; exact P|destruct T; assumption|].
    - intros al. destruct (R3 al) as (n & H1 & H2). exists OKexInit, n. unfold cmsg. auto.
    - intros _ al. left. unfold keying. rewrite (R4 al). reflexivity. }
  clear s sl A L F. intros s sl A L F. change (2 + 1) with 3 in L.
  eapply cfl_bind; [apply (Wt 3 2); auto; try discriminate; lia|].
  clear s sl A L F. intros s sl A L F. change (3 + 1) with 4 in L.
  eapply cfl_bind; [apply (cat_fl 4); auto|].
  { intros E. destruct (s_hand s) as [h|] eqn:Eh.
    - destruct (SendKexFirst_post c (Some 4) a True s (ci_inv s A)) as (o & Ho & P); [congruence|].
      destruct (kexfirst_sent (Some 4) a s) as (R1 & R2 & R3).
      assert (Sv : s_srv (fst (SendKexFirst c (Some 4) a s)) = s_srv s).
      { unfold SendKexFirst, SendKexDhInit, SendKexDhGexRequest. rewrite Eh.
        assert (Q : forall o h, s_srv (fst (let '(s1, ok) := queue (Some 4) o s in if negb ok then (s1, WS_MEMORY_E) else flush c (on_hand h s1))) = s_srv s).
        { clear. intros o h. destruct (queue (Some 4) o s) as [s1 ok] eqn:Q. apply queue_tx in Q. destruct ok; cbn [negb]; [|destruct Q; assumption].
          unfold flush. rewrite (tx_srv _ _ _ (flush_tx (s_marks (on_hand h s1)) c (on_hand h s1))). exact (tx_srv _ _ _ Q). }
        destruct (h_kex h) as [[|]|]; [destruct (negb (ha_mid a)); [reflexivity|apply Q]|destruct (negb (ha_mid a)); [reflexivity|apply Q]|reflexivity]. }
      destruct (SendKexFirst c (Some 4) a s) as [s' r]. cbn [fst snd] in *.
      eapply (cown_fl 4 (fun _ => o)); eauto; [|unfold cnonkeep; auto|eapply post_stp; exact P|discriminate].
      intros al. destruct (R3 al) as (o' & n & H0 & H1 & H2). exists o', n. unfold cmsg. auto 10.
    - cbn. split; [|reflexivity]. destruct A as [A1 A2 A3 A4]. constructor; auto.
      { intros x. destruct (A3 x). split; [intros _; assumption|assumption]. }
      intros y rt. destruct (A4 y) as (B1 & B2). right. split; [left|exact B1]. destruct B2 as [B2|B2]; [lia| |exact B2]. unfold retry in rt. rewrite B2 in rt. discriminate. }
  clear s sl A L F. intros s sl A L F. change (4 + 1) with 5 in L.
  eapply cfl_bind; [apply (cat_fl 5); auto|].
  { intros E. apply crecv_fl; auto; [lia|]. intros s' sl' A' E' D F'. cbn. split; [|split; [pj; lia|exact F'] ].
    change (CI (w_con (5 + 1) s')). apply CI_next; auto; try lia. intros _ y. apply negb_true_iff in D.
    destruct (ci_a s' A' y) as (B & _). rewrite E' in B. destruct (cf_w _ _ B) as [w|w]; [lia|congruence|exact w]. }
  clear s sl A L F. intros s sl A L F. change (5 + 1) with 6 in L.
  eapply cfl_bind; [apply (cat_fl 6); auto; intros E; apply (csend_fl 6 OServiceRequest); auto; [unfold cmsg; auto 10|discriminate]|].
  clear s sl A L F. intros s sl A L F. change (6 + 1) with 7 in L.
  eapply cfl_bind; [apply (Wt 7 3); auto; try discriminate; lia|].
  clear s sl A L F. intros s sl A L F. change (7 + 1) with 8 in L.
  eapply cfl_bind; [apply (cat_fl 8); auto|].
  { intros E. unfold SendUserAuthNone. destruct (ha_mid a); [apply (csend_fl 8 OAuthRequest); auto; [unfold cmsg; auto 10|discriminate]|].
    apply (cown_fl 8 (fun _ => OOther) s sl _ _ A E); [discriminate|unfold cnonkeep; auto 10| |reflexivity|right; right; reflexivity|discriminate|discriminate|exact F].
    eapply post_stp. apply (failed_post c s (Some 8) OAuthRequest). apply A. }
  clear s sl A L F. intros s sl A L F. change (8 + 1) with 9 in L.
  eapply cfl_bind; [apply (Wt 9 4); auto; try discriminate; lia|].
  clear s sl A L F. intros s sl A L F. change (9 + 1) with 10 in L.
  eapply cfl_bind; [apply (cat_fl 10); auto|].
  { intros E. unfold OpenSession.
    pose proof (post_stp _ _ _ _ _ (send1_post c (Some 10) OChanOpen True s (ci_inv s A) eq_refl)) as P.
    destruct (send1_res c (Some 10) OChanOpen s) as (R1 & R2 & R3). pose proof (send1_tx c (Some 10) OChanOpen s) as T.
    destruct (send1 c (Some 10) OChanOpen s) as [s' r]. cbn [fst snd] in *.
    set (s3 := match r with WS_SUCCESS | WS_WANT_WRITE | WS_WANT_READ => w_chans (s_chans s' + 1) s' | _ => s' end).
    assert (E3 : exists v, s3 = w_chans v s') by (unfold s3; destruct r; (exists (s_chans s' + 1); reflexivity) || (exists (s_chans s'); destruct s'; reflexivity)).
    clearbody s3. destruct E3 as (v & ->).
    eapply (cown_fl 10 (fun _ => OChanOpen) s sl); eauto; [|unfold cnonkeep; auto 10| |destruct T; assumption|discriminate].
    - intros al. destruct (R3 al) as (n & H1 & H2). exists OChanOpen, n. unfold cmsg. auto 10.
    - destruct P as [P1 P2 P3 P4 P5 P6]. constructor; auto. eapply INV_ext; [exact P1|..]; reflexivity. }
  clear s sl A L F. intros s sl A L F. change (10 + 1) with 11 in L.
  eapply cfl_bind; [apply (Wt 11 5); auto; try discriminate; lia|].
  clear s sl A L F. intros s sl A L F. change (11 + 1) with 12 in L.
  eapply cfl_bind; [apply (cat_fl 12); auto|].
  { intros E. destruct (fst opts); [apply (csend_fl 12 OOther); auto; [unfold cmsg; auto 12|discriminate]|].
    cbn. split; [|split; [pj; lia|exact F] ]. change (CI (w_con (12 + 1) s)). apply CI_next; auto; try lia. }
  clear s sl A L F. intros s sl A L F. change (12 + 1) with 13 in L.
  eapply cfl_bind; [apply (cat_fl 13); auto|].
  { intros E. destruct (snd opts); [apply (csend_fl 13 OOther); auto; [unfold cmsg; auto 12|discriminate]|].
    cbn. split; [|split; [pj; lia|exact F] ]. change (CI (w_con (13 + 1) s)). apply CI_next; auto; try lia. }
  clear s sl A L F. intros s sl A L F. change (13 + 1) with 14 in L.
  eapply cfl_bind; [apply (cat_fl 14); auto|].
  { intros E. unfold SendRequest. destruct (0 <? s_chans s); [apply (csend_fl 14 OChanRequest); auto; [unfold cmsg; auto 12|discriminate]|].
    apply (cown_fl 14 (fun _ => OOther) s sl _ _ A E); [discriminate|unfold cnonkeep; auto 10| |reflexivity|right; right; reflexivity|discriminate|discriminate|exact F].
    eapply post_stp. apply (failed_post c s (Some 14) OChanRequest). apply A. }
  clear s sl A L F. intros s sl A L F. change (14 + 1) with 15 in L.
  apply (Wt 15 6); auto; try discriminate; lia.
Qed.
End Connect.

Lemma CF_bg : forall c k s s', CF k s -> INV c s -> tx bg s s' -> CF k s'.
Proof.
  intros c k s s' [A1 A2 A3 A4 A5 A6 A7 A8] I T. pose proof (post_bg c True s s' I T) as [P1 P2 P3 P4 _ P6 P7 P8].
  destruct (tx_log _ _ _ T) as (n & Hl & Fn).
  assert (Fs : Forall (seen c 0 0) n) by (eapply Forall_impl; [|exact Fn]; apply bg_seen).
  constructor; rewrite ?Hl; auto; try (intros; apply in_app_r; auto); try lia.
  - intros L. apply keyed_app; auto.
  - intros L. destruct T. rewrite tx_srv. auto.
  - rewrite (own_seen _ _ _ _ _ Fs). exact A6.
  - apply ordered_bg; [exact Fn|exact A8].
Qed.
Lemma CF_down : forall k s, CF k s -> 16 <= k -> CF 16 s.
Proof.
  intros k s [B1 B2 B3 B4 B5 (o4 & B6 & B6') B7 B8] L. constructor; auto; try (intros; apply B2; lia); try (intros; apply B3; lia); try (intros; apply B5; lia); try (intros; apply B7; lia); try lia.
  exists o4. split; [exact B6|]. rewrite B6'. unfold cown.
  assert (Le : forall a, a <= 16 -> (a <=? k) = true) by (intros; apply N.leb_le; lia).
  rewrite !Le by lia. reflexivity.
Qed.

(* one call of connect *)
Theorem connect_inv : forall c a opts s sl s' r, c_side c = Client -> INV c s -> wf_hans a -> Forall wf_slot sl ->
  connect c a opts s sl = (s', r) ->
  INV c s' /\ (exists n, s_log s' = n ++ s_log s) /\ (K s /\ kin (s_log s) -> (live s' -> K s') /\ kin (s_log s')) /\
  (Crest s -> (retry s' -> Crest s') /\ (isok r = true -> CF 16 s')).
Proof.
  intros c a opts s1 sl s' r Hc I1 Ha F H. unfold connect in H.
  destruct (resume c s_con CONNECT_DONE [1; 3; 5; 7; 9; 11; 15] (fun s => w_con (s_con s + 1) s) s1) as [s2 ok] eqn:Rs.
  assert (Q : if ok then CI c (s_log s1) (K s1 /\ kin (s_log s1)) (Crest s1) s2 else CR c (s_log s1) (K s1 /\ kin (s_log s1)) (Crest s1) s2).
  { unfold resume in Rs. destruct (s_pend s1 && (s_con s1 <? CONNECT_DONE)) eqn:Ep.
    - apply andb_prop in Ep. destruct Ep as (Ep & El). apply N.ltb_lt in El. unfold CONNECT_DONE in El.
      pose proof (flush_tx (s_marks s1) c s1) as T. pose proof (flush_res (s_marks s1) c s1) as (F1 & F2). fold (flush c s1) in *.
      destruct (flush c s1) as [s3 r3]. cbn [fst snd] in *.
      pose proof (post_bg c True s1 s3 I1 T) as P. destruct (tx_log _ _ _ T) as (n & Hl & Fn).
      assert (Hcon : s_con s3 = s_con s1) by (apply P).
      assert (CFs : forall k, CF k s1 -> CF k s3) by (intros k A; eapply CF_bg; eauto).
      destruct (rc_eqb r3 WS_SUCCESS) eqn:Es.
      + apply rc_eqb_eq in Es. subst r3. apply pair_equal_spec in Rs. destruct Rs as (<- & <-).
        set (sx := w_err WS_SUCCESS s3). assert (Hx : s_con sx = s_con s1) by exact Hcon.
        assert (INVe : INV c sx) by (eapply INV_ext; [apply P|..]; reflexivity).
        assert (Kp : existsb (N.eqb (s_con sx)) [1; 3; 5; 7; 9; 11; 15] = true /\ ~ cnonkeep (s_con s1) \/ existsb (N.eqb (s_con sx)) [1; 3; 5; 7; 9; 11; 15] = false /\ cnonkeep (s_con s1)).
        { clear H. rewrite Hx. destruct (existsb (N.eqb (s_con s1)) [1; 3; 5; 7; 9; 11; 15]) eqn:Ex; [left|right]; (split; [reflexivity|]); cbn [existsb] in Ex.
          - intros B. unfold cnonkeep in B. decompose [or] B; match goal with H : s_con s1 = _ |- _ => rewrite H in Ex end; discriminate.
          - repeat (apply orb_false_iff in Ex; destruct Ex as (? & Ex)). rewrite N.eqb_neq in *. unfold cnonkeep. lia. }
        assert (Base : forall s4, INV c s4 -> s_log s4 = s_log s3 -> (K s3 -> K s4) -> (Crest s1 -> CF (s_con s4) s3) -> s_err s4 = WS_SUCCESS -> s_kself s4 = s_kself s3 -> s_kpeer s4 = s_kpeer s3 -> s_hand s4 = s_hand s3 -> s_srv s4 = s_srv s3 ->
           CI c (s_log s1) (K s1 /\ kin (s_log s1)) (Crest s1) (w_held None s4)).
        { intros s4 B1 B2 B3 B4 B5 B6 B7 B8 B9. constructor.
          - apply (rxp_held c True s4 None B1). discriminate.
          - exists n. change (s_log (w_held None s4)) with (s_log s4). rewrite B2, Hl. reflexivity.
          - intros (k & e). split; [change (K s4); apply B3; apply (p_k _ _ _ _ _ P); auto|]. change (kin (s_log s4)). rewrite B2, Hl. apply kin_plain; [|exact e]. eapply Forall_impl; [|exact Fn]. apply bg_plain.
          - intros a0. split; [|intros _; left; exact B5]. eapply CF_same; [..|exact (B4 a0)]; assumption. }
        cbv zeta. fold sx. destruct Kp as [(Kp & Nk)|(Kp & Nk)]; rewrite Kp.
        * apply Base; auto. rewrite Hx. intros [(_ & B & _)|(_ & B)]; [contradiction|auto].
        * apply Base; auto.
          -- apply INV_con; [exact INVe| |lia]. intros L. apply (i_con c sx INVe Hc). rewrite Hx in *. unfold cnonkeep in Nk. lia.
          -- change (s_con (w_con (s_con sx + 1) sx)) with (s_con sx + 1). rewrite Hx.
             intros [(_ & _ & B)|([B|B] & _)]; [auto|congruence|contradiction].
      + injection Rs as <- <-. constructor; pj.
        * eapply INV_ext; [apply P|..]; reflexivity.
        * exists n. exact Hl.
        * intros (k & e). split; [intros _; change (K s3); apply (p_k _ _ _ _ _ P); auto|]. rewrite Hl. apply kin_plain; [|exact e]. eapply Forall_impl; [|exact Fn]. apply bg_plain.
        * unfold retry, Crest; pj. rewrite Hcon. intros A al.
          assert (r3 = WS_WANT_WRITE) by (destruct F1 as [X|[X|X]]; [subst r3; discriminate|exact X|]; destruct r3; cbn in al; try discriminate; reflexivity).
          assert (Pd : s_pend s3 = true) by (destruct (F2 H0); congruence).
          assert (CFe : forall k, CF k s1 -> CF k (w_err r3 s3)) by (intros k B; eapply CF_same; [..|exact (CFs k B)]; reflexivity).
          destruct A as [(A1 & A2 & A3)|(A1 & A2)]; [left; auto|right]. split; [|auto]. right. destruct A1 as [A1|A1]; [congruence|exact A1].
    - injection Rs as <- <-. constructor; auto.
      + exists []; reflexivity.
      + assert (Z : s_pend s1 = false \/ 16 <= s_con s1).
        { apply andb_false_iff in Ep. destruct Ep as [Ep|Ep]; [auto|right]. apply N.ltb_ge in Ep. exact Ep. }
        intros [(B1 & B2 & B3)|(B1 & B)].
        * exfalso. destruct Z; [congruence|]. unfold cnonkeep in B2. lia.
        * split; [exact B|]. intros L4. destruct Z; [auto|lia]. }
  destruct ok; cbn [negb] in H.
  2: { injection H as <- <-. destruct Q as [Q1 Q3 Q4 Q5]. split; [exact Q1|]. split; [exact Q3|]. split; [exact Q4|]. intros a0. split; [auto|discriminate]. }
  pose proof (csteps_fl c Hc _ _ _ a opts s2 sl Q F) as S. destruct (connect_steps c a opts s2 sl) as [s5 sl5|s5 r5].
  - injection H as <- <-. destruct S as ([S1 S2 S3 S4] & S5 & _).
    split; [exact S1|]. split; [exact S2|]. split; [intros x; destruct (S3 x); auto|]. intros a0. destruct (S4 a0) as (T1 & T2). split.
    + intros _. right. split; [right; unfold cnonkeep; lia|exact T1].
    + intros _. eapply CF_down; eassumption.
  - injection H as <- <-. destruct S as ([S1 S2 S3 S4] & S5). split; [exact S1|]. split; [exact S2|]. split; [auto|]. intros a0. split; [auto|congruence].
Qed.
