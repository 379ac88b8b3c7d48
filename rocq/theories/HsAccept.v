(* HsAccept.v - accept keeps the invariant, and what an accept-only history
   has gone through. *)
From Verif Require Import Base WireModel WireSpec WireProofs NegoModel AuthModel AuthSpec AuthProofs AuthStep HsModel HsSpec HsProofs HsStep HsStep2 HsStep3 HsRun.
From Coq Require Import List NArith Bool Lia.
Import ListNotations.
Open Scope N_scope.

Lemma bg_seen : forall c a b e, bg e -> seen c a b e.
Proof. intros c a b e [-> | ->]; exact Logic.I. Qed.
Lemma own_seen : forall c a b n l, Forall (seen c a b) n -> own_msgs (n ++ l) = own_msgs l.
Proof.
  intros c a b n l F. induction F as [|e t Fe Ft IH]; [reflexivity|]. cbn [app own_msgs].
  destruct e as [ |m p|[k|] o| | | | | | | | | | | | | ]; try exact IH. contradiction.
Qed.

(* messages of authentication and later only with new keys in use, and none of
   authentication once accept has produced its success message *)
Definition ordered (l : list ev) : Prop :=
  holds (fun e pre => match e with
                      | EAct m _ => (50 <= m -> keyed pre) /\ (50 <= m < 80 -> ~ In (ESent (Some 7) OAuthSuccess) pre)
                      | _ => True end) l.
Lemma own_in : forall l k o, In (ESent (Some k) o) l -> k <> 12 -> k <> 13 -> In (k, o) (own_msgs l).
Proof.
  induction l as [|e t IH]; intros k o H N1 N2; [contradiction|]. destruct H as [->|H].
  - cbn. apply N.eqb_neq in N1, N2. rewrite N1, N2. apply in_or_app. right. left. reflexivity.
  - specialize (IH k o H N1 N2). destruct e as [ |m p|[k'|] o'| | | | | | | | | | | | | ]; try exact IH. cbn. apply in_or_app. left. exact IH.
Qed.
Lemma ordered_app : forall c a b n l, Forall (seen c a b) n ->
  (4 <= a -> c_side c = Server -> keyed l) -> (7 <= b -> c_side c = Client -> keyed l) ->
  (a < 8 \/ c_side c = Client -> ~ In (7, OAuthSuccess) (own_msgs l)) -> ordered l -> ordered (n ++ l).
Proof.
  intros c a b n l F H1 H2 H3 Ho. induction F as [|e t Fe Ft IH]; [exact Ho|]. cbn. split; [|exact IH].
  destruct e; try exact Logic.I. cbn in Fe. split.
  - intros L. apply keyed_app. destruct (c_side c) eqn:Hc; [apply H1|apply H2]; try reflexivity; apply Fe; auto.
  - intros L X. apply own_in in X; [|discriminate|discriminate]. rewrite (own_seen _ _ _ _ _ Ft) in X. revert X. apply H3.
    destruct (c_side c) eqn:Hc; [left; apply Fe; auto|right; reflexivity].
Qed.
Lemma ordered_bg : forall n l, Forall bg n -> ordered l -> ordered (n ++ l).
Proof. intros n l F Ho. induction F as [|e t Fe Ft IH]; [exact Ho|]. split; [|exact IH]. destruct Fe as [-> | ->]; exact Logic.I. Qed.

(* the message of a step is queued exactly once *)
Lemma kexinit_sent : forall c own s, alive (snd (SendKexInit c own s)) = true ->
  exists n, s_log (fst (SendKexInit c own s)) = n ++ ESent own OKexInit :: s_log s /\ Forall bg n.
Proof.
  intros c own s. unfold SendKexInit, kexinit_with.
  set (b := match c_side c with Server => _ | Client => _ end). destruct b; [discriminate|].
  set (s1 := w_hand _ (w_kself true s)). destruct (queue own OKexInit s1) as [s2 ok] eqn:Q. apply queue_log in Q.
  destruct Q as (_ & _ & Q). destruct ok; [|discriminate].
  pose proof (tx_log _ _ _ (flush_tx (s_marks s2) c s2)) as (n & L & Fn). fold (flush c s2) in L.
  destruct (flush c s2) as [s3 r]. destruct Q as (Q & _). cbn [fst] in L.
  intros _. exists n. split; [|exact Fn]. destruct r; pj; rewrite L, Q; reflexivity.
Qed.

Definition nextmsg (k : N) : list (N * out) :=
  if k =? 0 then [(0, OVersion)] else if k =? 2 then [(2, OKexInit)]
  else if k =? 5 then [(5, OServiceAccept)] else if k =? 7 then [(7, OAuthSuccess)] else [].
(* the messages sent by accept before state k *)
Definition aown (k : N) : list (N * out) :=
  (if 1 <=? k then [(0, OVersion)] else []) ++ (if 3 <=? k then [(2, OKexInit)] else []) ++
  (if 6 <=? k then [(5, OServiceAccept)] else []) ++ (if 8 <=? k then [(7, OAuthSuccess)] else []).
Definition nonkeep (k : N) : Prop := k = 0 \/ k = 2 \/ k = 5 \/ k = 7.

Record AF (k : N) (s : hs) : Prop := mkAF {
  af_k : K s; af_w : 3 <= k -> W s; af_keyed : 4 <= k -> keyed (s_log s);
  af_cl : k <= 1 -> client_state s = 0; af_v : 2 <= k -> In EVersion (s_log s);
  af_own : own_msgs (s_log s) = aown k; af_req : 10 <= k -> In EChanReq (s_log s);
  af_j : J s; af_ord : ordered (s_log s) }.

Definition Arest (s : hs) : Prop :=
  (s_pend s = true /\ nonkeep (s_acc s) /\ AF (s_acc s + 1) s) \/
  ((s_pend s = false \/ ~ nonkeep (s_acc s)) /\ AF (s_acc s) s).

Definition rest7 (s : hs) : Prop := s_acc s = 7 -> success_sent (s_log s).

Lemma kin_pset : forall own o n l, Forall (pset own o) n -> kin l -> kin (n ++ l).
Proof.
  intros own o n l F H. induction F as [|e t Fe Ft IH]; [exact H|]. split; [|exact IH]. destruct e; try exact Logic.I.
  destruct Fe as [Fe|[[Fe|Fe]|[Fe|(k & _ & Fe)]]]; try contradiction; discriminate.
Qed.
Lemma post_kin : forall c own o ok s s', post c (pset own o) ok s s' -> kin (s_log s) -> kin (s_log s').
Proof. intros c own o ok s s' P H. destruct (p_log _ _ _ _ _ P) as (n & -> & F). eapply kin_pset; eassumption. Qed.

Lemma ordered_pset : forall own o n l, Forall (pset own o) n -> ordered l -> ordered (n ++ l).
Proof.
  intros own o n l F H. induction F as [|e t Fe Ft IH]; [exact H|]. split; [|exact IH]. destruct e; try exact Logic.I.
  destruct Fe as [Fe|[[Fe|Fe]|[Fe|(k & _ & Fe)]]]; try contradiction; discriminate.
Qed.
Section Accept.
Variable c : hcfg.
Hypothesis Hc : c_side c = Server.
Variables (L0 : list ev) (X Y : Prop).

Record AI (s : hs) : Prop := mkAI {
  ai_inv : INV c s; ai_log : exists n, s_log s = n ++ L0; ai_k : X -> K s /\ kin (s_log s); ai_a : Y -> AF (s_acc s) s }.
Record AR (s : hs) : Prop := mkAR {
  ar_inv : INV c s; ar_7 : rest7 s; ar_log : exists n, s_log s = n ++ L0; ar_k : X -> (live s -> K s) /\ kin (s_log s); ar_a : Y -> live s -> Arest s; ar_o : Y -> ordered (s_log s) }.

Definition done10 (s : hs) : Prop := Y -> AF 10 s.
Definition afl (k : N) (f : flow) : Prop :=
  match f with
  | Go s sl => AI s /\ k <= s_acc s /\ Forall wf_slot sl
  | Stop s r => AR s /\ (isok r = true -> done10 s)
  end.

Lemma afl_bind : forall k j f g, afl k f -> (forall s sl, AI s -> k <= s_acc s -> Forall wf_slot sl -> afl j (g s sl)) -> afl j (fbind f g).
Proof. intros k j [s sl|s r] g H Hg; cbn in *; [destruct H as (A & B & C); auto|exact H]. Qed.
Lemma at_fl : forall k f s sl, AI s -> k <= s_acc s -> Forall wf_slot sl -> (s_acc s = k -> afl (k + 1) (f s sl)) -> afl (k + 1) (at_state s_acc k f s sl).
Proof.
  intros k f s sl A B C D. unfold at_state. destruct (N.eqb_spec (s_acc s) k) as [E|E]; [auto|]. cbn. split; [exact A|]. split; [lia|exact C].
Qed.

(* advancing *)
Lemma INV_acc : forall k s, INV c s -> (7 <= k -> granted (s_log s)) -> (8 <= k -> success_sent (s_log s)) -> s_acc s <= k -> INV c (w_acc k s).
Proof.
  intros k s I H7 H8 L. inv_destruct I. constructor; unfold keying, expecting, agreed, kexof, hashing, client_state in *; pj; try assumption.
  - intros _. auto.
  - intros E Lk. apply I13'; [exact E|lia].
Qed.
Lemma AF_acc : forall k v s, AF k s <-> AF k (w_acc v s).
Proof. intros k v s. split; intros [A1 A2 A3 A4 A5 A6 A7 A8 A9]; constructor; assumption. Qed.
Lemma AF_same : forall k s s', s_kself s' = s_kself s -> s_kpeer s' = s_kpeer s -> s_hand s' = s_hand s -> s_auth s' = s_auth s -> s_log s' = s_log s ->
  s_chans s' = s_chans s -> AF k s -> AF k s'.
Proof.
  intros k s s' E1 E2 E3 E4 E5 E6 [A1 A2 A3 A4 A5 A6 A7 A8 A9].
  constructor; unfold K, W, J, agreed, keying, client_state in *; rewrite ?E1, ?E2, ?E3, ?E4, ?E5, ?E6; assumption.
Qed.

Lemma ord_rx : forall k ok s s', AF k s -> s_acc s = k -> rxp c ok s s' -> ordered (s_log s').
Proof.
  intros k ok s s' [A1 A2 A3 A4 A5 A6 A7 A8 A9] Ek [R1 R2 R3 (n & R4 & R4') R5 R6 R7]. rewrite R4.
  eapply ordered_app; [exact R4'| | | |exact A9]; [intros; apply A3; lia|congruence|]. intros Xs. rewrite A6. unfold aown.
  assert (Lk' : k < 8) by (destruct Xs; [lia|congruence]). assert (E8 : 8 <=? k = false) by (apply N.leb_gt; exact Lk'). rewrite E8.
  clear. repeat destruct (_ <=? _); cbn; intuition discriminate.
Qed.
Lemma AF_rx : forall k ok s s', AF k s -> s_acc s = k -> 2 <= k -> rxp c ok s s' -> ok -> AF k s'.
Proof.
  intros k ok s s' [A1 A2 A3 A4 A5 A6 A7 A8 A9] Ek Lk [R1 R2 R3 (n & R4 & R4') R5 R6 R7] Hok.
  constructor; rewrite ?R4; auto; try lia; try (intros; apply in_app_r; auto).
  - intros L. apply keyed_app; auto.
  - rewrite (own_seen _ _ _ _ _ R4'). exact A6.
  - rewrite <- R4. eapply (ord_rx k ok s s'); [constructor; eassumption|exact Ek|]. constructor; eauto.
Qed.

Lemma AI_rx : forall (ok : Prop) s s', AI s -> 2 <= s_acc s -> rxp c ok s s' -> ok -> AI s'.
Proof.
  intros ok s s' [A1 (m & A2) A3 A4] L R Hok. pose proof (r_log _ _ _ _ R) as (n & Rl & _). constructor.
  - apply R.
  - exists (n ++ m). rewrite Rl, A2, app_assoc. reflexivity.
  - intros x. destruct (A3 x). split; [apply (r_k _ _ _ _ R)|apply (r_e _ _ _ _ R)]; auto.
  - intros y. rewrite (r_acc _ _ _ _ R). eapply AF_rx; eauto.
Qed.
Lemma AR_rx : forall s s', AI s -> 2 <= s_acc s -> ~ nonkeep (s_acc s) -> rxp c (live s') s s' -> AR s'.
Proof.
  intros s s' [A1 (m & A2) A3 A4] L Nk R. pose proof (r_log _ _ _ _ R) as (n & Rl & _). constructor.
  - apply R.
  - intros E. rewrite (r_acc _ _ _ _ R) in E. exfalso. apply Nk. unfold nonkeep. auto.
  - exists (n ++ m). rewrite Rl, A2, app_assoc. reflexivity.
  - intros x. destruct (A3 x). split; [intros l; apply (r_k _ _ _ _ R)|apply (r_e _ _ _ _ R)]; auto.
  - intros y l. right. rewrite (r_acc _ _ _ _ R). split; [right; exact Nk|]. eapply AF_rx; eauto.
  - intros y. eapply ord_rx; [exact (A4 y)|reflexivity|exact R].
Qed.

Lemma recv_fl : forall k dn s sl (g : hs -> list slot -> flow), AI s -> s_acc s = k -> 2 <= k -> ~ nonkeep k -> Forall wf_slot sl ->
  (forall s' sl', AI s' -> s_acc s' = k -> dn s' = true -> Forall wf_slot sl' -> afl (k + 1) (g s' sl')) ->
  afl (k + 1) (fbind (recv_until c dn s sl) g).
Proof.
  intros k dn s sl g A E L Nk F Hg. destruct (recv_rx c dn sl s (ai_inv s A) F) as (R & R2 & R3).
  destruct (recv_until c dn s sl) as [s' sl'|s' r]; cbn [fstate okflow fbind] in *.
  - destruct (R2 s' sl' eq_refl) as (D & F'). apply Hg; [|rewrite (r_acc _ _ _ _ R); exact E|exact D|exact F'].
    eapply AI_rx; [exact A|lia|exact R|exact Logic.I].
  - cbn. split; [eapply AR_rx; [exact A|lia|rewrite E; exact Nk|exact R]|].
    rewrite (R3 s' r eq_refl). discriminate.
Qed.

(* own messages *)
Lemma AF_sent : forall k o s s' n, AF k s -> nextmsg k = [(k, o)] -> post c (pset (Some k) o) True s s' ->
  s_log s' = n ++ ESent (Some k) o :: s_log s -> Forall bg n -> s_auth s' = s_auth s -> (k = 2 -> W s') -> AF (k + 1) s'.
Proof.
  intros k o s s' n [A1 A2 A3 A4 A5 A6 A7 A8 A9] Hn [P1 P2 P3 P4 P5 P6 P7 P8] Hl Fn Ha Hw.
  assert (Hk : k = 0 \/ k = 2 \/ k = 5 \/ k = 7).
  { unfold nextmsg in Hn. destruct (N.eqb_spec k 0); [auto|]. destruct (N.eqb_spec k 2); [auto|]. destruct (N.eqb_spec k 5); [auto|]. destruct (N.eqb_spec k 7); [auto|discriminate]. }
  assert (Fs : Forall (seen c 0 0) n) by (eapply Forall_impl; [|exact Fn]; apply bg_seen).
  constructor; rewrite ?Hl; auto; try (intros; apply in_app_r; right; apply A5; lia); try lia.
  - intros L. destruct (N.eq_dec k 2); [auto|]. apply P7; auto. apply A2. lia.
  - intros L. apply keyed_app. apply (keyed_app [_]). apply A3. lia.
  - intros L. unfold client_state in *. rewrite Ha. apply A4. lia.
  - rewrite (own_seen _ _ _ _ _ Fs). cbn [own_msgs]. rewrite A6.
    assert (E : (k =? 12) || (k =? 13) = false) by (apply orb_false_iff; split; apply N.eqb_neq; lia). rewrite E.
    destruct Hk as [-> | [-> | [-> | ->] ] ]; cbn in Hn; injection Hn as <-; reflexivity.
  - apply ordered_bg; [exact Fn|]. split; [exact Logic.I|exact A9].
Qed.

Lemma own_fl : forall k o s sl s' r, AI s -> s_acc s = k -> nextmsg k = [(k, o)] -> post c (pset (Some k) o) True s s' -> s_auth s' = s_auth s ->
  (alive r = true -> exists n, s_log s' = n ++ ESent (Some k) o :: s_log s /\ Forall bg n) ->
  okres r -> (r = WS_WANT_WRITE -> s_pend s' = true) -> (k = 2 -> alive r = true -> W s') -> (k = 7 -> success_sent (s_log s')) ->
  Forall wf_slot sl -> afl (k + 1) (own_step (w_acc (k + 1)) (s', r) sl).
Proof.
  intros k o s sl s' r [A1 (m & A2) A3 A4] Ek Hn P Ha Hal Hr Hp Hw H7 F. unfold own_step.
  assert (Hk : k = 0 \/ k = 2 \/ k = 5 \/ k = 7).
  { unfold nextmsg in Hn. destruct (N.eqb_spec k 0); [auto|]. destruct (N.eqb_spec k 2); [auto|]. destruct (N.eqb_spec k 5); [auto|]. destruct (N.eqb_spec k 7); [auto|discriminate]. }
  assert (Lg : exists n, s_log s' = n ++ L0).
  { destruct (p_log _ _ _ _ _ P) as (n & Pl & _). exists (n ++ m). rewrite Pl, A2, app_assoc. reflexivity. }
  assert (Hacc : s_acc s' = k) by (rewrite (p_acc _ _ _ _ _ P); exact Ek).
  assert (AFk : Y -> alive r = true -> AF (k + 1) s').
  { intros y al. destruct (Hal al) as (n & Hl & Fn). eapply AF_sent; eauto. rewrite <- Ek. auto. }
  destruct (rc_neg r) eqn:Er; cbn.
  - split; [|discriminate]. constructor; unfold live; pj.
    + eapply INV_ext; [apply P|..]; reflexivity.
    + intros E. apply H7. pj. congruence.
    + exact Lg.
    + intros x. destruct (A3 x). split; [intros _; change (K s'); apply (p_k _ _ _ _ _ P); auto|eapply post_kin; eassumption].
    + intros y al. left. pj. rewrite Hacc. split; [|split; [exact Hk|eapply AF_same; [..|exact (AFk y al)]; reflexivity] ].
      apply Hp. destruct Hr as [Hr|[Hr|Hr]]; [subst r; discriminate|exact Hr|congruence].
    + intros y. destruct (p_log _ _ _ _ _ P) as (n & -> & Fp). apply (ordered_pset _ _ _ _ Fp). apply (af_ord _ _ (A4 y)).
  - assert (r = WS_SUCCESS) as -> by (unfold rc_neg in Er; apply negb_false_iff in Er; apply rc_eqb_eq; exact Er).
    split; [|split; [pj; lia|exact F] ]. constructor; pj.
    + apply INV_acc; pj.
      * eapply INV_ext; [apply P|..]; reflexivity.
      * intros L. apply (i_acc c s' (p_inv _ _ _ _ _ P) Hc). lia.
      * intros L. assert (k = 7) by lia. auto.
      * lia.
    + exact Lg.
    + intros x. destruct (A3 x). split; [change (K s'); apply (p_k _ _ _ _ _ P); auto|eapply post_kin; eassumption].
    + intros y. eapply AF_same; [..|exact (AFk y eq_refl)]; reflexivity.
Qed.

Lemma send_fl : forall k o s sl, AI s -> s_acc s = k -> nextmsg k = [(k, o)] -> k <> 2 -> reply_to o = None -> Forall wf_slot sl ->
  afl (k + 1) (own_step (w_acc (k + 1)) (send1 c (Some k) o s) sl).
Proof.
  intros k o s sl A Ek Hn N2 Hr F. pose proof (send1_post c (Some k) o True s (ai_inv s A) Hr) as P.
  destruct (send1_res c (Some k) o s) as (R1 & R2 & R3). pose proof (send1_tx c (Some k) o s) as T.
  assert (H7 : k = 7 -> success_sent (s_log (fst (send1 c (Some k) o s)))).
  { intros ->. assert (o = OAuthSuccess) as -> by (cbn in Hn; congruence). unfold send1.
    destruct (queue (Some 7) OAuthSuccess s) as [s1 ok] eqn:Q. apply queue_log in Q. destruct Q as (_ & _ & Q). destruct ok.
    - pose proof (tx_log _ _ _ (flush_tx (s_marks s1) c s1)) as (n & L & _). unfold flush. rewrite L. apply success_app.
      destruct Q as (-> & _). left. left. reflexivity.
    - cbn [fst]. destruct Q as (-> & _). right. left. reflexivity. }
  destruct (send1 c (Some k) o s) as [s' r]. cbn [fst snd] in *.
  eapply own_fl; eauto; [destruct T; assumption|intros; contradiction].
Qed.

(* states of the peer that follow a rest *)
Lemma AI_next : forall k s, AI s -> s_acc s = k -> 2 <= k -> ~ nonkeep k -> (7 <= k + 1 -> granted (s_log s)) ->
  (k = 3 -> Y -> keyed (s_log s)) -> (k = 9 -> Y -> In EChanReq (s_log s)) -> AI (w_acc (k + 1) s).
Proof.
  intros k s [A1 A2 A3 A4] Ek L Nk G H3 H9. constructor; pj; auto.
  - apply INV_acc; auto; [|lia]. intros L8. assert (k <> 7) by (intros ->; apply Nk; unfold nonkeep; auto). apply (i_acc c s A1 Hc). lia.
  - intros y. rewrite Ek in A4. destruct (A4 y) as [B1 B2 B3 B4 B5 B6 B7 B8 B9].
    assert (Hn : k <> 2 /\ k <> 5 /\ k <> 7) by (unfold nonkeep in Nk; lia). destruct Hn as (Hn2 & Hn5 & Hn7). clear Nk.
    constructor; pj; auto; try (intros; apply B2; lia); try (intros; apply B5; lia); try lia.
    + intros L4. destruct (N.eq_dec k 3); [auto|]. apply B3. lia.
    + rewrite B6. clear -L Hn2 Hn5 Hn7. unfold aown.
      replace (1 <=? k + 1) with (1 <=? k) by (destruct (N.leb_spec 1 k), (N.leb_spec 1 (k+1)); lia || reflexivity).
      replace (3 <=? k + 1) with (3 <=? k) by (destruct (N.leb_spec 3 k), (N.leb_spec 3 (k+1)); lia || reflexivity).
      replace (6 <=? k + 1) with (6 <=? k) by (destruct (N.leb_spec 6 k), (N.leb_spec 6 (k+1)); lia || reflexivity).
      replace (8 <=? k + 1) with (8 <=? k) by (destruct (N.leb_spec 8 k), (N.leb_spec 8 (k+1)); lia || reflexivity).
      reflexivity.
    + intros L10. destruct (N.eq_dec k 9); [auto|]. apply B7. lia.
Qed.

Lemma AF_up : forall k j s, AF k s -> 10 <= k -> k <= j -> AF j s.
Proof.
  intros k j s [B1 B2 B3 B4 B5 B6 B7 B8 B9] L L2. constructor; auto; try (intros; apply B2; lia); try (intros; apply B3; lia); try (intros; apply B5; lia); try (intros; apply B7; lia); try lia.
  rewrite B6. unfold aown. repeat match goal with |- context [?a <=? ?b] => destruct (N.leb_spec a b) end; try lia; reflexivity.
Qed.
Lemma AF_down : forall k s, AF k s -> 10 <= k -> AF 10 s.
Proof.
  intros k s [B1 B2 B3 B4 B5 B6 B7 B8 B9] L. constructor; auto; try (intros; apply B2; lia); try (intros; apply B3; lia); try (intros; apply B5; lia); try (intros; apply B7; lia); try lia.
  rewrite B6. unfold aown. repeat match goal with |- context [?a <=? ?b] => destruct (N.leb_spec a b) end; try lia; reflexivity.
Qed.

Lemma final_fl : forall s v r, AI s -> 10 <= s_acc s -> s_acc s <= v -> AR (w_acc v s) /\ (isok r = true -> done10 (w_acc v s)).
Proof.
  intros s v r A L Lv.
  assert (Hv : Y -> AF v s) by (intros y; eapply AF_up; [apply (ai_a s A y)|exact L|exact Lv]).
  destruct A as [A1 A2 A3 A4]. split.
  - constructor; pj; auto.
    + destruct (i_acc c s A1 Hc). apply INV_acc; auto; intros; auto; [apply H|apply H0]; lia.
    + unfold rest7; pj. lia.
    + intros x. destruct (A3 x). split; [intros _; assumption|assumption].
    + intros y _. right. pj. split; [right; unfold nonkeep; lia|]. apply AF_acc. auto.
    + intros y. apply (af_ord _ _ (A4 y)).
  - intros _ y. apply AF_acc. eapply AF_down; [exact (Hv y)|lia].
Qed.

Lemma steps_fl : forall kind s sl, AI s -> Forall wf_slot sl -> afl 10 (accept_steps c kind s sl).
Proof.
  intros kind s sl A F. unfold accept_steps. cbv zeta.
  eapply afl_bind; [apply (at_fl 0); auto; [lia|]; intros E; apply (send_fl 0 OVersion); auto; discriminate|]. clear s sl A F. intros s sl A L F.
  eapply afl_bind; [apply (at_fl 1); auto|].
  { intros E. unfold version_until. destruct (1 <=? client_state s) eqn:Ecs.
    - cbn [fbind]. apply N.leb_le in Ecs. split; [|split; [pj; lia|exact F] ].
      destruct A as [A1 A2 A3 A4]. constructor; auto.
      + apply INV_acc; auto; lia.
      + intros y. rewrite E in A4. destruct (A4 y). assert (client_state s = 0) by (apply af_cl0; lia). lia.
    - assert (St : forall v, AR (w_err v s)).
      { intros v. destruct A as [A1 A2 A3 A4]. constructor; auto.
        - eapply INV_ext; [exact A1|..]; reflexivity.
        - unfold rest7; pj. lia.
        - intros x. destruct (A3 x). split; [intros _; assumption|assumption].
        - intros y _. right. pj. split; [right; unfold nonkeep; lia|]. eapply AF_same; [..|exact (A4 y)]; reflexivity.
        - intros y. apply (af_ord _ _ (A4 y)). }
      destruct sl as [|x t].
      + cbn. split; [|discriminate]. specialize (St (s_err s)). destruct s; exact St.
      + inversion F as [|? ? Fx Ft]; subst. destruct (sl_rx x); cbn [fbind]; [split; [apply St|discriminate]| |split; [apply St|discriminate] ].
        split; [|split; [pj; lia|exact Ft] ].
        destruct A as [A1 (n & A2) A3 A4].
        assert (P : post c plain True s (w_client 1 (w_err WS_SUCCESS s))).
        { eapply (post_trans c plain True True); [auto|apply post_bg; [exact A1|apply (tx_err bg WS_SUCCESS)]|]. apply client_post; [|lia].
          eapply INV_ext; [exact A1|..]; reflexivity. }
        assert (P2 : post c plain True s (logev EVersion (w_client 1 (w_err WS_SUCCESS s)))).
        { eapply (post_trans c plain True True); [auto|exact P|]. apply push_post; try exact Logic.I; try discriminate. apply P. }
        assert (Al : s_acc (logev EVersion (w_client 1 (w_err WS_SUCCESS s))) = 1) by (pj; exact E).
        set (s2 := logev EVersion (w_client 1 (w_err WS_SUCCESS s))) in *. assert (Hl : s_log s2 = EVersion :: s_log s) by reflexivity. clearbody s2.
        constructor; pj; auto.
        * apply INV_acc; [apply P2|lia|lia|lia].
        * exists (EVersion :: n). rewrite Hl, A2. reflexivity.
        * intros y. destruct (A3 y). split; [change (K s2); apply (p_k _ _ _ _ _ P2); auto|]. rewrite Hl. split; [exact Logic.I|assumption].
        * intros y. apply AF_acc. rewrite E in A4. destruct (A4 y) as [B1 B2 B3 B4 B5 B6 B7 B8 B9]. destruct P2 as [Q1 Q2 Q3 Q4 Q5 Q6 Q7 Q8].
          constructor; rewrite ?Hl; auto; try lia; [left; reflexivity|].
          split; [exact Logic.I|exact B9]. }
  clear s sl A L F. intros s sl A L F. change (1 + 1) with 2 in L.
  eapply afl_bind; [apply (at_fl 2); auto|].
  { intros E. pose proof (SendKexInit_tx c (Some 2) s) as T. destruct (SendKexInit_res c (Some 2) s) as (R1 & R2).
    pose proof (kexinit_sent c (Some 2) s) as R3. pose proof (SendKexInit_kself c (Some 2) s) as R4.
    assert (P : post c (pset (Some 2) OKexInit) True s (fst (SendKexInit c (Some 2) s))).
    { eapply post_impl; [|apply (post_tx c (stepev (Some 2) OKexInit)); [|exact (ai_inv s A)|exact T] ].
      - intros e H; right; exact H.
      - intros e [H|[->|(k & _ & ->)]]; [apply bg_neutral; exact H|reflexivity|exact Logic.I]. }
    destruct (SendKexInit c (Some 2) s) as [s' r]. cbn [fst snd] in *.
    eapply (own_fl 2 OKexInit); eauto; [destruct T; assumption| |discriminate].
    intros _ al. left. unfold keying. rewrite (R4 al). reflexivity. }
  clear s sl A L F. intros s sl A L F. change (2 + 1) with 3 in L.
  assert (N3 : ~ nonkeep 3 /\ ~ nonkeep 4 /\ ~ nonkeep 6 /\ ~ nonkeep 8 /\ ~ nonkeep 9) by (unfold nonkeep; lia).
  destruct N3 as (N3 & N4 & N6 & N8 & N9).
  eapply afl_bind; [apply (at_fl 3); auto|].
  { intros E. apply recv_fl; auto; [lia|]. intros s' sl' A' E' D F'. cbn. split; [|split; [pj; lia|exact F'] ].
    change (AI (w_acc (3 + 1) s')). apply AI_next; auto; try lia. intros _ y. apply negb_true_iff in D.
    pose proof (ai_a s' A' y) as B. rewrite E' in B. destruct (af_w _ _ B) as [w|w]; [lia|congruence|exact w]. }
  clear s sl A L F. intros s sl A L F. change (3 + 1) with 4 in L.
  eapply afl_bind; [apply (at_fl 4); auto|].
  { intros E. apply recv_fl; auto; [lia|]. intros s' sl' A' E' D F'. cbn. split; [|split; [pj; lia|exact F'] ].
    change (AI (w_acc (4 + 1) s')). apply AI_next; auto; try lia. }
  clear s sl A L F. intros s sl A L F. change (4 + 1) with 5 in L.
  eapply afl_bind; [apply (at_fl 5); auto; intros E; apply (send_fl 5 OServiceAccept); auto; discriminate|].
  clear s sl A L F. intros s sl A L F. change (5 + 1) with 6 in L.
  eapply afl_bind; [apply (at_fl 6); auto|].
  { intros E. apply recv_fl; auto; [lia|]. intros s' sl' A' E' D F'. cbn. split; [|split; [pj; lia|exact F'] ].
    change (AI (w_acc (6 + 1) s')). apply AI_next; auto; try lia. intros _. apply (i_client c s' (ai_inv s' A') Hc). apply N.leb_le; exact D. }
  clear s sl A L F. intros s sl A L F. change (6 + 1) with 7 in L.
  eapply afl_bind; [apply (at_fl 7); auto; intros E; apply (send_fl 7 OAuthSuccess); auto; discriminate|].
  clear s sl A L F. intros s sl A L F. change (7 + 1) with 8 in L.
  eapply afl_bind; [apply (at_fl 8); auto|].
  { intros E. apply recv_fl; auto; [lia|]. intros s' sl' A' E' D F'. cbn. split; [|split; [pj; lia|exact F'] ].
    change (AI (w_acc (8 + 1) s')). apply AI_next; auto; try lia. intros _. apply (i_acc c s' (ai_inv s' A') Hc). lia. }
  clear s sl A L F. intros s sl A L F. change (8 + 1) with 9 in L.
  apply (at_fl 9); auto. intros E. apply recv_fl; auto; [lia|]. intros s' sl' A' E' D F'. cbv beta.
  assert (A10 : AI (w_acc (9 + 1) s')).
  { apply AI_next; auto; try lia.
    - intros _. apply (i_acc c s' (ai_inv s' A') Hc). lia.
    - intros _ y. apply (i_client c s' (ai_inv s' A') Hc). apply N.leb_le; exact D. }
  assert (E10 : s_acc (w_acc (9 + 1) s') = 10) by reflexivity.
  destruct (kind =? 1); [|destruct (kind =? 2)].
  - apply (final_fl (w_acc (9 + 1) s') 11 AScpInit A10); pj; lia.
  - apply (final_fl (w_acc (9 + 1) s') 12 ASftp A10); pj; lia.
  - split; [exact A10|]. split; [pj; lia|exact F'].
Qed.
End Accept.

Lemma Arest_ord : forall s, Arest s -> ordered (s_log s).
Proof. intros s [(_ & _ & A)|(_ & A)]; apply (af_ord _ _ A). Qed.
Lemma AF_89 : forall s, AF 8 s -> AF 9 s.
Proof.
  intros s [B1 B2 B3 B4 B5 B6 B7 B8 B9]. constructor; auto; try (intros; apply B2; lia); try (intros; apply B3; lia); try (intros; apply B5; lia); try lia.
Qed.
Lemma AF_bg : forall c k s s', AF k s -> INV c s -> tx bg s s' -> AF k s'.
Proof.
  intros c k s s' [A1 A2 A3 A4 A5 A6 A7 A8 A9] I T. pose proof (post_bg c True s s' I T) as [P1 P2 P3 P4 _ P6 P7 P8].
  destruct (tx_log _ _ _ T) as (n & Hl & Fn).
  assert (Fs : Forall (seen c 0 0) n) by (eapply Forall_impl; [|exact Fn]; apply bg_seen).
  constructor; rewrite ?Hl; auto; try (intros; apply in_app_r; auto); try lia.
  - intros L. apply keyed_app; auto.
  - intros L. unfold client_state in *. destruct T. rewrite tx_auth. auto.
  - rewrite (own_seen _ _ _ _ _ Fs). exact A6.
  - apply ordered_bg; [exact Fn|exact A9].
Qed.

(* one call of accept *)
Theorem accept_inv : forall c kind s sl s' r, c_side c = Server -> INV c s -> rest7 s -> Forall wf_slot sl ->
  accept c kind s sl = (s', r) ->
  INV c s' /\ rest7 s' /\ (exists n, s_log s' = n ++ s_log s) /\ (K s /\ kin (s_log s) -> (live s' -> K s') /\ kin (s_log s')) /\
  (Arest s -> ordered (s_log s') /\ (live s' -> Arest s') /\ (isok r = true -> AF 10 s')).
Proof.
  intros c kind s sl s' r Hc I R7 F H. unfold accept in H. cbv zeta in H.
  set (s1 := if is_want (s_err s) then w_err WS_SUCCESS s else s) in *.
  assert (I1 : INV c s1) by (unfold s1; destruct (is_want _); [eapply INV_ext; [exact I|..]; reflexivity|exact I]).
  assert (E1 : s_acc s1 = s_acc s /\ s_log s1 = s_log s /\ s_pend s1 = s_pend s /\ (K s -> K s1) /\ (forall k, AF k s -> AF k s1)).
  { unfold s1. destruct (is_want _); pj; repeat (split; [reflexivity|]); (split; [auto|]); intros kk HA; [eapply AF_same; [..|exact HA]; reflexivity|exact HA]. }
  destruct E1 as (E1 & E2 & E3 & E4 & E5).
  assert (R71 : rest7 s1) by (unfold rest7; rewrite E1, E2; exact R7).
  assert (Ar1 : Arest s -> Arest s1) by (unfold Arest; rewrite E1, E3; intros [(A & B & C)|(A & B)]; [left|right]; auto).
  clearbody s1. rewrite <- E2. clear I R7 E1 E2 E3 E5.
  assert (G : (INV c s' /\ rest7 s' /\ (exists n, s_log s' = n ++ s_log s1) /\ (K s1 /\ kin (s_log s1) -> (live s' -> K s') /\ kin (s_log s')) /\
     (Arest s1 -> ordered (s_log s') /\ (live s' -> Arest s') /\ (isok r = true -> AF 10 s')))).
  2: { destruct G as (G1 & G2 & G3 & G4 & G5). split; [exact G1|]. split; [exact G2|]. split; [exact G3|]. split; [|auto].
    intros (k & e). apply G4. split; [apply E4, k|exact e]. }
  clear E4 Ar1 s. destruct (rc_neg (s_err s1)) eqn:Er.
  { injection H as <- <-. split; [exact I1|]. split; [exact R71|]. split; [exists []; reflexivity|]. split; [intros (k & e); auto|]. intros A. split; [apply Arest_ord, A|]. split; [auto|discriminate]. }
  (* the pending output *)
  destruct (resume c s_acc ACCEPT_DONE [1; 6; 3; 4; 9] (fun s => w_acc (s_acc s + 1) s) s1) as [s2 ok] eqn:Rs.
  assert (Q : if ok then AI c (s_log s1) (K s1 /\ kin (s_log s1)) (Arest s1) s2 else AR c (s_log s1) (K s1 /\ kin (s_log s1)) (Arest s1) s2).
  { unfold resume in Rs. destruct (s_pend s1 && (s_acc s1 <? ACCEPT_DONE)) eqn:Ep.
    - apply andb_prop in Ep. destruct Ep as (Ep & El). apply N.ltb_lt in El. unfold ACCEPT_DONE in El.
      pose proof (flush_tx (s_marks s1) c s1) as T. pose proof (flush_res (s_marks s1) c s1) as (F1 & F2). fold (flush c s1) in *.
      destruct (flush c s1) as [s3 r3]. cbn [fst snd] in *.
      pose proof (post_bg c True s1 s3 I1 T) as P. destruct (tx_log _ _ _ T) as (n & Hl & Fn).
      assert (Hacc : s_acc s3 = s_acc s1) by (apply P).
      assert (AFs : forall k, AF k s1 -> AF k s3) by (intros k A; eapply AF_bg; eauto).
      destruct (rc_eqb r3 WS_SUCCESS) eqn:Es.
      + injection Rs as <- <-. pj. rewrite Hacc.
        assert (INVe : INV c (w_err r3 s3)) by (eapply INV_ext; [apply P|..]; reflexivity).
        assert (Kp : existsb (N.eqb (s_acc s1)) [1; 6; 3; 4; 9] = true \/ existsb (N.eqb (s_acc s1)) [1; 6; 3; 4; 9] = false /\ (nonkeep (s_acc s1) \/ s_acc s1 = 8)).
        { destruct (existsb _ _) eqn:Ex; [auto|right]. split; [reflexivity|]. cbn [existsb] in Ex.
          repeat (apply orb_false_iff in Ex; destruct Ex as (? & Ex)). rewrite N.eqb_neq in *. unfold nonkeep. lia. }
        assert (Base : forall s4, INV c s4 -> s_log s4 = s_log s3 -> (K s3 -> K s4) -> (Arest s1 -> AF (s_acc s4) s3) -> s_kself s4 = s_kself s3 -> s_kpeer s4 = s_kpeer s3 -> s_hand s4 = s_hand s3 -> s_auth s4 = s_auth s3 -> s_chans s4 = s_chans s3 ->
           AI c (s_log s1) (K s1 /\ kin (s_log s1)) (Arest s1) (w_held None s4)).
        { intros s4 B1 B2 B3 B4 B5 B6 B7 B8 B9. constructor.
          - apply (rxp_held c True s4 None B1). discriminate.
          - exists n. pj. rewrite B2, Hl. reflexivity.
          - intros (k & e). split; [change (K s4); apply B3; apply (p_k _ _ _ _ _ P); auto|]. change (kin (s_log s4)). rewrite B2, Hl. apply kin_plain; [|exact e]. eapply Forall_impl; [|exact Fn]. apply bg_plain.
          - intros a. pj. eapply AF_same; [..|exact (B4 a)]; pj; assumption. }
        destruct Kp as [Kp|(Kp & Nk)]; pose proof Kp as Kp2; cbn [existsb] in Kp2; rewrite Kp2; clear Kp2.
        * apply Base; auto. pj. intros [(_ & B & _)|(_ & B)]; [|rewrite Hacc; auto].
          exfalso. clear -Kp B. unfold nonkeep in B. destruct B as [B|[B|[B|B]]]; rewrite B in Kp; discriminate.
        * apply Base; auto.
          -- apply (INV_acc c); [exact INVe| | |pj; lia]; pj; intros L; destruct (i_acc c s3 (p_inv _ _ _ _ _ P) Hc) as (G7 & G8); rewrite Hacc in *.
             ++ destruct (N.eq_dec (s_acc s1) 6) as [E|E]; [rewrite E in Kp; discriminate|]. apply G7. lia.
             ++ destruct (N.eq_dec (s_acc s1) 7) as [E|E]; [rewrite Hl; apply success_app, R71, E|]. apply G8. lia.
          -- pj. intros [(_ & _ & B)|([B|B] & B2)]; [auto|congruence|].
             destruct Nk as [Nk|Nk]; [contradiction|]. rewrite Nk in *. apply AF_89. auto.
      + injection Rs as <- <-. constructor; pj.
        * eapply INV_ext; [apply P|..]; reflexivity.
        * unfold rest7; pj. rewrite Hacc, Hl. intros E. apply success_app, R71, E.
        * exists n. exact Hl.
        * intros (k & e). split; [intros _; change (K s3); apply (p_k _ _ _ _ _ P); auto|]. rewrite Hl. apply kin_plain; [|exact e]. eapply Forall_impl; [|exact Fn]. apply bg_plain.
        * unfold live, Arest; pj. rewrite Hacc. intros A al.
          assert (r3 = WS_WANT_WRITE) by (destruct F1 as [X|[X|X]]; [subst r3; discriminate|exact X|congruence]).
          assert (Pd : s_pend s3 = true) by (destruct (F2 H0); congruence).
          assert (AFe : forall k, AF k s1 -> AF k (w_err r3 s3)) by (intros k B; eapply AF_same; [..|exact (AFs k B)]; reflexivity).
          destruct A as [(A1 & A2 & A3)|(A1 & A2)]; [left; auto|right]. split; [|auto]. right. destruct A1 as [A1|A1]; [congruence|exact A1].
        * intros A. rewrite Hl. apply ordered_bg; [exact Fn|]. apply Arest_ord, A.
    - injection Rs as <- <-. constructor; auto.
      + exists []; reflexivity.
      + intros [(B1 & B2 & B3)|(_ & B)]; [|exact B]. exfalso. rewrite B1 in Ep. cbn in Ep. apply N.ltb_ge in Ep. unfold ACCEPT_DONE in Ep. unfold nonkeep in B2. lia. }
  destruct ok; cbn [negb] in H.
  2: { injection H as <- <-. destruct Q as [Q1 Q2 Q3 Q4 Q5 Q5']. split; [exact Q1|]. split; [exact Q2|]. split; [exact Q3|]. split; [exact Q4|]. intros a. split; [auto|]. split; [auto|discriminate]. }
  assert (Fin : forall s5 r5, AR c (s_log s1) (K s1 /\ kin (s_log s1)) (Arest s1) s5 /\ (isok r5 = true -> done10 (Arest s1) s5) -> (s5, r5) = (s', r) ->
     INV c s' /\ rest7 s' /\ (exists n, s_log s' = n ++ s_log s1) /\ (K s1 /\ kin (s_log s1) -> (live s' -> K s') /\ kin (s_log s')) /\ (Arest s1 -> ordered (s_log s') /\ (live s' -> Arest s') /\ (isok r = true -> AF 10 s'))).
  { intros s5 r5 ([Q1 Q2 Q3 Q4 Q5 Q5'] & Q6) E. injection E as <- <-. split; [exact Q1|]. split; [exact Q2|]. split; [exact Q3|]. split; [exact Q4|]. intros a. split; [auto|]. split; [auto|]. intros Ei. apply Q6; auto. }
  assert (Fin10 : forall s5 r5, AI c (s_log s1) (K s1 /\ kin (s_log s1)) (Arest s1) s5 -> 10 <= s_acc s5 -> (s5, r5) = (s', r) ->
     INV c s' /\ rest7 s' /\ (exists n, s_log s' = n ++ s_log s1) /\ (K s1 /\ kin (s_log s1) -> (live s' -> K s') /\ kin (s_log s')) /\ (Arest s1 -> ordered (s_log s') /\ (live s' -> Arest s') /\ (isok r = true -> AF 10 s'))).
  { intros s5 r5 A L E. eapply Fin; [|exact E]. pose proof (final_fl c Hc _ _ _ s5 (s_acc s5) r5 A L (N.le_refl _)) as X.
    replace (w_acc (s_acc s5) s5) with s5 in X by (destruct s5; reflexivity). exact X. }
  destruct (N.eqb_spec (s_acc s2) ACCEPT_INIT_SCP) as [E|_]; [eapply Fin10; [exact Q|rewrite E; discriminate|exact H]|].
  destruct (N.eqb_spec (s_acc s2) ACCEPT_INIT_SFTP) as [E|_]; [eapply Fin10; [exact Q|rewrite E; discriminate|exact H]|].
  pose proof (steps_fl c Hc _ _ _ kind s2 sl Q F) as S. destruct (accept_steps c kind s2 sl) as [s5 sl5|s5 r5].
  - destruct S as (S1 & S2 & _). eapply Fin10; eassumption.
  - eapply Fin; eassumption.
Qed.
