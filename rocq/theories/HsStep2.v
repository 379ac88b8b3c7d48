(* HsStep2.v - the remaining handlers, the filter, one packet. *)
From Verif Require Import Base WireModel WireSpec WireProofs NegoModel AuthModel AuthSpec AuthProofs AuthStep HsModel HsSpec HsProofs HsStep.
From Coq Require Import List NArith Bool Lia.
Import ListNotations.
Open Scope N_scope.

(* ---- the server's reply ---------------------------------------------------------- *)
Lemma sized_read : forall p i sz i', bytes_ok p -> is32 (lenN p) -> is32 i -> GetUint32 p (lenN p) i = POk sz i' ->
  i' + sz <= lenN p -> i' = i + 4 /\ rdn p i' sz = Some (slice p i' sz) /\ add32 i' sz = i' + sz /\ read_str p i (slice p i' sz) (i' + sz).
Proof.
  intros p i sz i' Hp Hl Hi E L. rewrite GetUint32_eq in E by (assumption || lia).
  destruct (N.leb_spec (i + 4) (lenN p)) as [L1|L1]; [|discriminate]. injection E as E1 E2. subst i'.
  split; [reflexivity|]. split; [apply rdn_some; lia|]. split; [apply add32_small; unfold is32, W32 in *; lia|].
  pose proof (GetStr_inv p i Hp Hl Hi) as G. rewrite GetStr_eq in G by assumption.
  destruct (N.leb_spec (i + 4) (lenN p)); [|lia]. cbv zeta in G. rewrite E1 in G.
  destruct (N.leb_spec (i + 4 + sz) (lenN p)); [|lia]. apply G.
Qed.
Lemma GetUint32_bound : forall p i sz i', bytes_ok p -> is32 (lenN p) -> is32 i -> GetUint32 p (lenN p) i = POk sz i' ->
  i' = i + 4 /\ i' <= lenN p.
Proof.
  intros p i sz i' Hp Hl Hi E. rewrite GetUint32_eq in E by (assumption || lia).
  destruct (N.leb_spec (i + 4) (lenN p)) as [L1|L1]; [|discriminate]. injection E as _ <-. lia.
Qed.

Lemma reply_parse : forall p key i sig j, bytes_ok p -> is32 (lenN p) ->
  reply_key p = POk key i -> reply_sig p i = POk sig j -> reply_with p key sig.
Proof.
  intros p key i sig j Hp Hl Hk Hs.
  assert (B : W32 = 4294967296) by reflexivity.
  unfold reply_key in Hk. destruct (N.ltb_spec (lenN p) 8) as [L8|L8]; [discriminate|].
  destruct (GetUint32 p (lenN p) 0) as [sz i0|? ?|] eqn:E0; cbn [pbind] in Hk; try discriminate.
  destruct (GetUint32_bound _ _ _ _ Hp Hl is32_0 E0) as (-> & L0).
  rewrite (sub32_small (lenN p)) in Hk by (unfold is32 in *; lia).
  rewrite sub32_small in Hk by (unfold is32 in *; lia).
  destruct (N.ltb_spec (lenN p - 4 - (0 + 4)) sz) as [L1|L1]; [discriminate|].
  destruct (sized_read _ _ _ _ Hp Hl is32_0 E0) as (_ & R1 & A1 & S1); [lia|].
  rewrite R1 in Hk. change (0 + 4) with 4 in *. injection Hk as <- <-. rewrite A1 in Hs. clear R1 A1.
  unfold reply_sig in Hs. set (i := 4 + sz) in *.
  assert (Hi : is32 i) by (unfold is32 in *; subst i; lia).
  destruct (GetUint32 p (lenN p) i) as [fSz i1|? ?|] eqn:E1; cbn [pbind] in Hs; try discriminate.
  destruct (GetUint32_bound _ _ _ _ Hp Hl Hi E1) as (-> & L2).
  rewrite sub32_small in Hs by (unfold is32 in *; lia).
  destruct (N.ltb_spec (lenN p - (i + 4)) fSz) as [L3|L3]; [discriminate|].
  destruct (sized_read _ _ _ _ Hp Hl Hi E1) as (_ & R2 & A2 & S2); [lia|]. rewrite A2 in Hs.
  set (k := i + 4 + fSz) in *. assert (Hk : is32 k) by (unfold is32 in *; subst k; lia).
  destruct (GetUint32 p (lenN p) k) as [sSz i2|? ?|] eqn:E2; cbn [pbind] in Hs; try discriminate.
  destruct (GetUint32_bound _ _ _ _ Hp Hl Hk E2) as (-> & L4).
  rewrite sub32_small in Hs by (unfold is32 in *; lia).
  destruct (N.ltb_spec (lenN p - (k + 4)) sSz) as [L5|L5]; [discriminate|].
  destruct (sized_read _ _ _ _ Hp Hl Hk E2) as (_ & R3 & A3 & S3); [lia|]. rewrite R3 in Hs. injection Hs as <- _.
  destruct S1 as (k1 & D1 & T1 & _). destruct S2 as (f1 & D2 & T2 & _). destruct S3 as (s1 & D3 & T3 & _).
  rewrite dropN_0 in D1. rewrite D2, D3 in D1.
  exists k1, (slice p (i + 4) fSz), f1, s1, (dropN (k + 4 + sSz) p). auto.
Qed.

Lemma push_post : forall c ok e s, INV c s -> inert e -> plain e -> (forall b H, e <> EAgreed b H) -> e <> EChanReq ->
  okev c e (s_log s) -> post c plain ok s (logev e s).
Proof.
  intros c ok e s I H1 H1' H2 H3 H4. pose proof (INV_push c s e I H1 H2 H4) as I'.
  constructor; try assumption; pj; auto.
  - exists [e]. split; [reflexivity|repeat constructor; assumption].
  - intros k _ Hp Hs. pj. destruct (k Hp Hs) as (H & X & Y). exists H. split; [exact X|].
    change (e :: s_log s) with ([e] ++ s_log s). rewrite exchange_inert by (repeat constructor; assumption). right; exact Y.
  - intros _ [w|w] _; [left; exact w|right; apply (keyed_app [_]); exact w].
  - intros (J1 & J2). unfold J; pj. split; [intros L; right; auto|intros [X|X]; [congruence|right; auto] ].
Qed.

Lemma guarded_post : forall c p s k, INV c s ->
  (forall h, s_hand s = Some h -> lenN p <> 0 -> post c plain (alive (snd (k h)) = true) s (fst (k h))) ->
  post c plain (alive (snd (guarded p s k)) = true) s (fst (guarded p s k)).
Proof.
  intros c p s k I H. unfold guarded. destruct (s_hand s) as [h|] eqn:Eh; [|apply post_refl; exact I].
  destruct (N.eqb_spec (lenN p) 0); [apply post_refl; exact I|].
  destruct (h_skip h); [|apply H; auto].
  (* the flag is not part of the invariant *)
  cbn [fst snd].
  assert (E : forall f : hand -> option N, True) by auto. clear E.
  assert (X1 : expecting (on_hand (hw_skip false) s) = expecting s) by (unfold expecting; pj; rewrite Eh; reflexivity).
  assert (X2 : agreed (on_hand (hw_skip false) s) = agreed s) by (unfold agreed; pj; rewrite Eh; reflexivity).
  assert (X3 : kexof (on_hand (hw_skip false) s) = kexof s) by (unfold kexof; pj; rewrite Eh; reflexivity).
  assert (X4 : hashing (on_hand (hw_skip false) s) = hashing s) by (unfold hashing; pj; rewrite Eh; reflexivity).
  constructor; pj; auto.
  - inv_destruct I. constructor; rewrite ?X1, ?X2, ?X3, ?X4; pj; try assumption. intros _. rewrite Eh. discriminate.
  - exists []. split; [reflexivity|constructor].
  - intros K0 _ Hp Hs. rewrite X2. exact (K0 Hp Hs).
Qed.

Lemma SendNewKeys_post' : forall c a s H, INV c s -> agreed s = Some H -> s_kpeer s = true ->
  forall s0, post c plain True s0 s -> post c plain (alive (snd (SendNewKeys c a s)) = true) s0 (fst (SendNewKeys c a s)).
Proof.
  intros c a s H I A Kp s0 P. eapply post_trans; [|exact P|eapply SendNewKeys_post; eassumption]. auto.
Qed.

Lemma DoKexDhReply_post : forall c a p s m, INV c s -> s_kpeer s = true -> wf_hans a -> bytes_ok p -> is32 (lenN p) ->
  In (EAct m p) (exchange (s_log s)) -> (m = 31 \/ m = 33) ->
  post c plain (alive (snd (DoKexDhReply c a p s)) = true) s (fst (DoKexDhReply c a p s)).
Proof.
  intros c a p s m I Kp Ha Hp Hl Hin Hm. unfold DoKexDhReply. apply guarded_post; [exact I|]. intros h Eh _.
  destruct (reply_key p) as [key i|? ?|] eqn:Ek; try (apply post_refl; exact I).
  destruct (negb (c_check c)); [apply post_refl; exact I|].
  assert (P1 : post c plain True s (logev (EHostKey key (ha_cb a)) s)).
  { apply push_post; [exact I|exact Logic.I|exact Logic.I|discriminate|discriminate|exact Logic.I]. }
  set (s1 := logev (EHostKey key (ha_cb a)) s) in *.
  assert (Z : forall x, post c plain (alive x = true) s s1) by (intros x; eapply post_weak; [|exact P1]; auto).
  destruct (ha_cb a) eqn:Ecb; cbn [negb]; [|apply Z].
  destruct (reply_sig p i) as [sig j|? ?|] eqn:Es; try apply Z.
  destruct (h_hash h) eqn:Ez; [|apply Z]. unfold wf_hans in Ha. destruct (ha_hash a) as [[|b H]|]; [apply Z| |apply Z].
  pose proof (hash_post c True s1 (b :: H) (p_inv _ _ _ _ _ P1)) as P2. specialize (P2 ltac:(discriminate) Ha).
  destruct (new_hash_same (b :: H) s1) as (_ & _ & _ & E4 & E5 & _ & E7 & E8 & E9 & E10).
  set (s2 := new_hash (b :: H) s1) in *.
  assert (P12 : post c plain True s s2) by (eapply post_trans; [|exact P1|exact P2]; auto).
  destruct (c_hostsig c key sig (b :: H)) eqn:Ev; [|eapply post_weak; [|exact P12]; auto].
  assert (P3 : post c plain True s2 (logev (EVerified key sig (b :: H)) s2)).
  { apply push_post; [apply P12|exact Logic.I|exact Logic.I|discriminate|discriminate|exact Logic.I]. }
  set (s3 := logev (EVerified key sig (b :: H)) s2) in *.
  assert (P13 : post c plain True s s3) by (eapply post_trans; [|exact P12|exact P3]; auto).
  destruct (ha_mid a); [|eapply post_weak; [|exact P13]; auto].
  assert (Ag : agreed s = None) by (apply (i_hash c s I); unfold hashing; rewrite Eh; exact Ez).
  destruct (agree_post c True s3 true (b :: H)) as (P4 & A4).
  { apply P13. } { unfold s3; pj. rewrite E4. exact Kp. }
  { unfold s3, agreed in *; pj. rewrite E8. exact Ag. }
  { unfold s3; pj. apply E10. unfold s1; pj. congruence. }
  { unfold s3, hashing in *; pj. exact E9. } { auto. }
  { intros _. exists m, p, key, sig. unfold s3; pj. rewrite E7. unfold s1; pj. cbn [exchange is_kexinit].
    split; [right; right; right; exact Hin|]. split; [exact Hm|]. split; [eapply reply_parse; eassumption|].
    split; [right; right; left; reflexivity|exact Ev]. }
  change (logev (EAgreed true (b :: H)) (on_hand (fun h0 : hand => hw_expect (Some MSG_NEWKEYS) (hw_agreed (Some (b :: H)) h0)) s3))
    with (agree true (b :: H) s3).
  eapply SendNewKeys_post'; [apply P4|exact A4| |].
  - unfold agree, s3; pj. rewrite E4. exact Kp.
  - eapply post_trans; [|exact P13|exact P4]. auto.
Qed.

(* ---- DoKexDhInit ------------------------------------------------------------------- *)
Lemma client_post : forall c ok s v, INV c s -> v < 5 -> post c plain ok s (w_client v s).
Proof.
  intros c ok s v I L. constructor; pj; auto.
  - inv_destruct I. unfold keying, expecting, agreed, kexof, hashing, client_state, kb_bound in *.
    constructor; unfold keying, expecting, agreed, kexof, hashing, client_state, kb_bound; pj; try assumption.
    intros _. split; lia.
  - exists []. split; [reflexivity|constructor].
Qed.
Lemma srv_post : forall c ok s v, INV c s -> v < 4 -> post c plain ok s (w_srv v s).
Proof.
  intros c ok s v I L. constructor; pj; auto.
  - inv_destruct I. unfold keying, expecting, agreed, kexof, hashing, client_state in *.
    constructor; unfold keying, expecting, agreed, kexof, hashing, client_state; pj; try assumption.
    intros _. split; lia.
  - exists []. split; [reflexivity|constructor].
Qed.
Lemma DoKexDhInit_post : forall c a p s, INV c s -> s_kpeer s = true -> c_side c = Server -> wf_hans a ->
  post c plain (alive (snd (DoKexDhInit c a p s)) = true) s (fst (DoKexDhInit c a p s)).
Proof.
  intros c a p s I Kp Hc Ha. unfold DoKexDhInit. apply guarded_post; [exact I|]. intros h Eh _.
  destruct (ha_yes a); [|apply post_refl; exact I].
  assert (P1 : post c plain True s (w_client 3 s)) by (apply client_post; [exact I|lia]).
  eapply post_trans; [|exact P1|apply SendKexDhReply_post; [apply P1|exact Kp|exact Hc|exact Ha] ]. auto.
Qed.
Lemma DoGexRequest_post : forall c a p s, INV c s -> s_kpeer s = true -> c_side c = Server ->
  post c plain (alive (snd (DoKexDhGexRequest c a p s)) = true) s (fst (DoKexDhGexRequest c a p s)).
Proof.
  intros c a p s I Kp Hc. unfold DoKexDhGexRequest. apply guarded_post; [exact I|]. intros h Eh _.
  destruct (ha_yes a); [|apply post_refl; exact I]. apply SendKexDhGexGroup_post; assumption.
Qed.
Lemma DoGexGroup_post : forall c a p s, INV c s ->
  post c plain (alive (snd (DoKexDhGexGroup c a p s)) = true) s (fst (DoKexDhGexGroup c a p s)).
Proof.
  intros c a p s I. unfold DoKexDhGexGroup. apply guarded_post; [exact I|]. intros h Eh _.
  destruct (ha_yes a); [|apply post_refl; exact I].
  destruct (SendKexDhInit_post c None a (alive (snd (SendKexDhInit c None a s)) = true) s I) as (g & P); [congruence|].
  eapply post_impl; [apply pset_none|exact P].
Qed.

(* ---- DoNewKeys ----------------------------------------------------------------------- *)
Definition nkev (s : hs) (p : bytes) (e : ev) : Prop :=
  plain e \/ (e = EKeysIn (agreed s) /\ p = [] /\ s_kself s = false).
Lemma DoNewKeys_post : forall c a p s pre, INV c s -> s_kpeer s = true -> s_log s = EAct 21 p :: pre ->
  (c_side c = Client -> agreed s <> None) ->
  post c (nkev s p) (alive (snd (DoNewKeys c a p s)) = true) s (fst (DoNewKeys c a p s)).
Proof.
  intros c a p s pre I Kp Hl Hc. unfold DoNewKeys. destruct (s_hand s) as [h|] eqn:Eh; [|apply post_refl; exact I].
  destruct (N.eqb_spec (lenN p) 0) as [Ep|Ep]; cbn [negb]; [|apply post_refl; exact I].
  destruct (s_kself s) eqn:Es; [apply post_refl; exact I|].
  assert (Hp : p = []) by (destruct p; [reflexivity|unfold lenN in Ep; cbn in Ep; lia]). subst p.
  set (s1 := w_hand None (w_kpeer false (w_marks 2 (logev (EKeysIn (h_agreed h)) s)))).
  assert (P1 : post c (nkev s []) True s s1).
  { assert (Hag : agreed s = h_agreed h) by (unfold agreed; rewrite Eh; reflexivity).
    constructor; unfold s1; pj; auto.
    - inv_destruct I. constructor; unfold keying, expecting, agreed, kexof, hashing, client_state in *; pj; try assumption; try discriminate.
      + rewrite Es. discriminate.
      + reflexivity.
      + auto.
      + rewrite Hl. reflexivity.
      + intros E. destruct (I12 E) as (A & B). split; intros L; [apply (granted_app [_]); auto|right; auto].
      + intros E. destruct (I13 E) as (A & B). split; intros L; [apply (granted_app [_]); auto|apply (success_app [_]); auto].
      + intros E L m' q [X|X]; [discriminate|eauto].
      + intros E. destruct (I14 E) as (A & B). split; intros L; right; auto.
      + intros E L. right; auto.
      + intros E L m' q [X|X]; [discriminate|eauto].
      + split; [|exact I18]. cbn. split; [exists pre; exact Hl|]. intros E. specialize (Hc E).
        destruct (h_agreed h) as [H|] eqn:Eg; [|rewrite Eh in Hc; congruence]. exists H. split; [reflexivity|].
        destruct (I5 H) as (b & X & Y); [rewrite Eh; exact Eg|]. rewrite (Y E) in X. exact X.
    - exists [EKeysIn (h_agreed h)]. split; [reflexivity|]. constructor; [|constructor]. right. rewrite Hag. auto.
    - intros _ _ X. discriminate X.
    - intros K0 _ _. right. destruct (K0 Kp Es) as (H & X & Y). exists H. pj. rewrite <- Hag, X. split; [left; reflexivity|].
      right. apply exchange_in, Y.
    - intros (J1 & J2). unfold J; pj. split; [intros L; right; auto|intros [X|X]; [discriminate|right; auto] ]. }
  eapply (post_trans c _ True True); [auto|exact P1|]. eapply post_impl; [|apply post_bg; [apply P1|apply credits_tx] ]. left; assumption.
Qed.

(* ---- DoKexInit ------------------------------------------------------------------------- *)
Lemma post_of : forall c P (ok : Prop) s s', post c P False s s' -> s_kpeer s' = true -> (ok -> s_kself s' = true) -> post c P ok s s'.
Proof.
  intros c P ok s s' [A1 A2 A3 A4 A5 A6 A7 A8] Kp Ks. constructor; try assumption.
  - intros _ o _ X. rewrite (Ks o) in X. discriminate.
  - intros _ _ o. left. unfold keying. rewrite Kp. apply orb_true_r.
Qed.
Lemma kself_sticky : forall P s s', tx P s s' -> s_kself s = true -> s_kself s' = true.
Proof. intros P s s' T E. destruct (tx_kself _ _ _ T) as [-> | (-> & _)]; auto. Qed.
Lemma SendKexInit_kself : forall c own s, alive (snd (SendKexInit c own s)) = true -> s_kself (fst (SendKexInit c own s)) = true.
Proof.
  intros c own s. unfold SendKexInit, kexinit_with.
  set (b := match c_side c with Server => _ | Client => _ end). destruct b; [discriminate|].
  set (s1 := w_hand _ (w_kself true s)).
  destruct (queue own OKexInit s1) as [s2 ok] eqn:Q. pose proof (queue_log _ _ _ _ _ Q) as (_ & Q2 & _).
  assert (E2 : s_kself s2 = true) by (rewrite Q2; reflexivity). destruct ok; [|discriminate].
  pose proof (kself_sticky _ _ _ (flush_tx (s_marks s2) c s2) E2) as E3. unfold flush in *.
  destruct (flush_n (s_marks s2) c s2) as [s3 r]. cbn [fst] in E3. intros _. destruct r; exact E3.
Qed.

Lemma kexinit_start : forall c s0 p h', INV c s0 -> s_kpeer s0 = false -> lenN p <> 0 -> okev c (EAct 20 p) (s_log s0) ->
  h_expect h' = None -> h_agreed h' = None ->
  post c plain False (logev (EAct 20 p) s0) (w_hand (Some h') (w_kpeer true (logev (EAct 20 p) s0))).
Proof.
  intros c s0 p h' I Kp Hp Hok He Ha.
  assert (Ez : (lenN p =? 0) = false) by (apply N.eqb_neq; exact Hp).
  constructor; pj; auto; try contradiction.
  - inv_destruct I. constructor; unfold keying, expecting, agreed, kexof, hashing, client_state in *; pj; try assumption.
    + discriminate.
    + cbn. rewrite Ez. reflexivity.
    + discriminate.
    + intros H E. congruence.
    + intros _ _ b H. cbn. rewrite Ez. intros [].
    + rewrite He. discriminate.
    + intros _. exact Ha.
    + intros E. destruct (I12 E) as (A & B). split; intros L; [apply (granted_app [_]); auto|right; auto].
    + intros E. destruct (I13 E) as (A & B). split; intros L; [apply (granted_app [_]); auto|apply (success_app [_]); auto].
    + intros E L m' q [X|X]; [injection X as <- <-; lia|eauto].
    + intros E. destruct (I14 E) as (A & B). split; intros L; right; auto.
    + intros E L. right; auto.
    + intros E L m' q [X|X]; [injection X as <- <-; lia|eauto].
    + rewrite He. discriminate.
    + split; assumption.
  - exists []. split; [reflexivity|constructor].
Qed.

Lemma DoKexInit_post : forall c a p s0, INV c s0 -> s_kpeer s0 = false -> okev c (EAct 20 p) (s_log s0) ->
  (lenN p = 0 -> INV c (logev (EAct 20 p) s0)) ->
  post c plain (alive (snd (DoKexInit c a p (logev (EAct 20 p) s0))) = true) (logev (EAct 20 p) s0) (fst (DoKexInit c a p (logev (EAct 20 p) s0))).
Proof.
  intros c a p s0 I Kp Hok Hz. set (s := logev (EAct 20 p) s0) in *. unfold DoKexInit.
  destruct (N.eqb_spec (lenN p) 0) as [E|E]; [apply post_refl; auto|].
  assert (Kp' : s_kpeer s = false) by exact Kp. rewrite Kp'.
  assert (St : forall h', h_expect h' = None -> h_agreed h' = None -> post c plain False s (w_hand (Some h') (w_kpeer true s)))
    by (intros; apply kexinit_start; assumption).
  set (h0 := match s_hand (w_kpeer true s) with Some h => h | None => hand0 end).
  assert (H0 : h_expect h0 = None /\ h_agreed h0 = None).
  { destruct (i_idle c s0 I Kp) as (A & _ & B & _). unfold h0, expecting, agreed in *. unfold s; pj. destruct (s_hand s0); auto. }
  destruct H0 as (H0a & H0b).
  destruct (ha_nego a) as [gex wrong|chosen nomatch].
  - set (s2 := on_hand _ (w_hand (Some h0) (w_kpeer true s))).
    assert (P2 : post c plain False s s2).
    { change s2 with (w_hand (Some (hw_skip (h_skip h0 || wrong) (hw_hash true (hw_kex (Some gex) h0)))) (w_kpeer true s)). apply St; assumption. }
    assert (Kp2 : s_kpeer s2 = true) by reflexivity. clearbody s2.
    assert (T3 : tx bg s2 (fst (if s_kself s2 then (s2, WS_SUCCESS) else SendKexInit c None s2))).
    { destruct (s_kself s2); [apply tx_refl|]. eapply tx_impl; [apply stepev_none_bg|apply SendKexInit_tx]. }
    assert (Ks : alive (snd (if s_kself s2 then (s2, WS_SUCCESS) else SendKexInit c None s2)) = true ->
                 s_kself (fst (if s_kself s2 then (s2, WS_SUCCESS) else SendKexInit c None s2)) = true).
    { destruct (s_kself s2) eqn:E2; [intros _; exact E2|apply SendKexInit_kself]. }
    destruct (if s_kself s2 then (s2, WS_SUCCESS) else SendKexInit c None s2) as [s3 r3]. cbn [fst snd] in T3, Ks.
    assert (P3 : post c plain False s s3) by (eapply post_then_bg; eassumption).
    assert (Kp3 : s_kpeer s3 = true) by (rewrite (tx_kpeer _ _ _ T3); exact Kp2).
    assert (Good : alive r3 = true -> post c plain True s s3) by (intros A; apply post_of; auto).
    assert (Any : forall r, (alive r = true -> alive r3 = true) -> post c plain (alive r = true) s s3) by (intros r Hr; apply post_of; auto).
    assert (Fin : alive r3 = true -> forall s4, post c plain True s3 s4 -> s_kpeer s4 = true -> s_kself s4 = s_kself s3 ->
              post c plain (alive (s_err s4) = true) s s4).
    { intros A s4 P4 Kp4 Ks4. apply post_of; [|exact Kp4|intros _; rewrite Ks4; auto].
      eapply (post_trans c plain False True); [tauto|exact P3|exact P4]. }
    assert (Ok : alive r3 = true ->
      let res := if negb (ha_init a) then (s3, WS_CRYPTO_FAILED)
                 else (match c_side c with Server => w_client 2 s3 | Client => w_srv 2 s3 end,
                       s_err (match c_side c with Server => w_client 2 s3 | Client => w_srv 2 s3 end)) in
      post c plain (alive (snd res) = true) s (fst res)).
    { intros A. destruct (negb (ha_init a)); cbv zeta; cbn [fst snd]; [apply Any; discriminate|].
      apply (Fin A); destruct (c_side c); try reflexivity; try exact Kp3.
      - apply client_post; [apply P3|lia].
      - apply srv_post; [apply P3|lia]. }
    destruct r3; try (cbn [fst snd]; apply Any; auto; fail); apply Ok; reflexivity.
  - set (s2 := match chosen with Some gex => _ | None => _ end).
    assert (P2 : post c plain False s s2).
    { unfold s2. destruct chosen as [gex|].
      - change (on_hand _ (w_hand (Some h0) (w_kpeer true s))) with (w_hand (Some (hw_hash true (hw_kex (Some gex) h0))) (w_kpeer true s)). apply St; assumption.
      - apply St; assumption. }
    assert (Kp2 : s_kpeer s2 = true) by (unfold s2; destruct chosen; reflexivity). clearbody s2.
    destruct nomatch; cbn [fst snd].
    + apply post_of; [eapply post_then_bg; [exact P2|apply send1_bg]| |discriminate].
      rewrite (tx_kpeer _ _ _ (send1_bg c s2)). exact Kp2.
    + apply post_of; [exact P2|exact Kp2|discriminate].
Qed.

(* ---- authentication -------------------------------------------------------------------- *)
Lemma rev_map_inert : forall l, Forall inert (rev (map EAuth l)).
Proof. intros l. apply Forall_rev. apply Forall_map. apply Forall_forall. intros e _. exact Logic.I. Qed.
Lemma DoAuth_post : forall c a m p am s, INV c s -> In (EAct m p) (s_log s) -> auth_msg m p am ->
  bytes_ok p -> is32 (lenN p) ->
  post c plain (alive (snd (DoAuth c a am s)) = true) s (fst (DoAuth c a am s)).
Proof.
  intros c a m p am s I Hin Ham Hp Hl. unfold DoAuth.
  assert (Hb : msg_bytes am = p) by (destruct Ham; reflexivity).
  destruct (step_spec (c_auth c) (c_crypto c) am (ha_auth a) (set_log [] (s_auth s))) as (au & r & j & E & X).
  { split; rewrite Hb; assumption. } { exact (i_sid32 c s I). } { exact (i_kb c s I). }
  rewrite E. destruct X as (evs & e & L & (Sid & _) & Usr & _ & _ & G & _ & _ & Kb & _).
  cbn [set_log a_log app] in L. rewrite L. cbn [set_log a_sid a_user] in *. clear E.
  set (n := rev (map EAuth evs)).
  set (s1 := w_log (n ++ s_log s) (w_auth (set_log [] au) s)).
  assert (Fn : Forall inert n) by apply rev_map_inert.
  assert (Fa : forall x, In x n -> exists v, x = EAuth v).
  { intros x Hx. apply in_rev, in_map_iff in Hx. destruct Hx as (v & <- & _). exists v; reflexivity. }
  assert (Hh : holds (okev c) (n ++ s_log s)).
  { destruct G as [(_ & G)|(_ & _ & U & cr & mid & Lg & _ & -> & Fm)].
    - apply holds_app; [apply I|]. intros x t Hx. apply in_rev, in_map_iff in Hx. destruct Hx as (v & <- & Hv).
      destruct v; try exact Logic.I. exfalso. eapply G; exact Hv.
    - unfold n. cbn [map rev]. rewrite map_app, rev_app_distr. cbn [map rev app].
      rewrite <- !app_assoc. cbn [app]. split.
      + exists m, p, am, (a_user (s_auth s)). split; [apply in_or_app; right; right; exact Hin|]. split; [exact Ham|]. split.
        * change (rev (map EAuth mid) ++ EAuth (ECallback U cr CbSuccess) :: s_log s)
            with (rev (map EAuth mid) ++ [EAuth (ECallback U cr CbSuccess)] ++ s_log s).
          rewrite !session_inert; [rewrite <- (i_sid c s I); exact Lg|repeat constructor|apply rev_map_inert].
        * apply in_or_app. right. left. reflexivity.
      + change (EAuth (ECallback U cr CbSuccess) :: s_log s) with ([EAuth (ECallback U cr CbSuccess)] ++ s_log s).
        rewrite app_assoc. apply holds_app; [apply I|]. intros x t Hx. apply in_app_or in Hx. destruct Hx as [Hx|[<-|[]]].
        * apply in_rev, in_map_iff in Hx. destruct Hx as (v & <- & Hv). rewrite Forall_forall in Fm. rewrite <- (Fm _ Hv). exact Logic.I.
        * exact Logic.I. }
  assert (I1 : INV c (w_log (n ++ s_log s) s)).
  { apply INV_log; [exact I|exact Fn| |exact Hh]. intros b H Hx. destruct (Fa _ Hx); discriminate. }
  assert (P1 : post c plain True s s1).
  { constructor; unfold s1; pj; auto.
    - inv_destruct I1. constructor; unfold keying, expecting, agreed, kexof, hashing, client_state in *; pj; try assumption.
      + rewrite Sid. exact I8.
      + rewrite Sid. exact I9.
      + intros E1. specialize (I11 E1). destruct Usr as [-> | U0]; [exact I11|congruence].
      + intros E1. destruct (I12 E1) as (A & B). destruct G as [(Gc & _)|(Gc & _ & U & cr & mid & _ & _ & Ev & _)].
        * cbn in Gc. rewrite Gc. auto.
        * rewrite Gc. split; [intros _|unfold CLIENT_USERAUTH_DONE; lia].
          exists U, cr. apply in_or_app. left. unfold n. rewrite Ev. apply -> in_rev. apply in_map_iff. exists (EGranted U cr).
          split; [reflexivity|]. right. apply in_or_app. right; left; reflexivity.
    - exists n. split; [reflexivity|]. apply Forall_forall. intros x Hx. destruct (Fa _ Hx) as (v & ->). exact Logic.I.
    - intros K0 _ H1 H2. pj. destruct (K0 H1 H2) as (H & A & B). exists H. split; [exact A|]. rewrite exchange_inert by exact Fn. apply in_app_r, B.
    - intros _ [w|w] _; [left; exact w|right; apply keyed_app, w].
    - intros (J1 & J2). unfold J; pj. split; [intros L0; apply in_app_r; auto|]. apply J_app; [|exact J2].
      intros x Hx ->. destruct (Fa _ Hx); discriminate. }
  pose proof (other_tx c a s1) as T. destruct (other c a s1) as [s2 r2]. cbn [fst snd] in *.
  eapply post_weak; [|eapply post_then_bg; [exact P1|exact T] ]. auto.
Qed.

Lemma DoInfoRequest_post : forall c a s, INV c s -> c_side c = Client ->
  post c plain (alive (snd (DoInfoRequest c a s)) = true) s (fst (DoInfoRequest c a s)).
Proof.
  intros c a s I Hc. unfold DoInfoRequest.
  assert (A : forall s1 v, INV c s1 -> a_sid v = a_sid (s_auth s1) -> a_user v = a_user (s_auth s1) -> a_client v = a_client (s_auth s1) ->
                post c plain True s1 (w_auth v s1)).
  { intros s1 v I1 E1 E2 E3. constructor; pj; auto.
    - inv_destruct I1. constructor; unfold keying, expecting, agreed, kexof, hashing, client_state, kb_bound in *; pj; rewrite ?E1, ?E2, ?E3; try assumption.
      intros _. auto.
    - exists []. split; [reflexivity|constructor]. }
  assert (P1 := A s (set_prompts (ha_prompts a) (s_auth s)) I eq_refl eq_refl eq_refl).
  set (s1 := w_auth _ s) in *. pose proof (other_tx c a s1) as T. destruct (other c a s1) as [s2 r]. cbn [fst] in T.
  assert (P2 : post c plain True s s2) by (eapply post_then_bg; eassumption).
  cbn [fst snd]. destruct (rc_eqb r WS_SUCCESS); [|eapply post_weak; [|exact P2]; auto].
  eapply post_trans; [|exact P2|apply A; [apply P2|reflexivity|reflexivity|reflexivity] ]. auto.
Qed.

(* ---- channels ---------------------------------------------------------------------------- *)
Lemma DoChannel_post : forall c a m s, INV c s ->
  (80 <= m -> c_side c = Server -> granted (s_log s)) -> (80 <= m -> c_side c = Client -> In (EAct 52 []) (s_log s)) ->
  (exists p pre, s_log s = EAct m p :: pre) ->
  post c plain (alive (snd (DoChannel c a m s)) = true) s (fst (DoChannel c a m s)).
Proof.
  intros c a m s I Hg H52 (pl & pre & Hl). unfold DoChannel. set (s1 := if m =? MSG_CHANNEL_OPEN then _ else _).
  assert (P1 : post c plain True s s1).
  { assert (Q : forall v, v <= s_chans s -> post c plain True s (w_chans v s)).
    { intros v L. constructor; pj; auto.
      - eapply INV_ext; [exact I|..]; reflexivity.
      - exists []. split; [reflexivity|constructor].
      - intros (J1 & J2). split; pj; [intros; apply J1; lia|exact J2]. }
    unfold s1. destruct (N.eqb_spec m MSG_CHANNEL_OPEN) as [E|_].
    { destruct (ha_yes a); [|apply post_refl; exact I].
      assert (Hm : 80 <= m) by (subst m; unfold MSG_CHANNEL_OPEN; lia).
      assert (I1 : INV c (logev EChanOpen s)) by (apply INV_push; [exact I|exact Logic.I|discriminate|exists pl, pre; rewrite Hl, E; reflexivity]).
      constructor; pj; auto.
      - inv_destruct I1. constructor; unfold keying, expecting, agreed, kexof, hashing, client_state, kb_bound in *; pj; try assumption.
        intros E1. split; [intros _; apply (granted_app [_]); auto|lia].
      - exists [EChanOpen]. split; [reflexivity|repeat constructor].
      - intros K0 _ A B. destruct (K0 A B) as (H & X & Y). exists H. split; [exact X|right; exact Y].
      - intros _ [w|w] _; [left; exact w|right; apply (keyed_app [_]); exact w].
      - intros (J1 & J2). split; pj; intros _; left; reflexivity. }
    destruct (N.eqb_spec m MSG_OPEN_CONF) as [E|_].
    { destruct (ha_yes a && (0 <? s_chans s)); [|apply post_refl; exact I].
      assert (Hm : 80 <= m) by (subst m; unfold MSG_OPEN_CONF; lia).
      assert (I1 : INV c (logev EChanConf s)) by (apply INV_push; [exact I|exact Logic.I|discriminate|exists pl, pre; rewrite Hl, E; reflexivity]).
      constructor; pj; auto.
      - inv_destruct I1. constructor; unfold keying, expecting, agreed, kexof, hashing, client_state, kb_bound in *; pj; try assumption.
        intros E1. split; [intros _; right; auto|lia].
      - exists [EChanConf]. split; [reflexivity|repeat constructor].
      - intros K0 _ A B. destruct (K0 A B) as (H & X & Y). exists H. split; [exact X|right; exact Y].
      - intros _ [w|w] _; [left; exact w|right; apply (keyed_app [_]); exact w].
      - intros (J1 & J2). split; pj; [intros L; right; auto|intros [X|X]; [discriminate|right; auto] ]. }
    destruct (N.eqb_spec m MSG_REQUEST) as [E|_].
    { destruct (ha_yes a && (0 <? s_chans s)) eqn:Ey; [|apply post_refl; exact I].
      assert (Hm : 80 <= m) by (subst m; unfold MSG_REQUEST; lia).
      assert (I1 : INV c (logev EChanReq s)) by (apply INV_push; [exact I|exact Logic.I|discriminate|exists pl, pre; rewrite Hl, E; reflexivity]).
      constructor; pj; auto.
      - inv_destruct I1. constructor; unfold keying, expecting, agreed, kexof, hashing, client_state, kb_bound in *; pj; try assumption.
        intros E1. split; intros _; [apply (granted_app [_]); auto|left; reflexivity].
      - exists [EChanReq]. split; [reflexivity|repeat constructor].
      - intros K0 _ A B. destruct (K0 A B) as (H & X & Y). exists H. split; [exact X|right; exact Y].
      - intros _ [w|w] _; [left; exact w|right; apply (keyed_app [_]); exact w].
      - apply andb_prop in Ey. destruct Ey as (_ & Ey). apply N.ltb_lt in Ey.
        intros (J1 & J2). split; pj; [intros L; right; auto|intros _; right; auto]. }
    destruct (N.eqb_spec m MSG_SUCCESS) as [E|_].
    { destruct (ha_yes a && (0 <? s_chans s)); [|apply post_refl; exact I].
      assert (Hm : 80 <= m) by (subst m; unfold MSG_SUCCESS; lia).
      assert (I1 : INV c (logev EChanOk s)) by (apply INV_push; [exact I|exact Logic.I|discriminate|exists pl, pre; rewrite Hl, E; reflexivity]).
      constructor; pj; auto.
      - inv_destruct I1. constructor; unfold keying, expecting, agreed, kexof, hashing, client_state, kb_bound in *; pj; try assumption.
        intros E1. split; intros _; [right; auto|left; reflexivity].
      - exists [EChanOk]. split; [reflexivity|repeat constructor].
      - intros K0 _ A B. destruct (K0 A B) as (H & X & Y). exists H. split; [exact X|right; exact Y].
      - intros _ [w|w] _; [left; exact w|right; apply (keyed_app [_]); exact w].
      - intros (J1 & J2). split; pj; [intros L; right; auto|intros [X|X]; [discriminate|right; auto] ]. }
    destruct ((m =? MSG_CLOSE) || (m =? MSG_OPEN_FAIL)); [|apply post_refl; exact I].
    destruct (ha_yes a && (0 <? s_chans s)); [|apply post_refl; exact I]. apply Q. lia. }
  eapply post_weak; [|eapply post_then_bg; [exact P1|apply other_tx] ]. auto.
Qed.
