(* AuthProofs.v - lemmas about AuthModel. *)
From Verif Require Import Base WireModel WireSpec WireProofs NameTable NegoModel NegoSpec NegoProofs AuthModel AuthSpec.
From Coq Require Import List NArith ZArith Lia Bool String.
Import ListNotations.
Open Scope N_scope.
Local Notation "a ++ b" := (@app _ a b) : list_scope.

(* ---- reading strings -------------------------------------------------- *)
Lemma GetStr_eq : forall m i, bytes_ok m -> is32 (lenN m) -> is32 i ->
  GetStr m (lenN m) i =
    if i + 4 <=? lenN m then
      let n := be_value (slice m i 4) in
      if i + 4 + n <=? lenN m then POk (slice m (i + 4) n) (i + 4 + n) else PErr WS_BUFFER_E (i + 4)
    else PErr WS_BUFFER_E i.
Proof.
  intros m i Hm Hl Hi. unfold GetStr. rewrite GetStringRef_eq by (assumption || lia).
  destruct (N.leb_spec (i + 4) (lenN m)); cbn [pbind]; [|reflexivity]. cbv zeta.
  destruct (N.leb_spec (i + 4 + be_value (slice m i 4)) (lenN m)); cbn [pbind fst snd]; [|reflexivity].
  rewrite rdn_some by lia. reflexivity.
Qed.

Lemma GetSized_eq : forall m i, bytes_ok m -> is32 (lenN m) -> is32 i ->
  GetSized m (lenN m) i = GetStr m (lenN m) i.
Proof.
  intros m i Hm Hl Hi. rewrite GetStr_eq by assumption. unfold GetSized.
  rewrite GetSize_eq by (assumption || lia).
  destruct (N.leb_spec (i + 4) (lenN m)); cbn [pbind]; [|reflexivity]. cbv zeta.
  destruct (N.leb_spec (i + 4 + be_value (slice m i 4)) (lenN m)); cbn [pbind]; [|reflexivity].
  rewrite rdn_some by lia. f_equal. apply add32_small. unfold is32, W32 in *. lia.
Qed.

Lemma slice_dropN : forall m i n, i + n <= lenN m -> dropN i m = slice m i n ++ dropN (i + n) m.
Proof.
  intros m i n H. unfold slice. rewrite <- (dropN_dropN _ n i m). symmetry. apply takeN_dropN.
Qed.

(* what a successful read means *)
Definition read_str (m : bytes) (i : N) (b : bytes) (j : N) : Prop :=
  exists f, dropN i m = f ++ dropN j m /\ is_str f b /\ j = i + lenN f /\ j <= lenN m /\ bytes_ok b /\ is32 (lenN b).

Lemma GetStr_inv : forall m i, bytes_ok m -> is32 (lenN m) -> is32 i ->
  match GetStr m (lenN m) i with
  | POk b j => read_str m i b j /\ is32 j
  | PErr _ _ => True
  | POob => False
  end.
Proof.
  intros m i Hm Hl Hi. rewrite GetStr_eq by assumption.
  destruct (N.leb_spec (i + 4) (lenN m)) as [H|H]; [|exact I]. cbv zeta.
  set (n := be_value (slice m i 4)).
  destruct (N.leb_spec (i + 4 + n) (lenN m)) as [H2|H2]; [|exact I].
  assert (L : lenN (slice m i 4) = 4) by (apply slice_length; lia).
  assert (L2 : lenN (slice m (i + 4) n) = n) by (apply slice_length; lia).
  split; [|unfold is32, W32 in *; lia].
  exists (slice m i 4 ++ slice m (i + 4) n). split; [|split; [|split; [|split; [|split]]]].
  - rewrite <- app_assoc. rewrite (slice_dropN m i 4) by lia. f_equal. apply slice_dropN. lia.
  - exists (slice m i 4). split; [reflexivity|]. split; [assumption|].
    split; [rewrite L2; reflexivity|apply slice_ok; assumption].
  - rewrite lenN_app. lia.
  - lia.
  - apply slice_ok; assumption.
  - rewrite L2. unfold is32, W32 in *. lia.
Qed.

Lemma GetBoolean_inv : forall m i, is32 (lenN m) ->
  match GetBoolean m (lenN m) i with
  | POk v j => dropN i m = v :: dropN j m /\ j = i + 1 /\ j <= lenN m
  | PErr _ _ => True
  | POob => False
  end.
Proof.
  intros m i Hl. rewrite GetBoolean_eq by (assumption || lia).
  rewrite takeN_all by lia. destruct (rd m i) as [v|] eqn:E; [|exact I].
  split; [apply dropN_rd; assumption|]. split; [reflexivity|]. apply rd_lt in E. lia.
Qed.

Lemma GetUint32_inv : forall m i, bytes_ok m -> is32 (lenN m) -> is32 i ->
  match GetUint32 m (lenN m) i with
  | POk v j => exists l, dropN i m = l ++ dropN j m /\ lenN l = 4 /\ be_value l = v /\ j = i + 4 /\ j <= lenN m /\ is32 v
  | PErr _ _ => True
  | POob => False
  end.
Proof.
  intros m i Hm Hl Hi. rewrite GetUint32_eq by (assumption || lia).
  destruct (N.leb_spec (i + 4) (lenN m)) as [H|H]; [|exact I].
  exists (slice m i 4). split; [apply slice_dropN; lia|]. split; [apply slice_length; lia|].
  split; [reflexivity|]. split; [reflexivity|]. split; [lia|]. apply be_value_lt; assumption.
Qed.

Lemma GetMpint_inv : forall m i, bytes_ok m -> is32 (lenN m) -> is32 i ->
  match GetMpint m (lenN m) i with
  | POk (o, n) j => rdn m o n = Some (slice m o n) /\ read_str m i (slice m o n) j /\ is32 j
  | PErr _ _ => True
  | POob => False
  end.
Proof.
  intros m i Hm Hl Hi. pose proof (GetStr_inv m i Hm Hl Hi) as G. unfold GetStr in G. unfold GetMpint.
  rewrite GetStringRef_eq in * by (assumption || lia).
  destruct (N.leb_spec (i + 4) (lenN m)) as [H|H]; cbn [pbind]; [|exact I]. cbv zeta in *.
  set (n := be_value (slice m i 4)) in *.
  destruct (N.leb_spec (i + 4 + n) (lenN m)) as [H2|H2]; cbn [pbind fst snd] in *; [|exact I].
  rewrite rdn_some in * by lia. destruct G as (G & G2).
  destruct (N.ltb_spec 0 n) as [H3|H3].
  - destruct (rd_some m (i + 4)) as (b & Eb & _); [lia|]. rewrite Eb.
    destruct (N.testbit b 7); [exact I|]. rewrite rdn_some by lia. tauto.
  - rewrite rdn_some by lia. tauto.
Qed.

(* ---- the shape of states ------------------------------------------------ *)
Definition logs (ev : list event) (s : auth) : auth :=
  mkAuth (a_user s) (a_authId s) (a_requests s) (a_failures s) (a_max s) (a_pending s) (a_prompts s)
         (a_client s) (a_sid s) (a_log s ++ ev) (a_ans s).

Lemma send_inv : forall e s s' r, send e s = (s', r) -> exists an, s' = set_ans an (logs [e] s).
Proof.
  intros e s s' r H. unfold send in H.
  destruct (an_send (a_ans (log e s))) as [|q t] eqn:E; injection H as <- <-.
  - exists (a_ans s). reflexivity.
  - eexists. reflexivity.
Qed.
Lemma callback_inv : forall u c s s' r n, callback u c s = (s', (r, n)) ->
  exists an, s' = set_ans an (logs [ECallback u c r] s).
Proof.
  intros u c s s' r n H. unfold callback in H.
  destruct (an_cb (a_ans s)) as [|[q k] t] eqn:E; cbn [fst] in H; injection H as <- <- <-.
  - exists (a_ans s). reflexivity.
  - eexists. reflexivity.
Qed.
Lemma result_inv : forall v s s' ok, result_cb v s = (s', ok) ->
  exists an, s' = set_ans an (logs [EResult v ok] s).
Proof.
  intros v s s' ok H. unfold result_cb in H.
  destruct (an_rcb (a_ans s)) as [|q t] eqn:E; injection H as <- <-.
  - exists (a_ans s). reflexivity.
  - eexists. reflexivity.
Qed.
Lemma count_inv : forall s s' r, CountUserAuthFailure s = (s', r) ->
  let f := add32 (a_failures s) 1 in
  (a_max s <= f /\ r = WS_USER_AUTH_E /\ exists an, s' = set_ans an (logs [EDisconnect DISC_NO_MORE_AUTH] (set_failures f s)))
  \/ (f < a_max s /\ r = WS_SUCCESS /\ s' = set_failures f s).
Proof.
  intros s s' r H f. unfold CountUserAuthFailure in H. fold f in H. cbn [a_max a_failures set_failures] in H.
  destruct (N.leb_spec (a_max s) f) as [L|L].
  - left. destruct (send _ _) as [s1 r1] eqn:E. apply send_inv in E. destruct E as (an & ->).
    cbn [fst] in H. injection H as <- <-. split; [assumption|]. split; [reflexivity|]. exists an. reflexivity.
  - right. injection H as <- <-. auto.
Qed.
Lemma failcount_inv : forall p cnt s s' r, SendUserAuthFailureCount p cnt s = (s', r) ->
  let f := add32 (a_failures s) 1 in
  (cnt = false /\ exists an, s' = set_ans an (logs [EFailure p] s))
  \/ (cnt = true /\ f < a_max s /\ exists an, s' = set_ans an (set_failures f (logs [EFailure p] s)))
  \/ (cnt = true /\ a_max s <= f /\ r = WS_USER_AUTH_E /\
      exists an, s' = set_ans an (set_failures f (logs [EFailure p; EDisconnect DISC_NO_MORE_AUTH] s))).
Proof.
  intros p cnt s s' r H f. unfold SendUserAuthFailureCount in H.
  destruct (send (EFailure p) s) as [s1 r1] eqn:E. apply send_inv in E. destruct E as (an & ->).
  destruct cnt.
  - destruct (CountUserAuthFailure _) as [s2 r2] eqn:E2. apply count_inv in E2.
    cbn [a_failures a_max set_ans logs] in E2. fold f in E2.
    destruct E2 as [(L & -> & an2 & ->) | (L & -> & ->)].
    + right; right. cbn in H. injection H as <- <-. split; [reflexivity|]. split; [assumption|].
      split; [reflexivity|]. exists an2. unfold set_ans, logs, set_failures.
      cbn [a_user a_authId a_requests a_failures a_max a_pending a_prompts a_client a_sid a_log a_ans].
      rewrite <- app_assoc. reflexivity.
    + right; left. cbn in H. injection H as <- <-. split; [reflexivity|]. split; [assumption|].
      exists an. reflexivity.
  - left. injection H as <- <-. split; [reflexivity|]. exists an. reflexivity.
Qed.

(* ---- the effect of a handler -------------------------------------------- *)
(* f' failures counted so far, f before, mx the limit: the events ev with e
   exempt failures are accounted for, and reaching the limit disconnects *)
Definition tally (f f' mx : N) (r : rc) (ev : list event) (e : N) : Prop :=
  f < mx -> is32 mx ->
  f <= f' /\ f' <= mx /\
  countP is_failure ev <= f' - f + e /\ countP is_refusal ev <= f' - f + e /\
  (f' = mx -> goes_on r = false /\
     exists ev0, ev = ev0 ++ [EDisconnect DISC_NO_MORE_AUTH] /\ ~ In (EDisconnect DISC_NO_MORE_AUTH) ev0) /\
  (f' < mx -> ~ In (EDisconnect DISC_NO_MORE_AUTH) ev).

(* nothing is counted that was not a failure or an abandoned prompt *)
Definition b2n (b : bool) : N := if b then 1 else 0.
Definition fair (s s' : auth) (ev : list event) : Prop :=
  a_failures s' + b2n (a_pending s') <=
  a_failures s + b2n (a_pending s) + countP is_failure ev + countP is_prompt ev /\
  a_prompts s' = last_prompt (a_prompts s) ev.
(* what each event may be about: A the credentials the callback is asked about *)
Definition about (A : cred -> Prop) (U : bytes) (v : event) : Prop :=
  match v with ECallback u cr _ => u = U /\ A cr | EGranted u _ => u = U | _ => True end.

Lemma add32_le : forall a, add32 a 1 <= a + 1.
Proof. intros a. unfold add32, w32. apply N.mod_le. discriminate. Qed.

Definition granted (P : cred -> Prop) (U : bytes) (s s' : auth) (r : rc) (ev : list event) : Prop :=
  (a_client s' = a_client s /\ forall u c, ~ In (EGranted u c) ev)
  \/ (a_client s' = CLIENT_USERAUTH_DONE /\ r = WS_SUCCESS /\ exists cr mid,
        P cr /\ ev = ECallback U cr CbSuccess :: mid ++ [EGranted U cr] /\ Forall (eq (EResult true true)) mid).

Ltac proj := cbn [a_user a_authId a_requests a_failures a_max a_pending a_prompts a_client a_sid a_log a_ans
  set_user set_authId set_requests set_failures set_max set_pending set_prompts set_client set_ans log logs grant fst snd].

Ltac projs := cbn [a_user a_authId a_requests a_failures a_max a_pending a_prompts a_client a_sid a_log a_ans
  set_user set_authId set_requests set_failures set_max set_pending set_prompts set_client set_ans log logs grant fst snd] in *.

Ltac logeq := proj; rewrite <- ?app_assoc; cbn [app];
  first [ exact (eq_sym (app_nil_r _)) | reflexivity ].
Ltac noin := let H := fresh in cbn; intros H; repeat match goal with H : _ \/ _ |- _ => destruct H end; try discriminate; try contradiction.
Ltac users := repeat (apply Forall_cons; [cbn [about]; try (split; [reflexivity|]); auto|]); apply Forall_nil.
Ltac tallyt := let Hf := fresh "Hf" in let H3 := fresh "H3" in
  intros Hf H3; projs; cbv [countP is_failure is_refusal filter]; unfold lenN; cbn [Datatypes.length];
  rewrite ?add32_small in * by (unfold is32, W32 in *; lia);
  repeat match goal with |- _ /\ _ => split end; try lia;
  try (intros; exfalso; lia); try (intros; solve [noin]);
  try (match goal with c : cred |- _ => destruct c; cbn; lia end).
Ltac fairt := unfold fair; projs; cbv [countP is_failure is_prompt filter]; unfold lenN; cbn [Datatypes.length];
  try match goal with |- context [add32 ?a 1] => pose proof (add32_le a) end;
  try match goal with |- context [b2n (a_pending ?s)] => destruct (a_pending s) end; cbn [b2n]; (split; [lia|reflexivity]).
(* a state that grants nothing *)
Ltac leaf e := eexists; exists e; split; [logeq|]; split; [proj; auto 10|]; split; [users|];
  split; [left; proj; split; [reflexivity|intros ? ?; noin]|];
  split; [auto|]; split; [tallyt|fairt].
Ltac atmax pre := intros _; split; [reflexivity|]; exists pre; split; [reflexivity|noin].

(* X: the handler may leave one failure uncounted *)
Section Effect.
Variable X : Prop.
Definition effect (A P : cred -> Prop) (U : bytes) (s s' : auth) (r : rc) : Prop :=
  exists ev e,
    a_log s' = a_log s ++ ev /\
    (a_sid s' = a_sid s /\ a_max s' = a_max s /\ a_user s' = a_user s /\ a_requests s' = a_requests s /\
     a_authId s' = a_authId s) /\
    Forall (about A U) ev /\
    granted P U s s' r ev /\
    (e = 0 \/ (e = 1 /\ X /\ a_requests s = 1)) /\
    tally (a_failures s) (a_failures s') (a_max s) r ev e /\ fair s s' ev.

Lemma effect_quiet : forall A P U s s' r, s' = s \/ (exists an, s' = set_ans an s) \/
  (exists an, s' = set_ans an (set_pending false s)) \/ s' = set_pending false s ->
  effect A P U s s' r.
Proof.
  intros A P U s s' r [-> | [ (an & ->) | [ (an & ->) | -> ] ] ]; leaf 0.
Qed.

Lemma failcount_effect : forall A P U p cnt s s' r r', SendUserAuthFailureCount p cnt s = (s', r) ->
  (cnt = false -> X /\ a_requests s = 1) -> (r' = r \/ goes_on r' = false) ->
  effect A P U s s' r'.
Proof.
  intros A P U p cnt s s' r r' H Hc Hr. apply failcount_inv in H.
  destruct H as [(-> & an & ->) | [(-> & L & an & ->) | (-> & L & -> & an & ->)] ].
  - leaf 1.
  - leaf 0.
  - leaf 0. intros _. split; [destruct Hr as [-> | Hr]; [reflexivity|assumption]|].
    exists [EFailure p]. split; [reflexivity|noin].
Qed.

(* ---- the handlers -------------------------------------------------------- *)
Lemma finish_effect : forall (A P : cred -> Prop) user cr v i s s' r j s0,
  finish user cr v i s = HR s' r j ->
  (* s is s0 after the callback answered *)
  (exists res an, s = set_ans an (logs [ECallback user cr res] s0) /\
     v = verdict_of res /\ A cr /\ (res = CbSuccess -> P cr))
  \/ (s = s0 /\ v_fail v = true) ->
  effect A P user s0 s' r.
Proof.
  intros A P user cr v i s s' r j s0 H [(res & an & -> & -> & HA & HP) | (-> & Hv)].
  - unfold finish in H. destruct res; cbn [verdict_of v_fail v_part v_rej v_ret orb] in H.
    + injection H as <- <- <-. eexists; exists 0. split; [logeq|]. split; [proj; auto 10|]. split; [users|].
      split; [|split; [auto|split; [tallyt|fairt] ] ].
      right. proj. split; [reflexivity|]. split; [reflexivity|]. exists cr, []. split; [auto|]. split; [reflexivity|apply Forall_nil].
    + destruct (SendUserAuthFailureCount _ _ _) as [s1 r1] eqn:E. injection H as <- <- <-. apply failcount_inv in E.
      destruct E as [(D & _) | [(_ & L & an2 & ->) | (_ & L & -> & an2 & ->)] ]; [discriminate| |].
      * leaf 0.
      * leaf 0. intros _. split; [reflexivity|]. exists [ECallback user cr CbFailure; EFailure false]. split; [reflexivity|noin].
    + destruct (SendUserAuthFailureCount _ _ _) as [s1 r1] eqn:E. injection H as <- <- <-. apply failcount_inv in E.
      destruct E as [(D & _) | [(_ & L & an2 & ->) | (_ & L & -> & an2 & ->)] ]; [discriminate| |].
      * leaf 0.
      * leaf 0. intros _. split; [reflexivity|]. exists [ECallback user cr CbRejected; EFailure false]. split; [reflexivity|noin].
    + destruct (SendUserAuthFailureCount _ _ _) as [s1 r1] eqn:E. injection H as <- <- <-. apply failcount_inv in E.
      destruct E as [(D & _) | [(_ & L & an2 & ->) | (_ & L & -> & an2 & ->)] ]; [discriminate| |].
      * leaf 0.
      * leaf 0. intros _. split; [reflexivity|]. exists [ECallback user cr CbPartial; EFailure true]. split; [reflexivity|noin].
    + destruct (SendUserAuthFailureCount _ _ _) as [s1 r1] eqn:E. injection H as <- <- <-. apply failcount_inv in E.
      destruct E as [(D & _) | [(_ & L & an2 & ->) | (_ & L & -> & an2 & ->)] ]; [discriminate| |].
      * leaf 0.
      * leaf 0. intros _. split; [reflexivity|]. exists [ECallback user cr CbAnother; EFailure false]. split; [reflexivity|noin].
    + injection H as <- <- <-. leaf 0.
  - unfold finish in H. rewrite Hv in H. cbn [orb] in H.
    destruct (SendUserAuthFailureCount _ _ _) as [s1 r1] eqn:E. injection H as <- <- <-.
    eapply failcount_effect; [eassumption|discriminate|]. destruct (v_rej v); [right; reflexivity|left; reflexivity].
Qed.

Lemma effect_weaken : forall (A B P Q : cred -> Prop) U s s' r,
  (forall c, A c -> B c) -> (forall c, P c -> Q c) -> effect A P U s s' r -> effect B Q U s s' r.
Proof.
  intros A0 B P Q U s s' r HAB HPQ (ev & e & H1 & H2 & H3 & H4 & H5). exists ev, e.
  split; [assumption|]. split; [assumption|].
  split. { eapply Forall_impl; [|exact H3]. intros v. destruct v; cbn; intuition. }
  split; [|assumption].
  destruct H4 as [H4 | (D1 & D2 & cr & mid & C & D)]; [left; assumption|].
  right. split; [assumption|]. split; [assumption|]. exists cr, mid. auto.
Qed.

(* the same after an event that counts for nothing *)
Lemma effect_pre : forall (A P : cred -> Prop) U an e0 s s' r,
  effect A (fun _ => False) U (set_ans an (logs [e0] s)) s' r ->
  about A U e0 ->
  is_failure e0 = false -> is_refusal e0 = false -> is_prompt e0 = false -> (forall u c, e0 <> EGranted u c) ->
  e0 <> EDisconnect DISC_NO_MORE_AUTH ->
  effect A P U s s' r.
Proof.
  intros A P U an e0 s s' r (ev & e & H1 & H2 & H3 & H4 & H5 & H6 & H7) Hu Hf Hr Hp Hg Hd.
  exists (e0 :: ev), e. projs. split; [rewrite H1, <- app_assoc; reflexivity|]. split; [assumption|].
  split; [apply Forall_cons; assumption|]. split; [|split; [assumption|]].
  - left. destruct H4 as [(B1 & B) | (_ & _ & cr & mid & [] & _)]. projs. split; [assumption|].
    intros u c [E|E]; [eapply Hg; eassumption|eapply B; eassumption].
  - split.
    2: { revert H7. unfold fair, countP. projs. cbn [filter]. rewrite Hf, Hp.
         intros (H7 & H8). split; [assumption|]. rewrite H8. destruct e0; try discriminate Hp; reflexivity. }
    intros F1 F2. destruct (H6 F1 F2) as (T1 & T2 & T3 & T4 & T5 & T6).
    split; [assumption|]. split; [assumption|]. unfold countP in *. cbn [filter]. rewrite Hf, Hr.
    split; [assumption|]. split; [assumption|]. split.
    + intros E. destruct (T5 E) as (G & ev0 & -> & Hn). split; [assumption|]. exists (e0 :: ev0).
      split; [reflexivity|]. intros [E2|E2]; [contradiction|contradiction].
    + intros E [E2|E2]; [contradiction|apply (T6 E E2)].
Qed.

Lemma keyboard_effect : forall (A P : cred -> Prop) c user s s' r, A CrKbSetup -> SendUserAuthKeyboardRequest c user s = (s', r) ->
  effect A P user s s' r.
Proof.
  intros A P c user s s' r HA H. unfold SendUserAuthKeyboardRequest in H.
  destruct (c_cb c).
  - destruct (callback user CrKbSetup s) as [s1 [res n] ] eqn:E. apply callback_inv in E. destruct E as (an & ->).
    destruct res.
    + destruct (MAX_PROMPTS <? n).
      * injection H as <- <-. leaf 0.
      * destruct (send _ _) as [s2 r2] eqn:E2. apply send_inv in E2. destruct E2 as (an2 & ->).
        destruct r2; injection H as <- <-; leaf 0.
    + apply failcount_inv in H. destruct H as [(D & _) | [(_ & L & an2 & ->) | (_ & L & -> & an2 & ->)] ]; [discriminate| |].
      * leaf 0.
      * leaf 0. intros _. split; [reflexivity|]. exists [ECallback user CrKbSetup CbFailure; EFailure false]. split; [reflexivity|noin].
    + apply failcount_inv in H. destruct H as [(D & _) | [(_ & L & an2 & ->) | (_ & L & -> & an2 & ->)] ]; [discriminate| |].
      * leaf 0.
      * leaf 0. intros _. split; [reflexivity|]. exists [ECallback user CrKbSetup CbRejected; EFailure false]. split; [reflexivity|noin].
    + apply failcount_inv in H. destruct H as [(D & _) | [(_ & L & an2 & ->) | (_ & L & -> & an2 & ->)] ]; [discriminate| |].
      * leaf 0.
      * leaf 0. intros _. split; [reflexivity|]. exists [ECallback user CrKbSetup CbPartial; EFailure false]. split; [reflexivity|noin].
    + apply failcount_inv in H. destruct H as [(D & _) | [(_ & L & an2 & ->) | (_ & L & -> & an2 & ->)] ]; [discriminate| |].
      * leaf 0.
      * leaf 0. intros _. split; [reflexivity|]. exists [ECallback user CrKbSetup CbAnother; EFailure false]. split; [reflexivity|noin].
    + injection H as <- <-. leaf 0.
  - injection H as <- <-. apply effect_quiet. left; reflexivity.
Qed.

Lemma none_effect : X -> forall c user i s s' r j, DoUserAuthRequestNone c user i s = HR s' r j ->
  effect (fun cr => cr = CrNone) (fun cr => cr = CrNone) user s s' r.
Proof.
  intros HX c user i s s' r j H. unfold DoUserAuthRequestNone in H.
  set (cnt := negb (a_requests s =? 1)) in *.
  assert (Hc : cnt = false -> X /\ a_requests s = 1).
  { subst cnt. destruct (N.eqb_spec (a_requests s) 1); [auto|discriminate]. }
  clearbody cnt. destruct (c_cb c).
  - destruct (callback user CrNone s) as [s1 [res n] ] eqn:E. apply callback_inv in E. destruct E as (an & ->).
    assert (G : forall s2 r2 r3, SendUserAuthFailureCount false cnt (set_ans an (logs [ECallback user CrNone res] s)) = (s2, r2) ->
      (r3 = r2 \/ goes_on r3 = false) -> effect (fun cr => cr = CrNone) (fun cr => cr = CrNone) user s s2 r3).
    { intros s2 r2 r3 F Hr. apply failcount_inv in F.
      destruct F as [(-> & an2 & ->) | [(-> & L & an2 & ->) | (-> & L & -> & an2 & ->)] ].
      - specialize (Hc eq_refl). leaf 1; destruct res; cbn; lia.
      - leaf 0; destruct res; cbn; lia.
      - leaf 0; try (destruct res; cbn; lia). intros _.
        split; [destruct Hr as [-> | Hr]; [reflexivity|assumption]|].
        exists [ECallback user CrNone res; EFailure false]. split; [reflexivity|noin]. }
    destruct res.
    + injection H as <- <- <-. eexists; exists 0. split; [logeq|]. split; [proj; auto 10|]. split; [users|].
      split; [|split; [auto|split; [tallyt|fairt] ] ]. right. proj. split; [reflexivity|]. split; [reflexivity|].
      exists CrNone, []. split; [auto|]. split; [reflexivity|apply Forall_nil].
    + destruct (SendUserAuthFailureCount _ _ _) as [s2 r2] eqn:F. injection H as <- <- <-. eapply G; [reflexivity|auto].
    + destruct (SendUserAuthFailureCount _ _ _) as [s2 r2] eqn:F. cbn [fst] in H. injection H as <- <- <-. eapply G; [reflexivity|auto].
    + destruct (SendUserAuthFailureCount _ _ _) as [s2 r2] eqn:F. injection H as <- <- <-. eapply G; [reflexivity|auto].
    + destruct (SendUserAuthFailureCount _ _ _) as [s2 r2] eqn:F. injection H as <- <- <-. eapply G; [reflexivity|auto].
    + injection H as <- <- <-. leaf 0.
  - destruct (SendUserAuthFailureCount _ _ _) as [s2 r2] eqn:F. cbn [fst] in H. injection H as <- <- <-.
    eapply failcount_effect; [eassumption|assumption|auto].
Qed.

Lemma password_effect : forall c user buf len i s s' r j,
  DoUserAuthRequestPassword c user buf len i s = HR s' r j ->
  let P cr := exists pw k1 k2, cr = CrPassword pw /\
            GetBoolean buf len i = POk 0 k1 /\ GetStr buf len k1 = POk pw k2 in
  effect P P user s s' r.
Proof.
  intros c user buf len i s s' r j H P. unfold DoUserAuthRequestPassword in H.
  destruct (len =? 0).
  { injection H as <- <- <-. apply effect_quiet; auto. }
  destruct (GetBoolean buf len i) as [hn k1|e k1|] eqn:E1; cbn [pbind] in H;
    [|injection H as <- <- <-; apply effect_quiet; auto|discriminate].
  destruct (GetStr buf len k1) as [pw k2|e k2|] eqn:E2; cbn [pbind] in H;
    [|injection H as <- <- <-; apply effect_quiet; auto|discriminate].
  destruct (N.eqb_spec hn 0) as [->|Hn].
  - destruct (c_cb c).
    + destruct (callback _ _ _) as [s1 [res n] ] eqn:E. apply callback_inv in E. destruct E as (an & ->).
      eapply finish_effect; [exact H|]. left. exists res, an. split; [reflexivity|]. split; [reflexivity|].
      split; [|intros _]; exists pw, k1, k2; auto.
    + eapply finish_effect; [exact H|]. right. auto.
  - destruct (GetStr buf len k2) as [np k3|e k3|] eqn:E3; cbn [pbind] in H;
      [|injection H as <- <- <-; apply effect_quiet; auto|discriminate].
    eapply finish_effect; [exact H|]. right. auto.
Qed.

Lemma info_effect : forall c buf len i s s' r j,
  DoUserAuthInfoResponse c buf len i s = HR s' r j ->
  let user := match a_user s with Some u => u | None => [] end in
  let P cr := exists rs k1 k2, cr = CrKbResponse rs /\ a_authId s = ID_USERAUTH_KEYBOARD /\
            GetUint32 buf len i = POk (a_prompts s) k1 /\
            get_strs (N.to_nat (a_prompts s)) buf len k1 = POk rs k2 in
  effect (fun cr => P cr \/ cr = CrKbSetup) P user s s' r.
Proof.
  intros c buf len i s s' r j H user P. unfold DoUserAuthInfoResponse in H.
  destruct (len =? 0). { injection H as <- <- <-. apply effect_quiet; auto. }
  destruct (N.eqb_spec (a_authId s) ID_USERAUTH_KEYBOARD) as [Ha|Ha]; cbn [negb] in H;
    [|injection H as <- <- <-; apply effect_quiet; auto].
  set (s1 := set_pending false s) in *.
  assert (Q : forall A P s2 r2, effect A P user s1 s2 r2 -> effect A P user s s2 r2) by (intros A0 P0 s2 r2 (ev & e & Y1 & Y2 & Y3 & Y4 & Y5 & Y6 & Y7); exists ev, e;
    split; [exact Y1|]; split; [exact Y2|]; split; [exact Y3|]; split; [exact Y4|]; split; [exact Y5|];
    split; [exact Y6|]; revert Y7; unfold fair; subst s1; proj; cbn [b2n]; lia).
  change (match a_user s1 with Some u => u | None => [] end) with user in H.
  destruct (GetUint32 buf len i) as [n k1|e k1|] eqn:E1;
    [|injection H as <- <- <-; apply effect_quiet; auto|discriminate].
  change (a_prompts s1) with (a_prompts s) in H.
  destruct (N.eqb_spec (a_prompts s) n) as [<-|Hn]; cbn [negb] in H.
  - destruct (get_strs _ buf len k1) as [rs k2|e k2|] eqn:E2;
      [|injection H as <- <- <-; apply effect_quiet; auto|discriminate].
    destruct (c_cb c).
    + destruct (callback _ _ _) as [s2 [res n2] ] eqn:E. apply callback_inv in E. destruct E as (an & ->).
      destruct res;
        try (apply Q; eapply finish_effect; [exact H|]; left; eexists; exists an; split; [reflexivity|]; split; [reflexivity|];
             (split; [left|intros]; exists rs, k1, k2; auto)).
      destruct (SendUserAuthKeyboardRequest _ _ _) as [s3 r3] eqn:E3. injection H as <- <- <-. apply Q.
      eapply effect_pre; [eapply keyboard_effect; [right; reflexivity|exact E3]| | | | | |]; cbn; auto; try discriminate.
      split; [reflexivity|left; exists rs, k1, k2; auto].
    + apply Q. eapply finish_effect; [exact H|]. right. auto.
  - apply Q. eapply finish_effect; [exact H|]. right. auto.
Qed.

(* the verifiers *)
Definition pk_fact (x : crypto) (sid buf : bytes) (len i : N) (cr : cred) : Prop :=
  exists flag algo blob sig k msg u k2, cr = CrKey flag algo blob sig /\ flag <> 0 /\
    get_pk buf len i = POk (flag, algo, blob, sig) k /\
    signed_data sid buf len sig = Some msg /\
    NameToId algo <> ID_UNKNOWN /\
    VerifyUser x (NameToId algo) algo blob sig msg = POk u k2.

Definition pk_asked (buf : bytes) (len i : N) (cr : cred) : Prop :=
  exists flag algo blob sig k, cr = CrKey flag algo blob sig /\ get_pk buf len i = POk (flag, algo, blob, sig) k.

Lemma pk_effect : forall c x user buf len i s s' r j,
  DoUserAuthRequestPublicKey c x user buf len i s = HR s' r j ->
  effect (pk_asked buf len i) (pk_fact x (a_sid s) buf len i) user s s' r.
Proof.
  intros c x user buf len i s s' r j H. unfold DoUserAuthRequestPublicKey in H.
  destruct (len =? 0). { injection H as <- <- <-. apply effect_quiet; auto. }
  destruct (get_pk buf len i) as [ [ [ [flag algo] blob] sig] k|e k|] eqn:E1;
    [|injection H as <- <- <-; apply effect_quiet; auto|discriminate].
  destruct (check_pk flag blob sig) as [u0 k0|e k0|] eqn:E2;
    [|injection H as <- <- <-; apply effect_quiet; auto|discriminate].
  cbv zeta in H.
  assert (F : forall A P s0 s1 s2 r2 j2, (s1 = s0 \/ exists an v ok, s1 = set_ans an (logs [EResult v ok] s0)) ->
    (let '(s, r) := SendUserAuthFailureCount false true s1 in HR s r k) = HR s2 r2 j2 -> effect A P user s0 s2 r2).
  { intros A P s0 s1 s2 r2 j2 Hs G. destruct (SendUserAuthFailureCount false true s1) as [s3 r3] eqn:E3. injection G as <- <- <-.
    destruct Hs as [-> | (an & v & ok & ->)].
    - eapply failcount_effect; [eassumption|discriminate|auto].
    - apply effect_pre with (an := an) (e0 := EResult v ok); try (cbn; auto; discriminate).
      eapply failcount_effect; [eassumption|discriminate|auto]. }
  destruct (_ || _) eqn:Eid in H. { eapply F; [|exact H]; auto. }
  apply orb_false_iff in Eid. destruct Eid as (Eid & _). apply N.eqb_neq in Eid.
  destruct (c_cb c); cbn [negb] in H; [|eapply F; [|exact H]; auto].
  destruct (callback _ _ _) as [s1 [res n] ] eqn:E. apply callback_inv in E. destruct E as (an & ->).
  set (cr := CrKey flag algo blob sig) in *.
  assert (HA : pk_asked buf len i cr) by (exists flag, algo, blob, sig, k; auto).
  assert (F2 : forall P s1 s2 r2 r3, (res = CbFailure \/ res = CbAnother \/ res = CbRejected \/ res = CbPartial \/ res = CbSuccess) ->
    (s1 = set_ans an (logs [ECallback user cr res] s) \/
     exists an2 v ok, s1 = set_ans an2 (logs [EResult v ok] (set_ans an (logs [ECallback user cr res] s)))) ->
    (r3 = r2 \/ goes_on r3 = false) -> forall p, SendUserAuthFailureCount p true s1 = (s2, r2) -> effect (pk_asked buf len i) P user s s2 r3).
  { intros P s1 s2 r2 r3 Hres Hs Hr p G. apply failcount_inv in G.
    destruct G as [(D & _) | [(_ & L & an3 & ->) | (_ & L & -> & an3 & ->)] ]; [discriminate| |].
    - destruct Hs as [-> | (an2 & v & ok & ->)]; subst cr;
        leaf 0; destruct Hres as [-> |[-> |[-> |[-> | ->] ] ] ]; cbn; lia.
    - assert (G3 : goes_on r3 = false) by (destruct Hr as [-> | Hr]; [reflexivity|assumption]).
      destruct Hs as [-> | (an2 & v & ok & ->)]; subst cr; leaf 0;
        try (destruct Hres as [-> |[-> |[-> |[-> | ->] ] ] ]; cbn; lia).
      + intros _. split; [assumption|]. eexists [_; _]. split; [reflexivity|noin].
      + intros _. split; [assumption|]. eexists [_; _; _]. split; [reflexivity|noin]. }
  assert (Fs : forall P s1 r2 r3 s2 j2, (res = CbFailure \/ res = CbAnother \/ res = CbRejected \/ res = CbPartial \/ res = CbSuccess) ->
    (s1 = set_ans an (logs [ECallback user cr res] s) \/
     exists an2 v ok, s1 = set_ans an2 (logs [EResult v ok] (set_ans an (logs [ECallback user cr res] s)))) ->
    r3 = r2 -> forall p, (let '(s, r) := SendUserAuthFailureCount p true s1 in HR s r k) = HR s2 r2 j2 -> effect (pk_asked buf len i) P user s s2 r3).
  { intros P s1 r2 r3 s2 j2 Hres Hs -> p G. destruct (SendUserAuthFailureCount p true s1) as [s3 r4] eqn:E4.
    injection G as <- <- <-. eapply F2; [exact Hres|exact Hs|left; reflexivity|exact E4]. }
  assert (Ver : res = CbSuccess \/ res = CbPartial ->
    (if flag =? 0 then let '(s, r) := send (EPkOk algo blob) (set_ans an (logs [ECallback user cr res] s)) in HR s r k
     else match signed_data (a_sid (set_ans an (logs [ECallback user cr res] s))) buf len sig with
          | None => HOob
          | Some msg =>
            match VerifyUser x (NameToId algo) algo blob sig msg with
            | POob => HOob
            | PErr _ _ => let '(s, r) := SendUserAuthFailureCount false true
                   (if c_rcb c then fst (result_cb false (set_ans an (logs [ECallback user cr res] s)))
                    else (set_ans an (logs [ECallback user cr res] s))) in HR s r k
            | POk _ _ =>
              let '(s, ok) := if c_rcb c then result_cb true (set_ans an (logs [ECallback user cr res] s))
                              else (set_ans an (logs [ECallback user cr res] s), true) in
              if negb ok then let '(s, r) := SendUserAuthFailureCount false true s in HR s r k
              else if match res with CbPartial => true | _ => false end then
                let '(s, r) := SendUserAuthFailureCount true true s in HR s r k
              else HR (grant user cr s) WS_SUCCESS k
            end
          end) = HR s' r j -> effect (pk_asked buf len i) (pk_fact x (a_sid s) buf len i) user s s' r).
  { clear H. intros Hres G.
    assert (Hres5 : res = CbFailure \/ res = CbAnother \/ res = CbRejected \/ res = CbPartial \/ res = CbSuccess) by tauto.
    destruct (N.eqb_spec flag 0) as [Hz|Hz].
    - destruct (send _ _) as [s2 r2] eqn:E3. apply send_inv in E3. destruct E3 as (an2 & ->). injection G as <- <- <-.
      subst cr. leaf 0; destruct Hres as [-> | ->]; cbn; lia.
    - change (a_sid (set_ans an (logs [ECallback user cr res] s))) with (a_sid s) in G.
      destruct (signed_data (a_sid s) buf len sig) as [msg|] eqn:E3; [|discriminate].
      destruct (VerifyUser _ _ _ _ _ _) as [uu k2|e k2|] eqn:E4; [| |discriminate].
      + destruct (if c_rcb c then _ else _) as [s2 ok] eqn:E5.
        assert (Hs2 : ok = true /\ s2 = set_ans an (logs [ECallback user cr res] s) \/
                      exists an2, s2 = set_ans an2 (logs [EResult true ok] (set_ans an (logs [ECallback user cr res] s)))).
        { destruct (c_rcb c); [right; apply result_inv; assumption|left; injection E5 as <- <-; auto]. }
        assert (Hs2' : s2 = set_ans an (logs [ECallback user cr res] s) \/
             exists an2 v ok, s2 = set_ans an2 (logs [EResult v ok] (set_ans an (logs [ECallback user cr res] s)))).
        { destruct Hs2 as [(_ & ->) | (an2 & ->)]; [left; reflexivity|right; eexists; eexists; eexists; reflexivity]. }
        destruct ok; cbn [negb] in G.
        * destruct Hres as [-> | ->].
          -- injection G as <- <- <-.
             assert (PF : pk_fact x (a_sid s) buf len i cr).
             { exists flag, algo, blob, sig, k, msg, uu, k2. auto 10. }
             clear F F2 Fs.
             destruct Hs2 as [(_ & ->) | (an2 & ->)].
             ++ eexists; exists 0. split; [logeq|]. split; [proj; auto 10|]. split; [users|].
                split; [|split; [auto|subst cr; split; [tallyt|fairt] ] ]. right. proj. split; [reflexivity|]. split; [reflexivity|].
                exists cr, []. split; [assumption|]. split; [reflexivity|apply Forall_nil].
             ++ eexists; exists 0. split; [logeq|]. split; [proj; auto 10|]. split; [users|].
                split; [|split; [auto|subst cr; split; [tallyt|fairt] ] ]. right. proj. split; [reflexivity|]. split; [reflexivity|].
                exists cr, [EResult true true]. split; [assumption|]. split; [reflexivity|repeat constructor].
          -- eapply Fs; [auto|exact Hs2'|reflexivity|exact G].
        * eapply Fs; [exact Hres5|exact Hs2'|reflexivity|exact G].
      + eapply Fs; [exact Hres5| |reflexivity|exact G]. destruct (c_rcb c); [|left; reflexivity].
        right. destruct (result_cb false (set_ans an (logs [ECallback user cr res] s))) as [s2 ok] eqn:E5. apply result_inv in E5. destruct E5 as (an2 & ->).
        exists an2, false, ok. reflexivity. }
  destruct res.
  - apply Ver; [auto|exact H].
  - eapply Fs; [auto|left; reflexivity|reflexivity|exact H].
  - destruct (SendUserAuthFailureCount _ _ _) as [s2 r2] eqn:E4. cbn [fst] in H. injection H as <- <- <-.
    eapply F2; [auto|left; reflexivity|right; reflexivity|exact E4].
  - apply Ver; [auto|exact H].
  - eapply Fs; [auto|left; reflexivity|reflexivity|exact H].
  - injection H as <- <- <-. subst cr. clear -HA. leaf 0.
Qed.
End Effect.
