(* AuthProps2.v - C10 for keyboard-interactive: prompts that are asked for and
   then abandoned count against the limit. *)
From Verif Require Import Base WireModel WireSpec WireProofs NameTable NegoModel NegoSpec NegoProofs
  AuthModel AuthSpec AuthProofs AuthStep AuthProps.
From Coq Require Import List NArith ZArith Lia Bool String.
Import ListNotations.
Open Scope N_scope.
Local Notation "a ++ b" := (@app _ a b) : list_scope.

Definition asks (s : auth) : N := countP is_prompt (a_log s).
Definition one_more (f f' : N) : Prop := f' = f \/ f' = add32 f 1.

(* no prompt, the pending mark kept, at most one failure counted *)
Definition tame (s s' : auth) : Prop :=
  asks s' = asks s /\ a_pending s' = a_pending s /\ one_more (a_failures s) (a_failures s').

Lemma asks_logs : forall ev s, existsb is_prompt ev = false -> countP is_prompt (a_log s ++ ev) = asks s.
Proof.
  intros ev s H. unfold asks, countP. rewrite filter_app, lenN_app.
  assert (E : filter is_prompt ev = []).
  { induction ev as [|e ev IH]; [reflexivity|]. cbn in *. apply orb_false_iff in H. destruct H as (-> & H). auto. }
  rewrite E. unfold lenN. cbn. lia.
Qed.
Ltac tamet := unfold tame, one_more, asks in *; projs; rewrite <- ?app_assoc; rewrite ?asks_logs by reflexivity; unfold asks; auto.

Lemma failcount_tame : forall p cnt s s' r, SendUserAuthFailureCount p cnt s = (s', r) -> tame s s'.
Proof.
  intros p cnt s s' r H. apply failcount_inv in H.
  destruct H as [(_ & an & ->) | [(_ & _ & an & ->) | (_ & _ & _ & an & ->)] ]; tamet.
Qed.
Lemma tame_refl : forall s, tame s s.
Proof. intros s. tamet. Qed.
(* the same after events that are no prompts *)
Lemma tame_after : forall s ev an s', existsb is_prompt ev = false -> tame (set_ans an (logs ev s)) s' -> tame s s'.
Proof. intros s ev an s' H. unfold tame, asks. projs. rewrite asks_logs by assumption. auto. Qed.
Lemma tame_grant : forall u cr s s', tame s s' -> tame s (grant u cr s').
Proof. intros u cr s s'. unfold tame, asks, grant. projs. rewrite asks_logs by reflexivity. auto. Qed.
Lemma tame_logs : forall s ev an, existsb is_prompt ev = false -> tame s (set_ans an (logs ev s)).
Proof. intros s ev an H. apply tame_after with (ev := ev) (an := an); [assumption|apply tame_refl]. Qed.

Lemma finish_tame : forall u cr v i s s' r j, finish u cr v i s = HR s' r j -> tame s s'.
Proof.
  intros u cr v i s s' r j H. unfold finish in H. destruct (v_fail v || v_part v).
  - destruct (SendUserAuthFailureCount _ _ _) as [s1 r1] eqn:E. injection H as <- _ _. eapply failcount_tame; eassumption.
  - destruct (v_ret v); injection H as <- _ _; try apply tame_refl. apply tame_grant, tame_refl.
Qed.

Lemma none_tame : forall c user i s s' r j, DoUserAuthRequestNone c user i s = HR s' r j -> tame s s'.
Proof.
  intros c user i s s' r j H. unfold DoUserAuthRequestNone in H. destruct (c_cb c).
  - destruct (callback _ _ _) as [s1 [res n] ] eqn:E. apply callback_inv in E. destruct E as (an & ->).
    apply tame_after with (ev := [ECallback user CrNone res]) (an := an); [reflexivity|].
    destruct res; try (destruct (SendUserAuthFailureCount _ _ _) as [s2 r2] eqn:F; cbn [fst] in H; injection H as <- _ _;
      eapply failcount_tame; eassumption); injection H as <- _ _; [apply tame_grant|]; apply tame_refl.
  - destruct (SendUserAuthFailureCount _ _ _) as [s2 r2] eqn:F. cbn [fst] in H. injection H as <- _ _.
    eapply failcount_tame; eassumption.
Qed.

Lemma password_tame : forall c user buf len i s s' r j,
  DoUserAuthRequestPassword c user buf len i s = HR s' r j -> tame s s'.
Proof.
  intros c user buf len i s s' r j H. unfold DoUserAuthRequestPassword in H.
  destruct (len =? 0); [injection H as <- _ _; apply tame_refl|].
  match type of H with match ?p with _ => _ end = _ => destruct p as [ [ [|] pw] k|e k|] end;
    [|destruct (c_cb c)|injection H as <- _ _; apply tame_refl|discriminate]; try (eapply finish_tame; eassumption).
  destruct (callback _ _ _) as [s1 [res n] ] eqn:E. apply callback_inv in E. destruct E as (an & ->).
  apply finish_tame in H. eapply tame_after; [|exact H]. reflexivity.
Qed.

Lemma pk_tame : forall c x user buf len i s s' r j,
  DoUserAuthRequestPublicKey c x user buf len i s = HR s' r j -> tame s s'.
Proof.
  intros c x user buf len i s s' r j H. unfold DoUserAuthRequestPublicKey in H.
  destruct (len =? 0); [injection H as <- _ _; apply tame_refl|].
  destruct (get_pk buf len i) as [ [ [ [hs algo] blob] sig] k|e k|]; [|injection H as <- _ _; apply tame_refl|discriminate].
  destruct (check_pk hs blob sig) as [u k2|e k2|]; [|injection H as <- _ _; apply tame_refl|discriminate].
  cbv zeta in H.
  assert (FF : forall s0 s1 r1, (let '(s, r) := SendUserAuthFailureCount false true s0 in HR s r k) = HR s1 r1 j -> tame s0 s1).
  { intros s0 s1 r1 F. destruct (SendUserAuthFailureCount false true s0) as [s2 r2] eqn:E. injection F as <- _ _. eapply failcount_tame; eassumption. }
  destruct (_ || _); [eapply FF; eassumption|]. destruct (negb (c_cb c)); [eapply FF; eassumption|].
  destruct (callback _ _ _) as [s1 [res n] ] eqn:E. apply callback_inv in E. destruct E as (an & ->).
  eapply (tame_after s [ECallback user (CrKey hs algo blob sig) res] an); [reflexivity|].
  set (s0 := set_ans an _) in *. clearbody s0.
  assert (M : forall partial : bool,
    (if hs =? 0 then let '(s, r) := send (EPkOk algo blob) s0 in HR s r k
     else match signed_data (a_sid s0) buf len sig with
          | None => HOob
          | Some msg =>
            match VerifyUser x (NameToId algo) algo blob sig msg with
            | POob => HOob
            | PErr _ _ => let '(s, r) := SendUserAuthFailureCount false true (if c_rcb c then fst (result_cb false s0) else s0) in HR s r k
            | POk _ _ =>
              let '(s, ok) := if c_rcb c then result_cb true s0 else (s0, true) in
              if negb ok then let '(s, r) := SendUserAuthFailureCount false true s in HR s r k
              else if partial then
                let '(s, r) := SendUserAuthFailureCount true true s in HR s r k
              else HR (grant user (CrKey hs algo blob sig) s) WS_SUCCESS k
            end
          end) = HR s' r j -> tame s0 s').
  { clear H. intros partial H. destruct (hs =? 0).
    { destruct (send _ _) as [s1 r1] eqn:E. apply send_inv in E. destruct E as (an1 & ->). injection H as <- _ _. apply tame_logs. reflexivity. }
    destruct (signed_data _ _ _ _) as [msg|]; [|discriminate].
    destruct (VerifyUser _ _ _ _ _ _) as [u0 k3|e k3|]; [| |discriminate].
    - destruct (c_rcb c).
      + destruct (result_cb true s0) as [s1 ok] eqn:E. apply result_inv in E. destruct E as (an1 & ->).
        eapply (tame_after s0 [EResult true ok] an1); [reflexivity|].
        destruct (negb ok); [eapply FF; eassumption|]. destruct partial.
        * destruct (SendUserAuthFailureCount _ _ _) as [s2 r2] eqn:F. injection H as <- _ _. eapply failcount_tame; eassumption.
        * injection H as <- _ _. apply tame_grant, tame_refl.
      + cbn [negb] in H. destruct partial.
        * destruct (SendUserAuthFailureCount _ _ _) as [s2 r2] eqn:F. injection H as <- _ _. eapply failcount_tame; eassumption.
        * injection H as <- _ _. apply tame_grant, tame_refl.
    - destruct (c_rcb c); [|eapply FF; eassumption].
      destruct (result_cb false s0) as [s1 ok] eqn:E. apply result_inv in E. destruct E as (an1 & ->). cbn [fst] in H.
      eapply (tame_after s0 [EResult false ok] an1); [reflexivity|]. eapply FF; eassumption. }
  destruct res.
  - apply (M false). exact H.
  - eapply FF; eassumption.
  - destruct (SendUserAuthFailureCount _ _ _) as [s2 r2] eqn:F. cbn [fst] in H. injection H as <- _ _. eapply failcount_tame; eassumption.
  - apply (M true). exact H.
  - eapply FF; eassumption.
  - injection H as <- _ _. apply tame_refl.
Qed.

(* wolfSSH_SendPacket never answers WS_WANT_READ or WS_AUTH_PENDING *)
Definition send_ok (r : rc) : bool := match r with WS_WANT_READ | WS_AUTH_PENDING => false | _ => true end.
Definition ans_ok (a : answers) : Prop := Forall (fun r => send_ok r = true) (an_send a).
Lemma send_ans : forall e s s' r, send e s = (s', r) -> ans_ok (a_ans s) -> send_ok r = true /\ ans_ok (a_ans s').
Proof.
  intros e s s' r H A. unfold send, ans_ok in *. change (a_ans (log e s)) with (a_ans s) in H.
  destruct (an_send (a_ans s)) as [|q t] eqn:E; injection H as <- <-.
  - split; [reflexivity|]. cbn. rewrite E. constructor.
  - cbn. inversion A; auto.
Qed.
Lemma callback_ans : forall u c s s' r, callback u c s = (s', r) -> ans_ok (a_ans s) -> ans_ok (a_ans s').
Proof.
  intros u c s s' r H A. unfold callback in H. destruct (an_cb (a_ans s)) as [|q t]; injection H as <- <-; exact A.
Qed.
Lemma count_ans : forall s s' r, CountUserAuthFailure s = (s', r) -> ans_ok (a_ans s) -> ans_ok (a_ans s').
Proof.
  intros s s' r H A. unfold CountUserAuthFailure in H.
  match type of H with (if ?b then _ else _) = _ => destruct b end.
  - destruct (send _ _) as [s1 r1] eqn:E. cbn [fst] in H. injection H as <- <-. eapply send_ans in E; [apply E|exact A].
  - injection H as <- <-. exact A.
Qed.

(* What a prompt costs: it is pending, or the connection is over. *)
Definition stop (r : rc) : N := if goes_on r then 0 else 1.
Lemma keyboard_asks : forall c user s s' r, SendUserAuthKeyboardRequest c user s = (s', r) -> a_pending s = false -> ans_ok (a_ans s) ->
  asks s' <= asks s + b2n (a_pending s') + stop r /\ one_more (a_failures s) (a_failures s').
Proof.
  intros c user s s' r H Hp Ha. unfold SendUserAuthKeyboardRequest in H. destruct (c_cb c).
  2:{ injection H as <- <-. split; [lia|left; reflexivity]. }
  destruct (callback _ _ _) as [s1 [res n] ] eqn:E. pose proof (callback_ans _ _ _ _ _ E Ha) as Ha1.
  apply callback_inv in E. destruct E as (an & ->).
  assert (FF : forall s0, asks s0 = asks s -> a_pending s0 = false -> a_failures s0 = a_failures s ->
    SendUserAuthFailureCount false true s0 = (s', r) ->
    asks s' <= asks s + b2n (a_pending s') + stop r /\ one_more (a_failures s) (a_failures s')).
  { intros s0 A B C F. apply failcount_tame in F. destruct F as (F1 & F2 & F3). rewrite F1, A, <- C. split; [lia|exact F3]. }
  assert (A0 : asks (set_pending false (set_ans an (logs [ECallback user CrKbSetup res] s))) = asks s).
  { unfold asks. projs. apply asks_logs. reflexivity. }
  destruct res; try (eapply FF; [| | |exact H]; [exact A0|reflexivity|reflexivity]).
  - destruct (MAX_PROMPTS <? n); [injection H as <- <-|].
    + split; [|left; reflexivity]. unfold asks at 1. projs. rewrite asks_logs by reflexivity. lia.
    + destruct (send _ _) as [s2 r2] eqn:E2. pose proof (send_ans _ _ _ _ E2 Ha1) as (Ha2 & _). apply send_inv in E2. destruct E2 as (an2 & ->).
      assert (Q : asks (set_ans an2 (logs [EInfoRequest n] (set_prompts n (set_ans an (logs [ECallback user CrKbSetup CbSuccess] s)))))
                  = asks s + 1).
      { unfold asks at 1. projs. rewrite <- app_assoc. unfold asks, countP. rewrite filter_app, lenN_app. reflexivity. }
      assert (G : (s' = set_pending true (set_ans an2 (logs [EInfoRequest n] (set_prompts n (set_ans an (logs [ECallback user CrKbSetup CbSuccess] s))))))
               \/ (s' = set_ans an2 (logs [EInfoRequest n] (set_prompts n (set_ans an (logs [ECallback user CrKbSetup CbSuccess] s)))) /\
                   goes_on r = false)).
      { destruct r2; injection H as <- <-; auto; discriminate Ha2. }
      destruct G as [-> | (-> & G)].
      * split; [|left; reflexivity]. change (asks (set_pending true ?z)) with (asks z). rewrite Q. cbn. lia.
      * split; [|left; reflexivity]. rewrite Q. unfold stop. rewrite G. lia.
  - injection H as <- <-. split; [|left; reflexivity]. rewrite A0. lia.
Qed.

Definition is_info (p : amsg * answers) : bool := match fst p with MInfoResponse _ => true | _ => false end.
(* prompts so far, less what has been paid for them *)
Definition owes (s s' : auth) (extra : N) : Prop :=
  asks s' + a_failures s + b2n (a_pending s) <= asks s + a_failures s' + b2n (a_pending s') + extra.

Lemma tame_owes : forall s s' n, a_failures s < a_max s -> is32 (a_max s) -> tame s s' -> owes s s' n.
Proof.
  intros s s' n F M (A & B & [C|C]); unfold owes; rewrite A, B, C; [lia|].
  rewrite add32_small by (unfold is32, W32 in *; lia). lia.
Qed.

Lemma Dispatch_owes : forall c x user name buf len i s s' r j, Dispatch c x user name buf len i s = HR s' r j ->
  a_failures s < a_max s -> is32 (a_max s) -> ans_ok (a_ans s) -> (c_kb c = false -> a_pending s = false) ->
  owes s s' (stop r) /\ (c_kb c = false -> a_pending s' = false).
Proof.
  intros c x user name buf len i s0 s' r j H F M A K. unfold Dispatch in H.
  set (id := NameToId name) in *. clearbody id.
  set (s := set_requests (add32 (a_requests s0) 1) (set_authId id s0)) in *.
  assert (Es : asks s = asks s0 /\ a_failures s = a_failures s0 /\ a_pending s = a_pending s0 /\ a_max s = a_max s0 /\ a_ans s = a_ans s0)
    by (repeat split; reflexivity).
  destruct Es as (E1 & E2 & E3 & E4 & E5). unfold owes. rewrite <- E1, <- E2, <- E3. rewrite <- E2, <- E4 in F. rewrite <- E4 in M.
  rewrite <- E5 in A. rewrite <- E3 in K. clearbody s. clear E1 E2 E3 E4 E5 s0.
  fold (owes s s' (stop r)).
  destruct (c_kb c && a_pending s) eqn:Ek.
  - apply andb_true_iff in Ek. destruct Ek as (Ek & Ep).
    destruct (CountUserAuthFailure (set_pending false s)) as [s1 r1] eqn:E.
    pose proof (count_ans _ _ _ E A) as A1. apply count_inv in E. projs.
    rewrite add32_small in E by (unfold is32, W32 in *; lia).
    destruct E as [(L & -> & an & ->)|(L & -> & ->)].
    + injection H as <- <- <-. split; [|congruence]. unfold owes. unfold asks at 1. projs. rewrite asks_logs by reflexivity. rewrite Ep. cbn [b2n]. lia.
    + set (s1 := set_failures (a_failures s + 1) (set_pending false s)) in *.
      assert (T : tame s1 s' -> owes s s' (stop r) /\ (c_kb c = false -> a_pending s' = false)).
      { intros T. split; [|congruence]. apply (tame_owes _ _ (stop r)) in T; [|subst s1; projs; assumption|exact M].
        unfold owes in *. subst s1. unfold asks in *. projs. rewrite Ep. cbn [b2n] in *. lia. }
      destruct (id =? ID_USERAUTH_PASSWORD); [apply T; eapply password_tame; eassumption|].
      destruct (c_kb c && (id =? ID_USERAUTH_KEYBOARD)).
      { destruct (SendUserAuthKeyboardRequest _ _ _) as [s2 r2] eqn:E. injection H as <- <- <-.
        apply keyboard_asks in E; [|reflexivity|exact A1]. destruct E as (E & Ef). split; [|congruence].
        unfold owes. rewrite Ep. cbn [b2n]. subst s1. unfold asks in *. projs.
        destruct Ef as [->| ->]; rewrite ?add32_small by (unfold is32, W32 in *; lia); lia. }
      destruct (id =? ID_USERAUTH_PUBLICKEY); [apply T; eapply pk_tame; eassumption|].
      destruct (c_none c && (id =? ID_NONE)); [apply T; eapply none_tame; eassumption|].
      destruct (SendUserAuthFailureCount _ _ _) as [s2 r2] eqn:E. injection H as <- <- <-. apply T. eapply failcount_tame; eassumption.
  - assert (Ep : c_kb c = true -> a_pending s = false) by (intros X; rewrite X in Ek; exact Ek).
    assert (T : tame s s' -> owes s s' (stop r) /\ (c_kb c = false -> a_pending s' = false)).
    { intros T. split; [apply tame_owes; assumption|]. intros X. destruct T as (_ & -> & _). auto. }
    destruct (id =? ID_USERAUTH_PASSWORD); [apply T; eapply password_tame; eassumption|].
    destruct (c_kb c) eqn:Ec; cbn [andb] in H.
    + destruct (id =? ID_USERAUTH_KEYBOARD).
      { destruct (SendUserAuthKeyboardRequest _ _ _) as [s2 r2] eqn:E. injection H as <- <- <-.
        apply keyboard_asks in E; [|auto|exact A]. destruct E as (E & Ef). split; [|congruence].
        unfold owes. rewrite Ep by reflexivity. cbn [b2n].
        destruct Ef as [->| ->]; rewrite ?add32_small by (unfold is32, W32 in *; lia); lia. }
      destruct (id =? ID_USERAUTH_PUBLICKEY); [apply T; eapply pk_tame; eassumption|].
      destruct (c_none c && (id =? ID_NONE)); [apply T; eapply none_tame; eassumption|].
      destruct (SendUserAuthFailureCount _ _ _) as [s2 r2] eqn:E. injection H as <- <- <-. apply T. eapply failcount_tame; eassumption.
    + destruct (id =? ID_USERAUTH_PUBLICKEY); [apply T; eapply pk_tame; eassumption|].
      destruct (c_none c && (id =? ID_NONE)); [apply T; eapply none_tame; eassumption|].
      destruct (SendUserAuthFailureCount _ _ _) as [s2 r2] eqn:E. injection H as <- <- <-. apply T. eapply failcount_tame; eassumption.
Qed.

Lemma step_owes : forall c x m an s s' r j, auth_step c x m an s = HR s' r j ->
  a_failures s < a_max s -> is32 (a_max s) -> ans_ok an -> (c_kb c = false -> a_pending s = false) ->
  owes s s' (stop r + (if is_info (m, an) then 1 else 0)) /\ (c_kb c = false -> a_pending s' = false).
Proof.
  intros c x m an s0 s' r j H F M A K. unfold auth_step in H.
  set (s := set_ans an s0) in *.
  assert (Es : asks s = asks s0 /\ a_failures s = a_failures s0 /\ a_pending s = a_pending s0 /\ a_max s = a_max s0 /\ a_ans s = an)
    by (repeat split; reflexivity).
  destruct Es as (E1 & E2 & E3 & E4 & E5). unfold owes. rewrite <- E1, <- E2, <- E3. rewrite <- E2, <- E4 in F. rewrite <- E4 in M.
  rewrite <- E5 in A. rewrite <- E3 in K. clearbody s. clear E1 E2 E3 E4 E5 s0.
  destruct m as [buf|buf]; cbn [is_info fst].
  - rewrite N.add_0_r. fold (owes s s' (stop r)).
    assert (T : tame s s' -> owes s s' (stop r) /\ (c_kb c = false -> a_pending s' = false)).
    { intros T. split; [apply tame_owes; assumption|]. intros X. destruct T as (_ & -> & _). auto. }
    unfold DoUserAuthRequest in H. destruct (lenN buf =? 0); [injection H as <- _ _; apply T, tame_refl|].
    match type of H with match ?p with _ => _ end = _ => destruct p as [ [user svc] k|e k|] end;
      [|injection H as <- _ _; apply T, tame_refl|discriminate].
    destruct (negb _).
    { destruct (SendUserAuthFailureCount _ _ _) as [s2 r2] eqn:E. injection H as <- <- <-. apply T. eapply failcount_tame; eassumption. }
    destruct (GetStr buf (lenN buf) k) as [nm k2|e k2|]; [|injection H as <- _ _; apply T, tame_refl|discriminate].
    destruct (a_user s) as [u|].
    + destruct (bytes_eqb user u); [eapply Dispatch_owes; eassumption|].
      destruct (send _ _) as [s2 r2] eqn:E. cbn [fst] in H. injection H as <- _ _. apply send_inv in E. destruct E as (an2 & ->).
      apply T, tame_logs. reflexivity.
    + unfold SetUsernameRaw in H. destruct (lenN user =? 0).
      { injection H as <- _ _. apply T, tame_refl. }
      apply Dispatch_owes in H; try assumption.
  - destruct (c_kb c) eqn:Ec.
    2:{ injection H as <- <- <-. split; [lia|auto]. }
    split; [|congruence]. unfold DoUserAuthInfoResponse in H.
    assert (T : tame s s' -> asks s' + a_failures s + b2n (a_pending s) <= asks s + a_failures s' + b2n (a_pending s') + (stop r + 1)).
    { intros T. apply (tame_owes _ _ 0 F M) in T. unfold owes in T. lia. }
    destruct (lenN buf =? 0); [injection H as <- _ _; apply T, tame_refl|].
    destruct (negb _); [injection H as <- _ _; apply T, tame_refl|].
    set (s1 := set_pending false s) in *.
    assert (B : b2n (a_pending s) <= 1) by (destruct (a_pending s); cbn; lia).
    assert (T1 : forall n, owes s1 s' n -> n <= stop r -> asks s' + a_failures s + b2n (a_pending s) <= asks s + a_failures s' + b2n (a_pending s') + (stop r + 1)).
    { intros n X Hn. unfold owes in X. subst s1. unfold asks in *. projs. cbn [b2n] in X. lia. }
    assert (T2 : tame s1 s' -> asks s' + a_failures s + b2n (a_pending s) <= asks s + a_failures s' + b2n (a_pending s') + (stop r + 1)).
    { intros X. apply (T1 0); [|lia]. apply tame_owes; assumption. }
    match type of H with match ?p with _ => _ end = _ => destruct p as [n k|e k|] end;
      [|injection H as <- _ _; apply T2, tame_refl|discriminate].
    destruct (negb _); [apply T2; eapply finish_tame; eassumption|].
    match type of H with match ?p with _ => _ end = _ => destruct p as [rs k2|e k2|] end;
      [|injection H as <- _ _; apply T2, tame_refl|discriminate].
    destruct (c_cb c); [|apply T2; eapply finish_tame; eassumption].
    destruct (callback _ _ _) as [s2 [res q] ] eqn:E. pose proof (callback_ans _ _ _ _ _ E A) as A2.
    apply callback_inv in E. destruct E as (an2 & ->).
    destruct res; try (apply T2; eapply tame_after; [|eapply finish_tame; eassumption]; reflexivity).
    destruct (SendUserAuthKeyboardRequest _ _ _) as [s3 r3] eqn:E. injection H as <- <- <-.
    apply keyboard_asks in E; [|reflexivity|exact A2]. destruct E as (E & Ef). subst s1.
    unfold asks at 2 in E. projs. rewrite asks_logs in E by reflexivity. unfold asks in *. projs.
    destruct Ef as [->| ->]; rewrite ?add32_small by (unfold is32, W32 in *; lia); lia.
Qed.

Lemma run_owes : forall c x max sid h n s last s' r, wf_history h -> is32 (lenN sid) -> is32 max ->
  Forall (fun p => ans_ok (snd p)) h ->
  ainv max sid n s -> a_failures s < max -> ~ In (EDisconnect DISC_NO_MORE_AUTH) (a_log s) -> goes_on last = true ->
  (c_kb c = false -> a_pending s = false) ->
  run c x s h last = Some (s', r) -> owes s s' (stop r + countP is_info h).
Proof.
  intros c x max sid h. induction h as [|[m an] t IH]; intros n s last s' r Hw Hs Hx Ha A Hf Hd Hg K H; cbn [run] in H.
  - injection H as <- <-. unfold owes. lia.
  - inversion Hw as [|? ? Hm Ht]; subst. inversion Ha as [|? ? Ha1 Ha2]; subst. cbn [fst snd] in *.
    destruct (step_ainv c x m an max sid n s Hm Hs Hx A Hf Hd) as (s1 & r1 & j1 & ev & E & A1 & _ & _ & _ & _ & _ & D1).
    rewrite E in H. assert (Em : a_max s = max) by apply A.
    destruct (step_owes c x m an s s1 r1 j1 E ltac:(lia) ltac:(congruence) Ha1 K) as (O & K1).
    assert (I : countP is_info ((m, an) :: t) = (if is_info (m, an) then 1 else 0) + countP is_info t).
    { unfold countP. cbn [filter]. destruct (is_info (m, an)); [|reflexivity]. unfold lenN. cbn [Datatypes.length]. lia. }
    rewrite I. destruct (goes_on r1) eqn:G.
    + destruct D1 as [(D1 & D2)|(_ & D & _)]; [|congruence].
      pose proof (IH _ _ _ _ _ Ht Hs Hx Ha2 A1 D1 D2 G K1 H) as O2. unfold owes, stop in *. rewrite G in O. lia.
    + injection H as <- <-. unfold owes in *. lia.
Qed.

(* Each prompt message but the last was answered or cost an attempt. *)
Theorem C10_prompts_bounded : forall c x max sid h s, reached c x max sid h s ->
  Forall (fun p => ans_ok (snd p)) h ->
  countP is_prompt (a_log s) <= max + countP is_info h.
Proof.
  intros c x max sid h s R Ha. destruct (reached_after _ _ _ _ _ _ R) as (r & A & G).
  destruct (after_inv _ _ _ _ _ _ _ A) as (_ & D & _). destruct A as (Hw & Hs & H1 & Hx & H).
  destruct D as [(D1 & _)|(_ & D & _)]; [|congruence].
  pose proof (run_owes c x max sid h 0 (init_auth max sid) WS_SUCCESS s r Hw Hs Hx Ha (init_ainv max sid)
    ltac:(cbn; lia) ltac:(cbn; tauto) eq_refl (fun _ => eq_refl) H) as O.
  unfold owes, stop, asks in O. rewrite G in O. cbn in O. destruct (a_pending s); cbn in O; lia.
Qed.

(* a prompt abandoned for another, limit 2: the next request ends it *)
Definition kb_request : amsg := request "ann" "keyboard-interactive" (PutString [] ++ PutString []).
Definition prompts2 : answers := mkAns [(CbSuccess, 2)] [] [].
Example ex_abandoned : exists s, reached ex_cfg ex_crypto 2 ex_sid [(kb_request, prompts2); (kb_request, prompts2)] s /\
  countP is_prompt (a_log s) = 2 /\
  match auth_step ex_cfg ex_crypto kb_request prompts2 s with HR _ r _ => goes_on r = false | HOob => False end.
Proof.
  set (h := [_; _]).
  destruct (C09_total ex_cfg ex_crypto 2 ex_sid h) as (s & r & A); [apply wf_b_ok; vm_compute; reflexivity|vm_compute; reflexivity|lia|vm_compute; reflexivity|].
  destruct A as (A1 & A2 & A3 & A4 & A).
  assert (B : match run ex_cfg ex_crypto (init_auth 2 ex_sid) h WS_SUCCESS with
              | Some (s, r) => goes_on r && (countP is_prompt (a_log s) =? 2) &&
                  match auth_step ex_cfg ex_crypto kb_request prompts2 s with HR _ r _ => negb (goes_on r) | HOob => false end
              | None => false end = true) by (vm_compute; reflexivity).
  rewrite A in B. rewrite !andb_true_iff, N.eqb_eq in B. destruct B as ((B1 & B2) & B3).
  exists s. split; [repeat split; try assumption; exists r; auto|]. split; [assumption|].
  destruct (auth_step _ _ _ _ s); [|discriminate]. apply negb_true_iff. exact B3.
Qed.
Print Assumptions C10_prompts_bounded.
