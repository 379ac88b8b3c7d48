(* AuthProps.v - C09, C10, C11, C41: user authentication on the server.

   [run c x (init_auth max sid) h WS_SUCCESS = Some (s, r)]: a connection with
   settings c and signature verifiers x handled the messages h; it stands in
   state s and the last handler returned r. Every history h of well-formed
   messages and every behaviour of the callbacks and the transport (the
   answers in h) is covered. *)
From Verif Require Import Base WireModel WireSpec WireProofs NameTable NegoModel NegoSpec NegoProofs
  AuthModel AuthSpec AuthProofs AuthStep.
From Coq Require Import List NArith ZArith Lia Bool String.
Import ListNotations.
Open Scope N_scope.
Local Notation "a ++ b" := (@app _ a b) : list_scope.

(* a connection still being served after some history *)
Definition reached (c : acfg) (x : crypto) (max : N) (sid : bytes) (h : list (amsg * answers)) (s : auth) : Prop :=
  wf_history h /\ is32 (lenN sid) /\ 1 <= max /\ is32 max /\
  exists r, run c x (init_auth max sid) h WS_SUCCESS = Some (s, r) /\ goes_on r = true.
(* ... or in whatever state the history left it *)
Definition after (c : acfg) (x : crypto) (max : N) (sid : bytes) (h : list (amsg * answers)) (s : auth) (r : rc) : Prop :=
  wf_history h /\ is32 (lenN sid) /\ 1 <= max /\ is32 max /\
  run c x (init_auth max sid) h WS_SUCCESS = Some (s, r).

Lemma after_inv : forall c x max sid h s r, after c x max sid h s r ->
  ainv max sid (lenN h) s /\
  ((a_failures s < max /\ ~ In (EDisconnect DISC_NO_MORE_AUTH) (a_log s))
     \/ (a_failures s = max /\ goes_on r = false /\ ended_at_limit s)) /\
  (forall U cr, In (EGranted U cr) (a_log s) ->
       exists m an b, In (m, an) h /\ legitimate x sid b U m cr /\ a_user s = Some U /\
         In (ECallback U cr CbSuccess) (a_log s)) /\
  (a_client s = CLIENT_USERAUTH_REQUEST_DONE \/ a_client s = CLIENT_USERAUTH_DONE /\
       exists U cr, In (EGranted U cr) (a_log s)) /\
  (a_authId s = 0 \/ exists mb an h0 rest U name, In (MRequest mb, an) h /\ mb = h0 ++ rest /\
       is_strs h0 [U; ascii "ssh-connection"; name] /\ a_authId s = NameToId name /\ a_user s = Some U).
Proof.
  intros c x max sid h s r (Hw & Hs & H1 & Hx & Hr).
  destruct (run_spec c x max sid h 0 (init_auth max sid) WS_SUCCESS Hw Hs Hx (init_ainv max sid)
              ltac:(cbn; lia) ltac:(cbn; tauto) eq_refl) as (s' & r' & E & A & _ & _ & D & G & C & M).
  rewrite Hr in E. injection E as <- <-. split; [exact A|]. split; [exact D|].
  split; [|split; [exact C|exact M] ]. intros U cr Hin. apply G in Hin. destruct Hin as [ [] |Hin]; exact Hin.
Qed.

Lemma reached_after : forall c x max sid h s, reached c x max sid h s -> exists r, after c x max sid h s r /\ goes_on r = true.
Proof. intros c x max sid h s (A & B & C & D & r & E & G). exists r. split; [repeat split; assumption|assumption]. Qed.

Lemma reached_step : forall c x max sid h s m an, reached c x max sid h s -> wf_msg m ->
  exists s' r j ev, auth_step c x m an s = HR s' r j /\ a_log s' = a_log s ++ ev /\
    (a_user s' = a_user s \/ a_user s = None) /\ step_granted x m s s' r ev /\ a_sid s = sid /\
    Forall (asked m s s') ev.
Proof.
  intros c x max sid h s m an R Hm. destruct (reached_after _ _ _ _ _ _ R) as (r & A & Hr).
  destruct (after_inv _ _ _ _ _ _ _ A) as (I & D & _). destruct A as (_ & Hs & _ & Hx & _).
  destruct D as [(D1 & D2)|(_ & D & _)]; [|congruence].
  destruct (step_ainv c x m an max sid _ s Hm Hs Hx I D1 D2) as (s' & r' & j & ev & E1 & _ & E2 & E3 & E4 & E5 & _).
  exists s', r', j, ev. do 4 (split; [assumption|]). split; [apply I|assumption].
Qed.

(* ------------------------------------------------------------------ *)
(* C09                                                                  *)

(* Every message is handled without reading outside it. *)
Theorem C09_total : forall c x max sid h, wf_history h -> is32 (lenN sid) -> 1 <= max -> is32 max ->
  exists s r, after c x max sid h s r.
Proof.
  intros c x max sid h Hw Hs H1 Hx.
  destruct (run_spec c x max sid h 0 (init_auth max sid) WS_SUCCESS Hw Hs Hx (init_ainv max sid)
              ltac:(cbn; lia) ltac:(cbn; tauto) eq_refl) as (s & r & E & _).
  exists s, r. repeat split; assumption.
Qed.
Print Assumptions C09_total.

(* The message that turns an unauthenticated connection into an authenticated
   one: its credential was judged and accepted by the callback, after which
   nothing happened but a positive signature check; the credential is the one
   in the message, and for a key the signature verifies over the session
   identifier and the request. *)
Theorem C09_grant : forall c x max sid h s m an s' r j,
  reached c x max sid h s -> wf_msg m -> auth_step c x m an s = HR s' r j ->
  a_client s <> CLIENT_USERAUTH_DONE -> a_client s' = CLIENT_USERAUTH_DONE ->
  r = WS_SUCCESS /\ exists user cr mid,
    legitimate x sid (a_user s) user m cr /\ a_user s' = Some user /\
    a_log s' = a_log s ++ ECallback user cr CbSuccess :: mid ++ [EGranted user cr] /\
    Forall (eq (EResult true true)) mid.
Proof.
  intros c x max sid h s m an s' r j R Hm E Hn Hd.
  destruct (reached_step _ _ _ _ _ _ m an R Hm) as (s1 & r1 & j1 & ev & E1 & L & U & G & Es & _).
  rewrite E in E1. injection E1 as <- <- <-.
  destruct G as [(G & _)|(_ & Hr & user & cr & mid & G1 & G2 & G3 & G4)]; [congruence|].
  split; [assumption|]. exists user, cr, mid. rewrite L, G3, <- Es. auto.
Qed.

(* Over whole histories: an authenticated connection has been granted to
   somebody, and every grant was earned by a message of the history. *)
Theorem C09_history : forall c x max sid h s r, after c x max sid h s r ->
  (a_client s = CLIENT_USERAUTH_DONE -> exists user cr, In (EGranted user cr) (a_log s)) /\
  (forall user cr, In (EGranted user cr) (a_log s) ->
     exists m an bound, In (m, an) h /\ legitimate x sid bound user m cr /\
       In (ECallback user cr CbSuccess) (a_log s)).
Proof.
  intros c x max sid h s r A. destruct (after_inv _ _ _ _ _ _ _ A) as (_ & _ & G & C & _). split.
  - intros E. destruct C as [C|(_ & C)]; [rewrite C in E; discriminate|assumption].
  - intros user cr Hin. destruct (G _ _ Hin) as (m & an & b & H1 & H2 & _ & H3). exists m, an, b. auto.
Qed.

(* strings are read one way only *)
Lemma is_str_inj : forall f s f' s' r r', is_str f s -> is_str f' s' -> f ++ r = f' ++ r' -> f = f' /\ s = s' /\ r = r'.
Proof.
  intros f s f' s' r r' (l & -> & L & V & _) (l' & -> & L' & V' & _) E. rewrite <- !app_assoc in E.
  assert (E1 : l = l').
  { rewrite <- (takeN_app_exact _ 4 l (s ++ r)), <- (takeN_app_exact _ 4 l' (s' ++ r')) by auto. f_equal. exact E. }
  subst l'. apply app_inv_head in E.
  assert (Hl : lenN s = lenN s') by congruence.
  assert (E2 : s = s').
  { rewrite <- (takeN_app_exact _ (lenN s) s r), <- (takeN_app_exact _ (lenN s) s' r') by auto. f_equal. exact E. }
  subst s'. apply app_inv_head in E. auto.
Qed.
Lemma is_strs_inj : forall ss f f' ss' r r',
  is_strs f ss -> is_strs f' ss' -> f ++ r = f' ++ r' -> List.length ss = List.length ss' -> ss = ss' /\ r = r'.
Proof.
  induction ss as [|a ss IH]; intros f f' ss' r r' (ps & -> & F) (ps' & -> & F') E HL;
    destruct ss' as [|a' ss']; try discriminate HL.
  - inversion F; inversion F'; subst. cbn in E. auto.
  - inversion F as [|p ? ps1 ? F1 F2]; inversion F' as [|p' ? ps1' ? F1' F2']; subst.
    cbn in E. rewrite <- !app_assoc in E.
    destruct (is_str_inj _ _ _ _ _ _ F1 F1' E) as (_ & -> & E').
    injection HL as HL.
    destruct (IH (List.concat ps1) (List.concat ps1') ss' r r') as (-> & ->); auto.
    + exists ps1. auto.
    + exists ps1'. auto.
Qed.

(* A key offered without a signature never authenticates. *)
Theorem C09_offer_grants_nothing : forall c x max sid h s m an s' r j user algo blob,
  reached c x max sid h s -> wf_msg (MRequest m) -> auth_step c x (MRequest m) an s = HR s' r j ->
  key_query m user algo blob -> a_client s' = a_client s /\
  forall u cr, In (EGranted u cr) (a_log s') -> In (EGranted u cr) (a_log s).
Proof.
  intros c x max sid h s m an s' r j user algo blob R Hm E (hd & ab & rest & Em & Hh & Hab).
  destruct (reached_step _ _ _ _ _ _ (MRequest m) an R Hm) as (s1 & r1 & j1 & ev & E1 & L & U & G & Es & _).
  rewrite E in E1. injection E1 as <- <- <-.
  assert (N : step_granted x (MRequest m) s s' r ev -> a_client s' = a_client s /\ forall u c0, ~ In (EGranted u c0) ev).
  { intros [G1|(_ & _ & u & cr & mid & Lg & _)]; [assumption|exfalso].
    inversion Lg as [m0 pw (h2 & p & rest2 & Em2 & Hh2 & Hp) E1 E2 | m0 (h2 & rest2 & Em2 & Hh2) E1 E2
                    |m0 flag al bl sg body rest2 extra msg (h2 & ab2 & sg2 & -> & Em2 & Hh2 & Hf & _) Hx _ _ E1 E2|]; subst.
    - unfold request_head in *.
      destruct (is_strs_inj _ _ _ _ _ _ Hh Hh2 Em2 eq_refl) as (X & _). discriminate.
    - unfold request_head in *.
      destruct (is_strs_inj _ _ _ _ _ _ Hh Hh2 Em2 eq_refl) as (X & _). discriminate.
    - unfold request_head in *. rewrite <- !app_assoc in Em2.
      destruct (is_strs_inj _ _ _ _ _ _ Hh Hh2 Em2 eq_refl) as (_ & X). cbn in X. congruence. }
  apply N in G. destruct G as (G1 & G2). split; [assumption|].
  intros u cr Hin. rewrite L in Hin. apply in_app_or in Hin. destruct Hin as [Hin|Hin]; [assumption|].
  exfalso. eapply G2; eassumption.
Qed.

(* ------------------------------------------------------------------ *)
(* C10                                                                  *)

(* Whatever the application asks for, the limit is at least 1. *)
Theorem C10_limit_positive : forall v : Z, (v < 2147483648)%Z ->
  1 <= SetMaxAuthAttempts v /\ is32 (SetMaxAuthAttempts v) /\ ((0 < v)%Z -> SetMaxAuthAttempts v = Z.to_N v).
Proof.
  intros v H. unfold SetMaxAuthAttempts. destruct (Z.leb_spec v 0) as [L|L].
  - split; [unfold DEFAULT_MAX_AUTH; lia|]. split; [unfold is32, W32, DEFAULT_MAX_AUTH; lia|lia].
  - rewrite N.mod_small by (unfold W32; lia). unfold is32, W32. split; [lia|]. split; [lia|]. reflexivity.
Qed.
Print Assumptions C10_limit_positive.

(* At most [max] failure answers, plus one for an opening "none" request,
   plus one each time 2^32 further requests have passed; the same for the
   number of credentials the callback turned down. *)
Theorem C10_bounded : forall c x max sid h s r, after c x max sid h s r ->
  countP is_failure (a_log s) <= max + 1 + lenN h / W32 /\
  countP is_refusal (a_log s) <= max + 1 + lenN h / W32.
Proof.
  intros c x max sid h s r A. destruct (after_inv _ _ _ _ _ _ _ A) as ([_ _ _ F (T & e & C1 & _ & C3 & C4 & C5 & _) _ _] & _).
  assert (e <= 1 + lenN h / W32).
  { assert (e <= (T + (W32 - 1)) / W32).
    { apply N.div_le_lower_bound; [unfold W32; lia|]. lia. }
    assert ((T + (W32 - 1)) / W32 <= (lenN h + 1 * W32) / W32).
    { apply N.div_le_mono; [unfold W32; lia|]. unfold W32 in *. lia. }
    rewrite N.div_add in H0 by (unfold W32; lia). lia. }
  lia.
Qed.

(* Once so many have been answered that the limit is reached, the connection
   is over: the last thing sent is a disconnect. While it is being served the
   limit has not been reached and no disconnect for this reason was sent. *)
Theorem C10_limit_ends : forall c x max sid h s r, after c x max sid h s r ->
  max + 1 + lenN h / W32 <= countP is_failure (a_log s) \/ In (EDisconnect 14) (a_log s) ->
  goes_on r = false /\
  exists l, a_log s = l ++ [EDisconnect 14] /\ ~ In (EDisconnect 14) l.
Proof.
  intros c x max sid h s r A H. destruct (after_inv _ _ _ _ _ _ _ A) as ([_ _ _ F (T & e & C1 & _ & C3 & C4 & C5 & _) _ _] & D & _).
  assert (e <= 1 + lenN h / W32).
  { assert (e <= (T + (W32 - 1)) / W32).
    { apply N.div_le_lower_bound; [unfold W32; lia|]. lia. }
    assert ((T + (W32 - 1)) / W32 <= (lenN h + 1 * W32) / W32).
    { apply N.div_le_mono; [unfold W32; lia|]. unfold W32 in *. lia. }
    rewrite N.div_add in H1 by (unfold W32; lia). lia. }
  destruct D as [(D1 & D2)|(_ & D1 & D2)]; [|split; assumption].
  exfalso. destruct H as [H|H]; [lia|]. apply D2. exact H.
Qed.

(* The server does not cut a client off early: a disconnect for too many
   failures means [max] failure answers or unanswered prompts. *)
Theorem C10_not_early : forall c x max sid h s r, after c x max sid h s r ->
  In (EDisconnect 14) (a_log s) ->
  max <= countP is_failure (a_log s) + countP is_prompt (a_log s).
Proof.
  intros c x max sid h s r A H. destruct (after_inv _ _ _ _ _ _ _ A) as ([_ _ _ F (T & e & _ & _ & _ & _ & _ & C6) _ _] & D & _).
  destruct D as [(D1 & D2)|(D1 & _)]; [exfalso; apply D2; exact H|]. lia.
Qed.

(* ------------------------------------------------------------------ *)
(* C11                                                                  *)

(* Everything the callback was asked and every grant is about one user, the
   one the connection is bound to. *)
Theorem C11_one_user : forall c x max sid h s r e u, after c x max sid h s r ->
  In e (a_log s) -> event_user e = Some u -> a_user s = Some u.
Proof.
  intros c x max sid h s r e u A Hin He. destruct (after_inv _ _ _ _ _ _ _ A) as ([_ _ _ _ _ _ F] & _).
  rewrite Forall_forall in F. apply F in Hin. destruct Hin as [Hin|Hin]; congruence.
Qed.

(* Once bound, bound for good. *)
Theorem C11_bound_once : forall c x max sid h s m an s' r j u,
  reached c x max sid h s -> wf_msg m -> auth_step c x m an s = HR s' r j ->
  a_user s = Some u -> a_user s' = Some u.
Proof.
  intros c x max sid h s m an s' r j u R Hm E Hu.
  destruct (reached_step _ _ _ _ _ _ m an R Hm) as (s1 & r1 & j1 & ev & E1 & L & U & _).
  rewrite E in E1. injection E1 as <- <- <-. destruct U; congruence.
Qed.

(* a string at the front of what remains is read as such *)
Lemma read_fwd : forall m i f b t, bytes_ok m -> is32 (lenN m) -> dropN i m = f ++ t -> i <= lenN m -> is_str f b ->
  GetStr m (lenN m) i = POk b (i + lenN f) /\ dropN (i + lenN f) m = t /\ i + lenN f <= lenN m.
Proof.
  intros m i f b t Hm H3 D Hi (l & -> & Ll & V & _).
  assert (Ld : lenN m = i + 4 + lenN b + lenN t).
  { pose proof (f_equal (@lenN N) D) as Q. rewrite lenN_dropN, !lenN_app in Q. lia. }
  rewrite lenN_app in *.
  assert (S4 : slice m i 4 = l).
  { unfold slice. rewrite D, <- app_assoc. apply takeN_app_exact. lia. }
  assert (D2 : dropN (i + (lenN l + lenN b)) m = t).
  { rewrite <- (dropN_dropN _ (lenN l + lenN b) i m), D. apply dropN_app_exact. rewrite lenN_app. reflexivity. }
  split; [|split; [assumption|lia]].
  rewrite GetStr_eq by (assumption || (unfold is32, W32 in *; lia)).
  destruct (N.leb_spec (i + 4) (lenN m)); [|lia]. cbv zeta. rewrite S4, V.
  destruct (N.leb_spec (i + 4 + lenN b) (lenN m)); [|lia].
  replace (i + (lenN l + lenN b)) with (i + 4 + lenN b) by lia. f_equal.
  unfold slice. rewrite <- (dropN_dropN _ 4 i m), D, <- app_assoc, dropN_app_exact by lia.
  apply takeN_app_exact. reflexivity.
Qed.

(* A request for another user disconnects and does nothing else. *)
Theorem C11_other_user : forall c x max sid h s m an u u' method hd rest,
  reached c x max sid h s -> wf_msg (MRequest m) -> a_user s = Some u ->
  m = hd ++ rest -> request_head hd u' method -> u' <> u ->
  exists s' j, auth_step c x (MRequest m) an s = HR s' WS_INVALID_STATE_E j /\
    a_log s' = a_log s ++ [EDisconnect 2] /\ a_user s' = Some u /\ a_client s' = a_client s /\
    goes_on WS_INVALID_STATE_E = false.
Proof.
  intros c x max sid h s m an u u' method hd rest R (Hm & H3) Hu Em (ps & -> & F) Hne. cbn [msg_bytes] in *.
  inversion F as [|f1 ? ps1 ? F1 G1]; subst. inversion G1 as [|f2 ? ps2 ? F2 G2]; subst.
  inversion G2 as [|f3 ? ps3 ? F3 G3]; subst. inversion G3; subst. clear F G1 G2 G3.
  cbn [List.concat] in *. rewrite app_nil_r in *. set (m := (f1 ++ f2 ++ f3) ++ rest) in *.
  assert (D0 : dropN 0 m = f1 ++ f2 ++ f3 ++ rest) by (rewrite dropN_0; unfold m; rewrite <- !app_assoc; reflexivity).
  destruct (read_fwd m 0 f1 u' _ Hm H3 D0 ltac:(lia) F1) as (R1 & D1 & L1).
  destruct (read_fwd m _ f2 _ _ Hm H3 D1 L1 F2) as (R2 & D2 & L2).
  destruct (read_fwd m _ f3 _ _ Hm H3 D2 L2 F3) as (R3 & D3 & L3).
  unfold auth_step, DoUserAuthRequest.
  assert (Hz : lenN m =? 0 = false).
  { apply N.eqb_neq. destruct F1 as (l & -> & Ll & _). rewrite lenN_app in L1. lia. }
  rewrite Hz, R1. cbn [pbind]. rewrite R2. cbn [pbind].
  replace (NameToId (ascii "ssh-connection") =? ID_SERVICE_CONNECTION) with true by (vm_compute; reflexivity).
  cbn [negb]. rewrite R3. cbn [a_user set_ans]. rewrite Hu.
  destruct (bytes_eqb u' u) eqn:Eb; [apply bytes_eqb_eq in Eb; contradiction|].
  destruct (send _ _) as [s1 r1] eqn:E. apply send_inv in E. destruct E as (an2 & ->).
  eexists; eexists. split; [reflexivity|]. cbn. auto.
Qed.

(* ------------------------------------------------------------------ *)
(* C09, the other direction: good credentials are let in                *)

Lemma head_fwd : forall m hd user method rest, wf_msg (MRequest m) -> m = hd ++ rest -> request_head hd user method ->
  exists i, (lenN m =? 0) = false /\ i = lenN hd /\ dropN i m = rest /\ is32 i /\ i <= lenN m /\
   forall c x s, DoUserAuthRequest c x m (lenN m) 0 s =
    match a_user s with
    | None => if lenN user =? 0 then HR s WS_BAD_ARGUMENT 0
              else Dispatch c x user (ascii method) m (lenN m) i (set_user user s)
    | Some u => if bytes_eqb user u then Dispatch c x user (ascii method) m (lenN m) i s
                else HR (fst (send (EDisconnect DISC_PROTOCOL_ERROR) s)) WS_INVALID_STATE_E 0
    end.
Proof.
  intros m hd user method rest (Hm & H3) Em (ps & -> & F). cbn [msg_bytes] in *.
  inversion F as [|f1 ? ps1 ? F1 G1]; subst. inversion G1 as [|f2 ? ps2 ? F2 G2]; subst.
  inversion G2 as [|f3 ? ps3 ? F3 G3]; subst. inversion G3; subst. clear F G1 G2 G3.
  cbn [List.concat] in *. rewrite app_nil_r in *. set (m := (f1 ++ f2 ++ f3) ++ rest) in *.
  assert (D0 : dropN 0 m = f1 ++ f2 ++ f3 ++ rest) by (rewrite dropN_0; unfold m; rewrite <- !app_assoc; reflexivity).
  destruct (read_fwd m 0 f1 user _ Hm H3 D0 ltac:(lia) F1) as (R1 & D1 & L1).
  destruct (read_fwd m _ f2 _ _ Hm H3 D1 L1 F2) as (R2 & D2 & L2).
  destruct (read_fwd m _ f3 _ _ Hm H3 D2 L2 F3) as (R3 & D3 & L3).
  assert (Hz : lenN m =? 0 = false).
  { apply N.eqb_neq. destruct F1 as (l & -> & Ll & _). rewrite lenN_app in L1. lia. }
  exists (0 + lenN f1 + lenN f2 + lenN f3). split; [assumption|].
  split; [rewrite !lenN_app; lia|]. split; [assumption|]. split; [unfold is32, W32 in *; lia|]. split; [assumption|].
  intros c x s. unfold DoUserAuthRequest. rewrite Hz, R1. cbn [pbind]. rewrite R2. cbn [pbind].
  replace (NameToId (ascii "ssh-connection") =? ID_SERVICE_CONNECTION) with true by (vm_compute; reflexivity).
  cbn [negb]. rewrite R3. destruct (a_user s); [reflexivity|]. unfold SetUsernameRaw. destruct (lenN user =? 0); reflexivity.
Qed.

Lemma bool_fwd : forall m i v t, is32 (lenN m) -> i <= lenN m -> dropN i m = v :: t ->
  GetBoolean m (lenN m) i = POk v (i + 1) /\ dropN (i + 1) m = t /\ i + 1 <= lenN m.
Proof.
  intros m i v t H3 Li Di.
  assert (Er : rd m i = Some v).
  { rewrite <- (takeN_dropN _ i m). replace i with (lenN (takeN i m) + 0) at 3 by (rewrite lenN_takeN; lia).
    rewrite rd_app_r, Di. reflexivity. }
  assert (G : GetBoolean m (lenN m) i = POk v (i + 1)).
  { rewrite GetBoolean_eq by (assumption || lia). rewrite takeN_all, Er by lia. reflexivity. }
  split; [assumption|]. pose proof (GetBoolean_inv m i H3) as Q. rewrite G in Q. destruct Q as (Q1 & _ & Q2).
  split; [congruence|assumption].
Qed.

(* with room below the limit, an abandoned prompt does not stop a request *)
Lemma dispatch_fwd : forall c x user authName m len i s,
  (a_pending s = true -> add32 (a_failures s) 1 < a_max s) ->
  exists s1, a_sid s1 = a_sid s /\ a_log s1 = a_log s /\ a_ans s1 = a_ans s /\ a_user s1 = a_user s /\
    forall id, NameToId authName = id ->
    Dispatch c x user authName m len i s =
      if id =? ID_USERAUTH_PASSWORD then DoUserAuthRequestPassword c user m len i s1
      else if c_kb c && (id =? ID_USERAUTH_KEYBOARD) then
        let '(s, r) := SendUserAuthKeyboardRequest c user s1 in HR s r i
      else if id =? ID_USERAUTH_PUBLICKEY then DoUserAuthRequestPublicKey c x user m len i s1
      else if c_none c && (id =? ID_NONE) then DoUserAuthRequestNone c user i s1
      else let '(s, r) := SendUserAuthFailureCount false (negb ((id =? ID_NONE) && (a_requests s1 =? 1))) s1 in HR s r len.
Proof.
  intros c x user authName m len i s Hp. unfold Dispatch. set (s0 := set_requests _ _).
  destruct (c_kb c && a_pending s0) eqn:Ep.
  - apply andb_true_iff in Ep. destruct Ep as (_ & Ep). specialize (Hp Ep).
    destruct (CountUserAuthFailure (set_pending false s0)) as [s2 r2] eqn:E. apply count_inv in E. cbv zeta in E.
    destruct E as [(L & _)|(L & -> & ->)]; [exfalso; subst s0; projs; lia|].
    eexists. split; [|split; [|split; [|split; [|intros id <-; reflexivity] ] ] ]; reflexivity.
  - exists s0. split; [|split; [|split; [|split; [|intros id <-; reflexivity] ] ] ]; reflexivity.
Qed.

Lemma room : forall c x max sid h s, reached c x max sid h s ->
  countP is_failure (a_log s) + countP is_prompt (a_log s) < max ->
  a_pending s = true -> add32 (a_failures s) 1 < a_max s.
Proof.
  intros c x max sid h s R Hc Hp. destruct (reached_after _ _ _ _ _ _ R) as (r & A & _).
  destruct (after_inv _ _ _ _ _ _ _ A) as ([M _ _ F (T & e & _ & _ & _ & _ & _ & C6) _ _] & _).
  rewrite Hp in C6. cbn [b2n] in C6. rewrite M. pose proof (add32_le (a_failures s)). lia.
Qed.

(* the answers of a callback that accepts what it is asked first *)
Definition accepting (an : answers) : Prop := exists n t, an_cb an = (CbSuccess, n) :: t.

Theorem C09_password_accepted : forall c x max sid h s m an user pw,
  reached c x max sid h s -> wf_msg (MRequest m) -> password_request m user pw ->
  c_cb c = true -> accepting an -> user <> [] -> a_user s = None \/ a_user s = Some user ->
  countP is_failure (a_log s) + countP is_prompt (a_log s) < max ->
  exists s' j, auth_step c x (MRequest m) an s = HR s' WS_SUCCESS j /\ a_client s' = CLIENT_USERAUTH_DONE /\
    a_user s' = Some user /\
    a_log s' = a_log s ++ [ECallback user (CrPassword pw) CbSuccess; EGranted user (CrPassword pw)].
Proof.
  intros c x max sid h s m an user pw R Hw (hd & p & rest & Em & Hh & Hp) Hcb (n & t & Ha) Hne Hu Hroom.
  destruct (head_fwd m hd user _ _ Hw Em Hh) as (i & Hz & _ & Di & Hi & Li & HD).
  pose proof (room _ _ _ _ _ _ R Hroom) as Hr.
  destruct Hw as (Hm & H3). cbn [msg_bytes] in *.
  assert (Hz' : lenN user =? 0 = false).
  { apply N.eqb_neq. unfold lenN. destruct user; [contradiction|cbn; lia]. }
  destruct (bool_fwd m i 0 (p ++ rest) H3 Li Di) as (G1 & D1 & L1).
  destruct (read_fwd m _ p pw _ Hm H3 D1 L1 Hp) as (G2 & _ & _).
  assert (Fin : forall s0, a_ans s0 = an -> exists s' j, DoUserAuthRequestPassword c user m (lenN m) i s0 = HR s' WS_SUCCESS j /\
     a_client s' = CLIENT_USERAUTH_DONE /\ a_user s' = a_user s0 /\
     a_log s' = a_log s0 ++ [ECallback user (CrPassword pw) CbSuccess; EGranted user (CrPassword pw)]).
  { intros s0 Hans. unfold DoUserAuthRequestPassword. rewrite Hz, G1. cbn [pbind]. rewrite G2. cbn [pbind].
    change (0 =? 0) with true. cbv iota. rewrite Hcb. unfold callback. rewrite Hans, Ha. cbn [fst].
    eexists; eexists. split; [reflexivity|]. cbn. split; [reflexivity|]. split; [reflexivity|]. rewrite <- app_assoc. reflexivity. }
  unfold auth_step. rewrite HD. cbn [a_user set_ans].
  destruct Hu as [Hu|Hu]; rewrite Hu.
  - rewrite Hz'. destruct (dispatch_fwd c x user (ascii "password") m (lenN m) i (set_user user (set_ans an s)) Hr) as (s1 & S1 & S2 & S3 & S4 & S5).
    rewrite (S5 ID_USERAUTH_PASSWORD) by (vm_compute; reflexivity). cbv iota beta. change (ID_USERAUTH_PASSWORD =? ID_USERAUTH_PASSWORD) with true. cbv iota.
    destruct (Fin s1 S3) as (s' & j & F1 & F2 & F3 & F4). exists s', j. rewrite F3, F4, S2, S4. auto.
  - rewrite bytes_eqb_refl.
    destruct (dispatch_fwd c x user (ascii "password") m (lenN m) i (set_ans an s) Hr) as (s1 & S1 & S2 & S3 & S4 & S5).
    rewrite (S5 ID_USERAUTH_PASSWORD) by (vm_compute; reflexivity). change (ID_USERAUTH_PASSWORD =? ID_USERAUTH_PASSWORD) with true. cbv iota.
    destruct (Fin s1 S3) as (s' & j & F1 & F2 & F3 & F4). exists s', j. rewrite F3, F4, S2, S4. cbn [a_user set_ans]. auto.
Qed.

Lemma c32toa_be_value : forall l, lenN l = 4 -> bytes_ok l -> c32toa (be_value l) = l.
Proof.
  intros l L B. destruct l as [|a [|b [|c [|d [|e l] ] ] ] ]; unfold lenN in L; cbn [Datatypes.length] in L; try lia.
  unfold bytes_ok in B. repeat match goal with H : Forall _ (_ :: _) |- _ => inversion H; clear H; subst end.
  unfold byte_ok in *. rewrite be_value_4, c32toa_div. repeat f_equal; lia.
Qed.

Lemma strs2 : forall m f a b r, m = f ++ r -> is_strs f [a; b] -> bytes_ok m -> is32 (lenN m) ->
  exists k j, GetStr m (lenN m) 0 = POk a k /\ GetStr m (lenN m) k = POk b j /\ is32 k /\
    dropN j m = r /\ j = lenN f /\ j <= lenN m.
Proof.
  intros m f a b r -> (ps & -> & F) Hm H3.
  inversion F as [|f1 ? ps1 ? F1 G1]; subst. inversion G1 as [|f2 ? ps2 ? F2 G2]; subst. inversion G2; subst.
  cbn [List.concat] in *. rewrite app_nil_r in *. set (m := (f1 ++ f2) ++ r) in *.
  assert (D0 : dropN 0 m = f1 ++ f2 ++ r) by (rewrite dropN_0; unfold m; rewrite <- !app_assoc; reflexivity).
  destruct (read_fwd m 0 f1 _ _ Hm H3 D0 ltac:(lia) F1) as (R1 & D1 & L1).
  destruct (read_fwd m _ f2 _ _ Hm H3 D1 L1 F2) as (R2 & D2 & L2).
  exists (0 + lenN f1), (0 + lenN f1 + lenN f2). split; [assumption|]. split; [assumption|].
  split; [unfold is32, W32 in *; lia|]. split; [assumption|]. split; [rewrite lenN_app; lia|assumption].
Qed.

(* An Ed25519 key: if the algorithm is enabled, the callback accepts the key
   and the signature over the session identifier and the request verifies,
   the user is let in. *)
Theorem C09_ed25519_accepted : forall c x max sid h s m an user flag blob sig body q sg msg,
  let algo := ascii "ssh-ed25519" in
  reached c x max sid h s -> wf_msg (MRequest m) -> key_request m user flag algo blob sig body [] ->
  is_strs blob [algo; q] -> is_strs sig [algo; sg] ->
  signed_message sid body [] msg -> v_ed x q msg sg = true ->
  In (NameToId algo) (c_algos c) -> c_cb c = true -> c_rcb c = false -> accepting an ->
  user <> [] -> a_user s = None \/ a_user s = Some user ->
  countP is_failure (a_log s) + countP is_prompt (a_log s) < max ->
  exists s' j, auth_step c x (MRequest m) an s = HR s' WS_SUCCESS j /\ a_client s' = CLIENT_USERAUTH_DONE /\
    a_user s' = Some user /\
    a_log s' = a_log s ++ [ECallback user (CrKey flag algo blob sig) CbSuccess; EGranted user (CrKey flag algo blob sig)].
Proof.
  intros c x max sid h s m an user flag blob sig body q sg msg algo R Hw
    (hd & ab & sf & Eb & Em & Hh & Hf & Hab & Hsf) Hblob Hsig Hmsg Hv Hal Hcb Hrcb (n & t & Ha) Hne Hu Hroom.
  rewrite app_nil_r in Em.
  assert (Em' : m = hd ++ (flag :: ab ++ sf)) by (rewrite Em, Eb, <- !app_assoc; reflexivity).
  destruct (head_fwd m hd user _ _ Hw Em' Hh) as (i & Hz & Ei & Di & Hi & Li & HD).
  pose proof (room _ _ _ _ _ _ R Hroom) as Hr. pose proof Hw as (Hm & H3). cbn [msg_bytes] in Hm, H3.
  assert (Hz' : lenN user =? 0 = false).
  { apply N.eqb_neq. unfold lenN. destruct user; [contradiction|cbn; lia]. }
  destruct (bool_fwd m i flag _ H3 Li Di) as (G1 & D1 & L1).
  destruct Hab as (ps & Eab & F). inversion F as [|f1 ? ps1 ? F1 K1]; subst ps. inversion K1 as [|f2 ? ps2 ? F2 K2]; subst ps1.
  inversion K2; subst ps2. clear F K1 K2. cbn [List.concat] in Eab. rewrite app_nil_r in Eab.
  rewrite Eab, <- app_assoc in D1. subst i.
  destruct (read_fwd m _ f1 _ _ Hm H3 D1 L1 F1) as (R1 & D2 & L2).
  destruct (read_fwd m _ f2 _ _ Hm H3 D2 L2 F2) as (R2 & D3 & L3).
  assert (D3' : dropN (lenN hd + 1 + lenN f1 + lenN f2) m = sf ++ []) by (rewrite app_nil_r; exact D3).
  destruct (read_fwd m _ sf _ _ Hm H3 D3' L3 Hsf) as (R3 & D4 & L4).
  set (k := lenN hd + 1 + lenN f1 + lenN f2 + lenN sf) in *.
  assert (Gpk : get_pk m (lenN m) (lenN hd) = POk (flag, algo, blob, sig) k).
  { unfold get_pk. rewrite G1. cbn [pbind]. rewrite R1. cbn [pbind]. rewrite R2. cbn [pbind].
    destruct (N.eqb_spec flag 0); [contradiction|]. rewrite R3. reflexivity. }
  pose proof (get_pk_inv m Hm H3 (lenN hd) Hi) as P. rewrite Gpk in P.
  destruct P as (_ & _ & _ & B1 & B2 & B3 & B4 & _).
  destruct (strs2 blob blob algo q [] (eq_sym (app_nil_r _)) Hblob B1 B2) as (k1 & k2 & X1 & X2 & X3 & _).
  destruct (strs2 sig sig algo sg [] (eq_sym (app_nil_r _)) Hsig B3 B4) as (k3 & k4 & Y1 & Y2 & Y3 & _).
  assert (Hck : check_pk flag blob sig = POk tt k4).
  { unfold check_pk. rewrite X1. cbn [pbind]. destruct (N.eqb_spec flag 0); [contradiction|].
    rewrite Y1. cbn [pbind]. rewrite Y2. reflexivity. }
  pose proof R as (_ & Hsid & _).
  assert (Lsf : lenN sf = 4 + lenN sig) by (destruct Hsf as (l & -> & Ll & _); rewrite lenN_app; lia).
  assert (Lm : lenN m = lenN body + lenN sf) by (rewrite Em, lenN_app; reflexivity).
  assert (Hsd : signed_data sid m (lenN m) sig = Some msg).
  { unfold signed_data. rewrite (sub32_small (lenN m)) by (unfold is32 in *; lia).
    rewrite sub32_small by (unfold is32, W32 in *; lia).
    replace (lenN m - lenN sig - 4) with (lenN body) by lia.
    rewrite rdn_some by lia. unfold slice. rewrite dropN_0, Em, takeN_app_exact by reflexivity.
    destruct Hmsg as (ss & (l & -> & Ll & V & Bl) & ->). rewrite app_nil_r. unfold PutString.
    rewrite <- V, c32toa_be_value by assumption. reflexivity. }
  assert (Hve : VerifyUser x (NameToId algo) algo blob sig msg = POk tt k4).
  { unfold VerifyUser. replace (NameToId algo =? ID_ED25519) with true by (vm_compute; reflexivity).
    unfold VerifyEd. rewrite (GetSized_eq blob 0 B1 B2 is32_0), X1. cbn [pbind].
    unfold require at 1. rewrite bytes_eqb_refl. cbn [pbind].
    rewrite (GetSized_eq blob k1 B1 B2 X3), X2. cbn [pbind].
    rewrite (GetSized_eq sig 0 B3 B4 is32_0), Y1. cbn [pbind].
    unfold require at 1. rewrite bytes_eqb_refl. cbn [pbind].
    rewrite (GetSized_eq sig k3 B3 B4 Y3), Y2. cbn [pbind]. unfold require. rewrite Hv. reflexivity. }
  assert (Hid : (NameToId algo =? ID_UNKNOWN) || (MatchIdLists Server [NameToId algo] (c_algos c) =? ID_UNKNOWN) = false).
  { cbn [MatchIdLists match_ids].
    replace (existsb (N.eqb (NameToId algo)) (c_algos c)) with true.
    - vm_compute. reflexivity.
    - symmetry. apply existsb_exists. exists (NameToId algo). split; [assumption|apply N.eqb_refl]. }
  assert (Fin : forall s0, a_ans s0 = an -> a_sid s0 = sid -> exists s' j,
     DoUserAuthRequestPublicKey c x user m (lenN m) (lenN hd) s0 = HR s' WS_SUCCESS j /\
     a_client s' = CLIENT_USERAUTH_DONE /\ a_user s' = a_user s0 /\
     a_log s' = a_log s0 ++ [ECallback user (CrKey flag algo blob sig) CbSuccess; EGranted user (CrKey flag algo blob sig)]).
  { intros s0 Hans Hs0. unfold DoUserAuthRequestPublicKey. rewrite Hz, Gpk, Hck. cbv zeta. rewrite Hid, Hcb. cbn [negb].
    unfold callback. rewrite Hans, Ha. cbn [fst].
    destruct (N.eqb_spec flag 0); [contradiction|]. cbn [a_sid log set_ans]. rewrite Hs0, Hsd, Hve, Hrcb. cbn [negb].
    eexists; eexists. split; [reflexivity|]. cbn. split; [reflexivity|]. split; [reflexivity|]. rewrite <- app_assoc. reflexivity. }
  destruct (reached_after _ _ _ _ _ _ R) as (r0 & A0 & _). destruct (after_inv _ _ _ _ _ _ _ A0) as (I0 & _).
  assert (Es : a_sid s = sid) by apply I0.
  unfold auth_step. rewrite HD. cbn [a_user set_ans].
  destruct Hu as [Hu|Hu]; rewrite Hu.
  - rewrite Hz'. destruct (dispatch_fwd c x user (ascii "publickey") m (lenN m) (lenN hd) (set_user user (set_ans an s)) Hr) as (s1 & S1 & S2 & S3 & S4 & S5).
    rewrite (S5 ID_USERAUTH_PUBLICKEY) by (vm_compute; reflexivity).
    change (ID_USERAUTH_PUBLICKEY =? ID_USERAUTH_PASSWORD) with false. change (ID_USERAUTH_PUBLICKEY =? ID_USERAUTH_KEYBOARD) with false.
    change (ID_USERAUTH_PUBLICKEY =? ID_USERAUTH_PUBLICKEY) with true. rewrite andb_false_r. cbv iota.
    destruct (Fin s1 S3 ltac:(rewrite S1; exact Es)) as (s' & j & E1 & E2 & E3 & E4). exists s', j. rewrite E3, E4, S2, S4. auto.
  - rewrite bytes_eqb_refl.
    destruct (dispatch_fwd c x user (ascii "publickey") m (lenN m) (lenN hd) (set_ans an s) Hr) as (s1 & S1 & S2 & S3 & S4 & S5).
    rewrite (S5 ID_USERAUTH_PUBLICKEY) by (vm_compute; reflexivity).
    change (ID_USERAUTH_PUBLICKEY =? ID_USERAUTH_PASSWORD) with false. change (ID_USERAUTH_PUBLICKEY =? ID_USERAUTH_KEYBOARD) with false.
    change (ID_USERAUTH_PUBLICKEY =? ID_USERAUTH_PUBLICKEY) with true. rewrite andb_false_r. cbv iota.
    destruct (Fin s1 S3 ltac:(rewrite S1; exact Es)) as (s' & j & E1 & E2 & E3 & E4). exists s', j. rewrite E3, E4, S2, S4. cbn [a_user set_ans]. auto.
Qed.

(* ------------------------------------------------------------------ *)
(* C42: the callback is asked about what the client sent                *)

Theorem C42_asked_what_was_sent : forall c x max sid h s m an s' r j u cr v,
  reached c x max sid h s -> wf_msg m -> auth_step c x m an s = HR s' r j ->
  (forall ev, a_log s' = a_log s ++ ev -> In (ECallback u cr v) ev) ->
  presents (a_user s) u m cr /\ a_user s' = Some u.
Proof.
  intros c x max sid h s m an s' r j u cr v R Hm E Hin.
  destruct (reached_step _ _ _ _ _ _ m an R Hm) as (s1 & r1 & j1 & ev & E1 & L & U & G & Es & F).
  rewrite E in E1. injection E1 as <- <- <-. specialize (Hin ev L).
  rewrite Forall_forall in F. apply F in Hin. cbn in Hin. tauto.
Qed.

(* ------------------------------------------------------------------ *)
(* C41: keyboard-interactive                                            *)

Definition is_response (e : event) : bool :=
  match e with ECallback _ (CrKbResponse _) _ => true | _ => false end.

(* The full statement: answers are judged only as often as prompts were sent. *)
Definition answers_need_prompts : Prop :=
  forall c x max sid h s r, after c x max sid h s r ->
    countP is_response (a_log s) <= countP is_prompt (a_log s).

(* What holds: answers are put to the callback only when the client has asked
   for this method in an earlier request for the same user, and exactly as
   many of them as the last prompt message asked for (none before any). *)
Theorem C41_answers_partial : forall c x max sid h s m an s' r j u rs v,
  reached c x max sid h s -> wf_msg m -> auth_step c x m an s = HR s' r j ->
  (forall ev, a_log s' = a_log s ++ ev -> In (ECallback u (CrKbResponse rs) v) ev) ->
  (exists mb, m = MInfoResponse mb /\ info_response mb rs) /\
  a_user s = Some u /\
  lenN rs = last_prompt 0 (a_log s) /\
  exists mb an0 h0 rest, In (MRequest mb, an0) h /\ mb = h0 ++ rest /\ request_head h0 u "keyboard-interactive".
Proof.
  intros c x max sid h s m an s' r j u rs v R Hm E Hin.
  destruct (reached_step _ _ _ _ _ _ m an R Hm) as (s1 & r1 & j1 & ev & E1 & L & U & G & Es & F).
  rewrite E in E1. injection E1 as <- <- <-. specialize (Hin ev L).
  rewrite Forall_forall in F. apply F in Hin. cbn in Hin. destruct Hin as (Hu & P & K). destruct (K rs eq_refl) as (K1 & K2).
  destruct (reached_after _ _ _ _ _ _ R) as (r0 & A0 & _).
  destruct (after_inv _ _ _ _ _ _ _ A0) as (I0 & _ & _ & _ & M).
  inversion P; subst. split; [eexists; split; [reflexivity|assumption]|]. split; [assumption|].
  split; [rewrite <- (ai_prompts _ _ _ _ I0); assumption|].
  destruct M as [M|(mb & an0 & h0 & rest & U0 & name & M1 & M2 & M3 & M4 & M5)].
  - rewrite M in K1. discriminate.
  - exists mb, an0, h0, rest. split; [assumption|]. split; [assumption|]. unfold request_head.
    assert (Hn : name = ascii "keyboard-interactive").
    { rewrite M4 in K1. clear - K1. apply (name_is "keyboard-interactive"%string); [etransitivity; [eassumption|vm_compute; reflexivity]|vm_compute; reflexivity]. }
    rewrite <- Hn. replace u with U0 by congruence. assumption.
Qed.

(* ------------------------------------------------------------------ *)
(* Concrete connections                                                 *)

Definition request (user : string) (method : string) (tail : bytes) : amsg :=
  MRequest (PutString (ascii user) ++ PutString (ascii "ssh-connection") ++ PutString (ascii method) ++ tail).
Definition ex_cfg : acfg := mkAcfg true false [ID_ED25519; ID_RSA_SHA2_256] true true.
Definition ex_crypto : crypto := mkCrypto (fun _ _ _ _ _ => false) (fun _ _ _ _ _ _ => false)
  (fun q msg sg => bytes_eqb sg (7 :: q)) (fun _ _ _ _ => false).
Definition ex_sid : bytes := [1; 2; 3; 4].
Definition says (r : cbres) : answers := mkAns [(r, 0)] [] [].
Definition ex_run (max : N) (h : list (amsg * answers)) : option (auth * rc) :=
  run ex_cfg ex_crypto (init_auth max ex_sid) h WS_SUCCESS.
Definition ed_key : bytes := PutString (ascii "ssh-ed25519") ++ PutString [9; 9].
Definition ed_sig : bytes := PutString (ascii "ssh-ed25519") ++ PutString [7; 9; 9].
Definition bad_sig : bytes := PutString (ascii "ssh-ed25519") ++ PutString [7; 9; 8].
Definition ed_tail (sig : bytes) : bytes :=
  1 :: PutString (ascii "ssh-ed25519") ++ PutString ed_key ++ PutString sig.

Definition wf_b (p : amsg * answers) : bool :=
  forallb (fun b => b <? 256) (msg_bytes (fst p)) && (lenN (msg_bytes (fst p)) <? W32).
Lemma wf_b_ok : forall h, forallb wf_b h = true -> wf_history h.
Proof.
  intros h H. unfold wf_history. apply Forall_forall. intros p Hp. rewrite forallb_forall in H. apply H in Hp.
  unfold wf_b in Hp. apply andb_true_iff in Hp. destruct Hp as (H1 & H2). split.
  - apply Forall_forall. intros b Hb. rewrite forallb_forall in H1. apply H1 in Hb. apply N.ltb_lt in Hb. exact Hb.
  - apply N.ltb_lt in H2. exact H2.
Qed.

(* password refused, then a key offered, then used with a bad and a good
   signature *)
Definition ex_h : list (amsg * answers) :=
  [(request "ann" "password" (0 :: PutString (ascii "x")), says CbFailure);
   (request "ann" "publickey" (0 :: PutString (ascii "ssh-ed25519") ++ PutString ed_key), says CbSuccess);
   (request "ann" "publickey" (ed_tail bad_sig), says CbSuccess)].
Definition ex_good : amsg := request "ann" "publickey" (ed_tail ed_sig).

Example ex_after : exists s r, after ex_cfg ex_crypto 6 ex_sid ex_h s r /\ goes_on r = true /\
  countP is_failure (a_log s) = 2 /\ a_client s = CLIENT_USERAUTH_REQUEST_DONE /\ a_user s = Some (ascii "ann").
Proof.
  destruct (C09_total ex_cfg ex_crypto 6 ex_sid ex_h) as (s & r & A); [apply wf_b_ok; vm_compute; reflexivity|vm_compute; reflexivity|lia|vm_compute; reflexivity|].
  exists s, r. split; [exact A|]. destruct A as (_ & _ & _ & _ & A).
  assert (B : match run ex_cfg ex_crypto (init_auth 6 ex_sid) ex_h WS_SUCCESS with
              | Some (s, r) => goes_on r && (countP is_failure (a_log s) =? 2) && (a_client s =? 4) &&
                               match a_user s with Some u => bytes_eqb u (ascii "ann") | None => false end
              | None => false end = true) by (vm_compute; reflexivity).
  rewrite A in B. rewrite !andb_true_iff, !N.eqb_eq in B. destruct B as (((B1 & B2) & B3) & B4).
  destruct (a_user s) as [u|]; [|discriminate]. apply bytes_eqb_eq in B4. subst u. auto.
Qed.
Example ex_reached : exists s, reached ex_cfg ex_crypto 6 ex_sid ex_h s /\ a_client s <> CLIENT_USERAUTH_DONE /\
  exists s' r j, auth_step ex_cfg ex_crypto ex_good (says CbSuccess) s = HR s' r j /\ a_client s' = CLIENT_USERAUTH_DONE.
Proof.
  destruct ex_after as (s & r & (A1 & A2 & A3 & A4 & A5) & G & _ & C & U).
  exists s. split; [repeat split; try assumption; exists r; auto|]. split; [rewrite C; discriminate|].
  assert (B : match run ex_cfg ex_crypto (init_auth 6 ex_sid) ex_h WS_SUCCESS with
              | Some (s, _) => match auth_step ex_cfg ex_crypto ex_good (says CbSuccess) s with
                               | HR s' _ _ => a_client s' =? 5 | HOob => false end
              | None => false end = true) by (vm_compute; reflexivity).
  rewrite A5 in B. destruct (auth_step ex_cfg ex_crypto ex_good (says CbSuccess) s) as [s' r' j|]; [|discriminate].
  exists s', r', j. split; [reflexivity|]. apply N.eqb_eq. exact B.
Qed.
(* a good signature is one the theorem above accepts: its hypotheses hold *)
Example ex_key_request : exists body msg,
  key_request (msg_bytes ex_good) (ascii "ann") 1 (ascii "ssh-ed25519") ed_key ed_sig body [] /\
  is_strs ed_key [ascii "ssh-ed25519"; [9; 9] ] /\ is_strs ed_sig [ascii "ssh-ed25519"; [7; 9; 9] ] /\
  signed_message ex_sid body [] msg /\ v_ed ex_crypto [9; 9] msg [7; 9; 9] = true.
Proof.
  assert (S : forall b, (lenN b <? W32) = true -> is_str (PutString b) b).
  { intros b Hb. apply N.ltb_lt in Hb. exists (c32toa (lenN b)). split; [reflexivity|]. split; [apply c32toa_length|].
    split; [apply be_value_c32toa; exact Hb|apply c32toa_ok]. }
  set (hd := PutString (ascii "ann") ++ PutString (ascii "ssh-connection") ++ PutString (ascii "publickey")).
  set (ab := PutString (ascii "ssh-ed25519") ++ PutString ed_key).
  exists (hd ++ [1] ++ ab), (PutString ex_sid ++ [50] ++ (hd ++ [1] ++ ab) ++ []).
  split; [|split; [|split; [|split] ] ].
  - exists hd, ab, (PutString ed_sig). split; [reflexivity|]. split; [vm_compute; reflexivity|].
    split; [exists [PutString (ascii "ann"); PutString (ascii "ssh-connection"); PutString (ascii "publickey")];
            split; [reflexivity|repeat constructor; apply S; vm_compute; reflexivity]|].
    split; [discriminate|]. split; [|apply S; vm_compute; reflexivity].
    exists [PutString (ascii "ssh-ed25519"); PutString ed_key].
    split; [unfold ab; cbn [List.concat]; rewrite app_nil_r; reflexivity|repeat constructor; apply S; vm_compute; reflexivity].
  - exists [PutString (ascii "ssh-ed25519"); PutString [9; 9] ].
    split; [reflexivity|repeat constructor; apply S; vm_compute; reflexivity].
  - exists [PutString (ascii "ssh-ed25519"); PutString [7; 9; 9] ].
    split; [reflexivity|repeat constructor; apply S; vm_compute; reflexivity].
  - exists (PutString ex_sid). split; [apply S; vm_compute; reflexivity|reflexivity].
  - reflexivity.
Qed.

(* three refusals with a limit of two: the second ends the connection *)
Example ex_limit : exists s r, after ex_cfg ex_crypto 2 ex_sid
    [(request "ann" "password" (0 :: PutString (ascii "x")), says CbFailure);
     (request "ann" "password" (0 :: PutString (ascii "y")), says CbFailure);
     (request "ann" "password" (0 :: PutString (ascii "z")), says CbSuccess)] s r /\
  In (EDisconnect 14) (a_log s) /\ a_client s = CLIENT_USERAUTH_REQUEST_DONE.
Proof.
  set (h := [_; _; _]).
  destruct (C09_total ex_cfg ex_crypto 2 ex_sid h) as (s & r & A); [apply wf_b_ok; vm_compute; reflexivity|vm_compute; reflexivity|lia|vm_compute; reflexivity|].
  exists s, r. split; [exact A|]. destruct A as (_ & _ & _ & _ & A).
  assert (B : match run ex_cfg ex_crypto (init_auth 2 ex_sid) h WS_SUCCESS with
              | Some (s, r) => existsb (fun e => match e with EDisconnect 14 => true | _ => false end) (a_log s) && (a_client s =? 4)
              | None => false end = true) by (vm_compute; reflexivity).
  rewrite A in B. apply andb_true_iff in B. destruct B as (B1 & B2). split; [|apply N.eqb_eq; exact B2].
  apply existsb_exists in B1. destruct B1 as (e & He & Hb).
  assert (Ee : e = EDisconnect 14).
  { destruct e; try discriminate Hb. destruct (N.eq_dec reason 14) as [->|Hn]; [reflexivity|].
    exfalso. revert Hb Hn. clear. intros Hb Hn.
    destruct reason as [|p]; [discriminate|]. do 4 (destruct p; try discriminate Hb). apply Hn. reflexivity. }
  rewrite <- Ee. exact He.
Qed.

(* The application declines to set up prompts; an answer with no responses is
   put to it nevertheless, and accepted. *)
Definition declined_h : list (amsg * answers) :=
  [(request "ann" "keyboard-interactive" (PutString [] ++ PutString []), says CbFailure);
   (MInfoResponse [0; 0; 0; 0], says CbSuccess)].

Theorem C41_answers_need_prompts_refuted : ~ answers_need_prompts.
Proof.
  intros F.
  destruct (C09_total ex_cfg ex_crypto 6 ex_sid declined_h) as (s & r & A); [apply wf_b_ok; vm_compute; reflexivity|vm_compute; reflexivity|lia|vm_compute; reflexivity|].
  pose proof (F _ _ _ _ _ _ _ A) as X. destruct A as (_ & _ & _ & _ & A).
  assert (B : match run ex_cfg ex_crypto (init_auth 6 ex_sid) declined_h WS_SUCCESS with
              | Some (s, r) => (countP is_prompt (a_log s) <? countP is_response (a_log s)) && (a_client s =? 5)
              | None => false end = true) by (vm_compute; reflexivity).
  rewrite A in B. apply andb_true_iff in B. destruct B as (B1 & _). apply N.ltb_lt in B1. lia.
Qed.

Print Assumptions C09_grant.
Print Assumptions C09_history.
Print Assumptions C09_offer_grants_nothing.
Print Assumptions C09_password_accepted.
Print Assumptions C09_ed25519_accepted.
Print Assumptions C10_bounded.
Print Assumptions C10_limit_ends.
Print Assumptions C10_not_early.
Print Assumptions C11_one_user.
Print Assumptions C11_bound_once.
Print Assumptions C11_other_user.
Print Assumptions C41_answers_partial.
Print Assumptions C41_answers_need_prompts_refuted.
Print Assumptions C42_asked_what_was_sent.
