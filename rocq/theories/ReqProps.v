(* ReqProps.v - C34, C36 and C47: channel requests, remote forwarding requests
   and what the application is told. The vocabulary is in ReqSpec.v. *)
From Verif Require Import Base WireModel WireSpec WireProofs NameTable NegoModel NegoSpec NegoProofs ChanModel ChanProofs ChanStep ChanProps ReqModel ReqSpec ReqProofs ReqProofs2 ReqProofs3.
From Coq Require Import List NArith ZArith Bool Lia String.
Import ListNotations.
Open Scope N_scope.

(* ------------------------------------------------------------------ *)
(* C34                                                                  *)

(* The reply: a request for an existing channel that asks for a reply, and is
   not of a kind that is never answered, gets exactly one - success when the
   build serves it, it is well formed and no callback refuses it, failure
   otherwise - addressed to the peer's number of that channel; unless it
   could not be queued, which the call reports. A request that asks for none,
   or is never answered, gets none. The list of channels does not change. *)
Theorem C34_reply : forall e a buf q id type want rest c,
  bytes_ok buf -> is32 (lenN buf) -> request id type want rest buf ->
  NoDup (map c_id (s_list (q_cs q))) -> In c (s_list (q_cs q)) -> c_id c = id -> is32 (c_peer c) ->
  exists ret q', DoChannelRequest e a buf q = Some (ret, q') /\
    s_list (q_cs q') = s_list (q_cs q) /\
    (want = 0 \/ unanswered e type -> s_log (q_cs q') = s_log (q_cs q)) /\
    (want <> 0 -> ~ unanswered e type ->
       exists g m, reply_msg g (c_peer c) m /\
         (g = true <-> body e type rest /\ ~ refused e id type rest) /\
         (s_log (q_cs q') = s_log (q_cs q) ++ [Sent (keying (q_cs q)) id m] \/
          (s_log (q_cs q') = s_log (q_cs q) /\ ret <> WS_SUCCESS /\
           (a_prep a <> WS_SUCCESS \/ a_bund a <> WS_SUCCESS)))).
Proof.
  intros e a buf q id type want rest c Hm H32 Hr Hnd Hin Hid Hp.
  rewrite (DoChannelRequest_eq _ _ _ _ Hm H32).
  apply p_request_spec in Hr. rewrite Hr.
  destruct (answer e a id type want rest q) as (ret & q') eqn:Ea. exists ret, q'. split; [reflexivity|].
  assert (Hf : find_self id (s_list (q_cs q)) = Some c) by (rewrite <- Hid; apply find_self_in; assumption).
  destruct (answer_facts _ _ _ _ _ _ _ _ _ _ Hf Hp Ea) as (A & B & C & _). auto.
Qed.
Print Assumptions C34_reply.

(* Anything else - a header that does not parse, or a channel that does not
   exist - is an error, with no reply, no callback and no change. *)
Theorem C34_no_other_reply : forall e a buf q, bytes_ok buf -> is32 (lenN buf) ->
  (forall id type want rest, request id type want rest buf -> ~ exists c, In c (s_list (q_cs q)) /\ c_id c = id) ->
  exists ret, ret <> WS_SUCCESS /\ DoChannelRequest e a buf q = Some (ret, q).
Proof.
  intros e a buf q Hm H32 H. rewrite (DoChannelRequest_eq _ _ _ _ Hm H32).
  destruct (p_request buf) as [(((id & t) & w) & r)|] eqn:Ep.
  - apply p_request_spec in Ep. specialize (H _ _ _ _ Ep). unfold answer.
    destruct (find_self id (s_list (q_cs q))) as [c|] eqn:Ef.
    + exfalso. apply H. exists c. apply find_some in Ef. destruct Ef as (Hin & Hid). split; [exact Hin|]. lia.
    + exists WS_INVALID_CHANID. split; [discriminate|reflexivity].
  - exists WS_BUFFER_E. split; [discriminate|reflexivity].
Qed.
Print Assumptions C34_no_other_reply.

(* ---- an example: a server with one session channel (peer number 7) ------ *)
Definition demo_env : env :=
  mkEnv true true true true
    (Some (fun _ => false)) (Some (fun _ c => match c with Some [108;115] => false | _ => true end)) None
    (Some (fun w h _ _ => (0 <? w) && (0 <? h))) false
    (Some (fun _ _ p => if p =? 0 then 40000%Z else if p <? 1024 then 3%Z else 0%Z)) None.
Definition demo_q : rq :=
  mkRq (after opening) (fun _ => None) (fun _ => 0) (fun _ => false) false 0 0 0 0 [] 0 false [].
Definition put_s (s : bytes) : bytes := c32toa (lenN s) ++ s.
Definition req_of (id : N) (type : bytes) (want : N) (rest : bytes) : bytes :=
  c32toa id ++ put_s type ++ [want] ++ rest.
Definition shown (x : option (rc * rq)) : option (rc * list ev * list call) :=
  match x with
  | Some (r, q) => Some (r, skipn (Datatypes.length (s_log (q_cs demo_q))) (s_log (q_cs q)), q_calls q)
  | None => None
  end.

Example C34_demo_channel : map (fun c => (c_id c, c_peer c)) (s_list (q_cs demo_q)) = [(0, 7)].
Proof. vm_compute. reflexivity. Qed.
(* "exec ls" is granted *)
Example C34_demo_exec : shown (DoChannelRequest demo_env good (req_of 0 (ascii "exec") 1 (put_s (ascii "ls"))) demo_q)
  = Some (WS_SUCCESS, [Sent false 0 [99;0;0;0;7]], [CExec 0 (Some (ascii "ls"))]).
Proof. vm_compute. reflexivity. Qed.
(* "exec rm" is refused by the callback *)
Example C34_demo_exec_refused :
  shown (DoChannelRequest demo_env good (req_of 0 (ascii "exec") 1 (put_s (ascii "rm"))) demo_q)
  = Some (WS_SUCCESS, [Sent false 0 [100;0;0;0;7]], [CExec 0 (Some (ascii "rm"))]).
Proof. vm_compute. reflexivity. Qed.
(* an unknown type is refused; with no reply wanted it is ignored *)
Example C34_demo_unknown :
  shown (DoChannelRequest demo_env good (req_of 0 (ascii "x11-req") 1 []) demo_q)
  = Some (WS_SUCCESS, [Sent false 0 [100;0;0;0;7]], []) /\
  shown (DoChannelRequest demo_env good (req_of 0 (ascii "x11-req") 0 []) demo_q) = Some (WS_SUCCESS, [], []).
Proof. vm_compute. split; reflexivity. Qed.
(* window-change is never answered *)
Example C34_demo_window :
  shown (DoChannelRequest demo_env good
    (req_of 0 (ascii "window-change") 1 (c32toa 80 ++ c32toa 24 ++ c32toa 0 ++ c32toa 0)) demo_q)
  = Some (WS_SUCCESS, [], [CResize 80 24 0 0]).
Proof. vm_compute. reflexivity. Qed.
(* an unknown channel is an error without a reply *)
Example C34_demo_no_channel :
  shown (DoChannelRequest demo_env good (req_of 5 (ascii "shell") 1 []) demo_q) = Some (WS_INVALID_CHANID, [], []).
Proof. vm_compute. reflexivity. Qed.
Example C34_demo_hypotheses : request 0 (ascii "exec") 1 (put_s (ascii "ls")) (req_of 0 (ascii "exec") 1 (put_s (ascii "ls"))) /\
  body demo_env (ascii "exec") (put_s (ascii "ls")) /\ ~ unanswered demo_env (ascii "exec") /\
  NoDup (map c_id (s_list (q_cs demo_q))).
Proof.
  assert (Hs : forall s, is32 (lenN s) -> str s (put_s s)).
  { intros s H. exists (c32toa (lenN s)). split; [apply u32_c32; exact H|reflexivity]. }
  split; [exists (c32toa 0), (put_s (ascii "exec")); split; [apply u32_c32; reflexivity|]; split; [apply Hs; vm_compute|]; reflexivity|].
  split; [rewrite <- (app_nil_r (put_s (ascii "ls"))); eapply B_exec; apply Hs; vm_compute; reflexivity|].
  split; [no_unanswered|]. vm_compute. repeat constructor; intros [].
Qed.

(* ------------------------------------------------------------------ *)
(* C47                                                                  *)

(* The full property: the application's command callbacks run for well-formed
   requests only, with the request's own command. It does not hold: a
   malformed exec or subsystem request still runs the callback, with the
   command an earlier request left on the channel (or none). *)
Definition C47_full : Prop :=
  forall e a buf q id type want rest c ret q',
    bytes_ok buf -> is32 (lenN buf) -> request id type want rest buf ->
    NoDup (map c_id (s_list (q_cs q))) -> In c (s_list (q_cs q)) -> c_id c = id -> is32 (c_peer c) ->
    DoChannelRequest e a buf q = Some (ret, q') ->
    exists cs, q_calls q' = q_calls q ++ cs /\
      (body e type rest -> has_callback e type -> told e id type rest cs) /\
      (body e type rest -> ~ has_callback e type -> cs = []) /\
      (~ body e type rest -> cs = []).

(* after "exec ls", an exec request whose command is cut short *)
Definition stale_q : rq :=
  match DoChannelRequest demo_env good (req_of 0 (ascii "exec") 1 (put_s (ascii "ls"))) demo_q with
  | Some (_, q) => q
  | None => demo_q
  end.
Definition cut_exec : bytes := req_of 0 (ascii "exec") 1 [0;0;0;9;114;109].
Example C47_stale_command :
  match DoChannelRequest demo_env good cut_exec stale_q with
  | Some (r, q') => r = WS_BUFFER_E /\ q_calls q' = q_calls stale_q ++ [CExec 0 (Some (ascii "ls"))]
  | None => False
  end.
Proof. vm_compute. split; reflexivity. Qed.

Theorem C47_malformed_refuted : ~ C47_full.
Proof.
  intros H.
  destruct (DoChannelRequest demo_env good cut_exec stale_q) as [(ret & q')|] eqn:E; [|vm_compute in E; discriminate E].
  assert (Hb : bytes_ok cut_exec) by (vm_compute; repeat constructor).
  assert (Hr : request 0 (ascii "exec") 1 [0;0;0;9;114;109] cut_exec).
  { exists (c32toa 0), (put_s (ascii "exec")). split; [apply u32_c32; reflexivity|]. split; [|reflexivity].
    exists (c32toa 4). split; [|reflexivity]. split; vm_compute; reflexivity. }
  destruct (s_list (q_cs stale_q)) as [|c l] eqn:El; [vm_compute in El; discriminate El|].
  assert (Ec : c_id c = 0 /\ is32 (c_peer c) /\ NoDup (map c_id (c :: l))).
  { vm_compute in El. injection El as <- <-. split; [reflexivity|]. split; [reflexivity|].
    repeat constructor; intros []. }
  destruct Ec as (Ec1 & Ec2 & Ec3).
  edestruct (H demo_env good cut_exec stale_q) as (cs & K1 & _ & _ & K4).
  - exact Hb.
  - vm_compute. reflexivity.
  - exact Hr.
  - rewrite El. exact Ec3.
  - rewrite El. left. reflexivity.
  - exact Ec1.
  - exact Ec2.
  - exact E.
  - assert (K : cs = []).
    { apply K4. intros B. remember (ascii "exec") as ty eqn:Ety. remember [0;0;0;9;114;109] as rest eqn:Er.
      destruct B; names. pose proof (p_str_app _ _ x H0) as P. rewrite Er in P. vm_compute in P. discriminate P. }
    subst cs. rewrite app_nil_r in K1. revert K1.
    pose proof C47_stale_command as S. rewrite E in S. destruct S as (_ & ->).
    intros K1. apply (f_equal (@Datatypes.length call)) in K1. rewrite app_length in K1. cbn in K1. lia.
Qed.
Print Assumptions C47_malformed_refuted.

(* Proved: a well-formed request tells the application exactly once, through
   the callback for its type and with its own contents; one that is not well
   formed, and is not exec or subsystem, tells it nothing. *)
Theorem C47_callbacks_partial : forall e a buf q id type want rest c ret q',
  bytes_ok buf -> is32 (lenN buf) -> request id type want rest buf ->
  NoDup (map c_id (s_list (q_cs q))) -> In c (s_list (q_cs q)) -> c_id c = id -> is32 (c_peer c) ->
  DoChannelRequest e a buf q = Some (ret, q') ->
  exists cs, q_calls q' = q_calls q ++ cs /\
    (body e type rest -> has_callback e type -> told e id type rest cs) /\
    (body e type rest -> ~ has_callback e type -> cs = []) /\
    (~ body e type rest -> type <> ascii "exec" -> type <> ascii "subsystem" -> cs = []).
Proof.
  intros e a buf q id type want rest c ret q' Hm H32 Hr Hnd Hin Hid Hp H.
  rewrite (DoChannelRequest_eq _ _ _ _ Hm H32) in H.
  apply p_request_spec in Hr. rewrite Hr in H.
  destruct (answer e a id type want rest q) as (ret1 & q1) eqn:Ea.
  assert (q1 = q') by congruence. subst q1.
  assert (Hf : find_self id (s_list (q_cs q)) = Some c) by (rewrite <- Hid; apply find_self_in; assumption).
  apply (answer_facts _ _ _ _ _ _ _ _ _ _ Hf Hp Ea).
Qed.
Print Assumptions C47_callbacks_partial.

(* Whatever was requested, a command stored for a channel is the command of
   the last well-formed exec or subsystem request on it: a request changes the
   stored command only so. *)
Theorem C47_command : forall e a buf q ret q' i, bytes_ok buf -> is32 (lenN buf) ->
  DoChannelRequest e a buf q = Some (ret, q') ->
  q_cmd q' i = q_cmd q i \/
  exists type want rest cmd cb x, request i type want rest buf /\ (type = ascii "exec" \/ type = ascii "subsystem") /\
    rest = cb ++ x /\ str cmd cb /\ q_cmd q' i = Some cmd.
Proof.
  intros e a buf q ret q' i Hm H32 H. rewrite (DoChannelRequest_eq _ _ _ _ Hm H32) in H.
  destruct (p_request buf) as [(((id & t) & w) & r)|] eqn:Ep; [|left; congruence].
  apply p_request_spec in Ep.
  assert (Ea : answer e a id t w r q = (ret, q')) by congruence. clear H. unfold answer in Ea.
  destruct (find_self id (s_list (q_cs q))) as [c|]; [|left; congruence].
  assert (K : match handle_t e id (takeN 31 t) r q with (_, _, _, q1) =>
    q_cmd q1 i = q_cmd q i \/
    (i = id /\ (t = ascii "exec" \/ t = ascii "subsystem") /\
     exists cmd x, p_str r = Some (cmd, x) /\ q_cmd q1 i = Some cmd) end).
  { assert (Hcut : forall s, lenN (ascii s) < 31 -> bytes_eqb (takeN 31 t) (ascii s) = true -> t = ascii s).
    { intros s Hs E. apply bytes_eqb_eq in E.
      destruct (N.leb_spec (lenN t) 31) as [L|L]; [rewrite takeN_all in E by exact L; exact E|].
      assert (L' : lenN (takeN 31 t) = 31) by (rewrite lenN_takeN; lia). rewrite E in L'. lia. }
    unfold handle_t.
    rewrite name_env, name_shell, name_exec, name_subsys.
    destruct (bytes_eqb (takeN 31 t) (ascii "env")).
    { unfold h_env. destruct (p_str r) as [(n, r1)|]; [destruct (p_str r1)|]; left; reflexivity. }
    destruct (bytes_eqb (takeN 31 t) (ascii "shell")).
    { unfold h_shell. cbv zeta. destruct (cb_shell e); left; reflexivity. }
    destruct (bytes_eqb (takeN 31 t) (ascii "exec")) eqn:E3.
    { apply Hcut in E3; [|vm_compute; reflexivity]. unfold h_cmd.
      destruct (p_str r) as [(s, x)|]; cbv zeta; [|destruct (cb_exec e); left; reflexivity].
      destruct (cb_exec e); cbn [q_cmd q_set_done q_called q_set_type q_set_cmd];
        (destruct (N.eqb_spec i id) as [Hi|Hi]; [right|left; reflexivity]);
        (split; [exact Hi|split; [auto|exists s, x; auto]]). }
    destruct (bytes_eqb (takeN 31 t) (ascii "subsystem")) eqn:E4.
    { apply Hcut in E4; [|vm_compute; reflexivity]. unfold h_cmd.
      destruct (p_str r) as [(s, x)|]; cbv zeta; [|destruct (cb_subsys e); left; reflexivity].
      destruct (cb_subsys e); cbn [q_cmd q_set_done q_called q_set_type q_set_cmd];
        (destruct (N.eqb_spec i id) as [Hi|Hi]; [right|left; reflexivity]);
        (split; [exact Hi|split; [auto|exists s, x; auto]]). }
    destruct (b_term e && _).
    { unfold h_pty, resize_t. cbv zeta.
      repeat match goal with |- context [match ?x with Some _ => _ | None => _ end] => destruct x as [[? ?]|] end;
      try (destruct (cb_resize e)); left; reflexivity. }
    destruct (b_shell e && b_term e && _).
    { unfold h_win, resize_t.
      destruct (p_u32 r) as [[? r1]|]; [|left; reflexivity]. destruct (p_u32 r1) as [[? r2]|]; [|left; reflexivity].
      destruct (p_u32 r2) as [[? r3]|]; [|left; reflexivity]. destruct (p_u32 r3) as [[? r4]|]; [|left; reflexivity].
      destruct (cb_resize e); left; reflexivity. }
    destruct ((b_term e || b_shell e) && _).
    { unfold h_status. destruct (p_u32 r) as [[? ?]|]; left; reflexivity. }
    destruct ((b_term e || b_shell e) && _).
    { unfold h_signal. destruct (p_str r) as [[? r1]|]; [|left; reflexivity].
      destruct (p_byte r1) as [[? r2]|]; [|left; reflexivity].
      destruct (p_str r2) as [[? r3]|]; [|left; reflexivity]. destruct (p_str r3) as [[? r4]|]; left; reflexivity. }
    destruct (b_agent e && _); [destruct (cb_agent e)|]; left; reflexivity. }
  destruct (handle_t e id (takeN 31 t) r q) as (((ret1 & rej) & nr) & q1).
  assert (E : q_cmd q' i = q_cmd q1 i).
  { destruct nr; [congruence|]. destruct (w =? 0); [congruence|].
    destruct (send_msg id _ a (q_cs q1)) as (rr & ss). apply pair_equal_spec in Ea. destruct Ea as (_ & <-). reflexivity. }
  rewrite E. destruct K as [K|(-> & Ht & cmd & x & Kp & K)]; [left; exact K|right].
  destruct (p_str_some _ _ _ Kp) as (cb & Hc & ->). exists t, w, (cb ++ x), cmd, cb, x. auto 6.
Qed.
Print Assumptions C47_command.

(* ------------------------------------------------------------------ *)
(* C36                                                                  *)

(* Setting up a remote forward: the application is asked once, with the
   address and port of the request. It is granted as [fwd_granted] says, and
   the reply then carries the port bound. Otherwise the reply is failure; if
   the application had accepted (a port-0 request without a usable port), it
   is told to undo what it did. *)
Theorem C36_setup : forall e a buf q want rest addr port f,
  bytes_ok buf -> is32 (lenN buf) -> b_fwd e = true -> cb_fwd e = Some f ->
  greq (ascii "tcpip-forward") want rest buf -> fwd_body addr port rest ->
  exists ret q', DoGlobalRequest e a buf q = Some (ret, q') /\ (want = 0 -> ret = WS_SUCCESS) /\
    let v := f false addr port in
    ((exists bound pb, fwd_granted port v bound /\ u32 bound pb /\
        q_calls q' = q_calls q ++ [CFwd false addr port] /\
        replied want a (81 :: pb) ret (q_cs q) (q_cs q')) \/
     ((forall bound, ~ fwd_granted port v bound) /\
        ((v = 0 \/ 1024 <= v)%Z -> q_calls q' = q_calls q ++ [CFwd false addr port; CFwd true addr 0]) /\
        (~ (v = 0 \/ 1024 <= v)%Z -> q_calls q' = q_calls q ++ [CFwd false addr port]) /\
        replied want a [82] ret (q_cs q) (q_cs q'))).
Proof.
  intros e a buf q want rest addr port f Hm H32 Hb Hf Hg Hbody.
  assert (Hport : is32 port).
  { destruct Hbody as (ab & pb & x & _ & (Hl & <-) & Er).
    assert (Hok : bytes_ok pb).
    { destruct Hg as (nb & _ & ->). rewrite Er in Hm. unfold bytes_ok in *.
      rewrite !Forall_app in Hm. tauto. }
    destruct pb as [|b0 [|b1 [|b2 [|b3 [|]]]]]; try discriminate Hl; [|rewrite !lenN_cons in Hl; lia].
    rewrite be_value_4. unfold bytes_ok in Hok. inversion Hok as [|? ? O0 Hok1]. inversion Hok1 as [|? ? O1 Hok2].
    inversion Hok2 as [|? ? O2 Hok3]. inversion Hok3 as [|? ? O3 Hok4]. unfold byte_ok in *. unfold is32, W32. lia. }
  rewrite (greq_eq _ _ _ _ Hm H32).
  assert (Hne : (lenN buf =? 0) = false).
  { destruct Hg as (nb & (l & (Hl & _) & ->) & ->). rewrite !lenN_app, Hl. lia. }
  rewrite Hne. apply p_greq_spec in Hg. rewrite Hg. cbv zeta. rewrite Hb.
  rewrite (takeN_all _ 79) by (vm_compute; discriminate).
  rewrite (proj2 (fwd_name _) eq_refl). cbn [andb].
  apply p_fwd_spec in Hbody as Hp. rewrite Hp.
  unfold fwd_decide. rewrite Hf. set (v := f false addr port). cbv zeta.
  change WS_FWD_PORT_CHECK with 1024%Z. change (Z.to_N 1024) with 1024. change WS_FWD_SUCCESS with 0%Z. cbn [negb andb].
  (* the outcome by cases *)
  assert (Hcases :
    (exists bound, fwd_granted port v bound /\ is32 bound /\
       (let '(ret, bindPort) := if (1024 <=? v)%Z then (WS_SUCCESS, if (port =? 0) && (v <=? 65535)%Z then word_of_int v else port)
          else if negb (v =? 0)%Z then (WS_RESOURCE_E, port) else (WS_SUCCESS, port) in
        if rc_eqb ret WS_SUCCESS && true && (port =? 0) && (bindPort <? 1024)
        then (WS_RESOURCE_E, bindPort, q_called (CFwd true addr bindPort) (q_called (CFwd false addr port) q))
        else (ret, bindPort, q_called (CFwd false addr port) q)) = (WS_SUCCESS, bound, q_called (CFwd false addr port) q)) \/
    ((forall bound, ~ fwd_granted port v bound) /\
     exists p cs, 
       (let '(ret, bindPort) := if (1024 <=? v)%Z then (WS_SUCCESS, if (port =? 0) && (v <=? 65535)%Z then word_of_int v else port)
          else if negb (v =? 0)%Z then (WS_RESOURCE_E, port) else (WS_SUCCESS, port) in
        if rc_eqb ret WS_SUCCESS && true && (port =? 0) && (bindPort <? 1024)
        then (WS_RESOURCE_E, bindPort, q_called (CFwd true addr bindPort) (q_called (CFwd false addr port) q))
        else (ret, bindPort, q_called (CFwd false addr port) q)) = (WS_RESOURCE_E, p, cs) /\ q_cs cs = q_cs q /\
       ((v = 0 \/ 1024 <= v)%Z -> q_calls cs = q_calls q ++ [CFwd false addr port; CFwd true addr 0]) /\
       (~ (v = 0 \/ 1024 <= v)%Z -> q_calls cs = q_calls q ++ [CFwd false addr port]))).
  { unfold fwd_granted. destruct (Z.leb_spec 1024 v) as [V1|V1].
    - destruct (N.eqb_spec port 0) as [P|P]; cbn [andb rc_eqb].
      + destruct (Z.leb_spec v 65535) as [V2|V2].
        * left. exists (word_of_int v).
          assert (W : Z.of_N (word_of_int v) = v).
          { unfold word_of_int. rewrite Z.mod_small by lia. apply Z2N.id. lia. }
          split; [right; auto|]. split; [unfold is32, W32; lia|].
          destruct (N.ltb_spec (word_of_int v) 1024); [lia|]. reflexivity.
        * right. split; [intros b [(K & _)|(_ & K & _)]; [contradiction|lia]|].
          subst port. cbn [N.ltb N.compare].
          exists 0. eexists. split; [reflexivity|]. split; [reflexivity|]. split; intros K.
          -- cbn [q_calls q_called]. rewrite <- app_assoc. reflexivity.
          -- exfalso. apply K. right. lia.
      + left. exists port. split; [left; split; [exact P|]; split; [right; lia|reflexivity]|]. split; [exact Hport|reflexivity].
    - destruct (Z.eqb_spec v 0) as [V0|V0]; cbn [negb].
      + destruct (N.eqb_spec port 0) as [P|P]; cbn [andb rc_eqb].
        * right. split; [intros b [(K & _)|(_ & K & _)]; [contradiction|lia]|].
          subst port. cbn [N.ltb N.compare].
          exists 0. eexists. split; [reflexivity|]. split; [reflexivity|]. split; intros K.
          -- cbn [q_calls q_called]. rewrite <- app_assoc. reflexivity.
          -- exfalso. apply K. left. exact V0.
        * left. exists port. split; [left; auto|]. split; [exact Hport|reflexivity].
      + right. split; [intros b [(_ & [K|K] & _)|(_ & K & _)]; lia|].
        exists port, (q_called (CFwd false addr port) q). cbn [rc_eqb andb]. split; [reflexivity|]. split; [reflexivity|].
        split; [intros [K|K]; lia|]. intros _. reflexivity. }
  destruct Hcases as [(bound & G & Hb32 & ->)|(G & p & q1 & -> & Hcs & Hc1 & Hc2)].
  - destruct (fwd_finish a want false (WS_SUCCESS, bound, q_called (CFwd false addr port) q)) as (ret & q') eqn:Ef.
    exists ret, q'. split; [reflexivity|].
    destruct (finish_replied _ _ _ _ _ _ _ _ Ef) as (Hk & Hrep & Hw). split; [exact Hw|]. left.
    exists bound, (c32toa bound). split; [exact G|]. split; [apply u32_c32; exact Hb32|].
    split; [rewrite Hk; reflexivity|exact Hrep].
  - destruct (fwd_finish a want false (WS_RESOURCE_E, p, q1)) as (ret & q') eqn:Ef.
    exists ret, q'. split; [reflexivity|].
    destruct (finish_replied _ _ _ _ _ _ _ _ Ef) as (Hk & Hrep & Hw). split; [exact Hw|]. right.
    rewrite Hk. rewrite Hcs in Hrep. auto.
Qed.
Print Assumptions C36_setup.

(* Cancelling: the application is asked once; only 0 grants it. *)
Theorem C36_cancel : forall e a buf q want rest addr port f,
  bytes_ok buf -> is32 (lenN buf) -> b_fwd e = true -> cb_fwd e = Some f ->
  greq (ascii "cancel-tcpip-forward") want rest buf -> fwd_body addr port rest ->
  exists ret q', DoGlobalRequest e a buf q = Some (ret, q') /\ (want = 0 -> ret = WS_SUCCESS) /\
    q_calls q' = q_calls q ++ [CFwd true addr port] /\
    ((f true addr port = 0%Z /\ replied want a [81] ret (q_cs q) (q_cs q')) \/
     (f true addr port <> 0%Z /\ replied want a [82] ret (q_cs q) (q_cs q'))).
Proof.
  intros e a buf q want rest addr port f Hm H32 Hb Hf Hg Hbody.
  rewrite (greq_eq _ _ _ _ Hm H32).
  assert (Hne : (lenN buf =? 0) = false).
  { destruct Hg as (nb & (l & (Hl & _) & ->) & ->). rewrite !lenN_app, Hl. lia. }
  rewrite Hne. apply p_greq_spec in Hg. rewrite Hg. cbv zeta. rewrite Hb.
  rewrite (takeN_all _ 79) by (vm_compute; discriminate).
  assert (E1 : (NameToId (ascii "cancel-tcpip-forward") =? ID_GLOBREQ_TCPIP_FWD) = false) by (vm_compute; reflexivity).
  rewrite E1, (proj2 (cancel_name _) eq_refl). cbn [andb].
  apply p_fwd_spec in Hbody. rewrite Hbody.
  unfold fwd_decide. rewrite Hf. cbv zeta. cbn [negb andb]. change WS_FWD_SUCCESS with 0%Z.
  destruct (Z.eqb_spec (f true addr port) 0) as [V|V]; cbn [negb]; rewrite ?andb_false_r; cbn [andb].
  - destruct (fwd_finish a want true (WS_SUCCESS, port, q_called (CFwd true addr port) q)) as (ret & q') eqn:Ef.
    exists ret, q'. split; [reflexivity|].
    destruct (finish_replied _ _ _ _ _ _ _ _ Ef) as (Hk & Hrep & Hw). split; [exact Hw|]. split; [rewrite Hk; reflexivity|].
    left. split; [exact V|exact Hrep].
  - destruct (fwd_finish a want true (WS_RESOURCE_E, port, q_called (CFwd true addr port) q)) as (ret & q') eqn:Ef.
    exists ret, q'. split; [reflexivity|].
    destruct (finish_replied _ _ _ _ _ _ _ _ Ef) as (Hk & Hrep & Hw). split; [exact Hw|]. split; [rewrite Hk; reflexivity|].
    right. split; [exact V|exact Hrep].
Qed.
Print Assumptions C36_cancel.

(* Without a callback, or when the body does not parse, nobody is asked and
   the request is refused. *)
Theorem C36_refused : forall e a buf q want rest name,
  bytes_ok buf -> is32 (lenN buf) -> b_fwd e = true ->
  name = ascii "tcpip-forward" \/ name = ascii "cancel-tcpip-forward" -> greq name want rest buf ->
  cb_fwd e = None \/ (forall addr port, ~ fwd_body addr port rest) ->
  exists ret q', DoGlobalRequest e a buf q = Some (ret, q') /\ q_calls q' = q_calls q /\
    replied want a [82] ret (q_cs q) (q_cs q').
Proof.
  intros e a buf q want rest name Hm H32 Hb Hn Hg Hbad.
  rewrite (greq_eq _ _ _ _ Hm H32).
  assert (Hne : (lenN buf =? 0) = false).
  { destruct Hg as (nb & (l & (Hl & _) & ->) & ->). rewrite !lenN_app, Hl. lia. }
  rewrite Hne. apply p_greq_spec in Hg. rewrite Hg. cbv zeta. rewrite Hb.
  assert (Hd : forall c, exists r p, rc_eqb r WS_SUCCESS = false /\ fwd_decide e c (p_fwd rest) q = (r, p, q)).
  { intros c. destruct (p_fwd rest) as [(addr & port)|] eqn:Ep.
    - destruct Hbad as [K|K]; [|exfalso; apply p_fwd_spec in Ep; exact (K _ _ Ep)].
      unfold fwd_decide. rewrite K. do 2 eexists. split; [|reflexivity]. reflexivity.
    - unfold fwd_decide. do 2 eexists. split; [|reflexivity]. reflexivity. }
  assert (Hfin : forall c, exists ret q', Some (fwd_finish a want c (fwd_decide e c (p_fwd rest) q)) = Some (ret, q') /\
    q_calls q' = q_calls q /\ replied want a [82] ret (q_cs q) (q_cs q')).
  { intros c. destruct (Hd c) as (r & p & Hr & ->). destruct (fwd_finish a want c (r, p, q)) as (ret & q') eqn:Ef.
    exists ret, q'. split; [reflexivity|]. destruct (finish_replied _ _ _ _ _ _ _ _ Ef) as (Hk & Hrep & _).
    rewrite Hr in Hrep. split; [exact Hk|exact Hrep]. }
  destruct Hn as [-> | ->]; rewrite (takeN_all _ 79) by (vm_compute; discriminate).
  - rewrite (proj2 (fwd_name _) eq_refl). cbn [andb]. apply Hfin.
  - assert (E1 : (NameToId (ascii "cancel-tcpip-forward") =? ID_GLOBREQ_TCPIP_FWD) = false) by (vm_compute; reflexivity).
    rewrite E1, (proj2 (cancel_name _) eq_refl). cbn [andb]. apply Hfin.
Qed.
Print Assumptions C36_refused.

(* Every other global request: the application's global request callback,
   when set, is asked once (its name argument is the first 79 bytes of the
   name) and its answer is the reply; without it the reply is failure. *)
Theorem C36_other : forall e a buf q want rest name,
  bytes_ok buf -> is32 (lenN buf) -> greq name want rest buf ->
  b_fwd e = false \/ (name <> ascii "tcpip-forward" /\ name <> ascii "cancel-tcpip-forward") ->
  exists ret q' (g : bool), DoGlobalRequest e a buf q = Some (ret, q') /\
    replied want a [if g then 81 else 82] ret (q_cs q) (q_cs q') /\
    match cb_global e with
    | Some f => q_calls q' = q_calls q ++ [CGlobal (takeN 79 name) want] /\ (g = true <-> f (takeN 79 name) want = WS_SUCCESS)
    | None => q_calls q' = q_calls q /\ g = false
    end.
Proof.
  intros e a buf q want rest name Hm H32 Hg Hn.
  rewrite (greq_eq _ _ _ _ Hm H32).
  assert (Hne : (lenN buf =? 0) = false).
  { destruct Hg as (nb & (l & (Hl & _) & ->) & ->). rewrite !lenN_app, Hl. lia. }
  rewrite Hne. apply p_greq_spec in Hg. rewrite Hg. cbv zeta.
  assert (E1 : b_fwd e && (NameToId (takeN 79 name) =? ID_GLOBREQ_TCPIP_FWD) = false).
  { destruct Hn as [-> |(K & _)]; [reflexivity|]. destruct (NameToId _ =? ID_GLOBREQ_TCPIP_FWD) eqn:E; [|apply andb_false_r].
    apply fwd_name in E. apply (fun H => proj1 (name_cut name _ H)) in E; [|vm_compute; reflexivity]. contradiction. }
  assert (E2 : b_fwd e && (NameToId (takeN 79 name) =? ID_GLOBREQ_TCPIP_FWD_CANCEL) = false).
  { destruct Hn as [-> |(_ & K)]; [reflexivity|]. destruct (NameToId _ =? ID_GLOBREQ_TCPIP_FWD_CANCEL) eqn:E; [|apply andb_false_r].
    apply cancel_name in E. apply (fun H => proj1 (name_cut name _ H)) in E; [|vm_compute; reflexivity]. contradiction. }
  rewrite E1, E2. clear E1 E2.
  assert (Hrep : forall (g : bool) ret0 q0, exists ret q', 
     (if negb (want =? 0) then let '(r, s) := SendRequestSuccess g a (q_cs q0) in Some (r, q_set_cs s q0) else Some (ret0, q0))
       = Some (ret, q') /\ replied want a [if g then 81 else 82] ret (q_cs q0) (q_cs q') /\ q_calls q' = q_calls q0).
  { intros g ret0 q0. destruct (N.eqb_spec want 0) as [W|W]; cbn [negb].
    - exists ret0, q0. split; [reflexivity|]. split; [|reflexivity].
      unfold replied. split; [reflexivity|]. split; [reflexivity|]. intros K; contradiction.
    - unfold SendRequestSuccess.
      destruct (send_msg 0 [if g then MSGID_REQUEST_SUCCESS else MSGID_REQUEST_FAILURE] a (q_cs q0)) as (r & s) eqn:Es.
      exists r, (q_set_cs s q0). split; [reflexivity|]. split; [|reflexivity].
      destruct (send_msg_cases _ _ _ _ _ _ Es) as (Hl & Hlog). unfold replied. split; [exact Hl|].
      split; [intros K; contradiction|]. intros _. exact Hlog. }
  destruct (cb_global e) as [f|].
  - destruct (Hrep (rc_eqb (f (takeN 79 name) want) WS_SUCCESS) (f (takeN 79 name) want) (q_called (CGlobal (takeN 79 name) want) q))
      as (ret & q' & E & R & K).
    exists ret, q', (rc_eqb (f (takeN 79 name) want) WS_SUCCESS). split; [exact E|]. split; [exact R|].
    split; [rewrite K; reflexivity|apply rc_eqb_eq].
  - destruct (Hrep false WS_SUCCESS q) as (ret & q' & E & R & K).
    exists ret, q', false. split; [exact E|]. split; [exact R|]. auto.
Qed.
Print Assumptions C36_other.

Definition greq_of (name : bytes) (want : N) (rest : bytes) : bytes := put_s name ++ [want] ++ rest.
(* a dynamic port, a fixed port, a privileged port, an unanswered one, a
   keep-alive *)
Example C36_demo :
  shown (DoGlobalRequest demo_env good (greq_of (ascii "tcpip-forward") 1 (put_s (ascii "h") ++ c32toa 0)) demo_q)
    = Some (WS_SUCCESS, [Sent false 0 [81;0;0;156;64]], [CFwd false (ascii "h") 0]) /\
  shown (DoGlobalRequest demo_env good (greq_of (ascii "tcpip-forward") 1 (put_s (ascii "h") ++ c32toa 2000)) demo_q)
    = Some (WS_SUCCESS, [Sent false 0 [81;0;0;7;208]], [CFwd false (ascii "h") 2000]) /\
  shown (DoGlobalRequest demo_env good (greq_of (ascii "tcpip-forward") 1 (put_s (ascii "h") ++ c32toa 22)) demo_q)
    = Some (WS_SUCCESS, [Sent false 0 [82]], [CFwd false (ascii "h") 22]) /\
  shown (DoGlobalRequest demo_env good (greq_of (ascii "cancel-tcpip-forward") 0 (put_s (ascii "h") ++ c32toa 22)) demo_q)
    = Some (WS_SUCCESS, [], [CFwd true (ascii "h") 22]) /\
  shown (DoGlobalRequest demo_env good (greq_of (ascii "keepalive@openssh.com") 1 []) demo_q)
    = Some (WS_SUCCESS, [Sent false 0 [82]], []).
Proof. vm_compute. repeat split; reflexivity. Qed.
(* an application that accepts port 0 without naming a port is told to undo *)
Definition lazy_env : env := mkEnv true true true true None None None None false (Some (fun _ _ _ => 0%Z)) None.
Example C36_demo_undo :
  shown (DoGlobalRequest lazy_env good (greq_of (ascii "tcpip-forward") 1 (put_s (ascii "h") ++ c32toa 0)) demo_q)
    = Some (WS_SUCCESS, [Sent false 0 [82]], [CFwd false (ascii "h") 0; CFwd true (ascii "h") 0]).
Proof. vm_compute. reflexivity. Qed.
