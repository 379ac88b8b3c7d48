(* ReqSpec.v - the vocabulary of C34, C36 and C47: the layout of channel and
   global requests (RFC 4254 sections 4, 5.4, 6 and 7.1), written as
   concatenations and without the reader functions. *)
From Verif Require Import Base WireSpec NegoSpec ChanModel ReqModel.
From Coq Require Import List NArith ZArith String.
Import ListNotations.
Open Scope N_scope.

(* a uint32 and a string on the wire *)
Definition u32 (v : N) (b : bytes) : Prop := lenN b = 4 /\ be_value b = v.
Definition str (s b : bytes) : Prop := exists l, u32 (lenN s) l /\ b = l ++ s.

(* [body e type rest]: the build serves requests of this type, and what
   follows the want-reply byte is laid out as RFC 4254 says (bytes after the
   last field are ignored). *)
Inductive body (e : env) : bytes -> bytes -> Prop :=
| B_env : forall n v nb vb x, str n nb -> str v vb -> body e (ascii "env") (nb ++ vb ++ x)
| B_shell : forall x, body e (ascii "shell") x
| B_exec : forall c cb x, str c cb -> body e (ascii "exec") (cb ++ x)
| B_subsys : forall c cb x, str c cb -> body e (ascii "subsystem") (cb ++ x)
| B_pty : forall t w h wp hp m tb wb hb wpb hpb mb x, b_term e = true ->
    str t tb -> u32 w wb -> u32 h hb -> u32 wp wpb -> u32 hp hpb -> str m mb ->
    body e (ascii "pty-req") (tb ++ wb ++ hb ++ wpb ++ hpb ++ mb ++ x)
| B_window : forall w h wp hp wb hb wpb hpb x, b_term e = true -> b_shell e = true ->
    u32 w wb -> u32 h hb -> u32 wp wpb -> u32 hp hpb ->
    body e (ascii "window-change") (wb ++ hb ++ wpb ++ hpb ++ x)
| B_status : forall s sb x, b_term e = true \/ b_shell e = true ->
    u32 s sb -> body e (ascii "exit-status") (sb ++ x)
| B_signal : forall n d t l nb tb lb x, b_term e = true \/ b_shell e = true ->
    str n nb -> str t tb -> str l lb ->
    body e (ascii "exit-signal") (nb ++ [d] ++ tb ++ lb ++ x)
| B_agent : forall x, b_agent e = true -> body e (ascii "auth-agent-req@openssh.com") x.

(* The kinds RFC 4254 (6.7, 6.10) says are never answered, in the builds that
   serve them. In other builds they are unknown types. *)
Definition unanswered (e : env) (type : bytes) : Prop :=
  (type = ascii "window-change" /\ b_term e = true /\ b_shell e = true) \/
  ((type = ascii "exit-status" \/ type = ascii "exit-signal") /\ (b_term e = true \/ b_shell e = true)).

(* The application callback for this request is set and turns it down. *)
Inductive refused (e : env) (id : N) : bytes -> bytes -> Prop :=
| R_shell : forall f x, cb_shell e = Some f -> f id = true -> refused e id (ascii "shell") x
| R_exec : forall f c cb x, cb_exec e = Some f -> str c cb -> f id (Some c) = true ->
    refused e id (ascii "exec") (cb ++ x)
| R_subsys : forall f c cb x, cb_subsys e = Some f -> str c cb -> f id (Some c) = true ->
    refused e id (ascii "subsystem") (cb ++ x)
| R_pty : forall f t w h wp hp tb wb hb wpb hpb x, cb_resize e = Some f ->
    str t tb -> u32 w wb -> u32 h hb -> u32 wp wpb -> u32 hp hpb -> f w h wp hp = false ->
    refused e id (ascii "pty-req") (tb ++ wb ++ hb ++ wpb ++ hpb ++ x).

(* What the application is told about a well-formed request: the callback for
   its type, with the request's own contents, once. *)
Inductive told (e : env) (id : N) : bytes -> bytes -> list call -> Prop :=
| T_shell : forall f x, cb_shell e = Some f -> told e id (ascii "shell") x [CShell id]
| T_exec : forall f c cb x, cb_exec e = Some f -> str c cb ->
    told e id (ascii "exec") (cb ++ x) [CExec id (Some c)]
| T_subsys : forall f c cb x, cb_subsys e = Some f -> str c cb ->
    told e id (ascii "subsystem") (cb ++ x) [CSubsys id (Some c)]
| T_pty : forall f t w h wp hp tb wb hb wpb hpb x, cb_resize e = Some f ->
    str t tb -> u32 w wb -> u32 h hb -> u32 wp wpb -> u32 hp hpb ->
    told e id (ascii "pty-req") (tb ++ wb ++ hb ++ wpb ++ hpb ++ x) [CResize w h wp hp]
| T_window : forall f w h wp hp wb hb wpb hpb x, cb_resize e = Some f ->
    u32 w wb -> u32 h hb -> u32 wp wpb -> u32 hp hpb ->
    told e id (ascii "window-change") (wb ++ hb ++ wpb ++ hpb ++ x) [CResize w h wp hp].

(* The callback for this type is set. *)
Definition has_callback (e : env) (type : bytes) : Prop :=
  (type = ascii "shell" /\ cb_shell e <> None) \/
  (type = ascii "exec" /\ cb_exec e <> None) \/
  (type = ascii "subsystem" /\ cb_subsys e <> None) \/
  ((type = ascii "pty-req" \/ type = ascii "window-change") /\ cb_resize e <> None).

(* A channel request as it arrives (after the message number). *)
Definition request (id : N) (type : bytes) (want : N) (rest buf : bytes) : Prop :=
  exists ib tb, u32 id ib /\ str type tb /\ buf = ib ++ tb ++ [want] ++ rest.

(* The channel reply to it: SSH_MSG_CHANNEL_SUCCESS or _FAILURE and the
   peer's channel number. *)
Definition reply_msg (granted : bool) (peer : N) (m : bytes) : Prop :=
  exists pb, u32 peer pb /\ m = (if granted then 99 else 100) :: pb.

(* A global request. *)
Definition greq (name : bytes) (want : N) (rest buf : bytes) : Prop :=
  exists nb, str name nb /\ buf = nb ++ [want] ++ rest.
(* the body of tcpip-forward and cancel-tcpip-forward *)
Definition fwd_body (addr : bytes) (port : N) (rest : bytes) : Prop :=
  exists ab pb x, str addr ab /\ u32 port pb /\ rest = ab ++ pb ++ x.

(* When the application's answer [v] grants a forwarding request for [port],
   and the port then bound: for a fixed port 0 (success) or any port-like
   answer; for port 0 only an unprivileged port number, which is the port
   bound. A cancellation is granted by 0 alone. *)
Definition fwd_granted (port : N) (v : Z) (bound : N) : Prop :=
  (port <> 0 /\ (v = 0 \/ 1024 <= v)%Z /\ bound = port) \/
  (port = 0 /\ (1024 <= v <= 65535)%Z /\ Z.of_N bound = v).

(* [m] is the reply to a global request: exactly one message when a reply was
   wanted, none otherwise; a reply that cannot be queued is reported. *)
Definition replied (want : N) (a : sendans) (m : bytes) (ret : rc) (s s' : cs) : Prop :=
  s_list s' = s_list s /\
  (want = 0 -> s_log s' = s_log s) /\
  (want <> 0 ->
     s_log s' = s_log s ++ [Sent (keying s) 0 m] \/
     (s_log s' = s_log s /\ ret <> WS_SUCCESS /\ (a_prep a <> WS_SUCCESS \/ a_bund a <> WS_SUCCESS))).
