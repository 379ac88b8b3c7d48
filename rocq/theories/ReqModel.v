(* ReqModel.v - channel requests and global requests: parsing, callbacks and
   replies.
   Models src/internal.c 10709-10884 (DoGlobalRequestFwd, DoGlobalRequest),
   11606-11836 (ChannelRequestIs, DoChannelRequest), 19742-19816
   (SendRequestSuccess, SendGlobalRequestFwdSuccess), 21146-21189
   (SendChannelSuccess).
   Simplifications: allocations succeed; application callbacks answer and are
   recorded, and call no library function; the logging is left out; the index
   handed back to DoPacket is not kept (DoPacket drops the payload either
   way). The transport is that of ChanModel. *)
From Verif Require Import Base WireModel NameTable NegoModel ChanModel.
From Coq Require Import List NArith ZArith Bool.
Import ListNotations.
Open Scope N_scope.

(* What the application was called with. *)
Inductive call :=
| CShell (id : N)
| CExec (id : N) (cmd : option bytes)
| CSubsys (id : N) (cmd : option bytes)
| CResize (w h wp hp : N)
| CFwd (cleanup : bool) (addr : bytes) (port : N)
| CGlobal (name : bytes) (want : N).

(* Build options and callbacks (None: not set). A channel request callback
   answers whether it rejects; [cb_agent] is whether agentCb is set; the
   forwarding callback returns an int. *)
Record env := mkEnv {
  b_term : bool; b_shell : bool; b_agent : bool; b_fwd : bool;
  cb_shell : option (N -> bool);
  cb_exec : option (N -> option bytes -> bool);
  cb_subsys : option (N -> option bytes -> bool);
  cb_resize : option (N -> N -> N -> N -> bool);
  cb_agent : bool;
  cb_fwd : option (bool -> bytes -> N -> Z);
  cb_global : option (bytes -> N -> rc) }.

(* The session fields the requests touch (wolfssh/internal.h 1100-1200): the
   channels and transport, channel->command and channel->sessionType by local
   channel number, clientState == CLIENT_DONE, the terminal size, modes,
   exitStatus, useAgent; and the callbacks made so far. *)
Record rq := mkRq {
  q_cs : cs; q_cmd : N -> option bytes; q_type : N -> N; q_pty : N -> bool; q_done : bool;
  q_w : N; q_h : N; q_wp : N; q_hp : N; q_modes : bytes; q_exit : N; q_useagent : bool;
  q_calls : list call }.

Definition q_set_cs (s : cs) (q : rq) : rq :=
  mkRq s (q_cmd q) (q_type q) (q_pty q) (q_done q) (q_w q) (q_h q) (q_wp q) (q_hp q) (q_modes q) (q_exit q)
       (q_useagent q) (q_calls q).
Definition q_set_cmd (id : N) (c : bytes) (q : rq) : rq :=
  mkRq (q_cs q) (fun i => if i =? id then Some c else q_cmd q i) (q_type q) (q_pty q) (q_done q) (q_w q) (q_h q)
       (q_wp q) (q_hp q) (q_modes q) (q_exit q) (q_useagent q) (q_calls q).
Definition q_set_type (id t : N) (q : rq) : rq :=
  mkRq (q_cs q) (q_cmd q) (fun i => if i =? id then t else q_type q i) (q_pty q) (q_done q) (q_w q) (q_h q)
       (q_wp q) (q_hp q) (q_modes q) (q_exit q) (q_useagent q) (q_calls q).
Definition q_set_pty (id : N) (q : rq) : rq :=
  mkRq (q_cs q) (q_cmd q) (q_type q) (fun i => if i =? id then true else q_pty q i) (q_done q) (q_w q) (q_h q)
       (q_wp q) (q_hp q) (q_modes q) (q_exit q) (q_useagent q) (q_calls q).
Definition q_set_done (q : rq) : rq :=
  mkRq (q_cs q) (q_cmd q) (q_type q) (q_pty q) true (q_w q) (q_h q) (q_wp q) (q_hp q) (q_modes q) (q_exit q)
       (q_useagent q) (q_calls q).
Definition q_set_size (w h wp hp : N) (q : rq) : rq :=
  mkRq (q_cs q) (q_cmd q) (q_type q) (q_pty q) (q_done q) w h wp hp (q_modes q) (q_exit q) (q_useagent q) (q_calls q).
Definition q_set_modes (m : bytes) (q : rq) : rq :=
  mkRq (q_cs q) (q_cmd q) (q_type q) (q_pty q) (q_done q) (q_w q) (q_h q) (q_wp q) (q_hp q) m (q_exit q)
       (q_useagent q) (q_calls q).
Definition q_set_exit (x : N) (q : rq) : rq :=
  mkRq (q_cs q) (q_cmd q) (q_type q) (q_pty q) (q_done q) (q_w q) (q_h q) (q_wp q) (q_hp q) (q_modes q) x
       (q_useagent q) (q_calls q).
Definition q_set_agent (q : rq) : rq :=
  mkRq (q_cs q) (q_cmd q) (q_type q) (q_pty q) (q_done q) (q_w q) (q_h q) (q_wp q) (q_hp q) (q_modes q) (q_exit q)
       true (q_calls q).
Definition q_called (c : call) (q : rq) : rq :=
  mkRq (q_cs q) (q_cmd q) (q_type q) (q_pty q) (q_done q) (q_w q) (q_h q) (q_wp q) (q_hp q) (q_modes q) (q_exit q)
       (q_useagent q) (q_calls q ++ [c]).

(* The request names (src/internal.c:11653-11804). *)
Definition R_ENV : bytes := [101;110;118].
Definition R_SHELL : bytes := [115;104;101;108;108].
Definition R_EXEC : bytes := [101;120;101;99].
Definition R_SUBSYSTEM : bytes := [115;117;98;115;121;115;116;101;109].
Definition R_PTY : bytes := [112;116;121;45;114;101;113].
Definition R_WINDOW : bytes := [119;105;110;100;111;119;45;99;104;97;110;103;101].
Definition R_EXIT_STATUS : bytes := [101;120;105;116;45;115;116;97;116;117;115].
Definition R_EXIT_SIGNAL : bytes := [101;120;105;116;45;115;105;103;110;97;108].
Definition R_AGENT : bytes :=
  [97;117;116;104;45;97;103;101;110;116;45;114;101;113;64;111;112;101;110;115;115;104;46;99;111;109].

(* wolfssh/ssh.h WS_SessionType *)
Definition SESSION_SHELL : N := 1.
Definition SESSION_EXEC : N := 2.
Definition SESSION_SUBSYSTEM : N := 3.

(* src/internal.c:21146-21189 SendChannelSuccess. *)
Definition MSGID_CHANNEL_SUCCESS : N := 99.
Definition MSGID_CHANNEL_FAILURE : N := 100.
Definition SendChannelSuccess (id : N) (success : bool) (a : sendans) (s : cs) : rc * cs :=
  match find_self id (s_list s) with
  | None => (WS_INVALID_CHANID, s)
  | Some c =>
      send_msg id ([if success then MSGID_CHANNEL_SUCCESS else MSGID_CHANNEL_FAILURE] ++ c32toa (c_peer c)) a s
  end.

(* A reader whose result is only checked. *)
Definition skip {A} (r : pres A) (k : N -> option (rc * bool * bool * rq)) (noreply : bool) (q : rq) :
    option (rc * bool * bool * rq) :=
  match r with
  | POk _ i => k i
  | PErr e _ => Some (e, false, noreply, q)
  | POob => None
  end.

(* src/internal.c:11741-11749, 11779-11787: the resize callback. *)
Definition resize (e : env) (w h wp hp : N) (noreply : bool) (q : rq) : option (rc * bool * bool * rq) :=
  match cb_resize e with
  | None => Some (WS_SUCCESS, false, noreply, q)
  | Some f =>
      Some (if f w h wp hp then WS_SUCCESS else WS_FATAL_ERROR, false, noreply, q_called (CResize w h wp hp) q)
  end.

(* src/internal.c:11653-11814: the request itself. The result: ret, rej,
   whether wantReply was cleared, and the session. [id] is the channel, [i] the
   index after wantReply. *)
Definition handle (e : env) (id : N) (type : bytes) (buf : bytes) (i : N) (q : rq) :
    option (rc * bool * bool * rq) :=
  let len := lenN buf in
  if bytes_eqb type R_ENV then
    skip (GetString 32 buf len i) (fun i =>
    skip (GetString 32 buf len i) (fun i => Some (WS_SUCCESS, false, false, q)) false q) false q
  else if bytes_eqb type R_SHELL then
    let q := q_set_type id SESSION_SHELL q in
    match cb_shell e with
    | Some f => Some (WS_SUCCESS, f id, false, q_set_done (q_called (CShell id) q))
    | None => Some (WS_SUCCESS, false, false, q_set_done q)
    end
  else if bytes_eqb type R_EXEC then
    match GetStringAlloc buf len i with
    | POob => None
    | r =>
        let '(ret, q) := match r with
          | POk s _ => (WS_SUCCESS, q_set_cmd id (removelast s) q)
          | PErr x _ => (x, q)
          | POob => (WS_SUCCESS, q)
          end in
        let q := q_set_type id SESSION_EXEC q in
        match cb_exec e with
        | Some f => Some (ret, f id (q_cmd q id), false, q_set_done (q_called (CExec id (q_cmd q id)) q))
        | None => Some (ret, false, false, q_set_done q)
        end
    end
  else if bytes_eqb type R_SUBSYSTEM then
    match GetStringAlloc buf len i with
    | POob => None
    | r =>
        let '(ret, q) := match r with
          | POk s _ => (WS_SUCCESS, q_set_cmd id (removelast s) q)
          | PErr x _ => (x, q)
          | POob => (WS_SUCCESS, q)
          end in
        let q := q_set_type id SESSION_SUBSYSTEM q in
        match cb_subsys e with
        | Some f => Some (ret, f id (q_cmd q id), false, q_set_done (q_called (CSubsys id (q_cmd q id)) q))
        | None => Some (ret, false, false, q_set_done q)
        end
    end
  else if b_term e && bytes_eqb type R_PTY then
    let q := q_set_pty id q in
    skip (GetString 32 buf len i) (fun i =>
    match GetUint32 buf len i with
    | POob => None | PErr x _ => Some (x, false, false, q)
    | POk w i => let q := q_set_size w (q_h q) (q_wp q) (q_hp q) q in
    match GetUint32 buf len i with
    | POob => None | PErr x _ => Some (x, false, false, q)
    | POk h i => let q := q_set_size w h (q_wp q) (q_hp q) q in
    match GetUint32 buf len i with
    | POob => None | PErr x _ => Some (x, false, false, q)
    | POk wp i => let q := q_set_size w h wp (q_hp q) q in
    match GetUint32 buf len i with
    | POob => None | PErr x _ => Some (x, false, false, q)
    | POk hp i => let q := q_set_size w h wp hp q in
    match GetStringAlloc buf len i with
    | POob => None | PErr x _ => Some (x, false, false, q)
    | POk m _ => resize e w h wp hp false (q_set_modes (removelast m) q)
    end end end end end) false q
  else if b_shell e && b_term e && bytes_eqb type R_WINDOW then
    match GetUint32 buf len i with
    | POob => None | PErr x _ => Some (x, false, true, q)
    | POk w i =>
    match GetUint32 buf len i with
    | POob => None | PErr x _ => Some (x, false, true, q)
    | POk h i =>
    match GetUint32 buf len i with
    | POob => None | PErr x _ => Some (x, false, true, q)
    | POk wp i =>
    match GetUint32 buf len i with
    | POob => None | PErr x _ => Some (x, false, true, q)
    | POk hp _ => resize e w h wp hp true (q_set_size w h wp hp q)
    end end end end
  else if (b_term e || b_shell e) && bytes_eqb type R_EXIT_STATUS then
    match GetUint32 buf len i with
    | POob => None | PErr x _ => Some (x, false, true, q)
    | POk x _ => Some (WS_SUCCESS, false, true, q_set_exit x q)
    end
  else if (b_term e || b_shell e) && bytes_eqb type R_EXIT_SIGNAL then
    skip (GetString 32 buf len i) (fun i =>
    skip (GetBoolean buf len i) (fun i =>
    skip (GetString 32 buf len i) (fun i =>
    skip (GetString 32 buf len i) (fun _ => Some (WS_SUCCESS, false, true, q))
      true q) true q) true q) true q
  else if b_agent e && bytes_eqb type R_AGENT then
    Some (WS_SUCCESS, false, false, if cb_agent e then q_set_agent q else q)
  else Some (WS_SUCCESS, true, false, q).

(* src/internal.c:11614-11836 DoChannelRequest. None: a read outside the
   message. *)
Definition DoChannelRequest (e : env) (a : sendans) (buf : bytes) (q : rq) : option (rc * rq) :=
  let len := lenN buf in
  match GetUint32 buf len 0 with
  | POob => None | PErr x _ => Some (x, q)
  | POk id i =>
  match GetString 32 buf len i with
  | POob => None | PErr x _ => Some (x, q)
  | POk tz i =>
  match GetBoolean buf len i with
  | POob => None | PErr x _ => Some (x, q)
  | POk want i =>
      match (match find_self id (s_list (q_cs q)) with
             | None => Some (WS_INVALID_CHANID, false, false, q)
             | Some _ => handle e id (removelast tz) buf i q
             end) with
      | None => None
      | Some (ret, rej, noreply, q) =>
          let want := if noreply then 0 else want in
          if negb (want =? 0) then
            let '(r, s) := SendChannelSuccess id (rc_eqb ret WS_SUCCESS && negb rej) a (q_cs q) in
            Some (if rc_eqb r WS_SUCCESS then ret else r, q_set_cs s q)
          else Some (ret, q)
      end
  end end end.

(* ---- global requests -------------------------------------------------- *)

Definition MSGID_REQUEST_SUCCESS : N := 81.
Definition MSGID_REQUEST_FAILURE : N := 82.
(* wolfssh/ssh.h:224-235 *)
Definition WS_FWD_SUCCESS : Z := 0%Z.
Definition WS_FWD_PORT_CHECK : Z := 1024%Z.

(* src/internal.c:19742-19774 SendRequestSuccess; 19777-19816
   SendGlobalRequestFwdSuccess, which is only called with success 1. A message
   that belongs to no channel is logged under number 0. *)
Definition SendRequestSuccess (success : bool) (a : sendans) (s : cs) : rc * cs :=
  send_msg 0 [if success then MSGID_REQUEST_SUCCESS else MSGID_REQUEST_FAILURE] a s.
Definition SendGlobalRequestFwdSuccess (port : N) (a : sendans) (s : cs) : rc * cs :=
  send_msg 0 ([MSGID_REQUEST_SUCCESS] ++ c32toa port) a s.

(* (word32) of an int *)
Definition word_of_int (z : Z) : N := Z.to_N (z mod 4294967296)%Z.

(* src/internal.c:10709-10817 DoGlobalRequestFwd. *)
Definition DoGlobalRequestFwd (e : env) (a : sendans) (buf : bytes) (i want : N) (isCancel : bool) (q : rq) :
    option (rc * rq) :=
  let len := lenN buf in
  let parsed :=
    match GetStringAlloc buf len i with
    | POob => POob | PErr x j => PErr x j
    | POk s i => match GetUint32 buf len i with
                 | POob => POob | PErr x j => PErr x j
                 | POk p j => POk (removelast s, p) j
                 end
    end in
  match parsed with
  | POob => None
  | _ =>
      let '(ret, port, q) :=
        match parsed with
        | POk (addr, requested) _ =>
            match cb_fwd e with
            | None => (WS_UNIMPLEMENTED_E, requested, q)
            | Some f =>
                let cbRet := f isCancel addr requested in
                let q := q_called (CFwd isCancel addr requested) q in
                let '(ret, bindPort) :=
                  if negb isCancel && (WS_FWD_PORT_CHECK <=? cbRet)%Z then
                    (WS_SUCCESS, if (requested =? 0) && (cbRet <=? 65535)%Z then word_of_int cbRet else requested)
                  else if negb (cbRet =? WS_FWD_SUCCESS)%Z then (WS_RESOURCE_E, requested)
                  else (WS_SUCCESS, requested) in
                if rc_eqb ret WS_SUCCESS && negb isCancel && (requested =? 0) && (bindPort <? Z.to_N WS_FWD_PORT_CHECK)
                then (WS_RESOURCE_E, bindPort, q_called (CFwd true addr bindPort) q)
                else (ret, bindPort, q)
            end
        | PErr x _ => (x, 0, q)
        | POob => (WS_SUCCESS, 0, q)
        end in
      if negb (want =? 0) then
        let '(r, s) :=
          if rc_eqb ret WS_SUCCESS
          then (if isCancel then SendRequestSuccess true a (q_cs q) else SendGlobalRequestFwdSuccess port a (q_cs q))
          else SendRequestSuccess false a (q_cs q) in
        Some (r, q_set_cs s q)
      else Some (if rc_eqb ret WS_UNIMPLEMENTED_E || rc_eqb ret WS_RESOURCE_E then WS_SUCCESS else ret, q)
  end.

(* src/internal.c:10820-10884 DoGlobalRequest. *)
Definition DoGlobalRequest (e : env) (a : sendans) (buf : bytes) (q : rq) : option (rc * rq) :=
  let len := lenN buf in
  if len =? 0 then Some (WS_BAD_ARGUMENT, q)
  else match GetString 80 buf len 0 with
  | POob => None | PErr x _ => Some (x, q)
  | POk nz i =>
  match GetBoolean buf len i with
  | POob => None | PErr x _ => Some (x, q)
  | POk want i =>
      let id := NameToId (removelast nz) in
      if b_fwd e && (id =? ID_GLOBREQ_TCPIP_FWD) then DoGlobalRequestFwd e a buf i want false q
      else if b_fwd e && (id =? ID_GLOBREQ_TCPIP_FWD_CANCEL) then DoGlobalRequestFwd e a buf i want true q
      else
        match cb_global e with
        | Some f =>
            let ret := f (removelast nz) want in
            let q := q_called (CGlobal (removelast nz) want) q in
            if negb (want =? 0)
            then let '(r, s) := SendRequestSuccess (rc_eqb ret WS_SUCCESS) a (q_cs q) in Some (r, q_set_cs s q)
            else Some (ret, q)
        | None =>
            if negb (want =? 0)
            then let '(r, s) := SendRequestSuccess false a (q_cs q) in Some (r, q_set_cs s q)
            else Some (WS_SUCCESS, q)
        end
  end end.
