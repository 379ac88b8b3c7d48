(* SshdRelayModel.v - how wolfsshd passes data between a shell or exec session
   and its program (apps/wolfsshd/wolfsshd.c, SHELL_Subsystem from its loop to
   its end). What the system and the connection answer is an input of each turn
   of the loop. *)
From Coq Require Import List NArith ZArith Lia Bool.
From Verif Require Import Base.
Import ListNotations.
Open Scope N_scope.

Definition SHELL_BUFFER : N := 32768.  (* wolfsshd.c 1532-1535 *)

(* What wolfSSH_ChannelIdSend and wolfSSH_extended_data_send return: nothing
   could be sent now (window full, rekeying), the socket is full, an error, or
   how many bytes were taken. *)
Inductive sent : Type := SFull | SWant | SErr | SSent (n : N).
(* read(2) from the program: data, the end, or an error. [bad] says that errno
   is neither 0 nor EAGAIN after the call; at the end of the file it is still
   the errno of some earlier call. *)
Inductive red : Type := RData (b : bytes) | REnd (bad : bool) | RFail (bad : bool).
(* select(2): failed, was interrupted, or which descriptors are ready *)
Inductive sel : Type := SelFail | SelIntr | SelReady (ssh out err : bool).
(* wolfSSH_worker with wolfSSH_get_error: data came for the shell's channel or
   for another one, the channel was closed, ... *)
Inductive work : Type := WRxd (shell : bool) | WClosed | WWantWrite | WRekey | WWantRead | WErr | WOk.

(* One turn of the loop: what happens outside. *)
Record turn : Type := Turn {
  t_exit : bool;       (* SIGCHLD was seen before the turn *)
  t_late : bool;       (* ... or during it *)
  t_keying : bool;     (* a key exchange runs *)
  t_select : sel;
  t_work : work;
  t_in : bytes;        (* what the worker received for the channel *)
  t_eof : bool;        (* ... and whether it received EOF *)
  t_write : N;         (* how many bytes the program's stdin takes *)
  t_resend : sent;
  t_err : red; t_err_sent : sent;
  t_out : red; t_out_sent : sent }.

(* Normal: the loop's condition no longer held. Broken: the connection failed.
   Quit: something else went wrong. *)
Inductive stop : Set := Normal | Broken | Quit.

(* The variables of the loop; what has been received and not read yet; and what
   has passed. *)
Record rst : Type := RS {
  r_held : bytes;      (* windowFull bytes of shellBuffer *)
  r_ext : bool;        (* windowFullExt *)
  r_want : bool;       (* wantWrite *)
  r_peer : bool;       (* peerConnected *)
  r_empty : bool;      (* stdoutEmpty *)
  r_child : bool;      (* ChildRunning *)
  r_stdin : bool;      (* stdinPipe[1] is open *)
  r_eof : bool;        (* the channel's eofRxd, and so eofTxd *)
  r_chan : bytes;      (* the channel's input buffer *)
  r_rcvd : bytes;      (* all that was received *)
  r_got : bytes;       (* all that was written to the program *)
  r_rout : bytes; r_rerr : bytes;   (* all that was read from the program *)
  r_out : bytes; r_err : bytes;     (* all that was sent as data and as stderr *)
  r_stop : option stop }.

Definition init : rst := RS [] false false true false true true false [] [] [] [] [] [] [] None.

Definition hold b e s := RS b e (r_want s) (r_peer s) (r_empty s) (r_child s) (r_stdin s) (r_eof s) (r_chan s) (r_rcvd s) (r_got s) (r_rout s) (r_rerr s) (r_out s) (r_err s) (r_stop s).
Definition want b s := RS (r_held s) (r_ext s) b (r_peer s) (r_empty s) (r_child s) (r_stdin s) (r_eof s) (r_chan s) (r_rcvd s) (r_got s) (r_rout s) (r_rerr s) (r_out s) (r_err s) (r_stop s).
Definition peer b s := RS (r_held s) (r_ext s) (r_want s) b (r_empty s) (r_child s) (r_stdin s) (r_eof s) (r_chan s) (r_rcvd s) (r_got s) (r_rout s) (r_rerr s) (r_out s) (r_err s) (r_stop s).
Definition empty s := RS (r_held s) (r_ext s) (r_want s) (r_peer s) true (r_child s) (r_stdin s) (r_eof s) (r_chan s) (r_rcvd s) (r_got s) (r_rout s) (r_rerr s) (r_out s) (r_err s) (r_stop s).
Definition exited (b : bool) s := if b then RS (r_held s) (r_ext s) (r_want s) (r_peer s) (r_empty s) false (r_stdin s) (r_eof s) (r_chan s) (r_rcvd s) (r_got s) (r_rout s) (r_rerr s) (r_out s) (r_err s) (r_stop s) else s.
Definition close_stdin s := RS (r_held s) (r_ext s) (r_want s) (r_peer s) (r_empty s) (r_child s) false (r_eof s) (r_chan s) (r_rcvd s) (r_got s) (r_rout s) (r_rerr s) (r_out s) (r_err s) (r_stop s).
Definition receive b e s := RS (r_held s) (r_ext s) (r_want s) (r_peer s) (r_empty s) (r_child s) (r_stdin s) (r_eof s || e) (r_chan s ++ b) (r_rcvd s ++ b) (r_got s) (r_rout s) (r_rerr s) (r_out s) (r_err s) (r_stop s).
(* [d] leaves the channel's buffer, [w] of it reaches the program *)
Definition deliver (d w : bytes) s := RS (r_held s) (r_ext s) (r_want s) (r_peer s) (r_empty s) (r_child s) (r_stdin s) (r_eof s) (dropN (lenN d) (r_chan s)) (r_rcvd s) (r_got s ++ w) (r_rout s) (r_rerr s) (r_out s) (r_err s) (r_stop s).
Definition log_read (ext : bool) b s := RS (r_held s) (r_ext s) (r_want s) (r_peer s) (r_empty s) (r_child s) (r_stdin s) (r_eof s) (r_chan s) (r_rcvd s) (r_got s) (if ext then r_rout s else r_rout s ++ b) (if ext then r_rerr s ++ b else r_rerr s) (r_out s) (r_err s) (r_stop s).
Definition log_sent (ext : bool) b s := RS (r_held s) (r_ext s) (r_want s) (r_peer s) (r_empty s) (r_child s) (r_stdin s) (r_eof s) (r_chan s) (r_rcvd s) (r_got s) (r_rout s) (r_rerr s) (if ext then r_out s else r_out s ++ b) (if ext then r_err s ++ b else r_err s) (r_stop s).
Definition halt w s := RS (r_held s) (r_ext s) (r_want s) (r_peer s) (r_empty s) (r_child s) (r_stdin s) (r_eof s) (r_chan s) (r_rcvd s) (r_got s) (r_rout s) (r_rerr s) (r_out s) (r_err s) (Some w).

(* The rest of the turn is done, is skipped (continue), or the loop is left. *)
Inductive next : Type := Go (s : rst) | Skip (s : rst) | Break (s : rst).
Definition bind (n : next) (k : rst -> next) : next := match n with Go s => k s | _ => n end.

Definition nonempty (b : bytes) : bool := match b with [] => false | _ => true end.
(* SendChannelEof (internal.c 20039-20095) is called for a received EOF
   (internal.c 11276-11280); then SendChannelData refuses data (20299-20303,
   20419-20423), once no key exchange runs. *)
Definition send_res (s : rst) (r : sent) : sent :=
  match r with SSent _ => if r_eof s then SErr else r | _ => r end.

(* wolfsshd.c 1837-1872: the wait. wolfSSH_stream_peek (ssh.c 1183-1206) finds
   nothing during a key exchange and after EOF. *)
Definition pending (t : turn) (s : rst) : bool := negb (t_keying t) && negb (r_eof s) && nonempty (r_chan s).

(* wolfsshd.c 1874-1948: receive, and pass input on. [piped] is !ptyReq ||
   forcedCmd. *)
Definition input (piped : bool) (t : turn) (s0 : rst) : next :=
  let s := receive (t_in t) (t_eof t) (want false s0) in
  match t_work t with
  | WRxd true =>
      if nonempty (r_held s) then Go s
      else
        let d := takeN SHELL_BUFFER (r_chan s) in
        if nonempty d then
          let w := if piped && negb (r_stdin s) then [] else takeN (t_write t) d in
          if nonempty w then Go (deliver d w s) else Break (halt Quit (deliver d w s))
        else Break (halt Quit s)
  | WRxd false => Go s
  | WClosed => Skip (peer false s)
  | WWantWrite | WRekey => Skip (want true s)
  | WWantRead => Go s
  | WErr => Break (halt Broken s)
  | WOk => Go (if r_eof s && piped then close_stdin s else s)
  end.

(* wolfsshd.c 1950-1983: send what is held *)
Definition resend (t : turn) (s : rst) : next :=
  if nonempty (r_held s) then
    match send_res s (t_resend t) with
    | SFull => Skip s
    | SWant => Skip (want true s)
    | SErr => Break (halt Broken s)
    | SSent n =>
        let s' := hold (dropN n (r_held s)) (r_ext s) (log_sent (r_ext s) (takeN n (r_held s)) s) in
        if nonempty (r_held s') then Skip s' else Go (hold [] false s')
    end
  else Go s.

(* wolfsshd.c 1986-2026: stderr of the program *)
Definition pass_err (t : turn) (s : rst) : next :=
  match t_err t with
  | REnd bad | RFail bad => if bad then Break (halt Quit s) else Go s
  | RData b =>
      let s1 := log_read true b s in
      match send_res s (t_err_sent t) with
      | SSent n =>
          let s2 := log_sent true (takeN n b) s1 in
          if (0 <? n) && (n <? lenN b) then Skip (hold (dropN n b) true s2) else Go s2
      | SFull => Skip (hold b true s1)
      | SWant => Skip (want true (hold b true s1))
      | SErr => Break (halt Broken s1)
      end
  end.
(* wolfsshd.c 2029-2070, 2073-2104: stdout of the program, or its terminal *)
Definition pass_out (t : turn) (s : rst) : next :=
  match t_out t with
  | RFail bad => if bad then Break (halt Quit s) else Go s
  | REnd _ => Go (empty s)
  | RData b =>
      let s1 := log_read false b s in
      match send_res s (t_out_sent t) with
      | SSent n =>
          let s2 := log_sent false (takeN n b) s1 in
          Go (if (0 <? n) && (n <? lenN b) then hold (dropN n b) false s2 else s2)
      | SFull => Skip (hold b false s1)
      | SWant => Skip (want true (hold b false s1))
      | SErr => Break (halt Broken s1)
      end
  end.
(* wolfsshd.c 2107-2109 *)
Definition last_check (s : rst) : next :=
  Go (if negb (r_child s) && r_peer s && r_empty s && negb (nonempty (r_held s)) then peer false s else s).

(* wolfsshd.c 1824-2110: one turn, with the loop's condition before it *)
Definition body (piped : bool) (t : turn) (s : rst) : next :=
  let p := pending t s in
  match (if p then SelReady true false false else t_select t) with
  | SelFail => Break (halt Quit s)
  | SelIntr => Skip s
  | SelReady ssh out err =>
      bind (if r_want s || nonempty (r_held s) || p || ssh then input piped t s else Go s) (fun s =>
      bind (resend t s) (fun s =>
      bind (if piped && err then pass_err t s else Go s) (fun s =>
      bind (if out then pass_out t s else Go s) (fun s =>
      last_check (exited (t_late t) s)))))
  end.
Definition state (n : next) : rst := match n with Go s | Skip s | Break s => s end.
Definition goes_on (s : rst) : bool := r_child s || nonempty (r_held s) || negb (r_empty s) || r_peer s.
Definition step (piped : bool) (s0 : rst) (t : turn) : rst :=
  match r_stop s0 with
  | Some _ => s0
  | None =>
      let s := exited (t_exit t) s0 in
      if goes_on s then state (body piped t s) else halt Normal s
  end.
Definition run (piped : bool) (ts : list turn) (s : rst) : rst := fold_left (step piped) ts s.

(* wolfsshd.c 1437-1517: SHELL_FlushOut; the answers to the sends are a list,
   and SErr is also the worker's failure. What was sent. *)
Fixpoint flush (tries : nat) (rs : list sent) (eof : bool) (b : bytes) : bytes :=
  match tries, b, rs with
  | S k, _ :: _, r :: rs' =>
      match r with
      | SFull | SWant => flush k rs' eof b
      | SErr => []
      | SSent n => if eof then [] else takeN n b ++ flush k rs' eof (dropN n b)
      end
  | _, _, _ => []
  end.
Definition FLUSH_TRIES : nat := 10.   (* wolfsshd.c 1437-1439 *)
(* wolfsshd.c 2134-2160: what is left in the pipes, one read of each, once the
   loop was left *)
Definition drain (ext : bool) (b : bytes) (rs : list sent) (s : rst) : rst :=
  log_sent ext (flush FLUSH_TRIES rs (r_eof s) b) (log_read ext b s).
Definition finish (piped : bool) (out err : bytes) (ro re : list sent) (s : rst) : rst :=
  if piped then drain true err re (drain false out ro s) else s.
