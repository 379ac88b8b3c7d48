(* ScpSrcModel.v - sending files over SCP: the sending state machine, its
   messages, and the default send callback.
   Models src/wolfscp.c 362-880 (ScpSourceInit, SendScpTimestamp,
   SendScpFileHeader, SendScpEnterDirectory, SendScpExitDirectory,
   DoScpSource), 1887-1986 (SendScpConfirmation, ReceiveScpConfirmation),
   2183-2216 (ExtractFileName), 2684-2778 (_GetFileSize, GetFileStats),
   2790-3012 (the stack of directories, FindNextDirEntry), 3038-3170
   (ScpProcessEntry) and 3317-3560 (wsScpSendCallback).
   The POSIX build with WOLFSSH_HAVE_SYMLINK and O_NOFOLLOW. Allocation
   succeeds. A C string is the list of its bytes before the NUL. *)
From Coq Require Import String.
From Verif Require Import Base PathModel NegoSpec ScpModel.
From Coq Require Import List NArith ZArith Bool.
Import ListNotations.
Open Scope N_scope.

(* ------------------------------------------------------------------ *)
(* printf                                                               *)

(* the digits of [n] to the base [b], the highest first *)
Fixpoint digits_loop (fuel : nat) (b n : N) (acc : bytes) : bytes :=
  match fuel with
  | O => acc
  | S f => let acc := (48 + n mod b) :: acc in
           if n / b =? 0 then acc else digits_loop f b (n / b) acc
  end.
Definition print (b n : N) : bytes := digits_loop (S (N.to_nat (N.size n))) b n [].
(* %04o *)
Definition print4 (n : N) : bytes := let d := print 8 n in repeat 48 (4 - List.length d) ++ d.
(* snprintf to a buffer of [DEFAULT_SCP_MSG_SZ] bytes *)
Definition snprintf (m : bytes) : bytes := takeN (SCP_MSG_SZ - 1) m.

(* src/wolfscp.c:62 *)
Definition MODE_MASK : N := 511.
(* src/wolfscp.c:419-452 SendScpTimestamp: what is sent *)
Definition msg_times (mtime atime : N) : bytes :=
  snprintf ([84] ++ print 10 mtime ++ ascii " 0 " ++ print 10 atime ++ ascii " 0" ++ [NEWLINE]).
(* 463-495 SendScpFileHeader *)
Definition msg_file (mode size : N) (name : bytes) : bytes :=
  snprintf ([67] ++ print4 (N.land mode MODE_MASK) ++ [SPACE] ++ print 10 size ++ [SPACE] ++ name ++ [NEWLINE]).
(* 504-534 SendScpEnterDirectory *)
Definition msg_dir (mode : N) (name : bytes) : bytes :=
  snprintf ([68] ++ print4 (N.land mode MODE_MASK) ++ ascii " 0 " ++ name ++ [NEWLINE]).
(* 540-562 SendScpExitDirectory *)
Definition msg_end : bytes := [69; NEWLINE].
(* 1887-1938 SendScpConfirmation *)
Definition msg_confirm (c : confirm) (e : option bytes) : bytes :=
  match c with
  | ABORT => match e with Some m => 1 :: m ++ [NEWLINE] | None => [1] end
  | CONTINUE => [0]
  end.

(* ------------------------------------------------------------------ *)
(* The send callback, wolfssh/wolfscp.h:119-150                         *)

Inductive reqtype := NEW_REQUEST | SINGLE_FILE | RECURSIVE | CONTINUE_FILE.
(* What it is asked: the request, the path, the offset, the room in the
   buffer, and what the values it may change are. *)
Record request := mkReq { q_type : reqtype; q_base : bytes; q_off : N; q_room : N;
  q_name : bytes; q_mtime : N; q_atime : N; q_mode : N; q_size : N }.
(* RData d: the number of bytes put into the buffer, and the bytes.
   RError: any other negative value. *)
Inductive cbret := RData (d : bytes) | REnter | RExit | RFinal | RComplete | RAbort | REof | RError.
(* The values after the call, and the message for the peer, if one was set. *)
Record answer := mkAns { a_ret : cbret; a_name : bytes; a_mtime : N; a_atime : N; a_mode : N; a_size : N;
  a_err : option bytes }.

(* The callback with its context; what is done with its context on an abort
   (src/wolfscp.c:681-687) and when the connection breaks during a file
   (803-812). None: undefined behaviour. *)
Record callbacks (C : Type) := mkCb {
  cb_ask : C -> request -> answer * C;
  cb_abort : C -> C;
  cb_broken : C -> option C }.
Arguments cb_ask {C}. Arguments cb_abort {C}. Arguments cb_broken {C}.

(* ------------------------------------------------------------------ *)
(* The sending machine, src/wolfscp.c:564-880                           *)

Inductive wstate :=
| SOURCE_BEGIN | SOURCE_INIT | W_SEND_CONFIRMATION | W_CONFIRMATION_WITH_RECEIPT
| W_RECEIVE_CONFIRMATION_WITH_RECEIPT | W_RECEIVE_CONFIRMATION | TRANSFER | SEND_TIMESTAMP
| SEND_ENTER_DIRECTORY | SEND_EXIT_DIRECTORY | SEND_EXIT_DIRECTORY_FINAL | SEND_FILE_HEADER | SEND_FILE
| W_DONE.

(* What went over the channel: bytes taken by a send, and reads that counted as
   a confirmation (None: stderr data arrived). For the theorems. *)
Inductive wtrace := Wrote (d : bytes) | Heard (d : option bytes).

Record source (C : Type) := mkSrc {
  w_st : wstate; w_next : wstate; w_req : reqtype; w_conf : confirm; w_err : option bytes;
  w_base : bytes; w_rec : bool; w_ts : bool;
  w_name : bytes; w_mtime : N; w_atime : N; w_mode : N; w_size : N;
  w_off : N; w_buf : bytes; w_hdr : bool; w_stall : bool; w_ctx : C;
  (* the answers of the callback, the oldest first, and the trace, the newest first *)
  w_first : option answer; w_ans : list answer; w_trace : list wtrace }.
Arguments mkSrc {C}. Arguments w_st {C}. Arguments w_next {C}. Arguments w_req {C}. Arguments w_conf {C}.
Arguments w_err {C}. Arguments w_base {C}. Arguments w_rec {C}. Arguments w_ts {C}. Arguments w_name {C}.
Arguments w_mtime {C}. Arguments w_atime {C}. Arguments w_mode {C}. Arguments w_size {C}. Arguments w_off {C}.
Arguments w_buf {C}. Arguments w_hdr {C}. Arguments w_stall {C}. Arguments w_ctx {C}. Arguments w_first {C}.
Arguments w_ans {C}. Arguments w_trace {C}.

Section Source.
Context {C : Type}.

Definition to_st s n (w : source C) := mkSrc s n (w_req w) (w_conf w) (w_err w) (w_base w) (w_rec w) (w_ts w) (w_name w) (w_mtime w)
  (w_atime w) (w_mode w) (w_size w) (w_off w) (w_buf w) (w_hdr w) (w_stall w) (w_ctx w) (w_first w) (w_ans w) (w_trace w).
Definition to_conf c e (w : source C) := mkSrc (w_st w) (w_next w) (w_req w) c e (w_base w) (w_rec w) (w_ts w) (w_name w) (w_mtime w)
  (w_atime w) (w_mode w) (w_size w) (w_off w) (w_buf w) (w_hdr w) (w_stall w) (w_ctx w) (w_first w) (w_ans w) (w_trace w).
Definition to_ctx (c : C) (w : source C) := mkSrc (w_st w) (w_next w) (w_req w) (w_conf w) (w_err w) (w_base w) (w_rec w) (w_ts w) (w_name w) (w_mtime w)
  (w_atime w) (w_mode w) (w_size w) (w_off w) (w_buf w) (w_hdr w) (w_stall w) c (w_first w) (w_ans w) (w_trace w).
Definition to_req q (w : source C) := mkSrc (w_st w) (w_next w) q (w_conf w) (w_err w) (w_base w) (w_rec w) (w_ts w) (w_name w) (w_mtime w)
  (w_atime w) (w_mode w) (w_size w) (w_off w) (w_buf w) (w_hdr w) (w_stall w) (w_ctx w) (w_first w) (w_ans w) (w_trace w).
Definition to_stall b (w : source C) := mkSrc (w_st w) (w_next w) (w_req w) (w_conf w) (w_err w) (w_base w) (w_rec w) (w_ts w) (w_name w) (w_mtime w)
  (w_atime w) (w_mode w) (w_size w) (w_off w) (w_buf w) (w_hdr w) b (w_ctx w) (w_first w) (w_ans w) (w_trace w).
Definition to_hdr b (w : source C) := mkSrc (w_st w) (w_next w) (w_req w) (w_conf w) (w_err w) (w_base w) (w_rec w) (w_ts w) (w_name w) (w_mtime w)
  (w_atime w) (w_mode w) (w_size w) (w_off w) (w_buf w) b (w_stall w) (w_ctx w) (w_first w) (w_ans w) (w_trace w).
Definition to_data o b (w : source C) := mkSrc (w_st w) (w_next w) (w_req w) (w_conf w) (w_err w) (w_base w) (w_rec w) (w_ts w) (w_name w) (w_mtime w)
  (w_atime w) (w_mode w) (w_size w) o b (w_hdr w) (w_stall w) (w_ctx w) (w_first w) (w_ans w) (w_trace w).
Definition to_trace t (w : source C) := mkSrc (w_st w) (w_next w) (w_req w) (w_conf w) (w_err w) (w_base w) (w_rec w) (w_ts w) (w_name w) (w_mtime w)
  (w_atime w) (w_mode w) (w_size w) (w_off w) (w_buf w) (w_hdr w) (w_stall w) (w_ctx w) (w_first w) (w_ans w) (t :: w_trace w).
Definition to_times m a (w : source C) := mkSrc (w_st w) (w_next w) (w_req w) (w_conf w) (w_err w) (w_base w) (w_rec w) (w_ts w) (w_name w) m
  a (w_mode w) (w_size w) (w_off w) (w_buf w) (w_hdr w) (w_stall w) (w_ctx w) (w_first w) (w_ans w) (w_trace w).
(* a call of the callback at SCP_TRANSFER *)
Definition to_answer (a : answer) (c : C) (w : source C) := mkSrc (w_st w) (w_next w) (w_req w) (w_conf w) (match a_err a with Some e => Some e | None => w_err w end)
  (w_base w) (w_rec w) (w_ts w) (a_name a) (a_mtime a) (a_atime a) (a_mode a) (a_size a) (w_off w) (w_buf w) (w_hdr w)
  (w_stall w) c (w_first w) (w_ans w ++ [a]) (w_trace w).
(* the first call, which has no values to change *)
Definition to_first (a : answer) (c : C) (w : source C) := mkSrc (w_st w) (w_next w) (w_req w) (w_conf w) (match a_err a with Some e => Some e | None => w_err w end)
  (w_base w) (w_rec w) (w_ts w) (w_name w) (w_mtime w) (w_atime w) (w_mode w) (w_size w) (w_off w) (w_buf w) (w_hdr w)
  (w_stall w) c (Some a) (w_ans w) (w_trace w).

(* What the channel does for one turn of the loop:
     WData d   a read gives the bytes [d]
     WExt      the read, or the send, fails because stderr data arrived
     WSent n   a send takes [n] bytes
     WWant     nothing yet: the call returns and is made again
     WFail     any other failure. *)
Inductive wev := WData (d : bytes) | WExt | WSent (n : N) | WWant | WFail.

(* Go: the loop goes on, or the call is made again, in this state.
   Stop: the call has failed. Undef: undefined behaviour. *)
Inductive wres := Go (w : source C) | Stop (w : source C) | Undef.

Definition ask (w : source C) (t : reqtype) : request :=
  mkReq t (w_base w) (w_off w) (SCP_BUFFER_SZ - lenN (w_buf w)) (w_name w) (w_mtime w) (w_atime w) (w_mode w) (w_size w).

(* 1940-1986 ReceiveScpConfirmation, then to the state [s] *)
Definition hear (e : wev) (s : wstate) (w : source C) : wres :=
  match e with
  | WData d =>
      if SCP_MSG_SZ <? lenN d then Go w
      else if chr d 0 =? 0 then Go (to_st s (w_next w) (to_trace (Heard (Some d)) w)) else Stop w
  | WExt => Go (to_st s (w_next w) (to_trace (Heard None) w))
  | WWant => Go w
  | _ => Stop w
  end.

(* A control message [m]; a short send is fatal. *)
Definition say (m : bytes) (e : wev) (f : source C -> wres) (w : source C) : wres :=
  match e with
  | WSent n =>
      if lenN m <? n then Go w
      else let w := to_trace (Wrote (takeN n m)) w in
           if n =? lenN m then f w else Stop w
  | WWant => Go w
  | _ => Stop w
  end.

(* 1918-1938: a confirmation of an abort is sent and then fails *)
Definition say_confirm (e : wev) (f : source C -> wres) (w : source C) : wres :=
  say (msg_confirm (w_conf w) (w_err w)) e
      (fun w => match w_conf w with ABORT => Stop w | CONTINUE => f (to_conf CONTINUE None w) end) w.

(* 830-867: the buffer is empty *)
Definition after_data (w : source C) : wres :=
  if w_off w <? w_size w then
    if w_stall w then Stop w
    else Go (to_st TRANSFER (w_next w) (to_req CONTINUE_FILE (to_stall true w)))
  else if w_rec w then
    Go (to_st W_CONFIRMATION_WITH_RECEIPT TRANSFER
         (to_req RECURSIVE (to_times 0 0 (to_stall false (to_hdr false (to_data 0 [] w))))))
  else Go (to_st W_CONFIRMATION_WITH_RECEIPT W_DONE w).

Definition source_step (B : callbacks C) (e : wev) (w : source C) : wres :=
  match w_st w with
  | W_DONE => Go w
  | SOURCE_BEGIN =>
      (* 577-591 *)
      let (a, c) := cb_ask B (w_ctx w) (mkReq NEW_REQUEST [] 0 0 [] 0 0 0 0) in
      let w := to_first a c w in
      match a_ret a with
      | RAbort => Go (to_st W_RECEIVE_CONFIRMATION_WITH_RECEIPT W_DONE (to_conf ABORT (w_err w) w))
      | REof => Go (to_st W_RECEIVE_CONFIRMATION_WITH_RECEIPT W_DONE (to_conf CONTINUE (w_err w) w))
      | _ => Go (to_st SOURCE_INIT (w_next w) (to_conf CONTINUE (w_err w) w))
      end
  | SOURCE_INIT =>
      (* 593-602, 362-408 *)
      Go (to_st W_RECEIVE_CONFIRMATION TRANSFER (to_stall false (to_hdr false (to_data 0 [] w))))
  | W_SEND_CONFIRMATION => say_confirm e (fun w => Go (to_st (w_next w) (w_next w) w)) w
  | W_CONFIRMATION_WITH_RECEIPT => say_confirm e (fun w => Go (to_st W_RECEIVE_CONFIRMATION (w_next w) w)) w
  | W_RECEIVE_CONFIRMATION_WITH_RECEIPT => hear e W_SEND_CONFIRMATION w
  | W_RECEIVE_CONFIRMATION => hear e (w_next w) w
  | TRANSFER =>
      (* 645-723 *)
      let (a, c) := cb_ask B (w_ctx w) (ask w (w_req w)) in
      let w := to_answer a c w in
      match a_ret a with
      | REnter => Go (to_st SEND_ENTER_DIRECTORY (w_next w) w)
      | RExit => Go (to_st SEND_EXIT_DIRECTORY (w_next w) w)
      | RFinal => Go (to_st SEND_EXIT_DIRECTORY_FINAL (w_next w) w)
      | RComplete => Go (to_st W_DONE (w_next w) w)
      | RAbort => Go (to_st W_SEND_CONFIRMATION W_DONE (to_conf ABORT (w_err w) (to_ctx (cb_abort B (w_ctx w)) w)))
      | RData d =>
          let w := to_conf CONTINUE (w_err w) (to_data (w_off w) (w_buf w ++ d) w) in
          Go (to_st (if w_hdr w then SEND_FILE else if w_ts w then SEND_TIMESTAMP else SEND_FILE_HEADER) (w_next w) w)
      | REof | RError => Stop w
      end
  | SEND_TIMESTAMP =>
      say (msg_times (w_mtime w) (w_atime w)) e (fun w => Go (to_st W_RECEIVE_CONFIRMATION SEND_FILE_HEADER w)) w
  | SEND_ENTER_DIRECTORY =>
      say (msg_dir (w_mode w) (w_name w)) e (fun w => Go (to_st W_RECEIVE_CONFIRMATION TRANSFER w)) w
  | SEND_EXIT_DIRECTORY => say msg_end e (fun w => Go (to_st W_RECEIVE_CONFIRMATION TRANSFER w)) w
  | SEND_EXIT_DIRECTORY_FINAL => say msg_end e (fun w => Go (to_st W_RECEIVE_CONFIRMATION W_DONE w)) w
  | SEND_FILE_HEADER =>
      say (msg_file (w_mode w) (w_size w) (w_name w)) e
          (fun w => Go (to_st W_RECEIVE_CONFIRMATION SEND_FILE (to_hdr true w))) w
  | SEND_FILE =>
      (* 777-867 *)
      match w_buf w with
      | [] => after_data w
      | b =>
          match e with
          | WSent n =>
              if lenN b <? n then Go w
              else
                let w := to_data (add32 (w_off w) n) (dropN n b) (to_trace (Wrote (takeN n b)) w) in
                let w := if 0 <? n then to_stall false w else w in
                match w_buf w with [] => after_data w | _ => Go w end
          | WWant | WExt => Go w
          | _ => match cb_broken B (w_ctx w) with None => Undef | Some c => Stop (to_ctx c w) end
          end
      end
  end.

(* The machine until a call fails. *)
Fixpoint source_run (B : callbacks C) (es : list wev) (w : source C) : wres :=
  match es with
  | [] => Go w
  | e :: t => match source_step B e w with Go w => source_run B t w | r => r end
  end.

(* src/internal.c:1653-1677, and how sending starts: src/wolfscp.c:905-911 on a
   server, 2102-2135 wolfSSH_SCP_to on a client. *)
Definition source0 (base : bytes) (rec ts : bool) (c : C) : source C :=
  mkSrc SOURCE_BEGIN W_DONE (if rec then RECURSIVE else SINGLE_FILE) CONTINUE None base rec ts [] 0 0 0 0 0 [] false false c
    None [] [].
End Source.

(* ------------------------------------------------------------------ *)
(* What the default callback asks of the system                         *)

Inductive wcall :=
| CLink (p : bytes)               (* wIsSymlink: not 0 for a link *)
| CLstat (p : bytes)
| COpendir (p : bytes)            (* not following a link: the directory, or negative *)
| CClosedir (h : Z)
| CFopen (p : bytes)              (* not following a link, for reading: the stream, or negative *)
| CSize (h : Z)                   (* seek to the end, tell, rewind; negative on errors *)
| CRead (h : Z) (n : N)           (* fread *)
| CClose (h : Z).
Inductive nkind := KDir | KFile | KOther.
(* Its answer: a number, the bytes read, the names in the directory, or what
   lstat gives. Simplified: a directory is listed when it is opened. *)
Record cres := mkRes { r_num : Z; r_data : bytes; r_names : list bytes;
  r_kind : nkind; r_mode : N; r_mtime : N; r_atime : N }.
Definition clog := list (wcall * cres).      (* the newest first *)
Definition csys := clog -> wcall -> cres.

(* wolfssh/wolfscp.h:78-101 ScpSendCtx *)
Record sctx := mkCtx {
  c_fp : option Z;
  c_dirs : list (Z * list bytes);    (* the stack: directories and the names not yet read *)
  c_dir : bytes;                     (* dirName *)
  c_kind : nkind;                     (* of the last lstat *)
  c_log : clog }.
Definition ctx0 : sctx := mkCtx None [] [] KOther [].
Definition with_fp f c := mkCtx f (c_dirs c) (c_dir c) (c_kind c) (c_log c).
Definition with_dirs d n c := mkCtx (c_fp c) d n (c_kind c) (c_log c).
Definition with_kind k c := mkCtx (c_fp c) (c_dirs c) (c_dir c) k (c_log c).
Definition sysc (E : csys) (x : wcall) (c : sctx) : cres * sctx :=
  let r := E (c_log c) x in (r, mkCtx (c_fp c) (c_dirs c) (c_dir c) (c_kind c) ((x, r) :: c_log c)).

Definition is_sep (c : N) : bool := (c =? SLASH) || (c =? BSLASH).
(* the index of the last separator at [i] or later *)
Fixpoint last_sep (l : bytes) (i : N) (r : option N) : option N :=
  match l with
  | [] => r
  | c :: t => last_sep t (i + 1) (if is_sep c then Some i else r)
  end.

(* src/wolfscp.c:2183-2216 ExtractFileName; None: an error *)
Definition ExtractFileName (p : bytes) (room : N) : option bytes :=
  match p with
  | [] => None
  | _ =>
      let n := match last_sep p 0 None with None => p | Some i => dropN (i + 1) p end in
      if room <? lenN n + 1 then None else Some n
  end.

(* 2853-2884 ScpPushDir, 2790-2850 ScpNewDir *)
Definition PushDir (E : csys) (p : bytes) (c : sctx) : bool * sctx :=
  if SCP_MSG_SZ <=? lenN p then (false, c)
  else let (r, c) := sysc E (COpendir p) c in
       if (r_num r <? 0)%Z then (false, c)
       else (true, with_dirs ((r_num r, r_names r) :: c_dirs c) p c).

(* 2900-2938 ScpPopDir; true: there are directories left. The code looks for
   the separator in the whole array; the bytes after the name are 0 in a context
   that was cleared before the transfer, as here. *)
Definition PopDir (E : csys) (c : sctx) : bool * sctx :=
  let c := match c_dirs c with
           | [] => c
           | (h, _) :: t => let (_, c) := sysc E (CClosedir h) c in with_dirs t (c_dir c) c
           end in
  let n := match last_sep (c_dir c) 0 None with
           | Some i => if i =? 0 then c_dir c else takeN i (c_dir c)
           | None => c_dir c
           end in
  (match c_dirs c with [] => false | _ => true end, with_dirs (c_dirs c) n c).

(* 2943-2949 ScpSendCtxFreeDirs *)
Fixpoint FreeDirs (fuel : nat) (E : csys) (c : sctx) : sctx :=
  match fuel with
  | O => c
  | S f => match c_dirs c with [] => c | _ => FreeDirs f E (snd (PopDir E c)) end
  end.

(* 2954-3012 FindNextDirEntry: the first name that is not "." or ".." *)
Definition is_dots (n : bytes) : bool :=
  match n with
  | [a] => a =? DOT
  | [a; b] => (a =? DOT) && (b =? DOT)
  | _ => false
  end.
Fixpoint next_name (l : list bytes) : option bytes * list bytes :=
  match l with
  | [] => (None, [])
  | n :: t => if is_dots n then next_name t else (Some n, t)
  end.
Definition NextEntry (c : sctx) : option bytes * sctx :=
  match c_dirs c with
  | [] => (None, c)
  | (h, l) :: t => let (n, l) := next_name l in (n, with_dirs ((h, l) :: t) (c_dir c) c)
  end.

(* The values of the request, and what the callback returns. *)
Definition give (q : request) (r : cbret) (e : option bytes) : answer :=
  mkAns r (q_name q) (q_mtime q) (q_atime q) (q_mode q) (q_size q) e.
Definition named n q := mkReq (q_type q) (q_base q) (q_off q) (q_room q) n (q_mtime q) (q_atime q) (q_mode q) (q_size q).
Definition sized z q := mkReq (q_type q) (q_base q) (q_off q) (q_room q) (q_name q) (q_mtime q) (q_atime q) (q_mode q) z.
Definition statted (r : cres) q := mkReq (q_type q) (q_base q) (q_off q) (q_room q) (q_name q)
  (r_mtime r) (r_atime r) (N.land (r_mode r) 511) (q_size q).

(* 2711-2778 GetFileStats *)
Definition GetFileStats (E : csys) (p : bytes) (q : request) (c : sctx) : bool * request * sctx :=
  let (r, c) := sysc E (CLstat p) c in
  if (r_num r <? 0)%Z then (false, q, c) else (true, statted r q, with_kind (r_kind r) c).

(* closing the file, if it is open *)
Definition shut_file (E : csys) (c : sctx) : sctx :=
  match c_fp c with
  | Some h => let (_, c) := sysc E (CClose h) c in with_fp None c
  | None => c
  end.
(* fread of at most the room there is *)
Definition read_file (E : csys) (h : Z) (room : N) (c : sctx) : bytes * sctx :=
  let (r, c) := sysc E (CRead h room) c in (takeN room (r_data r), c).

Definition cannot_open : option bytes := Some (ascii "unable to open file for reading").
Definition no_size : option bytes := Some (ascii "unable to get file size").

(* 3347-3408: WOLFSSH_SCP_SINGLE_FILE_REQUEST *)
Definition single_file (E : csys) (q : request) (c : sctx) : answer * sctx :=
  let (r, c) := sysc E (CFopen (q_base q)) c in
  if (r_num r <? 0)%Z then (give q RError cannot_open, with_fp None c)
  else
  let h := r_num r in
  let c := with_fp (Some h) c in
  let (r, c) := sysc E (CSize h) c in
  if (r_num r <? 0)%Z then (give q RError no_size, shut_file E c)
  else
  let q := sized (w32 (Z.to_N (r_num r))) q in
  let '(ok, q, c) := GetFileStats E (q_base q) q c in
  if negb ok then (give q RError None, shut_file E c)
  else
  match ExtractFileName (q_base q) SCP_MSG_SZ with
  | None => (give q RError None, shut_file E c)
  | Some n =>
      let q := named n q in
      if q_size q =? 0 then (give q (RData []) None, shut_file E c)
      else
      let (d, c) := read_file E h (q_room q) c in
      match d with
      | [] => (give q REof None, shut_file E c)
      | _ => (give q (RData d) None, if q_size q =? lenN d then shut_file E c else c)
      end
  end.

(* 3038-3170 ScpProcessEntry *)
Definition process_entry (E : csys) (n : bytes) (q : request) (c : sctx) : answer * sctx :=
  if SCP_MSG_SZ <=? lenN (c_dir c) + 1 + lenN n then (give q RAbort None, c)
  else
  let p := c_dir c ++ [SLASH] ++ n in
  let q := named n q in
  let (r, c) := sysc E (CLink p) c in
  if negb (r_num r =? 0)%Z then (give q RAbort None, c)
  else
  let '(ok, q, c) := GetFileStats E p q c in
  if negb ok then (give q RAbort None, c)
  else
  match c_kind c with
  | KDir => let (ok, c) := PushDir E p c in (give q (if ok then REnter else RAbort) None, c)
  | KFile =>
      let (r, c) := sysc E (CFopen p) c in
      if (r_num r <? 0)%Z then (give q RAbort cannot_open, with_fp None c)
      else
      let h := r_num r in
      let c := with_fp (Some h) c in
      let (r, c) := sysc E (CSize h) c in
      if (r_num r <? 0)%Z then (give q RAbort no_size, shut_file E c)
      else
      let q := sized (w32 (Z.to_N (r_num r))) q in
      let (d, c) := read_file E h (q_room q) c in
      (give q (RData d) None, if q_size q =? lenN d then shut_file E c else c)
  | KOther => (give q (RData []) None, c)      (* WS_SUCCESS is 0 *)
  end.

(* trailing separators of the root removed, 3431-3433 *)
Fixpoint trim_sep (fuel : nat) (p : bytes) : bytes :=
  match fuel with
  | O => p
  | S f => if (1 <? lenN p) && is_sep (chr p (lenN p - 1)) then trim_sep f (takeN (lenN p - 1) p) else p
  end.

(* 3410-3530: WOLFSSH_SCP_RECURSIVE_REQUEST *)
Definition recursive (E : csys) (q : request) (c : sctx) : answer * sctx :=
  match c_dirs c with
  | [] =>
      let root := trim_sep (List.length (q_base q)) (q_base q) in
      if SCP_MSG_SZ <=? lenN root then (give q RAbort cannot_open, c)
      else
      let (r, c) := sysc E (CLink root) c in
      if negb (r_num r =? 0)%Z then (give q RAbort cannot_open, c)
      else
      let (ok, c) := PushDir E (q_base q) c in
      if negb ok then (give q RAbort None, c)
      else
      match ExtractFileName (q_base q) SCP_MSG_SZ with
      | None => (give q RAbort None, c)
      | Some n =>
          let q := named n q in
          let '(ok, q, c) := GetFileStats E (q_base q) q c in
          (give q (if ok then REnter else RAbort) None, c)
      end
  | _ =>
      let (n, c) := NextEntry c in
      match n with
      | None => let (more, c) := PopDir E c in (give q (if more then RExit else RFinal) None, c)
      | Some n => process_entry E n q c
      end
  end.

(* 3532-3556: WOLFSSH_SCP_CONTINUE_FILE_TRANSFER *)
Definition continue_file (E : csys) (q : request) (c : sctx) : answer * sctx :=
  match c_fp c with
  | None => (give q RAbort None, c)
  | Some h =>
      let (d, c) := read_file E h (q_room q) c in
      match d with
      | [] => (give q REof None, shut_file E c)
      | _ => (give q (RData d) None, if add32 (q_off q) (lenN d) =? q_size q then shut_file E c else c)
      end
  end.

(* src/wolfscp.c:3317-3560 wsScpSendCallback *)
Definition wsScpSend (E : csys) : callbacks sctx :=
  mkCb sctx
    (fun c q => match q_type q with
                | NEW_REQUEST => (give q (RData []) None, c)
                | SINGLE_FILE => single_file E q c
                | RECURSIVE => recursive E q c
                | CONTINUE_FILE => continue_file E q c
                end)
    (fun c => FreeDirs (S (List.length (c_dirs c))) E c)
    (* 803-812: fclose of a NULL stream is undefined *)
    (fun c => match c_fp c with None => None | Some h => Some (shut_file E c) end).
