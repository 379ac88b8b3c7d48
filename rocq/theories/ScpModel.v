(* ScpModel.v - receiving files over SCP: the command, the control messages,
   the receiving state machine and the default receive callback.
   Models src/internal.c 21256-21410 (wolfSSH_CleanPath) and src/wolfscp.c
   216-360 (DoScpSink), 1035-1428 (the message fields), 1432-1513
   (ScpCheckForRename), 1517-1547 (ParseBasePathHelper), 1576-1697
   (ParseScpCommand), 1699-1990 (ReceiveScpMessage, ReceiveScpFile,
   SendScpConfirmation, ReceiveScpConfirmation), 2381-2682
   (wsScpRecvCallback).
   The POSIX build: '/' delimits, symbolic links are looked for
   (WOLFSSH_HAVE_SYMLINK), times are set on the open file (WFUTIMES).
   Allocation succeeds. A C string is the list of its bytes before the NUL. *)
From Coq Require Import String.
From Verif Require Import Base PathModel NegoSpec.
From Coq Require Import List NArith ZArith Bool.
Import ListNotations.
Open Scope N_scope.

Definition SCP_MSG_SZ : N := 1024.        (* wolfssh/wolfscp.h:42 *)
Definition SCP_BUFFER_SZ : N := 32768.    (* wolfssh/wolfscp.h:52 *)
Definition BSLASH : N := 92.
Definition COLON : N := 58.
Definition SPACE : N := 32.
Definition NEWLINE : N := 10.
Definition DASH : N := 45.

(* Character [i] of a C string; 0 stands at its end. *)
Definition chr (p : bytes) (i : N) : N := nth (N.to_nat i) p 0.

(* ------------------------------------------------------------------ *)
(* Paths                                                                *)

(* src/internal.c:21288-21295: remove "/./"; [i] and the rest to scan shrink *)
Fixpoint drop_dots (fuel : nat) (i : N) (p : bytes) : bytes :=
  match fuel with
  | O => p
  | S f =>
      if i + 1 <? lenN p then
        if (chr p i =? DOT) && (chr p (i - 1) =? SLASH) && (chr p (i + 1) =? SLASH)
        then drop_dots f i (takeN (i - 1) p ++ dropN (i + 1) p)
        else drop_dots f (i + 1) p
      else p
  end.

(* 21297-21304: remove one of two '/' in a row *)
Fixpoint drop_double (fuel : nat) (i : N) (p : bytes) : bytes :=
  match fuel with
  | O => p
  | S f =>
      if i <? lenN p then
        if (chr p i =? SLASH) && (chr p (i + 1) =? SLASH)
        then drop_double f i (takeN i p ++ dropN (i + 1) p)
        else drop_double f (i + 1) p
      else p
  end.

(* 21324-21330: from [z] down to 1 for a '/' or a ':'; else 0 *)
Fixpoint retrace (z : nat) (p : bytes) : N :=
  match z with
  | O => 0
  | S y => let c := chr p (N.of_nat z) in
           if (c =? SLASH) || (c =? COLON) then N.of_nat z else retrace y p
  end.

(* 21313-21323: the first '/' at [i] or later followed by ".." and by '/' or
   the end *)
Fixpoint find_up (fuel : nat) (i : N) (p : bytes) : option N :=
  match fuel with
  | O => None
  | S f =>
      if i <? lenN p then
        if (chr p i =? SLASH) && (chr p (i + 1) =? DOT) && (chr p (i + 2) =? DOT)
           && ((chr p (i + 3) =? SLASH) || (chr p (i + 3) =? 0))
        then Some i
        else find_up f (i + 1) p
      else None
  end.

(* 21306-21352: cut out ".." and what is before it until there is none left *)
Fixpoint cut_ups (fuel : nat) (p : bytes) : bytes :=
  match fuel with
  | O => p
  | S f =>
      match find_up (S (List.length p)) 1 p with
      | None => p
      | Some i =>
          let q := takeN (retrace (N.to_nat i - 1) p) p ++ dropN (i + 3) p in
          cut_ups f (match q with [] => [SLASH] | _ => q end)
      end
  end.

(* src/internal.c:21256-21410 wolfSSH_CleanPath; None: an error *)
Definition CleanPath (p : bytes) (inSz : N) : option bytes :=
  if inSz =? 0 then None
  else
  let p := drop_dots (S (List.length p)) 1 p in
  let p := drop_double (S (List.length p)) 0 p in
  let p := cut_ups (S (List.length p)) p in
  let p := if (3 <? lenN p) && (chr p (lenN p - 1) =? SLASH) then takeN (lenN p - 1) p else p in
  if inSz <=? lenN p then None else Some p.

(* ------------------------------------------------------------------ *)
(* What the receiver asks of the system                                 *)

Inductive scall :=
| SProbe (path : bytes)              (* opendir, not following a link, and closedir *)
| SChdir (path : bytes)
| SLink (name : bytes)               (* wIsSymlink: not 0 for a link *)
| SOpen (name : bytes)               (* fopen "wb": the stream, or negative *)
| SWrite (fp : Z) (d : bytes)        (* fwrite: the number of bytes written *)
| SUtimes (fp : Z) (mtime atime : N) (* fflush and futimens *)
| SClose (fp : Z)
| SMkdir (name : bytes) (mode : N).  (* 0, or errno *)

Definition slog := list (scall * Z).      (* the newest first *)
Definition EEXIST : Z := 17.

(* The answer to a call after others. *)
Definition sys := slog -> scall -> Z.

(* ------------------------------------------------------------------ *)
(* The session                                                          *)

Inductive sstate :=
| SINK_BEGIN | RECEIVE_MESSAGE | SEND_CONFIRMATION | RECEIVE_CONFIRMATION | RECEIVE_FILE | SCP_DONE.
Inductive confirm := CONTINUE | ABORT.

(* wolfssh/internal.h:1030-1068. [k_cap] is scpFileNameCap (0: no buffer),
   [k_rename]: scpFileReName is set, [k_msg] the message being received,
   [k_fp] the callback's context. [k_taken] collects the bytes taken from the
   channel and [k_out] those given to it; both are for the theorems. *)
Inductive mtype := MSG_FILE | MSG_TIME | MSG_DIR | MSG_END_DIR.   (* wolfssh/internal.h:2002 *)

Record sink := mkSink {
  k_st : sstate; k_next : sstate; k_type : mtype; k_conf : confirm; k_err : option bytes;
  k_base : bytes; k_name : bytes; k_cap : N; k_rename : bool;
  k_msg : bytes; k_mode : N; k_size : N; k_mtime : N; k_atime : N;
  k_off : N; k_depth : N; k_fp : option Z;
  k_log : slog; k_taken : bytes; k_out : bytes }.

Definition set_st s n k := mkSink s n (k_type k) (k_conf k) (k_err k) (k_base k) (k_name k) (k_cap k) (k_rename k)
  (k_msg k) (k_mode k) (k_size k) (k_mtime k) (k_atime k) (k_off k) (k_depth k) (k_fp k) (k_log k) (k_taken k) (k_out k).
Definition set_type t k := mkSink (k_st k) (k_next k) t (k_conf k) (k_err k) (k_base k) (k_name k) (k_cap k) (k_rename k)
  (k_msg k) (k_mode k) (k_size k) (k_mtime k) (k_atime k) (k_off k) (k_depth k) (k_fp k) (k_log k) (k_taken k) (k_out k).
Definition set_conf c k := mkSink (k_st k) (k_next k) (k_type k) c (k_err k) (k_base k) (k_name k) (k_cap k) (k_rename k)
  (k_msg k) (k_mode k) (k_size k) (k_mtime k) (k_atime k) (k_off k) (k_depth k) (k_fp k) (k_log k) (k_taken k) (k_out k).
(* src/wolfscp.c:972-1005 wolfSSH_SetScpErrorMsg *)
Definition set_err e k := mkSink (k_st k) (k_next k) (k_type k) (k_conf k) e (k_base k) (k_name k) (k_cap k) (k_rename k)
  (k_msg k) (k_mode k) (k_size k) (k_mtime k) (k_atime k) (k_off k) (k_depth k) (k_fp k) (k_log k) (k_taken k) (k_out k).
Definition set_base b k := mkSink (k_st k) (k_next k) (k_type k) (k_conf k) (k_err k) b (k_name k) (k_cap k) (k_rename k)
  (k_msg k) (k_mode k) (k_size k) (k_mtime k) (k_atime k) (k_off k) (k_depth k) (k_fp k) (k_log k) (k_taken k) (k_out k).
Definition set_name n c r k := mkSink (k_st k) (k_next k) (k_type k) (k_conf k) (k_err k) (k_base k) n c r
  (k_msg k) (k_mode k) (k_size k) (k_mtime k) (k_atime k) (k_off k) (k_depth k) (k_fp k) (k_log k) (k_taken k) (k_out k).
Definition set_msg m k := mkSink (k_st k) (k_next k) (k_type k) (k_conf k) (k_err k) (k_base k) (k_name k) (k_cap k) (k_rename k)
  m (k_mode k) (k_size k) (k_mtime k) (k_atime k) (k_off k) (k_depth k) (k_fp k) (k_log k) (k_taken k) (k_out k).
Definition set_mode m k := mkSink (k_st k) (k_next k) (k_type k) (k_conf k) (k_err k) (k_base k) (k_name k) (k_cap k) (k_rename k)
  (k_msg k) m (k_size k) (k_mtime k) (k_atime k) (k_off k) (k_depth k) (k_fp k) (k_log k) (k_taken k) (k_out k).
Definition set_size z k := mkSink (k_st k) (k_next k) (k_type k) (k_conf k) (k_err k) (k_base k) (k_name k) (k_cap k) (k_rename k)
  (k_msg k) (k_mode k) z (k_mtime k) (k_atime k) (k_off k) (k_depth k) (k_fp k) (k_log k) (k_taken k) (k_out k).
Definition set_times m a k := mkSink (k_st k) (k_next k) (k_type k) (k_conf k) (k_err k) (k_base k) (k_name k) (k_cap k) (k_rename k)
  (k_msg k) (k_mode k) (k_size k) m a (k_off k) (k_depth k) (k_fp k) (k_log k) (k_taken k) (k_out k).
Definition set_off o k := mkSink (k_st k) (k_next k) (k_type k) (k_conf k) (k_err k) (k_base k) (k_name k) (k_cap k) (k_rename k)
  (k_msg k) (k_mode k) (k_size k) (k_mtime k) (k_atime k) o (k_depth k) (k_fp k) (k_log k) (k_taken k) (k_out k).
Definition set_depth d k := mkSink (k_st k) (k_next k) (k_type k) (k_conf k) (k_err k) (k_base k) (k_name k) (k_cap k) (k_rename k)
  (k_msg k) (k_mode k) (k_size k) (k_mtime k) (k_atime k) (k_off k) d (k_fp k) (k_log k) (k_taken k) (k_out k).
Definition set_fp f k := mkSink (k_st k) (k_next k) (k_type k) (k_conf k) (k_err k) (k_base k) (k_name k) (k_cap k) (k_rename k)
  (k_msg k) (k_mode k) (k_size k) (k_mtime k) (k_atime k) (k_off k) (k_depth k) f (k_log k) (k_taken k) (k_out k).
Definition set_log l k := mkSink (k_st k) (k_next k) (k_type k) (k_conf k) (k_err k) (k_base k) (k_name k) (k_cap k) (k_rename k)
  (k_msg k) (k_mode k) (k_size k) (k_mtime k) (k_atime k) (k_off k) (k_depth k) (k_fp k) l (k_taken k) (k_out k).
Definition set_io t o k := mkSink (k_st k) (k_next k) (k_type k) (k_conf k) (k_err k) (k_base k) (k_name k) (k_cap k) (k_rename k)
  (k_msg k) (k_mode k) (k_size k) (k_mtime k) (k_atime k) (k_off k) (k_depth k) (k_fp k) (k_log k) t o.

Definition call (E : sys) (c : scall) (k : sink) : Z * sink :=
  let r := E (k_log k) c in (r, set_log ((c, r) :: k_log k) k).

(* src/internal.c:1653-1677: a new session *)
Definition sink0 : sink :=
  mkSink SCP_DONE SCP_DONE MSG_FILE CONTINUE None [] [] 0 false [] 0 0 0 0 0 0 None [] [] [].

(* ------------------------------------------------------------------ *)
(* The command                                                          *)

(* src/wolfscp.c:1432-1513 ScpCheckForRename *)
Definition CheckForRename (k : sink) : rc * sink :=
  let base := k_base k in
  let sz := lenN base in
  if SCP_MSG_SZ <? sz + 4 then (WS_BUFFER_E, k)
  else
  match CleanPath (base ++ [SLASH; DOT; DOT]) SCP_MSG_SZ with
  | None => (WS_FATAL_ERROR, k)
  | Some buf =>
  let idx := if (lenN buf =? 1) && (chr buf 0 =? SLASH) then lenN buf else lenN buf + 1 in
  if sz <? idx then (WS_BUFFER_E, k)
  else
  let last := dropN idx base in
  let n := lenN last in
  (* 1478-1495: a new buffer holds "" *)
  let '(old, cap) := if k_cap k <=? n then ([], n + 1) else (k_name k, k_cap k) in
  let k := set_name old cap (k_rename k) k in
  let c := chr base (sz - 1) in
  if negb (c =? SLASH) && negb (c =? BSLASH) && negb (strncmp0 (N.to_nat n) old last)
  then (WS_SUCCESS, set_base (takeN idx base) (set_name last cap true k))
  else (WS_SUCCESS, k)
  end.

(* src/wolfscp.c:1517-1547 ParseBasePathHelper *)
Definition BasePathHelper (E : sys) (k : sink) : rc * sink :=
  let (ret, k) := CheckForRename k in
  if rc_eqb ret WS_SUCCESS then
    (* ScpPushDir 2853-2884 refuses longer names before it looks *)
    if SCP_MSG_SZ <=? lenN (k_base k) then (WS_FATAL_ERROR, k)
    else let (r, k) := call E (SProbe (k_base k)) k in
         if (r =? 0)%Z then (WS_SUCCESS, k) else (WS_FATAL_ERROR, k)
  else (ret, k).

Inductive direction := DIR_NONE | DIR_TO | DIR_FROM.
Record command := mkCommand { m_dir : direction; m_rec : bool; m_time : bool; m_set : bool }.

(* src/wolfscp.c:1576-1697 ParseScpCommand. [m_set]: scpBasePath is set. *)
Fixpoint parse_opts (fuel : nat) (E : sys) (cmd : bytes) (idx : N) (m : command) (k : sink) :
  rc * command * sink :=
  match fuel with
  | O => (WS_SUCCESS, m, k)
  | S f =>
      if idx + 1 <? lenN cmd then
        if (chr cmd idx =? SPACE) && (chr cmd (idx + 1) =? DASH) && (idx + 2 <? lenN cmd) then
          let idx := idx + 2 in
          let c := chr cmd idx in
          let path d :=
            let m := mkCommand d (m_rec m) (m_time m) false in
            if idx + 2 <? lenN cmd then
              let idx := idx + 2 in
              let m := mkCommand d (m_rec m) (m_time m) true in
              match CleanPath (dropN idx cmd) (lenN cmd + MAX_FILENAME) with
              | None => (WS_FATAL_ERROR, idx, m, set_base (dropN idx cmd) k)
              | Some p =>
                  let k := set_base p k in
                  match d with
                  | DIR_TO => let (r, k) := BasePathHelper E k in (r, idx, m, k)
                  | _ => (WS_SUCCESS, idx, m, k)
                  end
              end
            else (WS_SUCCESS, idx, m, set_base [] k) in
          let '(r, idx, m, k) :=
            if c =? 114 (* r *) then (WS_SUCCESS, idx, mkCommand (m_dir m) true (m_time m) (m_set m), k)
            else if c =? 112 (* p *) then (WS_SUCCESS, idx, mkCommand (m_dir m) (m_rec m) true (m_set m), k)
            else if c =? 116 (* t *) then path DIR_TO
            else if c =? 102 (* f *) then path DIR_FROM
            else (WS_SUCCESS, idx, m, k) in
          if rc_eqb r WS_SUCCESS then parse_opts f E cmd (idx + 1) m k else (r, m, k)
        else parse_opts f E cmd (idx + 1) m k
      else (WS_SUCCESS, m, k)
  end.

Definition WS_SCP_CMD_E := WS_FATAL_OTHER.
Definition ParseScpCommand (E : sys) (cmd : bytes) (k : sink) : rc * command * sink :=
  let '(r, m, k) := parse_opts (S (List.length cmd)) E cmd 0 (mkCommand DIR_NONE false false false) k in
  match m_dir m with
  | DIR_NONE => (WS_SCP_CMD_E, m, k)
  | _ => if rc_eqb r WS_SUCCESS && negb (m_set m) then (WS_SCP_CMD_E, m, k) else (r, m, k)
  end.

(* ------------------------------------------------------------------ *)
(* Control messages                                                     *)

(* src/wolfscp.c:1035-1083 GetScpFileMode; the index is 0 before. *)
Definition octal (d : N) : bool := (48 <=? d) && (d <=? 55).
Definition GetMode (buf : bytes) : pres N :=
  if lenN buf <? 5 then PErr WS_BAD_ARGUMENT 0
  else match rd buf 0, rdn buf 1 4 with
  | Some c, Some o =>
      if negb (c =? 67) && negb (c =? 68) then PErr WS_BAD_ARGUMENT 0
      else if forallb octal o then
        let mode := fold_left (fun m d => N.lor (N.shiftl m 3) (d - 48)) o 0 in
        POk (N.land mode 511) (if 6 <=? lenN buf then 6 else 5)
      else PErr WS_BAD_ARGUMENT 0
  | _, _ => POob
  end.

(* src/wolfscp.c:1099-1123 FindSpaceInString, from the index [i] *)
Fixpoint space_at (l : bytes) (i : N) : option N :=
  match l with
  | [] => None
  | c :: t => if c =? SPACE then Some i else space_at t (i + 1)
  end.
Definition FindSpace (buf : bytes) (i : N) : option N := space_at (dropN i buf) i.

(* src/wolfscp.c:1142-1170 ScpParseUInt64 on the bytes of the field *)
Fixpoint uint_loop (l : bytes) (max val : N) : option N :=
  match l with
  | [] => Some val
  | c :: t =>
      if (c <? 48) || (57 <? c) then None
      else let d := c - 48 in
           if (max <? d) || ((max - d) / 10 <? val) then None
           else uint_loop t max (val * 10 + d)
  end.
Definition ParseUInt64 (l : bytes) (max : N) : option N :=
  match l with [] => None | _ => uint_loop l max 0 end.

(* src/wolfscp.c:1182-1219 GetScpFileSize *)
Definition GetSizeField (buf : bytes) (i : N) : pres N :=
  match FindSpace buf i with
  | None => PErr WS_FATAL_OTHER i
  | Some s =>
      match rdn buf i (s - i) with
      | None => POob
      | Some f =>
          match ParseUInt64 f 4294967295 with
          | None => PErr WS_FATAL_OTHER i
          | Some v => POk v (if s + 1 <=? lenN buf then s + 1 else s)
          end
      end
  end.

(* strlen from the index [i]; POob: no NUL in the buffer *)
Fixpoint has_nul (l : bytes) : bool :=
  match l with [] => false | c :: t => if c =? 0 then true else has_nul t end.

Definition bad_name (n : bytes) : bool :=
  match n with
  | [] => true
  | [a] => a =? DOT
  | [a; b] => (a =? DOT) && (b =? DOT)
  | _ => false
  end || existsb (fun c => (c =? SLASH) || (c =? BSLASH)) n.

(* src/wolfscp.c:1232-1303 GetScpFileName *)
Definition GetName (buf : bytes) (i : N) : pres bytes :=
  let l := dropN i buf in
  if negb (has_nul l) then POob
  else
    let n := cstr l in
    if lenN buf <? i + lenN n then PErr WS_FATAL_OTHER i
    else if bad_name n then PErr WS_FATAL_OTHER i
    else POk n i.

(* src/wolfscp.c:1328-1411 GetScpTimestamp; the index is 0 before. The result
   is the new times, and whether it succeeded: the first time is kept even if
   the rest is wrong. None: a read outside the message. *)
Definition MAX64 : N := 18446744073709551615.
Definition GetTimestamp (buf : bytes) (mt at_ : N) : option (bool * N * N) :=
  let bad m := Some (false, m, at_) in
  match rd buf 0 with
  | None => None
  | Some c =>
  if negb (c =? 84) then bad mt
  else match FindSpace buf 0 with
  | None => bad mt
  | Some s =>
  match rdn buf 1 (s - 1) with
  | None => None
  | Some f =>
  match ParseUInt64 f MAX64 with
  | None => bad mt
  | Some m =>
  if negb (s + 1 <? lenN buf) then bad m
  else
  let i := s + 1 in
  match rd buf i with
  | None => None
  | Some z =>
  if negb (z =? 48) then bad m
  else
  let i := i + 1 in
  if lenN buf <=? i then bad m
  else match rd buf i with
  | None => None
  | Some sp =>
  if negb (sp =? SPACE) then bad m
  else
  let i := i + 1 in
  if lenN buf <=? i then bad m
  else match FindSpace buf i with
  | None => bad m
  | Some s =>
  match rdn buf i (s - i) with
  | None => None
  | Some f =>
  match ParseUInt64 f MAX64 with
  | None => bad m
  | Some a => Some (s + 1 <? lenN buf, m, a)
  end end end end end end end end end.

(* src/wolfscp.c:1795-1851: the message [buf], its newline replaced by NUL.
   The flag tells whether it was accepted. *)
Definition parse_msg (buf : bytes) (k : sink) : option (bool * sink) :=
  match rd buf 0 with
  | None => None
  | Some c =>
  if (c =? 67) || (c =? 68) then
    let k := set_type (if c =? 67 then MSG_FILE else MSG_DIR) k in
    match GetMode buf with
    | POob => None
    | PErr _ _ => Some (false, k)
    | POk mode i =>
    let k := set_mode mode k in
    match GetSizeField buf i with
    | POob => None
    | PErr _ _ => Some (false, k)
    | POk sz i =>
    let k := set_size sz k in
    if k_rename k then Some (true, set_name (k_name k) (k_cap k) false k)
    else match GetName buf i with
    | POob => None
    | PErr _ _ => Some (false, set_err (Some (ascii "invalid file name")) k)
    | POk n _ =>
        let cap := if k_cap k <=? lenN n then lenN n + 1 else k_cap k in
        Some (true, set_name n cap false k)
    end end end
  else if c =? 69 then Some (true, set_type MSG_END_DIR k)
  else if c =? 84 then
    match GetTimestamp buf (k_mtime k) (k_atime k) with
    | None => None
    | Some (ok, m, a) => Some (ok, set_times m a (set_type MSG_TIME k))
    end
  else Some (false, k)
  end.

(* ------------------------------------------------------------------ *)
(* The default receive callback, src/wolfscp.c:2381-2682                *)

Definition abort (msg : bytes) (k : sink) : sink := set_conf ABORT (set_err (Some msg) k).
Definition go (k : sink) : sink := set_conf CONTINUE k.

(* WOLFSSH_SCP_NEW_REQUEST 2439-2449 *)
Definition cb_request (E : sys) (k : sink) : sink :=
  let (r, k) := call E (SChdir (k_base k)) k in
  if (r =? 0)%Z then go (set_depth 0 k) else abort (ascii "invalid destination directory") k.

(* WOLFSSH_SCP_NEW_FILE 2451-2498 *)
Definition cb_file (E : sys) (k : sink) : sink :=
  let (r, k) := call E (SLink (k_name k)) k in
  if negb (r =? 0)%Z then abort (ascii "symlink target rejected") k
  else
    let (fp, k) := call E (SOpen (k_name k)) k in
    if (fp <? 0)%Z then abort (ascii "unable to open file for writing") k
    else go (set_fp (Some fp) k).

(* WOLFSSH_SCP_FILE_PART 2500-2537 *)
Definition cb_part (E : sys) (d : bytes) (k : sink) : sink :=
  match k_fp k with
  | None => set_conf ABORT k
  | Some fp =>
      match d with
      | [] => go k
      | _ =>
          let (n, k) := call E (SWrite fp d) k in
          if (n =? Z.of_N (lenN d))%Z then go k
          else let (_, k) := call E (SClose fp) k in set_conf ABORT k
      end
  end.

(* WOLFSSH_SCP_FILE_DONE 2539-2582: the context keeps the closed stream *)
Definition cb_done (E : sys) (k : sink) : sink :=
  let timed := negb (k_mtime k =? 0) || negb (k_atime k =? 0) in
  match k_fp k with
  | None => if timed then set_conf ABORT k else go k
  | Some fp =>
      let '(ok, k) :=
        if timed then let (r, k) := call E (SUtimes fp (k_mtime k) (k_atime k)) k in ((r =? 0)%Z, k)
        else (true, k) in
      let (_, k) := call E (SClose fp) k in
      if ok then go k else set_conf ABORT k
  end.

(* WOLFSSH_SCP_NEW_DIR 2584-2644 *)
Definition cb_enter (E : sys) (k : sink) : sink :=
  match k_name k with
  | [] => go k
  | _ =>
      let (r, k) := call E (SMkdir (k_name k) (k_mode k)) k in
      if negb (r =? 0)%Z && negb (r =? EEXIST)%Z then abort (ascii "error creating directory") k
      else
        let (r, k) := call E (SLink (k_name k)) k in
        if negb (r =? 0)%Z then abort (ascii "symlink in destination path") k
        else
          let (r, k) := call E (SChdir (k_name k)) k in
          if (r =? 0)%Z then go (set_depth (add32 (k_depth k) 1) k)
          else abort (ascii "unable to cd into directory") k
  end.

(* WOLFSSH_SCP_END_DIR 2646-2673 *)
Definition cb_leave (E : sys) (k : sink) : sink :=
  if k_depth k =? 0 then abort (ascii "end directory without matching start") k
  else
    let (r, k) := call E (SChdir [DOT; DOT]) k in
    if (r =? 0)%Z then go (set_depth (k_depth k - 1) k)
    else abort (ascii "unable to cd out of directory") k.

(* ------------------------------------------------------------------ *)
(* The receiving machine, src/wolfscp.c:216-360                         *)

(* What the channel does for one turn of the loop:
     EData d   a read gives the bytes [d]; none, when the peer sent a data
               packet without data, or a key exchange began during the read
     ELost d   the bytes [d] were taken from the channel but the read failed:
               crediting the window failed after the copy, src/ssh.c:3810-3820
     EExt      the read fails because stderr data arrived
     EEnd      the peer closed the channel or sent EOF
     ESent n   a send takes [n] bytes
     EAgain    nothing: would block, rekeying, an error; the call returns
               and is made again, or goes on, with the state as it is.
   Not modelled: ReceiveScpMessage 1780-1783, a channel that is not found when
   a packet without data was handled, which makes "E" fail. *)
Inductive sev := EData (d : bytes) | ELost (d : bytes) | EExt | EEnd | ESent (n : N) | EAgain.

Definition take_in (d : bytes) (k : sink) : sink := set_io (k_taken k ++ d) (k_out k) k.

(* 253-284: ReceiveScpMessage succeeded; the type is that of the last message *)
Definition dispatch (E : sys) (k : sink) : sink :=
  match k_type k with
  | MSG_DIR => cb_enter E (set_st SEND_CONFIRMATION RECEIVE_MESSAGE k)
  | MSG_END_DIR => cb_leave E (set_st SEND_CONFIRMATION RECEIVE_MESSAGE k)
  | MSG_TIME => set_st SEND_CONFIRMATION RECEIVE_MESSAGE k
  | MSG_FILE => cb_file E (set_st SEND_CONFIRMATION RECEIVE_FILE k)
  end.

(* 1790-1854: a whole message has arrived *)
Definition message (E : sys) (m : bytes) (k : sink) : option sink :=
  match parse_msg (removelast m ++ [0]) k with
  | None => None
  | Some (ok, k) =>
      let k := set_msg [] k in
      Some (if ok then dispatch E k else k)                  (* else the call fails *)
  end.

(* 312-352: the bytes [d] of the file were read *)
Definition file_part (E : sys) (d : bytes) (k : sink) : sink :=
  let k := cb_part E d k in
  let k := set_off (add32 (k_off k) (lenN d)) k in
  match k_conf k with
  | ABORT => set_st SEND_CONFIRMATION SCP_DONE k
  | CONTINUE =>
      if k_off k <? k_size k then set_st RECEIVE_FILE RECEIVE_FILE k
      else
        let k := cb_done E k in
        set_st SEND_CONFIRMATION RECEIVE_CONFIRMATION (set_times 0 0 (set_off 0 k))
  end.

(* src/wolfscp.c:1887-1938 SendScpConfirmation: what is sent *)
Definition confirmation (k : sink) : bytes :=
  match k_conf k with
  | ABORT => match k_err k with Some m => 1 :: m ++ [NEWLINE] | None => [1] end
  | CONTINUE => [0]
  end.

Definition sink_step (E : sys) (e : sev) (k : sink) : option sink :=
  match k_st k with
  | SCP_DONE => Some k
  | SINK_BEGIN =>
      (* 227-236 *)
      Some (cb_request E (set_st SEND_CONFIRMATION RECEIVE_MESSAGE k))
  | RECEIVE_MESSAGE =>
      (* 1699-1794: the loop of ReceiveScpMessage *)
      if SCP_MSG_SZ - 1 <=? lenN (k_msg k) then Some k
      else
      match e with
      | EData d =>
          if SCP_MSG_SZ - lenN (k_msg k) <? lenN d then Some k
          (* 1765-1768: no byte was read, and 0 is WS_SUCCESS *)
          else if lenN d =? 0 then Some (dispatch E k)
          else
            let m := k_msg k ++ d in
            let k := set_msg m (take_in d k) in
            if last m 0 =? NEWLINE then message E m k else Some k
      | ELost d => Some (take_in d k)
      | EEnd => Some (set_st SCP_DONE (k_next k) k)
      | _ => Some k
      end
  | SEND_CONFIRMATION =>
      match e with
      | ESent n =>
          let m := confirmation k in
          if lenN m <? n then Some k
          else
            let k := set_io (k_taken k) (k_out k ++ takeN n m) k in
            match k_conf k with
            | CONTINUE => if n =? lenN m then Some (set_st (k_next k) (k_next k) (set_err None k)) else Some k
            | ABORT => Some k
            end
      | _ => Some k
      end
  | RECEIVE_CONFIRMATION =>
      (* 1940-1986: anything up to a whole buffer is read and its first byte
         looked at; nothing, and stderr data, count as a confirmation *)
      match e with
      | EData d =>
          if SCP_MSG_SZ <? lenN d then Some k
          else
            let k := take_in d k in
            if chr d 0 =? 0 then Some (set_st RECEIVE_MESSAGE (k_next k) k) else Some k
      | EExt => Some (set_st RECEIVE_MESSAGE (k_next k) k)
      | _ => Some k
      end
  | RECEIVE_FILE =>
      (* 1856-1885 ReceiveScpFile *)
      let part := N.min (sub32 (k_size k) (k_off k)) SCP_BUFFER_SZ in
      if part =? 0 then Some (file_part E [] k)
      else match e with
      | EData d =>
          if part <? lenN d then Some k
          else Some (file_part E d (take_in d k))
      | _ => Some k
      end
  end.

Fixpoint sink_run (E : sys) (es : list sev) (k : sink) : option sink :=
  match es with
  | [] => Some k
  | e :: t => match sink_step E e k with None => None | Some k => sink_run E t k end
  end.

(* src/wolfscp.c:885-925 DoScpRequest on a server, and 2139-2178
   wolfSSH_SCP_from on a client: how receiving starts. *)
Definition serve (E : sys) (cmd : bytes) : rc * sink :=
  let '(r, m, k) := ParseScpCommand E cmd sink0 in
  match m_dir m with
  | DIR_TO => (r, if rc_eqb r WS_SUCCESS then set_st SINK_BEGIN SCP_DONE k else k)
  | _ => (WS_FATAL_OTHER, k)
  end.
Definition SCP_from (E : sys) (dst : bytes) : rc * sink :=
  let (r, k) := BasePathHelper E (set_base dst sink0) in
  (r, if rc_eqb r WS_SUCCESS then set_st SINK_BEGIN SCP_DONE k else k).
