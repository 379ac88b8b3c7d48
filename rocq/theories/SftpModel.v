(* SftpModel.v - the SFTP server of src/wolfsftp.c: file attributes, the table
   of open handles, the request handlers and the receive loop. The build
   modelled is the POSIX one. The file system and the memory allocator are
   oracles that see everything that was asked before. *)
From Verif Require Import Base WireModel PathModel.
From Coq Require Import List NArith ZArith Bool String.
From Verif Require Import NegoSpec.
Import ListNotations.
Open Scope N_scope.

(* ------------------------------------------------------------------ *)
(* File attributes                                                      *)

(* wolfssh/wolfsftp.h:101-105 *)
Definition A_SIZE : N := 1.
Definition A_UIDGID : N := 2.
Definition A_PERM : N := 4.
Definition A_TIME : N := 8.
Definition A_EXT : N := 2147483648.

(* wolfssh/wolfsftp.h:139-150 WS_SFTP_FILEATRB without the list of extensions,
   which is never filled in. sz[1] is the high half. *)
Record attrs := mkAttrs {
  a_flags : N; a_hi : N; a_lo : N; a_uid : N; a_gid : N; a_per : N;
  a_atime : N; a_mtime : N; a_ext : N }.
Definition no_attrs : attrs := mkAttrs 0 0 0 0 0 0 0 0 0.

Definition has (fl bit : N) : bool := negb (N.land fl bit =? 0).

(* src/wolfsftp.c:1101-1137 SFTP_AttributesSz *)
Definition AttributesSz (a : attrs) : N :=
  4 + (if has (a_flags a) A_SIZE then 8 else 0)
    + (if has (a_flags a) A_UIDGID then 8 else 0)
    + (if has (a_flags a) A_PERM then 4 else 0)
    + (if has (a_flags a) A_TIME then 8 else 0)
    + (if has (a_flags a) A_EXT then 4 else 0).

(* src/wolfsftp.c:1144-1185 SFTP_SetAttributes: the bytes it writes. *)
Definition SetAttributes (a : attrs) : bytes :=
  c32toa (a_flags a)
  ++ (if has (a_flags a) A_SIZE then c32toa (a_hi a) ++ c32toa (a_lo a) else [])
  ++ (if has (a_flags a) A_UIDGID then c32toa (a_uid a) ++ c32toa (a_gid a) else [])
  ++ (if has (a_flags a) A_PERM then c32toa (a_per a) else [])
  ++ (if has (a_flags a) A_TIME then c32toa (a_atime a) ++ c32toa (a_mtime a) else [])
  ++ (if has (a_flags a) A_EXT then c32toa (a_ext a) else []).

(* src/wolfsftp.c:6916-6925: the extensions are skipped. [fuel] is the number
   of bytes of the buffer; every extension takes at least eight. *)
Fixpoint skip_ext (fuel : nat) (n : N) (buf : bytes) (len i : N) : pres unit :=
  if n =? 0 then POk tt i
  else match fuel with
  | O => PErr WS_BUFFER_E i
  | S f =>
      match GetSkip buf len i with
      | POk _ i =>
          match GetSkip buf len i with
          | POk _ i => skip_ext f (n - 1) buf len i
          | PErr _ i => PErr WS_BUFFER_E i
          | POob => POob
          end
      | PErr _ i => PErr WS_BUFFER_E i
      | POob => POob
      end
  end.

Definition two32 (want : bool) (buf : bytes) (len i : N) : pres (N * N) :=
  if want then
    pbind (GetUint32 buf len i) (fun a i => pbind (GetUint32 buf len i) (fun b i => POk (a, b) i))
  else POk (0, 0) i.
Definition one32 (want : bool) (buf : bytes) (len i : N) : pres N :=
  if want then GetUint32 buf len i else POk 0 i.

(* src/wolfsftp.c:6859-6931 SFTP_ParseAttributes_buffer. Every failure is
   WS_BUFFER_E and leaves the caller's index alone. *)
Definition ParseAttributes (buf : bytes) (i0 len : N) : pres attrs :=
  match
    pbind (GetUint32 buf len i0) (fun fl i =>
    pbind (two32 (has fl A_SIZE) buf len i) (fun s i =>
    pbind (two32 (has fl A_UIDGID) buf len i) (fun o i =>
    pbind (one32 (has fl A_PERM) buf len i) (fun p i =>
    pbind (two32 (has fl A_TIME) buf len i) (fun t i =>
    pbind (one32 (has fl A_EXT) buf len i) (fun e i =>
    pbind (skip_ext (List.length buf) e buf len i) (fun _ i =>
    POk (mkAttrs fl (fst s) (snd s) (fst o) (snd o) p (fst t) (snd t) e) i)))))))
  with
  | PErr _ _ => PErr WS_BUFFER_E i0
  | r => r
  end.

(* ------------------------------------------------------------------ *)
(* Messages                                                             *)

Definition FTP_OPEN : N := 3.
Definition FTP_CLOSE : N := 4.
Definition FTP_READ : N := 5.
Definition FTP_WRITE : N := 6.
Definition FTP_LSTAT : N := 7.
Definition FTP_FSTAT : N := 8.
Definition FTP_SETSTAT : N := 9.
Definition FTP_FSETSTAT : N := 10.
Definition FTP_OPENDIR : N := 11.
Definition FTP_READDIR : N := 12.
Definition FTP_REMOVE : N := 13.
Definition FTP_MKDIR : N := 14.
Definition FTP_RMDIR : N := 15.
Definition FTP_REALPATH : N := 16.
Definition FTP_STAT : N := 17.
Definition FTP_RENAME : N := 18.
Definition FTP_STATUS : N := 101.
Definition FTP_HANDLE : N := 102.
Definition FTP_DATA : N := 103.
Definition FTP_NAME : N := 104.
Definition FTP_ATTRS : N := 105.
Definition FTP_OK : N := 0.
Definition FTP_EOF : N := 1.
Definition FTP_NOFILE : N := 2.
Definition FTP_PERMISSION : N := 3.
Definition FTP_FAILURE : N := 4.
(* wolfssh/wolfsftp.h:96, 179-204; wolfssh/internal.h MAX_SFTP_HANDLES *)
Definition SFTP_HEADER : N := 9.
Definition MAX_SFTP_RW : N := 32768.
Definition MAX_SFTP_PACKET : N := 65536.
Definition MAX_HANDLE : N := 256.
Definition MAX_SFTP_HANDLES : nat := 64.
Definition HANDLE_ID_SZ : N := 8.

(* src/wolfsftp.c:1073-1082 SFTP_SetHeader *)
Definition SetHeader (reqId type len : N) : bytes :=
  c32toa (add32 len 5) ++ [type] ++ c32toa reqId.

(* src/wolfsftp.c:1876-1936 wolfSSH_SFTP_CreateStatus into a buffer of the
   size it asked for. *)
Definition CreateStatus (status reqId : N) (reason lang : bytes) : bytes :=
  SetHeader reqId FTP_STATUS (12 + lenN reason + lenN lang)
  ++ c32toa status ++ c32toa (lenN reason) ++ reason ++ c32toa (lenN lang) ++ lang.
Definition English : bytes := ascii "English".

(* src/wolfsftp.c:1217-1240 SFTP_CreatePacket in a buffer of outSz = 13 +
   |data| bytes. With NULL data (1234) the bytes are already there. *)
Definition CreatePacket (type reqId : N) (data : bytes) : bytes :=
  SetHeader reqId type (4 + lenN data) ++ c32toa (lenN data) ++ data.

(* ------------------------------------------------------------------ *)
(* The file system                                                      *)

(* What the server asks of it. Offsets are ofst[1] * 2^32 + ofst[0]
   (src/port.c wPwrite, wPread). *)
Inductive fscall :=
| FOpen (path : bytes) (flags mode : N)
| FClose (fd : Z)
| FPread (fd : Z) (n ofst : N)
| FPwrite (fd : Z) (d : bytes) (ofst : N)
| FStat (path : bytes) (nofollow : bool)
| FFstat (fd : Z)
| FChmod (path : bytes) (mode : N)
| FFchmod (fd : Z) (mode : N)
| FSetTime (path : bytes) (atime mtime : N)
| FFsetTime (fd : Z) (atime mtime : N)
| FOpendir (path : bytes)
| FReaddir (dir : Z)
| FClosedir (dir : Z)
| FMkdir (path : bytes) (mode : N)
| FRmdir (path : bytes)
| FRemove (path : bytes)
| FRename (old new : bytes)
| FGetcwd.

(* The answer: the int returned, and for FPread the bytes (if r_int is not
   negative it stands for their number), for FGetcwd the path, for FStat and FFstat the attributes (SFTP_GetAttributesHelper
   5685-5706), for FReaddir the names readdir() gives from here to the end of
   the directory: a directory that changes while the loop of RecvReadDir runs
   is not modelled. *)
Record ans := mkAns { r_int : Z; r_data : bytes; r_attr : attrs; r_names : list bytes }.

(* [fs log] answers the last call of [log] (its head) after the others.
   [lnk] is wIsSymlink. [mem] is the allocator, asked at a numbered site.
   [longname] is SFTP_CreateLongName (3128-3204), which formats a line of text
   from the attributes; None: no memory. *)
Record senv := mkSenv {
  fs : list fscall -> ans;
  lnk : list fscall -> bytes -> bool;
  mem : list fscall -> N -> bool;
  longname : bytes -> attrs -> option bytes }.

(* ------------------------------------------------------------------ *)
(* The server                                                           *)

(* src/wolfsftp.c:2756-2776 WS_FILE_LIST, WS_DIR_LIST; id[0] is the low word *)
Definition hid := (N * N)%type.
Record fent := mkFent { f_id : hid; f_fd : Z; f_name : bytes }.
Record dent := mkDent { d_id : hid; d_dir : Z; d_name : bytes; d_eof : bool }.

Record srv := mkSrv {
  s_files : list fent; s_dirs : list dent; s_next : hid;
  s_paths : paths; s_log : list fscall }.
Definition srv0 (p : paths) : srv := mkSrv [] [] (0, 0) p [].

Definition set_files l (s : srv) := mkSrv l (s_dirs s) (s_next s) (s_paths s) (s_log s).
Definition set_dirs l (s : srv) := mkSrv (s_files s) l (s_next s) (s_paths s) (s_log s).
Definition set_next n (s : srv) := mkSrv (s_files s) (s_dirs s) n (s_paths s) (s_log s).
Definition set_paths p (s : srv) := mkSrv (s_files s) (s_dirs s) (s_next s) p (s_log s).
Definition ask (c : fscall) (s : srv) := mkSrv (s_files s) (s_dirs s) (s_next s) (s_paths s) (c :: s_log s).

Definition hid_eqb (a b : hid) : bool := (fst a =? fst b) && (snd a =? snd b).

(* src/internal.c:21486-21494 AddAssign64 and src/wolfsftp.c:2322-2327
   SFTP_HandleIdNext *)
Definition AddAssign64 (a : hid) (x : N) : hid :=
  let lo := add32 (fst a) x in
  (lo, if lo <? fst a then add32 (snd a) 1 else snd a).
Definition HandleIdNext (s : srv) : hid * srv := (s_next s, set_next (AddAssign64 (s_next s) 1) s).

(* src/wolfsftp.c:2304-2318 *)
Definition HandleIdEncode (h : hid) : bytes := c32toa (fst h) ++ c32toa (snd h).
Definition HandleIdDecode (b : bytes) : option hid :=
  match ato32 b 0, ato32 b 4 with
  | Some x, Some y => Some (x, y)
  | _, _ => None
  end.

(* src/wolfsftp.c:4065-4077 SFTP_FileHandleCapped, 2781-2793
   SFTP_DirHandleCapped: the count reaches the maximum. *)
Fixpoint capped {A} (count : nat) (l : list A) : bool :=
  match l with
  | [] => false
  | _ :: t => if Nat.leb MAX_SFTP_HANDLES (S count) then true else capped (S count) t
  end.

(* src/wolfsftp.c:4137-4149 SFTP_FindFileHandle *)
Fixpoint FindFileHandle (h : hid) (l : list fent) : option fent :=
  match l with
  | [] => None
  | e :: t => if hid_eqb (f_id e) h then Some e else FindFileHandle h t
  end.
(* src/wolfsftp.c:4153-4185 SFTP_RemoveFileHandle *)
Fixpoint RemoveFileHandle (h : hid) (l : list fent) : list fent :=
  match l with
  | [] => []
  | e :: t => if hid_eqb (f_id e) h then t else e :: RemoveFileHandle h t
  end.
Fixpoint FindDir (h : hid) (l : list dent) : option dent :=
  match l with
  | [] => None
  | e :: t => if hid_eqb (d_id e) h then Some e else FindDir h t
  end.
Fixpoint RemoveDir (h : hid) (l : list dent) : list dent :=
  match l with
  | [] => []
  | e :: t => if hid_eqb (d_id e) h then t else e :: RemoveDir h t
  end.
(* 3966: cur->isEof = 1 *)
Fixpoint SetEof (h : hid) (l : list dent) : list dent :=
  match l with
  | [] => []
  | e :: t => if hid_eqb (d_id e) h then mkDent (d_id e) (d_dir e) (d_name e) true :: t
              else e :: SetEof h t
  end.

(* src/wolfsftp.c:4082-4131 SFTP_AddFileHandle; site 2 stands for its two
   allocations. *)
Definition AddFileHandle (E : senv) (fd : Z) (name : bytes) (h : hid) (s : srv) : rc * srv :=
  if capped 0 (s_files s) then (WS_MEMORY_E, s)
  else if negb (mem E (s_log s) 2) then (WS_MEMORY_E, s)
  else if MAX_FILENAME <? lenN name + 1 then (WS_BUFFER_E, s)
  else (WS_SUCCESS, set_files (mkFent h fd name :: s_files s) s).

(* The result of a handler: its return code, the message loaded for sending
   (wolfSSH_SFTP_RecvSetSend, 1421-1447), and the server. None: a read or
   write outside a buffer. WS_FATAL_OTHER stands for WS_BAD_FILE_E and
   WS_INVALID_STATE_E is itself. *)
Definition hres := option (rc * option bytes * srv).
Definition done (r : rc) (out : bytes) (s : srv) : hres := Some (r, Some out, s).
Definition fail (r : rc) (s : srv) : hres := Some (r, None, s).
Definition WS_BAD_FILE_E := WS_FATAL_OTHER.

(* src/wolfsftp.c:2034-2057 SFTP_SendStatus, and the handlers' way of ending
   with it: site 0. *)
Definition status (E : senv) (r : rc) (code reqId : N) (msg : bytes) (s : srv) : hres :=
  if mem E (s_log s) 0 then done r (CreateStatus code reqId msg English) s
  else fail WS_MEMORY_E s.

(* GetStringRef and the bytes it refers to *)
Definition GetRef (buf : bytes) (len i : N) : pres bytes :=
  match GetStringRef buf len i with
  | POk (o, n) j =>
      if n =? 0 then POk [] j
      else match rdn buf o n with Some b => POk b j | None => POob end
  | PErr e j => PErr e j
  | POob => POob
  end.

Definition clean (E : senv) (path : bytes) (s : srv) : option (rc * bytes) :=
  match GetAndCleanPath (s_paths s) (lnk E (s_log s)) path MAX_FILENAME with
  | None => None
  | Some (ret, p, _) => Some (ret, p)
  end.

(* POSIX, as WOLFSSH_O_* (wolfssh/port.h) *)
Definition O_RDONLY : N := 0.
Definition O_WRONLY : N := 1.
Definition O_RDWR : N := 2.
Definition O_CREAT : N := 64.
Definition O_EXCL : N := 128.
Definition O_TRUNC : N := 512.
Definition O_APPEND : N := 1024.
Definition FXF_READ : N := 1.
Definition FXF_WRITE : N := 2.
Definition FXF_APPEND : N := 4.
Definition FXF_CREAT : N := 8.
Definition FXF_TRUNC : N := 16.
Definition FXF_EXCL : N := 32.

(* src/wolfsftp.c:2426-2457 *)
Definition open_mode (reason : N) : N :=
  let m := if has reason FXF_READ && has reason FXF_WRITE then O_RDWR
           else N.lor (if has reason FXF_READ then O_RDONLY else 0)
                      (if has reason FXF_WRITE then O_WRONLY else 0) in
  let m := if has reason FXF_APPEND then N.lor m O_APPEND else m in
  let m := if has reason FXF_CREAT then N.lor m O_CREAT else m in
  let m := if has reason FXF_TRUNC then N.lor m O_TRUNC else m in
  if has reason FXF_EXCL then N.lor m O_EXCL else m.

(* wolfssh/wolfsftp.h:129-137: 0770000, 0100000, 0777 *)
Definition PER_MASK_TYPE : N := 258048.
Definition PER_FILE : N := 32768.
Definition SAFE_MODE (m : N) : N := N.land m 511.

(* src/wolfsftp.c:2332-2562 wolfSSH_SFTP_RecvOpen. 1 is the site of the
   reply's allocation (2518). *)
Definition RecvOpen (E : senv) (reqId : N) (data : bytes) (s : srv) : hres :=
  let len := lenN data in
  match GetRef data len 0 with
  | POob => None
  | PErr _ _ => fail WS_BUFFER_E s
  | POk path i =>
  match clean E path s with
  | None => None
  | Some (ret, dir) =>
  if rc_eqb ret WS_PERMISSIONS then
    status E WS_BAD_FILE_E FTP_PERMISSION reqId (ascii "Permission denied") s
  else if negb (rc_eqb ret WS_SUCCESS) then fail WS_FATAL_ERROR s
  else if capped 0 (s_files s) then
    status E WS_BAD_FILE_E FTP_FAILURE reqId (ascii "Too Many Open File Handles") s
  else
  match GetUint32 data len i with
  | POob => None
  | PErr _ _ => fail WS_BUFFER_E s
  | POk reason i =>
  match ParseAttributes data i len with
  | POob => None
  | PErr _ _ => fail WS_BAD_FILE_E s
  | POk atr _ =>
  let m := open_mode reason in
  (* 2459-2477 *)
  let s := ask (FStat dir false) s in
  let st := fs E (s_log s) in
  if (r_int st =? 0)%Z && negb (N.land (a_per (r_attr st)) PER_MASK_TYPE =? PER_FILE) then
    if mem E (s_log s) 1
    then done WS_FATAL_ERROR (CreateStatus FTP_FAILURE reqId (ascii "Not A File") English) s
    else fail WS_MEMORY_E s
  else
  let s := ask (FOpen dir m (SAFE_MODE (if has (a_flags atr) A_PERM then a_per atr else 420))) s in
  let fd := r_int (fs E (s_log s)) in
  if (fd <? 0)%Z then
    if mem E (s_log s) 1
    then done WS_BAD_FILE_E (CreateStatus FTP_FAILURE reqId (ascii "Open File Error") English) s
    else fail WS_MEMORY_E s
  else
  let (h, s) := HandleIdNext s in
  let (ret, s) := AddFileHandle E fd dir h s in
  if negb (rc_eqb ret WS_SUCCESS) then
    if mem E (s_log s) 1
    then done WS_FATAL_ERROR (CreateStatus FTP_FAILURE reqId (ascii "Internal Failure") English)
              (ask (FClose fd) s)
    else fail WS_MEMORY_E (ask (FClose fd) s)
  else if mem E (s_log s) 1
    then done WS_SUCCESS (CreatePacket FTP_HANDLE reqId (HandleIdEncode h)) s
    else fail WS_MEMORY_E (ask (FClose fd) (set_files (RemoveFileHandle h (s_files s)) s))
  end end end end.

(* src/wolfsftp.c:2800-2913 wolfSSH_SFTP_RecvOpenDir. Site 3 stands for the
   two allocations of the list entry, 1 for the reply's. *)
Definition RecvOpenDir (E : senv) (reqId : N) (data : bytes) (s : srv) : hres :=
  match GetRef data (lenN data) 0 with
  | POob => None
  | PErr _ _ => fail WS_BUFFER_E s
  | POk path _ =>
  match clean E path s with
  | None => None
  | Some (ret, dir) =>
  if rc_eqb ret WS_PERMISSIONS then
    status E WS_BAD_FILE_E FTP_PERMISSION reqId (ascii "Permission denied") s
  else if negb (rc_eqb ret WS_SUCCESS) then fail WS_BUFFER_E s
  else if capped 0 (s_dirs s) then
    status E WS_BAD_FILE_E FTP_FAILURE reqId (ascii "Too Many Open Directory Handles") s
  else
  let s := ask (FOpendir dir) s in
  let d := r_int (fs E (s_log s)) in
  if (d <? 0)%Z then
    if mem E (s_log s) 1
    then done WS_BAD_FILE_E (CreateStatus FTP_NOFILE reqId (ascii "Unable To Open Directory") English) s
    else fail WS_MEMORY_E s
  else if negb (mem E (s_log s) 3) then fail WS_MEMORY_E (ask (FClosedir d) s)
  else
  let (h, s) := HandleIdNext s in
  let s := set_dirs (mkDent h d dir false :: s_dirs s) s in
  if mem E (s_log s) 1
  then done WS_SUCCESS (CreatePacket FTP_HANDLE reqId (HandleIdEncode h)) s
  else fail WS_MEMORY_E s
  end end.

(* src/wolfsftp.c:4001-4060 wolfSSH_SFTP_RecvCloseDir: None, not a directory
   handle. *)
Definition RecvCloseDir (h : hid) (s : srv) : option srv :=
  match FindDir h (s_dirs s) with
  | None => None
  | Some e => Some (set_dirs (RemoveDir h (s_dirs s)) (ask (FClosedir (d_dir e)) s))
  end.

(* src/wolfsftp.c:4723-4818 wolfSSH_SFTP_RecvClose *)
Definition RecvClose (E : senv) (reqId : N) (data : bytes) (s : srv) : hres :=
  let maxSz := lenN data in
  if maxSz <? 4 then fail WS_BUFFER_E s
  else match ato32 data 0 with
  | None => None
  | Some sz =>
  if (maxSz <? add32 sz 4) || (MAX_HANDLE <? sz) then fail WS_BUFFER_E s
  else
  let finish (ok : bool) (s : srv) :=
    if ok then status E WS_SUCCESS FTP_OK reqId (ascii "Closed File") s
    else status E WS_BAD_FILE_E FTP_FAILURE reqId (ascii "Close File Error") s in
  if negb (sz =? HANDLE_ID_SZ) then finish false s
  else
  match rdn data 4 8 with
  | None => None
  | Some hb =>
  match HandleIdDecode hb with
  | None => None
  | Some h =>
  match RecvCloseDir h s with
  | Some s => finish true s
  | None =>
      match FindFileHandle h (s_files s) with
      | None => finish false s
      | Some e =>
          let s := ask (FClose (f_fd e)) s in
          let ok := (0 <=? r_int (fs E (s_log s)))%Z in
          finish ok (set_files (RemoveFileHandle h (s_files s)) s)
      end
  end end end end.

(* The file of a handle string: 4254-4279, 4482-4505, 5795-5811, 6277-6301 *)
Definition file_of (hb : bytes) (s : srv) : option (option fent) :=
  if negb (lenN hb =? HANDLE_ID_SZ) then Some None
  else match HandleIdDecode hb with
  | None => None
  | Some h => Some (FindFileHandle h (s_files s))
  end.

(* src/wolfsftp.c:4298-4314: the loop of RecvWrite. [d] is what is left to
   write (strSz - written bytes), [lo], [hi] the split offset. Every round that
   goes on leaves less, so |d| + 1 rounds are enough; an answer larger than
   what was asked for ends it with written <> strSz. *)
Fixpoint write_loop (fuel : nat) (E : senv) (fd : Z) (d : bytes) (hi lo : N) (s : srv) : bool * srv :=
  match d with
  | [] => (true, s)
  | _ =>
      match fuel with
      | O => (false, s)
      | S f =>
          let s := ask (FPwrite fd d (hi * W32 + lo)) s in
          let n := r_int (fs E (s_log s)) in
          if (n <=? 0)%Z then (false, s)
          else
            let k := Z.to_N n in
            let lo' := add32 lo k in
            let hi' := if lo' <? w32 k then add32 hi 1 else hi in
            if lenN d <? k then (false, s)
            else write_loop f E fd (dropN k d) hi' lo' s
      end
  end.

(* src/wolfsftp.c:4221-4353 wolfSSH_SFTP_RecvWrite *)
Definition RecvWrite (E : senv) (reqId : N) (data : bytes) (s : srv) : hres :=
  let len := lenN data in
  let bad r := status E r FTP_FAILURE reqId (ascii "Write File Error") s in
  match GetRef data len 0 with
  | POob => None
  | PErr _ _ => bad WS_BUFFER_E
  | POk hb i =>
  match file_of hb s with
  | None => None
  | Some None => bad WS_BAD_FILE_E
  | Some (Some e) =>
  match two32 true data len i with
  | POob => None
  | PErr _ _ => fail WS_BUFFER_E s
  | POk (hi, lo) i =>
  match GetRef data len i with
  | POob => None
  | PErr _ _ => fail WS_BUFFER_E s
  | POk d _ =>
      let (ok, s) := write_loop (S (List.length d)) E (f_fd e) d hi lo s in
      if ok then status E WS_SUCCESS FTP_OK reqId (ascii "Write File Success") s
      else status E WS_INVALID_STATE_E FTP_FAILURE reqId (ascii "Write File Error") s
  end end end end.

(* src/wolfsftp.c:4444-4574 wolfSSH_SFTP_RecvRead. Site 4 is the data buffer
   (4524), 1 a status message that does not fit in it (4557). *)
Definition RecvRead (E : senv) (reqId : N) (data : bytes) (s : srv) : hres :=
  let len := lenN data in
  let say r code msg room s :=
    let m := CreateStatus code reqId msg English in
    if (lenN m <=? room) || mem E (s_log s) 1 then done r m s else fail WS_MEMORY_E s in
  match GetRef data len 0 with
  | POob => None
  | PErr _ _ => fail WS_BUFFER_E s
  | POk hb i =>
  match file_of hb s with
  | None => None
  | Some None => say WS_BAD_FILE_E FTP_FAILURE (ascii "Read File Error") 0 s
  | Some (Some e) =>
  match two32 true data len i with
  | POob => None
  | PErr _ _ => fail WS_BUFFER_E s
  | POk (hi, lo) i =>
  match GetUint32 data len i with
  | POob => None
  | PErr _ _ => fail WS_BUFFER_E s
  | POk sz _ =>
  if MAX_SFTP_RW <? sz then fail WS_BUFFER_E s
  else if negb (mem E (s_log s) 4) then fail WS_MEMORY_E s
  else
    let s := ask (FPread (f_fd e) sz (hi * W32 + lo)) s in
    let a := fs E (s_log s) in
    if (r_int a <? 0)%Z || (sz <? lenN (r_data a)) then
      say WS_BAD_FILE_E FTP_FAILURE (ascii "Read File Error") (sz + 13) s
    else if lenN (r_data a) =? 0 then say WS_SUCCESS FTP_EOF (ascii "Read EOF") (sz + 13) s
    (* the handler returns the count; only its sign is looked at *)
    else done WS_SUCCESS (CreatePacket FTP_DATA reqId (r_data a)) s
  end end end end.

(* The end of RecvRMDIR, RecvMKDIR, RecvRemove, RecvRename and RecvSetSTAT: a
   status for the outcome of the operation; [perm]: GetAndCleanPath refused. *)
Definition outcome (E : senv) (reqId : N) (perm ok : bool) (suc err : bytes) (s : srv) : hres :=
  if perm then status E WS_BAD_FILE_E FTP_PERMISSION reqId (ascii "Permission denied") s
  else if ok then status E WS_SUCCESS FTP_OK reqId suc s
  else status E WS_BAD_FILE_E FTP_FAILURE reqId err s.

(* src/wolfsftp.c:2064-2122 wolfSSH_SFTP_RecvRMDIR *)
Definition RecvRMDIR (E : senv) (reqId : N) (data : bytes) (s : srv) : hres :=
  match GetRef data (lenN data) 0 with
  | POob => None
  | PErr _ _ => fail WS_BUFFER_E s
  | POk path _ =>
  match clean E path s with
  | None => None
  | Some (ret, dir) =>
  let fin := outcome E reqId (rc_eqb ret WS_PERMISSIONS) in
  if rc_eqb ret WS_SUCCESS then
    let s := ask (FRmdir dir) s in
    fin (r_int (fs E (s_log s)) =? 0)%Z (ascii "Removed Directory") (ascii "Remove Directory Error") s
  else fin false (ascii "Removed Directory") (ascii "Remove Directory Error") s
  end end.

(* src/wolfsftp.c:2130-2214 wolfSSH_SFTP_RecvMKDIR *)
Definition RecvMKDIR (E : senv) (reqId : N) (data : bytes) (s : srv) : hres :=
  match GetRef data (lenN data) 0 with
  | POob => None
  | PErr _ _ => fail WS_BUFFER_E s
  | POk path i =>
  match clean E path s with
  | None => None
  | Some (ret, dir) =>
  if rc_eqb ret WS_SUCCESS then
    match ParseAttributes data i (lenN data) with
    | POob => None
    | PErr _ _ => fail WS_BUFFER_E s
    | POk atr _ =>
        let s := ask (FMkdir dir (if has (a_flags atr) A_PERM then SAFE_MODE (a_per atr) else 493)) s in
        outcome E reqId false (r_int (fs E (s_log s)) =? 0)%Z
                (ascii "Created Directory") (ascii "Create Directory Error") s
    end
  else if rc_eqb ret WS_PERMISSIONS then outcome E reqId true false [] [] s
  else fail ret s
  end end.

(* src/wolfsftp.c:4826-4897 wolfSSH_SFTP_RecvRemove *)
Definition RecvRemove (E : senv) (reqId : N) (data : bytes) (s : srv) : hres :=
  match GetRef data (lenN data) 0 with
  | POob => None
  | PErr _ _ => fail WS_BUFFER_E s
  | POk path _ =>
  if MAX_FILENAME <? lenN path then fail WS_BUFFER_E s
  else
  match clean E path s with
  | None => None
  | Some (ret, name) =>
  let fin := outcome E reqId (rc_eqb ret WS_PERMISSIONS) in
  if rc_eqb ret WS_SUCCESS then
    let s := ask (FRemove name) s in
    fin (0 <=? r_int (fs E (s_log s)))%Z (ascii "Removed File") (ascii "Remove File Error") s
  else fin false (ascii "Removed File") (ascii "Remove File Error") s
  end end.

(* src/wolfsftp.c:4906-4978 wolfSSH_SFTP_RecvRename *)
Definition RecvRename (E : senv) (reqId : N) (data : bytes) (s : srv) : hres :=
  let fin perm ok s := outcome E reqId perm ok (ascii "Renamed File") (ascii "Rename File Error") s in
  match GetRef data (lenN data) 0 with
  | POob => None
  | PErr _ _ => fin false false s
  | POk path i =>
  match clean E path s with
  | None => None
  | Some (ret, old) =>
  if negb (rc_eqb ret WS_SUCCESS) then fin (rc_eqb ret WS_PERMISSIONS) false s
  else
  match GetRef data (lenN data) i with
  | POob => None
  | PErr _ _ => fin false false s
  | POk path _ =>
  match clean E path s with
  | None => None
  | Some (ret, new) =>
  if negb (rc_eqb ret WS_SUCCESS) then fin (rc_eqb ret WS_PERMISSIONS) false s
  else
    let s := ask (FRename old new) s in
    fin false (0 <=? r_int (fs E (s_log s)))%Z s
  end end end end.

(* The ATTRS reply, or the status for attributes that could not be had:
   5819-5855, 5903-5947, 5998-6044. Site 1. *)
Definition attrs_reply (E : senv) (reqId : N) (err : bytes) (s : srv) : hres :=
  let a := fs E (s_log s) in
  if negb (mem E (s_log s) 1) then fail WS_MEMORY_E s
  else if (r_int a =? 0)%Z then
    done WS_SUCCESS (SetHeader reqId FTP_ATTRS (AttributesSz (r_attr a)) ++ SetAttributes (r_attr a)) s
  else done WS_BAD_FILE_E (CreateStatus FTP_FAILURE reqId err English) s.

(* src/wolfsftp.c:5771-5857 wolfSSH_SFTP_RecvFSTAT *)
Definition RecvFSTAT (E : senv) (reqId : N) (data : bytes) (s : srv) : hres :=
  match GetRef data (lenN data) 0 with
  | POob => None
  | PErr _ _ => fail WS_BUFFER_E s
  | POk hb _ =>
  match file_of hb s with
  | None => None
  | Some None => fail WS_BAD_FILE_E s
  | Some (Some e) => attrs_reply E reqId (ascii "STAT error") (ask (FFstat (f_fd e)) s)
  end end.

(* src/wolfsftp.c:5864-5949 wolfSSH_SFTP_RecvSTAT and 5955-6047
   wolfSSH_SFTP_RecvLSTAT *)
Definition RecvStat (nofollow : bool) (E : senv) (reqId : N) (data : bytes) (s : srv) : hres :=
  let err := if nofollow then ascii "LSTAT error" else ascii "STAT error" in
  match GetRef data (lenN data) 0 with
  | POob => None
  | PErr _ _ => fail WS_BUFFER_E s
  | POk path _ =>
  match clean E path s with
  | None => None
  | Some (ret, name) =>
  if rc_eqb ret WS_SUCCESS then attrs_reply E reqId err (ask (FStat name nofollow) s)
  else if negb (mem E (s_log s) 1) then fail WS_MEMORY_E s
  else if rc_eqb ret WS_PERMISSIONS then
    done WS_BAD_FILE_E (CreateStatus FTP_PERMISSION reqId (ascii "Permission denied") English) s
  else done WS_BAD_FILE_E (CreateStatus FTP_FAILURE reqId err English) s
  end end.

(* src/wolfsftp.c:6077-6112 SFTP_SetFileAttributes, 6118-6162
   SFTP_SetFileAttributesHandle: the mode, then the times; the size, the owner
   and the extensions are not looked at. *)
Definition set_attrs (E : senv) (chmod : N -> fscall) (settime : N -> N -> fscall)
  (a : attrs) (s : srv) : bool * srv :=
  let '(ok, s) :=
    if has (a_flags a) A_PERM then
      let s := ask (chmod (SAFE_MODE (a_per a))) s in ((r_int (fs E (s_log s)) =? 0)%Z, s)
    else (true, s) in
  if ok && has (a_flags a) A_TIME then
    let s := ask (settime (a_atime a) (a_mtime a)) s in ((r_int (fs E (s_log s)) =? 0)%Z, s)
  else (ok, s).

(* src/wolfsftp.c:6170-6235 wolfSSH_SFTP_RecvSetSTAT *)
Definition RecvSetSTAT (E : senv) (reqId : N) (data : bytes) (s : srv) : hres :=
  let ser := ascii "Unable to set attributes error" in
  match GetRef data (lenN data) 0 with
  | POob => None
  | PErr _ _ => fail WS_BUFFER_E s
  | POk path i =>
  match clean E path s with
  | None => None
  | Some (ret, name) =>
  if negb (rc_eqb ret WS_SUCCESS) then
    outcome E reqId (rc_eqb ret WS_PERMISSIONS) false [] ser s
  else
  match ParseAttributes data i (lenN data) with
  | POob => None
  | PErr _ _ => outcome E reqId false false [] (ascii "Unable to parse attributes error") s
  | POk a _ =>
      let (ok, s) := set_attrs E (FChmod name) (FSetTime name) a s in
      outcome E reqId false ok (ascii "Set Attributes") ser s
  end end end.

(* src/wolfsftp.c:6242-6320 wolfSSH_SFTP_RecvFSetSTAT *)
Definition RecvFSetSTAT (E : senv) (reqId : N) (data : bytes) (s : srv) : hres :=
  let ser := ascii "Unable to set attributes error" in
  match GetRef data (lenN data) 0 with
  | POob => None
  | PErr _ _ => fail WS_BUFFER_E s
  | POk hb i =>
  match file_of hb s with
  | None => None
  | Some None => outcome E reqId false false [] ser s
  | Some (Some e) =>
  match ParseAttributes data i (lenN data) with
  | POob => None
  | PErr _ _ => outcome E reqId false false [] (ascii "Unable to parse attributes error") s
  | POk a _ =>
      let (ok, s) := set_attrs E (FFchmod (f_fd e)) (FFsetTime (f_fd e)) a s in
      outcome E reqId false ok (ascii "Set Attributes") ser s
  end end end.

(* One entry of a NAME reply: name, long name, attributes *)
Definition nent := (bytes * bytes * attrs)%type.

(* src/wolfsftp.c:3754-3817 wolfSSH_SFTPNAME_readdir and the loop of
   RecvReadDir (3929-3944). Site 5 stands for the allocations of the name. The
   list is kept in reverse, as there. *)
Fixpoint readdir_loop (E : senv) (dirName : bytes) (names : list bytes) (acc : list nent) (s : srv) :
  list nent * srv :=
  match names with
  | [] => (acc, s)
  | n :: t =>
      if negb (mem E (s_log s) 5) then (acc, s)
      else match readdir_path (s_paths s) dirName n with
      | None => (acc, s)
      | Some p =>
          let s := ask (FStat p true) s in
          let a := fs E (s_log s) in
          let atr := if (r_int a =? 0)%Z then r_attr a else no_attrs in
          match longname E n atr with
          | None => (acc, s)
          | Some l => readdir_loop E dirName t ((n, l, atr) :: acc) s
          end
      end
  end.

(* src/wolfsftp.c:3830-3873 wolfSSH_SFTP_SendName: the entries, [room] bytes
   being left in the buffer. None: not enough space. *)
Fixpoint put_names (l : list nent) (room : N) : option bytes :=
  match l with
  | [] => Some []
  | (f, g, a) :: t =>
      if room <? lenN f + lenN g + 8 then None
      else
        let room := room - (lenN f + lenN g + 8) in
        if room <? AttributesSz a then None
        else match put_names t (room - AttributesSz a) with
        | None => None
        | Some b => Some (PutString f ++ PutString g ++ SetAttributes a ++ b)
        end
  end.
Definition names_sz (l : list nent) : N :=
  fold_right (fun e n => match e with (f, g, a) => lenN f + lenN g + 8 + AttributesSz a + n end) 0 l.

(* src/wolfsftp.c:3879-3994 wolfSSH_SFTP_RecvReadDir *)
Definition RecvReadDir (E : senv) (reqId : N) (data : bytes) (s : srv) : hres :=
  let len := lenN data in
  match GetSize data len 0 with
  | POob => None
  | PErr _ _ => fail WS_BUFFER_E s
  | POk sz i =>
  if MAX_HANDLE <? sz then fail WS_BUFFER_E s
  else if negb (sz =? HANDLE_ID_SZ) then fail WS_FATAL_ERROR s
  else
  match two32 true data len i with
  | POob => None
  | PErr _ _ => fail WS_BUFFER_E s
  | POk h _ =>
  match FindDir h (s_dirs s) with
  | None => fail WS_FATAL_ERROR s
  | Some e =>
  let '(l, s) :=
    if d_eof e then ([], s)
    else let s := ask (FReaddir (d_dir e)) s in
         readdir_loop E (d_name e) (r_names (fs E (s_log s))) [] s in
  match l with
  | [] => if mem E (s_log s) 1
          then done WS_SUCCESS (CreateStatus FTP_EOF reqId (ascii "No More Files In Directory") English) s
          else fail WS_MEMORY_E s
  | _ =>
      let s := set_dirs (SetEof h (s_dirs s)) s in
      let outSz := w32 (13 + names_sz l) in
      if negb (mem E (s_log s) 1) then fail WS_MEMORY_E s
      else if outSz <? 13 then fail WS_FATAL_ERROR s
      else match put_names l (outSz - 13) with
      | None => fail WS_FATAL_ERROR s
      | Some b => done WS_SUCCESS
                    (SetHeader reqId FTP_NAME (outSz - 9) ++ c32toa (lenN l) ++ b) s
      end
  end end end end.

(* src/wolfsftp.c:1463-1592 wolfSSH_SFTP_RecvRealPath. The path is computed by
   PathModel.RecvRealPath. *)
Definition RecvRealPathMsg (E : senv) (reqId : N) (data : bytes) (s : srv) : hres :=
  match GetRef data (lenN data) 0 with
  | POob => None
  | PErr _ _ => fail WS_BUFFER_E s
  | POk path _ =>
  if MAX_FILENAME <=? lenN path then fail WS_BUFFER_E s
  else
  let s := match sp_default (s_paths s) with Some _ => s | None => ask FGetcwd s end in
  let cw := fs E (s_log s) in
  let '(p, out) := RecvRealPath (if (r_int cw =? 0)%Z then Some (r_data cw) else None) path (s_paths s) in
  let s := set_paths p s in
  match sp_default p, out with
  | None, _ =>
      if mem E (s_log s) 1
      then done WS_FATAL_OTHER (CreateStatus FTP_FAILURE reqId (ascii "Directory error") English) s
      else fail WS_MEMORY_E s
  | Some _, None => fail WS_INVALID_PATH_E s
  | Some _, Some r =>
      let outSz := 25 + lenN r + lenN r in
      if (lenN data <? outSz) && negb (mem E (s_log s) 1) then fail WS_MEMORY_E s
      else done WS_SUCCESS
        (SetHeader reqId FTP_NAME (outSz - 9) ++ c32toa 1 ++ PutString r ++ PutString r
         ++ SetAttributes no_attrs) s
  end end.

(* src/wolfsftp.c:1671-1806: the switch of wolfSSH_SFTP_read. The status for an
   unknown type reuses the request's buffer if that is large enough (1782-1790). *)
Definition dispatch (E : senv) (type reqId : N) (data : bytes) (s : srv) : hres :=
  if type =? FTP_REALPATH then RecvRealPathMsg E reqId data s
  else if type =? FTP_RMDIR then RecvRMDIR E reqId data s
  else if type =? FTP_MKDIR then RecvMKDIR E reqId data s
  else if type =? FTP_STAT then RecvStat false E reqId data s
  else if type =? FTP_LSTAT then RecvStat true E reqId data s
  else if type =? FTP_FSTAT then RecvFSTAT E reqId data s
  else if type =? FTP_OPEN then RecvOpen E reqId data s
  else if type =? FTP_READ then RecvRead E reqId data s
  else if type =? FTP_WRITE then RecvWrite E reqId data s
  else if type =? FTP_CLOSE then RecvClose E reqId data s
  else if type =? FTP_REMOVE then RecvRemove E reqId data s
  else if type =? FTP_RENAME then RecvRename E reqId data s
  else if type =? FTP_SETSTAT then RecvSetSTAT E reqId data s
  else if type =? FTP_FSETSTAT then RecvFSetSTAT E reqId data s
  else if type =? FTP_OPENDIR then RecvOpenDir E reqId data s
  else if type =? FTP_READDIR then RecvReadDir E reqId data s
  else
    let m := CreateStatus FTP_FAILURE reqId (ascii "Unknown/Unsupported packet type") English in
    if (lenN m <=? lenN data) || mem E (s_log s) 1 then done WS_SUCCESS m s
    else fail WS_FATAL_ERROR s.

(* ------------------------------------------------------------------ *)
(* The receive loop                                                     *)

(* src/wolfsftp.c:189-226 WS_SFTP_RECV_STATE *)
Inductive rstate :=
| RHead (got : bytes)                       (* STATE_RECV_READ *)
| RBody (type id sz : N) (got : bytes)      (* STATE_RECV_DO *)
| RSend (out : bytes) (idx : N)             (* STATE_RECV_SEND *)
| RDead.                                    (* the call failed for good *)

(* [c_in] is what the peer sends and has not been read; [c_out] what was given
   to wolfSSH_stream_send. *)
Record conn := mkConn { c_srv : srv; c_in : bytes; c_out : bytes; c_st : rstate }.

(* One turn of the loop in wolfSSH_SFTP_buffer_read (716-797), or one
   wolfSSH_SFTP_buffer_send (551-617):
     IMove n pend  [n] bytes moved, bytes still queued below if [pend]
     IStop         none moved: nothing there, the peer's window is full, keys are
                   being exchanged, or the socket would block; the call goes on or
                   returns to be called again, with the state as it is
     IFail         a transport error *)
Inductive io := IMove (n : N) (pend : bool) | IStop | IFail.

(* src/wolfsftp.c:1808-1823: a request that failed with nothing to send ends the
   call with its error. What a caller sees who calls again after that is not
   modelled. *)
Definition handled (E : senv) (type id : N) (data : bytes) (c : conn) : option conn :=
  match dispatch E type id data (c_srv c) with
  | None => None
  | Some (_, Some m, s) => Some (mkConn s (c_in c) (c_out c) (RSend m 0))
  | Some (r, None, s) =>
      (* 1808-1823: without an error and without a reply there is nothing to send *)
      if rc_neg r then Some (mkConn s (c_in c) (c_out c) RDead)
      else Some (mkConn s (c_in c) (c_out c) (RHead []))
  end.

(* src/wolfsftp.c:1600-1852 wolfSSH_SFTP_read *)
Definition sftp_io (E : senv) (e : io) (c : conn) : option conn :=
  let die := Some (mkConn (c_srv c) (c_in c) (c_out c) RDead) in
  match e, c_st c with
  | _, RDead => Some c
  | IFail, _ => die
  | IStop, _ => Some c
  | IMove n _, RHead got =>
      let k := N.min n (SFTP_HEADER - lenN got) in
      let d := takeN k (c_in c) in
      let got := got ++ d in
      let c := mkConn (c_srv c) (dropN k (c_in c)) (c_out c) (RHead got) in
      if lenN got <? SFTP_HEADER then Some c
      else
        (* SFTP_GetHeader 1030-1060 *)
        match ato32 got 0, rd got 4, ato32 got 5 with
        | Some len, Some type, Some id =>
            let sz := sub32 len 5 in
            (* SFTP_CheckRecvSz 432: an int *)
            if (sz =? 0) || (MAX_SFTP_PACKET <? sz)
            then Some (mkConn (c_srv c) (c_in c) (c_out c) RDead)
            else if negb (mem E (s_log (c_srv c)) 6)
            then Some (mkConn (c_srv c) (c_in c) (c_out c) RDead)
            else Some (mkConn (c_srv c) (c_in c) (c_out c) (RBody type id sz []))
        | _, _, _ => None
        end
  | IMove n _, RBody type id sz got =>
      let k := N.min n (sz - lenN got) in
      let d := takeN k (c_in c) in
      let got := got ++ d in
      let c := mkConn (c_srv c) (dropN k (c_in c)) (c_out c) (RBody type id sz got) in
      if lenN got <? sz then Some c else handled E type id got c
  | IMove n pend, RSend out idx =>
      let k := N.min n (lenN out - idx) in
      let d := takeN k (dropN idx out) in
      let c := mkConn (c_srv c) (c_in c) (c_out c ++ d) (RSend out (idx + k)) in
      (* wolfSSH_SFTP_buffer_send_finish 634-662 *)
      if (idx + k <? lenN out) || pend then Some c
      else Some (mkConn (c_srv c) (c_in c) (c_out c) (RHead []))
  end.

Fixpoint sftp_run (E : senv) (es : list io) (c : conn) : option conn :=
  match es with
  | [] => Some c
  | e :: t => match sftp_io E e c with None => None | Some c => sftp_run E t c end
  end.

Definition conn0 (p : paths) (input : bytes) : conn := mkConn (srv0 p) input [] (RHead []).

(* src/wolfsftp.c:4189-4216 SFTP_FreeAllFileHandles and the directory part of
   wolfSSH_SFTP_free: what is open is closed when the session ends. *)
Definition SFTP_free (s : srv) : srv :=
  mkSrv [] [] (s_next s) (s_paths s)
    (rev (map (fun e => FClose (f_fd e)) (s_files s) ++ map (fun e => FClosedir (d_dir e)) (s_dirs s))
     ++ s_log s).
