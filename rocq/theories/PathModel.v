(* PathModel.v - SFTP server path handling: resolution of a requested path and
   the confinement check.
   Models src/ssh.c 4623-4709 (wolfSSH_RealPath), src/port.c 863-888
   (wstrncat), src/wolfsftp.c 1952-2029 (GetAndCleanPath), 1459-1545
   (RecvRealPath, the path part), 3754-3800 (readdir, the path part),
   8991-9122 (CanonicalizePath, StorePath, SetConfinePath, SetDefaultPath).
   The build without Windows, Zephyr and Nucleus: one delimiter, no drive
   letters. A C string is the list of its bytes before the NUL; a write outside
   the output buffer is the result None. *)
From Verif Require Import Base.
From Coq Require Import List NArith Bool.
Import ListNotations.
Open Scope N_scope.

Definition SLASH : N := 47.
Definition DOT : N := 46.

(* What a buffer holds as a C string: the bytes before the first NUL. *)
Fixpoint cstr (b : bytes) : bytes :=
  match b with
  | [] => []
  | x :: r => if x =? 0 then [] else x :: cstr r
  end.

(* The successive results of strtok(in, "/") (src/ssh.c:4654-4656): maximal
   runs of other characters. [cur] is the run being collected. *)
Fixpoint strtok (cur : bytes) (s : bytes) : list bytes :=
  match s with
  | [] => match cur with [] => [] | _ => [cur] end
  | c :: r =>
      if c =? SLASH
      then match cur with [] => strtok [] r | _ => cur :: strtok [] r end
      else strtok (cur ++ [c]) r
  end.

(* strrchr(s, '/'), as an index *)
Fixpoint strrchr (s : bytes) : option N :=
  match s with
  | [] => None
  | c :: r =>
      match strrchr r with
      | Some i => Some (i + 1)
      | None => if c =? SLASH then Some 0 else None
      end
  end.

(* src/port.c:863-888 wstrncat *)
Definition wstrncat (s1 s2 : bytes) (n : N) : option bytes :=
  if n <=? lenN s1 then None
  else if lenN s2 <=? n - lenN s1 - 1 then Some (s1 ++ s2) else None.

(* strncmp(a, b, n) == 0 *)
Fixpoint strncmp0 (n : nat) (a b : bytes) : bool :=
  match n with
  | O => true
  | S n =>
      match a, b with
      | [], [] => true
      | x :: a, y :: b => (x =? y) && strncmp0 n a b
      | _, _ => false
      end
  end.

(* src/ssh.c:4659-4705: one turn of the loop. None is WS_INVALID_PATH_E. *)
Definition seg_step (outSz : N) (out : bytes) (curSz : N) (seg : bytes) : option (bytes * N) :=
  let segSz := w32 (lenN seg) in
  if (segSz =? 1) && (match seg with a :: _ => a =? DOT | [] => false end) then Some (out, curSz)
  else if (segSz =? 2) && (match seg with a :: b :: _ => (a =? DOT) && (b =? DOT) | _ => false end) then
    match strrchr out with
    | Some i =>
        if negb (i =? 0) then let out := takeN i out in Some (out, w32 (lenN out))
        else Some (takeN 1 out, 1)
    | None => Some (out, curSz)
    end
  else
    let sepSz := if negb (curSz =? 1) then 1 else 0 in
    if (outSz <=? segSz) || (sub32 outSz segSz <=? add32 curSz sepSz) then None
    else
      match (if negb (curSz =? 1) then wstrncat out [SLASH] outSz else Some out) with
      | None => None
      | Some out =>
          let curSz := if negb (curSz =? 1) then add32 curSz 1 else curSz in
          match wstrncat out seg outSz with
          | None => None
          | Some out => Some (out, add32 curSz segSz)
          end
      end.
Fixpoint seg_loop (outSz : N) (out : bytes) (curSz : N) (segs : list bytes) : option bytes :=
  match segs with
  | [] => Some out
  | seg :: r =>
      match seg_step outSz out curSz seg with
      | None => None
      | Some (out, curSz) => seg_loop outSz out curSz r
      end
  end.

Definition is_rel (inp : bytes) : bool :=
  match inp with [] => true | c :: _ => negb (c =? SLASH) end.

(* src/ssh.c:4623-4709 wolfSSH_RealPath with non-NULL in and out: the result
   code and the string in out. None: a write outside out. *)
Definition RealPath (dflt : option bytes) (inp : bytes) (outSz : N) : option (rc * bytes) :=
  if outSz =? 0 then Some (WS_BAD_ARGUMENT, [])
  else
    let start :=
      match (if is_rel inp then dflt else None) with
      | Some d =>
          let curSz := w32 (lenN d) in
          if outSz <=? curSz then None else Some (takeN outSz d, curSz)
      | None => Some ([SLASH], 1)
      end in
    match start with
    | None => Some (WS_INVALID_PATH_E, [SLASH])
    | Some (out, curSz) =>
        if outSz <=? curSz then None     (* out[curSz] = 0, src/ssh.c:4652 *)
        else
          match seg_loop outSz (takeN curSz out) curSz (strtok [] inp) with
          | None => Some (WS_INVALID_PATH_E, [])
          | Some out => Some (WS_SUCCESS, out)
          end
    end.

(* wolfssh/ssh.h:717-719 *)
Definition MAX_FILENAME : N := 256.

(* The session's two paths (wolfssh/internal.h:1155-1156). *)
Record paths := mkPaths { sp_default : option bytes; sp_confine : option bytes }.

(* src/wolfsftp.c:1975-1977: the trailing separators *)
Fixpoint strip (n : nat) (p : bytes) : N :=
  match n with
  | O => 0
  | S k =>
      if (1 <? N.of_nat n) && (match rd p (N.of_nat k) with Some c => c =? SLASH | None => false end)
      then strip k p else N.of_nat n
  end.

(* src/wolfsftp.c:2010-2024: every path that ends at a component boundary below
   the root is looked at. [link] is wIsSymlink; the second result is the paths
   it was asked about, in order. *)
Fixpoint check_links (n : nat) (i cpLen : N) (link : bytes -> bool) (s : bytes) : bool * list bytes :=
  match n with
  | O => (true, [])
  | S n =>
      let boundary := (i =? lenN s) || (match rd s i with Some c => c =? SLASH | None => false end) in
      if negb boundary then check_links n (i + 1) cpLen link s
      else if i <=? cpLen then check_links n (i + 1) cpLen link s
      else if link (takeN i s) then (false, [takeN i s])
      else let (ok, q) := check_links n (i + 1) cpLen link s in (ok, takeN i s :: q)
  end.

(* src/wolfsftp.c:1952-2029 GetAndCleanPath: [data] is the request's path name
   (sz is its length), [sSz] the size of the destination. The result code, the
   string in the destination and the paths looked at. None: a write outside. *)
Definition GetAndCleanPath (p : paths) (link : bytes -> bool) (data : bytes) (sSz : N) :
    option (rc * bytes * list bytes) :=
  if MAX_FILENAME <=? lenN data then Some (WS_BUFFER_E, [], [])
  else
    match RealPath (sp_default p) (cstr data) sSz with
    | None => None
    | Some (ret, s) =>
        if rc_eqb ret WS_SUCCESS then
          match sp_confine p with
          | None => Some (ret, s, [])
          | Some c =>
              let cpLen := strip (N.to_nat (lenN c)) c in
              if 1 <? cpLen then
                if negb (strncmp0 (N.to_nat cpLen) s c)
                   || (match rd s cpLen with Some x => negb (x =? SLASH) | None => false end)
                then Some (WS_PERMISSIONS, s, [])
                else
                  let (ok, q) := check_links (N.to_nat (lenN s - cpLen + 1)) cpLen cpLen link s in
                  Some (if ok then WS_SUCCESS else WS_PERMISSIONS, s, q)
              else if (match s with x :: _ => x =? SLASH | [] => false end)
                   then Some (WS_SUCCESS, s, []) else Some (WS_PERMISSIONS, s, [])
          end
        else Some (ret, s, [])
    end.

(* src/wolfsftp.c:8991-9049 CanonicalizePath. [cwd] is what getcwd writes into
   its 255 bytes, None if it fails. *)
Definition CanonicalizePath (cwd : option bytes) (path : bytes) : option (rc * bytes) :=
  if MAX_FILENAME <=? lenN path then Some (WS_BUFFER_E, [])
  else if is_rel path then
    match cwd with
    | None => Some (WS_INVALID_PATH_E, [])
    | Some w =>
        match RealPath None (cstr (takeN 255 w)) MAX_FILENAME with
        | Some (ret, o) =>
            if rc_eqb ret WS_SUCCESS
            then if MAX_FILENAME <=? lenN o then Some (WS_BUFFER_E, o) else RealPath (Some o) path MAX_FILENAME
            else Some (ret, o)
        | None => None
        end
    end
  else RealPath None path MAX_FILENAME.

(* src/wolfsftp.c:9084-9122 wolfSSH_SFTP_SetConfinePath, SetDefaultPath; the
   allocation in StorePath succeeds. *)
Definition SetConfinePath (cwd : option bytes) (path : option bytes) (p : paths) : paths * rc :=
  match path with
  | None => (p, WS_SUCCESS)
  | Some s =>
      match CanonicalizePath cwd s with
      | Some (ret, c) =>
          if rc_eqb ret WS_SUCCESS then (mkPaths (sp_default p) (Some c), WS_SUCCESS) else (p, ret)
      | None => (p, WS_FATAL_OTHER)   (* a write outside: never, C29 *)
      end
  end.
Definition SetDefaultPath (cwd : option bytes) (path : option bytes) (p : paths) : paths * rc :=
  match path with
  | None => (p, WS_SUCCESS)
  | Some s =>
      match CanonicalizePath cwd s with
      | Some (ret, c) =>
          if rc_eqb ret WS_SUCCESS then (mkPaths (Some c) (sp_confine p), WS_SUCCESS) else (p, ret)
      | None => (p, WS_FATAL_OTHER)
      end
  end.

(* src/wolfsftp.c:1459-1546 wolfSSH_SFTP_RecvRealPath up to the answer: the
   path sent back, if any. *)
Definition RecvRealPath (cwd : option bytes) (data : bytes) (p : paths) : paths * option bytes :=
  if MAX_FILENAME <=? lenN data then (p, None)
  else
    let p :=
      match sp_default p with
      | Some _ => p
      | None =>
          match cwd with
          | None => p
          | Some w =>
              match RealPath None (cstr (takeN 255 w)) MAX_FILENAME with
              | Some (ret, s) => if rc_eqb ret WS_SUCCESS then fst (SetDefaultPath cwd (Some s) p) else p
              | None => p
              end
          end
      end in
    match sp_default p with
    | None => (p, None)
    | Some d =>
        match RealPath (Some d) (cstr data) MAX_FILENAME with
        | Some (ret, s) => if rc_eqb ret WS_SUCCESS then (p, Some s) else (p, None)
        | None => (p, None)
        end
    end.

(* src/wolfsftp.c:3779-3800 wolfSSH_SFTPNAME_readdir: the path whose attributes
   are fetched for the entry [name] of the opened directory [dir]. None: no
   attributes are fetched. *)
Definition readdir_path (p : paths) (dir name : bytes) : option bytes :=
  let r := dir ++ [SLASH] ++ name in
  if MAX_FILENAME <=? lenN r then None
  else match RealPath (sp_default p) r MAX_FILENAME with
  | Some (ret, s) => if rc_eqb ret WS_SUCCESS then Some s else None
  | None => None
  end.

(* The requests of the SFTP server that name a path: RMDIR (2089), MKDIR
   (2156), OPEN (2383), OPENDIR (2833), REMOVE (4853), STAT (5893), LSTAT
   (5984), SETSTAT (6198) of src/wolfsftp.c have the same shape: the path goes
   through GetAndCleanPath, and on success to the file system operation if
   [go], the handler's own further checks (attributes that parse, handles that
   are left). REMOVE refuses a name of more than 256 bytes first, which
   GetAndCleanPath refuses as well. RENAME (4934-4950) does it twice. READDIR
   (3779-3801) fetches the attributes of each entry of a directory that OPENDIR
   opened: [dir] is the stored result of the OPENDIR request for [data]. *)
Inductive path_op := PRmdir | PMkdir | POpen | POpendir | PRemove | PStat | PLstat | PSetstat.
Inductive path_req :=
| QPath (op : path_op) (go : bool) (data : bytes)
| QRename (old new : bytes)
| QReaddir (data name : bytes).

(* The paths handed to the file system while the request is served; None: a
   write outside a buffer. *)
Definition fs_paths (p : paths) (link : bytes -> bool) (q : path_req) : option (list bytes) :=
  match q with
  | QPath _ go data =>
      match GetAndCleanPath p link data MAX_FILENAME with
      | None => None
      | Some (ret, s, ql) => Some (ql ++ (if rc_eqb ret WS_SUCCESS && go then [s] else []))
      end
  | QRename old new =>
      match GetAndCleanPath p link old MAX_FILENAME with
      | None => None
      | Some (ret, s, ql) =>
          if rc_eqb ret WS_SUCCESS then
            match GetAndCleanPath p link new MAX_FILENAME with
            | None => None
            | Some (ret', s', ql') => Some (ql ++ ql' ++ (if rc_eqb ret' WS_SUCCESS then [s; s'] else []))
            end
          else Some ql
      end
  | QReaddir data name =>
      match GetAndCleanPath p link data MAX_FILENAME with
      | None => None
      | Some (ret, s, _) =>
          if rc_eqb ret WS_SUCCESS
          then match readdir_path p s name with Some x => Some [x] | None => Some [] end
          else Some []
      end
  end.

(* What changes the two paths during a session. *)
Inductive path_set :=
| SetDefault (cwd path : option bytes)
| SetConfine (cwd path : option bytes)
| RealPathReq (cwd : option bytes) (data : bytes).
Definition path_step (p : paths) (o : path_set) : paths :=
  match o with
  | SetDefault cwd path => fst (SetDefaultPath cwd path p)
  | SetConfine cwd path => fst (SetConfinePath cwd path p)
  | RealPathReq cwd data => fst (RecvRealPath cwd data p)
  end.
Definition path_run (os : list path_set) : paths := fold_left path_step os (mkPaths None None).
