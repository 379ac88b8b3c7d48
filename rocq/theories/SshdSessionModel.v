(* SshdSessionModel.v - what wolfsshd does once a user is logged in
   (apps/wolfsshd/wolfsshd.c, the permission functions of auth.c): which
   program or service is started, and with which credentials. POSIX build with
   shell, SFTP, SCP and OpenSSH certificates. *)
From Coq Require Import List NArith ZArith Lia Bool String.
From Verif Require Import Base NegoSpec SshdConfModel.
Import ListNotations.
Open Scope N_scope.

(* ---- the system -------------------------------------------------------- *)

(* A directory is the list of names from the real root. *)
Definition dir : Type := list bytes.
Record cred : Type := Cred {
  c_ruid : N; c_euid : N; c_suid : N; c_rgid : N; c_egid : N; c_sgid : N;
  c_groups : list N; c_root : dir; c_cwd : dir }.

(* The system calls made between the login and the start of the service. Those
   of the last line do not change the credentials. *)
Inductive call : Type :=
  | SetEgid (g : N) | SetEuid (u : N) | SetRegid (r e : N) | SetReuid (r e : N)
  | SetGroups (l : list N) | Chdir (p : bytes) | Chroot (p : bytes)
  | Pipe | Fork | Dup | OpenDir (p : bytes) | DefaultPath (p : bytes).

(* The system: whether the n-th call fails for a reason of its own, and what a
   path names for a process with this root and working directory. *)
Record kernel : Type := Kernel {
  k_ok : nat -> call -> bool;
  k_lookup : dir -> dir -> bytes -> option dir }.

(* (uid_t)-1: setreuid and setregid leave the id as it is; seteuid and setegid
   refuse it. POSIX, setreuid(2). *)
Definition NO_ID : N := 4294967295.
Definition one_of (x : N) (l : list N) : bool := existsb (N.eqb x) l.
Definition keep (x old : N) : N := if x =? NO_ID then old else x.

Section Calls.
Variable K : kernel.

(* POSIX: without privilege (effective user 0) an id may only be set to one the
   process has. *)
Definition may (c : cred) (x : call) : bool :=
  let root := c_euid c =? 0 in
  match x with
  | SetEgid g => negb (g =? NO_ID) && (root || one_of g [c_rgid c; c_egid c; c_sgid c])
  | SetEuid u => negb (u =? NO_ID) && (root || one_of u [c_ruid c; c_euid c; c_suid c])
  | SetRegid r e => root || (one_of r [NO_ID; c_rgid c; c_egid c] && one_of e [NO_ID; c_rgid c; c_egid c; c_sgid c])
  | SetReuid r e => root || (one_of r [NO_ID; c_ruid c; c_euid c] && one_of e [NO_ID; c_ruid c; c_euid c; c_suid c])
  | SetGroups _ => root
  | Chroot p => root && match k_lookup K (c_root c) (c_cwd c) p with Some _ => true | None => false end
  | Chdir p => match k_lookup K (c_root c) (c_cwd c) p with Some _ => true | None => false end
  | _ => true
  end.
Definition effect (c : cred) (x : call) : cred :=
  match x with
  | SetEgid g => Cred (c_ruid c) (c_euid c) (c_suid c) (c_rgid c) g (c_sgid c) (c_groups c) (c_root c) (c_cwd c)
  | SetEuid u => Cred (c_ruid c) u (c_suid c) (c_rgid c) (c_egid c) (c_sgid c) (c_groups c) (c_root c) (c_cwd c)
  | SetRegid r e =>
      let e' := keep e (c_egid c) in
      let s' := if negb (r =? NO_ID) || (negb (e =? NO_ID) && negb (e =? c_rgid c)) then e' else c_sgid c in
      Cred (c_ruid c) (c_euid c) (c_suid c) (keep r (c_rgid c)) e' s' (c_groups c) (c_root c) (c_cwd c)
  | SetReuid r e =>
      let e' := keep e (c_euid c) in
      let s' := if negb (r =? NO_ID) || (negb (e =? NO_ID) && negb (e =? c_ruid c)) then e' else c_suid c in
      Cred (keep r (c_ruid c)) e' s' (c_rgid c) (c_egid c) (c_sgid c) (c_groups c) (c_root c) (c_cwd c)
  | SetGroups l => Cred (c_ruid c) (c_euid c) (c_suid c) (c_rgid c) (c_egid c) (c_sgid c) l (c_root c) (c_cwd c)
  | Chroot p =>
      match k_lookup K (c_root c) (c_cwd c) p with
      | Some d => Cred (c_ruid c) (c_euid c) (c_suid c) (c_rgid c) (c_egid c) (c_sgid c) (c_groups c) d (c_cwd c)
      | None => c
      end
  | Chdir p =>
      match k_lookup K (c_root c) (c_cwd c) p with
      | Some d => Cred (c_ruid c) (c_euid c) (c_suid c) (c_rgid c) (c_egid c) (c_sgid c) (c_groups c) (c_root c) d
      | None => c
      end
  | _ => c
  end.

(* A process: how many calls it made, and its credentials. *)
Record proc : Type := Proc { p_n : nat; p_cred : cred }.
Definition sys (x : call) (p : proc) : bool * proc :=
  if k_ok K (p_n p) x && may (p_cred p) x
  then (true, Proc (S (p_n p)) (effect (p_cred p) x))
  else (false, Proc (S (p_n p)) (p_cred p)).

(* ---- permissions, auth.c ----------------------------------------------- *)

(* WOLFSSHD_AUTH (auth.c 137-158): the user sshd runs as, the user it was
   started by, and UsePrivilegeSeparation of the global configuration. *)
Record ids : Type := Ids { i_uid : N; i_gid : N; i_suid : N; i_sgid : N; i_sep : N }.
Definition separated (a : ids) : bool := (i_sep a =? PRIV_SEPARAT) || (i_sep a =? PRIV_SANDBOX).

(* auth.c 3094-3131: wolfSSHD_AuthRaisePermissions *)
Definition raise_permissions (a : ids) (p : proc) : bool * proc :=
  if separated a then
    let '(g, p1) := sys (SetEgid (i_sgid a)) p in
    if g then sys (SetEuid (i_suid a)) p1 else (false, p1)
  else (true, p).
(* auth.c 3134-3158: wolfSSHD_AuthReducePermissionsUser *)
Definition reduce_user (uid gid : N) (p : proc) : bool * proc :=
  let '(g, p1) := sys (SetRegid gid gid) p in
  if g then sys (SetReuid uid uid) p1 else (false, p1).
(* auth.c 3161-3197: wolfSSHD_AuthReducePermissions *)
Definition reduce_permissions (a : ids) (p : proc) : bool * proc :=
  if separated a then
    let '(g, p1) := sys (SetEgid (i_gid a)) p in
    let '(u, p2) := sys (SetEuid (i_uid a)) p1 in
    (g && u, p2)
  else (true, p).

Definition GROUP_LIST_INIT : N := 32.      (* auth.c 3224 *)
Definition GROUP_LIST_MAX : N := 65536.    (* auth.c 3227 *)
(* auth.c 3234-3312: wolfSSHD_GetUserGroupList: the buffer doubles until
   getgrouplist can put the whole list in it. The fuel is the number of rounds;
   the last is the one with the largest buffer. Allocation does not fail. *)
Fixpoint group_list (fuel : nat) (size : N) (l : list N) : option (list N) :=
  match fuel with
  | O => None
  | S n =>
      if lenN l <=? size then Some l
      else if GROUP_LIST_MAX <=? size then None
      else group_list n (N.min (size * 2) GROUP_LIST_MAX) l
  end.
(* auth.c 3391-3419: wolfSSHD_AuthSetGroups; [l] is what getgrouplist says *)
Definition auth_set_groups (l : list N) (p : proc) : bool * proc :=
  match group_list 12 GROUP_LIST_INIT l with
  | None => (false, p)
  | Some gs => sys (SetGroups gs) p
  end.

(* ---- wolfsshd.c --------------------------------------------------------- *)

Definition slash : bytes := [47].
Inductive chroot_res : Set := CSet | CNone | CErr.
(* wolfsshd.c 613-643: SetupChroot *)
Definition setup_chroot (path : option bytes) (p : proc) : chroot_res * proc :=
  match path with
  | None => (CNone, p)
  | Some d =>
      let '(b1, p1) := sys (Chdir d) p in
      if b1 then
        let '(b2, p2) := sys (Chroot d) p1 in
        if b2 then
          let '(b3, p3) := sys (Chdir slash) p2 in
          if b3 then (CSet, p3) else (CErr, p3)
        else (CErr, p2)
      else (CErr, p1)
  end.

(* struct passwd, with the groups of the user; strings do not hold a NUL *)
Record account : Type := Account {
  ac_uid : N; ac_gid : N; ac_groups : list N; ac_dir : bytes; ac_shell : bytes }.

(* What starts to serve the user, and where it starts. Relay is the process
   that passes data between the connection and the shell. *)
Inductive served : Type :=
  | Scp | Sftp (start : option bytes) | Exec (program : bytes) (argv : list bytes) | Relay.
(* A service starts, with these credentials. *)
Record start : Type := Start { s_what : served; s_cred : cred }.
(* The connection process goes on (true: its work was done) or exits. *)
Inductive fin : Set := Exits | Returns (done : bool).

(* wolfsshd.c 682-765: SCP_Subsystem, up to where it serves *)
Definition scp_subsystem (a : ids) (u : account) (c : conf) (p : proc) : list start * fin * proc :=
  let '(r, p1) := raise_permissions a p in
  if negb r then ([], Returns false, p1)
  else
    let '(g, p2) := auth_set_groups (ac_groups u) p1 in
    let '(ok, p3) := if g then match setup_chroot (cf_chroot c) p2 with (CErr, q) => (false, q) | (_, q) => (true, q) end
                     else (false, p2) in
    let '(d, p4) := reduce_user (ac_uid u) (ac_gid u) p3 in
    if negb d then ([], Exits, p4)
    else if ok then ([Start Scp (p_cred p4)], Returns true, p4)
    else ([], Returns false, p4).

(* wolfsshd.c 806-834: the starting directory of SFTP *)
Definition sftp_start (u : account) (set : bool) (p : proc) : bool * option bytes * proc :=
  let '(b1, s1, p1) := if set then let '(b, q) := sys (DefaultPath slash) p in (b, if b then Some slash else None, q)
                       else (true, None, p) in
  if b1 then
    let '(o, p2) := sys (OpenDir (ac_dir u)) p1 in
    if o then let '(b, p3) := sys (DefaultPath (ac_dir u)) p2 in
              (b, if b then Some (ac_dir u) else s1, p3)
    else (true, s1, p2)
  else (false, s1, p1).
(* wolfsshd.c 771-865: SFTP_Subsystem, up to where it serves *)
Definition sftp_subsystem (a : ids) (u : account) (c : conf) (p : proc) : list start * fin * proc :=
  let '(r, p1) := raise_permissions a p in
  if negb r then ([], Returns false, p1)
  else
    let '(g, p2) := auth_set_groups (ac_groups u) p1 in
    let '(ok, s, p3) := if g then match setup_chroot (cf_chroot c) p2 with
                                  | (CErr, q) => (false, None, q)
                                  | (CSet, q) => sftp_start u true q
                                  | (CNone, q) => sftp_start u false q
                                  end
                        else (false, None, p2) in
    let '(d, p4) := reduce_user (ac_uid u) (ac_gid u) p3 in
    if negb d then ([], Exits, p4)
    else if ok then ([Start (Sftp s) (p_cred p4)], Returns true, p4)
    else ([], Returns false, p4).

Definition internal_sftp : bytes := ascii "internal-sftp".
Definition MAX_COMMAND_SZ : N := 80.   (* wolfsshd.c 970-972 *)

(* wolfsshd.c 1712-1721: the first byte of what is left becomes '-', until no
   '/' is left *)
Fixpoint argv0_from (fuel : nat) (s : bytes) : bytes :=
  let s' := 45 :: tl s in
  match fuel with
  | O => s'
  | S n => match snd (span (fun c => negb (c =? 47)) s') with
           | [] => s'
           | t => argv0_from n t
           end
  end.
(* wolfsshd.c 1655, 1708-1722 *)
Definition argv0 (shell : bytes) : bytes :=
  if lenN shell <? MAX_COMMAND_SZ then argv0_from (List.length shell) shell else ascii "-sh".
(* wolfsshd.c 1731-1737: cmd holds MAX_COMMAND_SZ bytes *)
Definition program (shell : bytes) : bytes :=
  takeN (MAX_COMMAND_SZ - 1) (match shell with [] => ascii "/bin/sh" | _ => shell end).

(* wolfsshd.c 1653-1766: the child. [piped] is !ptyReq || forcedCmd. exec
   itself is the end of what is modelled. *)
Fixpoint calls (xs : list call) (p : proc) : bool * proc :=
  match xs with
  | [] => (true, p)
  | x :: r => let '(b, q) := sys x p in if b then calls r q else (false, q)
  end.
Definition shell_child (u : account) (c : conf) (cmd : option bytes) (piped : bool) (p : proc) : list start * proc :=
  let '(b1, p1) := if piped then calls [Dup; Dup; Dup] p else (true, p) in
  if negb b1 then ([], p1)
  else
    let '(b2, p2) := auth_set_groups (ac_groups u) p1 in
    if negb b2 then ([], p2)
    else
      let '(b3, p3) := match setup_chroot (cf_chroot c) p2 with
                       | (CErr, q) => (false, q)
                       | (CSet, q) => sys (Chdir slash) q
                       | (CNone, q) => (true, q)
                       end in
      if negb b3 then ([], p3)
      else
        let '(b4, p4) := reduce_user (ac_uid u) (ac_gid u) p3 in
        if negb b4 then ([], p4)
        else
          let '(_, p5) := sys (Chdir (ac_dir u)) p4 in
          ([Start (Exec (program (ac_shell u))
                        (argv0 (ac_shell u) :: match cmd with Some x => [ascii "-c"; x] | None => [] end)) (p_cred p5)], p5).
End Calls.

Section Session.
Variable K : kernel.
(* the system as the child sees it *)
Variable KC : kernel.

(* wolfsshd.c 650-665 with auth.c 3059-3063 *)
Definition effective_cmd (conf_cmd cert_cmd : option bytes) : option bytes :=
  match conf_cmd with Some x => Some x | None => cert_cmd end.
Definition is_internal_sftp (x : option bytes) : bool :=
  match x with Some s => bytes_eqb s internal_sftp | None => false end.

(* What is asked in a session: whether a terminal was asked for, and the
   command of an exec request. *)
(* wolfsshd.c 1522-1783: SHELL_Subsystem, up to where it starts to pass data.
   tcgetattr and tcsetattr are not modelled: on failure the relay does not
   start. A failure of forkpty is a failure of Fork. [pty] None: the state of
   the channel could not be read. *)
Definition shell_subsystem (a : ids) (u : account) (c : conf) (cert_cmd : option bytes) (pty : option bool)
    (sub_cmd : option bytes) (p : proc) : list start * fin * proc :=
  let forced := effective_cmd (cf_cmd c) cert_cmd in
  match pty with
  | None => ([], Returns false, p)
  | Some has_pty =>
      let cmd := match forced with Some x => Some x | None => sub_cmd end in
      if is_internal_sftp cmd then ([], Returns false, p)
      else
        let '(r, p1) := raise_permissions K a p in
        if negb r then ([], Returns false, p1)
        else
          let piped := negb has_pty || match cmd with Some _ => true | None => false end in
          let '(ok, p2) := calls K ((if piped then [Pipe; Pipe; Pipe] else []) ++ [Fork]) p1 in
          if negb ok then
            let '(d, p3) := reduce_permissions K a p2 in
            ([], if d then Returns false else Exits, p3)
          else
            let '(child, _) := shell_child KC u c cmd piped (Proc 0 (p_cred p2)) in
            let '(d, p3) := reduce_user K (ac_uid u) (ac_gid u) p2 in
            if d then (child ++ [Start Relay (p_cred p3)], Returns true, p3)
            else (child, Exits, p3)
  end.

(* wolfsshd.c 2265-2287: IsRootTransferBlocked *)
Definition root_transfer_blocked (u : account) (c : conf) : bool :=
  (ac_uid u =? 0) && (cf_root c =? ROOT_FORCED_CMD) && negb (is_internal_sftp (cf_cmd c)).

(* What wolfSSH_accept says, and the kind of session asked for (wolfssh/ssh.h:
   WOLFSSH_SESSION_). *)
Inductive accepted : Set := AccShell | AccSftp | AccScp.
Inductive session : Type :=
  | SShell | SSubsystem | SExec (command : option bytes) | SUnknown (command : option bytes) | STerminal.

(* wolfsshd.c 2233-2262: what UserAuthResult keeps of the certificate. The copy
   is used as a C string. *)
Definition cert_command (force : option bytes) : option bytes :=
  match force with Some (b :: s) => Some (cstr (b :: s)) | _ => None end.

(* wolfsshd.c 2430-2586: HandleConnection, once wolfSSH_accept succeeded. The
   configuration and the account of the user were found. *)
Definition handle (a : ids) (u : account) (c : conf) (cert_cmd : option bytes) (pty : option bool)
    (acc : accepted) (s : session) (p : proc) : list start * fin * proc :=
  let scp :=
    match cert_cmd with
    | Some _ => ([], Returns false, p)
    | None => if root_transfer_blocked u c then ([], Returns false, p) else scp_subsystem K a u c p
    end in
  match s with
  | SShell => match acc with
              | AccShell => shell_subsystem a u c cert_cmd pty None p
              | _ => ([], Returns false, p)
              end
  | SSubsystem =>
      if match cert_cmd with Some _ => negb (is_internal_sftp cert_cmd) | None => false end then ([], Returns false, p)
      else match acc with
           | AccSftp => if root_transfer_blocked u c then ([], Returns false, p) else sftp_subsystem K a u c p
           | AccScp => scp
           | AccShell => ([], Returns false, p)
           end
  | SExec cmd | SUnknown cmd =>
      match acc with
      | AccShell => shell_subsystem a u c cert_cmd pty cmd p
      | AccScp => scp
      | AccSftp => ([], Returns false, p)
      end
  | STerminal => ([], Returns false, p)
  end.
End Session.
