(* SshdLoginModel.v - how wolfsshd decides about a login attempt
   (apps/wolfsshd/auth.c): RequestAuthentication and what it calls. POSIX
   build with crypt(3), without PAM. Allocation does not fail. The data bases
   of the system are functions: they do not change during one attempt. *)
From Coq Require Import List NArith ZArith Lia Bool String.
From Verif Require Import Base NegoSpec SshdConfModel SshdKeysModel.
Import ListNotations.
Open Scope N_scope.

(* struct passwd; strings do not hold a NUL *)
Record passwd : Type := Passwd { pw_uid : N; pw_gid : N; pw_dir : bytes; pw_hash : bytes }.

(* Everything outside the daemon. *)
Record world : Type := World {
  w_pw : bytes -> option passwd;              (* getpwnam *)
  w_pw_errno : bytes -> bool;                 (* errno after a getpwnam without result *)
  w_shadow : bytes -> option (option bytes);  (* getspnam and sp_pwdp *)
  w_groups : bytes -> N -> option (list bytes); (* wolfSSHD_GetUserGroupNames *)
  w_crypt : bytes -> bytes -> option bytes;   (* crypt(3) *)
  w_b64 : bytes -> option bytes;              (* Base64_Decode *)
  w_line : nat;                               (* MAX_LINE_SZ - 1 *)
  w_read : bytes -> option bytes;             (* what is in a file, if it can be opened *)
  w_open : bytes -> opening;                  (* the answers to wolfSSHD_OpenSecureFile *)
  w_euid : N;                                 (* geteuid *)
  w_now : N;                                  (* time *)
  w_pton4 : bytes -> option bytes;
  w_pton6 : bytes -> option bytes;
  w_upns : bytes -> option (list bytes) }.    (* wc_ParseCert: the UPN alternative names *)

(* The build: FPKI, shadow passwords. *)
Record build : Type := Build { b_fpki : bool; b_shadow : bool }.

(* WOLFSSHD_AUTH (auth.c 137-158): the configuration nodes, the address of the
   peer, the attempts left, and the fake hashes (363-364). *)
Record actx : Type := ACtx { a_conf : list conf; a_peer : bytes; a_left : Z; a_fakes : list bytes }.

(* WS_UserAuthData_PublicKey, as far as used *)
Record pkey : Type := PKey {
  k_blob : bytes; k_x509 : bool; k_ossh : bool;
  k_ca : bytes; k_principals : bytes; k_after : N; k_before : N; k_source : bytes }.
Inductive login : Type := LPassword (pw : bytes) | LKey (k : pkey).

(* WOLFSSH_USERAUTH_ codes (wolfssh/ssh.h), and exit(1) *)
Inductive uares : Type := UOk | UFail | UNoUser | UBadPw | URejected | UBadKey | UExit.

(* ---- passwords -------------------------------------------------------- *)

(* auth.c 667-676: the constant salts *)
Definition fake_sha512 : bytes := ascii "$6$rounds=5000$wolfSSHdFakeSalt$".
Definition fake_md5 : bytes := ascii "$1$wolfSSHd$UkYLseEmSSXHYyxsWDQC80".
Definition fake_des : bytes := ascii "wowolfSSHdUkYLs".

Definition starts (c : N) (s : bytes) : bool := match s with x :: _ => x =? c | [] => false end.
(* hashedInput == NULL || hashedInput[0] == '*' *)
Definition no_hash (h : option bytes) : bool := match h with None => true | Some s => starts 42 s end.

Section Login.
Variable B : build.
Variable W : world.

(* auth.c 699-723: the salt for a locked account *)
Definition locked_salt (fakes : list bytes) (stored : bytes) : bytes :=
  match stored with
  | 33 :: 36 :: r => 36 :: r
  | _ => match fakes with
         | (33 :: 36 :: r) :: _ => if b_shadow B then 36 :: r else fake_sha512
         | _ => fake_sha512
         end
  end.
(* auth.c 660-755: CheckPasswordHashUnix, with the salts of the crypt calls.
   The input is a C string. *)
Definition check_hash (fakes : list bytes) (input stored : bytes) : ares * list bytes :=
  match stored, input with
  | [], [] => (AYes, [])
  | _, _ =>
      let locked := match stored with [] => true | c :: _ => (c =? 42) || (c =? 33) end in
      let s0 := if locked then locked_salt fakes stored else stored in
      let h0 := w_crypt W input s0 in
      if locked then
        let '(h1, t1) := if no_hash h0 then (w_crypt W input fake_md5, [fake_md5]) else (h0, []) in
        let '(h2, t2) := if no_hash h1 then (w_crypt W input fake_des, [fake_des]) else (h1, []) in
        (match h2 with None => AErr | Some _ => ANo end, s0 :: t1 ++ t2)
      else
        (match h0 with
         | None => AErr
         | Some h => if (match h with [] => true | _ => false end) || starts 42 h || negb (bytes_eqb h stored) then ANo else AYes
         end, [s0])
  end.

Definition FAKE_HASH_SZ : N := 256.   (* auth.c 346 *)
(* auth.c 793-846: the stored hash; None is an error *)
Definition stored_hash (u : bytes) : option bytes :=
  match w_pw W u with
  | None => Some (ascii "*")
  | Some p =>
      if b_shadow B && starts 120 (pw_hash p) then
        match w_shadow W u with
        | None | Some None => None
        | Some (Some h) => if FAKE_HASH_SZ <=? lenN h then None else Some h
        end
      else Some (pw_hash p)
  end.
(* auth.c 757-884: CheckPasswordUnix; the copy of the password is a C string *)
Definition check_password (fakes : list bytes) (u pw : bytes) : ares * list bytes :=
  match stored_hash u with
  | None => (AErr, [])
  | Some h => check_hash fakes (cstr pw) h
  end.
(* auth.c 2391-2444: DoFakePasswordCheck; the bytes of the name are added up
   in a word32 *)
Definition fake_check (fakes : list bytes) (name pw : bytes) : list bytes :=
  let sum := (fold_left N.add name 0) mod 2 ^ 32 in
  let h := if b_shadow B then
             match fakes with
             | [] => ascii "*"
             | _ => nth (N.to_nat (sum mod lenN fakes)) fakes (ascii "*")
             end
           else ascii "*" in
  snd (check_hash fakes (cstr pw) h).

(* ---- users and their configuration ----------------------------------- *)

(* auth.c 2201-2217: IsRootUser *)
Definition is_root (u : bytes) : bool :=
  match w_pw W u with Some p => pw_uid p =? 0 | None => false end || bytes_eqb u (ascii "root").
(* auth.c 3437-3477: wolfSSHD_AuthGetUserConf *)
Definition auth_user_conf (a : actx) (u : bytes) : option conf :=
  match w_pw W u with
  | None => None
  | Some p => match w_groups W u (pw_gid p) with
              | None => None
              | Some gs => Some (user_conf (a_conf a) (Some u) gs)
              end
  end.
(* auth.c 1462-1481, 2248-2283: DoCheckUser with CheckUserUnix *)
Definition check_user (a : actx) (u : bytes) (root : bool) : uares :=
  let denied := root && match auth_user_conf a u with None => true | Some c => cf_root c =? ROOT_NO end in
  if denied then URejected
  else match w_pw W u with
       | Some _ => UOk
       | None => if w_pw_errno W u then UFail else UNoUser
       end.
(* auth.c 2227-2245 *)
Definition root_pw_blocked (root : bool) (c : conf) : bool :=
  root && ((cf_root c =? ROOT_PROHIBIT_PW) || (cf_root c =? ROOT_FORCED_CMD)).
Definition root_cmd_missing (root : bool) (c : conf) : bool :=
  root && (cf_root c =? ROOT_FORCED_CMD) && match cf_cmd c with None => true | Some _ => false end.

(* ---- public keys ------------------------------------------------------ *)

(* auth.c 1274-1311: the file as SearchKeysFile gets to it *)
Definition get_file (owner : N) (strict : bool) (path : bytes) : option bytes :=
  if strict then (if open_secure owner false (w_open W path) then w_read W path else None) else w_read W path.
Definition search_file (key : bytes) (owner : N) (strict : bool) (path : bytes) : ares :=
  search_keys_file (w_b64 W) (w_line W) key strict (get_file owner strict path).
(* auth.c 1434-1459: SearchForPubKey *)
Definition search_for_key (u : bytes) (p : passwd) (pattern : option bytes) (key : bytes) (strict : bool) : ares :=
  match resolve_path (pw_dir p) u pattern with
  | None => AErr
  | Some f => search_file key (pw_uid p) strict f
  end.
Definition answer (b : bool) : ares := if b then AYes else ANo.
Definition and_then (r : ares) (k : ares) : ares := match r with AYes => k | _ => r end.
(* auth.c 1751-1828: CheckPublicKeyUnix; StrictModes is that of the first
   node. *)
Definition check_key (a : actx) (u : bytes) (k : pkey) (ca pattern : option bytes) : ares :=
  if k_ossh k then
    match k_ca k, ca with
    | [], _ => AErr
    | _, None => ANo
    | _, Some f =>
        match w_pw W u with
        | None => AErr
        | Some _ =>
            and_then (search_file (k_ca k) (w_euid W) true f)
              (and_then (answer (check_principal (k_principals k) u))
                 (and_then (answer (check_validity (w_now W) (k_after k) (k_before k)))
                    (answer (check_source (w_pton4 W) (w_pton6 W) (k_source k) (a_peer a)))))
        end
    end
  else
    match w_pw W u with
    | None => AErr
    | Some p => search_for_key u p pattern (k_blob k) (cf_strict (hd conf_new (a_conf a)))
    end.
(* auth.c 2291-2303: CAKeysFileDiffers *)
Definition ca_differs (a b : option bytes) : bool :=
  match a, b with
  | None, None => false
  | Some x, Some y => negb (bytes_eqb x y)
  | _, _ => true
  end.
(* auth.c 2599-2667: the UPN check of a FPKI build *)
Definition upn_ok (u : bytes) (k : pkey) (c : conf) : bool :=
  if b_fpki B && k_x509 k then
    match w_upns W (k_blob k) with
    | None => false
    | Some ns => existsb (fun n => match_upn u n (cf_upn c)) ns
    end
  else true.
(* auth.c 2581-2744: the public key part of RequestAuthentication *)
Definition request_key (a : actx) (u : bytes) (root : bool) (c : conf) (k : pkey) : uares :=
  if negb (cf_pk c) then URejected
  else if root_cmd_missing root c then URejected
  else if negb (upn_ok u k c) then UBadKey
  else if k_x509 k && negb (cf_keys_set c) then
    if ca_differs (cf_ca (hd conf_new (a_conf a))) (cf_ca c) then URejected
    else if b_fpki B then UOk else URejected
  else match check_key a u k (cf_ca c) (cf_keys c) with
       | AYes => UOk
       | ANo => UBadKey
       | AErr => UFail
       end.

(* ---- RequestAuthentication ------------------------------------------- *)

(* auth.c 2521-2571: the password part: result, attempts left, the salts of
   the crypt calls, and whether a fake check is due. *)
Definition request_password (a : actx) (u : bytes) (root : bool) (c : conf) (pw : bytes) : uares * Z * list bytes * bool :=
  if negb (cf_pw c) then (URejected, a_left a, [], true)
  else if root_pw_blocked root c then (URejected, a_left a, [], true)
  else if (match pw with [] => true | _ => false end) && negb (cf_empty c) then (UFail, a_left a, [], true)
  else let '(r, t) := check_password (a_fakes a) u pw in
       match r with
       | AYes => (UOk, a_left a, t, false)
       | ANo => let n := (a_left a - 1)%Z in ((if Z.eqb n 0 then URejected else UBadPw), n, t, false)
       | AErr => (UFail, a_left a, t, true)
       end.
(* auth.c 2468-2752. [raised] and [reduced] are the answers of the two calls
   that change privileges. The user name ends at its first NUL. The salts of
   all crypt calls on the password are returned. *)
Definition request (a : actx) (name : bytes) (l : login) (raised reduced : bool) : uares * Z * list bytes :=
  let u := cstr name in
  let root := is_root u in
  let fail r := match l with
                | LPassword pw => (r, a_left a, fake_check (a_fakes a) name pw)
                | LKey _ => (r, a_left a, [])
                end in
  let '(r, n, t) :=
    match check_user a u root with
    | UOk =>
        if negb raised then fail UFail
        else match auth_user_conf a u with
             | None => fail UFail
             | Some c =>
                 match l with
                 | LPassword pw =>
                     let '(r, n, t, f) := request_password a u root c pw in
                     (r, n, if f then t ++ fake_check (a_fakes a) name pw else t)
                 | LKey k => (request_key a u root c k, a_left a, [])
                 end
             end
    | r => fail r
    end in
  if reduced then (r, n, t) else (UExit, n, t).
End Login.

(* One attempt with what the system answers then. *)
Record event : Type := Event { e_world : world; e_name : bytes; e_login : login; e_raised : bool; e_reduced : bool }.
Definition with_left (n : Z) (a : actx) : actx := ACtx (a_conf a) (a_peer a) n (a_fakes a).
(* src/internal.c 8459-8470, 8592-8603, 8707-8716, 10120-10151: after a
   rejection the connection ends. The library counts failures too and may end
   it earlier; that is left out. *)
Definition ends (r : uares) : bool := match r with URejected | UExit => true | _ => false end.
(* The attempts on one connection, up to its end. *)
Fixpoint run (B : build) (a : actx) (es : list event) : list uares :=
  match es with
  | [] => []
  | e :: t =>
      let '(r, n, _) := request B (e_world e) a (e_name e) (e_login e) (e_raised e) (e_reduced e) in
      r :: if ends r then [] else run B (with_left n a) t
  end.
(* WOLFSSHD_MAX_PASSWORD_ATTEMPTS, auth.c 159-161, 2963 *)
Definition MAX_ATTEMPTS : Z := 3%Z.

(* ---- the fake hashes --------------------------------------------------- *)

(* auth.c 349-355 *)
Definition dummy_salt : bytes := ascii "ABCDEFGHIJKLMNOPQRSTUV".
(* The bytes up to the last dollar but one, with it; None if there are fewer
   than three dollars (auth.c 417-436). *)
Definition dollars (s : bytes) : list N := map fst (filter (fun e => snd e =? 36) (combine (map N.of_nat (seq 0 (List.length s))) s)).
(* auth.c 367-441: GetFakeHashFromTemplate into a buffer of 256 bytes *)
Definition fake_of (t : bytes) : bytes :=
  match t with
  | 36 :: 50 :: _ =>
      let p := if starts 36 (dropN 2 t) then 6 else 7 in
      let n := N.min (N.min (p + 22) 254) (lenN t) in
      33 :: takeN (N.min p n) t ++ takeN (n - p) dummy_salt
  | 36 :: _ =>
      match rev (dollars t) with
      | _ :: i :: _ :: _ =>
          if i + 2 <? FAKE_HASH_SZ
          then takeN (FAKE_HASH_SZ - 1) (33 :: takeN (i + 1) t ++ ascii "wolfSSHFakeSalt$")
          else ascii "!*"
      | _ => ascii "!*"
      end
  | _ => [33]
  end.
(* auth.c 443-492: AddShadowLineToFakeHashCache; the line is a C string, the
   cache holds at most eight *)
Definition field2 (l : bytes) : option bytes :=
  match snd (span (fun c => negb (c =? 58)) l) with
  | [] => None
  | _ :: r => let '(f, rest) := span (fun c => negb (c =? 58)) r in match rest with [] => None | _ => Some f end
  end.
Definition keeps (t : bytes) : bool := match t with _ :: c :: _ => negb (c =? 42) | _ => false end.
Definition add_line (cache : list bytes) (l : bytes) : list bytes :=
  if 8 <=? lenN cache then cache
  else match field2 l with
       | None => cache
       | Some h => let t := fake_of h in
                   if keeps t && negb (existsb (bytes_eqb t) cache) then cache ++ [t] else cache
       end.
(* auth.c 494-521, 570-602: wolfSSHD_AuthInit from the pieces of the shadow
   file and the hash of root *)
Definition auth_init (ls : list bytes) (root : option bytes) : list bytes :=
  match fold_left add_line ls [] with
  | [] => match root with
          | Some h => let t := fake_of h in if keeps t then [t] else []
          | None => []
          end
  | c => c
  end.
