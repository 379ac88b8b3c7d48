(* SshdKeysModel.v - how wolfsshd decides about a public key
   (apps/wolfsshd/auth.c): the authorized_keys file and where it is, the safe
   opening of a key file, the restrictions of an OpenSSH certificate, and the
   user name in an X.509 certificate. Strings are byte lists without the
   closing NUL. Allocation does not fail. POSIX build. *)
From Coq Require Import List NArith ZArith Lia Bool String.
From Verif Require Import Base WireModel NameTable NegoSpec SshdConfModel.
Import ListNotations.
Open Scope N_scope.

(* auth.h 48-52: WSSHD_AUTH_SUCCESS, WSSHD_AUTH_FAILURE, and a negative
   return code. *)
Inductive ares : Type := AYes | ANo | AErr.

(* ---- authorized_keys ------------------------------------------------- *)

(* fgets(buf, n + 1, f) again and again (auth.c 1312-1313): pieces of at most
   n bytes, each ending after a newline if it has one. n is MAX_LINE_SZ - 1
   (163-201), which depends on the build. *)
Fixpoint fgets_from (n room : nat) (s : bytes) : list bytes :=
  match s with
  | [] => []
  | c :: t =>
      match room with
      | O | S O => [c] :: fgets_from n n t
      | S r => if c =? 10 then [c] :: fgets_from n n t
               else match fgets_from n r t with [] => [[c]] | p :: ps => (c :: p) :: ps end
      end
  end.
Definition fgets_all (n : nat) (s : bytes) : list bytes := fgets_from n n s.

(* strtok_r(s, " ", &last): the token and what is left. *)
Definition is_blank (c : N) : bool := c =? 32.
Definition strtok (s : bytes) : option (bytes * bytes) :=
  match snd (span is_blank s) with
  | [] => None
  | t => let '(w, r) := span (fun c => negb (is_blank c)) t in Some (w, tl r)
  end.

(* strstr(l, sub) != NULL *)
Fixpoint contains (sub l : bytes) : bool :=
  prefixb sub l || match l with [] => false | _ :: t => contains sub t end.
(* src/ssh.c 3081-3084 and src/internal.c 3623-3643: the names
   wolfSSH_QueryKey gives out one after the other; auth.c 292-303: those of
   OpenSSH certificates are left out. *)
Definition key_names : list bytes :=
  filter (fun n => negb (contains (ascii "-cert-v01@openssh.com") n))
    (map snd (filter (fun e => snd (fst e) =? TYPE_KEY) NameIdMap)).

Section Keys.
(* Base64_Decode of wolfCrypt: None when it reports an error. *)
Variable b64 : bytes -> option bytes.

(* auth.c 257-339: CheckAuthKeysLine *)
Definition check_line (key line : bytes) : ares :=
  match line, key with
  | [], _ | _, [] => AErr
  | _, _ =>
      match strtok line with
      | None => AErr
      | Some (ty, rest) =>
          match strtok rest with
          | None => AErr
          | Some (cand, _) =>
              if negb (existsb (bytes_eqb ty) key_names) then ANo
              else match b64 cand with
                   | None => AErr
                   | Some k => if bytes_eqb k key then AYes else ANo
                   end
          end
      end
  end.

(* auth.c 1312-1353: the loop of SearchKeysFile over the lines *)
Fixpoint scan_lines (key : bytes) (ps : list bytes) : ares :=
  match ps with
  | [] => ANo
  | p :: t =>
      let l := snd (span is_blank (cstr p)) in
      if lenN l <=? 1 then scan_lines key t
      else if prefixb [35] l then scan_lines key t
      else match check_line key l with
           | AYes => AYes
           | AErr => AErr
           | ANo => scan_lines key t
           end
  end.

(* auth.c 1274-1354: SearchKeysFile. What the file holds, or None if it could
   not be opened; a failed strict open is a refusal, a failed plain one an
   error. *)
Definition search_keys_file (n : nat) (key : bytes) (strict : bool) (file : option bytes) : ares :=
  match key with
  | [] => AErr
  | _ => match file with
         | None => if strict then ANo else AErr
         | Some s => scan_lines key (fgets_all n s)
         end
  end.
End Keys.

(* ---- the path of the authorized_keys file ---------------------------- *)

Definition MAX_PATH_SZ : N := 80.       (* configuration.h 42-44 *)

(* auth.c 895-962: ExpandAuthKeysTokens; [out] is what has been written. The
   home directory and the user are not NULL. *)
Fixpoint expand_tokens (home user : bytes) (out pat : bytes) : option bytes :=
  let put ins rest := if MAX_PATH_SZ <=? lenN out + lenN ins then None else expand_tokens home user (out ++ ins) rest in
  match pat with
  | [] => Some out
  | c :: t =>
      if c =? 37 then
        match t with
        | d :: t' =>
            if d =? 37 then (if MAX_PATH_SZ <=? lenN out + 1 then None else expand_tokens home user (out ++ [37]) t')
            else if d =? 104 then (if MAX_PATH_SZ <=? lenN out + lenN home then None else expand_tokens home user (out ++ home) t')
            else if d =? 117 then (if MAX_PATH_SZ <=? lenN out + lenN user then None else expand_tokens home user (out ++ user) t')
            else None
        | [] => put [c] t
        end
      else put [c] t
  end.

(* auth.c 891: authKeysDefault *)
Definition auth_keys_default : bytes := ascii ".ssh/authorized_keys".
(* auth.c 967-989: IsAbsoluteAuthKeysPath *)
Definition is_absolute (p : bytes) : bool := prefixb [47] p.
(* auth.c 994-1056: ResolveAuthKeysPath; None is an error. *)
Definition join_home (home suffix : bytes) : option bytes :=
  if MAX_PATH_SZ <=? lenN home + 1 + lenN suffix then None else Some (home ++ [47] ++ suffix).
Definition resolve_path (home user : bytes) (pattern : option bytes) : option bytes :=
  match pattern with
  | None | Some [] => join_home home auth_keys_default
  | Some pat =>
      match expand_tokens home user [] pat with
      | None => None
      | Some e => if is_absolute e then Some e else join_home home e
      end
  end.

(* ---- opening a trusted file ------------------------------------------ *)

(* What stat(2), lstat(2) and fstat(2) tell: the kind, owner, permission bits
   and identity of a file. *)
Record fstat_t : Type := FStat { st_reg : bool; st_dir : bool; st_uid : N; st_mode : N; st_dev : N; st_ino : N }.
Definition S_IRGRP : N := 32.
Definition S_IROTH : N := 4.
Definition S_IWGRP : N := 16.
Definition S_IWOTH : N := 2.
Definition S_ISVTX : N := 512.

(* The answers of the system to one call of wolfSSHD_OpenSecureFile: it may
   change between any two of them. Every directory is looked at once. *)
Record opening : Type := Opening {
  o_lstat : option fstat_t;           (* lstat(path) *)
  o_real : option bytes;              (* realpath(path) *)
  o_open : bool;                      (* open(resolved) gave a descriptor *)
  o_fstat : option fstat_t;           (* fstat of the descriptor *)
  o_stat : bytes -> option fstat_t;   (* stat of a directory *)
  o_fdopen : bool }.                  (* fdopen gave a stream *)

(* auth.c 1186-1190: the bytes before the last slash; None without a slash *)
Fixpoint before_slash (p : bytes) : option bytes :=
  match p with
  | [] => None
  | c :: t => match before_slash t with
              | Some d => Some (c :: d)
              | None => if c =? 47 then Some [] else None
              end
  end.
(* auth.c 1213-1228 *)
Definition dir_ok (s : option fstat_t) : bool :=
  match s with
  | None => false
  | Some st =>
      st_dir st && negb (negb (N.land (st_mode st) (N.lor S_IWGRP S_IWOTH) =? 0) && (N.land (st_mode st) S_ISVTX =? 0))
  end.
(* auth.c 1183-1234: the walk up to the root; fuel is the length of the path *)
Fixpoint walk (fuel : nat) (stat : bytes -> option fstat_t) (p : bytes) : bool :=
  match fuel with
  | O => false
  | S k =>
      match before_slash p with
      | None => true
      | Some d =>
          let d := match d with [] => [47] | _ => d end in
          if dir_ok (stat d) then if bytes_eqb d [47] then true else walk k stat d else false
      end
  end.
(* auth.c 1150-1180: what the opened file must be *)
Definition leaf_ok (owner : N) (reject_readable : bool) (lst st : fstat_t) : bool :=
  st_reg st && ((st_uid st =? owner) || (st_uid st =? 0)) &&
  (N.land (st_mode st) (N.lor S_IWGRP S_IWOTH) =? 0) &&
  (negb reject_readable || (N.land (st_mode st) (N.lor S_IRGRP S_IROTH) =? 0)) &&
  ((st_dev st =? st_dev lst) && (st_ino st =? st_ino lst)).
(* auth.c 1079-1271: wolfSSHD_OpenSecureFile, true when a stream is handed
   out. *)
Definition open_secure (owner : N) (reject_readable : bool) (o : opening) : bool :=
  match o_lstat o with
  | None => false
  | Some lst =>
      if negb (st_reg lst) then false
      else match o_real o with
           | None => false
           | Some p =>
               if negb (o_open o) then false
               else match o_fstat o with
                    | None => false
                    | Some st =>
                        leaf_ok owner reject_readable lst st && walk (List.length p) (o_stat o) p && o_fdopen o
                    end
           end
  end.

(* ---- restrictions of an OpenSSH certificate -------------------------- *)

(* auth.c 1490-1526: OsshCertCheckPrincipal; the list is a run of strings,
   each with its length in four bytes. Fuel is the length of the region. *)
Fixpoint principal_in (fuel : nat) (p : bytes) (name : bytes) : bool :=
  match fuel with
  | O => false
  | S k =>
      match ato32 p 0 with
      | None => false
      | Some n =>
          let rest := dropN 4 p in
          if lenN rest <? n then false
          else if bytes_eqb (takeN n rest) name then true
          else principal_in k (dropN n rest) name
      end
  end.
Definition check_principal (p name : bytes) : bool :=
  match p with [] => false | _ => principal_in (List.length p) p name end.

(* auth.c 1532-1549: OsshCertCheckValidity *)
Definition check_validity (now after before : N) : bool := negb ((now <? after) || (before <=? now)).

(* auth.c 1553-1580: OsshPrefixMatch; a and b are len bytes long. *)
Definition prefix_match (a b : bytes) (bits : Z) (len : N) : bool :=
  if (Z.ltb bits 0 || Z.ltb (Z.of_N len * 8) bits)%bool then false
  else
    let n := Z.to_N bits in
    let full := n / 8 in
    let rem := n mod 8 in
    if negb (bytes_eqb (takeN full a) (takeN full b)) then false
    else if rem =? 0 then true
    else
      let mask := N.shiftl 255 (8 - rem) mod 256 in
      match rd a full, rd b full with
      | Some x, Some y => N.land x mask =? N.land y mask
      | _, _ => false
      end.

Section Addr.
(* inet_pton(3) for AF_INET and AF_INET6: the address in network order. *)
Variable pton4 pton6 : bytes -> option bytes.

(* IN6_IS_ADDR_V4MAPPED *)
Definition v4mapped (a : bytes) : bool :=
  bytes_eqb (takeN 12 a) [0; 0; 0; 0; 0; 0; 0; 0; 0; 0; 255; 255].
(* auth.c 1610-1633: the address of the peer *)
Definition peer_addr (ip : bytes) : option bytes :=
  match pton4 ip with
  | Some a => Some a
  | None => match pton6 ip with
            | Some a => if v4mapped a then Some (dropN 12 a) else Some a
            | None => None
            end
  end.
(* auth.c 1690-1701: the address of an entry *)
Definition entry_addr (s : bytes) : option bytes :=
  match pton4 s with Some a => Some a | None => pton6 s end.

(* auth.c 1676-1687: the digits of the prefix length, None if it is not a
   number or above 128 *)
Fixpoint prefix_digits (acc : Z) (s : bytes) : option Z :=
  match s with
  | [] => Some acc
  | c :: t =>
      if digit c then
        let v := (acc * 10 + Z.of_N (c - 48))%Z in
        if Z.ltb 128 v then None else prefix_digits v t
      else None
  end.

Definition CIDR_ENTRY_SZ : N := 80.   (* auth.c 134 *)
(* auth.c 1645-1718: one entry. None: the list is refused; Some b: whether
   the entry matches. The entry is a C string from here on. *)
Definition entry_match (peer : bytes) (raw : bytes) : option bool :=
  if CIDR_ENTRY_SZ <=? lenN raw then None
  else
    let e := cstr raw in
    match e with
    | [] => None
    | c :: _ =>
        if c =? 33 then None
        else
          let '(host, rest) := span (fun c => negb (c =? 47)) e in
          let prefix := match rest with
                        | [] => Some (-1)%Z
                        | _ :: [] => None
                        | _ :: ds => prefix_digits 0 ds
                        end in
          match prefix with
          | None => None
          | Some pf =>
              match entry_addr host with
              | None => None
              | Some a =>
                  let full := (Z.of_N (lenN a) * 8)%Z in
                  if Z.ltb pf 0 then
                    Some (if lenN a =? lenN peer then prefix_match peer a full (lenN a) else false)
                  else if Z.ltb full pf then None
                  else Some (if lenN a =? lenN peer then prefix_match peer a pf (lenN a) else false)
              end
          end
    end.
(* auth.c 1635-1721: the loop; an entry is what stands before the next comma,
   and the loop ends with the bytes. Fuel is the length of the list. *)
Fixpoint entries_match (fuel : nat) (peer list : bytes) (allow : bool) : bool :=
  match fuel with
  | O => allow
  | S k =>
      match list with
      | [] => allow
      | _ =>
          let '(e, rest) := span (fun c => negb (c =? 44)) list in
          match entry_match peer e with
          | None => false
          | Some m => entries_match k peer (tl rest) (allow || m)
          end
      end
  end.
(* auth.c 1587-1722: OsshSourceAddrMatch *)
Definition source_addr_match (list ip : bytes) : bool :=
  match peer_addr ip with
  | None => false
  | Some peer => entries_match (List.length list) peer list false
  end.
(* auth.c 1727-1749: OsshCertCheckSourceAddress *)
Definition check_source (list : bytes) (ip : bytes) : bool :=
  match list with
  | [] => true
  | _ => match ip with [] => false | _ => source_addr_match list ip end
  end.
End Addr.

(* ---- the user name in an X.509 certificate ---------------------------- *)

(* tolower(3) in the C locale, used by strncasecmp *)
Definition lower (c : N) : N := if (65 <=? c) && (c <=? 90) then c + 32 else c.
Fixpoint case_eqb (a b : bytes) : bool :=
  match a, b with [], [] => true | x :: a', y :: b' => (lower x =? lower y) && case_eqb a' b' | _, _ => false end.
Definition realm_sep (c : N) : bool := existsb (N.eqb c) [32; 9; 13; 10; 44].
(* auth.c 2336-2358: the loop over the allowed realms *)
Fixpoint realm_in (fuel : nat) (domain list : bytes) : bool :=
  match fuel with
  | O => false
  | S k =>
      match list with
      | [] => false
      | _ =>
          let l := snd (span realm_sep list) in
          let '(tok, rest) := span (fun c => negb (realm_sep c)) l in
          if (match tok with [] => false | _ => true end) && (lenN tok =? lenN domain) && case_eqb tok domain then true
          else realm_in k domain rest
      end
  end.
(* auth.c 2307-2365: MatchUPNToUser *)
Definition match_upn (usr name : bytes) (allow : option bytes) : bool :=
  let '(local, rest) := span (fun c => negb (c =? 64)) name in
  if bytes_eqb usr local then
    match allow with
    | None | Some [] => true
    | Some l => match rest with [] => false | _ :: domain => realm_in (List.length l) domain l end
    end
  else false.
