(* SshdConfModel.v - the configuration file of the daemon wolfsshd
   (apps/wolfsshd/configuration.c): reading it, Match blocks, Include, and
   which settings govern a user. Strings are byte lists without the closing
   NUL. Allocation does not fail. The build is for a POSIX system without
   WOLFSSH_IGNORE_UNKNOWN_CONFIG. *)
From Coq Require Import List NArith ZArith Lia Bool String.
From Verif Require Import Base NegoSpec.
Import ListNotations.
Open Scope N_scope.

(* configuration.c 77-107: WOLFSSHD_CONFIG. The fields no directive sets
   (ciphers, hostKeyAlgos, kekAlgos, listenAddress) are left out; heap, next
   and head are the list the records are kept in. *)
Record conf : Type := Conf {
  cf_usr : option bytes;        (* usrAppliesTo *)
  cf_grp : option bytes;        (* groupAppliesTo *)
  cf_banner : option bytes;
  cf_chroot : option bytes;
  cf_hostkey : option bytes;
  cf_hostcert : option bytes;
  cf_ca : option bytes;         (* userCAKeysFile *)
  cf_keys : option bytes;       (* authKeysFile *)
  cf_keys_set : bool;           (* authKeysFileSet *)
  cf_cmd : option bytes;        (* forceCmd *)
  cf_pid : option bytes;
  cf_upn : option bytes;        (* authorizedUPNDomains *)
  cf_grace : Z;                 (* loginTimer *)
  cf_port : N;
  cf_sep : N;                   (* usePrivilegeSeparation *)
  cf_pw : bool;                 (* passwordAuth *)
  cf_pk : bool;                 (* pubKeyAuth *)
  cf_root : N;                  (* permitRootLogin *)
  cf_empty : bool;              (* permitEmptyPasswords *)
  cf_strict : bool }.           (* strictModes *)

(* configuration.c 228-252: wolfSSHD_ConfigNew. *)
Definition conf_new : conf :=
  Conf None None None None None None None None false None None None 120%Z 22 0 true true 0 false true.

(* configuration.h 38-52 *)
Definition PRIV_SEPARAT : N := 0.
Definition PRIV_SANDBOX : N := 1.
Definition PRIV_OFF : N := 2.
Definition ROOT_NO : N := 0.
Definition ROOT_YES : N := 1.
Definition ROOT_PROHIBIT_PW : N := 2.
Definition ROOT_FORCED_CMD : N := 3.

(* updates of one field *)
Definition set_usr v c := Conf v (cf_grp c) (cf_banner c) (cf_chroot c) (cf_hostkey c) (cf_hostcert c) (cf_ca c) (cf_keys c) (cf_keys_set c) (cf_cmd c) (cf_pid c) (cf_upn c) (cf_grace c) (cf_port c) (cf_sep c) (cf_pw c) (cf_pk c) (cf_root c) (cf_empty c) (cf_strict c).
Definition set_grp v c := Conf (cf_usr c) v (cf_banner c) (cf_chroot c) (cf_hostkey c) (cf_hostcert c) (cf_ca c) (cf_keys c) (cf_keys_set c) (cf_cmd c) (cf_pid c) (cf_upn c) (cf_grace c) (cf_port c) (cf_sep c) (cf_pw c) (cf_pk c) (cf_root c) (cf_empty c) (cf_strict c).
Definition set_banner v c := Conf (cf_usr c) (cf_grp c) v (cf_chroot c) (cf_hostkey c) (cf_hostcert c) (cf_ca c) (cf_keys c) (cf_keys_set c) (cf_cmd c) (cf_pid c) (cf_upn c) (cf_grace c) (cf_port c) (cf_sep c) (cf_pw c) (cf_pk c) (cf_root c) (cf_empty c) (cf_strict c).
Definition set_chroot v c := Conf (cf_usr c) (cf_grp c) (cf_banner c) v (cf_hostkey c) (cf_hostcert c) (cf_ca c) (cf_keys c) (cf_keys_set c) (cf_cmd c) (cf_pid c) (cf_upn c) (cf_grace c) (cf_port c) (cf_sep c) (cf_pw c) (cf_pk c) (cf_root c) (cf_empty c) (cf_strict c).
Definition set_hostkey v c := Conf (cf_usr c) (cf_grp c) (cf_banner c) (cf_chroot c) v (cf_hostcert c) (cf_ca c) (cf_keys c) (cf_keys_set c) (cf_cmd c) (cf_pid c) (cf_upn c) (cf_grace c) (cf_port c) (cf_sep c) (cf_pw c) (cf_pk c) (cf_root c) (cf_empty c) (cf_strict c).
Definition set_hostcert v c := Conf (cf_usr c) (cf_grp c) (cf_banner c) (cf_chroot c) (cf_hostkey c) v (cf_ca c) (cf_keys c) (cf_keys_set c) (cf_cmd c) (cf_pid c) (cf_upn c) (cf_grace c) (cf_port c) (cf_sep c) (cf_pw c) (cf_pk c) (cf_root c) (cf_empty c) (cf_strict c).
Definition set_ca v c := Conf (cf_usr c) (cf_grp c) (cf_banner c) (cf_chroot c) (cf_hostkey c) (cf_hostcert c) v (cf_keys c) (cf_keys_set c) (cf_cmd c) (cf_pid c) (cf_upn c) (cf_grace c) (cf_port c) (cf_sep c) (cf_pw c) (cf_pk c) (cf_root c) (cf_empty c) (cf_strict c).
Definition set_keys v c := Conf (cf_usr c) (cf_grp c) (cf_banner c) (cf_chroot c) (cf_hostkey c) (cf_hostcert c) (cf_ca c) v true (cf_cmd c) (cf_pid c) (cf_upn c) (cf_grace c) (cf_port c) (cf_sep c) (cf_pw c) (cf_pk c) (cf_root c) (cf_empty c) (cf_strict c).
Definition set_cmd v c := Conf (cf_usr c) (cf_grp c) (cf_banner c) (cf_chroot c) (cf_hostkey c) (cf_hostcert c) (cf_ca c) (cf_keys c) (cf_keys_set c) v (cf_pid c) (cf_upn c) (cf_grace c) (cf_port c) (cf_sep c) (cf_pw c) (cf_pk c) (cf_root c) (cf_empty c) (cf_strict c).
Definition set_pid v c := Conf (cf_usr c) (cf_grp c) (cf_banner c) (cf_chroot c) (cf_hostkey c) (cf_hostcert c) (cf_ca c) (cf_keys c) (cf_keys_set c) (cf_cmd c) v (cf_upn c) (cf_grace c) (cf_port c) (cf_sep c) (cf_pw c) (cf_pk c) (cf_root c) (cf_empty c) (cf_strict c).
Definition set_upn v c := Conf (cf_usr c) (cf_grp c) (cf_banner c) (cf_chroot c) (cf_hostkey c) (cf_hostcert c) (cf_ca c) (cf_keys c) (cf_keys_set c) (cf_cmd c) (cf_pid c) v (cf_grace c) (cf_port c) (cf_sep c) (cf_pw c) (cf_pk c) (cf_root c) (cf_empty c) (cf_strict c).
Definition set_grace v c := Conf (cf_usr c) (cf_grp c) (cf_banner c) (cf_chroot c) (cf_hostkey c) (cf_hostcert c) (cf_ca c) (cf_keys c) (cf_keys_set c) (cf_cmd c) (cf_pid c) (cf_upn c) v (cf_port c) (cf_sep c) (cf_pw c) (cf_pk c) (cf_root c) (cf_empty c) (cf_strict c).
Definition set_port v c := Conf (cf_usr c) (cf_grp c) (cf_banner c) (cf_chroot c) (cf_hostkey c) (cf_hostcert c) (cf_ca c) (cf_keys c) (cf_keys_set c) (cf_cmd c) (cf_pid c) (cf_upn c) (cf_grace c) v (cf_sep c) (cf_pw c) (cf_pk c) (cf_root c) (cf_empty c) (cf_strict c).
Definition set_sep v c := Conf (cf_usr c) (cf_grp c) (cf_banner c) (cf_chroot c) (cf_hostkey c) (cf_hostcert c) (cf_ca c) (cf_keys c) (cf_keys_set c) (cf_cmd c) (cf_pid c) (cf_upn c) (cf_grace c) (cf_port c) v (cf_pw c) (cf_pk c) (cf_root c) (cf_empty c) (cf_strict c).
Definition set_pw v c := Conf (cf_usr c) (cf_grp c) (cf_banner c) (cf_chroot c) (cf_hostkey c) (cf_hostcert c) (cf_ca c) (cf_keys c) (cf_keys_set c) (cf_cmd c) (cf_pid c) (cf_upn c) (cf_grace c) (cf_port c) (cf_sep c) v (cf_pk c) (cf_root c) (cf_empty c) (cf_strict c).
Definition set_pk v c := Conf (cf_usr c) (cf_grp c) (cf_banner c) (cf_chroot c) (cf_hostkey c) (cf_hostcert c) (cf_ca c) (cf_keys c) (cf_keys_set c) (cf_cmd c) (cf_pid c) (cf_upn c) (cf_grace c) (cf_port c) (cf_sep c) (cf_pw c) v (cf_root c) (cf_empty c) (cf_strict c).
Definition set_root v c := Conf (cf_usr c) (cf_grp c) (cf_banner c) (cf_chroot c) (cf_hostkey c) (cf_hostcert c) (cf_ca c) (cf_keys c) (cf_keys_set c) (cf_cmd c) (cf_pid c) (cf_upn c) (cf_grace c) (cf_port c) (cf_sep c) (cf_pw c) (cf_pk c) v (cf_empty c) (cf_strict c).
Definition set_empty v c := Conf (cf_usr c) (cf_grp c) (cf_banner c) (cf_chroot c) (cf_hostkey c) (cf_hostcert c) (cf_ca c) (cf_keys c) (cf_keys_set c) (cf_cmd c) (cf_pid c) (cf_upn c) (cf_grace c) (cf_port c) (cf_sep c) (cf_pw c) (cf_pk c) (cf_root c) v (cf_strict c).
Definition set_strict v c := Conf (cf_usr c) (cf_grp c) (cf_banner c) (cf_chroot c) (cf_hostkey c) (cf_hostcert c) (cf_ca c) (cf_keys c) (cf_keys_set c) (cf_cmd c) (cf_pid c) (cf_upn c) (cf_grace c) (cf_port c) (cf_sep c) (cf_pw c) (cf_pk c) (cf_root c) (cf_empty c) v.

Fixpoint bytes_eqb (a b : bytes) : bool :=
  match a, b with [], [] => true | x :: a', y :: b' => (x =? y) && bytes_eqb a' b' | _, _ => false end.
Fixpoint prefixb (p l : bytes) : bool :=
  match p, l with [], _ => true | x :: p', y :: l' => (x =? y) && prefixb p' l' | _ :: _, [] => false end.

(* isspace(3) in the C locale (WISSPACE, wolfssh/port.h 51-53) *)
Definition space (c : N) : bool := (c =? 32) || ((9 <=? c) && (c <=? 13)).
(* configuration.c 1340-1362: CountWhitespace cuts a string in what it counts
   and the rest; inv as in the source. *)
Fixpoint span (p : N -> bool) (l : bytes) : bytes * bytes :=
  match l with
  | [] => ([], [])
  | c :: t => if p c then let '(a, b) := span p t in (c :: a, b) else ([], l)
  end.
Definition skip_ws (l : bytes) : bytes := snd (span space l).
Definition word (l : bytes) : bytes := fst (span (fun c => negb (space c)) l).
Definition after_word (l : bytes) : bytes := snd (span (fun c => negb (space c)) l).

(* configuration.c 168-216: CreateString; None is WS_BAD_ARGUMENT. *)
Definition cut_end (c : N) : bool := (c =? 10) || (c =? 32) || (c =? 13).
Fixpoint trim_end (l : bytes) : bytes :=
  match l with
  | [] => []
  | c :: t => match trim_end t with [] => if cut_end c then [] else [c] | t' => c :: t' end
  end.
Definition create_string (l : bytes) : option bytes :=
  match snd (span (fun c => c =? 32) l) with [] => None | c :: t => Some (c :: trim_end t) end.

(* atol(3), used at configuration.c 153; None when the number does not fit a
   long, which the C standard leaves undefined. *)
Definition LONG_MAX : Z := 9223372036854775807%Z.
Definition long_ok (z : Z) : bool := (Z.leb (-LONG_MAX - 1) z && Z.leb z LONG_MAX)%bool.
Definition digit (c : N) : bool := (48 <=? c) && (c <=? 57).
Definition number (l : bytes) : Z := fold_left (fun z c => (z * 10 + Z.of_N (c - 48))%Z) (fst (span digit l)) 0%Z.
Definition atol (l : bytes) : option Z :=
  let l := skip_ws l in
  let z := match l with
           | c :: t => if c =? 45 then (- number t)%Z else if c =? 43 then number t else number l
           | [] => 0%Z
           end in
  if long_ok z then Some z else None.

(* configuration.c 121-166: GetConfigInt; None is undefined behaviour, a
   negative number an error. *)
Definition WS_BAD_ARG_NUM : Z := (-1002)%Z.
Definition get_config_int (l : bytes) (is_time : bool) : option Z :=
  match rev l with
  | [] => Some WS_BAD_ARG_NUM
  | last :: r =>
      let '(num, mult) :=
        if is_time then if last =? 109 then (rev r, 60%Z) else if last =? 104 then (rev r, 3600%Z) else (l, 1%Z)
        else (l, 1%Z) in
      match atol num with
      | None => None
      | Some z =>
          if Z.eqb z 0 && negb (bytes_eqb num [48]) then Some WS_BAD_ARG_NUM
          else if Z.ltb 0 z then if long_ok (z * mult)%Z then Some (z * mult)%Z else None
          else Some z
      end
  end.

(* The outcome of one directive. *)
Inductive hres : Type := HOk (c : conf) | HErr | HUndef.

Definition lit (s : string) : bytes := ascii s.
Definition is_lit (v : bytes) (s : string) : bool := bytes_eqb v (lit s).

(* configuration.c 467-498: HandlePrivSep *)
Definition handle_priv_sep (c : conf) (v : bytes) : hres :=
  if is_lit v "sandbox" then HOk (set_sep PRIV_SANDBOX c)
  else if is_lit v "yes" then HOk (set_sep PRIV_SEPARAT c)
  else if is_lit v "no" then HOk (set_sep PRIV_OFF c)
  else HErr.
(* configuration.c 500-525: HandleLoginGraceTime; the error code is the
   number cut to an int, so that a multiple of 2^32 passes for success. *)
Definition handle_grace (c : conf) (v : bytes) : hres :=
  match get_config_int v true with
  | None => HUndef
  | Some n => if Z.ltb n 0 then if Z.eqb (n mod 4294967296) 0 then HOk c else HErr else HOk (set_grace n c)
  end.
(* configuration.c 527-549, 585-608, 610-634, 636-659: yes or no *)
Definition yes_no (v : bytes) (f : bool -> conf) : hres :=
  if is_lit v "no" then HOk (f false) else if is_lit v "yes" then HOk (f true) else HErr.
(* configuration.c 551-583: HandlePermitRoot *)
Definition handle_root (c : conf) (v : bytes) : hres :=
  if is_lit v "no" then HOk (set_root ROOT_NO c)
  else if is_lit v "yes" then HOk (set_root ROOT_YES c)
  else if is_lit v "prohibit-password" || is_lit v "without-password" then HOk (set_root ROOT_PROHIBIT_PW c)
  else if is_lit v "forced-commands-only" then HOk (set_root ROOT_FORCED_CMD c)
  else HErr.
(* configuration.c 661-690: HandleProtocol *)
Definition handle_protocol (c : conf) (v : bytes) : hres :=
  match get_config_int v false with
  | None => HUndef
  | Some n => if Z.leb n 0 then HErr else if Z.eqb n 2 then HOk c else HErr
  end.
(* configuration.c 692-722: HandlePort *)
Definition handle_port (c : conf) (v : bytes) : hres :=
  match get_config_int v false with
  | None => HUndef
  | Some n => if Z.leb n 0 then HErr else if Z.leb n 65535 then HOk (set_port (Z.to_N n) c) else HErr
  end.
(* configuration.c 982-1002 HandleChrootDir, 1206-1228 SetListString,
   1699-1719 SetFileString, 1602-1631 wolfSSHD_ConfigSetAuthKeysFile *)
Definition set_string (v : bytes) (f : option bytes -> conf) : hres :=
  match create_string v with Some s => HOk (f (Some s)) | None => HErr end.

(* configuration.c 398-465: the options and their names *)
Inductive opt : Set :=
| OAuthKeys | OPrivSep | OEmptyPw | OSubsystem | OChallenge | OPam | OX11 | OMotd | OAcceptEnv | OProtocol
| OGrace | OHostKey | OPwAuth | OPkAuth | OPort | ORoot | ODns | OInclude | OChroot | OMatch | OCmd | OHostCert
| OCa | OPid | OBanner | OStrict | OUpn.
Definition options : list (opt * bytes) :=
  [ (OAuthKeys, lit "AuthorizedKeysFile"); (OPrivSep, lit "UsePrivilegeSeparation"); (OEmptyPw, lit "PermitEmptyPasswords");
    (OSubsystem, lit "Subsystem"); (OChallenge, lit "ChallengeResponseAuthentication"); (OPam, lit "UsePAM");
    (OX11, lit "X11Forwarding"); (OMotd, lit "PrintMotd"); (OAcceptEnv, lit "AcceptEnv"); (OProtocol, lit "Protocol");
    (OGrace, lit "LoginGraceTime"); (OHostKey, lit "HostKey"); (OPwAuth, lit "PasswordAuthentication");
    (OPkAuth, lit "PubkeyAuthentication"); (OPort, lit "Port"); (ORoot, lit "PermitRootLogin"); (ODns, lit "UseDNS");
    (OInclude, lit "Include"); (OChroot, lit "ChrootDirectory"); (OMatch, lit "Match"); (OCmd, lit "ForceCommand");
    (OHostCert, lit "HostCertificate"); (OCa, lit "TrustedUserCAKeys"); (OPid, lit "PidFile"); (OBanner, lit "Banner");
    (OStrict, lit "StrictModes"); (OUpn, lit "AuthorizedUPNDomains") ].

(* configuration.c 1230-1338: HandleConfigOption, for the options other than
   Include and Match. [value] is the first word of the argument, [full] the
   rest of the line. *)
Definition handle_option (o : opt) (value full : bytes) (c : conf) : hres :=
  match o with
  | OAuthKeys => set_string value (fun s => set_keys s c)
  | OPrivSep => handle_priv_sep c value
  | OEmptyPw => yes_no value (fun b => set_empty b c)
  | OSubsystem | OChallenge | OPam | OX11 | OMotd | OAcceptEnv | ODns => HOk c
  | OProtocol => handle_protocol c value
  | OGrace => handle_grace c value
  | OHostKey => set_string value (fun s => set_hostkey s c)
  | OPwAuth => yes_no value (fun b => set_pw b c)
  | OPkAuth => yes_no value (fun b => set_pk b c)
  | OPort => handle_port c value
  | ORoot => handle_root c value
  | OChroot => set_string value (fun s => set_chroot s c)
  | OCmd => set_string full (fun s => set_cmd s c)
  | OHostCert => set_string value (fun s => set_hostcert s c)
  | OCa => set_string value (fun s => set_ca s c)
  | OPid => set_string value (fun s => set_pid s c)
  | OBanner => set_string value (fun s => set_banner s c)
  | OStrict => yes_no value (fun b => set_strict b c)
  | OUpn => set_string full (fun s => set_upn s c)
  | OInclude | OMatch => HErr
  end.

(* configuration.c 1004-1086: ParseMatchCriteria. The loop runs at most once
   per byte, [fuel]. *)
Fixpoint parse_match (fuel : nat) (c : conf) (l : bytes) : option conf :=
  match fuel with
  | O => Some c
  | S k =>
      match skip_ws l with
      | [] => Some c
      | l1 =>
          let tok := word l1 in
          let l2 := after_word l1 in
          if is_lit tok "User" || is_lit tok "Group" then
            let l3 := skip_ws l2 in
            match word l3 with
            | [] => None
            | name =>
                match create_string name with
                | None => None
                | Some s => parse_match k (if is_lit tok "User" then set_usr (Some s) c else set_grp (Some s) c) (after_word l3)
                end
            end
          else parse_match k c l2
      end
  end.

(* configuration.c 1089-1141: CheckMatchSelectors. *)
Fixpoint check_match (fuel : nat) (found : bool) (l : bytes) : bool :=
  match fuel with
  | O => found
  | S k =>
      match skip_ws l with
      | [] => found
      | l1 =>
          let tok := word l1 in
          if is_lit tok "User" || is_lit tok "Group" then check_match k true (after_word (skip_ws (after_word l1)))
          else false
      end
  end.

(* configuration.c 255-363: wolfSSHD_ConfigCopy *)
Definition copy_string (s : option bytes) : option (option bytes) :=
  match s with None => Some None | Some v => match create_string v with Some w => Some (Some w) | None => None end end.
Definition config_copy (c : conf) : option conf :=
  match copy_string (cf_banner c), copy_string (cf_chroot c), copy_string (cf_hostkey c), copy_string (cf_keys c),
        copy_string (cf_hostcert c), copy_string (cf_pid c), copy_string (cf_ca c), copy_string (cf_cmd c), copy_string (cf_upn c) with
  | Some ba, Some ch, Some hk, Some ke, Some hc, Some pi, Some ca, Some cm, Some up =>
      Some (Conf None None ba ch hk hc ca ke (cf_keys_set c) cm pi up (cf_grace c) (cf_port c) (cf_sep c) (cf_pw c) (cf_pk c)
             (cf_root c) (cf_empty c) (cf_strict c))
  | _, _, _, _, _, _, _, _, _ => None
  end.

(* The settings read so far: the global record first, then one record per
   Match block in order; [cur] is the record directives are stored in. *)
Inductive cres : Type := COk (ns : list conf) | CErr | CUndef.
Inductive lres : Type := LOk (ns : list conf) (cur : nat) | LErr | LUndef.

Fixpoint upd {A} (n : nat) (x : A) (l : list A) : list A :=
  match n, l with O, _ :: t => x :: t | S k, y :: t => y :: upd k x t | _, [] => [] end.

(* configuration.c 1144-1203: HandleMatch *)
Definition handle_match (ns : list conf) (full : bytes) : lres :=
  if check_match (Datatypes.length full) false full then
    match ns with
    | [] => LErr
    | head :: _ =>
        match config_copy head with
        | None => LErr
        | Some c => match parse_match (Datatypes.length full) c full with None => LErr | Some c' => LOk (ns ++ [c']) (Datatypes.length ns) end
        end
    end
  else LErr.

(* The part of the file system the daemon reads here: a file's contents, and
   a directory's entries with a mark for subdirectories. *)
Record disk : Type := Disk {
  d_read : bytes -> option bytes;
  d_list : bytes -> option (list (bytes * bool)) }.

(* strcmp(3) *)
Fixpoint str_lt (a b : bytes) : bool :=
  match a, b with
  | _, [] => false
  | [], _ :: _ => true
  | x :: a', y :: b' => if x =? y then str_lt a' b' else x <? y
  end.
(* configuration.c 886-895: insert in string order *)
Fixpoint insert_name (n : bytes) (l : list bytes) : list bytes :=
  match l with [] => [n] | x :: t => if str_lt n x then n :: l else x :: insert_name n t end.
Definition sorted_names (es : list (bytes * bool)) : list bytes :=
  fold_left (fun acc e => if snd e : bool then acc else insert_name (fst e) acc) es [].

(* configuration.c 742-770: looking backwards for '*', stopping at '/'; the
   first byte of the value is never looked at. Gives what precedes (without
   the first byte, reversed) and what follows. *)
Fixpoint find_star (r post : bytes) : option (bytes * bytes) :=
  match r with
  | [] => None
  | c :: t => if c =? 42 then Some (t, post) else if c =? 47 then None else find_star t (c :: post)
  end.
(* configuration.c 784-817: the directory and the prefix of the names *)
Definition dir_and_prefix (first : N) (before : bytes) : bytes * bytes :=
  let '(pre, r) := span (fun c => negb (c =? 47)) before in
  match r with
  | [] => (lit ".", first :: rev before)
  | _ :: d => (first :: rev d, rev pre)
  end.
(* configuration.c 905-929: whether a name matches *)
Definition name_matches (prefix postfix name : bytes) : bool :=
  ((lenN prefix =? 0) || ((lenN prefix <? lenN name) && prefixb prefix name)) &&
  ((lenN postfix =? 0) || ((lenN postfix <? lenN name) && bytes_eqb (dropN (lenN name - lenN postfix) name) postfix)).
Definition PATH_MAX : N := 4096.

(* configuration.c 724-980: HandleInclude; [load] is ConfigLoad one level
   deeper. The two passes over the directory are taken to see the same
   entries. *)
Fixpoint load_all (load : list conf -> bytes -> cres) (dir : bytes) (names : list bytes) (ns : list conf) : cres :=
  match names with
  | [] => COk ns
  | n :: t =>
      let path := dir ++ 47 :: n in
      if PATH_MAX <=? lenN path then CErr
      else match load ns path with COk ns' => load_all load dir t ns' | e => e end
  end.
Definition handle_include (D : disk) (load : list conf -> bytes -> cres) (value : bytes) (ns : list conf) : cres :=
  match value with
  | [] => CErr
  | first :: rest =>
      match find_star (rev rest) [] with
      | None => load ns value
      | Some (before, postfix) =>
          let '(dir, prefix) := dir_and_prefix first before in
          match d_list D dir with
          | None => CErr
          | Some es => load_all load dir (filter (name_matches prefix postfix) (sorted_names es)) ns
          end
      end
  end.

(* MAX_FILENAME_SZ, wolfSSL's wolfcrypt/types.h; longer than any line. *)
Definition MAX_FILENAME_SZ : N := 260.

(* configuration.c 1364-1416: ParseConfigLine, with HandleConfigOption's
   cases for Include and Match. An Include leaves the cursor where it is. *)
Definition parse_line (D : disk) (load : nat -> list conf -> bytes -> cres) (l : bytes) (ns : list conf) (cur : nat) : lres :=
  match find (fun o => prefixb (snd o) l) options with
  | None => LErr
  | Some (o, name) =>
      let full := skip_ws (dropN (lenN name) l) in
      let value := word full in
      if MAX_FILENAME_SZ <=? lenN value then LErr
      else match o with
           | OMatch => handle_match ns full
           | OInclude => match handle_include D (load cur) value ns with COk ns' => LOk ns' cur | CErr => LErr | CUndef => LUndef end
           | _ => match nth_error ns cur with
                  | None => LErr
                  | Some c => match handle_option o value full c with HOk c' => LOk (upd cur c' ns) cur | HErr => LErr | HUndef => LUndef end
                  end
           end
  end.

(* fgets(buf, MAX_LINE_SIZE, f) again and again, configuration.c 1454 and 397:
   pieces of at most 159 bytes, each ending after a newline if it has one. *)
Definition MAX_LINE_SIZE : nat := 160.
Fixpoint pieces (room : nat) (s : bytes) : list bytes :=
  match s with
  | [] => []
  | c :: t =>
      match room with
      | O | S O => [c] :: pieces (MAX_LINE_SIZE - 1) t
      | S r => if c =? 10 then [c] :: pieces (MAX_LINE_SIZE - 1) t
               else match pieces r t with [] => [[c]] | p :: ps => (c :: p) :: ps end
      end
  end.
(* strlen: up to the first NUL *)
Definition cstr (l : bytes) : bytes := fst (span (fun c => negb (c =? 0)) l).
Definition blank (c : N) : bool := (c =? 32) || (c =? 9).

(* configuration.c 1454-1479: the loop of ConfigLoad *)
Fixpoint load_lines (D : disk) (load : nat -> list conf -> bytes -> cres) (ps : list bytes) (ns : list conf) (cur : nat) : cres :=
  match ps with
  | [] => COk ns
  | p :: t =>
      let l := snd (span blank (cstr p)) in
      if lenN l <=? 2 then load_lines D load t ns cur
      else if prefixb [35] l then load_lines D load t ns cur
      else match parse_line D load l ns cur with
           | LOk ns' cur' => load_lines D load t ns' cur'
           | LErr => CErr
           | LUndef => CUndef
           end
  end.

(* configuration.c 1428-1483: ConfigLoad; [depth] counts down from
   WOLFSSHD_MAX_INCLUDE_DEPTH (112-114). *)
Definition MAX_INCLUDE_DEPTH : nat := 16.
Fixpoint config_load (D : disk) (depth : nat) (cur : nat) (ns : list conf) (file : bytes) : cres :=
  match depth with
  | O => CErr
  | S k =>
      match d_read D file with
      | None => CErr
      | Some s => load_lines D (config_load D k) (pieces (MAX_LINE_SIZE - 1) s) ns cur
      end
  end.
(* wolfsshd.c 2889, 2991: the daemon starts from a new record. *)
Definition load_config (D : disk) (file : bytes) : cres := config_load D MAX_INCLUDE_DEPTH 0 [conf_new] file.

(* configuration.c 1486-1551: wolfSSHD_GetUserConf *)
Definition matches_user (u : option bytes) (gs : list bytes) (c : conf) : bool :=
  match cf_usr c, cf_grp c with
  | None, None => false
  | _, _ =>
      match cf_usr c with None => true | Some w => match u with None => false | Some v => bytes_eqb w v end end &&
      match cf_grp c with None => true | Some w => existsb (bytes_eqb w) gs end
  end.
Definition user_conf (ns : list conf) (u : option bytes) (gs : list bytes) : conf :=
  match find (matches_user u gs) ns with Some c => c | None => hd conf_new ns end.
