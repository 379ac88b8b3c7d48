(* SshdLoginSpec.v - who may log in. *)
From Coq Require Import List NArith ZArith Lia Bool String.
From Verif Require Import Base WireSpec KexSpec NegoSpec SshdConfModel SshdConfSpec SshdKeysModel SshdKeysSpec SshdLoginModel.
Import ListNotations.
Open Scope N_scope.

(* The settings that govern a user (see C66). *)
Definition governs (W : world) (a : actx) (u : bytes) (c : conf) : Prop :=
  exists p gs, w_pw W u = Some p /\ w_groups W u (pw_gid p) = Some gs /\ c = user_conf (a_conf a) (Some u) gs.
Definition global_conf (a : actx) : conf := hd conf_new (a_conf a).
Definition rootlike (W : world) (u : bytes) : Prop :=
  u = ascii "root" \/ exists p, w_pw W u = Some p /\ pw_uid p = 0.

(* ---- passwords -------------------------------------------------------- *)

(* The hash of a user's password: in the shadow file if the password file says
   so with an x. *)
Definition hash_of (B : build) (W : world) (u h : bytes) : Prop :=
  exists p, w_pw W u = Some p /\
    (b_shadow B = true /\ (exists r, pw_hash p = ascii "x" ++ r) /\ w_shadow W u = Some (Some h) /\ lenN h < 256 \/
     ~ (b_shadow B = true /\ exists r, pw_hash p = ascii "x" ++ r) /\ h = pw_hash p).
(* A password opens an account with that hash: an account without one is
   opened by the empty password; one whose hash begins with * or ! by none. *)
Definition unlocks (W : world) (pw h : bytes) : Prop :=
  h = [] /\ pw = [] \/
  h <> [] /\ hd 0 h <> 42 /\ hd 0 h <> 33 /\ w_crypt W pw h = Some h.
Definition password_login (B : build) (W : world) (a : actx) (u pw : bytes) : Prop :=
  exists c, governs W a u c /\ cf_pw c = true /\
    (rootlike W u -> cf_root c <> ROOT_NO /\ cf_root c <> ROOT_PROHIBIT_PW /\ cf_root c <> ROOT_FORCED_CMD) /\
    (pw = [] -> cf_empty c = true) /\
    exists h, hash_of B W u h /\ unlocks W pw h.

(* ---- keys --------------------------------------------------------------- *)

(* C70 *)
Definition trusted (owner : N) (o : opening) : Prop :=
  exists lst p st, o_lstat o = Some lst /\ st_reg lst = true /\ o_real o = Some p /\ o_open o = true /\ o_fstat o = Some st /\
    st_reg st = true /\ (st_uid st = owner \/ st_uid st = 0) /\ ~ others_write (st_mode st) /\
    st_dev st = st_dev lst /\ st_ino st = st_ino lst /\
    (forall d, above d p -> exists sd, o_stat o d = Some sd /\ st_dir sd = true /\ (others_write (st_mode sd) -> sticky (st_mode sd))) /\
    o_fdopen o = true.
(* C68: the file lists the key, and it is trusted if it has to be. *)
Definition listed (W : world) (key : bytes) (owner : N) (strict : bool) (path : bytes) : Prop :=
  key <> [] /\ (strict = true -> trusted owner (w_open W path)) /\
  exists s pre l post, w_read W path = Some s /\ lines s = pre ++ l :: post /\ Forall (readable (w_b64 W)) pre /\ lists (w_b64 W) l key.
(* C69: the file a pattern names. *)
Definition key_file (home user : bytes) (pattern : option bytes) (f : bytes) : Prop :=
  (pattern = None \/ pattern = Some []) /\ named_file home (ascii ".ssh/authorized_keys") = Some f \/
  exists ps, ps <> [] /\
    (pattern = Some (pattern_of ps) \/ exists ps', ps = ps' ++ [PChar 37] /\ pattern = Some (pattern_of ps' ++ ascii "%")) /\
    named_file home (value_of home user ps) = Some f.
(* A plain key: in the user's file. *)
Definition plain_login (W : world) (u : bytes) (k : pkey) (pattern : option bytes) (strict : bool) : Prop :=
  exists p f, w_pw W u = Some p /\ key_file (pw_dir p) u pattern f /\ listed W (k_blob k) (pw_uid p) strict f.
(* An OpenSSH certificate: by a CA in the file named by the configuration,
   always a trusted one, for this user, now and here (C71). *)
Definition cert_login (W : world) (a : actx) (u : bytes) (k : pkey) (ca : option bytes) : Prop :=
  exists f, ca = Some f /\ listed W (k_ca k) (w_euid W) true f /\
    (exists names rest, k_principals k = principals (names ++ [u]) ++ rest) /\
    k_after k <= w_now W /\ w_now W < k_before k /\
    (k_source k <> [] -> permitted (w_pton4 W) (w_pton6 W) (splits (N.eqb 44) (k_source k)) (a_peer a)).
(* The names in an X.509 certificate (C72). *)
Definition names_user (W : world) (u : bytes) (k : pkey) (c : conf) : Prop :=
  exists ns n domain, w_upns W (k_blob k) = Some ns /\ In n ns /\ upn_names n u domain /\
    forall l, cf_upn c = Some l -> l <> [] -> exists d r, domain = Some d /\ In r (realms l) /\ same_text r d.
(* [strict] tells whether the key file must be a trusted one. *)
Definition key_login (B : build) (W : world) (a : actx) (u : bytes) (k : pkey) (strict : conf -> bool) : Prop :=
  exists c, governs W a u c /\ cf_pk c = true /\
    (rootlike W u -> cf_root c <> ROOT_NO /\ (cf_root c = ROOT_FORCED_CMD -> cf_cmd c <> None)) /\
    (b_fpki B = true -> k_x509 k = true -> names_user W u k c) /\
    if k_x509 k && negb (cf_keys_set c) then b_fpki B = true /\ cf_ca c = cf_ca (global_conf a)
    else if k_ossh k then cert_login W a u k (cf_ca c)
    else plain_login W u k (cf_keys c) (strict c).

(* What is assumed of the system and of the files. *)
Record sane (W : world) : Prop := Sane {
  sn_b64 : decoder (w_b64 W);
  sn_line : (1 <= w_line W)%nat;
  sn_real : forall path p, o_real (w_open W path) = Some p -> canonical p;
  sn_files : forall path s, w_read W path = Some s -> Forall (fun l => ~ In 0 l /\ (List.length l + 1 <= w_line W)%nat) (lines s);
  sn_res : resolver (w_pton4 W) (w_pton6 W) }.
Record sane_key (k : pkey) : Prop := SaneKey {
  sk_ok : bytes_ok (k_principals k);
  sk_len : lenN (k_principals k) < 2 ^ 32;
  sk_src : ~ In 0 (k_source k) /\ last (k_source k) 0 <> 44 }.

(* ---- attempts ------------------------------------------------------------ *)

(* A wrong password: the user may log in with a password, this one does not
   open the account, and crypt(3) has an answer for it. *)
Definition wrong_password (B : build) (a : actx) (e : event) : Prop :=
  let W := e_world e in let u := cstr (e_name e) in
  exists pw c h, e_login e = LPassword pw /\ e_raised e = true /\ e_reduced e = true /\
    governs W a u c /\ cf_pw c = true /\
    (rootlike W u -> cf_root c <> ROOT_NO /\ cf_root c <> ROOT_PROHIBIT_PW /\ cf_root c <> ROOT_FORCED_CMD) /\
    (pw = [] -> cf_empty c = true) /\
    hash_of B W u h /\ ~ unlocks W (cstr pw) h /\ forall salt, w_crypt W (cstr pw) salt <> None.
(* What the peer sees of an attempt: success, failure, or the end. *)
Inductive seen : Set := SSuccess | SFailure | SEnd.
Definition view (r : uares) : seen := match r with UOk => SSuccess | URejected | UExit => SEnd | _ => SFailure end.

(* ---- the cost of an attempt ---------------------------------------------- *)

(* A hash in the modular format: a scheme with its parameters, a salt and a
   digest without dollars of their own. *)
Definition no_dollar (s : bytes) : Prop := ~ In 36 s.
Definition hash_text (scheme salt digest : bytes) : bytes := scheme ++ salt ++ ascii "$" ++ digest.
(* A scheme with its parameters: $id$ or $id$parameters$, other than
   bcrypt's. *)
Definition scheme_text (s : bytes) : Prop :=
  (exists id, s = ascii "$" ++ id ++ ascii "$" /\ hd 0 id <> 50 /\ no_dollar id) \/
  (exists id params, s = ascii "$" ++ id ++ ascii "$" ++ params ++ ascii "$" /\ hd 0 id <> 50 /\ no_dollar id /\ no_dollar params).
(* bcrypt: $2b$10$, salt and digest in one run *)
Definition bcrypt_scheme (s : bytes) : Prop :=
  (exists x y, s = ascii "$2$" ++ [x; y] ++ ascii "$") \/ (exists v x y, v <> 36 /\ s = ascii "$2" ++ [v] ++ ascii "$" ++ [x; y] ++ ascii "$").
(* A hash of that scheme, or that hash behind the ! of a locked account, or a
   locked or empty field without any. *)
Definition uniform (scheme h : bytes) : Prop :=
  (exists r, h = scheme ++ r) \/ (exists r, h = ascii "!" ++ scheme ++ r) \/ h = [] \/ (exists r, h = ascii "*" ++ r) \/
  h = ascii "!" \/ (exists c r, c <> 36 /\ h = ascii "!" ++ [c] ++ r).
(* The second field of a line in the shadow file. *)
Definition shadow_line (user h rest l : bytes) : Prop :=
  ~ In 58 user /\ ~ In 58 h /\ l = user ++ ascii ":" ++ h ++ ascii ":" ++ rest.
(* Two hashes that differ in salt and digest only, and two lines of the shadow
   file that do. *)
Definition same_but_secret (h1 h2 : bytes) : Prop :=
  (exists s salt1 digest1 salt2 digest2, scheme_text s /\ lenN s < 250 /\
     no_dollar salt1 /\ no_dollar digest1 /\ no_dollar salt2 /\ no_dollar digest2 /\
     h1 = hash_text s salt1 digest1 /\ h2 = hash_text s salt2 digest2) \/
  (exists s rest1 rest2, bcrypt_scheme s /\ 22 <= lenN rest1 /\ 22 <= lenN rest2 /\ h1 = s ++ rest1 /\ h2 = s ++ rest2).
Definition same_but_secrets (l1 l2 : bytes) : Prop :=
  l1 = l2 \/ exists user rest h1 h2, same_but_secret h1 h2 /\ shadow_line user h1 rest l1 /\ shadow_line user h2 rest l2.
(* A shadow file with one scheme: its lines hold a hash of that scheme, or
   none at all. *)
Definition uses_scheme (s l : bytes) : Prop :=
  exists user rest salt digest, no_dollar salt /\ no_dollar digest /\ shadow_line user (hash_text s salt digest) rest l.
Definition uses_none (l : bytes) : Prop := forall user h rest, shadow_line user h rest l -> hd 0 h <> 36.
