(* OsshModel.v - OpenSSH user certificates in public key authentication.
   Models src/ossh.c 751-786, 814-1480 and the certificate
   branch of DoUserAuthRequestPublicKey, src/internal.c 9808-10348 (build with
   WOLFSSH_OSSH_CERTS, WOLFSSH_NO_SHA1_SOFT_DISABLE not set, RSA, ECDSA and
   Ed25519 enabled).

   References into the certificate are modelled by the bytes they denote. Left
   out: failures to allocate; the logging of key identifier and serial number;
   null pointer arguments. *)
From Verif Require Import Base WireModel NameTable NegoModel NegoSpec AuthModel.
From Coq Require Import List NArith Bool String.
Import ListNotations.
Open Scope N_scope.
Local Notation "a ++ b" := (@app _ a b) : list_scope.

(* wolfCrypt on the certificate authority's key. Importing the key and hashing
   the message are part of each function. Unlike the user's ECDSA key
   (AuthModel.v_ecc) the authority's is imported without naming its curve
   (ossh.c 1411 wc_ecc_import_x963), so no curve is passed. *)
Record ca_crypto := CaCrypto {
  ca_rsa : hash -> bytes -> bytes -> bytes -> bytes -> bool;   (* n e message signature *)
  ca_ecc : hash -> bytes -> bytes -> bytes -> bytes -> bool;   (* q message r s *)
  ca_ed : bytes -> bytes -> bytes -> bool }.                   (* q message signature *)

(* wolfssh/internal.h WS_OsshCert: what OsshCertParse and OsshCertCheckOptions
   leave behind. [k_signed] is blob[0 .. signedLen). *)
Record cert := mkCert {
  k_base : N; k_parms : bytes; k_kind : N; k_princ : bytes; k_after : N; k_before : N;
  k_crit : bytes; k_ext : bytes; k_ca : bytes; k_catype : bytes; k_signed : bytes; k_sig : bytes }.

(* src/ossh.c:751-786 OsshCertBaseId *)
Definition OsshCertBaseId (id : N) : N :=
  if id =? ID_OSSH_CERT_RSA then ID_SSH_RSA
  else if id =? ID_OSSH_CERT_ECDSA_SHA2_NISTP256 then ID_ECDSA_SHA2_NISTP256
  else if id =? ID_OSSH_CERT_ECDSA_SHA2_NISTP384 then ID_ECDSA_SHA2_NISTP384
  else if id =? ID_OSSH_CERT_ECDSA_SHA2_NISTP521 then ID_ECDSA_SHA2_NISTP521
  else if id =? ID_OSSH_CERT_ED25519 then ID_ED25519
  else ID_UNKNOWN.

Definition is_ecdsa (id : N) : bool :=
  (id =? ID_ECDSA_SHA2_NISTP256) || (id =? ID_ECDSA_SHA2_NISTP384) || (id =? ID_ECDSA_SHA2_NISTP521).

(* src/ossh.c:814-850 OsshSkipUserKey *)
Definition OsshSkipUserKey (base : N) (blob : bytes) (idx : N) : pres unit :=
  if base =? ID_SSH_RSA then
    e <-[ i ] GetMpint blob (lenN blob) idx ;
    n <-[ i ] GetMpint blob (lenN blob) i ; POk tt i
  else if is_ecdsa base then
    c <-[ i ] GetStringRef blob (lenN blob) idx ;
    q <-[ i ] GetStringRef blob (lenN blob) i ; POk tt i
  else if base =? ID_ED25519 then
    q <-[ i ] GetStringRef blob (lenN blob) idx ; POk tt i
  else PErr WS_INVALID_ALGO_ID idx.

(* a pointer into the blob and a size *)
Definition region (blob : bytes) (from to : N) : pres bytes :=
  match rdn blob from (sub32 to from) with Some b => POk b to | None => POob end.

(* src/ossh.c:853-969 OsshCertParse *)
Definition OsshCertParse (id : N) (blob : bytes) : pres cert :=
  let len := lenN blob in
  let base := OsshCertBaseId id in
  if len =? 0 then PErr WS_BAD_ARGUMENT 0
  else if base =? ID_UNKNOWN then PErr WS_INVALID_ALGO_ID 0
  else
    name <-[ i ] GetStr blob len 0 ;
    u <-[ i ] require (NameToId name =? id) WS_INVALID_ALGO_ID i ;
    nonce <-[ i ] GetStr blob len i ;
    let start := i in
    u <-[ i ] OsshSkipUserKey base blob i ;
    parms <-[ i ] region blob start i ;
    serial <-[ i ] GetUint64 blob len i ;
    kind <-[ i ] GetUint32 blob len i ;
    keyid <-[ i ] GetStr blob len i ;
    princ <-[ i ] GetStr blob len i ;
    after <-[ i ] GetUint64 blob len i ;
    before <-[ i ] GetUint64 blob len i ;
    crit <-[ i ] GetStr blob len i ;
    ext <-[ i ] GetStr blob len i ;
    reserved <-[ i ] GetStr blob len i ;
    ca <-[ i ] GetStr blob len i ;
    catype <-[ j ] GetStr ca (lenN ca) 0 ;
    tbs <-[ i ] region blob 0 i ;
    sig <-[ i ] GetStr blob len i ;
    u <-[ i ] require (i =? len) WS_PARSE_E i ;
    POk (mkCert base parms kind princ after before crit ext ca catype tbs sig) i.

Definition CERT_TYPE_USER : N := 1.   (* WOLFSSH_OSSH_CERT_TYPE_USER *)

(* src/ossh.c:972-999 OsshCertCheckType *)
Definition OsshCertCheckType (c : cert) : pres unit :=
  let ca := NameToId (k_catype c) in
  require ((k_kind c =? CERT_TYPE_USER)
           && ((ca =? ID_SSH_RSA) || is_ecdsa ca || (ca =? ID_ED25519))) WS_INVALID_ALGO_ID 0.

(* src/ossh.c:1002-1021 OsshNameCmp: memcmp on the common length, then the
   lengths. *)
Fixpoint mem_cmp (a b : bytes) : comparison :=
  match a, b with
  | x :: a, y :: b => match x ?= y with Eq => mem_cmp a b | c => c end
  | _, _ => Eq
  end.
Definition OsshNameCmp (a b : bytes) : comparison :=
  let n := N.min (lenN a) (lenN b) in
  match mem_cmp (takeN n a) (takeN n b) with Eq => lenN a ?= lenN b | c => c end.

(* src/ossh.c:1052-1101: the loop over critical options. [prev] is prevName, []
   when it is NULL: no name was read yet or the last one was empty. The fuel
   counts rounds; it does not run out, as each consumes bytes. *)
Fixpoint crit_options (fuel : nat) (buf : bytes) (idx : N) (prev fc sa : bytes) : pres (bytes * bytes) :=
  match fuel with
  | O => POob
  | S fuel =>
      if idx <? lenN buf then
        name <-[ i ] GetStr buf (lenN buf) idx ;
        u <-[ i ] require ((lenN prev =? 0) || match OsshNameCmp prev name with Lt => true | _ => false end)
                          WS_PARSE_E i ;
        data <-[ i ] GetStr buf (lenN buf) i ;
        if bytes_eqb name (ascii "force-command") then
          v <-[ j ] GetStr data (lenN data) 0 ;
          u <-[ j ] require (negb (lenN v =? 0)) WS_PARSE_E j ;
          u <-[ j ] require (j =? lenN data) WS_PARSE_E j ;
          crit_options fuel buf i name v sa
        else if bytes_eqb name (ascii "source-address") then
          v <-[ j ] GetStr data (lenN data) 0 ;
          u <-[ j ] require (negb (lenN v =? 0)) WS_PARSE_E j ;
          u <-[ j ] require (j =? lenN data) WS_PARSE_E j ;
          crit_options fuel buf i name fc v
        else PErr WS_FATAL_OTHER i   (* WS_UNIMPLEMENTED_E *)
      else POk (fc, sa) idx
  end.

(* src/ossh.c:1103-1126: the loop over extensions; their names only choose what
   is logged. *)
Fixpoint skip_options (fuel : nat) (buf : bytes) (idx : N) : pres unit :=
  match fuel with
  | O => POob
  | S fuel =>
      if idx <? lenN buf then
        name <-[ i ] GetStr buf (lenN buf) idx ;
        data <-[ i ] GetStr buf (lenN buf) i ;
        skip_options fuel buf i
      else POk tt idx
  end.

(* src/ossh.c:1031-1128 OsshCertCheckOptions: the force-command and
   source-address values, [] when absent. *)
Definition OsshCertCheckOptions (c : cert) : pres (bytes * bytes) :=
  r <-[ i ] crit_options (S (List.length (k_crit c))) (k_crit c) 0 [] [] [] ;
  u <-[ i ] skip_options (S (List.length (k_ext c))) (k_ext c) 0 ;
  POk r i.

(* src/ossh.c:1132-1183 OsshVerifyEd25519 *)
Definition OsshVerifyEd25519 (x : ca_crypto) (c : cert) : pres unit :=
  a <-[ i ] GetStr (k_ca c) (lenN (k_ca c)) (add32 (lenN (k_catype c)) 4) ;
  u <-[ i ] GetSkip (k_sig c) (lenN (k_sig c)) 0 ;
  s <-[ i ] GetStr (k_sig c) (lenN (k_sig c)) i ;
  require (ca_ed x a (k_signed c) s) WS_FATAL_OTHER i.

(* a GetMpint whose bytes are used *)
Definition GetMp (buf : bytes) (idx : N) : pres bytes :=
  r <-[ i ] GetMpint buf (lenN buf) idx ;
  match rdn buf (fst r) (snd r) with Some b => POk b i | None => POob end.

(* src/ossh.c:1188-1311 OsshVerifyRsa *)
Definition OsshVerifyRsa (x : ca_crypto) (c : cert) : pres unit :=
  e <-[ i ] GetMp (k_ca c) (add32 (lenN (k_catype c)) 4) ;
  n <-[ i ] GetMp (k_ca c) i ;
  t <-[ i ] GetStr (k_sig c) (lenN (k_sig c)) 0 ;
  s <-[ i ] GetStr (k_sig c) (lenN (k_sig c)) i ;
  if bytes_eqb t (ascii "rsa-sha2-256") then
    require (ca_rsa x SHA256 n e (k_signed c) s) WS_FATAL_OTHER i
  else if bytes_eqb t (ascii "rsa-sha2-512") then
    require (ca_rsa x SHA512 n e (k_signed c) s) WS_FATAL_OTHER i
  else PErr WS_INVALID_ALGO_ID i.

(* src/ossh.c:1316-1441 OsshVerifyEcc; the curve of the key type and its hash *)
Definition ca_curve (id : N) : option (hash * N) :=
  if id =? ID_ECDSA_SHA2_NISTP256 then Some (SHA256, ID_CURVE_NISTP256)
  else if id =? ID_ECDSA_SHA2_NISTP384 then Some (SHA384, ID_CURVE_NISTP384)
  else if id =? ID_ECDSA_SHA2_NISTP521 then Some (SHA512, ID_CURVE_NISTP521)
  else None.
Definition OsshVerifyEcc (x : ca_crypto) (c : cert) : pres unit :=
  match ca_curve (NameToId (k_catype c)) with
  | None => PErr WS_INVALID_ALGO_ID 0
  | Some (h, curve) =>
      cn <-[ i ] GetStr (k_ca c) (lenN (k_ca c)) (add32 (lenN (k_catype c)) 4) ;
      u <-[ i ] require (NameToId cn =? curve) WS_INVALID_ALGO_ID i ;
      q <-[ i ] GetStr (k_ca c) (lenN (k_ca c)) i ;
      u <-[ i ] GetSkip (k_sig c) (lenN (k_sig c)) 0 ;
      b <-[ i ] GetStr (k_sig c) (lenN (k_sig c)) i ;
      r <-[ i ] GetMp b 0 ;
      s <-[ i ] GetMp b i ;
      require (ca_ecc x h q (k_signed c) r s) WS_FATAL_OTHER i
  end.

(* src/ossh.c:1445-1480 OsshCertVerifySignature *)
Definition OsshCertVerifySignature (x : ca_crypto) (c : cert) : pres unit :=
  if (lenN (k_ca c) =? 0) || (lenN (k_sig c) =? 0) then PErr WS_BAD_ARGUMENT 0
  else
    let ca := NameToId (k_catype c) in
    if ca =? ID_SSH_RSA then OsshVerifyRsa x c
    else if is_ecdsa ca then OsshVerifyEcc x c
    else if ca =? ID_ED25519 then OsshVerifyEd25519 x c
    else PErr WS_INVALID_ALGO_ID 0.

(* What the application's callback finds in WS_UserAuthData_PublicKey about a
   certificate (internal.c 9995-10029): the certified key as a plain public
   key, the authority's key, principals, validity, restrictions ([] when the
   certificate has none). [o_base] is cert.baseTypeId. *)
Record offer := Offer {
  o_base : N; o_key : bytes; o_ca : bytes; o_principals : bytes; o_after : N; o_before : N;
  o_command : bytes; o_source : bytes }.

(* src/internal.c:9965-10029: the checks before the callback is asked *)
Definition check_cert (x : ca_crypto) (id : N) (blob : bytes) : pres offer :=
  c <-[ i ] OsshCertParse id blob ;
  u <-[ i ] OsshCertCheckType c ;
  u <-[ i ] OsshCertVerifySignature x c ;
  r <-[ i ] OsshCertCheckOptions c ;
  POk (Offer (k_base c) (PutString (IdToName (k_base c)) ++ k_parms c) (k_ca c) (k_princ c)
             (k_after c) (k_before c) (fst r) (snd r)) i.

(* src/internal.c:10032-10061: may this signature algorithm be used with the
   certified key? *)
Definition sig_fits (base sig_id : N) : bool :=
  if base =? ID_SSH_RSA then (sig_id =? ID_RSA_SHA2_256) || (sig_id =? ID_RSA_SHA2_512)
  else if is_ecdsa base then sig_id =? base
  else if base =? ID_ED25519 then sig_id =? ID_ED25519
  else false.

(* src/internal.c:9961-9965 *)
Definition is_cert_id (id : N) : bool :=
  (id =? ID_OSSH_CERT_RSA) || (id =? ID_OSSH_CERT_ECDSA_SHA2_NISTP256)
  || (id =? ID_OSSH_CERT_ECDSA_SHA2_NISTP384) || (id =? ID_OSSH_CERT_ECDSA_SHA2_NISTP521)
  || (id =? ID_OSSH_CERT_ED25519).

(* What a public key request leads to. *)
Inductive pk_answer :=
| PkMalformed        (* an error return, nothing sent *)
| PkRefused          (* USERAUTH_FAILURE *)
| PkPending          (* WS_AUTH_PENDING *)
| PkRejected         (* USERAUTH_FAILURE and WS_USER_AUTH_E *)
| PkOffered (algo blob : bytes)   (* USERAUTH_PK_OK *)
| PkPartial          (* USERAUTH_FAILURE with partial success *)
| PkGranted          (* clientState = CLIENT_USERAUTH_DONE *)
| PkNotCert          (* not a certificate algorithm: AuthModel.v *)
| PkOob.

(* The request's answer and what the callback was asked about, if it was. *)
Definition pk_result := (option offer * pk_answer)%type.

(* src/internal.c:10163-10320 after the callback allowed a request that carries
   a signature. [id] and [algo] are pkTypeId and publicKeyType. *)
Definition conclude (x : crypto) (rcb : option (bool -> bool)) (partial : bool)
    (sid m : bytes) (id : N) (algo key sig : bytes) : pk_answer :=
  match signed_data sid m (lenN m) sig with
  | None => PkOob
  | Some msg =>
      match VerifyUser x id algo key sig msg with
      | POob => PkOob
      | PErr _ _ => PkRefused
      | POk _ _ =>
          if negb (match rcb with Some f => f true | None => true end) then PkRefused
          else if partial then PkPartial else PkGranted
      end
  end.

(* src/internal.c:9808-10348 DoUserAuthRequestPublicKey on a certificate: [m] is
   the whole request, [idx] where the method's own fields start; [cb] and
   [rcb] are what the application's callbacks answer; sending succeeds. The
   authentication data of a refused certificate are not shown to anyone. *)
Definition cert_request (algos : list N) (cb : option (offer -> cbres)) (rcb : option (bool -> bool))
    (x : crypto) (cx : ca_crypto) (sid m : bytes) (idx : N) : pk_result :=
  match get_pk m (lenN m) idx with
  | POob => (None, PkOob)
  | PErr _ _ => (None, PkMalformed)
  | POk (flag, algo, blob, sig) _ =>
    match check_pk flag blob sig with
    | POob => (None, PkOob)
    | PErr _ _ => (None, PkMalformed)
    | POk _ _ =>
      let id := NameToId algo in
      if (id =? ID_UNKNOWN) || (MatchIdLists Server [id] algos =? ID_UNKNOWN) then (None, PkRefused)
      else if negb (is_cert_id id) then (None, PkNotCert)
      else
        match check_cert cx id blob with
        | POob => (None, PkOob)
        | PErr _ _ => (None, PkRefused)
        | POk o _ =>
          match (if flag =? 0 then POk [] 0 else GetStr sig (lenN sig) 0) with
          | POob => (None, PkOob)
          | PErr _ _ => (None, PkMalformed)
          | POk sig_algo _ =>
            let sig_id := NameToId sig_algo in
            if negb (flag =? 0) && negb (sig_fits (o_base o) sig_id) then (None, PkRefused)
            else
              match cb with
              | None => (None, PkRefused)
              | Some f =>
                (Some o,
                 match f o with
                 | CbBlock => PkPending
                 | CbRejected => PkRejected
                 | CbFailure | CbAnother => PkRefused
                 | CbSuccess =>
                     if flag =? 0 then PkOffered algo blob
                     else conclude x rcb false sid m sig_id sig_algo (o_key o) sig
                 | CbPartial =>
                     if flag =? 0 then PkOffered algo blob
                     else conclude x rcb true sid m sig_id sig_algo (o_key o) sig
                 end)
              end
          end
        end
    end
  end.
