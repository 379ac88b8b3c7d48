(* AuthModel.v - the server's side of user authentication.
   Models src/internal.c 8391-8936, 9106-9288, 9652-9802, 9808-10473,
   17285-17373, 19568-19690 and src/ssh.c 1726-1753, 3121-3157.

   Not modelled: X.509 certificates (builds without WOLFSSH_CERTS); OpenSSH
   certificates, which are in OsshModel.v; allocation failures; what the callback does with
   the data it is given. Every answer of the application's callbacks and every
   result of sending a message is an argument, so the theorems hold for all of
   them. *)
From Verif Require Import Base WireModel NameTable NegoModel.
From Coq Require Import List NArith ZArith Bool.
Import ListNotations.
Open Scope N_scope.

(* wolfssh/ssh.h 677-689: what the authentication callback may answer. Every
   number the code has no case for is CbFailure. *)
Inductive cbres := CbSuccess | CbFailure | CbRejected | CbPartial | CbAnother | CbBlock.

(* What the callback is asked about: the type argument and the union in
   WS_UserAuthData (wolfssh/ssh.h 370-458). *)
Inductive cred :=
| CrNone
| CrPassword (pw : bytes)
| CrKey (hasSig : N) (algo blob sig : bytes)
| CrKbSetup
| CrKbResponse (answers : list bytes).

(* Observable effects, in order. A message event says that the send function
   was called; how the transport answered is part of the answers below. *)
Inductive event :=
| ECallback (user : bytes) (c : cred) (r : cbres)  (* userAuthCb *)
| EResult (verified ok : bool)                      (* userAuthResultCb *)
| EFailure (partial : bool)                         (* USERAUTH_FAILURE *)
| EDisconnect (reason : N)                          (* DISCONNECT *)
| EPkOk (algo blob : bytes)                         (* USERAUTH_PK_OK *)
| EInfoRequest (prompts : N)                        (* USERAUTH_INFO_REQUEST *)
| EGranted (user : bytes) (c : cred).               (* clientState = USERAUTH_DONE *)

(* Settings that do not change during a connection: whether the callbacks are
   set, the key algorithms accepted from clients (cannedKeyAlgoClient
   4697-4794), the build options WOLFSSH_ALLOW_USERAUTH_NONE and
   WOLFSSH_KEYBOARD_INTERACTIVE. *)
Record acfg := mkAcfg {
  c_cb : bool; c_rcb : bool; c_algos : list N; c_none : bool; c_kb : bool }.

(* wolfCrypt's hash names and verification functions; hashing the message and
   decoding the key are part of the latter. *)
Inductive hash := SHA1 | SHA256 | SHA384 | SHA512.
Record crypto := mkCrypto {
  v_rsa : hash -> bytes -> bytes -> bytes -> bytes -> bool;       (* n e message signature *)
  v_ecc : N -> hash -> bytes -> bytes -> bytes -> bytes -> bool;  (* curve bits, q message r s *)
  v_ed : bytes -> bytes -> bytes -> bool;                 (* q message signature *)
  v_other : bytes -> bytes -> bytes -> bytes -> bool }.   (* ML-DSA: algorithm blob message signature *)

(* Answers still to be given by the environment during one call: the callback
   (with the prompt count it sets), the transport, the result callback.
   A missing answer is a success. *)
Record answers := mkAns { an_cb : list (cbres * N); an_send : list rc; an_rcb : list bool }.

(* The fields of WOLFSSH that user authentication reads or writes
   (wolfssh/internal.h 1209-1230, kbAuth.promptCount). [a_user] is userName
   when userAuthSeen is set. *)
Record auth := mkAuth {
  a_user : option bytes; a_authId : N; a_requests : N; a_failures : N; a_max : N;
  a_pending : bool; a_prompts : N; a_client : N; a_sid : bytes;
  a_log : list event; a_ans : answers }.

Definition CLIENT_USERAUTH_DONE : N := 5.  (* internal.h 1613-1622 *)
Definition CLIENT_USERAUTH_REQUEST_DONE : N := 4.
Definition DEFAULT_MAX_AUTH : N := 6.      (* internal.h *)
Definition MAX_PROMPTS : N := 64.          (* settings.h 85-86 *)
Definition MSGID_USERAUTH_REQUEST : N := 50.
Definition DISC_PROTOCOL_ERROR : N := 2.   (* ssh.h 691-706 *)
Definition DISC_NO_MORE_AUTH : N := 14.

Definition set_user u s := mkAuth (Some u) (a_authId s) (a_requests s) (a_failures s) (a_max s) (a_pending s) (a_prompts s) (a_client s) (a_sid s) (a_log s) (a_ans s).
Definition set_authId v s := mkAuth (a_user s) v (a_requests s) (a_failures s) (a_max s) (a_pending s) (a_prompts s) (a_client s) (a_sid s) (a_log s) (a_ans s).
Definition set_requests v s := mkAuth (a_user s) (a_authId s) v (a_failures s) (a_max s) (a_pending s) (a_prompts s) (a_client s) (a_sid s) (a_log s) (a_ans s).
Definition set_failures v s := mkAuth (a_user s) (a_authId s) (a_requests s) v (a_max s) (a_pending s) (a_prompts s) (a_client s) (a_sid s) (a_log s) (a_ans s).
Definition set_max v s := mkAuth (a_user s) (a_authId s) (a_requests s) (a_failures s) v (a_pending s) (a_prompts s) (a_client s) (a_sid s) (a_log s) (a_ans s).
Definition set_pending v s := mkAuth (a_user s) (a_authId s) (a_requests s) (a_failures s) (a_max s) v (a_prompts s) (a_client s) (a_sid s) (a_log s) (a_ans s).
Definition set_prompts v s := mkAuth (a_user s) (a_authId s) (a_requests s) (a_failures s) (a_max s) (a_pending s) v (a_client s) (a_sid s) (a_log s) (a_ans s).
Definition set_client v s := mkAuth (a_user s) (a_authId s) (a_requests s) (a_failures s) (a_max s) (a_pending s) (a_prompts s) v (a_sid s) (a_log s) (a_ans s).
Definition set_ans v s := mkAuth (a_user s) (a_authId s) (a_requests s) (a_failures s) (a_max s) (a_pending s) (a_prompts s) (a_client s) (a_sid s) (a_log s) v.
Definition log e s := mkAuth (a_user s) (a_authId s) (a_requests s) (a_failures s) (a_max s) (a_pending s) (a_prompts s) (a_client s) (a_sid s) (a_log s ++ [e]) (a_ans s).

(* Sending a message: the event is logged, the transport answers. *)
Definition send (e : event) (s : auth) : auth * rc :=
  let s := log e s in
  match an_send (a_ans s) with
  | [] => (s, WS_SUCCESS)
  | r :: t => (set_ans (mkAns (an_cb (a_ans s)) t (an_rcb (a_ans s))) s, r)
  end.

(* Calling ssh->ctx->userAuthCb. *)
Definition callback (user : bytes) (c : cred) (s : auth) : auth * (cbres * N) :=
  let '(r, s) := match an_cb (a_ans s) with
                 | [] => ((CbSuccess, 0), s)
                 | r :: t => (r, set_ans (mkAns t (an_send (a_ans s)) (an_rcb (a_ans s))) s)
                 end in
  (log (ECallback user c (fst r)) s, r).

(* Calling ssh->ctx->userAuthResultCb: true when it returned WS_SUCCESS. *)
Definition result_cb (verified : bool) (s : auth) : auth * bool :=
  let '(r, s) := match an_rcb (a_ans s) with
                 | [] => (true, s)
                 | r :: t => (r, set_ans (mkAns (an_cb (a_ans s)) (an_send (a_ans s)) t) s)
                 end in
  (log (EResult verified r) s, r).

(* ssh->clientState = CLIENT_USERAUTH_DONE, with the ghost event. *)
Definition grant (user : bytes) (c : cred) (s : auth) : auth :=
  log (EGranted user c) (set_client CLIENT_USERAUTH_DONE s).

(* src/internal.c:8391-8404 CountUserAuthFailure. authFailures is a word32. *)
Definition CountUserAuthFailure (s : auth) : auth * rc :=
  let s := set_failures (add32 (a_failures s) 1) s in
  if a_max s <=? a_failures s then (fst (send (EDisconnect DISC_NO_MORE_AUTH) s), WS_USER_AUTH_E)
  else (s, WS_SUCCESS).

(* src/internal.c:8410-8424 SendUserAuthFailureCount; SendUserAuthFailure
   19568-19610. *)
Definition SendUserAuthFailureCount (partial count : bool) (s : auth) : auth * rc :=
  let '(s, r) := send (EFailure partial) s in
  if count then
    let '(s, c) := CountUserAuthFailure s in
    (s, if rc_eqb c WS_SUCCESS then r else c)
  else (s, r).

(* A string field and its contents, as GetStringRef (4557-4582) gives them. *)
Definition GetStr (buf : bytes) (len idx : N) : pres bytes :=
  pbind (GetStringRef buf len idx) (fun r i =>
    match rdn buf (fst r) (snd r) with
    | Some b => POk b i
    | None => POob
    end).

(* GetSize, then a pointer to the bytes that follow, then idx += size: how the
   ECDSA and Ed25519 checks read strings (9158-9162). *)
Definition GetSized (buf : bytes) (len idx : N) : pres bytes :=
  pbind (GetSize buf len idx) (fun sz i =>
    match rdn buf i sz with
    | Some b => POk b (add32 i sz)
    | None => POob
    end).

(* Result of a message handler: new state, return code, index left behind; or
   a read outside the message. *)
Inductive hres := HR (s : auth) (r : rc) (idx : N) | HOob.

(* What the callback's verdict does to (authFailure, authRejected,
   partialSuccess, ret) in the password and keyboard handlers, 8699-8731 and
   8571-8606. CbAnother is kept apart by the caller. *)
Record verdict := mkV { v_fail : bool; v_rej : bool; v_part : bool; v_ret : rc }.
Definition verdict_of (r : cbres) : verdict :=
  match r with
  | CbSuccess => mkV false false false WS_SUCCESS
  | CbPartial => mkV false false true WS_SUCCESS
  | CbRejected => mkV true true false WS_USER_AUTH_E
  | CbBlock => mkV false false false WS_AUTH_PENDING
  | CbFailure | CbAnother => mkV true false false WS_SUCCESS
  end.

(* src/internal.c:8429-8486 DoUserAuthRequestNone. *)
Definition DoUserAuthRequestNone (c : acfg) (user : bytes) (idx : N) (s : auth) : hres :=
  let count := negb (a_requests s =? 1) in
  if c_cb c then
    let '(s, (r, _)) := callback user CrNone s in
    match r with
    | CbSuccess => HR (grant user CrNone s) WS_SUCCESS idx
    | CbRejected => HR (fst (SendUserAuthFailureCount false count s)) WS_USER_AUTH_E idx
    | CbBlock => HR s WS_AUTH_PENDING idx
    | _ => let '(s, r) := SendUserAuthFailureCount false count s in HR s r idx
    end
  else HR (fst (SendUserAuthFailureCount false count s)) WS_FATAL_ERROR idx.

(* src/internal.c:17285-17373 SendUserAuthKeyboardRequest. Building the
   message (PrepareUserAuthRequestKeyboard, PreparePacket,
   BuildUserAuthRequestKeyboard, BundlePacket) and sending it are one send
   event with one answer. WS_BAD_USAGE is WS_FATAL_OTHER. *)
Definition SendUserAuthKeyboardRequest (c : acfg) (user : bytes) (s : auth) : auth * rc :=
  if c_cb c then
    let '(s, (r, n)) := callback user CrKbSetup s in
    match r with
    | CbSuccess =>
        if MAX_PROMPTS <? n then (s, WS_FATAL_OTHER)
        else
          let s := set_prompts n s in
          let '(s, r) := send (EInfoRequest n) s in
          match r with
          | WS_WANT_WRITE | WS_SUCCESS => (set_pending true s, r)
          | _ => (s, r)
          end
    | CbBlock => (set_pending false s, WS_AUTH_PENDING)
    | _ => SendUserAuthFailureCount false true (set_pending false s)
    end
  else (s, WS_FATAL_OTHER).

(* 8559-8567: the loop reading responseCount strings. *)
Fixpoint get_strs (n : nat) (buf : bytes) (len idx : N) : pres (list bytes) :=
  match n with
  | O => POk [] idx
  | S k => pbind (GetStr buf len idx) (fun b i =>
           pbind (get_strs k buf len i) (fun bs j => POk (b :: bs) j))
  end.

(* the tail shared by the password and the keyboard handler, 8619-8636 and
   8736-8747: answer a failure and count it, or grant *)
Definition finish (user : bytes) (cr : cred) (v : verdict) (idx : N) (s : auth) : hres :=
  if v_fail v || v_part v then
    let '(s, r) := SendUserAuthFailureCount (v_part v) true s in
    HR s (if v_rej v then WS_USER_AUTH_E else r) idx
  else match v_ret v with
       | WS_SUCCESS => HR (grant user cr s) WS_SUCCESS idx
       | r => HR s r idx
       end.

(* src/internal.c:8491-8644 DoUserAuthInfoResponse (builds with
   keyboard-interactive; otherwise the message is unknown and answered with
   UNIMPLEMENTED by DoPacket). The user is ssh->userName, empty if no request
   named one. *)
Definition DoUserAuthInfoResponse (c : acfg) (buf : bytes) (len idx : N) (s : auth) : hres :=
  if len =? 0 then HR s WS_BAD_ARGUMENT idx
  else if negb (a_authId s =? ID_USERAUTH_KEYBOARD) then HR s WS_FATAL_ERROR idx
  else
    let s := set_pending false s in
    let user := match a_user s with Some u => u | None => [] end in
    match GetUint32 buf len idx with
    | POob => HOob
    | PErr e _ => HR s e idx
    | POk n i =>
        if negb (a_prompts s =? n) then finish user (CrKbResponse []) (mkV true false false WS_USER_AUTH_E) idx s
        else match get_strs (N.to_nat n) buf len i with
             | POob => HOob
             | PErr e _ => HR s e idx
             | POk rs j =>
                 if c_cb c then
                   let '(s, (r, _)) := callback user (CrKbResponse rs) s in
                   match r with
                   | CbAnother => let '(s, r) := SendUserAuthKeyboardRequest c user s in HR s r j
                   | _ =>
                     let v := verdict_of r in
                     finish user (CrKbResponse rs) v (if rc_eqb (v_ret v) WS_SUCCESS then j else idx) s
                   end
                 else finish user (CrKbResponse rs) (mkV true false false WS_SUCCESS) j s
             end
    end.

(* src/internal.c:8648-8750 DoUserAuthRequestPassword. *)
Definition DoUserAuthRequestPassword (c : acfg) (user : bytes) (buf : bytes) (len idx : N) (s : auth) : hres :=
  if len =? 0 then HR s WS_BAD_ARGUMENT idx
  else
    match (hasNew <-[ i ] GetBoolean buf len idx ;
           pw <-[ i ] GetStr buf len i ;
           if hasNew =? 0 then POk (false, pw) i
           else pbind (GetStr buf len i) (fun _ i => POk (true, pw) i)) with
    | POob => HOob
    | PErr e _ => HR s e idx
    | POk (true, _) i => finish user CrNone (mkV true false false WS_SUCCESS) i s
    | POk (false, pw) i =>
        if c_cb c then
          let '(s, (r, _)) := callback user (CrPassword pw) s in
          let v := verdict_of r in
          finish user (CrPassword pw) v (if rc_eqb (v_ret v) WS_SUCCESS then i else idx) s
        else finish user (CrPassword pw) (mkV true false false WS_SUCCESS) i s
    end.

(* mp_count_bits of the modulus, big endian *)
Definition be_val (b : bytes) : N := fold_left (fun acc x => acc * 256 + x) b 0.
Definition bits (b : bytes) : N := N.size (be_val b).
Definition RSA_MIN_KEY_BITS : N := 2048.   (* WOLFSSH_RSA_MIN_KEY_BITS *)
Definition ssh_rsa_name : bytes := [115;115;104;45;114;115;97].

Definition require (b : bool) (e : rc) (i : N) : pres unit := if b then POk tt i else PErr e i.

(* src/internal.c:4937-5047 HashForId on the RSA and ECDSA algorithms *)
Definition HashForId (id : N) : hash :=
  if id =? ID_SSH_RSA then SHA1
  else if (id =? ID_RSA_SHA2_256) || (id =? ID_ECDSA_SHA2_NISTP256) then SHA256
  else if id =? ID_ECDSA_SHA2_NISTP384 then SHA384
  else SHA512.

(* src/internal.c:8777-8936 DoUserAuthRequestRsa with CheckRsaKeyBits
   8755-8773 (software build: the modulus is in the key). [algo] is
   pk->publicKeyType, [id] the identifier that selects the hash. *)
Definition VerifyRsa (x : crypto) (id : N) (algo blob sig msg : bytes) : pres unit :=
  t <-[ i ] GetStr blob (lenN blob) 0 ;
  u <-[ i ] require (bytes_eqb t ssh_rsa_name) WS_INVALID_ALGO_ID i ;
  e <-[ i ] GetMpint blob (lenN blob) i ;
  n <-[ i ] GetMpint blob (lenN blob) i ;
  match rdn blob (fst e) (snd e), rdn blob (fst n) (snd n) with
  | Some e, Some n =>
      u <-[ i ] require (RSA_MIN_KEY_BITS <=? bits n) WS_FATAL_OTHER 0 ;
      st <-[ i ] GetStr sig (lenN sig) 0 ;
      u <-[ i ] require (negb (lenN st =? 0) && bytes_eqb st algo) WS_INVALID_ALGO_ID i ;
      sg <-[ i ] GetStr sig (lenN sig) i ;
      require (v_rsa x (HashForId id) n e msg sg) WS_FATAL_OTHER i
  | _, _ => POob
  end.

(* src/internal.c:5127-5149 PrimeNameForId and 5078-5125 wcPrimeForId on the
   ECDSA algorithms: the curve's size in bits and its name; None is
   ECC_CURVE_INVALID. *)
Definition PrimeForId (id : N) : option (N * bytes) :=
  if id =? ID_ECDSA_SHA2_NISTP256 then Some (256, [110;105;115;116;112;50;53;54])
  else if id =? ID_ECDSA_SHA2_NISTP384 then Some (384, [110;105;115;116;112;51;56;52])
  else if id =? ID_ECDSA_SHA2_NISTP521 then Some (521, [110;105;115;116;112;53;50;49])
  else None.

(* src/internal.c:9106-9288 DoUserAuthRequestEcc. [hid] is the identifier that
   chose the hash (10186); the curve comes from the declared name again. *)
Definition VerifyEcc (x : crypto) (hid : N) (algo blob sig msg : bytes) : pres unit :=
  t <-[ i ] GetSized blob (lenN blob) 0 ;
  u <-[ i ] require (bytes_eqb t algo) WS_INVALID_ALGO_ID i ;
  let id := NameToId algo in
  match PrimeForId id with
  | None => PErr WS_FATAL_OTHER i
  | Some (prime, curve) =>
      cn <-[ i ] GetSized blob (lenN blob) i ;
      u <-[ i ] require (bytes_eqb cn curve) WS_FATAL_OTHER i ;
      q <-[ i ] GetSized blob (lenN blob) i ;
      st <-[ i ] GetSized sig (lenN sig) 0 ;
      u <-[ i ] require (bytes_eqb st algo) WS_INVALID_ALGO_ID i ;
      sz <-[ i ] GetSize sig (lenN sig) i ;
      r <-[ i ] GetStr sig (lenN sig) i ;
      s <-[ i ] GetStr sig (lenN sig) i ;
      require (v_ecc x prime (HashForId hid) q msg r s) WS_FATAL_OTHER i
  end.

(* src/internal.c:9652-9802 DoUserAuthRequestEd25519. Any error while reading
   the key becomes WS_CRYPTO_FAILED (9712-9715); the code differs, the outcome
   does not. *)
Definition VerifyEd (x : crypto) (algo blob sig msg : bytes) : pres unit :=
  t <-[ i ] GetSized blob (lenN blob) 0 ;
  u <-[ i ] require (bytes_eqb t algo) WS_INVALID_ALGO_ID i ;
  q <-[ i ] GetSized blob (lenN blob) i ;
  st <-[ i ] GetSized sig (lenN sig) 0 ;
  u <-[ i ] require (bytes_eqb st algo) WS_INVALID_ALGO_ID i ;
  sg <-[ i ] GetSized sig (lenN sig) i ;
  require (v_ed x q msg sg) WS_FATAL_OTHER i.

Definition is_mldsa (id : N) : bool := (ID_MLDSA44 <=? id) && (id <=? ID_MLDSA87_ED448).

(* src/internal.c:10150-10262: the choice of verifier. DoUserAuthRequestMlDsa
   and DoUserAuthRequestMlDsaComposite are one opaque function of the
   algorithm, the key blob, the signed data and the signature field. *)
Definition VerifyUser (x : crypto) (id : N) (algo blob sig msg : bytes) : pres unit :=
  if id =? ID_ED25519 then VerifyEd x algo blob sig msg
  else if is_mldsa id then require (v_other x algo blob msg sig) WS_FATAL_OTHER 0
  else if (id =? ID_SSH_RSA) || (id =? ID_RSA_SHA2_256) || (id =? ID_RSA_SHA2_512)
       then VerifyRsa x id algo blob sig msg
  else if (id =? ID_ECDSA_SHA2_NISTP256) || (id =? ID_ECDSA_SHA2_NISTP384) || (id =? ID_ECDSA_SHA2_NISTP521)
       then VerifyEcc x id algo blob sig msg
  else PErr WS_INVALID_ALGO_ID 0.

(* The fields of a public key request, 9844-9858. *)
Definition get_pk (buf : bytes) (len idx : N) : pres (N * bytes * bytes * bytes) :=
  hasSig <-[ i ] GetBoolean buf len idx ;
  algo <-[ i ] GetStr buf len i ;
  blob <-[ i ] GetStr buf len i ;
  if hasSig =? 0 then POk (hasSig, algo, blob, []) i
  else sig <-[ i ] GetStr buf len i ; POk (hasSig, algo, blob, sig) i.

(* 9881-9902: the key blob must start with a string, the signature with two. *)
Definition check_pk (hasSig : N) (blob sig : bytes) : pres unit :=
  f <-[ i ] GetStr blob (lenN blob) 0 ;
  if hasSig =? 0 then POk tt i
  else a <-[ i ] GetStr sig (lenN sig) 0 ;
       b <-[ i ] GetStr sig (lenN sig) i ;
       POk tt i.

(* What is hashed or passed to the verifier, 10194-10221 and 9746-9777: the
   session identifier as a string, the message number, and dataToSignSz bytes
   from the start of the message. dataToSignSz is len - sigSz - LENGTH_SZ
   (9877). The Ed25519 fallback for dataToSignSz = 0 (9764-9770) is left
   out: it cannot be taken, as the user name, service, method, flag, algorithm
   and blob precede the signature. *)
Definition signed_data (sid buf : bytes) (len : N) (sig : bytes) : option bytes :=
  match rdn buf 0 (sub32 (sub32 len (lenN sig)) 4) with
  | Some d => Some (PutString sid ++ [MSGID_USERAUTH_REQUEST] ++ d)
  | None => None
  end.

(* src/internal.c:9808-10348 DoUserAuthRequestPublicKey. *)
Definition DoUserAuthRequestPublicKey (c : acfg) (x : crypto) (user : bytes)
    (buf : bytes) (len idx : N) (s : auth) : hres :=
  if len =? 0 then HR s WS_BAD_ARGUMENT idx
  else match get_pk buf len idx with
  | POob => HOob
  | PErr e _ => HR s e idx
  | POk (hasSig, algo, blob, sig) i =>
    match check_pk hasSig blob sig with
    | POob => HOob
    | PErr e _ => HR s e i
    | POk _ _ =>
      let id := NameToId algo in
      let fail s := let '(s, r) := SendUserAuthFailureCount false true s in HR s r i in
      if (id =? ID_UNKNOWN) || (MatchIdLists Server [id] (c_algos c) =? ID_UNKNOWN) then fail s
      else if negb (c_cb c) then fail s
      else
        let '(s, (r, _)) := callback user (CrKey hasSig algo blob sig) s in
        match r with
        | CbBlock => HR s WS_AUTH_PENDING i
        | CbRejected => HR (fst (SendUserAuthFailureCount false true s)) WS_USER_AUTH_E i
        | CbFailure | CbAnother => fail s
        | CbSuccess | CbPartial =>
          let partial := match r with CbPartial => true | _ => false end in
          if hasSig =? 0 then
            let '(s, r) := send (EPkOk algo blob) s in HR s r i
          else
            match signed_data (a_sid s) buf len sig with
            | None => HOob
            | Some msg =>
              match VerifyUser x id algo blob sig msg with
              | POob => HOob
              | PErr _ _ => fail (if c_rcb c then fst (result_cb false s) else s)
              | POk _ _ =>
                let '(s, ok) := if c_rcb c then result_cb true s else (s, true) in
                if negb ok then fail s
                else if partial then
                  let '(s, r) := SendUserAuthFailureCount true true s in HR s r i
                else HR (grant user (CrKey hasSig algo blob sig) s) WS_SUCCESS i
              end
            end
        end
    end
  end.

(* src/ssh.c:1726-1753 wolfSSH_SetUsernameRaw. *)
Definition SetUsernameRaw (u : bytes) (s : auth) : auth * rc :=
  if lenN u =? 0 then (s, WS_BAD_ARGUMENT) else (set_user u s, WS_SUCCESS).

(* src/internal.c:10415-10470: the part after the user name was accepted. *)
Definition Dispatch (c : acfg) (x : crypto) (user authName : bytes) (buf : bytes) (len i : N) (s : auth) : hres :=
  let id := NameToId authName in
  let s := set_requests (add32 (a_requests s) 1) (set_authId id s) in
  let '(s, r) := if c_kb c && a_pending s then CountUserAuthFailure (set_pending false s)
                 else (s, WS_SUCCESS) in
  match r with
  | WS_SUCCESS =>
    if id =? ID_USERAUTH_PASSWORD then DoUserAuthRequestPassword c user buf len i s
    else if c_kb c && (id =? ID_USERAUTH_KEYBOARD) then
      let '(s, r) := SendUserAuthKeyboardRequest c user s in HR s r i
    else if id =? ID_USERAUTH_PUBLICKEY then DoUserAuthRequestPublicKey c x user buf len i s
    else if c_none c && (id =? ID_NONE) then DoUserAuthRequestNone c user i s
    else
      let '(s, r) := SendUserAuthFailureCount false (negb ((id =? ID_NONE) && (a_requests s =? 1))) s in
      HR s r len
  | _ => HR s r len
  end.

(* src/internal.c:10352-10473 DoUserAuthRequest; [idx] is 0 in DoPacket. *)
Definition DoUserAuthRequest (c : acfg) (x : crypto) (buf : bytes) (len idx : N) (s : auth) : hres :=
  if len =? 0 then HR s WS_BAD_ARGUMENT idx
  else
    match (user <-[ i ] GetStr buf len idx ; svc <-[ i ] GetStr buf len i ; POk (user, svc) i) with
    | POob => HOob
    | PErr e _ => HR s e idx
    | POk (user, svc) i =>
      if negb (NameToId svc =? ID_SERVICE_CONNECTION) then
        let '(s, r) := SendUserAuthFailureCount false true s in HR s r len
      else match GetStr buf len i with
      | POob => HOob
      | PErr e _ => HR s e idx
      | POk authName i =>
        match a_user s with
        | None =>
            let '(s, r) := SetUsernameRaw user s in
            match r with
            | WS_SUCCESS => Dispatch c x user authName buf len i s
            | _ => HR s r idx
            end
        | Some u =>
            if bytes_eqb user u then Dispatch c x user authName buf len i s
            else HR (fst (send (EDisconnect DISC_PROTOCOL_ERROR) s)) WS_INVALID_STATE_E idx
        end
      end
    end.

(* src/ssh.c:3121-3157 wolfSSH_CTX_SetMaxAuthAttempts and
   wolfSSH_SetMaxAuthAttempts: [value] is a C int. *)
Definition SetMaxAuthAttempts (value : Z) : N :=
  if (value <=? 0)%Z then DEFAULT_MAX_AUTH else Z.to_N value mod W32.

(* A new connection (SshInit 1622 and WMEMSET of the structure): the session
   identifier is set by the first key exchange before any of this runs. *)
Definition init_auth (max : N) (sid : bytes) : auth :=
  mkAuth None 0 0 0 max false 0 CLIENT_USERAUTH_REQUEST_DONE sid [] (mkAns [] [] []).

(* The two messages a client may send while it is not authenticated
   (IsMessageAllowedServer 688-797), with the environment's answers. *)
Inductive amsg := MRequest (buf : bytes) | MInfoResponse (buf : bytes).

(* DoPacket 12266-12275: the payload is the whole buffer, idx starts at 0. A
   message number the build does not know is answered with UNIMPLEMENTED
   (12357-12362), which touches nothing here. *)
Definition auth_step (c : acfg) (x : crypto) (m : amsg) (an : answers) (s : auth) : hres :=
  let s := set_ans an s in
  match m with
  | MRequest buf => DoUserAuthRequest c x buf (lenN buf) 0 s
  | MInfoResponse buf =>
      if c_kb c then DoUserAuthInfoResponse c buf (lenN buf) 0 s else HR s WS_SUCCESS 0
  end.
