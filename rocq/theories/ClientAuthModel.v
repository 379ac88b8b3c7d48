(* ClientAuthModel.v - the client's side of user authentication.
   Models src/internal.c 8294-8383 (EXT_INFO), 10476-10565 and 10600-10705
   (USERAUTH_FAILURE, SUCCESS, INFO_REQUEST), 17138-17186, 17378-17690,
   17882-18160, 18421-18822, 18825-19185, 19191-19517, 22413-22620 and the
   first request of src/ssh.c 968-986.

   Not modelled: certificates (builds without WOLFSSH_CERTS and
   WOLFSSH_OSSH_CERTS), the TPM and the agent;
   allocation failures. The bytes of a request
   are given as the list written at the end of the output buffer; that they
   fit there is the subject of C88. *)
From Verif Require Import Base WireModel NameTable NegoModel AuthModel PathModel.
From Coq Require Import List NArith Bool.
Import ListNotations.
Open Scope N_scope.

(* wolfssh/ssh.h 402-419, the part of WS_UserAuthData_PublicKey the client's
   callback fills in. *)
Record pubkey := mkPk { pk_type : bytes; pk_blob : bytes; pk_priv : bytes }.

(* wolfCrypt on a private key: loading it (None: no key of that kind) gives
   the signature size; signing a message includes hashing it and, for RSA, the
   check of the result by wolfSSH_RsaVerify. s_other stands for ML-DSA and its
   composites, by algorithm name. *)
Record signer := mkSigner {
  s_rsa_size : bytes -> option N; s_rsa : bytes -> hash -> bytes -> option bytes;
  s_ecc_size : bytes -> option N; s_ecc : bytes -> hash -> bytes -> option (bytes * bytes);
  s_ed_size : bytes -> option N; s_ed : bytes -> bytes -> option bytes;
  s_other_size : bytes -> bytes -> option N; s_other : bytes -> bytes -> bytes -> option bytes }.

(* The application's answers during one call, by what it is asked for: a
   password, a key, answers to prompts (None: anything but
   WOLFSSH_USERAUTH_SUCCESS). [an_sent] is the result of
   wolfSSH_SendPacket. *)
Record canswers := mkCans {
  an_password : option bytes; an_key : option pubkey;
  an_prompts : option (list bytes); an_sent : rc }.

(* What can be seen, in order: the callback's questions with its answers, uses
   of a private key, payloads handed to BundlePacket with the size PreparePacket
   was given. *)
Inductive cev :=
| CvPassword (a : option bytes)
| CvKey (a : option pubkey)
| CvPrompts (name instr lang : bytes) (prompts : list (bytes * N)) (a : option (list bytes))
| CvSign (priv msg : bytes)
| CvSend (m : bytes) (est : N).

(* Settings: whether userAuthCb is set, whether the build has
   keyboard-interactive, cannedKeyAlgoClient (4697-4794). *)
Record ccfg := mkCcfg { cc_cb : bool; cc_kb : bool; cc_own : list N }.

(* The fields of WOLFSSH read or written here: userName, sessionId,
   kbAuthAttempts, userAuthPkDone, peerSigId, whether serverState is
   SERVER_USERAUTH_ACCEPT_DONE. *)
Record client := mkClient {
  k_user : bytes; k_sid : bytes; k_tries : N; k_pkdone : bool; k_peer : list N;
  k_done : bool; k_log : list cev }.

Definition set_tries v s := mkClient (k_user s) (k_sid s) v (k_pkdone s) (k_peer s) (k_done s) (k_log s).
Definition set_pkdone v s := mkClient (k_user s) (k_sid s) (k_tries s) v (k_peer s) (k_done s) (k_log s).
Definition set_peer v s := mkClient (k_user s) (k_sid s) (k_tries s) (k_pkdone s) v (k_done s) (k_log s).
Definition set_done v s := mkClient (k_user s) (k_sid s) (k_tries s) (k_pkdone s) (k_peer s) v (k_log s).
Definition clog e s := mkClient (k_user s) (k_sid s) (k_tries s) (k_pkdone s) (k_peer s) (k_done s) (k_log s ++ [e]).

(* src/internal.c:1620-1640 SshInit, on these fields. *)
Definition client_init (user sid : bytes) : client := mkClient user sid 0 false [] false [].

Definition MAX_PACKET_SZ : N := 35000.   (* wolfssh/internal.h *)
Definition name_connection : bytes := IdToName ID_SERVICE_CONNECTION.

(* the authType bits (wolfssh/ssh.h) *)
Record methods := mkMethods { m_password : bool; m_key : bool; m_keyboard : bool }.

(* what SendUserAuthRequest settled on: authId with the callback's data *)
Inductive choice := ChNone | ChPassword (pw : bytes) | ChKeyboard | ChKey (k : pubkey).
Definition choice_id (ch : choice) : N :=
  match ch with
  | ChNone => ID_NONE | ChPassword _ => ID_USERAUTH_PASSWORD
  | ChKeyboard => ID_USERAUTH_KEYBOARD | ChKey _ => ID_USERAUTH_PUBLICKEY
  end.

(* src/internal.c:19346-19412: which method is used. A password request whose
   callback fails falls through to the public key. *)
Definition choose (c : ccfg) (an : canswers) (t : methods) (s : client) : client * option choice :=
  if cc_kb c && m_keyboard t then (s, Some ChKeyboard)
  else if negb (cc_cb c) then (s, None)
  else
    let ask_key s :=
      let s := clog (CvKey (an_key an)) s in
      (s, match an_key an with Some k => Some (ChKey k) | None => None end) in
    if m_password t then
      let s := clog (CvPassword (an_password an)) s in
      match an_password an with
      | Some pw => (s, Some (ChPassword pw))
      | None => if m_key t then ask_key s else (s, None)
      end
    else if m_key t then ask_key s
    else (s, Some ChNone).

(* src/internal.c:17138-17160 PrepareUserAuthRequestPassword. *)
Definition PreparePassword (payloadSz : N) (pw : bytes) : res N :=
  let addSz := 1 + 4 in
  if (MAX_PACKET_SZ <? payloadSz) || (MAX_PACKET_SZ - payloadSz <? addSz)
     || (MAX_PACKET_SZ - payloadSz - addSz <? lenN pw) then RErr WS_BUFFER_E
  else ROk (add32 payloadSz (addSz + lenN pw)).

(* src/internal.c:17162-17186 BuildUserAuthRequestPassword. *)
Definition BuildPassword (pw : bytes) : bytes := [0] ++ c32toa (lenN pw) ++ pw.

Inductive kind := KRsa | KEcc | KEd | KOther.
Definition kind_of (id : N) : option kind :=
  if (id =? ID_SSH_RSA) || (id =? ID_RSA_SHA2_256) || (id =? ID_RSA_SHA2_512) then Some KRsa
  else if (id =? ID_ECDSA_SHA2_NISTP256) || (id =? ID_ECDSA_SHA2_NISTP384) || (id =? ID_ECDSA_SHA2_NISTP521) then Some KEcc
  else if id =? ID_ED25519 then Some KEd
  else if is_mldsa id then Some KOther
  else None.

(* src/internal.c:18845-18862: the signature algorithms that fit a key type;
   ssh-rsa keys sign with SHA-2 only (WOLFSSH_NO_SHA1_SOFT_DISABLE is not
   set). *)
Definition algos_for (keyId : N) : list N :=
  if keyId =? ID_SSH_RSA then [ID_RSA_SHA2_512; ID_RSA_SHA2_256] else [keyId].

(* What PrepareUserAuthRequestPublicKey leaves in WS_KeySignature: sigId,
   sigSz; and the new payload size. *)
Record keysig := mkKeysig { ks_id : N; ks_sz : N; ks_est : N }.

(* src/internal.c:18825-18987 PrepareUserAuthRequestPublicKey with
   PrepareUserAuthRequestRsa 17437-17492, ...Ecc 17882-17954,
   ...Ed25519 18421-18467, ...MlDsa 18580-18650 and ...MlDsaComposite
   22413-22458. A private key that is of another kind than the type says is
   a key that does not load. *)
Definition PrepareKey (sg : signer) (peer : list N) (payloadSz : N) (k : pubkey) : res keysig :=
  let keyId := NameToId (pk_type k) in
  let sigId := MatchIdLists Client (algos_for keyId) peer in
  if sigId =? ID_UNKNOWN then RErr WS_MATCH_KEY_ALGO_E
  else
    let est := add32 payloadSz (1 + 4 * 2 + lenN (IdToName sigId) + lenN (pk_blob k)) in
    let size strings r :=
      match r with
      | None => RErr WS_FATAL_OTHER
      | Some sz => ROk (mkKeysig sigId sz (add32 est (4 * strings + sz + lenN (pk_type k))))
      end in
    (* the switch on keyId has no case for rsa-sha2-256 and rsa-sha2-512 *)
    if keyId =? ID_SSH_RSA then size 3 (s_rsa_size sg (pk_priv k))
    else if (keyId =? ID_RSA_SHA2_256) || (keyId =? ID_RSA_SHA2_512) then RErr WS_INVALID_ALGO_ID
    else match kind_of keyId with
         | Some KEcc => size 5 (s_ecc_size sg (pk_priv k))
         | Some KEd => size 3 (s_ed_size sg (pk_priv k))
         | Some KOther => size 3 (s_other_size sg (IdToName keyId) (pk_priv k))
         | _ => RErr WS_INVALID_ALGO_ID
         end.

(* name and signature as two strings inside a string, 17639-17668,
   18541-18557, 18796-18811, 22596-22611 *)
Definition sig_field (name sig : bytes) : bytes :=
  c32toa (lenN sig + lenN name + 4 * 2) ++ c32toa (lenN name) ++ name ++ c32toa (lenN sig) ++ sig.

(* 18066-18068: a zero byte in front of a number whose top bit is set *)
Definition top_pad (b : bytes) : bytes :=
  match b with x :: _ => if 128 <=? x then [0] else [] | [] => [] end.

(* 18104-18133 *)
Definition ecc_field (name r s : bytes) : bytes :=
  let rPad := top_pad r in
  let sPad := top_pad s in
  c32toa (lenN r + lenN rPad + lenN s + lenN sPad + lenN name + 4 * 4)
  ++ c32toa (lenN name) ++ name
  ++ c32toa (lenN r + lenN rPad + lenN s + lenN sPad + 4 * 2)
  ++ c32toa (lenN r + lenN rPad) ++ rPad ++ r
  ++ c32toa (lenN s + lenN sPad) ++ sPad ++ s.

(* BuildUserAuthRequestRsa 17496-17690, ...Ecc 17957-18160, ...Ed25519
   18470-18576, ...MlDsa 18730-18822, ...MlDsaComposite 22460-22620: the
   signature over checkData and its field. *)
Definition BuildSignature (sg : signer) (k : pubkey) (ks : keysig) (checkData : bytes) : res bytes :=
  match kind_of (ks_id ks) with
  | Some KRsa =>
      match s_rsa sg (pk_priv k) (HashForId (ks_id ks)) checkData with
      | Some sig => if lenN sig =? ks_sz ks then ROk (sig_field (IdToName (ks_id ks)) sig) else RErr WS_FATAL_OTHER
      | None => RErr WS_FATAL_OTHER
      end
  | Some KEcc =>
      match s_ecc sg (pk_priv k) (HashForId (ks_id ks)) checkData with
      | Some (r, s) => ROk (ecc_field (IdToName (ks_id ks)) r s)
      | None => RErr WS_FATAL_OTHER
      end
  | Some KEd =>
      match s_ed sg (pk_priv k) checkData with
      | Some sig => ROk (sig_field (IdToName ID_ED25519) sig)
      | None => RErr WS_FATAL_OTHER
      end
  | Some KOther =>
      match s_other sg (IdToName (ks_id ks)) (pk_priv k) checkData with
      | Some sig => ROk (sig_field (IdToName (ks_id ks)) sig)
      | None => RErr WS_FATAL_OTHER
      end
  | None => RErr WS_INVALID_ALGO_ID
  end.

(* 19003-19110: the name in the request is sigName for RSA, the key's type
   for the others. *)
Definition request_algo (k : pubkey) (ks : keysig) : bytes :=
  match kind_of (ks_id ks) with Some KRsa => IdToName (ks_id ks) | _ => pk_type k end.

(* 19456-19472: the part of the request all methods share, from the message
   number (sigStart) on *)
Definition request_start (user : bytes) (id : N) : bytes :=
  [MSGID_USERAUTH_REQUEST] ++ c32toa (lenN user) ++ user
  ++ c32toa (lenN name_connection) ++ name_connection ++ c32toa (lenN (IdToName id)) ++ IdToName id.

(* src/internal.c:18990-19185 BuildUserAuthRequestPublicKey; [before] is what
   has been written since sigStart, checkData as in 17546-17557. The second
   result is the log entry for the use of the key. *)
Definition BuildKey (sg : signer) (sid before : bytes) (k : pubkey) (ks : keysig) : res bytes * list cev :=
  let algo := request_algo k ks in
  let body := before ++ [1] ++ c32toa (lenN algo) ++ algo ++ c32toa (lenN (pk_blob k)) ++ pk_blob k in
  let checkData := c32toa (lenN sid) ++ sid ++ body in
  (match BuildSignature sg k ks checkData with
   | ROk f => ROk (body ++ f)
   | RErr e => RErr e
   end, [CvSign (pk_priv k) checkData]).

(* BundlePacket and wolfSSH_SendPacket *)
Definition send_payload (an : canswers) (m : bytes) (est : N) (s : client) : client * rc :=
  (clog (CvSend m est) s, an_sent an).

(* src/internal.c:19307-19517 SendUserAuthRequest. *)
Definition SendUserAuthRequest (c : ccfg) (sg : signer) (an : canswers) (t : methods) (s : client) : client * rc :=
  match choose c an t s with
  | (s, None) => (s, WS_FATAL_ERROR)
  | (s, Some ch) =>
      let id := choice_id ch in
      let payloadSz := add32 (1 + 4 * 3) (add32 (lenN (k_user s)) (lenN name_connection + lenN (IdToName id))) in
      let start := request_start (k_user s) id in
      match ch with
      | ChNone => send_payload an start payloadSz s
      | ChPassword pw =>
          match PreparePassword payloadSz pw with
          | RErr e => (s, e)
          | ROk est => send_payload an (start ++ BuildPassword pw) est s
          end
      | ChKeyboard =>
          let s := set_tries (add32 (k_tries s) 1 mod 256) s in
          send_payload an (start ++ c32toa 0 ++ c32toa 0) payloadSz s
      | ChKey k =>
          if k_pkdone s then (s, WS_INVALID_ALGO_ID)
          else
            let s := set_pkdone true s in
            match PrepareKey sg (k_peer s) payloadSz k with
            | RErr e => (s, e)
            | ROk ks =>
                let '(r, ev) := BuildKey sg (k_sid s) start k ks in
                let s := fold_left (fun s e => clog e s) ev s in
                match r with
                | RErr e => (s, e)
                | ROk m => send_payload an m (ks_est ks) s
                end
            end
      end
  end.

(* Result of a message handler, as in AuthModel. *)
Inductive chres := CR (s : client) (r : rc) (idx : N) | COob.

(* wolfssh/internal.h 1027, src/internal.c:1630-1637 supportedAuth, without
   the empty slots; the switch of 10510-10532 has no case for them. *)
Definition supportedAuth (c : ccfg) : list N :=
  [ID_USERAUTH_PUBLICKEY; ID_USERAUTH_PASSWORD] ++ (if cc_kb c then [ID_USERAUTH_KEYBOARD] else []).

(* The list as GetNameList leaves it in authList (10480-10487, four entries
   with keyboard-interactive and three without). In builds without
   keyboard-interactive the table has no row for that name (3546-3548): it is
   an unknown name, kept only in front. *)
Definition auth_ids (c : ccfg) (ids : list N) : res (list N) :=
  let ids :=
    if cc_kb c then ids
    else match ids with
         | [] => []
         | x :: r => (if x =? ID_USERAUTH_KEYBOARD then ID_UNKNOWN else x)
                     :: filter (fun y => negb (y =? ID_USERAUTH_KEYBOARD)) r
         end in
  if (if cc_kb c then 4 else 3) <? lenN ids then RErr WS_BUFFER_E else ROk ids.

(* src/internal.c:10476-10548 DoUserAuthFailure. *)
Definition DoUserAuthFailure (c : ccfg) (sg : signer) (an : canswers) (buf : bytes) (s : client) : chres :=
  let len := lenN buf in
  if len =? 0 then CR s WS_BAD_ARGUMENT 0
  else
    match (ids <-[ i ] GetNameList MAX_NAMELIST_CNT buf len 0 ;
           match auth_ids c ids with
           | RErr e => PErr e i
           | ROk ids => b <-[ i ] GetBoolean buf len i ; POk ids i
           end) with
    | POob => COob
    | PErr e i => CR s e i
    | POk ids i =>
        let has id := existsb (N.eqb id) ids && existsb (N.eqb id) (supportedAuth c) in
        let t := mkMethods (has ID_USERAUTH_PASSWORD) (has ID_USERAUTH_PUBLICKEY)
                           (has ID_USERAUTH_KEYBOARD && (k_tries s <? 3)) in
        if negb (m_password t || m_key t || m_keyboard t) then CR s WS_USER_AUTH_E i
        else let '(s, r) := SendUserAuthRequest c sg an t s in CR s r i
    end.

(* src/internal.c:10550-10565 DoUserAuthSuccess. *)
Definition DoUserAuthSuccess (buf : bytes) (s : client) : chres :=
  if negb (lenN buf =? 0) then CR s WS_BAD_ARGUMENT 0 else CR (set_done true s) WS_SUCCESS 0.

(* 10650-10662: one prompt and whether to echo the answer; GetStringAlloc ends
   the text with a NUL, the callback sees a C string *)
Fixpoint get_prompts (n : nat) (buf : bytes) (len idx : N) : pres (list (bytes * N)) :=
  match n with
  | O => POk [] idx
  | S k =>
      p <-[ i ] GetStringAlloc buf len idx ;
      e <-[ i ] GetBoolean buf len i ;
      r <-[ i ] get_prompts k buf len i ;
      POk ((cstr p, e) :: r) i
  end.

(* src/internal.c:19191-19303 SendUserAuthKeyboardResponse with
   PrepareUserAuthResponseKeyboard and BuildUserAuthResponseKeyboard
   17378-17434. *)
Definition SendUserAuthKeyboardResponse (c : ccfg) (an : canswers) (name instr lang : bytes)
    (prompts : list (bytes * N)) (s : client) : client * rc :=
  if negb (cc_cb c) then (s, WS_INVALID_STATE_E)
  else
    let s := clog (CvPrompts name instr lang prompts (an_prompts an)) s in
    match an_prompts an with
    | None => (s, WS_FATAL_ERROR)
    | Some rs =>
        if negb (lenN prompts =? lenN rs) then (s, WS_USER_AUTH_E)
        else
          let est := fold_left (fun n r => add32 n (4 + lenN r)) rs (add32 1 4) in
          send_payload an ([61] ++ c32toa (lenN rs) ++ concat (map (fun r => c32toa (lenN r) ++ r) rs)) est s
    end.

(* src/internal.c:10600-10705 DoUserAuthInfoRequest. On failure *idx is not
   moved. *)
Definition DoUserAuthInfoRequest (c : ccfg) (an : canswers) (buf : bytes) (s : client) : chres :=
  let len := lenN buf in
  if len =? 0 then CR s WS_BAD_ARGUMENT 0
  else
    match (name <-[ i ] GetStringAlloc buf len 0 ;
           instr <-[ i ] GetStringAlloc buf len i ;
           lang <-[ i ] GetStringAlloc buf len i ;
           n <-[ i ] GetUint32 buf len i ;
           if MAX_PROMPTS <? n then PErr WS_USER_AUTH_E i
           else ps <-[ i ] get_prompts (N.to_nat n) buf len i ;
                POk (cstr name, cstr instr, cstr lang, ps) i) with
    | POob => COob
    | PErr e _ => CR s e 0
    | POk (name, instr, lang, ps) _ =>
        let '(s, r) := SendUserAuthKeyboardResponse c an name instr lang ps s in CR s r len
    end.

(* src/internal.c:8294-8356 ClearPeerSigId, DoExtInfoServerSigAlgs. *)
Definition DoExtInfoServerSigAlgs (c : ccfg) (names : bytes) (s : client) : client * rc :=
  match GetNameListRaw MAX_NAMELIST_CNT names with
  | RErr e => (s, e)
  | ROk ids =>
      if lenN ids =? 0 then (set_peer [] s, WS_SUCCESS)
      else if MatchIdLists Client ids (cc_own c) =? ID_UNKNOWN then (set_peer [] s, WS_SUCCESS)
      else (set_peer ids s, WS_SUCCESS)
  end.

(* src/internal.c:8359-8383 DoExtInfo. The loop on extCount stops at the first
   failure; each round reads at least eight bytes, so [fuel] rounds are enough
   when fuel is the length of the message. *)
Fixpoint ext_loop (c : ccfg) (fuel : nat) (n : N) (buf : bytes) (idx : N) (s : client) : chres :=
  if n =? 0 then CR s WS_SUCCESS idx
  else
    match fuel with
    | O => CR s WS_BUFFER_E idx
    | S f =>
        match (nm <-[ i ] GetStr buf (lenN buf) idx ;
               v <-[ i ] GetStr buf (lenN buf) i ;
               POk (nm, v) i) with
        | POob => COob
        | PErr e i => CR s e i
        | POk (nm, v) i =>
            if NameToId nm =? ID_EXTINFO_SERVER_SIG_ALGS then
              match DoExtInfoServerSigAlgs c v s with
              | (s, WS_SUCCESS) => ext_loop c f (n - 1) buf i s
              | (s, e) => CR s e i
              end
            else ext_loop c f (n - 1) buf i s
        end
    end.
Definition DoExtInfo (c : ccfg) (buf : bytes) (s : client) : chres :=
  match GetUint32 buf (lenN buf) 0 with
  | POob => COob
  | PErr e i => CR s e i
  | POk n i => ext_loop c (length buf) n buf i s
  end.

(* The messages of a server that concern user authentication, as DoPacket
   hands them over (payload without the message number). *)
Inductive smsg := SExtInfo (b : bytes) | SFailure (b : bytes) | SSuccess (b : bytes) | SInfoRequest (b : bytes).

(* One message. In builds without keyboard-interactive INFO_REQUEST has no
   handler: DoPacket answers it with UNIMPLEMENTED, and nothing here changes. *)
Definition client_step (c : ccfg) (sg : signer) (m : smsg) (an : canswers) (s : client) : chres :=
  match m with
  | SExtInfo b => DoExtInfo c b s
  | SFailure b => DoUserAuthFailure c sg an b s
  | SSuccess b => DoUserAuthSuccess b s
  | SInfoRequest b => if cc_kb c then DoUserAuthInfoRequest c an b s else CR s WS_SUCCESS 0
  end.

(* src/ssh.c:968-986: after SERVICE_ACCEPT wolfSSH_connect sends the first
   request, with authType ID_NONE. *)
Definition first_request (c : ccfg) (sg : signer) (an : canswers) (s : client) : client * rc :=
  SendUserAuthRequest c sg an (mkMethods false false false) s.
