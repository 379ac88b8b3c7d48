(* HsModel.v - the connection state machine: the message filters, packet
   dispatch, key exchange, accept, connect, worker.
   Models src/ssh.c 559-811, 822-1101, 1165-1180, 3390-3463 and src/internal.c
   544-619, 685-909, 4262-4319, 5273-5678, 5881-5940, 7221-7624, 7675-7816,
   7943-8025, 8229-8290, 10565, 12109-12400, 12811-12957, 13324-13486,
   15584-16278, 16281-16685.

   What packets carry, how the transport answers, what the negotiation, the
   key agreement and the application's callbacks decide is given by arguments
   ([slot], [hans], the answer lists in the state), over which the theorems
   quantify. Framing, ciphers and MACs are in PacketModel, the negotiation in
   NegoModel, channels in ChanModel; here a received packet is its message
   number and payload. Not modelled: allocation failures other than while a
   message is being built; the agent channel accept opens (ssh.c 741-786);
   CipherSetKey failures. *)
From Verif Require Import Base WireModel NameTable NegoModel AuthModel.
From Coq Require Import List NArith Bool.
Import ListNotations.
Open Scope N_scope.

(* wolfssh/internal.h 1661-1711 *)
Definition MSG_SERVICE_REQUEST : N := 5.
Definition MSG_SERVICE_ACCEPT : N := 6.
Definition MSG_KEXINIT : N := 20.
Definition MSG_NEWKEYS : N := 21.
Definition MSG_KEXDH_INIT : N := 30.
Definition MSG_KEXDH_REPLY : N := 31.        (* also GEX_GROUP *)
Definition MSG_GEX_INIT : N := 32.
Definition MSG_GEX_REPLY : N := 33.
Definition MSG_GEX_REQUEST : N := 34.
Definition MSG_USERAUTH_REQUEST : N := 50.
Definition MSG_USERAUTH_SUCCESS : N := 52.
Definition MSG_INFO_REQUEST : N := 60.
Definition MSG_INFO_RESPONSE : N := 61.
Definition MSG_GLOBAL_REQUEST : N := 80.
Definition MSG_CHANNEL_OPEN : N := 90.
Definition MSG_OPEN_CONF : N := 91.
Definition MSG_OPEN_FAIL : N := 92.
Definition MSG_CLOSE : N := 97.
Definition MSG_REQUEST : N := 98.
Definition MSG_SUCCESS : N := 99.

(* AcceptStates (internal.h 1582), ConnectStates (1606), ClientStates (1630) and
   ServerStates (1642) are the numbers in the code. *)
Definition ACCEPT_KEYED : N := 4.
Definition ACCEPT_SERVER_USERAUTH_SENT : N := 8.
Definition ACCEPT_DONE : N := 10.   (* CLIENT_SESSION_ESTABLISHED *)
Definition ACCEPT_INIT_SCP : N := 11.
Definition ACCEPT_INIT_SFTP : N := 12.
Definition CONNECT_USERAUTH_REQUEST_SENT : N := 7.
Definition CONNECT_USERAUTH_ACCEPT_DONE : N := 10.
Definition CONNECT_DONE : N := 16.  (* SERVER_CHANNEL_REQUEST_DONE *)

(* Messages this side produces, by kind. *)
Inductive out :=
| OVersion | OKexInit | OGexRequest | OGexGroup | ODhInit (gex : bool) | ODhReply | ONewKeys
| OServiceRequest | OServiceAccept | OAuthSuccess | OAuthRequest | OChanOpen | OChanRequest | OOther.

(* What happened, for the theorems; nothing in the model reads the log.
   [ESent k o]: message o was put in the output buffer; k is the state of
   accept or connect whose own message it is. *)
Inductive ev :=
| EVersion                                    (* the peer's version line was accepted *)
| EAct (m : N) (p : bytes)                    (* a received message passed the filter *)
| ESent (k : option N) (o : out)
| EStepFailed (k : N)                         (* accept/connect could not build its message *)
| EHash (H : bytes)                           (* exchange hash computed *)
| EHostKey (key : bytes) (ok : bool)          (* publicKeyCheckCb *)
| EVerified (key sig H : bytes)               (* host signature verified *)
| EAgreed (client : bool) (H : bytes)         (* GenerateKeys done *)
| EKeysIn (H : option bytes)                  (* receive keys put in use, and the exchange they are from *)
| EKeysOut (H : option bytes)                 (* send keys put in use *)
| EAuth (e : event)                           (* user authentication, AuthModel *)
| EChanOpen | EChanConf | EChanReq | EChanOk  (* peer's open accepted, our open confirmed, request, success *)
| ECrash.                                     (* ssh->handshake dereferenced while NULL *)

(* A received packet: message number and payload, or one DoPacket refuses
   before looking at the message number (12127-12156). *)
Inductive pkt := PMsg (m : N) (p : bytes) | PBad (e : rc).

(* How wolfSSH_SendPacket (4262-4319) ends: everything sent - and then
   HighwaterCheck (581-619) finds a mark crossed and the callback starts a key
   exchange, or not -, would block, or failed with or without the output kept. *)
Inductive ioans := IoOk (fire : bool) | IoBlock | IoErr (keep : bool).

(* HandshakeInfo, the fields that matter here. h_kex: kexId once chosen, true
   for group exchange. h_hash: kexHashId is set. h_agreed: GenerateKeys has
   filled in the keys, from this exchange hash. *)
Record hand := mkHand {
  h_expect : option N; h_kex : option bool; h_skip : bool; h_hash : bool; h_agreed : option bytes }.
(* src/internal.c:622-646 HandshakeInfoNew *)
Definition hand0 := mkHand None None false false None.
Definition hw_expect v h := mkHand v (h_kex h) (h_skip h) (h_hash h) (h_agreed h).
Definition hw_kex v h := mkHand (h_expect h) v (h_skip h) (h_hash h) (h_agreed h).
Definition hw_skip v h := mkHand (h_expect h) (h_kex h) v (h_hash h) (h_agreed h).
Definition hw_hash v h := mkHand (h_expect h) (h_kex h) (h_skip h) v (h_agreed h).
Definition hw_agreed v h := mkHand (h_expect h) (h_kex h) (h_skip h) (h_hash h) v.

(* The fields of WOLFSSH: acceptState, connectState, serverState, isKeying's
   two bits, handshake, error, whether outputBuffer is non-empty, the packet
   left at PROCESS_PACKET, the high-water marks not yet reported, the number of
   channels, the authentication fields (with clientState and sessionId), the
   answers still to come when a message is built and when output is flushed. *)
Record hs := mkHs {
  s_acc : N; s_con : N; s_srv : N; s_kself : bool; s_kpeer : bool; s_hand : option hand; s_err : rc; s_pend : bool; s_held : option pkt; s_marks : nat; s_chans : N; s_auth : auth; s_q : list bool; s_io : list ioans; s_log : list ev }.

Definition w_acc v s := mkHs v (s_con s) (s_srv s) (s_kself s) (s_kpeer s) (s_hand s) (s_err s) (s_pend s) (s_held s) (s_marks s) (s_chans s) (s_auth s) (s_q s) (s_io s) (s_log s).
Definition w_con v s := mkHs (s_acc s) v (s_srv s) (s_kself s) (s_kpeer s) (s_hand s) (s_err s) (s_pend s) (s_held s) (s_marks s) (s_chans s) (s_auth s) (s_q s) (s_io s) (s_log s).
Definition w_srv v s := mkHs (s_acc s) (s_con s) v (s_kself s) (s_kpeer s) (s_hand s) (s_err s) (s_pend s) (s_held s) (s_marks s) (s_chans s) (s_auth s) (s_q s) (s_io s) (s_log s).
Definition w_kself v s := mkHs (s_acc s) (s_con s) (s_srv s) v (s_kpeer s) (s_hand s) (s_err s) (s_pend s) (s_held s) (s_marks s) (s_chans s) (s_auth s) (s_q s) (s_io s) (s_log s).
Definition w_kpeer v s := mkHs (s_acc s) (s_con s) (s_srv s) (s_kself s) v (s_hand s) (s_err s) (s_pend s) (s_held s) (s_marks s) (s_chans s) (s_auth s) (s_q s) (s_io s) (s_log s).
Definition w_hand v s := mkHs (s_acc s) (s_con s) (s_srv s) (s_kself s) (s_kpeer s) v (s_err s) (s_pend s) (s_held s) (s_marks s) (s_chans s) (s_auth s) (s_q s) (s_io s) (s_log s).
Definition w_err v s := mkHs (s_acc s) (s_con s) (s_srv s) (s_kself s) (s_kpeer s) (s_hand s) v (s_pend s) (s_held s) (s_marks s) (s_chans s) (s_auth s) (s_q s) (s_io s) (s_log s).
Definition w_pend v s := mkHs (s_acc s) (s_con s) (s_srv s) (s_kself s) (s_kpeer s) (s_hand s) (s_err s) v (s_held s) (s_marks s) (s_chans s) (s_auth s) (s_q s) (s_io s) (s_log s).
Definition w_held v s := mkHs (s_acc s) (s_con s) (s_srv s) (s_kself s) (s_kpeer s) (s_hand s) (s_err s) (s_pend s) v (s_marks s) (s_chans s) (s_auth s) (s_q s) (s_io s) (s_log s).
Definition w_marks v s := mkHs (s_acc s) (s_con s) (s_srv s) (s_kself s) (s_kpeer s) (s_hand s) (s_err s) (s_pend s) (s_held s) v (s_chans s) (s_auth s) (s_q s) (s_io s) (s_log s).
Definition w_chans v s := mkHs (s_acc s) (s_con s) (s_srv s) (s_kself s) (s_kpeer s) (s_hand s) (s_err s) (s_pend s) (s_held s) (s_marks s) v (s_auth s) (s_q s) (s_io s) (s_log s).
Definition w_auth v s := mkHs (s_acc s) (s_con s) (s_srv s) (s_kself s) (s_kpeer s) (s_hand s) (s_err s) (s_pend s) (s_held s) (s_marks s) (s_chans s) v (s_q s) (s_io s) (s_log s).
Definition w_q v s := mkHs (s_acc s) (s_con s) (s_srv s) (s_kself s) (s_kpeer s) (s_hand s) (s_err s) (s_pend s) (s_held s) (s_marks s) (s_chans s) (s_auth s) v (s_io s) (s_log s).
Definition w_io v s := mkHs (s_acc s) (s_con s) (s_srv s) (s_kself s) (s_kpeer s) (s_hand s) (s_err s) (s_pend s) (s_held s) (s_marks s) (s_chans s) (s_auth s) (s_q s) v (s_log s).
Definition w_log v s := mkHs (s_acc s) (s_con s) (s_srv s) (s_kself s) (s_kpeer s) (s_hand s) (s_err s) (s_pend s) (s_held s) (s_marks s) (s_chans s) (s_auth s) (s_q s) (s_io s) v.

Definition logev e s := w_log (e :: s_log s) s.
Definition client_state s := a_client (s_auth s).
Definition w_client v s := w_auth (set_client v (s_auth s)) s.
Definition set_sid v (a : auth) := mkAuth (a_user a) (a_authId a) (a_requests a) (a_failures a) (a_max a) (a_pending a) (a_prompts a) (a_client a) v (a_log a) (a_ans a).
Definition set_log v (a : auth) := mkAuth (a_user a) (a_authId a) (a_requests a) (a_failures a) (a_max a) (a_pending a) (a_prompts a) (a_client a) (a_sid a) v (a_ans a).
Definition keying s := s_kself s || s_kpeer s.
Definition on_hand (f : hand -> hand) s := w_hand (option_map f (s_hand s)) s.

(* What does not change: the side, whether a private key is loaded
   (privateKeyCount), whether publicKeyCheckCb is set, the authentication
   settings, and the check of the host's signature: parsing the key blob and
   the signature field and verifying it over the exchange hash (7441-7597,
   ParsePubKey 6560-6655). *)
Record hcfg := mkHcfg {
  c_side : side; c_key : bool; c_check : bool; c_auth : acfg; c_crypto : crypto;
  c_hostsig : bytes -> bytes -> bytes -> bool }.

(* How DoKexInit's parsing and negotiation (5326-5592) ends. NFail: it fails,
   after or before the key exchange method was chosen; with no common
   algorithm or a malformed message. *)
Inductive nego := NOk (gex wrong_guess : bool) | NFail (chosen : option bool) (nomatch : bool).

(* Answers for one DoPacket call (or one call of accept/connect): return code,
   number of messages sent and whether output is purged by a handler that is
   not modelled; whether a message was acceptable; negotiation; exchange hash;
   host key callback; signing and key generation; channels owed window credit;
   EXT_INFO wanted; authentication callbacks; prompts; high-water mark on
   receive. *)
Record hans := mkHans {
  ha_ret : rc; ha_sends : nat; ha_purge : bool; ha_yes : bool; ha_nego : nego; ha_init : bool;
  ha_hash : option bytes; ha_cb : bool; ha_mid : bool; ha_owe : nat; ha_ext : bool;
  ha_auth : answers; ha_prompts : N; ha_hw : bool }.

(* PreparePacket and BundlePacket for one message; [own] is the state of
   accept or connect that sends it. *)
Definition queue (own : option N) (o : out) (s : hs) : hs * bool :=
  match s_q s with
  | false :: t =>
      let s := w_q t s in
      (match own with Some k => logev (EStepFailed k) s | None => s end, false)
  | true :: t => (logev (ESent own o) (w_pend true (w_q t s)), true)
  | [] => (logev (ESent own o) (w_pend true s), true)
  end.

(* src/internal.c:13225-13233 PurgePacket *)
Definition purge (s : hs) : hs := w_pend false s.

(* src/internal.c:13324-13486 SendKexInit, with the function that flushes. *)
Definition kexinit_with (c : hcfg) (own : option N) (fl : hs -> hs * rc) (s : hs) : hs * rc :=
  if (match c_side c with Server => negb (c_key c) | Client => false end) then
    (purge (match own with Some k => logev (EStepFailed k) s | None => s end), WS_BAD_ARGUMENT)
  else
    let s := w_kself true s in
    let s := w_hand (Some (match s_hand s with Some h => h | None => hand0 end)) s in
    let '(s, ok) := queue own OKexInit s in
    let '(s, r) := if ok then fl s else (s, WS_MEMORY_E) in
    match r with
    | WS_SUCCESS | WS_WANT_WRITE => (s, r)
    | _ => (purge s, r)
    end.

(* HighwaterCheck firing with n marks left to report, and wolfSSH_SendPacket.
   Each mark is reported once per key (highwaterFlag, msgHighwaterFlag), which
   bounds the recursion SendPacket - HighwaterCheck - wsHighwater 544-560 -
   wolfSSH_TriggerKeyExchange (ssh.c 1165-1180) - SendKexInit - SendPacket. *)
Fixpoint flush_n (n : nat) (c : hcfg) (s : hs) : hs * rc :=
  match s_io s with
  | IoBlock :: t => (w_err WS_WANT_WRITE (w_io t s), WS_WANT_WRITE)
  | IoErr keep :: t => (w_pend (s_pend s && keep) (w_io t s), WS_SOCKET_ERROR_E)
  | IoOk true :: t =>
      let s := w_pend false (w_io t s) in
      match n with
      | O => (s, WS_SUCCESS)
      | S n =>
          let '(s, r) := kexinit_with c None (flush_n n c) (w_marks n s) in
          (w_err r s, r)
      end
  | IoOk false :: t => (w_pend false (w_io t s), WS_SUCCESS)
  | [] => (w_pend false s, WS_SUCCESS)
  end.
Definition flush (c : hcfg) (s : hs) : hs * rc := flush_n (s_marks s) c s.
Definition SendKexInit (c : hcfg) (own : option N) (s : hs) : hs * rc := kexinit_with c own (flush c) s.

(* src/ssh.c:1165-1180 wolfSSH_TriggerKeyExchange *)
Definition Trigger (c : hcfg) (s : hs) : hs * rc :=
  let '(s, r) := SendKexInit c None s in (w_err r s, r).

(* HighwaterCheck at the end of DoPacket, 12391-12396 *)
Definition highwater (c : hcfg) (fire : bool) (s : hs) : hs * rc :=
  if fire then match s_marks s with
               | O => (s, WS_SUCCESS)
               | S n => Trigger c (w_marks n s)
               end
  else (s, WS_SUCCESS).

(* A message without influence on the states: build and flush. *)
Definition send1 (c : hcfg) (own : option N) (o : out) (s : hs) : hs * rc :=
  let '(s, ok) := queue own o s in
  if ok then flush c s else (s, WS_MEMORY_E).

(* n of them; the first failure is the result. *)
Fixpoint sends (c : hcfg) (n : nat) (s : hs) : hs * rc :=
  match n with
  | O => (s, WS_SUCCESS)
  | S n =>
      let '(s, r) := send1 c None OOther s in
      let '(s, r2) := sends c n s in
      (s, if rc_eqb r WS_SUCCESS then r2 else r)
  end.

(* src/internal.c:7675-7710 SendPendingChannelWindowAdjust; n channels have
   credit to announce. *)
Definition credits (c : hcfg) (n : nat) (s : hs) : hs * rc :=
  if keying s then (s, WS_SUCCESS)
  else
    let saved := s_err s in
    let '(s, r) := sends c n s in
    (w_err (if rc_eqb r WS_SUCCESS then saved else r) s, r).

(* src/internal.c:16147-16205 SendNewKeys *)
Definition SendNewKeys (c : hcfg) (a : hans) (s : hs) : hs * rc :=
  let '(s, ok) := queue None ONewKeys s in
  if negb ok then (s, WS_MEMORY_E)
  else match s_hand s with
       | None => (logev ECrash s, WS_FATAL_OTHER)
       | Some h =>
           let s := logev (EKeysOut (h_agreed h)) s in
           let '(s, r) := flush c s in
           let s := w_kself false s in
           let '(s, r2) := credits c (ha_owe a) s in
           (s, if rc_eqb r WS_SUCCESS then r2 else r)
       end.

(* The exchange hash: kexHashId is cleared, the session identifier is set if
   this is the first one (15825-15853, 7447-7461). A digest is not empty. *)
Definition new_hash (H : bytes) (s : hs) : hs :=
  let s := logev (EHash H) (on_hand (hw_hash false) s) in
  if lenN (a_sid (s_auth s)) =? 0 then w_auth (set_sid H (s_auth s)) s else s.

(* src/internal.c:15584-16144 SendKexDhReply. ha_hash: the key agreement
   (15740-15850); ha_mid: SignH and GenerateKeys (15856-15916). *)
Definition SendKexDhReply (c : hcfg) (a : hans) (s : hs) : hs * rc :=
  let fail s r := match r with
                  | WS_SUCCESS | WS_WANT_WRITE => (s, r)
                  | _ => (purge s, r)
                  end in
  match s_hand s with
  | None => fail s WS_BAD_ARGUMENT
  | Some h =>
      match h_hash h, ha_hash a with
      | true, Some (b :: H) =>
          let s := new_hash (b :: H) s in
          if negb (ha_mid a) then fail s WS_CRYPTO_FAILED
          else
            let s := logev (EAgreed false (b :: H)) (on_hand (hw_agreed (Some (b :: H))) s) in
            let '(s, ok) := queue None ODhReply s in
            if negb ok then fail s WS_MEMORY_E
            else
              let s := on_hand (hw_expect (Some MSG_NEWKEYS)) s in
              let '(s, r) := SendNewKeys c a s in
              let '(s, r) := if rc_eqb r WS_SUCCESS && ha_ext a then send1 c None OOther s else (s, r) in
              fail s r
      | _, _ => fail s WS_CRYPTO_FAILED
      end
  end.

(* src/internal.c:16384-16685 SendKexDhInit. ha_mid: making the ephemeral key. *)
Definition SendKexDhInit (c : hcfg) (own : option N) (a : hans) (s : hs) : hs * rc :=
  let failed s := match own with Some k => logev (EStepFailed k) s | None => s end in
  match s_hand s with
  | None => (logev ECrash s, WS_FATAL_OTHER)
  | Some h =>
      match h_kex h with
      | None => (failed s, WS_INVALID_ALGO_ID)
      | Some gex =>
          if negb (ha_mid a) then (failed s, WS_CRYPTO_FAILED)
          else
            let '(s, ok) := queue own (ODhInit gex) s in
            if negb ok then (s, WS_MEMORY_E)
            else flush c (on_hand (hw_expect (Some (if gex then MSG_GEX_REPLY else MSG_KEXDH_REPLY))) s)
      end
  end.

(* src/internal.c:16209-16278 SendKexDhGexRequest. ha_mid: the bounds. *)
Definition SendKexDhGexRequest (c : hcfg) (own : option N) (a : hans) (s : hs) : hs * rc :=
  let failed s := match own with Some k => logev (EStepFailed k) s | None => s end in
  match s_hand s with
  | None => (failed s, WS_BAD_ARGUMENT)
  | Some h =>
      if negb (ha_mid a) then (failed s, WS_DH_SIZE_E)
      else
        let '(s, ok) := queue own OGexRequest s in
        if negb ok then (s, WS_MEMORY_E)
        else flush c (on_hand (hw_expect (Some MSG_KEXDH_REPLY)) s)
  end.

(* src/internal.c:16281-16380 SendKexDhGexGroup. ha_mid: SelectKexDhGexGroup. *)
Definition SendKexDhGexGroup (c : hcfg) (a : hans) (s : hs) : hs * rc :=
  match s_hand s with
  | None => (s, WS_BAD_ARGUMENT)
  | Some h =>
      if negb (ha_mid a) then (s, WS_DH_SIZE_E)
      else
        let '(s, ok) := queue None OGexGroup s in
        if negb ok then (s, WS_MEMORY_E)
        else flush c (on_hand (hw_expect (Some MSG_GEX_INIT)) s)
  end.

(* the client's first message of the method chosen, 12193-12202 and ssh.c
   922-931 *)
Definition SendKexFirst (c : hcfg) (own : option N) (a : hans) (s : hs) : hs * rc :=
  match s_hand s with
  | None => (logev ECrash s, WS_FATAL_OTHER)
  | Some h =>
      match h_kex h with
      | Some true => SendKexDhGexRequest c own a s
      | _ => SendKexDhInit c own a s
      end
  end.

(* src/internal.c:5273-5678 DoKexInit. ha_init: the wc_Hash calls. *)
Definition DoKexInit (c : hcfg) (a : hans) (p : bytes) (s : hs) : hs * rc :=
  if lenN p =? 0 then (s, WS_BAD_ARGUMENT)
  else if s_kpeer s then (s, WS_INVALID_STATE_E)
  else
    let s := w_kpeer true s in
    let s := w_hand (Some (match s_hand s with Some h => h | None => hand0 end)) s in
    match ha_nego a with
    | NFail chosen nomatch =>
        let s := match chosen with
                 | Some gex => on_hand (fun h => hw_hash true (hw_kex (Some gex) h)) s
                 | None => s
                 end in
        if nomatch then (fst (send1 c None OOther s), WS_MATCH_KEX_ALGO_E) else (s, WS_PARSE_E)
    | NOk gex wrong =>
        let s := on_hand (fun h => hw_skip (h_skip h || wrong) (hw_hash true (hw_kex (Some gex) h))) s in
        let '(s, r) := if s_kself s then (s, WS_SUCCESS) else SendKexInit c None s in
        match r with
        | WS_SUCCESS | WS_WANT_WRITE =>
            if negb (ha_init a) then (s, WS_CRYPTO_FAILED)
            else
              let s := match c_side c with Server => w_client 2 s | Client => w_srv 2 s end in
              (s, s_err s)
        | _ => (s, r)
        end
    end.

(* src/internal.c:5881-5892 SkipGuessedKexMsg and the argument checks of the
   handlers that use it *)
Definition guarded (p : bytes) (s : hs) (k : hand -> hs * rc) : hs * rc :=
  match s_hand s with
  | None => (s, WS_BAD_ARGUMENT)
  | Some h =>
      if lenN p =? 0 then (s, WS_BAD_ARGUMENT)
      else if h_skip h then (on_hand (hw_skip false) s, WS_SUCCESS)
      else k h
  end.

(* src/internal.c:5894-5940 DoKexDhInit; ha_yes: e is well formed and fits. *)
Definition DoKexDhInit (c : hcfg) (a : hans) (p : bytes) (s : hs) : hs * rc :=
  guarded p s (fun _ =>
    if ha_yes a then SendKexDhReply c a (w_client 3 s) else (s, WS_FATAL_OTHER)).

(* src/internal.c:7253-7268, 7379-7404: the host key, then f and the
   signature. *)
Definition reply_key (p : bytes) : pres bytes :=
  if lenN p <? 8 then PErr WS_BUFFER_E 0
  else sz <-[ i ] GetUint32 p (lenN p) 0 ;
       if sub32 (sub32 (lenN p) 4) i <? sz then PErr WS_BUFFER_E i
       else match rdn p i sz with Some k => POk k (add32 i sz) | None => POob end.
Definition reply_sig (p : bytes) (i : N) : pres bytes :=
  fSz <-[ i ] GetUint32 p (lenN p) i ;
  if sub32 (lenN p) i <? fSz then PErr WS_PARSE_E i
  else sz <-[ i ] GetUint32 p (lenN p) (add32 i fSz) ;
       if sub32 (lenN p) i <? sz then PErr WS_PARSE_E i
       else match rdn p i sz with Some b => POk b (add32 i sz) | None => POob end.

(* src/internal.c:7221-7624 DoKexDhReply. ha_cb: the callback's answer;
   ha_hash: KeyAgree_client and the hash; ha_mid: GenerateKeys. The host key
   is parsed before the hash is complete in the code (7418), which changes
   nothing but the error code and whether the hash is computed. *)
Definition DoKexDhReply (c : hcfg) (a : hans) (p : bytes) (s : hs) : hs * rc :=
  guarded p s (fun h =>
    match reply_key p with
    | POk key i =>
        if negb (c_check c) then (s, WS_FATAL_OTHER)
        else
          let s := logev (EHostKey key (ha_cb a)) s in
          if negb (ha_cb a) then (s, WS_FATAL_OTHER)
          else match reply_sig p i with
               | POk sig _ =>
                   match h_hash h, ha_hash a with
                   | true, Some (b :: H) =>
                       let s := new_hash (b :: H) s in
                       if c_hostsig c key sig (b :: H) then
                         let s := logev (EVerified key sig (b :: H)) s in
                         if ha_mid a then
                           let s := logev (EAgreed true (b :: H))
                                      (on_hand (fun h => hw_expect (Some MSG_NEWKEYS) (hw_agreed (Some (b :: H)) h)) s) in
                           SendNewKeys c a s
                         else (s, WS_CRYPTO_FAILED)
                       else (s, WS_CRYPTO_FAILED)
                   | _, _ => (s, WS_CRYPTO_FAILED)
                   end
               | _ => (s, WS_PARSE_E)
               end
    | _ => (s, WS_BUFFER_E)
    end).

(* src/internal.c:7713-7763 DoNewKeys *)
Definition DoNewKeys (c : hcfg) (a : hans) (p : bytes) (s : hs) : hs * rc :=
  match s_hand s with
  | None => (s, WS_BAD_ARGUMENT)
  | Some h =>
      if negb (lenN p =? 0) then (s, WS_BAD_ARGUMENT)
      else if s_kself s then (s, WS_INVALID_STATE_E)
      else
        let s := logev (EKeysIn (h_agreed h)) s in
        let s := w_hand None (w_kpeer false (w_marks 2 s)) in
        credits c (ha_owe a) s
  end.

(* src/internal.c:7768-7806 DoKexDhGexRequest and 7943-8025 DoKexDhGexGroup;
   ha_yes: the message is well formed, the group valid. *)
Definition DoKexDhGexRequest (c : hcfg) (a : hans) (p : bytes) (s : hs) : hs * rc :=
  guarded p s (fun _ => if ha_yes a then SendKexDhGexGroup c a s else (s, WS_BUFFER_E)).
Definition DoKexDhGexGroup (c : hcfg) (a : hans) (p : bytes) (s : hs) : hs * rc :=
  guarded p s (fun _ => if ha_yes a then SendKexDhInit c None a s else (s, WS_DH_SIZE_E)).

(* "ssh-userauth" and the NUL that GetString adds *)
Definition userauth_name : bytes := [115;115;104;45;117;115;101;114;97;117;116;104;0].
Definition names_userauth (p : bytes) : bool :=
  match GetString 33 p (lenN p) 0 with
  | POk n _ => bytes_eqb n userauth_name
  | _ => false
  end.

(* A handler that is not modelled: messages sent, output purged, a result. *)
Definition other (c : hcfg) (a : hans) (s : hs) : hs * rc :=
  let s := fst (sends c (ha_sends a) s) in
  (if ha_purge a then purge s else s, ha_ret a).

(* DoServiceRequest 8229-8256, DoServiceAccept 8261-8288 *)
Definition DoServiceRequest (c : hcfg) (p : bytes) (s : hs) : hs * rc :=
  if names_userauth p then (w_client CLIENT_USERAUTH_REQUEST_DONE s, WS_SUCCESS)
  else (fst (send1 c None OOther s), WS_INVALID_STATE_E).
Definition DoServiceAccept (c : hcfg) (p : bytes) (s : hs) : hs * rc :=
  if names_userauth p then (w_srv 3 s, WS_SUCCESS)
  else (fst (send1 c None OOther s), WS_INVALID_STATE_E).

(* DoUserAuthRequest 10351-10473 and DoUserAuthInfoResponse 8491-8644
   (AuthModel), their events in the log. What sending their messages does to
   the output is [other]'s part. *)
Definition DoAuth (c : hcfg) (a : hans) (m : amsg) (s : hs) : hs * rc :=
  match auth_step (c_auth c) (c_crypto c) m (ha_auth a) (set_log [] (s_auth s)) with
  | HOob => (s, WS_FATAL_OTHER)
  | HR au r _ =>
      let s := w_log (rev (map EAuth (a_log au)) ++ s_log s) (w_auth (set_log [] au) s) in
      (fst (other c a s), r)
  end.

(* DoUserAuthInfoRequest 10586-10705 (the client's): the fields
   DoUserAuthInfoResponse reads *)
Definition DoInfoRequest (c : hcfg) (a : hans) (s : hs) : hs * rc :=
  let s := w_auth (set_prompts (ha_prompts a) (s_auth s)) s in
  let '(s, r) := other c a s in
  (if rc_eqb r WS_SUCCESS then w_auth (set_authId ID_USERAUTH_KEYBOARD (s_auth s)) s else s, r).

(* DoChannelOpen 10888-11128 (11085-11087), DoChannelOpenConf 11130-11187
   (11180), DoChannelRequest 11614-11836 (11673-11693), DoChannelSuccess
   11839-11871: ha_yes says that they get as far as changing the state. The
   last three need a channel. *)
Definition DoChannel (c : hcfg) (a : hans) (m : N) (s : hs) : hs * rc :=
  let yes := ha_yes a && (0 <? s_chans s) in
  let s := if m =? MSG_CHANNEL_OPEN then
             if ha_yes a then logev EChanOpen (w_client 6 (w_chans (s_chans s + 1) s)) else s
           else if m =? MSG_OPEN_CONF then
             if yes then logev EChanConf (w_srv 5 s) else s
           else if m =? MSG_REQUEST then
             if yes then logev EChanReq (w_client 7 s) else s
           else if m =? MSG_SUCCESS then
             if yes then logev EChanOk (w_srv 6 s) else s
           else if (m =? MSG_CLOSE) || (m =? MSG_OPEN_FAIL) then
             if yes then w_chans (s_chans s - 1) s else s
           else s in
  other c a s.

(* src/internal.c:686-785 IsMessageAllowedServer, 788-881
   IsMessageAllowedClient; the part they share. None: the rest decides. *)
Definition kex_filter (m : N) (s : hs) : option (bool * hs) :=
  if s_kpeer s then
    if m =? MSG_KEXINIT then Some (false, s)
    else match option_map h_expect (s_hand s) with
         | Some (Some e) => if m =? e then Some (true, on_hand (hw_expect None) s) else Some (false, s)
         | _ => None
         end
  else Some (m =? MSG_KEXINIT, s).

Definition trans_gen (m : N) : bool := (1 <=? m) && (m <=? 19).   (* internal.h 1718-1764 *)
Definition trans (m : N) : bool := (1 <=? m) && (m <=? 49).
Definition auth_range (m : N) : bool := (50 <=? m) && (m <=? 79).

Definition allowed_server (m : N) (s : hs) : bool * hs :=
  if m =? MSG_SERVICE_ACCEPT then (false, s)
  else if m =? MSG_SERVICE_REQUEST then (s_acc s =? ACCEPT_KEYED, s)
  else if trans_gen m then (true, s)
  else match (if trans m then kex_filter m s else None) with
  | Some r => r
  | None =>
      (if (s_acc s <? ACCEPT_KEYED) && (MSG_GEX_REQUEST <? m) then false
       else if s_acc s <? ACCEPT_SERVER_USERAUTH_SENT then
         if MSG_GLOBAL_REQUEST <=? m then false
         else negb ((MSG_USERAUTH_REQUEST <? m) && negb (m =? MSG_INFO_RESPONSE))
       else negb ((MSG_USERAUTH_REQUEST <=? m) && (m <? MSG_GLOBAL_REQUEST)), s)
  end.

Definition allowed_client (m : N) (s : hs) : bool * hs :=
  if (m =? MSG_SERVICE_REQUEST) || (m =? MSG_USERAUTH_REQUEST) then (false, s)
  else if m =? MSG_SERVICE_ACCEPT then (s_con s =? CONNECT_USERAUTH_REQUEST_SENT, s)
  else if trans_gen m then (true, s)
  else match (if trans m then kex_filter m s else None) with
  | Some r => r
  | None =>
      (if s_con s <? CONNECT_USERAUTH_ACCEPT_DONE then
         if MSG_GLOBAL_REQUEST <=? m then false
         else auth_range m && (CONNECT_USERAUTH_REQUEST_SENT <=? s_con s)
       else MSG_GLOBAL_REQUEST <=? m, s)
  end.

Definition allowed (c : hcfg) (m : N) (s : hs) : bool * hs :=
  match c_side c with Server => allowed_server m s | Client => allowed_client m s end.

(* src/internal.c:12158-12356: the switch of DoPacket. A message number
   without a case is answered with UNIMPLEMENTED; that, the transport's
   generic messages, the channel messages and those of authentication that
   only clients receive are [other] and [DoChannel]. *)
Definition dispatch (c : hcfg) (a : hans) (m : N) (p : bytes) (s : hs) : hs * rc :=
  if m =? MSG_KEXINIT then
    let '(s, r) := DoKexInit c a p s in
    if negb (rc_eqb r WS_MATCH_KEX_ALGO_E) && keying s && (s_con s =? CONNECT_DONE) then
      let '(s, e) := SendKexFirst c None a s in (w_err e s, r)
    else (s, r)
  else if m =? MSG_NEWKEYS then DoNewKeys c a p s
  else if (m =? MSG_KEXDH_INIT) || (m =? MSG_GEX_INIT) then DoKexDhInit c a p s
  else if m =? MSG_KEXDH_REPLY then
    match s_hand s with
    | None => (s, WS_MEMORY_E)
    | Some h => match h_kex h with
                | Some true => DoKexDhGexGroup c a p s
                | _ => DoKexDhReply c a p s
                end
    end
  else if m =? MSG_GEX_REQUEST then DoKexDhGexRequest c a p s
  else if m =? MSG_GEX_REPLY then DoKexDhReply c a p s
  else if m =? MSG_SERVICE_REQUEST then DoServiceRequest c p s
  else if m =? MSG_SERVICE_ACCEPT then DoServiceAccept c p s
  else if m =? MSG_USERAUTH_REQUEST then DoAuth c a (MRequest p) s
  else if m =? MSG_INFO_RESPONSE then
    if c_kb (c_auth c) then DoAuth c a (MInfoResponse p) s else send1 c None OOther s
  else if m =? MSG_INFO_REQUEST then
    if c_kb (c_auth c) then DoInfoRequest c a s else send1 c None OOther s
  else if m =? MSG_USERAUTH_SUCCESS then
    if lenN p =? 0 then (w_srv 4 s, WS_SUCCESS) else (s, WS_BAD_ARGUMENT)
  else DoChannel c a m s.

(* src/internal.c:12109-12400 DoPacket on a message; the flag says that the
   packet was consumed. The check of 12375-12378 (not enough data for the
   padding) is left out. *)
Definition DoPacket (c : hcfg) (a : hans) (m : N) (p : bytes) (s : hs) : hs * rc * bool :=
  let '(ok, s) := allowed c m s in
  if negb ok then (s, WS_MSGID_NOT_ALLOWED_E, false)
  else
    let '(s, r) := dispatch c a m p (logev (EAct m p) s) in
    if rc_eqb r WS_AUTH_PENDING then (s, r, false)
    else
      let '(s, h) := highwater c (ha_hw a) s in
      (s, if rc_eqb r WS_SUCCESS then h else r, true).

(* What one DoReceive call may find: an error while reading, decrypting or
   checking a packet (the error code that leaves in ssh->error), a packet, or
   - while versions are exchanged - a version line. *)
Inductive rx := RxErr (e : rc) | RxLine | RxPkt (k : pkt).
Record slot := mkSlot { sl_rx : rx; sl_a : hans }.

(* 12931-12936 *)
Definition classify (r : rc) : rc :=
  match r with
  | WS_SUCCESS | WS_CHAN_RXD | WS_EXTDATA | WS_CHANNEL_CLOSED | WS_WANT_WRITE | WS_REKEYING | WS_WANT_READ => r
  | _ => WS_FATAL_ERROR
  end.

(* src/internal.c:12811-12957 DoReceive. A packet left over by an earlier call
   (PROCESS_PACKET) is processed again. A version line here is not a packet. *)
Definition process (c : hcfg) (a : hans) (k : pkt) (s : hs) : hs * rc :=
  match k with
  | PBad e => (w_err e s, classify e)
  | PMsg m p =>
      let '(s, r, consumed) := DoPacket c a m p s in
      let s := w_err r s in
      (if consumed then w_held None s else s, classify r)
  end.
Definition DoReceive (c : hcfg) (sl : slot) (s : hs) : hs * rc :=
  match s_held s with
  | Some k => process c (sl_a sl) k s
  | None =>
      let s := if rc_eqb (s_err s) WS_WANT_READ then w_err WS_SUCCESS s else s in
      match sl_rx sl with
      | RxErr e => (w_err e s, WS_FATAL_ERROR)
      | RxLine => (w_err WS_OVERFLOW_E s, WS_FATAL_ERROR)
      | RxPkt k => process c (sl_a sl) k (w_held (Some k) s)
      end
  end.

(* How a call ends: a return code; no more input in the history (the call has
   not returned); handed over to SCP or SFTP. *)
Inductive ares := ARet (r : rc) | AMore | AScpInit | AScp | ASftp.
Inductive flow := Go (s : hs) (sl : list slot) | Stop (s : hs) (r : ares).
Definition fbind (f : flow) (k : hs -> list slot -> flow) : flow :=
  match f with Go s sl => k s sl | Stop s r => Stop s r end.

(* while (!done) if (DoReceive(ssh) < 0) return WS_FATAL_ERROR; *)
Fixpoint recv_until (c : hcfg) (dn : hs -> bool) (s : hs) (sl : list slot) : flow :=
  if dn s then Go s sl
  else match sl with
       | [] => Stop s AMore
       | x :: t =>
           let '(s, r) := DoReceive c x s in
           if rc_neg r then Stop s (ARet WS_FATAL_ERROR) else recv_until c dn s t
       end.

(* while (!done) if ((ssh->error = DoProtoId(ssh)) < WS_SUCCESS) return
   WS_FATAL_ERROR; DoProtoId 12959-13053. [got] records the version. *)
Definition version_until (dn : hs -> bool) (got : hs -> hs) (s : hs) (sl : list slot) : flow :=
  if dn s then Go s sl
  else match sl with
       | [] => Stop s AMore
       | x :: t =>
           match sl_rx x with
           | RxErr e => Stop (w_err e s) (ARet WS_FATAL_ERROR)
           | RxLine => Go (logev EVersion (got (w_err WS_SUCCESS s))) t
           | RxPkt _ => Stop (w_err WS_VERSION_E s) (ARet WS_FATAL_ERROR)
           end
       end.

(* if ((ssh->error = Send...(ssh)) < WS_SUCCESS) return WS_FATAL_ERROR; state =
   next *)
Definition own_step (next : hs -> hs) (res : hs * rc) (sl : list slot) : flow :=
  let '(s, r) := res in
  let s := w_err r s in
  if rc_neg r then Stop s (ARet WS_FATAL_ERROR) else Go (next s) sl.

(* a case label of the fall-through switch: run when the state is k *)
Definition at_state (st : hs -> N) (k : N) (f : hs -> list slot -> flow) (s : hs) (sl : list slot) : flow :=
  if st s =? k then f s sl else Go s sl.

Definition is_want (r : rc) : bool :=
  match r with WS_WANT_READ | WS_WANT_WRITE | WS_AUTH_PENDING => true | _ => false end.

(* ssh.c 575-607: data pending to be sent. A packet waiting to be processed is
   dropped. *)
Definition resume (c : hcfg) (st : hs -> N) (limit : N) (keep : list N) (adv : hs -> hs) (s : hs) : hs * bool :=
  if s_pend s && (st s <? limit) then
    let '(s, r) := flush c s in
    let s := w_err r s in
    if rc_eqb r WS_SUCCESS then
      (w_held None (if existsb (N.eqb (st s)) keep then s else adv s), true)
    else (s, false)
  else (s, true).

(* src/ssh.c:559-811 wolfSSH_accept. [kind]: what ChannelCommandIsScp and
   wolfSSH_GetSessionCommand say at the end (1: scp, 2: sftp). *)
Definition accept_steps (c : hcfg) (kind : N) (s : hs) (sl : list slot) : flow :=
  let acc k s := w_acc k s in
  fbind (at_state s_acc 0 (fun s => own_step (acc 1) (send1 c (Some 0) OVersion s)) s sl) (fun s sl =>
  fbind (at_state s_acc 1 (fun s sl => fbind (version_until (fun s => 1 <=? client_state s) (w_client 1) s sl)
                                         (fun s sl => Go (acc 2 s) sl)) s sl) (fun s sl =>
  fbind (at_state s_acc 2 (fun s => own_step (acc 3) (SendKexInit c (Some 2) s)) s sl) (fun s sl =>
  fbind (at_state s_acc 3 (fun s sl => fbind (recv_until c (fun s => negb (keying s)) s sl)
                                         (fun s sl => Go (acc 4 s) sl)) s sl) (fun s sl =>
  fbind (at_state s_acc 4 (fun s sl => fbind (recv_until c (fun s => 4 <=? client_state s) s sl)
                                         (fun s sl => Go (acc 5 s) sl)) s sl) (fun s sl =>
  fbind (at_state s_acc 5 (fun s => own_step (acc 6) (send1 c (Some 5) OServiceAccept s)) s sl) (fun s sl =>
  fbind (at_state s_acc 6 (fun s sl => fbind (recv_until c (fun s => 5 <=? client_state s) s sl)
                                         (fun s sl => Go (acc 7 s) sl)) s sl) (fun s sl =>
  fbind (at_state s_acc 7 (fun s => own_step (acc 8) (send1 c (Some 7) OAuthSuccess s)) s sl) (fun s sl =>
  fbind (at_state s_acc 8 (fun s sl => fbind (recv_until c (fun s => 6 <=? client_state s) s sl)
                                         (fun s sl => Go (acc 9 s) sl)) s sl) (fun s sl =>
  at_state s_acc 9 (fun s sl => fbind (recv_until c (fun s => 7 <=? client_state s) s sl)
                                  (fun s sl => if kind =? 1 then Stop (acc ACCEPT_INIT_SCP s) AScpInit
                                               else if kind =? 2 then Stop (acc ACCEPT_INIT_SFTP s) ASftp
                                               else Go (acc 10 s) sl)) s sl))))))))).

Definition accept (c : hcfg) (kind : N) (s : hs) (sl : list slot) : hs * ares :=
  let s := if is_want (s_err s) then w_err WS_SUCCESS s else s in
  if rc_neg (s_err s) then (s, ARet WS_INVALID_STATE_E)
  else
    let '(s, ok) := resume c s_acc ACCEPT_DONE [1; 6; 3; 4; 9] (fun s => w_acc (s_acc s + 1) s) s in
    if negb ok then (s, ARet WS_FATAL_ERROR)
    else if s_acc s =? ACCEPT_INIT_SCP then (s, AScp)
    else if s_acc s =? ACCEPT_INIT_SFTP then (s, ASftp)
    else match accept_steps c kind s sl with
         | Go s _ => (s, ARet WS_SUCCESS)
         | Stop s r => (s, r)
         end.

(* src/ssh.c:822-1101 wolfSSH_connect. [opts]: agent forwarding enabled,
   terminal requested. *)
Definition SendUserAuthNone (c : hcfg) (a : hans) (s : hs) : hs * rc :=
  if ha_mid a then send1 c (Some 8) OAuthRequest s else (logev (EStepFailed 8) s, WS_FATAL_OTHER).
(* 1000-1027: the channel is kept when the message was sent or would block *)
Definition OpenSession (c : hcfg) (s : hs) : hs * rc :=
  let '(s, r) := send1 c (Some 10) OChanOpen s in
  (match r with WS_SUCCESS | WS_WANT_WRITE | WS_WANT_READ => w_chans (s_chans s + 1) s | _ => s end, r).
(* SendChannelRequest 20569: needs a channel *)
Definition SendRequest (c : hcfg) (s : hs) : hs * rc :=
  if 0 <? s_chans s then send1 c (Some 14) OChanRequest s else (logev (EStepFailed 14) s, WS_INVALID_CHANID).

Definition connect_steps (c : hcfg) (a : hans) (opts : bool * bool) (s : hs) (sl : list slot) : flow :=
  let con k s := w_con k s in
  let wait k n := at_state s_con k (fun s sl => fbind (recv_until c (fun s => n <=? s_srv s) s sl)
                                                  (fun s sl => Go (con (k + 1) s) sl)) in
  fbind (at_state s_con 0 (fun s => own_step (con 1) (send1 c (Some 0) OVersion s)) s sl) (fun s sl =>
  fbind (at_state s_con 1 (fun s sl => fbind (version_until (fun s => 1 <=? s_srv s) (w_srv 1) s sl)
                                         (fun s sl => Go (con 2 s) sl)) s sl) (fun s sl =>
  fbind (at_state s_con 2 (fun s => own_step (con 3) (SendKexInit c (Some 2) s)) s sl) (fun s sl =>
  fbind (wait 3 2 s sl) (fun s sl =>
  fbind (at_state s_con 4 (fun s => match s_hand s with
                                    | None => fun _ => Stop s (ARet WS_FATAL_ERROR)
                                    | Some _ => own_step (con 5) (SendKexFirst c (Some 4) a s)
                                    end) s sl) (fun s sl =>
  fbind (at_state s_con 5 (fun s sl => fbind (recv_until c (fun s => negb (keying s)) s sl)
                                         (fun s sl => Go (con 6 s) sl)) s sl) (fun s sl =>
  fbind (at_state s_con 6 (fun s => own_step (con 7) (send1 c (Some 6) OServiceRequest s)) s sl) (fun s sl =>
  fbind (wait 7 3 s sl) (fun s sl =>
  fbind (at_state s_con 8 (fun s => own_step (con 9) (SendUserAuthNone c a s)) s sl) (fun s sl =>
  fbind (wait 9 4 s sl) (fun s sl =>
  fbind (at_state s_con 10 (fun s => own_step (con 11) (OpenSession c s)) s sl) (fun s sl =>
  fbind (wait 11 5 s sl) (fun s sl =>
  fbind (at_state s_con 12 (fun s sl => if fst opts then own_step (con 13) (send1 c (Some 12) OOther s) sl
                                        else Go (con 13 s) sl) s sl) (fun s sl =>
  fbind (at_state s_con 13 (fun s sl => if snd opts then own_step (con 14) (send1 c (Some 13) OOther s) sl
                                        else Go (con 14 s) sl) s sl) (fun s sl =>
  fbind (at_state s_con 14 (fun s => own_step (con 15) (SendRequest c s)) s sl) (fun s sl =>
  wait 15 6 s sl))))))))))))))).

Definition connect (c : hcfg) (a : hans) (opts : bool * bool) (s : hs) (sl : list slot) : hs * ares :=
  let '(s, ok) := resume c s_con CONNECT_DONE [1; 3; 5; 7; 9; 11; 15] (fun s => w_con (s_con s + 1) s) s in
  if negb ok then (s, ARet WS_FATAL_ERROR)
  else match connect_steps c a opts s sl with
       | Go s _ => (s, ARet WS_SUCCESS)
       | Stop s r => (s, r)
       end.

(* src/ssh.c:3390-3463 wolfSSH_worker (without WOLFSSH_TEST_BLOCK); x2 is used
   by the second DoReceive. *)
Definition worker (c : hcfg) (x1 x2 : slot) (s : hs) : hs * rc :=
  let '(s, ret) := DoReceive c x1 s in
  let '(s, ret) :=
    match ret with
    | WS_SUCCESS | WS_WANT_READ | WS_CHAN_RXD =>
        let '(s, sr) := if s_pend s then flush c s else (s, WS_SUCCESS) in
        match sr with
        | WS_WANT_WRITE | WS_WINDOW_FULL =>
            let '(s, r2) := DoReceive c x2 s in
            match r2 with
            | WS_SUCCESS | WS_WANT_READ | WS_CHAN_RXD => (s, sr)
            | _ => (s, r2)
            end
        | WS_SUCCESS => (s, ret)
        | _ => (s, sr)
        end
    | _ => (s, ret)
    end in
  match ret with
  | WS_SUCCESS | WS_CHAN_RXD => if keying s then (w_err WS_REKEYING s, WS_REKEYING) else (s, ret)
  | _ => (s, ret)
  end.

(* One call of the API. OApp: any other call; it may send messages, purge the
   output, set the error, open and close channels. *)
Inductive op :=
| OAccept (kind : N) (sl : list slot)
| OConnect (a : hans) (opts : bool * bool) (sl : list slot)
| OWorker (x1 x2 : slot)
| ORecv (x : slot)
| OTrigger
| OApp (n : nat) (pg : bool) (e : rc) (chans : N).

Definition step (c : hcfg) (o : op) (s : hs) : hs * ares :=
  match o with
  | OAccept kind sl => accept c kind s sl
  | OConnect a opts sl => connect c a opts s sl
  | OWorker x1 x2 => let '(s, r) := worker c x1 x2 s in (s, ARet r)
  | ORecv x => let '(s, r) := DoReceive c x s in (s, ARet r)
  | OTrigger => let '(s, r) := Trigger c s in (s, ARet r)
  | OApp n pg e chans =>
      let '(s, r) := sends c n s in
      (w_chans chans (w_err e (if pg then purge s else s)), ARet r)
  end.

(* SshInit (1553-1657): a new connection, with all the answers the environment
   will give when messages are built and flushed. A handshake record exists
   from the start (1594). A client has been given a user name. *)
Definition init_hs (c : hcfg) (user : bytes) (max : N) (q : list bool) (io : list ioans) : hs :=
  mkHs 0 0 0 false false (Some hand0) WS_SUCCESS false None 2 0
       (mkAuth (match c_side c with Server => None | Client => Some user end)
               0 0 0 max false 0 0 [] [] (mkAns [] [] [])) q io [].

(* A history of calls. One that has not returned is the last. *)
Fixpoint run_hs (c : hcfg) (s : hs) (ops : list op) : hs :=
  match ops with
  | [] => s
  | o :: t => let '(s, r) := step c o s in
              match r with AMore => s | _ => run_hs c s t end
  end.
