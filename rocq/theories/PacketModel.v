(* PacketModel.v - the binary packet protocol: reading, deciphering and
   dispatching one packet, and building one. Models src/internal.c 4154-4193,
   4328-4384, 12109-12160, 12360-12399, 12440-12956 and 13086-13233. *)
From Verif Require Import Base WireModel NameTable NegoModel BufModel.
From Coq Require Import List NArith Bool.
Import ListNotations.
Open Scope N_scope.

Definition MAX_PACKET_SZ : N := 35000.
Definition MIN_PAD_LENGTH : N := 4.

(* ---- cryptography ---------------------------------------------------- *)
(* wolfCrypt is outside the model: any functions of these types. A cipher
   state is carried from call to call (CTR counter, CBC chaining). None is a
   failed call. [c_mac key seq data] is the digest before truncation. *)
Record crypto := mkCrypto {
  ck : Type;                                         (* cipher state *)
  mk : Type;                                         (* MAC key *)
  c_enc : ck -> bytes -> option (ck * bytes);
  c_dec : ck -> bytes -> option (ck * bytes);
  c_mac : mk -> N -> bytes -> bytes;
  c_seal : ck -> bytes -> bytes -> bytes -> option (bytes * bytes); (* iv aad pt -> ct tag *)
  c_open : ck -> bytes -> bytes -> bytes -> bytes -> option bytes }. (* iv aad ct tag -> pt *)

(* The negotiated parameters of one direction: encryptId/macId/blockSz/macSz/
   aeadMode and Keys (wolfssh/internal.h:800-830 and the peer* twins). *)
Record keys (C : crypto) := mkKeys {
  k_enc : N; k_mac : N; k_block : N; k_macSz : N; k_aead : bool;
  k_cst : ck C; k_mkey : mk C; k_iv : bytes }.
Arguments mkKeys {C}. Arguments k_enc {C}. Arguments k_mac {C}. Arguments k_block {C}.
Arguments k_macSz {C}. Arguments k_aead {C}. Arguments k_cst {C}. Arguments k_mkey {C}. Arguments k_iv {C}.
Definition set_cst {C} (k : keys C) (c : ck C) : keys C :=
  mkKeys (k_enc k) (k_mac k) (k_block k) (k_macSz k) (k_aead k) c (k_mkey k) (k_iv k).
Definition set_iv {C} (k : keys C) (iv : bytes) : keys C :=
  mkKeys (k_enc k) (k_mac k) (k_block k) (k_macSz k) (k_aead k) (k_cst k) (k_mkey k) iv.

Definition is_gcm (id : N) : bool := AeadModeForId id.
Definition is_block_cipher (id : N) : bool :=
  (id =? ID_AES128_CBC) || (id =? ID_AES192_CBC) || (id =? ID_AES256_CBC) ||
  (id =? ID_AES128_CTR) || (id =? ID_AES192_CTR) || (id =? ID_AES256_CTR).

(* src/internal.c:12725-12737 AeadIncrementExpIv: the carry runs from the last
   byte to the fifth; [inc_be] is the loop on the eight explicit bytes, given
   last byte first. *)
Fixpoint inc_le (carry : N) (rev_iv : bytes) : bytes :=
  match rev_iv with
  | [] => []
  | x :: r => let sum := x + carry in (sum mod 256) :: inc_le ((sum / 256) mod 2) r
  end.
Definition AeadIncrementExpIv (iv : bytes) : bytes :=
  takeN 4 iv ++ rev (inc_le 1 (rev (takeN 8 (dropN 4 iv)))) ++ dropN 12 iv.

(* src/internal.c:12440-12485 Encrypt and 12488-12533 Decrypt; the byte
   counter is advanced in the caller below. sz == 0 is WS_BAD_ARGUMENT. *)
Definition Crypt {C} (f : ck C -> bytes -> option (ck C * bytes)) (err : rc)
    (k : keys C) (d : bytes) : rc * keys C * bytes :=
  if lenN d =? 0 then (WS_BAD_ARGUMENT, k, d)
  else if k_enc k =? ID_NONE then (WS_SUCCESS, k, d)
  else if is_block_cipher (k_enc k) then
    if negb (lenN d mod 16 =? 0) then (err, k, d)
    else match f (k_cst k) d with
         | Some (c, d') => (WS_SUCCESS, set_cst k c, d')
         | None => (err, k, d)
         end
  else (WS_INVALID_ALGO_ID, k, d).
Definition Decrypt {C} (k : keys C) d := Crypt (c_dec C) WS_DECRYPT_E k d.
Definition Encrypt {C} (k : keys C) d := Crypt (c_enc C) WS_ENCRYPT_E k d.

(* src/internal.c:12645-12716 VerifyMac: recompute and compare peerMacSz bytes. *)
Definition VerifyMac {C} (k : keys C) (seq : N) (d tag : bytes) : rc :=
  if k_mac k =? ID_NONE then WS_SUCCESS
  else if (k_mac k =? ID_HMAC_SHA1) || (k_mac k =? ID_HMAC_SHA1_96) ||
          (k_mac k =? ID_HMAC_SHA2_256) || (k_mac k =? ID_HMAC_SHA2_512) then
    if bytes_eqb (takeN (k_macSz k) (c_mac C (k_mkey k) seq d)) tag then WS_SUCCESS
    else WS_VERIFY_MAC_E
  else WS_INVALID_ALGO_ID.
(* src/internal.c:12536-12642 CreateMac: the tag written at the end. *)
Definition CreateMac {C} (k : keys C) (seq : N) (d : bytes) : rc * bytes :=
  if k_mac k =? ID_NONE then (WS_SUCCESS, [])
  else if (k_mac k =? ID_HMAC_SHA1) || (k_mac k =? ID_HMAC_SHA1_96) ||
          (k_mac k =? ID_HMAC_SHA2_256) || (k_mac k =? ID_HMAC_SHA2_512) then
    (WS_SUCCESS, takeN (k_macSz k) (c_mac C (k_mkey k) seq d))
  else (WS_FATAL_ERROR, []).

(* ---- the network ------------------------------------------------------ *)
(* What successive calls of the application's receive callback find: some
   bytes (a call takes at most what it asks for, the rest waits), a
   would-block, or a failure. An exhausted list keeps blocking. *)
Inductive nev := NData (d : bytes) | NBlock | NErr.

Inductive recvd := Got (d : bytes) (net : list nev) | WouldBlock (net : list nev) | Failed (net : list nev).
(* src/internal.c:4154-4193 ReceiveData. Empty data events (a callback
   returning 0, on which GetInputData would call again) are skipped. *)
Fixpoint ReceiveData (net : list nev) (sz : N) : recvd :=
  match net with
  | [] => WouldBlock []
  | NData d :: r =>
      if lenN d =? 0 then ReceiveData r sz
      else if lenN d <=? sz then Got d r
      else Got (takeN sz d) (NData (dropN sz d) :: r)
  | NBlock :: r => WouldBlock r
  | NErr :: r => Failed r
  end.

(* src/internal.c:4328-4384 GetInputData: fill the buffer until [size] unread
   bytes are there. The loop runs at most [size] times since every round
   delivers at least one byte; GNoFuel is the exhausted loop. *)
Inductive gres := GOk (b : wbuf) (net : list nev) | GBlock (b : wbuf) (net : list nev)
                | GErr (e : rc) (b : wbuf) (net : list nev) | GNoFuel | GOob.
Fixpoint gid_loop (fuel : nat) (b : wbuf) (net : list nev) (size : N) : gres :=
  match fuel with
  | O => GNoFuel
  | S f =>
      match ReceiveData net size with
      | Failed n => GErr WS_SOCKET_ERROR_E b n
      | WouldBlock n => GBlock b n
      | Got d n =>
          match put_end b d with
          | BOob => GOob
          | BOk _ b' => let size := sub32 size (lenN d) in
                        if size =? 0 then GOk b' n else gid_loop f b' n size
          end
      end
  end.
Definition GetInputData (b : wbuf) (net : list nev) (size : N) : gres :=
  let have := sub32 (b_len b) (b_idx b) in
  if size <=? have then GOk b net
  else
    let size := sub32 size have in
    match GrowBuffer true b size with
    | BOob => GOob
    | BOk r b' => if rc_eqb r WS_SUCCESS then gid_loop (N.to_nat size) b' net size
                  else GErr WS_MEMORY_E b net
    end.

(* ---- receiving ------------------------------------------------------- *)
Inductive phase := PhInit | PhLength | PhFinish | PhPacket.

(* What a message handler does with a message: new application state, return
   code, how far it advanced in the payload, and new receive keys if the
   message was NEWKEYS. *)
Record hres (C : crypto) (H : Type) := mkHres {
  hr_st : H; hr_rc : rc; hr_idx : N; hr_keys : option (keys C) }.
Arguments mkHres {C H}. Arguments hr_st {C H}. Arguments hr_rc {C H}.
Arguments hr_idx {C H}. Arguments hr_keys {C H}.

(* The rest of the library, as functions on its state H: the message filter
   (IsMessageAllowed, which may also update the state), the handlers of
   DoPacket's switch, and the high-water check run after a packet. *)
Record applib (C : crypto) (H : Type) := mkApp {
  a_allowed : H -> N -> bool * H;
  a_handle : H -> N -> bytes -> hres C H;
  a_highwater : H -> N -> N -> rc * H }.
Arguments mkApp {C H}. Arguments a_allowed {C H}. Arguments a_handle {C H}. Arguments a_highwater {C H}.

Record rxst (C : crypto) (H : Type) := mkRx {
  r_buf : wbuf; r_ph : phase; r_cur : N; r_keys : keys C;
  r_seq : N; r_cnt : N; r_msgs : N; r_err : rc; r_app : H }.
Arguments mkRx {C H}. Arguments r_buf {C H}. Arguments r_ph {C H}. Arguments r_cur {C H}.
Arguments r_keys {C H}. Arguments r_seq {C H}. Arguments r_cnt {C H}. Arguments r_msgs {C H}.
Arguments r_err {C H}. Arguments r_app {C H}.

(* One event of the log: a message reached its handler. *)
Record handled := mkHandled { hd_seq : N; hd_msg : N; hd_payload : bytes }.

(* Result of DoReceive: return code, new state, remaining network, what
   reached a handler; or out-of-bounds access / exhausted loop. *)
Inductive rxres (C : crypto) (H : Type) :=
| RxRet (r : rc) (s : rxst C H) (net : list nev) (log : list handled)
| RxOob | RxNoFuel.
Arguments RxRet {C H}. Arguments RxOob {C H}. Arguments RxNoFuel {C H}.

(* write [d] over the bytes at offset [off] *)
Definition overwrite (m : bytes) (off : N) (d : bytes) : bytes :=
  takeN off m ++ d ++ dropN (off + lenN d) m.
Definition set_data (b : wbuf) (d : bytes) : wbuf := mkBuf d (b_idx b) (b_cap b) (b_dyn b).

(* codes that DoReceive passes through (12928-12933) *)
Definition passes (r : rc) : bool :=
  rc_eqb r WS_SUCCESS || rc_eqb r WS_CHAN_RXD || rc_eqb r WS_EXTDATA || rc_eqb r WS_CHANNEL_CLOSED ||
  rc_eqb r WS_WANT_WRITE || rc_eqb r WS_REKEYING || rc_eqb r WS_WANT_READ.

Section Rx.
  Context {C : crypto} {H : Type}.
  Variable A : applib C H.
  Implicit Types s : rxst C H.

  Definition fatal s (e : rc) (net : list nev) : rxres C H :=
    RxRet WS_FATAL_ERROR
      (mkRx (r_buf s) (r_ph s) (r_cur s) (r_keys s) (r_seq s) (r_cnt s) (r_msgs s) e (r_app s)) net [].

  (* src/internal.c:12109-12399 DoPacket. Result: Some (ret, consumed, state,
     log) or None for a read outside the buffer. The payload handed to the
     handler is the payloadSz bytes after the message number. *)
  Definition DoPacket s : option (rc * bool * rxst C H * list handled) :=
    let b := r_buf s in
    let idx := add32 (b_idx b) 4 in
    match rd (b_data b) idx with
    | None => None
    | Some padSz =>
        let idx := add32 idx 1 in
        if padSz <? MIN_PAD_LENGTH then Some (WS_BUFFER_E, false, s, [])
        else if r_cur s <? 1 + padSz + 1 then Some (WS_OVERFLOW_E, false, s, [])
        else
          let payloadSz := sub32 (sub32 (sub32 (r_cur s) 1) padSz) 1 in
          match rd (b_data b) idx with
          | None => None
          | Some msg =>
              let idx := add32 idx 1 in
              if (b_cap b <? add32 payloadSz idx) || (add32 payloadSz idx <? payloadSz)
              then Some (WS_OVERFLOW_E, false, s, [])
              else
                let '(ok, h) := a_allowed A (r_app s) msg in
                let s := mkRx b (r_ph s) (r_cur s) (r_keys s) (r_seq s) (r_cnt s) (r_msgs s) (r_err s) h in
                if negb ok then Some (WS_MSGID_NOT_ALLOWED_E, false, s, [])
                else
                  match rdn (b_data b) idx payloadSz with
                  | None => None
                  | Some payload =>
                      let R := a_handle A h msg payload in
                      let log := [mkHandled (r_seq s) msg payload] in
                      let '(k, cnt, msgs) :=
                        match hr_keys R with
                        | Some k => (k, 0, 0)
                        | None => (r_keys s, r_cnt s, r_msgs s)
                        end in
                      let s := mkRx b (r_ph s) (r_cur s) k (r_seq s) cnt msgs (r_err s) (hr_st R) in
                      if rc_eqb (hr_rc R) WS_AUTH_PENDING then Some (WS_AUTH_PENDING, false, s, log)
                      else
                        let idx' := if 0 <? payloadSz then add32 idx (hr_idx R) else idx in
                        let ret := if (0 <? payloadSz) && (b_len b <? add32 idx' padSz)
                                   then WS_BUFFER_E else hr_rc R in
                        let b' := mkBuf (b_data b) (add32 idx' padSz) (b_cap b) (b_dyn b) in
                        let msgs' := add32 msgs 1 in
                        let '(hw, h') := a_highwater A (hr_st R) cnt msgs' in
                        let ret := if rc_eqb ret WS_SUCCESS then hw else ret in
                        Some (ret, true,
                              mkRx b' (r_ph s) (r_cur s) k (add32 (r_seq s) 1) cnt msgs' (r_err s) h',
                              log)
                  end
          end
    end.

  (* 12924-12950: the PROCESS_PACKET case and what follows the switch. macSz
     is the value read on entry to DoReceive. *)
  Definition rx_packet (macSz : N) s (net : list nev) : rxres C H :=
    match DoPacket s with
    | None => RxOob
    | Some (ret, consumed, s, log) =>
        let err := ret in
        let ret := if passes ret then ret else WS_FATAL_ERROR in
        if consumed then
          match ShrinkBuffer (mkBuf (b_data (r_buf s)) (add32 (b_idx (r_buf s)) macSz)
                                    (b_cap (r_buf s)) (b_dyn (r_buf s))) true with
          | BOob => RxOob
          | BOk _ b => RxRet ret (mkRx b PhInit (r_cur s) (r_keys s) (r_seq s) (r_cnt s) (r_msgs s) err (r_app s)) net log
          end
        else RxRet ret (mkRx (r_buf s) (r_ph s) (r_cur s) (r_keys s) (r_seq s) (r_cnt s) (r_msgs s) err (r_app s)) net log
    end.

  (* 12860-12922: the PROCESS_PACKET_FINISH case *)
  Definition rx_finish (macSz blockSz : N) s (net : list nev) : rxres C H :=
    let k := r_keys s in
    let readSz := add32 (add32 4 (r_cur s)) macSz in
    match GetInputData (r_buf s) net readSz with
    | GOob => RxOob
    | GNoFuel => RxNoFuel
    | GErr e b n =>
        RxRet WS_FATAL_ERROR (mkRx b PhFinish (r_cur s) k (r_seq s) (r_cnt s) (r_msgs s) e (r_app s)) n []
    | GBlock b n =>
        RxRet WS_FATAL_ERROR (mkRx b PhFinish (r_cur s) k (r_seq s) (r_cnt s) (r_msgs s) WS_WANT_READ (r_app s)) n []
    | GOk b n =>
        let off := b_idx b in
        if negb (k_aead k) then
          let restSz := sub32 (add32 4 (r_cur s)) blockSz in
          let step : option (rc * keys C * bytes * N) :=
            if blockSz <? add32 (r_cur s) 4 then
              match rdn (b_data b) (off + blockSz) restSz with
              | None => None
              | Some ct =>
                  let '(r, k', pt) := Decrypt k ct in
                  Some (r, k', overwrite (b_data b) (off + blockSz) pt, add32 (r_cnt s) restSz)
              end
            else Some (WS_SUCCESS, k, b_data b, r_cnt s) in
          match step with
          | None => RxOob
          | Some (r, k', d, cnt) =>
              match rdn d off (add32 4 (r_cur s)), rdn d (off + 4 + r_cur s) macSz with
              | Some pt, Some tag =>
                  let v := VerifyMac k' (r_seq s) pt tag in
                  let s' := mkRx (set_data b d) PhFinish (r_cur s) k' (r_seq s) cnt (r_msgs s) (r_err s) (r_app s) in
                  if negb (rc_eqb r WS_SUCCESS) then fatal s' r n
                  else if negb (rc_eqb v WS_SUCCESS) then fatal s' v n
                  else rx_packet macSz (mkRx (set_data b d) PhPacket (r_cur s) k' (r_seq s) cnt (r_msgs s) (r_err s) (r_app s)) n
              | _, _ => RxOob
              end
          end
        else
          match rdn (b_data b) off 4, rdn (b_data b) (off + 4) (r_cur s), rdn (b_data b) (off + 4 + r_cur s) macSz with
          | Some aad, Some ct, Some tag =>
              let s0 := mkRx b PhFinish (r_cur s) k (r_seq s) (r_cnt s) (r_msgs s) (r_err s) (r_app s) in
              if r_cur s =? 0 then fatal s0 WS_BAD_ARGUMENT n
              else
                let k' := set_iv k (AeadIncrementExpIv (k_iv k)) in
                let cnt := add32 (r_cnt s) (r_cur s) in
                let s1 := mkRx b PhFinish (r_cur s) k' (r_seq s) cnt (r_msgs s) (r_err s) (r_app s) in
                if negb (is_gcm (k_enc k)) then fatal s1 WS_INVALID_ALGO_ID n
                else match c_open C (k_cst k) (k_iv k) aad ct tag with
                     | None => fatal s1 WS_DECRYPT_E n
                     | Some pt =>
                         rx_packet macSz
                           (mkRx (set_data b (overwrite (b_data b) (off + 4) pt)) PhPacket (r_cur s) k'
                                 (r_seq s) cnt (r_msgs s) (r_err s) (r_app s)) n
                     end
          | _, _, _ => RxOob
          end
    end.

  (* 12841-12858: the PROCESS_PACKET_LENGTH case *)
  Definition rx_length (macSz blockSz : N) s (net : list nev) : rxres C H :=
    let b := r_buf s in
    if b_cap b <? add32 (b_idx b) 4 then fatal s WS_OVERFLOW_E net
    else match rdn (b_data b) (b_idx b) 4 with
         | None => RxOob
         | Some l4 =>
             let cur := match ato32 l4 0 with Some v => v | None => 0 end in
             let s := mkRx b (r_ph s) cur (r_keys s) (r_seq s) (r_cnt s) (r_msgs s) (r_err s) (r_app s) in
             if sub32 (sub32 MAX_PACKET_SZ macSz) 4 <? cur then fatal s WS_OVERFLOW_E net
             else rx_finish macSz blockSz
                    (mkRx b PhFinish cur (r_keys s) (r_seq s) (r_cnt s) (r_msgs s) (r_err s) (r_app s)) net
         end.

  (* src/internal.c:12811-12956 DoReceive. GetInputData clears a want-read
     error before reading (4337-4339); r_err is overwritten by every outcome,
     so that is not represented. *)
  Definition DoReceive s (net : list nev) : rxres C H :=
    let k := r_keys s in
    let blockSz := k_block k in
    let macSz := k_macSz k in
    match r_ph s with
    | PhInit =>
        match GetInputData (r_buf s) net blockSz with
        | GOob => RxOob
        | GNoFuel => RxNoFuel
        | GErr e b n =>
            RxRet WS_FATAL_ERROR (mkRx b PhInit (r_cur s) k (r_seq s) (r_cnt s) (r_msgs s) e (r_app s)) n []
        | GBlock b n =>
            RxRet WS_FATAL_ERROR (mkRx b PhInit (r_cur s) k (r_seq s) (r_cnt s) (r_msgs s) WS_WANT_READ (r_app s)) n []
        | GOk b n =>
            if negb (k_aead k) then
              match rdn (b_data b) (b_idx b) blockSz with
              | None => RxOob
              | Some ct =>
                  let '(r, k', pt) := Decrypt k ct in
                  let s' := mkRx (set_data b (overwrite (b_data b) (b_idx b) pt)) PhLength (r_cur s) k'
                                 (r_seq s) (add32 (r_cnt s) blockSz) (r_msgs s) (r_err s) (r_app s) in
                  if negb (rc_eqb r WS_SUCCESS) then fatal s' r n
                  else rx_length macSz blockSz s' n
              end
            else rx_length macSz blockSz
                   (mkRx b PhLength (r_cur s) k (r_seq s) (r_cnt s) (r_msgs s) (r_err s) (r_app s)) n
        end
    | PhLength => rx_length macSz blockSz s net
    | PhFinish => rx_finish macSz blockSz s net
    | PhPacket => rx_packet macSz s net
    end.
End Rx.

(* ---- sending --------------------------------------------------------- *)
Record txst (C : crypto) := mkTx {
  t_buf : wbuf; t_start : N; t_keys : keys C; t_seq : N; t_cnt : N; t_msgs : N }.
Arguments mkTx {C}. Arguments t_buf {C}. Arguments t_start {C}. Arguments t_keys {C}.
Arguments t_seq {C}. Arguments t_cnt {C}. Arguments t_msgs {C}.

Inductive txres (C : crypto) := TxRet (r : rc) (t : txst C) | TxOob.
Arguments TxRet {C}. Arguments TxOob {C}.

Definition byteN (x : N) : N := x mod 256.

(* src/internal.c:13086-13115 PreparePacket. The five header bytes left
   unwritten until BundlePacket are shown as zeros. *)
Definition PreparePacket {C} (ok : bool) (t : txst C) (payloadSz : N) : txres C :=
  let b := t_buf t in
  if b_len b <? b_idx b then TxRet WS_OVERFLOW_E t
  else
    let paddingSz := byteN (k_block (t_keys t) * 2) in
    let packetSz := add32 (add32 1 payloadSz) paddingSz in
    let outputSz := add32 (add32 4 packetSz) (k_macSz (t_keys t)) in
    match GrowBuffer ok b outputSz with
    | BOob => TxOob
    | BOk r b' =>
        if negb (rc_eqb r WS_SUCCESS) then TxRet r (mkTx b' (t_start t) (t_keys t) (t_seq t) (t_cnt t) (t_msgs t))
        else match put_end b' [0;0;0;0;0] with
             | BOob => TxOob
             | BOk _ b2 => TxRet WS_SUCCESS (mkTx b2 (b_len b') (t_keys t) (t_seq t) (t_cnt t) (t_msgs t))
             end
    end.

(* the caller writes the message number and the payload at the end *)
Definition write_payload {C} (t : txst C) (p : bytes) : txres C :=
  match put_end (t_buf t) p with
  | BOob => TxOob
  | BOk _ b => TxRet WS_SUCCESS (mkTx b (t_start t) (t_keys t) (t_seq t) (t_cnt t) (t_msgs t))
  end.

(* padding arithmetic of BundlePacket, 13136-13144; paddingSz is a byte *)
Definition pad_for (block : N) (aead : bool) (payloadSz : N) : N :=
  let p := byteN (sub32 block (add32 (add32 (if aead then 0 else 4) 1) payloadSz mod block)) in
  if p <? MIN_PAD_LENGTH then byteN (p + block) else p.

(* src/internal.c:13117-13222 BundlePacket. [rnd n] is the padding from the
   random generator (None: failure). On failure the queue keeps what the
   failed steps left in it. *)
Definition BundlePacket {C} (rnd : N -> option bytes) (t : txst C) : txres C :=
  let b := t_buf t in
  let k := t_keys t in
  let idx := b_len b in
  let payloadSz := sub32 (sub32 (sub32 idx (t_start t)) 4) 1 in
  let paddingSz := pad_for (k_block k) (k_aead k) payloadSz in
  let packetSz := add32 (add32 1 payloadSz) paddingSz in
  let hdr := c32toa packetSz ++ [paddingSz] in
  if b_len b <? t_start t + 5 then TxOob else
  let d := overwrite (b_data b) (t_start t) hdr in
  let fail r d k cnt := TxRet r (mkTx (set_data b d) (t_start t) k (t_seq t) cnt (t_msgs t)) in
  if b_cap b <? add32 idx paddingSz then fail WS_BUFFER_E d k (t_cnt t)
  else
    match (if k_enc k =? ID_NONE then Some (repeat 0 (N.to_nat paddingSz)) else rnd paddingSz) with
    | None => fail WS_CRYPTO_FAILED d k (t_cnt t)
    | Some pad =>
        let plain := dropN (t_start t) d ++ pad in
        if negb (k_aead k) then
          let macSz := MacSzForId (k_mac k) in
          let idx := add32 idx paddingSz in
          if b_cap b <? add32 idx macSz then fail WS_BUFFER_E d k (t_cnt t)
          else
            let '(r, tag) := CreateMac k (t_seq t) plain in
            if negb (rc_eqb r WS_SUCCESS) then fail r d k (t_cnt t)
            else
              let cnt := add32 (t_cnt t) (lenN plain) in
              let '(r, k', ct) := Encrypt k plain in
              if negb (rc_eqb r WS_SUCCESS) then fail r d k' cnt
              else TxRet WS_SUCCESS
                     (mkTx (set_data b (takeN (t_start t) d ++ ct ++ tag)) (t_start t) k'
                           (add32 (t_seq t) 1) cnt (add32 (t_msgs t) 1))
        else
          let aad := takeN 4 plain in
          let body := dropN 4 plain in
          let k' := set_iv k (AeadIncrementExpIv (k_iv k)) in
          let cnt := add32 (t_cnt t) (lenN body) in
          if negb (is_gcm (k_enc k)) then fail WS_INVALID_ALGO_ID d k' cnt
          else match c_seal C (k_cst k) (k_iv k) aad body with
               | None => fail WS_ENCRYPT_E d k' cnt
               | Some (ct, tag) =>
                   if b_cap b <? idx + paddingSz + k_macSz k then TxOob
                   else TxRet WS_SUCCESS
                          (mkTx (set_data b (takeN (t_start t) d ++ aad ++ ct ++ tag)) (t_start t) k'
                                (add32 (t_seq t) 1) cnt (add32 (t_msgs t) 1))
               end
    end.

(* One message queued: prepare for at most [est] payload bytes, write, bundle. *)
Definition queue_message {C} (rnd : N -> option bytes) (t : txst C) (est : N) (p : bytes) : txres C :=
  match PreparePacket true t est with
  | TxRet WS_SUCCESS t1 =>
      match write_payload t1 p with
      | TxRet _ t2 => BundlePacket rnd t2
      | TxOob => TxOob
      end
  | r => r
  end.

(* src/internal.c:16147-16205 SendNewKeys, the packet part: the one-byte
   message goes out under the old keys, then the new ones are installed and
   the counters restart (16180-16188). txSeq is not touched. Flushing is
   SendPacket (IoModel.v); owed window credit is in ChanModel.v. *)
Definition install {C} (t : txst C) (k : keys C) : txst C := mkTx (t_buf t) (t_start t) k (t_seq t) 0 0.
Definition SendNewKeys {C} (rnd : N -> option bytes) (t : txst C) (k : keys C) : txres C :=
  match queue_message rnd t 1 [21] with
  | TxRet WS_SUCCESS t' => TxRet WS_SUCCESS (install t' k)
  | r => r
  end.
