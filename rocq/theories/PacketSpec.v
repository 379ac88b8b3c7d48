(* PacketSpec.v - what a packet is, and reception as a function of the byte
   stream alone. *)
From Verif Require Import Base WireModel WireSpec NameTable NegoModel BufModel BufSpec PacketModel IoSpec.
From Coq Require Import List NArith Bool.
Import ListNotations.
Open Scope N_scope.

(* ---- framing (RFC 4253 section 6) ------------------------------------- *)
Definition be32 (n : N) : bytes := [n / 16777216; n / 65536 mod 256; n / 256 mod 256; n mod 256].
(* uint32 packet_length, byte padding_length, payload, padding *)
Definition frame (payload pad : bytes) : bytes :=
  be32 (1 + lenN payload + lenN pad) ++ [lenN pad] ++ payload ++ pad.

(* padding at least 4, less than a block more than that, and the enciphered
   part a multiple of the block size (the length field is not enciphered
   under AEAD) *)
Definition well_padded (block : N) (aead : bool) (payload pad : bytes) : Prop :=
  4 <= lenN pad /\ lenN pad < block + 4 /\ lenN pad < 256 /\
  ((if aead then 0 else 4) + 1 + lenN payload + lenN pad) mod block = 0.

(* ---- parameters a negotiation can install ------------------------------ *)
Definition hmac_id (m : N) : Prop :=
  m = ID_HMAC_SHA1 \/ m = ID_HMAC_SHA1_96 \/ m = ID_HMAC_SHA2_256 \/ m = ID_HMAC_SHA2_512.
Definition keys_ok {C} (k : keys C) : Prop :=
  (* before the first key exchange *)
  (k_enc k = ID_NONE /\ k_mac k = ID_NONE /\ k_block k = 8 /\ k_macSz k = 0 /\ k_aead k = false) \/
  (* AES-CBC or AES-CTR with an HMAC *)
  (is_block_cipher (k_enc k) = true /\ hmac_id (k_mac k) /\ k_block k = 16 /\
     k_macSz k = MacSzForId (k_mac k) /\ k_aead k = false) \/
  (* AES-GCM *)
  (is_gcm (k_enc k) = true /\ k_mac k = ID_NONE /\ k_block k = 16 /\ k_macSz k = 16 /\ k_aead k = true).

(* What is assumed of the cryptography for packets to survive: lengths, and
   that deciphering undoes enciphering and may stop after a block. *)
Record crypto_len (C : crypto) : Prop := {
  co_dec_len : forall k d k' d', c_dec C k d = Some (k', d') -> lenN d' = lenN d;
  co_open_len : forall k iv aad ct tag pt, c_open C k iv aad ct tag = Some pt -> lenN pt = lenN ct }.
Record crypto_ok (C : crypto) : Prop := {
  co_len : crypto_len C;
  co_enc_len : forall k d k' d', c_enc C k d = Some (k', d') -> lenN d' = lenN d;
  co_mac_len : forall m k s d, hmac_id m -> MacSzForId m <= lenN (c_mac C k s d);
  co_seal_len : forall k iv aad pt ct tag, c_seal C k iv aad pt = Some (ct, tag) -> lenN ct = lenN pt /\ lenN tag = 16;
  co_open : forall k iv aad pt ct tag, c_seal C k iv aad pt = Some (ct, tag) -> c_open C k iv aad ct tag = Some pt;
  (* enciphering a first block and the rest: deciphering them one after the
     other gives the plaintext back and the same final state *)
  co_dec_split : forall k a b k' d, lenN a mod 16 = 0 -> c_enc C k (a ++ b) = Some (k', d) ->
     exists k1, c_dec C k (takeN (lenN a) d) = Some (k1, a) /\
                (b = [] -> k1 = k') /\ (b <> [] -> c_dec C k1 (dropN (lenN a) d) = Some (k', b)) }.

(* handlers install only negotiable keys, and none while pending *)
Definition app_safe {C H} (A : applib C H) : Prop :=
  forall h m p, (forall k, hr_keys (a_handle A h m p) = Some k -> keys_ok k) /\
                (hr_rc (a_handle A h m p) = WS_AUTH_PENDING -> hr_keys (a_handle A h m p) = None).
(* and do not claim to have read past their payload *)
Definition app_ok {C H} (A : applib C H) : Prop :=
  app_safe A /\ forall h m p, hr_idx (a_handle A h m p) <= lenN p.

(* ---- reception over a byte stream -------------------------------------- *)
(* everything but the buffers *)
Record abst (C : crypto) (H : Type) := mkA {
  s_ph : phase; s_cur : N; s_keys : keys C; s_seq : N; s_cnt : N; s_msgs : N; s_app : H }.
Arguments mkA {C H}. Arguments s_ph {C H}. Arguments s_cur {C H}. Arguments s_keys {C H}.
Arguments s_seq {C H}. Arguments s_cnt {C H}. Arguments s_msgs {C H}. Arguments s_app {C H}.
Definition abs {C H} (s : rxst C H) : abst C H :=
  mkA (r_ph s) (r_cur s) (r_keys s) (r_seq s) (r_cnt s) (r_msgs s) (r_app s).

Inductive sout (C : crypto) (H : Type) :=
| SWait                                                       (* not enough bytes *)
| SStop (e : rc) (log : list handled)                         (* refused, not consumed *)
| SDone (r : rc) (log : list handled) (a : abst C H) (rest : bytes).
Arguments SWait {C H}. Arguments SStop {C H}. Arguments SDone {C H}.

Section Spec.
  Context {C : crypto} {H : Type}.
  Variable A : applib C H.
  Implicit Types a : abst C H.

  (* the deciphered packet is at the head of [w]; macSz bytes follow it *)
  Definition sp_packet macSz a (w : bytes) : sout C H :=
    match w with
    | _ :: _ :: _ :: _ :: pad :: msg :: body =>
        if pad <? 4 then SStop WS_BUFFER_E []
        else if s_cur a <? 1 + pad + 1 then SStop WS_OVERFLOW_E []
        else
          let payload := takeN (s_cur a - pad - 2) body in
          let '(ok, h) := a_allowed A (s_app a) msg in
          if negb ok then SStop WS_MSGID_NOT_ALLOWED_E []
          else
            let R := a_handle A h msg payload in
            let log := [mkHandled (s_seq a) msg payload] in
            if rc_eqb (hr_rc R) WS_AUTH_PENDING then SStop WS_AUTH_PENDING log
            else
              let '(k, cnt, msgs) := match hr_keys R with Some k => (k, 0, 0) | None => (s_keys a, s_cnt a, s_msgs a) end in
              let '(hw, h') := a_highwater A (hr_st R) cnt (add32 msgs 1) in
              SDone (if rc_eqb (hr_rc R) WS_SUCCESS then hw else hr_rc R) log
                (mkA PhInit (s_cur a) k (add32 (s_seq a) 1) cnt (add32 msgs 1) h')
                (dropN (4 + s_cur a + macSz) w)
    | _ => SStop WS_BUFFER_E []
    end.

  Definition sp_finish a (w : bytes) : sout C H :=
    let k := s_keys a in
    let n := 4 + s_cur a in
    if lenN w <? n + k_macSz k then SWait
    else if k_aead k then
      if s_cur a =? 0 then SStop WS_BAD_ARGUMENT []
      else if negb (is_gcm (k_enc k)) then SStop WS_INVALID_ALGO_ID []
      else match c_open C (k_cst k) (k_iv k) (takeN 4 w) (takeN (s_cur a) (dropN 4 w)) (takeN (k_macSz k) (dropN n w)) with
           | None => SStop WS_DECRYPT_E []
           | Some pt =>
               sp_packet (k_macSz k)
                 (mkA PhPacket (s_cur a) (set_iv k (AeadIncrementExpIv (k_iv k))) (s_seq a)
                      (add32 (s_cnt a) (s_cur a)) (s_msgs a) (s_app a))
                 (takeN 4 w ++ pt ++ dropN n w)
           end
    else
      let '(r, k', pt, cnt) :=
        if k_block k <? n then
          let '(r, k', d) := Decrypt k (takeN (n - k_block k) (dropN (k_block k) w)) in
          (r, k', takeN (k_block k) w ++ d, add32 (s_cnt a) (n - k_block k))
        else (WS_SUCCESS, k, takeN n w, s_cnt a) in
      let v := VerifyMac k' (s_seq a) pt (takeN (k_macSz k) (dropN n w)) in
      if negb (rc_eqb r WS_SUCCESS) then SStop r []
      else if negb (rc_eqb v WS_SUCCESS) then SStop v []
      else sp_packet (k_macSz k) (mkA PhPacket (s_cur a) k' (s_seq a) cnt (s_msgs a) (s_app a)) (pt ++ dropN n w).

  Definition sp_length a (w : bytes) : sout C H :=
    let cur := match ato32 w 0 with Some v => v | None => 0 end in
    if MAX_PACKET_SZ - k_macSz (s_keys a) - 4 <? cur then SStop WS_OVERFLOW_E []
    else sp_finish (mkA PhFinish cur (s_keys a) (s_seq a) (s_cnt a) (s_msgs a) (s_app a)) w.

  Definition sp_receive a (w : bytes) : sout C H :=
    let k := s_keys a in
    match s_ph a with
    | PhInit =>
        if lenN w <? k_block k then SWait
        else if k_aead k then sp_length (mkA PhLength (s_cur a) k (s_seq a) (s_cnt a) (s_msgs a) (s_app a)) w
        else
          let '(r, k', d) := Decrypt k (takeN (k_block k) w) in
          if negb (rc_eqb r WS_SUCCESS) then SStop r []
          else sp_length (mkA PhLength (s_cur a) k' (s_seq a) (add32 (s_cnt a) (k_block k)) (s_msgs a) (s_app a))
                 (d ++ dropN (k_block k) w)
    | PhLength => sp_length a w
    | PhFinish => sp_finish a w
    | PhPacket => sp_packet (k_macSz k) a w
    end.
End Spec.

(* ---- receive states that occur ----------------------------------------- *)
(* The phases promise that the bytes they need are buffered, and that nothing
   beyond the current packet is ("tight"). *)
Definition rx_inv {C H} (s : rxst C H) : Prop :=
  buf_inv (r_buf s) /\ keys_ok (r_keys s) /\
  let u := lenN (unread (r_buf s)) in
  let k := r_keys s in
  match r_ph s with
  | PhInit => True
  | PhLength => k_block k <= u
  | PhFinish => k_block k <= u /\ r_cur s <= MAX_PACKET_SZ - k_macSz k - 4
  | PhPacket => k_block k <= u /\ 4 + r_cur s + k_macSz k <= u /\ r_cur s <= MAX_PACKET_SZ - k_macSz k - 4
  end.
Definition tight {C H} (s : rxst C H) : Prop :=
  let u := lenN (unread (r_buf s)) in
  let k := r_keys s in
  match r_ph s with
  | PhInit | PhLength => u <= k_block k
  | PhFinish | PhPacket => u <= N.max (k_block k) (4 + r_cur s + k_macSz k)
  end.

(* ---- integrity --------------------------------------------------------- *)
(* [u] starts with a deciphered packet of length field [cur], followed by the
   tag as received. Under an HMAC the tag is the digest of the sequence number
   and the packet; under AES-GCM some ciphertext opened to the packet with
   this tag, the nonce being the one before the present one. *)
Definition authentic {C} (k : keys C) (seq cur : N) (u : bytes) : Prop :=
  let tag := takeN (k_macSz k) (dropN (4 + cur) u) in
  if k_aead k then
    exists iv ct, AeadIncrementExpIv iv = k_iv k /\
      c_open C (k_cst k) iv (takeN 4 u) ct tag = Some (takeN cur (dropN 4 u))
  else k_mac k = ID_NONE \/ tag = takeN (k_macSz k) (c_mac C (k_mkey k) seq (takeN (4 + cur) u)).

(* [h] is the message carried by that packet *)
Definition carries (cur : N) (u : bytes) (h : handled) : Prop :=
  exists l4 pad body, lenN l4 = 4 /\ u = l4 ++ pad :: hd_msg h :: body /\ 4 <= pad /\ pad + 2 <= cur /\
    hd_payload h = takeN (cur - pad - 2) body /\ 4 + cur <= lenN u.

(* the packet in a state that has one ready was verified *)
Definition verified {C H} (s : rxst C H) : Prop :=
  match r_ph s with
  | PhPacket => authentic (r_keys s) (r_seq s) (r_cur s) (unread (r_buf s))
  | _ => True
  end.

(* ---- runs -------------------------------------------------------------- *)
(* The application calls DoReceive; [true] at the end: either nothing more will
   arrive or a packet was refused. It goes on after would-block and after
   packets whose result is not fatal. The last argument is the final state. *)
Inductive rx_run {C H} (A : applib C H) : rxst C H -> list nev -> list handled -> bool -> rxst C H -> Prop :=
| rr_leave : forall s net, rx_run A s net [] false s
| rr_block : forall s net r s' n log fin s2,
    DoReceive A s net = RxRet r s' n [] -> r_err s' = WS_WANT_READ ->
    rx_run A s' n log fin s2 -> rx_run A s net log fin s2
| rr_quiet : forall s net r s' n,
    DoReceive A s net = RxRet r s' n [] -> r_err s' = WS_WANT_READ -> stream n = [] -> rx_run A s net [] true s'
| rr_more : forall s net r s' n l log fin s2,
    DoReceive A s net = RxRet r s' n l -> l <> [] -> r <> WS_FATAL_ERROR ->
    rx_run A s' n log fin s2 -> rx_run A s net (l ++ log) fin s2
| rr_refused : forall s net s' n l,
    DoReceive A s net = RxRet WS_FATAL_ERROR s' n l -> (l <> [] \/ r_err s' <> WS_WANT_READ) ->
    rx_run A s net l true s'.

(* any sequence of calls on any schedules, also after failures: the messages
   handled, each with the state it was handled in, and the number of packets
   consumed *)
Inductive rx_hist {C H} (A : applib C H) : rxst C H -> list (rxst C H * handled) -> N -> rxst C H -> Prop :=
| rh_nil : forall s, rx_hist A s [] 0 s
| rh_call : forall s net r s' n l log c s2,
    DoReceive A s net = RxRet r s' n l -> rx_hist A s' log c s2 ->
    rx_hist A s (map (fun h => (s, h)) l ++ log)
            ((match l, r_ph s' with _ :: _, PhInit => 1 | _, _ => 0 end) + c) s2.
(* between packets, as after the version exchange *)
Definition ready {C H} (s : rxst C H) : Prop :=
  buf_inv (r_buf s) /\ keys_ok (r_keys s) /\ r_ph s = PhInit.

(* the cipher position may move; algorithms and keys do not *)
Definition same_algs {C} (k k0 : keys C) : Prop :=
  k_enc k = k_enc k0 /\ k_mac k = k_mac k0 /\ k_block k = k_block k0 /\ k_macSz k = k_macSz k0 /\
  k_aead k = k_aead k0 /\ k_mkey k = k_mkey k0 /\ (k_aead k = true -> k_cst k = k_cst k0).
(* [h] came out of a packet that passed the check of keys [k0] *)
Definition passed {C} (k0 : keys C) (seq : N) (h : handled) : Prop :=
  exists k cur u, same_algs k k0 /\ authentic k seq cur u /\ carries cur u h /\ cur <= MAX_PACKET_SZ - k_macSz k0 - 4.
(* the keys the handler of [h], called in state [s], installs *)
Definition new_keys {C H} (A : applib C H) (s : rxst C H) (h : handled) : option (keys C) :=
  hr_keys (a_handle A (snd (a_allowed A (r_app s) (hd_msg h))) (hd_msg h) (hd_payload h)).

(* what one call may do *)
Definition call_effect {C H} (A : applib C H) (s s' : rxst C H) (log : list handled) : Prop :=
  match log with
  | [] => same_algs (r_keys s') (r_keys s) /\ r_seq s' = r_seq s /\ r_msgs s' = r_msgs s
  | [h] =>
      passed (r_keys s) (r_seq s) h /\ hd_seq h = r_seq s /\ fst (a_allowed A (r_app s) (hd_msg h)) = true /\
      match r_ph s' with
      | PhInit => r_seq s' = add32 (r_seq s) 1 /\
          match new_keys A s h with
          | Some k => r_keys s' = k /\ r_cnt s' = 0 /\ r_msgs s' = 1
          | None => same_algs (r_keys s') (r_keys s) /\ r_msgs s' = add32 (r_msgs s) 1
          end
      | _ => same_algs (r_keys s') (r_keys s) /\ r_seq s' = r_seq s /\ r_msgs s' = r_msgs s
      end
  | _ => False
  end.

(* ---- protection of an outgoing packet ---------------------------------- *)
(* enciphered and authenticated (RFC 4253 section 6.3/6.4, RFC 5647) *)
Definition protects {C} (k : keys C) (seq : N) (pkt : bytes) (k' : keys C) (wire : bytes) : Prop :=
  if k_aead k then
    exists ct tag, c_seal C (k_cst k) (k_iv k) (takeN 4 pkt) (dropN 4 pkt) = Some (ct, tag) /\
      wire = takeN 4 pkt ++ ct ++ tag /\ k' = set_iv k (AeadIncrementExpIv (k_iv k))
  else
    exists ct,
      ((k_enc k = ID_NONE /\ ct = pkt /\ k' = k) \/
       (k_enc k <> ID_NONE /\ exists c, c_enc C (k_cst k) pkt = Some (c, ct) /\ k' = set_cst k c)) /\
      wire = ct ++ (if k_mac k =? ID_NONE then [] else takeN (k_macSz k) (c_mac C (k_mkey k) seq pkt)).

(* the largest payload a receiver with the same parameters takes *)
Definition fits {C} (k : keys C) (p pad : bytes) : Prop :=
  1 + lenN p + lenN pad <= MAX_PACKET_SZ - k_macSz k - 4.

(* A stream of messages; a message may be followed by a change of keys. *)
Inductive sends {C} : keys C -> N -> list (bytes * option (keys C)) -> keys C -> N -> bytes -> Prop :=
| sd_nil : forall k q, sends k q [] k q []
| sd_cons : forall k q p ko pad k1 w1 rest kn qn w2,
    p <> [] -> well_padded (k_block k) (k_aead k) p pad -> fits k p pad ->
    protects k q (frame p pad) k1 w1 ->
    (forall k2, ko = Some k2 -> keys_ok k2) ->
    sends (match ko with Some k2 => k2 | None => k1 end) (add32 q 1) rest kn qn w2 ->
    sends k q ((p, ko) :: rest) kn qn (w1 ++ w2).

(* the receiving application takes these messages, and changes keys with them *)
Fixpoint willing {C H} (A : applib C H) (h : H) (ms : list (bytes * option (keys C))) : Prop :=
  match ms with
  | [] => True
  | (p, ko) :: r =>
      match p with
      | [] => False
      | m :: body =>
          let h1 := snd (a_allowed A h m) in
          let R := a_handle A h1 m body in
          fst (a_allowed A h m) = true /\ passes (hr_rc R) = true /\ hr_keys R = ko /\
          forall cnt n, passes (fst (a_highwater A (hr_st R) cnt n)) = true /\
                        willing A (snd (a_highwater A (hr_st R) cnt n)) r
      end
  end.
(* messages numbered from q on *)
Fixpoint numbered {C} (q : N) (ms : list (bytes * option (keys C))) : list handled :=
  match ms with
  | [] => []
  | (m :: body, _) :: r => mkHandled q m body :: numbered (add32 q 1) r
  | ([], _) :: r => numbered q r
  end.

(* A sender's history: messages queued with some size estimate that covers
   them, and key changes. Only successful steps. *)
Inductive tx_run {C} (rnd : N -> option bytes) : txst C -> list (bytes * option (keys C)) -> txst C -> Prop :=
| tr_nil : forall t, tx_run rnd t [] t
| tr_msg : forall t est p t1 ms t2, p <> [] -> lenN p <= est -> lenN (unread (t_buf t)) + est + 200 < W32 ->
    queue_message rnd t est p = TxRet WS_SUCCESS t1 -> tx_run rnd t1 ms t2 -> tx_run rnd t ((p, None) :: ms) t2
| tr_keys : forall t k t1 ms t2, keys_ok k -> lenN (unread (t_buf t)) + 201 < W32 ->
    SendNewKeys rnd t k = TxRet WS_SUCCESS t1 -> tx_run rnd t1 ms t2 -> tx_run rnd t (([21], Some k) :: ms) t2.
(* a random source returns as many bytes as asked *)
Definition rnd_ok (rnd : N -> option bytes) : Prop := forall n pad, rnd n = Some pad -> lenN pad = n.

(* the packet [pkt], whose plaintext came out of the raw stream [w] under keys
   [k], is the one whose tag follows it in [w] *)
Definition raw_checked {C} (k : keys C) (seq : N) (w : bytes) (cur : N) (pkt : bytes) : Prop :=
  lenN pkt = 4 + cur /\
  if k_aead k then
    exists body, c_open C (k_cst k) (k_iv k) (takeN 4 w) (takeN cur (dropN 4 w)) (takeN (k_macSz k) (dropN (4 + cur) w)) = Some body /\
      pkt = takeN 4 w ++ body
  else
    exists k1 d1, Decrypt k (takeN (k_block k) w) = (WS_SUCCESS, k1, d1) /\
      ((4 + cur <= k_block k /\ pkt = takeN (4 + cur) d1) \/
       (k_block k < 4 + cur /\ exists k2 d2, Decrypt k1 (takeN (4 + cur - k_block k) (dropN (k_block k) w)) = (WS_SUCCESS, k2, d2) /\
          pkt = d1 ++ d2)) /\
      (k_mac k = ID_NONE \/
       takeN (k_macSz k) (dropN (4 + cur) (d1 ++ dropN (k_block k) w)) = takeN (k_macSz k) (c_mac C (k_mkey k) seq pkt)).

