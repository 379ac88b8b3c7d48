(* KexModel.v - key exchange data: group exchange (which group the server
   offers, what the client asks for and accepts), the exchange hash each end
   computes, and key derivation.
   Models src/internal.c 622-660, 3117-3345, 5592-5672, 5894-5940, 7221-7450,
   7768-8030, 13695-13845, 13850-14525, 15584-16120, 16209-16685.
   Not modelled here: the crypto library (its results are arguments), packet
   assembly (PacketModel) and the message order (HsModel). *)
From Verif Require Import Base WireModel DhTable.
From Coq Require Import List NArith ZArith Bool.
Import ListNotations.
Open Scope N_scope.

(* ---- group exchange, server ---------------------------------------- *)

(* wolfssh/internal.h 629-630, 638, 672 (default build). *)
Definition GEX_MIN_BITS : N := 2048.
Definition KEX_F_SIZE : N := 1700.
Definition MAX_KEX_KEY_SZ : N := 3168.

(* A candidate group: its size in bits and the prime.
   src/internal.c:13700-13716; each entry but the second can be compiled out. *)
Definition group := (N * bytes)%type.
Definition builtin : list group :=
  [(1024, dhPrimeGroup1); (2048, dhPrimeGroup14); (4096, dhPrimeGroup16)].

(* src/internal.c:13737-13749: the ascending scan. [best] is the candidate kept
   so far. *)
Fixpoint scan (l : list group) (mn pf mx : N) (best : option group) : option group :=
  match l with
  | [] => best
  | g :: r =>
      if (fst g <? mn) || (mx <? fst g) then scan r mn pf mx best
      else if pf <=? fst g then Some g
      else scan r mn pf mx (Some g)
  end.

(* src/internal.c:13695-13762 SelectKexDhGexGroup. None is WS_DH_SIZE_E. The
   table is an argument so that every build configuration is covered. *)
Definition SelectKexDhGexGroup (l : list group) (mn pf mx : N) : option group :=
  let mn := if mn <? GEX_MIN_BITS then GEX_MIN_BITS else mn in
  let mx := if MAX_KEX_KEY_SZ * 8 <? mx then MAX_KEX_KEY_SZ * 8 else mx in
  let mx := if (KEX_F_SIZE - 1) * 8 <? mx then (KEX_F_SIZE - 1) * 8 else mx in
  scan l mn pf mx None.

(* The handshake fields of a group exchange (wolfssh/internal.h 870-900):
   the requested window, and the group stored for it. *)
Record gex := mkGex { x_min : N; x_pref : N; x_max : N; x_p : option bytes; x_g : option bytes }.

(* src/internal.c:622-660 HandshakeInfoNew, with the defaults of
   wolfssh/internal.h 611, 621, 624. *)
Definition gex0 : gex := mkGex 2048 3072 8192 None None.

(* An unpadded number put on the wire the way SendKexDhGexGroup and both hash
   computations do it: a zero byte in front if the top bit is set
   (src/internal.c:16324-16359, 7326-7366). *)
Definition pad_of (b : bytes) : N := match b with x :: _ => if N.testbit x 7 then 1 else 0 | [] => 0 end.
Definition PutPadded (b : bytes) : bytes :=
  c32toa (add32 (lenN b) (pad_of b)) ++ (if pad_of b =? 1 then [0] else []) ++ b.

(* src/internal.c:16281-16380 SendKexDhGexGroup: the new state and the message
   (None: an error, nothing is sent). Allocation and packet assembly succeed. *)
Definition SendKexDhGexGroup (l : list group) (x : gex) : gex * option bytes :=
  match SelectKexDhGexGroup l (x_min x) (x_pref x) (x_max x) with
  | None => (x, None)
  | Some (_, p) =>
      (mkGex (x_min x) (x_pref x) (x_max x) (Some p) (x_g x),
       Some ([31] ++ PutPadded p ++ PutPadded dhGenerator))
  end.

(* src/internal.c:7768-7805 DoKexDhGexRequest, without the skipping of a
   guessed message (HsModel). Each number is stored as it is read. *)
Definition DoKexDhGexRequest (l : list group) (buf : bytes) (x : gex) : gex * option bytes :=
  let len := lenN buf in
  match GetUint32 buf len 0 with
  | POk mn i =>
      let x := mkGex mn (x_pref x) (x_max x) (x_p x) (x_g x) in
      match GetUint32 buf len i with
      | POk pf i =>
          let x := mkGex mn pf (x_max x) (x_p x) (x_g x) in
          match GetUint32 buf len i with
          | POk mx _ => SendKexDhGexGroup l (mkGex mn pf mx (x_p x) (x_g x))
          | _ => (x, None)
          end
      | _ => (x, None)
      end
  | _ => (x, None)
  end.

(* src/internal.c:13767-13845 GetDHPrimeGroup, the group exchange case: what
   the server computes with. *)
Definition GetDHPrimeGroup (l : list group) (x : gex) : option (bytes * bytes) :=
  match x_p x with
  | Some p => Some (p, match x_g x with Some g => g | None => dhGenerator end)
  | None =>
      match SelectKexDhGexGroup l (x_min x) (x_pref x) (x_max x) with
      | Some (_, p) => Some (p, dhGenerator)
      | None => None
      end
  end.

(* ---- group exchange, client ---------------------------------------- *)

(* src/internal.c:16209-16278 SendKexDhGexRequest. None is WS_DH_SIZE_E. *)
Definition SendKexDhGexRequest (x : gex) : gex * option bytes :=
  let mn := if x_min x <? GEX_MIN_BITS then GEX_MIN_BITS else x_min x in
  if x_max x <? mn then (mkGex mn (x_pref x) (x_max x) (x_p x) (x_g x), None)
  else
    let pf := if x_pref x <? mn then mn else x_pref x in
    let pf := if x_max x <? pf then x_max x else pf in
    (mkGex mn pf (x_max x) (x_p x) (x_g x),
     Some ([34] ++ c32toa mn ++ c32toa pf ++ c32toa (x_max x))).

(* (int) of a word32 *)
Definition int32 (x : N) : Z := if x <? 2147483648 then Z.of_N x else (Z.of_N x - 4294967296)%Z.
(* mp_read_unsigned_bin and mp_count_bits *)
Definition mp_val (b : bytes) : N := fold_left (fun a x => a * 256 + x) b 0.
Definition mp_bits (n : N) : N := N.size n.

(* src/internal.c:7818-7940 ValidateKexDhGexGroup. [pt1] and [pt2] are the
   answers of the two probabilistic primality tests; the other mp_ calls are
   assumed not to fail. *)
Definition ValidateKexDhGexGroup (p g : bytes) (minBits maxBits : N) (pt1 pt2 : N -> bool) : rc :=
  if (lenN p =? 0) || (lenN g =? 0) then WS_BAD_ARGUMENT
  else
    let maxBytes := maxBits / 8 + (if maxBits mod 8 =? 0 then 0 else 1) in
    let lead b := match b with 0 :: _ => 1 | _ => 0 end in
    let adjP := sub32 (lenN p) (lead p) in
    let adjG := sub32 (lenN g) (lead g) in
    if (maxBytes <? adjP) || (adjP <? adjG) then WS_DH_SIZE_E
    else
      let P := mp_val p in
      let G := mp_val g in
      let bits := Z.of_N (mp_bits P) in
      if (bits <? int32 minBits)%Z || (int32 maxBits <? bits)%Z then WS_DH_SIZE_E
      else if negb (N.odd P) then WS_CRYPTO_FAILED
      else if G <=? 1 then WS_CRYPTO_FAILED
      else if P - 1 <=? G then WS_CRYPTO_FAILED
      else if negb (pt1 P) then WS_CRYPTO_FAILED
      else if negb (pt2 ((P - 1) / 2)) then WS_CRYPTO_FAILED
      else WS_SUCCESS.

(* src/internal.c:7943-8023 DoKexDhGexGroup up to the call of SendKexDhInit. *)
Definition DoKexDhGexGroup (pt1 pt2 : N -> bool) (buf : bytes) (x : gex) : gex * rc :=
  let len := lenN buf in
  match GetMpint buf len 0 with
  | POk p i =>
      if MAX_KEX_KEY_SZ + 1 <? snd p then (x, WS_DH_SIZE_E)
      else match GetMpint buf len i with
      | POk g _ =>
          match rdn buf (fst p) (snd p), rdn buf (fst g) (snd g) with
          | Some pb, Some gb =>
              let mn := if x_min x <? GEX_MIN_BITS then GEX_MIN_BITS else x_min x in
              let r := ValidateKexDhGexGroup pb gb mn (x_max x) pt1 pt2 in
              if rc_eqb r WS_SUCCESS
              then (mkGex (x_min x) (x_pref x) (x_max x) (Some pb) (Some gb), WS_SUCCESS)
              else (x, r)
          | _, _ => (x, WS_FATAL_OTHER)   (* a read outside the buffer: never, C39 *)
          end
      | PErr e _ => (x, e)
      | POob => (x, WS_FATAL_OTHER)
      end
  | PErr e _ => (x, e)
  | POob => (x, WS_FATAL_OTHER)
  end.

(* ---- the exchange hash ---------------------------------------------- *)

(* The kinds of key exchange that are encoded differently
   (src/internal.c:15667-15738, 16404-16488). *)
Inductive mode := MDh | MGex | MEcdh | MCurve | MKem.
Definition e_mpint (m : mode) : bool := match m with MKem | MCurve => false | _ => true end. (* 16626-16637 *)
Definition f_mpint (m : mode) : bool := match m with MDh | MGex | MEcdh => true | _ => false end. (* 15795-15798 *)
Definition k_mpint (m : mode) : bool := match m with MKem => false | _ => true end. (* 15813, 7433 *)

(* A number that goes through CreateMpint or not, then length, pad, contents
   (src/internal.c:15797-15830, 7433-7450). *)
Definition PutNum (mp : bool) (b : bytes) : bytes := if mp then PutMpint b else PutString b.

(* src/internal.c:13029-13039: how DoProtoId stores the peer's version line
   (without its end of line); 13459-13464: how SendKexInit stores its own
   payload. *)
Definition saved_version (v : bytes) : bytes := c32toa (lenN v) ++ v.
Definition saved_kexinit (payload : bytes) : bytes := c32toa (lenN payload) ++ payload.

(* What one end knows when it hashes. [h_proto] is the configured version
   string with its two end-of-line bytes; [h_peerinit] is the payload of the
   received KEXINIT without its message number. *)
Record hin := mkHin { i_proto : bytes; i_peerproto : bytes; i_kexinit : bytes; i_peerinit : bytes }.

(* src/internal.c:5604-5658, the part of the hash DoKexInit computes. *)
Definition hash_init (server : bool) (h : hin) : bytes :=
  let strSz := sub32 (lenN (i_proto h)) 2 in
  (if server then i_peerproto h else [])
  ++ c32toa strSz ++ takeN strSz (i_proto h)
  ++ (if server then [] else i_peerproto h ++ i_kexinit h)
  ++ c32toa (add32 (lenN (i_peerinit h)) 1) ++ [20] ++ i_peerinit h
  ++ (if server then i_kexinit h else []).

(* The server's host key in the shapes the code distinguishes: RSA (two
   numbers), ECDSA (curve name and point), one string (Ed25519, ML-DSA and its
   composites), and an X.509 chain of one certificate. The first argument is
   the key format's name. *)
Inductive hostkey :=
| HRsa (name e n : bytes)
| HEcc (name prime q : bytes)
| HOne (name q : bytes)
| HCert (name cert : bytes).

(* src/internal.c:13576-13690 BuildRFC6187Info. *)
Definition rfc6187 (name cert : bytes) : bytes :=
  c32toa (8 + 8 + lenN name + lenN cert) ++ c32toa (lenN name) ++ name
  ++ c32toa 1 ++ c32toa (lenN cert) ++ cert ++ c32toa 0.

(* src/internal.c:13876-14437 SendKexGetSigningKey: the host key as hashed.
   CreateMpint leaves contents and pad. *)
Definition hash_hostkey (k : hostkey) : bytes :=
  match k with
  | HRsa name e n =>
      let '(eb, ep) := CreateMpint e 0 in
      let '(nb, np) := CreateMpint n 0 in
      c32toa (12 + lenN name + lenN eb + ep + lenN nb + np)
      ++ c32toa (lenN name) ++ name
      ++ c32toa (lenN eb + ep) ++ (if ep =? 1 then [0] else []) ++ eb
      ++ c32toa (lenN nb + np) ++ (if np =? 1 then [0] else []) ++ nb
  | HEcc name prime q =>
      c32toa (12 + lenN name + lenN prime + lenN q)
      ++ c32toa (lenN name) ++ name ++ c32toa (lenN prime) ++ prime ++ c32toa (lenN q) ++ q
  | HOne name q =>
      c32toa (8 + lenN name + lenN q) ++ c32toa (lenN name) ++ name ++ c32toa (lenN q) ++ q
  | HCert name cert => rfc6187 name cert
  end.

(* src/internal.c:15966-16088: the host key as sent. *)
Definition put_hostkey (k : hostkey) : bytes :=
  match k with
  | HRsa name e n =>
      let '(eb, ep) := CreateMpint e 0 in
      let '(nb, np) := CreateMpint n 0 in
      c32toa (12 + lenN name + lenN eb + ep + lenN nb + np)
      ++ (c32toa (lenN name) ++ name)
      ++ (c32toa (lenN eb + ep) ++ (if ep =? 1 then [0] else []) ++ eb
      ++ c32toa (lenN nb + np) ++ (if np =? 1 then [0] else []) ++ nb)
  | HEcc name prime q =>
      c32toa (12 + lenN name + lenN prime + lenN q)
      ++ (c32toa (lenN name) ++ name)
      ++ (c32toa (lenN prime) ++ prime ++ c32toa (lenN q) ++ q)
  | HOne name q =>
      c32toa (8 + lenN name + lenN q) ++ (c32toa (lenN name) ++ name) ++ (c32toa (lenN q) ++ q)
  | HCert name cert => rfc6187 name cert
  end.

(* src/internal.c:16384-16685 SendKexDhInit: the public value stored in the
   handshake and the message. [e] is what the crypto library generated. *)
Definition SendKexDhInit (m : mode) (e : bytes) : bytes * bytes :=
  let '(eb, pad) := if e_mpint m then CreateMpint e 0 else (e, 0) in
  let id := match m with MGex => 32 | _ => 30 end in
  ((if pad =? 1 then [0] else []) ++ eb,
   [id] ++ c32toa (lenN eb + pad) ++ (if pad =? 1 then [0] else []) ++ eb).

(* src/internal.c:5894-5940 DoKexDhInit: the stored public value. *)
Definition DoKexDhInit (buf : bytes) : option bytes :=
  match GetStringRef buf (lenN buf) 0 with
  | POk s _ =>
      if (MAX_KEX_KEY_SZ + 1 <? snd s) || (snd s =? 0) then None
      else rdn buf (fst s) (snd s)
  | _ => None
  end.

(* src/internal.c:14441-14525: the group exchange values and e, as the server
   hashes them. *)
Definition server_gex (l : list group) (x : gex) : option bytes :=
  match GetDHPrimeGroup l x with
  | Some (p, g) =>
      Some (c32toa (x_min x) ++ c32toa (x_pref x) ++ c32toa (x_max x) ++ PutMpint p ++ PutMpint g)
  | None => None
  end.

(* src/internal.c:15584-15850 SendKexDhReply: everything that goes into the
   exchange hash. [f], [K]: the crypto library's public value and secret. *)
Definition server_hash (l : list group) (h : hin) (m : mode) (k : hostkey) (x : gex)
    (e f K : bytes) : option bytes :=
  match (match m with MGex => server_gex l x | _ => Some [] end) with
  | Some gx =>
      Some (hash_init true h ++ hash_hostkey k ++ gx ++ (c32toa (lenN e) ++ e)
            ++ PutNum (f_mpint m) f ++ PutNum (k_mpint m) K)
  | None => None
  end.

(* src/internal.c:15944-16107: the reply message. [sn] is the signature
   algorithm's name, [sg] the signature. *)
Definition reply_msg (m : mode) (k : hostkey) (f sn sg : bytes) : bytes :=
  [match m with MGex => 33 | _ => 31 end] ++ put_hostkey k ++ PutNum (f_mpint m) f
  ++ c32toa (8 + lenN sn + lenN sg) ++ (c32toa (lenN sn) ++ sn) ++ (c32toa (lenN sg) ++ sg).

(* src/internal.c:7326-7366: the group as the client hashes it. *)
Definition client_gex (x : gex) : option bytes :=
  match x_p x, x_g x with
  | Some p, Some g =>
      Some (c32toa (x_min x) ++ c32toa (x_pref x) ++ c32toa (x_max x) ++ PutPadded p ++ PutPadded g)
  | _, _ => None
  end.

(* src/internal.c:7221-7450 DoKexDhReply: the parts of the reply and the
   bytes hashed. [K]: the secret, a function of the server's public value. *)
Record reply := mkReply { y_key : bytes; y_f : bytes; y_sig : bytes; y_hash : bytes }.
Definition DoKexDhReply (h : hin) (m : mode) (x : gex) (e : bytes) (K : bytes -> bytes)
    (buf : bytes) : option reply :=
  let len := lenN buf in
  if len <? 8 then None
  else match GetUint32 buf len 0 with
  | POk ksz b =>
      if sub32 (sub32 len 4) b <? ksz then None
      else match rdn buf (sub32 b 4) (ksz + 4), rdn buf b ksz,
                 (match m with MGex => client_gex x | _ => Some [] end) with
      | Some hk, Some key, Some gx =>
          let b := add32 b ksz in
          match GetUint32 buf len b with
          | POk fsz c =>
              if sub32 len c <? fsz then None
              else match rdn buf b (fsz + 4), rdn buf c fsz with
              | Some hf, Some f =>
                  match GetUint32 buf len (add32 c fsz) with
                  | POk ssz d =>
                      if sub32 len d <? ssz then None
                      else match rdn buf d ssz with
                      | Some sg =>
                          Some (mkReply key f sg
                            (hash_init false h ++ hk ++ gx ++ (c32toa (lenN e) ++ e) ++ hf
                             ++ PutNum (k_mpint m) (K f)))
                      | None => None
                      end
                  | _ => None
                  end
              | _, _ => None
              end
          | _ => None
          end
      | _, _, _ => None
      end
  | _ => None
  end.

(* ---- key derivation -------------------------------------------------- *)

(* The secret as both ends keep it after hashing: CreateMpint rewrites ssh->k
   in place (src/internal.c:7433-7437, 15813-15815). *)
Definition kept_secret (m : mode) (K : bytes) : bytes :=
  if k_mpint m then fst (CreateMpint K 0) else K.

Section Derive.
  Variable H : bytes -> bytes.       (* the negotiated hash *)
  Variable digestSz : N.             (* wc_HashGetDigestSize *)

  (* src/internal.c:3172-3178, 3218-3225: the secret as hashed *)
  Definition k_field (doKeyPad : bool) (k : bytes) : bytes :=
    let kPad := if doKeyPad then pad_of k else 0 in
    c32toa (add32 (lenN k) kPad) ++ (if kPad =? 1 then [0] else []) ++ k.

  (* src/internal.c:3211-3234: the loop over whole blocks. [key] is what has
     been written so far. *)
  Fixpoint gk_blocks (n : nat) (kf h key : bytes) : bytes :=
    match n with
    | O => key
    | S n => gk_blocks n kf h (key ++ H (kf ++ h ++ key))
    end.

  (* src/internal.c:3117-3262 GenerateKey. None is WS_BAD_ARGUMENT; the hash
     calls are assumed not to fail. *)
  Definition GenerateKey (keyId keySz : N) (k h sid : bytes) (doKeyPad : bool) : option bytes :=
    if (keySz =? 0) || (lenN k =? 0) || (lenN h =? 0) || (lenN sid =? 0) || (digestSz =? 0) then None
    else
      let kf := k_field doKeyPad k in
      let blocks := keySz / digestSz in
      let remainder := keySz mod digestSz in
      let first := H (kf ++ h ++ [keyId] ++ sid) in
      if blocks =? 0 then Some (takeN remainder first)
      else
        let key := gk_blocks (N.to_nat (blocks - 1)) kf h first in
        Some (if 0 <? remainder then key ++ takeN remainder (H (kf ++ h ++ key)) else key).

  (* The sizes negotiated for one direction (wolfssh/internal.h Keys). *)
  Record sizes := mkSizes { z_iv : N; z_enc : N; z_mac : N }.
  Record dirkeys := mkKeys { d_iv : bytes; d_enc : bytes; d_mac : bytes }.

  (* src/internal.c:3266-3345 GenerateKeys: own keys and the peer's, from the
     sizes of own and peer's keys. A size of zero is skipped (the field keeps
     its empty value). None: a derivation failed. *)
  Definition gk (letter : N) (sz : N) (k h sid : bytes) (pad : bool) : option bytes :=
    if 0 <? sz then GenerateKey letter sz k h sid pad else Some [].
  Definition GenerateKeys (server : bool) (own peer : sizes) (k h sid : bytes) (pad : bool)
      : option (dirkeys * dirkeys) :=
    let '(cZ, sZ) := if server then (peer, own) else (own, peer) in
    match gk 65 (z_iv cZ) k h sid pad, gk 66 (z_iv sZ) k h sid pad,
          gk 67 (z_enc cZ) k h sid pad, gk 68 (z_enc sZ) k h sid pad,
          gk 69 (z_mac cZ) k h sid pad, gk 70 (z_mac sZ) k h sid pad with
    | Some a, Some b, Some c, Some d, Some e, Some f =>
        let cK := mkKeys a c e in
        let sK := mkKeys b d f in
        Some (if server then (sK, cK) else (cK, sK))
    | _, _, _, _, _, _ => None
    end.
End Derive.
