(* NegoModel.v - name lists and algorithm negotiation.
   Models src/internal.c 3578-3714, 4584-4830, 4833-5164, 5194-5258,
   5273-5570 and 13236-13432. *)
From Verif Require Import Base WireModel NameTable.
From Coq Require Import List NArith Bool.
Import ListNotations.
Open Scope N_scope.

Fixpoint bytes_eqb (a b : bytes) : bool :=
  match a, b with
  | [], [] => true
  | x :: a', y :: b' => (x =? y) && bytes_eqb a' b'
  | _, _ => false
  end.

(* src/internal.c:3578-3598 NameToIdType: first table row with that name. *)
Fixpoint lookup_name (t : list (N * N * bytes)) (name : bytes) : N * N :=
  match t with
  | [] => (ID_UNKNOWN, TYPE_OTHER)
  | (id, ty, n) :: r => if bytes_eqb name n then (id, ty) else lookup_name r name
  end.
Definition NameToIdType (name : bytes) : N * N := lookup_name NameIdMap name.
(* src/internal.c:3601-3604 NameToId. *)
Definition NameToId (name : bytes) : N := fst (NameToIdType name).

(* src/internal.c:3607-3620 IdToName: first row with that id; "unknown". *)
Fixpoint lookup_id (t : list (N * N * bytes)) (id : N) : bytes :=
  match t with
  | [] => [117;110;107;110;111;119;110]
  | (i, _, n) :: r => if i =? id then n else lookup_id r id
  end.
Definition IdToName (id : N) : bytes := lookup_id NameIdMap id.

Definition COMMA : N := 44.

(* src/internal.c:3646-3714 CheckAlgoList, default build (no null cipher).
   [cur] is the name being scanned (list+begin .. i), [seen] says whether i
   is 0, [usable] is usableCount. *)
Fixpoint check_algo (type : N) (usable : N) (first : bool) (cur l : bytes) : rc :=
  let elem (final : bool) (k : N -> rc) : rc :=
    if lenN cur =? 0 then
      if negb final || first then WS_INVALID_ALGO_ID else k usable
    else
      let '(id, ty) := NameToIdType cur in
      if id =? ID_NONE then WS_INVALID_ALGO_ID
      else if negb (id =? ID_UNKNOWN) then
        if negb (ty =? type) then WS_INVALID_ALGO_ID else k (usable + 1)
      else k usable in
  match l with
  | [] => elem true (fun u => if u =? 0 then WS_INVALID_ALGO_ID else WS_SUCCESS)
  | c :: r =>
      if c =? COMMA then elem false (fun u => check_algo type u false [] r)
      else check_algo type usable false (cur ++ [c]) r
  end.
Definition CheckAlgoList (l : bytes) (type : N) : rc := check_algo type 0 true [] l.

Definition MAX_NAMELIST_SZ : N := 4096.
Definition MAX_NAMELIST_CNT : N := 64.

(* src/internal.c:4588-4660 GetNameListRaw. [cap] is the capacity *idListSz on
   entry. The scan position i is the boundary between [cur] (bytes begin..i)
   and the rest; ids is idList[0..idListIdx), tc the token count. *)
Fixpoint gnl (cap tc : N) (ids : list N) (cur l : bytes) : res (list N) :=
  let elem (k : N -> list N -> res (list N)) : res (list N) :=
    if lenN cur =? 0 then ROk ids
    else if MAX_NAMELIST_CNT <? tc + 1 then RErr WS_BUFFER_E
    else
      let id := NameToId cur in
      if negb (id =? ID_UNKNOWN) || (lenN ids =? 0) then
        if cap <=? lenN ids then RErr WS_BUFFER_E else k (tc + 1) (ids ++ [id])
      else k (tc + 1) ids in
  match l with
  | [] => elem (fun _ ids => ROk ids)
  | c :: r =>
      if c =? COMMA then elem (fun tc ids => gnl cap tc ids [] r)
      else gnl cap tc ids (cur ++ [c]) r
  end.
Definition GetNameListRaw (cap : N) (l : bytes) : res (list N) :=
  if MAX_NAMELIST_SZ <? lenN l then RErr WS_BUFFER_E else gnl cap 0 [] [] l.

(* src/internal.c:4663-4694 GetNameList. *)
Definition GetNameList (cap : N) (buf : bytes) (len idx : N) : pres (list N) :=
  if len =? 0 then PErr WS_BAD_ARGUMENT idx
  else
    pbind (GetStringRef buf len idx) (fun s i =>
      match rdn buf (fst s) (snd s) with
      | None => POob
      | Some nl =>
          match GetNameListRaw cap nl with
          | ROk ids => POk ids i
          | RErr e => PErr e i
          end
      end).

Inductive side := Server | Client.

(* src/internal.c:4799-4830 MatchIdLists. *)
Fixpoint match_ids (left right : list N) : N :=
  match left with
  | [] => ID_UNKNOWN
  | x :: r => if existsb (N.eqb x) right then x else match_ids r right
  end.
Definition MatchIdLists (sd : side) (left right : list N) : N :=
  match sd with
  | Server => match_ids left right
  | Client => match_ids right left
  end.

(* src/internal.c:4833-4861 BlockSzForId. *)
Definition BlockSzForId (id : N) : N :=
  if id =? ID_NONE then 8
  else if (ID_AES128_CBC <=? id) && (id <=? ID_AES256_GCM) then 16
  else 0.
(* src/internal.c:4864-4886 MacSzForId. *)
Definition MacSzForId (id : N) : N :=
  if id =? ID_HMAC_SHA1 then 20 else if id =? ID_HMAC_SHA1_96 then 12
  else if id =? ID_HMAC_SHA2_256 then 32 else if id =? ID_HMAC_SHA2_512 then 64 else 0.
(* src/internal.c:4889-4935 KeySzForId. *)
Definition KeySzForId (id : N) : N :=
  if id =? ID_HMAC_SHA1 then 20 else if id =? ID_HMAC_SHA1_96 then 20
  else if id =? ID_HMAC_SHA2_256 then 32 else if id =? ID_HMAC_SHA2_512 then 64
  else if (id =? ID_AES128_CBC) || (id =? ID_AES128_CTR) || (id =? ID_AES128_GCM) then 16
  else if (id =? ID_AES192_CBC) || (id =? ID_AES192_CTR) || (id =? ID_AES192_GCM) then 24
  else if (id =? ID_AES256_CBC) || (id =? ID_AES256_CTR) || (id =? ID_AES256_GCM) then 32
  else 0.
(* src/internal.c:5153-5164 AeadModeForId. *)
Definition AeadModeForId (id : N) : bool :=
  (id =? ID_AES128_GCM) || (id =? ID_AES192_GCM) || (id =? ID_AES256_GCM).

(* src/internal.c:5194-5207 AlgoListSz: one trailing comma is not counted; the
   callers use the first AlgoListSz bytes. NULL is the empty list. *)
Definition strip_comma (l : bytes) : bytes :=
  match rev l with
  | c :: r => if c =? COMMA then rev r else l
  | [] => []
  end.

(* src/internal.c:5210-5258 SetLocalAlgoIds / SetPeerAlgoIds: the per-direction
   transport parameters. *)
Record dirparams := mkDir {
  d_enc : N; d_aead : bool; d_blockSz : N; d_keySz : N; d_ivSz : N;
  d_mac : N; d_macSz : N; d_macKeySz : N }.
Definition SetAlgoIds (encId : N) (aead : bool) (macId : N) : dirparams :=
  let blk := BlockSzForId encId in
  if negb aead then
    mkDir encId aead blk (KeySzForId encId) blk macId (MacSzForId macId) (KeySzForId macId)
  else
    mkDir encId aead blk (KeySzForId encId) 12 ID_NONE blk 0.

(* What an endpoint is configured with: ssh->algoListKex, algoListKey (NULL on
   a server that derives it from its keys), ctx->publicKeyAlgo,
   algoListCipher, algoListMac. *)
Record algocfg := mkCfg {
  a_kex : bytes; a_key : option bytes; a_pubkeys : list N; a_enc : bytes; a_mac : bytes }.

(* What DoKexInit decides. *)
Record nego := mkNego {
  n_kex : N; n_pubkey : N; n_local : dirparams; n_peer : dirparams;
  n_extinfo : bool; n_ignoreNext : bool }.

(* lift a raw list result into the parser monad *)
Definition lift {A} (r : res A) (idx : N) : pres A :=
  match r with ROk a => POk a idx | RErr e => PErr e idx end.

Definition ID_LIST_MAX : N := 32.  (* WOLFSSH_KEXINIT_ID_LIST_MAX, 5267-5271 *)
Definition COOKIE_SZ : N := 16.

(* the host-key list matched against, 5376-5388 *)
Definition own_keys (sd : side) (c : algocfg) : res (list N) :=
  match sd, a_key c with
  | Server, None => ROk (a_pubkeys c)
  | _, Some l => GetNameListRaw ID_LIST_MAX (strip_comma l)
  | Client, None => GetNameListRaw ID_LIST_MAX []
  end.

Notation "x <-[ i ] e1 ; e2" := (pbind e1 (fun x i => e2))
  (at level 61, i name, e1 at next level, right associativity).

(* one direction's MAC, 5446-5494: matched only when the cipher is not AEAD *)
Definition mac_match (sd : side) (c : algocfg) (aead : bool) (list : list N) (i : N) : pres N :=
  if aead then POk ID_NONE i
  else
    own <-[i] lift (GetNameListRaw ID_LIST_MAX (strip_comma (a_mac c))) i;
    let id := MatchIdLists sd list own in
    if id =? ID_UNKNOWN then PErr WS_MATCH_MAC_ALGO_E i else POk id i.

Definition enc_match (sd : side) (c : algocfg) (list : list N) (i : N) : pres N :=
  own <-[i] lift (GetNameListRaw ID_LIST_MAX (strip_comma (a_enc c))) i;
  let id := MatchIdLists sd list own in
  if id =? ID_UNKNOWN then PErr WS_MATCH_ENC_ALGO_E i else POk id i.

Definition none_match (sd : side) (list : list N) (i : N) : pres unit :=
  if MatchIdLists sd list [ID_NONE] =? ID_UNKNOWN then PErr WS_INVALID_ALGO_ID i else POk tt i.

(* src/internal.c:5330-5570 DoKexInit: the parsing and negotiation part, from
   the cookie to the choice of the transport parameters. buf is the payload
   after the message number. Left out: the is-keying flags (modelled in the
   handshake files), hashing the payload, the KEXINIT answer, and the
   disconnect sent on a match error. extInfoSent is false on entry (first key
   exchange). *)
Definition DoKexInit (sd : side) (c : algocfg) (buf : bytes) (len idx : N) : pres nego :=
  if len <? add32 idx COOKIE_SZ then PErr WS_PARSE_E idx
  else
    let i := add32 idx COOKIE_SZ in
    kexl <-[i] GetNameList ID_LIST_MAX buf len i;
    ownkex <-[i] lift (GetNameListRaw ID_LIST_MAX (strip_comma (a_kex c))) i;
    let kexGuess := match kexl with x :: _ => x | [] => ID_UNKNOWN end in
    let kexId := MatchIdLists sd kexl ownkex in
    if kexId =? ID_UNKNOWN then PErr WS_MATCH_KEX_ALGO_E i else
    let ext := match sd with Server => ID_EXTINFO_C | Client => ID_EXTINFO_S end in
    let sendExt := MatchIdLists sd kexl [ext] =? ext in
    keyl <-[i] GetNameList ID_LIST_MAX buf len i;
    ownkey <-[i] lift (own_keys sd c) i;
    let keyGuess := match keyl with x :: _ => x | [] => ID_UNKNOWN end in
    let keyId := MatchIdLists sd keyl ownkey in
    if keyId =? ID_UNKNOWN then PErr WS_MATCH_KEY_ALGO_E i else
    el1 <-[i] GetNameList ID_LIST_MAX buf len i;
    encC2S <-[i] enc_match sd c el1 i;
    el2 <-[i] GetNameList ID_LIST_MAX buf len i;
    encS2C <-[i] enc_match sd c el2 i;
    let aeadC2S := AeadModeForId encC2S in
    let aeadS2C := AeadModeForId encS2C in
    ml1 <-[i] GetNameList ID_LIST_MAX buf len i;
    macC2S <-[i] mac_match sd c aeadC2S ml1 i;
    ml2 <-[i] GetNameList ID_LIST_MAX buf len i;
    macS2C <-[i] mac_match sd c aeadS2C ml2 i;
    cl1 <-[i] GetNameList ID_LIST_MAX buf len i;
    _u <-[i] none_match sd cl1 i;
    cl2 <-[i] GetNameList ID_LIST_MAX buf len i;
    _u <-[i] none_match sd cl2 i;
    _u <-[i] GetSkip buf len i;
    _u <-[i] GetSkip buf len i;
    follows <-[i] GetBoolean buf len i;
    let ignore := negb (follows =? 0) &&
                  (negb (kexGuess =? kexId) || negb (keyGuess =? keyId)) in
    reserved <-[i] GetUint32 buf len i;
    if negb (reserved =? 0) then PErr WS_PARSE_E i else
    let c2s := SetAlgoIds encC2S aeadC2S macC2S in
    let s2c := SetAlgoIds encS2C aeadS2C macS2C in
    match sd with
    | Server => POk (mkNego kexId keyId s2c c2s sendExt ignore) i
    | Client => POk (mkNego kexId keyId c2s s2c sendExt ignore) i
    end.

(* src/internal.c:13277-13321 BuildNameList. *)
Fixpoint BuildNameList (ids : list N) : bytes :=
  match ids with
  | [] => []
  | [x] => IdToName x
  | x :: r => IdToName x ++ [COMMA] ++ BuildNameList r
  end.

(* src/internal.c:13376-13384 *)
Definition ext_suffix (sd : side) : bytes :=
  match sd with
  | Client => [44;101;120;116;45;105;110;102;111;45;99]
  | Server => [44;101;120;116;45;105;110;102;111;45;115]
  end.

(* 13350-13370 and 13414-13419 *)
Definition key_names (sd : side) (c : algocfg) : bytes :=
  match sd, a_key c with
  | Server, None => strip_comma (BuildNameList (a_pubkeys c))
  | _, Some l => strip_comma l
  | Client, None => []
  end.

(* src/internal.c:13402-13432 SendKexInit: the payload after the message
   number (cookie and lists). *)
Definition kexinit_payload (sd : side) (c : algocfg) (cookie : bytes) : bytes :=
  cookie ++
  PutString (strip_comma (a_kex c) ++ ext_suffix sd) ++
  PutString (key_names sd c) ++
  PutString (strip_comma (a_enc c)) ++ PutString (strip_comma (a_enc c)) ++
  PutString (strip_comma (a_mac c)) ++ PutString (strip_comma (a_mac c)) ++
  PutString (strip_comma cannedNoneNames) ++ PutString (strip_comma cannedNoneNames) ++
  PutUint32 0 ++ PutUint32 0 ++ PutBoolean 0 ++ PutUint32 0.
