(* WireModel.v - the SSH field readers and writers.
   Models src/misc.c 74-98 and src/internal.c 4387-4582, 5691-5732. *)
From Verif Require Import Base.
From Coq Require Import List NArith Bool.
Import ListNotations.
Open Scope N_scope.

(* src/misc.c:74-88 ato32: four bytes, big endian. The shifts and ors of the C
   code on bytes below 256 are written as base-256 arithmetic; [land 255] is
   the C mask. *)
Definition ato32_val (c0 c1 c2 c3 : N) : N :=
  ((N.land c0 255 * 256 + N.land c1 255) * 256 + N.land c2 255) * 256
  + N.land c3 255.
Definition ato32 (buf : bytes) (off : N) : option N :=
  match rd buf off, rd buf (off + 1), rd buf (off + 2), rd buf (off + 3) with
  | Some a, Some b, Some c, Some d => Some (ato32_val a b c d)
  | _, _, _, _ => None
  end.

(* src/misc.c:91-98 c32toa. *)
Definition c32toa (u : N) : bytes :=
  [ N.land (N.shiftr u 24) 255; N.land (N.shiftr u 16) 255;
    N.land (N.shiftr u 8) 255; N.land u 255 ].

(* src/internal.c:4387-4398 GetBoolean: the raw byte is returned. *)
Definition GetBoolean (buf : bytes) (len idx : N) : pres N :=
  if idx <? len then
    match rd buf idx with
    | Some v => POk v (add32 idx 1)
    | None => POob
    end
  else PErr WS_BUFFER_E idx.

(* src/internal.c:4401-4412 GetUint32. *)
Definition GetUint32 (buf : bytes) (len idx : N) : pres N :=
  if (idx <? len) && (4 <=? sub32 len idx) then
    match ato32 buf idx with
    | Some v => POk v (add32 idx 4)
    | None => POob
    end
  else PErr WS_BUFFER_E idx.

(* src/internal.c:4416-4428 GetUint64. *)
Definition GetUint64 (buf : bytes) (len idx : N) : pres N :=
  pbind (GetUint32 buf len idx) (fun hi i =>
  pbind (GetUint32 buf len i) (fun lo j => POk (hi * W32 + lo) j)).

(* src/internal.c:4432-4444 GetSize. The index stays advanced on error. *)
Definition GetSize (buf : bytes) (len idx : N) : pres N :=
  pbind (GetUint32 buf len idx) (fun v i =>
    if sub32 len i <? v then PErr WS_BUFFER_E i else POk v i).

(* src/internal.c:4447-4464 GetSkip. *)
Definition GetSkip (buf : bytes) (len idx : N) : pres unit :=
  pbind (GetSize buf len idx) (fun sz i =>
    if (i <=? len) && (sz <=? sub32 len i) then POk tt (add32 i sz)
    else PErr WS_BUFFER_E i).

(* A string reference: (offset of the first byte, size). An empty string has
   a NULL pointer in C (4574-4575); here its offset is meaningless and its
   size 0. *)
Definition strref := (N * N)%type.

(* src/internal.c:4557-4582 GetStringRef. *)
Definition GetStringRef (buf : bytes) (len idx : N) : pres strref :=
  pbind (GetUint32 buf len idx) (fun sz i =>
    if (i <=? len) && (sz <=? sub32 len i) then
      if sz =? 0 then POk (i, 0) i else POk (i, sz) (add32 i sz)
    else PErr WS_BUFFER_E i).

(* src/internal.c:4470-4485 GetMpint: a string whose first byte must not have
   the top bit set. *)
Definition GetMpint (buf : bytes) (len idx : N) : pres strref :=
  pbind (GetStringRef buf len idx) (fun s i =>
    if 0 <? snd s then
      match rd buf (fst s) with
      | Some b => if N.testbit b 7 then PErr WS_PARSE_E i else POk s i
      | None => POob
      end
    else POk s i).

(* src/internal.c:4490-4514 GetString: copies at most sSz-1 bytes and adds a
   NUL. The result is the destination contents up to and including the NUL
   (so its length is what the C code writes into s). *)
Definition GetString (sSz : N) (buf : bytes) (len idx : N) : pres bytes :=
  if sSz =? 0 then PErr WS_BUFFER_E idx
  else
    pbind (GetStringRef buf len idx) (fun s i =>
      let strSz := snd s in
      let n := if sSz <=? strSz then sSz - 1 else strSz in
      if strSz =? 0 then POk [0] i
      else match rdn buf (fst s) n with
           | Some d => POk (d ++ [0]) i
           | None => POob
           end).

(* src/internal.c:4519-4552 GetStringAlloc: copies the whole string and adds
   a NUL. The allocation is assumed to succeed. *)
Definition GetStringAlloc (buf : bytes) (len idx : N) : pres bytes :=
  pbind (GetStringRef buf len idx) (fun s i =>
    if 0 <? snd s then
      match rdn buf (fst s) (snd s) with
      | Some d => POk (d ++ [0]) i
      | None => POob
      end
    else POk [0] i).

(* Encoders. The senders write fields in line, always as
   c32toa(sz, out + idx); idx += LENGTH_SZ; WMEMCPY(out + idx, data, sz);
   e.g. src/internal.c:20326-20335. *)
Definition PutUint32 (v : N) : bytes := c32toa v.
Definition PutString (s : bytes) : bytes := c32toa (lenN s) ++ s.
Definition PutBoolean (b : N) : bytes := [b].

(* src/internal.c:5704-5707: index of the first non-zero byte. *)
Fixpoint count_zeros (b : bytes) : N :=
  match b with
  | [] => 0
  | x :: r => if x =? 0 then 1 + count_zeros r else 0
  end.

(* src/internal.c:5691-5732 CreateMpint: the new contents (buf[0..sz)) and the
   pad flag. When *sz is 0 the flag is left as the caller set it ([pad0]). *)
Definition CreateMpint (buf : bytes) (pad0 : N) : bytes * N :=
  if lenN buf =? 0 then (buf, pad0)
  else
    let i := count_zeros buf in
    if i =? lenN buf then ([], 0)
    else
      let top := match rd buf i with Some b => N.testbit b 7 | None => false end in
      let pad := if top then 1 else 0 in
      let '(i, pad) := if (0 <? i) && (pad =? 1) then (i - 1, 0) else (i, pad) in
      (dropN i buf, pad).

(* How the callers put the result on the wire or into the exchange hash:
   length sz + pad, a zero byte if pad, contents
   (src/internal.c:16638-16669 SendKexDhInit, 7433-7450 DoKexDhReply,
   15797-15830 SendKexDhReply). pad starts at 0 there. *)
Definition PutMpint (buf : bytes) : bytes :=
  let '(b, pad) := CreateMpint buf 0 in
  c32toa (lenN b + pad) ++ (if pad =? 1 then [0] else []) ++ b.

(* Sequences of fields, as a sender writes them one after the other and a
   receiver reads them back (e.g. SendChannelOpenConf, src/internal.c
   19935-19979, against DoChannelOpenConf, 11129-11186). Nothing in the C code
   corresponds to the list; it is the composition of the single-field steps. *)
Inductive field := FU32 (v : N) | FStr (s : bytes) | FBool (b : N).
Inductive kind := KU32 | KStr | KBool.
Definition kind_of (f : field) := match f with FU32 _ => KU32 | FStr _ => KStr | FBool _ => KBool end.
Definition put_field (f : field) : bytes :=
  match f with FU32 v => PutUint32 v | FStr s => PutString s | FBool b => PutBoolean b end.
Definition put_fields (fs : list field) : bytes := concat (map put_field fs).
Definition field_ok (f : field) : Prop :=
  match f with FU32 v => is32 v | FStr s => is32 (lenN s) /\ bytes_ok s | FBool b => b < 256 end.
(* one field read with the reader for its type; the contents of a string
   reference are the bytes it points at *)
Definition get_field (k : kind) (m : bytes) (len i : N) : pres field :=
  match k with
  | KU32 => pbind (GetUint32 m len i) (fun v j => POk (FU32 v) j)
  | KStr => pbind (GetStringRef m len i) (fun s j => POk (FStr (takeN (snd s) (dropN (fst s) m))) j)
  | KBool => pbind (GetBoolean m len i) (fun b j => POk (FBool b) j)
  end.
Fixpoint get_fields (ks : list kind) (m : bytes) (len i : N) : pres (list field) :=
  match ks with
  | [] => POk [] i
  | k :: r => pbind (get_field k m len i) (fun f j =>
              pbind (get_fields r m len j) (fun fs j' => POk (f :: fs) j'))
  end.

