(* BufModel.v - the I/O buffer. Models wolfssh/internal.h:739-748 and
   src/internal.c 4031-4151, 12003-12040. *)
From Verif Require Import Base.
From Coq Require Import List NArith Bool.
Import ListNotations.
Open Scope N_scope.

Definition STATIC_BUFFER_LEN : N := 16.  (* wolfssh/internal.h:735 *)
Definition UINT32_MAX : N := 4294967295.

(* wolfssh/internal.h:739-748 WOLFSSH_BUFFER. [b_data] is buffer[0..length):
   the bytes of the allocation past length are not represented. [b_cap] is
   bufferSz, [b_idx] idx. The static/dynamic distinction is kept as b_dyn;
   scrubbing freed memory is not represented. *)
Record wbuf := mkBuf { b_data : bytes; b_idx : N; b_cap : N; b_dyn : bool }.
Definition b_len (b : wbuf) : N := lenN (b_data b).

(* A C function working on a buffer: return code and buffer, or a memory
   access outside the allocation. *)
Inductive bres := BOk (r : rc) (b : wbuf) | BOob.

(* src/internal.c:4031-4052 BufferInit. [ok] says whether malloc succeeds. *)
Definition BufferInit (ok : bool) (size : N) : bres :=
  let size := if size <=? STATIC_BUFFER_LEN then STATIC_BUFFER_LEN else size in
  if STATIC_BUFFER_LEN <? size then
    if ok then BOk WS_SUCCESS (mkBuf [] 0 size true)
    else BOk WS_MEMORY_E (mkBuf [] 0 size false)
  else BOk WS_SUCCESS (mkBuf [] 0 size false).

(* src/internal.c:4054-4107 GrowBuffer. The unsigned expressions
   sz + length - idx and length - idx wrap. *)
Definition GrowBuffer (ok : bool) (b : wbuf) (sz : N) : bres :=
  let len := b_len b in
  let used := sub32 len (b_idx b) in
  let newSz := sub32 (add32 sz len) (b_idx b) in
  if b_cap b <? newSz then
    if negb ok then BOk WS_MEMORY_E b
    else if len =? 0 then BOk WS_SUCCESS (mkBuf [] (sub32 0 (b_idx b)) newSz true)
    else match rdn (b_data b) (b_idx b) used with
         | None => BOob
         | Some d => if newSz <? used then BOob else BOk WS_SUCCESS (mkBuf d 0 newSz true)
         end
  else if 0 <? len then
    match rdn (b_data b) (b_idx b) used with
    | None => BOob
    | Some d => BOk WS_SUCCESS (mkBuf d 0 (b_cap b) (b_dyn b))
    end
  else BOk WS_SUCCESS b.

(* src/internal.c:4110-4151 ShrinkBuffer. *)
Definition ShrinkBuffer (b : wbuf) (forced : bool) : bres :=
  let used := sub32 (b_len b) (b_idx b) in
  if negb forced && (STATIC_BUFFER_LEN <? used) then BOk WS_SUCCESS b
  else if forced then BOk WS_SUCCESS (mkBuf [] 0 STATIC_BUFFER_LEN false)
  else if used =? 0 then BOk WS_SUCCESS (mkBuf [] 0 STATIC_BUFFER_LEN false)
  else match rdn (b_data b) (b_idx b) used with
       | None => BOob
       | Some d => BOk WS_SUCCESS (mkBuf d 0 STATIC_BUFFER_LEN false)
       end.

(* a memcpy of [d] at buffer + length, then length += its size *)
Definition put_end (b : wbuf) (d : bytes) : bres :=
  if b_cap b <? b_len b + lenN d then BOob
  else BOk WS_SUCCESS (mkBuf (b_data b ++ d) (b_idx b) (b_cap b) (b_dyn b)).

(* src/internal.c:12003-12040 AppendBuffer. *)
Definition AppendBuffer (ok : bool) (b : wbuf) (d : bytes) : bres :=
  let dataSz := lenN d in
  let used := sub32 (b_len b) (b_idx b) in
  if sub32 UINT32_MAX used <? dataSz then BOk WS_OVERFLOW_E b
  else
    let needSz := add32 used dataSz in
    let growSz :=
      if b_cap b <? needSz then
        let targetSz :=
          if (b_cap b <=? UINT32_MAX / 2) && (needSz <? w32 (b_cap b * 2))
          then w32 (b_cap b * 2) else needSz in
        sub32 targetSz used
      else dataSz in
    match GrowBuffer ok b growSz with
    | BOk WS_SUCCESS b' => put_end b' d
    | r => r
    end.

(* The ways the rest of the library uses a buffer. BReserve is GrowBuffer
   followed by writing [d], at most [sz] bytes, at the end (PreparePacket and
   the builders; GetInputData and GetInputLine with received data). BConsume
   is idx += n by a reader that checked n bytes are there. *)
Inductive bop :=
| BGrow (ok : bool) (sz : N)
| BReserve (ok : bool) (sz : N) (d : bytes)
| BAppend (ok : bool) (d : bytes)
| BConsume (n : N)
| BShrink (forced : bool).

Definition bstep (b : wbuf) (o : bop) : bres :=
  match o with
  | BGrow ok sz => GrowBuffer ok b sz
  | BReserve ok sz d =>
      match GrowBuffer ok b sz with
      | BOk WS_SUCCESS b' => put_end b' d
      | r => r
      end
  | BAppend ok d => AppendBuffer ok b d
  | BConsume n =>
      if n <=? b_len b - b_idx b
      then BOk WS_SUCCESS (mkBuf (b_data b) (add32 (b_idx b) n) (b_cap b) (b_dyn b))
      else BOk WS_BUFFER_E b
  | BShrink f => ShrinkBuffer b f
  end.

Fixpoint brun (b : wbuf) (os : list bop) : bres :=
  match os with
  | [] => BOk WS_SUCCESS b
  | o :: r => match bstep b o with BOk _ b' => brun b' r | BOob => BOob end
  end.
