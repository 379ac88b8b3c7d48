(* IoModel.v - flushing the output queue, reading the version line, and the
   high-water check. Models src/internal.c 581-619, 4203-4319, 12959-13056,
   src/port.c 840-856. *)
From Verif Require Import Base BufModel PacketModel.
From Coq Require Import List NArith Bool.
Import ListNotations.
Open Scope N_scope.

(* ---- flushing -------------------------------------------------------- *)
(* What successive calls of the application's send callback answer. An
   exhausted list keeps answering want-write. *)
Inductive sev := Sent (n : N) | SWantWrite | SConnRst | SConnClose | SGeneral | SOther.

Record flush := mkFlush {
  f_rc : rc;             (* WS_SUCCESS: the loop ended with nothing left *)
  f_buf : wbuf;          (* the output buffer afterwards *)
  f_out : bytes;         (* bytes handed over and accepted, in order *)
  f_sched : list sev }.

(* src/internal.c:4262-4319 wolfSSH_SendPacket, up to the final
   HighwaterCheck (below). The bytes accepted by a callback that answers n are
   the first n it was shown. *)
Fixpoint SendPacket (sched : list sev) (b : wbuf) (out : bytes) : option flush :=
  if b_len b <=? b_idx b then
    match ShrinkBuffer b false with
    | BOk _ b' => Some (mkFlush WS_SUCCESS b' out sched)
    | BOob => None
    end
  else if b_cap b <? b_len b then Some (mkFlush WS_BUFFER_E b out sched)
  else match sched with
       | [] => Some (mkFlush WS_WANT_WRITE b out [])
       | SWantWrite :: r => Some (mkFlush WS_WANT_WRITE b out r)
       | SGeneral :: r =>
           match ShrinkBuffer b true with
           | BOk _ b' => Some (mkFlush WS_SOCKET_ERROR_E b' out r)
           | BOob => None
           end
       | SConnRst :: r | SConnClose :: r | SOther :: r => Some (mkFlush WS_SOCKET_ERROR_E b out r)
       | Sent n :: r =>
           if b_len b <? n then Some (mkFlush WS_SEND_OOB_READ_E b out r)
           else SendPacket r (mkBuf (b_data b) (add32 (b_idx b) n) (b_cap b) (b_dyn b))
                           (out ++ takeN n (dropN (b_idx b) (b_data b)))
       end.

(* ---- the version line ------------------------------------------------ *)
Definition PROTOID_LIMIT : N := 255.     (* wolfssh/internal.h:572 *)
Definition MAX_BANNER_LINES : N := 10.   (* wolfssh/internal.h:568 *)
Definition LF : N := 10.
Definition CR : N := 13.

(* src/port.c:840-856 wstrnstr searching "\n" in the first n bytes, stopping
   at a NUL; the list is exactly those n bytes. Offset of the LF. *)
Fixpoint wstrnstr_lf (s : bytes) (i : N) : option N :=
  match s with
  | [] => None
  | x :: r => if x =? 0 then None else if x =? LF then Some i else wstrnstr_lf r (i + 1)
  end.

Inductive lres := LOk (eol : N) (b : wbuf) (net : list nev)
                | LErr (e : rc) (b : wbuf) (net : list nev)
                | LOob | LNoFuel.

(* the end-of-line offset, backed onto a preceding CR (4222-4227) *)
Definition eol_of (d : bytes) (lf : N) : N :=
  if (0 <? lf) && match rd d (lf - 1) with Some c => c =? CR | None => false end
  then lf - 1 else lf.

(* src/internal.c:4203-4258 GetInputLine; [fuel] bounds the receive rounds,
   each of which delivers a byte. A callback answering 0, here taken for a
   failure like a closed connection, is not distinguished from NErr. *)
Fixpoint gil_loop (fuel : nat) (b : wbuf) (net : list nev) : lres :=
  match wstrnstr_lf (b_data b) 0 with
  | Some lf => LOk (eol_of (b_data b) lf) b net
  | None =>
      if PROTOID_LIMIT <=? b_len b then LErr WS_VERSION_E b net
      else match fuel with
           | O => LNoFuel
           | S f =>
               let inSz := PROTOID_LIMIT - b_len b in
               match GrowBuffer true b inSz with
               | BOob => LOob
               | BOk r b' =>
                   if negb (rc_eqb r WS_SUCCESS) then LErr WS_MEMORY_E b' net
                   else match ReceiveData net inSz with
                        | WouldBlock n => LErr WS_WANT_READ b' n
                        | Failed n => LErr WS_SOCKET_ERROR_E b' n
                        | Got d n =>
                            match put_end b' d with
                            | BOob => LOob
                            | BOk _ b2 => gil_loop f b2 n
                            end
                        end
               end
           end
  end.
Definition GetInputLine (b : wbuf) (net : list nev) : lres :=
  match GrowBuffer true b 0 with
  | BOob => LOob
  | BOk r b' => if negb (rc_eqb r WS_SUCCESS) then LErr WS_MEMORY_E b' net
                else gil_loop (N.to_nat PROTOID_LIMIT) b' net
  end.

(* "SSH-", "SSH-2.0-" and the test length >= n && strncmp(...) == 0 *)
Definition SSH_DASH : bytes := [83; 83; 72; 45].
Definition SSH_PROTO_PREFIX : bytes := [83; 83; 72; 45; 50; 46; 48; 45].
Fixpoint has_prefix (p d : bytes) : bool :=
  match p, d with
  | [], _ => true
  | x :: p', y :: d' => (x =? y) && has_prefix p' d'
  | _ :: _, [] => false
  end.

(* the version-exchange state: input buffer, handshake->bannerLines, whether
   clientState/serverState reached VERSION_DONE, and the stored peer id *)
Record vst := mkV { v_buf : wbuf; v_banners : N; v_done : bool; v_id : bytes }.
Inductive vres := VRet (r : rc) (v : vst) (net : list nev) | VOob | VNoFuel.

(* src/internal.c:12959-13056 DoProtoId. [server]: side is the server. [fuel]
   bounds the number of lines. The malloc of the id is taken to succeed; the
   clientOpenSSH flag is not represented. The id is the text before the
   terminator: strlen after *eol = 0, and wstrnstr found no NUL before. *)
Fixpoint proto_loop (fuel : nat) (server : bool) (v : vst) (net : list nev) : vres :=
  match fuel with
  | O => VNoFuel
  | S f =>
      match GetInputLine (v_buf v) net with
      | LOob => VOob
      | LNoFuel => VNoFuel
      | LErr e b n => VRet e (mkV b (v_banners v) (v_done v) (v_id v)) n
      | LOk eol b n =>
          match rd (b_data b) eol with
          | None => VOob
          | Some c =>
              let eolSz := if c =? CR then 2 else 1 in
              if has_prefix SSH_DASH (b_data b) then
                if has_prefix SSH_PROTO_PREFIX (b_data b) then
                  match ShrinkBuffer (mkBuf (b_data b) (add32 (add32 (b_idx b) eol) eolSz) (b_cap b) (b_dyn b)) false with
                  | BOob => VOob
                  | BOk _ b' => VRet WS_SUCCESS (mkV b' (v_banners v) true (takeN eol (b_data b))) n
                  end
                else VRet WS_VERSION_E (mkV b (v_banners v) (v_done v) (v_id v)) n
              else if server then VRet WS_VERSION_E (mkV b (v_banners v) (v_done v) (v_id v)) n
              else
                let banners := v_banners v + 1 in
                if MAX_BANNER_LINES <? banners
                then VRet WS_VERSION_E (mkV b banners (v_done v) (v_id v)) n
                else proto_loop f server
                       (mkV (mkBuf (b_data b) (add32 (b_idx b) (add32 eol eolSz)) (b_cap b) (b_dyn b))
                            banners (v_done v) (v_id v)) n
          end
      end
  end.
Definition DoProtoId (server : bool) (v : vst) (net : list nev) : vres :=
  proto_loop (N.to_nat MAX_BANNER_LINES + 2) server v net.

(* ---- high-water check ------------------------------------------------ *)
(* src/internal.c:581-619. The state it reads and the callback's answer;
   [cb] is None when no callback is registered. *)
Record hw := mkHw {
  h_flag : bool; h_mark : N; h_mflag : bool; h_mmark : N;
  h_tx : N; h_rx : N; h_txm : N; h_rxm : N }.
Definition hw_byte_fires (h : hw) : bool :=
  negb (h_flag h) && negb (h_mark h =? 0) && ((h_mark h <=? h_tx h) || (h_mark h <=? h_rx h)).
Definition hw_msg_fires (h : hw) : bool :=
  negb (h_mflag h) && negb (h_mmark h =? 0) && ((h_mmark h <=? h_txm h) || (h_mmark h <=? h_rxm h)).
(* new state, return code, number of callback invocations *)
Definition HighwaterCheck (cb : option rc) (h : hw) : hw * rc * nat :=
  let fb := hw_byte_fires h in
  let fm := hw_msg_fires h in
  let h' := mkHw (h_flag h || fb) (h_mark h) (h_mflag h || fm) (h_mmark h)
                 (h_tx h) (h_rx h) (h_txm h) (h_rxm h) in
  if fb || fm then match cb with Some r => (h', r, 1%nat) | None => (h', WS_SUCCESS, 0%nat) end
  else (h', WS_SUCCESS, 0%nat).

(* What moves the counters: Encrypt/EncryptAead of n bytes (12440-12485,
   12740-12772), Decrypt/DecryptAead (12488-12533, 12775-12807), a bundled
   packet (13210-13215), a completed flush with its check (4317-4319), a
   received packet with its check (12384-12393), SendNewKeys (16180-16188) and
   DoNewKeys (7735-7745). *)
Inductive hwev :=
| HEnc (n : N) | HDec (n : N) | HBundle | HFlushed (cb : option rc) | HPacket (cb : option rc)
| HSendNewKeys | HRecvNewKeys.
Definition hw_step (h : hw) (e : hwev) : hw * nat :=
  match e with
  | HEnc n => (mkHw (h_flag h) (h_mark h) (h_mflag h) (h_mmark h) (add32 (h_tx h) n) (h_rx h) (h_txm h) (h_rxm h), 0%nat)
  | HDec n => (mkHw (h_flag h) (h_mark h) (h_mflag h) (h_mmark h) (h_tx h) (add32 (h_rx h) n) (h_txm h) (h_rxm h), 0%nat)
  | HBundle => (mkHw (h_flag h) (h_mark h) (h_mflag h) (h_mmark h) (h_tx h) (h_rx h) (add32 (h_txm h) 1) (h_rxm h), 0%nat)
  | HFlushed cb => let '(h', _, n) := HighwaterCheck cb h in (h', n)
  | HPacket cb =>
      let h := mkHw (h_flag h) (h_mark h) (h_mflag h) (h_mmark h) (h_tx h) (h_rx h) (h_txm h) (add32 (h_rxm h) 1) in
      let '(h', _, n) := HighwaterCheck cb h in (h', n)
  | HSendNewKeys => (mkHw (h_flag h) (h_mark h) (h_mflag h) (h_mmark h) 0 (h_rx h) 0 (h_rxm h), 0%nat)
  | HRecvNewKeys => (mkHw false (h_mark h) false (h_mmark h) (h_tx h) 0 (h_txm h) 0, 0%nat)
  end.
