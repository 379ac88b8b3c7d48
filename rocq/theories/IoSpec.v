(* IoSpec.v - specifications for flushing, version lines and thresholds. *)
From Verif Require Import Base BufModel BufSpec PacketModel IoModel.
From Coq Require Import List NArith Bool.
Import ListNotations.
Open Scope N_scope.

(* ---- C24 ------------------------------------------------------------- *)
(* a send callback accepts at most what it was shown: [shown] bytes are
   offered first *)
Fixpoint honest_from (shown : N) (sched : list sev) : Prop :=
  match sched with
  | Sent n :: r => n <= shown /\ honest_from (shown - n) r
  | _ => True
  end.

(* Queueing and flushing, interleaved at will. The general-failure answer
   discards the queue (by design) and is excluded here. *)
Inductive oop := OQueue (d : bytes) | OFlush (sched : list sev).
Definition no_general (sched : list sev) : Prop := ~ In SGeneral sched.

(* [out_run b ops sent b']: the transport was given [sent] *)
Inductive out_run : wbuf -> list oop -> bytes -> wbuf -> Prop :=
| or_nil : forall b, out_run b [] [] b
| or_queue : forall b d b1 ops sent b',
    bstep b (BReserve true (lenN d) d) = BOk WS_SUCCESS b1 ->
    lenN (unread b) + lenN d < W32 ->
    out_run b1 ops sent b' -> out_run b (OQueue d :: ops) sent b'
| or_flush : forall b sched f ops sent b',
    SendPacket sched b [] = Some f ->
    honest_from (lenN (unread b)) sched -> no_general sched ->
    out_run (f_buf f) ops sent b' -> out_run b (OFlush sched :: ops) (f_out f ++ sent) b'.

Definition queued (ops : list oop) : bytes :=
  concat (map (fun o => match o with OQueue d => d | OFlush _ => [] end) ops).

(* ---- C27 ------------------------------------------------------------- *)
Definition text_line (l : bytes) : Prop :=
  ~ In LF l /\ ~ In 0 l /\ lenN l + 1 <= PROTOID_LIMIT.
Definition begins (p l : bytes) : Prop := exists r, l = p ++ r.
Definition strip_cr (l : bytes) : bytes :=
  match rev l with
  | c :: r => if c =? CR then rev r else l
  | [] => []
  end.

(* [version_in server n s id rest]: the stream [s] starts with an acceptable
   version line announcing [id], after which comes [rest]; a client may have
   to skip lines first, [n] of which were skipped already. *)
Inductive version_in (server : bool) : N -> bytes -> bytes -> bytes -> Prop :=
| vi_line : forall n l rest,
    text_line l -> begins SSH_PROTO_PREFIX l ->
    version_in server n (l ++ LF :: rest) (strip_cr l) rest
| vi_banner : forall n l s id rest,
    server = false -> n < MAX_BANNER_LINES ->
    text_line l -> ~ begins SSH_DASH l ->
    version_in server (n + 1) s id rest ->
    version_in server n (l ++ LF :: s) id rest.

(* the bytes a network schedule will deliver *)
Fixpoint stream (net : list nev) : bytes :=
  match net with
  | [] => []
  | NData d :: r => d ++ stream r
  | NBlock :: r => stream r
  | NErr :: r => []
  end.
Definition no_err (net : list nev) : Prop := ~ In NErr net.

(* the application calls again while it is told to wait *)
Inductive proto_run (server : bool) : vst -> list nev -> rc -> vst -> list nev -> Prop :=
| pr_last : forall v net r v' net',
    DoProtoId server v net = VRet r v' net' -> proto_run server v net r v' net'
| pr_again : forall v net v1 net1 r v' net',
    DoProtoId server v net = VRet WS_WANT_READ v1 net1 ->
    proto_run server v1 net1 r v' net' -> proto_run server v net r v' net'.

(* a version exchange not finished yet: what DoProtoId can be called on *)
Definition v_fresh (v : vst) : Prop :=
  buf_inv (v_buf v) /\ b_len (v_buf v) <= PROTOID_LIMIT /\ v_banners v <= MAX_BANNER_LINES /\ v_done v = false.

(* ---- C31 ------------------------------------------------------------- *)
(* The numbers a person would keep: bytes and messages since the last new
   keys of each direction, unbounded, and how often each threshold has fired
   since the peer's last new keys. *)
Record epoch := mkEp { e_tx : N; e_rx : N; e_txm : N; e_rxm : N }.
Definition ep_step (p : epoch) (e : hwev) : epoch :=
  match e with
  | HEnc n => mkEp (e_tx p + n) (e_rx p) (e_txm p) (e_rxm p)
  | HDec n => mkEp (e_tx p) (e_rx p + n) (e_txm p) (e_rxm p)
  | HBundle => mkEp (e_tx p) (e_rx p) (e_txm p + 1) (e_rxm p)
  | HFlushed _ => p
  | HPacket _ => mkEp (e_tx p) (e_rx p) (e_txm p) (e_rxm p + 1)
  | HSendNewKeys => mkEp 0 (e_rx p) 0 (e_rxm p)
  | HRecvNewKeys => mkEp (e_tx p) 0 (e_txm p) 0
  end.
Definition is_check (e : hwev) : bool :=
  match e with HFlushed (Some _) | HPacket (Some _) => true | _ => false end.
Definition has_cb (e : hwev) : Prop :=
  match e with HFlushed None | HPacket None => False | _ => True end.

(* the state, the true counters and the callback invocations of each key
   epoch (an epoch ends with HRecvNewKeys), the current one first *)
Fixpoint hw_run (h : hw) (p : epoch) (calls : list nat) (es : list hwev) : hw * epoch * list nat :=
  match es with
  | [] => (h, p, calls)
  | e :: r =>
      let '(h', n) := hw_step h e in
      let calls := match calls with [] => [n] | c :: t => (c + n)%nat :: t end in
      let calls := match e with HRecvNewKeys => O :: calls | _ => calls end in
      hw_run h' (ep_step p e) calls r
  end.
Definition hw_start (mark mmark : N) : hw := mkHw false mark false mmark 0 0 0 0.
Definition ep_start : epoch := mkEp 0 0 0 0.
