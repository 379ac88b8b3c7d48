(* ChanSpec.v - what the record of a session says about a channel. Nothing
   here refers to the library's own bookkeeping: only to the order of events
   (channels opened, messages queued, data accepted, data taken by reads). *)
From Verif Require Import Base BufModel BufSpec WireModel WireSpec ChanModel.
From Coq Require Import List NArith Bool.
Import ListNotations.
Open Scope N_scope.

(* A channel number can be used again after the channel is gone: everything
   is counted from the last time the number was given to a channel. *)

(* data accepted from the peer, in order *)
Definition stored (id : N) (ext : bool) (l : list ev) : bytes :=
  fold_left (fun acc e => match e with
    | Opened i _ => if i =? id then [] else acc
    | Stored i x d => if (i =? id) && Bool.eqb x ext then acc ++ d else acc
    | _ => acc end) l [].

(* data handed to the application, in order *)
Definition copied (id : N) (ext : bool) (l : list ev) : bytes :=
  fold_left (fun acc e => match e with
    | Opened i _ => if i =? id then [] else acc
    | Copied i x d => if (i =? id) && Bool.eqb x ext then acc ++ d else acc
    | _ => acc end) l [].

(* bytes the peer has used of the window it was given *)
Definition charged (id : N) (l : list ev) : N :=
  fold_left (fun acc e => match e with
    | Opened i _ => if i =? id then 0 else acc
    | Stored i _ d => if i =? id then acc + lenN d else acc
    | Ignored i n => if i =? id then acc + n else acc
    | _ => acc end) l 0.

(* the window the channel was opened with *)
Definition window0 (id : N) (l : list ev) : N :=
  fold_left (fun acc e => match e with
    | Opened i w => if i =? id then w else acc
    | _ => acc end) l 0.

(* RFC 4254 5.2: byte 93, uint32 recipient, uint32 bytes to add *)
Definition adjust_of (m : bytes) : N :=
  match m with
  | t :: r => if t =? 93 then be_value (slice r 4 4) else 0
  | [] => 0
  end.

(* RFC 4254 5.2: byte 94, uint32 recipient, string data; byte 95, uint32
   recipient, uint32 type, string data *)
Definition data_of (m : bytes) : bytes :=
  match m with
  | t :: r => if t =? 94 then dropN 8 r else if t =? 95 then dropN 12 r else []
  | [] => []
  end.

(* credit announced to the peer in window-adjust messages *)
Definition announced (id : N) (l : list ev) : N :=
  fold_left (fun acc e => match e with
    | Opened i _ => if i =? id then 0 else acc
    | Sent _ i m => if i =? id then acc + adjust_of m else acc
    | _ => acc end) l 0.

(* window the peer has granted since it (last) announced its window, and what
   was used of it *)
Definition granted (id : N) (l : list ev) : N :=
  fold_left (fun acc e => match e with
    | Opened i _ => if i =? id then 0 else acc
    | Peered i w _ => if i =? id then w else acc
    | Adjusted i n => if i =? id then acc + n else acc
    | _ => acc end) l 0.
Definition used (id : N) (l : list ev) : N :=
  fold_left (fun acc e => match e with
    | Opened i _ => if i =? id then 0 else acc
    | Peered i _ _ => if i =? id then 0 else acc
    | Sent _ i m => if i =? id then acc + lenN (data_of m) else acc
    | _ => acc end) l 0.
(* the peer's maximum packet size *)
Definition peermax (id : N) (l : list ev) : N :=
  fold_left (fun acc e => match e with
    | Opened i _ => if i =? id then 0 else acc
    | Peered i _ m => if i =? id then m else acc
    | _ => acc end) l 0.

(* sending EOF has been reported successful *)
Definition eofed (id : N) (l : list ev) : bool :=
  fold_left (fun acc e => match e with
    | Opened i _ => if i =? id then false else acc
    | Eofed i => if i =? id then true else acc
    | _ => acc end) l false.

(* Every data message in the record respected the peer's limits when it was
   queued. *)
Definition respects_peer (l : list ev) : Prop :=
  forall pre k id m post, l = pre ++ Sent k id m :: post -> data_of m <> [] ->
    lenN (data_of m) <= peermax id pre /\ used id pre + lenN (data_of m) <= granted id pre.

(* No data message follows a successful EOF on the same channel. *)
Definition no_data_after_eof (l : list ev) : Prop :=
  forall pre k id m post, l = pre ++ Sent k id m :: post -> eofed id pre = true -> data_of m = [].

(* No window-adjust was queued during a key exchange. *)
Definition adjusts_outside_kex (l : list ev) : Prop :=
  forall k id m, In (Sent k id m) l -> adjust_of m <> 0 -> k = false.

(* The peer never used more window than it was told about. *)
Definition peer_honest (l : list ev) : Prop :=
  forall pre post id, l = pre ++ post ->
    charged id pre <= window0 id pre + announced id pre.

(* What the read calls of a run returned, and what the record says was taken;
   empty reads left out. *)
Definition nonempty (d : bytes) : bool := match d with [] => false | _ => true end.
Definition returned (t : list (op * ret)) : list bytes :=
  filter nonempty (flat_map (fun x => match x with
    | (AStreamRead _ _, RData d) | (AIdRead _ _ _, RData d)
    | (ARead _ _ _, RData d) | (AReadExt _ _ _, RData d) => [d]
    | _ => [] end) t).
Definition taken (l : list ev) : list bytes :=
  filter nonempty (flat_map (fun e => match e with Copied _ _ d => [d] | _ => [] end) l).

(* Arguments that exist in C: byte buffers whose size is a word32. *)
Definition buf_ok (b : bytes) : Prop := bytes_ok b /\ is32 (lenN b).
Definition op_ok (o : op) : Prop :=
  match o with
  | PData b | PExt b _ _ | PAdjust b | POpen b _ | POpenConf b _ | POpenFail b _
  | PEof b _ | PClose b _ => buf_ok b
  | AStreamSend d _ _ _ | AIdSend _ _ d _ _ _ => buf_ok d
  | AStreamRead n _ | AStreamPeek n | AIdRead _ n _ | ARead _ n _ | AReadExt _ n _ => is32 n
  | _ => True
  end.

(* The transport did not fail for good in this step (it may block). *)
Definition fans_ok (f : fans) : Prop :=
  match f with
  | FFail _ => False
  | FDone r _ _ => r <> WS_SOCKET_ERROR_E
  | _ => True
  end.
Definition ans_ok (a : sendans) : Prop := fans_ok (a_flush a).
Definition transport_ok (o : op) : Prop :=
  match o with
  | PExt _ _ a | AStreamRead _ a | AIdRead _ _ a | ARead _ _ a | AReadExt _ _ a => ans_ok a
  | NewKeysSent a | NewKeysReceived a => forall id, ans_ok (a id)
  | _ => True
  end.

(* A channel is live. *)
Definition live (s : cs) (c : chan) : Prop := In c (s_list s).

(* A session: any sequence of operations from a fresh session with window [w]
   and packet size [m] configured. [t] pairs each operation with its result. *)
Definition history (os : list op) (t : list (op * ret)) (s : cs) : Prop :=
  exists server w m, is32 w /\ Forall op_ok os /\ run os (start server w m) = Some (t, s).

(* RFC 4254 5.2: the fields of a data message after the message number. *)
Definition data_packet (id : N) (d : bytes) : bytes := c32toa id ++ c32toa (lenN d) ++ d.
Definition stderr_packet (id : N) (d : bytes) : bytes :=
  c32toa id ++ c32toa 1 ++ c32toa (lenN d) ++ d.
Definition adjust_packet (id n : N) : bytes := c32toa id ++ c32toa n.

(* The channel an operation means to close. *)
Definition closes_channel (o : op) (x : N) : Prop :=
  match o with
  | PClose b _ | POpenFail b _ => x = be_value (takeN 4 b)
  | AFree id | AExit id _ _ => x = id
  | _ => False
  end.

(* The reads of a record. *)
Definition copies (l : list ev) : list (N * bool * bytes) :=
  flat_map (fun e => match e with Copied i x d => [(i, x, d)] | _ => [] end) l.

(* An answer of the transport that takes the message, whether or not it can
   write it out at once, and starts no key exchange. *)
Definition takes (a : sendans) : Prop :=
  a_prep a = WS_SUCCESS /\ a_bund a = WS_SUCCESS /\
  match a_flush a with
  | FDone r _ None => r <> WS_SOCKET_ERROR_E
  | FWant => True
  | _ => False
  end.

(* The queue was not empty and could not be flushed before the send. *)
Definition blocked_before (f1 f2 : fans) (s : cs) : Prop :=
  exists s1, (if 0 <? s_plain s then flush f1 s else (WS_SUCCESS, s)) = (WS_SUCCESS, s1) /\
             s_out s1 = true /\ fst (flush f2 s1) = WS_WANT_WRITE.
(* PreparePacket and BundlePacket do not report WS_WANT_WRITE. *)
Definition prep_ok (a : sendans) : Prop := a_prep a <> WS_WANT_WRITE /\ a_bund a <> WS_WANT_WRITE.

