(* ChanModel.v - channels: the channel list, flow control, sending and
   reading channel data, opening and closing.

   Models src/internal.c 3717-4028, 7626-7710, 10888-11340, 11909-12106,
   19819-20555 and src/ssh.c 1183-1345, 3514-3600, 3682, 3758-3990,
   4040-4061.

   Simplifications.
   - A pointer to a channel is its local number; C18 shows that the live
     channel with a given local number is unique.
   - The output queue is not spelled out here (PacketModel and IoModel do
     that). What matters to this layer is whether it is empty ([s_out]),
     plainSz, ssh->error, and which messages were put in it. Each use of the
     transport takes an answer ([sendans], [fans]); theorems quantify over
     all answers.
   - The high water callback may start a key exchange (as the default one
     does) and return any code; it does not call other library functions.
   - Application callbacks answer with a code and do nothing else.
   - Build with forwarding (WOLFSSH_FWD), without the agent. *)
From Verif Require Import Base BufModel WireModel NameTable NegoModel.
From Coq Require Import List NArith Bool.
Import ListNotations.
Open Scope N_scope.

(* wolfssh/internal.h:1739-1764 *)
Definition MSGID_CHANNEL_OPEN : N := 90.
Definition MSGID_CHANNEL_OPEN_CONF : N := 91.
Definition MSGID_CHANNEL_OPEN_FAIL : N := 92.
Definition MSGID_CHANNEL_WINDOW_ADJUST : N := 93.
Definition MSGID_CHANNEL_DATA : N := 94.
Definition MSGID_CHANNEL_EXTENDED_DATA : N := 95.
Definition MSGID_CHANNEL_EOF : N := 96.
Definition MSGID_CHANNEL_CLOSE : N := 97.
Definition CHANNEL_EXTENDED_DATA_STDERR : N := 1.  (* internal.h:1767 *)
Definition OPEN_ADMINISTRATIVELY_PROHIBITED : N := 1.
Definition OPEN_UNKNOWN_CHANNEL_TYPE : N := 3.
Definition OPEN_RESOURCE_SHORTAGE : N := 4.
Definition WINDOW_SZ_UPPER_BOUND : N := 262144.
Definition DEFAULT_WINDOW_SZ : N := 131072.
Definition MAX_PACKET_SZ_CHAN : N := 35000.
Definition DEFAULT_MAX_PACKET_SZ : N := 32768.

(* wolfssh/internal.h WOLFSSH_CHANNEL. [c_win0] is the window advertised when
   the channel was made; the C struct does not keep it. *)
Record chan := mkChan {
  c_id : N;       (* channel *)
  c_peer : N;     (* peerChannel *)
  c_type : N;     (* channelType *)
  c_win0 : N;     (* ghost: initialWindowSz *)
  c_win : N;      (* windowSz *)
  c_max : N;      (* maxPacketSz *)
  c_pwin : N;     (* peerWindowSz *)
  c_pmax : N;     (* peerMaxPacketSz *)
  c_conf : bool;  (* openConfirmed *)
  c_eofRx : bool; (* eofRxd *)
  c_eofTx : bool; (* eofTxd *)
  c_closeTx : bool; (* closeTxd *)
  c_pend : N;     (* pendingWindowAdjust *)
  c_in : wbuf;    (* inputBuffer *)
  c_ext : wbuf }. (* extDataBuffer *)

(* What happened, in order. *)
Inductive ev :=
| Opened (id w : N)                    (* channel id in the list, window w *)
| Peered (id w m : N)                  (* peer announced window w, packet m *)
| Adjusted (id n : N)                  (* peer added n to its window *)
| Sent (keying : bool) (id : N) (m : bytes) (* message put on the queue *)
| Stored (id : N) (ext : bool) (d : bytes)  (* peer data accepted *)
| Ignored (id n : N)                   (* n bytes of unknown type discarded *)
| Copied (id : N) (ext : bool) (d : bytes)  (* taken from the channel by a read *)
| Eofed (id : N)                       (* sending EOF reported success *)
| Removed (id : N).

Record cs := mkCs {
  s_list : list chan;   (* channelList *)
  s_next : N;           (* nextChannel *)
  s_kself : bool;       (* isKeying & SELF_IS_KEYING *)
  s_kpeer : bool;       (* isKeying & PEER_IS_KEYING *)
  s_up : bool;          (* IsMessageAllowed of a message number >= 80 *)
  s_server : bool;      (* ctx->side *)
  s_ctxwin : N;         (* ctx->windowSz *)
  s_ctxmax : N;         (* ctx->maxPacketSz *)
  s_out : bool;         (* outputBuffer.length != 0 *)
  s_plain : N;          (* outputBuffer.plainSz *)
  s_err : rc;           (* ssh->error *)
  s_last : N;           (* lastRxId *)
  s_log : list ev }.

Definition keying (s : cs) : bool := s_kself s || s_kpeer s.

(* field updates *)
Definition set_list (l : list chan) (s : cs) : cs :=
  mkCs l (s_next s) (s_kself s) (s_kpeer s) (s_up s) (s_server s) (s_ctxwin s) (s_ctxmax s)
       (s_out s) (s_plain s) (s_err s) (s_last s) (s_log s).
Definition set_next (n : N) (s : cs) : cs :=
  mkCs (s_list s) n (s_kself s) (s_kpeer s) (s_up s) (s_server s) (s_ctxwin s) (s_ctxmax s)
       (s_out s) (s_plain s) (s_err s) (s_last s) (s_log s).
Definition set_key (a b : bool) (s : cs) : cs :=
  mkCs (s_list s) (s_next s) a b (s_up s) (s_server s) (s_ctxwin s) (s_ctxmax s)
       (s_out s) (s_plain s) (s_err s) (s_last s) (s_log s).
Definition set_up (u : bool) (s : cs) : cs :=
  mkCs (s_list s) (s_next s) (s_kself s) (s_kpeer s) u (s_server s) (s_ctxwin s) (s_ctxmax s)
       (s_out s) (s_plain s) (s_err s) (s_last s) (s_log s).
Definition set_ctx (w m : N) (s : cs) : cs :=
  mkCs (s_list s) (s_next s) (s_kself s) (s_kpeer s) (s_up s) (s_server s) w m
       (s_out s) (s_plain s) (s_err s) (s_last s) (s_log s).
Definition set_q (o : bool) (p : N) (e : rc) (s : cs) : cs :=
  mkCs (s_list s) (s_next s) (s_kself s) (s_kpeer s) (s_up s) (s_server s) (s_ctxwin s) (s_ctxmax s)
       o p e (s_last s) (s_log s).
Definition set_out (o : bool) (s : cs) : cs := set_q o (s_plain s) (s_err s) s.
Definition set_plain (p : N) (s : cs) : cs := set_q (s_out s) p (s_err s) s.
Definition set_err (e : rc) (s : cs) : cs := set_q (s_out s) (s_plain s) e s.
Definition set_last (i : N) (s : cs) : cs :=
  mkCs (s_list s) (s_next s) (s_kself s) (s_kpeer s) (s_up s) (s_server s) (s_ctxwin s) (s_ctxmax s)
       (s_out s) (s_plain s) (s_err s) i (s_log s).
Definition log (e : ev) (s : cs) : cs :=
  mkCs (s_list s) (s_next s) (s_kself s) (s_kpeer s) (s_up s) (s_server s) (s_ctxwin s) (s_ctxmax s)
       (s_out s) (s_plain s) (s_err s) (s_last s) (s_log s ++ [e]).

Definition c_rx (w pend : N) (i x : wbuf) (c : chan) : chan :=
  mkChan (c_id c) (c_peer c) (c_type c) (c_win0 c) w (c_max c) (c_pwin c) (c_pmax c)
         (c_conf c) (c_eofRx c) (c_eofTx c) (c_closeTx c) pend i x.
Definition c_set_pend (p : N) (c : chan) : chan := c_rx (c_win c) p (c_in c) (c_ext c) c.
Definition c_set_peer (peer w m : N) (c : chan) : chan :=
  mkChan (c_id c) peer (c_type c) (c_win0 c) (c_win c) (c_max c) w m
         true (c_eofRx c) (c_eofTx c) (c_closeTx c) (c_pend c) (c_in c) (c_ext c).
Definition c_set_pwin (w : N) (c : chan) : chan :=
  mkChan (c_id c) (c_peer c) (c_type c) (c_win0 c) (c_win c) (c_max c) w (c_pmax c)
         (c_conf c) (c_eofRx c) (c_eofTx c) (c_closeTx c) (c_pend c) (c_in c) (c_ext c).
Definition c_flags (er et ct : bool) (c : chan) : chan :=
  mkChan (c_id c) (c_peer c) (c_type c) (c_win0 c) (c_win c) (c_max c) (c_pwin c) (c_pmax c)
         (c_conf c) er et ct (c_pend c) (c_in c) (c_ext c).

(* ------------------------------------------------------------------ *)
(* The list                                                             *)

(* src/internal.c:3819-3847 ChannelFind, by local and by peer number. *)
Definition find_self (id : N) (l : list chan) : option chan :=
  find (fun c => c_id c =? id) l.
Definition find_peer (id : N) (l : list chan) : option chan :=
  find (fun c => c_peer c =? id) l.

(* a write through a channel pointer *)
Fixpoint upd (id : N) (f : chan -> chan) (l : list chan) : list chan :=
  match l with
  | [] => []
  | c :: r => if c_id c =? id then f c :: r else c :: upd id f r
  end.
Definition on_chan (id : N) (f : chan -> chan) (s : cs) : cs :=
  set_list (upd id f (s_list s)) s.

(* src/internal.c:3949-3992 ChannelRemove: the first entry that matches. *)
Fixpoint remove_first (p : chan -> bool) (l : list chan) : option (chan * list chan) :=
  match l with
  | [] => None
  | c :: r => if p c then Some (c, r)
              else match remove_first p r with
                   | Some (x, r') => Some (x, c :: r')
                   | None => None
                   end
  end.
Definition ChannelRemove (p : chan -> bool) (s : cs) : rc * cs :=
  match remove_first p (s_list s) with
  | Some (c, l) => (WS_SUCCESS, log (Removed (c_id c)) (set_list l s))
  | None => (WS_INVALID_CHANID, s)
  end.
Definition RemoveSelf (id : N) := ChannelRemove (fun c => c_id c =? id).
Definition RemovePeer (id : N) := ChannelRemove (fun c => c_peer c =? id).

(* src/internal.c:3741-3746: the first unused number from nextChannel on. The
   fuel is one more than the number of channels; C18 shows it suffices. *)
Fixpoint fresh (fuel : nat) (next : N) (l : list chan) : option N :=
  match fuel with
  | O => None
  | S k => match find_self next l with
           | Some _ => fresh k (add32 next 1) l
           | None => Some next
           end
  end.

(* src/internal.c:3717-3783 ChannelNew. [ok] is whether the allocations
   succeed. *)
Definition ChannelNew (ok : bool) (type : N) (s : cs) : option (chan * cs) :=
  if negb ok then None
  else match fresh (S (length (s_list s))) (s_next s) (s_list s) with
       | None => None
       | Some id =>
           Some (mkChan id 0 type (s_ctxwin s) (s_ctxwin s) (s_ctxmax s) 0 0
                        false false false false 0
                        (mkBuf [] 0 (s_ctxwin s) true)
                        (mkBuf [] 0 STATIC_BUFFER_LEN false),
                 set_next (add32 id 1) s)
       end.

(* src/internal.c:3920-3946 ChannelAppend. *)
Definition ChannelAppend (c : chan) (s : cs) : cs :=
  log (Opened (c_id c) (c_win0 c)) (set_list (s_list s ++ [c]) s).

(* ------------------------------------------------------------------ *)
(* The transport                                                        *)

(* What wolfSSH_SendPacket (src/internal.c:4262-4317) meets. FDone: all
   output is written and HighwaterCheck returns [r]; [e] is ssh->error if the
   high water callback changed it, [kex] says whether it started a key
   exchange, and if so whether part of its KEXINIT stays queued. FFail: the
   transport failed, discarding the queue or not. *)
Inductive fans :=
| FDone (r : rc) (e : option rc) (kex : option bool)
| FWant
| FFail (discard : bool)
| FBad (oob : bool).

Definition quiet : fans := FDone WS_SUCCESS None None.

Definition flush_done (r : rc) (e : option rc) (kex : option bool) (s : cs) : rc * cs :=
  let s := set_q (match kex with Some b => b | None => false end) 0
                 (match e with Some x => x | None => s_err s end) s in
  (r, match kex with Some _ => set_key true (s_kpeer s) s | None => s end).

Definition flush (f : fans) (s : cs) : rc * cs :=
  match f with
  | FDone r e k => flush_done r e k s
  | FWant => if s_out s then (WS_WANT_WRITE, set_err WS_WANT_WRITE s)
             else flush_done WS_SUCCESS None None s
  | FFail d => (WS_SOCKET_ERROR_E, if d then set_out false s else s)
  | FBad o => (if o then WS_SEND_OOB_READ_E else WS_BUFFER_E, s)
  end.

(* PreparePacket and BundlePacket answers, and what the flush meets. *)
Record sendans := mkAns { a_prep : rc; a_bund : rc; a_flush : fans }.
Definition good : sendans := mkAns WS_SUCCESS WS_SUCCESS quiet.

(* PreparePacket, write [m], BundlePacket: common to all senders. *)
Definition bundle (id : N) (m : bytes) (a : sendans) (s : cs) : rc * cs :=
  match a_prep a with
  | WS_SUCCESS =>
      match a_bund a with
      | WS_SUCCESS => (WS_SUCCESS, log (Sent (keying s) id m) (set_out true s))
      | r => (r, set_out true s)
      end
  | r => (r, s)
  end.

(* ... followed by wolfSSH_SendPacket *)
Definition send_msg (id : N) (m : bytes) (a : sendans) (s : cs) : rc * cs :=
  match bundle id m a s with
  | (WS_SUCCESS, s1) => flush (a_flush a) s1
  | (r, s1) => (r, s1)
  end.

(* src/internal.c:20502-20555 SendChannelWindowAdjust; the boolean is
   *bundled. *)
Definition SendChannelWindowAdjust (id n : N) (a : sendans) (s : cs) : rc * bool * cs :=
  match find_self id (s_list s) with
  | None => (WS_INVALID_CHANID, false, s)
  | Some c =>
      if negb (s_up s) then (WS_MSGID_NOT_ALLOWED_E, false, s)
      else match bundle id ([MSGID_CHANNEL_WINDOW_ADJUST] ++ c32toa (c_peer c) ++ c32toa n) a s with
           | (WS_SUCCESS, s1) => let '(r, s2) := flush (a_flush a) s1 in (r, true, s2)
           | (r, s1) => (r, false, s1)
           end
  end.

(* src/internal.c:7632-7672 ChannelCreditWindow. *)
Definition ChannelCreditWindow (id amount : N) (a : sendans) (s : cs) : rc * cs :=
  match find_self id (s_list s) with
  | None => (WS_BAD_ARGUMENT, s)
  | Some c =>
      if sub32 UINT32_MAX (c_pend c) <? amount then (WS_OVERFLOW_E, s)
      else
        let total := add32 (c_pend c) amount in
        if total =? 0 then (WS_SUCCESS, s)
        else if keying s then (WS_SUCCESS, on_chan id (c_set_pend total) s)
        else
          let '(r, bundled, s1) :=
            SendChannelWindowAdjust id total a (on_chan id (c_set_pend 0) s) in
          if negb bundled || rc_eqb r WS_SOCKET_ERROR_E
          then (r, on_chan id (c_set_pend total) s1)
          else (r, s1)
  end.

(* src/internal.c:7677-7710 SendPendingChannelWindowAdjust. [a] gives the
   answer met while handling a channel. *)
Fixpoint pending_loop (a : N -> sendans) (ids : list N) (r : rc) (s : cs) : rc * cs :=
  match ids with
  | [] => (r, s)
  | id :: rest =>
      match find_self id (s_list s) with
      | None => pending_loop a rest r s
      | Some c =>
          if c_pend c =? 0 then pending_loop a rest r s
          else let '(r1, s1) := ChannelCreditWindow id 0 (a id) s in
               pending_loop a rest (if rc_eqb r WS_SUCCESS then r1 else r) s1
      end
  end.
Definition SendPendingChannelWindowAdjust (a : N -> sendans) (s : cs) : rc * cs :=
  if keying s then (WS_SUCCESS, s)
  else
    let saved := s_err s in
    let '(r, s1) := pending_loop a (map c_id (s_list s)) WS_SUCCESS s in
    (r, set_err (if rc_eqb r WS_SUCCESS then saved else r) s1).

(* ------------------------------------------------------------------ *)
(* Sending                                                              *)

(* What an API call returns: a count, bytes (a read), or an error code. *)
Inductive ret := RNum (n : N) | RData (d : bytes) | RCode (e : rc).

Definition data_msg (ext : bool) (peer : N) (d : bytes) : bytes :=
  if ext
  then [MSGID_CHANNEL_EXTENDED_DATA] ++ c32toa peer ++ c32toa CHANNEL_EXTENDED_DATA_STDERR
         ++ c32toa (lenN d) ++ d
  else [MSGID_CHANNEL_DATA] ++ c32toa peer ++ c32toa (lenN d) ++ d.

(* src/internal.c:20256-20373 SendChannelData and 20376-20496
   SendChannelExtendedData, which differ in the message only. [f1], [f2] are
   met by the two flushes before, [a] by the send itself. *)
Definition SendChannelData (ext : bool) (id : N) (data : bytes)
    (f1 f2 : fans) (a : sendans) (s : cs) : ret * cs :=
  let finish (r : rc) (n : N) (s : cs) : ret * cs :=
    (match r with
     | WS_SUCCESS | WS_WANT_WRITE => RNum n
     | e => RCode e
     end,
     if rc_eqb (s_err s) WS_WANT_WRITE then set_plain n s else s) in
  let dataSz := lenN data in
  if keying s then finish WS_REKEYING dataSz s
  else
    let '(r1, s1) := if 0 <? s_plain s then flush f1 s else (WS_SUCCESS, s) in
    match r1 with
    | WS_SUCCESS =>
        let '(r2, s2) := if s_out s1 then flush f2 s1 else (WS_SUCCESS, s1) in
        match r2 with
        | WS_SUCCESS =>
            match find_self id (s_list s2) with
            | None => finish WS_INVALID_CHANID dataSz s2
            | Some c =>
                if c_eofTx c then finish WS_EOF dataSz s2
                else if c_pwin c =? 0 then
                  finish WS_WINDOW_FULL dataSz (set_err WS_WINDOW_FULL s2)
                else
                  let bound := N.min (N.min (c_pwin c) (c_pmax c)) (c_max c) in
                  if (bound =? 0) && negb (dataSz =? 0) then
                    finish WS_WINDOW_FULL dataSz (set_err WS_WINDOW_FULL s2)
                  else
                    let n := if bound <? dataSz then bound else dataSz in
                    match bundle id (data_msg ext (c_peer c) (takeN n data)) a s2 with
                    | (WS_SUCCESS, s3) =>
                        let s4 := on_chan id (c_set_pwin (sub32 (c_pwin c) n)) s3 in
                        let '(r5, s5) := flush (a_flush a) s4 in
                        finish r5 n s5
                    | (r3, s3) => finish r3 n s3
                    end
            end
        | _ => finish r2 dataSz s2
        end
    | _ => (RCode r1, s1)
    end.

(* src/internal.c:20038-20094 SendChannelEof, by the peer's number. *)
Definition SendChannelEof (peer : N) (a : sendans) (s : cs) : rc * cs :=
  if negb (s_up s) then (WS_MSGID_NOT_ALLOWED_E, s)
  else match find_peer peer (s_list s) with
       | None => (WS_INVALID_CHANID, s)
       | Some c =>
           if c_eofTx c then (WS_SUCCESS, s)
           else match send_msg (c_id c) ([MSGID_CHANNEL_EOF] ++ c32toa (c_peer c)) a s with
                | (WS_SUCCESS, s1) =>
                    (WS_SUCCESS, log (Eofed (c_id c))
                       (on_chan (c_id c) (fun c => c_flags (c_eofRx c) true (c_closeTx c) c) s1))
                | (r, s1) => (r, s1)
                end
       end.

(* src/internal.c:20208-20253 SendChannelClose, by the peer's number. *)
Definition SendChannelClose (peer : N) (a : sendans) (s : cs) : rc * cs :=
  match find_peer peer (s_list s) with
  | None => (WS_INVALID_CHANID, s)
  | Some c =>
      if c_closeTx c then (WS_SUCCESS, s)
      else match bundle (c_id c) ([MSGID_CHANNEL_CLOSE] ++ c32toa (c_peer c)) a s with
           | (WS_SUCCESS, s1) =>
               let '(r, s2) := flush (a_flush a) s1 in
               (r, on_chan (c_id c) (fun c => c_flags (c_eofRx c) (c_eofTx c) true c) s2)
           | (r, s1) => (r, s1)
           end
  end.

(* src/internal.c:19819-19868 SendChannelOpen. *)
Definition SendChannelOpen (c : chan) (extra : bytes) (a : sendans) (s : cs) : rc * cs :=
  send_msg (c_id c)
    ([MSGID_CHANNEL_OPEN] ++ PutString (IdToName (c_type c)) ++ c32toa (c_id c)
       ++ c32toa (c_win c) ++ c32toa (c_max c) ++ extra) a s.

(* src/internal.c:19935-19979 SendChannelOpenConf. *)
Definition SendChannelOpenConf (c : chan) (a : sendans) (s : cs) : rc * cs :=
  send_msg (c_id c)
    ([MSGID_CHANNEL_OPEN_CONF] ++ c32toa (c_peer c) ++ c32toa (c_id c)
       ++ c32toa (c_win c) ++ c32toa (c_max c)) a s.

(* src/internal.c:19982-20035 SendChannelOpenFail. No local channel is
   involved: the log records W32, which is no channel number. The texts are
   passed in. *)
Definition SendChannelOpenFail (peer reason : N) (desc lang : bytes) (a : sendans) (s : cs) : rc * cs :=
  send_msg W32
    ([MSGID_CHANNEL_OPEN_FAIL] ++ c32toa peer ++ c32toa reason
       ++ PutString desc ++ PutString lang) a s.

(* ------------------------------------------------------------------ *)
(* Receiving                                                            *)

(* A handler's outcome; None is a memory access out of bounds. *)
Definition hres := option (rc * cs).

(* src/internal.c:3995-4028 ChannelPutData, on the channel's fields. *)
Definition ChannelPutData (d : bytes) (c : chan) : rc * chan :=
  let i := c_in c in
  if c_win c <? lenN d then (WS_FATAL_ERROR, c)
  else if (b_len i <? b_cap i) && (add32 (b_len i) (lenN d) <=? b_cap i)
  then (WS_SUCCESS, c_rx (sub32 (c_win c) (lenN d)) (c_pend c)
                        (mkBuf (b_data i ++ d) (b_idx i) (b_cap i) (b_dyn i)) (c_ext c) c)
  else (WS_RECV_OVERFLOW_E, c).

(* src/internal.c:11952-11998 DoChannelData. *)
Definition DoChannelData (buf : bytes) (s : cs) : hres :=
  let len := lenN buf in
  match GetUint32 buf len 0 with
  | POob => None
  | PErr e _ => Some (e, s)
  | POk id i =>
      match GetSize buf len i with
      | POob => None
      | PErr e _ => Some (e, s)
      | POk sz j =>
          match find_self id (s_list s) with
          | None => Some (WS_INVALID_CHANID, s)
          | Some c =>
              if c_max c <? sz then Some (WS_RECV_OVERFLOW_E, s)
              else match rdn buf j sz with
                   | None => None
                   | Some d =>
                       match ChannelPutData d c with
                       | (WS_SUCCESS, c') =>
                           Some (WS_CHAN_RXD,
                                 set_last id (log (Stored id false d) (on_chan id (fun _ => c') s)))
                       | (r, _) => Some (r, s)
                       end
                   end
          end
      end
  end.

(* src/internal.c:12043-12106 DoChannelExtendedData. [ok] is the allocation
   in AppendBuffer. *)
Definition DoChannelExtendedData (ok : bool) (a : sendans) (buf : bytes) (s : cs) : hres :=
  let len := lenN buf in
  match GetUint32 buf len 0 with
  | POob => None
  | PErr e _ => Some (e, s)
  | POk id i =>
      match GetUint32 buf len i with
      | POob => None
      | PErr e _ => Some (e, s)
      | POk type j =>
          match GetSize buf len j with
          | POob => None
          | PErr e _ => Some (e, s)
          | POk sz k =>
              match find_self id (s_list s) with
              | None => Some (WS_INVALID_CHANID, s)
              | Some c =>
                  if c_max c <? sz then Some (WS_RECV_OVERFLOW_E, s)
                  else if c_win c <? sz then Some (WS_RECV_OVERFLOW_E, s)
                  else if type =? CHANNEL_EXTENDED_DATA_STDERR then
                    match rdn buf k sz with
                    | None => None
                    | Some d =>
                        match AppendBuffer ok (c_ext c) d with
                        | BOob => None
                        | BOk WS_SUCCESS x =>
                            Some (WS_EXTDATA,
                                  set_last id (log (Stored id true d)
                                    (on_chan id (c_rx (sub32 (c_win c) sz) (c_pend c) (c_in c) x) s)))
                        | BOk r x =>
                            Some (r, on_chan id (c_rx (c_win c) (c_pend c) (c_in c) x) s)
                        end
                    end
                  else
                    let '(r, s1) := ChannelCreditWindow id sz a (log (Ignored id sz) s) in
                    let s1 := set_last id s1 in
                    match r with
                    | WS_SUCCESS | WS_WANT_WRITE => Some (WS_SUCCESS, s1)
                    | e => Some (e, s1)
                    end
              end
          end
      end
  end.

(* src/internal.c:11909-11949 DoChannelWindowAdjust. *)
Definition DoChannelWindowAdjust (buf : bytes) (s : cs) : hres :=
  let len := lenN buf in
  match GetUint32 buf len 0 with
  | POob => None
  | PErr e _ => Some (e, s)
  | POk id i =>
      match GetUint32 buf len i with
      | POob => None
      | PErr e _ => Some (e, s)
      | POk n _ =>
          match find_self id (s_list s) with
          | None => Some (WS_INVALID_CHANID, s)
          | Some c =>
              if sub32 UINT32_MAX (c_pwin c) <? n then Some (WS_OVERFLOW_E, s)
              else Some (WS_SUCCESS,
                         log (Adjusted id n) (on_chan id (c_set_pwin (add32 (c_pwin c) n)) s))
          end
      end
  end.

(* src/internal.c:10888-10929 DoChannelOpenForward: its fields are parsed;
   the strings go to the callback only. *)
Definition DoChannelOpenForward (buf : bytes) (i : N) : pres unit :=
  let len := lenN buf in
  pbind (GetStringAlloc buf len i) (fun _ i1 =>
  pbind (GetUint32 buf len i1) (fun _ i2 =>
  pbind (GetStringAlloc buf len i2) (fun _ i3 =>
  pbind (GetUint32 buf len i3) (fun _ i4 => POk tt i4)))).

(* Answers met by DoChannelOpen: allocation, open callback (WS_SUCCESS when
   none is set), forward callback if set (its first failing code or
   WS_SUCCESS), the texts and the send. *)
Record openans := mkOpen {
  o_ok : bool; o_cb : rc; o_fwd : option rc; o_desc : bytes; o_send : sendans }.

(* src/internal.c:10933-11126 DoChannelOpen. The fields of the client state
   machine it sets are in the handshake model. *)
Definition DoChannelOpen (o : openans) (buf : bytes) (s : cs) : hres :=
  let len := lenN buf in
  let refuse (peer reason : N) (s : cs) : hres :=
    Some (SendChannelOpenFail peer reason (o_desc o) [101;110] (o_send o) s) in
  match GetString 32 buf len 0 with
  | POob => None
  | PErr _ _ => refuse 0 OPEN_ADMINISTRATIVELY_PROHIBITED s
  | POk tz i =>
  match GetUint32 buf len i with
  | POob => None
  | PErr _ _ => refuse 0 OPEN_ADMINISTRATIVELY_PROHIBITED s
  | POk peer j =>
  match GetUint32 buf len j with
  | POob => None
  | PErr _ _ => refuse peer OPEN_ADMINISTRATIVELY_PROHIBITED s
  | POk pw k =>
  match GetUint32 buf len k with
  | POob => None
  | PErr _ _ => refuse peer OPEN_ADMINISTRATIVELY_PROHIBITED s
  | POk pm m =>
      let typeId := NameToId (removelast tz) in
      let isFwd := (typeId =? ID_CHANTYPE_TCPIP_DIRECT) || (typeId =? ID_CHANTYPE_TCPIP_FORWARD) in
      let admit :=
        if typeId =? ID_CHANTYPE_SESSION then
          if 1 <=? lenN (s_list s) then PErr WS_INVALID_CHANID OPEN_ADMINISTRATIVELY_PROHIBITED
          else POk tt 0
        else if isFwd then
          match DoChannelOpenForward buf m with
          | PErr e _ => PErr e OPEN_ADMINISTRATIVELY_PROHIBITED
          | x => x
          end
        else PErr WS_INVALID_CHANTYPE OPEN_UNKNOWN_CHANNEL_TYPE in
      match admit with
      | POob => None
      | PErr _ reason => refuse peer reason s
      | POk _ _ =>
          match ChannelNew (o_ok o) typeId s with
          | None => refuse peer OPEN_RESOURCE_SHORTAGE s
          | Some (c0, s1) =>
              let c := c_set_peer peer pw pm c0 in
              let verdict :=
                if (typeId =? ID_CHANTYPE_TCPIP_FORWARD) && s_server s then WS_ERROR
                else match o_cb o with
                     | WS_SUCCESS =>
                         if isFwd then match o_fwd o with Some r => r | None => WS_ERROR end
                         else WS_SUCCESS
                     | e => e
                     end in
              match verdict with
              | WS_SUCCESS =>
                  Some (SendChannelOpenConf c (o_send o)
                          (log (Peered (c_id c) pw pm) (ChannelAppend c s1)))
              | _ => refuse peer OPEN_ADMINISTRATIVELY_PROHIBITED s1
              end
          end
      end
  end end end end.

(* src/internal.c:11129-11186 DoChannelOpenConf. [cb] is the callback's
   answer. *)
Definition DoChannelOpenConf (cb : rc) (buf : bytes) (s : cs) : hres :=
  let len := lenN buf in
  match GetUint32 buf len 0 with
  | POob => None
  | PErr e _ => Some (e, s)
  | POk id i =>
  match GetUint32 buf len i with
  | POob => None
  | PErr e _ => Some (e, s)
  | POk peer j =>
  match GetUint32 buf len j with
  | POob => None
  | PErr e _ => Some (e, s)
  | POk pw k =>
  match GetUint32 buf len k with
  | POob => None
  | PErr e _ => Some (e, s)
  | POk pm _ =>
      match find_self id (s_list s) with
      | None => Some (WS_INVALID_CHANID, s)
      | Some _ => Some (cb, log (Peered id pw pm) (on_chan id (c_set_peer peer pw pm) s))
      end
  end end end end.

(* src/internal.c:11189-11247 DoChannelOpenFail. [cb] is the callback if one
   is set. *)
Definition DoChannelOpenFail (cb : option rc) (buf : bytes) (s : cs) : hres :=
  let len := lenN buf in
  match GetUint32 buf len 0 with
  | POob => None
  | PErr e _ => Some (e, s)
  | POk id i =>
  match GetUint32 buf len i with
  | POob => None
  | PErr e _ => Some (e, s)
  | POk _ j =>
  match GetString 80 buf len j with
  | POob => None
  | PErr e _ => Some (e, s)
  | POk _ k =>
  match GetSize buf len k with
  | POob => None
  | PErr e _ => Some (e, s)
  | POk _ _ =>
      let r := match cb with
               | None => WS_SUCCESS
               | Some x => match find_self id (s_list s) with
                           | Some _ => x
                           | None => WS_INVALID_CHANID
                           end
               end in
      match r with
      | WS_SUCCESS =>
          match RemoveSelf id s with
          | (WS_SUCCESS, s1) => Some (WS_CHANOPEN_FAILED, s1)
          | (e, s1) => Some (e, s1)
          end
      | e => Some (e, s)
      end
  end end end end.

(* src/internal.c:11250-11286 DoChannelEof. *)
Definition DoChannelEof (a : sendans) (buf : bytes) (s : cs) : hres :=
  match GetUint32 buf (lenN buf) 0 with
  | POob => None
  | PErr e _ => Some (e, s)
  | POk id _ =>
      match find_self id (s_list s) with
      | None => Some (WS_INVALID_CHANID, s)
      | Some c =>
          let s1 := on_chan id (fun c => c_flags true (c_eofTx c) (c_closeTx c) c) s in
          let '(r, s2) := if c_eofTx c then (WS_SUCCESS, s1)
                          else SendChannelEof (c_peer c) a s1 in
          Some (r, set_last id s2)
      end
  end.

(* src/internal.c:11289-11335 DoChannelClose. *)
Definition DoChannelClose (a : sendans) (buf : bytes) (s : cs) : hres :=
  match GetUint32 buf (lenN buf) 0 with
  | POob => None
  | PErr e _ => Some (e, s)
  | POk id _ =>
      match find_self id (s_list s) with
      | None => Some (WS_INVALID_CHANID, s)
      | Some c =>
          let '(r, s1) := if c_closeTx c then (WS_SUCCESS, s)
                          else SendChannelClose (c_peer c) a s in
          match r with
          | WS_SUCCESS =>
              match RemoveSelf id s1 with
              | (WS_SUCCESS, s2) => Some (WS_CHANNEL_CLOSED, set_last id s2)
              | (e, s2) => Some (e, s2)
              end
          | e => Some (e, s1)
          end
      end
  end.

(* ------------------------------------------------------------------ *)
(* Reading                                                              *)

(* src/ssh.c:3760-3800 _UpdateChannelWindow. *)
Definition UpdateChannelWindow (id : N) (a : sendans) (s : cs) : hres :=
  match find_self id (s_list s) with
  | None => Some (WS_BAD_ARGUMENT, s)
  | Some c =>
      let i := c_in c in
      if (b_cap i / 2 <? b_len i) || (c_win c =? 0) then
        let used := sub32 (b_len i) (b_idx i) in
        let add := b_idx i in
        match rdn (b_data i) (b_idx i) used with
        | None => None
        | Some d =>
            let '(r, s1) := ChannelCreditWindow id add a s in
            Some (r, on_chan id (fun c => c_rx (add32 (c_win c) add) (c_pend c)
                                               (mkBuf d 0 (b_cap i) (b_dyn i)) (c_ext c) c) s1)
        end
      else Some (WS_SUCCESS, s)
  end.

Definition advance (n : N) (b : wbuf) : wbuf :=
  mkBuf (b_data b) (add32 (b_idx b) n) (b_cap b) (b_dyn b).

Definition rres := option (ret * cs).

(* src/ssh.c:3803-3821 _ChannelRead. *)
Definition ChannelRead_ (id n : N) (a : sendans) (s : cs) : rres :=
  match find_self id (s_list s) with
  | None => Some (RCode WS_INVALID_CHANID, s)
  | Some c =>
      if n =? 0 then Some (RCode WS_BAD_ARGUMENT, s)
      else
        let i := c_in c in
        let n := N.min n (sub32 (b_len i) (b_idx i)) in
        match rdn (b_data i) (b_idx i) n with
        | None => None
        | Some d =>
            let s1 := log (Copied id false d)
                        (on_chan id (c_rx (c_win c) (c_pend c) (advance n i) (c_ext c)) s) in
            match UpdateChannelWindow id a s1 with
            | None => None
            | Some (WS_SUCCESS, s2) => Some (RData d, s2)
            | Some (e, s2) => Some (RCode e, s2)
            end
        end
  end.
(* src/ssh.c:3886-3904 wolfSSH_ChannelIdRead. *)
Definition ChannelIdRead := ChannelRead_.
(* src/ssh.c:3907-3926 wolfSSH_ChannelRead. *)
Definition ChannelRead (id n : N) (a : sendans) (s : cs) : rres :=
  if keying s then Some (RCode WS_REKEYING, set_err WS_REKEYING s)
  else ChannelRead_ id n a s.

(* src/ssh.c:3829-3883 _ChannelReadExt; also wolfSSH_ChannelIdReadExt,
   wolfSSH_ChannelReadExt and wolfSSH_extended_data_read. *)
Definition ChannelReadExt (id n : N) (a : sendans) (s : cs) : rres :=
  match find_self id (s_list s) with
  | None => Some (RCode WS_INVALID_CHANID, s)
  | Some c =>
      if n =? 0 then Some (RCode WS_BAD_ARGUMENT, s)
      else
        let x := c_ext c in
        if b_len x <? b_idx x then Some (RCode WS_INVALID_STATE_E, s)
        else
          let n := N.min n (sub32 (b_len x) (b_idx x)) in
          match rdn (b_data x) (b_idx x) n with
          | None => None
          | Some d =>
              let x1 := advance n x in
              if n =? 0 then Some (RData d, s)
              else
                let saved := s_err s in
                match (if b_idx x1 =? b_len x1 then ShrinkBuffer x1 false else BOk WS_SUCCESS x1) with
                | BOob => None
                | BOk _ x2 =>
                    let s1 := log (Copied id true d)
                                (on_chan id (c_rx (add32 (c_win c) n) (c_pend c) (c_in c) x2) s) in
                    let '(r, s2) := ChannelCreditWindow id n a s1 in
                    Some (RData d,
                          match r with
                          | WS_SUCCESS =>
                              if rc_eqb saved WS_WANT_WRITE && negb (s_out s2)
                              then set_err WS_SUCCESS s2 else set_err saved s2
                          | e => set_err e s2
                          end)
                end
          end
  end.

(* src/ssh.c:1224-1301 wolfSSH_stream_read, on the first channel. A call that
   receives packets while it waits is the handling of those packets followed
   by this; a call that gets none reports the want-read error. *)
Definition stream_read (n : N) (a : sendans) (s : cs) : rres :=
  match s_list s with
  | [] => Some (RCode WS_BAD_ARGUMENT, s)
  | c :: _ =>
      if n =? 0 then Some (RCode WS_BAD_ARGUMENT, s)
      else if c_eofRx c then Some (RCode WS_ERROR, set_err WS_EOF s)
      else if keying s then Some (RCode WS_FATAL_ERROR, set_err WS_REKEYING s)
      else
        let s := set_err WS_SUCCESS s in
        let i := c_in c in
        if sub32 (b_len i) (b_idx i) =? 0 then Some (RCode WS_ERROR, set_err WS_WANT_READ s)
        else
          let n := N.min n (sub32 (b_len i) (b_idx i)) in
          match rdn (b_data i) (b_idx i) n with
          | None => None
          | Some d =>
              match UpdateChannelWindow (c_id c) a s with
              | None => None
              | Some (WS_SUCCESS, s1) =>
                  Some (RData d,
                        log (Copied (c_id c) false d)
                          (on_chan (c_id c)
                             (fun c => c_rx (c_win c) (c_pend c) (advance n (c_in c)) (c_ext c) c) s1))
              | Some (e, s1) => Some (RCode e, s1)
              end
          end
  end.

(* src/ssh.c:1183-1208 wolfSSH_stream_peek. *)
Definition stream_peek (n : N) (s : cs) : rres :=
  match s_list s with
  | [] => Some (RCode WS_BAD_ARGUMENT, s)
  | c :: _ =>
      if keying s then Some (RCode WS_REKEYING, set_err WS_REKEYING s)
      else if c_eofRx c then Some (RCode WS_ERROR, set_err WS_EOF s)
      else
        let i := c_in c in
        let n := N.min n (sub32 (b_len i) (b_idx i)) in
        match rdn (b_data i) (b_idx i) n with
        | None => None
        | Some d => Some (RData d, s)
        end
  end.

(* src/ssh.c:1304-1322 wolfSSH_stream_send. *)
Definition stream_send (data : bytes) (f1 f2 : fans) (a : sendans) (s : cs) : ret * cs :=
  match s_list s with
  | [] => (RCode WS_BAD_ARGUMENT, s)
  | c :: _ =>
      if keying s then (RCode WS_FATAL_ERROR, set_err WS_REKEYING s)
      else SendChannelData false (c_id c) data f1 f2 a s
  end.

(* src/ssh.c:1325-1358 wolfSSH_ChannelIdSend, 1361-1394
   wolfSSH_ChannelIdSendExt, 3972 wolfSSH_ChannelSend. *)
Definition ChannelIdSend (ext : bool) (id : N) (data : bytes) (f1 f2 : fans) (a : sendans) (s : cs)
  : ret * cs :=
  match find_self id (s_list s) with
  | None => (RCode WS_INVALID_CHANID, s)
  | Some c => if c_conf c then SendChannelData ext id data f1 f2 a s
              else (RCode WS_CHANNEL_NOT_CONF, s)
  end.

(* src/ssh.c:4040-4061 wolfSSH_ChannelExit: everything goes by the peer's
   number. *)
Definition ChannelExit (id : N) (a1 a2 : sendans) (s : cs) : rc * cs :=
  match find_self id (s_list s) with
  | None => (WS_BAD_ARGUMENT, s)
  | Some c =>
      match SendChannelEof (c_peer c) a1 s with
      | (WS_SUCCESS, s1) =>
          match SendChannelClose (c_peer c) a2 s1 with
          | (WS_SUCCESS, s2) => RemovePeer (c_peer c) s2
          | (r, s2) => (r, s2)
          end
      | (r, s1) => (r, s1)
      end
  end.

(* src/ssh.c:3514-3549 wolfSSH_ChannelFwdNewLocal, 3552-3596
   wolfSSH_ChannelFwdNewRemote ([keep] false) and src/ssh.c:997-1023, where
   wolfSSH_connect opens the session ([keep] true): a channel is made, the
   open is sent, and only if that succeeds is the channel put in the list;
   wolfSSH_connect also keeps it when the send blocks. [cb] is the forward
   callback's answer. *)
Definition OpenChannel (keep ok : bool) (type : N) (extra : bytes) (a : sendans) (cb : rc) (s : cs)
  : rc * cs :=
  match ChannelNew ok type s with
  | None => (WS_MEMORY_E, s)
  | Some (c, s1) =>
      match SendChannelOpen c extra a s1 with
      | (WS_SUCCESS, s2) =>
          match cb with
          | WS_SUCCESS => (WS_SUCCESS, ChannelAppend c s2)
          | e => (e, s2)
          end
      | (r, s2) =>
          if keep && (rc_eqb r WS_WANT_WRITE || rc_eqb r WS_WANT_READ)
          then (r, ChannelAppend c s2) else (r, s2)
      end
  end.

(* src/ssh.c:3305-3326 wolfSSH_CTX_SetWindowPacketSize. *)
Definition SetWindowPacketSize (w m : N) (s : cs) : rc * cs :=
  if negb (w =? 0) && (WINDOW_SZ_UPPER_BOUND <? w) then (WS_BAD_ARGUMENT, s)
  else if negb (m =? 0) && (MAX_PACKET_SZ_CHAN <? m) then (WS_BAD_ARGUMENT, s)
  else (WS_SUCCESS, set_ctx (if w =? 0 then DEFAULT_WINDOW_SZ else w)
                            (if m =? 0 then DEFAULT_MAX_PACKET_SZ else m) s).

(* ------------------------------------------------------------------ *)
(* Everything that can happen                                           *)

Inductive op :=
  (* a packet from the peer (its payload after the message number) *)
| PData (buf : bytes)
| PExt (buf : bytes) (ok : bool) (a : sendans)
| PAdjust (buf : bytes)
| POpen (buf : bytes) (o : openans)
| POpenConf (buf : bytes) (cb : rc)
| POpenFail (buf : bytes) (cb : option rc)
| PEof (buf : bytes) (a : sendans)
| PClose (buf : bytes) (a : sendans)
  (* a call by the application *)
| AStreamRead (n : N) (a : sendans)
| AStreamPeek (n : N)
| AIdRead (id n : N) (a : sendans)
| ARead (id n : N) (a : sendans)
| AReadExt (id n : N) (a : sendans)
| AStreamSend (data : bytes) (f1 f2 : fans) (a : sendans)
| AIdSend (ext : bool) (id : N) (data : bytes) (f1 f2 : fans) (a : sendans)
| AOpen (keep ok : bool) (type : N) (extra : bytes) (a : sendans) (cb : rc)
| AExit (id : N) (a1 a2 : sendans)
| AEof (peer : N) (a : sendans)
| AClose (peer : N) (a : sendans)
| AFree (id : N)
| ASetWindow (w m : N)
  (* the rest of the session *)
| KexSent | KexReceived                       (* SendKexInit, DoKexInit *)
| NewKeysSent (a : N -> sendans)              (* SendNewKeys *)
| NewKeysReceived (a : N -> sendans)          (* DoNewKeys *)
| Flush (f : fans)
| OtherOutput (f : fans)                      (* another message queued *)
| OtherError (e : rc)                         (* ssh->error set elsewhere *)
| Established.                                (* authentication completed *)

Definition lift (x : rc * cs) : rres := Some (RCode (fst x), snd x).
Definition lifth (x : hres) : rres :=
  match x with Some (r, s) => Some (RCode r, s) | None => None end.

Definition step (o : op) (s : cs) : rres :=
  match o with
  | PData b => lifth (DoChannelData b s)
  | PExt b ok a => lifth (DoChannelExtendedData ok a b s)
  | PAdjust b => lifth (DoChannelWindowAdjust b s)
  | POpen b oa => lifth (DoChannelOpen oa b s)
  | POpenConf b cb => lifth (DoChannelOpenConf cb b s)
  | POpenFail b cb => lifth (DoChannelOpenFail cb b s)
  | PEof b a => lifth (DoChannelEof a b s)
  | PClose b a => lifth (DoChannelClose a b s)
  | AStreamRead n a => stream_read n a s
  | AStreamPeek n => stream_peek n s
  | AIdRead id n a => ChannelIdRead id n a s
  | ARead id n a => ChannelRead id n a s
  | AReadExt id n a => ChannelReadExt id n a s
  | AStreamSend d f1 f2 a => Some (stream_send d f1 f2 a s)
  | AIdSend ext id d f1 f2 a => Some (ChannelIdSend ext id d f1 f2 a s)
  | AOpen k ok t x a cb => lift (OpenChannel k ok t x a cb s)
  | AExit id a1 a2 => lift (ChannelExit id a1 a2 s)
  | AEof p a => lift (SendChannelEof p a s)
  | AClose p a => lift (SendChannelClose p a s)
  | AFree id => lift (RemoveSelf id s)
  | ASetWindow w m => lift (SetWindowPacketSize w m s)
  | KexSent => Some (RCode WS_SUCCESS, set_key true (s_kpeer s) s)
  | KexReceived => Some (RCode WS_SUCCESS, set_key (s_kself s) true s)
  | NewKeysSent a => lift (SendPendingChannelWindowAdjust a (set_key false (s_kpeer s) s))
  | NewKeysReceived a => lift (SendPendingChannelWindowAdjust a (set_key (s_kself s) false s))
  | Flush f => lift (flush f s)
  | OtherOutput f => lift (flush f (set_out true s))
  | OtherError e => Some (RCode WS_SUCCESS, set_err e s)
  | Established => Some (RCode WS_SUCCESS, set_up true s)
  end.

(* A run keeps each call and what it returned. *)
Fixpoint run (os : list op) (s : cs) : option (list (op * ret) * cs) :=
  match os with
  | [] => Some ([], s)
  | o :: r =>
      match step o s with
      | None => None
      | Some (x, s1) =>
          match run r s1 with
          | None => None
          | Some (t, s2) => Some ((o, x) :: t, s2)
          end
      end
  end.

(* A session before any channel is opened. *)
Definition start (server : bool) (w m : N) : cs :=
  mkCs [] 0 false false false server w m false 0 WS_SUCCESS 0 [].
