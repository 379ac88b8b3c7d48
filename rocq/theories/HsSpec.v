(* HsSpec.v - vocabulary of C06-C08, C32, C33, C40, C43-C45: what has to be
   true of the history of a connection. Histories are lists of events, newest
   first; only the event types of HsModel are used. *)
From Verif Require Import Base WireSpec NegoModel AuthModel AuthSpec HsModel.
From Coq Require Import List NArith Bool.
Import ListNotations.
Open Scope N_scope.

(* event e happened in history l, after the events [pre] *)
Definition happened (l : list ev) (e : ev) (pre : list ev) : Prop := exists post, l = post ++ e :: pre.

(* the peer's KEXINIT (an empty one is not one) *)
Definition is_kexinit (e : ev) : bool :=
  match e with EAct m p => (m =? 20) && negb (lenN p =? 0) | _ => false end.

(* the peer has begun a key exchange and its new keys are not yet in use *)
Fixpoint in_kex (l : list ev) : bool :=
  match l with
  | [] => false
  | e :: t => if is_kexinit e then true
              else match e with EKeysIn _ => false | _ => in_kex t end
  end.

(* the events since the peer's latest KEXINIT *)
Fixpoint exchange (l : list ev) : list ev :=
  match l with
  | [] => []
  | e :: t => if is_kexinit e then [] else e :: exchange t
  end.

(* the message that must answer one of ours: RFC 4253 8, RFC 4419 3 *)
Definition reply_to (o : out) : option N :=
  match o with
  | OGexRequest => Some 31        (* KEX_DH_GEX_GROUP *)
  | OGexGroup => Some 32          (* KEX_DH_GEX_INIT *)
  | ODhInit true => Some 33       (* KEX_DH_GEX_REPLY *)
  | ODhInit false => Some 31      (* KEXDH_REPLY *)
  | ODhReply => Some 21           (* NEWKEYS *)
  | _ => None
  end.

Definition kex_number (m : N) : Prop := 20 <= m <= 49.
Definition kex_numberb (m : N) : bool := (20 <=? m) && (m <=? 49).

(* the key exchange message this side is waiting for: the answer to its own,
   or NEWKEYS once the client has the keys; none after one arrived *)
Fixpoint awaited (l : list ev) : option N :=
  match l with
  | [] => None
  | ESent _ o :: t => match reply_to o with Some m => Some m | None => awaited t end
  | EAgreed true _ :: _ => Some 21
  | EAct m _ :: t => if kex_numberb m then None else awaited t
  | _ :: t => awaited t
  end.

(* the exchange hash of the first key exchange; [] before *)
Fixpoint session_id (l : list ev) : bytes :=
  match l with
  | [] => []
  | EHash H :: t => match session_id t with [] => H | id => id end
  | _ :: t => session_id t
  end.

(* authentication succeeded / its success message was produced by accept (or
   producing it failed and the application went on all the same) *)
Definition granted (l : list ev) : Prop := exists u cr, In (EAuth (EGranted u cr)) l.
Definition success_sent (l : list ev) : Prop := In (ESent (Some 7) OAuthSuccess) l \/ In (EStepFailed 7) l.

(* the authentication message with this number *)
Inductive auth_msg : N -> bytes -> amsg -> Prop :=
| am_request : forall p, auth_msg 50 p (MRequest p)
| am_response : forall p, auth_msg 61 p (MInfoResponse p).

(* RFC 4253 8: a KEXDH_REPLY payload with this host key and signature *)
Definition reply_with (p key sig : bytes) : Prop :=
  exists k f0 f s rest, p = k ++ f ++ s ++ rest /\ is_str k key /\ is_str f f0 /\ is_str s sig.

(* In history l the host proved that it holds a key the application trusts:
   the callback accepted the key and the signature over the exchange hash H
   verified, both from one reply of the server. *)
Definition host_proved (c : hcfg) (H : bytes) (l : list ev) : Prop :=
  exists m p key sig, In (EAct m p) l /\ (m = 31 \/ m = 33) /\ reply_with p key sig /\
    In (EHostKey key true) l /\ c_hostsig c key sig H = true.

(* new keys in both directions, from one exchange *)
Definition keyed (l : list ev) : Prop :=
  exists H, In (EKeysIn (Some H)) l /\ In (EKeysOut (Some H)) l.

(* the handshake messages of accept and connect themselves, oldest first;
   without the optional ones of connect (agent 12, terminal 13) *)
Fixpoint own_msgs (l : list ev) : list (N * out) :=
  match l with
  | [] => []
  | ESent (Some k) o :: t => own_msgs t ++ (if (k =? 12) || (k =? 13) then [] else [(k, o)])
  | _ :: t => own_msgs t
  end.

(* accept or connect reported success, or handed over to SCP or SFTP *)
Definition succeeded (r : ares) : Prop :=
  match r with ARet r => r = WS_SUCCESS | AMore => False | _ => True end.

(* error codes with which a connection goes on: progress, would block, or
   a notice to the application *)
Definition alive (r : rc) : bool :=
  match r with
  | WS_SUCCESS | WS_CHAN_RXD | WS_EXTDATA | WS_CHANNEL_CLOSED | WS_WANT_WRITE | WS_REKEYING
  | WS_WANT_READ | WS_AUTH_PENDING => true
  | _ => false
  end.

(* a call that suits the side of the connection *)
Definition fits (c : hcfg) (o : op) : Prop :=
  match o with
  | OAccept _ _ => c_side c = Server
  | OConnect _ _ _ => c_side c = Client
  | _ => True
  end.

(* packets consist of bytes and are smaller than 4 GiB, and so are digests *)
Definition wf_pkt (k : pkt) : Prop :=
  match k with PMsg _ p => bytes_ok p /\ is32 (lenN p) | PBad _ => True end.
Definition wf_hans (a : hans) : Prop := match ha_hash a with Some H => is32 (lenN H) | None => True end.
Definition wf_slot (x : slot) : Prop :=
  match sl_rx x with RxPkt k => wf_pkt k | _ => True end /\ wf_hans (sl_a x).
Definition wf_op (o : op) : Prop :=
  match o with
  | OAccept _ sl => Forall wf_slot sl
  | OConnect a _ sl => wf_hans a /\ Forall wf_slot sl
  | OWorker x1 x2 => wf_slot x1 /\ wf_slot x2
  | ORecv x => wf_slot x
  | _ => True
  end.

(* the states of a connection after any history of calls *)
Definition reachable (c : hcfg) (s : hs) : Prop :=
  exists user max q io ops, Forall (fits c) ops /\ Forall wf_op ops /\
    s = run_hs c (init_hs c user max q io) ops.

(* ... in which the application stops calling at the first fatal error *)
Fixpoint run_careful (c : hcfg) (s : hs) (ops : list op) : hs :=
  match ops with
  | [] => s
  | o :: t => let '(s, r) := step c o s in
              match r with
              | AMore => s
              | _ => if alive (s_err s) then run_careful c s t else s
              end
  end.
Definition carefully_reachable (c : hcfg) (s : hs) : Prop :=
  exists user max q io ops, Forall (fits c) ops /\ Forall wf_op ops /\
    s = run_careful c (init_hs c user max q io) ops.

(* a server that only calls accept / a client that only calls connect, until
   the call returns something else than would-block: the states and results of
   the successive calls *)
Inductive accepting (c : hcfg) : hs -> ares -> Prop :=
| acc_first : forall user max q io kind sl s r, Forall wf_slot sl ->
    accept c kind (init_hs c user max q io) sl = (s, r) -> accepting c s r
| acc_again : forall s0 r0 kind sl s r, accepting c s0 r0 -> r0 <> AMore -> Forall wf_slot sl ->
    accept c kind s0 sl = (s, r) -> accepting c s r.
Inductive connecting (c : hcfg) : hs -> ares -> Prop :=
| con_first : forall user max q io a opts sl s r, wf_hans a -> Forall wf_slot sl ->
    connect c a opts (init_hs c user max q io) sl = (s, r) -> connecting c s r
| con_again : forall s0 r0 a opts sl s r, connecting c s0 r0 -> r0 <> AMore -> is_want (s_err s0) = true ->
    wf_hans a -> Forall wf_slot sl ->
    connect c a opts s0 sl = (s, r) -> connecting c s r.
