(* BufProps.v - C12. *)
From Verif Require Import Base BufModel BufSpec BufProofs.
From Coq Require Import List NArith Lia Bool ZifyBool ZifyNat ZifyN.
Import ListNotations.
Open Scope N_scope.

(* One operation, whatever the buffer: it never touches memory outside the
   allocation, keeps idx <= length <= capacity, and changes the unread bytes
   exactly as the queue operation says. *)
Theorem C12_operation : forall b o, buf_inv b -> op_ok (unread b) o ->
  exists r b', bstep b o = BOk r b' /\ buf_inv b' /\
    unread b' = qstep (unread b) o (rc_eqb r WS_SUCCESS).
Proof. exact bstep_spec. Qed.

(* Growing makes the requested room available, compacts, and keeps the unread
   bytes; the only failure is the allocator's, and it changes nothing. *)
Theorem C12_grow_room : forall ok b sz, buf_inv b -> sz + lenN (unread b) < W32 ->
  exists r b', GrowBuffer ok b sz = BOk r b' /\
   ((r = WS_SUCCESS /\ unread b' = unread b /\ b_idx b' = 0 /\ b_len b' + sz <= b_cap b') \/
    (r = WS_MEMORY_E /\ ok = false /\ b' = b)).
Proof.
  intros ok b sz Hi Hs. destruct (GrowBuffer_spec ok b sz Hi Hs) as (r & b' & E & [K|K]).
  - destruct K as (-> & _ & Eu & Ei & _ & Hr & _). exists WS_SUCCESS, b'. auto 10.
  - exists r, b'. auto.
Qed.

(* Appending never fails for lack of room: only the allocator or a total past
   2^32 stops it. *)
Theorem C12_append : forall ok b d, buf_inv b -> is32 (lenN d) ->
  exists r b', AppendBuffer ok b d = BOk r b' /\
   ((r = WS_SUCCESS /\ unread b' = unread b ++ d) \/
    (r = WS_MEMORY_E /\ ok = false /\ b' = b) \/
    (r = WS_OVERFLOW_E /\ W32 <= lenN (unread b) + lenN d /\ b' = b)).
Proof.
  intros ok b d Hi Hd. destruct (AppendBuffer_spec ok b d Hi Hd) as (r & b' & E & [K|K]).
  - exists r, b'. intuition.
  - exists r, b'. auto.
Qed.

(* A forced shrink discards everything; an ordinary one nothing. *)
Theorem C12_shrink : forall b f, buf_inv b ->
  exists b', ShrinkBuffer b f = BOk WS_SUCCESS b' /\ buf_inv b' /\
             unread b' = if f then [] else unread b.
Proof.
  intros b f Hi. destruct (ShrinkBuffer_spec b f Hi) as (b' & E & Hi' & Eu & _). eauto.
Qed.

(* Every history of operations starting from an initialised buffer: the
   unread bytes are those of the queue. *)
Theorem C12_history : forall ok size b os q b',
  is32 size -> BufferInit ok size = BOk WS_SUCCESS b ->
  queue_run [] b os q b' ->
  buf_inv b' /\ unread b' = q.
Proof.
  intros ok size b os q b' Hs Hb Hr.
  destruct (BufferInit_spec ok size Hs) as (r & b0 & E & _ & _ & K & _).
  rewrite E in Hb. injection Hb as -> ->. destruct (K eq_refl) as (Hi & Eu & _).
  eapply brun_queue; eassumption.
Qed.
Print Assumptions C12_operation.
Print Assumptions C12_grow_room.
Print Assumptions C12_append.
Print Assumptions C12_shrink.
Print Assumptions C12_history.

(* append twenty bytes, consume three, shrink (no effect), append, consume
   all but two, shrink: the two last bytes remain, in the static buffer *)
Definition C12_ops : list bop :=
  [BAppend true (map N.of_nat (seq 1 20)); BConsume 3; BShrink false;
   BReserve true 8 [90;91]; BAppend false (repeat 7 40); BConsume 17; BShrink false].
Example C12_nonvacuous :
  exists b, BufferInit true 0 = BOk WS_SUCCESS b /\
  queue_run [] b C12_ops [90;91] (mkBuf [90;91] 0 16 false).
Proof.
  eexists. split; [reflexivity|]. unfold C12_ops.
  repeat (eapply qr_cons;
    [vm_compute; repeat split; congruence
    |vm_compute; reflexivity
    |match goal with |- queue_run ?q _ _ _ _ => let v := eval vm_compute in q in change q with v end]).
  apply qr_nil.
Qed.

(* The caller's obligation on the size is needed: a request that wraps 32 bits
   reports success without the room. *)
Example C12_wrapped_request :
  exists b', GrowBuffer true (mkBuf (repeat 1 10) 0 16 false) 4294967290 = BOk WS_SUCCESS b' /\
  ~ (b_len b' + 4294967290 <= b_cap b').
Proof. eexists. split; [vm_compute; reflexivity|]. vm_compute. congruence. Qed.
