(* BufSpec.v - what a buffer is for: a queue of unread bytes. *)
From Verif Require Import Base BufModel.
From Coq Require Import List NArith Bool.
Import ListNotations.
Open Scope N_scope.

(* the bytes not yet consumed *)
Definition unread (b : wbuf) : bytes := dropN (b_idx b) (b_data b).

(* idx <= length <= capacity, all 32-bit *)
Definition buf_inv (b : wbuf) : Prop :=
  b_idx b <= b_len b /\ b_len b <= b_cap b /\ is32 (b_cap b) /\ STATIC_BUFFER_LEN <= b_cap b.

(* the queue after an operation, given whether the operation succeeded *)
Definition qstep (q : bytes) (o : bop) (succeeded : bool) : bytes :=
  match o with
  | BGrow _ _ => q
  | BReserve _ _ d => if succeeded then q ++ d else q
  | BAppend _ d => if succeeded then q ++ d else q
  | BConsume n => if succeeded then dropN n q else q
  | BShrink f => if f then [] else q
  end.

(* what callers owe: a requested size (together with what is queued) fits 32
   bits, and no more is written than was requested *)
Definition op_ok (q : bytes) (o : bop) : Prop :=
  match o with
  | BGrow _ sz => sz + lenN q < W32
  | BReserve _ sz d => sz + lenN q < W32 /\ lenN d <= sz
  | BAppend _ d => is32 (lenN d)
  | BConsume n => True
  | BShrink _ => True
  end.

(* a history of operations against the queue *)
Inductive queue_run : bytes -> wbuf -> list bop -> bytes -> wbuf -> Prop :=
| qr_nil : forall q b, queue_run q b [] q b
| qr_cons : forall q b o r b' os q2 b2,
    op_ok q o -> bstep b o = BOk r b' ->
    queue_run (qstep q o (rc_eqb r WS_SUCCESS)) b' os q2 b2 ->
    queue_run q b (o :: os) q2 b2.
