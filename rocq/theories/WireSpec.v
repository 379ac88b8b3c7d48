(* WireSpec.v - the vocabulary of C01-C03: what the SSH data types of RFC 4251
   section 5 mean, written without reference to the reader functions. *)
From Verif Require Import Base.
From Coq Require Import List NArith.
Import ListNotations.
Open Scope N_scope.

(* the number a big-endian byte string denotes *)
Definition be_value (b : bytes) : N := fold_left (fun acc x => acc * 256 + x) b 0.

(* bytes off .. off+n-1 of a message *)
Definition slice (b : bytes) (off n : N) : bytes := takeN n (dropN off b).

(* [uint32_at m len i v]: the message of len bytes has the uint32 v at i *)
Definition uint32_at (m : bytes) (len i v : N) : Prop :=
  i + 4 <= len /\ v = be_value (slice m i 4).

(* [string_at m len i s]: the message has the string s (length prefix and
   contents) at i, entirely inside its len bytes *)
Definition string_at (m : bytes) (len i : N) (s : bytes) : Prop :=
  uint32_at m len i (lenN s) /\ i + 4 + lenN s <= len /\
  s = slice m (i + 4) (lenN s).

(* RFC 4251: the canonical mpint contents of a non-negative number: minimal
   length, top bit clear *)
Definition mpint_canonical (b : bytes) : Prop :=
  match b with
  | [] => True
  | x :: r =>
      N.testbit x 7 = false /\
      (x = 0 -> exists y t, r = y :: t /\ N.testbit y 7 = true)
  end.
