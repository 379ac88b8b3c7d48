(* SftpListSpec.v - vocabulary of C91: what a server sends to a client that
   lists a directory. *)
From Verif Require Import Base WireSpec NegoSpec ReqSpec OsshSpec SftpModel SftpSpec SftpClientModel SftpClientSpec.
From Coq Require Import List NArith.
Import ListNotations.
Open Scope N_scope.
Local Notation str := OsshSpec.str.
Local Notation status := SftpClientSpec.status.

Notation entry := (bytes * bytes * attrs)%type (only parsing).

(* A NAME message: how many entries and the entries; bytes after them are
   ignored. At most a mebibyte is taken. *)
Definition names (id : N) (es : list entry) (m : msg) : Prop :=
  framed m /\ m_type m = 104 /\ m_id m = id /\ lenN (m_body m) <= 1048576 /\
  exists cb bs x, u32 (lenN es) cb /\ Forall2 name_wire es bs /\ m_body m = cb ++ List.concat bs ++ x.

Definition status_of (code : N) (m : msg) : Prop :=
  framed m /\ m_type m = 101 /\ status code (m_body m).

(* a status that says success, whatever follows the code *)
Definition success (m : msg) : Prop :=
  framed m /\ m_type m = 101 /\ exists x, m_body m = be32 0 ++ x.

Definition handle_of (id : N) (h : bytes) (m : msg) : Prop :=
  framed m /\ m_type m = 102 /\ m_id m = id /\ lenN h <= 256 /\ m_body m = str h.

(* request numbers go round at 2^32 *)
Definition up (id k : N) : N := (id + k) mod W32.

(* [m] answers OPENDIR number [id] without an error; [id'] is the number of the
   next request *)
Definition opened (id : N) (m : msg) (id' : N) : Prop :=
  (framed m /\ m_type m = 102 /\ m_id m = id /\ id' = up id 1) \/ (success m /\ id' = id).

(* successive batches of entries, none of them empty, numbered from [id] *)
Inductive batches : N -> list (list entry) -> list msg -> Prop :=
| batches_nil : forall id, batches id [] []
| batches_cons : forall id es ess m ms,
    es <> [] -> names id es m -> batches (up id 1) ess ms -> batches id (es :: ess) (m :: ms).

(* The server's part when directory [dir] is listed from request [id] on: it
   resolves the name to [path] and gives handle [h], sends the entries in
   batches [ess], then a status with [code] instead of more, then acknowledges
   the end. *)
Definition served (id : N) (path h : bytes) (ess : list (list entry)) (code : N) (ms : list msg) : Prop :=
  exists long a m0 m1 bs m2 m3,
    names id [(path, long, a)] m0 /\ handle_of (up id 1) h m1 /\ batches (up id 2) ess bs /\
    status_of code m2 /\ m_id m2 = up id (2 + lenN ess) /\ lenN (m_body m2) <= 1048576 /\
    status_of 0 m3 /\ ms = m0 :: m1 :: bs ++ [m2; m3].

(* The client's part *)
Definition asked (id : N) (dir path h : bytes) (n : N) (ms : list msg) : Prop :=
  exists rd,
    ms = Msg 16 id (str dir) :: Msg 11 (up id 1) (str path) :: rd ++ [Msg 4 (up id (2 + n)) (str h)] /\
    lenN rd = n + 1 /\
    forall k, k <= n -> nth_error rd (N.to_nat k) = Some (Msg 12 (up id (2 + k)) (str h)).

Definition wires (ms : list msg) : bytes := List.concat (map wire ms).
