(* SftpSpec2.v - what it means that a session over a byte stream serves the
   requests in it. Independent of how the server is written. *)
From Verif Require Import Base WireModel WireSpec PathModel PathSpec ReqSpec SftpModel SftpSpec.
From Coq Require Import List NArith ZArith Bool.
Import ListNotations.
Open Scope N_scope.

Definition request : Type := N * N * bytes.
Definition req (ev : hev) : request := (q_ty ev, q_id ev, q_data ev).
Definition req_frame (q : request) (m : bytes) : Prop := match q with (ty, id, d) => frame ty id d m end.

(* [input] is the requests of [h], oldest first, and then [rest] *)
Definition holds (input : bytes) (qs : list request) (rest : bytes) : Prop :=
  exists ms, Forall2 req_frame qs ms /\ input = List.concat ms ++ rest.
Definition requests (h : list hev) : list request := map req (rev h).

(* the replies, oldest first *)
Definition replies (h : list hev) : bytes :=
  List.concat (map (fun ev => match q_reply ev with Some m => m | None => [] end) (rev h)).

Definition is_prefix {A} (a b : list A) : Prop := exists x, b = a ++ x.

(* requests the server is ready to take *)
Definition takes (q : request) : Prop := match q with (_, _, d) => 1 <= lenN d <= 65536 end.
