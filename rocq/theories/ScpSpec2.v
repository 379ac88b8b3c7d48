(* ScpSpec2.v - what a whole SCP upload is and what it should leave behind
   (C60). Of the model, only the calls, the events and the states are used. *)
From Verif Require Import Base ScpModel ScpSpec.
From Coq Require Import List NArith ZArith Bool.
Import ListNotations.
Open Scope N_scope.

(* ------------------------------------------------------------------ *)
(* What a sender has to offer: files, and directories as their contents
   between IDir and IEnd. [o]: the mode as octal digits, [ds]: the size as
   decimal digits, [t]: the times as decimal digits, if they are sent.      *)
Inductive item :=
| IFile (t : option (bytes * bytes)) (o ds name content : bytes)
| IDir (o ds name : bytes)
| IEnd.

Definition text_ok (m : bytes) : Prop := ~ In 10 m /\ lenN m <= 1022.
Definition name_ok (n : bytes) : Prop := plain n /\ ~ In 0 n.
Definition header_ok (t : N) (o ds n : bytes) : Prop :=
  octals o /\ digits ds /\ value 10 ds < 4294967296 /\ name_ok n /\ text_ok (header t o ds n).
Definition times_ok (t : option (bytes * bytes)) : Prop :=
  match t with
  | None => True
  | Some (m, a) => digits m /\ digits a /\ value 10 m < 18446744073709551616 /\ value 10 a < 18446744073709551616 /\
                   (value 10 m <> 0 \/ value 10 a <> 0) /\ text_ok (times_msg m a)
  end.

(* [depth]: the directories entered and not left *)
Fixpoint items_ok (depth : nat) (l : list item) : Prop :=
  match l with
  | [] => True
  | IFile t o ds n c :: r => times_ok t /\ header_ok 67 o ds n /\ value 10 ds = lenN c /\ items_ok depth r
  | IDir o ds n :: r => header_ok 68 o ds n /\ items_ok (S depth) r
  | IEnd :: r => match depth with O => False | S d => items_ok d r end
  end.

(* ------------------------------------------------------------------ *)
(* What should be there afterwards. A place is the list of directories, the
   innermost first, below the one the upload starts in.                     *)
Inductive thing :=
| AFile (place : list bytes) (name content : bytes) (times : option (N * N))
| ADir (place : list bytes) (name : bytes) (mode : N).

Fixpoint placed (place : list bytes) (l : list item) : list thing :=
  match l with
  | [] => []
  | IFile t _ _ n c :: r =>
      AFile place n c (match t with None => None | Some (m, a) => Some (value 10 m, value 10 a) end) :: placed place r
  | IDir o _ n :: r => ADir place n (N.land (value 8 o) 511) :: placed (n :: place) r
  | IEnd :: r => placed (tl place) r
  end.

(* The first thing sent is stored under the name [n]. *)
Definition rename_first (n : bytes) (l : list item) : list item :=
  match l with
  | IFile t o ds _ c :: r => IFile t o ds n c :: r
  | IDir o ds _ :: r => IDir o ds n :: r
  | _ => l
  end.

(* ------------------------------------------------------------------ *)
(* What is there afterwards: the calls, the newest first, replayed.         *)
Record disk := mkDisk {
  d_here : option (list bytes);                               (* the place the process is in *)
  d_open : option (Z * bytes * bytes * option (N * N));       (* stream, name, bytes so far, times *)
  d_made : list thing }.                                      (* the newest first *)

Definition apply_call (c : scall) (r : Z) (d : disk) : disk :=
  match c with
  | SProbe _ | SLink _ => d
  | SChdir p =>
      if (r =? 0)%Z then
        match d_here d with
        | None => mkDisk (Some []) (d_open d) (d_made d)
        | Some s => mkDisk (Some (if list_eq_dec N.eq_dec p [46; 46] then tl s else p :: s)) (d_open d) (d_made d)
        end
      else d
  | SMkdir n m =>
      match d_here d with
      | Some s => if (r =? 0)%Z || (r =? 17)%Z then mkDisk (d_here d) (d_open d) (ADir s n m :: d_made d) else d
      | None => d
      end
  | SOpen n => if (0 <=? r)%Z then mkDisk (d_here d) (Some (r, n, [], None)) (d_made d) else d
  | SWrite f w =>
      match d_open d with
      | Some (g, n, b, t) =>
          if (f =? g)%Z then mkDisk (d_here d) (Some (g, n, b ++ takeN (Z.to_N r) w, t)) (d_made d) else d
      | None => d
      end
  | SUtimes f m a =>
      match d_open d with
      | Some (g, n, b, t) =>
          if (f =? g)%Z && (r =? 0)%Z then mkDisk (d_here d) (Some (g, n, b, Some (m, a))) (d_made d) else d
      | None => d
      end
  | SClose f =>
      match d_here d, d_open d with
      | Some s, Some (g, n, b, t) => if (f =? g)%Z then mkDisk (d_here d) None (AFile s n b t :: d_made d) else d
      | _, _ => d
      end
  end.

Fixpoint replay (l : slog) : disk :=
  match l with
  | [] => mkDisk None None []
  | (c, r) :: t => apply_call c r (replay t)
  end.

(* The things made, the oldest first. *)
Definition made (l : slog) : list thing := rev (d_made (replay l)).

(* A system on which everything works. *)
Definition kind (E : sys) : Prop := forall l c,
  match c with
  | SChdir _ | SLink _ | SUtimes _ _ _ => E l c = 0%Z
  | SMkdir _ _ => E l c = 0%Z \/ E l c = 17%Z
  | SOpen _ => (0 <= E l c)%Z
  | SWrite _ w => E l c = Z.of_N (lenN w)
  | SProbe _ | SClose _ => True
  end.

(* ------------------------------------------------------------------ *)
(* The sender, waiting for each confirmation.                               *)

(* The bytes [m] come in pieces of any sizes, and at any times. *)
Inductive reads : bytes -> list sev -> Prop :=
| reads_last d : d <> [] -> lenN d <= 32768 -> reads d [EData d]
| reads_some d m es : d <> [] -> lenN d <= 32768 -> reads m es -> reads (d ++ m) (EData d :: es)
| reads_wait m es : reads m es -> reads m (EAgain :: es).

(* The one byte of the confirmation is sent, perhaps not at once. *)
Inductive acked : list sev -> Prop :=
| acked_now : acked [ESent 1]
| acked_wait es : acked es -> acked (EAgain :: es)
| acked_none es : acked es -> acked (ESent 0 :: es).

(* the sender's own confirmation *)
Inductive confirms : list sev -> Prop :=
| confirms_now : confirms [EData [0]]
| confirms_wait es : confirms es -> confirms (EAgain :: es).

(* a message and its confirmation *)
Inductive turn (m : bytes) : list sev -> Prop :=
| turn_intro a b : reads (m ++ [10]) a -> acked b -> turn m (a ++ b).

Inductive data_turn : bytes -> list sev -> Prop :=
| data_none e : data_turn [] [e]
| data_some c es : c <> [] -> reads c es -> data_turn c es.

Inductive sends : item -> list sev -> Prop :=
| sends_file o ds n c h d a f : turn (header 67 o ds n) h -> data_turn c d -> acked a -> confirms f ->
    sends (IFile None o ds n c) (h ++ d ++ a ++ f)
| sends_timed m t o ds n c h d : turn (times_msg m t) h -> sends (IFile None o ds n c) d ->
    sends (IFile (Some (m, t)) o ds n c) (h ++ d)
| sends_dir o ds n h : turn (header 68 o ds n) h -> sends (IDir o ds n) h
| sends_end h : turn [69] h -> sends IEnd h.

Inductive sends_all : list item -> list sev -> Prop :=
| sends_nil : sends_all [] []
| sends_cons i l a b : sends i a -> sends_all l b -> sends_all (i :: l) (a ++ b).

(* The whole: the receiver's first confirmation, the items, the end. *)
Inductive session_of (l : list item) : list sev -> Prop :=
| session_intro e a b : acked a -> sends_all l b -> session_of l (e :: a ++ b ++ [EEnd]).

(* All bytes the sender sends. *)
Definition item_bytes (i : item) : bytes :=
  match i with
  | IFile t o ds n c =>
      match t with None => [] | Some (m, a) => times_msg m a ++ [10] end ++ header 67 o ds n ++ [10] ++ c ++ [0]
  | IDir o ds n => header 68 o ds n ++ [10]
  | IEnd => [69; 10]
  end.
Definition script (l : list item) : bytes := flat_map item_bytes l.
