(* ScpWalkSpec.v - what a sender may open (C64), and what it has open (C65). *)
From Verif Require Import Base PathSpec ScpModel ScpSrcModel.
From Coq Require Import List NArith ZArith Bool.
Import ListNotations.
Open Scope N_scope.

(* The directory [d] was opened, and [n] is a name in it. *)
Definition listed (l : clog) (d n : bytes) : Prop :=
  exists r, In (COpendir d, r) l /\ (0 <= r_num r)%Z /\ In n (r_names r) /\ n <> dot /\ n <> dotdot.
(* [p] was looked at, and is not a link. *)
Definition checked (l : clog) (p : bytes) : Prop := exists r, In (CLink p, r) l /\ r_num r = 0%Z.

(* [root] is [base] without the separators at its end, unless it is all there is *)
Definition root_of (base root : bytes) : Prop :=
  exists s, base = root ++ s /\ Forall (fun c => c = 47 \/ c = 92) s /\
  (lenN root <= 1 \/ exists a c, root = a ++ [c] /\ c <> 47 /\ c <> 92).

(* the path a call is about; CLink is the check itself *)
Definition touches (x : wcall) : option bytes :=
  match x with CLstat p | COpendir p | CFopen p => Some p | _ => None end.

(* Everything touched is [base], for a recursive download checked before, or an
   entry, checked before, of a directory opened before. The newest call is
   first. *)
Inductive careful (rec : bool) (base : bytes) : clog -> Prop :=
| careful_none : careful rec base []
| careful_more x r l : careful rec base l ->
    (forall p, touches x = Some p ->
       (p = base /\ (rec = true -> exists root, root_of base root /\ checked l root)) \/
       (exists d n, p = d ++ [47] ++ n /\ listed l d n /\ checked l p)) ->
    careful rec base ((x, r) :: l).

(* The names a system lists: no separator in them. *)
Definition lists_names (E : csys) : Prop := forall l d n, In n (r_names (E l (COpendir d))) -> ~ In 47 n.
Definition lists_no_backslash (E : csys) : Prop := forall l d n, In n (r_names (E l (COpendir d))) -> ~ In 92 n.

(* ------------------------------------------------------------------ *)
Fixpoint without (h : Z) (l : list Z) : list Z :=
  match l with [] => [] | x :: t => if (x =? h)%Z then t else x :: without h t end.
(* what is open after the calls *)
Fixpoint open_dirs (l : clog) : list Z :=
  match l with
  | [] => []
  | (COpendir _, r) :: t => if (r_num r <? 0)%Z then open_dirs t else r_num r :: open_dirs t
  | (CClosedir h, _) :: t => without h (open_dirs t)
  | _ :: t => open_dirs t
  end.
Fixpoint open_files (l : clog) : list Z :=
  match l with
  | [] => []
  | (CFopen _, r) :: t => if (r_num r <? 0)%Z then open_files t else r_num r :: open_files t
  | (CClose h, _) :: t => without h (open_files t)
  | _ :: t => open_files t
  end.

(* The size told for a stream, and how much was read since. *)
Fixpoint told (l : clog) (h : Z) : option (N * N) :=
  match l with
  | [] => None
  | (CFopen _, r) :: t => if (r_num r =? h)%Z then None else told t h
  | (CSize h', r) :: t => if (h' =? h)%Z then Some (Z.to_N (r_num r), 0) else told t h
  | (CRead h' _, r) :: t =>
      match told t h with Some (s, k) => Some (s, if (h' =? h)%Z then k + lenN (r_data r) else k) | None => None end
  | _ :: t => told t h
  end.
(* the answers are the system's *)
Fixpoint own (E : csys) (l : clog) : Prop :=
  match l with [] => True | (x, r) :: t => r = E t x /\ own E t end.
(* Files do not grow, and have less than 4 GiB. *)
Definition steady (E : csys) : Prop := forall l, own E l -> forall h,
  (r_num (E l (CSize h)) < 4294967296)%Z /\
  forall n, lenN (r_data (E l (CRead h n))) <= n /\
    forall s k, told l h = Some (s, k) -> k + lenN (r_data (E l (CRead h n))) <= s.
