(* PathSpec.v - vocabulary of C29 and C30: paths as lists of components. *)
From Verif Require Import Base.
From Coq Require Import List NArith.
Import ListNotations.
Open Scope N_scope.

(* "/" followed by the components separated by "/" *)
Definition path_of (cs : list bytes) : bytes :=
  match cs with
  | [] => [47]
  | _ => flat_map (fun c => 47 :: c) cs
  end.

(* the pieces between slashes; joined again with slashes they are the text *)
Fixpoint pieces (s : bytes) : list bytes :=
  match s with
  | [] => [[]]
  | c :: r =>
      match pieces r with
      | p :: ps => if N.eq_dec c 47 then [] :: p :: ps else (c :: p) :: ps
      | [] => [[c]]
      end
  end.

Definition dot : bytes := [46].
Definition dotdot : bytes := [46; 46].

(* walking: an empty piece and "." stay, ".." goes up (and stays at the root),
   anything else goes down *)
Definition walk1 (at_ : list bytes) (c : bytes) : list bytes :=
  if list_eq_dec N.eq_dec c [] then at_
  else if list_eq_dec N.eq_dec c dot then at_
  else if list_eq_dec N.eq_dec c dotdot then removelast at_
  else at_ ++ [c].
Definition walk (from : list bytes) (cs : list bytes) : list bytes := fold_left walk1 cs from.

(* a proper file name *)
Definition plain (c : bytes) : Prop := c <> [] /\ c <> dot /\ c <> dotdot /\ ~ In 47 c.
Definition canonical (s : bytes) : Prop := exists cs, Forall plain cs /\ s = path_of cs.

Definition absolute (s : bytes) : Prop := exists r, s = 47 :: r.

(* [inside root cs]: cs is root or below it, component by component *)
Definition inside (root cs : list bytes) : Prop := exists r, cs = root ++ r.

(* [fits sz from cs]: the name of every directory on the way from [from] along
   [cs] is shorter than sz bytes *)
Definition fits (sz : N) (from cs : list bytes) : Prop :=
  forall n, lenN (path_of (walk from (firstn n cs))) < sz.

(* the directory a request starts from *)
Definition start (from : list bytes) (request : bytes) (st : list bytes) : Prop :=
  (absolute request /\ st = []) \/ (~ absolute request /\ st = from).

(* the configured start directory: a canonical path, or none (the root) *)
Definition default_is (d : option bytes) (from : list bytes) : Prop :=
  Forall plain from /\
  (match d with
   | None => from = []
   | Some s => s = path_of from /\ is32 (lenN s)
   end).

(* the text in a C string buffer *)
Definition text (data t : bytes) : Prop :=
  ~ In 0 t /\ (data = t \/ exists r, data = t ++ 0 :: r).

(* no directory or file on the way from [root] to [cs], [root] itself excepted,
   is a link *)
Definition no_links (link : bytes -> bool) (root cs : list bytes) : Prop :=
  forall r1 r2, cs = root ++ r1 ++ r2 -> r1 <> [] -> link (path_of (root ++ r1)) = false.

(* [s] names [root] or something below it *)
Definition names_inside (root : list bytes) (s : bytes) : Prop :=
  exists cs, Forall plain cs /\ s = path_of cs /\ inside root cs.

(* the directory meant by a configured path: relative ones are relative to the
   working directory *)
Definition resolved (cwd : option bytes) (path : bytes) (cs : list bytes) : Prop :=
  (absolute path /\ cs = walk [] (pieces path)) \/
  (~ absolute path /\ exists w, cwd = Some w /\ cs = walk (walk [] (pieces w)) (pieces path)).

(* names of directory entries: proper names, "." and ".." *)
Definition entry_name (n : bytes) : Prop := plain n \/ n = dot \/ n = dotdot.

(* what getcwd writes: an absolute path of fewer than 255 bytes *)
Definition getcwd_ok (cwd : option bytes) : Prop :=
  forall w, cwd = Some w -> lenN w < 255 /\ ~ In 0 w /\ absolute w.
