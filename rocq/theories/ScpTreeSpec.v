(* ScpTreeSpec.v - a fixed file tree and what a recursive download should send
   (C63). *)
From Verif Require Import Base PathSpec ScpModel ScpSpec ScpSpec2 ScpSrcModel ScpSrcSpec.
From Coq Require Import List NArith ZArith Bool.
Import ListNotations.
Open Scope N_scope.

Inductive tree :=
| File (mode mtime atime : N) (content : bytes)
| Dir (mode mtime atime : N) (entries : list (bytes * tree)).

Fixpoint entry (n : bytes) (es : list (bytes * tree)) : option tree :=
  match es with
  | [] => None
  | (m, t) :: r => if list_eq_dec N.eq_dec m n then Some t else entry n r
  end.
(* what is at the end of the names *)
Fixpoint look (t : tree) (cs : list bytes) : option tree :=
  match cs with
  | [] => Some t
  | n :: r => match t with File _ _ _ _ => None | Dir _ _ _ es => match entry n es with Some t => look t r | None => None end end
  end.

(* Names are names, and no two alike in a directory. *)
Definition named_well (t : tree) : Prop := forall cs m mt at_ es, look t cs = Some (Dir m mt at_ es) ->
  NoDup (map fst es) /\ Forall PathSpec.plain (map fst es).
(* No name has a backslash. *)
Definition no_backslash (t : tree) : Prop := forall cs m mt at_ es, look t cs = Some (Dir m mt at_ es) ->
  Forall (fun n => ~ In 92 n) (map fst es).

(* What is to be sent, in the order of the listings. Files are smaller than
   4 GiB. *)
Inductive listing (ts : bool) : bytes -> tree -> list item -> Prop :=
| list_file n m mt at_ c t o ds :
    lenN c < 4294967296 -> octal4 (N.land m 511) o -> decimal (lenN c) ds ->
    (if ts then exists x y, t = Some (x, y) /\ decimal mt x /\ decimal at_ y else t = None) ->
    listing ts n (File m mt at_ c) [IFile t o ds n c]
| list_dir n m mt at_ es o l :
    octal4 (N.land m 511) o -> listings ts es l ->
    listing ts n (Dir m mt at_ es) (IDir o [48] n :: l ++ [IEnd])
with listings (ts : bool) : list (bytes * tree) -> list item -> Prop :=
| list_none : listings ts [] []
| list_more n t es a b : listing ts n t a -> listings ts es b -> listings ts ((n, t) :: es) (a ++ b).

(* ------------------------------------------------------------------ *)
(* A system on which the tree is at [base] and stays as it is: what it was
   asked before does not matter, but for how far a stream has been read.     *)

(* the file a stream is of, and how much of it was read *)
Fixpoint stream (l : clog) (h : Z) : option (bytes * N) :=
  match l with
  | [] => None
  | (CFopen p, r) :: t => if (r_num r =? h)%Z then Some (p, 0) else stream t h
  | (CRead h' _, r) :: t =>
      match stream t h with
      | Some (p, k) => Some (p, if (h' =? h)%Z then k + lenN (r_data r) else k)
      | None => None
      end
  | (CClose h', _) :: t => if (h' =? h)%Z then None else stream t h
  | _ :: t => stream t h
  end.

Definition below (base : bytes) (cs : list bytes) : bytes := base ++ flat_map (fun c => 47 :: c) cs.
Definition stat_of (t : tree) (r : cres) : Prop :=
  match t with
  | File m mt at_ _ => r_kind r = KFile /\ r_mode r = m /\ r_mtime r = mt /\ r_atime r = at_
  | Dir m mt at_ _ => r_kind r = KDir /\ r_mode r = m /\ r_mtime r = mt /\ r_atime r = at_
  end.
Definition not_dots (n : bytes) : bool :=
  if list_eq_dec N.eq_dec n dot then false else if list_eq_dec N.eq_dec n dotdot then false else true.

Definition has_tree (E : csys) (base : bytes) (T : tree) : Prop := forall l cs t, look T cs = Some t ->
  let p := below base cs in
  (r_num (E l (CLink p)) = 0)%Z /\
  (0 <= r_num (E l (CLstat p)))%Z /\ stat_of t (E l (CLstat p)) /\
  match t with
  | Dir _ _ _ es =>
      (0 <= r_num (E l (COpendir p)))%Z /\ filter not_dots (r_names (E l (COpendir p))) = map fst es
  | File _ _ _ c =>
      (0 <= r_num (E l (CFopen p)))%Z /\
      forall h k, stream l h = Some (p, k) ->
        r_num (E l (CSize h)) = Z.of_N (lenN c) /\
        forall n, let d := r_data (E l (CRead h n)) in
          lenN d <= n /\ (exists rest, dropN k c = d ++ rest) /\ (0 < n -> k < lenN c -> d <> [])
  end.

(* Paths fit where they are kept. *)
Definition short (base : bytes) (T : tree) : Prop := forall cs t, look T cs = Some t -> lenN (below base cs) < 1024.

(* [n] is the last name of the path [base]. *)
Definition last_name (base n : bytes) : Prop :=
  (base = n \/ exists p, base = p ++ [47] ++ n) /\ PathSpec.plain n /\ ~ In 92 n.

(* ------------------------------------------------------------------ *)
(* Such a system: "." and ".." are listed too. *)
Fixpoint strip (base p : bytes) : option bytes :=
  match base, p with
  | [], _ => Some p
  | b :: bs, c :: cs => if N.eq_dec b c then strip bs cs else None
  | _, _ => None
  end.
Definition found (base : bytes) (T : tree) (p : bytes) : option tree :=
  match strip base p with Some r => look T (tl (pieces r)) | None => None end.
Definition num (n : Z) : cres := mkRes n [] [] KOther 0 0 0.
Definition disk (base : bytes) (T : tree) : csys := fun l x =>
  match x with
  | CLink p => num (match found base T p with Some _ => 0 | None => -1 end)
  | CLstat p =>
      match found base T p with
      | Some (File m mt at_ _) => mkRes 0 [] [] KFile m mt at_
      | Some (Dir m mt at_ _) => mkRes 0 [] [] KDir m mt at_
      | None => num (-1)
      end
  | COpendir p => match found base T p with Some (Dir _ _ _ es) => mkRes 0 [] (dot :: dotdot :: map fst es) KOther 0 0 0 | _ => num (-1) end
  | CFopen p => match found base T p with Some (File _ _ _ _) => num 3 | _ => num (-1) end
  | CSize h =>
      match stream l h with
      | Some (p, _) => match found base T p with Some (File _ _ _ c) => num (Z.of_N (lenN c)) | _ => num (-1) end
      | None => num (-1)
      end
  | CRead h n =>
      match stream l h with
      | Some (p, k) => match found base T p with Some (File _ _ _ c) => mkRes 0 (takeN n (dropN k c)) [] KOther 0 0 0 | _ => num (-1) end
      | None => num (-1)
      end
  | CClose _ | CClosedir _ => num 0
  end.
