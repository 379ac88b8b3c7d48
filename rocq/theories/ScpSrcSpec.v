(* ScpSrcSpec.v - what an SCP sender should send (C61).
   The protocol goes in turns: the sender may speak each time it has heard a
   confirmation, and not before. *)
From Verif Require Import Base ScpModel ScpSpec ScpSpec2 ScpSrcModel.
From Coq Require Import List NArith ZArith Bool.
Import ListNotations.
Open Scope N_scope.

(* What was said between the confirmations heard, the newest first: as many
   pieces as confirmations, and one. *)
Fixpoint said (l : list wtrace) : list bytes :=
  match l with
  | [] => [[]]
  | Wrote d :: t => match said t with g :: r => (g ++ d) :: r | [] => [] end
  | Heard _ :: t => [] :: said t
  end.
Definition turns_of (l : list wtrace) : list bytes := rev (said l).

(* [g] is what has been said so far, if [t] is what is to be said. *)
Definition so_far (g t : list bytes) : Prop :=
  exists done now more rest, g = done ++ [now] /\ t = done ++ (now ++ more) :: rest.

(* ------------------------------------------------------------------ *)
(* What is to be said, from the answers of the callback: the finished turns
   and the one the sender is in; whether it is in a file, how much of it was
   given, and the last error message.                                      *)
Record story := mkStory { y_done : list bytes; y_now : bytes; y_file : bool; y_off : N; y_err : option bytes }.
Definition story0 (e : option bytes) : story := mkStory [] [] false 0 e.

Definition error_of (s : story) (a : answer) : option bytes :=
  match a_err a with Some e => Some e | None => y_err s end.
Definition refusal (e : option bytes) : bytes :=
  match e with Some m => [1] ++ m ++ [10] | None => [1] end.

Definition tell (times : bool) (s : story) (a : answer) : story :=
  let e := error_of s a in
  match a_ret a with
  | REnter => mkStory (y_done s ++ [y_now s ++ msg_dir (a_mode a) (a_name a)]) [] (y_file s) (y_off s) e
  | RExit | RFinal => mkStory (y_done s ++ [y_now s ++ msg_end]) [] (y_file s) (y_off s) e
  | RAbort => mkStory (y_done s) (y_now s ++ refusal e) (y_file s) (y_off s) e
  | RComplete | REof | RError => s
  | RData d =>
      let heads := if y_file s then []
                   else (if times then [msg_times (a_mtime a) (a_atime a)] else []) ++
                        [msg_file (a_mode a) (a_size a) (a_name a)] in
      let off := w32 (y_off s + lenN d) in
      let now := y_now s ++ d in
      if a_size a <=? off then mkStory (y_done s ++ heads ++ [now ++ [0]]) [] false 0 None
      else mkStory (y_done s ++ heads) now true off e
  end.

Definition told (times : bool) (e : option bytes) (l : list answer) : story := fold_left (tell times) l (story0 e).

(* All turns: the first confirmation comes before anything is said. *)
Definition to_say (times : bool) (first : option answer) (l : list answer) : list bytes :=
  match option_map (fun a => (a_ret a, a_err a)) first with
  | Some (RAbort, e) => [[]; refusal e]
  | Some (REof, _) => [[]; [0]]
  | _ => let s := told times (match first with Some a => a_err a | None => None end) l in
         [] :: y_done s ++ [y_now s]
  end.

(* ------------------------------------------------------------------ *)
(* Answers that offer files and directories.                              *)

(* [n] in decimal, and [n] with four octal digits *)
Definition decimal (n : N) (l : bytes) : Prop := digits l /\ value 10 l = n /\ (hd 0 l = 48 -> l = [48]).
Definition octal4 (n : N) (l : bytes) : Prop := octals l /\ value 8 l = n.

(* the parts of a file after the first *)
Inductive parts (size : N) : bytes -> list answer -> Prop :=
| parts_nil : parts size [] []
| parts_cons a d c l : a_ret a = RData d -> d <> [] -> a_size a = size -> parts size c l -> parts size (d ++ c) (a :: l).

Inductive offers (times : bool) : item -> list answer -> Prop :=
| offers_file t o ds a d c l :
    a_ret a = RData d -> parts (a_size a) c l -> (c = [] -> l = []) ->
    lenN (d ++ c) = a_size a -> a_size a < 4294967296 ->
    octal4 (N.land (a_mode a) 511) o -> decimal (a_size a) ds ->
    (if times then exists m z, t = Some (m, z) /\ decimal (a_mtime a) m /\ decimal (a_atime a) z else t = None) ->
    offers times (IFile t o ds (a_name a) (d ++ c)) (a :: l)
| offers_dir o a : a_ret a = REnter -> octal4 (N.land (a_mode a) 511) o ->
    offers times (IDir o [48] (a_name a)) [a]
| offers_end a : a_ret a = RExit \/ a_ret a = RFinal -> offers times IEnd [a].

Inductive offers_all (times : bool) : list item -> list answer -> Prop :=
| offers_nil : offers_all times [] []
| offers_cons i l a b : offers times i a -> offers_all times l b -> offers_all times (i :: l) (a ++ b).

(* What is said for an item, in turns. *)
Definition item_turns (i : item) : list bytes :=
  match i with
  | IFile t o ds n c =>
      match t with None => [] | Some (m, a) => [times_msg m a ++ [10]] end ++ [header 67 o ds n ++ [10]; c ++ [0]]
  | IDir o ds n => [header 68 o ds n ++ [10]]
  | IEnd => [[69; 10]]
  end.

(* The texts fit in a message. *)
Definition fits (i : item) : Prop :=
  match i with
  | IFile t o ds n _ =>
      match t with None => True | Some (m, a) => lenN (times_msg m a) <= 1022 end /\ lenN (header 67 o ds n) <= 1022
  | IDir o ds n => lenN (header 68 o ds n) <= 1022
  | IEnd => True
  end.

(* A read that is a confirmation: it begins with a byte 0. *)
Definition confirms_turn (t : wtrace) : Prop :=
  match t with
  | Heard (Some d) => exists r, d = 0 :: r
  | Heard None => False
  | Wrote _ => True
  end.

(* What a peer does that sends nothing on the error stream and no empty data. *)
Definition fair (e : wev) : Prop := match e with WExt => False | WData d => d <> [] | _ => True end.

(* A callback that gives the answers of a list, one after the other, and then
   fails. *)
Definition teller : callbacks (list answer) :=
  mkCb (list answer)
    (fun c _ => match c with [] => (mkAns RError [] 0 0 0 0 None, []) | a :: r => (a, r) end)
    (fun c => c) (fun c => Some c).

(* Files and directories that the protocol can carry: their names are names,
   without a line end, the times are 64-bit numbers and not both 0, and no
   directory is left that was not entered. *)
Fixpoint carried (depth : nat) (l : list item) : Prop :=
  match l with
  | [] => True
  | IFile t _ _ n _ :: r =>
      name_ok n /\ ~ In 10 n /\
      match t with
      | None => True
      | Some (m, a) => value 10 m < 18446744073709551616 /\ value 10 a < 18446744073709551616 /\ (value 10 m <> 0 \/ value 10 a <> 0)
      end /\ carried depth r
  | IDir _ _ n :: r => name_ok n /\ ~ In 10 n /\ carried (S depth) r
  | IEnd :: r => match depth with O => False | S d => carried d r end
  end.
