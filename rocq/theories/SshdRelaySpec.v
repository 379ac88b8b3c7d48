(* SshdRelaySpec.v - what it means that data passes unchanged. *)
From Coq Require Import List NArith Bool.
From Verif Require Import Base SshdRelayModel.
Import ListNotations.
Open Scope N_scope.

Definition prefix (a b : bytes) : Prop := exists r, b = a ++ r.

(* A read gives the next bytes of what the program writes in its life, at most
   a buffer of them; the end comes after all of it. *)
Definition read_ok (total so_far : bytes) (r : red) : Prop :=
  match r with
  | RData b => b <> [] /\ lenN b <= 32768 /\ prefix (so_far ++ b) total
  | REnd _ => so_far = total
  | RFail _ => True
  end.
(* A send that takes something takes at least one byte (C16). *)
Definition sent_ok (r : sent) : Prop := match r with SSent n => 1 <= n | _ => True end.
Definition turn_ok (out err : bytes) (s : rst) (t : turn) : Prop :=
  read_ok out (r_rout s) (t_out t) /\ read_ok err (r_rerr s) (t_err t) /\
  sent_ok (t_resend t) /\ sent_ok (t_err_sent t) /\ sent_ok (t_out_sent t).
(* The turns fit a program that writes [out] and [err]. *)
Fixpoint fits (piped : bool) (out err : bytes) (s : rst) (ts : list turn) : Prop :=
  match ts with
  | [] => True
  | t :: r => turn_ok out err s t /\ fits piped out err (step piped s t) r
  end.
(* The last reads: the next bytes, as many as the buffer takes. *)
Definition rest_ok (total so_far b : bytes) : Prop := exists r, total = so_far ++ r /\ b = takeN 32768 r.

(* Every write to the program takes all it is given. *)
Definition whole (t : turn) : Prop := 32768 <= t_write t.

(* Whenever something is received the program's data is not waiting, and the
   loop is told of it, by a buffer at most. *)
Fixpoint calm (piped : bool) (s : rst) (ts : list turn) : Prop :=
  match ts with
  | [] => True
  | t :: r => (t_in t = [] \/ (t_work t = WRxd true /\ lenN (t_in t) <= 32768 /\ r_held s = [])) /\ calm piped (step piped s t) r
  end.
(* The client sends nothing. *)
Definition silent (t : turn) : Prop := t_keying t = false /\ t_in t = [] /\ t_eof t = false /\ t_work t = WWantRead.
(* The connection has no failure in this turn. *)
Definition sound (t : turn) : Prop :=
  t_work t <> WErr /\ t_work t <> WClosed /\ t_resend t <> SErr /\ t_err_sent t <> SErr /\ t_out_sent t <> SErr /\ t_select t <> SelFail.
(* The whole of [b] is taken at the first attempt. *)
Definition at_once (b : bytes) (rs : list sent) : Prop := b = [] \/ exists n r, rs = SSent n :: r /\ lenN b <= n.

(* A turn in which the program's next output is read and sent whole, and the
   turns at the end: the end of the output with the program's exit, and the one
   that finds the loop's condition false. *)
Definition says (b : bytes) : turn :=
  Turn false false false (SelReady false true false) WOk [] false 0 SFull (RFail false) SFull (RData b) (SSent (lenN b)).
Definition ends : turn :=
  Turn true false false (SelReady false true false) WOk [] false 0 SFull (RFail false) SFull (REnd false) SFull.
