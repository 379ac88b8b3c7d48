(* ScpSpec.v - what receiving files over SCP should do, in terms of the
   system calls made, the newest first, and of the bytes on the channel.
   Only the calls' names come from the model. *)
From Verif Require Import Base ScpModel.
From Coq Require Import List NArith ZArith Bool.
Import ListNotations.
Open Scope N_scope.

(* ------------------------------------------------------------------ *)
(* C57: staying inside the destination directory                        *)

(* A name that stays in the directory it is used in: not "", "." or "..", and
   without '/' and '\'. *)
Definition plain (n : bytes) : Prop :=
  n <> [] /\ n <> [46] /\ n <> [46; 46] /\ ~ In 47 n /\ ~ In 92 n.

(* The directory the process is in, as the components below the destination,
   the innermost first; None: the destination has not been entered. *)
Fixpoint here (l : slog) : option (list bytes) :=
  match l with
  | [] => None
  | (SChdir p, r) :: t =>
      if (r =? 0)%Z then
        match here t with
        | None => Some []
        | Some d => if list_eq_dec N.eq_dec p [46; 46] then Some (tl d) else Some (p :: d)
        end
      else here t
  | _ :: t => here t
  end.

(* [n] was found not to be a symbolic link just before. *)
Definition checked (n : bytes) (before : slog) : Prop :=
  exists t, before = (SLink n, 0%Z) :: t.

(* What may be called after [before]. Opening "" always fails in POSIX. *)
Definition permitted (base : bytes) (before : slog) (c : scall) : Prop :=
  match c with
  | SOpen n => here before <> None /\ (n = [] \/ plain n) /\ checked n before
  | SMkdir n _ => here before <> None /\ plain n
  | SChdir p =>
      match here before with
      | None => p = base
      | Some d => (p = [46; 46] /\ d <> []) \/ (plain p /\ checked p before)
      end
  | SProbe _ => here before = None
  | SLink _ | SWrite _ _ | SUtimes _ _ _ | SClose _ => True
  end.

Definition confined (base : bytes) (l : slog) : Prop :=
  forall a c r before, l = a ++ (c, r) :: before -> permitted base before c.

(* ------------------------------------------------------------------ *)
(* C58: streams and contents                                            *)

(* The stream opened last, while it is open. *)
Fixpoint live (l : slog) : option Z :=
  match l with
  | [] => None
  | (SOpen _, r) :: t => if (r <? 0)%Z then live t else Some r
  | (SClose _, _) :: t => None
  | _ :: t => live t
  end.

Definition stream_use (before : slog) (c : scall) : Prop :=
  match c with
  | SWrite f _ | SUtimes f _ _ | SClose f => live before = Some f
  | _ => True
  end.

Definition streams_ok (l : slog) : Prop :=
  forall a c r before, l = a ++ (c, r) :: before -> stream_use before c.

(* Complete writes to the stream [f], the newest first, of the bytes [d]. *)
Inductive writes (f : Z) : slog -> bytes -> Prop :=
| writes_nil : writes f [] []
| writes_cons w d l e : writes f l d -> d ++ w = e ->
    writes f ((SWrite f w, Z.of_N (lenN w)) :: l) e.

(* ------------------------------------------------------------------ *)
(* C59: the control messages                                            *)

Definition digits (l : bytes) : Prop := l <> [] /\ Forall (fun c => 48 <= c <= 57) l.
Definition octals (l : bytes) : Prop := length l = 4%nat /\ Forall (fun c => 48 <= c <= 55) l.

(* The number the digits denote in the radix [b]. *)
Fixpoint value (b : N) (l : bytes) : N :=
  match l with
  | [] => 0
  | c :: t => (c - 48) * b ^ lenN t + value b t
  end.

(* "Cmmmm size name" and "Dmmmm size name", as bytes, without the newline. *)
Definition header (t : N) (mode size name : bytes) : bytes :=
  t :: mode ++ [32] ++ size ++ [32] ++ name.
(* "Tmtime 0 atime 0" *)
Definition times_msg (m a : bytes) : bytes := 84 :: m ++ [32; 48; 32] ++ a ++ [32; 48].

(* C58: what happened since the header's confirmation was sent, when the
   stream [f] is open, [n] bytes are announced and the times are [mt] and [at_]
   (0: not given). [T] and [L]: the bytes taken from the channel and the calls
   made, before and now. *)

(* Part of the file has come: it has been written, nothing else happened. *)
Definition partly (f : Z) (n : N) (T0 T : bytes) (L0 L : slog) : Prop :=
  exists d w, T = T0 ++ d /\ L = w ++ L0 /\ writes f w d /\ lenN d <= n.

(* All of it has come and been written, the times were set if given, and the
   stream was closed. *)
Definition complete (f : Z) (n mt at_ : N) (T0 T : bytes) (L0 L : slog) (good : bool) : Prop :=
  exists d w u r, T = T0 ++ d /\ L = (SClose f, r) :: u ++ w ++ L0 /\ writes f w d /\ lenN d = n /\
    ((mt = 0 /\ at_ = 0 /\ u = [] /\ good = true) \/
     ((mt <> 0 \/ at_ <> 0) /\ exists ru, u = [(SUtimes f mt at_, ru)] /\ (good = true <-> ru = 0%Z))).

(* A write was short: the stream was closed. *)
Definition cut_short (f : Z) (n : N) (T0 T : bytes) (L0 L : slog) : Prop :=
  exists d w x rw r, T = T0 ++ d ++ x /\ L = (SClose f, r) :: (SWrite f x, rw) :: w ++ L0 /\
    writes f w d /\ rw <> Z.of_N (lenN x) /\ lenN d + lenN x <= n.

(* A run in which all states but the last are in the file phase. *)
Inductive during (E : sys) : list sev -> sink -> sink -> Prop :=
| during_nil k : during E [] k k
| during_step e es k k1 k2 : k_st k = RECEIVE_FILE -> sink_step E e k = Some k1 -> during E es k1 k2 ->
    during E (e :: es) k k2.

(* Receiving starts with the state [k]: on a server that was sent the command
   [cmd], or on a client that asked for a file and stores it at [dst]. *)
Definition starts (E : sys) (k : sink) : Prop :=
  (exists cmd, serve E cmd = (WS_SUCCESS, k)) \/ (exists dst, SCP_from E dst = (WS_SUCCESS, k)).
