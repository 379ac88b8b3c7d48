(* SshdSessionSpec.v - what it means that a session belongs to a user, is
   confined to a directory, and runs only a forced command. *)
From Coq Require Import List NArith Bool String.
From Verif Require Import Base NegoSpec SshdConfModel SshdSessionModel.
Import ListNotations.
Open Scope N_scope.

(* Real, effective and saved ids are the user's: nothing is left to go back to. *)
Definition ids_of (uid gid : N) (c : cred) : Prop :=
  (c_ruid c = uid /\ c_euid c = uid /\ c_suid c = uid) /\ (c_rgid c = gid /\ c_egid c = gid /\ c_sgid c = gid).
Definition is_user (u : account) (c : cred) : Prop :=
  ids_of (ac_uid u) (ac_gid u) c /\ c_groups c = ac_groups u.

(* The uid and gid are ids: (uid_t)-1 is not one. *)
Definition real_ids (u : account) : Prop := ac_uid u <> NO_ID /\ ac_gid u <> NO_ID.

Definition below (r d : dir) : Prop := exists t, d = r ++ t.
Definition absolute (p : bytes) : Prop := exists r, p = 47 :: r.

(* What is expected of the system: "/" is the root of the process, an absolute
   path does not depend on the working directory, and nothing outside the root
   can be named from inside. *)
Definition fs_ok (lk : dir -> dir -> bytes -> option dir) : Prop :=
  (forall r d, lk r d [47] = Some r) /\
  (forall r d e p, absolute p -> lk r d p = lk r e p) /\
  (forall r d p x, below r d -> lk r d p = Some x -> below r x).

(* The process cannot see anything but what is in the directory that [path]
   named when the daemon looked. *)
Definition confined (lk : dir -> dir -> bytes -> option dir) (before : cred) (path : bytes) (c : cred) : Prop :=
  lk (c_root before) (c_cwd before) path = Some (c_root c) /\ below (c_root c) (c_cwd c).

(* Any calls a process may make later, whatever comes of each. *)
Fixpoint later (K : kernel) (xs : list call) (p : proc) : proc :=
  match xs with [] => p | x :: r => later K r (snd (sys K x p)) end.

(* The service runs [cmd] and nothing else: as the shell's -c. *)
Definition runs_command (cmd : bytes) (w : served) : Prop :=
  exists prog a0, w = Exec prog [a0; ascii "-c"; cmd].

(* The process could act as root if it raises its permissions. *)
Definition root_able (a : ids) (c : cred) : Prop :=
  if separated a then
    i_suid a = 0 /\ (c_ruid c = 0 \/ c_suid c = 0) /\ i_sgid a <> NO_ID /\ (i_sgid a = c_rgid c \/ i_sgid a = c_sgid c)
  else c_euid c = 0.
(* Every call is allowed to succeed. *)
Definition all_well (K : kernel) : Prop := forall n x, k_ok K n x = true.
