(* ReqProofs.v - proofs about channel and global requests. *)
From Verif Require Import Base WireModel WireSpec WireProofs NameTable NegoModel NegoSpec NegoProofs ChanModel ChanProofs ChanStep ReqModel ReqSpec.
From Coq Require Import List NArith ZArith Bool Lia String.
Import ListNotations.
Open Scope N_scope.

(* ---- reading a message from its tail ---------------------------------- *)

Definition p_u32 (r : bytes) : option (N * bytes) :=
  if 4 <=? lenN r then Some (be_value (takeN 4 r), dropN 4 r) else None.
Definition p_str (r : bytes) : option (bytes * bytes) :=
  match p_u32 r with
  | Some (n, r') => if n <=? lenN r' then Some (takeN n r', dropN n r') else None
  | None => None
  end.
Definition p_byte (r : bytes) : option (N * bytes) :=
  match r with x :: r' => Some (x, r') | [] => None end.

Lemma p_u32_app : forall v b r, u32 v b -> p_u32 (b ++ r) = Some (v, r).
Proof.
  intros v b r (H & E). unfold p_u32. rewrite lenN_app, H.
  destruct (N.leb_spec 4 (4 + lenN r)); [|lia].
  rewrite takeN_app_exact, dropN_app_exact by auto. rewrite E. reflexivity.
Qed.

Lemma p_u32_some : forall m v r, p_u32 m = Some (v, r) -> exists b, u32 v b /\ m = b ++ r.
Proof.
  intros m v r H. unfold p_u32 in H. destruct (N.leb_spec 4 (lenN m)); [|discriminate].
  injection H as <- <-. exists (takeN 4 m). split; [|symmetry; apply takeN_dropN].
  split; [rewrite lenN_takeN; lia | reflexivity].
Qed.

Lemma p_str_app : forall s b r, str s b -> p_str (b ++ r) = Some (s, r).
Proof.
  intros s b r (l & Hl & ->). unfold p_str. rewrite <- app_assoc, (p_u32_app _ _ _ Hl).
  rewrite lenN_app. destruct (N.leb_spec (lenN s) (lenN s + lenN r)); [|lia].
  rewrite takeN_app_exact, dropN_app_exact by auto. reflexivity.
Qed.

Lemma p_str_some : forall m s r, p_str m = Some (s, r) -> exists b, str s b /\ m = b ++ r.
Proof.
  intros m s r H. unfold p_str in H. destruct (p_u32 m) as [(n, r')|] eqn:E; [|discriminate].
  destruct (p_u32_some _ _ _ E) as (l & Hl & ->).
  destruct (N.leb_spec n (lenN r')) as [Hn|Hn]; [|discriminate]. injection H as <- <-.
  exists (l ++ takeN n r'). split.
  - exists l. split; [|reflexivity]. rewrite lenN_takeN. replace (N.min n (lenN r')) with n by lia. exact Hl.
  - rewrite <- app_assoc, takeN_dropN. reflexivity.
Qed.

Section tail.
  Variables m pre rest : bytes.
  Hypothesis Hm : bytes_ok m.
  Hypothesis H32 : is32 (lenN m).
  Hypothesis Em : m = pre ++ rest.

  Lemma tail_len : lenN m = lenN pre + lenN rest.
  Proof using Em. rewrite Em. apply lenN_app. Qed.
  Lemma tail_is32 : is32 (lenN pre).
  Proof using Em H32. pose proof tail_len. unfold is32, W32 in *. lia. Qed.
  Lemma tail_slice : forall n, slice m (lenN pre) n = takeN n rest.
  Proof using Em. intros n. unfold slice. rewrite Em, dropN_app_exact by reflexivity. reflexivity. Qed.
  Lemma tail_next : forall n, n <= lenN rest ->
    m = (pre ++ takeN n rest) ++ dropN n rest /\ lenN (pre ++ takeN n rest) = lenN pre + n.
  Proof using Em.
    intros n Hn. split; [rewrite <- app_assoc, takeN_dropN; exact Em|].
    rewrite lenN_app, lenN_takeN. lia.
  Qed.

  Lemma u32_tail :
    match p_u32 rest with
    | Some (v, r) => exists pre', m = pre' ++ r /\ GetUint32 m (lenN m) (lenN pre) = POk v (lenN pre')
    | None => exists i, GetUint32 m (lenN m) (lenN pre) = PErr WS_BUFFER_E i
    end.
  Proof using Hm H32 Em.
    rewrite GetUint32_eq by (assumption || lia || apply tail_is32). unfold p_u32. rewrite tail_slice.
    pose proof tail_len as L.
    destruct (N.leb_spec 4 (lenN rest)) as [H|H]; destruct (N.leb_spec (lenN pre + 4) (lenN m)); try lia.
    - destruct (tail_next 4 H) as (E & El). exists (pre ++ takeN 4 rest). split; [exact E|]. rewrite El. reflexivity.
    - eexists. reflexivity.
  Qed.

  Lemma byte_tail :
    match p_byte rest with
    | Some (v, r) => exists pre', m = pre' ++ r /\ GetBoolean m (lenN m) (lenN pre) = POk v (lenN pre')
    | None => exists i, GetBoolean m (lenN m) (lenN pre) = PErr WS_BUFFER_E i
    end.
  Proof using H32 Em.
    rewrite (GetBoolean_eq m (lenN m)) by (assumption || lia).
    rewrite takeN_all by lia. destruct rest as [|x r]; cbn [p_byte].
    - rewrite rd_none; [eexists; reflexivity|]. rewrite Em, app_nil_r. lia.
    - exists (pre ++ [x]). split; [rewrite <- app_assoc; exact Em|].
      assert (E : rd m (lenN pre) = Some x).
      { rewrite Em. replace (lenN pre) with (lenN pre + 0) by lia. rewrite rd_app_r by lia.
        replace (lenN pre + 0 - lenN pre) with 0 by lia. reflexivity. }
      rewrite E. rewrite lenN_app. reflexivity.
  Qed.

  Lemma str_parts : 
    match p_str rest with
    | Some (s, r) => lenN pre + 4 <= lenN m /\ be_value (takeN 4 rest) = lenN s /\
        lenN pre + 4 + lenN s <= lenN m /\ slice m (lenN pre + 4) (lenN s) = s /\
        exists pre', m = pre' ++ r /\ lenN pre' = lenN pre + 4 + lenN s
    | None => lenN m < lenN pre + 4 \/ lenN m < lenN pre + 4 + be_value (takeN 4 rest)
    end.
  Proof using Em.
    pose proof tail_len as L. unfold p_str, p_u32.
    destruct (N.leb_spec 4 (lenN rest)) as [H|H]; [|left; lia].
    rewrite lenN_dropN. set (n := be_value (takeN 4 rest)).
    destruct (N.leb_spec n (lenN rest - 4)) as [H2|H2]; [|right; lia].
    assert (Ls : lenN (takeN n (dropN 4 rest)) = n) by (rewrite lenN_takeN, lenN_dropN; lia).
    rewrite Ls. split; [lia|]. split; [reflexivity|]. split; [lia|]. split.
    - unfold slice. rewrite Em, dropN_app_r by lia. replace (lenN pre + 4 - lenN pre) with 4 by lia. reflexivity.
    - destruct (tail_next (4 + n) ltac:(lia)) as (E & El).
      exists (pre ++ takeN (4 + n) rest). split; [|lia]. rewrite dropN_dropN. exact E.
  Qed.

  Lemma alloc_tail :
    match p_str rest with
    | Some (s, r) => exists pre', m = pre' ++ r /\ GetStringAlloc m (lenN m) (lenN pre) = POk (s ++ [0]) (lenN pre')
    | None => exists i, GetStringAlloc m (lenN m) (lenN pre) = PErr WS_BUFFER_E i
    end.
  Proof using Hm H32 Em.
    rewrite GetStringAlloc_eq by (assumption || lia || apply tail_is32). cbv zeta. rewrite tail_slice.
    pose proof str_parts as P. destruct (p_str rest) as [(s, r)|].
    - destruct P as (A & -> & B & -> & pre' & E & El). exists pre'. split; [exact E|].
      destruct (N.leb_spec (lenN pre + 4) (lenN m)); [|lia].
      destruct (N.leb_spec (lenN pre + 4 + lenN s) (lenN m)); [|lia]. rewrite El. reflexivity.
    - destruct (N.leb_spec (lenN pre + 4) (lenN m)); [|eexists; reflexivity].
      destruct (N.leb_spec (lenN pre + 4 + be_value (takeN 4 rest)) (lenN m)); [lia|eexists; reflexivity].
  Qed.

  Lemma string_tail : forall k, 0 < k ->
    match p_str rest with
    | Some (s, r) => exists pre', m = pre' ++ r /\ GetString k m (lenN m) (lenN pre) = POk (takeN (k - 1) s ++ [0]) (lenN pre')
    | None => exists i, GetString k m (lenN m) (lenN pre) = PErr WS_BUFFER_E i
    end.
  Proof using Hm H32 Em.
    intros k Hk. rewrite GetString_eq by (assumption || lia || apply tail_is32). cbv zeta. rewrite tail_slice.
    pose proof str_parts as P. destruct (p_str rest) as [(s, r)|].
    - destruct P as (A & -> & B & -> & pre' & E & El). exists pre'. split; [exact E|].
      destruct (N.leb_spec (lenN pre + 4) (lenN m)); [|lia].
      destruct (N.leb_spec (lenN pre + 4 + lenN s) (lenN m)); [|lia]. rewrite El. reflexivity.
    - destruct (N.leb_spec (lenN pre + 4) (lenN m)); [|eexists; reflexivity].
      destruct (N.leb_spec (lenN pre + 4 + be_value (takeN 4 rest)) (lenN m)); [lia|eexists; reflexivity].
  Qed.
End tail.

Lemma removelast_app1 : forall (s : bytes) x, removelast (s ++ [x]) = s.
Proof. intros s x. apply removelast_last. Qed.

(* ---- the handler, read from the tail ----------------------------------- *)

Definition BE : rc := WS_BUFFER_E.
Definition resize_t (e : env) (w h wp hp : N) (noreply : bool) (q : rq) : rc * bool * bool * rq :=
  match cb_resize e with
  | None => (WS_SUCCESS, false, noreply, q)
  | Some f => (if f w h wp hp then WS_SUCCESS else WS_FATAL_ERROR, false, noreply, q_called (CResize w h wp hp) q)
  end.

Definition h_env (rest : bytes) (q : rq) : rc * bool * bool * rq :=
  match p_str rest with None => (BE, false, false, q) | Some (_, r) =>
  match p_str r with None => (BE, false, false, q) | Some _ => (WS_SUCCESS, false, false, q) end end.
Definition h_shell (e : env) (id : N) (q : rq) : rc * bool * bool * rq :=
  let q := q_set_type id SESSION_SHELL q in
  match cb_shell e with
  | Some f => (WS_SUCCESS, f id, false, q_set_done (q_called (CShell id) q))
  | None => (WS_SUCCESS, false, false, q_set_done q)
  end.
Definition h_cmd (cb : option (N -> option bytes -> bool)) (mk : N -> option bytes -> call) (ty : N)
    (id : N) (rest : bytes) (q : rq) : rc * bool * bool * rq :=
  let '(ret, q) := match p_str rest with
                   | Some (s, _) => (WS_SUCCESS, q_set_cmd id s q)
                   | None => (BE, q) end in
  let q := q_set_type id ty q in
  match cb with
  | Some f => (ret, f id (q_cmd q id), false, q_set_done (q_called (mk id (q_cmd q id)) q))
  | None => (ret, false, false, q_set_done q)
  end.
Definition h_pty (e : env) (id : N) (rest : bytes) (q : rq) : rc * bool * bool * rq :=
  let q := q_set_pty id q in
  match p_str rest with None => (BE, false, false, q) | Some (_, r) =>
  match p_u32 r with None => (BE, false, false, q) | Some (w, r) =>
  let q := q_set_size w (q_h q) (q_wp q) (q_hp q) q in
  match p_u32 r with None => (BE, false, false, q) | Some (h, r) =>
  let q := q_set_size w h (q_wp q) (q_hp q) q in
  match p_u32 r with None => (BE, false, false, q) | Some (wp, r) =>
  let q := q_set_size w h wp (q_hp q) q in
  match p_u32 r with None => (BE, false, false, q) | Some (hp, r) =>
  let q := q_set_size w h wp hp q in
  match p_str r with None => (BE, false, false, q) | Some (m, _) =>
  resize_t e w h wp hp false (q_set_modes m q) end end end end end end.
Definition h_win (e : env) (rest : bytes) (q : rq) : rc * bool * bool * rq :=
  match p_u32 rest with None => (BE, false, true, q) | Some (w, r) =>
  match p_u32 r with None => (BE, false, true, q) | Some (h, r) =>
  match p_u32 r with None => (BE, false, true, q) | Some (wp, r) =>
  match p_u32 r with None => (BE, false, true, q) | Some (hp, r) =>
  resize_t e w h wp hp true (q_set_size w h wp hp q) end end end end.
Definition h_status (rest : bytes) (q : rq) : rc * bool * bool * rq :=
  match p_u32 rest with None => (BE, false, true, q) | Some (x, _) => (WS_SUCCESS, false, true, q_set_exit x q) end.
Definition h_signal (rest : bytes) (q : rq) : rc * bool * bool * rq :=
  match p_str rest with None => (BE, false, true, q) | Some (_, r) =>
  match p_byte r with None => (BE, false, true, q) | Some (_, r) =>
  match p_str r with None => (BE, false, true, q) | Some (_, r) =>
  match p_str r with None => (BE, false, true, q) | Some (_, r) => (WS_SUCCESS, false, true, q) end end end end.

Definition handle_t (e : env) (id : N) (type rest : bytes) (q : rq) : rc * bool * bool * rq :=
  if bytes_eqb type R_ENV then h_env rest q
  else if bytes_eqb type R_SHELL then h_shell e id q
  else if bytes_eqb type R_EXEC then h_cmd (cb_exec e) CExec SESSION_EXEC id rest q
  else if bytes_eqb type R_SUBSYSTEM then h_cmd (cb_subsys e) CSubsys SESSION_SUBSYSTEM id rest q
  else if b_term e && bytes_eqb type R_PTY then h_pty e id rest q
  else if b_shell e && b_term e && bytes_eqb type R_WINDOW then h_win e rest q
  else if (b_term e || b_shell e) && bytes_eqb type R_EXIT_STATUS then h_status rest q
  else if (b_term e || b_shell e) && bytes_eqb type R_EXIT_SIGNAL then h_signal rest q
  else if b_agent e && bytes_eqb type R_AGENT then (WS_SUCCESS, false, false, if cb_agent e then q_set_agent q else q)
  else (WS_SUCCESS, true, false, q).

Ltac tail_step L m pre r :=
  let P := fresh "P" in
  assert (P := L); 
  match type of P with
  | match ?x with _ => _ end =>
      let E := fresh "E" in
      destruct x as [[? ?]|] eqn:E;
      [ let pre' := fresh "pre" in let Em' := fresh "Em" in let G := fresh "G" in
        destruct P as (pre' & Em' & G); rewrite G
      | let G := fresh "G" in destruct P as (? & G); rewrite G ]
  end.
Ltac u32_step Hm H32 :=
  match goal with
  | Em : ?m = ?pre ++ ?r |- context [GetUint32 ?m (lenN ?m) (lenN ?pre)] =>
      tail_step (u32_tail m pre r Hm H32 Em) m pre r
  | Em : ?m = ?pre ++ ?r |- context [GetBoolean ?m (lenN ?m) (lenN ?pre)] =>
      tail_step (byte_tail m pre r H32 Em) m pre r
  | Em : ?m = ?pre ++ ?r |- context [GetStringAlloc ?m (lenN ?m) (lenN ?pre)] =>
      tail_step (alloc_tail m pre r Hm H32 Em) m pre r
  | Em : ?m = ?pre ++ ?r |- context [GetString ?k ?m (lenN ?m) (lenN ?pre)] =>
      tail_step (string_tail m pre r Hm H32 Em k ltac:(lia)) m pre r
  end; cbn [skip]; cbv zeta; try reflexivity.

Lemma handle_eq : forall e id type m pre rest q, bytes_ok m -> is32 (lenN m) -> m = pre ++ rest ->
  handle e id type m (lenN pre) q = Some (handle_t e id type rest q).
Proof.
  intros e id type m pre rest q Hm H32 Em. unfold handle, handle_t. cbv zeta.
  destruct (bytes_eqb type R_ENV).
  { unfold h_env. u32_step Hm H32. u32_step Hm H32. }
  destruct (bytes_eqb type R_SHELL).
  { unfold h_shell. cbv zeta. destruct (cb_shell e); reflexivity. }
  destruct (bytes_eqb type R_EXEC).
  { unfold h_cmd. u32_step Hm H32; rewrite ?removelast_app1; destruct (cb_exec e); reflexivity. }
  destruct (bytes_eqb type R_SUBSYSTEM).
  { unfold h_cmd. u32_step Hm H32; rewrite ?removelast_app1; destruct (cb_subsys e); reflexivity. }
  destruct (b_term e && bytes_eqb type R_PTY).
  { unfold h_pty, resize, resize_t. u32_step Hm H32. u32_step Hm H32. u32_step Hm H32. u32_step Hm H32. u32_step Hm H32.
    u32_step Hm H32. rewrite removelast_app1. destruct (cb_resize e); reflexivity. }
  destruct (b_shell e && b_term e && bytes_eqb type R_WINDOW).
  { unfold h_win, resize, resize_t. u32_step Hm H32. u32_step Hm H32. u32_step Hm H32. u32_step Hm H32.
    destruct (cb_resize e); reflexivity. }
  destruct ((b_term e || b_shell e) && bytes_eqb type R_EXIT_STATUS).
  { unfold h_status. u32_step Hm H32. }
  destruct ((b_term e || b_shell e) && bytes_eqb type R_EXIT_SIGNAL).
  { unfold h_signal. u32_step Hm H32. u32_step Hm H32. u32_step Hm H32. u32_step Hm H32. }
  destruct (b_agent e && bytes_eqb type R_AGENT); reflexivity.
Qed.
