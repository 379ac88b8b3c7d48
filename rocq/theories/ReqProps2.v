(* ReqProps2.v - C47, continued: what the session keeps of channel requests for
   the application to read back: terminal size, terminal modes, exit status. *)
From Verif Require Import Base WireModel WireSpec WireProofs NegoModel NegoSpec NegoProofs ChanModel ChanProofs ChanStep ChanProps
  ReqModel ReqSpec ReqProofs ReqProofs2 ReqProofs3 ReqProps.
From Coq Require Import List NArith ZArith Bool Lia String.
Import ListNotations.
Open Scope N_scope.
Local Notation "a ++ b" := (@app _ a b) : list_scope.

(* columns, rows, width and height in pixels; terminal modes; exit status *)
Definition size (q : rq) : N * N * N * N := (q_w q, q_h q, q_wp q, q_hp q).

Lemma answer_keeps : forall A (f : rq -> A) e a id t w r q ret q' c,
  (forall s q, f (q_set_cs s q) = f q) -> find_self id (s_list (q_cs q)) = Some c ->
  answer e a id t w r q = (ret, q') -> match handle_t e id (takeN 31 t) r q with (_, _, _, q1) => f q' = f q1 end.
Proof.
  intros A f e a id t w r q ret q' c Hf Hc H. unfold answer in H. rewrite Hc in H.
  destruct (handle_t e id (takeN 31 t) r q) as (((r0, rej), nr), q1).
  destruct nr; [congruence|]. destruct (w =? 0); [congruence|].
  destruct (send_msg _ _ _ _) as (r1, s). assert (q' = q_set_cs s q1) as -> by congruence. apply Hf.
Qed.

(* After a well-formed pty-req the session has its sizes and modes, after a
   well-formed window-change its sizes; nothing but these two changes them. *)
Theorem C47_size : forall e a buf q id type want rest c ret q',
  bytes_ok buf -> is32 (lenN buf) -> request id type want rest buf ->
  NoDup (map c_id (s_list (q_cs q))) -> In c (s_list (q_cs q)) -> c_id c = id ->
  DoChannelRequest e a buf q = Some (ret, q') ->
  (forall t w h wp hp m tb wb hb wpb hpb mb x, type = ascii "pty-req" -> b_term e = true ->
     str t tb -> u32 w wb -> u32 h hb -> u32 wp wpb -> u32 hp hpb -> str m mb ->
     rest = tb ++ wb ++ hb ++ wpb ++ hpb ++ mb ++ x -> size q' = (w, h, wp, hp) /\ q_modes q' = m) /\
  (forall w h wp hp wb hb wpb hpb x, type = ascii "window-change" -> b_term e = true -> b_shell e = true ->
     u32 w wb -> u32 h hb -> u32 wp wpb -> u32 hp hpb ->
     rest = wb ++ hb ++ wpb ++ hpb ++ x -> size q' = (w, h, wp, hp)) /\
  (forall x xb y, type = ascii "exit-status" -> b_term e = true \/ b_shell e = true ->
     u32 x xb -> rest = xb ++ y -> q_exit q' = x) /\
  (type <> ascii "pty-req" -> type <> ascii "window-change" -> size q' = size q) /\
  (type <> ascii "pty-req" -> q_modes q' = q_modes q) /\
  (type <> ascii "exit-status" -> q_exit q' = q_exit q).
Proof.
  intros e a buf q id type want rest c ret q' Hm H32 Hr Hnd Hin Hid H.
  rewrite (DoChannelRequest_eq _ _ _ _ Hm H32) in H. apply p_request_spec in Hr. rewrite Hr in H.
  assert (Ea : answer e a id type want rest q = (ret, q')) by congruence. clear H Hr.
  assert (Hf : find_self id (s_list (q_cs q)) = Some c) by (rewrite <- Hid; apply find_self_in; assumption).
  pose proof (answer_keeps _ size _ _ _ _ _ _ _ _ _ _ (fun _ _ => eq_refl) Hf Ea) as Ks.
  pose proof (answer_keeps _ q_modes _ _ _ _ _ _ _ _ _ _ (fun _ _ => eq_refl) Hf Ea) as Km.
  pose proof (answer_keeps _ q_exit _ _ _ _ _ _ _ _ _ _ (fun _ _ => eq_refl) Hf Ea) as Kx. clear Ea Hf.
  assert (Hcut : forall s, lenN (ascii s) < 31 -> type <> ascii s -> bytes_eqb (takeN 31 type) (ascii s) = false).
  { intros s Hs Nt. destruct (bytes_eqb (takeN 31 type) (ascii s)) eqn:E; [|reflexivity]. exfalso. apply Nt. apply bytes_eqb_eq in E.
    destruct (N.leb_spec (lenN type) 31) as [L|L]; [rewrite takeN_all in E by exact L; exact E|].
    assert (L' : lenN (takeN 31 type) = 31) by (rewrite lenN_takeN; lia). rewrite E in L'. lia. }
  split; [|split; [|split; [|split; [|split] ] ] ].
  - intros t w h wp hp m tb wb hb wpb hpb mb x -> Ht S1 U1 U2 U3 U4 S2 ->.
    change (takeN 31 (ascii "pty-req")) with (ascii "pty-req") in *. 
    assert (P : handle_t e id (ascii "pty-req") (tb ++ wb ++ hb ++ wpb ++ hpb ++ mb ++ x) q = h_pty e id (tb ++ wb ++ hb ++ wpb ++ hpb ++ mb ++ x) q)
      by (unfold handle_t; rewrite Ht; reflexivity).
    rewrite P in Ks, Km. unfold h_pty in Ks, Km.
    rewrite (p_str_app t tb), (p_u32_app w wb), (p_u32_app h hb), (p_u32_app wp wpb), (p_u32_app hp hpb), (p_str_app m mb) in Ks, Km by assumption.
    cbv zeta in Ks, Km. unfold resize_t in Ks, Km. destruct (cb_resize e); (split; [rewrite Ks|rewrite Km]; reflexivity).
  - intros w h wp hp wb hb wpb hpb x -> Ht Hs U1 U2 U3 U4 ->.
    change (takeN 31 (ascii "window-change")) with (ascii "window-change") in *.
    assert (P : handle_t e id (ascii "window-change") (wb ++ hb ++ wpb ++ hpb ++ x) q = h_win e (wb ++ hb ++ wpb ++ hpb ++ x) q)
      by (unfold handle_t; rewrite Ht, Hs; reflexivity).
    rewrite P in Ks. unfold h_win in Ks.
    rewrite (p_u32_app w wb), (p_u32_app h hb), (p_u32_app wp wpb), (p_u32_app hp hpb) in Ks by assumption.
    unfold resize_t in Ks. destruct (cb_resize e); rewrite Ks; reflexivity.
  - intros x xb y -> Hb U ->. change (takeN 31 (ascii "exit-status")) with (ascii "exit-status") in *.
    assert (P : handle_t e id (ascii "exit-status") (xb ++ y) q = h_status (xb ++ y) q).
    { assert (B : b_term e || b_shell e = true) by (destruct Hb as [-> | ->]; [reflexivity|apply orb_true_r]).
      unfold handle_t. rewrite B. destruct (b_term e), (b_shell e); reflexivity. }
    rewrite P in Kx. unfold h_status in Kx. rewrite (p_u32_app x xb) in Kx by assumption. rewrite Kx. reflexivity.
  - intros N1 N2. unfold handle_t in Ks. change R_PTY with (ascii "pty-req") in Ks. change R_WINDOW with (ascii "window-change") in Ks.
    rewrite (Hcut "pty-req"%string), (Hcut "window-change"%string) in Ks by (assumption || (vm_compute; reflexivity)). rewrite !andb_false_r in Ks.
    revert Ks. unfold h_env, h_shell, h_cmd, h_status, h_signal. cbv zeta.
    repeat match goal with |- context [if ?b then _ else _] => destruct b end;
    repeat match goal with |- context [match ?x with Some _ => _ | None => _ end] => destruct x as [[? ?]|] || destruct x end; intros K; rewrite K; reflexivity.
  - intros N1. unfold handle_t in Km. change R_PTY with (ascii "pty-req") in Km.
    rewrite (Hcut "pty-req"%string) in Km by (assumption || (vm_compute; reflexivity)). rewrite !andb_false_r in Km.
    revert Km. unfold h_env, h_shell, h_cmd, h_win, h_status, h_signal, resize_t. cbv zeta.
    repeat match goal with |- context [if ?b then _ else _] => destruct b end;
    repeat match goal with |- context [match ?x with Some _ => _ | None => _ end] => destruct x as [[? ?]|] || destruct x end; intros K; rewrite K; reflexivity.
  - intros N1. unfold handle_t in Kx. change R_EXIT_STATUS with (ascii "exit-status") in Kx.
    rewrite (Hcut "exit-status"%string) in Kx by (assumption || (vm_compute; reflexivity)). rewrite !andb_false_r in Kx.
    revert Kx. unfold h_env, h_shell, h_cmd, h_pty, h_win, h_signal, resize_t. cbv zeta.
    repeat match goal with |- context [if ?b then _ else _] => destruct b end;
    repeat match goal with |- context [match ?x with Some _ => _ | None => _ end] => destruct x as [[? ?]|] || destruct x end; intros K; rewrite K; reflexivity.
Qed.
Print Assumptions C47_size.

(* a pty-req for 80 by 24 characters, 640 by 480 pixels, then a window-change,
   then an exit status of 3 *)
Definition pty_req : bytes := req_of 0 (ascii "pty-req") 1
  (put_s (ascii "vt100") ++ c32toa 80 ++ c32toa 24 ++ c32toa 640 ++ c32toa 480 ++ put_s [0]).
Definition win_req : bytes := req_of 0 (ascii "window-change") 0 (c32toa 132 ++ c32toa 43 ++ c32toa 1056 ++ c32toa 860).
Definition then_ (m : bytes) (q : rq) : rq :=
  match DoChannelRequest demo_env good m q with Some (_, q') => q' | None => demo_q end.
Example C47_size_sample :
  size (then_ pty_req demo_q) = (80, 24, 640, 480) /\ q_modes (then_ pty_req demo_q) = [0] /\
  size (then_ win_req (then_ pty_req demo_q)) = (132, 43, 1056, 860) /\
  q_exit (then_ (req_of 0 (ascii "exit-status") 0 (c32toa 3)) demo_q) = 3.
Proof. vm_compute. repeat split; reflexivity. Qed.
Example C47_size_met : request 0 (ascii "window-change") 0 (c32toa 132 ++ c32toa 43 ++ c32toa 1056 ++ c32toa 860) win_req /\
  bytes_ok win_req /\ NoDup (map c_id (s_list (q_cs demo_q))) /\ In 0 (map c_id (s_list (q_cs demo_q))) /\
  (exists ret q', DoChannelRequest demo_env good win_req demo_q = Some (ret, q')).
Proof.
  split; [exists (c32toa 0), (put_s (ascii "window-change")); split; [apply u32_c32; reflexivity|]; split;
    [exists (c32toa (lenN (ascii "window-change"))); split; [apply u32_c32; vm_compute; reflexivity|reflexivity]|reflexivity]|].
  split; [repeat constructor|]. split; [repeat constructor; simpl; tauto|]. split; [left; reflexivity|].
  vm_compute. eexists _, _. reflexivity.
Qed.
