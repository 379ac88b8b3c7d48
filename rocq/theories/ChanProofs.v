(* ChanProofs.v - the invariants of the channel layer. *)
From Verif Require Import Base BufModel BufSpec BufProofs WireModel WireSpec WireProofs
  ChanModel ChanSpec.
From Coq Require Import List NArith Bool Lia.
From Coq Require Import ZifyBool ZifyNat ZifyN.
Import ListNotations.
Open Scope N_scope.

(* ------------------------------------------------------------------ *)
(* Views of the record                                                  *)

Record view := mkView {
  v_sf : bytes; v_st : bytes; v_cf : bytes; v_ct : bytes;
  v_ch : N; v_w0 : N; v_an : N; v_gr : N; v_us : N; v_pm : N; v_eof : bool }.

Definition view_of (id : N) (l : list ev) : view :=
  mkView (stored id false l) (stored id true l) (copied id false l) (copied id true l)
         (charged id l) (window0 id l) (announced id l) (granted id l) (used id l) (peermax id l)
         (eofed id l).

Definition ev_id (e : ev) : N :=
  match e with
  | Opened i _ | Peered i _ _ | Adjusted i _ | Sent _ i _ | Stored i _ _
  | Ignored i _ | Copied i _ _ | Eofed i | Removed i => i
  end.

(* the effect of an event about the channel itself *)
Definition vstep (v : view) (e : ev) : view :=
  match e with
  | Opened _ w => mkView [] [] [] [] 0 w 0 0 0 0 false
  | Peered _ w m => mkView (v_sf v) (v_st v) (v_cf v) (v_ct v) (v_ch v) (v_w0 v) (v_an v) w 0 m (v_eof v)
  | Adjusted _ n =>
      mkView (v_sf v) (v_st v) (v_cf v) (v_ct v) (v_ch v) (v_w0 v) (v_an v) (v_gr v + n) (v_us v) (v_pm v) (v_eof v)
  | Sent _ _ m =>
      mkView (v_sf v) (v_st v) (v_cf v) (v_ct v) (v_ch v) (v_w0 v) (v_an v + adjust_of m) (v_gr v)
             (v_us v + lenN (data_of m)) (v_pm v) (v_eof v)
  | Stored _ false d =>
      mkView (v_sf v ++ d) (v_st v) (v_cf v) (v_ct v) (v_ch v + lenN d) (v_w0 v) (v_an v) (v_gr v) (v_us v) (v_pm v) (v_eof v)
  | Stored _ true d =>
      mkView (v_sf v) (v_st v ++ d) (v_cf v) (v_ct v) (v_ch v + lenN d) (v_w0 v) (v_an v) (v_gr v) (v_us v) (v_pm v) (v_eof v)
  | Ignored _ n =>
      mkView (v_sf v) (v_st v) (v_cf v) (v_ct v) (v_ch v + n) (v_w0 v) (v_an v) (v_gr v) (v_us v) (v_pm v) (v_eof v)
  | Copied _ false d =>
      mkView (v_sf v) (v_st v) (v_cf v ++ d) (v_ct v) (v_ch v) (v_w0 v) (v_an v) (v_gr v) (v_us v) (v_pm v) (v_eof v)
  | Copied _ true d =>
      mkView (v_sf v) (v_st v) (v_cf v) (v_ct v ++ d) (v_ch v) (v_w0 v) (v_an v) (v_gr v) (v_us v) (v_pm v) (v_eof v)
  | Eofed _ =>
      mkView (v_sf v) (v_st v) (v_cf v) (v_ct v) (v_ch v) (v_w0 v) (v_an v) (v_gr v) (v_us v) (v_pm v) true
  | Removed _ => v
  end.

Lemma view_snoc : forall id l e,
  view_of id (l ++ [e]) = if ev_id e =? id then vstep (view_of id l) e else view_of id l.
Proof.
  intros id l e. unfold view_of, stored, copied, charged, window0, announced, granted, used, peermax, eofed.
  repeat rewrite fold_left_app. cbn [fold_left].
  destruct e as [i w | i w m | i n | k i m | i x d | i n | i x d | i | i]; cbn [ev_id];
    destruct (i =? id); cbn [andb vstep v_sf v_st v_cf v_ct v_ch v_w0 v_an v_gr v_us v_pm v_eof];
    try reflexivity; destruct x; reflexivity.
Qed.

Lemma view_app : forall id es l, Forall (fun e => ev_id e = id) es ->
  view_of id (l ++ es) = fold_left vstep es (view_of id l).
Proof.
  intros id es. induction es as [|e es IH]; intros l H.
  - rewrite app_nil_r. reflexivity.
  - inversion H as [|? ? He Hes]; subst. cbn [fold_left].
    replace (l ++ e :: es) with ((l ++ [e]) ++ es) by (rewrite <- app_assoc; reflexivity).
    rewrite IH by assumption. rewrite view_snoc, N.eqb_refl. reflexivity.
Qed.

Lemma view_foreign : forall id es l, Forall (fun e => ev_id e <> id) es ->
  view_of id (l ++ es) = view_of id l.
Proof.
  intros id es. induction es as [|e es IH]; intros l H.
  - rewrite app_nil_r. reflexivity.
  - inversion H as [|? ? He Hes]; subst.
    replace (l ++ e :: es) with ((l ++ [e]) ++ es) by (rewrite <- app_assoc; reflexivity).
    rewrite IH by assumption. rewrite view_snoc.
    destruct (N.eqb_spec (ev_id e) id); [contradiction | reflexivity].
Qed.

(* ------------------------------------------------------------------ *)
(* Order of messages in the record                                      *)

Definition ev_good (l : list ev) (e : ev) : Prop :=
  match e with
  | Sent k id m =>
      (data_of m <> [] -> (lenN (data_of m) <= peermax id l /\
                           used id l + lenN (data_of m) <= granted id l) /\ eofed id l = false) /\
      (adjust_of m <> 0 -> k = false)
  | _ => True
  end.
Inductive logok : list ev -> Prop :=
| lo_nil : logok []
| lo_snoc : forall l e, logok l -> ev_good l e -> logok (l ++ [e]).

Lemma logok_split : forall l, logok l -> forall pre e post, l = pre ++ e :: post -> ev_good pre e.
Proof.
  induction 1 as [|l x H IH He]; intros pre e post Heq.
  - destruct pre; discriminate.
  - destruct (rev post) as [|y post'] eqn:Er.
    + assert (post = []) by (rewrite <- (rev_involutive post), Er; reflexivity). subst post.
      apply app_inj_tail in Heq. destruct Heq as [-> ->]. assumption.
    + assert (Hp : post = rev post' ++ [y]) by (rewrite <- (rev_involutive post), Er; reflexivity).
      subst post. rewrite app_comm_cons, app_assoc in Heq. apply app_inj_tail in Heq.
      destruct Heq as [-> ->]. eapply IH. reflexivity.
Qed.

Lemma logok_respects : forall l, logok l -> respects_peer l.
Proof.
  intros l H pre k id m post Heq Hd. pose proof (logok_split l H pre _ post Heq) as [H1 _].
  apply H1; assumption.
Qed.
Lemma logok_eof : forall l, logok l -> no_data_after_eof l.
Proof.
  intros l H pre k id m post Heq He. pose proof (logok_split l H pre _ post Heq) as [H1 _].
  destruct (data_of m) as [|x d]; [reflexivity|]. destruct H1 as [_ H2]; congruence.
Qed.
Lemma logok_adjusts : forall l, logok l -> adjusts_outside_kex l.
Proof.
  intros l H k id m Hin Hn. apply in_split in Hin. destruct Hin as (pre & post & Heq).
  pose proof (logok_split l H pre _ post Heq) as [_ H2]. auto.
Qed.

(* ------------------------------------------------------------------ *)
(* The invariant of a channel                                           *)

Definition cinv (v : view) (c : chan) : Prop :=
  b_idx (c_in c) <= b_len (c_in c) /\ b_cap (c_in c) = c_win0 c /\ is32 (c_win0 c) /\
  buf_inv (c_ext c) /\
  c_win c + b_len (c_in c) + lenN (unread (c_ext c)) = c_win0 c /\
  v_sf v = v_cf v ++ unread (c_in c) /\
  v_st v = v_ct v ++ unread (c_ext c) /\
  is32 (c_pwin c) /\ c_pwin c + v_us v = v_gr v /\ c_pmax c = v_pm v /\
  is32 (c_pend c) /\ c_win0 c = v_w0 v /\ c_eofTx c = v_eof v.

(* credit: nothing announced twice; nothing lost *)
Definition cle (v : view) (c : chan) : Prop := v_w0 v + v_an v + c_pend c <= c_win c + v_ch v.
Definition cge (v : view) (c : chan) : Prop := c_win c + v_ch v <= v_w0 v + v_an v + c_pend c.
Definition hon (v : view) : Prop := v_ch v <= v_w0 v + v_an v.

Definition CI (cl h : bool) (v : view) (c : chan) : Prop :=
  cinv v c /\ (cl = true -> cle v c) /\ (h = true -> cge v c).

Definition Inv (cl h : bool) (s : cs) : Prop :=
  NoDup (map c_id (s_list s)) /\
  Forall (fun c => is32 (c_id c) /\ CI cl h (view_of (c_id c) (s_log s)) c) (s_list s) /\
  is32 (s_next s) /\ is32 (s_ctxwin s) /\ logok (s_log s).

(* ------------------------------------------------------------------ *)
(* The list                                                             *)

Lemma find_self_some : forall id l c, find_self id l = Some c -> In c l /\ c_id c = id.
Proof.
  intros id l c H. unfold find_self in H. apply find_some in H. destruct H as [H1 H2].
  split; [assumption | apply N.eqb_eq; assumption].
Qed.
Lemma find_self_none : forall id l, find_self id l = None -> ~ In id (map c_id l).
Proof.
  intros id l H Hin. apply in_map_iff in Hin. destruct Hin as (c & Hc & Hin).
  pose proof (find_none _ _ H c Hin) as Hn. cbn in Hn. rewrite Hc, N.eqb_refl in Hn. discriminate.
Qed.
Lemma find_self_in : forall l c, NoDup (map c_id l) -> In c l -> find_self (c_id c) l = Some c.
Proof.
  induction l as [|a l IH]; intros c Hn Hin; [contradiction|].
  cbn [map] in Hn. inversion Hn as [|? ? Ha Hl]; subst. unfold find_self. cbn [find].
  destruct (N.eqb_spec (c_id a) (c_id c)) as [He|He].
  - destruct Hin as [->|Hin]; [reflexivity|].
    exfalso. apply Ha. rewrite He. apply in_map. assumption.
  - destruct Hin as [->|Hin]; [congruence|]. apply IH; assumption.
Qed.

Lemma upd_const : forall id f l c, find_self id l = Some c -> upd id f l = upd id (fun _ => f c) l.
Proof.
  intros id f l. induction l as [|a l IH]; intros c H; [discriminate|].
  unfold find_self in H. cbn [find] in H. cbn [upd].
  destruct (c_id a =? id); [injection H as ->; reflexivity|].
  f_equal. apply IH. assumption.
Qed.
Lemma upd_same : forall id l c, find_self id l = Some c -> upd id (fun _ => c) l = l.
Proof.
  intros id l. induction l as [|a l IH]; intros c H; [discriminate|].
  unfold find_self in H. cbn [find] in H. cbn [upd].
  destruct (c_id a =? id); [injection H as ->; reflexivity|].
  f_equal. apply IH. assumption.
Qed.
Lemma upd_upd : forall id c1 c2 l, c_id c1 = id ->
  upd id (fun _ => c2) (upd id (fun _ => c1) l) = upd id (fun _ => c2) l.
Proof.
  intros id c1 c2 l H1. induction l as [|a l IH]; [reflexivity|]. cbn [upd].
  destruct (c_id a =? id) eqn:E; cbn [upd].
  - rewrite (proj2 (N.eqb_eq _ _) H1). reflexivity.
  - rewrite E. f_equal. assumption.
Qed.
Lemma upd_ids : forall id c l, c_id c = id -> map c_id (upd id (fun _ => c) l) = map c_id l.
Proof.
  intros id c l H. induction l as [|a l IH]; [reflexivity|]. cbn [upd].
  destruct (N.eqb_spec (c_id a) id) as [E|E]; cbn [map]; [congruence|]. f_equal. assumption.
Qed.
Lemma upd_find : forall id c c' l, find_self id l = Some c -> c_id c' = id ->
  find_self id (upd id (fun _ => c') l) = Some c'.
Proof.
  intros id c c' l. induction l as [|a l IH]; intros H Hc; [discriminate|].
  unfold find_self in *. cbn [find] in H. cbn [upd].
  destruct (c_id a =? id) eqn:E; cbn [find].
  - rewrite (proj2 (N.eqb_eq _ _) Hc). reflexivity.
  - rewrite E. apply IH; assumption.
Qed.
Lemma upd_find_other : forall id id' c' l, c_id c' = id -> id <> id' ->
  find_self id' (upd id (fun _ => c') l) = find_self id' l.
Proof.
  intros id id' c' l Hc Hne. induction l as [|a l IH]; [reflexivity|]. cbn [upd].
  unfold find_self in *. destruct (N.eqb_spec (c_id a) id) as [E|E]; cbn [find].
  - rewrite Hc, E. destruct (N.eqb_spec id id'); [contradiction | reflexivity].
  - destruct (c_id a =? id'); [reflexivity | apply IH].
Qed.
Lemma upd_in : forall id c l x, NoDup (map c_id l) -> c_id c = id ->
  In x (upd id (fun _ => c) l) -> x = c \/ (In x l /\ c_id x <> id).
Proof.
  intros id c l. induction l as [|a l IH]; intros x Hn Hc Hin; [contradiction|].
  cbn [map] in Hn. inversion Hn as [|? ? Ha Hl]; subst. cbn [upd] in Hin.
  destruct (N.eqb_spec (c_id a) (c_id c)) as [E|E].
  - destruct Hin as [->|Hin]; [left; reflexivity|].
    right. split; [right; assumption|]. intros He. apply Ha. rewrite E, <- He. apply in_map. assumption.
  - destruct Hin as [->|Hin]; [right; split; [left; reflexivity | assumption]|].
    destruct (IH x Hl eq_refl Hin) as [->|[H1 H2]]; [left; reflexivity|].
    right. split; [right; assumption | assumption].
Qed.

(* ------------------------------------------------------------------ *)
(* Steps that touch one channel                                         *)

Record touch (s : cs) (id : N) (c c' : chan) (es : list ev) (s' : cs) : Prop := mkTouch {
  t_find : find_self id (s_list s) = Some c;
  t_list : s_list s' = upd id (fun _ => c') (s_list s);
  t_id : c_id c' = id;
  t_log : s_log s' = s_log s ++ es;
  t_ev : Forall (fun e => ev_id e = id) es;
  t_next : s_next s' = s_next s;
  t_ctx : s_ctxwin s' = s_ctxwin s;
  t_ok : logok (s_log s) -> logok (s_log s') }.

Lemma touch_find : forall s id c c' es s', touch s id c c' es s' -> find_self id (s_list s') = Some c'.
Proof.
  intros s id c c' es s' H. rewrite (t_list _ _ _ _ _ _ H).
  eapply upd_find; [apply H | apply H].
Qed.

Lemma touch_trans : forall s id c c1 es s1 c2 es2 s2,
  touch s id c c1 es s1 -> touch s1 id c1 c2 es2 s2 -> touch s id c c2 (es ++ es2) s2.
Proof.
  intros s id c c1 es s1 c2 es2 s2 [A1 A2 A3 A4 A5 A6 A7 A8] [B1 B2 B3 B4 B5 B6 B7 B8].
  constructor; try congruence.
  - rewrite B2, A2. apply upd_upd. assumption.
  - rewrite B4, A4, app_assoc. reflexivity.
  - apply Forall_app; split; assumption.
  - auto.
Qed.

(* nothing about the channels changes *)
Record quietly (s s' : cs) : Prop := mkQuiet {
  q_list : s_list s' = s_list s; q_log : s_log s' = s_log s;
  q_next : s_next s' = s_next s; q_ctx : s_ctxwin s' = s_ctxwin s }.
Lemma quiet_refl : forall s, quietly s s.
Proof. intros s; constructor; reflexivity. Qed.
Lemma quiet_trans : forall a b c, quietly a b -> quietly b c -> quietly a c.
Proof. intros a b c [A1 A2 A3 A4] [B1 B2 B3 B4]; constructor; congruence. Qed.

Lemma touch_same : forall s id c, find_self id (s_list s) = Some c -> touch s id c c [] s.
Proof.
  intros s id c H. constructor; auto.
  - symmetry. apply upd_same. assumption.
  - apply find_self_some in H. tauto.
  - rewrite app_nil_r. reflexivity.
Qed.
Lemma touch_quiet : forall s id c c' es s1 s2,
  touch s id c c' es s1 -> quietly s1 s2 -> touch s id c c' es s2.
Proof.
  intros s id c c' es s1 s2 [A1 A2 A3 A4 A5 A6 A7 A8] [B1 B2 B3 B4].
  constructor; try congruence. intros H. rewrite B2. auto.
Qed.
Lemma quiet_touch : forall s0 s id c c' es s1,
  quietly s0 s -> touch s id c c' es s1 -> touch s0 id c c' es s1.
Proof.
  intros s0 s id c c' es s1 [B1 B2 B3 B4] [A1 A2 A3 A4 A5 A6 A7 A8].
  constructor; try congruence. intros H. apply A8. rewrite B2. assumption.
Qed.

Lemma set_q_quiet : forall s o p e, quietly s (set_q o p e s).
Proof. intros; constructor; reflexivity. Qed.
Lemma set_out_quiet : forall s o, quietly s (set_out o s).
Proof. intros; constructor; reflexivity. Qed.
Lemma set_plain_quiet : forall s o, quietly s (set_plain o s).
Proof. intros; constructor; reflexivity. Qed.
Lemma set_err_quiet : forall s o, quietly s (set_err o s).
Proof. intros; constructor; reflexivity. Qed.
Lemma set_last_quiet : forall s o, quietly s (set_last o s).
Proof. intros; constructor; reflexivity. Qed.
Lemma set_key_quiet : forall s a b, quietly s (set_key a b s).
Proof. intros; constructor; reflexivity. Qed.
Lemma set_up_quiet : forall s a, quietly s (set_up a s).
Proof. intros; constructor; reflexivity. Qed.

Lemma touch_on : forall s id c c', find_self id (s_list s) = Some c -> c_id c' = id ->
  forall f, f c = c' -> touch s id c c' [] (on_chan id f s).
Proof.
  intros s id c c' H Hc f Hf. constructor; auto.
  - cbn. rewrite (upd_const id f _ c H), Hf. reflexivity.
  - cbn. rewrite app_nil_r. reflexivity.
Qed.

Lemma touch_logged : forall s id c e, find_self id (s_list s) = Some c -> ev_id e = id ->
  (logok (s_log s) -> ev_good (s_log s) e) -> touch s id c c [e] (log e s).
Proof.
  intros s id c e H He Hg. constructor; auto.
  - cbn. symmetry. apply upd_same. assumption.
  - apply find_self_some in H. tauto.
  - intros Hl. cbn. constructor; auto.
Qed.

Lemma Inv_touch : forall cl h s id c c' es s',
  Inv cl h s -> touch s id c c' es s' ->
  (CI cl h (view_of id (s_log s)) c -> CI cl h (fold_left vstep es (view_of id (s_log s))) c') ->
  Inv cl h s'.
Proof.
  intros cl h s id c c' es s' (Hn & Hf & Hx & Hw & Hl) Ht Hc.
  pose proof Ht as [A1 A2 A3 A4 A5 A6 A7 A8].
  apply find_self_some in A1. destruct A1 as [Hin Hid].
  rewrite Forall_forall in Hf.
  unfold Inv. rewrite A2, A6, A7. split; [|split; [|auto]].
  - rewrite upd_ids by assumption. assumption.
  - apply Forall_forall. intros x Hx'. apply upd_in in Hx'; try assumption.
    destruct Hx' as [->|[Hi Hne]].
    + rewrite A3, A4. destruct (Hf c Hin) as [H1 H2]. split; [congruence|].
      rewrite view_app by assumption. apply Hc. rewrite <- Hid. assumption.
    + destruct (Hf x Hi) as [H1 H2]. split; [assumption|]. rewrite A4, view_foreign; [assumption|].
      eapply Forall_impl; [|exact A5]. cbn. intros e He1 He2. congruence.
Qed.

Lemma Inv_quiet : forall cl h s s', Inv cl h s -> quietly s s' -> Inv cl h s'.
Proof.
  intros cl h s s' (H1 & H2 & H3 & H4 & H5) [Q1 Q2 Q3 Q4].
  unfold Inv. rewrite Q1, Q2, Q3, Q4. auto.
Qed.

Lemma Inv_find : forall cl h s id c, Inv cl h s -> find_self id (s_list s) = Some c ->
  CI cl h (view_of id (s_log s)) c /\ is32 id.
Proof.
  intros cl h s id c (H1 & H2 & _) H. apply find_self_some in H. destruct H as [Hin <-].
  rewrite Forall_forall in H2. destruct (H2 c Hin). tauto.
Qed.

(* ------------------------------------------------------------------ *)
(* The transport                                                        *)

Lemma flush_quiet : forall f s r s', flush f s = (r, s') -> quietly s s'.
Proof.
  intros f s r s' H. destruct f as [r0 e k| |d|o]; cbn [flush] in H.
  - unfold flush_done in H. injection H as <- <-. destruct k; constructor; reflexivity.
  - destruct (s_out s); [injection H as <- <-; constructor; reflexivity|].
    unfold flush_done in H. injection H as <- <-. constructor; reflexivity.
  - injection H as <- <-. destruct d; constructor; reflexivity.
  - injection H as <- <-. constructor; reflexivity.
Qed.

Lemma flush_sock : forall f s r s', flush f s = (r, s') -> fans_ok f -> r <> WS_SOCKET_ERROR_E.
Proof.
  intros f s r s' H Hok. destruct f as [r0 e k| |d|o]; cbn [flush] in H.
  - unfold flush_done in H. injection H as <- <-. exact Hok.
  - destruct (s_out s); [|unfold flush_done in H]; injection H as <- <-; discriminate.
  - contradiction.
  - injection H as <- <-. destruct o; discriminate.
Qed.

Lemma bundle_cases : forall id m a s r s', bundle id m a s = (r, s') ->
  (r = WS_SUCCESS /\ s' = log (Sent (keying s) id m) (set_out true s)) \/
  (r <> WS_SUCCESS /\ quietly s s').
Proof.
  intros id m a s r s' H. unfold bundle in H.
  destruct (rc_eq_dec (a_prep a) WS_SUCCESS) as [E|E].
  - rewrite E in H. destruct (rc_eq_dec (a_bund a) WS_SUCCESS) as [E2|E2].
    + rewrite E2 in H. injection H as <- <-. left; auto.
    + right. assert (Hx : (a_bund a, set_out true s) = (r, s')) by (destruct (a_bund a); congruence).
      injection Hx as <- <-. split; [assumption | apply set_out_quiet].
  - right. assert (Hx : (a_prep a, s) = (r, s')) by (destruct (a_prep a); congruence).
    injection Hx as <- <-. split; [assumption | apply quiet_refl].
Qed.

(* a message carrying neither data nor credit *)
Definition plain_msg (m : bytes) : Prop := data_of m = [] /\ adjust_of m = 0.

Lemma plain_head : forall t m, t <> 93 -> t <> 94 -> t <> 95 -> plain_msg (t :: m).
Proof.
  intros t m H1 H2 H3. unfold plain_msg, data_of, adjust_of.
  destruct (N.eqb_spec t 93), (N.eqb_spec t 94), (N.eqb_spec t 95); try contradiction. auto.
Qed.

Lemma plain_good : forall l k id m, plain_msg m -> ev_good l (Sent k id m).
Proof. intros l k id m [H1 H2]. split; intros H; congruence. Qed.

Lemma vstep_plain : forall v k id m, plain_msg m -> vstep v (Sent k id m) = v.
Proof.
  intros v k id m [H1 H2]. cbn [vstep]. rewrite H1, H2, lenN_nil, !N.add_0_r.
  destruct v; reflexivity.
Qed.

(* a message on channel [c] without data or credit: the channel is as before *)
Lemma bundle_plain : forall id m a s r s' c, bundle id m a s = (r, s') -> plain_msg m ->
  find_self id (s_list s) = Some c ->
  exists es, touch s id c c es s' /\ (forall v, fold_left vstep es v = v) /\
             (es = [] \/ es = [Sent (keying s) id m]).
Proof.
  intros id m a s r s' c H Hp Hf. destruct (bundle_cases _ _ _ _ _ _ H) as [[-> ->]|[_ Hq]].
  - exists [Sent (keying s) id m]. split; [|split].
    + eapply quiet_touch; [apply (set_out_quiet s true)|].
      apply touch_logged; [exact Hf | reflexivity|]. intros _. apply plain_good; assumption.
    + intros v. cbn [fold_left]. apply vstep_plain; assumption.
    + right; reflexivity.
  - exists []. split; [|split; [reflexivity | left; reflexivity]].
    eapply touch_quiet; [apply touch_same; exact Hf | assumption].
Qed.

(* ------------------------------------------------------------------ *)
(* Credit                                                               *)

Lemma adjust_msg : forall p n, is32 n ->
  adjust_of ([MSGID_CHANNEL_WINDOW_ADJUST] ++ c32toa p ++ c32toa n) = n.
Proof.
  intros p n H. unfold adjust_of, MSGID_CHANNEL_WINDOW_ADJUST. cbn [app].
  rewrite N.eqb_refl. rewrite <- (app_nil_r (c32toa n)).
  replace 4 with (lenN (c32toa p)) at 1 by apply c32toa_length.
  replace 4 with (lenN (c32toa n)) at 1 by apply c32toa_length.
  rewrite slice_mid. apply be_value_c32toa. assumption.
Qed.
Lemma adjust_nodata : forall r, data_of ([MSGID_CHANNEL_WINDOW_ADJUST] ++ r) = [].
Proof. reflexivity. Qed.

Definition an_of (es : list ev) : N :=
  fold_right (fun e x => match e with Sent _ _ m => adjust_of m + x | _ => x end) 0 es.

(* the two shapes of what a credit puts on the queue *)
Definition credit_es (id : N) (c : chan) (es : list ev) : Prop :=
  es = [] \/
  exists n, is32 n /\ n <> 0 /\
    es = [Sent false id ([MSGID_CHANNEL_WINDOW_ADJUST] ++ c32toa (c_peer c) ++ c32toa n)].

Lemma credit_es_view : forall id c es v, credit_es id c es ->
  fold_left vstep es v =
  mkView (v_sf v) (v_st v) (v_cf v) (v_ct v) (v_ch v) (v_w0 v) (v_an v + an_of es) (v_gr v) (v_us v) (v_pm v) (v_eof v).
Proof.
  intros id c es v [->|(n & Hn & H0 & ->)].
  - cbn. rewrite N.add_0_r. destruct v; reflexivity.
  - cbn [fold_left vstep an_of fold_right]. rewrite adjust_nodata, lenN_nil, !N.add_0_r. reflexivity.
Qed.

Lemma c_set_pend_same : forall c, c_set_pend (c_pend c) c = c.
Proof. destruct c; reflexivity. Qed.

Lemma credit_spec : forall id amount a s r s' c,
  ChannelCreditWindow id amount a s = (r, s') ->
  find_self id (s_list s) = Some c -> is32 (c_pend c) -> is32 amount ->
  exists p es, touch s id c (c_set_pend p c) es s' /\ is32 p /\ credit_es id c es /\
    (keying s = true -> es = []) /\
    ((W32 <= c_pend c + amount /\ es = [] /\ p = c_pend c /\ r = WS_OVERFLOW_E) \/
     (c_pend c + amount < W32 /\ (ans_ok a -> p + an_of es = c_pend c + amount))).
Proof.
  intros id amount a s r s' c H Hf Hp Ha. unfold ChannelCreditWindow in H. rewrite Hf in H.
  assert (Hid : c_id c = id) by (apply find_self_some in Hf; tauto).
  rewrite sub32_small in H by (unfold is32, W32, UINT32_MAX in *; lia).
  destruct (N.ltb_spec (UINT32_MAX - c_pend c) amount) as [Ho|Ho].
  { injection H as <- <-. exists (c_pend c), []. rewrite c_set_pend_same.
    split; [apply touch_same; assumption|]. split; [assumption|]. split; [left; reflexivity|].
    split; [auto|]. left. repeat split; auto. unfold is32, UINT32_MAX, W32 in *; lia. }
  assert (Hs : c_pend c + amount < W32).
  { clear H. unfold is32, UINT32_MAX, W32 in *. lia. }
  rewrite add32_small in H by assumption.
  destruct (N.eqb_spec (c_pend c + amount) 0) as [H0|H0].
  { injection H as <- <-. exists (c_pend c), []. rewrite c_set_pend_same.
    split; [apply touch_same; assumption|]. split; [assumption|]. split; [left; reflexivity|].
    split; [auto|]. right. split; [assumption|]. intros _. change (an_of []) with 0. lia. }
  destruct (keying s) eqn:Hk.
  { injection H as <- <-. exists (c_pend c + amount), [].
    split; [apply touch_on with (c' := c_set_pend (c_pend c + amount) c); auto|].
    split; [assumption|]. split; [left; reflexivity|]. split; [auto|].
    right. split; [assumption|]. intros _. change (an_of []) with 0. lia. }
  set (total := c_pend c + amount) in *. clearbody total.
  set (s0 := on_chan id (c_set_pend 0) s) in *.
  assert (T0 : touch s id c (c_set_pend 0 c) [] s0) by (apply touch_on; auto).
  assert (F0 : find_self id (s_list s0) = Some (c_set_pend 0 c)) by (eapply touch_find; exact T0).
  assert (K0 : keying s0 = false) by exact Hk. clearbody s0.
  destruct (SendChannelWindowAdjust id total a s0) as [[r1 bundled] s1] eqn:E.
  unfold SendChannelWindowAdjust in E. rewrite F0 in E.
  assert (Hfail : forall s2 r2, quietly s0 s2 -> (r1, bundled, s1) = (r2, false, s2) ->
    exists p es, touch s id c (c_set_pend p c) es s' /\ is32 p /\ credit_es id c es /\
    (false = true -> es = []) /\
    ((W32 <= total /\ es = [] /\ p = c_pend c /\ r = WS_OVERFLOW_E) \/
     (total < W32 /\ (ans_ok a -> p + an_of es = total)))).
  { intros s2 r2 Hq He. injection He as -> -> ->. cbn [negb orb] in H. injection H as <- <-.
    exists total, []. split; [|split; [assumption|split; [left; reflexivity|split; [auto|]]]].
    - change ([] : list ev) with ([] ++ [] : list ev). eapply touch_trans.
      + eapply touch_quiet; [exact T0 | exact Hq].
      + apply touch_on; [|exact Hid|reflexivity].
        rewrite (q_list _ _ Hq). exact F0.
    - right. split; [assumption|]. intros _. change (an_of []) with 0. lia. }
  cbn [c_peer c_set_pend c_rx] in E.
  destruct (s_up s0); cbn [negb] in E; [|eapply Hfail; [apply quiet_refl | symmetry; exact E]].
  destruct (bundle id ([MSGID_CHANNEL_WINDOW_ADJUST] ++ c32toa (c_peer c) ++ c32toa total) a s0)
    as [r2 s2] eqn:Eb.
  destruct (bundle_cases _ _ _ _ _ _ Eb) as [[-> Hs2]|[Hne Hq]].
  2:{ assert (Hx : (r2, false, s2) = (r1, bundled, s1)) by (destruct r2; congruence).
      eapply Hfail; [exact Hq | symmetry; exact Hx]. }
  clear Hfail. destruct (flush (a_flush a) s2) as [r3 s3] eqn:Ef.
  injection E as <- <- <-. cbn [negb orb] in H.
  set (m := [MSGID_CHANNEL_WINDOW_ADJUST] ++ c32toa (c_peer c) ++ c32toa total) in *.
  assert (Hm : adjust_of m = total) by (apply adjust_msg; exact Hs).
  assert (T1 : touch s id c (c_set_pend 0 c) [Sent false id m] s3).
  { change [Sent false id m] with ([] ++ [Sent false id m]). eapply touch_trans; [exact T0|].
    eapply touch_quiet; [|eapply flush_quiet; exact Ef]. subst s2.
    eapply quiet_touch; [apply (set_out_quiet s0 true)|]. rewrite K0.
    apply touch_logged; [exact F0 | reflexivity|]. intros _.
    split; [|reflexivity]. intros Hd. exfalso. apply Hd. reflexivity. }
  assert (Hes : credit_es id c [Sent false id m]) by (right; exists total; auto).
  destruct (rc_eqb r3 WS_SOCKET_ERROR_E) eqn:Er.
  - injection H as <- <-. exists total, [Sent false id m].
    split; [|split; [assumption|split; [assumption|split; [discriminate|]]]].
    + rewrite <- (app_nil_r [Sent false id m]). eapply touch_trans; [exact T1|].
      apply touch_on; [eapply touch_find; exact T1 | exact Hid | reflexivity].
    + right. split; [assumption|]. intros Hok. exfalso. apply rc_eqb_eq in Er.
      eapply flush_sock; [exact Ef | exact Hok | exact Er].
  - injection H as <- <-. exists 0, [Sent false id m].
    split; [exact T1|]. split; [reflexivity|]. split; [assumption|]. split; [discriminate|].
    right. split; [assumption|]. intros _. cbn [an_of fold_right]. rewrite Hm. lia.
Qed.
