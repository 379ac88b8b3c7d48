(* ScpSrcProofs2.v - the sending machine says what it is to say (C61). *)
From Verif Require Import Base WireProofs ScpModel ScpSpec ScpSpec2 ScpSrcModel ScpSrcSpec ScpSrcProofs.
From Coq Require Import List NArith ZArith Bool Lia.
Import ListNotations.
Open Scope N_scope.

Lemma so_far_rev : forall now r t, so_far (rev (now :: r)) t <-> exists more rest, t = rev r ++ (now ++ more) :: rest.
Proof.
  intros now r t. cbn [rev]. split.
  - intros (done & n & more & rest & E & ->). apply app_inj_tail in E. destruct E as [<- <-]. eauto.
  - intros (more & rest & ->). exists (rev r), now, more, rest. auto.
Qed.

Section Machine.
Context {C : Type}.
Implicit Types w : source C.

Definition err_of (f : option answer) : option bytes := match f with Some a => a_err a | None => None end.
Definition is_normal (f : option answer) : Prop := exists a, f = Some a /\ a_ret a <> RAbort /\ a_ret a <> REof.
Notation err0 w := (err_of (w_first w)).
Notation tale w l := (told (w_ts w) (err_of (w_first w)) l).
Notation target w := (to_say (w_ts w) (w_first w) (w_ans w)).
Notation normal w := (is_normal (w_first w)).

Lemma target_normal : forall w, normal w -> target w = [] :: y_done (tale w (w_ans w)) ++ [y_now (tale w (w_ans w))].
Proof.
  intros w (a & E & A & B). unfold to_say, err_of. rewrite E. cbn [option_map].
  destruct (a_ret a); try reflexivity; congruence.
Qed.
Lemma to_say_normal : forall ts f l, is_normal f ->
  to_say ts f l = [] :: y_done (told ts (err_of f) l) ++ [y_now (told ts (err_of f) l)].
Proof.
  intros ts f l (a & -> & A & B). unfold to_say, err_of. cbn [option_map]. destruct (a_ret a); try reflexivity; congruence.
Qed.
Lemma told_snoc : forall ts e l a, told ts e (l ++ [a]) = tell ts (told ts e l) a.
Proof. intros. unfold told. rewrite fold_left_app. reflexivity. Qed.
Lemma tale_snoc : forall w l a, tale w (l ++ [a]) = tell (w_ts w) (tale w l) a.
Proof. intros. unfold told. rewrite fold_left_app. reflexivity. Qed.

(* The answer [a] has been given after [l] and its values are there. *)
Definition Given w (l : list answer) (a : answer) : Prop :=
  normal w /\ w_ans w = l ++ [a] /\ w_name w = a_name a /\ w_mode w = a_mode a /\
  w_size w = a_size a /\ w_err w = error_of (tale w l) a.

Definition here (s : story) : list bytes := y_now s :: rev (y_done s) ++ [[]].

Definition heads (ts : bool) (s : story) (a : answer) : list bytes :=
  if y_file s then []
  else (if ts then [msg_times (a_mtime a) (a_atime a)] else []) ++ [msg_file (a_mode a) (a_size a) (a_name a)].
(* what was said of the file before its data, and the turn of the data *)
Definition file_here (ts : bool) (s : story) (a : answer) (d : bytes) : list bytes :=
  (y_now s ++ d) :: rev (y_done s ++ heads ts s a) ++ [[]].

Definition At (s : wstate) (sd : list bytes) w : Prop :=
  match s with
  | SOURCE_BEGIN => w_first w = None /\ w_ans w = [] /\ w_err w = None /\ sd = [[]]
  | SOURCE_INIT => normal w /\ w_ans w = [] /\ w_err w = err0 w /\ sd = [[]]
  | TRANSFER => normal w /\ sd = here (tale w (w_ans w)) /\ w_buf w = [] /\ w_hdr w = y_file (tale w (w_ans w)) /\
      w_off w = y_off (tale w (w_ans w)) /\ w_err w = y_err (tale w (w_ans w)) /\
      (y_file (tale w (w_ans w)) = false -> y_now (tale w (w_ans w)) = [])
  | SEND_ENTER_DIRECTORY => exists l a, Given w l a /\ a_ret a = REnter /\ sd = here (tale w l) /\ w_buf w = [] /\
      w_hdr w = y_file (tale w l) /\ w_off w = y_off (tale w l)
  | SEND_EXIT_DIRECTORY => exists l a, Given w l a /\ a_ret a = RExit /\ sd = here (tale w l) /\ w_buf w = [] /\
      w_hdr w = y_file (tale w l) /\ w_off w = y_off (tale w l)
  | SEND_EXIT_DIRECTORY_FINAL => exists l a, Given w l a /\ a_ret a = RFinal /\ sd = here (tale w l)
  | SEND_TIMESTAMP => exists l a d, Given w l a /\ a_ret a = RData d /\ w_conf w = CONTINUE /\ y_file (tale w l) = false /\
      y_now (tale w l) = [] /\ w_ts w = true /\
      w_mtime w = a_mtime a /\ w_atime w = a_atime a /\ sd = here (tale w l) /\ w_buf w = d /\ w_off w = y_off (tale w l)
  | SEND_FILE_HEADER => exists l a d, Given w l a /\ a_ret a = RData d /\ w_conf w = CONTINUE /\ y_file (tale w l) = false /\
      y_now (tale w l) = [] /\
      sd = [] :: rev (y_done (tale w l) ++ (if w_ts w then [msg_times (a_mtime a) (a_atime a)] else [])) ++ [[]] /\
      w_buf w = d /\ w_off w = y_off (tale w l)
  | SEND_FILE => exists l a d sent, Given w l a /\ a_ret a = RData d /\ w_conf w = CONTINUE /\ w_hdr w = true /\
      d = sent ++ w_buf w /\ w_off w = w32 (y_off (tale w l) + lenN sent) /\ sd = file_here (w_ts w) (tale w l) a sent /\
      (y_file (tale w l) = false -> y_now (tale w l) = [])
  | W_CONFIRMATION_WITH_RECEIPT => exists l a d, normal w /\ w_ans w = l ++ [a] /\ a_ret a = RData d /\
      a_size a <= w32 (y_off (tale w l) + lenN d) /\ w_conf w = CONTINUE /\ sd = file_here (w_ts w) (tale w l) a d /\
      (w_next w = W_DONE \/ w_next w = TRANSFER /\ w_buf w = [] /\ w_hdr w = false /\ w_off w = 0)
  | W_SEND_CONFIRMATION => w_next w = W_DONE /\
      ((exists l a, Given w l a /\ a_ret a = RAbort /\ w_conf w = ABORT /\ sd = here (tale w l)) \/
       (exists a, w_first w = Some a /\ sd = [[]; []] /\ w_err w = a_err a /\
          (a_ret a = RAbort /\ w_conf w = ABORT \/ a_ret a = REof /\ w_conf w = CONTINUE)))
  | W_DONE => rev sd = target w
  | W_RECEIVE_CONFIRMATION | W_RECEIVE_CONFIRMATION_WITH_RECEIPT => False
  end.

Definition Inv w : Prop :=
  match w_st w with
  | W_RECEIVE_CONFIRMATION => At (w_next w) ([] :: said (w_trace w)) w
  | W_RECEIVE_CONFIRMATION_WITH_RECEIPT => At W_SEND_CONFIRMATION ([] :: said (w_trace w)) w
  | s => At s (said (w_trace w)) w
  end.

Definition SoFar w : Prop := so_far (turns_of (w_trace w)) (target w).
Definition sofar (sd : list bytes) w : Prop := so_far (rev sd) (target w).

Definition good (r : wres (C:=C)) : Prop := match r with Go w => Inv w | Stop w => SoFar w | Undef => True end.

Lemma said_ne : forall l, exists g r, said l = g :: r.
Proof. induction l as [|[d|d] t (g & r & IH)]; cbn [said]; [eauto|rewrite IH; eauto|eauto]. Qed.
Lemma sofar_back : forall sd w, sd <> [] -> sofar ([] :: sd) w -> sofar sd w.
Proof.
  intros [|now r] w N; [congruence|]. unfold sofar. rewrite !so_far_rev. intros (m & rest & ->).
  exists [], (m :: rest). cbn [rev]. rewrite <- !app_assoc, app_nil_r. reflexivity.
Qed.
Lemma rev_here : forall s, rev (here s) = [] :: y_done s ++ [y_now s].
Proof. intros s. unfold here. cbn [rev]. rewrite rev_app_distr, rev_involutive. reflexivity. Qed.

(* [sd] is [now] after the turns [done] *)
Lemma sofar_at : forall w now done more rest, target w = [] :: done ++ (now ++ more) :: rest -> sofar (now :: rev done ++ [[]]) w.
Proof.
  intros w now done more rest E. unfold sofar. apply so_far_rev. exists more, rest. rewrite E, rev_app_distr, rev_involutive. reflexivity.
Qed.

Lemma tell_data : forall ts s a d, a_ret a = RData d -> tell ts s a =
  if a_size a <=? w32 (y_off s + lenN d) then mkStory (y_done s ++ heads ts s a ++ [(y_now s ++ d) ++ [0]]) [] false 0 None
  else mkStory (y_done s ++ heads ts s a) (y_now s ++ d) true (w32 (y_off s + lenN d)) (error_of s a).
Proof. intros ts s a d H. unfold tell, heads. rewrite H. reflexivity. Qed.

(* the turn of the data comes next *)
Lemma data_next : forall w l a d, normal w -> w_ans w = l ++ [a] -> a_ret a = RData d ->
  exists more rest, target w = [] :: (y_done (tale w l) ++ heads (w_ts w) (tale w l) a) ++ ((y_now (tale w l) ++ d) ++ more) :: rest.
Proof.
  intros w l a d N A R. rewrite (target_normal w N), A, tale_snoc, (tell_data _ _ a d R).
  destruct (a_size a <=? _); cbn [y_done y_now].
  - exists [0], [[]]. f_equal. rewrite <- !app_assoc. reflexivity.
  - exists [], []. rewrite app_nil_r. reflexivity.
Qed.

Lemma At_sofar : forall s sd w, At s sd w -> sofar sd w.
Proof.
  intros s sd w H. destruct s; cbn [At] in H; try contradiction.
  - destruct H as (F & A & _ & ->). unfold sofar, to_say. rewrite F, A. cbn. exists [], [], [], [[]]. auto.
  - destruct H as (N & A & _ & ->). unfold sofar. rewrite (target_normal w N), A. exists [], [], [], [[]]. auto.
  - (* confirmation *)
    destruct H as (_ & [(l & a & G & R & Cf & ->)|(a & F & -> & E & R)]).
    + destruct G as (G1 & G2 & _). unfold here. apply (sofar_at w _ _ (refusal (error_of (tale w l) a)) []).
      rewrite (target_normal w G1), G2, tale_snoc. unfold tell. rewrite R. reflexivity.
    + unfold sofar, to_say. rewrite F. cbn [option_map]. destruct R as [[R _]|[R _]]; rewrite R.
      * exists [[]], [], (refusal (a_err a)), []. auto.
      * exists [[]], [], [0], []. auto.
  - destruct H as (l & a & d & N & A & R & L & Cf & -> & _).
    destruct (data_next w l a d N A R) as (m & rest & E). eapply sofar_at. exact E.
  - destruct H as (N & -> & _). unfold here. apply (sofar_at w _ _ [] []). rewrite (target_normal w N), app_nil_r. reflexivity.
  - (* times *)
    destruct H as (l & a & d & (G1 & G2 & _) & R & Cf & F & Nw & Ts & _ & _ & -> & _ & _).
    destruct (data_next w l a d G1 G2 R) as (m & rest & E). unfold here. rewrite Nw in *. unfold heads in E. rewrite F, Ts in E.
    cbn [app] in E. rewrite <- app_assoc in E. eapply sofar_at. cbn [app] in E |- *. rewrite Ts. exact E.
  - destruct H as (l & a & (G1 & G2 & _) & R & -> & _). unfold here.
    apply (sofar_at w _ _ (msg_dir (a_mode a) (a_name a)) [[]]). rewrite (target_normal w G1), G2, tale_snoc. unfold tell. rewrite R. cbn [y_done y_now].
    rewrite <- app_assoc. reflexivity.
  - destruct H as (l & a & (G1 & G2 & _) & R & -> & _). unfold here.
    apply (sofar_at w _ _ msg_end [[]]). rewrite (target_normal w G1), G2, tale_snoc. unfold tell. rewrite R. cbn [y_done y_now].
    rewrite <- app_assoc. reflexivity.
  - destruct H as (l & a & (G1 & G2 & _) & R & ->). unfold here.
    apply (sofar_at w _ _ msg_end [[]]). rewrite (target_normal w G1), G2, tale_snoc. unfold tell. rewrite R. cbn [y_done y_now].
    rewrite <- app_assoc. reflexivity.
  - (* header *)
    destruct H as (l & a & d & (G1 & G2 & _) & R & Cf & F & Nw & -> & _ & _).
    destruct (data_next w l a d G1 G2 R) as (m & rest & E). unfold heads in E. rewrite F, Nw in E.
    rewrite app_assoc, <- (app_assoc _ [_]) in E. eapply sofar_at. cbn [app] in E |- *. exact E.
  - (* data *)
    destruct H as (l & a & d & sent & (G1 & G2 & _) & R & Cf & _ & D & _ & -> & _).
    destruct (data_next w l a d G1 G2 R) as (m & rest & E). rewrite D in E. unfold file_here. eapply sofar_at.
    rewrite E. f_equal. f_equal. f_equal. rewrite <- !app_assoc. reflexivity.
  - destruct sd as [|now r].
    + exfalso. assert (Q : target w = []) by (rewrite <- H; reflexivity). unfold to_say in Q.
      destruct (option_map _ _) as [[[] ?]|]; discriminate Q.
    + unfold sofar. apply so_far_rev. exists [], []. rewrite <- H. cbn [rev]. rewrite app_nil_r. reflexivity.
Qed.

Lemma Inv_sofar : forall w, Inv w -> SoFar w.
Proof.
  intros w H. unfold SoFar, turns_of. change (sofar (said (w_trace w)) w).
  destruct (said_ne (w_trace w)) as (g & r & E).
  unfold Inv in H. destruct (w_st w); try (exact (At_sofar _ _ _ H));
    apply sofar_back; (try rewrite E; try discriminate); eapply At_sofar; rewrite <- ?E; exact H.
Qed.

Lemma say_good : forall m e f w more,
  (forall g r, said (w_trace w) = g :: r -> exists rest, target w = rev r ++ (g ++ m ++ more) :: rest) ->
  Inv w -> good (f (to_trace (Wrote m) w)) -> good (say m e f w).
Proof.
  intros m e f w more T I G. destruct (said_ne (w_trace w)) as (g & r & Es). destruct (T g r Es) as (rest & Et).
  unfold say. destruct e as [d| |n| |]; try exact I; try (apply Inv_sofar; exact I).
  destruct (lenN m <? n) eqn:L; [exact I|]. apply N.ltb_ge in L.
  destruct (n =? lenN m) eqn:Q.
  - apply N.eqb_eq in Q. subst n. rewrite takeN_all by lia. exact G.
  - cbn [good]. unfold SoFar, turns_of. 
    cbn [w_trace to_trace said w_ts w_first w_ans]. rewrite Es. apply so_far_rev. exists (dropN n m ++ more), rest.
    rewrite Et. rewrite <- !app_assoc. rewrite (app_assoc (takeN n m)), takeN_dropN. reflexivity.
Qed.

Lemma hear_good : forall e s w, (w_st w = W_RECEIVE_CONFIRMATION /\ s = w_next w \/ w_st w = W_RECEIVE_CONFIRMATION_WITH_RECEIPT /\ s = W_SEND_CONFIRMATION) ->
  Inv w -> good (hear e s w).
Proof.
  intros e s w S I.
  assert (G : forall x, Inv (to_st s (w_next w) (to_trace (Heard x) w))).
  { intros x. unfold Inv in *. cbn [w_st to_st w_next w_trace to_trace said].
    assert (A : At s ([] :: said (w_trace w)) w) by (destruct S as [[S ->]|[S ->]]; rewrite S in I; exact I).
    clear I. destruct s; try exact A; try contradiction. }
  unfold hear. destruct e as [d| |n| |]; try exact I; try (apply Inv_sofar; exact I); try apply G.
  destruct (_ <? _); [exact I|]. destruct (_ =? _); [apply G|apply Inv_sofar; exact I].
Qed.

Lemma after_data_good : forall w l a d, Given w l a -> a_ret a = RData d -> w_conf w = CONTINUE -> w_hdr w = true ->
  w_buf w = [] -> w_off w = w32 (y_off (tale w l) + lenN d) -> said (w_trace w) = file_here (w_ts w) (tale w l) a d ->
  (y_file (tale w l) = false -> y_now (tale w l) = []) ->
  good (after_data w).
Proof.
  intros w l a d G R Cf Hd Bf Of Sd Nw. pose proof G as (G1 & G2 & G3 & G4 & G5 & G6).
  unfold after_data. rewrite Of, G5. destruct (_ <? _) eqn:L.
  - assert (T : tale w (w_ans w) = mkStory (y_done (tale w l) ++ heads (w_ts w) (tale w l) a) (y_now (tale w l) ++ d) true (w32 (y_off (tale w l) + lenN d)) (error_of (tale w l) a)).
    { rewrite G2, tale_snoc, (tell_data _ _ a d R). apply N.ltb_lt in L. rewrite (proj2 (N.leb_gt _ _)) by exact L. reflexivity. }
    destruct (w_stall w).
    + cbn [good]. unfold SoFar, turns_of. rewrite Sd. destruct (data_next w l a d G1 G2 R) as (m & rest & E).
      exact (sofar_at w _ _ m rest E).
    + cbn [good]. unfold Inv. cbn [w_st to_st At w_trace to_req to_stall w_ans w_buf w_hdr w_off w_err w_ts w_first].
      rewrite T. cbn [y_file y_off y_err y_now]. repeat split; try assumption; try discriminate; try congruence.
  - apply N.ltb_ge in L. destruct (w_rec w).
    + cbn [good]. unfold Inv. cbn [w_st to_st At w_trace to_req to_stall to_times to_hdr to_data w_ans w_buf w_hdr w_off w_err w_next w_conf w_ts w_first].
      exists l, a, d. repeat split; try assumption. right. auto.
    + cbn [good]. unfold Inv. cbn [w_st to_st At w_trace w_ans w_buf w_hdr w_off w_err w_next w_conf w_ts w_first].
      exists l, a, d. repeat split; try assumption. left. reflexivity.
Qed.

Ltac flat := unfold Given in *; cbn [w_st w_next w_req w_conf w_err w_base w_rec w_ts w_name w_mtime w_atime w_mode w_size w_off
  w_buf w_hdr w_stall w_ctx w_first w_ans w_trace to_st to_conf to_ctx to_req to_stall to_hdr to_data to_trace to_times
  to_answer to_first a_ret a_err said At] in *.

(* at the end of a message [m] the next turn follows *)
Lemma say_turn : forall m e f w s, said (w_trace w) = here s ->
  target w = [] :: y_done s ++ (y_now s ++ m) :: [[]] ->
  Inv w -> good (f (to_trace (Wrote m) w)) -> good (say m e f w).
Proof.
  intros m e f w s Sd T I G. apply (say_good m e f w []); auto. intros g r Q. rewrite Sd in Q. unfold here in Q.
  injection Q as <- <-. exists [[]]. rewrite T, rev_app_distr, rev_involutive, app_nil_r. reflexivity.
Qed.

Lemma story_turn : forall w l a m, normal w -> w_ans w = l ++ [a] ->
  tell (w_ts w) (tale w l) a = mkStory (y_done (tale w l) ++ [y_now (tale w l) ++ m]) [] (y_file (tale w l)) (y_off (tale w l)) (error_of (tale w l) a) ->
  target w = [] :: y_done (tale w l) ++ (y_now (tale w l) ++ m) :: [[]] /\
  [] :: (y_now (tale w l) ++ m) :: rev (y_done (tale w l)) ++ [[]] = here (tale w (w_ans w)).
Proof.
  intros w l a m N A T. rewrite (target_normal w N), A, tale_snoc, T. unfold here. cbn [y_done y_now]. split.
  - rewrite <- app_assoc. reflexivity.
  - rewrite rev_app_distr. reflexivity.
Qed.

Lemma told_off : forall ts e l, y_off (told ts e l) < W32.
Proof.
  intros ts e l. unfold told. assert (Z : y_off (story0 e) < W32) by reflexivity. revert Z. generalize (story0 e).
  induction l as [|a t IH]; intros s Z; cbn [fold_left]; [exact Z|]. apply IH. unfold tell.
  destruct (a_ret a); cbn [y_off]; try exact Z. destruct (_ <=? _); cbn [y_off]; [reflexivity|apply N.mod_lt; discriminate].
Qed.

Lemma step_good : forall (B : callbacks C) e w, Inv w -> good (source_step B e w).
Proof.
  intros B e w I. pose proof I as I0. unfold source_step. unfold Inv in I. destruct (w_st w) eqn:St.
  - (* begin *)
    destruct (cb_ask B (w_ctx w) _) as [a c]. destruct I as (F & A & Er & Sd).
    destruct (a_ret a) eqn:R; cbn [good]; unfold Inv; flat; rewrite ?A, ?Er, ?Sd;
      try (split; [exists a; split; [reflexivity|]; rewrite R; split; discriminate|];
           repeat split; cbn [err_of]; destruct (a_err a); reflexivity).
    + split; [reflexivity|]. right. exists a. rewrite R. repeat split; auto. destruct (a_err a); reflexivity.
    + split; [reflexivity|]. right. exists a. rewrite R. repeat split; auto. destruct (a_err a); reflexivity.
  - (* init *)
    destruct I as (N & A & Er & Sd). cbn [good]. unfold Inv; flat. rewrite A, Sd, Er. unfold told, here. cbn.
    repeat split; assumption.
  - (* confirmation *)
    destruct I as (Nx & [(l & a & G & R & Cf & Sd)|(a & F & Sd & Er & R)]).
    + unfold say_confirm. rewrite Cf. pose proof G as (G1 & G2 & G3 & G4 & G5 & G6).
      assert (T : target w = [] :: y_done (tale w l) ++ [y_now (tale w l) ++ refusal (error_of (tale w l) a)]).
      { rewrite (target_normal w G1), G2, tale_snoc. unfold tell. rewrite R. reflexivity. }
      assert (M : msg_confirm ABORT (w_err w) = refusal (error_of (tale w l) a)).
      { rewrite G6. unfold refusal, msg_confirm. destruct (error_of _ _); reflexivity. }
      rewrite M. apply (say_good _ _ _ _ []); [|exact I0|].
      * intros g r Q. rewrite Sd in Q. unfold here in Q. injection Q as <- <-. exists []. rewrite T, rev_app_distr, rev_involutive, app_nil_r. reflexivity.
      * flat. rewrite Cf. cbn [good]. unfold SoFar, turns_of. flat. rewrite Sd. unfold here. apply so_far_rev. exists [], [].
        rewrite T, rev_app_distr, rev_involutive, app_nil_r. reflexivity.
    + unfold say_confirm. rewrite Er.
      assert (T : target w = [[]; msg_confirm (w_conf w) (a_err a)]).
      { unfold to_say. rewrite F. cbn [option_map]. destruct R as [[R Q]|[R Q]]; rewrite R, Q; reflexivity. }
      apply (say_good _ _ _ _ []); [|exact I0|].
      * intros g r Q. rewrite Sd in Q. injection Q as <- <-. exists []. rewrite T, app_nil_r. reflexivity.
      * flat. destruct (w_conf w) eqn:Cf.
        -- cbn [good]. unfold Inv. flat. rewrite Nx. cbn [At said]. rewrite Sd. flat. rewrite T. reflexivity.
        -- cbn [good]. unfold SoFar, turns_of. flat. rewrite Sd. apply so_far_rev. exists [], []. rewrite T, app_nil_r. reflexivity.
  - (* receipt *)
    destruct I as (l & a & d & N & A & R & L & Cf & Sd & Nx). unfold say_confirm. rewrite Cf. cbn [msg_confirm].
    assert (T : tale w (w_ans w) = mkStory (y_done (tale w l) ++ heads (w_ts w) (tale w l) a ++ [(y_now (tale w l) ++ d) ++ [0]]) [] false 0 None).
    { rewrite A, tale_snoc, (tell_data _ _ a d R). rewrite (proj2 (N.leb_le _ _) L). reflexivity. }
    apply (say_good _ _ _ _ []); [|exact I0|].
    + intros g r Q. rewrite Sd in Q. unfold file_here in Q. injection Q as <- <-. exists [[]].
      rewrite (target_normal w N), T. cbn [y_done y_now]. rewrite rev_app_distr, rev_involutive, app_nil_r. cbn [rev app]. f_equal.
      rewrite <- !app_assoc. reflexivity.
    + flat. rewrite Cf. cbn [good]. unfold Inv. flat. rewrite Sd. unfold file_here.
      destruct Nx as [Nx|(Nx & Bf & Hd & Of)]; rewrite Nx; cbn [At].
      * flat. rewrite (target_normal w N), T. cbn [rev y_done y_now]. rewrite !rev_app_distr, !rev_involutive. cbn [rev app].
        rewrite <- !app_assoc. reflexivity.
      * flat. rewrite T. unfold here. cbn [y_done y_now y_file y_off y_err]. repeat split; try assumption.
        rewrite !rev_app_distr. cbn [rev app]. rewrite <- !app_assoc. reflexivity.
  - apply hear_good; auto.
  - apply hear_good; auto.
  - (* transfer *)
    destruct (cb_ask B (w_ctx w) _) as [a c]. destruct I as (Nm & Sd & Bf & Hd & Of & Er & Nw).
    assert (Ge : match a_err a with Some e => Some e | None => w_err w end = error_of (tale w (w_ans w)) a) by (unfold error_of; rewrite Er; reflexivity).
    destruct (a_ret a) eqn:R.
    + (* data *)
      cbn [good]. unfold Inv. flat. rewrite Bf. cbn [app]. rewrite Hd. destruct (y_file (tale w (w_ans w))) eqn:Fl.
      * exists (w_ans w), a, d, []. repeat split; auto.
        -- rewrite Of. unfold w32. change (lenN (@nil N)) with 0. rewrite N.add_0_r. symmetry. apply N.mod_small, told_off.
        -- unfold file_here, heads. rewrite Fl, !app_nil_r. exact Sd.
        -- intros Q. rewrite Fl in Q. discriminate.
      * destruct (w_ts w) eqn:Ts.
        -- cbn [At]. flat. exists (w_ans w), a, d. rewrite Ts. repeat split; auto.
        -- cbn [At]. flat. exists (w_ans w), a, d. rewrite Ts. repeat split; auto. unfold here in Sd. rewrite Nw in Sd by reflexivity.
           rewrite app_nil_r. exact Sd.
    + cbn [good]. unfold Inv. flat. exists (w_ans w), a. repeat split; auto.
    + cbn [good]. unfold Inv. flat. exists (w_ans w), a. repeat split; auto.
    + cbn [good]. unfold Inv. flat. exists (w_ans w), a. repeat split; auto.
    + cbn [good]. unfold Inv. flat. rewrite to_say_normal by exact Nm.
      rewrite told_snoc. unfold tell. rewrite R. rewrite Sd. apply rev_here.
    + cbn [good]. unfold Inv. flat. split; [reflexivity|]. left. exists (w_ans w), a. repeat split; auto.
    + cbn [good]. unfold SoFar, turns_of. flat. rewrite to_say_normal by exact Nm. rewrite told_snoc. unfold tell. rewrite R, Sd.
      apply so_far_rev. exists [], []. rewrite rev_app_distr, rev_involutive, app_nil_r. reflexivity.
    + cbn [good]. unfold SoFar, turns_of. flat. rewrite to_say_normal by exact Nm. rewrite told_snoc. unfold tell. rewrite R, Sd.
      apply so_far_rev. exists [], []. rewrite rev_app_distr, rev_involutive, app_nil_r. reflexivity.
  - (* times *)
    destruct I as (l & a & d & G & R & Cf & Fl & Nw & Ts & Mt & At_ & Sd & Bf & Of). pose proof G as (G1 & G2 & G3 & G4 & G5 & G6).
    destruct (data_next w l a d G1 G2 R) as (more & rest & E). unfold heads in E. rewrite Fl, Ts in E. cbn [app] in E.
    rewrite <- app_assoc in E. cbn [app] in E.
    apply (say_good _ _ _ _ []); [|exact I0|].
    + intros g r Q. rewrite Sd in Q. unfold here in Q. injection Q as <- <-. rewrite Mt, At_, rev_app_distr, rev_involutive, Nw, app_nil_r, Ts, E.
      eexists. reflexivity.
    + cbn [good]. unfold Inv. flat. exists l, a, d. rewrite Sd, Mt, At_. unfold here. rewrite Nw. repeat split; auto.
      rewrite Ts, rev_app_distr. reflexivity.
  - (* enter *)
    destruct I as (l & a & G & R & Sd & Bf & Hd & Of). pose proof G as (G1 & G2 & G3 & G4 & G5 & G6).
    assert (T : tell (w_ts w) (tale w l) a = mkStory (y_done (tale w l) ++ [y_now (tale w l) ++ msg_dir (w_mode w) (w_name w)]) [] (y_file (tale w l)) (y_off (tale w l)) (error_of (tale w l) a)).
    { unfold tell. rewrite R, G3, G4. reflexivity. }
    destruct (story_turn w l a _ G1 G2 T) as [T1 T2]. apply (say_turn _ _ _ _ (tale w l)); auto.
    cbn [good]. unfold Inv. flat. rewrite Sd. unfold here at 1. rewrite T2. rewrite G2, tale_snoc, T. cbn [y_file y_off y_err y_now]. repeat split; auto.
  - (* exit *)
    destruct I as (l & a & G & R & Sd & Bf & Hd & Of). pose proof G as (G1 & G2 & G3 & G4 & G5 & G6).
    assert (T : tell (w_ts w) (tale w l) a = mkStory (y_done (tale w l) ++ [y_now (tale w l) ++ msg_end]) [] (y_file (tale w l)) (y_off (tale w l)) (error_of (tale w l) a)).
    { unfold tell. rewrite R. reflexivity. }
    destruct (story_turn w l a _ G1 G2 T) as [T1 T2]. apply (say_turn _ _ _ _ (tale w l)); auto.
    cbn [good]. unfold Inv. flat. rewrite Sd. unfold here at 1. rewrite T2. rewrite G2, tale_snoc, T. cbn [y_file y_off y_err y_now]. repeat split; auto.
  - (* final exit *)
    destruct I as (l & a & G & R & Sd). pose proof G as (G1 & G2 & G3 & G4 & G5 & G6).
    assert (T : tell (w_ts w) (tale w l) a = mkStory (y_done (tale w l) ++ [y_now (tale w l) ++ msg_end]) [] (y_file (tale w l)) (y_off (tale w l)) (error_of (tale w l) a)).
    { unfold tell. rewrite R. reflexivity. }
    destruct (story_turn w l a _ G1 G2 T) as [T1 T2]. apply (say_turn _ _ _ _ (tale w l)); auto.
    cbn [good]. unfold Inv. flat. rewrite Sd. unfold here at 1. rewrite T2, rev_here. symmetry. apply target_normal. exact G1.
  - (* header *)
    destruct I as (l & a & d & G & R & Cf & Fl & Nw & Sd & Bf & Of). pose proof G as (G1 & G2 & G3 & G4 & G5 & G6).
    destruct (data_next w l a d G1 G2 R) as (more & rest & E). unfold heads in E. rewrite Fl in E.
    rewrite app_assoc, <- (app_assoc _ [_]) in E. cbn [app] in E.
    apply (say_good _ _ _ _ []); [|exact I0|].
    + intros g r Q. rewrite Sd in Q. injection Q as <- <-. rewrite E, G3, G4, G5, rev_app_distr, rev_involutive, app_nil_r. eexists. reflexivity.
    + cbn [good]. unfold Inv. flat. exists l, a, d, []. rewrite Sd, G3, G4, G5. repeat split; auto.
      * rewrite Of. unfold w32. change (lenN (@nil N)) with 0. rewrite N.add_0_r. symmetry. apply N.mod_small, told_off.
      * unfold file_here, heads. rewrite Fl, Nw, app_assoc, (rev_app_distr _ [_]). reflexivity.
  - (* data *)
    destruct I as (l & a & d & sent & G & R & Cf & Hd & D & Of & Sd & Nw). pose proof G as (G1 & G2 & G3 & G4 & G5 & G6).
    destruct (w_buf w) as [|b0 bt] eqn:Bf.
    + rewrite app_nil_r in D. subst sent. apply (after_data_good w l a d); auto.
    + rewrite <- Bf in *. destruct e as [x| |n| |]; try exact I0; try (destruct (cb_broken B (w_ctx w)); [exact (Inv_sofar w I0)|exact I]).
      destruct (lenN (w_buf w) <? n) eqn:L; [exact I0|]. apply N.ltb_ge in L.
      assert (D2 : d = (sent ++ takeN n (w_buf w)) ++ dropN n (w_buf w)) by (rewrite <- app_assoc, takeN_dropN; exact D).
      assert (O2 : add32 (w_off w) n = w32 (y_off (tale w l) + lenN (sent ++ takeN n (w_buf w)))).
      { rewrite Of, lenN_app, lenN_takeN, N.min_l by exact L. unfold add32, w32. rewrite N.add_mod_idemp_l by discriminate. f_equal. lia. }
      set (w1 := to_data (add32 (w_off w) n) (dropN n (w_buf w)) (to_trace (Wrote (takeN n (w_buf w))) w)).
      set (w2 := if 0 <? n then to_stall false w1 else w1).
      assert (P : Given w2 l a /\ w_conf w2 = CONTINUE /\ w_hdr w2 = true /\ w_buf w2 = dropN n (w_buf w) /\ w_off w2 = add32 (w_off w) n /\
        said (w_trace w2) = file_here (w_ts w2) (tale w2 l) a (sent ++ takeN n (w_buf w)) /\ w_st w2 = SEND_FILE /\ w_ts w2 = w_ts w /\ w_first w2 = w_first w).
      { unfold w2. destruct (0 <? n); unfold w1; flat; rewrite Sd; unfold file_here; rewrite app_assoc; repeat split; auto. }
      destruct P as (P1 & P2 & P3 & P4 & P5 & P6 & P7 & P8 & P9). clearbody w2. cbv zeta. rewrite P4.
      destruct (dropN n (w_buf w)) as [|z zt] eqn:Dr.
      * rewrite app_nil_r in D2. apply (after_data_good w2 l a d); auto; rewrite ?P8, ?P9, ?P5, ?D2; auto. rewrite P6, P8, P9. reflexivity.
      * cbn [good]. unfold Inv. rewrite P7. cbn [At]. exists l, a, d, (sent ++ takeN n (w_buf w)). rewrite ?P8, ?P9 in *.
        split; [exact P1|]. repeat split; auto; congruence.
  - exact I0.
Qed.
End Machine.
