(* ScpSrcProofs3.v - whole runs of an SCP sender, and the items offered (C61). *)
From Verif Require Import Base WireProofs NegoSpec ScpModel ScpSpec ScpSpec2 ScpSrcModel ScpSrcSpec ScpSrcProofs ScpSrcProofs2.
From Coq Require Import String List NArith ZArith Bool Lia.
Import ListNotations.
Open Scope N_scope.

Lemma run_good : forall (C : Type) (B : callbacks C) es w, Inv w -> good (source_run B es w).
Proof.
  intros C B es. induction es as [|e t IH]; intros w I; cbn [source_run]; [exact I|].
  pose proof (step_good B e w I) as G. destruct (source_step B e w); cbn [good] in *; auto.
Qed.
Lemma start_good : forall (C : Type) base rec ts (c : C), Inv (source0 base rec ts c).
Proof. intros. unfold Inv, source0. cbn. auto. Qed.

(* ------------------------------------------------------------------ *)
(* texts *)
Lemma snprintf_fits : forall m, lenN m <= 1023 -> snprintf m = m.
Proof. intros m L. unfold snprintf, SCP_MSG_SZ. apply takeN_all. exact L. Qed.

Lemma file_text : forall mode size n o ds, octal4 (N.land mode 511) o -> decimal size ds -> lenN (header 67 o ds n) <= 1022 ->
  msg_file mode size n = header 67 o ds n ++ [10].
Proof.
  intros mode size n o ds O D L. apply octal4_print in O. apply decimal_print in D. subst o ds. unfold msg_file.
  rewrite snprintf_fits; unfold header, SPACE, NEWLINE in *.
  - cbn [app]. rewrite <- !app_assoc. cbn [app]. rewrite <- !app_assoc. reflexivity.
  - cbn [app] in *. rewrite !lenN_cons, !lenN_app, !lenN_cons, !lenN_app, !lenN_cons, ?lenN_app in *. change (lenN [10]) with 1. lia.
Qed.
Lemma dir_text : forall mode n o, octal4 (N.land mode 511) o -> lenN (header 68 o [48] n) <= 1022 ->
  msg_dir mode n = header 68 o [48] n ++ [10].
Proof.
  intros mode n o O L. apply octal4_print in O. subst o. unfold msg_dir. change (ascii " 0 "%string) with [32; 48; 32].
  rewrite snprintf_fits; unfold header, SPACE, NEWLINE in *.
  - cbn [app]. rewrite <- !app_assoc. cbn [app]. reflexivity.
  - cbn [app] in *. rewrite !lenN_cons, !lenN_app, !lenN_cons, ?lenN_app in *. change (lenN [10]) with 1. lia.
Qed.
Lemma times_text : forall m a dm da, decimal m dm -> decimal a da -> lenN (times_msg dm da) <= 1022 ->
  msg_times m a = times_msg dm da ++ [10].
Proof.
  intros m a dm da Dm Da L. apply decimal_print in Dm. apply decimal_print in Da. subst dm da. unfold msg_times.
  change (ascii " 0 "%string) with [32; 48; 32]. change (ascii " 0"%string) with [32; 48].
  rewrite snprintf_fits; unfold times_msg, NEWLINE in *.
  - cbn [app]. rewrite <- !app_assoc. cbn [app]. rewrite <- !app_assoc. reflexivity.
  - cbn [app] in *. rewrite !lenN_cons, !lenN_app, !lenN_cons, !lenN_app, ?lenN_cons in *. change (lenN (@nil N)) with 0 in *. lia.
Qed.

(* ------------------------------------------------------------------ *)
(* items *)
Definition fresh (s : story) : Prop := y_now s = [] /\ y_file s = false /\ y_off s = 0.

Lemma parts_told : forall ts size c l, parts size c l -> size < W32 -> forall s, y_file s = true -> c <> [] -> y_off s + lenN c = size ->
  let s' := fold_left (tell ts) l s in y_done s' = y_done s ++ [y_now s ++ c ++ [0]] /\ fresh s'.
Proof.
  intros ts size c l P Lt. induction P as [|a d c l R Nd Sz P IH]; intros s F Nc O; [congruence|].
  cbn [fold_left]. cbv zeta. rewrite lenN_app in O. unfold tell at 2 4. rewrite R, F, Sz. cbn [app].
  assert (W : w32 (y_off s + lenN d) = y_off s + lenN d) by (apply w32_small; unfold is32; lia). rewrite W.
  destruct c as [|c0 ct].
  - inversion P; subst; [|exfalso]. 
    + change (lenN (@nil N)) with 0 in O. rewrite (proj2 (N.leb_le _ _)) by lia. cbn [fold_left y_done]. rewrite app_nil_r.
      split; [rewrite <- !app_assoc; reflexivity|repeat split].
    + destruct d0; [congruence|discriminate].
  - rewrite lenN_cons in O. rewrite (proj2 (N.leb_gt _ _)) by lia.
    specialize (IH (mkStory (y_done s ++ []) (y_now s ++ d) true (y_off s + lenN d) (error_of s a)) eq_refl ltac:(discriminate)).
    cbn [y_off y_done y_now] in IH. rewrite lenN_cons in IH. destruct (IH ltac:(lia)) as [I1 I2].
    split; [|exact I2]. rewrite I1, app_nil_r, <- !app_assoc. reflexivity.
Qed.

Lemma offers_told : forall ts i l, offers ts i l -> fits i -> forall s, fresh s ->
  let s' := fold_left (tell ts) l s in y_done s' = y_done s ++ item_turns i /\ fresh s'.
Proof.
  intros ts i l O Ft s (Nw & F & Of). destruct O as [t o ds a d c l R P Em Sz Lt Oc De T|o a R Oc|a R]; cbv zeta.
  - cbn [fits] in Ft. destruct Ft as [F1 F2]. cbn [fold_left].
    assert (H : (if ts then [msg_times (a_mtime a) (a_atime a)] else []) ++ [msg_file (a_mode a) (a_size a) (a_name a)] =
      match t with None => [] | Some (m, x) => [times_msg m x ++ [10]] end ++ [header 67 o ds (a_name a) ++ [10]]).
    { rewrite (file_text _ _ _ o ds Oc De F2). destruct ts.
      - destruct T as (m & z & -> & Dm & Dz). rewrite (times_text _ _ m z Dm Dz F1). reflexivity.
      - subst t. reflexivity. }
    unfold tell at 2 4. rewrite R, F, Of, Nw. rewrite H. cbn [app]. rewrite N.add_0_l. rewrite lenN_app in Sz.
    rewrite w32_small by (unfold is32, W32; lia). cbn [item_turns]. destruct c as [|c0 ct].
    + rewrite (Em eq_refl). change (lenN (@nil N)) with 0 in Sz. rewrite (proj2 (N.leb_le _ _)) by lia. cbn [fold_left y_done].
      rewrite app_nil_r. split; [rewrite <- app_assoc; reflexivity|repeat split].
    + rewrite lenN_cons in Sz. rewrite (proj2 (N.leb_gt _ _)) by lia.
      pose proof (parts_told ts (a_size a) (c0 :: ct) l P Lt) as PT. cbv zeta in PT.
      destruct (PT (mkStory (y_done s ++ match t with None => [] | Some (m, x) => [times_msg m x ++ [10]] end ++ [header 67 o ds (a_name a) ++ [10]]) d true (lenN d) (error_of s a))
        eq_refl ltac:(discriminate) ltac:(cbn [y_off]; rewrite lenN_cons; lia)) as [P1 P2].
      cbn [y_done y_now] in P1. split; [|exact P2]. rewrite P1, <- !app_assoc. reflexivity.
  - cbn [fits] in Ft. cbn [fold_left]. unfold tell. rewrite R, Nw. cbn [y_done app item_turns]. rewrite (dir_text _ _ o Oc Ft).
    split; [reflexivity|]. repeat split; assumption.
  - cbn [fold_left]. unfold tell. destruct R as [R|R]; rewrite R, Nw; (split; [reflexivity|repeat split; assumption]).
Qed.

Lemma offers_all_told : forall ts l ans, offers_all ts l ans -> Forall fits l -> forall s, fresh s ->
  let s' := fold_left (tell ts) ans s in y_done s' = y_done s ++ flat_map item_turns l /\ fresh s'.
Proof.
  intros ts l ans O. induction O as [|i l a b Oi O IH]; intros Ft s Fr; cbv zeta.
  - cbn. rewrite app_nil_r. auto.
  - inversion Ft; subst. rewrite fold_left_app. destruct (offers_told ts i a Oi H1 s Fr) as [A1 A2].
    destruct (IH H2 _ A2) as [B1 B2]. split; [|exact B2]. rewrite B1, A1. cbn [flat_map]. rewrite app_assoc. reflexivity.
Qed.

(* ------------------------------------------------------------------ *)
(* more answers only add to what is to be said *)
Definition tidy_story (s : story) : Prop := y_file s = false -> y_now s = [].
Definition whole (s : story) : list bytes := y_done s ++ [y_now s].

Lemma so_far_trans : forall a b c, so_far a b -> so_far b c -> so_far a c.
Proof.
  intros a b c (d1 & n1 & m1 & r1 & -> & ->) (d2 & n2 & m2 & r2 & E & ->).
  destruct r1 as [|x r1 _] using rev_ind.
  - apply app_inj_tail in E. destruct E as [<- <-]. exists d1, n1, (m1 ++ m2), r2. rewrite <- app_assoc. auto.
  - rewrite app_comm_cons, app_assoc in E. apply app_inj_tail in E. destruct E as [<- <-].
    exists d1, n1, m1, (r1 ++ (x ++ m2) :: r2). split; [reflexivity|]. rewrite <- app_assoc. reflexivity.
Qed.
Lemma so_far_refl : forall d n, so_far (d ++ [n]) (d ++ [n]).
Proof. intros. exists d, n, [], []. rewrite app_nil_r. auto. Qed.

Lemma tell_more : forall ts s a, tidy_story s -> a_ret a <> RAbort -> so_far (whole s) (whole (tell ts s a)) /\ tidy_story (tell ts s a).
Proof.
  intros ts s a T N. unfold whole, tell. destruct (a_ret a) as [d| | | | | | |] eqn:R; try congruence; try (split; [apply so_far_refl|exact T]).
  - assert (H : exists more rest, forall x, y_done s ++ (if y_file s then [] else (if ts then [msg_times (a_mtime a) (a_atime a)] else []) ++ [msg_file (a_mode a) (a_size a) (a_name a)]) ++ ((y_now s ++ d) ++ x) :: [] =
                y_done s ++ (y_now s ++ more x) :: rest x).
    { destruct (y_file s) eqn:F.
      - exists (fun x => d ++ x), (fun _ => []). intros x. cbn [app]. rewrite <- app_assoc. reflexivity.
      - rewrite (T F). cbn [app]. destruct ts; cbn [app]; eexists (fun _ => _), (fun x => _ ++ [d ++ x]); intros x; cbn [app].
        + instantiate (1 := [_]). cbn [app]. reflexivity.
        + instantiate (1 := []). reflexivity. }
    destruct H as (more & rest & H). destruct (_ <=? _); cbn [y_done y_now].
    + split; [|intros _; reflexivity]. exists (y_done s), (y_now s), (more [0]), (rest [0] ++ [[]]). split; [reflexivity|].
      rewrite (app_comm_cons (rest [0])), (app_assoc (y_done s) _ [[]]), <- H, !app_assoc. reflexivity.
    + split; [|intros Q; discriminate Q]. exists (y_done s), (y_now s), (more []), (rest []). split; [reflexivity|].
      specialize (H []). rewrite app_nil_r in H. rewrite <- app_assoc. exact H.
  - split; [|intros Q; reflexivity]. cbn [y_done y_now]. eexists _, _, _, [[]]. split; [reflexivity|]. rewrite <- app_assoc. reflexivity.
  - split; [|intros Q; reflexivity]. cbn [y_done y_now]. eexists _, _, _, [[]]. split; [reflexivity|]. rewrite <- app_assoc. reflexivity.
  - split; [|intros Q; reflexivity]. cbn [y_done y_now]. eexists _, _, _, [[]]. split; [reflexivity|]. rewrite <- app_assoc. reflexivity.
Qed.

Lemma told_more : forall ts l s, tidy_story s -> Forall (fun a => a_ret a <> RAbort) l -> so_far (whole s) (whole (fold_left (tell ts) l s)).
Proof.
  intros ts l. induction l as [|a t IH]; intros s T F; cbn [fold_left]; [apply so_far_refl|]. inversion F; subst.
  destruct (tell_more ts s a T H1) as [A B]. eapply so_far_trans; [exact A|]. apply IH; assumption.
Qed.
Lemma tidy_told : forall ts l s, tidy_story s -> Forall (fun a => a_ret a <> RAbort) l -> tidy_story (fold_left (tell ts) l s).
Proof.
  intros ts l. induction l as [|a t IH]; intros s T F; cbn [fold_left]; [exact T|]. inversion F; subst. apply IH; [|assumption].
  apply tell_more; assumption.
Qed.
Lemma offers_no_abort : forall ts l ans, offers_all ts l ans -> Forall (fun a => a_ret a <> RAbort) ans.
Proof.
  intros ts l ans O. induction O as [|i l a b Oi O IH]; [constructor|]. apply Forall_app. split; [|exact IH].
  destruct Oi as [t o ds a d c l0 R P _ _ _ _ _ _|o a R _|a R].
  - constructor; [congruence|]. clear - P. induction P; constructor; [congruence|assumption].
  - constructor; [congruence|constructor].
  - constructor; [destruct R; congruence|constructor].
Qed.

(* ------------------------------------------------------------------ *)
(* a sender whose peer answers gets to the end *)
Lemma run_app : forall (C : Type) (B : callbacks C) a b w w1, source_run B a w = Go w1 -> source_run B (a ++ b) w = source_run B b w1.
Proof.
  intros C B a. induction a as [|e t IH]; intros b w w1 H; cbn [source_run app] in *; [congruence|].
  destruct (source_step B e w); try discriminate H. apply IH; exact H.
Qed.
Lemma run_step : forall (C : Type) (B : callbacks C) e w w1, source_step B e w = Go w1 -> source_run B [e] w = Go w1.
Proof. intros C B e w w1 H. cbn [source_run]. rewrite H. reflexivity. Qed.
Lemma run_cons : forall (C : Type) (B : callbacks C) e es w w1, source_step B e w = Go w1 -> source_run B (e :: es) w = source_run B es w1.
Proof. intros C B e es w w1 H. cbn [source_run]. rewrite H. reflexivity. Qed.

Lemma say_all : forall (C : Type) m f (w : source C), say m (WSent (lenN m)) f w = f (to_trace (Wrote m) w).
Proof. intros. unfold say. rewrite N.ltb_irrefl, N.eqb_refl, takeN_all by lia. reflexivity. Qed.
Lemma hear_ok : forall (C : Type) s (w : source C), hear (WData [0]) s w = Go (to_st s (w_next w) (to_trace (Heard (Some [0])) w)).
Proof. reflexivity. Qed.

Notation asks rest ts w := (w_ctx w = rest /\ w_rec w = true /\ w_ts w = ts).
Definition ready (rest : list answer) (ts : bool) (w : source (list answer)) : Prop :=
  w_st w = TRANSFER /\ asks rest ts w /\ w_buf w = [] /\ w_hdr w = false /\ w_off w = 0 /\ w_stall w = false.


Definition sending (l : list answer) (ts : bool) (w : source (list answer)) : Prop :=
  asks l ts w /\ w_hdr w = true /\ w_conf w = CONTINUE.

Lemma send_step : forall (w : source (list answer)) l ts, w_st w = SEND_FILE -> sending l ts w -> w_off w + lenN (w_buf w) < W32 ->
  exists w1, source_step teller (WSent (lenN (w_buf w))) w = after_data w1 /\ sending l ts w1 /\
    w_off w1 = w_off w + lenN (w_buf w) /\ w_buf w1 = [] /\ w_size w1 = w_size w /\
    w_stall w1 = match w_buf w with [] => w_stall w | _ => false end.
Proof.
  intros w l ts S K L. unfold source_step. rewrite S. destruct (w_buf w) as [|b t] eqn:Eb.
  - exists w. repeat split; auto; try apply K. change (lenN (@nil N)) with 0. lia.
  - rewrite N.ltb_irrefl. rewrite lenN_cons in *. rewrite (proj2 (N.ltb_lt 0 (1 + lenN t))) by lia.
    exists (to_stall false (to_data (add32 (w_off w) (1 + lenN t)) [] (to_trace (Wrote (takeN (1 + lenN t) (b :: t))) w))). split.
    + cbn [w_buf to_stall to_data to_trace]. rewrite dropN_all by (rewrite lenN_cons; lia). reflexivity.
    + repeat split; try apply K. cbn. apply add32_small. exact L.
Qed.

(* after the last part *)
Lemma file_ends : forall (w : source (list answer)) l ts, sending l ts w -> w_size w <= w_off w ->
  exists w1, after_data w = Go w1 /\ exists w', source_run teller [WSent 1; WData [0]] w1 = Go w' /\ ready l ts w'.
Proof.
  intros w l ts ((C1 & R & T) & H & Cf) L. unfold after_data. rewrite (proj2 (N.ltb_ge _ _)) by exact L. rewrite R.
  eexists. split; [reflexivity|]. eexists. split.
  - unfold source_run, source_step at 1. cbn [w_st to_st]. unfold say_confirm.
    cbn [w_conf w_err to_st to_req to_times to_stall to_hdr to_data]. rewrite Cf. change (msg_confirm CONTINUE (w_err w)) with [0].
    change 1 with (lenN [0]) at 1. rewrite say_all. cbn [w_conf to_trace to_st to_req to_times to_stall to_hdr to_data]. rewrite Cf.
    unfold source_step. cbn [w_st to_st]. rewrite hear_ok. reflexivity.
  - repeat split; assumption.
Qed.

(* while there is more *)
Lemma file_goes_on : forall (w : source (list answer)) l ts, sending l ts w -> w_off w < w_size w -> w_stall w = false ->
  exists w1, after_data w = Go w1 /\ w_st w1 = TRANSFER /\ sending l ts w1 /\ w_off w1 = w_off w /\ w_buf w1 = w_buf w.
Proof.
  intros w l ts ((C1 & R & T) & H & Cf) L S. unfold after_data. rewrite (proj2 (N.ltb_lt _ _)) by exact L. rewrite S.
  eexists. split; [reflexivity|]. repeat split; assumption.
Qed.

Lemma parts_run : forall ts size c l, parts size c l -> size < W32 -> forall rest (w : source (list answer)),
  w_st w = SEND_FILE -> sending (l ++ rest) ts w -> w_size w = size -> w_off w + lenN (w_buf w) + lenN c = size ->
  (c = [] -> l = []) -> (w_buf w = [] -> w_stall w = false) ->
  exists es w', source_run teller es w = Go w' /\ ready rest ts w'.
Proof.
  intros ts size c l P Lt. induction P as [|a d c l R Nd Sz P IH]; intros rest w S K Ws O Em St.
  - change (lenN (@nil N)) with 0 in O. destruct (send_step w _ ts S K) as (w1 & E & K1 & O1 & B1 & S1 & _); [lia|].
    destruct (file_ends w1 _ ts K1) as (w2 & E2 & w3 & E3 & Rd); [lia|]. rewrite E2 in E.
    exists (WSent (lenN (w_buf w)) :: [WSent 1; WData [0]]), w3. split; [|exact Rd]. rewrite (run_cons _ _ _ _ _ _ E). exact E3.
  - rewrite lenN_app in O. destruct d as [|d0 dt]; [congruence|]. rewrite lenN_cons in O.
    destruct (send_step w _ ts S K) as (w1 & E & K1 & O1 & B1 & S1 & St1); [lia|].
    destruct (file_goes_on w1 _ ts K1) as (w2 & E2 & T2 & K2 & O2 & B2); [lia| |].
    { rewrite St1. destruct (w_buf w); auto. }
    rewrite E2 in E. destruct K2 as ((C2 & R2 & T2') & H2 & Cf2).
    assert (E3 : exists w3, source_step teller WWant w2 = Go w3 /\ w_st w3 = SEND_FILE /\ sending (l ++ rest) ts w3 /\ w_size w3 = size /\
              w_off w3 = w_off w2 /\ w_buf w3 = d0 :: dt).
    { unfold source_step. rewrite T2, C2. cbn [teller cb_ask app]. rewrite R.
      eexists. split; [reflexivity|]. cbn. rewrite H2, B2, B1. repeat split; assumption. }
    destruct E3 as (w3 & E3 & S3 & K3 & Z3 & O3 & B3).
    destruct (IH rest w3 S3 K3 Z3) as (es & w' & Run & Rd).
    + rewrite O3, O2, O1, B3, lenN_cons. lia.
    + intros ->. inversion P; [reflexivity|]. destruct d; [congruence|discriminate].
    + rewrite B3. discriminate.
    + exists (WSent (lenN (w_buf w)) :: WWant :: es), w'. split; [|exact Rd]. rewrite (run_cons _ _ _ _ _ _ E), (run_cons _ _ _ _ _ _ E3). exact Run.
Qed.

Lemma item_runs : forall ts i a, offers ts i a -> Forall (fun x => a_ret x <> RFinal) a -> forall rest w, ready (a ++ rest) ts w ->
  exists es w', source_run teller es w = Go w' /\ ready rest ts w'.
Proof.
  intros ts i a O Nf rest w (S & (C1 & R & T) & B & H & Of & St).
  destruct O as [t o ds a d c l Ra P Em Sz Lt Oc De Ti|o a Ra Oc|a Ra].
  - assert (E : exists es w1, source_run teller es w = Go w1 /\ w_st w1 = SEND_FILE /\ sending (l ++ rest) ts w1 /\ w_size w1 = a_size a /\
              w_off w1 = 0 /\ w_buf w1 = d /\ w_stall w1 = false).
    { destruct ts.
      - eexists [WWant; WSent _; WData [0]; WSent _; WData [0]], _. split.
        + unfold source_run, source_step at 1. rewrite S, C1. cbn [teller cb_ask app]. rewrite Ra. cbn [w_hdr w_ts to_conf to_data to_answer]. rewrite H, T.
          unfold source_step at 1. cbn [w_st to_st]. rewrite say_all. unfold source_step at 1. cbn [w_st to_st]. rewrite hear_ok.
          unfold source_step at 1. cbn [w_st w_next to_st]. rewrite say_all. unfold source_step at 1. cbn [w_st to_st]. rewrite hear_ok. reflexivity.
        + cbn. rewrite B. repeat split; assumption.
      - eexists [WWant; WSent _; WData [0]], _. split.
        + unfold source_run, source_step at 1. rewrite S, C1. cbn [teller cb_ask app]. rewrite Ra. cbn [w_hdr w_ts to_conf to_data to_answer]. rewrite H, T.
          unfold source_step at 1. cbn [w_st to_st]. rewrite say_all. unfold source_step at 1. cbn [w_st to_st]. rewrite hear_ok. reflexivity.
        + cbn. rewrite B. repeat split; assumption. }
    destruct E as (es & w1 & E & S1 & K1 & Z1 & O1 & B1 & St1).
    destruct (parts_run ts (a_size a) c l P Lt rest w1 S1 K1 Z1) as (es2 & w2 & E2 & Rd); auto.
    + rewrite O1, B1. rewrite lenN_app in Sz. lia.
    + exists (es ++ es2), w2. split; [|exact Rd]. rewrite (run_app _ _ _ _ _ _ E). exact E2.
  - eexists [WWant; WSent _; WData [0]], _. split.
    + unfold source_run, source_step at 1. rewrite S, C1. cbn [teller cb_ask app]. rewrite Ra.
      unfold source_step at 1. cbn [w_st to_st]. rewrite say_all. unfold source_step at 1. cbn [w_st to_st]. rewrite hear_ok. reflexivity.
    + repeat split; assumption.
  - inversion Nf; subst. destruct Ra as [Ra|Ra]; [|congruence].
    eexists [WWant; WSent _; WData [0]], _. split.
    + unfold source_run, source_step at 1. rewrite S, C1. cbn [teller cb_ask app]. rewrite Ra.
      unfold source_step at 1. cbn [w_st to_st]. rewrite say_all. unfold source_step at 1. cbn [w_st to_st]. rewrite hear_ok. reflexivity.
    + repeat split; assumption.
Qed.

Lemma items_run : forall ts l a, offers_all ts l a -> Forall (fun x => a_ret x <> RFinal) a -> forall rest w, ready (a ++ rest) ts w ->
  exists es w', source_run teller es w = Go w' /\ ready rest ts w'.
Proof.
  intros ts l a O. induction O as [|i l a b Oi O IH]; intros Nf rest w Rd.
  - exists [], w. split; [reflexivity|exact Rd].
  - apply Forall_app in Nf. destruct Nf as [N1 N2]. rewrite <- app_assoc in Rd.
    destruct (item_runs ts i a Oi N1 (b ++ rest) w Rd) as (e1 & w1 & E1 & R1).
    destruct (IH N2 rest w1 R1) as (e2 & w2 & E2 & R2). exists (e1 ++ e2), w2. split; [|exact R2].
    rewrite (run_app _ _ _ _ _ _ E1). exact E2.
Qed.

Lemma end_runs : forall ts f rest w, a_ret f = RFinal \/ a_ret f = RComplete -> ready (f :: rest) ts w ->
  exists es w', source_run teller es w = Go w' /\ w_st w' = W_DONE.
Proof.
  intros ts f rest w Rf (S & (C1 & R & T) & B & H & Of & St). destruct Rf as [Rf|Rf].
  - eexists [WWant; WSent _; WData [0]], _. split.
    + unfold source_run, source_step at 1. rewrite S, C1. cbn [teller cb_ask app]. rewrite Rf.
      unfold source_step at 1. cbn [w_st to_st]. rewrite say_all. unfold source_step at 1. cbn [w_st to_st]. rewrite hear_ok. reflexivity.
    + reflexivity.
  - eexists [WWant], _. split.
    + unfold source_run, source_step. rewrite S, C1. cbn [teller cb_ask app]. rewrite Rf. reflexivity.
    + reflexivity.
Qed.

Lemma start_runs : forall h l base ts, a_ret h <> RAbort -> a_ret h <> REof ->
  exists es w', source_run teller es (source0 base true ts (h :: l)) = Go w' /\ ready l ts w'.
Proof.
  intros h l base ts Na Ne. exists [WWant; WWant; WData [0]].
  assert (E : source_step teller WWant (source0 base true ts (h :: l)) =
    Go (to_st SOURCE_INIT W_DONE (to_conf CONTINUE (match a_err h with Some e => Some e | None => None end) (to_first h l (source0 base true ts (h :: l)))))).
  { unfold source_step, source0. cbn [w_st w_ctx teller cb_ask]. destruct (a_ret h); try congruence; reflexivity. }
  eexists. split.
  - rewrite (run_cons _ _ _ _ _ _ E). unfold source_run, source_step at 1. cbn [w_st to_st]. unfold source_step at 1. cbn [w_st to_st].
    rewrite hear_ok. reflexivity.
  - repeat split.
Qed.

(* the answers given and those not yet given are all there are *)
Definition Asked (h : answer) (l : list answer) (w : source (list answer)) : Prop :=
  match w_first w with
  | None => w_ctx w = h :: l /\ w_ans w = []
  | Some x => x = h /\ w_ans w ++ w_ctx w = l
  end.
Definition alike (w w' : source (list answer)) : Prop := w_first w' = w_first w /\ w_ans w' = w_ans w /\ w_ctx w' = w_ctx w.
Lemma asked_alike : forall h l w w', alike w w' -> Asked h l w -> Asked h l w'.
Proof. intros h l w w' (A & B & D). unfold Asked. rewrite A, B, D. auto. Qed.

Ltac the E w w' := apply (f_equal (fun r => match r with Go x => x | _ => w end)) in E; cbv beta iota in E; subst w'; repeat split.
Lemma say_alike : forall m e f (w w' : source (list answer)),
  (forall w1, alike w w1 -> f w1 = Go w' -> alike w w') -> say m e f w = Go w' -> alike w w'.
Proof.
  intros m e f w w' F E. unfold say in E. destruct e; try discriminate E.
  - destruct (_ <? _); [the E w w'|]. cbv zeta in E. destruct (_ =? _); [|discriminate E]. eapply F; [|exact E]. repeat split.
  - the E w w'.
Qed.
Lemma hear_alike : forall e s (w w' : source (list answer)), hear e s w = Go w' -> alike w w'.
Proof.
  intros e s w w' E. unfold hear in E. destruct e; try discriminate E.
  - destruct (_ <? _); [the E w w'|]. destruct (_ =? _); [the E w w'|discriminate E].
  - the E w w'.
  - the E w w'.
Qed.
Lemma after_alike : forall (w w' : source (list answer)), after_data w = Go w' -> alike w w'.
Proof.
  intros w w' E. unfold after_data in E. destruct (_ <? _).
  - destruct (w_stall w); [discriminate E|the E w w'].
  - destruct (w_rec w); the E w w'.
Qed.

Lemma asked_step : forall h l e w w', Inv w -> Asked h l w -> source_step teller e w = Go w' -> Asked h l w'.
Proof.
  intros h l e w w' I K E. unfold Inv in I. unfold source_step in E.
  destruct (w_st w) eqn:S; cbn iota in I;
    try (apply asked_alike with (w := w); [|exact K];
         first [ eapply hear_alike; exact E
               | eapply say_alike; [|exact E]; intros w1 (A1 & A2 & A3) X; the X w1 w'; assumption ]).
  - destruct I as (I1 & _). unfold Asked in K. rewrite I1 in K. destruct K as [K1 K2]. rewrite K1 in E. cbn [teller cb_ask] in E.
    destruct (a_ret h); the E w w'; cbn; rewrite K2; reflexivity.
  - apply asked_alike with (w := w); [|exact K]. the E w w'.
  - apply asked_alike with (w := w); [|exact K]. unfold say_confirm in E. eapply say_alike; [|exact E]. intros w1 (A1 & A2 & A3) X.
    cbv beta in X. destruct (w_conf w1); [|discriminate X]. the X w1 w'; assumption.
  - apply asked_alike with (w := w); [|exact K]. unfold say_confirm in E. eapply say_alike; [|exact E]. intros w1 (A1 & A2 & A3) X.
    cbv beta in X. destruct (w_conf w1); [|discriminate X]. the X w1 w'; assumption.
  - destruct I as ((x & I1 & _) & _). unfold Asked in K. rewrite I1 in K. destruct K as [-> K2].
    destruct (w_ctx w) as [|a r] eqn:Ec; cbn [teller cb_ask] in E; [discriminate E|].
    assert (K3 : (w_ans w ++ [a]) ++ r = l) by (rewrite <- app_assoc; exact K2).
    unfold Asked. destruct (a_ret a); try discriminate E; apply (f_equal (fun r => match r with Go x => x | _ => w end)) in E; cbv beta iota in E; subst w'; cbn; rewrite I1; auto.
  - apply asked_alike with (w := w); [|exact K]. destruct (w_buf w); [eapply after_alike; exact E|]. destruct e; try discriminate E.
    + the E w w'.
    + destruct (_ <? _); [the E w w'|]. cbv zeta in E. destruct (0 <? n0); cbn [w_buf to_stall to_data to_trace] in E;
        (destruct (dropN n0 (n :: b)); [apply after_alike in E; exact E|the E w w']).
    + the E w w'.
  - apply asked_alike with (w := w); [|exact K]. the E w w'.
Qed.
Lemma asked_run : forall h l es w w', Inv w -> Asked h l w -> source_run teller es w = Go w' -> Asked h l w'.
Proof.
  intros h l es. induction es as [|e t IH]; intros w w' I K E; cbn [source_run] in E; [congruence|].
  pose proof (step_good teller e w I) as G. destruct (source_step teller e w) as [w1| |] eqn:E1; try discriminate E.
  eapply IH; [exact G| |exact E]. eapply asked_step; [exact I|exact K|exact E1].
Qed.

(* ------------------------------------------------------------------ *)
(* what counts as a confirmation *)
Definition heard {C} (r : wres (C:=C)) : Prop :=
  match r with Go w | Stop w => Forall confirms_turn (w_trace w) | Undef => True end.
Lemma say_heard : forall (C : Type) m e f (w : source C), Forall confirms_turn (w_trace w) ->
  (forall w1, Forall confirms_turn (w_trace w1) -> heard (f w1)) -> heard (say m e f w).
Proof.
  intros C m e f w T F. unfold say. destruct e; try exact T. destruct (_ <? _); [exact T|]. cbv zeta.
  assert (T1 : Forall confirms_turn (w_trace (to_trace (Wrote (takeN n m)) w))) by (constructor; [exact I|exact T]).
  destruct (_ =? _); [apply F; exact T1|exact T1].
Qed.
Lemma hear_heard : forall (C : Type) e s (w : source C), fair e -> Forall confirms_turn (w_trace w) -> heard (hear e s w).
Proof.
  intros C e s w F T. unfold hear. destruct e; try exact T; [|destruct F].
  destruct (_ <? _); [exact T|]. destruct (N.eqb_spec (chr d 0) 0) as [E|E]; [|exact T].
  constructor; [|exact T]. destruct d as [|x r]; [elim F; reflexivity|]. exists r. unfold chr in E. cbn in E. rewrite E. reflexivity.
Qed.
Lemma after_heard : forall (C : Type) (w : source C), Forall confirms_turn (w_trace w) -> heard (after_data w).
Proof. intros C w T. unfold after_data. destruct (_ <? _); [destruct (w_stall w); exact T|destruct (w_rec w); exact T]. Qed.

Lemma heard_step : forall (C : Type) (B : callbacks C) e w, fair e -> Forall confirms_turn (w_trace w) -> heard (source_step B e w).
Proof.
  intros C B e w F T. unfold source_step.
  destruct (w_st w);
    try (apply hear_heard; [exact F|exact T]); try (apply say_heard; [exact T|]; intros w1 T1; exact T1); try exact T.
  - destruct (cb_ask B _ _) as [a c]. destruct (a_ret a); exact T.
  - unfold say_confirm. apply say_heard; [exact T|]. intros w1 T1. destruct (w_conf w1); exact T1.
  - unfold say_confirm. apply say_heard; [exact T|]. intros w1 T1. destruct (w_conf w1); exact T1.
  - destruct (cb_ask B _ _) as [a c]. cbv zeta. destruct (a_ret a); exact T.
  - destruct (w_buf w) as [|b t]; [apply after_heard; exact T|]. destruct e; try exact T; try (destruct (cb_broken B _); [exact T|exact I]).
    destruct (_ <? _); [exact T|]. cbv zeta.
    destruct (0 <? n); cbn [w_buf to_stall to_data to_trace];
      (destruct (dropN n (b :: t)); [apply after_heard|]; (constructor; [exact I|exact T])).
Qed.
Lemma heard_run : forall (C : Type) (B : callbacks C) es w, Forall fair es -> Forall confirms_turn (w_trace w) -> heard (source_run B es w).
Proof.
  intros C B es. induction es as [|e t IH]; intros w F T; cbn [source_run]; [exact T|]. inversion F; subst.
  pose proof (heard_step C B e w H1 T) as G. destruct (source_step B e w); auto.
Qed.

Lemma turns_script : forall l, List.concat (flat_map item_turns l) = script l.
Proof.
  induction l as [|i l IH]; [reflexivity|]. cbn [flat_map script]. rewrite concat_app, IH. f_equal.
  destruct i as [[[m a]|] o ds n c|o ds n|]; cbn [item_turns item_bytes List.concat app]; rewrite ?app_nil_r, <- ?app_assoc; try reflexivity.
Qed.

(* whether times are sent does not change *)
Definition tso {C} (ts : bool) (r : wres (C:=C)) : Prop := match r with Go w | Stop w => w_ts w = ts | Undef => True end.
Lemma say_ts : forall (C : Type) ts m e f (w : source C), w_ts w = ts -> (forall w1, w_ts w1 = ts -> tso ts (f w1)) -> tso ts (say m e f w).
Proof.
  intros C ts m e f w T F. unfold say. destruct e; try exact T. destruct (_ <? _); [exact T|]. cbv zeta.
  destruct (_ =? _); [apply F; exact T|exact T].
Qed.
Lemma after_ts : forall (C : Type) ts (w : source C), w_ts w = ts -> tso ts (after_data w).
Proof. intros C ts w T. unfold after_data. destruct (_ <? _); [destruct (w_stall w); exact T|destruct (w_rec w); exact T]. Qed.
Lemma ts_step : forall (C : Type) (B : callbacks C) ts e w, w_ts w = ts -> tso ts (source_step B e w).
Proof.
  intros C B ts e w T. unfold source_step.
  destruct (w_st w);
    try (apply say_ts; [exact T|]; intros w1 T1; exact T1); try exact T;
    try (unfold hear; destruct e; try exact T; destruct (_ <? _); [exact T|]; destruct (_ =? _); exact T).
  - destruct (cb_ask B _ _) as [a c]. destruct (a_ret a); exact T.
  - unfold say_confirm. apply say_ts; [exact T|]. intros w1 T1. destruct (w_conf w1); exact T1.
  - unfold say_confirm. apply say_ts; [exact T|]. intros w1 T1. destruct (w_conf w1); exact T1.
  - destruct (cb_ask B _ _) as [a c]. cbv zeta. destruct (a_ret a); exact T.
  - destruct (w_buf w) as [|b t]; [apply after_ts; exact T|]. destruct e; try exact T; try (destruct (cb_broken B _); [exact T|exact I]).
    destruct (_ <? _); [exact T|]. cbv zeta.
    destruct (0 <? n); cbn [w_buf to_stall to_data to_trace];
      (destruct (dropN n (b :: t)); [apply after_ts|]; exact T).
Qed.
Lemma ts_run : forall (C : Type) (B : callbacks C) ts es w, w_ts w = ts -> tso ts (source_run B es w).
Proof.
  intros C B ts es. induction es as [|e t IH]; intros w T; cbn [source_run]; [exact T|].
  pose proof (ts_step C B ts e w T) as G. destruct (source_step B e w); auto.
Qed.

Definition came {C} (r : wres (C:=C)) (w : source C) : Prop := r = Go w \/ r = Stop w.

Theorem run_turns : forall (C : Type) (B : callbacks C) es base rec ts c w, came (source_run B es (source0 base rec ts c)) w ->
  so_far (turns_of (w_trace w)) (to_say ts (w_first w) (w_ans w)).
Proof.
  intros C B es base rec ts c w H. pose proof (run_good C B es _ (start_good C base rec ts c)) as G.
  pose proof (ts_run C B ts es (source0 base rec ts c) eq_refl) as T. destruct H as [H|H]; rewrite H in *; cbn [good tso] in *; subst ts.
  - apply Inv_sofar. exact G.
  - exact G.
Qed.
Theorem run_done : forall (C : Type) (B : callbacks C) es base rec ts c w, source_run B es (source0 base rec ts c) = Go w ->
  w_st w = W_DONE -> turns_of (w_trace w) = to_say ts (w_first w) (w_ans w).
Proof.
  intros C B es base rec ts c w H S. pose proof (run_good C B es _ (start_good C base rec ts c)) as G.
  pose proof (ts_run C B ts es (source0 base rec ts c) eq_refl) as T. rewrite H in *. cbn [good tso] in *. subst ts.
  unfold Inv in G. rewrite S in G. exact G.
Qed.

(* what is to be said when items are offered *)
Lemma to_say_items : forall ts f l ans, is_normal f -> offers_all ts l ans -> Forall fits l ->
  to_say ts f ans = [] :: flat_map item_turns l ++ [[]].
Proof.
  intros ts f l ans N O F. rewrite to_say_normal by exact N. unfold told.
  destruct (offers_all_told ts l ans O F (story0 (err_of f))) as [A (B & _)]; [repeat split|]. rewrite A, B. reflexivity.
Qed.
Lemma to_say_part : forall ts f ans rest l, is_normal f -> offers_all ts l (ans ++ rest) -> Forall fits l ->
  so_far (to_say ts f ans) ([] :: flat_map item_turns l ++ [[]]).
Proof.
  intros ts f ans rest l N O F. rewrite <- (to_say_items ts f l _ N O F), !to_say_normal by exact N. unfold told. rewrite fold_left_app.
  pose proof (offers_no_abort _ _ _ O) as Na. apply Forall_app in Na. destruct Na as [N1 N2].
  assert (T : tidy_story (story0 (err_of f))) by (intros _; reflexivity).
  destruct (told_more ts rest (fold_left (tell ts) ans (story0 (err_of f))) (tidy_told _ _ _ T N1) N2) as (d & n & m & r & E1 & E2).
  unfold whole in *. exists ([] :: d), n, m, r. rewrite E1, E2. auto.
Qed.

(* what is offered is what a receiver takes *)
Lemma digits_no_nl : forall l, Forall (fun c => 48 <= c <= 57) l -> ~ In 10 l.
Proof. intros l F H. rewrite Forall_forall in F. apply F in H. lia. Qed.
Lemma offered_ok : forall ts l ans, offers_all ts l ans -> forall n, Forall fits l -> carried n l -> items_ok n l.
Proof.
  intros ts l ans O. induction O as [|i l a b Oi O IH]; intros n F K; [exact I|]. inversion F as [|x y F1 F2]; subst.
  destruct Oi as [t o ds a d c l0 R P Em Sz Lt Oc De Ti|o a R Oc|a R]; cbn [items_ok carried fits] in *.
  - destruct K as (K1 & K2 & K3 & K4). destruct F1 as [Ft Fh]. destruct De as (D1 & D2 & D3). destruct Oc as (O1 & O2).
    split; [|split; [|split; [congruence|apply IH; assumption]]].
    + destruct ts; [|subst t; exact I]. destruct Ti as (m & z & -> & (M1 & M2 & _) & (Z1 & Z2 & _)). unfold times_ok.
      destruct K3 as (V1 & V2 & V3). split; [exact M1|]. split; [exact Z1|]. split; [exact V1|]. split; [exact V2|]. split; [exact V3|].
      split; [|exact Ft]. unfold times_msg. intros [Q|Q]; [discriminate Q|]. apply in_app_or in Q. destruct Q as [Q|Q]; [revert Q; apply digits_no_nl; apply M1|].
      apply in_app_or in Q. destruct Q as [Q|Q]; [cbn in Q; intuition discriminate|]. apply in_app_or in Q.
      destruct Q as [Q|Q]; [revert Q; apply digits_no_nl; apply Z1|cbn in Q; intuition discriminate].
    + unfold header_ok. split; [exact O1|]. split; [exact D1|]. split; [rewrite D2; lia|]. split; [exact K1|]. split; [|exact Fh].
      unfold header. intros [Q|Q]; [discriminate Q|]. apply in_app_or in Q. destruct Q as [Q|Q].
      { destruct O1 as [_ O1]. rewrite Forall_forall in O1. apply O1 in Q. lia. }
      apply in_app_or in Q. destruct Q as [Q|Q]; [cbn in Q; intuition discriminate|]. apply in_app_or in Q.
      destruct Q as [Q|Q]; [revert Q; apply digits_no_nl; apply D1|]. apply in_app_or in Q.
      destruct Q as [Q|Q]; [cbn in Q; intuition discriminate|]. exact (K2 Q).
  - destruct K as (K1 & K2 & K3). split; [|apply IH; assumption]. destruct Oc as (O1 & O2).
    unfold header_ok. split; [exact O1|]. split; [split; [discriminate|]; repeat constructor; discriminate|]. split; [reflexivity|]. split; [exact K1|]. split; [|exact F1].
    unfold header. intros [Q|Q]; [discriminate Q|]. apply in_app_or in Q. destruct Q as [Q|Q].
    { destruct O1 as [_ O1]. rewrite Forall_forall in O1. apply O1 in Q. lia. }
    apply in_app_or in Q. destruct Q as [Q|Q]; [cbn in Q; intuition discriminate|].
    cbn in Q. destruct Q as [Q|[Q|Q]]; try discriminate Q. exact (K2 Q).
  - destruct n; [exact K|]. apply IH; assumption.
Qed.
