(* ReqProofs2.v - what the request handler decides, in the terms of ReqSpec. *)
From Verif Require Import Base WireModel WireSpec WireProofs NameTable NegoModel NegoSpec NegoProofs ChanModel ChanProofs ChanStep ReqModel ReqSpec ReqProofs.
From Coq Require Import List NArith ZArith Bool Lia String.
Import ListNotations.
Open Scope N_scope.

Definition verdict (e : env) (id : N) (type rest : bytes) (q : rq) (x : rc * bool * bool * rq) : Prop :=
  let '(ret, rej, nr, q') := x in
  q_cs q' = q_cs q /\
  (nr = true <-> unanswered e type) /\
  (~ unanswered e type -> ((ret = WS_SUCCESS /\ rej = false) <-> body e type rest /\ ~ refused e id type rest)) /\
  exists cs, q_calls q' = q_calls q ++ cs /\
    (body e type rest -> has_callback e type -> told e id type rest cs) /\
    (body e type rest -> ~ has_callback e type -> cs = []) /\
    (~ body e type rest -> type <> ascii "exec" -> type <> ascii "subsystem" -> cs = []).

(* distinct names *)
Ltac names :=
  try match goal with
  | E : ascii _ = ascii _ |- _ => vm_compute in E; discriminate E
  | E : _ :: _ = ascii _ |- _ => vm_compute in E; discriminate E
  end.

Ltac no_unanswered :=
  intros [(E & _)|([E|E] & _)]; names.

Ltac inv_ty H :=
  match type of H with
  | body _ ?t _ => remember t as ty eqn:Ety; destruct H; names
  | refused _ _ ?t _ => remember t as ty eqn:Ety; destruct H; names
  end.

Ltac fwd_parse :=
  repeat match goal with
  | H : str _ ?b |- context [p_str (?b ++ _)] => rewrite (p_str_app _ _ _ H)
  | H : u32 _ ?b |- context [p_u32 (?b ++ _)] => rewrite (p_u32_app _ _ _ H)
  | H : str _ ?b, G : context [p_str (?b ++ _)] |- _ => rewrite (p_str_app _ _ _ H) in G
  | H : u32 _ ?b, G : context [p_u32 (?b ++ _)] |- _ => rewrite (p_u32_app _ _ _ H) in G
  end.

Lemma body_env : forall e rest, body e (ascii "env") rest <->
  exists n r v x, p_str rest = Some (n, r) /\ p_str r = Some (v, x).
Proof.
  intros e rest. split.
  - intros H. inv_ty H. exists n, (vb ++ x), v, x. fwd_parse. auto.
  - intros (n & r & v & x & A & B). destruct (p_str_some _ _ _ A) as (nb & Hn & ->).
    destruct (p_str_some _ _ _ B) as (vb & Hv & ->). econstructor; eassumption.
Qed.

Lemma v_env : forall e id rest q, verdict e id (ascii "env") rest q (h_env rest q).
Proof.
  intros e id rest q. pose proof (body_env e rest) as Hb.
  assert (Hu : ~ unanswered e (ascii "env")) by no_unanswered.
  assert (Hr : ~ refused e id (ascii "env") rest) by (intros H; inv_ty H).
  assert (Hc : ~ has_callback e (ascii "env")) by (intros [(E & _)|[(E & _)|[(E & _)|([E|E] & _)]]]; names).
  unfold h_env, verdict.
  destruct (p_str rest) as [(n, r)|] eqn:A; [destruct (p_str r) as [(v, x)|] eqn:B|];
    (split; [reflexivity|]; split; [split; [discriminate|intros; contradiction]|]; split;
     [|exists []; rewrite app_nil_r; repeat split; intros; try contradiction; reflexivity]); intros _.
  - split; [intros _; split; [|exact Hr]|auto]. apply Hb. exists n, r, v, x. auto.
  - split; [intros (K & _); discriminate K|]. intros (K & _). apply Hb in K. destruct K as (n' & r' & v' & x' & K & K').
    congruence.
  - split; [intros (K & _); discriminate K|]. intros (K & _). apply Hb in K. destruct K as (n' & r' & v' & x' & K & K').
    congruence.
Qed.

Lemma v_shell : forall e id rest q, verdict e id (ascii "shell") rest q (h_shell e id q).
Proof.
  intros e id rest q.
  assert (Hb : body e (ascii "shell") rest) by constructor.
  assert (Hu : ~ unanswered e (ascii "shell")) by no_unanswered.
  unfold h_shell, verdict. cbv zeta. destruct (cb_shell e) as [f|] eqn:Ef.
  - split; [reflexivity|]. split; [split; [discriminate|intros; contradiction]|]. split.
    + intros _. split.
      * intros (_ & K). split; [exact Hb|]. intros H. inv_ty H. congruence.
      * intros (_ & K). split; [reflexivity|]. destruct (f id) eqn:Ff; [|reflexivity].
        exfalso. apply K. econstructor; eassumption.
    + exists [CShell id]. split; [reflexivity|]. split; [intros _ _; econstructor; eassumption|]. split.
      * intros _ K. exfalso. apply K. left. split; [reflexivity|congruence].
      * intros K. contradiction.
  - split; [reflexivity|]. split; [split; [discriminate|intros; contradiction]|]. split.
    + intros _. split; [|auto]. intros _. split; [exact Hb|]. intros H. inv_ty H. congruence.
    + exists []. rewrite app_nil_r. split; [reflexivity|]. split.
      * intros _ [(_ & K)|[(E & _)|[(E & _)|([E|E] & _)]]]; names. congruence.
      * split; intros; reflexivity.
Qed.

Lemma v_exec : forall e id rest q, verdict e id (ascii "exec") rest q
  (h_cmd (cb_exec e) CExec SESSION_EXEC id rest q).
Proof.
  intros e id rest q.
  assert (Hb : body e (ascii "exec") rest <-> exists s x, p_str rest = Some (s, x)).
  { split.
    - intros H. inv_ty H. exists c, x. apply p_str_app. assumption.
    - intros (s & x & E). destruct (p_str_some _ _ _ E) as (b & Hs & ->). econstructor; eassumption. }
  assert (Hu : ~ unanswered e (ascii "exec")) by no_unanswered.
  unfold h_cmd, verdict. cbv zeta. destruct (p_str rest) as [(s, x)|] eqn:A.
  - assert (B : body e (ascii "exec") rest) by (apply Hb; eauto).
    destruct (cb_exec e) as [f|] eqn:Ef.
    + split; [reflexivity|]. split; [split; [discriminate|intros; contradiction]|].
      cbn [q_cmd q_set_cmd q_set_type]. rewrite N.eqb_refl. split.
      * intros _. split.
        -- intros (_ & K). split; [exact B|]. intros H. inv_ty H. fwd_parse. congruence.
        -- intros (_ & K). split; [reflexivity|]. destruct (f id (Some s)) eqn:Ff; [|reflexivity].
           exfalso. apply K. destruct (p_str_some _ _ _ A) as (b & Hs & ->). econstructor; eassumption.
      * exists [CExec id (Some s)]. split; [reflexivity|]. split.
        { intros _ _. destruct (p_str_some _ _ _ A) as (b & Hs & ->). econstructor; eassumption. }
        split; [|intros K; contradiction].
        intros _ K. exfalso. apply K. right. left. split; [reflexivity|congruence].
    + split; [reflexivity|]. split; [split; [discriminate|intros; contradiction]|]. split.
      * intros _. split; [|auto]. intros _. split; [exact B|]. intros H. inv_ty H. congruence.
      * exists []. rewrite app_nil_r. split; [reflexivity|]. split.
        -- intros _ [(E & _)|[(_ & K)|[(E & _)|([E|E] & _)]]]; names. congruence.
        -- split; intros; reflexivity.
  - assert (B : ~ body e (ascii "exec") rest).
    { intros K. apply Hb in K. destruct K as (s & x & K). congruence. }
    destruct (cb_exec e) as [f|] eqn:Ef.
    + split; [reflexivity|]. split; [split; [discriminate|intros; contradiction]|]. split.
      * intros _. split; [intros (K & _); discriminate K|tauto].
      * exists [CExec id (q_cmd q id)]. split; [reflexivity|]. split; [tauto|]. split; [tauto|].
        intros _ K. exfalso. apply K. reflexivity.
    + split; [reflexivity|]. split; [split; [discriminate|intros; contradiction]|]. split.
      * intros _. split; [intros (K & _); discriminate K|tauto].
      * exists []. rewrite app_nil_r. split; [reflexivity|]. split; [tauto|]. split; intros; reflexivity.
Qed.

Lemma v_subsys : forall e id rest q, verdict e id (ascii "subsystem") rest q
  (h_cmd (cb_subsys e) CSubsys SESSION_SUBSYSTEM id rest q).
Proof.
  intros e id rest q.
  assert (Hb : body e (ascii "subsystem") rest <-> exists s x, p_str rest = Some (s, x)).
  { split.
    - intros H. inv_ty H. exists c, x. apply p_str_app. assumption.
    - intros (s & x & E). destruct (p_str_some _ _ _ E) as (b & Hs & ->). econstructor; eassumption. }
  assert (Hu : ~ unanswered e (ascii "subsystem")) by no_unanswered.
  unfold h_cmd, verdict. cbv zeta. destruct (p_str rest) as [(s, x)|] eqn:A.
  - assert (B : body e (ascii "subsystem") rest) by (apply Hb; eauto).
    destruct (cb_subsys e) as [f|] eqn:Ef.
    + split; [reflexivity|]. split; [split; [discriminate|intros; contradiction]|].
      cbn [q_cmd q_set_cmd q_set_type]. rewrite N.eqb_refl. split.
      * intros _. split.
        -- intros (_ & K). split; [exact B|]. intros H. inv_ty H. fwd_parse. congruence.
        -- intros (_ & K). split; [reflexivity|]. destruct (f id (Some s)) eqn:Ff; [|reflexivity].
           exfalso. apply K. destruct (p_str_some _ _ _ A) as (b & Hs & ->). econstructor; eassumption.
      * exists [CSubsys id (Some s)]. split; [reflexivity|]. split.
        { intros _ _. destruct (p_str_some _ _ _ A) as (b & Hs & ->). econstructor; eassumption. }
        split; [|intros K; contradiction].
        intros _ K. exfalso. apply K. right. right. left. split; [reflexivity|congruence].
    + split; [reflexivity|]. split; [split; [discriminate|intros; contradiction]|]. split.
      * intros _. split; [|auto]. intros _. split; [exact B|]. intros H. inv_ty H. congruence.
      * exists []. rewrite app_nil_r. split; [reflexivity|]. split.
        -- intros _ [(E & _)|[(E & _)|[(_ & K)|([E|E] & _)]]]; names. congruence.
        -- split; intros; reflexivity.
  - assert (B : ~ body e (ascii "subsystem") rest).
    { intros K. apply Hb in K. destruct K as (s & x & K). congruence. }
    destruct (cb_subsys e) as [f|] eqn:Ef.
    + split; [reflexivity|]. split; [split; [discriminate|intros; contradiction]|]. split.
      * intros _. split; [intros (K & _); discriminate K|tauto].
      * exists [CSubsys id (q_cmd q id)]. split; [reflexivity|]. split; [tauto|]. split; [tauto|].
        intros _ _ K. exfalso. apply K. reflexivity.
    + split; [reflexivity|]. split; [split; [discriminate|intros; contradiction]|]. split.
      * intros _. split; [intros (K & _); discriminate K|tauto].
      * exists []. rewrite app_nil_r. split; [reflexivity|]. split; [tauto|]. split; intros; reflexivity.
Qed.

(* a malformed body of a type whose handler calls nothing then *)
Lemma v_bad : forall e id type rest q q' nr, ~ body e type rest -> q_cs q' = q_cs q -> q_calls q' = q_calls q ->
  (nr = true <-> unanswered e type) -> verdict e id type rest q (BE, false, nr, q').
Proof.
  intros e id type rest q q' nr B Hc Hk Hn. unfold verdict. split; [exact Hc|]. split; [exact Hn|]. split.
  - intros _. split; [intros (K & _); discriminate K|tauto].
  - exists []. rewrite app_nil_r. split; [exact Hk|]. split; [tauto|]. split; intros; reflexivity.
Qed.

Lemma body_pty : forall e rest, b_term e = true -> body e (ascii "pty-req") rest <->
  exists t r1 w r2 h r3 wp r4 hp r5 m x, p_str rest = Some (t, r1) /\ p_u32 r1 = Some (w, r2) /\
    p_u32 r2 = Some (h, r3) /\ p_u32 r3 = Some (wp, r4) /\ p_u32 r4 = Some (hp, r5) /\ p_str r5 = Some (m, x).
Proof.
  intros e rest Ht. split.
  - intros H. inv_ty H. do 12 eexists. fwd_parse. split; [reflexivity|]. fwd_parse. split; [reflexivity|].
    fwd_parse. split; [reflexivity|]. fwd_parse. split; [reflexivity|]. fwd_parse. split; [reflexivity|].
    fwd_parse. reflexivity.
  - intros (t & r1 & w & r2 & h & r3 & wp & r4 & hp & r5 & m & x & A1 & A2 & A3 & A4 & A5 & A6).
    destruct (p_str_some _ _ _ A1) as (b1 & B1 & ->). destruct (p_u32_some _ _ _ A2) as (b2 & B2 & ->).
    destruct (p_u32_some _ _ _ A3) as (b3 & B3 & ->). destruct (p_u32_some _ _ _ A4) as (b4 & B4 & ->).
    destruct (p_u32_some _ _ _ A5) as (b5 & B5 & ->). destruct (p_str_some _ _ _ A6) as (b6 & B6 & ->).
    eapply B_pty; eassumption.
Qed.

Lemma v_pty : forall e id rest q, b_term e = true -> verdict e id (ascii "pty-req") rest q (h_pty e id rest q).
Proof.
  intros e id rest q Ht. pose proof (body_pty e rest Ht) as Hb.
  assert (Hu : ~ unanswered e (ascii "pty-req")) by no_unanswered.
  assert (Hn : false = true <-> unanswered e (ascii "pty-req")) by (split; [discriminate|contradiction]).
  unfold h_pty. cbv zeta.
  destruct (p_str rest) as [(t, r1)|] eqn:A1;
    [|apply v_bad; [|reflexivity|reflexivity|exact Hn]; intros K; apply Hb in K; decompose [ex and] K; congruence].
  destruct (p_u32 r1) as [(w, r2)|] eqn:A2;
    [|apply v_bad; [|reflexivity|reflexivity|exact Hn]; intros K; apply Hb in K; decompose [ex and] K; congruence].
  destruct (p_u32 r2) as [(h, r3)|] eqn:A3;
    [|apply v_bad; [|reflexivity|reflexivity|exact Hn]; intros K; apply Hb in K; decompose [ex and] K; congruence].
  destruct (p_u32 r3) as [(wp, r4)|] eqn:A4;
    [|apply v_bad; [|reflexivity|reflexivity|exact Hn]; intros K; apply Hb in K; decompose [ex and] K; congruence].
  destruct (p_u32 r4) as [(hp, r5)|] eqn:A5;
    [|apply v_bad; [|reflexivity|reflexivity|exact Hn]; intros K; apply Hb in K; decompose [ex and] K; congruence].
  destruct (p_str r5) as [(m, x)|] eqn:A6;
    [|apply v_bad; [|reflexivity|reflexivity|exact Hn]; intros K; apply Hb in K; decompose [ex and] K; congruence].
  assert (B : body e (ascii "pty-req") rest) by (apply Hb; exists t, r1, w, r2, h, r3, wp, r4, hp, r5, m, x; auto 10).
  clear Hb.
  destruct (p_str_some _ _ _ A1) as (b1 & B1 & ->). destruct (p_u32_some _ _ _ A2) as (b2 & B2 & ->).
  destruct (p_u32_some _ _ _ A3) as (b3 & B3 & ->). destruct (p_u32_some _ _ _ A4) as (b4 & B4 & ->).
  destruct (p_u32_some _ _ _ A5) as (b5 & B5 & ->).
  unfold resize_t, verdict. destruct (cb_resize e) as [f|] eqn:Ef.
  - split; [reflexivity|]. split; [exact Hn|]. split.
    + intros _. split.
      * intros (K & _). split; [exact B|]. intros H.
        remember (b1 ++ b2 ++ b3 ++ b4 ++ b5 ++ r5) as rest eqn:Er. inv_ty H.
        rewrite (p_str_app _ _ _ H0) in A1. injection A1 as _ E1.
        rewrite <- E1, (p_u32_app _ _ _ H1) in A2. injection A2 as -> E2.
        rewrite <- E2, (p_u32_app _ _ _ H2) in A3. injection A3 as -> E3.
        rewrite <- E3, (p_u32_app _ _ _ H3) in A4. injection A4 as -> E4.
        rewrite <- E4, (p_u32_app _ _ _ H4) in A5. injection A5 as -> E5.
        assert (f0 = f) by congruence. subst f0. rewrite H5 in K. discriminate K.
      * intros (_ & K). split; [|reflexivity]. destruct (f w h wp hp) eqn:Ff; [reflexivity|].
        exfalso. apply K. eapply R_pty; eassumption.
    + exists [CResize w h wp hp]. split; [reflexivity|]. split; [intros _ _; eapply T_pty; eassumption|].
      split; [|intros K; contradiction].
      intros _ K. exfalso. apply K. right. right. right. split; [left; reflexivity|congruence].
  - split; [reflexivity|]. split; [exact Hn|]. split.
    + intros _. split; [|auto]. intros _. split; [exact B|]. intros H.
      remember (b1 ++ b2 ++ b3 ++ b4 ++ b5 ++ r5) as rest eqn:Er. inv_ty H. congruence.
    + exists []. rewrite app_nil_r. split; [reflexivity|]. split.
      * intros _ [(E & _)|[(E & _)|[(E & _)|(_ & K)]]]; names. congruence.
      * split; intros; reflexivity.
Qed.

Lemma body_win : forall e rest, b_term e = true -> b_shell e = true -> body e (ascii "window-change") rest <->
  exists w r2 h r3 wp r4 hp r5, p_u32 rest = Some (w, r2) /\
    p_u32 r2 = Some (h, r3) /\ p_u32 r3 = Some (wp, r4) /\ p_u32 r4 = Some (hp, r5).
Proof.
  intros e rest Ht Hs. split.
  - intros H. inv_ty H. do 8 eexists. fwd_parse. split; [reflexivity|]. fwd_parse. split; [reflexivity|].
    fwd_parse. split; [reflexivity|]. fwd_parse. reflexivity.
  - intros (w & r2 & h & r3 & wp & r4 & hp & r5 & A2 & A3 & A4 & A5).
    destruct (p_u32_some _ _ _ A2) as (b2 & B2 & ->).
    destruct (p_u32_some _ _ _ A3) as (b3 & B3 & ->). destruct (p_u32_some _ _ _ A4) as (b4 & B4 & ->).
    destruct (p_u32_some _ _ _ A5) as (b5 & B5 & ->). eapply B_window; eassumption.
Qed.

Lemma v_win : forall e id rest q, b_term e = true -> b_shell e = true ->
  verdict e id (ascii "window-change") rest q (h_win e rest q).
Proof.
  intros e id rest q Ht Hs. pose proof (body_win e rest Ht Hs) as Hb.
  assert (Hu : unanswered e (ascii "window-change")) by (left; auto).
  assert (Hn : true = true <-> unanswered e (ascii "window-change")) by tauto.
  unfold h_win.
  destruct (p_u32 rest) as [(w, r2)|] eqn:A2;
    [|apply v_bad; [|reflexivity|reflexivity|exact Hn]; intros K; apply Hb in K; decompose [ex and] K; congruence].
  destruct (p_u32 r2) as [(h, r3)|] eqn:A3;
    [|apply v_bad; [|reflexivity|reflexivity|exact Hn]; intros K; apply Hb in K; decompose [ex and] K; congruence].
  destruct (p_u32 r3) as [(wp, r4)|] eqn:A4;
    [|apply v_bad; [|reflexivity|reflexivity|exact Hn]; intros K; apply Hb in K; decompose [ex and] K; congruence].
  destruct (p_u32 r4) as [(hp, r5)|] eqn:A5;
    [|apply v_bad; [|reflexivity|reflexivity|exact Hn]; intros K; apply Hb in K; decompose [ex and] K; congruence].
  assert (B : body e (ascii "window-change") rest) by (apply Hb; exists w, r2, h, r3, wp, r4, hp, r5; auto 10).
  clear Hb. destruct (p_u32_some _ _ _ A2) as (b2 & B2 & ->).
  destruct (p_u32_some _ _ _ A3) as (b3 & B3 & ->). destruct (p_u32_some _ _ _ A4) as (b4 & B4 & ->).
  destruct (p_u32_some _ _ _ A5) as (b5 & B5 & ->).
  unfold resize_t, verdict. destruct (cb_resize e) as [f|] eqn:Ef.
  - split; [reflexivity|]. split; [exact Hn|]. split; [intros K; contradiction|].
    exists [CResize w h wp hp]. split; [reflexivity|]. split; [intros _ _; eapply T_window; eassumption|].
    split; [|intros K; contradiction].
    intros _ K. exfalso. apply K. right. right. right. split; [right; reflexivity|congruence].
  - split; [reflexivity|]. split; [exact Hn|]. split; [intros K; contradiction|].
    exists []. rewrite app_nil_r. split; [reflexivity|]. split.
    + intros _ [(E & _)|[(E & _)|[(E & _)|(_ & K)]]]; names. congruence.
    + split; intros; reflexivity.
Qed.

Lemma v_quiet : forall e id type rest q ret rej q' nr, q_cs q' = q_cs q -> q_calls q' = q_calls q ->
  ~ has_callback e type \/ ~ body e type rest -> (nr = true <-> unanswered e type) ->
  (~ unanswered e type -> ((ret = WS_SUCCESS /\ rej = false) <-> body e type rest /\ ~ refused e id type rest)) ->
  verdict e id type rest q (ret, rej, nr, q').
Proof.
  intros e id type rest q ret rej q' nr Hc Hk Hh Hn Hv. unfold verdict. split; [exact Hc|]. split; [exact Hn|].
  split; [exact Hv|]. exists []. rewrite app_nil_r. split; [exact Hk|]. split; [tauto|]. split; intros; reflexivity.
Qed.

Lemma no_cb : forall e type, type <> ascii "shell" -> type <> ascii "exec" -> type <> ascii "subsystem" ->
  type <> ascii "pty-req" -> type <> ascii "window-change" -> ~ has_callback e type.
Proof. intros e type A B C D E [(K & _)|[(K & _)|[(K & _)|([K|K] & _)]]]; contradiction. Qed.

Lemma v_status : forall e id rest q, b_term e = true \/ b_shell e = true ->
  verdict e id (ascii "exit-status") rest q (h_status rest q).
Proof.
  intros e id rest q Ht.
  assert (Hu : unanswered e (ascii "exit-status")) by (right; auto).
  assert (Hn : true = true <-> unanswered e (ascii "exit-status")) by tauto.
  assert (Hc : ~ has_callback e (ascii "exit-status")) by (apply no_cb; intros E; names).
  unfold h_status. destruct (p_u32 rest) as [(v, x)|]; apply v_quiet; try reflexivity; auto; intros; contradiction.
Qed.

Lemma v_signal : forall e id rest q, b_term e = true \/ b_shell e = true ->
  verdict e id (ascii "exit-signal") rest q (h_signal rest q).
Proof.
  intros e id rest q Ht.
  assert (Hu : unanswered e (ascii "exit-signal")) by (right; auto).
  assert (Hn : true = true <-> unanswered e (ascii "exit-signal")) by tauto.
  assert (Hc : ~ has_callback e (ascii "exit-signal")) by (apply no_cb; intros E; names).
  unfold h_signal.
  destruct (p_str rest) as [(v1, x1)|]; [|apply v_quiet; try reflexivity; auto; intros; contradiction].
  destruct (p_byte x1) as [(v2, x2)|]; [|apply v_quiet; try reflexivity; auto; intros; contradiction].
  destruct (p_str x2) as [(v3, x3)|]; [|apply v_quiet; try reflexivity; auto; intros; contradiction].
  destruct (p_str x3) as [(v4, x4)|]; apply v_quiet; try reflexivity; auto; intros; contradiction.
Qed.

Lemma v_agent : forall e id rest q q', b_agent e = true -> q_cs q' = q_cs q -> q_calls q' = q_calls q ->
  verdict e id (ascii "auth-agent-req@openssh.com") rest q (WS_SUCCESS, false, false, q').
Proof.
  intros e id rest q q' Ha Hc Hk. apply v_quiet; try assumption.
  - left. apply no_cb; intros E; names.
  - split; [discriminate|]. intros K. exfalso. revert K. no_unanswered.
  - intros _. split; [|auto]. intros _. split; [constructor; exact Ha|]. intros H. inv_ty H.
Qed.

(* a type this build does not serve *)
Lemma v_unknown : forall e id type rest q, ~ body e type rest -> ~ unanswered e type ->
  verdict e id type rest q (WS_SUCCESS, true, false, q).
Proof.
  intros e id type rest q Hb Hu. apply v_quiet; auto.
  - split; [discriminate|contradiction].
  - intros _. split; [intros (_ & K); discriminate K|tauto].
Qed.

Lemma name_env : R_ENV = ascii "env". Proof. vm_compute. reflexivity. Qed.
Lemma name_shell : R_SHELL = ascii "shell". Proof. vm_compute. reflexivity. Qed.
Lemma name_exec : R_EXEC = ascii "exec". Proof. vm_compute. reflexivity. Qed.
Lemma name_subsys : R_SUBSYSTEM = ascii "subsystem". Proof. vm_compute. reflexivity. Qed.
Lemma name_pty : R_PTY = ascii "pty-req". Proof. vm_compute. reflexivity. Qed.
Lemma name_win : R_WINDOW = ascii "window-change". Proof. vm_compute. reflexivity. Qed.
Lemma name_status : R_EXIT_STATUS = ascii "exit-status". Proof. vm_compute. reflexivity. Qed.
Lemma name_signal : R_EXIT_SIGNAL = ascii "exit-signal". Proof. vm_compute. reflexivity. Qed.
Lemma name_agent : R_AGENT = ascii "auth-agent-req@openssh.com". Proof. vm_compute. reflexivity. Qed.

Lemma handle_verdict : forall e id type rest q, verdict e id type rest q (handle_t e id type rest q).
Proof.
  intros e id type rest q. unfold handle_t.
  rewrite name_env, name_shell, name_exec, name_subsys, name_pty, name_win, name_status, name_signal, name_agent.
  destruct (bytes_eqb type (ascii "env")) eqn:E1; [apply bytes_eqb_eq in E1; subst; apply v_env|].
  destruct (bytes_eqb type (ascii "shell")) eqn:E2; [apply bytes_eqb_eq in E2; subst; apply v_shell|].
  destruct (bytes_eqb type (ascii "exec")) eqn:E3; [apply bytes_eqb_eq in E3; subst; apply v_exec|].
  destruct (bytes_eqb type (ascii "subsystem")) eqn:E4; [apply bytes_eqb_eq in E4; subst; apply v_subsys|].
  destruct (b_term e && bytes_eqb type (ascii "pty-req")) eqn:E5.
  { apply andb_true_iff in E5. destruct E5 as (Ht & E5). apply bytes_eqb_eq in E5. subst. apply v_pty. exact Ht. }
  destruct (b_shell e && b_term e && bytes_eqb type (ascii "window-change")) eqn:E6.
  { apply andb_true_iff in E6. destruct E6 as (Ht & E6). apply andb_true_iff in Ht. destruct Ht as (Hs & Ht).
    apply bytes_eqb_eq in E6. subst. apply v_win; assumption. }
  destruct ((b_term e || b_shell e) && bytes_eqb type (ascii "exit-status")) eqn:E7.
  { apply andb_true_iff in E7. destruct E7 as (Ht & E7). apply orb_true_iff in Ht.
    apply bytes_eqb_eq in E7. subst. apply v_status; assumption. }
  destruct ((b_term e || b_shell e) && bytes_eqb type (ascii "exit-signal")) eqn:E8.
  { apply andb_true_iff in E8. destruct E8 as (Ht & E8). apply orb_true_iff in Ht.
    apply bytes_eqb_eq in E8. subst. apply v_signal; assumption. }
  destruct (b_agent e && bytes_eqb type (ascii "auth-agent-req@openssh.com")) eqn:E9.
  { apply andb_true_iff in E9. destruct E9 as (Ha & E9). apply bytes_eqb_eq in E9. subst.
    destruct (cb_agent e); apply v_agent; try assumption; reflexivity. }
  assert (T : forall a, bytes_eqb (ascii a) (ascii a) = true) by (intros a; apply bytes_eqb_refl).
  apply v_unknown.
  - intros H; destruct H;
      [rewrite T in E1|rewrite T in E2|rewrite T in E3|rewrite T in E4|rewrite T, H in E5|rewrite T, H, H0 in E6
      |rewrite T in E7|rewrite T in E8|rewrite T, H in E9]; try discriminate.
    + destruct H as [H|H]; rewrite H in E7; rewrite ?orb_true_r in E7; discriminate.
    + destruct H as [H|H]; rewrite H in E8; rewrite ?orb_true_r in E8; discriminate.
  - intros [(-> & Ht & Hs)|([->| ->] & H)]; [rewrite T, Ht, Hs in E6|rewrite T in E7|rewrite T in E8]; try discriminate.
    + destruct H as [H|H]; rewrite H in E7; rewrite ?orb_true_r in E7; discriminate.
    + destruct H as [H|H]; rewrite H in E8; rewrite ?orb_true_r in E8; discriminate.
Qed.
