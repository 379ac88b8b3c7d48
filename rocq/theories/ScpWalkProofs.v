(* ScpWalkProofs.v - what a sender opens (C64). *)
From Verif Require Import Base WireProofs PathModel PathSpec PathProofs ScpModel ScpSpec ScpSpec2 ScpSrcModel ScpSrcSpec ScpSrcProofs ScpSrcProofs2 ScpSrcProofs3 ScpTreeSpec ScpTreeProofs ScpWalkSpec.
From Coq Require Import List NArith ZArith Bool Lia.
Import ListNotations.
Open Scope N_scope.

(* ------------------------------------------------------------------ *)
(* the context changes by the callback only *)
Definition asks {C} (base : bytes) (rec : bool) (w : source C) : Prop :=
  w_base w = base /\ w_rec w = rec /\ (w_req w = SINGLE_FILE -> rec = false).
Lemma ctx_step : forall (C : Type) (B : callbacks C) (I : C -> Prop) base rec, 
  (forall q c, q_base q = base /\ (q_type q = SINGLE_FILE -> rec = false) \/ q_type q = NEW_REQUEST -> I c -> I (snd (cb_ask B c q))) ->
  (forall c, I c -> I (cb_abort B c)) -> (forall c c', I c -> cb_broken B c = Some c' -> I c') ->
  forall e w w', asks base rec w -> I (w_ctx w) -> came (source_step B e w) w' -> asks base rec w' /\ I (w_ctx w').
Proof.
  intros C B I base rec HA HB HC e w w' Hb Hi H. unfold source_step in H.
  assert (K : forall w w' : source C, asks base rec w /\ I (w_ctx w) -> w' = w -> asks base rec w' /\ I (w_ctx w')) by (intros ? ? ? ->; assumption).
  assert (P : forall (x y : source C), came (Go x) y -> y = x) by (intros x y [Q|Q]; [injection Q; auto|discriminate Q]).
  assert (S : forall (x y : source C), came (Stop x) y -> y = x) by (intros x y [Q|Q]; [discriminate Q|injection Q; auto]).
  assert (U : forall (y : source C), ~ came (Undef) y) by (intros y [Q|Q]; discriminate Q).
  assert (AD : forall x y : source C, asks base rec x /\ I (w_ctx x) -> came (after_data x) y -> asks base rec y /\ I (w_ctx y)).
  { intros x y X Y. unfold after_data in Y. destruct X as ((X1 & X2 & X3) & X4).
    destruct (w_off x <? w_size x); [destruct (w_stall x)|destruct (w_rec x) eqn:Xr];
      (apply P in Y || apply S in Y); subst y; (split; [|exact X4]); (split; [exact X1|split; [cbn; congruence|]]); cbn; congruence || exact X3. }
  assert (SAY : forall m f x y, asks base rec x /\ I (w_ctx x) -> (forall x y, asks base rec x /\ I (w_ctx x) -> came (f x) y -> asks base rec y /\ I (w_ctx y)) ->
    came (say m e f x) y -> asks base rec y /\ I (w_ctx y)).
  { intros m f x y X F Y. unfold say in Y. destruct e; try (apply P in Y; subst y; exact X); try (apply S in Y; subst y; exact X).
    destruct (lenN m <? n); [apply P in Y; subst y; exact X|]. destruct (n =? lenN m); [eapply F; [|exact Y]; exact X|apply S in Y; subst y; exact X]. }
  assert (HEAR : forall s x y, asks base rec x /\ I (w_ctx x) -> came (hear e s x) y -> asks base rec y /\ I (w_ctx y)).
  { intros s x y X Y. unfold hear in Y. destruct e as [d| | | |]; try (apply P in Y; subst y; exact X); try (apply S in Y; subst y; exact X).
    destruct (SCP_MSG_SZ <? lenN d); [apply P in Y; subst y; exact X|]. destruct (chr d 0 =? 0); [apply P in Y|apply S in Y]; subst y; exact X. }
  assert (W0 : asks base rec w /\ I (w_ctx w)) by (split; assumption).
  assert (SC : forall f y, (forall x y, asks base rec x /\ I (w_ctx x) -> came (f x) y -> asks base rec y /\ I (w_ctx y)) ->
     came (say_confirm e f w) y -> asks base rec y /\ I (w_ctx y)).
  { intros f y F Y. unfold say_confirm in Y. eapply SAY; [exact W0| |exact Y]. intros x z X Z. cbv beta in Z. destruct (w_conf x); [eapply F; [|exact Z]; exact X|apply S in Z; subst z; exact X]. }
  destruct (w_st w) eqn:Sw; try (eapply HEAR; [exact W0|exact H]);
    try (eapply SAY; [exact W0| |exact H]; intros x y X Y; apply P in Y; subst y; exact X);
    try (eapply SC; [|exact H]; intros x y X Y; apply P in Y; subst y; exact X).
  - (* SOURCE_BEGIN *)
    destruct (cb_ask B (w_ctx w) (mkReq NEW_REQUEST [] 0 0 [] 0 0 0 0)) as [a c] eqn:Ea.
    assert (Ic : I c). { pose proof (HA (mkReq NEW_REQUEST [] 0 0 [] 0 0 0 0) (w_ctx w) (or_intror eq_refl) Hi) as X. rewrite Ea in X. exact X. }
    destruct (a_ret a); apply P in H; subst w'; exact (conj Hb Ic).
  - apply P in H. subst w'. exact W0.
  - (* TRANSFER *)
    destruct (cb_ask B (w_ctx w) (ask w (w_req w))) as [a c] eqn:Ea.
    assert (Ic : I c). { pose proof (HA (ask w (w_req w)) (w_ctx w) (or_introl (conj (proj1 Hb) (proj2 (proj2 Hb)))) Hi) as X. rewrite Ea in X. exact X. }
    destruct (a_ret a); (apply P in H || apply S in H); subst w'; try exact (conj Hb Ic). split; [exact Hb|]. apply (HB c). exact Ic.
  - (* SEND_FILE *)
    destruct (w_buf w) as [|x b]; [eapply AD; [exact W0|exact H]|].
    destruct e as [d| |n| |]; try (apply P in H; subst w'; exact W0);
      try (destruct (cb_broken B (w_ctx w)) as [c'|] eqn:Eb; [apply S in H; subst w'; split; [exact Hb|exact (HC _ _ Hi Eb)]|exfalso; exact (U _ H)]).
    destruct (lenN (x :: b) <? n); [apply P in H; subst w'; exact W0|]. cbv zeta in H.
    destruct (0 <? n); cbn [to_stall to_data w_buf] in H.
    all: destruct (dropN n (x :: b)); [eapply AD; [|exact H]; exact W0|apply P in H; subst w'; exact W0].
  - apply P in H. subst w'. exact W0.
Qed.

Lemma ctx_run : forall (C : Type) (B : callbacks C) (I : C -> Prop) base rec, 
  (forall q c, q_base q = base /\ (q_type q = SINGLE_FILE -> rec = false) \/ q_type q = NEW_REQUEST -> I c -> I (snd (cb_ask B c q))) ->
  (forall c, I c -> I (cb_abort B c)) -> (forall c c', I c -> cb_broken B c = Some c' -> I c') ->
  forall es w w', asks base rec w -> I (w_ctx w) -> came (source_run B es w) w' -> I (w_ctx w').
Proof.
  intros C B I base rec HA HB HC. induction es as [|e es IH]; intros w w' Hb Hi H; cbn [source_run] in H.
  - destruct H as [H|H]; [injection H as <-; exact Hi|discriminate H].
  - destruct (source_step B e w) as [x|x|] eqn:Es.
    + destruct (ctx_step C B I base rec HA HB HC e w x Hb Hi (or_introl Es)) as [A1 A2]. exact (IH x w' A1 A2 H).
    + destruct H as [H|H]; [discriminate H|]. injection H as <-. apply (ctx_step C B I base rec HA HB HC e w x Hb Hi (or_intror Es)).
    + destruct H as [H|H]; discriminate H.
Qed.

(* ------------------------------------------------------------------ *)
Section Walk.
Variables (E : csys) (base : bytes) (rec : bool).
Hypothesis HB : base <> [].
Hypothesis HS : lists_names E.
Hypothesis HK : lists_no_backslash E.

Lemma listed_more : forall l y d n, listed l d n -> listed (y :: l) d n.
Proof. intros l y d n (r & A & B). exists r. split; [right; exact A|exact B]. Qed.
Lemma checked_more : forall l y p, checked l p -> checked (y :: l) p.
Proof. intros l y p (r & A & B). exists r. split; [right; exact A|exact B]. Qed.

(* the names to come from a directory *)
Definition to_come (l : clog) (d : bytes) (ns : list bytes) : Prop :=
  forall n, In n ns -> ~ In 47 n /\ ~ In 92 n /\ (not_dots n = true -> listed l d n).
Inductive stk (l : clog) : list (Z * list bytes) -> list bytes -> Prop :=
| stk_nil : stk l [] []
| stk_base h ns : to_come l base ns -> stk l [(h, ns)] [base]
| stk_more h ns ds p n ps : stk l ds (p :: ps) -> p <> [] -> ~ In 47 n -> ~ In 92 n -> to_come l (p ++ [47] ++ n) ns ->
    stk l ((h, ns) :: ds) ((p ++ [47] ++ n) :: p :: ps).
Lemma stk_ne : forall l ds p ps, stk l ds (p :: ps) -> p <> [].
Proof. intros l ds p ps S. inversion S; subst; [exact HB|]. destruct p0; discriminate. Qed.
Lemma stk_log : forall l y ds ps, stk l ds ps -> stk (y :: l) ds ps.
Proof.
  intros l y ds ps S. induction S; constructor; auto; intros m Hm.
  - destruct (H m Hm) as (A & B & C). split; [exact A|]. split; [exact B|]. intros N. apply listed_more, C, N.
  - destruct (H2 m Hm) as (A & B & C). split; [exact A|]. split; [exact B|]. intros N. apply listed_more, C, N.
Qed.

Definition W (c : sctx) : Prop := careful rec base (c_log c) /\ exists ps, stk (c_log c) (c_dirs c) ps /\
  match ps with [] => True | p :: _ => c_dir c = p end.

Lemma sysc_eq : forall x c r c', sysc E x c = (r, c') -> c' = mkCtx (c_fp c) (c_dirs c) (c_dir c) (c_kind c) ((x, r) :: c_log c).
Proof. intros x c r c' H. unfold sysc in H. injection H as <- <-. reflexivity. Qed.
Definition silent (x : wcall) : Prop := touches x = None.
Lemma W_call : forall x r f k c, W c -> silent x -> W (mkCtx f (c_dirs c) (c_dir c) k ((x, r) :: c_log c)).
Proof.
  intros x r f k c (A & ps & S & D) N. split.
  - cbn [c_log]. constructor; [exact A|]. intros p T. unfold silent in N. congruence.
  - exists ps. cbn [c_log c_dirs c_dir]. split; [apply stk_log; exact S|exact D].
Qed.
Lemma W_touch : forall x r f k c p, W c -> touches x = Some p ->
  (p = base /\ (rec = true -> exists root, root_of base root /\ checked (c_log c) root)) \/
  (exists d n, p = d ++ [47] ++ n /\ listed (c_log c) d n /\ checked (c_log c) p) ->
  W (mkCtx f (c_dirs c) (c_dir c) k ((x, r) :: c_log c)).
Proof.
  intros x r f k c p (A & ps & S & D) T H. split.
  - cbn [c_log]. constructor; [exact A|]. intros q Tq. assert (q = p) by congruence. subst q. exact H.
  - exists ps. cbn [c_log c_dirs c_dir]. split; [apply stk_log; exact S|exact D].
Qed.
Lemma W_fp : forall f k c, W c -> W (mkCtx f (c_dirs c) (c_dir c) k (c_log c)).
Proof. intros f k c H. exact H. Qed.
Lemma W_shut : forall c, W c -> W (shut_file E c).
Proof. intros c H. unfold shut_file. destruct (c_fp c) as [h|]; [|exact H]. exact (W_call (CClose h) _ None (c_kind c) c H eq_refl). Qed.
Lemma W_read : forall h n c d c', W c -> read_file E h n c = (d, c') -> W c'.
Proof. intros h n c d c' H R. unfold read_file in R. cbn in R. injection R as _ <-. exact (W_call (CRead h n) _ (c_fp c) (c_kind c) c H eq_refl). Qed.

Lemma W_pop : forall c, W c -> W (snd (PopDir E c)).
Proof.
  intros c (A & ps & S & D). unfold PopDir. inversion S as [Q1|h ns T Q1 Q2|h ns ds p n ps' S' Np Nn Nb T Q1 Q2]; cbn; clear S.
  - (* empty *) rewrite <- Q1. split; [exact A|]. exists []. cbn. split; [constructor|exact I].
  - split; [cbn; constructor; [exact A|intros x X; discriminate X]|]. exists []. cbn. split; [constructor|exact I].
  - subst ps. cbn in *. split; [cbn; constructor; [exact A|intros x X; discriminate X]|]. exists (p :: ps'). cbn.
    split; [apply stk_log; exact S'|]. rewrite D.
    change (p ++ 47 :: n) with (p ++ [47] ++ n). rewrite (last_sep_slash p n 0 None (no_sep n Nn Nb)).
    assert (0 < lenN p) by (destruct p; [congruence|rewrite lenN_cons; lia]).
    replace (0 + lenN p) with (lenN p) by lia. destruct (N.eqb_spec (lenN p) 0); [lia|]. apply takeN_app_exact. reflexivity.
Qed.
Lemma W_free : forall k c, W c -> W (FreeDirs k E c).
Proof. induction k as [|k IH]; intros c H; [exact H|]. cbn [FreeDirs]. destruct (c_dirs c); [exact H|]. apply IH, W_pop, H. Qed.

Lemma names_come : forall l p r, r = E l (COpendir p) -> (0 <= r_num r)%Z -> to_come ((COpendir p, r) :: l) p (r_names r).
Proof.
  intros l p r -> N n Hn. split; [apply (HS l p n Hn)|]. split; [apply (HK l p n Hn)|]. intros Q. exists (E l (COpendir p)).
  split; [left; reflexivity|]. split; [exact N|]. split; [exact Hn|]. unfold not_dots in Q.
  destruct (list_eq_dec N.eq_dec n dot); [discriminate Q|]. destruct (list_eq_dec N.eq_dec n dotdot); [discriminate Q|]. auto.
Qed.

(* entering the root *)
Lemma W_push_root : forall c ok c', W c -> c_dirs c = [] -> (rec = true -> exists root, root_of base root /\ checked (c_log c) root) ->
  PushDir E base c = (ok, c') -> W c'.
Proof.
  intros c ok c' (A & ps & S & D) De R P. unfold PushDir in P. destruct (SCP_MSG_SZ <=? lenN base); [injection P as _ <-; exact (conj A (ex_intro _ ps (conj S D)))|].
  cbn in P. assert (A' : careful rec base ((COpendir base, E (c_log c) (COpendir base)) :: c_log c)).
  { constructor; [exact A|]. intros p T. injection T as <-. left. split; [reflexivity|exact R]. }
  destruct (r_num (E (c_log c) (COpendir base)) <? 0)%Z eqn:Q; injection P as _ <-.
  - split; [exact A'|]. exists ps. split; [apply stk_log; exact S|exact D].
  - split; [exact A'|]. exists [base]. cbn. rewrite De. split; [|reflexivity]. apply stk_base. apply names_come; [reflexivity|]. apply Z.ltb_ge in Q. exact Q.
Qed.
Lemma W_push : forall c ok c' d n ps, careful rec base (c_log c) -> stk (c_log c) (c_dirs c) (d :: ps) -> c_dir c = d -> ~ In 47 n -> ~ In 92 n ->
  listed (c_log c) d n -> checked (c_log c) (d ++ [47] ++ n) ->
  PushDir E (d ++ [47] ++ n) c = (ok, c') -> W c'.
Proof.
  intros c ok c' d n ps A S D Nn Nb L K P. unfold PushDir in P. destruct (SCP_MSG_SZ <=? lenN (d ++ [47] ++ n)).
  { injection P as _ <-. split; [exact A|]. exists (d :: ps). split; assumption. }
  cbn beta iota zeta delta [sysc] in P. cbn [c_log c_dirs] in P. assert (A' : careful rec base ((COpendir (d ++ [47] ++ n), E (c_log c) (COpendir (d ++ [47] ++ n))) :: c_log c)).
  { constructor; [exact A|]. intros p T. injection T as <-. right. exists d, n. auto. }
  destruct (Z.ltb (r_num (E (c_log c) (COpendir (d ++ [47] ++ n)))) 0%Z) eqn:Q; injection P as _ <-.
  - split; [exact A'|]. exists (d :: ps). split; [apply stk_log; exact S|exact D].
  - split; [exact A'|]. exists ((d ++ [47] ++ n) :: d :: ps). cbn [with_dirs c_dirs c_log c_dir]. split; [|reflexivity].
    apply stk_more with (ps := ps); [apply stk_log; exact S|exact (stk_ne _ _ _ _ S)|exact Nn|exact Nb|]. apply names_come; [reflexivity|]. apply Z.ltb_ge in Q. exact Q.
Qed.

Lemma next_in : forall l n l', next_name l = (Some n, l') -> In n l /\ not_dots n = true /\ (forall x, In x l' -> In x l).
Proof.
  induction l as [|a l IH]; intros n l' H; [discriminate H|]. cbn [next_name] in H. rewrite dots_not_dots in H. destruct (not_dots a) eqn:Q; cbn [negb] in H.
  - injection H as <- <-. split; [left; reflexivity|]. split; [exact Q|]. intros x X. right. exact X.
  - destruct (IH _ _ H) as (X1 & X2 & X3). split; [right; exact X1|]. split; [exact X2|]. intros x X. right. apply X3, X.
Qed.
Lemma next_tail : forall l n l', next_name l = (n, l') -> (forall x, In x l' -> In x l).
Proof.
  induction l as [|a l IH]; intros n l' H x X; [injection H as _ <-; exact X|]. cbn [next_name] in H. destruct (is_dots a); [right; eapply IH; eauto|].
  injection H as _ <-. right. exact X.
Qed.

Lemma W_next : forall c n c', W c -> NextEntry c = (n, c') ->
  careful rec base (c_log c') /\ exists ps, stk (c_log c') (c_dirs c') ps /\ match ps with [] => n = None | p :: _ => c_dir c' = p /\
    match n with Some n => ~ In 47 n /\ ~ In 92 n /\ listed (c_log c') p n | None => True end end.
Proof.
  intros c n c' (A & ps & S & D) H. unfold NextEntry in H. inversion S as [Q1 Q2|h ns T Q1 Q2|h ns ds p m ps' S' Np Nn Nb T Q1 Q2]; clear S; rewrite <- Q1 in H.
  - injection H as <- <-. split; [exact A|]. exists []. rewrite <- Q1. split; [constructor|reflexivity].
  - destruct (next_name ns) as [k l'] eqn:Nx. injection H as <- <-. split; [exact A|]. exists [base]. cbn [with_dirs c_dirs c_log c_dir]. subst ps.
    split; [apply stk_base; intros x X; apply T; eapply next_tail; eauto|]. split; [exact D|]. destruct k as [k|]; [|exact I].
    destruct (next_in _ _ _ Nx) as (X1 & X2 & _). destruct (T k X1) as (Y1 & Y2 & Y3). auto.
  - destruct (next_name ns) as [k l'] eqn:Nx. injection H as <- <-. split; [exact A|]. subst ps. exists ((p ++ [47] ++ m) :: p :: ps'). cbn [with_dirs c_dirs c_log c_dir].
    split; [apply stk_more; auto; intros x X; apply T; eapply next_tail; eauto|]. split; [exact D|]. destruct k as [k|]; [|exact I].
    destruct (next_in _ _ _ Nx) as (X1 & X2 & _). destruct (T k X1) as (Y1 & Y2 & Y3). auto.
Qed.

Lemma W_entry : forall n q c d ps, careful rec base (c_log c) -> stk (c_log c) (c_dirs c) (d :: ps) -> c_dir c = d -> ~ In 47 n -> ~ In 92 n -> listed (c_log c) d n ->
  W (snd (process_entry E n q c)).
Proof.
  intros n q c d ps A S D Nn Nb L. assert (W0 : W c) by (split; [exact A|exists (d :: ps); auto]).
  unfold process_entry. destruct (SCP_MSG_SZ <=? lenN (c_dir c) + 1 + lenN n); [exact W0|]. rewrite D. change SLASH with 47. set (p := d ++ [47] ++ n).
  destruct (sysc E (CLink p) c) as [r1 c1] eqn:S1. apply sysc_eq in S1.
  assert (W1 : W c1) by (rewrite S1; apply W_call; [exact W0|reflexivity]).
  destruct (Z.eqb_spec (r_num r1) 0) as [Q1|Q1]; cbn [negb]; [|exact W1].
  assert (K1 : checked (c_log c1) p) by (rewrite S1; exists r1; split; [left; reflexivity|exact Q1]).
  assert (L1 : listed (c_log c1) d n) by (rewrite S1; apply listed_more; exact L).
  unfold GetFileStats. destruct (sysc E (CLstat p) c1) as [r2 c2] eqn:S2. apply sysc_eq in S2.
  assert (W2 : W c2) by (rewrite S2; apply (W_touch _ _ _ _ _ p); [exact W1|reflexivity|right; exists d, n; auto]).
  destruct (Z.ltb (r_num r2) 0%Z); cbn [negb]; [exact W2|]. cbn [c_kind with_kind].
  set (c3 := with_kind (r_kind r2) c2). assert (W3 : W c3) by exact W2.
  assert (K3 : checked (c_log c3) p) by (unfold c3; rewrite S2; apply checked_more; exact K1). assert (L3 : listed (c_log c3) d n) by (unfold c3; rewrite S2; apply listed_more; exact L1).
  assert (S3 : stk (c_log c3) (c_dirs c3) (d :: ps)) by (unfold c3; rewrite S2, S1; apply stk_log, stk_log; exact S).
  assert (D3 : c_dir c3 = d) by (unfold c3; rewrite S2, S1; exact D).
  destruct (r_kind r2).
  - destruct (PushDir E p c3) as [ok c4] eqn:P. cbn [snd]. eapply (W_push c3 ok c4 d n ps); try eassumption. apply W3.
  - destruct (sysc E (CFopen p) c3) as [r4 c4] eqn:S4.
    assert (W4 : W c4) by (apply sysc_eq in S4; rewrite S4; apply (W_touch _ _ _ _ _ p); [exact W3|reflexivity|right; exists d, n; auto]).
    destruct (Z.ltb (r_num r4) 0%Z); [exact W4|]. assert (W5 : W (with_fp (Some (r_num r4)) c4)) by exact W4.
    destruct (sysc E (CSize (r_num r4)) (with_fp (Some (r_num r4)) c4)) as [r6 c6] eqn:S6.
    assert (W6 : W c6) by (apply sysc_eq in S6; rewrite S6; apply W_call; [exact W5|reflexivity]).
    destruct (Z.ltb (r_num r6) 0%Z); [cbn [snd]; apply W_shut; exact W6|].
    match goal with |- context [read_file E ?h ?m ?c] => destruct (read_file E h m c) as [b c7] eqn:R end.
    pose proof (W_read _ _ _ _ _ W6 R) as W7. cbn [snd]. match goal with |- context [if ?b then _ else _] => destruct b end; [apply W_shut|]; exact W7.
  - exact W3.
Qed.

Lemma trim_root : forall k p, exists s, p = trim_sep k p ++ s /\ Forall (fun c => c = 47 \/ c = 92) s.
Proof.
  induction k as [|k IH]; intros p; cbn [trim_sep]; [exists []; rewrite app_nil_r; auto|].
  destruct (1 <? lenN p) eqn:Q; cbn [andb]; [|exists []; rewrite app_nil_r; auto].
  destruct (is_sep (chr p (lenN p - 1))) eqn:Q2; [|exists []; rewrite app_nil_r; auto].
  destruct (IH (takeN (lenN p - 1) p)) as (s & A & B). exists (s ++ dropN (lenN p - 1) p). split.
  - rewrite app_assoc, <- A. symmetry. apply takeN_dropN.
  - apply Forall_app. split; [exact B|]. destruct p as [|x p] using rev_ind; [discriminate Q|]. rewrite lenN_app in *. change (lenN [x]) with 1 in *.
    replace (lenN p + 1 - 1) with (lenN p) in * by lia. rewrite dropN_len_app. constructor; [|constructor].
    unfold chr in Q2. assert (X : nth (N.to_nat (lenN p)) (p ++ [x]) 0 = x) by (unfold lenN; rewrite Nat2N.id, app_nth2, Nat.sub_diag by lia; reflexivity).
    rewrite X in Q2. unfold is_sep, SLASH, BSLASH in Q2. apply orb_true_iff in Q2. rewrite !N.eqb_eq in Q2. exact Q2.
Qed.
Lemma trim_end : forall k p, (List.length p <= k)%nat -> lenN (trim_sep k p) <= 1 \/ exists a c, trim_sep k p = a ++ [c] /\ c <> 47 /\ c <> 92.
Proof.
  induction k as [|k IH]; intros p L; cbn [trim_sep].
  - destruct p; [|cbn in L; lia]. left. vm_compute. discriminate.
  - destruct (N.ltb_spec 1 (lenN p)) as [Q|Q]; cbn [andb]; [|left; lia].
    destruct (is_sep (chr p (lenN p - 1))) eqn:Q2.
    + apply IH. unfold takeN, lenN in *. rewrite firstn_length. lia.
    + right. destruct p as [|x p] using rev_ind; [change (lenN (@nil N)) with 0 in Q; lia|]. exists p, x. split; [reflexivity|].
      rewrite lenN_app in Q2. change (lenN [x]) with 1 in Q2. replace (lenN p + 1 - 1) with (lenN p) in Q2 by lia.
      assert (X : nth (N.to_nat (lenN p)) (p ++ [x]) 0 = x) by (unfold lenN; rewrite Nat2N.id, app_nth2, Nat.sub_diag by lia; reflexivity).
      unfold chr in Q2. rewrite X in Q2. unfold is_sep, SLASH, BSLASH in Q2. apply orb_false_iff in Q2. rewrite !N.eqb_neq in Q2. exact Q2.
Qed.
Lemma trim_root_of : forall p, root_of p (trim_sep (List.length p) p).
Proof.
  intros p. destruct (trim_root (List.length p) p) as (s & A & B). exists s. split; [exact A|]. split; [exact B|]. apply trim_end. lia.
Qed.

Lemma W_recursive : forall q c, q_base q = base -> W c -> W (snd (recursive E q c)).
Proof.
  intros q c Hq W0. unfold recursive. destruct (c_dirs c) as [|e0 ds0] eqn:De.
  - rewrite Hq. destruct (SCP_MSG_SZ <=? lenN (trim_sep (List.length base) base)); [exact W0|]. set (root := trim_sep (List.length base) base).
    cbn beta iota zeta delta [sysc]. pose (r1 := E (c_log c) (CLink root)). fold r1.
    set (c1 := mkCtx (c_fp c) (c_dirs c) (c_dir c) (c_kind c) ((CLink root, r1) :: c_log c)).
    assert (W1 : W c1) by (apply W_call; [exact W0|reflexivity]).
    destruct (Z.eqb_spec (r_num r1) 0) as [Q1|Q1]; cbn [negb]; [|exact W1].
    assert (K1 : rec = true -> exists r, root_of base r /\ checked (c_log c1) r).
    { intros _. exists root. split; [apply trim_root_of|]. exists r1. split; [left; reflexivity|exact Q1]. }
    destruct (PushDir E base c1) as [ok c2] eqn:P. assert (W2 : W c2) by (eapply W_push_root; eauto).
    destruct ok; cbn [negb]; [|exact W2]. destruct (ExtractFileName base SCP_MSG_SZ) as [n|]; [|exact W2].
    unfold GetFileStats. cbn [named q_base]. rewrite Hq.
    assert (K2 : rec = true -> exists r, root_of base r /\ checked (c_log c2) r).
    { intros Hr. destruct (K1 Hr) as (r & X1 & X2). exists r. split; [exact X1|]. unfold PushDir in P. destruct (SCP_MSG_SZ <=? lenN base); [discriminate P|].
      destruct (sysc E (COpendir base) c1) as [r2 c1'] eqn:S2. apply sysc_eq in S2.
      destruct (Z.ltb (r_num r2) 0%Z); [discriminate P|]. injection P as <-. rewrite S2. apply checked_more. exact X2. }
    destruct (sysc E (CLstat base) c2) as [r3 c3] eqn:S3. apply sysc_eq in S3.
    destruct (Z.ltb (r_num r3) 0%Z); cbn [snd]; rewrite S3; (apply (W_touch _ _ _ _ c2 base); [exact W2|reflexivity|left; auto]).
  - destruct (NextEntry c) as [n c1] eqn:Nx. destruct (W_next _ _ _ W0 Nx) as (A & ps & S & D).
    destruct n as [n|].
    + destruct ps as [|p ps]; [discriminate D|]. destruct D as (D1 & D2 & D3 & D4). exact (W_entry n q c1 p ps A S D1 D2 D3 D4).
    + assert (W1 : W c1) by (split; [exact A|]; exists ps; split; [exact S|]; destruct ps; [exact I|apply D]).
      pose proof (W_pop c1 W1) as X. destruct (PopDir E c1) as [more c2]. exact X.
Qed.

Lemma W_single : forall q c, rec = false -> q_base q = base -> W c -> W (snd (single_file E q c)).
Proof.
  intros q c Hr Hq W0. unfold single_file. rewrite Hq.
  assert (HN : forall l, rec = true -> exists root, root_of base root /\ checked l root) by (intros l Q; congruence).
  destruct (sysc E (CFopen base) c) as [r1 c1] eqn:S1. apply sysc_eq in S1.
  assert (W1 : W c1) by (rewrite S1; apply (W_touch _ _ _ _ _ base); [exact W0|reflexivity|left; auto]).
  destruct (Z.ltb (r_num r1) 0%Z); [exact W1|]. cbv zeta. set (c2 := with_fp (Some (r_num r1)) c1). assert (W2 : W c2) by exact W1.
  destruct (sysc E (CSize (r_num r1)) c2) as [r3 c3] eqn:S3. apply sysc_eq in S3.
  assert (W3 : W c3) by (rewrite S3; apply W_call; [exact W2|reflexivity]).
  destruct (Z.ltb (r_num r3) 0%Z); [cbn [snd]; apply W_shut; exact W3|]. unfold GetFileStats. cbn [sized q_base]. rewrite Hq.
  destruct (sysc E (CLstat base) c3) as [r4 c4] eqn:S4. apply sysc_eq in S4.
  assert (W4 : W c4) by (rewrite S4; apply (W_touch _ _ _ _ _ base); [exact W3|reflexivity|left; auto]).
  destruct (Z.ltb (r_num r4) 0%Z); cbn [negb]; [cbn [snd]; apply W_shut; exact W4|].
  set (c5 := with_kind (r_kind r4) c4). assert (W5 : W c5) by exact W4. cbn [statted q_base].
  match goal with |- context [ExtractFileName ?x ?y] => destruct (ExtractFileName x y) as [n|] end; [|cbn [snd]; apply W_shut; exact W5].
  match goal with |- context [if ?b then _ else _] => destruct b end; [cbn [snd]; apply W_shut; exact W5|].
  match goal with |- context [read_file E ?h ?m ?c] => destruct (read_file E h m c) as [b c7] eqn:R end.
  pose proof (W_read _ _ _ _ _ W5 R) as W7. destruct b; [cbn [snd]; apply W_shut; exact W7|]. cbn [snd].
  match goal with |- context [if ?b then _ else _] => destruct b end; [apply W_shut|]; exact W7.
Qed.
Lemma W_continue : forall q c, W c -> W (snd (continue_file E q c)).
Proof.
  intros q c W0. unfold continue_file. destruct (c_fp c) as [h|]; [|exact W0].
  match goal with |- context [read_file E ?h ?m ?c] => destruct (read_file E h m c) as [b c7] eqn:R end.
  pose proof (W_read _ _ _ _ _ W0 R) as W7. destruct b; [cbn [snd]; apply W_shut; exact W7|]. cbn [snd].
  match goal with |- context [if ?b then _ else _] => destruct b end; [apply W_shut|]; exact W7.
Qed.

Theorem walk_careful : forall ts es w, came (source_run (wsScpSend E) es (source0 base rec ts ctx0)) w -> careful rec base (c_log (w_ctx w)).
Proof.
  intros ts es w H.
  assert (X : W (w_ctx w)).
  { apply (ctx_run sctx (wsScpSend E) W base rec) with (es := es) (w := source0 base rec ts ctx0); [| | | | |exact H].
    - intros q c Hq Wc. cbn [wsScpSend cb_ask]. destruct Hq as [[Hq Hs]|Hq].
      + destruct (q_type q) eqn:T; [exact Wc|apply W_single; auto|apply W_recursive; auto|apply W_continue; exact Wc].
      + rewrite Hq. exact Wc.
    - intros c Wc. apply W_free. exact Wc.
    - intros c c' Wc. cbn [wsScpSend cb_broken]. destruct (c_fp c); [|discriminate]. intros Q. injection Q as <-. apply W_shut. exact Wc.
    - split; [reflexivity|]. split; [reflexivity|]. cbn. destruct rec; congruence.
    - split; [constructor|]. exists []. split; [constructor|exact I]. }
  apply X.
Qed.
End Walk.
