(* ScpProofs4.v - cleaning paths, splitting the destination, and reading the
   scp command (C62). *)
From Verif Require Import Base PathModel PathSpec PathProofs ScpModel ScpSpec ScpProofs ScpProofs2 ScpProofs3.
From Coq Require Import List NArith ZArith Bool Lia.
Import ListNotations.
Open Scope N_scope.

(* ---------------------------------------------------------------- *)
(* Characters and pieces                                              *)

Lemma chr_split : forall p i, i < lenN p -> p = takeN i p ++ chr p i :: dropN (i + 1) p.
Proof.
  intros p i H. unfold chr, takeN, dropN, lenN in *.
  rewrite <- (firstn_skipn (N.to_nat i) p) at 1. f_equal.
  assert (L : (N.to_nat i < length p)%nat) by lia.
  replace (N.to_nat (i + 1)) with (S (N.to_nat i)) by lia. clear H.
  revert p L. induction (N.to_nat i) as [|n IH]; intros p L; destruct p as [|x p]; cbn in L; try lia; [reflexivity|].
  cbn [skipn nth]. apply IH. lia.
Qed.

Lemma chr_app : forall a x b i, i = lenN a -> chr (a ++ x :: b) i = x.
Proof. intros a x b i ->. unfold chr, lenN. rewrite Nat2N.id, app_nth2 by lia. rewrite Nat.sub_diag. reflexivity. Qed.

Lemma chr_end : forall p i, lenN p <= i -> chr p i = 0.
Proof. intros p i H. unfold chr. apply nth_overflow. unfold lenN in H. lia. Qed.

Lemma chr_left : forall a b i, i < lenN a -> chr (a ++ b) i = chr a i.
Proof. intros a b i H. unfold chr. apply app_nth1. unfold lenN in H. lia. Qed.

Lemma chr_right : forall a b i, chr (a ++ b) (lenN a + i) = chr b i.
Proof. intros a b i. unfold chr, lenN. rewrite app_nth2 by lia. f_equal. lia. Qed.

Lemma chr_in : forall p i, i < lenN p -> In (chr p i) p.
Proof. intros p i H. unfold chr. apply nth_In. unfold lenN in H. lia. Qed.

Lemma pieces_slash : forall a b, pieces (a ++ 47 :: b) = pieces a ++ pieces b.
Proof.
  induction a as [|c a IH]; intros b.
  - cbn [app pieces]. pose proof (pieces_ne b). destruct (pieces b) as [|p ps]; [congruence|].
    destruct (N.eq_dec 47 47); [reflexivity|congruence].
  - cbn [app pieces]. rewrite IH. pose proof (pieces_ne a). destruct (pieces a) as [|p ps]; [congruence|].
    cbn [app]. destruct (N.eq_dec c 47); reflexivity.
Qed.

Lemma pieces_one : forall c, ~ In 47 c -> pieces c = [c].
Proof.
  induction c as [|x c IH]; intros H; [reflexivity|]. cbn [pieces]. rewrite IH by (intros Q; apply H; right; exact Q).
  destruct (N.eq_dec x 47) as [->|]; [destruct H; left; reflexivity|reflexivity].
Qed.

Lemma pieces_fm : forall cs, Forall (fun c => ~ In 47 c) cs -> pieces (fm cs) = [] :: cs.
Proof.
  induction cs as [|c cs IH]; intros F; [reflexivity|]. inversion F as [|? ? Hc Hcs]; subst.
  cbn [flat_map]. change ((47 :: c) ++ fm cs) with ([] ++ 47 :: (c ++ fm cs)). rewrite pieces_slash. cbn [pieces app]. f_equal.
  destruct cs as [|d cs]; [rewrite app_nil_r; apply pieces_one; exact Hc|].
  cbn [flat_map]. change (c ++ (47 :: d) ++ fm cs) with (c ++ 47 :: (d ++ fm cs)). rewrite pieces_slash, (pieces_one c Hc).
  cbn [app]. f_equal. specialize (IH Hcs). cbn [flat_map] in IH. change ((47 :: d) ++ fm cs) with ([] ++ 47 :: (d ++ fm cs)) in IH.
  rewrite pieces_slash in IH. cbn [pieces app] in IH. congruence.
Qed.

(* ---------------------------------------------------------------- *)
(* The loops of wolfSSH_CleanPath on a path with proper components    *)

(* no ".", no "" and no ".." between slashes, but perhaps at the end *)
Definition tidy (p : bytes) : Prop := exists cs last, pieces p = [] :: cs ++ last /\
  Forall plain cs /\ (last = [] \/ last = [[46; 46]]).

Lemma tidy_fm : forall cs, Forall plain cs -> tidy (fm cs).
Proof.
  intros cs F. exists cs, []. rewrite app_nil_r. split; [|auto]. apply pieces_fm.
  eapply Forall_impl; [|exact F]. intros c H. apply H.
Qed.

Lemma tidy_up : forall cs, Forall plain cs -> tidy (fm cs ++ [47; 46; 46]).
Proof.
  intros cs F. exists cs, [[46; 46]]. split; [|auto]. change (fm cs ++ [47; 46; 46]) with (fm cs ++ 47 :: [46; 46]).
  rewrite pieces_slash, pieces_fm by (eapply Forall_impl; [|exact F]; intros c H; apply H). reflexivity.
Qed.

Lemma tidy_piece : forall p a c, tidy p -> pieces p = pieces a ++ c -> forall x y, c = x :: y ->
  plain x \/ (x = [46; 46] /\ y = []).
Proof.
  intros p a c (cs & last & Hp & F & L) E x y ->. rewrite Hp in E. pose proof (pieces_ne a) as Na.
  destruct (pieces a) as [|q qs]; [congruence|]. cbn [app] in E. assert (E' : cs ++ last = qs ++ x :: y) by congruence. clear E Hp Na.
  revert qs E'. induction cs as [|c cs IH]; intros qs E'; cbn [app] in E'.
  - destruct L as [-> | ->].
    + destruct qs; discriminate.
    + destruct qs as [|z qs]; cbn [app] in E'.
      * right. injection E' as <- <-. split; reflexivity.
      * destruct qs; discriminate.
  - inversion F as [|? ? Fc Fcs]; subst. destruct qs as [|z qs]; cbn [app] in E'.
    + left. assert (x = c) by congruence. subst. exact Fc.
    + apply (IH Fcs qs). congruence.
Qed.

Lemma drop_dots_tidy : forall p, tidy p -> forall fuel i, 1 <= i -> drop_dots fuel i p = p.
Proof.
  intros p T fuel. induction fuel as [|f IH]; intros i Hi; [reflexivity|]. cbn [drop_dots].
  destruct (N.ltb_spec (i + 1) (lenN p)) as [L|L]; [|reflexivity].
  destruct ((chr p i =? DOT) && (chr p (i - 1) =? SLASH) && (chr p (i + 1) =? SLASH)) eqn:Q; [|apply IH; lia].
  exfalso. apply andb_true_iff in Q. destruct Q as [Q Q3]. apply andb_true_iff in Q. destruct Q as [Q1 Q2].
  apply N.eqb_eq in Q1, Q2, Q3. unfold DOT, SLASH in *.
  pose proof (chr_split p (i - 1) ltac:(lia)) as S1. rewrite Q2 in S1. replace (i - 1 + 1) with i in S1 by lia.
  set (a := takeN (i - 1) p) in *. set (r := dropN i p) in *.
  assert (La : lenN a = i - 1) by (unfold a; rewrite lenN_takeN; lia).
  assert (Lr : lenN r = lenN p - i) by (unfold r; apply lenN_dropN).
  destruct r as [|x [|y r]]; [change (lenN (@nil N)) with 0 in Lr; lia|rewrite lenN_cons in Lr; change (lenN (@nil N)) with 0 in Lr; lia|].
  assert (x = 46) as ->.
  { rewrite <- Q1. rewrite S1. replace i with (lenN (a ++ [47])) by (rewrite lenN_app; change (lenN [47]) with 1; lia).
    change (a ++ 47 :: x :: y :: r) with (a ++ [47] ++ x :: y :: r). rewrite app_assoc. symmetry. apply chr_app. reflexivity. }
  assert (y = 47) as ->.
  { rewrite <- Q3. rewrite S1. replace (i + 1) with (lenN (a ++ [47; 46])) by (rewrite lenN_app; change (lenN [47; 46]) with 2; lia).
    change (a ++ 47 :: 46 :: y :: r) with (a ++ [47; 46] ++ y :: r). rewrite app_assoc. symmetry. apply chr_app. reflexivity. }
  assert (P : pieces p = pieces a ++ [46] :: pieces r).
  { rewrite S1. rewrite pieces_slash. f_equal. change (46 :: 47 :: r) with ([46] ++ 47 :: r). rewrite pieces_slash. reflexivity. }
  destruct (tidy_piece p a _ T P _ _ eq_refl) as [Pl|[Pl _]]; [|discriminate]. destruct Pl as (_ & Pl & _). congruence.
Qed.

Lemma drop_double_tidy : forall p, tidy p -> forall fuel i, drop_double fuel i p = p.
Proof.
  intros p T fuel. induction fuel as [|f IH]; intros i; [reflexivity|]. cbn [drop_double].
  destruct (N.ltb_spec i (lenN p)) as [L|L]; [|reflexivity].
  destruct ((chr p i =? SLASH) && (chr p (i + 1) =? SLASH)) eqn:Q; [|apply IH].
  exfalso. apply andb_true_iff in Q. destruct Q as [Q1 Q2]. apply N.eqb_eq in Q1, Q2. unfold SLASH in *.
  pose proof (chr_split p i L) as S1. rewrite Q1 in S1.
  set (a := takeN i p) in *. set (r := dropN (i + 1) p) in *.
  assert (La : lenN a = i) by (unfold a; rewrite lenN_takeN; lia).
  assert (R : chr p (i + 1) = chr r 0).
  { rewrite S1. replace (i + 1) with (lenN (a ++ [47]) + 0) by (rewrite lenN_app; change (lenN [47]) with 1; lia).
    change (a ++ 47 :: r) with (a ++ [47] ++ r). rewrite app_assoc. apply chr_right. }
  destruct r as [|x r]; [cbn in R; lia|]. cbn in R. rewrite Q2 in R. subst x.
  assert (P : pieces p = pieces a ++ [] :: pieces r).
  { rewrite S1. rewrite pieces_slash. f_equal. change (47 :: r) with ([] ++ 47 :: r). rewrite pieces_slash. reflexivity. }
  destruct (tidy_piece p a _ T P _ _ eq_refl) as [Pl|[Pl _]]; [|discriminate]. destruct Pl as (Pl & _). congruence.
Qed.

(* where wolfSSH_CleanPath would cut *)
Definition up_at (p : bytes) (i : N) : bool :=
  (chr p i =? SLASH) && (chr p (i + 1) =? DOT) && (chr p (i + 2) =? DOT)
  && ((chr p (i + 3) =? SLASH) || (chr p (i + 3) =? 0)).

Lemma find_up_none : forall p fuel i, (forall j, i <= j -> j < lenN p -> up_at p j = false) -> find_up fuel i p = None.
Proof.
  intros p fuel. induction fuel as [|f IH]; intros i H; [reflexivity|]. cbn [find_up].
  destruct (N.ltb_spec i (lenN p)) as [L|L]; [|reflexivity].
  fold (up_at p i). rewrite (H i) by lia. apply IH. intros j Hj. apply H. lia.
Qed.

Lemma find_up_first : forall p j, j < lenN p -> up_at p j = true ->
  forall fuel i, i <= j -> (forall x, i <= x -> x < j -> up_at p x = false) -> (N.to_nat (j - i) < fuel)%nat ->
  find_up fuel i p = Some j.
Proof.
  intros p j Lj Uj fuel. induction fuel as [|f IH]; intros i Hi Hb Hf; [lia|]. cbn [find_up].
  destruct (N.ltb_spec i (lenN p)) as [L|L]; [|lia]. fold (up_at p i).
  destruct (N.eq_dec i j) as [->|Ne]; [rewrite Uj; reflexivity|].
  rewrite (Hb i) by lia. apply IH; [lia| |lia]. intros x Hx. apply Hb. lia.
Qed.

(* A cut is where ".." is a piece. *)
Lemma up_at_piece : forall p i, ~ In 0 p -> i < lenN p -> up_at p i = true ->
  (exists a b, p = a ++ [47; 46; 46] ++ 47 :: b /\ i = lenN a) \/ (exists a, p = a ++ [47; 46; 46] /\ i = lenN a).
Proof.
  intros p i Hz L U. unfold up_at in U. apply andb_true_iff in U. destruct U as [U U4].
  apply andb_true_iff in U. destruct U as [U U3]. apply andb_true_iff in U. destruct U as [U1 U2].
  apply N.eqb_eq in U1, U2, U3. unfold SLASH, DOT in *.
  pose proof (chr_split p i L) as S1. rewrite U1 in S1.
  set (a := takeN i p) in *. set (r := dropN (i + 1) p) in *.
  assert (La : lenN a = i) by (unfold a; rewrite lenN_takeN; lia). clearbody a r.
  assert (R : forall n, chr p (i + 1 + n) = chr r n).
  { intros n. rewrite S1. replace (i + 1 + n) with (lenN (a ++ [47]) + n) by (rewrite lenN_app; change (lenN [47]) with 1; lia).
    change (a ++ 47 :: r) with (a ++ [47] ++ r). rewrite app_assoc. apply chr_right. }
  replace (i + 1) with (i + 1 + 0) in U2 by lia. replace (i + 2) with (i + 1 + 1) in U3 by lia.
  replace (i + 3) with (i + 1 + 2) in U4 by lia. rewrite R in U2, U3, U4.
  destruct r as [|x [|y r]]; [change (chr [] 0) with 0 in U2; lia|change (chr [x] 1) with 0 in U3; lia|].
  change (chr (x :: y :: r) 0) with x in U2. change (chr (x :: y :: r) 1) with y in U3. change (chr (x :: y :: r) 2) with (chr r 0) in U4. subst x y.
  destruct r as [|z r].
  - right. exists a. auto.
  - left. change (chr (z :: r) 0) with z in U4. apply orb_true_iff in U4. destruct U4 as [U4|U4]; apply N.eqb_eq in U4; subst z.
    + exists a, r. auto.
    + exfalso. apply Hz. rewrite S1. apply in_or_app. right. cbn. tauto.
Qed.

Lemma fm_nonul : forall cs, Forall (fun c => ~ In 0 c) cs -> ~ In 0 (fm cs).
Proof.
  intros cs F H. apply in_flat_map in H. destruct H as (c & Hc & H). rewrite Forall_forall in F.
  destruct H as [H|H]; [discriminate|]. exact (F c Hc H).
Qed.

Lemma no_up_fm : forall cs i, Forall plain cs -> Forall (fun c => ~ In 0 c) cs -> i < lenN (fm cs) -> up_at (fm cs) i = false.
Proof.
  intros cs i F Z L. destruct (up_at (fm cs) i) eqn:U; [|reflexivity]. exfalso.
  assert (Pc : pieces (fm cs) = [] :: cs) by (apply pieces_fm; eapply Forall_impl; [|exact F]; intros c H; apply H).
  assert (K : forall a b, pieces (fm cs) = pieces a ++ [46; 46] :: b -> False).
  { intros a b E. rewrite Pc in E. pose proof (pieces_ne a). destruct (pieces a) as [|q qs]; [congruence|].
    cbn [app] in E. assert (cs = qs ++ [46; 46] :: b) by congruence. subst cs.
    apply Forall_app in F. destruct F as [_ F]. inversion F as [|? ? Pl _]; subst. destruct Pl as (_ & _ & Pl & _). congruence. }
  destruct (up_at_piece _ i (fm_nonul cs Z) L U) as [(a & b & E & _)|(a & E & _)].
  - apply (K a (pieces b)). rewrite E. change (a ++ [47; 46; 46] ++ 47 :: b) with (a ++ 47 :: ([46; 46] ++ 47 :: b)).
    rewrite !pieces_slash. reflexivity.
  - apply (K a []). rewrite E. change (a ++ [47; 46; 46]) with (a ++ 47 :: [46; 46]). rewrite pieces_slash. reflexivity.
Qed.

Lemma no_up_before : forall cs i, Forall plain cs -> Forall (fun c => ~ In 0 c) cs -> i < lenN (fm cs) ->
  up_at (fm cs ++ [47; 46; 46]) i = false.
Proof.
  intros cs i F Z L. set (p := fm cs ++ [47; 46; 46]). destruct (up_at p i) eqn:U; [|reflexivity]. exfalso.
  assert (Hz : ~ In 0 p).
  { intros H. apply in_app_or in H. destruct H as [H|H]; [exact (fm_nonul cs Z H)|]. destruct H as [H|[H|[H|[]]]]; discriminate. }
  assert (Pc : pieces p = [] :: cs ++ [[46; 46]]).
  { unfold p. change (fm cs ++ [47; 46; 46]) with (fm cs ++ 47 :: [46; 46]). rewrite pieces_slash, pieces_fm; [reflexivity|].
    eapply Forall_impl; [|exact F]. intros c H. apply H. }
  destruct (up_at_piece p i Hz ltac:(unfold p; rewrite lenN_app; lia) U) as [(a & b & E & Ha)|(a & E & Ha)].
  - assert (E2 : pieces p = (pieces a ++ [[46; 46]]) ++ pieces b).
    { rewrite E. change (a ++ [47; 46; 46] ++ 47 :: b) with (a ++ 47 :: ([46; 46] ++ 47 :: b)). rewrite !pieces_slash, <- app_assoc. reflexivity. }
    rewrite Pc in E2. pose proof (pieces_ne b) as Nb. destruct (exists_last Nb) as (b1 & x & B). rewrite B in E2.
    change ([] :: cs ++ [[46; 46]]) with (([] :: cs) ++ [[46; 46]]) in E2. rewrite app_assoc in E2. apply app_inj_tail in E2.
    destruct E2 as [E2 _]. pose proof (pieces_ne a) as Na. destruct (pieces a) as [|q qs]; [congruence|].
    cbn [app] in E2. assert (cs = (qs ++ [[46; 46]]) ++ b1) by congruence. subst cs.
    apply Forall_app in F. destruct F as [F _]. apply Forall_app in F. destruct F as [_ F].
    inversion F as [|? ? Pl _]; subst. destruct Pl as (_ & _ & Pl & _). congruence.
  - unfold p in E. apply (f_equal lenN) in E. rewrite !lenN_app in E. lia.
Qed.

(* 21324-21330 on the last component *)
Lemma retrace_comp : forall pre c post, ~ In 47 c -> ~ In 58 c ->
  retrace (N.to_nat (lenN pre + lenN c)) (pre ++ 47 :: c ++ post) = lenN pre.
Proof.
  intros pre c post H1 H2.
  assert (G : forall n, n <= lenN c -> retrace (N.to_nat (lenN pre + n)) (pre ++ 47 :: c ++ post) = lenN pre).
  { intros n. induction n as [|n IH] using N.peano_ind; intros Hn.
    - rewrite N.add_0_r. destruct (N.to_nat (lenN pre)) as [|m] eqn:Q; [cbn; lia|]. cbn [retrace].
      rewrite <- Q, N2Nat.id, chr_app by reflexivity. change (47 =? SLASH) with true. cbn [orb]. reflexivity.
    - replace (N.to_nat (lenN pre + N.succ n)) with (S (N.to_nat (lenN pre + n))) by lia. cbn [retrace].
      replace (N.of_nat (S (N.to_nat (lenN pre + n)))) with (lenN (pre ++ [47]) + n) by (rewrite lenN_app; change (lenN [47]) with 1; lia).
      change (pre ++ 47 :: c ++ post) with (pre ++ [47] ++ c ++ post). rewrite app_assoc, chr_right, chr_left by lia.
      assert (I : In (chr c n) c) by (apply chr_in; lia).
      destruct (N.eqb_spec (chr c n) SLASH) as [K|_]; [unfold SLASH in K; rewrite K in I; contradiction|].
      destruct (N.eqb_spec (chr c n) COLON) as [K|_]; [unfold COLON in K; rewrite K in I; contradiction|].
      cbn [orb]. rewrite <- app_assoc. apply IH. lia. }
  apply G. lia.
Qed.

Lemma fm_last : forall cs c, fm (cs ++ [c]) = fm cs ++ 47 :: c.
Proof. intros. rewrite fm_app. cbn [flat_map]. rewrite app_nil_r. reflexivity. Qed.

Lemma chr_last : forall p x, chr (p ++ [x]) (lenN (p ++ [x]) - 1) = x.
Proof. intros. rewrite lenN_app. change (lenN [x]) with 1. replace (lenN p + 1 - 1) with (lenN p) by lia. apply chr_app. reflexivity. Qed.

Lemma fm_ends : forall cs, cs <> [] -> Forall plain cs -> chr (fm cs) (lenN (fm cs) - 1) <> 47.
Proof.
  intros cs Hne F. destruct (exists_last Hne) as (b & c & ->). apply Forall_app in F. destruct F as [_ F].
  inversion F as [|? ? (Pl1 & _ & _ & Pl2 & _) _]; subst. destruct (exists_last Pl1) as (d & x & ->).
  rewrite fm_last. replace (fm b ++ 47 :: d ++ [x]) with ((fm b ++ 47 :: d) ++ [x]) by (rewrite <- app_assoc; reflexivity).
  rewrite chr_last. intros ->. apply Pl2. apply in_or_app. right. left. reflexivity.
Qed.

Lemma cut_ups_fm : forall cs f, Forall plain cs -> Forall (fun c => ~ In 0 c) cs -> cut_ups f (fm cs) = fm cs.
Proof.
  intros cs f F Z. destruct f as [|f]; [reflexivity|]. cbn [cut_ups].
  rewrite find_up_none; [reflexivity|]. intros j _ L. apply no_up_fm; assumption.
Qed.

Lemma clean_fm : forall cs sz, cs <> [] -> Forall plain cs -> Forall (fun c => ~ In 0 c) cs -> lenN (fm cs) < sz ->
  CleanPath (fm cs) sz = Some (fm cs).
Proof.
  intros cs sz Hne F Z L. unfold CleanPath. destruct (N.eqb_spec sz 0); [lia|].
  rewrite drop_dots_tidy by (try lia; apply tidy_fm; exact F). cbv zeta.
  rewrite drop_double_tidy by (apply tidy_fm; exact F). rewrite cut_ups_fm by assumption.
  destruct (N.eqb_spec (chr (fm cs) (lenN (fm cs) - 1)) SLASH) as [K|_]; [exfalso; exact (fm_ends cs Hne F K)|].
  rewrite andb_false_r. destruct (N.leb_spec sz (lenN (fm cs))); [lia|reflexivity].
Qed.

Lemma clean_parent : forall cs c sz, Forall plain (cs ++ [c]) -> Forall (fun c => ~ In 0 c) (cs ++ [c]) -> ~ In 58 c ->
  lenN (fm (cs ++ [c])) + 3 < sz ->
  CleanPath (fm (cs ++ [c]) ++ [47; 46; 46]) sz = Some (path_of cs).
Proof.
  intros cs c sz F Z Hc L. unfold CleanPath. destruct (N.eqb_spec sz 0); [lia|].
  rewrite drop_dots_tidy by (try lia; apply tidy_up; exact F). cbv zeta.
  rewrite drop_double_tidy by (apply tidy_up; exact F).
  set (q := fm (cs ++ [c])) in *. set (p := q ++ [47; 46; 46]).
  assert (Fc : Forall plain cs /\ plain c).
  { apply Forall_app in F. destruct F as [F1 F2]. inversion F2; subst. auto. }
  assert (Zc : Forall (fun c => ~ In 0 c) cs) by (apply Forall_app in Z; apply Z).
  destruct Fc as [Fcs (Pc1 & _ & _ & Pc2 & _)].
  assert (Lq : lenN q = lenN (fm cs) + 1 + lenN c) by (unfold q; rewrite fm_last, lenN_app, lenN_cons; lia).
  assert (Lc : 1 <= lenN c) by (destruct c; [congruence|]; rewrite lenN_cons; lia).
  assert (Lp : lenN p = lenN q + 3) by (unfold p; rewrite lenN_app; reflexivity).
  assert (U : up_at p (lenN q) = true).
  { unfold up_at, p. replace (lenN q) with (lenN q + 0) at 1 by lia. rewrite !chr_right. reflexivity. }
  assert (X : cut_ups (S (Datatypes.length p)) p = path_of cs).
  { cbn [cut_ups]. rewrite (find_up_first p (lenN q)); [|lia|exact U|lia| |].
    2:{ intros x H1 H2. apply no_up_before; assumption. }
    2:{ unfold lenN in *. lia. }
    replace (N.to_nat (lenN q) - 1)%nat with (N.to_nat (lenN (fm cs) + lenN c)) by lia.
    assert (Ep : p = fm cs ++ 47 :: c ++ [47; 46; 46]) by (unfold p, q; rewrite fm_last, <- app_assoc; reflexivity).
    assert (R : retrace (N.to_nat (lenN (fm cs) + lenN c)) p = lenN (fm cs)) by (rewrite Ep; apply retrace_comp; assumption).
    rewrite R. rewrite dropN_all by lia. rewrite app_nil_r.
    replace (takeN (lenN (fm cs)) p) with (fm cs) by (rewrite Ep; symmetry; apply takeN_app_exact; reflexivity).
    destruct cs as [|d cs].
    - cbn [flat_map]. destruct (Datatypes.length _); reflexivity.
    - rewrite path_of_fm by discriminate.
      assert (Nn : fm (d :: cs) <> []) by discriminate.
      destruct (fm (d :: cs)) eqn:Q; [congruence|]. rewrite <- Q. apply cut_ups_fm; assumption. }
  rewrite X.
  destruct cs as [|d cs].
  - cbn [path_of]. change (3 <? lenN [47]) with false. cbn [andb]. change (lenN [47]) with 1.
    destruct (N.leb_spec sz 1); [lia|reflexivity].
  - rewrite path_of_fm by discriminate. set (r := d :: cs) in *.
    destruct (N.eqb_spec (chr (fm r) (lenN (fm r) - 1)) SLASH) as [K|_]; [exfalso; exact (fm_ends r ltac:(discriminate) Fcs K)|].
    rewrite andb_false_r. destruct (N.leb_spec sz (lenN (fm r))); [lia|reflexivity].
Qed.
