(* SshdConfProofs5.v - the configuration file: Include with a pattern. *)
From Coq Require Import List NArith ZArith Lia Bool String.
From Verif Require Import Base NegoSpec SshdConfModel SshdConfSpec SshdConfProofs SshdConfProofs2 SshdConfProofs3 SshdConfProofs4.
Import ListNotations.
Open Scope N_scope.

(* ---- string order ---- *)
Lemma str_lt_before : forall a b, str_lt a b = true <-> comes_before a b.
Proof.
  induction a as [|x a IH]; intros [|y b]; cbn [str_lt]; split; intro H; try discriminate; try (inversion H; fail); try (apply cb_end); try reflexivity.
  - destruct (N.eqb_spec x y) as [->|NE]; [apply cb_same; apply IH; exact H|apply cb_less; apply N.ltb_lt; exact H].
  - inversion H as [|? ? ? ? L|? ? ? B]; subst.
    + destruct (N.eqb_spec x y) as [->|NE]; [lia|apply N.ltb_lt; exact L].
    + rewrite N.eqb_refl. apply IH. exact B.
Qed.
Lemma before_irrefl : forall a, ~ comes_before a a.
Proof. induction a as [|x a IH]; intro H; inversion H; subst; [lia|tauto]. Qed.
Lemma before_trans : forall a b c, comes_before a b -> comes_before b c -> comes_before a c.
Proof.
  induction a as [|x a IH]; intros b c H K; inversion H; subst; inversion K; subst; try (apply cb_end); try (apply cb_less; lia).
  apply cb_same. eapply IH; eassumption.
Qed.
Lemma before_total : forall a b, comes_before a b \/ a = b \/ comes_before b a.
Proof.
  induction a as [|x a IH]; intros [|y b]; [right; left; reflexivity|left; constructor|right; right; constructor|].
  destruct (N.lt_trichotomy x y) as [L|[->|L]]; [left; apply cb_less; exact L| |right; right; apply cb_less; exact L].
  destruct (IH b) as [H|[->|H]]; [left; apply cb_same; exact H|right; left; reflexivity|right; right; apply cb_same; exact H].
Qed.
Lemma insert_in : forall n l x, In x (insert_name n l) <-> x = n \/ In x l.
Proof.
  induction l as [|y l IH]; intros x; cbn [insert_name]; [cbn; intuition|].
  destruct (str_lt n y); cbn [In]; [intuition|]. rewrite IH. intuition.
Qed.
Lemma insert_order : forall n l, ~ In n l -> in_order l -> in_order (insert_name n l).
Proof.
  induction l as [|y l IH]; intros NI O; cbn [insert_name]; [repeat constructor; intros ? []|].
  inversion O as [|? ? A B]; subst. destruct (str_lt n y) eqn:E.
  - apply str_lt_before in E. constructor; [|exact O]. intros z [<-|Z]; [exact E|exact (before_trans _ _ _ E (A _ Z))].
  - constructor; [|apply IH; [intro I; apply NI; right; exact I|exact B]].
    intros z Z. apply insert_in in Z. destruct Z as [->|Z]; [|exact (A _ Z)].
    destruct (before_total y n) as [H|[->|H]]; [exact H|exfalso; apply NI; left; reflexivity|].
    apply str_lt_before in H. congruence.
Qed.
Lemma sorted_fold : forall es acc, NoDup (map fst es) -> in_order acc -> (forall n, In n (map fst es) -> ~ In n acc) ->
  let r := fold_left (fun acc e => if snd e : bool then acc else insert_name (fst e) acc) es acc in
  in_order r /\ forall n, In n r <-> In n acc \/ In (n, false) es.
Proof.
  induction es as [|[m b] es IH]; intros acc ND O DJ; cbn [fold_left fst snd]; [split; [exact O|cbn [In]; tauto]|].
  cbn [map fst] in ND, DJ. inversion ND as [|? ? N1 N2]; subst. destruct b.
  - destruct (IH acc N2 O) as [A B]; [intros n I; apply DJ; right; exact I|]. split; [exact A|]. intro n. rewrite B. cbn [In]. intuition congruence.
  - destruct (IH (insert_name m acc) N2) as [A B].
    + apply insert_order; [apply DJ; left; reflexivity|exact O].
    + intros n I J. apply insert_in in J. destruct J as [->|J]; [contradiction|]. exact (DJ n (or_intror I) J).
    + split; [exact A|]. intro n. rewrite B, insert_in. cbn [In]. intuition congruence.
Qed.
Lemma sorted_ok : forall es, NoDup (map fst es) -> in_order (sorted_names es) /\ forall n, In n (sorted_names es) <-> In (n, false) es.
Proof.
  intros es ND. destruct (sorted_fold es [] ND io_nil) as [A B]; [intros n _ []|]. split; [exact A|]. intro n. unfold sorted_names. rewrite B. cbn [In]. tauto.
Qed.
Lemma filter_order : forall p l, in_order l -> in_order (filter p l).
Proof.
  induction l as [|x l IH]; intros O; cbn [filter]; [constructor|]. inversion O as [|? ? A B]; subst.
  destruct (p x); [|apply IH; exact B]. constructor; [|apply IH; exact B]. intros y Y. apply filter_In in Y. apply A. tauto.
Qed.
Lemma order_unique : forall a b, in_order a -> in_order b -> (forall n, In n a <-> In n b) -> a = b.
Proof.
  induction a as [|x a IH]; intros b OA OB E.
  - destruct b as [|y b]; [reflexivity|]. exfalso. apply (E y). left. reflexivity.
  - destruct b as [|y b]; [exfalso; apply (E x); left; reflexivity|].
    inversion OA as [|? ? A1 A2]; subst. inversion OB as [|? ? B1 B2]; subst.
    assert (X : x = y).
    { destruct (proj1 (E x) (or_introl eq_refl)) as [->|I]; [reflexivity|].
      destruct (proj2 (E y) (or_introl eq_refl)) as [->|J]; [reflexivity|].
      exfalso. exact (before_irrefl x (before_trans _ _ _ (A1 _ J) (B1 _ I))). }
    subst y. f_equal. apply IH; [exact A2|exact B2|].
    intro n. split; intro I.
    + destruct (proj1 (E n) (or_intror I)) as [<-|J]; [exfalso; exact (before_irrefl _ (A1 _ I))|exact J].
    + destruct (proj2 (E n) (or_intror I)) as [<-|J]; [exfalso; exact (before_irrefl _ (B1 _ I))|exact J].
Qed.

(* ---- the names ---- *)
Lemma prefixb_iff : forall p l, prefixb p l = true <-> exists r, l = p ++ r.
Proof.
  induction p as [|x p IH]; intros l; cbn [prefixb]; [split; [eexists; reflexivity|reflexivity]|].
  destruct l as [|y l]; [split; [discriminate|intros [r H]; discriminate]|].
  rewrite andb_true_iff, N.eqb_eq, IH. split.
  - intros [-> [r ->]]. exists r. reflexivity.
  - intros [r H]. cbn [app] in H. inversion H; subst. split; [reflexivity|exists r; reflexivity].
Qed.
Lemma name_matches_iff : forall pre post n, lenN pre + lenN post < lenN n -> (name_matches pre post n = true <-> stands_for pre post n).
Proof.
  intros pre post n L. unfold name_matches, stands_for. rewrite andb_true_iff, !orb_true_iff, !andb_true_iff, !N.eqb_eq, !N.ltb_lt.
  assert (PRE : (lenN pre = 0 \/ lenN pre < lenN n /\ prefixb pre n = true) <-> exists r, n = pre ++ r).
  { rewrite <- prefixb_iff. split.
    - intros [Z|[_ H]]; [|exact H]. destruct pre; [reflexivity|unfold lenN in Z; cbn in Z; lia].
    - intro H. right. split; [lia|exact H]. }
  assert (POST : (lenN post = 0 \/ lenN post < lenN n /\ bytes_eqb (dropN (lenN n - lenN post) n) post = true) <-> exists r, n = r ++ post).
  { split.
    - intros [Z|[_ H]].
      + exists n. destruct post; [now rewrite app_nil_r|unfold lenN in Z; cbn in Z; lia].
      + apply bytes_eqb_eq in H. exists (firstn (N.to_nat (lenN n - lenN post)) n). unfold dropN in H. rewrite <- H at 2. symmetry. apply firstn_skipn.
    - intros [r ->]. right. split; [lia|]. apply bytes_eqb_eq. unfold dropN, lenN. rewrite app_length.
      replace (N.to_nat (N.of_nat (List.length r + List.length post) - N.of_nat (List.length post))) with (List.length r) by lia.
      rewrite skipn_app, skipn_all, Nat.sub_diag. reflexivity. }
  rewrite PRE, POST. split.
  - intros [[r1 E1] [r2 E2]]. rewrite E2 in E1. unfold lenN in L.
    assert (LL : (List.length pre <= List.length r2)%nat) by (rewrite E2, app_length in L; lia).
    exists (skipn (List.length pre) r2). rewrite E2. rewrite app_assoc. f_equal.
    apply (f_equal (firstn (List.length pre))) in E1. rewrite !firstn_app, Nat.sub_diag, firstn_all in E1. cbn [firstn] in E1. rewrite app_nil_r in E1.
    replace (List.length pre - List.length r2)%nat with 0%nat in E1 by lia. cbn [firstn] in E1. rewrite app_nil_r in E1.
    transitivity (firstn (List.length pre) r2 ++ skipn (List.length pre) r2); [symmetry; apply firstn_skipn|]. now rewrite E1.
  - intros [mid ->]. split; [exists (mid ++ post); reflexivity|exists (pre ++ mid); now rewrite <- app_assoc].
Qed.

Lemma find_star_some : forall r t post, Forall (fun c => c <> 42 /\ c <> 47) r -> find_star (r ++ 42 :: t) post = Some (t, rev r ++ post).
Proof.
  induction r as [|c r IH]; intros t post F; [reflexivity|]. inversion F as [|? ? [A B] F']; subst. cbn [app find_star].
  destruct (N.eqb_spec c 42); [contradiction|]. destruct (N.eqb_spec c 47); [contradiction|]. rewrite (IH _ _ F'). cbn [rev]. now rewrite <- app_assoc.
Qed.
Lemma include_pattern : forall D load dir pre post ns, dir <> [] -> simple_part pre -> simple_part post ->
  handle_include D load (pattern dir pre post) ns =
  match d_list D dir with None => CErr | Some es => load_all load dir (filter (name_matches pre post) (sorted_names es)) ns end.
Proof.
  intros D load dir pre post ns ND PR PO. destruct dir as [|first d]; [contradiction|]. unfold handle_include, pattern. cbn [app].
  assert (R : rev (d ++ 47 :: pre ++ 42 :: post) = rev post ++ 42 :: (rev pre ++ 47 :: rev d)).
  { rewrite rev_app_distr. cbn [rev]. rewrite rev_app_distr. cbn [rev]. rewrite <- !app_assoc. cbn [app]. rewrite <- ?app_assoc. reflexivity. }
  rewrite R, find_star_some.
  - rewrite rev_involutive, app_nil_r. unfold dir_and_prefix.
    rewrite (span_stop _ (rev pre) 47 (rev d)).
    + rewrite !rev_involutive. reflexivity.
    + apply Forall_rev. eapply Forall_impl; [|exact PR]. cbn. intros c (_ & _ & C & _). destruct (N.eqb_spec c 47); [contradiction|reflexivity].
    + reflexivity.
  - apply Forall_rev. eapply Forall_impl; [|exact PO]. cbn. tauto.
Qed.

(* ---- the line ---- *)
Lemma parse_include : forall D load v ns cur, v <> [] -> Forall (fun c => is_white c = false) v -> lenN v <= 150 ->
  parse_line D load ((ascii "Include " ++ v) ++ [10]) ns cur =
  match handle_include D (load cur) v ns with COk ns' => LOk ns' cur | CErr => LErr | CUndef => LUndef end.
Proof.
  intros D load v ns cur NE SG LG. rewrite <- app_assoc. unfold parse_line.
  assert (FF : find (fun o => prefixb (snd o) (ascii "Include " ++ v ++ [10])) options = Some (OInclude, ascii "Include")) by reflexivity.
  rewrite FF. cbv zeta.
  assert (FU : skip_ws (dropN (lenN (ascii "Include")) (ascii "Include " ++ v ++ [10])) = v ++ [10]).
  { change (dropN (lenN (ascii "Include")) (ascii "Include " ++ v ++ [10])) with (32 :: v ++ [10]).
    unfold skip_ws. cbn [span]. change (space 32) with true. cbv iota.
    destruct v as [|c v']; [contradiction|]. inversion SG as [|? ? W SG']; subst. cbn [app span]. rewrite space_white, W. reflexivity. }
  rewrite FU.
  assert (WV : word (v ++ [10]) = v).
  { assert (NW : Forall (fun x => negb (space x) = true) v) by (eapply Forall_impl; [|exact SG]; intros c A; rewrite space_white, A; reflexivity).
    unfold word. rewrite (span_stop _ v 10 [] NW eq_refl). reflexivity. }
  rewrite WV. destruct (N.leb_spec MAX_FILENAME_SZ (lenN v)); [unfold MAX_FILENAME_SZ in *; lia|]. reflexivity.
Qed.
Lemma load_first_line : forall D f v t k ns cur, d_read D f = Some (ascii "Include " ++ v ++ 10 :: t) ->
  v <> [] -> Forall (fun c => is_white c = false) v -> lenN v <= 150 -> ~ In 0 v ->
  config_load D (Datatypes.S k) cur ns f =
  match handle_include D (config_load D k cur) v ns with
  | COk ns' => load_lines D (config_load D k) (pieces (MAX_LINE_SIZE - 1) t) ns' cur
  | CErr => CErr
  | CUndef => CUndef
  end.
Proof.
  intros D f v t k ns cur RF NE SG LG NG. rewrite (config_load_S D k cur ns f _ RF).
  assert (NL : ~ In 10 (ascii "Include " ++ v)).
  { intros I. apply in_app_or in I. destruct I as [I|I]; [vm_compute in I; intuition discriminate|].
    rewrite Forall_forall in SG. specialize (SG 10 I). discriminate SG. }
  rewrite app_assoc. rewrite (pieces_line (ascii "Include " ++ v) t _ NL).
  2: { rewrite app_length. unfold lenN in LG. change (List.length (ascii "Include ")) with 8%nat. change (MAX_LINE_SIZE - 1)%nat with 159%nat. lia. }
  cbn [load_lines].
  assert (NZ : ~ In 0 ((ascii "Include " ++ v) ++ [10])).
  { intros I. apply in_app_or in I. destruct I as [I|[I|[]]]; [|discriminate]. apply in_app_or in I. destruct I as [I|I]; [vm_compute in I; intuition discriminate|exact (NG I)]. }
  rewrite (cstr_id _ NZ). pose proof (parse_include D (config_load D k) v ns cur NE SG LG) as PI.
  set (p := (ascii "Include " ++ v) ++ [10]) in *.
  assert (SB : snd (span blank p) = p) by reflexivity.
  rewrite SB. cbv zeta. destruct (N.leb_spec (lenN p) 2) as [L2|L2].
  { exfalso. unfold p, lenN in L2. rewrite !app_length in L2. change (List.length (ascii "Include ")) with 8%nat in L2. lia. }
  change (prefixb [35] p) with false. cbv iota. rewrite PI. destruct (handle_include D (config_load D k cur) v ns); reflexivity.
Qed.

(* ---- files without Match blocks ---- *)
Lemma load_sane : forall D load ps h x, Forall (fun p => ~ In 0 p /\ line_ok p) ps -> sane h -> (exists ds, settings h ds) ->
  load_lines D load ps [h] 0 = COk [x] -> sane x.
Proof.
  induction ps as [|p ps IH]; intros h x F N1 (ds & DS) H; [cbn in H; injection H as <-; exact N1|].
  inversion F as [|? ? [P1 P2] F']; subst. apply line_step in H as (ns' & cur' & ST & H); [|assumption|assumption].
  remember O as cur. remember [h] as ns. destruct ST as [LI|d c1 c2 LI PR NT TR|ws h1 t c0 c2 LI NS CC E2 CO].
  - subst. eapply IH; eauto.
  - subst. cbn in NT, H. injection NT as <-. destruct (TR ds DS N1) as (S2 & N2 & _). eapply IH; eauto.
  - exfalso. subst ns. cbn [app List.length] in H.
    destruct (config_copy_settings h c0 ds N1 DS ltac:(injection NS as <- <-; exact CC)) as (S0 & N0 & U0 & G0).
    change [h; c2] with (h :: [] ++ [c2]) in H. change 1%nat with (Datatypes.S (@List.length conf [])) in H.
    assert (SE : settings c2 (ds ++ [])) by (rewrite app_nil_r, E2; apply set_sel_settings; exact S0).
    assert (NE2 : sane c2) by (rewrite E2; apply set_sel_sane; exact N0).
    apply (load_block D _ ds h ps [] c2 [] [x] F' DS N1 SE NE2) in H as (c' & nodes & E & _). discriminate E.
Qed.
Definition head_ok (h : conf) (ds : list directive) : Prop := settings h ds /\ sane h /\ cf_usr h = None /\ cf_grp h = None.
Lemma load_no_blocks : forall D load s h ds r, ordinary s -> snd (sections (items s)) = [] -> head_ok h ds ->
  load_lines D load (pieces (MAX_LINE_SIZE - 1) s) [h] 0 = COk r ->
  exists h', r = [h'] /\ head_ok h' (ds ++ fst (sections (items s))).
Proof.
  intros D load s h ds r OG NB (S & N & U & G) H. destruct (ordinary_pieces s OG) as [FP FI].
  destruct (load_head D load _ h ds r FP S N U G H) as (h' & nodes & E & S' & U' & G' & FB & AP).
  rewrite FI in *. rewrite NB in FB. inversion FB; subst nodes. exists h'. split; [exact E|].
  split; [exact S'|]. split; [|split; assumption]. subst r. eapply load_sane; [exact FP|exact N|exists ds; exact S|exact H].
Qed.
Lemma load_all_no_blocks : forall D k dir names texts h ds r, texts_of D dir names texts -> head_ok h ds ->
  load_all (config_load D (Datatypes.S k) 0) dir names [h] = COk r ->
  exists h', r = [h'] /\ head_ok h' (ds ++ flat_map (fun s => fst (sections (items s))) texts).
Proof.
  intros D k dir names texts h ds r F. revert h ds r. induction F as [|n s names texts (R & O & NB) F IH]; intros h ds r HO H; cbn [load_all flat_map] in *.
  - inversion H; subst. exists h. split; [reflexivity|]. now rewrite app_nil_r.
  - destruct (PATH_MAX <=? lenN (dir ++ 47 :: n)); [discriminate|].
    rewrite (config_load_S D k 0 [h] _ s R) in H.
    destruct (load_lines D (config_load D k) (pieces (MAX_LINE_SIZE - 1) s) [h] 0) as [x| |] eqn:E; try discriminate.
    destruct (load_no_blocks D _ s h ds x O NB HO E) as (h1 & -> & H1). destruct (IH h1 _ r H1 H) as (h2 & -> & H2).
    exists h2. split; [reflexivity|]. now rewrite app_assoc.
Qed.
Lemma after_head : forall D load t h ds r u gs, ordinary t -> head_ok h ds ->
  load_lines D load (pieces (MAX_LINE_SIZE - 1) t) [h] 0 = COk r ->
  settings (user_conf r (Some u) gs) (ds ++ governing t u gs).
Proof.
  intros D load t h ds r u gs OT (S & N & U & G) H. destruct (ordinary_pieces t OT) as [FP2 FI2].
  destruct (load_head D load _ h ds r FP2 S N U G H) as (h2 & nodes & E & S2 & U2 & G2 & FB2 & _).
  rewrite FI2 in *. unfold governing. destruct (sections (items t)) as [gt bt]. cbn [fst snd] in *.
  unfold user_conf. rewrite E. cbn [find]. unfold matches_user at 1. rewrite U2, G2.
  pose proof (find_blocks u gs _ nodes bt FB2) as K. rewrite app_assoc.
  destruct (find (matches_user (Some u) gs) nodes), (find (fun b => applies u gs (fst b)) bt); try contradiction; [exact K|].
  cbn [hd]. rewrite app_nil_r. exact S2.
Qed.

Lemma pattern_chars : forall dir pre post (P : N -> Prop), P 47 -> P 42 -> Forall P dir -> Forall P pre -> Forall P post -> Forall P (pattern dir pre post).
Proof. intros. unfold pattern. apply Forall_app. split; [assumption|]. constructor; [assumption|]. apply Forall_app. split; [assumption|]. constructor; assumption. Qed.
Lemma matches_both : forall pre post n, name_matches pre post n = true -> (exists r, n = pre ++ r) /\ (exists r, n = r ++ post).
Proof.
  intros pre post n H. unfold name_matches in H. apply andb_true_iff in H. destruct H as [A B]. split.
  - apply orb_true_iff in A. destruct A as [A|A].
    + apply N.eqb_eq in A. destruct pre; [eexists; reflexivity|unfold lenN in A; cbn in A; lia].
    + apply andb_true_iff in A. destruct A as [_ A]. apply prefixb_iff. exact A.
  - apply orb_true_iff in B. destruct B as [B|B].
    + apply N.eqb_eq in B. exists n. destruct post; [now rewrite app_nil_r|unfold lenN in B; cbn in B; lia].
    + apply andb_true_iff in B. destruct B as [_ B]. apply bytes_eqb_eq in B.
      exists (firstn (N.to_nat (lenN n - lenN post)) n). unfold dropN in B. rewrite <- B at 2. symmetry. apply firstn_skipn.
Qed.
Lemma matches_selected : forall pre post es names, NoDup (map fst es) ->
  (forall n, In (n, false) es -> lenN n <= lenN pre + lenN post -> ~ ((exists r, n = pre ++ r) /\ (exists r, n = r ++ post))) ->
  selected pre post es names -> filter (name_matches pre post) (sorted_names es) = names.
Proof.
  intros pre post es names ND NE [O S]. destruct (sorted_ok es ND) as [A B].
  apply order_unique; [apply filter_order; exact A|exact O|].
  intro n. rewrite filter_In, B, S. split; intros [I M]; (split; [exact I|]).
  - destruct (N.le_gt_cases (lenN n) (lenN pre + lenN post)) as [L|L]; [destruct (NE n I L); apply matches_both; exact M|]. apply name_matches_iff; assumption.
  - destruct (N.le_gt_cases (lenN n) (lenN pre + lenN post)) as [L|L]; [|apply name_matches_iff; assumption].
    exfalso. destruct M as [mid M]. apply (NE n I L). split; [exists (mid ++ post); exact M|exists (pre ++ mid); rewrite M; now rewrite app_assoc].
Qed.
Lemma head_new : head_ok conf_new [].
Proof. split; [exact conf_new_settings|]. split; [exact conf_new_sane|]. split; reflexivity. Qed.
