(* SshdConfProofs3.v - the configuration file: whole files. *)
From Coq Require Import List NArith ZArith Lia Bool String.
From Verif Require Import Base NegoSpec SshdConfModel SshdConfSpec SshdConfProofs SshdConfProofs2.
Import ListNotations.
Open Scope N_scope.

(* fgets and lines *)
Lemma pieces_nil : forall r, pieces r [] = [].
Proof. destruct r; reflexivity. Qed.
Definition piece_of (p l : bytes) : Prop := p = l ++ [10] \/ p = l.
Lemma pieces_lines_aux : forall s room,
  match lines s with [] => True | l :: ls => (List.length l + 1 <= room)%nat /\ Forall (fun l => (List.length l <= 158)%nat) ls end ->
  Forall2 piece_of (pieces room s) (lines s).
Proof.
  induction s as [|c t IH]; intros room H; [rewrite pieces_nil; constructor|].
  cbn [lines] in *. destruct (N.eqb_spec c 10) as [->|NE].
  - destruct H as [H1 H2].
    assert (T : Forall2 piece_of (pieces (MAX_LINE_SIZE - 1) t) (lines t)).
    { apply IH. destruct (lines t) as [|l ls]; [exact I|]. inversion H2; subst. split; [unfold MAX_LINE_SIZE; cbn; lia|assumption]. }
    cbn [pieces]. destruct room as [|[|r]]; cbn [N.eqb Pos.eqb]; (constructor; [left; reflexivity|exact T]).
  - cbn [pieces]. destruct (lines t) as [|l ls] eqn:E.
    + destruct H as [H1 _]. cbn in H1. destruct room as [|[|r]]; [lia|lia|].
      replace (c =? 10) with false by (symmetry; apply N.eqb_neq; exact NE).
      assert (t = []) as -> by (destruct t as [|d t']; [reflexivity|]; cbn in E; destruct (d =? 10); [discriminate|]; destruct (lines t'); discriminate).
      cbn. constructor; [right; reflexivity|constructor].
    + destruct H as [H1 H2]. cbn [List.length] in H1. destruct room as [|[|r]]; [lia|lia|].
      replace (c =? 10) with false by (symmetry; apply N.eqb_neq; exact NE).
      specialize (IH (Datatypes.S r)). cbn beta iota in IH.
      assert (LL : (List.length l + 1 <= Datatypes.S r)%nat) by (cbn [List.length] in H1; lia). specialize (IH (conj LL H2)).
      inversion IH as [|p ? ps ? P1 P2]; subst. constructor; [|assumption].
      destruct P1 as [-> | ->]; [left|right]; reflexivity.
Qed.
Lemma lenN_len : forall (l : bytes) n, lenN l <= N.of_nat n <-> (List.length l <= n)%nat.
Proof. intros. unfold lenN. lia. Qed.
Lemma pieces_lines : forall s, Forall (fun l => lenN l <= 158) (lines s) -> Forall2 piece_of (pieces (MAX_LINE_SIZE - 1) s) (lines s).
Proof.
  intros s H. apply pieces_lines_aux. destruct (lines s) as [|l ls]; [exact I|]. inversion H as [|? ? H1 H2]; subst.
  split.
  - apply (proj1 (lenN_len l 158)) in H1. change (List.length l + 1 <= 159)%nat. lia.
  - eapply Forall_impl; [|exact H2]. cbn. intros a Ha. apply (proj1 (lenN_len a 158)). exact Ha.
Qed.
Lemma piece_item : forall p l, piece_of p l -> line_item p = line_item l /\ words p = words l.
Proof.
  intros p l [-> | ->]; [|split; reflexivity]. assert (W : words (l ++ [10]) = words l) by (apply words_nl; reflexivity).
  split; [|exact W]. unfold line_item. rewrite W. destruct (words l) as [|k ws]; [reflexivity|]. now rewrite argument_nl.
Qed.
Lemma in_lines : forall s l c, In l (lines s) -> In c l -> In c s.
Proof.
  induction s as [|d t IH]; intros l c H1 H2; [destruct H1|]. cbn [lines] in H1. destruct (d =? 10).
  - destruct H1 as [<-|H1]; [destruct H2|]. right. eapply IH; eassumption.
  - destruct (lines t) as [|l' ls] eqn:E.
    + destruct H1 as [<-|[]]. destruct H2 as [->|[]]. left; reflexivity.
    + destruct H1 as [<-|H1].
      * destruct H2 as [->|H2]; [left; reflexivity|]. right. apply (IH l' c); [left; reflexivity|exact H2].
      * right. apply (IH l c); [right; exact H1|exact H2].
Qed.
Lemma cstr_id : forall l, ~ In 0 l -> cstr l = l.
Proof.
  induction l as [|c t IH]; intros H; [reflexivity|]. unfold cstr in *. cbn [span].
  destruct (N.eqb_spec c 0) as [->|NE]; [exfalso; apply H; left; reflexivity|]. cbn [negb].
  specialize (IH (fun h => H (or_intror h))). destruct (span (fun c0 => negb (c0 =? 0)) t); cbn in *. now rewrite IH.
Qed.

(* values are proper *)
Ltac nokey := intros K; exfalso; revert K; vm_compute; intuition discriminate.
Lemma handle_option_proper : forall o k v full c c' ws,
  In (o, k) options -> word full = v -> (full = [] \/ exists x t, full = x :: t /\ is_white x = false) -> hd_error ws = word_opt v ->
  handle_option o v full c = HOk c' -> proper (Dir k (hd_error ws) (arg_of full)).
Proof.
  intros o k v full c c' ws I W FU HE H.
  assert (VE : forall s, create_string v = Some s -> exists w, hd_error ws = Some w).
  { intros s E. rewrite HE. destruct v; [discriminate E|]. cbn. eauto. }
  assert (FE : forall s, create_string full = Some s -> exists w, hd_error ws = Some w).
  { intros s E. rewrite HE. destruct FU as [->|(x & t & -> & X)]; [discriminate E|].
    destruct (words_cons _ x t eq_refl X) as [_ N1]. rewrite W in N1. destruct v; [contradiction|]. cbn. eauto. }
  assert (VG : forall b n, get_config_int v b = Some n -> n <> WS_BAD_ARG_NUM -> exists w, hd_error ws = Some w).
  { intros b n E N1. rewrite HE. destruct v; [cbn in E; congruence|]. cbn. eauto. }
  assert (YN : v = ascii "yes" \/ v = ascii "no" -> exists w, hd_error ws = Some w /\ yes_or_no w).
  { intros Y. exists v. rewrite HE. split; [destruct Y as [-> | ->]; reflexivity|]. exact Y. }
  unfold options in I. cbn [In] in I. unfold proper. cbn [d_key d_word].
  repeat match type of I with
  | _ \/ _ => destruct I as [I|I]
  | False => destruct I
  end; try (injection I as <- <-); cbn [handle_option] in H; try discriminate H;
  try (repeat split; nokey);
  try (apply set_string_ok in H as (s & E & _); first [apply VE in E|apply FE in E]; repeat split; try nokey; intros _; exact E);
  try (apply yes_no_ok in H as (b & _ & _ & Y); apply YN in Y; repeat split; try nokey; intros _; exact Y).
  - unfold handle_priv_sep, is_lit in H.
    assert (In v (map fst sep_words)).
    { destruct (bytes_eqb v (lit "sandbox")) eqn:E1; [apply bytes_eqb_eq in E1; subst v; rewrite E1; vm_compute; tauto|].
      destruct (bytes_eqb v (lit "yes")) eqn:E2; [apply bytes_eqb_eq in E2; subst v; rewrite E2; vm_compute; tauto|].
      destruct (bytes_eqb v (lit "no")) eqn:E3; [apply bytes_eqb_eq in E3; subst v; rewrite E3; vm_compute; tauto|discriminate]. }
    repeat split; try nokey. intros _. exists v. split; [|assumption]. rewrite HE. destruct v; [|reflexivity]. vm_compute in H0; intuition discriminate.
  - unfold handle_protocol in H. destruct (get_config_int v false) as [n|] eqn:G; [|discriminate].
    destruct (Z.leb_spec n 0); [discriminate|]. apply VG in G; [|intros ->; vm_compute in H0; discriminate].
    repeat split; try nokey. intros _; exact G.
  - unfold handle_grace in H. destruct (get_config_int v true) as [n|] eqn:G; [|discriminate].
    assert (n <> WS_BAD_ARG_NUM) by (intros ->; vm_compute in H; discriminate). apply VG in G; [|assumption].
    repeat split; try nokey. intros _; exact G.
  - unfold handle_port in H. destruct (get_config_int v false) as [n|] eqn:G; [|discriminate].
    destruct (Z.leb_spec n 0); [discriminate|]. apply VG in G; [|intros ->; vm_compute in H0; discriminate].
    repeat split; try nokey. intros _; exact G.
  - unfold handle_root, is_lit in H.
    assert (In v (map fst root_words)).
    { destruct (bytes_eqb v (lit "no")) eqn:E1; [apply bytes_eqb_eq in E1; subst v; rewrite E1; vm_compute; tauto|].
      destruct (bytes_eqb v (lit "yes")) eqn:E2; [apply bytes_eqb_eq in E2; subst v; rewrite E2; vm_compute; tauto|].
      destruct (bytes_eqb v (lit "prohibit-password")) eqn:E3; [apply bytes_eqb_eq in E3; subst v; rewrite E3; vm_compute; tauto|].
      destruct (bytes_eqb v (lit "without-password")) eqn:E4; [apply bytes_eqb_eq in E4; subst v; rewrite E4; vm_compute; tauto|]. cbn [orb] in H.
      destruct (bytes_eqb v (lit "forced-commands-only")) eqn:E5; [apply bytes_eqb_eq in E5; subst v; rewrite E5; vm_compute; tauto|discriminate]. }
    repeat split; try nokey. intros _. exists v. split; [|assumption]. rewrite HE. destruct v; [|reflexivity]. vm_compute in H0; intuition discriminate.
Qed.

(* one line *)
Definition line_ok (p : bytes) : Prop := match words p with [] => True | k :: _ => comment k = true \/ In k keywords end.
Lemma blank_white : forall c, blank c = true -> is_white c = true.
Proof. intros c H. unfold blank in H. apply orb_prop in H. destruct H as [H|H]; apply N.eqb_eq in H; subst c; reflexivity. Qed.

Inductive step (p : bytes) (ns : list conf) (cur : nat) : list conf -> nat -> Prop :=
| StSkip : line_item p = [] -> step p ns cur ns cur
| StDir : forall d c c', line_item p = [IDir d] -> proper d -> nth_error ns cur = Some c ->
    (forall ds, settings c ds -> sane c -> settings c' (ds ++ [d]) /\ sane c' /\ same_sel c c') ->
    step p ns cur (upd cur c' ns) cur
| StMatch : forall ws h t c0 c', line_item p = [IMatch ws] -> ns = h :: t -> config_copy h = Some c0 ->
    c' = set_grp (criterion (ascii "Group") ws) (set_usr (criterion (ascii "User") ws) c0) -> criteria_ok ws ->
    step p ns cur (ns ++ [c']) (List.length ns).

Lemma hd_words : forall full ws, (full = [] \/ exists x t, full = x :: t /\ is_white x = false) -> words full = ws -> hd_error ws = word_opt (word full).
Proof.
  intros full ws [->|(x & t & -> & X)] <-; [reflexivity|]. destruct (words_cons _ x t eq_refl X) as [E N1]. rewrite E. cbn [hd_error].
  destruct (word (x :: t)); [contradiction|reflexivity].
Qed.
Lemma skip_ws_form : forall l, skip_ws l = [] \/ exists x t, skip_ws l = x :: t /\ is_white x = false.
Proof. intros l. destruct (skip_ws l) as [|x t] eqn:E; [left; reflexivity|right]. exists x, t. split; [reflexivity|]. exact (skip_ws_hd _ _ _ E). Qed.
Lemma skip_ws_id : forall x t, is_white x = false -> skip_ws (x :: t) = x :: t.
Proof. intros x t E. unfold skip_ws. cbn [span]. rewrite space_white, E. reflexivity. Qed.
Lemma dropN_word : forall l, dropN (lenN (word l)) l = after_word l.
Proof.
  intros l. unfold dropN, lenN. rewrite Nat2N.id. unfold word, after_word.
  induction l as [|c t IH]; [reflexivity|]. cbn [span]. destruct (negb (space c)); [|reflexivity].
  destruct (span (fun c0 => negb (space c0)) t) as [a b]; cbn in *. exact IH.
Qed.

Lemma line_step : forall D load p t ns cur r, ~ In 0 p -> line_ok p ->
  load_lines D load (p :: t) ns cur = COk r -> exists ns' cur', step p ns cur ns' cur' /\ load_lines D load t ns' cur' = COk r.
Proof.
  intros D load p t ns cur r NZ LO H. cbn [load_lines] in H. rewrite (cstr_id p NZ) in H.
  set (l := snd (span blank p)) in *. cbv zeta in H.
  assert (WL : words l = words p) by (apply words_drop; exact blank_white).
  assert (AL : argument l = argument p) by (apply argument_drop; exact blank_white).
  assert (WH : forall c u, l = c :: u -> is_white c = true -> find (fun o => prefixb (snd o) l) options = None).
  { intros c u -> E. apply find_option_white; exact E. }
  unfold line_ok in LO.
  destruct (words p) as [|k ws] eqn:W.
  - (* blank *)
    assert (LI : line_item p = []) by (unfold line_item; now rewrite W).
    exists ns, cur. split; [apply StSkip; exact LI|].
    destruct (lenN l <=? 2); [exact H|]. destruct l as [|c u] eqn:L.
    + cbn [prefixb] in H. unfold parse_line in H. cbn in H. discriminate.
    + assert (E : is_white c = true).
      { destruct (is_white c) eqn:E; [reflexivity|]. destruct (words_cons (c :: u) c u eq_refl E) as [A _]. rewrite A in WL. discriminate. }
      destruct (prefixb [35] (c :: u)); [exact H|]. unfold parse_line in H. rewrite (WH c u eq_refl E) in H. discriminate.
  - destruct l as [|c u] eqn:L; [discriminate WL|].
    destruct (is_white c) eqn:E.
    { (* never loaded *)
      assert (PF : prefixb [35] (c :: u) = false).
      { cbn [prefixb]. destruct (N.eqb_spec 35 c) as [<-|_]; [discriminate E|reflexivity]. }
      destruct (N.leb_spec (lenN (c :: u)) 2) as [L2|L2].
      - (* two bytes: a one-letter word *)
        destruct LO as [LO|LO].
        + exists ns, cur. split; [apply StSkip; unfold line_item; rewrite W, LO; reflexivity|exact H].
        + exfalso. rewrite words_white in WL by exact E. destruct u as [|c2 u2]; [discriminate WL|]. destruct u2 as [|c3 u3].
          * cbn in WL. destruct (is_white c2); [discriminate|]. injection WL as <- <-. revert LO. unfold keywords. cbn [map In]. intuition discriminate.
          * unfold lenN in L2; cbn [List.length] in L2. lia.
      - rewrite PF in H. unfold parse_line in H. rewrite (WH c u eq_refl E) in H. discriminate. }
    destruct (words_cons (c :: u) c u eq_refl E) as [A NN]. rewrite A in WL. injection WL as KW RW.
    assert (AF : argument p = trim_end (skip_ws (after_word (c :: u)))) by (rewrite <- AL; apply (argument_full _ c u eq_refl E)).
    destruct (comment k) eqn:CK.
    { assert (LI : line_item p = []) by (unfold line_item; now rewrite W, CK).
      exists ns, cur. split; [apply StSkip; exact LI|].
      destruct (lenN (c :: u) <=? 2); [exact H|].
      assert (PF : prefixb [35] (c :: u) = true).
      { rewrite (prefixb_word [35]) by (repeat constructor). rewrite KW. unfold comment in CK. destruct k; [discriminate|]. cbn [prefixb]. rewrite N.eqb_sym, CK. reflexivity. }
      rewrite PF in H. exact H. }
    destruct LO as [LO|LO]; [discriminate|].
    destruct (N.leb_spec (lenN (c :: u)) 2) as [L2|L2].
    { exfalso. assert (LK : lenN k <= 2).
      { rewrite <- KW. unfold lenN, word in *. pose proof (span_app (fun c0 => negb (space c0)) (c :: u)) as SA. apply (f_equal (@List.length N)) in SA. rewrite app_length in SA. lia. }
      revert LO. unfold keywords. cbn [map In]. intros LO. repeat (destruct LO as [LO|LO]; [rewrite <- LO in LK; exfalso; apply LK; reflexivity|]). destruct LO. }
    assert (PF : prefixb [35] (c :: u) = false).
    { rewrite (prefixb_word [35]) by (repeat constructor). rewrite KW. unfold comment in CK. destruct k; [reflexivity|]. cbn [prefixb]. rewrite N.eqb_sym, CK. reflexivity. }
    rewrite PF in H. unfold parse_line in H.
    destruct (find_option_keyword k LO) as (o & FO & IO & NI).
    assert (FF : find (fun o0 => prefixb (snd o0) (c :: u)) options = Some (o, k)).
    { rewrite find_option_word, KW. exact FO. }
    rewrite FF in H. cbv zeta in H.
    assert (DW : dropN (lenN k) (c :: u) = after_word (c :: u)) by (rewrite <- KW; apply dropN_word).
    rewrite DW in H. set (full := skip_ws (after_word (c :: u))) in *.
    destruct (MAX_FILENAME_SZ <=? lenN (word full)); [discriminate|].
    pose proof (skip_ws_form (after_word (c :: u))) as FU. fold full in FU.
    assert (WF : words full = ws) by (unfold full; rewrite words_skip; exact RW).
    pose proof (hd_words full ws FU WF) as HE.
    destruct (bytes_eqb k (ascii "Match")) eqn:KM.
    + apply bytes_eqb_eq in KM.
      assert (o = OMatch) as ->.
      { rewrite KM in FO. vm_compute in FO. injection FO as <-. reflexivity. }
      unfold handle_match in H. destruct (check_match (Datatypes.length full) false full) eqn:CM; [|discriminate].
      destruct ns as [|h nt]; [discriminate|]. destruct (config_copy h) as [c0|] eqn:CC; [|discriminate].
      destruct (parse_match (Datatypes.length full) c0 full) as [c1|] eqn:PM; [|discriminate].
      exists ((h :: nt) ++ [c1]), (List.length (h :: nt)). split; [|exact H].
      destruct (parse_match_words (List.length full) full (List.length full) (List.length full) false c0 c1 ltac:(lia) ltac:(lia) ltac:(lia) CM PM)
        as ((us & gr & E1 & EU & EG) & PO & NE).
      rewrite WF in *.
      assert (CU : cf_usr c0 = None /\ cf_grp c0 = None).
      { revert CC. unfold config_copy. repeat match goal with |- context [copy_string ?x] => destruct (copy_string x); [|discriminate] end. intros CC. injection CC as <-. split; reflexivity. }
      destruct CU as [CU CG]. rewrite CU in EU. rewrite CG in EG.
      apply (StMatch _ _ _ ws h nt c0 c1).
      * unfold line_item. rewrite W, CK, KM, bytes_eqb_refl. reflexivity.
      * reflexivity.
      * exact CC.
      * rewrite E1, EU, EG. destruct (criterion (ascii "User") ws), (criterion (ascii "Group") ws); reflexivity.
      * split; [apply NE; reflexivity|exact PO].
    + assert (NM : o <> OMatch).
      { intros EO. rewrite EO in IO. revert IO. unfold options. cbn [In]. intros IO.
        repeat (destruct IO as [IO|IO]; [first [discriminate IO|injection IO as IO; rewrite <- IO in KM; vm_compute in KM; discriminate KM]|]). destruct IO. }
      assert (H' : match nth_error ns cur with
                   | None => CErr
                   | Some c1 => match handle_option o (word full) full c1 with
                                | HOk c' => load_lines D load t (upd cur c' ns) cur | HErr => CErr | HUndef => CUndef end end = COk r).
      { destruct o; try contradiction; (destruct (nth_error ns cur) as [c1|]; [|discriminate]);
        match type of H with context [handle_option ?a ?b ?d ?e] => destruct (handle_option a b d e) end; exact H. }
      clear H. rename H' into H.
      destruct (nth_error ns cur) as [c1|] eqn:NT; [|discriminate].
      destruct (handle_option o (word full) full c1) as [c2| |] eqn:HO; try discriminate.
      exists (upd cur c2 ns), cur. split; [|exact H].
      apply (StDir _ _ _ (Dir k (hd_error ws) (argument p)) c1 c2).
      * unfold line_item. rewrite W, CK, KM. reflexivity.
      * rewrite AF. eapply handle_option_proper; [exact IO|reflexivity|exact FU|exact HE|exact HO].
      * exact NT.
      * intros ds ST SN. rewrite HE, AF. eapply handle_option_settings; [exact IO|exact FU|reflexivity|exact ST|exact SN|exact HO].
Qed.

(* blocks *)
Definition block_ok (G : list directive) (node : conf) (b : list bytes * list directive) : Prop :=
  settings node (G ++ snd b) /\ cf_usr node = criterion (ascii "User") (fst b) /\ cf_grp node = criterion (ascii "Group") (fst b) /\ criteria_ok (fst b).
Definition all_proper (is : list item) : Prop :=
  Forall (fun i => match i with IDir d => proper d | IMatch ws => criteria_ok ws end) is.

Lemma upd_mid : forall {A} (pre : list A) x y, upd (List.length pre) y (pre ++ [x]) = pre ++ [y].
Proof. induction pre as [|a pre IH]; intros x y; cbn; [reflexivity|]. now rewrite IH. Qed.
Lemma nth_mid : forall {A} (pre : list A) x, nth_error (pre ++ [x]) (List.length pre) = Some x.
Proof. induction pre as [|a pre IH]; intros x; cbn; [reflexivity|apply IH]. Qed.

Lemma set_sel_settings : forall u g c ds, settings c ds -> settings (set_grp g (set_usr u c)) ds.
Proof. intros u g c ds []. constructor; assumption. Qed.
Lemma set_sel_sane : forall u g c, sane c -> sane (set_grp g (set_usr u c)).
Proof. intros u g c []. constructor; assumption. Qed.

Lemma load_block : forall D load G h ps pre c es r,
  Forall (fun p => ~ In 0 p /\ line_ok p) ps -> settings h G -> sane h -> settings c (G ++ es) -> sane c ->
  load_lines D load ps (h :: pre ++ [c]) (Datatypes.S (List.length pre)) = COk r ->
  exists c' nodes, r = h :: pre ++ c' :: nodes /\ settings c' (G ++ es ++ fst (sections (flat_map line_item ps))) /\ same_sel c c' /\
    Forall2 (block_ok G) nodes (snd (sections (flat_map line_item ps))) /\ all_proper (flat_map line_item ps).
Proof.
  intros D load G h ps. induction ps as [|p ps IH]; intros pre c es r FP SH NH SC NC H.
  - cbn in H. injection H as <-. exists c, []. cbn. rewrite app_nil_r. split; [reflexivity|]. split; [exact SC|]. split; [split; reflexivity|]. split; constructor.
  - inversion FP as [|? ? [P1 P2] FP']; subst. apply line_step in H as (ns' & cur' & ST & H); [|assumption|assumption].
    cbn [flat_map]. remember (Datatypes.S (List.length pre)) as cur eqn:CE.
    remember (h :: pre ++ [c]) as ns eqn:NE.
    destruct ST as [LI|d c1 c2 LI PR NT TR|ws h' t c0 c2 LI NS CC E2 CO]; rewrite LI; cbn [app].
    + subst. apply IH; assumption.
    + subst ns cur. change (h :: pre ++ [c]) with ((h :: pre) ++ [c]) in NT, H. change (Datatypes.S (List.length pre)) with (List.length (h :: pre)) in NT, H.
      rewrite nth_mid in NT. injection NT as <-. rewrite upd_mid in H. cbn [app] in H. cbn [List.length] in H.
      destruct (TR _ SC NC) as (SC2 & NC2 & SS). rewrite <- app_assoc in SC2.
      destruct (IH pre c2 (es ++ [d]) r FP' SH NH SC2 NC2 H) as (c' & nodes & E & S' & SS' & F2 & AP).
      exists c', nodes. cbn [sections]. destruct (sections (flat_map line_item ps)) as [g bs]. cbn [fst snd] in *.
      rewrite <- app_assoc in S'. cbn [app] in S'. split; [exact E|]. split; [exact S'|].
      split; [destruct SS, SS'; split; congruence|]. split; [exact F2|]. constructor; assumption.
    + subst ns. injection NS as <- <-.
      destruct (config_copy_settings h c0 G NH SH CC) as (S0 & N0 & U0 & G0).
      assert (LE : List.length (h :: pre ++ [c]) = Datatypes.S (List.length (pre ++ [c]))) by reflexivity. rewrite LE in H.
      cbn [app] in H.
      assert (SE : settings c2 (G ++ [])) by (rewrite app_nil_r, E2; apply set_sel_settings; exact S0).
      assert (NE2 : sane c2) by (rewrite E2; apply set_sel_sane; exact N0).
      destruct (IH (pre ++ [c]) c2 [] r FP' SH NH SE NE2 H) as (c' & nodes & E & S' & SS' & F2 & AP).
      exists c, (c' :: nodes). cbn [sections]. destruct (sections (flat_map line_item ps)) as [g bs]. cbn [fst snd] in *.
      rewrite <- app_assoc in E. cbn [app] in E. split; [exact E|]. rewrite app_nil_r. split; [exact SC|]. split; [split; reflexivity|].
      cbn [app] in S'. split; [|constructor; assumption].
      constructor; [|exact F2]. destruct SS' as [SU SG]. unfold block_ok. cbn [fst snd]. split; [exact S'|].
      rewrite E2 in SU, SG. cbn [set_grp set_usr cf_usr cf_grp] in SU, SG. repeat split; try congruence; destruct CO; assumption.
Qed.

Lemma load_head : forall D load ps h es r,
  Forall (fun p => ~ In 0 p /\ line_ok p) ps -> settings h es -> sane h -> cf_usr h = None -> cf_grp h = None ->
  load_lines D load ps [h] 0 = COk r ->
  exists h' nodes, r = h' :: nodes /\ settings h' (es ++ fst (sections (flat_map line_item ps))) /\ cf_usr h' = None /\ cf_grp h' = None /\
    Forall2 (block_ok (es ++ fst (sections (flat_map line_item ps)))) nodes (snd (sections (flat_map line_item ps))) /\ all_proper (flat_map line_item ps).
Proof.
  intros D load ps. induction ps as [|p ps IH]; intros h es r FP SH NH HU HG H.
  - cbn in H. injection H as <-. exists h, []. cbn. rewrite app_nil_r. split; [reflexivity|]. split; [exact SH|]. split; [exact HU|]. split; [exact HG|]. split; constructor.
  - inversion FP as [|? ? [P1 P2] FP']; subst. apply line_step in H as (ns' & cur' & ST & H); [|assumption|assumption].
    cbn [flat_map]. remember O as cur eqn:CE. remember [h] as ns eqn:NE.
    destruct ST as [LI|d c1 c2 LI PR NT TR|ws h' t c0 c2 LI NS CC E2 CO]; rewrite LI; cbn [app].
    + subst. apply (IH h es r); assumption.
    + subst ns cur. cbn in NT, H. injection NT as <-. destruct (TR _ SH NH) as (S2 & N2 & SU & SG).
      destruct (IH c2 (es ++ [d]) r FP' S2 N2 ltac:(congruence) ltac:(congruence) H) as (hh & nodes & E & S' & U' & G' & F2 & AP).
      exists hh, nodes. cbn [sections]. destruct (sections (flat_map line_item ps)) as [g bs]. cbn [fst snd] in *.
      rewrite <- app_assoc in S', F2. cbn [app] in S', F2. split; [exact E|]. split; [exact S'|]. split; [exact U'|]. split; [exact G'|]. split; [exact F2|]. constructor; assumption.
    + subst ns. injection NS as <- <-.
      destruct (config_copy_settings h c0 es NH SH CC) as (S0 & N0 & U0 & G0).
      assert (SE : settings c2 (es ++ [])) by (rewrite app_nil_r, E2; apply set_sel_settings; exact S0).
      assert (NE2 : sane c2) by (rewrite E2; apply set_sel_sane; exact N0).
      cbn [List.length] in H. change ([h] ++ [c2]) with (h :: [] ++ [c2]) in H. change 1%nat with (Datatypes.S (@List.length conf [])) in H.
      apply (load_block D load es h ps [] c2 [] r FP' SH NH SE NE2) in H as (c' & nodes & E & S' & SS' & F2 & AP).
      exists h, (c' :: nodes). cbn [sections]. destruct (sections (flat_map line_item ps)) as [g bs]. cbn [fst snd app] in *.
      rewrite app_nil_r. split; [exact E|]. split; [exact SH|]. split; [exact HU|]. split; [exact HG|].
      split; [|constructor; assumption].
      constructor; [|exact F2]. destruct SS' as [SU SG]. unfold block_ok. cbn [fst snd]. split; [exact S'|].
      rewrite E2 in SU, SG. cbn [set_grp set_usr cf_usr cf_grp] in SU, SG. repeat split; try congruence; destruct CO; assumption.
Qed.

(* which record governs a user *)
Lemma criteria_some : forall ws, criteria_ok ws -> criterion (ascii "User") ws <> None \/ criterion (ascii "Group") ws <> None.
Proof.
  intros ws [NE PO]. destruct ws as [|k [|n t]]; [contradiction|destruct PO|]. destruct PO as [K _]. cbn [criterion].
  destruct K as [-> | ->].
  - left. destruct (criterion (ascii "User") t); cbn; discriminate.
  - right. destruct (criterion (ascii "Group") t); cbn; discriminate.
Qed.
Lemma matches_applies : forall u gs G node b, block_ok G node b -> matches_user (Some u) gs node = applies u gs (fst b).
Proof.
  intros u gs G node b (_ & U & Gr & CO). unfold matches_user, applies. rewrite U, Gr.
  destruct (criteria_some _ CO) as [H|H];
  destruct (criterion (ascii "User") (fst b)), (criterion (ascii "Group") (fst b)); try contradiction; reflexivity.
Qed.
Lemma find_blocks : forall u gs G nodes bs, Forall2 (block_ok G) nodes bs ->
  match find (matches_user (Some u) gs) nodes, find (fun b => applies u gs (fst b)) bs with
  | Some n, Some b => settings n (G ++ snd b)
  | None, None => True
  | _, _ => False
  end.
Proof.
  intros u gs G nodes bs F. induction F as [|n b nodes bs B F IH]; [exact I|]. cbn [find].
  rewrite (matches_applies u gs G n b B). destruct (applies u gs (fst b)); [apply B|exact IH].
Qed.

Lemma conf_new_settings : settings conf_new [].
Proof. constructor; reflexivity. Qed.
Lemma conf_new_sane : sane conf_new.
Proof. constructor; exact I. Qed.

Lemma load_ordinary : forall D f s ns, d_read D f = Some s -> ordinary s -> load_config D f = COk ns ->
  (forall u gs, settings (user_conf ns (Some u) gs) (governing s u gs)) /\ all_proper (items s).
Proof.
  intros D f s ns R [NZ O] H. unfold load_config, MAX_INCLUDE_DEPTH in H. cbn [config_load] in H. rewrite R in H.
  assert (F2 : Forall2 piece_of (pieces (MAX_LINE_SIZE - 1) s) (lines s)).
  { apply pieces_lines. eapply Forall_impl; [|exact O]. cbn. tauto. }
  assert (FP : Forall (fun p => ~ In 0 p /\ line_ok p) (pieces (MAX_LINE_SIZE - 1) s) /\ flat_map line_item (pieces (MAX_LINE_SIZE - 1) s) = items s).
  { unfold items. assert (NL : forall l, In l (lines s) -> ~ In 0 l) by (intros l Hl H0; apply NZ; eapply in_lines; eassumption).
    clear H R NZ. revert O NL. induction F2 as [|p l ps ls P F2 IH]; intros O NL; [split; [constructor|reflexivity]|].
    inversion O as [|? ? [O1 O2] O3]; subst. destruct (IH O3 (fun l' h => NL l' (or_intror h))) as [I1 I2]. destruct (piece_item p l P) as [PI PW]. split.
    - constructor; [|exact I1]. split.
      + intros H0. specialize (NL l (or_introl eq_refl)). destruct P as [-> | ->]; [|exact (NL H0)].
        apply in_app_or in H0. destruct H0 as [H0|[H0|[]]]; [exact (NL H0)|discriminate].
      + unfold line_ok. rewrite PW. exact O2.
    - cbn [flat_map]. rewrite PI, I2. reflexivity. }
  destruct FP as [FP FI].
  destruct (load_head D _ _ conf_new [] ns FP conf_new_settings conf_new_sane eq_refl eq_refl H) as (h' & nodes & E & S' & U' & G' & FB & AP).
  rewrite FI in *. split; [|exact AP].
  intros u gs. unfold governing. destruct (sections (items s)) as [g bs]. cbn [fst snd app] in *.
  unfold user_conf. rewrite E. cbn [find]. unfold matches_user at 1. rewrite U', G'.
  pose proof (find_blocks u gs g nodes bs FB) as K.
  destruct (find (matches_user (Some u) gs) nodes), (find (fun b => applies u gs (fst b)) bs); try contradiction; [exact K|].
  cbn [hd]. rewrite app_nil_r. exact S'.
Qed.
