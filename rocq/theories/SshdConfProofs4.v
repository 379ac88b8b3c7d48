(* SshdConfProofs4.v - the configuration file: what is loaded, and circles of
   Include. *)
From Coq Require Import List NArith ZArith Lia Bool String.
From Verif Require Import Base NegoSpec SshdConfModel SshdConfSpec SshdConfProofs SshdConfProofs2 SshdConfProofs3.
Import ListNotations.
Open Scope N_scope.

Definition inv (c : conf) : Prop := sane c /\ exists ds, settings c ds.

Lemma config_int_of_decimal : forall v n, decimal v = Some n -> 1 <= n <= 4294967295 -> get_config_int v false = Some (Z.of_N n).
Proof.
  intros v n D R. unfold get_config_int. destruct (rev v) as [|c r] eqn:E.
  - apply (f_equal (@rev N)) in E. rewrite rev_involutive in E. subst v. discriminate D.
  - destruct (number_decimal v n D) as [A _]. rewrite A.
    assert (L : long_ok (Z.of_N n) = true) by (unfold long_ok, LONG_MAX; apply andb_true_intro; split; apply Z.leb_le; lia).
    rewrite L. destruct (Z.eqb_spec (Z.of_N n) 0); [lia|]. cbn [andb]. destruct (Z.ltb_spec 0 (Z.of_N n)); [|lia].
    rewrite Z.mul_1_r, L. reflexivity.
Qed.
Lemma config_int_of_seconds : forall v n, seconds v = Some n -> 1 <= n <= 4294967295 -> get_config_int v true = Some (Z.of_N n).
Proof.
  intros v n D R. unfold get_config_int. unfold seconds in D. destruct (rev v) as [|c r] eqn:E; [discriminate|].
  assert (K : forall num m mult, decimal num = Some m -> Z.of_N n = (Z.of_N m * mult)%Z -> (1 <= mult)%Z ->
    (match atol num with
     | None => None
     | Some z0 => if Z.eqb z0 0 && negb (bytes_eqb num [48]) then Some WS_BAD_ARG_NUM
        else if Z.ltb 0 z0 then if long_ok (z0 * mult)%Z then Some (z0 * mult)%Z else None else Some z0 end) = Some (Z.of_N n)).
  { intros num m mult Dm EQ M1. destruct (number_decimal num m Dm) as [A _]. rewrite A.
    assert (0 < Z.of_N m <= Z.of_N n)%Z by nia.
    assert (L : long_ok (Z.of_N m) = true) by (unfold long_ok, LONG_MAX; apply andb_true_intro; split; apply Z.leb_le; lia).
    rewrite L. destruct (Z.eqb_spec (Z.of_N m) 0); [lia|]. cbn [andb]. destruct (Z.ltb_spec 0 (Z.of_N m)); [|lia].
    rewrite <- EQ.
    assert (L2 : long_ok (Z.of_N n) = true) by (unfold long_ok, LONG_MAX; apply andb_true_intro; split; apply Z.leb_le; lia).
    rewrite L2. reflexivity. }
  destruct (c =? 109).
  - destruct (decimal (rev r)) as [m|] eqn:M; [|discriminate]. injection D as <-. apply (K _ m); [exact M|lia|lia].
  - destruct (c =? 104).
    + destruct (decimal (rev r)) as [m|] eqn:M; [|discriminate]. injection D as <-. apply (K _ m); [exact M|lia|lia].
    + apply (K _ n); [exact D|lia|lia].
Qed.

(* an acceptable directive is taken *)
Lemma word_opt_some : forall v w, word_opt v = Some w -> v = w /\ v <> [].
Proof. intros [|x v] w H; [discriminate|]. injection H as <-. split; [reflexivity|discriminate]. Qed.
Lemma handle_option_accepts : forall o k full c, In (o, k) options -> o <> OInclude -> o <> OMatch ->
  (full = [] \/ exists x t, full = x :: t /\ is_white x = false) -> acceptable (Dir k (word_opt (word full)) (arg_of full)) ->
  exists c', handle_option o (word full) full c = HOk c'.
Proof.
  intros o k full c I N1 N2 FU (PR & PO & PT & GR). destruct PR as (P1 & P2 & P3 & P4). cbn [d_key d_word] in *.
  set (v := word full) in *.
  assert (CW : forall w, word_opt v = Some w -> forall f, exists c', set_string v f = HOk c').
  { intros w E f. apply word_opt_some in E as [E NE]. unfold set_string. unfold v in *. rewrite create_string_word. destruct (word full); [contradiction|eauto]. }
  assert (CF : forall w, word_opt v = Some w -> forall f, exists c', set_string full f = HOk c').
  { intros w E f. apply word_opt_some in E as [E NE]. unfold set_string. destruct FU as [->|(x & t & -> & X)]; [exfalso; apply NE; reflexivity|].
    rewrite create_string_text by exact X. eauto. }
  assert (CY : forall w, word_opt v = Some w /\ yes_or_no w -> forall f, exists c', yes_no v f = HOk c').
  { intros w [E Y] f. apply word_opt_some in E as [E _]. rewrite E. unfold yes_no, is_lit. destruct Y as [-> | ->]; cbn; eauto. }
  unfold options in I. cbn [In] in I.
  repeat match type of I with
  | _ \/ _ => destruct I as [I|I]
  | False => destruct I
  end; try (injection I as <- <-); try contradiction; cbn [handle_option];
  try (eexists; reflexivity);
  try (destruct (P1 ltac:(cbn; tauto)) as (w & Hw); exact (CY w Hw _));
  try (destruct (P4 ltac:(cbn; tauto)) as (w & Hw); first [exact (CW w Hw _)|exact (CF w Hw _)]).
  - destruct (P3 eq_refl) as (w & Hw & Hin). apply word_opt_some in Hw as [E _]. rewrite E. unfold handle_priv_sep, is_lit.
    cbn in Hin. destruct Hin as [<-|[<-|[<-|[]]]]; cbn; eauto.
  - destruct (PT eq_refl) as (w & Hw & Dw). apply word_opt_some in Hw as [E _]. rewrite E. unfold handle_protocol.
    rewrite (config_int_of_decimal w 2 Dw ltac:(lia)). cbn. eauto.
  - destruct (GR eq_refl) as (w & n & Hw & Dw & R). apply word_opt_some in Hw as [E _]. rewrite E. unfold handle_grace.
    rewrite (config_int_of_seconds w n Dw R). destruct (Z.ltb_spec (Z.of_N n) 0); [lia|]. eauto.
  - destruct (PO eq_refl) as (w & n & Hw & Dw & R). apply word_opt_some in Hw as [E _]. rewrite E. unfold handle_port.
    rewrite (config_int_of_decimal w n Dw ltac:(lia)). destruct (Z.leb_spec (Z.of_N n) 0); [lia|]. destruct (Z.leb_spec (Z.of_N n) 65535); [|lia]. eauto.
  - destruct (P2 eq_refl) as (w & Hw & Hin). apply word_opt_some in Hw as [E _]. rewrite E. unfold handle_root, is_lit.
    cbn in Hin. destruct Hin as [<-|[<-|[<-|[<-|[<-|[]]]]]]; cbn; eauto.
Qed.

(* Match lines are taken *)
Lemma user_group_lit : forall k, k = ascii "User" \/ k = ascii "Group" -> (is_lit k "User" || is_lit k "Group")%bool = true.
Proof. intros k [-> | ->]; reflexivity. Qed.
Lemma check_match_accepts : forall n fuel l found, (List.length l <= n)%nat -> (List.length l <= fuel)%nat -> pairs_ok (words l) ->
  (words l = [] -> found = true) -> check_match fuel found l = true.
Proof.
  induction n as [|n IH]; intros fuel l found L LF PO NE.
  - assert (l = []) as -> by (destruct l; [reflexivity|cbn in L; lia]). destruct fuel; cbn; apply NE; reflexivity.
  - destruct fuel as [|fuel]. { assert (l = []) as -> by (destruct l; [reflexivity|cbn in LF; lia]). cbn. apply NE; reflexivity. }
    cbn [check_match]. destruct (words l) as [|k [|m r]] eqn:W.
    + assert (S := W). apply words_nil_skip in S. rewrite S. apply NE; reflexivity.
    + destruct PO.
    + destruct (words_uncons l k (m :: r) W) as (c & t & S & K & R & _). destruct (words_two l k m r W) as (W1 & W2 & W3 & WL & _).
      destruct PO as [KK PO]. rewrite S in *. cbv zeta. rewrite K, (user_group_lit k KK).
      apply IH; [lia|lia|rewrite W3; exact PO|reflexivity].
Qed.
Lemma parse_match_accepts : forall n fuel l c, (List.length l <= n)%nat -> (List.length l <= fuel)%nat -> pairs_ok (words l) ->
  exists c', parse_match fuel c l = Some c'.
Proof.
  induction n as [|n IH]; intros fuel l c L LF PO.
  - assert (l = []) as -> by (destruct l; [reflexivity|cbn in L; lia]). destruct fuel; cbn; eauto.
  - destruct fuel as [|fuel]; [cbn; eauto|].
    cbn [parse_match]. destruct (words l) as [|k [|m r]] eqn:W.
    + assert (S := W). apply words_nil_skip in S. rewrite S. eauto.
    + destruct PO.
    + destruct (words_uncons l k (m :: r) W) as (ch & t & S & K & R & _). destruct (words_two l k m r W) as (W1 & W2 & W3 & WL & _ & NB).
      destruct PO as [KK PO]. rewrite S in *. cbv zeta. rewrite K, (user_group_lit k KK), W2.
      assert (CS : create_string m = Some m) by (rewrite <- W2, create_string_word, W2; destruct m; [contradiction|reflexivity]).
      destruct m as [|m0 mt]; [contradiction|]. rewrite CS.
      apply IH; [lia|lia|rewrite W3; exact PO].
Qed.

Lemma nth_upd : forall {A} n (x : A) l, (n < List.length l)%nat -> (n < List.length (upd n x l))%nat.
Proof. induction n as [|n IH]; intros x [|a l] H; cbn in *; try lia. specialize (IH x l). lia. Qed.
Lemma upd_forall : forall {A} (P : A -> Prop) n x l, Forall P l -> P x -> Forall P (upd n x l).
Proof. induction n as [|n IH]; intros x l F H; destruct F; cbn; constructor; auto. Qed.

Definition plain_line (p : bytes) : Prop := forall c, In c p -> c <> 0 /\ c <> 11 /\ c <> 12 /\ c <> 13.
Lemma line_accepts : forall D load p t ns cur, plain_line p -> (lenN p <= 159) -> (exists l, piece_of p l /\ ~ In 10 l) -> line_ok p ->
  Forall (fun i => match i with IDir d => acceptable d | IMatch ws => criteria_ok ws end) (line_item p) ->
  Forall inv ns -> (cur < List.length ns)%nat ->
  exists ns' cur', load_lines D load (p :: t) ns cur = load_lines D load t ns' cur' /\ Forall inv ns' /\ (cur' < List.length ns')%nat.
Proof.
  intros D load p t ns cur PL LP (l0 & PO & N10) LO AC IV CU. cbn [load_lines].
  rewrite (cstr_id p) by (intros H; apply PL in H; tauto).
  set (l := snd (span blank p)) in *. cbv zeta.
  assert (WL : words l = words p) by (apply words_drop; exact blank_white).
  assert (AL : argument l = argument p) by (apply argument_drop; exact blank_white).
  assert (IL : forall c, In c l -> In c p).
  { intros c H. rewrite <- (span_app blank p). apply in_or_app. right. exact H. }
  assert (HD : forall c u, l = c :: u -> is_white c = true -> l = [10]).
  { intros c u E W. pose proof (span_snd_hd blank p c u E) as NB.
    assert (c = 10).
    { specialize (PL c (IL c ltac:(rewrite E; left; reflexivity))). unfold blank in NB. apply orb_false_iff in NB as [B1 B2].
      apply N.eqb_neq in B1, B2. unfold is_white in W. cbn in W. rewrite !orb_true_iff, !N.eqb_eq in W. intuition congruence. }
    subst c. destruct PO as [-> | ->]; [|exfalso; apply N10; apply IL; rewrite E; left; reflexivity].
    unfold l in *. clear -E N10.
    assert (G : forall l0, ~ In 10 l0 -> forall u, snd (span blank (l0 ++ [10])) = 10 :: u -> snd (span blank (l0 ++ [10])) = [10]).
    { clear. intros l0. induction l0 as [|d t IH]; intros N10 u E; [reflexivity|]. cbn [app span] in *.
      destruct (blank d) eqn:B.
      - specialize (IH (fun h => N10 (or_intror h))). destruct (span blank (t ++ [10])); cbn in *. eapply IH; exact E.
      - cbn in E. injection E as -> _. exfalso. apply N10. left; reflexivity. }
    eapply G; eassumption. }
  unfold line_ok in LO. destruct (words p) as [|k ws] eqn:W.
  - exists ns, cur. split; [|split; assumption].
    destruct l as [|c u] eqn:L; [reflexivity|].
    assert (E : is_white c = true).
    { destruct (is_white c) eqn:E; [reflexivity|]. destruct (words_cons (c :: u) c u eq_refl E) as [A _]. rewrite A in WL. discriminate. }
    rewrite (HD c u eq_refl E). reflexivity.
  - destruct l as [|c u] eqn:L; [discriminate WL|].
    destruct (is_white c) eqn:E. { rewrite (HD c u eq_refl E) in WL. discriminate WL. }
    destruct (words_cons (c :: u) c u eq_refl E) as [A NN]. rewrite A in WL. injection WL as KW RW.
    assert (AF : argument p = trim_end (skip_ws (after_word (c :: u)))) by (rewrite <- AL; apply (argument_full _ c u eq_refl E)).
    assert (PF : prefixb [35] (c :: u) = comment k).
    { rewrite (prefixb_word [35]) by (repeat constructor). rewrite KW. unfold comment. destruct k; [reflexivity|]. cbn [prefixb]. rewrite N.eqb_sym. apply andb_true_r. }
    destruct (comment k) eqn:CK.
    { exists ns, cur. split; [|split; assumption]. rewrite PF. destruct (lenN (c :: u) <=? 2); reflexivity. }
    destruct LO as [LO|LO]; [discriminate|].
    destruct (N.leb_spec (lenN (c :: u)) 2) as [L2|L2].
    { exfalso. assert (LK : lenN k <= 2).
      { rewrite <- KW. unfold lenN, word in *. pose proof (span_app (fun c0 => negb (space c0)) (c :: u)) as SA. apply (f_equal (@List.length N)) in SA. rewrite app_length in SA. lia. }
      revert LO. unfold keywords. cbn [map In]. intros LO. repeat (destruct LO as [LO|LO]; [rewrite <- LO in LK; exfalso; apply LK; reflexivity|]). destruct LO. }
    rewrite PF. unfold parse_line.
    destruct (find_option_keyword k LO) as (o & FO & IO & NI).
    assert (FF : find (fun o0 => prefixb (snd o0) (c :: u)) options = Some (o, k)) by (rewrite find_option_word, KW; exact FO).
    rewrite FF. cbv zeta.
    assert (DW : dropN (lenN k) (c :: u) = after_word (c :: u)) by (rewrite <- KW; apply dropN_word).
    rewrite DW.
    assert (LV : lenN (word (skip_ws (after_word (c :: u)))) <= 159).
    { unfold lenN in *. unfold word, skip_ws, after_word. 
      pose proof (span_len (fun c0 => negb (space c0)) (c :: u)) as Q1. pose proof (span_len space (snd (span (fun c0 => negb (space c0)) (c :: u)))) as Q2.
      pose proof (span_app (fun c0 => negb (space c0)) (snd (span space (snd (span (fun c0 => negb (space c0)) (c :: u)))))) as Q3.
      apply (f_equal (@List.length N)) in Q3. rewrite app_length in Q3.
      pose proof (span_len blank p) as Q4. fold l in Q4. rewrite L in Q4. lia. }
    set (full := skip_ws (after_word (c :: u))) in *.
    destruct (N.leb_spec MAX_FILENAME_SZ (lenN (word full))) as [LM|LM]; [unfold MAX_FILENAME_SZ in LM; lia|].
    pose proof (skip_ws_form (after_word (c :: u))) as FU. fold full in FU.
    assert (WF : words full = ws) by (unfold full; rewrite words_skip; exact RW).
    pose proof (hd_words full ws FU WF) as HE.
    unfold line_item in AC. rewrite W, CK in AC.
    destruct (bytes_eqb k (ascii "Match")) eqn:KM.
    + apply bytes_eqb_eq in KM.
      assert (o = OMatch) as -> by (rewrite KM in FO; vm_compute in FO; injection FO as <-; reflexivity).
      inversion AC as [|? ? CO _]; subst. destruct CO as [NE PK]. rewrite <- WF in NE, PK.
      unfold handle_match.
      rewrite (check_match_accepts (List.length full) (List.length full) full false); [|lia|lia|exact PK|intros; contradiction].
      destruct ns as [|h nt]; [cbn in CU; lia|]. inversion IV as [|? ? [SH (ds & DS)] IV']; subst.
      destruct (config_copy_ok h SH) as [c0 CC]. rewrite CC.
      destruct (parse_match_accepts (List.length full) (List.length full) full c0 ltac:(lia) ltac:(lia) PK) as [c1 PM]. rewrite PM.
      exists ((h :: nt) ++ [c1]), (List.length (h :: nt)). split; [reflexivity|].
      split; [|rewrite app_length; cbn; lia]. apply Forall_app. split; [exact IV|]. constructor; [|constructor].
      destruct (config_copy_settings h c0 ds SH DS CC) as (S0 & N0 & _).
      destruct (parse_match_words (List.length full) full (List.length full) (List.length full) false c0 c1 ltac:(lia) ltac:(lia) ltac:(lia)
        (check_match_accepts (List.length full) (List.length full) full false ltac:(lia) ltac:(lia) PK ltac:(intros; contradiction)) PM)
        as ((us & gr & E1 & _) & _).
      rewrite E1. split; [apply set_sel_sane; exact N0|]. exists ds. apply set_sel_settings; exact S0.
    + assert (NM : o <> OMatch).
      { intros EO. rewrite EO in IO. revert IO. unfold options. cbn [In]. intros IO.
        repeat (destruct IO as [IO|IO]; [first [discriminate IO|injection IO as IO; rewrite <- IO in KM; vm_compute in KM; discriminate KM]|]). destruct IO. }
      inversion AC as [|? ? AD _]; subst x l1. rewrite HE, AF in AD. fold (arg_of full) in AD.
      destruct (nth_error ns cur) as [c1|] eqn:NT; [|apply nth_error_None in NT; lia].
      destruct (handle_option_accepts o k full c1 IO NI NM FU AD) as [c2 HO].
      exists (upd cur c2 ns), cur.
      split; [destruct o; try contradiction; rewrite HO; reflexivity|].
      split; [|apply nth_upd; exact CU]. apply upd_forall; [exact IV|].
      rewrite Forall_forall in IV. destruct (IV c1 (nth_error_In _ _ NT)) as [SN (ds & DS)].
      destruct (handle_option_settings o k (word full) full c1 c2 ds IO FU eq_refl DS SN HO) as (S2 & N2 & _).
      split; [exact N2|]. eexists; exact S2.
Qed.

Lemma lines_no_nl : forall s l, In l (lines s) -> ~ In 10 l.
Proof.
  induction s as [|d t IH]; intros l H1 H2; [destruct H1|]. cbn [lines] in H1. destruct (N.eqb_spec d 10) as [->|NE].
  - destruct H1 as [<-|H1]; [destruct H2|]. exact (IH l H1 H2).
  - destruct (lines t) as [|l' ls].
    + destruct H1 as [<-|[]]. destruct H2 as [H2|[]]. congruence.
    + destruct H1 as [<-|H1]; [destruct H2 as [H2|H2]; [congruence|]; exact (IH l' (or_introl eq_refl) H2)|exact (IH l (or_intror H1) H2)].
Qed.

Lemma config_load_S : forall D k cur ns f s, d_read D f = Some s ->
  config_load D (Datatypes.S k) cur ns f = load_lines D (config_load D k) (pieces (MAX_LINE_SIZE - 1) s) ns cur.
Proof. intros D k cur ns f s R. cbn [config_load]. now rewrite R. Qed.
Lemma load_plain : forall D f s, d_read D f = Some s -> plain_file s -> exists ns, load_config D f = COk ns.
Proof.
  intros D f s R ([NZ O] & PC & AC). unfold load_config. change MAX_INCLUDE_DEPTH with (Datatypes.S 15). rewrite (config_load_S D 15 0 [conf_new] f s R).
  generalize (config_load D 15). intros load.
  assert (F2 : Forall2 piece_of (pieces (MAX_LINE_SIZE - 1) s) (lines s)).
  { apply pieces_lines. eapply Forall_impl; [|exact O]. cbn. tauto. }
  assert (K : forall ps ls, Forall2 piece_of ps ls ->
    Forall (fun l => plain_line l /\ ~ In 10 l /\ lenN l <= 158 /\ line_ok l /\
      Forall (fun i => match i with IDir d => acceptable d | IMatch ws => criteria_ok ws end) (line_item l)) ls ->
    forall ns cur, Forall inv ns -> (cur < List.length ns)%nat -> exists r, load_lines D load ps ns cur = COk r).
  { intros ps ls F. induction F as [|p l ps ls P F IH]; intros FL ns cur IV CU; [cbn; eauto|].
    inversion FL as [|? ? (A1 & A2 & A3 & A4 & A5) FL']; subst. destruct (piece_item p l P) as [PI PW].
    destruct (line_accepts D load p ps ns cur) as (ns' & cur' & E & IV' & CU').
    - intros c H. destruct P as [-> | ->]; [|apply A1; exact H]. apply in_app_or in H. destruct H as [H|[<-|[]]]; [apply A1; exact H|repeat split; discriminate].
    - destruct P as [-> | ->]; unfold lenN in *; [rewrite app_length; cbn [List.length]|]; lia.
    - exists l. split; assumption.
    - unfold line_ok. rewrite PW. exact A4.
    - rewrite PI. exact A5.
    - exact IV.
    - exact CU.
    - rewrite E. apply IH; assumption. }
  apply (K _ _ F2); [|constructor; [split; [exact conf_new_sane|exists []; exact conf_new_settings]|constructor]|cbn; lia].
  apply Forall_forall. intros l Hl. rewrite Forall_forall in O. destruct (O l Hl) as [O1 O2].
  split; [|split; [exact (lines_no_nl s l Hl)|split; [exact O1|split; [exact O2|]]]].
  - intros c Hc. pose proof (in_lines s l c Hl Hc) as Hs. split; [intros ->; exact (NZ Hs)|apply PC; exact Hs].
  - apply Forall_forall. intros i Hi. unfold items in AC. rewrite Forall_forall in AC. apply AC. apply in_flat_map. exists l. split; assumption.
Qed.

(* circles of Include *)
Lemma find_star_none : forall r post, Forall (fun c => is_white c = false /\ c <> 42) r -> find_star r post = None.
Proof.
  induction r as [|c t IH]; intros post H; [reflexivity|]. inversion H as [|? ? [_ N1] H']; subst. cbn [find_star].
  destruct (N.eqb_spec c 42); [contradiction|]. destruct (c =? 47); [reflexivity|]. apply IH; exact H'.
Qed.
Lemma span_stop : forall p w c t, Forall (fun x => p x = true) w -> p c = false -> span p (w ++ c :: t) = (w, c :: t).
Proof. induction w as [|x w IH]; intros c t H N1; cbn; [now rewrite N1|]. inversion H as [|? ? E H']; subst. rewrite E, (IH c t H' N1). reflexivity. Qed.
Lemma span_end : forall p w, Forall (fun x => p x = true) w -> span p w = (w, []).
Proof. induction w as [|x w IH]; intros H; cbn; [reflexivity|]. inversion H as [|? ? E H']; subst. rewrite E, (IH H'). reflexivity. Qed.

Lemma include_line : forall D load g p ns cur r, simple_name g -> lenN g <= 158 -> piece_of p (ascii "Include " ++ g) ->
  parse_line D load p ns cur = r -> (exists ns', load cur ns g = COk ns') \/ r = LErr \/ r = LUndef.
Proof.
  intros D load g p ns cur r [NE SG] LG P H.
  assert (E : exists tl, p = ascii "Include " ++ g ++ tl /\ (tl = [] \/ tl = [10])).
  { destruct P as [-> | ->]; [exists [10]; rewrite <- app_assoc; auto|exists []; rewrite app_nil_r; auto]. }
  destruct E as (tl & -> & TL). unfold parse_line in H.
  assert (FF : find (fun o => prefixb (snd o) (ascii "Include " ++ g ++ tl)) options = Some (OInclude, ascii "Include")) by reflexivity.
  rewrite FF in H. cbv zeta in H.
  assert (FU : skip_ws (dropN (lenN (ascii "Include")) (ascii "Include " ++ g ++ tl)) = g ++ tl).
  { change (dropN (lenN (ascii "Include")) (ascii "Include " ++ g ++ tl)) with (32 :: g ++ tl).
    unfold skip_ws. cbn [span]. change (space 32) with true. cbv iota.
    destruct g as [|c g']; [contradiction|]. inversion SG as [|? ? [W _] SG']; subst. cbn [app span]. rewrite space_white, W. reflexivity. }
  rewrite FU in H.
  assert (WV : word (g ++ tl) = g).
  { assert (NW : Forall (fun x => negb (space x) = true) g) by (eapply Forall_impl; [|exact SG]; intros c [A _]; rewrite space_white, A; reflexivity).
    unfold word. destruct TL as [-> | ->]; [rewrite app_nil_r, (span_end _ g NW); reflexivity|rewrite (span_stop _ g 10 [] NW eq_refl); reflexivity]. }
  rewrite WV in H. destruct (N.leb_spec MAX_FILENAME_SZ (lenN g)); [unfold MAX_FILENAME_SZ in *; lia|].
  unfold handle_include in H. destruct g as [|c g']; [contradiction|].
  rewrite find_star_none in H.
  - destruct (load cur ns (c :: g')) as [ns'| |]; [left; eauto|right; left; congruence|right; right; congruence].
  - apply Forall_rev. inversion SG; assumption.
Qed.

Lemma load_lines_through : forall D load ps p ns cur r, In p ps -> prefixb (ascii "Include ") p = true -> ~ In 0 p ->
  (forall ns cur, parse_line D load p ns cur = LErr \/ parse_line D load p ns cur = LUndef) -> load_lines D load ps ns cur <> COk r.
Proof.
  intros D load ps. induction ps as [|q ps IH]; intros p ns cur r I PF NZ BAD H; [destruct I|].
  cbn [load_lines] in H. destruct I as [->|I].
  - rewrite (cstr_id p NZ) in H.
    destruct p as [|c p']; [discriminate PF|]. change (ascii "Include ") with (73 :: ascii "nclude ") in PF. cbn [prefixb] in PF. apply andb_prop in PF as [C1 PF]. apply N.eqb_eq in C1. subst c.
    revert H. cbv zeta.
    match goal with |- context [span blank ?x] => change (span blank x) with (@nil N, x) end. cbn [snd].
    destruct (N.leb_spec (lenN (73 :: p')) 2) as [L2|L2].
    { exfalso. destruct p' as [|a [|b p'']]; [discriminate PF| |unfold lenN in L2; cbn [List.length] in L2; lia].
      cbn in PF. rewrite andb_false_r in PF. discriminate. }
    change (prefixb [35] (73 :: p')) with false. cbv iota.
    destruct (BAD ns cur) as [B|B]; rewrite B; intros H; discriminate H.
  - revert H. cbv zeta. destruct (lenN (snd (span blank (cstr q))) <=? 2); [eapply IH; eassumption|].
    destruct (prefixb [35] (snd (span blank (cstr q)))); [eapply IH; eassumption|].
    destruct (parse_line D load (snd (span blank (cstr q))) ns cur); [eapply IH; eassumption|intros H; discriminate H|intros H; discriminate H].
Qed.

Lemma forall2_in_r : forall {A B} (R : A -> B -> Prop) xs ys y, Forall2 R xs ys -> In y ys -> exists x, In x xs /\ R x y.
Proof. intros A B R xs ys y F. induction F as [|x y' xs ys H F IH]; intros I; [destruct I|]. destruct I as [<-|I]; [exists x; split; [left; reflexivity|exact H]|]. destruct (IH I) as (x' & I' & H'). exists x'. split; [right; exact I'|exact H']. Qed.

Lemma circle_never_loads : forall D fs, circle D fs -> Forall simple_name fs ->
  forall depth f cur ns r, In f fs -> config_load D depth cur ns f <> COk r.
Proof.
  intros D fs C SN. induction depth as [|depth IH]; intros f cur ns r I; [discriminate|].
  cbn [config_load]. destruct (C f I) as (s & g & R & NZ & SH & INC & IG). rewrite R.
  pose proof (pieces_lines s SH) as F2. destruct (forall2_in_r _ _ _ _ F2 INC) as (p & IP & PO).
  rewrite Forall_forall in SN. pose proof (SN g IG) as SG.
  assert (LG : lenN g <= 158).
  { rewrite Forall_forall in SH. specialize (SH _ INC). unfold lenN in *. rewrite app_length in SH. lia. }
  apply (load_lines_through D _ _ p ns cur r IP).
  - destruct PO as [-> | ->]; reflexivity.
  - intros H0. assert (H1 : In 0 (ascii "Include " ++ g)).
    { destruct PO as [-> | ->]; [|exact H0]. apply in_app_or in H0. destruct H0 as [H0|[H0|[]]]; [exact H0|discriminate]. }
    apply NZ. eapply in_lines; eassumption.
  - intros ns' cur'. destruct (include_line D (config_load D depth) g p ns' cur' _ SG LG PO eq_refl) as [(x & E)|[E|E]]; [|left; exact E|right; exact E].
    exfalso. exact (IH g cur' ns' x IG E).
Qed.

(* an Include at the head of a file *)
Lemma pieces_line : forall l t room, ~ In 10 l -> (List.length l + 1 <= room)%nat ->
  pieces room (l ++ 10 :: t) = (l ++ [10]) :: pieces (MAX_LINE_SIZE - 1) t.
Proof.
  induction l as [|c l IH]; intros t room N10 L.
  - cbn [app pieces]. destruct room as [|[|r]]; reflexivity.
  - cbn [app]. cbn [List.length] in L. destruct room as [|[|r]]; [lia|lia|]. cbn [pieces].
    destruct (N.eqb_spec c 10) as [->|_]; [exfalso; apply N10; left; reflexivity|].
    rewrite IH; [reflexivity|intros H; apply N10; right; exact H|lia].
Qed.
Lemma lines_line : forall l t, ~ In 10 l -> lines (l ++ 10 :: t) = l :: lines t.
Proof.
  induction l as [|c l IH]; intros t N10; [reflexivity|]. cbn [app lines].
  destruct (N.eqb_spec c 10) as [->|_]; [exfalso; apply N10; left; reflexivity|].
  rewrite IH; [reflexivity|intros H; apply N10; right; exact H].
Qed.
Lemma ordinary_pieces : forall s, ordinary s ->
  Forall (fun p => ~ In 0 p /\ line_ok p) (pieces (MAX_LINE_SIZE - 1) s) /\ flat_map line_item (pieces (MAX_LINE_SIZE - 1) s) = items s.
Proof.
  intros s [NZ O].
  assert (F2 : Forall2 piece_of (pieces (MAX_LINE_SIZE - 1) s) (lines s)).
  { apply pieces_lines. eapply Forall_impl; [|exact O]. cbn. tauto. }
  unfold items. assert (NL : forall l, In l (lines s) -> ~ In 0 l) by (intros l Hl H0; apply NZ; eapply in_lines; eassumption).
  clear NZ. revert O NL. induction F2 as [|p l ps ls P F2 IH]; intros O NL; [split; [constructor|reflexivity]|].
  inversion O as [|? ? [O1 O2] O3]; subst. destruct (IH O3 (fun l' h => NL l' (or_intror h))) as [I1 I2]. destruct (piece_item p l P) as [PI PW]. split.
  - constructor; [|exact I1]. split.
    + intros H0. specialize (NL l (or_introl eq_refl)). destruct P as [-> | ->]; [|exact (NL H0)].
      apply in_app_or in H0. destruct H0 as [H0|[H0|[]]]; [exact (NL H0)|discriminate].
    + unfold line_ok. rewrite PW. exact O2.
  - cbn [flat_map]. rewrite PI, I2. reflexivity.
Qed.

Lemma load_include_first : forall D f g sg t ns,
  d_read D f = Some (ascii "Include " ++ g ++ 10 :: t) -> d_read D g = Some sg -> simple_name g -> lenN g <= 150 -> ~ In 0 g ->
  ordinary sg -> snd (sections (items sg)) = [] -> ordinary t -> load_config D f = COk ns ->
  forall u gs, settings (user_conf ns (Some u) gs) (fst (sections (items sg)) ++ governing t u gs).
Proof.
  intros D f g sg t ns RF RG SG LG NG OG NB OT H u gs.
  unfold load_config in H. change MAX_INCLUDE_DEPTH with (Datatypes.S (Datatypes.S 14)) in H. rewrite (config_load_S D 15 0 [conf_new] f _ RF) in H.
  assert (NL : ~ In 10 (ascii "Include " ++ g)).
  { intros I. apply in_app_or in I. destruct I as [I|I]; [vm_compute in I; intuition discriminate|].
    destruct SG as [_ SG]. rewrite Forall_forall in SG. destruct (SG 10 I) as [W _]. discriminate W. }
  rewrite app_assoc in H. rewrite (pieces_line (ascii "Include " ++ g) t _ NL) in H.
  2: { rewrite app_length. unfold lenN in LG. change (List.length (ascii "Include ")) with 8%nat. change (MAX_LINE_SIZE - 1)%nat with 159%nat. lia. }
  cbn [load_lines] in H.
  assert (NZ : ~ In 0 ((ascii "Include " ++ g) ++ [10])).
  { intros I. apply in_app_or in I. destruct I as [I|[I|[]]]; [|discriminate]. apply in_app_or in I. destruct I as [I|I]; [vm_compute in I; intuition discriminate|exact (NG I)]. }
  rewrite (cstr_id _ NZ) in H.
  set (p := (ascii "Include " ++ g) ++ [10]) in *.
  assert (SB : snd (span blank p) = p) by reflexivity.
  rewrite SB in H. cbv zeta in H.
  destruct (N.leb_spec (lenN p) 2) as [L2|L2].
  { exfalso. unfold p, lenN in L2. rewrite !app_length in L2. change (List.length (ascii "Include ")) with 8%nat in L2. lia. }
  change (prefixb [35] p) with false in H. cbv iota in H.
  destruct (parse_line D (config_load D 15) p [conf_new] 0) as [ns1 cur1| |] eqn:PL; try discriminate.
  (* what the Include did *)
  assert (INC : ns1 = match config_load D 15 0 [conf_new] g with COk x => x | _ => [] end /\ cur1 = O /\ exists x, config_load D 15 0 [conf_new] g = COk x).
  { unfold parse_line in PL.
    assert (FF : find (fun o => prefixb (snd o) p) options = Some (OInclude, ascii "Include")) by reflexivity.
    rewrite FF in PL. cbv zeta in PL.
    assert (FU : skip_ws (dropN (lenN (ascii "Include")) p) = g ++ [10]).
    { unfold p. rewrite <- app_assoc. change (dropN (lenN (ascii "Include")) (ascii "Include " ++ g ++ [10])) with (32 :: g ++ [10]).
      unfold skip_ws. cbn [span]. change (space 32) with true. cbv iota.
      destruct SG as [NE SG]. destruct g as [|c g']; [contradiction|]. inversion SG as [|? ? [W _] SG']; subst. cbn [app span]. rewrite space_white, W. reflexivity. }
    rewrite FU in PL.
    assert (WV : word (g ++ [10]) = g).
    { assert (NW : Forall (fun x => negb (space x) = true) g) by (destruct SG as [_ SG]; eapply Forall_impl; [|exact SG]; intros c [A _]; rewrite space_white, A; reflexivity).
      unfold word. rewrite (span_stop _ g 10 [] NW eq_refl). reflexivity. }
    rewrite WV in PL. destruct (MAX_FILENAME_SZ <=? lenN g); [discriminate|].
    unfold handle_include in PL. destruct SG as [NE SG]. destruct g as [|c g'] eqn:GE; [contradiction|].
    rewrite find_star_none in PL by (apply Forall_rev; inversion SG; assumption).
    destruct (config_load D 15 0 [conf_new] (c :: g')) as [x| |] eqn:CL; try discriminate. injection PL as <- <-. eauto. }
  destruct INC as (E1 & -> & x & CL). rewrite CL in E1. subst ns1.
  rewrite (config_load_S D 14 0 [conf_new] g sg RG) in CL.
  destruct (ordinary_pieces sg OG) as [FP FI].
  destruct (load_head D _ _ conf_new [] x FP conf_new_settings conf_new_sane eq_refl eq_refl CL) as (h' & nodes & E & S' & U' & G' & FB & AP).
  rewrite FI in *. rewrite NB in FB. inversion FB; subst nodes. subst x. cbn [app] in S'.
  destruct (ordinary_pieces t OT) as [FP2 FI2].
  assert (SN : sane h').
  { clear -CL FP. assert (K : forall ps h x, Forall (fun p => ~ In 0 p /\ line_ok p) ps -> sane h -> (exists ds, settings h ds) ->
      load_lines D (config_load D 14) ps [h] 0 = COk [x] -> sane x).
    { induction ps as [|p ps IH]; intros h x F N1 (ds & DS) H; [cbn in H; injection H as <-; exact N1|].
      inversion F as [|? ? [P1 P2] F']; subst. apply line_step in H as (ns' & cur' & ST & H); [|assumption|assumption].
      remember O as cur. remember [h] as ns. destruct ST as [LI|d c1 c2 LI PR NT TR|ws h1 t c0 c2 LI NS CC E2 CO].
      - subst. eapply IH; eauto.
      - subst. cbn in NT, H. injection NT as <-. destruct (TR ds DS N1) as (S2 & N2 & _). eapply IH; eauto.
      - exfalso. subst ns. cbn [app List.length] in H.
        destruct (config_copy_settings h c0 ds N1 DS ltac:(injection NS as <- <-; exact CC)) as (S0 & N0 & U0 & G0).
        change [h; c2] with (h :: [] ++ [c2]) in H. change 1%nat with (Datatypes.S (@List.length conf [])) in H.
        assert (SE : settings c2 (ds ++ [])) by (rewrite app_nil_r, E2; apply set_sel_settings; exact S0).
        assert (NE2 : sane c2) by (rewrite E2; apply set_sel_sane; exact N0).
        apply (load_block D _ ds h ps [] c2 [] [x] F' DS N1 SE NE2) in H as (c' & nodes & E & _). discriminate E. }
    eapply K; [exact FP|exact conf_new_sane|exists []; exact conf_new_settings|exact CL]. }
  destruct (load_head D _ _ h' (fst (sections (items sg))) ns FP2 S' SN U' G' H) as (h2 & nodes & E & S2 & U2 & G2 & FB2 & _).
  rewrite FI2 in *. unfold governing. destruct (sections (items t)) as [gt bt]. cbn [fst snd] in *.
  unfold user_conf. rewrite E. cbn [find]. unfold matches_user at 1. rewrite U2, G2.
  pose proof (find_blocks u gs _ nodes bt FB2) as K.
  rewrite app_assoc.
  destruct (find (matches_user (Some u) gs) nodes), (find (fun b => applies u gs (fst b)) bt); try contradiction; [exact K|].
  cbn [hd]. rewrite app_nil_r. exact S2.
Qed.
