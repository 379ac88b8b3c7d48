(* SshdConfProofs6.v - an Include of a file without Match blocks reads as if
   the text of that file stood in its place. *)
From Coq Require Import List NArith ZArith Lia Bool String.
From Verif Require Import Base NegoSpec SshdConfModel SshdConfSpec SshdConfProofs SshdConfProofs2 SshdConfProofs3 SshdConfProofs4 SshdConfProofs5.
Import ListNotations.
Open Scope N_scope.

(* one line, and many, with the cursor they leave *)
Definition one (D : disk) (load : nat -> list conf -> bytes -> cres) (p : bytes) (ns : list conf) (cur : nat) : lres :=
  let l := snd (span blank (cstr p)) in
  if lenN l <=? 2 then LOk ns cur else if prefixb [35] l then LOk ns cur else parse_line D load l ns cur.
Fixpoint go (D : disk) (load : nat -> list conf -> bytes -> cres) (ps : list bytes) (ns : list conf) (cur : nat) : lres :=
  match ps with
  | [] => LOk ns cur
  | p :: t => match one D load p ns cur with LOk ns' cur' => go D load t ns' cur' | LErr => LErr | LUndef => LUndef end
  end.
Definition done (r : lres) : cres := match r with LOk ns _ => COk ns | LErr => CErr | LUndef => CUndef end.
Lemma load_go : forall D load ps ns cur, load_lines D load ps ns cur = done (go D load ps ns cur).
Proof.
  induction ps as [|p ps IH]; intros ns cur; [reflexivity|]. cbn [load_lines go]. unfold one. cbv zeta.
  destruct (lenN (snd (span blank (cstr p))) <=? 2); [apply IH|]. destruct (prefixb [35] (snd (span blank (cstr p)))); [apply IH|].
  destruct (parse_line D load (snd (span blank (cstr p))) ns cur); [apply IH|reflexivity|reflexivity].
Qed.
Lemma go_app : forall D load a b ns cur, go D load (a ++ b) ns cur =
  match go D load a ns cur with LOk ns' cur' => go D load b ns' cur' | LErr => LErr | LUndef => LUndef end.
Proof.
  induction a as [|p a IH]; intros b ns cur; [reflexivity|]. cbn [app go]. destruct (one D load p ns cur); [apply IH|reflexivity|reflexivity].
Qed.

(* the keyword of an ok line *)
Lemma ok_option : forall p, ~ In 0 p -> line_ok p -> let l := snd (span blank (cstr p)) in
  lenN l <= 2 \/ prefixb [35] l = true \/ find (fun o => prefixb (snd o) l) options = None \/
  exists o k ws, find (fun o => prefixb (snd o) l) options = Some (o, k) /\ In (o, k) options /\ o <> OInclude /\ words p = k :: ws /\ comment k = false.
Proof.
  intros p NZ LO. rewrite (cstr_id p NZ). set (l := snd (span blank p)). cbv zeta.
  assert (WL : words l = words p) by (apply words_drop; exact blank_white).
  destruct (N.leb_spec (lenN l) 2) as [L2|L2]; [left; exact L2|right].
  destruct (prefixb [35] l) eqn:PF; [left; reflexivity|right].
  destruct l as [|c u] eqn:L; [left; reflexivity|].
  destruct (is_white c) eqn:E; [left; exact (find_option_white _ _ E)|].
  destruct (words_cons (c :: u) c u eq_refl E) as [A NN]. rewrite A in WL. right.
  unfold line_ok in LO. rewrite <- WL in LO. set (k := word (c :: u)) in *.
  assert (CK : comment k = false).
  { rewrite (prefixb_word [35]) in PF by (repeat constructor). fold k in PF. unfold comment. destruct k; [reflexivity|]. cbn [prefixb] in PF. rewrite N.eqb_sym.
    destruct (35 =? n); [discriminate|reflexivity]. }
  destruct LO as [LO|LO]; [congruence|].
  destruct (find_option_keyword k LO) as (o & FO & IO & NI).
  exists o, k, (words (after_word (c :: u))). repeat split; try assumption; [|now rewrite <- WL].
  rewrite find_option_word. exact FO.
Qed.
Lemma one_same : forall D load D' load' p ns cur, ~ In 0 p -> line_ok p -> one D load p ns cur = one D' load' p ns cur.
Proof.
  intros D load D' load' p ns cur NZ LO. unfold one. cbv zeta. destruct (ok_option p NZ LO) as [H|[H|[H|(o & k & ws & H & _ & NI & _)]]].
  - apply N.leb_le in H. now rewrite H.
  - rewrite H. reflexivity.
  - unfold parse_line. now rewrite H.
  - unfold parse_line. rewrite H. cbv zeta. destruct o; try reflexivity. contradiction.
Qed.
Lemma one_cursor : forall D load p ns cur ns' cur', ~ In 0 p -> line_ok p -> (forall ws, line_item p <> [IMatch ws]) ->
  one D load p ns cur = LOk ns' cur' -> cur' = cur.
Proof.
  intros D load p ns cur ns' cur' NZ LO NM H. unfold one in H. cbv zeta in H.
  destruct (lenN (snd (span blank (cstr p))) <=? 2) eqn:E1; [congruence|]. destruct (prefixb [35] (snd (span blank (cstr p)))) eqn:E2; [congruence|].
  destruct (ok_option p NZ LO) as [K|[K|[K|(o & k & ws & K & IO & NI & W & CK)]]].
  - apply N.leb_le in K. congruence.
  - congruence.
  - unfold parse_line in H. rewrite K in H. discriminate.
  - unfold parse_line in H. rewrite K in H. cbv zeta in H.
    assert (o <> OMatch).
    { intros ->. apply (NM ws). unfold line_item. rewrite W, CK. replace (bytes_eqb k (ascii "Match")) with true; [reflexivity|].
      revert IO. unfold options. cbn [In]. intros IO.
      repeat (destruct IO as [IO|IO]; [first [discriminate IO|injection IO as IO; rewrite <- IO; reflexivity]|]). destruct IO. }
    destruct (MAX_FILENAME_SZ <=? _); [discriminate|].
    destruct o; try contradiction; destruct (nth_error ns cur); try discriminate;
    match type of H with context [handle_option ?a ?b ?d ?e] => destruct (handle_option a b d e) end; congruence.
Qed.
Lemma go_same : forall D load D' load' ps ns cur, Forall (fun p => ~ In 0 p /\ line_ok p) ps -> go D load ps ns cur = go D' load' ps ns cur.
Proof.
  induction ps as [|p ps IH]; intros ns cur F; [reflexivity|]. inversion F as [|? ? [NZ LO] F']; subst. cbn [go].
  rewrite (one_same D load D' load' p ns cur NZ LO). destruct (one D' load' p ns cur); [apply IH; exact F'|reflexivity|reflexivity].
Qed.
Lemma sections_no_match : forall is, snd (sections is) = [] -> forall ws, ~ In (IMatch ws) is.
Proof.
  induction is as [|i is IH]; intros H ws K; [destruct K|]. cbn [sections] in H.
  destruct i as [d|w]; destruct (sections is) as [g bs] eqn:E; [|discriminate H]. destruct K as [K|K]; [discriminate K|exact (IH H ws K)].
Qed.
Lemma go_cursor : forall D load ps ns cur ns' cur', Forall (fun p => ~ In 0 p /\ line_ok p) ps -> (forall ws, ~ In (IMatch ws) (flat_map line_item ps)) ->
  go D load ps ns cur = LOk ns' cur' -> cur' = cur.
Proof.
  induction ps as [|p ps IH]; intros ns cur ns' cur' F NM H; [cbn in H; congruence|]. inversion F as [|? ? [NZ LO] F']; subst. cbn [go] in H.
  destruct (one D load p ns cur) as [n1 c1| |] eqn:E; try discriminate.
  assert (c1 = cur) as -> . { eapply one_cursor; [exact NZ|exact LO| |exact E]. intros ws K. apply (NM ws). cbn [flat_map]. rewrite K. left. reflexivity. }
  eapply IH; [exact F'| |exact H]. intros ws K. apply (NM ws). cbn [flat_map]. apply in_or_app. right. exact K.
Qed.

(* whole lines *)
Lemma ordinary_app : forall a b, ordinary a -> ordinary b -> (a = [] \/ exists m, a = m ++ [10]) -> ordinary (a ++ b) /\ lines (a ++ b) = lines a ++ lines b /\
  pieces (MAX_LINE_SIZE - 1) (a ++ b) = pieces (MAX_LINE_SIZE - 1) a ++ pieces (MAX_LINE_SIZE - 1) b.
Proof.
  intros a b [ZA OA] [ZB OB] W.
  assert (M : lines (a ++ b) = lines a ++ lines b /\ pieces (MAX_LINE_SIZE - 1) (a ++ b) = pieces (MAX_LINE_SIZE - 1) a ++ pieces (MAX_LINE_SIZE - 1) b).
  { clear ZA ZB OB. remember (List.length a) as n eqn:EN. assert (LE : (List.length a <= n)%nat) by lia. clear EN. revert a LE OA W.
    induction n as [|n IH]; intros a LE OA W.
    - destruct a; [|cbn in LE; lia]. split; reflexivity.
    - destruct W as [->|(m & E)]; [split; reflexivity|].
      assert (SP : exists l t, a = l ++ 10 :: t /\ ~ In 10 l).
      { assert (I : In 10 a) by (rewrite E; apply in_or_app; right; left; reflexivity). clear -I. induction a as [|c a IH]; [destruct I|].
        destruct (N.eq_dec c 10) as [->|NE]; [exists [], a; split; [reflexivity|intros []]|]. destruct I as [I|I]; [contradiction|].
        destruct (IH I) as (l & t & -> & N1). exists (c :: l), t. split; [reflexivity|]. intros [K|K]; contradiction. }
      destruct SP as (l & t & -> & N1). rewrite lines_line in OA by exact N1. inversion OA as [|? ? [LL _] OT]; subst.
      assert (WT : t = [] \/ exists m', t = m' ++ [10]).
      { destruct t as [|x t] using rev_ind; [left; reflexivity|right]. exists t. rewrite app_comm_cons, app_assoc in E. apply app_inj_tail in E. destruct E as [_ ->]. reflexivity. }
      destruct (IH t) as [E1 E2]; [rewrite app_length in LE; cbn in LE; lia|exact OT|exact WT|].
      assert (RL : (List.length l + 1 <= MAX_LINE_SIZE - 1)%nat) by (unfold lenN in LL; change (MAX_LINE_SIZE - 1)%nat with 159%nat; lia).
      rewrite <- app_assoc. cbn [app]. rewrite !lines_line, !pieces_line by assumption. rewrite E1, E2. split; reflexivity. }
  destruct M as [M1 M2]. repeat split; try assumption.
  - intros I. apply in_app_or in I. tauto.
  - rewrite M1. apply Forall_app. split; assumption.
Qed.

Lemma include_one : forall D load v ns cur, v <> [] -> Forall (fun c => is_white c = false) v -> lenN v <= 150 -> ~ In 0 v ->
  one D load ((ascii "Include " ++ v) ++ [10]) ns cur =
  match handle_include D (load cur) v ns with COk ns' => LOk ns' cur | CErr => LErr | CUndef => LUndef end.
Proof.
  intros D load v ns cur NE SG LG NG. unfold one.
  assert (NZ : ~ In 0 ((ascii "Include " ++ v) ++ [10])).
  { intros I. apply in_app_or in I. destruct I as [I|[I|[]]]; [|discriminate]. apply in_app_or in I. destruct I as [I|I]; [vm_compute in I; intuition discriminate|exact (NG I)]. }
  rewrite (cstr_id _ NZ). pose proof (parse_include D load v ns cur NE SG LG) as PI.
  set (p := (ascii "Include " ++ v) ++ [10]) in *.
  assert (SB : snd (span blank p) = p) by reflexivity.
  rewrite SB. cbv zeta. destruct (N.leb_spec (lenN p) 2) as [L2|L2].
  { exfalso. unfold p, lenN in L2. rewrite !app_length in L2. change (List.length (ascii "Include ")) with 8%nat in L2. lia. }
  change (prefixb [35] p) with false. cbv iota. exact PI.
Qed.

Lemma include_in_place : forall D D' f g s1 sg t,
  d_read D f = Some (s1 ++ ascii "Include " ++ g ++ 10 :: t) -> d_read D g = Some sg -> simple_name g -> lenN g <= 150 -> ~ In 0 g ->
  ordinary s1 -> (s1 = [] \/ exists m, s1 = m ++ [10]) -> ordinary sg -> (sg = [] \/ exists m, sg = m ++ [10]) -> snd (sections (items sg)) = [] -> ordinary t ->
  d_read D' f = Some (s1 ++ sg ++ t) ->
  load_config D f = load_config D' f.
Proof.
  intros D D' f g s1 sg t RF RG [NE SG] LG NG O1 W1 OG WG NB OT RF'.
  unfold load_config. change MAX_INCLUDE_DEPTH with (Datatypes.S (Datatypes.S 14)).
  rewrite (config_load_S D 15 0 [conf_new] f _ RF), (config_load_S D' 15 0 [conf_new] f _ RF'). rewrite !load_go. f_equal.
  set (il := ascii "Include " ++ g).
  assert (NL : ~ In 10 il).
  { intros I. apply in_app_or in I. destruct I as [I|I]; [vm_compute in I; intuition discriminate|].
    rewrite Forall_forall in SG. destruct (SG 10 I) as [K _]. discriminate K. }
  assert (IL : (List.length il + 1 <= MAX_LINE_SIZE - 1)%nat).
  { unfold il. rewrite app_length. unfold lenN in LG. change (List.length (ascii "Include ")) with 8%nat. change (MAX_LINE_SIZE - 1)%nat with 159%nat. lia. }
  assert (P1 : forall x, pieces (MAX_LINE_SIZE - 1) (s1 ++ x) = pieces (MAX_LINE_SIZE - 1) s1 ++ pieces (MAX_LINE_SIZE - 1) x).
  { clear -O1 W1. intros x. destruct O1 as [_ OA]. remember (List.length s1) as n eqn:EN. assert (LE : (List.length s1 <= n)%nat) by lia. clear EN. revert s1 LE OA W1.
    induction n as [|n IH]; intros a LE OA W.
    - destruct a; [|cbn in LE; lia]. reflexivity.
    - destruct W as [->|(m & E)]; [reflexivity|].
      assert (SP : exists l t, a = l ++ 10 :: t /\ ~ In 10 l).
      { assert (I : In 10 a) by (rewrite E; apply in_or_app; right; left; reflexivity). clear -I. induction a as [|c a IH]; [destruct I|].
        destruct (N.eq_dec c 10) as [->|NE]; [exists [], a; split; [reflexivity|intros []]|]. destruct I as [I|I]; [contradiction|].
        destruct (IH I) as (l & t & -> & N1). exists (c :: l), t. split; [reflexivity|]. intros [K|K]; contradiction. }
      destruct SP as (l & t & -> & N1). rewrite lines_line in OA by exact N1. inversion OA as [|? ? [LL _] OT]; subst.
      assert (WT : t = [] \/ exists m', t = m' ++ [10]).
      { destruct t as [|y t] using rev_ind; [left; reflexivity|right]. exists t. rewrite app_comm_cons, app_assoc in E. apply app_inj_tail in E. destruct E as [_ ->]. reflexivity. }
      pose proof (IH t ltac:(rewrite app_length in LE; cbn in LE; lia) OT WT) as E2.
      assert (RL : (List.length l + 1 <= MAX_LINE_SIZE - 1)%nat) by (unfold lenN in LL; change (MAX_LINE_SIZE - 1)%nat with 159%nat; lia).
      rewrite <- app_assoc. cbn [app]. rewrite !pieces_line by assumption. rewrite E2. reflexivity. }
  destruct (ordinary_app sg t OG OT WG) as (_ & _ & P2).
  rewrite !P1, P2. replace (ascii "Include " ++ g ++ 10 :: t) with (il ++ 10 :: t) by (unfold il; now rewrite <- app_assoc).
  rewrite (pieces_line il t _ NL IL). rewrite !go_app.
  destruct (ordinary_pieces s1 O1) as [F1 _]. destruct (ordinary_pieces sg OG) as [FG FI]. destruct (ordinary_pieces t OT) as [FT _].
  rewrite (go_same D' (config_load D' 15) D (config_load D 15) _ _ _ F1).
  destruct (go D (config_load D 15) (pieces (MAX_LINE_SIZE - 1) s1) [conf_new] 0) as [ns cur| |]; try reflexivity.
  cbn [go]. unfold il.
  assert (SW : Forall (fun c => is_white c = false) g) by (eapply Forall_impl; [|exact SG]; cbn; tauto).
  rewrite (include_one D (config_load D 15) g ns cur NE SW LG NG). rewrite go_app.
  assert (HI : handle_include D (config_load D 15 cur) g ns = config_load D 15 cur ns g).
  { unfold handle_include. destruct g as [|x g]; [contradiction|].
    rewrite (find_star_none (rev g) []); [reflexivity|].
    apply Forall_rev. inversion SG; assumption. }
  rewrite HI, (config_load_S D 14 cur ns g sg RG), load_go.
  rewrite (go_same D' (config_load D' 15) D (config_load D 14) _ ns cur FG).
  destruct (go D (config_load D 14) (pieces (MAX_LINE_SIZE - 1) sg) ns cur) as [ns1 cur1| |] eqn:EG; cbn [done]; try reflexivity.
  assert (cur1 = cur) as ->. { eapply go_cursor; [exact FG| |exact EG]. rewrite FI. exact (sections_no_match _ NB). }
  apply go_same. exact FT.
Qed.
