(* SshdConfProofs.v - the configuration file: lines, words, directives. *)
From Coq Require Import List NArith ZArith Lia Bool String.
From Verif Require Import Base NegoSpec SshdConfModel SshdConfSpec.
Import ListNotations.
Open Scope N_scope.

Lemma bytes_eqb_eq : forall a b, bytes_eqb a b = true <-> a = b.
Proof.
  induction a as [|x a IH]; destruct b as [|y b]; cbn; try (split; congruence).
  rewrite andb_true_iff, N.eqb_eq, IH. split; [intros [-> ->]; reflexivity|intros E; injection E; auto].
Qed.
Lemma bytes_eqb_refl : forall a, bytes_eqb a a = true.
Proof. intros; apply bytes_eqb_eq; reflexivity. Qed.
Lemma bytes_eqb_sym : forall a b, bytes_eqb a b = bytes_eqb b a.
Proof. intros a b. destruct (bytes_eqb a b) eqn:E, (bytes_eqb b a) eqn:F; try reflexivity.
  - apply bytes_eqb_eq in E; subst; rewrite bytes_eqb_refl in F; congruence.
  - apply bytes_eqb_eq in F; subst; rewrite bytes_eqb_refl in E; congruence.
Qed.

Lemma space_white : forall c, space c = is_white c.
Proof.
  intros c. unfold space, is_white. cbn. rewrite orb_false_r.
  destruct (N.eqb_spec c 32), (N.eqb_spec c 9), (N.eqb_spec c 10), (N.eqb_spec c 11), (N.eqb_spec c 12), (N.eqb_spec c 13),
    (N.leb_spec 9 c), (N.leb_spec c 13); cbn; try reflexivity; lia.
Qed.

Arguments is_white : simpl never.
Arguments space : simpl never.

Lemma span_app : forall p l, fst (span p l) ++ snd (span p l) = l.
Proof. induction l as [|c t IH]; cbn; [reflexivity|]. destruct (p c); [|reflexivity]. destruct (span p t) as [a b]; cbn in *. now rewrite IH. Qed.
Lemma span_drop : forall p l, snd (span p l) = drop_while p l.
Proof. induction l as [|c t IH]; cbn; [reflexivity|]. destruct (p c); [|reflexivity]. destruct (span p t); cbn in *. exact IH. Qed.
Lemma span_fst_all : forall p l, Forall (fun c => p c = true) (fst (span p l)).
Proof. induction l as [|c t IH]; cbn; [constructor|]. destruct (p c) eqn:E; [|constructor]. destruct (span p t); cbn in *. constructor; assumption. Qed.
Lemma span_snd_hd : forall p l c t, snd (span p l) = c :: t -> p c = false.
Proof. induction l as [|d l IH]; cbn; [discriminate|]. intros c t. destruct (p d) eqn:E; [|intros H; injection H; intros; subst; exact E]. destruct (span p l) eqn:F; cbn in *. apply IH. Qed.

(* words *)
Lemma words_white : forall c t, is_white c = true -> words (c :: t) = words t.
Proof. intros c t E. cbn [words]. now rewrite E. Qed.
Lemma words_cons : forall l c t, l = c :: t -> is_white c = false ->
  words l = word l :: words (after_word l) /\ word l <> [].
Proof.
  assert (H : forall t c, is_white c = false -> words (c :: t) = word (c :: t) :: words (after_word (c :: t)) /\ word (c :: t) <> []).
  { induction t as [|d t IH]; intros c E.
    - unfold word, after_word. cbn. rewrite space_white, E. cbn. split; [reflexivity|discriminate].
    - destruct (is_white d) eqn:F.
      + split.
        * unfold word, after_word. cbn [words span]. rewrite !space_white, E, F. cbn [negb fst snd words]. rewrite F. reflexivity.
        * unfold word; cbn [span]. rewrite !space_white, E, F. cbn. discriminate.
      + destruct (IH d F) as [W N1].
        assert (A : after_word (c :: d :: t) = after_word (d :: t) /\ word (c :: d :: t) = c :: word (d :: t)).
        { unfold after_word, word. cbn [span]. rewrite !space_white, E, F. cbn [negb].
          destruct (span (fun c0 => negb (space c0)) t) as [a b]; cbn. split; reflexivity. }
        destruct A as [A1 A2]. rewrite A1, A2. split; [|discriminate].
        change (words (c :: d :: t)) with (if is_white c then words (d :: t) else if is_white d then [c] :: words (d :: t) else match words (d :: t) with w :: ws => (c :: w) :: ws | [] => [[c]] end).
        rewrite E, F, W. reflexivity. }
  intros l c t -> E. apply H; exact E.
Qed.
Lemma words_drop : forall p l, (forall c, p c = true -> is_white c = true) -> words (snd (span p l)) = words l.
Proof.
  intros p l Hp. induction l as [|c t IH]; [reflexivity|]. cbn [span].
  destruct (p c) eqn:E; [|reflexivity]. rewrite words_white by (apply Hp; exact E).
  destruct (span p t); cbn in *. exact IH.
Qed.
Lemma words_skip : forall l, words (skip_ws l) = words l.
Proof. intros. apply words_drop. intros c E. now rewrite <- space_white. Qed.
Lemma skip_ws_hd : forall l c t, skip_ws l = c :: t -> is_white c = false.
Proof. intros l c t E. apply span_snd_hd in E. now rewrite <- space_white. Qed.
Lemma words_nil_skip : forall l, words l = [] <-> skip_ws l = [].
Proof.
  intros l. split.
  - intros E. rewrite <- words_skip in E. destruct (skip_ws l) as [|c t] eqn:F; [reflexivity|].
    destruct (words_cons (c :: t) c t eq_refl (skip_ws_hd _ _ _ F)) as [W _]. rewrite W in E. discriminate.
  - intros E. rewrite <- words_skip, E. reflexivity.
Qed.
Lemma words_uncons : forall l k ws, words l = k :: ws ->
  exists c t, skip_ws l = c :: t /\ word (skip_ws l) = k /\ words (after_word (skip_ws l)) = ws /\ k <> [].
Proof.
  intros l k ws E. destruct (skip_ws l) as [|c t] eqn:F.
  - apply words_nil_skip in F. congruence.
  - destruct (words_cons (c :: t) c t eq_refl (skip_ws_hd _ _ _ F)) as [W N1].
    rewrite <- words_skip, F, W in E. injection E as <- <-. exists c, t. repeat split; assumption.
Qed.

(* a newline at the end *)
Lemma words_nl : forall l c, is_white c = true -> words (l ++ [c]) = words l.
Proof.
  intros l n N1. induction l as [|c t IH]; [cbn [app]; rewrite words_white by exact N1; reflexivity|].
  cbn [app]. destruct (is_white c) eqn:E; [rewrite !words_white by exact E; exact IH|].
  destruct t as [|d t].
  - cbn. now rewrite E, N1.
  - cbn [app]. change (words (c :: d :: t ++ [n])) with (if is_white c then words (d :: t ++ [n]) else if is_white d then [c] :: words (d :: t ++ [n]) else match words (d :: t ++ [n]) with w :: ws => (c :: w) :: ws | [] => [[c]] end).
    change (words (c :: d :: t)) with (if is_white c then words (d :: t) else if is_white d then [c] :: words (d :: t) else match words (d :: t) with w :: ws => (c :: w) :: ws | [] => [[c]] end).
    cbn [app] in IH. rewrite IH. reflexivity.
Qed.
Lemma drop_while_app : forall p a b, drop_while p (a ++ b) = match drop_while p a with [] => drop_while p b | r => r ++ b end.
Proof. induction a as [|c t IH]; intros b; cbn; [reflexivity|]. destruct (p c); [apply IH|reflexivity]. Qed.
Definition tail_cut (c : N) : bool := existsb (N.eqb c) [32; 13; 10].
Lemma rev_drop_nl : forall t, rev (drop_while tail_cut (rev (t ++ [10]))) = rev (drop_while tail_cut (rev t)).
Proof. intros t. rewrite rev_app_distr. cbn. reflexivity. Qed.
Lemma argument_nl : forall l, argument (l ++ [10]) = argument l.
Proof.
  intros l. unfold argument. fold tail_cut. rewrite drop_while_app.
  destruct (drop_while is_white l) as [|c t] eqn:E; [reflexivity|].
  rewrite drop_while_app.
  destruct (drop_while (fun c0 => negb (is_white c0)) (c :: t)) as [|d r] eqn:F; [reflexivity|].
  rewrite drop_while_app.
  destruct (drop_while is_white (d :: r)) as [|e q] eqn:G; [reflexivity|].
  apply rev_drop_nl.
Qed.
Lemma drop_while_twice : forall p q l, (forall c, p c = true -> q c = true) -> drop_while q (drop_while p l) = drop_while q l.
Proof. intros p q l H. induction l as [|c t IH]; cbn; [reflexivity|]. destruct (p c) eqn:E; [rewrite (H c E); exact IH|reflexivity]. Qed.
Lemma argument_drop : forall p l, (forall c, p c = true -> is_white c = true) -> argument (snd (span p l)) = argument l.
Proof. intros p l H. unfold argument. rewrite span_drop, (drop_while_twice p is_white l H). reflexivity. Qed.
Lemma trim_end_spec : forall l, trim_end l = rev (drop_while tail_cut (rev l)).
Proof.
  assert (H : forall c, cut_end c = tail_cut c).
  { intros c. unfold cut_end, tail_cut. cbn. destruct (c =? 10), (c =? 32), (c =? 13); reflexivity. }
  induction l as [|c t IH]; [reflexivity|]. cbn [trim_end rev]. rewrite drop_while_app, IH.
  destruct (drop_while tail_cut (rev t)) as [|d r]; cbn [rev].
  - cbn [drop_while]. rewrite H. destruct (tail_cut c); reflexivity.
  - rewrite rev_app_distr. cbn [rev app]. destruct (rev r ++ [d]) eqn:F; [destruct (rev r); discriminate|reflexivity].
Qed.
Lemma drop_while_ext : forall p q l, (forall c, p c = q c) -> drop_while p l = drop_while q l.
Proof. intros p q l H. induction l as [|c t IH]; cbn; [reflexivity|]. rewrite H. destruct (q c); [exact IH|reflexivity]. Qed.

(* what CreateString makes of text that does not start with white space *)
Lemma create_string_text : forall c t, is_white c = false -> create_string (c :: t) = Some (trim_end (c :: t)).
Proof.
  intros c t E. unfold create_string. cbn [span].
  destruct (N.eqb_spec c 32) as [->|N1]; [discriminate E|]. cbn [snd].
  cbn [trim_end]. destruct (trim_end t); [|reflexivity].
  replace (cut_end c) with false; [reflexivity|]. symmetry. unfold cut_end.
  destruct (N.eqb_spec c 10) as [->|_]; [discriminate E|]. destruct (N.eqb_spec c 13) as [->|_]; [discriminate E|].
  destruct (N.eqb_spec c 32); [contradiction|reflexivity].
Qed.
Lemma argument_full : forall l c t, l = c :: t -> is_white c = false -> argument l = trim_end (skip_ws (after_word l)).
Proof.
  intros l c t -> E. unfold argument. fold tail_cut. rewrite trim_end_spec. f_equal. f_equal. f_equal.
  unfold skip_ws, after_word. rewrite !span_drop.
  replace (drop_while is_white (c :: t)) with (c :: t) by (cbn; now rewrite E).
  rewrite (drop_while_ext (fun c0 => negb (is_white c0)) (fun c0 => negb (space c0))) by (intros; now rewrite space_white).
  apply drop_while_ext. intros; now rewrite space_white.
Qed.
Lemma trim_end_nil : forall c t, is_white c = false -> trim_end (c :: t) <> [].
Proof.
  intros c t E. cbn. destruct (trim_end t); [|discriminate].
  replace (cut_end c) with false; [discriminate|]. symmetry. unfold cut_end.
  destruct (N.eqb_spec c 10) as [->|_]; [discriminate E|]. destruct (N.eqb_spec c 13) as [->|_]; [discriminate E|].
  destruct (N.eqb_spec c 32) as [->|_]; [discriminate E|reflexivity].
Qed.
Lemma trim_end_idem : forall l, trim_end (trim_end l) = trim_end l.
Proof.
  induction l as [|c t IH]; [reflexivity|]. cbn [trim_end].
  destruct (trim_end t) as [|d r] eqn:E.
  - destruct (cut_end c) eqn:F; [reflexivity|]. cbn. now rewrite F.
  - cbn [trim_end] in *. rewrite IH. reflexivity.
Qed.
Lemma create_string_idem : forall l s, create_string l = Some s -> create_string s = Some s.
Proof.
  intros l s E. unfold create_string in E.
  destruct (snd (span (fun c => c =? 32) l)) as [|c t] eqn:F; [discriminate|].
  apply span_snd_hd in F. injection E as <-. unfold create_string. cbn [span]. rewrite F. cbn [snd]. now rewrite trim_end_idem.
Qed.
(* a word is kept as it is *)
Lemma trim_end_word : forall w, Forall (fun c => is_white c = false) w -> trim_end w = w.
Proof.
  induction w as [|c t IH]; intros H; [reflexivity|]. inversion H as [|? ? E H']; subst. cbn. rewrite (IH H').
  destruct t; [|reflexivity]. replace (cut_end c) with false; [reflexivity|]. symmetry. unfold cut_end.
  destruct (N.eqb_spec c 10) as [->|_]; [discriminate E|]. destruct (N.eqb_spec c 13) as [->|_]; [discriminate E|].
  destruct (N.eqb_spec c 32) as [->|_]; [discriminate E|reflexivity].
Qed.
Lemma word_nonwhite : forall l, Forall (fun c => is_white c = false) (word l).
Proof.
  intros l. unfold word. eapply Forall_impl; [|apply span_fst_all]. cbn. intros c E. rewrite <- space_white. now destruct (space c).
Qed.
Lemma create_string_word : forall l, create_string (word l) = match word l with [] => None | w => Some w end.
Proof.
  intros l. destruct (word l) as [|c t] eqn:E; [reflexivity|].
  pose proof (word_nonwhite l) as H. rewrite E in H. inversion H; subst.
  rewrite create_string_text by assumption. now rewrite trim_end_word.
Qed.

(* finding the keyword *)
Definition nonwhite (w : bytes) : Prop := Forall (fun c => is_white c = false) w.
Lemma prefixb_word : forall n l, nonwhite n -> prefixb n l = prefixb n (word l).
Proof.
  induction n as [|x n IH]; intros l H; [reflexivity|]. inversion H as [|? ? E H']; subst.
  destruct l as [|c t]; [reflexivity|]. unfold word. cbn [span].
  rewrite space_white. destruct (is_white c) eqn:F; cbn [negb fst].
  - cbn [prefixb]. destruct (N.eqb_spec x c) as [->|_]; [congruence|reflexivity].
  - cbn [prefixb]. rewrite (IH t H'). unfold word. destruct (span (fun c0 => negb (space c0)) t) as [a b]. cbn [fst prefixb]. reflexivity.
Qed.
Lemma options_nonwhite : Forall (fun o => nonwhite (snd o)) options.
Proof. repeat constructor; cbn; repeat constructor. Qed.
Lemma find_ext_in : forall {A} (f g : A -> bool) l, (forall x, In x l -> f x = g x) -> find f l = find g l.
Proof. induction l as [|x l IH]; intros H; cbn; [reflexivity|]. rewrite (H x) by (left; reflexivity). destruct (g x); [reflexivity|]. apply IH. intros; apply H; now right. Qed.
Lemma find_option_word : forall l, find (fun o => prefixb (snd o) l) options = find (fun o => prefixb (snd o) (word l)) options.
Proof.
  intros l. apply find_ext_in. intros o Ho. pose proof options_nonwhite as H. rewrite Forall_forall in H. apply prefixb_word. apply H. exact Ho.
Qed.
Lemma find_option_keyword : forall k, In k keywords ->
  exists o, find (fun o => prefixb (snd o) k) options = Some (o, k) /\ In (o, k) options /\ o <> OInclude.
Proof.
  intros k H. unfold keywords in H. cbn [map In] in H.
  repeat (destruct H as [H|H]; [subst k; eexists; split; [reflexivity|]; split; [cbn; tauto|discriminate]|]). destruct H.
Qed.
Lemma find_option_white : forall c t, is_white c = true -> find (fun o => prefixb (snd o) (c :: t)) options = None.
Proof.
  intros c t E. rewrite find_option_word. unfold word. cbn [span]. rewrite space_white, E. reflexivity.
Qed.

(* the last value of a keyword *)
Lemma last_of_snoc : forall {A} (f : directive -> A) key ds d,
  last_of f key (ds ++ [d]) = if bytes_eqb (d_key d) key then Some (f d) else last_of f key ds.
Proof.
  intros A f key ds d. unfold last_of. rewrite filter_app. cbn [filter].
  destruct (bytes_eqb (d_key d) key); rewrite rev_app_distr; reflexivity.
Qed.
Lemma value_snoc : forall key ds d, value key (ds ++ [d]) = if bytes_eqb (d_key d) (ascii key) then d_word d else value key ds.
Proof. intros. unfold value. rewrite last_of_snoc. destruct (bytes_eqb (d_key d) (ascii key)); [destruct (d_word d); reflexivity|reflexivity]. Qed.
Lemma text_snoc : forall key ds d, text key (ds ++ [d]) = if bytes_eqb (d_key d) (ascii key) then Some (d_arg d) else text key ds.
Proof. intros. apply last_of_snoc. Qed.

(* numbers *)
Lemma span_all : forall p l, forallb p l = true -> span p l = (l, []).
Proof. induction l as [|c t IH]; cbn; [reflexivity|]. intros H. apply andb_prop in H. destruct H as [-> H]. now rewrite (IH H). Qed.
Lemma number_decimal : forall v n, decimal v = Some n -> atol v = (if long_ok (Z.of_N n) then Some (Z.of_N n) else None) /\ number v = Z.of_N n.
Proof.
  intros v n E. unfold decimal in E. destruct v as [|c t]; [discriminate|].
  destruct (forallb (fun c0 => (48 <=? c0) && (c0 <=? 57)) (c :: t)) eqn:F; [|discriminate]. injection E as E.
  assert (G : number (c :: t) = Z.of_N n).
  { unfold number. fold digit in F. rewrite (span_all digit (c :: t) F). cbn [fst]. subst n.
    assert (forall l z, fold_left (fun z0 c0 => (z0 * 10 + Z.of_N (c0 - 48))%Z) l (Z.of_N z) = Z.of_N (fold_left (fun n c0 => n * 10 + (c0 - 48)) l z)).
    { induction l as [|d l IH]; intros z; cbn; [reflexivity|]. rewrite <- IH. f_equal. lia. }
    apply (H (c :: t) 0). }
  split; [|exact G]. unfold atol.
  cbn [forallb] in F. apply andb_prop in F. destruct F as [F _]. apply andb_prop in F. destruct F as [F1 F2].
  apply N.leb_le in F1, F2.
  assert (S : skip_ws (c :: t) = c :: t).
  { unfold skip_ws. cbn [span]. rewrite space_white. replace (is_white c) with false; [reflexivity|].
    symmetry. unfold is_white. cbn.
    destruct (N.eqb_spec c 32), (N.eqb_spec c 9), (N.eqb_spec c 10), (N.eqb_spec c 11), (N.eqb_spec c 12), (N.eqb_spec c 13); cbn; try reflexivity; lia. }
  rewrite S. destruct (N.eqb_spec c 45); [lia|]. destruct (N.eqb_spec c 43); [lia|]. cbn zeta. now rewrite G.
Qed.
Lemma config_int_decimal : forall v n z, decimal v = Some n -> get_config_int v false = Some z -> (0 <= z)%Z -> z = Z.of_N n.
Proof.
  intros v n z D G Z0. unfold get_config_int in G. destruct (rev v) as [|c r]; [injection G as <-; exfalso; compute in Z0; congruence|].
  destruct (number_decimal v n D) as [A _]. rewrite A in G.
  destruct (long_ok (Z.of_N n)); [|discriminate].
  destruct (Z.eqb (Z.of_N n) 0 && negb (bytes_eqb v [48])).
  - injection G as <-. exfalso; compute in Z0; congruence.
  - destruct (Z.ltb_spec 0 (Z.of_N n)).
    + rewrite Z.mul_1_r in G. destruct (long_ok (Z.of_N n)); congruence.
    + congruence.
Qed.
Lemma config_int_seconds : forall v n z, seconds v = Some n -> get_config_int v true = Some z -> (0 <= z)%Z -> z = Z.of_N n.
Proof.
  intros v n z D G Z0. unfold get_config_int in G. unfold seconds in D. destruct (rev v) as [|c r]; [discriminate|].
  assert (K : forall num mult, (match atol num with
      | None => None
      | Some z0 => if Z.eqb z0 0 && negb (bytes_eqb num [48]) then Some WS_BAD_ARG_NUM
          else if Z.ltb 0 z0 then if long_ok (z0 * mult)%Z then Some (z0 * mult)%Z else None else Some z0 end) = Some z ->
      forall m, decimal num = Some m -> z = (Z.of_N m * mult)%Z).
  { intros num mult H m Dm. destruct (number_decimal num m Dm) as [A _]. rewrite A in H.
    destruct (long_ok (Z.of_N m)); [|discriminate].
    destruct (Z.eqb (Z.of_N m) 0 && negb (bytes_eqb num [48])); [injection H as <-; exfalso; compute in Z0; congruence|].
    destruct (Z.ltb_spec 0 (Z.of_N m)).
    - destruct (long_ok (Z.of_N m * mult)); congruence.
    - injection H as <-. assert (m = 0) as -> by lia. reflexivity. }
  destruct (c =? 109).
  - destruct (decimal (rev r)) as [m|] eqn:M; [|discriminate]. injection D as <-. rewrite (K _ _ G m M). lia.
  - destruct (c =? 104).
    + destruct (decimal (rev r)) as [m|] eqn:M; [|discriminate]. injection D as <-. rewrite (K _ _ G m M). lia.
    + rewrite (K _ _ G n D). lia.
Qed.
