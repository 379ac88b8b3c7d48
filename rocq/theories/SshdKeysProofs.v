(* SshdKeysProofs.v - reading the authorized_keys file. *)
From Coq Require Import List NArith ZArith Lia Bool String.
From Verif Require Import Base WireModel WireSpec NameTable NegoSpec SshdConfModel SshdConfSpec SshdConfProofs SshdKeysModel SshdKeysSpec.
Import ListNotations.
Open Scope N_scope.

Lemma key_names_types : key_names = key_types.
Proof. vm_compute. reflexivity. Qed.
Lemma known_type : forall ty, existsb (bytes_eqb ty) key_names = true <-> In ty key_types.
Proof.
  intros ty. rewrite key_names_types. rewrite existsb_exists. split.
  - intros (x & I1 & E). apply bytes_eqb_eq in E. subst. exact I1.
  - intros I1. exists ty. split; [exact I1|apply bytes_eqb_refl].
Qed.

(* ---- splitting -------------------------------------------------------- *)
Lemma splits_cons : forall p l, exists w ws, splits p l = w :: ws.
Proof. intros p [|c t]; cbn [splits]; [eauto|]. destruct (p c); [eauto|]. destruct (splits p t); eauto. Qed.
Lemma splits_snoc : forall p l c,
  splits p (l ++ [c]) = if p c then splits p l ++ [[]] else removelast (splits p l) ++ [last (splits p l) [] ++ [c]].
Proof.
  intros p l c. induction l as [|d t IH].
  - cbn. destruct (p c); reflexivity.
  - cbn [app splits]. destruct (splits_cons p t) as (w & ws & E). rewrite IH, E. destruct (p d).
    + destruct (p c); [reflexivity|]. reflexivity.
    + destruct (p c); [reflexivity|]. destruct ws; reflexivity.
Qed.
Lemma splits_last_nil : forall p l, last (splits p l) [] = [] <-> l = [] \/ exists l' c, l = l' ++ [c] /\ p c = true.
Proof.
  intros p l. destruct l as [|x t] using rev_ind.
  - cbn. tauto.
  - rewrite splits_snoc. destruct (p x) eqn:E; rewrite last_last.
    + split; [intros _; right; eauto|reflexivity].
    + split; [intros H; destruct (last (splits p t) []); discriminate H|].
      intros [H|(l' & c & H & P)]; [destruct t; discriminate H|]. apply app_inj_tail in H. destruct H as [_ H]. congruence.
Qed.
Lemma split_removelast : forall (l : list bytes), l <> [] -> l = removelast l ++ [last l []].
Proof. intros. apply app_removelast_last. assumption. Qed.

Lemma fields_nil : fields [] = [].
Proof. reflexivity. Qed.
Lemma fields_blank : forall t, fields (32 :: t) = fields t.
Proof. reflexivity. Qed.
Lemma fields_word : forall l, hd 32 l <> 32 ->
  fields l = fst (span (fun c => negb (is_blank c)) l) :: fields (tl (snd (span (fun c => negb (is_blank c)) l))).
Proof.
  unfold fields. induction l as [|c t IH]; [cbn; congruence|]. cbn [hd]. intros H.
  assert (B : is_blank c = false) by (apply N.eqb_neq; exact H).
  cbn [splits span]. rewrite B. replace (32 =? c) with false by (symmetry; apply N.eqb_neq; congruence). cbn [negb].
  destruct t as [|d u].
  - reflexivity.
  - destruct (N.eq_dec d 32) as [->|D].
    + reflexivity.
    + specialize (IH ltac:(cbn; congruence)). cbn [splits] in IH |- *.
      replace (32 =? d) with false in * by (symmetry; apply N.eqb_neq; congruence).
      destruct (splits_cons (N.eqb 32) u) as (w & ws & E). rewrite E in *. cbn [filter nonempty] in *.
      destruct (span (fun c0 => negb (is_blank c0)) (d :: u)) as [a b] eqn:Es. cbn [fst snd] in *.
      remember (filter nonempty (splits (N.eqb 32) (tl b))) as R.
      assert (Q : d :: w = a /\ filter nonempty ws = R) by (split; congruence). destruct Q as [-> ->]. reflexivity.
Qed.
Lemma fields_drop : forall l, fields (snd (span is_blank l)) = fields l.
Proof.
  induction l as [|c t IH]; [reflexivity|]. cbn [span]. destruct (is_blank c) eqn:E; [|reflexivity].
  unfold is_blank in E. apply N.eqb_eq in E. subst. rewrite fields_blank. destruct (span is_blank t). exact IH.
Qed.
Lemma drop_hd : forall l c t, snd (span is_blank l) = c :: t -> c <> 32.
Proof. intros l c t H. apply span_snd_hd in H. unfold is_blank in H. apply N.eqb_neq in H. exact H. Qed.
Lemma fields_drop_nil : forall l, fields l = [] <-> snd (span is_blank l) = [].
Proof.
  intros l. rewrite <- fields_drop. destruct (snd (span is_blank l)) as [|c t] eqn:E; [split; reflexivity|].
  split; [|discriminate]. rewrite fields_word; [discriminate|]. cbn. apply drop_hd in E. exact E.
Qed.
Lemma strtok_none : forall s, strtok s = None <-> fields s = [].
Proof.
  intros s. rewrite fields_drop_nil. unfold strtok. destruct (snd (span is_blank s)) as [|c t]; [split; reflexivity|].
  destruct (span (fun c0 => negb (is_blank c0)) (c :: t)). split; discriminate.
Qed.
Lemma strtok_some : forall s w r, strtok s = Some (w, r) -> fields s = w :: fields r.
Proof.
  intros s w r H. unfold strtok in H. destruct (snd (span is_blank s)) as [|c t] eqn:E; [discriminate|].
  rewrite <- fields_drop, E. rewrite fields_word; [|cbn; apply (drop_hd _ _ _ E)].
  destruct (span (fun c0 => negb (is_blank c0)) (c :: t)) as [a b]. inversion H; subst. reflexivity.
Qed.
Lemma strtok_cons : forall c t, c <> 32 ->
  strtok (c :: t) = Some (fst (span (fun c => negb (is_blank c)) (c :: t)), tl (snd (span (fun c => negb (is_blank c)) (c :: t)))).
Proof.
  intros c t H. unfold strtok. assert (E : snd (span is_blank (c :: t)) = c :: t).
  { cbn [span]. replace (is_blank c) with false by (symmetry; apply N.eqb_neq; exact H). reflexivity. }
  rewrite E. destruct (span (fun c0 => negb (is_blank c0)) (c :: t)). reflexivity.
Qed.
Lemma fields_ne : forall l w, In w (fields l) -> w <> [].
Proof. intros l w H. unfold fields in H. apply filter_In in H. destruct H as [_ H]. destruct w; [discriminate H|discriminate]. Qed.

(* A newline at the end of a line. *)
Lemma fields_newline : forall l,
  (exists i w, fields l = i ++ [w] /\ fields (l ++ [10]) = i ++ [w ++ [10]] /\ ~ exists l', l = l' ++ [32]) \/
  ((l = [] \/ exists l', l = l' ++ [32]) /\ fields (l ++ [10]) = fields l ++ [[10]]).
Proof.
  intros l. unfold fields. rewrite splits_snoc. change (32 =? 10) with false. cbn [negb].
  destruct (splits_cons (N.eqb 32) l) as (a & b & E).
  assert (Q : splits (N.eqb 32) l <> []) by (rewrite E; discriminate). apply split_removelast in Q.
  pose proof (splits_last_nil (N.eqb 32) l) as L. set (i := removelast (splits (N.eqb 32) l)) in *. set (w := last (splits (N.eqb 32) l) []) in *.
  rewrite Q. rewrite !filter_app. destruct w as [|c t].
  - right. split.
    + destruct (proj1 L eq_refl) as [H|(l' & c & H & P)]; [left; exact H|]. right. apply N.eqb_eq in P. subst. eauto.
    + cbn. rewrite app_nil_r. reflexivity.
  - left. exists (filter nonempty i), (c :: t). split; [reflexivity|]. split; [reflexivity|].
    intros (l' & H). assert (C : c :: t = []) by (apply L; right; exists l', 32; split; [exact H|reflexivity]). discriminate C.
Qed.

(* ---- lines and pieces -------------------------------------------------- *)
(* What fgets returns for the lines of a file none of which is too long. *)
Inductive held : list bytes -> list bytes -> Prop :=
| held_nil : held [] []
| held_last : forall l, l <> [] -> held [l] [l]
| held_cons : forall l ps ls, held ps ls -> held ((l ++ [10]) :: ps) (l :: ls).

Lemma fgets_nil : forall n r, fgets_from n r [] = [].
Proof. intros n [|[|r]]; reflexivity. Qed.
Lemma fgets_held_aux : forall n, (1 <= n)%nat -> forall s room,
  match lines s with [] => True | l :: ls => (List.length l + 1 <= room)%nat /\ Forall (fun l => (List.length l + 1 <= n)%nat) ls end ->
  held (fgets_from n room s) (lines s).
Proof.
  intros n N1. induction s as [|c t IH]; intros room H; [rewrite fgets_nil; constructor|].
  cbn [lines] in H |- *. destruct (N.eqb_spec c 10) as [->|E].
  - destruct H as [H1 H2].
    assert (T : held (fgets_from n n t) (lines t)).
    { apply IH. destruct (lines t) as [|l ls]; [exact I|]. inversion H2; subst. split; assumption. }
    cbn [fgets_from]. destruct room as [|[|r]]; cbn [N.eqb Pos.eqb]; apply (held_cons []); exact T.
  - cbn [fgets_from]. destruct (lines t) as [|l ls] eqn:El.
    + destruct t as [|d u]; [|cbn [lines] in El; destruct (d =? 10); [discriminate|destruct (lines u); discriminate]].
      rewrite !fgets_nil. destruct H as [H _]. cbn in H. destruct room as [|[|r]]; [lia|lia|].
      apply N.eqb_neq in E. rewrite E. constructor. discriminate.
    + destruct H as [H1 H2]. cbn [List.length] in H1. destruct room as [|[|r]]; [lia|lia|].
      apply N.eqb_neq in E. rewrite E. specialize (IH (S r)).
      assert (T : held (fgets_from n (S r) t) (l :: ls)) by (apply IH; split; [lia|exact H2]).
      remember (fgets_from n (S r) t) as P eqn:EP. clear EP. inversion T; subst; [constructor; discriminate|].
      apply (held_cons (c :: l)). assumption.
Qed.
Lemma fgets_held : forall n s, (1 <= n)%nat -> Forall (fun l => (List.length l + 1 <= n)%nat) (lines s) -> held (fgets_all n s) (lines s).
Proof.
  intros n s N1 H. apply fgets_held_aux; [exact N1|]. destruct (lines s) as [|l ls]; [exact I|]. inversion H; subst. split; assumption.
Qed.

(* ---- one line ---------------------------------------------------------- *)
Lemma cstr_id : forall l, ~ In 0 l -> cstr l = l.
Proof.
  intros l H. unfold cstr. rewrite span_all; [reflexivity|]. apply forallb_forall. intros x I1.
  apply negb_true_iff, N.eqb_neq. intros ->. contradiction.
Qed.

Section One.
Variable b64 : bytes -> option bytes.
Variable key : bytes.
Hypothesis KEY : key <> [].
Hypothesis DEC : decoder b64.

(* what the loop does with one piece; None: it goes on *)
Definition one (F : list bytes) : option ares :=
  match F with
  | w :: t :: _ =>
      if match w with c :: _ => c =? 35 | [] => false end then None
      else if existsb (bytes_eqb w) key_names then
        match b64 t with None => Some AErr | Some k => if bytes_eqb k key then Some AYes else None end
      else None
  | [w] => if (lenN w <=? 1) || match w with c :: _ => c =? 35 | [] => false end then None else Some AErr
  | [] => None
  end.

Lemma one_scan : forall p ps, ~ In 0 p -> (forall w, fields p = [w] -> lenN w <= 1 -> lenN (snd (span is_blank p)) <= 1) ->
  scan_lines b64 key (p :: ps) = match one (fields p) with None => scan_lines b64 key ps | Some a => a end.
Proof.
  intros p ps Z W. cbn [scan_lines]. rewrite (cstr_id p Z).
  pose proof (fields_drop p) as FD. pose proof (drop_hd p) as HD. pose proof (fields_drop_nil p) as FN.
  destruct (snd (span is_blank p)) as [|c t] eqn:E.
  - rewrite (proj2 FN eq_refl). reflexivity.
  - specialize (HD c t eq_refl). assert (FW := fields_word (c :: t) HD). rewrite FD in FW.
    set (w := fst (span (fun c0 => negb (is_blank c0)) (c :: t))) in *.
    assert (WH : exists w', w = c :: w').
    { unfold w. cbn [span]. unfold is_blank at 1. apply N.eqb_neq in HD. rewrite HD. cbn [negb].
      destruct (span (fun c0 => negb (is_blank c0)) t). eexists; reflexivity. }
    destruct WH as (w' & WH).
    set (r := tl (snd (span (fun c0 => negb (is_blank c0)) (c :: t)))) in *.
    assert (ST : strtok (c :: t) = Some (w, r)).
    { apply strtok_cons. exact HD. }
    destruct (N.leb_spec (lenN (c :: t)) 1) as [L|L].
    + assert (t = []) by (destruct t; [reflexivity|rewrite !lenN_cons in L; lia]). subst t.
      assert (R0 : r = []). { unfold r. cbn [span]. destruct (negb (is_blank c)); reflexivity. }
      rewrite FW, R0. cbn [one fields].
      assert (w = [c]). { unfold w. cbn [span]. unfold is_blank at 1. apply N.eqb_neq in HD. rewrite HD. reflexivity. }
      rewrite H. cbn. reflexivity.
    + cbn [prefixb]. rewrite (N.eqb_sym 35 c). destruct (N.eqb_spec c 35) as [->|C].
      * cbn [andb]. rewrite FW. unfold one. rewrite WH. change (35 =? 35) with true. rewrite orb_true_r. destruct (fields r); reflexivity.
      * cbn [andb]. unfold check_line. destruct key as [|k0 k1] eqn:EK; [congruence|]. rewrite <- EK. rewrite ST.
        destruct (strtok r) as [[cand r2]|] eqn:S2.
        -- apply strtok_some in S2. rewrite FW, S2. unfold one. rewrite WH. apply N.eqb_neq in C. rewrite C. rewrite <- WH.
           destruct (existsb (bytes_eqb w) key_names); [|reflexivity]. cbn [negb]. rewrite EK.
           destruct (b64 cand) as [k|]; [|reflexivity]. destruct (bytes_eqb k (k0 :: k1)); reflexivity.
        -- apply strtok_none in S2. rewrite FW, S2. unfold one. rewrite WH. apply N.eqb_neq in C. rewrite C, orb_false_r.
           replace (lenN (c :: w') <=? 1) with false; [reflexivity|]. symmetry. apply N.leb_gt. rewrite <- WH.
           apply N.nle_gt. intros Q. rewrite FW in W. specialize (W w). rewrite S2 in W. specialize (W eq_refl Q). lia.
Qed.

Lemma lists_readable : forall l, lists b64 l key -> readable b64 l.
Proof.
  intros l (NC & ty & t & ws & F & T & B). right. right. left. exists ty, t, ws. split; [exact F|]. intros _. congruence.
Qed.
Lemma comment_dec : forall w, (match w with c :: _ => c =? 35 | [] => false end) = true <-> exists w', w = 35 :: w'.
Proof.
  intros [|c t]; split; try discriminate.
  - intros (w' & H). discriminate.
  - intros H. apply N.eqb_eq in H. subst. eauto.
  - intros (w' & H). inversion H. apply N.eqb_refl.
Qed.

(* the fields of a terminated line *)
Lemma one_term : forall l, ~ In 0 l ->
  (one (fields (l ++ [10])) = None <-> readable b64 l /\ ~ lists b64 l key) /\
  (one (fields (l ++ [10])) = Some AYes <-> lists b64 l key) /\ one (fields (l ++ [10])) <> Some ANo.
Proof.
  intros l Z. destruct DEC as [D1 D2].
  assert (LOW : forall w, ~ (lenN (w ++ [10]) <= 1) \/ w = []).
  { intros w. destruct w; [right; reflexivity|left]. rewrite lenN_app, !lenN_cons. change (lenN [10]) with 1. lia. }
  destruct (fields_newline l) as [(i & w & F & F' & NB)|(B & F')].
  - assert (WN : w <> []). { apply (fields_ne l). rewrite F. apply in_or_app. right. left. reflexivity. }
    rewrite F'. destruct i as [|ty i].
    + (* a single field *)
      cbn [app] in *. unfold one. destruct (LOW w) as [Lw|Lw]; [|contradiction]. apply N.nle_gt, N.leb_gt in Lw. rewrite Lw. cbn [orb].
      assert (C' : match w ++ [10] with c :: _ => c =? 35 | [] => false end = match w with c :: _ => c =? 35 | [] => false end) by (destruct w; [contradiction|reflexivity]).
      rewrite C'. destruct (match w with c :: _ => c =? 35 | [] => false end) eqn:C.
      * apply comment_dec in C. destruct C as (w' & ->). split; [|split; [|discriminate]].
        -- split; [intros _|reflexivity]. split; [right; left; exists w', []; exact F|]. intros (NC & _). apply NC. exists w', []. exact F.
        -- split; [discriminate|]. intros (NC & _). exfalso. apply NC. exists w', []. exact F.
      * split; [|split; [|discriminate]].
        -- split; [discriminate|]. intros [[R|[(w1 & ws1 & R)|[(ty & t & ws & R & _)|(ty & l' & R & E & _)]]] _]; rewrite F in R; try discriminate R.
           ++ inversion R; subst. cbn in C. discriminate C.
           ++ exfalso. apply NB. eauto.
        -- split; [discriminate|]. intros (NC & ty & t & ws & R & _). rewrite F in R. discriminate R.
    + (* a type and more *)
      cbn [app] in *. assert (G : exists t0 ws0 ws0', fields l = ty :: t0 :: ws0 /\ (exists t0', i ++ [w ++ [10]] = t0' :: ws0' /\ b64 t0' = b64 t0)).
      { destruct i as [|t0 i]; cbn [app] in *; [exists w, [], []|exists t0, (i ++ [w]), (i ++ [w ++ [10]])]; (split; [exact F|]); eexists; (split; [reflexivity|]); [apply D1|reflexivity]. }
      destruct G as (t0 & ws0 & ws0' & G & t0' & G' & GB). rewrite G'. unfold one.
      destruct (match ty with c :: _ => c =? 35 | [] => false end) eqn:C.
      * apply comment_dec in C. destruct C as (w' & ->). assert (IC : is_comment l) by (exists w', (t0 :: ws0); exact G). split; [|split; [|discriminate]].
        -- split; [intros _|reflexivity]. split; [right; left; exact IC|]. intros (NC & _). contradiction.
        -- split; [discriminate|]. intros (NC & _). contradiction.
      * assert (NC : ~ is_comment l). { intros (w1 & ws1 & R). rewrite G in R. inversion R; subst. cbn in C. discriminate C. }
        pose proof (known_type ty) as KT. rewrite GB. destruct (existsb (bytes_eqb ty) key_names).
        -- assert (TY : In ty key_types) by (apply KT; reflexivity). destruct (b64 t0) as [k|] eqn:EB.
           ++ assert (RD : readable b64 l) by (right; right; left; exists ty, t0, ws0; split; [exact G|intros _; congruence]).
              pose proof (bytes_eqb_eq k key) as KE. destruct (bytes_eqb k key).
              ** assert (LS : lists b64 l key). { split; [exact NC|]. exists ty, t0, ws0. split; [exact G|]. split; [exact TY|]. rewrite EB. f_equal. apply KE. reflexivity. }
                 split; [|split; [|discriminate]]; [split; [discriminate|intros [_ Q]; contradiction]|split; [intros _; exact LS|reflexivity]].
              ** assert (LS : ~ lists b64 l key). { intros (_ & ty' & t' & ws' & R & _ & B). rewrite G in R. inversion R; subst. rewrite EB in B. inversion B. subst. assert (false = true) by (apply KE; reflexivity). discriminate. }
                 split; [|split; [|discriminate]]; [split; [intros _; split; assumption|reflexivity]|split; [discriminate|contradiction]].
           ++ split; [|split; [|discriminate]].
              ** split; [discriminate|]. intros [[R|[R|[(ty' & t' & ws' & R & Q)|(ty' & l' & R & _)]]] _]; try contradiction; rewrite G in R; try discriminate R. inversion R; subst. specialize (Q TY). contradiction.
              ** split; [discriminate|]. intros (_ & ty' & t' & ws' & R & _ & B). rewrite G in R. inversion R; subst. congruence.
        -- assert (TY : ~ In ty key_types). { intros Q. apply KT in Q. discriminate. }
           split; [|split; [|discriminate]].
           ++ split; [intros _|reflexivity]. split; [right; right; left; exists ty, t0, ws0; split; [exact G|intros Q; contradiction]|]. intros (_ & ty' & t' & ws' & R & Q & _). rewrite G in R. inversion R; subst. contradiction.
           ++ split; [discriminate|]. intros (_ & ty' & t' & ws' & R & Q & _). rewrite G in R. inversion R; subst. contradiction.
  - rewrite F'. destruct (fields l) as [|ty ws] eqn:F.
    + cbn [app]. unfold one. change (lenN [10] <=? 1) with true. cbn [orb]. split; [|split; [|discriminate]].
      * split; [intros _|reflexivity]. split; [left; exact F|]. intros (_ & ty & t & ws & R & _). congruence.
      * split; [discriminate|]. intros (_ & ty & t & ws & R & _). congruence.
    + assert (EB : exists l', l = l' ++ [32]). { destruct B as [->|B]; [discriminate F|exact B]. }
      destruct EB as (l' & EL). cbn [app].
      assert (G : exists t0 ws0', ws ++ [[10]] = t0 :: ws0' /\ (ws = [] /\ t0 = [10] \/ exists ws0, ws = t0 :: ws0)).
      { destruct ws as [|t0 ws]; [exists [10], []|exists t0, (ws ++ [[10]])]; (split; [reflexivity|]); [left; split; reflexivity|right; eauto]. }
      destruct G as (t0 & ws0' & G & GC). rewrite G. unfold one.
      destruct (match ty with c :: _ => c =? 35 | [] => false end) eqn:C.
      * apply comment_dec in C. destruct C as (w' & ->). assert (IC : is_comment l) by (exists w', ws; exact F). split; [|split; [|discriminate]].
        -- split; [intros _|reflexivity]. split; [right; left; exact IC|]. intros (NC & _). contradiction.
        -- split; [discriminate|]. intros (NC & _). contradiction.
      * assert (NC : ~ is_comment l). { intros (w1 & ws1 & R). rewrite F in R. inversion R; subst. cbn in C. discriminate C. }
        pose proof (known_type ty) as KT. destruct GC as [[-> ->]|(ws0 & ->)].
        -- (* nothing but blanks after the type *)
           assert (LS : ~ lists b64 l key). { intros (_ & ty' & t' & ws' & R & _). rewrite F in R. discriminate R. }
           assert (B0 : b64 [10] = b64 []) by (exact (D1 [])). rewrite B0.
           destruct (existsb (bytes_eqb ty) key_names).
           ++ assert (TY : In ty key_types) by (apply KT; reflexivity). destruct (b64 []) as [k|] eqn:E0.
              ** rewrite (D2 k eq_refl). replace (bytes_eqb [] key) with false by (destruct key; [congruence|reflexivity]).
                 split; [|split; [|discriminate]]; [|split; [discriminate|contradiction]].
                 split; [intros _|reflexivity]. split; [|exact LS]. right. right. right. exists ty, l'. split; [exact F|]. split; [exact EL|]. intros _. congruence.
              ** split; [|split; [|discriminate]]; [|split; [discriminate|contradiction]].
                 split; [discriminate|]. intros [[R|[R|[(ty' & t' & ws' & R & Q)|(ty' & l2 & R & _ & Q)]]] _]; try contradiction; rewrite F in R; try discriminate R. inversion R; subst. specialize (Q TY). contradiction.
           ++ assert (TY : ~ In ty key_types). { intros Q. apply KT in Q. discriminate. }
              split; [|split; [|discriminate]]; [|split; [discriminate|contradiction]].
              split; [intros _|reflexivity]. split; [|exact LS]. right. right. right. exists ty, l'. split; [exact F|]. split; [exact EL|]. intros Q. contradiction.
        -- destruct (existsb (bytes_eqb ty) key_names).
           ++ assert (TY : In ty key_types) by (apply KT; reflexivity). destruct (b64 t0) as [k|] eqn:EB.
              ** assert (RD : readable b64 l) by (right; right; left; exists ty, t0, ws0; split; [exact F|intros _; congruence]).
                 pose proof (bytes_eqb_eq k key) as KE. destruct (bytes_eqb k key).
                 --- assert (LS : lists b64 l key). { split; [exact NC|]. exists ty, t0, ws0. split; [exact F|]. split; [exact TY|]. rewrite EB. f_equal. apply KE. reflexivity. }
                     split; [|split; [|discriminate]]; [split; [discriminate|intros [_ Q]; contradiction]|split; [intros _; exact LS|reflexivity]].
                 --- assert (LS : ~ lists b64 l key). { intros (_ & ty' & t' & ws' & R & _ & B2). rewrite F in R. inversion R; subst. rewrite EB in B2. inversion B2. subst. assert (false = true) by (apply KE; reflexivity). discriminate. }
                     split; [|split; [|discriminate]]; [split; [intros _; split; assumption|reflexivity]|split; [discriminate|contradiction]].
              ** split; [|split; [|discriminate]].
                 --- split; [discriminate|]. intros [[R|[R|[(ty' & t' & ws' & R & Q)|(ty' & l2 & R & _)]]] _]; try contradiction; rewrite F in R; try discriminate R. inversion R; subst. specialize (Q TY). contradiction.
                 --- split; [discriminate|]. intros (_ & ty' & t' & ws' & R & _ & B2). rewrite F in R. inversion R; subst. congruence.
           ++ assert (TY : ~ In ty key_types). { intros Q. apply KT in Q. discriminate. }
              split; [|split; [|discriminate]].
              ** split; [intros _|reflexivity]. split; [right; right; left; exists ty, t0, ws0; split; [exact F|intros Q; contradiction]|]. intros (_ & ty' & t' & ws' & R & Q & _). rewrite F in R. inversion R; subst. contradiction.
              ** split; [discriminate|]. intros (_ & ty' & t' & ws' & R & Q & _). rewrite F in R. inversion R; subst. contradiction.
Qed.

(* the last line, without a newline *)
Lemma one_last : forall l, one (fields l) = Some AYes <-> lists b64 l key.
Proof.
  intros l. unfold lists. destruct (fields l) as [|ty [|t ws]] eqn:F.
  - split; [discriminate|]. intros (_ & ty & t & ws & R & _). discriminate R.
  - cbn [one]. split; [|intros (_ & ty' & t & ws & R & _); discriminate R]. destruct (_ || _); discriminate.
  - unfold one. destruct (match ty with c :: _ => c =? 35 | [] => false end) eqn:C.
    + apply comment_dec in C. destruct C as (w' & ->). split; [discriminate|]. intros (NC & _). exfalso. apply NC. exists w', (t :: ws). exact F.
    + assert (NC : ~ is_comment l). { intros (w1 & ws1 & R). rewrite F in R. inversion R; subst. cbn in C. discriminate C. }
      pose proof (known_type ty) as KT. destruct (existsb (bytes_eqb ty) key_names).
      * destruct (b64 t) as [k|] eqn:EB.
        -- pose proof (bytes_eqb_eq k key) as KE. destruct (bytes_eqb k key).
           ++ split; [intros _|reflexivity]. split; [exact NC|]. exists ty, t, ws. split; [reflexivity|]. split; [apply KT; reflexivity|]. rewrite EB. f_equal. apply KE. reflexivity.
           ++ split; [discriminate|]. intros (_ & ty' & t' & ws' & R & _ & B). inversion R; subst. rewrite EB in B. inversion B. subst. apply KE in H0 || (assert (Q : false = true) by (apply KE; reflexivity); discriminate Q).
        -- split; [discriminate|]. intros (_ & ty' & t' & ws' & R & _ & B). inversion R; subst. congruence.
      * split; [discriminate|]. intros (_ & ty' & t' & ws' & R & Q & _). inversion R; subst. apply KT in Q. discriminate.
Qed.

Lemma single_short : forall p w, fields p = [w] -> ~ (exists l', p = l' ++ [32]) -> lenN w <= 1 -> lenN (snd (span is_blank p)) <= 1.
Proof.
  intros p w F NB L. pose proof (fields_drop p) as FD. pose proof (span_app is_blank p) as SA. pose proof (drop_hd p) as HD.
  destruct (snd (span is_blank p)) as [|c t] eqn:E; [cbn; lia|]. specialize (HD c t eq_refl).
  destruct t as [|d u]; [cbn; lia|]. exfalso. rewrite F in FD. rewrite fields_word in FD by exact HD.
  remember (span (fun c0 => negb (is_blank c0)) (c :: d :: u)) as sp eqn:Es. destruct sp as [a b]. cbn [fst snd] in FD.
  pose proof (span_app (fun c0 => negb (is_blank c0)) (c :: d :: u)) as SA2. rewrite <- Es in SA2. cbn [fst snd] in SA2.
  assert (FB : fields (tl b) = []) by congruence. assert (AW : a = w) by congruence. subst a.
  apply fields_drop_nil in FB.
  assert (NE : exists x t', c :: d :: u = x :: t' /\ True) by eauto. clear NE.
  (* the rest of the line is blank *)
  destruct b as [|x b].
  - rewrite app_nil_r in SA2. subst w. rewrite !lenN_cons in L. lia.
  - assert (X : x = 32). { pose proof (span_snd_hd (fun c0 => negb (is_blank c0)) (c :: d :: u) x b) as Q. rewrite <- Es in Q. specialize (Q eq_refl). apply negb_false_iff in Q. unfold is_blank in Q. apply N.eqb_eq in Q. exact Q. }
    subst x. cbn [tl] in FB. assert (AB : Forall (fun c0 => is_blank c0 = true) b).
    { pose proof (span_app is_blank b) as Q. rewrite FB, app_nil_r in Q. rewrite <- Q. apply span_fst_all. }
    apply NB. rewrite <- SA, <- SA2. destruct b as [|y b'] using rev_ind.
    + exists (fst (span is_blank p) ++ w). rewrite !app_assoc. reflexivity.
    + apply Forall_app in AB. destruct AB as [_ AB]. inversion AB as [|? ? Y _]; subst. unfold is_blank in Y. apply N.eqb_eq in Y. subst y.
      exists (fst (span is_blank p) ++ w ++ 32 :: b'). rewrite <- !app_assoc. reflexivity.
Qed.

Lemma scan_held : forall ps ls, held ps ls -> Forall (fun l => ~ In 0 l) ls ->
  (scan_lines b64 key ps = AYes <-> exists pre l post, ls = pre ++ l :: post /\ Forall (readable b64) pre /\ lists b64 l key).
Proof.
  intros ps ls H. induction H as [|l NL|l ps ls H IH]; intros Z.
  - cbn. split; [discriminate|]. intros (pre & l & post & E & _). destruct pre; discriminate E.
  - inversion Z as [|? ? Z1 _]; subst.
    assert (S1 : scan_lines b64 key [l] = AYes <-> one (fields l) = Some AYes).
    { destruct (fields l) as [|w [|t ws]] eqn:F.
      - rewrite one_scan, F; [cbn; split; discriminate|exact Z1|]. intros w Q. rewrite F in Q. discriminate Q.
      - (* one field only: never accepted *)
        split.
        + intros Q. exfalso. cbn [scan_lines] in Q. rewrite (cstr_id l Z1) in Q.
          destruct (lenN (snd (span is_blank l)) <=? 1); [discriminate Q|]. destruct (prefixb [35] (snd (span is_blank l))); [discriminate Q|].
          unfold check_line in Q. destruct (snd (span is_blank l)) as [|c t] eqn:E; [discriminate Q|]. destruct key; [discriminate Q|].
          destruct (strtok (c :: t)) as [[ty rest]|] eqn:S1; [|discriminate Q]. apply strtok_some in S1. rewrite <- E, fields_drop, F in S1.
          assert (FR : fields rest = []) by congruence. apply strtok_none in FR. rewrite FR in Q. discriminate Q.
        + cbn [one]. destruct (_ || _); discriminate.
      - rewrite one_scan, F; [|exact Z1|]. 2:{ intros w' Q. rewrite F in Q. discriminate Q. }
        destruct (one (w :: t :: ws)) as [a|] eqn:EO; [split; congruence|]. cbn. split; discriminate. }
    rewrite S1, one_last. split.
    + intros L. exists [], l, []. split; [reflexivity|]. split; [constructor|exact L].
    + intros (pre & x & post & E & _ & L). destruct pre as [|y [|z pre]]; try discriminate E. inversion E; subst. exact L.
  - inversion Z as [|? ? Z1 Z2]; subst. specialize (IH Z2).
    assert (Z1' : ~ In 0 (l ++ [10])). { intros Q. apply in_app_or in Q. destruct Q as [Q|[Q|[]]]; [contradiction|discriminate Q]. }
    rewrite one_scan; [|exact Z1'|].
    2:{ intros w F L. apply (single_short _ w F); [|exact L]. intros (l' & Q). apply app_inj_tail in Q. destruct Q as [_ Q]. discriminate Q. }
    destruct (one_term l Z1) as (O1 & O2 & O3).
    destruct (one (fields (l ++ [10]))) as [a|].
    + destruct a.
      * split; [intros _|reflexivity]. exists [], l, ls. split; [reflexivity|]. split; [constructor|apply O2; reflexivity].
      * congruence.
      * split; [discriminate|]. intros (pre & x & post & E & R & L). destruct pre as [|y pre]; inversion E; subst.
        -- apply O2 in L. discriminate L.
        -- inversion R as [|? ? R1 R2]; subst. assert (Q : Some AErr = None) by (apply O1; split; [exact R1|]; intros Q; apply O2 in Q; discriminate Q). discriminate Q.
    + destruct (proj1 O1 eq_refl) as [R1 NL]. rewrite IH. split.
      * intros (pre & x & post & E & R & L). exists (l :: pre), x, post. split; [rewrite E; reflexivity|]. split; [constructor; assumption|exact L].
      * intros (pre & x & post & E & R & L). destruct pre as [|y pre]; inversion E; subst; [contradiction|]. inversion R; subst. exists pre, x, post. split; [reflexivity|]. split; assumption.
Qed.
End One.
