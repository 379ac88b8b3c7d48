(* PathProofs.v - lemmas for C29 and C30. *)
From Verif Require Import Base PathModel PathSpec.
From Coq Require Import List NArith Lia Bool.
From Coq Require Import ZifyBool ZifyNat ZifyN.
Import ListNotations.
Open Scope N_scope.

Notation fm := (flat_map (fun c : bytes => 47 :: c)).

Lemma some_pair : forall (A B : Type) (a a1 : A) (b b1 : B), Some (a, b) = Some (a1, b1) -> a = a1 /\ b = b1.
Proof. intros. split; congruence. Qed.

Lemma fm_app : forall a b, fm (a ++ b) = fm a ++ fm b.
Proof. intros a b. apply flat_map_app. Qed.

Lemma path_of_fm : forall cs, cs <> [] -> path_of cs = fm cs.
Proof. intros [|c cs] H; [contradiction|reflexivity]. Qed.

(* ---- tokens ------------------------------------------------------------ *)

Definition nonempty (c : bytes) : bool := match c with [] => false | _ => true end.

Lemma pieces_ne : forall s, pieces s <> [].
Proof.
  intros [|c r]; [discriminate|]. cbn [pieces]. destruct (pieces r); [discriminate|].
  destruct (N.eq_dec c 47); discriminate.
Qed.

Lemma strtok_pieces : forall s cur,
  strtok cur s = filter nonempty (match pieces s with p :: ps => (cur ++ p) :: ps | [] => [] end).
Proof.
  induction s as [|c r IH]; intros cur.
  - cbn [strtok pieces]. rewrite app_nil_r. destruct cur; reflexivity.
  - cbn [strtok pieces]. unfold SLASH. pose proof (pieces_ne r) as Hn.
    destruct (pieces r) as [|p ps] eqn:Ep; [contradiction|].
    destruct (N.eq_dec c 47) as [->|Hc].
    + change (47 =? 47) with true. cbv iota. rewrite IH, app_nil_r. cbn [app].
      destruct cur as [|a cur]; reflexivity.
    + destruct (N.eqb_spec c 47); [contradiction|]. rewrite IH, <- app_assoc. reflexivity.
Qed.

Lemma walk_filter : forall cs st, walk st (filter nonempty cs) = walk st cs.
Proof.
  unfold walk. induction cs as [|c cs IH]; intros st; [reflexivity|].
  cbn [filter]. destruct c as [|a c]; cbn [nonempty fold_left]; [|apply IH].
  rewrite IH. reflexivity.
Qed.

Lemma pieces_noslash : forall s p, In p (pieces s) -> ~ In 47 p.
Proof.
  induction s as [|c r IH]; intros p Hp; cbn [pieces] in Hp.
  - destruct Hp as [<-|[]]. intros [].
  - destruct (pieces r) as [|q ps] eqn:Ep; [exfalso; apply (pieces_ne r Ep)|].
    destruct (N.eq_dec c 47) as [->|Hc].
    + destruct Hp as [<-|Hp]; [intros []|]. apply IH. assumption.
    + destruct Hp as [<-|Hp]; [|apply IH; right; assumption].
      intros [H|H]; [contradiction|]. apply (IH q); [left; reflexivity|assumption].
Qed.

Lemma strtok_walk : forall s st, walk st (strtok [] s) = walk st (pieces s).
Proof.
  intros s st. rewrite strtok_pieces. pose proof (pieces_ne s).
  destruct (pieces s) as [|p ps]; [contradiction|]. cbn [app]. apply walk_filter.
Qed.

Definition seg_ok (c : bytes) : Prop := c <> [] /\ ~ In 47 c.

Lemma strtok_ok : forall s, Forall seg_ok (strtok [] s).
Proof.
  intros s. rewrite strtok_pieces. apply Forall_forall. intros c Hc. apply filter_In in Hc. destruct Hc as [Hc Hn].
  assert (In c (pieces s)).
  { destruct (pieces s) as [|p ps]; [contradiction|]. exact Hc. }
  split; [destruct c; discriminate|]. apply (pieces_noslash s). assumption.
Qed.

(* ---- strrchr ------------------------------------------------------------ *)

Lemma strrchr_none : forall s, ~ In 47 s -> strrchr s = None.
Proof.
  induction s as [|c r IH]; intros H; [reflexivity|]. cbn [strrchr].
  rewrite IH by (intros Q; apply H; right; assumption).
  unfold SLASH. destruct (N.eqb_spec c 47) as [->|]; [exfalso; apply H; left; reflexivity|reflexivity].
Qed.

Lemma strrchr_last : forall a c, ~ In 47 c -> strrchr (a ++ 47 :: c) = Some (lenN a).
Proof.
  induction a as [|x a IH]; intros c H; cbn [app strrchr].
  - rewrite strrchr_none by assumption. reflexivity.
  - rewrite IH by assumption. rewrite lenN_cons. f_equal. lia.
Qed.

(* ---- one step ------------------------------------------------------------ *)

Lemma lenN_fm_pos : forall c cs, plain c -> 2 <= lenN (fm (c :: cs)).
Proof.
  intros c cs (H & _). cbn [flat_map app]. rewrite lenN_cons, lenN_app.
  destruct c; [contradiction|]. rewrite lenN_cons. lia.
Qed.

Lemma path_len1 : forall cs, Forall plain cs -> (lenN (path_of cs) = 1 <-> cs = []).
Proof.
  intros [|c cs] H; [split; reflexivity|]. inversion H. subst. rewrite path_of_fm by discriminate.
  pose proof (lenN_fm_pos c cs H2). split; [lia|discriminate].
Qed.

Lemma walk1_plain : forall st c, Forall plain st -> seg_ok c -> Forall plain (walk1 st c).
Proof.
  intros st c H (Hn & Hs). unfold walk1. destruct (list_eq_dec N.eq_dec c []); [assumption|].
  destruct (list_eq_dec N.eq_dec c dot); [assumption|]. destruct (list_eq_dec N.eq_dec c dotdot).
  - clear -H. induction H as [|x l Hx Hl IH]; [constructor|]. cbn [removelast]. destruct l; [constructor|]. constructor; assumption.
  - apply Forall_app. split; [assumption|]. constructor; [|constructor]. repeat split; assumption.
Qed.

Lemma wstrncat_fit : forall a b n, lenN a + lenN b < n -> wstrncat a b n = Some (a ++ b).
Proof.
  intros a b n H. unfold wstrncat. destruct (N.leb_spec n (lenN a)); [lia|].
  destruct (N.leb_spec (lenN b) (n - lenN a - 1)); [reflexivity|lia].
Qed.

Lemma is_dot : forall c, (w32 (lenN c) =? 1) && (match c with a :: _ => a =? DOT | [] => false end) = true ->
  is32 (lenN c) -> c = dot.
Proof.
  intros c H L. unfold w32 in H. rewrite N.mod_small in H by exact L. apply andb_true_iff in H. destruct H as [H1 H2].
  apply N.eqb_eq in H1. destruct c as [|a [|b c]]; [discriminate| |].
  - apply N.eqb_eq in H2. subst a. reflexivity.
  - rewrite !lenN_cons in H1. lia.
Qed.
Lemma is_dotdot : forall c, (w32 (lenN c) =? 2) && (match c with a :: b :: _ => (a =? DOT) && (b =? DOT) | _ => false end) = true ->
  is32 (lenN c) -> c = dotdot.
Proof.
  intros c H L. unfold w32 in H. rewrite N.mod_small in H by exact L. apply andb_true_iff in H. destruct H as [H1 H2].
  apply N.eqb_eq in H1. destruct c as [|a [|b [|d c]]]; try discriminate.
  - apply andb_true_iff in H2. destruct H2 as [H2 H3].
    apply N.eqb_eq in H2, H3. subst. reflexivity.
  - rewrite !lenN_cons in H1. lia.
Qed.

Lemma seg_step_ok : forall outSz st c, Forall plain st -> seg_ok c -> is32 (lenN c) ->
  is32 outSz -> lenN (path_of st) < outSz ->
  seg_step outSz (path_of st) (lenN (path_of st)) c =
    (if lenN (path_of (walk1 st c)) <? outSz then Some (path_of (walk1 st c), lenN (path_of (walk1 st c))) else None).
Proof.
  intros outSz st c Hst (Hn & Hs) H32 Ho HL. unfold seg_step. cbv zeta.
  destruct ((w32 (lenN c) =? 1) && (match c with a :: _ => a =? DOT | [] => false end)) eqn:D1.
  { apply is_dot in D1; [|assumption]. subst c. change (walk1 st dot) with st.
    destruct (N.ltb_spec (lenN (path_of st)) outSz); [reflexivity|lia]. }
  assert (N1 : c <> dot) by (intros ->; discriminate).
  destruct ((w32 (lenN c) =? 2) && (match c with a :: b :: _ => (a =? DOT) && (b =? DOT) | _ => false end)) eqn:D2.
  { apply is_dotdot in D2; [|assumption]. subst c. change (walk1 st dotdot) with (removelast st).
    destruct st as [|x st] using rev_ind.
    - change (lenN (path_of [])) with 1 in HL. cbn [path_of strrchr removelast]. change (47 =? SLASH) with true. cbv iota.
      change (negb (0 =? 0)) with false. cbv iota. change (takeN 1 [47]) with [47]. change (lenN [47]) with 1 in *.
      destruct (N.ltb_spec 1 outSz); [reflexivity|lia].
    - clear IHst. rewrite removelast_last. apply Forall_app in Hst. destruct Hst as [Hst Hx]. inversion Hx. subst.
      rewrite (path_of_fm (st ++ [x])) in * by (destruct st; discriminate). rewrite fm_app in *. cbn [flat_map] in *.
      rewrite app_nil_r in *. destruct H1 as (_ & _ & _ & Hx47).
      rewrite strrchr_last by assumption. rewrite lenN_app in HL.
      destruct st as [|y st].
      + cbn [flat_map app path_of]. change (lenN (@nil N)) with 0. change (negb (0 =? 0)) with false. cbv iota.
        change (lenN [47]) with 1. cbn [flat_map] in HL. change (lenN (@nil N)) with 0 in HL. rewrite lenN_cons in HL.
        replace (takeN 1 (47 :: x)) with [47] by reflexivity.
        destruct (N.ltb_spec 1 outSz); [reflexivity|lia].
      + inversion Hst. subst. pose proof (lenN_fm_pos y st H1) as L2. rewrite (path_of_fm (y :: st)) by discriminate.
        set (f := fm (y :: st)) in *. clearbody f.
        destruct (N.eqb_spec (lenN f) 0); [lia|]. cbn [negb]. rewrite takeN_app_exact by reflexivity.
        destruct (N.ltb_spec (lenN f) outSz); [|lia]. unfold w32. rewrite N.mod_small by (unfold is32 in *; lia). reflexivity. }
  assert (N2 : c <> dotdot) by (intros ->; discriminate).
  assert (W : walk1 st c = st ++ [c]).
  { unfold walk1. destruct (list_eq_dec N.eq_dec c []); [contradiction|].
    destruct (list_eq_dec N.eq_dec c dot); [contradiction|]. destruct (list_eq_dec N.eq_dec c dotdot); [contradiction|]. reflexivity. }
  rewrite W. rewrite (path_of_fm (st ++ [c])) by (destruct st; discriminate). rewrite fm_app. cbn [flat_map]. rewrite app_nil_r.
  replace (w32 (lenN c)) with (lenN c) by (unfold w32; rewrite N.mod_small by exact H32; reflexivity).
  destruct st as [|y st].
  - cbn [path_of flat_map app] in *. change (lenN [47]) with 1 in *. rewrite lenN_cons.
    change (negb (1 =? 1)) with false. cbv iota. change (add32 1 0) with 1.
    destruct (N.leb_spec outSz (lenN c)) as [A|A]; cbn [orb].
    { destruct (N.ltb_spec (1 + lenN c) outSz); [lia|reflexivity]. }
    rewrite sub32_small by (unfold is32 in *; lia).
    destruct (N.leb_spec (outSz - lenN c) 1) as [B|B].
    { destruct (N.ltb_spec (1 + lenN c) outSz); [lia|reflexivity]. }
    rewrite wstrncat_fit by (change (lenN [47]) with 1; lia).
    destruct (N.ltb_spec (1 + lenN c) outSz); [|lia]. rewrite add32_small by (unfold is32 in *; lia). reflexivity.
  - inversion Hst. subst. pose proof (lenN_fm_pos y st H1) as L2. rewrite (path_of_fm (y :: st)) in * by discriminate.
    set (f := fm (y :: st)) in *. clearbody f. rewrite lenN_app, lenN_cons.
    destruct (N.eqb_spec (lenN f) 1); [lia|]. cbn [negb].
    rewrite add32_small by (unfold is32, W32 in *; lia).
    destruct (N.leb_spec outSz (lenN c)) as [A|A]; cbn [orb].
    { destruct (N.ltb_spec (lenN f + (1 + lenN c)) outSz); [lia|reflexivity]. }
    rewrite sub32_small by (unfold is32 in *; lia).
    destruct (N.leb_spec (outSz - lenN c) (lenN f + 1)) as [B|B].
    { destruct (N.ltb_spec (lenN f + (1 + lenN c)) outSz); [lia|reflexivity]. }
    rewrite wstrncat_fit by (change (lenN [SLASH]) with 1; lia).
    rewrite wstrncat_fit by (rewrite lenN_app; change (lenN [SLASH]) with 1; lia).
    destruct (N.ltb_spec (lenN f + (1 + lenN c)) outSz); [|lia].
    rewrite add32_small by (unfold is32, W32 in *; lia).
    rewrite <- app_assoc. f_equal. f_equal. lia.
Qed.

Lemma seg_loop_ok : forall segs outSz st, Forall plain st -> Forall seg_ok segs -> Forall (fun c => is32 (lenN c)) segs ->
  is32 outSz -> lenN (path_of st) < outSz ->
  match seg_loop outSz (path_of st) (lenN (path_of st)) segs with
  | Some out => out = path_of (walk st segs) /\ Forall plain (walk st segs) /\ fits outSz st segs
  | None => ~ fits outSz st segs
  end.
Proof.
  induction segs as [|c segs IH]; intros outSz st Hst Hs H32 Ho HL; cbn [seg_loop].
  - split; [reflexivity|]. split; [assumption|]. intros [|n]; assumption.
  - inversion Hs. inversion H32. subst. rewrite seg_step_ok by assumption.
    assert (Hw : Forall plain (walk1 st c)) by (apply walk1_plain; assumption).
    destruct (N.ltb_spec (lenN (path_of (walk1 st c))) outSz) as [L|L].
    + specialize (IH outSz (walk1 st c) Hw H2 H6 Ho L).
      destruct (seg_loop _ _ _ _) as [out|].
      * destruct IH as (E & P & F). split; [exact E|]. split; [exact P|].
        intros [|n]; [exact HL|]. exact (F n).
      * intros F. apply IH. intros n. exact (F (S n)).
    + intros F. specialize (F 1%nat). cbn in F. unfold walk in F. cbn [firstn fold_left] in F. lia.
Qed.

Lemma fits_cons : forall sz st c cs,
  fits sz st (c :: cs) <-> lenN (path_of st) < sz /\ fits sz (walk1 st c) cs.
Proof.
  intros sz st c cs. split.
  - intros F. split; [exact (F 0%nat)|]. intros n. exact (F (S n)).
  - intros (L & F) [|n]; [exact L|exact (F n)].
Qed.

Lemma fits_filter : forall cs sz st, fits sz st (filter nonempty cs) <-> fits sz st cs.
Proof.
  induction cs as [|c cs IH]; intros sz st; [reflexivity|]. cbn [filter]. destruct c as [|a c]; cbn [nonempty].
  - rewrite fits_cons. change (walk1 st []) with st. rewrite IH. split; [|tauto].
    intros F. split; [exact (F 0%nat)|exact F].
  - rewrite !fits_cons. rewrite IH. reflexivity.
Qed.

Lemma strtok_filter : forall s, strtok [] s = filter nonempty (pieces s).
Proof.
  intros s. rewrite strtok_pieces. pose proof (pieces_ne s). destruct (pieces s); [contradiction|reflexivity].
Qed.

Lemma piece_len : forall s p, In p (pieces s) -> lenN p <= lenN s.
Proof.
  induction s as [|c r IH]; intros p Hp; cbn [pieces] in Hp.
  - destruct Hp as [<-|[]]. lia.
  - rewrite lenN_cons. destruct (pieces r) as [|q ps] eqn:Ep; [exfalso; apply (pieces_ne r Ep)|].
    destruct (N.eq_dec c 47) as [->|Hc].
    + destruct Hp as [<-|Hp]; [rewrite lenN_nil; lia|]. specialize (IH p Hp). lia.
    + destruct Hp as [<-|Hp].
      * rewrite lenN_cons. specialize (IH q (or_introl eq_refl)). lia.
      * specialize (IH p (or_intror Hp)). lia.
Qed.

Lemma is_rel_spec : forall s, is_rel s = false <-> absolute s.
Proof.
  intros [|c r]; cbn [is_rel]; split.
  - discriminate.
  - intros (r & H). discriminate.
  - unfold SLASH. intros H. apply negb_false_iff, N.eqb_eq in H. subst. exists r. reflexivity.
  - intros (r' & H). injection H as -> _. reflexivity.
Qed.

Lemma start_total : forall from r, exists st, start from r st.
Proof.
  intros from r. destruct (is_rel r) eqn:E.
  - exists from. right. split; [|reflexivity]. intros A. apply is_rel_spec in A. congruence.
  - exists []. left. split; [|reflexivity]. apply is_rel_spec. assumption.
Qed.

Lemma RealPath_ok : forall d from inp sz st, default_is d from -> is32 (lenN inp) -> is32 sz -> 2 <= sz ->
  start from inp st ->
  exists ret out, RealPath d inp sz = Some (ret, out) /\
    ((ret = WS_SUCCESS /\ fits sz st (pieces inp) /\ out = path_of (walk st (pieces inp)) /\ Forall plain (walk st (pieces inp))) \/
     (ret = WS_INVALID_PATH_E /\ ~ fits sz st (pieces inp))).
Proof.
  intros d from inp sz st (Hp & Hd) Hi Hz H2 Hst. unfold RealPath. cbv zeta.
  destruct (N.eqb_spec sz 0); [lia|].
  assert (Hs : Forall plain st).
  { destruct Hst as [(_ & ->) | (_ & ->)]; [constructor|assumption]. }
  assert (E : (match (if is_rel inp then d else None) with
      | Some d => if sz <=? w32 (lenN d) then None else Some (takeN sz d, w32 (lenN d))
      | None => Some ([SLASH], 1)
      end) = (if sz <=? lenN (path_of st) then None else Some (path_of st, lenN (path_of st)))).
  { destruct Hst as [(A & ->) | (A & ->)].
    - apply is_rel_spec in A. rewrite A. change (lenN (path_of [])) with 1. destruct (N.leb_spec sz 1); [lia|reflexivity].
    - assert (R : is_rel inp = true).
      { destruct (is_rel inp) eqn:R; [reflexivity|]. apply is_rel_spec in R. contradiction. }
      rewrite R. destruct d as [d|].
      + destruct Hd as (-> & L). rewrite w32_small by exact L.
        destruct (N.leb_spec sz (lenN (path_of from))); [reflexivity|]. rewrite takeN_all by lia. reflexivity.
      + subst from. change (lenN (path_of [])) with 1. destruct (N.leb_spec sz 1); [lia|reflexivity]. }
  rewrite E. destruct (N.leb_spec sz (lenN (path_of st))) as [L|L].
  - exists WS_INVALID_PATH_E, [SLASH]. split; [reflexivity|]. right. split; [reflexivity|].
    intros F. specialize (F 0%nat). cbn in F. unfold walk in F. cbn [firstn fold_left] in F. lia.
  - destruct (N.leb_spec sz (lenN (path_of st))); [lia|]. rewrite takeN_all by lia.
    pose proof (seg_loop_ok (strtok [] inp) sz st Hs (strtok_ok inp)) as G.
    assert (G32 : Forall (fun c => is32 (lenN c)) (strtok [] inp)).
    { apply Forall_forall. intros c Hc. rewrite strtok_filter in Hc. apply filter_In in Hc. destruct Hc as (Hc & _).
      apply piece_len in Hc. unfold is32 in *. lia. }
    specialize (G G32 Hz L). rewrite strtok_walk in G. 
    assert (FF : fits sz st (strtok [] inp) <-> fits sz st (pieces inp)) by (rewrite strtok_filter; apply fits_filter).
    destruct (seg_loop _ _ _ _) as [out|].
    + destruct G as (-> & P & F). eexists _, _. split; [reflexivity|]. left. tauto.
    + eexists _, _. split; [reflexivity|]. right. tauto.
Qed.

(* ---- C strings ------------------------------------------------------------ *)

Lemma cstr_text : forall data, text data (cstr data).
Proof.
  induction data as [|x r (IH1 & IH2)]; cbn [cstr].
  - split; [intros []|left; reflexivity].
  - destruct (N.eqb_spec x 0) as [->|Hx].
    + split; [intros []|]. right. exists r. reflexivity.
    + split; [intros [H|H]; [congruence|contradiction]|].
      destruct IH2 as [IH2 | (r' & IH2)]; [left; congruence|]. right. exists r'. cbn [app]. congruence.
Qed.
Lemma text_cstr : forall data t, text data t -> cstr data = t.
Proof.
  intros data t. revert data. induction t as [|x t IH]; intros data (H0 & H).
  - destruct H as [->|(r & ->)]; reflexivity.
  - assert (x <> 0) by (intros ->; apply H0; left; reflexivity).
    assert (H0' : ~ In 0 t) by (intros Q; apply H0; right; assumption).
    destruct H as [->|(r & ->)]; cbn [app cstr]; destruct (N.eqb_spec x 0); try contradiction; f_equal; apply IH; split; auto.
    right. exists r. reflexivity.
Qed.
Lemma cstr_len : forall data, lenN (cstr data) <= lenN data.
Proof.
  intros data. destruct (cstr_text data) as (_ & [H|(r & H)]); rewrite H at 2; [lia|]. rewrite lenN_app. lia.
Qed.

(* ---- prefixes at component boundaries -------------------------------------- *)

Definition sl (t : bytes) : Prop := t = [] \/ exists r, t = 47 :: r.

Lemma sl_fm : forall cs, sl (fm cs).
Proof. intros [|c cs]; [left; reflexivity|]. right. eexists. reflexivity. Qed.

Lemma split_slash : forall x y a b, ~ In 47 x -> ~ In 47 y -> sl a -> sl b -> x ++ a = y ++ b -> x = y /\ a = b.
Proof.
  induction x as [|u x IH]; intros [|v y] a b Hx Hy Ha Hb E; cbn [app] in E.
  - split; [reflexivity|assumption].
  - destruct Ha as [->|(r & ->)]; [discriminate|]. injection E as <- _. exfalso. apply Hy. left. reflexivity.
  - destruct Hb as [->|(r & ->)]; [discriminate|]. injection E as -> _. exfalso. apply Hx. left. reflexivity.
  - injection E as -> E. destruct (IH y a b) as (-> & ->); auto.
    + intros Q. apply Hx. right. assumption.
    + intros Q. apply Hy. right. assumption.
Qed.

Lemma fm_prefix : forall root cs t, Forall plain root -> Forall plain cs -> sl t ->
  fm cs = fm root ++ t -> inside root cs.
Proof.
  induction root as [|x root IH]; intros cs t Hr Hc Ht E.
  - exists cs. reflexivity.
  - inversion Hr. subst. destruct cs as [|y cs]; [discriminate|]. inversion Hc. subst.
    cbn [flat_map app] in E. injection E as E. rewrite <- app_assoc in E.
    destruct H1 as (_ & _ & _ & Nx). destruct H3 as (_ & _ & _ & Ny).
    destruct (split_slash y x (fm cs) (fm root ++ t)) as (-> & E2); auto.
    + apply sl_fm.
    + destruct (sl_fm root) as [->|(r & ->)]; [exact Ht|]. right. eexists. reflexivity.
    + destruct (IH cs t) as (r & ->); auto. exists r. reflexivity.
Qed.

Lemma inside_fm : forall root r, fm (root ++ r) = fm root ++ fm r.
Proof. intros. apply fm_app. Qed.

Lemma strncmp0_spec : forall c s, strncmp0 (length c) s c = true <-> exists t, s = c ++ t.
Proof.
  induction c as [|x c IH]; intros s; cbn [length strncmp0].
  - split; [|reflexivity]. intros _. exists s. reflexivity.
  - destruct s as [|y s].
    + split; [discriminate|]. intros (t & H). discriminate.
    + rewrite andb_true_iff, N.eqb_eq, IH. split.
      * intros (-> & t & ->). exists t. reflexivity.
      * intros (t & H). injection H as -> ->. split; [reflexivity|]. exists t. reflexivity.
Qed.

Lemma strip_plain : forall root, Forall plain root -> root <> [] ->
  strip (N.to_nat (lenN (fm root))) (fm root) = lenN (fm root).
Proof.
  intros root Hr Hn. destruct root as [|x root] using rev_ind; [contradiction|]. clear IHroot.
  apply Forall_app in Hr. destruct Hr as (_ & Hx). inversion Hx. subst. destruct H1 as (Ne & _ & _ & N47).
  destruct x as [|l x] using rev_ind; [contradiction|]. clear IHx.
  rewrite fm_app. cbn [flat_map]. rewrite app_nil_r. rewrite app_comm_cons, app_assoc.
  set (a := fm root ++ 47 :: x). clearbody a. assert (Hl : l <> 47).
  { intros ->. apply N47. apply in_or_app. right. left. reflexivity. }
  rewrite lenN_app. change (lenN [l]) with 1.
  replace (N.to_nat (lenN a + 1)) with (S (N.to_nat (lenN a))) by lia. cbn [strip].
  rewrite N2Nat.id. replace (rd (a ++ [l]) (lenN a)) with (Some l).
  2: { replace (lenN a) with (lenN a + 0) by lia. rewrite rd_app_r. reflexivity. }
  unfold SLASH. destruct (N.eqb_spec l 47); [contradiction|]. rewrite andb_false_r. lia.
Qed.

(* ---- the links ------------------------------------------------------------ *)

Definition boundary (s : bytes) (j : N) : Prop := j = lenN s \/ rd s j = Some 47.

Lemma boundary_dec : forall s i,
  (i =? lenN s) || (match rd s i with Some c => c =? SLASH | None => false end) = true <-> boundary s i.
Proof.
  intros s i. unfold boundary, SLASH. rewrite orb_true_iff, N.eqb_eq.
  destruct (rd s i) as [c|]; [rewrite N.eqb_eq|]; split; intros [H|H]; auto.
  - right. congruence.
  - right. congruence.
  - discriminate.
  - discriminate.
Qed.

Lemma check_links_spec : forall n i cp link s ok q, check_links n i cp link s = (ok, q) -> N.of_nat n + i = lenN s + 1 ->
  (ok = true <-> forall j, i <= j -> j <= lenN s -> cp < j -> boundary s j -> link (takeN j s) = false) /\
  (forall x, In x q -> exists j, i <= j /\ j <= lenN s /\ cp < j /\ boundary s j /\ x = takeN j s).
Proof.
  induction n as [|n IH]; intros i cp link s ok q E Hn; cbn [check_links] in E.
  - apply pair_equal_spec in E. destruct E as (<- & <-). split; [|intros x []].
    split; [|reflexivity]. intros _ j A B. lia.
  - destruct ((i =? lenN s) || (match rd s i with Some c => c =? SLASH | None => false end)) eqn:B; cbn [negb] in E.
    + apply boundary_dec in B. destruct (N.leb_spec i cp) as [L|L].
      * destruct (IH (i + 1) cp link s ok q E ltac:(lia)) as (I1 & I2). split.
        -- rewrite I1. split; intros H j J1 J2 J3 J4; apply H; auto; lia.
        -- intros x Hx. destruct (I2 x Hx) as (j & J1 & J2). exists j. split; [lia|assumption].
      * destruct (link (takeN i s)) eqn:K.
        -- apply pair_equal_spec in E. destruct E as (<- & <-). split.
           ++ split; [discriminate|]. intros H. rewrite (H i) in K; [discriminate| | | |]; auto; lia.
           ++ intros x [<-|[]]. exists i. split; [lia|]. split; [lia|]. auto.
        -- destruct (check_links n (i + 1) cp link s) as [ok' q'] eqn:R. apply pair_equal_spec in E. destruct E as (<- & <-).
           destruct (IH (i + 1) cp link s ok' q' R ltac:(lia)) as (I1 & I2). split.
           ++ rewrite I1. split; intros H j J1 J2 J3 J4.
              ** destruct (N.eq_dec i j) as [<-|]; [assumption|]. apply H; auto; lia.
              ** apply H; auto; lia.
           ++ intros x [<-|Hx].
              ** exists i. split; [lia|]. split; [lia|]. auto.
              ** destruct (I2 x Hx) as (j & J1 & J2). exists j. split; [lia|assumption].
    + destruct (IH (i + 1) cp link s ok q E ltac:(lia)) as (I1 & I2). split.
      * rewrite I1. split; intros H j J1 J2 J3 J4; [|apply H; auto; lia].
        destruct (N.eq_dec i j) as [<-|]; [|apply H; auto; lia]. apply boundary_dec in J4. congruence.
      * intros x Hx. destruct (I2 x Hx) as (j & J1 & J2). exists j. split; [lia|assumption].
Qed.

Lemma rd_cons : forall x (l : bytes) i, rd (x :: l) (1 + i) = rd l i.
Proof. intros x l i. unfold rd. replace (N.to_nat (1 + i)) with (S (N.to_nat i)) by lia. reflexivity. Qed.

Lemma boundary_cut : forall cs j, Forall plain cs -> j <= lenN (fm cs) -> boundary (fm cs) j ->
  exists a b, cs = a ++ b /\ takeN j (fm cs) = fm a /\ j = lenN (fm a).
Proof.
  induction cs as [|c cs IH]; intros j Hc Hj Hb.
  - exists [], []. cbn [flat_map] in *. rewrite lenN_nil in Hj. replace j with 0 by lia. split; [reflexivity|]. split; reflexivity.
  - inversion Hc. subst. destruct (N.eq_dec j 0) as [->|J0].
    { exists [], (c :: cs). split; [reflexivity|]. split; [apply takeN_0|reflexivity]. }
    cbn [flat_map app] in *. destruct (N.lt_ge_cases j (1 + lenN c)) as [L|L].
    + exfalso. rewrite lenN_cons, lenN_app in Hj. destruct Hb as [Hb|Hb]; [rewrite lenN_cons, lenN_app in Hb; lia|].
      replace j with (1 + (j - 1)) in Hb by lia. rewrite rd_cons, rd_app_l in Hb by lia.
      destruct H1 as (_ & _ & _ & N47). apply N47. apply nth_error_In in Hb. assumption.
    + assert (Hb' : boundary (fm cs) (j - (1 + lenN c))).
      { destruct Hb as [Hb|Hb]; [left; rewrite lenN_cons, lenN_app in Hb; lia|]. right.
        replace j with (1 + (lenN c + (j - (1 + lenN c)))) in Hb by lia. rewrite rd_cons, rd_app_r in Hb. assumption. }
      rewrite lenN_cons, lenN_app in Hj.
      destruct (IH (j - (1 + lenN c)) H2 ltac:(lia) Hb') as (a & b & -> & T & LL).
      exists (c :: a), b. split; [reflexivity|]. cbn [flat_map app]. split.
      * change (47 :: c ++ fm (a ++ b)) with ((47 :: c) ++ fm (a ++ b)).
        rewrite takeN_app_r by (rewrite lenN_cons; lia). rewrite lenN_cons, T. reflexivity.
      * rewrite lenN_cons, lenN_app. lia.
Qed.

Lemma fm_mono : forall a b, lenN (fm a) <= lenN (fm (a ++ b)).
Proof. intros. rewrite fm_app, lenN_app. lia. Qed.

Lemma two_prefixes : forall (A : Type) (a b c d : list A), a ++ b = c ++ d ->
  (exists e, c = a ++ e) \/ (exists e, e <> [] /\ a = c ++ e).
Proof.
  intros A. induction a as [|x a IH]; intros b c d E.
  - left. exists c. reflexivity.
  - destruct c as [|y c]; [right; exists (x :: a); split; [discriminate|reflexivity]|].
    cbn [app] in E. injection E as -> E. destruct (IH b c d E) as [(e & ->)|(e & Hn & ->)].
    + left. exists e. reflexivity.
    + right. exists e. split; [assumption|reflexivity].
Qed.

Lemma takeN_fm_path : forall root r, r <> [] -> fm (root ++ r) = path_of (root ++ r).
Proof. intros root r H. symmetry. apply path_of_fm. destruct root, r; discriminate || contradiction. Qed.

Lemma Forall_prefix : forall (A : Type) (P : A -> Prop) a b, Forall P (a ++ b) -> Forall P a.
Proof. intros A P a b H. apply Forall_app in H. tauto. Qed.

Lemma GetAndCleanPath_ok : forall p from root link data sz st,
  default_is (sp_default p) from -> sp_confine p = Some (path_of root) -> Forall plain root ->
  is32 sz -> 2 <= sz -> lenN data < MAX_FILENAME ->
  start from (cstr data) st ->
  exists ret s q, GetAndCleanPath p link data sz = Some (ret, s, q) /\
   ((fits sz st (pieces (cstr data)) /\ s = path_of (walk st (pieces (cstr data))) /\ Forall plain (walk st (pieces (cstr data))) /\
     ((inside root (walk st (pieces (cstr data))) /\
       (ret = WS_SUCCESS \/ ret = WS_PERMISSIONS) /\
       (ret = WS_SUCCESS <-> root = [] \/ no_links link root (walk st (pieces (cstr data)))) /\
       (forall x, In x q -> exists r1 r2, walk st (pieces (cstr data)) = root ++ r1 ++ r2 /\ r1 <> [] /\ x = path_of (root ++ r1))) \/
      (~ inside root (walk st (pieces (cstr data))) /\ ret = WS_PERMISSIONS /\ q = []))) \/
    (~ fits sz st (pieces (cstr data)) /\ ret = WS_INVALID_PATH_E /\ q = [])).
Proof.
  intros p from root link data sz st Hd Hc Hr Hz H2 HL Hst.
  assert (L32 : is32 (lenN (cstr data))).
  { pose proof (cstr_len data). unfold is32, MAX_FILENAME, W32 in *. lia. }
  destruct (RealPath_ok _ _ _ _ _ Hd L32 Hz H2 Hst) as (ret & out & E & [(-> & F & -> & P) | (-> & F)]).
  2: { eexists _, _, _. unfold GetAndCleanPath. destruct (N.leb_spec MAX_FILENAME (lenN data)); [lia|]. rewrite E.
       change (rc_eqb WS_INVALID_PATH_E WS_SUCCESS) with false. cbv iota. split; [reflexivity|]. right. tauto. }
  unfold GetAndCleanPath. destruct (N.leb_spec MAX_FILENAME (lenN data)); [lia|]. rewrite E, rc_eqb_refl, Hc.
  set (cs := walk st (pieces (cstr data))) in *. clearbody cs. cbv zeta.
  destruct root as [|x root].
  { change (path_of []) with [47]. change (strip (N.to_nat (lenN [47])) [47]) with 1. change (1 <? 1) with false. cbv iota.
    assert (S0 : (match path_of cs with x :: _ => x =? SLASH | [] => false end) = true) by (destruct cs; reflexivity).
    rewrite S0. eexists _, _, _. split; [reflexivity|]. left. split; [exact F|]. split; [reflexivity|]. split; [exact P|].
    left. split; [exists cs; reflexivity|]. split; [left; reflexivity|]. split; [tauto|]. intros y []. }
  set (rt := x :: root) in *. assert (Hn : rt <> []) by discriminate.
  rewrite (path_of_fm rt Hn). rewrite strip_plain by assumption.
  assert (L2 : 2 <= lenN (fm rt)) by (inversion Hr; apply lenN_fm_pos; assumption).
  destruct (N.ltb_spec 1 (lenN (fm rt))); [|lia].
  assert (Hlen : N.to_nat (lenN (fm rt)) = length (fm rt)) by (unfold lenN; apply Nat2N.id).
  rewrite Hlen.
  assert (PRE : (strncmp0 (length (fm rt)) (path_of cs) (fm rt) = true /\
                 (match rd (path_of cs) (lenN (fm rt)) with Some x => negb (x =? SLASH) | None => false end) = false) <->
                inside rt cs).
  { rewrite strncmp0_spec. split.
    - intros ((t & T) & R). destruct cs as [|c cs].
      + exfalso. cbn [path_of] in T. assert (LL : lenN [47] = lenN (fm rt ++ t)) by (rewrite <- T; reflexivity).
        rewrite lenN_app in LL. change (lenN [47]) with 1 in LL. lia.
      + rewrite path_of_fm in T, R by discriminate. rewrite T in R.
        replace (lenN (fm rt)) with (lenN (fm rt) + 0) in R by lia. rewrite rd_app_r in R.
        apply (fm_prefix rt (c :: cs) t); auto. destruct t as [|b t]; [left; reflexivity|].
        cbn in R. apply negb_false_iff, N.eqb_eq in R. subst b. right. exists t. reflexivity.
    - intros (r & ->). rewrite path_of_fm by (subst rt; discriminate). rewrite fm_app. split; [exists (fm r); reflexivity|].
      replace (lenN (fm rt)) with (lenN (fm rt) + 0) by lia. rewrite rd_app_r.
      destruct (sl_fm r) as [->|(t & ->)]; reflexivity. }
  destruct (strncmp0 (length (fm rt)) (path_of cs) (fm rt)) eqn:SC.
  2: { eexists _, _, _. split; [reflexivity|]. left. split; [exact F|]. split; [reflexivity|]. split; [exact P|].
       right. split; [|tauto]. intros I. apply PRE in I. destruct I. discriminate. }
  destruct (match rd (path_of cs) (lenN (fm rt)) with Some x => negb (x =? SLASH) | None => false end) eqn:RR.
  { eexists _, _, _. split; [reflexivity|]. left. split; [exact F|]. split; [reflexivity|]. split; [exact P|].
    right. split; [|tauto]. intros I. apply PRE in I. destruct I. discriminate. }
  cbn [negb orb]. assert (IN : inside rt cs) by (apply PRE; split; reflexivity). clear PRE SC RR.
  destruct IN as (r & ->).
  assert (PF : path_of (rt ++ r) = fm (rt ++ r)) by (apply path_of_fm; subst rt; discriminate).
  rewrite PF. pose proof (fm_mono rt r) as LM.
  destruct (check_links (N.to_nat (lenN (fm (rt ++ r)) - lenN (fm rt) + 1)) (lenN (fm rt)) (lenN (fm rt)) link (fm (rt ++ r))) as [ok q] eqn:CL.
  destruct (check_links_spec _ _ _ _ _ _ _ CL ltac:(lia)) as (C1 & C2).
  assert (CUT : forall j, j <= lenN (fm (rt ++ r)) -> lenN (fm rt) < j -> boundary (fm (rt ++ r)) j ->
    exists r1 r2, rt ++ r = rt ++ r1 ++ r2 /\ r1 <> [] /\ takeN j (fm (rt ++ r)) = path_of (rt ++ r1)).
  { intros j J1 J2 J3. destruct (boundary_cut (rt ++ r) j P J1 J3) as (a & b & E1 & E2 & E3).
    symmetry in E1. destruct (two_prefixes _ _ _ _ _ E1) as [(e & Q)|(e & Q1 & Q)].
    - exfalso. pose proof (fm_mono a e). rewrite <- Q in *. lia.
    - subst a. exists e, b. rewrite <- app_assoc in E1. split; [congruence|]. split; [assumption|].
      rewrite E2. apply takeN_fm_path. assumption. }
  eexists _, _, _. split; [reflexivity|]. left. split; [exact F|]. split; [reflexivity|]. split; [exact P|].
  left. split; [exists r; reflexivity|]. split; [destruct ok; tauto|]. split.
  - assert (OK : ok = true <-> no_links link rt (rt ++ r)).
    { rewrite C1. split.
      - intros K r1 r2 E1 E2. apply app_inv_head in E1. subst r.
        rewrite <- takeN_fm_path by assumption.
        replace (fm (rt ++ r1)) with (takeN (lenN (fm (rt ++ r1))) (fm (rt ++ r1 ++ r2))).
        2: { rewrite app_assoc, (fm_app (rt ++ r1) r2). apply takeN_app_exact. reflexivity. }
        assert (L3 : lenN (fm rt) < lenN (fm (rt ++ r1))).
        { rewrite fm_app, lenN_app. destruct r1; [contradiction|]. cbn [flat_map app]. rewrite lenN_cons. lia. }
        assert (L4 : lenN (fm (rt ++ r1)) <= lenN (fm (rt ++ r1 ++ r2))) by (rewrite app_assoc; apply fm_mono).
        apply K; try lia. rewrite app_assoc. rewrite (fm_app (rt ++ r1) r2). unfold boundary.
        destruct (sl_fm r2) as [->|(t & ->)].
        + left. rewrite app_nil_r. reflexivity.
        + right. replace (lenN (fm (rt ++ r1))) with (lenN (fm (rt ++ r1)) + 0) by lia. rewrite rd_app_r. reflexivity.
      - intros K j J1 J2 J3 J4. destruct (CUT j J2 J3 J4) as (r1 & r2 & E1 & E2 & ->). apply (K r1 r2); assumption. }
    destruct ok; split; intros K; auto.
    + right. apply OK. reflexivity.
    + discriminate.
    + destruct K as [K|K]; [contradiction|]. apply OK in K. discriminate.
  - intros y Hy. destruct (C2 y Hy) as (j & J1 & J2 & J3 & J4 & ->). apply CUT; assumption.
Qed.

(* ---- canonical paths resolve to themselves --------------------------------- *)

Lemma pieces_app : forall c t, ~ In 47 c ->
  pieces (c ++ t) = match pieces t with p :: ps => (c ++ p) :: ps | [] => [] end.
Proof.
  induction c as [|x c IH]; intros t H; cbn [app].
  - pose proof (pieces_ne t). destruct (pieces t); [contradiction|reflexivity].
  - cbn [pieces]. rewrite IH by (intros Q; apply H; right; assumption).
    pose proof (pieces_ne t). destruct (pieces t); [contradiction|].
    destruct (N.eq_dec x 47) as [->|]; [exfalso; apply H; left; reflexivity|reflexivity].
Qed.
Lemma pieces_slash : forall t, pieces (47 :: t) = [] :: pieces t.
Proof.
  intros t. cbn [pieces]. pose proof (pieces_ne t). destruct (pieces t); [contradiction|]. reflexivity.
Qed.
Lemma pieces_fm : forall cs, Forall plain cs -> pieces (fm cs) = [] :: cs.
Proof.
  induction cs as [|c cs IH]; intros H; [reflexivity|]. inversion H. subst. cbn [flat_map app].
  rewrite pieces_slash. destruct H2 as (_ & _ & _ & N47). rewrite pieces_app by assumption.
  rewrite IH by assumption. rewrite app_nil_r. reflexivity.
Qed.
Lemma walk_app : forall st a b, walk st (a ++ b) = walk (walk st a) b.
Proof. intros. apply fold_left_app. Qed.
Lemma walk1_down : forall st c, plain c -> walk1 st c = st ++ [c].
Proof.
  intros st c (H1 & H2 & H3 & _). unfold walk1. destruct (list_eq_dec N.eq_dec c []); [contradiction|].
  destruct (list_eq_dec N.eq_dec c dot); [contradiction|]. destruct (list_eq_dec N.eq_dec c dotdot); [contradiction|]. reflexivity.
Qed.
Lemma walk_plain : forall cs st, Forall plain cs -> walk st cs = st ++ cs.
Proof.
  induction cs as [|c cs IH]; intros st H; [symmetry; apply app_nil_r|]. inversion H. subst.
  change (walk st (c :: cs)) with (walk (walk1 st c) cs). rewrite walk1_down, IH by assumption.
  rewrite <- app_assoc. reflexivity.
Qed.
Lemma walk_pieces_path : forall cs st, Forall plain cs -> walk st (pieces (path_of cs)) = st ++ cs.
Proof.
  intros cs st H. destruct cs as [|c cs]; [symmetry; apply app_nil_r|].
  rewrite path_of_fm by discriminate. rewrite pieces_fm by assumption.
  change (walk st ([] :: c :: cs)) with (walk st (c :: cs)). apply walk_plain. assumption.
Qed.
Lemma path_len_mono : forall a b, lenN (path_of a) <= lenN (path_of (a ++ b)).
Proof.
  intros a b. destruct b as [|y b]; [rewrite app_nil_r; lia|].
  rewrite (path_of_fm (a ++ y :: b)) by (destruct a; discriminate). destruct a as [|x a].
  - cbn [path_of app flat_map]. rewrite !lenN_cons. change (lenN (@nil N)) with 0. lia.
  - rewrite path_of_fm by discriminate. apply fm_mono.
Qed.
Lemma absolute_path : forall cs, absolute (path_of cs).
Proof. intros [|c cs]; eexists; reflexivity. Qed.

Lemma fits_plain : forall cs sz st, Forall plain cs -> (fits sz st cs <-> lenN (path_of (st ++ cs)) < sz).
Proof.
  intros cs sz st H. split.
  - intros F. specialize (F (length cs)). rewrite firstn_all, walk_plain in F by assumption. assumption.
  - intros L n. assert (Hn : Forall plain (firstn n cs)).
    { rewrite <- (firstn_skipn n cs) in H. apply Forall_prefix in H. assumption. }
    rewrite walk_plain by assumption.
    pose proof (path_len_mono (st ++ firstn n cs) (skipn n cs)) as M. rewrite <- app_assoc, firstn_skipn in M. lia.
Qed.
Lemma fits_nil_piece : forall sz st cs, fits sz st ([] :: cs) <-> fits sz st cs.
Proof.
  intros sz st cs. rewrite fits_cons. change (walk1 st []) with st. split; [tauto|].
  intros F. split; [exact (F 0%nat)|exact F].
Qed.
Lemma fits_path : forall cs sz, Forall plain cs -> (fits sz [] (pieces (path_of cs)) <-> lenN (path_of cs) < sz).
Proof.
  intros cs sz H. destruct cs as [|c cs].
  - change (pieces (path_of [])) with [@nil N; []]. rewrite !fits_nil_piece. apply (fits_plain [] sz []). constructor.
  - rewrite path_of_fm by discriminate. rewrite pieces_fm by assumption. rewrite fits_nil_piece, fits_plain by assumption.
    rewrite path_of_fm by discriminate. reflexivity.
Qed.

(* ---- the stored paths ------------------------------------------------------ *)

Definition stored (d : bytes) : Prop := exists cs, Forall plain cs /\ d = path_of cs /\ lenN d < MAX_FILENAME.
Definition paths_ok (p : paths) : Prop :=
  (forall d, sp_default p = Some d -> stored d) /\ (forall c, sp_confine p = Some c -> stored c).

Lemma stored_default : forall p, paths_ok p -> exists from, default_is (sp_default p) from.
Proof.
  intros p (H & _). destruct (sp_default p) as [d|].
  - destruct (H d eq_refl) as (cs & P & -> & L). exists cs. split; [assumption|]. split; [reflexivity|].
    unfold is32, W32, MAX_FILENAME in *. lia.
  - exists []. split; [constructor|reflexivity].
Qed.

Lemma m256 : is32 MAX_FILENAME /\ 2 <= MAX_FILENAME.
Proof. unfold is32, W32, MAX_FILENAME. split; lia. Qed.

Lemma fits_end : forall sz st cs, fits sz st cs -> lenN (path_of (walk st cs)) < sz.
Proof. intros sz st cs F. specialize (F (length cs)). rewrite firstn_all in F. assumption. Qed.

Lemma RealPath_stored : forall d from inp ret out, default_is d from -> is32 (lenN inp) ->
  RealPath d inp MAX_FILENAME = Some (ret, out) -> ret = WS_SUCCESS ->
  exists st, start from inp st /\ out = path_of (walk st (pieces inp)) /\ Forall plain (walk st (pieces inp)) /\ stored out /\
    fits MAX_FILENAME st (pieces inp).
Proof.
  intros d from inp ret out Hd Hi E ->. destruct m256 as (M1 & M2). destruct (start_total from inp) as (st & Hst).
  destruct (RealPath_ok _ _ _ _ _ Hd Hi M1 M2 Hst) as (ret' & out' & E' & H).
  rewrite E in E'. apply some_pair in E'. destruct E' as (<- & <-).
  destruct H as [(_ & F & -> & P) | (H & _)]; [|discriminate].
  exists st. split; [assumption|]. split; [reflexivity|]. split; [assumption|]. split; [|assumption].
  exists (walk st (pieces inp)). split; [assumption|]. split; [reflexivity|]. apply fits_end. assumption.
Qed.

Lemma default_none : default_is None [].
Proof. split; [constructor|reflexivity]. Qed.

Lemma Canonicalize_ok : forall cwd path, exists ret c, CanonicalizePath cwd path = Some (ret, c) /\
  (ret = WS_SUCCESS -> stored c /\
    exists cs, c = path_of cs /\ Forall plain cs /\
      ((absolute path /\ cs = walk [] (pieces path)) \/
       (~ absolute path /\ exists w, cwd = Some w /\ cs = walk (walk [] (pieces (cstr (takeN 255 w)))) (pieces path)))).
Proof.
  intros cwd path. unfold CanonicalizePath. destruct (N.leb_spec MAX_FILENAME (lenN path)) as [L|L].
  { eexists _, _. split; [reflexivity|]. discriminate. }
  destruct m256 as (M1 & M2).
  assert (P32 : is32 (lenN path)) by (unfold is32, W32, MAX_FILENAME in *; lia).
  destruct (is_rel path) eqn:R.
  - assert (NA : ~ absolute path) by (intros A; apply is_rel_spec in A; congruence).
    destruct cwd as [w|]; [|eexists _, _; split; [reflexivity|]; discriminate].
    set (wt := cstr (takeN 255 w)). assert (W32' : is32 (lenN wt)).
    { pose proof (cstr_len (takeN 255 w)) as C. rewrite lenN_takeN in C. fold wt in C. unfold is32, W32. lia. }
    destruct (start_total [] wt) as (st & Hst).
    destruct (RealPath_ok None [] wt MAX_FILENAME st default_none W32' M1 M2 Hst) as (ret & out & E & H).
    rewrite E. destruct (rc_eqb ret WS_SUCCESS) eqn:Er.
    2: { apply rc_eqb_neq in Er. eexists _, _. split; [reflexivity|]. intros; contradiction. }
    destruct H as [(_ & F & -> & P) | (-> & _)]; [|discriminate].
    assert (st = []) by (destruct Hst as [(_ & ->)|(_ & ->)]; reflexivity). subst st.
    pose proof (fits_end _ _ _ F) as FE. destruct (N.leb_spec MAX_FILENAME (lenN (path_of (walk [] (pieces wt))))); [lia|].
    assert (D : default_is (Some (path_of (walk [] (pieces wt)))) (walk [] (pieces wt))).
    { split; [assumption|]. split; [reflexivity|]. unfold is32, W32, MAX_FILENAME in *. lia. }
    destruct (start_total (walk [] (pieces wt)) path) as (st & Hst2).
    destruct (RealPath_ok _ _ path MAX_FILENAME st D P32 M1 M2 Hst2) as (ret2 & out2 & E2 & H2).
    rewrite E2. eexists _, _. split; [reflexivity|]. intros ->.
    destruct (RealPath_stored _ _ _ _ _ D P32 E2 eq_refl) as (st' & _ & _ & _ & ST & _).
    split; [assumption|]. destruct H2 as [(_ & F2 & -> & P2) | (H2 & _)]; [|discriminate].
    eexists. split; [reflexivity|]. split; [assumption|]. right. split; [assumption|]. exists w. split; [reflexivity|].
    destruct Hst2 as [(A & _)|(_ & ->)]; [contradiction|]. reflexivity.
  - apply is_rel_spec in R. destruct (start_total [] path) as (st & Hst).
    destruct (RealPath_ok None [] path MAX_FILENAME st default_none P32 M1 M2 Hst) as (ret & out & E & H).
    rewrite E. eexists _, _. split; [reflexivity|]. intros ->.
    destruct (RealPath_stored _ _ _ _ _ default_none P32 E eq_refl) as (st' & _ & _ & _ & ST & _).
    split; [assumption|]. destruct H as [(_ & F & -> & P) | (H & _)]; [|discriminate].
    eexists. split; [reflexivity|]. split; [assumption|]. left. split; [assumption|].
    destruct Hst as [(_ & ->)|(A & ->)]; reflexivity.
Qed.

Lemma SetDefault_inv : forall cwd path p, paths_ok p -> paths_ok (fst (SetDefaultPath cwd path p)) /\
  sp_confine (fst (SetDefaultPath cwd path p)) = sp_confine p.
Proof.
  intros cwd path p (H1 & H2). unfold SetDefaultPath. destruct path as [s|]; [|split; [split; assumption|reflexivity]].
  destruct (Canonicalize_ok cwd s) as (ret & c & -> & H). destruct (rc_eqb ret WS_SUCCESS) eqn:E; [|split; [split; assumption|reflexivity]].
  apply rc_eqb_eq in E. destruct (H E) as (ST & _). split; [|reflexivity]. split; [|exact H2].
  cbn [fst sp_default]. intros d Hd. injection Hd as <-. assumption.
Qed.
Lemma SetConfine_inv : forall cwd path p, paths_ok p -> paths_ok (fst (SetConfinePath cwd path p)).
Proof.
  intros cwd path p (H1 & H2). unfold SetConfinePath. destruct path as [s|]; [|split; assumption].
  destruct (Canonicalize_ok cwd s) as (ret & c & -> & H). destruct (rc_eqb ret WS_SUCCESS) eqn:E; [|split; assumption].
  apply rc_eqb_eq in E. destruct (H E) as (ST & _). split; [exact H1|].
  cbn [fst sp_confine]. intros d Hd. injection Hd as <-. assumption.
Qed.
Lemma RecvRealPath_inv : forall cwd data p, paths_ok p -> paths_ok (fst (RecvRealPath cwd data p)) /\
  sp_confine (fst (RecvRealPath cwd data p)) = sp_confine p.
Proof.
  intros cwd data p Hp. unfold RecvRealPath. destruct (MAX_FILENAME <=? lenN data); [split; [assumption|reflexivity]|].
  set (p1 := match sp_default p with Some _ => p | None => _ end).
  assert (H1 : paths_ok p1 /\ sp_confine p1 = sp_confine p).
  { unfold p1. destruct (sp_default p) as [d|]; [split; [assumption|reflexivity]|].
    destruct cwd as [w|]; [|split; [assumption|reflexivity]].
    destruct (RealPath None (cstr (takeN 255 w)) MAX_FILENAME) as [[ret s]|]; [|split; [assumption|reflexivity]].
    destruct (rc_eqb ret WS_SUCCESS); [|split; [assumption|reflexivity]]. apply SetDefault_inv. assumption. }
  clearbody p1. destruct (sp_default p1) as [d|]; [|exact H1].
  destruct (RealPath (Some d) (cstr data) MAX_FILENAME) as [[ret s]|]; [|exact H1].
  destruct (rc_eqb ret WS_SUCCESS); exact H1.
Qed.

Lemma path_run_ok : forall os, paths_ok (path_run os).
Proof.
  unfold path_run. intros os. assert (G : forall p, paths_ok p -> paths_ok (fold_left path_step os p)).
  { induction os as [|o os IH]; intros p Hp; [assumption|]. cbn [fold_left]. apply IH. destruct o; cbn [path_step].
    - apply SetDefault_inv. assumption.
    - apply SetConfine_inv. assumption.
    - apply RecvRealPath_inv. assumption. }
  apply G. split; discriminate.
Qed.

Lemma pieces_join : forall a b, pieces (a ++ 47 :: b) = pieces a ++ pieces b.
Proof.
  induction a as [|x a IH]; intros b; cbn [app].
  - rewrite pieces_slash. reflexivity.
  - cbn [pieces]. rewrite IH. pose proof (pieces_ne a). destruct (pieces a) as [|p ps]; [contradiction|]. cbn [app].
    destruct (N.eq_dec x 47); reflexivity.
Qed.
Lemma pieces_one : forall n, ~ In 47 n -> pieces n = [n].
Proof. intros n H. rewrite <- (app_nil_r n) at 1. rewrite pieces_app by assumption. cbn [pieces]. rewrite app_nil_r. reflexivity. Qed.

Lemma entry_noslash : forall n, entry_name n -> ~ In 47 n.
Proof.
  intros n [(_ & _ & _ & H) | [-> | ->] ]; [assumption| |]; cbn; intuition discriminate.
Qed.

Lemma readdir_spec : forall p cs name x, paths_ok p -> Forall plain cs -> entry_name name ->
  readdir_path p (path_of cs) name = Some x -> x = path_of (walk1 cs name) /\ Forall plain (walk1 cs name).
Proof.
  intros p cs name x Hp Hc Hn E. unfold readdir_path in E.
  destruct (N.leb_spec MAX_FILENAME (lenN (path_of cs ++ [SLASH] ++ name))) as [L|L]; [discriminate|].
  destruct (stored_default p Hp) as (from & Hd).
  set (r := path_of cs ++ [SLASH] ++ name) in *.
  assert (R32 : is32 (lenN r)) by (unfold is32, W32, MAX_FILENAME in *; lia).
  destruct (RealPath (sp_default p) r MAX_FILENAME) as [[ret s]|] eqn:ER; [|discriminate].
  destruct (rc_eqb ret WS_SUCCESS) eqn:Er; [|discriminate]. apply rc_eqb_eq in Er. assert (s = x) by congruence. subst s.
  destruct (RealPath_stored _ _ _ _ _ Hd R32 ER Er) as (st & Hst & -> & P & _ & _).
  assert (A : absolute r).
  { destruct (absolute_path cs) as (t & T). unfold r. rewrite T. eexists. reflexivity. }
  destruct Hst as [(_ & ->)|(NA & _)]; [|contradiction].
  assert (W : walk [] (pieces r) = walk1 cs name).
  { unfold r. cbn [app]. unfold SLASH. rewrite pieces_join, walk_app, walk_pieces_path by assumption. cbn [app].
    rewrite pieces_one by (apply entry_noslash; assumption). reflexivity. }
  rewrite W in *. split; [reflexivity|assumption].
Qed.

Lemma Get_total : forall p link data, paths_ok p -> exists ret s q, GetAndCleanPath p link data MAX_FILENAME = Some (ret, s, q) /\
  (ret = WS_SUCCESS -> exists cs, s = path_of cs /\ Forall plain cs) /\
  (forall c, sp_confine p = Some c -> exists root, c = path_of root /\ Forall plain root /\
     (forall x, In x q -> names_inside root x) /\ (ret = WS_SUCCESS -> names_inside root s)).
Proof.
  intros p link data Hp. destruct m256 as (M1 & M2). destruct (stored_default p Hp) as (from & Hd).
  destruct (start_total from (cstr data)) as (st & Hst).
  destruct (N.lt_ge_cases (lenN data) MAX_FILENAME) as [L|L].
  2: { unfold GetAndCleanPath. destruct (N.leb_spec MAX_FILENAME (lenN data)); [|lia]. eexists _, _, _. split; [reflexivity|].
       split; [discriminate|]. intros c Hc. destruct Hp as (_ & Hp). destruct (Hp c Hc) as (root & P & E & _).
       exists root. split; [assumption|]. split; [assumption|]. split; [intros x []|discriminate]. }
  destruct (sp_confine p) as [c|] eqn:Hc.
  - destruct Hp as (_ & Hp). destruct (Hp c Hc) as (root & P & E & _). subst c.
    destruct (GetAndCleanPath_ok p from root link data MAX_FILENAME st Hd Hc P M1 M2 L Hst) as (ret & s & q & G & H).
    exists ret, s, q. split; [assumption|]. split.
    + intros ->. destruct H as [(_ & -> & P2 & _) | (_ & H & _)]; [|discriminate]. eexists. split; [reflexivity|assumption].
    + intros c Ec. injection Ec as <-. exists root. split; [reflexivity|]. split; [assumption|].
      destruct H as [(F & -> & P2 & [(I & _ & _ & Q) | (_ & -> & ->)]) | (_ & -> & ->)].
      * split.
        -- intros x Hx. destruct (Q x Hx) as (r1 & r2 & E1 & _ & ->). exists (root ++ r1).
           split; [|split; [reflexivity|exists r1; reflexivity]].
           rewrite E1, app_assoc in P2. apply Forall_prefix in P2. assumption.
        -- intros _. eexists. split; [exact P2|]. split; [reflexivity|assumption].
      * split; [intros x []|discriminate].
      * split; [intros x []|discriminate].
  - unfold GetAndCleanPath. destruct (N.leb_spec MAX_FILENAME (lenN data)); [lia|].
    assert (L32 : is32 (lenN (cstr data))) by (pose proof (cstr_len data); unfold is32, MAX_FILENAME, W32 in *; lia).
    destruct (RealPath_ok _ _ _ _ _ Hd L32 M1 M2 Hst) as (ret & out & -> & K). try rewrite Hc.
    exists ret, out, []. split; [destruct (rc_eqb ret WS_SUCCESS); reflexivity|]. split; [|discriminate].
    intros ->. destruct K as [(_ & _ & -> & P) | (K & _)]; [|discriminate]. eexists. split; [reflexivity|assumption].
Qed.

Lemma fs_total : forall p link q, paths_ok p -> exists l, fs_paths p link q = Some l.
Proof.
  intros p link q Hp. destruct q as [op go data|old new|data name]; cbn [fs_paths].
  - destruct (Get_total p link data Hp) as (ret & s & ql & -> & _). eexists. reflexivity.
  - destruct (Get_total p link old Hp) as (ret & s & ql & -> & _). destruct (rc_eqb ret WS_SUCCESS); [|eexists; reflexivity].
    destruct (Get_total p link new Hp) as (ret' & s' & ql' & -> & _). eexists. reflexivity.
  - destruct (Get_total p link data Hp) as (ret & s & ql & -> & _). destruct (rc_eqb ret WS_SUCCESS); [|eexists; reflexivity].
    destruct (readdir_path p s name); eexists; reflexivity.
Qed.

Lemma names_step : forall root cs n, inside root cs -> plain n \/ n = dot -> inside root (walk1 cs n).
Proof.
  intros root cs n (r & ->) [H | ->].
  - rewrite walk1_down by assumption. exists (r ++ [n]). rewrite app_assoc. reflexivity.
  - exists r. reflexivity.
Qed.

Lemma path_of_inj : forall a b, Forall plain a -> Forall plain b -> path_of a = path_of b -> a = b.
Proof.
  intros a b Ha Hb E. pose proof (walk_pieces_path a [] Ha) as A. pose proof (walk_pieces_path b [] Hb) as B.
  rewrite E in A. cbn [app] in A, B. congruence.
Qed.

Lemma fs_inside : forall p c link q l, paths_ok p -> sp_confine p = Some c -> fs_paths p link q = Some l ->
  (forall data name, q = QReaddir data name -> plain name \/ name = dot) ->
  exists root, c = path_of root /\ Forall plain root /\ forall x, In x l -> names_inside root x.
Proof.
  intros p c link q l Hp Hc E Hq. destruct q as [op go data|old new|data name]; cbn [fs_paths] in E.
  - destruct (Get_total p link data Hp) as (ret & s & ql & G & _ & H). rewrite G in E. clear G.
    destruct (H c Hc) as (root & -> & P & H1 & H2). exists root. split; [reflexivity|]. split; [assumption|].
    assert (E' : ql ++ (if rc_eqb ret WS_SUCCESS && go then [s] else []) = l) by congruence. subst l.
    intros x Hx. apply in_app_or in Hx. destruct Hx as [Hx|Hx]; [auto|].
    destruct (rc_eqb ret WS_SUCCESS) eqn:Er; [|destruct Hx]. apply rc_eqb_eq in Er. destruct go; [|destruct Hx].
    destruct Hx as [<-|[]]. auto.
  - destruct (Get_total p link old Hp) as (ret & s & ql & G & _ & H). rewrite G in E. clear G.
    destruct (H c Hc) as (root & -> & P & H1 & H2). exists root. split; [reflexivity|]. split; [assumption|].
    destruct (rc_eqb ret WS_SUCCESS) eqn:Er.
    2: { assert (ql = l) by congruence. subst. assumption. }
    apply rc_eqb_eq in Er.
    destruct (Get_total p link new Hp) as (ret' & s' & ql' & G & _ & H'). rewrite G in E. clear G.
    destruct (H' (path_of root) Hc) as (root' & E2 & P' & H1' & H2'). apply path_of_inj in E2; [|assumption|assumption]. subst root'.
    assert (E' : ql ++ ql' ++ (if rc_eqb ret' WS_SUCCESS then [s; s'] else []) = l) by congruence. subst l.
    intros x Hx. apply in_app_or in Hx. destruct Hx as [Hx|Hx]; [auto|].
    apply in_app_or in Hx. destruct Hx as [Hx|Hx]; [auto|].
    destruct (rc_eqb ret' WS_SUCCESS) eqn:Er'; [|destruct Hx]. apply rc_eqb_eq in Er'.
    destruct Hx as [<-|[<-|[]]]; auto.
  - destruct (Get_total p link data Hp) as (ret & s & ql & G & _ & H). rewrite G in E. clear G.
    destruct (H c Hc) as (root & -> & P & H1 & H2). exists root. split; [reflexivity|]. split; [assumption|].
    destruct (rc_eqb ret WS_SUCCESS) eqn:Er.
    2: { assert (l = []) by congruence. subst. intros x []. }
    apply rc_eqb_eq in Er. destruct (H2 Er) as (cs & P2 & -> & I).
    specialize (Hq data name eq_refl).
    destruct (readdir_path p (path_of cs) name) as [y|] eqn:RD.
    2: { assert (l = []) by congruence. subst. intros x []. }
    assert (l = [y]) by congruence. subst l. intros x [<-|[]].
    destruct (readdir_spec p cs name y Hp P2) as (-> & P3); [unfold entry_name; tauto|assumption|].
    exists (walk1 cs name). split; [assumption|]. split; [reflexivity|]. apply names_step; assumption.
Qed.
