(* SshdKeysProofs2.v - the path of the key file, opening it, and the names and
   addresses in certificates. *)
From Coq Require Import List NArith ZArith Lia Bool String.
From Verif Require Import Base WireModel WireSpec WireProofs KexProofs NameTable NegoSpec SshdConfModel SshdConfSpec SshdConfProofs
  SshdKeysModel SshdKeysSpec SshdKeysProofs.
Import ListNotations.
Open Scope N_scope.

(* ---- path ---------------------------------------------------------------- *)
Lemma expand_pattern : forall home user ps out, lenN out < 80 ->
  expand_tokens home user out (pattern_of ps) = if lenN out + lenN (value_of home user ps) <? 80 then Some (out ++ value_of home user ps) else None.
Proof.
  intros home user ps. induction ps as [|p ps IH]; intros out L.
  - cbn. change (lenN (@nil N)) with 0. rewrite N.add_0_r, app_nil_r. apply N.ltb_lt in L. rewrite L. reflexivity.
  - unfold pattern_of, value_of in *. cbn [map List.concat].
    assert (STEP : forall ins, (if MAX_PATH_SZ <=? lenN out + lenN ins then None else expand_tokens home user (out ++ ins) (List.concat (map written ps))) =
      (if lenN out + lenN (ins ++ List.concat (map (stands_for home user) ps)) <? 80 then Some (out ++ ins ++ List.concat (map (stands_for home user) ps)) else None)).
    { intros ins. unfold MAX_PATH_SZ. rewrite lenN_app. destruct (N.leb_spec 80 (lenN out + lenN ins)) as [Q|Q].
      - replace (lenN out + (lenN ins + lenN (List.concat (map (stands_for home user) ps))) <? 80) with false by (symmetry; apply N.ltb_ge; lia). reflexivity.
      - rewrite IH by (rewrite lenN_app; lia). rewrite lenN_app, <- N.add_assoc, <- app_assoc. reflexivity. }
    destruct p as [c| |]; cbn [written stands_for].
    + destruct (N.eqb_spec c 37) as [->|C].
      * change (ascii "%%" ++ List.concat (map written ps)) with (37 :: 37 :: List.concat (map written ps)). cbn [expand_tokens N.eqb Pos.eqb]. exact (STEP [37]).
      * apply N.eqb_neq in C. cbn [app expand_tokens]. rewrite C. exact (STEP [c]).
    + change (ascii "%h" ++ List.concat (map written ps)) with (37 :: 104 :: List.concat (map written ps)). cbn [expand_tokens N.eqb Pos.eqb]. exact (STEP home).
    + change (ascii "%u" ++ List.concat (map written ps)) with (37 :: 117 :: List.concat (map written ps)). cbn [expand_tokens N.eqb Pos.eqb]. exact (STEP user).
Qed.
Lemma expand_refused : forall home user pat out e, expand_tokens home user out pat = Some e ->
  exists ps, pat = pattern_of ps \/ pat = pattern_of ps ++ [37].
Proof.
  intros home user pat. remember (List.length pat) as k eqn:K. assert (LK : (List.length pat <= k)%nat) by lia. clear K. revert pat LK.
  induction k as [|k IH]; intros pat LK out e H; (destruct pat as [|c t]; [exists []; left; reflexivity|]); cbn [List.length] in LK; [lia|].
  assert (CONS : forall p rest, (exists ps, rest = pattern_of ps \/ rest = pattern_of ps ++ [37]) -> exists ps, written p ++ rest = pattern_of ps \/ written p ++ rest = pattern_of ps ++ [37]).
  { intros p rest (ps & [->| ->]); exists (p :: ps); [left; reflexivity|right]. unfold pattern_of. cbn [map List.concat]. rewrite app_assoc. reflexivity. }
  cbn [expand_tokens] in H. destruct (N.eqb_spec c 37) as [->|C].
  - destruct t as [|d t']; [exists []; right; reflexivity|].
    destruct (N.eqb_spec d 37) as [->|].
    { destruct (MAX_PATH_SZ <=? lenN out + 1); [discriminate|]. apply IH in H; [|cbn [List.length] in LK; lia]. apply (CONS (PChar 37)) in H. exact H. }
    destruct (N.eqb_spec d 104) as [->|].
    { destruct (MAX_PATH_SZ <=? lenN out + lenN home); [discriminate|]. apply IH in H; [|cbn [List.length] in LK; lia]. apply (CONS PHome) in H. exact H. }
    destruct (N.eqb_spec d 117) as [->|]; [|discriminate].
    destruct (MAX_PATH_SZ <=? lenN out + lenN user); [discriminate|]. apply IH in H; [|cbn [List.length] in LK; lia]. apply (CONS PUser) in H. exact H.
  - destruct (MAX_PATH_SZ <=? lenN out + lenN [c]); [discriminate|]. apply IH in H; [|cbn [List.length] in LK; lia]. apply (CONS (PChar c)) in H.
    cbn [written] in H. apply N.eqb_neq in C. rewrite C in H. exact H.
Qed.
Lemma absolute_hd : forall v, is_absolute v = match v with 47 :: _ => true | _ => false end.
Proof.
  intros v. unfold is_absolute. destruct v as [|c t]; [reflexivity|]. cbn [prefixb]. rewrite andb_true_r.
  destruct (N.eqb_spec 47 c) as [<-|C]; [reflexivity|]. destruct c as [|p]; [reflexivity|].
  destruct p as [p|p|]; try reflexivity; destruct p as [p|p|]; try reflexivity; destruct p as [p|p|]; try reflexivity;
  destruct p as [p|p|]; try reflexivity; destruct p as [p|p|]; try reflexivity; destruct p as [p|p|]; try reflexivity. contradiction.
Qed.
Lemma named_cases : forall home v, named_file home v = if is_absolute v then (if lenN v <? 80 then Some v else None) else join_home home v.
Proof.
  intros home v. unfold named_file, join_home, MAX_PATH_SZ. rewrite absolute_hd. destruct (match v with 47 :: _ => true | _ => false end) eqn:E.
  - replace (match v with 47 :: _ => v | _ => home ++ 47 :: v end) with v; [reflexivity|].
    destruct v as [|c t]; [discriminate|]. destruct c as [|p]; [discriminate|].
    destruct p as [p|p|]; try discriminate; destruct p as [p|p|]; try discriminate; destruct p as [p|p|]; try discriminate;
    destruct p as [p|p|]; try discriminate; destruct p as [p|p|]; try discriminate; destruct p as [p|p|]; try discriminate. reflexivity.
  - replace (match v with 47 :: _ => v | _ => home ++ 47 :: v end) with (home ++ 47 :: v).
    2:{ destruct v as [|c t]; [reflexivity|]. destruct c as [|p]; [reflexivity|].
      destruct p as [p|p|]; try reflexivity; destruct p as [p|p|]; try reflexivity; destruct p as [p|p|]; try reflexivity;
      destruct p as [p|p|]; try reflexivity; destruct p as [p|p|]; try reflexivity; destruct p as [p|p|]; try reflexivity. discriminate. }
    rewrite lenN_app, lenN_cons. destruct (N.ltb_spec (lenN home + (1 + lenN v)) 80), (N.leb_spec 80 (lenN home + 1 + lenN v)); try lia; reflexivity.
Qed.
Lemma pattern_nil : forall ps, pattern_of ps = [] -> ps = [].
Proof. intros [|p ps] H; [reflexivity|]. destruct p as [c| |]; unfold pattern_of in H; cbn in H; [destruct (c =? 37)| |]; discriminate. Qed.
Lemma resolve_pattern : forall home user ps, ps <> [] ->
  resolve_path home user (Some (pattern_of ps)) = named_file home (value_of home user ps).
Proof.
  intros home user ps NE. unfold resolve_path. destruct (pattern_of ps) as [|c t] eqn:E; [apply pattern_nil in E; contradiction|]. rewrite <- E.
  rewrite expand_pattern by (cbn; lia). change (lenN (@nil N)) with 0. rewrite N.add_0_l. cbn [app]. rewrite named_cases.
  destruct (N.ltb_spec (lenN (value_of home user ps)) 80) as [L|L].
  - destruct (is_absolute (value_of home user ps)); reflexivity.
  - destruct (is_absolute (value_of home user ps)); [reflexivity|]. unfold join_home, MAX_PATH_SZ.
    replace (80 <=? lenN home + 1 + lenN (value_of home user ps)) with true by (symmetry; apply N.leb_le; lia). reflexivity.
Qed.
Lemma resolve_default : forall home user, resolve_path home user None = named_file home (ascii ".ssh/authorized_keys").
Proof. intros. rewrite named_cases. reflexivity. Qed.
Lemma resolve_refused : forall home user pat e, resolve_path home user (Some pat) = Some e ->
  exists ps, pat = pattern_of ps \/ pat = pattern_of ps ++ [37].
Proof.
  intros home user pat e H. unfold resolve_path in H. destruct pat as [|c t]; [exists []; left; reflexivity|].
  destruct (expand_tokens home user [] (c :: t)) eqn:E; [|discriminate]. eapply expand_refused. exact E.
Qed.
(* distinct users have distinct files *)
Lemma value_len : forall h u1 u2 ps, lenN u1 = lenN u2 -> lenN (value_of h u1 ps) = lenN (value_of h u2 ps).
Proof.
  intros h u1 u2 ps L. unfold value_of. induction ps as [|p ps IH]; [reflexivity|]. cbn [map List.concat]. rewrite !lenN_app, IH.
  destruct p; cbn; congruence.
Qed.
Lemma value_mono : forall h u1 u2 ps, lenN u1 <= lenN u2 -> lenN (value_of h u1 ps) <= lenN (value_of h u2 ps).
Proof.
  intros h u1 u2 ps L. unfold value_of. induction ps as [|p ps IH]; [cbn; lia|]. cbn [map List.concat]. rewrite !lenN_app.
  destruct p; cbn [stands_for]; lia.
Qed.
Lemma value_strict : forall h u1 u2 ps, In PUser ps -> lenN u1 < lenN u2 -> lenN (value_of h u1 ps) < lenN (value_of h u2 ps).
Proof.
  intros h u1 u2 ps I1 L. unfold value_of. induction ps as [|p ps IH]; [destruct I1|]. cbn [map List.concat]. rewrite !lenN_app.
  destruct I1 as [->|I1].
  - cbn [stands_for]. pose proof (value_mono h u1 u2 ps ltac:(lia)) as Q. unfold value_of in Q. lia.
  - specialize (IH I1). destruct p; cbn [stands_for]; lia.
Qed.
Lemma value_inj : forall h u1 u2 ps, In PUser ps -> value_of h u1 ps = value_of h u2 ps -> u1 = u2.
Proof.
  intros h u1 u2 ps I1 E.
  assert (L : lenN u1 = lenN u2).
  { destruct (N.lt_trichotomy (lenN u1) (lenN u2)) as [Q|[Q|Q]]; [|exact Q|]; apply (value_strict h _ _ ps I1) in Q; rewrite E in Q; lia. }
  revert E. unfold value_of. induction ps as [|p ps IH]; [destruct I1|]. cbn [map List.concat]. intros E.
  assert (Lp : lenN (stands_for h u1 p) = lenN (stands_for h u2 p)) by (destruct p; cbn; congruence).
  assert (S : stands_for h u1 p = stands_for h u2 p /\ List.concat (map (stands_for h u1) ps) = List.concat (map (stands_for h u2) ps)).
  { revert E Lp. generalize (stands_for h u1 p) (stands_for h u2 p). induction b as [|x b IHb]; intros [|y b'] E Lp; rewrite ?lenN_cons in Lp; try (change (lenN (@nil N)) with 0 in Lp; lia).
    - split; [reflexivity|exact E].
    - cbn [app] in E. inversion E; subst. assert (Q : lenN b = lenN b') by lia. destruct (IHb b' H1 Q) as [-> R]. split; [reflexivity|exact R]. }
  destruct S as [S1 S2]. destruct I1 as [->|I1]; [exact S1|]. apply IH; assumption.
Qed.

(* ---- opening ------------------------------------------------------------- *)
Lemma land_two : forall m a b, N.land m (N.lor (2 ^ a) (2 ^ b)) = 0 <-> N.testbit m a = false /\ N.testbit m b = false.
Proof.
  intros m a b. split.
  - intros H. assert (Q : forall i, N.testbit (N.land m (N.lor (2 ^ a) (2 ^ b))) i = false) by (intros i; rewrite H; apply N.bits_0).
    split; [specialize (Q a)|specialize (Q b)]; rewrite N.land_spec, N.lor_spec in Q; rewrite N.pow2_bits_true in Q.
    + rewrite orb_true_l, andb_true_r in Q. exact Q.
    + rewrite orb_true_r, andb_true_r in Q. exact Q.
  - intros [A B]. apply N.bits_inj. intros i. rewrite N.bits_0, N.land_spec, N.lor_spec.
    destruct (N.eq_dec i a) as [->|NA]; [rewrite A; reflexivity|]. destruct (N.eq_dec i b) as [->|NB]; [rewrite B; reflexivity|].
    rewrite !N.pow2_bits_false by congruence. apply andb_false_r.
Qed.
Lemma land_one : forall m a, N.land m (2 ^ a) = 0 <-> N.testbit m a = false.
Proof.
  intros m a. replace (2 ^ a) with (N.lor (2 ^ a) (2 ^ a)) by apply N.lor_diag. rewrite land_two. tauto.
Qed.
Lemma write_bits : forall m, (N.land m (N.lor S_IWGRP S_IWOTH) =? 0) = true <-> ~ others_write m.
Proof.
  intros m. rewrite N.eqb_eq. change (N.lor S_IWGRP S_IWOTH) with (N.lor (2 ^ 4) (2 ^ 1)). rewrite land_two. unfold others_write.
  destruct (N.testbit m 4), (N.testbit m 1); split; intros H; try tauto; try (destruct H; congruence); try (split; congruence).
  - intros [Q|Q]; discriminate.
Qed.
Lemma read_bits : forall m, (N.land m (N.lor S_IRGRP S_IROTH) =? 0) = true <-> ~ others_read m.
Proof.
  intros m. rewrite N.eqb_eq. change (N.lor S_IRGRP S_IROTH) with (N.lor (2 ^ 5) (2 ^ 2)). rewrite land_two. unfold others_read.
  destruct (N.testbit m 5), (N.testbit m 2); split; intros H; try tauto; try (destruct H; congruence); try (split; congruence).
  - intros [Q|Q]; discriminate.
Qed.
Lemma sticky_bit : forall m, (N.land m S_ISVTX =? 0) = true <-> ~ sticky m.
Proof.
  intros m. rewrite N.eqb_eq. change S_ISVTX with (2 ^ 9). rewrite land_one. unfold sticky. destruct (N.testbit m 9); split; congruence.
Qed.
Definition safe_dir (s : option fstat_t) : Prop :=
  exists st, s = Some st /\ st_dir st = true /\ (others_write (st_mode st) -> sticky (st_mode st)).
Lemma dir_ok_safe : forall s, dir_ok s = true <-> safe_dir s.
Proof.
  intros [st|]; [|split; [discriminate|intros (st & H & _); discriminate]]. unfold dir_ok, safe_dir.
  pose proof (write_bits (st_mode st)) as W. pose proof (sticky_bit (st_mode st)) as T.
  destruct (st_dir st) eqn:D; cbn [andb].
  - destruct (N.land (st_mode st) (N.lor S_IWGRP S_IWOTH) =? 0); cbn [negb andb].
    + split; [intros _|reflexivity]. exists st. split; [reflexivity|]. split; [exact D|]. intros Q. exfalso. apply (proj1 W eq_refl). exact Q.
    + destruct (N.land (st_mode st) S_ISVTX =? 0); cbn [negb].
      * split; [discriminate|]. intros (s & E & _ & Q). inversion E; subst. exfalso.
        assert (NW : ~ others_write (st_mode s)). { intros Q2. apply (proj1 T eq_refl). apply Q, Q2. }
        apply W in NW. discriminate NW.
      * split; [intros _|reflexivity]. exists st. split; [reflexivity|]. split; [exact D|]. intros _. unfold sticky in *.
        destruct (N.testbit (st_mode st) 9); [reflexivity|]. assert (Q : false = true) by (apply T; discriminate). discriminate Q.
  - split; [discriminate|]. intros (s & E & Q & _). inversion E; subst. congruence.
Qed.
Lemma before_slash_app : forall a c, ~ In 47 c -> before_slash (a ++ 47 :: c) = Some a.
Proof.
  intros a c H. induction a as [|x a IH].
  - cbn [app before_slash]. assert (E : before_slash c = None).
    { clear -H. induction c as [|y c IH]; [reflexivity|]. cbn [before_slash]. rewrite IH by (intros Q; apply H; right; exact Q).
      destruct (N.eqb_spec y 47) as [->|]; [exfalso; apply H; left; reflexivity|reflexivity]. }
    rewrite E. reflexivity.
  - cbn [app before_slash]. rewrite IH. reflexivity.
Qed.
Lemma path_snoc : forall cs c, path_of (cs ++ [c]) = path_of cs ++ 47 :: c.
Proof. intros. unfold path_of. rewrite map_app, concat_app. cbn. rewrite app_nil_r. reflexivity. Qed.
Definition comps_ok (cs : list bytes) : Prop := Forall (fun c => c <> [] /\ ~ In 47 c) cs.
Lemma path_nil : forall cs, path_of cs = [] -> cs = [].
Proof. intros [|c cs] H; [reflexivity|discriminate H]. Qed.
Lemma path_len : forall cs, comps_ok cs -> (2 * List.length cs <= List.length (path_of cs))%nat.
Proof.
  intros cs H. induction H as [|c cs [NE _] H IH]; [cbn; lia|]. unfold path_of in *. cbn [map List.concat List.length]. rewrite app_length.
  cbn [List.length]. destruct c; [congruence|]. cbn [List.length]. lia.
Qed.
Lemma path_not_root : forall cs, comps_ok cs -> path_of cs <> [47].
Proof.
  intros cs H E. pose proof (path_len cs H) as L. rewrite E in L. destruct cs as [|c cs]; [discriminate E|cbn in L; lia].
Qed.
Definition up_dir (up : list bytes) : bytes := match up with [] => [47] | _ => path_of up end.
Lemma walk_all : forall cs, comps_ok cs -> cs <> [] -> forall fuel stat, (List.length cs <= fuel)%nat ->
  (walk fuel stat (path_of cs) = true <-> forall up down, cs = up ++ down -> down <> [] -> safe_dir (stat (up_dir up))).
Proof.
  intros cs. induction cs as [|c cs IH] using rev_ind; intros OK NE fuel stat L; [congruence|].
  apply Forall_app in OK. destruct OK as [OK1 OK2]. inversion OK2 as [|? ? [C1 C2] _]; subst.
  rewrite app_length in L. cbn [List.length] in L. destruct fuel as [|fuel]; [lia|]. cbn [walk]. rewrite path_snoc, (before_slash_app _ _ C2).
  assert (U : (match path_of cs with [] => [47] | _ => path_of cs end) = up_dir cs).
  { unfold up_dir. destruct cs as [|x cs']; [reflexivity|]. destruct (path_of (x :: cs')) eqn:E; [apply path_nil in E; discriminate E|]. reflexivity. }
  rewrite U. pose proof (dir_ok_safe (stat (up_dir cs))) as D. destruct (dir_ok (stat (up_dir cs))).
  - destruct cs as [|x cs'].
    + change (bytes_eqb (up_dir []) [47]) with true. split; [intros _|reflexivity]. intros up down E N1. destruct up as [|y up].
      * apply D. reflexivity.
      * cbn [app] in E. inversion E as [[E1 E2]]. symmetry in E2. apply app_eq_nil in E2. destruct E2. contradiction.
    + assert (B : bytes_eqb (up_dir (x :: cs')) [47] = false).
      { destruct (bytes_eqb (up_dir (x :: cs')) [47]) eqn:B; [|reflexivity]. apply bytes_eqb_eq in B. exfalso. apply (path_not_root _ OK1). exact B. }
      rewrite B. unfold up_dir at 1. rewrite (IH OK1 ltac:(discriminate) fuel stat ltac:(cbn [List.length] in *; lia)). split.
      * intros H up down E N1. destruct down as [|z down] using rev_ind; [congruence|]. clear IHdown. rewrite app_assoc in E. apply app_inj_tail in E. destruct E as [E ->].
        destruct down as [|w down]; [rewrite app_nil_r in E; subst up; apply D; reflexivity|]. apply (H up (w :: down) E). discriminate.
      * intros H up down E N1. apply (H up (down ++ [c])); [rewrite E, app_assoc; reflexivity|]. destruct down; discriminate.
  - split; [discriminate|]. intros H. assert (Q : false = true) by (apply D; apply (H cs [c]); [reflexivity|discriminate]). discriminate Q.
Qed.
Lemma path_inj : forall cs ds, comps_ok cs -> comps_ok ds -> path_of cs = path_of ds -> cs = ds.
Proof.
  intros cs. induction cs as [|c cs IH] using rev_ind; intros ds O1 O2 E.
  - symmetry in E. apply path_nil in E. symmetry. exact E.
  - destruct ds as [|d ds] using rev_ind; [apply path_nil in E; destruct cs; discriminate E|]. clear IHds.
    apply Forall_app in O1. destruct O1 as [O1 O1']. inversion O1' as [|? ? [_ C2] _]; subst. apply Forall_app in O2. destruct O2 as [O2 O2']. inversion O2' as [|? ? [_ D2] _]; subst.
    rewrite !path_snoc in E. assert (P : path_of cs = path_of ds).
    { assert (Q : Some (path_of cs) = Some (path_of ds)) by (rewrite <- (before_slash_app _ _ C2), <- (before_slash_app _ _ D2), E; reflexivity). congruence. }
    rewrite P in E. apply app_inv_head in E. inversion E; subst. f_equal. apply IH; assumption.
Qed.
Lemma above_path : forall cs d, comps_ok cs -> (above d (path_of cs) <-> exists up down, cs = up ++ down /\ down <> [] /\ d = up_dir up).
Proof.
  intros cs d OK. split.
  - intros (cs' & OK' & E & up & down & E2 & N1 & D). apply path_inj in E; [|assumption|assumption]. subst cs'. exists up, down. split; [exact E2|]. split; assumption.
  - intros (up & down & E2 & N1 & D). exists cs. split; [exact OK|]. split; [reflexivity|]. exists up, down. split; [exact E2|]. split; assumption.
Qed.
Lemma open_iff : forall owner rr o, (forall p, o_real o = Some p -> canonical p) ->
  (open_secure owner rr o = true <->
   exists lst p st, o_lstat o = Some lst /\ st_reg lst = true /\ o_real o = Some p /\ o_open o = true /\ o_fstat o = Some st /\
     st_reg st = true /\ (st_uid st = owner \/ st_uid st = 0) /\ ~ others_write (st_mode st) /\ (rr = true -> ~ others_read (st_mode st)) /\
     st_dev st = st_dev lst /\ st_ino st = st_ino lst /\ (forall d, above d p -> safe_dir (o_stat o d)) /\ o_fdopen o = true).
Proof.
  intros owner rr o CAN. unfold open_secure. destruct (o_lstat o) as [lst|] eqn:EL.
  2:{ split; [discriminate|]. intros (l & p & st & Q & _). discriminate Q. }
  destruct (st_reg lst) eqn:RL; cbn [negb].
  2:{ split; [discriminate|]. intros (l & p & st & Q & R & _). inversion Q; subst. congruence. }
  destruct (o_real o) as [p|] eqn:ER.
  2:{ split; [discriminate|]. intros (l & p & st & _ & _ & Q & _). discriminate Q. }
  destruct (o_open o) eqn:EO; cbn [negb].
  2:{ split; [discriminate|]. intros (l & p' & st & _ & _ & _ & Q & _). discriminate Q. }
  destruct (o_fstat o) as [st|] eqn:EF.
  2:{ split; [discriminate|]. intros (l & p' & st & _ & _ & _ & _ & Q & _). discriminate Q. }
  destruct (CAN p eq_refl) as (cs & NE & OK & ->).
  pose proof (walk_all cs OK NE (List.length (path_of cs)) (o_stat o) ltac:(pose proof (path_len cs OK); lia)) as W.
  assert (W2 : walk (List.length (path_of cs)) (o_stat o) (path_of cs) = true <-> forall d, above d (path_of cs) -> safe_dir (o_stat o d)).
  { rewrite W. split.
    - intros H d A. apply (above_path cs d OK) in A. destruct A as (up & down & E & N1 & ->). exact (H up down E N1).
    - intros H up down E N1. apply H. apply (above_path cs _ OK). exists up, down. split; [exact E|]. split; [exact N1|reflexivity]. }
  rewrite !andb_true_iff, W2. unfold leaf_ok. rewrite !andb_true_iff, !orb_true_iff, !N.eqb_eq. rewrite negb_true_iff.
  assert (WB := write_bits (st_mode st)). assert (RB := read_bits (st_mode st)). rewrite N.eqb_eq in WB, RB. split.
  - intros [[[[[[A1 A2] A3] A4] [A5 A6]] B] C]. exists lst, (path_of cs), st.
    split; [reflexivity|]. split; [exact RL|]. split; [reflexivity|]. split; [reflexivity|]. split; [reflexivity|]. split; [exact A1|]. split; [exact A2|].
    split; [apply WB; exact A3|]. split; [|split; [exact A5|split; [exact A6|split; [exact B|exact C]]]].
    intros RR. destruct A4 as [A4|A4]; [congruence|]. apply RB. exact A4.
  - intros (l & p & s & Q1 & _ & Q2 & _ & Q3 & A1 & A2 & A3 & A4 & A5 & A6 & B & C). inversion Q1; subst l. inversion Q2; subst p. inversion Q3; subst s.
    split; [split; [|exact B]|exact C]. split; [|split; assumption]. split; [|destruct rr; [right; apply RB, A4; reflexivity|left; reflexivity]].
    split; [split; assumption|]. apply WB. exact A3.
Qed.
