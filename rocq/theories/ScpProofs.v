(* ScpProofs.v - the SCP control messages (C59). *)
From Verif Require Import Base PathModel WireProofs ScpModel ScpSpec.
From Coq Require Import List NArith ZArith Bool Lia.
Import ListNotations.
Open Scope N_scope.

(* ---------------------------------------------------------------- *)
(* Fields                                                             *)

Lemma space_at_spec : forall l i j, space_at l i = Some j <->
  exists a b, l = a ++ 32 :: b /\ ~ In 32 a /\ j = i + lenN a.
Proof.
  induction l as [|c l IH]; intros i j; simpl.
  - split; [discriminate|]. intros (a & b & H & _). destruct a; discriminate.
  - unfold SPACE. destruct (N.eqb_spec c 32) as [->|K].
    + split.
      * intros [= <-]. exists [], l. split; [reflexivity|]. split; [intros []|]. change (lenN (@nil N)) with 0. lia.
      * intros (a & b & H & Ha & ->). destruct a as [|x a]; [change (lenN (@nil N)) with 0; f_equal; lia|].
        injection H as <- _. destruct Ha. left; reflexivity.
    + rewrite IH. split.
      * intros (a & b & -> & Ha & ->). exists (c :: a), b. split; [reflexivity|]. split.
        { intros [E|E]; [congruence|tauto]. }
        rewrite lenN_cons. lia.
      * intros (a & b & H & Ha & ->). destruct a as [|x a]; simpl in H.
        { injection H as E _. congruence. }
        injection H as <- ->. exists a, b. split; [reflexivity|]. split.
        { intros E. apply Ha. right; exact E. }
        rewrite lenN_cons. lia.
Qed.

Lemma space_at_none : forall l i, space_at l i = None <-> ~ In 32 l.
Proof.
  induction l as [|c l IH]; intros i; simpl.
  - split; [intros _ []|reflexivity].
  - unfold SPACE. destruct (N.eqb_spec c 32) as [->|K].
    + split; [discriminate|]. intros H. destruct H. left; reflexivity.
    + rewrite IH. split; [intros H [E|E]; [congruence|tauto] | intros H E; apply H; right; exact E].
Qed.

Definition dig (c : N) : Prop := 48 <= c <= 57.

Lemma uint_loop_spec : forall l max v r, v <= max ->
  (uint_loop l max v = Some r <->
   Forall dig l /\ r = v * 10 ^ lenN l + value 10 l /\ r <= max).
Proof.
  induction l as [|c l IH]; intros max v r Hv; simpl uint_loop; simpl value.
  - change (lenN (@nil N)) with 0. rewrite N.pow_0_r. split.
    + intros [= <-]. split; [constructor|]. lia.
    + intros (_ & -> & _). f_equal. lia.
  - destruct ((c <? 48) || (57 <? c)) eqn:B.
    + apply orb_true_iff in B. split; [discriminate|]. intros (F & _).
      inversion F as [|x y Hd Ht]; subst. unfold dig in Hd.
      destruct B as [B|B]; apply N.ltb_lt in B; lia.
    + apply orb_false_iff in B. destruct B as [B1 B2]. apply N.ltb_ge in B1. apply N.ltb_ge in B2.
      cbv zeta. rewrite lenN_cons. rewrite N.add_1_l, N.pow_succ_r'.
      set (P := 10 ^ lenN l). set (V := value 10 l).
      assert (HP : 1 <= P) by (unfold P; assert (10 ^ lenN l <> 0) by (apply N.pow_nonzero; lia); lia).
      destruct ((max <? c - 48) || ((max - (c - 48)) / 10 <? v)) eqn:O.
      * split; [discriminate|]. intros (F & -> & L).
        apply orb_true_iff in O. destruct O as [O|O]; apply N.ltb_lt in O.
        { nia. }
        assert (max - (c - 48) < 10 * v).
        { pose proof (N.div_mod (max - (c - 48)) 10). pose proof (N.mod_lt (max - (c - 48)) 10). lia. }
        nia.
      * apply orb_false_iff in O. destruct O as [O1 O2]. apply N.ltb_ge in O1. apply N.ltb_ge in O2.
        assert (10 * v <= max - (c - 48)).
        { pose proof (N.div_mod (max - (c - 48)) 10). lia. }
        rewrite IH by lia. fold P V. split.
        { intros (F & -> & L). split; [constructor; [unfold dig; lia|exact F]|]. split; [nia|exact L]. }
        { intros (F & -> & L). inversion F; subst. split; [assumption|]. split; [nia|exact L]. }
Qed.

Lemma ParseUInt64_spec : forall l max r,
  ParseUInt64 l max = Some r <-> digits l /\ r = value 10 l /\ r <= max.
Proof.
  intros l max r. unfold ParseUInt64, digits. destruct l as [|c l].
  - split; [discriminate|]. intros [[H _] _]. congruence.
  - rewrite uint_loop_spec by lia. rewrite N.mul_0_l, N.add_0_l.
    unfold dig. split.
    + intros (F & E & L). repeat split; [discriminate|exact F|exact E|exact L].
    + intros ([_ F] & E & L). auto.
Qed.

Lemma no_space_digits : forall l, Forall dig l -> ~ In 32 l.
Proof. intros l F H. rewrite Forall_forall in F. apply F in H. unfold dig in H. lia. Qed.

(* the mode *)
Lemma octal_bits : forall v d, d <= 7 -> N.lor (N.shiftl v 3) d = 8 * v + d.
Proof.
  intros v d H. rewrite N.shiftl_mul_pow2. change (2 ^ 3) with 8.
  assert (L : N.land (v * 8) d = 0).
  { apply N.bits_inj. intros i. rewrite N.land_spec, N.bits_0.
    destruct (N.ltb_spec i 3).
    + replace (v * 8) with (v * 2 ^ 3) by reflexivity. rewrite N.mul_pow2_bits_low by lia. reflexivity.
    + assert (B : N.testbit d i = false).
      { destruct (N.eq_dec d 0) as [->|Z]; [apply N.bits_0|].
        apply N.bits_above_log2. apply N.log2_lt_pow2; [lia|].
        apply N.lt_le_trans with (2 ^ 3); [change (2 ^ 3) with 8; lia | apply N.pow_le_mono_r; lia]. }
      rewrite B. apply andb_false_r. }
  rewrite <- N.lxor_lor by exact L. rewrite <- N.add_nocarry_lxor by exact L. lia.
Qed.

Lemma octal_range : forall c, octal c = true <-> 48 <= c <= 55.
Proof. intros c. unfold octal. rewrite andb_true_iff, !N.leb_le. reflexivity. Qed.

Lemma mode_value : forall o, octals o ->
  fold_left (fun m d => N.lor (N.shiftl m 3) (d - 48)) o 0 = value 8 o.
Proof.
  intros o [L F]. destruct o as [|a [|b [|c [|d [|e o]]]]]; try discriminate.
  inversion F as [|? ? Ha F1]; subst. inversion F1 as [|? ? Hb F2]; subst.
  inversion F2 as [|? ? Hc F3]; subst. inversion F3 as [|? ? Hd F4]; subst.
  cbn [fold_left]. rewrite !octal_bits by lia. cbn [value].
  change (lenN [b; c; d]) with 3. change (lenN [c; d]) with 2. change (lenN [d]) with 1. change (lenN (@nil N)) with 0.
  change (8 ^ 3) with 512. change (8 ^ 2) with 64. change (8 ^ 1) with 8. change (8 ^ 0) with 1. lia.
Qed.

(* names *)
Lemma cstr_nonul : forall l, ~ In 0 (cstr l).
Proof.
  induction l as [|c l IH]; simpl; [tauto|]. destruct (N.eqb_spec c 0); simpl; [tauto|].
  intros [E|E]; [congruence|tauto].
Qed.

Lemma has_nul_app0 : forall l, has_nul (l ++ [0]) = true.
Proof. induction l as [|c l IH]; simpl; [reflexivity|]. destruct (c =? 0); auto. Qed.

Lemma cstr_app0 : forall l, cstr (l ++ [0]) = cstr l.
Proof. induction l as [|c l IH]; simpl; [reflexivity|]. destruct (c =? 0); [reflexivity|]. rewrite IH. reflexivity. Qed.

Lemma cstr_len' : forall l, lenN (cstr l) <= lenN l.
Proof.
  induction l as [|c l IH]; simpl; [lia|]. destruct (c =? 0); rewrite ?lenN_cons.
  - change (lenN (@nil N)) with 0. lia.
  - lia.
Qed.

Lemma bad_name_spec : forall n, bad_name n = false <-> plain n.
Proof.
  intros n. unfold bad_name, plain, DOT, SLASH, BSLASH. rewrite orb_false_iff.
  assert (X : existsb (fun c => (c =? 47) || (c =? 92)) n = false <-> ~ In 47 n /\ ~ In 92 n).
  { split.
    - intros H. split; intros I;
        assert (T : existsb (fun c => (c =? 47) || (c =? 92)) n = true) by (apply existsb_exists; eexists; split; [exact I|reflexivity]);
        congruence.
    - intros [A B]. destruct (existsb _ n) eqn:T; [|reflexivity]. apply existsb_exists in T.
      destruct T as (x & I & T). apply orb_true_iff in T. destruct T as [T|T]; apply N.eqb_eq in T; subst; tauto. }
  rewrite X. clear X.
  destruct n as [|a [|b [|c n]]].
  - split; [intros [H _]; discriminate|]. intros [H _]. congruence.
  - rewrite N.eqb_neq. split.
    + intros [H1 H2]. split; [discriminate|]. split; [congruence|]. split; [discriminate|exact H2].
    + intros (_ & H1 & _ & H2). split; [congruence|exact H2].
  - rewrite andb_false_iff, !N.eqb_neq. split.
    + intros [H1 H2]. split; [discriminate|]. split; [discriminate|]. split; [|exact H2].
      intros [= -> ->]. destruct H1; congruence.
    + intros (_ & _ & H1 & H2). split; [|exact H2].
      destruct (N.eq_dec a 46) as [->|]; [|tauto]. destruct (N.eq_dec b 46) as [->|]; tauto.
  - split; [intros [_ H]; repeat split; try discriminate; apply H | intros (_ & _ & _ & H); auto].
Qed.

Lemma lenN_length : forall A (l : list A) n, lenN l = n <-> length l = N.to_nat n.
Proof. intros. unfold lenN. lia. Qed.

Lemma GetMode_oob : forall buf, GetMode buf <> POob.
Proof.
  intros buf. unfold GetMode. destruct (N.ltb_spec (lenN buf) 5) as [L|L]; [discriminate|].
  destruct buf as [|t r]; [change (lenN (@nil N)) with 0 in L; lia|].
  change (rd (t :: r) 0) with (Some t). unfold rdn. rewrite lenN_cons in *.
  destruct (N.leb_spec (1 + 4) (1 + lenN r)); [|lia].
  destruct (negb (t =? 67) && negb (t =? 68)); [discriminate|]. destruct (forallb octal _); discriminate.
Qed.

Lemma GetMode_spec : forall buf m i, GetMode buf = POk m i <->
  exists t o rest, buf = t :: o ++ rest /\ (t = 67 \/ t = 68) /\ octals o /\
    m = N.land (value 8 o) 511 /\ i = match rest with [] => 5 | _ => 6 end.
Proof.
  intros buf m i. unfold GetMode. split.
  - destruct (N.ltb_spec (lenN buf) 5) as [L|L]; [discriminate|].
    destruct buf as [|t r]; [change (lenN (@nil N)) with 0 in L; lia|].
    change (rd (t :: r) 0) with (Some t). unfold rdn. rewrite lenN_cons in *.
    destruct (N.leb_spec (1 + 4) (1 + lenN r)) as [_|]; [|lia].
    change (dropN 1 (t :: r)) with r.
    destruct (negb (t =? 67) && negb (t =? 68)) eqn:T; [discriminate|].
    destruct (forallb octal (takeN 4 r)) eqn:O; [|discriminate].
    intros H.
    assert (Oc : octals (takeN 4 r)).
    { split; [assert (lenN (takeN 4 r) = 4) by (rewrite lenN_takeN; lia); unfold lenN in *; lia|].
      apply Forall_forall. intros x Hx. rewrite forallb_forall in O. apply octal_range. auto. }
    rewrite (mode_value _ Oc) in H.
    exists t, (takeN 4 r), (dropN 4 r). rewrite takeN_dropN. split; [reflexivity|]. split.
    { apply andb_false_iff in T. rewrite !negb_false_iff, !N.eqb_eq in T. exact T. }
    split; [exact Oc|]. cbv zeta in H.
    assert (E : m = N.land (value 8 (takeN 4 r)) 511 /\ i = if 6 <=? 1 + lenN r then 6 else 5) by (split; congruence).
    destruct E as [-> ->]. split; [reflexivity|].
    pose proof (lenN_dropN N 4 r) as D. destruct (dropN 4 r) as [|x y].
    + change (lenN (@nil N)) with 0 in D. destruct (N.leb_spec 6 (1 + lenN r)); [lia|reflexivity].
    + rewrite lenN_cons in D. destruct (N.leb_spec 6 (1 + lenN r)); [reflexivity|lia].
  - intros (t & o & rest & -> & T & Oc & -> & ->).
    assert (L : lenN o = 4) by (destruct Oc as [L _]; unfold lenN; lia).
    rewrite lenN_cons, lenN_app, L. destruct (N.ltb_spec (1 + (4 + lenN rest)) 5); [lia|].
    change (rd (t :: o ++ rest) 0) with (Some t). unfold rdn. rewrite lenN_cons, lenN_app, L.
    destruct (N.leb_spec (1 + 4) (1 + (4 + lenN rest))) as [_|]; [|lia].
    change (dropN 1 (t :: o ++ rest)) with (o ++ rest). rewrite (takeN_app_exact N 4 o rest) by lia.
    replace (negb (t =? 67) && negb (t =? 68)) with false by (destruct T as [-> | ->]; reflexivity).
    replace (forallb octal o) with true.
    2:{ symmetry. apply forallb_forall. intros x Hx. apply octal_range. destruct Oc as [_ F]. rewrite Forall_forall in F. auto. }
    rewrite (mode_value _ Oc). cbv zeta. f_equal. destruct rest as [|x y].
    + reflexivity.
    + rewrite lenN_cons. destruct (N.leb_spec 6 (1 + (4 + (1 + lenN y)))); [reflexivity|lia].
Qed.

Lemma rdn_slice_mid : forall pre a post, rdn (pre ++ a ++ post) (lenN pre) (lenN a) = Some a.
Proof.
  intros. unfold rdn. rewrite !lenN_app. destruct (N.leb_spec (lenN pre + lenN a) (lenN pre + (lenN a + lenN post))); [|lia].
  f_equal. rewrite dropN_app_exact by reflexivity. apply takeN_app_exact. reflexivity.
Qed.

Lemma GetSizeField_oob : forall buf i, GetSizeField buf i <> POob.
Proof.
  intros buf i. unfold GetSizeField, FindSpace. destruct (space_at (dropN i buf) i) as [s|] eqn:S; [|discriminate].
  apply space_at_spec in S. destruct S as (a & b & H & _ & ->).
  assert (lenN buf - i = lenN a + 1 + lenN b) by (rewrite <- lenN_dropN, H, lenN_app, lenN_cons; lia).
  unfold rdn. destruct (N.leb_spec (i + (i + lenN a - i)) (lenN buf)) as [_|]; [|lia].
  destruct (ParseUInt64 _ _); discriminate.
Qed.

Lemma GetSizeField_spec : forall pre rest v j,
  GetSizeField (pre ++ rest) (lenN pre) = POk v j <->
  exists ds tail, rest = ds ++ 32 :: tail /\ digits ds /\ v = value 10 ds /\ v <= 4294967295 /\
    j = lenN pre + lenN ds + 1.
Proof.
  intros pre rest v j. unfold GetSizeField, FindSpace. rewrite dropN_app_exact by reflexivity. split.
  - destruct (space_at rest (lenN pre)) as [s|] eqn:S; [|discriminate].
    apply space_at_spec in S. destruct S as (a & b & -> & Ha & ->).
    replace (lenN pre + lenN a - lenN pre) with (lenN a) by lia. rewrite rdn_slice_mid.
    destruct (ParseUInt64 a 4294967295) as [w|] eqn:P; [|discriminate]. apply ParseUInt64_spec in P.
    destruct P as (D & -> & L). intros H. exists a, b. split; [reflexivity|]. split; [exact D|].
    rewrite !lenN_app, lenN_cons in H.
    destruct (N.leb_spec (lenN pre + lenN a + 1) (lenN pre + (lenN a + (1 + lenN b)))); [|lia].
    assert (v = value 10 a /\ j = lenN pre + lenN a + 1) as [-> ->] by (split; congruence). auto.
  - intros (ds & tail & -> & D & -> & L & ->).
    assert (S : space_at (ds ++ 32 :: tail) (lenN pre) = Some (lenN pre + lenN ds)).
    { apply space_at_spec. exists ds, tail. split; [reflexivity|]. split; [apply no_space_digits; apply D|reflexivity]. }
    rewrite S. replace (lenN pre + lenN ds - lenN pre) with (lenN ds) by lia. rewrite rdn_slice_mid.
    assert (P : ParseUInt64 ds 4294967295 = Some (value 10 ds)) by (apply ParseUInt64_spec; auto).
    rewrite P. rewrite !lenN_app, lenN_cons.
    destruct (N.leb_spec (lenN pre + lenN ds + 1) (lenN pre + (lenN ds + (1 + lenN tail)))); [reflexivity|lia].
Qed.

Lemma GetName_spec : forall pre rest n j,
  GetName (pre ++ rest ++ [0]) (lenN pre) = POk n j <-> n = cstr rest /\ plain n /\ j = lenN pre.
Proof.
  intros pre rest n j. unfold GetName. rewrite dropN_app_exact by reflexivity.
  rewrite has_nul_app0, cstr_app0. cbn [negb]. rewrite !lenN_app.
  pose proof (cstr_len' rest).
  destruct (N.ltb_spec (lenN pre + (lenN rest + lenN [0])) (lenN pre + lenN (cstr rest))); [change (lenN [0]) with 1 in *; lia|].
  destruct (bad_name (cstr rest)) eqn:B.
  - split; [discriminate|]. intros (-> & P & _). apply bad_name_spec in P. congruence.
  - apply bad_name_spec in B. split; [intros [= <- <-]; auto | intros (-> & _ & ->); reflexivity].
Qed.

Lemma GetName_oob : forall pre rest, GetName (pre ++ rest ++ [0]) (lenN pre) <> POob.
Proof.
  intros pre rest. unfold GetName. rewrite dropN_app_exact by reflexivity. rewrite has_nul_app0. cbn [negb].
  destruct (_ <? _); [discriminate|]. destruct (bad_name _); discriminate.
Qed.

(* ---------------------------------------------------------------- *)
(* Whole messages                                                     *)

Definition named (t : N) (mode size : N) (k : sink) : sink :=
  set_size size (set_mode mode (set_type (if t =? 67 then MSG_FILE else MSG_DIR) k)).

Definition after_header (t mode size : N) (n : bytes) (k : sink) : sink :=
  let k1 := named t mode size k in
  if k_rename k then set_name (k_name k) (k_cap k) false k1
  else set_name n (if k_cap k <=? lenN n then lenN n + 1 else k_cap k) false k1.

Lemma header_cases : forall text buf t tl, text = t :: tl -> buf = text ++ [0] -> (t = 67 \/ t = 68) ->
  forall m i, GetMode buf = POk m i ->
  (exists o, octals o /\ tl = o /\ m = N.land (value 8 o) 511 /\ i = lenN buf) \/
  (exists o sep r, octals o /\ tl = o ++ sep :: r /\ m = N.land (value 8 o) 511 /\ i = lenN (t :: o ++ [sep]) /\
     buf = (t :: o ++ [sep]) ++ (r ++ [0])).
Proof.
  intros text buf t tl -> -> T m i H. apply GetMode_spec in H.
  destruct H as (t' & o & rest & H & _ & Oc & -> & ->). cbn [app] in H.
  assert (t' = t /\ tl ++ [0] = o ++ rest) as [-> E] by (split; congruence). clear H.
  assert (Lo : lenN o = 4) by (destruct Oc as [L _]; unfold lenN; lia).
  assert (N0 : ~ In 0 o). { destruct Oc as [_ F]. rewrite Forall_forall in F. intros I. apply F in I. lia. }
  destruct rest as [|sep r] using rev_ind.
  - rewrite app_nil_r in E. destruct N0. rewrite <- E. apply in_or_app. right. left. reflexivity.
  - rewrite app_assoc in E. apply app_inj_tail in E. destruct E as [-> <-]. clear IHr.
    destruct r as [|sep r]; cbn [app].
    + left. exists o. rewrite app_nil_r. split; [exact Oc|]. split; [reflexivity|]. split; [reflexivity|].
      rewrite lenN_cons, lenN_app, Lo. reflexivity.
    + right. exists o, sep, r. split; [exact Oc|]. split; [reflexivity|]. split; [reflexivity|]. split.
      * rewrite lenN_cons, lenN_app, Lo. reflexivity.
      * cbn [app]. f_equal. rewrite <- !app_assoc. reflexivity.
Qed.

Lemma parse_header_some : forall t tl k, (t = 67 \/ t = 68) -> parse_msg ((t :: tl) ++ [0]) k <> None.
Proof.
  intros t tl k T. unfold parse_msg. cbn [app]. change (rd (t :: tl ++ [0]) 0) with (Some t). cbv iota beta.
  replace ((t =? 67) || (t =? 68)) with true by (destruct T as [-> | ->]; reflexivity). cbv iota zeta.
  destruct (GetMode (t :: tl ++ [0])) as [m i|e j|] eqn:G; [|intros X; discriminate X|exfalso; exact (GetMode_oob _ G)].
  destruct (header_cases (t :: tl) (t :: tl ++ [0]) t tl eq_refl eq_refl T m i G) as [C|C].
  - destruct C as (o & _ & _ & _ & ->).
    destruct (GetSizeField _ _) as [v j|e j|] eqn:S; [|intros X; discriminate X|exfalso; exact (GetSizeField_oob _ _ S)].
    exfalso. revert S. unfold GetSizeField, FindSpace. rewrite dropN_all by lia. discriminate.
  - destruct C as (o & sep & r & _ & _ & _ & -> & B). rewrite B.
    destruct (GetSizeField _ _) as [v j|e j|] eqn:S; [|intros X; discriminate X|exfalso; exact (GetSizeField_oob _ _ S)].
    apply GetSizeField_spec in S. destruct S as (ds & tail & E & D & -> & L & ->).
    destruct (k_rename _); [intros X; discriminate X|].
    destruct tail as [|x tail _] using rev_ind.
    { exfalso. apply app_inj_tail in E. destruct E as [_ E]. lia. }
    replace (ds ++ 32 :: tail ++ [x]) with ((ds ++ 32 :: tail) ++ [x]) in E by (rewrite <- app_assoc; reflexivity).
    apply app_inj_tail in E. destruct E as [-> <-].
    set (pre := t :: o ++ [sep]).
    replace (pre ++ (ds ++ 32 :: tail) ++ [0]) with ((pre ++ ds ++ [32]) ++ tail ++ [0])
      by (rewrite <- !app_assoc; reflexivity).
    replace (lenN pre + lenN ds + 1) with (lenN (pre ++ ds ++ [32])) by (rewrite !lenN_app; change (lenN [32]) with 1; lia).
    destruct (GetName _ _) as [n j|e j|] eqn:Q; [intros X; discriminate X|intros X; discriminate X|exfalso; exact (GetName_oob _ _ Q)].
Qed.

Lemma parse_header_iff : forall t tl k k', (t = 67 \/ t = 68) ->
  (parse_msg ((t :: tl) ++ [0]) k = Some (true, k') <->
   exists o sep ds rest, tl = o ++ sep :: ds ++ 32 :: rest /\ octals o /\ digits ds /\ value 10 ds <= 4294967295 /\
     (k_rename k = true \/ plain (cstr rest)) /\
     k' = after_header t (N.land (value 8 o) 511) (value 10 ds) (cstr rest) k).
Proof.
  intros t tl k k' T. unfold parse_msg. cbn [app]. change (rd (t :: tl ++ [0]) 0) with (Some t). cbv iota beta.
  replace ((t =? 67) || (t =? 68)) with true by (destruct T as [-> | ->]; reflexivity). cbv iota zeta. split.
  - destruct (GetMode (t :: tl ++ [0])) as [m i|e j|] eqn:G; [|discriminate|discriminate].
    destruct (header_cases (t :: tl) (t :: tl ++ [0]) t tl eq_refl eq_refl T m i G) as [C|C].
    + destruct C as (o & _ & _ & _ & ->). unfold GetSizeField, FindSpace. rewrite dropN_all by lia. discriminate.
    + destruct C as (o & sep & r & Oc & -> & -> & -> & B). rewrite B.
      destruct (GetSizeField _ _) as [v j|e j|] eqn:S; [|discriminate|discriminate].
      apply GetSizeField_spec in S. destruct S as (ds & tail & E & D & -> & L & ->).
      destruct tail as [|x tail _] using rev_ind.
      { exfalso. apply app_inj_tail in E. destruct E as [_ E]. lia. }
      replace (ds ++ 32 :: tail ++ [x]) with ((ds ++ 32 :: tail) ++ [x]) in E by (rewrite <- app_assoc; reflexivity).
      apply app_inj_tail in E. destruct E as [-> <-].
      set (pre := t :: o ++ [sep]).
      replace (pre ++ (ds ++ 32 :: tail) ++ [0]) with ((pre ++ ds ++ [32]) ++ tail ++ [0])
        by (rewrite <- !app_assoc; reflexivity).
      replace (lenN pre + lenN ds + 1) with (lenN (pre ++ ds ++ [32])) by (rewrite !lenN_app; change (lenN [32]) with 1; lia).
      change (k_rename (set_size (value 10 ds) (set_mode (N.land (value 8 o) 511)
        (set_type (if t =? 67 then MSG_FILE else MSG_DIR) k)))) with (k_rename k).
      intros H. exists o, sep, ds, tail. split; [reflexivity|]. split; [exact Oc|]. split; [exact D|]. split; [exact L|].
      unfold after_header.
      assert (X : forall a b : sink, Some (true, a) = Some (true, b) -> b = a) by (intros; congruence).
      destruct (k_rename k).
      * split; [left; reflexivity|]. apply X in H. exact H.
      * destruct (GetName _ _) as [n j|e j|] eqn:Q; [|discriminate|discriminate].
        apply GetName_spec in Q. destruct Q as (-> & P & ->). split; [right; exact P|].
        apply X in H. exact H.
  - intros (o & sep & ds & rest & -> & Oc & D & L & P & ->).
    assert (Lo : lenN o = 4) by (destruct Oc as [Q _]; unfold lenN; lia).
    assert (G : GetMode (t :: (o ++ sep :: ds ++ 32 :: rest) ++ [0]) = POk (N.land (value 8 o) 511) 6).
    { apply GetMode_spec. exists t, o, (sep :: (ds ++ 32 :: rest) ++ [0]).
      split; [rewrite <- app_assoc; reflexivity|]. auto. }
    rewrite G. set (pre := t :: o ++ [sep]).
    replace (t :: (o ++ sep :: ds ++ 32 :: rest) ++ [0]) with (pre ++ ds ++ 32 :: rest ++ [0])
      by (unfold pre; cbn [app]; f_equal; rewrite <- !app_assoc; cbn [app]; rewrite <- !app_assoc; reflexivity).
    assert (Lp : lenN pre = 6) by (unfold pre; rewrite lenN_cons, lenN_app, Lo; reflexivity).
    assert (S : GetSizeField (pre ++ ds ++ 32 :: rest ++ [0]) (lenN pre) = POk (value 10 ds) (lenN pre + lenN ds + 1)).
    { apply GetSizeField_spec. exists ds, (rest ++ [0]). auto. }
    rewrite Lp in S. rewrite S.
    change (k_rename (set_size (value 10 ds) (set_mode (N.land (value 8 o) 511)
      (set_type (if t =? 67 then MSG_FILE else MSG_DIR) k)))) with (k_rename k).
    unfold after_header. destruct (k_rename k); [reflexivity|]. destruct P as [P|P]; [discriminate|].
    replace (pre ++ ds ++ 32 :: rest ++ [0]) with ((pre ++ ds ++ [32]) ++ rest ++ [0])
      by (rewrite <- !app_assoc; reflexivity).
    replace (6 + lenN ds + 1) with (lenN (pre ++ ds ++ [32])) by (rewrite !lenN_app, Lp; change (lenN [32]) with 1; lia).
    assert (Q : GetName ((pre ++ ds ++ [32]) ++ rest ++ [0]) (lenN (pre ++ ds ++ [32])) =
      POk (cstr rest) (lenN (pre ++ ds ++ [32]))) by (apply GetName_spec; auto).
    rewrite Q. reflexivity.
Qed.

(* times *)
Lemma rd_mid : forall pre x post, rd (pre ++ x :: post) (lenN pre) = Some x.
Proof.
  intros. unfold rd, lenN. rewrite Nat2N.id. rewrite nth_error_app2 by lia. rewrite Nat.sub_diag. reflexivity.
Qed.

Lemma nil_or_cons : forall (l : bytes), l = [] \/ exists x y, l = x :: y.
Proof. destruct l; eauto. Qed.

(* All of GetTimestamp at once: what it reads is in the message, and success
   means the shape of the grammar. *)
Lemma GetTimestamp_cases : forall buf mt at_ x, buf <> [] -> GetTimestamp buf mt at_ = x ->
  (exists m, x = Some (false, m, at_)) \/
  (exists ok m a, x = Some (ok, m, a) /\
    exists dm da rest, buf = 84 :: dm ++ [32; 48; 32] ++ da ++ 32 :: rest /\
      digits dm /\ digits da /\ m = value 10 dm /\ a = value 10 da /\ m <= MAX64 /\ a <= MAX64 /\
      (ok = true <-> rest <> [])).
Proof.
  intros buf mt at_ x Hne. unfold GetTimestamp.
  destruct buf as [|c r]; [congruence|]. clear Hne.
  change (rd (c :: r) 0) with (Some c). cbv iota beta zeta.
  destruct (N.eqb_spec c 84) as [->|C]; cbn [negb]; [|intros <-; left; eauto].
  unfold FindSpace at 1. rewrite dropN_0. cbn [space_at]. change (84 =? SPACE) with false. cbv iota.
  destruct (space_at r (0 + 1)) as [s|] eqn:S; [|intros <-; left; eauto].
  apply space_at_spec in S. destruct S as (dm & r1 & -> & Hdm & ->).
  replace (0 + 1 + lenN dm - 1) with (lenN dm) by lia.
  change (rdn (84 :: dm ++ 32 :: r1) 1 (lenN dm)) with (rdn ([84] ++ dm ++ 32 :: r1) (lenN [84]) (lenN dm)).
  rewrite rdn_slice_mid. cbv iota beta.
  destruct (ParseUInt64 dm MAX64) as [m|] eqn:P; [|intros <-; left; eauto].
  apply ParseUInt64_spec in P. destruct P as (D & -> & L).
  set (b := 84 :: dm ++ 32 :: r1).
  assert (Lb : lenN b = 2 + lenN dm + lenN r1) by (unfold b; rewrite lenN_cons, lenN_app, lenN_cons; lia).
  destruct (N.ltb_spec (0 + 1 + lenN dm + 1) (lenN b)) as [L1|L1]; cbn [negb]; [|intros <-; left; eauto].
  destruct (nil_or_cons r1) as [->|(z & r2 & ->)]; [change (lenN (@nil N)) with 0 in Lb; lia|].
  assert (B : b = (84 :: dm ++ [32]) ++ z :: r2) by (unfold b; cbn [app]; rewrite <- app_assoc; reflexivity).
  assert (R : rd b (0 + 1 + lenN dm + 1) = Some z).
  { rewrite B. replace (0 + 1 + lenN dm + 1) with (lenN (84 :: dm ++ [32])) by (rewrite lenN_cons, lenN_app; change (lenN [32]) with 1; lia).
    apply rd_mid. }
  rewrite R. cbv iota beta. destruct (N.eqb_spec z 48) as [->|Z]; cbn [negb]; [|intros <-; left; eauto].
  rewrite lenN_cons in Lb.
  destruct (N.leb_spec (lenN b) (0 + 1 + lenN dm + 1 + 1)) as [L2|L2]; [intros <-; left; eauto|].
  destruct (nil_or_cons r2) as [->|(sp & r3 & ->)]; [change (lenN (@nil N)) with 0 in Lb; lia|].
  assert (B2 : b = (84 :: dm ++ [32; 48]) ++ sp :: r3) by (unfold b; cbn [app]; rewrite <- app_assoc; reflexivity).
  assert (R2 : rd b (0 + 1 + lenN dm + 1 + 1) = Some sp).
  { rewrite B2. replace (0 + 1 + lenN dm + 1 + 1) with (lenN (84 :: dm ++ [32; 48])) by (rewrite lenN_cons, lenN_app; change (lenN [32; 48]) with 2; lia).
    apply rd_mid. }
  rewrite R2. cbv iota beta. destruct (N.eqb_spec sp SPACE) as [->|Z]; cbn [negb]; [|intros <-; left; eauto].
  rewrite lenN_cons in Lb.
  destruct (N.leb_spec (lenN b) (0 + 1 + lenN dm + 1 + 1 + 1)) as [L3|L3]; [intros <-; left; eauto|].
  set (pre := 84 :: dm ++ [32; 48; 32]).
  assert (B3 : b = pre ++ r3) by (unfold b, pre; cbn [app]; rewrite <- app_assoc; reflexivity).
  replace (0 + 1 + lenN dm + 1 + 1 + 1) with (lenN pre) by (unfold pre; rewrite lenN_cons, lenN_app; change (lenN [32; 48; 32]) with 3; lia).
  unfold FindSpace. rewrite B3. rewrite dropN_app_exact by reflexivity.
  destruct (space_at r3 (lenN pre)) as [s|] eqn:S; [|intros <-; left; eauto].
  apply space_at_spec in S. destruct S as (da & rest & -> & Hda & ->).
  replace (lenN pre + lenN da - lenN pre) with (lenN da) by lia. rewrite rdn_slice_mid. cbv iota beta.
  destruct (ParseUInt64 da MAX64) as [a|] eqn:P; [|intros <-; left; eauto].
  apply ParseUInt64_spec in P. destruct P as (D2 & -> & L4).
  intros <-. right. eexists _, _, _. split; [reflexivity|]. exists dm, da, rest.
  split; [rewrite <- B3 at 1; unfold b; unfold pre in B3; cbn [app]; rewrite <- ?app_assoc; reflexivity|].
  split; [exact D|]. split; [exact D2|]. split; [reflexivity|]. split; [reflexivity|]. split; [exact L|]. split; [exact L4|].
  rewrite N.ltb_lt, !lenN_app, lenN_cons. destruct rest as [|z y].
  - change (lenN (@nil N)) with 0. split; [lia|congruence].
  - rewrite lenN_cons. split; [discriminate|lia].
Qed.

Lemma GetTimestamp_ok : forall dm da rest mt at_, digits dm -> digits da ->
  value 10 dm <= MAX64 -> value 10 da <= MAX64 -> rest <> [] ->
  GetTimestamp (84 :: dm ++ [32; 48; 32] ++ da ++ 32 :: rest) mt at_ = Some (true, value 10 dm, value 10 da).
Proof.
  intros dm da rest mt at_ D D2 L L2 Hr.
  assert (P1 : ParseUInt64 dm MAX64 = Some (value 10 dm)) by (apply ParseUInt64_spec; auto).
  assert (P2 : ParseUInt64 da MAX64 = Some (value 10 da)) by (apply ParseUInt64_spec; auto).
  set (b := 84 :: dm ++ [32; 48; 32] ++ da ++ 32 :: rest).
  assert (Hl : 1 <= lenN rest) by (destruct rest; [congruence|]; rewrite lenN_cons; lia).
  assert (Lb : lenN b = 5 + lenN dm + lenN da + lenN rest).
  { unfold b. rewrite lenN_cons, !lenN_app, (lenN_cons _ 32 rest). change (lenN [32; 48; 32]) with 3. lia. }
  unfold GetTimestamp. change (rd b 0) with (Some 84). cbv iota beta zeta. change (84 =? 84) with true. cbn [negb].
  assert (S1 : FindSpace b 0 = Some (1 + lenN dm)).
  { unfold FindSpace. rewrite dropN_0. apply space_at_spec. exists (84 :: dm), ([48; 32] ++ da ++ 32 :: rest).
    split; [reflexivity|]. split.
    - intros [E|E]; [discriminate E|]. revert E. apply no_space_digits. apply D.
    - rewrite lenN_cons. lia. }
  rewrite S1. replace (1 + lenN dm - 1) with (lenN dm) by lia.
  change (rdn b 1 (lenN dm)) with (rdn ([84] ++ dm ++ [32; 48; 32] ++ da ++ 32 :: rest) (lenN [84]) (lenN dm)).
  rewrite rdn_slice_mid, P1.
  destruct (N.ltb_spec (1 + lenN dm + 1) (lenN b)); [|lia]. cbn [negb].
  assert (R : rd b (1 + lenN dm + 1) = Some 48).
  { replace b with ((84 :: dm ++ [32]) ++ 48 :: 32 :: da ++ 32 :: rest) by (unfold b; cbn [app]; rewrite <- app_assoc; reflexivity).
    replace (1 + lenN dm + 1) with (lenN (84 :: dm ++ [32])) by (rewrite lenN_cons, lenN_app; change (lenN [32]) with 1; lia). apply rd_mid. }
  rewrite R. change (48 =? 48) with true. cbn [negb].
  destruct (N.leb_spec (lenN b) (1 + lenN dm + 1 + 1)); [lia|].
  assert (R2 : rd b (1 + lenN dm + 1 + 1) = Some 32).
  { replace b with ((84 :: dm ++ [32; 48]) ++ 32 :: da ++ 32 :: rest) by (unfold b; cbn [app]; rewrite <- app_assoc; reflexivity).
    replace (1 + lenN dm + 1 + 1) with (lenN (84 :: dm ++ [32; 48])) by (rewrite lenN_cons, lenN_app; change (lenN [32; 48]) with 2; lia). apply rd_mid. }
  rewrite R2. change (32 =? SPACE) with true. cbn [negb].
  destruct (N.leb_spec (lenN b) (1 + lenN dm + 1 + 1 + 1)); [lia|].
  set (pre := 84 :: dm ++ [32; 48; 32]).
  assert (B3 : b = pre ++ da ++ 32 :: rest) by (unfold b, pre; cbn [app]; rewrite <- app_assoc; reflexivity).
  assert (Lp : 1 + lenN dm + 1 + 1 + 1 = lenN pre) by (unfold pre; rewrite lenN_cons, lenN_app; change (lenN [32; 48; 32]) with 3; lia).
  rewrite Lp.
  assert (S2 : FindSpace b (lenN pre) = Some (lenN pre + lenN da)).
  { unfold FindSpace. rewrite B3. rewrite dropN_app_exact by reflexivity. apply space_at_spec. exists da, rest.
    split; [reflexivity|]. split; [apply no_space_digits; apply D2|reflexivity]. }
  rewrite S2. replace (lenN pre + lenN da - lenN pre) with (lenN da) by lia.
  rewrite B3 at 1. rewrite rdn_slice_mid, P2.
  destruct (N.ltb_spec (lenN pre + lenN da + 1) (lenN b)); [reflexivity|lia].
Qed.

Lemma parse_msg_some : forall m k, parse_msg (m ++ [0]) k <> None.
Proof.
  intros m k. destruct m as [|t tl].
  - discriminate.
  - destruct (N.eq_dec t 67) as [->|T1]; [apply parse_header_some; auto|].
    destruct (N.eq_dec t 68) as [->|T2]; [apply parse_header_some; auto|].
    unfold parse_msg. cbn [app]. change (rd (t :: tl ++ [0]) 0) with (Some t). cbv iota beta.
    rewrite (proj2 (N.eqb_neq t 67) T1), (proj2 (N.eqb_neq t 68) T2). cbn [orb].
    destruct (t =? 69); [intros X; discriminate X|]. destruct (t =? 84); [|intros X; discriminate X].
    destruct (GetTimestamp_cases (t :: tl ++ [0]) (k_mtime k) (k_atime k) _ ltac:(discriminate) eq_refl) as [(m & ->)|(ok & m & a & -> & _)];
      intros X; discriminate X.
Qed.

Lemma parse_time_iff : forall tl k k',
  parse_msg ((84 :: tl) ++ [0]) k = Some (true, k') <->
  exists dm da rest, tl = dm ++ [32; 48; 32] ++ da ++ 32 :: rest /\ digits dm /\ digits da /\
    value 10 dm <= MAX64 /\ value 10 da <= MAX64 /\
    k' = set_times (value 10 dm) (value 10 da) (set_type MSG_TIME k).
Proof.
  intros tl k k'. unfold parse_msg. cbn [app]. change (rd (84 :: tl ++ [0]) 0) with (Some 84). cbv iota beta.
  change ((84 =? 67) || (84 =? 68)) with false. change (84 =? 69) with false. change (84 =? 84) with true. cbv iota. split.
  - destruct (GetTimestamp_cases (84 :: tl ++ [0]) (k_mtime k) (k_atime k) _ ltac:(discriminate) eq_refl) as [(m & ->)|(ok & m & a & -> & C)];
      [intros X; discriminate X|].
    destruct C as (dm & da & rest & E & D & D2 & -> & -> & L & L2 & R). intros X.
    assert (ok = true) by congruence. subst ok. apply proj1 in R. specialize (R eq_refl).
    destruct rest as [|x rest _] using rev_ind; [congruence|].
    assert (E' : tl ++ [0] = (dm ++ [32; 48; 32] ++ da ++ 32 :: rest) ++ [x])
      by (rewrite <- !app_assoc; cbn [app] in *; congruence).
    apply app_inj_tail in E'. destruct E' as [-> _]. exists dm, da, rest.
    split; [reflexivity|]. split; [exact D|]. split; [exact D2|]. split; [exact L|]. split; [exact L2|].
    assert (Y : forall a b : sink, Some (true, a) = Some (true, b) -> b = a) by (intros; congruence). apply Y in X. exact X.
  - intros (dm & da & rest & -> & D & D2 & L & L2 & ->).
    assert (Q : 84 :: (dm ++ 32 :: 48 :: 32 :: da ++ 32 :: rest) ++ [0] =
      84 :: dm ++ [32; 48; 32] ++ da ++ 32 :: (rest ++ [0]))
      by (cbn [app]; f_equal; rewrite <- !app_assoc; cbn [app]; rewrite <- !app_assoc; reflexivity).
    rewrite Q.
    rewrite GetTimestamp_ok by (auto; destruct rest; discriminate). reflexivity.
Qed.
