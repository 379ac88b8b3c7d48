(* WireProofs.v - lemmas about the field readers and writers. *)
From Verif Require Import Base WireModel WireSpec.
From Coq Require Import List NArith ZArith Lia Bool.
From Coq Require Import ZifyBool ZifyNat ZifyN.
Import ListNotations.
Open Scope N_scope.
Ltac Zify.zify_post_hook ::= Z.div_mod_to_equations.

Lemma land255 : forall x, N.land x 255 = x mod 256.
Proof. intros x. change 255 with (N.ones 8). rewrite N.land_ones. reflexivity. Qed.

Lemma land255_small : forall x, x < 256 -> N.land x 255 = x.
Proof. intros x H. rewrite land255. lia. Qed.

Lemma c32toa_length : forall v, lenN (c32toa v) = 4.
Proof. reflexivity. Qed.

Lemma c32toa_ok : forall v, bytes_ok (c32toa v).
Proof.
  intros v; unfold c32toa, bytes_ok, byte_ok.
  repeat constructor; rewrite land255; lia.
Qed.

Lemma c32toa_div : forall v, c32toa v =
  [ (v / 16777216) mod 256; (v / 65536) mod 256; (v / 256) mod 256; v mod 256 ].
Proof.
  intros v; unfold c32toa; rewrite !land255, !N.shiftr_div_pow2. reflexivity.
Qed.

Lemma be_value_4 : forall a b c d,
  be_value [a; b; c; d] = ((a * 256 + b) * 256 + c) * 256 + d.
Proof. intros; unfold be_value; cbn [fold_left]. lia. Qed.

Lemma be_value_c32toa : forall v, is32 v -> be_value (c32toa v) = v.
Proof.
  intros v H. rewrite c32toa_div, be_value_4. unfold is32, W32 in H. lia.
Qed.

Lemma ato32_val_be : forall a b c d, a < 256 -> b < 256 -> c < 256 -> d < 256 ->
  ato32_val a b c d = be_value [a; b; c; d].
Proof.
  intros a b c d Ha Hb Hc Hd. unfold ato32_val. rewrite be_value_4.
  rewrite !land255_small by assumption. reflexivity.
Qed.

Lemma slice_length : forall m i n, i + n <= lenN m -> lenN (slice m i n) = n.
Proof.
  intros m i n H; unfold slice. rewrite lenN_takeN, lenN_dropN. lia.
Qed.

Lemma slice_ok : forall m i n, bytes_ok m -> bytes_ok (slice m i n).
Proof. intros; unfold slice; apply bytes_ok_takeN, bytes_ok_dropN; assumption. Qed.

Lemma rd_slice : forall m i k n, k < n -> rd (slice m i n) k = rd m (i + k).
Proof.
  intros m i k n Hk. unfold slice, rd, takeN, dropN.
  replace (N.to_nat (i + k)) with (N.to_nat i + N.to_nat k)%nat by lia.
  assert (Hk' : (N.to_nat k < N.to_nat n)%nat) by lia. revert Hk'.
  generalize (N.to_nat k) as k', (N.to_nat n) as n', (N.to_nat i) as i'. clear.
  intros k' n' i'. revert m.
  induction i' as [|i IH]; intros m Hk.
  - cbn [skipn Nat.add]. revert m n' Hk. induction k' as [|k IHk]; intros m n Hk.
    + destruct n as [|n]; [lia|]. destruct m; reflexivity.
    + destruct n as [|n]; [lia|]. destruct m as [|x m]; [reflexivity|].
      cbn. apply IHk. lia.
  - destruct m as [|x m]; cbn [skipn Nat.add nth_error].
    + rewrite firstn_nil. destruct k'; reflexivity.
    + apply IH; exact Hk.
Qed.

Lemma slice4 : forall m i, i + 4 <= lenN m ->
  exists a b c d, slice m i 4 = [a; b; c; d] /\
    rd m i = Some a /\ rd m (i + 1) = Some b /\ rd m (i + 2) = Some c /\
    rd m (i + 3) = Some d.
Proof.
  intros m i H.
  pose proof (slice_length m i 4 H) as HL.
  destruct (slice m i 4) as [|a [|b [|c [|d [|e l]]]]] eqn:E;
    unfold lenN in HL; cbn [length] in HL; try lia.
  exists a, b, c, d. split; [reflexivity|].
  pose proof (rd_slice m i 0 4 ltac:(lia)) as R0.
  pose proof (rd_slice m i 1 4 ltac:(lia)) as R1.
  pose proof (rd_slice m i 2 4 ltac:(lia)) as R2.
  pose proof (rd_slice m i 3 4 ltac:(lia)) as R3.
  rewrite E in R0, R1, R2, R3. rewrite N.add_0_r in R0.
  repeat split; symmetry; assumption.
Qed.

Lemma ato32_slice : forall m i, bytes_ok m -> i + 4 <= lenN m ->
  ato32 m i = Some (be_value (slice m i 4)).
Proof.
  intros m i Hm H. destruct (slice4 m i H) as (a & b & c & d & E & Ra & Rb & Rc & Rd).
  unfold ato32. rewrite Ra, Rb, Rc, Rd, E. f_equal. apply ato32_val_be.
  - eapply rd_ok; eassumption.
  - eapply rd_ok; eassumption.
  - eapply rd_ok; eassumption.
  - eapply rd_ok; eassumption.
Qed.

Lemma be_value_lt : forall m i, bytes_ok m -> i + 4 <= lenN m ->
  is32 (be_value (slice m i 4)).
Proof.
  intros m i Hm H. destruct (slice4 m i H) as (a & b & c & d & E & Ra & Rb & Rc & Rd).
  rewrite E, be_value_4.
  pose proof (rd_ok _ _ _ Hm Ra). pose proof (rd_ok _ _ _ Hm Rb).
  pose proof (rd_ok _ _ _ Hm Rc). pose proof (rd_ok _ _ _ Hm Rd).
  unfold is32, W32. lia.
Qed.

Section Readers.
  Variables (m : bytes) (len : N).
  Hypothesis Hm : bytes_ok m.
  Hypothesis Hlen : len <= lenN m.
  Hypothesis H32 : is32 len.

  Lemma GetBoolean_eq : forall i,
    GetBoolean m len i =
      match rd (takeN len m) i with Some v => POk v (i + 1) | None => PErr WS_BUFFER_E i end.
  Proof using Hlen H32.
    intros i. unfold GetBoolean. destruct (N.ltb_spec i len) as [Hi|Hi].
    - assert (E : rd m i = rd (takeN len m) i).
      { rewrite <- (takeN_dropN _ len m) at 1. apply rd_app_l. rewrite lenN_takeN. lia. }
      rewrite E. destruct (rd_some (takeN len m) i) as (x & Ex & _).
      { rewrite lenN_takeN. lia. }
      rewrite Ex. f_equal. apply add32_small. unfold is32, W32 in *. lia.
    - rewrite (rd_none (takeN len m)); [reflexivity|]. rewrite lenN_takeN. lia.
  Qed.

  Lemma GetUint32_eq : forall i, is32 i ->
    GetUint32 m len i =
      if i + 4 <=? len then POk (be_value (slice m i 4)) (i + 4) else PErr WS_BUFFER_E i.
  Proof using Hm Hlen H32.
    intros i Hi. unfold GetUint32.
    destruct (N.leb_spec (i + 4) len) as [H|H].
    - assert (Hc : (i <? len) && (4 <=? sub32 len i) = true).
      { rewrite sub32_small by (unfold is32, W32 in *; lia). lia. }
      rewrite Hc. rewrite ato32_slice by (assumption || lia).
      f_equal. apply add32_small. unfold is32, W32 in *; lia.
    - assert (Hc : (i <? len) && (4 <=? sub32 len i) = false).
      { destruct (N.ltb_spec i len) as [Hl|Hl]; [|reflexivity].
        rewrite sub32_small by (unfold is32, W32 in *; lia). lia. }
      rewrite Hc. reflexivity.
  Qed.

  Lemma GetSize_eq : forall i, is32 i ->
    GetSize m len i =
      if i + 4 <=? len then
        let n := be_value (slice m i 4) in
        if i + 4 + n <=? len then POk n (i + 4) else PErr WS_BUFFER_E (i + 4)
      else PErr WS_BUFFER_E i.
  Proof using Hm Hlen H32.
    intros i Hi. unfold GetSize. rewrite GetUint32_eq by assumption.
    destruct (N.leb_spec (i + 4) len) as [H|H]; cbn [pbind]; [|reflexivity].
    cbv zeta. rewrite sub32_small by (unfold is32, W32 in *; lia).
    destruct (N.ltb_spec (len - (i + 4)) (be_value (slice m i 4)));
      destruct (N.leb_spec (i + 4 + be_value (slice m i 4)) len);
      reflexivity || lia.
  Qed.

  Lemma GetSkip_eq : forall i, is32 i ->
    GetSkip m len i =
      if i + 4 <=? len then
        let n := be_value (slice m i 4) in
        if i + 4 + n <=? len then POk tt (i + 4 + n) else PErr WS_BUFFER_E (i + 4)
      else PErr WS_BUFFER_E i.
  Proof using Hm Hlen H32.
    intros i Hi. unfold GetSkip. rewrite GetSize_eq by assumption.
    destruct (N.leb_spec (i + 4) len) as [H|H]; cbn [pbind]; [|reflexivity].
    cbv zeta. destruct (N.leb_spec (i + 4 + be_value (slice m i 4)) len) as [H2|H2];
      cbn [pbind]; [|reflexivity].
    rewrite sub32_small by (unfold is32, W32 in *; lia).
    destruct (N.leb_spec (i + 4) len); [|lia].
    destruct (N.leb_spec (be_value (slice m i 4)) (len - (i + 4))); [|lia].
    cbn [andb]. f_equal. apply add32_small. unfold is32, W32 in *. lia.
  Qed.

  Lemma GetStringRef_eq : forall i, is32 i ->
    GetStringRef m len i =
      if i + 4 <=? len then
        let n := be_value (slice m i 4) in
        if i + 4 + n <=? len then POk (i + 4, n) (i + 4 + n) else PErr WS_BUFFER_E (i + 4)
      else PErr WS_BUFFER_E i.
  Proof using Hm Hlen H32.
    intros i Hi. unfold GetStringRef. rewrite GetUint32_eq by assumption.
    destruct (N.leb_spec (i + 4) len) as [H|H]; cbn [pbind]; [|reflexivity].
    cbv zeta. rewrite sub32_small by (unfold is32, W32 in *; lia).
    set (n := be_value (slice m i 4)).
    destruct (N.leb_spec (i + 4) len); [|lia].
    destruct (N.leb_spec n (len - (i + 4))) as [H2|H2];
      destruct (N.leb_spec (i + 4 + n) len) as [H3|H3]; try lia; cbn [andb]; [|reflexivity].
    destruct (N.eqb_spec n 0) as [E|E].
    - rewrite E, N.add_0_r. reflexivity.
    - f_equal. apply add32_small. unfold is32, W32 in *. lia.
  Qed.

  Lemma GetUint64_eq : forall i, is32 i ->
    GetUint64 m len i =
      if i + 8 <=? len then
        POk (be_value (slice m i 4) * W32 + be_value (slice m (i + 4) 4)) (i + 8)
      else if i + 4 <=? len then PErr WS_BUFFER_E (i + 4) else PErr WS_BUFFER_E i.
  Proof using Hm Hlen H32.
    intros i Hi. unfold GetUint64. rewrite GetUint32_eq by assumption.
    destruct (N.leb_spec (i + 4) len) as [H|H]; cbn [pbind].
    - rewrite GetUint32_eq by (unfold is32, W32 in *; lia).
      replace (i + 4 + 4) with (i + 8) by lia.
      destruct (N.leb_spec (i + 8) len); reflexivity.
    - destruct (N.leb_spec (i + 8) len); [lia|reflexivity].
  Qed.

  Lemma string_at_ref : forall i s, is32 i ->
    string_at m len i s <-> GetStringRef m len i = POk (i + 4, lenN s) (i + 4 + lenN s)
                            /\ s = slice m (i + 4) (lenN s).
  Proof using Hm Hlen H32.
    intros i s Hi. rewrite GetStringRef_eq by assumption. unfold string_at, uint32_at. split.
    - intros ((H1 & H2) & H3 & H4). split; [|assumption].
      destruct (N.leb_spec (i + 4) len); [|lia]. cbv zeta. rewrite <- H2.
      destruct (N.leb_spec (i + 4 + lenN s) len); [reflexivity|lia].
    - intros (H & Hs). destruct (N.leb_spec (i + 4) len); [|discriminate].
      cbv zeta in H. destruct (N.leb_spec (i + 4 + be_value (slice m i 4)) len); [|discriminate].
      injection H as E1 E2. repeat split; try assumption; lia.
  Qed.
End Readers.

Lemma rdn_some : forall m off n, off + n <= lenN m -> rdn m off n = Some (slice m off n).
Proof.
  intros m off n H; unfold rdn, slice. destruct (N.leb_spec (off + n) (lenN m)); [reflexivity|lia].
Qed.

Lemma GetStringAlloc_eq : forall m len i, bytes_ok m -> len <= lenN m -> is32 len -> is32 i ->
  GetStringAlloc m len i =
    if i + 4 <=? len then
      let n := be_value (slice m i 4) in
      if i + 4 + n <=? len then POk (slice m (i + 4) n ++ [0]) (i + 4 + n)
      else PErr WS_BUFFER_E (i + 4)
    else PErr WS_BUFFER_E i.
Proof.
  intros m len i Hm Hl H32 Hi. unfold GetStringAlloc. rewrite GetStringRef_eq by assumption.
  destruct (N.leb_spec (i + 4) len) as [H|H]; cbn [pbind]; [|reflexivity]. cbv zeta.
  set (n := be_value (slice m i 4)) in *.
  destruct (N.leb_spec (i + 4 + n) len) as [H2|H2]; cbn [pbind]; [|reflexivity].
  cbn [fst snd]. destruct (N.ltb_spec 0 n) as [H3|H3].
  - rewrite rdn_some by lia. reflexivity.
  - assert (n = 0) by lia. rewrite H0. reflexivity.
Qed.

Lemma slice_prefix : forall m o n k, k <= n -> slice m o k = takeN k (slice m o n).
Proof. intros; unfold slice. rewrite takeN_takeN. f_equal. lia. Qed.

Lemma GetString_eq : forall m len i sSz, bytes_ok m -> len <= lenN m -> is32 len -> is32 i ->
  0 < sSz ->
  GetString sSz m len i =
    if i + 4 <=? len then
      let n := be_value (slice m i 4) in
      if i + 4 + n <=? len then
        POk (takeN (sSz - 1) (slice m (i + 4) n) ++ [0]) (i + 4 + n)
      else PErr WS_BUFFER_E (i + 4)
    else PErr WS_BUFFER_E i.
Proof.
  intros m len i sSz Hm Hl H32 Hi Hs. unfold GetString.
  destruct (N.eqb_spec sSz 0) as [Hs0|Hs0]; [lia|]. rewrite GetStringRef_eq by assumption.
  destruct (N.leb_spec (i + 4) len) as [H|H]; cbn [pbind]; [|reflexivity]. cbv zeta.
  set (n := be_value (slice m i 4)) in *.
  destruct (N.leb_spec (i + 4 + n) len) as [H2|H2]; cbn [pbind]; [|reflexivity].
  cbn [fst snd]. destruct (N.eqb_spec n 0) as [E|E].
  - rewrite E. unfold slice. rewrite takeN_0. unfold takeN. rewrite firstn_nil. reflexivity.
  - destruct (N.leb_spec sSz n) as [H3|H3].
    + rewrite rdn_some by lia. rewrite (slice_prefix m (i+4) n (sSz - 1)) by lia. reflexivity.
    + rewrite rdn_some by lia. rewrite (takeN_all _ (sSz - 1)); [reflexivity|].
      rewrite slice_length; lia.
Qed.

Lemma GetMpint_eq : forall m len i, bytes_ok m -> len <= lenN m -> is32 len -> is32 i ->
  GetMpint m len i =
    if i + 4 <=? len then
      let n := be_value (slice m i 4) in
      if i + 4 + n <=? len then
        match slice m (i + 4) n with
        | x :: _ => if N.testbit x 7 then PErr WS_PARSE_E (i + 4 + n)
                    else POk (i + 4, n) (i + 4 + n)
        | [] => POk (i + 4, n) (i + 4 + n)
        end
      else PErr WS_BUFFER_E (i + 4)
    else PErr WS_BUFFER_E i.
Proof.
  intros m len i Hm Hl H32 Hi. unfold GetMpint. rewrite GetStringRef_eq by assumption.
  destruct (N.leb_spec (i + 4) len) as [H|H]; cbn [pbind]; [|reflexivity]. cbv zeta.
  set (n := be_value (slice m i 4)) in *.
  destruct (N.leb_spec (i + 4 + n) len) as [H2|H2]; cbn [pbind]; [|reflexivity].
  cbn [fst snd]. destruct (N.ltb_spec 0 n) as [H3|H3].
  - pose proof (slice_length m (i + 4) n ltac:(lia)) as HL.
    pose proof (rd_slice m (i + 4) 0 n ltac:(lia)) as R. rewrite N.add_0_r in R.
    destruct (slice m (i + 4) n) as [|x l]; [exfalso; rewrite lenN_nil in HL; clearbody n; lia|].
    rewrite <- R. reflexivity.
  - assert (E : n = 0) by lia. rewrite E. reflexivity.
Qed.

(* ------------------------------------------------------------------ *)
(* Round trips *)

Lemma slice_mid : forall a b c, slice (a ++ b ++ c) (lenN a) (lenN b) = b.
Proof.
  intros a b c; unfold slice. rewrite dropN_app_exact by reflexivity.
  apply takeN_app_exact; reflexivity.
Qed.

Lemma get_field_put : forall pre f post,
  bytes_ok (pre ++ put_field f ++ post) -> field_ok f ->
  is32 (lenN (pre ++ put_field f ++ post)) ->
  get_field (kind_of f) (pre ++ put_field f ++ post)
            (lenN (pre ++ put_field f ++ post)) (lenN pre)
  = POk f (lenN pre + lenN (put_field f)).
Proof.
  intros pre f post Hb Hf H32.
  set (m := pre ++ put_field f ++ post) in *.
  assert (Hlm : lenN m = lenN pre + lenN (put_field f) + lenN post).
  { unfold m. rewrite !lenN_app. lia. }
  assert (Hpre : is32 (lenN pre)) by (unfold is32, W32 in *; lia).
  destruct f as [v|s|b]; cbn [kind_of get_field].
  - rewrite GetUint32_eq by (try assumption; lia).
    cbn [put_field] in *. unfold PutUint32 in *.
    assert (L4 : lenN (c32toa v) = 4) by reflexivity. rewrite L4 in *.
    destruct (N.leb_spec (lenN pre + 4) (lenN m)); [|lia]. cbn [pbind].
    unfold m. rewrite <- L4. rewrite slice_mid. rewrite be_value_c32toa by exact Hf. reflexivity.
  - rewrite GetStringRef_eq by (try assumption; lia).
    cbn [put_field] in *. unfold PutString in *. destruct Hf as [Hs Hsb].
    assert (L4 : lenN (c32toa (lenN s)) = 4) by reflexivity.
    rewrite lenN_app, L4 in Hlm.
    assert (S1 : slice m (lenN pre) 4 = c32toa (lenN s)).
    { rewrite <- L4. unfold m. rewrite <- app_assoc. apply slice_mid. }
    assert (S2 : slice m (lenN pre + 4) (lenN s) = s).
    { rewrite <- L4, <- lenN_app. unfold m. rewrite <- app_assoc, app_assoc. apply slice_mid. }
    rewrite S1, be_value_c32toa by assumption. cbv zeta.
    destruct (N.leb_spec (lenN pre + 4) (lenN m)); [|lia].
    destruct (N.leb_spec (lenN pre + 4 + lenN s) (lenN m)); [|lia].
    cbn [pbind fst snd]. fold (slice m (lenN pre + 4) (lenN s)); rewrite S2. f_equal. rewrite lenN_app, L4. lia.
  - rewrite GetBoolean_eq by (try assumption; lia).
    rewrite takeN_all by lia. cbn [put_field] in *. unfold PutBoolean in *.
    assert (R : rd m (lenN pre) = Some b).
    { unfold m. rewrite <- (N.add_0_r (lenN pre)). rewrite rd_app_r. reflexivity. }
    rewrite R. reflexivity.
Qed.

Lemma get_fields_put : forall fs pre post,
  bytes_ok (pre ++ put_fields fs ++ post) -> Forall field_ok fs ->
  is32 (lenN (pre ++ put_fields fs ++ post)) ->
  get_fields (map kind_of fs) (pre ++ put_fields fs ++ post)
             (lenN (pre ++ put_fields fs ++ post)) (lenN pre)
  = POk fs (lenN pre + lenN (put_fields fs)).
Proof.
  induction fs as [|f fs IH]; intros pre post Hb Hf H32.
  - cbn. f_equal. lia.
  - inversion Hf as [|? ? Hf1 Hf2]; subst. cbn [map get_fields].
    unfold put_fields in *. cbn [map concat] in *. fold (put_fields fs) in *.
    assert (A1 : pre ++ (put_field f ++ put_fields fs) ++ post
                 = pre ++ put_field f ++ (put_fields fs ++ post)) by (rewrite !app_assoc; reflexivity).
    assert (A2 : pre ++ (put_field f ++ put_fields fs) ++ post
                 = (pre ++ put_field f) ++ put_fields fs ++ post) by (rewrite !app_assoc; reflexivity).
    rewrite A1 at 1 2. rewrite get_field_put; [|rewrite <- A1; assumption|assumption|rewrite <- A1; assumption].
    cbn [pbind].
    replace (lenN pre + lenN (put_field f)) with (lenN (pre ++ put_field f)) by apply lenN_app.
    rewrite A2. rewrite IH; [|rewrite <- A2; assumption|assumption|rewrite <- A2; assumption].
    cbn [pbind]. f_equal. rewrite !lenN_app. lia.
Qed.

(* ------------------------------------------------------------------ *)
(* mpint *)

Lemma count_zeros_le : forall b, count_zeros b <= lenN b.
Proof.
  induction b as [|x b IH]; [cbn; lia|]. cbn [count_zeros]. rewrite lenN_cons.
  destruct (x =? 0); lia.
Qed.

Lemma be_value_app : forall a b, be_value (a ++ b) = be_value a * 256 ^ lenN b + be_value b.
Proof.
  intros a b. unfold be_value. rewrite fold_left_app.
  generalize (fold_left (fun acc x : N => acc * 256 + x) a 0) as v. clear a.
  induction b as [|x b IH]; intros v; cbn [fold_left].
  - unfold lenN; cbn. lia.
  - rewrite IH. rewrite (IH (0 * 256 + x)). rewrite lenN_cons.
    rewrite N.pow_add_r. rewrite N.pow_1_r. lia.
Qed.

Lemma be_value_cons0 : forall b, be_value (0 :: b) = be_value b.
Proof. intros b. unfold be_value. cbn [fold_left]. f_equal. Qed.

Lemma be_value_drop_zeros : forall b i, i <= count_zeros b -> be_value (dropN i b) = be_value b.
Proof.
  induction b as [|x b IH]; intros i Hi.
  - cbn in Hi. replace i with 0 by lia. reflexivity.
  - cbn [count_zeros] in Hi. destruct (N.eqb_spec x 0) as [E|E].
    + subst x. destruct (N.eq_dec i 0) as [->|Hn]; [reflexivity|].
      rewrite be_value_cons0. rewrite <- (IH (i - 1)) by lia. f_equal.
      unfold dropN. replace (N.to_nat i) with (S (N.to_nat (i - 1))) by lia. reflexivity.
    + replace i with 0 by lia. reflexivity.
Qed.

Lemma count_zeros_rd : forall b k, k < count_zeros b -> rd b k = Some 0.
Proof.
  induction b as [|x b IH]; intros k Hk; cbn [count_zeros] in Hk; [lia|].
  destruct (N.eqb_spec x 0) as [E|E]; [|lia]. subst x.
  destruct (N.eq_dec k 0) as [->|Hn]; [reflexivity|].
  specialize (IH (k - 1) ltac:(lia)). unfold rd in *.
  replace (N.to_nat k) with (S (N.to_nat (k - 1))) by lia. exact IH.
Qed.

Lemma count_zeros_next : forall b, count_zeros b < lenN b ->
  exists x, rd b (count_zeros b) = Some x /\ x <> 0.
Proof.
  induction b as [|x b IH]; intros H; cbn [count_zeros] in *; [unfold lenN in H; cbn in H; lia|].
  rewrite lenN_cons in H. destruct (N.eqb_spec x 0) as [E|E].
  - destruct IH as (y & Hy & Hn); [lia|]. exists y; split; [|assumption].
    unfold rd in *. replace (N.to_nat (1 + count_zeros b)) with (S (N.to_nat (count_zeros b))) by lia.
    exact Hy.
  - exists x; split; [reflexivity|assumption].
Qed.

Lemma count_zeros_all : forall b, count_zeros b = lenN b -> be_value b = 0.
Proof.
  intros b H. rewrite <- (be_value_drop_zeros b (lenN b)) by lia.
  rewrite dropN_all by lia. reflexivity.
Qed.

Lemma dropN_rd : forall (b : bytes) i x, rd b i = Some x -> dropN i b = x :: dropN (i + 1) b.
Proof.
  intros b i x H. unfold rd, dropN in *.
  replace (N.to_nat (i + 1)) with (S (N.to_nat i)) by lia.
  revert b H. generalize (N.to_nat i) as k. induction k as [|k IH]; intros b H.
  - destruct b as [|y b]; [discriminate|]. cbn in *. congruence.
  - destruct b as [|y b]; [discriminate|]. cbn in H. change (skipn k b = x :: skipn (S k) b). apply IH; assumption.
Qed.

(* contents of the mpint CreateMpint produces, pad included *)
Definition mpint_contents (buf : bytes) : bytes :=
  let '(b, pad) := CreateMpint buf 0 in (if pad =? 1 then [0] else []) ++ b.

Lemma PutMpint_string : forall buf, PutMpint buf = PutString (mpint_contents buf).
Proof.
  intros buf. unfold PutMpint, PutString, mpint_contents.
  assert (Hp : snd (CreateMpint buf 0) = 0 \/ snd (CreateMpint buf 0) = 1).
  { unfold CreateMpint. destruct (lenN buf =? 0); [left; reflexivity|].
    destruct (count_zeros buf =? lenN buf); [left; reflexivity|]. cbv zeta.
    destruct (match rd buf (count_zeros buf) with Some b => N.testbit b 7 | None => false end);
      destruct (0 <? count_zeros buf); cbn; auto. }
  destruct (CreateMpint buf 0) as [b pad]. cbn [snd] in Hp. destruct Hp as [-> | ->].
  - change (0 =? 1) with false. cbn [app]. f_equal. f_equal. lia.
  - change (1 =? 1) with true. cbn [app]. rewrite lenN_cons. f_equal. f_equal. lia.
Qed.

Lemma mpint_contents_cases : forall buf,
  (count_zeros buf = lenN buf /\ mpint_contents buf = []) \/
  (exists x, count_zeros buf < lenN buf /\ rd buf (count_zeros buf) = Some x /\ x <> 0 /\
    ((N.testbit x 7 = false /\ mpint_contents buf = dropN (count_zeros buf) buf) \/
     (N.testbit x 7 = true /\ mpint_contents buf = 0 :: dropN (count_zeros buf) buf))).
Proof.
  intros buf. unfold mpint_contents, CreateMpint.
  pose proof (count_zeros_le buf) as HL.
  destruct (N.eqb_spec (lenN buf) 0) as [E|E].
  - left. apply lenN_0 in E. subst buf. split; reflexivity.
  - destruct (N.eqb_spec (count_zeros buf) (lenN buf)) as [E2|E2].
    + left. split; [assumption|reflexivity].
    + right. destruct (count_zeros_next buf ltac:(lia)) as (x & Hx & Hn).
      exists x. repeat split; try assumption; [lia|]. rewrite Hx. cbv zeta.
      destruct (N.testbit x 7) eqn:Et.
      * right. split; [reflexivity|].
        destruct (N.ltb_spec 0 (count_zeros buf)) as [H|H]; cbn [andb N.eqb Pos.eqb app].
        -- rewrite (dropN_rd buf (count_zeros buf - 1) 0).
           ++ f_equal. f_equal. lia.
           ++ apply count_zeros_rd. lia.
        -- replace (count_zeros buf) with 0 by lia. reflexivity.
      * left. split; [reflexivity|]. change (0 =? 1) with false. rewrite andb_false_r. reflexivity.
Qed.

Lemma mpint_contents_value : forall buf, be_value (mpint_contents buf) = be_value buf.
Proof.
  intros buf. destruct (mpint_contents_cases buf) as [(H & ->)|(x & H & Hx & Hn & [(Ht & ->)|(Ht & ->)])].
  - symmetry. apply count_zeros_all; assumption.
  - apply be_value_drop_zeros. lia.
  - rewrite be_value_cons0. apply be_value_drop_zeros. lia.
Qed.

Lemma mpint_contents_canonical : forall buf, mpint_canonical (mpint_contents buf).
Proof.
  intros buf. destruct (mpint_contents_cases buf) as [(H & ->)|(x & H & Hx & Hn & [(Ht & ->)|(Ht & ->)])].
  - exact I.
  - rewrite (dropN_rd _ _ _ Hx). cbn. split; [assumption|]. intros E; contradiction.
  - cbn. split; [reflexivity|]. intros _. rewrite (dropN_rd _ _ _ Hx). eauto.
Qed.

Lemma mpint_contents_fix : forall b, mpint_canonical b -> mpint_contents b = b.
Proof.
  intros [|x r] H; [reflexivity|]. cbn [mpint_canonical] in H. destruct H as [Ht Hz].
  destruct (mpint_contents_cases (x :: r)) as [(Hc & E)|(y & Hc & Hy & Hn & [(Hty & E)|(Hty & E)])].
  - exfalso. cbn [count_zeros] in Hc. rewrite lenN_cons in Hc.
    destruct (N.eqb_spec x 0) as [E0|E0].
    + destruct (Hz E0) as (y & t & -> & Hy). cbn [count_zeros] in Hc.
      rewrite lenN_cons in Hc. destruct (N.eqb_spec y 0) as [->|]; [discriminate Hy|].
      pose proof (count_zeros_le t). lia.
    + lia.
  - rewrite E. cbn [count_zeros] in *. destruct (N.eqb_spec x 0) as [E0|E0].
    + exfalso. destruct (Hz E0) as (y' & t & -> & Hy'). cbn [count_zeros] in *.
      destruct (N.eqb_spec y' 0) as [->|]; [discriminate Hy'|].
      change (Some y' = Some y) in Hy. congruence.
    + reflexivity.
  - rewrite E. cbn [count_zeros] in *. destruct (N.eqb_spec x 0) as [E0|E0].
    + subst x. destruct (Hz eq_refl) as (y' & t & -> & Hy'). cbn [count_zeros].
      destruct (N.eqb_spec y' 0) as [->|]; [discriminate Hy'|]. reflexivity.
    + exfalso. change (Some x = Some y) in Hy. congruence.
Qed.

Lemma mpint_contents_ok : forall buf, bytes_ok buf -> bytes_ok (mpint_contents buf).
Proof.
  intros buf H. destruct (mpint_contents_cases buf) as [(_ & ->)|(x & _ & _ & _ & [(_ & ->)|(_ & ->)])].
  - constructor.
  - apply bytes_ok_dropN; assumption.
  - constructor; [unfold byte_ok; lia|]. apply bytes_ok_dropN; assumption.
Qed.

Lemma canonical_top : forall x, x < 256 -> N.testbit x 7 = false -> x < 128.
Proof.
  intros x Hx Ht. destruct (N.ltb_spec x 128) as [|H]; [assumption|exfalso].
  assert (E : x / 128 = 1) by lia.
  rewrite N.testbit_eqb in Ht. change (2 ^ 7) with 128 in Ht. rewrite E in Ht. discriminate.
Qed.

Lemma GetMpint_put : forall pre buf post,
  let c := mpint_contents buf in
  let m := pre ++ PutMpint buf ++ post in
  bytes_ok m -> is32 (lenN m) -> bytes_ok buf ->
  GetMpint m (lenN m) (lenN pre) = POk (lenN pre + 4, lenN c) (lenN pre + lenN (PutMpint buf))
  /\ slice m (lenN pre + 4) (lenN c) = c.
Proof.
  intros pre buf post c m Hb H32 Hbuf.
  pose proof (mpint_contents_ok buf Hbuf) as Hc. fold c in Hc.
  assert (Em : m = pre ++ PutString c ++ post) by (unfold m; rewrite PutMpint_string; reflexivity).
  assert (HL : lenN (PutMpint buf) = 4 + lenN c).
  { rewrite PutMpint_string. unfold PutString. rewrite lenN_app. reflexivity. }
  assert (Hlm : lenN m = lenN pre + (4 + lenN c) + lenN post).
  { unfold m. rewrite !lenN_app. lia. }
  assert (L4 : lenN (c32toa (lenN c)) = 4) by reflexivity.
  assert (S1 : slice m (lenN pre) 4 = c32toa (lenN c)).
  { rewrite <- L4, Em. unfold PutString. rewrite <- app_assoc. apply slice_mid. }
  assert (S2 : slice m (lenN pre + 4) (lenN c) = c).
  { rewrite <- L4, <- lenN_app, Em. unfold PutString. rewrite <- app_assoc, app_assoc. apply slice_mid. }
  split; [|assumption].
  rewrite GetMpint_eq by (try assumption; unfold is32, W32 in *; lia).
  rewrite S1, be_value_c32toa by (unfold is32, W32 in *; lia). cbv zeta.
  destruct (N.leb_spec (lenN pre + 4) (lenN m)); [|lia].
  destruct (N.leb_spec (lenN pre + 4 + lenN c) (lenN m)); [|lia].
  rewrite S2. rewrite HL. replace (lenN pre + (4 + lenN c)) with (lenN pre + 4 + lenN c) by lia.
  pose proof (mpint_contents_canonical buf) as Hcan. fold c in Hcan.
  destruct c as [|x r] eqn:Ec; [reflexivity|]. cbn in Hcan. destruct Hcan as [-> _]. reflexivity.
Qed.
