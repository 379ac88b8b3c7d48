(* SshdKeysProofs3.v - names and addresses in certificates. *)
From Coq Require Import List NArith ZArith Lia Bool String.
From Verif Require Import Base WireModel WireSpec WireProofs KexSpec KexProofs NegoSpec SshdConfModel SshdConfSpec SshdConfProofs
  SshdKeysModel SshdKeysSpec SshdKeysProofs.
Import ListNotations.
Open Scope N_scope.

(* ---- principals ---------------------------------------------------------- *)
Lemma ato32_front : forall n r, is32 n -> ato32 (c32toa n ++ r) 0 = Some n.
Proof.
  intros n r H. assert (E : ato32 (c32toa n ++ r) 0 = ato32 (c32toa n) 0) by reflexivity. rewrite E.
  rewrite ato32_slice; [|apply c32toa_ok|rewrite c32toa_length; lia].
  change (slice (c32toa n) 0 4) with (c32toa n). rewrite be_value_c32toa by exact H. reflexivity.
Qed.
Lemma ato32_inv : forall p n, bytes_ok p -> ato32 p 0 = Some n -> is32 n /\ p = c32toa n ++ dropN 4 p.
Proof.
  intros p n OK H. assert (L : 0 + 4 <= lenN p).
  { unfold ato32 in H. destruct (rd p 0), (rd p (0 + 1)), (rd p (0 + 2)), (rd p (0 + 3)) eqn:E; try discriminate. apply rd_lt in E. lia. }
  pose proof (ato32_slice p 0 OK L) as Q. rewrite H in Q. injection Q as Q.
  assert (OK4 : bytes_ok (takeN 4 p)). { rewrite <- (takeN_dropN _ 4 p) in OK. apply Forall_app in OK. apply OK. }
  assert (L4 : lenN (takeN 4 p) = 4) by (rewrite lenN_takeN; lia).
  assert (S : slice p 0 4 = takeN 4 p) by (unfold slice; rewrite dropN_0; reflexivity). rewrite S in Q.
  pose proof (be_value_bound _ OK4) as B. rewrite L4, <- Q in B. change (256 ^ 4) with W32 in B. split; [exact B|].
  rewrite <- (takeN_dropN _ 4 p) at 1. f_equal. apply be_value_inj; [exact OK4|apply c32toa_ok|rewrite L4, c32toa_length; reflexivity|].
  rewrite be_value_c32toa by exact B. symmetry. exact Q.
Qed.
Lemma principal_in_iff : forall fuel p u, bytes_ok p -> lenN p < W32 -> (List.length p <= fuel)%nat ->
  (principal_in fuel p u = true <-> exists pre rest, p = principals (pre ++ [u]) ++ rest).
Proof.
  assert (PC : forall n ns, principals (n :: ns) = str n ++ principals ns) by reflexivity.
  induction fuel as [|fuel IH]; intros p u OK LP F.
  - destruct p; [|cbn in F; lia]. split; [discriminate|]. intros ([|a pre] & rest & E); discriminate E.
  - cbn [principal_in]. destruct (ato32 p 0) as [n|] eqn:A.
    2:{ split; [discriminate|]. intros (pre & rest & E). exfalso.
        assert (X : exists a ns, pre ++ [u] = a :: ns) by (destruct pre; eexists _, _; reflexivity). destruct X as (a & ns & X). rewrite X, PC in E.
        assert (LA : is32 (lenN a)). { unfold is32. rewrite E in LP. rewrite !lenN_app, lenN_str in LP. lia. }
        rewrite <- (str_put a LA) in E. unfold PutString in E. rewrite <- !app_assoc in E. rewrite E, ato32_front in A by exact LA. discriminate. }
    destruct (ato32_inv p n OK A) as [N32 E]. set (r := dropN 4 p) in *.
    assert (LR : lenN p = 4 + lenN r) by (rewrite E, lenN_app, c32toa_length; reflexivity).
    assert (OKR : bytes_ok r) by (rewrite E in OK; apply Forall_app in OK; apply OK).
    assert (UNI : forall a b, is32 (lenN a) -> p = str a ++ b -> lenN a = n /\ a = takeN n r /\ b = dropN n r).
    { intros a b LA Q. rewrite <- (str_put a LA) in Q. unfold PutString in Q. rewrite <- app_assoc in Q.
      assert (Z : lenN a = n). { rewrite Q, ato32_front in A by exact LA. injection A as A. exact A. }
      rewrite Z in Q. rewrite E in Q at 1. apply app_inv_head in Q. split; [exact Z|]. rewrite Q. split; symmetry; [apply takeN_app_exact|apply dropN_app_exact]; symmetry; exact Z. }
    assert (L32 : forall a ns rest, p = principals (a :: ns) ++ rest -> is32 (lenN a)).
    { intros a ns rest Q. rewrite PC in Q. rewrite Q, !lenN_app, lenN_str in LP. unfold is32. lia. }
    destruct (N.ltb_spec (lenN r) n) as [L|L].
    { split; [discriminate|]. intros (pre & rest & Q). exfalso.
      assert (X : exists a ns, pre ++ [u] = a :: ns) by (destruct pre; eexists _, _; reflexivity). destruct X as (a & ns & X). rewrite X in Q.
      pose proof (L32 _ _ _ Q) as LA. rewrite PC, <- app_assoc in Q. destruct (UNI _ _ LA Q) as (Z & T & _).
      assert (lenN a <= lenN r) by (rewrite T, lenN_takeN; lia). lia. }
    assert (PS : p = str (takeN n r) ++ dropN n r).
    { rewrite E. assert (Z : lenN (takeN n r) = n) by (rewrite lenN_takeN; lia). rewrite <- str_put by (rewrite Z; exact N32). unfold PutString. rewrite Z, <- app_assoc, takeN_dropN. reflexivity. }
    destruct (bytes_eqb (takeN n r) u) eqn:B.
    + apply bytes_eqb_eq in B. split; [intros _|reflexivity]. exists [], (dropN n r). change (principals ([] ++ [u])) with (str u ++ []). rewrite app_nil_r, <- B. exact PS.
    + assert (SUB : bytes_ok (dropN n r)) by (rewrite <- (takeN_dropN _ n r) in OKR; apply Forall_app in OKR; apply OKR).
      assert (LS : lenN (dropN n r) = lenN r - n) by apply lenN_dropN.
      rewrite (IH (dropN n r) u SUB ltac:(lia) ltac:(unfold lenN in *; lia)). split.
      * intros (pre & rest & Q). exists (takeN n r :: pre), rest. cbn [app]. rewrite PC, <- app_assoc, <- Q. exact PS.
      * intros (pre & rest & Q). destruct pre as [|a pre].
        -- exfalso. cbn [app] in Q. pose proof (L32 _ _ _ Q) as LA. rewrite PC, <- app_assoc in Q. destruct (UNI _ _ LA Q) as (_ & T & _). rewrite T in B.
           assert (bytes_eqb (takeN n r) (takeN n r) = true) by (apply bytes_eqb_eq; reflexivity). congruence.
        -- exists pre, rest. cbn [app] in Q. pose proof (L32 _ _ _ Q) as LA. rewrite PC, <- app_assoc in Q. destruct (UNI _ _ LA Q) as (_ & _ & T). symmetry. exact T.
Qed.
Lemma principal_iff : forall p u, bytes_ok p -> lenN p < W32 ->
  (check_principal p u = true <-> exists pre rest, p = principals (pre ++ [u]) ++ rest).
Proof.
  intros p u OK LP. unfold check_principal. destruct p as [|c p'] eqn:E.
  - split; [discriminate|]. intros ([|a pre] & rest & Q); discriminate Q.
  - rewrite <- E in *. apply principal_in_iff; [exact OK|exact LP|lia].
Qed.
Lemma principals_app : forall a b, principals (a ++ b) = principals a ++ principals b.
Proof. intros. unfold principals. rewrite map_app, concat_app. reflexivity. Qed.
Lemma principals_inj : forall ns pre u rest, lenN (principals ns) < W32 -> Forall bytes_ok ns ->
  principals ns = principals (pre ++ [u]) ++ rest -> In u ns.
Proof.
  induction ns as [|n ns IH]; intros pre u rest L OK E.
  - destruct pre; discriminate E.
  - change (principals (n :: ns)) with (str n ++ principals ns) in *. inversion OK as [|? ? O1 O2]; subst.
    assert (X : exists a xs, pre ++ [u] = a :: xs) by (destruct pre; eexists _, _; reflexivity). destruct X as (a & xs & X).
    rewrite X in E. change (principals (a :: xs)) with (str a ++ principals xs) in E.
    assert (LA : is32 (lenN a)). { unfold is32. rewrite E, !lenN_app, lenN_str in L. lia. }
    assert (LN : is32 (lenN n)). { unfold is32. rewrite !lenN_app, lenN_str in L. lia. }
    rewrite <- !str_put in E by assumption. unfold PutString in E. rewrite <- !app_assoc in E.
    assert (Z : lenN n = lenN a).
    { pose proof (ato32_front (lenN n) (n ++ principals ns) LN) as Q. rewrite E, ato32_front in Q by exact LA. congruence. }
    rewrite Z in E. apply app_inv_head in E.
    assert (A : n = a). { apply (f_equal (takeN (lenN a))) in E. rewrite !takeN_app_exact in E by (rewrite ?Z; reflexivity). exact E. }
    subst a. apply app_inv_head in E. destruct pre as [|b pre].
    + cbn in X. injection X as X _. left. symmetry. exact X.
    + cbn [app] in X. inversion X; subst. right. rewrite lenN_app in L. apply (IH pre u rest); [lia|exact O2|exact E].
Qed.
Lemma principal_names : forall ns u, Forall bytes_ok ns -> lenN (principals ns) < W32 ->
  (check_principal (principals ns) u = true <-> In u ns).
Proof.
  intros ns u OK L. assert (OKP : bytes_ok (principals ns)).
  { clear -OK L. induction OK as [|n ns O1 OK IH]; [constructor|]. change (principals (n :: ns)) with (str n ++ principals ns) in *.
    rewrite lenN_app, lenN_str in L. apply Forall_app. split; [|apply IH; lia]. rewrite <- str_put by (unfold is32; lia). apply Forall_app. split; [apply c32toa_ok|exact O1]. }
  rewrite principal_iff by assumption. split.
  - intros (pre & rest & E). eapply principals_inj; eassumption.
  - intros I1. apply in_split in I1. destruct I1 as (a & b & ->). exists a, (principals b). rewrite <- principals_app, <- app_assoc. reflexivity.
Qed.

(* ---- prefixes ------------------------------------------------------------ *)
Lemma mask_div : forall rem x, 1 <= rem -> rem < 8 -> x < 256 ->
  N.land x (N.shiftl 255 (8 - rem) mod 256) = x / 2 ^ (8 - rem) * 2 ^ (8 - rem).
Proof.
  assert (T : forallb (fun r => forallb (fun i => let x := N.of_nat i in let rem := N.of_nat r in N.land x (N.shiftl 255 (8 - rem) mod 256) =? x / 2 ^ (8 - rem) * 2 ^ (8 - rem)) (seq 0 256)) (seq 1 7) = true) by (vm_compute; reflexivity).
  intros rem x R1 R2 X. rewrite forallb_forall in T. specialize (T (N.to_nat rem) ltac:(apply in_seq; lia)). rewrite forallb_forall in T.
  specialize (T (N.to_nat x) ltac:(apply in_seq; lia)). cbv zeta in T. rewrite !N2Nat.id in T. apply N.eqb_eq. exact T.
Qed.
Lemma split_at : forall (a : bytes) k, k < lenN a -> exists a1 x a2, a = a1 ++ x :: a2 /\ lenN a1 = k.
Proof.
  intros a k L. destruct (rd_some a k L) as (x & R & _). exists (takeN k a), x, (dropN (k + 1) a). split; [|rewrite lenN_takeN; lia].
  rewrite <- (dropN_rd a k x R). symmetry. apply takeN_dropN.
Qed.
Lemma pow_8 : forall n, 2 ^ (8 * n) = 256 ^ n.
Proof. intros n. rewrite N.pow_mul_r. reflexivity. Qed.
Lemma network_split : forall a1 x a2 rem, bytes_ok (a1 ++ x :: a2) -> rem < 8 ->
  network (a1 ++ x :: a2) (8 * lenN a1 + rem) = be_value a1 * 2 ^ rem + x / 2 ^ (8 - rem).
Proof.
  intros a1 x a2 rem OK R. apply Forall_app in OK. destruct OK as [O1 O2]. inversion O2 as [|? ? OX O3]; subst. unfold network.
  rewrite lenN_app, lenN_cons. replace (8 * (lenN a1 + (1 + lenN a2)) - (8 * lenN a1 + rem)) with (8 * lenN a2 + (8 - rem)) by lia.
  rewrite N.pow_add_r, pow_8, <- N.div_div by (apply N.pow_nonzero; lia). change (x :: a2) with ([x] ++ a2). rewrite app_assoc, be_value_app.
  rewrite N.div_add_l by (apply N.pow_nonzero; lia). rewrite (N.div_small (be_value a2)) by (apply be_value_bound; exact O3). rewrite N.add_0_r.
  rewrite be_value_app. change (lenN [x]) with 1. change (be_value [x]) with x. change (256 ^ 1) with 256.
  replace 256 with (2 ^ rem * 2 ^ (8 - rem)) by (rewrite <- N.pow_add_r; replace (rem + (8 - rem)) with 8 by lia; reflexivity).
  rewrite N.mul_assoc, N.div_add_l by (apply N.pow_nonzero; lia). reflexivity.
Qed.
Lemma network_whole : forall a, network a (8 * lenN a) = be_value a.
Proof. intros a. unfold network. rewrite N.sub_diag. apply N.div_1_r. Qed.
Lemma mixed : forall P a b X Y, X < P -> Y < P -> a * P + X = b * P + Y -> a = b /\ X = Y.
Proof. intros P a b X Y HX HY E. apply (N.div_mod_unique P a b X Y HX HY). lia. Qed.
Lemma prefix_network : forall a b bits, bytes_ok a -> bytes_ok b -> lenN a = lenN b -> bits <= 8 * lenN a ->
  prefix_match a b (Z.of_N bits) (lenN a) = (network a bits =? network b bits).
Proof.
  intros a b bits OA OB L B. unfold prefix_match.
  replace (Z.ltb (Z.of_N bits) 0 || Z.ltb (Z.of_N (lenN a) * 8) (Z.of_N bits))%bool with false.
  2:{ symmetry. apply orb_false_iff. split; apply Z.ltb_ge; lia. }
  rewrite N2Z.id. set (full := bits / 8). set (rem := bits mod 8).
  assert (DM : bits = 8 * full + rem) by (apply N.div_mod'). assert (R : rem < 8) by (apply N.mod_lt; lia).
  destruct (N.eq_dec full (lenN a)) as [F|F].
  - assert (R0 : rem = 0) by lia. rewrite R0. cbn [N.eqb]. rewrite F. rewrite takeN_all by lia. rewrite takeN_all by lia.
    assert (BB : bits = 8 * lenN a) by lia. rewrite BB, network_whole. rewrite L at 1. rewrite network_whole.
    destruct (bytes_eqb a b) eqn:E; cbn [negb].
    + apply bytes_eqb_eq in E. subst b. rewrite N.eqb_refl. reflexivity.
    + symmetry. apply N.eqb_neq. intros Q. apply be_value_inj in Q; try assumption. subst b. assert (bytes_eqb a a = true) by (apply bytes_eqb_eq; reflexivity). congruence.
  - destruct (split_at a full ltac:(lia)) as (a1 & x & a2 & -> & LA). destruct (split_at b full ltac:(lia)) as (b1 & y & b2 & -> & LB).
    rewrite (takeN_app_exact _ full a1) by (symmetry; exact LA). rewrite (takeN_app_exact _ full b1) by (symmetry; exact LB).
    assert (RA : rd (a1 ++ x :: a2) full = Some x) by (rewrite <- LA, <- (N.add_0_r (lenN a1)), rd_app_r; reflexivity).
    assert (RB : rd (b1 ++ y :: b2) full = Some y) by (rewrite <- LB, <- (N.add_0_r (lenN b1)), rd_app_r; reflexivity).
    assert (NA : network (a1 ++ x :: a2) bits = be_value a1 * 2 ^ rem + x / 2 ^ (8 - rem)) by (replace bits with (8 * lenN a1 + rem) by (rewrite LA; symmetry; exact DM); apply network_split; assumption).
    assert (NB : network (b1 ++ y :: b2) bits = be_value b1 * 2 ^ rem + y / 2 ^ (8 - rem)) by (replace bits with (8 * lenN b1 + rem) by (rewrite LB; symmetry; exact DM); apply network_split; assumption).
    rewrite RA, RB, NA, NB.
    pose proof OA as OA'. pose proof OB as OB'. apply Forall_app in OA', OB'. destruct OA' as [OA1 OA2], OB' as [OB1 OB2].
    apply Forall_inv in OA2. apply Forall_inv in OB2. rename OA2 into OX, OB2 into OY. unfold byte_ok in OX, OY.
    assert (DX : x / 2 ^ (8 - rem) < 2 ^ rem). { apply N.div_lt_upper_bound; [apply N.pow_nonzero; lia|]. rewrite <- N.pow_add_r. replace (8 - rem + rem) with 8 by lia. exact OX. }
    assert (DY : y / 2 ^ (8 - rem) < 2 ^ rem). { apply N.div_lt_upper_bound; [apply N.pow_nonzero; lia|]. rewrite <- N.pow_add_r. replace (8 - rem + rem) with 8 by lia. exact OY. }
    set (P := 2 ^ rem) in *. set (X := x / 2 ^ (8 - rem)) in *. set (Y := y / 2 ^ (8 - rem)) in *.
    assert (SPLIT : be_value a1 * P + X = be_value b1 * P + Y -> be_value a1 = be_value b1 /\ X = Y).
    { apply mixed; assumption. }
    destruct (bytes_eqb a1 b1) eqn:E; cbn [negb].
    + apply bytes_eqb_eq in E. subst b1. destruct (N.eqb_spec rem 0) as [R0|R0].
      * symmetry. apply N.eqb_eq. assert (P1 : P = 1) by (unfold P; rewrite R0; reflexivity). rewrite P1 in DX, DY. apply N.lt_1_r in DX. apply N.lt_1_r in DY. rewrite DX, DY. reflexivity.
      * rewrite !mask_div by lia. fold X Y. set (M := 2 ^ (8 - rem)). assert (M <> 0) by (apply N.pow_nonzero; lia).
        destruct (N.eqb_spec (be_value a1 * P + X) (be_value a1 * P + Y)) as [Q|Q]; [apply N.eqb_eq; f_equal; apply N.add_cancel_l in Q; exact Q|].
        apply N.eqb_neq. intros Q2. apply Q. f_equal. apply N.mul_cancel_r in Q2; assumption.
    + symmetry. apply N.eqb_neq. intros Q. apply SPLIT in Q. destruct Q as [Q _]. apply be_value_inj in Q; try assumption; [|congruence]. subst b1.
      assert (bytes_eqb a1 a1 = true) by (apply bytes_eqb_eq; reflexivity). congruence.
Qed.

(* ---- source addresses ---------------------------------------------------- *)
Lemma splits_span : forall p l, splits p l = fst (span (fun c => negb (p c)) l) ::
  match snd (span (fun c => negb (p c)) l) with [] => [] | _ :: r => splits p r end.
Proof.
  intros p l. induction l as [|c t IH]; [reflexivity|]. cbn [splits span]. destruct (p c) eqn:P; cbn [negb]; [reflexivity|].
  rewrite IH. destruct (span (fun c => negb (p c)) t) as [u v]. reflexivity.
Qed.
Lemma digits_decimal : forall ds acc n, (0 <= acc <= 128)%Z ->
  (prefix_digits acc ds = Some n <->
   forallb (fun c => (48 <=? c) && (c <=? 57)) ds = true /\ n = Z.of_N (fold_left (fun n c => n * 10 + (c - 48)) ds (Z.to_N acc)) /\ (n <= 128)%Z).
Proof.
  assert (MONO : forall ds a, a <= fold_left (fun n c => n * 10 + (c - 48)) ds a).
  { induction ds as [|d ds IH]; intros a; cbn [fold_left]; [lia|]. specialize (IH (a * 10 + (d - 48))). lia. }
  induction ds as [|d ds IH]; intros acc n A.
  - cbn. rewrite Z2N.id by lia. split.
    + intros H. inversion H; subst. split; [reflexivity|]. split; [reflexivity|lia].
    + intros (_ & -> & _). reflexivity.
  - cbn [prefix_digits forallb fold_left]. unfold digit. destruct ((48 <=? d) && (d <=? 57)); cbn [andb].
    2:{ split; [discriminate|]. intros (Q & _). discriminate Q. }
    replace (Z.to_N acc * 10 + (d - 48)) with (Z.to_N (acc * 10 + Z.of_N (d - 48))) by lia.
    destruct (Z.ltb_spec 128 (acc * 10 + Z.of_N (d - 48))) as [L|L].
    + split; [discriminate|]. intros (_ & -> & Q). exfalso. pose proof (MONO ds (Z.to_N (acc * 10 + Z.of_N (d - 48)))). lia.
    + apply IH. lia.
Qed.
Lemma span_slash : forall host ds, ~ In 47 host -> span (fun c => negb (c =? 47)) (host ++ 47 :: ds) = (host, 47 :: ds).
Proof.
  intros host ds H. induction host as [|c t IH]; [reflexivity|]. cbn [app span]. destruct (N.eqb_spec c 47) as [->|]; [exfalso; apply H; left; reflexivity|].
  cbn [negb]. rewrite IH by (intros Q; apply H; right; exact Q). reflexivity.
Qed.
Lemma span_no_slash : forall host, ~ In 47 host -> span (fun c => negb (c =? 47)) host = (host, []).
Proof.
  intros host H. apply span_all. apply forallb_forall. intros c I1. destruct (N.eqb_spec c 47) as [->|]; [contradiction|reflexivity].
Qed.

Section Source.
Variable pton4 pton6 : bytes -> option bytes.
Hypothesis RES : resolver pton4 pton6.
Lemma entry_len : forall s a, entry_addr pton4 pton6 s = Some a -> (lenN a = 4 \/ lenN a = 16) /\ bytes_ok a.
Proof.
  destruct RES as (_ & _ & R4 & R6). intros s a H. unfold entry_addr in H. destruct (pton4 s) as [b|] eqn:E.
  - inversion H; subst. destruct (R4 _ _ E). split; [left|]; assumption.
  - destruct (R6 _ _ H). split; [right|]; assumption.
Qed.
Lemma entry_addr_spec : forall s a, entry_addr pton4 pton6 s = Some a <-> pton4 s = Some a \/ pton4 s = None /\ pton6 s = Some a.
Proof.
  intros s a. unfold entry_addr. destruct (pton4 s) as [b|]; split; intros H.
  - left. exact H.
  - destruct H as [H|[H _]]; [exact H|discriminate H].
  - right. split; [reflexivity|exact H].
  - destruct H as [H|[_ H]]; [discriminate H|exact H].
Qed.
Lemma entry_some : forall peer e m, ~ In 0 e -> entry_match pton4 pton6 peer e = Some m -> exists a bits, cidr pton4 pton6 e a bits.
Proof.
  intros peer e m NUL H. unfold entry_match in H. destruct (N.leb_spec CIDR_ENTRY_SZ (lenN e)) as [L|L]; [discriminate|]. unfold CIDR_ENTRY_SZ in L.
  rewrite cstr_id in H by exact NUL. destruct e as [|c t] eqn:E; [discriminate|]. rewrite <- E in *.
  destruct (N.eqb_spec c 33) as [|C]; [discriminate|].
  assert (HD : hd 0 e <> 33) by (rewrite E; exact C).
  pose proof (span_app (fun c => negb (c =? 47)) e) as SA. pose proof (span_fst_all (fun c => negb (c =? 47)) e) as SF. pose proof (span_snd_hd (fun c => negb (c =? 47)) e) as SH.
  destruct (span (fun c => negb (c =? 47)) e) as [host rest]. cbn [fst snd] in *.
  assert (NS : ~ In 47 host). { intros Q. rewrite Forall_forall in SF. apply SF in Q. discriminate Q. }
  destruct rest as [|x [|y ds]].
  - destruct (entry_addr pton4 pton6 host) as [a|] eqn:EA; [|discriminate]. exists a, (8 * lenN a). split; [exact L|]. split; [exact HD|]. exists host. split; [exact NS|].
    split; [apply entry_addr_spec; exact EA|]. left. rewrite app_nil_r in SA. split; [symmetry; exact SA|]. split; [rewrite E; discriminate|reflexivity].
  - discriminate.
  - destruct (prefix_digits 0 (y :: ds)) as [pf|] eqn:PD; [|discriminate]. destruct (entry_addr pton4 pton6 host) as [a|] eqn:EA; [|discriminate].
    assert (X : x = 47). { specialize (SH x (y :: ds) eq_refl). destruct (N.eqb_spec x 47); [assumption|discriminate SH]. } subst x.
    apply digits_decimal in PD; [|lia]. destruct PD as (F & PN & P128). change (Z.to_N 0) with 0 in PN.
    assert (PF : Z.ltb pf 0 = false) by (apply Z.ltb_ge; lia). cbv zeta in H. rewrite PF in H. destruct (Z.ltb_spec (Z.of_N (lenN a) * 8) pf) as [Q|Q]; [discriminate|].
    exists a, (Z.to_N pf). split; [exact L|]. split; [exact HD|]. exists host. split; [exact NS|]. split; [apply entry_addr_spec; exact EA|]. right. exists (y :: ds).
    split; [symmetry; exact SA|]. split; [|lia]. unfold decimal. rewrite F. f_equal. rewrite PN. rewrite N2Z.id. reflexivity.
Qed.
Lemma entry_cidr : forall peer e a bits, bytes_ok peer -> ~ In 0 e -> cidr pton4 pton6 e a bits ->
  entry_match pton4 pton6 peer e = Some ((lenN a =? lenN peer) && (network a bits =? network peer bits)).
Proof.
  intros peer e a bits OKP NUL (L & HD & host & NS & EA & SH). unfold entry_match.
  replace (CIDR_ENTRY_SZ <=? lenN e) with false by (symmetry; apply N.leb_gt; exact L). rewrite cstr_id by exact NUL.
  apply entry_addr_spec in EA. destruct (entry_len _ _ EA) as [LA OKA].
  assert (PM : forall n, n <= 8 * lenN a -> (if lenN a =? lenN peer then prefix_match peer a (Z.of_N n) (lenN a) else false) = (lenN a =? lenN peer) && (network a n =? network peer n)).
  { intros n B. destruct (N.eqb_spec (lenN a) (lenN peer)) as [Q|]; [|reflexivity]. cbn [andb]. rewrite Q. rewrite prefix_network; try assumption; [|symmetry; exact Q|lia].
    apply N.eqb_sym. }
  destruct SH as [(-> & NE & ->)|(ds & -> & D & B)].
  - destruct host as [|c t]; [congruence|]. cbn [hd] in HD. apply N.eqb_neq in HD. rewrite HD. rewrite span_no_slash by exact NS. rewrite EA. cbv zeta.
    replace (Z.ltb (-1) 0) with true by reflexivity. f_equal. rewrite <- PM by lia. replace (Z.of_N (8 * lenN a)) with (Z.of_N (lenN a) * 8)%Z by lia. reflexivity.
  - assert (X : exists c t, host ++ 47 :: ds = c :: t /\ c <> 33) by (destruct host as [|c t]; eexists _, _; (split; [reflexivity|exact HD])). destruct X as (c & t & X & C).
    rewrite X. apply N.eqb_neq in C. rewrite C, <- X. rewrite span_slash by exact NS. unfold decimal in D. destruct ds as [|d ds]; [discriminate|].
    destruct (forallb (fun c => (48 <=? c) && (c <=? 57)) (d :: ds)) eqn:F; [|discriminate].
    assert (PD : prefix_digits 0 (d :: ds) = Some (Z.of_N bits)).
    { apply digits_decimal; [lia|]. split; [exact F|]. change (Z.to_N 0) with 0. inversion D. split; [reflexivity|]. subst bits. lia. }
    rewrite PD, EA. cbv zeta. replace (Z.ltb (Z.of_N bits) 0) with false by (symmetry; apply Z.ltb_ge; lia).
    replace (Z.ltb (Z.of_N (lenN a) * 8) (Z.of_N bits)) with false by (symmetry; apply Z.ltb_ge; lia). f_equal. apply PM. exact B.
Qed.
Definition hits (peer e : bytes) : Prop := exists a bits, cidr pton4 pton6 e a bits /\ lenN a = lenN peer /\ network a bits = network peer bits.
Lemma entries_iff : forall peer fuel l allow, bytes_ok peer -> ~ In 0 l -> l <> [] -> last l 0 <> 44 -> (List.length l <= fuel)%nat ->
  (entries_match pton4 pton6 fuel peer l allow = true <->
   (forall e, In e (splits (N.eqb 44) l) -> exists a bits, cidr pton4 pton6 e a bits) /\
   (allow = true \/ exists e, In e (splits (N.eqb 44) l) /\ hits peer e)).
Proof.
  intros peer. induction fuel as [|fuel IH]; intros l allow OKP NUL NE LAST F; [destruct l; [congruence|cbn in F; lia]|].
  rewrite splits_span. cbn [entries_match]. destruct l as [|c t] eqn:E; [congruence|]. rewrite <- E in *. clear E c t.
  assert (SE : span (fun c => negb (44 =? c)) l = span (fun c => negb (c =? 44)) l).
  { clear. induction l as [|c t IH]; [reflexivity|]. cbn [span]. rewrite IH, (N.eqb_sym 44 c). reflexivity. }
  rewrite SE. pose proof (span_app (fun c => negb (c =? 44)) l) as SA. pose proof (span_snd_hd (fun c => negb (c =? 44)) l) as SH.
  destruct (span (fun c => negb (c =? 44)) l) as [e rest]. cbn [fst snd] in *.
  assert (NULe : ~ In 0 e) by (intros Q; apply NUL; rewrite <- SA; apply in_or_app; left; exact Q).
  destruct (entry_match pton4 pton6 peer e) as [m|] eqn:EM.
  2:{ split; [discriminate|]. intros [H _]. exfalso. destruct (H e (or_introl eq_refl)) as (a & bits & C). rewrite (entry_cidr peer e a bits OKP NULe C) in EM. discriminate. }
  destruct (entry_some _ _ _ NULe EM) as (a & bits & C).
  assert (M : m = true <-> hits peer e).
  { split.
    - intros ->. rewrite (entry_cidr peer e a bits OKP NULe C) in EM. inversion EM as [Q]. apply andb_true_iff in Q. rewrite !N.eqb_eq in Q. exists a, bits. split; [exact C|exact Q].
    - intros (a' & bits' & C' & Q1 & Q2). rewrite (entry_cidr peer e a' bits' OKP NULe C') in EM. inversion EM as [Q]. rewrite Q1, Q2, !N.eqb_refl. reflexivity. }
  destruct rest as [|x r].
  - cbn [tl]. assert (EMP : entries_match pton4 pton6 fuel peer [] (allow || m) = (allow || m)%bool) by (destruct fuel; reflexivity). rewrite EMP, orb_true_iff, M. split.
    + intros H. split; [intros e' [<-|[]]; exists a, bits; exact C|]. destruct H as [H|H]; [left; exact H|]. right. exists e. split; [left; reflexivity|exact H].
    + intros [_ [H|(e' & [<-|[]] & H)]]; [left|right]; exact H.
  - cbn [tl]. assert (X : x = 44). { specialize (SH x r eq_refl). destruct (N.eqb_spec x 44); [assumption|discriminate SH]. } subst x.
    assert (NER : r <> []). { intros ->. apply LAST. rewrite <- SA, last_last. reflexivity. }
    rewrite (IH r (allow || m)%bool OKP).
    + rewrite orb_true_iff, M. split.
      * intros [A B]. split; [intros e' [<-|I1]; [exists a, bits; exact C|apply A; exact I1]|].
        destruct B as [[B|B]|(e' & I1 & B)]; [left; exact B|right; exists e; split; [left; reflexivity|exact B]|right; exists e'; split; [right; exact I1|exact B]].
      * intros [A B]. split; [intros e' I1; apply A; right; exact I1|].
        destruct B as [B|(e' & [<-|I1] & B)]; [left; left; exact B|left; right; exact B|right; exists e'; split; assumption].
    + intros Q. apply NUL. rewrite <- SA. apply in_or_app. right. right. exact Q.
    + exact NER.
    + intros Q. apply LAST. rewrite <- SA. destruct r as [|y r] using rev_ind; [congruence|]. clear IHr. rewrite last_last in Q. subst y.
      rewrite app_comm_cons, app_assoc, last_last. reflexivity.
    + rewrite <- SA, app_length in F. cbn [List.length] in F. lia.
Qed.
Lemma peer_spec : forall ip a, peer_addr pton4 pton6 ip = Some a <-> address pton4 pton6 ip a.
Proof.
  destruct RES as (_ & _ & R4 & R6). intros ip a. unfold peer_addr, address, v4mapped. fold mapped. destruct (pton4 ip) as [b|] eqn:E4.
  - split; [intros H; left; exact H|]. intros [H|[H _]]; [exact H|discriminate H].
  - destruct (pton6 ip) as [b|] eqn:E6.
    2:{ split; [discriminate|]. intros [H|[_ [H|[H _]]]]; discriminate H. }
    destruct (bytes_eqb (takeN 12 b) mapped) eqn:M.
    + apply bytes_eqb_eq in M. assert (B : b = mapped ++ dropN 12 b) by (rewrite <- M; symmetry; apply takeN_dropN). split.
      * intros H. inversion H. right. split; [reflexivity|]. left. f_equal. exact B.
      * intros [H|[_ [H|[H NO]]]]; [discriminate H| |].
        -- inversion H. reflexivity.
        -- exfalso. inversion H; subst. apply (NO (dropN 12 a)). exact B.
    + split.
      * intros H. inversion H; subst. right. split; [reflexivity|]. right. split; [reflexivity|]. intros v4 Q. subst a. change (takeN 12 (mapped ++ v4)) with mapped in M. discriminate M.
      * intros [H|[_ [H|[H NO]]]]; [discriminate H| |exact H]. exfalso. inversion H; subst. change (takeN 12 (mapped ++ a)) with mapped in M. discriminate M.
Qed.
Lemma peer_ok : forall ip a, peer_addr pton4 pton6 ip = Some a -> bytes_ok a.
Proof.
  destruct RES as (_ & _ & R4 & R6). intros ip a H. apply peer_spec in H. destruct H as [H|[_ [H|[H _]]]].
  - apply R4 in H. apply H.
  - apply R6 in H. destruct H as [_ H]. apply Forall_app in H. apply H.
  - apply R6 in H. apply H.
Qed.
Lemma source_iff : forall l ip, l <> [] -> ~ In 0 l -> last l 0 <> 44 ->
  (check_source pton4 pton6 l ip = true <-> permitted pton4 pton6 (splits (N.eqb 44) l) ip).
Proof.
  intros l ip NE NUL LAST. unfold check_source. destruct l as [|c t] eqn:E; [congruence|]. rewrite <- E in *. clear E c t.
  assert (S : source_addr_match pton4 pton6 l ip = true <-> permitted pton4 pton6 (splits (N.eqb 44) l) ip).
  { unfold source_addr_match, permitted. destruct (peer_addr pton4 pton6 ip) as [peer|] eqn:P.
    - pose proof (peer_ok _ _ P) as OKP. rewrite (entries_iff peer (List.length l) l false OKP NUL NE LAST (le_n _)). apply peer_spec in P. split.
      + intros [A [B|(e & I1 & a & bits & C & Q1 & Q2)]]; [discriminate B|]. exists peer. split; [exact P|]. split; [exact A|]. exists e, a, bits. split; [exact I1|]. split; [exact C|]. split; assumption.
      + intros (peer' & P' & A & e & a & bits & I1 & C & Q). apply peer_spec in P, P'. rewrite P in P'. inversion P'; subst peer'. split; [exact A|]. right. exists e. split; [exact I1|]. exists a, bits. split; [exact C|exact Q].
    - split; [discriminate|]. intros (peer & A & _). apply peer_spec in A. congruence. }
  destruct ip as [|x ip']; [|exact S]. split; [discriminate|]. intros (peer & A & _). exfalso. destruct RES as (N4 & N6 & _).
  destruct A as [A|[_ [A|[A _]]]]; congruence.
Qed.
End Source.

(* ---- user names ---------------------------------------------------------- *)
Lemma lower_up : forall x y, (lower x =? lower y) = (up_case x =? up_case y).
Proof.
  intros x y. apply eq_true_iff_eq. rewrite !N.eqb_eq. unfold lower, up_case.
  destruct (N.leb_spec 65 x), (N.leb_spec x 90), (N.leb_spec 65 y), (N.leb_spec y 90), (N.leb_spec 97 x), (N.leb_spec x 122), (N.leb_spec 97 y), (N.leb_spec y 122); cbn [andb]; lia.
Qed.
Lemma case_same : forall a b, case_eqb a b = true <-> same_text a b.
Proof.
  unfold same_text. induction a as [|x a IH]; intros [|y b]; cbn [case_eqb map]; try (split; [discriminate|discriminate]); [split; reflexivity|].
  rewrite andb_true_iff, lower_up, N.eqb_eq, IH. split; [intros [-> ->]; reflexivity|]. intros H. inversion H. split; reflexivity.
Qed.
Lemma same_len : forall a b, same_text a b -> lenN a = lenN b.
Proof. intros a b H. unfold same_text in H. apply (f_equal (@List.length N)) in H. rewrite !map_length in H. unfold lenN. congruence. Qed.
Lemma realms_skip : forall l, realms (snd (span realm_sep l)) = realms l.
Proof.
  induction l as [|c t IH]; [reflexivity|]. cbn [span]. destruct (realm_sep c) eqn:R; [|reflexivity].
  destruct (span realm_sep t) as [u v]. cbn [snd] in *. rewrite IH. unfold realms. cbn [splits]. fold (realm_sep c). rewrite R. reflexivity.
Qed.
Lemma realm_iff : forall fuel d l, (List.length l <= fuel)%nat -> (realm_in fuel d l = true <-> exists r, In r (realms l) /\ same_text r d).
Proof.
  induction fuel as [|fuel IH]; intros d l F.
  - destruct l; [|cbn in F; lia]. split; [discriminate|]. intros (r & [] & _).
  - cbn [realm_in]. destruct l as [|c t] eqn:E; [split; [discriminate|intros (r & [] & _)]|]. rewrite <- E in *. clear E c t.
    rewrite <- (realms_skip l). pose proof (span_app realm_sep l) as SA. pose proof (span_snd_hd realm_sep l) as SH. destruct (span realm_sep l) as [u v]. cbn [snd fst] in *.
    unfold realms. rewrite splits_span. change (fun c => negb (existsb (N.eqb c) [32; 9; 13; 10; 44])) with (fun c => negb (realm_sep c)).
    pose proof (span_app (fun c => negb (realm_sep c)) v) as SV. pose proof (span_snd_hd (fun c => negb (realm_sep c)) v) as SW.
    assert (TOK : v <> [] -> fst (span (fun c => negb (realm_sep c)) v) <> []).
    { intros NV. destruct v as [|c v']; [congruence|]. specialize (SH c v' eq_refl). cbn [span]. rewrite SH. cbn [negb]. destruct (span (fun c => negb (realm_sep c)) v'); discriminate. }
    destruct (span (fun c => negb (realm_sep c)) v) as [tok rest]. cbn [fst snd] in *.
    destruct tok as [|x tok].
    + destruct v as [|c v']; [|exfalso; apply TOK; [discriminate|reflexivity]]. assert (rest = []) by (destruct rest; [reflexivity|discriminate SV]). subst rest. cbn [andb filter nonempty].
      assert (Z : realm_in fuel d [] = false) by (destruct fuel; reflexivity). rewrite Z. split; [discriminate|intros (r & [] & _)].
    + cbn [andb]. assert (CMP : (lenN (x :: tok) =? lenN d) && case_eqb (x :: tok) d = true <-> same_text (x :: tok) d).
      { rewrite andb_true_iff, N.eqb_eq, case_same. split; [tauto|]. intros H. split; [apply same_len|]; exact H. }
      cbn [filter nonempty].
      assert (REST : realm_in fuel d rest = true <-> exists r, In r (filter nonempty (match rest with [] => [] | _ :: r => splits (fun c => existsb (N.eqb c) [32; 9; 13; 10; 44]) r end)) /\ same_text r d).
      { rewrite (IH d rest).
        - destruct rest as [|y r]; [split; intros (r & [] & _)|]. unfold realms. cbn [splits]. specialize (SW y r eq_refl). apply negb_false_iff in SW. unfold realm_sep in SW. rewrite SW. reflexivity.
        - rewrite <- SA, app_length, <- SV, app_length in F. cbn [List.length] in F. lia. }
      destruct ((lenN (x :: tok) =? lenN d) && case_eqb (x :: tok) d).
      * split; [intros _|reflexivity]. exists (x :: tok). split; [left; reflexivity|]. apply CMP. reflexivity.
      * rewrite REST. split.
        -- intros (r & I1 & Q). exists r. split; [right; exact I1|exact Q].
        -- intros (r & [<-|I1] & Q); [apply CMP in Q; discriminate Q|]. exists r. split; assumption.
Qed.
Lemma upn_iff : forall usr name allow,
  (match_upn usr name allow = true <->
   exists dom, upn_names name usr dom /\
     forall l, allow = Some l -> l <> [] -> exists d r, dom = Some d /\ In r (realms l) /\ same_text r d).
Proof.
  intros usr name allow. unfold match_upn.
  pose proof (span_app (fun c => negb (c =? 64)) name) as SA. pose proof (span_fst_all (fun c => negb (c =? 64)) name) as SF. pose proof (span_snd_hd (fun c => negb (c =? 64)) name) as SH.
  assert (UNI : forall dom, upn_names name usr dom -> fst (span (fun c => negb (c =? 64)) name) = usr /\ snd (span (fun c => negb (c =? 64)) name) = match dom with None => [] | Some d => 64 :: d end).
  { intros dom [NI ->]. clear SA SF SH. induction usr as [|c t IH].
    - destruct dom; split; reflexivity.
    - assert (C : (c =? 64) = false) by (apply N.eqb_neq; intros ->; apply NI; left; reflexivity).
      assert (NI' : ~ In 64 t) by (intros Q; apply NI; right; exact Q). specialize (IH NI').
      destruct dom as [d|]; cbn [app span] in *; rewrite C; cbn [negb];
      [destruct (span (fun c => negb (c =? 64)) (t ++ 64 :: d))|destruct (span (fun c => negb (c =? 64)) t)]; cbn [fst snd] in *; destruct IH as [-> ->]; split; reflexivity. }
  destruct (span (fun c => negb (c =? 64)) name) as [local rest]. cbn [fst snd] in *.
  assert (NI : ~ In 64 local). { intros Q. rewrite Forall_forall in SF. apply SF in Q. discriminate Q. }
  destruct (bytes_eqb usr local) eqn:B.
  2:{ split; [discriminate|]. intros (dom & U & _). apply UNI in U. destruct U as [U _]. subst local. assert (bytes_eqb usr usr = true) by (apply bytes_eqb_eq; reflexivity). congruence. }
  apply bytes_eqb_eq in B. subst local.
  assert (D : exists dom, upn_names name usr dom /\ rest = match dom with None => [] | Some d => 64 :: d end).
  { destruct rest as [|x d].
    - exists None. split; [|reflexivity]. split; [exact NI|]. rewrite app_nil_r in SA. symmetry. exact SA.
    - assert (X : x = 64). { specialize (SH x d eq_refl). destruct (N.eqb_spec x 64); [assumption|discriminate SH]. } subst x. exists (Some d). split; [|reflexivity]. split; [exact NI|symmetry; exact SA]. }
  destruct D as (dom & U & RD). destruct allow as [[|a l]|].
  - split; [intros _|reflexivity]. exists dom. split; [exact U|]. intros l' Q NE. inversion Q. congruence.
  - set (L := a :: l). subst rest. destruct dom as [d|].
    + rewrite (realm_iff (List.length L) d L (le_n _)). split.
      * intros (r & I1 & Q). exists (Some d). split; [exact U|]. intros l' Q2 _. inversion Q2; subst l'. exists d, r. split; [reflexivity|]. split; assumption.
      * intros (dom & U2 & H). destruct (H L eq_refl ltac:(discriminate)) as (d2 & r & -> & I1 & Q). apply UNI in U2. destruct U2 as [_ U2]. inversion U2; subst d2. exists r. split; assumption.
    + split; [discriminate|]. intros (dom & U2 & H). destruct (H L eq_refl ltac:(discriminate)) as (d2 & r & -> & _). apply UNI in U2. destruct U2 as [_ U2]. discriminate U2.
  - split; [intros _|reflexivity]. exists dom. split; [exact U|]. intros l' Q. discriminate Q.
Qed.
