(* AuthKeys.v - lemmas for C09_key_accepted and C87_key: a good signature of
   any kind gets through the server's checks. *)
From Verif Require Import Base WireModel WireSpec WireProofs NameTable NegoModel NegoSpec NegoProofs AuthModel AuthSpec AuthProofs
  AuthStep AuthProps PathModel ClientAuthModel ClientAuthSpec ClientAuthProofs AuthKeysSpec.
From Coq Require Import List NArith Lia Bool String.
Import ListNotations.
Open Scope N_scope.
Local Notation "a ++ b" := (@app _ a b) : list_scope.

(* ---- reading forward ---------------------------------------------------- *)
Lemma strs3 : forall m a b c, is_strs m [a; b; c] -> bytes_ok m -> is32 (lenN m) ->
  exists k1 k2 k3, GetStr m (lenN m) 0 = POk a k1 /\ GetStr m (lenN m) k1 = POk b k2 /\
    GetStr m (lenN m) k2 = POk c k3 /\ is32 k1 /\ is32 k2.
Proof.
  intros m a b c (ps & E & F) Hm H3.
  inversion F as [|f1 ? ps1 ? F1 G1]; subst ps. inversion G1 as [|f2 ? ps2 ? F2 G2]; subst ps1.
  inversion G2 as [|f3 ? ps3 ? F3 G3]; subst ps2. inversion G3; subst ps3.
  cbn [List.concat] in E. rewrite app_nil_r in E.
  assert (D0 : dropN 0 m = f1 ++ f2 ++ f3) by (rewrite dropN_0; exact E).
  destruct (read_fwd m 0 f1 _ _ Hm H3 D0 ltac:(lia) F1) as (R1 & D1 & L1).
  destruct (read_fwd m _ f2 _ _ Hm H3 D1 L1 F2) as (R2 & D2 & L2).
  rewrite <- (app_nil_r f3) in D2.
  destruct (read_fwd m _ f3 _ _ Hm H3 D2 L2 F3) as (R3 & D3 & L3).
  exists (0 + lenN f1), (0 + lenN f1 + lenN f2), (0 + lenN f1 + lenN f2 + lenN f3).
  split; [exact R1|]. split; [exact R2|]. split; [exact R3|]. unfold is32, W32 in *. lia.
Qed.

Lemma bit7 : forall y, y < 128 -> N.testbit y 7 = false.
Proof.
  intros y H. destruct (N.eq_dec y 0) as [->|N0]; [reflexivity|]. apply N.bits_above_log2. apply N.log2_lt_pow2; [lia|]. exact H.
Qed.

Lemma mpint_fwd : forall m i e j, bytes_ok m -> is32 (lenN m) -> is32 i ->
  GetStr m (lenN m) i = POk e j -> nonneg e ->
  exists o, GetMpint m (lenN m) i = POk o j /\ rdn m (fst o) (snd o) = Some e.
Proof.
  intros m i e j Hm H3 Hi G Hn. rewrite GetMpint_eq by (assumption || lia).
  rewrite GetStr_eq in G by (assumption || lia).
  destruct (N.leb_spec (i + 4) (lenN m)); [|discriminate]. cbv zeta in *.
  destruct (N.leb_spec (i + 4 + be_value (slice m i 4)) (lenN m)); [|discriminate].
  injection G as <- <-.
  assert (X : rdn m (i + 4) (be_value (slice m i 4)) = Some (slice m (i + 4) (be_value (slice m i 4)))) by (apply rdn_some; lia).
  destruct (slice m (i + 4) (be_value (slice m i 4))) as [|y t] eqn:Es.
  - eexists. split; [reflexivity|exact X].
  - cbn in Hn. rewrite (bit7 y Hn). eexists. split; [reflexivity|exact X].
Qed.

Lemma bits_le : forall n, 2 ^ 2047 <= be_value n -> 2048 <= bits n.
Proof.
  intros n H. unfold bits. change (be_val n) with (be_value n).
  pose proof (N.size_gt (be_value n)) as G.
  assert (X : 2 ^ 2047 < 2 ^ N.size (be_value n)) by (eapply N.le_lt_trans; eassumption).
  apply N.pow_lt_mono_r_iff in X; lia.
Qed.

(* ---- identifiers by algorithm -------------------------------------------- *)
Lemma rsa_ids : forall name h, In (name, h) rsa_algos ->
  kind_of (NameToId (ascii name)) = Some KRsa /\ HashForId (NameToId (ascii name)) = h /\ NameToId (ascii name) <> ID_UNKNOWN /\
  0 < lenN (ascii name) < 64.
Proof.
  intros name h H. cbn in H.
  repeat (destruct H as [H|H]; [injection H as <- <-; split; [vm_compute; reflexivity|]; split; [vm_compute; reflexivity|];
    split; [vm_compute; discriminate|]; vm_compute; split; reflexivity|]). destruct H.
Qed.
Lemma ecc_ids : forall name curve bits h, In (name, (curve, bits, h)) ecdsa_algos ->
  kind_of (NameToId (ascii name)) = Some KEcc /\ HashForId (NameToId (ascii name)) = h /\ NameToId (ascii name) <> ID_UNKNOWN /\
  PrimeForId (NameToId (ascii name)) = Some (bits, ascii curve) /\ lenN (ascii name) < 64.
Proof.
  intros name curve bits h H. cbn in H.
  repeat (destruct H as [H|H]; [injection H as <- <- <- <-; split; [vm_compute; reflexivity|]; split; [vm_compute; reflexivity|];
    split; [vm_compute; discriminate|]; split; vm_compute; reflexivity|]). destruct H.
Qed.
Lemma mldsa_ids : forall name, In name mldsa_algos ->
  kind_of (NameToId (ascii name)) = Some KOther /\ NameToId (ascii name) <> ID_UNKNOWN /\ lenN (ascii name) < 64.
Proof.
  intros name H. unfold mldsa_algos in H. cbn [In] in H.
  repeat (destruct H as [H|H]; [subst name; split; [vm_compute; reflexivity|]; split; [vm_compute; discriminate|vm_compute; reflexivity]|]). destruct H.
Qed.

(* the verifier a kind selects *)
Lemma verify_kind : forall x algo blob sig msg,
  VerifyUser x (NameToId algo) algo blob sig msg =
  match kind_of (NameToId algo) with
  | Some KEd => VerifyEd x algo blob sig msg
  | Some KOther => require (v_other x algo blob msg sig) WS_FATAL_OTHER 0
  | Some KRsa => VerifyRsa x (NameToId algo) algo blob sig msg
  | Some KEcc => VerifyEcc x (NameToId algo) algo blob sig msg
  | None => PErr WS_INVALID_ALGO_ID 0
  end.
Proof.
  intros x algo blob sig msg. unfold VerifyUser, kind_of. set (id := NameToId algo).
  destruct ((id =? ID_SSH_RSA) || (id =? ID_RSA_SHA2_256) || (id =? ID_RSA_SHA2_512)) eqn:E1.
  { destruct (N.eqb_spec id ID_ED25519) as [E|_]; [rewrite E in E1; discriminate|].
    destruct (is_mldsa id) eqn:Em; [|reflexivity].
    exfalso. rewrite !orb_true_iff, !N.eqb_eq in E1. destruct E1 as [[E1|E1]|E1]; rewrite E1 in Em; vm_compute in Em; discriminate. }
  destruct ((id =? ID_ECDSA_SHA2_NISTP256) || (id =? ID_ECDSA_SHA2_NISTP384) || (id =? ID_ECDSA_SHA2_NISTP521)) eqn:E2.
  { destruct (N.eqb_spec id ID_ED25519) as [E|_]; [rewrite E in E2; discriminate|].
    destruct (is_mldsa id) eqn:Em; [|reflexivity].
    exfalso. rewrite !orb_true_iff, !N.eqb_eq in E2. destruct E2 as [[E2|E2]|E2]; rewrite E2 in Em; vm_compute in Em; discriminate. }
  destruct (id =? ID_ED25519); [reflexivity|]. destruct (is_mldsa id); reflexivity.
Qed.

Section Fwd.
  Variables (x : crypto) (algo blob sig msg : bytes).
  Hypothesis Hb : bytes_ok blob.
  Hypothesis Hb3 : is32 (lenN blob).
  Hypothesis Hs : bytes_ok sig.
  Hypothesis Hs3 : is32 (lenN sig).

  Lemma two : forall m a b, is_strs m [a; b] -> bytes_ok m -> is32 (lenN m) ->
    exists k j, GetStr m (lenN m) 0 = POk a k /\ GetStr m (lenN m) k = POk b j /\ is32 k.
  Proof using.
    intros m a b S Bm B3. destruct (strs2 m m a b [] (eq_sym (app_nil_r _)) S Bm B3) as (k & j & X1 & X2 & X3 & _).
    exists k, j. auto.
  Qed.

  Lemma VerifyUser_fwd : well_signed x algo blob sig msg ->
    exists k, VerifyUser x (NameToId algo) algo blob sig msg = POk tt k.
  Proof using Hb Hb3 Hs Hs3.
    intros W. rewrite verify_kind. destruct W as [q s Ea Sb Ss Hv|name h e n s Hin Ea Sb Ne Nn Big Ss Hv|name curve bt h q f r s Hin Ea Sb Ss Sf Hv|name q s Hin Ea Sb Ss Hv].
    - replace (kind_of (NameToId algo)) with (Some KEd) by (rewrite Ea; vm_compute; reflexivity).
      destruct (two _ _ _ Sb Hb Hb3) as (k1 & k2 & X1 & X2 & X3). destruct (two _ _ _ Ss Hs Hs3) as (k3 & k4 & Y1 & Y2 & Y3).
      exists k4. unfold VerifyEd. rewrite (GetSized_eq blob 0 Hb Hb3 is32_0), X1. cbn [pbind].
      unfold require at 1. rewrite bytes_eqb_refl. cbn [pbind]. rewrite (GetSized_eq blob k1 Hb Hb3 X3), X2. cbn [pbind].
      rewrite (GetSized_eq sig 0 Hs Hs3 is32_0), Y1. cbn [pbind].
      unfold require at 1. rewrite bytes_eqb_refl. cbn [pbind].
      rewrite (GetSized_eq sig k3 Hs Hs3 Y3), Y2. cbn [pbind]. unfold require. rewrite Hv. reflexivity.
    - destruct (rsa_ids _ _ Hin) as (I1 & I2 & _ & (I4 & _)). rewrite <- Ea in I1, I2, I4. rewrite I1.
      destruct (strs3 _ _ _ _ Sb Hb Hb3) as (k1 & k2 & k3 & X1 & X2 & X3 & X4 & X5).
      destruct (two _ _ _ Ss Hs Hs3) as (k4 & k5 & Y1 & Y2 & Y3).
      destruct (mpint_fwd blob k1 e k2 Hb Hb3 X4 X2 Ne) as (o1 & M1 & M2).
      destruct (mpint_fwd blob k2 n k3 Hb Hb3 X5 X3 Nn) as (o2 & M3 & M4).
      exists k5. unfold VerifyRsa. rewrite X1. cbn [pbind].
      unfold require at 1. replace (bytes_eqb (ascii "ssh-rsa") ssh_rsa_name) with true by (vm_compute; reflexivity). cbn [pbind].
      rewrite M1. cbn [pbind]. rewrite M3. cbn [pbind]. rewrite M2, M4.
      unfold require at 1. replace (RSA_MIN_KEY_BITS <=? bits n) with true
        by (symmetry; apply N.leb_le; apply bits_le; exact Big). cbn [pbind].
      rewrite Y1. cbn [pbind]. unfold require at 1. rewrite bytes_eqb_refl.
      replace (lenN algo =? 0) with false by (symmetry; apply N.eqb_neq; lia). cbn [negb andb pbind].
      rewrite Y2. cbn [pbind]. rewrite I2. unfold require. rewrite Hv. reflexivity.
    - destruct (ecc_ids _ _ _ _ Hin) as (I1 & I2 & _ & I3 & _). rewrite <- Ea in I1, I2, I3. rewrite I1.
      destruct (strs3 _ _ _ _ Sb Hb Hb3) as (k1 & k2 & k3 & X1 & X2 & X3 & X4 & X5).
      pose proof Ss as (ps & Es & F). inversion F as [|f1 ? ps1 ? F1 G1]; subst ps. inversion G1 as [|f2 ? ps2 ? F2 G2]; subst ps1. inversion G2; subst ps2.
      cbn [List.concat] in Es. rewrite app_nil_r in Es. pose proof F2 as (l & Ef2 & Ll & V & Bl).
      assert (D0 : dropN 0 sig = f1 ++ f2) by (rewrite dropN_0; exact Es).
      destruct (read_fwd sig 0 f1 _ _ Hs Hs3 D0 ltac:(lia) F1) as (R1 & D1 & L1). set (j := 0 + lenN f1) in *.
      assert (J : is32 j) by (unfold is32, W32 in *; lia).
      assert (Ld : lenN sig = j + 4 + lenN f).
      { pose proof (f_equal (@lenN N) D1) as Q. rewrite lenN_dropN, Ef2, lenN_app in Q. lia. }
      assert (S4 : slice sig j 4 = l) by (unfold slice; rewrite D1, Ef2; apply takeN_app_exact; lia).
      assert (D4 : dropN (j + 4) sig = f).
      { rewrite <- (dropN_dropN _ 4 j sig), D1, Ef2. apply dropN_app_exact. lia. }
      destruct Sf as (qs & Efq & FF). inversion FF as [|g1 ? qs1 ? A1 B1]; subst qs. inversion B1 as [|g2 ? qs2 ? A2 B2]; subst qs1. inversion B2; subst qs2.
      cbn [List.concat] in Efq. rewrite app_nil_r in Efq. rewrite Efq in D4.
      destruct (read_fwd sig (j + 4) g1 _ _ Hs Hs3 D4 ltac:(lia) A1) as (R2 & D5 & L5).
      rewrite <- (app_nil_r g2) in D5.
      destruct (read_fwd sig _ g2 _ _ Hs Hs3 D5 L5 A2) as (R3 & _ & _).
      eexists. unfold VerifyEcc. rewrite (GetSized_eq blob 0 Hb Hb3 is32_0), X1. cbn [pbind].
      unfold require at 1. rewrite bytes_eqb_refl. cbn [pbind]. cbv zeta. rewrite I3.
      rewrite (GetSized_eq blob k1 Hb Hb3 X4), X2. cbn [pbind]. unfold require at 1. rewrite bytes_eqb_refl. cbn [pbind].
      rewrite (GetSized_eq blob k2 Hb Hb3 X5), X3. cbn [pbind].
      rewrite (GetSized_eq sig 0 Hs Hs3 is32_0), R1. cbn [pbind]. unfold require at 1. rewrite bytes_eqb_refl. cbn [pbind].
      rewrite GetSize_eq by (assumption || lia).
      destruct (N.leb_spec (j + 4) (lenN sig)); [|lia]. cbv zeta. rewrite S4, V.
      destruct (N.leb_spec (j + 4 + lenN f) (lenN sig)); [|lia]. cbn [pbind].
      rewrite R2. cbn [pbind]. rewrite R3. cbn [pbind]. rewrite I2. unfold require. rewrite Hv. reflexivity.
    - destruct (mldsa_ids _ Hin) as (I1 & _ & _). rewrite <- Ea in I1. rewrite I1. unfold require. rewrite Hv. eexists. reflexivity.
  Qed.

  Lemma check_fwd : forall flag, flag <> 0 -> well_signed x algo blob sig msg -> exists k, check_pk flag blob sig = POk tt k.
  Proof using Hb Hb3 Hs Hs3.
    intros flag Hf W.
    assert (B : exists b k, GetStr blob (lenN blob) 0 = POk b k).
    { destruct W as [q s Ea Sb Ss Hv|name h e n s Hin Ea Sb Ne Nn Big Ss Hv|name curve bt h q f r s Hin Ea Sb Ss Sf Hv|name q s Hin Ea Sb Ss Hv].
      - destruct (two _ _ _ Sb Hb Hb3) as (k1 & k2 & X1 & _). eauto.
      - destruct (strs3 _ _ _ _ Sb Hb Hb3) as (k1 & k2 & k3 & X1 & _). eauto.
      - destruct (strs3 _ _ _ _ Sb Hb Hb3) as (k1 & k2 & k3 & X1 & _). eauto.
      - destruct (two _ _ _ Sb Hb Hb3) as (k1 & k2 & X1 & _). eauto. }
    assert (S : exists a b, is_strs sig [a; b]) by (destruct W; eauto).
    destruct B as (b & k & B). destruct S as (a1 & a2 & S). destruct (two _ _ _ S Hs Hs3) as (k3 & k4 & Y1 & Y2 & _).
    exists k4. unfold check_pk. rewrite B. cbn [pbind]. destruct (N.eqb_spec flag 0); [contradiction|].
    rewrite Y1. cbn [pbind]. rewrite Y2. reflexivity.
  Qed.

  Lemma known_algo : well_signed x algo blob sig msg -> NameToId algo <> ID_UNKNOWN.
  Proof using.
    intros W. destruct W as [q s Ea Sb Ss Hv|name h e n s Hin Ea Sb Ne Nn Big Ss Hv|name curve bt h q f r s Hin Ea Sb Ss Sf Hv|name q s Hin Ea Sb Ss Hv]; rewrite Ea.
    - vm_compute. discriminate.
    - apply (rsa_ids _ _ Hin).
    - apply (ecc_ids _ _ _ _ Hin).
    - apply (mldsa_ids _ Hin).
  Qed.
End Fwd.

(* what a key signs verifies under its public key *)
Lemma pair_signed : forall x sg algo priv blob msg sig,
  key_pair x sg algo priv blob -> signs sg algo priv msg sig -> well_signed x algo blob sig msg.
Proof.
  intros x sg algo priv blob msg sig K S.
  assert (E0 : algo = ascii "ssh-ed25519" -> kind_of (NameToId algo) = Some KEd) by (intros ->; vm_compute; reflexivity).
  assert (E1 : forall name h, In (name, h) rsa_algos -> algo = ascii name -> kind_of (NameToId algo) = Some KRsa /\ HashForId (NameToId algo) = h)
    by (intros name h H ->; destruct (rsa_ids _ _ H) as (A & B & _); auto).
  assert (E2 : forall name curve bt h, In (name, (curve, bt, h)) ecdsa_algos -> algo = ascii name ->
    kind_of (NameToId algo) = Some KEcc /\ HashForId (NameToId algo) = h /\ PrimeForId (NameToId algo) = Some (bt, ascii curve))
    by (intros name curve bt h H ->; destruct (ecc_ids _ _ _ _ H) as (A & B & _ & C & _); auto).
  assert (E3 : forall name, In name mldsa_algos -> algo = ascii name -> kind_of (NameToId algo) = Some KOther)
    by (intros name H ->; destruct (mldsa_ids _ H) as (A & _); exact A).
  destruct S as [g Sa G1 G2|name' h' g Sin Nh Sa G1 G2|name' curve' bt' h' r s fr fs f Sin Sa G1 U1 U2 G2 G3|name' g Sin Sa G1 G2].
  - specialize (E0 Sa). destruct K as [q Ka Kb L|name h e n Kin Ka Kb Ne Nn Big L|name curve bt h q Kin Ka Kb L|name q Kin Ka Kb L].
    + exact (ws_ed _ _ _ _ _ q g Sa Kb G2 (L _ _ G1)).
    + destruct (E1 _ _ Kin Ka) as (X & _). congruence.
    + destruct (E2 _ _ _ _ Kin Ka) as (X & _). congruence.
    + pose proof (E3 _ Kin Ka). congruence.
  - destruct (E1 _ _ Sin Sa) as (A & B). destruct K as [q Ka Kb L|name h e n Kin Ka Kb Ne Nn Big L|name curve bt h q Kin Ka Kb L|name q Kin Ka Kb L].
    + specialize (E0 Ka). congruence.
    + destruct (E1 _ _ Kin Ka) as (_ & X). assert (Eh : h' = h) by congruence. rewrite Eh in G1. exact (ws_rsa _ _ _ _ _ _ _ e n g Kin Ka Kb Ne Nn Big G2 (L _ _ G1)).
    + destruct (E2 _ _ _ _ Kin Ka) as (X & _). congruence.
    + pose proof (E3 _ Kin Ka). congruence.
  - destruct (E2 _ _ _ _ Sin Sa) as (A & B & C). destruct K as [q Ka Kb L|name h e n Kin Ka Kb Ne Nn Big L|name curve bt h q Kin Ka Kb L|name q Kin Ka Kb L].
    + specialize (E0 Ka). congruence.
    + destruct (E1 _ _ Kin Ka) as (X & _). congruence.
    + destruct (E2 _ _ _ _ Kin Ka) as (_ & X & Y). assert (Eh : h' = h) by congruence. rewrite Eh in G1. exact (ws_ecc _ _ _ _ _ _ _ _ _ q f fr fs Kin Ka Kb G3 G2 (L _ _ _ _ _ G1 U1 U2)).
    + pose proof (E3 _ Kin Ka). congruence.
  - pose proof (E3 _ Sin Sa) as A. destruct K as [q Ka Kb L|name h e n Kin Ka Kb Ne Nn Big L|name curve bt h q Kin Ka Kb L|name q Kin Ka Kb L].
    + specialize (E0 Ka). congruence.
    + destruct (E1 _ _ Kin Ka) as (X & _). congruence.
    + destruct (E2 _ _ _ _ Kin Ka) as (X & _). congruence.
    + exact (ws_mldsa _ _ _ _ _ _ q g Kin Ka Kb G2 (L _ _ _ G1 G2)).
Qed.

(* ---- sizes ------------------------------------------------------------------ *)
Lemma field_ok : forall f s, is_str f s -> bytes_ok s -> bytes_ok f /\ lenN f = 4 + lenN s.
Proof. intros f s (l & -> & Ll & _ & B) H. split; [apply bytes_ok_app; split; assumption|rewrite lenN_app; lia]. Qed.
Lemma fields_ok : forall f a b, is_strs f [a; b] -> bytes_ok a -> bytes_ok b -> bytes_ok f /\ lenN f = 8 + lenN a + lenN b.
Proof.
  intros f a b (ps & -> & F) Ha Hb. inversion F as [|f1 ? ps1 ? F1 G1]; subst. inversion G1 as [|f2 ? ps2 ? F2 G2]; subst. inversion G2; subst.
  cbn [List.concat]. rewrite app_nil_r. destruct (field_ok _ _ F1 Ha) as (A1 & A2). destruct (field_ok _ _ F2 Hb) as (B1 & B2).
  split; [apply bytes_ok_app; split; assumption|rewrite lenN_app; lia].
Qed.
Lemma ascii_ok : forall s, bytes_ok (ascii s).
Proof.
  induction s as [|c s IH]; cbn [ascii]; [constructor|]. constructor; [|exact IH]. apply Ascii.N_ascii_bounded.
Qed.
Lemma unsigned_small : forall r f, unsigned r f -> small r -> bytes_ok f /\ lenN f <= lenN r + 1.
Proof.
  intros r f ([-> | ->] & _) (H & _).
  - split; [exact H|lia].
  - split; [constructor; [unfold byte_ok; lia|exact H]|]. unfold lenN. cbn [List.length]. lia.
Qed.
Lemma signs_small : forall sg algo priv msg sig, small_signer sg -> signs sg algo priv msg sig ->
  bytes_ok algo /\ lenN algo < 64 /\ bytes_ok sig /\ lenN sig < 600000000.
Proof.
  intros sg algo priv msg sig (S1 & S2 & S3 & S4) S. unfold small in S1, S2, S3, S4. change (2 ^ 28) with 268435456 in *.
  destruct S as [g Sa G1 G2|name h g Sin Nh Sa G1 G2|name curve bt h r s fr fs f Sin Sa G1 U1 U2 G2 G3|name g Sin Sa G1 G2].
  - apply S3 in G1. destruct G1 as (B & L). assert (La : lenN algo < 64) by (rewrite Sa; vm_compute; reflexivity).
    assert (Oa : bytes_ok algo) by (rewrite Sa; apply ascii_ok). destruct (fields_ok _ _ _ G2 Oa B) as (X & Y).
    split; [exact Oa|]. split; [exact La|]. split; [exact X|lia].
  - apply S1 in G1. destruct G1 as (B & L). destruct (rsa_ids _ _ Sin) as (_ & _ & _ & (_ & La)). rewrite <- Sa in La.
    assert (Oa : bytes_ok algo) by (rewrite Sa; apply ascii_ok). destruct (fields_ok _ _ _ G2 Oa B) as (X & Y).
    split; [exact Oa|]. split; [exact La|]. split; [exact X|lia].
  - apply S2 in G1. destruct G1 as (B & B'). destruct (ecc_ids _ _ _ _ Sin) as (_ & _ & _ & _ & La). rewrite <- Sa in La.
    assert (Oa : bytes_ok algo) by (rewrite Sa; apply ascii_ok).
    destruct (unsigned_small _ _ U1 B) as (C1 & C2). destruct (unsigned_small _ _ U2 B') as (C3 & C4).
    destruct (fields_ok _ _ _ G2 C1 C3) as (D1 & D2). destruct (fields_ok _ _ _ G3 Oa D1) as (X & Y).
    destruct B as (_ & B). destruct B' as (_ & B').
    split; [exact Oa|]. split; [exact La|]. split; [exact X|lia].
  - apply S4 in G1. destruct G1 as (B & L). destruct (mldsa_ids _ Sin) as (_ & _ & La). rewrite <- Sa in La.
    assert (Oa : bytes_ok algo) by (rewrite Sa; apply ascii_ok). destruct (fields_ok _ _ _ G2 Oa B) as (X & Y).
    split; [exact Oa|]. split; [exact La|]. split; [exact X|lia].
Qed.

(* ---- the client's choice and signature succeed --------------------------------- *)
Lemma first_uniq : forall (b : list bytes) x a b' y a', b ++ x :: a = b' ++ y :: a' -> x = y \/ In x b' \/ In y b.
Proof.
  induction b as [|z b IH]; intros x a b' y a' E; destruct b' as [|z' b']; cbn in E.
  - injection E as -> _. auto.
  - injection E as -> _. right. left. left. reflexivity.
  - injection E as -> _. right. right. left. reflexivity.
  - injection E as -> E. destruct (IH _ _ _ _ _ E) as [H|[H|H]]; [auto|right; left; right; exact H|right; right; right; exact H].
Qed.
Lemma fit_uniq : forall ns key x y, first_fit ns key x -> first_fit ns key y -> x = y.
Proof.
  intros ns key x y (b & a & E & F & N0) (b' & a' & E' & F' & N0'). rewrite E in E'.
  destruct (first_uniq _ _ _ _ _ _ E') as [H|[H|H]]; [exact H|exfalso; exact (N0' _ H F)|exfalso; exact (N0 _ H F')].
Qed.

Lemma usable_row : forall sg algo priv, usable sg algo priv -> exists name kd, In (name, kd) sig_table /\ algo = ascii name /\ kind_of (NameToId algo) = Some kd.
Proof.
  intros sg algo priv [z Ea _ _|name h z Hin Ea _ _|name curve bt h z Hin Ea _ _|name z Hin Ea _ _].
  - exists "ssh-ed25519"%string, KEd. split; [cbn; tauto|]. split; [exact Ea|]. rewrite Ea. vm_compute. reflexivity.
  - exists name, KRsa. destruct (rsa_ids _ _ Hin) as (K & _). rewrite Ea. split; [|split; [reflexivity|exact K]].
    cbn in Hin. repeat (destruct Hin as [H|Hin]; [injection H as <- _; cbn; tauto|]). destruct Hin.
  - exists name, KEcc. destruct (ecc_ids _ _ _ _ Hin) as (K & _). rewrite Ea. split; [|split; [reflexivity|exact K]].
    cbn in Hin. repeat (destruct Hin as [H|Hin]; [injection H as <- _ _ _; cbn; tauto|]). destruct Hin.
  - exists name, KOther. destruct (mldsa_ids _ Hin) as (K & _). rewrite Ea. split; [|split; [reflexivity|exact K]].
    unfold mldsa_algos in Hin. cbn [In] in Hin. repeat (destruct Hin as [H|Hin]; [subst name; cbn; tauto|]). destruct Hin.
Qed.

Lemma match_some : forall ns key algo, In algo ns -> knownb algo = true -> NameToId algo <> ID_UNKNOWN -> algo_fits key algo ->
  match_ids (decoded ns) (algos_for (NameToId key)) <> ID_UNKNOWN.
Proof.
  intros ns key algo Hin Hk Hu Hf E.
  destruct (match_ids_spec (decoded ns) (algos_for (NameToId key))) as [(b & a & _ & I1 & _)|(Hno & _)].
  - rewrite E in I1. unfold algos_for in I1. destruct (N.eqb_spec (NameToId key) ID_SSH_RSA) as [R|R].
    + vm_compute in I1. destruct I1 as [I1|[I1|[]]]; discriminate.
    + destruct I1 as [I1|[]]. destruct Hf as [(-> & _)|(_ & ->)]; [apply R; vm_compute; reflexivity|contradiction].
  - apply (Hno (NameToId algo)); [apply decoded_has; assumption|apply fits_ids; exact Hf].
Qed.

Lemma prepare_fwd : forall sg ns sz k algo, usable sg algo (pk_priv k) -> first_fit ns (pk_type k) algo ->
  (forall name h, In (name, h) rsa_algos -> algo = ascii name -> pk_type k = ascii "ssh-rsa") ->
  exists ks, PrepareKey sg (decoded ns) sz k = ROk ks /\ ks_id ks = NameToId algo /\
    forall msg, exists f, BuildSignature sg k ks msg = ROk f.
Proof.
  intros sg ns sz k algo U FF Ht.
  destruct (usable_row _ _ _ U) as (name & kd & Row & Ea & Hk). destruct (row_facts _ _ Row) as (R1 & R2 & R3 & R4).
  rewrite <- Ea in R1, R2, R3, R4.
  assert (Hkn : knownb algo = true) by (unfold knownb; destruct (N.eqb_spec (NameToId algo) ID_UNKNOWN); [contradiction|reflexivity]).
  pose proof FF as (b & a & En & Fit & First).
  assert (Hin : In algo ns) by (rewrite En; apply in_app_iff; right; left; reflexivity).
  pose proof (match_some ns (pk_type k) algo Hin Hkn R3 Fit) as NU.
  (* once it succeeds, the algorithm is ours *)
  assert (Same : forall ks, PrepareKey sg (decoded ns) sz k = ROk ks -> ks_id ks = NameToId algo).
  { intros ks Ep. destruct (prepare_key _ _ _ _ _ Ep) as (name' & kd' & n & _ & _ & Ei & FF' & _).
    rewrite Ei. f_equal. exact (fit_uniq _ _ _ _ FF' FF). }
  assert (Go : exists ks, PrepareKey sg (decoded ns) sz k = ROk ks /\
     (kd = KRsa -> s_rsa_size sg (pk_priv k) = Some (ks_sz ks))).
  { unfold PrepareKey, MatchIdLists. cbv zeta.
    destruct (N.eqb_spec (match_ids (decoded ns) (algos_for (NameToId (pk_type k)))) ID_UNKNOWN) as [E|_]; [contradiction|].
    destruct U as [z Ua Uz _|nu h z Uin Ua Uz _|nu curve bt h z Uin Ua Uz _|nu z Uin Ua Uz _].
    - assert (Kd : kd = KEd) by (rewrite Ua in Hk; vm_compute in Hk; congruence). subst kd.
      assert (Et : pk_type k = algo).
      { destruct Fit as [(_ & [X|X])|(_ & X)]; [| |symmetry; exact X]; rewrite Ua in X; vm_compute in X; discriminate. }
      rewrite Et. destruct (N.eqb_spec (NameToId algo) ID_SSH_RSA) as [E|_]; [rewrite E in Hk; vm_compute in Hk; discriminate|].
      destruct ((NameToId algo =? ID_RSA_SHA2_256) || (NameToId algo =? ID_RSA_SHA2_512)) eqn:E2.
      { exfalso. rewrite orb_true_iff, !N.eqb_eq in E2. destruct E2 as [E2|E2]; rewrite E2 in Hk; vm_compute in Hk; discriminate. }
      rewrite Hk, Uz. eexists. split; [reflexivity|discriminate].
    - rewrite (Ht _ _ Uin Ua). replace (NameToId (ascii "ssh-rsa") =? ID_SSH_RSA) with true by (vm_compute; reflexivity).
      rewrite Uz. eexists. split; [reflexivity|]. intros _. reflexivity.
    - assert (Kd : kd = KEcc) by (destruct (ecc_ids _ _ _ _ Uin) as (X & _); rewrite <- Ua in X; congruence). subst kd.
      assert (Et : pk_type k = algo).
      { destruct Fit as [(_ & [X|X])|(_ & X)]; [| |symmetry; exact X]; rewrite X in Hk; vm_compute in Hk; discriminate. }
      rewrite Et. destruct (N.eqb_spec (NameToId algo) ID_SSH_RSA) as [E|_]; [rewrite E in Hk; vm_compute in Hk; discriminate|].
      destruct ((NameToId algo =? ID_RSA_SHA2_256) || (NameToId algo =? ID_RSA_SHA2_512)) eqn:E2.
      { exfalso. rewrite orb_true_iff, !N.eqb_eq in E2. destruct E2 as [E2|E2]; rewrite E2 in Hk; vm_compute in Hk; discriminate. }
      rewrite Hk, Uz. eexists. split; [reflexivity|discriminate].
    - assert (Kd : kd = KOther) by (destruct (mldsa_ids _ Uin) as (X & _); rewrite <- Ua in X; congruence). subst kd.
      assert (Et : pk_type k = algo).
      { destruct Fit as [(_ & [X|X])|(_ & X)]; [| |symmetry; exact X]; rewrite X in Hk; vm_compute in Hk; discriminate. }
      rewrite Et. destruct (N.eqb_spec (NameToId algo) ID_SSH_RSA) as [E|_]; [rewrite E in Hk; vm_compute in Hk; discriminate|].
      destruct ((NameToId algo =? ID_RSA_SHA2_256) || (NameToId algo =? ID_RSA_SHA2_512)) eqn:E2.
      { exfalso. rewrite orb_true_iff, !N.eqb_eq in E2. destruct E2 as [E2|E2]; rewrite E2 in Hk; vm_compute in Hk; discriminate. }
      rewrite Hk, R2, Uz. eexists. split; [reflexivity|discriminate]. }
  destruct Go as (ks & Ep & Ez). exists ks. split; [exact Ep|]. pose proof (Same _ Ep) as Ei. split; [exact Ei|].
  intros msg. unfold BuildSignature. rewrite Ei, Hk.
  destruct U as [z Ua Uz Us|nu h z Uin Ua Uz Us|nu curve bt h z Uin Ua Uz Us|nu z Uin Ua Uz Us].
  - assert (Kd : kd = KEd) by (rewrite Ua in Hk; vm_compute in Hk; congruence). subst kd.
    destruct (Us msg) as (g & ->). eexists. reflexivity.
  - destruct (rsa_ids _ _ Uin) as (X & Y & _). rewrite <- Ua in X, Y.
    assert (Kd : kd = KRsa) by congruence. subst kd. rewrite Y. destruct (Us msg) as (g & -> & Lg).
    specialize (Ez eq_refl). rewrite Uz in Ez. injection Ez as <-. rewrite Lg, N.eqb_refl. eexists. reflexivity.
  - destruct (ecc_ids _ _ _ _ Uin) as (X & Y & _). rewrite <- Ua in X, Y.
    assert (Kd : kd = KEcc) by congruence. subst kd. rewrite Y. destruct (Us msg) as (r & s & ->). eexists. reflexivity.
  - destruct (mldsa_ids _ Uin) as (X & _). rewrite <- Ua in X.
    assert (Kd : kd = KOther) by congruence. subst kd. rewrite R2. destruct (Us msg) as (g & ->). eexists. reflexivity.
Qed.
