(* OsshProofs2.v - the authority's signature, options, and the whole check of a
   certificate. *)
From Verif Require Import Base WireModel WireSpec WireProofs NameTable NegoModel NegoSpec NegoProofs AuthModel AuthSpec AuthProofs AuthStep AuthProps OsshModel OsshSpec OsshProofs.
From Coq Require Import List NArith Lia Bool String.
Import ListNotations.
Open Scope N_scope.
Local Notation "a ++ b" := (@app _ a b) : list_scope.

(* ---- reading is unambiguous -------------------------------------------------- *)
Lemma be32_inj : forall a b, a < W32 -> b < W32 -> be32 a = be32 b -> a = b.
Proof.
  intros a b A B H. rewrite !be32_c32toa in H.
  rewrite <- (be_value_c32toa a A), <- (be_value_c32toa b B), H. reflexivity.
Qed.
Lemma app_inj_len : forall (a b r s : bytes), lenN a = lenN b -> a ++ r = b ++ s -> a = b /\ r = s.
Proof.
  intros a b r s L H. pose proof (f_equal (takeN (lenN a)) H) as P. pose proof (f_equal (dropN (lenN a)) H) as Q.
  rewrite takeN_app_exact in P by reflexivity. rewrite L, takeN_app_exact in P by reflexivity.
  rewrite dropN_app_exact in Q by reflexivity. rewrite L, dropN_app_exact in Q by reflexivity. auto.
Qed.
Lemma str_inj : forall a b r s, is32 (lenN a) -> is32 (lenN b) -> str a ++ r = str b ++ s -> a = b /\ r = s.
Proof.
  intros a b r s A B H. unfold str in H. rewrite <- !app_assoc in H.
  apply app_inj_len in H; [|rewrite !lenN_be32; reflexivity]. destruct H as (H & H2). apply be32_inj in H; [|assumption|assumption].
  apply app_inj_len in H2; assumption.
Qed.
Lemma be32_app_inj : forall a b r s, a < W32 -> b < W32 -> be32 a ++ r = be32 b ++ s -> a = b /\ r = s.
Proof.
  intros a b r s A B H. apply app_inj_len in H; [|rewrite !lenN_be32; reflexivity]. destruct H as (H & H2).
  apply be32_inj in H; auto.
Qed.
Lemma be64_app_inj : forall a b r s, a < W32 * W32 -> b < W32 * W32 -> be64 a ++ r = be64 b ++ s -> a = b /\ r = s.
Proof.
  intros a b r s A B H. unfold be64 in H. rewrite <- !app_assoc in H.
  assert (W : W32 <> 0) by (unfold W32; lia).
  apply be32_app_inj in H; try (apply N.div_lt_upper_bound; assumption). destruct H as (H & H2).
  apply be32_app_inj in H2; try (apply N.mod_lt; assumption). destruct H2 as (H2 & H3). split; [|exact H3].
  rewrite (N.div_mod a W32 W), (N.div_mod b W32 W), H, H2. reflexivity.
Qed.

(* ---- names ------------------------------------------------------------------- *)
Definition plain_names : list string := app key_types ["nistp256"; "nistp384"; "nistp521"; "rsa-sha2-256"; "rsa-sha2-512"]%string.
Lemma plain_table : forallb (fun a => negb (NameToId (ascii a) =? ID_UNKNOWN) &&
   forallb (fun r => negb (fst (fst r) =? NameToId (ascii a)) || bytes_eqb (snd r) (ascii a)) NameIdMap) plain_names = true.
Proof. vm_compute. reflexivity. Qed.
Lemma plain_name : forall a n, In a plain_names -> (NameToId n = NameToId (ascii a) <-> n = ascii a).
Proof.
  intros a n I. split; [|intros ->; reflexivity]. intros E.
  pose proof plain_table as T. rewrite forallb_forall in T. specialize (T _ I). apply andb_prop in T. destruct T as (T1 & T).
  apply name_of_id in E; [|intros Q; rewrite Q in T1; discriminate].
  rewrite forallb_forall in T. apply in_map_iff in E. destruct E as (r & <- & J). apply filter_In in J. destruct J as (J & K).
  specialize (T _ J). rewrite K in T. cbn [negb orb] in T. apply bytes_eqb_eq. exact T.
Qed.
Lemma plain_eqb : forall a n, In a plain_names -> (NameToId n =? NameToId (ascii a)) = true <-> n = ascii a.
Proof. intros a n I. rewrite N.eqb_eq. apply plain_name. exact I. Qed.

(* ---- the authority's signature -------------------------------------------------- *)
Section V.
Variables (ca sg : bytes).
Hypothesis Bca : bytes_ok ca.
Hypothesis Lca : is32 (lenN ca).
Hypothesis Bsg : bytes_ok sg.
Hypothesis Lsg : is32 (lenN sg).

Variables (x : ca_crypto) (k : cert) (catype rest : bytes).
Hypothesis Ek : k_ca k = ca /\ k_sig k = sg /\ k_catype k = catype.
Hypothesis Eca : ca = str catype ++ rest.

Lemma type_end : at_ ca 0 (str catype) (add32 (lenN catype) 4) /\ is32 (lenN catype).
Proof.
  assert (A : at_ ca 0 (str catype) (0 + lenN (str catype))).
  { apply (at_of ca 0 (str catype) rest); [rewrite dropN_0; exact Eca|lia]. }
  pose proof (at_le _ _ _ _ A) as (L & _). rewrite lenN_str in *.
  rewrite add32_small by (unfold is32, W32 in *; lia).
  replace (lenN catype + 4) with (0 + (4 + lenN catype)) by lia. split; [exact A|]. unfold is32, W32 in *. lia.
Qed.

Lemma at_whole : forall (m f r : bytes), m = f ++ r -> at_ m 0 f (lenN f).
Proof. intros m f r E. apply (at_of m 0 f r); [rewrite dropN_0; exact E|lia]. Qed.
Lemma whole_at : forall (m f : bytes) j, at_ m 0 f j -> m = f ++ dropN j m.
Proof. intros m f j (D & _). rewrite dropN_0 in D. exact D. Qed.

Lemma ed_iff : catype = ascii "ssh-ed25519" ->
  ((exists u j, OsshVerifyEd25519 x k = POk u j) <->
   exists q t s r1 r2, ca = strs [catype; q] ++ r1 /\ sg = strs [t; s] ++ r2 /\ ca_ed x q (k_signed k) s = true).
Proof.
  intros Et. destruct type_end as (A0 & T3). destruct Ek as (E1 & E2 & E3). unfold OsshVerifyEd25519. rewrite E1, E2, E3.
  pose proof (at_le _ _ _ _ A0) as (L0 & _). set (i0 := add32 _ _) in *. clearbody i0. split.
  - intros (u & j & P). apply pbind_ok in P. destruct P as (q & i1 & A1 & P). apply GetStr_iff in A1; try assumption.
    apply pbind_ok in P. destruct P as (u2 & i2 & A2 & P). apply Skip_iff in A2; try assumption; [|lia]. destruct A2 as (t & A2).
    pose proof (at_le _ _ _ _ A2) as (L2 & _).
    apply pbind_ok in P. destruct P as (s & i3 & A3 & P). apply GetStr_iff in A3; try assumption. apply require_pos in P. destruct P as (P & _).
    exists q, t, s, (dropN i1 ca), (dropN i3 sg). rewrite !strs_2. split; [|split; [|exact P]].
    + apply whole_at. eapply at_app; eassumption.
    + apply whole_at. eapply at_app; eassumption.
  - intros (q & t & s & r1 & r2 & C & S & P). rewrite strs_2 in C, S.
    apply at_whole in C. apply at_inv in C. destruct C as (C0 & C1). rewrite <- (at_fun _ _ _ _ _ A0 C0) in C1.
    apply at_whole in S. apply at_inv in S. destruct S as (S0 & S1). pose proof (at_le _ _ _ _ S0) as (LS & _).
    exists tt. eexists. rewrite (GetStr_str ca Bca Lca _ _ _ L0 C1). cbn [pbind].
    rewrite (proj2 (Skip_iff sg Bsg Lsg 0 _ tt (N.le_0_l _)) (ex_intro _ t S0)). cbn [pbind].
    rewrite (GetStr_str sg Bsg Lsg _ _ _ LS S1). cbn [pbind]. rewrite P. reflexivity.
Qed.

Lemma strs_3 : forall a b c, strs [a; b; c] = str a ++ str b ++ str c.
Proof. intros a b c. rewrite strs_cons, strs_2. reflexivity. Qed.

Lemma rsa_iff : ((exists u j, OsshVerifyRsa x k = POk u j) <->
   exists name h e n s r1 r2, In (name, h) [("rsa-sha2-256", SHA256); ("rsa-sha2-512", SHA512)]%string /\
     ca = strs [catype; e; n] ++ r1 /\ not_negative e /\ not_negative n /\ sg = strs [ascii name; s] ++ r2 /\
     ca_rsa x h n e (k_signed k) s = true).
Proof.
  destruct type_end as (A0 & T3). destruct Ek as (E1 & E2 & E3). unfold OsshVerifyRsa. rewrite E1, E2, E3.
  pose proof (at_le _ _ _ _ A0) as (L0 & _). set (i0 := add32 _ _) in *. clearbody i0. split.
  - intros (u & j & P). apply pbind_ok in P. destruct P as (e & i1 & A1 & P). apply GetMp_iff in A1; try assumption. destruct A1 as (A1 & N1).
    pose proof (at_le _ _ _ _ A1) as (L1 & _).
    apply pbind_ok in P. destruct P as (n & i2 & A2 & P). apply GetMp_iff in A2; try assumption. destruct A2 as (A2 & N2).
    apply pbind_ok in P. destruct P as (t & i3 & A3 & P). apply GetStr_iff in A3; try assumption; [|lia]. pose proof (at_le _ _ _ _ A3) as (L3 & _).
    apply pbind_ok in P. destruct P as (s & i4 & A4 & P). apply GetStr_iff in A4; try assumption.
    assert (Q : exists name h, In (name, h) [("rsa-sha2-256", SHA256); ("rsa-sha2-512", SHA512)]%string /\ t = ascii name /\ ca_rsa x h n e (k_signed k) s = true).
    { destruct (bytes_eqb t (ascii "rsa-sha2-256")) eqn:Q1.
      - apply bytes_eqb_eq in Q1. apply require_pos in P. exists "rsa-sha2-256"%string, SHA256. cbn [In]. tauto.
      - destruct (bytes_eqb t (ascii "rsa-sha2-512")) eqn:Q2; [|discriminate].
        apply bytes_eqb_eq in Q2. apply require_pos in P. exists "rsa-sha2-512"%string, SHA512. cbn [In]. tauto. }
    destruct Q as (name & h & I & -> & Q).
    exists name, h, e, n, s, (dropN i2 ca), (dropN i4 sg). rewrite strs_3, strs_2. split; [exact I|]. split; [|split; [exact N1|split; [exact N2|split; [|exact Q]]]].
    + apply whole_at. eapply at_app; [eassumption|]. eapply at_app; eassumption.
    + apply whole_at. eapply at_app; eassumption.
  - intros (name & h & e & n & s & r1 & r2 & I & C & N1 & N2 & S & P). rewrite strs_3 in C. rewrite strs_2 in S.
    apply at_whole in C. apply at_inv in C. destruct C as (C0 & C). rewrite <- (at_fun _ _ _ _ _ A0 C0) in C.
    apply at_inv in C. destruct C as (C1 & C2). pose proof (at_le _ _ _ _ C1) as (L1 & _).
    apply at_whole in S. apply at_inv in S. destruct S as (S0 & S1). pose proof (at_le _ _ _ _ S0) as (LS & _).
    exists tt. eexists. rewrite (proj2 (GetMp_iff ca Bca Lca _ _ _ L0) (conj C1 N1)). cbn [pbind].
    rewrite (proj2 (GetMp_iff ca Bca Lca _ _ _ L1) (conj C2 N2)). cbn [pbind].
    rewrite (GetStr_str sg Bsg Lsg _ _ _ (N.le_0_l _) S0). cbn [pbind].
    rewrite (GetStr_str sg Bsg Lsg _ _ _ LS S1). cbn [pbind].
    cbn [In] in I. destruct I as [I|[I|[]]]; injection I as <- <-.
    + change (bytes_eqb (ascii "rsa-sha2-256") (ascii "rsa-sha2-256")) with true. cbv iota. rewrite P. reflexivity.
    + change (bytes_eqb (ascii "rsa-sha2-512") (ascii "rsa-sha2-256")) with false.
      change (bytes_eqb (ascii "rsa-sha2-512") (ascii "rsa-sha2-512")) with true. cbv iota. rewrite P. reflexivity.
Qed.

Lemma ecc_iff : forall name curve bits h, In (name, (curve, bits, h)) ecdsa_algos -> catype = ascii name ->
  ((exists u j, OsshVerifyEcc x k = POk u j) <->
   exists q t r s r1 r2 r3, ca = strs [catype; ascii curve; q] ++ r1 /\ sg = strs [t; strs [r; s] ++ r3] ++ r2 /\
     not_negative r /\ not_negative s /\ ca_ecc x h q (k_signed k) r s = true).
Proof.
  intros name curve bits h I Et. destruct type_end as (A0 & T3). destruct Ek as (E1 & E2 & E3). unfold OsshVerifyEcc. rewrite E1, E2, E3.
  pose proof (at_le _ _ _ _ A0) as (L0 & _). set (i0 := add32 _ _) in *. clearbody i0.
  assert (Cv : exists cid, ca_curve (NameToId catype) = Some (h, cid) /\ forall n, (NameToId n =? cid) = true <-> n = ascii curve).
  { subst catype. cbn [In ecdsa_algos] in I. destruct I as [I|[I|[I|[]]]]; injection I as <- <- <- <-.
    - exists ID_CURVE_NISTP256. split; [vm_compute; reflexivity|]. intros n. apply (plain_eqb "nistp256"). cbn. tauto.
    - exists ID_CURVE_NISTP384. split; [vm_compute; reflexivity|]. intros n. apply (plain_eqb "nistp384"). cbn. tauto.
    - exists ID_CURVE_NISTP521. split; [vm_compute; reflexivity|]. intros n. apply (plain_eqb "nistp521"). cbn. tauto. }
  destruct Cv as (cid & -> & Cv). split.
  - intros (u & j & P). apply pbind_ok in P. destruct P as (cn & i1 & A1 & P). apply GetStr_iff in A1; try assumption.
    pose proof (at_le _ _ _ _ A1) as (L1 & _).
    apply pbind_ok in P. destruct P as (u1 & i1' & Q & P). apply require_pos in Q. destruct Q as (Q & ->). apply Cv in Q. subst cn.
    apply pbind_ok in P. destruct P as (q & i2 & A2 & P). apply GetStr_iff in A2; try assumption.
    apply pbind_ok in P. destruct P as (u2 & i3 & A3 & P). apply Skip_iff in A3; try assumption; [|lia]. destruct A3 as (t & A3).
    pose proof (at_le _ _ _ _ A3) as (L3 & _).
    apply pbind_ok in P. destruct P as (b & i4 & A4 & P). apply GetStr_iff in A4; try assumption.
    destruct (at_str_ok sg Bsg Lsg _ _ _ A4) as (Bb & Lb & _).
    apply pbind_ok in P. destruct P as (r & i5 & A5 & P). apply GetMp_iff in A5; try assumption; [|lia]. destruct A5 as (A5 & N5).
    pose proof (at_le _ _ _ _ A5) as (L5 & _).
    apply pbind_ok in P. destruct P as (s & i6 & A6 & P). apply GetMp_iff in A6; try assumption. destruct A6 as (A6 & N6).
    apply require_pos in P. destruct P as (P & _).
    exists q, t, r, s, (dropN i2 ca), (dropN i4 sg), (dropN i6 b). split; [|split; [|split; [exact N5|split; [exact N6|exact P]]]].
    + rewrite strs_3. apply whole_at. eapply at_app; [eassumption|]. eapply at_app; eassumption.
    + rewrite (strs_2 r s), <- (whole_at b (str r ++ str s) i6) by (eapply at_app; eassumption).
      rewrite strs_2. apply whole_at. eapply at_app; eassumption.
  - intros (q & t & r & s & r1 & r2 & r3 & C & S & N5 & N6 & P). rewrite strs_3 in C. rewrite strs_2 in S.
    set (b := strs [r; s] ++ r3) in *. assert (Eb : b = strs [r; s] ++ r3) by reflexivity. clearbody b.
    apply at_whole in C. apply at_inv in C. destruct C as (C0 & C). rewrite <- (at_fun _ _ _ _ _ A0 C0) in C.
    apply at_inv in C. destruct C as (C1 & C2). pose proof (at_le _ _ _ _ C1) as (L1 & _).
    apply at_whole in S. apply at_inv in S. destruct S as (S0 & S1). pose proof (at_le _ _ _ _ S0) as (LS & _).
    destruct (at_str_ok sg Bsg Lsg _ _ _ S1) as (Bb & Lb & _).
    rewrite strs_2 in Eb. apply at_whole in Eb. apply at_inv in Eb. destruct Eb as (B0 & B1). pose proof (at_le _ _ _ _ B0) as (LB & _).
    exists tt. eexists. rewrite (GetStr_str ca Bca Lca _ _ _ L0 C1). cbn [pbind].
    rewrite (proj2 (Cv _) eq_refl). unfold require at 1. cbn [pbind].
    rewrite (GetStr_str ca Bca Lca _ _ _ L1 C2). cbn [pbind].
    rewrite (proj2 (Skip_iff sg Bsg Lsg 0 _ tt (N.le_0_l _)) (ex_intro _ t S0)). cbn [pbind].
    rewrite (GetStr_str sg Bsg Lsg _ _ _ LS S1). cbn [pbind].
    rewrite (proj2 (GetMp_iff b Bb Lb _ _ _ (N.le_0_l _)) (conj B0 N5)). cbn [pbind].
    rewrite (proj2 (GetMp_iff b Bb Lb _ _ _ LB) (conj B1 N6)). cbn [pbind].
    rewrite P. reflexivity.
Qed.

(* the type of the authority's key *)
Lemma vouch_type : forall type l r, ca = strs (ascii type :: l) ++ r -> In type key_types -> catype = ascii type.
Proof.
  intros type l r E I. rewrite strs_cons, <- app_assoc, Eca in E. destruct type_end as (_ & T3).
  apply str_inj in E; [tauto|exact T3|]. cbn [In key_types] in I.
  destruct I as [<- |[<- |[<- |[<- |[<- |[]]]]]]; vm_compute; reflexivity.
Qed.

Definition ca_type_ok (c : bytes) : bool :=
  (NameToId c =? ID_SSH_RSA) || is_ecdsa (NameToId c) || (NameToId c =? ID_ED25519).

Lemma ca_type_in : ca_type_ok catype = true <-> exists type, In type key_types /\ catype = ascii type.
Proof.
  unfold ca_type_ok, is_ecdsa. rewrite !orb_true_iff.
  change ID_SSH_RSA with (NameToId (ascii "ssh-rsa")).
  change ID_ECDSA_SHA2_NISTP256 with (NameToId (ascii "ecdsa-sha2-nistp256")).
  change ID_ECDSA_SHA2_NISTP384 with (NameToId (ascii "ecdsa-sha2-nistp384")).
  change ID_ECDSA_SHA2_NISTP521 with (NameToId (ascii "ecdsa-sha2-nistp521")).
  change ID_ED25519 with (NameToId (ascii "ssh-ed25519")).
  rewrite !plain_eqb by (cbn; tauto). split.
  - intros [[H|[[H|H]|H]]|H]; eexists; (split; [|exact H]); cbn; tauto.
  - intros (t & I & ->). cbn [In key_types] in I. destruct I as [<- |[<- |[<- |[<- |[<- |[]]]]]]; tauto.
Qed.

Lemma verify_iff : ca_type_ok catype = true ->
  ((exists u j, OsshCertVerifySignature x k = POk u j) <-> vouches x ca sg (k_signed k)).
Proof.
  intros T. apply ca_type_in in T. destruct T as (type & I & Et).
  unfold OsshCertVerifySignature. pose proof Ek as (E1 & E2 & E3). rewrite E1, E2, E3.
  assert (Z1 : (lenN ca =? 0) = false).
  { apply N.eqb_neq. rewrite Eca, lenN_app, lenN_str. lia. }
  rewrite Z1. cbn [orb].
  assert (Z : forall l r, sg = strs l ++ r -> l <> [] -> (lenN sg =? 0) = false).
  { intros l r E Hl. apply N.eqb_neq. rewrite E. destruct l as [|a l]; [contradiction|].
    rewrite strs_cons, !lenN_app, lenN_str. lia. }
  assert (Other : forall A (P : bool) (f : pres A), ((exists u j, (if P then PErr WS_BAD_ARGUMENT 0 else f) = POk u j) <-> P = false /\ exists u j, f = POk u j)).
  { intros A P f. destruct P; [split; [intros (u & j & H); discriminate|intros (H & _); discriminate]|tauto]. }
  rewrite Other. clear Other.
  cbn [In key_types] in I. destruct I as [<- |[I|[I|[I|[<- |[]]]]]].
  - rewrite Et. change (NameToId (ascii "ssh-rsa") =? ID_SSH_RSA) with true. cbv iota. rewrite rsa_iff. split.
    + intros (_ & name & h & e & n & s & r1 & r2 & I & C & N1 & N2 & S & P). rewrite Et in C. exact (vouch_rsa _ _ _ _ _ _ _ _ _ _ _ I C N1 N2 S P).
    + intros V. destruct V as [q t s r1 r2 C S P|name h e n s r1 r2 I C N1 N2 S P|name curve bits h q t r s r1 r2 r3 I C S N1 N2 P].
      * exfalso. assert (Q := vouch_type _ _ _ C ltac:(cbn; tauto)). rewrite Et in Q. vm_compute in Q. discriminate.
      * split; [eapply Z; [exact S|discriminate]|]. exists name, h, e, n, s, r1, r2. rewrite Et. auto 10.
      * exfalso. cbn [In ecdsa_algos] in I. destruct I as [I|[I|[I|[]]]]; injection I as <- <- <- <-;
          assert (Q := vouch_type _ _ _ C ltac:(cbn; tauto)); rewrite Et in Q; vm_compute in Q; discriminate.
  - assert (H : In ("ecdsa-sha2-nistp256", ("nistp256", 256, SHA256))%string ecdsa_algos) by (cbn; tauto).
    rewrite Et, <- I. change (NameToId (ascii "ecdsa-sha2-nistp256") =? ID_SSH_RSA) with false.
    change (is_ecdsa (NameToId (ascii "ecdsa-sha2-nistp256"))) with true. cbv iota.
    rewrite (ecc_iff _ _ _ _ H ltac:(congruence)). split.
    + intros (_ & q & t & r & s & r1 & r2 & r3 & C & S & N1 & N2 & P). rewrite Et, <- I in C. exact (vouch_ecc _ _ _ _ _ _ _ _ _ _ _ _ _ _ _ H C S N1 N2 P).
    + intros V. destruct V as [q t s r1 r2 C S P|name h e n s r1 r2 J C N1 N2 S P|name curve bits h q t r s r1 r2 r3 J C S N1 N2 P].
      * exfalso. assert (Q := vouch_type _ _ _ C ltac:(cbn; tauto)). rewrite Et, <- I in Q. vm_compute in Q. discriminate.
      * exfalso. assert (Q := vouch_type _ _ _ C ltac:(cbn; tauto)). rewrite Et, <- I in Q. vm_compute in Q. discriminate.
      * split; [eapply Z; [exact S|discriminate]|]. cbn [In ecdsa_algos] in J. destruct J as [J|[J|[J|[]]]]; injection J as <- <- <- <-;
          assert (Q := vouch_type _ _ _ C ltac:(cbn; tauto)).
        -- exists q, t, r, s, r1, r2, r3. rewrite <- I in Et. rewrite Et. auto 10.
        -- rewrite Et, <- I in Q. vm_compute in Q. discriminate.
        -- rewrite Et, <- I in Q. vm_compute in Q. discriminate.
  - assert (H : In ("ecdsa-sha2-nistp384", ("nistp384", 384, SHA384))%string ecdsa_algos) by (cbn; tauto).
    rewrite Et, <- I. change (NameToId (ascii "ecdsa-sha2-nistp384") =? ID_SSH_RSA) with false.
    change (is_ecdsa (NameToId (ascii "ecdsa-sha2-nistp384"))) with true. cbv iota.
    rewrite (ecc_iff _ _ _ _ H ltac:(congruence)). split.
    + intros (_ & q & t & r & s & r1 & r2 & r3 & C & S & N1 & N2 & P). rewrite Et, <- I in C. exact (vouch_ecc _ _ _ _ _ _ _ _ _ _ _ _ _ _ _ H C S N1 N2 P).
    + intros V. destruct V as [q t s r1 r2 C S P|name h e n s r1 r2 J C N1 N2 S P|name curve bits h q t r s r1 r2 r3 J C S N1 N2 P].
      * exfalso. assert (Q := vouch_type _ _ _ C ltac:(cbn; tauto)). rewrite Et, <- I in Q. vm_compute in Q. discriminate.
      * exfalso. assert (Q := vouch_type _ _ _ C ltac:(cbn; tauto)). rewrite Et, <- I in Q. vm_compute in Q. discriminate.
      * split; [eapply Z; [exact S|discriminate]|]. cbn [In ecdsa_algos] in J. destruct J as [J|[J|[J|[]]]]; injection J as <- <- <- <-;
          assert (Q := vouch_type _ _ _ C ltac:(cbn; tauto)).
        -- rewrite Et, <- I in Q. vm_compute in Q. discriminate.
        -- exists q, t, r, s, r1, r2, r3. rewrite <- I in Et. rewrite Et. auto 10.
        -- rewrite Et, <- I in Q. vm_compute in Q. discriminate.
  - assert (H : In ("ecdsa-sha2-nistp521", ("nistp521", 521, SHA512))%string ecdsa_algos) by (cbn; tauto).
    rewrite Et, <- I. change (NameToId (ascii "ecdsa-sha2-nistp521") =? ID_SSH_RSA) with false.
    change (is_ecdsa (NameToId (ascii "ecdsa-sha2-nistp521"))) with true. cbv iota.
    rewrite (ecc_iff _ _ _ _ H ltac:(congruence)). split.
    + intros (_ & q & t & r & s & r1 & r2 & r3 & C & S & N1 & N2 & P). rewrite Et, <- I in C. exact (vouch_ecc _ _ _ _ _ _ _ _ _ _ _ _ _ _ _ H C S N1 N2 P).
    + intros V. destruct V as [q t s r1 r2 C S P|name h e n s r1 r2 J C N1 N2 S P|name curve bits h q t r s r1 r2 r3 J C S N1 N2 P].
      * exfalso. assert (Q := vouch_type _ _ _ C ltac:(cbn; tauto)). rewrite Et, <- I in Q. vm_compute in Q. discriminate.
      * exfalso. assert (Q := vouch_type _ _ _ C ltac:(cbn; tauto)). rewrite Et, <- I in Q. vm_compute in Q. discriminate.
      * split; [eapply Z; [exact S|discriminate]|]. cbn [In ecdsa_algos] in J. destruct J as [J|[J|[J|[]]]]; injection J as <- <- <- <-;
          assert (Q := vouch_type _ _ _ C ltac:(cbn; tauto)).
        -- rewrite Et, <- I in Q. vm_compute in Q. discriminate.
        -- rewrite Et, <- I in Q. vm_compute in Q. discriminate.
        -- exists q, t, r, s, r1, r2, r3. rewrite <- I in Et. rewrite Et. auto 10.
  - change (NameToId catype =? ID_SSH_RSA) with (NameToId catype =? ID_SSH_RSA). rewrite Et.
    change (NameToId (ascii "ssh-ed25519") =? ID_SSH_RSA) with false.
    change (is_ecdsa (NameToId (ascii "ssh-ed25519"))) with false.
    change (NameToId (ascii "ssh-ed25519") =? ID_ED25519) with true. cbv iota. rewrite (ed_iff Et). split.
    + intros (_ & q & t & s & r1 & r2 & C & S & P). rewrite Et in C. exact (vouch_ed _ _ _ _ _ _ _ _ _ C S P).
    + intros V. destruct V as [q t s r1 r2 C S P|name h e n s r1 r2 I C N1 N2 S P|name curve bits h q t r s r1 r2 r3 I C S N1 N2 P].
      * split; [eapply Z; [exact S|discriminate]|]. exists q, t, s, r1, r2. rewrite Et. auto.
      * exfalso. assert (Q := vouch_type _ _ _ C ltac:(cbn; tauto)). rewrite Et in Q. vm_compute in Q. discriminate.
      * exfalso. cbn [In ecdsa_algos] in I. destruct I as [I|[I|[I|[]]]]; injection I as <- <- <- <-;
          assert (Q := vouch_type _ _ _ C ltac:(cbn; tauto)); rewrite Et in Q; vm_compute in Q; discriminate.
Qed.

(* an authority that vouches has a key of a known type *)
Lemma vouches_type : vouches x ca sg (k_signed k) -> ca_type_ok catype = true.
Proof.
  intros V. apply ca_type_in.
  destruct V as [q t s r1 r2 C S P|name h e n s r1 r2 I C N1 N2 S P|name curve bits h q t r s r1 r2 r3 I C S N1 N2 P].
  - eexists; split; [|eapply vouch_type; [exact C|]]; cbn; tauto.
  - eexists; split; [|eapply vouch_type; [exact C|]]; cbn; tauto.
  - cbn [In ecdsa_algos] in I. destruct I as [I|[I|[I|[]]]]; injection I as <- <- <- <-;
      (eexists; split; [|eapply vouch_type; [exact C|]]; cbn; tauto).
Qed.
End V.

(* ---- options -------------------------------------------------------------------- *)
Lemma whole_str : forall (data v : bytes), bytes_ok data -> is32 (lenN data) ->
  (GetStr data (lenN data) 0 = POk v (lenN data) <-> data = str v).
Proof.
  intros data v B L. rewrite (GetStr_iff data B L 0 v (lenN data) (N.le_0_l _)). split.
  - intros A. assert (E := whole_at _ _ _ A). rewrite E at 1. rewrite dropN_all by lia. apply app_nil_r.
  - intros ->. apply (at_whole _ _ []). rewrite app_nil_r. reflexivity.
Qed.

Definition FC := ascii "force-command".
Definition SA := ascii "source-address".
Definition after (prev name : bytes) : bool :=
  (lenN prev =? 0) || match OsshNameCmp prev name with Lt => true | _ => false end.

Section O.
Variable m : bytes.
Hypothesis Bm : bytes_ok m.
Hypothesis Lm : is32 (lenN m).

Lemma crit_end : forall k i prev fc sa r j, lenN m <= i -> (crit_options (S k) m i prev fc sa = POk r j <-> r = (fc, sa) /\ j = i).
Proof.
  intros k i prev fc sa r j L. cbn [crit_options]. rewrite (proj2 (N.ltb_ge _ _) L). split; [intros H; inversion H; auto|intros (-> & ->); reflexivity].
Qed.

Lemma crit_round : forall k i prev fc sa r j, i < lenN m ->
  (crit_options (S k) m i prev fc sa = POk r j <->
   exists name v i2, at_ m i (str name ++ str (str v)) i2 /\ after prev name = true /\ v <> [] /\
     ((name = FC /\ crit_options k m i2 name v sa = POk r j) \/ (name = SA /\ crit_options k m i2 name fc v = POk r j))).
Proof.
  intros k i prev fc sa r j L. cbn [crit_options]. rewrite (proj2 (N.ltb_lt _ _) L).
  assert (Li : i <= lenN m) by lia. split.
  - intros P. apply pbind_ok in P. destruct P as (name & i1 & A1 & P). apply GetStr_iff in A1; try assumption.
    pose proof (at_le _ _ _ _ A1) as (L1 & _).
    apply pbind_ok in P. destruct P as (u & i1' & Q & P). apply require_pos in Q. destruct Q as (Q & ->).
    apply pbind_ok in P. destruct P as (data & i2 & A2 & P). apply GetStr_iff in A2; try assumption.
    destruct (at_str_ok m Bm Lm _ _ _ A2) as (Bd & Ld & _).
    assert (One : forall K : bytes -> pres (bytes * bytes),
      (v <-[ j0 ] GetStr data (lenN data) 0 ; u0 <-[ j1 ] require (negb (lenN v =? 0)) WS_PARSE_E j0 ;
       u1 <-[ j2 ] require (j1 =? lenN data) WS_PARSE_E j1 ; K v) = POk r j ->
      exists v, data = str v /\ v <> [] /\ K v = POk r j).
    { intros K H. apply pbind_ok in H. destruct H as (v & j0 & A & H). apply pbind_ok in H. destruct H as (u0 & j1 & R & H).
      apply require_pos in R. destruct R as (R & ->). apply pbind_ok in H. destruct H as (u1 & j2 & R2 & H).
      apply require_pos in R2. destruct R2 as (R2 & ->). apply N.eqb_eq in R2. subst j0. apply whole_str in A; try assumption.
      exists v. split; [exact A|]. split; [|exact H]. intros ->. discriminate. }
    destruct (bytes_eqb name (ascii "force-command")) eqn:E1.
    + apply bytes_eqb_eq in E1. apply One in P. destruct P as (v & -> & Nv & P).
      exists name, v, i2. split; [eapply at_app; eassumption|]. split; [exact Q|]. split; [exact Nv|]. left. auto.
    + destruct (bytes_eqb name (ascii "source-address")) eqn:E2; [|discriminate].
      apply bytes_eqb_eq in E2. apply One in P. destruct P as (v & -> & Nv & P).
      exists name, v, i2. split; [eapply at_app; eassumption|]. split; [exact Q|]. split; [exact Nv|]. right. auto.
  - intros (name & v & i2 & A & Q & Nv & P). apply at_inv in A. destruct A as (A1 & A2).
    pose proof (at_le _ _ _ _ A1) as (L1 & _). destruct (at_str_ok m Bm Lm _ _ _ A2) as (Bd & Ld & _).
    rewrite (GetStr_str m Bm Lm _ _ _ Li A1). cbn [pbind]. change (_ || _) with (after prev name). rewrite Q. unfold require at 1. cbn [pbind].
    rewrite (GetStr_str m Bm Lm _ _ _ L1 A2). cbn [pbind].
    assert (Nz : (lenN v =? 0) = false) by (destruct v; [contradiction|reflexivity]).
    rewrite (proj2 (whole_str (str v) v Bd Ld) eq_refl).
    destruct P as [(-> & P)|(-> & P)].
    + change (bytes_eqb FC (ascii "force-command")) with true. cbv iota. cbn [pbind]. rewrite Nz. unfold require. cbn [pbind negb]. rewrite N.eqb_refl. exact P.
    + change (bytes_eqb SA (ascii "force-command")) with false. change (bytes_eqb SA (ascii "source-address")) with true. cbv iota. cbn [pbind].
      rewrite Nz. unfold require. cbn [pbind negb]. rewrite N.eqb_refl. exact P.
Qed.

Lemma at_end : forall i f, at_ m i f (lenN m) <-> i <= lenN m /\ dropN i m = f.
Proof.
  intros i f. split.
  - intros A. pose proof (at_le _ _ _ _ A) as (_ & L). split; [exact L|]. destruct A as (D & _).
    rewrite D, (dropN_all _ (lenN m)) by lia. apply app_nil_r.
  - intros (L & D). destruct (at_of m i f [] ltac:(rewrite app_nil_r; exact D) L) as (A & E).
    assert (E2 : i + lenN f = lenN m). { pose proof (lenN_dropN _ i m). rewrite D in H. lia. }
    rewrite E2 in A. exact A.
Qed.

Lemma crit_iff : forall fc sa, (exists j, crit_options (S (List.length m)) m 0 [] [] [] = POk (fc, sa) j) <->
  m = option_field "force-command" fc ++ option_field "source-address" sa.
Proof.
  intros fc sa.
  assert (AA : forall n1 n2, In n1 [FC; SA] -> In n2 [FC; SA] -> after n1 n2 = true -> n1 = FC /\ n2 = SA).
  { intros n1 n2 I1 I2 H. cbn [In] in I1, I2. destruct I1 as [<- |[<- |[]]]; destruct I2 as [<- |[<- |[]]]; try (vm_compute in H; discriminate). auto. }
  split.
  - intros (j & P). assert (Dec : 0 < lenN m \/ lenN m <= 0) by lia. destruct Dec as [Z|Z].
    2:{ apply crit_end in P; [|exact Z]. destruct P as (P & _). inversion P. subst. cbn [option_field app]. destruct m; [reflexivity|rewrite lenN_cons in Z; lia]. }
    apply crit_round in P; [|exact Z]. destruct P as (n1 & v1 & i1 & A1 & Q1 & N1 & P).
    pose proof (at_le _ _ _ _ A1) as (L1 & _).
    assert (M : 2 <= lenN m) by (pose proof (at_inv _ _ _ _ _ A1) as (X & _); apply at_le in X; rewrite lenN_str in X; lia).
    destruct (List.length m) as [|[|n]] eqn:Lg; [unfold lenN in M; rewrite Lg in M; lia|unfold lenN in M; rewrite Lg in M; lia|]. clear Lg M.
    assert (Last : forall k i n fc' sa' r j', In n [FC; SA] -> i <= lenN m -> crit_options (S k) m i n fc' sa' = POk r j' ->
      (i = lenN m /\ r = (fc', sa')) \/ (n = FC /\ exists v i2, at_ m i (str SA ++ str (str v)) i2 /\ v <> [] /\ crit_options k m i2 SA fc' v = POk r j')).
    { intros k i n0 fc' sa' r j' In0 Li H. assert (D2 : i < lenN m \/ lenN m <= i) by lia. destruct D2 as [D2|D2].
      - apply crit_round in H; [|exact D2]. destruct H as (n2 & v & i2 & A & Q & Nv & H).
        assert (I2 : In n2 [FC; SA]) by (cbn; destruct H as [(-> & _)|(-> & _)]; tauto).
        destruct (AA _ _ In0 I2 Q) as (-> & ->). right. split; [reflexivity|]. destruct H as [(H & _)|(_ & H)]; [vm_compute in H; discriminate|].
        exists v, i2. auto.
      - left. apply crit_end in H; [|exact D2]. split; [lia|tauto]. }
    destruct P as [(-> & P)|(-> & P)].
    + apply Last in P; [|cbn; tauto|exact L1]. destruct P as [(-> & P)|(_ & v & i2 & A2 & N2 & P)].
      * inversion P; subst. apply at_end in A1. destruct A1 as (_ & A1). rewrite dropN_0 in A1. destruct v1; [contradiction|]. cbn [option_field]. rewrite app_nil_r. exact A1.
      * pose proof (at_le _ _ _ _ A2) as (L2 & _). apply Last in P; [|cbn; tauto|exact L2].
        destruct P as [(-> & P)|(P & _)]; [|vm_compute in P; discriminate].
        inversion P; subst. pose proof (at_app _ _ _ _ _ _ A1 A2) as A. apply at_end in A. destruct A as (_ & A). rewrite dropN_0 in A.
        destruct v1; [contradiction|]. destruct v; [contradiction|]. exact A.
    + apply Last in P; [|cbn; tauto|exact L1]. destruct P as [(-> & P)|(P & _)]; [|vm_compute in P; discriminate].
      inversion P; subst. apply at_end in A1. destruct A1 as (_ & A1). rewrite dropN_0 in A1. destruct v1; [contradiction|]. exact A1.
  - intros E. assert (A : at_ m 0 (option_field "force-command" fc ++ option_field "source-address" sa) (lenN m)).
    { apply at_end. split; [lia|]. rewrite dropN_0. exact E. }
    assert (One : forall n v (f : bytes), v <> [] -> option_field n v = str (ascii n) ++ str (str v)) by (intros n v f Nv; destruct v; [contradiction|reflexivity]).
    assert (Lg : m <> [] -> exists n, List.length m = S (S n)).
    { intros Nm. assert (2 <= lenN m).
      { pose proof (f_equal (@lenN N) E) as LE. rewrite lenN_app in LE.
        destruct fc; destruct sa; cbn [option_field] in LE; rewrite ?lenN_app, ?lenN_str in LE; try lia.
        exfalso. apply Nm. rewrite E. reflexivity. }
      unfold lenN in H. destruct (List.length m) as [|[|n]]; [lia|lia|]. exists n. reflexivity. }
    destruct fc as [|f0 fc].
    + destruct sa as [|s0 sa].
      * exists 0. apply crit_end; [|auto]. rewrite E. reflexivity.
      * destruct Lg as (n & Lg); [intros Q; rewrite Q in E; discriminate|]. exists (lenN m). rewrite Lg.
        apply crit_round; [pose proof (at_le _ _ _ _ A) as (X & _); rewrite E; cbn [option_field app]; rewrite lenN_app, lenN_str; lia|].
        exists SA, (s0 :: sa), (lenN m). split; [exact A|]. split; [reflexivity|]. split; [discriminate|]. right. split; [reflexivity|].
        apply crit_end; [lia|auto].
    + destruct sa as [|s0 sa].
      * change (option_field "source-address" []) with (@nil N) in A. rewrite app_nil_r in A.
        destruct Lg as (n & Lg); [intros Q; rewrite Q in E; discriminate|]. exists (lenN m). rewrite Lg.
        apply crit_round; [rewrite E; cbn [option_field app]; rewrite !lenN_app, lenN_str; lia|].
        exists FC, (f0 :: fc), (lenN m). split; [exact A|]. split; [reflexivity|]. split; [discriminate|]. left. split; [reflexivity|].
        apply crit_end; [lia|auto].
      * destruct Lg as (n & Lg); [intros Q; rewrite Q in E; discriminate|]. exists (lenN m). rewrite Lg.
        apply at_inv in A. destruct A as (A1 & A2). set (i1 := 0 + _) in *. clearbody i1.
        apply crit_round; [rewrite E; cbn [option_field app]; rewrite !lenN_app, lenN_str; lia|].
        exists FC, (f0 :: fc), i1. split; [exact A1|]. split; [reflexivity|]. split; [discriminate|]. left. split; [reflexivity|].
        apply crit_round.
        { pose proof (at_inv _ _ _ _ _ A2) as (X & Y). apply at_le in X. apply at_le in Y. rewrite lenN_str in *. lia. }
        exists SA, (s0 :: sa), (lenN m). split; [exact A2|]. split; [reflexivity|]. split; [discriminate|]. right. split; [reflexivity|].
        destruct n; apply crit_end; [lia|auto|lia|auto].
Qed.

Lemma skip_iff : forall fuel i, i <= lenN m -> lenN m - i < N.of_nat fuel ->
  ((exists u j, skip_options fuel m i = POk u j) <-> exists l, dropN i m = options l).
Proof.
  induction fuel as [|k IH]; intros i Li Lf; [lia|]. cbn [skip_options].
  destruct (i <? lenN m) eqn:Z.
  - apply N.ltb_lt in Z. split.
    + intros (u & j & P). apply pbind_ok in P. destruct P as (name & i1 & A1 & P). apply GetStr_iff in A1; try assumption.
      pose proof (at_le _ _ _ _ A1) as (L1 & _).
      apply pbind_ok in P. destruct P as (data & i2 & A2 & P). apply GetStr_iff in A2; try assumption.
      pose proof (at_le _ _ _ _ A2) as (L2 & L2').
      assert (i + 4 <= i1). { destruct A1 as (_ & A1 & _). rewrite lenN_str in A1. lia. }
      destruct (proj1 (IH i2 L2 ltac:(lia)) (ex_intro _ u (ex_intro _ j P))) as (l & D).
      pose proof (at_app _ _ _ _ _ _ A1 A2) as (A & _).
      exists ((name, data) :: l). rewrite A, D. unfold options. cbn [map List.concat fst snd]. reflexivity.
    + intros (l & D). destruct l as [|(name, data) l].
      { pose proof (lenN_dropN _ i m) as Q. rewrite D in Q. change (lenN (options [])) with 0 in Q. lia. }
      unfold options in D. cbn [map List.concat fst snd] in D. fold (options l) in D.
      destruct (at_of _ _ _ _ D Li) as (A & D2). pose proof (at_le _ _ _ _ A) as (L2 & _).
      apply at_inv in A. destruct A as (A1 & A2). pose proof (at_le _ _ _ _ A1) as (L1 & _).
      rewrite (GetStr_str m Bm Lm _ _ _ Li A1). cbn [pbind]. rewrite (GetStr_str m Bm Lm _ _ _ L1 A2). cbn [pbind].
      apply IH; [exact L2|rewrite lenN_app, lenN_str in *; lia|]. exists l. exact D2.
  - apply N.ltb_ge in Z. split; [|intros _; exists tt, i; reflexivity]. intros _. exists []. rewrite dropN_all by lia. reflexivity.
Qed.
End O.
