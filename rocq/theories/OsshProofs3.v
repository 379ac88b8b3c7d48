(* OsshProofs3.v - checking a certificate: exactly when it succeeds, that it
   stays inside the message, and that certificates are unambiguous. *)
From Verif Require Import Base WireModel WireSpec WireProofs WireProps NameTable NegoModel NegoSpec NegoProofs AuthModel AuthSpec AuthProofs AuthStep AuthProps OsshModel OsshSpec OsshProofs OsshProofs2.
From Coq Require Import List NArith Lia Bool String.
Import ListNotations.
Open Scope N_scope.
Local Notation "a ++ b" := (@app _ a b) : list_scope.

Lemma type_name : forall type, In type key_types -> IdToName (NameToId (ascii type)) = ascii type.
Proof. intros type I. cbn [In key_types] in I. destruct I as [<- |[<- |[<- |[<- |[<- |[]]]]]]; vm_compute; reflexivity. Qed.

Lemma bytes_ok_app : forall a b : bytes, bytes_ok (a ++ b) <-> bytes_ok a /\ bytes_ok b.
Proof. intros a b. unfold bytes_ok. apply Forall_app. Qed.
Lemma bytes_ok_str : forall a, bytes_ok (str a) -> bytes_ok a.
Proof. intros a H. unfold str in H. apply bytes_ok_app in H. tauto. Qed.

(* the parts of a certificate that is inside a message *)
Lemma parts_ok : forall c, bytes_ok (cert_bytes c) -> is32 (lenN (cert_bytes c)) ->
  (bytes_ok (c_authority c) /\ is32 (lenN (c_authority c))) /\ (bytes_ok (c_signature c) /\ is32 (lenN (c_signature c))) /\
  (bytes_ok (c_critical c) /\ is32 (lenN (c_critical c))) /\ (bytes_ok (c_extensions c) /\ is32 (lenN (c_extensions c))).
Proof.
  intros c B L. unfold cert_bytes, signed_part in *. rewrite !bytes_ok_app in B. rewrite !lenN_app, !lenN_str in L.
  destruct B as ((_ & _ & _ & _ & _ & _ & _ & _ & _ & B1 & B2 & _ & B3) & B4).
  apply bytes_ok_str in B1, B2, B3, B4. unfold is32, W32 in *. repeat split; try assumption; lia.
Qed.

Lemma pok_inj : forall A (a b : A) i j, POk a i = POk b j -> a = b /\ i = j.
Proof. intros A a b i j H. inversion H. auto. Qed.

(* C80: accepted exactly when *)
Lemma check_iff : forall x algo type blob o, In (algo, type) cert_types -> bytes_ok blob -> is32 (lenN blob) ->
  ((exists j, check_cert x (NameToId (ascii algo)) blob = POk o j) <->
   exists c command source, blob = cert_bytes c /\ acceptable x c type command source /\
     shown c type command source o /\ o_base o = NameToId (ascii type)).
Proof.
  intros x algo type blob o T B L. destruct (base_of_type _ _ T) as (_ & Tk & _).
  unfold check_cert. split.
  - intros (j & P). apply pbind_ok in P. destruct P as (k & i1 & P1 & P). apply (parse_iff _ _ _ _ _ T B L) in P1.
    destruct P1 as (_ & c & catype & rest & Cc & -> & Eca & ->).
    destruct (parts_ok c B L) as ((Bca & Lca) & (Bsg & Lsg) & (Bcr & Lcr) & (Bex & Lex)).
    apply pbind_ok in P. destruct P as (u2 & i2 & P2 & P). apply require_pos in P2. destruct P2 as (P2 & _).
    cbn [view k_kind k_catype] in P2. apply andb_prop in P2. destruct P2 as (K1 & K2). apply N.eqb_eq in K1.
    apply pbind_ok in P. destruct P as (u3 & i3 & P3 & P).
    assert (V : vouches x (c_authority c) (c_signature c) (signed_part c)).
    { apply (verify_iff _ _ Bca Lca Bsg Lsg x (view c type catype) catype rest (conj eq_refl (conj eq_refl eq_refl)) Eca K2).
      exists u3, i3. exact P3. }
    apply pbind_ok in P. destruct P as ((fc, sa) & i4 & P4 & P).
    unfold OsshCertCheckOptions in P4. apply pbind_ok in P4. destruct P4 as ((fc', sa') & i5 & P5 & P4).
    apply pbind_ok in P4. destruct P4 as (u6 & i6 & P6 & P4). inversion P4; subst fc' sa' i4; clear P4.
    cbn [view k_crit k_ext] in P5, P6.
    assert (Q5 := proj1 (crit_iff _ Bcr Lcr fc sa) (ex_intro _ _ P5)).
    assert (Q6 := proj1 (skip_iff _ Bex Lex (S (List.length (c_extensions c))) 0 (N.le_0_l _) ltac:(unfold lenN; lia)) (ex_intro _ u6 (ex_intro _ i6 P6))).
    rewrite dropN_0 in Q6. apply pok_inj in P. destruct P as (<- & _).
    exists c, fc, sa. split; [reflexivity|]. split; [|split].
    + unfold acceptable. split; [exact Cc|]. split; [exact K1|]. split; [exact V|]. split; [exact Q5|exact Q6].
    + unfold shown. cbn [view k_base k_parms k_ca k_princ k_after k_before o_key o_ca o_principals o_after o_before o_command o_source fst snd].
      rewrite (type_name _ Tk), strs_cons, <- str_put. auto 10.
    + reflexivity.
  - intros (c & fc & sa & -> & (Cc & K1 & V & Q5 & Q6) & Sh & Eb).
    destruct (parts_ok c B L) as ((Bca & Lca) & (Bsg & Lsg) & (Bcr & Lcr) & (Bex & Lex)).
    assert (Pre : exists catype rest, c_authority c = str catype ++ rest).
    { destruct V as [q t s r1 r2 C S0 P|name h e n s r1 r2 I C N1 N2 S0 P|name curve bits h q t r s r1 r2 r3 I C S0 N1 N2 P];
        rewrite strs_cons, <- app_assoc in C; eauto. }
    destruct Pre as (catype & rest & Eca).
    assert (P1 := proj2 (parse_iff algo type (cert_bytes c) (view c type catype) _ T B L)
              (conj eq_refl (ex_intro _ c (ex_intro _ catype (ex_intro _ rest (conj Cc (conj eq_refl (conj Eca eq_refl)))))))).
    assert (K2 := vouches_type _ _ Lca Lsg x (view c type catype) catype rest (conj eq_refl (conj eq_refl eq_refl)) Eca V).
    destruct (proj2 (verify_iff _ _ Bca Lca Bsg Lsg x (view c type catype) catype rest (conj eq_refl (conj eq_refl eq_refl)) Eca K2) V) as (u3 & i3 & P3).
    destruct (proj2 (crit_iff _ Bcr Lcr fc sa) Q5) as (i5 & P5).
    destruct (proj2 (skip_iff _ Bex Lex (S (List.length (c_extensions c))) 0 (N.le_0_l _) ltac:(unfold lenN; lia))) as (u6 & i6 & P6).
    { rewrite dropN_0. exact Q6. }
    exists i6. rewrite P1. cbn [pbind].
    assert (P2 : OsshCertCheckType (view c type catype) = POk tt 0).
    { unfold OsshCertCheckType. cbn [view k_kind k_catype]. rewrite K1. unfold require. unfold ca_type_ok in K2. rewrite K2. reflexivity. }
    rewrite P2. cbn [pbind]. rewrite P3. cbn [pbind]. unfold OsshCertCheckOptions. cbn [view k_crit k_ext]. rewrite P5. cbn [pbind]. rewrite P6. cbn [pbind].
    cbn [view k_base k_parms k_ca k_princ k_after k_before fst snd]. rewrite (type_name _ Tk), <- str_put.
    destruct o as [ob ok oc op oa obf ocm os]. destruct Sh as (S1 & S2 & S3 & S4 & S5 & S6 & S7).
    cbn [o_base o_key o_ca o_principals o_after o_before o_command o_source] in *. subst. rewrite strs_cons. reflexivity.
Qed.

(* ---- never outside the message ------------------------------------------------ *)
Lemma noob_bind : forall A B (r : pres A) (f : A -> N -> pres B), r <> POob -> (forall a i, r = POk a i -> f a i <> POob) -> pbind r f <> POob.
Proof. intros A B r f H K. destruct r as [a i|e i|]; cbn [pbind]; [apply K; reflexivity|discriminate|contradiction]. Qed.

Section Safe.
Variable m : bytes.
Hypothesis Bm : bytes_ok m.
Hypothesis Lm : is32 (lenN m).

Lemma str_noob : forall i, i <= lenN m -> GetStr m (lenN m) i <> POob.
Proof.
  intros i L H. pose proof (GetStr_inv m i Bm Lm (le32 m Lm i L)) as G. rewrite H in G. exact G.
Qed.
Lemma str_le : forall i b j, i <= lenN m -> GetStr m (lenN m) i = POk b j -> j <= lenN m /\ bytes_ok b /\ is32 (lenN b).
Proof.
  intros i b j L H. apply (GetStr_iff m Bm Lm i b j L) in H. destruct (at_str_ok m Bm Lm _ _ _ H) as (X & Y & _).
  apply at_le in H. tauto.
Qed.
Lemma mp_noob : forall i, i <= lenN m -> GetMp m i <> POob.
Proof.
  intros i L. unfold GetMp. pose proof (GetMpint_inv m i Bm Lm (le32 m Lm i L)) as G.
  destruct (GetMpint m (lenN m) i) as [(o, n) j|e j|]; cbn [pbind fst snd]; [|discriminate|contradiction].
  destruct G as (G & _). rewrite G. discriminate.
Qed.
Lemma mp_le : forall i b j, i <= lenN m -> GetMp m i = POk b j -> j <= lenN m.
Proof. intros i b j L H. apply (GetMp_iff m Bm Lm i b j L) in H. destruct H as (H & _). apply at_le in H. tauto. Qed.
Lemma skip_noob : forall i, i <= lenN m -> GetSkip m (lenN m) i <> POob.
Proof. intros i L. apply GetSkip_noob; try assumption; [lia|]. apply (le32 m Lm i L). Qed.
Lemma skip_le : forall i u j, i <= lenN m -> GetSkip m (lenN m) i = POk u j -> j <= lenN m.
Proof. intros i u j L H. apply (Skip_iff m Bm Lm i j u L) in H. destruct H as (s & H). apply at_le in H. tauto. Qed.

Lemma u32_noob : forall i, i <= lenN m -> GetUint32 m (lenN m) i <> POob /\ forall v j, GetUint32 m (lenN m) i = POk v j -> j <= lenN m.
Proof.
  intros i L. split.
  - apply C01_uint32; try assumption; [lia|apply (le32 m Lm i L)].
  - intros v j H. apply (GetUint32_iff m Bm Lm i v j L) in H. destruct H as (H & _). apply at_le in H. tauto.
Qed.
Lemma u64_noob : forall i, i <= lenN m -> GetUint64 m (lenN m) i <> POob /\ forall v j, GetUint64 m (lenN m) i = POk v j -> j <= lenN m.
Proof.
  intros i L. split.
  - apply C01_uint64; try assumption; [lia|apply (le32 m Lm i L)].
  - intros v j H. apply (GetUint64_iff m Bm Lm i v j L) in H. destruct H as (H & _). apply at_le in H. tauto.
Qed.
Lemma ref_noob : forall i, i <= lenN m -> GetStringRef m (lenN m) i <> POob /\ forall v j, GetStringRef m (lenN m) i = POk v j -> j <= lenN m /\ i <= j.
Proof.
  intros i L. destruct (C01_string_ref m (lenN m) i Bm ltac:(lia) Lm (le32 m Lm i L)) as (H & K & _). split; [exact H|].
  intros (o, n) j E. apply K in E. lia.
Qed.
Lemma mpint_noob : forall i, i <= lenN m -> GetMpint m (lenN m) i <> POob /\ forall v j, GetMpint m (lenN m) i = POk v j -> j <= lenN m /\ i <= j.
Proof.
  intros i L. destruct (C01_mpint m (lenN m) i Bm ltac:(lia) Lm (le32 m Lm i L)) as (H & K). split; [exact H|].
  intros (o, n) j E. apply K in E. lia.
Qed.
Lemma key_noob : forall base i, i <= lenN m -> OsshSkipUserKey base m i <> POob /\ forall u j, OsshSkipUserKey base m i = POk u j -> j <= lenN m /\ i <= j.
Proof.
  intros base i L. unfold OsshSkipUserKey. destruct (base =? ID_SSH_RSA); [|destruct (is_ecdsa base); [|destruct (base =? ID_ED25519)]].
  - split.
    + apply noob_bind; [apply mpint_noob; exact L|]. intros a i1 E. apply mpint_noob in E; [|exact L].
      apply noob_bind; [apply mpint_noob; lia|discriminate].
    + intros u j P. apply pbind_ok in P. destruct P as (a & i1 & E & P). apply mpint_noob in E; [|exact L].
      apply pbind_ok in P. destruct P as (b & i2 & E2 & P). apply mpint_noob in E2; [|lia]. inversion P. lia.
  - split.
    + apply noob_bind; [apply ref_noob; exact L|]. intros a i1 E. apply ref_noob in E; [|exact L].
      apply noob_bind; [apply ref_noob; lia|discriminate].
    + intros u j P. apply pbind_ok in P. destruct P as (a & i1 & E & P). apply ref_noob in E; [|exact L].
      apply pbind_ok in P. destruct P as (b & i2 & E2 & P). apply ref_noob in E2; [|lia]. inversion P. lia.
  - split.
    + apply noob_bind; [apply ref_noob; exact L|discriminate].
    + intros u j P. apply pbind_ok in P. destruct P as (a & i1 & E & P). apply ref_noob in E; [|exact L]. inversion P. lia.
  - split; discriminate.
Qed.
Lemma region_noob : forall i j, i <= j -> j <= lenN m -> region m i j <> POob /\ forall b k, region m i j = POk b k -> k = j.
Proof.
  intros i j L1 L2. unfold region. rewrite sub32_small by (unfold is32, W32 in *; lia). rewrite rdn_some by lia.
  split; [discriminate|]. intros b k H. inversion H. reflexivity.
Qed.

Lemma crit_noob : forall fuel i prev fc sa, i <= lenN m -> lenN m - i < N.of_nat fuel -> crit_options fuel m i prev fc sa <> POob.
Proof.
  induction fuel as [|k IH]; intros i prev fc sa L F; [lia|]. cbn [crit_options].
  destruct (i <? lenN m); [|discriminate].
  apply noob_bind; [apply str_noob; exact L|]. intros name i1 E1.
  assert (P1 := E1). apply (GetStr_iff m Bm Lm i name i1 L) in P1. destruct P1 as (_ & Q1 & _). rewrite lenN_str in Q1.
  apply str_le in E1; [|exact L]. destruct E1 as (L1 & _).
  apply noob_bind; [apply require_oob|]. intros u i1' R. apply require_pos in R. destruct R as (_ & ->).
  apply noob_bind; [apply str_noob; exact L1|]. intros data i2 E2.
  assert (P2 := E2). apply (GetStr_iff m Bm Lm i1 data i2 L1) in P2. apply at_le in P2.
  apply str_le in E2; [|exact L1]. destruct E2 as (L2 & Bd & Ld).
  assert (D : forall K : bytes -> pres (bytes * bytes), (forall v, K v <> POob) ->
      (v <-[ j0 ] GetStr data (lenN data) 0 ; u0 <-[ j1 ] require (negb (lenN v =? 0)) WS_PARSE_E j0 ;
       u1 <-[ j2 ] require (j1 =? lenN data) WS_PARSE_E j1 ; K v) <> POob).
  { intros K H. apply noob_bind.
    - intros Q. pose proof (GetStr_inv data 0 Bd Ld is32_0) as G. rewrite Q in G. exact G.
    - intros v j0 _. apply noob_bind; [apply require_oob|]. intros u0 j1 _. apply noob_bind; [apply require_oob|]. intros u1 j2 _. apply H. }
  destruct (bytes_eqb name _); [|destruct (bytes_eqb name _); [|discriminate]]; apply D; intros v; apply IH; lia.
Qed.
Lemma opts_noob : forall fuel i, i <= lenN m -> lenN m - i < N.of_nat fuel -> skip_options fuel m i <> POob.
Proof.
  induction fuel as [|k IH]; intros i L F; [lia|]. cbn [skip_options].
  destruct (i <? lenN m); [|discriminate].
  apply noob_bind; [apply str_noob; exact L|]. intros name i1 E1.
  assert (P1 := E1). apply (GetStr_iff m Bm Lm i name i1 L) in P1. destruct P1 as (_ & Q1 & _). rewrite lenN_str in Q1.
  apply str_le in E1; [|exact L]. destruct E1 as (L1 & _).
  apply noob_bind; [apply str_noob; exact L1|]. intros data i2 E2.
  assert (P2 := E2). apply (GetStr_iff m Bm Lm i1 data i2 L1) in P2. apply at_le in P2.
  apply IH; lia.
Qed.
End Safe.

(* a certificate the parser accepted, whatever its type *)
Definition cert_ok (k : cert) : Prop :=
  (bytes_ok (k_ca k) /\ is32 (lenN (k_ca k)) /\ exists rest, k_ca k = str (k_catype k) ++ rest) /\
  (bytes_ok (k_sig k) /\ is32 (lenN (k_sig k))) /\
  (bytes_ok (k_crit k) /\ is32 (lenN (k_crit k))) /\ (bytes_ok (k_ext k) /\ is32 (lenN (k_ext k))).

Lemma parse_noob : forall id blob, bytes_ok blob -> is32 (lenN blob) ->
  OsshCertParse id blob <> POob /\ forall k j, OsshCertParse id blob = POk k j -> cert_ok k.
Proof.
  intros id blob B L. unfold OsshCertParse. cbv zeta.
  destruct (lenN blob =? 0); [split; discriminate|]. destruct (_ =? ID_UNKNOWN); [split; discriminate|].
  assert (G : forall A (r : pres A) (f : A -> N -> pres cert),
     r <> POob -> (forall a i, r = POk a i -> f a i <> POob /\ forall k j, f a i = POk k j -> cert_ok k) ->
     pbind r f <> POob /\ forall k j, pbind r f = POk k j -> cert_ok k).
  { intros A r g H K. split.
    - apply noob_bind; [exact H|]. intros a i E. apply (K a i E).
    - intros k j P. apply pbind_ok in P. destruct P as (a & i & E & P). apply (proj2 (K a i E) _ _ P). }
  apply G; [apply str_noob; try assumption; lia|]. intros name i1 E. apply str_le in E; try assumption; [|lia]. destruct E as (L1 & _).
  apply G; [apply require_oob|]. intros u i1' R. apply require_pos in R. destruct R as (_ & ->).
  apply G; [apply str_noob; assumption|]. intros nonce i2 E. apply str_le in E; try assumption. destruct E as (L2 & _).
  apply G; [apply key_noob; assumption|]. intros u3 i3 E. apply key_noob in E; try assumption. destruct E as (L3 & L3').
  apply G; [apply region_noob; assumption|]. intros parms i3' E. apply region_noob in E; try assumption. subst i3'.
  apply G; [apply u64_noob; assumption|]. intros serial i4 E. apply u64_noob in E; try assumption. rename E into L4.
  apply G; [apply u32_noob; assumption|]. intros kind i5 E. apply u32_noob in E; try assumption. rename E into L5.
  apply G; [apply str_noob; assumption|]. intros kid i6 E. apply str_le in E; try assumption. destruct E as (L6 & _).
  apply G; [apply str_noob; assumption|]. intros pr i7 E. apply str_le in E; try assumption. destruct E as (L7 & _).
  apply G; [apply u64_noob; assumption|]. intros af i8 E. apply u64_noob in E; try assumption. rename E into L8.
  apply G; [apply u64_noob; assumption|]. intros bf i9 E. apply u64_noob in E; try assumption. rename E into L9.
  apply G; [apply str_noob; assumption|]. intros cr i10 E. apply str_le in E; try assumption. destruct E as (L10 & Bcr & Lcr).
  apply G; [apply str_noob; assumption|]. intros ex i11 E. apply str_le in E; try assumption. destruct E as (L11 & Bex & Lex).
  apply G; [apply str_noob; assumption|]. intros rs i12 E. apply str_le in E; try assumption. destruct E as (L12 & _).
  apply G; [apply str_noob; assumption|]. intros ca i13 E. apply str_le in E; try assumption. destruct E as (L13 & Bca & Lca).
  apply G; [apply str_noob; try assumption; lia|]. intros ct jc E. apply GetStr_iff in E; try assumption; [|lia].
  apply G; [apply region_noob; try assumption; lia|]. intros tbs i13' F. apply region_noob in F; try assumption; [|lia]. subst i13'.
  apply G; [apply str_noob; assumption|]. intros sg i14 F. apply str_le in F; try assumption. destruct F as (L14 & Bsg & Lsg).
  apply G; [apply require_oob|]. intros u15 i15 R. split; [discriminate|]. intros k j P. apply pok_inj in P. destruct P as (<- & _).
  unfold cert_ok. cbn [k_ca k_catype k_sig k_crit k_ext]. split; [|auto]. split; [exact Bca|]. split; [exact Lca|].
  exists (dropN jc ca). apply whole_at. exact E.
Qed.

Lemma verify_noob : forall x k, cert_ok k -> OsshCertVerifySignature x k <> POob.
Proof.
  intros x k ((Bca & Lca & rest & Eca) & (Bsg & Lsg) & _). unfold OsshCertVerifySignature.
  destruct (_ || _); [discriminate|].
  destruct (type_end _ _ Lca Lsg _ _ Eca) as (A & _). apply at_le in A. destruct A as (LA & _).
  destruct (_ =? ID_SSH_RSA); [|destruct (is_ecdsa _); [|destruct (_ =? ID_ED25519); [|discriminate]]].
  - unfold OsshVerifyRsa. apply noob_bind; [apply mp_noob; assumption|]. intros e i E. apply mp_le in E; try assumption.
    apply noob_bind; [apply mp_noob; assumption|]. intros n i1 _.
    apply noob_bind; [apply str_noob; try assumption; lia|]. intros t i2 E2. apply str_le in E2; try assumption; [|lia]. destruct E2 as (L2 & _).
    apply noob_bind; [apply str_noob; assumption|]. intros s i3 _.
    destruct (bytes_eqb _ _); [apply require_oob|destruct (bytes_eqb _ _); [apply require_oob|discriminate]].
  - unfold OsshVerifyEcc. destruct (ca_curve _) as [(h, cv)|]; [|discriminate].
    apply noob_bind; [apply str_noob; assumption|]. intros cn i E. apply str_le in E; try assumption. destruct E as (L1 & _).
    apply noob_bind; [apply require_oob|]. intros u i' R. apply require_pos in R. destruct R as (_ & ->).
    apply noob_bind; [apply str_noob; assumption|]. intros q i1 _.
    apply noob_bind; [apply skip_noob; try assumption; lia|]. intros u2 i2 E2. apply skip_le in E2; try assumption; [|lia].
    apply noob_bind; [apply str_noob; assumption|]. intros b i3 E3. apply str_le in E3; try assumption. destruct E3 as (_ & Bb & Lb).
    apply noob_bind; [apply mp_noob; try assumption; lia|]. intros r i4 E4. apply mp_le in E4; try assumption; [|lia].
    apply noob_bind; [apply mp_noob; assumption|]. intros s i5 _. apply require_oob.
  - unfold OsshVerifyEd25519.
    apply noob_bind; [apply str_noob; assumption|]. intros q i1 _.
    apply noob_bind; [apply skip_noob; try assumption; lia|]. intros u2 i2 E2. apply skip_le in E2; try assumption; [|lia].
    apply noob_bind; [apply str_noob; assumption|]. intros b i3 _. apply require_oob.
Qed.

Lemma check_noob : forall x id blob, bytes_ok blob -> is32 (lenN blob) -> check_cert x id blob <> POob.
Proof.
  intros x id blob B L. unfold check_cert. destruct (parse_noob id blob B L) as (N & K).
  apply noob_bind; [exact N|]. intros k i E. apply K in E. pose proof E as (_ & _ & (Bcr & Lcr) & (Bex & Lex)).
  apply noob_bind; [apply require_oob|]. intros _ _ _.
  apply noob_bind; [apply verify_noob; exact E|]. intros _ _ _.
  apply noob_bind; [|discriminate]. unfold OsshCertCheckOptions.
  apply noob_bind; [apply crit_noob; try assumption; unfold lenN; lia|]. intros r i2 _.
  apply noob_bind; [apply opts_noob; try assumption; unfold lenN; lia|discriminate].
Qed.

(* ---- certificates are unambiguous ------------------------------------------------ *)
Lemma key_fields_type : forall type k, key_fields type k -> In type key_types.
Proof.
  intros type k [(-> & _)|[(I & _)|(-> & _)]]; [cbn; tauto| |cbn; tauto].
  cbn [In] in *. destruct I as [<- |[<- |[<- |[]]]]; cbn; tauto.
Qed.

Lemma cert_type_fun : forall n t1 t2, In (n, t1) cert_types -> In (n, t2) cert_types -> t1 = t2.
Proof.
  intros n t1 t2 H1 H2. cbn [In cert_types] in H1, H2.
  destruct H1 as [H1|[H1|[H1|[H1|[H1|[H1|[H1|[]]]]]]]]; injection H1 as <- <-;
    destruct H2 as [H2|[H2|[H2|[H2|[H2|[H2|[H2|[]]]]]]]]; inversion H2; reflexivity.
Qed.

Lemma cert_name_len : forall n t, In (n, t) cert_types -> is32 (lenN (ascii n)).
Proof.
  intros n t H. cbn [In cert_types] in H.
  destruct H as [H|[H|[H|[H|[H|[H|[H|[]]]]]]]]; injection H as <- <-; vm_compute; reflexivity.
Qed.
Lemma cert_name_ascii : forall n t n2 t2, In (n, t) cert_types -> In (n2, t2) cert_types -> ascii n = ascii n2 -> n = n2.
Proof.
  intros n t n2 t2 H1 H2 E. cbn [In cert_types] in H1, H2.
  destruct H1 as [H1|[H1|[H1|[H1|[H1|[H1|[H1|[]]]]]]]]; injection H1 as <- <-;
    destruct H2 as [H2|[H2|[H2|[H2|[H2|[H2|[H2|[]]]]]]]]; injection H2 as <- <-; try reflexivity; vm_compute in E; discriminate.
Qed.

Lemma key_inj : forall type k1 k2 r s, key_fields type k1 -> key_fields type k2 ->
  is32 (lenN (strs k1)) -> is32 (lenN (strs k2)) -> strs k1 ++ r = strs k2 ++ s -> k1 = k2 /\ r = s.
Proof.
  intros type k1 k2 r s F1 F2 L1 L2 E.
  assert (Two : forall a b c d, is32 (lenN (strs [a; b])) -> is32 (lenN (strs [c; d])) -> strs [a; b] ++ r = strs [c; d] ++ s -> [a; b] = [c; d] /\ r = s).
  { intros a b c d La Lb H. rewrite !strs_2 in *. rewrite !lenN_app, !lenN_str in *. rewrite <- !app_assoc in H.
    apply str_inj in H; [|unfold is32, W32 in *; lia|unfold is32, W32 in *; lia]. destruct H as (-> & H).
    apply str_inj in H; [|unfold is32, W32 in *; lia|unfold is32, W32 in *; lia]. destruct H as (-> & ->). auto. }
  assert (One : forall a c, is32 (lenN (strs [a])) -> is32 (lenN (strs [c])) -> strs [a] ++ r = strs [c] ++ s -> [a] = [c] /\ r = s).
  { intros a c La Lb H. rewrite !strs_1 in *. rewrite !lenN_str in *.
    apply str_inj in H; [|unfold is32, W32 in *; lia|unfold is32, W32 in *; lia]. destruct H as (-> & ->). auto. }
  destruct F1 as [(-> & e1 & n1 & -> & _)|[(I1 & e1 & n1 & ->)|(-> & q1 & ->)]];
    destruct F2 as [(X & e2 & n2 & -> & _)|[(I2 & e2 & n2 & ->)|(X & q2 & ->)]]; try (apply Two; assumption); try (apply One; assumption);
    try discriminate; exfalso; cbn [In] in *; subst; intuition discriminate.
Qed.

(* the signed part determines everything but the signature *)
Lemma signed_inj : forall c1 c2 t1 t2 r s, certifies c1 t1 -> certifies c2 t2 ->
  is32 (lenN (signed_part c1)) -> is32 (lenN (signed_part c2)) ->
  signed_part c1 ++ r = signed_part c2 ++ s ->
  t1 = t2 /\ r = s /\ c2 = Certificate (c_name c1) (c_nonce c1) (c_key c1) (c_serial c1) (c_kind c1) (c_id c1) (c_principals c1)
    (c_after c1) (c_before c1) (c_critical c1) (c_extensions c1) (c_reserved c1) (c_authority c1) (c_signature c2).
Proof.
  intros c1 c2 t1 t2 r s (T1 & F1 & V1 & V2 & V3 & V4) (T2 & F2 & W1 & W2 & W3 & W4) L1 L2 E.
  unfold signed_part in *. rewrite !lenN_app, !lenN_str, ?lenN_be64, ?lenN_be32 in L1, L2. rewrite <- !app_assoc in E.
  apply str_inj in E; [|eapply cert_name_len; eassumption|eapply cert_name_len; eassumption]. destruct E as (E1 & E).
  apply (cert_name_ascii _ _ _ _ T1 T2) in E1. rewrite <- E1 in T2. pose proof (cert_type_fun _ _ _ T1 T2) as <-.
  assert (B : forall a, a < W32 -> is32 a) by (intros; assumption). unfold is32, W32 in L1, L2.
  apply str_inj in E; [|apply B; unfold W32; lia|apply B; unfold W32; lia]. destruct E as (E2 & E).
  apply (key_inj _ _ _ _ _ F1 F2) in E; [|apply B; unfold W32; lia|apply B; unfold W32; lia]. destruct E as (E3 & E).
  apply be64_app_inj in E; [|assumption|assumption]. destruct E as (E4 & E).
  apply be32_app_inj in E; [|assumption|assumption]. destruct E as (E5 & E).
  apply str_inj in E; [|apply B; unfold W32; lia|apply B; unfold W32; lia]. destruct E as (E6 & E).
  apply str_inj in E; [|apply B; unfold W32; lia|apply B; unfold W32; lia]. destruct E as (E7 & E).
  apply be64_app_inj in E; [|assumption|assumption]. destruct E as (E8 & E).
  apply be64_app_inj in E; [|assumption|assumption]. destruct E as (E9 & E).
  apply str_inj in E; [|apply B; unfold W32; lia|apply B; unfold W32; lia]. destruct E as (E10 & E).
  apply str_inj in E; [|apply B; unfold W32; lia|apply B; unfold W32; lia]. destruct E as (E11 & E).
  apply str_inj in E; [|apply B; unfold W32; lia|apply B; unfold W32; lia]. destruct E as (E12 & E).
  apply str_inj in E; [|apply B; unfold W32; lia|apply B; unfold W32; lia]. destruct E as (E13 & E).
  split; [reflexivity|]. split; [exact E|]. destruct c1 as [a1 a2 a3 a4 a5 a6 a7 a8 a9 a10 a11 a12 a13 a14], c2 as [b1 b2 b3 b4 b5 b6 b7 b8 b9 b10 b11 b12 b13 b14]. cbn [c_name c_nonce c_key c_serial c_kind c_id c_principals c_after c_before c_critical c_extensions c_reserved c_authority c_signature] in *.
  subst. reflexivity.
Qed.
