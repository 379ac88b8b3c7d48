(* OsshProofs.v - lemmas about OsshModel: readers, and what OsshCertParse
   accepts. *)
From Verif Require Import Base WireModel WireSpec WireProofs NameTable NegoModel NegoSpec NegoProofs AuthModel AuthSpec AuthProofs AuthStep AuthProps OsshModel OsshSpec.
From Coq Require Import List NArith Lia Bool String.
Import ListNotations.
Open Scope N_scope.
Local Notation "a ++ b" := (@app _ a b) : list_scope.

Lemma be32_c32toa : forall v, be32 v = c32toa v.
Proof. intros v. rewrite c32toa_div. reflexivity. Qed.
Lemma lenN_be32 : forall v, lenN (be32 v) = 4.
Proof. intros v. rewrite be32_c32toa. apply c32toa_length. Qed.
Lemma str_put : forall s, str s = PutString s.
Proof. intros s. unfold str, PutString. rewrite be32_c32toa. reflexivity. Qed.
Lemma lenN_str : forall s, lenN (str s) = 4 + lenN s.
Proof. intros s. unfold str. rewrite lenN_app, lenN_be32. reflexivity. Qed.
Lemma lenN_be64 : forall v, lenN (be64 v) = 8.
Proof. intros v. unfold be64. rewrite lenN_app, !lenN_be32. reflexivity. Qed.

Lemma is_str_str : forall f s, is_str f s <-> f = str s /\ is32 (lenN s).
Proof.
  intros f s. split.
  - intros (l & -> & L & V & B). split.
    + unfold str. rewrite <- V, be32_c32toa, c32toa_be_value by assumption. reflexivity.
    + rewrite <- V. pose proof (be_value_lt l 0 B) as Q. unfold slice in Q. rewrite dropN_0 in Q.
      rewrite takeN_all in Q by lia. apply Q. lia.
  - intros (-> & H). exists (be32 (lenN s)). split; [reflexivity|]. split; [apply lenN_be32|].
    rewrite be32_c32toa. split; [apply be_value_c32toa; assumption|apply c32toa_ok].
Qed.

Lemma pbind_ok : forall A B (r : pres A) (f : A -> N -> pres B) b j,
  pbind r f = POk b j <-> exists a i, r = POk a i /\ f a i = POk b j.
Proof.
  intros A B r f b j. destruct r as [a i|e i|]; cbn [pbind].
  - split; [intros H; exists a, i; auto|intros (a' & i' & E & H); injection E as <- <-; exact H].
  - split; [discriminate|intros (a & i' & E & _); discriminate].
  - split; [discriminate|intros (a & i' & E & _); discriminate].
Qed.

Lemma require_pos : forall b e i u j, require b e i = POk u j <-> b = true /\ j = i.
Proof.
  intros b e i u j. unfold require. destruct b, u; split; try discriminate.
  - intros H. injection H as <-. auto.
  - intros (_ & ->). reflexivity.
  - intros (H & _). discriminate.
Qed.

(* ---- readers on a message [m] --------------------------------------------- *)
(* [at_ m i f j]: the bytes f lie in m between i and j *)
Definition at_ (m : bytes) (i : N) (f : bytes) (j : N) : Prop :=
  dropN i m = f ++ dropN j m /\ j = i + lenN f /\ j <= lenN m.

Lemma at_app : forall m i f g j k, at_ m i f j -> at_ m j g k -> at_ m i (f ++ g) k.
Proof.
  intros m i f g j k (A & B & C) (D & E & F). split; [rewrite A, D, app_assoc; reflexivity|].
  rewrite lenN_app. lia.
Qed.
Lemma at_nil : forall m i, i <= lenN m -> at_ m i [] i.
Proof. intros m i H. split; [reflexivity|]. unfold lenN at 1. cbn. lia. Qed.
(* forward: the bytes are there *)
Lemma at_of : forall m i f r, dropN i m = f ++ r -> i <= lenN m -> at_ m i f (i + lenN f) /\ dropN (i + lenN f) m = r.
Proof.
  intros m i f r H L.
  assert (D : dropN (i + lenN f) m = r).
  { rewrite <- (dropN_dropN _ (lenN f) i m), H. apply dropN_app_exact. reflexivity. }
  split; [|exact D]. split; [rewrite D; exact H|]. split; [reflexivity|].
  pose proof (f_equal (@lenN N) H) as Q. rewrite lenN_dropN, lenN_app in Q. lia.
Qed.
Lemma at_fun : forall m i f j k, at_ m i f j -> at_ m i f k -> j = k.
Proof. intros m i f j k (_ & A & _) (_ & B & _). congruence. Qed.
Lemma at_inv : forall m i f g k, at_ m i (f ++ g) k -> at_ m i f (i + lenN f) /\ at_ m (i + lenN f) g k.
Proof.
  intros m i f g k (A & B & C). rewrite <- app_assoc in A.
  destruct (at_of m i f _ A ltac:(rewrite lenN_app in B; lia)) as (P & Q). split; [exact P|].
  rewrite lenN_app in B. split; [exact Q|]. lia.
Qed.

Section M.
Variable m : bytes.
Hypothesis Hm : bytes_ok m.
Hypothesis H3 : is32 (lenN m).

Lemma le32 : forall i, i <= lenN m -> is32 i.
Proof using H3. unfold is32 in *. intros i H. lia. Qed.

Lemma GetStr_iff : forall i s j, i <= lenN m ->
  (GetStr m (lenN m) i = POk s j <-> at_ m i (str s) j).
Proof using Hm H3.
  intros i s j Hi. pose proof (le32 i Hi) as Hi3. split.
  - intros G. pose proof (GetStr_inv m i Hm H3 Hi3) as I. rewrite G in I.
    destruct I as ((f & D & S & -> & L & _) & _). apply is_str_str in S. destruct S as (-> & _).
    split; [exact D|]. split; [reflexivity|exact L].
  - intros (D & -> & L). rewrite lenN_str in L.
    assert (S : is_str (str s) s) by (apply is_str_str; split; [reflexivity|unfold is32 in *; lia]).
    destruct (read_fwd m i (str s) s _ Hm H3 D Hi S) as (R & _). exact R.
Qed.

Lemma GetStr_str : forall i s j, i <= lenN m -> at_ m i (str s) j -> GetStr m (lenN m) i = POk s j.
Proof using Hm H3. intros i s j Hi. apply GetStr_iff. exact Hi. Qed.

Lemma at_str_ok : forall i s j, at_ m i (str s) j -> bytes_ok s /\ is32 (lenN s) /\ lenN s <= lenN m.
Proof using Hm H3.
  intros i s j (D & E & L). rewrite lenN_str in E.
  assert (B : bytes_ok (dropN i m)).
  { pose proof Hm as Q. rewrite <- (takeN_dropN _ i m) in Q. apply bytes_ok_app in Q. tauto. }
  rewrite D in B. unfold str in B. rewrite <- app_assoc in B. apply bytes_ok_app in B. destruct B as (_ & B).
  apply bytes_ok_app in B. split; [tauto|]. unfold is32 in *. lia.
Qed.

Lemma StringRef_iff : forall i j, i <= lenN m ->
  ((exists r, GetStringRef m (lenN m) i = POk r j) <-> exists s, at_ m i (str s) j).
Proof using Hm H3.
  intros i j Hi. split.
  - intros (r & G). pose proof (GetStr_inv m i Hm H3 (le32 i Hi)) as I. unfold GetStr in I. rewrite G in I. cbn [pbind] in I.
    destruct (rdn m (fst r) (snd r)) as [b|] eqn:E; [|contradiction].
    exists b. apply GetStr_iff; [exact Hi|]. unfold GetStr. rewrite G. cbn [pbind]. rewrite E. reflexivity.
  - intros (s & A). apply GetStr_iff in A; [|exact Hi]. unfold GetStr in A. apply pbind_ok in A.
    destruct A as (r & k & G & E). destruct (rdn m (fst r) (snd r)); [|discriminate]. injection E as _ <-.
    exists r. exact G.
Qed.

Lemma testbit7 : forall x, x < 256 -> (N.testbit x 7 = false <-> x < 128).
Proof.
  intros x H. split; [apply canonical_top; exact H|]. intros L.
  destruct (N.eq_dec x 0) as [-> |N0]; [reflexivity|]. apply N.bits_above_log2.
  apply N.log2_lt_pow2; [lia|]. exact L.
Qed.

Lemma Skip_iff : forall i j u, i <= lenN m -> (GetSkip m (lenN m) i = POk u j <-> exists s, at_ m i (str s) j).
Proof using Hm H3.
  intros i j u Hi. pose proof (le32 i Hi) as Hi3. rewrite <- StringRef_iff by exact Hi.
  rewrite GetSkip_eq, GetStringRef_eq by (assumption || lia).
  destruct (i + 4 <=? lenN m); cbv zeta.
  - destruct (i + 4 + be_value (slice m i 4) <=? lenN m); destruct u.
    + split; [intros H; injection H as <-; eexists; reflexivity|intros (r & H); inversion H; reflexivity].
    + split; [discriminate|intros (r & H); discriminate].
  - split; [discriminate|intros (r & H); discriminate].
Qed.

Lemma GetMp_iff : forall i s j, i <= lenN m -> (GetMp m i = POk s j <-> at_ m i (str s) j /\ not_negative s).
Proof using Hm H3.
  intros i s j Hi. pose proof (le32 i Hi) as Hi3. rewrite <- GetStr_iff by exact Hi.
  unfold GetMp. rewrite GetMpint_eq, GetStr_eq by (assumption || lia).
  destruct (N.leb_spec (i + 4) (lenN m)) as [L|L]; cbn [pbind]; [|split; [discriminate|intros (H & _); discriminate]].
  cbv zeta. destruct (N.leb_spec (i + 4 + be_value (slice m i 4)) (lenN m)) as [L2|L2]; cbn [pbind];
    [|split; [discriminate|intros (H & _); discriminate]].
  set (n := be_value (slice m i 4)) in *.
  pose proof (slice_ok m (i + 4) n Hm) as B.
  destruct (slice m (i + 4) n) as [|x l] eqn:E; cbn [pbind fst snd].
  - rewrite rdn_some, E by lia. split; [intros H; inversion H; subst; cbn; auto|tauto].
  - assert (X : x < 256) by (inversion B; assumption).
    destruct (N.testbit x 7) eqn:T; cbn [pbind fst snd].
    + split; [discriminate|]. intros (H & Q). inversion H; subst s. cbn in Q. apply testbit7 in Q; [congruence|exact X].
    + rewrite rdn_some, E by lia. apply testbit7 in T; [|exact X].
      split; [intros H; inversion H; subst; cbn; auto|tauto].
Qed.

Lemma Mpint_iff : forall i j, i <= lenN m ->
  ((exists r, GetMpint m (lenN m) i = POk r j) <-> exists s, at_ m i (str s) j /\ not_negative s).
Proof using Hm H3.
  intros i j Hi. split.
  - intros (r & G). pose proof (GetMpint_inv m i Hm H3 (le32 i Hi)) as I. rewrite G in I. destruct r as [o n].
    destruct I as (E & _). exists (slice m o n). apply GetMp_iff; [exact Hi|]. unfold GetMp. rewrite G. cbn [pbind fst snd].
    rewrite E. reflexivity.
  - intros (s & A). apply GetMp_iff in A; [|exact Hi]. unfold GetMp in A. apply pbind_ok in A.
    destruct A as (r & k & G & E). destruct (rdn m (fst r) (snd r)); [|discriminate]. injection E as _ <-.
    exists r. exact G.
Qed.

Lemma be32_value : forall l, lenN l = 4 -> bytes_ok l -> be32 (be_value l) = l.
Proof. intros l L B. rewrite be32_c32toa. apply c32toa_be_value; assumption. Qed.

Lemma GetUint32_iff : forall i v j, i <= lenN m ->
  (GetUint32 m (lenN m) i = POk v j <-> at_ m i (be32 v) j /\ v < W32).
Proof using Hm H3.
  intros i v j Hi. pose proof (le32 i Hi) as Hi3. rewrite GetUint32_eq by (assumption || lia).
  destruct (N.leb_spec (i + 4) (lenN m)) as [L|L].
  - split.
    + intros H. inversion H; subst. split; [|apply be_value_lt; assumption].
      pose proof (slice_length m i 4 ltac:(lia)) as SL.
      rewrite be32_value by (try assumption; apply slice_ok; assumption).
      split; [apply slice_dropN; lia|]. lia.
    + intros ((D & E & _) & V). rewrite lenN_be32 in E. subst j. f_equal.
      unfold slice. rewrite D, takeN_app_exact by (rewrite lenN_be32; reflexivity).
      rewrite be32_c32toa. apply be_value_c32toa. exact V.
  - split; [discriminate|]. intros ((_ & E & F) & _). rewrite lenN_be32 in E. lia.
Qed.

Lemma GetUint64_iff : forall i v j, i <= lenN m ->
  (GetUint64 m (lenN m) i = POk v j <-> at_ m i (be64 v) j /\ v < W32 * W32).
Proof using Hm H3.
  intros i v j Hi. unfold GetUint64. rewrite pbind_ok. split.
  - intros (hi & k & A & B). apply pbind_ok in B. destruct B as (lo & k2 & B & C). inversion C; subst; clear C.
    apply GetUint32_iff in A; [|exact Hi]. destruct A as (A & A2).
    apply GetUint32_iff in B; [|destruct A as (_ & _ & A); exact A]. destruct B as (B & B2).
    unfold be64. assert (Q1 : (hi * W32 + lo) / W32 = hi).
    { rewrite N.div_add_l by (unfold W32; lia). rewrite N.div_small by exact B2. lia. }
    assert (Q2 : (hi * W32 + lo) mod W32 = lo).
    { rewrite N.add_comm, N.mod_add by (unfold W32; lia). apply N.mod_small. exact B2. }
    rewrite Q1, Q2. split; [eapply at_app; eassumption|]. unfold W32 in *. nia.
  - intros (A & V). unfold be64 in A. apply at_inv in A. destruct A as (A & B).
    assert (V1 : v / W32 < W32) by (apply N.div_lt_upper_bound; [unfold W32; lia|exact V]).
    assert (V2 : v mod W32 < W32) by (apply N.mod_lt; unfold W32; lia).
    exists (v / W32), (i + lenN (be32 (v / W32))). split; [apply GetUint32_iff; auto|].
    apply pbind_ok. exists (v mod W32), j. split.
    + apply GetUint32_iff; [destruct A as (_ & _ & A); exact A|auto].
    + f_equal. rewrite N.mul_comm. symmetry. apply N.div_mod. unfold W32. lia.
Qed.

Lemma region_iff : forall i b j, i <= j -> j <= lenN m ->
  (region m i j = POk b j <-> b = slice m i (j - i)).
Proof using H3.
  intros i b j L1 L2. unfold region. rewrite sub32_small by (unfold is32, W32 in *; lia).
  rewrite rdn_some by lia. split; [intros H; inversion H; reflexivity|intros ->; reflexivity].
Qed.
Lemma at_slice : forall i f j, at_ m i f j -> slice m i (j - i) = f.
Proof. intros i f j (D & -> & _). unfold slice. rewrite D. apply takeN_app_exact. lia. Qed.

End M.

(* names *)
Definition key_types : list string :=
  ["ssh-rsa"; "ecdsa-sha2-nistp256"; "ecdsa-sha2-nistp384"; "ecdsa-sha2-nistp521"; "ssh-ed25519"]%string.

Lemma base_of_type : forall algo type, In (algo, type) cert_types ->
  OsshCertBaseId (NameToId (ascii algo)) = NameToId (ascii type) /\ In type key_types /\
  is_cert_id (NameToId (ascii algo)) = true.
Proof.
  intros algo type H. cbn [In cert_types] in H.
  repeat (destruct H as [H|H]; [injection H as <- <-; vm_compute; tauto|]). contradiction.
Qed.

(* a name with the identifier of a table entry is one of the entry's names *)
Lemma name_of_id : forall n id, NameToId n = id -> id <> ID_UNKNOWN ->
  In n (map snd (filter (fun r => fst (fst r) =? id) NameIdMap)).
Proof.
  intros n id H Hu. unfold NameToId, NameToIdType in H.
  destruct (lookup_name_in NameIdMap n) as [(i & ty & A & B)|(A & B)].
  - rewrite B in H. cbn [fst] in H. subst i. apply in_map_iff. exists (id, ty, n). split; [reflexivity|].
    apply filter_In. split; [exact A|]. cbn [fst]. apply N.eqb_refl.
  - rewrite B in H. cbn [fst] in H. congruence.
Qed.

Lemma cert_name_table : forallb (fun a => forallb (fun r => negb (fst (fst r) =? NameToId (ascii (fst a))) ||
    existsb (fun c => bytes_eqb (snd r) (ascii (fst c)) && String.eqb (snd c) (snd a)) cert_types) NameIdMap) cert_types = true.
Proof. vm_compute. reflexivity. Qed.
Lemma cert_names_known : forallb (fun a => negb (NameToId (ascii (fst a)) =? ID_UNKNOWN)) cert_types = true.
Proof. vm_compute. reflexivity. Qed.

Lemma cert_name : forall algo type n, In (algo, type) cert_types -> NameToId n = NameToId (ascii algo) ->
  exists name, n = ascii name /\ In (name, type) cert_types.
Proof.
  intros algo type n H E. apply name_of_id in E.
  - pose proof cert_name_table as T. rewrite forallb_forall in T. specialize (T _ H). rewrite forallb_forall in T.
    apply in_map_iff in E. destruct E as (r & <- & I). apply filter_In in I. destruct I as (I & J).
    specialize (T _ I). cbn [fst] in T. rewrite J in T. cbn [negb orb] in T. apply existsb_exists in T.
    destruct T as ((c1 & c2) & I2 & T). apply andb_prop in T. destruct T as (T1 & T2).
    apply bytes_eqb_eq in T1. apply String.eqb_eq in T2. cbn [fst snd] in *. subst c2. exists c1. auto.
  - pose proof cert_names_known as T. rewrite forallb_forall in T. specialize (T _ H). cbn [fst] in T.
    destruct (N.eqb_spec (NameToId (ascii algo)) ID_UNKNOWN); [discriminate|assumption].
Qed.

Lemma cert_same_id : forallb (fun a => forallb (fun b => negb (String.eqb (snd a) (snd b)) ||
   (NameToId (ascii (fst a)) =? NameToId (ascii (fst b)))) cert_types) cert_types = true.
Proof. vm_compute. reflexivity. Qed.
Lemma cert_id : forall a b type, In (a, type) cert_types -> In (b, type) cert_types ->
  NameToId (ascii a) = NameToId (ascii b).
Proof.
  intros a b type A B. pose proof cert_same_id as T. rewrite forallb_forall in T. specialize (T _ A).
  rewrite forallb_forall in T. specialize (T _ B). cbn [fst snd] in T. rewrite String.eqb_refl in T.
  cbn [negb orb] in T. apply N.eqb_eq. exact T.
Qed.

(* ---- the certified key ------------------------------------------------------ *)
Lemma strs_cons : forall a l, strs (a :: l) = str a ++ strs l.
Proof. reflexivity. Qed.
Lemma strs_1 : forall a, strs [a] = str a.
Proof. intros a. rewrite strs_cons. unfold strs. cbn [map List.concat]. apply app_nil_r. Qed.
Lemma strs_2 : forall a b, strs [a; b] = str a ++ str b.
Proof. intros a b. rewrite strs_cons, strs_1. reflexivity. Qed.

Section S.
Variable m : bytes.
Hypothesis Hm : bytes_ok m.
Hypothesis H3 : is32 (lenN m).

Lemma SkipUserKey_iff : forall type i u j, In type key_types -> i <= lenN m ->
  (OsshSkipUserKey (NameToId (ascii type)) m i = POk u j <->
   exists k, key_fields type k /\ at_ m i (strs k) j).
Proof using Hm H3.
  intros type i u j T Hi. unfold OsshSkipUserKey.
  assert (Two : forall t, In t ["ecdsa-sha2-nistp256"; "ecdsa-sha2-nistp384"; "ecdsa-sha2-nistp521"]%string ->
    ((pbind (GetStringRef m (lenN m) i) (fun _ i0 => pbind (GetStringRef m (lenN m) i0) (fun _ i1 => POk tt i1))) = POk u j <->
     exists k, key_fields t k /\ at_ m i (strs k) j)).
  { intros t It. rewrite pbind_ok. split.
    - intros (r & k & A & B). apply pbind_ok in B. destruct B as (r2 & k2 & B & C). inversion C; subst; clear C.
      destruct (proj1 (StringRef_iff m Hm H3 i k Hi) ltac:(eauto)) as (s & S1).
      destruct (proj1 (StringRef_iff m Hm H3 k j ltac:(destruct S1; tauto)) ltac:(eauto)) as (s2 & S2).
      exists [s; s2]. split; [right; left; split; [exact It|eauto]|]. rewrite strs_2. eapply at_app; eassumption.
    - intros (k & K & A). destruct K as [(E & _)|[(_ & c & q & ->)|(E & _)]];
        try (subst t; cbn in It; intuition discriminate).
      rewrite strs_2 in A. apply at_inv in A. destruct A as (A & B).
      destruct (proj2 (StringRef_iff m Hm H3 i _ Hi) ltac:(eauto)) as (r & R).
      destruct (proj2 (StringRef_iff m Hm H3 _ j ltac:(destruct A as (_ & _ & A); exact A)) ltac:(eauto)) as (r2 & R2).
      exists r, (i + lenN (str c)). split; [exact R|]. apply pbind_ok. exists r2, j. destruct u. auto. }
  cbn [In key_types] in T. destruct T as [<- |[<- |[<- |[<- |[<- |[]]]]]].
  - change (NameToId (ascii "ssh-rsa") =? ID_SSH_RSA) with true. cbv iota. rewrite pbind_ok. split.
    + intros (r & k & A & B). apply pbind_ok in B. destruct B as (r2 & k2 & B & C). inversion C; subst; clear C.
      destruct (proj1 (Mpint_iff m Hm H3 i k Hi) ltac:(eauto)) as (s & S1 & N1).
      destruct (proj1 (Mpint_iff m Hm H3 k j ltac:(destruct S1; tauto)) ltac:(eauto)) as (s2 & S2 & N2).
      exists [s; s2]. split; [left; eauto 8|]. rewrite strs_2. eapply at_app; eassumption.
    + intros (k & K & A). destruct K as [(_ & e & n & -> & N1 & N2)|[(E & _)|(E & _)]];
        try (cbn in E; intuition discriminate).
      rewrite strs_2 in A. apply at_inv in A. destruct A as (A & B).
      destruct (proj2 (Mpint_iff m Hm H3 i _ Hi) ltac:(eauto)) as (r & R).
      destruct (proj2 (Mpint_iff m Hm H3 _ j ltac:(destruct A as (_ & _ & A); exact A)) ltac:(eauto)) as (r2 & R2).
      exists r, (i + lenN (str e)). split; [exact R|]. apply pbind_ok. exists r2, j. destruct u. auto.
  - change (NameToId (ascii "ecdsa-sha2-nistp256") =? ID_SSH_RSA) with false.
    change (is_ecdsa (NameToId (ascii "ecdsa-sha2-nistp256"))) with true. cbv iota. apply Two. cbn. auto.
  - change (NameToId (ascii "ecdsa-sha2-nistp384") =? ID_SSH_RSA) with false.
    change (is_ecdsa (NameToId (ascii "ecdsa-sha2-nistp384"))) with true. cbv iota. apply Two. cbn. auto.
  - change (NameToId (ascii "ecdsa-sha2-nistp521") =? ID_SSH_RSA) with false.
    change (is_ecdsa (NameToId (ascii "ecdsa-sha2-nistp521"))) with true. cbv iota. apply Two. cbn. auto.
  - change (NameToId (ascii "ssh-ed25519") =? ID_SSH_RSA) with false.
    change (is_ecdsa (NameToId (ascii "ssh-ed25519"))) with false.
    change (NameToId (ascii "ssh-ed25519") =? ID_ED25519) with true. cbv iota. rewrite pbind_ok. split.
    + intros (r & k & A & B). inversion B; subst; clear B.
      destruct (proj1 (StringRef_iff m Hm H3 i j Hi) ltac:(eauto)) as (s & S1).
      exists [s]. split; [right; right; eauto|]. rewrite strs_1. exact S1.
    + intros (k & K & A). destruct K as [(E & _)|[(E & _)|(_ & q & ->)]];
        try (cbn in E; intuition discriminate).
      rewrite strs_1 in A. destruct (proj2 (StringRef_iff m Hm H3 i j Hi) ltac:(eauto)) as (r & R).
      exists r, j. destruct u. auto.
Qed.
End S.

(* ---- the whole certificate ---------------------------------------------------- *)
Lemma at_le : forall m i f j, at_ m i f j -> j <= lenN m /\ i <= j.
Proof. intros m i f j (_ & -> & L). lia. Qed.

(* what the parser leaves behind *)
Definition view (c : certificate) (type : string) (catype : bytes) : cert :=
  mkCert (NameToId (ascii type)) (strs (c_key c)) (c_kind c) (c_principals c) (c_after c) (c_before c)
         (c_critical c) (c_extensions c) (c_authority c) catype (signed_part c) (c_signature c).

Lemma parse_iff : forall algo type blob k j, In (algo, type) cert_types -> bytes_ok blob -> is32 (lenN blob) ->
  (OsshCertParse (NameToId (ascii algo)) blob = POk k j <->
   j = lenN blob /\ exists c catype rest, certifies c type /\ blob = cert_bytes c /\ c_authority c = str catype ++ rest /\
     k = view c type catype).
Proof.
  intros algo type blob k j T Hb H3. destruct (base_of_type _ _ T) as (Eb & Tk & _).
  unfold OsshCertParse. rewrite Eb. split.
  - intros P. cbv zeta in P.
    destruct (lenN blob =? 0); [discriminate|]. destruct (_ =? ID_UNKNOWN); [discriminate|].
    apply pbind_ok in P. destruct P as (name & i1 & A1 & P). apply GetStr_iff in A1; [|assumption|assumption|lia].
    apply pbind_ok in P. destruct P as (u2 & i2 & A2 & P). apply require_pos in A2. destruct A2 as (A2 & ->).
    apply N.eqb_eq in A2. destruct (cert_name _ _ _ T A2) as (nm & -> & Tn). pose proof (at_le _ _ _ _ A1) as (L1 & _).
    apply pbind_ok in P. destruct P as (nonce & i3 & A3 & P). apply GetStr_iff in A3; [|assumption|assumption|lia]. pose proof (at_le _ _ _ _ A3) as (L3 & _).
    apply pbind_ok in P. destruct P as (u4 & i4 & A4 & P). apply SkipUserKey_iff in A4; [|assumption|assumption|assumption|lia].
    destruct A4 as (key & K & A4). pose proof (at_le _ _ _ _ A4) as (L4 & L4').
    apply pbind_ok in P. destruct P as (parms & i5 & A5 & P).
    assert (i5 = i4) as -> by (unfold region in A5; destruct (rdn _ _ _); inversion A5; reflexivity).
    apply region_iff in A5; [|assumption|assumption|assumption]. rewrite (at_slice _ _ _ _ A4) in A5. subst parms.
    apply pbind_ok in P. destruct P as (serial & i6 & A6 & P). apply GetUint64_iff in A6; [|assumption|assumption|lia]. destruct A6 as (A6 & V6). pose proof (at_le _ _ _ _ A6) as (L6 & _).
    apply pbind_ok in P. destruct P as (kind & i7 & A7 & P). apply GetUint32_iff in A7; [|assumption|assumption|lia]. destruct A7 as (A7 & V7). pose proof (at_le _ _ _ _ A7) as (L7 & _).
    apply pbind_ok in P. destruct P as (kid & i8 & A8 & P). apply GetStr_iff in A8; [|assumption|assumption|lia]. pose proof (at_le _ _ _ _ A8) as (L8 & _).
    apply pbind_ok in P. destruct P as (princ & i9 & A9 & P). apply GetStr_iff in A9; [|assumption|assumption|lia]. pose proof (at_le _ _ _ _ A9) as (L9 & _).
    apply pbind_ok in P. destruct P as (after & i10 & A10 & P). apply GetUint64_iff in A10; [|assumption|assumption|lia]. destruct A10 as (A10 & V10). pose proof (at_le _ _ _ _ A10) as (L10 & _).
    apply pbind_ok in P. destruct P as (before & i11 & A11 & P). apply GetUint64_iff in A11; [|assumption|assumption|lia]. destruct A11 as (A11 & V11). pose proof (at_le _ _ _ _ A11) as (L11 & _).
    apply pbind_ok in P. destruct P as (crit & i12 & A12 & P). apply GetStr_iff in A12; [|assumption|assumption|lia]. pose proof (at_le _ _ _ _ A12) as (L12 & _).
    apply pbind_ok in P. destruct P as (ext & i13 & A13 & P). apply GetStr_iff in A13; [|assumption|assumption|lia]. pose proof (at_le _ _ _ _ A13) as (L13 & _).
    apply pbind_ok in P. destruct P as (resv & i14 & A14 & P). apply GetStr_iff in A14; [|assumption|assumption|lia]. pose proof (at_le _ _ _ _ A14) as (L14 & _).
    apply pbind_ok in P. destruct P as (ca & i15 & A15 & P). apply GetStr_iff in A15; [|assumption|assumption|lia]. pose proof (at_le _ _ _ _ A15) as (L15 & _).
    destruct (at_str_ok blob Hb H3 _ _ _ A15) as (Bca & Lca & _).
    apply pbind_ok in P. destruct P as (catype & jc & Ac & P). apply GetStr_iff in Ac; [|assumption|assumption|lia].
    apply pbind_ok in P. destruct P as (tbs & i16 & A16 & P).
    assert (i16 = i15) as -> by (unfold region in A16; destruct (rdn _ _ _); inversion A16; reflexivity).
    apply region_iff in A16; [|assumption|lia|assumption].
    apply pbind_ok in P. destruct P as (sig & i17 & A17 & P). apply GetStr_iff in A17; [|assumption|assumption|lia].
    apply pbind_ok in P. destruct P as (u18 & i18 & A18 & P). apply require_pos in A18. destruct A18 as (A18 & ->). apply N.eqb_eq in A18. subst i17.
    injection P as <- <-. split; [reflexivity|].
    set (c := Certificate nm nonce key serial kind kid princ after before crit ext resv ca sig).
    assert (W : at_ blob 0 (signed_part c) i15).
    { unfold signed_part, c. cbn [c_name c_nonce c_key c_serial c_kind c_id c_principals c_after c_before c_critical c_extensions c_reserved c_authority].
      repeat (eapply at_app; [eassumption|]). eassumption. }
    exists c, catype, (dropN jc ca). split; [|split; [|split]].
    + unfold certifies, c. cbn [c_name c_key c_serial c_kind c_after c_before]. auto 10.
    + destruct (at_app _ _ _ _ _ _ W A17) as (D & E & _). rewrite dropN_0 in D. rewrite D at 1. rewrite dropN_all by lia. apply app_nil_r.
    + destruct Ac as (D & _). rewrite dropN_0 in D. exact D.
    + unfold view. change (c_key c) with key. rewrite <- (at_slice _ _ _ _ W), A16. reflexivity.
  - intros (-> & c & catype & rest & (Tn & K & V6 & V7 & V10 & V11) & Eblob & Eca & ->). cbv zeta.
    assert (W : at_ blob 0 (cert_bytes c) (lenN blob)).
    { subst blob. split; [rewrite dropN_0, dropN_all, app_nil_r by lia; reflexivity|]. lia. }
    assert (Lb : lenN blob <> 0).
    { rewrite Eblob. unfold cert_bytes. rewrite lenN_app, lenN_str. lia. }
    destruct (N.eqb_spec (lenN blob) 0); [contradiction|].
    assert (Ku : NameToId (ascii type) =? ID_UNKNOWN = false).
    { cbn [In key_types] in Tk. destruct Tk as [<- |[<- |[<- |[<- |[<- |[]]]]]]; reflexivity. }
    rewrite Ku. unfold cert_bytes in W. apply at_inv in W. destruct W as (W & AS).
    pose proof W as W0. unfold signed_part in W.
    apply at_inv in W. destruct W as (A1 & W). rewrite (GetStr_str blob Hb H3 _ _ _ (N.le_0_l _) A1). cbn [pbind].
    rewrite (cert_id _ _ _ Tn T), N.eqb_refl. unfold require at 1. cbn [pbind]. pose proof (at_le _ _ _ _ A1) as (L1 & _).
    set (i1 := 0 + _) in *. clearbody i1.
    apply at_inv in W. destruct W as (A2 & W). rewrite (GetStr_str blob Hb H3 _ _ _ L1 A2). cbn [pbind]. pose proof (at_le _ _ _ _ A2) as (L2 & _). set (i2 := i1 + _) in *. clearbody i2.
    apply at_inv in W. destruct W as (A3 & W). pose proof (at_le _ _ _ _ A3) as (L3 & L3').
    rewrite (proj2 (SkipUserKey_iff blob Hb H3 type i2 tt _ Tk L2) ltac:(eauto)). cbn [pbind].
    rewrite (proj2 (region_iff blob H3 i2 (strs (c_key c)) _ L3' L3) ltac:(symmetry; apply at_slice; assumption)). cbn [pbind].
    set (i3 := i2 + _) in *. clearbody i3.
    apply at_inv in W. destruct W as (A4 & W). rewrite (proj2 (GetUint64_iff blob Hb H3 _ _ _ L3) (conj A4 V6)). cbn [pbind]. pose proof (at_le _ _ _ _ A4) as (L4 & _). set (i4 := i3 + _) in *. clearbody i4.
    apply at_inv in W. destruct W as (A5 & W). rewrite (proj2 (GetUint32_iff blob Hb H3 _ _ _ L4) (conj A5 V7)). cbn [pbind]. pose proof (at_le _ _ _ _ A5) as (L5 & _). set (i5 := i4 + _) in *. clearbody i5.
    apply at_inv in W. destruct W as (A6 & W). rewrite (GetStr_str blob Hb H3 _ _ _ L5 A6). cbn [pbind]. pose proof (at_le _ _ _ _ A6) as (L6 & _). set (i6 := i5 + _) in *. clearbody i6.
    apply at_inv in W. destruct W as (A7 & W). rewrite (GetStr_str blob Hb H3 _ _ _ L6 A7). cbn [pbind]. pose proof (at_le _ _ _ _ A7) as (L7 & _). set (i7 := i6 + _) in *. clearbody i7.
    apply at_inv in W. destruct W as (A8 & W). rewrite (proj2 (GetUint64_iff blob Hb H3 _ _ _ L7) (conj A8 V10)). cbn [pbind]. pose proof (at_le _ _ _ _ A8) as (L8 & _). set (i8 := i7 + _) in *. clearbody i8.
    apply at_inv in W. destruct W as (A9 & W). rewrite (proj2 (GetUint64_iff blob Hb H3 _ _ _ L8) (conj A9 V11)). cbn [pbind]. pose proof (at_le _ _ _ _ A9) as (L9 & _). set (i9 := i8 + _) in *. clearbody i9.
    apply at_inv in W. destruct W as (A10 & W). rewrite (GetStr_str blob Hb H3 _ _ _ L9 A10). cbn [pbind]. pose proof (at_le _ _ _ _ A10) as (L10 & _). set (i10 := i9 + _) in *. clearbody i10.
    apply at_inv in W. destruct W as (A11 & W). rewrite (GetStr_str blob Hb H3 _ _ _ L10 A11). cbn [pbind]. pose proof (at_le _ _ _ _ A11) as (L11 & _). set (i11 := i10 + _) in *. clearbody i11.
    apply at_inv in W. destruct W as (A12 & W). rewrite (GetStr_str blob Hb H3 _ _ _ L11 A12). cbn [pbind]. pose proof (at_le _ _ _ _ A12) as (L12 & _). set (i12 := i11 + _) in *. clearbody i12.
    rewrite (GetStr_str blob Hb H3 _ _ _ L12 W). cbn [pbind].
    destruct (at_str_ok blob Hb H3 _ _ _ W) as (Bca & Lca & _).
    assert (Ac : at_ (c_authority c) 0 (str catype) (0 + lenN (str catype))).
    { apply (at_of (c_authority c) 0 (str catype) rest); [rewrite dropN_0; exact Eca|lia]. }
    rewrite (GetStr_str (c_authority c) Bca Lca 0 _ _ (N.le_0_l _) Ac). cbn [pbind].
    pose proof (at_le _ _ _ _ W) as (L13 & _).
    rewrite (proj2 (region_iff blob H3 0 (signed_part c) _ (N.le_0_l _) L13) ltac:(symmetry; apply at_slice; assumption)). cbn [pbind].
    rewrite (GetStr_str blob Hb H3 _ _ _ L13 AS). cbn [pbind]. rewrite N.eqb_refl. unfold require. cbn [pbind]. reflexivity.
Qed.
