(* OpenKeyProofs.v - lemmas about OpenKeyModel: each reader accepts exactly its
   part of the layout. *)
From Verif Require Import Base WireModel WireSpec WireProofs WireProps NameTable NegoModel NegoSpec NegoProofs AuthModel AuthSpec AuthProofs
  OsshModel OsshSpec OsshProofs OsshProofs2 OsshProofs3 OpenKeyModel OpenKeySpec.
From Coq Require Import List NArith Lia Bool String.
Import ListNotations.
Open Scope N_scope.
Local Notation "a ++ b" := (@app _ a b) : list_scope.

Lemma import_ok : forall lib k i k' j, import lib k i = POk k' j <-> lib k = true /\ k' = k /\ j = i.
Proof.
  intros lib k i k' j. unfold import. destruct (lib k).
  - split; [intros H; injection H as <- <-; auto|intros (_ & -> & ->); reflexivity].
  - split; [discriminate|intros (H & _); discriminate].
Qed.

Lemma strs_nil : strs [] = [].
Proof. reflexivity. Qed.

Section K.
Variable m : bytes.
Hypothesis Hm : bytes_ok m.
Hypothesis H3 : is32 (lenN m).
Variable lib : importer.

(* one step of a chain of readers *)
Lemma str_step : forall A i (f : bytes -> N -> pres A) r j, i <= lenN m ->
  (pbind (GetStr m (lenN m) i) f = POk r j <-> exists s i', at_ m i (str s) i' /\ i' <= lenN m /\ f s i' = POk r j).
Proof using Hm H3.
  intros A i f r j L. rewrite pbind_ok. split.
  - intros (s & i' & G & F). apply (GetStr_iff m Hm H3 i s i' L) in G. exists s, i'. pose proof (at_le _ _ _ _ G). tauto.
  - intros (s & i' & G & _ & F). exists s, i'. split; [apply (GetStr_iff m Hm H3 i s i' L); exact G|exact F].
Qed.
Lemma mp_step : forall A i (f : bytes -> N -> pres A) r j, i <= lenN m ->
  (pbind (GetMp m i) f = POk r j <-> exists s i', at_ m i (str s) i' /\ i' <= lenN m /\ not_negative s /\ f s i' = POk r j).
Proof using Hm H3.
  intros A i f r j L. rewrite pbind_ok. split.
  - intros (s & i' & G & F). apply (GetMp_iff m Hm H3 i s i' L) in G. exists s, i'. destruct G as (G & N). pose proof (at_le _ _ _ _ G). tauto.
  - intros (s & i' & G & _ & N & F). exists s, i'. split; [apply (GetMp_iff m Hm H3 i s i' L); auto|exact F].
Qed.
Lemma skip_step : forall A i (f : unit -> N -> pres A) r j, i <= lenN m ->
  (pbind (GetSkip m (lenN m) i) f = POk r j <-> exists s i', at_ m i (str s) i' /\ i' <= lenN m /\ f tt i' = POk r j).
Proof using Hm H3.
  intros A i f r j L. rewrite pbind_ok. split.
  - intros ([] & i' & G & F). apply (Skip_iff m Hm H3 i i' tt L) in G. destruct G as (s & G). exists s, i'. pose proof (at_le _ _ _ _ G). tauto.
  - intros (s & i' & G & _ & F). exists tt, i'. split; [apply (Skip_iff m Hm H3 i i' tt L); eauto|exact F].
Qed.
Lemma u32_step : forall A i (f : N -> N -> pres A) r j, i <= lenN m ->
  (pbind (GetUint32 m (lenN m) i) f = POk r j <-> exists v i', at_ m i (be32 v) i' /\ i' <= lenN m /\ v < W32 /\ f v i' = POk r j).
Proof using Hm H3.
  intros A i f r j L. rewrite pbind_ok. split.
  - intros (v & i' & G & F). apply (GetUint32_iff m Hm H3 i v i' L) in G. destruct G as (G & V). exists v, i'. pose proof (at_le _ _ _ _ G). tauto.
  - intros (v & i' & G & _ & V & F). exists v, i'. split; [apply (GetUint32_iff m Hm H3 i v i' L); auto|exact F].
Qed.
Lemma req_step : forall A b e i (f : unit -> N -> pres A) r j,
  (pbind (require b e i) f = POk r j <-> b = true /\ f tt i = POk r j).
Proof using.
  intros A b e i f r j. unfold require. destruct b; cbn [pbind]; [tauto|]. split; [discriminate|intros (H & _); discriminate].
Qed.

(* splitting a place into fields *)
Lemma at_cut : forall i f g j, at_ m i (f ++ g) j <-> exists k, at_ m i f k /\ k <= lenN m /\ at_ m k g j.
Proof using.
  intros i f g j. split.
  - intros A. apply at_inv in A. destruct A as (A & B). exists (i + lenN f). pose proof (at_le _ _ _ _ A). tauto.
  - intros (k & A & _ & B). eapply at_app; eassumption.
Qed.

Lemma rsa_iff : forall i k j, i <= lenN m ->
  (GetOpenSshKeyRsa lib m i = POk k j <->
   lib k = true /\ exists fs, written "ssh-rsa" k fs /\ at_ m i (strs fs) j).
Proof using Hm H3.
  intros i k j L. unfold GetOpenSshKeyRsa. split.
  - intros P. apply mp_step in P; [|exact L]. destruct P as (n & i1 & A1 & L1 & N1 & P).
    apply mp_step in P; [|exact L1]. destruct P as (e & i2 & A2 & L2 & N2 & P).
    apply mp_step in P; [|exact L2]. destruct P as (d & i3 & A3 & L3 & N3 & P).
    apply mp_step in P; [|exact L3]. destruct P as (u & i4 & A4 & L4 & N4 & P).
    apply mp_step in P; [|exact L4]. destruct P as (p & i5 & A5 & L5 & N5 & P).
    apply mp_step in P; [|exact L5]. destruct P as (q & i6 & A6 & L6 & N6 & P).
    apply import_ok in P. destruct P as (I & -> & ->). split; [exact I|]. exists [n; e; d; u; p; q].
    split; [constructor; repeat (constructor; [assumption|]); constructor|].
    rewrite !strs_cons, strs_nil, app_nil_r. repeat (eapply at_app; [eassumption|]). eassumption.
  - intros (I & fs & W & A). inversion W as [n e d u p q F E1 E2 E3| |]; subst.
    2:{ exfalso. cbn [In] in *. intuition discriminate. }
    inversion F as [|? ? N1 F1]; subst. inversion F1 as [|? ? N2 F2]; subst. inversion F2 as [|? ? N3 F3]; subst.
    inversion F3 as [|? ? N4 F4]; subst. inversion F4 as [|? ? N5 F5]; subst. inversion F5 as [|? ? N6 F6]; subst.
    rewrite !strs_cons, strs_nil, app_nil_r in A.
    apply at_cut in A. destruct A as (i1 & A1 & L1 & A). apply at_cut in A. destruct A as (i2 & A2 & L2 & A).
    apply at_cut in A. destruct A as (i3 & A3 & L3 & A). apply at_cut in A. destruct A as (i4 & A4 & L4 & A).
    apply at_cut in A. destruct A as (i5 & A5 & L5 & A6). pose proof (at_le _ _ _ _ A6) as (L6 & _).
    apply mp_step; [exact L|]. exists n, i1. split; [exact A1|]. split; [exact L1|]. split; [exact N1|].
    apply mp_step; [exact L1|]. exists e, i2. split; [exact A2|]. split; [exact L2|]. split; [exact N2|].
    apply mp_step; [exact L2|]. exists d, i3. split; [exact A3|]. split; [exact L3|]. split; [exact N3|].
    apply mp_step; [exact L3|]. exists u, i4. split; [exact A4|]. split; [exact L4|]. split; [exact N4|].
    apply mp_step; [exact L4|]. exists p, i5. split; [exact A5|]. split; [exact L5|]. split; [exact N5|].
    apply mp_step; [exact L5|]. exists q, j. split; [exact A6|]. split; [exact L6|]. split; [exact N6|].
    apply import_ok. auto.
Qed.

Definition ecdsa_types : list string := ["ecdsa-sha2-nistp256"; "ecdsa-sha2-nistp384"; "ecdsa-sha2-nistp521"]%string.

Lemma ecc_iff : forall type i k j, In type ecdsa_types -> i <= lenN m ->
  (GetOpenSshKeyEcc lib m i = POk k j <->
   lib k = true /\ exists fs, written type k fs /\ at_ m i (strs fs) j).
Proof using Hm H3.
  intros type i k j T L. unfold GetOpenSshKeyEcc. split.
  - intros P. apply str_step in P; [|exact L]. destruct P as (c & i1 & A1 & L1 & P).
    apply str_step in P; [|exact L1]. destruct P as (q & i2 & A2 & L2 & P).
    apply mp_step in P; [|exact L2]. destruct P as (d & i3 & A3 & L3 & N3 & P).
    apply import_ok in P. destruct P as (I & -> & ->). split; [exact I|]. exists [c; q; d].
    split; [constructor; assumption|].
    rewrite !strs_cons, strs_nil, app_nil_r. repeat (eapply at_app; [eassumption|]). eassumption.
  - intros (I & fs & W & A). inversion W as [|t c q d T' N3 E1 E2 E3|]; subst.
    1:{ exfalso. cbn [In ecdsa_types] in T. intuition discriminate. }
    2:{ exfalso. cbn [In ecdsa_types] in T. intuition discriminate. }
    rewrite !strs_cons, strs_nil, app_nil_r in A.
    apply at_cut in A. destruct A as (i1 & A1 & L1 & A). apply at_cut in A. destruct A as (i2 & A2 & L2 & A3). pose proof (at_le _ _ _ _ A3) as (L3 & _).
    apply str_step; [exact L|]. exists c, i1. split; [exact A1|]. split; [exact L1|].
    apply str_step; [exact L1|]. exists q, i2. split; [exact A2|]. split; [exact L2|].
    apply mp_step; [exact L2|]. exists d, j. split; [exact A3|]. split; [exact L3|]. split; [exact N3|].
    apply import_ok. auto.
Qed.

Lemma ed_iff : forall i k j, i <= lenN m ->
  (GetOpenSshKeyEd25519 lib m i = POk k j <->
   lib k = true /\ exists fs, written "ssh-ed25519" k fs /\ at_ m i (strs fs) j).
Proof using Hm H3.
  intros i k j L. unfold GetOpenSshKeyEd25519. split.
  - intros P. apply str_step in P; [|exact L]. destruct P as (q & i1 & A1 & L1 & P).
    apply str_step in P; [|exact L1]. destruct P as (b & i2 & A2 & L2 & P).
    apply req_step in P. destruct P as (R & P). apply N.leb_le in R.
    apply import_ok in P. destruct P as (I & -> & ->). split; [exact I|].
    exists [q; takeN (lenN b - lenN q) b ++ dropN (lenN b - lenN q) b].
    split; [constructor; rewrite lenN_dropN; lia|].
    rewrite takeN_dropN, strs_2. eapply at_app; eassumption.
  - intros (I & fs & W & A). inversion W as [| |q s q' E0 E1 E2 E3]; subst.
    1:{ exfalso. cbn [In] in *. intuition discriminate. }
    rewrite strs_2 in A.
    apply at_cut in A. destruct A as (i1 & A1 & L1 & A2). pose proof (at_le _ _ _ _ A2) as (L2 & _).
    apply str_step; [exact L|]. exists q, i1. split; [exact A1|]. split; [exact L1|].
    apply str_step; [exact L1|]. exists (s ++ q'), j. split; [exact A2|]. split; [exact L2|].
    assert (X : lenN (s ++ q') - lenN q = lenN s) by (rewrite lenN_app; lia).
    apply req_step. split; [apply N.leb_le; rewrite lenN_app; lia|].
    rewrite X, takeN_app_exact by reflexivity. apply import_ok. auto.
Qed.

Lemma type_of_id : forall n type, In type key_types -> NameToId n = NameToId (ascii type) -> n = ascii type.
Proof using.
  intros n type T E. apply name_of_id in E.
  - cbn [In key_types] in T. destruct T as [<- |[<- |[<- |[<- |[<- |[]]]]]]; vm_compute in E;
      (destruct E as [E|[]]; rewrite <- E; vm_compute; reflexivity).
  - cbn [In key_types] in T. destruct T as [<- |[<- |[<- |[<- |[<- |[]]]]]]; vm_compute; discriminate.
Qed.

Lemma written_type : forall type k fs, written type k fs -> In type key_types.
Proof using.
  intros type k fs W. inversion W; subst; cbn [In key_types] in *; intuition.
Qed.

Lemma load_iff : forall name i k j, i <= lenN m ->
  (load_key lib (NameToId name) m i = POk k j <->
   lib k = true /\ exists type fs, name = ascii type /\ written type k fs /\ at_ m i (strs fs) j).
Proof using Hm H3.
  intros name i k j L. unfold load_key. split.
  - destruct (N.eqb_spec (NameToId name) ID_SSH_RSA) as [E|_].
    { intros P. apply rsa_iff in P; [|exact L]. destruct P as (I & fs & W & A). split; [exact I|]. exists "ssh-rsa"%string, fs.
      split; [apply type_of_id; [cbn; auto|exact E]|auto]. }
    unfold is_ecdsa.
    destruct (N.eqb_spec (NameToId name) ID_ECDSA_SHA2_NISTP256) as [E|_].
    { cbn [orb]. intros P. apply (ecc_iff "ecdsa-sha2-nistp256"%string) in P; [|cbn; auto|exact L]. destruct P as (I & fs & W & A). split; [exact I|].
      exists "ecdsa-sha2-nistp256"%string, fs. split; [apply type_of_id; [cbn; auto|exact E]|auto]. }
    destruct (N.eqb_spec (NameToId name) ID_ECDSA_SHA2_NISTP384) as [E|_].
    { cbn [orb]. intros P. apply (ecc_iff "ecdsa-sha2-nistp384"%string) in P; [|cbn; auto|exact L]. destruct P as (I & fs & W & A). split; [exact I|].
      exists "ecdsa-sha2-nistp384"%string, fs. split; [apply type_of_id; [cbn; auto|exact E]|auto]. }
    destruct (N.eqb_spec (NameToId name) ID_ECDSA_SHA2_NISTP521) as [E|_].
    { cbn [orb]. intros P. apply (ecc_iff "ecdsa-sha2-nistp521"%string) in P; [|cbn; auto|exact L]. destruct P as (I & fs & W & A). split; [exact I|].
      exists "ecdsa-sha2-nistp521"%string, fs. split; [apply type_of_id; [cbn; auto 6|exact E]|auto]. }
    cbn [orb]. destruct (N.eqb_spec (NameToId name) ID_ED25519) as [E|_]; [|discriminate].
    intros P. apply ed_iff in P; [|exact L]. destruct P as (I & fs & W & A). split; [exact I|]. exists "ssh-ed25519"%string, fs.
    split; [apply type_of_id; [cbn; auto 7|exact E]|auto].
  - intros (I & type & fs & -> & W & A). pose proof (written_type _ _ _ W) as T. cbn [In key_types] in T.
    destruct T as [<- |[<- |[<- |[<- |[<- |[]]]]]].
    + change (NameToId (ascii "ssh-rsa") =? ID_SSH_RSA) with true. cbv iota. apply rsa_iff; [exact L|eauto].
    + change (NameToId (ascii "ecdsa-sha2-nistp256") =? ID_SSH_RSA) with false.
      change (is_ecdsa (NameToId (ascii "ecdsa-sha2-nistp256"))) with true. cbv iota.
      apply (ecc_iff "ecdsa-sha2-nistp256"%string); [cbn; auto|exact L|eauto].
    + change (NameToId (ascii "ecdsa-sha2-nistp384") =? ID_SSH_RSA) with false.
      change (is_ecdsa (NameToId (ascii "ecdsa-sha2-nistp384"))) with true. cbv iota.
      apply (ecc_iff "ecdsa-sha2-nistp384"%string); [cbn; auto|exact L|eauto].
    + change (NameToId (ascii "ecdsa-sha2-nistp521") =? ID_SSH_RSA) with false.
      change (is_ecdsa (NameToId (ascii "ecdsa-sha2-nistp521"))) with true. cbv iota.
      apply (ecc_iff "ecdsa-sha2-nistp521"%string); [cbn; auto|exact L|eauto].
    + change (NameToId (ascii "ssh-ed25519") =? ID_SSH_RSA) with false.
      change (is_ecdsa (NameToId (ascii "ssh-ed25519"))) with false.
      change (NameToId (ascii "ssh-ed25519") =? ID_ED25519) with true. cbv iota. apply ed_iff; [exact L|eauto].
Qed.

Lemma pad_iff : forall n i c u j, i + N.of_nat n = lenN m ->
  (pad_loop n m i c = POk u j <-> dropN i m = counting c n /\ j = lenN m).
Proof using.
  induction n as [|n IH]; intros i c u j E; cbn [pad_loop counting].
  - replace i with (lenN m) by lia. rewrite dropN_all by lia. destruct u. split; [intros H; injection H as <-; auto|intros (_ & ->); reflexivity].
  - destruct (rd_some m i ltac:(lia)) as (b & R & _). rewrite R.
    assert (D : dropN i m = b :: dropN (i + 1) m).
    { unfold rd in R. unfold dropN. replace (N.to_nat (i + 1)) with (S (N.to_nat i)) by lia.
      revert R. generalize (N.to_nat i) as k. clear. intros k. revert m. induction k as [|k IH]; intros [|x m] R; cbn in *; try discriminate.
      - injection R as ->. reflexivity.
      - apply IH. exact R. }
    rewrite D. destruct (N.eqb_spec c b) as [->|Nb].
    + rewrite (IH (i + 1) (b + 1) u j) by lia. split; intros (H & J); split; try exact J.
      * rewrite H. reflexivity.
      * injection H as H. exact H.
    + split; [discriminate|]. intros (H & _). injection H as H _. congruence.
Qed.

Lemma counting_len : forall n c, lenN (counting c n) = N.of_nat n.
Proof using. induction n as [|n IH]; intros c; [reflexivity|]. cbn [counting]. rewrite lenN_cons, IH. lia. Qed.

Lemma section_iff : forall id k,
  ((exists j, read_section lib m = POk (id, k) j) <->
   lib k = true /\ exists check type fields comment pad, m = section check check type fields comment pad /\ check < W32 /\
     id = NameToId (ascii type) /\ written type k fields /\ (lenN m mod 8 = 0 -> pad = counting 1 (N.to_nat (lenN pad)))).
Proof using Hm H3.
  intros id k. unfold read_section. split.
  - intros (j & P). apply u32_step in P; [|lia]. destruct P as (c1 & i1 & A1 & L1 & V1 & P).
    apply u32_step in P; [|exact L1]. destruct P as (c2 & i2 & A2 & L2 & V2 & P).
    apply req_step in P. destruct P as (R & P). apply N.eqb_eq in R. subst c2.
    apply str_step in P; [|exact L2]. destruct P as (name & i3 & A3 & L3 & P).
    apply pbind_ok in P. destruct P as (k' & i4 & A4 & P). apply load_iff in A4; [|exact L3].
    destruct A4 as (I & type & fs & -> & W & A4). pose proof (at_le _ _ _ _ A4) as (L4 & _).
    apply skip_step in P; [|exact L4]. destruct P as (comment & i5 & A5 & L5 & P).
    apply pbind_ok in P. destruct P as ([] & i6 & A6 & P). injection P as <- <- <-.
    split; [exact I|]. exists c1, type, fs, comment, (dropN i5 m).
    assert (Z : at_ m 0 (be32 c1 ++ be32 c1 ++ str (ascii type) ++ strs fs ++ str comment) i5)
      by (repeat (eapply at_app; [eassumption|]); eassumption).
    split. { destruct Z as (Z & _). rewrite dropN_0 in Z. rewrite Z at 1. unfold section. rewrite <- !app_assoc. reflexivity. }
    split; [exact V1|]. split; [reflexivity|]. split; [exact W|]. intros M. rewrite lenN_dropN.
    change MIN_BLOCK_SZ with 8 in A6. rewrite M in A6. change (0 =? 0) with true in A6. cbv iota in A6.
    destruct (N.ltb_spec i5 (lenN m)).
    + apply pad_iff in A6; [|lia]. tauto.
    + rewrite dropN_all by lia. replace (lenN m - i5) with 0 by lia. reflexivity.
  - intros (I & c & type & fs & comment & pad & E & V & -> & W & Pd).
    assert (Z : at_ m 0 (be32 c ++ be32 c ++ str (ascii type) ++ strs fs ++ str comment ++ pad) (lenN m)).
    { unfold section in E. rewrite <- E. split; [rewrite dropN_0, dropN_all, app_nil_r by lia; reflexivity|]. lia. }
    apply at_cut in Z. destruct Z as (i1 & A1 & L1 & Z). apply at_cut in Z. destruct Z as (i2 & A2 & L2 & Z).
    apply at_cut in Z. destruct Z as (i3 & A3 & L3 & Z). apply at_cut in Z. destruct Z as (i4 & A4 & L4 & Z).
    apply at_cut in Z. destruct Z as (i5 & A5 & L5 & Z).
    assert (Dp : dropN i5 m = pad). { destruct Z as (Z & _). rewrite Z, (dropN_all _ (lenN m) m), app_nil_r by lia. reflexivity. }
    assert (J : exists j, (if lenN m mod MIN_BLOCK_SZ =? 0
             then if i5 <? lenN m then pad_loop (N.to_nat (lenN m - i5)) m i5 1 else POk tt i5
             else POk tt i5) = POk tt j).
    { change MIN_BLOCK_SZ with 8. destruct (N.eqb_spec (lenN m mod 8) 0) as [M|_]; [|eauto].
      destruct (N.ltb_spec i5 (lenN m)); [|eauto]. exists (lenN m). apply pad_iff; [lia|]. split; [|reflexivity].
      rewrite Dp. replace (lenN m - i5) with (lenN pad) by (rewrite <- Dp; apply lenN_dropN). exact (Pd M). }
    destruct J as (j & J). exists j.
    apply u32_step; [lia|]. exists c, i1. split; [exact A1|]. split; [exact L1|]. split; [exact V|].
    apply u32_step; [exact L1|]. exists c, i2. split; [exact A2|]. split; [exact L2|]. split; [exact V|].
    apply req_step. split; [apply N.eqb_refl|].
    apply str_step; [exact L2|]. exists (ascii type), i3. split; [exact A3|]. split; [exact L3|].
    apply pbind_ok. exists k, i4. split; [apply load_iff; [exact L3|]; split; [exact I|eauto 6]|].
    apply skip_step; [exact L4|]. exists comment, i5. split; [exact A5|]. split; [exact L5|].
    rewrite J. reflexivity.
Qed.
End K.

Lemma magic_len : lenN AuthMagic = 15.
Proof. reflexivity. Qed.

Lemma magic_iff : forall buf, ((lenN buf <? lenN AuthMagic) || negb (bytes_eqb (takeN (lenN AuthMagic) buf) AuthMagic)) = false <->
  at_ buf 0 AuthMagic (lenN AuthMagic).
Proof.
  intros buf. rewrite orb_false_iff, negb_false_iff, bytes_eqb_eq, N.ltb_ge. unfold at_. rewrite dropN_0. split.
  - intros (L & E). split; [rewrite <- E at 1; symmetry; apply takeN_dropN|]. lia.
  - intros (E & _ & L). split; [exact L|]. rewrite E at 1. apply takeN_app_exact. reflexivity.
Qed.

Lemma key_iff : forall lib buf id k, bytes_ok buf -> is32 (lenN buf) ->
  ((exists j, GetOpenSshKey lib buf = POk (id, k) j) <->
   lib k = true /\ exists type, id = NameToId (ascii type) /\ holds buf type k).
Proof.
  intros lib buf id k Hb H3. unfold GetOpenSshKey. cbv zeta. split.
  - intros (j & P). destruct ((lenN buf <? lenN AuthMagic) || _) eqn:M; [discriminate|]. apply magic_iff in M.
    pose proof (at_le _ _ _ _ M) as (L0 & _).
    apply skip_step in P; [|assumption|assumption|exact L0]. destruct P as (cipher & i1 & A1 & L1 & P).
    apply skip_step in P; [|assumption|assumption|exact L1]. destruct P as (kdf & i2 & A2 & L2 & P).
    apply skip_step in P; [|assumption|assumption|exact L2]. destruct P as (opts & i3 & A3 & L3 & P).
    apply u32_step in P; [|assumption|assumption|exact L3]. destruct P as (count & i4 & A4 & L4 & V4 & P).
    apply req_step in P. destruct P as (R & P). apply N.eqb_eq in R. change KEY_QUANTITY_REQ with 1 in R. subst count.
    apply str_step in P; [|assumption|assumption|exact L4]. destruct P as (pub & i5 & A5 & L5 & P).
    apply str_step in P; [|assumption|assumption|exact L5]. destruct P as (s & i6 & A6 & L6 & P).
    apply req_step in P. destruct P as (_ & P).
    apply pbind_ok in P. destruct P as (r & j' & S & P). injection P as -> <-.
    destruct (at_str_ok buf Hb H3 _ _ _ A6) as (Bs & Ls & _).
    destruct (proj1 (section_iff s Bs Ls lib id k) ltac:(eauto)) as (I & check & type & fs & comment & pad & E & V & -> & W & Pd).
    split; [exact I|]. exists type. split; [reflexivity|]. exists cipher, kdf, opts, pub, check, fs, comment, pad, (dropN i6 buf).
    cbv zeta. rewrite <- E. split; [|auto].
    assert (Z : at_ buf 0 (AuthMagic ++ str cipher ++ str kdf ++ str opts ++ be32 1 ++ str pub ++ str s) i6)
      by (repeat (eapply at_app; [eassumption|]); eassumption).
    destruct Z as (Z & _). rewrite dropN_0 in Z. rewrite Z at 1. unfold file, AuthMagic. rewrite <- !app_assoc. reflexivity.
  - intros (I & type & -> & cipher & kdf & opts & pub & check & fs & comment & pad & rest & H). cbv zeta in H.
    destruct H as (E & V & W & Pd). set (s := section check check type fs comment pad) in *.
    assert (Z : at_ buf 0 (AuthMagic ++ str cipher ++ str kdf ++ str opts ++ be32 1 ++ str pub ++ str s ++ rest) (lenN buf)).
    { unfold file in E. unfold AuthMagic. rewrite <- app_assoc. rewrite <- E. split; [rewrite dropN_0, dropN_all, app_nil_r by lia; reflexivity|]. lia. }
    apply at_cut in Z. destruct Z as (i0 & M & L0 & Z).
    assert (i0 = lenN AuthMagic) as -> by (destruct M as (_ & M & _); lia).
    rewrite (proj2 (magic_iff buf) M).
    apply at_cut in Z. destruct Z as (i1 & A1 & L1 & Z). apply at_cut in Z. destruct Z as (i2 & A2 & L2 & Z).
    apply at_cut in Z. destruct Z as (i3 & A3 & L3 & Z). apply at_cut in Z. destruct Z as (i4 & A4 & L4 & Z).
    apply at_cut in Z. destruct Z as (i5 & A5 & L5 & Z). apply at_cut in Z. destruct Z as (i6 & A6 & L6 & Z).
    destruct (at_str_ok buf Hb H3 _ _ _ A6) as (Bs & Ls & _).
    destruct (proj2 (section_iff s Bs Ls lib (NameToId (ascii type)) k)) as (j & S).
    { split; [exact I|]. exists check, type, fs, comment, pad. auto 6. }
    exists i6.
    apply skip_step; [assumption|assumption|exact L0|]. exists cipher, i1. split; [exact A1|]. split; [exact L1|].
    apply skip_step; [assumption|assumption|exact L1|]. exists kdf, i2. split; [exact A2|]. split; [exact L2|].
    apply skip_step; [assumption|assumption|exact L2|]. exists opts, i3. split; [exact A3|]. split; [exact L3|].
    apply u32_step; [assumption|assumption|exact L3|]. exists 1, i4. split; [exact A4|]. split; [exact L4|]. split; [reflexivity|].
    apply req_step. split; [reflexivity|].
    apply str_step; [assumption|assumption|exact L4|]. exists pub, i5. split; [exact A5|]. split; [exact L5|].
    apply str_step; [assumption|assumption|exact L5|]. exists s, i6. split; [exact A6|]. split; [exact L6|].
    apply req_step. split.
    { apply negb_true_iff, N.eqb_neq. unfold s, section. rewrite lenN_app, lenN_be32. lia. }
    rewrite S. reflexivity.
Qed.
