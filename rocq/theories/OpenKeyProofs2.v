(* OpenKeyProofs2.v - lemmas about OpenKeyModel: reads stay inside the buffer;
   the text around the key. *)
From Verif Require Import Base WireModel WireSpec WireProofs WireProps NameTable NegoModel NegoSpec NegoProofs AuthModel AuthSpec AuthProofs
  OsshModel OsshSpec OsshProofs OsshProofs2 OsshProofs3 OpenKeyModel OpenKeySpec OpenKeyProofs.
From Coq Require Import List NArith Lia Bool String.
Import ListNotations.
Open Scope N_scope.
Local Notation "a ++ b" := (@app _ a b) : list_scope.

Lemma import_noob : forall lib k i, import lib k i <> POob.
Proof. intros lib k i. unfold import. destruct (lib k); discriminate. Qed.

Section Safe.
Variable m : bytes.
Hypothesis Hm : bytes_ok m.
Hypothesis H3 : is32 (lenN m).
Variable lib : importer.

Lemma str_go : forall A i (f : bytes -> N -> pres A), i <= lenN m ->
  (forall s j, j <= lenN m -> bytes_ok s -> is32 (lenN s) -> f s j <> POob) -> pbind (GetStr m (lenN m) i) f <> POob.
Proof using Hm H3.
  intros A i f L H. apply noob_bind; [apply str_noob; assumption|]. intros s j E.
  destruct (str_le m Hm H3 i s j L E) as (X & Y & Z). apply H; assumption.
Qed.
Lemma mp_go : forall A i (f : bytes -> N -> pres A), i <= lenN m ->
  (forall s j, j <= lenN m -> f s j <> POob) -> pbind (GetMp m i) f <> POob.
Proof using Hm H3.
  intros A i f L H. apply noob_bind; [apply mp_noob; assumption|]. intros s j E. apply H. exact (mp_le m Hm H3 i s j L E).
Qed.
Lemma skip_go : forall A i (f : unit -> N -> pres A), i <= lenN m ->
  (forall s j, j <= lenN m -> f s j <> POob) -> pbind (GetSkip m (lenN m) i) f <> POob.
Proof using Hm H3.
  intros A i f L H. apply noob_bind; [apply skip_noob; assumption|]. intros s j E. apply H. exact (skip_le m Hm H3 i s j L E).
Qed.
Lemma u32_go : forall A i (f : N -> N -> pres A), i <= lenN m ->
  (forall s j, j <= lenN m -> f s j <> POob) -> pbind (GetUint32 m (lenN m) i) f <> POob.
Proof using Hm H3.
  intros A i f L H. destruct (u32_noob m Hm H3 i L) as (X & Y). apply noob_bind; [exact X|]. intros s j E. apply H. exact (Y s j E).
Qed.
Lemma req_go : forall A b e i (f : unit -> N -> pres A), f tt i <> POob -> pbind (require b e i) f <> POob.
Proof using. intros A b e i f H. unfold require. destruct b; cbn [pbind]; [exact H|discriminate]. Qed.

Lemma load_noob : forall id i, i <= lenN m -> load_key lib id m i <> POob.
Proof using Hm H3.
  intros id i L. unfold load_key.
  destruct (id =? ID_SSH_RSA).
  { unfold GetOpenSshKeyRsa. repeat (apply mp_go; [assumption|intros]). apply import_noob. }
  destruct (is_ecdsa id).
  { unfold GetOpenSshKeyEcc. repeat (apply str_go; [assumption|intros]). apply mp_go; [assumption|intros]. apply import_noob. }
  destruct (id =? ID_ED25519); [|discriminate].
  unfold GetOpenSshKeyEd25519. repeat (apply str_go; [assumption|intros]). apply req_go, import_noob.
Qed.
Lemma load_le : forall name i k j, i <= lenN m -> load_key lib (NameToId name) m i = POk k j -> j <= lenN m.
Proof using Hm H3.
  intros name i k j L E. apply (load_iff m Hm H3 lib name i k j L) in E. destruct E as (_ & t & fs & _ & _ & A). apply at_le in A. tauto.
Qed.

Lemma pad_noob : forall n i c, i + N.of_nat n = lenN m -> pad_loop n m i c <> POob.
Proof using.
  induction n as [|n IH]; intros i c E; cbn [pad_loop]; [discriminate|].
  destruct (rd_some m i ltac:(lia)) as (b & R & _). rewrite R. destruct (c =? b); [|discriminate]. apply IH. lia.
Qed.

Lemma section_noob : read_section lib m <> POob.
Proof using Hm H3.
  unfold read_section. apply u32_go; [lia|]. intros c1 i1 L1. apply u32_go; [exact L1|]. intros c2 i2 L2. apply req_go.
  apply str_go; [exact L2|]. intros name i3 L3 _ _. apply noob_bind; [apply load_noob; exact L3|]. intros k i4 E4.
  pose proof (load_le name i3 k i4 L3 E4) as L4. apply skip_go; [exact L4|]. intros u i5 L5.
  apply noob_bind; [|discriminate]. destruct (_ =? 0); [|discriminate].
  destruct (N.ltb_spec i5 (lenN m)); [|discriminate]. apply pad_noob. lia.
Qed.
End Safe.

Lemma key_noob2 : forall lib buf, bytes_ok buf -> is32 (lenN buf) -> GetOpenSshKey lib buf <> POob.
Proof.
  intros lib buf Hb H3. unfold GetOpenSshKey. cbv zeta. destruct ((lenN buf <? lenN AuthMagic) || _) eqn:M; [discriminate|].
  apply magic_iff in M. pose proof (at_le _ _ _ _ M) as (L0 & _).
  apply skip_go; [assumption|assumption|exact L0|]. intros u1 i1 L1. apply skip_go; [assumption|assumption|exact L1|]. intros u2 i2 L2.
  apply skip_go; [assumption|assumption|exact L2|]. intros u3 i3 L3. apply u32_go; [assumption|assumption|exact L3|]. intros n i4 L4.
  apply req_go. apply str_go; [assumption|assumption|exact L4|]. intros pub i5 L5 _ _.
  apply str_go; [assumption|assumption|exact L5|]. intros s i6 L6 Bs Ls. apply req_go.
  apply noob_bind; [apply section_noob; assumption|discriminate].
Qed.

(* ---- the text ------------------------------------------------------------- *)
Lemma strnstr_iff : forall s2 s1 off o, s2 <> [] ->
  (wstrnstr s1 s2 off = Some o <->
   exists code rest, s1 = code ++ s2 ++ rest /\ o = off + lenN code /\ ~ In 0 (code ++ firstn 1 s2) /\
     forall a b, s1 = a ++ s2 ++ b -> lenN code <= lenN a).
Proof.
  intros s2. induction s1 as [|c r IH]; intros off o Ne; cbn [wstrnstr].
  - split; [discriminate|]. intros (code & rest & E & _). destruct code; [|discriminate]. destruct s2; [congruence|discriminate].
  - destruct (N.leb_spec (lenN s2) (lenN (c :: r))) as [L|L].
    2:{ cbn [andb]. split; [discriminate|]. intros (code & rest & E & _). rewrite E, !lenN_app in L. lia. }
    cbn [andb]. destruct (N.eqb_spec c 0) as [->|Nc]; cbn [negb].
    { split; [discriminate|]. intros (code & rest & E & _ & Z & _). exfalso. apply Z.
      destruct code as [|x code]; cbn [app] in E.
      - destruct s2 as [|x s2]; [congruence|]. cbn [app] in E. injection E as <- _. cbn. auto.
      - injection E as <- _. cbn. auto. }
    destruct (bytes_eqb (takeN (lenN s2) (c :: r)) s2) eqn:B.
    + apply bytes_eqb_eq in B. split.
      * intros H. injection H as <-. exists [], (dropN (lenN s2) (c :: r)). split; [|split; [|split]].
        -- cbn [app]. rewrite <- B at 1. symmetry. apply takeN_dropN.
        -- change (lenN (@nil N)) with 0. lia.
        -- cbn [app]. destruct s2 as [|x s2]; [congruence|]. rewrite lenN_cons in B.
           assert (x = c) as ->. { unfold takeN in B. replace (N.to_nat (1 + lenN s2)) with (S (N.to_nat (lenN s2))) in B by lia. cbn [firstn] in B. injection B as B _. auto. }
           cbn [firstn In]. intros [H|[]]. congruence.
        -- intros a b _. change (lenN (@nil N)) with 0. lia.
      * intros (code & rest & E & -> & _ & F).
        assert (Z : lenN code = 0). { specialize (F [] (dropN (lenN s2) (c :: r))). change (lenN (@nil N)) with 0 in F.
          assert (lenN code <= 0); [|lia]. apply F. cbn [app]. rewrite <- B at 1. symmetry. apply takeN_dropN. }
        rewrite Z, N.add_0_r. reflexivity.
    + assert (NB : forall b, c :: r <> s2 ++ b).
      { intros b E. rewrite E in B. rewrite takeN_app_exact in B by reflexivity. rewrite bytes_eqb_refl in B. discriminate. }
      rewrite (IH (off + 1) o Ne). split.
      * intros (code & rest & E & -> & Z & F). exists (c :: code), rest. split; [|split; [|split]].
        -- cbn [app]. rewrite E. reflexivity.
        -- rewrite lenN_cons. lia.
        -- cbn [app In]. intros [H|H]; [congruence|contradiction].
        -- intros [|x a] b G; cbn [app] in G; [exfalso; exact (NB _ G)|]. injection G as <- G. rewrite !lenN_cons. specialize (F a b G). lia.
      * intros (code & rest & E & -> & Z & F). destruct code as [|x code]; cbn [app] in E; [exfalso; exact (NB _ E)|].
        injection E as <- E. exists code, rest. split; [exact E|]. split; [rewrite lenN_cons; lia|]. split.
        -- intros H. apply Z. cbn [app In]. auto.
        -- intros a b G. specialize (F (c :: a) b). rewrite !lenN_cons in F. cbn [app] in F. rewrite G in F. specialize (F eq_refl). lia.
Qed.

Lemma begin_len : lenN beginMarker = 35.
Proof. reflexivity. Qed.
Lemma end_len : lenN endMarker = 33.
Proof. reflexivity. Qed.

Lemma strip_iff : forall b64 inp d,
  (WS_StripOpenSshPem b64 inp = ROk d <->
   lenN beginMarker + lenN endMarker < lenN inp /\ exists code, wraps inp code /\ b64 code = Some d).
Proof.
  intros b64 inp d. unfold WS_StripOpenSshPem. cbv zeta. split.
  - destruct (N.leb_spec (lenN inp) (lenN beginMarker + lenN endMarker)) as [L|L]; [discriminate|].
    destruct (bytes_eqb (takeN (lenN beginMarker) inp) beginMarker) eqn:B; [|discriminate]. cbn [negb]. apply bytes_eqb_eq in B.
    destruct (wstrnstr _ endMarker 0) as [o|] eqn:W; [|discriminate].
    apply strnstr_iff in W; [|discriminate]. destruct W as (code & rest & E & -> & Z & F).
    rewrite E, N.add_0_l, takeN_app_exact by reflexivity.
    destruct (b64 code) as [d'|] eqn:D; [|discriminate]. intros H. injection H as <-. split; [exact L|].
    exists code. split; [|exact D]. exists rest. split; [|split].
    + rewrite <- (takeN_dropN _ (lenN beginMarker) inp), B, E. reflexivity.
    + intros H. apply Z. apply in_or_app. auto.
    + intros a b G. apply (F a b). rewrite E. exact G.
  - intros (L & code & (rest & E & Z & F) & D).
    destruct (N.leb_spec (lenN inp) (lenN beginMarker + lenN endMarker)) as [L'|_]; [lia|].
    change begin_marker with beginMarker in E. change end_marker with endMarker in E, F.
    rewrite E at 1. rewrite takeN_app_exact by reflexivity. rewrite bytes_eqb_refl. cbn [negb].
    assert (T : dropN (lenN beginMarker) inp = code ++ endMarker ++ rest) by (rewrite E; apply dropN_app_exact; reflexivity).
    rewrite T. rewrite (proj2 (strnstr_iff endMarker (code ++ endMarker ++ rest) 0 (lenN code) ltac:(discriminate))).
    + rewrite takeN_app_exact by reflexivity. rewrite D. reflexivity.
    + exists code, rest. split; [reflexivity|]. split; [lia|]. split; [|exact F].
      intros H. apply in_app_or in H. destruct H as [H|H]; [contradiction|]. vm_compute in H. destruct H as [H|[]]. discriminate.
Qed.

Lemma type_name : forall type, In type key_types -> IdToName (NameToId (ascii type)) = ascii type /\ NameToId (ascii type) <> 0.
Proof.
  intros type T. cbn [In key_types] in T.
  destruct T as [<- |[<- |[<- |[<- |[<- |[]]]]]]; (split; [vm_compute; reflexivity|vm_compute; discriminate]).
Qed.

Lemma holds_type : forall buf type k, holds buf type k -> In type key_types.
Proof.
  intros buf type k (cipher & kdf & o & pub & c & fs & comment & pad & rest & _ & _ & W & _). exact (written_type _ _ _ W).
Qed.

Lemma file_iff : forall lib b64 room inp out name, is32 (lenN inp) -> decoder b64 ->
  (DoOpenSshKey lib b64 room inp = ROk (out, name) <->
   (forall n, room = Some n -> lenN inp <= n) /\
   exists code type k, wraps inp code /\ b64 code = Some out /\ name = ascii type /\ holds out type k /\ lib k = true).
Proof.
  intros lib b64 room inp out name H3 Hd. unfold DoOpenSshKey.
  assert (Wl : forall code, wraps inp code -> lenN code + 68 <= lenN inp).
  { intros code (rest & E & _). rewrite E, !lenN_app. change (lenN begin_marker) with 35. change (lenN end_marker) with 33. lia. }
  assert (Od : forall code d, wraps inp code -> b64 code = Some d -> bytes_ok d /\ is32 (lenN d)).
  { intros code d W D. destruct (Hd _ _ D) as (B & L). specialize (Wl _ W). split; [exact B|]. unfold is32, W32 in *. lia. }
  split.
  - destruct (match room with Some n => n <? lenN inp | None => false end) eqn:R; [discriminate|].
    destruct (WS_StripOpenSshPem b64 inp) as [d|e] eqn:S; [|discriminate].
    destruct (GetOpenSshKey lib d) as [(id, k) j|e j|] eqn:G; [|discriminate|discriminate].
    destruct (N.eqb_spec id 0); [discriminate|]. intros H. injection H as <- <-.
    apply strip_iff in S. destruct S as (_ & code & W & D). destruct (Od _ _ W D) as (Bd & Ld).
    destruct (proj1 (key_iff lib d id k Bd Ld) ltac:(eauto)) as (I & type & -> & Hk).
    split. { intros n0 ->. apply N.ltb_ge in R. exact R. }
    exists code, type, k. split; [exact W|]. split; [exact D|]. split; [apply type_name; exact (holds_type _ _ _ Hk)|auto].
  - intros (R & code & type & k & W & D & -> & Hk & I).
    assert (Rf : match room with Some n => n <? lenN inp | None => false end = false).
    { destruct room as [n|]; [|reflexivity]. apply N.ltb_ge. apply R. reflexivity. }
    rewrite Rf. destruct (Od _ _ W D) as (Bd & Ld).
    destruct (proj2 (key_iff lib out (NameToId (ascii type)) k Bd Ld) ltac:(eauto)) as (j & G).
    rewrite (proj2 (strip_iff b64 inp out)).
    + rewrite G. destruct (type_name type (holds_type _ _ _ Hk)) as (Nm & Nz). destruct (N.eqb_spec (NameToId (ascii type)) 0); [contradiction|].
      rewrite Nm. reflexivity.
    + split; [|eauto]. rewrite begin_len, end_len. destruct (Hd _ _ D) as (_ & L). specialize (Wl _ W).
      destruct Hk as (cipher & kdf & o & pub & c & fs & comment & pad & rest & E & _). unfold file in E.
      assert (15 <= lenN out) by (rewrite E, !lenN_app; change (lenN (ascii "openssh-key-v1")) with 14; change (lenN [0]) with 1; lia).
      lia.
Qed.
