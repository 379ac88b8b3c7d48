(* NegoProofs.v - lemmas for name lists and negotiation. *)
From Verif Require Import Base WireModel WireSpec WireProofs NameTable NegoModel NegoSpec.
From Coq Require Import List NArith ZArith Lia Bool.
From Coq Require Import ZifyBool ZifyNat ZifyN.
Import ListNotations.
Open Scope N_scope.

Lemma bytes_eqb_eq : forall a b, bytes_eqb a b = true <-> a = b.
Proof.
  induction a as [|x a IH]; intros [|y b]; cbn; split; try congruence; try discriminate.
  - rewrite andb_true_iff, N.eqb_eq, IH. intros [-> ->]. reflexivity.
  - intros E. injection E as <- <-. rewrite andb_true_iff, N.eqb_eq, IH. auto.
Qed.
Lemma bytes_eqb_refl : forall a, bytes_eqb a a = true.
Proof. intros a. apply bytes_eqb_eq. reflexivity. Qed.

(* ---- the name table ------------------------------------------------ *)
Definition table_names : list bytes := map snd NameIdMap.
Definition table_ids : list N := map (fun r => fst (fst r)) NameIdMap.

Lemma lookup_name_in : forall t n,
  (exists i ty, In (i, ty, n) t /\ lookup_name t n = (i, ty)) \/
  (~ In n (map snd t) /\ lookup_name t n = (ID_UNKNOWN, TYPE_OTHER)).
Proof.
  induction t as [|[[i ty] m] t IH]; intros n.
  - right. split; [intros []|reflexivity].
  - cbn [lookup_name]. destruct (bytes_eqb n m) eqn:E.
    + apply bytes_eqb_eq in E. subst m. left. exists i, ty. split; [left; reflexivity|reflexivity].
    + destruct (IH n) as [(i' & ty' & H1 & H2)|(H1 & H2)].
      * left. exists i', ty'. split; [right; assumption|assumption].
      * right. split; [|assumption]. cbn. intros [E2|E2]; [|contradiction].
        subst m. rewrite bytes_eqb_refl in E. discriminate.
Qed.

Lemma table_no_unknown : forallb (fun i => negb (i =? ID_UNKNOWN)) table_ids = true.
Proof. vm_compute. reflexivity. Qed.

Definition knownb (n : bytes) : bool := negb (NameToId n =? ID_UNKNOWN).

Lemma known_in_table : forall n, knownb n = true <-> In n table_names.
Proof.
  intros n. unfold knownb, NameToId, NameToIdType, table_names.
  destruct (lookup_name_in NameIdMap n) as [(i & ty & H1 & H2)|(H1 & H2)]; rewrite H2; cbn [fst].
  - split; intros _.
    + apply (in_map snd) in H1. exact H1.
    + pose proof table_no_unknown as T. rewrite forallb_forall in T. apply T.
      apply (in_map (fun r => fst (fst r))) in H1. exact H1.
  - split; [discriminate|contradiction].
Qed.

(* the rows sharing an identifier: only the OpenSSH RSA certificate names *)
Definition alias_free_pairs : bool :=
  forallb (fun a => forallb (fun b =>
    negb (fst (fst a) =? fst (fst b)) || bytes_eqb (snd a) (snd b)
    || (fst (fst a) =? ID_OSSH_CERT_RSA)) NameIdMap) NameIdMap.
Lemma alias_free : alias_free_pairs = true.
Proof. vm_compute. reflexivity. Qed.

Lemma NameToId_inj : forall a b, knownb a = true -> NameToId a = NameToId b ->
  NameToId a <> ID_OSSH_CERT_RSA -> a = b.
Proof.
  intros a b Ha E Hn. unfold NameToId, NameToIdType in *.
  destruct (lookup_name_in NameIdMap a) as [(i & ty & H1 & H2)|(H1 & H2)].
  2:{ exfalso. apply known_in_table in Ha. contradiction. }
  rewrite H2 in *. cbn [fst] in *.
  destruct (lookup_name_in NameIdMap b) as [(i' & ty' & H1' & H2')|(H1' & H2')].
  - rewrite H2' in E. cbn [fst] in E. subst i'.
    pose proof alias_free as T. unfold alias_free_pairs in T. rewrite forallb_forall in T.
    specialize (T _ H1). rewrite forallb_forall in T. specialize (T _ H1'). cbn [fst snd] in T.
    rewrite N.eqb_refl in T. cbn [negb orb] in T.
    destruct (bytes_eqb a b) eqn:Eb; [apply bytes_eqb_eq; assumption|].
    cbn [orb] in T. apply N.eqb_eq in T. contradiction.
  - exfalso. rewrite H2' in E. cbn [fst] in E. apply known_in_table in Ha.
    pose proof table_no_unknown as T. rewrite forallb_forall in T.
    apply (in_map (fun r => fst (fst r))) in H1. specialize (T _ H1). cbn [fst] in T.
    rewrite E in T. discriminate.
Qed.

(* ---- splitting ------------------------------------------------------ *)
Definition pre1 (cur : bytes) (ts : list bytes) : list bytes :=
  match ts with t :: r => (cur ++ t) :: r | [] => [cur] end.

Lemma split_ne : forall l, exists t ts, split_comma l = t :: ts.
Proof.
  induction l as [|c r (t & ts & E)]; cbn; [eauto|].
  destruct (c =? 44); [eauto|]. rewrite E. eauto.
Qed.

Lemma pre1_cons : forall cur c r, c <> 44 ->
  pre1 cur (split_comma (c :: r)) = pre1 (cur ++ [c]) (split_comma r).
Proof.
  intros cur c r H. cbn [split_comma]. destruct (N.eqb_spec c 44); [contradiction|].
  destruct (split_ne r) as (t & ts & ->). cbn. rewrite <- app_assoc. reflexivity.
Qed.

(* decoding a list of names *)
Definition decoded (ns : list bytes) : list N := ids_of_names NameToId ID_UNKNOWN ns.

Fixpoint proc (cap tc : N) (ids : list N) (ns : list bytes) : res (list N) :=
  match ns with
  | [] => ROk ids
  | n :: r =>
      if MAX_NAMELIST_CNT <? tc + 1 then RErr WS_BUFFER_E
      else
        let id := NameToId n in
        if negb (id =? ID_UNKNOWN) || (lenN ids =? 0) then
          if cap <=? lenN ids then RErr WS_BUFFER_E else proc cap (tc + 1) (ids ++ [id]) r
        else proc cap (tc + 1) ids r
  end.

Lemma until_empty_cons : forall t r, t <> [] -> until_empty (t :: r) = t :: until_empty r.
Proof. intros [|x t] r H; [contradiction|reflexivity]. Qed.

Lemma gnl_proc : forall l cap tc ids cur,
  gnl cap tc ids cur l = proc cap tc ids (until_empty (pre1 cur (split_comma l))).
Proof.
  induction l as [|c r IH]; intros cap tc ids cur.
  - cbn [gnl split_comma pre1]. rewrite app_nil_r.
    destruct cur as [|x cur].
    + reflexivity.
    + rewrite until_empty_cons by discriminate. cbn [until_empty proc].
      rewrite lenN_cons. destruct (N.eqb_spec (1 + lenN cur) 0) as [H|H]; [lia|].
      destruct (MAX_NAMELIST_CNT <? tc + 1); [reflexivity|].
      destruct (negb (NameToId (x :: cur) =? ID_UNKNOWN) || (lenN ids =? 0)); [|reflexivity].
      destruct (cap <=? lenN ids); reflexivity.
  - destruct (N.eqb_spec c 44) as [E|E].
    + subst c. cbn [gnl split_comma pre1]. change (44 =? COMMA) with true. change (44 =? 44) with true.
      cbv iota. cbn [pre1]. rewrite app_nil_r. destruct cur as [|x cur].
      * reflexivity.
      * rewrite until_empty_cons by discriminate. cbn [proc].
        rewrite lenN_cons. destruct (N.eqb_spec (1 + lenN cur) 0) as [H|H]; [lia|].
        assert (Es : pre1 [] (split_comma r) = split_comma r).
        { destruct (split_ne r) as (t & ts & ->). reflexivity. }
        destruct (MAX_NAMELIST_CNT <? tc + 1); [reflexivity|].
        cbv zeta. destruct (negb (NameToId (x :: cur) =? ID_UNKNOWN) || (lenN ids =? 0)).
        -- destruct (cap <=? lenN ids); [reflexivity|]. rewrite IH, Es. reflexivity.
        -- rewrite IH, Es. reflexivity.
    + rewrite pre1_cons by assumption. rewrite <- IH. cbn [gnl]. unfold COMMA.
      destruct (N.eqb_spec c 44); [contradiction|]. reflexivity.
Qed.

Definition flt (ns : list bytes) := filter (fun i => negb (i =? ID_UNKNOWN)) (map NameToId ns).

Lemma proc_tail : forall ns cap tc ids, ids <> [] -> tc <= MAX_NAMELIST_CNT -> lenN ids <= cap ->
  proc cap tc ids ns =
    if (MAX_NAMELIST_CNT <? tc + lenN ns) || (cap <? lenN ids + lenN (flt ns))
    then RErr WS_BUFFER_E else ROk (ids ++ flt ns).
Proof.
  induction ns as [|n r IH]; intros cap tc ids Hne Htc Hcap.
  - cbn [proc flt map filter]. unfold flt; cbn [map filter]. rewrite !lenN_nil, app_nil_r.
    destruct (N.ltb_spec MAX_NAMELIST_CNT (tc + 0)); [lia|].
    destruct (N.ltb_spec cap (lenN ids + 0)); [lia|]. reflexivity.
  - cbn [proc]. rewrite lenN_cons.
    assert (Hz : (lenN ids =? 0) = false).
    { destruct ids; [contradiction|]. rewrite lenN_cons. lia. }
    rewrite Hz, orb_false_r. unfold flt. cbn [map filter]. fold (flt r).
    destruct (N.ltb_spec MAX_NAMELIST_CNT (tc + 1)) as [H1|H1].
    + destruct (N.ltb_spec MAX_NAMELIST_CNT (tc + (1 + lenN r))); [|lia]. reflexivity.
    + cbv zeta. destruct (negb (NameToId n =? ID_UNKNOWN)).
      * rewrite lenN_cons. destruct (N.leb_spec cap (lenN ids)) as [H2|H2].
        -- destruct (N.ltb_spec cap (lenN ids + (1 + lenN (flt r)))); [|lia].
           rewrite orb_true_r. reflexivity.
        -- rewrite IH.
           ++ rewrite lenN_app. change (lenN [NameToId n]) with 1. rewrite <- app_assoc. cbn [app].
              replace (tc + 1 + lenN r) with (tc + (1 + lenN r)) by lia.
              replace (lenN ids + 1 + lenN (flt r)) with (lenN ids + (1 + lenN (flt r))) by lia.
              reflexivity.
           ++ destruct ids; discriminate.
           ++ lia.
           ++ rewrite lenN_app. change (lenN [NameToId n]) with 1. lia.
      * rewrite IH by (assumption || lia).
        replace (tc + 1 + lenN r) with (tc + (1 + lenN r)) by lia. reflexivity.
Qed.

Lemma GetNameListRaw_eq : forall cap l,
  GetNameListRaw cap l =
    if 4096 <? lenN l then RErr WS_BUFFER_E
    else
      let ns := names_of l in
      if (64 <? lenN ns) || (cap <? lenN (decoded ns)) then RErr WS_BUFFER_E
      else ROk (decoded ns).
Proof.
  intros cap l. unfold GetNameListRaw, MAX_NAMELIST_SZ. destruct (4096 <? lenN l); [reflexivity|].
  rewrite gnl_proc.
  assert (Es : pre1 [] (split_comma l) = split_comma l).
  { destruct (split_ne l) as (t & ts & ->). reflexivity. }
  rewrite Es. fold (names_of l). cbv zeta. destruct (names_of l) as [|n r].
  - cbn. destruct (N.ltb_spec cap 0); [lia|]. reflexivity.
  - cbn [proc]. unfold decoded. cbn [ids_of_names]. change (lenN (@nil N) =? 0) with true. rewrite orb_true_r.
    change (MAX_NAMELIST_CNT <? 0 + 1) with false. cbv iota zeta.
    rewrite lenN_nil. destruct (N.leb_spec cap 0) as [H|H].
    + rewrite (lenN_cons _ (NameToId n)).
      match goal with |- context [cap <? 1 + ?x] => destruct (N.ltb_spec cap (1 + x)); [|lia] end.
      rewrite orb_true_r. reflexivity.
    + rewrite proc_tail.
      * fold (flt r). rewrite !lenN_cons. cbn [app]. change (0 + 1) with 1.
        reflexivity.
      * discriminate.
      * unfold MAX_NAMELIST_CNT. lia.
      * rewrite app_nil_l. change (lenN [NameToId n]) with 1. lia.
Qed.

(* ---- GetNameList ---------------------------------------------------- *)
Lemma GetNameList_ok : forall cap m len i ids j,
  bytes_ok m -> len <= lenN m -> is32 len -> is32 i ->
  GetNameList cap m len i = POk ids j ->
  exists s, string_at m len i s /\ j = i + 4 + lenN s /\ ids = decoded (names_of s)
            /\ lenN s <= 4096 /\ lenN (names_of s) <= 64 /\ lenN ids <= cap.
Proof.
  intros cap m len i ids j Hm Hl H32 Hi. unfold GetNameList.
  destruct (len =? 0); [discriminate|]. rewrite GetStringRef_eq by assumption.
  destruct (N.leb_spec (i + 4) len) as [H|H]; cbn [pbind]; [|discriminate]. cbv zeta.
  set (n := be_value (slice m i 4)) in *.
  destruct (N.leb_spec (i + 4 + n) len) as [H2|H2]; cbn [pbind]; [|discriminate].
  cbn [fst snd]. rewrite rdn_some by lia.
  assert (Hsl : lenN (slice m (i + 4) n) = n) by (apply slice_length; lia).
  rewrite GetNameListRaw_eq. rewrite Hsl.
  destruct (N.ltb_spec 4096 n) as [H3|H3]; [discriminate|]. cbv zeta.
  destruct (N.ltb_spec 64 (lenN (names_of (slice m (i + 4) n)))) as [H4|H4]; [discriminate|].
  destruct (N.ltb_spec cap (lenN (decoded (names_of (slice m (i + 4) n))))) as [H5|H5]; [discriminate|].
  cbn [orb]. intros E. injection E as <- <-.
  exists (slice m (i + 4) n). rewrite Hsl. unfold string_at, uint32_at. rewrite Hsl. auto 10.
Qed.

Lemma GetNameList_noob : forall cap m len i,
  bytes_ok m -> len <= lenN m -> is32 len -> is32 i -> GetNameList cap m len i <> POob.
Proof.
  intros cap m len i Hm Hl H32 Hi. unfold GetNameList.
  destruct (len =? 0); [discriminate|]. rewrite GetStringRef_eq by assumption.
  destruct (N.leb_spec (i + 4) len) as [H|H]; cbn [pbind]; [|discriminate]. cbv zeta.
  destruct (N.leb_spec (i + 4 + be_value (slice m i 4)) len) as [H2|H2]; cbn [pbind]; [|discriminate].
  cbn [fst snd]. rewrite rdn_some by lia.
  destruct (GetNameListRaw cap _); discriminate.
Qed.

(* ---- matching -------------------------------------------------------- *)
Lemma match_ids_spec : forall l r,
  (first_common l r (match_ids l r)) \/ (nothing_common l r /\ match_ids l r = ID_UNKNOWN).
Proof.
  induction l as [|x l IH]; intros r.
  - right. split; [intros y []|reflexivity].
  - cbn [match_ids]. destruct (existsb (N.eqb x) r) eqn:E.
    + left. exists [], l. split; [reflexivity|]. split; [|intros y []].
      apply existsb_exists in E. destruct E as (y & Hy & Ey). apply N.eqb_eq in Ey. subst y. assumption.
    + assert (Hx : ~ In x r).
      { intros Hin. assert (existsb (N.eqb x) r = true); [|congruence].
        apply existsb_exists. exists x. split; [assumption|apply N.eqb_refl]. }
      destruct (IH r) as [(b & a & E1 & E2 & E3)|(H1 & H2)].
      * left. exists (x :: b), a. split; [cbn; congruence|]. split; [assumption|].
        intros y [<-|Hy]; [assumption|apply E3; assumption].
      * right. split; [|assumption]. intros y [<-|Hy]; [assumption|apply H1; assumption].
Qed.

Lemma first_common_unique : forall A (c s : list A) x y,
  first_common c s x -> first_common c s y -> x = y.
Proof.
  intros A c s x y (b & a & -> & Hx & Hb) (b' & a' & E & Hy & Hb').
  revert b' E Hb'. induction b as [|z b IH]; intros b' E Hb'.
  - destruct b' as [|z' b']; cbn in E; [congruence|].
    injection E as <- E. exfalso. apply (Hb' x); [left; reflexivity|assumption].
  - destruct b' as [|z' b']; cbn in E.
    + injection E as -> E. exfalso. apply (Hb y); [left; reflexivity|assumption].
    + injection E as <- E. apply (IH (fun w Hw => Hb w (or_intror Hw)) b' E (fun w Hw => Hb' w (or_intror Hw))).
Qed.

Lemma match_ids_first : forall l r x, first_common l r x -> match_ids l r = x.
Proof.
  intros l r x H. destruct (match_ids_spec l r) as [H2|(H2 & _)].
  - eapply first_common_unique; eassumption.
  - exfalso. destruct H as (b & a & -> & Hx & _). apply (H2 x); [|assumption].
    apply in_or_app. right. left. reflexivity.
Qed.

Lemma flt_in : forall ns i, In i (flt ns) <-> exists n, In n ns /\ knownb n = true /\ i = NameToId n.
Proof.
  intros ns i. unfold flt. rewrite filter_In, in_map_iff. unfold knownb. split.
  - intros ((n & <- & Hn) & H). eauto.
  - intros (n & Hn & Hk & ->). eauto.
Qed.

Lemma decoded_in : forall ns i, In i (decoded ns) ->
  (exists n, In n ns /\ knownb n = true /\ i = NameToId n) \/
  (exists n r, ns = n :: r /\ knownb n = false /\ i = ID_UNKNOWN).
Proof.
  intros [|n r] i H; [destruct H|]. unfold decoded in H; cbn [ids_of_names] in H. fold (flt r) in H. destruct H as [<-|H].
  - destruct (knownb n) eqn:E.
    + left. exists n. split; [left; reflexivity|auto].
    + right. exists n, r. split; [reflexivity|]. split; [assumption|].
      unfold knownb in E. lia.
  - apply flt_in in H. destruct H as (m & Hm & Hk & ->). left. exists m. split; [right; assumption|auto].
Qed.

Lemma decoded_has : forall ns n, In n ns -> knownb n = true -> In (NameToId n) (decoded ns).
Proof.
  intros [|m r] n H Hk; [destruct H|]. unfold decoded; cbn [ids_of_names]. fold (flt r). destruct H as [->|H].
  - left. reflexivity.
  - right. apply flt_in. eauto.
Qed.

Definition noalias (ns : list bytes) : Prop := forall n, In n ns -> NameToId n <> ID_OSSH_CERT_RSA.

Lemma decoded_split : forall b x a, knownb x = true ->
  exists b' a', decoded (b ++ x :: a) = b' ++ NameToId x :: a' /\
    forall i, In i b' -> (exists n, In n b /\ knownb n = true /\ i = NameToId n) \/
                         (i = ID_UNKNOWN /\ exists n, In n b /\ knownb n = false).
Proof.
  intros [|m b] x a Hk.
  - exists [], (flt a). split; [reflexivity|]. intros i [].
  - exists (NameToId m :: flt b), (flt a). split.
    + unfold decoded. cbn [app ids_of_names]. f_equal. unfold flt. rewrite map_app, filter_app. cbn [map filter].
      unfold knownb in Hk. rewrite Hk. reflexivity.
    + intros i [<-|H].
      * destruct (knownb m) eqn:E.
        -- left. exists m. split; [left; reflexivity|auto].
        -- right. split; [unfold knownb in E; lia|]. exists m. split; [left; reflexivity|assumption].
      * apply flt_in in H. destruct H as (n & Hn & Hkn & ->). left. exists n. split; [right; assumption|auto].
Qed.

Lemma match_names : forall C S,
  (Forall (fun n => knownb n = true) C \/ Forall (fun n => knownb n = true) S) ->
  (noalias C \/ noalias S) ->
  (forall x, first_common C S x ->
     knownb x = true /\ match_ids (decoded C) (decoded S) = NameToId x) /\
  (nothing_common C S -> match_ids (decoded C) (decoded S) = ID_UNKNOWN).
Proof.
  intros C S Hk Hna.
  assert (Hunk : forall n, In n C -> knownb n = false -> ~ In ID_UNKNOWN (decoded S)).
  { intros n Hn Hkn Hin. destruct Hk as [Hk|Hk].
    - rewrite Forall_forall in Hk. specialize (Hk _ Hn). congruence.
    - rewrite Forall_forall in Hk. apply decoded_in in Hin.
      destruct Hin as [(m & Hm & Hkm & E)|(m & r & -> & Hkm & _)].
      + unfold knownb in Hkm. rewrite <- E in Hkm. discriminate.
      + specialize (Hk m (or_introl eq_refl)). congruence. }
  assert (Hsep : forall n, In n C -> knownb n = true -> ~ In n S -> ~ In (NameToId n) (decoded S)).
  { intros n Hn Hkn Hns Hin. apply decoded_in in Hin.
    destruct Hin as [(m & Hm & Hkm & E)|(m & r & -> & Hkm & E)].
    - apply Hns. replace n with m; [assumption|]. symmetry. apply NameToId_inj; auto.
      destruct Hna as [Hna|Hna]; [auto|rewrite E; auto].
    - unfold knownb in Hkn. rewrite E in Hkn. discriminate. }
  split.
  - intros x Hx. pose proof Hx as (b & a & -> & HxS & Hb).
    assert (Hkx : knownb x = true).
    { destruct Hk as [Hk|Hk]; rewrite Forall_forall in Hk; apply Hk; [|assumption].
      apply in_or_app; right; left; reflexivity. }
    split; [assumption|]. apply match_ids_first.
    destruct (decoded_split b x a Hkx) as (b' & a' & E & Hb').
    exists b', a'. split; [assumption|]. split; [apply decoded_has; assumption|].
    intros i Hi. destruct (Hb' i Hi) as [(n & Hn & Hkn & ->)|(-> & n & Hn & Hkn)].
    + apply Hsep; [apply in_or_app; left; assumption|assumption|apply Hb; assumption].
    + apply (Hunk n); [apply in_or_app; left; assumption|assumption].
  - intros Hno. destruct (match_ids_spec (decoded C) (decoded S)) as [(b & a & E & HS & _)|(_ & E)]; [|assumption].
    exfalso. set (i := match_ids (decoded C) (decoded S)) in *.
    assert (HC : In i (decoded C)) by (rewrite E; apply in_or_app; right; left; reflexivity).
    destruct (decoded_in _ _ HC) as [(n & Hn & Hkn & Ei)|(n & r & En & Hkn & Ei)]; rewrite Ei in HS.
    + revert HS. apply Hsep; auto.
    + revert HS. apply (Hunk n); [rewrite En; left; reflexivity|assumption].
Qed.

Lemma name_eq_dec : forall a b : bytes, {a = b} + {a <> b}.
Proof. apply list_eq_dec. apply N.eq_dec. Qed.

Lemma common_dec : forall C S : list bytes, (exists x, first_common C S x) \/ nothing_common C S.
Proof.
  induction C as [|c C IH]; intros S.
  - right. intros x [].
  - destruct (in_dec name_eq_dec c S) as [H|H].
    + left. exists c, [], C. split; [reflexivity|]. split; [assumption|]. intros y [].
    + destruct (IH S) as [(x & b & a & -> & Hx & Hb)|Hn].
      * left. exists x, (c :: b), a. split; [reflexivity|]. split; [assumption|].
        intros y [<-|Hy]; [assumption|apply Hb; assumption].
      * right. intros y [<-|Hy]; [assumption|apply Hn; assumption].
Qed.

(* own list: only known names, no aliased name *)
Definition own_ok (own : list bytes) : Prop :=
  Forall (fun n => knownb n = true) own /\ noalias own.

Definition client_first (sd : side) (own peer : list bytes) (x : bytes) : Prop :=
  match sd with Server => first_common peer own x | Client => first_common own peer x end.
Definition no_common (sd : side) (own peer : list bytes) : Prop :=
  match sd with Server => nothing_common peer own | Client => nothing_common own peer end.

Lemma slot_match : forall sd own peer, own_ok own ->
  let id := MatchIdLists sd (decoded peer) (decoded own) in
  (id <> ID_UNKNOWN -> exists x, client_first sd own peer x /\ id = NameToId x) /\
  (id = ID_UNKNOWN -> no_common sd own peer).
Proof.
  intros sd own peer [Hk Hna] id. subst id. destruct sd; cbn [MatchIdLists client_first no_common].
  - destruct (match_names peer own (or_intror Hk) (or_intror Hna)) as [M1 M2].
    destruct (common_dec peer own) as [(x & Hx)|Hn].
    + destruct (M1 x Hx) as [Hkx E]. rewrite E. split; [eauto|].
      intros E2. unfold knownb in Hkx. rewrite E2 in Hkx. discriminate.
    + rewrite (M2 Hn). split; [congruence|]. intros _. assumption.
  - destruct (match_names own peer (or_introl Hk) (or_introl Hna)) as [M1 M2].
    destruct (common_dec own peer) as [(x & Hx)|Hn].
    + destruct (M1 x Hx) as [Hkx E]. rewrite E. split; [eauto|].
      intros E2. unfold knownb in Hkx. rewrite E2 in Hkx. discriminate.
    + rewrite (M2 Hn). split; [congruence|]. intros _. assumption.
Qed.

(* ---- what an endpoint offers ---------------------------------------- *)
Definition own_kex (c : algocfg) : list bytes := names_of (strip_comma (a_kex c)).
Definition own_key (sd : side) (c : algocfg) : list bytes :=
  match sd, a_key c with
  | Server, None => map IdToName (a_pubkeys c)
  | _, Some l => names_of (strip_comma l)
  | Client, None => []
  end.
Definition own_enc (c : algocfg) : list bytes := names_of (strip_comma (a_enc c)).
Definition own_mac (c : algocfg) : list bytes := names_of (strip_comma (a_mac c)).
Definition pubkeys_ok (c : algocfg) : Prop := Forall (fun i => In i table_ids) (a_pubkeys c).

Definition round_trip_ids : bool := forallb (fun i => NameToId (IdToName i) =? i) table_ids.
Lemma round_trip_ids_ok : round_trip_ids = true.
Proof. vm_compute. reflexivity. Qed.

Lemma NameToId_IdToName : forall i, In i table_ids -> NameToId (IdToName i) = i.
Proof.
  intros i H. pose proof round_trip_ids_ok as T. unfold round_trip_ids in T.
  rewrite forallb_forall in T. apply N.eqb_eq. apply T. assumption.
Qed.
Lemma table_id_known : forall i, In i table_ids -> negb (i =? ID_UNKNOWN) = true.
Proof.
  intros i H. pose proof table_no_unknown as T. rewrite forallb_forall in T. apply T. assumption.
Qed.

Lemma flt_ids : forall ids, Forall (fun i => In i table_ids) ids -> flt (map IdToName ids) = ids.
Proof.
  induction ids as [|i ids IH]; intros H; [reflexivity|]. inversion H; subst.
  unfold flt. cbn [map filter]. rewrite NameToId_IdToName by assumption.
  rewrite table_id_known by assumption. f_equal. apply IH. assumption.
Qed.
Lemma decoded_ids : forall ids, Forall (fun i => In i table_ids) ids -> decoded (map IdToName ids) = ids.
Proof.
  intros [|i ids] H; [reflexivity|]. inversion H; subst. unfold decoded. cbn [map ids_of_names].
  rewrite NameToId_IdToName by assumption. f_equal. apply flt_ids. assumption.
Qed.

Lemma own_keys_ok : forall sd c ids, pubkeys_ok c -> own_keys sd c = ROk ids ->
  ids = decoded (own_key sd c).
Proof.
  intros sd c ids Hp. unfold own_keys, own_key. destruct sd, (a_key c) as [l|].
  - rewrite GetNameListRaw_eq. destruct (4096 <? _); [discriminate|]. cbv zeta.
    destruct (_ || _); [discriminate|]. congruence.
  - intros E. injection E as <-. symmetry. apply decoded_ids. assumption.
  - rewrite GetNameListRaw_eq. destruct (4096 <? _); [discriminate|]. cbv zeta.
    destruct (_ || _); [discriminate|]. congruence.
  - rewrite GetNameListRaw_eq. cbn. congruence.
Qed.

Lemma raw_ok : forall cap l ids, GetNameListRaw cap l = ROk ids -> ids = decoded (names_of l).
Proof.
  intros cap l ids. rewrite GetNameListRaw_eq. destruct (4096 <? _); [discriminate|]. cbv zeta.
  destruct (_ || _); [discriminate|]. congruence.
Qed.
Lemma raw_err : forall cap l e, GetNameListRaw cap l = RErr e -> e = WS_BUFFER_E.
Proof.
  intros cap l e. rewrite GetNameListRaw_eq. destruct (4096 <? _); [congruence|]. cbv zeta.
  destruct (_ || _); congruence.
Qed.
Lemma own_keys_err : forall sd c e, own_keys sd c = RErr e -> e = WS_BUFFER_E.
Proof.
  intros sd c e. unfold own_keys. destruct sd, (a_key c); try discriminate; apply raw_err.
Qed.
Lemma GetNameList_err : forall cap m len i e j,
  bytes_ok m -> len <= lenN m -> is32 len -> is32 i ->
  GetNameList cap m len i = PErr e j -> e = WS_BUFFER_E \/ e = WS_BAD_ARGUMENT.
Proof.
  intros cap m len i e j Hm Hl H32 Hi. unfold GetNameList.
  destruct (len =? 0); [right; congruence|]. rewrite GetStringRef_eq by assumption.
  destruct (N.leb_spec (i + 4) len) as [H|H]; cbn [pbind]; [|left; congruence]. cbv zeta.
  destruct (N.leb_spec (i + 4 + be_value (slice m i 4)) len) as [H2|H2]; cbn [pbind]; [|left; congruence].
  cbn [fst snd]. rewrite rdn_some by lia.
  destruct (GetNameListRaw cap _) eqn:E; [discriminate|]. apply raw_err in E. left. congruence.
Qed.

(* ---- DoKexInit ------------------------------------------------------- *)
Definition cfg_ok (sd : side) (c : algocfg) : Prop :=
  own_ok (own_kex c) /\ own_ok (own_key sd c) /\ own_ok (own_enc c) /\ own_ok (own_mac c) /\
  pubkeys_ok c.

Definition c2s_of (sd : side) (r : nego) := match sd with Server => n_peer r | Client => n_local r end.
Definition s2c_of (sd : side) (r : nego) := match sd with Server => n_local r | Client => n_peer r end.

Lemma string_at_bounds : forall m len i s, string_at m len i s -> i + 4 + lenN s <= len.
Proof. intros m len i s (_ & H & _). assumption. Qed.

Lemma enc_match_ok : forall sd c l i id j, own_ok (own_enc c) ->
  enc_match sd c (decoded l) i = POk id j ->
  j = i /\ exists x, client_first sd (own_enc c) l x /\ id = NameToId x.
Proof.
  intros sd c l i id j Ho. unfold enc_match, lift.
  destruct (GetNameListRaw ID_LIST_MAX (strip_comma (a_enc c))) as [ids|e] eqn:E; cbn [pbind]; [|discriminate].
  apply raw_ok in E. fold (own_enc c) in E. subst ids.
  destruct (slot_match sd (own_enc c) l Ho) as [M1 M2].
  destruct (N.eqb_spec (MatchIdLists sd (decoded l) (decoded (own_enc c))) ID_UNKNOWN) as [H|H]; [discriminate|].
  intros E. injection E as <- <-. split; [reflexivity|]. apply M1. assumption.
Qed.

Lemma enc_match_err : forall sd c l i e j, own_ok (own_enc c) ->
  enc_match sd c (decoded l) i = PErr e j ->
  e = WS_BUFFER_E \/ (e = WS_MATCH_ENC_ALGO_E /\ no_common sd (own_enc c) l).
Proof.
  intros sd c l i e j Ho. unfold enc_match, lift.
  destruct (GetNameListRaw ID_LIST_MAX (strip_comma (a_enc c))) as [ids|e'] eqn:E; cbn [pbind].
  - apply raw_ok in E. fold (own_enc c) in E. subst ids.
    destruct (slot_match sd (own_enc c) l Ho) as [M1 M2].
    destruct (N.eqb_spec (MatchIdLists sd (decoded l) (decoded (own_enc c))) ID_UNKNOWN) as [H|H]; [|discriminate].
    intros E. injection E as <- <-. right. auto.
  - apply raw_err in E. left. congruence.
Qed.

Lemma mac_match_ok : forall sd c aead l i id j, own_ok (own_mac c) ->
  mac_match sd c aead (decoded l) i = POk id j ->
  j = i /\ if aead then id = ID_NONE
           else exists x, client_first sd (own_mac c) l x /\ id = NameToId x.
Proof.
  intros sd c aead l i id j Ho. unfold mac_match, lift. destruct aead.
  - intros E. injection E as <- <-. auto.
  - destruct (GetNameListRaw ID_LIST_MAX (strip_comma (a_mac c))) as [ids|e] eqn:E; cbn [pbind]; [|discriminate].
    apply raw_ok in E. fold (own_mac c) in E. subst ids.
    destruct (slot_match sd (own_mac c) l Ho) as [M1 M2].
    destruct (N.eqb_spec (MatchIdLists sd (decoded l) (decoded (own_mac c))) ID_UNKNOWN) as [H|H]; [discriminate|].
    intros E. injection E as <- <-. split; [reflexivity|]. apply M1. assumption.
Qed.

Lemma mac_match_err : forall sd c aead l i e j, own_ok (own_mac c) ->
  mac_match sd c aead (decoded l) i = PErr e j ->
  e = WS_BUFFER_E \/ (e = WS_MATCH_MAC_ALGO_E /\ aead = false /\ no_common sd (own_mac c) l).
Proof.
  intros sd c aead l i e j Ho. unfold mac_match, lift. destruct aead; [discriminate|].
  destruct (GetNameListRaw ID_LIST_MAX (strip_comma (a_mac c))) as [ids|e'] eqn:E; cbn [pbind].
  - apply raw_ok in E. fold (own_mac c) in E. subst ids.
    destruct (slot_match sd (own_mac c) l Ho) as [M1 M2].
    destruct (N.eqb_spec (MatchIdLists sd (decoded l) (decoded (own_mac c))) ID_UNKNOWN) as [H|H]; [|discriminate].
    intros E. injection E as <- <-. right. auto.
  - apply raw_err in E. left. congruence.
Qed.

Lemma none_match_ok : forall sd l i u j, none_match sd l i = POk u j -> j = i /\ In ID_NONE l.
Proof.
  intros sd l i u j. unfold none_match.
  destruct (N.eqb_spec (MatchIdLists sd l [ID_NONE]) ID_UNKNOWN) as [H|H]; [discriminate|].
  intros E. injection E as _ <-. split; [reflexivity|].
  destruct sd; cbn [MatchIdLists] in H.
  - destruct (match_ids_spec l [ID_NONE]) as [(b & a & E & HS & _)|(_ & E)]; [|contradiction].
    pose proof (in_elt (match_ids l [ID_NONE]) b a) as Hl. rewrite <- E in Hl.
    destruct HS as [HS|[]]. rewrite HS. assumption.
  - destruct (match_ids_spec [ID_NONE] l) as [(b & a & E & HS & _)|(_ & E)]; [|contradiction].
    pose proof (in_elt (match_ids [ID_NONE] l) b a) as Hl. rewrite <- E in Hl.
    destruct Hl as [Hl|[]]. rewrite Hl. assumption.
Qed.

Lemma GetBoolean_ok : forall m len i v j, len <= lenN m -> is32 len ->
  GetBoolean m len i = POk v j -> i < len /\ j = i + 1.
Proof.
  intros m len i v j Hl H32. rewrite GetBoolean_eq by assumption.
  destruct (rd (takeN len m) i) as [x|] eqn:E; [|discriminate].
  apply rd_lt in E. rewrite lenN_takeN in E. intros H. injection H as _ <-. split; [lia|reflexivity].
Qed.
Lemma GetUint32_ok : forall m len i v j, bytes_ok m -> len <= lenN m -> is32 len -> is32 i ->
  GetUint32 m len i = POk v j -> i + 4 <= len /\ j = i + 4.
Proof.
  intros m len i v j Hm Hl H32 Hi. rewrite GetUint32_eq by assumption.
  destruct (N.leb_spec (i + 4) len); [|discriminate]. intros E. injection E as _ <-. auto.
Qed.
Lemma GetSkip_ok : forall m len i u j, bytes_ok m -> len <= lenN m -> is32 len -> is32 i ->
  GetSkip m len i = POk u j -> exists s, string_at m len i s /\ j = i + 4 + lenN s.
Proof.
  intros m len i u j Hm Hl H32 Hi. rewrite GetSkip_eq by assumption.
  unfold string_at, uint32_at. cbv zeta.
  destruct (N.leb_spec (i + 4) len); [|discriminate].
  destruct (N.leb_spec (i + 4 + be_value (slice m i 4)) len); [|discriminate].
  intros E. injection E as _ <-. exists (slice m (i + 4) (be_value (slice m i 4))).
  rewrite !slice_length by lia. repeat split; lia.
Qed.

Lemma POk_inj : forall A (a b : A) i j, POk a i = POk b j -> a = b /\ i = j.
Proof. intros A a b i j H. injection H as -> ->. auto. Qed.

Ltac pstep H :=
  match type of H with
  | pbind ?ex _ = _ => let E := fresh "E" in destruct ex as [?a ?j|?e ?j|] eqn:E; cbn [pbind] in H;
      [|try discriminate H|try discriminate H]
  end.

(* key, iv, block and mac sizes are those of the chosen algorithms *)
Definition dir_ok (d : dirparams) : Prop := d = SetAlgoIds (d_enc d) (AeadModeForId (d_enc d)) (d_mac d).
Lemma dir_ok_set : forall p l, dir_ok (SetAlgoIds p (AeadModeForId p) l).
Proof.
  intros p l. unfold dir_ok. assert (E : d_enc (SetAlgoIds p (AeadModeForId p) l) = p).
  { unfold SetAlgoIds. cbv zeta. destruct (AeadModeForId p); reflexivity. }
  rewrite E. unfold SetAlgoIds. cbv zeta. destruct (AeadModeForId p); reflexivity.
Qed.

Theorem DoKexInit_success : forall sd c m len idx r j,
  bytes_ok m -> len <= lenN m -> is32 len -> is32 (idx + 16) -> cfg_ok sd c ->
  DoKexInit sd c m len idx = POk r j ->
  exists kex key e1 e2 m1 m2 c1 c2 l1 l2 k,
    strings_at m len (idx + 16) [kex; key; e1; e2; m1; m2; c1; c2; l1; l2] k /\
    j = k + 5 /\ j <= len /\
    (exists x, client_first sd (own_kex c) (names_of kex) x /\ n_kex r = NameToId x) /\
    (exists x, client_first sd (own_key sd c) (names_of key) x /\ n_pubkey r = NameToId x) /\
    (exists x, client_first sd (own_enc c) (names_of e1) x /\ d_enc (c2s_of sd r) = NameToId x) /\
    (exists x, client_first sd (own_enc c) (names_of e2) x /\ d_enc (s2c_of sd r) = NameToId x) /\
    (if AeadModeForId (d_enc (c2s_of sd r)) then d_mac (c2s_of sd r) = ID_NONE
     else exists x, client_first sd (own_mac c) (names_of m1) x /\ d_mac (c2s_of sd r) = NameToId x) /\
    (if AeadModeForId (d_enc (s2c_of sd r)) then d_mac (s2c_of sd r) = ID_NONE
     else exists x, client_first sd (own_mac c) (names_of m2) x /\ d_mac (s2c_of sd r) = NameToId x) /\
    dir_ok (c2s_of sd r) /\ dir_ok (s2c_of sd r).
Proof.
  intros sd c m len idx r j Hm Hl H32 Hidx (Hok & Hokey & Hoe & Hom & Hpk) H.
  unfold DoKexInit in H. unfold COOKIE_SZ in H. rewrite add32_small in H by exact Hidx.
  destruct (N.ltb_spec len (idx + 16)) as [H0|H0]; [discriminate|]. cbv zeta in H.
  pstep H. apply GetNameList_ok in E; try assumption; [|unfold is32 in *; lia ..].
  destruct E as (kex & Skex & -> & -> & _). pose proof (string_at_bounds _ _ _ _ Skex) as B1.
  pstep H. unfold lift in E. destruct (GetNameListRaw ID_LIST_MAX (strip_comma (a_kex c))) eqn:E1; [|discriminate].
  injection E as <- <-. apply raw_ok in E1. fold (own_kex c) in E1. subst a0.
  destruct (slot_match sd (own_kex c) (names_of kex) Hok) as [Mk _].
  set (kid := MatchIdLists sd (decoded (names_of kex)) (decoded (own_kex c))) in *.
  destruct (N.eqb_spec kid ID_UNKNOWN) as [Hk|Hk]; [discriminate|].
  pstep H. apply GetNameList_ok in E; try assumption; [|unfold is32 in *; lia ..].
  destruct E as (key & Skey & -> & -> & _). pose proof (string_at_bounds _ _ _ _ Skey) as B2.
  pstep H. unfold lift in E. destruct (own_keys sd c) eqn:E1; [|discriminate].
  injection E as <- <-. apply own_keys_ok in E1; [|assumption]. subst a0.
  destruct (slot_match sd (own_key sd c) (names_of key) Hokey) as [Mkey _].
  set (keyid := MatchIdLists sd (decoded (names_of key)) (decoded (own_key sd c))) in *.
  destruct (N.eqb_spec keyid ID_UNKNOWN) as [Hky|Hky]; [discriminate|].
  pstep H. apply GetNameList_ok in E; try assumption; [|unfold is32 in *; lia ..].
  destruct E as (e1 & Se1 & -> & -> & _). pose proof (string_at_bounds _ _ _ _ Se1) as B3.
  pstep H. apply enc_match_ok in E; [|assumption]. destruct E as (-> & Xe1).
  pstep H. apply GetNameList_ok in E; try assumption; [|unfold is32 in *; lia ..].
  destruct E as (e2 & Se2 & -> & -> & _). pose proof (string_at_bounds _ _ _ _ Se2) as B4.
  pstep H. apply enc_match_ok in E; [|assumption]. destruct E as (-> & Xe2).
  pstep H. apply GetNameList_ok in E; try assumption; [|unfold is32 in *; lia ..].
  destruct E as (m1 & Sm1 & -> & -> & _). pose proof (string_at_bounds _ _ _ _ Sm1) as B5.
  pstep H. apply mac_match_ok in E; [|assumption]. destruct E as (-> & Xm1).
  pstep H. apply GetNameList_ok in E; try assumption; [|unfold is32 in *; lia ..].
  destruct E as (m2 & Sm2 & -> & -> & _). pose proof (string_at_bounds _ _ _ _ Sm2) as B6.
  pstep H. apply mac_match_ok in E; [|assumption]. destruct E as (-> & Xm2).
  pstep H. apply GetNameList_ok in E; try assumption; [|unfold is32 in *; lia ..].
  destruct E as (c1 & Sc1 & -> & -> & _). pose proof (string_at_bounds _ _ _ _ Sc1) as B7.
  pstep H. apply none_match_ok in E. destruct E as (-> & _).
  pstep H. apply GetNameList_ok in E; try assumption; [|unfold is32 in *; lia ..].
  destruct E as (c2 & Sc2 & -> & -> & _). pose proof (string_at_bounds _ _ _ _ Sc2) as B8.
  pstep H. apply none_match_ok in E. destruct E as (-> & _).
  pstep H. apply GetSkip_ok in E; try assumption; [|unfold is32 in *; lia ..]. destruct E as (l1 & Sl1 & ->).
  pose proof (string_at_bounds _ _ _ _ Sl1) as B9.
  pstep H. apply GetSkip_ok in E; try assumption; [|unfold is32 in *; lia ..]. destruct E as (l2 & Sl2 & ->).
  pose proof (string_at_bounds _ _ _ _ Sl2) as B10.
  pstep H. apply GetBoolean_ok in E; try assumption. destruct E as (B11 & ->).
  pstep H. apply GetUint32_ok in E; try assumption; [|unfold is32 in *; lia ..]. destruct E as (B12 & ->).
  match type of H with (if ?b then _ else _) = _ => destruct b; [discriminate|] end.
  exists kex, key, e1, e2, m1, m2, c1, c2, l1, l2. eexists. split.
  { repeat (eapply strings_cons; [eassumption|]). apply strings_nil. }
  assert (Hj : forall p l, d_enc (SetAlgoIds p (AeadModeForId p) l) = p).
  { intros p l. unfold SetAlgoIds. cbv zeta. destruct (AeadModeForId p); reflexivity. }
  assert (Hmac : forall p l, (if AeadModeForId p then l = ID_NONE else True) ->
             d_mac (SetAlgoIds p (AeadModeForId p) l) = l).
  { intros p l. unfold SetAlgoIds. cbv zeta. destruct (AeadModeForId p); cbn; [|reflexivity]. intros ->; reflexivity. }
  destruct sd; apply POk_inj in H; destruct H as [<- <-]; cbn [c2s_of s2c_of n_kex n_pubkey n_local n_peer];
    rewrite !Hj.
  all: split; [lia|]; split; [lia|].
  all: split; [apply Mk; assumption|]; split; [apply Mkey; assumption|].
  all: split; [assumption|]; split; [assumption|].
  all: split; [|split; [|split; apply dir_ok_set]].
  all: match goal with |- if AeadModeForId ?p then _ else _ => destruct (AeadModeForId p) eqn:Ea end.
  all: rewrite <- Ea; rewrite Hmac; rewrite ?Ea; auto.
Qed.

Lemma none_match_err : forall sd l i e j, none_match sd l i = PErr e j -> e = WS_INVALID_ALGO_ID.
Proof. intros sd l i e j. unfold none_match. destruct (_ =? _); [congruence|discriminate]. Qed.
Lemma none_match_noob : forall sd l i, none_match sd l i <> POob.
Proof. intros sd l i. unfold none_match. destruct (_ =? _); discriminate. Qed.
Lemma lift_noob : forall A (r : res A) i, lift r i <> POob.
Proof. intros A [a|e] i; discriminate. Qed.
Lemma enc_match_noob : forall sd c l i, enc_match sd c l i <> POob.
Proof.
  intros sd c l i. unfold enc_match, lift. destruct (GetNameListRaw _ _); cbn [pbind]; [|discriminate].
  destruct (_ =? _); discriminate.
Qed.
Lemma mac_match_noob : forall sd c a l i, mac_match sd c a l i <> POob.
Proof.
  intros sd c a l i. unfold mac_match, lift. destruct a; [discriminate|].
  destruct (GetNameListRaw _ _); cbn [pbind]; [|discriminate].
  destruct (_ =? _); discriminate.
Qed.
Lemma PErr_inj : forall A (a b : rc) i j, @PErr A a i = PErr b j -> a = b /\ i = j.
Proof. intros A a b i j H. injection H as -> ->. auto. Qed.
Lemma GetSkip_err : forall m len i e j, bytes_ok m -> len <= lenN m -> is32 len -> is32 i ->
  GetSkip m len i = PErr e j -> e = WS_BUFFER_E.
Proof.
  intros m len i e j Hm Hl H32 Hi. rewrite GetSkip_eq by assumption. cbv zeta.
  destruct (i + 4 <=? len); [|congruence]. destruct (_ <=? len); congruence.
Qed.
Lemma GetSkip_noob : forall m len i, bytes_ok m -> len <= lenN m -> is32 len -> is32 i ->
  GetSkip m len i <> POob.
Proof.
  intros m len i Hm Hl H32 Hi. rewrite GetSkip_eq by assumption. cbv zeta.
  destruct (i + 4 <=? len); [|congruence]. destruct (_ <=? len); congruence.
Qed.
Lemma GetUint32_err : forall m len i e j, bytes_ok m -> len <= lenN m -> is32 len -> is32 i ->
  GetUint32 m len i = PErr e j -> e = WS_BUFFER_E.
Proof.
  intros m len i e j Hm Hl H32 Hi. rewrite GetUint32_eq by assumption.
  destruct (i + 4 <=? len); congruence.
Qed.
Lemma GetUint32_noob : forall m len i, bytes_ok m -> len <= lenN m -> is32 len -> is32 i ->
  GetUint32 m len i <> POob.
Proof.
  intros m len i Hm Hl H32 Hi. rewrite GetUint32_eq by assumption.
  destruct (i + 4 <=? len); congruence.
Qed.
Lemma GetBoolean_err : forall m len i e j, len <= lenN m -> is32 len ->
  GetBoolean m len i = PErr e j -> e = WS_BUFFER_E.
Proof.
  intros m len i e j Hl H32. rewrite GetBoolean_eq by assumption. destruct (rd _ _); congruence.
Qed.
Lemma GetBoolean_noob : forall m len i, len <= lenN m -> is32 len -> GetBoolean m len i <> POob.
Proof.
  intros m len i Hl H32. rewrite GetBoolean_eq by assumption. destruct (rd _ _); congruence.
Qed.

(* what the failure codes mean *)
Definition nego_failure (sd : side) (c : algocfg) (m : bytes) (len i : N) (e : rc) : Prop :=
  match e with
  | WS_MATCH_KEX_ALGO_E =>
      exists kex k, strings_at m len i [kex] k /\ no_common sd (own_kex c) (names_of kex)
  | WS_MATCH_KEY_ALGO_E =>
      exists kex key k, strings_at m len i [kex; key] k /\ no_common sd (own_key sd c) (names_of key)
  | WS_MATCH_ENC_ALGO_E =>
      exists kex key e1 k, strings_at m len i [kex; key; e1] k /\
        (no_common sd (own_enc c) (names_of e1) \/
         exists e2 k2, strings_at m len i [kex; key; e1; e2] k2 /\ no_common sd (own_enc c) (names_of e2))
  | WS_MATCH_MAC_ALGO_E =>
      exists kex key e1 e2 m1 k, strings_at m len i [kex; key; e1; e2; m1] k /\
        (no_common sd (own_mac c) (names_of m1) \/
         exists m2 k2, strings_at m len i [kex; key; e1; e2; m1; m2] k2 /\ no_common sd (own_mac c) (names_of m2))
  | WS_PARSE_E | WS_BUFFER_E | WS_BAD_ARGUMENT | WS_INVALID_ALGO_ID => True
  | _ => False
  end.

Ltac strs := repeat (eapply strings_cons; [eassumption|]); apply strings_nil.
Ltac code E := destruct E as [->| ->]; exact I.

Theorem DoKexInit_failure : forall sd c m len idx,
  bytes_ok m -> len <= lenN m -> is32 len -> is32 (idx + 16) -> cfg_ok sd c ->
  DoKexInit sd c m len idx <> POob /\
  forall e j, DoKexInit sd c m len idx = PErr e j -> nego_failure sd c m len (idx + 16) e.
Proof.
  intros sd c m len idx Hm Hl H32 Hidx (Hok & Hokey & Hoe & Hom & Hpk).
  assert (Goal' : forall r, DoKexInit sd c m len idx = r ->
    match r with POk _ _ => True | POob => False | PErr e _ => nego_failure sd c m len (idx + 16) e end).
  2:{ split; [intros E; apply (Goal' _ E)|intros e j E; apply (Goal' _ E)]. }
  intros r H. unfold DoKexInit in H. unfold COOKIE_SZ in H. rewrite add32_small in H by exact Hidx.
  destruct (N.ltb_spec len (idx + 16)) as [H0|H0]; [subst r; exact I|]. cbv zeta in H.
  assert (Hi0 : is32 (idx + 16)) by assumption.
  (* kex *)
  match type of H with pbind ?ex _ = _ => destruct ex as [a j|e j|] eqn:E; cbn [pbind] in H end.
  2:{ subst r. apply GetNameList_err in E; try assumption. code E. }
  2:{ exfalso. revert E. apply GetNameList_noob; assumption. }
  apply GetNameList_ok in E; try assumption.
  destruct E as (kex & Skex & -> & -> & _). pose proof (string_at_bounds _ _ _ _ Skex) as B1.
  assert (Hi1 : is32 (idx + 16 + 4 + lenN kex)) by (unfold is32 in *; lia).
  match type of H with pbind ?ex _ = _ => destruct ex as [a j|e j|] eqn:E; cbn [pbind] in H end.
  2:{ subst r. unfold lift in E. destruct (GetNameListRaw _ _) eqn:E1; [discriminate|].
      apply raw_err in E1. injection E as <- _. subst. exact I. }
  2:{ exfalso. revert E. apply lift_noob. }
  unfold lift in E. destruct (GetNameListRaw ID_LIST_MAX (strip_comma (a_kex c))) eqn:E1; [|discriminate].
  apply POk_inj in E; destruct E as [<- <-]. apply raw_ok in E1. fold (own_kex c) in E1. subst a0.
  destruct (slot_match sd (own_kex c) (names_of kex) Hok) as [_ Mk].
  set (kid := MatchIdLists sd (decoded (names_of kex)) (decoded (own_kex c))) in *.
  destruct (N.eqb_spec kid ID_UNKNOWN) as [Hk|Hk].
  { subst r. cbn. exists kex. eexists. split; [strs|auto]. }
  clear Mk Hk. clearbody kid.
  (* key *)
  match type of H with pbind ?ex _ = _ => destruct ex as [a j|e j|] eqn:E; cbn [pbind] in H end.
  2:{ subst r. apply GetNameList_err in E; try assumption. code E. }
  2:{ exfalso. revert E. apply GetNameList_noob; assumption. }
  apply GetNameList_ok in E; try assumption.
  destruct E as (key & Skey & -> & -> & _). pose proof (string_at_bounds _ _ _ _ Skey) as B2.
  assert (Hi2 : is32 (idx + 16 + 4 + lenN kex + 4 + lenN key)) by (unfold is32 in *; lia).
  match type of H with pbind ?ex _ = _ => destruct ex as [a j|e j|] eqn:E; cbn [pbind] in H end.
  2:{ subst r. unfold lift in E. destruct (own_keys _ _) eqn:E1; [discriminate|].
      apply own_keys_err in E1. injection E as <- _. subst. exact I. }
  2:{ exfalso. revert E. apply lift_noob. }
  unfold lift in E. destruct (own_keys sd c) eqn:E1; [|discriminate].
  apply POk_inj in E; destruct E as [<- <-]. apply own_keys_ok in E1; [|assumption]. subst a0.
  destruct (slot_match sd (own_key sd c) (names_of key) Hokey) as [_ Mk].
  set (keyid := MatchIdLists sd (decoded (names_of key)) (decoded (own_key sd c))) in *.
  destruct (N.eqb_spec keyid ID_UNKNOWN) as [Hk|Hk].
  { subst r. cbn. exists kex, key. eexists. split; [strs|auto]. }
  clear Mk Hk. clearbody keyid.
  (* enc 1 *)
  match type of H with pbind ?ex _ = _ => destruct ex as [a j|e j|] eqn:E; cbn [pbind] in H end.
  2:{ subst r. apply GetNameList_err in E; try assumption. code E. }
  2:{ exfalso. revert E. apply GetNameList_noob; assumption. }
  apply GetNameList_ok in E; try assumption.
  destruct E as (e1 & Se1 & -> & -> & _). pose proof (string_at_bounds _ _ _ _ Se1) as B3.
  assert (Hi3 : is32 (idx + 16 + 4 + lenN kex + 4 + lenN key + 4 + lenN e1)) by (unfold is32 in *; lia).
  match type of H with pbind ?ex _ = _ => destruct ex as [a j|e j|] eqn:E; cbn [pbind] in H end.
  2:{ subst r. apply enc_match_err in E; [|assumption]. destruct E as [->|[-> Hn]]; [exact I|].
      cbn. exists kex, key, e1. eexists. split; [strs|left; assumption]. }
  2:{ exfalso. revert E. apply enc_match_noob. }
  apply enc_match_ok in E; [|assumption]. destruct E as (-> & _).
  (* enc 2 *)
  match type of H with pbind ?ex _ = _ => destruct ex as [a0 j|e j|] eqn:E; cbn [pbind] in H end.
  2:{ subst r. apply GetNameList_err in E; try assumption. code E. }
  2:{ exfalso. revert E. apply GetNameList_noob; assumption. }
  apply GetNameList_ok in E; try assumption.
  destruct E as (e2 & Se2 & -> & -> & _). pose proof (string_at_bounds _ _ _ _ Se2) as B4.
  assert (Hi4 : is32 (idx + 16 + 4 + lenN kex + 4 + lenN key + 4 + lenN e1 + 4 + lenN e2)) by (unfold is32 in *; lia).
  match type of H with pbind ?ex _ = _ => destruct ex as [a0 j|e j|] eqn:E; cbn [pbind] in H end.
  2:{ subst r. apply enc_match_err in E; [|assumption]. destruct E as [->|[-> Hn]]; [exact I|].
      cbn. exists kex, key, e1. eexists. split; [strs|right]. exists e2. eexists. split; [strs|assumption]. }
  2:{ exfalso. revert E. apply enc_match_noob. }
  apply enc_match_ok in E; [|assumption]. destruct E as (-> & _).
  (* mac 1 *)
  match type of H with pbind ?ex _ = _ => destruct ex as [a1 j|e j|] eqn:E; cbn [pbind] in H end.
  2:{ subst r. apply GetNameList_err in E; try assumption. code E. }
  2:{ exfalso. revert E. apply GetNameList_noob; assumption. }
  apply GetNameList_ok in E; try assumption.
  destruct E as (m1 & Sm1 & -> & -> & _). pose proof (string_at_bounds _ _ _ _ Sm1) as B5.
  assert (Hi5 : is32 (idx + 16 + 4 + lenN kex + 4 + lenN key + 4 + lenN e1 + 4 + lenN e2 + 4 + lenN m1)) by (unfold is32 in *; lia).
  match type of H with pbind ?ex _ = _ => destruct ex as [a1 j|e j|] eqn:E; cbn [pbind] in H end.
  2:{ subst r. apply mac_match_err in E; [|assumption]. destruct E as [->|[-> [_ Hn]]]; [exact I|].
      cbn. exists kex, key, e1, e2, m1. eexists. split; [strs|left; assumption]. }
  2:{ exfalso. revert E. apply mac_match_noob. }
  apply mac_match_ok in E; [|assumption]. destruct E as (-> & _).
  (* mac 2 *)
  match type of H with pbind ?ex _ = _ => destruct ex as [a2 j|e j|] eqn:E; cbn [pbind] in H end.
  2:{ subst r. apply GetNameList_err in E; try assumption. code E. }
  2:{ exfalso. revert E. apply GetNameList_noob; assumption. }
  apply GetNameList_ok in E; try assumption.
  destruct E as (m2 & Sm2 & -> & -> & _). pose proof (string_at_bounds _ _ _ _ Sm2) as B6.
  match type of H with pbind ?ex _ = _ => destruct ex as [a2 j|e j|] eqn:E; cbn [pbind] in H end.
  2:{ subst r. apply mac_match_err in E; [|assumption]. destruct E as [->|[-> [_ Hn]]]; [exact I|].
      cbn. exists kex, key, e1, e2, m1. eexists. split; [strs|right]. exists m2. eexists. split; [strs|assumption]. }
  2:{ exfalso. revert E. apply mac_match_noob. }
  apply mac_match_ok in E; [|assumption]. destruct E as (-> & _).
  match type of H with context [GetNameList ID_LIST_MAX m len ?x] => set (k := x) in *; assert (Hi6 : is32 k) by (unfold k, is32 in *; lia); clearbody k end.
  (* compression *)
  match type of H with pbind ?ex _ = _ => destruct ex as [a3 j|e j|] eqn:E; cbn [pbind] in H end.
  2:{ subst r. apply GetNameList_err in E; try assumption. code E. }
  2:{ exfalso. revert E. apply GetNameList_noob; assumption. }
  apply GetNameList_ok in E; try assumption.
  destruct E as (c1 & Sc1 & -> & -> & _). pose proof (string_at_bounds _ _ _ _ Sc1) as B7.
  match type of H with pbind ?ex _ = _ => destruct ex as [a3 j|e j|] eqn:E; cbn [pbind] in H end.
  2:{ subst r. apply none_match_err in E. subst e. exact I. }
  2:{ exfalso. revert E. apply none_match_noob. }
  apply none_match_ok in E. destruct E as (-> & _).
  match type of H with pbind ?ex _ = _ => destruct ex as [a4 j|e j|] eqn:E; cbn [pbind] in H end.
  2:{ subst r. apply GetNameList_err in E; try assumption; [code E|unfold is32 in *; lia]. }
  2:{ exfalso. revert E. apply GetNameList_noob; try assumption. unfold is32 in *; lia. }
  apply GetNameList_ok in E; try assumption; [|unfold is32 in *; lia].
  destruct E as (c2 & Sc2 & -> & -> & _). pose proof (string_at_bounds _ _ _ _ Sc2) as B8.
  match type of H with pbind ?ex _ = _ => destruct ex as [a4 j|e j|] eqn:E; cbn [pbind] in H end.
  2:{ subst r. apply none_match_err in E. subst e. exact I. }
  2:{ exfalso. revert E. apply none_match_noob. }
  apply none_match_ok in E. destruct E as (-> & _).
  (* languages *)
  match type of H with pbind ?ex _ = _ => destruct ex as [a5 j|e j|] eqn:E; cbn [pbind] in H end.
  2:{ subst r. apply GetSkip_err in E; try assumption; [subst e; exact I|unfold is32 in *; lia]. }
  2:{ exfalso. revert E. apply GetSkip_noob; try assumption. unfold is32 in *; lia. }
  apply GetSkip_ok in E; try assumption; [|unfold is32 in *; lia].
  destruct E as (l1 & Sl1 & ->). pose proof (string_at_bounds _ _ _ _ Sl1) as B9.
  match type of H with pbind ?ex _ = _ => destruct ex as [a6 j|e j|] eqn:E; cbn [pbind] in H end.
  2:{ subst r. apply GetSkip_err in E; try assumption; [subst e; exact I|unfold is32 in *; lia]. }
  2:{ exfalso. revert E. apply GetSkip_noob; try assumption. unfold is32 in *; lia. }
  apply GetSkip_ok in E; try assumption; [|unfold is32 in *; lia].
  destruct E as (l2 & Sl2 & ->). pose proof (string_at_bounds _ _ _ _ Sl2) as B10.
  match type of H with pbind ?ex _ = _ => destruct ex as [a7 j|e j|] eqn:E; cbn [pbind] in H end.
  2:{ subst r. apply GetBoolean_err in E; try assumption. subst e. exact I. }
  2:{ exfalso. revert E. apply GetBoolean_noob; assumption. }
  apply GetBoolean_ok in E; try assumption. destruct E as (B11 & ->).
  match type of H with pbind ?ex _ = _ => destruct ex as [a8 j|e j|] eqn:E; cbn [pbind] in H end.
  2:{ subst r. apply GetUint32_err in E; try assumption; [subst e; exact I|unfold is32 in *; lia]. }
  2:{ exfalso. revert E. apply GetUint32_noob; try assumption. unfold is32 in *; lia. }
  destruct (negb (a8 =? 0)); [subst r; exact I|]. destruct sd; subst r; exact I.
Qed.
