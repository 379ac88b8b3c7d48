(* KexProofs.v - lemmas for C28, C39, C44, C46. *)
From Verif Require Import Base WireModel WireSpec WireProofs DhTable KexModel KexSpec.
From Coq Require Import List NArith ZArith Lia Bool.
From Coq Require Import ZifyBool ZifyNat ZifyN.
Import ListNotations.
Open Scope N_scope.

(* ---- encodings ------------------------------------------------------- *)

Lemma be32_c32toa : forall n, is32 n -> c32toa n = be32 n.
Proof.
  intros n H. rewrite c32toa_div. unfold be32.
  rewrite (N.mod_small (n / 16777216)); [reflexivity|].
  unfold is32, W32 in *. apply N.div_lt_upper_bound; lia.
Qed.

Lemma str_put : forall s, is32 (lenN s) -> PutString s = str s.
Proof. intros s H. unfold PutString, str. rewrite be32_c32toa by assumption. reflexivity. Qed.

Lemma lenN_str : forall s, lenN (str s) = 4 + lenN s.
Proof. intros s. unfold str. rewrite lenN_app. reflexivity. Qed.

Lemma be32_inj : forall a b, is32 a -> is32 b -> be32 a = be32 b -> a = b.
Proof.
  intros a b Ha Hb E. rewrite <- !be32_c32toa in E by assumption.
  rewrite <- (be_value_c32toa a), <- (be_value_c32toa b) by assumption. rewrite E. reflexivity.
Qed.

Lemma app_inj_len : forall A (a b c d : list A), lenN a = lenN c -> a ++ b = c ++ d -> a = c /\ b = d.
Proof.
  intros A a b c d HL E.
  assert (a = c).
  { rewrite <- (takeN_app_exact A (lenN a) a b eq_refl), E. apply takeN_app_exact. assumption. }
  subst c. split; [reflexivity|]. apply app_inv_head in E. assumption.
Qed.

Lemma be32_split : forall a b r s, is32 a -> is32 b -> be32 a ++ r = be32 b ++ s -> a = b /\ r = s.
Proof.
  intros a b r s Ha Hb E. apply app_inj_len in E; [|reflexivity]. destruct E as [E ->].
  split; [apply be32_inj; assumption|reflexivity].
Qed.

Lemma str_split : forall a b r s, is32 (lenN a) -> is32 (lenN b) -> str a ++ r = str b ++ s -> a = b /\ r = s.
Proof.
  intros a b r s Ha Hb E. unfold str in E. rewrite <- !app_assoc in E.
  apply be32_split in E; try assumption. destruct E as [HL E].
  apply app_inj_len in E; assumption.
Qed.

Lemma str_inj : forall a b, is32 (lenN a) -> is32 (lenN b) -> str a = str b -> a = b.
Proof.
  intros a b Ha Hb E. apply (str_split a b [] []); try assumption. rewrite !app_nil_r. assumption.
Qed.

(* a big-endian string of given length is determined by its value *)
Lemma be_value_bound : forall b, bytes_ok b -> be_value b < 256 ^ lenN b.
Proof.
  intros b. induction b as [|x b IH] using rev_ind; intros H.
  - cbn. lia.
  - apply Forall_app in H. destruct H as [H1 H2]. inversion H2 as [|? ? Hx _]. subst.
    rewrite be_value_app, lenN_app. change (lenN [x]) with 1. rewrite N.pow_add_r.
    change (be_value [x]) with x. specialize (IH H1). unfold byte_ok in Hx. change (256 ^ 1) with 256. nia.
Qed.

Lemma be_value_inj : forall a b, bytes_ok a -> bytes_ok b -> lenN a = lenN b ->
  be_value a = be_value b -> a = b.
Proof.
  intros a. induction a as [|x a IH] using rev_ind; intros b Ha Hb HL E.
  - symmetry. apply lenN_0. symmetry. assumption.
  - destruct b as [|y b] using rev_ind; [rewrite lenN_app in HL; cbn in HL; lia|]. clear IHb.
    apply Forall_app in Ha. destruct Ha as [Ha Hx]. apply Forall_app in Hb. destruct Hb as [Hb Hy].
    inversion Hx as [|? ? Hx1 _]. inversion Hy as [|? ? Hy1 _]. subst.
    rewrite !be_value_app in E. change (lenN [x]) with 1 in E. change (lenN [y]) with 1 in E.
    change (256 ^ 1) with 256 in E. change (be_value [x]) with x in E. change (be_value [y]) with y in E.
    rewrite !lenN_app in HL. change (lenN [x]) with 1 in HL. change (lenN [y]) with 1 in HL.
    unfold byte_ok in *. assert (x = y) by lia. subst y. f_equal. apply IH; try assumption; lia.
Qed.

Lemma be_value_cons : forall x b, be_value (x :: b) = x * 256 ^ lenN b + be_value b.
Proof. intros x b. change (x :: b) with ([x] ++ b). rewrite be_value_app. reflexivity. Qed.

(* the value of a canonical number fixes its length *)
Lemma canonical_bounds : forall b, bytes_ok b -> mpint_canonical b -> b <> [] ->
  256 ^ lenN b <= 512 * be_value b /\ 2 * be_value b < 256 ^ lenN b.
Proof.
  intros [|x r] Hb Hc Hn; [contradiction|]. inversion Hb as [|? ? Hx Hr]. subst.
  cbn [mpint_canonical] in Hc. destruct Hc as [Ht Hz].
  pose proof (canonical_top x Hx Ht) as Hlt. pose proof (be_value_bound r Hr) as Hv.
  rewrite be_value_cons, lenN_cons, N.pow_add_r. change (256 ^ 1) with 256.
  destruct (N.eq_dec x 0) as [->|Hx0].
  - destruct (Hz eq_refl) as (y & t & -> & Hy). inversion Hr as [|? ? Hy1 Ht1]. subst.
    assert (128 <= y).
    { destruct (N.leb_spec 128 y) as [|H]; [assumption|exfalso].
      rewrite N.testbit_eqb in Hy. change (2 ^ 7) with 128 in Hy.
      rewrite N.div_small in Hy by assumption. discriminate. }
    rewrite lenN_cons, N.pow_add_r in *. change (256 ^ 1) with 256 in *. rewrite be_value_cons in *.
    unfold byte_ok in *. pose proof (be_value_bound t Ht1).
    set (P := 256 ^ lenN t) in *. clearbody P. set (V := be_value t) in *. clearbody V. split; nia.
  - set (P := 256 ^ lenN r) in *. clearbody P. set (V := be_value r) in *. clearbody V. split; nia.
Qed.

Lemma canonical_inj : forall a b, bytes_ok a -> bytes_ok b -> mpint_canonical a -> mpint_canonical b ->
  be_value a = be_value b -> a = b.
Proof.
  intros a b Ha Hb Ca Cb E.
  destruct a as [|x a].
  - destruct b as [|y b]; [reflexivity|exfalso].
    destruct (canonical_bounds (y :: b) Hb Cb) as [H _]; [discriminate|].
    rewrite <- E in H. cbn in H. pose proof (N.pow_nonzero 256 (lenN (y :: b))). lia.
  - destruct b as [|y b].
    + exfalso. destruct (canonical_bounds (x :: a) Ha Ca) as [H _]; [discriminate|].
      rewrite E in H. cbn in H. pose proof (N.pow_nonzero 256 (lenN (x :: a))). lia.
    + destruct (canonical_bounds (x :: a) Ha Ca) as [H1 H2]; [discriminate|].
      destruct (canonical_bounds (y :: b) Hb Cb) as [H3 H4]; [discriminate|].
      apply be_value_inj; try assumption.
      rewrite <- E in H3, H4. set (V := be_value (x :: a)) in *. clearbody V.
      set (n := lenN (x :: a)) in *. set (m := lenN (y :: b)) in *. clearbody n m. clear -H1 H2 H3 H4.
      destruct (N.lt_trichotomy n m) as [H|[H|H]]; [exfalso|assumption|exfalso].
      * assert (256 ^ (n + 1) <= 256 ^ m) by (apply N.pow_le_mono_r; lia).
        rewrite N.pow_add_r in H0. change (256 ^ 1) with 256 in H0. lia.
      * assert (256 ^ (m + 1) <= 256 ^ n) by (apply N.pow_le_mono_r; lia).
        rewrite N.pow_add_r in H0. change (256 ^ 1) with 256 in H0. lia.
Qed.

(* what PutNum puts on the wire *)
Definition num_contents (mp : bool) (b : bytes) : bytes := if mp then mpint_contents b else b.

Lemma PutNum_string : forall mp b, PutNum mp b = PutString (num_contents mp b).
Proof. intros [] b; [apply PutMpint_string|reflexivity]. Qed.

Lemma num_contents_encodes : forall mp b, bytes_ok b -> encodes (val_of mp b) (num_contents mp b).
Proof.
  intros [] b H; cbn; [|reflexivity].
  split; [apply mpint_contents_ok; assumption|]. split; [apply mpint_contents_canonical|apply mpint_contents_value].
Qed.

Lemma encodes_fun : forall v a b, encodes v a -> encodes v b -> a = b.
Proof.
  intros [n|t] a b Ha Hb; cbn in *; [|congruence].
  destruct Ha as (A1 & A2 & A3), Hb as (B1 & B2 & B3). apply canonical_inj; congruence.
Qed.

Lemma num_contents_val : forall mp a b, bytes_ok a -> bytes_ok b -> val_of mp a = val_of mp b ->
  num_contents mp a = num_contents mp b.
Proof.
  intros mp a b Ha Hb E. apply (encodes_fun (val_of mp a)).
  - apply num_contents_encodes. assumption.
  - rewrite E. apply num_contents_encodes. assumption.
Qed.

Lemma num_contents_len : forall mp b, lenN (num_contents mp b) <= lenN b + 1.
Proof.
  intros [] b; cbn [num_contents]; [|lia].
  destruct (mpint_contents_cases b) as [(_ & ->)|(x & _ & _ & _ & [(_ & ->)|(_ & ->)])].
  - cbn. lia.
  - rewrite lenN_dropN. lia.
  - rewrite lenN_cons, lenN_dropN. lia.
Qed.

Lemma num_contents_ok : forall mp b, bytes_ok b -> bytes_ok (num_contents mp b).
Proof. intros [] b H; [apply mpint_contents_ok; assumption|assumption]. Qed.

(* the pad test of the code, on a number without leading zeros *)
Lemma CreateMpint_lead : forall x r, x <> 0 -> CreateMpint (x :: r) 0 = (x :: r, if N.testbit x 7 then 1 else 0).
Proof.
  intros x r H. unfold CreateMpint. rewrite lenN_cons.
  destruct (N.eqb_spec (1 + lenN r) 0); [lia|]. cbn [count_zeros].
  destruct (N.eqb_spec x 0); [contradiction|]. destruct (N.eqb_spec 0 (1 + lenN r)); [lia|].
  cbn. destruct (N.testbit x 7); reflexivity.
Qed.

Lemma PutPadded_string : forall b, is32 (lenN b + 1) ->
  PutPadded b = PutString ((if pad_of b =? 1 then [0] else []) ++ b).
Proof.
  intros b H. unfold PutPadded, PutString, pad_of.
  destruct b as [|x r]; [reflexivity|]. destruct (N.testbit x 7).
  - change (1 =? 1) with true. cbn [app]. f_equal. f_equal. rewrite (lenN_cons _ 0).
    unfold add32, w32. unfold is32 in H. rewrite N.mod_small; lia.
  - change (0 =? 1) with false. cbn [app]. f_equal. f_equal.
    unfold add32, w32. unfold is32 in H. rewrite N.mod_small; lia.
Qed.

Lemma padded_mpint : forall b, hd 0 b <> 0 -> (if pad_of b =? 1 then [0] else []) ++ b = mpint_contents b.
Proof.
  intros [|x r] H; [reflexivity|]. cbn [hd] in H. unfold mpint_contents.
  rewrite CreateMpint_lead by assumption. unfold pad_of. destruct (N.testbit x 7); reflexivity.
Qed.

(* a received number: GetMpint refuses a set top bit, so no pad is added *)
Lemma padded_received : forall b, (match b with x :: _ => N.testbit x 7 = false | [] => True end) ->
  (if pad_of b =? 1 then [0] else []) ++ b = b.
Proof. intros [|x r] H; [reflexivity|]. unfold pad_of. rewrite H. reflexivity. Qed.

(* ---- group selection -------------------------------------------------- *)

Definition inwin (mn mx b : N) : Prop := mn <= b /\ b <= mx.

Lemma ascending_tail : forall a l, ascending (a :: l) -> ascending l.
Proof. intros a [|b l] H; [exact Logic.I|]. cbn [ascending] in H. tauto. Qed.

Lemma ascending_lt : forall l a b, ascending (a :: l) -> In b l -> a < b.
Proof.
  induction l as [|c l IH]; intros a b H Hb; [destruct Hb|].
  cbn [ascending] in H. destruct H as [H1 H2]. destruct Hb as [->|Hb]; [assumption|].
  specialize (IH c b H2 Hb). lia.
Qed.

Lemma scan_spec : forall l mn pf mx best r, ascending (map fst l) ->
  (forall g, best = Some g -> fst g < pf /\ inwin mn mx (fst g) /\ forall c, In c (map fst l) -> fst g < c) ->
  scan l mn pf mx best = r ->
  match r with
  | None => best = None /\ forall c, In c (map fst l) -> ~ inwin mn mx c
  | Some g => (best = Some g \/ In g l) /\ inwin mn mx (fst g) /\
      ((pf <= fst g /\ forall c, In c (map fst l) -> inwin mn mx c -> pf <= c -> fst g <= c) \/
       (fst g < pf /\ forall c, In c (map fst l) -> inwin mn mx c -> c < pf /\ c <= fst g))
  end.
Proof.
  induction l as [|g0 l IH]; intros mn pf mx best r Ha Hb E.
  - cbn [scan] in E. subst r. destruct best as [g|].
    + destruct (Hb g eq_refl) as (H1 & H2 & _). split; [left; reflexivity|]. split; [assumption|].
      right. split; [assumption|]. intros c [].
    + split; [reflexivity|]. intros c [].
  - cbn [scan map] in *. pose proof (ascending_tail _ _ Ha) as Ha'.
    destruct ((fst g0 <? mn) || (mx <? fst g0)) eqn:W.
    + assert (Hout : ~ inwin mn mx (fst g0)) by (unfold inwin; lia).
      specialize (IH mn pf mx best r Ha'). cbn zeta in IH.
      assert (HH : match r with
        | None => best = None /\ (forall c, In c (map fst l) -> ~ inwin mn mx c)
        | Some g => (best = Some g \/ In g l) /\ inwin mn mx (fst g) /\
           ((pf <= fst g /\ forall c, In c (map fst l) -> inwin mn mx c -> pf <= c -> fst g <= c) \/
            (fst g < pf /\ forall c, In c (map fst l) -> inwin mn mx c -> c < pf /\ c <= fst g))
        end).
      { apply IH; [|assumption]. intros g Eg. destruct (Hb g Eg) as (H1 & H2 & H3).
        split; [assumption|]. split; [assumption|]. intros c Hc. apply H3. right. assumption. }
      destruct r as [g|].
      * destruct HH as (H1 & H2 & H3). split; [destruct H1; [left; assumption|right; right; assumption]|].
        split; [assumption|]. destruct H3 as [(H3 & H4)|(H3 & H4)]; [left|right]; (split; [assumption|]).
        -- intros c [<-|Hc] Hw; [contradiction|]. apply H4; assumption.
        -- intros c [<-|Hc] Hw; [contradiction|]. apply H4; assumption.
      * destruct HH as (H1 & H2). split; [assumption|]. intros c [<-|Hc]; [assumption|]. apply H2. assumption.
    + assert (Hin : inwin mn mx (fst g0)) by (unfold inwin; lia).
      destruct (N.leb_spec pf (fst g0)) as [Hp|Hp].
      * subst r. split; [right; left; reflexivity|]. split; [assumption|]. left. split; [assumption|].
        intros c [<-|Hc] Hw Hpc; [lia|]. pose proof (ascending_lt _ _ _ Ha Hc). lia.
      * assert (HH := IH mn pf mx (Some g0) r Ha').
        assert (H0 : forall g : group, Some g0 = Some g -> fst g < pf /\ inwin mn mx (fst g) /\
                  (forall c, In c (map fst l) -> fst g < c)).
        { intros g [= <-]. split; [assumption|]. split; [assumption|].
          intros c Hc. apply (ascending_lt _ _ _ Ha Hc). }
        specialize (HH H0 E). destruct r as [g|].
        -- destruct HH as (H1 & H2 & H3). split; [right; destruct H1 as [[= <-]|H1]; [left; reflexivity|right; assumption]|].
           split; [assumption|]. destruct H3 as [(H3 & H4)|(H3 & H4)]; [left|right]; (split; [assumption|]).
           ++ intros c [<-|Hc] Hw Hpc; [lia|]. apply H4; assumption.
           ++ intros c [<-|Hc] Hw; [|apply H4; assumption]. split; [assumption|].
              destruct H1 as [[= <-]|H1]; [lia|].
              pose proof (ascending_lt _ _ (fst g) Ha (in_map fst _ _ H1)). lia.
        -- destruct HH as [H1 _]. discriminate.
Qed.

Lemma select_spec : forall l mn pf mx, ascending (map fst l) ->
  match SelectKexDhGexGroup l mn pf mx with
  | None => forall c, ~ acceptable (map fst l) mn mx c
  | Some g => In g l /\ best_size (map fst l) mn pf mx (fst g)
  end.
Proof.
  intros l mn pf mx Ha. unfold SelectKexDhGexGroup, GEX_MIN_BITS, MAX_KEX_KEY_SZ, KEX_F_SIZE.
  cbv zeta. change (3168 * 8) with 25344. change ((1700 - 1) * 8) with 13592.
  set (mn' := if mn <? 2048 then 2048 else mn).
  set (mx1 := if 25344 <? mx then 25344 else mx). set (mx' := if 13592 <? mx1 then 13592 else mx1).
  assert (W : forall c, inwin mn' mx' c <-> mn <= c /\ c <= mx /\ 2048 <= c /\ c <= 13592).
  { intros c. unfold inwin, mn', mx', mx1. destruct (N.ltb_spec mn 2048); destruct (N.ltb_spec 25344 mx);
      [change (13592 <? 25344) with true; cbv iota; lia| |change (13592 <? 25344) with true; cbv iota; lia|];
      destruct (N.ltb_spec 13592 mx); lia. }
  assert (A : forall c, acceptable (map fst l) mn mx c <-> In c (map fst l) /\ inwin mn' mx' c).
  { intros c. unfold acceptable. rewrite W. tauto. }
  assert (HH := scan_spec l mn' pf mx' None (scan l mn' pf mx' None) Ha).
  specialize (HH ltac:(discriminate) eq_refl).
  destruct (scan l mn' pf mx' None) as [g|].
  - destruct HH as (H1 & H2 & H3). destruct H1 as [|H1]; [discriminate|]. split; [assumption|].
    unfold best_size. split; [apply A; split; [apply in_map; assumption|assumption]|].
    destruct H3 as [(H3 & H4)|(H3 & H4)].
    + left. split; [assumption|]. intros c Hc. apply A in Hc. intros Hp. apply H4; tauto.
    + right. intros c Hc. apply A in Hc. apply H4; tauto.
  - destruct HH as [_ HH]. intros c Hc. apply A in Hc. apply (HH c); tauto.
Qed.

(* ---- the group in the client ------------------------------------------ *)

Lemma mp_val_be : forall b, mp_val b = be_value b.
Proof. reflexivity. Qed.

Lemma size_bits : forall n, 0 < n -> has_bits n (N.size n).
Proof.
  intros n H. unfold has_bits. rewrite N.size_log2 by lia.
  replace (N.succ (N.log2 n) - 1) with (N.log2 n) by lia. apply N.log2_spec. assumption.
Qed.

Lemma bits_size : forall n b, 0 < b -> has_bits n b -> N.size n = b.
Proof.
  intros n b Hb (H1 & H2).
  assert (0 < n). { pose proof (N.pow_nonzero 2 (b - 1)). lia. }
  rewrite N.size_log2 by lia. rewrite (N.log2_unique n (b - 1)).
  - lia.
  - lia.
  - split; [assumption|]. replace (N.succ (b - 1)) with b by lia. assumption.
Qed.

(* reading a string that is there *)
Lemma string_ref_at : forall pre s post, let m := pre ++ str s ++ post in
  bytes_ok m -> is32 (lenN m) ->
  GetStringRef m (lenN m) (lenN pre) = POk (lenN pre + 4, lenN s) (lenN pre + 4 + lenN s) /\
  GetUint32 m (lenN m) (lenN pre) = POk (lenN s) (lenN pre + 4) /\
  rdn m (lenN pre + 4) (lenN s) = Some s /\ rdn m (lenN pre) (lenN s + 4) = Some (str s).
Proof.
  intros pre s post m Hm H32.
  assert (HL : lenN m = lenN pre + (4 + lenN s) + lenN post).
  { unfold m. rewrite !lenN_app, lenN_str. lia. }
  assert (is32 (lenN s)) by (unfold is32 in *; lia).
  assert (L4 : lenN (be32 (lenN s)) = 4) by reflexivity.
  assert (S1 : slice m (lenN pre) 4 = be32 (lenN s)).
  { rewrite <- L4. unfold m, str. rewrite <- app_assoc. apply slice_mid. }
  assert (S2 : slice m (lenN pre + 4) (lenN s) = s).
  { rewrite <- L4, <- lenN_app. unfold m, str. rewrite <- app_assoc, app_assoc. apply slice_mid. }
  assert (S3 : slice m (lenN pre) (lenN s + 4) = str s).
  { replace (lenN s + 4) with (lenN (str s)) by (rewrite lenN_str; lia). unfold m. apply slice_mid. }
  assert (V : be_value (be32 (lenN s)) = lenN s).
  { rewrite <- be32_c32toa by assumption. apply be_value_c32toa. assumption. }
  rewrite GetStringRef_eq, GetUint32_eq by (try assumption; unfold is32, W32 in *; lia).
  rewrite S1, V. cbv zeta.
  destruct (N.leb_spec (lenN pre + 4) (lenN m)); [|lia].
  destruct (N.leb_spec (lenN pre + 4 + lenN s) (lenN m)); [|lia].
  repeat split.
  - rewrite rdn_some by lia. rewrite S2. reflexivity.
  - rewrite rdn_some by lia. rewrite S3. reflexivity.
Qed.

Lemma mpint_at : forall pre s post, let m := pre ++ str s ++ post in
  bytes_ok m -> is32 (lenN m) -> (match s with x :: _ => N.testbit x 7 = false | [] => True end) ->
  GetMpint m (lenN m) (lenN pre) = POk (lenN pre + 4, lenN s) (lenN pre + 4 + lenN s).
Proof.
  intros pre s post m Hm H32 Ht. unfold GetMpint.
  destruct (string_ref_at pre s post Hm H32) as (E & _ & R & _). fold m in E, R. rewrite E. cbn [pbind snd fst].
  destruct s as [|x r]; [reflexivity|]. rewrite lenN_cons.
  destruct (N.ltb_spec 0 (1 + lenN r)); [|lia].
  assert (rd m (lenN pre + 4) = Some x).
  { unfold rdn in R. destruct (_ <=? _); [|discriminate]. injection R as R.
    rewrite <- (N.add_0_r (lenN pre + 4)). rewrite <- (rd_slice m _ 0 (lenN (x :: r))) by (rewrite lenN_cons; lia).
    unfold slice. rewrite R. reflexivity. }
  rewrite H0, Ht. reflexivity.
Qed.

(* what was read determines the text *)
Lemma GetUint32_inv : forall m i v j, bytes_ok m -> is32 (lenN m) -> is32 i ->
  GetUint32 m (lenN m) i = POk v j -> i + 4 <= lenN m /\ j = i + 4 /\ slice m i 4 = be32 v /\ is32 v.
Proof.
  intros m i v j Hm H32 Hi E. rewrite GetUint32_eq in E by (try assumption; lia).
  destruct (N.leb_spec (i + 4) (lenN m)) as [H|H]; [|discriminate]. injection E as <- <-.
  split; [assumption|]. split; [reflexivity|].
  pose proof (be_value_lt m i Hm H) as HV. rewrite <- be32_c32toa by exact HV. split; [|exact HV].
  apply be_value_inj.
  - apply slice_ok. assumption.
  - apply c32toa_ok.
  - rewrite slice_length by assumption. reflexivity.
  - rewrite be_value_c32toa by exact HV. reflexivity.
Qed.

Lemma slice_join : forall m i a b, slice m i (a + b) = slice m i a ++ slice m (i + a) b.
Proof.
  intros m i a b. unfold slice. rewrite <- (dropN_dropN _ a i).
  set (t := dropN i m). clearbody t. unfold takeN, dropN.
  replace (N.to_nat (a + b)) with (N.to_nat a + N.to_nat b)%nat by lia.
  generalize (N.to_nat a) as x. generalize (N.to_nat b) as y.
  intros y x. revert t. induction x as [|x IH]; intros t; [reflexivity|].
  destruct t as [|c t]; cbn; [rewrite firstn_nil; reflexivity|]. rewrite IH. reflexivity.
Qed.
