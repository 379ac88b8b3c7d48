(* BufProofs.v *)
From Verif Require Import Base BufModel BufSpec.
From Coq Require Import List NArith Lia Bool ZifyBool ZifyNat ZifyN.
Import ListNotations.
Open Scope N_scope.

Lemma lenN_unread : forall b, lenN (unread b) = b_len b - b_idx b.
Proof. intros b. unfold unread. rewrite lenN_dropN. reflexivity. Qed.

Lemma sub32_used : forall b, buf_inv b -> sub32 (b_len b) (b_idx b) = lenN (unread b).
Proof.
  intros b (H1 & H2 & H3 & _). rewrite lenN_unread. apply sub32_small; unfold is32 in *; lia.
Qed.

Lemma rdn_unread : forall b, buf_inv b -> rdn (b_data b) (b_idx b) (lenN (unread b)) = Some (unread b).
Proof.
  intros b (H1 & H2 & H3 & _). unfold rdn. rewrite lenN_unread. fold (b_len b).
  destruct (N.leb_spec (b_idx b + (b_len b - b_idx b)) (b_len b)); [|lia].
  f_equal. unfold unread. apply takeN_all. rewrite lenN_dropN. unfold b_len. lia.
Qed.

Lemma inv_empty_idx : forall b, buf_inv b -> b_len b = 0 -> b_idx b = 0 /\ b_data b = [] /\ unread b = [].
Proof.
  intros b (H1 & _) H. assert (b_idx b = 0) by lia. split; [assumption|].
  assert (b_data b = []) by (apply lenN_0; assumption). split; [assumption|].
  unfold unread. rewrite H0, H2. reflexivity.
Qed.

Lemma inv_mk : forall d cap dyn, lenN d <= cap -> is32 cap -> STATIC_BUFFER_LEN <= cap ->
  buf_inv (mkBuf d 0 cap dyn) /\ unread (mkBuf d 0 cap dyn) = d.
Proof.
  intros d cap dyn H1 H2 H3. unfold buf_inv, unread, b_len; cbn [b_idx b_data b_cap].
  rewrite dropN_0. repeat split; try assumption. lia.
Qed.

(* GrowBuffer, completely *)
Lemma GrowBuffer_spec : forall ok b sz, buf_inv b -> sz + lenN (unread b) < W32 ->
  exists r b', GrowBuffer ok b sz = BOk r b' /\
   ((r = WS_SUCCESS /\ buf_inv b' /\ unread b' = unread b /\ b_idx b' = 0 /\ b_data b' = unread b
       /\ b_len b' + sz <= b_cap b' /\ b_cap b <= b_cap b') \/
    (r = WS_MEMORY_E /\ ok = false /\ b' = b)).
Proof.
  intros ok b sz Hinv Hsz. pose proof Hinv as (H1 & H2 & H3 & H4).
  unfold GrowBuffer. rewrite sub32_used by assumption.
  assert (HN : sub32 (add32 sz (b_len b)) (b_idx b) = sz + lenN (unread b)).
  { rewrite lenN_unread in *. unfold sub32, add32, w32, is32, W32 in *. lia. }
  rewrite HN. rewrite rdn_unread by assumption.
  destruct (N.ltb_spec (b_cap b) (sz + lenN (unread b))) as [Hg|Hg].
  - destruct ok; cbn [negb]; [|eexists; eexists; split; [reflexivity|right; auto]].
    destruct (N.eqb_spec (b_len b) 0) as [H0|H0].
    + destruct (inv_empty_idx b Hinv H0) as (E1 & E2 & E3). eexists. eexists. split; [reflexivity|left].
      rewrite E1, E3 in *. rewrite lenN_nil in *. unfold buf_inv, unread, b_len. cbn [b_idx b_data b_cap].
      change (sub32 0 0) with 0. rewrite lenN_nil. unfold is32, STATIC_BUFFER_LEN in *.
      repeat split; try lia; try reflexivity.
    + destruct (N.ltb_spec (sz + lenN (unread b)) (lenN (unread b))); [lia|].
      eexists. eexists. split; [reflexivity|left].
      destruct (inv_mk (unread b) (sz + lenN (unread b)) true) as [I1 I2];
        [unfold is32, STATIC_BUFFER_LEN in *; lia ..|].
      split; [reflexivity|]. split; [assumption|]. split; [assumption|].
      unfold b_len at 1; cbn [b_idx b_data b_cap]. repeat split; lia.
  - destruct (N.ltb_spec 0 (b_len b)) as [H0|H0].
    + eexists. eexists. split; [reflexivity|left].
      destruct (inv_mk (unread b) (b_cap b) (b_dyn b)) as [I1 I2];
        [unfold is32, STATIC_BUFFER_LEN in *; lia ..|].
      split; [reflexivity|]. split; [assumption|]. split; [assumption|].
      unfold b_len at 1; cbn [b_idx b_data b_cap]. repeat split; lia.
    + assert (H0' : b_len b = 0) by lia.
      destruct (inv_empty_idx b Hinv H0') as (E1 & E2 & E3). rewrite E3 in *. rewrite lenN_nil in *.
      eexists. eexists. split; [reflexivity|left].
      repeat split; try assumption; try lia; try congruence.
Qed.

Lemma put_end_spec : forall b d, buf_inv b -> b_len b + lenN d <= b_cap b ->
  exists b', put_end b d = BOk WS_SUCCESS b' /\ buf_inv b' /\ unread b' = unread b ++ d
             /\ b_idx b' = b_idx b /\ b_data b' = b_data b ++ d /\ b_cap b' = b_cap b.
Proof.
  intros b d (H1 & H2 & H3 & H4) Hr. unfold put_end.
  destruct (N.ltb_spec (b_cap b) (b_len b + lenN d)); [lia|]. eexists. split; [reflexivity|].
  unfold buf_inv, unread, b_len in *. cbn [b_idx b_data b_cap]. rewrite lenN_app.
  repeat split; try lia; auto.
  rewrite dropN_app_l by lia. reflexivity.
Qed.

Lemma AppendBuffer_spec : forall ok b d, buf_inv b -> is32 (lenN d) ->
  exists r b', AppendBuffer ok b d = BOk r b' /\
   ((r = WS_SUCCESS /\ buf_inv b' /\ unread b' = unread b ++ d) \/
    (r = WS_MEMORY_E /\ ok = false /\ b' = b) \/
    (r = WS_OVERFLOW_E /\ W32 <= lenN (unread b) + lenN d /\ b' = b)).
Proof.
  intros ok b d Hinv Hd. pose proof Hinv as (H1 & H2 & H3 & H4).
  unfold AppendBuffer. rewrite sub32_used by assumption.
  assert (HU : is32 (lenN (unread b))) by (rewrite lenN_unread; unfold is32 in *; lia).
  rewrite sub32_small by (unfold UINT32_MAX, is32, W32 in *; lia).
  destruct (N.ltb_spec (UINT32_MAX - lenN (unread b)) (lenN d)) as [Ho|Ho].
  { eexists. eexists. split; [reflexivity|]. right. right. unfold UINT32_MAX, W32, is32 in *.
    repeat split. lia. }
  rewrite add32_small by (unfold UINT32_MAX, is32, W32 in *; lia).
  set (g := if b_cap b <? lenN (unread b) + lenN d then _ else _).
  assert (Hg : lenN d <= g /\ g + lenN (unread b) < W32).
  { unfold g. destruct (N.ltb_spec (b_cap b) (lenN (unread b) + lenN d)) as [Hc|Hc].
    - destruct (N.leb_spec (b_cap b) (UINT32_MAX / 2)) as [Hh|Hh]; cbn [andb].
      + assert (Hw : w32 (b_cap b * 2) = b_cap b * 2).
        { apply w32_small. unfold UINT32_MAX, is32, W32 in *. lia. }
        rewrite Hw. destruct (N.ltb_spec (lenN (unread b) + lenN d) (b_cap b * 2)) as [Ht|Ht].
        * rewrite sub32_small by (unfold UINT32_MAX, is32, W32 in *; lia).
          unfold UINT32_MAX, is32, W32 in *; lia.
        * rewrite sub32_small by (unfold UINT32_MAX, is32, W32 in *; lia).
          unfold UINT32_MAX, is32, W32 in *; lia.
      + rewrite sub32_small by (unfold UINT32_MAX, is32, W32 in *; lia).
        unfold UINT32_MAX, is32, W32 in *; lia.
    - unfold UINT32_MAX, is32, W32 in *; lia. }
  clearbody g. destruct Hg as [Hg1 Hg2].
  destruct (GrowBuffer_spec ok b g Hinv Hg2) as (r & b' & -> & [K|(-> & -> & ->)]).
  - destruct K as (-> & Hi & Eu & Ei & Ed & Hr & _).
    destruct (put_end_spec b' d Hi) as (b2 & -> & Hi2 & Eu2 & _); [lia|].
    eexists. eexists. split; [reflexivity|]. left. rewrite Eu2, Eu. auto.
  - eexists. eexists. split; [reflexivity|]. right. left. auto.
Qed.

Lemma ShrinkBuffer_spec : forall b f, buf_inv b ->
  exists b', ShrinkBuffer b f = BOk WS_SUCCESS b' /\ buf_inv b' /\
             unread b' = (if f then [] else unread b) /\
             (f = true -> b' = mkBuf [] 0 16 false) /\
             (f = false -> lenN (unread b) <= 16 -> b_idx b' = 0 /\ b_cap b' = 16) /\
             (f = false -> 16 < lenN (unread b) -> b' = b).
Proof.
  intros b f Hinv. unfold ShrinkBuffer. rewrite sub32_used by assumption.
  rewrite rdn_unread by assumption.
  assert (HE : buf_inv (mkBuf [] 0 STATIC_BUFFER_LEN false)).
  { unfold buf_inv, b_len; cbn. unfold is32, W32, STATIC_BUFFER_LEN. lia. }
  destruct f; cbn [negb andb].
  - eexists. split; [reflexivity|]. split; [assumption|]. repeat split; discriminate.
  - unfold STATIC_BUFFER_LEN at 1. destruct (N.ltb_spec 16 (lenN (unread b))) as [H|H].
    + eexists. split; [reflexivity|]. repeat split; try assumption; try apply Hinv; try discriminate; lia.
    + destruct (N.eqb_spec (lenN (unread b)) 0) as [H0|H0].
      * eexists. split; [reflexivity|]. split; [assumption|].
        apply lenN_0 in H0. split; [symmetry; exact H0|]. repeat split; try discriminate. rewrite H0, lenN_nil in *. lia.
      * eexists. split; [reflexivity|]. split.
        { unfold buf_inv, b_len; cbn [b_idx b_data b_cap]. unfold is32, W32, STATIC_BUFFER_LEN. lia. }
        split; [reflexivity|]. repeat split; try discriminate; lia.
Qed.

Lemma BufferInit_spec : forall ok size, is32 size ->
  exists r b, BufferInit ok size = BOk r b /\ b_data b = [] /\ b_idx b = 0 /\
    (r = WS_SUCCESS -> buf_inv b /\ unread b = [] /\ N.max 16 size = b_cap b) /\
    (r <> WS_SUCCESS -> r = WS_MEMORY_E /\ ok = false).
Proof.
  intros ok size H. unfold BufferInit, STATIC_BUFFER_LEN, is32, W32 in *.
  destruct (N.leb_spec size 16) as [H1|H1].
  - change (16 <? 16) with false. cbv iota. eexists. eexists. split; [reflexivity|].
    cbn [b_data b_idx]. repeat split; try congruence; unfold b_len, buf_inv, is32, W32, STATIC_BUFFER_LEN; cbn [b_data b_idx b_cap]; rewrite ?lenN_nil; lia.
  - destruct (N.ltb_spec 16 size); [|lia]. destruct ok; eexists; eexists; (split; [reflexivity|]);
    cbn [b_data b_idx]; repeat split; try congruence; unfold b_len, buf_inv, is32, W32, STATIC_BUFFER_LEN; cbn [b_data b_idx b_cap]; rewrite ?lenN_nil; lia.
Qed.

Lemma bstep_spec : forall b o, buf_inv b -> op_ok (unread b) o ->
  exists r b', bstep b o = BOk r b' /\ buf_inv b' /\
    unread b' = qstep (unread b) o (rc_eqb r WS_SUCCESS).
Proof.
  intros b o Hinv Ho. destruct o as [ok sz|ok sz d|ok d|n|f]; cbn [bstep qstep op_ok] in *.
  - destruct (GrowBuffer_spec ok b sz Hinv Ho) as (r & b' & E & [K|(-> & -> & ->)]).
    + destruct K as (-> & Hi & Eu & _). exists WS_SUCCESS, b'. auto.
    + exists WS_MEMORY_E, b. auto.
  - destruct Ho as [Ho Hd].
    destruct (GrowBuffer_spec ok b sz Hinv Ho) as (r & b' & -> & [K|(-> & -> & ->)]).
    + destruct K as (-> & Hi & Eu & _ & _ & Hr & _).
      destruct (put_end_spec b' d Hi) as (b2 & -> & Hi2 & Eu2 & _); [lia|].
      exists WS_SUCCESS, b2. rewrite rc_eqb_refl, Eu2, Eu. auto.
    + exists WS_MEMORY_E, b. auto.
  - destruct (AppendBuffer_spec ok b d Hinv Ho) as (r & b' & -> & [(-> & Hi & Eu)|[(-> & _ & ->)|(-> & _ & ->)]]).
    + exists WS_SUCCESS, b'. rewrite rc_eqb_refl. auto.
    + exists WS_MEMORY_E, b. auto.
    + exists WS_OVERFLOW_E, b. auto.
  - pose proof Hinv as (H1 & H2 & H3 & H4). destruct (N.leb_spec n (b_len b - b_idx b)) as [H|H].
    + eexists. eexists. split; [reflexivity|]. rewrite rc_eqb_refl.
      rewrite add32_small by (unfold is32 in *; lia).
      unfold buf_inv, unread, b_len in *; cbn [b_idx b_data b_cap].
      split; [repeat split; (assumption || lia)|]. rewrite dropN_dropN. f_equal.
    + exists WS_BUFFER_E, b. auto.
  - destruct (ShrinkBuffer_spec b f Hinv) as (b' & -> & Hi & Eu & _). exists WS_SUCCESS, b'. auto.
Qed.

Lemma brun_queue : forall os q b q' b', queue_run q b os q' b' -> buf_inv b -> unread b = q ->
  buf_inv b' /\ unread b' = q'.
Proof.
  intros os q b q' b' H. induction H as [q b|q b o r b' os q2 b2 Ho Hs Hr IH]; intros Hi Hq; [auto|].
  subst q. destruct (bstep_spec b o Hi Ho) as (r' & b'' & E & Hi' & Eu).
  rewrite E in Hs. injection Hs as -> ->. apply IH; [assumption|]. rewrite Eu. reflexivity.
Qed.
