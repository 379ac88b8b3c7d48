(* ScpProofs3.v - the contents of a received file (C58). *)
From Verif Require Import Base PathModel WireProofs ScpModel ScpSpec ScpProofs ScpProofs2.
From Coq Require Import List NArith ZArith Bool Lia.
Import ListNotations.
Open Scope N_scope.

Ltac fields := cbn [k_st k_next k_conf k_size k_log k_name k_fp k_off k_taken k_mtime k_atime
  set_st set_log set_conf set_err set_depth set_fp set_off set_times set_msg set_io take_in abort go].

Section Phase.
  Variables (E : sys) (f : Z) (n mt at_ : N) (T0 : bytes) (L0 : slog).
  Hypothesis Hn : is32 n.

  Definition Mid (k : sink) : Prop :=
    k_st k = RECEIVE_FILE /\ k_fp k = Some f /\ k_size k = n /\ k_mtime k = mt /\ k_atime k = at_ /\
    exists d w, k_taken k = T0 ++ d /\ k_log k = w ++ L0 /\ writes f w d /\ k_off k = lenN d /\
      (lenN d < n \/ d = []).

  Definition Out (k : sink) : Prop :=
    k_st k = SEND_CONFIRMATION /\
    ((exists good, complete f n mt at_ T0 (k_taken k) L0 (k_log k) good /\
        k_conf k = (if good then CONTINUE else ABORT) /\ k_next k = RECEIVE_CONFIRMATION) \/
     (cut_short f n T0 (k_taken k) L0 (k_log k) /\ k_conf k = ABORT)).

  Lemma done_out : forall k d w, k_fp k = Some f -> k_mtime k = mt -> k_atime k = at_ ->
    k_taken k = T0 ++ d -> k_log k = w ++ L0 -> writes f w d -> lenN d = n ->
    Out (set_st SEND_CONFIRMATION RECEIVE_CONFIRMATION (set_times 0 0 (set_off 0 (cb_done E k)))).
  Proof.
    intros k d w F M A T L W D. unfold Out, cb_done. rewrite F, M, A.
    split; [reflexivity|]. left.
    destruct (N.eqb_spec mt 0) as [Zm|Zm]; destruct (N.eqb_spec at_ 0) as [Za|Za]; cbn [negb orb].
    - exists true. unfold call; cbn. split; [|auto]. exists d, w, [], (E (k_log k) (SClose f)).
      rewrite T, L. split; [reflexivity|]. split; [reflexivity|]. split; [exact W|]. split; [exact D|]. left. auto.
    - unfold call; cbn. set (r := E (k_log k) _).
      exists (r =? 0)%Z. destruct (Z.eqb_spec r 0) as [R|R]; cbn; (split; [|auto]);
        (exists d, w, [(SUtimes f mt at_, r)]; eexists; rewrite T, L; split; [reflexivity|];
         split; [reflexivity|]; split; [exact W|]; split; [exact D|]; right; split; [auto|]; exists r; split; [reflexivity|]);
        split; congruence.
    - unfold call; cbn. set (r := E (k_log k) _).
      exists (r =? 0)%Z. destruct (Z.eqb_spec r 0) as [R|R]; cbn; (split; [|auto]);
        (exists d, w, [(SUtimes f mt at_, r)]; eexists; rewrite T, L; split; [reflexivity|];
         split; [reflexivity|]; split; [exact W|]; split; [exact D|]; right; split; [auto|]; exists r; split; [reflexivity|]);
        split; congruence.
    - unfold call; cbn. set (r := E (k_log k) _).
      exists (r =? 0)%Z. destruct (Z.eqb_spec r 0) as [R|R]; cbn; (split; [|auto]);
        (exists d, w, [(SUtimes f mt at_, r)]; eexists; rewrite T, L; split; [reflexivity|];
         split; [reflexivity|]; split; [exact W|]; split; [exact D|]; right; split; [auto|]; exists r; split; [reflexivity|]);
        split; congruence.
  Qed.

  Lemma part_out : forall k x, Mid k -> lenN x <= n - k_off k -> (x <> [] \/ n = 0 \/ k_off k < n) ->
    Mid (file_part E x (take_in x k)) \/ Out (file_part E x (take_in x k)).
  Proof.
    intros k x (St & F & Sz & M & A & d & w & T & L & W & O & B) Hx Hy.
    unfold file_part, cb_part. change (k_fp (take_in x k)) with (k_fp k). rewrite F.
    destruct x as [|c x].
    - cbv zeta. cbn [k_conf k_off k_size go set_conf set_off take_in set_io].
      assert (O' : add32 (k_off k) 0 = lenN d).
      { unfold add32. rewrite N.add_0_r, O. apply w32_small.
        destruct B as [B| ->]; [unfold is32 in *; lia|]. unfold is32. change (lenN (@nil N)) with 0. unfold W32. lia. }
      change (lenN (@nil N)) with 0. rewrite O', Sz. destruct (N.ltb_spec (lenN d) n) as [Lt|Ge].
      + left. unfold Mid; fields. rewrite app_nil_r. repeat (split; [first [assumption | reflexivity]|]).
        exists d, w. auto.
      + right. apply (done_out _ d w); fields; try assumption.
        * rewrite app_nil_r. exact T.
        * rewrite O in Hy. destruct Hy as [Hy|[Hy|Hy]]; [congruence| |lia]. destruct B as [B| ->]; [lia|].
          change (lenN (@nil N)) with 0. lia.
    - set (y := c :: x) in *. unfold call. cbv zeta.
      change (k_log (take_in y k)) with (k_log k). set (r := E (k_log k) (SWrite f y)).
      assert (O' : add32 (k_off k) (lenN y) = lenN (d ++ y)).
      { rewrite lenN_app, <- O. unfold add32. apply w32_small. destruct B as [B| ->]; unfold is32 in *.
        - lia.
        - change (lenN (@nil N)) with 0 in O. lia. }
      assert (Hd : lenN (d ++ y) <= n).
      { rewrite lenN_app, <- O. destruct B as [B| ->]; [lia|]. change (lenN (@nil N)) with 0 in O. lia. }
      destruct (Z.eqb_spec r (Z.of_N (lenN y))) as [R|R].
      + cbn [k_conf k_off k_size go set_conf set_off take_in set_io set_log].
        rewrite O', Sz.
        assert (W' : writes f ((SWrite f y, r) :: w) (d ++ y)) by (rewrite R; eapply writes_cons; [exact W|reflexivity]).
        destruct (N.ltb_spec (lenN (d ++ y)) n) as [Lt|Ge].
        * left. unfold Mid; fields. repeat (split; [first [assumption | reflexivity]|]).
          exists (d ++ y), ((SWrite f y, r) :: w). rewrite T, L. rewrite app_assoc. split; [reflexivity|]. split; [reflexivity|]. split; [exact W'|auto].
        * right. apply (done_out _ (d ++ y) ((SWrite f y, r) :: w)); fields; try assumption.
          { rewrite T, app_assoc. reflexivity. }
          { rewrite L. reflexivity. }
          { lia. }
      + right. fields. unfold Out. fields. split; [reflexivity|]. right. split; [|reflexivity].
        exists d, w, y, r. eexists. rewrite T, L, <- app_assoc. split; [reflexivity|]. split; [reflexivity|].
        split; [exact W|]. split; [exact R|]. rewrite lenN_app in Hd. exact Hd.
  Qed.

  Lemma Mid_step : forall e k k', Mid k -> sink_step E e k = Some k' -> Mid k' \/ Out k'.
  Proof.
    intros e k k' Mk H. pose proof Mk as (St & F & Sz & M & A & d & w & T & L & W & O & B).
    assert (X : forall s : sink, Some s = Some k' -> k' = s) by (intros; congruence).
    assert (TI : take_in [] k = k) by (unfold take_in, set_io; rewrite app_nil_r; destruct k; reflexivity).
    unfold sink_step in H. rewrite St in H. cbv zeta in H.
    assert (Sub : sub32 (k_size k) (k_off k) = n - k_off k).
    { rewrite Sz. unfold sub32. unfold is32 in Hn.
      assert (Ho : k_off k <= n) by (rewrite O; destruct B as [B| ->]; [lia|change (lenN (@nil N)) with 0; lia]).
      rewrite (w32_small (k_off k)) by (unfold is32; lia).
      replace (n + (W32 - k_off k)) with (n - k_off k + 1 * W32) by lia.
      unfold w32. rewrite N.mod_add by (unfold W32; lia). apply N.mod_small. lia. }
    rewrite Sub in H.
    destruct (N.eqb_spec (N.min (n - k_off k) SCP_BUFFER_SZ) 0) as [Z|Z].
    - apply X in H. subst k'. rewrite <- TI. apply part_out; [exact Mk|change (lenN (@nil N)) with 0; lia|].
      right. left. unfold SCP_BUFFER_SZ in Z. assert (n <= k_off k) by lia. rewrite O in H.
      destruct B as [B| ->]; [lia|]. change (lenN (@nil N)) with 0 in H. lia.
    - destruct e; try (apply X in H; subst; left; exact Mk).
      destruct (N.ltb_spec (N.min (n - k_off k) SCP_BUFFER_SZ) (lenN d0)); [apply X in H; subst; left; exact Mk|].
      apply X in H. subst k'. apply part_out; [exact Mk|lia|]. right. right. lia.
  Qed.

  Lemma during_cases : forall es k k', during E es k k' -> Mid k -> Mid k' \/ Out k'.
  Proof.
    intros es k k' H. induction H as [k|e es k k1 k2 St S D IH]; intros Mk; [left; exact Mk|].
    destruct (Mid_step e k k1 Mk S) as [Q|Q]; [exact (IH Q)|].
    destruct D as [|e' es' k3 k4 k5 St3 _ _]; [right; exact Q|]. destruct Q as [Q _]. congruence.
  Qed.
End Phase.

(* ---------------------------------------------------------------- *)
(* How the file phase is entered                                      *)

Definition announced (k : sink) : Prop :=
  k_conf k = ABORT \/ k_next k <> RECEIVE_FILE \/
  exists f l, k_log k = (SOpen (k_name k), f) :: l /\ (0 <= f)%Z /\ k_fp k = Some f.

Definition Inv2 (k : sink) : Prop :=
  is32 (k_size k) /\ (k_st k = SEND_CONFIRMATION -> announced k).

Lemma parse_msg_size : forall buf k ok k', parse_msg buf k = Some (ok, k') -> is32 (k_size k) -> is32 (k_size k').
Proof.
  intros buf k ok k' H G. unfold parse_msg in H.
  assert (X : forall b (s : sink), Some (b, s) = Some (ok, k') -> k' = s) by (intros; congruence).
  destruct (rd buf 0) as [c|]; [|discriminate].
  destruct ((c =? 67) || (c =? 68)).
  - cbv zeta in H. destruct (GetMode buf) as [m i|e i|]; [|apply X in H; subst; exact G|discriminate].
    destruct (GetSizeField buf i) as [z j|e j|] eqn:Z; [|apply X in H; subst; exact G|discriminate].
    assert (is32 z).
    { unfold GetSizeField in Z. destruct (FindSpace buf i); [|discriminate]. destruct (rdn buf i _); [|discriminate].
      destruct (ParseUInt64 _ _) eqn:P; [|discriminate]. apply ParseUInt64_spec in P. injection Z as <- _.
      destruct P as (_ & _ & P). unfold is32, W32. lia. }
    destruct (k_rename _); [apply X in H; subst; assumption|].
    destruct (GetName buf j) as [w q|e q|] eqn:Q; [|apply X in H; subst; assumption|discriminate].
    apply X in H. subst. assumption.
  - destruct (c =? 69); [apply X in H; subst; exact G|].
    destruct (c =? 84); [|apply X in H; subst; exact G].
    destruct (GetTimestamp _ _ _) as [[[b m] a]|]; [|discriminate]. apply X in H. subst. exact G.
Qed.

Lemma cb_file_announced : forall E k, announced (cb_file E k).
Proof.
  intros E k. unfold cb_file, call, abort, go, announced. cbv zeta.
  set (r := E (k_log k) _). destruct (negb (r =? 0)%Z); [left; reflexivity|].
  cbn [k_log k_name set_log]. set (fp := E _ (SOpen _)). destruct (Z.ltb_spec fp 0) as [L|L]; [left; reflexivity|].
  right. right. cbn. eexists fp, _. split; [reflexivity|]. split; [exact L|reflexivity].
Qed.


Lemma cb_size : forall E k, k_size (cb_request E k) = k_size k /\ k_size (cb_enter E k) = k_size k /\
  k_size (cb_leave E k) = k_size k /\ k_size (cb_file E k) = k_size k /\
  k_next (cb_request E k) = k_next k /\ k_next (cb_enter E k) = k_next k /\ k_next (cb_leave E k) = k_next k.
Proof.
  intros E k. repeat split.
  - unfold cb_request, call. fields. destruct (_ =? _)%Z; reflexivity.
  - unfold cb_enter, call. destruct (k_name k); [reflexivity|]. fields.
    destruct (_ && _); [reflexivity|]. destruct (negb _); [reflexivity|]. destruct (_ =? _)%Z; reflexivity.
  - unfold cb_leave, call. destruct (_ =? _); [reflexivity|]. fields. destruct (_ =? _)%Z; reflexivity.
  - unfold cb_file, call. fields. destruct (negb _); [reflexivity|]. destruct (_ <? _)%Z; reflexivity.
  - unfold cb_request, call. fields. destruct (_ =? _)%Z; reflexivity.
  - unfold cb_enter, call. destruct (k_name k); [reflexivity|]. fields.
    destruct (_ && _); [reflexivity|]. destruct (negb _); [reflexivity|]. destruct (_ =? _)%Z; reflexivity.
  - unfold cb_leave, call. destruct (_ =? _); [reflexivity|]. fields. destruct (_ =? _)%Z; reflexivity.
Qed.

Lemma Inv2_dispatch : forall E k, is32 (k_size k) -> Inv2 (dispatch E k).
Proof.
  intros E k S. unfold dispatch, Inv2. destruct (k_type k).
  - set (k1 := set_st _ _ k). destruct (cb_size E k1) as (_ & _ & _ & H & _). rewrite H.
    split; [exact S|]. intros _. apply cb_file_announced.
  - split; [exact S|]. intros _. right. left. discriminate.
  - set (k1 := set_st _ _ k). destruct (cb_size E k1) as (_ & H & _ & _ & _ & N' & _). rewrite H.
    split; [exact S|]. intros _. right. left. rewrite N'. discriminate.
  - set (k1 := set_st _ _ k). destruct (cb_size E k1) as (_ & _ & H & _ & _ & _ & N'). rewrite H.
    split; [exact S|]. intros _. right. left. rewrite N'. discriminate.
Qed.

Lemma file_part_Inv2 : forall E d k, is32 (k_size k) -> Inv2 (file_part E d k).
Proof.
  intros E d k S. unfold file_part.
  assert (P : k_size (cb_part E d k) = k_size k).
  { unfold cb_part, call. destruct (k_fp k); [|reflexivity]. destruct d; [reflexivity|]. cbv zeta. destruct (_ =? _)%Z; reflexivity. }
  set (k1 := cb_part E d k) in *. cbv zeta. set (k2 := set_off _ k1).
  assert (S2 : is32 (k_size k2)) by (change (k_size k2) with (k_size k1); rewrite P; exact S).
  assert (D : k_size (cb_done E k2) = k_size k2).
  { unfold cb_done, call. destruct (k_fp k2); [|destruct (_ || _); reflexivity]. destruct (_ || _).
    - destruct (_ =? _)%Z; reflexivity.
    - reflexivity. }
  destruct (k_conf k2) eqn:Q.
  - destruct (_ <? _).
    + split; [exact S2|]. discriminate.
    + split.
      * change (is32 (k_size (cb_done E k2))). rewrite D. exact S2.
      * intros _. right. left. discriminate.
  - split; [exact S2|]. intros _. left. exact Q.
Qed.

Lemma Inv2_step : forall E e k k', Inv2 k -> sink_step E e k = Some k' -> Inv2 k'.
Proof.
  intros E e k k' (S & A) H.
  assert (X : forall s : sink, Some s = Some k' -> k' = s) by (intros; congruence).
  unfold sink_step in H. destruct (k_st k) eqn:Q.
  - apply X in H. subst. set (k1 := set_st _ _ k). destruct (cb_size E k1) as (H & _ & _ & _ & N' & _ & _).
    split; [rewrite H; exact S|]. intros _. right. left. rewrite N'. discriminate.
  - assert (Self : Inv2 k) by (split; [exact S|congruence]).
    destruct (_ <=? _); [apply X in H; subst; exact Self|].
    destruct e; try (apply X in H; subst; exact Self).
    + destruct (_ <? _); [apply X in H; subst; exact Self|].
      destruct (_ =? _); [apply X in H; subst; apply Inv2_dispatch; exact S|].
      cbv zeta in H. set (k1 := set_msg (k_msg k ++ d) (take_in d k)) in *.
      destruct (_ =? _).
      * unfold message in H. destruct (parse_msg _ k1) as [[ok k2]|] eqn:P; [|discriminate].
        pose proof (parse_msg_size _ _ _ _ P S) as S2. cbv zeta in H. apply X in H. rewrite H. destruct ok.
        { apply Inv2_dispatch. exact S2. }
        { split; [exact S2|]. change (k_st (set_msg [] k2)) with (k_st k2).
          assert (k_st k2 = RECEIVE_MESSAGE); [|congruence].
          clear - P Q. unfold parse_msg in P.
          assert (X : forall b (s : sink), Some (b, s) = Some (false, k2) -> k2 = s) by (intros; congruence).
          destruct (rd _ 0) as [c|]; [|discriminate].
          destruct ((c =? 67) || (c =? 68)).
          - cbv zeta in P. destruct (GetMode _) as [m i|e i|]; [|apply X in P; subst; exact Q|discriminate].
            destruct (GetSizeField _ i) as [z j|e j|]; [|apply X in P; subst; exact Q|discriminate].
            destruct (k_rename _); [apply X in P; subst; exact Q|].
            destruct (GetName _ j) as [n q|e q|]; [discriminate|apply X in P; subst; exact Q|discriminate].
          - destruct (c =? 69); [discriminate|].
            destruct (c =? 84); [|apply X in P; subst; exact Q].
            destruct (GetTimestamp _ _ _) as [[[b m] a]|]; [|discriminate]. apply X in P. subst. exact Q. }
      * apply X in H. rewrite H. split; [exact S|]. change (k_st k1) with (k_st k). congruence.
    + apply X in H. rewrite H. split; [exact S|]. discriminate.
  - assert (Self : Inv2 k) by (split; [exact S|auto]).
    destruct e; try (apply X in H; subst; exact Self).
    cbv zeta in H. destruct (_ <? _); [apply X in H; subst; exact Self|].
    set (k1 := set_io _ _ k) in *. change (k_conf k1) with (k_conf k) in H.
    assert (Self1 : Inv2 k1) by exact Self.
    destruct (k_conf k) eqn:Cf; [|apply X in H; rewrite H; exact Self1].
    destruct (_ =? _); [|apply X in H; rewrite H; exact Self1].
    apply X in H. rewrite H. split; [exact S|]. change (k_next k1) with (k_next k). fields. intros N'.
    right. left. change (k_next k <> RECEIVE_FILE). congruence.
  - assert (Self : Inv2 k) by (split; [exact S|congruence]).
    destruct e; try (apply X in H; subst; exact Self).
    + destruct (_ <? _); [apply X in H; subst; exact Self|]. cbv zeta in H.
      destruct (_ =? _); apply X in H; rewrite H; (split; [exact S|]).
      * discriminate.
      * change (k_st (take_in d k)) with (k_st k). congruence.
    + apply X in H. rewrite H. split; [exact S|]. discriminate.
  - assert (Self : Inv2 k) by (split; [exact S|congruence]).
    cbv zeta in H. destruct (_ =? _); [apply X in H; rewrite H; apply file_part_Inv2; exact S|].
    destruct e; try (apply X in H; subst; exact Self).
    destruct (_ <? _); [apply X in H; subst; exact Self|].
    apply X in H. rewrite H. apply file_part_Inv2. exact S.
  - apply X in H. rewrite H. split; [exact S|congruence].
Qed.

Lemma Inv2_run : forall E es k k', Inv2 k -> sink_run E es k = Some k' -> Inv2 k'.
Proof.
  intros E es. induction es as [|e es IH]; intros k k' HI H; cbn [sink_run] in H.
  - assert (k' = k) by congruence. subst. exact HI.
  - destruct (sink_step E e k) as [k1|] eqn:S; [|discriminate]. apply (IH k1); [|exact H].
    exact (Inv2_step E e k k1 HI S).
Qed.

(* Entering the file phase. *)
Lemma enter_file : forall E e k k', Inv2 k -> InvS k -> k_st k <> RECEIVE_FILE ->
  sink_step E e k = Some k' -> k_st k' = RECEIVE_FILE ->
  exists f l, k_log k' = (SOpen (k_name k'), f) :: l /\ (0 <= f)%Z /\ k_fp k' = Some f /\ k_off k' = 0.
Proof.
  intros E e k k' I2 Ib N1 H Q'.
  assert (X : forall s : sink, Some s = Some k' -> k' = s) by (intros; congruence).
  unfold sink_step in H. destruct (k_st k) eqn:Q; try congruence.
  - exfalso. apply X in H. rewrite H in Q'. set (k1 := set_st _ _ k) in *.
    revert Q'. unfold cb_request, call. fields. destruct (_ =? _)%Z; discriminate.
  - exfalso.
    assert (Dp : forall k1, k' = dispatch E k1 -> False).
    { intros k1 ->. revert Q'. unfold dispatch. destruct (k_type k1).
      - unfold cb_file, call. fields. destruct (negb _); [discriminate|]. destruct (_ <? _)%Z; discriminate.
      - discriminate.
      - unfold cb_enter, call. fields. destruct (k_name _); [discriminate|]. fields.
        destruct (_ && _); [discriminate|]. destruct (negb _); [discriminate|]. destruct (_ =? _)%Z; discriminate.
      - unfold cb_leave, call. fields. destruct (_ =? _); [discriminate|]. fields. destruct (_ =? _)%Z; discriminate. }
    destruct (_ <=? _); [apply X in H; subst; congruence|].
    destruct e; try (apply X in H; subst; congruence).
    + destruct (_ <? _); [apply X in H; subst; congruence|].
      destruct (_ =? _); [apply X in H; eauto|].
      cbv zeta in H. set (k1 := set_msg (k_msg k ++ d) (take_in d k)) in *. destruct (_ =? _).
      * unfold message in H. destruct (parse_msg _ k1) as [[ok k2]|] eqn:P; [|discriminate].
        cbv zeta in H. apply X in H. destruct ok; [eauto|].
        apply parse_msg_kept in P. destruct P as (P & _). rewrite H in Q'. change (k_st k2 = RECEIVE_FILE) in Q'. rewrite P in Q'.
        change (k_st k1) with (k_st k) in Q'. congruence.
      * apply X in H. rewrite H in Q'. change (k_st k = RECEIVE_FILE) in Q'. congruence.
    + apply X in H. rewrite H in Q'. change (k_st k = RECEIVE_FILE) in Q'. congruence.
    + apply X in H. rewrite H in Q'. discriminate.
  - destruct e; try (apply X in H; subst; congruence).
    cbv zeta in H. destruct (_ <? _); [apply X in H; subst; congruence|].
    set (k1 := set_io _ _ k) in *. change (k_conf k1) with (k_conf k) in H.
    destruct (k_conf k) eqn:Cf; [|apply X in H; rewrite H in Q'; change (k_st k = RECEIVE_FILE) in Q'; congruence].
    destruct (_ =? _); [|apply X in H; rewrite H in Q'; change (k_st k = RECEIVE_FILE) in Q'; congruence].
    apply X in H. rewrite H in Q' |- *. change (k_next k = RECEIVE_FILE) in Q'.
    destruct I2 as (_ & A). specialize (A Q). destruct A as [A|[A|A]]; [congruence|congruence|].
    destruct A as (f & l & A1 & A2 & A3). exists f, l. split; [exact A1|]. split; [exact A2|]. split; [exact A3|].
    destruct Ib as (_ & Ib). rewrite Q, Cf, Q' in Ib. destruct Ib as [[Ib _]|Ib]; [discriminate|]. apply Ib.
  - exfalso. destruct e; try (apply X in H; subst; congruence).
    + destruct (_ <? _); [apply X in H; subst; congruence|]. cbv zeta in H.
      destruct (_ =? _); apply X in H; rewrite H in Q'; [discriminate|]. change (k_st k = RECEIVE_FILE) in Q'. congruence.
    + apply X in H. rewrite H in Q'. discriminate.
Qed.
