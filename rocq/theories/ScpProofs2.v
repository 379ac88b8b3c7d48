(* ScpProofs2.v - the receiving machine over any sequence of events: what it
   calls stays inside the destination (C57) and streams are used only while
   open (C58). *)
From Coq Require Import String.
From Verif Require Import Base PathModel WireProofs ScpModel ScpSpec ScpProofs.
From Coq Require Import List NArith ZArith Bool Lia.
Import ListNotations.
Open Scope N_scope.

Lemma confined_nil : forall base, confined base [].
Proof. intros base a c r b H. destruct a; discriminate. Qed.

Lemma confined_cons : forall base c r l, permitted base l c -> confined base l -> confined base ((c, r) :: l).
Proof.
  intros base c r l P H a c' r' b E. destruct a as [|x a]; cbn [app] in E.
  - assert (c' = c /\ b = l) as [-> ->] by (split; congruence). exact P.
  - apply (H a c' r' b). congruence.
Qed.

Lemma streams_nil : streams_ok [].
Proof. intros a c r b H. destruct a; discriminate. Qed.

Lemma streams_cons : forall c r l, stream_use l c -> streams_ok l -> streams_ok ((c, r) :: l).
Proof.
  intros c r l P H a c' r' b E. destruct a as [|x a]; cbn [app] in E.
  - assert (c' = c /\ b = l) as [-> ->] by (split; congruence). exact P.
  - apply (H a c' r' b). congruence.
Qed.

(* ---------------------------------------------------------------- *)

Definition good_name (n : bytes) : Prop := n = [] \/ plain n.

Definition within (k : sink) : Prop :=
  exists d, here (k_log k) = Some d /\ k_depth k = w32 (lenN d).

Definition idle (k : sink) : Prop := within k /\ live (k_log k) = None /\ k_off k = 0.

Definition filing (k : sink) : Prop :=
  within k /\ exists fp, k_fp k = Some fp /\ live (k_log k) = Some fp.

Definition calls_ok (base : bytes) (k : sink) : Prop :=
  confined base (k_log k) /\ streams_ok (k_log k) /\ good_name (k_name k) /\ k_base k = base.

Definition Inv (base : bytes) (k : sink) : Prop :=
  calls_ok base k /\
  match k_st k with
  | SINK_BEGIN => here (k_log k) = None /\ live (k_log k) = None /\ k_off k = 0
  | SCP_DONE => live (k_log k) = None
  | RECEIVE_MESSAGE | RECEIVE_CONFIRMATION => idle k
  | SEND_CONFIRMATION =>
      k_conf k = ABORT \/
      match k_next k with
      | RECEIVE_MESSAGE | RECEIVE_CONFIRMATION => idle k
      | RECEIVE_FILE => filing k /\ k_off k = 0
      | _ => False
      end
  | RECEIVE_FILE => filing k
  end.

(* What a callback does to the state besides the calls. *)
Definition same (k k' : sink) : Prop :=
  k_st k' = k_st k /\ k_next k' = k_next k /\ k_base k' = k_base k /\ k_name k' = k_name k /\
  k_off k' = k_off k /\ k_size k' = k_size k /\ k_taken k' = k_taken k.

Lemma cb_file_ok : forall E base k, calls_ok base k -> within k ->
  let k' := cb_file E k in
  calls_ok base k' /\ same k k' /\ (k_conf k' = ABORT \/ filing k').
Proof.
  intros E base k (C & S & G & B) (d & W & D). unfold cb_file, call, abort, go, calls_ok, same, filing, within. cbv zeta.
  set (r := E (k_log k) (SLink (k_name k))).
  destruct (Z.eqb_spec r 0) as [R|R]; cbn [negb k_log k_name set_log].
  - set (fp := E ((SLink (k_name k), r) :: k_log k) (SOpen (k_name k))).
    assert (C' : confined base ((SOpen (k_name k), fp) :: (SLink (k_name k), r) :: k_log k)).
    { apply confined_cons; [|apply confined_cons; [exact I|exact C]].
      split; [cbn [here]; congruence|]. split; [exact G|]. exists (k_log k). congruence. }
    assert (S' : streams_ok ((SOpen (k_name k), fp) :: (SLink (k_name k), r) :: k_log k)).
    { apply streams_cons; [exact I|]. apply streams_cons; [exact I|exact S]. }
    destruct (fp <? 0)%Z eqn:F.
    + cbn. split; [auto|]. split; [repeat split|left; reflexivity].
    + cbn. split; [auto|]. split; [repeat split|]. right. split.
      * exists d. auto.
      * exists fp. split; [reflexivity|]. rewrite F. reflexivity.
  - cbn. split.
    + split; [apply confined_cons; [exact I|exact C]|]. split; [apply streams_cons; [exact I|exact S]|auto].
    + split; [repeat split|left; reflexivity].
Qed.

Lemma cb_enter_nil : forall E k, k_name k = [] -> cb_enter E k = go k.
Proof. intros E k H. unfold cb_enter. rewrite H. reflexivity. Qed.

Lemma cb_enter_cons : forall E k, k_name k <> [] -> cb_enter E k =
  (let (r, k) := call E (SMkdir (k_name k) (k_mode k)) k in
   if negb (r =? 0)%Z && negb (r =? EEXIST)%Z then abort (NegoSpec.ascii "error creating directory") k
   else
     let (r, k) := call E (SLink (k_name k)) k in
     if negb (r =? 0)%Z then abort (NegoSpec.ascii "symlink in destination path") k
     else
       let (r, k) := call E (SChdir (k_name k)) k in
       if (r =? 0)%Z then go (set_depth (add32 (k_depth k) 1) k)
       else abort (NegoSpec.ascii "unable to cd into directory") k).
Proof. intros E k H. unfold cb_enter. destruct (k_name k) eqn:Q; [congruence|]. rewrite <- Q. reflexivity. Qed.

Lemma add32_w32 : forall n, add32 (w32 n) 1 = w32 (1 + n).
Proof.
  intros n. unfold add32, w32. rewrite N.add_mod_idemp_l by (unfold W32; lia). f_equal. lia.
Qed.

Lemma w32_pred : forall n, w32 n <> 0 -> w32 n - 1 = w32 (n - 1).
Proof.
  intros n H. unfold w32 in *. assert (n <> 0) by (intros ->; apply H; reflexivity).
  replace n with (n - 1 + 1) at 1 by lia. replace n with (n - 1 + 1) in H by lia.
  set (a := n - 1) in *. rewrite N.add_mod in * by (unfold W32; lia).
  change (1 mod W32) with 1 in *. pose proof (N.mod_lt a W32 ltac:(unfold W32; lia)).
  destruct (N.eq_dec (a mod W32 + 1) W32) as [Q|Q].
  - rewrite Q in H. rewrite N.mod_same in H by (unfold W32; lia). congruence.
  - rewrite N.mod_small by lia. lia.
Qed.

Lemma cb_enter_ok : forall E base k, calls_ok base k -> within k -> live (k_log k) = None ->
  let k' := cb_enter E k in
  calls_ok base k' /\ same k k' /\ (k_conf k' = ABORT \/ within k' /\ live (k_log k') = None).
Proof.
  intros E base k (C & S & G & B) (d & W & D) L. cbv zeta.
  destruct (list_eq_dec N.eq_dec (k_name k) []) as [Z|Z].
  { rewrite (cb_enter_nil E k Z). unfold calls_ok, same, within, go; cbn. split; [auto|]. split; [repeat split|].
    right. split; [exists d; auto|exact L]. }
  destruct G as [G|P]; [congruence|]. rewrite (cb_enter_cons E k Z).
  assert (Nd : k_name k <> [46; 46]) by apply P.
  unfold call, abort, go, calls_ok, same, within. cbv zeta.
  set (r0 := E (k_log k) (SMkdir (k_name k) (k_mode k))).
  assert (C1 : confined base ((SMkdir (k_name k) (k_mode k), r0) :: k_log k)).
  { apply confined_cons; [|exact C]. split; [congruence|exact P]. }
  assert (S1 : streams_ok ((SMkdir (k_name k) (k_mode k), r0) :: k_log k)).
  { apply streams_cons; [exact I|exact S]. }
  destruct (negb (r0 =? 0)%Z && negb (r0 =? EEXIST)%Z).
  { cbn. split; [unfold good_name; auto|]. split; [repeat split|left; reflexivity]. }
  cbn [k_log k_name set_log].
  set (l1 := (SMkdir (k_name k) (k_mode k), r0) :: k_log k) in *.
  set (r1 := E l1 (SLink (k_name k))).
  assert (C2 : confined base ((SLink (k_name k), r1) :: l1)) by (apply confined_cons; [exact I|exact C1]).
  assert (S2 : streams_ok ((SLink (k_name k), r1) :: l1)) by (apply streams_cons; [exact I|exact S1]).
  destruct (Z.eqb_spec r1 0) as [R1|R1]; cbn [negb].
  2:{ cbn. split; [unfold good_name; auto|]. split; [repeat split|left; reflexivity]. }
  cbn [k_log k_name set_log].
  set (l2 := (SLink (k_name k), r1) :: l1) in *.
  set (r2 := E l2 (SChdir (k_name k))).
  assert (H2 : here l2 = Some d) by (unfold l2, l1; cbn; exact W).
  assert (C3 : confined base ((SChdir (k_name k), r2) :: l2)).
  { apply confined_cons; [|exact C2]. unfold permitted. rewrite H2. right. split; [exact P|]. exists l1. unfold l2. congruence. }
  assert (S3 : streams_ok ((SChdir (k_name k), r2) :: l2)) by (apply streams_cons; [exact I|exact S2]).
  destruct (Z.eqb_spec r2 0) as [R2|R2].
  - cbn [k_conf k_log k_st k_next k_base k_name k_off k_size k_taken k_depth set_log set_conf set_depth].
    split; [unfold good_name; auto|]. split; [repeat split|]. right. split.
    + exists (k_name k :: d). cbn [here]. rewrite H2, R2. cbn [Z.eqb].
      destruct (list_eq_dec N.eq_dec (k_name k) [46; 46]); [congruence|]. split; [reflexivity|].
      rewrite D, add32_w32, lenN_cons. reflexivity.
    + unfold l2, l1; cbn. exact L.
  - cbn. split; [unfold good_name; auto|]. split; [repeat split|left; reflexivity].
Qed.

Lemma cb_leave_ok : forall E base k, calls_ok base k -> within k -> live (k_log k) = None ->
  let k' := cb_leave E k in
  calls_ok base k' /\ same k k' /\ (k_conf k' = ABORT \/ within k' /\ live (k_log k') = None).
Proof.
  intros E base k (C & S & G & B) (d & W & D) L. unfold cb_leave, call, abort, go, calls_ok, same, within. cbv zeta.
  destruct (N.eqb_spec (k_depth k) 0) as [Z|Z].
  { cbn. split; [auto|]. split; [repeat split|left; reflexivity]. }
  assert (Hd : d <> []). { intros ->. apply Z. rewrite D. reflexivity. }
  change [DOT; DOT] with [46; 46]. set (r := E (k_log k) (SChdir [46; 46])).
  assert (C1 : confined base ((SChdir [46; 46], r) :: k_log k)).
  { apply confined_cons; [|exact C]. unfold permitted. rewrite W. left. auto. }
  assert (S1 : streams_ok ((SChdir [46; 46], r) :: k_log k)) by (apply streams_cons; [exact I|exact S]).
  destruct (Z.eqb_spec r 0) as [R|R].
  - cbn [k_conf k_log k_st k_next k_base k_name k_off k_size k_taken k_depth set_log set_conf set_depth].
    split; [auto|]. split; [repeat split|]. right. split; [|cbn; exact L].
    exists (tl d). cbn [here]. rewrite W, R. cbn [Z.eqb].
    destruct (list_eq_dec N.eq_dec [46; 46] [46; 46]); [|congruence]. split; [reflexivity|].
    rewrite D. destruct d as [|x d]; [congruence|]. cbn [tl]. rewrite lenN_cons.
    rewrite w32_pred by (rewrite <- (lenN_cons _ x d), <- D; exact Z). f_equal. lia.
  - cbn. split; [auto|]. split; [repeat split|left; reflexivity].
Qed.

Lemma cb_request_ok : forall E base k, calls_ok base k -> here (k_log k) = None -> live (k_log k) = None ->
  let k' := cb_request E k in
  calls_ok base k' /\ same k k' /\ (k_conf k' = ABORT \/ within k' /\ live (k_log k') = None).
Proof.
  intros E base k (C & S & G & B) W L. unfold cb_request, call, abort, go, calls_ok, same, within. cbv zeta.
  set (r := E (k_log k) (SChdir (k_base k))).
  assert (C1 : confined base ((SChdir (k_base k), r) :: k_log k)).
  { apply confined_cons; [|exact C]. unfold permitted. rewrite W. exact B. }
  assert (S1 : streams_ok ((SChdir (k_base k), r) :: k_log k)) by (apply streams_cons; [exact I|exact S]).
  destruct (Z.eqb_spec r 0) as [R|R].
  - cbn [k_conf k_log k_st k_next k_base k_name k_off k_size k_taken k_depth set_log set_conf set_depth].
    split; [auto|]. split; [repeat split|]. right. split; [|cbn; exact L].
    exists []. cbn [here]. rewrite W, R. auto.
  - cbn. split; [auto|]. split; [repeat split|left; reflexivity].
Qed.

Lemma cb_part_ok : forall E base d k, calls_ok base k -> filing k ->
  let k' := cb_part E d k in
  calls_ok base k' /\ same k k' /\ (k_conf k' = ABORT \/ filing k').
Proof.
  intros E base d k (C & S & G & B) (W & fp & F & L).
  unfold cb_part. rewrite F. cbv zeta.
  destruct d as [|x d].
  { unfold go, calls_ok, same, filing, within in *; cbn. split; [auto|]. split; [repeat split|]. right. split; [exact W|]. exists fp. auto. }
  set (w := x :: d). unfold call, go, calls_ok, same, filing, within in *. cbv zeta.
  set (n := E (k_log k) (SWrite fp w)).
  assert (C1 : confined base ((SWrite fp w, n) :: k_log k)) by (apply confined_cons; [exact I|exact C]).
  assert (S1 : streams_ok ((SWrite fp w, n) :: k_log k)) by (apply streams_cons; [exact L|exact S]).
  destruct (n =? Z.of_N (lenN w))%Z.
  - cbn. split; [auto|]. split; [repeat split|]. right. split; [exact W|]. exists fp. auto.
  - cbn [k_log set_log]. set (r := E _ (SClose fp)). cbn. split.
    + split; [apply confined_cons; [exact I|exact C1]|]. split; [|auto].
      apply streams_cons; [cbn; exact L|exact S1].
    + split; [repeat split|left; reflexivity].
Qed.

Lemma cb_done_ok : forall E base k, calls_ok base k -> filing k ->
  let k' := cb_done E k in
  calls_ok base k' /\ same k k' /\ within k' /\ live (k_log k') = None.
Proof.
  intros E base k (C & S & G & B) (W & fp & F & L).
  unfold cb_done. rewrite F. cbv zeta.
  set (u := negb (k_mtime k =? 0) || negb (k_atime k =? 0)).
  assert (X : forall k1 ok, (ok, k1) = (if u then let (r, k1) := call E (SUtimes fp (k_mtime k) (k_atime k)) k in ((r =? 0)%Z, k1) else (true, k)) ->
    calls_ok base k1 /\ same k k1 /\ within k1 /\ live (k_log k1) = Some fp).
  { intros k1 ok. unfold call. cbv zeta. destruct u.
    - intros Q. apply pair_equal_spec in Q. destruct Q as [_ ->]. unfold calls_ok, same, within; cbn.
      split; [|split; [repeat split|split; [exact W|exact L]]].
      split; [apply confined_cons; [exact I|exact C]|]. split; [apply streams_cons; [exact L|exact S]|auto].
    - intros Q. apply pair_equal_spec in Q. destruct Q as [_ ->].
      split; [split; auto|split; [repeat split|split; [exact W|exact L]]]. }
  destruct (if u then _ else _) as [ok k1]. specialize (X k1 ok eq_refl).
  destruct X as ((C1 & S1 & G1 & B1) & (Q1 & Q2 & Q3 & Q4 & Q5 & Q6 & Q7) & (d & W1 & D1) & L1).
  unfold call. cbv zeta. set (r := E _ (SClose fp)).
  assert (R : forall k2, k_log k2 = (SClose fp, r) :: k_log k1 -> k_name k2 = k_name k1 -> k_base k2 = k_base k1 ->
    k_st k2 = k_st k1 -> k_next k2 = k_next k1 -> k_off k2 = k_off k1 -> k_size k2 = k_size k1 ->
    k_taken k2 = k_taken k1 -> k_depth k2 = k_depth k1 ->
    calls_ok base k2 /\ same k k2 /\ within k2 /\ live (k_log k2) = None).
  { intros k2 E1 E2 E3 E4 E5 E6 E7 E8 E9. unfold calls_ok, same, within. rewrite E1, E2, E3, E4, E5, E6, E7, E8, E9.
    split.
    - split; [apply confined_cons; [exact I|exact C1]|]. split; [apply streams_cons; [exact L1|exact S1]|auto].
    - split; [repeat split; assumption|]. split; [exists d; auto|reflexivity]. }
  destruct ok; apply R; reflexivity.
Qed.

Lemma file_part_ok : forall E base d k, calls_ok base k -> filing k -> k_st k = RECEIVE_FILE ->
  Inv base (file_part E d k).
Proof.
  intros E base d k C F St. unfold file_part.
  pose proof (cb_part_ok E base d k C F) as P. cbv zeta in P. set (k1 := cb_part E d k) in *. clearbody k1.
  destruct P as ((C1 & S1 & G1 & B1) & Sm & P). cbv zeta.
  set (k2 := set_off (add32 (k_off k1) (lenN d)) k1).
  assert (C2 : calls_ok base k2) by (unfold k2, calls_ok; cbn; auto).
  destruct (k_conf k2) eqn:Q.
  - destruct P as [P|P]; [unfold k2 in Q; cbn in Q; congruence|].
    assert (F2 : filing k2) by exact P.
    destruct (k_off k2 <? k_size k2).
    + split; [exact C2|exact F2].
    + pose proof (cb_done_ok E base k2 C2 F2) as D. cbv zeta in D. destruct D as (C3 & Sm3 & W & L).
      split; [exact C3|]. cbn. right. split; [exact W|]. split; [exact L|reflexivity].
  - split; [exact C2|]. cbn. left. exact Q.
Qed.

(* parsing changes only the fields of the message *)
Definition kept (k k' : sink) : Prop :=
  k_st k' = k_st k /\ k_next k' = k_next k /\ k_conf k' = k_conf k /\ k_base k' = k_base k /\ k_off k' = k_off k /\
  k_fp k' = k_fp k /\ k_depth k' = k_depth k /\ k_log k' = k_log k /\ k_taken k' = k_taken k /\ k_out k' = k_out k /\
  k_msg k' = k_msg k.

Lemma GetName_plain : forall buf i n j, GetName buf i = POk n j -> plain n.
Proof.
  intros buf i n j. unfold GetName. destruct (has_nul _); cbn [negb]; [|discriminate].
  destruct (_ <? _); [discriminate|]. destruct (bad_name _) eqn:B; [discriminate|].
  intros [= <- _]. apply bad_name_spec. exact B.
Qed.

Lemma parse_msg_keeps : forall buf k ok k', parse_msg buf k = Some (ok, k') -> good_name (k_name k) ->
  kept k k' /\ good_name (k_name k').
Proof.
  intros buf k ok k' H G. unfold parse_msg in H.
  assert (X : forall b (s : sink), Some (b, s) = Some (ok, k') -> k' = s) by (intros; congruence).
  destruct (rd buf 0) as [c|]; [|discriminate].
  destruct ((c =? 67) || (c =? 68)).
  - cbv zeta in H. destruct (GetMode buf) as [m i|e i|]; [|apply X in H; subst; split; [repeat split|exact G]|discriminate].
    destruct (GetSizeField buf i) as [z j|e j|]; [|apply X in H; subst; split; [repeat split|exact G]|discriminate].
    destruct (k_rename _); [apply X in H; subst; split; [repeat split|exact G]|].
    destruct (GetName buf j) as [n q|e q|] eqn:Q; [|apply X in H; subst; split; [repeat split|exact G]|discriminate].
    apply X in H. subst. split; [repeat split|]. right. exact (GetName_plain _ _ _ _ Q).
  - destruct (c =? 69); [apply X in H; subst; split; [repeat split|exact G]|].
    destruct (c =? 84); [|apply X in H; subst; split; [repeat split|exact G]].
    destruct (GetTimestamp _ _ _) as [[[b m] a]|]; [|discriminate]. apply X in H. subst. split; [repeat split|exact G].
Qed.

Lemma dispatch_ok : forall E base k, calls_ok base k -> idle k -> Inv base (dispatch E k).
Proof.
  intros E base k C (W & L & O). unfold dispatch. destruct (k_type k).
  - set (k1 := set_st SEND_CONFIRMATION RECEIVE_FILE k).
    destruct (cb_file_ok E base k1 C W) as (C' & (Q1 & Q2 & _ & _ & Q5 & _) & F). split; [exact C'|].
    rewrite Q1, Q2, Q5. cbn. destruct F as [F|F]; auto.
  - split; [exact C|]. cbn. right. split; [exact W|auto].
  - set (k1 := set_st SEND_CONFIRMATION RECEIVE_MESSAGE k).
    destruct (cb_enter_ok E base k1 C W L) as (C' & (Q1 & Q2 & _ & _ & Q5 & _) & F). split; [exact C'|].
    rewrite Q1, Q2. cbn. destruct F as [F|[F F2]]; [auto|]. right. split; [exact F|]. split; [exact F2|]. rewrite Q5. exact O.
  - set (k1 := set_st SEND_CONFIRMATION RECEIVE_MESSAGE k).
    destruct (cb_leave_ok E base k1 C W L) as (C' & (Q1 & Q2 & _ & _ & Q5 & _) & F). split; [exact C'|].
    rewrite Q1, Q2. cbn. destruct F as [F|[F F2]]; [auto|]. right. split; [exact F|]. split; [exact F2|]. rewrite Q5. exact O.
Qed.

Lemma message_ok : forall E base m k k', calls_ok base k -> idle k -> k_st k = RECEIVE_MESSAGE ->
  message E m k = Some k' -> Inv base k'.
Proof.
  intros E base m k k' C W St H. unfold message in H.
  destruct (parse_msg (removelast m ++ [0]) k) as [[ok k1]|] eqn:P; [|discriminate].
  destruct C as (C & S & G & B). apply parse_msg_keeps in P; [|exact G].
  destruct P as ((E1 & E2 & E3 & E4 & E5 & E6 & E7 & E8 & E9 & _) & G1).
  assert (C1 : calls_ok base (set_msg [] k1)) by (unfold calls_ok; cbn; rewrite E8, E4; auto).
  assert (I1 : idle (set_msg [] k1)) by (unfold idle, within; cbn; rewrite E5, E7, E8; exact W).
  cbv zeta in H. assert (k' = if ok then dispatch E (set_msg [] k1) else set_msg [] k1) as -> by congruence. clear H.
  destruct ok; [apply dispatch_ok; assumption|]. split; [exact C1|]. cbn. rewrite E1, St. exact I1.
Qed.

Theorem Inv_step : forall E base e k k', Inv base k -> sink_step E e k = Some k' -> Inv base k'.
Proof.
  intros E base e k k' HI H.
  assert (X : forall s : sink, Some s = Some k' -> k' = s) by (intros; congruence).
  destruct HI as (C & St). unfold sink_step in H. destruct (k_st k) eqn:Q.
  - (* begin *)
    apply X in H. subst. destruct St as (W & L & O).
    set (k1 := set_st SEND_CONFIRMATION RECEIVE_MESSAGE k).
    destruct (cb_request_ok E base k1 C W L) as (C' & (Q1 & Q2 & _ & _ & Q5 & _) & F).
    split; [exact C'|]. rewrite Q1, Q2. cbn -[cb_request]. destruct F as [F|[F F2]]; [auto|]. right. split; [exact F|]. split; [exact F2|].
    rewrite Q5. exact O.
  - (* message *)
    assert (Self : Inv base k) by (split; [exact C|rewrite Q; exact St]).
    destruct (SCP_MSG_SZ - 1 <=? lenN (k_msg k)); [apply X in H; subst; exact Self|].
    destruct e; try (apply X in H; subst; exact Self).
    + destruct (_ <? _); [apply X in H; subst; exact Self|].
      destruct (_ =? _); [apply X in H; subst; apply dispatch_ok; assumption|].
      cbv zeta in H. set (k1 := set_msg (k_msg k ++ d) (take_in d k)) in *.
      destruct (_ =? _).
      * apply (message_ok E base) in H; [exact H|exact C|exact St|exact Q].
      * apply X in H. rewrite H. split; [exact C|]. change (k_st k1) with (k_st k). rewrite Q. exact St.
    + apply X in H. subst. split; [exact C|]. cbn. apply St.
  - (* send confirmation *)
    assert (Self : Inv base k) by (split; [exact C|rewrite Q; exact St]).
    destruct e; try (apply X in H; subst; exact Self).
    cbv zeta in H. destruct (_ <? _); [apply X in H; subst; exact Self|].
    set (k1 := set_io (k_taken k) (k_out k ++ takeN n (confirmation k)) k) in *.
    assert (Self1 : Inv base k1) by (split; [exact C|change (k_st k1) with (k_st k); rewrite Q; exact St]).
    change (k_conf k1) with (k_conf k) in H.
    destruct (k_conf k) eqn:Cf; [|apply X in H; subst; exact Self1].
    destruct (_ =? _); [|apply X in H; subst; exact Self1].
    apply X in H. subst. split; [exact C|]. cbn. destruct St as [St|St]; [congruence|].
    destruct (k_next k); try contradiction; try exact St. apply St.
  - (* receive confirmation *)
    assert (Self : Inv base k) by (split; [exact C|rewrite Q; exact St]).
    destruct e; try (apply X in H; subst; exact Self).
    + destruct (_ <? _); [apply X in H; subst; exact Self|]. cbv zeta in H.
      destruct (_ =? _); apply X in H; subst.
      * split; [exact C|]. cbn. exact St.
      * split; [exact C|]. change (k_st (take_in d k)) with (k_st k). rewrite Q. exact St.
    + apply X in H. subst. split; [exact C|]. cbn. exact St.
  - (* file *)
    assert (Self : Inv base k) by (split; [exact C|rewrite Q; exact St]).
    cbv zeta in H. destruct (_ =? _); [apply X in H; subst; apply file_part_ok; assumption|].
    destruct e; try (apply X in H; subst; exact Self).
    destruct (_ <? _); [apply X in H; subst; exact Self|].
    apply X in H. subst. apply file_part_ok; [exact C|exact St|exact Q].
  - apply X in H. subst. split; [exact C|rewrite Q; exact St].
Qed.

Theorem Inv_run : forall E base es k k', Inv base k -> sink_run E es k = Some k' -> Inv base k'.
Proof.
  intros E base es. induction es as [|e es IH]; intros k k' HI H; cbn [sink_run] in H.
  - assert (k' = k) by congruence. subst. exact HI.
  - destruct (sink_step E e k) as [k1|] eqn:S; [|discriminate]. apply (IH k1); [|exact H].
    exact (Inv_step E base e k k1 HI S).
Qed.

Lemma step_some : forall E e k, sink_step E e k <> None.
Proof.
  intros E e k. unfold sink_step. destruct (k_st k); try discriminate.
  - destruct (_ <=? _); [discriminate|]. destruct e; try discriminate. destruct (_ <? _); [discriminate|].
    destruct (_ =? _); [discriminate|]. cbv zeta. destruct (_ =? _); [|discriminate].
    unfold message. pose proof (parse_msg_some (removelast (k_msg k ++ d)) (set_msg (k_msg k ++ d) (take_in d k))) as P.
    destruct (parse_msg _ _) as [[ok k1]|]; [discriminate|congruence].
  - destruct e; try discriminate. cbv zeta. destruct (_ <? _); [discriminate|]. destruct (k_conf _); [|discriminate].
    destruct (_ =? _); discriminate.
  - destruct e; try discriminate. destruct (_ <? _); [discriminate|]. cbv zeta. destruct (_ =? _); discriminate.
  - cbv zeta. destruct (_ =? _); [discriminate|]. destruct e; try discriminate. destruct (_ <? _); discriminate.
Qed.

Lemma run_some : forall E es k, sink_run E es k <> None.
Proof.
  intros E es. induction es as [|e es IH]; intros k; cbn [sink_run]; [discriminate|].
  pose proof (step_some E e k). destruct (sink_step E e k); [apply IH|congruence].
Qed.

(* ---------------------------------------------------------------- *)
(* The streams alone, whatever the names                              *)

Lemma parse_msg_kept : forall buf k ok k', parse_msg buf k = Some (ok, k') -> kept k k'.
Proof.
  intros buf k ok k' H. unfold parse_msg in H.
  assert (X : forall b (s : sink), Some (b, s) = Some (ok, k') -> k' = s) by (intros; congruence).
  destruct (rd buf 0) as [c|]; [|discriminate].
  destruct ((c =? 67) || (c =? 68)).
  - cbv zeta in H. destruct (GetMode buf) as [m i|e i|]; [|apply X in H; subst; repeat split|discriminate].
    destruct (GetSizeField buf i) as [z j|e j|]; [|apply X in H; subst; repeat split|discriminate].
    destruct (k_rename _); [apply X in H; subst; repeat split|].
    destruct (GetName buf j) as [n q|e q|]; [|apply X in H; subst; repeat split|discriminate].
    apply X in H. subst. repeat split.
  - destruct (c =? 69); [apply X in H; subst; repeat split|].
    destruct (c =? 84); [|apply X in H; subst; repeat split].
    destruct (GetTimestamp _ _ _) as [[[b m] a]|]; [|discriminate]. apply X in H. subst. repeat split.
Qed.

Definition shut (k : sink) : Prop := live (k_log k) = None /\ k_off k = 0.
Definition opened (k : sink) : Prop := exists fp, k_fp k = Some fp /\ live (k_log k) = Some fp.

Definition InvS (k : sink) : Prop :=
  streams_ok (k_log k) /\
  match k_st k with
  | SINK_BEGIN | RECEIVE_MESSAGE | RECEIVE_CONFIRMATION => shut k
  | SCP_DONE => live (k_log k) = None
  | SEND_CONFIRMATION =>
      (k_conf k = ABORT /\ live (k_log k) = None) \/
      match k_next k with
      | RECEIVE_MESSAGE | RECEIVE_CONFIRMATION => shut k
      | RECEIVE_FILE => opened k /\ k_off k = 0 /\ k_conf k = CONTINUE
      | _ => False
      end
  | RECEIVE_FILE => opened k
  end.

Lemma dispatch_S : forall E k, streams_ok (k_log k) -> shut k -> InvS (dispatch E k).
Proof.
  intros E k S (L & O). unfold dispatch. destruct (k_type k).
  - unfold cb_file, call, abort, go. cbv zeta. cbn [k_log k_name set_log set_st]. set (r := E _ _).
    assert (S1 : streams_ok ((SLink (k_name k), r) :: k_log k)) by (apply streams_cons; [exact I|exact S]).
    destruct (negb (r =? 0)%Z); [split; [exact S1|left; split; [reflexivity|exact L]]|].
    cbn [k_log k_name set_log set_st]. set (fp := E _ _).
    assert (S2 : streams_ok ((SOpen (k_name k), fp) :: (SLink (k_name k), r) :: k_log k)) by (apply streams_cons; [exact I|exact S1]).
    destruct (fp <? 0)%Z eqn:F; [split; [exact S2|left; split; [reflexivity|cbn; rewrite F; exact L]]|].
    split; [exact S2|]. right. split; [|split; [exact O|reflexivity]]. exists fp. split; [reflexivity|]. cbn. rewrite F. reflexivity.
  - split; [exact S|]. right. split; [exact L|exact O].
  - set (k1 := set_st SEND_CONFIRMATION RECEIVE_MESSAGE k).
    destruct (list_eq_dec N.eq_dec (k_name k1) []) as [Z|Z].
    { rewrite (cb_enter_nil E k1 Z). split; [exact S|]. right. split; [exact L|exact O]. }
    rewrite (cb_enter_cons E k1 Z). unfold call, abort, go. cbv zeta. cbn [k_log k_name k_mode set_log set_st k1]. set (r := E _ _).
    assert (S1 : streams_ok ((SMkdir (k_name k) (k_mode k), r) :: k_log k)) by (apply streams_cons; [exact I|exact S]).
    destruct (negb (r =? 0)%Z && negb (r =? EEXIST)%Z); [split; [exact S1|left; split; [reflexivity|exact L]]|].
    cbn [k_log k_name set_log set_st k1]. set (r1 := E _ _).
    assert (S2 : streams_ok ((SLink (k_name k), r1) :: (SMkdir (k_name k) (k_mode k), r) :: k_log k)) by (apply streams_cons; [exact I|exact S1]).
    destruct (negb (r1 =? 0)%Z); [split; [exact S2|left; split; [reflexivity|exact L]]|].
    cbn [k_log k_name set_log set_st k1]. set (r2 := E _ _).
    assert (S3 : streams_ok ((SChdir (k_name k), r2) :: (SLink (k_name k), r1) :: (SMkdir (k_name k) (k_mode k), r) :: k_log k)) by (apply streams_cons; [exact I|exact S2]).
    destruct (r2 =? 0)%Z; [|split; [exact S3|left; split; [reflexivity|exact L]]].
    split; [exact S3|]. right. split; [exact L|exact O].
  - unfold cb_leave, call, abort, go. cbv zeta. cbn [k_log k_depth set_log set_st].
    destruct (k_depth k =? 0); [split; [exact S|left; split; [reflexivity|exact L]]|].
    cbn [k_log k_depth set_log set_st]. set (r := E _ _).
    assert (S1 : streams_ok ((SChdir [DOT; DOT], r) :: k_log k)) by (apply streams_cons; [exact I|exact S]).
    destruct (r =? 0)%Z; [|split; [exact S1|left; split; [reflexivity|exact L]]].
    split; [exact S1|]. right. split; [exact L|exact O].
Qed.

Lemma done_S : forall E k, streams_ok (k_log k) -> opened k ->
  streams_ok (k_log (cb_done E k)) /\ live (k_log (cb_done E k)) = None.
Proof.
  intros E k S (fp & F & L). unfold cb_done. rewrite F. cbv zeta.
  set (u := negb (k_mtime k =? 0) || negb (k_atime k =? 0)).
  assert (X : forall k1 ok, (ok, k1) = (if u then let (r, k1) := call E (SUtimes fp (k_mtime k) (k_atime k)) k in ((r =? 0)%Z, k1) else (true, k)) ->
    streams_ok (k_log k1) /\ live (k_log k1) = Some fp).
  { intros k1 ok. unfold call. cbv zeta. destruct u; intros Q; apply pair_equal_spec in Q; destruct Q as [_ ->].
    - split; [apply streams_cons; [exact L|exact S]|exact L].
    - auto. }
  destruct (if u then _ else _) as [ok k1]. destruct (X k1 ok eq_refl) as [S1 L1].
  unfold call. cbv zeta. destruct ok; (split; [apply streams_cons; [exact L1|exact S1]|reflexivity]).
Qed.

Lemma file_part_S : forall E d k, streams_ok (k_log k) -> opened k -> InvS (file_part E d k).
Proof.
  intros E d k S O. unfold file_part.
  assert (P : streams_ok (k_log (cb_part E d k)) /\ ((k_conf (cb_part E d k) = ABORT /\ live (k_log (cb_part E d k)) = None) \/ (k_conf (cb_part E d k) = CONTINUE /\ opened (cb_part E d k)))).
  { destruct O as (fp & F & L). unfold cb_part. rewrite F. destruct d as [|x d]; [split; [exact S|]; right; split; [reflexivity|exists fp; auto]|].
    set (w := x :: d). unfold call, go. cbv zeta. set (n := E _ _).
    assert (S1 : streams_ok ((SWrite fp w, n) :: k_log k)) by (apply streams_cons; [exact L|exact S]).
    destruct (n =? Z.of_N (lenN w))%Z; [split; [exact S1|]; right; split; [reflexivity|exists fp; auto]|].
    split; [apply streams_cons; [exact L|exact S1]|left; split; reflexivity]. }
  set (k1 := cb_part E d k) in *. clearbody k1. destruct P as (S1 & P). cbv zeta.
  set (k2 := set_off (add32 (k_off k1) (lenN d)) k1).
  destruct (k_conf k2) eqn:Q.
  - destruct P as [[P _]|[_ P]]; [unfold k2 in Q; cbn in Q; congruence|].
    destruct (k_off k2 <? k_size k2); [split; [exact S1|exact P]|].
    destruct (done_S E k2 S1 P) as (S3 & L3). split; [exact S3|]. right. split; [exact L3|reflexivity].
  - split; [exact S1|]. destruct P as [[_ P]|[P _]]; [left; split; [exact Q|exact P]|].
    unfold k2 in Q; cbn in Q; congruence.
Qed.

Theorem InvS_step : forall E e k k', InvS k -> sink_step E e k = Some k' -> InvS k'.
Proof.
  intros E e k k' HI H.
  assert (X : forall s : sink, Some s = Some k' -> k' = s) by (intros; congruence).
  destruct HI as (S & St). unfold sink_step in H. destruct (k_st k) eqn:Q.
  - apply X in H. subst. destruct St as (L & O). unfold cb_request, call, abort, go. cbv zeta. cbn [k_log k_base set_st]. set (r := E _ _).
    assert (S1 : streams_ok ((SChdir (k_base k), r) :: k_log k)) by (apply streams_cons; [exact I|exact S]).
    destruct (r =? 0)%Z; [|split; [exact S1|left; split; [reflexivity|exact L]]]. split; [exact S1|]. right. split; [exact L|exact O].
  - assert (Self : InvS k) by (split; [exact S|rewrite Q; exact St]).
    destruct (SCP_MSG_SZ - 1 <=? lenN (k_msg k)); [apply X in H; subst; exact Self|].
    destruct e; try (apply X in H; subst; exact Self).
    + destruct (_ <? _); [apply X in H; subst; exact Self|].
      destruct (_ =? _); [apply X in H; subst; apply dispatch_S; assumption|].
      cbv zeta in H. set (k1 := set_msg (k_msg k ++ d) (take_in d k)) in *.
      destruct (_ =? _).
      * unfold message in H. destruct (parse_msg _ k1) as [[ok k2]|] eqn:P; [|discriminate].
        apply parse_msg_kept in P. destruct P as (E1 & _ & _ & _ & E5 & _ & _ & E8 & _).
        change (k_st k1) with (k_st k) in E1. change (k_off k1) with (k_off k) in E5. change (k_log k1) with (k_log k) in E8.
        cbv zeta in H. apply X in H. subst k'.
        assert (S2 : streams_ok (k_log (set_msg [] k2))) by (cbn; rewrite E8; exact S).
        assert (Sh : shut (set_msg [] k2)) by (unfold shut; cbn; rewrite E8, E5; exact St).
        destruct ok; [apply dispatch_S; assumption|]. split; [exact S2|]. change (k_st (set_msg [] k2)) with (k_st k2). rewrite E1, Q. exact Sh.
      * apply X in H. rewrite H. split; [exact S|]. change (k_st k1) with (k_st k). rewrite Q. exact St.
    + apply X in H. subst. split; [exact S|]. cbn. apply St.
  - assert (Self : InvS k) by (split; [exact S|rewrite Q; exact St]).
    destruct e; try (apply X in H; subst; exact Self).
    cbv zeta in H. destruct (_ <? _); [apply X in H; subst; exact Self|].
    set (k1 := set_io (k_taken k) (k_out k ++ takeN n (confirmation k)) k) in *.
    assert (Self1 : InvS k1) by (split; [exact S|change (k_st k1) with (k_st k); rewrite Q; exact St]).
    change (k_conf k1) with (k_conf k) in H.
    destruct (k_conf k) eqn:Cf; [|apply X in H; subst; exact Self1].
    destruct (_ =? _); [|apply X in H; subst; exact Self1].
    apply X in H. subst. split; [exact S|]. cbn. destruct St as [[St _]|St]; [congruence|].
    destruct (k_next k); try contradiction; try exact St. apply St.
  - assert (Self : InvS k) by (split; [exact S|rewrite Q; exact St]).
    destruct e; try (apply X in H; subst; exact Self).
    + destruct (_ <? _); [apply X in H; subst; exact Self|]. cbv zeta in H.
      destruct (_ =? _); apply X in H; subst.
      * split; [exact S|]. cbn. exact St.
      * split; [exact S|]. change (k_st (take_in d k)) with (k_st k). rewrite Q. exact St.
    + apply X in H. subst. split; [exact S|]. cbn. exact St.
  - assert (Self : InvS k) by (split; [exact S|rewrite Q; exact St]).
    cbv zeta in H. destruct (_ =? _); [apply X in H; subst; apply file_part_S; assumption|].
    destruct e; try (apply X in H; subst; exact Self).
    destruct (_ <? _); [apply X in H; subst; exact Self|].
    apply X in H. subst. apply file_part_S; [exact S|exact St].
  - apply X in H. subst. split; [exact S|rewrite Q; exact St].
Qed.

Theorem InvS_run : forall E es k k', InvS k -> sink_run E es k = Some k' -> InvS k'.
Proof.
  intros E es. induction es as [|e es IH]; intros k k' HI H; cbn [sink_run] in H.
  - assert (k' = k) by congruence. subst. exact HI.
  - destruct (sink_step E e k) as [k1|] eqn:S; [|discriminate]. apply (IH k1); [|exact H].
    exact (InvS_step E e k k1 HI S).
Qed.

Lemma InvS_end : forall k, InvS k -> k_st k = SCP_DONE \/ (k_st k = SEND_CONFIRMATION /\ k_conf k = ABORT) -> live (k_log k) = None.
Proof.
  intros k (_ & H) [Q|[Q A]]; rewrite Q in H; [exact H|].
  destruct H as [[_ H]|H]; [exact H|]. destruct (k_next k); try contradiction; try apply H.
  destruct H as (_ & _ & H). congruence.
Qed.
