(* ScpProofs6.v - a whole upload (C60): every phase of the receiving machine
   with a sender that waits for the confirmations. *)
From Coq Require Import String.
From Verif Require Import Base PathModel WireProofs NegoSpec ScpModel ScpSpec ScpSpec2 ScpProofs ScpProofs2 ScpProofs3.
From Coq Require Import List NArith ZArith Bool Lia.
Import ListNotations.
Open Scope N_scope.

Ltac flds := cbn [k_st k_next k_type k_conf k_err k_base k_name k_cap k_rename k_msg k_mode k_size k_mtime k_atime k_off k_depth
  k_fp k_log k_taken k_out set_st set_type set_conf set_err set_base set_name set_msg set_mode set_size set_times set_off set_depth
  set_fp set_log set_io take_in abort go].

Lemma run_app : forall E a b k, sink_run E (a ++ b) k = match sink_run E a k with None => None | Some k1 => sink_run E b k1 end.
Proof.
  intros E a b. induction a as [|e a IH]; intros k; [reflexivity|]. cbn [app sink_run].
  destruct (sink_step E e k); [apply IH|reflexivity].
Qed.

Lemma last_app : forall (a : bytes) x, last (a ++ [x]) 0 = x.
Proof. intros. apply last_last. Qed.

Lemma last_in : forall a : bytes, a <> [] -> In (last a 0) a.
Proof. intros a H. destruct (exists_last H) as (b & x & ->). rewrite last_last. apply in_or_app. right. left. reflexivity. Qed.

(* A message in pieces. *)
Lemma reads_message : forall E m es, reads m es -> forall k t, k_st k = RECEIVE_MESSAGE ->
  k_msg k ++ m = t ++ [10] -> text_ok t ->
  sink_run E es k = message E (t ++ [10]) (set_msg (t ++ [10]) (set_io (k_taken k ++ m) (k_out k) k)).
Proof.
  intros E m es H. induction H as [d Nd Ld|d m es Nd Ld H IH|m es H IH]; intros k t St Ht (T1 & T2).
  - cbn [sink_run]. unfold sink_step. rewrite St.
    assert (L : lenN (k_msg k) + lenN d = lenN t + 1) by (rewrite <- lenN_app, Ht, lenN_app; reflexivity).
    assert (L1 : 1 <= lenN d) by (destruct d; [congruence|]; rewrite lenN_cons; lia).
    destruct (N.leb_spec (SCP_MSG_SZ - 1) (lenN (k_msg k))) as [Q|_]; [unfold SCP_MSG_SZ in Q; lia|].
    destruct (N.ltb_spec (SCP_MSG_SZ - lenN (k_msg k)) (lenN d)) as [Q|_]; [unfold SCP_MSG_SZ in Q; lia|].
    destruct (N.eqb_spec (lenN d) 0) as [Q|_]; [lia|]. cbv zeta. rewrite Ht, last_app. change (10 =? NEWLINE) with true. cbv iota.
    match goal with |- match ?a with _ => _ end = ?b => change a with b; destruct b; reflexivity end.
  - assert (Nm : m <> []) by (clear - H; induction H; [assumption|destruct d; [congruence|discriminate]|assumption]).
    cbn [sink_run]. unfold sink_step. rewrite St.
    assert (L : lenN (k_msg k) + lenN d + lenN m = lenN t + 1).
    { assert (Q : lenN (k_msg k ++ d ++ m) = lenN (t ++ [10])) by (rewrite Ht; reflexivity). rewrite !lenN_app in Q. change (lenN [10]) with 1 in Q. lia. }
    assert (L1 : 1 <= lenN d) by (destruct d; [congruence|]; rewrite lenN_cons; lia).
    assert (L2 : 1 <= lenN m) by (destruct m; [congruence|]; rewrite lenN_cons; lia).
    destruct (N.leb_spec (SCP_MSG_SZ - 1) (lenN (k_msg k))) as [Q|_]; [unfold SCP_MSG_SZ in Q; lia|].
    destruct (N.ltb_spec (SCP_MSG_SZ - lenN (k_msg k)) (lenN d)) as [Q|_]; [unfold SCP_MSG_SZ in Q; lia|].
    destruct (N.eqb_spec (lenN d) 0) as [Q|_]; [lia|]. cbv zeta.
    assert (Nl : last (k_msg k ++ d) 0 <> 10).
    { intros Q. apply T1. rewrite <- Q. destruct (exists_last Nm) as (m0 & x & X). subst m.
      assert (Et : t = k_msg k ++ d ++ m0).
      { rewrite !app_assoc in Ht. apply app_inj_tail in Ht. destruct Ht as [Ht _]. rewrite <- Ht. rewrite <- app_assoc. reflexivity. }
      rewrite Et, app_assoc. apply in_or_app. left. apply last_in. destruct (k_msg k); [exact Nd|discriminate]. }
    destruct (N.eqb_spec (last (k_msg k ++ d) 0) NEWLINE) as [Q|_]; [contradiction|].
    set (k1 := set_msg (k_msg k ++ d) (take_in d k)).
    rewrite (IH k1 t); [| exact St | change (k_msg k1) with (k_msg k ++ d); rewrite <- app_assoc; exact Ht | split; assumption].
    change (k_taken k1) with (k_taken k ++ d). rewrite <- app_assoc. reflexivity.
  - cbn [sink_run]. unfold sink_step at 1. rewrite St. destruct (_ <=? _); apply IH; (assumption || split; assumption).
Qed.

(* A positive confirmation. *)
Lemma acked_run : forall E es, acked es -> forall k, k_st k = SEND_CONFIRMATION -> k_conf k = CONTINUE ->
  sink_run E es k = Some (set_st (k_next k) (k_next k) (set_err None (set_io (k_taken k) (k_out k ++ [0]) k))).
Proof.
  intros E es H. induction H as [|es H IH|es H IH]; intros k St Cf; cbn [sink_run].
  - unfold sink_step. rewrite St. unfold confirmation. rewrite Cf. cbv zeta. change (lenN [0] <? 1) with false. cbv iota.
    cbn [k_conf set_io]. rewrite Cf. reflexivity.
  - unfold sink_step at 1. rewrite St. apply IH; assumption.
  - unfold sink_step at 1. rewrite St. unfold confirmation. rewrite Cf. cbv zeta. change (lenN [0] <? 0) with false. cbv iota.
    cbn [k_conf set_io]. rewrite Cf. change (0 =? lenN [0]) with false. cbv iota. change (takeN 0 [0]) with (@nil N).
    rewrite app_nil_r. rewrite IH by assumption. reflexivity.
Qed.

Lemma confirms_run : forall E es, confirms es -> forall k, k_st k = RECEIVE_CONFIRMATION ->
  sink_run E es k = Some (set_st RECEIVE_MESSAGE (k_next k) (set_io (k_taken k ++ [0]) (k_out k) k)).
Proof.
  intros E es H. induction H as [|es H IH]; intros k St; cbn [sink_run].
  - unfold sink_step. rewrite St. reflexivity.
  - unfold sink_step at 1. rewrite St. apply IH. exact St.
Qed.

(* ---------------------------------------------------------------- *)
(* Between messages: in the place [s], the first header still to be given the
   name [ren], the times [mt] and [at_] for the next file, the things [w] made. *)
Definition zeros (l : bytes) : Prop := Forall (fun b => b = 0) l.

Definition ren_ok (ren : option bytes) (k : sink) : Prop :=
  match ren with None => k_rename k = false | Some n => k_rename k = true /\ k_name k = n end.

Record Ready (s : list bytes) (ren : option bytes) (mt at_ : N) (w : list thing) (k : sink) : Prop := mkReady {
  r_st : k_st k = RECEIVE_MESSAGE;
  r_conf : k_conf k = CONTINUE;
  r_msg : k_msg k = [];
  r_off : k_off k = 0;
  r_depth : k_depth k = lenN s;
  r_mt : k_mtime k = mt; r_at : k_atime k = at_;
  r_ren : ren_ok ren k;
  r_log : replay (k_log k) = mkDisk (Some s) None w;
  r_out : zeros (k_out k) }.

(* about to confirm, then [nx] *)
Record Answer (nx : sstate) (s : list bytes) (ren : option bytes) (mt at_ : N) (w : list thing) (k : sink) : Prop := mkAnswer {
  a_st : k_st k = SEND_CONFIRMATION;
  a_next : k_next k = nx;
  a_conf : k_conf k = CONTINUE;
  a_msg : k_msg k = [];
  a_off : k_off k = 0;
  a_depth : k_depth k = lenN s;
  a_mt : k_mtime k = mt; a_at : k_atime k = at_;
  a_ren : ren_ok ren k;
  a_log : replay (k_log k) = mkDisk (Some s) None w;
  a_out : zeros (k_out k) }.

Lemma zeros_app : forall a, zeros a -> zeros (a ++ [0]).
Proof. intros a H. apply Forall_app. split; [exact H|]. repeat constructor. Qed.

Lemma answer_acked : forall E es s ren mt at_ w k, acked es -> Answer RECEIVE_MESSAGE s ren mt at_ w k ->
  exists k', sink_run E es k = Some k' /\ Ready s ren mt at_ w k'.
Proof.
  intros E es s ren mt at_ w k A [H1 H2 H3 H4 H5 H6 H7 H8 H9 H10 H11]. eexists. split; [apply (acked_run E es A k H1 H3)|].
  constructor; try assumption. apply zeros_app. exact H11.
Qed.

(* a message that was parsed *)
Lemma turn_run : forall E m es, turn m es -> text_ok m -> forall k, k_st k = RECEIVE_MESSAGE -> k_msg k = [] ->
  exists b tk, acked b /\
  forall k1, parse_msg (m ++ [0]) (set_msg (m ++ [10]) (set_io tk (k_out k) k)) = Some (true, k1) ->
    sink_run E es k = sink_run E b (dispatch E (set_msg [] k1)).
Proof.
  intros E m es [a b R A] T k St Mg. exists b, (k_taken k ++ m ++ [10]). split; [exact A|]. intros k1 P.
  rewrite run_app. rewrite (reads_message E _ a R k m St) by (rewrite ?Mg; (reflexivity || exact T)).
  unfold message. rewrite removelast_last. rewrite P. reflexivity.
Qed.

Definition new_name (ren : option bytes) (n : bytes) : bytes := match ren with Some x => x | None => n end.

Lemma header_parsed : forall t o ds n ren k, t = 67 \/ t = 68 -> header_ok t o ds n -> ren_ok ren k ->
  exists k1, parse_msg (header t o ds n ++ [0]) k = Some (true, k1) /\
    k_st k1 = k_st k /\ k_next k1 = k_next k /\ k_off k1 = k_off k /\ k_depth k1 = k_depth k /\ k_mtime k1 = k_mtime k /\ k_atime k1 = k_atime k /\
    k_log k1 = k_log k /\ k_out k1 = k_out k /\ k_fp k1 = k_fp k /\
    k_type k1 = (if t =? 67 then MSG_FILE else MSG_DIR) /\ k_mode k1 = N.land (value 8 o) 511 /\ k_size k1 = value 10 ds /\
    k_name k1 = new_name ren n /\ k_rename k1 = false.
Proof.
  intros t o ds n ren k T (O & D & V & (P & Z) & _) R.
  assert (Cz : cstr n = n).
  { clear - Z. induction n as [|c n IH]; [reflexivity|]. cbn [cstr]. destruct (N.eqb_spec c 0) as [->|_]; [destruct Z; left; reflexivity|].
    f_equal. apply IH. intros Q. apply Z. right. exact Q. }
  exists (after_header t (N.land (value 8 o) 511) (value 10 ds) n k). split.
  - unfold header. apply (parse_header_iff t _ k _ T). exists o, 32, ds, n. rewrite Cz.
    split; [reflexivity|]. split; [exact O|]. split; [exact D|]. split; [lia|]. split; [right; exact P|reflexivity].
  - unfold after_header, named, new_name. destruct ren as [x|]; cbn in R.
    + destruct R as [R1 R2]. rewrite R1. cbn. repeat (split; [assumption || reflexivity|]). reflexivity.
    + rewrite R. cbn. repeat (split; [assumption || reflexivity|]). reflexivity.
Qed.

(* ---------------------------------------------------------------- *)
(* A directory, and its end                                           *)

Lemma dir_run : forall E o ds n es s ren w k, kind E -> header_ok 68 o ds n -> plain (new_name ren n) ->
  lenN s + 1 < W32 -> turn (header 68 o ds n) es -> Ready s ren 0 0 w k ->
  exists k', sink_run E es k = Some k' /\
    Ready (new_name ren n :: s) None 0 0 (ADir s (new_name ren n) (N.land (value 8 o) 511) :: w) k'.
Proof.
  intros E o ds n es s ren w k KE HO Pn Ls T [H1 HC H2 H3 H4 H5 H6 H7 H8 H9].
  destruct (turn_run E _ es T ltac:(apply HO) k H1 H2) as (b & tk & A & G).
  set (k0 := set_msg (header 68 o ds n ++ [10]) (set_io tk (k_out k) k)) in *.
  destruct (header_parsed 68 o ds n ren k0 ltac:(auto) HO H7) as
    (k1 & P & P1 & P2 & P3 & P4 & P5 & P6 & P7 & P8 & _ & P9 & P10 & P11 & P12 & P13).
  rewrite (G k1 P). clear G P. apply answer_acked; [exact A|].
  set (nm := new_name ren n) in *.
  unfold dispatch. change (k_type (set_msg [] k1)) with (k_type k1). rewrite P9. cbv iota. change (68 =? 67) with false. cbv iota.
  set (k2 := set_st SEND_CONFIRMATION RECEIVE_MESSAGE (set_msg [] k1)).
  assert (N2 : k_name k2 <> []) by (change (k_name k2) with (k_name k1); rewrite P12; apply Pn).
  rewrite (cb_enter_cons E k2 N2). unfold call, go. cbv zeta. cbn [k_log k_name k_mode set_log].
  change (k_name k2) with (k_name k1). change (k_mode k2) with (k_mode k1). change (k_log k2) with (k_log k1).
  rewrite P12, P10, P7. change (k_log k0) with (k_log k).
  set (r0 := E (k_log k) (SMkdir nm _)). assert (R0 := KE (k_log k) (SMkdir nm (N.land (value 8 o) 511))). cbn in R0. fold r0 in R0.
  assert (B0 : negb (r0 =? 0)%Z && negb (r0 =? EEXIST)%Z = false) by (destruct R0 as [-> | ->]; reflexivity).
  rewrite B0. set (l1 := (SMkdir nm _, r0) :: k_log k).
  assert (R1 := KE l1 (SLink nm)). cbn in R1. rewrite R1. change (negb (0 =? 0)%Z) with false. cbv iota.
  cbn [k_log k_name set_log]. assert (R2 := KE ((SLink nm, 0%Z) :: l1) (SChdir nm)). cbn in R2. rewrite R2. change (0 =? 0)%Z with true. cbv iota.
  subst k2. constructor; try reflexivity; flds.
  - rewrite P3. exact H3.
  - rewrite P4. change (k_depth k0) with (k_depth k). rewrite H4, lenN_cons. unfold add32. rewrite w32_small by (unfold is32; lia). lia.
  - rewrite P5. exact H5.
  - rewrite P6. exact H6.
  - exact P13.
  - unfold l1. cbn [replay]. rewrite H8. cbn [d_here apply_call]. assert (Bm : (r0 =? 0)%Z || (r0 =? 17)%Z = true) by (destruct R0 as [-> | ->]; reflexivity).
    rewrite Bm. cbn. destruct (list_eq_dec N.eq_dec nm [46; 46]) as [Q|_]; [destruct Pn as (_ & _ & Pn & _); contradiction|]. reflexivity.
  - rewrite P8. exact H9.
Qed.

Lemma end_run : forall E es s x w k, kind E -> turn [69] es -> Ready (x :: s) None 0 0 w k -> lenN s + 1 < W32 ->
  exists k', sink_run E es k = Some k' /\ Ready s None 0 0 w k'.
Proof.
  intros E es s x w k KE T [H1 HC H2 H3 H4 H5 H6 H7 H8 H9] Ls.
  assert (TE : text_ok [69]) by (split; [intros [Q|[]]; discriminate|discriminate]).
  destruct (turn_run E _ es T TE k H1 H2) as (b & tk & A & G).
  set (k0 := set_msg ([69] ++ [10]) (set_io tk (k_out k) k)) in *.
  rewrite (G (set_type MSG_END_DIR k0) eq_refl). apply answer_acked; [exact A|].
  unfold dispatch. change (k_type (set_msg [] (set_type MSG_END_DIR k0))) with MSG_END_DIR. cbv iota.
  unfold cb_leave, call, go. cbv zeta. cbn [k_depth k_log set_st set_msg set_type set_io k0].
  destruct (N.eqb_spec (k_depth k) 0) as [Q|_]; [rewrite H4, lenN_cons in Q; lia|].
  assert (R := KE (k_log k) (SChdir [DOT; DOT])). cbn in R. rewrite R. change (0 =? 0)%Z with true. cbv iota.
  subst k0. constructor; try reflexivity; flds; try assumption.
  - rewrite H4, lenN_cons. lia.
  - cbn. rewrite H8. reflexivity.
Qed.

(* ---------------------------------------------------------------- *)
(* The times                                                          *)

Lemma times_run : forall E m a es s ren w k, digits m -> digits a -> value 10 m < 18446744073709551616 ->
  value 10 a < 18446744073709551616 -> text_ok (times_msg m a) ->
  turn (times_msg m a) es -> Ready s ren 0 0 w k ->
  exists k', sink_run E es k = Some k' /\ Ready s ren (value 10 m) (value 10 a) w k'.
Proof.
  intros E m a es s ren w k Dm Da Vm Va TE T [H1 HC H2 H3 H4 H5 H6 H7 H8 H9].
  destruct (turn_run E _ es T TE k H1 H2) as (b & tk & A & G).
  set (k0 := set_msg (times_msg m a ++ [10]) (set_io tk (k_out k) k)) in *.
  assert (P : parse_msg (times_msg m a ++ [0]) k0 = Some (true, set_times (value 10 m) (value 10 a) (set_type MSG_TIME k0))).
  { unfold times_msg. apply parse_time_iff. exists m, a, [48]. split; [reflexivity|]. split; [exact Dm|]. split; [exact Da|].
    unfold MAX64. split; [lia|]. split; [lia|reflexivity]. }
  rewrite (G _ P). apply answer_acked; [exact A|]. unfold dispatch. cbn [k_type set_msg set_times set_type].
  subst k0. constructor; try reflexivity; flds; assumption.
Qed.

(* ---------------------------------------------------------------- *)
(* A file                                                             *)

Record Filing (s : list bytes) (mt at_ : N) (w : list thing) (f : Z) (nm : bytes) (n : N) (got : bytes) (k : sink) : Prop := mkFiling {
  f_st : k_st k = RECEIVE_FILE;
  f_fp : k_fp k = Some f;
  f_size : k_size k = n;
  f_off : k_off k = lenN got;
  f_msg : k_msg k = [];
  f_depth : k_depth k = lenN s;
  f_mt : k_mtime k = mt; f_at : k_atime k = at_;
  f_ren : k_rename k = false;
  f_log : replay (k_log k) = mkDisk (Some s) (Some (f, nm, got, None)) w;
  f_out : zeros (k_out k) }.

Definition times_of (mt at_ : N) : option (N * N) := if (mt =? 0) && (at_ =? 0) then None else Some (mt, at_).

Lemma done_answer : forall E s mt at_ w f nm got k, kind E ->
  k_fp k = Some f -> k_msg k = [] -> k_depth k = lenN s -> k_mtime k = mt -> k_atime k = at_ -> k_rename k = false ->
  replay (k_log k) = mkDisk (Some s) (Some (f, nm, got, None)) w -> zeros (k_out k) ->
  Answer RECEIVE_CONFIRMATION s None 0 0 (AFile s nm got (times_of mt at_) :: w)
    (set_st SEND_CONFIRMATION RECEIVE_CONFIRMATION (set_times 0 0 (set_off 0 (cb_done E k)))).
Proof.
  intros E s mt at_ w f nm got k KE F M D Tm Ta R L O. unfold cb_done, times_of. rewrite F, Tm, Ta.
  destruct (N.eqb_spec mt 0) as [Zm|Zm]; destruct (N.eqb_spec at_ 0) as [Za|Za]; cbn [negb orb andb]; unfold call, go; cbv zeta;
    cbn [k_log set_log]; try (assert (Q := KE (k_log k) (SUtimes f mt at_)); cbn in Q; rewrite Q; change (0 =? 0)%Z with true; cbv iota);
    constructor; try reflexivity; flds; try assumption; cbn [replay]; rewrite L; cbn; rewrite ?Z.eqb_refl; cbn; rewrite ?Z.eqb_refl; reflexivity.
Qed.

Lemma part_run : forall E s mt at_ w f nm n got d k, kind E -> is32 n -> Filing s mt at_ w f nm n got k ->
  lenN (got ++ d) <= n -> lenN d <= 32768 -> (d <> [] \/ n = lenN got) ->
  let k' := file_part E d (take_in d k) in
  (lenN (got ++ d) < n /\ Filing s mt at_ w f nm n (got ++ d) k') \/
  (lenN (got ++ d) = n /\ Answer RECEIVE_CONFIRMATION s None 0 0 (AFile s nm (got ++ d) (times_of mt at_) :: w) k').
Proof.
  intros E s mt at_ w f nm n got d k KE Hn [H1 H2 H3 H4 H5 H6 H7 H8 H9 H10 H11] L Ld Nd. cbv zeta. unfold file_part.
  assert (P : exists l, cb_part E d (take_in d k) = set_conf CONTINUE (set_log l (take_in d k)) /\
    replay l = mkDisk (Some s) (Some (f, nm, got ++ d, None)) w).
  { unfold cb_part. change (k_fp (take_in d k)) with (k_fp k). rewrite H2. destruct d as [|x d].
    - exists (k_log k). rewrite app_nil_r. split; [reflexivity|exact H10].
    - unfold call, go. cbv zeta. change (k_log (take_in (x :: d) k)) with (k_log k).
      set (wr := x :: d). assert (Q := KE (k_log k) (SWrite f wr)). cbn -[lenN wr] in Q. rewrite Q.
      rewrite Z.eqb_refl. exists ((SWrite f wr, Z.of_N (lenN wr)) :: k_log k). split; [reflexivity|].
      cbn [replay]. rewrite H10. unfold apply_call. cbn [d_open d_here d_made]. rewrite Z.eqb_refl, N2Z.id, takeN_all by lia. reflexivity. }
  destruct P as (l & P & Lg). rewrite P. cbv zeta.
  cbn [k_conf k_off k_size set_off set_conf set_log take_in set_io].
  assert (O : add32 (k_off k) (lenN d) = lenN (got ++ d)).
  { rewrite H4. unfold add32. rewrite lenN_app in *. apply w32_small. unfold is32 in *. lia. }
  rewrite O, H3. destruct (N.ltb_spec (lenN (got ++ d)) n) as [Q|Q].
  - left. split; [exact Q|]. constructor; try reflexivity; flds; try assumption. 
  - right. assert (Q' : lenN (got ++ d) = n) by lia. split; [exact Q'|].
    apply (done_answer E s mt at_ w f nm (got ++ d)); try assumption; cbn; assumption.
Qed.

Lemma data_run_some : forall E c es, reads c es -> forall s mt at_ w f nm n got k, kind E -> is32 n -> Filing s mt at_ w f nm n got k ->
  lenN (got ++ c) = n ->
  exists k', sink_run E es k = Some k' /\ Answer RECEIVE_CONFIRMATION s None 0 0 (AFile s nm (got ++ c) (times_of mt at_) :: w) k'.
Proof.
  intros E c es R. induction R as [d Nd Ld|d m es Nd Ld R IH|m es R IH]; intros s mt at_ w f nm n got k KE Hn F L.
  - assert (L1 : 1 <= lenN d) by (destruct d; [congruence|]; rewrite lenN_cons; lia).
    cbn [sink_run]. unfold sink_step. rewrite (f_st _ _ _ _ _ _ _ _ _ F). cbv zeta.
    rewrite (f_size _ _ _ _ _ _ _ _ _ F), (f_off _ _ _ _ _ _ _ _ _ F).
    assert (S : sub32 n (lenN got) = lenN d).
    { rewrite lenN_app in L. unfold is32 in Hn. rewrite sub32_small by lia. lia. }
    rewrite S. unfold SCP_BUFFER_SZ. rewrite N.min_l by lia. destruct (N.eqb_spec (lenN d) 0) as [Q|_]; [lia|].
    destruct (N.ltb_spec (lenN d) (lenN d)) as [Q|_]; [lia|].
    destruct (part_run E s mt at_ w f nm n got d k KE Hn F) as [[Q _]|[_ Q]]; try lia; [auto|]. eexists. split; [reflexivity|exact Q].
  - assert (Nm : m <> []) by (clear - R; induction R; [assumption|destruct d; [congruence|discriminate]|assumption]).
    assert (L1 : 1 <= lenN d) by (destruct d; [congruence|]; rewrite lenN_cons; lia).
    assert (L2 : 1 <= lenN m) by (destruct m; [congruence|]; rewrite lenN_cons; lia).
    assert (L3 : lenN got + lenN d + lenN m = n) by (rewrite !lenN_app in L; lia).
    cbn [sink_run]. unfold sink_step. rewrite (f_st _ _ _ _ _ _ _ _ _ F). cbv zeta.
    rewrite (f_size _ _ _ _ _ _ _ _ _ F), (f_off _ _ _ _ _ _ _ _ _ F).
    assert (S : sub32 n (lenN got) = lenN d + lenN m).
    { unfold is32 in Hn. rewrite sub32_small by lia. lia. }
    rewrite S. unfold SCP_BUFFER_SZ. destruct (N.eqb_spec (N.min (lenN d + lenN m) 32768) 0) as [Q|_]; [lia|].
    destruct (N.ltb_spec (N.min (lenN d + lenN m) 32768) (lenN d)) as [Q|_]; [lia|].
    destruct (part_run E s mt at_ w f nm n got d k KE Hn F) as [[_ Q]|[Q _]]; try (rewrite lenN_app in *; lia); [auto|].
    rewrite app_assoc. apply (IH s mt at_ w f nm n); try assumption. rewrite <- app_assoc. exact L.
  - assert (Nm : m <> []) by (clear - R; induction R; [assumption|destruct d; [congruence|discriminate]|assumption]).
    assert (L2 : 1 <= lenN m) by (destruct m; [congruence|]; rewrite lenN_cons; lia).
    cbn [sink_run]. unfold sink_step at 1. rewrite (f_st _ _ _ _ _ _ _ _ _ F). cbv zeta.
    rewrite (f_size _ _ _ _ _ _ _ _ _ F), (f_off _ _ _ _ _ _ _ _ _ F).
    assert (S : sub32 n (lenN got) = lenN m).
    { rewrite lenN_app in L. unfold is32 in Hn. rewrite sub32_small by lia. lia. }
    rewrite S. unfold SCP_BUFFER_SZ. destruct (N.eqb_spec (N.min (lenN m) 32768) 0) as [Q|_]; [lia|].
    apply (IH s mt at_ w f nm n); assumption.
Qed.

Lemma data_run : forall E c es, data_turn c es -> forall s mt at_ w f nm k, kind E -> lenN c < 4294967296 ->
  Filing s mt at_ w f nm (lenN c) [] k ->
  exists k', sink_run E es k = Some k' /\ Answer RECEIVE_CONFIRMATION s None 0 0 (AFile s nm c (times_of mt at_) :: w) k'.
Proof.
  intros E c es [e|c' es' Nc R] s mt at_ w f nm k KE Lc F.
  - cbn [sink_run]. unfold sink_step. rewrite (f_st _ _ _ _ _ _ _ _ _ F). cbv zeta.
    rewrite (f_size _ _ _ _ _ _ _ _ _ F), (f_off _ _ _ _ _ _ _ _ _ F). change (lenN (@nil N)) with 0.
    change (N.min (sub32 0 0) SCP_BUFFER_SZ =? 0) with true. cbv iota.
    assert (T : exists k0, k = take_in [] k0 /\ Filing s mt at_ w f nm 0 [] k0).
    { exists k. split; [|exact F]. destruct k. unfold take_in, set_io. cbn. rewrite app_nil_r. reflexivity. }
    destruct T as (k0 & -> & F0).
    destruct (part_run E s mt at_ w f nm 0 [] [] k0 KE eq_refl F0) as [[Q _]|[_ Q]]; cbn [app] in *; change (lenN (@nil N)) with 0 in *; try lia; auto.
    eexists. split; [reflexivity|exact Q].
  - exact (data_run_some E c' es' R s mt at_ w f nm (lenN c') [] k KE Lc F eq_refl).
Qed.

Lemma file_run : forall E o ds n c es s ren mt at_ w k, kind E -> header_ok 67 o ds n -> value 10 ds = lenN c ->
  sends (IFile None o ds n c) es -> Ready s ren mt at_ w k ->
  exists k', sink_run E es k = Some k' /\ Ready s None 0 0 (AFile s (new_name ren n) c (times_of mt at_) :: w) k'.
Proof.
  intros E o ds n c es s ren mt at_ w k KE HO V Sn R.
  inversion Sn as [o' ds' n' c' h d a f T D A C| | |]; subst. destruct R as [H1 HC H2 H3 H4 H5 H6 H7 H8 H9].
  destruct (turn_run E _ h T ltac:(apply HO) k H1 H2) as (b & tk & B & G).
  set (k0 := set_msg (header 67 o ds n ++ [10]) (set_io tk (k_out k) k)) in *.
  destruct (header_parsed 67 o ds n ren k0 ltac:(auto) HO H7) as
    (k1 & P & P1 & P2 & P3 & P4 & P5 & P6 & P7 & P8 & _ & P9 & P10 & P11 & P12 & P13).
  rewrite run_app. rewrite (G k1 P). clear G P. set (nm := new_name ren n) in *.
  unfold dispatch. change (k_type (set_msg [] k1)) with (k_type k1). rewrite P9. cbv iota. change (67 =? 67) with true. cbv iota.
  set (k2 := set_st SEND_CONFIRMATION RECEIVE_FILE (set_msg [] k1)).
  unfold cb_file, call, go. cbv zeta. change (k_name k2) with (k_name k1). change (k_log k2) with (k_log k1).
  rewrite P12, P7. change (k_log k0) with (k_log k).
  assert (R1 := KE (k_log k) (SLink nm)). cbn in R1. rewrite R1. change (negb (0 =? 0)%Z) with false. cbv iota.
  cbn [k_log k_name set_log set_st set_msg k2]. rewrite P12.
  set (fp := E ((SLink nm, 0%Z) :: k_log k) (SOpen nm)). assert (R2 := KE ((SLink nm, 0%Z) :: k_log k) (SOpen nm)). cbn in R2. fold fp in R2.
  destruct (Z.ltb_spec fp 0) as [Q|_]; [lia|].
  set (k3 := set_conf CONTINUE _).
  rewrite (acked_run E b B k3 eq_refl eq_refl). change (k_next k3) with RECEIVE_FILE.
  set (k4 := set_st RECEIVE_FILE RECEIVE_FILE _).
  assert (F4 : Filing s mt at_ w fp nm (lenN c) [] k4).
  { subst k4 k3 k2. constructor; try reflexivity; flds.
    - rewrite P11. exact V.
    - rewrite P3. exact H3.
    - rewrite P4. exact H4.
    - rewrite P5. exact H5.
    - rewrite P6. exact H6.
    - exact P13.
    - cbn. rewrite H8. destruct (Z.leb_spec 0 fp) as [_|Q]; [reflexivity|lia].
    - rewrite P8. apply zeros_app. exact H9. }
  assert (Lc : lenN c < 4294967296) by (destruct HO as (_ & _ & HO & _); lia).
  rewrite run_app. destruct (data_run E c d D s mt at_ w fp nm k4 KE Lc F4) as (k5 & R5 & [A1 A2 A3 A4 A5 A6 A7 A8 A9 A10 A11]).
  rewrite R5. rewrite run_app. rewrite (acked_run E a A k5 A1 A3), A2.
  set (k6 := set_st RECEIVE_CONFIRMATION RECEIVE_CONFIRMATION _).
  rewrite (confirms_run E f C k6 eq_refl). eexists. split; [reflexivity|].
  subst k6. constructor; try reflexivity; flds; try assumption. apply zeros_app. exact A11.
Qed.

(* ---------------------------------------------------------------- *)
(* Everything                                                         *)

Definition renamed (ren : option bytes) (l : list item) : list item :=
  match ren with None => l | Some n => rename_first n l end.

Lemma items_run : forall E l es, sends_all l es -> forall s ren w k, kind E -> items_ok (Datatypes.length s) l ->
  (forall n, ren = Some n -> plain n /\ s = []) -> lenN s + lenN l < W32 -> Ready s ren 0 0 w k ->
  exists k' s' ren', sink_run E es k = Some k' /\ Ready s' ren' 0 0 (rev (placed s (renamed ren l)) ++ w) k'.
Proof.
  intros E l es H. induction H as [|i l a b S H IH]; intros s ren w k KE OK Rn Ls R.
  { exists k, s, ren. split; [reflexivity|]. destruct ren; exact R. }
  rewrite run_app. rewrite lenN_cons in Ls.
  assert (Pn : forall n, plain n -> plain (new_name ren n)).
  { intros n Hn. destruct ren as [x|]; [exact (proj1 (Rn x eq_refl))|exact Hn]. }
  destruct i as [t o ds n c|o ds n|]; cbn [items_ok] in OK.
  - destruct OK as (Ot & Oh & V & OK).
    assert (F : exists k', sink_run E a k = Some k' /\
      Ready s None 0 0 (AFile s (new_name ren n) c (match t with None => None | Some (m, x) => Some (value 10 m, value 10 x) end) :: w) k').
    { destruct t as [[m x]|].
      - inversion S as [|m' t' o' ds' n' c' h d T D| |]; subst. destruct Ot as (Dm & Dx & Vm & Vx & Nz & TE). rewrite run_app.
        destruct (times_run E m x h s ren w k Dm Dx Vm Vx TE T R) as (k1 & E1 & R1). rewrite E1.
        destruct (file_run E o ds n c d s ren _ _ w k1 KE Oh V D R1) as (k2 & E2 & R2). exists k2. split; [exact E2|].
        unfold times_of in R2. destruct (N.eqb_spec (value 10 m) 0) as [Q1|Q1]; destruct (N.eqb_spec (value 10 x) 0) as [Q2|Q2]; cbn [andb] in R2; try exact R2.
        destruct Nz; contradiction.
      - exact (file_run E o ds n c a s ren 0 0 w k KE Oh V S R). }
    destruct F as (k1 & E1 & R1). rewrite E1.
    destruct (IH s None _ k1 KE OK ltac:(discriminate) ltac:(lia) R1) as (k2 & s2 & r2 & E2 & R2).
    exists k2, s2, r2. split; [exact E2|]. unfold renamed in R2. destruct ren as [x|]; cbn [renamed rename_first placed new_name] in *;
      cbn [rev]; rewrite <- app_assoc; exact R2.
  - destruct OK as (Oh & OK). inversion S as [| |o' ds' n' h T|]; subst.
    destruct (dir_run E o ds n a s ren w k KE Oh ltac:(apply Pn; apply Oh) ltac:(lia) T R) as (k1 & E1 & R1). rewrite E1.
    destruct (IH (new_name ren n :: s) None _ k1 KE OK ltac:(discriminate) ltac:(rewrite lenN_cons; lia) R1) as (k2 & s2 & r2 & E2 & R2).
    exists k2, s2, r2. split; [exact E2|]. unfold renamed in R2. destruct ren as [x|]; cbn [renamed rename_first placed new_name] in *;
      cbn [rev]; rewrite <- app_assoc; exact R2.
  - destruct s as [|x s]; cbn [Datatypes.length] in OK; [contradiction|].
    inversion S as [| | |h T]; subst.
    destruct ren as [y|]; [destruct (Rn y eq_refl); discriminate|]. rewrite lenN_cons in Ls.
    destruct (end_run E a s x w k KE T R ltac:(lia)) as (k1 & E1 & R1). rewrite E1.
    destruct (IH s None _ k1 KE OK ltac:(discriminate) ltac:(lia) R1) as (k2 & s2 & r2 & E2 & R2).
    exists k2, s2, r2. split; [exact E2|]. exact R2.
Qed.
