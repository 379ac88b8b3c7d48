(* ScpTreeProofs2.v - a sender with the default callback over a fixed file tree
   (C63). *)
From Verif Require Import Base WireProofs PathModel PathSpec PathProofs ScpModel ScpSpec ScpSpec2 ScpSrcModel ScpSrcSpec ScpSrcProofs ScpSrcProofs2 ScpSrcProofs3 ScpTreeSpec ScpTreeProofs.
From Coq Require Import List NArith ZArith Bool Lia.
Import ListNotations.
Open Scope N_scope.

Section Download.
Context (E : csys) (base : bytes) (T : tree) (ts : bool) (its : list item).
Context (HT : has_tree E base T) (LW : named_well T) (LB : no_backslash T) (ST : short base T) (HB : base <> []).
Context (n0 : bytes) (LN : last_name base n0) (LI : listing ts n0 T its).
Context (rec : bool) (RT : match T with Dir _ _ _ _ => rec = true | File _ _ _ _ => rec = false end).

Notation Between := (Between base T ts its).
Notation InFile := (InFile base T ts its).
Notation Ended := (Ended ts its).
Notation B := (wsScpSend E).

Definition first_req : reqtype := if rec then RECURSIVE else SINGLE_FILE.
Definition is_in (ans : list answer) (c : sctx) : Prop := (rec = true <-> c_dirs c <> []) /\ exists got more, InFile got more ans c.
Definition over (ans : list answer) (c : sctx) : Prop := rec = true /\ Between ans c \/ rec = false /\ Ended ans c.

Definition Dst (s next : wstate) (req : reqtype) (hdr : bool) (ans : list answer) (c : sctx) : Prop :=
  match s with
  | SOURCE_BEGIN | SOURCE_INIT => req = first_req /\ ans = [] /\ c_dirs c = []
  | TRANSFER => (hdr = false /\ req = first_req /\ (ans = [] /\ c_dirs c = [] \/ rec = true /\ Between ans c)) \/
                (hdr = true /\ req = CONTINUE_FILE /\ is_in ans c)
  | SEND_ENTER_DIRECTORY | SEND_EXIT_DIRECTORY => hdr = false /\ req = first_req /\ rec = true /\ Between ans c
  | SEND_EXIT_DIRECTORY_FINAL | W_DONE => Ended ans c
  | SEND_TIMESTAMP | SEND_FILE_HEADER => is_in ans c \/ over ans c
  | SEND_FILE => hdr = true /\ (is_in ans c \/ over ans c)
  | W_CONFIRMATION_WITH_RECEIPT =>
      next = TRANSFER /\ hdr = false /\ req = first_req /\ rec = true /\ Between ans c \/ next = W_DONE /\ Ended ans c
  | _ => False
  end.
Definition D (w : source sctx) : Prop :=
  w_base w = base /\ w_rec w = rec /\ w_ts w = ts /\ (forall l a, w_ans w = l ++ [a] -> w_size w = a_size a) /\
  match w_st w with
  | W_RECEIVE_CONFIRMATION => Dst (w_next w) (w_next w) (w_req w) (w_hdr w) (w_ans w) (w_ctx w)
  | s => Dst s (w_next w) (w_req w) (w_hdr w) (w_ans w) (w_ctx w)
  end.


(* what the answers so far tell *)
Lemma story_fresh : forall e, fresh (story0 e). Proof. intros e. repeat split. Qed.
Lemma fresh_told : forall dn ans, offers_all ts dn ans -> forall s, fresh s -> fresh (fold_left (tell ts) ans s).
Proof.
  intros dn ans O. { induction O as [|i l a b Oi O IH]; intros s F; [exact F|]. rewrite fold_left_app. apply IH. destruct Oi as [t o ds a d c l0 R P Em Sz Lt Oc De T0|o a R Oc|a R].
    - assert (X : fresh (fold_left (tell ts) (a :: l0) s)).
      { destruct F as (F1 & F2 & F3). cbn [fold_left]. unfold tell at 2. rewrite R, F2, F3, F1, N.add_0_l. rewrite lenN_app in Sz.
        rewrite w32_small by (unfold is32, W32; lia). cbn [app]. destruct c as [|c0 ct].
        - rewrite (Em eq_refl). change (lenN (@nil N)) with 0 in Sz. rewrite (proj2 (N.leb_le _ _)) by lia. cbn [fold_left]. repeat split.
        - rewrite lenN_cons in Sz. rewrite (proj2 (N.leb_gt _ _)) by lia. refine (proj2 (parts_told ts (a_size a) (c0 :: ct) l0 P Lt _ _ _ _)).
          + reflexivity.
          + discriminate.
          + cbn [y_off]. rewrite lenN_cons. lia. }
      exact X.
    - destruct F as (F1 & F2 & F3). cbn [fold_left]. unfold tell. rewrite R. repeat split; assumption.
    - destruct F as (F1 & F2 & F3). cbn [fold_left]. unfold tell. destruct R as [R|R]; rewrite R; repeat split; assumption. }
Qed.
Lemma told_whole : forall dn ans e, offers_all ts dn ans -> y_file (told ts e ans) = false /\ y_off (told ts e ans) = 0.
Proof. intros dn ans e O. destruct (fresh_told dn ans O _ (story_fresh e)) as (_ & A & B0). auto. Qed.
Lemma between_told : forall e ans c, Between ans c -> y_file (told ts e ans) = false /\ y_off (told ts e ans) = 0.
Proof. intros e ans c (dn & rem & cs & _ & O & _). eapply told_whole. exact O. Qed.
Lemma ended_told : forall e ans c, Ended ans c -> y_file (told ts e ans) = false /\ y_off (told ts e ans) = 0.
Proof. intros e ans c (O & _). eapply told_whole. exact O. Qed.

Lemma infile_told : forall e got more ans c, InFile got more ans c -> y_file (told ts e ans) = true /\ y_off (told ts e ans) = lenN got.
Proof.
  intros e got more ans c (dn & fi & rem & ans1 & ans2 & cs & csf & n & f & h & Ei & O & Ea & P & Nm & L & _).
  unfold told. rewrite Ea, fold_left_app. apply (part_told ts n f ans2 got more P Nm).
  - destruct f; [|exact I]. inversion L; assumption.
  - apply (fresh_told dn ans1 O). apply story_fresh.
Qed.
Lemma infile_last : forall got more ans c, InFile got more ans c -> exists l a, ans = l ++ [a] /\ a_size a = lenN (got ++ more).
Proof.
  intros got more ans c (dn & fi & rem & ans1 & ans2 & cs & csf & n & f & h & Ei & O & Ea & P & Nm & L & _).
  destruct P as (b & l & d & c0 & m & mt & at_ & Ef & Eg & E2 & R & _ & _ & _ & _ & Sz & P). subst ans2 got.
  destruct l as [|x l _] using rev_ind.
  - exists ans1, b. split; [exact Ea|exact Sz].
  - exists (ans1 ++ b :: l), x. split; [rewrite Ea, <- app_assoc; reflexivity|]. rewrite <- Sz.
    assert (F : Forall (fun y => a_size y = a_size b) (l ++ [x])) by (clear - P; induction P; constructor; auto).
    apply Forall_app in F. destruct F as [_ F]. inversion F; assumption.
Qed.

(* what [say] and [hear] leave *)
Lemma say_cases : forall m e f (w w' : source sctx), say m e f w = Go w' -> w' = w \/ exists d, f (to_trace (Wrote d) w) = Go w'.
Proof.
  intros m e f w w' H. unfold say in H. destruct e; try discriminate H.
  - destruct (_ <? _); [left; congruence|]. cbv zeta in H. destruct (_ =? _); [right; eauto|discriminate H].
  - left. congruence.
Qed.
Lemma hear_cases : forall e s (w w' : source sctx), hear e s w = Go w' -> w' = w \/ exists d, w' = to_st s (w_next w) (to_trace (Heard d) w).
Proof.
  intros e s w w' H. unfold hear in H. destruct e; try discriminate H.
  - destruct (_ <? _); [left; congruence|]. destruct (_ =? _); [right|discriminate H]. apply (f_equal (fun r => match r with Go x => x | _ => w end)) in H; cbv beta iota in H; subst w'. eexists; reflexivity.
  - right. apply (f_equal (fun r => match r with Go x => x | _ => w end)) in H; cbv beta iota in H; subst w'. eexists; reflexivity.
  - left. congruence.
Qed.

Lemma D_trace : forall t w, D w -> D (to_trace t w). Proof. intros t w H. exact H. Qed.

(* the end of the buffer *)
Lemma after_D : forall w w', w_base w = base -> w_rec w = rec -> w_ts w = ts -> (forall l a, w_ans w = l ++ [a] -> w_size w = a_size a) ->
  w_hdr w = true -> is_in (w_ans w) (w_ctx w) \/ over (w_ans w) (w_ctx w) -> after_data w = Go w' -> Inv w' -> D w'.
Proof.
  intros w w' H1 H2 H3 H4 H5 H6 E1 I1. unfold after_data in E1. destruct (w_off w <? w_size w).
  - destruct (w_stall w); [discriminate E1|]. apply (f_equal (fun r => match r with Go x => x | _ => w end)) in E1. cbv beta iota in E1. subst w'.
    unfold Inv in I1. cbn [w_st to_st] in I1. destruct I1 as (_ & _ & _ & I1 & _). cbn [w_hdr w_ans w_ts w_first to_st to_req to_stall] in I1. rewrite H5, H3 in I1.
    split; [exact H1|]. split; [exact H2|]. split; [exact H3|]. split; [exact H4|]. right. split; [exact H5|]. split; [reflexivity|].
    destruct H6 as [H6|[[_ H6]|[_ H6]]]; [exact H6| |]; exfalso.
    + destruct (between_told (err_of (w_first w)) _ _ H6). congruence.
    + destruct (ended_told (err_of (w_first w)) _ _ H6). congruence.
  - assert (G : y_file (told ts (err_of (w_first w)) (w_ans w)) = false -> is_in (w_ans w) (w_ctx w) \/ over (w_ans w) (w_ctx w) -> over (w_ans w) (w_ctx w)).
    { intros F [(_ & g & mr & Q)|Q]; [|exact Q]. destruct (infile_told (err_of (w_first w)) _ _ _ _ Q). congruence. }
    assert (F : y_file (told ts (err_of (w_first w)) (w_ans w)) = false).
    { unfold Inv in I1. destruct (w_rec w); apply (f_equal (fun r => match r with Go x => x | _ => w end)) in E1; cbv beta iota in E1; subst w';
        cbn [w_st to_st] in I1; destruct I1 as (l & a & d & _ & I2 & I3 & I4 & _);
        cbn [w_hdr w_ans w_ts w_first to_st to_req to_stall to_times to_hdr to_data] in I2, I3, I4; rewrite I2;
        rewrite H3 in I4; rewrite told_snoc, (tell_data _ _ a d I3), (proj2 (N.leb_le _ _)) by exact I4; reflexivity. }
    specialize (G F H6). rewrite H2 in E1. destruct rec eqn:Er; apply (f_equal (fun r => match r with Go x => x | _ => w end)) in E1; cbv beta iota in E1; subst w'.
    + destruct G as [[_ G]|[Q _]]; [|congruence].
      split; [exact H1|]. split; [cbn; congruence|]. split; [exact H3|]. split; [exact H4|]. left. cbn. unfold first_req. rewrite Er. auto.
    + destruct G as [[Q _]|[_ G]]; [congruence|].
      split; [exact H1|]. split; [cbn; congruence|]. split; [exact H3|]. split; [exact H4|]. right. auto.
Qed.

(* what was answered can be completed *)
Definition Pre (ans : list answer) : Prop := exists rest, offers_all ts its (ans ++ rest).
Lemma offer_rest : forall dn rem ans, its = dn ++ rem -> offers_all ts dn ans -> Pre ans.
Proof.
  intros dn rem ans Ei O. pose proof (listing_offerable ts n0 T its LI) as F. rewrite Ei in F. apply Forall_app in F. destruct F as [_ F].
  destruct (offerable_all ts rem F) as (rest & R). exists rest. rewrite Ei. apply offers_all_app; assumption.
Qed.
Lemma start_pre : Pre [].
Proof. apply (offer_rest [] its []); [reflexivity|constructor]. Qed.
Lemma between_pre : forall ans c, Between ans c -> Pre ans.
Proof. intros ans c (dn & rem & cs & Ei & O & _). eapply offer_rest; eassumption. Qed.
Lemma infile_pre : forall got more ans c, InFile got more ans c -> Pre ans.
Proof.
  intros got more ans c (dn & fi & rem & ans1 & ans2 & cs & csf & n & f & h & Ei & O & Ea & P & Nm & L & _).
  set (a := mkAns (RData more) [] 0 0 0 (lenN (got ++ more)) None).
  assert (P2 : part_of_file n f (ans2 ++ [a]) (got ++ more) []) by (eapply part_more; eauto; rewrite app_nil_r; reflexivity).
  pose proof (part_whole ts n f _ _ fi P2 L) as O2.
  destruct (offer_rest (dn ++ fi) rem (ans1 ++ ans2 ++ [a])) as (rest & R).
  - rewrite <- app_assoc. exact Ei.
  - apply offers_all_app; assumption.
  - exists ([a] ++ rest). rewrite Ea. rewrite <- !app_assoc in *. exact R.
Qed.
Lemma ended_pre : forall ans c, Ended ans c -> Pre ans.
Proof. intros ans c (O & _). exists []. rewrite app_nil_r. exact O. Qed.
Lemma over_pre : forall ans c, is_in ans c \/ over ans c -> Pre ans.
Proof.
  intros ans c [(_ & g & m & H)|[[_ H]|[_ H]]]; [eapply infile_pre; exact H|eapply between_pre; exact H|eapply ended_pre; exact H].
Qed.
Lemma Dst_pre : forall s next req hdr ans c, Dst s next req hdr ans c -> Pre ans.
Proof.
  intros s next req hdr ans c H. destruct s; cbn [Dst] in H; try contradiction H.
  - destruct H as (_ & -> & _). apply start_pre.
  - destruct H as (_ & -> & _). apply start_pre.
  - destruct H as [(_ & _ & _ & _ & H)|[_ H]]; [eapply between_pre; exact H|eapply ended_pre; exact H].
  - destruct H as [(_ & _ & [[-> _]|[_ H]])|(_ & _ & H)]; [apply start_pre|eapply between_pre; exact H|eapply over_pre; left; exact H].
  - eapply over_pre; exact H.
  - destruct H as (_ & _ & _ & H). eapply between_pre; exact H.
  - destruct H as (_ & _ & _ & H). eapply between_pre; exact H.
  - eapply ended_pre; exact H.
  - eapply over_pre; exact H.
  - destruct H as [_ H]. eapply over_pre; exact H.
  - eapply ended_pre; exact H.
Qed.
Lemma D_pre : forall w, D w -> Pre (w_ans w).
Proof. intros w (_ & _ & _ & _ & H). destruct (w_st w); eapply Dst_pre; exact H. Qed.

(* asking the callback *)
Lemma size_snoc : forall (w : source sctx) a c l b, w_ans (to_answer a c w) = l ++ [b] -> w_size (to_answer a c w) = a_size b.
Proof. intros w a c l b H. cbn [w_ans to_answer] in H. apply app_inj_tail in H. destruct H as [_ <-]. reflexivity. Qed.

Lemma transfer_D : forall e w, w_st w = TRANSFER -> Inv w -> D w -> exists w', source_step B e w = Go w' /\ D w'.
Proof.
  intros e w S I0 (H1 & H2 & H3 & H4 & H5). unfold Inv in I0. rewrite S in I0, H5. cbn [At] in I0. cbn [Dst] in H5.
  destruct I0 as (_ & _ & I2 & _ & I4 & _).
  set (q := ask w (w_req w)). assert (Rm : 0 < q_room q) by (unfold q, ask; cbn [q_room]; rewrite I2; reflexivity).
  assert (Qb : q_base q = base) by exact H1.
  (* a part of a file was answered *)
  assert (Data : forall a c d, cb_ask B (w_ctx w) q = (a, c) -> a_ret a = RData d -> w_hdr w = true \/ w_hdr w = false ->
            is_in (w_ans w ++ [a]) c \/ over (w_ans w ++ [a]) c -> exists w', source_step B e w = Go w' /\ D w').
  { intros a c d Ea Ra _ Ph. unfold source_step. rewrite S. fold q. rewrite Ea, Ra. eexists. split; [reflexivity|].
    split; [exact H1|]. split; [exact H2|]. split; [exact H3|]. split; [intros l b; apply (size_snoc w a c)|].
    cbn [w_st to_st]. cbn [w_hdr to_conf to_data to_answer]. destruct (w_hdr w) eqn:Hd; [|cbn [w_ts to_conf to_data to_answer]; destruct (w_ts w)].
    - cbn. split; [exact Hd|exact Ph].
    - exact Ph.
    - exact Ph. }
  destruct H5 as [(Hd & Hq & [[Ha Hc]|[Hr Hb]])|(Hd & Hq & Hi)].
  - (* the first time *)
    destruct T as [m mt at_ content|m mt at_ es] eqn:Et; cbn in RT.
    + assert (Lk := LI). destruct (single_ok E base T ts its ltac:(rewrite Et; exact HT) ltac:(rewrite Et; exact ST) HB n0 LN m mt at_ content (w_ctx w) q Et ltac:(rewrite Et; exact LI) Hc Qb Rm)
        as (x & c' & E1 & (d & Rd) & Dc & Mv).
      assert (Ea : cb_ask B (w_ctx w) q = (x, c')).
      { cbn [cb_ask wsScpSend]. unfold q at 1, ask. cbn [q_type]. rewrite Hq. unfold first_req. rewrite RT. exact E1. }
      apply (Data x c' d Ea Rd); [auto|]. rewrite Ha. cbn [app]. destruct Mv as [[_ Mv]|[[Q _]|[_ Mv]]]; [|congruence|].
      * left. split; [|exact Mv]. rewrite RT, Dc. split; [discriminate|congruence].
      * right. right. split; [exact RT|exact Mv].
    + destruct (first_ok E base T ts its ltac:(rewrite Et; exact HT) ltac:(rewrite Et; exact ST) HB n0 LN m mt at_ es (w_ctx w) q Et ltac:(rewrite Et; exact LI) Hc Qb)
        as (x & c' & E1 & Rx & Mv).
      assert (Ea : cb_ask B (w_ctx w) q = (x, c')).
      { cbn [cb_ask wsScpSend]. unfold q at 1, ask. cbn [q_type]. rewrite Hq. unfold first_req. rewrite RT. exact E1. }
      unfold source_step. rewrite S. fold q. rewrite Ea, Rx. eexists. split; [reflexivity|].
      split; [exact H1|]. split; [exact H2|]. split; [exact H3|]. split; [intros l b; apply (size_snoc w x c')|].
      cbn. rewrite Ha. cbn [app]. auto.
  - (* the next thing in a directory *)
    destruct (recursive_ok E base T ts its HT LW LB ST HB (w_ans w) (w_ctx w) q Hb Rm) as (x & c' & E1 & Mv).
    assert (Ea : cb_ask B (w_ctx w) q = (x, c')).
    { cbn [cb_ask wsScpSend]. unfold q at 1, ask. cbn [q_type]. rewrite Hq. unfold first_req. rewrite Hr. exact E1. }
    destruct Mv as [([Rx|Rx] & Mv)|[((d & Rx) & Mv)|(Rx & Mv)]].
    + unfold source_step. rewrite S. fold q. rewrite Ea, Rx. eexists. split; [reflexivity|].
      split; [exact H1|]. split; [exact H2|]. split; [exact H3|]. split; [intros l b; apply (size_snoc w x c')|]. cbn. auto.
    + unfold source_step. rewrite S. fold q. rewrite Ea, Rx. eexists. split; [reflexivity|].
      split; [exact H1|]. split; [exact H2|]. split; [exact H3|]. split; [intros l b; apply (size_snoc w x c')|]. cbn. auto.
    + apply (Data x c' d Ea Rx); [auto|]. destruct Mv as [[Nd Mv]|Mv].
      * left. split; [split; auto|exact Mv].
      * right. left. auto.
    + unfold source_step. rewrite S. fold q. rewrite Ea, Rx. eexists. split; [reflexivity|].
      split; [exact H1|]. split; [exact H2|]. split; [exact H3|]. split; [intros l b; apply (size_snoc w x c')|]. cbn. auto.
  - (* the next part of a file *)
    destruct Hi as (Rd & g & mr & Hi). destruct (infile_told (err_of (w_first w)) _ _ _ _ Hi) as [_ To].
    destruct (infile_last _ _ _ _ Hi) as (l & a & El & Sl).
    destruct (continue_ok E base T ts its HT g mr (w_ans w) (w_ctx w) q Hi) as (x & c' & E1 & (d & Rx) & Mv).
    + unfold q, ask. cbn [q_off]. rewrite I4, H3. exact To.
    + unfold q, ask. cbn [q_size]. rewrite (H4 l a El). exact Sl.
    + exact Rm.
    + assert (Ea : cb_ask B (w_ctx w) q = (x, c')).
      { cbn [cb_ask wsScpSend]. unfold q at 1, ask. cbn [q_type]. rewrite Hq. exact E1. }
      apply (Data x c' d Ea Rx); [auto|]. destruct Mv as [[Nd Mv]|[[Nd Mv]|[Nd Mv]]].
      * left. split; [rewrite Nd; exact Rd|exact Mv].
      * right. left. split; [apply Rd; exact Nd|exact Mv].
      * right. right. split; [|exact Mv]. destruct rec; [|reflexivity]. exfalso. apply (proj1 Rd eq_refl). exact Nd.
Qed.

Definition going (r : wres (C:=sctx)) : Prop := match r with Go w => D w | Stop w => Pre (w_ans w) | Undef => True end.

Lemma say_going : forall m e f w, D w -> (forall d, going (f (to_trace (Wrote d) w))) -> going (say m e f w).
Proof.
  intros m e f w Dw F. unfold say. destruct e; try exact (D_pre w Dw); [|exact Dw]. destruct (_ <? _); [exact Dw|]. cbv zeta.
  destruct (_ =? _); [apply F|exact (D_pre w Dw)].
Qed.
Lemma hear_going : forall e s w, D w -> D (to_st s (w_next w) w) -> going (hear e s w).
Proof.
  intros e s w Dw F. unfold hear. destruct e; try exact (D_pre w Dw); [|exact F|exact Dw]. destruct (_ <? _); [exact Dw|].
  destruct (_ =? _); [exact F|exact (D_pre w Dw)].
Qed.

Lemma step_going : forall e w, Inv w -> D w -> going (source_step B e w).
Proof.
  intros e w I0 Dw. pose proof (step_good B e w I0) as G. pose proof (D_pre w Dw) as Pw.
  pose proof Dw as (H1 & H2 & H3 & H4 & H5). unfold source_step in *. destruct (w_st w) eqn:S; cbn [Dst] in H5; try contradiction H5.
  - cbn [cb_ask wsScpSend q_type give a_ret]. split; [exact H1|]. split; [exact H2|]. split; [exact H3|]. split; [exact H4|exact H5].
  - split; [exact H1|]. split; [exact H2|]. split; [exact H3|]. split; [exact H4|]. cbn. left. destruct H5 as (A & B0 & C0). auto.
  - unfold say_confirm. apply say_going; [exact Dw|]. intros d. destruct (w_conf _); [|exact Pw].
    split; [exact H1|]. split; [exact H2|]. split; [exact H3|]. split; [exact H4|]. cbn [w_st to_st]. cbn [w_next w_req w_hdr w_ans w_ctx to_st to_conf to_trace].
    destruct H5 as [(N1 & A & B0 & C0 & X)|[N1 X]]; rewrite N1; cbn [Dst]; [|exact X]. left. split; [exact A|]. split; [exact B0|]. right. split; [exact C0|exact X].
  - apply hear_going; [exact Dw|]. split; [exact H1|]. split; [exact H2|]. split; [exact H3|]. split; [exact H4|]. cbn [w_st to_st w_next w_req w_hdr w_ans w_ctx].
    destruct (w_next w); exact H5.
  - destruct (transfer_D e w S I0 Dw) as (w' & E1 & D1). unfold source_step in E1. rewrite S in E1. rewrite E1. exact D1.
  - apply say_going; [exact Dw|]. intros d. split; [exact H1|]. split; [exact H2|]. split; [exact H3|]. split; [exact H4|exact H5].
  - apply say_going; [exact Dw|]. intros d. split; [exact H1|]. split; [exact H2|]. split; [exact H3|]. split; [exact H4|]. left. destruct H5 as (A & B0 & C0 & X). auto.
  - apply say_going; [exact Dw|]. intros d. split; [exact H1|]. split; [exact H2|]. split; [exact H3|]. split; [exact H4|]. left. destruct H5 as (A & B0 & C0 & X). auto.
  - apply say_going; [exact Dw|]. intros d. split; [exact H1|]. split; [exact H2|]. split; [exact H3|]. split; [exact H4|exact H5].
  - apply say_going; [exact Dw|]. intros d. split; [exact H1|]. split; [exact H2|]. split; [exact H3|]. split; [exact H4|]. split; [reflexivity|exact H5].
  - assert (A : forall w1, w_base w1 = w_base w -> w_rec w1 = w_rec w -> w_ts w1 = w_ts w -> w_ans w1 = w_ans w -> w_size w1 = w_size w -> w_hdr w1 = w_hdr w ->
      w_ctx w1 = w_ctx w -> good (after_data w1) -> going (after_data w1)).
    { intros w1 A1 A2 A3 A4 A5 A6 A7 G1. destruct (after_data w1) as [w'|w'|] eqn:Ea; [| |exact I].
      - apply (after_D w1 w').
        + congruence.
        + congruence.
        + congruence.
        + rewrite A4, A5. exact H4.
        + rewrite A6. apply H5.
        + rewrite A4, A7. apply H5.
        + exact Ea.
        + exact G1.
      - assert (Q : w' = w1) by (unfold after_data in Ea; destruct (_ <? _); [destruct (w_stall w1); congruence|destruct (w_rec w1); discriminate Ea]).
        rewrite Q. cbn [going]. rewrite A4. exact Pw. }
    destruct (w_buf w) as [|b t]; [apply A; auto|]. destruct e; try exact Dw; try (destruct (cb_broken B _); [exact Pw|exact I]).
    destruct (_ <? _); [exact Dw|]. cbv zeta in *. destruct (0 <? n); cbn [w_buf to_stall to_data to_trace] in *;
      (destruct (dropN n (b :: t)); [apply A; auto|]; (split; [exact H1|]; split; [exact H2|]; split; [exact H3|]; split; [exact H4|]; cbn; rewrite S; exact H5)).
  - exact Dw.
Qed.

Lemma run_going : forall es w, Inv w -> D w -> going (source_run B es w).
Proof.
  induction es as [|e t IH]; intros w I0 Dw; cbn [source_run]; [exact Dw|].
  pose proof (step_good B e w I0) as G. pose proof (step_going e w I0 Dw) as G2. destruct (source_step B e w); auto.
Qed.
Lemma start_D : D (source0 base rec ts ctx0).
Proof.
  unfold D, source0. cbn. repeat split. intros l a H. destruct l; discriminate H.
Qed.

Lemma first_answer : forall es w, came (source_run B es (source0 base rec ts ctx0)) w -> match w_first w with Some a => a_ret a = RData [] | None => True end.
Proof.
  assert (K : forall e w, match w_first w with Some a => a_ret a = RData [] | None => True end ->
     match source_step B e w with Go w' | Stop w' => match w_first w' with Some a => a_ret a = RData [] | None => True end | Undef => True end).
  { intros e w H. unfold source_step. destruct (w_st w); try exact H.
    all: try (unfold hear; destruct e; try exact H; destruct (_ <? _); try exact H; destruct (_ =? _); exact H).
    all: try (unfold say; destruct e; try exact H; destruct (_ <? _); try exact H; cbv zeta; destruct (_ =? _); exact H).
    all: try (unfold say_confirm, say; destruct e; try exact H; destruct (_ <? _); try exact H; cbv zeta; destruct (_ =? _); try exact H; destruct (w_conf _); exact H).
    - cbn. reflexivity.
    - destruct (cb_ask B _ _) as [a c]. cbv zeta. destruct (a_ret a); exact H.
    - assert (A : forall w1 : source sctx, w_first w1 = w_first w -> match after_data w1 with Go w' | Stop w' => match w_first w' with Some a => a_ret a = RData [] | None => True end | Undef => True end).
      { intros w1 A1. rewrite <- A1 in H. unfold after_data. destruct (_ <? _); [destruct (w_stall w1); exact H|]. destruct (w_rec w1); exact H. }
      destruct (w_buf w) as [|b t]; [apply A; reflexivity|]. destruct e; try exact H; try (destruct (cb_broken B _); [exact H|exact I]).
      destruct (_ <? _); [exact H|]. cbv zeta. destruct (0 <? n); cbn [w_buf to_stall to_data to_trace]; (destruct (dropN n (b :: t)); [apply A; reflexivity|exact H]). }
  assert (R : forall es w, match w_first w with Some a => a_ret a = RData [] | None => True end ->
     match source_run B es w with Go w' | Stop w' => match w_first w' with Some a => a_ret a = RData [] | None => True end | Undef => True end).
  { induction es as [|e t IH]; intros w H; cbn [source_run]; [exact H|]. specialize (K e w H). destruct (source_step B e w); [apply IH; exact K|exact K|exact I]. }
  intros es w [H|H]; specialize (R es (source0 base rec ts ctx0) I); rewrite H in R; exact R.
Qed.

Theorem download : forall es w, came (source_run B es (source0 base rec ts ctx0)) w -> Forall fits its ->
  so_far (turns_of (w_trace w)) ([] :: flat_map item_turns its ++ [[]]) /\
  (source_run B es (source0 base rec ts ctx0) = Go w -> w_st w = W_DONE -> turns_of (w_trace w) = [] :: flat_map item_turns its ++ [[]]).
Proof.
  intros es w H F. pose proof (run_going es _ (start_good _ base rec ts ctx0) start_D) as G.
  assert (P : Pre (w_ans w)) by (destruct H as [H|H]; rewrite H in G; [apply D_pre; exact G|exact G]).
  pose proof (run_turns _ B es base rec ts ctx0 w H) as Tn. pose proof (first_answer es w H) as Fa.
  destruct P as (rest & P).
  assert (N : exists f, is_normal (Some f) /\ forall l, to_say ts (w_first w) l = to_say ts (Some f) l).
  { destruct (w_first w) as [f|].
    - exists f. split; [|reflexivity]. exists f. repeat split; congruence.
    - exists (mkAns RComplete [] 0 0 0 0 None). split; [|reflexivity]. eexists. repeat split; discriminate. }
  destruct N as (f & N & Ef). rewrite Ef in Tn. split.
  - eapply so_far_trans; [exact Tn|]. eapply to_say_part; eassumption.
  - intros Hg Hd. rewrite (run_done _ B es base rec ts ctx0 w Hg Hd), Ef. rewrite Hg in G. destruct G as (_ & _ & _ & _ & G). rewrite Hd in G. destruct G as [G _].
    apply to_say_items; assumption.
Qed.
End Download.
