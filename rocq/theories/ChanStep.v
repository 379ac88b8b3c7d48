(* ChanStep.v - the remaining steps, and the invariant over all runs. *)
From Verif Require Import Base BufModel BufSpec BufProofs WireModel WireSpec WireProofs
  NameTable NegoModel ChanModel ChanSpec ChanProofs ChanInv.
From Coq Require Import List NArith Bool Lia.
From Coq Require Import ZifyBool ZifyNat ZifyN.
Import ListNotations.
Open Scope N_scope.

(* a step that keeps the invariant, whatever the transport did *)
Definition keepsP (P : N -> Prop) (s s' : cs) : Prop :=
  growsP P s s' /\ forall cl h, Inv cl h s -> Inv cl h s'.
Definition keeps : cs -> cs -> Prop := keepsP (fun _ => False).
Lemma keepsP_trans : forall P a b c, keepsP P a b -> keepsP P b c -> keepsP P a c.
Proof. intros P a b c [H1 H2] [H3 H4]. split; [eapply growsP_trans; eassumption | auto]. Qed.
Lemma keeps_P : forall P s s', keeps s s' -> keepsP P s s'.
Proof. intros P s s' [H1 H2]. split; [eapply growsP_weaken; [exact H1 | intros x []] | assumption]. Qed.
Ltac nocp := solve [repeat constructor | eapply credit_nocopy; eassumption
  | constructor; [exact I | eapply credit_nocopy; eassumption]].
Lemma keeps_refl : forall s, keeps s s.
Proof. intros s; split; [apply grows_refl | auto]. Qed.
Lemma keeps_trans : forall a b c, keeps a b -> keeps b c -> keeps a c.
Proof. intros a b c. apply keepsP_trans. Qed.
Lemma keeps_quiet : forall s s', quietly s s' -> keeps s s'.
Proof.
  intros s s' H. split; [apply grows_quiet; assumption|].
  intros cl h Hi. eapply Inv_quiet; eassumption.
Qed.
Lemma keeps_touch : forall s id c c' es s', touch s id c c' es s' ->
  (forall cl h, CI cl h (view_of id (s_log s)) c -> CI cl h (fold_left vstep es (view_of id (s_log s))) c') ->
  Forall nocopy es -> keeps s s'.
Proof.
  intros s id c c' es s' T H Hn. split; [eapply grows_touch; eassumption|].
  intros cl h Hi. eapply Inv_touch; [exact Hi | exact T | apply H].
Qed.

(* ------------------------------------------------------------------ *)
(* Plain messages                                                       *)

Lemma find_peer_self : forall p l c, find_peer p l = Some c -> NoDup (map c_id l) ->
  find_self (c_id c) l = Some c.
Proof.
  intros p l c H Hn. apply find_self_in; [assumption|].
  unfold find_peer in H. apply find_some in H. tauto.
Qed.

Lemma plain_eof : forall p, plain_msg ([MSGID_CHANNEL_EOF] ++ p).
Proof. intros p; apply plain_head; discriminate. Qed.
Lemma plain_close : forall p, plain_msg ([MSGID_CHANNEL_CLOSE] ++ p).
Proof. intros p; apply plain_head; discriminate. Qed.
Lemma plain_conf : forall p, plain_msg ([MSGID_CHANNEL_OPEN_CONF] ++ p).
Proof. intros p; apply plain_head; discriminate. Qed.
Lemma plain_open : forall p, plain_msg ([MSGID_CHANNEL_OPEN] ++ p).
Proof. intros p; apply plain_head; discriminate. Qed.
Lemma plain_fail : forall p, plain_msg ([MSGID_CHANNEL_OPEN_FAIL] ++ p).
Proof. intros p; apply plain_head; discriminate. Qed.

(* a plain message about any number, live or not *)
Lemma bundle_keeps : forall id m a s r s', bundle id m a s = (r, s') -> plain_msg m -> keeps s s'.
Proof.
  intros id m a s r s' H Hp. destruct (bundle_cases _ _ _ _ _ _ H) as [[-> ->]|[_ Hq]].
  2: apply keeps_quiet; assumption.
  split; [eexists; split; [reflexivity|]; split; [nocp | left; assumption]|].
  intros cl h (H1 & H2 & H3 & H4 & H5). unfold Inv. cbn [log set_out set_q s_list s_log s_next s_ctxwin].
  split; [assumption|]. split; [|split; [assumption|split; [assumption|]]].
  - eapply Forall_impl; [|exact H2]. intros c [Hc1 Hc2]. split; [assumption|].
    rewrite view_snoc. cbn [ev_id]. destruct (id =? c_id c); [|assumption].
    rewrite vstep_plain by assumption. assumption.
  - constructor; [assumption | apply plain_good; assumption].
Qed.
Lemma send_msg_keeps : forall id m a s r s', send_msg id m a s = (r, s') -> plain_msg m -> keeps s s'.
Proof.
  intros id m a s r s' H Hp. unfold send_msg in H. destruct (bundle id m a s) as [r1 s1] eqn:E.
  pose proof (bundle_keeps _ _ _ _ _ _ E Hp) as K.
  destruct (rc_eq_dec r1 WS_SUCCESS) as [->|Hne].
  - eapply keeps_trans; [exact K|]. apply keeps_quiet. eapply flush_quiet; exact H.
  - assert (s' = s1) by (destruct r1; congruence). subst. assumption.
Qed.

Lemma send_msg_list : forall id m a s r s', send_msg id m a s = (r, s') -> s_list s' = s_list s.
Proof.
  intros id m a s r s' H. unfold send_msg in H. destruct (bundle id m a s) as [r1 s1] eqn:E.
  assert (Hl : s_list s1 = s_list s).
  { destruct (bundle_cases _ _ _ _ _ _ E) as [[-> ->]|[_ Hq]]; [reflexivity | apply Hq]. }
  destruct (rc_eq_dec r1 WS_SUCCESS) as [->|Hne].
  - rewrite (q_list _ _ (flush_quiet _ _ _ _ H)). assumption.
  - assert (s' = s1) by (destruct r1; congruence). subst. assumption.
Qed.

(* changing only flags of a channel *)
Lemma on_chan_keeps : forall id f s, (forall c, c_id (f c) = c_id c) -> (forall c, same_inv c (f c)) ->
  keeps s (on_chan id f s).
Proof.
  intros id f s Hid Hs. destruct (find_self id (s_list s)) as [c|] eqn:Hf.
  - eapply keeps_touch with (c := c) (c' := f c) (es := []) (id := id).
    + apply touch_on; [assumption| |reflexivity]. rewrite Hid. apply find_self_some in Hf. tauto.
    + intros cl h. cbn [fold_left]. apply CI_same. apply Hs.
    + constructor.
  - apply keeps_quiet. constructor; try reflexivity. cbn. clear - Hf.
    unfold find_self in Hf. induction (s_list s) as [|a l IH]; [reflexivity|].
    cbn [find] in Hf. cbn [upd]. destruct (c_id a =? id); [discriminate|]. f_equal. auto.
Qed.

Lemma eof_keeps : forall p a s r s', SendChannelEof p a s = (r, s') -> keeps s s'.
Proof.
  intros p a s r s' H. unfold SendChannelEof in H.
  destruct (negb (s_up s)); [injection H as <- <-; apply keeps_refl|].
  destruct (find_peer p (s_list s)) as [c|] eqn:Hp; [|injection H as <- <-; apply keeps_refl].
  destruct (c_eofTx c); [injection H as <- <-; apply keeps_refl|].
  destruct (send_msg _ _ a s) as [r1 s1] eqn:E.
  pose proof (send_msg_keeps _ _ _ _ _ _ E (plain_eof _)) as K.
  destruct (rc_eq_dec r1 WS_SUCCESS) as [->|Hne].
  - injection H as <- <-. eapply keeps_trans; [exact K|].
    rewrite <- (send_msg_list _ _ _ _ _ _ E) in Hp.
    split.
    { exists [Eofed (c_id c)]. split; [reflexivity|]. split; [nocp|]. intros x Hx. left.
      unfold ids in *. cbn [log on_chan set_list s_list]. clear - Hx. induction (s_list s1) as [|y l IH]; [assumption|].
      cbn [upd map] in *. destruct (c_id y =? c_id c); cbn [map]; [exact Hx|].
      destruct Hx as [Hx|Hx]; [left; assumption | right; auto]. }
    intros cl h Hi.
    pose proof (find_peer_self _ _ _ Hp (proj1 Hi)) as Hf.
    set (f := fun c => c_flags (c_eofRx c) true (c_closeTx c) c).
    assert (T : touch s1 (c_id c) c (f c) [Eofed (c_id c)] (log (Eofed (c_id c)) (on_chan (c_id c) f s1))).
    { change [Eofed (c_id c)] with ([] ++ [Eofed (c_id c)]).
      assert (T0 : touch s1 (c_id c) c (f c) [] (on_chan (c_id c) f s1)).
      { apply touch_on; [exact Hf | reflexivity | reflexivity]. }
      eapply touch_trans; [exact T0|].
      apply touch_logged; [eapply touch_find; exact T0 | reflexivity | intros _; exact I]. }
    eapply Inv_touch; [exact Hi | exact T|]. intros (Hc & Hle & Hge). cbn [fold_left].
    destruct Hc as (A1 & A2 & A3 & A4 & A5 & A6 & A7 & A8 & A9 & A10 & A11 & A12 & A13).
    unfold CI, cinv, cle, cge, f in *; cbn [vstep c_flags c_in c_win0 c_ext c_win c_pwin c_pmax c_pend
      v_sf v_st v_cf v_ct v_ch v_w0 v_an v_gr v_us v_pm v_eof c_eofTx] in *.
    split; [|auto]. do 11 (split; [assumption|]). split; [assumption | reflexivity].
  - assert (s' = s1) by (destruct r1; congruence). subst. assumption.
Qed.

Lemma close_keeps : forall p a s r s', SendChannelClose p a s = (r, s') -> keeps s s'.
Proof.
  intros p a s r s' H. unfold SendChannelClose in H.
  destruct (find_peer p (s_list s)) as [c|]; [|injection H as <- <-; apply keeps_refl].
  destruct (c_closeTx c); [injection H as <- <-; apply keeps_refl|].
  destruct (bundle _ _ a s) as [r1 s1] eqn:E.
  pose proof (bundle_keeps _ _ _ _ _ _ E (plain_close _)) as K.
  destruct (rc_eq_dec r1 WS_SUCCESS) as [->|Hne].
  - destruct (flush (a_flush a) s1) as [r2 s2] eqn:Ef. injection H as <- <-.
    eapply keeps_trans; [exact K|].
    eapply keeps_trans; [apply keeps_quiet; eapply flush_quiet; exact Ef|].
    apply on_chan_keeps; [reflexivity | intros; apply same_flags].
  - assert (s' = s1) by (destruct r1; congruence). subst. assumption.
Qed.

Lemma remove_first_split : forall p l c r, remove_first p l = Some (c, r) ->
  exists a b, l = a ++ c :: b /\ r = a ++ b /\ p c = true.
Proof.
  intros p l. induction l as [|x l IH]; intros c r H; [discriminate|]. cbn [remove_first] in H.
  destruct (p x) eqn:Ep.
  - injection H as <- <-. exists [], l. auto.
  - destruct (remove_first p l) as [[y r']|]; [|discriminate]. injection H as <- <-.
    destruct (IH y r' eq_refl) as (a & b & -> & -> & Hp). exists (x :: a), b. auto.
Qed.

Lemma remove_keeps : forall p s r s', ChannelRemove p s = (r, s') ->
  keepsP (fun x => exists c, In c (s_list s) /\ p c = true /\ c_id c = x) s s'.
Proof.
  intros p s r s' H. unfold ChannelRemove in H.
  destruct (remove_first p (s_list s)) as [[c l]|] eqn:E; injection H as <- <-; [|apply keeps_P, keeps_refl].
  destruct (remove_first_split _ _ _ _ E) as (a & b & E1 & -> & Hp).
  split.
  { eexists. split; [reflexivity|]. split; [nocp|]. intros x Hx.
    unfold ids in *. cbn [log set_list s_list]. rewrite E1 in Hx. rewrite map_app in *. cbn [map] in Hx.
    rewrite in_app_iff in *. cbn [In] in Hx. destruct Hx as [Hx|[Hx|Hx]]; auto.
    right. exists c. split; [|auto]. rewrite E1. apply in_or_app. right. left. reflexivity. }
  intros cl h (H1 & H2 & H3 & H4 & H5). unfold Inv. cbn [log set_list s_list s_log s_next s_ctxwin].
  rewrite E1 in H1, H2.
  split; [|split; [|split; [assumption|split; [assumption|]]]].
  - rewrite map_app in *. cbn [map] in H1. apply NoDup_remove_1 in H1. assumption.
  - assert (H2' : Forall (fun c => is32 (c_id c) /\ CI cl h (view_of (c_id c) (s_log s)) c) (a ++ b)).
    { apply Forall_app in H2. destruct H2 as [Ha Hb]. inversion Hb; subst. apply Forall_app; auto. }
    eapply Forall_impl; [|exact H2']. intros x [Hx1 Hx2]. split; [assumption|].
    rewrite view_snoc. destruct (ev_id _ =? c_id x); [|assumption]. exact Hx2.
  - constructor; [assumption | exact I].
Qed.

(* ------------------------------------------------------------------ *)
(* Sending data                                                         *)

Lemma data_msg_data : forall ext p d, data_of (data_msg ext p d) = d.
Proof.
  intros ext p d. unfold data_msg. destruct ext.
  - unfold MSGID_CHANNEL_EXTENDED_DATA, data_of. cbn [app N.eqb Pos.eqb].
    rewrite !app_assoc. apply dropN_app_exact. rewrite !lenN_app, !c32toa_length. reflexivity.
  - unfold MSGID_CHANNEL_DATA, data_of. cbn [app N.eqb Pos.eqb].
    rewrite !app_assoc. apply dropN_app_exact. rewrite !lenN_app, !c32toa_length. reflexivity.
Qed.
Lemma data_msg_adjust : forall ext p d, adjust_of (data_msg ext p d) = 0.
Proof. intros [|] p d; reflexivity. Qed.

Definition the_bound (c : chan) : N := N.min (N.min (c_pwin c) (c_pmax c)) (c_max c).

(* What SendChannelData can do. *)
Inductive send_out (ext : bool) (id : N) (data : bytes) (f1 f2 : fans) (a : sendans) (s : cs)
  : ret -> cs -> Prop :=
| so_none : forall r s', quietly s s' ->
    (forall n, r = RNum n -> keying s = false /\ (prep_ok a -> n = lenN data /\ blocked_before f1 f2 s)) ->
    (forall d, r <> RData d) ->
    send_out ext id data f1 f2 a s r s'
| so_queued : forall c n k r s', keying s = false ->
    find_self id (s_list s) = Some c -> c_eofTx c = false ->
    c_pwin c <> 0 -> n = N.min (the_bound c) (lenN data) ->
    touch s id c (c_set_pwin (c_pwin c - n) c)
          [Sent k id (data_msg ext (c_peer c) (takeN n data))] s' ->
    (forall n', r = RNum n' -> n' = n) ->
    (forall d, r <> RData d) ->
    send_out ext id data f1 f2 a s r s'.

Lemma CI_sent : forall cl h v c n k id ext d, CI cl h v c -> lenN d = n -> n <= c_pwin c ->
  CI cl h (vstep v (Sent k id (data_msg ext (c_peer c) d))) (c_set_pwin (c_pwin c - n) c).
Proof.
  intros cl h v c n k id ext d (Hc & Hle & Hge) Hd Hn.
  destruct Hc as (A1 & A2 & A3 & A4 & A5 & A6 & A7 & A8 & A9 & A10 & A11 & A12).
  unfold CI, cinv, cle, cge in *; cbn [vstep c_set_pwin c_in c_win0 c_ext c_win c_pwin c_pmax c_pend
    v_sf v_st v_cf v_ct v_ch v_w0 v_an v_gr v_us v_pm v_eof c_eofTx].
  rewrite data_msg_data, data_msg_adjust, N.add_0_r. split; [|split; assumption].
  do 7 (split; [assumption|]). split; [unfold is32 in *; lia|]. split; [lia|]. auto.
Qed.

Lemma set_finish_quiet : forall s n,
  quietly s (if rc_eqb (s_err s) WS_WANT_WRITE then set_plain n s else s).
Proof. intros s n. destruct (rc_eqb _ _); [apply set_plain_quiet | apply quiet_refl]. Qed.

Definition fin_ret (r : rc) (n : N) : ret :=
  match r with WS_SUCCESS | WS_WANT_WRITE => RNum n | e => RCode e end.
Lemma fin_ret_num : forall r n n', fin_ret r n = RNum n' -> n' = n /\ (r = WS_SUCCESS \/ r = WS_WANT_WRITE).
Proof. intros r n n' H. destruct r; cbn in H; try discriminate; injection H as ->; auto. Qed.
Lemma fin_ret_data : forall r n d, fin_ret r n <> RData d.
Proof. intros r n d. destruct r; discriminate. Qed.

Lemma send_spec : forall cl h ext id data f1 f2 a s r s',
  SendChannelData ext id data f1 f2 a s = (r, s') -> Inv cl h s ->
  send_out ext id data f1 f2 a s r s'.
Proof.
  intros cl h ext id data f1 f2 a s r s' H Hinv. unfold SendChannelData in H. cbv zeta in H.
  destruct (keying s) eqn:Hk.
  { apply so_none.
    - injection H as _ <-. apply set_finish_quiet.
    - intros n Hr. injection H as <- _. discriminate.
    - injection H as <- _. discriminate. }
  destruct (if 0 <? s_plain s then flush f1 s else (WS_SUCCESS, s)) as [r1 s1] eqn:E1.
  assert (Q1 : quietly s s1).
  { destruct (0 <? s_plain s); [eapply flush_quiet; exact E1|]. injection E1 as <- <-. apply quiet_refl. }
  destruct (rc_eq_dec r1 WS_SUCCESS) as [->|Hne1].
  2:{ assert (Hx : (RCode r1, s1) = (r, s')) by (destruct r1; congruence).
      injection Hx as <- <-. apply so_none; [assumption | discriminate | discriminate]. }
  destruct (if s_out s1 then flush f2 s1 else (WS_SUCCESS, s1)) as [r2 s2] eqn:E2.
  assert (Q2 : quietly s1 s2).
  { destruct (s_out s1); [eapply flush_quiet; exact E2|]. injection E2 as <- <-. apply quiet_refl. }
  assert (Q02 : quietly s s2) by (eapply quiet_trans; eassumption).
  destruct (rc_eq_dec r2 WS_SUCCESS) as [->|Hne2].
  2:{ assert (Hx : (fin_ret r2 (lenN data), if rc_eqb (s_err s2) WS_WANT_WRITE then set_plain (lenN data) s2 else s2) = (r, s'))
        by (unfold fin_ret; destruct r2; congruence).
      injection Hx as <- <-. apply so_none.
      - eapply quiet_trans; [exact Q02 | apply set_finish_quiet].
      - intros n Hr. apply fin_ret_num in Hr. destruct Hr as [-> [Hr|Hr]]; [contradiction|].
        split; [exact Hk|]. intros _. split; [reflexivity|]. exists s1. split; [assumption|].
        destruct (s_out s1); [|injection E2 as <- _; contradiction].
        split; [reflexivity|]. rewrite E2. exact Hr.
      - apply fin_ret_data. }
  assert (Hfin : forall rr n0 s3, quietly s s3 -> rr <> WS_SUCCESS ->
    (rr = WS_WANT_WRITE -> ~ prep_ok a) ->
    (fin_ret rr n0, if rc_eqb (s_err s3) WS_WANT_WRITE then set_plain n0 s3 else s3) = (r, s') ->
    send_out ext id data f1 f2 a s r s').
  { intros rr n0 s3 Q N1 N2 Hx. injection Hx as <- <-. apply so_none.
    - eapply quiet_trans; [exact Q | apply set_finish_quiet].
    - intros n Hr. apply fin_ret_num in Hr. destruct Hr as [-> [Hr|Hr]]; [contradiction|].
      split; [exact Hk|]. intros Hp. destruct (N2 Hr Hp).
    - apply fin_ret_data. }
  destruct (find_self id (s_list s2)) as [c|] eqn:Hf2.
  2:{ eapply (Hfin WS_INVALID_CHANID (lenN data)); [exact Q02 | discriminate | discriminate | exact H]. }
  destruct (c_eofTx c) eqn:He.
  { eapply (Hfin WS_EOF (lenN data)); [exact Q02 | discriminate | discriminate | exact H]. }
  assert (QE : quietly s (set_err WS_WINDOW_FULL s2)).
  { eapply quiet_trans; [exact Q02 | apply set_err_quiet]. }
  destruct (N.eqb_spec (c_pwin c) 0) as [Hw|Hw].
  { eapply (Hfin WS_WINDOW_FULL (lenN data)); [exact QE | discriminate | discriminate | exact H]. }
  fold (the_bound c) in H.
  destruct ((the_bound c =? 0) && negb (lenN data =? 0)).
  { eapply (Hfin WS_WINDOW_FULL (lenN data)); [exact QE | discriminate | discriminate | exact H]. }
  assert (Hnm : (if the_bound c <? lenN data then the_bound c else lenN data)
                = N.min (the_bound c) (lenN data)).
  { destruct (N.ltb_spec (the_bound c) (lenN data)); lia. }
  rewrite Hnm in H. clear Hnm. set (n := N.min (the_bound c) (lenN data)) in *.
  assert (Hnw : n <= c_pwin c) by (unfold the_bound in n; lia).
  assert (Hnp : n <= c_pmax c) by (unfold the_bound in n; lia).
  assert (Hnl : n <= lenN data) by lia.
  assert (Hf : find_self id (s_list s) = Some c) by (rewrite <- (q_list _ _ Q02); exact Hf2).
  assert (Hid : c_id c = id) by (apply find_self_some in Hf; tauto).
  destruct (bundle id (data_msg ext (c_peer c) (takeN n data)) a s2) as [r3 s3] eqn:Eb.
  destruct (bundle_cases _ _ _ _ _ _ Eb) as [[-> Hs3]|[Hne3 Q3]].
  - destruct (flush (a_flush a) (on_chan id (c_set_pwin (sub32 (c_pwin c) n)) s3)) as [r5 s5] eqn:Ef.
    assert (Hx : (fin_ret r5 n, if rc_eqb (s_err s5) WS_WANT_WRITE then set_plain n s5 else s5) = (r, s')) by exact H.
    injection Hx as <- <-.
    destruct (Inv_find _ _ _ _ _ Hinv Hf) as [(Hc & _) _].
    destruct Hc as (A1 & A2 & A3 & A4 & A5 & A6 & A7 & A8 & A9 & A10 & A11 & A12).
    rewrite sub32_small in Ef by assumption.
    assert (T : touch s2 id c (c_set_pwin (c_pwin c - n) c)
                 [Sent (keying s2) id (data_msg ext (c_peer c) (takeN n data))]
                 (on_chan id (c_set_pwin (c_pwin c - n)) s3)).
    { rewrite <- (app_nil_r [Sent _ _ _]). subst s3. eapply touch_trans.
      - eapply quiet_touch; [apply (set_out_quiet s2 true)|].
        apply touch_logged; [exact Hf2 | reflexivity|]. intros _.
        split; [|intros Hz; rewrite data_msg_adjust in Hz; congruence].
        intros _. rewrite data_msg_data, lenN_takeN.
        change (s_log (set_out true s2)) with (s_log s2). rewrite (q_log _ _ Q02).
        change (v_pm (view_of id (s_log s))) with (peermax id (s_log s)) in A10.
        change (v_us (view_of id (s_log s))) with (used id (s_log s)) in A9.
        change (v_gr (view_of id (s_log s))) with (granted id (s_log s)) in A9.
        rewrite <- A10, <- A9. split; [split; lia|].
        destruct A12 as [_ A13]. change (v_eof (view_of id (s_log s))) with (eofed id (s_log s)) in A13.
        congruence.
      - apply touch_on; [exact Hf2 | exact Hid | reflexivity]. }
    eapply so_queued with (c := c) (n := n) (k := keying s2);
      [exact Hk | exact Hf | exact He | exact Hw | reflexivity | | | apply fin_ret_data].
    + eapply quiet_touch; [exact Q02|]. eapply touch_quiet; [exact T|].
      eapply quiet_trans; [eapply flush_quiet; exact Ef | apply set_finish_quiet].
    + intros n' Hr. apply fin_ret_num in Hr. tauto.
  - assert (Hx : (fin_ret r3 n, if rc_eqb (s_err s3) WS_WANT_WRITE then set_plain n s3 else s3) = (r, s'))
      by (unfold fin_ret; destruct r3; congruence).
    apply (Hfin r3 n s3); [exact (quiet_trans _ _ _ Q02 Q3) | exact Hne3 | | exact Hx].
    intros -> [Hp1 Hp2]. unfold bundle in Eb.
    destruct (a_prep a); try congruence; destruct (a_bund a); congruence.
Qed.

Lemma send_keeps : forall cl h ext id data f1 f2 a s r s',
  SendChannelData ext id data f1 f2 a s = (r, s') -> Inv cl h s -> Inv cl h s' /\ grows s s'.
Proof.
  intros cl h ext id data f1 f2 a s r s' H Hinv.
  destruct (send_spec _ _ _ _ _ _ _ _ _ _ _ H Hinv) as [r s' Q _ _|c n k r s' _ Hf _ _ Hn T _ _].
  - split; [eapply Inv_quiet; eassumption | apply grows_quiet; assumption].
  - split; [|eapply grows_touch; [exact T | nocp]]. eapply Inv_touch; [exact Hinv | exact T|].
    intros HC. cbn [fold_left]. apply CI_sent; [assumption| |].
    + rewrite lenN_takeN. lia.
    + unfold the_bound in Hn. lia.
Qed.

(* ------------------------------------------------------------------ *)
(* Receiving                                                            *)

Lemma putdata_cases : forall v d c, cinv v c ->
  (ChannelPutData d c = (WS_SUCCESS, c_rx (c_win c - lenN d) (c_pend c)
      (mkBuf (b_data (c_in c) ++ d) (b_idx (c_in c)) (b_cap (c_in c)) (b_dyn (c_in c))) (c_ext c) c)
   /\ lenN d <= c_win c) \/
  (exists r, r <> WS_SUCCESS /\ ChannelPutData d c = (r, c)).
Proof.
  intros v d c Hc. unfold ChannelPutData. destruct (N.ltb_spec (c_win c) (lenN d)).
  { right. exists WS_FATAL_ERROR. split; [discriminate | reflexivity]. }
  destruct (_ && _).
  - left. destruct Hc as (A1 & A2 & A3 & A4 & A5 & _).
    rewrite sub32_small by (unfold is32 in *; lia). auto.
  - right. exists WS_RECV_OVERFLOW_E. split; [discriminate | reflexivity].
Qed.

Lemma CI_put : forall cl h v c d id, CI cl h v c -> lenN d <= c_win c ->
  CI cl h (vstep v (Stored id false d)) (c_rx (c_win c - lenN d) (c_pend c)
      (mkBuf (b_data (c_in c) ++ d) (b_idx (c_in c)) (b_cap (c_in c)) (b_dyn (c_in c))) (c_ext c) c).
Proof.
  intros cl h v c d id (Hc & Hle & Hge) Hd.
  destruct Hc as (A1 & A2 & A3 & A4 & A5 & A6 & A7 & A8 & A9 & A10 & A11 & A12).
  unfold CI, cinv, cle, cge in *; cbn [vstep c_rx c_in c_win0 c_ext c_win c_pwin c_pmax c_pend
    v_sf v_st v_cf v_ct v_ch v_w0 v_an v_gr v_us v_pm v_eof c_eofTx b_idx b_cap].
  unfold b_len in *. cbn [b_data]. rewrite lenN_app.
  split; [|split; intros E; [specialize (Hle E) | specialize (Hge E)]; lia].
  split; [lia|]. do 3 (split; [assumption|]). split; [lia|]. split; [|auto 10].
  rewrite A6. unfold unread; cbn [b_data b_idx]. rewrite dropN_app_l by assumption.
  rewrite app_assoc. reflexivity.
Qed.

Lemma data_keeps : forall cl h b s r s', DoChannelData b s = Some (r, s') -> Inv cl h s ->
  Inv cl h s' /\ grows s s'.
Proof.
  intros cl h b s r s' H Hinv. unfold DoChannelData in H. cbv zeta in H.
  assert (Hsame : forall r0, Some (r0, s) = Some (r, s') -> Inv cl h s' /\ grows s s').
  { intros r0 E. injection E as _ <-. split; [assumption | apply grows_refl]. }
  destruct (GetUint32 b (lenN b) 0) as [id i|e i|]; [|eauto|discriminate].
  destruct (GetSize b (lenN b) i) as [sz j|e j|]; [|eauto|discriminate].
  destruct (find_self id (s_list s)) as [c|] eqn:Hf; [|eauto].
  destruct (c_max c <? sz); [eauto|].
  destruct (rdn b j sz) as [d|]; [|discriminate].
  destruct (Inv_find _ _ _ _ _ Hinv Hf) as [HCI _].
  assert (Hid : c_id c = id) by (apply find_self_some in Hf; tauto).
  destruct (putdata_cases _ d c (proj1 HCI)) as [[E Hd]|(r0 & Hne & E)]; rewrite E in H.
  2:{ apply (Hsame r0). destruct r0; congruence. }
  injection H as <- <-.
  match goal with |- Inv _ _ (set_last _ (log _ (on_chan _ (fun _ => ?c') _))) /\ _ =>
    assert (T : touch s id c c' [Stored id false d]
                  (set_last id (log (Stored id false d) (on_chan id (fun _ => c') s)))) end.
  { eapply touch_quiet; [|apply set_last_quiet].
    change [Stored id false d] with ([] ++ [Stored id false d]).
    match goal with |- touch _ _ _ ?c' _ _ => assert (T0 : touch s id c c' [] (on_chan id (fun _ => c') s)) end.
    { apply touch_on; [exact Hf | exact Hid | reflexivity]. }
    eapply touch_trans; [exact T0|].
    apply touch_logged; [eapply touch_find; exact T0 | reflexivity | intros _; exact I]. }
  split; [|eapply grows_touch; [exact T | nocp]].
  eapply Inv_touch; [exact Hinv | exact T|]. intros HC. cbn [fold_left]. apply CI_put; assumption.
Qed.

Lemma CI_putext : forall cl h v c d id x, CI cl h v c -> lenN d <= c_win c ->
  buf_inv x -> unread x = unread (c_ext c) ++ d ->
  CI cl h (vstep v (Stored id true d)) (c_rx (c_win c - lenN d) (c_pend c) (c_in c) x c).
Proof.
  intros cl h v c d id x (Hc & Hle & Hge) Hd Bx Ux.
  destruct Hc as (A1 & A2 & A3 & A4 & A5 & A6 & A7 & A8 & A9 & A10 & A11 & A12).
  unfold CI, cinv, cle, cge in *; cbn [vstep c_rx c_in c_win0 c_ext c_win c_pwin c_pmax c_pend
    v_sf v_st v_cf v_ct v_ch v_w0 v_an v_gr v_us v_pm v_eof c_eofTx].
  rewrite Ux, lenN_app.
  split; [|split; intros E; [specialize (Hle E) | specialize (Hge E)]; lia].
  do 4 (split; [assumption|]). split; [lia|]. split; [assumption|]. split; [|auto 10].
  rewrite A7, app_assoc. reflexivity.
Qed.
Lemma CI_ext_same : forall cl h v c x, CI cl h v c -> buf_inv x -> unread x = unread (c_ext c) ->
  CI cl h v (c_rx (c_win c) (c_pend c) (c_in c) x c).
Proof.
  intros cl h v c x (Hc & Hle & Hge) Bx Ux.
  destruct Hc as (A1 & A2 & A3 & A4 & A5 & A6 & A7 & A8 & A9 & A10 & A11 & A12).
  unfold CI, cinv, cle, cge in *; cbn [c_rx c_in c_win0 c_ext c_win c_pwin c_pmax c_pend c_eofTx].
  rewrite Ux. auto 20.
Qed.

Lemma ext_keeps : forall cl h ok a b s r s', DoChannelExtendedData ok a b s = Some (r, s') ->
  Inv cl h s -> buf_ok b -> (cl = true -> ans_ok a) ->
  (h = true -> cl = true /\ peer_honest (s_log s')) ->
  Inv cl h s' /\ grows s s'.
Proof.
  intros cl h ok a b s r s' H Hinv Hb Hcl Hh. unfold DoChannelExtendedData in H. cbv zeta in H.
  assert (Hsame : forall r0, Some (r0, s) = Some (r, s') -> Inv cl h s' /\ grows s s').
  { intros r0 E. injection E as _ <-. split; [assumption | apply grows_refl]. }
  destruct (gu32_cases b 0 Hb (N.le_0_l _)) as [(id & Eg & Hid32 & Hi)|(e & j & Eg)]; rewrite Eg in H; [|eauto].
  destruct (gu32_cases b (0 + 4) Hb Hi) as [(ty & Eg2 & _ & Hj)|(e & j & Eg2)]; rewrite Eg2 in H; [|eauto].
  destruct (gsize_cases b (0 + 4 + 4) Hb Hj) as [(sz & Eg3 & Hsz & Hk)|(e & j & Eg3)]; rewrite Eg3 in H; [|eauto].
  destruct (find_self id (s_list s)) as [c|] eqn:Hf; [|eauto].
  destruct (c_max c <? sz); [eauto|].
  destruct (N.ltb_spec (c_win c) sz) as [Hw|Hw]; [eauto|].
  destruct (Inv_find _ _ _ _ _ Hinv Hf) as [HCI _].
  pose proof HCI as (Hc & Hle & Hge).
  pose proof Hc as (A1 & A2 & A3 & A4 & A5 & A6 & A7 & A8 & A9 & A10 & A11 & A12).
  assert (Hid : c_id c = id) by (apply find_self_some in Hf; tauto).
  destruct (ty =? CHANNEL_EXTENDED_DATA_STDERR).
  - destruct (rdn_in b (0 + 4 + 4 + 4) sz Hk) as (d & Ed & Ld). rewrite Ed in H.
    destruct (AppendBuffer_spec ok (c_ext c) d A4 ltac:(rewrite Ld; exact Hsz))
      as (r0 & x & Ea & Hcase). rewrite Ea in H.
    destruct Hcase as [(-> & Bx & Ux)|Hbad].
    + injection H as <- <-. rewrite sub32_small by (unfold is32 in *; lia).
      set (f := c_rx (c_win c - sz) (c_pend c) (c_in c) x).
      assert (T : touch s id c (f c) [Stored id true d] (set_last id (log (Stored id true d) (on_chan id f s)))).
      { eapply touch_quiet; [|apply set_last_quiet].
        change [Stored id true d] with ([] ++ [Stored id true d]).
        assert (T0 : touch s id c (f c) [] (on_chan id f s)).
        { apply touch_on; [exact Hf | exact Hid | reflexivity]. }
        eapply touch_trans; [exact T0|].
        apply touch_logged; [eapply touch_find; exact T0 | reflexivity | intros _; exact I]. }
      split; [|eapply grows_touch; [exact T | nocp]].
      eapply Inv_touch; [exact Hinv | exact T|]. intros HC. cbn [fold_left]. unfold f. rewrite <- Ld.
      apply CI_putext; try assumption. rewrite Ld. assumption.
    + assert (Hx : x = c_ext c /\ r0 <> WS_SUCCESS).
      { destruct Hbad as [(-> & _ & ->)|(-> & _ & ->)]; split; congruence. }
      destruct Hx as [-> Hne].
      assert (Hs : s' = on_chan id (c_rx (c_win c) (c_pend c) (c_in c) (c_ext c)) s)
        by (destruct r0; congruence). subst s'.
      assert (T : touch s id c (c_rx (c_win c) (c_pend c) (c_in c) (c_ext c) c) []
                    (on_chan id (c_rx (c_win c) (c_pend c) (c_in c) (c_ext c)) s)).
      { apply touch_on; [exact Hf | exact Hid | reflexivity]. }
      split; [|eapply grows_touch; [exact T | nocp]].
      eapply Inv_touch; [exact Hinv | exact T|]. intros HC. cbn [fold_left].
      apply CI_ext_same; auto.
  - assert (T1 : touch s id c c [Ignored id sz] (log (Ignored id sz) s)).
    { apply touch_logged; [exact Hf | reflexivity | intros _; exact I]. }
    destruct (ChannelCreditWindow id sz a (log (Ignored id sz) s)) as [r1 s1] eqn:Ec.
    destruct (credit_spec _ _ _ _ _ _ _ Ec (touch_find _ _ _ _ _ _ T1) A11 Hsz)
      as (p & es & T2 & Hp & Hes & _ & Hout).
    assert (Hs : s' = set_last id s1) by (destruct r1; congruence). subst s'.
    assert (T : touch s id c (c_set_pend p c) ([Ignored id sz] ++ es) (set_last id s1)).
    { eapply touch_quiet; [|apply set_last_quiet]. eapply touch_trans; eassumption. }
    split; [|eapply grows_touch; [exact T | nocp]].
    eapply Inv_touch; [exact Hinv | exact T|]. intros _.
    rewrite fold_left_app. cbn [fold_left]. rewrite (credit_es_view id c es _ Hes).
    unfold CI, cinv, cle, cge in *; cbn [vstep c_set_pend c_rx c_in c_win0 c_ext c_win c_pwin c_pmax c_pend
      v_sf v_st v_cf v_ct v_ch v_w0 v_an v_gr v_us v_pm v_eof c_eofTx] in *.
    split; [auto 20|]. split.
    + intros Hclt. specialize (Hle Hclt). destruct Hout as [(O1 & -> & -> & _)|(O1 & O2)].
      * change (an_of []) with 0. lia.
      * specialize (O2 (Hcl Hclt)). lia.
    + intros Hht. specialize (Hge Hht). destruct (Hh Hht) as [Hclt Hhon]. specialize (Hle Hclt).
      assert (Hhon0 : hon (view_of id (s_log s ++ [Ignored id sz]))).
      { apply honest_hon. intros pre post i0 Heq. apply (Hhon pre (post ++ es)).
        rewrite (t_log _ _ _ _ _ _ T), app_assoc, Heq, <- app_assoc. reflexivity. }
      rewrite view_snoc in Hhon0. cbn [ev_id] in Hhon0. rewrite N.eqb_refl in Hhon0.
      unfold hon in Hhon0. cbn [vstep v_ch v_w0 v_an] in Hhon0.
      destruct Hout as [(O1 & _)|(O1 & O2)].
      * unfold is32 in *. lia.
      * specialize (O2 (Hcl Hclt)). lia.
Qed.

Lemma adjust_keeps : forall cl h b s r s', DoChannelWindowAdjust b s = Some (r, s') ->
  Inv cl h s -> buf_ok b -> Inv cl h s' /\ grows s s'.
Proof.
  intros cl h b s r s' H Hinv Hb. unfold DoChannelWindowAdjust in H. cbv zeta in H.
  assert (Hsame : forall r0, Some (r0, s) = Some (r, s') -> Inv cl h s' /\ grows s s').
  { intros r0 E. injection E as _ <-. split; [assumption | apply grows_refl]. }
  destruct (gu32_cases b 0 Hb (N.le_0_l _)) as [(id & Eg & Hid32 & Hi)|(e & j & Eg)]; rewrite Eg in H; [|eauto].
  destruct (gu32_cases b (0 + 4) Hb Hi) as [(n & Eg2 & Hn & Hj)|(e & j & Eg2)]; rewrite Eg2 in H; [|eauto].
  destruct (find_self id (s_list s)) as [c|] eqn:Hf; [|eauto].
  destruct (Inv_find _ _ _ _ _ Hinv Hf) as [HCI _].
  pose proof HCI as (Hc & Hle & Hge).
  pose proof Hc as (A1 & A2 & A3 & A4 & A5 & A6 & A7 & A8 & A9 & A10 & A11 & A12).
  assert (Hid : c_id c = id) by (apply find_self_some in Hf; tauto).
  rewrite sub32_small in H by (unfold is32, UINT32_MAX, W32 in *; lia).
  destruct (N.ltb_spec (UINT32_MAX - c_pwin c) n) as [Ho|Ho]; [eauto|].
  assert (Hs : c_pwin c + n < W32) by (clear H; unfold is32, UINT32_MAX, W32 in *; lia).
  rewrite add32_small in H by assumption. injection H as <- <-.
  assert (T : touch s id c (c_set_pwin (c_pwin c + n) c) [Adjusted id n]
                (log (Adjusted id n) (on_chan id (c_set_pwin (c_pwin c + n)) s))).
  { change [Adjusted id n] with ([] ++ [Adjusted id n]).
    assert (T0 : touch s id c (c_set_pwin (c_pwin c + n) c) [] (on_chan id (c_set_pwin (c_pwin c + n)) s)).
    { apply touch_on; [exact Hf | exact Hid | reflexivity]. }
    eapply touch_trans; [exact T0|].
    apply touch_logged; [eapply touch_find; exact T0 | reflexivity | intros _; exact I]. }
  split; [|eapply grows_touch; [exact T | nocp]].
  eapply Inv_touch; [exact Hinv | exact T|]. intros _. cbn [fold_left].
  unfold CI, cinv, cle, cge in *; cbn [vstep c_set_pwin c_in c_win0 c_ext c_win c_pwin c_pmax c_pend
      v_sf v_st v_cf v_ct v_ch v_w0 v_an v_gr v_us v_pm v_eof c_eofTx] in *.
  split; [|auto]. do 8 (split; [assumption|]). split; [lia|]. auto.
Qed.

Lemma conf_keeps : forall cl h cb b s r s', DoChannelOpenConf cb b s = Some (r, s') ->
  Inv cl h s -> buf_ok b -> Inv cl h s' /\ grows s s'.
Proof.
  intros cl h cb b s r s' H Hinv Hb. unfold DoChannelOpenConf in H. cbv zeta in H.
  assert (Hsame : forall r0, Some (r0, s) = Some (r, s') -> Inv cl h s' /\ grows s s').
  { intros r0 E. injection E as _ <-. split; [assumption | apply grows_refl]. }
  destruct (gu32_cases b 0 Hb (N.le_0_l _)) as [(id & Eg & Hid32 & Hi)|(e & j & Eg)]; rewrite Eg in H; [|eauto].
  destruct (gu32_cases b (0 + 4) Hb Hi) as [(p & Eg2 & _ & Hj)|(e & j & Eg2)]; rewrite Eg2 in H; [|eauto].
  destruct (gu32_cases b (0 + 4 + 4) Hb Hj) as [(pw & Eg3 & Hpw & Hk)|(e & j & Eg3)]; rewrite Eg3 in H; [|eauto].
  destruct (gu32_cases b (0 + 4 + 4 + 4) Hb Hk) as [(pm & Eg4 & _ & Hl)|(e & j & Eg4)]; rewrite Eg4 in H; [|eauto].
  destruct (find_self id (s_list s)) as [c|] eqn:Hf; [|eauto].
  assert (Hid : c_id c = id) by (apply find_self_some in Hf; tauto).
  injection H as <- <-.
  assert (T : touch s id c (c_set_peer p pw pm c) [Peered id pw pm]
                (log (Peered id pw pm) (on_chan id (c_set_peer p pw pm) s))).
  { change [Peered id pw pm] with ([] ++ [Peered id pw pm]).
    assert (T0 : touch s id c (c_set_peer p pw pm c) [] (on_chan id (c_set_peer p pw pm) s)).
    { apply touch_on; [exact Hf | exact Hid | reflexivity]. }
    eapply touch_trans; [exact T0|].
    apply touch_logged; [eapply touch_find; exact T0 | reflexivity | intros _; exact I]. }
  split; [|eapply grows_touch; [exact T | nocp]].
  eapply Inv_touch; [exact Hinv | exact T|]. intros (Hc & Hle & Hge). cbn [fold_left].
  destruct Hc as (A1 & A2 & A3 & A4 & A5 & A6 & A7 & A8 & A9 & A10 & A11 & A12).
  unfold CI, cinv, cle, cge in *; cbn [vstep c_set_peer c_in c_win0 c_ext c_win c_pwin c_pmax c_pend
      v_sf v_st v_cf v_ct v_ch v_w0 v_an v_gr v_us v_pm v_eof c_eofTx] in *.
  split; [|auto]. do 8 (split; [assumption|]). split; [lia|]. auto.
Qed.

(* ------------------------------------------------------------------ *)
(* Opening                                                              *)

Lemma fresh_unused : forall k n l id, fresh k n l = Some id -> find_self id l = None.
Proof.
  induction k as [|k IH]; intros n l id H; [discriminate|]. cbn [fresh] in H.
  destruct (find_self n l) as [c|] eqn:E; [eauto|]. injection H as <-. assumption.
Qed.
Lemma fresh_is32 : forall k n l id, fresh k n l = Some id -> is32 n -> is32 id.
Proof.
  induction k as [|k IH]; intros n l id H Hn; [discriminate|]. cbn [fresh] in H.
  destruct (find_self n l) as [c|] eqn:E; [|injection H as <-; assumption].
  eapply IH; [exact H|]. apply is32_w32.
Qed.

(* a channel as ChannelNew makes it *)
Definition newborn (id type w m : N) : chan :=
  mkChan id 0 type w w m 0 0 false false false false 0
         (mkBuf [] 0 w true) (mkBuf [] 0 STATIC_BUFFER_LEN false).

Lemma new_cases : forall cl h ok type s c s1, ChannelNew ok type s = Some (c, s1) -> Inv cl h s ->
  c = newborn (c_id c) type (s_ctxwin s) (s_ctxmax s) /\ is32 (c_id c) /\
  find_self (c_id c) (s_list s) = None /\ s1 = set_next (add32 (c_id c) 1) s /\ Inv cl h s1.
Proof.
  intros cl h ok type s c s1 H Hinv. unfold ChannelNew in H. destruct ok; [|discriminate].
  cbn [negb] in H. destruct (fresh (S (length (s_list s))) (s_next s) (s_list s)) as [id|] eqn:E; [|discriminate].
  injection H as <- <-. cbn [c_id]. split; [reflexivity|].
  pose proof Hinv as (H1 & H2 & H3 & H4 & H5).
  split; [eapply fresh_is32; eassumption|]. split; [eapply fresh_unused; exact E|].
  split; [reflexivity|]. unfold Inv. cbn [set_next s_list s_log s_next s_ctxwin].
  split; [assumption|]. split; [assumption|]. split; [|auto]. apply is32_w32.
Qed.

Lemma NoDup_snoc : forall (A : Type) (l : list A) x, NoDup l -> ~ In x l -> NoDup (l ++ [x]).
Proof.
  intros A l x Hn Hx. induction Hn as [|y l Hy Hl IH]; cbn [app].
  - constructor; [intros [] | constructor].
  - constructor.
    + rewrite in_app_iff. intros [H|[H|[]]]; [contradiction|]. subst. apply Hx. left; reflexivity.
    + apply IH. intros H. apply Hx. right; assumption.
Qed.

Lemma append_inv : forall cl h s s' c es, Inv cl h s ->
  find_self (c_id c) (s_list s) = None -> is32 (c_id c) ->
  s_list s' = s_list s ++ [c] -> s_log s' = s_log s ++ Opened (c_id c) (c_win0 c) :: es ->
  s_next s' = s_next s -> s_ctxwin s' = s_ctxwin s ->
  Forall (fun e => ev_id e = c_id c /\ match e with Sent _ _ _ => False | _ => True end) es ->
  CI true true (fold_left vstep es (mkView [] [] [] [] 0 (c_win0 c) 0 0 0 0 false)) c ->
  Inv cl h s'.
Proof.
  intros cl h s s' c es (H1 & H2 & H3 & H4 & H5) Hf Hid El Eg En Ec Hes HC.
  assert (Hall : Forall (fun e => ev_id e = c_id c) (Opened (c_id c) (c_win0 c) :: es)).
  { constructor; [reflexivity|]. eapply Forall_impl; [|exact Hes]. cbn. tauto. }
  pose proof (find_self_none _ _ Hf) as Hnin.
  unfold Inv. rewrite El, En, Ec. split; [|split; [|split; [assumption|split; [assumption|]]]].
  - rewrite map_app. cbn [map]. apply NoDup_snoc; assumption.
  - apply Forall_app. split.
    + rewrite Forall_forall in *. intros x Hx. destruct (H2 x Hx) as [B1 B2]. split; [assumption|].
      rewrite Eg, view_foreign; [assumption|]. apply Forall_forall. intros e He.
      rewrite (Hall e He). intros E. apply Hnin. rewrite E. apply in_map. assumption.
    + constructor; [|constructor]. split; [assumption|]. rewrite Eg.
      rewrite view_app by assumption. cbn [fold_left vstep].
      destruct HC as (C1 & C2 & C3). split; [assumption|]. split; auto.
  - rewrite Eg. clear - H5 Hes. revert H5. generalize (s_log s) as l. intros l Hl.
    assert (Hl1 : logok (l ++ [Opened (c_id c) (c_win0 c)])) by (constructor; [assumption | exact I]).
    replace (l ++ Opened (c_id c) (c_win0 c) :: es) with ((l ++ [Opened (c_id c) (c_win0 c)]) ++ es)
      by (rewrite <- app_assoc; reflexivity).
    revert Hl1. generalize (l ++ [Opened (c_id c) (c_win0 c)]) as l1. clear Hl.
    induction Hes as [|e es [_ He] Hes IH]; intros l1 Hl1; [rewrite app_nil_r; assumption|].
    replace (l1 ++ e :: es) with ((l1 ++ [e]) ++ es) by (rewrite <- app_assoc; reflexivity).
    apply IH. constructor; [assumption|]. destruct e; try exact I. contradiction.
Qed.

Lemma CI_newborn : forall id t w m, is32 w ->
  CI true true (mkView [] [] [] [] 0 w 0 0 0 0 false) (newborn id t w m).
Proof.
  intros id t w m Hw. unfold CI, cinv, cle, cge, newborn.
  cbn [c_in c_win0 c_ext c_win c_pwin c_pmax c_pend v_sf v_st v_cf v_ct v_ch v_w0 v_an v_gr v_us v_pm v_eof c_eofTx b_idx b_cap].
  change (b_len (mkBuf [] 0 w true)) with 0. change (unread (mkBuf [] 0 w true)) with (@nil N).
  change (unread (mkBuf [] 0 STATIC_BUFFER_LEN false)) with (@nil N). change (lenN []) with 0.
  split; [|split; intros _; lia].
  split; [lia|]. split; [reflexivity|]. split; [assumption|]. split.
  { unfold buf_inv, b_len; cbn. unfold is32, W32, STATIC_BUFFER_LEN. repeat split; lia. }
  split; [lia|]. split; [reflexivity|]. split; [reflexivity|].
  do 4 (split; [reflexivity|]). split; reflexivity.
Qed.

Lemma append_keeps : forall cl h s c t w m, Inv cl h s -> c = newborn (c_id c) t w m -> is32 w ->
  is32 (c_id c) -> find_self (c_id c) (s_list s) = None ->
  Inv cl h (ChannelAppend c s) /\ grows s (ChannelAppend c s).
Proof.
  intros cl h s c t w m Hinv Hc Hw Hid Hf. split.
  2:{ eexists. split; [reflexivity|]. split; [nocp|]. intros x Hx. left. unfold ids in *.
      cbn [ChannelAppend log set_list s_list]. rewrite map_app. apply in_or_app. auto. }
  eapply append_inv with (c := c) (es := []); try eassumption; try reflexivity; [constructor|].
  cbn [fold_left]. rewrite Hc. cbn [c_win0 newborn]. apply CI_newborn. assumption.
Qed.

Lemma open_keeps : forall cl h keep ok type extra a cb s r s',
  OpenChannel keep ok type extra a cb s = (r, s') -> Inv cl h s -> Inv cl h s' /\ grows s s'.
Proof.
  intros cl h keep ok type extra a cb s r s' H Hinv. unfold OpenChannel in H.
  destruct (ChannelNew ok type s) as [[c s1]|] eqn:En.
  2:{ injection H as <- <-. split; [assumption | apply grows_refl]. }
  destruct (new_cases _ _ _ _ _ _ _ En Hinv) as (Hc & Hid & Hf & Hs1 & I1).
  assert (G1 : grows s s1).
  { subst s1. exists []. cbn [set_next s_log]. rewrite app_nil_r. split; [reflexivity|]. split; [constructor | auto]. }
  assert (L1 : s_list s1 = s_list s) by (subst s1; reflexivity).
  assert (Hw : is32 (s_ctxwin s)) by apply Hinv.
  destruct (SendChannelOpen c extra a s1) as [r2 s2] eqn:Es.
  pose proof (send_msg_keeps _ _ _ _ _ _ Es (plain_open _)) as [G2 K2].
  pose proof (send_msg_list _ _ _ _ _ _ Es) as L2.
  assert (A : Inv cl h (ChannelAppend c s2) /\ grows s (ChannelAppend c s2)).
  { destruct (append_keeps cl h s2 c type (s_ctxwin s) (s_ctxmax s)) as [A1 A2]; auto.
    - rewrite L2, L1. assumption.
    - split; [assumption|]. eapply grows_trans; [exact G1|]. eapply grows_trans; [exact G2 | exact A2]. }
  assert (B : Inv cl h s2 /\ grows s s2).
  { split; [auto|]. eapply grows_trans; eassumption. }
  destruct (rc_eq_dec r2 WS_SUCCESS) as [->|Hne].
  - destruct (rc_eq_dec cb WS_SUCCESS) as [->|Hcb].
    + injection H as <- <-. exact A.
    + assert (s' = s2) by (destruct cb; congruence). subst. exact B.
  - assert (Hs : (if keep && (rc_eqb r2 WS_WANT_WRITE || rc_eqb r2 WS_WANT_READ)
                  then (r2, ChannelAppend c s2) else (r2, s2)) = (r, s')) by (destruct r2; congruence).
    destruct (keep && _); injection Hs as <- <-; assumption.
Qed.

Lemma accept_keeps : forall cl h o b s r s', DoChannelOpen o b s = Some (r, s') -> Inv cl h s ->
  buf_ok b -> Inv cl h s' /\ grows s s'.
Proof.
  intros cl h o b s r s' H Hinv Hb. unfold DoChannelOpen in H. cbv zeta in H.
  assert (Href : forall peer reason s0, Inv cl h s0 -> grows s s0 ->
    Some (SendChannelOpenFail peer reason (o_desc o) [101;110] (o_send o) s0) = Some (r, s') ->
    Inv cl h s' /\ grows s s').
  { intros peer reason s0 I0 G0 E.
    assert (E1 : SendChannelOpenFail peer reason (o_desc o) [101;110] (o_send o) s0 = (r, s')) by congruence.
    destruct (send_msg_keeps _ _ _ _ _ _ E1 (plain_fail _)) as [G K].
    split; [auto | eapply grows_trans; eassumption]. }
  assert (Href0 : forall peer reason,
    Some (SendChannelOpenFail peer reason (o_desc o) [101;110] (o_send o) s) = Some (r, s') ->
    Inv cl h s' /\ grows s s').
  { intros peer reason E. eapply Href; [exact Hinv | apply grows_refl | exact E]. }
  destruct (gstr_cases b 0 32 Hb (N.le_0_l _) eq_refl) as [(tz & i & Eg & Hi)|(e & j & Eg)]; rewrite Eg in H; [|eauto].
  destruct (gu32_cases b i Hb Hi) as [(peer & Eg2 & _ & Hj)|(e & j & Eg2)]; rewrite Eg2 in H; [|eauto].
  destruct (gu32_cases b (i + 4) Hb Hj) as [(pw & Eg3 & Hpw & Hk)|(e & j & Eg3)]; rewrite Eg3 in H; [|eauto].
  destruct (gu32_cases b (i + 4 + 4) Hb Hk) as [(pm & Eg4 & _ & Hl)|(e & j & Eg4)]; rewrite Eg4 in H; [|eauto].
  set (ty := NameToId (removelast tz)) in *. clearbody ty.
  set (isFwd := (ty =? ID_CHANTYPE_TCPIP_DIRECT) || (ty =? ID_CHANTYPE_TCPIP_FORWARD)) in *. clearbody isFwd.
  match type of H with match ?x with _ => _ end = _ => destruct x as [u v|e reason|] end;
    [|eauto|discriminate].
  destruct (ChannelNew (o_ok o) ty s) as [[c s1]|] eqn:En; [|eauto].
  destruct (new_cases _ _ _ _ _ _ _ En Hinv) as (Hc & Hid & Hf & Hs1 & I1).
  assert (G1 : grows s s1).
  { subst s1. exists []. cbn [set_next s_log]. rewrite app_nil_r. split; [reflexivity|]. split; [constructor | auto]. }
  assert (L1 : s_list s1 = s_list s) by (subst s1; reflexivity).
  assert (Hw : is32 (s_ctxwin s)) by apply Hinv.
  match type of H with match ?x with _ => _ end = _ => set (verdict := x) in *; clearbody verdict end.
  destruct (rc_eq_dec verdict WS_SUCCESS) as [->|Hne].
  - assert (E1 : SendChannelOpenConf (c_set_peer peer pw pm c) (o_send o)
               (log (Peered (c_id c) pw pm) (ChannelAppend (c_set_peer peer pw pm c) s1)) = (r, s'))
      by (cbn [c_id c_set_peer] in H; congruence).
    destruct (send_msg_keeps _ _ _ _ _ _ E1 (plain_conf _)) as [G K].
    split.
    + apply K. eapply append_inv with (s := s1) (c := c_set_peer peer pw pm c) (es := [Peered (c_id c) pw pm]);
        try eassumption; try reflexivity.
      * cbn [c_id c_set_peer]. rewrite L1. assumption.
      * cbn. rewrite <- app_assoc. reflexivity.
      * constructor; [|constructor]. split; [reflexivity | exact I].
      * cbn [fold_left vstep].
        destruct (CI_newborn (c_id c) ty (s_ctxwin s) (s_ctxmax s) Hw) as (C1 & C2 & C3).
        rewrite <- Hc in C1, C2, C3. clear - C1 C2 C3 Hpw Hc.
        assert (Hw0 : c_win0 c = s_ctxwin s) by (rewrite Hc; reflexivity).
        destruct C1 as (A1 & A2 & A3 & A4 & A5 & A6 & A7 & A8 & A9 & A10 & A11 & A12).
        unfold CI, cinv, cle, cge in *; cbn [c_set_peer c_in c_win0 c_ext c_win c_pwin c_pmax c_pend
          v_sf v_st v_cf v_ct v_ch v_w0 v_an v_gr v_us v_pm v_eof c_eofTx] in *.
        rewrite Hw0. split; [|auto]. rewrite <- Hw0 at 1 2 3.
        do 8 (split; [assumption|]). split; [lia|]. split; [reflexivity|].
        split; [assumption|]. split; [reflexivity | apply A12].
    + eapply grows_trans; [exact G1|]. eapply grows_trans; [|exact G].
      eexists. split; [cbn; rewrite <- app_assoc; reflexivity|]. split; [nocp|]. intros x Hx. left.
      unfold ids in *. cbn [ChannelAppend log set_list s_list]. rewrite map_app. apply in_or_app. auto.
  - eapply (Href peer OPEN_ADMINISTRATIVELY_PROHIBITED s1 I1 G1).
    destruct verdict; congruence.
Qed.

(* ------------------------------------------------------------------ *)
(* Pending credit                                                       *)

Lemma pending_inv : forall cl h a ids r s r' s', pending_loop a ids r s = (r', s') -> Inv cl h s ->
  (cl = true -> forall id, ans_ok (a id)) -> (h = true -> cl = true) ->
  Inv cl h s' /\ grows s s'.
Proof.
  intros cl h a ids. induction ids as [|id ids IH]; intros r s r' s' H Hinv Hcl Hh; cbn [pending_loop] in H.
  { injection H as <- <-. split; [assumption | apply grows_refl]. }
  destruct (find_self id (s_list s)) as [c|] eqn:Hf; [|eapply IH; eassumption].
  destruct (c_pend c =? 0); [eapply IH; eassumption|].
  destruct (ChannelCreditWindow id 0 (a id) s) as [r1 s1] eqn:Ec.
  destruct (Inv_find _ _ _ _ _ Hinv Hf) as [HCI _].
  pose proof HCI as (Hc & Hle & Hge).
  pose proof Hc as (A1 & A2 & A3 & A4 & A5 & A6 & A7 & A8 & A9 & A10 & A11 & A12).
  destruct (credit_spec _ _ _ _ _ _ _ Ec Hf A11 ltac:(reflexivity))
    as (p & es & T & Hp & Hes & _ & Hout).
  assert (I1 : Inv cl h s1).
  { eapply Inv_touch; [exact Hinv | exact T|]. intros _. unfold c_set_pend.
    assert (Hlt : c_pend c + 0 < W32) by (unfold is32 in A11; lia).
    eapply CI_credit with (amount := 0) (a := a id) (id := id); eauto; try lia.
    destruct Hout as [(O1 & _)|(O1 & O2)]; [lia|]. right. auto. }
  destruct (IH _ _ _ _ H I1 Hcl Hh) as [I2 G2]. split; [assumption|].
  eapply grows_trans; [eapply grows_touch; [exact T | nocp] | exact G2].
Qed.

Lemma flushpending_inv : forall cl h a s r' s', SendPendingChannelWindowAdjust a s = (r', s') -> Inv cl h s ->
  (cl = true -> forall id, ans_ok (a id)) -> (h = true -> cl = true) ->
  Inv cl h s' /\ grows s s'.
Proof.
  intros cl h a s r' s' H Hinv Hcl Hh. unfold SendPendingChannelWindowAdjust in H.
  destruct (keying s); [injection H as <- <-; split; [assumption | apply grows_refl]|].
  destruct (pending_loop a (map c_id (s_list s)) WS_SUCCESS s) as [r1 s1] eqn:E.
  destruct (pending_inv _ _ _ _ _ _ _ _ E Hinv Hcl Hh) as [I1 G1]. injection H as <- <-.
  split; [eapply Inv_quiet; [exact I1 | apply set_err_quiet]|].
  eapply grows_trans; [exact G1 | apply grows_quiet, set_err_quiet].
Qed.

(* ------------------------------------------------------------------ *)
(* Every step                                                           *)

Lemma keeps_use : forall cl h s s', keeps s s' -> Inv cl h s -> Inv cl h s' /\ grows s s'.
Proof. intros cl h s s' [G K] H. auto. Qed.

(* the channels an operation may remove *)
Definition closes (o : op) (s : cs) (x : N) : Prop :=
  match o with
  | PClose b _ | POpenFail b _ => exists j, GetUint32 b (lenN b) 0 = POk x j
  | AFree id => x = id
  | AExit id _ _ => exists c c', find_self id (s_list s) = Some c /\ In c' (s_list s) /\
                                 c_peer c' = c_peer c /\ c_id c' = x
  | _ => False
  end.

Lemma openfail_keeps : forall cb b s r s', DoChannelOpenFail cb b s = Some (r, s') ->
  keepsP (fun x => exists j, GetUint32 b (lenN b) 0 = POk x j) s s'.
Proof.
  intros cb b s r s' H. unfold DoChannelOpenFail in H. cbv zeta in H.
  match goal with |- ?G => assert (Hsame : forall r0, Some (r0, s) = Some (r, s') -> G) end.
  { intros r0 E. injection E as _ <-. apply keeps_P, keeps_refl. }
  destruct (GetUint32 b (lenN b) 0) as [id i|e i|]; [|eauto|discriminate].
  destruct (GetUint32 b (lenN b) i) as [x j|e j|]; [|eauto|discriminate].
  destruct (GetString 80 b (lenN b) j) as [t k|e k|]; [|eauto|discriminate].
  destruct (GetSize b (lenN b) k) as [y l|e l|]; [|eauto|discriminate].
  match type of H with match ?v with _ => _ end = _ => set (verdict := v) in *; clearbody verdict end.
  destruct (rc_eq_dec verdict WS_SUCCESS) as [->|Hne].
  - destruct (RemoveSelf id s) as [r1 s1] eqn:E.
    assert (s' = s1) by (destruct r1; congruence). subst. destruct (remove_keeps _ _ _ _ E) as [G K].
    split; [|exact K]. eapply growsP_weaken; [exact G|]. intros z (c & _ & Hc & <-).
    apply N.eqb_eq in Hc. rewrite Hc. eauto.
  - apply (Hsame verdict). destruct verdict; congruence.
Qed.

Lemma doeof_keeps : forall a b s r s', DoChannelEof a b s = Some (r, s') -> keeps s s'.
Proof.
  intros a b s r s' H. unfold DoChannelEof in H. cbv zeta in H.
  destruct (GetUint32 b (lenN b) 0) as [id i|e i|];
    [|injection H as <- <-; apply keeps_refl|discriminate].
  destruct (find_self id (s_list s)) as [c|]; [|injection H as <- <-; apply keeps_refl].
  set (s1 := on_chan id (fun c => c_flags true (c_eofTx c) (c_closeTx c) c) s) in *.
  assert (K1 : keeps s s1) by (apply on_chan_keeps; [reflexivity | intros; apply same_flags]).
  clearbody s1.
  destruct (if c_eofTx c then (WS_SUCCESS, s1) else SendChannelEof (c_peer c) a s1) as [r2 s2] eqn:E.
  injection H as <- <-. eapply keeps_trans; [exact K1|].
  eapply keeps_trans; [|apply keeps_quiet, set_last_quiet].
  destruct (c_eofTx c); [injection E as <- <-; apply keeps_refl | eapply eof_keeps; exact E].
Qed.

Lemma doclose_keeps : forall a b s r s', DoChannelClose a b s = Some (r, s') ->
  keepsP (fun x => exists j, GetUint32 b (lenN b) 0 = POk x j) s s'.
Proof.
  intros a b s r s' H. unfold DoChannelClose in H. cbv zeta in H.
  destruct (GetUint32 b (lenN b) 0) as [id i|e i|];
    [|injection H as <- <-; apply keeps_P, keeps_refl|discriminate].
  destruct (find_self id (s_list s)) as [c|]; [|injection H as <- <-; apply keeps_P, keeps_refl].
  destruct (if c_closeTx c then (WS_SUCCESS, s) else SendChannelClose (c_peer c) a s) as [r1 s1] eqn:E.
  assert (K1 : keeps s s1).
  { destruct (c_closeTx c); [injection E as <- <-; apply keeps_refl | eapply close_keeps; exact E]. }
  destruct (rc_eq_dec r1 WS_SUCCESS) as [->|Hne].
  - destruct (RemoveSelf id s1) as [r2 s2] eqn:Er. 
    assert (K2 : keepsP (fun x => exists j, POk id i = POk x j) s1 s2).
    { destruct (remove_keeps _ _ _ _ Er) as [G K]. split; [|exact K].
      eapply growsP_weaken; [exact G|]. intros z (x & _ & Hc & <-). apply N.eqb_eq in Hc. rewrite Hc. eauto. }
    apply (keeps_P (fun x => exists j, POk id i = POk x j)) in K1.
    destruct (rc_eq_dec r2 WS_SUCCESS) as [->|Hn2].
    + injection H as <- <-. eapply keepsP_trans; [exact K1|]. eapply keepsP_trans; [exact K2|].
      apply keeps_P, keeps_quiet, set_last_quiet.
    + assert (s' = s2) by (destruct r2; congruence). subst. eapply keepsP_trans; eassumption.
  - assert (s' = s1) by (destruct r1; congruence). subst. apply keeps_P. assumption.
Qed.

(* neither EOF nor close changes who is who *)
Lemma upd_idpeer : forall id f l, (forall c, c_id (f c) = c_id c /\ c_peer (f c) = c_peer c) ->
  map (fun c => (c_id c, c_peer c)) (upd id f l) = map (fun c => (c_id c, c_peer c)) l.
Proof.
  intros id f l Hf. induction l as [|a l IH]; [reflexivity|]. cbn [upd].
  destruct (c_id a =? id); cbn [map]; [|f_equal; assumption].
  destruct (Hf a) as [-> ->]. reflexivity.
Qed.
Lemma eof_idpeer : forall p a s r s', SendChannelEof p a s = (r, s') ->
  map (fun c => (c_id c, c_peer c)) (s_list s') = map (fun c => (c_id c, c_peer c)) (s_list s).
Proof.
  intros p a s r s' H. unfold SendChannelEof in H.
  destruct (negb (s_up s)); [injection H as <- <-; reflexivity|].
  destruct (find_peer p (s_list s)) as [c|]; [|injection H as <- <-; reflexivity].
  destruct (c_eofTx c); [injection H as <- <-; reflexivity|].
  destruct (send_msg _ _ a s) as [r1 s1] eqn:E. pose proof (send_msg_list _ _ _ _ _ _ E) as L.
  destruct (rc_eq_dec r1 WS_SUCCESS) as [->|Hne].
  - injection H as <- <-. cbn [log on_chan set_list s_list]. rewrite upd_idpeer by (intros; split; reflexivity).
    rewrite L. reflexivity.
  - assert (s' = s1) by (destruct r1; congruence). subst. rewrite L. reflexivity.
Qed.
Lemma close_idpeer : forall p a s r s', SendChannelClose p a s = (r, s') ->
  map (fun c => (c_id c, c_peer c)) (s_list s') = map (fun c => (c_id c, c_peer c)) (s_list s).
Proof.
  intros p a s r s' H. unfold SendChannelClose in H.
  destruct (find_peer p (s_list s)) as [c|]; [|injection H as <- <-; reflexivity].
  destruct (c_closeTx c); [injection H as <- <-; reflexivity|].
  destruct (bundle _ _ a s) as [r1 s1] eqn:E.
  assert (L : s_list s1 = s_list s).
  { destruct (bundle_cases _ _ _ _ _ _ E) as [[-> ->]|[_ Hq]]; [reflexivity | apply Hq]. }
  destruct (rc_eq_dec r1 WS_SUCCESS) as [->|Hne].
  - destruct (flush (a_flush a) s1) as [r2 s2] eqn:Ef. injection H as <- <-.
    cbn [on_chan set_list s_list]. rewrite upd_idpeer by (intros; split; reflexivity).
    rewrite (q_list _ _ (flush_quiet _ _ _ _ Ef)), L. reflexivity.
  - assert (s' = s1) by (destruct r1; congruence). subst. rewrite L. reflexivity.
Qed.

Lemma exit_keeps : forall id a1 a2 s r s', ChannelExit id a1 a2 s = (r, s') ->
  keepsP (closes (AExit id a1 a2) s) s s'.
Proof.
  intros id a1 a2 s r s' H. unfold ChannelExit in H.
  destruct (find_self id (s_list s)) as [c|] eqn:Hf; [|injection H as <- <-; apply keeps_P, keeps_refl].
  destruct (SendChannelEof (c_peer c) a1 s) as [r1 s1] eqn:E1. pose proof (eof_keeps _ _ _ _ _ E1) as K1.
  destruct (rc_eq_dec r1 WS_SUCCESS) as [->|Hne].
  2:{ assert (s' = s1) by (destruct r1; congruence). subst. apply keeps_P. assumption. }
  destruct (SendChannelClose (c_peer c) a2 s1) as [r2 s2] eqn:E2. pose proof (close_keeps _ _ _ _ _ E2) as K2.
  destruct (rc_eq_dec r2 WS_SUCCESS) as [->|Hne].
  2:{ assert (s' = s2) by (destruct r2; congruence). subst. apply keeps_P. eapply keeps_trans; eassumption. }
  eapply keepsP_trans; [apply keeps_P; exact K1|]. eapply keepsP_trans; [apply keeps_P; exact K2|].
  destruct (remove_keeps _ _ _ _ H) as [G K]. split; [|exact K].
  eapply growsP_weaken; [exact G|]. intros x (c2 & Hin & Hp & <-). apply N.eqb_eq in Hp.
  pose proof (close_idpeer _ _ _ _ _ E2) as L2. rewrite (eof_idpeer _ _ _ _ _ E1) in L2.
  assert (Hin2 : In (c_id c2, c_peer c2) (map (fun c => (c_id c, c_peer c)) (s_list s))).
  { rewrite <- L2. apply (in_map (fun c => (c_id c, c_peer c))). exact Hin. }
  apply in_map_iff in Hin2. destruct Hin2 as (c3 & E3 & Hin3). injection E3 as E4 E5.
  cbn [closes]. exists c, c3. rewrite E4, E5. auto.
Qed.

Lemma setwin_keeps : forall cl h w m s r s', SetWindowPacketSize w m s = (r, s') -> Inv cl h s ->
  Inv cl h s' /\ grows s s'.
Proof.
  intros cl h w m s r s' H (H1 & H2 & H3 & H4 & H5). unfold SetWindowPacketSize in H.
  destruct (negb (w =? 0) && (WINDOW_SZ_UPPER_BOUND <? w)) eqn:Ew.
  { injection H as <- <-. split; [repeat split; assumption | apply grows_refl]. }
  destruct (negb (m =? 0) && (MAX_PACKET_SZ_CHAN <? m)).
  { injection H as <- <-. split; [repeat split; assumption | apply grows_refl]. }
  injection H as <- <-.
  split; [|exists []; cbn [set_ctx s_log]; rewrite app_nil_r; repeat split; auto].
  unfold Inv. cbn [set_ctx s_list s_log s_next s_ctxwin].
  do 3 (split; [assumption|]). split; [|assumption].
  unfold is32, W32, DEFAULT_WINDOW_SZ, WINDOW_SZ_UPPER_BOUND in *.
  destruct (N.eqb_spec w 0); [lia|]. cbn [negb andb] in Ew. lia.
Qed.

Lemma peek_quiet : forall n s r s', stream_peek n s = Some (r, s') -> quietly s s'.
Proof.
  intros n s r s' H. unfold stream_peek in H. cbv zeta in H.
  destruct (s_list s) as [|c l]; [injection H as <- <-; apply quiet_refl|].
  destruct (keying s); [injection H as <- <-; apply set_err_quiet|].
  destruct (c_eofRx c); [injection H as <- <-; apply set_err_quiet|].
  destruct (rdn _ _ _); [|discriminate]. injection H as <- <-. apply quiet_refl.
Qed.

(* what a step does to the record and to the list *)
Definition effect (o : op) (r : ret) (s s' : cs) : Prop :=
  match o with
  | AStreamRead _ _ =>
      match r with
      | RData d => d <> [] /\ exists c l, s_list s = c :: l /\ reads (c_id c) false d s s'
      | _ => grows s s'
      end
  | AIdRead id _ _ | ARead id _ _ =>
      match r with
      | RData d => reads id false d s s'
      | _ => grows s s' \/ exists d, reads id false d s s'
      end
  | AReadExt id _ _ =>
      match r with RData (x :: d) => reads id true (x :: d) s s' | _ => grows s s' end
  | _ => growsP (closes o s) s s'
  end.
Lemma effect_lgrows : forall o r s s', effect o r s s' -> lgrows s s'.
Proof.
  intros o r s s' H. destruct o; cbn [effect] in H; try (eapply growsP_lgrows; exact H).
  - destruct r as [k|d|e]; try (eapply growsP_lgrows; exact H).
    destruct H as (_ & c & l & _ & H). eapply reads_lgrows; exact H.
  - destruct r as [k|d|e]; try (destruct H as [H|[d H]]); (eapply growsP_lgrows; exact H) || (eapply reads_lgrows; exact H).
  - destruct r as [k|d|e]; try (destruct H as [H|[d H]]); (eapply growsP_lgrows; exact H) || (eapply reads_lgrows; exact H).
  - destruct r as [k|[|x d]|e]; (eapply growsP_lgrows; exact H) || (eapply reads_lgrows; exact H).
Qed.
Lemma grows_P : forall P s s', grows s s' -> growsP P s s'.
Proof. intros P s s' H. eapply growsP_weaken; [exact H | intros x []]. Qed.
Lemma good_P : forall P cl h s s', Inv cl h s' /\ grows s s' -> Inv cl h s' /\ growsP P s s'.
Proof. intros P cl h s s' [H1 H2]. split; [assumption | apply grows_P; assumption]. Qed.
Lemma keepsP_use : forall P cl h s s', keepsP P s s' -> Inv cl h s -> Inv cl h s' /\ growsP P s s'.
Proof. intros P cl h s s' [G K] H. auto. Qed.

Lemma step_inv : forall cl h o s r s', step o s = Some (r, s') -> Inv cl h s -> op_ok o ->
  (cl = true -> transport_ok o) -> (h = true -> cl = true /\ peer_honest (s_log s')) ->
  Inv cl h s' /\ effect o r s s'.
Proof.
  intros cl h o s r s' H Hinv Hop Hcl Hh.
  assert (Hlifth : forall x, lifth x = Some (r, s') -> exists r0, x = Some (r0, s')).
  { intros [[r0 s0]|] E; [|discriminate]. cbn [lifth] in E. injection E as _ <-. eauto. }
  assert (Hlift : forall x, lift x = Some (r, s') -> exists r0, x = (r0, s')).
  { intros [r0 s0] E. unfold lift in E; cbn [fst snd] in E. injection E as _ <-. eauto. }
  destruct o; cbn [step op_ok transport_ok effect] in *;
    try (apply Hlifth in H; destruct H as [r0 H]); try (apply Hlift in H; destruct H as [r0 H]).
  - apply good_P. eapply data_keeps; eassumption.
  - apply good_P. eapply ext_keeps; eassumption.
  - apply good_P. eapply adjust_keeps; eassumption.
  - apply good_P. eapply accept_keeps; eassumption.
  - apply good_P. eapply conf_keeps; eassumption.
  - eapply keepsP_use; [eapply openfail_keeps; exact H | assumption].
  - eapply keepsP_use; [apply keeps_P; eapply doeof_keeps; exact H | assumption].
  - eapply keepsP_use; [eapply doclose_keeps; exact H | assumption].
  - eapply stream_read_inv; eassumption.
  - eapply keeps_use; [apply keeps_quiet; eapply peek_quiet; exact H | assumption].
  - eapply read_inv; eassumption.
  - unfold ChannelRead in H. destruct (keying s).
    + injection H as <- <-. split; [eapply Inv_quiet; [exact Hinv | apply set_err_quiet]|].
      left. apply grows_quiet, set_err_quiet.
    + eapply read_inv; eassumption.
  - eapply readext_inv; eassumption.
  - unfold stream_send in H. destruct (s_list s) as [|c l] eqn:El.
    { injection H as <- <-. apply good_P. eapply keeps_use; [apply keeps_refl | assumption]. }
    destruct (keying s).
    + injection H as <- <-. apply good_P. eapply keeps_use; [apply keeps_quiet, set_err_quiet | assumption].
    + assert (E : SendChannelData false (c_id c) data f1 f2 a s = (r, s')) by congruence.
      apply good_P. eapply send_keeps; [exact E | assumption].
  - unfold ChannelIdSend in H. destruct (find_self id (s_list s)) as [c|].
    2:{ injection H as <- <-. apply good_P. eapply keeps_use; [apply keeps_refl | assumption]. }
    destruct (c_conf c).
    + assert (E : SendChannelData ext id data f1 f2 a s = (r, s')) by congruence.
      apply good_P. eapply send_keeps; [exact E | assumption].
    + injection H as <- <-. apply good_P. eapply keeps_use; [apply keeps_refl | assumption].
  - apply good_P. eapply open_keeps; eassumption.
  - eapply keepsP_use; [eapply exit_keeps; exact H | assumption].
  - apply good_P. eapply keeps_use; [eapply eof_keeps; exact H | assumption].
  - apply good_P. eapply keeps_use; [eapply close_keeps; exact H | assumption].
  - destruct (remove_keeps _ _ _ _ H) as [G K]. split; [auto|].
    eapply growsP_weaken; [exact G|]. intros x (c & _ & Hc & <-). apply N.eqb_eq in Hc. exact Hc.
  - apply good_P. eapply setwin_keeps; eassumption.
  - injection H as <- <-. apply good_P. eapply keeps_use; [apply keeps_quiet, set_key_quiet | assumption].
  - injection H as <- <-. apply good_P. eapply keeps_use; [apply keeps_quiet, set_key_quiet | assumption].
  - apply good_P. refine (flushpending_inv cl h _ _ _ _ H _ Hcl _).
    + eapply Inv_quiet; [exact Hinv | apply set_key_quiet].
    + intros E. apply Hh; assumption.
  - apply good_P. refine (flushpending_inv cl h _ _ _ _ H _ Hcl _).
    + eapply Inv_quiet; [exact Hinv | apply set_key_quiet].
    + intros E. apply Hh; assumption.
  - apply good_P. eapply keeps_use; [apply keeps_quiet; eapply flush_quiet; exact H | assumption].
  - apply good_P. eapply keeps_use; [apply keeps_quiet; eapply quiet_trans; [apply (set_out_quiet s true) |
      eapply flush_quiet; exact H] | assumption].
  - injection H as <- <-. apply good_P. eapply keeps_use; [apply keeps_quiet, set_err_quiet | assumption].
  - injection H as <- <-. apply good_P. eapply keeps_use; [apply keeps_quiet, set_up_quiet | assumption].
Qed.

(* ------------------------------------------------------------------ *)
(* Every run                                                            *)

Lemma start_inv : forall server w m, is32 w -> Inv true true (start server w m).
Proof.
  intros server w m Hw. unfold Inv, start. cbn [s_list s_next s_ctxwin s_log map].
  split; [constructor|]. split; [constructor|]. split; [reflexivity|]. split; [assumption | constructor].
Qed.
Lemma Inv_le : forall cl h cl' h' s, Inv cl h s -> (cl' = true -> cl = true) -> (h' = true -> h = true) ->
  Inv cl' h' s.
Proof.
  intros cl h cl' h' s (B1 & B2 & B3) Hc Hh. split; [assumption|]. split; [|assumption].
  eapply Forall_impl; [|exact B2]. intros x [X1 (X2 & X3 & X4)]. split; [assumption|].
  split; [assumption|]. split; auto.
Qed.

Lemma run_grows : forall os s t s', run os s = Some (t, s') -> Forall op_ok os -> Inv false false s ->
  lgrows s s'.
Proof.
  induction os as [|o os IH]; intros s t s' H Hop Hinv; cbn [run] in H.
  { injection H as <- <-. apply lgrows_refl. }
  destruct (step o s) as [[x s1]|] eqn:E; [|discriminate].
  destruct (run os s1) as [[t2 s2]|] eqn:E2; [|discriminate]. injection H as <- <-.
  inversion Hop as [|? ? Ho Hos]; subst.
  destruct (step_inv false false _ _ _ _ E Hinv Ho ltac:(discriminate) ltac:(discriminate)) as [I1 G1].
  eapply lgrows_trans; [eapply effect_lgrows; exact G1 | eapply IH; eassumption].
Qed.

Lemma run_inv : forall cl h os s t s', run os s = Some (t, s') -> Forall op_ok os -> Inv cl h s ->
  (cl = true -> Forall transport_ok os) -> (h = true -> cl = true /\ peer_honest (s_log s')) ->
  Inv cl h s'.
Proof.
  intros cl h os. induction os as [|o os IH]; intros s t s' H Hop Hinv Hcl Hh; cbn [run] in H.
  { injection H as <- <-. assumption. }
  destruct (step o s) as [[x s1]|] eqn:E; [|discriminate].
  destruct (run os s1) as [[t2 s2]|] eqn:E2; [|discriminate]. injection H as <- <-.
  inversion Hop as [|? ? Ho Hos]; subst.
  assert (Hcl1 : cl = true -> transport_ok o /\ Forall transport_ok os).
  { intros C. specialize (Hcl C). inversion Hcl; auto. }
  assert (I10 : Inv false false s1).
  { eapply step_inv; [exact E | eapply Inv_weaken; exact Hinv | assumption | discriminate | discriminate]. }
  pose proof (run_grows _ _ _ _ E2 Hos I10) as G2.
  eapply IH; [exact E2 | assumption | | intros C; apply Hcl1; assumption | assumption].
  eapply step_inv; [exact E | assumption | assumption | intros C; apply Hcl1; assumption|].
  intros C. destruct (Hh C) as [C1 C2]. split; [assumption|]. eapply honest_grows; eassumption.
Qed.

(* no step reads or writes outside a buffer *)
Lemma read_total : forall cl h id n a s, Inv cl h s -> ChannelRead_ id n a s <> None.
Proof.
  intros cl h id n a s Hinv H. unfold ChannelRead_ in H. cbv zeta in H.
  destruct (find_self id (s_list s)) as [c|] eqn:Hf; [|discriminate].
  destruct (n =? 0); [discriminate|].
  destruct (Inv_find _ _ _ _ _ Hinv Hf) as [((A1 & A2 & A3 & A4 & A5 & _) & _) _].
  assert (Hid : c_id c = id) by (apply find_self_some in Hf; tauto).
  rewrite sub32_small in H by (unfold is32 in *; lia).
  set (k := N.min n (b_len (c_in c) - b_idx (c_in c))) in *.
  assert (Hk : k <= b_len (c_in c) - b_idx (c_in c)) by lia. clearbody k.
  destruct (rdn_in (b_data (c_in c)) (b_idx (c_in c)) k ltac:(unfold b_len in *; lia)) as (d & Hd & _).
  rewrite Hd in H.
  set (f := c_rx (c_win c) (c_pend c) (advance k (c_in c)) (c_ext c)) in *.
  assert (Hf1 : find_self id (s_list (log (Copied id false d) (on_chan id f s))) = Some (f c)).
  { cbn [log on_chan set_list s_list]. rewrite (upd_const id f _ c Hf). eapply upd_find; [exact Hf | exact Hid]. }
  assert (H32 : is32 (b_len (c_in c))) by (unfold is32 in *; lia).
  destruct (unread_advance (c_in c) k ltac:(lia) H32) as [U1 U2].
  destruct (UpdateChannelWindow id a (log (Copied id false d) (on_chan id f s))) as [[r2 s2]|] eqn:E.
  - destruct r2; discriminate.
  - revert E. eapply update_total; [exact Hf1| |exact H32].
    unfold f; cbn [c_in c_rx]. rewrite U2. change (b_len (advance k (c_in c))) with (b_len (c_in c)). lia.
Qed.

Lemma step_total : forall cl h o s, Inv cl h s -> op_ok o -> step o s <> None.
Proof.
  intros cl h o s Hinv Hop H.
  assert (Hlifth : forall x, lifth x = None -> x = None) by (intros [[r0 s0]|] E; [discriminate | reflexivity]).
  destruct o; cbn [step op_ok] in *; try discriminate; try apply Hlifth in H.
  - unfold DoChannelData in H. cbv zeta in H.
    destruct (gu32_cases buf 0 Hop (N.le_0_l _)) as [(id & Eg & Hid32 & Hi)|(e & j & Eg)]; rewrite Eg in H; [|discriminate].
    destruct (gsize_cases buf (0 + 4) Hop Hi) as [(sz & Eg3 & Hsz & Hk)|(e & j & Eg3)]; rewrite Eg3 in H; [|discriminate].
    destruct (find_self id (s_list s)) as [c|]; [|discriminate].
    destruct (c_max c <? sz); [discriminate|].
    destruct (rdn_in buf (0 + 4 + 4) sz Hk) as (d & Ed & _). rewrite Ed in H.
    destruct (ChannelPutData d c) as [r c']. destruct r; discriminate.
  - unfold DoChannelExtendedData in H. cbv zeta in H.
    destruct (gu32_cases buf 0 Hop (N.le_0_l _)) as [(id & Eg & Hid32 & Hi)|(e & j & Eg)]; rewrite Eg in H; [|discriminate].
    destruct (gu32_cases buf (0 + 4) Hop Hi) as [(ty & Eg2 & _ & Hj)|(e & j & Eg2)]; rewrite Eg2 in H; [|discriminate].
    destruct (gsize_cases buf (0 + 4 + 4) Hop Hj) as [(sz & Eg3 & Hsz & Hk)|(e & j & Eg3)]; rewrite Eg3 in H; [|discriminate].
    destruct (find_self id (s_list s)) as [c|] eqn:Hf; [|discriminate].
    destruct (c_max c <? sz); [discriminate|]. destruct (c_win c <? sz); [discriminate|].
    destruct (ty =? CHANNEL_EXTENDED_DATA_STDERR).
    + destruct (rdn_in buf (0 + 4 + 4 + 4) sz Hk) as (d & Ed & Ld). rewrite Ed in H.
      destruct (Inv_find _ _ _ _ _ Hinv Hf) as [((_ & _ & _ & A4 & _) & _) _].
      destruct (AppendBuffer_spec ok (c_ext c) d A4 ltac:(rewrite Ld; exact Hsz)) as (r0 & x & Ea & _).
      rewrite Ea in H. destruct r0; discriminate.
    + destruct (ChannelCreditWindow id sz a (log (Ignored id sz) s)) as [r1 s1]. destruct r1; discriminate.
  - unfold DoChannelWindowAdjust in H. cbv zeta in H.
    destruct (gu32_cases buf 0 Hop (N.le_0_l _)) as [(id & Eg & Hid32 & Hi)|(e & j & Eg)]; rewrite Eg in H; [|discriminate].
    destruct (gu32_cases buf (0 + 4) Hop Hi) as [(ty & Eg2 & _ & Hj)|(e & j & Eg2)]; rewrite Eg2 in H; [|discriminate].
    destruct (find_self id (s_list s)) as [c|] eqn:Hf; [|discriminate].
    destruct (_ <? _); discriminate.
  - unfold DoChannelOpen in H. cbv zeta in H.
    destruct (gstr_cases buf 0 32 Hop (N.le_0_l _) eq_refl) as [(tz & i & Eg & Hi)|(e & j & Eg)]; rewrite Eg in H; [|discriminate].
    destruct (gu32_cases buf i Hop Hi) as [(peer & Eg2 & _ & Hj)|(e & j & Eg2)]; rewrite Eg2 in H; [|discriminate].
    destruct (gu32_cases buf (i + 4) Hop Hj) as [(pw & Eg3 & Hpw & Hk)|(e & j & Eg3)]; rewrite Eg3 in H; [|discriminate].
    destruct (gu32_cases buf (i + 4 + 4) Hop Hk) as [(pm & Eg4 & _ & Hl)|(e & j & Eg4)]; rewrite Eg4 in H; [|discriminate].
    set (ty := NameToId (removelast tz)) in *. clearbody ty.
    assert (Htail : forall (u : pres unit), u <> POob ->
      match u with
      | POk _ _ =>
          match ChannelNew (o_ok o) ty s with
          | None => Some (SendChannelOpenFail peer OPEN_RESOURCE_SHORTAGE (o_desc o) [101; 110] (o_send o) s)
          | Some (c0, s1) => 
              match (if (ty =? ID_CHANTYPE_TCPIP_FORWARD) && s_server s then WS_ERROR
                     else match o_cb o with
                          | WS_SUCCESS => if (ty =? ID_CHANTYPE_TCPIP_DIRECT) || (ty =? ID_CHANTYPE_TCPIP_FORWARD)
                                          then match o_fwd o with Some r => r | None => WS_ERROR end
                                          else WS_SUCCESS
                          | e => e
                          end) with
              | WS_SUCCESS => Some (SendChannelOpenConf (c_set_peer peer pw pm c0) (o_send o)
                   (log (Peered (c_id (c_set_peer peer pw pm c0)) pw pm) (ChannelAppend (c_set_peer peer pw pm c0) s1)))
              | _ => Some (SendChannelOpenFail peer OPEN_ADMINISTRATIVELY_PROHIBITED (o_desc o) [101; 110] (o_send o) s1)
              end
          end
      | PErr _ reason => Some (SendChannelOpenFail peer reason (o_desc o) [101; 110] (o_send o) s)
      | POob => None
      end <> None).
    { intros [u v|e reason|] Hu; [|discriminate|congruence].
      destruct (ChannelNew (o_ok o) ty s) as [[c0 s1]|]; [|discriminate].
      match goal with |- match ?v with _ => _ end <> _ => destruct v end; discriminate. }
    revert H. apply Htail. clear Htail.
    destruct (ty =? ID_CHANTYPE_SESSION); [destruct (1 <=? lenN (s_list s)); discriminate|].
    destruct ((ty =? ID_CHANTYPE_TCPIP_DIRECT) || (ty =? ID_CHANTYPE_TCPIP_FORWARD)); [|discriminate].
    destruct (openfwd_cases buf (i + 4 + 4 + 4) Hop Hl) as [(j & ->)|(e & j & ->)]; discriminate.
  - unfold DoChannelOpenConf in H. cbv zeta in H.
    destruct (gu32_cases buf 0 Hop (N.le_0_l _)) as [(id & Eg & Hid32 & Hi)|(e & j & Eg)]; rewrite Eg in H; [|discriminate].
    destruct (gu32_cases buf (0 + 4) Hop Hi) as [(p & Eg2 & _ & Hj)|(e & j & Eg2)]; rewrite Eg2 in H; [|discriminate].
    destruct (gu32_cases buf (0 + 4 + 4) Hop Hj) as [(pw & Eg3 & Hpw & Hk)|(e & j & Eg3)]; rewrite Eg3 in H; [|discriminate].
    destruct (gu32_cases buf (0 + 4 + 4 + 4) Hop Hk) as [(pm & Eg4 & _ & Hl)|(e & j & Eg4)]; rewrite Eg4 in H; [|discriminate].
    destruct (find_self id (s_list s)); discriminate.
  - unfold DoChannelOpenFail in H. cbv zeta in H.
    destruct (gu32_cases buf 0 Hop (N.le_0_l _)) as [(id & Eg & Hid32 & Hi)|(e & j & Eg)]; rewrite Eg in H; [|discriminate].
    destruct (gu32_cases buf (0 + 4) Hop Hi) as [(p & Eg2 & _ & Hj)|(e & j & Eg2)]; rewrite Eg2 in H; [|discriminate].
    destruct (gstr_cases buf (0 + 4 + 4) 80 Hop Hj eq_refl) as [(tz & i & Eg3 & Hi3)|(e & j & Eg3)]; rewrite Eg3 in H; [|discriminate].
    destruct (gsize_cases buf i Hop Hi3) as [(sz & Eg4 & Hsz & Hk)|(e & j & Eg4)]; rewrite Eg4 in H; [|discriminate].
    match type of H with match ?v with _ => _ end = _ => destruct v end; try discriminate.
    destruct (RemoveSelf id s) as [r1 s1]. destruct r1; discriminate.
  - unfold DoChannelEof in H. cbv zeta in H.
    destruct (gu32_cases buf 0 Hop (N.le_0_l _)) as [(id & Eg & Hid32 & Hi)|(e & j & Eg)]; rewrite Eg in H; [|discriminate].
    destruct (find_self id (s_list s)) as [c|]; [|discriminate].
    match type of H with (let '(_, _) := ?v in _) = _ => destruct v end. discriminate.
  - unfold DoChannelClose in H. cbv zeta in H.
    destruct (gu32_cases buf 0 Hop (N.le_0_l _)) as [(id & Eg & Hid32 & Hi)|(e & j & Eg)]; rewrite Eg in H; [|discriminate].
    destruct (find_self id (s_list s)) as [c|]; [|discriminate].
    match type of H with (let '(_, _) := ?v in _) = _ => destruct v as [r1 s1] end.
    destruct r1; try discriminate. destruct (RemoveSelf id s1) as [r2 s2]. destruct r2; discriminate.
  - unfold stream_read in H. cbv zeta in H. destruct (s_list s) as [|c l] eqn:El; [discriminate|].
    destruct (n =? 0); [discriminate|]. destruct (c_eofRx c); [discriminate|].
    destruct (keying s); [discriminate|].
    assert (Hf : find_self (c_id c) (s_list s) = Some c).
    { rewrite El. unfold find_self. cbn [find]. rewrite N.eqb_refl. reflexivity. }
    destruct (Inv_find _ _ _ _ _ Hinv Hf) as [((A1 & A2 & A3 & A4 & A5 & _) & _) _].
    rewrite sub32_small in H by (unfold is32 in *; lia).
    destruct (b_len (c_in c) - b_idx (c_in c) =? 0); [discriminate|].
    destruct (rdn_in (b_data (c_in c)) (b_idx (c_in c)) (N.min n (b_len (c_in c) - b_idx (c_in c)))
                ltac:(unfold b_len in *; lia)) as (d & Hd & _).
    rewrite Hd in H.
    destruct (UpdateChannelWindow (c_id c) a (set_err WS_SUCCESS s)) as [[r2 s2]|] eqn:E.
    + destruct r2; discriminate.
    + revert E. eapply update_total; [exact Hf | assumption | unfold is32 in *; lia].
  - unfold stream_peek in H. cbv zeta in H. destruct (s_list s) as [|c l] eqn:El; [discriminate|].
    destruct (keying s); [discriminate|]. destruct (c_eofRx c); [discriminate|].
    assert (Hf : find_self (c_id c) (s_list s) = Some c).
    { rewrite El. unfold find_self. cbn [find]. rewrite N.eqb_refl. reflexivity. }
    destruct (Inv_find _ _ _ _ _ Hinv Hf) as [((A1 & A2 & A3 & A4 & A5 & _) & _) _].
    rewrite sub32_small in H by (unfold is32 in *; lia).
    destruct (rdn_in (b_data (c_in c)) (b_idx (c_in c)) (N.min n (b_len (c_in c) - b_idx (c_in c)))
                ltac:(unfold b_len in *; lia)) as (d & Hd & _).
    rewrite Hd in H. discriminate.
  - revert H. eapply read_total; exact Hinv.
  - unfold ChannelRead in H. destruct (keying s); [discriminate|]. revert H. eapply read_total; exact Hinv.
  - unfold ChannelReadExt in H. cbv zeta in H.
    destruct (find_self id (s_list s)) as [c|] eqn:Hf; [|discriminate].
    destruct (n =? 0); [discriminate|]. destruct (_ <? _); [discriminate|].
    destruct (Inv_find _ _ _ _ _ Hinv Hf) as [((A1 & A2 & A3 & A4 & A5 & _) & _) _].
    rewrite (sub32_used (c_ext c) A4) in H. pose proof A4 as (X1 & X2 & X3 & X4).
    pose proof (lenN_unread (c_ext c)) as HL.
    set (k := N.min n (lenN (unread (c_ext c)))) in *.
    assert (Hk : k <= lenN (unread (c_ext c))) by lia. clearbody k.
    destruct (rdn_in (b_data (c_ext c)) (b_idx (c_ext c)) k ltac:(unfold b_len in *; lia)) as (d & Hd & _).
    rewrite Hd in H. destruct (k =? 0); [discriminate|].
    assert (H32x : is32 (b_len (c_ext c))) by (unfold is32 in *; lia).
    destruct (unread_advance (c_ext c) k ltac:(lia) H32x) as [U1 U2].
    assert (Bx1 : buf_inv (advance k (c_ext c))).
    { unfold buf_inv. rewrite U2. change (b_len (advance k (c_ext c))) with (b_len (c_ext c)).
      change (b_cap (advance k (c_ext c))) with (b_cap (c_ext c)). repeat split; try assumption; lia. }
    destruct (ShrinkBuffer_spec (advance k (c_ext c)) false Bx1) as (b' & E & _).
    rewrite E in H.
    destruct (b_idx (advance k (c_ext c)) =? b_len (advance k (c_ext c)));
      match type of H with (let '(_, _) := ?v in _) = _ => destruct v end; discriminate.
Qed.

Lemma run_total : forall os cl h s, Inv cl h s -> Forall op_ok os -> run os s <> None.
Proof.
  induction os as [|o os IH]; intros cl h s Hinv Hop H; [discriminate|]. cbn [run] in H.
  inversion Hop as [|? ? Ho Hos]; subst.
  destruct (step o s) as [[x s1]|] eqn:E.
  2:{ revert E. eapply step_total; eassumption. }
  destruct (run os s1) as [[t s2]|] eqn:E2; [discriminate|].
  revert E2. eapply (IH false false); [|assumption].
  eapply step_inv; [exact E | eapply Inv_weaken; exact Hinv | assumption | discriminate | discriminate].
Qed.
