(* ChanProps2.v - C18, C19, C37, C38: channel numbers, reads, EOF. *)
From Verif Require Import Base BufModel BufSpec BufProofs WireModel WireSpec WireProofs NameTable NegoModel
  ChanModel ChanSpec ChanProofs ChanInv ChanStep ChanMore ChanProps.
From Coq Require Import List PeanoNat NArith Bool Lia.
From Coq Require Import ZifyBool ZifyNat ZifyN.
Import ListNotations.
Open Scope N_scope.

(* ------------------------------------------------------------------ *)
(* C18                                                                  *)

Theorem C18_unique : forall os t s c1 c2, history os t s -> live s c1 -> live s c2 ->
  c_id c1 = c_id c2 -> c1 = c2.
Proof.
  intros os t s c1 c2 H H1 H2 E. pose proof (history_inv _ _ _ H) as (N1 & _).
  pose proof (find_self_in _ _ N1 H1) as F1. pose proof (find_self_in _ _ N1 H2) as F2. congruence.
Qed.
Theorem C18_no_duplicates : forall os t s, history os t s -> NoDup (map c_id (s_list s)).
Proof. intros os t s H. apply (history_inv _ _ _ H). Qed.

(* Lookup by local number is exact. *)
Theorem C18_lookup : forall os t s id, history os t s ->
  match find_self id (s_list s) with
  | Some c => live s c /\ c_id c = id
  | None => forall c, live s c -> c_id c <> id
  end.
Proof.
  intros os t s id H. destruct (find_self id (s_list s)) as [c|] eqn:E.
  - apply find_self_some in E. exact E.
  - intros c Hc Hid. apply find_self_none in E. apply E. rewrite <- Hid. apply in_map. exact Hc.
Qed.

(* A new channel gets a number no live channel has, as long as there are
   fewer than 2^32 of them, also after the counter has wrapped. *)
Theorem C18_new_number : forall os t s ty, history os t s -> lenN (s_list s) < W32 ->
  exists c s1, ChannelNew true ty s = Some (c, s1) /\ is32 (c_id c) /\
    forall c', live s c' -> c_id c' <> c_id c.
Proof.
  intros os t s ty H Hl. pose proof (history_inv _ _ _ H) as Hinv.
  pose proof Hinv as (_ & _ & Hn & _).
  destruct (ChannelNew true ty s) as [[c s1]|] eqn:E.
  - exists c, s1. destruct (new_cases _ _ _ _ _ _ _ E Hinv) as (_ & H2 & H3 & _).
    split; [reflexivity|]. split; [assumption|]. intros c' Hc' E'. apply find_self_none in H3.
    apply H3. rewrite <- E'. apply in_map. exact Hc'.
  - exfalso. unfold ChannelNew in E. cbn [negb] in E.
    pose proof (fresh_total (s_list s) (s_next s) Hn Hl) as F.
    destruct (fresh (S (length (s_list s))) (s_next s) (s_list s)); [discriminate | congruence].
Qed.

(* The full statement about closing: *)
Definition close_spares_others : Prop :=
  forall os t s o r s' c, history os t s -> op_ok o -> step o s = Some (r, s') ->
    live s c -> ~ closes_channel o (c_id c) -> exists c', live s' c' /\ c_id c' = c_id c.

(* It holds for every operation except wolfSSH_ChannelExit, and for that too
   when no other live channel has the same peer number. *)
Theorem C18_close_spares_others_partial : forall os t s o r s' c, history os t s -> op_ok o ->
  step o s = Some (r, s') -> live s c -> ~ closes_channel o (c_id c) ->
  (forall id a1 a2 x, o = AExit id a1 a2 -> find_self id (s_list s) = Some x -> c_peer x <> c_peer c) ->
  exists c', live s' c' /\ c_id c' = c_id c.
Proof.
  intros os t s o r s' c H Ho E Hl Hn Hx. pose proof (history_inv _ _ _ H) as Hinv.
  destruct (step_inv false false _ _ _ _ E Hinv Ho ltac:(discriminate) ltac:(discriminate)) as [_ Ef].
  assert (Hin : In (c_id c) (ids s)) by (apply in_map; exact Hl).
  assert (Hk : In (c_id c) (ids s') -> exists c', live s' c' /\ c_id c' = c_id c).
  { intros Hi. apply in_map_iff in Hi. destruct Hi as (c' & E1 & E2). exists c'. auto. }
  assert (Hread : forall id x d, reads id x d s s' -> exists c', live s' c' /\ c_id c' = c_id c).
  { intros id x d (es & _ & _ & K). auto. }
  assert (Hgrow : grows s s' -> exists c', live s' c' /\ c_id c' = c_id c).
  { intros (es & _ & _ & K). destruct (K _ Hin) as [|[]]. auto. }
  assert (Hclose : growsP (closes o s) s s' -> ~ closes o s (c_id c) ->
                   exists c', live s' c' /\ c_id c' = c_id c).
  { intros (es & _ & _ & K) Hc. destruct (K _ Hin) as [Hi|Hi]; [auto | contradiction]. }
  assert (Hu : forall b x j, buf_ok b -> GetUint32 b (lenN b) 0 = POk x j -> x = be_value (takeN 4 b)).
  { intros b x j [Hb H32] Eg. rewrite GetUint32_eq in Eg; try assumption; try apply N.le_refl; [|reflexivity].
    destruct (0 + 4 <=? lenN b); [injection Eg as <- _; reflexivity | discriminate]. }
  destruct o; cbn [effect closes_channel op_ok] in *;
    try (apply Hclose; [exact Ef | cbn [closes]; tauto]).
  - apply Hclose; [exact Ef|]. cbn [closes]. intros (j & Eg). apply Hn. eapply Hu; eassumption.
  - apply Hclose; [exact Ef|]. cbn [closes]. intros (j & Eg). apply Hn. eapply Hu; eassumption.
  - destruct r; auto. destruct Ef as (_ & c0 & l & _ & Er). eauto.
  - destruct r; eauto; destruct Ef as [G|[d G]]; eauto.
  - destruct r; eauto; destruct Ef as [G|[d G]]; eauto.
  - destruct r as [k|[|x d]|e]; eauto.
  - apply Hclose; [exact Ef|]. cbn [closes]. intros (x & y & F1 & F2 & F3 & F4).
    specialize (Hx _ _ _ x eq_refl F1).
    assert (y = c) by (eapply C18_unique; eassumption). subst y. congruence.
Qed.

(* Exiting a channel the peer has not confirmed yet: its peer number is still
   0, and so is the first channel's. Channel 1 is closed by the application;
   channel 0 goes. *)
Definition client_open (keep : bool) : op := AOpen keep true ID_CHANTYPE_SESSION [] good WS_SUCCESS.
Definition demo18 : list op := [Established; client_open true; client_open true].
Theorem C18_close_spares_others_refuted : ~ close_spares_others.
Proof.
  intros H.
  assert (Hh : history demo18 (trace demo18) (after demo18)) by demo.
  destruct (step (AExit 1 good good) (after demo18)) as [[r s']|] eqn:E; [|vm_compute in E; discriminate].
  assert (Es : map c_id (s_list s') = [1]).
  { vm_compute in E. injection E as <- <-. reflexivity. }
  destruct (find_self 0 (s_list (after demo18))) as [c|] eqn:Ec; [|vm_compute in Ec; discriminate].
  pose proof (find_self_some _ _ _ Ec) as [Hin Hid].
  destruct (H _ _ _ (AExit 1 good good) r s' c Hh I E Hin) as (c' & H1 & H2).
  - cbn [closes_channel]. rewrite Hid. discriminate.
  - rewrite Hid in H2. assert (In 0 (map c_id (s_list s'))) by (rewrite <- H2; apply in_map; exact H1).
    rewrite Es in H0. destruct H0 as [H0|[]]. discriminate.
Qed.
Print Assumptions C18_unique.
Print Assumptions C18_no_duplicates.
Print Assumptions C18_lookup.
Print Assumptions C18_new_number.
Print Assumptions C18_close_spares_others_partial.
Print Assumptions C18_close_spares_others_refuted.

(* three channels, the middle one freed *)
Definition demo18b : list op := demo18 ++ [client_open false; AFree 1].
Example C18_demo_history : history demo18b (trace demo18b) (after demo18b).
Proof. demo. Qed.
Example C18_demo : map c_id (s_list (after demo18b)) = [0; 2] /\ lenN (s_list (after demo18b)) < W32.
Proof. vm_compute. split; reflexivity. Qed.

(* ------------------------------------------------------------------ *)
(* C19                                                                  *)

(* What was accepted from the peer is what reads took, in order, followed by
   what is still unread; for stdout and for stderr. *)
Theorem C19_in_order : forall os t s c, history os t s -> live s c ->
  stored (c_id c) false (s_log s) = copied (c_id c) false (s_log s) ++ unread (c_in c) /\
  stored (c_id c) true (s_log s) = copied (c_id c) true (s_log s) ++ unread (c_ext c).
Proof.
  intros os t s c H Hl. destruct (live_ci _ _ _ _ (history_inv _ _ _ H) Hl) as (_ & (HC & _) & _).
  destruct HC as (A1 & A2 & A3 & A4 & A5 & A6 & A7 & _). split; assumption.
Qed.

(* A read that returns bytes returns the next unread ones, as many as asked
   for or all there are, and takes exactly those; any other stream or stderr
   read takes nothing. *)
Theorem C19_stream_read : forall os t s n a r s', history os t s -> is32 n ->
  step (AStreamRead n a) s = Some (r, s') ->
  match r with
  | RData d => exists c l, s_list s = c :: l /\ d = takeN n (unread (c_in c)) /\ d <> [] /\
                 copies (s_log s') = copies (s_log s) ++ [(c_id c, false, d)]
  | _ => copies (s_log s') = copies (s_log s)
  end.
Proof.
  intros os t s n a r s' H Hn E. pose proof (history_inv _ _ _ H) as Hinv.
  destruct (step_inv false false _ _ _ _ E Hinv Hn ltac:(discriminate) ltac:(discriminate)) as [_ Ef].
  cbn [effect] in Ef. destruct r as [k|d|e]; try (eapply copies_grows; exact Ef).
  destruct (stream_read_ret _ _ _ _ _ _ _ E Hinv) as (c & l & El & Ed & _).
  destruct Ef as (Hd & c0 & l0 & El0 & R). exists c, l.
  assert (c0 = c) by congruence. subst c0.
  do 3 (split; [assumption|]). eapply copies_reads. exact R.
Qed.
Theorem C19_stderr_read : forall os t s id n a r s', history os t s -> is32 n ->
  step (AReadExt id n a) s = Some (r, s') ->
  match r with
  | RData d => exists c, live s c /\ c_id c = id /\ d = takeN n (unread (c_ext c)) /\
                 filter (fun x => nonempty (snd x)) (copies (s_log s'))
                   = filter (fun x => nonempty (snd x)) (copies (s_log s) ++ [(id, true, d)])
  | _ => copies (s_log s') = copies (s_log s)
  end.
Proof.
  intros os t s id n a r s' H Hn E. pose proof (history_inv _ _ _ H) as Hinv.
  destruct (step_inv false false _ _ _ _ E Hinv Hn ltac:(discriminate) ltac:(discriminate)) as [_ Ef].
  cbn [effect] in Ef. destruct r as [k|d|e]; try (eapply copies_grows; exact Ef).
  destruct (readext_ret _ _ _ _ _ _ _ _ E Hinv) as (c & Hf & Ed).
  apply find_self_some in Hf. destruct Hf as [Hc Hid].
  exists c. do 3 (split; [assumption|]). destruct d as [|x d].
  - rewrite (copies_grows _ _ _ Ef), filter_app. cbn [filter snd nonempty]. rewrite app_nil_r. reflexivity.
  - rewrite (copies_reads _ _ _ _ _ Ef). reflexivity.
Qed.
(* A read that succeeds by channel number likewise (when it fails see C37). *)
Theorem C19_channel_read : forall os t s id n a d s', history os t s -> is32 n ->
  step (AIdRead id n a) s = Some (RData d, s') \/ step (ARead id n a) s = Some (RData d, s') ->
  exists c, live s c /\ c_id c = id /\ d = takeN n (unread (c_in c)) /\
            copies (s_log s') = copies (s_log s) ++ [(id, false, d)].
Proof.
  intros os t s id n a d s' H Hn Hs. pose proof (history_inv _ _ _ H) as Hinv.
  assert (E : ChannelRead_ id n a s = Some (RData d, s')).
  { destruct Hs as [E|E]; cbn [step] in E; [exact E|]. unfold ChannelRead in E.
    destruct (keying s); [discriminate | exact E]. }
  destruct (step_inv false false (AIdRead id n a) _ _ _ E Hinv Hn ltac:(discriminate) ltac:(discriminate)) as [_ Ef].
  destruct (read_ret _ _ _ _ _ _ _ _ E Hinv) as (c & Hf & Ed).
  apply find_self_some in Hf. destruct Hf as [Hc Hid].
  exists c. do 3 (split; [assumption|]). eapply copies_reads. exact Ef.
Qed.
(* No other call takes data. *)
Theorem C19_others_take_nothing : forall os t s o r s', history os t s -> op_ok o ->
  step o s = Some (r, s') ->
  match o with AStreamRead _ _ | AIdRead _ _ _ | ARead _ _ _ | AReadExt _ _ _ => True
  | _ => copies (s_log s') = copies (s_log s) end.
Proof.
  intros os t s o r s' H Ho E. pose proof (history_inv _ _ _ H) as Hinv.
  destruct (step_inv false false _ _ _ _ E Hinv Ho ltac:(discriminate) ltac:(discriminate)) as [_ Ef].
  destruct o; cbn [effect] in Ef; try exact I; eapply copies_grows; exact Ef.
Qed.
(* Peeking shows the next bytes and changes nothing. *)
Theorem C19_peek : forall os t s n d s', history os t s -> step (AStreamPeek n) s = Some (RData d, s') ->
  s' = s /\ exists c l, s_list s = c :: l /\ d = takeN n (unread (c_in c)).
Proof. intros os t s n d s' H E. eapply peek_ret; [exact E | eapply history_inv; exact H]. Qed.
(* Over a whole session that uses stream and stderr reads: what the calls
   returned is what was taken, in the same order. *)
Theorem C19_returned : forall os t s, history os t s -> Forall reporting os ->
  returned t = taken (s_log s).
Proof.
  intros os t s (sv & w & m & Hw & Ho & Hr) Hrep.
  rewrite (run_taken _ _ _ _ Hr); try assumption; [reflexivity|].
  eapply Inv_weaken, start_inv. assumption.
Qed.
Print Assumptions C19_in_order.
Print Assumptions C19_stream_read.
Print Assumptions C19_stderr_read.
Print Assumptions C19_channel_read.
Print Assumptions C19_others_take_nothing.
Print Assumptions C19_peek.
Print Assumptions C19_returned.

Definition demo19 : list op := opening ++
  [PData (data_packet 0 [1;2;3;4]); AStreamRead 3 good; PData (data_packet 0 [5;6;7]);
   PExt (stderr_packet 0 [9]) true good; AStreamRead 2 good; AReadExt 0 5 good; AStreamPeek 5].
Example C19_demo_history : history demo19 (trace demo19) (after demo19) /\ Forall reporting demo19.
Proof. split; [demo | repeat (constructor; [exact I|]); constructor]. Qed.
Example C19_demo : returned (trace demo19) = [[1;2;3]; [4;5]; [9]] /\
  stored 0 false (s_log (after demo19)) = [1;2;3;4;5;6;7] /\
  map (fun c => unread (c_in c)) (s_list (after demo19)) = [[6;7]].
Proof. vm_compute. repeat split; reflexivity. Qed.

(* ------------------------------------------------------------------ *)
(* C37                                                                  *)

(* The full statement: a read by channel number that reports an error leaves
   the data in place. *)
Definition failed_read_takes_nothing : Prop :=
  forall os t s id n a e s', history os t s -> is32 n ->
    step (AIdRead id n a) s = Some (RCode e, s') -> copies (s_log s') = copies (s_log s).

(* It holds when the window adjust that may follow the copy can be sent: then
   the read does not fail at all. *)
Lemma credit_succeeds : forall id n a s c e k, find_self id (s_list s) = Some c ->
  a_prep a = WS_SUCCESS -> a_bund a = WS_SUCCESS -> a_flush a = FDone WS_SUCCESS e k ->
  s_up s = true -> c_pend c + n < W32 -> is32 (c_pend c) ->
  fst (ChannelCreditWindow id n a s) = WS_SUCCESS.
Proof.
  intros id n a s c e k Hf A1 A2 A3 Hu Hp Hp32. unfold ChannelCreditWindow. rewrite Hf.
  rewrite sub32_small by (unfold is32, W32, UINT32_MAX in *; lia).
  destruct (N.ltb_spec (UINT32_MAX - c_pend c) n) as [Hlt|_]; [unfold is32, W32, UINT32_MAX in *; lia|].
  destruct (add32 (c_pend c) n =? 0); [reflexivity|].
  destruct (keying s); [reflexivity|].
  unfold SendChannelWindowAdjust.
  assert (Hid : c_id c = id) by (apply find_self_some in Hf; tauto).
  assert (T0 : touch s id c (c_set_pend 0 c) [] (on_chan id (c_set_pend 0) s)) by (apply touch_on; auto).
  rewrite (touch_find _ _ _ _ _ _ T0).
  change (s_up (on_chan id (c_set_pend 0) s)) with (s_up s). rewrite Hu. cbn [negb].
  unfold bundle. rewrite A1, A2, A3. cbn [flush]. unfold flush_done. reflexivity.
Qed.
Theorem C37_read_succeeds_partial : forall os t s c n a e k, history os t s ->
  Forall transport_ok os -> peer_honest (s_log s) -> live s c -> n <> 0 ->
  s_up s = true -> keying s = false ->
  a_prep a = WS_SUCCESS -> a_bund a = WS_SUCCESS -> a_flush a = FDone WS_SUCCESS e k ->
  exists s', step (AIdRead (c_id c) n a) s = Some (RData (takeN n (unread (c_in c))), s').
Proof.
  intros os t s c n a e k H Ht Hp Hl Hn Hu Hk A1 A2 A3.
  pose proof (history_inv_eq _ _ _ H Ht Hp) as Hinv.
  destruct (live_ci _ _ _ _ Hinv Hl) as (Hid & HCI & Hf).
  assert (Hpb : c_pend c <= c_win c).
  { eapply pend_bound; [exact HCI | reflexivity | reflexivity | apply honest_hon; exact Hp]. }
  pose proof HCI as (HC & _).
  pose proof HC as (B1 & B2 & B3 & B4 & B5 & B6 & B7 & B8 & B9 & B10 & B11 & B12).
  assert (Hex : exists r s', step (AIdRead (c_id c) n a) s = Some (r, s')).
  { pose proof (read_total _ _ (c_id c) n a s Hinv) as Htot. cbn [step]. unfold ChannelIdRead.
    destruct (ChannelRead_ (c_id c) n a s) as [[r s']|]; [eauto | congruence]. }
  destruct Hex as (r & s' & E). exists s'.
  assert (Er : exists d, r = RData d).
  { cbn [step] in E. unfold ChannelIdRead, ChannelRead_ in E. cbv zeta in E. rewrite Hf in E.
    destruct (N.eqb_spec n 0); [contradiction|].
    rewrite sub32_small in E by (unfold is32 in *; lia).
    set (m := N.min n (b_len (c_in c) - b_idx (c_in c))) in *.
    assert (Hm : m <= b_len (c_in c) - b_idx (c_in c)) by lia. clearbody m.
    destruct (rdn _ _ _) as [d|]; [|discriminate].
    match type of E with match UpdateChannelWindow _ _ ?x with _ => _ end = _ => set (s1 := x) in * end.
    assert (F1 : find_self (c_id c) (s_list s1) = Some (c_rx (c_win c) (c_pend c) (advance m (c_in c)) (c_ext c) c)).
    { subst s1. cbn [log on_chan set_list s_list]. rewrite (upd_const _ _ _ _ Hf).
      eapply upd_find; [exact Hf | reflexivity]. }
    assert (U1 : s_up s1 = true) by exact Hu.
    clearbody s1. unfold UpdateChannelWindow in E. rewrite F1 in E. cbn [c_rx c_in c_win] in E.
    destruct ((b_cap (advance m (c_in c)) / 2 <? b_len (advance m (c_in c))) || (c_win c =? 0));
      [|injection E as <- _; eauto].
    destruct (rdn _ _ _); [|discriminate].
    assert (Hadv : b_idx (advance m (c_in c)) = b_idx (c_in c) + m).
    { cbn [advance b_idx]. apply add32_small. unfold is32 in *. lia. }
    pose proof (credit_succeeds (c_id c) (b_idx (advance m (c_in c))) a s1 _ e k F1 A1 A2 A3 U1) as Hc.
    cbn [c_rx c_pend] in Hc. rewrite Hadv in *.
    specialize (Hc ltac:(unfold is32 in *; lia) B11).
    destruct (ChannelCreditWindow _ _ _ _) as [r2 s2]. cbn [fst] in Hc. subst r2.
    injection E as <- _. eauto. }
  destruct Er as [d ->]. rewrite E.
  destruct (read_ret _ _ _ _ _ _ _ _ E Hinv) as (c0 & F0 & Ed). assert (c0 = c) by congruence. subst. reflexivity.
Qed.

(* When that window adjust cannot be written at once, wolfSSH_ChannelIdRead
   and wolfSSH_ChannelRead report the error although the bytes were taken:
   they are lost to the caller. *)
Definition demo37 : list op := opening ++ [PData (data_packet 0 [1;2;3;4;5;6;7;8])].
Theorem C37_failed_read_takes_nothing_refuted : ~ failed_read_takes_nothing.
Proof.
  intros H.
  assert (Hh : history demo37 (trace demo37) (after demo37)) by demo.
  pose (blocked := mkAns WS_SUCCESS WS_SUCCESS FWant).
  destruct (step (AIdRead 0 4 blocked) (after demo37)) as [[r s']|] eqn:E; [|vm_compute in E; discriminate].
  assert (Er : r = RCode WS_WANT_WRITE /\ copies (s_log s') = [(0, false, [1;2;3;4])] /\
               copies (s_log (after demo37)) = []).
  { vm_compute in E. injection E as <- <-. vm_compute. repeat split; reflexivity. }
  destruct Er as (-> & E1 & E2).
  pose proof (H _ _ _ 0 4 blocked _ s' Hh ltac:(reflexivity) E) as Hx. congruence.
Qed.
Print Assumptions C37_read_succeeds_partial.
Print Assumptions C37_failed_read_takes_nothing_refuted.
Example C37_demo : match step (AIdRead 0 4 good) (after demo37) with
  | Some (RData d, s') => d = [1;2;3;4] /\ announced 0 (s_log s') = 4 | _ => False end.
Proof. vm_compute. split; reflexivity. Qed.

(* ------------------------------------------------------------------ *)
(* C38                                                                  *)

(* The full statement: once an EOF message is on the queue no data message
   for the channel follows. *)
Definition eof_queued (id : N) (l : list ev) : Prop :=
  exists pre k m post, l = pre ++ Sent k id m :: post /\ hd 0 m = 96 /\
    forall w, ~ In (Opened id w) post.
Definition eof_is_last : Prop :=
  forall os t s pre k id m post, history os t s -> s_log s = pre ++ Sent k id m :: post ->
    eof_queued id pre -> data_of m = [].

(* It holds from the moment sending EOF has reported success. *)
Theorem C38_after_reported_eof_partial : forall os t s, history os t s -> no_data_after_eof (s_log s).
Proof.
  intros os t s H. destruct (history_inv _ _ _ H) as (_ & _ & _ & _ & L). apply logok_eof. assumption.
Qed.
Theorem C38_success_is_recorded_partial : forall os t s p a s', history os t s ->
  step (AEof p a) s = Some (RCode WS_SUCCESS, s') ->
  exists c, live s c /\ c_peer c = p /\ eofed (c_id c) (s_log s') = true.
Proof.
  intros os t s p a s' H E. cbn [step] in E. unfold lift in E.
  destruct (SendChannelEof p a s) as [r s1] eqn:Es. cbn [fst snd] in E. injection E as -> ->.
  unfold SendChannelEof in Es. destruct (negb (s_up s)); [discriminate|].
  destruct (find_peer p (s_list s)) as [c|] eqn:Hf; [|discriminate].
  pose proof Hf as Hf2. unfold find_peer in Hf2. apply find_some in Hf2. destruct Hf2 as [Hin Hp].
  exists c. split; [exact Hin|]. split; [apply N.eqb_eq; exact Hp|].
  destruct (c_eofTx c) eqn:Ee.
  - injection Es as <-. destruct (live_ci _ _ _ _ (history_inv _ _ _ H) Hin) as (_ & (HC & _) & _).
    destruct HC as (A1 & A2 & A3 & A4 & A5 & A6 & A7 & A8 & A9 & A10 & A11 & A12 & A13).
    cbn [view_of v_eof] in A13. congruence.
  - destruct (send_msg _ _ a s) as [r2 s2].
    assert (Es' : s' = log (Eofed (c_id c)) (on_chan (c_id c)
              (fun c => c_flags (c_eofRx c) true (c_closeTx c) c) s2)) by (destruct r2; congruence).
    rewrite Es'. cbn [log s_log]. unfold eofed. rewrite fold_left_app. cbn [fold_left].
    rewrite N.eqb_refl. reflexivity.
Qed.

(* An EOF that is queued but not yet written out: the call reports
   WS_WANT_WRITE, the library does not remember the EOF, and the next send
   queues data behind it. *)
Definition demo38 : list op := opening ++
  [AEof 7 (mkAns WS_SUCCESS WS_SUCCESS FWant); AStreamSend [1;2;3] quiet quiet good].
Theorem C38_eof_is_last_refuted : ~ eof_is_last.
Proof.
  intros H.
  assert (Hh : history demo38 (trace demo38) (after demo38)) by demo.
  pose (l := s_log (after demo38)).
  assert (E : l = firstn 4 l ++ Sent false 0 (data_msg false 7 [1;2;3]) :: skipn 5 l) by (vm_compute; reflexivity).
  assert (Hd : data_of (data_msg false 7 [1;2;3]) = []).
  { apply (H _ _ _ (firstn 4 l) false 0 _ (skipn 5 l) Hh E).
    exists (firstn 3 l), false, ([96] ++ c32toa 7), []. split; [vm_compute; reflexivity|].
    split; [reflexivity|]. intros w []. }
  vm_compute in Hd. discriminate.
Qed.
Print Assumptions C38_after_reported_eof_partial.
Print Assumptions C38_success_is_recorded_partial.
Print Assumptions C38_eof_is_last_refuted.
Definition demo38b : list op := opening ++ [AEof 7 good; AStreamSend [1;2;3] quiet quiet good].
Example C38_demo : eofed 0 (s_log (after demo38b)) = true /\
  map snd (skipn 2 (trace demo38b)) = [RCode WS_SUCCESS; RCode WS_EOF].
Proof. vm_compute. split; reflexivity. Qed.
(* ------------------------------------------------------------------ *)
(* C13: what the peer is told                                           *)

Lemma send_msg_log : forall id m a s r s', send_msg id m a s = (r, s') ->
  s_log s' = s_log s \/ exists k, s_log s' = s_log s ++ [Sent k id m].
Proof.
  intros id m a s r s' H. unfold send_msg in H. destruct (bundle id m a s) as [r1 s1] eqn:E.
  assert (Hl : s_log s1 = s_log s \/ exists k, s_log s1 = s_log s ++ [Sent k id m]).
  { destruct (bundle_cases _ _ _ _ _ _ E) as [(_ & ->)|(_ & Q)]; [right; eexists; reflexivity|left; apply Q]. }
  destruct (rc_eq_dec r1 WS_SUCCESS) as [->|Hne].
  - rewrite (q_log _ _ (flush_quiet _ _ _ _ H)). exact Hl.
  - assert (s' = s1) by (destruct r1; congruence). subst. exact Hl.
Qed.

Lemma Sent_inj : forall k id m k' id' m', Sent k id m = Sent k' id' m' -> k = k' /\ id = id' /\ m = m'.
Proof. intros k id m k' id' m' H. injection H. auto. Qed.

Lemma window0_snoc : forall id w l es, (forall i v, ~ In (Opened i v) es) ->
  window0 id (l ++ [Opened id w] ++ es) = w.
Proof.
  intros id w l es H. unfold window0. rewrite !fold_left_app. cbn [fold_left]. rewrite N.eqb_refl.
  revert H. generalize w. induction es as [|e es IH]; intros w0 H; [reflexivity|]. cbn [fold_left].
  destruct e; try (apply IH; intros i v Hi; apply (H i v); right; exact Hi).
  exfalso. eapply H. left. reflexivity.
Qed.

(* RFC 4254 5.1: byte 91, uint32 recipient, uint32 sender, uint32 initial
   window, uint32 maximum packet. The window and packet size the peer is told
   are those the channel is checked against. *)
Theorem C13_confirmation_announces_window : forall os t s b oa r s' es k id m,
  history os t s -> buf_ok b -> step (POpen b oa) s = Some (r, s') ->
  s_log s' = s_log s ++ es -> In (Sent k id m) es -> id <> W32 ->
  exists c, live s' c /\ c_id c = id /\ c_win c = window0 id (s_log s') /\
    m = [91] ++ c32toa (c_peer c) ++ c32toa id ++ c32toa (window0 id (s_log s')) ++ c32toa (c_max c).
Proof.
  intros os t s b o r s' es k id m Hh Hb Hs Hes Hin Hid. pose proof (history_inv _ _ _ Hh) as Hinv.
  cbn [step] in Hs. unfold lifth in Hs. destruct (DoChannelOpen o b s) as [[r0 s0]|] eqn:H; [|discriminate].
  injection Hs as <- <-.
  unfold DoChannelOpen in H. cbv zeta in H.
  assert (Href : forall peer reason s1, s_log s1 = s_log s ->
    Some (SendChannelOpenFail peer reason (o_desc o) [101;110] (o_send o) s1) = Some (r0, s0) -> False).
  { intros peer reason s1 L E.
    assert (E1 : SendChannelOpenFail peer reason (o_desc o) [101;110] (o_send o) s1 = (r0, s0)) by congruence.
    destruct (send_msg_log _ _ _ _ _ _ E1) as [X|(k0 & X)]; rewrite X, L in Hes.
    - rewrite <- (app_nil_r (s_log s)) in Hes at 1. apply app_inv_head in Hes. subst es. destruct Hin.
    - apply app_inv_head in Hes. subst es. destruct Hin as [Hin|[] ]. congruence. }
  destruct (gstr_cases b 0 32 Hb (N.le_0_l _) eq_refl) as [(tz & i & Eg & Hi)|(e & j & Eg)]; rewrite Eg in H; [|exfalso; eauto].
  destruct (gu32_cases b i Hb Hi) as [(peer & Eg2 & _ & Hj)|(e & j & Eg2)]; rewrite Eg2 in H; [|exfalso; eauto].
  destruct (gu32_cases b (i + 4) Hb Hj) as [(pw & Eg3 & Hpw & Hk)|(e & j & Eg3)]; rewrite Eg3 in H; [|exfalso; eauto].
  destruct (gu32_cases b (i + 4 + 4) Hb Hk) as [(pm & Eg4 & _ & Hl)|(e & j & Eg4)]; rewrite Eg4 in H; [|exfalso; eauto].
  set (ty := NameToId (removelast tz)) in *. clearbody ty.
  set (isFwd := (ty =? ID_CHANTYPE_TCPIP_DIRECT) || (ty =? ID_CHANTYPE_TCPIP_FORWARD)) in *. clearbody isFwd.
  match type of H with match ?x with _ => _ end = _ => destruct x as [u v|e reason|] end;
    [|exfalso; eauto|discriminate].
  destruct (ChannelNew (o_ok o) ty s) as [[c s1]|] eqn:En; [|exfalso; eauto].
  destruct (new_cases _ _ _ _ _ _ _ En Hinv) as (Hc & Hid32 & Hf & Hs1 & I1).
  match type of H with match ?x with _ => _ end = _ => set (verdict := x) in *; clearbody verdict end.
  destruct (rc_eq_dec verdict WS_SUCCESS) as [->|Hne].
  2:{ exfalso. eapply (Href peer _ s1); [subst s1; reflexivity|]. destruct verdict; try (exact H). congruence. }
  assert (E1 : SendChannelOpenConf (c_set_peer peer pw pm c) (o_send o)
             (log (Peered (c_id c) pw pm) (ChannelAppend (c_set_peer peer pw pm c) s1)) = (r0, s0))
    by (cbn [c_id c_set_peer] in H; congruence).
  unfold SendChannelOpenConf in E1. cbn [c_id c_peer c_win c_max c_set_peer] in E1.
  pose proof (send_msg_list _ _ _ _ _ _ E1) as El.
  set (base := log (Peered (c_id c) pw pm) (ChannelAppend (c_set_peer peer pw pm c) s1)) in *.
  assert (Eb : s_log base = s_log s ++ [Opened (c_id c) (c_win0 c)] ++ [Peered (c_id c) pw pm]).
  { unfold base. subst s1. cbn. rewrite <- app_assoc. reflexivity. }
  destruct (send_msg_log _ _ _ _ _ _ E1) as [X|(k0 & X)]; rewrite X, Eb in Hes; rewrite X, Eb; clear X.
  - apply app_inv_head in Hes. subst es. destruct Hin as [Hin|[Hin|[] ] ]; discriminate.
  - rewrite <- !app_assoc in Hes. apply app_inv_head in Hes. subst es.
    destruct Hin as [Hin|[Hin|[Hin|[] ] ] ]; try discriminate. apply Sent_inj in Hin; destruct Hin as (<- & <- & <-).
    exists (c_set_peer peer pw pm c). split.
    { unfold live. rewrite El. unfold base. cbn [log ChannelAppend set_list s_list]. apply in_or_app. right. left. reflexivity. }
    split; [reflexivity|]. rewrite <- !app_assoc.
    rewrite window0_snoc by (intros i0 v0 [Hx|[Hx|[] ] ]; discriminate).
    cbn [c_peer c_set_peer c_win c_max]. rewrite Hc. split; reflexivity.
Qed.

(* RFC 4254 5.1: byte 90, string type, uint32 sender, uint32 initial window,
   uint32 maximum packet, the rest. *)
Theorem C13_open_announces_window : forall os t s keep ok type extra a cb r s' es k id m,
  history os t s -> step (AOpen keep ok type extra a cb) s = Some (r, s') ->
  s_log s' = s_log s ++ es -> In (Sent k id m) es ->
  exists w mx, m = [90] ++ PutString (IdToName type) ++ c32toa id ++ c32toa w ++ c32toa mx ++ extra /\
  forall c, live s' c -> c_id c = id -> w = window0 id (s_log s') /\ w = c_win c /\ mx = c_max c.
Proof.
  intros os t s keep ok type extra a cb r s' es k id m Hh Hs Hes Hin. pose proof (history_inv _ _ _ Hh) as Hinv.
  cbn [step] in Hs. unfold lift in Hs. unfold OpenChannel in Hs.
  destruct (ChannelNew ok type s) as [[c s1]|] eqn:En.
  2:{ injection Hs as <- <-. cbn [snd] in Hes. rewrite <- (app_nil_r (s_log s)) in Hes at 1. apply app_inv_head in Hes.
      subst es. destruct Hin. }
  destruct (new_cases _ _ _ _ _ _ _ En Hinv) as (Hc & Hid32 & Hf & Hs1 & I1).
  destruct (SendChannelOpen c extra a s1) as [r2 s2] eqn:E. unfold SendChannelOpen in E.
  pose proof (send_msg_list _ _ _ _ _ _ E) as El.
  assert (L1 : s_log s1 = s_log s) by (subst s1; reflexivity).
  assert (LL : s_list s1 = s_list s) by (subst s1; reflexivity).
  assert (X : s' = s2 \/ s' = ChannelAppend c s2).
  { destruct (rc_eq_dec r2 WS_SUCCESS) as [->|Hne].
    - destruct (rc_eq_dec cb WS_SUCCESS) as [->|Hnc]; [injection Hs as <- <-; auto|].
      left. assert (Q : Some (RCode cb, s2) = Some (r, s')) by (rewrite <- Hs; destruct cb; try reflexivity; congruence). congruence.
    - assert (Q : (if keep && (rc_eqb r2 WS_WANT_WRITE || rc_eqb r2 WS_WANT_READ)
                   then ChannelAppend c s2 else s2) = s').
      { destruct (keep && (rc_eqb r2 WS_WANT_WRITE || rc_eqb r2 WS_WANT_READ)) eqn:Eq; destruct r2; cbn [rc_eqb] in Hs, Eq;
          rewrite ?Eq in Hs; try congruence; injection Hs as _ Hs; exact Hs. }
      destruct (keep && _); auto. }
  clear Hs.
  assert (Et : c_type c = type) by (rewrite Hc; reflexivity).
  assert (F : forall c', live s c' -> c_id c' <> c_id c).
  { intros c' Hl Ei. apply find_self_none in Hf. apply Hf. rewrite <- Ei. apply in_map. exact Hl. }
  destruct (send_msg_log _ _ _ _ _ _ E) as [Y|(k0 & Y)]; rewrite L1 in Y; destruct X as [->| ->].
  - rewrite Y in Hes. rewrite <- (app_nil_r (s_log s)) in Hes at 1. apply app_inv_head in Hes. subst es. destruct Hin.
  - cbn [ChannelAppend log set_list s_log] in Hes. rewrite Y in Hes. apply app_inv_head in Hes. subst es.
    destruct Hin as [Hin|[] ]. discriminate.
  - rewrite Y in Hes. apply app_inv_head in Hes. subst es. destruct Hin as [Hin|[] ]. apply Sent_inj in Hin; destruct Hin as (<- & <- & <-).
    rewrite Et. do 2 eexists. split; [reflexivity|]. intros c' Hl Ei. exfalso.
    unfold live in Hl. rewrite El, LL in Hl. exact (F c' Hl Ei).
  - cbn [ChannelAppend log set_list s_log] in Hes |- *. rewrite Y in Hes |- *. rewrite <- app_assoc in Hes. apply app_inv_head in Hes. subst es.
    destruct Hin as [Hin|[Hin|[] ] ]; [|discriminate]. apply Sent_inj in Hin; destruct Hin as (<- & <- & <-).
    rewrite Et. do 2 eexists. split; [reflexivity|]. intros c' Hl Ei.
    unfold live in Hl. cbn [ChannelAppend log set_list s_list] in Hl. rewrite El, LL in Hl. apply in_app_or in Hl.
    destruct Hl as [Hl|[<-|[] ] ]; [exfalso; exact (F c' Hl Ei)|].
    split; [|split; reflexivity]. rewrite <- (app_nil_r [Opened _ _]). rewrite app_assoc, <- (app_assoc _ [Opened _ _] []).
    rewrite window0_snoc by (intros ? ? []). rewrite Hc. reflexivity.
Qed.
Print Assumptions C13_confirmation_announces_window.
Print Assumptions C13_open_announces_window.
(* Opening the session of the other examples is such a step: window 10,
   packet size 64, the peer's number 7. *)
Example C13_demo_confirmation :
  s_log (after opening) = [Opened 0 10; Peered 0 100 50; Sent false 0 ([91] ++ c32toa 7 ++ c32toa 0 ++ c32toa 10 ++ c32toa 64)].
Proof. vm_compute. reflexivity. Qed.
