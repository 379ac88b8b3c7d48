(* ChanProps.v - C13 to C19, C37, C38: channels. *)
From Verif Require Import Base BufModel BufSpec BufProofs WireModel WireSpec WireProofs
  ChanModel ChanSpec ChanProofs ChanInv ChanStep ChanMore.
From Coq Require Import List PeanoNat NArith Bool Lia.
From Coq Require Import ZifyBool ZifyNat ZifyN.
Import ListNotations.
Open Scope N_scope.

(* A session to try things on: the peer opens a session channel (its number
   7, window 100, packets of 50 at most) towards a side whose window is 10. *)
Definition session_name : bytes := [115;101;115;115;105;111;110].
Definition open_packet (peer w m : N) : bytes :=
  PutString session_name ++ c32toa peer ++ c32toa w ++ c32toa m.
Definition yes : openans := mkOpen true WS_SUCCESS None [] good.
Definition opening : list op := [Established; POpen (open_packet 7 100 50) yes].
Definition after (os : list op) : cs :=
  match run os (start true 10 64) with Some (_, s) => s | None => start true 0 0 end.
Definition trace (os : list op) : list (op * ret) :=
  match run os (start true 10 64) with Some (t, _) => t | None => [] end.
Lemma demo_history : forall os, run os (start true 10 64) <> None -> Forall op_ok os ->
  history os (trace os) (after os).
Proof.
  intros os Hr Ho. exists true, 10, 64. split; [reflexivity|]. split; [assumption|].
  unfold trace, after. destruct (run os (start true 10 64)) as [[t s]|]; [reflexivity | congruence].
Qed.
Ltac demo := apply demo_history;
  [ vm_compute; discriminate
  | repeat (constructor; [first [exact I | reflexivity | split; [vm_compute; repeat (constructor; [reflexivity|]); constructor | reflexivity]]|]); constructor ].

(* ------------------------------------------------------------------ *)
(* C13                                                                  *)

(* At every moment: what the peer may still send, plus the stdout bytes not
   yet given back, plus the unread stderr bytes, is the advertised window. *)
Theorem C13_window_accounting : forall os t s c, history os t s -> live s c ->
  c_win c + b_len (c_in c) + lenN (unread (c_ext c)) = window0 (c_id c) (s_log s) /\
  lenN (unread (c_in c)) <= b_len (c_in c) /\ b_len (c_in c) <= b_cap (c_in c).
Proof.
  intros os t s c H Hl. destruct (live_ci _ _ _ _ (history_inv _ _ _ H) Hl) as (_ & (HC & _) & _).
  destruct HC as (A1 & A2 & A3 & A4 & A5 & A6 & A7 & A8 & A9 & A10 & A11 & A12 & _).
  cbn [view_of v_w0] in A12. split; [congruence|]. rewrite lenN_unread. lia.
Qed.

(* No sequence of packets and calls makes the library touch memory outside a
   buffer. *)
Theorem C13_in_bounds : forall os server w m, is32 w -> Forall op_ok os ->
  exists t s, run os (start server w m) = Some (t, s).
Proof.
  intros os server w m Hw Ho.
  pose proof (run_total os true true (start server w m) (start_inv server w m Hw) Ho) as H.
  destruct (run os (start server w m)) as [[t s]|]; [eauto | congruence].
Qed.

(* A data packet within the window is stored whole at the end of what is
   unread; one beyond it is refused and changes nothing. *)
Theorem C13_data_packet : forall os t s c d, history os t s -> live s c ->
  buf_ok (data_packet (c_id c) d) -> d <> [] -> lenN d <= c_max c ->
  (lenN d <= c_win c ->
     exists s' c', step (PData (data_packet (c_id c) d)) s = Some (RCode WS_CHAN_RXD, s') /\
       s_log s' = s_log s ++ [Stored (c_id c) false d] /\
       find_self (c_id c) (s_list s') = Some c' /\
       c_win c' = c_win c - lenN d /\ unread (c_in c') = unread (c_in c) ++ d) /\
  (c_win c < lenN d ->
     exists e, e <> WS_CHAN_RXD /\ step (PData (data_packet (c_id c) d)) s = Some (RCode e, s)).
Proof.
  intros os t s c d H Hl Hb Hd Hm.
  pose proof (data_verdict s c d (history_inv _ _ _ H) Hl Hb Hd Hm) as V.
  destruct (N.leb_spec (lenN d) (c_win c)) as [Hw|Hw]; split; intros; try lia; exact V.
Qed.

(* Whatever a data packet contains, it is refused leaving everything as it
   was, or what is stored was within the window and the packet limit. *)
Theorem C13_data_all_or_nothing : forall os t s b r s', history os t s -> step (PData b) s = Some (r, s') ->
  s' = s \/
  exists c d, live s c /\ lenN d <= c_win c /\ lenN d <= c_max c /\
    r = RCode WS_CHAN_RXD /\ s_log s' = s_log s ++ [Stored (c_id c) false d].
Proof. intros os t s b r s' H Hs. eapply data_any; [eapply history_inv; exact H | exact Hs]. Qed.

(* stderr: the same; the only other refusal is a failed allocation. *)
Theorem C13_stderr_packet : forall os t s c d ok a, history os t s -> live s c ->
  buf_ok (stderr_packet (c_id c) d) -> lenN d <= c_max c ->
  let m := stderr_packet (c_id c) d in
  (lenN d <= c_win c /\ exists s' c', step (PExt m ok a) s = Some (RCode WS_EXTDATA, s') /\
       s_log s' = s_log s ++ [Stored (c_id c) true d] /\
       find_self (c_id c) (s_list s') = Some c' /\
       c_win c' = c_win c - lenN d /\ unread (c_ext c') = unread (c_ext c) ++ d) \/
  (c_win c < lenN d /\ step (PExt m ok a) s = Some (RCode WS_RECV_OVERFLOW_E, s)) \/
  (ok = false /\ step (PExt m ok a) s = Some (RCode WS_MEMORY_E, s)).
Proof. intros os t s c d ok a H. apply stderr_verdict. eapply history_inv; exact H. Qed.
Print Assumptions C13_window_accounting.
Print Assumptions C13_in_bounds.
Print Assumptions C13_data_packet.
Print Assumptions C13_data_all_or_nothing.
Print Assumptions C13_stderr_packet.

(* five bytes stored, two read, three of stderr: 2 + 5 + 3 = 10 *)
Definition demo13 : list op := opening ++
  [PData (data_packet 0 [1;2;3;4;5]); AStreamRead 2 good; PExt (stderr_packet 0 [9;9;9]) true good].
Example C13_demo_history : history demo13 (trace demo13) (after demo13).
Proof. demo. Qed.
Example C13_demo : map (fun c => (c_id c, c_win c, b_len (c_in c), unread (c_in c), unread (c_ext c)))
                       (s_list (after demo13)) = [(0, 2, 5, [3;4;5], [9;9;9])].
Proof. vm_compute. reflexivity. Qed.
Example C13_demo_refused :
  match step (PData (data_packet 0 [1;2;3])) (after demo13) with
  | Some (RCode e, s') => e = WS_FATAL_ERROR /\ s' = after demo13
  | _ => False end.
Proof. vm_compute. split; reflexivity. Qed.
(* an empty data packet is refused when the window is full of unread data:
   harmless, and outside the property *)
Example C13_empty_on_full :
  match step (PData (data_packet 0 [])) (after (opening ++ [PData (data_packet 0 [1;2;3;4;5;6;7;8;9;10])])) with
  | Some (RCode e, _) => e = WS_RECV_OVERFLOW_E
  | _ => False end.
Proof. vm_compute. reflexivity. Qed.

(* ------------------------------------------------------------------ *)
(* C14                                                                  *)

(* While the transport has not failed: announced plus owed credit is at most
   what was given back, so the peer's view of the window (the opening window
   plus what was announced, less what it used) never exceeds the local one. *)
Theorem C14_never_twice : forall os t s c, history os t s -> Forall transport_ok os -> live s c ->
  window0 (c_id c) (s_log s) + announced (c_id c) (s_log s) + c_pend c
    <= c_win c + charged (c_id c) (s_log s).
Proof.
  intros os t s c H Ht Hl. destruct (live_ci _ _ _ _ (history_inv_le _ _ _ H Ht) Hl) as (_ & (_ & HC & _) & _).
  apply HC. reflexivity.
Qed.

(* Towards a peer that keeps to its window none is lost either: everything
   given back is announced or still owed. *)
Theorem C14_exactly_once : forall os t s c, history os t s -> Forall transport_ok os ->
  peer_honest (s_log s) -> live s c ->
  window0 (c_id c) (s_log s) + announced (c_id c) (s_log s) + c_pend c
    = c_win c + charged (c_id c) (s_log s).
Proof.
  intros os t s c H Ht Hp Hl.
  destruct (live_ci _ _ _ _ (history_inv_eq _ _ _ H Ht Hp) Hl) as (_ & (_ & HC1 & HC2) & _).
  specialize (HC1 eq_refl). specialize (HC2 eq_refl). unfold cle, cge in *.
  cbn [view_of v_w0 v_an v_ch] in *. lia.
Qed.

Theorem C14_not_during_kex : forall os t s, history os t s -> adjusts_outside_kex (s_log s).
Proof.
  intros os t s H. destruct (history_inv _ _ _ H) as (_ & _ & _ & _ & L). apply logok_adjusts. assumption.
Qed.

(* When the key exchange ends, what is owed is announced. *)
Theorem C14_owed_is_announced : forall os t s a s' r, history os t s -> s_up s = true ->
  (forall id, takes (a id)) ->
  (s_kself s = false /\ step (NewKeysReceived a) s = Some (r, s') \/
   s_kpeer s = false /\ step (NewKeysSent a) s = Some (r, s')) ->
  forall c, live s' c -> c_pend c = 0.
Proof.
  intros os t s a s' r H Hu Ha Hs.
  assert (Hx : exists s0, keying s0 = false /\ s_up s0 = true /\ s_list s0 = s_list s /\
                          lift (SendPendingChannelWindowAdjust a s0) = Some (r, s')).
  { destruct Hs as [[K E]|[K E]]; cbn [step] in E.
    - exists (set_key (s_kself s) false s). split; [unfold keying; cbn [set_key s_kself s_kpeer]; rewrite K; reflexivity|]. split; [exact Hu|]. split; [reflexivity | exact E].
    - exists (set_key false (s_kpeer s) s). split; [unfold keying; cbn [set_key s_kself s_kpeer]; rewrite K; reflexivity|]. split; [exact Hu|]. split; [reflexivity | exact E]. }
  clear Hs. destruct Hx as (s0 & K0 & U0 & L0 & E).
  unfold SendPendingChannelWindowAdjust in E. rewrite K0 in E.
  destruct (pending_loop a (map c_id (s_list s0)) WS_SUCCESS s0) as [r1 s1] eqn:El.
  unfold lift in E. cbn [fst snd] in E. injection E as _ <-.
  destruct (history_inv _ _ _ H) as (N1 & N2 & _).
  assert (Hf : Forall (fun c => c_pend c = 0) (s_list s1)).
  { eapply pending_takes; [exact El | exact Ha | exact K0 | exact U0 | rewrite L0; exact N1 | |].
    - rewrite L0. eapply Forall_impl; [|exact N2]. intros x [_ (HC & _)]. apply HC.
    - intros c Hc. left. apply in_map. assumption. }
  intros c Hc. rewrite Forall_forall in Hf. apply Hf. exact Hc.
Qed.
Print Assumptions C14_never_twice.
Print Assumptions C14_exactly_once.
Print Assumptions C14_not_during_kex.
Print Assumptions C14_owed_is_announced.

(* A rekey: credit for 6 bytes read meanwhile is owed, then announced. *)
Definition demo14 : list op := opening ++
  [PExt (stderr_packet 0 [1;2;3;4;5;6]) true good; KexSent; KexReceived; AReadExt 0 6 good].
Example C14_demo_history : history demo14 (trace demo14) (after demo14).
Proof. demo. Qed.
Example C14_demo_owed : map c_pend (s_list (after demo14)) = [6] /\ announced 0 (s_log (after demo14)) = 0.
Proof. vm_compute. split; reflexivity. Qed.
Definition demo14b : list op := demo14 ++ [NewKeysSent (fun _ => good); NewKeysReceived (fun _ => good)].
Example C14_demo_announced :
  map c_pend (s_list (after demo14b)) = [0] /\ announced 0 (s_log (after demo14b)) = 6.
Proof. vm_compute. split; reflexivity. Qed.
Lemma honest_check : forall l, 
  (forall id, forallb (fun n => charged id (firstn n l) <=? window0 id (firstn n l) + announced id (firstn n l))
    (seq 0 (S (length l))) = true) -> peer_honest l.
Proof.
  intros l H pre post id E. specialize (H id). rewrite forallb_forall in H.
  specialize (H (length pre)). rewrite E in H at 2 3 4. rewrite firstn_app, firstn_all, Nat.sub_diag in H.
  cbn [firstn] in H. rewrite app_nil_r in H. apply N.leb_le, H. apply in_seq. rewrite E, app_length. lia.
Qed.
Example C14_demo_hypotheses : Forall transport_ok demo14b /\ peer_honest (s_log (after demo14b)).
Proof.
  split.
  - repeat (constructor; [first [exact I | discriminate | intros id; discriminate]|]). constructor.
  - apply honest_check. intros id. destruct (N.eqb_spec 0 id) as [<-|Hne]; [vm_compute; reflexivity|].
    set (l := s_log (after demo14b)).
    assert (Hall : Forall (fun e => ev_id e <> id) l).
    { subst l. assert (E : forallb (fun e => ev_id e =? 0) (s_log (after demo14b)) = true) by (vm_compute; reflexivity).
      rewrite forallb_forall in E. apply Forall_forall. intros e He. specialize (E e He). lia. }
    apply forallb_forall. intros n _.
    assert (Hn : Forall (fun e => ev_id e <> id) (firstn n l)).
    { apply Forall_forall. intros e He. rewrite Forall_forall in Hall. apply Hall.
      rewrite <- (firstn_skipn n l). apply in_or_app. left. assumption. }
    pose proof (view_foreign id _ [] Hn) as V. cbn [app] in V.
    assert (E1 : charged id (firstn n l) = 0) by (change (v_ch (view_of id (firstn n l)) = 0); rewrite V; reflexivity).
    rewrite E1. apply N.leb_le, N.le_0_l.
Qed.

(* ------------------------------------------------------------------ *)
(* C15                                                                  *)

Theorem C15_peer_limits : forall os t s, history os t s -> respects_peer (s_log s).
Proof.
  intros os t s H. destruct (history_inv _ _ _ H) as (_ & _ & _ & _ & L). apply logok_respects. assumption.
Qed.

(* The send calls. *)
Definition sends (o : op) (s : cs) (ext : bool) (id : N) (data : bytes) : Prop :=
  match o with
  | AStreamSend d _ _ _ => ext = false /\ data = d /\ exists c l, s_list s = c :: l /\ c_id c = id
  | AIdSend x i d _ _ _ => ext = x /\ id = i /\ data = d
  | _ => False
  end.

(* A send call puts nothing on the queue, or one message with the first n
   bytes given; if it then reports a count, the count is n. During a key
   exchange it puts nothing and reports no count. *)
Theorem C15_next_bytes : forall os t s o r s' ext id data, history os t s -> sends o s ext id data ->
  step o s = Some (r, s') ->
  s_log s' = s_log s \/
  exists c k n, find_self id (s_list s) = Some c /\ n <= lenN data /\
    s_log s' = s_log s ++ [Sent k id (data_msg ext (c_peer c) (takeN n data))] /\
    (forall n', r = RNum n' -> n' = n).
Proof.
  intros os t s o r s' ext id data H Hs E.
  assert (Hspec : forall f1 f2 a, SendChannelData ext id data f1 f2 a s = (r, s') ->
    s_log s' = s_log s \/
    exists c k n, find_self id (s_list s) = Some c /\ n <= lenN data /\
      s_log s' = s_log s ++ [Sent k id (data_msg ext (c_peer c) (takeN n data))] /\
      (forall n', r = RNum n' -> n' = n)).
  { intros f1 f2 a Es. destruct (send_spec _ _ _ _ _ _ _ _ _ _ _ Es (history_inv _ _ _ H))
      as [r0 s0 Q _ _|c n k r0 s0 _ Hf _ _ -> T Hn _].
    - left. apply Q.
    - right. exists c, k, (N.min (the_bound c) (lenN data)). split; [assumption|].
      split; [lia|]. split; [exact (t_log _ _ _ _ _ _ T) | assumption]. }
  destruct o; cbn [sends] in Hs; try contradiction; cbn [step] in E.
  - destruct Hs as (-> & -> & c & l & El & Hc). unfold stream_send in E. rewrite El in E.
    destruct (keying s); [injection E as <- <-; left; reflexivity|]. rewrite Hc in E.
    apply (Hspec f1 f2 a). congruence.
  - destruct Hs as (-> & -> & ->). unfold ChannelIdSend in E.
    destruct (find_self id0 (s_list s)) as [c|]; [|injection E as <- <-; left; reflexivity].
    destruct (c_conf c); [|injection E as <- <-; left; reflexivity].
    apply (Hspec f1 f2 a). congruence.
Qed.

Theorem C15_not_during_kex : forall s o ext id data r s', keying s = true -> sends o s ext id data ->
  step o s = Some (r, s') -> s_log s' = s_log s /\ forall n, r <> RNum n.
Proof.
  intros s o ext id data r s' Hk Hs E.
  assert (Hspec : forall f1 f2 a, SendChannelData ext id data f1 f2 a s = (r, s') ->
    s_log s' = s_log s /\ forall n, r <> RNum n).
  { intros f1 f2 a Es. unfold SendChannelData in Es. cbv zeta in Es. rewrite Hk in Es.
    injection Es as <- <-. split; [|discriminate]. destruct (rc_eqb _ _); reflexivity. }
  destruct o; cbn [sends] in Hs; try contradiction; cbn [step] in E.
  - destruct Hs as (-> & -> & c & l & El & Hc). unfold stream_send in E. rewrite El, Hk in E.
    injection E as <- <-. split; [reflexivity | discriminate].
  - destruct Hs as (-> & -> & ->). unfold ChannelIdSend in E.
    destruct (find_self id0 (s_list s)) as [c|]; [|injection E as <- <-; split; [reflexivity | discriminate]].
    destruct (c_conf c); [|injection E as <- <-; split; [reflexivity | discriminate]].
    apply (Hspec f1 f2 a). congruence.
Qed.
(* the fields of the message: type, the peer's channel number, the bytes *)
Theorem C15_message : forall ext peer d, is32 peer -> is32 (lenN d) ->
  data_of (data_msg ext peer d) = d /\
  hd 0 (data_msg ext peer d) = (if ext then 95 else 94) /\
  be_value (slice (data_msg ext peer d) 1 4) = peer.
Proof.
  intros ext peer d Hp Hd. split; [apply data_msg_data|]. split; [destruct ext; reflexivity|].
  assert (E : slice (data_msg ext peer d) 1 4 = c32toa peer).
  { assert (L1 : lenN [MSGID_CHANNEL_DATA] = 1) by reflexivity.
    unfold data_msg. destruct ext.
    - change 1 with (lenN [MSGID_CHANNEL_EXTENDED_DATA]) at 1.
      replace 4 with (lenN (c32toa peer)) by apply c32toa_length. apply slice_mid.
    - change 1 with (lenN [MSGID_CHANNEL_DATA]) at 1.
      replace 4 with (lenN (c32toa peer)) by apply c32toa_length. apply slice_mid. }
  rewrite E. apply be_value_c32toa. assumption.
Qed.
Print Assumptions C15_peer_limits.
Print Assumptions C15_next_bytes.
Print Assumptions C15_not_during_kex.
Print Assumptions C15_message.

(* 60 bytes against packets of 50: 50 go, then 10; then 40 fit the window *)
Definition sixty : bytes := map N.of_nat (seq 0 60).
Definition demo15 : list op := opening ++
  [AStreamSend sixty quiet quiet good; AStreamSend (dropN 50 sixty) quiet quiet good;
   AIdSend true 0 sixty quiet quiet good; AStreamSend [1] quiet quiet good].
Example C15_demo_history : history demo15 (trace demo15) (after demo15).
Proof. demo. Qed.
Example C15_demo : map snd (skipn 2 (trace demo15)) = [RNum 50; RNum 10; RNum 40; RCode WS_WINDOW_FULL] /\
  map (fun e => match e with Sent _ _ m => lenN (data_of m) | _ => 0 end) (skipn 3 (s_log (after demo15)))
  = [50; 10; 40].
Proof. vm_compute. split; reflexivity. Qed.

(* ------------------------------------------------------------------ *)
(* C16                                                                  *)

(* The full statement: *)
Definition reported_is_queued : Prop :=
  forall os t s o r s' ext id data n, history os t s -> sends o s ext id data ->
    step o s = Some (r, s') -> r = RNum n -> 0 < n ->
    exists c k, s_log s' = s_log s ++ [Sent k id (data_msg ext (c_peer c) (takeN n data))] /\
                find_self id (s_list s) = Some c /\ n <= lenN data.

(* It holds unless older output was waiting and could not be written before
   the send ([blocked_before]). PreparePacket and BundlePacket do not answer
   WS_WANT_WRITE ([prep_ok]). *)
Definition pre_flush (o : op) : option (fans * fans * sendans) :=
  match o with
  | AStreamSend _ f1 f2 a | AIdSend _ _ _ f1 f2 a => Some (f1, f2, a)
  | _ => None
  end.
Theorem C16_reported_is_queued_partial : forall os t s o r s' ext id data n f1 f2 a,
  history os t s -> sends o s ext id data -> pre_flush o = Some (f1, f2, a) -> prep_ok a ->
  ~ blocked_before f1 f2 s ->
  step o s = Some (r, s') -> r = RNum n ->
  exists c k, s_log s' = s_log s ++ [Sent k id (data_msg ext (c_peer c) (takeN n data))] /\
              find_self id (s_list s) = Some c /\ n <= lenN data.
Proof.
  intros os t s o r s' ext id data n f1 f2 a H Hs Hp Ha Hb E ->.
  assert (Hspec : SendChannelData ext id data f1 f2 a s = (RNum n, s') ->
    exists c k, s_log s' = s_log s ++ [Sent k id (data_msg ext (c_peer c) (takeN n data))] /\
              find_self id (s_list s) = Some c /\ n <= lenN data).
  { intros Es. remember (RNum n) as r eqn:Er.
    destruct (send_spec _ _ _ _ _ _ _ _ _ _ _ Es (history_inv _ _ _ H))
      as [r0 s0 Q Hq _|c m k r0 s0 _ Hf _ _ -> T Hn _].
    - exfalso. destruct (Hq n Er) as [_ Hx]. destruct (Hx Ha) as [_ Hy]. contradiction.
    - exists c, k. rewrite (Hn n Er). split; [exact (t_log _ _ _ _ _ _ T)|]. split; [assumption | lia]. }
  destruct o; cbn [sends pre_flush] in Hs, Hp; try contradiction; injection Hp as -> -> ->; cbn [step] in E.
  - destruct Hs as (-> & -> & c & l & El & Hc). unfold stream_send in E. rewrite El in E.
    destruct (keying s); [discriminate|]. rewrite Hc in E. apply Hspec. congruence.
  - destruct Hs as (-> & -> & ->). unfold ChannelIdSend in E.
    destruct (find_self id0 (s_list s)) as [c|]; [|discriminate].
    destruct (c_conf c); [|discriminate]. apply Hspec. congruence.
Qed.
(* in particular when no output is waiting *)
Theorem C16_idle_partial : forall os t s o s' ext id data n f1 f2 a,
  history os t s -> s_out s = false -> s_plain s = 0 ->
  sends o s ext id data -> pre_flush o = Some (f1, f2, a) -> prep_ok a ->
  step o s = Some (RNum n, s') ->
  exists c k, s_log s' = s_log s ++ [Sent k id (data_msg ext (c_peer c) (takeN n data))] /\
              find_self id (s_list s) = Some c /\ n <= lenN data.
Proof.
  intros os t s o s' ext id data n f1 f2 a H Ho Hp Hs Hf Ha E.
  eapply C16_reported_is_queued_partial; try eassumption; [|reflexivity].
  intros (s1 & E1 & E2 & _). rewrite Hp in E1. cbn [N.ltb N.compare] in E1. congruence.
Qed.

(* The schedule that breaks it: another message is stuck in the queue, the
   attempt to write it blocks again, and the send reports all its bytes as
   sent although none was queued. *)
Definition demo16 : list op := opening ++ [OtherOutput FWant].
Theorem C16_reported_is_queued_refuted : ~ reported_is_queued.
Proof.
  intros H.
  assert (Hh : history demo16 (trace demo16) (after demo16)) by demo.
  destruct (step (AStreamSend [1;2;3] quiet FWant good) (after demo16)) as [[r s']|] eqn:E;
    [|vm_compute in E; discriminate].
  assert (Er : r = RNum 3 /\ s_log s' = s_log (after demo16)).
  { vm_compute in E. injection E as <- <-. vm_compute. split; reflexivity. }
  destruct Er as [Er El].
  destruct (H _ _ _ (AStreamSend [1;2;3] quiet FWant good) r s' false 0 [1;2;3] 3 Hh) as (c & k & E2 & _).
  - split; [reflexivity|]. split; [reflexivity|]. vm_compute. eauto.
  - exact E.
  - exact Er.
  - reflexivity.
  - rewrite El in E2. apply (f_equal (@length ev)) in E2. rewrite app_length in E2. cbn [length] in E2. lia.
Qed.
Print Assumptions C16_reported_is_queued_partial.
Print Assumptions C16_idle_partial.
Print Assumptions C16_reported_is_queued_refuted.
Example C16_demo_idle : s_out (after opening) = false /\ s_plain (after opening) = 0 /\
  match step (AStreamSend [1;2;3] quiet FWant good) (after opening) with
  | Some (RNum n, _) => n = 3 | _ => False end.
Proof. vm_compute. repeat split; reflexivity. Qed.

(* ------------------------------------------------------------------ *)
(* C17                                                                  *)

Theorem C17_adjust : forall os t s c n, history os t s -> live s c -> is32 n ->
  (c_pwin c + n < W32 ->
     exists s' c', step (PAdjust (adjust_packet (c_id c) n)) s = Some (RCode WS_SUCCESS, s') /\
       find_self (c_id c) (s_list s') = Some c' /\ c_pwin c' = c_pwin c + n /\
       s_log s' = s_log s ++ [Adjusted (c_id c) n]) /\
  (W32 <= c_pwin c + n ->
     step (PAdjust (adjust_packet (c_id c) n)) s = Some (RCode WS_OVERFLOW_E, s)).
Proof.
  intros os t s c n H Hl Hn. destruct (live_ci _ _ _ _ (history_inv _ _ _ H) Hl) as (Hid & (HC & _) & Hf).
  destruct HC as (A1 & A2 & A3 & A4 & A5 & A6 & A7 & A8 & _).
  set (m := adjust_packet (c_id c) n).
  assert (Hb : bytes_ok (c32toa (c_id c) ++ c32toa n)).
  { apply Forall_app. split; apply c32toa_ok. }
  assert (Hb' : bytes_ok (c32toa (c_id c) ++ c32toa n ++ [])) by (rewrite app_nil_r; exact Hb).
  assert (H32 : is32 (lenN (c32toa (c_id c) ++ c32toa n))).
  { rewrite lenN_app, !c32toa_length. reflexivity. }
  assert (P1 : GetUint32 m (lenN m) 0 = POk (c_id c) 4).
  { exact (u32_at [] (c_id c) (c32toa n) Hid Hb H32). }
  assert (P2 : GetUint32 m (lenN m) 4 = POk n 8).
  { pose proof (u32_at (c32toa (c_id c)) n [] Hn Hb') as P. rewrite app_nil_r, c32toa_length in P. exact (P H32). }
  cbn [step]. unfold DoChannelWindowAdjust. cbv zeta. fold m. rewrite P1, P2, Hf.
  rewrite sub32_small by (unfold is32, W32, UINT32_MAX in *; lia).
  destruct (N.ltb_spec (UINT32_MAX - c_pwin c) n) as [Ho|Ho]; split; intros Hlt;
    try (unfold is32, W32, UINT32_MAX in *; lia).
  - reflexivity.
  - rewrite add32_small by assumption. cbn [lifth]. eexists _, _. split; [reflexivity|]. split.
    + cbn [log on_chan set_list s_list]. rewrite (upd_const _ _ _ _ Hf). eapply upd_find; [exact Hf | reflexivity].
    + split; reflexivity.
Qed.
(* over any history: the window is what was granted less what was used, and
   stays below 2^32 *)
Theorem C17_window_is_granted_less_used : forall os t s c, history os t s -> live s c ->
  c_pwin c + used (c_id c) (s_log s) = granted (c_id c) (s_log s) /\ c_pwin c < W32.
Proof.
  intros os t s c H Hl. destruct (live_ci _ _ _ _ (history_inv _ _ _ H) Hl) as (Hid & (HC & _) & Hf).
  destruct HC as (A1 & A2 & A3 & A4 & A5 & A6 & A7 & A8 & A9 & _). split; [exact A9 | exact A8].
Qed.
Print Assumptions C17_adjust.
Print Assumptions C17_window_is_granted_less_used.
Definition demo17 : list op := demo15 ++ [PAdjust (adjust_packet 0 5); PAdjust (adjust_packet 0 4294967290)].
Example C17_demo_history : history demo17 (trace demo17) (after demo17).
Proof. demo. Qed.
Example C17_demo : map c_pwin (s_list (after demo17)) = [4294967295] /\
  match step (PAdjust (adjust_packet 0 1)) (after demo17) with
  | Some (RCode WS_OVERFLOW_E, _) => True | _ => False end.
Proof. vm_compute. split; [reflexivity | exact I]. Qed.
