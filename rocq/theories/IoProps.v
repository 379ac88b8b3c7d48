(* IoProps.v - C24, C27 and C31. *)
From Verif Require Import Base BufModel BufSpec BufProofs PacketModel IoModel IoSpec IoProofs.
From Coq Require Import List NArith PeanoNat Lia Bool ZifyBool ZifyNat ZifyN.
Import ListNotations.
Open Scope N_scope.

(* ---- C24 ------------------------------------------------------------- *)
(* One flush, whatever the transport answers: what was handed over followed by
   what is still queued is what was queued (only the general-failure answer
   discards the queue), and success means that all of it was handed over. *)
Theorem C24_flush : forall sched b, buf_inv b -> honest_from (lenN (unread b)) sched ->
  exists f, SendPacket sched b [] = Some f /\ buf_inv (f_buf f) /\
    (~ In SGeneral sched -> f_out f ++ unread (f_buf f) = unread b) /\
    (f_rc f = WS_WANT_WRITE -> f_out f ++ unread (f_buf f) = unread b) /\
    (f_rc f = WS_SUCCESS -> f_out f = unread b /\ unread (f_buf f) = []).
Proof.
  intros sched b Hi Hh. destruct (SendPacket_spec sched b [] Hi Hh) as (f & E & Hi' & K1 & K2 & _ & K4).
  exists f. split; [assumption|]. split; [assumption|]. cbn [app] in *.
  split. { intros Hg. destruct K1 as [K1|(o & -> & K1)]; [contradiction|assumption]. }
  split. { intros Hw. destruct (K4 Hw) as (o & -> & K). assumption. }
  intros Hs. destruct (K2 Hs). auto.
Qed.

(* Any interleaving of queueing and flushing: the transport has received a
   prefix of everything queued, in order, and the rest is still queued. *)
Theorem C24_history : forall b ops sent b', buf_inv b -> unread b = [] ->
  out_run b ops sent b' -> sent ++ unread b' = queued ops.
Proof.
  intros b ops sent b' Hi He Hr. destruct (out_run_conserves b ops sent b' Hr Hi) as (_ & K).
  rewrite He in K. exact K.
Qed.

(* ---- C27 ------------------------------------------------------------- *)
(* Reading the version line, over however many calls and however the bytes
   arrive. Success only on an acceptable line, and exactly that line (and the
   skipped ones) has been consumed. The version state is reached only then. *)
Theorem C27_accepts_only : forall server v net r v' net',
  v_fresh v -> no_err net -> proto_run server v net r v' net' ->
  (v_done v' = true <-> r = WS_SUCCESS) /\
  (r = WS_SUCCESS ->
     version_in server (v_banners v) (unread (v_buf v) ++ stream net) (v_id v') (unread (v_buf v') ++ stream net')).
Proof. intros server v net r v' net' Hf Hn Hr. eapply proto_run_sound; eassumption. Qed.

(* Conversely an acceptable line is always accepted: the call keeps asking for
   more input or succeeds, with the announced id, at the line's end. *)
Theorem C27_accepts_all : forall server v net r v' net' id rest,
  v_fresh v -> no_err net -> proto_run server v net r v' net' ->
  version_in server (v_banners v) (unread (v_buf v) ++ stream net) id rest ->
  r = WS_WANT_READ \/ (r = WS_SUCCESS /\ v_id v' = id /\ unread (v_buf v') ++ stream net' = rest).
Proof.
  intros server v net r v' net' id rest Hf Hn Hr V.
  destruct (rc_eq_dec r WS_WANT_READ) as [E|E]; [auto|]. right. eapply proto_run_complete; eassumption.
Qed.

(* ---- C31 ------------------------------------------------------------- *)
(* [bytes and messages since the last new keys, counted without bound] *)
(* In every key epoch each threshold invokes the callback at most once. *)
Theorem C31_at_most_once : forall mark mmark es h p calls,
  Forall has_cb es -> hw_run (hw_start mark mmark) ep_start [0%nat] es = (h, p, calls) ->
  Forall (fun c => (c <= (if (mark =? 0)%N then 0 else 1) + (if (mmark =? 0)%N then 0 else 1))%nat) calls.
Proof.
  intros mark mmark es h p calls Hc E.
  destruct (hw_run_ok _ _ _ _ _ _ _ _ _ Hc (hw_start_ok mark mmark) E)
    as (_ & _ & _ & _ & _ & _ & F1 & F2 & c & t & -> & C1 & _ & C3).
  constructor; [|exact C3].
  destruct (h_flag h), (h_mflag h); destruct (N.eqb_spec mark 0), (N.eqb_spec mmark 0);
    try (exfalso; apply F1; auto; fail); try (exfalso; apply F2; auto; fail); lia.
Qed.

(* A check made when some count of the epoch is at its threshold (and has not
   run past 2^32 since the check before) finds that the callback has been
   invoked in this epoch. *)
Theorem C31_fires : forall mark mmark es e h p calls,
  Forall has_cb (es ++ [e]) -> is_check e = true ->
  hw_run (hw_start mark mmark) ep_start [0%nat] (es ++ [e]) = (h, p, calls) ->
  (mark <> 0 /\ (mark <= e_tx p < W32 \/ mark <= e_rx p < W32)) \/
  (mmark <> 0 /\ (mmark <= e_txm p < W32 \/ mmark <= e_rxm p < W32)) ->
  (1 <= hd 0 calls)%nat.
Proof.
  intros mark mmark es e h p calls Hc He E Hm. rewrite hw_run_app in E.
  apply Forall_app in Hc. destruct Hc as (Hc1 & Hc2). inversion Hc2 as [|? ? Hc3 _]; subst.
  destruct (hw_run (hw_start mark mmark) ep_start [0%nat] es) as [[h1 p1] calls1] eqn:E1.
  pose proof (hw_run_ok _ _ _ _ _ _ _ _ _ Hc1 (hw_start_ok mark mmark) E1) as Hk.
  pose proof (hw_ok_app mark mmark h1 p1 calls1 e Hc3 Hk) as K.
  cbn [hw_run] in E. destruct (hw_step h1 e) as [h2 n]. injection E as <- <- E. rewrite E in K.
  destruct K as (K & _ & K2). destruct (K2 He) as (K3 & K4).
  destruct K as (_ & _ & _ & _ & _ & _ & _ & _ & c & t & -> & _ & C2 & _). cbn [hd]. apply C2.
  assert (W : forall x, x < W32 -> w32 x = x) by (intros; apply w32_small; assumption).
  destruct Hm as [(M & Hm)|(M & Hm)]; [left; apply K3|right; apply K4]; try assumption;
    (destruct Hm as [(Hm & Hw)|(Hm & Hw)]; [left|right]; rewrite W; assumption).
Qed.

(* No invocation without a count at its threshold. *)
Theorem C31_only_when_reached : forall mark mmark es e h p calls h' n,
  Forall has_cb (es ++ [e]) ->
  hw_run (hw_start mark mmark) ep_start [0%nat] es = (h, p, calls) ->
  hw_step h e = (h', n) -> (n > 0)%nat ->
  let p' := ep_step p e in
  (mark <> 0 /\ (mark <= e_tx p' \/ mark <= e_rx p')) \/ (mmark <> 0 /\ (mmark <= e_txm p' \/ mmark <= e_rxm p')).
Proof.
  intros mark mmark es e h p calls h' n Hc E Es Hn p'.
  apply Forall_app in Hc. destruct Hc as (Hc1 & Hc2). inversion Hc2 as [|? ? Hc3 _]; subst.
  pose proof (hw_run_ok _ _ _ _ _ _ _ _ _ Hc1 (hw_start_ok mark mmark) E) as Hk.
  pose proof (hw_ok_app mark mmark h p calls e Hc3 Hk) as K. rewrite Es in K. tauto.
Qed.

Print Assumptions C24_flush.
Print Assumptions C24_history.
Print Assumptions C27_accepts_only.
Print Assumptions C27_accepts_all.
Print Assumptions C31_at_most_once.
Print Assumptions C31_fires.
Print Assumptions C31_only_when_reached.

(* ---- concrete cases -------------------------------------------------- *)
(* thirty bytes go out as 7, would-block, 20 and 3 while 2 more are queued *)
Definition b0 : wbuf := mkBuf [] 0 16 false.
Example C24_nonvacuous : exists b',
  out_run b0 [OQueue (map N.of_nat (seq 0 30)); OFlush [Sent 7; SWantWrite]; OQueue [77;78]; OFlush [Sent 20; Sent 5]]
    (map N.of_nat (seq 0 30) ++ [77;78]) b' /\ unread b' = [].
Proof.
  eexists. split.
  - eapply or_queue; [vm_compute; reflexivity|vm_compute; reflexivity|].
    change (map N.of_nat (seq 0 30) ++ [77;78]) with
      ([0;1;2;3;4;5;6] ++ (map N.of_nat (seq 7 23) ++ [77;78]) ++ []).
    eapply (or_flush _ _ (mkFlush _ _ [0;1;2;3;4;5;6] _)).
    + vm_compute. reflexivity.
    + cbn. vm_compute. intuition congruence.
    + unfold no_general; cbn; intuition discriminate.
    + eapply or_queue; [vm_compute; reflexivity|vm_compute; reflexivity|].
      eapply (or_flush _ _ (mkFlush _ _ (map N.of_nat (seq 7 23) ++ [77;78]) _)).
      * vm_compute. reflexivity.
      * vm_compute. intuition congruence.
      * unfold no_general; cbn; intuition discriminate.
      * apply or_nil.
  - reflexivity.
Qed.

(* A transport that claims more than it was shown is caught only if it claims
   more than the whole buffer: here 5 of 3 remaining bytes "sent" leaves the
   index past the end and still reports success. *)
Example C24_dishonest : exists f,
  SendPacket [Sent 5] (mkBuf [1;2;3;4;5;6] 3 16 false) [] = Some f /\ f_rc f = WS_SUCCESS /\ b_len (f_buf f) < b_idx (f_buf f).
Proof. eexists. split; [vm_compute; reflexivity|]. split; vm_compute; reflexivity. Qed.

(* "hi\n" "SSH-2.0-x\r\n" and three bytes of the first packet, in pieces *)
Definition C27_bytes : bytes := [104;105;10] ++ SSH_PROTO_PREFIX ++ [120;13;10;1;2;3].
Definition C27_net : list nev :=
  [NData (takeN 2 C27_bytes); NBlock; NData (takeN 9 (dropN 2 C27_bytes)); NBlock; NData (dropN 11 C27_bytes)].
Definition v0 : vst := mkV b0 0 false [].
Example C27_nonvacuous : v_fresh v0 /\ no_err C27_net /\
  exists v' net', proto_run false v0 C27_net WS_SUCCESS v' net' /\ v_id v' = SSH_PROTO_PREFIX ++ [120] /\
                  unread (v_buf v') ++ stream net' = [1;2;3].
Proof.
  split. { unfold v_fresh, v0, b0, buf_inv; vm_compute; intuition congruence. }
  split. { unfold no_err, C27_net; cbn; intuition discriminate. }
  do 2 eexists. split.
  - eapply pr_again; [vm_compute; reflexivity|]. eapply pr_again; [vm_compute; reflexivity|].
    eapply pr_last. vm_compute. reflexivity.
  - split; vm_compute; reflexivity.
Qed.
Example C27_server_refuses_banner : exists v' net',
  proto_run true v0 [NData C27_bytes] WS_VERSION_E v' net' /\ v_done v' = false.
Proof. do 2 eexists. split; [eapply pr_last; vm_compute; reflexivity|reflexivity]. Qed.

(* a byte threshold of 100 reached by sending, new keys, reached again by
   receiving: one call in each epoch *)
Example C31_nonvacuous :
  snd (hw_run (hw_start 100 2147483648) ep_start [0%nat]
    [HEnc 60; HBundle; HFlushed (Some WS_SUCCESS); HEnc 60; HBundle; HFlushed (Some WS_SUCCESS);
     HDec 8; HPacket (Some WS_SUCCESS); HSendNewKeys; HRecvNewKeys; HDec 120; HPacket (Some WS_SUCCESS);
     HPacket (Some WS_SUCCESS)]) = [1%nat; 1%nat].
Proof. vm_compute. reflexivity. Qed.
