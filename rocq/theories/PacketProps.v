(* PacketProps.v - C20, C21, C22, C23, C25, C26, C35. *)
From Verif Require Import Base WireModel WireSpec WireProofs NameTable NegoModel NegoProofs BufModel BufSpec BufProofs
  PacketModel IoModel IoSpec IoProofs PacketSpec PacketProofs PacketSafe PacketTx PacketTrip PacketRuns PacketMore.
From Coq Require Import PeanoNat List NArith ZArith Lia Bool.
Import ListNotations.
Open Scope N_scope.

Lemma ready_inv : forall C H (s : rxst C H), ready s -> rx_inv s /\ verified s.
Proof.
  intros C H s (H1 & H2 & H3). unfold rx_inv, verified. rewrite H3. auto.
Qed.

(* ---- C20: outgoing packets are well formed ----------------------------- *)
(* Queuing a message whose size estimate covers it never runs out of the
   reserved space: it fails only if the random source or the cipher fails, and
   otherwise appends to the queue exactly one protected well-padded packet. *)
Theorem C20_packet : forall (C : crypto) rnd (t : txst C) est p, crypto_ok C -> rnd_ok rnd ->
  buf_inv (t_buf t) -> keys_ok (t_keys t) -> p <> [] -> lenN p <= est ->
  lenN (unread (t_buf t)) + est + 200 < W32 ->
  exists r t', queue_message rnd t est p = TxRet r t' /\
    ((r = WS_SUCCESS /\ exists pad k' wire,
        well_padded (k_block (t_keys t)) (k_aead (t_keys t)) p pad /\
        protects (t_keys t) (t_seq t) (frame p pad) k' wire /\
        unread (t_buf t') = unread (t_buf t) ++ wire /\ lenN wire = lenN (frame p pad) + k_macSz (t_keys t) /\
        buf_inv (t_buf t') /\ t_keys t' = k' /\ t_seq t' = add32 (t_seq t) 1 /\ t_msgs t' = add32 (t_msgs t) 1) \/
     (r = WS_CRYPTO_FAILED /\ rnd (pad_for (k_block (t_keys t)) (k_aead (t_keys t)) (lenN p)) = None /\
        t_seq t' = t_seq t) \/
     (r = WS_ENCRYPT_E /\ t_seq t' = t_seq t /\ exists k pkt,
        if k_aead (t_keys t) then exists iv, c_seal C k iv (takeN 4 pkt) (dropN 4 pkt) = None else c_enc C k pkt = None)).
Proof. intros C rnd t est p HC HR. apply queue_message_spec; assumption. Qed.
Print Assumptions C20_packet.

(* ---- C21: packets survive the round trip ------------------------------- *)
(* one packet: unless the call blocks, it hands over the payload, consumes the
   packet's bytes and no others, and ends with the sender's next keys and
   sequence number *)
Theorem C21_packet : forall (C : crypto) H (A : applib C H) (s : rxst C H) net m body pad k' wire rest,
  crypto_ok C -> app_ok A -> ready s -> tight s -> no_err net ->
  well_padded (k_block (r_keys s)) (k_aead (r_keys s)) (m :: body) pad -> fits (r_keys s) (m :: body) pad ->
  protects (r_keys s) (r_seq s) (frame (m :: body) pad) k' wire ->
  unread (r_buf s) ++ stream net = wire ++ rest ->
  willing A (r_app s) [(m :: body, None)] ->
  exists r s' n log, DoReceive A s net = RxRet r s' n log /\
    ((r_err s' = WS_WANT_READ /\ log = [] /\ unread (r_buf s') ++ stream n <> []) \/
     (log = [mkHandled (r_seq s) m body] /\ stream n = rest /\ unread (r_buf s') = [] /\
      r_keys s' = k' /\ r_seq s' = add32 (r_seq s) 1 /\ passes r = true)).
Proof.
  intros C H A s net m body pad k' wire rest HC HA Hr Ht Hn Wp Fi Pr Es Hw.
  destruct (ready_inv _ _ _ Hr) as (Hi & Hv). destruct Hr as (Hb & Hk & Hp).
  cbn [willing] in Hw. destruct Hw as (W1 & W2 & W3 & W4).
  assert (NP : hr_rc (a_handle A (snd (a_allowed A (s_app (abs s)) m)) m body) <> WS_AUTH_PENDING).
  { intro X. cbn [abs s_app] in X. rewrite X in W2. discriminate. }
  destruct (sp_roundtrip A HC (abs s) m body pad k' wire rest Hp Hk Wp Fi Pr W1 NP) as (cnt & T).
  unfold taken in T. change (s_app (abs s)) with (r_app s) in T. rewrite W3 in T. destruct T as (cur & T).
  destruct (W4 cnt (add32 (r_msgs s) 1)) as (P1 & _).
  pose proof (DoReceive_refines A (co_len _ HC) HA s net Hi Ht Hn) as R.
  rewrite Es, T in R.
  destruct (DoReceive A s net) as [r s' n log| |] eqn:E; [|contradiction|contradiction].
  exists r, s', n, log. split; [reflexivity|].
  destruct R as (Hi' & Hn' & [R|R]).
  - left. destruct R as (R1 & R2 & R3 & R4 & R5 & R6). split; [assumption|]. split; [assumption|].
    intro Z. rewrite Z in R5. apply app_eq_nil in Z. destruct Z as (_ & Z2).
    specialize (R6 Z2). discriminate R6.
  - right. destruct R as (R1 & R2 & R3 & R4 & R5 & R6 & R7). subst log.
    split; [reflexivity|]. split; [symmetry; exact R6|]. split; [assumption|].
    apply (f_equal s_keys) in R4 as RK. apply (f_equal s_seq) in R4 as RS. cbn [abs s_keys s_seq] in RK, RS.
    split; [exact RK|]. split; [exact RS|].
    assert (PE : passes (if rc_eqb (hr_rc (a_handle A (snd (a_allowed A (r_app s) m)) m body)) WS_SUCCESS
       then fst (a_highwater A (hr_st (a_handle A (snd (a_allowed A (r_app s) m)) m body)) cnt (add32 (s_msgs (abs s)) 1))
       else hr_rc (a_handle A (snd (a_allowed A (r_app s) m)) m body)) = true).
    { destruct (rc_eqb _ WS_SUCCESS); assumption. }
    rewrite R7, PE. exact PE.
Qed.
Print Assumptions C21_packet.

(* whole streams, with key changes: whatever the network does to the bytes the
   sender queued, a receiver that starts with the same keys and sequence number
   and runs until nothing more arrives has handled exactly the messages sent,
   in order, numbered alike *)
Theorem C21_stream : forall (C : crypto) H (A : applib C H) rnd (t t2 : txst C) ms (s s2 : rxst C H) net rest log,
  crypto_ok C -> app_ok A -> rnd_ok rnd ->
  buf_inv (t_buf t) -> unread (t_buf t) = [] -> keys_ok (t_keys t) ->
  tx_run rnd t ms t2 -> (forall p ko, In (p, ko) ms -> lenN p <= 34900) ->
  ready s -> unread (r_buf s) = [] -> r_keys s = t_keys t -> r_seq s = t_seq t -> willing A (r_app s) ms ->
  no_err net -> stream net = unread (t_buf t2) ++ rest ->
  rx_run A s net log true s2 ->
  exists more, log = numbered (t_seq t) ms ++ more /\ (rest = [] -> more = [] /\ r_seq s2 = t_seq t2).
Proof.
  intros C H A rnd t t2 ms s s2 net rest log HC HA HR Hb Hu Hk T Hsz Hr Hsu Ek Eq Hw Hn Es R.
  destruct (ready_inv _ _ _ Hr) as (Hi & Hv). destruct Hr as (Hsb & Hsk & Hp).
  destruct (tx_sends HC rnd HR t ms t2 T Hb Hk Hsz) as (w & S & Eu2 & _ & Hk2).
  rewrite Hu in Eu2. cbn [app] in Eu2. rewrite Eu2 in Es.
  assert (Ht : tight s). { unfold tight. rewrite Hp, Hsu. cbv zeta. change (lenN (@nil N)) with 0. lia. }
  destruct (run_trace A (co_len _ HC) HA s net log true s2 R Hi Hv Ht Hn) as (_ & F & _).
  specialize (F eq_refl). rewrite Hsu, Es in F. cbn [app] in F.
  destruct (trace_sends A HC _ _ _ _ _ _ S (abs s) rest Hp Ek Eq Hk Hw) as (a' & A1 & A2 & A3 & A4 & A5).
  (* the trace after the sent messages *)
  assert (Z : exists more q, log = numbered (t_seq t) ms ++ more /\ r_seq s2 = q /\ sp_trace A a' rest more q).
  { clear Es. revert a' A1 A2 A3 A4 A5. intros.
    (* every trace of the whole stream starts with the numbered messages *)
    assert (G : forall k q ms' kn qn w', sends k q ms' kn qn w' -> forall (a : abst C H) l z,
       s_ph a = PhInit -> s_keys a = k -> s_seq a = q -> keys_ok k -> willing A (s_app a) ms' ->
       sp_trace A a (w' ++ rest) l z -> exists more, l = numbered q ms' ++ more).
    { induction 1 as [k q|k q p ko pad k1 w1 r kn qn w2 Hp0 Wp Fi Pr Hko S0 IH]; intros a l z Q1 Q2 Q3 Q4 Q5 Q6.
      - exists l. reflexivity.
      - destruct p as [|m body]; [congruence|]. cbn [willing] in Q5. destruct Q5 as (W1 & W2 & W3 & W4).
        rewrite <- Q2 in Wp, Fi, Pr, Q4. rewrite <- Q3 in Pr.
        assert (NP : hr_rc (a_handle A (snd (a_allowed A (s_app a) m)) m body) <> WS_AUTH_PENDING).
        { intro X. rewrite X in W2. discriminate. }
        rewrite <- app_assoc in Q6.
        destruct (sp_roundtrip A HC a m body pad k1 w1 (w2 ++ rest) Q1 Q4 Wp Fi Pr W1 NP) as (cnt & TT).
        unfold taken in TT. rewrite W3 in TT.
        assert (K1 : keys_ok k1) by (eapply protects_keys_ok; eassumption).
        set (kc := match ko with Some k2 => (k2, 0, 0) | None => (k1, cnt, s_msgs a) end) in *.
        assert (Hkc : fst (fst kc) = match ko with Some k2 => k2 | None => k1 end /\ keys_ok (fst (fst kc))).
        { unfold kc. destruct ko; cbn; auto. }
        destruct kc as [[k2 c2] m2]. cbn [fst] in Hkc. destruct Hkc as (Hkc1 & Hkc2). destruct TT as (cur & TT).
        destruct (W4 c2 (add32 m2 1)) as (P1 & P2).
        inversion Q6 as [b w' E2|b w' e2 l' E2|b w' e2 l' b' r2 E2 P2'|b w' e2 l' b' r2 log2 q' E2 P2' T2']; subst;
          rewrite TT in E2; try discriminate; injection E2; intros; subst.
        + exfalso. destruct (rc_eqb _ WS_SUCCESS); congruence.
        + eapply IH in T2'; try reflexivity; try assumption.
          destruct T2' as (more & ->). exists more. reflexivity.
          all: try (cbn [s_keys]; rewrite Hkc1; reflexivity); try (rewrite <- Hkc1; exact Hkc2). }
    destruct (G _ _ _ _ _ _ S (abs s) log (r_seq s2) Hp Ek Eq Hk Hw F) as (more & Em).
    exists more, (r_seq s2). split; [exact Em|]. split; [reflexivity|]. apply A5. rewrite <- Em. exact F. }
  destruct Z as (more & q & Z1 & Z2 & Z3). exists more. split; [exact Z1|].
  intros ->. 
  assert (SW : sp_receive A a' [] = SWait).
  { unfold sp_receive. rewrite A1. destruct (keys_ok_sizes _ _ A4) as (K1 & _).
    rewrite A2. change (lenN (@nil N)) with 0. destruct (N.ltb_spec 0 (k_block (t_keys t2))); [reflexivity|lia]. }
  inversion Z3 as [b w' E2|b w' e2 l' E2|b w' e2 l' b' r2 E2 P2'|b w' e2 l' b' r2 log2 q' E2 P2' T2']; subst; try congruence.
  split; [reflexivity|congruence].
Qed.
Print Assumptions C21_stream.

(* ---- C22: only verified packets are acted upon -------------------------- *)
(* any calls, any schedules, failures included *)
Theorem C22_history : forall (C : crypto) H (A : applib C H) (s s2 : rxst C H) log c,
  crypto_len C -> app_safe A -> ready s -> rx_hist A s log c s2 ->
  forall s' h, In (s', h) log -> passed (r_keys s') (r_seq s') h /\ hd_seq h = r_seq s'.
Proof.
  intros C H A s s2 log c HC HA Hr R. destruct (ready_inv _ _ _ Hr) as (Hi & Hv). clear Hr.
  induction R as [s|s net r s' n l log c s2 E R IH]; intros x h Hin; [destruct Hin|].
  pose proof (DoReceive_safe A HC HA s net Hi Hv) as F. rewrite E in F. destruct F as (Hi' & Hv' & Fe).
  apply in_app_or in Hin. destruct Hin as [Hin|Hin]; [|apply IH; assumption].
  apply in_map_iff in Hin. destruct Hin as (h' & [= <- ->] & Hin).
  destruct l as [|h0 [|? ?]]; [destruct Hin| |destruct Fe].
  destruct Hin as [->|[]]. destruct Fe as (F1 & F2 & _). auto.
Qed.
Print Assumptions C22_history.

(* in terms of the raw bytes from the network: the first message handled came
   out of the packet at the head of the stream, and the tag that follows that
   packet in the stream is the right one *)
Theorem C22_stream : forall (C : crypto) H (A : applib C H) (s s2 : rxst C H) net h t fin,
  crypto_len C -> app_ok A -> ready s -> tight s -> no_err net ->
  rx_run A s net (h :: t) fin s2 ->
  exists cur pkt, raw_checked (r_keys s) (r_seq s) (unread (r_buf s) ++ stream net) cur pkt /\
    carries cur pkt h /\ hd_seq h = r_seq s /\ cur <= MAX_PACKET_SZ - k_macSz (r_keys s) - 4.
Proof.
  intros C H A s s2 net h t fin HC HA Hr Ht Hn R. destruct (ready_inv _ _ _ Hr) as (Hi & Hv). destruct Hr as (Hb & Hk & Hp).
  pose proof (run_first A HC HA s net _ fin s2 R Hi Hv Ht Hn h t eq_refl) as I.
  destruct (raw_log A HC (abs s) _ h Hp Hk I) as (cur & pkt & R1 & R2 & R3 & R4 & R5). eauto 10.
Qed.
Print Assumptions C22_stream.

(* a packet announcing too much is refused when its first block is in, nothing
   beyond that block having been read *)
Theorem C22_oversize : forall (C : crypto) H (A : applib C H) (s : rxst C H) net,
  crypto_len C -> app_ok A -> ready s -> tight s -> no_err net ->
  let w := unread (r_buf s) ++ stream net in
  let k := r_keys s in
  let '(r, k1, d) := if k_aead k then (WS_SUCCESS, k, takeN (k_block k) w) else Decrypt k (takeN (k_block k) w) in
  r = WS_SUCCESS -> k_block k <= lenN w -> (exists l, ato32 d 0 = Some l /\ MAX_PACKET_SZ - k_macSz k - 4 < l) ->
  exists s' n, DoReceive A s net = RxRet WS_FATAL_ERROR s' n [] /\
    ((r_err s' = WS_WANT_READ /\ r_ph s' = PhInit /\ unread (r_buf s') ++ stream n = w) \/
     (r_err s' = WS_OVERFLOW_E /\ lenN (unread (r_buf s')) = k_block k /\ stream n = dropN (k_block k) w)).
Proof.
  intros C H A s net HC HA Hr Ht Hn. destruct (ready_inv _ _ _ Hr) as (Hi & Hv). destruct Hr as (Hb & Hk & Hp).
  apply oversize_call; assumption.
Qed.
Print Assumptions C22_oversize.

(* ---- C23: fragmentation does not matter --------------------------------- *)
(* Missing from the full property: the start of the connection, when the
   buffer may hold more than the first packet block (see the refuted theorem
   below). From any state with no bytes buffered beyond the packet being
   received, two complete runs over the same remaining stream handle the same
   messages, and an interrupted one a prefix. *)
Theorem C23_fragmentation_partial : forall (C : crypto) H (A : applib C H) (s1 s2 e1 e2 : rxst C H) net1 net2 log1 log2 fin1,
  crypto_len C -> app_ok A -> ready s1 -> tight s1 -> ready s2 -> tight s2 -> no_err net1 -> no_err net2 ->
  abs s1 = abs s2 -> unread (r_buf s1) ++ stream net1 = unread (r_buf s2) ++ stream net2 ->
  rx_run A s1 net1 log1 fin1 e1 -> rx_run A s2 net2 log2 true e2 ->
  (exists t, log2 = log1 ++ t) /\ (fin1 = true -> log1 = log2 /\ r_seq e1 = r_seq e2).
Proof.
  intros C H A s1 s2 e1 e2 net1 net2 log1 log2 fin1 HC HA Hr1 Ht1 Hr2 Ht2 Hn1 Hn2 Ea Ew R1 R2.
  destruct (ready_inv _ _ _ Hr1) as (Hi1 & Hv1). destruct (ready_inv _ _ _ Hr2) as (Hi2 & Hv2).
  destruct (run_trace A HC HA _ _ _ _ _ R1 Hi1 Hv1 Ht1 Hn1) as (_ & F1 & P1).
  destruct (run_trace A HC HA _ _ _ _ _ R2 Hi2 Hv2 Ht2 Hn2) as (_ & F2 & _). specialize (F2 eq_refl).
  rewrite <- Ea, <- Ew in F2. split; [eapply P1; exact F2|].
  intros ->. eapply sp_trace_det; [apply F1; reflexivity|exact F2].
Qed.
Print Assumptions C23_fragmentation_partial.

(* ---- C25: sequence numbers ---------------------------------------------- *)
Theorem C25_send : forall (C : crypto) rnd (t t2 : txst C) ms, crypto_ok C -> rnd_ok rnd ->
  buf_inv (t_buf t) -> keys_ok (t_keys t) -> is32 (t_seq t) -> tx_run rnd t ms t2 ->
  t_seq t2 = (t_seq t + lenN ms) mod 2 ^ 32.
Proof. intros C rnd t t2 ms HC HR Hb Hk H3 R. apply (tx_seq HC rnd HR t ms t2 R Hb Hk H3). Qed.
Print Assumptions C25_send.

Theorem C25_send_rekey : forall (C : crypto) rnd (t t2 : txst C) k, crypto_ok C -> rnd_ok rnd ->
  buf_inv (t_buf t) -> keys_ok (t_keys t) -> lenN (unread (t_buf t)) + 201 < W32 ->
  SendNewKeys rnd t k = TxRet WS_SUCCESS t2 ->
  t_seq t2 = add32 (t_seq t) 1 /\ t_cnt t2 = 0 /\ t_msgs t2 = 0 /\ t_keys t2 = k.
Proof.
  intros C rnd t t2 k HC HR Hb Hk Hs Q.
  unfold SendNewKeys in Q. destruct (queue_message rnd t 1 [21]) as [r t'|] eqn:E; [|discriminate].
  assert (r = WS_SUCCESS /\ t2 = install t' k) as (-> & ->) by (destruct r; try discriminate; injection Q as <-; auto).
  destruct (queue_ok HC rnd HR t 1 [21] t' Hb Hk) as (pad & wire & D1 & D2 & D3 & D4 & D5 & D6 & D7 & D8);
    [discriminate|cbn; lia|lia|assumption|]. cbn [install t_seq t_cnt t_msgs t_keys]. auto.
Qed.
Print Assumptions C25_send_rekey.

(* received: the number of packets consumed, whatever failed in between *)
Theorem C25_receive : forall (C : crypto) H (A : applib C H) (s s2 : rxst C H) log c,
  crypto_len C -> app_safe A -> ready s -> is32 (r_seq s) -> rx_hist A s log c s2 ->
  r_seq s2 = (r_seq s + c) mod 2 ^ 32.
Proof.
  intros C H A s s2 log c HC HA Hr H3 R. destruct (ready_inv _ _ _ Hr) as (Hi & Hv). clear Hr.
  change (2 ^ 32) with W32. fold (w32 (r_seq s + c)).
  induction R as [s|s net r s' n l log c s2 E R IH].
  - rewrite N.add_0_r. symmetry. apply N.mod_small. exact H3.
  - pose proof (DoReceive_safe A HC HA s net Hi Hv) as F. rewrite E in F. destruct F as (Hi' & Hv' & Fe).
    assert (K : is32 (r_seq s') /\ forall c, w32 (r_seq s' + c) = w32 (r_seq s + (match l, r_ph s' with _ :: _, PhInit => 1 | _, _ => 0 end + c))).
    { destruct l as [|h [|? ?]]; [| |destruct Fe].
      - destruct Fe as (_ & -> & _). split; [assumption|]. intros c0. rewrite N.add_0_l. reflexivity.
      - destruct Fe as (_ & _ & _ & Fe). destruct (r_ph s').
        + destruct Fe as (-> & _). split; [unfold add32, is32, w32; apply N.mod_lt; unfold W32; lia|].
          intros c0. unfold add32. rewrite w32_add. f_equal. lia.
        + destruct Fe as (_ & -> & _). split; [assumption|]. intros c0. rewrite N.add_0_l. reflexivity.
        + destruct Fe as (_ & -> & _). split; [assumption|]. intros c0. rewrite N.add_0_l. reflexivity.
        + destruct Fe as (_ & -> & _). split; [assumption|]. intros c0. rewrite N.add_0_l. reflexivity. }
    destruct K as (K1 & K2). rewrite (IH K1 Hi' Hv'). apply K2.
Qed.
Print Assumptions C25_receive.

(* one call: a consumed packet adds one; new keys restart the counters but not
   the sequence number (the packet that brought them is counted: one) *)
Theorem C25_receive_rekey : forall (C : crypto) H (A : applib C H) (s s0 s' : rxst C H) log c net r n h k,
  crypto_len C -> app_safe A -> ready s0 -> rx_hist A s0 log c s ->
  DoReceive A s net = RxRet r s' n [h] -> r_ph s' = PhInit -> new_keys A s h = Some k ->
  r_seq s' = add32 (r_seq s) 1 /\ r_keys s' = k /\ r_cnt s' = 0 /\ r_msgs s' = 1.
Proof.
  intros C H A s s0 s' log c net r n h k HC HA Hr R E Hp Hk.
  assert (I : rx_inv s /\ verified s).
  { destruct (ready_inv _ _ _ Hr) as (Hi & Hv). clear -R Hi Hv HC HA.
    induction R as [s|s net r s' n l log c s2 E R IH]; [auto|].
    pose proof (DoReceive_safe A HC HA s net Hi Hv) as F. rewrite E in F. destruct F as (Hi' & Hv' & _). auto. }
  destruct I as (Hi & Hv).
  pose proof (DoReceive_safe A HC HA s net Hi Hv) as F. rewrite E in F. destruct F as (_ & _ & _ & _ & _ & F).
  rewrite Hp, Hk in F. tauto.
Qed.
Print Assumptions C25_receive_rekey.

(* ---- C26: AES-GCM nonces ------------------------------------------------- *)
(* the nonce after n packets: fixed part unchanged, counter advanced by n *)
Theorem C26_counter : forall iv n, lenN iv = 12 -> bytes_ok iv ->
  let x := Nat.iter n AeadIncrementExpIv iv in
  lenN x = 12 /\ bytes_ok x /\ takeN 4 x = takeN 4 iv /\
  be_value (dropN 4 x) mod 2 ^ 64 = (be_value (dropN 4 iv) + N.of_nat n) mod 2 ^ 64.
Proof. intros iv n. apply nonce_iter. Qed.
Print Assumptions C26_counter.

Theorem C26_distinct : forall iv i j, lenN iv = 12 -> bytes_ok iv ->
  (i < j)%nat -> N.of_nat j - N.of_nat i < 2 ^ 64 ->
  Nat.iter i AeadIncrementExpIv iv <> Nat.iter j AeadIncrementExpIv iv.
Proof.
  intros iv i j L Hb Hij Hd E.
  destruct (nonce_iter i iv L Hb) as (_ & _ & _ & Ei). destruct (nonce_iter j iv L Hb) as (_ & _ & _ & Ej).
  rewrite E, Ej in Ei. set (v := be_value (dropN 4 iv)) in *. clearbody v. change (2 ^ 64) with 18446744073709551616 in *.
  pose proof (N.div_mod (v + N.of_nat j) 18446744073709551616 ltac:(lia)) as D1.
  pose proof (N.div_mod (v + N.of_nat i) 18446744073709551616 ltac:(lia)) as D2.
  rewrite Ei in D1. nia.
Qed.
Print Assumptions C26_distinct.

(* every packet of a sender's history under one key uses the next nonce *)
Theorem C26_sender : forall (C : crypto) rnd (t t2 : txst C) ms, crypto_ok C -> rnd_ok rnd ->
  buf_inv (t_buf t) -> keys_ok (t_keys t) -> k_aead (t_keys t) = true -> tx_run rnd t ms t2 ->
  (forall p ko, In (p, ko) ms -> ko = None) ->
  k_cst (t_keys t2) = k_cst (t_keys t) /\
  k_iv (t_keys t2) = Nat.iter (length ms) AeadIncrementExpIv (k_iv (t_keys t)).
Proof. intros C rnd t t2 ms HC HR Hb Hk Ha R Hn. apply (tx_nonce HC rnd HR t ms t2 R Hb Hk Ha Hn). Qed.
Print Assumptions C26_sender.

(* ---- C35: reception stays inside the buffer ------------------------------ *)
(* after any history, on any schedule, a call returns: no read or write outside
   the buffered bytes and no endless loop *)
Theorem C35_in_bounds : forall (C : crypto) H (A : applib C H) (s s2 : rxst C H) log c net,
  crypto_len C -> app_safe A -> ready s -> rx_hist A s log c s2 ->
  exists r s' n l, DoReceive A s2 net = RxRet r s' n l /\ buf_inv (r_buf s') /\ (length l <= 1)%nat.
Proof.
  intros C H A s s2 log c net HC HA Hr R. destruct (ready_inv _ _ _ Hr) as (Hi & Hv). clear Hr.
  induction R as [s|s net' r s' n l log c s2 E R IH].
  - pose proof (DoReceive_safe A HC HA s net Hi Hv) as F.
    destruct (DoReceive A s net) as [r s' n l| |]; [|destruct F|destruct F]. destruct F as ((F & _) & _ & Fe).
    exists r, s', n, l. split; [reflexivity|]. split; [assumption|].
    destruct l as [|h [|? ?]]; [cbn; lia|cbn; lia|destruct Fe].
  - pose proof (DoReceive_safe A HC HA s net' Hi Hv) as F. rewrite E in F. destruct F as (Hi' & Hv' & _). auto.
Qed.
Print Assumptions C35_in_bounds.

(* the payload given to a handler lies inside the packet: 4 length bytes, the
   padding count, the number, the payload and the padding fit in it *)
Theorem C35_payload : forall (C : crypto) H (A : applib C H) (s s2 : rxst C H) log c,
  crypto_len C -> app_safe A -> ready s -> rx_hist A s log c s2 ->
  forall s' h, In (s', h) log -> exists cur pkt pad, carries cur pkt h /\
    4 <= pad /\ 4 + 1 + 1 + lenN (hd_payload h) + pad = 4 + cur /\ 4 + cur <= lenN pkt /\ cur <= MAX_PACKET_SZ.
Proof.
  intros C H A s s2 log c HC HA Hr R s' h Hin.
  destruct (C22_history C H A s s2 log c HC HA Hr R s' h Hin) as ((k & cur & u & P1 & P2 & P3 & P4) & _).
  pose proof P3 as (l4 & pad & body & C1 & C2 & C3 & C4 & C5 & C6).
  exists cur, u, pad. split; [exact P3|]. split; [assumption|]. split; [|split; [assumption|unfold MAX_PACKET_SZ in *; lia]].
  rewrite C5, lenN_takeN. rewrite C2, lenN_app, !lenN_cons in C6. lia.
Qed.
Print Assumptions C35_payload.

(* ---- the hypotheses are met by a working session -------------------------- *)
(* a toy stream cipher and tags that depend on the sequence number or nonce *)
Fixpoint toy_xor (k : N) (d : bytes) : bytes :=
  match d with [] => [] | x :: r => N.lxor x ((7 * k + 3) mod 256) :: toy_xor (k + 1) r end.
Definition toy_tag (iv aad ct : bytes) : bytes := takeN 16 (takeN 12 iv ++ aad ++ takeN 4 ct ++ repeat 0 16).
Definition toy : crypto := mkCrypto N N
  (fun k d => Some (k + lenN d, toy_xor k d)) (fun k d => Some (k + lenN d, toy_xor k d))
  (fun key seq d => be32 seq ++ be32 (fold_left N.add d key) ++ repeat 0 60)
  (fun k iv aad pt => Some (toy_xor k pt, toy_tag iv aad (toy_xor k pt)))
  (fun k iv aad ct tag => if bytes_eqb (toy_tag iv aad ct) tag then Some (toy_xor k ct) else None).
Lemma toy_xor_len : forall d k, lenN (toy_xor k d) = lenN d.
Proof. induction d as [|x r IH]; intros k; [reflexivity|]. cbn [toy_xor]. rewrite !lenN_cons, IH. reflexivity. Qed.
Lemma toy_xor_app : forall a k b, toy_xor k (a ++ b) = toy_xor k a ++ toy_xor (k + lenN a) b.
Proof.
  induction a as [|x r IH]; intros k b; [cbn; rewrite N.add_0_r; reflexivity|].
  cbn [toy_xor app]. rewrite IH, lenN_cons. do 3 f_equal. lia.
Qed.
Lemma toy_xor_inv : forall d k, toy_xor k (toy_xor k d) = d.
Proof.
  induction d as [|x r IH]; intros k; [reflexivity|]. cbn [toy_xor].
  rewrite IH, N.lxor_assoc, N.lxor_nilpotent, N.lxor_0_r. reflexivity.
Qed.
Lemma toy_tag_len : forall iv aad ct, lenN (toy_tag iv aad ct) = 16.
Proof.
  intros. unfold toy_tag. rewrite lenN_takeN, !lenN_app.
  assert (E : lenN (repeat 0 16) = 16) by reflexivity. rewrite E. apply N.min_l. lia.
Qed.
Lemma toy_ok : crypto_ok toy.
Proof.
  constructor.
  - constructor.
    + intros k d k' d' E. injection E as <- <-. apply toy_xor_len.
    + intros k iv aad ct tag pt E. cbn in E. destruct (bytes_eqb _ _); [|discriminate]. injection E as <-. apply toy_xor_len.
  - intros k d k' d' E. injection E as <- <-. apply toy_xor_len.
  - intros m k s d Hm. cbn [c_mac toy]. rewrite !lenN_app, !lenN_be32. change (lenN (repeat 0 60)) with 60.
    destruct Hm as [-> | [-> | [-> | ->]]]; vm_compute; discriminate.
  - intros k iv aad pt ct tag E. cbn [c_seal toy] in E.
    assert (E1 : ct = toy_xor k pt /\ tag = toy_tag iv aad (toy_xor k pt)) by (split; congruence).
    destruct E1 as (-> & ->). split; [apply toy_xor_len|apply toy_tag_len].
  - intros k iv aad pt ct tag E. cbn [c_seal toy] in E.
    assert (E1 : ct = toy_xor k pt /\ tag = toy_tag iv aad (toy_xor k pt)) by (split; congruence).
    destruct E1 as (-> & ->). cbn [c_open toy].
    replace (bytes_eqb _ _) with true by (symmetry; apply bytes_eqb_eq; reflexivity). rewrite toy_xor_inv. reflexivity.
  - intros k a b k' d Hm E. cbn [c_enc toy] in E.
    assert (E1 : k' = k + lenN (a ++ b) /\ d = toy_xor k (a ++ b)) by (split; congruence). destruct E1 as (-> & ->).
    rewrite toy_xor_app. exists (k + lenN a). cbn [c_dec toy].
    assert (La : lenN a = lenN (toy_xor k a)) by (rewrite toy_xor_len; reflexivity).
    rewrite takeN_app_exact, dropN_app_exact by exact La. rewrite !toy_xor_inv, !toy_xor_len.
    split; [reflexivity|]. rewrite lenN_app.
    split; [intros ->; cbn; rewrite N.add_0_r; reflexivity|intros _; rewrite N.add_assoc; reflexivity].
Qed.

(* BufferInit(&b, 0) *)
Definition ex_buf : wbuf := mkBuf [] 0 16 false.
Definition ex_k0 : keys toy := @mkKeys toy ID_NONE ID_NONE 8 0 false 0 0 [].
Definition ex_k1 : keys toy := @mkKeys toy ID_AES128_CTR ID_HMAC_SHA2_256 16 32 false 5 77 [].
Definition ex_k2 : keys toy := @mkKeys toy ID_AES128_GCM ID_NONE 16 16 true 9 0 [1;2;3;4;0;0;0;0;0;0;0;255].
Definition ex_rnd (n : N) : option bytes := Some (repeat 42 (N.to_nat n)).
Lemma ex_rnd_ok : rnd_ok ex_rnd.
Proof. intros n pad E. injection E as <-. unfold lenN. rewrite repeat_length. lia. Qed.
(* the receiver takes its next keys from a schedule at each NEWKEYS *)
Definition ex_app : applib toy nat := @mkApp toy nat
  (fun h m => (m <? 128, h))
  (fun h m p => if m =? 21 then mkHres (S h) WS_SUCCESS 0 (Some (match h with O => ex_k1 | _ => ex_k2 end))
                else mkHres h WS_SUCCESS 0 None)
  (fun h c n => (WS_SUCCESS, h)).
Lemma ex_keys_ok : keys_ok ex_k0 /\ keys_ok ex_k1 /\ keys_ok ex_k2.
Proof.
  unfold keys_ok. split; [left; repeat split; reflexivity|].
  split; [right; left; repeat split; try reflexivity; unfold hmac_id; cbn; tauto|].
  right; right; repeat split; reflexivity.
Qed.
Lemma ex_app_ok : app_ok ex_app.
Proof.
  split.
  - intros h m p. cbn. destruct (m =? 21); cbn; split; try discriminate; auto.
    intros k E. injection E as <-. destruct h; apply ex_keys_ok.
  - intros h m p. cbn. destruct (m =? 21); cbn; lia.
Qed.
Definition ex_msgs : list (bytes * option (keys toy)) :=
  [([2; 0; 0; 0; 1; 65], None); ([21], Some ex_k1); ([5; 1; 2; 3; 4; 5; 6; 7; 8; 9; 10], None);
   ([94; 7], None); ([21], Some ex_k2); ([94; 8; 9], None); ([94; 10], None)].
Definition ex_send (t : txst toy) (m : bytes * option (keys toy)) : option (txst toy) :=
  match (match snd m with None => queue_message ex_rnd t (lenN (fst m) + 3) (fst m) | Some k => SendNewKeys ex_rnd t k end) with
  | TxRet WS_SUCCESS t' => Some t' | _ => None end.
Fixpoint ex_sends (t : txst toy) ms := match ms with [] => Some t | m :: r =>
  match ex_send t m with Some t' => ex_sends t' r | None => None end end.
Definition ex_t0 : txst toy := @mkTx toy ex_buf 0 ex_k0 4294967294 0 0.
Lemma ex_sends_run : forall ms t t2,
  (forall p ko, In (p, ko) ms -> p <> [] /\ lenN p <= 100 /\ match ko with Some k => p = [21] /\ keys_ok k | None => True end) ->
  buf_inv (t_buf t) -> keys_ok (t_keys t) -> lenN (unread (t_buf t)) + 1000 * lenN ms + 1000 < W32 ->
  ex_sends t ms = Some t2 -> tx_run ex_rnd t ms t2.
Proof.
  induction ms as [|[p ko] ms IH]; intros t t2 Hin Hb Hk Hl E.
  - injection E as <-. apply tr_nil.
  - cbn [ex_sends] in E. destruct (ex_send t (p, ko)) as [t1|] eqn:E1; [|discriminate].
    unfold ex_send in E1. cbn [fst snd] in E1.
    destruct (Hin p ko (or_introl eq_refl)) as (P1 & P2 & P3).
    assert (Ll : lenN ((p, ko) :: ms) = 1 + lenN ms) by (unfold lenN; cbn [length]; lia). rewrite Ll in Hl.
    assert (forall t' est q, q <> [] -> lenN q <= est -> est <= 103 -> queue_message ex_rnd t est q = TxRet WS_SUCCESS t' ->
      buf_inv (t_buf t') /\ keys_ok (t_keys t') /\ lenN (unread (t_buf t')) <= lenN (unread (t_buf t)) + 900) as Q.
    { intros t' est q Q1 Q2 Q3 Q4.
      destruct (C20_packet toy ex_rnd t est q toy_ok ex_rnd_ok Hb Hk Q1 Q2 ltac:(lia)) as (r & t'' & S1 & S2).
      rewrite S1 in Q4. injection Q4 as -> ->.
      destruct S2 as [(_ & pad & k' & wire & S3 & S4 & S5 & S6 & S7 & S8 & _)|[(X & _)|(X & _)]]; try discriminate.
      split; [assumption|]. split; [rewrite S8; eapply protects_keys_ok; eassumption|].
      rewrite S5, lenN_app, S6. destruct S3 as (W1 & W2 & W3 & _).
      unfold frame. rewrite !lenN_app, !lenN_be32. change (lenN [lenN pad]) with 1.
      destruct (keys_ok_sizes _ _ Hk) as (K1 & K2 & K3 & K4). lia. }
    destruct ko as [k|].
    + destruct P3 as (-> & P3). destruct (SendNewKeys ex_rnd t k) as [r t'|] eqn:E2; [|discriminate].
      destruct r; try discriminate. injection E1 as ->. unfold SendNewKeys in E2.
      destruct (queue_message ex_rnd t 1 [21]) as [r t''|] eqn:E3; [|discriminate].
      assert (r = WS_SUCCESS /\ t1 = install t'' k) as (-> & ->) by (destruct r; try discriminate; injection E2 as <-; auto).
      destruct (Q t'' 1 [21]) as (Q1 & Q2 & Q3); [discriminate|cbn; lia|lia|assumption|].
      eapply tr_keys; [assumption|lia| |]; [unfold SendNewKeys; rewrite E3; reflexivity|].
      apply IH; try assumption; [intros; apply Hin; right; assumption|cbn [install t_buf]; lia].
    + destruct (queue_message ex_rnd t (lenN p + 3) p) as [r t'|] eqn:E2; [|discriminate].
      destruct r; try discriminate. injection E1 as ->.
      destruct (Q t1 (lenN p + 3) p) as (Q1 & Q2 & Q3); [assumption|lia|lia|assumption|].
      eapply tr_msg; [assumption| | |exact E2|]; [lia|lia|].
      apply IH; try assumption; [intros; apply Hin; right; assumption|lia].
Qed.
Definition ex_t2 : txst toy := match ex_sends ex_t0 ex_msgs with Some t => t | None => ex_t0 end.
Definition ex_wire : bytes := unread (t_buf ex_t2).
Fixpoint ex_chop (fuel : nat) (n : N) (w : bytes) : list nev :=
  match fuel with O => [] | S f => if lenN w =? 0 then [] else NData (takeN n w) :: NBlock :: ex_chop f n (dropN n w) end.
Definition ex_s0 : rxst toy nat := @mkRx toy nat ex_buf PhInit 0 ex_k0 4294967294 0 0 WS_SUCCESS O.
Fixpoint ex_recv {C H} (A : applib C H) (fuel : nat) s net log : rxst C H * list handled :=
  match fuel with
  | O => (s, log)
  | S f => match DoReceive A s net with RxRet _ s' n l => ex_recv A f s' n (log ++ l) | _ => (s, log) end
  end.
(* the whole session: two key changes, sequence numbers wrapping in the middle,
   five-byte fragments with a would-block after each *)
Example C21_session_meets :
  tx_run ex_rnd ex_t0 ex_msgs ex_t2 /\ willing ex_app (r_app ex_s0) ex_msgs /\ ready ex_s0 /\ buf_inv (t_buf ex_t0) /\
  snd (ex_recv ex_app 200 ex_s0 (ex_chop 200 5 ex_wire) []) = numbered 4294967294 ex_msgs /\
  r_seq (fst (ex_recv ex_app 200 ex_s0 (ex_chop 200 5 ex_wire) [])) = 5 /\ t_seq ex_t2 = 5.
Proof.
  assert (B : buf_inv ex_buf) by (unfold buf_inv, ex_buf; vm_compute; intuition congruence).
  split.
  { apply ex_sends_run; [|exact B|apply ex_keys_ok|reflexivity|vm_compute; reflexivity].
    intros p ko Hin. pose proof ex_keys_ok as (K0 & K1 & K2). cbn in Hin.
    repeat (destruct Hin as [Hin|Hin]; [injection Hin as <- <-; split; [discriminate|]; split; [vm_compute; discriminate|auto]|]).
    destruct Hin. }
  split; [cbn; tauto|].
  split; [split; [exact B|]; split; [apply ex_keys_ok|reflexivity]|].
  split; [exact B|]. vm_compute. repeat split; reflexivity.
Qed.

(* a tampered byte: nothing is handled from that packet on *)
Example C22_tampered :
  let w := takeN 60 ex_wire ++ [N.lxor 1 (nth 60 ex_wire 0)] ++ dropN 61 ex_wire in
  map hd_msg (snd (ex_recv ex_app 50 ex_s0 [NData w] [])) = [2; 21].
Proof. vm_compute. reflexivity. Qed.
(* an announced length of 2^31 *)
Example C22_oversize_meets :
  (exists l, ato32 [128; 0; 0; 0; 6; 2; 0; 0] 0 = Some l /\ MAX_PACKET_SZ - k_macSz ex_k0 - 4 < l) /\
  match DoReceive ex_app ex_s0 [NData [128; 0; 0; 0; 6; 2; 0; 0; 1; 1; 1]] with
  | RxRet WS_FATAL_ERROR s' n [] => (r_err s', stream n) = (WS_OVERFLOW_E, [1; 1; 1])
  | _ => False end.
Proof. split; [exists 2147483648; split; [reflexivity|vm_compute; reflexivity]|vm_compute; reflexivity]. Qed.
Example C26_carry : Nat.iter 2 AeadIncrementExpIv [1;2;3;4;0;0;0;0;0;0;255;254] = [1;2;3;4;0;0;0;0;0;1;0;0].
Proof. vm_compute. reflexivity. Qed.
(* a handler that claims to have read past its payload, a failing network *)
Example C35_hostile :
  let A := mkApp (fun h m => (true, h)) (fun (h : nat) m p => mkHres h WS_BAD_ARGUMENT 4000000000 None) (fun h c n => (WS_SUCCESS, h)) : applib toy nat in
  match DoReceive A ex_s0 [NData [0; 0; 0; 12; 4; 2; 9; 9]; NErr; NData [1;1;1;1;1;1;1;1]] with
  | RxRet _ s' n l => match DoReceive A s' n with RxRet _ _ _ l2 => (length l + length l2)%nat = 1%nat | _ => False end
  | _ => False end.
Proof. vm_compute. reflexivity. Qed.

(* ---- C23 is false at the start of a connection ---------------------------- *)
(* The reader of the version line takes up to 255 bytes at once. Packets that
   arrive in the same read stay in the buffer, and the forced shrink after the
   first of them discards the others: the same byte stream gives different
   results depending on how it was cut. *)
Definition ex_line : bytes := [83; 83; 72; 45; 50; 46; 48; 45; 120; 13; 10]. (* SSH-2.0-x CR LF *)
Definition ex_ignore (x : N) : bytes := [0; 0; 0; 12; 4; 2; x; x; x; x; x; x; 0; 0; 0; 0].
Definition ex_start (net : list nev) : option (list handled) :=
  match DoProtoId true (mkV ex_buf 0 false []) net with
  | VRet WS_SUCCESS v n => Some (snd (ex_recv ex_app 10 (mkRx (v_buf v) PhInit 0 ex_k0 0 0 0 WS_SUCCESS O) n []))
  | _ => None
  end.
Theorem C23_pipelined_refuted : exists net1 net2,
  stream net1 = stream net2 /\ no_err net1 /\ no_err net2 /\
  ex_start net1 = Some [mkHandled 0 2 [7;7;7;7;7;7]; mkHandled 1 2 [8;8;8;8;8;8]] /\
  ex_start net2 = Some [mkHandled 0 2 [7;7;7;7;7;7]].
Proof.
  exists [NData ex_line; NBlock; NData (ex_ignore 7); NBlock; NData (ex_ignore 8)],
         [NData (ex_line ++ ex_ignore 7 ++ ex_ignore 8)].
  split; [vm_compute; reflexivity|].
  split; [unfold no_err; cbn; intuition discriminate|]. split; [unfold no_err; cbn; intuition discriminate|].
  vm_compute. split; reflexivity.
Qed.
Print Assumptions C23_pipelined_refuted.
