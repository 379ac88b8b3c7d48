(* PacketMore.v - lemmas behind PacketProps.v: sender histories, nonces, and
   integrity in terms of the raw stream. *)
From Verif Require Import Base WireModel WireSpec WireProofs NameTable NegoModel NegoProofs BufModel BufSpec BufProofs
  PacketModel IoSpec IoProofs PacketSpec PacketProofs PacketSafe PacketTx PacketTrip PacketRuns.
From Coq Require Import PeanoNat List NArith ZArith Lia Bool ZifyBool ZifyNat ZifyN.
Import ListNotations.
Open Scope N_scope.

Lemma iter_succ_r : forall (A : Type) n (f : A -> A) x, Nat.iter (S n) f x = Nat.iter n f (f x).
Proof. intros A n f x. induction n as [|n IH]; [reflexivity|]. cbn in *. rewrite IH. reflexivity. Qed.

(* ---- sender histories -------------------------------------------------- *)
Section TxRun.
  Context {C : crypto}.
  Hypothesis HC : crypto_ok C.
  Variable rnd : N -> option bytes.
  Hypothesis HR : rnd_ok rnd.

  Lemma protects_keys_ok : forall (k : keys C) q f k' w, protects k q f k' w -> keys_ok k -> keys_ok k'.
  Proof.
    intros k q f k' w Pr Hk. unfold protects in Pr. destruct (k_aead k).
    - destruct Pr as (_ & _ & _ & _ & ->). exact Hk.
    - destruct Pr as (_ & [(_ & _ & ->)|(_ & c & _ & ->)] & _); exact Hk.
  Qed.

  Lemma queue_ok : forall (t : txst C) est p t', buf_inv (t_buf t) -> keys_ok (t_keys t) ->
    p <> [] -> lenN p <= est -> lenN (unread (t_buf t)) + est + 200 < W32 ->
    queue_message rnd t est p = TxRet WS_SUCCESS t' ->
    exists pad wire, well_padded (k_block (t_keys t)) (k_aead (t_keys t)) p pad /\
      protects (t_keys t) (t_seq t) (frame p pad) (t_keys t') wire /\
      unread (t_buf t') = unread (t_buf t) ++ wire /\ lenN wire = lenN (frame p pad) + k_macSz (t_keys t) /\
      buf_inv (t_buf t') /\ keys_ok (t_keys t') /\ t_seq t' = add32 (t_seq t) 1 /\ t_msgs t' = add32 (t_msgs t) 1.
  Proof.
    intros t est p t' Hb Hk Hp He Hs E.
    destruct (queue_message_spec HC rnd t est p HR Hb Hk Hp He Hs) as (r & t1 & E1 & D).
    rewrite E in E1. injection E1 as <- <-.
    destruct D as [(_ & pad & k' & wire & D1 & D2 & D3 & D4 & D5 & D6 & D7 & D8)|[(D & _)|(D & _)]]; [|discriminate..].
    subst k'. exists pad, wire. split; [assumption|]. split; [assumption|]. split; [assumption|]. split; [assumption|].
    split; [assumption|]. split; [eapply protects_keys_ok; eassumption|]. auto.
  Qed.

  Lemma well_padded_fits : forall (k : keys C) p pad, keys_ok k -> well_padded (k_block k) (k_aead k) p pad ->
    lenN p <= 34900 -> fits k p pad.
  Proof.
    intros k p pad Hk (W1 & W2 & _) Hp. destruct (keys_ok_sizes _ _ Hk) as (K1 & K2 & K3 & K4).
    unfold fits, MAX_PACKET_SZ. lia.
  Qed.

  Lemma tx_sends : forall (t : txst C) ms t2, tx_run rnd t ms t2 -> buf_inv (t_buf t) -> keys_ok (t_keys t) ->
    (forall p ko, In (p, ko) ms -> lenN p <= 34900) ->
    exists w, sends (t_keys t) (t_seq t) ms (t_keys t2) (t_seq t2) w /\
      unread (t_buf t2) = unread (t_buf t) ++ w /\ buf_inv (t_buf t2) /\ keys_ok (t_keys t2).
  Proof.
    induction 1 as [t|t est p t1 ms t2 Hp He Hs Q R IH|t k t1 ms t2 Hk2 Hs Q R IH]; intros Hb Hk Hsz.
    - exists []. split; [constructor|]. rewrite app_nil_r. auto.
    - destruct (queue_ok t est p t1 Hb Hk Hp He Hs Q) as (pad & wire & D1 & D2 & D3 & D4 & D5 & D6 & D7 & D8).
      destruct (IH D5 D6) as (w & I1 & I2 & I3 & I4). { intros p0 ko0 Hin. eapply Hsz. right. exact Hin. }
      exists (wire ++ w). split; [|split; [rewrite I2, D3, <- app_assoc; reflexivity|auto]].
      eapply sd_cons; [exact Hp|exact D1| |exact D2|discriminate|rewrite <- D7; exact I1].
      apply well_padded_fits; [assumption|assumption|]. eapply Hsz. left. reflexivity.
    - unfold SendNewKeys in Q. destruct (queue_message rnd t 1 [21]) as [r t'|] eqn:E; [|discriminate].
      assert (r = WS_SUCCESS /\ t1 = install t' k) as (-> & ->) by (destruct r; try discriminate; injection Q as <-; auto).
      destruct (queue_ok t 1 [21] t' Hb Hk) as (pad & wire & D1 & D2 & D3 & D4 & D5 & D6 & D7 & D8);
        [discriminate|cbn; lia|lia|assumption|].
      destruct (IH D5 Hk2) as (w & I1 & I2 & I3 & I4). { intros p0 ko0 Hin. eapply Hsz. right. exact Hin. }
      exists (wire ++ w). split; [|split; [rewrite I2; cbn [install t_buf]; rewrite D3, <- app_assoc; reflexivity|auto]].
      eapply sd_cons; [discriminate|exact D1| |exact D2|intros k2 [= <-]; assumption|].
      { apply well_padded_fits; [assumption|assumption|]. cbn. lia. }
      cbn [install t_keys t_seq] in I1. rewrite D7 in I1. exact I1.
  Qed.

  Lemma w32_add : forall a b, w32 (w32 a + b) = w32 (a + b).
  Proof. intros a b. unfold w32. rewrite N.add_mod_idemp_l by (unfold W32; lia). reflexivity. Qed.

  (* sequence numbers count packets; key changes do not touch them *)
  Lemma tx_seq : forall (t : txst C) ms t2, tx_run rnd t ms t2 -> buf_inv (t_buf t) -> keys_ok (t_keys t) -> is32 (t_seq t) ->
    t_seq t2 = w32 (t_seq t + lenN ms).
  Proof.
    induction 1 as [t|t est p t1 ms t2 Hp He Hs Q R IH|t k t1 ms t2 Hk2 Hs Q R IH]; intros Hb Hk H3.
    - change (lenN (@nil (bytes * option (keys C)))) with 0. rewrite N.add_0_r. symmetry. apply N.mod_small. exact H3.
    - destruct (queue_ok t est p t1 Hb Hk Hp He Hs Q) as (pad & wire & D1 & D2 & D3 & D4 & D5 & D6 & D7 & D8).
      rewrite (IH D5 D6). 2: { rewrite D7. unfold add32, is32, w32. apply N.mod_lt. unfold W32; lia. }
      rewrite D7. unfold add32. rewrite w32_add. apply (f_equal w32). unfold lenN. cbn [length]. lia.
    - unfold SendNewKeys in Q. destruct (queue_message rnd t 1 [21]) as [r t'|] eqn:E; [|discriminate].
      assert (r = WS_SUCCESS /\ t1 = install t' k) as (-> & ->) by (destruct r; try discriminate; injection Q as <-; auto).
      destruct (queue_ok t 1 [21] t' Hb Hk) as (pad & wire & D1 & D2 & D3 & D4 & D5 & D6 & D7 & D8);
        [discriminate|cbn; lia|lia|assumption|].
      rewrite (IH D5 Hk2). 2: { cbn [install t_seq]. rewrite D7. unfold add32, is32, w32. apply N.mod_lt. unfold W32; lia. }
      cbn [install t_seq]. rewrite D7. unfold add32. rewrite w32_add. apply (f_equal w32). unfold lenN. cbn [length]. lia.
  Qed.

  (* without a key change the AEAD nonce advances once per packet *)
  Lemma tx_nonce : forall (t : txst C) ms t2, tx_run rnd t ms t2 -> buf_inv (t_buf t) -> keys_ok (t_keys t) ->
    k_aead (t_keys t) = true -> (forall p ko, In (p, ko) ms -> ko = None) ->
    k_aead (t_keys t2) = true /\ k_cst (t_keys t2) = k_cst (t_keys t) /\
    k_iv (t_keys t2) = Nat.iter (length ms) AeadIncrementExpIv (k_iv (t_keys t)).
  Proof.
    induction 1 as [t|t est p t1 ms t2 Hp He Hs Q R IH|t k t1 ms t2 Hk2 Hs Q R IH]; intros Hb Hk Ha Hn.
    - auto.
    - destruct (queue_ok t est p t1 Hb Hk Hp He Hs Q) as (pad & wire & D1 & D2 & D3 & D4 & D5 & D6 & D7 & D8).
      unfold protects in D2. rewrite Ha in D2. destruct D2 as (ct & tag & _ & _ & Ek).
      destruct (IH D5 D6) as (I1 & I2 & I3); [rewrite Ek; exact Ha|intros; eapply Hn; right; eassumption|].
      split; [assumption|]. rewrite I2, I3, Ek. cbn [set_iv k_iv k_cst length]. split; [reflexivity|].
      symmetry. apply iter_succ_r.
    - exfalso. specialize (Hn [21] (Some k)). discriminate Hn. left. reflexivity.
  Qed.
End TxRun.

(* ---- nonces ------------------------------------------------------------ *)
Definition le_value (b : bytes) : N := fold_right (fun x acc => x + 256 * acc) 0 b.
Lemma be_le : forall b, be_value b = le_value (rev b).
Proof. intros b. unfold be_value, le_value.
  rewrite <- (rev_involutive b) at 1. rewrite <- fold_left_rev_right, rev_involutive.
  generalize (rev b). intros l. induction l as [|x l IH]; [reflexivity|]. cbn [fold_right]. rewrite IH. lia. Qed.

Lemma inc_le_value : forall l c, bytes_ok l -> c <= 1 ->
  lenN (inc_le c l) = lenN l /\ bytes_ok (inc_le c l) /\
  le_value (inc_le c l) = (le_value l + c) mod 256 ^ lenN l /\ le_value l < 256 ^ lenN l.
Proof.
  induction l as [|x l IH]; intros c Hl Hc.
  - cbn. split; [reflexivity|]. split; [constructor|]. rewrite N.mod_1_r. lia.
  - inversion Hl as [|x' l' Hx Hl']; subst. unfold byte_ok in Hx. cbn [inc_le].
    assert (Hq : ((x + c) / 256) mod 2 = (x + c) / 256) by (apply N.mod_small; apply N.div_lt_upper_bound; lia).
    rewrite Hq. assert (Hc' : (x + c) / 256 <= 1) by (apply N.lt_succ_r; apply N.div_lt_upper_bound; lia).
    destruct (IH _ Hl' Hc') as (I1 & I2 & I3 & I4).
    rewrite !lenN_cons, I1. split; [reflexivity|]. split; [constructor; [apply N.mod_lt; lia|assumption]|].
    cbn [le_value fold_right]. fold (le_value (inc_le ((x + c) / 256) l)). fold (le_value l). rewrite I3.
    replace (256 ^ (1 + lenN l)) with (256 * 256 ^ lenN l) by (rewrite N.pow_add_r; reflexivity).
    assert (P : 256 ^ lenN l <> 0) by (apply N.pow_nonzero; lia). set (M := 256 ^ lenN l) in *.
    set (V := le_value l) in *. split; [|nia].
    assert (D : x + c = 256 * ((x + c) / 256) + (x + c) mod 256) by (apply N.div_mod; lia).
    set (q := (x + c) / 256) in *. set (r := (x + c) mod 256) in *.
    assert (Hr : r < 256) by (apply N.mod_lt; lia).
    replace (x + 256 * V + c) with (r + 256 * (V + q)) by lia.
    symmetry. rewrite <- (N.mod_unique (r + 256 * (V + q)) (256 * M) ((V + q) / M) (r + 256 * ((V + q) mod M))).
    + reflexivity.
    + assert ((V + q) mod M < M) by (apply N.mod_lt; assumption). nia.
    + assert (E : V + q = M * ((V + q) / M) + (V + q) mod M) by (apply N.div_mod; assumption). nia.
Qed.

Lemma lenN_rev : forall (l : bytes), lenN (rev l) = lenN l.
Proof. intros; unfold lenN; rewrite rev_length; reflexivity. Qed.

Lemma nonce_step : forall iv, lenN iv = 12 -> bytes_ok iv ->
  lenN (AeadIncrementExpIv iv) = 12 /\ bytes_ok (AeadIncrementExpIv iv) /\
  takeN 4 (AeadIncrementExpIv iv) = takeN 4 iv /\
  be_value (dropN 4 (AeadIncrementExpIv iv)) = (be_value (dropN 4 iv) + 1) mod 2 ^ 64.
Proof.
  intros iv L Hb. unfold AeadIncrementExpIv.
  assert (D12 : dropN 12 iv = []).
  { assert (X : lenN (dropN 12 iv) = 0) by (rewrite lenN_dropN; lia). destruct (dropN 12 iv); [reflexivity|rewrite lenN_cons in X; lia]. }
  rewrite D12, app_nil_r.
  assert (T8 : takeN 8 (dropN 4 iv) = dropN 4 iv).
  { rewrite <- (takeN_dropN _ 8 (dropN 4 iv)) at 2. rewrite dropN_dropN. change (4 + 8) with 12. rewrite D12, app_nil_r. reflexivity. }
  rewrite T8.
  assert (Hd : bytes_ok (dropN 4 iv)).
  { unfold bytes_ok in *. rewrite Forall_forall in *. intros x Hx. apply Hb. rewrite <- (takeN_dropN _ 4 iv). apply in_or_app. right. exact Hx. }
  assert (Ht : bytes_ok (takeN 4 iv)).
  { unfold bytes_ok in *. rewrite Forall_forall in *. intros x Hx. apply Hb. rewrite <- (takeN_dropN _ 4 iv). apply in_or_app. left. exact Hx. }
  assert (Hr : bytes_ok (rev (dropN 4 iv))) by (unfold bytes_ok; apply Forall_rev; exact Hd).
  destruct (inc_le_value (rev (dropN 4 iv)) 1 Hr ltac:(lia)) as (I1 & I2 & I3 & I4).
  assert (L4 : lenN (takeN 4 iv) = 4) by (rewrite lenN_takeN; lia).
  assert (L8 : lenN (rev (dropN 4 iv)) = 8) by (rewrite lenN_rev, lenN_dropN; lia).
  split. { rewrite lenN_app, lenN_rev, I1, L4, L8. reflexivity. }
  split. { unfold bytes_ok. apply Forall_app. split; [exact Ht|apply Forall_rev; exact I2]. }
  split. { apply takeN_app_exact. auto. }
  rewrite dropN_app_exact by auto. rewrite !be_le, rev_involutive, I3, L8. reflexivity.
Qed.

Lemma nonce_iter : forall n iv, lenN iv = 12 -> bytes_ok iv ->
  let x := Nat.iter n AeadIncrementExpIv iv in
  lenN x = 12 /\ bytes_ok x /\ takeN 4 x = takeN 4 iv /\
  be_value (dropN 4 x) mod 2 ^ 64 = (be_value (dropN 4 iv) + N.of_nat n) mod 2 ^ 64.
Proof.
  induction n as [|n IH]; intros iv L Hb.
  - cbn. rewrite N.add_0_r. auto.
  - cbn zeta. destruct (IH iv L Hb) as (I1 & I2 & I3 & I4).
    change (Nat.iter (S n) AeadIncrementExpIv iv) with (AeadIncrementExpIv (Nat.iter n AeadIncrementExpIv iv)).
    destruct (nonce_step _ I1 I2) as (S1 & S2 & S3 & S4).
    split; [assumption|]. split; [assumption|]. split; [congruence|].
    rewrite S4. rewrite N.mod_mod by (apply N.pow_nonzero; lia).
    rewrite <- N.add_mod_idemp_l by (apply N.pow_nonzero; lia). rewrite I4.
    rewrite N.add_mod_idemp_l by (apply N.pow_nonzero; lia). f_equal. lia.
Qed.

(* ---- integrity in terms of the raw stream ------------------------------ *)
Section Raw.
  Context {C : crypto} {H : Type}.
  Variable A : applib C H.
  Hypothesis HC : crypto_len C.

  Definition log_of (o : sout C H) : list handled :=
    match o with SWait => [] | SStop _ l => l | SDone _ l _ _ => l end.

  Lemma packet_log : forall m (a : abst C H) pkt tail h, In h (log_of (sp_packet A m a (pkt ++ tail))) -> lenN pkt = 4 + s_cur a ->
    carries (s_cur a) pkt h /\ hd_seq h = s_seq a /\ fst (a_allowed A (s_app a) (hd_msg h)) = true.
  Proof.
    intros m a pkt tail h Hin L.
    destruct pkt as [|x1 [|x2 [|x3 [|x4 pkt]]]]; [rewrite ?lenN_cons in L; change (lenN (@nil N)) with 0 in L; lia..|].
    destruct pkt as [|pad [|msg body]].
    - (* cur = 0 *) exfalso. rewrite !lenN_cons in L. change (lenN (@nil N)) with 0 in L.
      destruct tail as [|p [|q tail]]; [exact Hin|exact Hin|]. cbn [app sp_packet] in Hin.
      destruct (p <? 4); [exact Hin|]. replace (s_cur a) with 0 in Hin by lia. destruct (N.ltb_spec 0 (1 + p + 1)); [exact Hin|lia].
    - exfalso. rewrite !lenN_cons in L. change (lenN (@nil N)) with 0 in L.
      destruct tail as [|q tail]; [exact Hin|]. cbn [app sp_packet] in Hin.
      destruct (pad <? 4); [exact Hin|]. destruct (N.ltb_spec (s_cur a) (1 + pad + 1)); [exact Hin|lia].
    - cbn [app sp_packet] in Hin. rewrite !lenN_cons in L.
      destruct (N.ltb_spec pad 4); [destruct Hin|]. destruct (N.ltb_spec (s_cur a) (1 + pad + 1)); [destruct Hin|].
      destruct (a_allowed A (s_app a) msg) as [ok st] eqn:Ea. destruct ok; cbn [negb] in Hin; [|destruct Hin].
      assert (Hh : h = mkHandled (s_seq a) msg (takeN (s_cur a - pad - 2) (body ++ tail))).
      { destruct (rc_eqb _ WS_AUTH_PENDING); [destruct Hin as [<-|[]]; reflexivity|].
        match type of Hin with In _ (log_of (let '(_, _) := ?x in _)) => destruct x as [[k cnt] msgs] end.
        destruct (a_highwater _ _ _ _). destruct Hin as [<-|[]]. reflexivity. }
      rewrite takeN_app_l in Hh by lia. subst h. cbn [hd_seq hd_msg hd_payload]. rewrite Ea.
      split; [|auto]. exists [x1; x2; x3; x4], pad, body. cbn [hd_msg hd_payload].
      split; [reflexivity|]. split; [reflexivity|]. split; [assumption|]. split; [lia|]. split; [reflexivity|]. rewrite !lenN_cons. lia.
  Qed.

  Lemma raw_log : forall (a : abst C H) w h, s_ph a = PhInit -> keys_ok (s_keys a) -> In h (log_of (sp_receive A a w)) ->
    exists cur pkt, raw_checked (s_keys a) (s_seq a) w cur pkt /\ carries cur pkt h /\ hd_seq h = s_seq a /\
      fst (a_allowed A (s_app a) (hd_msg h)) = true /\ cur <= MAX_PACKET_SZ - k_macSz (s_keys a) - 4.
  Proof.
    intros a w h Hph Hk Hin. destruct (keys_ok_sizes _ _ Hk) as (K1 & K2 & K3 & K4).
    unfold sp_receive in Hin. rewrite Hph in Hin. set (k := s_keys a) in *.
    destruct (N.ltb_spec (lenN w) (k_block k)) as [L|L]; [destruct Hin|].
    destruct (k_aead k) eqn:Ea.
    - unfold sp_length in Hin. cbn [s_keys s_cur s_seq s_cnt s_msgs s_app] in Hin. fold k in Hin.
      set (cur := match ato32 w 0 with Some v => v | None => 0 end) in *.
      destruct (N.ltb_spec (MAX_PACKET_SZ - k_macSz k - 4) cur) as [Lc|Lc]; [destruct Hin|].
      unfold sp_finish in Hin. cbn [s_keys s_cur s_seq s_cnt s_msgs s_app] in Hin. fold k in Hin.
      destruct (N.ltb_spec (lenN w) (4 + cur + k_macSz k)) as [L2|L2]; [destruct Hin|]. rewrite Ea in Hin.
      destruct (cur =? 0); [destruct Hin|]. destruct (negb _); [destruct Hin|].
      destruct (c_open C (k_cst k) (k_iv k) (takeN 4 w) (takeN cur (dropN 4 w)) (takeN (k_macSz k) (dropN (4 + cur) w))) as [pt|] eqn:Eo; [|destruct Hin].
      pose proof (co_open_len _ HC _ _ _ _ _ _ Eo) as Lp. rewrite lenN_takeN, lenN_dropN in Lp.
      assert (LP : lenN (takeN 4 w ++ pt) = 4 + cur) by (rewrite lenN_app, lenN_takeN; lia).
      rewrite app_assoc in Hin.
      destruct (packet_log _ _ (takeN 4 w ++ pt) (dropN (4 + cur) w) h Hin LP) as (P1 & P2 & P3).
      exists cur, (takeN 4 w ++ pt). split; [|auto]. split; [assumption|]. rewrite Ea. exists pt. auto.
    - destruct (Decrypt k (takeN (k_block k) w)) as [[r k1] d1] eqn:D1.
      destruct (rc_eqb r WS_SUCCESS) eqn:Er; [apply rc_eqb_eq in Er; subst r|destruct Hin]. cbn [negb] in Hin.
      destruct (Decrypt_keeps _ _ _ _ _ _ HC D1) as (Ld & c & Ek). rewrite lenN_takeN in Ld.
      assert (Ld' : lenN d1 = k_block k) by lia.
      unfold sp_length in Hin. cbn [s_keys s_cur s_seq s_cnt s_msgs s_app] in Hin.
      assert (E1 : k_macSz k1 = k_macSz k) by (rewrite Ek; reflexivity).
      assert (E2 : k_block k1 = k_block k) by (rewrite Ek; reflexivity).
      assert (E3 : k_aead k1 = false) by (rewrite Ek; exact Ea).
      assert (E4 : k_mac k1 = k_mac k) by (rewrite Ek; reflexivity).
      assert (E5 : k_mkey k1 = k_mkey k) by (rewrite Ek; reflexivity).
      set (v := d1 ++ dropN (k_block k) w) in *.
      set (cur := match ato32 v 0 with Some x => x | None => 0 end) in *. rewrite E1 in Hin.
      destruct (N.ltb_spec (MAX_PACKET_SZ - k_macSz k - 4) cur) as [Lc|Lc]; [destruct Hin|].
      unfold sp_finish in Hin. cbn [s_keys s_cur s_seq s_cnt s_msgs s_app] in Hin. rewrite E1, E2, E3 in Hin.
      destruct (N.ltb_spec (lenN v) (4 + cur + k_macSz k)) as [L2|L2]; [destruct Hin|].
      assert (Lv : lenN v = lenN w) by (unfold v; rewrite lenN_app, lenN_dropN; lia).
      assert (MAC : forall (kk : keys C) pt, k_mac kk = k_mac k -> k_mkey kk = k_mkey k -> k_macSz kk = k_macSz k ->
         VerifyMac kk (s_seq a) pt (takeN (k_macSz k) (dropN (4 + cur) v)) = WS_SUCCESS ->
         k_mac k = ID_NONE \/ takeN (k_macSz k) (dropN (4 + cur) v) = takeN (k_macSz k) (c_mac C (k_mkey k) (s_seq a) pt)).
      { intros kk pt Q1 Q2 Q3 Q. unfold VerifyMac in Q. rewrite Q1, Q2, Q3 in Q.
        destruct (N.eqb_spec (k_mac k) ID_NONE) as [Z|Z]; [left; assumption|right].
        destruct ((k_mac k =? ID_HMAC_SHA1) || (k_mac k =? ID_HMAC_SHA1_96) || (k_mac k =? ID_HMAC_SHA2_256) || (k_mac k =? ID_HMAC_SHA2_512)); [|discriminate].
        destruct (bytes_eqb _ _) eqn:Q4; [|discriminate]. apply bytes_eqb_eq in Q4. symmetry. exact Q4. }
      destruct (N.ltb_spec (k_block k) (4 + cur)) as [Lb|Lb].
      + assert (Edv : dropN (k_block k) v = dropN (k_block k) w) by (unfold v; apply dropN_app_exact; auto).
        assert (Etv : takeN (k_block k) v = d1) by (unfold v; apply takeN_app_exact; auto).
        rewrite Edv, Etv in Hin.
        destruct (Decrypt k1 (takeN (4 + cur - k_block k) (dropN (k_block k) w))) as [[r2 k2] d2] eqn:D2.
        destruct (Decrypt_keeps _ _ _ _ _ _ HC D2) as (Ld2 & c2 & Ek2). rewrite lenN_takeN, lenN_dropN in Ld2.
        destruct (rc_eqb r2 WS_SUCCESS) eqn:Er; [apply rc_eqb_eq in Er; subst r2|destruct Hin]. cbn [negb] in Hin.
        destruct (rc_eqb (VerifyMac _ _ _ _) WS_SUCCESS) eqn:Ev; [apply rc_eqb_eq in Ev|destruct Hin]. cbn [negb] in Hin.
        assert (LP : lenN (d1 ++ d2) = 4 + cur) by (rewrite lenN_app; lia).
        destruct (packet_log _ _ (d1 ++ d2) _ h Hin LP) as (P1 & P2 & P3).
        exists cur, (d1 ++ d2). split; [|auto]. split; [assumption|]. rewrite Ea. exists k1, d1. split; [exact D1|].
        split; [right; split; [assumption|]; exists k2, d2; auto|].
        fold v. apply (MAC k2 (d1 ++ d2)); [rewrite Ek2; exact E4|rewrite Ek2; exact E5|rewrite Ek2; exact E1|exact Ev].
      + change (negb (rc_eqb WS_SUCCESS WS_SUCCESS)) with false in Hin. cbv iota in Hin.
        destruct (rc_eqb (VerifyMac _ _ _ _) WS_SUCCESS) eqn:Ev; [apply rc_eqb_eq in Ev|destruct Hin]. cbn [negb] in Hin.
        assert (Etv : takeN (4 + cur) v = takeN (4 + cur) d1) by (unfold v; apply takeN_app_l; lia).
        rewrite Etv in Hin, Ev.
        assert (LP : lenN (takeN (4 + cur) d1) = 4 + cur) by (rewrite lenN_takeN; lia).
        destruct (packet_log _ _ (takeN (4 + cur) d1) _ h Hin LP) as (P1 & P2 & P3).
        exists cur, (takeN (4 + cur) d1). split; [|auto]. split; [assumption|]. rewrite Ea. exists k1, d1. split; [exact D1|].
        split; [left; auto|].
        fold v. apply (MAC k1); assumption.
  Qed.
End Raw.

Section First.
  Context {C : crypto} {H : Type}.
  Variable A : applib C H.
  Hypothesis HC : crypto_len C.
  Hypothesis HA : app_ok A.

  Lemma run_first : forall s net log fin s2, rx_run A s net log fin s2 -> rx_inv s -> verified s -> tight s -> no_err net ->
    forall h t, log = h :: t -> In h (log_of (sp_receive A (abs s) (unread (r_buf s) ++ stream net))).
  Proof.
    induction 1 as [s net|s net r s' n log fin s2 E W R IH|s net r s' n E W Z|s net r s' n l log fin s2 E Hl Hr R IH|s net s' n l E Hx];
      intros Hi Hv Ht Hn h t Eh; try discriminate.
    - destruct (call_cases A HC HA _ _ _ _ _ _ Hi Hv Ht Hn E) as (Hi' & Hv' & Hn' & [K|[(e & K1 & K2 & K3 & K4 & K5)|(e & K1 & K2 & _)]]).
      + destruct K as (_ & _ & _ & _ & K4 & K5 & _). rewrite <- K5. eapply IH; eassumption.
      + rewrite W in K2. subst e. discriminate.
      + congruence.
    - destruct (call_cases A HC HA _ _ _ _ _ _ Hi Hv Ht Hn E) as (Hi' & Hv' & Hn' & [K|[(e & K1 & K2 & K3 & K4 & K5)|(e & K1 & K2 & K3 & K4 & K5 & K6)]]).
      + destruct K as (K & _). congruence.
      + congruence.
      + rewrite K1. destruct l as [|h' l]; [congruence|]. injection Eh as <- _. left. reflexivity.
    - destruct (call_cases A HC HA _ _ _ _ _ _ Hi Hv Ht Hn E) as (Hi' & Hv' & Hn' & [K|[(e & K1 & K2 & K3 & K4 & K5)|(e & K1 & K2 & K3 & K4 & K5 & K6)]]).
      + destruct K as (K & _ & K' & _). destruct Hx; contradiction.
      + rewrite K1. subst l. left. reflexivity.
      + rewrite K1. subst l. left. reflexivity.
  Qed.

  (* a length field beyond the limit *)
  Lemma oversize_call : forall (s : rxst C H) net, rx_inv s -> tight s -> no_err net -> r_ph s = PhInit ->
    let w := unread (r_buf s) ++ stream net in
    let k := r_keys s in
    let '(r, k1, d) := if k_aead k then (WS_SUCCESS, k, takeN (k_block k) w) else Decrypt k (takeN (k_block k) w) in
    r = WS_SUCCESS -> k_block k <= lenN w -> (exists l, ato32 d 0 = Some l /\ MAX_PACKET_SZ - k_macSz k - 4 < l) ->
    exists s' n, DoReceive A s net = RxRet WS_FATAL_ERROR s' n [] /\
      ((r_err s' = WS_WANT_READ /\ r_ph s' = PhInit /\ unread (r_buf s') ++ stream n = w) \/
       (r_err s' = WS_OVERFLOW_E /\ lenN (unread (r_buf s')) = k_block k /\ stream n = dropN (k_block k) w)).
  Proof.
    intros s net Hi Ht Hn Hp w k. pose proof Hi as (Hb & Hk & _). fold k in Hk.
    destruct (keys_ok_sizes _ _ Hk) as (K1 & K2 & K3 & K4).
    unfold tight in Ht. rewrite Hp in Ht. cbv zeta in Ht. fold k in Ht.
    destruct (if k_aead k then (WS_SUCCESS, k, takeN (k_block k) w) else Decrypt k (takeN (k_block k) w)) as [[r k1] d] eqn:D.
    intros -> Lw (l & El & Ll).
    unfold DoReceive. rewrite Hp. fold k.
    pose proof (GetInputData_spec (r_buf s) net (k_block k) Hb Hn) as G.
    destruct (GetInputData (r_buf s) net (k_block k)) as [b n|b n|e b n| |];
      (assert (G' := G ltac:(unfold W32; lia)); clear G); try contradiction.
    2: { destruct G' as (G1 & G2 & G3 & G4 & G5). do 2 eexists. split; [reflexivity|]. left. auto. }
    destruct G' as (G1 & G2 & G3 & G4). fold w in G3.
    assert (Lu : lenN (unread b) = k_block k) by lia.
    assert (Ew : takeN (k_block k) w = unread b) by (rewrite <- G3; apply takeN_app_exact; auto).
    assert (Edw : dropN (k_block k) w = stream n) by (rewrite <- G3; apply dropN_app_exact; auto).
    rewrite Ew in D. rewrite Edw.
    assert (Em : sub32 (sub32 MAX_PACKET_SZ (k_macSz k)) 4 = MAX_PACKET_SZ - k_macSz k - 4).
    { unfold MAX_PACKET_SZ. rewrite (sub32_small 35000) by (unfold W32; lia). apply sub32_small; unfold W32; lia. }
    assert (LEN : forall (s2 : rxst C H), buf_inv (r_buf s2) -> unread (r_buf s2) = d -> lenN d = k_block k ->
      exists s' n', rx_length A (k_macSz k) (k_block k) s2 n = RxRet WS_FATAL_ERROR s' n' [] /\
        ((r_err s' = WS_WANT_READ /\ r_ph s' = PhInit /\ unread (r_buf s') ++ stream n' = w) \/
         (r_err s' = WS_OVERFLOW_E /\ lenN (unread (r_buf s')) = k_block k /\ stream n' = stream n))).
    { intros s2 Hb2 Eu2 Ld. pose proof Hb2 as (I1 & I2 & I3 & I4).
      assert (Lu2 : b_idx (r_buf s2) + lenN (unread (r_buf s2)) = b_len (r_buf s2)) by (rewrite lenN_unread; lia).
      rewrite Eu2 in Lu2. unfold rx_length.
      assert (E4 : add32 (b_idx (r_buf s2)) 4 = b_idx (r_buf s2) + 4) by (apply add32_small; unfold is32 in *; lia).
      rewrite E4. destruct (N.ltb_spec (b_cap (r_buf s2)) (b_idx (r_buf s2) + 4)) as [L|_]; [lia|].
      pose proof (rdn_off_unread (r_buf s2) 0 4 Hb2) as R. rewrite N.add_0_r, dropN_0, Eu2 in R. rewrite R by lia.
      rewrite ato32_take by lia. rewrite El, Em.
      destruct (N.ltb_spec (MAX_PACKET_SZ - k_macSz k - 4) l) as [_|L]; [|lia].
      do 2 eexists. split; [reflexivity|]. right. cbn [r_err r_buf]. rewrite Eu2. auto. }
    destruct (k_aead k) eqn:Ea; cbn [negb].
    - injection D as <- <-. apply LEN; auto.
    - pose proof (rdn_off_unread b 0 (k_block k) G1) as R. rewrite N.add_0_r, dropN_0 in R. rewrite R by lia.
      assert (Et : takeN (k_block k) (unread b) = unread b).
      { rewrite <- (app_nil_r (unread b)) at 1. apply takeN_app_exact. auto. }
      rewrite Et, D.
      change (negb (rc_eqb WS_SUCCESS WS_SUCCESS)) with false. cbv iota.
      destruct (Decrypt_keeps _ _ _ _ _ _ HC D) as (Lp & _).
      destruct (unread_overwrite b 0 d G1) as (O1 & O2 & O3); [lia|]. rewrite N.add_0_r in O1, O2, O3.
      rewrite N.add_0_l, takeN_0 in O2. cbn [app] in O2.
      apply LEN; [exact O1| |lia]. cbn [r_buf]. rewrite O2.
      replace (dropN (lenN d) (unread b)) with (@nil N); [apply app_nil_r|].
      assert (X : lenN (dropN (lenN d) (unread b)) = 0) by (rewrite lenN_dropN; lia).
      destruct (dropN (lenN d) (unread b)); [reflexivity|rewrite lenN_cons in X; lia].
  Qed.
End First.
