(* PacketTx.v - proofs about building packets, and about both ends together. *)
From Verif Require Import Base WireModel WireSpec WireProofs NameTable NegoModel NegoProofs BufModel BufSpec BufProofs
  PacketModel IoSpec IoProofs PacketSpec PacketProofs PacketSafe.
From Coq Require Import List NArith ZArith Lia Bool ZifyBool ZifyNat ZifyN.
Import ListNotations.
Open Scope N_scope.
Ltac Zify.zify_post_hook ::= Z.div_mod_to_equations.

Lemma c32toa_be32 : forall n, n < W32 -> c32toa n = be32 n.
Proof.
  intros n Hn. unfold c32toa, be32.
  assert (L : forall x, N.land x 255 = x mod 256) by (intro x; change 255 with (N.ones 8); apply N.land_ones).
  rewrite !L, !N.shiftr_div_pow2.
  change (2 ^ 24) with 16777216. change (2 ^ 16) with 65536. change (2 ^ 8) with 256.
  rewrite (N.mod_small (n / 16777216)); [reflexivity|]. unfold W32 in Hn. lia.
Qed.
Lemma lenN_be32 : forall n, lenN (be32 n) = 4.
Proof. reflexivity. Qed.
Lemma ato32_be32 : forall n t, n < W32 -> ato32 (be32 n ++ t) 0 = Some n.
Proof.
  intros n t Hn.
  assert (G : forall a b c d, ato32 ([a; b; c; d] ++ t) 0 = Some (ato32_val a b c d)) by reflexivity.
  unfold be32. rewrite G. rewrite ato32_val_be by (unfold W32 in *; lia).
  f_equal. unfold be_value. cbn. unfold W32 in *. lia.
Qed.

Lemma pad_for_ok : forall block aead len, (block = 8 \/ block = 16) -> len + 5 < W32 ->
  let p := pad_for block aead len in
  4 <= p /\ p < block + 4 /\ ((if aead then 0 else 4) + 1 + len + p) mod block = 0.
Proof.
  intros block aead len Hb Hl. cbv zeta. unfold pad_for, byteN, MIN_PAD_LENGTH.
  set (h := if aead then 0 else 4) in *.
  assert (Hh : h = 0 \/ h = 4) by (destruct aead; auto). clearbody h.
  assert (E : add32 (add32 h 1) len = h + 1 + len).
  { rewrite (add32_small h 1) by (unfold W32; lia). apply add32_small. unfold W32 in *; lia. }
  rewrite E. set (x := h + 1 + len) in *.
  assert (S : sub32 block (x mod block) = block - x mod block).
  { assert (B : x mod block < block) by (apply N.mod_lt; lia). apply sub32_small; unfold W32; lia. }
  rewrite S.
  assert (M : (block - x mod block) mod 256 = block - x mod block) by (apply N.mod_small; lia).
  rewrite M.
  assert (B : x mod block < block) by (apply N.mod_lt; lia).
  set (r := x mod block) in *. assert (X : x = block * (x / block) + r) by (apply N.div_mod; lia).
  destruct (N.ltb_spec (block - r) 4) as [L|L].
  - assert (M2 : (block - r + block) mod 256 = block - r + block) by (apply N.mod_small; lia). rewrite M2.
    split; [lia|]. split; [lia|].
    replace (x + (block - r + block)) with ((x / block + 2) * block) by lia. apply N.mod_mul; lia.
  - split; [lia|]. split; [lia|].
    replace (x + (block - r)) with ((x / block + 1) * block) by lia. apply N.mod_mul; lia.
Qed.

Lemma keys_ok_block : forall C (k : keys C), keys_ok k -> k_block k = 8 \/ k_block k = 16.
Proof. intros C k [(_ & _ & -> & _)|[(_ & _ & -> & _)|(_ & _ & -> & _)]]; auto. Qed.

(* overwriting the five header bytes left by PreparePacket *)
Lemma overwrite_header : forall u (z p hdr : bytes), lenN z = lenN hdr ->
  overwrite (u ++ z ++ p) (lenN u) hdr = u ++ hdr ++ p.
Proof.
  intros u z p hdr E. unfold overwrite. rewrite takeN_app_exact by reflexivity. do 2 f_equal.
  rewrite app_assoc. apply dropN_app_exact. rewrite lenN_app. lia.
Qed.

Section Tx.
  Context {C : crypto}.
  Hypothesis HC : crypto_ok C.
  Implicit Types t : txst C.


  Lemma keys_mac : forall (k : keys C), keys_ok k -> k_aead k = false -> MacSzForId (k_mac k) = k_macSz k /\
     (k_mac k = ID_NONE \/ hmac_id (k_mac k)) /\ (k_enc k = ID_NONE \/ is_block_cipher (k_enc k) = true).
  Proof.
    intros k [(E1 & E2 & _ & E3 & _)|[(E1 & E2 & _ & E3 & _)|(_ & _ & _ & _ & E)]] Ha; [| |congruence].
    - rewrite E2, E3. auto.
    - rewrite E3. auto.
  Qed.

  Lemma CreateMac_ok : forall (k : keys C) q d, (k_mac k = ID_NONE \/ hmac_id (k_mac k)) ->
    CreateMac k q d = (WS_SUCCESS, if k_mac k =? ID_NONE then [] else takeN (k_macSz k) (c_mac C (k_mkey k) q d)).
  Proof.
    intros k q d Hm. unfold CreateMac. destruct (N.eqb_spec (k_mac k) ID_NONE) as [E|E]; [reflexivity|].
    destruct Hm as [Hm|Hm]; [contradiction|].
    destruct Hm as [-> | [-> | [-> | ->]]]; reflexivity.
  Qed.

  Lemma tag_len : forall (k : keys C) q d, keys_ok k -> k_aead k = false ->
    lenN (if k_mac k =? ID_NONE then [] else takeN (k_macSz k) (c_mac C (k_mkey k) q d)) = k_macSz k.
  Proof.
    intros k q d [(E1 & E2 & _ & E3 & _)|[(E1 & E2 & _ & E3 & _)|(_ & _ & _ & _ & E)]] Ha; [| |congruence].
    - rewrite E2, E3. reflexivity.
    - destruct (N.eqb_spec (k_mac k) ID_NONE) as [Z|Z].
      + exfalso. rewrite Z in E2. destruct E2 as [E|[E|[E|E]]]; discriminate.
      + rewrite lenN_takeN, E3. pose proof (co_mac_len _ HC (k_mac k) (k_mkey k) q d E2). lia.
  Qed.

  (* what one message does to the queue: the estimate may be short of the
     message by as much as the reserved padding of two blocks exceeds the
     padding added *)
  Lemma queue_message_slack : forall rnd t est p, rnd_ok rnd -> buf_inv (t_buf t) -> keys_ok (t_keys t) ->
    p <> [] -> lenN p + 3 <= est + k_block (t_keys t) -> lenN (unread (t_buf t)) + est + 200 < W32 ->
    exists r t', queue_message rnd t est p = TxRet r t' /\
      ((r = WS_SUCCESS /\ exists pad k' wire,
          well_padded (k_block (t_keys t)) (k_aead (t_keys t)) p pad /\
          protects (t_keys t) (t_seq t) (frame p pad) k' wire /\
          unread (t_buf t') = unread (t_buf t) ++ wire /\ lenN wire = lenN (frame p pad) + k_macSz (t_keys t) /\
          buf_inv (t_buf t') /\ t_keys t' = k' /\ t_seq t' = add32 (t_seq t) 1 /\ t_msgs t' = add32 (t_msgs t) 1) \/
       (r = WS_CRYPTO_FAILED /\ rnd (pad_for (k_block (t_keys t)) (k_aead (t_keys t)) (lenN p)) = None /\
          t_seq t' = t_seq t) \/
       (r = WS_ENCRYPT_E /\ t_seq t' = t_seq t /\ exists k pkt,
          if k_aead (t_keys t) then exists iv, c_seal C k iv (takeN 4 pkt) (dropN 4 pkt) = None else c_enc C k pkt = None)).
  Proof.
    intros rnd t est p Hr Hb Hk Hp He Hs. destruct (keys_ok_sizes _ _ Hk) as (K1 & K2 & K3 & K4).
    pose proof (keys_ok_block _ _ Hk) as Hblk. pose proof Hb as (I1 & I2 & I3 & I4).
    set (k := t_keys t) in *.
    unfold queue_message, PreparePacket. fold k.
    destruct (N.ltb_spec (b_len (t_buf t)) (b_idx (t_buf t))) as [L|_]; [lia|].
    assert (Epd : byteN (k_block k * 2) = k_block k * 2) by (unfold byteN; apply N.mod_small; lia).
    rewrite Epd. rewrite (add32_small 1 est) by lia. rewrite (add32_small (1 + est)) by lia.
    rewrite (add32_small 4) by lia. rewrite (add32_small _ (k_macSz k)) by lia.
    set (osz := 4 + (1 + est + k_block k * 2) + k_macSz k) in *.
    destruct (GrowBuffer_spec true (t_buf t) osz Hb) as (r & b1 & E & [K|(_ & K & _)]); [unfold osz; lia| |discriminate].
    destruct K as (-> & Hi1 & Eu1 & Ex1 & Ed1 & Hr1 & _). rewrite E.
    change (negb (rc_eqb WS_SUCCESS WS_SUCCESS)) with false. cbv iota.
    destruct (put_end_spec b1 [0;0;0;0;0] Hi1) as (b2 & E2 & Hi2 & Eu2 & Ex2 & Ed2 & Ec2).
    { change (lenN [0;0;0;0;0]) with 5. unfold osz in Hr1. lia. }
    rewrite E2. unfold write_payload. cbn [t_buf t_start t_keys t_seq t_cnt t_msgs].
    assert (L1 : b_len b1 = lenN (unread (t_buf t))) by (unfold b_len; rewrite Ed1; reflexivity).
    assert (L2 : b_len b2 = b_len b1 + 5) by (unfold b_len; rewrite Ed2, lenN_app; reflexivity).
    destruct (put_end_spec b2 p Hi2) as (b3 & E3 & Hi3 & Eu3 & Ex3 & Ed3 & Ec3).
    { rewrite Ec2, L2. unfold osz in Hr1. lia. }
    rewrite E3. set (u := unread (t_buf t)) in *.
    assert (L3 : b_len b3 = lenN u + 5 + lenN p) by (unfold b_len; rewrite Ed3, lenN_app; fold (b_len b2); lia).
    assert (D3 : b_data b3 = u ++ [0;0;0;0;0] ++ p) by (rewrite Ed3, Ed2, Ed1, <- app_assoc; reflexivity).
    unfold BundlePacket. cbn [t_buf t_start t_keys t_seq t_cnt t_msgs]. fold k.
    rewrite L3, L1.
    assert (Eps : sub32 (sub32 (sub32 (lenN u + 5 + lenN p) (lenN u)) 4) 1 = lenN p).
    { rewrite (sub32_small _ (lenN u)) by lia. rewrite (sub32_small _ 4) by lia. rewrite sub32_small by lia. lia. }
    rewrite Eps.
    destruct (pad_for_ok (k_block k) (k_aead k) (lenN p) Hblk ltac:(lia)) as (P1 & P2 & P3).
    set (psz := pad_for (k_block k) (k_aead k) (lenN p)) in *.
    rewrite (add32_small 1 (lenN p)) by lia. rewrite (add32_small (1 + lenN p) psz) by lia.
    assert (LT : 1 + lenN p + psz < W32). { clear -P2 K2 He Hs. lia. }
    rewrite (c32toa_be32 _ LT).
    set (hdr := be32 (1 + lenN p + psz) ++ [psz]).
    destruct (N.ltb_spec (lenN u + 5 + lenN p) (lenN u + 5)) as [L|_]; [lia|].
    rewrite D3. rewrite overwrite_header by reflexivity.
    assert (LH : lenN (u ++ hdr ++ p) = lenN u + 5 + lenN p) by (rewrite !lenN_app; unfold hdr; rewrite lenN_app, lenN_be32; change (lenN [psz]) with 1; lia).
    rewrite (add32_small (lenN u + 5 + lenN p) psz) by lia.
    assert (Hc : lenN u + 5 + lenN p + psz + k_macSz k <= b_cap b3).
    { rewrite Ec3, Ec2. unfold osz in Hr1. lia. }
    destruct (N.ltb_spec (b_cap b3) (lenN u + 5 + lenN p + psz)) as [L|_]; [lia|].
    set (opad := if k_enc k =? ID_NONE then Some (repeat 0 (N.to_nat psz)) else rnd psz).
    assert (Hop : (exists pad, opad = Some pad /\ lenN pad = psz) \/ (opad = None /\ rnd psz = None)).
    { unfold opad. destruct (k_enc k =? ID_NONE).
      - left. eexists. split; [reflexivity|]. unfold lenN. rewrite repeat_length. lia.
      - destruct (rnd psz) eqn:Er; [left; eexists; split; [reflexivity|apply Hr; assumption]|right; auto]. }
    destruct Hop as [(pad & -> & Lp)|(-> & Er)].
    2: { eexists. eexists. split; [reflexivity|]. right. left. auto. }
    assert (Epl : dropN (lenN u) (u ++ hdr ++ p) ++ pad = frame p pad).
    { rewrite dropN_app_exact by reflexivity. unfold frame, hdr. rewrite Lp, <- !app_assoc. reflexivity. }
    assert (Etk : takeN (lenN u) (u ++ hdr ++ p) = u) by (apply takeN_app_exact; reflexivity).
    rewrite Epl, Etk.
    assert (WP : well_padded (k_block k) (k_aead k) p pad).
    { unfold well_padded. rewrite Lp. split; [assumption|]. split; [assumption|]. split; [lia|assumption]. }
    assert (Lf : lenN (frame p pad) = 5 + lenN p + psz).
    { unfold frame. rewrite !lenN_app, lenN_be32, Lp. change (lenN [psz]) with 1. lia. }
    assert (FIN : forall wire (k' : keys C) st cnt, lenN wire = lenN (frame p pad) + k_macSz k ->
       let t' := mkTx (set_data b3 (u ++ wire)) st k' (add32 (t_seq t) 1) cnt (add32 (t_msgs t) 1) in
       protects k (t_seq t) (frame p pad) k' wire ->
       WS_SUCCESS = WS_SUCCESS /\ exists pad k' wire,
          well_padded (k_block k) (k_aead k) p pad /\ protects k (t_seq t) (frame p pad) k' wire /\
          unread (t_buf t') = u ++ wire /\ lenN wire = lenN (frame p pad) + k_macSz k /\
          buf_inv (t_buf t') /\ t_keys t' = k' /\ t_seq t' = add32 (t_seq t) 1 /\ t_msgs t' = add32 (t_msgs t) 1).
    { intros wire k' st cnt Lw t' Hpr. split; [reflexivity|]. exists pad, k', wire.
      split; [assumption|]. split; [assumption|].
      assert (Ex0 : b_idx b3 = 0) by (rewrite Ex3, Ex2; assumption).
      split. { unfold t', unread, set_data; cbn [t_buf b_idx b_data]. rewrite Ex0. reflexivity. }
      split; [assumption|]. split; [|auto].
      destruct Hi3 as (J1 & J2 & J3 & J4). unfold t', buf_inv, set_data, b_len; cbn [t_buf b_idx b_data b_cap].
      rewrite lenN_app, Lw, Lf, Ex0. repeat split; try assumption; lia. }
    destruct (k_aead k) eqn:Ea; cbn [negb].
    - assert (Eg : is_gcm (k_enc k) = true).
      { destruct Hk as [(_ & _ & _ & _ & E0)|[(_ & _ & _ & _ & E0)|(E0 & _)]]; [congruence|congruence|exact E0]. }
      rewrite Eg. cbn [negb].
      destruct (c_seal C (k_cst k) (k_iv k) (takeN 4 (frame p pad)) (dropN 4 (frame p pad))) as [[ct tag]|] eqn:Es.
      2: { eexists. eexists. split; [reflexivity|]. right. right. split; [reflexivity|]. split; [reflexivity|].
           exists (k_cst k), (frame p pad). eauto. }
      destruct (co_seal_len _ HC _ _ _ _ _ _ Es) as (Lc & Lt).
      assert (Hm : k_macSz k = 16).
      { destruct Hk as [(_ & _ & _ & _ & E0)|[(_ & _ & _ & _ & E0)|(_ & _ & _ & E0 & _)]]; [congruence|congruence|exact E0]. }
      destruct (N.ltb_spec (b_cap b3) (lenN u + 5 + lenN p + psz + k_macSz k)) as [L|_]; [lia|].
      eexists. eexists. split; [reflexivity|]. left.
      apply (FIN (takeN 4 (frame p pad) ++ ct ++ tag)).
      + rewrite !lenN_app, Lc, Lt, lenN_takeN, lenN_dropN. lia.
      + unfold protects. rewrite Ea. exists ct, tag. auto.
    - destruct (keys_mac k Hk Ea) as (M1 & M2 & M3). rewrite M1.
      rewrite (add32_small _ (k_macSz k)) by lia.
      destruct (N.ltb_spec (b_cap b3) (lenN u + 5 + lenN p + psz + k_macSz k)) as [L|_]; [lia|].
      rewrite CreateMac_ok by assumption. change (negb (rc_eqb WS_SUCCESS WS_SUCCESS)) with false. cbv iota.
      unfold Encrypt, Crypt. destruct (N.eqb_spec (lenN (frame p pad)) 0) as [Z|_]; [lia|].
      destruct (N.eqb_spec (k_enc k) ID_NONE) as [En|En].
      + change (negb (rc_eqb WS_SUCCESS WS_SUCCESS)) with false. cbv iota.
        eexists. eexists. split; [reflexivity|]. left.
        apply (FIN (frame p pad ++ _)).
        * rewrite lenN_app. f_equal. apply tag_len; assumption.
        * unfold protects. rewrite Ea. exists (frame p pad). auto.
      + destruct M3 as [M3|M3]; [contradiction|]. rewrite M3.
        assert (B16 : k_block k = 16).
        { destruct Hk as [(E0 & _)|[(_ & _ & E0 & _)|(_ & _ & E0 & _)]]; [contradiction|assumption|assumption]. }
        assert (Hmod : lenN (frame p pad) mod 16 = 0).
        { rewrite Lf. rewrite B16 in P3. replace (5 + lenN p + psz) with (4 + 1 + lenN p + psz) by lia. exact P3. }
        rewrite Hmod. change (negb (0 =? 0)) with false. cbv iota.
        destruct (c_enc C (k_cst k) (frame p pad)) as [[c ct]|] eqn:Ee.
        2: { change (negb (rc_eqb WS_ENCRYPT_E WS_SUCCESS)) with true. cbv iota.
             eexists. eexists. split; [reflexivity|]. right. right. split; [reflexivity|]. split; [reflexivity|].
             exists (k_cst k), (frame p pad). assumption. }
        change (negb (rc_eqb WS_SUCCESS WS_SUCCESS)) with false. cbv iota.
        eexists. eexists. split; [reflexivity|]. left.
        apply (FIN (ct ++ _)).
        * rewrite lenN_app. rewrite (co_enc_len _ HC _ _ _ _ Ee). f_equal. apply tag_len; assumption.
        * unfold protects. rewrite Ea. exists ct. split; [right; split; [assumption|eauto]|reflexivity].
  Qed.

  Lemma queue_message_spec : forall rnd t est p, rnd_ok rnd -> buf_inv (t_buf t) -> keys_ok (t_keys t) ->
    p <> [] -> lenN p <= est -> lenN (unread (t_buf t)) + est + 200 < W32 ->
    exists r t', queue_message rnd t est p = TxRet r t' /\
      ((r = WS_SUCCESS /\ exists pad k' wire,
          well_padded (k_block (t_keys t)) (k_aead (t_keys t)) p pad /\
          protects (t_keys t) (t_seq t) (frame p pad) k' wire /\
          unread (t_buf t') = unread (t_buf t) ++ wire /\ lenN wire = lenN (frame p pad) + k_macSz (t_keys t) /\
          buf_inv (t_buf t') /\ t_keys t' = k' /\ t_seq t' = add32 (t_seq t) 1 /\ t_msgs t' = add32 (t_msgs t) 1) \/
       (r = WS_CRYPTO_FAILED /\ rnd (pad_for (k_block (t_keys t)) (k_aead (t_keys t)) (lenN p)) = None /\
          t_seq t' = t_seq t) \/
       (r = WS_ENCRYPT_E /\ t_seq t' = t_seq t /\ exists k pkt,
          if k_aead (t_keys t) then exists iv, c_seal C k iv (takeN 4 pkt) (dropN 4 pkt) = None else c_enc C k pkt = None)).
  Proof.
    intros rnd t est p Hr Hb Hk Hp He Hs. destruct (keys_ok_sizes _ _ Hk) as (K1 & _).
    apply queue_message_slack; [assumption| | | | |]; try assumption. lia.
  Qed.
End Tx.
