(* PacketTrip.v - a protected packet is received as sent; runs of DoReceive. *)
From Verif Require Import Base WireModel WireSpec WireProofs NameTable NegoModel NegoProofs BufModel BufSpec BufProofs
  PacketModel IoSpec IoProofs PacketSpec PacketProofs PacketSafe PacketTx.
From Coq Require Import List NArith ZArith Lia Bool ZifyBool ZifyNat ZifyN.
Import ListNotations.
Open Scope N_scope.

Section Trip.
  Context {C : crypto} {H : Type}.
  Variable A : applib C H.
  Hypothesis HC : crypto_ok C.

  (* the outcome of handling message m::body in abstract state a, with keys k
     after the packet *)
  Definition taken (a : abst C H) (k : keys C) cnt m body rest (o : sout C H) : Prop :=
    let h := snd (a_allowed A (s_app a) m) in
    let R := a_handle A h m body in
    let '(k2, cnt2, msgs2) := match hr_keys R with Some k2 => (k2, 0, 0) | None => (k, cnt, s_msgs a) end in
    let W := a_highwater A (hr_st R) cnt2 (add32 msgs2 1) in
    exists cur, o = SDone (if rc_eqb (hr_rc R) WS_SUCCESS then fst W else hr_rc R)
               [mkHandled (s_seq a) m body]
               (mkA PhInit cur k2 (add32 (s_seq a) 1) cnt2 (add32 msgs2 1) (snd W)) rest.

  Lemma sp_packet_frame : forall (a : abst C H) m body pad tag rest,
    4 <= lenN pad -> s_cur a = 1 + lenN (m :: body) + lenN pad ->
    fst (a_allowed A (s_app a) m) = true ->
    hr_rc (a_handle A (snd (a_allowed A (s_app a) m)) m body) <> WS_AUTH_PENDING ->
    taken a (s_keys a) (s_cnt a) m body rest
       (sp_packet A (lenN tag) a (frame (m :: body) pad ++ tag ++ rest)).
  Proof.
    intros a m body pad tag rest Hp Hc Hal Hnp. unfold frame, be32. cbn [app sp_packet].
    destruct (N.ltb_spec (lenN pad) 4) as [L|_]; [lia|]. rewrite lenN_cons in Hc.
    destruct (N.ltb_spec (s_cur a) (1 + lenN pad + 1)) as [L|_]; [lia|].
    replace (s_cur a - lenN pad - 2) with (lenN body) by lia.
    rewrite <- !app_assoc. rewrite takeN_app_exact by reflexivity.
    unfold taken. destruct (a_allowed A (s_app a) m) as [ok h] eqn:Ea. cbn [fst snd] in *. rewrite Hal. cbn [negb].
    destruct (rc_eqb (hr_rc (a_handle A h m body)) WS_AUTH_PENDING) eqn:Ep; [apply rc_eqb_eq in Ep; contradiction|].
    set (kc := match hr_keys (a_handle A h m body) with Some k => (k, 0, 0) | None => (s_keys a, s_cnt a, s_msgs a) end).
    destruct kc as [[k cnt] msgs].
    destruct (a_highwater A (hr_st (a_handle A h m body)) cnt (add32 msgs 1)) as [hw h']. cbn [fst snd].
    exists (s_cur a). f_equal.
    change (dropN (4 + s_cur a + lenN tag) (((1 + lenN (m :: body) + lenN pad) / 16777216 :: (1 + lenN (m :: body) + lenN pad) / 65536 mod 256
       :: (1 + lenN (m :: body) + lenN pad) / 256 mod 256 :: (1 + lenN (m :: body) + lenN pad) mod 256 :: lenN pad :: m :: body ++ pad ++ tag ++ rest)) = rest).
    set (x1 := _ / 16777216). set (x2 := (_ / 65536) mod 256). set (x3 := (_ / 256) mod 256). set (x4 := _ mod 256).
    replace (x1 :: x2 :: x3 :: x4 :: lenN pad :: m :: body ++ pad ++ tag ++ rest)
      with ((x1 :: x2 :: x3 :: x4 :: lenN pad :: m :: body ++ pad ++ tag) ++ rest)
      by (cbn [app]; rewrite <- !app_assoc; reflexivity).
    apply dropN_app_exact. rewrite !lenN_cons, !lenN_app. lia.
  Qed.

  Lemma frame_len : forall p pad, lenN (frame p pad) = 5 + lenN p + lenN pad.
  Proof. intros. unfold frame. rewrite !lenN_app, lenN_be32. change (lenN [lenN pad]) with 1. lia. Qed.
  Lemma ato32_frame : forall p pad t, 1 + lenN p + lenN pad < W32 ->
    ato32 (frame p pad ++ t) 0 = Some (1 + lenN p + lenN pad).
  Proof. intros. unfold frame. rewrite <- app_assoc. apply ato32_be32. assumption. Qed.

  Lemma VerifyMac_made : forall (k : keys C) q d, (k_mac k = ID_NONE \/ hmac_id (k_mac k)) ->
    VerifyMac k q d (takeN (k_macSz k) (c_mac C (k_mkey k) q d)) = WS_SUCCESS.
  Proof.
    intros k q d Hm. unfold VerifyMac. destruct (N.eqb_spec (k_mac k) ID_NONE) as [E|E]; [reflexivity|].
    destruct Hm as [Hm|Hm]; [contradiction|]. rewrite bytes_eqb_refl.
    destruct Hm as [-> | [-> | [-> | ->]]]; reflexivity.
  Qed.

  (* one protected packet at the head of the stream *)
  Lemma sp_roundtrip : forall (a : abst C H) m body pad k' wire rest,
    s_ph a = PhInit -> keys_ok (s_keys a) ->
    well_padded (k_block (s_keys a)) (k_aead (s_keys a)) (m :: body) pad ->
    fits (s_keys a) (m :: body) pad ->
    protects (s_keys a) (s_seq a) (frame (m :: body) pad) k' wire ->
    fst (a_allowed A (s_app a) m) = true ->
    hr_rc (a_handle A (snd (a_allowed A (s_app a) m)) m body) <> WS_AUTH_PENDING ->
    exists cnt, taken a k' cnt m body rest (sp_receive A a (wire ++ rest)).
  Proof.
    intros a m body pad k' wire rest Hph Hk (W1 & W2 & W3 & W4) Hf Hp Hal Hnp.
    destruct (keys_ok_sizes _ _ Hk) as (K1 & K2 & K3 & K4).
    unfold fits, MAX_PACKET_SZ in Hf. set (k := s_keys a) in *. set (p := m :: body) in *.
    set (cur := 1 + lenN p + lenN pad) in *. set (F := frame p pad) in *.
    assert (LF : lenN F = 4 + cur) by (unfold F, cur; rewrite frame_len; lia).
    assert (Hcur : cur <= 35000) by lia.
    assert (HcurW : cur < W32) by (unfold W32; lia).
    unfold sp_receive. rewrite Hph. fold k. unfold protects in Hp.
    assert (NP : forall k1 c1, let a1 := mkA PhPacket cur k1 (s_seq a) c1 (s_msgs a) (s_app a) in forall tag,
       taken a k1 c1 m body rest (sp_packet A (lenN tag) a1 (F ++ tag ++ rest))).
    { intros k1 c1 a1 tag.
      pose proof (sp_packet_frame a1 m body pad tag rest W1 eq_refl Hal Hnp) as T. exact T. }
    assert (HB : k_block k <= 4 + cur).
    { unfold cur, p in *. rewrite lenN_cons in *. destruct (keys_ok_block _ _ Hk) as [E|E]; rewrite E in *; [lia|].
      destruct (k_aead k); [lia|]. 
      assert (X : (4 + 1 + (1 + lenN body) + lenN pad) mod 16 = 0) by exact W4.
      apply N.mod_divide in X; [|lia]. destruct X as [z Z]. lia. }
    destruct (k_aead k) eqn:Ea.
    - (* AEAD *)
      destruct Hp as (ct & tag & Es & -> & ->).
      destruct (co_seal_len _ HC _ _ _ _ _ _ Es) as (Lc & Lt). pose proof (co_open _ HC _ _ _ _ _ _ Es) as Eo.
      destruct Hk as [(_ & _ & _ & _ & X)|[(_ & _ & _ & _ & X)|(Eg & Em & Eb & Emac & _)]]; [congruence|congruence|].
      assert (L4 : lenN (takeN 4 F) = 4) by (rewrite lenN_takeN; lia).
      assert (Lct : lenN ct = cur) by (rewrite Lc, lenN_dropN; lia).
      rewrite <- !app_assoc.
      assert (LW : lenN (takeN 4 F ++ ct ++ tag ++ rest) = 4 + cur + 16 + lenN rest) by (rewrite !lenN_app; lia).
      destruct (N.ltb_spec (lenN (takeN 4 F ++ ct ++ tag ++ rest)) (k_block k)) as [L|_]; [lia|].
      unfold sp_length. cbn [s_keys s_cur s_seq s_cnt s_msgs s_app]. fold k.
      assert (At : ato32 (takeN 4 F ++ ct ++ tag ++ rest) 0 = Some cur).
      { rewrite (ato32_app (takeN 4 F)) by lia. rewrite ato32_take by lia.
        pose proof (ato32_frame p pad [] HcurW) as Q. rewrite app_nil_r in Q. exact Q. }
      rewrite At. destruct (N.ltb_spec (MAX_PACKET_SZ - k_macSz k - 4) cur) as [L|_]; [unfold MAX_PACKET_SZ in L; lia|].
      unfold sp_finish. cbn [s_keys s_cur s_seq s_cnt s_msgs s_app]. fold k.
      destruct (N.ltb_spec (lenN (takeN 4 F ++ ct ++ tag ++ rest)) (4 + cur + k_macSz k)) as [L|_]; [lia|].
      rewrite Ea. destruct (N.eqb_spec cur 0) as [Z|_]; [unfold cur in Z; lia|]. rewrite Eg. cbn [negb].
      rewrite (takeN_app_exact _ 4 (takeN 4 F)) by auto. rewrite (dropN_app_exact _ 4 (takeN 4 F)) by auto.
      rewrite (takeN_app_exact _ cur ct) by auto.
      rewrite <- (dropN_dropN _ cur 4). rewrite (dropN_app_exact _ 4 (takeN 4 F)) by auto. rewrite (dropN_app_exact _ cur ct) by auto.
      rewrite (takeN_app_exact _ (k_macSz k) tag) by lia.
      rewrite Eo. rewrite app_assoc, takeN_dropN.
      assert (Emt : k_macSz k = lenN tag) by lia. rewrite Emt.
      eexists. apply NP.
    - destruct Hp as (ct & Hc & ->).
      destruct (keys_mac k Hk Ea) as (M1 & M2 & M3).
      pose proof (tag_len HC k (s_seq a) F Hk Ea) as Lt.
      set (tag := if k_mac k =? ID_NONE then [] else takeN (k_macSz k) (c_mac C (k_mkey k) (s_seq a) F)) in *.
      assert (VM : forall c, VerifyMac (set_cst k c) (s_seq a) F tag = WS_SUCCESS).
      { intro c. unfold tag. destruct (N.eqb_spec (k_mac k) ID_NONE) as [E|E].
        - unfold VerifyMac. cbn [set_cst k_mac]. rewrite E. reflexivity.
        - apply (VerifyMac_made (set_cst k c) (s_seq a) F M2). }
      clearbody tag.
      (* after the first block *)
      assert (FIN : forall (k2 k3 : keys C) d rst,
         (exists c, k2 = set_cst k c) -> (exists c, k3 = set_cst k c) ->
         d = takeN (k_block k) F -> dropN (4 + cur - k_block k) rst = tag ++ rest -> lenN rst = 4 + cur - k_block k + lenN tag + lenN rest ->
         (k_block k < 4 + cur -> Decrypt k2 (takeN (4 + cur - k_block k) rst) = (WS_SUCCESS, k3, dropN (k_block k) F)) ->
         (4 + cur <= k_block k -> k3 = k2) ->
         exists cnt, taken a k3 cnt m body rest
           (sp_length A (mkA PhLength (s_cur a) k2 (s_seq a) (add32 (s_cnt a) (k_block k)) (s_msgs a) (s_app a)) (d ++ rst))).
      { intros k2 k3 d rst (c2 & Ek2) (c3 & Ek3) Ed Er Lr Hd1 Hd2.
        assert (Ld : lenN d = k_block k) by (rewrite Ed, lenN_takeN; lia).
        assert (Eb2 : k_block k2 = k_block k) by (rewrite Ek2; reflexivity).
        assert (Em2 : k_macSz k2 = k_macSz k) by (rewrite Ek2; reflexivity).
        assert (Ea2 : k_aead k2 = false) by (rewrite Ek2; exact Ea).
        unfold sp_length. cbn [s_keys s_cur s_seq s_cnt s_msgs s_app].
        assert (At : ato32 (d ++ rst) 0 = Some cur).
        { rewrite ato32_app by lia. rewrite Ed.
          pose proof (ato32_frame p pad [] HcurW) as Q. rewrite app_nil_r in Q. fold F in Q.
          rewrite <- (takeN_dropN _ (k_block k) F) in Q. rewrite ato32_app in Q by (rewrite lenN_takeN; lia). exact Q. }
        rewrite At, Em2. destruct (N.ltb_spec (MAX_PACKET_SZ - k_macSz k - 4) cur) as [L|_]; [unfold MAX_PACKET_SZ in L; lia|].
        unfold sp_finish. cbn [s_keys s_cur s_seq s_cnt s_msgs s_app]. rewrite Em2, Ea2, Eb2.
        assert (LW : lenN (d ++ rst) = 4 + cur + lenN tag + lenN rest) by (rewrite lenN_app; lia).
        destruct (N.ltb_spec (lenN (d ++ rst)) (4 + cur + k_macSz k)) as [L|_]; [lia|].
        assert (Edrop : dropN (4 + cur) (d ++ rst) = tag ++ rest).
        { rewrite dropN_app_r by lia. rewrite Ld. exact Er. }
        rewrite Edrop. rewrite (takeN_app_exact _ (k_macSz k) tag) by lia.
        destruct (N.ltb_spec (k_block k) (4 + cur)) as [Lb|Lb].
        - rewrite (takeN_app_exact _ (k_block k) d) by auto. rewrite (dropN_app_exact _ (k_block k) d) by auto.
          rewrite (Hd1 Lb). rewrite Ed, takeN_dropN. rewrite Ek3, VM.
          change (negb (rc_eqb WS_SUCCESS WS_SUCCESS)) with false. cbv iota.
          rewrite <- Lt. eexists. apply NP.
        - assert (Eq : 4 + cur = k_block k) by lia.
          rewrite Eq. rewrite (takeN_app_exact _ (k_block k) d) by auto.
          assert (EF : d = F). { rewrite Ed. rewrite <- (takeN_dropN _ (k_block k) F) at 2.
            replace (dropN (k_block k) F) with (@nil N); [rewrite app_nil_r; reflexivity|].
            symmetry. assert (X : lenN (dropN (k_block k) F) = 0) by (rewrite lenN_dropN; lia).
            destruct (dropN (k_block k) F); [reflexivity|rewrite lenN_cons in X; lia]. }
          rewrite EF. assert (VM2 : VerifyMac k2 (s_seq a) F tag = WS_SUCCESS) by (rewrite Ek2; apply VM). rewrite VM2.
          change (negb (rc_eqb WS_SUCCESS WS_SUCCESS)) with false. cbv iota.
          rewrite <- Lt. rewrite (Hd2 Lb). eexists. apply NP. }
      destruct Hc as [(En & -> & ->)|(En & c & Ee & ->)].
      + (* no cipher *)
        rewrite <- app_assoc.
        assert (LW : lenN (F ++ tag ++ rest) = 4 + cur + lenN tag + lenN rest) by (rewrite !lenN_app; lia).
        destruct (N.ltb_spec (lenN (F ++ tag ++ rest)) (k_block k)) as [L|_]; [lia|].
        rewrite (take_pre F) by lia. rewrite (dropN_app_l _ (k_block k) F) by lia.
        assert (DN : forall d, d <> [] -> Decrypt k d = (WS_SUCCESS, k, d)).
        { intros d Hd. unfold Decrypt, Crypt. destruct (N.eqb_spec (lenN d) 0) as [Z|_].
          - exfalso. apply Hd. destruct d; [reflexivity|rewrite lenN_cons in Z; lia].
          - rewrite En. reflexivity. }
        rewrite DN.
        2: { intro E. assert (X : lenN (takeN (k_block k) F) = 0) by (rewrite E; reflexivity). rewrite lenN_takeN in X. lia. }
        change (negb (rc_eqb WS_SUCCESS WS_SUCCESS)) with false. cbv iota.
        apply FIN.
        * exists (k_cst k). destruct k; reflexivity.
        * exists (k_cst k). destruct k; reflexivity.
        * reflexivity.
        * apply dropN_app_exact. rewrite lenN_dropN. lia.
        * rewrite !lenN_app, lenN_dropN. lia.
        * intros Lb. rewrite (takeN_app_exact _ (4 + cur - k_block k) (dropN (k_block k) F)) by (rewrite lenN_dropN; lia).
          apply DN. intro E. assert (X : lenN (dropN (k_block k) F) = 0) by (rewrite E; reflexivity). rewrite lenN_dropN in X. lia.
        * reflexivity.
      + destruct M3 as [M3|M3]; [contradiction|].
        assert (B16 : k_block k = 16).
        { destruct Hk as [(E0 & _)|[(_ & _ & E0 & _)|(_ & _ & E0 & _)]]; [contradiction|assumption|assumption]. }
        pose proof (co_enc_len _ HC _ _ _ _ Ee) as Lct.
        rewrite <- app_assoc.
        assert (LW : lenN (ct ++ tag ++ rest) = 4 + cur + lenN tag + lenN rest) by (rewrite !lenN_app; lia).
        destruct (N.ltb_spec (lenN (ct ++ tag ++ rest)) (k_block k)) as [L|_]; [lia|].
        rewrite (take_pre ct) by lia. rewrite (dropN_app_l _ (k_block k) ct) by lia.
        assert (L16 : lenN (takeN 16 F) = 16) by (rewrite lenN_takeN; lia).
        destruct (co_dec_split _ HC (k_cst k) (takeN 16 F) (dropN 16 F) c ct) as (k1 & D1 & D2 & D3).
        { rewrite L16. reflexivity. }
        { rewrite takeN_dropN. exact Ee. }
        rewrite L16 in D1, D3.
        assert (Hmod : (4 + cur) mod 16 = 0).
        { rewrite B16 in W4. unfold cur. replace (4 + (1 + lenN p + lenN pad)) with (4 + 1 + lenN p + lenN pad) by lia. exact W4. }
        assert (DD : forall (kk : keys C) d c' d', k_enc kk = k_enc k -> d <> [] -> lenN d mod 16 = 0 -> c_dec C (k_cst kk) d = Some (c', d') ->
            Decrypt kk d = (WS_SUCCESS, set_cst kk c', d')).
        { intros kk d c' d' Ek Hd Hm Hdec. unfold Decrypt, Crypt. destruct (N.eqb_spec (lenN d) 0) as [Z|_].
          - exfalso. apply Hd. destruct d; [reflexivity|rewrite lenN_cons in Z; lia].
          - rewrite Ek. destruct (N.eqb_spec (k_enc k) ID_NONE); [contradiction|]. rewrite M3, Hm. cbn [N.eqb negb].
            rewrite Hdec. reflexivity. }
        rewrite B16. rewrite (DD k (takeN 16 ct) k1 (takeN 16 F)).
        2: reflexivity.
        2: { intro E. assert (X : lenN (takeN 16 ct) = 0) by (rewrite E; reflexivity). rewrite lenN_takeN in X. lia. }
        2: { rewrite lenN_takeN. replace (N.min 16 (lenN ct)) with 16 by lia. reflexivity. }
        2: exact D1.
        change (negb (rc_eqb WS_SUCCESS WS_SUCCESS)) with false. cbv iota. rewrite <- B16.
        apply FIN.
        * exists k1. reflexivity.
        * exists c. reflexivity.
        * reflexivity.
        * apply dropN_app_exact. rewrite lenN_dropN. lia.
        * rewrite !lenN_app, lenN_dropN. lia.
        * intros Lb. rewrite (takeN_app_exact _ (4 + cur - k_block k) (dropN (k_block k) ct)) by (rewrite lenN_dropN; lia).
          rewrite B16 in *.
          assert (NE : dropN 16 F <> []).
          { intro E. assert (X : lenN (dropN 16 F) = 0) by (rewrite E; reflexivity). rewrite lenN_dropN in X. lia. }
          rewrite (DD (set_cst k k1) (dropN 16 ct) c (dropN 16 F)); [reflexivity|reflexivity| | |exact (D3 NE)].
          { intro E. assert (X : lenN (dropN 16 ct) = 0) by (rewrite E; reflexivity). rewrite lenN_dropN in X. lia. }
          { rewrite lenN_dropN, Lct, LF. clear -Hmod Lb. lia. }
        * intros Lb. rewrite B16 in Lb. rewrite (D2 ltac:(destruct (dropN 16 F) eqn:E; [reflexivity|exfalso; assert (X : lenN (dropN 16 F) = lenN (n :: l)) by (rewrite E; reflexivity); rewrite lenN_dropN, lenN_cons in X; lia])). reflexivity.
  Qed.
End Trip.
