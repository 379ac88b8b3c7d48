(* PacketSafe.v - every call of DoReceive, on any schedule with failures and in
   any state left by earlier calls, stays inside the buffer and only hands
   verified packets to handlers. *)
From Verif Require Import Base WireModel WireSpec WireProofs NameTable NegoModel NegoProofs BufModel BufSpec BufProofs
  PacketModel IoSpec IoProofs PacketSpec PacketProofs.
From Coq Require Import List NArith Lia Bool ZifyBool ZifyNat ZifyN.
Import ListNotations.
Open Scope N_scope.

Lemma ReceiveData_any : forall net size, 0 < size ->
  match ReceiveData net size with
  | Got d _ => 0 < lenN d /\ lenN d <= size
  | _ => True
  end.
Proof.
  induction net as [|e net IH]; intros size Hs; cbn [ReceiveData]; [exact I|].
  destruct e as [d| |]; [|exact I|exact I].
  destruct (N.eqb_spec (lenN d) 0); [apply IH; assumption|].
  destruct (N.leb_spec (lenN d) size); [lia|]. rewrite lenN_takeN. lia.
Qed.

Lemma gid_loop_any : forall fuel b net size, buf_inv b -> b_idx b = 0 -> b_len b + size <= b_cap b ->
  0 < size -> size <= N.of_nat fuel ->
  match gid_loop fuel b net size with
  | GOk b' _ => buf_inv b' /\ (exists t, unread b' = unread b ++ t) /\ lenN (unread b') = lenN (unread b) + size
  | GBlock b' _ | GErr _ b' _ => buf_inv b' /\ (exists t, unread b' = unread b ++ t) /\
       lenN (unread b') < lenN (unread b) + size
  | _ => False
  end.
Proof.
  induction fuel as [|fuel IH]; intros b net size Hi Hx Hr Hs Hf; cbn [gid_loop]; [lia|].
  assert (Z : exists t, unread b = unread b ++ t) by (exists []; rewrite app_nil_r; reflexivity).
  pose proof (ReceiveData_any net size Hs) as R.
  destruct (ReceiveData net size) as [d n|n|n]; [|split; [assumption|]; split; [assumption|lia]..].
  destruct R as (R1 & R2).
  destruct (put_end_spec b d Hi) as (b2 & E2 & Hi2 & Eu2 & Ex2 & Ed2 & Ec2); [lia|]. rewrite E2.
  pose proof Hi as (_ & _ & W & _).
  assert (Es : sub32 size (lenN d) = size - lenN d) by (apply sub32_small; unfold is32 in *; lia).
  rewrite Es. assert (Lu : lenN (unread b2) = lenN (unread b) + lenN d) by (rewrite Eu2, lenN_app; reflexivity).
  destruct (N.eqb_spec (size - lenN d) 0) as [Y|Y].
  - split; [assumption|]. split; [eauto|lia].
  - specialize (IH b2 n (size - lenN d)).
    assert (El2 : b_len b2 = b_len b + lenN d) by (unfold b_len; rewrite Ed2, lenN_app; reflexivity).
    destruct (gid_loop fuel b2 n (size - lenN d)) as [b' n'|b' n'|e b' n'| |];
      apply IH in Hi2; try lia; destruct Hi2 as (K1 & (t & K2) & K3);
      (split; [assumption|]; split; [exists (d ++ t); rewrite K2, Eu2, <- app_assoc; reflexivity|lia]).
Qed.

Lemma GetInputData_any : forall b net size, buf_inv b -> size < W32 ->
  match GetInputData b net size with
  | GOk b' _ => buf_inv b' /\ (exists t, unread b' = unread b ++ t) /\ lenN (unread b') = N.max (lenN (unread b)) size
  | GBlock b' _ | GErr _ b' _ => buf_inv b' /\ (exists t, unread b' = unread b ++ t) /\ lenN (unread b') < size
  | _ => False
  end.
Proof.
  intros b net size Hi Hs. unfold GetInputData. rewrite (sub32_used b Hi).
  destruct (N.leb_spec size (lenN (unread b))) as [L|L].
  - split; [assumption|]. split; [exists []; rewrite app_nil_r; reflexivity|lia].
  - assert (Es : sub32 size (lenN (unread b)) = size - lenN (unread b)) by (apply sub32_small; lia).
    rewrite Es.
    destruct (GrowBuffer_spec true b (size - lenN (unread b)) Hi) as (r & b1 & E & [K|(_ & K & _)]);
      [lia| |discriminate].
    destruct K as (-> & Hi1 & Eu1 & Ex1 & Ed1 & Hr1 & _). rewrite E.
    change (rc_eqb WS_SUCCESS WS_SUCCESS) with true. cbv iota.
    pose proof (gid_loop_any (N.to_nat (size - lenN (unread b))) b1 net (size - lenN (unread b)) Hi1 Ex1) as G.
    destruct (gid_loop (N.to_nat (size - lenN (unread b))) b1 net (size - lenN (unread b))) as [b' n|b' n|e b' n| |];
      rewrite ?Eu1 in G; (assert (G' := G ltac:(lia) ltac:(lia) ltac:(lia))); try contradiction;
      destruct G' as (G1 & G2 & G3); (split; [assumption|]; split; [assumption|lia]).
Qed.

Section Safe.
  Context {C : crypto} {H : Type}.
  Variable A : applib C H.
  Hypothesis HC : crypto_len C.
  Hypothesis HA : app_safe A.
  Implicit Types s : rxst C H.

  Definition call_safe s (x : rxres C H) : Prop :=
    match x with
    | RxRet r s' n log => rx_inv s' /\ verified s' /\ call_effect A s s' log
    | _ => False
    end.

  Lemma same_algs_refl : forall (k : keys C), same_algs k k.
  Proof. intros; repeat split; auto. Qed.
  Lemma same_algs_cst : forall (k : keys C) c, k_aead k = false -> same_algs (set_cst k c) k.
  Proof. intros k c E; unfold same_algs; cbn. repeat split. congruence. Qed.
  Lemma same_algs_iv : forall (k : keys C) c, same_algs (set_iv k c) k.
  Proof. intros; repeat split. Qed.
  Lemma same_algs_trans : forall (a b c : keys C), same_algs a b -> same_algs b c -> same_algs a c.
  Proof.
    intros a b c (A1 & A2 & A3 & A4 & A5 & A6 & A7) (B1 & B2 & B3 & B4 & B5 & B6 & B7).
    repeat split; try congruence. intro E. rewrite A7, B7; congruence.
  Qed.

  (* a call that begins in s0 and has come to s *)
  Definition from s0 s : Prop :=
    same_algs (r_keys s) (r_keys s0) /\ r_seq s = r_seq s0 /\ r_msgs s = r_msgs s0 /\ r_app s = r_app s0.
  Lemma from_refl : forall s, from s s.
  Proof. intros; split; [apply same_algs_refl|auto]. Qed.

  Lemma safe_stop : forall s0 s r n, from s0 s -> rx_inv s -> verified s -> call_safe s0 (RxRet r s n []).
  Proof. intros s0 s r n (F1 & F2 & F3 & F4) Hi Hv. cbn. auto. Qed.

  Lemma rx_packet_safe : forall s0 s net, from s0 s -> rx_inv s -> r_ph s = PhPacket -> verified s ->
    call_safe s0 (rx_packet A (k_macSz (r_keys s)) s net).
  Proof.
    intros s0 s net F Hinv Hp Hv. pose proof F as (F1 & F2 & F3 & F4).
    pose proof Hinv as (Hb & Hk & Hph). rewrite Hp in Hph. cbv zeta in Hph.
    destruct Hph as (B1 & B2 & B3). destruct (keys_ok_sizes _ _ Hk) as (K1 & K2 & K3 & K4).
    pose proof Hb as (I1 & I2 & I3 & I4).
    assert (Lu : b_idx (r_buf s) + lenN (unread (r_buf s)) = b_len (r_buf s)) by (rewrite lenN_unread; lia).
    pose proof Hv as Hv'. unfold verified in Hv'. rewrite Hp in Hv'.
    assert (B3' : r_cur s <= 35000) by (unfold MAX_PACKET_SZ in B3; lia).
    unfold is32 in *.
    destruct (six (unread (r_buf s))) as (x1 & x2 & x3 & x4 & pad & msg & body & Eu); [lia|].
    assert (E4 : add32 (b_idx (r_buf s)) 4 = b_idx (r_buf s) + 4) by (apply add32_small; lia).
    assert (E5 : add32 (b_idx (r_buf s) + 4) 1 = b_idx (r_buf s) + 5) by (rewrite add32_small; lia).
    assert (E6 : add32 (b_idx (r_buf s) + 5) 1 = b_idx (r_buf s) + 6) by (rewrite add32_small; lia).
    unfold rx_packet, DoPacket. rewrite E4, E5, E6, !rd_unread, Eu.
    change (rd (x1 :: x2 :: x3 :: x4 :: pad :: msg :: body) 4) with (Some pad).
    change (rd (x1 :: x2 :: x3 :: x4 :: pad :: msg :: body) 5) with (Some msg).
    cbv iota.
    assert (KEEP : forall e (h : H), let s' := mkRx (r_buf s) (r_ph s) (r_cur s) (r_keys s) (r_seq s) (r_cnt s) (r_msgs s) e h in
              rx_inv s' /\ verified s').
    { intros e h s'. split.
      - unfold rx_inv, s'; cbn [r_buf r_keys r_ph r_cur]. rewrite Hp. auto.
      - unfold verified, s'; cbn [r_buf r_keys r_ph r_cur r_seq]. rewrite Hp. assumption. }
    assert (STOP : forall r e (h : H) n, call_safe s0 (RxRet r
       (mkRx (r_buf s) (r_ph s) (r_cur s) (r_keys s) (r_seq s) (r_cnt s) (r_msgs s) e h) n [])).
    { intros r e h n. destruct (KEEP e h) as (Q1 & Q2). cbn. auto. }
    unfold MIN_PAD_LENGTH.
    destruct (pad <? 4) eqn:P4; [apply STOP|].
    destruct (r_cur s <? 1 + pad + 1) eqn:P5; [apply STOP|].
    apply N.ltb_ge in P4. apply N.ltb_ge in P5.
    assert (EP : sub32 (sub32 (sub32 (r_cur s) 1) pad) 1 = r_cur s - pad - 2).
    { rewrite (sub32_small (r_cur s) 1) by (unfold W32; lia). rewrite (sub32_small (r_cur s - 1) pad) by (unfold W32; lia).
      rewrite sub32_small by (unfold W32; lia). lia. }
    rewrite EP. set (psz := r_cur s - pad - 2) in *.
    assert (Lb : lenN (unread (r_buf s)) = 6 + lenN body) by (rewrite Eu, !lenN_cons; lia).
    assert (Hbody : psz + pad + k_macSz (r_keys s) <= lenN body) by (unfold psz; lia).
    assert (Ea : add32 psz (b_idx (r_buf s) + 6) = psz + (b_idx (r_buf s) + 6)) by (apply add32_small; lia).
    rewrite Ea.
    destruct (b_cap (r_buf s) <? psz + (b_idx (r_buf s) + 6)) eqn:P6; [exfalso; apply N.ltb_lt in P6; lia|].
    destruct (psz + (b_idx (r_buf s) + 6) <? psz) eqn:P7; [apply N.ltb_lt in P7; lia|]. cbn [orb].
    destruct (a_allowed A (r_app s) msg) as [ok h] eqn:Eal.
    cbn [r_buf r_ph r_cur r_keys r_seq r_cnt r_msgs r_err].
    destruct ok; cbn [negb]; [|apply STOP].
    replace (rdn (b_data (r_buf s)) (b_idx (r_buf s) + 6) psz) with (Some (takeN psz body)).
    2: { rewrite rdn_off_unread; [|assumption|rewrite Eu, !lenN_cons; lia]. rewrite Eu. reflexivity. }
    cbv iota. set (R := a_handle A h msg (takeN psz body)).
    destruct (HA h msg (takeN psz body)) as (HA2 & HA3). fold R in HA2, HA3.
    set (ev := mkHandled (r_seq s) msg (takeN psz body)).
    assert (PASS : passed (r_keys s0) (r_seq s0) ev).
    { exists (r_keys s), (r_cur s), (unread (r_buf s)).
      split; [exact F1|]. split; [rewrite <- F2; exact Hv'|]. split.
      - exists [x1; x2; x3; x4], pad, body. split; [reflexivity|]. split; [exact Eu|].
        split; [assumption|]. split; [lia|]. split; [reflexivity|lia].
      - destruct F1 as (_ & _ & _ & F1 & _). rewrite <- F1. assumption. }
    assert (ALL : fst (a_allowed A (r_app s0) (hd_msg ev)) = true).
    { cbn [ev hd_msg]. rewrite <- F4, Eal. reflexivity. }
    assert (NK : new_keys A s0 ev = hr_keys R).
    { unfold new_keys. cbn [ev hd_msg hd_payload]. rewrite <- F4, Eal. reflexivity. }
    destruct (rc_eqb (hr_rc R) WS_AUTH_PENDING) eqn:EP1.
    { apply rc_eqb_eq in EP1. rewrite (HA3 EP1). cbv iota.
      cbn [r_buf r_ph r_cur r_keys r_seq r_cnt r_msgs r_err r_app].
      destruct (KEEP WS_AUTH_PENDING (hr_st R)) as (Q1 & Q2).
      split; [exact Q1|]. split; [exact Q2|]. cbn [call_effect]. split; [assumption|].
      split; [exact F2|]. split; [assumption|]. cbn [r_ph r_keys r_seq r_msgs]. rewrite Hp. auto. }
    assert (FIN : forall ret (k : keys C) cnt msgs b (h' : H), ShrinkBuffer b true = BOk WS_SUCCESS (mkBuf [] 0 STATIC_BUFFER_LEN false) ->
       keys_ok k ->
       match hr_keys R with Some k' => k = k' /\ cnt = 0 /\ msgs = 1
                          | None => k = r_keys s /\ msgs = add32 (r_msgs s) 1 end ->
       match ShrinkBuffer b true with
       | BOk _ b0 => call_safe s0 (RxRet ret (mkRx b0 PhInit (r_cur s) k (add32 (r_seq s) 1) cnt msgs ret h') net [ev])
       | BOob => False
       end).
    { intros ret k cnt msgs b h' -> Hk' Q. split.
      - unfold rx_inv; cbn [r_buf r_ph r_cur r_keys]. split; [|auto].
        unfold buf_inv; cbn. unfold is32, W32, STATIC_BUFFER_LEN. repeat split; lia.
      - split; [exact I|]. cbn [call_effect]. split; [assumption|].
        split; [exact F2|]. split; [assumption|]. cbn [r_ph r_keys r_seq r_msgs r_cnt]. split; [rewrite F2; reflexivity|].
        rewrite NK. destruct (hr_keys R); [assumption|]. destruct Q as (-> & ->). rewrite F3. auto. }
    set (kc := match hr_keys R with Some k => (k, 0, 0) | None => (r_keys s, r_cnt s, r_msgs s) end).
    assert (Hkc : keys_ok (fst (fst kc)) /\
       match hr_keys R with Some k' => fst (fst kc) = k' /\ snd (fst kc) = 0 /\ add32 (snd kc) 1 = 1
                          | None => fst (fst kc) = r_keys s /\ add32 (snd kc) 1 = add32 (r_msgs s) 1 end).
    { unfold kc. destruct (hr_keys R); [split; [apply HA2; reflexivity|auto]|auto]. }
    destruct kc as [[k cnt] msgs]. cbn [fst snd] in Hkc. destruct Hkc as (Hk1 & Hk2).
    match goal with |- context [a_highwater A ?a ?b ?c] => destruct (a_highwater A a b c) as [hw h'] end.
    cbn [r_buf r_ph r_cur r_keys r_seq r_cnt r_msgs r_err r_app b_data b_idx b_cap b_dyn].
    match goal with |- context [ShrinkBuffer ?b true] => specialize (FIN WS_SUCCESS k cnt (add32 msgs 1) b h' eq_refl Hk1 Hk2) end.
    unfold ShrinkBuffer in *. cbn [andb negb] in *. exact FIN.
  Qed.

  Lemma rx_finish_safe : forall s0 s net, from s0 s -> rx_inv s -> r_ph s = PhFinish ->
    call_safe s0 (rx_finish A (k_macSz (r_keys s)) (k_block (r_keys s)) s net).
  Proof.
    intros s0 s net F Hinv Hp. pose proof F as (F1 & F2 & F3 & F4).
    destruct Hinv as (Hb & Hk & Hph). rewrite Hp in Hph. cbv zeta in Hph.
    destruct Hph as (B1 & B3). destruct (keys_ok_sizes _ _ Hk) as (K1 & K2 & K3 & K4).
    assert (B3' : r_cur s <= 35000) by (unfold MAX_PACKET_SZ in B3; lia).
    set (k := r_keys s) in *.
    unfold rx_finish. fold k.
    assert (Ea : add32 4 (r_cur s) = 4 + r_cur s) by (apply add32_small; unfold W32; lia).
    assert (Eb : add32 (4 + r_cur s) (k_macSz k) = 4 + r_cur s + k_macSz k) by (apply add32_small; unfold W32; lia).
    rewrite Ea, Eb.
    assert (INVF : forall b (k' : keys C) cnt e, buf_inv b -> keys_ok k' -> same_algs k' k -> k_block k <= lenN (unread b) ->
       let s' := mkRx b PhFinish (r_cur s) k' (r_seq s) cnt (r_msgs s) e (r_app s) in
       forall r n, call_safe s0 (RxRet r s' n [])).
    { intros b k' cnt e Hb' Hk' Hs Hl s' r n. pose proof Hs as (_ & _ & E3 & E4 & _). apply safe_stop.
      - split; [eapply same_algs_trans; eassumption|auto].
      - unfold rx_inv, s'; cbn [r_buf r_keys r_ph r_cur]. split; [assumption|]. split; [assumption|].
        cbv zeta. rewrite E3, E4. auto.
      - exact I. }
    pose proof (GetInputData_any (r_buf s) net (4 + r_cur s + k_macSz k) Hb) as G.
    destruct (GetInputData (r_buf s) net (4 + r_cur s + k_macSz k)) as [b n|b n|e b n| |];
      (assert (G' := G ltac:(unfold W32; lia)); clear G); try contradiction;
      destruct G' as (G1 & (t & G2) & G3).
    2: { apply INVF; auto using same_algs_refl. rewrite G2, lenN_app. lia. }
    2: { apply INVF; auto using same_algs_refl. rewrite G2, lenN_app. lia. }
    set (u := unread b) in *.
    assert (Hu : 4 + r_cur s + k_macSz k <= lenN u) by lia.
    assert (Hu2 : k_block k <= lenN u) by lia. clear t G2.
    destruct (k_aead k) eqn:Ead; cbn [negb].
    - (* AEAD *)
      rewrite <- (N.add_0_r (b_idx b)) at 1. rewrite rdn_off_unread by (assumption || fold u; lia).
      rewrite rdn_off_unread by (assumption || fold u; lia).
      replace (b_idx b + 4 + r_cur s) with (b_idx b + (4 + r_cur s)) by lia.
      rewrite rdn_off_unread by (assumption || fold u; lia). fold u. rewrite dropN_0.
      destruct (r_cur s =? 0) eqn:Z.
      { cbn [fatal r_buf r_ph r_cur r_keys r_seq r_cnt r_msgs r_app]. apply INVF; auto using same_algs_refl. }
      destruct (is_gcm (k_enc k)) eqn:Eg; cbn [negb].
      2: { cbn [fatal r_buf r_ph r_cur r_keys r_seq r_cnt r_msgs r_app]. apply INVF; [assumption|exact Hk|apply same_algs_iv|assumption]. }
      destruct (c_open C (k_cst k) (k_iv k) (takeN 4 u) (takeN (r_cur s) (dropN 4 u)) (takeN (k_macSz k) (dropN (4 + r_cur s) u))) as [pt|] eqn:Eo.
      2: { cbn [fatal r_buf r_ph r_cur r_keys r_seq r_cnt r_msgs r_app]. apply INVF; [assumption|exact Hk|apply same_algs_iv|assumption]. }
      pose proof (co_open_len _ HC _ _ _ _ _ _ Eo) as Lpt. rewrite lenN_takeN, lenN_dropN in Lpt.
      assert (Lp : lenN pt = r_cur s) by lia.
      destruct (unread_overwrite b 4 pt G1) as (O1 & O2 & O3); [fold u; lia|]. fold u in O2. rewrite Lp in O2.
      set (b2 := set_data b (overwrite (b_data b) (b_idx b + 4) pt)) in *.
      set (s2 := mkRx b2 PhPacket (r_cur s) (set_iv k (AeadIncrementExpIv (k_iv k))) (r_seq s)
                      (add32 (r_cnt s) (r_cur s)) (r_msgs s) (r_err s) (r_app s)).
      assert (L2 : lenN (unread b2) = lenN u).
      { rewrite O2, !lenN_app, lenN_takeN, lenN_dropN, Lp. lia. }
      apply (rx_packet_safe s0 s2 n).
      { split; [|auto]. eapply same_algs_trans; [apply same_algs_iv|exact F1]. }
      { unfold rx_inv, s2; cbn [r_buf r_keys r_ph r_cur]. split; [assumption|]. split; [exact Hk|].
        cbv zeta. rewrite L2. cbn [set_iv k_block k_macSz]. lia. }
      { reflexivity. }
      { unfold verified, s2; cbn [r_buf r_keys r_ph r_cur r_seq]. unfold authentic. cbv zeta.
        cbn [set_iv k_aead k_macSz k_cst k_iv]. rewrite Ead. exists (k_iv k), (takeN (r_cur s) (dropN 4 u)).
        split; [reflexivity|]. rewrite O2.
        assert (T4 : lenN (takeN 4 u) = 4) by (rewrite lenN_takeN; lia).
        rewrite (takeN_app_exact _ 4) by auto. rewrite (dropN_app_exact _ 4) by auto.
        rewrite (takeN_app_exact _ (r_cur s)) by auto.
        rewrite <- (dropN_dropN _ (r_cur s) 4). rewrite (dropN_app_exact _ 4) by auto.
        rewrite (dropN_app_exact _ (r_cur s)) by auto.
        exact Eo. }
    - (* cipher and MAC *)
      assert (Er : add32 (r_cur s) 4 = 4 + r_cur s) by (rewrite add32_small by (unfold W32; lia); lia).
      rewrite Er.
      assert (TAIL : forall r (k' : keys C) d cnt pt,
        buf_inv (set_data b d) -> lenN pt = 4 + r_cur s ->
        unread (set_data b d) = pt ++ dropN (4 + r_cur s) u ->
        (exists c, k' = set_cst k c) ->
        call_safe s0
          (match rdn d (b_idx b) (4 + r_cur s), rdn d (b_idx b + 4 + r_cur s) (k_macSz k) with
           | Some pt, Some tag =>
               let v := VerifyMac k' (r_seq s) pt tag in
               let s' := mkRx (set_data b d) PhFinish (r_cur s) k' (r_seq s) cnt (r_msgs s) (r_err s) (r_app s) in
               if negb (rc_eqb r WS_SUCCESS) then fatal s' r n
               else if negb (rc_eqb v WS_SUCCESS) then fatal s' v n
               else rx_packet A (k_macSz k) (mkRx (set_data b d) PhPacket (r_cur s) k' (r_seq s) cnt (r_msgs s) (r_err s) (r_app s)) n
           | _, _ => RxOob
           end)).
      { intros r k' d cnt pt Hd Lpt Eu2 (c & Ek).
        assert (Lu2 : lenN (unread (set_data b d)) = lenN u) by (rewrite Eu2, lenN_app, lenN_dropN, Lpt; lia).
        assert (R1 : rdn d (b_idx b) (4 + r_cur s) = Some pt).
        { pose proof (rdn_off_unread (set_data b d) 0 (4 + r_cur s) Hd ltac:(lia)) as R.
          cbn [set_data b_data b_idx] in R. rewrite N.add_0_r in R. rewrite R, dropN_0, Eu2.
          f_equal. apply takeN_app_exact. lia. }
        assert (R2 : rdn d (b_idx b + 4 + r_cur s) (k_macSz k) = Some (takeN (k_macSz k) (dropN (4 + r_cur s) u))).
        { pose proof (rdn_off_unread (set_data b d) (4 + r_cur s) (k_macSz k) Hd ltac:(lia)) as R.
          cbn [set_data b_data b_idx] in R. replace (b_idx b + 4 + r_cur s) with (b_idx b + (4 + r_cur s)) by lia.
          rewrite R, Eu2. f_equal. f_equal. apply dropN_app_exact. lia. }
        rewrite R1, R2. cbv zeta.
        assert (Hk' : keys_ok k') by (rewrite Ek; exact Hk).
        assert (E1 : k_macSz k' = k_macSz k) by (rewrite Ek; reflexivity).
        assert (E2 : k_block k' = k_block k) by (rewrite Ek; reflexivity).
        assert (SA : same_algs k' k) by (rewrite Ek; apply same_algs_cst; assumption).
        destruct (rc_eqb r WS_SUCCESS) eqn:E3; cbn [negb].
        2: { cbn [fatal r_buf r_ph r_cur r_keys r_seq r_cnt r_msgs r_app]. apply (INVF (set_data b d)); [assumption|assumption|assumption|apply (N.le_trans _ (lenN u)); [assumption|apply N.eq_le_incl; symmetry; exact Lu2]]. }
        destruct (rc_eqb (VerifyMac k' (r_seq s) pt (takeN (k_macSz k) (dropN (4 + r_cur s) u))) WS_SUCCESS) eqn:E4; cbn [negb].
        2: { cbn [fatal r_buf r_ph r_cur r_keys r_seq r_cnt r_msgs r_app]. apply (INVF (set_data b d)); [assumption|assumption|assumption|apply (N.le_trans _ (lenN u)); [assumption|apply N.eq_le_incl; symmetry; exact Lu2]]. }
        set (s2 := mkRx (set_data b d) PhPacket (r_cur s) k' (r_seq s) cnt (r_msgs s) (r_err s) (r_app s)).
        rewrite <- E1. apply (rx_packet_safe s0 s2 n).
        { split; [|auto]. eapply same_algs_trans; [exact SA|exact F1]. }
        { unfold rx_inv, s2; cbn [r_buf r_keys r_ph r_cur]. split; [assumption|]. split; [assumption|].
          cbv zeta. rewrite Lu2, E1, E2. lia. }
        { reflexivity. }
        { unfold verified, s2; cbn [r_buf r_keys r_ph r_cur r_seq]. unfold authentic. cbv zeta.
          replace (k_aead k') with false by (rewrite Ek; symmetry; exact Ead).
          rewrite Eu2, E1. rewrite (takeN_app_exact _ (4 + r_cur s)) by auto. rewrite (dropN_app_exact _ (4 + r_cur s)) by auto.
          apply rc_eqb_eq in E4. unfold VerifyMac in E4.
          destruct (N.eqb_spec (k_mac k') ID_NONE) as [Q|Q]; [left; assumption|right].
          destruct ((k_mac k' =? ID_HMAC_SHA1) || (k_mac k' =? ID_HMAC_SHA1_96) || (k_mac k' =? ID_HMAC_SHA2_256) || (k_mac k' =? ID_HMAC_SHA2_512)); [|discriminate].
          rewrite E1 in E4.
          destruct (bytes_eqb (takeN (k_macSz k) (c_mac C (k_mkey k') (r_seq s) pt)) (takeN (k_macSz k) (dropN (4 + r_cur s) u))) eqn:Q2;
            [|discriminate].
          apply bytes_eqb_eq in Q2. symmetry. exact Q2. } }
      destruct (N.ltb_spec (k_block k) (4 + r_cur s)) as [Lb|Lb].
      + assert (Es : sub32 (4 + r_cur s) (k_block k) = 4 + r_cur s - k_block k) by (apply sub32_small; unfold W32; lia).
        rewrite Es. rewrite rdn_off_unread by (assumption || fold u; lia). fold u.
        destruct (Decrypt k (takeN (4 + r_cur s - k_block k) (dropN (k_block k) u))) as [[r k'] pt] eqn:D.
        destruct (Decrypt_keeps _ _ _ _ _ _ HC D) as (Lp & Ek). rewrite lenN_takeN, lenN_dropN in Lp.
        assert (Lp' : lenN pt = 4 + r_cur s - k_block k) by lia.
        destruct (unread_overwrite b (k_block k) pt G1) as (O1 & O2 & O3); [fold u; lia|]. fold u in O2. rewrite Lp' in O2.
        apply (TAIL r k' _ _ (takeN (k_block k) u ++ pt)).
        { assumption. }
        { rewrite lenN_app, lenN_takeN. lia. }
        { rewrite O2, <- app_assoc. replace (k_block k + (4 + r_cur s - k_block k)) with (4 + r_cur s) by lia. reflexivity. }
        { assumption. }
      + assert (Esd : set_data b (b_data b) = b) by (destruct b; reflexivity).
        apply (TAIL WS_SUCCESS k _ _ (takeN (4 + r_cur s) u)).
        { rewrite Esd. assumption. }
        { rewrite lenN_takeN. lia. }
        { rewrite Esd. fold u. symmetry. apply takeN_dropN. }
        { exists (k_cst k). destruct k; reflexivity. }
  Qed.

  Lemma rx_length_safe : forall s0 s net, from s0 s -> rx_inv s -> r_ph s = PhLength ->
    call_safe s0 (rx_length A (k_macSz (r_keys s)) (k_block (r_keys s)) s net).
  Proof.
    intros s0 s net F Hinv Hp. pose proof Hinv as (Hb & Hk & Hph). rewrite Hp in Hph. cbv zeta in Hph.
    destruct (keys_ok_sizes _ _ Hk) as (K1 & K2 & K3 & K4). pose proof Hb as (I1 & I2 & I3 & I4).
    assert (Lu : b_idx (r_buf s) + lenN (unread (r_buf s)) = b_len (r_buf s)) by (rewrite lenN_unread; lia).
    unfold rx_length.
    assert (E4 : add32 (b_idx (r_buf s)) 4 = b_idx (r_buf s) + 4) by (apply add32_small; unfold is32 in *; lia).
    rewrite E4. destruct (N.ltb_spec (b_cap (r_buf s)) (b_idx (r_buf s) + 4)) as [L|L]; [lia|].
    rewrite <- (N.add_0_r (b_idx (r_buf s))) at 1. rewrite rdn_off_unread by (assumption || lia). rewrite dropN_0.
    set (cur := match ato32 (takeN 4 (unread (r_buf s))) 0 with Some v => v | None => 0 end).
    assert (Em : sub32 (sub32 MAX_PACKET_SZ (k_macSz (r_keys s))) 4 = MAX_PACKET_SZ - k_macSz (r_keys s) - 4).
    { unfold MAX_PACKET_SZ. rewrite (sub32_small 35000) by (unfold W32; lia). apply sub32_small; unfold W32; lia. }
    rewrite Em. destruct (N.ltb_spec (MAX_PACKET_SZ - k_macSz (r_keys s) - 4) cur) as [Lc|Lc].
    - cbn [fatal r_buf r_ph r_cur r_keys r_seq r_cnt r_msgs r_app]. apply safe_stop.
      + exact F.
      + unfold rx_inv; cbn [r_buf r_keys r_ph r_cur]. rewrite Hp. auto.
      + unfold verified; cbn [r_ph]. rewrite Hp. exact I.
    - set (s2 := mkRx (r_buf s) PhFinish cur (r_keys s) (r_seq s) (r_cnt s) (r_msgs s) (r_err s) (r_app s)).
      apply (rx_finish_safe s0 s2 net).
      + exact F.
      + unfold rx_inv, s2; cbn [r_buf r_keys r_ph r_cur]. auto.
      + reflexivity.
  Qed.

  (* one call *)
  Theorem DoReceive_safe : forall s net, rx_inv s -> verified s -> call_safe s (DoReceive A s net).
  Proof.
    intros s net Hinv Hv. pose proof Hinv as (Hb & Hk & Hph).
    destruct (keys_ok_sizes _ _ Hk) as (K1 & K2 & K3 & K4).
    unfold DoReceive. destruct (r_ph s) eqn:Hp.
    - set (k := r_keys s) in *.
      assert (FK : forall b p (k' : keys C) c e, same_algs k' k -> from s (mkRx b p (r_cur s) k' (r_seq s) c (r_msgs s) e (r_app s))).
      { intros b p k' c e Hs. split; [exact Hs|auto]. }
      pose proof (GetInputData_any (r_buf s) net (k_block k) Hb) as G.
      destruct (GetInputData (r_buf s) net (k_block k)) as [b n|b n|e b n| |];
        (assert (G' := G ltac:(unfold W32; lia)); clear G); try contradiction;
        destruct G' as (G1 & (t & G2) & G3).
      2: { apply safe_stop; [apply FK; apply same_algs_refl| |exact I]. unfold rx_inv; cbn [r_buf r_keys r_ph]; auto. }
      2: { apply safe_stop; [apply FK; apply same_algs_refl| |exact I]. unfold rx_inv; cbn [r_buf r_keys r_ph]; auto. }
      set (u := unread b) in *.
      destruct (k_aead k) eqn:Ea; cbn [negb].
      + set (s2 := mkRx b PhLength (r_cur s) k (r_seq s) (r_cnt s) (r_msgs s) (r_err s) (r_app s)).
        apply (rx_length_safe s s2 n).
        * apply FK; apply same_algs_refl.
        * unfold rx_inv, s2; cbn [r_buf r_keys r_ph r_cur]. split; [assumption|]. split; [assumption|]. cbv zeta. fold u. lia.
        * reflexivity.
      + pose proof (rdn_off_unread b 0 (k_block k) G1) as R. fold u in R. rewrite N.add_0_r, dropN_0 in R.
        rewrite R by lia.
        destruct (Decrypt k (takeN (k_block k) u)) as [[r k'] pt] eqn:D.
        destruct (Decrypt_keeps _ _ _ _ _ _ HC D) as (Lp & c & Ek). rewrite lenN_takeN in Lp.
        assert (Lp' : lenN pt = k_block k) by lia.
        destruct (unread_overwrite b 0 pt G1) as (O1 & O2 & O3); [fold u; lia|]. fold u in O2.
        rewrite N.add_0_r in O1, O2, O3. rewrite Lp', N.add_0_l, takeN_0 in O2. cbn [app] in O2.
        assert (L2 : lenN (unread (set_data b (overwrite (b_data b) (b_idx b) pt))) = lenN u).
        { rewrite O2, lenN_app, lenN_dropN, Lp'. lia. }
        assert (Hk' : keys_ok k') by (rewrite Ek; exact Hk).
        assert (E1 : k_macSz k' = k_macSz k) by (rewrite Ek; reflexivity).
        assert (E2 : k_block k' = k_block k) by (rewrite Ek; reflexivity).
        assert (SA : same_algs k' k) by (rewrite Ek; apply same_algs_cst; assumption).
        set (s2 := mkRx (set_data b (overwrite (b_data b) (b_idx b) pt)) PhLength (r_cur s) k' (r_seq s)
                        (add32 (r_cnt s) (k_block k)) (r_msgs s) (r_err s) (r_app s)).
        assert (Hi2 : rx_inv s2).
        { unfold rx_inv, s2; cbn [r_buf r_keys r_ph r_cur]. split; [assumption|]. split; [assumption|].
          cbv zeta. rewrite L2, E2. lia. }
        destruct (rc_eqb r WS_SUCCESS) eqn:E3; cbn [negb].
        * pose proof (rx_length_safe s s2 n (FK _ _ _ _ _ SA) Hi2 eq_refl) as FF.
          change (r_keys s2) with k' in FF. rewrite E1, E2 in FF. exact FF.
        * unfold fatal. apply safe_stop; [apply FK; exact SA| |exact I]. exact Hi2.
    - apply rx_length_safe; auto using from_refl.
    - apply rx_finish_safe; auto using from_refl.
    - apply rx_packet_safe; auto using from_refl.
  Qed.
End Safe.
