(* PacketProofs.v - reception refines the stream specification. *)
From Verif Require Import Base WireModel WireSpec WireProofs NameTable NegoModel BufModel BufSpec BufProofs
  PacketModel IoSpec IoProofs PacketSpec.
From Coq Require Import List NArith Lia Bool ZifyBool ZifyNat ZifyN.
Import ListNotations.
Open Scope N_scope.

Lemma keys_ok_sizes : forall C (k : keys C), keys_ok k ->
  8 <= k_block k /\ k_block k <= 16 /\ k_macSz k <= 64 /\ k_block k <= 10 + k_macSz k.
Proof.
  intros C k [(_ & _ & -> & -> & _)|[(_ & Hm & -> & -> & _)|(_ & _ & -> & -> & _)]]; try (repeat split; lia).
  destruct Hm as [-> | [-> | [-> | ->]]]; vm_compute; repeat split; congruence.
Qed.
Lemma keys_ok_set_cst : forall C (k : keys C) c, keys_ok k -> keys_ok (set_cst k c).
Proof. intros C k c H; exact H. Qed.
Lemma keys_ok_set_iv : forall C (k : keys C) c, keys_ok k -> keys_ok (set_iv k c).
Proof. intros C k c H; exact H. Qed.

(* what Decrypt keeps *)
Lemma Decrypt_keeps : forall C (k : keys C) d r k' d', crypto_len C -> Decrypt k d = (r, k', d') ->
  lenN d' = lenN d /\ (exists c, k' = set_cst k c).
Proof.
  intros C k d r k' d' Hc E. unfold Decrypt, Crypt in E.
  assert (Id : k = set_cst k (k_cst k)) by (destruct k; reflexivity).
  destruct (lenN d =? 0); [injection E as _ <- <-; eauto|].
  destruct (k_enc k =? ID_NONE); [injection E as _ <- <-; eauto|].
  destruct (is_block_cipher (k_enc k)); [|injection E as _ <- <-; eauto].
  destruct (negb (lenN d mod 16 =? 0)); [injection E as _ <- <-; eauto|].
  destruct (c_dec C (k_cst k) d) as [[c d1]|] eqn:D; injection E as _ <- <-; eauto.
  split; [eapply co_dec_len; eassumption|eauto].
Qed.

(* reading through the index *)
Lemma rd_unread : forall b i, rd (b_data b) (b_idx b + i) = rd (unread b) i.
Proof.
  intros b i. unfold unread, rd, dropN.
  replace (N.to_nat (b_idx b + i)) with (N.to_nat (b_idx b) + N.to_nat i)%nat by lia.
  generalize (N.to_nat (b_idx b)) as n, (N.to_nat i) as m, (b_data b) as l.
  induction n as [|n IH]; intros m l; [reflexivity|]. destruct l as [|x l]; cbn; [destruct m; reflexivity|apply IH].
Qed.
Lemma rdn_off_unread : forall b o n, buf_inv b -> o + n <= lenN (unread b) ->
  rdn (b_data b) (b_idx b + o) n = Some (takeN n (dropN o (unread b))).
Proof.
  intros b o n (H1 & _) H. unfold rdn. rewrite lenN_unread in H.
  destruct (N.leb_spec (b_idx b + o + n) (lenN (b_data b))) as [L|L]; [|unfold b_len in *; lia].
  unfold unread. rewrite dropN_dropN. reflexivity.
Qed.
Lemma unread_overwrite : forall b o d, buf_inv b -> o + lenN d <= lenN (unread b) ->
  let b' := set_data b (overwrite (b_data b) (b_idx b + o) d) in
  buf_inv b' /\ unread b' = takeN o (unread b) ++ d ++ dropN (o + lenN d) (unread b) /\ b_idx b' = b_idx b.
Proof.
  intros b o d (H1 & H2 & H3 & H4) H b'. rewrite lenN_unread in H.
  assert (El : lenN (overwrite (b_data b) (b_idx b + o) d) = lenN (b_data b)).
  { unfold overwrite. rewrite !lenN_app, lenN_takeN, lenN_dropN. unfold b_len in *. lia. }
  split; [|split; [|reflexivity]].
  - unfold buf_inv, b', set_data, b_len in *; cbn [b_data b_idx b_cap]. rewrite El. auto.
  - unfold unread, b', set_data; cbn [b_data b_idx]. unfold overwrite.
    rewrite dropN_app_l by (rewrite lenN_takeN; unfold b_len in *; lia).
    rewrite dropN_dropN. replace (b_idx b + (o + lenN d)) with (b_idx b + o + lenN d) by lia. f_equal.
    rewrite takeN_add. rewrite dropN_app_r by (rewrite lenN_takeN; unfold b_len in *; lia).
    rewrite lenN_takeN. replace (b_idx b - N.min (b_idx b) (lenN (b_data b))) with 0 by (unfold b_len in *; lia).
    reflexivity.
Qed.

(* ---- GetInputData ---------------------------------------------------- *)
Lemma gid_loop_spec : forall fuel b net size, buf_inv b -> b_idx b = 0 -> b_len b + size <= b_cap b ->
  0 < size -> size <= N.of_nat fuel -> no_err net ->
  match gid_loop fuel b net size with
  | GOk b' n => buf_inv b' /\ no_err n /\ unread b' ++ stream n = unread b ++ stream net /\
                lenN (unread b') = lenN (unread b) + size
  | GBlock b' n => buf_inv b' /\ no_err n /\ unread b' ++ stream n = unread b ++ stream net /\
                lenN (unread b') < lenN (unread b) + size /\ lenN (unread b) <= lenN (unread b')
  | _ => False
  end.
Proof.
  induction fuel as [|fuel IH]; intros b net size Hi Hx Hr Hs Hf Hn; cbn [gid_loop]; [lia|].
  pose proof (ReceiveData_spec net size Hn Hs) as R.
  destruct (ReceiveData net size) as [d n|n|n]; [|destruct R as (R1 & R2)|contradiction].
  - destruct R as (R1 & R2 & R3 & R4).
    destruct (put_end_spec b d Hi) as (b2 & E2 & Hi2 & Eu2 & Ex2 & Ed2 & Ec2); [lia|]. rewrite E2.
    pose proof Hi as (_ & _ & W & _).
    assert (Es : sub32 size (lenN d) = size - lenN d) by (apply sub32_small; unfold is32 in *; lia).
    rewrite Es. assert (Lu : lenN (unread b2) = lenN (unread b) + lenN d) by (rewrite Eu2, lenN_app; reflexivity).
    destruct (N.eqb_spec (size - lenN d) 0) as [Z|Z].
    + split; [assumption|]. split; [assumption|]. split; [rewrite Eu2, R3, <- app_assoc; reflexivity|lia].
    + specialize (IH b2 n (size - lenN d)).
      assert (El2 : b_len b2 = b_len b + lenN d) by (unfold b_len; rewrite Ed2, lenN_app; reflexivity).
      destruct (gid_loop fuel b2 n (size - lenN d)) as [b' n'|b' n'| | |];
        apply IH in Hi2; try lia; try assumption.
      * destruct Hi2 as (K1 & K2 & K3 & K4). split; [assumption|]. split; [assumption|].
        split; [rewrite K3, Eu2, R3, <- app_assoc; reflexivity|lia].
      * destruct Hi2 as (K1 & K2 & K3 & K4 & K5). split; [assumption|]. split; [assumption|].
        split; [rewrite K3, Eu2, R3, <- app_assoc; reflexivity|lia].
  - rewrite R1. do 2 (split; [assumption|]). split; [reflexivity|lia].
Qed.

Lemma GetInputData_spec : forall b net size, buf_inv b -> no_err net -> size < W32 ->
  match GetInputData b net size with
  | GOk b' n => buf_inv b' /\ no_err n /\ unread b' ++ stream n = unread b ++ stream net /\
                lenN (unread b') = N.max (lenN (unread b)) size
  | GBlock b' n => buf_inv b' /\ no_err n /\ unread b' ++ stream n = unread b ++ stream net /\
                lenN (unread b') < size /\ lenN (unread b) <= lenN (unread b')
  | _ => False
  end.
Proof.
  intros b net size Hi Hn Hs. unfold GetInputData. rewrite (sub32_used b Hi).
  destruct (N.leb_spec size (lenN (unread b))) as [L|L].
  - do 2 (split; [assumption|]). split; [reflexivity|lia].
  - assert (Es : sub32 size (lenN (unread b)) = size - lenN (unread b)) by (apply sub32_small; lia).
    rewrite Es.
    destruct (GrowBuffer_spec true b (size - lenN (unread b)) Hi) as (r & b1 & E & [K|(_ & K & _)]);
      [lia| |discriminate].
    destruct K as (-> & Hi1 & Eu1 & Ex1 & Ed1 & Hr1 & _). rewrite E.
    change (rc_eqb WS_SUCCESS WS_SUCCESS) with true. cbv iota.
    pose proof (gid_loop_spec (N.to_nat (size - lenN (unread b))) b1 net (size - lenN (unread b)) Hi1 Ex1) as G.
    destruct (gid_loop (N.to_nat (size - lenN (unread b))) b1 net (size - lenN (unread b))) as [b' n|b' n|e b' n| |];
      rewrite ?Eu1 in G; (assert (G' := G ltac:(lia) ltac:(lia) ltac:(lia) Hn)); try contradiction.
    + destruct G' as (G1 & G2 & G3 & G4). do 3 (split; [assumption|]). lia.
    + destruct G' as (G1 & G2 & G3 & G4 & G5). do 3 (split; [assumption|]). lia.
Qed.

(* ---- DoPacket -------------------------------------------------------- *)
Section Rx.
  Context {C : crypto} {H : Type}.
  Variable A : applib C H.
  Hypothesis HC : crypto_len C.
  Hypothesis HA : app_ok A.
  Implicit Types s : rxst C H.

  Lemma six : forall (u : bytes), 8 <= lenN u -> exists a b c d p m r, u = a :: b :: c :: d :: p :: m :: r.
  Proof.
    intros u Hu. do 6 (destruct u as [|? u]; [vm_compute in Hu; exfalso; apply Hu; reflexivity|]).
    repeat eexists.
  Qed.

  (* the outcome of rx_packet against the specification, where the stream is
     what is buffered and what is still to come *)
  Lemma rx_packet_spec : forall s net, rx_inv s -> r_ph s = PhPacket -> no_err net ->
    lenN (unread (r_buf s)) <= N.max (k_block (r_keys s)) (4 + r_cur s + k_macSz (r_keys s)) ->
    exists r s' log, rx_packet A (k_macSz (r_keys s)) s net = RxRet r s' net log /\ rx_inv s' /\
      match sp_packet A (k_macSz (r_keys s)) (abs s) (unread (r_buf s) ++ stream net) with
      | SWait => False
      | SStop e l => log = l /\ r_err s' = e /\ r_ph s' = PhPacket /\ r = WS_FATAL_ERROR /\ passes e = false /\
                     unread (r_buf s') = unread (r_buf s)
      | SDone e l a rest => log = l /\ l <> [] /\ r_err s' = e /\ abs s' = a /\ unread (r_buf s') = [] /\ rest = stream net /\
                            r = (if passes e then e else WS_FATAL_ERROR)
      end.
  Proof.
    intros s net Hinv Hp Hn Ht. destruct Hinv as (Hb & Hk & Hph). rewrite Hp in Hph. cbv zeta in Hph.
    destruct Hph as (B1 & B2 & B3). destruct (keys_ok_sizes _ _ Hk) as (K1 & K2 & K3 & K4).
    pose proof Hb as (I1 & I2 & I3 & I4).
    assert (Lu : b_idx (r_buf s) + lenN (unread (r_buf s)) = b_len (r_buf s)) by (rewrite lenN_unread; lia).
    unfold MAX_PACKET_SZ, is32 in *.
    destruct (six (unread (r_buf s))) as (x1 & x2 & x3 & x4 & pad & msg & body & Eu); [lia|].
    assert (E4 : add32 (b_idx (r_buf s)) 4 = b_idx (r_buf s) + 4) by (apply add32_small; lia).
    assert (E5 : add32 (b_idx (r_buf s) + 4) 1 = b_idx (r_buf s) + 5) by (rewrite add32_small; lia).
    assert (E6 : add32 (b_idx (r_buf s) + 5) 1 = b_idx (r_buf s) + 6) by (rewrite add32_small; lia).
    unfold rx_packet, DoPacket. rewrite E4, E5, E6, !rd_unread, Eu.
    change (rd (x1 :: x2 :: x3 :: x4 :: pad :: msg :: body) 4) with (Some pad).
    change (rd (x1 :: x2 :: x3 :: x4 :: pad :: msg :: body) 5) with (Some msg).
    cbv iota. cbn [app sp_packet]. change (s_cur (abs s)) with (r_cur s). change (s_app (abs s)) with (r_app s).
    change (s_seq (abs s)) with (r_seq s). change (s_keys (abs s)) with (r_keys s).
    change (s_cnt (abs s)) with (r_cnt s). change (s_msgs (abs s)) with (r_msgs s).
    assert (KEEP : forall e (h : H), rx_inv (mkRx (r_buf s) (r_ph s) (r_cur s) (r_keys s) (r_seq s) (r_cnt s) (r_msgs s) e h)).
    { intros e h. unfold rx_inv; cbn [r_buf r_keys r_ph r_cur]. rewrite Hp. auto. }
    unfold MIN_PAD_LENGTH.
    destruct (pad <? 4) eqn:P4.
    { do 3 eexists. split; [reflexivity|]. split; [apply KEEP|]. cbn. repeat split; auto. }
    destruct (r_cur s <? 1 + pad + 1) eqn:P5.
    { do 3 eexists. split; [reflexivity|]. split; [apply KEEP|]. cbn. repeat split; auto. }
    apply N.ltb_ge in P4. apply N.ltb_ge in P5.
    assert (EP : sub32 (sub32 (sub32 (r_cur s) 1) pad) 1 = r_cur s - pad - 2).
    { rewrite (sub32_small (r_cur s) 1) by (unfold W32; lia). rewrite (sub32_small (r_cur s - 1) pad) by (unfold W32; lia).
      rewrite sub32_small by (unfold W32; lia). lia. }
    rewrite EP. set (psz := r_cur s - pad - 2) in *.
    assert (Hbody : psz + pad + k_macSz (r_keys s) <= lenN body).
    { assert (lenN (unread (r_buf s)) = 6 + lenN body) by (rewrite Eu, !lenN_cons; lia). unfold psz. lia. }
    assert (Ea : add32 psz (b_idx (r_buf s) + 6) = psz + (b_idx (r_buf s) + 6)).
    { apply add32_small. assert (lenN (unread (r_buf s)) = 6 + lenN body) by (rewrite Eu, !lenN_cons; lia). lia. }
    rewrite Ea.
    destruct (b_cap (r_buf s) <? psz + (b_idx (r_buf s) + 6)) eqn:P6.
    { exfalso. apply N.ltb_lt in P6. assert (lenN (unread (r_buf s)) = 6 + lenN body) by (rewrite Eu, !lenN_cons; lia). lia. }
    destruct (psz + (b_idx (r_buf s) + 6) <? psz) eqn:P7; [apply N.ltb_lt in P7; lia|]. cbn [orb].
    destruct (a_allowed A (r_app s) msg) as [ok h].
    cbn [r_buf r_ph r_cur r_keys r_seq r_cnt r_msgs r_err].
    destruct ok; cbn [negb].
    2: { do 3 eexists. split; [reflexivity|]. split; [apply KEEP|]. cbn. repeat split; auto. }
    replace (rdn (b_data (r_buf s)) (b_idx (r_buf s) + 6) psz) with (Some (takeN psz body)).
    2: { rewrite rdn_off_unread; [|assumption|rewrite Eu, !lenN_cons; lia]. rewrite Eu. reflexivity. }
    rewrite (takeN_app_l _ psz body (stream net)) by lia.
    cbv iota. set (R := a_handle A h msg (takeN psz body)).
    pose proof (proj2 HA h msg (takeN psz body)) as HA1. destruct (proj1 HA h msg (takeN psz body)) as (HA2 & HA3). fold R in HA1, HA2, HA3.
    rewrite lenN_takeN in HA1.
    destruct (rc_eqb (hr_rc R) WS_AUTH_PENDING) eqn:EP1.
    { apply rc_eqb_eq in EP1. rewrite (HA3 EP1). cbv iota.
      do 3 eexists. split; [reflexivity|]. cbn [r_buf r_ph r_cur r_keys r_seq r_cnt r_msgs r_err r_app].
      split; [apply KEEP|]. repeat split; auto. }
    set (kc := match hr_keys R with Some k => (k, 0, 0) | None => (r_keys s, r_cnt s, r_msgs s) end).
    assert (Hkc : keys_ok (fst (fst kc))).
    { unfold kc. destruct (hr_keys R); [apply HA2; reflexivity|assumption]. }
    destruct kc as [[k cnt] msgs]. cbn [fst] in Hkc.
    assert (Hidx : (0 <? psz) && (b_len (r_buf s) <? add32 (if 0 <? psz then add32 (b_idx (r_buf s) + 6) (hr_idx R) else b_idx (r_buf s) + 6) pad) = false).
    { destruct (0 <? psz) eqn:Z; [|reflexivity]. cbn [andb]. apply N.ltb_ge.
      assert (lenN (unread (r_buf s)) = 6 + lenN body) by (rewrite Eu, !lenN_cons; lia).
      rewrite (add32_small (b_idx (r_buf s) + 6)) by lia. rewrite add32_small by lia. lia. }
    rewrite Hidx. destruct (a_highwater A (hr_st R) cnt (add32 msgs 1)) as [hw h'].
    cbn [r_buf r_ph r_cur r_keys r_seq r_cnt r_msgs r_err r_app].
    unfold ShrinkBuffer. cbn [andb negb].
    do 3 eexists. split; [reflexivity|]. split.
    { unfold rx_inv; cbn [r_buf r_ph r_cur r_keys]. split; [|auto].
      unfold buf_inv; cbn. unfold is32, W32, STATIC_BUFFER_LEN. repeat split; lia. }
    cbn [r_buf r_ph r_cur r_keys r_seq r_cnt r_msgs r_err r_app].
    split; [reflexivity|]. split; [discriminate|]. split; [reflexivity|]. split; [reflexivity|]. split; [reflexivity|].
    split; [|reflexivity].
    assert (E : lenN (x1 :: x2 :: x3 :: x4 :: pad :: msg :: body) = 4 + r_cur s + k_macSz (r_keys s)).
    { rewrite Eu in Ht, B2. lia. }
    change (x1 :: x2 :: x3 :: x4 :: pad :: msg :: body ++ stream net)
      with ((x1 :: x2 :: x3 :: x4 :: pad :: msg :: body) ++ stream net).
    apply dropN_app_exact. symmetry; exact E.
  Qed.

  Definition outcome (o : sout C H) (r : rc) s (n : list nev) (log : list handled) : Prop :=
    rx_inv s /\ no_err n /\
    ((log = [] /\ r_err s = WS_WANT_READ /\ r = WS_FATAL_ERROR /\ tight s /\
      sp_receive A (abs s) (unread (r_buf s) ++ stream n) = o /\ (stream n = [] -> o = SWait)) \/
     match o with
     | SWait => False
     | SStop e l => log = l /\ r_err s = e /\ r = WS_FATAL_ERROR /\ passes e = false /\ (l <> [] -> r_ph s = PhPacket)
     | SDone e l a rest => log = l /\ l <> [] /\ r_err s = e /\ abs s = a /\ unread (r_buf s) = [] /\
                           rest = stream n /\ r = (if passes e then e else WS_FATAL_ERROR)
     end).
  Definition call_ok (o : sout C H) (x : rxres C H) : Prop :=
    match x with RxRet r s n log => outcome o r s n log | _ => False end.

  Lemma take_drop_pre : forall (u t : bytes) o m, o + m <= lenN u ->
    takeN m (dropN o (u ++ t)) = takeN m (dropN o u).
  Proof.
    intros u t o m Hm. rewrite dropN_app_l by lia. apply takeN_app_l. rewrite lenN_dropN. lia.
  Qed.

  Lemma take_pre : forall (u t : bytes) m, m <= lenN u -> takeN m (u ++ t) = takeN m u.
  Proof. intros; apply takeN_app_l; assumption. Qed.

  Lemma dec_codes : forall (k : keys C) d r k' d', Decrypt k d = (r, k', d') -> r <> WS_SUCCESS -> passes r = false.
  Proof.
    intros k d r k' d' E Hr. unfold Decrypt, Crypt in E.
    destruct (lenN d =? 0); [injection E as <- _ _; reflexivity|].
    destruct (k_enc k =? ID_NONE); [injection E as <- _ _; congruence|].
    destruct (is_block_cipher (k_enc k)); [|injection E as <- _ _; reflexivity].
    destruct (negb (lenN d mod 16 =? 0)); [injection E as <- _ _; reflexivity|].
    destruct (c_dec C (k_cst k) d) as [[c d1]|]; injection E as <- _ _; [congruence|reflexivity].
  Qed.
  Lemma mac_codes : forall (k : keys C) q d t, VerifyMac k q d t <> WS_SUCCESS -> passes (VerifyMac k q d t) = false.
  Proof.
    intros k q d t Hr. unfold VerifyMac in *.
    destruct (k_mac k =? ID_NONE); [congruence|].
    destruct ((k_mac k =? ID_HMAC_SHA1) || (k_mac k =? ID_HMAC_SHA1_96) || (k_mac k =? ID_HMAC_SHA2_256) || (k_mac k =? ID_HMAC_SHA2_512));
      [|reflexivity].
    destruct (bytes_eqb _ _); [congruence|reflexivity].
  Qed.

  Lemma outcome_of_packet : forall s net w, rx_inv s -> r_ph s = PhPacket -> no_err net -> tight s ->
    w = unread (r_buf s) ++ stream net ->
    call_ok (sp_packet A (k_macSz (r_keys s)) (abs s) w) (rx_packet A (k_macSz (r_keys s)) s net).
  Proof.
    intros s net w Hi Hp Hn Ht ->. unfold tight in Ht. rewrite Hp in Ht. cbv zeta in Ht.
    destruct (rx_packet_spec s net Hi Hp Hn Ht) as (r & s' & log & E & Hi' & K).
    rewrite E. cbn [call_ok]. split; [assumption|]. split; [assumption|]. right.
    destruct (sp_packet A (k_macSz (r_keys s)) (abs s) (unread (r_buf s) ++ stream net)); [assumption| |].
    - destruct K as (K1 & K2 & K3 & K4 & K5 & K6). auto.
    - destruct K as (K1 & K2 & K3 & K4 & K5 & K6 & K7). auto 10.
  Qed.

  Lemma stop_outcome : forall s e n, rx_inv s -> no_err n -> passes e = false -> r_err s = e ->
    outcome (SStop e []) WS_FATAL_ERROR s n [].
  Proof. intros s e n Hi Hn Hp He. split; [assumption|]. split; [assumption|]. right. repeat (split; [assumption || reflexivity|]). congruence. Qed.

  Lemma rx_finish_spec : forall s net, rx_inv s -> r_ph s = PhFinish -> no_err net -> tight s ->
    call_ok (sp_finish A (abs s) (unread (r_buf s) ++ stream net))
            (rx_finish A (k_macSz (r_keys s)) (k_block (r_keys s)) s net).
  Proof.
    intros s net Hinv Hp Hn Ht. destruct Hinv as (Hb & Hk & Hph). rewrite Hp in Hph. cbv zeta in Hph.
    destruct Hph as (B1 & B3). destruct (keys_ok_sizes _ _ Hk) as (K1 & K2 & K3 & K4).
    unfold tight in Ht. rewrite Hp in Ht. cbv zeta in Ht.
    assert (B3' : r_cur s <= 35000) by (unfold MAX_PACKET_SZ in B3; lia).
    set (k := r_keys s) in *. set (w := unread (r_buf s) ++ stream net).
    unfold rx_finish. fold k.
    assert (Ea : add32 4 (r_cur s) = 4 + r_cur s) by (apply add32_small; unfold W32; lia).
    assert (Eb : add32 (4 + r_cur s) (k_macSz k) = 4 + r_cur s + k_macSz k) by (apply add32_small; unfold W32; lia).
    rewrite Ea, Eb.
    pose proof (GetInputData_spec (r_buf s) net (4 + r_cur s + k_macSz k) Hb Hn) as G.
    destruct (GetInputData (r_buf s) net (4 + r_cur s + k_macSz k)) as [b n|b n|e b n| |];
      (assert (G' := G ltac:(unfold W32; lia)); clear G); try contradiction.
    2: { (* blocked *)
      destruct G' as (G1 & G2 & G3 & G4 & G5). cbn [call_ok].
      split. { unfold rx_inv; cbn [r_buf r_keys r_ph r_cur]. split; [assumption|]. split; [assumption|]. cbv zeta. lia. }
      split; [assumption|]. left. cbn [r_err r_buf]. do 3 (split; [reflexivity|]).
      split. { unfold tight; cbn [r_buf r_keys r_ph r_cur]. cbv zeta. lia. }
      split. { fold w in G3. rewrite G3. unfold sp_receive; cbn [abs s_ph r_ph]. unfold abs. rewrite Hp. reflexivity. }
      intros Hz. fold w in G3. rewrite Hz, app_nil_r in G3. unfold sp_finish. change (s_keys (abs s)) with k.
      change (s_cur (abs s)) with (r_cur s). rewrite <- G3.
      destruct (N.ltb_spec (lenN (unread b)) (4 + r_cur s + k_macSz k)); [reflexivity|lia]. }
    destruct G' as (G1 & G2 & G3 & G4). fold w in G3.
    unfold sp_finish. change (s_keys (abs s)) with k. change (s_cur (abs s)) with (r_cur s).
    change (s_seq (abs s)) with (r_seq s). change (s_cnt (abs s)) with (r_cnt s). change (s_msgs (abs s)) with (r_msgs s).
    change (s_app (abs s)) with (r_app s).
    rewrite <- G3. clear w G3.
    destruct (N.ltb_spec (lenN (unread b ++ stream n)) (4 + r_cur s + k_macSz k)) as [L|_];
      [rewrite lenN_app in L; lia|].
    set (u := unread b) in *.
    assert (Hu : 4 + r_cur s + k_macSz k <= lenN u) by lia.
    rewrite (take_drop_pre u _ (4 + r_cur s) (k_macSz k)) by lia.
    rewrite (dropN_app_l _ (4 + r_cur s) u) by lia.
    destruct (k_aead k) eqn:Ead; cbn [negb].
    - (* AEAD *)
      rewrite <- (N.add_0_r (b_idx b)) at 1. rewrite rdn_off_unread by (assumption || fold u; lia).
      rewrite rdn_off_unread by (assumption || fold u; lia).
      replace (b_idx b + 4 + r_cur s) with (b_idx b + (4 + r_cur s)) by lia.
      rewrite rdn_off_unread by (assumption || fold u; lia). fold u. rewrite dropN_0.
      rewrite (take_pre u _ 4) by lia. rewrite (take_drop_pre u _ 4 (r_cur s)) by lia.
      assert (INV0 : forall (k' : keys C) cnt e, keys_ok k' -> k_macSz k' = k_macSz k -> k_block k' = k_block k ->
         rx_inv (mkRx b PhFinish (r_cur s) k' (r_seq s) cnt (r_msgs s) e (r_app s))).
      { intros k' cnt e Hk' E1 E2. unfold rx_inv; cbn [r_buf r_keys r_ph r_cur]. split; [assumption|]. split; [assumption|].
        cbv zeta. fold u. rewrite E1, E2. lia. }
      destruct (r_cur s =? 0) eqn:Z.
      { cbn [call_ok fatal r_buf r_ph r_cur r_keys r_seq r_cnt r_msgs r_app]. apply stop_outcome; auto. }
      destruct (is_gcm (k_enc k)) eqn:Eg; cbn [negb].
      2: { cbn [call_ok fatal r_buf r_ph r_cur r_keys r_seq r_cnt r_msgs r_app]. apply stop_outcome; auto. }
      destruct (c_open C (k_cst k) (k_iv k) (takeN 4 u) (takeN (r_cur s) (dropN 4 u)) (takeN (k_macSz k) (dropN (4 + r_cur s) u))) as [pt|] eqn:Eo.
      2: { cbn [call_ok fatal r_buf r_ph r_cur r_keys r_seq r_cnt r_msgs r_app]. apply stop_outcome; auto. }
      pose proof (co_open_len _ HC _ _ _ _ _ _ Eo) as Lpt. rewrite lenN_takeN, lenN_dropN in Lpt.
      assert (Lp : lenN pt = r_cur s) by lia.
      destruct (unread_overwrite b 4 pt G1) as (O1 & O2 & O3); [fold u; lia|]. fold u in O2. rewrite Lp in O2.
      set (b2 := set_data b (overwrite (b_data b) (b_idx b + 4) pt)) in *.
      set (s2 := mkRx b2 PhPacket (r_cur s) (set_iv k (AeadIncrementExpIv (k_iv k))) (r_seq s)
                      (add32 (r_cnt s) (r_cur s)) (r_msgs s) (r_err s) (r_app s)).
      assert (L2 : lenN (unread b2) = lenN u).
      { rewrite O2, !lenN_app, lenN_takeN, lenN_dropN, Lp. lia. }
      apply (outcome_of_packet s2 n).
      { unfold rx_inv, s2; cbn [r_buf r_keys r_ph r_cur]. split; [assumption|]. split; [exact Hk|].
        cbv zeta. rewrite L2. cbn [set_iv k_block k_macSz]. lia. }
      { reflexivity. }
      { assumption. }
      { unfold tight, s2; cbn [r_buf r_keys r_ph r_cur]. cbv zeta. rewrite L2. cbn [set_iv k_block k_macSz]. lia. }
      { unfold s2; cbn [r_buf]. rewrite O2, <- !app_assoc. reflexivity. }
    - (* cipher and MAC *)
      assert (Er : add32 (r_cur s) 4 = 4 + r_cur s) by (rewrite add32_small by (unfold W32; lia); lia).
      rewrite Er.
      (* the deciphered packet and the state after it *)
      assert (TAIL : forall r k' d cnt pt,
        buf_inv (set_data b d) -> lenN pt = 4 + r_cur s ->
        unread (set_data b d) = pt ++ dropN (4 + r_cur s) u ->
        (exists c, k' = set_cst k c) -> (r <> WS_SUCCESS -> passes r = false) ->
        call_ok
          (if negb (rc_eqb r WS_SUCCESS) then SStop r []
           else if negb (rc_eqb (VerifyMac k' (r_seq s) pt (takeN (k_macSz k) (dropN (4 + r_cur s) u))) WS_SUCCESS)
                then SStop (VerifyMac k' (r_seq s) pt (takeN (k_macSz k) (dropN (4 + r_cur s) u))) []
                else sp_packet A (k_macSz k) (mkA PhPacket (r_cur s) k' (r_seq s) cnt (r_msgs s) (r_app s))
                       (pt ++ dropN (4 + r_cur s) u ++ stream n))
          (match rdn d (b_idx b) (4 + r_cur s), rdn d (b_idx b + 4 + r_cur s) (k_macSz k) with
           | Some pt, Some tag =>
               let v := VerifyMac k' (r_seq s) pt tag in
               let s' := mkRx (set_data b d) PhFinish (r_cur s) k' (r_seq s) cnt (r_msgs s) (r_err s) (r_app s) in
               if negb (rc_eqb r WS_SUCCESS) then fatal s' r n
               else if negb (rc_eqb v WS_SUCCESS) then fatal s' v n
               else rx_packet A (k_macSz k) (mkRx (set_data b d) PhPacket (r_cur s) k' (r_seq s) cnt (r_msgs s) (r_err s) (r_app s)) n
           | _, _ => RxOob
           end)).
      { intros r k' d cnt pt Hd Lpt Eu2 (c & Ek) Hr.
        assert (Lu2 : lenN (unread (set_data b d)) = lenN u) by (rewrite Eu2, lenN_app, lenN_dropN, Lpt; lia).
        assert (R1 : rdn d (b_idx b) (4 + r_cur s) = Some pt).
        { pose proof (rdn_off_unread (set_data b d) 0 (4 + r_cur s) Hd ltac:(lia)) as R.
          cbn [set_data b_data b_idx] in R. rewrite N.add_0_r in R. rewrite R, dropN_0, Eu2.
          f_equal. apply takeN_app_exact. lia. }
        assert (R2 : rdn d (b_idx b + 4 + r_cur s) (k_macSz k) = Some (takeN (k_macSz k) (dropN (4 + r_cur s) u))).
        { pose proof (rdn_off_unread (set_data b d) (4 + r_cur s) (k_macSz k) Hd ltac:(lia)) as R.
          cbn [set_data b_data b_idx] in R. replace (b_idx b + 4 + r_cur s) with (b_idx b + (4 + r_cur s)) by lia.
          rewrite R, Eu2. f_equal. f_equal. apply dropN_app_exact. lia. }
        rewrite R1, R2. cbv zeta.
        assert (Hk' : keys_ok k') by (rewrite Ek; exact Hk).
        assert (E1 : k_macSz k' = k_macSz k) by (rewrite Ek; reflexivity).
        assert (E2 : k_block k' = k_block k) by (rewrite Ek; reflexivity).
        destruct (rc_eqb r WS_SUCCESS) eqn:E3; cbn [negb].
        2: { apply rc_eqb_neq in E3. cbn [call_ok fatal r_buf r_ph r_cur r_keys r_seq r_cnt r_msgs r_app].
             apply stop_outcome; auto. unfold rx_inv; cbn [r_buf r_keys r_ph r_cur]. split; [assumption|]. split; [assumption|].
             cbv zeta. rewrite Lu2, E1, E2. lia. }
        destruct (rc_eqb (VerifyMac k' (r_seq s) pt (takeN (k_macSz k) (dropN (4 + r_cur s) u))) WS_SUCCESS) eqn:E4; cbn [negb].
        2: { apply rc_eqb_neq in E4. cbn [call_ok fatal r_buf r_ph r_cur r_keys r_seq r_cnt r_msgs r_app].
             apply stop_outcome; auto; [|apply mac_codes; assumption].
             unfold rx_inv; cbn [r_buf r_keys r_ph r_cur]. split; [assumption|]. split; [assumption|].
             cbv zeta. rewrite Lu2, E1, E2. lia. }
        set (s2 := mkRx (set_data b d) PhPacket (r_cur s) k' (r_seq s) cnt (r_msgs s) (r_err s) (r_app s)).
        rewrite <- E1. apply (outcome_of_packet s2 n).
        { unfold rx_inv, s2; cbn [r_buf r_keys r_ph r_cur]. split; [assumption|]. split; [assumption|].
          cbv zeta. rewrite Lu2, E1, E2. lia. }
        { reflexivity. }
        { assumption. }
        { unfold tight, s2; cbn [r_buf r_keys r_ph r_cur]. cbv zeta. rewrite Lu2, E1, E2. lia. }
        { unfold s2; cbn [r_buf]. rewrite Eu2, <- app_assoc. reflexivity. } }
      destruct (N.ltb_spec (k_block k) (4 + r_cur s)) as [Lb|Lb].
      + assert (Es : sub32 (4 + r_cur s) (k_block k) = 4 + r_cur s - k_block k) by (apply sub32_small; unfold W32; lia).
        rewrite Es. rewrite rdn_off_unread by (assumption || fold u; lia). fold u.
        rewrite (take_drop_pre u _ (k_block k)) by lia. rewrite (take_pre u _ (k_block k)) by lia.
        destruct (Decrypt k (takeN (4 + r_cur s - k_block k) (dropN (k_block k) u))) as [[r k'] pt] eqn:D.
        destruct (Decrypt_keeps _ _ _ _ _ _ HC D) as (Lp & Ek). rewrite lenN_takeN, lenN_dropN in Lp.
        assert (Lp' : lenN pt = 4 + r_cur s - k_block k) by lia.
        destruct (unread_overwrite b (k_block k) pt G1) as (O1 & O2 & O3); [fold u; lia|]. fold u in O2. rewrite Lp' in O2.
        apply TAIL.
        { assumption. }
        { rewrite lenN_app, lenN_takeN. lia. }
        { rewrite O2, <- app_assoc. replace (k_block k + (4 + r_cur s - k_block k)) with (4 + r_cur s) by lia. reflexivity. }
        { assumption. }
        { intro Hr. eapply dec_codes; eassumption. }
      + rewrite (take_pre u _ (4 + r_cur s)) by lia.
        assert (Esd : set_data b (b_data b) = b) by (destruct b; reflexivity).
        apply TAIL.
        { rewrite Esd. assumption. }
        { rewrite lenN_takeN. lia. }
        { rewrite Esd. fold u. symmetry. apply takeN_dropN. }
        { exists (k_cst k). destruct k; reflexivity. }
        { congruence. }
  Qed.

  Lemma ato32_app : forall (u t : bytes), 4 <= lenN u -> ato32 (u ++ t) 0 = ato32 u 0.
  Proof. intros u t L. unfold ato32. rewrite !rd_app_l by lia. reflexivity. Qed.
  Lemma ato32_take : forall (u : bytes), 4 <= lenN u -> ato32 (takeN 4 u) 0 = ato32 u 0.
  Proof.
    intros u L. rewrite <- (takeN_dropN _ 4 u) at 2. symmetry. apply ato32_app. rewrite lenN_takeN. lia.
  Qed.

  Lemma rx_length_spec : forall s net, rx_inv s -> r_ph s = PhLength -> no_err net -> tight s ->
    call_ok (sp_length A (abs s) (unread (r_buf s) ++ stream net))
            (rx_length A (k_macSz (r_keys s)) (k_block (r_keys s)) s net).
  Proof.
    intros s net Hinv Hp Hn Ht. pose proof Hinv as (Hb & Hk & Hph). rewrite Hp in Hph. cbv zeta in Hph.
    destruct (keys_ok_sizes _ _ Hk) as (K1 & K2 & K3 & K4). pose proof Hb as (I1 & I2 & I3 & I4).
    unfold tight in Ht. rewrite Hp in Ht. cbv zeta in Ht.
    assert (Lu : b_idx (r_buf s) + lenN (unread (r_buf s)) = b_len (r_buf s)) by (rewrite lenN_unread; lia).
    unfold rx_length, sp_length. change (s_keys (abs s)) with (r_keys s).
    assert (E4 : add32 (b_idx (r_buf s)) 4 = b_idx (r_buf s) + 4) by (apply add32_small; unfold is32 in *; lia).
    rewrite E4. destruct (N.ltb_spec (b_cap (r_buf s)) (b_idx (r_buf s) + 4)) as [L|L]; [lia|].
    rewrite <- (N.add_0_r (b_idx (r_buf s))) at 1. rewrite rdn_off_unread by (assumption || lia). rewrite dropN_0.
    rewrite ato32_take by lia. rewrite ato32_app by lia.
    set (cur := match ato32 (unread (r_buf s)) 0 with Some v => v | None => 0 end).
    assert (Em : sub32 (sub32 MAX_PACKET_SZ (k_macSz (r_keys s))) 4 = MAX_PACKET_SZ - k_macSz (r_keys s) - 4).
    { unfold MAX_PACKET_SZ. rewrite (sub32_small 35000) by (unfold W32; lia). apply sub32_small; unfold W32; lia. }
    rewrite Em. destruct (N.ltb_spec (MAX_PACKET_SZ - k_macSz (r_keys s) - 4) cur) as [Lc|Lc].
    - cbn [call_ok fatal r_buf r_ph r_cur r_keys r_seq r_cnt r_msgs r_app]. apply stop_outcome; auto.
      unfold rx_inv; cbn [r_buf r_keys r_ph r_cur]. rewrite Hp. auto.
    - set (s2 := mkRx (r_buf s) PhFinish cur (r_keys s) (r_seq s) (r_cnt s) (r_msgs s) (r_err s) (r_app s)).
      apply (rx_finish_spec s2 net).
      + unfold rx_inv, s2; cbn [r_buf r_keys r_ph r_cur]. auto.
      + reflexivity.
      + assumption.
      + unfold tight, s2; cbn [r_buf r_keys r_ph r_cur]. cbv zeta. lia.
  Qed.

  (* one call *)
  Theorem DoReceive_refines : forall s net, rx_inv s -> tight s -> no_err net ->
    call_ok (sp_receive A (abs s) (unread (r_buf s) ++ stream net)) (DoReceive A s net).
  Proof.
    intros s net Hinv Ht Hn. pose proof Hinv as (Hb & Hk & Hph).
    destruct (keys_ok_sizes _ _ Hk) as (K1 & K2 & K3 & K4).
    unfold DoReceive, sp_receive. change (s_ph (abs s)) with (r_ph s). change (s_keys (abs s)) with (r_keys s).
    destruct (r_ph s) eqn:Hp.
    - set (k := r_keys s) in *. set (w := unread (r_buf s) ++ stream net).
      unfold tight in Ht. rewrite Hp in Ht. cbv zeta in Ht. fold k in Ht.
      pose proof (GetInputData_spec (r_buf s) net (k_block k) Hb Hn) as G.
      destruct (GetInputData (r_buf s) net (k_block k)) as [b n|b n|e b n| |];
        (assert (G' := G ltac:(unfold W32; lia)); clear G); try contradiction.
      2: { destruct G' as (G1 & G2 & G3 & G4 & G5). cbn [call_ok].
        split. { unfold rx_inv; cbn [r_buf r_keys r_ph r_cur]. auto. }
        split; [assumption|]. left. cbn [r_err r_buf]. do 3 (split; [reflexivity|]).
        split. { unfold tight; cbn [r_buf r_keys r_ph r_cur]. cbv zeta. lia. }
        split. { fold w in G3. rewrite G3. unfold sp_receive; cbn [abs s_ph r_ph s_keys r_keys]. reflexivity. }
        intros Hz. fold w in G3. rewrite Hz, app_nil_r in G3. rewrite <- G3.
        destruct (N.ltb_spec (lenN (unread b)) (k_block k)); [reflexivity|lia]. }
      destruct G' as (G1 & G2 & G3 & G4). fold w in G3. rewrite <- G3. clear w G3.
      destruct (N.ltb_spec (lenN (unread b ++ stream n)) (k_block k)) as [L|_]; [rewrite lenN_app in L; lia|].
      set (u := unread b) in *.
      change (s_cur (abs s)) with (r_cur s).
      change (s_seq (abs s)) with (r_seq s). change (s_cnt (abs s)) with (r_cnt s). change (s_msgs (abs s)) with (r_msgs s).
      change (s_app (abs s)) with (r_app s).
      destruct (k_aead k) eqn:Ea; cbn [negb].
      + set (s2 := mkRx b PhLength (r_cur s) k (r_seq s) (r_cnt s) (r_msgs s) (r_err s) (r_app s)).
        apply (rx_length_spec s2 n).
        * unfold rx_inv, s2; cbn [r_buf r_keys r_ph r_cur]. split; [assumption|]. split; [assumption|]. cbv zeta. fold u. lia.
        * reflexivity.
        * assumption.
        * unfold tight, s2; cbn [r_buf r_keys r_ph r_cur]. cbv zeta. fold u. lia.
      + pose proof (rdn_off_unread b 0 (k_block k) G1) as R. fold u in R. rewrite N.add_0_r, dropN_0 in R.
        rewrite R by lia. rewrite (take_pre u _ (k_block k)) by lia. rewrite (dropN_app_l _ (k_block k) u) by lia.
        destruct (Decrypt k (takeN (k_block k) u)) as [[r k'] pt] eqn:D.
        destruct (Decrypt_keeps _ _ _ _ _ _ HC D) as (Lp & c & Ek). rewrite lenN_takeN in Lp.
        assert (Lp' : lenN pt = k_block k) by lia.
        destruct (unread_overwrite b 0 pt G1) as (O1 & O2 & O3); [fold u; lia|]. fold u in O2.
        rewrite N.add_0_r in O1, O2, O3. rewrite Lp', N.add_0_l, takeN_0 in O2. cbn [app] in O2.
        assert (L2 : lenN (unread (set_data b (overwrite (b_data b) (b_idx b) pt))) = lenN u).
        { rewrite O2, lenN_app, lenN_dropN, Lp'. lia. }
        assert (Hk' : keys_ok k') by (rewrite Ek; exact Hk).
        assert (E1 : k_macSz k' = k_macSz k) by (rewrite Ek; reflexivity).
        assert (E2 : k_block k' = k_block k) by (rewrite Ek; reflexivity).
        set (s2 := mkRx (set_data b (overwrite (b_data b) (b_idx b) pt)) PhLength (r_cur s) k' (r_seq s)
                        (add32 (r_cnt s) (k_block k)) (r_msgs s) (r_err s) (r_app s)).
        assert (Hi2 : rx_inv s2).
        { unfold rx_inv, s2; cbn [r_buf r_keys r_ph r_cur]. split; [assumption|]. split; [assumption|].
          cbv zeta. rewrite L2, E2. lia. }
        destruct (rc_eqb r WS_SUCCESS) eqn:E3; cbn [negb].
        * pose proof (rx_length_spec s2 n Hi2 eq_refl G2) as F.
          unfold s2 at 2 3 in F; cbn [r_buf] in F. rewrite O2, <- app_assoc in F.
          change (r_keys s2) with k' in F. rewrite E1, E2 in F. apply F.
          unfold tight, s2; cbn [r_buf r_keys r_ph r_cur]. cbv zeta. rewrite L2, E2. lia.
        * apply rc_eqb_neq in E3. unfold fatal. cbn [call_ok]. apply stop_outcome; auto.
          { eapply dec_codes; eassumption. }
    - apply rx_length_spec; assumption.
    - apply rx_finish_spec; assumption.
    - apply outcome_of_packet; auto.
  Qed.
End Rx.
