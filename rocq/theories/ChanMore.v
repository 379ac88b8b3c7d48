(* ChanMore.v - consequences of the channel invariant. *)
From Verif Require Import Base BufModel BufSpec BufProofs WireModel WireSpec WireProofs
  ChanModel ChanSpec ChanProofs ChanInv ChanStep.
From Coq Require Import List NArith Bool Lia.
From Coq Require Import ZifyBool ZifyNat ZifyN.
Import ListNotations.
Open Scope N_scope.

Lemma history_inv : forall os t s, history os t s -> Inv false false s.
Proof.
  intros os t s (sv & w & m & Hw & Hop & Hr).
  eapply run_inv; [exact Hr | exact Hop | eapply Inv_weaken, start_inv; exact Hw | discriminate | discriminate].
Qed.
Lemma history_inv_le : forall os t s, history os t s -> Forall transport_ok os -> Inv true false s.
Proof.
  intros os t s (sv & w & m & Hw & Hop & Hr) Ht.
  eapply run_inv; [exact Hr | exact Hop | | auto | discriminate].
  eapply Inv_le; [apply start_inv; exact Hw | auto | discriminate].
Qed.
Lemma history_inv_eq : forall os t s, history os t s -> Forall transport_ok os -> peer_honest (s_log s) ->
  Inv true true s.
Proof.
  intros os t s (sv & w & m & Hw & Hop & Hr) Ht Hp.
  eapply run_inv; [exact Hr | exact Hop | apply start_inv; exact Hw | auto | auto].
Qed.

Lemma run_app : forall os os2 s t s1 t2 s2, run os s = Some (t, s1) -> run os2 s1 = Some (t2, s2) ->
  run (os ++ os2) s = Some (t ++ t2, s2).
Proof.
  induction os as [|o os IH]; intros os2 s t s1 t2 s2 H1 H2; cbn [run app] in *.
  - injection H1 as <- <-. exact H2.
  - destruct (step o s) as [[x s0]|]; [|discriminate].
    destruct (run os s0) as [[t0 s3]|] eqn:E; [|discriminate]. injection H1 as <- <-.
    rewrite (IH _ _ _ _ _ _ E H2). reflexivity.
Qed.
Lemma history_step : forall os t s o r s', history os t s -> op_ok o -> step o s = Some (r, s') ->
  history (os ++ [o]) (t ++ [(o, r)]) s'.
Proof.
  intros os t s o r s' (sv & w & m & Hw & Hop & Hr) Ho Hs. exists sv, w, m. split; [assumption|].
  split; [apply Forall_app; auto|]. eapply run_app; [exact Hr|]. cbn [run]. rewrite Hs. reflexivity.
Qed.

Lemma live_ci : forall cl h s c, Inv cl h s -> live s c ->
  is32 (c_id c) /\ CI cl h (view_of (c_id c) (s_log s)) c /\ find_self (c_id c) (s_list s) = Some c.
Proof.
  intros cl h s c Hinv Hl. pose proof Hinv as (H1 & H2 & _).
  rewrite Forall_forall in H2. destruct (H2 c Hl) as [H3 H4]. split; [assumption|].
  split; [assumption|]. apply find_self_in; assumption.
Qed.

(* ------------------------------------------------------------------ *)
(* Parsing well-formed messages                                         *)

Lemma u32_at : forall a v c, is32 v -> bytes_ok (a ++ c32toa v ++ c) -> is32 (lenN (a ++ c32toa v ++ c)) ->
  GetUint32 (a ++ c32toa v ++ c) (lenN (a ++ c32toa v ++ c)) (lenN a) = POk v (lenN a + 4).
Proof.
  intros a v c Hv Hb H32. rewrite GetUint32_eq; try assumption; try apply N.le_refl.
  2:{ rewrite !lenN_app, c32toa_length in H32. unfold is32 in *. lia. }
  destruct (N.leb_spec (lenN a + 4) (lenN (a ++ c32toa v ++ c))) as [H|H].
  - f_equal. replace 4 with (lenN (c32toa v)) by apply c32toa_length.
    rewrite slice_mid. apply be_value_c32toa. assumption.
  - rewrite !lenN_app, c32toa_length in H. lia.
Qed.
Lemma size_at : forall a d, is32 (lenN d) -> bytes_ok (a ++ c32toa (lenN d) ++ d) ->
  is32 (lenN (a ++ c32toa (lenN d) ++ d)) ->
  GetSize (a ++ c32toa (lenN d) ++ d) (lenN (a ++ c32toa (lenN d) ++ d)) (lenN a) = POk (lenN d) (lenN a + 4).
Proof.
  intros a d Hv Hb H32. rewrite GetSize_eq; try assumption; try apply N.le_refl.
  2:{ rewrite !lenN_app, c32toa_length in H32. unfold is32 in *. lia. }
  replace (slice (a ++ c32toa (lenN d) ++ d) (lenN a) 4) with (c32toa (lenN d)).
  2:{ replace 4 with (lenN (c32toa (lenN d))) by apply c32toa_length. symmetry. apply slice_mid. }
  rewrite be_value_c32toa by assumption. cbv zeta.
  rewrite !lenN_app, c32toa_length.
  destruct (N.leb_spec (lenN a + 4) (lenN a + (4 + lenN d))); [|lia].
  destruct (N.leb_spec (lenN a + 4 + lenN d) (lenN a + (4 + lenN d))); [reflexivity | lia].
Qed.
Lemma rdn_tail : forall a d, rdn (a ++ d) (lenN a) (lenN d) = Some d.
Proof.
  intros a d. rewrite rdn_some by (rewrite lenN_app; lia). f_equal.
  rewrite <- (app_nil_r d) at 1. apply slice_mid.
Qed.

Lemma data_packet_parse : forall id d, is32 id -> buf_ok (data_packet id d) ->
  GetUint32 (data_packet id d) (lenN (data_packet id d)) 0 = POk id 4 /\
  GetSize (data_packet id d) (lenN (data_packet id d)) 4 = POk (lenN d) 8 /\
  rdn (data_packet id d) 8 (lenN d) = Some d.
Proof.
  intros id d Hid [Hb H32]. unfold data_packet in *.
  assert (Hd : is32 (lenN d)) by (rewrite !lenN_app in H32; unfold is32 in *; lia).
  split; [apply (u32_at [] id); assumption|]. split.
  - replace 4 with (lenN (c32toa id)) at 1 by apply c32toa_length.
    rewrite size_at by assumption. rewrite c32toa_length. reflexivity.
  - replace 8 with (lenN (c32toa id ++ c32toa (lenN d))) by (rewrite lenN_app, !c32toa_length; reflexivity).
    rewrite app_assoc. apply rdn_tail.
Qed.

Lemma put_accepts : forall v c d, cinv v c -> d <> [] -> lenN d <= c_win c ->
  ChannelPutData d c = (WS_SUCCESS, c_rx (c_win c - lenN d) (c_pend c)
      (mkBuf (b_data (c_in c) ++ d) (b_idx (c_in c)) (b_cap (c_in c)) (b_dyn (c_in c))) (c_ext c) c).
Proof.
  intros v c d (A1 & A2 & A3 & A4 & A5 & _) Hd Hw. unfold ChannelPutData.
  assert (H0 : 0 < lenN d) by (destruct d; [congruence | unfold lenN; cbn [length]; lia]).
  destruct (N.ltb_spec (c_win c) (lenN d)); [lia|].
  rewrite add32_small by (unfold is32 in *; lia).
  rewrite A2. destruct (N.ltb_spec (b_len (c_in c)) (c_win0 c)); [|lia].
  destruct (N.leb_spec (b_len (c_in c) + lenN d) (c_win0 c)); [|lia]. cbn [andb].
  rewrite sub32_small by (unfold is32 in *; lia). reflexivity.
Qed.
Lemma put_refuses : forall d c, c_win c < lenN d -> ChannelPutData d c = (WS_FATAL_ERROR, c).
Proof. intros d c H. unfold ChannelPutData. destruct (N.ltb_spec (c_win c) (lenN d)); [reflexivity | lia]. Qed.

Lemma data_verdict : forall s c d, Inv false false s -> live s c -> buf_ok (data_packet (c_id c) d) ->
  d <> [] -> lenN d <= c_max c ->
  if lenN d <=? c_win c
  then exists s' c', step (PData (data_packet (c_id c) d)) s = Some (RCode WS_CHAN_RXD, s') /\
       s_log s' = s_log s ++ [Stored (c_id c) false d] /\
       find_self (c_id c) (s_list s') = Some c' /\
       c_win c' = c_win c - lenN d /\ unread (c_in c') = unread (c_in c) ++ d
  else exists e, e <> WS_CHAN_RXD /\ step (PData (data_packet (c_id c) d)) s = Some (RCode e, s).
Proof.
  intros s c d Hinv Hl Hb Hd Hm. destruct (live_ci _ _ _ _ Hinv Hl) as (Hid & (HC & _) & Hf).
  destruct (data_packet_parse _ _ Hid Hb) as (P1 & P2 & P3).
  cbn [step]. unfold DoChannelData. cbv zeta. rewrite P1, P2, Hf, P3.
  destruct (N.ltb_spec (c_max c) (lenN d)); [lia|].
  destruct (N.leb_spec (lenN d) (c_win c)) as [H1|H1].
  - rewrite (put_accepts _ _ _ HC Hd H1). cbn [lifth].
    eexists _, _. split; [reflexivity|]. split; [reflexivity|]. split.
    + cbn [set_last log on_chan set_list s_list]. eapply upd_find; [exact Hf | reflexivity].
    + split; [reflexivity|]. unfold unread. cbn [c_rx c_in b_data b_idx].
      destruct HC as (A1 & _). apply dropN_app_l. exact A1.
  - rewrite (put_refuses _ _ H1). exists WS_FATAL_ERROR. split; [discriminate | reflexivity].
Qed.

Lemma data_refused : forall b s e s', step (PData b) s = Some (RCode e, s') -> e <> WS_CHAN_RXD -> s' = s.
Proof.
  intros b s e s' H He. cbn [step] in H. unfold DoChannelData in H. cbv zeta in H.
  destruct (GetUint32 b (lenN b) 0) as [id i|x i|]; cbn [lifth] in H; try congruence.
  destruct (GetSize b (lenN b) i) as [sz j|x j|]; cbn [lifth] in H; try congruence.
  destruct (find_self id (s_list s)) as [c|]; cbn [lifth] in H; try congruence.
  destruct (c_max c <? sz); cbn [lifth] in H; try congruence.
  destruct (rdn b j sz) as [d|]; cbn [lifth] in H; try congruence.
  destruct (ChannelPutData d c) as [r c1]. destruct r; cbn [lifth] in H; congruence.
Qed.
Lemma data_any : forall b s r s', Inv false false s -> step (PData b) s = Some (r, s') ->
  s' = s \/
  exists c d, live s c /\ lenN d <= c_win c /\ lenN d <= c_max c /\
    r = RCode WS_CHAN_RXD /\ s_log s' = s_log s ++ [Stored (c_id c) false d].
Proof.
  intros b s r s' Hinv H. cbn [step] in H. unfold DoChannelData in H. cbv zeta in H.
  destruct (GetUint32 b (lenN b) 0) as [id i|x i|]; cbn [lifth] in H; try (left; congruence).
  destruct (GetSize b (lenN b) i) as [sz j|x j|]; cbn [lifth] in H; try (left; congruence).
  destruct (find_self id (s_list s)) as [c|] eqn:Hf; cbn [lifth] in H; try (left; congruence).
  destruct (N.ltb_spec (c_max c) sz) as [Hm|Hm]; cbn [lifth] in H; try (left; congruence).
  destruct (rdn b j sz) as [d|] eqn:Ed; cbn [lifth] in H; try (left; congruence).
  destruct (Inv_find _ _ _ _ _ Hinv Hf) as [(HC & _) _].
  destruct (putdata_cases _ d c HC) as [[E Hw]|(r0 & Hne & E)]; rewrite E in H.
  - right. apply find_self_some in Hf. destruct Hf as [Hin Hid]. exists c, d.
    unfold rdn in Ed. destruct (N.leb_spec (j + sz) (lenN b)) as [Hj|]; [|discriminate].
    injection Ed as Ed. assert (Ld : lenN d = sz) by (rewrite <- Ed; apply slice_length; assumption).
    cbn [lifth] in H. injection H as <- <-.
    split; [assumption|]. split; [assumption|]. split; [lia|]. split; [reflexivity|].
    cbn [set_last log s_log]. rewrite Hid. reflexivity.
  - left. destruct r0; cbn [lifth] in H; congruence.
Qed.

(* extended data *)
Lemma stderr_packet_parse : forall id d, is32 id -> buf_ok (stderr_packet id d) ->
  GetUint32 (stderr_packet id d) (lenN (stderr_packet id d)) 0 = POk id 4 /\
  GetUint32 (stderr_packet id d) (lenN (stderr_packet id d)) 4 = POk 1 8 /\
  GetSize (stderr_packet id d) (lenN (stderr_packet id d)) 8 = POk (lenN d) 12 /\
  rdn (stderr_packet id d) 12 (lenN d) = Some d.
Proof.
  intros id d Hid [Hb H32]. unfold stderr_packet in *.
  assert (Hd : is32 (lenN d)) by (rewrite !lenN_app in H32; unfold is32 in *; lia).
  split; [apply (u32_at [] id); assumption|]. split; [|split].
  - replace 4 with (lenN (c32toa id)) at 1 by apply c32toa_length.
    rewrite u32_at; [rewrite c32toa_length; reflexivity | reflexivity | assumption | assumption].
  - replace 8 with (lenN (c32toa id ++ c32toa 1)) by (rewrite lenN_app, !c32toa_length; reflexivity).
    rewrite (app_assoc (c32toa id)) in *. rewrite size_at by assumption.
    rewrite lenN_app, !c32toa_length. reflexivity.
  - replace 12 with (lenN (c32toa id ++ c32toa 1 ++ c32toa (lenN d)))
      by (rewrite !lenN_app, !c32toa_length; reflexivity).
    replace (c32toa id ++ c32toa 1 ++ c32toa (lenN d) ++ d)
      with ((c32toa id ++ c32toa 1 ++ c32toa (lenN d)) ++ d) by (rewrite <- !app_assoc; reflexivity).
    apply rdn_tail.
Qed.

Lemma c_rx_id : forall c, c_rx (c_win c) (c_pend c) (c_in c) (c_ext c) c = c.
Proof. destruct c; reflexivity. Qed.
Lemma set_list_id : forall s, set_list (s_list s) s = s.
Proof. destruct s; reflexivity. Qed.
Lemma upd_idem : forall id f l, (forall c, find_self id l = Some c -> f c = c) -> upd id f l = l.
Proof.
  intros id f l. induction l as [|a l IH]; intros H; [reflexivity|]. cbn [upd].
  unfold find_self in H. cbn [find] in H.
  destruct (c_id a =? id); [rewrite (H a eq_refl); reflexivity|].
  f_equal. apply IH. exact H.
Qed.

Lemma stderr_verdict : forall s c d ok a, Inv false false s -> live s c ->
  buf_ok (stderr_packet (c_id c) d) -> lenN d <= c_max c ->
  let m := stderr_packet (c_id c) d in
  (lenN d <= c_win c /\ exists s' c', step (PExt m ok a) s = Some (RCode WS_EXTDATA, s') /\
       s_log s' = s_log s ++ [Stored (c_id c) true d] /\
       find_self (c_id c) (s_list s') = Some c' /\
       c_win c' = c_win c - lenN d /\ unread (c_ext c') = unread (c_ext c) ++ d) \/
  (c_win c < lenN d /\ step (PExt m ok a) s = Some (RCode WS_RECV_OVERFLOW_E, s)) \/
  (ok = false /\ step (PExt m ok a) s = Some (RCode WS_MEMORY_E, s)).
Proof.
  intros s c d ok a Hinv Hl Hb Hm m. subst m. destruct (live_ci _ _ _ _ Hinv Hl) as (Hid & (HC & _) & Hf).
  destruct (stderr_packet_parse _ _ Hid Hb) as (P1 & P2 & P3 & P4).
  assert (Hd32 : is32 (lenN d)).
  { destruct Hb as [_ Hb]. unfold stderr_packet in Hb. rewrite !lenN_app in Hb. unfold is32 in *; lia. }
  pose proof HC as (A1 & A2 & A3 & A4 & A5 & _).
  cbn [step]. unfold DoChannelExtendedData. cbv zeta. rewrite P1, P2, P3, Hf.
  destruct (N.ltb_spec (c_max c) (lenN d)); [lia|].
  destruct (N.ltb_spec (c_win c) (lenN d)) as [Hw|Hw].
  { right. left. split; [assumption | reflexivity]. }
  change (1 =? CHANNEL_EXTENDED_DATA_STDERR) with true. cbv iota. rewrite P4.
  destruct (AppendBuffer_spec ok (c_ext c) d A4 Hd32) as (r & x & Ea & Hcase). rewrite Ea.
  destruct Hcase as [(-> & Hx & Ux)|[(-> & Hok & ->)|(_ & Ho & _)]]; [|..|unfold is32 in *; lia].
  - left. split; [assumption|]. rewrite sub32_small by (unfold is32 in *; lia). cbn [lifth].
    eexists _, _. split; [reflexivity|]. split; [reflexivity|]. split.
    + cbn [set_last log on_chan set_list s_list]. rewrite (upd_const _ _ _ _ Hf).
      eapply upd_find; [exact Hf | reflexivity].
    + split; [reflexivity | exact Ux].
  - right. right. split; [assumption|]. cbn [lifth]. do 2 f_equal. unfold on_chan.
    rewrite upd_idem; [apply set_list_id|]. intros c0 Hf0. assert (c0 = c) by congruence. subst. apply c_rx_id.
Qed.

(* ------------------------------------------------------------------ *)
(* What reads return                                                    *)

Lemma copies_app : forall a b, copies (a ++ b) = copies a ++ copies b.
Proof. intros a b. unfold copies. apply flat_map_app. Qed.
Lemma copies_nocopy : forall l, Forall nocopy l -> copies l = [].
Proof.
  induction 1 as [|e l He H IH]; [reflexivity|]. cbn [copies flat_map] in *.
  destruct e; try contradiction; exact IH.
Qed.
Lemma copies_grows : forall P s s', growsP P s s' -> copies (s_log s') = copies (s_log s).
Proof.
  intros P s s' (es & -> & Hn & _). rewrite copies_app, (copies_nocopy es Hn), app_nil_r. reflexivity.
Qed.
Lemma copies_reads : forall id x d s s', reads id x d s s' ->
  copies (s_log s') = copies (s_log s) ++ [(id, x, d)].
Proof.
  intros id x d s s' (es & -> & (e1 & e2 & -> & H1 & H2) & _).
  rewrite !copies_app. cbn [copies flat_map].
  rewrite (copies_nocopy e1 H1). fold (copies e2). rewrite (copies_nocopy e2 H2). reflexivity.
Qed.

Lemma taken_copies : forall l, taken l = filter nonempty (map snd (copies l)).
Proof.
  intros l. unfold taken, copies. f_equal. induction l as [|e l IH]; [reflexivity|].
  cbn [flat_map]. rewrite map_app, IH. destruct e; reflexivity.
Qed.

Lemma read_ret : forall id n a s d s' cl h, ChannelRead_ id n a s = Some (RData d, s') -> Inv cl h s ->
  exists c, find_self id (s_list s) = Some c /\ d = takeN n (unread (c_in c)).
Proof.
  intros id n a s d s' cl h H Hinv. unfold ChannelRead_ in H. cbv zeta in H.
  destruct (find_self id (s_list s)) as [c|] eqn:Hf; [|discriminate].
  destruct (n =? 0); [discriminate|].
  destruct (Inv_find _ _ _ _ _ Hinv Hf) as [((A1 & A2 & A3 & A4 & A5 & _) & _) _].
  rewrite sub32_small in H by (unfold is32 in *; lia).
  destruct (rdn _ _ _) as [d0|] eqn:Ed; [|discriminate].
  destruct (UpdateChannelWindow _ _ _) as [[r2 s2]|]; [|discriminate].
  assert (d0 = d) by (destruct r2; congruence). subst d0.
  exists c. split; [reflexivity|]. apply rdn_unread_prefix in Ed. rewrite Ed.
  destruct (N.leb_spec n (b_len (c_in c) - b_idx (c_in c))) as [Hn|Hn].
  - rewrite N.min_l by assumption. reflexivity.
  - rewrite N.min_r by lia. rewrite !takeN_all; try (rewrite lenN_unread); unfold b_len in *; lia || reflexivity.
Qed.

Lemma readext_ret : forall id n a s d s' cl h, ChannelReadExt id n a s = Some (RData d, s') -> Inv cl h s ->
  exists c, find_self id (s_list s) = Some c /\ d = takeN n (unread (c_ext c)).
Proof.
  intros id n a s d s' cl h H Hinv. unfold ChannelReadExt in H. cbv zeta in H.
  destruct (find_self id (s_list s)) as [c|] eqn:Hf; [|discriminate].
  destruct (n =? 0); [discriminate|].
  destruct (Inv_find _ _ _ _ _ Hinv Hf) as [((A1 & A2 & A3 & A4 & A5 & _) & _) _].
  destruct A4 as (B1 & B2 & B3 & B4).
  destruct (b_len (c_ext c) <? b_idx (c_ext c)); [discriminate|].
  rewrite sub32_small in H by (unfold is32 in *; lia).
  set (k := N.min n (b_len (c_ext c) - b_idx (c_ext c))) in *.
  assert (Hk : takeN k (unread (c_ext c)) = takeN n (unread (c_ext c))).
  { subst k. destruct (N.leb_spec n (b_len (c_ext c) - b_idx (c_ext c))) as [Hn|Hn].
    - rewrite N.min_l by assumption. reflexivity.
    - rewrite N.min_r by lia. rewrite !takeN_all; try (rewrite lenN_unread); lia || reflexivity. }
  clearbody k.
  destruct (rdn _ _ _) as [d0|] eqn:Ed; [|discriminate].
  apply rdn_unread_prefix in Ed.
  exists c. split; [reflexivity|].
  destruct (k =? 0); [injection H as <- <-; congruence|].
  destruct (if b_idx (advance k (c_ext c)) =? b_len (advance k (c_ext c)) then _ else _) as [r2 x2|]; [|discriminate].
  destruct (ChannelCreditWindow _ _ _ _) as [r3 s3]. injection H as <- <-. congruence.
Qed.

Lemma stream_read_ret : forall n a s d s' cl h, stream_read n a s = Some (RData d, s') -> Inv cl h s ->
  exists c l, s_list s = c :: l /\ d = takeN n (unread (c_in c)) /\ unread (c_in c) <> [].
Proof.
  intros n a s d s' cl h H Hinv. unfold stream_read in H. cbv zeta in H.
  destruct (s_list s) as [|c l] eqn:El; [discriminate|].
  destruct (n =? 0); [discriminate|]. destruct (c_eofRx c); [discriminate|].
  destruct (keying s); [discriminate|].
  assert (Hl : live s c) by (unfold live; rewrite El; left; reflexivity).
  destruct (live_ci _ _ _ _ Hinv Hl) as (_ & ((A1 & A2 & A3 & A4 & A5 & _) & _) & _).
  rewrite sub32_small in H by (unfold is32 in *; lia).
  destruct (N.eqb_spec (b_len (c_in c) - b_idx (c_in c)) 0) as [H0|H0]; [discriminate|].
  destruct (rdn _ _ _) as [d0|] eqn:Ed; [|discriminate].
  destruct (UpdateChannelWindow _ _ _) as [[r2 s2]|]; [|discriminate].
  assert (d0 = d) by (destruct r2; congruence). subst d0.
  exists c, l. split; [reflexivity|]. apply rdn_unread_prefix in Ed. split.
  - rewrite Ed. destruct (N.leb_spec n (b_len (c_in c) - b_idx (c_in c))) as [Hn|Hn].
    + rewrite N.min_l by assumption. reflexivity.
    + rewrite N.min_r by lia. rewrite !takeN_all; try (rewrite lenN_unread); lia || reflexivity.
  - intros E. apply H0. rewrite <- lenN_unread, E. reflexivity.
Qed.

Lemma peek_ret : forall n s d s' cl h, stream_peek n s = Some (RData d, s') -> Inv cl h s ->
  s' = s /\ exists c l, s_list s = c :: l /\ d = takeN n (unread (c_in c)).
Proof.
  intros n s d s' cl h H Hinv. unfold stream_peek in H. cbv zeta in H.
  destruct (s_list s) as [|c l] eqn:El; [discriminate|].
  destruct (keying s); [discriminate|]. destruct (c_eofRx c); [discriminate|].
  assert (Hl : live s c) by (unfold live; rewrite El; left; reflexivity).
  destruct (live_ci _ _ _ _ Hinv Hl) as (_ & ((A1 & A2 & A3 & A4 & A5 & _) & _) & _).
  rewrite sub32_small in H by (unfold is32 in *; lia).
  destruct (rdn _ _ _) as [d0|] eqn:Ed; [|discriminate]. injection H as <- <-.
  split; [reflexivity|]. exists c, l. split; [reflexivity|]. apply rdn_unread_prefix in Ed.
  rewrite Ed. destruct (N.leb_spec n (b_len (c_in c) - b_idx (c_in c))) as [Hn|Hn].
  - rewrite N.min_l by assumption. reflexivity.
  - rewrite N.min_r by lia. rewrite !takeN_all; try (rewrite lenN_unread); lia || reflexivity.
Qed.

(* calls that report every byte they take *)
Definition reporting (o : op) : Prop :=
  match o with AIdRead _ _ _ | ARead _ _ _ => False | _ => True end.
Definition got (o : op) (r : ret) : list bytes :=
  match o, r with
  | AStreamRead _ _, RData d | AIdRead _ _ _, RData d
  | ARead _ _ _, RData d | AReadExt _ _ _, RData d => [d]
  | _, _ => []
  end.
Lemma returned_cons : forall o r t, returned ((o, r) :: t) = filter nonempty (got o r) ++ returned t.
Proof.
  intros o r t. unfold returned. cbn [flat_map]. rewrite <- filter_app.
  destruct o; destruct r; reflexivity.
Qed.
Lemma step_taken : forall o s r s', step o s = Some (r, s') -> Inv false false s -> op_ok o -> reporting o ->
  taken (s_log s') = taken (s_log s) ++ filter nonempty (got o r).
Proof.
  intros o s r s' H Hinv Ho Hr.
  destruct (step_inv false false _ _ _ _ H Hinv Ho ltac:(discriminate) ltac:(discriminate)) as [_ E].
  rewrite !taken_copies.
  assert (Hg : forall P, growsP P s s' -> got o r = [] ->
    filter nonempty (map snd (copies (s_log s'))) =
    filter nonempty (map snd (copies (s_log s))) ++ filter nonempty (got o r)).
  { intros P G ->. rewrite (copies_grows _ _ _ G), app_nil_r. reflexivity. }
  assert (Hd : forall id x d, reads id x d s s' -> got o r = [d] ->
    filter nonempty (map snd (copies (s_log s'))) =
    filter nonempty (map snd (copies (s_log s))) ++ filter nonempty (got o r)).
  { intros id x d G ->. rewrite (copies_reads _ _ _ _ _ G), map_app, filter_app. reflexivity. }
  destruct o; cbn [effect reporting] in *; try contradiction; try (eapply Hg; [exact E | destruct r; reflexivity]).
  - destruct r as [k|d|e]; try (eapply Hg; [exact E | reflexivity]).
    destruct E as (_ & c & l & _ & E). eapply Hd; [exact E | reflexivity].
  - destruct r as [k|[|x d]|e]; try (eapply Hg; [exact E | reflexivity]).
    + rewrite (copies_grows _ _ _ E). cbn [got filter nonempty]. rewrite app_nil_r. reflexivity.
    + eapply Hd; [exact E | reflexivity].
Qed.
Lemma run_taken : forall os s t s', run os s = Some (t, s') -> Inv false false s -> Forall op_ok os ->
  Forall reporting os -> taken (s_log s') = taken (s_log s) ++ returned t.
Proof.
  induction os as [|o os IH]; intros s t s' H Hinv Hop Hrep; cbn [run] in H.
  { injection H as <- <-. cbn [returned flat_map filter]. rewrite app_nil_r. reflexivity. }
  destruct (step o s) as [[x s1]|] eqn:E; [|discriminate].
  destruct (run os s1) as [[t2 s2]|] eqn:E2; [|discriminate]. injection H as <- <-.
  inversion Hop as [|? ? Ho Hos]; subst. inversion Hrep as [|? ? Hr Hrs]; subst.
  assert (I1 : Inv false false s1).
  { eapply step_inv; [exact E | exact Hinv | assumption | discriminate | discriminate]. }
  rewrite (IH _ _ _ E2 I1 Hos Hrs), (step_taken _ _ _ _ E Hinv Ho Hr), returned_cons, app_assoc.
  reflexivity.
Qed.

(* ------------------------------------------------------------------ *)
(* Owed credit after a key exchange                                     *)

Lemma takes_flush : forall a s r s', takes a -> flush (a_flush a) s = (r, s') ->
  r <> WS_SOCKET_ERROR_E /\ keying s' = keying s /\ s_up s' = s_up s.
Proof.
  intros a s r s' (_ & _ & Ht) H. destruct (a_flush a) as [r0 e [k|]| | |]; try contradiction; cbn [flush] in H.
  - injection H as <- <-. auto.
  - destruct (s_out s); injection H as <- <-; (split; [discriminate | auto]).
Qed.

Lemma credit_takes : forall id a s r s' c, ChannelCreditWindow id 0 a s = (r, s') -> takes a ->
  keying s = false -> s_up s = true -> find_self id (s_list s) = Some c -> is32 (c_pend c) ->
  s_list s' = upd id (fun _ => c_set_pend 0 c) (s_list s) /\ keying s' = false /\ s_up s' = true.
Proof.
  intros id a s r s' c H Ht Hk Hu Hf Hp. unfold ChannelCreditWindow in H. rewrite Hf in H.
  destruct (sub32 UINT32_MAX (c_pend c) <? 0) eqn:E0; [apply N.ltb_lt in E0; lia|].
  rewrite add32_small, N.add_0_r in H by (unfold is32 in *; lia).
  destruct (N.eqb_spec (c_pend c) 0) as [Hz|Hz].
  { injection H as <- <-. split; [|auto]. rewrite <- Hz, c_set_pend_same. symmetry. apply upd_same. assumption. }
  rewrite Hk in H. unfold SendChannelWindowAdjust in H.
  assert (Hid : c_id c = id) by (apply find_self_some in Hf; tauto).
  assert (T0 : touch s id c (c_set_pend 0 c) [] (on_chan id (c_set_pend 0) s)) by (apply touch_on; auto).
  rewrite (touch_find _ _ _ _ _ _ T0) in H.
  change (s_up (on_chan id (c_set_pend 0) s)) with (s_up s) in H. rewrite Hu in H. cbn [negb] in H.
  destruct Ht as (T1 & T2 & T3). unfold bundle in H. rewrite T1, T2 in H.
  match type of H with context [flush (a_flush a) ?x] =>
    destruct (flush (a_flush a) x) as [r3 s3] eqn:Ef; set (s2 := x) in * end.
  destruct (takes_flush a _ _ _ (conj T1 (conj T2 T3)) Ef) as (F1 & F2 & F3).
  pose proof (q_list _ _ (flush_quiet _ _ _ _ Ef)) as F4.
  cbn [negb orb] in H. destruct (rc_eqb r3 WS_SOCKET_ERROR_E) eqn:Er; [apply rc_eqb_eq in Er; contradiction|].
  injection H as <- <-. split; [|split].
  - rewrite F4. exact (t_list _ _ _ _ _ _ T0).
  - rewrite F2. exact Hk.
  - rewrite F3. exact Hu.
Qed.

Lemma pending_takes : forall a js r s r' s', pending_loop a js r s = (r', s') ->
  (forall id, takes (a id)) -> keying s = false -> s_up s = true ->
  NoDup (map c_id (s_list s)) -> Forall (fun c => is32 (c_pend c)) (s_list s) ->
  (forall c, In c (s_list s) -> In (c_id c) js \/ c_pend c = 0) ->
  Forall (fun c => c_pend c = 0) (s_list s').
Proof.
  intros a js. induction js as [|id js IH]; intros r s r' s' H Ht Hk Hu Hnd Hp Hall; cbn [pending_loop] in H.
  { injection H as <- <-. apply Forall_forall. intros c Hc. destruct (Hall c Hc) as [[]|]; assumption. }
  assert (Hskip : (forall c, find_self id (s_list s) = Some c -> c_pend c = 0) ->
    forall c, In c (s_list s) -> In (c_id c) js \/ c_pend c = 0).
  { intros Hz c Hc. destruct (Hall c Hc) as [[He|He]|He]; auto.
    right. apply Hz. rewrite He. apply find_self_in; assumption. }
  destruct (find_self id (s_list s)) as [c|] eqn:Hf.
  2:{ eapply IH; try eassumption. apply Hskip. discriminate. }
  destruct (N.eqb_spec (c_pend c) 0) as [Hz|Hz].
  { eapply IH; try eassumption. apply Hskip. intros c0 E. congruence. }
  destruct (ChannelCreditWindow id 0 (a id) s) as [r1 s1] eqn:Ec.
  assert (Hpc : is32 (c_pend c)).
  { rewrite Forall_forall in Hp. apply Hp. apply find_self_some in Hf. tauto. }
  destruct (credit_takes _ _ _ _ _ _ Ec (Ht id) Hk Hu Hf Hpc) as (L & K1 & U1).
  assert (Hid : c_id c = id) by (apply find_self_some in Hf; tauto).
  assert (Hin : forall x, In x (s_list s1) -> x = c_set_pend 0 c \/ (In x (s_list s) /\ c_id x <> id)).
  { intros x Hx. rewrite L in Hx. apply upd_in in Hx; auto. }
  eapply IH; try eassumption.
  - rewrite L, upd_ids by exact Hid. assumption.
  - apply Forall_forall. intros x Hx. destruct (Hin x Hx) as [->|[Hx1 _]].
    + cbn. reflexivity.
    + rewrite Forall_forall in Hp. auto.
  - intros x Hx. destruct (Hin x Hx) as [->|[Hx1 Hx2]]; [right; reflexivity|].
    destruct (Hall x Hx1) as [[He|He]|He]; auto. congruence.
Qed.

(* ------------------------------------------------------------------ *)
(* Channel numbers                                                      *)

Lemma fresh_none : forall k n l, fresh k n l = None -> is32 n -> N.of_nat k <= W32 ->
  forall i, (i < k)%nat -> find_self ((n + N.of_nat i) mod W32) l <> None.
Proof.
  induction k as [|k IH]; intros n l H Hn Hk i Hi; [lia|]. cbn [fresh] in H.
  destruct (find_self n l) as [c|] eqn:E; [|discriminate].
  destruct i as [|i].
  - rewrite N.add_0_r, N.mod_small by exact Hn. rewrite E. discriminate.
  - specialize (IH (add32 n 1) l H ltac:(apply is32_w32) ltac:(lia) i ltac:(lia)).
    unfold add32, w32 in IH. rewrite N.add_mod_idemp_l in IH by discriminate.
    replace (n + N.of_nat (S i)) with (n + 1 + N.of_nat i) by lia. exact IH.
Qed.
Lemma NoDup_map_in : forall (A B : Type) (f : A -> B) l,
  (forall x y, In x l -> In y l -> f x = f y -> x = y) -> NoDup l -> NoDup (map f l).
Proof.
  intros A B f l Hf H. induction H as [|x l Hx Hl IH]; [constructor|]. cbn [map]. constructor.
  - intros Hin. apply in_map_iff in Hin. destruct Hin as (y & E & Hy).
    assert (x = y) by (apply Hf; [left; reflexivity | right; assumption | congruence]). congruence.
  - apply IH. intros a b Ha Hb. apply Hf; right; assumption.
Qed.
Lemma fresh_total : forall l n, is32 n -> lenN l < W32 -> fresh (S (length l)) n l <> None.
Proof.
  intros l n Hn Hl H.
  assert (Hk : N.of_nat (S (length l)) <= W32) by (unfold lenN in Hl; lia).
  pose proof (fresh_none _ _ _ H Hn Hk) as Hall.
  set (js := map (fun i => (n + N.of_nat i) mod W32) (seq 0 (S (length l)))).
  assert (Hnd : NoDup js).
  { unfold js. apply NoDup_map_in; [|apply seq_NoDup].
    intros x y Hx Hy Exy. apply in_seq in Hx, Hy. clear - Exy Hx Hy Hn Hk.
    unfold is32 in Hn. set (a := N.of_nat x) in *. set (b := N.of_nat y) in *.
    assert (a < W32) by (subst a; lia). assert (b < W32) by (subst b; lia).
    assert (Hab : a = b).
    { destruct (N.lt_ge_cases (n + a) W32) as [H1|H1]; destruct (N.lt_ge_cases (n + b) W32) as [H2|H2].
      - rewrite !N.mod_small in Exy by assumption. lia.
      - rewrite (N.mod_small (n + a)) in Exy by assumption.
        rewrite (N.mod_eq (n + b)) in Exy by discriminate.
        replace ((n + b) / W32) with 1 in Exy; [lia|]. apply N.div_unique with (n + b - W32); lia.
      - rewrite (N.mod_small (n + b)) in Exy by assumption.
        rewrite (N.mod_eq (n + a)) in Exy by discriminate.
        replace ((n + a) / W32) with 1 in Exy; [lia|]. apply N.div_unique with (n + a - W32); lia.
      - rewrite !N.mod_eq in Exy by discriminate.
        replace ((n + a) / W32) with 1 in Exy; [|apply N.div_unique with (n + a - W32); lia].
        replace ((n + b) / W32) with 1 in Exy; [lia|apply N.div_unique with (n + b - W32); lia]. }
    subst a b. lia. }
  assert (Hincl : incl js (map c_id l)).
  { intros x Hx. apply in_map_iff in Hx. destruct Hx as (i & <- & Hi). apply in_seq in Hi.
    specialize (Hall i ltac:(lia)). destruct (find_self _ l) as [c|] eqn:E; [|congruence].
    apply find_self_some in E. destruct E as [E1 <-]. apply in_map. assumption. }
  pose proof (NoDup_incl_length Hnd Hincl) as Hlen. unfold js in Hlen.
  rewrite !map_length, seq_length in Hlen. lia.
Qed.
