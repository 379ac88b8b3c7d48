(* ChanInv.v - every step keeps the invariants of ChanProofs. *)
From Verif Require Import Base BufModel BufSpec BufProofs WireModel WireSpec WireProofs
  NameTable NegoModel ChanModel ChanSpec ChanProofs.
From Coq Require Import List NArith Bool Lia.
From Coq Require Import ZifyBool ZifyNat ZifyN.
Import ListNotations.
Open Scope N_scope.

(* ------------------------------------------------------------------ *)
(* Parsing                                                              *)

Lemma gu32_cases : forall b i, buf_ok b -> i <= lenN b ->
  (exists v, GetUint32 b (lenN b) i = POk v (i + 4) /\ is32 v /\ i + 4 <= lenN b) \/
  (exists e j, GetUint32 b (lenN b) i = PErr e j).
Proof.
  intros b i [Hb H32] Hi.
  rewrite (GetUint32_eq b (lenN b) Hb (N.le_refl _) H32 i) by (unfold is32 in *; lia).
  destruct (N.leb_spec (i + 4) (lenN b)) as [H|H].
  - left. eexists. split; [reflexivity|]. split; [|assumption]. apply be_value_lt; assumption.
  - right. eauto.
Qed.

Lemma gsize_cases : forall b i, buf_ok b -> i <= lenN b ->
  (exists n, GetSize b (lenN b) i = POk n (i + 4) /\ is32 n /\ i + 4 + n <= lenN b) \/
  (exists e j, GetSize b (lenN b) i = PErr e j).
Proof.
  intros b i [Hb H32] Hi.
  rewrite (GetSize_eq b (lenN b) Hb (N.le_refl _) H32 i) by (unfold is32 in *; lia).
  destruct (N.leb_spec (i + 4) (lenN b)) as [H|H]; [|right; eauto]. cbv zeta.
  destruct (N.leb_spec (i + 4 + be_value (slice b i 4)) (lenN b)) as [H2|H2]; [|right; eauto].
  left. eexists. split; [reflexivity|]. split; [apply be_value_lt; assumption | assumption].
Qed.

Lemma gstr_cases : forall b i n, buf_ok b -> i <= lenN b -> 0 < n ->
  (exists t j, GetString n b (lenN b) i = POk t j /\ j <= lenN b) \/
  (exists e j, GetString n b (lenN b) i = PErr e j).
Proof.
  intros b i n [Hb H32] Hi Hn.
  rewrite GetString_eq by (assumption || lia || (unfold is32 in *; lia)).
  destruct (N.leb_spec (i + 4) (lenN b)) as [H|H]; [|right; eauto]. cbv zeta.
  destruct (N.leb_spec (i + 4 + be_value (slice b i 4)) (lenN b)) as [H2|H2]; [|right; eauto].
  left. do 2 eexists. split; [reflexivity | assumption].
Qed.

Lemma gstralloc_cases : forall b i, buf_ok b -> i <= lenN b ->
  (exists t j, GetStringAlloc b (lenN b) i = POk t j /\ j <= lenN b) \/
  (exists e j, GetStringAlloc b (lenN b) i = PErr e j).
Proof.
  intros b i [Hb H32] Hi.
  rewrite GetStringAlloc_eq by (assumption || lia || (unfold is32 in *; lia)).
  destruct (N.leb_spec (i + 4) (lenN b)) as [H|H]; [|right; eauto]. cbv zeta.
  destruct (N.leb_spec (i + 4 + be_value (slice b i 4)) (lenN b)) as [H2|H2]; [|right; eauto].
  left. do 2 eexists. split; [reflexivity | assumption].
Qed.

Lemma rdn_in : forall b off n, off + n <= lenN b ->
  exists d, rdn b off n = Some d /\ lenN d = n.
Proof.
  intros b off n H. rewrite rdn_some by assumption. eexists. split; [reflexivity|].
  apply slice_length. assumption.
Qed.

Lemma openfwd_cases : forall b i, buf_ok b -> i <= lenN b ->
  (exists j, DoChannelOpenForward b i = POk tt j) \/
  (exists e j, DoChannelOpenForward b i = PErr e j).
Proof.
  intros b i Hb Hi. unfold DoChannelOpenForward.
  destruct (gstralloc_cases b i Hb Hi) as [(t & j & -> & Hj)|(e & j & ->)]; cbn [pbind]; [|eauto].
  destruct (gu32_cases b j Hb Hj) as [(v & -> & Hv & Hk)|(e & k & ->)]; cbn [pbind]; [|eauto].
  destruct (gstralloc_cases b (j + 4) Hb Hk) as [(t2 & k & -> & Hk2)|(e & k & ->)]; cbn [pbind]; [|eauto].
  destruct (gu32_cases b k Hb Hk2) as [(v2 & -> & Hv2 & Hl)|(e & l & ->)]; cbn [pbind]; eauto.
Qed.

(* ------------------------------------------------------------------ *)
(* Logs only grow                                                       *)

Definition ids (s : cs) : list N := map c_id (s_list s).
(* nothing taken by a read *)
Definition nocopy (e : ev) : Prop := match e with Copied _ _ _ => False | _ => True end.
Definition one_copy (id : N) (ext : bool) (d : bytes) (es : list ev) : Prop :=
  exists e1 e2, es = e1 ++ Copied id ext d :: e2 /\ Forall nocopy e1 /\ Forall nocopy e2.

Definition lgrows (s s' : cs) : Prop := exists es, s_log s' = s_log s ++ es.
Lemma lgrows_refl : forall s, lgrows s s.
Proof. intros s; exists []; rewrite app_nil_r; reflexivity. Qed.
Lemma lgrows_trans : forall a b c, lgrows a b -> lgrows b c -> lgrows a c.
Proof. intros a b c [x Hx] [y Hy]. exists (x ++ y). rewrite Hy, Hx, app_assoc. reflexivity. Qed.
Lemma honest_grows : forall s s', lgrows s s' -> peer_honest (s_log s') -> peer_honest (s_log s).
Proof.
  intros s s' [es He] H pre post id Heq. apply (H pre (post ++ es)).
  rewrite He, Heq, app_assoc. reflexivity.
Qed.

(* the log grows without reads and channels for which P fails stay *)
Definition growsP (P : N -> Prop) (s s' : cs) : Prop :=
  exists es, s_log s' = s_log s ++ es /\ Forall nocopy es /\
             forall x, In x (ids s) -> In x (ids s') \/ P x.
Definition grows : cs -> cs -> Prop := growsP (fun _ => False).
(* the same with one read *)
Definition reads (id : N) (ext : bool) (d : bytes) (s s' : cs) : Prop :=
  exists es, s_log s' = s_log s ++ es /\ one_copy id ext d es /\
             forall x, In x (ids s) -> In x (ids s').

Lemma growsP_lgrows : forall P s s', growsP P s s' -> lgrows s s'.
Proof. intros P s s' (es & H & _). exists es; assumption. Qed.
Lemma grows_lgrows : forall s s', grows s s' -> lgrows s s'.
Proof. intros s s'. apply growsP_lgrows. Qed.
Lemma reads_lgrows : forall id x d s s', reads id x d s s' -> lgrows s s'.
Proof. intros id x d s s' (es & H & _). exists es; assumption. Qed.
Lemma growsP_weaken : forall (P P' : N -> Prop) s s', growsP P s s' -> (forall x, P x -> P' x) -> growsP P' s s'.
Proof.
  intros P P' s s' (es & H1 & H2 & H3) HP. exists es. split; [assumption|]. split; [assumption|].
  intros x Hx. destruct (H3 x Hx); auto.
Qed.
Lemma growsP_trans : forall P a b c, growsP P a b -> growsP P b c -> growsP P a c.
Proof.
  intros P a b c (x & Hx & Nx & Ix) (y & Hy & Ny & Iy). exists (x ++ y).
  split; [rewrite Hy, Hx, app_assoc; reflexivity|]. split; [apply Forall_app; auto|].
  intros z Hz. destruct (Ix z Hz); auto.
Qed.
Lemma grows_refl : forall s, grows s s.
Proof. intros s; exists []; rewrite app_nil_r; repeat split; auto. Qed.
Lemma grows_trans : forall a b c, grows a b -> grows b c -> grows a c.
Proof. intros a b c. apply growsP_trans. Qed.
Lemma grows_quiet : forall s s', quietly s s' -> grows s s'.
Proof.
  intros s s' H. exists []. rewrite (q_log _ _ H), app_nil_r. split; [reflexivity|].
  split; [constructor|]. unfold ids. rewrite (q_list _ _ H). auto.
Qed.
Lemma touch_ids : forall s id c c' es s', touch s id c c' es s' -> ids s' = ids s.
Proof.
  intros s id c c' es s' H. unfold ids. rewrite (t_list _ _ _ _ _ _ H). apply upd_ids. apply H.
Qed.
Lemma grows_touch : forall s id c c' es s', touch s id c c' es s' -> Forall nocopy es -> grows s s'.
Proof.
  intros s id c c' es s' H Hn. exists es. split; [apply H|]. split; [assumption|].
  rewrite (touch_ids _ _ _ _ _ _ H). auto.
Qed.
Lemma lgrows_touch : forall s id c c' es s', touch s id c c' es s' -> lgrows s s'.
Proof. intros s id c c' es s' H. exists es. apply H. Qed.
Lemma reads_touch : forall s id c c' es s' ext d, touch s id c c' es s' -> one_copy id ext d es ->
  reads id ext d s s'.
Proof.
  intros s id c c' es s' ext d H Hn. exists es. split; [apply H|]. split; [assumption|].
  rewrite (touch_ids _ _ _ _ _ _ H). auto.
Qed.
Lemma grows_reads : forall s s1 s' id ext d, grows s s1 -> reads id ext d s1 s' -> reads id ext d s s'.
Proof.
  intros s s1 s' id ext d (x & Hx & Nx & Ix) (y & Hy & (e1 & e2 & -> & N1 & N2) & Iy).
  exists (x ++ e1 ++ Copied id ext d :: e2). split; [rewrite Hy, Hx, <- !app_assoc; reflexivity|].
  split.
  - exists (x ++ e1), e2. rewrite app_assoc. split; [reflexivity|]. split; [apply Forall_app; auto | assumption].
  - intros z Hz. destruct (Ix z Hz) as [H|[]]. auto.
Qed.
Lemma reads_grows : forall s s1 s' id ext d, reads id ext d s s1 -> grows s1 s' -> reads id ext d s s'.
Proof.
  intros s s1 s' id ext d (y & Hy & (e1 & e2 & -> & N1 & N2) & Iy) (x & Hx & Nx & Ix).
  exists ((e1 ++ Copied id ext d :: e2) ++ x). split; [rewrite Hx, Hy, <- !app_assoc; reflexivity|].
  split.
  - exists e1, (e2 ++ x). rewrite <- app_assoc. split; [reflexivity|]. split; [assumption | apply Forall_app; auto].
  - intros z Hz. destruct (Ix z (Iy z Hz)) as [H|[]]. assumption.
Qed.
Lemma credit_nocopy : forall id c es, credit_es id c es -> Forall nocopy es.
Proof. intros id c es [->|(n & _ & _ & ->)]; repeat constructor. Qed.
Lemma honest_hon : forall l id, peer_honest l -> hon (view_of id l).
Proof. intros l id H. apply (H l [] id). rewrite app_nil_r. reflexivity. Qed.

(* ------------------------------------------------------------------ *)
(* Changes a channel survives                                           *)

(* the fields the invariant looks at are the same *)
Definition same_inv (c c' : chan) : Prop :=
  c_win0 c' = c_win0 c /\ c_win c' = c_win c /\ c_in c' = c_in c /\ c_ext c' = c_ext c /\
  c_pwin c' = c_pwin c /\ c_pmax c' = c_pmax c /\ c_pend c' = c_pend c /\ c_eofTx c' = c_eofTx c.
Lemma CI_same : forall cl h v c c', same_inv c c' -> CI cl h v c -> CI cl h v c'.
Proof.
  intros cl h v c c' (H1 & H2 & H3 & H4 & H5 & H6 & H7 & H8) H.
  unfold CI, cinv, cle, cge in *. rewrite H1, H2, H3, H4, H5, H6, H7, H8. exact H.
Qed.
Lemma same_flags : forall c a d, same_inv c (c_flags a (c_eofTx c) d c).
Proof. intros; unfold same_inv, c_flags; cbn; repeat split. Qed.
Lemma same_refl : forall c, same_inv c c.
Proof. intros; unfold same_inv; repeat split. Qed.

(* credit and reads *)
Definition credit_out (c : chan) (amount p : N) (es : list ev) (a : sendans) : Prop :=
  (W32 <= c_pend c + amount /\ es = [] /\ p = c_pend c) \/
  (c_pend c + amount < W32 /\ (ans_ok a -> p + an_of es = c_pend c + amount)).

Lemma CI_credit : forall cl h v c amount p es a w i x id,
  CI cl h v c -> credit_es id c es -> credit_out c amount p es a -> is32 p ->
  (cl = true -> ans_ok a) -> (h = true -> cl = true) ->
  (h = true -> c_pend c + amount < W32) ->
  (* the new window and buffers *)
  w = c_win c + amount -> b_cap i = c_win0 c -> b_idx i <= b_len i -> buf_inv x ->
  w + b_len i + lenN (unread x) = c_win0 c ->
  v_sf v = v_cf v ++ unread i -> v_st v = v_ct v ++ unread x ->
  CI cl h (fold_left vstep es v) (c_rx w p i x c).
Proof.
  intros cl h v c amount p es a w i x id (Hc & Hle & Hge) Hes Hout Hp Hcl Hh Hov Hw Hcap Hidx Hx Hsum Hsf Hst.
  rewrite (credit_es_view id c es v Hes).
  destruct Hc as (A1 & A2 & A3 & A4 & A5 & A6 & A7 & A8 & A9 & A10 & A11 & A12).
  unfold CI, cinv, cle, cge; cbn [c_rx c_in c_win0 c_ext c_win c_pwin c_pmax c_pend
    v_sf v_st v_cf v_ct v_ch v_w0 v_an v_gr v_us v_pm v_eof c_eofTx].
  split; [repeat (split; [assumption|]); assumption|].
  unfold cle in Hle; unfold cge in Hge.
  split.
  - intros Hclt. specialize (Hle Hclt). destruct Hout as [(H1 & -> & ->)|(H1 & H2)].
    + change (an_of []) with 0. lia.
    + specialize (H2 (Hcl Hclt)). lia.
  - intros Hht. specialize (Hge Hht). specialize (Hov Hht).
    destruct Hout as [(H1 & _ & _)|(H1 & H2)]; [lia|].
    specialize (H2 (Hcl (Hh Hht))). lia.
Qed.

(* pending credit is bounded when the peer is honest *)
Lemma pend_bound : forall cl h v c, CI cl h v c -> cl = true -> h = true -> hon v -> c_pend c <= c_win c.
Proof.
  intros cl h v c (_ & Hle & Hge) H1 H2 Hh. specialize (Hle H1). unfold cle, hon in *. lia.
Qed.

(* ------------------------------------------------------------------ *)
(* Reads                                                                *)

Lemma update_spec : forall id a s r s' c, UpdateChannelWindow id a s = Some (r, s') ->
  find_self id (s_list s) = Some c ->
  b_idx (c_in c) <= b_len (c_in c) -> is32 (b_len (c_in c)) -> is32 (c_pend c) ->
  c_win c + b_idx (c_in c) < W32 ->
  (r = WS_SUCCESS /\ s' = s) \/
  exists p es, touch s id c (c_rx (c_win c + b_idx (c_in c)) p
                  (mkBuf (unread (c_in c)) 0 (b_cap (c_in c)) (b_dyn (c_in c))) (c_ext c) c) es s' /\
    is32 p /\ credit_es id c es /\ credit_out c (b_idx (c_in c)) p es a /\
    (keying s = true -> es = []).
Proof.
  intros id a s r s' c H Hf Hi Hl Hp Hw. unfold UpdateChannelWindow in H. rewrite Hf in H.
  assert (Hid : c_id c = id) by (apply find_self_some in Hf; tauto).
  destruct ((b_cap (c_in c) / 2 <? b_len (c_in c)) || (c_win c =? 0)).
  2:{ injection H as <- <-. left; auto. }
  right. rewrite sub32_small in H by (unfold is32 in *; lia).
  assert (Hr : rdn (b_data (c_in c)) (b_idx (c_in c)) (b_len (c_in c) - b_idx (c_in c))
               = Some (unread (c_in c))).
  { rewrite rdn_some by (unfold b_len in *; lia). unfold slice, unread. f_equal.
    apply takeN_all. rewrite lenN_dropN. unfold b_len. lia. }
  rewrite Hr in H.
  destruct (ChannelCreditWindow id (b_idx (c_in c)) a s) as [r1 s1] eqn:E.
  injection H as <- <-.
  destruct (credit_spec _ _ _ _ _ _ _ E Hf Hp ltac:(unfold is32 in *; lia))
    as (p & es & Ht & Hp' & Hes & Hk & Hout).
  exists p, es. split; [|split; [assumption|split; [assumption|split]]].
  - rewrite <- (app_nil_r es). eapply touch_trans; [exact Ht|].
    apply touch_on; [eapply touch_find; exact Ht | exact Hid|].
    unfold c_set_pend, c_rx; cbn. rewrite add32_small by assumption. reflexivity.
  - destruct Hout as [(H1 & H2 & H3 & _)|[H1 H2]]; [left|right]; auto.
  - assumption.
Qed.

Lemma update_total : forall id a s c, find_self id (s_list s) = Some c ->
  b_idx (c_in c) <= b_len (c_in c) -> is32 (b_len (c_in c)) -> UpdateChannelWindow id a s <> None.
Proof.
  intros id a s c Hf Hi Hl H. unfold UpdateChannelWindow in H. rewrite Hf in H.
  destruct ((b_cap (c_in c) / 2 <? b_len (c_in c)) || (c_win c =? 0)); [|discriminate].
  rewrite sub32_small in H by (unfold is32 in *; lia).
  destruct (rdn_in (b_data (c_in c)) (b_idx (c_in c)) (b_len (c_in c) - b_idx (c_in c))
              ltac:(unfold b_len in *; lia)) as (d & Hd & _). rewrite Hd in H.
  destruct (ChannelCreditWindow id (b_idx (c_in c)) a s). discriminate.
Qed.

(* consuming n bytes of the stdout buffer *)
Lemma unread_advance : forall b n, b_idx b + n <= b_len b -> is32 (b_len b) ->
  unread (advance n b) = dropN n (unread b) /\ b_idx (advance n b) = b_idx b + n.
Proof.
  intros b n H H32. unfold advance, unread; cbn [b_idx b_data].
  rewrite add32_small by (unfold is32 in *; lia). split; [|reflexivity].
  rewrite dropN_dropN. reflexivity.
Qed.

Lemma rdn_unread_prefix : forall b n d, rdn (b_data b) (b_idx b) n = Some d -> d = takeN n (unread b).
Proof. intros b n d H. unfold rdn in H. destruct (_ <=? _); [injection H as <-; reflexivity | discriminate]. Qed.

Lemma CI_consume : forall cl h v c n d id, CI cl h v c -> n <= b_len (c_in c) - b_idx (c_in c) ->
  d = takeN n (unread (c_in c)) ->
  CI cl h (vstep v (Copied id false d)) (c_rx (c_win c) (c_pend c) (advance n (c_in c)) (c_ext c) c).
Proof.
  intros cl h v c n d id (Hc & Hle & Hge) Hn ->.
  destruct Hc as (A1 & A2 & A3 & A4 & A5 & A6 & A7 & A8 & A9 & A10 & A11 & A12).
  assert (H32 : is32 (b_len (c_in c))) by (unfold is32 in *; lia).
  destruct (unread_advance (c_in c) n ltac:(lia) H32) as [U1 U2].
  unfold CI, cinv, cle, cge in *; cbn [vstep c_rx c_in c_win0 c_ext c_win c_pwin c_pmax c_pend
    v_sf v_st v_cf v_ct v_ch v_w0 v_an v_gr v_us v_pm v_eof c_eofTx].
  split; [|split; assumption].
  change (b_len (advance n (c_in c))) with (b_len (c_in c)).
  change (b_cap (advance n (c_in c))) with (b_cap (c_in c)).
  rewrite U1, U2. split; [lia|]. do 4 (split; [assumption|]). split; [|do 5 (split; [assumption|]); assumption].
  rewrite <- app_assoc, takeN_dropN. assumption.
Qed.

(* the update of the window keeps the invariant *)
Lemma update_inv : forall cl h id a s r s' c, UpdateChannelWindow id a s = Some (r, s') ->
  find_self id (s_list s) = Some c -> Inv cl h s ->
  (cl = true -> ans_ok a) -> (h = true -> cl = true /\ peer_honest (s_log s)) ->
  Inv cl h s' /\ exists c' es, touch s id c c' es s' /\ unread (c_in c') = unread (c_in c) /\
    (forall e, In e es -> match e with Sent false _ _ => True | _ => False end) /\
    (keying s = true -> es = []).
Proof.
  intros cl h id a s r s' c H Hf Hinv Hcl Hh.
  destruct (Inv_find _ _ _ _ _ Hinv Hf) as [HCI Hid32].
  pose proof HCI as (Hc & Hle & Hge).
  destruct Hc as (A1 & A2 & A3 & A4 & A5 & A6 & A7 & A8 & A9 & A10 & A11 & A12).
  destruct (update_spec _ _ _ _ _ _ H Hf) as [(-> & ->)|(p & es & Ht & Hp & Hes & Hout & Hk)];
    try assumption; try (unfold is32 in *; lia).
  { split; [assumption|]. exists c, []. split; [apply touch_same; assumption|].
    split; [reflexivity|]. split; [intros e []|]. reflexivity. }
  split.
  - eapply Inv_touch; [exact Hinv | exact Ht|]. intros _.
    eapply CI_credit with (amount := b_idx (c_in c)) (a := a) (id := id); eauto.
    + intros Hht. apply Hh; assumption.
    + intros Hht. destruct (Hh Hht) as [Hclt Hhon].
      pose proof (pend_bound _ _ _ _ HCI Hclt Hht (honest_hon _ _ Hhon)). unfold is32 in *. lia.
    + cbn [b_idx]. lia.
    + unfold b_len. cbn [b_data]. fold (b_len (c_in c)).
      rewrite (lenN_unread (c_in c)). lia.
  - exists (c_rx (c_win c + b_idx (c_in c)) p
             (mkBuf (unread (c_in c)) 0 (b_cap (c_in c)) (b_dyn (c_in c))) (c_ext c) c), es.
    split; [exact Ht|]. split; [reflexivity|]. split; [|assumption].
    intros e He. destruct Hes as [->|(n & _ & _ & ->)]; [contradiction|].
    destruct He as [<-|[]]. exact I.
Qed.

Lemma read_inv : forall cl h id n a s r s', ChannelRead_ id n a s = Some (r, s') -> Inv cl h s ->
  (cl = true -> ans_ok a) -> (h = true -> cl = true /\ peer_honest (s_log s')) ->
  Inv cl h s' /\ (match r with RData d => reads id false d s s'
                   | _ => grows s s' \/ exists d, reads id false d s s' end).
Proof.
  intros cl h id n a s r s' H Hinv Hcl Hh. unfold ChannelRead_ in H.
  destruct (find_self id (s_list s)) as [c|] eqn:Hf.
  2:{ injection H as <- <-. split; [assumption | left; apply grows_refl]. }
  destruct (n =? 0). { injection H as <- <-. split; [assumption | left; apply grows_refl]. }
  destruct (Inv_find _ _ _ _ _ Hinv Hf) as [HCI Hid32].
  assert (Hid : c_id c = id) by (apply find_self_some in Hf; tauto).
  pose proof HCI as (Hc & _ & _). pose proof Hc as (A1 & A2 & A3 & A4 & A5 & _).
  rewrite sub32_small in H by (unfold is32 in *; lia).
  set (k := N.min n (b_len (c_in c) - b_idx (c_in c))) in *.
  assert (Hk : k <= b_len (c_in c) - b_idx (c_in c)) by lia. clearbody k.
  destruct (rdn (b_data (c_in c)) (b_idx (c_in c)) k) as [d|] eqn:Ed; [|discriminate].
  apply rdn_unread_prefix in Ed.
  set (c1 := c_rx (c_win c) (c_pend c) (advance k (c_in c)) (c_ext c) c) in *.
  set (s1 := log (Copied id false d) (on_chan id (c_rx (c_win c) (c_pend c) (advance k (c_in c)) (c_ext c)) s)) in *.
  assert (T1 : touch s id c c1 [Copied id false d] s1).
  { change [Copied id false d] with ([] ++ [Copied id false d]).
    assert (T0 : touch s id c c1 [] (on_chan id (c_rx (c_win c) (c_pend c) (advance k (c_in c)) (c_ext c)) s)).
    { apply touch_on; [exact Hf | exact Hid | reflexivity]. }
    eapply touch_trans; [exact T0|].
    apply touch_logged; [eapply touch_find; exact T0 | reflexivity | intros _; exact I]. }
  destruct (UpdateChannelWindow id a s1) as [[r2 s2]|] eqn:Eu; [|discriminate].
  assert (Hs2 : s' = s2) by (destruct r2; congruence). subst s'.
  assert (I1 : Inv cl h s1).
  { eapply Inv_touch; [exact Hinv | exact T1|]. intros HC. apply CI_consume; assumption. }
  assert (G2 : grows s1 s2).
  { destruct (update_inv false false id a s1 r2 s2 c1 Eu (touch_find _ _ _ _ _ _ T1)) as [_ (c2 & es & T2 & _ & Hn2 & _)];
      try discriminate.
    - eapply Inv_touch with (cl := false) (h := false); [|exact T1|].
      + clear - Hinv. destruct Hinv as (B1 & B2 & B3). split; [assumption|]. split; [|assumption].
        eapply Forall_impl; [|exact B2]. intros x [X1 (X2 & _)]. split; [assumption|].
        split; [assumption|]. split; discriminate.
      + intros HC. apply CI_consume; assumption.
    - eapply grows_touch; [exact T2|]. apply Forall_forall. intros e He. specialize (Hn2 e He).
      destruct e; try contradiction; exact I. }
  split.
  - eapply update_inv; [exact Eu | eapply touch_find; exact T1 | exact I1 | exact Hcl|].
    intros Hht. destruct (Hh Hht) as [H1 H2]. split; [assumption|].
    eapply honest_grows; [eapply grows_lgrows; exact G2 | assumption].
  - assert (R : reads id false d s s2).
    { eapply reads_grows; [|exact G2]. eapply reads_touch; [exact T1|]. exists [], []. repeat constructor. }
    destruct r2; injection H as <-; [exact R | ..]; right; exists d; exact R.
Qed.

Lemma Inv_weaken : forall cl h s, Inv cl h s -> Inv false false s.
Proof.
  intros cl h s (B1 & B2 & B3). split; [assumption|]. split; [|assumption].
  eapply Forall_impl; [|exact B2]. intros x [X1 (X2 & _)]. split; [assumption|].
  split; [assumption|]. split; discriminate.
Qed.

Lemma readext_inv : forall cl h id n a s r s', ChannelReadExt id n a s = Some (r, s') -> Inv cl h s ->
  (cl = true -> ans_ok a) -> (h = true -> cl = true /\ peer_honest (s_log s')) ->
  Inv cl h s' /\ (match r with RData (x :: d) => reads id true (x :: d) s s' | _ => grows s s' end).
Proof.
  intros cl h id n a s r s' H Hinv Hcl Hh. unfold ChannelReadExt in H.
  destruct (find_self id (s_list s)) as [c|] eqn:Hf.
  2:{ injection H as <- <-. split; [assumption | apply grows_refl]. }
  destruct (n =? 0). { injection H as <- <-. split; [assumption | apply grows_refl]. }
  destruct (b_len (c_ext c) <? b_idx (c_ext c)).
  { injection H as <- <-. split; [assumption | apply grows_refl]. }
  destruct (Inv_find _ _ _ _ _ Hinv Hf) as [HCI Hid32].
  assert (Hid : c_id c = id) by (apply find_self_some in Hf; tauto).
  pose proof HCI as (Hc & _ & _).
  pose proof Hc as (A1 & A2 & A3 & A4 & A5 & A6 & A7 & A8 & A9 & A10 & A11 & A12).
  pose proof A4 as (X1 & X2 & X3 & X4).
  rewrite (sub32_used (c_ext c) A4) in H.
  set (k := N.min n (lenN (unread (c_ext c)))) in *.
  assert (Hk : k <= lenN (unread (c_ext c))) by lia. clearbody k.
  destruct (rdn (b_data (c_ext c)) (b_idx (c_ext c)) k) as [d|] eqn:Ed; [|discriminate].
  apply rdn_unread_prefix in Ed.
  destruct (N.eqb_spec k 0) as [K0|K0].
  { injection H as <- <-. split; [assumption|]. rewrite Ed, K0. apply grows_refl. }
  pose proof (lenN_unread (c_ext c)) as HL.
  assert (H32x : is32 (b_len (c_ext c))) by (unfold is32 in *; lia).
  destruct (unread_advance (c_ext c) k ltac:(lia) H32x) as [U1 U2].
  set (x1 := advance k (c_ext c)) in *.
  assert (Bx1 : buf_inv x1).
  { unfold buf_inv. rewrite U2. change (b_len x1) with (b_len (c_ext c)).
    change (b_cap x1) with (b_cap (c_ext c)). repeat split; try assumption; lia. }
  assert (Hx2 : exists x2, (if b_idx x1 =? b_len x1 then ShrinkBuffer x1 false else BOk WS_SUCCESS x1)
                           = BOk WS_SUCCESS x2 /\ buf_inv x2 /\ unread x2 = dropN k (unread (c_ext c))).
  { destruct (b_idx x1 =? b_len x1).
    - destruct (ShrinkBuffer_spec x1 false Bx1) as (b' & E & Hb & Hu & _).
      exists b'. rewrite E, Hu, U1. auto.
    - exists x1. auto. }
  destruct Hx2 as (x2 & Ex & Bx2 & Ux2). rewrite Ex in H. clear Ex.
  set (f1 := c_rx (add32 (c_win c) k) (c_pend c) (c_in c) x2) in *.
  set (s1 := log (Copied id true d) (on_chan id f1 s)) in *.
  assert (Hwk : c_win c + k < W32) by (unfold is32 in *; lia).
  assert (T1 : touch s id c (f1 c) [Copied id true d] s1).
  { change [Copied id true d] with ([] ++ [Copied id true d]).
    assert (T0 : touch s id c (f1 c) [] (on_chan id f1 s)).
    { apply touch_on; [exact Hf | exact Hid | reflexivity]. }
    eapply touch_trans; [exact T0|].
    apply touch_logged; [eapply touch_find; exact T0 | reflexivity | intros _; exact I]. }
  destruct (ChannelCreditWindow id k a s1) as [r1 s2] eqn:Ec.
  destruct (credit_spec _ _ _ _ _ _ _ Ec (touch_find _ _ _ _ _ _ T1) A11
              ltac:(unfold is32 in *; lia)) as (p & es & T2 & Hp & Hes & _ & Hout).
  assert (T3 : touch s id c (c_set_pend p (f1 c)) ([Copied id true d] ++ es) s2)
    by (eapply touch_trans; eassumption).
  assert (Q : quietly s2 s').
  { injection H as _ <-. destruct r1; try apply set_err_quiet.
    destruct (rc_eqb (s_err s) WS_WANT_WRITE && negb (s_out s2)); apply set_err_quiet. }
  assert (T4 : touch s id c (c_set_pend p (f1 c)) ([Copied id true d] ++ es) s')
    by (eapply touch_quiet; eassumption).
  split.
  2:{ assert (R : reads id true d s s').
      { eapply reads_touch; [exact T4|]. exists [], es. split; [reflexivity|].
        split; [constructor | eapply credit_nocopy; exact Hes]. }
      assert (Hr : r = RData d) by congruence. rewrite Hr.
      destruct d as [|x d]; [|exact R]. exfalso. apply K0.
      rewrite <- (N.min_l k (lenN (unread (c_ext c)))) by assumption. rewrite <- lenN_takeN, <- Ed. reflexivity. }
  eapply Inv_touch; [exact Hinv | exact T4|]. intros _.
  rewrite fold_left_app. cbn [fold_left].
  change (c_set_pend p (f1 c)) with (c_rx (add32 (c_win c) k) p (c_in c) x2 c).
  rewrite add32_small by assumption.
  (* the credit acts on the channel before the read, counting the bytes read *)
  rewrite (credit_es_view id (f1 c) es _ Hes).
  assert (Hsum : lenN (unread x2) = lenN (unread (c_ext c)) - k) by (rewrite Ux2, lenN_dropN; reflexivity).
  unfold CI, cinv, cle, cge in *; cbn [vstep c_rx c_in c_win0 c_ext c_win c_pwin c_pmax c_pend
    v_sf v_st v_cf v_ct v_ch v_w0 v_an v_gr v_us v_pm v_eof c_eofTx] in *.
  destruct HCI as (_ & Hle & Hge).
  split.
  - split; [assumption|]. split; [assumption|]. split; [assumption|]. split; [assumption|].
    split; [lia|]. split; [assumption|]. split; [|auto].
    rewrite Ux2, Ed, <- app_assoc, takeN_dropN. assumption.
  - change (c_pend (f1 c)) with (c_pend c) in Hout. split.
    + intros Hclt. specialize (Hle Hclt). destruct Hout as [(O1 & -> & -> & _)|(O1 & O2)].
      * change (an_of []) with 0. lia.
      * specialize (O2 (Hcl Hclt)). lia.
    + intros Hht. specialize (Hge Hht). destruct (Hh Hht) as [Hclt Hhon].
      specialize (Hle Hclt).
      assert (Hhon0 : hon (view_of id (s_log s))).
      { apply honest_hon. eapply honest_grows; [eapply lgrows_touch; exact T4 | exact Hhon]. }
      unfold hon in Hhon0.
      destruct Hout as [(O1 & _)|(O1 & O2)].
      * unfold is32 in *. lia.
      * specialize (O2 (Hcl Hclt)). lia.
Qed.

Lemma stream_read_inv : forall cl h n a s r s', stream_read n a s = Some (r, s') -> Inv cl h s ->
  (cl = true -> ans_ok a) -> (h = true -> cl = true /\ peer_honest (s_log s')) ->
  Inv cl h s' /\ (match r with
                   | RData d => d <> [] /\ exists c l, s_list s = c :: l /\ reads (c_id c) false d s s'
                   | _ => grows s s' end).
Proof.
  intros cl h n a s r s' H Hinv Hcl Hh. unfold stream_read in H.
  assert (Hq : forall s2, quietly s s2 -> Inv cl h s2 /\ grows s s2).
  { intros s2 Q. split; [eapply Inv_quiet; eassumption | apply grows_quiet; assumption]. }
  destruct (s_list s) as [|c l] eqn:El.
  { injection H as <- <-. apply Hq, quiet_refl. }
  destruct (N.eqb_spec n 0) as [N0|N0]. { injection H as <- <-. apply Hq, quiet_refl. }
  destruct (c_eofRx c). { injection H as <- <-. apply Hq, set_err_quiet. }
  destruct (keying s). { injection H as <- <-. apply Hq, set_err_quiet. }
  assert (Hf0 : find_self (c_id c) (s_list s) = Some c).
  { rewrite El. unfold find_self. cbn [find]. rewrite N.eqb_refl. reflexivity. }
  set (s0 := set_err WS_SUCCESS s) in *.
  assert (Q0 : quietly s s0) by apply set_err_quiet.
  assert (Hf : find_self (c_id c) (s_list s0) = Some c) by (rewrite (q_list _ _ Q0); exact Hf0).
  clear Hf0. assert (I0 : Inv cl h s0) by (eapply Inv_quiet; eassumption). clearbody s0.
  destruct (Inv_find _ _ _ _ _ I0 Hf) as [HCI Hid32].
  pose proof HCI as (Hc & _ & _). pose proof Hc as (A1 & A2 & A3 & A4 & A5 & _).
  assert (H32 : is32 (b_len (c_in c))) by (unfold is32 in *; lia).
  rewrite sub32_small in H by (unfold is32 in *; lia).
  destruct (N.eqb_spec (b_len (c_in c) - b_idx (c_in c)) 0) as [L0|L0].
  { injection H as <- <-. apply Hq. eapply quiet_trans; [exact Q0 | apply set_err_quiet]. }
  set (k := N.min n (b_len (c_in c) - b_idx (c_in c))) in *.
  assert (Hk : k <= b_len (c_in c) - b_idx (c_in c)) by lia.
  assert (K0 : k <> 0) by lia. clearbody k.
  destruct (rdn (b_data (c_in c)) (b_idx (c_in c)) k) as [d|] eqn:Ed; [|discriminate].
  apply rdn_unread_prefix in Ed.
  destruct (UpdateChannelWindow (c_id c) a s0) as [[r2 s2]|] eqn:Eu; [|discriminate].
  destruct (update_inv false false _ _ _ _ _ _ Eu Hf (Inv_weaken _ _ _ I0)) as [_ (c2 & es & T2 & U2 & Hn2 & _)];
    try discriminate.
  assert (Hn : Forall nocopy es).
  { apply Forall_forall. intros e He. specialize (Hn2 e He). destruct e; try contradiction; exact I. }
  assert (G02 : grows s s2) by (eapply grows_trans; [apply grows_quiet; exact Q0 | eapply grows_touch; eassumption]).
  assert (Gf : lgrows s2 s').
  { destruct r2; injection H as <- <-; try apply lgrows_refl. eexists. reflexivity. }
  assert (I2 : Inv cl h s2).
  { eapply update_inv; [exact Eu | exact Hf | exact I0 | exact Hcl|].
    intros Hht. destruct (Hh Hht) as [H1 H2]. split; [assumption|].
    apply honest_grows with s2; [eapply lgrows_touch; exact T2|].
    apply honest_grows with s'; assumption. }
  destruct (rc_eq_dec r2 WS_SUCCESS) as [->|Hne].
  2:{ assert (E : (RCode r2, s2) = (r, s')) by (destruct r2; congruence). injection E as <- <-.
      split; assumption. }
  injection H as <- <-.
  pose proof (touch_find _ _ _ _ _ _ T2) as Hf2.
  destruct (Inv_find _ _ _ _ _ I2 Hf2) as [HCI2 _].
  set (f := fun c => c_rx (c_win c) (c_pend c) (advance k (c_in c)) (c_ext c) c).
  assert (T3 : touch s2 (c_id c) c2 (f c2) [Copied (c_id c) false d] (log (Copied (c_id c) false d) (on_chan (c_id c) f s2))).
  { change [Copied (c_id c) false d] with ([] ++ [Copied (c_id c) false d]).
    assert (T0 : touch s2 (c_id c) c2 (f c2) [] (on_chan (c_id c) f s2)).
    { apply touch_on; [exact Hf2 | exact (t_id _ _ _ _ _ _ T2) | reflexivity]. }
    eapply touch_trans; [exact T0|].
    apply touch_logged; [eapply touch_find; exact T0 | reflexivity | intros _; exact I]. }
  split.
  2:{ split; [|exists c, l; split; [reflexivity|]; eapply grows_reads; [exact G02|];
               eapply reads_touch; [exact T3|]; exists [], []; repeat constructor].
      intros ->. apply K0.
      rewrite <- (N.min_l k (lenN (unread (c_in c)))) by (rewrite lenN_unread; assumption).
      rewrite <- lenN_takeN, <- Ed. reflexivity. }
  eapply Inv_touch; [exact I2 | exact T3|]. intros HC. cbn [fold_left]. apply CI_consume; [assumption| |].
  - pose proof (lenN_unread (c_in c)). pose proof (lenN_unread (c_in c2)). rewrite U2 in *. lia.
  - rewrite U2. assumption.
Qed.
