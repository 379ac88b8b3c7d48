(* ClientFitProps.v - C88: what the client sends during user authentication
   fits the space reserved for it; and the limit on keyboard-interactive
   requests (C86). *)
From Verif Require Import Base WireModel WireSpec WireProofs NameTable NegoModel NegoSpec NegoProofs AuthModel AuthSpec AuthProofs
  AuthStep AuthProps PathModel BufModel BufSpec PacketModel PacketSpec PacketProofs PacketTx PacketProps
  ClientAuthModel ClientAuthSpec ClientAuthProofs ClientAuthProofs2 ClientAuthProofs3 ClientAuthProofs4 ClientFit ClientAuthProps.
From Coq Require Import List NArith Lia Bool String.
Import ListNotations.
Open Scope N_scope.
Local Notation "a ++ b" := (@app _ a b) : list_scope.

(* C88: whatever the server sends and the application answers, each message
   the client sends (below 2 GiB), put through PreparePacket with the size
   estimate computed for it, then BundlePacket, on an encrypted connection with any output already waiting,
   stays inside the buffer: the call fails only if the random source or the
   cipher fails, and otherwise the queue grows by one well-padded protected
   packet with that message. *)
Theorem C88_fits : forall c sg user sid h s o an s' r j m est (C : crypto) rnd (t : txst C),
  small_signer sg -> sized_signer sg -> small user -> small sid -> creached c sg user sid h s ->
  wf_op o -> small_answers an -> cop_step c sg o an s = CR s' r j ->
  In (CvSend m est) (k_log s') -> lenN m < 2 ^ 31 ->
  crypto_ok C -> rnd_ok rnd -> buf_inv (t_buf t) -> keys_ok (t_keys t) -> k_enc (t_keys t) <> ID_NONE ->
  lenN (unread (t_buf t)) < 2 ^ 30 ->
  exists r2 t', queue_message rnd t est m = TxRet r2 t' /\
    ((r2 = WS_SUCCESS /\ exists pad k' wire,
        well_padded (k_block (t_keys t)) (k_aead (t_keys t)) m pad /\
        protects (t_keys t) (t_seq t) (frame m pad) k' wire /\
        unread (t_buf t') = unread (t_buf t) ++ wire /\ lenN wire = lenN (frame m pad) + k_macSz (t_keys t) /\
        buf_inv (t_buf t') /\ t_keys t' = k' /\ t_seq t' = add32 (t_seq t) 1 /\ t_msgs t' = add32 (t_msgs t) 1) \/
     (r2 = WS_CRYPTO_FAILED /\ rnd (pad_for (k_block (t_keys t)) (k_aead (t_keys t)) (lenN m)) = None /\
        t_seq t' = t_seq t) \/
     (r2 = WS_ENCRYPT_E /\ t_seq t' = t_seq t /\ exists k pkt,
        if k_aead (t_keys t) then exists iv, c_seal C k iv (takeN 4 pkt) (dropN 4 pkt) = None else c_enc C k pkt = None)).
Proof.
  intros c sg user sid h s o an s' r j m est C rnd t Hsg Hz Hu Hsid R Hw Han Hs Hin Hm HC HR Hb Hk He Hl.
  assert (F : Forall fit (k_log s')).
  { destruct (reached_cinv _ _ _ _ _ _ Hsg Hu Hsid R) as (Eu & Es & (v & Hv & Hp) & _).
    apply (step_fit c sg o an s s' r j (match v with Some l => names_of l | None => [] end)); try assumption.
    - rewrite Eu. exact Hu.
    - exact (peer_cases _ _ _ Hp).
    - exact (reached_fit _ _ _ _ _ _ Hsg Hz Hu Hsid R). }
  rewrite Forall_forall in F. destruct (F _ Hin Hm) as (F1 & F2 & F3).
  assert (B : k_block (t_keys t) = 16).
  { destruct Hk as [(E0 & _)|[(_ & _ & E0 & _)|(_ & _ & E0 & _)]]; [contradiction|exact E0|exact E0]. }
  change (2 ^ 31) with 2147483648 in *. change (2 ^ 30) with 1073741824 in *.
  apply queue_message_slack; [exact HC|exact HR|exact Hb|exact Hk|exact F3|rewrite B; lia|unfold W32; lia].
Qed.

(* C86: at most three keyboard-interactive requests in one connection *)
Definition kinv (p : cev -> bool) (s : client) : Prop := countP p (k_log s) <= k_tries s /\ k_tries s <= 3.
Lemma kinv_other : forall p s s', kinv p s -> k_tries s' = k_tries s -> countP p (k_log s') = countP p (k_log s) -> kinv p s'.
Proof. intros p s s' (A & B) E1 E2. unfold kinv. rewrite E1, E2. split; assumption. Qed.
Lemma count_no : forall (p : cev -> bool) l e, p e = false -> countP p (l ++ [e]) = countP p l.
Proof. intros p l e H. rewrite countP_app. unfold countP at 2. cbn [filter]. rewrite H. change (lenN (@nil cev)) with 0. lia. Qed.

Section Three.
  Variable user : bytes.
  Hypothesis Hu : small user.
  Variable p : cev -> bool.
  Hypothesis Hp : forall e, p e = true -> asks_by user "keyboard-interactive" e.
  Lemma not_send : forall e, (forall m est, e <> CvSend m est) -> p e = false.
  Proof. intros e H. destruct (p e) eqn:E; [|reflexivity]. destruct (Hp _ E) as (h & rest & est & X & _). exfalso. exact (H _ _ X). Qed.
  Lemma not_kb : forall id (name : string) x est, IdToName id = ascii name -> is32 (lenN (ascii name)) ->
    ascii name <> ascii "keyboard-interactive" -> p (CvSend (request_start user id ++ x) est) = false.
  Proof.
    intros id name x est E1 E2 E3. destruct (p _) eqn:E; [|reflexivity]. exfalso.
    destruct (Hp _ E) as (h & rest & est' & X & Y).
    destruct (start_head user id name (small32 _ Hu) E1 E2) as (h0 & H0 & H1).
    apply (f_equal (fun e => match e with CvSend (_ :: m) _ => m | _ => [] end)) in X. rewrite H0 in X. cbn [app] in X.
    destruct (is_strs_inj _ _ _ _ _ _ H1 Y X eq_refl) as (Z & _).
    apply E3. apply (f_equal (fun l => List.nth 2 l [])) in Z. exact Z.
  Qed.
  Lemma kb_request : forall c sg an t s s' r, k_user s = user -> (m_keyboard t = true -> k_tries s < 3) -> kinv p s ->
    SendUserAuthRequest c sg an t s = (s', r) -> kinv p s'.
  Proof.
    intros c sg an t s s' r Eu T K. unfold SendUserAuthRequest, choose.
    destruct (cc_kb c && m_keyboard t) eqn:Ekb.
    { apply andb_true_iff in Ekb. destruct Ekb as (_ & Ekb). specialize (T Ekb). destruct K as (K1 & K2).
      cbv zeta. let H := fresh in inj H. unfold kinv. cbn [k_log clog set_tries k_tries].
      assert (X : add32 (k_tries s) 1 mod 256 = k_tries s + 1).
      { rewrite add32_small by (unfold W32; lia). apply N.mod_small. lia. }
      rewrite X, countP_app. split; [|lia]. unfold countP at 2. cbn [filter]. destruct (p _).
      - change (lenN [CvSend (request_start (k_user s) (choice_id ChKeyboard) ++ c32toa 0 ++ c32toa 0)
           (add32 (1 + 4 * 3) (add32 (lenN (k_user s)) (lenN name_connection + lenN (IdToName (choice_id ChKeyboard)))))]) with 1. lia.
      - change (lenN (@nil cev)) with 0. lia. }
    destruct (cc_cb c); cbn [negb].
    2:{ let H := fresh in inj H. exact K. }
    assert (NS : forall e l, (forall m est, e <> CvSend m est) -> countP p (l ++ [e]) = countP p l).
    { intros e l H. apply count_no. apply not_send. exact H. }
    assert (KEY : forall s0 k, k_user s0 = user -> kinv p s0 ->
      (let payloadSz := add32 (1 + 4 * 3) (add32 (lenN (k_user s0)) (lenN name_connection + lenN (IdToName (choice_id (ChKey k))))) in
       let start := request_start (k_user s0) (choice_id (ChKey k)) in
          if k_pkdone s0 then (s0, WS_INVALID_ALGO_ID)
          else
            let s := set_pkdone true s0 in
            match PrepareKey sg (k_peer s) payloadSz k with
            | RErr e => (s, e)
            | ROk ks =>
                let '(r, ev) := BuildKey sg (k_sid s) start k ks in
                let s := fold_left (fun s e => clog e s) ev s in
                match r with
                | RErr e => (s, e)
                | ROk m => send_payload an m (ks_est ks) s
                end
            end) = (s', r) -> kinv p s').
    { intros s0 k U0 K0. cbv zeta. destruct (k_pkdone s0).
      { let H := fresh in inj H. exact K0. }
      destruct (PrepareKey _ _ _ _) as [ks|e].
      2:{ let H := fresh in inj H. exact K0. }
      unfold BuildKey. cbv zeta. cbn [fold_left].
      destruct (BuildSignature _ _ _ _) as [f|e].
      2:{ let H := fresh in inj H. apply (kinv_other p s0); [exact K0|reflexivity|]. cbn [k_log clog set_pkdone]. apply NS. discriminate. }
      let H := fresh in inj H. apply (kinv_other p s0); [exact K0|reflexivity|]. cbn [k_log clog set_pkdone k_user]. rewrite U0.
      rewrite <- !app_assoc. rewrite app_assoc. rewrite count_no; [apply NS; discriminate|].
      apply (not_kb _ "publickey"%string); [vm_compute; reflexivity|vm_compute; reflexivity|vm_compute; discriminate]. }
    assert (ASK : forall s0, k_user s0 = user -> kinv p s0 -> kinv p (clog (CvKey (an_key an)) s0)).
    { intros s0 U0 K0. apply (kinv_other p s0); [exact K0|reflexivity|]. cbn [k_log clog]. apply NS. discriminate. }
    destruct (m_password t).
    { assert (KP : kinv p (clog (CvPassword (an_password an)) s)).
      { apply (kinv_other p s); [exact K|reflexivity|]. cbn [k_log clog]. apply NS. discriminate. }
      destruct (an_password an) as [pw|] eqn:Ep.
      2:{ destruct (m_key t); [|let H := fresh in inj H; exact KP].
          destruct (an_key an) as [k|] eqn:Ek.
          - cbv zeta. cbn [choice_id]. apply (KEY _ k); [exact Eu|]. apply (ASK (clog (CvPassword None) s)); [exact Eu|exact KP].
          - let H := fresh in inj H. apply (ASK (clog (CvPassword None) s)); [exact Eu|exact KP]. }
      cbv zeta. destruct (PreparePassword _ _) as [est|e].
      2:{ let H := fresh in inj H. exact KP. }
      let H := fresh in inj H. apply (kinv_other p (clog (CvPassword (Some pw)) s)); [exact KP|reflexivity|]. cbn [k_log clog k_user]. rewrite Eu.
      apply count_no. apply (not_kb _ "password"%string); [vm_compute; reflexivity|vm_compute; reflexivity|vm_compute; discriminate]. }
    destruct (m_key t).
    { destruct (an_key an) as [k|] eqn:Ek.
      - cbv zeta. cbn [choice_id]. apply (KEY _ k); [exact Eu|]. apply (ASK s); [exact Eu|exact K].
      - let H := fresh in inj H. apply (ASK s); [exact Eu|exact K]. }
    cbv zeta. let H := fresh in inj H. apply (kinv_other p s); [exact K|reflexivity|]. cbn [k_log clog]. rewrite Eu.
    apply count_no. rewrite <- (app_nil_r (request_start _ _)).
    apply (not_kb _ "none"%string); [vm_compute; reflexivity|vm_compute; reflexivity|vm_compute; discriminate].
  Qed.

  Lemma kb_step : forall c sg o an s s' r j, k_user s = user -> kinv p s -> cop_step c sg o an s = CR s' r j -> kinv p s'.
  Proof.
    intros c sg o an s s' r j Eu K.
    assert (NO : forall e x, CR s e x = CR s' r j -> kinv p s') by (intros e x H; apply cfst in H; destruct H as (-> & _); exact K).
    destruct o as [|[b|b|b|b] ]; cbn [cop_step client_step].
    - unfold first_request. destruct (SendUserAuthRequest _ _ _ _ _) as [s1 r1] eqn:E. intros H. apply cfst in H. destruct H as (-> & _).
      apply (kb_request _ _ _ _ _ _ _ Eu) with (3 := E); [discriminate|exact K].
    - unfold DoExtInfo. destruct (GetUint32 _ _ _) as [n i|e i|]; [|apply NO|discriminate].
      generalize (List.length b). intros fuel. clear Eu. revert n i s K NO. induction fuel as [|f IH]; intros n i s K NO; cbn [ext_loop].
      + destruct (n =? 0); apply NO.
      + destruct (n =? 0); [apply NO|].
        match goal with |- match ?x with _ => _ end = _ -> _ => destruct x as [ [n1 v] i2|e i2|] end; [|apply NO|discriminate].
        destruct (_ =? _); [|apply IH; [exact K|exact NO]].
        destruct (DoExtInfoServerSigAlgs c v s) as [s1 r1] eqn:E.
        assert (K1 : kinv p s1).
        { revert E. unfold DoExtInfoServerSigAlgs. destruct (GetNameListRaw _ _) as [ids|e]; [destruct (_ =? 0); [|destruct (_ =? _)]|];
            let H := fresh in inj H; exact K. }
        destruct r1; try (intros H; apply cfst in H; destruct H as (-> & _); exact K1).
        apply IH; [exact K1|]. intros e x H. apply cfst in H. destruct H as (-> & _). exact K1.
    - unfold DoUserAuthFailure. cbv zeta. destruct (_ =? 0); [apply NO|].
      match goal with |- match ?x with _ => _ end = _ -> _ => destruct x as [ids i|e i|] end; [|apply NO|discriminate].
      destruct (negb _); [apply NO|].
      destruct (SendUserAuthRequest _ _ _ _ _) as [s1 r1] eqn:E. intros H. apply cfst in H. destruct H as (-> & _).
      apply (kb_request _ _ _ _ _ _ _ Eu) with (3 := E); [|exact K]. cbn [m_keyboard]. intros H. apply andb_true_iff in H. apply N.ltb_lt, (proj2 H).
    - unfold DoUserAuthSuccess. destruct (negb _); [apply NO|]. intros H. apply cfst in H. destruct H as (-> & _). exact K.
    - destruct (cc_kb c); [|apply NO].
      unfold DoUserAuthInfoRequest. cbv zeta. destruct (_ =? 0); [apply NO|].
      match goal with |- match ?x with _ => _ end = _ -> _ => destruct x as [ [[[n i] l] ps] i2|e i2|] end; [|apply NO|discriminate].
      unfold SendUserAuthKeyboardResponse. destruct (negb (cc_cb c)); [apply NO|]. cbv zeta.
      assert (KA : kinv p (clog (CvPrompts n i l ps (an_prompts an)) s)).
      { apply (kinv_other p s); [exact K|reflexivity|]. cbn [k_log clog]. apply count_no, not_send. discriminate. }
      destruct (an_prompts an) as [rs|]; [|intros H; apply cfst in H; destruct H as (-> & _); exact KA].
      destruct (negb _); [intros H; apply cfst in H; destruct H as (-> & _); exact KA|].
      cbn [send_payload]. intros H; apply cfst in H; destruct H as (-> & _).
      apply (kinv_other p (clog (CvPrompts n i l ps (Some rs)) s)); [exact KA|reflexivity|].
      match goal with |- countP p (k_log (clog ?e ?s0)) = _ => change (countP p (k_log s0 ++ [e]) = countP p (k_log s0)) end. apply count_no.
      destruct (p _) eqn:E; [|reflexivity]. exfalso. destruct (Hp _ E) as (h & rest & est & X & _). discriminate X.
  Qed.
End Three.

Theorem C86_keyboard_thrice : forall c sg user sid h s o an s' r j p,
  small_signer sg -> small user -> small sid -> creached c sg user sid h s ->
  wf_op o -> small_answers an -> cop_step c sg o an s = CR s' r j ->
  (forall e, p e = true -> asks_by user "keyboard-interactive" e) -> countP p (k_log s') <= 3.
Proof.
  intros c sg user sid h s o an s' r j p Hsg Hu Hsid R Hw Han Hs Hp.
  assert (K : kinv p s).
  { clear Hs. induction R as [|h0 s0 o0 an0 s1 r0 j0 R IH Hw0 Han0 Hs0 Hg0].
    - split; cbn; lia.
    - destruct (reached_cinv _ _ _ _ _ _ Hsg Hu Hsid R) as (Eu & _).
      exact (kb_step user Hu p Hp c sg o0 an0 s0 s1 r0 j0 Eu IH Hs0). }
  destruct (reached_cinv _ _ _ _ _ _ Hsg Hu Hsid R) as (Eu & _).
  destruct (kb_step user Hu p Hp c sg o an s s' r j Eu K Hs) as (K1 & K2). lia.
Qed.

(* ---- a connection on which the estimate is short -------------------------------------- *)
Definition demo_fail_kb : bytes := demo_str (ascii "keyboard-interactive") ++ [0].
Definition demo_none : canswers := mkCans None None None WS_SUCCESS.
Definition demo_kb : list (cop * canswers) :=
  [(CFirst, demo_none); (CMsg (SFailure demo_fail_kb), demo_none); (CMsg (SFailure demo_fail_kb), demo_none)].
Definition demo_kb_msg : bytes := request_start demo_user ID_USERAUTH_KEYBOARD ++ c32toa 0 ++ c32toa 0.
Definition is_demo_kb (e : cev) : bool := match e with CvSend m _ => bytes_eqb m demo_kb_msg | _ => false end.

Lemma demo_none_small : small_answers demo_none.
Proof. split; [|split]; intros x H; discriminate H. Qed.
Lemma demo_sized : sized_signer demo_sg.
Proof.
  split; [discriminate|]. split; [discriminate|]. split; [|discriminate].
  intros p n H. cbn [s_ed_size demo_sg] in H. injection H as <-. split; [reflexivity|].
  intros m s X. cbn [s_ed demo_sg] in X. apply (f_equal (fun o => match o with Some x => lenN x | None => 0 end)) in X.
  rewrite <- X. vm_compute. discriminate.
Qed.

Definition demo_next (o : cop) (s : client) : client :=
  match cop_step demo_cfg demo_sg o demo_none s with CR s' _ _ => s' | COob => s end.
Definition demo_s1 := Eval vm_compute in demo_next CFirst (client_init demo_user demo_sid).
Definition demo_s2 := Eval vm_compute in demo_next (CMsg (SFailure demo_fail_kb)) demo_s1.
Definition demo_s3 := Eval vm_compute in demo_next (CMsg (SFailure demo_fail_kb)) demo_s2.
Definition demo_s4 := Eval vm_compute in demo_next (CMsg (SFailure demo_fail_kb)) demo_s3.

(* the hypotheses of both theorems, on a connection that makes its third
   keyboard-interactive request; its estimate is eight bytes short *)
Example C88_met : exists s s' m est, creached demo_cfg demo_sg demo_user demo_sid demo_kb s /\
  small demo_user /\ small demo_sid /\ small_signer demo_sg /\ sized_signer demo_sg /\ small_answers demo_none /\
  wf_op (CMsg (SFailure demo_fail_kb)) /\
  cop_step demo_cfg demo_sg (CMsg (SFailure demo_fail_kb)) demo_none s = CR s' WS_SUCCESS (lenN demo_fail_kb) /\
  In (CvSend m est) (k_log s') /\ lenN m = est + 8 /\
  countP is_demo_kb (k_log s') = 3 /\ (forall e, is_demo_kb e = true -> asks_by demo_user "keyboard-interactive" e) /\
  keys_ok ex_k1 /\ keys_ok ex_k2 /\ k_enc ex_k1 <> ID_NONE /\ k_enc ex_k2 <> ID_NONE /\ crypto_ok toy.
Proof.
  assert (W : forall o, forallb (fun x => x <? 256) (cop_bytes o) = true -> lenN (cop_bytes o) < 2 ^ 28 -> wf_op o).
  { intros o H1 H2. pose proof (demo_small _ H1 H2) as (A & B). split; [exact A|apply small32; split; assumption]. }
  assert (W1 : wf_op (CMsg (SFailure demo_fail_kb))) by (apply W; vm_compute; reflexivity).
  exists demo_s3, demo_s4, demo_kb_msg, (lenN demo_kb_msg - 8).
  split.
  { unfold demo_kb. change [(CFirst, demo_none); (CMsg (SFailure demo_fail_kb), demo_none); (CMsg (SFailure demo_fail_kb), demo_none)]
      with ((([] ++ [(CFirst, demo_none)]) ++ [(CMsg (SFailure demo_fail_kb), demo_none)]) ++ [(CMsg (SFailure demo_fail_kb), demo_none)]).
    apply (cr_step _ _ _ _ _ demo_s2 _ _ _ WS_SUCCESS (lenN demo_fail_kb)); [|exact W1|exact demo_none_small|vm_compute; reflexivity|reflexivity].
    apply (cr_step _ _ _ _ _ demo_s1 _ _ _ WS_SUCCESS (lenN demo_fail_kb)); [|exact W1|exact demo_none_small|vm_compute; reflexivity|reflexivity].
    apply (cr_step _ _ _ _ _ (client_init demo_user demo_sid) _ _ _ WS_SUCCESS 0); [|apply W; vm_compute; reflexivity|exact demo_none_small|vm_compute; reflexivity|reflexivity].
    apply cr_init. }
  split; [sm|]. split; [sm|]. split; [exact demo_signer_small|]. split; [exact demo_sized|]. split; [exact demo_none_small|].
  split; [exact W1|]. split; [vm_compute; reflexivity|].
  split; [vm_compute; right; left; reflexivity|].
  split; [vm_compute; reflexivity|]. split; [vm_compute; reflexivity|].
  split.
  { intros [a|a|a b x y z|a b|m est] H; try discriminate H. cbn [is_demo_kb] in H. apply bytes_eqb_eq in H.
    destruct (start_head demo_user ID_USERAUTH_KEYBOARD "keyboard-interactive"%string) as (h & E1 & E2);
      [vm_compute; reflexivity|vm_compute; reflexivity|vm_compute; reflexivity|].
    exists h, (c32toa 0 ++ c32toa 0), est. split; [|exact E2]. rewrite H. unfold demo_kb_msg. rewrite E1. reflexivity. }
  destruct ex_keys_ok as (_ & K1 & K2). split; [exact K1|]. split; [exact K2|]. split; [discriminate|]. split; [discriminate|exact toy_ok].
Qed.
Print Assumptions C88_fits.
Print Assumptions C86_keyboard_thrice.
