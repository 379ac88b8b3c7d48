(* ClientFit.v - C88: the size estimates of the client's requests. *)
From Verif Require Import Base WireModel WireSpec WireProofs NameTable NegoModel NegoSpec NegoProofs AuthModel AuthSpec AuthProofs
  AuthStep AuthProps PathModel ClientAuthModel ClientAuthSpec ClientAuthProofs ClientAuthProofs2 ClientAuthProofs3 ClientAuthProofs4.
From Coq Require Import List NArith Lia Bool String.
Import ListNotations.
Open Scope N_scope.
Local Notation "a ++ b" := (@app _ a b) : list_scope.

Definition fit (e : cev) : Prop :=
  match e with
  | CvSend m est => lenN m < 2 ^ 31 -> lenN m <= est + 8 /\ est < 2 ^ 31 /\ m <> []
  | _ => True
  end.

Lemma lenN_c32 : forall x, lenN (c32toa x) = 4.
Proof. intros x. reflexivity. Qed.
Ltac lens := repeat (rewrite lenN_app || rewrite lenN_c32).
Lemma len_start : forall user id, lenN (request_start user id) = 13 + lenN user + lenN name_connection + lenN (IdToName id).
Proof. intros user id. unfold request_start. lens. change (lenN [MSGID_USERAUTH_REQUEST]) with 1. lia. Qed.
Lemma start_ne : forall user id x, request_start user id ++ x <> [].
Proof. intros user id x H. discriminate H. Qed.
Lemma choice_name : forall ch, lenN (IdToName (choice_id ch)) <= 20.
Proof. intros [| | |]; vm_compute; discriminate. Qed.
Lemma conn_name : lenN name_connection = 14.
Proof. vm_compute. reflexivity. Qed.
Lemma est_base : forall user id, lenN user < 2 ^ 28 -> lenN (IdToName id) <= 20 ->
  add32 (1 + 4 * 3) (add32 (lenN user) (lenN name_connection + lenN (IdToName id))) = lenN (request_start user id).
Proof.
  intros user id Hu Hn. rewrite len_start, conn_name. change (2 ^ 28) with 268435456 in Hu.
  rewrite (add32_small (lenN user)) by (unfold W32; lia). rewrite add32_small by (unfold W32; lia). lia.
Qed.

(* the signature field against the size wolfCrypt gave *)
Lemma sig_fit : forall sg k ks name kd msg f n, sized_signer sg -> In (name, kd) sig_table -> kind_of (ks_id ks) = Some kd ->
  ks_id ks = NameToId (ascii name) -> n = (match kd with KEcc => 5 | _ => 3 end) ->
  match kd with
    | KRsa => s_rsa_size sg (pk_priv k) = Some (ks_sz ks) /\ name <> "ssh-rsa"%string
    | KEcc => s_ecc_size sg (pk_priv k) = Some (ks_sz ks)
    | KEd => s_ed_size sg (pk_priv k) = Some (ks_sz ks)
    | KOther => s_other_size sg (ascii name) (pk_priv k) = Some (ks_sz ks)
    end ->
  BuildSignature sg k ks msg = ROk f -> lenN f <= 4 * n + ks_sz ks + lenN (ascii name) /\ ks_sz ks < 2 ^ 28.
Proof.
  intros sg k ks name kd msg f n (S1 & S2 & S3 & S4) Hin Hk Hid -> Hsz.
  destruct (row_facts _ _ Hin) as (_ & R2 & _ & _).
  unfold BuildSignature. rewrite Hk. destruct kd.
  - destruct Hsz as (Hsz & _). destruct (s_rsa sg _ _ _) as [sig|]; [|discriminate].
    destruct (N.eqb_spec (lenN sig) (ks_sz ks)) as [L|L]; [|discriminate]. intros H. injection H as <-.
    rewrite Hid, R2. unfold sig_field. lens. split; [lia|exact (S1 _ _ Hsz)].
  - destruct (S2 _ _ Hsz) as (T1 & T2). destruct (s_ecc sg _ _ _) as [[r s]|] eqn:E; [|discriminate].
    intros H. injection H as <-. rewrite Hid, R2. unfold ecc_field. cbv zeta. lens.
    pose proof (T2 _ _ _ _ E). pose proof (top_pad_le r). pose proof (top_pad_le s). split; [lia|exact T1].
  - destruct (S3 _ _ Hsz) as (T1 & T2). destruct (s_ed sg _ _) as [sig|] eqn:E; [|discriminate].
    intros H. injection H as <-. pose proof (T2 _ _ E).
    assert (X : IdToName ID_ED25519 = ascii name).
    { cbn [In sig_table] in Hin. rewrite <- R2. f_equal.
      repeat (destruct Hin as [Hin|Hin]; [try discriminate Hin; injection Hin as <-; vm_compute; reflexivity|]). contradiction. }
    rewrite X. unfold sig_field. lens. split; [lia|exact T1].
  - destruct (S4 _ _ _ Hsz) as (T1 & T2). rewrite Hid, R2. destruct (s_other sg _ _ _) as [sig|] eqn:E; [|discriminate].
    intros H. injection H as <-. pose proof (T2 _ _ E). unfold sig_field. lens. split; [lia|exact T1].
Qed.

Lemma fit_snoc : forall l e, Forall fit l -> fit e -> Forall fit (l ++ [e]).
Proof. intros l e H1 H2. apply Forall_app. split; [exact H1|constructor; [exact H2|constructor]]. Qed.

Lemma key_fit : forall sg an k s s' r ns, sized_signer sg -> small (k_user s) -> small (pk_type k) -> small (pk_blob k) ->
  (k_peer s = [] \/ k_peer s = decoded ns) -> Forall fit (k_log s) ->
  (match PrepareKey sg (k_peer s) (lenN (request_start (k_user s) (choice_id (ChKey k)))) k with
   | RErr e => (s, e)
   | ROk ks =>
       let '(r, ev) := BuildKey sg (k_sid s) (request_start (k_user s) (choice_id (ChKey k))) k ks in
       let s := fold_left (fun s e => clog e s) ev s in
       match r with
       | RErr e => (s, e)
       | ROk m => send_payload an m (ks_est ks) s
       end
   end) = (s', r) -> Forall fit (k_log s').
Proof.
  intros sg an k s s' r ns Hz (_ & Hu) (_ & Ht) (_ & Hb) Hp F.
  destruct (PrepareKey _ _ _ _) as [ks|e] eqn:E.
  2:{ let H := fresh in inj H. exact F. }
  assert (E' : exists ns', PrepareKey sg (decoded ns') (lenN (request_start (k_user s) (choice_id (ChKey k)))) k = ROk ks).
  { destruct Hp as [Hp|Hp]; rewrite Hp in E; [exists []|exists ns]; exact E. }
  destruct E' as (ns' & E').
  destruct (prepare_key _ _ _ _ _ E') as (name & kd & n & P1 & P2 & P3 & _ & P5 & P6 & P7 & P8 & P9).
  destruct (row_facts _ _ P1) as (_ & _ & _ & R4).
  unfold BuildKey. rewrite P5. cbv zeta. cbn [fold_left].
  destruct (BuildSignature sg k ks _) as [f|e] eqn:Es.
  2:{ let H := fresh in inj H. apply fit_snoc; [exact F|exact I]. }
  destruct (sig_fit _ _ _ _ _ _ _ _ Hz P1 P2 P3 P6 P9 Es) as (L1 & L2).
  let H := fresh in inj H. cbn [k_log clog]. apply fit_snoc; [apply fit_snoc; [exact F|exact I]|].
  change (2 ^ 28) with 268435456 in *. 
  assert (Hst : lenN (request_start (k_user s) (choice_id (ChKey k))) <= 47 + lenN (k_user s)).
  { rewrite len_start, conn_name. pose proof (choice_name (ChKey k)). lia. }
  set (st := request_start _ _) in *.
  assert (Hn : n <= 5) by (rewrite P6; destruct kd; lia).
  intros _. lens. change (lenN [1]) with 1.
  rewrite P7. rewrite (add32_small (lenN st)) by (unfold W32; lia). rewrite add32_small by (unfold W32; lia).
  split; [lia|]. split; [change (2 ^ 31) with 2147483648; lia|].
  unfold st. rewrite <- app_assoc. apply start_ne.
Qed.

Lemma request_fit : forall c sg an t s s' r ns, sized_signer sg -> small (k_user s) -> small_answers an ->
  (k_peer s = [] \/ k_peer s = decoded ns) -> Forall fit (k_log s) ->
  SendUserAuthRequest c sg an t s = (s', r) -> Forall fit (k_log s').
Proof.
  intros c sg an t s s' r ns Hz Hu (A1 & A2 & _) Hp F. pose proof Hu as (_ & Hu').
  assert (NOSEND : forall x, lenN x <= 8 -> forall id, lenN (IdToName id) <= 20 ->
     fit (CvSend (request_start (k_user s) id ++ x) (lenN (request_start (k_user s) id)))).
  { intros x Lx id Li _. rewrite lenN_app. split; [lia|]. split; [|apply start_ne].
    rewrite len_start, conn_name. change (2 ^ 28) with 268435456 in Hu'. change (2 ^ 31) with 2147483648. lia. }
  unfold SendUserAuthRequest, choose.
  destruct (cc_kb c && m_keyboard t).
  { cbv zeta. let H := fresh in inj H. cbn [k_log clog set_tries k_user].
    rewrite (est_base (k_user s) _ Hu' (choice_name ChKeyboard)).
    apply fit_snoc; [exact F|]. apply NOSEND; [|apply choice_name]. lens. lia. }
  destruct (cc_cb c); cbn [negb].
  2:{ let H := fresh in inj H. exact F. }
  assert (KEY : forall s0, k_user s0 = k_user s -> k_peer s0 = k_peer s -> Forall fit (k_log s0) ->
    match (let s1 := clog (CvKey (an_key an)) s0 in
           (s1, match an_key an with Some k => Some (ChKey k) | None => None end)) with
     | (s, None) => (s, WS_FATAL_ERROR)
     | (s, Some ch) =>
      let id := choice_id ch in
      let payloadSz := add32 (1 + 4 * 3) (add32 (lenN (k_user s)) (lenN name_connection + lenN (IdToName id))) in
      let start := request_start (k_user s) id in
      match ch with
      | ChNone => send_payload an start payloadSz s
      | ChPassword pw =>
          match PreparePassword payloadSz pw with
          | RErr e => (s, e)
          | ROk est => send_payload an (start ++ BuildPassword pw) est s
          end
      | ChKeyboard =>
          let s := set_tries (add32 (k_tries s) 1 mod 256) s in
          send_payload an (start ++ c32toa 0 ++ c32toa 0) payloadSz s
      | ChKey k =>
          if k_pkdone s then (s, WS_INVALID_ALGO_ID)
          else
            let s := set_pkdone true s in
            match PrepareKey sg (k_peer s) payloadSz k with
            | RErr e => (s, e)
            | ROk ks =>
                let '(r, ev) := BuildKey sg (k_sid s) start k ks in
                let s := fold_left (fun s e => clog e s) ev s in
                match r with
                | RErr e => (s, e)
                | ROk m => send_payload an m (ks_est ks) s
                end
            end
      end
     end = (s', r) -> Forall fit (k_log s')).
  { intros s0 U0 P0 F0. cbv zeta. destruct (an_key an) as [k|] eqn:Ek.
    2:{ let H := fresh in inj H. apply fit_snoc; [exact F0|exact I]. }
    destruct (A2 _ eq_refl) as (K1 & K2).
    assert (F1 : Forall fit (k_log (clog (CvKey (Some k)) s0))) by (apply fit_snoc; [exact F0|exact I]).
    cbn [k_user clog k_pkdone]. rewrite U0. rewrite (est_base (k_user s) _ Hu' (choice_name (ChKey k))).
    destruct (k_pkdone s0).
    { let H := fresh in inj H. exact F1. }
    intros H. apply (key_fit sg an k (set_pkdone true (clog (CvKey (Some k)) s0)) s' r ns Hz); try assumption.
    - cbn [k_user set_pkdone clog]. rewrite U0. exact Hu.
    - cbn [k_peer set_pkdone clog]. rewrite P0. exact Hp.
    - cbn [k_user set_pkdone clog]. rewrite U0. exact H. }
  destruct (m_password t).
  { destruct (an_password an) as [pw|] eqn:Ep.
    2:{ destruct (m_key t).
        - apply KEY; [reflexivity|reflexivity|]. apply fit_snoc; [exact F|exact I].
        - let H := fresh in inj H. apply fit_snoc; [exact F|exact I]. }
    cbv zeta. cbn [k_user clog]. rewrite (est_base (k_user s) _ Hu' (choice_name (ChPassword pw))).
    unfold PreparePassword. cbv zeta. destruct (_ || _) eqn:Eo.
    { let H := fresh in inj H. apply fit_snoc; [exact F|exact I]. }
    rewrite !orb_false_iff, !N.ltb_ge in Eo. destruct Eo as ((O1 & O2) & O3).
    let H := fresh in inj H. cbn [k_log clog]. apply fit_snoc; [apply fit_snoc; [exact F|exact I]|].
    intros _. unfold BuildPassword. lens. change (lenN [0]) with 1. unfold MAX_PACKET_SZ in *.
    rewrite add32_small by (unfold W32; lia). change (2 ^ 31) with 2147483648. split; [lia|]. split; [lia|]. apply start_ne. }
  destruct (m_key t).
  { apply KEY; [reflexivity|reflexivity|exact F]. }
  cbv zeta. let H := fresh in inj H. cbn [k_log clog].
  rewrite (est_base (k_user s) _ Hu' (choice_name ChNone)). apply fit_snoc; [exact F|].
  pose proof (NOSEND [] ltac:(vm_compute; discriminate) _ (choice_name ChNone)) as X. rewrite app_nil_r in X. exact X.
Qed.

Lemma answers_est : forall rs n, n + lenN (List.concat (map (fun r => c32toa (lenN r) ++ r) rs)) < W32 ->
  fold_left (fun n r => add32 n (4 + lenN r)) rs n = n + lenN (List.concat (map (fun r => c32toa (lenN r) ++ r) rs)).
Proof.
  induction rs as [|r rs IH]; intros n H; cbn [map List.concat fold_left] in *; [change (lenN (@nil N)) with 0; lia|].
  rewrite !lenN_app, lenN_c32 in *. rewrite add32_small by lia. rewrite IH by lia. lia.
Qed.

Lemma step_fit : forall c sg o an s s' r j ns, sized_signer sg -> small (k_user s) -> small_answers an ->
  (k_peer s = [] \/ k_peer s = decoded ns) -> wf_op o -> Forall fit (k_log s) ->
  cop_step c sg o an s = CR s' r j -> Forall fit (k_log s').
Proof.
  intros c sg o an s s' r j ns Hz Hu Han Hp (Hb & Hl) F.
  destruct o as [|[b|b|b|b] ]; cbn [cop_step client_step cop_bytes] in *.
  - unfold first_request. destruct (SendUserAuthRequest _ _ _ _ _) as [s1 r1] eqn:E. intros H. apply cfst in H. destruct H as (-> & _).
    exact (request_fit _ _ _ _ _ _ _ ns Hz Hu Han Hp F E).
  - intros H. assert (X : k_log s' = k_log s).
    { revert H. unfold DoExtInfo. destruct (GetUint32 _ _ _) as [n i|e i|]; [|intros H; apply cfst in H; destruct H as (-> & _); reflexivity|discriminate].
      generalize (List.length b). intros fuel. clear F Hu Hp. revert n i s. induction fuel as [|f IH]; intros n i s; cbn [ext_loop].
      - destruct (n =? 0); intros H; apply cfst in H; destruct H as (-> & _); reflexivity.
      - destruct (n =? 0); [intros H; apply cfst in H; destruct H as (-> & _); reflexivity|].
        match goal with |- match ?x with _ => _ end = _ -> _ => destruct x as [ [nm v] i2|e i2|] end;
          [|intros H; apply cfst in H; destruct H as (-> & _); reflexivity|discriminate].
        destruct (_ =? _); [|apply IH].
        destruct (DoExtInfoServerSigAlgs c v s) as [s1 r1] eqn:E.
        destruct (sig_algs_step _ _ _ _ _ E) as ((_ & _ & L & _) & _). rewrite <- L.
        destruct r1; try (intros H; apply cfst in H; destruct H as (-> & _); reflexivity). apply IH. }
    rewrite X. exact F.
  - unfold DoUserAuthFailure. cbv zeta. destruct (_ =? 0); [intros H; apply cfst in H; destruct H as (-> & _); exact F|].
    match goal with |- match ?x with _ => _ end = _ -> _ => destruct x as [ids i|e i|] end;
      [|intros H; apply cfst in H; destruct H as (-> & _); exact F|discriminate].
    destruct (negb _); [intros H; apply cfst in H; destruct H as (-> & _); exact F|].
    destruct (SendUserAuthRequest _ _ _ _ _) as [s1 r1] eqn:E. intros H. apply cfst in H. destruct H as (-> & _).
    exact (request_fit _ _ _ _ _ _ _ ns Hz Hu Han Hp F E).
  - unfold DoUserAuthSuccess. intros H. destruct (negb _); apply cfst in H; destruct H as (-> & _); exact F.
  - destruct (cc_kb c); [|intros H; apply cfst in H; destruct H as (-> & _); exact F].
    unfold DoUserAuthInfoRequest. cbv zeta. destruct (_ =? 0); [intros H; apply cfst in H; destruct H as (-> & _); exact F|].
    match goal with |- match ?x with _ => _ end = _ -> _ => destruct x as [ [[[n i] l] ps] i2|e i2|] end;
      [|intros H; apply cfst in H; destruct H as (-> & _); exact F|discriminate].
    unfold SendUserAuthKeyboardResponse. destruct (negb (cc_cb c)); [intros H; apply cfst in H; destruct H as (-> & _); exact F|].
    cbv zeta. destruct (an_prompts an) as [rs|] eqn:Er.
    2:{ intros H; apply cfst in H; destruct H as (-> & _). apply fit_snoc; [exact F|exact I]. }
    destruct (negb _). { intros H; apply cfst in H; destruct H as (-> & _). apply fit_snoc; [exact F|exact I]. }
    cbn [send_payload]. intros H; apply cfst in H; destruct H as (-> & _). cbn [k_log clog].
    apply fit_snoc; [apply fit_snoc; [exact F|exact I]|].
    intros L. rewrite !lenN_app, lenN_c32 in *. change (lenN [61]) with 1 in *. change (2 ^ 31) with 2147483648 in *.
    rewrite answers_est; change (add32 1 4) with 5; [|unfold W32; lia].
    split; [lia|]. split; [lia|discriminate].
Qed.

Lemma reached_fit : forall c sg user sid h s, small_signer sg -> sized_signer sg -> small user -> small sid ->
  creached c sg user sid h s -> Forall fit (k_log s).
Proof.
  intros c sg user sid h s Hsg Hz Hu Hsid R. induction R as [|h s o an s' r j R IH Hw Han Hs Hg]; [constructor|].
  destruct (reached_cinv _ _ _ _ _ _ Hsg Hu Hsid R) as (Eu & Es & (v & Hv & Hp) & _).
  apply (step_fit c sg o an s s' r j (match v with Some l => names_of l | None => [] end)); try assumption.
  - rewrite Eu. exact Hu.
  - exact (peer_cases _ _ _ Hp).
Qed.
