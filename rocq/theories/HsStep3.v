(* HsStep3.v - the filter, one packet, one receive. *)
From Verif Require Import Base WireModel WireSpec WireProofs NegoModel AuthModel AuthSpec AuthProofs AuthStep HsModel HsSpec HsProofs HsStep HsStep2.
From Coq Require Import List NArith Bool Lia.
Import ListNotations.
Open Scope N_scope.

Ltac nb := repeat match goal with
  | H : context [?a =? ?b] |- _ => destruct (N.eqb_spec a b)
  | H : context [?a <=? ?b] |- _ => destruct (N.leb_spec a b)
  | H : context [?a <? ?b] |- _ => destruct (N.ltb_spec a b)
  end; cbn [andb orb negb] in *.

Lemma kex_filter_spec : forall c m s, INV c s -> kex_number m ->
  match kex_filter m s with
  | Some (ok, s1) =>
      ok = true ->
      (m = 20 /\ s_kpeer s = false /\ s1 = s) \/
      (m <> 20 /\ s_kpeer s = true /\ expecting s = Some m /\ s1 = on_hand (hw_expect None) s)
  | None => m <> 20 /\ s_kpeer s = true /\ expecting s = None
  end.
Proof.
  intros c m s I Hm. unfold kex_filter. destruct (s_kpeer s) eqn:Kp.
  - unfold MSG_KEXINIT. destruct (N.eqb_spec m 20) as [E|E]; [discriminate|].
    unfold expecting. destruct (s_hand s) as [h|] eqn:Eh; cbn [option_map]; [|auto].
    destruct (h_expect h) as [x|] eqn:Ex; [|auto]. destruct (N.eqb_spec m x); [|discriminate]. subst x. right. auto.
  - unfold MSG_KEXINIT. intros E. apply N.eqb_eq in E. left. auto.
Qed.

Lemma trans_kex : forall m, trans_gen m = false -> trans m = true <-> kex_number m.
Proof.
  intros m H. unfold trans_gen, trans, kex_number in *.
  rewrite andb_true_iff, N.leb_le, N.leb_le. apply andb_false_iff in H. rewrite N.leb_gt, N.leb_gt in H. lia.
Qed.

Record passed (c : hcfg) (m : N) (s s1 : hs) : Prop := mkPassed {
  f_ok : forall p, okev c (EAct m p) (s_log s);
  f_st : (s1 = s /\ (kex_number m -> expecting s = None)) \/ (s1 = on_hand (hw_expect None) s /\ expecting s = Some m /\ kex_number m);
  f_kp : kex_number m -> m <> 20 -> s_kpeer s = true;
  f_20 : m = 20 -> s_kpeer s = false;
  f_21 : c_side c = Client -> m = 21 -> agreed s <> None;
  f_cl : c_side c = Client -> m <> 30 /\ m <> 32 /\ m <> 34;
  f_60 : m = 60 -> c_side c = Client;
  f_50 : c_side c = Server -> 50 <= m -> 4 <= s_acc s;
  f_80 : c_side c = Server -> 80 <= m -> 8 <= s_acc s;
  f_79 : c_side c = Server -> 50 <= m < 80 -> s_acc s < 8;
  f_c80 : c_side c = Client -> 80 <= m -> 10 <= s_con s;
  f_c50 : c_side c = Client -> 50 <= m -> 7 <= s_con s }.

Lemma allowed_spec : forall c m s s1, INV c s -> allowed c m s = (true, s1) -> passed c m s s1.
Proof.
  intros c m s s1 I H. unfold allowed in H.
  assert (Ik := i_kex c s I). assert (Iw := i_await c s I).
  destruct (c_side c) eqn:Hc.
  - (* server *)
    unfold allowed_server in H. unfold MSG_SERVICE_ACCEPT, MSG_SERVICE_REQUEST in H.
    destruct (N.eqb_spec m 6) as [E6|E6]; [discriminate|].
    (* what is left of the filter gives these *)
    assert (Mk : (s1 = s /\ (kex_number m -> expecting s = None) \/ s1 = on_hand (hw_expect None) s /\ expecting s = Some m /\ kex_number m) ->
                 (kex_number m -> m <> 20 -> s_kpeer s = true) -> (m = 20 -> s_kpeer s = false) ->
                 (m <> 60) -> (50 <= m -> 4 <= s_acc s) -> (80 <= m -> 8 <= s_acc s) -> (50 <= m < 80 -> s_acc s < 8) -> passed c m s s1).
    { intros A1 A2 A3 A4 A5 A6 A7. constructor; try assumption; try congruence.
      - intros p. cbn. split; [intros E; rewrite <- Ik; auto|]. split.
        { intros Hk. split.
          - intros E. destruct (N.eq_dec m 20) as [|Ne]; [assumption|]. rewrite <- Ik, (A2 Hk Ne) in E. discriminate.
          - intros x E. rewrite <- Iw in E. destruct A1 as [(_ & A1)|(_ & A1 & _)]; [rewrite (A1 Hk) in E; discriminate|congruence]. }
        split; [|congruence]. intros _. split; [exact E6|]. split.
        + intros L. destruct (i_acc c s I Hc) as (G1 & G2). specialize (A6 L). split; [apply G1; lia|apply G2; lia].
        + intros L. apply (i_acc80 c s I Hc). auto.
      - intros _; exact A5.
      - intros _; exact A6.
      - intros _; exact A7. }
    destruct (N.eqb_spec m 5) as [E5|E5].
    { injection H as _ <-. apply Mk; try (unfold kex_number; lia). left. split; [reflexivity|]. unfold kex_number; lia. }
    destruct (trans_gen m) eqn:Tg.
    { assert (L : m <= 19) by (unfold trans_gen in Tg; apply andb_prop in Tg; destruct Tg as (_ & Tg); apply N.leb_le; exact Tg).
      injection H as <-. apply Mk; try (unfold kex_number; lia). left. split; [reflexivity|]. unfold kex_number; lia. }
    pose proof (trans_kex m Tg) as Tk. destruct (trans m) eqn:Tr.
    + assert (Hk : kex_number m) by (apply Tk; reflexivity). pose proof (kex_filter_spec c m s I Hk) as F.
      destruct (kex_filter m s) as [[ok s2]|].
      * injection H as -> <-. destruct (F eq_refl) as [(F1 & F2 & ->)|(F1 & F2 & F3 & ->)].
        -- apply Mk; try (unfold kex_number in *; lia); auto. left. split; [reflexivity|]. intros _. apply (i_idle c s I F2).
        -- apply Mk; try (unfold kex_number in *; lia); auto.
      * destruct F as (F1 & F2 & F3). injection H as Hb <-. apply Mk; try (unfold kex_number in *; lia); auto.
    + assert (Hk : ~ kex_number m) by (intros X; apply Tk in X; discriminate). injection H as Hb <-.
      unfold ACCEPT_KEYED, MSG_GEX_REQUEST, ACCEPT_SERVER_USERAUTH_SENT, MSG_GLOBAL_REQUEST, MSG_USERAUTH_REQUEST, MSG_INFO_RESPONSE in Hb.
      apply Mk; try (intros; contradiction); try (unfold kex_number in *; intros; lia); try (left; split; [reflexivity|intros; contradiction]);
        try (intros; nb; try discriminate; try lia).
  - (* client *)
    unfold allowed_client in H. unfold MSG_SERVICE_ACCEPT, MSG_SERVICE_REQUEST, MSG_USERAUTH_REQUEST, CONNECT_USERAUTH_REQUEST_SENT in H.
    destruct (N.eqb_spec m 5) as [E5|E5]; cbn [orb] in H; [discriminate|].
    destruct (N.eqb_spec m 50) as [E50|E50]; cbn [orb] in H; [discriminate|].
    assert (Mk : (s1 = s /\ (~ kex_number m \/ m = 20) \/ s1 = on_hand (hw_expect None) s /\ expecting s = Some m /\ kex_number m) ->
                 (kex_number m -> m <> 20 -> s_kpeer s = true) -> (m = 20 -> s_kpeer s = false) ->
                 (80 <= m -> 10 <= s_con s) -> (50 <= m < 80 -> s_con s < 10) -> (50 <= m -> 7 <= s_con s) -> passed c m s s1).
    { intros A1 A2 A3 A6 A7 A8.
      assert (Ex : kex_number m -> m = 20 \/ (awaited (s_log s) = Some m /\ (m = 21 \/ m = 31 \/ m = 33))).
      { intros Hk. destruct A1 as [(_ & [A1|A1])|(_ & A1 & _)]; [contradiction|auto|]. right. rewrite <- Iw. split; [exact A1|].
        exact (i_exp c s I Hc m A1). }
      constructor; try assumption; try congruence.
      - intros p. cbn. split; [intros E; rewrite <- Ik; auto|]. split.
        { intros Hk. split.
          - intros E. destruct (N.eq_dec m 20) as [|Ne]; [assumption|]. rewrite <- Ik, (A2 Hk Ne) in E. discriminate.
          - intros x E. destruct (Ex Hk) as [E20|(E1 & _)]; [|congruence].
            rewrite <- Iw in E. destruct (i_idle c s I (A3 E20)) as (X & _). congruence. }
        split; [congruence|]. intros _. split; [exact E5|]. split; [exact E50|]. split; [intros L; apply (i_con c s I Hc); auto|].
        split; [intros L; apply (i_con80 c s I Hc); auto|exact Ex].
      - destruct A1 as [(-> & [A1|A1])|A1]; [left; split; [reflexivity|contradiction]| |right; exact A1].
        left. split; [reflexivity|]. intros _. apply (i_idle c s I (A3 A1)).
      - intros _ E. subst m. destruct (Ex ltac:(unfold kex_number; lia)) as [X|(X & _)]; [discriminate|].
        apply (i_21 c s I). rewrite Iw. exact X.
      - intros _. split; [|split]; intros ->; destruct (Ex ltac:(unfold kex_number; lia)) as [X|(_ & X)]; lia.
      - intros _; exact A6.
      - intros _; exact A8. }
    destruct (N.eqb_spec m 6) as [E6|E6].
    { injection H as _ <-. apply Mk; try (unfold kex_number; lia). left. split; [reflexivity|left; unfold kex_number; lia]. }
    destruct (trans_gen m) eqn:Tg.
    { assert (L : m <= 19) by (unfold trans_gen in Tg; apply andb_prop in Tg; destruct Tg as (_ & Tg); apply N.leb_le; exact Tg).
      injection H as <-. apply Mk; try (unfold kex_number; lia). left. split; [reflexivity|left; unfold kex_number; lia]. }
    pose proof (trans_kex m Tg) as Tk. destruct (trans m) eqn:Tr.
    + assert (Hk : kex_number m) by (apply Tk; reflexivity). pose proof (kex_filter_spec c m s I Hk) as F.
      destruct (kex_filter m s) as [[ok s2]|].
      * injection H as -> <-. destruct (F eq_refl) as [(F1 & F2 & ->)|(F1 & F2 & F3 & ->)].
        -- apply Mk; try (unfold kex_number in *; lia); auto.
        -- apply Mk; try (unfold kex_number in *; lia); auto.
      * exfalso. injection H as Hb _. unfold MSG_GLOBAL_REQUEST, auth_range in Hb. unfold kex_number in Hk. nb; try discriminate; lia.
    + assert (Hk : ~ kex_number m) by (intros X; apply Tk in X; discriminate). injection H as Hb <-.
      unfold CONNECT_USERAUTH_ACCEPT_DONE, MSG_GLOBAL_REQUEST, auth_range in Hb.
      apply Mk; try (intros; contradiction); try (unfold kex_number in *; intros; lia); try (left; split; [reflexivity|left; exact Hk]);
        try (intros; nb; try discriminate; try lia).
Qed.

(* the message is logged *)
Lemma INV_act : forall c m p s s1, INV c s -> passed c m s s1 -> is_kexinit (EAct m p) = false -> INV c (logev (EAct m p) s1).
Proof.
  intros c m p s s1 I F Hz. destruct F as [F1 F2 F3 F4 F5 F6 F7 F8 F9 F9b F10 F11].
  assert (E : exists h', s1 = w_hand h' s /\ (kex_number m -> expecting s1 = None) /\ (~ kex_number m -> expecting s1 = expecting s) /\ (forall x, expecting s1 = Some x -> expecting s = Some x) /\
     agreed s1 = agreed s /\ kexof s1 = kexof s /\ hashing s1 = hashing s /\ (s_hand s <> None -> s_hand s1 <> None)).
  { destruct F2 as [(-> & E)|(-> & E & E')].
    - exists (s_hand s). split; [destruct s; reflexivity|]. split; [exact E|]. auto 10.
    - exists (option_map (hw_expect None) (s_hand s)). split; [reflexivity|].
      unfold expecting, agreed, kexof, hashing; pj. destruct (s_hand s); pj; repeat split; auto; try discriminate; try contradiction. }
  destruct E as (h' & E0 & E1 & E2 & E3 & E4 & E5 & E6 & E7). inv_destruct I.
  assert (X : forall P : hs -> Prop, True) by auto. clear X.
  assert (G : s_acc s1 = s_acc s /\ s_con s1 = s_con s /\ s_srv s1 = s_srv s /\ s_kself s1 = s_kself s /\ s_kpeer s1 = s_kpeer s /\
              s_held s1 = s_held s /\ s_auth s1 = s_auth s /\ s_log s1 = s_log s) by (rewrite E0; repeat split; reflexivity).
  destruct G as (G1 & G2 & G3 & G4 & G5 & G6 & G7 & G8). clear E0.
  constructor; fold (expecting (logev (EAct m p) s1)); change (expecting (logev (EAct m p) s1)) with (expecting s1);
    change (agreed (logev (EAct m p) s1)) with (agreed s1); change (kexof (logev (EAct m p) s1)) with (kexof s1);
    change (hashing (logev (EAct m p) s1)) with (hashing s1); change (keying (logev (EAct m p) s1)) with (keying s1);
    change (client_state (logev (EAct m p) s1)) with (client_state s1); unfold keying, client_state in *; pj;
    rewrite ?G1, ?G2, ?G3, ?G4, ?G5, ?G6, ?G7, ?G8, ?E4, ?E5, ?E6; try assumption.
  - auto.
  - cbn [in_kex]. rewrite Hz. exact I2.
  - intros E. destruct (I3 E) as (A & B & C & D). repeat split; auto.
    destruct (expecting s1) eqn:Ex; [|reflexivity]. pose proof (E3 n eq_refl). congruence.
  - cbn [awaited]. unfold kex_numberb. destruct ((20 <=? m) && (m <=? 49)) eqn:Em.
    + apply E1. unfold kex_number. apply andb_prop in Em. rewrite !N.leb_le in Em. exact Em.
    + rewrite E2; [exact I4|]. unfold kex_number. apply andb_false_iff in Em. rewrite !N.leb_gt in Em. lia.
  - intros H E. destruct (I5 H E) as (b & A & B). exists b. cbn [exchange]. rewrite Hz. split; [right; exact A|exact B].
  - intros A B b H. cbn [exchange]. rewrite Hz. intros [X|X]; [discriminate|]. exact (I5' A B b H X).
  - intros E. apply I6. auto.
  - intros E. destruct (I12 E) as (A & B). split; intros L; [apply (granted_app [_]); auto|right; auto].
  - intros E. destruct (I13 E) as (A & B). split; intros L; [apply (granted_app [_]); auto|apply (success_app [_]); auto].
  - intros E L m' q [X|X]; [injection X as <- <-|eauto]. destruct (N.lt_ge_cases m 80) as [|Hm]; [assumption|]. specialize (F9 E Hm). lia.
  - intros E. destruct (I14 E) as (A & B). split; intros L; right; auto.
  - intros E L. right; auto.
  - intros E L m' q [X|X]; [injection X as <- <-|eauto]. destruct (N.lt_ge_cases m 80) as [|Hm]; [assumption|]. specialize (F10 E Hm). lia.
  - intros E x Ex. apply (I16 E). auto.
  - split; [apply F1|exact I18].
Qed.

Definition actpost (c : hcfg) (m : N) (p : bytes) (ok : Prop) (s s' : hs) : Prop := post c plain ok (logev (EAct m p) s) s'.

(* handling a message makes the received keys change only for NEWKEYS *)
Definition actev (m : N) (p : bytes) (s : hs) (e : ev) : Prop := plain e \/ (m = 21 /\ nkev s p e).
Lemma actev_plain : forall c m p s ok s0 s', post c plain ok s0 s' -> post c (actev m p s) ok s0 s'.
Proof. intros. eapply post_impl; [|eassumption]. intros e He. left; exact He. Qed.

Lemma dispatch_post : forall c a m p s s1, INV c s -> passed c m s s1 -> wf_hans a -> bytes_ok p -> is32 (lenN p) ->
  post c (actev m p (logev (EAct m p) s1)) (alive (snd (dispatch c a m p (logev (EAct m p) s1))) = true) (logev (EAct m p) s1) (fst (dispatch c a m p (logev (EAct m p) s1))).
Proof.
  intros c a m p s s1 I F Ha Hp Hl. unfold dispatch.
  destruct (N.eqb_spec m MSG_KEXINIT) as [E|N20].
  { apply actev_plain. unfold MSG_KEXINIT in E. subst m. assert (Kp : s_kpeer s = false) by (apply (f_20 _ _ _ _ F); reflexivity).
    assert (s1 = s) as ->. { destruct (f_st _ _ _ _ F) as [(-> & _)|(_ & X & _)]; [reflexivity|]. destruct (i_idle c s I Kp). congruence. }
    pose proof (DoKexInit_post c a p s I Kp (f_ok _ _ _ _ F p)) as P.
    specialize (P ltac:(intros Hz; eapply INV_act; [exact I|exact F|cbn; rewrite Hz; reflexivity])).
    destruct (DoKexInit c a p (logev (EAct 20 p) s)) as [s2 r]. cbn [fst snd] in P.
    destruct (negb (rc_eqb r WS_MATCH_KEX_ALGO_E) && keying s2 && (s_con s2 =? CONNECT_DONE)) eqn:Ec; [|exact P].
    apply andb_prop in Ec. destruct Ec as (Ec & _). apply andb_prop in Ec. destruct Ec as (_ & Ek).
    destruct (SendKexFirst_post c None a True s2 (p_inv _ _ _ _ _ P) (i_hand c s2 (p_inv _ _ _ _ _ P) Ek)) as (o & _ & P2).
    destruct (SendKexFirst c None a s2) as [s3 e]. cbn [fst snd] in *.
    eapply (post_trans c plain (alive r = true) True); [auto|exact P|].
    eapply post_then_bg; [eapply post_impl; [apply pset_none|exact P2]|apply tx_err]. }
  assert (I1 : INV c (logev (EAct m p) s1)).
  { eapply INV_act; [exact I|exact F|]. cbn. unfold MSG_KEXINIT in N20. apply N.eqb_neq in N20. rewrite N20. reflexivity. }
  assert (Kp1 : s_kpeer s1 = s_kpeer s /\ s_acc s1 = s_acc s /\ s_con s1 = s_con s /\ s_log s1 = s_log s /\ agreed s1 = agreed s).
  { destruct (f_st _ _ _ _ F) as [(-> & _)|(-> & _)]; [auto|]. unfold agreed; pj. destruct (s_hand s); auto. }
  destruct Kp1 as (Kp1 & Ac1 & Co1 & Lg1 & Ag1).
  set (s2 := logev (EAct m p) s1) in *.
  assert (KpX : kex_number m -> s_kpeer s2 = true).
  { intros Hk. unfold s2; pj. rewrite Kp1. apply (f_kp _ _ _ _ F Hk). exact N20. }
  assert (In2 : In (EAct m p) (s_log s2)) by (left; reflexivity).
  destruct (N.eqb_spec m MSG_NEWKEYS) as [E|_].
  { unfold MSG_NEWKEYS in E. subst m. eapply post_impl; [intros e He; right; split; [reflexivity|exact He]|]. eapply DoNewKeys_post; [exact I1|apply KpX; unfold kex_number; lia|reflexivity|].
    intros Hc. change (agreed s2) with (agreed s1). rewrite Ag1. apply (f_21 _ _ _ _ F Hc eq_refl). }
  apply actev_plain.
  assert (Sv : m = 30 \/ m = 32 \/ m = 34 -> c_side c = Server).
  { intros Hm. destruct (c_side c) eqn:Hc; [reflexivity|]. destruct (f_cl _ _ _ _ F Hc) as (A & B & C). lia. }
  destruct ((m =? MSG_KEXDH_INIT) || (m =? MSG_GEX_INIT)) eqn:E30.
  { assert (Hm : m = 30 \/ m = 32) by (apply orb_prop in E30; destruct E30 as [E|E]; apply N.eqb_eq in E; unfold MSG_KEXDH_INIT, MSG_GEX_INIT in E; auto).
    apply DoKexDhInit_post; [exact I1|apply KpX; unfold kex_number; lia|apply Sv; tauto|exact Ha]. }
  assert (Ex : is_kexinit (EAct m p) = false) by (cbn; unfold MSG_KEXINIT in N20; apply N.eqb_neq in N20; rewrite N20; reflexivity).
  assert (Exc : In (EAct m p) (exchange (s_log s2))) by (unfold s2; pj; cbn [exchange]; rewrite Ex; left; reflexivity).
  destruct (N.eqb_spec m MSG_KEXDH_REPLY) as [E|_].
  { unfold MSG_KEXDH_REPLY in E. assert (D : post c plain (alive (snd (DoKexDhReply c a p s2)) = true) s2 (fst (DoKexDhReply c a p s2))).
    { eapply DoKexDhReply_post; try eassumption; [apply KpX; unfold kex_number; lia|auto]. }
    destruct (s_hand s2) as [h|]; [|apply post_refl; exact I1].
    destruct (h_kex h) as [[|]|]; [apply DoGexGroup_post; exact I1|exact D|exact D]. }
  destruct (N.eqb_spec m MSG_GEX_REQUEST) as [E|_].
  { unfold MSG_GEX_REQUEST in E. apply DoGexRequest_post; [exact I1|apply KpX; unfold kex_number; lia|apply Sv; tauto]. }
  destruct (N.eqb_spec m MSG_GEX_REPLY) as [E|_].
  { unfold MSG_GEX_REPLY in E. eapply DoKexDhReply_post; try eassumption; [apply KpX; unfold kex_number; lia|auto]. }
  destruct (N.eqb_spec m MSG_SERVICE_REQUEST) as [E|_].
  { unfold DoServiceRequest. destruct (names_userauth p); cbn [fst snd]; [apply client_post; [exact I1|unfold CLIENT_USERAUTH_REQUEST_DONE; lia]|].
    apply send1_plain; exact I1. }
  destruct (N.eqb_spec m MSG_SERVICE_ACCEPT) as [E|_].
  { unfold DoServiceAccept. destruct (names_userauth p); cbn [fst snd]; [apply srv_post; [exact I1|lia]|]. apply send1_plain; exact I1. }
  destruct (N.eqb_spec m MSG_USERAUTH_REQUEST) as [E|_].
  { unfold MSG_USERAUTH_REQUEST in E. subst m. eapply DoAuth_post; try eassumption. constructor. }
  destruct (N.eqb_spec m MSG_INFO_RESPONSE) as [E|_].
  { unfold MSG_INFO_RESPONSE in E. subst m. destruct (c_kb (c_auth c)); [eapply DoAuth_post; try eassumption; constructor|apply send1_plain; exact I1]. }
  destruct (N.eqb_spec m MSG_INFO_REQUEST) as [E|_].
  { unfold MSG_INFO_REQUEST in E. subst m. destruct (c_kb (c_auth c)); [|apply send1_plain; exact I1].
    apply DoInfoRequest_post; [exact I1|]. apply (f_60 _ _ _ _ F eq_refl). }
  destruct (N.eqb_spec m MSG_USERAUTH_SUCCESS) as [E|_].
  { unfold MSG_USERAUTH_SUCCESS in E. subst m. destruct (N.eqb_spec (lenN p) 0) as [E0|E0]; cbn [fst snd]; [|apply post_refl; exact I1].
    assert (p = []) as -> by (destruct p; [reflexivity|unfold lenN in E0; cbn in E0; lia]).
    constructor; pj; auto.
    - inv_destruct I1. constructor; unfold keying, expecting, agreed, kexof, hashing, client_state, kb_bound in *; pj; try assumption.
      intros _. split; [intros _; exact In2|lia].
    - exists []. split; [reflexivity|constructor]. }
  apply DoChannel_post; [exact I1| | |exists p, (s_log s1); reflexivity].
  - intros L Hc. unfold s2; pj. apply (granted_app [_]). rewrite Lg1. apply (i_acc c s I Hc). pose proof (f_80 _ _ _ _ F Hc L). lia.
  - intros L Hc. unfold s2; pj. right. rewrite Lg1. apply (i_con c s I Hc). apply (f_c80 _ _ _ _ F Hc L).
Qed.
