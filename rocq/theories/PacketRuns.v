(* PacketRuns.v - runs of DoReceive are determined by the byte stream. *)
From Verif Require Import Base WireModel WireSpec WireProofs NameTable NegoModel NegoProofs BufModel BufSpec BufProofs
  PacketModel IoSpec IoProofs PacketSpec PacketProofs PacketSafe PacketTx PacketTrip.
From Coq Require Import List NArith ZArith Lia Bool ZifyBool ZifyNat ZifyN.
Import ListNotations.
Open Scope N_scope.

Section Runs.
  Context {C : crypto} {H : Type}.
  Variable A : applib C H.
  Hypothesis HC : crypto_len C.
  Hypothesis HA : app_ok A.
  Implicit Types s : rxst C H.

  Lemma packet_done : forall m a w e l a' rest, sp_packet A m a w = SDone e l a' rest -> s_ph a' = PhInit.
  Proof.
    intros m a w e l a' rest E. do 6 (destruct w as [|? w]; [discriminate|]). cbn [sp_packet] in E.
    destruct (_ <? 4); [discriminate|]. destruct (_ <? _); [discriminate|].
    destruct (a_allowed A (s_app a) n4) as [ok h]. destruct ok; [|discriminate]. cbn [negb] in E.
    destruct (rc_eqb _ WS_AUTH_PENDING); [discriminate|].
    match type of E with (let '(_, _) := ?x in _) = _ => destruct x as [[k cnt] msgs] end.
    destruct (a_highwater _ _ _ _) as [hw h']. injection E as _ _ <- _. reflexivity.
  Qed.
  Lemma finish_done : forall a w e l a' rest, sp_finish A a w = SDone e l a' rest -> s_ph a' = PhInit.
  Proof.
    intros a w e l a' rest E. unfold sp_finish in E.
    destruct (_ <? _); [discriminate|]. destruct (k_aead _).
    - destruct (_ =? 0); [discriminate|]. destruct (negb _); [discriminate|].
      destruct (c_open _ _ _ _ _ _); [|discriminate]. eapply packet_done; eassumption.
    - match type of E with (let '(_, _) := ?x in _) = _ => destruct x as [[[r k'] pt] cnt] end.
      destruct (negb _); [discriminate|]. destruct (negb _); [discriminate|]. eapply packet_done; eassumption.
  Qed.
  Lemma length_done : forall a w e l a' rest, sp_length A a w = SDone e l a' rest -> s_ph a' = PhInit.
  Proof.
    intros a w e l a' rest E. unfold sp_length in E. destruct (_ <? _); [discriminate|]. eapply finish_done; eassumption.
  Qed.
  Lemma receive_done : forall a w e l a' rest, sp_receive A a w = SDone e l a' rest -> s_ph a' = PhInit.
  Proof.
    intros a w e l a' rest E. unfold sp_receive in E. destruct (s_ph a).
    - destruct (_ <? _); [discriminate|]. destruct (k_aead _); [eapply length_done; eassumption|].
      destruct (Decrypt _ _) as [[r k'] d]. destruct (negb _); [discriminate|]. eapply length_done; eassumption.
    - eapply length_done; eassumption.
    - eapply finish_done; eassumption.
    - eapply packet_done; eassumption.
  Qed.

  (* what the stream alone determines: the messages handled and the final
     sequence number *)
  Inductive sp_trace : abst C H -> bytes -> list handled -> N -> Prop :=
  | st_wait : forall a w, sp_receive A a w = SWait -> sp_trace a w [] (s_seq a)
  | st_stop : forall a w e l, sp_receive A a w = SStop e l -> sp_trace a w l (s_seq a)
  | st_last : forall a w e l a' rest, sp_receive A a w = SDone e l a' rest -> passes e = false -> sp_trace a w l (s_seq a')
  | st_more : forall a w e l a' rest log q, sp_receive A a w = SDone e l a' rest -> passes e = true ->
      sp_trace a' rest log q -> sp_trace a w (l ++ log) q.

  Lemma sp_trace_det : forall a w l1 q1, sp_trace a w l1 q1 -> forall l2 q2, sp_trace a w l2 q2 -> l1 = l2 /\ q1 = q2.
  Proof.
    induction 1 as [a w E|a w e l E|a w e l a' rest E P|a w e l a' rest log q E P T IH]; intros l2 q2 T2;
      inversion T2 as [b w' E2|b w' e2 l' E2|b w' e2 l' b' r2 E2 P2|b w' e2 l' b' r2 log2 q' E2 P2 T2']; subst;
      rewrite E in E2; try discriminate; try (split; reflexivity); injection E2; intros; subst; try congruence; try (split; reflexivity).
    destruct (IH _ _ T2') as (-> & ->). auto.
  Qed.
  Lemma sp_trace_eq : forall a w b v l q, s_seq a = s_seq b -> sp_receive A a w = sp_receive A b v -> sp_trace a w l q -> sp_trace b v l q.
  Proof.
    intros a w b v l q Es E T. inversion T as [a0 w0 E0|a0 w0 e l0 E0|a0 w0 e l0 a' rest E0 P|a0 w0 e l0 a' rest log q0 E0 P T']; subst; rewrite E in E0;
      rewrite ?Es.
    - apply st_wait; assumption.
    - eapply st_stop; eassumption.
    - eapply st_last; eassumption.
    - eapply st_more; eassumption.
  Qed.

  (* one call, split by what it returned *)
  Lemma call_cases : forall s net r s' n l, rx_inv s -> verified s -> tight s -> no_err net ->
    DoReceive A s net = RxRet r s' n l ->
    rx_inv s' /\ verified s' /\ no_err n /\
    ((l = [] /\ r_seq s' = r_seq s /\ r_err s' = WS_WANT_READ /\ r = WS_FATAL_ERROR /\ tight s' /\
       sp_receive A (abs s') (unread (r_buf s') ++ stream n) = sp_receive A (abs s) (unread (r_buf s) ++ stream net) /\
       (stream n = [] -> sp_receive A (abs s) (unread (r_buf s) ++ stream net) = SWait)) \/
     (exists e, sp_receive A (abs s) (unread (r_buf s) ++ stream net) = SStop e l /\ r_err s' = e /\ r = WS_FATAL_ERROR /\ passes e = false /\ r_seq s' = r_seq s) \/
     (exists e, sp_receive A (abs s) (unread (r_buf s) ++ stream net) = SDone e l (abs s') (stream n) /\ l <> [] /\ tight s' /\
         unread (r_buf s') = [] /\ r_err s' = e /\ r = if passes e then e else WS_FATAL_ERROR)).
  Proof.
    intros s net r s' n l Hi Hv Ht Hn E.
    pose proof (DoReceive_safe A HC (proj1 HA) s net Hi Hv) as F. rewrite E in F. destruct F as (_ & Hv' & Hf).
    pose proof (DoReceive_refines A HC HA s net Hi Ht Hn) as R. rewrite E in R.
    destruct R as (Hi' & Hn' & R). split; [assumption|]. split; [assumption|]. split; [assumption|].
    destruct R as [R|R].
    - left. destruct R as (R1 & R2 & R3 & R4 & R5 & R6). subst l. destruct Hf as (_ & Hf & _). auto 10.
    - right. destruct (sp_receive A (abs s) (unread (r_buf s) ++ stream net)) as [|e l0|e l0 a rest] eqn:Es; [contradiction| |].
      + left. destruct R as (-> & R2 & R3 & R4 & R5). exists e. repeat (split; [assumption || reflexivity|]).
        destruct l0 as [|h l0]; [destruct Hf as (_ & Hf & _); exact Hf|].
        destruct l0; [|destruct Hf]. destruct Hf as (_ & _ & _ & Hf). rewrite R5 in Hf by discriminate.
        destruct Hf as (_ & Hf & _). exact Hf.
      + right. destruct R as (-> & R2 & R3 & <- & R5 & -> & R7). exists e. split; [reflexivity|]. split; [assumption|].
        split; [|auto]. pose proof (receive_done _ _ _ _ _ _ Es) as Ph. unfold tight. change (s_ph (abs s')) with (r_ph s') in Ph.
        rewrite Ph, R5. cbv zeta. change (lenN (@nil N)) with 0. lia.
  Qed.

  Lemma run_trace : forall s net log fin s2, rx_run A s net log fin s2 -> rx_inv s -> verified s -> tight s -> no_err net ->
    rx_inv s2 /\
    (fin = true -> sp_trace (abs s) (unread (r_buf s) ++ stream net) log (r_seq s2)) /\
    (forall full q, sp_trace (abs s) (unread (r_buf s) ++ stream net) full q -> exists t, full = log ++ t).
  Proof.
    induction 1 as [s net|s net r s' n log fin s2 E W R IH|s net r s' n E W Z|s net r s' n l log fin s2 E Hl Hr R IH|s net s' n l E Hx];
      intros Hi Hv Ht Hn.
    - split; [assumption|]. split; [discriminate|]. intros full q _. exists full. reflexivity.
    - destruct (call_cases _ _ _ _ _ _ Hi Hv Ht Hn E) as (Hi' & Hv' & Hn' & [K|[(e & K1 & K2 & K3 & K4 & K5)|(e & K1 & K2 & _)]]).
      + destruct K as (_ & K0 & _ & _ & K4 & K5 & _). destruct (IH Hi' Hv' K4 Hn') as (I1 & I2 & I3). split; [assumption|].
        split.
        * intros F. eapply (sp_trace_eq (abs s')); [exact K0|exact K5|apply I2; exact F].
        * intros full q T. eapply I3. eapply (sp_trace_eq (abs s)); [symmetry; exact K0|symmetry; exact K5|exact T].
      + rewrite W in K2. subst e. discriminate.
      + congruence.
    - destruct (call_cases _ _ _ _ _ _ Hi Hv Ht Hn E) as (Hi' & Hv' & Hn' & [K|[(e & K1 & K2 & K3 & K4 & K5)|(e & K1 & K2 & _)]]).
      + destruct K as (_ & K0 & _ & _ & K4 & K5 & K6). specialize (K6 Z). split; [assumption|].
        split; [intros _; rewrite K0; apply (st_wait (abs s)); assumption|]. intros full q _. exists full. reflexivity.
      + rewrite W in K2. subst e. discriminate.
      + congruence.
    - destruct (call_cases _ _ _ _ _ _ Hi Hv Ht Hn E) as (Hi' & Hv' & Hn' & [K|[(e & K1 & K2 & K3 & K4 & K5)|(e & K1 & K2 & K3 & K4 & K5 & K6)]]).
      + destruct K as (K & _). congruence.
      + congruence.
      + destruct (passes e) eqn:P; [|congruence].
        destruct (IH Hi' Hv' K3 Hn') as (I1 & I2 & I3). rewrite K4 in I2, I3. cbn [app] in I2, I3. split; [assumption|].
        split.
        * intros F. eapply st_more; [exact K1|exact P|apply I2; exact F].
        * intros full q T.
          inversion T as [b w' E2|b w' e2 l' E2|b w' e2 l' b' r2 E2 P2|b w' e2 l' b' r2 log2 q' E2 P2 T2']; subst;
            rewrite K1 in E2; try discriminate; injection E2; intros; subst; try congruence.
          destruct (I3 _ _ T2') as (t & ->). exists t. apply app_assoc.
    - destruct (call_cases _ _ _ _ _ _ Hi Hv Ht Hn E) as (Hi' & Hv' & Hn' & [K|[(e & K1 & K2 & K3 & K4 & K5)|(e & K1 & K2 & K3 & K4 & K5 & K6)]]).
      + destruct K as (K & _ & K' & _). destruct Hx; contradiction.
      + split; [assumption|]. assert (T : sp_trace (abs s) (unread (r_buf s) ++ stream net) l (r_seq s')).
        { rewrite K5. eapply (st_stop (abs s)); exact K1. }
        split; [intros _; exact T|]. intros full q T2. exists []. rewrite app_nil_r. eapply sp_trace_det; eassumption.
      + destruct (passes e) eqn:P.
        { exfalso. rewrite <- K6 in P. discriminate. }
        split; [assumption|]. assert (T : sp_trace (abs s) (unread (r_buf s) ++ stream net) l (r_seq s')) by (eapply (st_last _ _ _ _ (abs s')); eassumption).
        split; [intros _; exact T|]. intros full q T2. exists []. rewrite app_nil_r. eapply sp_trace_det; eassumption.
  Qed.
End Runs.

Section Stream.
  Context {C : crypto} {H : Type}.
  Variable A : applib C H.
  Hypothesis HC : crypto_ok C.

  (* a stream of sent messages followed by anything is received as sent; then
     reception goes on with the rest, keys and sequence numbers in step *)
  Lemma trace_sends : forall (k : keys C) q ms kn qn w, sends k q ms kn qn w ->
    forall (a : abst C H) rest, s_ph a = PhInit -> s_keys a = k -> s_seq a = q -> keys_ok k -> willing A (s_app a) ms ->
    exists a', s_ph a' = PhInit /\ s_keys a' = kn /\ s_seq a' = qn /\ keys_ok kn /\
      forall log z, sp_trace A a' rest log z <-> sp_trace A a (w ++ rest) (numbered q ms ++ log) z.
  Proof.
    induction 1 as [k q|k q p ko pad k1 w1 r kn qn w2 Hp Wp Fi Pr Hko S IH]; intros a rest Hph Ek Eq Hk Hw.
    - exists a. cbn [numbered app]. split; [assumption|]. split; [assumption|]. split; [assumption|]. split; [assumption|]. tauto.
    - destruct p as [|m body]; [congruence|]. cbn [willing] in Hw. destruct Hw as (W1 & W2 & W3 & W4).
      rewrite <- Ek in Wp, Fi, Pr, Hk. rewrite <- Eq in Pr.
      assert (NP : hr_rc (a_handle A (snd (a_allowed A (s_app a) m)) m body) <> WS_AUTH_PENDING).
      { intro X. rewrite X in W2. discriminate. }
      destruct (sp_roundtrip A HC a m body pad k1 w1 (w2 ++ rest) Hph Hk Wp Fi Pr W1 NP) as (cnt & T).
      unfold taken in T. rewrite W3 in T.
      set (R := a_handle A (snd (a_allowed A (s_app a) m)) m body) in *.
      assert (K1 : keys_ok k1).
      { unfold protects in Pr. destruct (k_aead (s_keys a)).
        - destruct Pr as (_ & _ & _ & _ & ->). exact Hk.
        - destruct Pr as (_ & [(_ & _ & ->)|(_ & c & _ & ->)] & _); exact Hk. }
      assert (NEXT : forall k2 cnt2 msgs2 cur, k2 = match ko with Some k2 => k2 | None => k1 end -> keys_ok k2 ->
        sp_receive A a (w1 ++ w2 ++ rest) =
          SDone (if rc_eqb (hr_rc R) WS_SUCCESS then fst (a_highwater A (hr_st R) cnt2 (add32 msgs2 1)) else hr_rc R)
             [mkHandled (s_seq a) m body]
             (mkA PhInit cur k2 (add32 (s_seq a) 1) cnt2 (add32 msgs2 1) (snd (a_highwater A (hr_st R) cnt2 (add32 msgs2 1)))) (w2 ++ rest) ->
        exists a', s_ph a' = PhInit /\ s_keys a' = kn /\ s_seq a' = qn /\ keys_ok kn /\
          forall log z, sp_trace A a' rest log z <-> sp_trace A a ((w1 ++ w2) ++ rest) (numbered q ((m :: body, ko) :: r) ++ log) z).
      { intros k2 cnt2 msgs2 cur Ek2 Hk2 Es. destruct (W4 cnt2 (add32 msgs2 1)) as (P1 & P2).
        assert (PE : passes (if rc_eqb (hr_rc R) WS_SUCCESS then fst (a_highwater A (hr_st R) cnt2 (add32 msgs2 1)) else hr_rc R) = true)
          by (destruct (rc_eqb (hr_rc R) WS_SUCCESS); assumption).
        destruct (IH (mkA PhInit cur k2 (add32 (s_seq a) 1) cnt2 (add32 msgs2 1) (snd (a_highwater A (hr_st R) cnt2 (add32 msgs2 1)))) rest)
          as (a' & Q1 & Q2 & Q3 & Q4 & Q5).
        - reflexivity.
        - exact Ek2.
        - rewrite <- Eq. reflexivity.
        - rewrite <- Ek2. exact Hk2.
        - exact P2.
        - exists a'. do 4 (split; [assumption|]). intros log z. rewrite Q5. rewrite <- app_assoc.
          cbn [numbered app]. rewrite <- Eq. split.
          + intros T2. eapply (st_more _ _ _ _ _ _ _ _ _ Es PE T2).
          + intros T2. inversion T2 as [b w' E2|b w' e2 l' E2|b w' e2 l' b' r2 E2 P2'|b w' e2 l' b' r2 log2 q' E2 P2' T2' ]; subst;
              rewrite Es in E2; try discriminate; injection E2; intros; subst; try congruence.
            cbn [app] in *. match goal with Hx : _ :: ?a = _ :: ?b |- _ => injection Hx as <- end. assumption. }
      destruct ko as [k2|]; cbv iota beta in T; destruct T as (cur & T).
      + eapply NEXT; [reflexivity|apply Hko; reflexivity|exact T].
      + eapply NEXT; [reflexivity|exact K1|exact T].
  Qed.
End Stream.
