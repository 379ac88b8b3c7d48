(* AuthStep.v - from the handlers' parsing to the message grammar of
   AuthSpec, and one step of a connection. *)
From Verif Require Import Base WireModel WireSpec WireProofs NameTable NegoModel NegoSpec NegoProofs AuthModel AuthSpec AuthProofs.
From Coq Require Import List NArith ZArith Lia Bool String.
Import ListNotations.
Open Scope N_scope.
Local Notation "a ++ b" := (@app _ a b) : list_scope.

(* ---- chains of strings -------------------------------------------------- *)
Definition read_strs (m : bytes) (i : N) (ss : list bytes) (j : N) : Prop :=
  exists f, dropN i m = f ++ dropN j m /\ is_strs f ss /\ j = i + lenN f /\ j <= lenN m.

Lemma read_strs_nil : forall m i, i <= lenN m -> read_strs m i [] i.
Proof.
  intros m i H. exists []. split; [reflexivity|]. split; [exists []; split; [reflexivity|constructor]|].
  split; [cbn; lia|assumption].
Qed.
Lemma read_strs_cons : forall m i b k ss j, read_str m i b k -> read_strs m k ss j -> read_strs m i (b :: ss) j.
Proof.
  intros m i b k ss j (f & E1 & S1 & -> & L1 & _) (g & E2 & (ps & -> & S2) & -> & L2).
  exists (f ++ List.concat ps). split; [rewrite E1, E2, <- app_assoc; reflexivity|].
  split; [exists (f :: ps); split; [reflexivity|constructor; assumption]|].
  split; [rewrite lenN_app; lia|assumption].
Qed.
Lemma read_str_le : forall m i b k, read_str m i b k -> k <= lenN m.
Proof. intros m i b k (f & _ & _ & _ & L & _). assumption. Qed.
Lemma is_strs_one : forall f s, is_strs f [s] <-> is_str f s.
Proof.
  intros f s. split.
  - intros (ps & -> & H). inversion H; subst. inversion H4; subst. cbn. rewrite app_nil_r. assumption.
  - intros H. exists [f]. split; [cbn; symmetry; apply app_nil_r|repeat constructor; assumption].
Qed.
Ltac chain := repeat (eapply read_strs_cons; [eassumption|]); apply read_strs_nil; eapply read_str_le; eassumption.

Ltac rstr m i Hm H3 Hi b j E R J := (* split on reading a string *)
  let G := fresh "G" in
  pose proof (GetStr_inv m i Hm H3 Hi) as G;
  destruct (GetStr m (lenN m) i) as [b j|? ?|] eqn:E; cbn [pbind] in *;
  [destruct G as (R & J)| |contradiction]; try clear G.

Lemma is32_0 : is32 0. Proof. unfold is32, W32. lia. Qed.
Lemma require_ok : forall b e i u j, require b e i = POk u j -> b = true /\ j = i.
Proof. intros b e i u j H. unfold require in H. destruct b; [injection H as _ <-; auto|discriminate]. Qed.
Lemma require_oob : forall b e i, require b e i <> POob.
Proof. intros b e i. unfold require. destruct b; discriminate. Qed.

Lemma name_is : forall s algo, NameToId algo = NameToId (ascii s) ->
  (knownb (ascii s) && negb (NameToId (ascii s) =? ID_OSSH_CERT_RSA)) = true -> algo = ascii s.
Proof.
  intros s algo E H. apply andb_true_iff in H. destruct H as (K & Hn).
  symmetry. apply NameToId_inj; [assumption|symmetry; assumption|].
  intros X. rewrite X, N.eqb_refl in Hn. discriminate.
Qed.
Ltac nm s := apply (name_is s); [rewrite ?N.eqb_eq in *; etransitivity; [eassumption|vm_compute; reflexivity]|vm_compute; reflexivity].

(* ---- the verifiers ------------------------------------------------------ *)
Section Verify.
  Variables (x : crypto) (algo blob sig msg : bytes).
  Hypothesis Hb : bytes_ok blob.
  Hypothesis Hb3 : is32 (lenN blob).
  Hypothesis Hs : bytes_ok sig.
  Hypothesis Hs3 : is32 (lenN sig).

  Lemma VerifyEd_ok :
    match VerifyEd x algo blob sig msg with
    | POk _ _ => algo = ascii "ssh-ed25519" -> verifies x algo blob sig msg
    | PErr _ _ => True
    | POob => False
    end.
  Proof using Hb Hb3 Hs Hs3.
    unfold VerifyEd. rewrite (GetSized_eq blob 0 Hb Hb3 is32_0).
    rstr blob 0 Hb Hb3 is32_0 t k1 E1 R1 J1; [|exact I].
    destruct (require (bytes_eqb t algo) _ _) as [u k2|? ?|] eqn:Q1; cbn [pbind]; [|exact I|eapply require_oob; eassumption].
    apply require_ok in Q1. destruct Q1 as (Q1 & ->). apply bytes_eqb_eq in Q1. subst t.
    rewrite (GetSized_eq blob k1 Hb Hb3 J1).
    rstr blob k1 Hb Hb3 J1 q k3 E2 R2 J2; [|exact I].
    rewrite (GetSized_eq sig 0 Hs Hs3 is32_0).
    rstr sig 0 Hs Hs3 is32_0 st k4 E3 R3 J3; [|exact I].
    destruct (require (bytes_eqb st algo) _ _) as [u2 k5|? ?|] eqn:Q2; cbn [pbind]; [|exact I|eapply require_oob; eassumption].
    apply require_ok in Q2. destruct Q2 as (Q2 & ->). apply bytes_eqb_eq in Q2. subst st.
    rewrite (GetSized_eq sig k4 Hs Hs3 J3).
    rstr sig k4 Hs Hs3 J3 sg k6 E4 R4 J4; [|exact I].
    destruct (require (v_ed x q msg sg) _ _) as [u3 k7|? ?|] eqn:Q3; [|exact I|eapply require_oob; eassumption].
    apply require_ok in Q3. destruct Q3 as (Q3 & _). intros Ha.
    assert (C1 : read_strs blob 0 [algo; q] k3) by chain.
    assert (C2 : read_strs sig 0 [algo; sg] k6) by chain.
    destruct C1 as (f1 & D1 & S1 & _). destruct C2 as (f2 & D2 & S2 & _).
    rewrite dropN_0 in D1, D2. eapply ver_ed; eassumption.
  Qed.

  Lemma bits_ge : forall n, 2048 <= bits n -> 2 ^ 2047 <= be_value n.
  Proof using.
    intros n H. unfold bits in H. change (be_val n) with (be_value n) in H.
    destruct (N.eq_dec (be_value n) 0) as [E|E].
    - rewrite E in H. cbn in H. lia.
    - rewrite N.size_log2 in H by assumption.
      transitivity (2 ^ N.log2 (be_value n)).
      + apply N.pow_le_mono_r; lia.
      + apply N.log2_spec. lia.
  Qed.

  Lemma VerifyRsa_ok : forall id,
    match VerifyRsa x id algo blob sig msg with
    | POk _ _ => forall name, In (name, HashForId id) rsa_algos -> algo = ascii name -> verifies x algo blob sig msg
    | PErr _ _ => True
    | POob => False
    end.
  Proof using Hb Hb3 Hs Hs3.
    intros id. unfold VerifyRsa.
    rstr blob 0 Hb Hb3 is32_0 t k1 E1 R1 J1; [|exact I].
    destruct (require (bytes_eqb t ssh_rsa_name) _ _) as [u k2|? ?|] eqn:Q1; cbn [pbind]; [|exact I|eapply require_oob; eassumption].
    apply require_ok in Q1. destruct Q1 as (Q1 & ->). apply bytes_eqb_eq in Q1. subst t.
    pose proof (GetMpint_inv blob k1 Hb Hb3 J1) as G1.
    destruct (GetMpint blob (lenN blob) k1) as [ [eo en] k3|? ?|]; cbn [pbind fst snd]; [|exact I|contradiction].
    destruct G1 as (X1 & R2 & J2).
    pose proof (GetMpint_inv blob k3 Hb Hb3 J2) as G2.
    destruct (GetMpint blob (lenN blob) k3) as [ [no nn] k4|? ?|]; cbn [pbind fst snd]; [|exact I|contradiction].
    destruct G2 as (X2 & R3 & J3). rewrite X1, X2.
    set (e := slice blob eo en) in *. set (n := slice blob no nn) in *.
    destruct (require (RSA_MIN_KEY_BITS <=? bits n) _ _) as [u2 k5|? ?|] eqn:Q2; cbn [pbind]; [|exact I|eapply require_oob; eassumption].
    apply require_ok in Q2. destruct Q2 as (Q2 & ->). apply N.leb_le in Q2.
    rstr sig 0 Hs Hs3 is32_0 st k6 E3 R4 J4; [|exact I].
    destruct (require (negb (lenN st =? 0) && bytes_eqb st algo) _ _) as [u3 k7|? ?|] eqn:Q3; cbn [pbind]; [|exact I|eapply require_oob; eassumption].
    apply require_ok in Q3. destruct Q3 as (Q3 & ->). apply andb_true_iff in Q3. destruct Q3 as (_ & Q3).
    apply bytes_eqb_eq in Q3. subst st.
    rstr sig k6 Hs Hs3 J4 sg k8 E4 R5 J5; [|exact I].
    destruct (require (v_rsa x _ n e msg sg) _ _) as [u4 k9|? ?|] eqn:Q4; [|exact I|eapply require_oob; eassumption].
    apply require_ok in Q4. destruct Q4 as (Q4 & _). intros name Hin Ha.
    assert (C1 : read_strs blob 0 [ssh_rsa_name; e; n] k4) by chain.
    assert (C2 : read_strs sig 0 [algo; sg] k8) by chain.
    destruct C1 as (f1 & D1 & S1 & _). destruct C2 as (f2 & D2 & S2 & _).
    rewrite dropN_0 in D1, D2. eapply ver_rsa; try eassumption. apply bits_ge. assumption.
  Qed.

  Lemma VerifyEcc_ok : forall id, id = NameToId algo ->
    match VerifyEcc x id algo blob sig msg with
    | POk _ _ => forall name curve bits, In (name, (curve, bits, HashForId id)) ecdsa_algos ->
         PrimeForId id = Some (bits, ascii curve) -> algo = ascii name -> verifies x algo blob sig msg
    | PErr _ _ => True
    | POob => False
    end.
  Proof using Hb Hb3 Hs Hs3.
    intros id Hid. unfold VerifyEcc. rewrite (GetSized_eq blob 0 Hb Hb3 is32_0).
    rstr blob 0 Hb Hb3 is32_0 t k1 E1 R1 J1; [|exact I].
    destruct (require (bytes_eqb t algo) _ _) as [u k2|? ?|] eqn:Q1; cbn [pbind]; [|exact I|eapply require_oob; eassumption].
    apply require_ok in Q1. destruct Q1 as (Q1 & ->). apply bytes_eqb_eq in Q1. subst t.
    cbv zeta. rewrite <- Hid. destruct (PrimeForId id) as [ [prime curve]|]; [|exact I].
    rewrite (GetSized_eq blob k1 Hb Hb3 J1).
    rstr blob k1 Hb Hb3 J1 cn k3 E2 R2 J2; [|exact I].
    destruct (require (bytes_eqb cn curve) _ _) as [u1 k33|? ?|] eqn:Q1; cbn [pbind]; [|exact I|eapply require_oob; eassumption].
    apply require_ok in Q1. destruct Q1 as (Q1 & ->). apply bytes_eqb_eq in Q1. subst cn.
    rewrite (GetSized_eq blob k3 Hb Hb3 J2).
    rstr blob k3 Hb Hb3 J2 q k4 E3 R3 J3; [|exact I].
    rewrite (GetSized_eq sig 0 Hs Hs3 is32_0).
    rstr sig 0 Hs Hs3 is32_0 st k5 E4 R4 J4; [|exact I].
    destruct (require (bytes_eqb st algo) _ _) as [u2 k6|? ?|] eqn:Q2; cbn [pbind]; [|exact I|eapply require_oob; eassumption].
    apply require_ok in Q2. destruct Q2 as (Q2 & ->). apply bytes_eqb_eq in Q2. subst st.
    rewrite GetSize_eq by (assumption || lia).
    destruct (N.leb_spec (k5 + 4) (lenN sig)) as [L1|L1]; cbn [pbind]; [|exact I]. cbv zeta.
    destruct (_ <=? _); cbn [pbind]; [|exact I].
    assert (J5 : is32 (k5 + 4)) by (unfold is32, W32 in *; lia).
    rstr sig (k5 + 4) Hs Hs3 J5 r k7 E5 R5 J6; [|exact I].
    rstr sig k7 Hs Hs3 J6 s k8 E6 R6 J7; [|exact I].
    destruct (require (v_ecc x _ _ q msg r s) _ _) as [u3 k9|? ?|] eqn:Q3; [|exact I|eapply require_oob; eassumption].
    apply require_ok in Q3. destruct Q3 as (Q3 & _). intros name cv bt Hin E Ha. injection E as -> ->.
    assert (C1 : read_strs blob 0 [algo; ascii cv; q] k4) by chain.
    assert (C2 : read_strs sig 0 [algo] k5) by chain.
    assert (C3 : read_strs sig (k5 + 4) [r; s] k8) by chain.
    destruct C1 as (f1 & D1 & S1 & _). destruct C2 as (f2 & D2 & S2 & _). destruct C3 as (f3 & D3 & S3 & _).
    rewrite dropN_0 in D1, D2. apply is_strs_one in S2.
    eapply ver_ecc with (sz := slice sig k5 4) (rs := f3) (r2 := dropN k8 sig); try eassumption.
    - rewrite <- D3, <- slice_dropN by lia. exact D2.
    - apply slice_length. lia.
  Qed.

  Lemma VerifyUser_ok : NameToId algo <> ID_UNKNOWN ->
    match VerifyUser x (NameToId algo) algo blob sig msg with
    | POk _ _ => verifies x algo blob sig msg
    | PErr _ _ => True
    | POob => False
    end.
  Proof using Hb Hb3 Hs Hs3.
    intros Hk. unfold VerifyUser.
    destruct (N.eqb_spec (NameToId algo) ID_ED25519) as [E|E].
    { pose proof VerifyEd_ok as V. destruct (VerifyEd _ _ _ _ _); try assumption. apply V. nm "ssh-ed25519"%string. }
    destruct (is_mldsa (NameToId algo)) eqn:Em.
    { destruct (require _ _ _) as [u k|? ?|] eqn:Q; [|exact I|eapply require_oob; eassumption].
      apply require_ok in Q. destruct Q as (Q & _).
      unfold is_mldsa in Em. apply andb_true_iff in Em. destruct Em as (M1 & M2).
      apply N.leb_le in M1, M2. unfold ID_MLDSA44, ID_MLDSA87_ED448 in *.
      assert (M : exists name, In name mldsa_algos /\ algo = ascii name).
      { assert (C : NameToId algo = 36 \/ NameToId algo = 37 \/ NameToId algo = 38 \/ NameToId algo = 39 \/
                    NameToId algo = 40 \/ NameToId algo = 41 \/ NameToId algo = 42 \/ NameToId algo = 43 \/
                    NameToId algo = 44) by lia. clear M1 M2 E Hk.
        destruct C as [C|[C|[C|[C|[C|[C|[C|[C|C] ] ] ] ] ] ] ].
        - exists "ssh-mldsa-44"%string. split; [cbn; tauto|]. nm "ssh-mldsa-44"%string.
        - exists "ssh-mldsa-65"%string. split; [cbn; tauto|]. nm "ssh-mldsa-65"%string.
        - exists "ssh-mldsa-87"%string. split; [cbn; tauto|]. nm "ssh-mldsa-87"%string.
        - exists "ssh-mldsa44-es256@wolfssl.com"%string. split; [cbn; tauto|]. nm "ssh-mldsa44-es256@wolfssl.com"%string.
        - exists "ssh-mldsa65-es256@wolfssl.com"%string. split; [cbn; tauto|]. nm "ssh-mldsa65-es256@wolfssl.com"%string.
        - exists "ssh-mldsa87-es384@wolfssl.com"%string. split; [cbn; tauto|]. nm "ssh-mldsa87-es384@wolfssl.com"%string.
        - exists "ssh-mldsa44-ed25519@openssh.com"%string. split; [cbn; tauto|]. nm "ssh-mldsa44-ed25519@openssh.com"%string.
        - exists "ssh-mldsa65-ed25519@wolfssl.com"%string. split; [cbn; tauto|]. nm "ssh-mldsa65-ed25519@wolfssl.com"%string.
        - exists "ssh-mldsa87-ed448@wolfssl.com"%string. split; [cbn; tauto|]. nm "ssh-mldsa87-ed448@wolfssl.com"%string. }
      destruct M as (name & M1' & M2'). eapply ver_mldsa; eassumption. }
    destruct (_ || _) eqn:Er.
    { pose proof (VerifyRsa_ok (NameToId algo)) as V. destruct (VerifyRsa _ _ _ _ _ _); try assumption.
      rewrite !orb_true_iff, !N.eqb_eq in Er. destruct Er as [ [Er|Er]|Er]; rewrite Er in V.
      - apply (V "ssh-rsa"%string); [cbn; tauto|]. nm "ssh-rsa"%string.
      - apply (V "rsa-sha2-256"%string); [cbn; tauto|]. nm "rsa-sha2-256"%string.
      - apply (V "rsa-sha2-512"%string); [cbn; tauto|]. nm "rsa-sha2-512"%string. }
    destruct (_ || _) eqn:Ee in |- *; [|exact I].
    pose proof (VerifyEcc_ok (NameToId algo) eq_refl) as V. destruct (VerifyEcc _ _ _ _ _ _); try assumption.
    rewrite !orb_true_iff, !N.eqb_eq in Ee. destruct Ee as [ [Ee|Ee]|Ee]; rewrite Ee in V.
    - apply (V "ecdsa-sha2-nistp256"%string "nistp256"%string 256); [cbn; tauto|reflexivity|]. nm "ecdsa-sha2-nistp256"%string.
    - apply (V "ecdsa-sha2-nistp384"%string "nistp384"%string 384); [cbn; tauto|reflexivity|]. nm "ecdsa-sha2-nistp384"%string.
    - apply (V "ecdsa-sha2-nistp521"%string "nistp521"%string 521); [cbn; tauto|reflexivity|]. nm "ecdsa-sha2-nistp521"%string.
  Qed.
End Verify.

(* ---- the request fields -------------------------------------------------- *)
Section Parse.
  Variable m : bytes.
  Hypothesis Hm : bytes_ok m.
  Hypothesis H3 : is32 (lenN m).

  Lemma get_strs_inv : forall n i, is32 i -> i <= lenN m ->
    match get_strs n m (lenN m) i with
    | POk rs j => read_strs m i rs j /\ lenN rs = N.of_nat n
    | PErr _ _ => True
    | POob => False
    end.
  Proof using Hm H3.
    induction n as [|n IH]; intros i Hi Hl; cbn [get_strs].
    - split; [apply read_strs_nil; assumption|reflexivity].
    - rstr m i Hm H3 Hi b j E R J; [|exact I].
      specialize (IH j J (read_str_le _ _ _ _ R)).
      destruct (get_strs n m (lenN m) j) as [bs k|? ?|]; cbn [pbind]; [|exact I|contradiction].
      destruct IH as (S & L). split; [eapply read_strs_cons; eassumption|].
      unfold lenN in *. cbn [Datatypes.length]. lia.
  Qed.

  Lemma get_pk_inv : forall i, is32 i ->
    match get_pk m (lenN m) i with
    | POk (flag, algo, blob, sig) j =>
        exists k, dropN i m = flag :: dropN (i + 1) m /\ read_strs m (i + 1) [algo; blob] k /\
          bytes_ok blob /\ is32 (lenN blob) /\ bytes_ok sig /\ is32 (lenN sig) /\
          (flag <> 0 -> read_str m k sig j) /\ j <= lenN m
    | PErr _ _ => True
    | POob => False
    end.
  Proof using Hm H3.
    intros i Hi. unfold get_pk. pose proof (GetBoolean_inv m i H3) as GB.
    destruct (GetBoolean m (lenN m) i) as [f j|? ?|]; cbn [pbind]; [|exact I|contradiction].
    destruct GB as (D1 & -> & L1). assert (J : is32 (i + 1)) by (unfold is32, W32 in *; lia).
    rstr m (i + 1) Hm H3 J algo k1 E1 R1 J1; [|exact I].
    rstr m k1 Hm H3 J1 blob k2 E2 R2 J2; [|exact I].
    assert (C : read_strs m (i + 1) [algo; blob] k2) by chain.
    assert (Bo : bytes_ok blob /\ is32 (lenN blob)) by (destruct R2 as (? & _ & _ & _ & _ & ? & ?); auto).
    destruct (N.eqb_spec f 0) as [->|Hf].
    - exists k2. split; [assumption|]. split; [assumption|]. split; [apply Bo|]. split; [apply Bo|].
      split; [constructor|]. split; [exact is32_0|]. split; [intros X; contradiction|]. eapply read_str_le; eassumption.
    - rstr m k2 Hm H3 J2 sg k3 E3 R3 J3; [|exact I].
      exists k2. split; [assumption|]. split; [assumption|]. split; [apply Bo|]. split; [apply Bo|].
      destruct R3 as (f3 & A3 & B3 & C3 & D3 & F3 & G3).
      split; [assumption|]. split; [assumption|]. split; [|assumption].
      intros _. exists f3. auto 10.
  Qed.

  Lemma check_pk_oob : forall hs blob sig, bytes_ok blob -> is32 (lenN blob) -> bytes_ok sig -> is32 (lenN sig) ->
    check_pk hs blob sig <> POob.
  Proof using.
    intros hs blob sig Hb Hb3 Hs Hs3. unfold check_pk.
    rstr blob 0 Hb Hb3 is32_0 f k E R J; [|discriminate].
    destruct (hs =? 0); [discriminate|].
    rstr sig 0 Hs Hs3 is32_0 a k1 E1 R1 J1; [|discriminate].
    rstr sig k1 Hs Hs3 J1 b k2 E2 R2 J2; discriminate.
  Qed.

  (* the request line: user, service, method, and where it ends *)
  Definition head (user authName : bytes) (i : N) : Prop :=
    read_strs m 0 [user; ascii "ssh-connection"; authName] i /\ is32 i.

  Lemma head_m : forall user authName i, head user authName i ->
    exists h, m = h ++ dropN i m /\ is_strs h [user; ascii "ssh-connection"; authName] /\ i = lenN h /\ i <= lenN m.
  Proof using.
    intros user authName i ((f & D & S & E & L) & _). rewrite dropN_0 in D. exists f. repeat split; auto; lia.
  Qed.

  Lemma signed_ok : forall user authName i flag algo blob sig j sid,
    head user authName i -> authName = ascii "publickey" ->
    get_pk m (lenN m) i = POk (flag, algo, blob, sig) j -> flag <> 0 -> is32 (lenN sid) ->
    exists body rest extra msg, key_request m user flag algo blob sig body rest /\
      lenN extra = lenN rest /\ signed_message sid body extra msg /\ signed_data sid m (lenN m) sig = Some msg.
  Proof using Hm H3.
    intros user authName i flag algo blob sig j sid Hh -> G Hf Hsid.
    destruct (head_m _ _ _ Hh) as (h & E1 & S1 & I1 & L1). destruct Hh as (_ & Hi).
    pose proof (get_pk_inv i Hi) as P. rewrite G in P.
    destruct P as (k & D1 & (ab & D2 & S2 & -> & L2) & _ & _ & _ & _ & R & L3).
    destruct (R Hf) as (sg & D3 & S3 & -> & _ & _ & Ls).
    set (rest := dropN (i + 1 + lenN ab + lenN sg) m) in *.
    assert (Em : m = (h ++ [flag] ++ ab) ++ sg ++ rest).
    { rewrite E1 at 1. rewrite D1, D2, D3. rewrite <- !app_assoc. reflexivity. }
    set (body := h ++ [flag] ++ ab) in *.
    assert (Lsg : lenN sg = 4 + lenN sig).
    { destruct S3 as (l & -> & Ll & _). rewrite lenN_app. lia. }
    assert (Lm : lenN m = lenN body + 4 + lenN sig + lenN rest).
    { rewrite Em at 1. rewrite !lenN_app. lia. }
    exists body, rest, (takeN (lenN rest) (sg ++ rest)), (PutString sid ++ [50] ++ body ++ takeN (lenN rest) (sg ++ rest)).
    split; [|split; [|split]].
    - exists h, ab, sg. split; [reflexivity|]. split; [assumption|]. split; [assumption|]. split; [assumption|].
      split; assumption.
    - rewrite lenN_takeN, lenN_app. lia.
    - exists (PutString sid). split; [|reflexivity].
      exists (c32toa (lenN sid)). split; [reflexivity|]. split; [apply c32toa_length|].
      split; [apply be_value_c32toa; assumption|apply c32toa_ok].
    - unfold signed_data. rewrite (sub32_small (lenN m)) by (assumption || lia).
      rewrite sub32_small by (unfold is32, W32 in *; lia).
      replace (lenN m - lenN sig - 4) with (lenN body + lenN rest) by lia.
      rewrite rdn_some by lia. unfold slice. rewrite dropN_0. rewrite Em at 1.
      rewrite takeN_add, takeN_app_exact, dropN_app_exact by reflexivity. reflexivity.
  Qed.
End Parse.

(* ---- one message ---------------------------------------------------------- *)
Definition kb_bound (s : auth) : Prop := a_authId s = ID_USERAUTH_KEYBOARD -> a_user s <> None.

Definition step_granted (x : crypto) (m : amsg) (s s' : auth) (r : rc) (ev : list event) : Prop :=
  (a_client s' = a_client s /\ forall u c, ~ In (EGranted u c) ev)
  \/ (a_client s' = CLIENT_USERAUTH_DONE /\ r = WS_SUCCESS /\ exists U cr mid,
        legitimate x (a_sid s) (a_user s) U m cr /\ a_user s' = Some U /\
        ev = ECallback U cr CbSuccess :: mid ++ [EGranted U cr] /\ Forall (eq (EResult true true)) mid).

(* callbacks and grants are about the bound user, callbacks about what the
   message presents; responses only in the keyboard method and as many as
   were prompted for *)
Definition asked (m : amsg) (s s' : auth) (v : event) : Prop :=
  match v with
  | ECallback u cr _ => a_user s' = Some u /\ presents (a_user s) u m cr /\
      (forall rs, cr = CrKbResponse rs -> a_authId s = ID_USERAUTH_KEYBOARD /\ lenN rs = a_prompts s)
  | EGranted u _ => a_user s' = Some u
  | _ => True
  end.

(* the method changes only with a request that names it *)
Definition method_of (m : amsg) (s s' : auth) : Prop :=
  a_authId s' = a_authId s \/
  exists mb h rest U name, m = MRequest mb /\ mb = h ++ rest /\ is_strs h [U; ascii "ssh-connection"; name] /\
    a_authId s' = NameToId name /\ a_user s' = Some U.

Definition step_effect (x : crypto) (m : amsg) (s s' : auth) (r : rc) : Prop :=
  exists ev e,
    a_log s' = a_log s ++ ev /\
    (a_sid s' = a_sid s /\ a_max s' = a_max s) /\
    (a_user s' = a_user s \/ a_user s = None) /\
    (a_requests s' = a_requests s \/ a_requests s' = add32 (a_requests s) 1) /\
    Forall (asked m s s') ev /\
    step_granted x m s s' r ev /\
    (e = 0 \/ (e = 1 /\ a_requests s' = 1 /\ a_requests s' = add32 (a_requests s) 1)) /\
    tally (a_failures s) (a_failures s') (a_max s) r ev e /\
    kb_bound s' /\ fair s s' ev /\ method_of m s s'.

(* from a handler's effect *)
Lemma effect_step : forall X (A P : cred -> Prop) U x m s s1 s' r,
  effect X A P U s1 s' r ->
  a_user s1 = Some U -> a_log s1 = a_log s -> a_sid s1 = a_sid s -> a_max s1 = a_max s ->
  a_client s1 = a_client s ->
  (a_user s = Some U \/ a_user s = None) -> a_requests s1 = add32 (a_requests s) 1 \/ (a_requests s1 = a_requests s /\ ~ X) ->
  (a_failures s1 = a_failures s /\ a_pending s1 = a_pending s \/
   a_failures s1 = add32 (a_failures s) 1 /\ a_failures s1 < a_max s /\ a_pending s = true /\ a_pending s1 = false) ->
  a_prompts s1 = a_prompts s ->
  (forall c, A c -> presents (a_user s) U m c /\
     (forall rs, c = CrKbResponse rs -> a_authId s = ID_USERAUTH_KEYBOARD /\ lenN rs = a_prompts s)) ->
  (forall c, P c -> legitimate x (a_sid s) (a_user s) U m c) ->
  method_of m s s1 ->
  step_effect x m s s' r.
Proof.
  intros X A P U x m s s1 s' r (ev & e & H1 & (A1 & A2 & A3 & A4 & A5) & H3 & H4 & H5 & H6 & H7f) Hu Hl Hs Hx Hc Hb Hr Hf Hpr HA HP HM.
  exists ev, e. rewrite H1, Hl. split; [reflexivity|]. split; [split; congruence|].
  split; [destruct Hb; [left; congruence|auto]|].
  split; [destruct Hr as [Hr|(Hr & _)]; [right|left]; congruence|].
  split.
  { eapply Forall_impl; [|exact H3]. intros v V. destruct v; cbn in *; try exact I.
    - destruct V as (-> & V). split; [congruence|]. apply HA. assumption.
    - congruence. }
  split.
  { destruct H4 as [(B1 & B2) | (B1 & B2 & cr & mid & B3 & B4 & B5)]; [left; split; [congruence|assumption]|].
    right. split; [assumption|]. split; [assumption|]. exists U, cr, mid. split; [auto|]. split; [congruence|]. auto. }
  split. { destruct H5 as [H5|(H5 & HX & H7)]; [auto|]. right. split; [assumption|]. rewrite A4.
    destruct Hr as [Hr|(Hr & Hn)]; [split; congruence|contradiction]. }
  split.
  { intros F1 F2. rewrite Hx in H6. destruct Hf as [(Hf & _)|(Hf & Hf2 & _)].
    - rewrite Hf in H6. apply H6; assumption.
    - rewrite add32_small in Hf by (unfold is32, W32 in *; lia).
      destruct (H6 Hf2 F2) as (T1 & T2 & T3 & T4 & T5). split; [lia|]. split; [assumption|]. split; [lia|]. split; [lia|]. assumption. }
  split; [intros K; rewrite A3, Hu; discriminate|].
  split; [|unfold method_of in *; rewrite A5, A3; exact HM].
  unfold fair in *. rewrite Hpr in H7f. destruct H7f as (H7f & H8). split; [|assumption].
  destruct Hf as [(Hf & Hp)|(Hf & _ & Hp & Hp1)].
  - rewrite Hf, Hp in H7f. assumption.
  - rewrite Hp. rewrite Hp1 in H7f. cbn [b2n] in *. pose proof (add32_le (a_failures s)). lia.
Qed.

Lemma quiet_step : forall x m s s' r, kb_bound s ->
  a_log s' = a_log s -> a_sid s' = a_sid s -> a_max s' = a_max s -> a_user s' = a_user s ->
  a_requests s' = a_requests s -> a_client s' = a_client s -> a_failures s' = a_failures s -> a_authId s' = a_authId s ->
  a_pending s' = a_pending s \/ a_pending s' = false -> a_prompts s' = a_prompts s ->
  step_effect x m s s' r.
Proof.
  intros x m s s' r K E1 E2 E3 E4 E5 E6 E7 E8 E9 E10. exists [], 0. rewrite E1, E2, E3, E4, E5, E7.
  split; [symmetry; apply app_nil_r|]. split; [auto|]. split; [auto|]. split; [auto|]. split; [constructor|].
  split; [left; split; [assumption|intros ? ? []]|]. split; [auto|]. split.
  - intros F1 F2. cbn. split; [lia|]. split; [lia|]. split; [lia|]. split; [lia|]. split; [intros; exfalso; lia|intros _ []].
  - split; [intros X; rewrite E4; apply K; congruence|]. split; [|left; assumption]. unfold fair. rewrite E7.
    split; [destruct E9 as [-> | ->]; cbn; lia|assumption].
Qed.

Section Step.
  Variables (c : acfg) (x : crypto) (m : bytes).
  Hypothesis Hm : bytes_ok m.
  Hypothesis H3 : is32 (lenN m).

  Lemma pk_legit : forall U authName i cr sid b, head m U authName i -> authName = ascii "publickey" -> is32 (lenN sid) ->
    pk_fact x sid m (lenN m) i cr -> legitimate x sid b U (MRequest m) cr.
  Proof using Hm H3.
    intros U authName i cr sid b Hh Ha Hsid (flag & algo & blob & sig & k & msg & u & k2 & -> & Hf & G & Sg & Hk & V).
    destruct (signed_ok m Hm H3 _ _ _ _ _ _ _ _ sid Hh Ha G Hf Hsid) as (body & rest & extra & msg' & K1 & K2 & K3 & K4).
    rewrite Sg in K4. injection K4 as <-.
    destruct Hh as (_ & Hi). pose proof (get_pk_inv m Hm H3 i Hi) as P. rewrite G in P.
    destruct P as (_ & _ & _ & B1 & B2 & B3 & B4 & _).
    pose proof (VerifyUser_ok x algo blob sig msg B1 B2 B3 B4 Hk) as W. rewrite V in W.
    eapply leg_key; eassumption.
  Qed.

  Lemma pk_presents : forall U authName i cr b, head m U authName i -> authName = ascii "publickey" ->
    pk_asked m (lenN m) i cr -> presents b U (MRequest m) cr.
  Proof using Hm H3.
    intros U authName i cr b Hh Ha (flag & algo & blob & sig & k & -> & G).
    destruct (N.eq_dec flag 0) as [->|Hf].
    - destruct (head_m _ _ _ _ Hh) as (h & E1 & S1 & I1 & L1).
      pose proof (get_pk_inv m Hm H3 i (proj2 Hh)) as P. rewrite G in P.
      destruct P as (k2 & D1 & (ab & D2 & S2 & -> & L2) & _).
      assert (Es : sig = []).
      { unfold get_pk in G. destruct (GetBoolean m (lenN m) i) as [f ?|? ?|]; try discriminate. cbn [pbind] in G.
        destruct (GetStr m (lenN m) idx) as [? ?|? ?|]; try discriminate. cbn [pbind] in G.
        destruct (GetStr m (lenN m) idx0) as [? ?|? ?|]; try discriminate. cbn [pbind] in G.
        destruct (N.eqb_spec f 0) as [->|Hn].
        - injection G as _ _ <- _. reflexivity.
        - destruct (GetStr m (lenN m) idx1) as [? ?|? ?|]; try discriminate. cbn [pbind] in G.
          injection G as Hx _ _ _ _. contradiction. }
      subst sig. apply pres_query. exists h, ab, (dropN (i + 1 + lenN ab) m).
      split; [rewrite E1 at 1; rewrite D1, D2; reflexivity|]. split; [|assumption].
      unfold request_head. rewrite <- Ha. assumption.
    - destruct (signed_ok m Hm H3 _ _ _ _ _ _ _ _ [] Hh Ha G Hf is32_0) as (body & rest & extra & msg' & K1 & _).
      eapply pres_key. eassumption.
  Qed.

  Lemma pw_request : forall U authName i k1 k2 pw, head m U authName i -> authName = ascii "password" ->
    GetBoolean m (lenN m) i = POk 0 k1 -> GetStr m (lenN m) k1 = POk pw k2 -> password_request m U pw.
  Proof using Hm H3.
    intros U authName i k1 k2 pw Hh Ha G1 G2.
    destruct (head_m _ _ _ _ Hh) as (h & E1 & S1 & I1 & L1). destruct Hh as (_ & Hi).
    pose proof (GetBoolean_inv m i H3) as GB. rewrite G1 in GB. destruct GB as (D & -> & L).
    assert (J : is32 (i + 1)) by (unfold is32, W32 in *; lia).
    pose proof (GetStr_inv m (i + 1) Hm H3 J) as GS. rewrite G2 in GS. destruct GS as ((p & D2 & S2 & _) & _).
    exists h, p, (dropN k2 m). split; [rewrite E1 at 1; rewrite D, D2; reflexivity|]. split; [|assumption].
    unfold request_head. rewrite <- Ha. assumption.
  Qed.

  Lemma pw_legit : forall U authName i k1 k2 pw sid b, head m U authName i -> authName = ascii "password" ->
    GetBoolean m (lenN m) i = POk 0 k1 -> GetStr m (lenN m) k1 = POk pw k2 ->
    legitimate x sid b U (MRequest m) (CrPassword pw).
  Proof using Hm H3.
    intros U authName i k1 k2 pw sid b Hh Ha G1 G2. apply leg_password. eapply pw_request; eassumption.
  Qed.

  Lemma Dispatch_effect : forall U authName i s0 s s' r j,
    head m U authName i -> is32 (lenN (a_sid s)) ->
    a_user s = Some U -> a_log s = a_log s0 -> a_sid s = a_sid s0 -> a_max s = a_max s0 -> a_client s = a_client s0 ->
    (a_user s0 = Some U \/ a_user s0 = None) -> a_requests s = a_requests s0 -> a_failures s = a_failures s0 ->
    a_pending s = a_pending s0 -> a_prompts s = a_prompts s0 ->
    Dispatch c x U authName m (lenN m) i s = HR s' r j ->
    step_effect x (MRequest m) s0 s' r.
  Proof using Hm H3.
    intros U authName i s0 s s' r j Hh Hsid Hu Hl Hs Hx Hc Hb Hr Hf Hp Hpr H. unfold Dispatch in H.
    set (id := NameToId authName) in *.
    assert (HM : forall s9, a_authId s9 = id -> a_user s9 = Some U -> method_of (MRequest m) s0 s9).
    { intros s9 M1 M2. right. destruct (head_m _ _ _ _ Hh) as (hh & Eh & Sh & _). exists m, hh, (dropN i m), U, authName. auto. }
    set (s1 := set_requests (add32 (a_requests s) 1) (set_authId id s)) in *.
    destruct (if c_kb c && a_pending s1 then CountUserAuthFailure (set_pending false s1) else (s1, WS_SUCCESS)) as [s2 r2] eqn:E2.
    assert (D : (r2 = WS_USER_AUTH_E /\ a_pending s0 = true /\ a_max s <= add32 (a_failures s) 1 /\
                 exists an, s2 = set_ans an (logs [EDisconnect DISC_NO_MORE_AUTH]
                                   (set_failures (add32 (a_failures s) 1) (set_pending false s1))))
              \/ (r2 = WS_SUCCESS /\ a_user s2 = Some U /\ a_log s2 = a_log s0 /\ a_sid s2 = a_sid s0 /\ a_max s2 = a_max s0 /\
                  a_client s2 = a_client s0 /\ a_authId s2 = id /\ a_prompts s2 = a_prompts s0 /\ a_requests s2 = add32 (a_requests s0) 1 /\
                  (a_failures s2 = a_failures s0 /\ a_pending s2 = a_pending s0 \/
                   a_failures s2 = add32 (a_failures s0) 1 /\ a_failures s2 < a_max s0 /\ a_pending s0 = true /\ a_pending s2 = false))).
    { destruct (c_kb c && a_pending s1) eqn:Ep.
      - apply count_inv in E2. cbv zeta in E2. destruct E2 as [(L & -> & an & ->) | (L & -> & ->)].
        + left. split; [reflexivity|]. split; [rewrite <- Hp; apply andb_true_iff in Ep; apply Ep|]. split; [exact L|]. exists an. reflexivity.
        + right. subst s1. projs. rewrite <- Hr, <- Hf, <- Hx, <- Hp. apply andb_true_iff in Ep. destruct Ep as (_ & Ep). auto 20.
      - right. injection E2 as <- <-. subst s1. projs. rewrite <- Hr. auto 20. }
    clear E2. destruct D as [(-> & Lp & L & an & ->) | (-> & D1 & D2 & D3 & D4 & D5 & Da & Dp & D6 & D7)].
    - injection H as <- <- <-. exists [EDisconnect DISC_NO_MORE_AUTH], 0. subst s1. unfold kb_bound. projs. rewrite Hl, Hs, Hx, Hu, Hf, Hr. rewrite Hx, Hf in L.
      split; [reflexivity|]. split; [auto|]. split; [destruct Hb as [-> | ->]; auto|]. split; [auto|].
      split; [repeat constructor|]. split; [left; split; [assumption|intros ? ?; noin]|]. split; [auto|].
      split.
      + tallyt. intros _. split; [reflexivity|]. exists []. split; [reflexivity|noin].
      + split; [discriminate|]. split; [|apply HM; [reflexivity|assumption] ]. unfold fair. projs. rewrite Lp. pose proof (add32_le (a_failures s0)). cbn. split; [lia|assumption].
    - assert (Go : forall A P, effect True A P U s2 s' r ->
         (forall cr, A cr -> presents (a_user s0) U (MRequest m) cr /\ forall rs, cr <> CrKbResponse rs) ->
         (forall cr, P cr -> legitimate x (a_sid s0) (a_user s0) U (MRequest m) cr) -> step_effect x (MRequest m) s0 s' r).
      { intros A P E HA HP. eapply effect_step; try eassumption; [left; assumption| |apply HM; assumption].
        intros cr Hcr. destruct (HA cr Hcr) as (H1 & H2). split; [assumption|]. intros rs E1. exfalso. eapply H2; eassumption. }
      destruct (N.eqb_spec id ID_USERAUTH_PASSWORD) as [E|E].
      { apply (password_effect True) in H. cbv zeta in H. eapply Go; [exact H| |].
        { intros cr (pw & k1 & k2 & -> & G1 & G2). split; [|discriminate]. apply pres_password.
          eapply pw_request; try eassumption. nm "password"%string. }
        intros cr (pw & k1 & k2 & -> & G1 & G2). eapply pw_legit; try eassumption. nm "password"%string. }
      destruct (c_kb c && (id =? ID_USERAUTH_KEYBOARD)) eqn:Ekb.
      { destruct (SendUserAuthKeyboardRequest c U s2) as [s3 r3] eqn:E3. injection H as <- <- <-.
        apply (keyboard_effect True (eq CrKbSetup) (fun _ => False)) in E3; [|reflexivity]. eapply Go; [exact E3| |intros cr [] ].
        intros cr <-. split; [|discriminate]. apply andb_true_iff in Ekb. destruct Ekb as (_ & Ekb).
        destruct (head_m _ _ _ _ Hh) as (h & Eh & S1 & I1 & L1). apply pres_setup with (h := h) (rest := dropN i m); [assumption|].
        unfold request_head. assert (Ha : authName = ascii "keyboard-interactive") by (nm "keyboard-interactive"%string).
        rewrite <- Ha. assumption. }
      destruct (N.eqb_spec id ID_USERAUTH_PUBLICKEY) as [E1|E1].
      { apply (pk_effect True) in H. eapply Go; [exact H| |].
        { intros cr F. split; [eapply pk_presents; try eassumption; nm "publickey"%string|].
          destruct F as (? & ? & ? & ? & ? & -> & _). discriminate. }
        intros cr F. rewrite D3 in F.
        eapply pk_legit; try eassumption; [nm "publickey"%string|congruence]. }
      destruct (c_none c && (id =? ID_NONE)) eqn:En.
      { apply (none_effect True I) in H.
        assert (Nr : none_request m U); [|eapply Go; [exact H| |]; intros cr ->; [split; [apply pres_none; assumption|discriminate]|apply leg_none; assumption] ].
        destruct (head_m _ _ _ _ Hh) as (h & Eh & S1 & I1 & L1). exists h, (dropN i m). split; [assumption|].
        unfold request_head. apply andb_true_iff in En. destruct En as (_ & En).
        assert (Ha : authName = ascii "none") by (apply (name_is "none"%string); [apply N.eqb_eq in En; etransitivity; [exact En|vm_compute; reflexivity]|vm_compute; reflexivity]).
        rewrite <- Ha. assumption. }
      destruct (SendUserAuthFailureCount false _ s2) as [s3 r3] eqn:E3. injection H as <- <- <-.
      apply (failcount_effect True (fun _ => False) (fun _ => False) U _ _ _ _ _ r3) in E3; [|  | auto].
      + eapply Go; [exact E3| |]; intros cr [].
      + intros X. split; [exact I|]. apply negb_false_iff, andb_true_iff in X. destruct X as (_ & X). apply N.eqb_eq in X. assumption.
  Qed.

  Lemma Request_effect : forall s s' r j, is32 (lenN (a_sid s)) -> kb_bound s ->
    DoUserAuthRequest c x m (lenN m) 0 s = HR s' r j -> step_effect x (MRequest m) s s' r.
  Proof using Hm H3.
    intros s s' r j Hsid K H. unfold DoUserAuthRequest in H.
    assert (Q : forall r, step_effect x (MRequest m) s s r) by (intros; apply quiet_step; auto).
    destruct (lenN m =? 0). { injection H as <- <- <-. apply Q. }
    rstr m 0 Hm H3 is32_0 user k1 E1 R1 J1; [|injection H as <- <- <-; apply Q].
    rstr m k1 Hm H3 J1 svc k2 E2 R2 J2; [|injection H as <- <- <-; apply Q].
    destruct (N.eqb_spec (NameToId svc) ID_SERVICE_CONNECTION) as [Es|Es]; cbn [negb] in H.
    2: { destruct (SendUserAuthFailureCount false true s) as [s1 r1] eqn:E. injection H as <- <- <-.
         apply failcount_inv in E. cbv zeta in E.
         destruct E as [(D & _) | [(_ & L & an & ->) | (_ & L & -> & an & ->)] ]; [discriminate| |].
         - exists [EFailure false], 0. projs. split; [reflexivity|]. split; [auto|]. split; [auto|]. split; [auto|].
           split; [repeat constructor|]. split; [left; split; [reflexivity|intros ? ?; noin]|]. split; [auto|]. split; [tallyt|split; [assumption|split; [fairt|left; reflexivity] ] ].
         - exists [EFailure false; EDisconnect DISC_NO_MORE_AUTH], 0. projs. split; [reflexivity|]. split; [auto|]. split; [auto|]. split; [auto|].
           split; [repeat constructor|]. split; [left; split; [reflexivity|intros ? ?; noin]|]. split; [auto|]. split; [|split; [assumption|split; [fairt|left; reflexivity] ] ].
           tallyt. intros _. split; [reflexivity|]. exists [EFailure false]. split; [reflexivity|noin]. }
    assert (Esn : svc = ascii "ssh-connection") by (nm "ssh-connection"%string). subst svc.
    rstr m k2 Hm H3 J2 authName k3 E3 R3 J3; [|injection H as <- <- <-; apply Q].
    assert (Hh : head m user authName k3) by (split; [chain|assumption]).
    destruct (a_user s) as [u|] eqn:Eu.
    - destruct (bytes_eqb user u) eqn:Eb.
      + apply bytes_eqb_eq in Eb. subst u. apply Dispatch_effect with (8 := or_introl Eu) (13 := H) (1 := Hh); auto.
      + destruct (send _ _) as [s1 r1] eqn:E. apply send_inv in E. destruct E as (an & ->). cbn [fst] in H.
        injection H as <- <- <-. exists [EDisconnect DISC_PROTOCOL_ERROR], 0. projs. split; [reflexivity|]. split; [auto|].
        split; [auto|]. split; [auto|]. split; [repeat constructor|]. split; [left; split; [reflexivity|intros ? ?; noin]|].
        split; [auto|]. split; [tallyt|split; [assumption|split; [fairt|left; reflexivity] ] ].
    - destruct (SetUsernameRaw user s) as [s1 r1] eqn:E. unfold SetUsernameRaw in E.
      destruct (lenN user =? 0); injection E as <- <-.
      + injection H as <- <- <-. apply Q.
      + apply Dispatch_effect with (8 := or_intror Eu) (13 := H) (1 := Hh); auto.
  Qed.

  Lemma Info_effect : forall s s' r j, kb_bound s ->
    DoUserAuthInfoResponse c m (lenN m) 0 s = HR s' r j -> step_effect x (MInfoResponse m) s s' r.
  Proof using Hm H3.
    intros s s' r j K H.
    destruct (N.eq_dec (a_authId s) ID_USERAUTH_KEYBOARD) as [E|E].
    - pose proof (K E) as Ku. destruct (a_user s) as [u|] eqn:Eu; [|contradiction].
      pose proof (info_effect False _ _ _ _ _ _ _ _ H) as F. cbv zeta in F. rewrite Eu in F.
      assert (Ir : forall cr, (exists rs k1 k2, cr = CrKbResponse rs /\ a_authId s = ID_USERAUTH_KEYBOARD /\
            GetUint32 m (lenN m) 0 = POk (a_prompts s) k1 /\
            get_strs (N.to_nat (a_prompts s)) m (lenN m) k1 = POk rs k2) ->
            exists rs, cr = CrKbResponse rs /\ lenN rs = a_prompts s /\ info_response m rs).
      2: { eapply effect_step; [exact F| auto ..| | | |]; [auto| | |left; reflexivity].
        - intros cr [Hc | ->].
          + apply Ir in Hc. destruct Hc as (rs & -> & Lr & Hc). split; [apply pres_response; assumption|].
            intros rs' Er. injection Er as <-. auto.
          + split; [apply pres_again; assumption|discriminate].
        - intros cr Hc. apply Ir in Hc. destruct Hc as (rs & -> & _ & Hc). apply leg_keyboard; assumption. }
      intros cr (rs & k1 & k2 & -> & _ & G1 & G2). exists rs. split; [reflexivity|].
      pose proof (GetUint32_inv m 0 Hm H3 is32_0) as P. rewrite G1 in P.
      destruct P as (l & D1 & L1 & V1 & -> & L2 & B).
      assert (J : is32 (0 + 4)) by (unfold is32, W32; lia).
      pose proof (get_strs_inv m Hm H3 (N.to_nat (a_prompts s)) (0 + 4) J L2) as P. rewrite G2 in P.
      destruct P as ((fs & D2 & S2 & _ & _) & Lr). rewrite N2Nat.id in Lr.
      split; [assumption|]. rewrite dropN_0 in D1.
      exists l, fs, (dropN k2 m). split; [rewrite D1 at 1; rewrite D2; reflexivity|].
      split; [assumption|]. split; [congruence|assumption].
    - unfold DoUserAuthInfoResponse in H. destruct (lenN m =? 0).
      + injection H as <- <- <-. apply quiet_step; auto.
      + destruct (N.eqb_spec (a_authId s) ID_USERAUTH_KEYBOARD) as [E2|E2]; [contradiction|]. cbn [negb] in H.
        injection H as <- <- <-. apply quiet_step; auto.
  Qed.
End Step.

(* ---- no handler reads outside the message --------------------------------- *)
Section NoOob.
  Variables (c : acfg) (x : crypto) (m : bytes).
  Hypothesis Hm : bytes_ok m.
  Hypothesis H3 : is32 (lenN m).

  Lemma finish_total : forall u cr v i s, finish u cr v i s <> HOob.
  Proof using.
    intros u cr v i s. unfold finish. destruct (_ || _).
    - destruct (SendUserAuthFailureCount _ _ _). discriminate.
    - destruct (v_ret v); discriminate.
  Qed.

  Lemma password_total : forall u i s, is32 i -> DoUserAuthRequestPassword c u m (lenN m) i s <> HOob.
  Proof using Hm H3.
    intros u i s Hi. unfold DoUserAuthRequestPassword. destruct (lenN m =? 0); [discriminate|].
    pose proof (GetBoolean_inv m i H3) as GB.
    destruct (GetBoolean m (lenN m) i) as [f j|? ?|]; cbn [pbind]; [|discriminate|contradiction].
    destruct GB as (_ & -> & L). assert (J : is32 (i + 1)) by (unfold is32, W32 in *; lia).
    rstr m (i + 1) Hm H3 J pw k1 E1 R1 J1; [|discriminate].
    destruct (f =? 0).
    - destruct (c_cb c); [|apply finish_total].
      destruct (callback _ _ _) as [s1 [res n] ]. cbv zeta. apply finish_total.
    - rstr m k1 Hm H3 J1 np k2 E2 R2 J2; [|discriminate]. apply finish_total.
  Qed.

  Lemma none_total : forall u i s, DoUserAuthRequestNone c u i s <> HOob.
  Proof using.
    intros u i s. unfold DoUserAuthRequestNone. destruct (c_cb c); [|discriminate].
    destruct (callback _ _ _) as [s1 [res n] ].
    destruct res; try discriminate; destruct (SendUserAuthFailureCount _ _ _); discriminate.
  Qed.

  Lemma info_total : forall s, DoUserAuthInfoResponse c m (lenN m) 0 s <> HOob.
  Proof using Hm H3.
    intros s. unfold DoUserAuthInfoResponse. destruct (lenN m =? 0); [discriminate|].
    destruct (negb (a_authId s =? _)); [discriminate|].
    pose proof (GetUint32_inv m 0 Hm H3 is32_0) as P.
    destruct (GetUint32 m (lenN m) 0) as [n k|? ?|]; [|discriminate|contradiction].
    destruct P as (l & _ & _ & _ & -> & L & _).
    destruct (negb _); [apply finish_total|].
    assert (J : is32 (0 + 4)) by (unfold is32, W32; lia).
    pose proof (get_strs_inv m Hm H3 (N.to_nat n) (0 + 4) J L) as P.
    destruct (get_strs (N.to_nat n) m (lenN m) (0 + 4)) as [rs j|? ?|]; [|discriminate|contradiction].
    destruct (c_cb c); [|apply finish_total].
    destruct (callback _ _ _) as [s1 [res n2] ].
    destruct res; try apply finish_total. destruct (SendUserAuthKeyboardRequest _ _ _). discriminate.
  Qed.

  Lemma pk_total : forall u i s an, head m u an i -> an = ascii "publickey" -> is32 (lenN (a_sid s)) ->
    DoUserAuthRequestPublicKey c x u m (lenN m) i s <> HOob.
  Proof using Hm H3.
    intros u i s an Hh Ha Hsid. unfold DoUserAuthRequestPublicKey. destruct (lenN m =? 0); [discriminate|].
    pose proof (get_pk_inv m Hm H3 i (proj2 Hh)) as P.
    destruct (get_pk m (lenN m) i) as [ [ [ [flag algo] blob] sig] k|? ?|] eqn:G; [|discriminate|contradiction].
    destruct P as (_ & _ & _ & B1 & B2 & B3 & B4 & _).
    pose proof (check_pk_oob flag blob sig B1 B2 B3 B4) as P.
    destruct (check_pk flag blob sig) as [? ?|? ?|]; [|discriminate|contradiction]. cbv zeta.
    assert (F : forall p s1, (let '(s, r) := SendUserAuthFailureCount p true s1 in HR s r k) <> HOob).
    { intros p s1. destruct (SendUserAuthFailureCount p true s1). discriminate. }
    destruct (_ || _) eqn:Eid; [apply F|]. apply orb_false_iff in Eid. destruct Eid as (Eid & _). apply N.eqb_neq in Eid.
    destruct (negb (c_cb c)); [apply F|].
    destruct (callback _ _ _) as [s1 [res n] ] eqn:E. apply callback_inv in E. destruct E as (an2 & ->).
    assert (V : forall s1 (p : bool), a_sid s1 = a_sid s ->
      (if flag =? 0 then let '(s, r) := send (EPkOk algo blob) s1 in HR s r k
       else match signed_data (a_sid s1) m (lenN m) sig with
            | None => HOob
            | Some msg =>
              match VerifyUser x (NameToId algo) algo blob sig msg with
              | POob => HOob
              | PErr _ _ => let '(s, r) := SendUserAuthFailureCount false true (if c_rcb c then fst (result_cb false s1) else s1) in HR s r k
              | POk _ _ =>
                let '(s, ok) := if c_rcb c then result_cb true s1 else (s1, true) in
                if negb ok then let '(s, r) := SendUserAuthFailureCount false true s in HR s r k
                else if p then let '(s, r) := SendUserAuthFailureCount true true s in HR s r k
                else HR (grant u (CrKey flag algo blob sig) s) WS_SUCCESS k
              end
            end) <> HOob).
    { intros s2 p Es. destruct (N.eqb_spec flag 0) as [Hf|Hf].
      - destruct (send _ _). discriminate.
      - destruct (signed_ok m Hm H3 _ _ _ _ _ _ _ _ (a_sid s) Hh Ha G Hf Hsid) as (? & ? & ? & msg & _ & _ & _ & K).
        rewrite Es, K. pose proof (VerifyUser_ok x algo blob sig msg B1 B2 B3 B4 Eid) as W.
        destruct (VerifyUser _ _ _ _ _ _) as [? ?|? ?|]; [|apply F|contradiction].
        destruct (if c_rcb c then _ else _) as [s3 ok]. destruct (negb ok); [apply F|]. destruct p; [apply F|discriminate]. }
    destruct res; try discriminate; try apply F; [apply (V _ false)|apply (V _ true)]; reflexivity.
  Qed.

  Lemma Dispatch_total : forall u an i s, head m u an i -> is32 (lenN (a_sid s)) ->
    Dispatch c x u an m (lenN m) i s <> HOob.
  Proof using Hm H3.
    intros u an i s Hh Hsid. unfold Dispatch.
    set (s1 := set_requests _ _).
    destruct (if c_kb c && a_pending s1 then _ else _) as [s2 r2] eqn:E2.
    assert (Es : a_sid s2 = a_sid s).
    { destruct (c_kb c && a_pending s1); [|injection E2 as <- <-; reflexivity].
      apply count_inv in E2. destruct E2 as [(_ & _ & a2 & ->) | (_ & _ & ->)]; reflexivity. }
    clear E2. destruct r2; try discriminate.
    destruct (_ =? ID_USERAUTH_PASSWORD); [apply password_total; apply Hh|].
    destruct (c_kb c && (NameToId an =? ID_USERAUTH_KEYBOARD)); [destruct (SendUserAuthKeyboardRequest _ _ _); discriminate|].
    destruct (N.eqb_spec (NameToId an) ID_USERAUTH_PUBLICKEY) as [E|E].
    { eapply pk_total; [exact Hh|nm "publickey"%string|congruence]. }
    destruct (c_none c && (NameToId an =? ID_NONE)); [apply none_total|].
    destruct (SendUserAuthFailureCount _ _ _). discriminate.
  Qed.

  Lemma Request_total : forall s, is32 (lenN (a_sid s)) -> DoUserAuthRequest c x m (lenN m) 0 s <> HOob.
  Proof using Hm H3.
    intros s Hsid. unfold DoUserAuthRequest. destruct (lenN m =? 0); [discriminate|].
    rstr m 0 Hm H3 is32_0 user k1 E1 R1 J1; [|discriminate].
    rstr m k1 Hm H3 J1 svc k2 E2 R2 J2; [|discriminate].
    destruct (N.eqb_spec (NameToId svc) ID_SERVICE_CONNECTION) as [Es|Es]; cbn [negb].
    2: { destruct (SendUserAuthFailureCount _ _ _). discriminate. }
    assert (Esn : svc = ascii "ssh-connection") by (nm "ssh-connection"%string). subst svc.
    rstr m k2 Hm H3 J2 authName k3 E3 R3 J3; [|discriminate].
    assert (Hh : head m user authName k3) by (split; [chain|assumption]).
    destruct (a_user s) as [u|].
    - destruct (bytes_eqb user u); [|discriminate]. apply Dispatch_total; assumption.
    - unfold SetUsernameRaw. destruct (lenN user =? 0); [discriminate|]. apply Dispatch_total; assumption.
  Qed.
End NoOob.

(* ---- one step, any message ------------------------------------------------- *)
Theorem step_spec : forall c x m an s, wf_msg m -> is32 (lenN (a_sid s)) -> kb_bound s ->
  exists s' r j, auth_step c x m an s = HR s' r j /\ step_effect x m s s' r.
Proof.
  intros c x m an s (Hm & H3) Hsid K.
  assert (Q : forall s' r, step_effect x m (set_ans an s) s' r -> step_effect x m s s' r) by (intros s' r E; exact E).
  unfold auth_step. destruct m as [m|m]; cbn [msg_bytes] in *.
  - destruct (DoUserAuthRequest c x m (lenN m) 0 (set_ans an s)) as [s' r j|] eqn:E.
    + exists s', r, j. split; [reflexivity|]. apply Q. eapply Request_effect; try eassumption.
    + exfalso. eapply Request_total; [exact Hm|exact H3| |exact E]. exact Hsid.
  - destruct (c_kb c).
    + destruct (DoUserAuthInfoResponse c m (lenN m) 0 (set_ans an s)) as [s' r j|] eqn:E.
      * exists s', r, j. split; [reflexivity|]. apply Q. eapply Info_effect; try eassumption.
      * exfalso. eapply info_total; [exact Hm|exact H3|exact E].
    + eexists; eexists; eexists. split; [reflexivity|]. apply quiet_step; auto.
Qed.

(* ---- histories --------------------------------------------------------------- *)
(* after n messages: T requests were let through to a method, e failures were
   not counted *)
Definition counted (n : N) (s : auth) : Prop := exists T e,
  T <= n /\ a_requests s = T mod W32 /\ e * W32 <= T + (W32 - 1) /\
  countP is_failure (a_log s) <= a_failures s + e /\
  countP is_refusal (a_log s) <= a_failures s + e /\
  a_failures s + b2n (a_pending s) <= countP is_failure (a_log s) + countP is_prompt (a_log s).

Record ainv (max : N) (sid : bytes) (n : N) (s : auth) : Prop := mkAinv {
  ai_max : a_max s = max; ai_sid : a_sid s = sid; ai_kb : kb_bound s;
  ai_f : a_failures s <= max; ai_cnt : counted n s;
  ai_prompts : a_prompts s = last_prompt 0 (a_log s);
  ai_users : Forall (fun v => event_user v = None \/ event_user v = a_user s) (a_log s) }.

Lemma countP_app : forall A (p : A -> bool) l l', countP p (l ++ l') = countP p l + countP p l'.
Proof. intros A p l l'. unfold countP. rewrite filter_app, lenN_app. reflexivity. Qed.

Definition ended_at_limit (s : auth) : Prop :=
  exists l, a_log s = l ++ [EDisconnect DISC_NO_MORE_AUTH] /\ ~ In (EDisconnect DISC_NO_MORE_AUTH) l.

Lemma step_ainv : forall c x m an max sid n s, wf_msg m -> is32 (lenN sid) -> is32 max ->
  ainv max sid n s -> a_failures s < max -> ~ In (EDisconnect DISC_NO_MORE_AUTH) (a_log s) ->
  exists s' r j ev, auth_step c x m an s = HR s' r j /\ ainv max sid (n + 1) s' /\
    a_log s' = a_log s ++ ev /\
    (a_user s' = a_user s \/ a_user s = None) /\
    step_granted x m s s' r ev /\ Forall (asked m s s') ev /\ method_of m s s' /\
    ((a_failures s' < max /\ ~ In (EDisconnect DISC_NO_MORE_AUTH) (a_log s'))
     \/ (a_failures s' = max /\ goes_on r = false /\ ended_at_limit s')).
Proof.
  intros c x m an max sid n s Hw Hs Hx [A1 A2 A3 A4 A5 Ap A6] Hf Hd.
  assert (Hs' : is32 (lenN (a_sid s))) by (rewrite A2; assumption).
  destruct (step_spec c x m an s Hw Hs' A3) as (s' & r & j & Es & ev & e & B1 & (B2 & B3) & B4 & B5 & B6 & B7 & B8 & B9 & B10 & B11 & B12).
  rewrite A1 in *. destruct (B9 Hf Hx) as (T1 & T2 & T3 & T4 & T5 & T6).
  exists s', r, j, ev. split; [assumption|]. split; [|split; [assumption|split; [assumption|split; [assumption|split; [assumption|split; [assumption|] ] ] ] ] ].
  - constructor; try congruence; try assumption.
    + destruct A5 as (T & e0 & C1 & C2 & C3 & C4 & C5 & C6). unfold counted. rewrite B1, !countP_app.
      assert (X : exists T' e', (T' = T \/ T' = T + 1) /\ a_requests s' = T' mod W32 /\ e' = e0 + e /\ e' * W32 <= T' + (W32 - 1)).
      { assert (Hadd : add32 (a_requests s) 1 = (T + 1) mod W32).
        { rewrite C2. unfold add32, w32. rewrite N.add_mod_idemp_l by (unfold W32; lia). reflexivity. }
        destruct B8 as [-> | (-> & D1 & D2)].
        - destruct B5 as [B5|B5].
          + exists T, (e0 + 0). split; [auto|]. split; [congruence|]. split; [reflexivity|]. lia.
          + exists (T + 1), (e0 + 0). split; [auto|]. split; [congruence|]. split; [reflexivity|]. lia.
        - exists (T + 1), (e0 + 1). split; [auto|]. split; [congruence|]. split; [reflexivity|].
          rewrite D1, Hadd in D2. pose proof (N.div_mod (T + 1) W32) as Q. rewrite <- D2 in Q.
          assert (W : W32 = 4294967296) by reflexivity. rewrite W in *.
          specialize (Q ltac:(discriminate)). lia. }
      destruct X as (T' & e' & X1 & X2 & -> & X4). exists T', (e0 + e).
      split; [destruct X1; lia|]. split; [assumption|]. split; [assumption|]. split; [lia|]. split; [lia|].
      unfold fair in B11. destruct B11. lia.
    + destruct B11 as (_ & Bp). rewrite B1, Bp, Ap. unfold last_prompt. rewrite fold_left_app. reflexivity.
    + rewrite B1. apply Forall_app. split.
      2: { eapply Forall_impl; [|exact B6]. intros v V. destruct v; cbn in *; auto; destruct V; auto. }
      destruct B4 as [-> |B4]; [assumption|]. eapply Forall_impl; [|exact A6].
      intros v [V|V]; [auto|]. left. congruence.
  - destruct (N.eq_dec (a_failures s') max) as [E|E].
    + right. destruct (T5 E) as (G & ev0 & -> & Hn). split; [assumption|]. split; [assumption|].
      exists (a_log s ++ ev0). split; [rewrite B1, app_assoc; reflexivity|].
      intros Hin. apply in_app_or in Hin. tauto.
    + left. split; [lia|]. rewrite B1. intros Hin. apply in_app_or in Hin. destruct Hin as [Hin|Hin]; [tauto|].
      apply T6 in Hin; [assumption|lia].
Qed.

Theorem run_spec : forall c x max sid h n s last, wf_history h -> is32 (lenN sid) -> is32 max ->
  ainv max sid n s -> a_failures s < max -> ~ In (EDisconnect DISC_NO_MORE_AUTH) (a_log s) -> goes_on last = true ->
  exists s' r, run c x s h last = Some (s', r) /\ ainv max sid (n + lenN h) s' /\
    (exists ev, a_log s' = a_log s ++ ev) /\
    (a_user s' = a_user s \/ a_user s = None) /\
    ((a_failures s' < max /\ ~ In (EDisconnect DISC_NO_MORE_AUTH) (a_log s'))
     \/ (a_failures s' = max /\ goes_on r = false /\ ended_at_limit s')) /\
    (* every grant came from a message of the history that earned it *)
    (forall U cr, In (EGranted U cr) (a_log s') -> In (EGranted U cr) (a_log s) \/
       exists m an b, In (m, an) h /\ legitimate x sid b U m cr /\ a_user s' = Some U /\
         In (ECallback U cr CbSuccess) (a_log s')) /\
    (a_client s' = a_client s \/ a_client s' = CLIENT_USERAUTH_DONE /\
       exists U cr, In (EGranted U cr) (a_log s')) /\
    (a_authId s' = a_authId s \/ exists mb an h0 rest U name, In (MRequest mb, an) h /\ mb = h0 ++ rest /\
       is_strs h0 [U; ascii "ssh-connection"; name] /\ a_authId s' = NameToId name /\ a_user s' = Some U).
Proof.
  intros c x max sid h. induction h as [|[m an] t IH]; intros n s last Hw Hs Hx A Hf Hd Hg; cbn [run].
  - exists s, last. split; [reflexivity|]. split; [unfold lenN; cbn; rewrite N.add_0_r; assumption|].
    split; [exists []; symmetry; apply app_nil_r|]. split; [auto|]. split; [auto|]. split; [auto|]. split; auto.
  - inversion Hw as [|? ? Hm Ht]; subst. cbn [fst] in Hm.
    destruct (step_ainv c x m an max sid n s Hm Hs Hx A Hf Hd) as (s1 & r1 & j1 & ev & -> & A1 & L1 & U1 & G1 & _ & M1 & D1).
    assert (Sid : a_sid s = sid) by apply A.
    assert (Fg : forall U cr, In (EGranted U cr) (a_log s1) -> In (EGranted U cr) (a_log s) \/
       exists m' an' b, In (m', an') ((m, an) :: t) /\ legitimate x sid b U m' cr /\ a_user s1 = Some U /\ In (ECallback U cr CbSuccess) (a_log s1)).
    { intros U cr Hin. rewrite L1 in *. apply in_app_or in Hin. destruct Hin as [Hin|Hin]; [auto|].
      destruct G1 as [(_ & N1)|(_ & _ & U0 & cr0 & mid & P1 & P2 & P3 & P4)]; [exfalso; eapply N1; eassumption|].
      right. exists m, an, (a_user s).
      assert (E : EGranted U cr = EGranted U0 cr0).
      { rewrite P3 in Hin. destruct Hin as [Hin|Hin]; [discriminate|]. apply in_app_or in Hin.
        destruct Hin as [Hin|[Hin|[] ] ]; [|congruence]. rewrite Forall_forall in P4. apply P4 in Hin. discriminate. }
      injection E as -> ->. split; [left; reflexivity|]. rewrite <- Sid. split; [assumption|]. split; [assumption|].
      apply in_or_app. right. rewrite P3. left. reflexivity. }
    assert (Fc : a_client s1 = a_client s \/ a_client s1 = CLIENT_USERAUTH_DONE /\ exists U cr, In (EGranted U cr) (a_log s1)).
    { destruct G1 as [(N1 & _)|(P0 & _ & U0 & cr0 & mid & P1 & P2 & P3 & P4)]; [auto|]. right. split; [assumption|].
      exists U0, cr0. rewrite L1, P3. apply in_or_app. right. right. apply in_or_app. right. left. reflexivity. }
    assert (Ln : n + lenN ((m, an) :: t) = n + 1 + lenN t) by (unfold lenN; cbn [Datatypes.length]; lia).
    destruct (goes_on r1) eqn:Gr.
    + destruct D1 as [(D1 & D2)|(_ & D1 & _)]; [|congruence].
      destruct (IH (n + 1) s1 r1 Ht Hs Hx A1 D1 D2 Gr) as (s' & r & -> & I1 & (ev' & I2) & I3 & I4 & I5 & I6 & I7).
      exists s', r. split; [reflexivity|]. split; [rewrite Ln; assumption|].
      split; [exists (ev ++ ev'); rewrite I2, L1, app_assoc; reflexivity|].
      split; [destruct U1 as [U1|U1]; [|auto]; destruct I3 as [I3|I3]; [left; congruence|right; congruence]|].
      split; [assumption|]. split; [|split].
      * intros U cr Hin. apply I5 in Hin. destruct Hin as [Hin|(m' & an' & b' & H1 & H2)].
        -- apply Fg in Hin. destruct Hin as [Hin|(m' & an' & b' & [E|H1] & H2 & H4 & H5)]; [auto| |].
           ++ injection E as -> ->. right. exists m', an', b'. split; [left; reflexivity|]. split; [assumption|].
              split; [destruct I3 as [I3|I3]; congruence|]. rewrite I2. apply in_or_app. auto.
           ++ right. exists m', an', b'. split; [right; assumption|]. split; [assumption|].
              split; [destruct I3 as [I3|I3]; congruence|]. rewrite I2. apply in_or_app. auto.
        -- right. exists m', an', b'. split; [right; assumption|assumption].
      * destruct I6 as [I6|I6]; [|auto]. destruct Fc as [Fc|(Fc & U & cr & Hin)]; [left; congruence|].
        right. split; [congruence|]. exists U, cr. rewrite I2. apply in_or_app. auto.
      * destruct I7 as [I7|(mb & an' & h0 & rest & U & name & K1 & K2)].
        -- destruct M1 as [M1|(mb & h0 & rest & U & name & K1 & K2 & K3 & K4 & K5)]; [left; congruence|].
           right. exists mb, an, h0, rest, U, name. split; [left; congruence|]. split; [assumption|]. split; [assumption|].
           split; [congruence|]. destruct I3; congruence.
        -- right. exists mb, an', h0, rest, U, name. split; [right; assumption|assumption].
    + exists s1, r1. split; [reflexivity|]. split.
      { rewrite Ln. destruct A1 as [X1 X2 X3 X4 X5 Xp X6]. constructor; try assumption.
        destruct X5 as (T & e & Y1 & Y2). exists T, e. split; [lia|assumption]. }
      split; [exists ev; assumption|]. split; [assumption|]. split; [rewrite Gr; assumption|]. split; [|split; [assumption|] ].
      2: { destruct M1 as [M1|(mb & h0 & rest & U & name & K1 & K2 & K3 & K4 & K5)]; [auto|].
           right. exists mb, an, h0, rest, U, name. split; [left; congruence|]. auto. }
      intros U cr Hin. apply Fg in Hin. destruct Hin as [Hin|(m' & an' & b' & [E|H1] & H2)]; [auto| |].
      * right. exists m', an', b'. split; [left; exact E|exact H2].
      * right. exists m', an', b'. split; [right; exact H1|exact H2].
Qed.

Lemma init_ainv : forall max sid, ainv max sid 0 (init_auth max sid).
Proof.
  intros max sid. constructor; try reflexivity; cbn.
  - discriminate.
  - lia.
  - exists 0, 0. cbn. repeat split; lia.
  - constructor.
Qed.
