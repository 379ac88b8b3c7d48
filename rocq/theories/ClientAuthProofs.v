(* ClientAuthProofs.v - lemmas about ClientAuthModel: what the client's
   messages consist of. *)
From Verif Require Import Base WireModel WireSpec WireProofs NameTable NegoModel NegoSpec NegoProofs AuthModel AuthSpec AuthProofs
  AuthStep AuthProps PathModel ClientAuthModel ClientAuthSpec.
From Coq Require Import List NArith Lia Bool String.
Import ListNotations.
Open Scope N_scope.
Local Notation "a ++ b" := (@app _ a b) : list_scope.

(* ---- fields ----------------------------------------------------------- *)
Lemma put_str : forall s, is32 (lenN s) -> is_str (c32toa (lenN s) ++ s) s.
Proof.
  intros s H. exists (c32toa (lenN s)). split; [reflexivity|]. split; [apply c32toa_length|].
  split; [apply be_value_c32toa; assumption|apply c32toa_ok].
Qed.
Lemma strs_cons : forall f s g ss, is_str f s -> is_strs g ss -> is_strs (f ++ g) (s :: ss).
Proof. intros f s g ss H (ps & -> & F). exists (f :: ps). split; [reflexivity|constructor; assumption]. Qed.
Lemma strs_nil : is_strs [] [].
Proof. exists []. split; [reflexivity|constructor]. Qed.
Lemma strs_one : forall f s, is_str f s -> is_strs f [s].
Proof. intros f s. apply is_strs_one. Qed.
Lemma small32 : forall b, small b -> is32 (lenN b).
Proof. intros b (_ & H). unfold is32, W32. change (2 ^ 28) with 268435456 in H. lia. Qed.

Lemma start_head : forall user id (name : string), is32 (lenN user) -> IdToName id = ascii name -> is32 (lenN (ascii name)) ->
  exists h, request_start user id = 50 :: h /\ request_head h user name.
Proof.
  intros user id name Hu E Hn. unfold request_start. rewrite E. eexists. split; [reflexivity|].
  unfold request_head. rewrite !app_assoc. rewrite <- (app_assoc _ _ (ascii name)).
  rewrite <- !app_assoc. change (ascii "ssh-connection") with name_connection.
  rewrite (app_assoc (c32toa (lenN user)) user). apply strs_cons; [apply put_str; assumption|].
  rewrite (app_assoc (c32toa (lenN name_connection))). apply strs_cons; [apply put_str; vm_compute; reflexivity|].
  apply strs_one. apply put_str. assumption.
Qed.

(* ---- signature fields --------------------------------------------------- *)
Lemma sig_field_str : forall name sig, lenN name < 2 ^ 28 -> lenN sig < 2 ^ 28 ->
  exists f, is_str (sig_field name sig) f /\ is_strs f [name; sig].
Proof.
  intros name sig Hn Hs. change (2 ^ 28) with 268435456 in *.
  set (f := (c32toa (lenN name) ++ name) ++ c32toa (lenN sig) ++ sig).
  assert (L : lenN f = lenN sig + lenN name + 4 * 2).
  { unfold f. rewrite !lenN_app, !c32toa_length. lia. }
  exists f. split.
  - unfold sig_field. rewrite <- L. replace (c32toa (lenN name) ++ name ++ c32toa (lenN sig) ++ sig) with f
      by (unfold f; rewrite <- app_assoc; reflexivity).
    apply put_str. unfold is32, W32. lia.
  - unfold f. apply strs_cons; [apply put_str; unfold is32, W32; lia|].
    apply strs_one. apply put_str. unfold is32, W32. lia.
Qed.

Lemma top_pad_le : forall r, lenN (top_pad r) <= 1.
Proof. intros [|x r]; cbn [top_pad]; [|destruct (128 <=? x)]; vm_compute; discriminate. Qed.

Lemma top_pad_unsigned : forall r, unsigned r (top_pad r ++ r).
Proof.
  intros [|x r]; unfold top_pad.
  - split; [left; reflexivity|exact I].
  - destruct (N.leb_spec 128 x).
    + split; [right; reflexivity|]. cbn. lia.
    + split; [left; reflexivity|]. cbn. lia.
Qed.

Lemma ecc_field_str : forall name r s, lenN name < 2 ^ 28 -> lenN r < 2 ^ 28 -> lenN s < 2 ^ 28 ->
  exists f rs, is_str (ecc_field name r s) f /\ is_strs f [name; rs] /\ is_strs rs [top_pad r ++ r; top_pad s ++ s].
Proof.
  intros name r s Hn Hr Hs. pose proof (top_pad_le r). pose proof (top_pad_le s).
  change (2 ^ 28) with 268435456 in *.
  assert (Lr : lenN (top_pad r ++ r) = lenN r + lenN (top_pad r)) by (rewrite lenN_app; lia).
  assert (Ls : lenN (top_pad s ++ s) = lenN s + lenN (top_pad s)) by (rewrite lenN_app; lia).
  set (rs := (c32toa (lenN (top_pad r ++ r)) ++ top_pad r ++ r) ++ c32toa (lenN (top_pad s ++ s)) ++ top_pad s ++ s).
  assert (Lrs : lenN rs = lenN r + lenN (top_pad r) + lenN s + lenN (top_pad s) + 4 * 2).
  { unfold rs. rewrite !lenN_app, !c32toa_length. lia. }
  set (f := (c32toa (lenN name) ++ name) ++ c32toa (lenN rs) ++ rs).
  assert (Lf : lenN f = lenN r + lenN (top_pad r) + lenN s + lenN (top_pad s) + lenN name + 4 * 4).
  { unfold f. rewrite !lenN_app, !c32toa_length. lia. }
  exists f, rs. split; [|split].
  - unfold ecc_field. rewrite <- Lf. cbv zeta. rewrite <- Lrs.
    replace (c32toa (lenN name) ++ name ++ c32toa (lenN rs) ++ c32toa (lenN r + lenN (top_pad r)) ++ top_pad r ++ r
      ++ c32toa (lenN s + lenN (top_pad s)) ++ top_pad s ++ s) with f.
    + apply put_str. unfold is32, W32. lia.
    + unfold f at 1. rewrite <- app_assoc. repeat f_equal. unfold rs. rewrite Lr, Ls, <- !app_assoc. reflexivity.
  - unfold f. apply strs_cons; [apply put_str; unfold is32, W32; lia|].
    apply strs_one. apply put_str. unfold is32, W32. lia.
  - unfold rs. apply strs_cons; [apply put_str; unfold is32, W32; lia|].
    apply strs_one. apply put_str. unfold is32, W32. lia.
Qed.

(* ---- choosing the algorithm ----------------------------------------------- *)
(* what match_ids finds in a decoded list, by name *)
Lemma match_flt : forall ns L, ~ In ID_UNKNOWN L -> match_ids (flt ns) L <> ID_UNKNOWN ->
  exists b x a, ns = b ++ x :: a /\ NameToId x = match_ids (flt ns) L /\ knownb x = true /\ In (NameToId x) L /\
    forall y, In y b -> ~ In (NameToId y) L.
Proof.
  induction ns as [|n ns IH]; intros L HU H; [contradiction H; reflexivity|].
  unfold flt in *. cbn [map filter] in *.
  destruct (NameToId n =? ID_UNKNOWN) eqn:En; cbn [negb] in *.
  - destruct (IH L HU H) as (b & x & a & -> & E & K & I1 & I2). exists (n :: b), x, a.
    split; [reflexivity|]. split; [exact E|]. split; [exact K|]. split; [exact I1|].
    intros y [<-|Hy]; [apply N.eqb_eq in En; rewrite En; exact HU|apply I2; exact Hy].
  - cbn [match_ids] in *. destruct (existsb (N.eqb (NameToId n)) L) eqn:Ex.
    + exists [], n, ns. split; [reflexivity|]. split; [reflexivity|]. split; [unfold knownb; rewrite En; reflexivity|].
      split; [|intros y []]. apply existsb_exists in Ex. destruct Ex as (z & Hz & Ez). apply N.eqb_eq in Ez. rewrite Ez. exact Hz.
    + destruct (IH L HU H) as (b & x & a & -> & E & K & I1 & I2). exists (n :: b), x, a.
      split; [reflexivity|]. split; [exact E|]. split; [exact K|]. split; [exact I1|].
      intros y [<-|Hy]; [|apply I2; exact Hy]. intros HI.
      assert (T : existsb (N.eqb (NameToId n)) L = true); [|congruence].
      apply existsb_exists. exists (NameToId n). split; [exact HI|apply N.eqb_refl].
Qed.

Lemma match_decoded : forall ns L, ~ In ID_UNKNOWN L -> match_ids (decoded ns) L <> ID_UNKNOWN ->
  exists b x a, ns = b ++ x :: a /\ NameToId x = match_ids (decoded ns) L /\ knownb x = true /\ In (NameToId x) L /\
    forall y, In y b -> ~ In (NameToId y) L.
Proof.
  intros [|n ns] L HU H; [contradiction H; reflexivity|].
  unfold decoded in *. cbn [ids_of_names] in *. fold (flt ns) in *.
  destruct (NameToId n =? ID_UNKNOWN) eqn:En.
  - apply N.eqb_eq in En.
    assert (Eh : existsb (N.eqb (NameToId n)) L = false).
    { destruct (existsb (N.eqb (NameToId n)) L) eqn:Ex; [|reflexivity].
      apply existsb_exists in Ex. destruct Ex as (z & Hz & Ez). apply N.eqb_eq in Ez. rewrite En in Ez. rewrite Ez in HU. contradiction. }
    cbn [match_ids] in *. rewrite Eh in *.
    destruct (match_flt ns L HU H) as (b & x & a & -> & E & K & I1 & I2). exists (n :: b), x, a.
    split; [reflexivity|]. split; [exact E|]. split; [exact K|]. split; [exact I1|].
    intros y [<-|Hy]; [rewrite En; exact HU|apply I2; exact Hy].
  - assert (Ef : NameToId n :: flt ns = flt (n :: ns)) by (unfold flt; cbn [map filter]; rewrite En; reflexivity).
    rewrite Ef in *. apply match_flt; assumption.
Qed.

Lemma name_is_ne : forall s n id, NameToId n = id -> NameToId (ascii s) <> id -> n <> ascii s.
Proof. intros s n id H H2 ->. contradiction. Qed.

Lemma rsa_name : forall n, NameToId n = ID_SSH_RSA <-> n = ascii "ssh-rsa".
Proof. intros n. split; [intros H; nm "ssh-rsa"%string|intros ->; vm_compute; reflexivity]. Qed.

(* names that fit have identifiers that fit *)
Lemma fits_ids : forall key y, algo_fits key y -> In (NameToId y) (algos_for (NameToId key)).
Proof.
  intros key y [(-> & [-> | ->])|(N & ->)].
  - vm_compute. auto.
  - vm_compute. auto.
  - unfold algos_for. destruct (N.eqb_spec (NameToId key) ID_SSH_RSA) as [E|E]; [|left; reflexivity].
    apply rsa_name in E. contradiction.
Qed.

Definition sig_table : list (string * kind) :=
  [("ssh-rsa", KRsa); ("rsa-sha2-256", KRsa); ("rsa-sha2-512", KRsa);
   ("ecdsa-sha2-nistp256", KEcc); ("ecdsa-sha2-nistp384", KEcc); ("ecdsa-sha2-nistp521", KEcc);
   ("ssh-ed25519", KEd);
   ("ssh-mldsa-44", KOther); ("ssh-mldsa-65", KOther); ("ssh-mldsa-87", KOther);
   ("ssh-mldsa44-es256@wolfssl.com", KOther); ("ssh-mldsa65-es256@wolfssl.com", KOther);
   ("ssh-mldsa87-es384@wolfssl.com", KOther); ("ssh-mldsa44-ed25519@openssh.com", KOther);
   ("ssh-mldsa65-ed25519@wolfssl.com", KOther); ("ssh-mldsa87-ed448@wolfssl.com", KOther)]%string.

Definition row_ok (p : string * kind) : bool :=
  let n := ascii (fst p) in
  knownb n && negb (NameToId n =? ID_OSSH_CERT_RSA) && negb (NameToId n =? ID_UNKNOWN) && bytes_eqb (IdToName (NameToId n)) n && (lenN n <? 64).
Lemma rows_ok : forall p, In p sig_table -> row_ok p = true.
Proof. apply Forall_forall. repeat (apply Forall_cons; [vm_compute; reflexivity|]). apply Forall_nil. Qed.

Lemma row_facts : forall name kd, In (name, kd) sig_table ->
  (forall n, NameToId n = NameToId (ascii name) -> n = ascii name) /\
  IdToName (NameToId (ascii name)) = ascii name /\ NameToId (ascii name) <> ID_UNKNOWN /\ lenN (ascii name) < 64.
Proof.
  intros name kd H. apply rows_ok in H. unfold row_ok in H. cbn [fst] in H.
  rewrite !andb_true_iff in H. destruct H as ((((K & A) & U) & B) & L).
  split; [|split; [|split]].
  - intros n E. apply (name_is name n E). rewrite K, A. reflexivity.
  - apply bytes_eqb_eq. exact B.
  - intros X. rewrite X in U. vm_compute in U. discriminate.
  - apply N.ltb_lt. exact L.
Qed.

Ltac row n := exists n; split; [cbn; tauto|vm_compute; reflexivity].
Lemma kind_row : forall id kd, kind_of id = Some kd ->
  exists name, In (name, kd) sig_table /\ id = NameToId (ascii name).
Proof.
  intros id kd. unfold kind_of.
  destruct ((id =? ID_SSH_RSA) || (id =? ID_RSA_SHA2_256) || (id =? ID_RSA_SHA2_512)) eqn:E1.
  { intros H. injection H as <-. rewrite !orb_true_iff, !N.eqb_eq in E1. destruct E1 as [[-> | ->] | ->];
    [row "ssh-rsa"%string|row "rsa-sha2-256"%string|row "rsa-sha2-512"%string]. }
  destruct ((id =? ID_ECDSA_SHA2_NISTP256) || (id =? ID_ECDSA_SHA2_NISTP384) || (id =? ID_ECDSA_SHA2_NISTP521)) eqn:E2.
  { intros H. injection H as <-. rewrite !orb_true_iff, !N.eqb_eq in E2. destruct E2 as [[-> | ->] | ->];
    [row "ecdsa-sha2-nistp256"%string|row "ecdsa-sha2-nistp384"%string|row "ecdsa-sha2-nistp521"%string]. }
  destruct (id =? ID_ED25519) eqn:E3.
  { intros H. injection H as <-. apply N.eqb_eq in E3. subst. row "ssh-ed25519"%string. }
  unfold is_mldsa. destruct ((ID_MLDSA44 <=? id) && (id <=? ID_MLDSA87_ED448)) eqn:E4; [|discriminate].
  intros H. injection H as <-. apply andb_true_iff in E4. destruct E4 as (A & B). apply N.leb_le in A, B.
  unfold ID_MLDSA44, ID_MLDSA87_ED448 in *.
  assert (X : id = 36 \/ id = 37 \/ id = 38 \/ id = 39 \/ id = 40 \/ id = 41 \/ id = 42 \/ id = 43 \/ id = 44) by lia.
  destruct X as [->|[->|[->|[->|[->|[->|[->|[->| ->]]]]]]]];
  [row "ssh-mldsa-44"%string|row "ssh-mldsa-65"%string|row "ssh-mldsa-87"%string|row "ssh-mldsa44-es256@wolfssl.com"%string|row "ssh-mldsa65-es256@wolfssl.com"%string
  |row "ssh-mldsa87-es384@wolfssl.com"%string|row "ssh-mldsa44-ed25519@openssh.com"%string|row "ssh-mldsa65-ed25519@wolfssl.com"%string|row "ssh-mldsa87-ed448@wolfssl.com"%string].
Qed.

Lemma match_in : forall l r, match_ids l r <> ID_UNKNOWN -> In (match_ids l r) r.
Proof.
  intros l r H. destruct (match_ids_spec l r) as [(b & a & _ & I1 & _)|(_ & E)]; [exact I1|contradiction].
Qed.

(* the algorithm name in the request, and its size *)
Lemma prepare_key : forall sg ns sz k ks, PrepareKey sg (decoded ns) sz k = ROk ks ->
  exists name kd n, In (name, kd) sig_table /\ kind_of (ks_id ks) = Some kd /\ ks_id ks = NameToId (ascii name) /\
    first_fit ns (pk_type k) (ascii name) /\ request_algo k ks = ascii name /\
    n = (match kd with KEcc => 5 | _ => 3 end) /\
    ks_est ks = add32 (add32 sz (1 + 4 * 2 + lenN (ascii name) + lenN (pk_blob k))) (4 * n + ks_sz ks + lenN (pk_type k)) /\
    lenN (ascii name) <= lenN (pk_type k) + 5 /\
    match kd with
    | KRsa => s_rsa_size sg (pk_priv k) = Some (ks_sz ks) /\ name <> "ssh-rsa"%string
    | KEcc => s_ecc_size sg (pk_priv k) = Some (ks_sz ks)
    | KEd => s_ed_size sg (pk_priv k) = Some (ks_sz ks)
    | KOther => s_other_size sg (ascii name) (pk_priv k) = Some (ks_sz ks)
    end.
Proof.
  intros sg ns sz k ks. unfold PrepareKey, MatchIdLists. cbv zeta.
  set (keyId := NameToId (pk_type k)). set (L := algos_for keyId). set (id := match_ids (decoded ns) L).
  destruct (N.eqb_spec id ID_UNKNOWN) as [E|NU]; [discriminate|].
  assert (HL : In id L) by (apply match_in; exact NU).
  assert (HU : ~ In ID_UNKNOWN L).
  { unfold L, algos_for in *. destruct (N.eqb_spec keyId ID_SSH_RSA) as [E|E].
    - vm_compute. intros [X|[X|[]]]; discriminate.
    - destruct HL as [HL|[]]. intros [X|[]]. congruence. }
  destruct (match_decoded ns L HU NU) as (b & x & a & En & Ex & Kx & Ix & Fx). fold id in Ex.
  assert (FF : algo_fits (pk_type k) x -> first_fit ns (pk_type k) x).
  { intros Hf. exists b, a. split; [exact En|]. split; [exact Hf|]. intros y Hy Hfy. apply (Fx y Hy). apply fits_ids. exact Hfy. }
  destruct (N.eqb_spec keyId ID_SSH_RSA) as [Er|Er].
  - (* an RSA key *)
    destruct (s_rsa_size sg (pk_priv k)) as [z|] eqn:Ez; [|discriminate]. intros H. injection H as <-. cbn [ks_id ks_sz ks_est].
    pose proof (proj1 (rsa_name _) Er) as Ek.
    assert (HI : id = ID_RSA_SHA2_512 \/ id = ID_RSA_SHA2_256).
    { unfold L, algos_for in HL. rewrite Er in HL. cbn in HL. intuition. }
    assert (X : exists name, In (name, KRsa) sig_table /\ kind_of id = Some KRsa /\ id = NameToId (ascii name) /\
      (ascii name = ascii "rsa-sha2-512" \/ ascii name = ascii "rsa-sha2-256") /\ lenN (ascii name) = 12 /\ name <> "ssh-rsa"%string).
    { destruct HI as [-> | ->].
      - exists "rsa-sha2-512"%string. split; [cbn; tauto|]. split; [vm_compute; reflexivity|]. split; [vm_compute; reflexivity|].
        split; [left; reflexivity|]. split; [vm_compute; reflexivity|discriminate].
      - exists "rsa-sha2-256"%string. split; [cbn; tauto|]. split; [vm_compute; reflexivity|]. split; [vm_compute; reflexivity|].
        split; [right; reflexivity|]. split; [vm_compute; reflexivity|discriminate]. }
    destruct X as (name & X1 & X2 & X3 & X4 & X5 & X6).
    destruct (row_facts _ _ X1) as (R1 & R2 & R3 & R4).
    assert (Exn : x = ascii name) by (apply R1; congruence).
    exists name, KRsa, 3. split; [exact X1|]. split; [exact X2|]. split; [exact X3|].
    split; [rewrite <- Exn; apply FF; left; split; [exact Ek|rewrite Exn; exact X4]|].
    split; [unfold request_algo; cbn [ks_id]; rewrite X2, X3; exact R2|].
    split; [reflexivity|]. rewrite X3, R2. split; [reflexivity|].
    split; [rewrite Ek; change (lenN (ascii "ssh-rsa")) with 7; lia|]. split; [reflexivity|exact X6].
  - (* the others: the algorithm is the key's type *)
    destruct ((keyId =? ID_RSA_SHA2_256) || (keyId =? ID_RSA_SHA2_512)) eqn:E2; [discriminate|].
    assert (Eid : id = keyId).
    { unfold L, algos_for in HL. destruct (N.eqb_spec keyId ID_SSH_RSA); [contradiction|]. destruct HL as [HL|[]]. congruence. }
    destruct (kind_of keyId) as [kd|] eqn:Ek; [|discriminate].
    destruct (kind_row _ _ Ek) as (name & X1 & X3). destruct (row_facts _ _ X1) as (R1 & R2 & R3 & R4).
    assert (Et : pk_type k = ascii name) by (apply R1; exact X3).
    assert (Exn : x = ascii name) by (apply R1; congruence).
    assert (Hf : algo_fits (pk_type k) (ascii name)).
    { right. split; [|symmetry; exact Et]. intros X. apply Er. unfold keyId. rewrite X. vm_compute. reflexivity. }
    assert (Rn : IdToName id = ascii name) by (rewrite Eid, X3; exact R2).
    assert (NK : kd <> KRsa).
    { intros ->. unfold kind_of in Ek. apply orb_false_iff in E2. destruct E2 as (E2 & E3). apply N.eqb_neq in Er.
      rewrite Er, E2, E3 in Ek. cbn [orb] in Ek.
      repeat match goal with H : (if ?b then _ else _) = _ |- _ => destruct b; try discriminate end. }
    assert (RA : forall z e, request_algo k (mkKeysig id z e) = ascii name).
    { intros z e. unfold request_algo. cbn [ks_id]. rewrite Eid, Ek. destruct kd; try exact Et. contradiction. }
    intros H.
    assert (KK : exists z, ks = mkKeysig id z (add32 (add32 sz (1 + 4 * 2 + lenN (IdToName id) + lenN (pk_blob k)))
        (4 * (match kd with KEcc => 5 | _ => 3 end) + z + lenN (pk_type k))) /\
      match kd with
      | KRsa => False
      | KEcc => s_ecc_size sg (pk_priv k) = Some z
      | KEd => s_ed_size sg (pk_priv k) = Some z
      | KOther => s_other_size sg (ascii name) (pk_priv k) = Some z
      end).
    { destruct kd; [contradiction| | |].
      - destruct (s_ecc_size sg (pk_priv k)) as [z|]; [|discriminate]. injection H as <-. exists z. split; reflexivity.
      - destruct (s_ed_size sg (pk_priv k)) as [z|]; [|discriminate]. injection H as <-. exists z. split; reflexivity.
      - replace (IdToName keyId) with (ascii name) in H by congruence.
        destruct (s_other_size sg (ascii name) (pk_priv k)) as [z|]; [|discriminate]. injection H as <-. exists z. split; reflexivity. }
    clear H. destruct KK as (z & -> & Kz). cbn [ks_id ks_sz ks_est].
    exists name, kd, (match kd with KEcc => 5 | _ => 3 end). split; [exact X1|]. rewrite Eid at 1. split; [exact Ek|]. split; [congruence|].
    split; [rewrite <- Exn; apply FF; rewrite Exn; exact Hf|]. split; [apply RA|]. split; [reflexivity|].
    rewrite Rn. split; [reflexivity|]. split; [rewrite Et; lia|]. destruct kd; try exact Kz. contradiction.
Qed.

(* ---- the signature ---------------------------------------------------------- *)
Lemma build_signature : forall sg k ks name kd msg f, small_signer sg ->
  In (name, kd) sig_table -> kind_of (ks_id ks) = Some kd -> ks_id ks = NameToId (ascii name) ->
  (kd = KRsa -> name <> "ssh-rsa"%string) ->
  BuildSignature sg k ks msg = ROk f ->
  exists sig, is_str f sig /\ signs sg (ascii name) (pk_priv k) msg sig.
Proof.
  intros sg k ks name kd msg f (S1 & S2 & S3 & S4) Hin Hk Hid Hr. destruct (row_facts _ _ Hin) as (R1 & R2 & R3 & R4).
  assert (R5 : lenN (ascii name) < 2 ^ 28) by (change (2 ^ 28) with 268435456; lia).
  unfold BuildSignature. rewrite Hk, Hid, R2. destruct kd.
  - destruct (s_rsa sg (pk_priv k) (HashForId (NameToId (ascii name))) msg) as [s|] eqn:Es; [|discriminate].
    destruct (lenN s =? ks_sz ks); [|discriminate]. intros H. injection H as <-.
    destruct (sig_field_str (ascii name) s R5 (proj2 (S1 _ _ _ _ Es))) as (g & G1 & G2). exists g. split; [exact G1|].
    specialize (Hr eq_refl).
    assert (X : exists h, In (name, h) rsa_algos /\ h <> SHA1 /\ HashForId (NameToId (ascii name)) = h).
    { cbn in Hin. destruct Hin as [E|[E|[E|Hin] ] ].
      - injection E as <-. contradiction.
      - injection E as <-. exists SHA256. split; [cbn; tauto|]. split; [discriminate|vm_compute; reflexivity].
      - injection E as <-. exists SHA512. split; [cbn; tauto|]. split; [discriminate|vm_compute; reflexivity].
      - exfalso. repeat (destruct Hin as [E|Hin]; [discriminate|]). exact Hin. }
    destruct X as (h & X1 & X2 & X3). rewrite X3 in Es. eapply sg_rsa; eauto.
  - destruct (s_ecc sg (pk_priv k) (HashForId (NameToId (ascii name))) msg) as [[r s]|] eqn:Es; [|discriminate].
    intros H. injection H as <-. destruct (S2 _ _ _ _ _ Es) as ((_ & Lr) & (_ & Ls)).
    destruct (ecc_field_str (ascii name) r s R5 Lr Ls) as (g & rs & G1 & G2 & G3). exists g. split; [exact G1|].
    assert (X : exists curve bits h, In (name, (curve, bits, h)) ecdsa_algos /\ HashForId (NameToId (ascii name)) = h).
    { cbn in Hin. do 3 (destruct Hin as [E|Hin]; [discriminate|]). destruct Hin as [E|[E|[E|Hin] ] ].
      - injection E as <-. do 3 eexists. split; [left; reflexivity|vm_compute; reflexivity].
      - injection E as <-. do 3 eexists. split; [right; left; reflexivity|vm_compute; reflexivity].
      - injection E as <-. do 3 eexists. split; [right; right; left; reflexivity|vm_compute; reflexivity].
      - exfalso. repeat (destruct Hin as [E|Hin]; [discriminate|]). exact Hin. }
    destruct X as (curve & bits & h & X1 & X2). rewrite X2 in Es.
    eapply sg_ecc; [exact X1|reflexivity|exact Es|apply top_pad_unsigned|apply top_pad_unsigned|exact G3|exact G2].
  - destruct (s_ed sg (pk_priv k) msg) as [s|] eqn:Es; [|discriminate]. intros H. injection H as <-.
    assert (X : name = "ssh-ed25519"%string).
    { cbn in Hin. do 6 (destruct Hin as [E|Hin]; [discriminate|]). destruct Hin as [E|Hin]; [injection E as <-; reflexivity|].
      exfalso. repeat (destruct Hin as [E|Hin]; [discriminate|]). exact Hin. }
    subst name. change (IdToName ID_ED25519) with (ascii "ssh-ed25519").
    destruct (sig_field_str (ascii "ssh-ed25519") s R5 (proj2 (S3 _ _ _ Es))) as (g & G1 & G2). exists g. split; [exact G1|].
    eapply sg_ed; eauto.
  - destruct (s_other sg (ascii name) (pk_priv k) msg) as [s|] eqn:Es; [|discriminate]. intros H. injection H as <-.
    destruct (sig_field_str (ascii name) s R5 (proj2 (S4 _ _ _ _ Es))) as (g & G1 & G2). exists g. split; [exact G1|].
    assert (X : In name mldsa_algos).
    { cbn in Hin. do 7 (destruct Hin as [E|Hin]; [discriminate|]). cbn.
      repeat (destruct Hin as [E|Hin]; [injection E as <-; tauto|]). destruct Hin. }
    eapply sg_mldsa; eauto.
Qed.
