(* OsshProps.v - C80: which certificates are accepted; C81: what a request with
   a certificate leads to. *)
From Verif Require Import Base WireModel WireSpec WireProofs NameTable NegoModel NegoSpec NegoProofs AuthModel AuthSpec AuthProofs AuthStep AuthProps OsshModel OsshSpec OsshProofs OsshProofs2 OsshProofs3.
From Coq Require Import List NArith Lia Bool String.
Import ListNotations.
Open Scope N_scope.
Local Notation "a ++ b" := (@app _ a b) : list_scope.

(* ------------------------------------------------------------------ *)
(* C80                                                                  *)

(* A certificate offered under the name [algo] of a certificate type is
   accepted exactly when it is a whole certificate for a key of that type, made
   for users, signed over everything before the signature by the key it names
   as its authority, with no critical options but the two known ones, each at
   most once and not empty; and the application is shown what it says. *)
Theorem C80_accepted : forall x algo type blob o, In (algo, type) cert_types -> bytes_ok blob -> is32 (lenN blob) ->
  ((exists j, check_cert x (NameToId (ascii algo)) blob = POk o j) <->
   exists c command source, blob = cert_bytes c /\ acceptable x c type command source /\
     shown c type command source o /\ o_base o = NameToId (ascii type)).
Proof. exact check_iff. Qed.

(* Under any other name nothing is accepted. *)
Theorem C80_other_names : forall x algo blob o j, (forall name type, In (name, type) cert_types -> algo <> ascii name) ->
  check_cert x (NameToId algo) blob <> POk o j.
Proof.
  intros x algo blob o j H P. unfold check_cert in P. apply pbind_ok in P. destruct P as (k & i & P & _).
  unfold OsshCertParse in P. cbv zeta in P. destruct (lenN blob =? 0); [discriminate|].
  assert (Q : OsshCertBaseId (NameToId algo) = ID_UNKNOWN).
  { unfold OsshCertBaseId.
    assert (G : forall name type id, In (name, type) cert_types -> NameToId (ascii name) = id -> (NameToId algo =? id) = false).
    { intros name type id I E. destruct (N.eqb_spec (NameToId algo) id) as [F|F]; [|reflexivity]. rewrite <- E in F.
      destruct (cert_name _ _ _ I F) as (n2 & -> & I2). exfalso. exact (H _ _ I2 eq_refl). }
    rewrite (G "ssh-rsa-cert-v01@openssh.com" "ssh-rsa" ID_OSSH_CERT_RSA)%string by (cbn [In cert_types]; tauto || (vm_compute; reflexivity)).
    rewrite (G "ecdsa-sha2-nistp256-cert-v01@openssh.com" "ecdsa-sha2-nistp256" ID_OSSH_CERT_ECDSA_SHA2_NISTP256)%string by (cbn [In cert_types]; tauto || (vm_compute; reflexivity)).
    rewrite (G "ecdsa-sha2-nistp384-cert-v01@openssh.com" "ecdsa-sha2-nistp384" ID_OSSH_CERT_ECDSA_SHA2_NISTP384)%string by (cbn [In cert_types]; tauto || (vm_compute; reflexivity)).
    rewrite (G "ecdsa-sha2-nistp521-cert-v01@openssh.com" "ecdsa-sha2-nistp521" ID_OSSH_CERT_ECDSA_SHA2_NISTP521)%string by (cbn [In cert_types]; tauto || (vm_compute; reflexivity)).
    rewrite (G "ssh-ed25519-cert-v01@openssh.com" "ssh-ed25519" ID_OSSH_CERT_ED25519)%string by (cbn [In cert_types]; tauto || (vm_compute; reflexivity)).
    reflexivity. }
  rewrite Q, N.eqb_refl in P. discriminate.
Qed.

(* What the authority signed determines everything but the signature: no two
   certificates share it. *)
Theorem C80_binding : forall c1 c2 t1 t2, certifies c1 t1 -> certifies c2 t2 ->
  is32 (lenN (signed_part c1)) -> is32 (lenN (signed_part c2)) -> signed_part c1 = signed_part c2 ->
  t1 = t2 /\ c2 = Certificate (c_name c1) (c_nonce c1) (c_key c1) (c_serial c1) (c_kind c1) (c_id c1) (c_principals c1)
    (c_after c1) (c_before c1) (c_critical c1) (c_extensions c1) (c_reserved c1) (c_authority c1) (c_signature c2).
Proof.
  intros c1 c2 t1 t2 H1 H2 L1 L2 E.
  destruct (signed_inj c1 c2 t1 t2 [] [] H1 H2 L1 L2 ltac:(rewrite !app_nil_r; exact E)) as (A & _ & B). auto.
Qed.

(* And the bytes determine the certificate. *)
Theorem C80_unambiguous : forall c1 c2 t1 t2, certifies c1 t1 -> certifies c2 t2 ->
  is32 (lenN (cert_bytes c1)) -> cert_bytes c1 = cert_bytes c2 -> t1 = t2 /\ c1 = c2.
Proof.
  intros c1 c2 t1 t2 H1 H2 L E. pose proof L as L2. rewrite E in L2. unfold cert_bytes in E, L, L2. rewrite lenN_app, lenN_str in L, L2.
  destruct (signed_inj c1 c2 t1 t2 _ _ H1 H2 ltac:(unfold is32, W32 in *; lia) ltac:(unfold is32, W32 in *; lia) E) as (A & S & B).
  rewrite <- (app_nil_r (str (c_signature c1))), <- (app_nil_r (str (c_signature c2))) in S.
  apply str_inj in S; [|unfold is32, W32 in *; lia|unfold is32, W32 in *; lia]. destruct S as (S & _).
  split; [exact A|]. rewrite B, <- S. destruct c1. reflexivity.
Qed.

Lemma options_cons : forall n d l, options ((n, d) :: l) = (str n ++ str d) ++ options l.
Proof. reflexivity. Qed.
Lemma options_inj : forall l1 l2, is32 (lenN (options l1)) -> is32 (lenN (options l2)) -> options l1 = options l2 -> l1 = l2.
Proof.
  induction l1 as [|(n1, d1) l1 IH]; intros [|(n2, d2) l2] L1 L2 E.
  - reflexivity.
  - pose proof (f_equal (@lenN N) E) as Q. unfold options in Q. cbn [map List.concat fst snd] in Q. rewrite !lenN_app, !lenN_str in Q. change (lenN (@nil N)) with 0 in Q. lia.
  - pose proof (f_equal (@lenN N) E) as Q. unfold options in Q. cbn [map List.concat fst snd] in Q. rewrite !lenN_app, !lenN_str in Q. change (lenN (@nil N)) with 0 in Q. lia.
  - rewrite (options_cons n1), (options_cons n2) in E. rewrite options_cons in L1, L2. rewrite !lenN_app, !lenN_str in L1, L2. rewrite <- !app_assoc in E.
    apply str_inj in E; [|unfold is32, W32 in *; lia|unfold is32, W32 in *; lia]. destruct E as (-> & E).
    apply str_inj in E; [|unfold is32, W32 in *; lia|unfold is32, W32 in *; lia]. destruct E as (-> & E).
    rewrite (IH l2); [reflexivity| | |exact E]; unfold is32, W32 in *; lia.
Qed.

(* A critical option the server does not know makes it refuse the
   certificate, whoever signed it. *)
Theorem C80_unknown_option : forall x algo type c l name data o j, In (algo, type) cert_types ->
  certifies c type -> bytes_ok (cert_bytes c) -> is32 (lenN (cert_bytes c)) ->
  c_critical c = options l -> In (name, data) l -> name <> ascii "force-command" -> name <> ascii "source-address" ->
  check_cert x (NameToId (ascii algo)) (cert_bytes c) <> POk o j.
Proof.
  intros x algo type c l name data o j T Cc B L El I N1 N2 P.
  destruct (proj1 (check_iff x algo type _ o T B L) (ex_intro _ j P)) as (c2 & fc & sa & E & (Cc2 & _ & _ & Q & _) & _).
  destruct (C80_unambiguous _ _ _ _ Cc Cc2 L E) as (_ & <-).
  destruct (parts_ok c B L) as (_ & _ & (_ & Lc) & _).
  assert (K : c_critical c = options ((match fc with [] => [] | _ => [(ascii "force-command", str fc)] end) ++
                                       (match sa with [] => [] | _ => [(ascii "source-address", str sa)] end))).
  { rewrite Q. unfold options. rewrite map_app, concat_app. f_equal.
    - destruct fc; [reflexivity|]. cbn [option_field map List.concat fst snd]. rewrite app_nil_r. reflexivity.
    - destruct sa; [reflexivity|]. cbn [option_field map List.concat fst snd]. rewrite app_nil_r. reflexivity. }
  rewrite El in K, Lc. pose proof Lc as Lc2. rewrite K in Lc2. apply options_inj in K; [|exact Lc|exact Lc2]. rewrite K in I.
  apply in_app_or in I. destruct I as [I|I].
  - destruct fc; [destruct I|]. destruct I as [I|[]]. inversion I. subst. apply N1. reflexivity.
  - destruct sa; [destruct I|]. destruct I as [I|[]]. inversion I. subst. apply N2. reflexivity.
Qed.

(* Reading a certificate never leaves the bytes the client sent, whatever they
   are and whatever name they are offered under. *)
Theorem C80_safe : forall x id blob, bytes_ok blob -> is32 (lenN blob) -> check_cert x id blob <> POob.
Proof. exact check_noob. Qed.

(* As strict as PROTOCOL.certkeys: the signature is one field naming the
   authority's own algorithm and one with the signature proper, nothing after
   them. *)
Definition C80_strict_full : Prop := forall x algo type c o j, In (algo, type) cert_types ->
  certifies c type -> bytes_ok (cert_bytes c) -> is32 (lenN (cert_bytes c)) ->
  check_cert x (NameToId (ascii algo)) (cert_bytes c) = POk o j ->
  exists ca_type sig_type fields s, c_authority c = strs (ascii ca_type :: fields) /\ signs_with ca_type sig_type /\
    c_signature c = strs [ascii sig_type; s].

Definition ex_ca : bytes := strs [ascii "ssh-ed25519"; [9; 9]].
Definition ex_cert (sig : bytes) : certificate :=
  Certificate "ssh-ed25519-cert-v01@openssh.com" [5] [[7; 7]] 3 1 (ascii "id") (str (ascii "alice")) 100 200
    (str (ascii "force-command") ++ str (str (ascii "ls"))) (str (ascii "permit-pty") ++ str []) [] ex_ca sig.
Definition ex_x : ca_crypto :=
  CaCrypto (fun _ _ _ _ _ => false) (fun _ _ _ _ _ => false)
    (fun q msg s => bytes_eqb q [9; 9] && bytes_eqb s [1; 2] && bytes_eqb msg (signed_part (ex_cert []))).
Lemma ex_certifies : forall sig, certifies (ex_cert sig) "ssh-ed25519".
Proof.
  intros sig. unfold certifies, ex_cert. cbn [c_name c_key c_serial c_kind c_after c_before].
  split; [cbn; tauto|]. split; [right; right; split; [reflexivity|]; eexists; reflexivity|]. unfold W32. lia.
Qed.

Lemma ok_bytes : forall b : bytes, forallb (fun v => v <? 256) b = true -> bytes_ok b.
Proof.
  intros b H. unfold bytes_ok. rewrite Forall_forall. rewrite forallb_forall in H. intros v I. apply N.ltb_lt. apply H. exact I.
Qed.
Lemma ok_len : forall b : bytes, (lenN b <? W32) = true -> is32 (lenN b).
Proof. intros b H. apply N.ltb_lt. exact H. Qed.

(* the sample certificate, and the same with another name in its signature *)
Definition ex_good : certificate := ex_cert (strs [ascii "ssh-ed25519"; [1; 2]]).
Definition ex_odd : certificate := ex_cert (strs [ascii "whatever"; [1; 2]] ++ [0]).
Definition ex_offer : offer :=
  Offer ID_ED25519 (strs [ascii "ssh-ed25519"; [7; 7]]) ex_ca (str (ascii "alice")) 100 200 (ascii "ls") [].
Lemma ex_good_run : check_cert ex_x (NameToId (ascii "ssh-ed25519-cert-v01@openssh.com")) (cert_bytes ex_good) = POk ex_offer 18.
Proof. vm_compute. reflexivity. Qed.
Lemma ex_odd_run : check_cert ex_x (NameToId (ascii "ssh-ed25519-cert-v01@openssh.com")) (cert_bytes ex_odd) = POk ex_offer 18.
Proof. vm_compute. reflexivity. Qed.

Theorem C80_strict_refuted : ~ C80_strict_full.
Proof.
  intros H. destruct (H ex_x _ "ssh-ed25519"%string ex_odd ex_offer 18 ltac:(cbn; tauto) (ex_certifies _)
    ltac:(apply ok_bytes; vm_compute; reflexivity) ltac:(apply ok_len; vm_compute; reflexivity) ex_odd_run)
    as (ct & st & fields & s & Ea & W & Es).
  change (c_signature ex_odd) with (strs [ascii "whatever"; [1; 2]] ++ [0]) in Es.
  rewrite !strs_2 in Es. unfold str at 1 3 in Es. rewrite <- !app_assoc in Es.
  pose proof (f_equal (takeN 4) Es) as E1. rewrite !takeN_app_exact in E1 by (rewrite lenN_be32; reflexivity).
  pose proof (f_equal (dropN 4) Es) as E2. rewrite !dropN_app_exact in E2 by (rewrite lenN_be32; reflexivity).
  assert (Lw : lenN (ascii st) < 4294967296 \/ 4294967296 <= lenN (ascii st)) by lia. destruct Lw as [Lw|Lw].
  - apply be32_inj in E1; [|vm_compute; reflexivity|exact Lw].
    apply app_inj_len in E2; [|exact E1]. destruct E2 as (_ & E2).
    pose proof (f_equal (@lenN N) E2) as E3. pose proof (f_equal (takeN 4) E2) as E4.
    unfold str in E4. rewrite <- !app_assoc in E4. rewrite !takeN_app_exact in E4 by (rewrite lenN_be32; reflexivity).
    rewrite lenN_app, !lenN_str in E3. change (lenN [1; 2]) with 2 in E3. change (lenN [0]) with 1 in E3.
    apply be32_inj in E4; [|vm_compute; reflexivity|unfold W32; lia]. change (lenN [1; 2]) with 2 in E4. lia.
  - pose proof (f_equal (@lenN N) E2) as E3. rewrite !lenN_app in E3. vm_compute (lenN (ascii "whatever")) in E3.
    rewrite !lenN_str in E3. change (lenN [1; 2]) with 2 in E3. change (lenN [0]) with 1 in E3. lia.
Qed.

Lemma accepted_means : forall x algo type c o j, In (algo, type) cert_types -> certifies c type -> bytes_ok (cert_bytes c) ->
  is32 (lenN (cert_bytes c)) -> check_cert x (NameToId (ascii algo)) (cert_bytes c) = POk o j ->
  acceptable x c type (o_command o) (o_source o).
Proof.
  intros x algo type c o j T Cc B L P.
  destruct (proj1 (C80_accepted x algo type _ o T B L) (ex_intro _ j P)) as (c2 & fc & sa & E & A & (_ & _ & _ & _ & _ & S1 & S2) & _).
  destruct (C80_unambiguous _ _ _ _ Cc (proj1 A) L E) as (_ & <-). rewrite S1, S2. exact A.
Qed.

Example C80_met : (exists j, check_cert ex_x (NameToId (ascii "ssh-ed25519-cert-v01@openssh.com")) (cert_bytes ex_good) = POk ex_offer j) /\
  acceptable ex_x ex_good "ssh-ed25519" (ascii "ls") [] /\
  (* a changed principal is refused *)
  (exists e j, check_cert ex_x (NameToId (ascii "ssh-ed25519-cert-v01@openssh.com"))
     (cert_bytes (Certificate (c_name ex_good) [5] [[7; 7]] 3 1 (ascii "id") (str (ascii "alicf")) 100 200
        (c_critical ex_good) (c_extensions ex_good) [] ex_ca (c_signature ex_good))) = PErr e j).
Proof.
  split; [exists 18; exact ex_good_run|]. split.
  - assert (B : bytes_ok (cert_bytes ex_good)) by (apply ok_bytes; vm_compute; reflexivity).
    assert (L : is32 (lenN (cert_bytes ex_good))) by (apply ok_len; vm_compute; reflexivity).
    exact (accepted_means ex_x "ssh-ed25519-cert-v01@openssh.com" "ssh-ed25519" ex_good ex_offer 18 ltac:(cbn; tauto) (ex_certifies _) B L ex_good_run).
  - vm_compute. eexists; eexists; reflexivity.
Qed.

(* ------------------------------------------------------------------ *)
(* C81                                                                  *)

Section Request.
Variables (algos : list N) (cb : option (offer -> cbres)) (rcb : option (bool -> bool)) (x : crypto) (cx : ca_crypto).
Variables (sid m h rest user : bytes).
Hypothesis Hm : bytes_ok m.
Hypothesis H3 : is32 (lenN m).
Hypothesis Hsid : is32 (lenN sid).
Hypothesis Em : m = h ++ rest.
Hypothesis Hh : request_head h user "publickey".

Lemma head_here : AuthStep.head m user (ascii "publickey") (lenN h).
Proof using H3 Em Hh.
  clear Hsid. destruct Hh as (ps & Ep & F). split; [|rewrite Em, lenN_app in H3; unfold is32, W32 in *; lia].
  exists h. split; [rewrite dropN_0; rewrite Em at 1; f_equal; rewrite Em; symmetry; apply dropN_app_exact; reflexivity|].
  split; [exists ps; auto|]. split; [lia|]. rewrite Em, lenN_app. lia.
Qed.

Lemma cert_id_name : forall algo, is_cert_id (NameToId algo) = true -> exists name type, algo = ascii name /\ In (name, type) cert_types.
Proof.
  intros algo H. unfold is_cert_id in H. rewrite !orb_true_iff, !N.eqb_eq in H.
  assert (G : forall name type, In (name, type) cert_types -> NameToId algo = NameToId (ascii name) -> exists name type, algo = ascii name /\ In (name, type) cert_types).
  { intros name type I E. destruct (cert_name _ _ _ I E) as (n2 & E2 & I2). eauto. }
  destruct H as [[[[H|H]|H]|H]|H].
  - apply (G "ssh-rsa-cert-v01@openssh.com" "ssh-rsa")%string; [cbn; tauto|exact H].
  - apply (G "ecdsa-sha2-nistp256-cert-v01@openssh.com" "ecdsa-sha2-nistp256")%string; [cbn; tauto|exact H].
  - apply (G "ecdsa-sha2-nistp384-cert-v01@openssh.com" "ecdsa-sha2-nistp384")%string; [cbn; tauto|exact H].
  - apply (G "ecdsa-sha2-nistp521-cert-v01@openssh.com" "ecdsa-sha2-nistp521")%string; [cbn; tauto|exact H].
  - apply (G "ssh-ed25519-cert-v01@openssh.com" "ssh-ed25519")%string; [cbn; tauto|exact H].
Qed.

(* the callback was asked *)
Lemma asked_inv : forall o a, cert_request algos cb rcb x cx sid m (lenN h) = (Some o, a) ->
  exists flag name type blob sig j f sa ji jo,
    get_pk m (lenN m) (lenN h) = POk (flag, ascii name, blob, sig) j /\ In (name, type) cert_types /\
    In (NameToId (ascii name)) algos /\ check_cert cx (NameToId (ascii name)) blob = POk o jo /\ cb = Some f /\
    (flag <> 0 -> GetStr sig (lenN sig) 0 = POk sa ji /\ sig_fits (o_base o) (NameToId sa) = true) /\
    a = match f o with
        | CbBlock => PkPending | CbRejected => PkRejected | CbFailure | CbAnother => PkRefused
        | CbSuccess => if flag =? 0 then PkOffered (ascii name) blob else conclude x rcb false sid m (NameToId sa) sa (o_key o) sig
        | CbPartial => if flag =? 0 then PkOffered (ascii name) blob else conclude x rcb true sid m (NameToId sa) sa (o_key o) sig
        end.
Proof.
  intros o a H. unfold cert_request in H.
  destruct (get_pk m (lenN m) (lenN h)) as [(((flag, algo), blob), sig) j|e j|] eqn:G; [|discriminate|discriminate].
  destruct (check_pk flag blob sig) as [u i|e i|]; [|discriminate|discriminate]. cbv zeta in H.
  destruct ((NameToId algo =? ID_UNKNOWN) || _) eqn:A; [discriminate|].
  destruct (is_cert_id (NameToId algo)) eqn:C; cbn [negb] in H; [|discriminate].
  destruct (cert_id_name _ C) as (name & type & -> & I).
  destruct (check_cert cx (NameToId (ascii name)) blob) as [o' jo|e jo|] eqn:K; [|discriminate|discriminate].
  destruct (if flag =? 0 then POk [] 0 else GetStr sig (lenN sig) 0) as [sa ji|e ji|] eqn:S; [|discriminate|discriminate].
  destruct (negb (flag =? 0) && negb (sig_fits (o_base o') (NameToId sa))) eqn:F; [discriminate|].
  destruct cb as [f|]; [|discriminate].
  apply pair_equal_spec in H. destruct H as (H & H2). assert (o' = o) by congruence. subst o'.
  exists flag, name, type, blob, sig, j, f, sa, ji, jo. split; [reflexivity|]. split; [exact I|]. split.
  { apply orb_false_elim in A. destruct A as (A1 & A2). cbn [MatchIdLists match_ids] in A2.
    destruct (existsb (N.eqb (NameToId (ascii name))) algos) eqn:X; [|discriminate A2].
    apply existsb_exists in X. destruct X as (y & Y1 & Y2). apply N.eqb_eq in Y2. rewrite Y2. exact Y1. }
  split; [exact K|]. split; [reflexivity|]. split; [|symmetry; exact H2].
  intros Nf. destruct (N.eqb_spec flag 0) as [Z|Z]; [contradiction|]. split; [exact S|].
  cbn [negb andb] in F. destruct (sig_fits _ _); [reflexivity|discriminate].
Qed.

Lemma fits_name : forall type sa, In type key_types -> sig_fits (NameToId (ascii type)) (NameToId sa) = true ->
  exists s, sa = ascii s /\ signs_with type s.
Proof.
  intros type sa I F. cbn [In key_types] in I. destruct I as [<- |[<- |[<- |[<- |[<- |[]]]]]].
  - change (((NameToId sa =? NameToId (ascii "rsa-sha2-256")) || (NameToId sa =? NameToId (ascii "rsa-sha2-512"))) = true) in F.
    apply orb_prop in F. destruct F as [F|F]; apply plain_eqb in F; try (cbn; tauto).
    + exists "rsa-sha2-256"%string. split; [exact F|cbn; tauto].
    + exists "rsa-sha2-512"%string. split; [exact F|cbn; tauto].
  - change ((NameToId sa =? NameToId (ascii "ecdsa-sha2-nistp256")) = true) in F. apply plain_eqb in F; [|cbn; tauto].
    exists "ecdsa-sha2-nistp256"%string. split; [exact F|reflexivity].
  - change ((NameToId sa =? NameToId (ascii "ecdsa-sha2-nistp384")) = true) in F. apply plain_eqb in F; [|cbn; tauto].
    exists "ecdsa-sha2-nistp384"%string. split; [exact F|reflexivity].
  - change ((NameToId sa =? NameToId (ascii "ecdsa-sha2-nistp521")) = true) in F. apply plain_eqb in F; [|cbn; tauto].
    exists "ecdsa-sha2-nistp521"%string. split; [exact F|reflexivity].
  - change ((NameToId sa =? NameToId (ascii "ssh-ed25519")) = true) in F. apply plain_eqb in F; [|cbn; tauto].
    exists "ssh-ed25519"%string. split; [exact F|reflexivity].
Qed.

Lemma known_sig : forall type s, In type key_types -> signs_with type s -> NameToId (ascii s) <> ID_UNKNOWN.
Proof.
  intros type s I W. unfold signs_with in W. destruct (string_dec type "ssh-rsa").
  - cbn [In] in W. destruct W as [<- |[<- |[]]]; vm_compute; discriminate.
  - subst s. cbn [In key_types] in I. destruct I as [<- |[<- |[<- |[<- |[<- |[]]]]]]; vm_compute; discriminate.
Qed.

(* the key shown is inside a certificate, so short *)
Lemma key_small : forall cx c type command source o, acceptable cx c type command source -> shown c type command source o ->
  bytes_ok (cert_bytes c) -> is32 (lenN (cert_bytes c)) -> bytes_ok (o_key o) /\ is32 (lenN (o_key o)).
Proof using.
  clear Hh Em Hm H3 Hsid. intros cx0 c type command source o ((T & F & _) & _) (E & _) B L. rewrite E, strs_cons.
  unfold cert_bytes, signed_part in B, L. rewrite !bytes_ok_app in B. rewrite !lenN_app, !lenN_str in L.
  assert (Lt : lenN (ascii type) <= lenN (ascii (c_name c)) /\ bytes_ok (ascii type)).
  { cbn [In cert_types] in T. destruct T as [T|[T|[T|[T|[T|[T|[T|[]]]]]]]]; injection T as <- <-;
      (split; [vm_compute; discriminate|apply ok_bytes; vm_compute; reflexivity]). }
  destruct Lt as (Lt & Bt). destruct B as ((_ & _ & B & _) & _). rewrite bytes_ok_app, lenN_app, lenN_str. split.
  - split; [|exact B]. unfold str. apply bytes_ok_app. split; [|exact Bt]. rewrite be32_c32toa. apply c32toa_ok.
  - unfold is32, W32 in *. lia.
Qed.

Lemma asked_cert : forall o a, cert_request algos cb rcb x cx sid m (lenN h) = (Some o, a) ->
  exists flag name type c command source sig j f sa ji,
    get_pk m (lenN m) (lenN h) = POk (flag, ascii name, cert_bytes c, sig) j /\ In (name, type) cert_types /\ In (NameToId (ascii name)) algos /\
    acceptable cx c type command source /\ shown c type command source o /\
    cb = Some f /\ (bytes_ok (o_key o) /\ is32 (lenN (o_key o))) /\ (bytes_ok sig /\ is32 (lenN sig)) /\
    (flag <> 0 -> GetStr sig (lenN sig) 0 = POk sa ji /\ exists s, sa = ascii s /\ signs_with type s /\ NameToId sa <> ID_UNKNOWN) /\
    a = match f o with
        | CbBlock => PkPending | CbRejected => PkRejected | CbFailure | CbAnother => PkRefused
        | CbSuccess => if flag =? 0 then PkOffered (ascii name) (cert_bytes c) else conclude x rcb false sid m (NameToId sa) sa (o_key o) sig
        | CbPartial => if flag =? 0 then PkOffered (ascii name) (cert_bytes c) else conclude x rcb true sid m (NameToId sa) sa (o_key o) sig
        end.
Proof using Hm H3 Em Hh.
  intros o a H. destruct (asked_inv _ _ H) as (flag & name & type & blob & sig & j & f & sa & ji & jo & G & T & Al & K & Ec & Sg & Ea).
  pose proof (get_pk_inv m Hm H3 (lenN h) (proj2 head_here)) as P. rewrite G in P.
  destruct P as (_ & _ & _ & B1 & B2 & B3 & B4 & _).
  destruct (proj1 (C80_accepted cx name type blob o T B1 B2) (ex_intro _ _ K)) as (c & fc & so & -> & A & Sh & Eb).
  destruct (base_of_type _ _ T) as (_ & Tk & _).
  exists flag, name, type, c, fc, so, sig, j, f, sa, ji. repeat (split; [first [assumption | solve [auto] | eapply key_small; eassumption]|]).
  split; [|exact Ea]. intros Nf. destruct (Sg Nf) as (S1 & S2). split; [exact S1|]. rewrite Eb in S2.
  destruct (fits_name _ _ Tk S2) as (s & -> & W). exists s. split; [reflexivity|]. split; [exact W|]. eapply known_sig; eassumption.
Qed.

Lemma conclude_inv : forall partial flag name c sig j type s key, flag <> 0 ->
  get_pk m (lenN m) (lenN h) = POk (flag, ascii name, cert_bytes c, sig) j ->
  In type key_types -> signs_with type s -> NameToId (ascii s) <> ID_UNKNOWN ->
  bytes_ok key -> is32 (lenN key) -> bytes_ok sig -> is32 (lenN sig) ->
  conclude x rcb partial sid m (NameToId (ascii s)) (ascii s) key sig <> PkOob /\
  (forall al bl, conclude x rcb partial sid m (NameToId (ascii s)) (ascii s) key sig <> PkOffered al bl) /\
  (conclude x rcb partial sid m (NameToId (ascii s)) (ascii s) key sig = PkGranted -> partial = false) /\
  (In (conclude x rcb partial sid m (NameToId (ascii s)) (ascii s) key sig) [PkGranted; PkPartial] ->
     (forall r, rcb = Some r -> r true = true) /\
     exists body rest' extra msg, key_request m user flag (ascii name) (cert_bytes c) sig body rest' /\
       lenN extra = lenN rest' /\ signed_message sid body extra msg /\ verifies x (ascii s) key sig msg).
Proof using Hm H3 Hsid Em Hh.
  intros partial flag name c sig j type s key Nf G I W U B1 B2 B3 B4.
  destruct (signed_ok m Hm H3 user (ascii "publickey") (lenN h) _ _ _ _ _ sid head_here eq_refl G Nf Hsid) as (body & rest' & extra & msg & K1 & K2 & K3 & K4).
  unfold conclude. rewrite K4. pose proof (VerifyUser_ok x (ascii s) key sig msg B1 B2 B3 B4 U) as V.
  destruct (VerifyUser x (NameToId (ascii s)) (ascii s) key sig msg) as [u i|e i|]; [| |contradiction].
  - destruct rcb as [r|].
    + destruct (r true) eqn:R; cbn [negb].
      * destruct partial; cbn; (split; [discriminate|]; split; [discriminate|]; split; [discriminate || reflexivity|]);
          intros _; (split; [intros r0 E; congruence|]); exists body, rest', extra, msg; auto.
      * split; [discriminate|]. split; [discriminate|]. split; [discriminate|]. intros [Q|[Q|[]]]; discriminate.
    + cbn [negb]. destruct partial; cbn; (split; [discriminate|]; split; [discriminate|]; split; [discriminate || reflexivity|]);
        intros _; (split; [discriminate|]); exists body, rest', extra, msg; auto.
  - split; [discriminate|]. split; [discriminate|]. split; [discriminate|]. intros [Q|[Q|[]]]; discriminate.
Qed.

Lemma grant_ : forall asked a, In a [PkGranted; PkPartial] -> cert_request algos cb rcb x cx sid m (lenN h) = (asked, a) ->
  exists f o flag name type c command source s sig body rest' extra msg,
    cb = Some f /\ asked = Some o /\ f o = (match a with PkGranted => CbSuccess | _ => CbPartial end) /\ In (name, type) cert_types /\ In (NameToId (ascii name)) algos /\
    key_request m user flag (ascii name) (cert_bytes c) sig body rest' /\
    acceptable cx c type command source /\ shown c type command source o /\
    signs_with type s /\ lenN extra = lenN rest' /\ signed_message sid body extra msg /\
    verifies x (ascii s) (strs (ascii type :: c_key c)) sig msg /\ (forall r, rcb = Some r -> r true = true).
Proof using Hm H3 Hsid Em Hh.
  intros asked a Ia H. destruct asked as [o|].
  2:{ exfalso. unfold cert_request in H. destruct (get_pk _ _ _) as [(((flag, algo), blob), sig) j|e j|]; [|inversion H; subst; destruct Ia as [Q|[Q|[]]]; discriminate|inversion H; subst; destruct Ia as [Q|[Q|[]]]; discriminate].
      destruct (check_pk _ _ _); [|inversion H; subst; destruct Ia as [Q|[Q|[]]]; discriminate|inversion H; subst; destruct Ia as [Q|[Q|[]]]; discriminate]. cbv zeta in H.
      destruct (_ || _); [inversion H; subst; destruct Ia as [Q|[Q|[]]]; discriminate|]. destruct (negb _); [inversion H; subst; destruct Ia as [Q|[Q|[]]]; discriminate|].
      destruct (check_cert _ _ _); [|inversion H; subst; destruct Ia as [Q|[Q|[]]]; discriminate|inversion H; subst; destruct Ia as [Q|[Q|[]]]; discriminate].
      destruct (if flag =? 0 then _ else _); [|inversion H; subst; destruct Ia as [Q|[Q|[]]]; discriminate|inversion H; subst; destruct Ia as [Q|[Q|[]]]; discriminate].
      destruct (_ && _); [inversion H; subst; destruct Ia as [Q|[Q|[]]]; discriminate|]. destruct cb; inversion H; subst; destruct Ia as [Q|[Q|[]]]; discriminate. }
  destruct (asked_cert _ _ H) as (flag & name & type & c & fc & so & sig & j & f & sa & ji & G & T & Al & A & Sh & Ec & (Bk & Lk) & (Bs & Ls) & Sg & Ea).
  destruct (base_of_type _ _ T) as (_ & Tk & _).
  assert (Nf : flag <> 0).
  { intros ->. rewrite N.eqb_refl in Ea. destruct (f o); rewrite Ea in Ia; destruct Ia as [Q|[Q|[]]]; discriminate. }
  destruct (Sg Nf) as (_ & s & -> & W & U). rewrite (proj2 (N.eqb_neq flag 0) Nf) in Ea.
  assert (Cs : exists partial : bool, f o = (if partial then CbPartial else CbSuccess) /\ a = conclude x rcb partial sid m (NameToId (ascii s)) (ascii s) (o_key o) sig).
  { destruct (f o); try (rewrite Ea in Ia; destruct Ia as [Q|[Q|[]]]; discriminate); [exists false|exists true]; auto. }
  destruct Cs as (partial & Fo & Ea2).
  destruct (conclude_inv partial flag name c sig j type s (o_key o) Nf G Tk W U Bk Lk Bs Ls) as (_ & _ & V1 & V2). rewrite <- Ea2 in V1, V2.
  destruct (V2 Ia) as (V3 & body & rest' & extra & msg & K1 & K2 & K3 & K4).
  exists f, o, flag, name, type, c, fc, so, s, sig, body, rest', extra, msg.
  split; [exact Ec|]. split; [reflexivity|]. split.
  { rewrite Fo. destruct Ia as [<- |[<- |[]]].
    - rewrite (V1 eq_refl). reflexivity.
    - destruct partial; [reflexivity|]. exfalso. unfold conclude in Ea2. destruct (signed_data _ _ _ _); [|discriminate]. destruct (VerifyUser _ _ _ _ _ _); try discriminate.
      destruct (negb _); discriminate. }
  destruct Sh as (Sk & Sh). rewrite Sk in K4.
  split; [exact T|]. split; [exact Al|]. split; [exact K1|]. split; [exact A|]. split; [exact (conj Sk Sh)|]. auto 10.
Qed.
End Request.

(* A client is let in by a certificate only if its request carries an
   acceptable certificate of an enabled type, the application's callback was
   shown that certificate and accepted it, and the request is signed - over the
   session identifier and the request - by the key the certificate certifies,
   with an algorithm of that key. The result callback, if any, agreed. *)
Theorem C81_grant : forall algos cb rcb x cx sid m h rest user asked,
  bytes_ok m -> is32 (lenN m) -> is32 (lenN sid) -> m = h ++ rest -> request_head h user "publickey" ->
  cert_request algos cb rcb x cx sid m (lenN h) = (asked, PkGranted) ->
  exists f o flag name type c command source s sig body rest' extra msg,
    cb = Some f /\ asked = Some o /\ f o = CbSuccess /\
    In (name, type) cert_types /\ In (NameToId (ascii name)) algos /\
    key_request m user flag (ascii name) (cert_bytes c) sig body rest' /\
    acceptable cx c type command source /\ shown c type command source o /\
    signs_with type s /\ lenN extra = lenN rest' /\ signed_message sid body extra msg /\
    verifies x (ascii s) (strs (ascii type :: c_key c)) sig msg /\ (forall r, rcb = Some r -> r true = true).
Proof.
  intros algos cb rcb x cx sid m h rest user asked Hm H3 Hs Em Hh H.
  exact (grant_ algos cb rcb x cx sid m h rest user Hm H3 Hs Em Hh asked PkGranted (or_introl eq_refl) H).
Qed.

(* The same for one step of a login that needs more: its signature was
   checked, too. *)
Theorem C81_partial_success : forall algos cb rcb x cx sid m h rest user asked,
  bytes_ok m -> is32 (lenN m) -> is32 (lenN sid) -> m = h ++ rest -> request_head h user "publickey" ->
  cert_request algos cb rcb x cx sid m (lenN h) = (asked, PkPartial) ->
  exists f o flag name type c command source s sig body rest' extra msg,
    cb = Some f /\ asked = Some o /\ f o = CbPartial /\
    In (name, type) cert_types /\ In (NameToId (ascii name)) algos /\
    key_request m user flag (ascii name) (cert_bytes c) sig body rest' /\
    acceptable cx c type command source /\ shown c type command source o /\
    signs_with type s /\ lenN extra = lenN rest' /\ signed_message sid body extra msg /\
    verifies x (ascii s) (strs (ascii type :: c_key c)) sig msg /\ (forall r, rcb = Some r -> r true = true).
Proof.
  intros algos cb rcb x cx sid m h rest user asked Hm H3 Hs Em Hh H.
  exact (grant_ algos cb rcb x cx sid m h rest user Hm H3 Hs Em Hh asked PkPartial (or_intror (or_introl eq_refl)) H).
Qed.

(* The callback is asked only about acceptable certificates of enabled types,
   and shown what the certificate in the request says. *)
Theorem C81_asked : forall algos cb rcb x cx sid m h rest user o a,
  bytes_ok m -> is32 (lenN m) -> m = h ++ rest -> request_head h user "publickey" ->
  cert_request algos cb rcb x cx sid m (lenN h) = (Some o, a) ->
  exists flag name type c command source ab tail,
    rest = [flag] ++ ab ++ tail /\ is_strs ab [ascii name; cert_bytes c] /\
    In (name, type) cert_types /\ In (NameToId (ascii name)) algos /\
    acceptable cx c type command source /\ shown c type command source o.
Proof.
  intros algos cb rcb x cx sid m h rest user o a Hm H3 Em Hh H.
  destruct (asked_cert algos cb rcb x cx sid m h rest user Hm H3 Em Hh _ _ H) as (flag & name & type & c & fc & so & sig & j & f & sa & ji & G & T & Al & A & Sh & _).
  pose proof (head_here m h rest user H3 Em Hh) as HH.
  pose proof (get_pk_inv m Hm H3 (lenN h) (proj2 HH)) as P. rewrite G in P.
  destruct P as (k & D1 & (ab & D2 & S2 & _) & _).
  exists flag, name, type, c, fc, so, ab, (dropN k m). split; [|auto 10].
  assert (E : dropN (lenN h) m = rest) by (rewrite Em; apply dropN_app_exact; reflexivity).
  rewrite E in D1. rewrite D1, D2. reflexivity.
Qed.

(* Asking whether a certificate would do lets nobody in: without a signature
   the best answer is that it would, naming what the client sent, and only if
   the callback said so. *)
Theorem C81_query : forall algos cb rcb x cx sid m user algo blob asked a h ab rest,
  bytes_ok m -> is32 (lenN m) -> m = h ++ [0] ++ ab ++ rest -> request_head h user "publickey" -> is_strs ab [algo; blob] ->
  cert_request algos cb rcb x cx sid m (lenN h) = (asked, a) ->
  a <> PkGranted /\ a <> PkPartial /\
  (forall al bl, a = PkOffered al bl -> al = algo /\ bl = blob /\
     exists f o, cb = Some f /\ asked = Some o /\ In (f o) [CbSuccess; CbPartial]).
Proof.
  intros algos cb rcb x cx sid m user algo blob asked a h ab rest Hm H3 Em Hh Hab H.
  pose proof (head_here m h _ user H3 Em Hh) as HH.
  pose proof (get_pk_inv m Hm H3 (lenN h) (proj2 HH)) as P.
  destruct asked as [o|].
  2:{ unfold cert_request in H. destruct (get_pk _ _ _) as [(((flag, al), bl), sig) j|e j|]; [|inversion H; subst; repeat split; discriminate|inversion H; subst; repeat split; discriminate].
      destruct (check_pk _ _ _); [|inversion H; subst; repeat split; discriminate|inversion H; subst; repeat split; discriminate]. cbv zeta in H.
      destruct (_ || _); [inversion H; subst; repeat split; discriminate|]. destruct (negb _); [inversion H; subst; repeat split; discriminate|].
      destruct (check_cert _ _ _); [|inversion H; subst; repeat split; discriminate|inversion H; subst; repeat split; discriminate].
      destruct (if flag =? 0 then _ else _); [|inversion H; subst; repeat split; discriminate|inversion H; subst; repeat split; discriminate].
      destruct (_ && _); [inversion H; subst; repeat split; discriminate|]. destruct cb; inversion H; subst; repeat split; discriminate. }
  destruct (asked_inv algos cb rcb x cx sid m h _ _ H) as (flag & name & type & bl & sig & j & f & sa & ji & jo & G & T & Al & K & Ec & Sg & Ea).
  rewrite G in P. destruct P as (k & D1 & (ab' & D2 & S2 & _) & _).
  assert (E : dropN (lenN h) m = [0] ++ ab ++ rest) by (rewrite Em; apply dropN_app_exact; reflexivity).
  rewrite E in D1. cbn [app] in D1. injection D1 as <- D1. rewrite <- D1 in D2.
  destruct (is_strs_inj _ _ _ _ _ _ Hab S2 D2 eq_refl) as (Es & _). injection Es as -> ->.
  change (0 =? 0) with true in Ea. cbv iota in Ea.
  destruct (f o) eqn:Fo; subst a; (split; [discriminate|]; split; [discriminate|]); intros al bl' Q; try discriminate;
    inversion Q; subst al bl'; (split; [reflexivity|]; split; [reflexivity|]); exists f, o; rewrite Fo; cbn; auto.
Qed.

(* Reading the request never leaves it. *)
Theorem C81_safe : forall algos cb rcb x cx sid m h rest user asked a,
  bytes_ok m -> is32 (lenN m) -> is32 (lenN sid) -> m = h ++ rest -> request_head h user "publickey" ->
  cert_request algos cb rcb x cx sid m (lenN h) = (asked, a) -> a <> PkOob.
Proof.
  intros algos cb rcb x cx sid m h rest user asked a Hm H3 Hs Em Hh H.
  pose proof (head_here m h _ user H3 Em Hh) as HH.
  destruct asked as [o|].
  - destruct (asked_cert algos cb rcb x cx sid m h rest user Hm H3 Em Hh _ _ H) as (flag & name & type & c & fc & so & sig & j & f & sa & ji & G & T & Al & A & Sh & Ec & (Bk & Lk) & (Bs & Ls) & Sg & Ea).
    destruct (base_of_type _ _ T) as (_ & Tk & _).
    destruct (N.eqb_spec flag 0) as [Z|Nf].
    + destruct (f o); subst a; discriminate.
    + destruct (Sg Nf) as (_ & s & -> & W & U).
      destruct (f o); subst a; try discriminate; eapply conclude_inv; eassumption.
  - pose proof (get_pk_inv m Hm H3 (lenN h) (proj2 HH)) as P. unfold cert_request in H.
    destruct (get_pk _ _ _) as [(((flag, al), bl), sig) j|e j|]; [|inversion H; discriminate|contradiction].
    destruct P as (_ & _ & _ & B1 & B2 & B3 & B4 & _).
    pose proof (check_pk_oob flag bl sig B1 B2 B3 B4) as Q.
    destruct (check_pk _ _ _); [|inversion H; discriminate|contradiction]. cbv zeta in H.
    destruct (_ || _); [inversion H; discriminate|]. destruct (negb _); [inversion H; discriminate|].
    pose proof (check_noob cx (NameToId al) bl B1 B2) as Q2.
    destruct (check_cert _ _ _); [|inversion H; discriminate|contradiction].
    pose proof (GetStr_inv sig 0 B3 B4 is32_0) as Q3.
    destruct (flag =? 0).
    + destruct (_ && _); [inversion H; discriminate|]. destruct cb; inversion H; discriminate.
    + destruct (GetStr sig (lenN sig) 0); [|inversion H; discriminate|contradiction].
      destruct (_ && _); [inversion H; discriminate|]. destruct cb; inversion H; discriminate.
Qed.

(* The other direction, for Ed25519: an acceptable certificate of an enabled
   type, accepted by the callback, with a signature that verifies, lets the
   user in. *)
Theorem C81_ed25519_accepted : forall algos f x cx sid m user flag sig body q sg msg c command source,
  let algo := "ssh-ed25519-cert-v01@openssh.com"%string in let key := ascii "ssh-ed25519" in
  bytes_ok m -> is32 (lenN m) -> is32 (lenN sid) ->
  key_request m user flag (ascii algo) (cert_bytes c) sig body [] ->
  In (NameToId (ascii algo)) algos -> acceptable cx c "ssh-ed25519" command source -> c_key c = [q] ->
  (forall o, shown c "ssh-ed25519" command source o -> f o = CbSuccess) ->
  is_strs sig [key; sg] -> signed_message sid body [] msg -> v_ed x q msg sg = true ->
  exists h rest o, m = h ++ rest /\ request_head h user "publickey" /\ shown c "ssh-ed25519" command source o /\
    cert_request algos (Some f) None x cx sid m (lenN h) = (Some o, PkGranted).
Proof.
  intros algos f x cx sid m user flag sig body q sg msg c command source algo key Hm H3 Hs
    (h & ab & sf & Eb & Em & Hh & Hf & Hab & Hsf) Al A Ek Fo Hsig Hmsg Hv.
  rewrite app_nil_r in Em.
  assert (Em' : m = h ++ (flag :: ab ++ sf)) by (rewrite Em, Eb, <- !app_assoc; reflexivity).
  assert (Di : dropN (lenN h) m = flag :: ab ++ sf) by (rewrite Em'; apply dropN_app_exact; reflexivity).
  assert (Li : lenN h <= lenN m) by (rewrite Em', lenN_app; lia).
  destruct (bool_fwd m (lenN h) flag _ H3 Li Di) as (G1 & D1 & L1).
  destruct Hab as (ps & Eab & F). inversion F as [|f1 ? ps1 ? F1 K1]; subst ps. inversion K1 as [|f2 ? ps2 ? F2 K2]; subst ps1.
  inversion K2; subst ps2. clear F K1 K2. cbn [List.concat] in Eab. rewrite app_nil_r in Eab.
  rewrite Eab, <- app_assoc in D1.
  destruct (read_fwd m _ f1 _ _ Hm H3 D1 L1 F1) as (R1 & D2 & L2).
  destruct (read_fwd m _ f2 _ _ Hm H3 D2 L2 F2) as (R2 & D3 & L3).
  assert (D3' : dropN (lenN h + 1 + lenN f1 + lenN f2) m = sf ++ []) by (rewrite app_nil_r; exact D3).
  destruct (read_fwd m _ sf _ _ Hm H3 D3' L3 Hsf) as (R3 & D4 & L4).
  assert (Gpk : get_pk m (lenN m) (lenN h) = POk (flag, ascii algo, cert_bytes c, sig) (lenN h + 1 + lenN f1 + lenN f2 + lenN sf)).
  { unfold get_pk. rewrite G1. cbn [pbind]. rewrite R1. cbn [pbind]. rewrite R2. cbn [pbind].
    destruct (N.eqb_spec flag 0); [contradiction|]. rewrite R3. reflexivity. }
  pose proof (head_here m h _ user H3 Em' Hh) as HH.
  pose proof (get_pk_inv m Hm H3 (lenN h) (proj2 HH)) as P. rewrite Gpk in P.
  destruct P as (_ & _ & _ & B1 & B2 & B3 & B4 & _).
  set (o := Offer ID_ED25519 (strs (ascii "ssh-ed25519" :: c_key c)) (c_authority c) (c_principals c) (c_after c) (c_before c) command source).
  assert (Sh : shown c "ssh-ed25519" command source o) by (unfold shown, o; cbn [o_key o_ca o_principals o_after o_before o_command o_source]; auto 10).
  exists h, (flag :: ab ++ sf), o. split; [exact Em'|]. split; [exact Hh|]. split; [exact Sh|].
  assert (T : In (algo, "ssh-ed25519"%string) cert_types) by (cbn; tauto).
  destruct (proj2 (C80_accepted cx algo "ssh-ed25519" _ o T B1 B2)) as (jc & Ck).
  { exists c, command, source. split; [reflexivity|]. split; [exact A|]. split; [exact Sh|]. vm_compute. reflexivity. }
  destruct (strs2 sig sig key sg [] (eq_sym (app_nil_r _)) Hsig B3 B4) as (k3 & k4 & Y1 & Y2 & Y3 & _).
  assert (Hck : check_pk flag (cert_bytes c) sig = POk tt k4).
  { assert (X1 : exists k, GetStr (cert_bytes c) (lenN (cert_bytes c)) 0 = POk (ascii (c_name c)) k).
    { eexists. apply GetStr_str; [exact B1|exact B2|apply N.le_0_l|]. eapply at_whole.
      unfold cert_bytes, signed_part. rewrite <- !app_assoc. reflexivity. }
    destruct X1 as (kk & X1). unfold check_pk. rewrite X1. cbn [pbind]. destruct (N.eqb_spec flag 0); [contradiction|].
    rewrite Y1. cbn [pbind]. rewrite Y2. reflexivity. }
  destruct (key_small cx c _ _ _ o A Sh B1 B2) as (Bk & Lk).
  assert (Eo : o_key o = strs [key; q]) by (unfold o; cbn [o_key]; rewrite Ek; reflexivity).
  assert (Lsf : lenN sf = 4 + lenN sig) by (destruct Hsf as (l & -> & Ll & _); rewrite lenN_app; lia).
  assert (Lm : lenN m = lenN body + lenN sf) by (rewrite Em, lenN_app; reflexivity).
  assert (Hsd : signed_data sid m (lenN m) sig = Some msg).
  { unfold signed_data. rewrite (sub32_small (lenN m)) by (unfold is32 in *; lia).
    rewrite sub32_small by (unfold is32, W32 in *; lia).
    replace (lenN m - lenN sig - 4) with (lenN body) by lia.
    rewrite rdn_some by lia. unfold slice. rewrite dropN_0, Em, takeN_app_exact by reflexivity.
    destruct Hmsg as (ss & (l & -> & Ll & V & Bl) & ->). rewrite app_nil_r. unfold PutString.
    rewrite <- V, c32toa_be_value by assumption. reflexivity. }
  rewrite Eo in Bk, Lk.
  assert (X1 : at_ (strs [key; q]) 0 (str key) (0 + lenN (str key)) /\ at_ (strs [key; q]) (0 + lenN (str key)) (str q) (lenN (strs [key; q]))).
  { apply at_inv. rewrite strs_2. apply (at_whole _ _ []). rewrite app_nil_r. reflexivity. }
  destruct X1 as (X1 & X2). pose proof (at_le _ _ _ _ X1) as (X3 & _).
  apply (GetStr_str _ Bk Lk _ _ _ (N.le_0_l _)) in X1. apply (GetStr_str _ Bk Lk _ _ _ X3) in X2.
  set (k1 := 0 + lenN (str key)) in *. clearbody k1.
  assert (X4 : is32 k1) by (unfold is32, W32 in *; lia).
  assert (Hve : VerifyUser x (NameToId key) key (strs [key; q]) sig msg = POk tt k4).
  { unfold VerifyUser. replace (NameToId key =? ID_ED25519) with true by (vm_compute; reflexivity).
    unfold VerifyEd. rewrite (GetSized_eq _ 0 Bk Lk is32_0), X1. cbn [pbind].
    unfold require at 1. rewrite bytes_eqb_refl. cbn [pbind].
    rewrite (GetSized_eq _ k1 Bk Lk X4), X2. cbn [pbind].
    rewrite (GetSized_eq sig 0 B3 B4 is32_0), Y1. cbn [pbind].
    unfold require at 1. rewrite bytes_eqb_refl. cbn [pbind].
    rewrite (GetSized_eq sig k3 B3 B4 Y3), Y2. cbn [pbind]. unfold require. rewrite Hv. reflexivity. }
  unfold cert_request. rewrite Gpk, Hck. cbv zeta.
  assert (Hid : (NameToId (ascii algo) =? ID_UNKNOWN) || (MatchIdLists Server [NameToId (ascii algo)] algos =? ID_UNKNOWN) = false).
  { cbn [MatchIdLists match_ids].
    replace (existsb (N.eqb (NameToId (ascii algo))) algos) with true.
    - vm_compute. reflexivity.
    - symmetry. apply existsb_exists. exists (NameToId (ascii algo)). split; [exact Al|apply N.eqb_refl]. }
  rewrite Hid. destruct (base_of_type _ _ T) as (_ & _ & Ic). rewrite Ic. cbn [negb]. rewrite Ck.
  destruct (N.eqb_spec flag 0); [contradiction|]. cbn [negb andb]. rewrite Y1.
  replace (sig_fits (o_base o) (NameToId key)) with true by (vm_compute; reflexivity). cbn [negb].
  rewrite (Fo o Sh). f_equal. unfold conclude. rewrite Hsd, Eo, Hve. reflexivity.
Qed.

(* a request with the sample certificate that is granted *)
Definition ex_sid : bytes := [1; 2; 3].
Definition ex_h : bytes := str (ascii "alice") ++ str (ascii "ssh-connection") ++ str (ascii "publickey").
Definition ex_body : bytes := ex_h ++ [1] ++ str (ascii "ssh-ed25519-cert-v01@openssh.com") ++ str (cert_bytes ex_good).
Definition ex_m : bytes := ex_body ++ str (strs [ascii "ssh-ed25519"; [4; 4]]).
Definition ex_ux : crypto :=
  mkCrypto (fun _ _ _ _ _ => false) (fun _ _ _ _ _ _ => false)
    (fun q msg s => bytes_eqb q [7; 7] && bytes_eqb s [4; 4] && bytes_eqb msg (str ex_sid ++ [50] ++ ex_body)) (fun _ _ _ _ => false).
Example C81_met :
  cert_request [ID_OSSH_CERT_ED25519] (Some (fun o => if bytes_eqb (o_principals o) (str (ascii "alice")) then CbSuccess else CbFailure))
    None ex_ux ex_x ex_sid ex_m (lenN ex_h) = (Some ex_offer, PkGranted) /\
  request_head ex_h (ascii "alice") "publickey" /\
  (* the same request in another session *)
  cert_request [ID_OSSH_CERT_ED25519] (Some (fun _ => CbSuccess)) None ex_ux ex_x [9] ex_m (lenN ex_h) = (Some ex_offer, PkRefused) /\
  (* and with certificates of that type not enabled *)
  cert_request [ID_ED25519] (Some (fun _ => CbSuccess)) None ex_ux ex_x ex_sid ex_m (lenN ex_h) = (None, PkRefused).
Proof.
  split; [vm_compute; reflexivity|]. split; [|split; vm_compute; reflexivity].
  exists [str (ascii "alice"); str (ascii "ssh-connection"); str (ascii "publickey")]. split; [vm_compute; reflexivity|].
  repeat constructor; apply is_str_str; (split; [reflexivity|apply ok_len; vm_compute; reflexivity]).
Qed.

Print Assumptions C80_accepted.
Print Assumptions C80_other_names.
Print Assumptions C80_binding.
Print Assumptions C80_unambiguous.
Print Assumptions C80_unknown_option.
Print Assumptions C80_safe.
Print Assumptions C80_strict_refuted.
Print Assumptions C81_grant.
Print Assumptions C81_partial_success.
Print Assumptions C81_asked.
Print Assumptions C81_query.
Print Assumptions C81_safe.
Print Assumptions C81_ed25519_accepted.
