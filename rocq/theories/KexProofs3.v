(* KexProofs3.v - the exchange hash and key derivation. *)
From Verif Require Import Base WireModel WireSpec WireProofs DhTable KexModel KexSpec KexProofs KexProofs2.
From Coq Require Import List NArith ZArith Lia Bool.
From Coq Require Import ZifyBool ZifyNat ZifyN.
Import ListNotations.
Open Scope N_scope.

(* ---- host key --------------------------------------------------------- *)

Definition hk_len (k : hostkey) : N :=
  match k with
  | HRsa a b c | HEcc a b c => lenN a + lenN b + lenN c
  | HOne a b | HCert a b => lenN a + lenN b
  end.
Definition hk_bytes (k : hostkey) : Prop :=
  match k with
  | HRsa a b c | HEcc a b c => bytes_ok a /\ bytes_ok b /\ bytes_ok c
  | HOne a b | HCert a b => bytes_ok a /\ bytes_ok b
  end.

Lemma hostkey_same : forall k, hash_hostkey k = put_hostkey k.
Proof.
  intros [name e n|name prime q|name q|name cert]; cbn [hash_hostkey put_hostkey]; try reflexivity.
Qed.

Definition is_blob (k : hostkey) (b : bytes) : Prop :=
  match k with
  | HRsa name e n => rsa_blob name (be_value e) (be_value n) b
  | HEcc name prime q => b = ecdsa_blob name prime q
  | HOne name q => b = string_blob name q
  | HCert name cert => b = x509_blob name cert
  end.

Lemma CreateMpint_pad : forall K, snd (CreateMpint K 0) = pad_of (fst (CreateMpint K 0)).
Proof.
  intros K. unfold CreateMpint. destruct (N.eqb_spec (lenN K) 0) as [E|E].
  - apply lenN_0 in E. subst K. reflexivity.
  - cbv zeta. destruct (N.eqb_spec (count_zeros K) (lenN K)) as [E2|E2]; [reflexivity|].
    pose proof (count_zeros_le K).
    destruct (count_zeros_next K ltac:(lia)) as (x & Hx & Hn). rewrite Hx.
    destruct (N.testbit x 7) eqn:T.
    + destruct (N.ltb_spec 0 (count_zeros K)) as [Hz|Hz]; cbn [andb N.eqb Pos.eqb fst snd].
      * rewrite (dropN_rd K (count_zeros K - 1) 0); [reflexivity|]. apply count_zeros_rd. lia.
      * rewrite (dropN_rd K _ x) by assumption. cbn [pad_of]. rewrite T. reflexivity.
    + change (0 =? 1) with false. rewrite andb_false_r. cbn [fst snd].
      rewrite (dropN_rd K _ x) by assumption. cbn [pad_of]. rewrite T. reflexivity.
Qed.

Lemma pad_cases : forall b, pad_of b = 0 \/ pad_of b = 1.
Proof. intros [|x r]; [left; reflexivity|]. cbn. destruct (N.testbit x 7); [right|left]; reflexivity. Qed.

(* CreateMpint's result written out is the mpint string *)
Lemma create_len : forall K, let c := CreateMpint K 0 in
  lenN (fst c) + snd c = lenN (mpint_contents K) /\
  (if snd c =? 1 then [0] else []) ++ fst c = mpint_contents K.
Proof.
  intros K c. unfold mpint_contents. fold c. pose proof (CreateMpint_pad K) as P. fold c in P.
  destruct c as [b p]. cbn [fst snd] in *. split; [|reflexivity].
  rewrite lenN_app. destruct (pad_cases b) as [Q|Q]; rewrite Q in P; subst p;
    [change (0 =? 1) with false|change (1 =? 1) with true]; cbv iota;
    [change (lenN (@nil N)) with 0|change (lenN [0]) with 1]; lia.
Qed.

Lemma hostkey_blob : forall k, hk_bytes k -> is32 (hk_len k + 40) ->
  exists b, put_hostkey k = str b /\ is_blob k b /\ bytes_ok b /\ is32 (lenN b) /\ lenN b <= hk_len k + 30.
Proof.
  intros [name e n|name prime q|name q|name cert] Hb HL; cbn [hk_bytes hk_len put_hostkey is_blob] in *.
  - destruct Hb as (B1 & B2 & B3).
    destruct (create_len e) as [L1 A1]. destruct (create_len n) as [L2 A2].
    destruct (CreateMpint e 0) as [eb ep]. destruct (CreateMpint n 0) as [nb np]. cbn [fst snd] in *.
    pose proof (num_contents_len true e) as N1. pose proof (num_contents_len true n) as N2. cbn [num_contents] in *.
    exists (str name ++ str (mpint_contents e) ++ str (mpint_contents n)).
    assert (I1 : is32 (lenN name)) by (unfold is32 in *; lia).
    assert (I2 : is32 (lenN (mpint_contents e))) by (unfold is32 in *; lia).
    assert (I3 : is32 (lenN (mpint_contents n))) by (unfold is32 in *; lia).
    assert (LL : lenN (str name ++ str (mpint_contents e) ++ str (mpint_contents n)) =
                 12 + lenN name + lenN (mpint_contents e) + lenN (mpint_contents n))
      by (rewrite !lenN_app, !lenN_str; lia).
    split; [|split; [|split; [|split]]].
    + unfold str at 1. rewrite LL, <- L1, <- L2. unfold str. rewrite <- L1, <- L2, <- A1, <- A2.
      rewrite !be32_c32toa by (unfold is32 in *; lia).
      replace (12 + lenN name + (lenN eb + ep) + (lenN nb + np))
        with (12 + lenN name + lenN eb + ep + lenN nb + np) by lia.
      rewrite <- !app_assoc. reflexivity.
    + exists (mpint_contents e), (mpint_contents n). split; [apply encodes_mpint; assumption|].
      split; [apply encodes_mpint; assumption|reflexivity].
    + apply Forall_app. split; [apply str_ok; assumption|]. apply Forall_app.
      split; apply str_ok; try assumption; apply mpint_contents_ok; assumption.
    + unfold is32 in *. lia.
    + lia.
  - destruct Hb as (B1 & B2 & B3). exists (ecdsa_blob name prime q). unfold ecdsa_blob.
    assert (LL : lenN (str name ++ str prime ++ str q) = 12 + lenN name + lenN prime + lenN q)
      by (rewrite !lenN_app, !lenN_str; lia).
    split; [|split; [reflexivity|split; [|split]]].
    + unfold str at 1. rewrite LL. unfold str. rewrite !be32_c32toa by (unfold is32 in *; lia).
      rewrite <- !app_assoc. reflexivity.
    + apply Forall_app. split; [apply str_ok; try assumption; unfold is32 in *; lia|]. apply Forall_app.
      split; apply str_ok; try assumption; unfold is32 in *; lia.
    + unfold is32 in *. lia.
    + lia.
  - destruct Hb as (B1 & B2). exists (string_blob name q). unfold string_blob.
    assert (LL : lenN (str name ++ str q) = 8 + lenN name + lenN q)
      by (rewrite !lenN_app, !lenN_str; lia).
    split; [|split; [reflexivity|split; [|split]]].
    + unfold str at 1. rewrite LL. unfold str. rewrite !be32_c32toa by (unfold is32 in *; lia).
      rewrite <- !app_assoc. reflexivity.
    + apply Forall_app. split; apply str_ok; try assumption; unfold is32 in *; lia.
    + unfold is32 in *. lia.
    + lia.
  - destruct Hb as (B1 & B2). exists (x509_blob name cert). unfold x509_blob, rfc6187.
    assert (LL : lenN (str name ++ be32 1 ++ str cert ++ be32 0) = 8 + 8 + lenN name + lenN cert)
      by (rewrite !lenN_app, !lenN_str, !lenN_be32; lia).
    split; [|split; [reflexivity|split; [|split]]].
    + unfold str at 1. rewrite LL. unfold str. rewrite !be32_c32toa by (unfold is32, W32 in *; lia).
      rewrite <- !app_assoc. reflexivity.
    + apply Forall_app. split; [apply str_ok; try assumption; unfold is32 in *; lia|]. apply Forall_app.
      split; [apply be32_ok; unfold is32, W32; lia|]. apply Forall_app.
      split; [apply str_ok; try assumption; unfold is32 in *; lia|apply be32_ok; unfold is32, W32; lia].
    + unfold is32 in *. lia.
    + lia.
Qed.

(* ---- versions and KEXINITs --------------------------------------------- *)

(* What a client knows that sent version [vc] and KEXINIT payload 20::[ic] and
   received [vs], 20::[is]; and a server that sent [vs], [is]. *)
Definition crlf : bytes := [13; 10].
Definition client_in (vc vs ic is : bytes) : hin :=
  mkHin (vc ++ crlf) (saved_version vs) (saved_kexinit (20 :: ic)) is.
Definition server_in (vc vs ic is : bytes) : hin :=
  mkHin (vs ++ crlf) (saved_version vc) (saved_kexinit (20 :: is)) ic.

Definition small (b : bytes) : Prop := lenN b + 16 < W32.

Lemma hash_init_client : forall vc vs ic is, small vc -> small vs -> small ic -> small is ->
  hash_init false (client_in vc vs ic is) = str vc ++ str vs ++ str (20 :: ic) ++ str (20 :: is).
Proof.
  intros vc vs ic is H1 H2 H3 H4. unfold small in *. unfold hash_init, client_in. cbn [i_proto i_peerproto i_kexinit i_peerinit].
  assert (L : sub32 (lenN (vc ++ crlf)) 2 = lenN vc).
  { rewrite lenN_app. change (lenN crlf) with 2. rewrite sub32_small by lia. lia. }
  cbv zeta. rewrite L, takeN_app_exact by reflexivity.
  rewrite add32_small by (unfold W32 in *; lia). unfold saved_version, saved_kexinit, str.
  rewrite !be32_c32toa by (unfold is32; rewrite ?lenN_cons; lia).
  rewrite !lenN_cons. replace (lenN is + 1) with (1 + lenN is) by lia.
  rewrite app_nil_r, <- !app_assoc. reflexivity.
Qed.

Lemma hash_init_server : forall vc vs ic is, small vc -> small vs -> small ic -> small is ->
  hash_init true (server_in vc vs ic is) = str vc ++ str vs ++ str (20 :: ic) ++ str (20 :: is).
Proof.
  intros vc vs ic is H1 H2 H3 H4. unfold small in *. unfold hash_init, server_in. cbn [i_proto i_peerproto i_kexinit i_peerinit].
  assert (L : sub32 (lenN (vs ++ crlf)) 2 = lenN vs).
  { rewrite lenN_app. change (lenN crlf) with 2. rewrite sub32_small by lia. lia. }
  cbv zeta. rewrite L, takeN_app_exact by reflexivity.
  rewrite add32_small by (unfold W32 in *; lia). unfold saved_version, saved_kexinit, str.
  rewrite !be32_c32toa by (unfold is32; rewrite ?lenN_cons; lia).
  rewrite !lenN_cons. replace (lenN ic + 1) with (1 + lenN ic) by lia.
  rewrite <- !app_assoc. reflexivity.
Qed.

(* ---- client's public value --------------------------------------------- *)

Lemma init_msg : forall m e, bytes_ok e -> small e ->
  SendKexDhInit m e = (num_contents (e_mpint m) e,
    (match m with MGex => 32 | _ => 30 end) :: str (num_contents (e_mpint m) e)).
Proof.
  intros m e He Hs. unfold small in *. pose proof (num_contents_len (e_mpint m) e) as HN.
  assert (I : is32 (lenN (num_contents (e_mpint m) e))) by (unfold is32; lia).
  unfold SendKexDhInit. destruct (e_mpint m); cbn [num_contents] in *.
  - destruct (create_len e) as [L A]. destruct (CreateMpint e 0) as [eb p]. cbn [fst snd] in *.
    rewrite L, A. rewrite be32_c32toa by assumption. destruct m; reflexivity.
  - rewrite N.add_0_r. change (0 =? 1) with false. rewrite be32_c32toa by assumption. destruct m; reflexivity.
Qed.

Lemma init_parse : forall s, bytes_ok s -> 0 < lenN s -> lenN s <= 3169 -> DoKexDhInit (str s) = Some s.
Proof.
  intros s Hs H0 HL. unfold DoKexDhInit.
  pose proof (string_ref_at [] s []) as Q. cbv zeta in Q. rewrite app_nil_r in Q. cbn [app] in Q.
  assert (Hb : bytes_ok (str s)) by (apply str_ok; [unfold is32, W32; lia|assumption]).
  assert (H32 : is32 (lenN (str s))) by (rewrite lenN_str; unfold is32, W32; lia).
  destruct (Q Hb H32) as (E & _ & R & _). change (lenN (@nil N)) with 0 in *.
  rewrite E. cbn [fst snd]. unfold MAX_KEX_KEY_SZ. change (3168 + 1) with 3169.
  destruct (N.ltb_spec 3169 (lenN s)); [lia|]. destruct (N.eqb_spec (lenN s) 0); [lia|]. exact R.
Qed.

(* ---- the reply ---------------------------------------------------------- *)

Lemma reply_parse : forall h m x e K key f sg gx, bytes_ok key -> bytes_ok f -> bytes_ok sg ->
  is32 (lenN key + lenN f + lenN sg + 12) ->
  (match m with MGex => client_gex x | _ => Some [] end) = Some gx ->
  DoKexDhReply h m x e K (str key ++ str f ++ str sg) =
    Some (mkReply key f sg (hash_init false h ++ str key ++ gx ++ PutString e ++ str f
                            ++ PutNum (k_mpint m) (K f))).
Proof.
  intros h m x e K key f sg gx Hk Hf Hs H32 HG. unfold DoKexDhReply.
  set (buf := str key ++ str f ++ str sg).
  assert (LB : lenN buf = lenN key + lenN f + lenN sg + 12) by (unfold buf; rewrite !lenN_app, !lenN_str; lia).
  assert (HB : bytes_ok buf).
  { unfold buf. apply Forall_app. split; [apply str_ok; try assumption; unfold is32 in *; lia|].
    apply Forall_app. split; apply str_ok; try assumption; unfold is32 in *; lia. }
  assert (HB32 : is32 (lenN buf)) by (rewrite LB; assumption).
  assert (E1 : buf = [] ++ str key ++ (str f ++ str sg)) by reflexivity.
  assert (E2 : buf = str key ++ str f ++ str sg) by reflexivity.
  assert (E3 : buf = (str key ++ str f) ++ str sg ++ []) by (rewrite app_nil_r, <- app_assoc; reflexivity).
  pose proof (string_ref_at [] key (str f ++ str sg)) as Q1. cbv zeta in Q1. rewrite <- E1 in Q1.
  pose proof (string_ref_at (str key) f (str sg)) as Q2. cbv zeta in Q2. rewrite <- E2, lenN_str in Q2.
  pose proof (string_ref_at (str key ++ str f) sg []) as Q3. cbv zeta in Q3. rewrite <- E3, lenN_app, !lenN_str in Q3.
  destruct (Q1 HB HB32) as (_ & U1 & R1 & S1). destruct (Q2 HB HB32) as (_ & U2 & R2 & S2).
  destruct (Q3 HB HB32) as (_ & U3 & R3 & _). change (lenN (@nil N)) with 0 in *. change (0 + 4) with 4 in *.
  cbv zeta. destruct (N.ltb_spec (lenN buf) 8); [lia|]. rewrite U1.
  rewrite !(sub32_small (lenN buf)) by (try exact HB32; lia).
  rewrite (sub32_small (lenN buf - 4) 4) by (unfold is32 in *; lia).
  destruct (N.ltb_spec (lenN buf - 4 - 4) (lenN key)); [lia|].
  change (sub32 4 4) with 0. rewrite S1, R1, HG.
  rewrite (add32_small 4) by (unfold is32, W32 in *; lia). rewrite U2.
  rewrite (sub32_small (lenN buf)) by (try exact HB32; lia).
  destruct (N.ltb_spec (lenN buf - (4 + lenN key + 4)) (lenN f)); [lia|].
  rewrite S2, R2. rewrite add32_small by (unfold is32, W32 in *; lia).
  replace (4 + lenN key + 4 + lenN f) with (4 + lenN key + (4 + lenN f)) by lia. rewrite U3.
  rewrite (sub32_small (lenN buf)) by (try exact HB32; lia).
  destruct (N.ltb_spec (lenN buf - (4 + lenN key + (4 + lenN f) + 4)) (lenN sg)); [lia|].
  rewrite R3. reflexivity.
Qed.

Lemma some_reply : forall a b : reply, Some a = Some b -> a = b.
Proof. congruence. Qed.

Lemma some_bytes : forall a b : bytes, Some a = Some b -> a = b.
Proof. congruence. Qed.

Lemma reply_inv : forall h m x e K buf r, bytes_ok buf -> is32 (lenN buf) ->
  DoKexDhReply h m x e K buf = Some r ->
  exists gx rest, buf = str (y_key r) ++ str (y_f r) ++ str (y_sig r) ++ rest /\
    (match m with MGex => client_gex x | _ => Some [] end) = Some gx /\
    y_hash r = hash_init false h ++ str (y_key r) ++ gx ++ PutString e ++ str (y_f r)
               ++ PutNum (k_mpint m) (K (y_f r)).
Proof.
  intros h m x e K buf r HB H32 E. unfold DoKexDhReply in E. cbv zeta in E.
  destruct (N.ltb_spec (lenN buf) 8) as [|L8]; [discriminate|].
  destruct (GetUint32 buf (lenN buf) 0) as [ksz b| |] eqn:U1; try discriminate.
  assert (Z32 : is32 0) by (unfold is32, W32; lia).
  destruct (GetUint32_inv _ _ _ _ HB H32 Z32 U1) as (L1 & -> & S1 & I1).
  change (0 + 4) with 4 in *.
  rewrite !(sub32_small (lenN buf)) in E by (try exact H32; lia).
  rewrite (sub32_small (lenN buf - 4) 4) in E by (unfold is32 in *; lia).
  destruct (N.ltb_spec (lenN buf - 4 - 4) ksz) as [|L2]; [discriminate|].
  change (sub32 4 4) with 0 in E.
  rewrite !rdn_some in E by lia.
  destruct (match m with MGex => client_gex x | _ => Some [] end) as [gx|] eqn:HG; [|discriminate].
  rewrite (add32_small 4) in E by (unfold is32, W32 in *; lia).
  destruct (GetUint32 buf (lenN buf) (4 + ksz)) as [fsz c| |] eqn:U2; try discriminate.
  assert (J2 : is32 (4 + ksz)) by (unfold is32 in *; lia).
  destruct (GetUint32_inv _ _ _ _ HB H32 J2 U2) as (L3 & -> & S2 & I2).
  rewrite (sub32_small (lenN buf)) in E by (try exact H32; lia).
  destruct (N.ltb_spec (lenN buf - (4 + ksz + 4)) fsz) as [|L4]; [discriminate|].
  rewrite !rdn_some in E by lia. rewrite add32_small in E by (unfold is32, W32 in *; lia).
  destruct (GetUint32 buf (lenN buf) (4 + ksz + 4 + fsz)) as [ssz d| |] eqn:U3; try discriminate.
  assert (J3 : is32 (4 + ksz + 4 + fsz)) by (unfold is32 in *; lia).
  destruct (GetUint32_inv _ _ _ _ HB H32 J3 U3) as (L5 & -> & S3 & I3).
  rewrite (sub32_small (lenN buf)) in E by (try exact H32; lia).
  destruct (N.ltb_spec (lenN buf - (4 + ksz + 4 + fsz + 4)) ssz) as [|L6]; [discriminate|].
  rewrite !rdn_some in E by lia. apply some_reply in E. subst r. cbn [y_key y_f y_sig y_hash].
  assert (V : forall i n, is32 n -> slice buf i 4 = be32 n -> n = be_value (slice buf i 4)).
  { intros i n In Es. rewrite Es, <- be32_c32toa, be_value_c32toa by assumption. reflexivity. }
  pose proof (str_slice buf 0 ksz HB ltac:(lia) (V _ _ I1 S1)) as A1.
  pose proof (str_slice buf (4 + ksz) fsz HB ltac:(lia) (V _ _ I2 S2)) as A2.
  pose proof (str_slice buf (4 + ksz + 4 + fsz) ssz HB ltac:(lia) (V _ _ I3 S3)) as A3.
  change (0 + 4) with 4 in A1.
  exists gx, (dropN (4 + ksz + 4 + fsz + (4 + ssz)) buf). split; [|split; [reflexivity|]].
  - rewrite <- A1, <- A2, <- A3. rewrite (slice_all buf (4 + ksz + 4 + fsz) (4 + ssz) ltac:(lia)) at 1.
    rewrite app_assoc. rewrite (app_assoc (slice buf 0 (4 + ksz))). rewrite <- app_assoc. f_equal.
    change (takeN (4 + ksz + 4 + fsz) buf) with (slice buf 0 (4 + ksz + 4 + fsz)).
    replace (4 + ksz + 4 + fsz) with ((4 + ksz) + (4 + fsz)) by lia. rewrite slice_join. reflexivity.
  - replace (ksz + 4) with (4 + ksz) by lia. replace (fsz + 4) with (4 + fsz) by lia. rewrite A1, A2. reflexivity.
Qed.

(* ---- key derivation ------------------------------------------------------ *)

Section Derive.
  Variables (H : bytes -> bytes) (d : N).
  Hypothesis Hd : forall m, lenN (H m) = d.
  Hypothesis Hd0 : 0 < d.

  Lemma kdf_len : forall kf h sid x n, lenN (kdf_upto H kf h sid x n) = N.of_nat n * d.
  Proof using Hd Hd0.
    intros kf h sid x n. induction n as [|[|n] IH]; [reflexivity|cbn [kdf_upto]; rewrite Hd; change (N.of_nat 1) with 1; lia|].
    change (kdf_upto H kf h sid x (S (S n))) with
      (kdf_upto H kf h sid x (S n) ++ H (kf ++ h ++ kdf_upto H kf h sid x (S n))).
    rewrite lenN_app, IH, Hd. lia.
  Qed.

  Lemma kdf_prefix : forall kf h sid x n m, (n <= m)%nat ->
    exists e, kdf_upto H kf h sid x m = kdf_upto H kf h sid x n ++ e.
  Proof using Hd Hd0.
    intros kf h sid x n m L. induction L as [|m L (e & IH)]; [exists []; rewrite app_nil_r; reflexivity|].
    destruct m as [|m].
    - exists (H (kf ++ h ++ [x] ++ sid)). destruct n as [|n]; [reflexivity|inversion L].
    - change (kdf_upto H kf h sid x (S (S m))) with
      (kdf_upto H kf h sid x (S m) ++ H (kf ++ h ++ kdf_upto H kf h sid x (S m))).
      set (t := H (kf ++ h ++ _)). clearbody t. rewrite IH, <- app_assoc. eexists. reflexivity.
  Qed.

  Lemma derived_of : forall kf h sid x sz n, sz <= lenN (kdf_upto H kf h sid x n) ->
    derived H kf h sid x sz (takeN sz (kdf_upto H kf h sid x n)).
  Proof using Hd Hd0.
    intros kf h sid x sz n L. split; [rewrite lenN_takeN; lia|]. intros m Lm.
    destruct (Nat.le_ge_cases n m) as [Q|Q]; destruct (kdf_prefix kf h sid x _ _ Q) as (e & E); rewrite E.
    - rewrite takeN_app_l by assumption. reflexivity.
    - rewrite takeN_app_l by assumption. reflexivity.
  Qed.

  Lemma gk_blocks_kdf : forall kf h sid x n j,
    gk_blocks H n kf h (kdf_upto H kf h sid x (S j)) = kdf_upto H kf h sid x (S j + n).
  Proof using Hd Hd0.
    intros kf h sid x n. induction n as [|n IH]; intros j; [rewrite Nat.add_0_r; reflexivity|].
    cbn [gk_blocks].
    change (kdf_upto H kf h sid x (S j) ++ H (kf ++ h ++ kdf_upto H kf h sid x (S j))) with
      (kdf_upto H kf h sid x (S (S j))). rewrite IH. f_equal. lia.
  Qed.

  Lemma generate_key : forall x sz k h sid pad key,
    GenerateKey H d x sz k h sid pad = Some key -> derived H (k_field pad k) h sid x sz key.
  Proof using Hd Hd0.
    intros x sz k h sid pad key E. unfold GenerateKey in E.
    match type of E with (if ?c then _ else _) = _ => destruct c; [discriminate|] end.
    cbv zeta in E. set (kf := k_field pad k) in *. clearbody kf.
    pose proof (N.div_mod sz d ltac:(lia)) as DM. pose proof (N.mod_lt sz d ltac:(lia)) as ML.
    set (q := sz / d) in *. set (r := sz mod d) in *. clearbody q r.
    destruct (N.eqb_spec q 0) as [Eq|Eq].
    - injection E as <-. subst q. replace sz with r by lia.
      apply (derived_of kf h sid x r 1). rewrite kdf_len. lia.
    - change (H (kf ++ h ++ ([x] ++ sid))) with (kdf_upto H kf h sid x 1) in E.
      rewrite gk_blocks_kdf in E. set (n := (1 + N.to_nat (q - 1))%nat) in *.
      assert (En : N.of_nat n = q) by (unfold n; lia).
      assert (LK : lenN (kdf_upto H kf h sid x n) = q * d) by (rewrite kdf_len, En; reflexivity).
      assert (HS : kdf_upto H kf h sid x (S n) = kdf_upto H kf h sid x n ++ H (kf ++ h ++ kdf_upto H kf h sid x n))
        by reflexivity.
      clearbody n. apply some_bytes in E. subst key.
      destruct (N.ltb_spec 0 r) as [Hr|Hr].
      + replace (kdf_upto H kf h sid x n ++ takeN r (H (kf ++ h ++ kdf_upto H kf h sid x n)))
          with (takeN sz (kdf_upto H kf h sid x (S n))).
        * apply derived_of. rewrite kdf_len. lia.
        * rewrite HS, takeN_app_r by lia. f_equal. f_equal. lia.
      + replace (kdf_upto H kf h sid x n) with (takeN sz (kdf_upto H kf h sid x n)).
        * apply derived_of. lia.
        * apply takeN_all. lia.
  Qed.

  Lemma derived_unique : forall kf h sid x sz a b,
    derived H kf h sid x sz a -> derived H kf h sid x sz b -> a = b.
  Proof using Hd Hd0.
    intros kf h sid x sz a b (_ & A) (_ & B).
    assert (L : sz <= lenN (kdf_upto H kf h sid x (N.to_nat sz))) by (rewrite kdf_len; nia).
    rewrite (A _ L), (B _ L). reflexivity.
  Qed.
End Derive.

Lemma k_field_put : forall m K, small K -> k_field (k_mpint m) (kept_secret m K) = str (num_contents (k_mpint m) K).
Proof.
  intros m K Hs. unfold small in *. pose proof (num_contents_len (k_mpint m) K) as HN.
  assert (I : is32 (lenN (num_contents (k_mpint m) K))) by (unfold is32; lia).
  unfold k_field, kept_secret. destruct (k_mpint m); cbn [num_contents] in *.
  - destruct (create_len K) as [L A]. pose proof (CreateMpint_pad K) as P.
    cbv zeta. rewrite <- P. rewrite add32_small by (rewrite L; exact I).
    unfold str. rewrite <- A at 2. rewrite L, be32_c32toa by assumption. reflexivity.
  - cbv zeta. change (0 =? 1) with false. rewrite add32_small by (rewrite N.add_0_r; exact I).
    rewrite N.add_0_r, be32_c32toa by assumption. reflexivity.
Qed.
