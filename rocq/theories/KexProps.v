(* KexProps.v - C28, C39, C44, C46: group exchange, exchange hash and key
   derivation. Vocabulary: KexSpec. *)
From Verif Require Import Base WireModel WireSpec WireProofs DhTable KexModel KexSpec KexProofs KexProofs2 KexProofs3.
From Coq Require Import List NArith ZArith Lia Bool.
From Coq Require Import ZifyBool ZifyNat ZifyN.
Import ListNotations.
Open Scope N_scope.

(* ---- C28 -------------------------------------------------------------- *)

(* The library's table is as RFC 4419 wants it; so is the one of a build
   without the smallest group. *)
Lemma entry_ok : forall g : group,
  forallb (fun x => x <? 256) (snd g) && negb (hd 0 (snd g) =? 0) && N.odd (be_value (snd g))
  && (2 ^ (fst g - 1) <=? be_value (snd g)) && (be_value (snd g) <? 2 ^ fst g) = true ->
  bytes_ok (snd g) /\ hd 0 (snd g) <> 0 /\ N.odd (be_value (snd g)) = true /\ has_bits (be_value (snd g)) (fst g).
Proof.
  intros g E. apply andb_true_iff in E. destruct E as [E E5]. apply andb_true_iff in E. destruct E as [E E4].
  apply andb_true_iff in E. destruct E as [E E3]. apply andb_true_iff in E. destruct E as [E1 E2].
  split; [|split; [|split; [assumption|split]]].
  - rewrite forallb_forall in E1. apply Forall_forall. intros x Hx. apply N.ltb_lt. apply E1. assumption.
  - apply negb_true_iff in E2. apply N.eqb_neq in E2. assumption.
  - apply N.leb_le. assumption.
  - apply N.ltb_lt. assumption.
Qed.

Theorem C28_builtin_table : table_ok builtin.
Proof.
  split; [cbn; lia|].
  repeat (apply Forall_cons; [apply entry_ok; vm_compute; reflexivity|]). apply Forall_nil.
Qed.
Print Assumptions C28_builtin_table.
Example C28_table_without_group1 : table_ok (tl builtin).
Proof.
  destruct C28_builtin_table as [_ T]. split; [cbn; lia|]. inversion T. assumption.
Qed.

(* For every table and every request the server answers with the best
   acceptable group, encoded as two mpints, and computes with that group; if
   no group is acceptable it answers nothing. *)
Theorem C28_group_choice : forall l mn pf mx rest x, table_ok l ->
  is32 mn -> is32 pf -> is32 mx -> bytes_ok rest -> is32 (lenN rest + 12) -> x_g x = None ->
  match DoKexDhGexRequest l (be32 mn ++ be32 pf ++ be32 mx ++ rest) x with
  | (x', Some msg) => exists b p s, In (b, p) l /\ best_size (map fst l) mn pf mx b /\
      encodes (VNum (be_value p)) s /\ msg = 31 :: str s ++ str [2] /\
      GetDHPrimeGroup l x' = Some (p, [2])
  | (_, None) => forall b, ~ acceptable (map fst l) mn mx b
  end.
Proof.
  intros l mn pf mx rest x Ht H1 H2 H3 Hr HL Hg. rewrite request_parse by assumption.
  pose proof (group_choice l mn pf mx x Ht) as G.
  destruct (SendKexDhGexGroup l (mkGex mn pf mx (x_p x) (x_g x))) as [x' [msg|]]; [|exact G].
  destruct G as (b & p & Hin & Hbest & -> & ->). exists b, p, (mpint_contents p).
  split; [assumption|]. split; [assumption|]. split.
  - apply encodes_mpint. destruct Ht as [_ Ht]. rewrite Forall_forall in Ht. apply (Ht _ Hin).
  - split; [reflexivity|]. cbn [GetDHPrimeGroup x_p x_g]. rewrite Hg. reflexivity.
Qed.
Print Assumptions C28_group_choice.

Example C28_choice_4096 : exists x msg,
  DoKexDhGexRequest builtin (be32 2048 ++ be32 3072 ++ be32 8192) gex0 = (x, Some msg) /\ x_p x = Some dhPrimeGroup16.
Proof. eexists. eexists. split; reflexivity. Qed.
Example C28_choice_none : exists x, DoKexDhGexRequest builtin (be32 1024 ++ be32 1024 ++ be32 1024) gex0 = (x, None).
Proof. eexists. reflexivity. Qed.

(* The client's request is an ordered window inside its configuration that
   never goes below 2048 bits, and contains the preferred size if that is
   possible; there is no request exactly when there is no such window. *)
Theorem C28_client_request : forall x, is32 (x_min x) -> is32 (x_pref x) -> is32 (x_max x) ->
  match SendKexDhGexRequest x with
  | (x', Some msg) => exists mn pf mx, msg = 34 :: be32 mn ++ be32 pf ++ be32 mx /\
      (x_min x', x_pref x', x_max x') = (mn, pf, mx) /\
      mn = N.max 2048 (x_min x) /\ mx = x_max x /\ mn <= pf /\ pf <= mx /\
      (mn <= x_pref x /\ x_pref x <= mx -> pf = x_pref x)
  | (_, None) => x_max x < N.max 2048 (x_min x)
  end.
Proof.
  intros x H1 H2 H3. pose proof (request_window x H1 H2 H3) as R.
  destruct (SendKexDhGexRequest x) as [x' [msg|]]; [|exact R].
  destruct R as (mn & pf & mx & E & -> & R). exists mn, pf, mx. split; [exact E|]. split; [reflexivity|exact R].
Qed.
Print Assumptions C28_client_request.
Example C28_request_default : SendKexDhGexRequest gex0 = (gex0, Some (34 :: be32 2048 ++ be32 3072 ++ be32 8192)).
Proof. reflexivity. Qed.

(* What the server answers to the client's request, the client accepts, given
   that the primality tests recognise the server's groups. *)
Theorem C28_offer_accepted : forall l x xc req xs0 xs grp pt1 pt2, table_ok l ->
  is32 (x_min x) -> is32 (x_pref x) -> x_max x < 2147483648 ->
  SendKexDhGexRequest x = (xc, Some req) ->
  DoKexDhGexRequest l (tl req) xs0 = (xs, Some grp) ->
  (forall g, In g l -> pt1 (be_value (snd g)) = true /\ pt2 ((be_value (snd g) - 1) / 2) = true) ->
  exists xc', DoKexDhGexGroup pt1 pt2 (tl grp) xc = (xc', WS_SUCCESS) /\
    exists p q, x_p xs = Some p /\ x_p xc' = Some q /\ be_value p = be_value q /\ x_g xc' = Some [2].
Proof.
  intros l x xc req xs0 xs grp pt1 pt2 Ht H1 H2 H3 Q R P.
  assert (H3' : is32 (x_max x)) by (unfold is32, W32; lia).
  pose proof (request_window x H1 H2 H3') as W. rewrite Q in W.
  destruct W as (mn & pf & mx & -> & -> & Emn & Emx & L1 & L2 & _). cbn [tl] in R.
  assert (I1 : is32 mn) by (unfold is32, W32; lia). assert (I2 : is32 pf) by (unfold is32, W32; lia).
  assert (I3 : is32 mx) by (unfold is32, W32; lia).
  pose proof (request_parse l mn pf mx [] xs0 I1 I2 I3 ltac:(constructor) ltac:(reflexivity)) as RP.
  rewrite !app_nil_r in RP. rewrite RP in R.
  pose proof (group_choice l mn pf mx xs0 Ht) as G. rewrite R in G.
  destruct G as (b & p & Hin & Hbest & -> & ->). cbn [tl].
  destruct Ht as [_ Ht]. rewrite Forall_forall in Ht. destruct (Ht _ Hin) as (T1 & T2 & T3 & T4). cbn [fst snd] in *.
  destruct Hbest as [(_ & B1 & B2 & B3 & B4) _].
  destruct (lead_len p b T1 T2 (proj2 T4)) as [Ln1 Ln2].
  pose proof (num_contents_len true p) as NL. cbn [num_contents] in NL.
  assert (BM : bytes_ok (mpint_contents p)) by (apply mpint_contents_ok; assumption).
  destruct (P _ Hin) as [P1 P2]. cbn [snd] in *.
  rewrite group_parse.
  - cbn [x_min x_max x_pref]. cbv zeta.
    rewrite (validate_accepts p (N.max 2048 mn) mx pt1 pt2 b) by (assumption || lia).
    rewrite rc_eqb_refl. eexists. split; [reflexivity|]. exists p, (mpint_contents p). cbn [x_p x_g].
    split; [reflexivity|]. split; [reflexivity|]. split; [symmetry; apply mpint_contents_value|reflexivity].
  - assumption.
  - repeat constructor. 
  - pose proof (mpint_contents_canonical p) as C. destruct (mpint_contents p); [exact Logic.I|]. apply C.
  - reflexivity.
  - lia.
  - change (lenN [2]) with 1. unfold is32, W32. lia.
Qed.
Print Assumptions C28_offer_accepted.
Example C28_offer_accepted_default : exists xs grp,
  DoKexDhGexRequest builtin (tl (34 :: be32 2048 ++ be32 3072 ++ be32 8192)) gex0 = (xs, Some grp) /\
  exists xc, DoKexDhGexGroup (fun _ => true) (fun _ => true) (tl grp) gex0 = (xc, WS_SUCCESS).
Proof.
  eexists. eexists. split; [reflexivity|].
  destruct (C28_offer_accepted builtin gex0 gex0 (34 :: be32 2048 ++ be32 3072 ++ be32 8192) gex0
    (fst (DoKexDhGexRequest builtin (be32 2048 ++ be32 3072 ++ be32 8192) gex0))
    (match snd (DoKexDhGexRequest builtin (be32 2048 ++ be32 3072 ++ be32 8192) gex0) with Some g => g | None => [] end)
    (fun _ => true) (fun _ => true) C28_builtin_table) as (xc' & E & _);
    try reflexivity; [intros; split; reflexivity|]. exists xc'. exact E.
Qed.

(* ---- C39 -------------------------------------------------------------- *)

(* Whatever the server sends, the client takes a group only if it is in the
   window it asked for (and at least 2048 bits), odd, with a generator between
   2 and p-2, and after both primality tests; otherwise its state is unchanged;
   and it never reads outside the message. *)
Theorem C39_group_checked : forall pt1 pt2 buf x x' r, bytes_ok buf -> is32 (lenN buf) ->
  x_min x < 2147483648 -> DoKexDhGexGroup pt1 pt2 buf x = (x', r) ->
  r <> WS_FATAL_OTHER /\ (r <> WS_SUCCESS -> x' = x) /\
  (r = WS_SUCCESS -> exists p g rest, buf = str p ++ str g ++ rest /\
     x' = mkGex (x_min x) (x_pref x) (x_max x) (Some p) (Some g) /\
     let P := be_value p in let G := be_value g in
     (exists b, has_bits P b /\ 2048 <= b /\ x_min x <= b /\ b <= x_max x) /\
     N.odd P = true /\ 2 <= G /\ G + 2 <= P /\ pt1 P = true /\ pt2 ((P - 1) / 2) = true).
Proof.
  intros pt1 pt2 buf x x' r Hb H32 Hm E.
  destruct (group_taken pt1 pt2 buf x x' r Hb H32 Hm E) as (A & B & C).
  split; [exact A|]. split; [exact B|]. intros Er. destruct (C Er) as (p & g & rest & C1 & C2 & _ & _ & C3).
  exists p, g, rest. split; [exact C1|]. split; [exact C2|exact C3].
Qed.
Print Assumptions C39_group_checked.
(* a 1024-bit group and a generator of 1 are refused *)
Example C39_small_refused : DoKexDhGexGroup (fun _ => true) (fun _ => true)
  (PutMpint dhPrimeGroup1 ++ PutMpint [2]) gex0 = (gex0, WS_DH_SIZE_E).
Proof. vm_compute. reflexivity. Qed.
Example C39_generator_refused : DoKexDhGexGroup (fun _ => true) (fun _ => true)
  (PutMpint dhPrimeGroup14 ++ PutMpint [1]) gex0 = (gex0, WS_CRYPTO_FAILED).
Proof. vm_compute. reflexivity. Qed.

(* ---- C44 -------------------------------------------------------------- *)

(* A group exchange between client and server that went through: request,
   offer, acceptance. *)
Definition gex_run (l : list group) (pt1 pt2 : N -> bool) (x0 xc xs : gex) : Prop :=
  is32 (x_min x0) /\ is32 (x_pref x0) /\ x_max x0 < 2147483648 /\
  exists xc1 req xs0 grp, x_g xs0 = None /\
    SendKexDhGexRequest x0 = (xc1, Some req) /\
    DoKexDhGexRequest l (tl req) xs0 = (xs, Some grp) /\
    DoKexDhGexGroup pt1 pt2 (tl grp) xc1 = (xc, WS_SUCCESS).

Lemma gex_run_hash : forall l pt1 pt2 x0 xc xs, table_ok l -> gex_run l pt1 pt2 x0 xc xs ->
  exists q p, In p (map snd l) /\ q = mkGp (x_min xs) (x_pref xs) (x_max xs) (mpint_contents p) [2] /\
    x_p xs = Some p /\ x_g xs = None /\ bytes_ok p /\ is32 (x_min xs) /\ is32 (x_pref xs) /\ is32 (x_max xs) /\
    client_gex xc = Some (gex_bytes (Some q)) /\ server_gex l xs = Some (gex_bytes (Some q)).
Proof.
  intros l pt1 pt2 x0 xc xs Ht (H1 & H2 & H3 & xc1 & req & xs0 & grp & Hg & Q & R & A).
  assert (H3' : is32 (x_max x0)) by (unfold is32, W32; lia).
  pose proof (request_window x0 H1 H2 H3') as W. rewrite Q in W.
  destruct W as (mn & pf & mx & -> & -> & Emn & Emx & L1 & L2 & _). cbn [tl] in R.
  assert (I1 : is32 mn) by (unfold is32, W32; lia). assert (I2 : is32 pf) by (unfold is32, W32; lia).
  assert (I3 : is32 mx) by (unfold is32, W32; lia).
  pose proof (request_parse l mn pf mx [] xs0 I1 I2 I3 ltac:(constructor) ltac:(reflexivity)) as RP.
  rewrite !app_nil_r in RP. rewrite RP in R.
  pose proof (group_choice l mn pf mx xs0 Ht) as G. rewrite R in G.
  destruct G as (b & p & Hin & Hbest & -> & ->). cbn [tl] in A.
  destruct Ht as [_ Ht]. rewrite Forall_forall in Ht. destruct (Ht _ Hin) as (T1 & T2 & T3 & T4). cbn [fst snd] in *.
  destruct Hbest as [(_ & B1 & B2 & B3 & B4) _].
  destruct (lead_len p b T1 T2 (proj2 T4)) as [Ln1 Ln2].
  pose proof (num_contents_len true p) as NL. cbn [num_contents] in NL.
  assert (BM : bytes_ok (mpint_contents p)) by (apply mpint_contents_ok; assumption).
  assert (NT : no_top (mpint_contents p)).
  { pose proof (mpint_contents_canonical p) as C. destruct (mpint_contents p); [exact Logic.I|]. apply C. }
  rewrite group_parse in A.
  - cbv zeta in A. destruct (rc_eqb _ WS_SUCCESS) eqn:V.
    2: { apply rc_eqb_neq in V. apply pair_equal_spec in A. destruct A as [_ A]. contradiction. }
    apply pair_equal_spec in A. destruct A as [<- _].
    eexists. exists p. split; [apply (in_map snd _ _ Hin)|]. split; [reflexivity|].
    cbn [x_min x_pref x_max x_p x_g client_gex].
    split; [reflexivity|]. split; [exact Hg|]. split; [assumption|]. split; [assumption|]. split; [assumption|]. split; [assumption|].
    assert (PP : PutPadded (mpint_contents p) = str (mpint_contents p)).
    { rewrite PutPadded_string by (unfold is32, W32; lia). rewrite padded_received by exact NT.
      apply str_put. unfold is32, W32. lia. }
    assert (PM : PutMpint p = str (mpint_contents p)).
    { rewrite PutMpint_string. apply str_put. unfold is32, W32. lia. }
    unfold gex_bytes. cbn [q_min q_pref q_max q_p q_g].
    rewrite <- !be32_c32toa by assumption. split.
    + rewrite PP. reflexivity.
    + unfold server_gex, GetDHPrimeGroup. cbn [x_min x_pref x_max x_p x_g]. rewrite Hg, PM. reflexivity.
  - assumption.
  - repeat constructor.
  - exact NT.
  - reflexivity.
  - lia.
  - change (lenN [2]) with 1. unfold is32, W32. lia.
Qed.

(* Both ends hash the same bytes, and these are the RFC 4253 section 8 /
   RFC 4419 section 3 transcript of what was exchanged: whatever the versions,
   KEXINITs, host key, public values, for every kind of key exchange, provided
   each received what the other sent and both computed the same secret. *)
Theorem C44_same_transcript :
  forall l pt1 pt2 x0 xc xs vc vs ic is m hk sn sg e f (Kc : bytes -> bytes) Ks,
  table_ok l -> (m = MGex -> gex_run l pt1 pt2 x0 xc xs) ->
  small vc -> small vs -> small ic -> small is -> hk_bytes hk -> bytes_ok sn -> bytes_ok sg ->
  bytes_ok e -> lenN e < 3169 -> fst (SendKexDhInit m e) <> [] -> bytes_ok f ->
  (forall s, bytes_ok (Kc s) /\ small (Kc s)) -> bytes_ok Ks -> small Ks ->
  hk_len hk + lenN f + lenN sn + lenN sg + 100 < W32 ->
  (forall s, encodes (val_of (f_mpint m) f) s -> val_of (k_mpint m) (Kc s) = val_of (k_mpint m) Ks) ->
  let '(ec, init) := SendKexDhInit m e in
  exists es hs r t,
    DoKexDhInit (tl init) = Some es /\
    server_hash l (server_in vc vs ic is) m hk xs es f Ks = Some hs /\
    DoKexDhReply (client_in vc vs ic is) m xc ec Kc (tl (reply_msg m hk f sn sg)) = Some r /\
    y_hash r = hs /\ hs = transcript_bytes t /\
    y_key r = t_ks t /\ y_f r = t_f t /\ y_sig r = str sn ++ str sg /\ ec = t_e t /\ es = t_e t /\
    t_vc t = vc /\ t_vs t = vs /\ t_ic t = 20 :: ic /\ t_is t = 20 :: is /\ is_blob hk (t_ks t) /\
    encodes (val_of (e_mpint m) e) (t_e t) /\ encodes (val_of (f_mpint m) f) (t_f t) /\
    encodes (val_of (k_mpint m) Ks) (t_k t) /\
    match t_gex t with
    | None => m <> MGex
    | Some q => m = MGex /\ (q_min q, q_pref q, q_max q) = (x_min xs, x_pref xs, x_max xs) /\
        exists p, GetDHPrimeGroup l xs = Some (p, [2]) /\ encodes (VNum (be_value p)) (q_p q) /\
                  encodes (VNum 2) (q_g q)
    end.
Proof.
  intros l pt1 pt2 x0 xc xs vc vs ic is m hk sn sg e f Kc Ks Ht HG Sv1 Sv2 Si1 Si2 Hk Hsn Hsg He Le Ne Hf HKc HKs SKs HL HV.
  assert (Se : small e) by (unfold small, W32; lia).
  rewrite init_msg in * by assumption. cbn [fst tl] in *.
  set (ec := num_contents (e_mpint m) e) in *.
  pose proof (num_contents_len (e_mpint m) e) as Lec. fold ec in Lec.
  assert (Bec : bytes_ok ec) by (apply num_contents_ok; assumption).
  assert (Pec : 0 < lenN ec) by (destruct ec; [contradiction|rewrite lenN_cons; lia]).
  destruct (hostkey_blob hk Hk ltac:(unfold is32; lia)) as (blob & Eb & Ib & Bb & I32 & Lb).
  set (fc := num_contents (f_mpint m) f). set (kc := num_contents (k_mpint m) Ks).
  pose proof (num_contents_len (f_mpint m) f) as Lf. fold fc in Lf.
  pose proof (num_contents_len (k_mpint m) Ks) as Lk. fold kc in Lk.
  assert (Bf : bytes_ok fc) by (apply num_contents_ok; assumption).
  assert (Ef : PutNum (f_mpint m) f = str fc).
  { rewrite PutNum_string. apply str_put. fold fc. unfold is32. lia. }
  assert (Ek : PutNum (k_mpint m) Ks = str kc).
  { rewrite PutNum_string. apply str_put. fold kc. unfold is32, small in *. lia. }
  assert (Ekc : PutNum (k_mpint m) (Kc fc) = str kc).
  { rewrite <- Ek, !PutNum_string. f_equal. apply num_contents_val; [apply HKc|assumption|].
    apply HV. apply num_contents_encodes. assumption. }
  assert (GX : exists go, (match m with MGex => client_gex xc | _ => Some [] end) = Some (gex_bytes go) /\
                (match m with MGex => server_gex l xs | _ => Some [] end) = Some (gex_bytes go) /\
    match go with
    | None => m <> MGex
    | Some q => m = MGex /\ (q_min q, q_pref q, q_max q) = (x_min xs, x_pref xs, x_max xs) /\
        exists p, GetDHPrimeGroup l xs = Some (p, [2]) /\ encodes (VNum (be_value p)) (q_p q) /\
                  encodes (VNum 2) (q_g q)
    end).
  { destruct m; try (exists None; split; [reflexivity|]; split; [reflexivity|discriminate]).
    specialize (HG eq_refl). destruct (gex_run_hash _ _ _ _ _ _ Ht HG) as (q & p & _ & Eq & Ep & Eg & Bp & _ & _ & _ & C1 & C2).
    exists (Some q). split; [exact C1|]. split; [exact C2|]. split; [reflexivity|]. rewrite Eq. cbn [q_min q_pref q_max q_p q_g].
    split; [reflexivity|]. exists p. split.
    - unfold GetDHPrimeGroup. rewrite Ep, Eg. reflexivity.
    - split; [apply encodes_mpint; assumption|]. cbn. repeat split; try discriminate. repeat constructor. }
  destruct GX as (go & G1 & G2 & G3).
  set (t := mkTr vc vs (20 :: ic) (20 :: is) blob go ec fc kc).
  exists ec, (transcript_bytes t),
    (mkReply blob fc (str sn ++ str sg) (transcript_bytes t)), t.
  split; [apply init_parse; try assumption; lia|].
  split.
  { unfold server_hash. rewrite G2, hash_init_server, hostkey_same, Eb, Ef, Ek by assumption.
    unfold transcript_bytes, t. cbn [t_vc t_vs t_ic t_is t_ks t_gex t_e t_f t_k].
    change (c32toa (lenN ec) ++ ec) with (PutString ec). rewrite str_put by (unfold is32, W32; lia).
    rewrite <- !app_assoc. reflexivity. }
  split.
  { unfold reply_msg. cbn [app tl]. rewrite Eb, Ef.
    assert (ES : c32toa (8 + lenN sn + lenN sg) ++ (c32toa (lenN sn) ++ sn) ++ c32toa (lenN sg) ++ sg = str (str sn ++ str sg)).
    { change (c32toa (lenN sn) ++ sn) with (PutString sn). change (c32toa (lenN sg) ++ sg) with (PutString sg).
      rewrite !str_put by (unfold is32; lia). unfold str at 3. rewrite lenN_app, !lenN_str.
      rewrite be32_c32toa by (unfold is32; lia). f_equal. f_equal. lia. }
    rewrite ES. rewrite (reply_parse _ _ _ _ _ _ _ _ (gex_bytes go)).
    - rewrite hash_init_client, Ekc by assumption. rewrite str_put by (unfold is32, W32; lia).
      unfold transcript_bytes, t. cbn [t_vc t_vs t_ic t_is t_ks t_gex t_e t_f t_k]. rewrite <- !app_assoc. reflexivity.
    - assumption.
    - assumption.
    - apply Forall_app. split; apply str_ok; try assumption; unfold is32; lia.
    - rewrite lenN_app, !lenN_str. unfold is32. lia.
    - exact G1. }
  cbn [y_hash y_key y_f y_sig]. unfold t. cbn [t_vc t_vs t_ic t_is t_ks t_gex t_e t_f t_k].
  do 11 (split; [reflexivity|]). split; [exact Ib|].
  split; [apply num_contents_encodes; assumption|]. split; [apply num_contents_encodes; assumption|].
  split; [apply num_contents_encodes; assumption|exact G3].
Qed.
Print Assumptions C44_same_transcript.

(* An exchange of each kind that meets the hypotheses. *)
Example C44_case : forall m,
  let hk := HRsa [114;115;97] [1;0;1] [200;1;2;3] in
  let xs := fst (DoKexDhGexRequest builtin (be32 2048 ++ be32 3072 ++ be32 8192) gex0) in
  let xc := mkGex 2048 3072 8192 (Some (mpint_contents dhPrimeGroup16)) (Some [2]) in
  exists es hs r,
    DoKexDhInit (tl (snd (SendKexDhInit m [0;130;7]))) = Some es /\
    server_hash builtin (server_in [83;49] [83;50] [1] [2]) m hk xs es [0;0;200] [0;129;5] = Some hs /\
    DoKexDhReply (client_in [83;49] [83;50] [1] [2]) m xc (fst (SendKexDhInit m [0;130;7]))
      (fun _ => match m with MKem => [0;129;5] | _ => [129;5] end) (tl (reply_msg m hk [0;0;200] [115] [9])) = Some r /\
    y_hash r = hs.
Proof.
  intros m hk xs xc.
  assert (Q : forall Kc Ks, Kc = (fun _ : bytes => match m with MKem => [0;129;5] | _ => [129;5] end) -> Ks = [0;129;5] ->
     (forall s : bytes, bytes_ok (Kc s) /\ small (Kc s)) /\ bytes_ok Ks /\ small Ks /\
     (forall s, encodes (val_of (f_mpint m) [0;0;200]) s -> val_of (k_mpint m) (Kc s) = val_of (k_mpint m) Ks)).
  { intros Kc Ks -> ->. assert (bytes_ok [0;129;5]) by (repeat constructor). assert (bytes_ok [129;5]) by (repeat constructor).
    split; [|split; [assumption|split; [reflexivity|]]].
    - intros s. destruct m; split; try assumption; reflexivity.
    - intros s _. destruct m; reflexivity. }
  destruct (Q _ _ eq_refl eq_refl) as (Q1 & Q2 & Q3 & Q4).
  pose proof (C44_same_transcript builtin (fun _ => true) (fun _ => true) gex0 xc xs
    [83;49] [83;50] [1] [2] m hk [115] [9] [0;130;7] [0;0;200]
    (fun _ => match m with MKem => [0;129;5] | _ => [129;5] end) [0;129;5]) as T.
  destruct (SendKexDhInit m [0;130;7]) as [ec init] eqn:SI.
  destruct T as (es & hs & r & t & T1 & T2 & T3 & T4 & _); try assumption; try reflexivity.
  - exact C28_builtin_table.
  - intros _. split; [reflexivity|]. split; [reflexivity|]. split; [reflexivity|].
    exists gex0, (34 :: be32 2048 ++ be32 3072 ++ be32 8192), gex0.
    eexists. split; [reflexivity|]. split; [reflexivity|]. split; [reflexivity|]. vm_compute. reflexivity.
  - cbn. repeat split; repeat constructor.
  - repeat constructor.
  - repeat constructor.
  - repeat constructor.
  - destruct m; vm_compute in SI; injection SI as <- <-; discriminate.
  - repeat constructor.
  - exists es, hs, r. cbn [fst snd]. split; [exact T1|]. split; [exact T2|]. split; [exact T3|exact T4].
Qed.

(* The hash binds: if client and server hashed the same bytes then they agree
   on both versions and both KEXINITs, on the host key, on the group exchange,
   on both public values and on the secret, whatever either received from
   whoever sits between them. *)
Definition stored_ok (x : gex) : Prop :=
  is32 (x_min x) /\ is32 (x_pref x) /\ is32 (x_max x) /\
  (forall p, x_p x = Some p -> bytes_ok p /\ small p) /\ (forall g, x_g x = Some g -> bytes_ok g /\ small g).

Lemma padded_value : forall b, be_value ((if pad_of b =? 1 then [0] else []) ++ b) = be_value b.
Proof. intros b. rewrite be_value_app. destruct (pad_of b =? 1); reflexivity. Qed.

Lemma server_group_ok : forall l x p g, Forall (fun e => bytes_ok (snd e) /\ small (snd e)) l -> stored_ok x ->
  GetDHPrimeGroup l x = Some (p, g) -> (bytes_ok p /\ small p) /\ (bytes_ok g /\ small g).
Proof.
  intros l x p g Hl (_ & _ & _ & Sp & Sg) E. unfold GetDHPrimeGroup in E.
  assert (D : bytes_ok dhGenerator /\ small dhGenerator) by (split; [repeat constructor|reflexivity]).
  destruct (x_p x) as [p'|] eqn:Xp.
  -
    assert (E' : (p', match x_g x with Some g => g | None => dhGenerator end) = (p, g)) by congruence.
    apply pair_equal_spec in E'. destruct E' as [<- <-]. split; [apply Sp; reflexivity|].
    destruct (x_g x) as [g'|]; [apply Sg; reflexivity|exact D].
  - unfold SelectKexDhGexGroup in E. cbv zeta in E.
    match type of E with context [scan l ?a ?b ?c None] => destruct (scan l a b c None) as [[bb pp]|] eqn:S end; [|discriminate].
    assert (E' : (pp, dhGenerator) = (p, g)) by congruence. apply pair_equal_spec in E'. destruct E' as [<- <-].
    split; [|exact D].
    assert (G : forall l' a b c best, scan l' a b c best = Some (bb, pp) -> best = Some (bb, pp) \/ In (bb, pp) l').
    { clear. induction l' as [|h t IH]; intros a b c best Q; cbn [scan] in Q; [left; assumption|].
      destruct ((fst h <? a) || (c <? fst h)).
      - destruct (IH _ _ _ _ Q); [left; assumption|right; right; assumption].
      - destruct (b <=? fst h).
        + right. left. congruence.
        + destruct (IH _ _ _ _ Q) as [J|J]; [right; left; congruence|right; right; assumption]. }
    destruct (G _ _ _ _ _ S) as [J|J]; [discriminate|]. rewrite Forall_forall in Hl. apply (Hl _ J).
Qed.

Theorem C44_transcript_binds :
  forall l vc vs' ic is' vc' vs ic' is m hk xc xs ec es f (Kc : bytes -> bytes) Ks buf r hs,
  Forall (fun e => bytes_ok (snd e) /\ small (snd e)) l -> stored_ok xc -> stored_ok xs ->
  small vc -> small vs' -> small ic -> small is' -> small vc' -> small vs -> small ic' -> small is ->
  hk_bytes hk -> hk_len hk + 40 < W32 -> bytes_ok buf -> is32 (lenN buf) ->
  small ec -> small es -> bytes_ok f -> small f ->
  (forall s, bytes_ok (Kc s) /\ small (Kc s)) -> bytes_ok Ks -> small Ks ->
  DoKexDhReply (client_in vc vs' ic is') m xc ec Kc buf = Some r ->
  server_hash l (server_in vc' vs ic' is) m hk xs es f Ks = Some hs ->
  y_hash r = hs ->
  vc = vc' /\ vs' = vs /\ ic = ic' /\ is' = is /\ is_blob hk (y_key r) /\ ec = es /\
  encodes (val_of (f_mpint m) f) (y_f r) /\ val_of (k_mpint m) (Kc (y_f r)) = val_of (k_mpint m) Ks /\
  (m = MGex -> (x_min xc, x_pref xc, x_max xc) = (x_min xs, x_pref xs, x_max xs) /\
     exists p g p' g', x_p xc = Some p /\ x_g xc = Some g /\ GetDHPrimeGroup l xs = Some (p', g') /\
       be_value p = be_value p' /\ be_value g = be_value g').
Proof.
  intros l vc vs' ic is' vc' vs ic' is m hk xc xs ec es f Kc Ks buf r hs Hl Xc Xs S1 S2 S3 S4 S5 S6 S7 S8 Hk Lk Hb H32
    Sec Ses Bf Sf HKc BKs SKs R S E.
  destruct (reply_inv _ _ _ _ _ _ _ Hb H32 R) as (gx & rest & Eb & Gc & Yh).
  unfold server_hash in S.
  destruct (match m with MGex => server_gex l xs | _ => Some [] end) as [gs|] eqn:Gs; [|discriminate].
  apply some_bytes in S. rewrite Yh, <- S in E. clear Yh S.
  assert (LB : lenN (y_key r) + lenN (y_f r) < W32).
  { pose proof (f_equal lenN Eb) as L. rewrite !lenN_app, !lenN_str in L. unfold is32 in H32. lia. }
  rewrite hash_init_client, hash_init_server in E by assumption.
  rewrite hostkey_same in E. destruct (hostkey_blob hk Hk Lk) as (blob & Ebl & Ib & _ & I32 & _). rewrite Ebl in E.
  rewrite <- !app_assoc in E.
  assert (Sm : forall b, small b -> is32 (lenN b)) by (unfold small, is32; intros; lia).
  assert (Sm1 : forall a b, small b -> is32 (lenN (a :: b))) by (unfold small, is32; intros; rewrite lenN_cons; lia).
  apply str_split in E; [|apply Sm; assumption|apply Sm; assumption]. destruct E as [E1 E].
  apply str_split in E; [|apply Sm; assumption|apply Sm; assumption]. destruct E as [E2 E].
  apply str_split in E; [|apply Sm1; assumption|apply Sm1; assumption]. destruct E as [E3 E].
  apply str_split in E; [|apply Sm1; assumption|apply Sm1; assumption]. destruct E as [E4 E].
  apply str_split in E; [|unfold is32; lia|assumption]. destruct E as [E5 E].
  assert (E3' : ic = ic') by congruence. assert (E4' : is' = is) by congruence.
  (* the group exchange part *)
  assert (GG : gx = gs /\ PutString ec ++ str (y_f r) ++ PutNum (k_mpint m) (Kc (y_f r)) =
                          (c32toa (lenN es) ++ es) ++ PutNum (f_mpint m) f ++ PutNum (k_mpint m) Ks /\
    (m = MGex -> (x_min xc, x_pref xc, x_max xc) = (x_min xs, x_pref xs, x_max xs) /\
     exists p g p' g', x_p xc = Some p /\ x_g xc = Some g /\ GetDHPrimeGroup l xs = Some (p', g') /\
       be_value p = be_value p' /\ be_value g = be_value g')).
  { destruct m;
    try (assert (EE : gx = [] /\ gs = []) by (split; congruence); destruct EE as [-> ->];
         split; [reflexivity|]; split; [|discriminate]; cbn [app] in E; rewrite <- !app_assoc; exact E).
    unfold client_gex in Gc. destruct (x_p xc) as [p|] eqn:Xp; [|discriminate].
    destruct (x_g xc) as [g|] eqn:Xg; [|discriminate]. apply some_bytes in Gc.
    unfold server_gex in Gs. destruct (GetDHPrimeGroup l xs) as [[p' g']|] eqn:GP; [|discriminate].
    apply some_bytes in Gs. subst gx gs.
    destruct (server_group_ok _ _ _ _ Hl Xs GP) as ((Bp' & Sp') & (Bg' & Sg')).
    destruct Xc as (C1 & C2 & C3 & C4 & C5). destruct (C4 p Xp) as (Bp & Sp). destruct (C5 g Xg) as (Bg & Sg).
    destruct Xs as (D1 & D2 & D3 & _).
    assert (P1 : is32 (lenN p + 1)) by (unfold is32, small in *; lia).
    assert (P2 : is32 (lenN g + 1)) by (unfold is32, small in *; lia).
    pose proof (num_contents_len true p') as N1. pose proof (num_contents_len true g') as N2. cbn [num_contents] in *.
    rewrite !PutPadded_string, !PutMpint_string in E by assumption.
    assert (LPp : forall b, lenN ((if pad_of b =? 1 then [0] else []) ++ b) <= lenN b + 1).
    { intros b. rewrite lenN_app. destruct (pad_of b =? 1); [change (lenN [0]) with 1|change (lenN (@nil N)) with 0]; lia. }
    pose proof (LPp p) as LP1. pose proof (LPp g) as LP2.
    rewrite (str_put (_ ++ p)), (str_put (_ ++ g)), (str_put (mpint_contents p')), (str_put (mpint_contents g')) in E
      by (unfold is32, small in *; lia).
    rewrite !be32_c32toa in E by (assumption || apply Sm; assumption). rewrite <- !app_assoc in E.
    apply be32_split in E; [|assumption|assumption]. destruct E as [F1 E].
    apply be32_split in E; [|assumption|assumption]. destruct E as [F2 E].
    apply be32_split in E; [|assumption|assumption]. destruct E as [F3 E].
    apply str_split in E; [|unfold is32, small in *; lia|unfold is32, small in *; lia]. destruct E as [F4 E].
    apply str_split in E; [|unfold is32, small in *; lia|unfold is32, small in *; lia]. destruct E as [F5 E].
    split.
    { rewrite !PutPadded_string, !PutMpint_string, F1, F2, F3, F4, F5 by assumption. reflexivity. }
    split.
    { rewrite be32_c32toa by (apply Sm; assumption). rewrite <- !app_assoc, !PutNum_string. exact E. }
    intros _. rewrite F1, F2, F3. split; [reflexivity|]. exists p, g, p', g'.
    split; [reflexivity|]. split; [reflexivity|]. split; [reflexivity|]. split.
    - rewrite <- (padded_value p), F4. apply mpint_contents_value.
    - rewrite <- (padded_value g), F5. apply mpint_contents_value. }
  destruct GG as (_ & E' & GX). clear E.
  change (c32toa (lenN es) ++ es) with (PutString es) in E'. rewrite !str_put in E' by (apply Sm; assumption).
  apply str_split in E'; [|apply Sm; assumption|apply Sm; assumption]. destruct E' as [E6 E].
  rewrite !PutNum_string in E.
  pose proof (num_contents_len (f_mpint m) f) as N1. pose proof (num_contents_len (k_mpint m) Ks) as N2.
  pose proof (num_contents_len (k_mpint m) (Kc (y_f r))) as N3. destruct (HKc (y_f r)) as [BKc SKc].
  rewrite !str_put in E by (unfold is32, small in *; lia).
  apply str_split in E; [|unfold is32, small in *; lia|unfold is32, small in *; lia]. destruct E as [E7 E].
  apply str_inj in E; [|unfold is32, small in *; lia|unfold is32, small in *; lia].
  split; [assumption|]. split; [assumption|]. split; [assumption|]. split; [assumption|].
  split; [rewrite E5; assumption|]. split; [assumption|].
  split; [rewrite E7; apply num_contents_encodes; assumption|]. split; [|exact GX].
  destruct (k_mpint m); cbn [num_contents val_of] in *; [|congruence].
  rewrite <- (mpint_contents_value (Kc (y_f r))), E, mpint_contents_value. reflexivity.
Qed.
Print Assumptions C44_transcript_binds.

(* ---- C46 -------------------------------------------------------------- *)

(* Each key is the first bytes of the RFC 4253 7.2 stream over the secret as it
   was hashed, for every hash function, key size, secret. *)
Theorem C46_derivation : forall H d m K h sid x sz key,
  (forall t, lenN (H t) = d) -> 0 < d -> bytes_ok K -> small K ->
  GenerateKey H d x sz (kept_secret m K) h sid (k_mpint m) = Some key ->
  exists s, encodes (val_of (k_mpint m) K) s /\ derived H (str s) h sid x sz key.
Proof.
  intros H d m K h sid x sz key Hd Hd0 HK SK E. exists (num_contents (k_mpint m) K).
  split; [apply num_contents_encodes; assumption|]. rewrite <- k_field_put by assumption.
  apply (generate_key H d Hd Hd0). assumption.
Qed.
Print Assumptions C46_derivation.

(* It fails exactly on an empty input. *)
Theorem C46_derivation_fails : forall H d x sz k h sid pad, 0 < d ->
  (GenerateKey H d x sz k h sid pad = None <-> sz = 0 \/ k = [] \/ h = [] \/ sid = []).
Proof.
  intros H d x sz k h sid pad Hd. unfold GenerateKey.
  assert (L : forall b : bytes, (lenN b =? 0) = true <-> b = []).
  { intros b. rewrite N.eqb_eq. split; [apply lenN_0|intros ->; reflexivity]. }
  destruct ((sz =? 0) || (lenN k =? 0) || (lenN h =? 0) || (lenN sid =? 0) || (d =? 0)) eqn:E.
  - split; [intros _|reflexivity]. rewrite !orb_true_iff, !L, !N.eqb_eq in E. intuition lia.
  - rewrite !orb_false_iff in E. destruct E as ((((A1 & A2) & A3) & A4) & A5).
    split.
    + cbv zeta. destruct (sz / d =? 0); discriminate.
    + intros [-> | [-> | [-> | ->] ] ]; discriminate.
Qed.
Print Assumptions C46_derivation_fails.

(* Each end's sending keys are the other's receiving keys, and they are the
   keys 'A'/'C'/'E' and 'B'/'D'/'F' of RFC 4253 7.2. *)
Theorem C46_both_ends : forall H d m Kc Ks h sid zc zs oc pc os ps,
  (forall t, lenN (H t) = d) -> 0 < d -> bytes_ok Kc -> small Kc -> bytes_ok Ks -> small Ks ->
  val_of (k_mpint m) Kc = val_of (k_mpint m) Ks ->
  GenerateKeys H d false zc zs (kept_secret m Kc) h sid (k_mpint m) = Some (oc, pc) ->
  GenerateKeys H d true zs zc (kept_secret m Ks) h sid (k_mpint m) = Some (os, ps) ->
  oc = ps /\ pc = os /\
  exists s, encodes (val_of (k_mpint m) Kc) s /\
    derived H (str s) h sid 65 (z_iv zc) (d_iv oc) /\ derived H (str s) h sid 66 (z_iv zs) (d_iv os) /\
    derived H (str s) h sid 67 (z_enc zc) (d_enc oc) /\ derived H (str s) h sid 68 (z_enc zs) (d_enc os) /\
    derived H (str s) h sid 69 (z_mac zc) (d_mac oc) /\ derived H (str s) h sid 70 (z_mac zs) (d_mac os).
Proof.
  intros H d m Kc Ks h sid zc zs oc pc os ps Hd Hd0 BKc SKc BKs SKs EV Ec Es.
  set (s := num_contents (k_mpint m) Kc).
  assert (Fc : k_field (k_mpint m) (kept_secret m Kc) = str s) by (apply k_field_put; assumption).
  assert (Fs : k_field (k_mpint m) (kept_secret m Ks) = str s).
  { rewrite k_field_put by assumption. unfold s. f_equal. apply num_contents_val; try assumption. congruence. }
  assert (D : forall K, k_field (k_mpint m) (kept_secret m K) = str s -> forall x sz key,
     gk H d x sz (kept_secret m K) h sid (k_mpint m) = Some key -> derived H (str s) h sid x sz key).
  { intros K F x sz key E. unfold gk in E. destruct (N.ltb_spec 0 sz) as [L|L].
    - rewrite <- F. apply (generate_key H d Hd Hd0). assumption.
    - apply some_bytes in E. subst key. replace sz with 0 by lia. split; [reflexivity|]. intros n _. rewrite takeN_0. reflexivity. }
  pose proof (D Kc Fc) as Dc. pose proof (D Ks Fs) as Ds. clear D.
  unfold GenerateKeys in Ec, Es.
  destruct (gk H d 65 (z_iv zc) (kept_secret m Kc) h sid (k_mpint m)) as [a|] eqn:Ga; [|discriminate].
  destruct (gk H d 66 (z_iv zs) (kept_secret m Kc) h sid (k_mpint m)) as [b|] eqn:Gb; [|discriminate].
  destruct (gk H d 67 (z_enc zc) (kept_secret m Kc) h sid (k_mpint m)) as [c|] eqn:Gc; [|discriminate].
  destruct (gk H d 68 (z_enc zs) (kept_secret m Kc) h sid (k_mpint m)) as [e|] eqn:Ge; [|discriminate].
  destruct (gk H d 69 (z_mac zc) (kept_secret m Kc) h sid (k_mpint m)) as [f|] eqn:Gf; [|discriminate].
  destruct (gk H d 70 (z_mac zs) (kept_secret m Kc) h sid (k_mpint m)) as [g|] eqn:Gg; [|discriminate].
  destruct (gk H d 65 (z_iv zc) (kept_secret m Ks) h sid (k_mpint m)) as [a'|] eqn:Ga'; [|discriminate].
  destruct (gk H d 66 (z_iv zs) (kept_secret m Ks) h sid (k_mpint m)) as [b'|] eqn:Gb'; [|discriminate].
  destruct (gk H d 67 (z_enc zc) (kept_secret m Ks) h sid (k_mpint m)) as [c'|] eqn:Gc'; [|discriminate].
  destruct (gk H d 68 (z_enc zs) (kept_secret m Ks) h sid (k_mpint m)) as [e'|] eqn:Ge'; [|discriminate].
  destruct (gk H d 69 (z_mac zc) (kept_secret m Ks) h sid (k_mpint m)) as [f'|] eqn:Gf'; [|discriminate].
  destruct (gk H d 70 (z_mac zs) (kept_secret m Ks) h sid (k_mpint m)) as [g'|] eqn:Gg'; [|discriminate].
  assert (U : forall x sz p q, gk H d x sz (kept_secret m Kc) h sid (k_mpint m) = Some p ->
     gk H d x sz (kept_secret m Ks) h sid (k_mpint m) = Some q -> p = q).
  { intros x sz p q P Q. apply (derived_unique H d Hd Hd0 (str s) h sid x sz); [apply Dc|apply Ds]; assumption. }
  pose proof (U _ _ _ _ Ga Ga') as ->. pose proof (U _ _ _ _ Gb Gb') as ->. pose proof (U _ _ _ _ Gc Gc') as ->.
  pose proof (U _ _ _ _ Ge Ge') as ->. pose proof (U _ _ _ _ Gf Gf') as ->. pose proof (U _ _ _ _ Gg Gg') as ->.
  injection Ec as <- <-. injection Es as <- <-. split; [reflexivity|]. split; [reflexivity|].
  exists s. split; [apply num_contents_encodes; assumption|]. cbn [d_iv d_enc d_mac].
  split; [apply Ds; assumption|]. split; [apply Ds; assumption|]. split; [apply Ds; assumption|].
  split; [apply Ds; assumption|]. split; [apply Ds; assumption|]. apply Ds; assumption.
Qed.
Print Assumptions C46_both_ends.

(* Concrete: a "hash" of three bytes, keys of 0, 4 and 9 bytes, a secret with
   the top bit set. *)
Definition toyH (t : bytes) : bytes := [lenN t mod 256; fold_left N.add t 7 mod 256; 1].
Example C46_case :
  exists oc pc, GenerateKeys toyH 3 false (mkSizes 4 9 0) (mkSizes 3 2 1) (kept_secret MDh [0;0;200;1]) [5] [6] (k_mpint MDh)
     = Some (oc, pc) /\
  GenerateKeys toyH 3 true (mkSizes 3 2 1) (mkSizes 4 9 0) (kept_secret MDh [200;1]) [5] [6] (k_mpint MDh) = Some (pc, oc)
  /\ lenN (d_enc oc) = 9 /\ d_mac oc = [].
Proof. vm_compute. eexists. eexists. repeat split. Qed.
Example C46_case_len : forall t, lenN (toyH t) = 3.
Proof. reflexivity. Qed.
