(* AuthKeysProps.v - C09 and C87 for every kind of key: RSA, ECDSA, Ed25519
   and ML-DSA. *)
From Verif Require Import Base WireModel WireSpec WireProofs NameTable NegoModel NegoSpec NegoProofs AuthModel AuthSpec AuthProofs
  AuthStep AuthProps PathModel ClientAuthModel ClientAuthSpec ClientAuthProofs ClientAuthProofs2 ClientAuthProofs3 ClientAuthProofs4
  ClientAuthProps AuthKeysSpec AuthKeys.
From Coq Require Import List NArith Lia Bool String.
Import ListNotations.
Open Scope N_scope.
Local Notation "a ++ b" := (@app _ a b) : list_scope.

(* C09, the other direction, for every algorithm: if it is enabled, the key
   blob and the signature are of the form the RFCs give, the callback accepts
   the key and the signature over the session identifier and the request
   verifies, the user is let in. *)
Theorem C09_key_accepted : forall c x max sid h s m an user flag algo blob sig body msg,
  reached c x max sid h s -> wf_msg (MRequest m) -> key_request m user flag algo blob sig body [] ->
  signed_message sid body [] msg -> well_signed x algo blob sig msg ->
  In (NameToId algo) (c_algos c) -> c_cb c = true -> c_rcb c = false -> accepting an ->
  user <> [] -> a_user s = None \/ a_user s = Some user ->
  countP is_failure (a_log s) + countP is_prompt (a_log s) < max ->
  exists s' j, auth_step c x (MRequest m) an s = HR s' WS_SUCCESS j /\ a_client s' = CLIENT_USERAUTH_DONE /\
    a_user s' = Some user /\
    a_log s' = a_log s ++ [ECallback user (CrKey flag algo blob sig) CbSuccess; EGranted user (CrKey flag algo blob sig)].
Proof.
  intros c x max sid h s m an user flag algo blob sig body msg R Hw
    (hd & ab & sf & Eb & Em & Hh & Hf & Hab & Hsf) Hmsg Hv Hal Hcb Hrcb (n & t & Ha) Hne Hu Hroom.
  rewrite app_nil_r in Em.
  assert (Em' : m = hd ++ (flag :: ab ++ sf)) by (rewrite Em, Eb, <- !app_assoc; reflexivity).
  destruct (head_fwd m hd user _ _ Hw Em' Hh) as (i & Hz & Ei & Di & Hi & Li & HD).
  pose proof (room _ _ _ _ _ _ R Hroom) as Hr. pose proof Hw as (Hm & H3). cbn [msg_bytes] in Hm, H3.
  assert (Hz' : lenN user =? 0 = false).
  { apply N.eqb_neq. unfold lenN. destruct user; [contradiction|cbn; lia]. }
  destruct (bool_fwd m i flag _ H3 Li Di) as (G1 & D1 & L1).
  destruct Hab as (ps & Eab & F). inversion F as [|f1 ? ps1 ? F1 K1]; subst ps. inversion K1 as [|f2 ? ps2 ? F2 K2]; subst ps1.
  inversion K2; subst ps2. clear F K1 K2. cbn [List.concat] in Eab. rewrite app_nil_r in Eab.
  rewrite Eab, <- app_assoc in D1. subst i.
  destruct (read_fwd m _ f1 _ _ Hm H3 D1 L1 F1) as (R1 & D2 & L2).
  destruct (read_fwd m _ f2 _ _ Hm H3 D2 L2 F2) as (R2 & D3 & L3).
  assert (D3' : dropN (lenN hd + 1 + lenN f1 + lenN f2) m = sf ++ []) by (rewrite app_nil_r; exact D3).
  destruct (read_fwd m _ sf _ _ Hm H3 D3' L3 Hsf) as (R3 & D4 & L4).
  set (k := lenN hd + 1 + lenN f1 + lenN f2 + lenN sf) in *.
  assert (Gpk : get_pk m (lenN m) (lenN hd) = POk (flag, algo, blob, sig) k).
  { unfold get_pk. rewrite G1. cbn [pbind]. rewrite R1. cbn [pbind]. rewrite R2. cbn [pbind].
    destruct (N.eqb_spec flag 0); [contradiction|]. rewrite R3. reflexivity. }
  pose proof (get_pk_inv m Hm H3 (lenN hd) Hi) as P. rewrite Gpk in P.
  destruct P as (_ & _ & _ & B1 & B2 & B3 & B4 & _).
  destruct (check_fwd x algo blob sig msg B1 B2 B3 B4 flag Hf Hv) as (k4 & Hck).
  pose proof (known_algo x algo blob sig msg Hv) as Hkn.
  pose proof R as (_ & Hsid & _).
  assert (Lsf : lenN sf = 4 + lenN sig) by (destruct Hsf as (l & -> & Ll & _); rewrite lenN_app; lia).
  assert (Lm : lenN m = lenN body + lenN sf) by (rewrite Em, lenN_app; reflexivity).
  assert (Hsd : signed_data sid m (lenN m) sig = Some msg).
  { unfold signed_data. rewrite (sub32_small (lenN m)) by (unfold is32 in *; lia).
    rewrite sub32_small by (unfold is32, W32 in *; lia).
    replace (lenN m - lenN sig - 4) with (lenN body) by lia.
    rewrite rdn_some by lia. unfold slice. rewrite dropN_0, Em, takeN_app_exact by reflexivity.
    destruct Hmsg as (ss & (l & -> & Ll & V & Bl) & ->). rewrite app_nil_r. unfold PutString.
    rewrite <- V, c32toa_be_value by assumption. reflexivity. }
  destruct (VerifyUser_fwd x algo blob sig msg B1 B2 B3 B4 Hv) as (kv & Hve).
  assert (Hid : (NameToId algo =? ID_UNKNOWN) || (MatchIdLists Server [NameToId algo] (c_algos c) =? ID_UNKNOWN) = false).
  { cbn [MatchIdLists match_ids].
    replace (existsb (N.eqb (NameToId algo)) (c_algos c)) with true.
    - destruct (N.eqb_spec (NameToId algo) ID_UNKNOWN); [contradiction|reflexivity].
    - symmetry. apply existsb_exists. exists (NameToId algo). split; [assumption|apply N.eqb_refl]. }
  assert (Fin : forall s0, a_ans s0 = an -> a_sid s0 = sid -> exists s' j,
     DoUserAuthRequestPublicKey c x user m (lenN m) (lenN hd) s0 = HR s' WS_SUCCESS j /\
     a_client s' = CLIENT_USERAUTH_DONE /\ a_user s' = a_user s0 /\
     a_log s' = a_log s0 ++ [ECallback user (CrKey flag algo blob sig) CbSuccess; EGranted user (CrKey flag algo blob sig)]).
  { intros s0 Hans Hs0. unfold DoUserAuthRequestPublicKey. rewrite Hz, Gpk, Hck. cbv zeta. rewrite Hid, Hcb. cbn [negb].
    unfold callback. rewrite Hans, Ha. cbn [fst].
    destruct (N.eqb_spec flag 0); [contradiction|]. cbn [a_sid log set_ans]. rewrite Hs0, Hsd, Hve, Hrcb. cbn [negb].
    eexists; eexists. split; [reflexivity|]. cbn. split; [reflexivity|]. split; [reflexivity|]. rewrite <- app_assoc. reflexivity. }
  destruct (reached_after _ _ _ _ _ _ R) as (r0 & A0 & _). destruct (after_inv _ _ _ _ _ _ _ A0) as (I0 & _).
  assert (Es : a_sid s = sid) by apply I0.
  unfold auth_step. rewrite HD. cbn [a_user set_ans].
  destruct Hu as [Hu|Hu]; rewrite Hu.
  - rewrite Hz'. destruct (dispatch_fwd c x user (ascii "publickey") m (lenN m) (lenN hd) (set_user user (set_ans an s)) Hr) as (s1 & S1 & S2 & S3 & S4 & S5).
    rewrite (S5 ID_USERAUTH_PUBLICKEY) by (vm_compute; reflexivity).
    change (ID_USERAUTH_PUBLICKEY =? ID_USERAUTH_PASSWORD) with false. change (ID_USERAUTH_PUBLICKEY =? ID_USERAUTH_KEYBOARD) with false.
    change (ID_USERAUTH_PUBLICKEY =? ID_USERAUTH_PUBLICKEY) with true. rewrite andb_false_r. cbv iota.
    destruct (Fin s1 S3 ltac:(rewrite S1; exact Es)) as (s' & j & E1 & E2 & E3 & E4). exists s', j. rewrite E3, E4, S2, S4. auto.
  - rewrite bytes_eqb_refl.
    destruct (dispatch_fwd c x user (ascii "publickey") m (lenN m) (lenN hd) (set_ans an s) Hr) as (s1 & S1 & S2 & S3 & S4 & S5).
    rewrite (S5 ID_USERAUTH_PUBLICKEY) by (vm_compute; reflexivity).
    change (ID_USERAUTH_PUBLICKEY =? ID_USERAUTH_PASSWORD) with false. change (ID_USERAUTH_PUBLICKEY =? ID_USERAUTH_KEYBOARD) with false.
    change (ID_USERAUTH_PUBLICKEY =? ID_USERAUTH_PUBLICKEY) with true. rewrite andb_false_r. cbv iota.
    destruct (Fin s1 S3 ltac:(rewrite S1; exact Es)) as (s' & j & E1 & E2 & E3 & E4). exists s', j. rewrite E3, E4, S2, S4. cbn [a_user set_ans]. auto.
Qed.

(* the client with a key: the request goes out *)
Lemma send_key : forall c sg an t s k ns algo,
  small_signer sg -> small (k_user s) -> small (k_sid s) -> small (pk_blob k) ->
  cc_kb c && m_keyboard t = false -> cc_cb c = true -> m_password t = false \/ an_password an = None -> m_key t = true ->
  an_key an = Some k -> k_pkdone s = false -> k_peer s = decoded ns ->
  usable sg algo (pk_priv k) -> first_fit ns (pk_type k) algo ->
  (forall name h, In (name, h) rsa_algos -> algo = ascii name -> pk_type k = ascii "ssh-rsa") ->
  exists s' pre m est msg body sig, SendUserAuthRequest c sg an t s = (s', an_sent an) /\
    k_log s' = k_log s ++ pre ++ [CvKey (Some k); CvSign (pk_priv k) msg; CvSend (50 :: m) est] /\
    (pre = [] \/ pre = [CvPassword None]) /\
    key_request m (k_user s) 1 algo (pk_blob k) sig body [] /\ signed_message (k_sid s) body [] msg /\
    signs sg algo (pk_priv k) msg sig.
Proof.
  intros c sg an t s k ns algo Hsg Hu Hsid Hbl K1 K2 K3 K4 K5 K6 K7 K8 K9 K10.
  unfold SendUserAuthRequest, choose. rewrite K1, K2. cbn [negb].
  assert (GO : forall pre s0, k_log s0 = k_log s ++ pre -> k_user s0 = k_user s -> k_sid s0 = k_sid s -> k_peer s0 = k_peer s -> k_pkdone s0 = false ->
    (pre = [] \/ pre = [CvPassword None]) ->
    exists s' m est msg body sig,
     (match (clog (CvKey (Some k)) s0, Some (ChKey k)) with
      | (s, None) => (s, WS_FATAL_ERROR)
      | (s, Some ch) =>
      let id := choice_id ch in
      let payloadSz := add32 (1 + 4 * 3) (add32 (lenN (k_user s)) (lenN name_connection + lenN (IdToName id))) in
      let start := request_start (k_user s) id in
      match ch with
      | ChNone => send_payload an start payloadSz s
      | ChPassword pw =>
          match PreparePassword payloadSz pw with
          | RErr e => (s, e)
          | ROk est => send_payload an (start ++ BuildPassword pw) est s
          end
      | ChKeyboard =>
          let s := set_tries (add32 (k_tries s) 1 mod 256) s in
          send_payload an (start ++ c32toa 0 ++ c32toa 0) payloadSz s
      | ChKey k =>
          if k_pkdone s then (s, WS_INVALID_ALGO_ID)
          else
            let s := set_pkdone true s in
            match PrepareKey sg (k_peer s) payloadSz k with
            | RErr e => (s, e)
            | ROk ks =>
                let '(r, ev) := BuildKey sg (k_sid s) start k ks in
                let s := fold_left (fun s e => clog e s) ev s in
                match r with
                | RErr e => (s, e)
                | ROk m => send_payload an m (ks_est ks) s
                end
            end
      end
     end) = (s', an_sent an) /\
    k_log s' = k_log s ++ pre ++ [CvKey (Some k); CvSign (pk_priv k) msg; CvSend (50 :: m) est] /\
    (pre = [] \/ pre = [CvPassword None]) /\
    key_request m (k_user s) 1 algo (pk_blob k) sig body [] /\ signed_message (k_sid s) body [] msg /\
    signs sg algo (pk_priv k) msg sig).
  { intros pre s0 L0 U0 S0 P0 D0 HP. cbn [choice_id]. cbv zeta.
    change (k_pkdone (clog (CvKey (Some k)) s0)) with (k_pkdone s0). rewrite D0.
    change (k_peer (set_pkdone true (clog (CvKey (Some k)) s0))) with (k_peer s0).
    change (k_user (clog (CvKey (Some k)) s0)) with (k_user s0).
    change (k_sid (set_pkdone true (clog (CvKey (Some k)) s0))) with (k_sid s0).
    rewrite U0, S0, P0, K7.
    set (psz := add32 (1 + 4 * 3) _).
    destruct (prepare_fwd sg ns psz k algo K8 K9 K10) as (ks & Ep & Ei & Bs). rewrite Ep.
    destruct (prepare_key _ _ _ _ _ Ep) as (name & kd & nn & In1 & Ek & Eid & FF & Ra & _ & _ & _ & Sz).
    pose proof (fit_uniq _ _ _ _ FF K9) as En. rewrite <- En.
    assert (Nr : kd = KRsa -> name <> "ssh-rsa"%string) by (intros ->; apply Sz).
    destruct (start_spec (k_user s) ID_USERAUTH_PUBLICKEY "publickey"%string Hu) as (hd & E1 & E2 & E3 & E4);
      [vm_compute; reflexivity|apply ascii_bytes|vm_compute; reflexivity|].
    destruct (BuildKey sg (k_sid s) (request_start (k_user s) ID_USERAUTH_PUBLICKEY) k ks) as [rr ev] eqn:Eb.
    destruct (build_key sg (k_user s) (k_sid s) k ks _ kd rr ev _ hd Hsg Hsid Hbl In1 Ek Eid Nr Ra E1 E2 Eb) as (ab & msg & B1 & B2 & -> & B4).
    cbn [fold_left]. destruct rr as [m|e].
    - destruct B4 as (m' & sig & -> & B5 & B6).
      eexists _, m', (ks_est ks), msg, (hd ++ [1] ++ ab), sig. split; [reflexivity|].
      split; [cbn [clog set_pkdone k_log]; rewrite L0, <- !app_assoc; reflexivity|].
      split; [exact HP|]. split; [exact B5|]. split; [exact B2|exact B6].
    - exfalso. unfold BuildKey in Eb. apply pfst in Eb.
      match type of Eb with context [BuildSignature sg k ks ?mm] => destruct (Bs mm) as (g & Eg); rewrite Eg in Eb end. discriminate. }
  rewrite K4, K5.
  destruct (m_password t).
  - destruct K3 as [K3|K3]; [discriminate|]. rewrite K3.
    destruct (GO [CvPassword None] (clog (CvPassword None) s)) as (s' & m & est & msg & body & sig & G); try reflexivity; [exact K6|right; reflexivity|].
    exists s', [CvPassword None], m, est, msg, body, sig. exact G.
  - destruct (GO [] s) as (s' & m & est & msg & body & sig & G); try reflexivity; [rewrite app_nil_r; reflexivity|exact K6|left; reflexivity|].
    exists s', [], m, est, msg, body, sig. exact G.
Qed.

(* C87 for every kind of key: the server lists "publickey" and announced
   algorithms, [algo] is the first of them that goes with the key's type, the
   application gives the key (having no password to give) and none was given
   before. Then the client signs and sends one request, and a server that has
   the algorithm enabled and whose callback accepts the key lets the user in.
   The law of the signature scheme is [key_pair]. *)
Theorem C87_key : forall c sg user sid h s b ms an k algo l,
  small_signer sg -> small user -> small sid -> creached c sg user sid h s ->
  wf_op (CMsg (SFailure b)) -> small_answers an ->
  failure_lists b ms -> lenN b <= 4096 -> lenN ms <= 3 ->
  In (ascii "publickey") ms -> (~ In (ascii "keyboard-interactive") ms \/ cc_kb c = false) ->
  cc_cb c = true -> (an_password an = None \/ ~ In (ascii "password") ms) -> an_key an = Some k ->
  (forall k', ~ In (CvKey (Some k')) (k_log s)) ->
  announced h (Some l) -> first_fit (names_of l) (pk_type k) algo -> In (NameToId algo) (cc_own c) -> ~ In ID_UNKNOWN (cc_own c) ->
  (forall name h, In (name, h) rsa_algos -> algo = ascii name -> pk_type k = ascii "ssh-rsa") ->
  usable sg algo (pk_priv k) ->
  exists s' j pre msg m est, cop_step c sg (CMsg (SFailure b)) an s = CR s' (an_sent an) j /\
    k_log s' = k_log s ++ pre ++ [CvKey (Some k); CvSign (pk_priv k) msg; CvSend (50 :: m) est] /\
    forall cfg x max hist a sa, reached cfg x max sid hist sa ->
      key_pair x sg algo (pk_priv k) (pk_blob k) ->
      In (NameToId algo) (c_algos cfg) -> c_rcb cfg = false ->
      c_cb cfg = true -> accepting a -> user <> [] -> a_user sa = None \/ a_user sa = Some user ->
      countP is_failure (a_log sa) + countP is_prompt (a_log sa) < max ->
      exists sa' i sig, auth_step cfg x (MRequest m) a sa = HR sa' WS_SUCCESS i /\ a_client sa' = CLIENT_USERAUTH_DONE /\
        a_user sa' = Some user /\
        a_log sa' = a_log sa ++ [ECallback user (CrKey 1 algo (pk_blob k) sig) CbSuccess; EGranted user (CrKey 1 algo (pk_blob k) sig)].
Proof.
  intros c sg user sid h s b ms an k algo l Hsg Hu Hsid R (Hb & Hl) Han Hf Hb2 Hn Hin Hkb Hcb Hpw Hk Hno Hann Hfit Hown Hunk Ht Hus.
  cbn [cop_bytes] in *.
  assert (Hal : In algo (names_of l)) by (destruct Hfit as (b0 & a0 & -> & _); apply in_app_iff; right; left; reflexivity).
  assert (Hkn : knownb algo = true).
  { destruct (usable_row _ _ _ Hus) as (nm0 & kd0 & Row & Ea & _). destruct (row_facts _ _ Row) as (_ & _ & R3 & _).
    unfold knownb. rewrite Ea. destruct (N.eqb_spec (NameToId (ascii nm0)) ID_UNKNOWN); [contradiction|reflexivity]. }
  destruct (reached_cinv _ _ _ _ _ _ Hsg Hu Hsid R) as (Eu & Es & (v & Hv & Hp) & Hc).
  rewrite (announced_fun _ _ Hv _ Hann) in Hp. clear Hv v.
  assert (Hpd : k_pkdone s = false).
  { destruct (k_pkdone s) eqn:E; [|reflexivity]. exfalso. cbn [b2n] in Hc. destruct Hc as (_ & Hc).
    unfold countP in Hc. destruct (filter is_given (k_log s)) as [|e fl] eqn:Ef; [cbn in Hc; lia|].
    assert (He : In e (filter is_given (k_log s))) by (rewrite Ef; left; reflexivity).
    apply filter_In in He. destruct He as (He1 & He2). destruct e as [| [k'|] | | |]; try discriminate. apply (Hno k'). exact He1. }
  assert (Hpeer : k_peer s = decoded (names_of l)).
  { rewrite Hp. unfold peer_of. destruct (N.eqb_spec (MatchIdLists Client (decoded (names_of l)) (cc_own c)) ID_UNKNOWN) as [E|E]; [|reflexivity].
    exfalso. unfold MatchIdLists in E. destruct (match_ids_spec (cc_own c) (decoded (names_of l))) as [(b0 & a0 & E0 & I1 & _)|(Hno2 & _)].
    - apply Hunk. rewrite E in E0. rewrite E0. apply in_app_iff. right. left. reflexivity.
    - apply (Hno2 (NameToId algo) Hown). apply decoded_has; [exact Hal|exact Hkn]. }
  destruct (failure_fwd c sg an b s ms Hb Hb2 Hf Hn) as (ids & i & Ea & Ed).
  cbn [cop_step client_step]. rewrite Ed. cbv zeta. clear Ed.
  assert (Hpk : existsb (N.eqb ID_USERAUTH_PUBLICKEY) ids = true).
  { apply (has_id c ms ids "publickey"%string _ Ea Hin); [vm_compute; reflexivity|vm_compute; reflexivity|left; vm_compute; discriminate]. }
  assert (Hs : existsb (N.eqb ID_USERAUTH_PUBLICKEY) (supportedAuth c) = true) by reflexivity.
  set (t := mkMethods _ _ _).
  assert (T1 : m_key t = true) by (unfold t; cbn [m_key]; rewrite Hpk, Hs; reflexivity).
  assert (T2 : cc_kb c && m_keyboard t = false).
  { unfold t; cbn [m_keyboard]. destruct Hkb as [Hkb|Hkb]; [|rewrite Hkb; reflexivity].
    destruct (existsb (N.eqb ID_USERAUTH_KEYBOARD) ids) eqn:Ek; [|cbn; apply andb_false_r].
    exfalso. apply Hkb. eapply (listed c ms ids "keyboard-interactive"%string); [exact Ea|exact Ek|vm_compute; reflexivity|vm_compute; reflexivity]. }
  assert (T3 : m_password t = false \/ an_password an = None).
  { destruct Hpw as [Hpw|Hpw]; [right; exact Hpw|left]. unfold t; cbn [m_password].
    destruct (existsb (N.eqb ID_USERAUTH_PASSWORD) ids) eqn:Ek; [|reflexivity].
    exfalso. apply Hpw. eapply (listed c ms ids "password"%string); [exact Ea|exact Ek|vm_compute; reflexivity|vm_compute; reflexivity]. }
  rewrite T1, orb_true_r. cbn [orb negb].
  assert (Kb : small (pk_blob k)) by (destruct Han as (_ & A2 & _); exact (proj2 (A2 k Hk))).
  destruct (send_key c sg an t s k (names_of l) algo Hsg) as (s' & pre & m & est & msg & body & sig & F1 & F2 & F3 & F4 & F5 & F6);
    try assumption; [rewrite Eu; exact Hu|rewrite Es; exact Hsid|].
  rewrite F1. exists s', i, pre, msg, m, est. split; [reflexivity|]. split; [exact F2|].
  intros cfg x max hist a sa RS Law C0 C0' C1 C2 C3 C4 C5. rewrite Eu in F4. rewrite Es in F5.
  destruct (C09_key_accepted cfg x max sid hist sa m a user 1 algo (pk_blob k) sig body msg) as (sa' & i' & X); try assumption.
  - destruct (signs_small _ _ _ _ _ Hsg F6) as (Ok & La & Sig1 & Sig2).
    destruct F4 as (hd & ab & sf & Q1 & Q2 & Q3 & Q4 & Q5 & Q6).
    destruct (strs_ok2 _ _ _ Q5 Ok (proj1 Kb)) as (Ab1 & Ab2). destruct (str_ok _ _ Q6 Sig1) as (Sf1 & Sf2).
    assert (Hd : bytes_ok hd /\ lenN hd = 12 + lenN user + 14 + 9).
    { destruct Q3 as (ps & -> & F). inversion F as [|f1 ? ps1 ? P1 P2]; subst. inversion P2 as [|f2 ? ps2 ? P3 P4]; subst. inversion P4 as [|f3 ? ps3 ? P5 P6]; subst. inversion P6; subst.
      cbn [List.concat]. rewrite app_nil_r.
      destruct (str_ok _ _ P1 (proj1 Hu)) as (X1 & X2).
      destruct (str_ok _ _ P3) as (X3 & X4); [apply ascii_bytes|].
      destruct (str_ok _ _ P5) as (X5 & X6); [apply ascii_bytes|].
      split; [apply bytes_ok_app; split; [exact X1|apply bytes_ok_app; split; assumption]|].
      rewrite !lenN_app, X2, X4, X6. change (lenN (ascii "ssh-connection")) with 14. change (lenN (ascii "publickey")) with 9. lia. }
    destruct Hd as (Hd1 & Hd2). destruct Hu as (_ & Hu2). destruct Kb as (_ & Kb2). change (2 ^ 28) with 268435456 in *.
    unfold small in *. rewrite Q2, Q1, app_nil_r.
    split; cbn [msg_bytes].
    + apply bytes_ok_app. split; [|exact Sf1]. apply bytes_ok_app. split; [exact Hd1|]. apply bytes_ok_app. split; [repeat constructor|exact Ab1].
    + rewrite !lenN_app, Hd2, Sf2, Ab2. change (lenN [1]) with 1. unfold is32, W32. lia.
  - exact (pair_signed _ _ _ _ _ _ _ Law F6).
  - exists sa', i', sig. exact X.
Qed.

(* ---- keys that meet the hypotheses -------------------------------------- *)
(* signatures that depend on the message, of a fixed size *)
Definition kd_sg : signer :=
  mkSigner (fun _ => Some 256) (fun p _ m => Some (repeat (lenN m mod 256) 256))
           (fun _ => Some 72) (fun p _ m => Some ([200; lenN m mod 256], [7; 1]))
           (fun _ => None) (fun _ _ => None) (fun _ _ => None) (fun _ _ _ => None).
Definition kd_x : crypto :=
  mkCrypto (fun _ _ _ m g => bytes_eqb g (repeat (lenN m mod 256) 256))
           (fun _ _ _ m r s => (be_value r =? be_value [200; lenN m mod 256]) && (be_value s =? be_value [7; 1]))
           (fun _ _ _ => false) (fun _ _ _ _ => false).
Definition kd_n : bytes := 0 :: 128 :: repeat 0 255.
Definition kd_rsa : pubkey := mkPk (ascii "ssh-rsa") (demo_str (ascii "ssh-rsa") ++ demo_str [1; 0; 1] ++ demo_str kd_n) [5].
Definition kd_ecc : pubkey :=
  mkPk (ascii "ecdsa-sha2-nistp384") (demo_str (ascii "ecdsa-sha2-nistp384") ++ demo_str (ascii "nistp384") ++ demo_str [4; 4]) [6].
Definition kd_algos : string := "ssh-ed25519,rsa-sha2-256,rsa-sha2-512,ssh-rsa,ecdsa-sha2-nistp384".
Definition kd_cfg : ccfg := mkCcfg true true [ID_RSA_SHA2_256; ID_RSA_SHA2_512; ID_ECDSA_SHA2_NISTP384].
Definition kd_ext : bytes := c32toa 1 ++ demo_str (ascii "server-sig-algs") ++ demo_str (ascii kd_algos).
Definition kd_an (k : pubkey) : canswers := mkCans None (Some k) None WS_SUCCESS.
Definition kd_before : list (cop * canswers) := [(CMsg (SExtInfo kd_ext), demo_an); (CFirst, demo_an)].

Ltac st := unfold demo_str; apply put_str; vm_compute; reflexivity.
Lemma kd_rsa_strs : is_strs (pk_blob kd_rsa) [ascii "ssh-rsa"; [1; 0; 1]; kd_n].
Proof. cbn [pk_blob kd_rsa]. apply strs_cons; [st|]. apply strs_cons; [st|]. apply strs_one. st. Qed.
Lemma kd_ecc_strs : is_strs (pk_blob kd_ecc) [ascii "ecdsa-sha2-nistp384"; ascii "nistp384"; [4; 4]].
Proof. cbn [pk_blob kd_ecc]. apply strs_cons; [st|]. apply strs_cons; [st|]. apply strs_one. st. Qed.

Example C87_key_met : exists s, creached kd_cfg kd_sg demo_user demo_sid kd_before s /\ small demo_user /\ small demo_sid /\
  small_signer kd_sg /\ wf_op (CMsg (SFailure demo_fail)) /\ (forall k, k = kd_rsa \/ k = kd_ecc -> small_answers (kd_an k)) /\
  failure_lists demo_fail [ascii "publickey"; ascii "password"] /\ announced kd_before (Some (ascii kd_algos)) /\
  (forall k, ~ In (CvKey (Some k)) (k_log s)) /\
  (* an RSA key: SHA-256, the first the server announced *)
  first_fit (names_of (ascii kd_algos)) (pk_type kd_rsa) (ascii "rsa-sha2-256") /\
  usable kd_sg (ascii "rsa-sha2-256") (pk_priv kd_rsa) /\
  key_pair kd_x kd_sg (ascii "rsa-sha2-256") (pk_priv kd_rsa) (pk_blob kd_rsa) /\
  (* an ECDSA key *)
  first_fit (names_of (ascii kd_algos)) (pk_type kd_ecc) (ascii "ecdsa-sha2-nistp384") /\
  usable kd_sg (ascii "ecdsa-sha2-nistp384") (pk_priv kd_ecc) /\
  key_pair kd_x kd_sg (ascii "ecdsa-sha2-nistp384") (pk_priv kd_ecc) (pk_blob kd_ecc).
Proof.
  assert (W : forall o, forallb (fun x => x <? 256) (cop_bytes o) = true -> lenN (cop_bytes o) < 2 ^ 28 -> wf_op o).
  { intros o H1 H2. pose proof (demo_small _ H1 H2) as (A & B). split; [exact A|apply small32; split; assumption]. }
  eexists. split; [|split; [sm|split; [sm|split; [|split; [apply W; vm_compute; reflexivity|split; [|split; [|split; [|split; [|split; [|split; [|split; [|split; [|split] ] ] ] ] ] ] ] ] ] ] ] ].
  - unfold kd_before. change [(CMsg (SExtInfo kd_ext), demo_an); (CFirst, demo_an)] with (([] ++ [(CMsg (SExtInfo kd_ext), demo_an)]) ++ [(CFirst, demo_an)]).
    eapply cr_step; [|apply W; vm_compute; reflexivity|exact demo_an_small|vm_compute; reflexivity|reflexivity].
    eapply cr_step; [|apply W; vm_compute; reflexivity|exact demo_an_small|vm_compute; reflexivity|reflexivity].
    apply cr_init.
  - assert (M : forall v : N, v mod 256 < 256) by (intros v; apply N.mod_lt; discriminate).
    split; [|split; [|split; discriminate] ].
    + intros p h m s H. cbn [s_rsa kd_sg] in H. apply (f_equal (fun o => match o with Some x => x | None => [] end)) in H. rewrite <- H.
      split.
      * apply Forall_forall. intros y Hy. apply repeat_spec in Hy. subst y. apply M.
      * unfold lenN. rewrite repeat_length. vm_compute. reflexivity.
    + intros p h m r s H. cbn [s_ecc kd_sg] in H.
      apply (f_equal (fun o => match o with Some x => x | None => ([], []) end)) in H.
      pose proof (f_equal fst H) as H1. pose proof (f_equal snd H) as H2. cbn [fst snd] in H1, H2. rewrite <- H1, <- H2.
      split; [|sm]. split; [|vm_compute; reflexivity]. constructor; [unfold byte_ok; lia|]. constructor; [apply M|constructor].
  - intros k Hk. split; [intros p H; discriminate|]. split; [|intros r H; discriminate].
    intros k' H. apply (f_equal (fun o => match o with Some x => x | None => k end)) in H. cbn [an_key kd_an] in H. rewrite <- H.
    destruct Hk as [-> | ->]; split; sm.
  - exists (demo_str (ascii "publickey,password")), (ascii "publickey,password"), 0, []. split; [reflexivity|].
    split; [st|vm_compute; reflexivity].
  - unfold kd_before. change [(CMsg (SExtInfo kd_ext), demo_an); (CFirst, demo_an)] with (([] ++ [(CMsg (SExtInfo kd_ext), demo_an)]) ++ [(CFirst, demo_an)]).
    apply an_other; [|intros b X; discriminate X].
    replace (Some (ascii kd_algos)) with (last_sig_algs None [(ascii "server-sig-algs", ascii kd_algos)]) by (vm_compute; reflexivity).
    apply an_ext; [constructor|]. exists (c32toa 1), [demo_str (ascii "server-sig-algs") ++ demo_str (ascii kd_algos)], [].
    split; [reflexivity|]. split; [reflexivity|]. split; [reflexivity|]. constructor; [|constructor]. cbn [fst snd].
    apply strs_cons; [st|apply strs_one; st].
  - intros k H. cbn in H. destruct H as [H|[] ]. discriminate.
  - exists [ascii "ssh-ed25519"], [ascii "rsa-sha2-512"; ascii "ssh-rsa"; ascii "ecdsa-sha2-nistp384"]. split; [vm_compute; reflexivity|].
    split; [left; split; [reflexivity|right; reflexivity]|].
    intros y [<-|[] ] [(_ & [X|X])|(X & _)]; [vm_compute in X; discriminate|vm_compute in X; discriminate|]. apply X. reflexivity.
  - eapply us_rsa; [right; left; reflexivity|reflexivity|reflexivity|]. intros m. eexists. split; [reflexivity|].
    unfold lenN. rewrite repeat_length. reflexivity.
  - eapply kp_rsa; [right; left; reflexivity|reflexivity|exact kd_rsa_strs|vm_compute; reflexivity|vm_compute; reflexivity|vm_compute; discriminate|].
    intros m g H. cbn [s_rsa kd_sg] in H. apply (f_equal (fun o => match o with Some x => x | None => [] end)) in H.
    cbn [v_rsa kd_x]. rewrite <- H. apply bytes_eqb_refl.
  - exists [ascii "ssh-ed25519"; ascii "rsa-sha2-256"; ascii "rsa-sha2-512"; ascii "ssh-rsa"], []. split; [vm_compute; reflexivity|].
    split; [right; split; [vm_compute; discriminate|reflexivity]|].
    intros y Hy [(X & _)|(_ & X)]; [vm_compute in X; discriminate|]. subst y.
    cbn [In] in Hy. repeat (destruct Hy as [Hy|Hy]; [vm_compute in Hy; discriminate|]). destruct Hy.
  - eapply us_ecc; [right; left; reflexivity|reflexivity|reflexivity|]. intros m. eexists. eexists. reflexivity.
  - eapply kp_ecc; [right; left; reflexivity|reflexivity|exact kd_ecc_strs|].
    intros m r s fr fs H (U1 & T1) (U2 & T2). cbn [s_ecc kd_sg] in H.
    apply (f_equal (fun o => match o with Some x => x | None => ([], []) end)) in H.
    pose proof (f_equal fst H) as H1. pose proof (f_equal snd H) as H2. cbn [fst snd] in H1, H2. subst r s.
    cbn [v_ecc kd_x]. apply andb_true_iff. split; apply N.eqb_eq.
    + destruct U1 as [-> | ->]; reflexivity.
    + destruct U2 as [-> | ->]; reflexivity.
Qed.

(* and what the client does with the RSA key *)
Example C87_key_sample :
  match fold_left (fun o p => match o with
       | Some s => match cop_step kd_cfg kd_sg (fst p) (snd p) s with CR s' _ _ => Some s' | COob => None end
       | None => None end) (kd_before ++ [(CMsg (SFailure demo_fail), kd_an kd_rsa)]) (Some (client_init demo_user demo_sid)) with
  | Some s => map demo_shape (k_log s)
  | None => []
  end = ["sends"; "asks for a password"; "asks for a key"; "signs"; "sends"]%string.
Proof. vm_compute. reflexivity. Qed.

Print Assumptions C09_key_accepted.
Print Assumptions C87_key.
