(* ClientAuthProps.v - C86 and C87: what the client says during user
   authentication, and that a server takes it. *)
From Verif Require Import Base WireModel WireSpec WireProofs NameTable NegoModel NegoSpec NegoProofs AuthModel AuthSpec AuthProofs
  AuthStep AuthProps PathModel ClientAuthModel ClientAuthSpec ClientAuthProofs ClientAuthProofs2 ClientAuthProofs3 ClientAuthProofs4.
From Coq Require Import List NArith Lia Bool String.
Import ListNotations.
Open Scope N_scope.
Local Notation "a ++ b" := (@app _ a b) : list_scope.

(* C86: on every connection, in every step, whatever the server sends and the
   application answers: the application is asked for a password or a key only
   when the server's failure message lists that method, and for answers only to
   the server's own prompts; a private key signs only this user's request in
   this session, with the first of the server's announced algorithms that fits
   it; every message sent is the first "none" request or carries, in the form
   of RFC 4252 and 4256, what the application gave in that same step, by a
   method the server listed. *)
Theorem C86_proper : forall c sg user sid h s o an s' r j,
  small_signer sg -> small user -> small sid -> creached c sg user sid h s ->
  wf_op o -> small_answers an -> cop_step c sg o an s = CR s' r j ->
  exists ev v, k_log s' = k_log s ++ ev /\ announced h v /\
    (ev = [] \/ exists ms, offers o ms /\
       Forall (proper sg user sid o ms (match v with Some l => names_of l | None => [] end) ev) ev).
Proof.
  intros c sg user sid h s o an s' r j Hsg Hu Hsid R Hw Han Hs.
  destruct (reached_cinv _ _ _ _ _ _ Hsg Hu Hsid R) as (Eu & Es & (v & Hv & Hp) & _).
  destruct (step_ok c sg o an s s' r j user sid v Hw Hsg Hu Hsid Han Eu Es Hp Hs) as (ev & V1 & _ & _ & V4 & _).
  exists ev, v. auto.
Qed.

(* no message makes the client read outside it *)
Theorem C86_total : forall c sg o an s, wf_op o -> exists s' r j, cop_step c sg o an s = CR s' r j.
Proof.
  intros c sg o an s Hw. pose proof (step_total c sg o an s Hw) as H.
  destruct (cop_step c sg o an s) as [s' r j|]; [eauto|contradiction H; reflexivity].
Qed.

(* the private key is used at most once on a connection *)
Theorem C86_sign_once : forall c sg user sid h s o an s' r j,
  small_signer sg -> small user -> small sid -> creached c sg user sid h s ->
  wf_op o -> small_answers an -> cop_step c sg o an s = CR s' r j -> countP is_sign (k_log s') <= 1.
Proof.
  intros c sg user sid h s o an s' r j Hsg Hu Hsid R Hw Han Hs.
  destruct (reached_cinv _ _ _ _ _ _ Hsg Hu Hsid R) as (Eu & Es & (v & Hv & Hp) & Hc).
  destruct (step_ok c sg o an s s' r j user sid v Hw Hsg Hu Hsid Han Eu Es Hp Hs) as (ev & V1 & _ & _ & _ & V5 & _).
  rewrite V1, countP_app. assert (b2n (k_pkdone s') <= 1) by (destruct (k_pkdone s'); cbn; lia). lia.
Qed.

(* ---- C87 --------------------------------------------------------------------------- *)
Lemma ascii_bytes : forall s, bytes_ok (ascii s).
Proof.
  intros s. unfold ascii, bytes_ok. apply Forall_forall. intros x H. apply in_map_iff in H. destruct H as (a & <- & _).
  apply Ascii.N_ascii_bounded.
Qed.
Lemma put_ok : forall b, bytes_ok b -> bytes_ok (c32toa (lenN b) ++ b).
Proof. intros b H. apply bytes_ok_app. split; [apply c32toa_ok|exact H]. Qed.

Lemma tail_eq : forall (x y : N) l l', x :: l = y :: l' -> l = l'.
Proof. intros x y l l' H. congruence. Qed.

Lemma start_spec : forall user id (name : string), small user -> IdToName id = ascii name -> bytes_ok (ascii name) -> lenN (ascii name) < 64 ->
  exists h, request_start user id = 50 :: h /\ request_head h user name /\ bytes_ok h /\ lenN h = 26 + lenN user + lenN (ascii name).
Proof.
  intros user id name Hu E Hok Hn.
  destruct (start_head user id name (small32 _ Hu) E) as (h & E1 & E2); [unfold is32, W32; lia|].
  exists h. split; [exact E1|]. split; [exact E2|].
  unfold request_start in E1. rewrite E in E1. cbn [app] in E1.
  assert (Eh : h = c32toa (lenN user) ++ user ++ c32toa (lenN name_connection) ++ name_connection ++ c32toa (lenN (ascii name)) ++ ascii name)
    by (symmetry; apply (tail_eq _ _ _ _ E1)).
  rewrite Eh. split.
  - apply bytes_ok_app. split; [apply c32toa_ok|]. apply bytes_ok_app. split; [exact (proj1 Hu)|].
    apply bytes_ok_app. split; [apply c32toa_ok|]. apply bytes_ok_app. split; [exact (ascii_bytes "ssh-connection")|].
    apply bytes_ok_app. split; [apply c32toa_ok|exact Hok].
  - rewrite !lenN_app, !c32toa_length. change (lenN name_connection) with 14. lia.
Qed.

Lemma send_password : forall c sg an t s pw, small (k_user s) ->
  cc_kb c && m_keyboard t = false -> cc_cb c = true -> m_password t = true -> an_password an = Some pw ->
  lenN (k_user s) + lenN pw <= 34960 ->
  exists est, SendUserAuthRequest c sg an t s =
    (clog (CvSend (request_start (k_user s) ID_USERAUTH_PASSWORD ++ BuildPassword pw) est) (clog (CvPassword (Some pw)) s), an_sent an)
    /\ est = 40 + lenN (k_user s) + lenN pw.
Proof.
  intros c sg an t s pw Hu H1 H2 H3 H4 H5. unfold SendUserAuthRequest, choose. rewrite H1, H2, H3, H4. cbn [negb choice_id].
  change (k_user (clog (CvPassword (Some pw)) s)) with (k_user s).
  change (lenN name_connection + lenN (IdToName ID_USERAUTH_PASSWORD)) with 22.
  rewrite (add32_small (lenN (k_user s))) by (unfold W32; lia). rewrite add32_small by (unfold W32; lia).
  unfold PreparePassword, MAX_PACKET_SZ.
  destruct (N.ltb_spec 35000 (1 + 4 * 3 + (lenN (k_user s) + 22))); [lia|].
  destruct (N.ltb_spec (35000 - (1 + 4 * 3 + (lenN (k_user s) + 22))) (1 + 4)); [lia|].
  destruct (N.ltb_spec (35000 - (1 + 4 * 3 + (lenN (k_user s) + 22)) - (1 + 4)) (lenN pw)); [lia|]. cbn [orb].
  rewrite add32_small by (unfold W32; lia). eexists. split; [reflexivity|lia].
Qed.

(* When a failure message lists "password" among at most three methods and not
   keyboard-interactive, and the application gives a password, the client sends
   it; and a server in any state of a connection that is open to this user logs
   the user in with exactly that password if its application accepts it. *)
Theorem C87_password : forall c sg user sid h s b ms an pw,
  small_signer sg -> small user -> small sid -> creached c sg user sid h s ->
  wf_op (CMsg (SFailure b)) -> small_answers an ->
  failure_lists b ms -> lenN b <= 4096 -> lenN ms <= 3 ->
  In (ascii "password") ms -> (~ In (ascii "keyboard-interactive") ms \/ cc_kb c = false) ->
  cc_cb c = true -> an_password an = Some pw -> lenN user + lenN pw <= 34960 ->
  exists s' j m est, cop_step c sg (CMsg (SFailure b)) an s = CR s' (an_sent an) j /\
    k_log s' = k_log s ++ [CvPassword (Some pw); CvSend (50 :: m) est] /\
    forall cfg x max sid2 hist a sa, reached cfg x max sid2 hist sa ->
      c_cb cfg = true -> accepting a -> user <> [] -> a_user sa = None \/ a_user sa = Some user ->
      countP is_failure (a_log sa) + countP is_prompt (a_log sa) < max ->
      exists sa' k, auth_step cfg x (MRequest m) a sa = HR sa' WS_SUCCESS k /\ a_client sa' = CLIENT_USERAUTH_DONE /\
        a_user sa' = Some user /\
        a_log sa' = a_log sa ++ [ECallback user (CrPassword pw) CbSuccess; EGranted user (CrPassword pw)].
Proof.
  intros c sg user sid h s b ms an pw Hsg Hu Hsid R (Hb & Hl) Han Hf Hb2 Hn Hin Hkb Hcb Hpw Hfit. cbn [cop_bytes] in *.
  destruct (reached_cinv _ _ _ _ _ _ Hsg Hu Hsid R) as (Eu & Es & _).
  destruct (failure_fwd c sg an b s ms Hb Hb2 Hf Hn) as (ids & i & Ea & Ed).
  cbn [cop_step client_step]. rewrite Ed. cbv zeta. clear Ed.
  assert (Hp : existsb (N.eqb ID_USERAUTH_PASSWORD) ids = true).
  { apply (has_id c ms ids "password"%string _ Ea Hin); [vm_compute; reflexivity|vm_compute; reflexivity|left; vm_compute; discriminate]. }
  assert (Hs : existsb (N.eqb ID_USERAUTH_PASSWORD) (supportedAuth c) = true) by reflexivity.
  set (t := mkMethods _ _ _).
  assert (T1 : m_password t = true) by (unfold t; cbn [m_password]; rewrite Hp, Hs; reflexivity).
  assert (T2 : cc_kb c && m_keyboard t = false).
  { unfold t; cbn [m_keyboard]. destruct Hkb as [Hkb|Hkb]; [|rewrite Hkb; reflexivity].
    destruct (existsb (N.eqb ID_USERAUTH_KEYBOARD) ids) eqn:Ek; [|cbn; apply andb_false_r].
    exfalso. apply Hkb. eapply (listed c ms ids "keyboard-interactive"%string); [exact Ea|exact Ek|vm_compute; reflexivity|vm_compute; reflexivity]. }
  rewrite T1. cbn [orb negb].
  destruct (send_password c sg an t s pw) as (est & E & _); try assumption; [rewrite Eu; exact Hu|rewrite Eu; exact Hfit|].
  rewrite E. clear E. rewrite Eu.
  destruct (start_spec user ID_USERAUTH_PASSWORD "password"%string Hu) as (hd & E1 & E2 & E3 & E4);
    [vm_compute; reflexivity|apply ascii_bytes|vm_compute; reflexivity|].
  destruct (proj1 Han pw Hpw) as (P1 & P2).
  rewrite E1. eexists _, i, (hd ++ BuildPassword pw), est. split; [reflexivity|].
  split; [cbn [clog k_log]; rewrite snoc2; reflexivity|].
  intros cfg x max sid2 hist a sa RS C1 C2 C3 C4 C5.
  eapply C09_password_accepted; try eassumption.
  - split; cbn [msg_bytes].
    + apply bytes_ok_app. split; [exact E3|]. unfold BuildPassword. apply bytes_ok_app. split; [repeat constructor|apply put_ok; exact P1].
    + unfold BuildPassword. rewrite !lenN_app, E4, c32toa_length. change (lenN [0]) with 1. change (lenN (ascii "password")) with 8.
      unfold is32, W32. lia.
  - exists hd, (c32toa (lenN pw) ++ pw), []. rewrite app_nil_r. split; [reflexivity|]. split; [exact E2|].
    apply put_str. apply small32. split; assumption.
Qed.

(* ---- with a key -------------------------------------------------------------------- *)
Lemma str_ok : forall f s, is_str f s -> bytes_ok s -> bytes_ok f /\ lenN f = 4 + lenN s.
Proof.
  intros f s (l & -> & L & _ & Hl) Hs. split; [apply bytes_ok_app; split; assumption|rewrite lenN_app, L; reflexivity].
Qed.
Lemma strs_ok2 : forall f a b, is_strs f [a; b] -> bytes_ok a -> bytes_ok b -> bytes_ok f /\ lenN f = 8 + lenN a + lenN b.
Proof.
  intros f a b (ps & -> & F) Ha Hb. inversion F as [|f1 ? ps1 ? F1 G1]; subst. inversion G1 as [|f2 ? ps2 ? F2 G2]; subst. inversion G2; subst.
  cbn [List.concat]. rewrite app_nil_r. destruct (str_ok _ _ F1 Ha) as (A1 & A2). destruct (str_ok _ _ F2 Hb) as (B1 & B2).
  split; [apply bytes_ok_app; split; assumption|rewrite lenN_app, A2, B2; lia].
Qed.

Lemma prepare_ed : forall sg ns sz k z, pk_type k = ascii "ssh-ed25519" -> In (ascii "ssh-ed25519") ns ->
  s_ed_size sg (pk_priv k) = Some z ->
  exists ks, PrepareKey sg (decoded ns) sz k = ROk ks /\ ks_id ks = ID_ED25519.
Proof.
  intros sg ns sz k z Ht Hin Hz. unfold PrepareKey, MatchIdLists. rewrite Ht.
  change (NameToId (ascii "ssh-ed25519")) with ID_ED25519. change (algos_for ID_ED25519) with [ID_ED25519]. cbv zeta.
  assert (Em : match_ids (decoded ns) [ID_ED25519] = ID_ED25519).
  { destruct (match_ids_spec (decoded ns) [ID_ED25519]) as [(b & a & _ & I1 & _)|(Hno & E)].
    - destruct I1 as [I1|[]]. symmetry. exact I1.
    - exfalso. apply (Hno ID_ED25519); [|left; reflexivity]. change ID_ED25519 with (NameToId (ascii "ssh-ed25519")).
      apply decoded_has; [exact Hin|vm_compute; reflexivity]. }
  rewrite Em. change (ID_ED25519 =? ID_UNKNOWN) with false. change (ID_ED25519 =? ID_SSH_RSA) with false.
  change ((ID_ED25519 =? ID_RSA_SHA2_256) || (ID_ED25519 =? ID_RSA_SHA2_512)) with false.
  change (kind_of ID_ED25519) with (Some KEd). cbv iota. rewrite Hz. eexists. split; reflexivity.
Qed.

Lemma send_ed : forall c sg an t s k ns z,
  small_signer sg -> small (k_user s) -> small (k_sid s) -> small (pk_blob k) ->
  cc_kb c && m_keyboard t = false -> cc_cb c = true -> m_password t = false \/ an_password an = None -> m_key t = true ->
  an_key an = Some k -> k_pkdone s = false -> k_peer s = decoded ns ->
  pk_type k = ascii "ssh-ed25519" -> In (ascii "ssh-ed25519") ns ->
  s_ed_size sg (pk_priv k) = Some z -> (forall m, exists g, s_ed sg (pk_priv k) m = Some g) ->
  exists s' pre m est msg body sig, SendUserAuthRequest c sg an t s = (s', an_sent an) /\
    k_log s' = k_log s ++ pre ++ [CvKey (Some k); CvSign (pk_priv k) msg; CvSend (50 :: m) est] /\
    (pre = [] \/ pre = [CvPassword None]) /\
    key_request m (k_user s) 1 (ascii "ssh-ed25519") (pk_blob k) sig body [] /\ signed_message (k_sid s) body [] msg /\
    signs sg (ascii "ssh-ed25519") (pk_priv k) msg sig.
Proof.
  intros c sg an t s k ns z Hsg Hu Hsid Hbl K1 K2 K3 K4 K5 K6 K7 K8 K9 K10 K11.
  unfold SendUserAuthRequest, choose. rewrite K1, K2. cbn [negb].
  assert (GO : forall pre s0, k_log s0 = k_log s ++ pre -> k_user s0 = k_user s -> k_sid s0 = k_sid s -> k_peer s0 = k_peer s -> k_pkdone s0 = false ->
    (pre = [] \/ pre = [CvPassword None]) ->
    exists s' m est msg body sig,
     (match (clog (CvKey (Some k)) s0, Some (ChKey k)) with
      | (s, None) => (s, WS_FATAL_ERROR)
      | (s, Some ch) =>
      let id := choice_id ch in
      let payloadSz := add32 (1 + 4 * 3) (add32 (lenN (k_user s)) (lenN name_connection + lenN (IdToName id))) in
      let start := request_start (k_user s) id in
      match ch with
      | ChNone => send_payload an start payloadSz s
      | ChPassword pw =>
          match PreparePassword payloadSz pw with
          | RErr e => (s, e)
          | ROk est => send_payload an (start ++ BuildPassword pw) est s
          end
      | ChKeyboard =>
          let s := set_tries (add32 (k_tries s) 1 mod 256) s in
          send_payload an (start ++ c32toa 0 ++ c32toa 0) payloadSz s
      | ChKey k =>
          if k_pkdone s then (s, WS_INVALID_ALGO_ID)
          else
            let s := set_pkdone true s in
            match PrepareKey sg (k_peer s) payloadSz k with
            | RErr e => (s, e)
            | ROk ks =>
                let '(r, ev) := BuildKey sg (k_sid s) start k ks in
                let s := fold_left (fun s e => clog e s) ev s in
                match r with
                | RErr e => (s, e)
                | ROk m => send_payload an m (ks_est ks) s
                end
            end
      end
     end) = (s', an_sent an) /\
    k_log s' = k_log s ++ pre ++ [CvKey (Some k); CvSign (pk_priv k) msg; CvSend (50 :: m) est] /\
    (pre = [] \/ pre = [CvPassword None]) /\
    key_request m (k_user s) 1 (ascii "ssh-ed25519") (pk_blob k) sig body [] /\ signed_message (k_sid s) body [] msg /\
    signs sg (ascii "ssh-ed25519") (pk_priv k) msg sig).
  { intros pre s0 L0 U0 S0 P0 D0 HP. cbn [choice_id]. cbv zeta.
    change (k_pkdone (clog (CvKey (Some k)) s0)) with (k_pkdone s0). rewrite D0.
    change (k_peer (set_pkdone true (clog (CvKey (Some k)) s0))) with (k_peer s0).
    change (k_user (clog (CvKey (Some k)) s0)) with (k_user s0).
    change (k_sid (set_pkdone true (clog (CvKey (Some k)) s0))) with (k_sid s0).
    rewrite U0, S0, P0, K7.
    set (psz := add32 (1 + 4 * 3) _).
    destruct (prepare_ed sg ns psz k z K8 K9 K10) as (ks & Ep & Ei). rewrite Ep.
    destruct (start_spec (k_user s) ID_USERAUTH_PUBLICKEY "publickey"%string Hu) as (hd & E1 & E2 & E3 & E4);
      [vm_compute; reflexivity|apply ascii_bytes|vm_compute; reflexivity|].
    destruct (BuildKey sg (k_sid s) (request_start (k_user s) ID_USERAUTH_PUBLICKEY) k ks) as [rr ev] eqn:Eb.
    assert (Nr : KEd = KRsa -> "ssh-ed25519"%string <> "ssh-rsa"%string) by discriminate.
    assert (In1 : In ("ssh-ed25519"%string, KEd) sig_table) by (cbn; tauto).
    assert (Ek : kind_of (ks_id ks) = Some KEd) by (rewrite Ei; vm_compute; reflexivity).
    assert (Eid : ks_id ks = NameToId (ascii "ssh-ed25519")) by (rewrite Ei; vm_compute; reflexivity).
    assert (Ra : request_algo k ks = ascii "ssh-ed25519") by (unfold request_algo; rewrite Ek; exact K8).
    destruct (build_key sg (k_user s) (k_sid s) k ks _ KEd rr ev _ hd Hsg Hsid Hbl In1 Ek Eid Nr Ra E1 E2 Eb) as (ab & msg & B1 & B2 & -> & B4).
    cbn [fold_left]. destruct rr as [m|e].
    - destruct B4 as (m' & sig & -> & B5 & B6).
      eexists _, m', (ks_est ks), msg, (hd ++ [1] ++ ab), sig. split; [reflexivity|].
      split; [cbn [clog set_pkdone k_log]; rewrite L0, <- !app_assoc; reflexivity|].
      split; [exact HP|]. split; [exact B5|]. split; [exact B2|exact B6].
    - exfalso. unfold BuildKey in Eb. apply pfst in Eb. unfold BuildSignature in Eb. rewrite Ek in Eb.
      match type of Eb with context [s_ed sg (pk_priv k) ?mm] => destruct (K11 mm) as (g & Eg); rewrite Eg in Eb end. discriminate. }
  rewrite K4, K5.
  destruct (m_password t).
  - destruct K3 as [K3|K3]; [discriminate|]. rewrite K3.
    destruct (GO [CvPassword None] (clog (CvPassword None) s)) as (s' & m & est & msg & body & sig & G); try reflexivity; [exact K6|right; reflexivity|].
    exists s', [CvPassword None], m, est, msg, body, sig. exact G.
  - destruct (GO [] s) as (s' & m & est & msg & body & sig & G); try reflexivity; [rewrite app_nil_r; reflexivity|exact K6|left; reflexivity|].
    exists s', [], m, est, msg, body, sig. exact G.
Qed.

(* The same for an Ed25519 key: the server announced the algorithm and lists
   "publickey", the application gives its key (having no password to give),
   none was given before on this connection. The law of the signature scheme is
   the hypothesis that what the key signs verifies under q. *)
Theorem C87_ed25519 : forall c sg user sid h s b ms an k q l,
  let algo := ascii "ssh-ed25519" in
  small_signer sg -> small user -> small sid -> creached c sg user sid h s ->
  wf_op (CMsg (SFailure b)) -> small_answers an ->
  failure_lists b ms -> lenN b <= 4096 -> lenN ms <= 3 ->
  In (ascii "publickey") ms -> (~ In (ascii "keyboard-interactive") ms \/ cc_kb c = false) ->
  cc_cb c = true -> (an_password an = None \/ ~ In (ascii "password") ms) -> an_key an = Some k ->
  (forall k', ~ In (CvKey (Some k')) (k_log s)) ->
  announced h (Some l) -> In algo (names_of l) -> In (NameToId algo) (cc_own c) -> ~ In ID_UNKNOWN (cc_own c) ->
  pk_type k = algo -> is_strs (pk_blob k) [algo; q] ->
  (exists z, s_ed_size sg (pk_priv k) = Some z) -> (forall m, exists g, s_ed sg (pk_priv k) m = Some g) ->
  exists s' j pre msg m est, cop_step c sg (CMsg (SFailure b)) an s = CR s' (an_sent an) j /\
    k_log s' = k_log s ++ pre ++ [CvKey (Some k); CvSign (pk_priv k) msg; CvSend (50 :: m) est] /\
    forall cfg x max hist a sa, reached cfg x max sid hist sa ->
      (forall mm g, s_ed sg (pk_priv k) mm = Some g -> v_ed x q mm g = true) ->
      In (NameToId algo) (c_algos cfg) -> c_rcb cfg = false ->
      c_cb cfg = true -> accepting a -> user <> [] -> a_user sa = None \/ a_user sa = Some user ->
      countP is_failure (a_log sa) + countP is_prompt (a_log sa) < max ->
      exists sa' i sig, auth_step cfg x (MRequest m) a sa = HR sa' WS_SUCCESS i /\ a_client sa' = CLIENT_USERAUTH_DONE /\
        a_user sa' = Some user /\
        a_log sa' = a_log sa ++ [ECallback user (CrKey 1 algo (pk_blob k) sig) CbSuccess; EGranted user (CrKey 1 algo (pk_blob k) sig)].
Proof.
  intros c sg user sid h s b ms an k q l algo Hsg Hu Hsid R (Hb & Hl) Han Hf Hb2 Hn Hin Hkb Hcb Hpw Hk Hno Hann Hal Hown Hunk Ht Hblob (z & Hz) Hsign.
  cbn [cop_bytes] in *.
  destruct (reached_cinv _ _ _ _ _ _ Hsg Hu Hsid R) as (Eu & Es & (v & Hv & Hp) & Hc).
  rewrite (announced_fun _ _ Hv _ Hann) in Hp. clear Hv v.
  assert (Hpd : k_pkdone s = false).
  { destruct (k_pkdone s) eqn:E; [|reflexivity]. exfalso. cbn [b2n] in Hc. destruct Hc as (_ & Hc).
    unfold countP in Hc. destruct (filter is_given (k_log s)) as [|e fl] eqn:Ef; [cbn in Hc; lia|].
    assert (He : In e (filter is_given (k_log s))) by (rewrite Ef; left; reflexivity).
    apply filter_In in He. destruct He as (He1 & He2). destruct e as [| [k'|] | | |]; try discriminate. apply (Hno k'). exact He1. }
  assert (Hpeer : k_peer s = decoded (names_of l)).
  { rewrite Hp. unfold peer_of. destruct (N.eqb_spec (MatchIdLists Client (decoded (names_of l)) (cc_own c)) ID_UNKNOWN) as [E|E]; [|reflexivity].
    exfalso. unfold MatchIdLists in E. destruct (match_ids_spec (cc_own c) (decoded (names_of l))) as [(b0 & a0 & E0 & I1 & _)|(Hno2 & _)].
    - apply Hunk. rewrite E in E0. rewrite E0. apply in_app_iff. right. left. reflexivity.
    - apply (Hno2 (NameToId algo) Hown). apply decoded_has; [exact Hal|vm_compute; reflexivity]. }
  destruct (failure_fwd c sg an b s ms Hb Hb2 Hf Hn) as (ids & i & Ea & Ed).
  cbn [cop_step client_step]. rewrite Ed. cbv zeta. clear Ed.
  assert (Hpk : existsb (N.eqb ID_USERAUTH_PUBLICKEY) ids = true).
  { apply (has_id c ms ids "publickey"%string _ Ea Hin); [vm_compute; reflexivity|vm_compute; reflexivity|left; vm_compute; discriminate]. }
  assert (Hs : existsb (N.eqb ID_USERAUTH_PUBLICKEY) (supportedAuth c) = true) by reflexivity.
  set (t := mkMethods _ _ _).
  assert (T1 : m_key t = true) by (unfold t; cbn [m_key]; rewrite Hpk, Hs; reflexivity).
  assert (T2 : cc_kb c && m_keyboard t = false).
  { unfold t; cbn [m_keyboard]. destruct Hkb as [Hkb|Hkb]; [|rewrite Hkb; reflexivity].
    destruct (existsb (N.eqb ID_USERAUTH_KEYBOARD) ids) eqn:Ek; [|cbn; apply andb_false_r].
    exfalso. apply Hkb. eapply (listed c ms ids "keyboard-interactive"%string); [exact Ea|exact Ek|vm_compute; reflexivity|vm_compute; reflexivity]. }
  assert (T3 : m_password t = false \/ an_password an = None).
  { destruct Hpw as [Hpw|Hpw]; [right; exact Hpw|left]. unfold t; cbn [m_password].
    destruct (existsb (N.eqb ID_USERAUTH_PASSWORD) ids) eqn:Ek; [|reflexivity].
    exfalso. apply Hpw. eapply (listed c ms ids "password"%string); [exact Ea|exact Ek|vm_compute; reflexivity|vm_compute; reflexivity]. }
  rewrite T1, orb_true_r. cbn [orb negb].
  assert (Kb : small (pk_blob k)) by (destruct Han as (_ & A2 & _); exact (proj2 (A2 k Hk))).
  destruct (send_ed c sg an t s k (names_of l) z Hsg) as (s' & pre & m & est & msg & body & sig & F1 & F2 & F3 & F4 & F5 & F6);
    try assumption; [rewrite Eu; exact Hu|rewrite Es; exact Hsid|].
  rewrite F1. exists s', i, pre, msg, m, est. split; [reflexivity|]. split; [exact F2|].
  intros cfg x max hist a sa RS Law C0 C0' C1 C2 C3 C4 C5. rewrite Eu in F4. rewrite Es in F5.
  assert (SG : exists g, s_ed sg (pk_priv k) msg = Some g /\ is_strs sig [algo; g]).
  { destruct F6 as [g _ G1 G2|name hh g N1 _ N2 _ _|name cu bi hh rr ss fr fs ff N1 N2 _ _ _ _ _|name g N1 N2 _ _].
    - exists g. split; assumption.
    - exfalso. cbn in N1. repeat (destruct N1 as [N1|N1]; [injection N1 as <- _; vm_compute in N2; discriminate|]). destruct N1.
    - exfalso. cbn in N1. repeat (destruct N1 as [N1|N1]; [injection N1 as <- _ _ _; vm_compute in N2; discriminate|]). destruct N1.
    - exfalso. cbn in N1. repeat (destruct N1 as [N1|N1]; [subst name; vm_compute in N2; discriminate|]). destruct N1. }
  destruct SG as (g & G1 & G2).
  destruct (C09_ed25519_accepted cfg x max sid hist sa m a user 1 (pk_blob k) sig body q g msg) as (sa' & i' & X); try assumption.
  - destruct Hsg as (_ & _ & S3 & _). destruct (S3 _ _ _ G1) as (Sg1 & Sg2).
    assert (Ok : bytes_ok algo) by (apply ascii_bytes).
    destruct (strs_ok2 _ _ _ G2 Ok Sg1) as (Sig1 & Sig2).
    destruct F4 as (hd & ab & sf & Q1 & Q2 & Q3 & Q4 & Q5 & Q6).
    destruct (strs_ok2 _ _ _ Q5 Ok (proj1 Kb)) as (Ab1 & Ab2). destruct (str_ok _ _ Q6 Sig1) as (Sf1 & Sf2).
    assert (Hd : bytes_ok hd /\ lenN hd = 12 + lenN user + 14 + 9).
    { destruct Q3 as (ps & -> & F). inversion F as [|f1 ? ps1 ? P1 P2]; subst. inversion P2 as [|f2 ? ps2 ? P3 P4]; subst. inversion P4 as [|f3 ? ps3 ? P5 P6]; subst. inversion P6; subst.
      cbn [List.concat]. rewrite app_nil_r.
      destruct (str_ok _ _ P1 (proj1 Hu)) as (X1 & X2).
      destruct (str_ok _ _ P3) as (X3 & X4); [apply ascii_bytes|].
      destruct (str_ok _ _ P5) as (X5 & X6); [apply ascii_bytes|].
      split; [apply bytes_ok_app; split; [exact X1|apply bytes_ok_app; split; assumption]|].
      rewrite !lenN_app, X2, X4, X6. change (lenN (ascii "ssh-connection")) with 14. change (lenN (ascii "publickey")) with 9. lia. }
    destruct Hd as (Hd1 & Hd2). destruct Hu as (_ & Hu2). destruct Kb as (_ & Kb2). change (2 ^ 28) with 268435456 in *.
    change (lenN (ascii "ssh-ed25519")) with 11 in *. change (lenN algo) with 11 in *. unfold small in *. rewrite Q2, Q1, app_nil_r.
    split; cbn [msg_bytes].
    + apply bytes_ok_app. split; [|exact Sf1]. apply bytes_ok_app. split; [exact Hd1|]. apply bytes_ok_app. split; [repeat constructor|exact Ab1].
    + rewrite !lenN_app, Hd2, Sf2, Sig2, Ab2. change (lenN [1]) with 1. change (lenN algo) with 11. unfold is32, W32. lia.
  - exact (Law _ _ G1).
  - exists sa', i', sig. exact X.
Qed.

(* ---- a connection --------------------------------------------------------------------- *)
Definition demo_str (b : bytes) : bytes := c32toa (lenN b) ++ b.
Definition demo_sg : signer :=
  mkSigner (fun _ => None) (fun _ _ _ => None) (fun _ => None) (fun _ _ _ => None)
           (fun _ => Some 64) (fun p m => Some [lenN m mod 256; lenN p mod 256]) (fun _ _ => None) (fun _ _ _ => None).
Definition demo_cfg : ccfg := mkCcfg true true [ID_ED25519; ID_RSA_SHA2_256].
Definition demo_user := ascii "alice".
Definition demo_sid : bytes := [1; 2; 3; 4].
Definition demo_key : pubkey :=
  mkPk (ascii "ssh-ed25519") (demo_str (ascii "ssh-ed25519") ++ demo_str [9; 9; 9]) [7; 7].
Definition demo_an : canswers := mkCans (Some (ascii "secret")) None None WS_SUCCESS.
Definition demo_an2 : canswers := mkCans None (Some demo_key) None WS_SUCCESS.
Definition demo_ext : bytes := c32toa 1 ++ demo_str (ascii "server-sig-algs") ++ demo_str (ascii "x-new,ssh-ed25519,rsa-sha2-256").
Definition demo_fail : bytes := demo_str (ascii "publickey,password") ++ [0].
Definition demo_history : list (cop * canswers) :=
  [(CMsg (SExtInfo demo_ext), demo_an); (CFirst, demo_an); (CMsg (SFailure demo_fail), demo_an)].

Lemma demo_small : forall b, forallb (fun x => x <? 256) b = true -> lenN b < 2 ^ 28 -> small b.
Proof.
  intros b H L. split; [|exact L]. apply Forall_forall. intros x Hx. rewrite forallb_forall in H. apply N.ltb_lt. apply H. exact Hx.
Qed.
Ltac sm := apply demo_small; vm_compute; reflexivity.
Lemma demo_an_small : small_answers demo_an.
Proof.
  split; [|split].
  - intros p H. apply (f_equal (fun o => match o with Some x => x | None => [] end)) in H. cbn in H. rewrite <- H. sm.
  - intros k H. discriminate.
  - intros r H. discriminate.
Qed.
Lemma demo_an2_small : small_answers demo_an2.
Proof.
  split; [|split].
  - intros p H. discriminate.
  - intros k H. apply (f_equal (fun o => match o with Some x => x | None => demo_key end)) in H. change (demo_key = k) in H. rewrite <- H. split; sm.
  - intros r H. discriminate.
Qed.
Lemma demo_signer_small : small_signer demo_sg.
Proof.
  split; [discriminate|]. split; [discriminate|]. split; [|discriminate].
  intros p m s H. cbn [s_ed demo_sg] in H. apply (f_equal (fun o => match o with Some x => x | None => [] end)) in H. rewrite <- H.
  split; [|vm_compute; reflexivity]. repeat constructor; apply N.mod_lt; discriminate.
Qed.

(* both theorems' hypotheses on the client's side, in one history: the server
   announces its algorithms, refuses "none", is given a password, refuses it,
   and is then given a key *)
Definition demo_before : list (cop * canswers) := [(CMsg (SExtInfo demo_ext), demo_an); (CFirst, demo_an)].
Example C86_met : exists s, creached demo_cfg demo_sg demo_user demo_sid demo_before s /\ small demo_user /\ small demo_sid /\
  wf_op (CMsg (SFailure demo_fail)) /\ small_signer demo_sg /\ small_answers demo_an /\ small_answers demo_an2 /\
  failure_lists demo_fail [ascii "publickey"; ascii "password"] /\
  announced demo_before (Some (ascii "x-new,ssh-ed25519,rsa-sha2-256")) /\
  (forall k, ~ In (CvKey (Some k)) (k_log s)) /\
  is_strs (pk_blob demo_key) [ascii "ssh-ed25519"; [9; 9; 9]].
Proof.
  assert (W : forall o, forallb (fun x => x <? 256) (cop_bytes o) = true -> lenN (cop_bytes o) < 2 ^ 28 -> wf_op o).
  { intros o H1 H2. pose proof (demo_small _ H1 H2) as (A & B). split; [exact A|apply small32; split; assumption]. }
  eexists. split; [|split; [sm|split; [sm|split; [apply W; vm_compute; reflexivity|split; [exact demo_signer_small|split; [exact demo_an_small|split; [exact demo_an2_small|split; [|split; [|split] ] ] ] ] ] ] ] ].
  - unfold demo_before. change [(CMsg (SExtInfo demo_ext), demo_an); (CFirst, demo_an)] with (([] ++ [(CMsg (SExtInfo demo_ext), demo_an)]) ++ [(CFirst, demo_an)]).
    eapply cr_step; [|apply W; vm_compute; reflexivity|exact demo_an_small|vm_compute; reflexivity|reflexivity].
    eapply cr_step; [|apply W; vm_compute; reflexivity|exact demo_an_small|vm_compute; reflexivity|reflexivity].
    apply cr_init.
  - exists (demo_str (ascii "publickey,password")), (ascii "publickey,password"), 0, []. split; [reflexivity|].
    split; [unfold demo_str; apply put_str; vm_compute; reflexivity|vm_compute; reflexivity].
  - unfold demo_before. change [(CMsg (SExtInfo demo_ext), demo_an); (CFirst, demo_an)] with (([] ++ [(CMsg (SExtInfo demo_ext), demo_an)]) ++ [(CFirst, demo_an)]).
    apply an_other; [|intros b X; discriminate X].
    replace (Some (ascii "x-new,ssh-ed25519,rsa-sha2-256")) with (last_sig_algs None [(ascii "server-sig-algs", ascii "x-new,ssh-ed25519,rsa-sha2-256")])
      by (vm_compute; reflexivity).
    apply an_ext; [constructor|]. exists (c32toa 1), [demo_str (ascii "server-sig-algs") ++ demo_str (ascii "x-new,ssh-ed25519,rsa-sha2-256")], [].
    split; [reflexivity|]. split; [reflexivity|]. split; [reflexivity|]. constructor; [|constructor]. cbn [fst snd].
    apply strs_cons; [unfold demo_str; apply put_str; vm_compute; reflexivity|apply strs_one; unfold demo_str; apply put_str; vm_compute; reflexivity].
  - intros k H. cbn in H. destruct H as [H|[]]. discriminate.
  - cbn [pk_blob demo_key]. apply strs_cons; [unfold demo_str; apply put_str; vm_compute; reflexivity|apply strs_one; unfold demo_str; apply put_str; vm_compute; reflexivity].
Qed.

(* what is seen then: a password, and after its refusal the signed key request *)
Definition demo_run (os : list (cop * canswers)) : option (list cev) :=
  option_map k_log
    (fold_left (fun o p => match o with
       | Some s => match cop_step demo_cfg demo_sg (fst p) (snd p) s with CR s' _ _ => Some s' | COob => None end
       | None => None end) os (Some (client_init demo_user demo_sid))).
Definition demo_shape (e : cev) : string :=
  match e with
  | CvPassword _ => "asks for a password" | CvKey _ => "asks for a key" | CvPrompts _ _ _ _ _ => "shows prompts"
  | CvSign _ _ => "signs"
  | CvSend m _ => "sends"
  end%string.
Example C87_sample :
  option_map (map demo_shape) (demo_run (demo_before ++ [(CMsg (SFailure demo_fail), demo_an); (CMsg (SFailure demo_fail), demo_an2)])) =
  Some ["sends"; "asks for a password"; "sends"; "asks for a password"; "asks for a key"; "signs"; "sends"]%string.
Proof. vm_compute. reflexivity. Qed.

Print Assumptions C86_proper.
Print Assumptions C86_total.
Print Assumptions C86_sign_once.
Print Assumptions C87_password.
Print Assumptions C87_ed25519.
