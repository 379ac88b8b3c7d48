(* ClientAuthProofs2.v - lemmas about ClientAuthModel: what is read from the
   server's messages, and what a step does. *)
From Verif Require Import Base WireModel WireSpec WireProofs NameTable NegoModel NegoSpec NegoProofs AuthModel AuthSpec AuthProofs
  AuthStep AuthProps PathModel ClientAuthModel ClientAuthSpec ClientAuthProofs.
From Coq Require Import List NArith Lia Bool String.
Import ListNotations.
Open Scope N_scope.
Local Notation "a ++ b" := (@app _ a b) : list_scope.

Definition b2n (b : bool) : N := if b then 1 else 0.

Lemma snoc2 : forall (A : Type) (l : list A) a b, (l ++ [a]) ++ [b] = l ++ [a; b].
Proof. intros. rewrite <- app_assoc. reflexivity. Qed.
Lemma small0 : is32 (lenN (@nil N)). Proof. vm_compute. reflexivity. Qed.

(* ---- sending a request ---------------------------------------------------- *)
Lemma build_key : forall sg user sid k ks name kd r ev before h,
  small_signer sg -> small sid -> small (pk_blob k) ->
  In (name, kd) sig_table -> kind_of (ks_id ks) = Some kd -> ks_id ks = NameToId (ascii name) ->
  (kd = KRsa -> name <> "ssh-rsa"%string) -> request_algo k ks = ascii name ->
  before = 50 :: h -> request_head h user "publickey" ->
  BuildKey sg sid before k ks = (r, ev) ->
  exists ab msg, is_strs ab [ascii name; pk_blob k] /\ signed_message sid (h ++ [1] ++ ab) [] msg /\
    ev = [CvSign (pk_priv k) msg] /\
    match r with
    | RErr _ => True
    | ROk m => exists m' sig, m = 50 :: m' /\
        key_request m' user 1 (ascii name) (pk_blob k) sig (h ++ [1] ++ ab) [] /\ signs sg (ascii name) (pk_priv k) msg sig
    end.
Proof.
  intros sg user sid k ks name kd r ev before h Hsg Hsid Hbl Hin Hk Hid Hr Ha -> Hh.
  destruct (row_facts _ _ Hin) as (_ & _ & _ & R4).
  unfold BuildKey. rewrite Ha. cbv zeta.
  set (ab := (c32toa (lenN (ascii name)) ++ ascii name) ++ c32toa (lenN (pk_blob k)) ++ pk_blob k).
  assert (Hab : is_strs ab [ascii name; pk_blob k]).
  { unfold ab. apply strs_cons; [apply put_str; unfold is32, W32; lia|apply strs_one, put_str, small32; exact Hbl]. }
  assert (Eb : (50 :: h) ++ [1] ++ c32toa (lenN (ascii name)) ++ ascii name ++ c32toa (lenN (pk_blob k)) ++ pk_blob k
               = 50 :: h ++ [1] ++ ab).
  { unfold ab. rewrite <- (app_assoc _ (ascii name)). reflexivity. }
  rewrite Eb.
  set (msg := c32toa (lenN sid) ++ sid ++ 50 :: h ++ [1] ++ ab).
  assert (Hm : signed_message sid (h ++ [1] ++ ab) [] msg).
  { exists (c32toa (lenN sid) ++ sid). split; [apply put_str, small32; exact Hsid|].
    unfold msg. rewrite app_nil_r, <- app_assoc. reflexivity. }
  intros H. injection H as <- <-. exists ab, msg. split; [exact Hab|]. split; [exact Hm|]. split; [reflexivity|].
  destruct (BuildSignature sg k ks msg) as [f|e] eqn:Es; [|exact I].
  destruct (build_signature sg k ks name kd msg f Hsg Hin Hk Hid Hr Es) as (sig & F1 & F2).
  eexists _, sig. split; [reflexivity|]. split; [|exact F2].
  exists h, ab, f. split; [reflexivity|]. split; [rewrite app_nil_r; reflexivity|]. split; [exact Hh|].
  split; [discriminate|]. split; [exact Hab|exact F1].
Qed.

Ltac sc := cbn [send_payload clog set_tries set_pkdone k_log k_user k_sid k_peer k_pkdone].
Ltac cnt := unfold countP, lenN; cbn; lia.
Lemma pfst : forall (A B : Type) (a c : A) (b d : B), (a, b) = (c, d) -> c = a.
Proof. congruence. Qed.
Ltac inj H := intros H; unfold send_payload in H; apply pfst in H; rewrite H; clear H.
Ltac pieces := repeat (match goal with |- (_ = _) /\ _ => split; [solve [reflexivity | assumption | congruence]|] end); split.
Lemma send_request : forall c sg an t s s' r user sid ns ms o,
  small_signer sg -> small user -> small sid -> small_answers an ->
  k_user s = user -> k_sid s = sid -> (k_peer s = [] \/ k_peer s = decoded ns) ->
  (m_password t = true -> In (ascii "password") ms) ->
  (m_key t = true -> In (ascii "publickey") ms) ->
  (m_keyboard t = true -> In (ascii "keyboard-interactive") ms /\ cc_kb c = true) ->
  (m_password t = false -> m_key t = false -> m_keyboard t = false -> o = CFirst) ->
  SendUserAuthRequest c sg an t s = (s', r) ->
  exists ev, k_log s' = k_log s ++ ev /\ k_user s' = user /\ k_sid s' = sid /\ k_peer s' = k_peer s /\
    Forall (proper sg user sid o ms ns ev) ev /\
    (countP is_sign ev + b2n (k_pkdone s) <= b2n (k_pkdone s') <= countP is_given ev + b2n (k_pkdone s)).
Proof.
  intros c sg an t s s' r user sid ns ms o Hsg Hu Hsid (A1 & A2 & A3) Eu Es Hp Tp Tk Tb T0.
  assert (Hu32 : is32 (lenN user)) by (apply small32; exact Hu).
  unfold SendUserAuthRequest, choose.
  destruct (cc_kb c && m_keyboard t) eqn:Ekb.
  { (* keyboard-interactive *)
    apply andb_true_iff in Ekb. destruct Ekb as (Ekb & Etb). destruct (Tb Etb) as (Im & _).
    cbn [choice_id]. let H := fresh in inj H.
    eexists [_]. sc. split; [reflexivity|]. split; [assumption|]. split; [assumption|]. split; [reflexivity|].
    split; [|destruct (k_pkdone s); cnt].
    constructor; [|constructor]. cbn [proper].
    destruct (start_head (k_user s) ID_USERAUTH_KEYBOARD "keyboard-interactive"%string) as (h & E1 & E2);
      [rewrite Eu; exact Hu32|vm_compute; reflexivity|vm_compute; reflexivity|].
    rewrite E1. cbn [app]. apply pt_keyboard; [exact Im|]. exists h, (c32toa 0 ++ c32toa 0). rewrite Eu in E2.
    split; [reflexivity|]. split; [exact E2|].
    exists [c32toa 0; c32toa 0]. split; [reflexivity|].
    constructor; [apply (put_str [] small0)|constructor; [apply (put_str [] small0)|constructor]]. }
  destruct (cc_cb c) eqn:Ecb; cbn [negb].
  2:{ let H := fresh in inj H. exists []. rewrite app_nil_r. pieces; [constructor|cnt]. }
  assert (KEY : forall ev0 s0, k_log s0 = k_log s ++ ev0 -> k_user s0 = user -> k_sid s0 = sid -> k_peer s0 = k_peer s ->
    k_pkdone s0 = k_pkdone s -> (countP is_sign ev0 = 0 /\ countP is_given ev0 = 0) ->
    (forall ev, Forall (proper sg user sid o ms ns ev) ev0) -> m_key t = true ->
    (let s1 := clog (CvKey (an_key an)) s0 in
     match (s1, match an_key an with Some k => Some (ChKey k) | None => None end) with
     | (s, None) => (s, WS_FATAL_ERROR)
     | (s, Some ch) =>
      let id := choice_id ch in
      let payloadSz := add32 (1 + 4 * 3) (add32 (lenN (k_user s)) (lenN name_connection + lenN (IdToName id))) in
      let start := request_start (k_user s) id in
      match ch with
      | ChNone => send_payload an start payloadSz s
      | ChPassword pw =>
          match PreparePassword payloadSz pw with
          | RErr e => (s, e)
          | ROk est => send_payload an (start ++ BuildPassword pw) est s
          end
      | ChKeyboard =>
          let s := set_tries (add32 (k_tries s) 1 mod 256) s in
          send_payload an (start ++ c32toa 0 ++ c32toa 0) payloadSz s
      | ChKey k =>
          if k_pkdone s then (s, WS_INVALID_ALGO_ID)
          else
            let s := set_pkdone true s in
            match PrepareKey sg (k_peer s) payloadSz k with
            | RErr e => (s, e)
            | ROk ks =>
                let '(r, ev) := BuildKey sg (k_sid s) start k ks in
                let s := fold_left (fun s e => clog e s) ev s in
                match r with
                | RErr e => (s, e)
                | ROk m => send_payload an m (ks_est ks) s
                end
            end
      end
     end) = (s', r) ->
    exists ev, k_log s' = k_log s ++ ev /\ k_user s' = user /\ k_sid s' = sid /\ k_peer s' = k_peer s /\
      Forall (proper sg user sid o ms ns ev) ev /\
      (countP is_sign ev + b2n (k_pkdone s) <= b2n (k_pkdone s') <= countP is_given ev + b2n (k_pkdone s))).
  { intros ev0 s0 L0 U0 S0 P0 D0 (C0 & C1) F0 Ik. cbv zeta. specialize (Tk Ik).
    destruct (an_key an) as [k|] eqn:Ek.
    2:{ let H := fresh in inj H. exists (ev0 ++ [CvKey None]). sc. rewrite L0, app_assoc. pieces.
        - apply Forall_app. split; [apply F0|]. constructor; [exact Tk|constructor].
        - rewrite !countP_app, C0, C1, D0. cnt. }
    cbn [choice_id]. change (k_pkdone (clog (CvKey (Some k)) s0)) with (k_pkdone s0).
    destruct (k_pkdone s0) eqn:Ed.
    { let H := fresh in inj H. exists (ev0 ++ [CvKey (Some k)]). sc. rewrite L0, app_assoc. pieces.
      - apply Forall_app. split; [apply F0|]. constructor; [exact Tk|constructor].
      - rewrite !countP_app, C0, C1, <- D0, Ed. cnt. }
    change (k_peer (set_pkdone true (clog (CvKey (Some k)) s0))) with (k_peer s0).
    change (k_user (clog (CvKey (Some k)) s0)) with (k_user s0).
    change (k_sid (set_pkdone true (clog (CvKey (Some k)) s0))) with (k_sid s0).
    rewrite U0, S0, P0.
    set (psz := add32 (1 + 4 * 3) _).
    assert (ERR : forall e, (set_pkdone true (clog (CvKey (Some k)) s0), e) = (s', r) ->
      exists ev, k_log s' = k_log s ++ ev /\ k_user s' = user /\ k_sid s' = sid /\ k_peer s' = k_peer s /\
      Forall (proper sg user sid o ms ns ev) ev /\
      (countP is_sign ev + b2n (k_pkdone s) <= b2n (k_pkdone s') <= countP is_given ev + b2n (k_pkdone s))).
    { intros e; let H := fresh in inj H. exists (ev0 ++ [CvKey (Some k)]). sc. rewrite L0, app_assoc. pieces.
      - apply Forall_app. split; [apply F0|]. constructor; [exact Tk|constructor].
      - rewrite !countP_app, C0, C1, <- D0, ?Ed. cnt. }
    destruct (PrepareKey sg (k_peer s) psz k) as [ks|e] eqn:Epk; [|apply ERR].
    assert (Epk2 : PrepareKey sg (decoded ns) psz k = ROk ks).
    { destruct Hp as [Hp|Hp]; rewrite Hp in Epk; [|exact Epk]. unfold PrepareKey in Epk. cbn in Epk. discriminate. }
    destruct (prepare_key _ _ _ _ _ Epk2) as (name & kd & n & P1 & P2 & P3 & P4 & P5 & P6 & P7 & P8 & P9).
    destruct (A2 k eq_refl) as (Kt & Kb).
    destruct (start_head user ID_USERAUTH_PUBLICKEY "publickey"%string Hu32) as (h & E1 & E2);
      [vm_compute; reflexivity|vm_compute; reflexivity|].
    destruct (BuildKey sg sid (request_start user ID_USERAUTH_PUBLICKEY) k ks) as [rr ev] eqn:Eb.
    assert (Nr : kd = KRsa -> name <> "ssh-rsa"%string) by (intros ->; exact (proj2 P9)).
    destruct (build_key sg user sid k ks name kd rr ev _ h Hsg Hsid Kb P1 P2 P3 Nr P5 E1 E2 Eb) as (ab & msg & B1 & B2 & -> & B4).
    cbn [fold_left].
    assert (PS : forall ev, In (CvKey (Some k)) ev -> proper sg user sid o ms ns ev (CvSign (pk_priv k) msg)).
    { intros ev Hev. exists k, (ascii name), h, ab. split; [exact Hev|]. split; [reflexivity|]. split; [exact P4|].
      split; [exact E2|]. split; [exact B1|exact B2]. }
    destruct rr as [m|e].
    - destruct B4 as (m' & sig & -> & B5 & B6). let H := fresh in inj H.
      exists (ev0 ++ [CvKey (Some k); CvSign (pk_priv k) msg; CvSend (50 :: m') (ks_est ks)]). sc.
      rewrite L0, <- !app_assoc. sc. split; [reflexivity|]. pieces.
      + assert (I1 : In (CvKey (Some k)) (ev0 ++ [CvKey (Some k); CvSign (pk_priv k) msg; CvSend (50 :: m') (ks_est ks)]))
          by (apply in_app_iff; right; left; reflexivity).
        assert (I2 : In (CvSign (pk_priv k) msg) (ev0 ++ [CvKey (Some k); CvSign (pk_priv k) msg; CvSend (50 :: m') (ks_est ks)]))
          by (apply in_app_iff; right; right; left; reflexivity).
        apply Forall_app. split; [apply F0|]. constructor; [exact Tk|]. constructor; [apply PS; exact I1|].
        constructor; [|constructor]. cbn [proper]. eapply pt_key; eassumption.
      + rewrite !countP_app, C0, C1, <- D0, ?Ed. cnt.
    - let H := fresh in inj H. exists (ev0 ++ [CvKey (Some k); CvSign (pk_priv k) msg]). sc.
      rewrite L0, <- !app_assoc. sc. split; [reflexivity|]. pieces.
      + apply Forall_app. split; [apply F0|]. constructor; [exact Tk|]. constructor; [|constructor]. apply PS.
        apply in_app_iff; right; left; reflexivity.
      + rewrite !countP_app, C0, C1, <- D0, ?Ed. cnt. }
  destruct (m_password t) eqn:Etp.
  - specialize (Tp eq_refl). destruct (an_password an) as [pw|] eqn:Epw.
    + cbn [choice_id]. change (k_user (clog (CvPassword (Some pw)) s)) with (k_user s).
      destruct (PreparePassword _ pw) as [est|e].
      2:{ let H := fresh in inj H. exists [CvPassword (Some pw)]. sc. pieces.
          - constructor; [exact Tp|constructor].
          - cnt. }
      let H := fresh in inj H. eexists [_; _]. cbn [clog k_log k_user k_sid k_peer k_pkdone].
      rewrite snoc2. split; [reflexivity|]. split; [assumption|]. split; [assumption|]. split; [reflexivity|].
      split; [|cnt].
      constructor; [exact Tp|]. constructor; [|constructor]. cbn [proper].
      destruct (start_head (k_user s) ID_USERAUTH_PASSWORD "password"%string) as (h & E1 & E2);
        [rewrite Eu; exact Hu32|vm_compute; reflexivity|vm_compute; reflexivity|].
      rewrite E1. rewrite Eu in E2. unfold BuildPassword. cbn [app].
      apply (pt_password sg user sid o ms ns _ h (c32toa (lenN pw) ++ pw) pw); [exact Tp|left; reflexivity|exact E2|].
      apply put_str. apply small32. apply A1. reflexivity.
    + destruct (m_key t) eqn:Etk.
      * apply (KEY [CvPassword None] (clog (CvPassword None) s)); auto.
      * let H := fresh in inj H. exists [CvPassword None]. sc. pieces.
        -- constructor; [exact Tp|constructor].
        -- cnt.
  - destruct (m_key t) eqn:Etk.
    + apply (KEY [] s); auto. rewrite app_nil_r. reflexivity.
    + cbn [choice_id]. let H := fresh in inj H. eexists [_]. cbn [clog k_log k_user k_sid k_peer k_pkdone].
      split; [reflexivity|]. split; [assumption|]. split; [assumption|]. split; [reflexivity|]. split; [|cnt].
      constructor; [|constructor]. cbn [proper].
      destruct (start_head (k_user s) ID_NONE "none"%string) as (h & E1 & E2);
        [rewrite Eu; exact Hu32|vm_compute; reflexivity|vm_compute; reflexivity|].
      rewrite E1. rewrite Eu in E2. apply pt_none; [|exact E2].
      apply T0; [reflexivity|reflexivity|]. destruct (m_keyboard t) eqn:Etb; [|reflexivity].
      destruct (Tb eq_refl) as (_ & X). rewrite X in Ekb. discriminate.
Qed.
