(* ClientAuthProofs4.v - lemmas about ClientAuthModel: the invariant of a
   connection, and when a request is sent. *)
From Verif Require Import Base WireModel WireSpec WireProofs NameTable NegoModel NegoSpec NegoProofs AuthModel AuthSpec AuthProofs
  AuthStep AuthProps PathModel ClientAuthModel ClientAuthSpec ClientAuthProofs ClientAuthProofs2 ClientAuthProofs3.
From Coq Require Import List NArith Lia Bool String.
Import ListNotations.
Open Scope N_scope.
Local Notation "a ++ b" := (@app _ a b) : list_scope.

Lemma peer_cases : forall c v ids, peer_rel c v ids -> ids = [] \/ ids = decoded (match v with Some l => names_of l | None => [] end).
Proof.
  intros c [l|] ids ->; cbn [peer_of]; [|left; reflexivity]. destruct (_ =? _); [left|right]; reflexivity.
Qed.

Lemma same_cop : forall h o an v, announced h v -> (forall b, o <> CMsg (SExtInfo b)) -> announced (h ++ [(o, an)]) v.
Proof. intros. apply an_other; assumption. Qed.

Definition cinv (c : ccfg) (user sid : bytes) (h : list (cop * canswers)) (s : client) : Prop :=
  k_user s = user /\ k_sid s = sid /\ (exists v, announced h v /\ peer_rel c v (k_peer s)) /\
  countP is_sign (k_log s) <= b2n (k_pkdone s) <= countP is_given (k_log s).

(* one step, whatever its result *)
Lemma step_ok : forall c sg o an s s' r j user sid v,
  wf_op o -> small_signer sg -> small user -> small sid -> small_answers an ->
  k_user s = user -> k_sid s = sid -> peer_rel c v (k_peer s) ->
  cop_step c sg o an s = CR s' r j ->
  exists ev, k_log s' = k_log s ++ ev /\ k_user s' = user /\ k_sid s' = sid /\
    (ev = [] \/ exists ms, offers o ms /\
       Forall (proper sg user sid o ms (match v with Some l => names_of l | None => [] end) ev) ev) /\
    (countP is_sign ev + b2n (k_pkdone s) <= b2n (k_pkdone s') <= countP is_given ev + b2n (k_pkdone s)) /\
    match o with
    | CMsg (SExtInfo b) => ev = [] /\ (r = WS_BUFFER_E \/ (r = WS_SUCCESS /\ exists exts, ext_info b exts /\ peer_rel c (last_sig_algs v exts) (k_peer s')))
    | _ => k_peer s' = k_peer s
    end.
Proof.
  intros c sg o an s s' r j user sid v (Hb & Hl) Hsg Hu Hsid Han Eu Es Hv.
  pose proof (peer_cases _ _ _ Hv) as Hp.
  destruct o as [|[b|b|b|b] ]; cbn [cop_step client_step cop_bytes] in *.
  - unfold first_request. destruct (SendUserAuthRequest _ _ _ _ _) as [s1 r1] eqn:E. intros H. apply cfst in H. destruct H as (-> & _).
    destruct (send_request c sg an (mkMethods false false false) s s1 r1 user sid (match v with Some l => names_of l | None => [] end) [] CFirst Hsg Hu Hsid Han Eu Es Hp) as (ev & V1 & V2 & V3 & V4 & V5 & V6);
      [cbn; discriminate|cbn; discriminate|cbn; discriminate|reflexivity|exact E|].
    exists ev. split; [exact V1|]. split; [exact V2|]. split; [exact V3|].
    split; [right; exists []; split; [reflexivity|exact V5]|]. split; [exact V6|exact V4].
  - intros H. destruct (ext_step c b s s' r j v Hb Hl Hv H) as ((S1 & S2 & S3 & S4) & D).
    exists []. rewrite app_nil_r. split; [exact S3|]. split; [congruence|]. split; [congruence|]. split; [left; reflexivity|].
    split; [rewrite S4; cbn; lia|]. split; [reflexivity|exact D].
  - intros H. destruct (failure_step c sg an b s s' r j user sid _ Hb Hl Hsg Hu Hsid Han Eu Es Hp H) as (ev & V1 & V2 & V3 & V4 & V5 & V6).
    exists ev. split; [exact V1|]. split; [exact V2|]. split; [exact V3|]. split; [exact V5|]. split; [exact V6|exact V4].
  - unfold DoUserAuthSuccess. intros H. exists [].
    assert (X : k_log s' = k_log s /\ k_user s' = k_user s /\ k_sid s' = k_sid s /\ k_pkdone s' = k_pkdone s /\ k_peer s' = k_peer s).
    { destruct (negb _); apply cfst in H; destruct H as (-> & _); repeat split. }
    destruct X as (X1 & X2 & X3 & X4 & X5). rewrite app_nil_r. split; [exact X1|]. split; [congruence|]. split; [congruence|].
    split; [left; reflexivity|]. split; [rewrite X4; cbn; lia|exact X5].
  - destruct (cc_kb c).
    + intros H. destruct (info_step c sg an b s s' r j user sid (match v with Some l => names_of l | None => [] end) Hb Hl Han H)
        as (ev & V1 & (S1 & S2 & S3 & S4) & V3 & V4).
      exists ev. split; [exact V1|]. split; [congruence|]. split; [congruence|].
      split; [right; exists []; split; [reflexivity|exact V4]|]. split; [rewrite S4, V3; lia|exact S3].
    + intros H. apply cfst in H. destruct H as (-> & _). exists []. rewrite app_nil_r. split; [reflexivity|]. split; [exact Eu|]. split; [exact Es|].
      split; [left; reflexivity|]. split; [cbn; lia|reflexivity].
Qed.

Lemma reached_cinv : forall c sg user sid h s, small_signer sg -> small user -> small sid ->
  creached c sg user sid h s -> cinv c user sid h s.
Proof.
  intros c sg user sid h s Hsg Hu Hsid R. induction R as [|h s o an s' r j R IH Hw Han Hs Hg].
  - split; [reflexivity|]. split; [reflexivity|]. split; [exists None; split; [constructor|reflexivity]|]. cbn. lia.
  - destruct IH as (Eu & Es & (v & Hv & Hp) & Hc).
    destruct (step_ok c sg o an s s' r j user sid v Hw Hsg Hu Hsid Han Eu Es Hp Hs) as (ev & V1 & V2 & V3 & _ & V5 & V6).
    split; [exact V2|]. split; [exact V3|]. split; [|rewrite V1, !countP_app; lia].
    destruct o as [|[b|b|b|b] ];
      try (exists v; split; [apply an_other; [exact Hv|intros b0 X; discriminate X]|unfold peer_rel in *; congruence]).
    destruct V6 as (_ & [->|(_ & exts & X1 & X2)]); [discriminate|].
    exists (last_sig_algs v exts). split; [apply an_ext; assumption|exact X2].
Qed.

(* the announcement is determined by the history *)
Lemma exts_inj : forall exts parts rest exts' parts' rest',
  Forall2 (fun p (e : bytes * bytes) => is_strs p [fst e; snd e]) parts exts ->
  Forall2 (fun p (e : bytes * bytes) => is_strs p [fst e; snd e]) parts' exts' ->
  List.concat parts ++ rest = List.concat parts' ++ rest' -> List.length exts = List.length exts' -> exts = exts'.
Proof.
  induction exts as [|[a b] exts IH]; intros parts rest exts' parts' rest' F F' E L; destruct exts' as [|[a' b'] exts']; try discriminate L; [reflexivity|].
  inversion F as [|p ? ps ? F1 F2]; subst. inversion F' as [|p' ? ps' ? F1' F2']; subst. cbn [List.concat fst snd] in *.
  rewrite <- !app_assoc in E. destruct (is_strs_inj _ _ _ _ _ _ F1 F1' E eq_refl) as (X & Y). injection X as -> ->.
  f_equal. eapply IH; [exact F2|exact F2'|exact Y|]. cbn in L. lia.
Qed.

Lemma ext_info_inj : forall b e e', ext_info b e -> ext_info b e' -> e = e'.
Proof.
  intros b e e' (c & p & r & E & L & V & F) (c' & p' & r' & E' & L' & V' & F').
  assert (c = c').
  { rewrite <- (takeN_app_exact _ 4 c (List.concat p ++ r)), <- (takeN_app_exact _ 4 c' (List.concat p' ++ r')) by auto. congruence. }
  subst c'. rewrite E in E'. apply app_inv_head in E'. eapply exts_inj; [exact F|exact F'|exact E'|]. unfold lenN in *. lia.
Qed.

Lemma announced_fun : forall h v, announced h v -> forall v', announced h v' -> v = v'.
Proof.
  intros h v H. induction H as [|h v b an exts H IH E|h v o an H IH N]; intros v' H'.
  - inversion H' as [|h0 v0 b0 an0 exts0 A B C D|h0 v0 o0 an0 A B C D]; [reflexivity| |]; destruct h0; discriminate.
  - inversion H' as [X|h0 v0 b0 an0 exts0 A B C D|h0 v0 o0 an0 A B C D].
    + destruct h; discriminate.
    + apply app_inj_tail in C. destruct C as (-> & C). injection C as -> _. rewrite (IH _ A), (ext_info_inj _ _ _ E B). reflexivity.
    + apply app_inj_tail in C. destruct C as (_ & C). injection C as C _. exfalso. apply (B b). exact C.
  - inversion H' as [X|h0 v0 b0 an0 exts0 A B C D|h0 v0 o0 an0 A B C D].
    + destruct h; discriminate.
    + apply app_inj_tail in C. destruct C as (_ & C). injection C as C _. exfalso. apply (N b0). symmetry. exact C.
    + apply app_inj_tail in C. destruct C as (-> & C). apply IH. exact A.
Qed.

(* never outside the message *)
Lemma step_total : forall c sg o an s, wf_op o -> cop_step c sg o an s <> COob.
Proof.
  intros c sg o an s (Hb & Hl). destruct o as [|[b|b|b|b] ]; cbn [cop_step client_step cop_bytes] in *.
  - destruct (first_request c sg an s). discriminate.
  - unfold DoExtInfo. pose proof (read_u32 b 0 Hb Hl is32_0) as G.
    destruct (GetUint32 b (lenN b) 0) as [n i|? ?|]; [|discriminate|contradiction].
    destruct G as (cnt & _ & _ & _ & -> & C5).
    assert (Hi : is32 (0 + 4)) by (unfold is32, W32; lia).
    revert C5 Hi. generalize (0 + 4). generalize n. generalize s. clear s n.
    induction (List.length b) as [|fuel IH]; intros s n i Hil Hi; cbn [ext_loop]; destruct (n =? 0); try discriminate.
    rstr b i Hb Hl Hi x1 i1 E1 R1 J1; [|discriminate]. rstr b i1 Hb Hl J1 x2 i2 E2 R2 J2; [|discriminate].
    pose proof (read_str_le _ _ _ _ R2).
    destruct (_ =? _); [|apply IH; assumption]. destruct (DoExtInfoServerSigAlgs c x2 s) as [s1 r1]. destruct r1; try discriminate. apply IH; assumption.
  - unfold DoUserAuthFailure. destruct (lenN b =? 0); [discriminate|].
    destruct (GetNameList MAX_NAMELIST_CNT b (lenN b) 0) as [ids i|e i|] eqn:En; cbn [pbind];
      [|discriminate|exfalso; revert En; apply GetNameList_noob; (assumption || lia || apply is32_0)].
    destruct (auth_ids c ids); [|discriminate]. pose proof (read_bool b i Hl) as B.
    destruct (GetBoolean b (lenN b) i); cbn [pbind]; [|discriminate|contradiction].
    destruct (negb _); [discriminate|]. destruct (SendUserAuthRequest _ _ _ _ _). discriminate.
  - unfold DoUserAuthSuccess. destruct (negb _); discriminate.
  - destruct (cc_kb c); [|discriminate]. unfold DoUserAuthInfoRequest. destruct (lenN b =? 0); [discriminate|].
    pose proof (alloc_str b 0 Hb Hl is32_0) as G.
    destruct (GetStringAlloc b (lenN b) 0) as [n i1|? ?|]; cbn [pbind]; [|discriminate|contradiction]. destruct G as (n0 & _ & _ & J1).
    pose proof (alloc_str b i1 Hb Hl J1) as G.
    destruct (GetStringAlloc b (lenN b) i1) as [i i2|? ?|]; cbn [pbind]; [|discriminate|contradiction]. destruct G as (i0 & _ & _ & J2).
    pose proof (alloc_str b i2 Hb Hl J2) as G.
    destruct (GetStringAlloc b (lenN b) i2) as [l i3|? ?|]; cbn [pbind]; [|discriminate|contradiction]. destruct G as (l0 & _ & _ & J3).
    pose proof (read_u32 b i3 Hb Hl J3) as G.
    destruct (GetUint32 b (lenN b) i3) as [cnt i4|? ?|]; cbn [pbind]; [|discriminate|contradiction].
    destruct G as (cb & _ & _ & _ & C4 & C5). destruct (MAX_PROMPTS <? cnt); [discriminate|].
    assert (J4 : is32 i4) by (unfold is32, W32 in *; lia).
    pose proof (get_prompts_inv b Hb Hl (N.to_nat cnt) i4 J4 C5) as G.
    destruct (get_prompts (N.to_nat cnt) b (lenN b) i4) as [ps i5|? ?|]; cbn [pbind]; [|discriminate|contradiction].
    destruct (SendUserAuthKeyboardResponse _ _ _ _ _ _ _). discriminate.
Qed.

(* ---- when a request is sent --------------------------------------------------------- *)
Lemma filter_short : forall (f : N -> bool) l, (List.length (filter f l) <= List.length l)%nat.
Proof. intros f l. induction l as [|x l IH]; cbn; [lia|]. destruct (f x); cbn; lia. Qed.

Lemma names_short : forall ns, lenN (decoded ns) <= lenN ns.
Proof.
  intros [|n ns]; [cbn; lia|]. unfold decoded, ids_of_names, lenN. cbn [List.length].
  pose proof (filter_short (fun i => negb (i =? ID_UNKNOWN)) (map NameToId ns)) as X. rewrite map_length in X. lia.
Qed.

Lemma has_id : forall c ns ids' (name : string) id, auth_ids c (decoded ns) = ROk ids' -> In (ascii name) ns ->
  id = NameToId (ascii name) -> knownb (ascii name) = true -> id <> ID_USERAUTH_KEYBOARD \/ cc_kb c = true ->
  existsb (N.eqb id) ids' = true.
Proof.
  intros c ns ids' name id Ha Hin -> Hk Hn. apply existsb_in. pose proof (decoded_has ns _ Hin Hk) as H.
  revert Ha. unfold auth_ids. destruct (_ <? _); [discriminate|]. intros X. injection X as <-.
  destruct (cc_kb c); [exact H|]. destruct Hn as [Hn|Hn]; [|discriminate].
  destruct (decoded ns) as [|x l]; [exact H|]. destruct H as [H|H].
  - left. destruct (N.eqb_spec x ID_USERAUTH_KEYBOARD); [congruence|exact H].
  - right. apply filter_In. split; [exact H|]. apply negb_true_iff, N.eqb_neq. exact Hn.
Qed.

(* a failure message with at most three short names is understood *)
Lemma failure_fwd : forall c sg an b s ms, bytes_ok b -> lenN b <= 4096 -> failure_lists b ms -> lenN ms <= 3 ->
  exists ids' i, auth_ids c (decoded ms) = ROk ids' /\
    DoUserAuthFailure c sg an b s =
      (let has id := existsb (N.eqb id) ids' && existsb (N.eqb id) (supportedAuth c) in
       let t := mkMethods (has ID_USERAUTH_PASSWORD) (has ID_USERAUTH_PUBLICKEY)
                           (has ID_USERAUTH_KEYBOARD && (k_tries s <? 3)) in
       if negb (m_password t || m_key t || m_keyboard t) then CR s WS_USER_AUTH_E i
       else let '(s, r) := SendUserAuthRequest c sg an t s in CR s r i).
Proof.
  intros c sg an b s ms Hb Hl (f & names & flag & rest & Eb & Hf & ->) Hn.
  assert (H3 : is32 (lenN b)) by (unfold is32, W32; lia).
  destruct (read_fwd b 0 f names ([flag] ++ rest) Hb H3 Eb) as (G1 & D1 & L1); [lia|exact Hf|].
  destruct (bool_fwd b _ flag rest H3 L1 D1) as (G2 & _ & _).
  assert (Ln : lenN names <= 4096).
  { destruct Hf as (l & -> & _ & _ & _). rewrite Eb, !lenN_app in Hl. lia. }
  assert (GN : GetNameList MAX_NAMELIST_CNT b (lenN b) 0 = POk (decoded (names_of names)) (0 + lenN f)).
  { unfold GetNameList. assert (X : lenN b =? 0 = false).
    { apply N.eqb_neq. rewrite Eb, !lenN_app. change (lenN [flag]) with 1. lia. }
    rewrite X. unfold GetStr in G1. destruct (GetStringRef b (lenN b) 0) as [p i|? ?|]; cbn [pbind] in *; try discriminate.
    destruct (rdn b (fst p) (snd p)); [|discriminate]. injection G1 as -> ->.
    rewrite GetNameListRaw_eq. destruct (N.ltb_spec 4096 (lenN names)); [lia|]. cbv zeta.
    pose proof (names_short (names_of names)) as Y. destruct (N.ltb_spec 64 (lenN (names_of names))); [lia|].
    destruct (N.ltb_spec MAX_NAMELIST_CNT (lenN (decoded (names_of names)))) as [Z|Z]; [unfold MAX_NAMELIST_CNT in Z; lia|]. reflexivity. }
  assert (AI : exists ids', auth_ids c (decoded (names_of names)) = ROk ids').
  { pose proof (names_short (names_of names)) as Y. unfold auth_ids. destruct (cc_kb c).
    - destruct (N.ltb_spec 4 (lenN (decoded (names_of names)))); [lia|]. eauto.
    - destruct (decoded (names_of names)) as [|x l]; [cbn; eauto|].
      match goal with |- context [3 <? lenN ?z] => destruct (N.ltb_spec 3 (lenN z)) as [Z|Z] end; [|eauto].
      exfalso. rewrite lenN_cons in Y. unfold lenN in *. cbn [List.length] in Z.
      pose proof (filter_short (fun y => negb (y =? ID_USERAUTH_KEYBOARD)) l). lia. }
  destruct AI as (ids' & AI). exists ids', (0 + lenN f + 1). split; [exact AI|].
  unfold DoUserAuthFailure. assert (X : lenN b =? 0 = false).
  { apply N.eqb_neq. rewrite Eb, !lenN_app. change (lenN [flag]) with 1. lia. }
  rewrite X, GN. cbn [pbind]. rewrite AI, G2. cbn [pbind]. reflexivity.
Qed.
