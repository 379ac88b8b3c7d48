(* ClientAuthProofs3.v - lemmas about ClientAuthModel: reading the server's
   messages, and the invariant of a connection. *)
From Verif Require Import Base WireModel WireSpec WireProofs NameTable NegoModel NegoSpec NegoProofs AuthModel AuthSpec AuthProofs
  AuthStep AuthProps PathModel ClientAuthModel ClientAuthSpec ClientAuthProofs ClientAuthProofs2.
From Coq Require Import List NArith Lia Bool String.
Import ListNotations.
Open Scope N_scope.
Local Notation "a ++ b" := (@app _ a b) : list_scope.

Lemma GetStr_err : forall m i e j, bytes_ok m -> is32 (lenN m) -> is32 i ->
  GetStr m (lenN m) i = PErr e j -> e = WS_BUFFER_E.
Proof.
  intros m i e j Hm Hl Hi. rewrite GetStr_eq by assumption. destruct (_ <=? _); [|congruence]. cbv zeta.
  destruct (_ <=? _); congruence.
Qed.

Lemma alloc_str : forall m i, bytes_ok m -> is32 (lenN m) -> is32 i ->
  match GetStringAlloc m (lenN m) i with
  | POk p j => exists b, p = b ++ [0] /\ read_str m i b j /\ is32 j
  | PErr e _ => e = WS_BUFFER_E
  | POob => False
  end.
Proof.
  intros m i Hm Hl Hi. pose proof (GetStr_inv m i Hm Hl Hi) as G. rewrite GetStr_eq in G by assumption.
  rewrite GetStringAlloc_eq by (assumption || lia).
  destruct (i + 4 <=? lenN m); [|reflexivity]. cbv zeta in *.
  destruct (i + 4 + be_value (slice m i 4) <=? lenN m); [|reflexivity].
  eexists. split; [reflexivity|exact G].
Qed.

Lemma cstr_text : forall b, text_of b (cstr (b ++ [0])).
Proof.
  induction b as [|x b IH]; [constructor|]. cbn [app cstr].
  destruct (N.eqb_spec x 0) as [->|H]; [constructor|constructor; assumption].
Qed.

Lemma dropN_rd : forall m i v, rd m i = Some v -> dropN i m = v :: dropN (i + 1) m.
Proof.
  intros m i v. unfold rd, dropN. replace (N.to_nat (i + 1)) with (S (N.to_nat i)) by lia.
  revert m. induction (N.to_nat i) as [|n IH]; intros [|x m]; cbn; intros H; try discriminate.
  - injection H as ->. reflexivity.
  - apply IH. exact H.
Qed.

Lemma read_bool : forall m i, is32 (lenN m) ->
  match GetBoolean m (lenN m) i with
  | POk v j => dropN i m = v :: dropN j m /\ j = i + 1 /\ j <= lenN m
  | PErr e _ => e = WS_BUFFER_E
  | POob => False
  end.
Proof.
  intros m i Hl. rewrite GetBoolean_eq by (assumption || lia). rewrite takeN_all by lia.
  destruct (rd m i) as [v|] eqn:E; [|reflexivity]. pose proof (rd_lt _ _ _ E).
  split; [apply dropN_rd; exact E|lia].
Qed.

Lemma get_prompts_inv : forall m, bytes_ok m -> is32 (lenN m) -> forall n i, is32 i -> i <= lenN m ->
  match get_prompts n m (lenN m) i with
  | POk ps j => exists ps0 parts, dropN i m = List.concat parts ++ dropN j m /\ Forall2 prompt_field parts ps0 /\
      Forall2 (fun p q => text_of (fst p) (fst q) /\ snd p = snd q) ps0 ps /\ lenN ps0 = N.of_nat n /\ lenN ps = N.of_nat n /\
      j <= lenN m
  | PErr e _ => e = WS_BUFFER_E
  | POob => False
  end.
Proof.
  intros m Hm H3. induction n as [|n IH]; intros i Hi Hl; cbn [get_prompts].
  - exists [], []. split; [reflexivity|]. split; [constructor|]. split; [constructor|]. split; [reflexivity|]. split; [reflexivity|exact Hl].
  - pose proof (alloc_str m i Hm H3 Hi) as G.
    destruct (GetStringAlloc m (lenN m) i) as [p j|? ?|]; cbn [pbind]; [|exact G|exact G].
    destruct G as (b & -> & (f & F1 & F2 & F3 & F4 & F5 & F6) & Hj).
    pose proof (read_bool m j H3) as B.
    destruct (GetBoolean m (lenN m) j) as [v k|? ?|]; cbn [pbind]; [|exact B|exact B]. destruct B as (B1 & -> & B3).
    assert (Hk : is32 (j + 1)) by (unfold is32, W32 in *; lia).
    specialize (IH (j + 1) Hk B3).
    destruct (get_prompts n m (lenN m) (j + 1)) as [r q|? ?|]; cbn [pbind]; [|exact IH|exact IH].
    destruct IH as (ps0 & parts & I1 & I2 & I3 & I4 & I4' & I5).
    exists ((b, v) :: ps0), ((f ++ [v]) :: parts). split; [|split; [|split; [|split; [|split] ] ] ].
    + rewrite F1, B1, I1. cbn [List.concat]. rewrite <- !app_assoc. reflexivity.
    + constructor; [|exact I2]. exists f. split; [reflexivity|exact F2].
    + constructor; [|exact I3]. split; [apply cstr_text|reflexivity].
    + unfold lenN in *. cbn [List.length]. lia.
    + unfold lenN in *. cbn [List.length]. lia.
    + exact I5.
Qed.

Lemma read_u32 : forall m i, bytes_ok m -> is32 (lenN m) -> is32 i ->
  match GetUint32 m (lenN m) i with
  | POk v j => exists cnt, dropN i m = cnt ++ dropN j m /\ lenN cnt = 4 /\ be_value cnt = v /\ j = i + 4 /\ j <= lenN m
  | PErr e _ => e = WS_BUFFER_E
  | POob => False
  end.
Proof.
  intros m i Hm Hl Hi. rewrite GetUint32_eq by (assumption || lia).
  destruct (N.leb_spec (i + 4) (lenN m)) as [H|H]; [|reflexivity].
  exists (slice m i 4). split; [apply slice_dropN; exact H|]. split; [apply slice_length; exact H|]. repeat split. exact H.
Qed.

Lemma cfst : forall s r j s' r' j', CR s r j = CR s' r' j' -> s' = s /\ r' = r.
Proof. intros s r j s' r' j' H. split; congruence. Qed.

(* ---- the prompts ------------------------------------------------------------ *)
Lemma answers_msg : forall rs, lenN rs < 2 ^ 28 -> Forall small rs ->
  answers_message (c32toa (lenN rs) ++ List.concat (map (fun r => c32toa (lenN r) ++ r) rs)) rs.
Proof.
  intros rs Hl F. eexists _, _. split; [reflexivity|]. split; [apply c32toa_length|].
  split; [apply be_value_c32toa; unfold is32, W32; change (2 ^ 28) with 268435456 in Hl; lia|].
  eexists. split; [reflexivity|]. clear Hl. induction F as [|r rs Hr F IH]; cbn [map]; constructor; [|exact IH].
  apply put_str, small32. exact Hr.
Qed.

Definition same (s s' : client) : Prop :=
  k_user s' = k_user s /\ k_sid s' = k_sid s /\ k_peer s' = k_peer s /\ k_pkdone s' = k_pkdone s.

Lemma info_step : forall c sg an b s s' r j user sid ns, bytes_ok b -> is32 (lenN b) -> small_answers an ->
  DoUserAuthInfoRequest c an b s = CR s' r j ->
  exists ev, k_log s' = k_log s ++ ev /\ same s s' /\ countP is_sign ev = 0 /\
    Forall (proper sg user sid (CMsg (SInfoRequest b)) [] ns ev) ev.
Proof.
  intros c sg an b s s' r j user sid ns Hb Hl (_ & _ & A3). unfold DoUserAuthInfoRequest.
  assert (NO : forall e x, CR s e x = CR s' r j -> exists ev, k_log s' = k_log s ++ ev /\ same s s' /\ countP is_sign ev = 0 /\
    Forall (proper sg user sid (CMsg (SInfoRequest b)) [] ns ev) ev).
  { intros e x H. injection H as <- _ _. exists []. rewrite app_nil_r. repeat split. constructor. }
  destruct (lenN b =? 0); [apply NO|].
  pose proof (alloc_str b 0 Hb Hl is32_0) as G.
  destruct (GetStringAlloc b (lenN b) 0) as [n i1|? ?|]; cbn [pbind]; [|apply NO|contradiction].
  destruct G as (n0 & -> & R1 & J1).
  pose proof (alloc_str b i1 Hb Hl J1) as G.
  destruct (GetStringAlloc b (lenN b) i1) as [i i2|? ?|]; cbn [pbind]; [|apply NO|contradiction].
  destruct G as (i0 & -> & R2 & J2).
  pose proof (alloc_str b i2 Hb Hl J2) as G.
  destruct (GetStringAlloc b (lenN b) i2) as [l i3|? ?|]; cbn [pbind]; [|apply NO|contradiction].
  destruct G as (l0 & -> & R3 & J3).
  pose proof (read_u32 b i3 Hb Hl J3) as G.
  destruct (GetUint32 b (lenN b) i3) as [cnt i4|? ?|]; cbn [pbind]; [|apply NO|contradiction].
  destruct G as (cb & C1 & C2 & C3 & C4 & C5).
  destruct (MAX_PROMPTS <? cnt); [apply NO|].
  assert (J4 : is32 i4) by (unfold is32, W32 in *; lia).
  pose proof (get_prompts_inv b Hb Hl (N.to_nat cnt) i4 J4 C5) as G.
  destruct (get_prompts (N.to_nat cnt) b (lenN b) i4) as [ps i5|? ?|]; cbn [pbind]; [|apply NO|contradiction].
  destruct G as (ps0 & parts & G1 & G2 & G3 & G4 & G4' & G5). rewrite N2Nat.id in G4, G4'.
  assert (RS : read_strs b 0 [n0; i0; l0] i3) by chain.
  destruct RS as (hd & E1 & E2 & E3 & E4). rewrite dropN_0 in E1.
  assert (INFO : info_request b n0 i0 l0 ps0).
  { exists hd, cb, parts, (dropN i5 b). split; [rewrite E1 at 1; rewrite C1, G1; reflexivity|]. split; [exact E2|].
    split; [exact C2|]. split; [congruence|exact G2]. }
  unfold SendUserAuthKeyboardResponse.
  destruct (cc_cb c); cbn [negb]; [|apply NO].
  assert (PP : forall ev a, proper sg user sid (CMsg (SInfoRequest b)) [] ns ev (CvPrompts (cstr (n0 ++ [0])) (cstr (i0 ++ [0])) (cstr (l0 ++ [0])) ps a)).
  { intros ev a. exists b, n0, i0, l0, ps0. split; [reflexivity|]. split; [exact INFO|].
    split; [apply cstr_text|]. split; [apply cstr_text|]. split; [apply cstr_text|exact G3]. }
  destruct (an_prompts an) as [rs|] eqn:Ea.
  2:{ intros H. injection H as <- _ _. eexists [_]. split; [reflexivity|]. split; [repeat split|]. split; [reflexivity|].
      constructor; [apply PP|constructor]. }
  destruct (A3 rs eq_refl) as (S1 & S2).
  destruct (N.eqb_spec (lenN ps) (lenN rs)) as [En|En]; cbn [negb].
  2:{ intros H. injection H as <- _ _. eexists [_]. split; [reflexivity|]. split; [repeat split|]. split; [reflexivity|].
      constructor; [apply PP|constructor]. }
  unfold send_payload. intros H. apply cfst in H. destruct H as (-> & _).
  eexists [_; _]. split; [cbn [clog k_log]; rewrite snoc2; reflexivity|]. split; [repeat split|]. split; [reflexivity|].
  constructor; [apply PP|]. constructor; [|constructor]. cbn [proper app].
  eapply pt_answers; [left; reflexivity|exact En|]. apply answers_msg; assumption.
Qed.

(* ---- EXT_INFO ------------------------------------------------------------------ *)
Definition peer_of (c : ccfg) (v : option bytes) : list N :=
  match v with
  | None => []
  | Some l => if MatchIdLists Client (decoded (names_of l)) (cc_own c) =? ID_UNKNOWN then [] else decoded (names_of l)
  end.
Definition peer_rel (c : ccfg) (v : option bytes) (ids : list N) : Prop := ids = peer_of c v.

Definition same_log (s s' : client) : Prop :=
  k_user s' = k_user s /\ k_sid s' = k_sid s /\ k_log s' = k_log s /\ k_pkdone s' = k_pkdone s.

Lemma sig_algs_step : forall c l s s' r, DoExtInfoServerSigAlgs c l s = (s', r) ->
  same_log s s' /\ ((r = WS_SUCCESS /\ peer_rel c (Some l) (k_peer s')) \/ (r = WS_BUFFER_E /\ s' = s)).
Proof.
  intros c l s s' r. unfold DoExtInfoServerSigAlgs. destruct (GetNameListRaw MAX_NAMELIST_CNT l) as [ids|e] eqn:E.
  - apply raw_ok in E. unfold peer_rel, peer_of. rewrite <- E. destruct (N.eqb_spec (lenN ids) 0) as [E0|E0].
    + apply lenN_0 in E0. intros H. injection H as <- <-. split; [repeat split|]. left. split; [reflexivity|]. cbn [set_peer k_peer].
      rewrite E0. destruct (_ =? _); reflexivity.
    + destruct (MatchIdLists Client ids (cc_own c) =? ID_UNKNOWN);
        intros H; injection H as <- <-; (split; [repeat split|]); left; (split; reflexivity).
  - apply raw_err in E. intros H. injection H as <- <-. split; [repeat split|]. right. auto.
Qed.

Lemma ext_name : forall nm, NameToId nm = ID_EXTINFO_SERVER_SIG_ALGS <-> nm = ascii "server-sig-algs".
Proof. intros nm. split; [intros H; nm "server-sig-algs"%string|intros ->; vm_compute; reflexivity]. Qed.

Lemma ext_loop_inv : forall c m, bytes_ok m -> is32 (lenN m) -> forall fuel n i s v, is32 i -> i <= lenN m ->
  peer_rel c v (k_peer s) ->
  match ext_loop c fuel n m i s with
  | COob => False
  | CR s' r j => same_log s s' /\
      (r = WS_BUFFER_E \/
       (r = WS_SUCCESS /\ exists exts parts, dropN i m = List.concat parts ++ dropN j m /\
          Forall2 (fun p e => is_strs p [fst e; snd e]) parts exts /\ lenN exts = n /\
          peer_rel c (last_sig_algs v exts) (k_peer s')))
  end.
Proof.
  intros c m Hm Hl. induction fuel as [|fuel IH]; intros n i s v Hi Hil Hv; cbn [ext_loop].
  { destruct (N.eqb_spec n 0) as [->|Hn].
    - split; [repeat split|]. right. split; [reflexivity|]. exists [], []. split; [reflexivity|]. split; [constructor|]. split; [reflexivity|exact Hv].
    - split; [repeat split|]. left. reflexivity. }
  destruct (N.eqb_spec n 0) as [->|Hn].
  { split; [repeat split|]. right. split; [reflexivity|]. exists [], []. split; [reflexivity|]. split; [constructor|]. split; [reflexivity|exact Hv]. }
  pose proof (GetStr_err m i) as X1. rstr m i Hm Hl Hi nam i1 E1 R1 J1.
  2:{ split; [repeat split|]. left. eapply X1; eauto. }
  pose proof (GetStr_err m i1) as X2. rstr m i1 Hm Hl J1 w i2 E2 R2 J2.
  2:{ split; [repeat split|]. left. eapply X2; eauto. }
  assert (RS : read_strs m i [nam; w] i2) by chain.
  destruct RS as (f & F1 & F2 & F3 & F4).
  assert (GO : forall s1 v1, same_log s s1 -> v1 = last_sig_algs v [(nam, w)] -> peer_rel c v1 (k_peer s1) ->
    match ext_loop c fuel (n - 1) m i2 s1 with
    | COob => False
    | CR s' r j => same_log s s' /\
      (r = WS_BUFFER_E \/
       (r = WS_SUCCESS /\ exists exts parts, dropN i m = List.concat parts ++ dropN j m /\
          Forall2 (fun p e => is_strs p [fst e; snd e]) parts exts /\ lenN exts = n /\
          peer_rel c (last_sig_algs v exts) (k_peer s')))
    end).
  { intros s1 v1 (S1 & S2 & S3 & S4) -> P1. specialize (IH (n - 1) i2 s1 _ J2 F4 P1).
    destruct (ext_loop c fuel (n - 1) m i2 s1) as [s' r j|]; [|exact IH].
    destruct IH as ((T1 & T2 & T3 & T4) & D). split; [repeat split; congruence|].
    destruct D as [D|(D & exts & parts & D1 & D2 & D3 & D4)]; [left; exact D|]. right. split; [exact D|].
    exists ((nam, w) :: exts), (f :: parts). split; [rewrite F1, D1; cbn [List.concat]; rewrite <- app_assoc; reflexivity|].
    split; [constructor; [exact F2|exact D2]|]. split; [unfold lenN in *; cbn [List.length]; lia|]. exact D4. }
  destruct (N.eqb_spec (NameToId nam) ID_EXTINFO_SERVER_SIG_ALGS) as [En|En].
  - apply ext_name in En. destruct (DoExtInfoServerSigAlgs c w s) as [s1 r1] eqn:Es.
    destruct (sig_algs_step _ _ _ _ _ Es) as (S1 & [(-> & P1)|(-> & ->)]).
    + apply (GO s1 (Some w)); [exact S1| |exact P1]. unfold last_sig_algs; cbn [fold_left fst snd]. destruct (list_eq_dec N.eq_dec nam (ascii "server-sig-algs")); [reflexivity|contradiction].
    + split; [exact S1|]. left. reflexivity.
  - apply (GO s v); [repeat split| |exact Hv]. unfold last_sig_algs; cbn [fold_left fst snd]. destruct (list_eq_dec N.eq_dec nam (ascii "server-sig-algs")) as [X|]; [|reflexivity].
    apply ext_name in X. contradiction.
Qed.

Lemma ext_step : forall c b s s' r j v, bytes_ok b -> is32 (lenN b) -> peer_rel c v (k_peer s) ->
  DoExtInfo c b s = CR s' r j ->
  same_log s s' /\ (r = WS_BUFFER_E \/ (r = WS_SUCCESS /\ exists exts, ext_info b exts /\ peer_rel c (last_sig_algs v exts) (k_peer s'))).
Proof.
  intros c b s s' r j v Hb Hl Hv. unfold DoExtInfo.
  pose proof (read_u32 b 0 Hb Hl is32_0) as G.
  destruct (GetUint32 b (lenN b) 0) as [n i|? ?|]; [|intros H; injection H as <- <- _; split; [repeat split|left; exact G]|contradiction].
  destruct G as (cnt & C1 & C2 & C3 & C4 & C5). rewrite dropN_0 in C1.
  assert (Hi : is32 i) by (unfold is32, W32 in *; lia).
  pose proof (ext_loop_inv c b Hb Hl (List.length b) n i s v Hi C5 Hv) as L. intros H. rewrite H in L.
  destruct L as (L1 & [L2|(L2 & exts & parts & D1 & D2 & D3 & D4)]); (split; [exact L1|]); [left; exact L2|].
  right. split; [exact L2|]. exists exts. split; [|exact D4].
  exists cnt, parts, (dropN j b). split; [rewrite C1 at 1; rewrite D1; reflexivity|]. split; [exact C2|]. split; [congruence|exact D2].
Qed.

(* ---- failure ---------------------------------------------------------------------- *)
Lemma auth_ids_in : forall c ids ids' id, auth_ids c ids = ROk ids' -> In id ids' -> id <> ID_UNKNOWN -> In id ids.
Proof.
  intros c ids ids' id. unfold auth_ids. destruct (_ <? _); [discriminate|]. intros H. injection H as <-.
  destruct (cc_kb c); [auto|]. destruct ids as [|x l]; [auto|]. intros [H|H] Hn.
  - destruct (N.eqb_spec x ID_USERAUTH_KEYBOARD); [subst id; contradiction|left; exact H].
  - right. apply filter_In in H. exact (proj1 H).
Qed.

Lemma existsb_in : forall id l, existsb (N.eqb id) l = true <-> In id l.
Proof.
  intros id l. rewrite existsb_exists. split.
  - intros (x & H & E). apply N.eqb_eq in E. subst. exact H.
  - intros H. exists id. split; [exact H|apply N.eqb_refl].
Qed.

Lemma listed : forall c ns ids' (name : string) id, auth_ids c (decoded ns) = ROk ids' -> existsb (N.eqb id) ids' = true ->
  id = NameToId (ascii name) -> (knownb (ascii name) && negb (NameToId (ascii name) =? ID_OSSH_CERT_RSA)) = true ->
  In (ascii name) ns.
Proof.
  intros c ns ids' name id Ha Hx -> Hk. apply existsb_in in Hx.
  assert (Hn : NameToId (ascii name) <> ID_UNKNOWN).
  { intros X. apply andb_true_iff in Hk. destruct Hk as (K & _). unfold knownb in K. rewrite X in K. discriminate. }
  pose proof (auth_ids_in _ _ _ _ Ha Hx Hn) as Hi. apply decoded_in in Hi.
  destruct Hi as [(n & Hi & _ & E)|(n & r & _ & _ & E)]; [|congruence].
  rewrite (name_is name n (eq_sym E) Hk) in Hi. exact Hi.
Qed.

Lemma failure_step : forall c sg an b s s' r j user sid ns,
  bytes_ok b -> is32 (lenN b) -> small_signer sg -> small user -> small sid -> small_answers an ->
  k_user s = user -> k_sid s = sid -> (k_peer s = [] \/ k_peer s = decoded ns) ->
  DoUserAuthFailure c sg an b s = CR s' r j ->
  exists ev, k_log s' = k_log s ++ ev /\ k_user s' = user /\ k_sid s' = sid /\ k_peer s' = k_peer s /\
    (ev = [] \/ exists ms, failure_lists b ms /\ Forall (proper sg user sid (CMsg (SFailure b)) ms ns ev) ev) /\
    (countP is_sign ev + b2n (k_pkdone s) <= b2n (k_pkdone s') <= countP is_given ev + b2n (k_pkdone s)).
Proof.
  intros c sg an b s s' r j user sid ns Hb Hl Hsg Hu Hsid Han Eu Es Hp. unfold DoUserAuthFailure.
  assert (NO : forall e x, CR s e x = CR s' r j -> exists ev, k_log s' = k_log s ++ ev /\ k_user s' = user /\ k_sid s' = sid /\ k_peer s' = k_peer s /\
    (ev = [] \/ exists ms, failure_lists b ms /\ Forall (proper sg user sid (CMsg (SFailure b)) ms ns ev) ev) /\
    (countP is_sign ev + b2n (k_pkdone s) <= b2n (k_pkdone s') <= countP is_given ev + b2n (k_pkdone s))).
  { intros e x H. apply cfst in H. destruct H as (-> & _). exists []. rewrite app_nil_r.
    split; [reflexivity|]. split; [exact Eu|]. split; [exact Es|]. split; [reflexivity|]. split; [left; reflexivity|]. cbn. lia. }
  destruct (lenN b =? 0); [apply NO|].
  destruct (GetNameList MAX_NAMELIST_CNT b (lenN b) 0) as [ids i|e i|] eqn:En; cbn [pbind];
    [|apply NO|exfalso; revert En; apply GetNameList_noob; (assumption || lia || apply is32_0)].
  destruct (GetNameList_ok _ _ _ _ _ _ Hb (N.le_refl _) Hl is32_0 En) as (l & (Su & Sl & Se) & -> & -> & _).
  destruct (auth_ids c (decoded (names_of l))) as [ids'|e] eqn:Ea; [|apply NO].
  pose proof (read_bool b (0 + 4 + lenN l) Hl) as B.
  destruct (GetBoolean b (lenN b) (0 + 4 + lenN l)) as [flag k|e k|]; cbn [pbind]; [|apply NO|contradiction].
  destruct B as (B1 & B2 & B3).
  assert (FL : failure_lists b (names_of l)).
  { destruct Su as (Su1 & Su2).
    exists (slice b 0 4 ++ l), l, flag, (dropN k b). split; [|split; [|reflexivity] ].
    - cbn [app]. rewrite <- B1. rewrite <- app_assoc. rewrite <- (dropN_0 _ b) at 1.
      rewrite (slice_dropN b 0 4) by lia. f_equal. rewrite (slice_dropN b (0 + 4) (lenN l)) by lia. rewrite <- Se. reflexivity.
    - exists (slice b 0 4). split; [reflexivity|]. split; [apply slice_length; lia|]. split; [symmetry; exact Su2|apply slice_ok; exact Hb]. }
  cbv zeta. set (has := fun id => existsb (N.eqb id) ids' && existsb (N.eqb id) (supportedAuth c)).
  set (t := mkMethods _ _ _).
  destruct (negb (m_password t || m_key t || m_keyboard t)) eqn:Et; [apply NO|].
  destruct (SendUserAuthRequest c sg an t s) as [s1 r1] eqn:Esend. intros H. apply cfst in H. destruct H as (-> & _).
  destruct (send_request c sg an t s s1 r1 user sid ns (names_of l) (CMsg (SFailure b)) Hsg Hu Hsid Han Eu Es Hp)
    as (ev & V1 & V2 & V3 & V4 & V5 & V6).
  - unfold t; cbn [m_password]. intros H. apply andb_true_iff in H. destruct H as (H & _).
    eapply (listed c (names_of l) ids' "password"%string); [exact Ea|exact H|vm_compute; reflexivity|vm_compute; reflexivity].
  - unfold t; cbn [m_key]. intros H. apply andb_true_iff in H. destruct H as (H & _).
    eapply (listed c (names_of l) ids' "publickey"%string); [exact Ea|exact H|vm_compute; reflexivity|vm_compute; reflexivity].
  - unfold t; cbn [m_keyboard]. intros H. apply andb_true_iff in H. destruct H as (H & _). apply andb_true_iff in H. destruct H as (H & H2). split.
    + eapply (listed c (names_of l) ids' "keyboard-interactive"%string); [exact Ea|exact H|vm_compute; reflexivity|vm_compute; reflexivity].
    + unfold supportedAuth in H2. destruct (cc_kb c); [reflexivity|vm_compute in H2; discriminate].
  - intros X1 X2 X3. rewrite X1, X2, X3 in Et. discriminate.
  - exact Esend.
  - exists ev. split; [exact V1|]. split; [exact V2|]. split; [exact V3|]. split; [exact V4|]. split; [right; exists (names_of l); split; assumption|exact V6].
Qed.
