(* SftpProofs9.v - proofs about the SFTP server: requests about paths, and
   attributes. *)
From Verif Require Import Base WireModel WireSpec WireProofs PathModel PathSpec PathProofs NegoSpec ReqSpec ReqProofs ReqProofs3.
From Verif Require Import SftpModel SftpProofs SftpSpec SftpProofs2 SftpProofs3 SftpProofs4 SftpProofs5 SftpProofs6 SftpProofs7 SftpProofs8.
From Coq Require Import List NArith ZArith Bool Lia String.
Import ListNotations.
Open Scope N_scope.

(* ---- the state a history leads to ---------------------------------------------- *)

Lemma hist_fun : forall E p h s1, hist E p h s1 -> forall s2, hist E p h s2 -> s1 = s2.
Proof.
  intros E p h s1 H. induction H as [|h s ty id data r out s' new H IH Hb Hl Hi D L]; intros s2 H2.
  - inversion H2. reflexivity.
  - inversion H2 as [|h2 t ty2 id2 data2 r2 out2 t' new2 K1 K2 K3 K4 K5 K6]. subst.
    assert (s = t) by (apply IH; assumption). subst t. congruence.
Qed.

(* ---- paths ------------------------------------------------------------------------ *)

Lemma default_fun : forall d f1 f2, default_is d f1 -> default_is d f2 -> f1 = f2.
Proof.
  intros d f1 f2 (P1 & H1) (P2 & H2). destruct d as [s|]; [|congruence].
  destruct H1 as (E1 & _). destruct H2 as (E2 & _). apply path_of_inj; congruence.
Qed.
Lemma start_fun : forall f t a b, start f t a -> start f t b -> a = b.
Proof. intros f t a b [(A & ->)|(A & ->)] [(B & ->)|(B & ->)]; tauto. Qed.

Lemma means_inv : forall p path cs, means p path cs -> exists from st, default_is (sp_default p) from /\ start from (cstr path) st /\
  cs = walk st (pieces (cstr path)).
Proof.
  intros p path cs (from & t & st & D & T & S & ->). apply text_cstr in T. subst t. exists from, st. split; [assumption|]. split; [assumption|reflexivity].
Qed.
Lemma short_inv : forall p path from st, default_is (sp_default p) from -> start from (cstr path) st -> short p path ->
  lenN path < 256 /\ fits 256 st (pieces (cstr path)).
Proof.
  intros p path from st D S (L & f2 & t & st2 & D2 & T & S2 & F). apply text_cstr in T. subst t.
  rewrite (default_fun _ _ _ D D2) in S. rewrite (start_fun _ _ _ _ S S2). split; assumption.
Qed.
Lemma cstr_text : forall path, text path (cstr path).
Proof.
  induction path as [|x l (IH0 & IH)].
  - split; [intros []|left; reflexivity].
  - cbn [cstr]. destruct (N.eqb_spec x 0) as [->|H].
    + split; [intros []|]. right. exists l. reflexivity.
    + split; [intros [K|K]; [congruence|contradiction]|]. destruct IH as [IH|(r & IH)].
      * left. congruence.
      * right. exists r. cbn [app]. congruence.
Qed.

Lemma clean_res : forall E path s ret dir cs, paths_ok (s_paths s) -> clean_t E path s = (ret, dir) -> means (s_paths s) path cs ->
  (ret = WS_SUCCESS /\ dir = path_of cs /\ short (s_paths s) path /\ allowed (lnk E (s_log s)) (s_paths s) cs) \/
  (ret = WS_PERMISSIONS /\ short (s_paths s) path /\ ~ allowed (lnk E (s_log s)) (s_paths s) cs) \/
  (ret <> WS_SUCCESS /\ ret <> WS_PERMISSIONS /\ ~ short (s_paths s) path).
Proof.
  intros E path s ret dir cs Hp C M. destruct (means_inv _ _ _ M) as (from & st & D & S & ->). destruct m256 as (M1 & M2).
  unfold clean_t, clean in C.
  destruct (N.lt_ge_cases (lenN path) MAX_FILENAME) as [L|L].
  2: { unfold GetAndCleanPath in C. destruct (N.leb_spec MAX_FILENAME (lenN path)); [|lia]. right. right.
       assert (ret = WS_BUFFER_E) by congruence. subst ret. split; [discriminate|]. split; [discriminate|]. intros (K & _). unfold MAX_FILENAME in L. lia. }
  assert (SH : fits 256 st (pieces (cstr path)) -> short (s_paths s) path).
  { intros F. split; [exact L|]. exists from, (cstr path), st. split; [assumption|]. split; [apply cstr_text|]. split; assumption. }
  assert (NS : ~ fits 256 st (pieces (cstr path)) -> ~ short (s_paths s) path).
  { intros F K. apply F. eapply short_inv; eassumption. }
  destruct (sp_confine (s_paths s)) as [c|] eqn:Hc.
  - pose proof Hp as (_ & Hp2). destruct (Hp2 c Hc) as (root & P & -> & _).
    assert (AL : forall cs, allowed (lnk E (s_log s)) (s_paths s) cs <-> inside root cs /\ (root = [] \/ no_links (lnk E (s_log s)) root cs)).
    { intros cs. split; [intros A; apply A; assumption|]. intros A root' P' E'. rewrite Hc in E'.
      assert (path_of root' = path_of root) as Q by congruence. apply path_of_inj in Q; [|assumption|assumption]. subst root'. exact A. }
    destruct (GetAndCleanPath_ok _ from root (lnk E (s_log s)) path MAX_FILENAME st D Hc P M1 M2 L S) as (ret' & s' & q & G & H).
    rewrite G in C. assert (ret' = ret /\ s' = dir) as (-> & ->) by (split; congruence). change MAX_FILENAME with 256 in H.
    destruct H as [(F & -> & P2 & [(I & [Q|Q] & K & _) | (I & -> & ->)]) | (F & -> & ->)].
    + left. split; [assumption|]. split; [reflexivity|]. split; [auto|]. apply AL. tauto.
    + right. left. split; [assumption|]. split; [auto|]. rewrite AL. intros (_ & A). apply K in A. congruence.
    + right. left. split; [reflexivity|]. split; [auto|]. rewrite AL. tauto.
    + right. right. split; [discriminate|]. split; [discriminate|auto].
  - unfold GetAndCleanPath in C. destruct (N.leb_spec MAX_FILENAME (lenN path)); [lia|].
    assert (L32 : is32 (lenN (cstr path))) by (pose proof (cstr_len path); unfold is32, MAX_FILENAME, W32 in *; lia).
    destruct (RealPath_ok _ _ _ _ _ D L32 M1 M2 S) as (ret' & out & G & K). rewrite G, Hc in C.
    destruct K as [(-> & F & -> & P) | (-> & F)].
    + left. change (rc_eqb WS_SUCCESS WS_SUCCESS) with true in C. cbv iota in C. assert (ret = WS_SUCCESS /\ dir = path_of (walk st (pieces (cstr path)))) as (-> & ->) by (split; congruence).
      split; [reflexivity|]. split; [reflexivity|]. split; [auto|]. intros root _ E'. congruence.
    + right. right. change (rc_eqb WS_INVALID_PATH_E WS_SUCCESS) with false in C. cbv iota in C. assert (ret = WS_INVALID_PATH_E) as -> by congruence. split; [discriminate|]. split; [discriminate|auto].
Qed.

(* ---- replies ------------------------------------------------------------------------ *)

Lemma status_says : forall E r c m s1 r' s' ev, status_t E r c (q_id ev) m s1 = (r', q_reply ev, s') -> is32 (q_id ev) -> is32 c -> lenN m < 100 ->
  s' = s1 /\ says ev c.
Proof.
  intros E r c m s1 r' s' ev H Hi Hc Hm. apply status_inv in H. destruct H as (-> & [H|H]); (split; [reflexivity|]); [left; assumption|].
  right. eexists. split; [exact H|]. apply status_ok; assumption.
Qed.
Lemma outcome_says : forall E p o a b s1 r' s' ev, outcome_t E (q_id ev) p o a b s1 = (r', q_reply ev, s') -> is32 (q_id ev) -> lenN a < 100 -> lenN b < 100 ->
  s' = s1 /\ says ev (if p then 3 else if o then 0 else 4).
Proof.
  intros E p o a b s1 r' s' ev H Hi Ha Hb. unfold outcome_t in H. destruct p; [|destruct o]; eapply status_says in H; try assumption; reflexivity.
Qed.
Lemma says_code : forall ev c m, q_reply ev = Some (CreateStatus c (q_id ev) m English) -> is32 (q_id ev) -> is32 c -> lenN m < 100 -> says ev c.
Proof. intros ev c m H Hi Hc Hm. right. eexists. split; [exact H|]. apply status_ok; assumption. Qed.
Lemma attrs_look : forall E m s c r' s' ev, attrs_reply_t E (q_id ev) m (ask c s) = (r', q_reply ev, s') ->
  is32 (q_id ev) -> lenN m < 100 -> stat_env E ->
  s_log s' = rev (map fst (q_calls ev)) ++ s_log s -> q_calls ev = answered E (s_log s) (map fst (q_calls ev)) -> looked ev c.
Proof.
  intros E m s c r' s' ev H Hi Hm Se Lg An. unfold attrs_reply_t in H. cbv zeta in H.
  assert (Q : s' = ask c s).
  { destruct (negb _); [|destruct (_ =? 0)%Z]; apply triple_inv in H; destruct H as (_ & _ & <-); reflexivity. }
  subst s'. pose proof (log_is E s (ask c s) (q_calls ev) [c] eq_refl Lg An) as Ca. cbn [answered] in Ca.
  exists (fs E (c :: s_log s)). split; [exact Ca|]. cbn [s_log ask] in H.
  destruct (negb _).
  { apply triple_inv in H. destruct H as (_ & H & _). split; intros _; left; symmetry; exact H. }
  destruct (Z.eqb_spec (r_int (fs E (c :: s_log s))) 0) as [Z|Z]; apply triple_inv in H; destruct H as (_ & H & _).
  - split; [|contradiction]. intros _. right. eexists. split; [symmetry; exact H|].
    destruct (stat_wire _ (Se (c :: s_log s))) as (A & B & L). eexists. split; [exact A|]. rewrite <- B. apply frame_set; [assumption|]. rewrite L. reflexivity.
  - split; [contradiction|]. intros _. eapply says_code; [symmetry; exact H|assumption|reflexivity|assumption].
Qed.

Lemma safe_mode : forall m, SAFE_MODE m = m mod 512.
Proof. intros m. unfold SAFE_MODE. exact (N.land_ones m 9). Qed.

Lemma set_try : forall E ch st a s ok s1 ev, set_attrs E ch st a s = (ok, s1) ->
  s_log s1 = rev (map fst (q_calls ev)) ++ s_log s -> q_calls ev = answered E (s_log s) (map fst (q_calls ev)) ->
  says ev (if ok then 0 else 4) -> tried_all ev (changes a ch st).
Proof.
  intros E ch st a s ok s1 ev H Lg An Sa. apply set_attrs_log in H. cbv zeta in H. destruct H as (_ & H).
  assert (Q : (if N.testbit (a_flags a) 2 then [ch (N.land (a_per a) 511)] else []) ++ (if N.testbit (a_flags a) 3 then [st (a_atime a) (a_mtime a)] else []) = changes a ch st).
  { unfold changes. rewrite <- safe_mode. reflexivity. }
  rewrite Q in H. clear Q. set (want := changes a ch st) in *. clearbody want.
  destruct H as [(-> & L & F)|(-> & bef & last & rest & -> & L & F & Z)].
  - left. pose proof (log_is E s s1 (q_calls ev) want L Lg An) as Ca. rewrite Ca. rewrite answered_fst. split; [reflexivity|]. split; assumption.
  - right. pose proof (log_is E s s1 (q_calls ev) (bef ++ [last]) L Lg An) as Ca.
    exists (answered E (s_log s) bef), (last, fs E (last :: rev bef ++ s_log s)), rest. cbn [fst snd]. rewrite answered_fst.
    split; [reflexivity|]. split; [rewrite Ca, answered_app; reflexivity|]. split; [exact F|]. split; [exact Z|assumption].
Qed.

Lemma open_flags_ok : forall fl, open_mode fl = open_flags fl.
Proof.
  intros fl. unfold open_mode, open_flags.
  change FXF_READ with (2 ^ 0). change FXF_WRITE with (2 ^ 1). change FXF_APPEND with (2 ^ 2). change FXF_CREAT with (2 ^ 3).
  change FXF_TRUNC with (2 ^ 4). change FXF_EXCL with (2 ^ 5). rewrite !has_bit.
  destruct (N.testbit fl 0), (N.testbit fl 1), (N.testbit fl 2), (N.testbit fl 3), (N.testbit fl 4), (N.testbit fl 5); reflexivity.
Qed.

(* ---- how many handles there can be -------------------------------------------------- *)

Lemma nd_encode : forall A (f : A -> hid) l, NoDup (map f l) -> (forall x, In x l -> ok_id (f x)) -> NoDup (map (fun x => HandleIdEncode (f x)) l).
Proof.
  intros A f. induction l as [|x l IH]; intros N K; cbn [map] in *; [constructor|]. inversion N as [|? ? N1 N2]; subst. constructor.
  - intros H. apply N1. apply in_map_iff in H. destruct H as (y & Q & Hy). apply encode_inj in Q; [|apply K; right; assumption|apply K; left; reflexivity].
    rewrite <- Q. apply in_map. assumption.
  - apply IH; [assumption|]. intros y Hy. apply K. right. assumption.
Qed.
Lemma nd_app_l : forall A (a b : list A), NoDup (a ++ b) -> NoDup a.
Proof.
  induction a as [|x a IH]; intros b H; [constructor|]. inversion H as [|? ? H1 H2]; subst. constructor; [|eapply IH; eassumption].
  intros K. apply H1. apply in_or_app. left. assumption.
Qed.
Lemma nd_app_r : forall A (a b : list A), NoDup (a ++ b) -> NoDup b.
Proof. induction a as [|x a IH]; intros b H; [assumption|]. inversion H; subst. apply IH. assumption. Qed.
Lemma few_files : forall h s, inv h s -> few opened h -> capped 0 (s_files s) = false.
Proof.
  intros h s I F. destruct (capped 0 (s_files s)) eqn:C; [|reflexivity]. exfalso. apply capped_eq in C; [|lia]. cbn in C.
  specialize (F (map (fun e => HandleIdEncode (f_id e)) (s_files s))). rewrite map_length in F.
  assert ((Datatypes.length (s_files s) < 64)%nat); [apply F|lia].
  - apply nd_encode; [eapply nd_app_l; apply (i_nd h s I)|]. intros x Hx. apply (i_ids h s I). apply in_or_app. left. apply in_map. assumption.
  - intros hb Hb. apply in_map_iff in Hb. destruct Hb as (e & <- & He). exists (f_fd e). apply (i_live h s I). exists e. auto.
Qed.
Lemma few_dirs : forall h s, inv h s -> (forall ev path a, In ev h -> In (FOpendir path, a) (q_calls ev) -> q_reply ev <> None) ->
  few opened_dir h -> capped 0 (s_dirs s) = false.
Proof.
  intros h s I R F. destruct (capped 0 (s_dirs s)) eqn:C; [|reflexivity]. exfalso. apply capped_eq in C; [|lia]. cbn in C.
  specialize (F (map (fun e => HandleIdEncode (d_id e)) (s_dirs s))). rewrite map_length in F.
  assert ((Datatypes.length (s_dirs s) < 64)%nat); [apply F|lia].
  - apply nd_encode; [eapply nd_app_r; apply (i_nd h s I)|]. intros x Hx. apply (i_ids h s I). apply in_or_app. right. apply in_map. assumption.
  - intros hb Hb. apply in_map_iff in Hb. destruct Hb as (e & <- & He). exists (d_dir e). apply (i_dback h s I R). assumption.
Qed.

(* with memory, no reply to an OPENDIR is lost *)
Lemma roomy_dirs : forall E p h s, roomy E -> hst E p h s ->
  forall ev path a, In ev h -> In (FOpendir path, a) (q_calls ev) -> q_reply ev <> None.
Proof.
  intros E p h s R H. induction H as [|h s ty id data r out s' l H0 H IH Hb Hl Hi Hp D F L A]; [intros ev path a []|].
  intros ev path a [<-|Hin]; [|apply IH; assumption]. cbn [q_calls q_reply]. intros K Z. subst out.
  destruct (N.eq_dec ty 12) as [->|T].
  - destruct (p_str data) as [(hb, x)|] eqn:P.
    + destruct (N.eq_dec (lenN hb) 8) as [L8|L8].
      * destruct (FindDir (decode_t hb) (s_dirs s)) as [e|] eqn:Fe.
        -- pose proof (dir_calls E 12 id data s _ _ _ hb x D P e ltac:(cbn; tauto) L8 Fe) as G.
           assert (G2 : Forall (fun y => on_dir (fst y) (d_dir e) \/ (12 = 12 /\ exists p, fst y = FStat p true)) l) by (eapply logs_all; eassumption).
           rewrite Forall_forall in G2. specialize (G2 _ K). cbn [fst on_dir] in G2. destruct G2 as [[]|(_ & q & G2)]. discriminate G2.
        -- destruct (readdir_dead E 12 id data s _ _ _ hb x D P eq_refl ltac:(auto)) as (-> & _).
           rewrite (log_same E s _ L A) in K. destruct K.
      * destruct (readdir_dead E 12 id data s _ _ _ hb x D P eq_refl ltac:(contradiction)) as (-> & _).
        rewrite (log_same E s _ L A) in K. destruct K.
    + change (dispatch_t E 12 id data s) with (RecvReadDir_t E id data s) in D. revert D. unfold RecvReadDir_t. rewrite P. intros D.
      apply triple_inv in D. destruct D as (_ & _ & <-). rewrite (log_same E s _ L A) in K. destruct K.
  - destruct (dispatch_silent E _ _ _ _ _ R _ T D) as [->|[L2|L2] ].
    + rewrite (log_same E s _ L A) in K. destruct K.
    + rewrite L2 in L. rewrite (log_same E s _ L A) in K. destruct K.
    + rewrite (log_is E s s' _ [FGetcwd] L2 L A) in K. destruct K as [K|[] ]. discriminate K.
Qed.
