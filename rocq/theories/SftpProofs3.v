(* SftpProofs3.v - proofs about the SFTP server: the paths of its calls, and
   the invariant of its tables. *)
From Verif Require Import Base WireModel WireSpec WireProofs PathModel PathSpec PathProofs NegoSpec ReqSpec ReqProofs ReqProofs3.
From Verif Require Import SftpModel SftpProofs SftpSpec SftpProofs2.
From Coq Require Import List NArith ZArith Bool Lia String.
Import ListNotations.
Open Scope N_scope.

(* ---- the paths of the calls ----------------------------------------------- *)

Definition logs (E : senv) (P : fscall * ans -> Prop) (s s' : srv) : Prop :=
  exists new, s_log s' = rev new ++ s_log s /\ Forall P (answered E (s_log s) new).

Lemma logs_refl : forall E P s s', s_log s' = s_log s -> logs E P s s'.
Proof. intros. exists []. split; [assumption|constructor]. Qed.
Lemma logs_trans : forall E P a b c, logs E P a b -> logs E P b c -> logs E P a c.
Proof.
  intros E P a b c (n1 & L1 & P1) (n2 & L2 & P2).
  exists (n1 ++ n2). split; [rewrite L2, L1, rev_app_distr, app_assoc; reflexivity|].
  rewrite answered_app. apply Forall_app. split; [assumption|]. rewrite <- L1. assumption.
Qed.
Lemma logs_ask : forall E (P : fscall * ans -> Prop) c s s', s_log s' = c :: s_log s -> (forall y, P (c, y)) -> logs E P s s'.
Proof.
  intros E P c s s' L H. exists [c]. split; [exact L|]. cbn [answered]. constructor; [apply H|constructor].
Qed.
Lemma grow_logs : forall E P s s', grow E P s s' -> logs E P s s'.
Proof. intros E P s s' (_ & _ & _ & H). exact H. Qed.

Lemma write_paths : forall E fd fuel d hi lo s ok s', write_loop fuel E fd d hi lo s = (ok, s') -> s_paths s' = s_paths s.
Proof.
  induction fuel as [|f IH]; intros d hi lo s ok s' H; cbn [write_loop] in H; destruct d as [|b d]; try congruence.
  cbv zeta in H. destruct (_ <=? 0)%Z; [assert (Q : s' = ask (FPwrite fd (b :: d) (hi * W32 + lo)) s) by congruence; rewrite Q; reflexivity|].
  match type of H with (if ?c then _ else _) = _ => destruct c end.
  - assert (Q : s' = ask (FPwrite fd (b :: d) (hi * W32 + lo)) s) by congruence. rewrite Q. reflexivity.
  - apply IH in H. rewrite H. reflexivity.
Qed.
Lemma setattrs_paths : forall E ch st a s ok s', set_attrs E ch st a s = (ok, s') -> s_paths s' = s_paths s.
Proof.
  intros E ch st a s ok s' H. unfold set_attrs in H. cbv zeta in H.
  destruct (has (a_flags a) A_PERM); destruct (_ && _);
    apply pair_equal_spec in H; destruct H as (_ & <-); reflexivity.
Qed.
Lemma readdir_paths : forall E dn names acc s l s', readdir_loop E dn names acc s = (l, s') -> s_paths s' = s_paths s.
Proof.
  induction names as [|n t IH]; intros acc s l s' H; cbn [readdir_loop] in H; [congruence|].
  destruct (negb _); [congruence|]. destruct (readdir_path _ _ _) as [p|]; [|congruence].
  cbv zeta in H. destruct (longname _ _ _); [apply IH in H; rewrite H; reflexivity|].
  assert (Q : s' = ask (FStat p true) s) by congruence. rewrite Q. reflexivity.
Qed.
Lemma readdir_logs : forall E (P : fscall * ans -> Prop) dn ns acc s l s',
  (forall n p y, In n ns -> readdir_path (s_paths s) dn n = Some p -> P (FStat p true, y)) ->
  readdir_loop E dn ns acc s = (l, s') -> logs E P s s'.
Proof.
  induction ns as [|n t IH]; intros acc s l s' HP H; cbn [readdir_loop] in H.
  - assert (s = s') by congruence. subst. apply logs_refl. reflexivity.
  - destruct (negb _); [assert (s = s') by congruence; subst; apply logs_refl; reflexivity|].
    destruct (readdir_path _ _ _) as [p|] eqn:R; [|assert (s = s') by congruence; subst; apply logs_refl; reflexivity].
    cbv zeta in H. set (s1 := ask (FStat p true) s) in *.
    assert (G : logs E P s s1) by (eapply logs_ask; [reflexivity|]; intros; apply (HP n); [left; reflexivity|assumption]).
    destruct (longname _ _ _).
    + eapply logs_trans; [exact G|]. eapply IH; [|exact H]. intros n' p' y Hn Hr. apply (HP n'); [right; assumption|exact Hr].
    + assert (s1 = s') by congruence. subst. exact G.
Qed.

Section safe.
  Variables (E : senv) (id : N) (data : bytes) (s : srv) (r : rc) (out : option bytes) (s' : srv).
  Variable ok : bytes -> Prop.
  Variable P : fscall * ans -> Prop.
  Hypothesis Hok : forall path dir, clean_t E path s = (WS_SUCCESS, dir) -> ok dir.
  Hypothesis HP : forall c y, Forall ok (names c) -> P (c, y).

  Definition safe : Prop := logs E P s s' /\ s_paths s' = s_paths s.

  Lemma sf_st : forall s1 q c m, logs E P s s1 -> s_paths s1 = s_paths s -> status_t E q c id m s1 = (r, out, s') -> safe.
  Proof using. intros s1 q c m G Hp H. apply status_inv in H. destruct H as (Q & _). unfold safe. rewrite Q. split; assumption. Qed.
  Lemma sf_oc : forall s1 p o a b, logs E P s s1 -> s_paths s1 = s_paths s -> outcome_t E id p o a b s1 = (r, out, s') -> safe.
  Proof using. intros s1 p o a b G Hp H. apply outcome_inv in H. destruct H as (Q & _). unfold safe. rewrite Q. split; assumption. Qed.
  Lemma sf_at : forall s1 m, logs E P s s1 -> s_paths s1 = s_paths s -> attrs_reply_t E id m s1 = (r, out, s') -> safe.
  Proof using. intros s1 m G Hp H. apply attrs_inv in H. destruct H as (Q & _). unfold safe. rewrite Q. split; assumption. Qed.
  Lemma ok1 : forall c y d, ok d -> names c = [d] -> P (c, y).
  Proof using HP. intros c y d H E1. apply HP. rewrite E1. constructor; [assumption|constructor]. Qed.
  Lemma ok0 : forall c y, names c = [] -> P (c, y).
  Proof using HP. intros c y E1. apply HP. rewrite E1. constructor. Qed.
  Lemma suc : forall path ret dir, clean_t E path s = (ret, dir) -> rc_eqb ret WS_SUCCESS = true -> ok dir.
  Proof using Hok. intros path ret dir C H. apply rc_eqb_eq in H. subst ret. eapply Hok. exact C. Qed.

  Ltac none := split; [apply logs_refl; reflexivity|reflexivity].
  Ltac sst H := eapply sf_st; [| |exact H]; try (apply logs_refl; reflexivity); try reflexivity.
  Ltac soc H := eapply sf_oc; [| |exact H]; try (apply logs_refl; reflexivity); try reflexivity.

  Lemma safe_dispatch : forall ty, ty <> 16 ->
    (ty = 12 -> forall e n p y log, In e (s_dirs s) -> In n (r_names (fs E log)) -> readdir_path (s_paths s) (d_name e) n = Some p -> P (FStat p true, y)) ->
    dispatch_t E ty id data s = (r, out, s') -> safe.
  Proof using Hok HP.
    intros ty NR Hd. unfold safe, dispatch_t.
    destruct (N.eqb_spec ty FTP_REALPATH) as [N1|N1]; [unfold FTP_REALPATH in N1; lia|]. clear NR N1.
    destruct (ty =? FTP_RMDIR).
    { unfold RecvRMDIR_t. intros H. destruct (p_str data) as [(path, t)|]; [|leaf H; none].
      destruct (clean_t E path s) as (ret, dir) eqn:C. cbv zeta in H. destruct (rc_eqb ret WS_SUCCESS) eqn:R; soc H.
      eapply logs_ask; [reflexivity|]. intros. eapply ok1; [eapply suc; eassumption|reflexivity]. }
    destruct (ty =? FTP_MKDIR).
    { unfold RecvMKDIR_t. intros H. destruct (p_str data) as [(path, t)|]; [|leaf H; none].
      destruct (clean_t E path s) as (ret, dir) eqn:C. cbv zeta in H. destruct (rc_eqb ret WS_SUCCESS) eqn:R.
      - destruct (p_attrs t) as [(a, t')|]; [|leaf H; none]. soc H.
        eapply logs_ask; [reflexivity|]. intros. eapply ok1; [eapply suc; eassumption|reflexivity].
      - destruct (rc_eqb ret WS_PERMISSIONS); [soc H|leaf H; none]. }
    assert (ST : forall nf, RecvStat_t nf E id data s = (r, out, s') -> logs E P s s' /\ s_paths s' = s_paths s).
    { unfold RecvStat_t. intros nf H. cbv zeta in H. destruct (p_str data) as [(path, t)|]; [|leaf H; none].
      destruct (clean_t E path s) as (ret, dir) eqn:C. destruct (rc_eqb ret WS_SUCCESS) eqn:R.
      - eapply sf_at; [| |exact H]; [|reflexivity]. eapply logs_ask; [reflexivity|]. intros. eapply ok1; [eapply suc; eassumption|reflexivity].
      - destruct (negb _); [leaf H; none|]. destruct (rc_eqb ret WS_PERMISSIONS); leaf H; none. }
    destruct (ty =? FTP_STAT); [apply ST|]. destruct (ty =? FTP_LSTAT); [apply ST|]. clear ST.
    destruct (ty =? FTP_FSTAT).
    { unfold RecvFSTAT_t. intros H. destruct (p_str data) as [(hb, t)|]; [|leaf H; none].
      destruct (file_of_t hb s) as [e|]; [|leaf H; none].
      eapply sf_at; [| |exact H]; [|reflexivity]. eapply logs_ask; [reflexivity|]. intros. apply ok0. reflexivity. }
    destruct (ty =? FTP_OPEN).
    { unfold RecvOpen_t. intros H. destruct (p_str data) as [(path, t)|]; [|leaf H; none].
      destruct (clean_t E path s) as (ret, dir) eqn:C. destruct (rc_eqb ret WS_PERMISSIONS); [sst H|].
      destruct (rc_eqb ret WS_SUCCESS) eqn:R; cbn [negb] in H; [|leaf H; none].
      destruct (capped 0 (s_files s)); [sst H|].
      destruct (p_u32 t) as [(fl, t1)|]; [|leaf H; none].
      destruct (p_attrs t1) as [(a, t2)|]; [|leaf H; none]. cbv zeta in H.
      pose proof (suc _ _ _ C R) as Od.
      set (s1 := ask (FStat dir false) s) in *.
      assert (G1 : logs E P s s1) by (eapply logs_ask; [reflexivity|]; intros; eapply ok1; [exact Od|reflexivity]).
      destruct (_ && _).
      { destruct (mem E (s_log s1) 1); leaf H; (split; [exact G1|reflexivity]). }
      set (s2 := ask _ s1) in *.
      assert (G2 : logs E P s s2).
      { eapply logs_trans; [exact G1|]. eapply logs_ask; [reflexivity|]; intros; eapply ok1; [exact Od|reflexivity]. }
      destruct (_ <? 0)%Z.
      { destruct (mem E (s_log s2) 1); leaf H; (split; [exact G2|reflexivity]). }
      unfold HandleIdNext in H. set (s3 := set_next _ s2) in *. set (fd := r_int _) in *.
      destruct (AddFileHandle E fd dir (s_next s2) s3) as (ret2, s4) eqn:Ad.
      assert (S4 : s_log s4 = s_log s2 /\ s_paths s4 = s_paths s).
      { unfold AddFileHandle in Ad. destruct (capped 0 (s_files s3)); [split; assert (s4 = s3) by congruence; subst; reflexivity|].
        destruct (negb _); [split; assert (s4 = s3) by congruence; subst; reflexivity|].
        destruct (_ <? _); [split; assert (s4 = s3) by congruence; subst; reflexivity|].
        apply pair_equal_spec in Ad. destruct Ad as (_ & <-). split; reflexivity. }
      destruct S4 as (S4 & S4').
      assert (G4 : logs E P s s4) by (destruct G2 as (n & L & F); exists n; split; [rewrite S4; exact L|exact F]).
      assert (G5 : forall s5, s_log s5 = FClose fd :: s_log s4 -> logs E P s s5).
      { intros s5 L5. eapply logs_trans; [exact G4|]. eapply logs_ask; [exact L5|]. intros. apply ok0. reflexivity. }
      destruct (negb _).
      - destruct (mem _ _ 1); leaf H; (split; [apply G5; reflexivity|exact S4']).
      - destruct (mem _ _ 1); leaf H; [split; [exact G4|exact S4']|split; [apply G5; reflexivity|exact S4']]. }
    destruct (ty =? FTP_READ).
    { unfold RecvRead_t. cbv zeta. intros H. destruct (p_str data) as [(hb, t)|]; [|leaf H; none].
      destruct (file_of_t hb s) as [e|].
      2: { destruct (_ || _); leaf H; none. }
      destruct (p_two true t) as [((hi, lo), t1)|]; [|leaf H; none].
      destruct (p_u32 t1) as [(sz, t2)|]; [|leaf H; none].
      destruct (_ <? _); [leaf H; none|]. destruct (negb _); [leaf H; none|].
      set (s2 := ask _ s) in *.
      assert (G : logs E P s s2) by (eapply logs_ask; [reflexivity|]; intros; apply ok0; reflexivity).
      destruct (_ || _); [destruct (_ || _); leaf H; (split; [exact G|reflexivity])|].
      destruct (_ =? 0); [destruct (_ || _); leaf H; (split; [exact G|reflexivity])|].
      leaf H. split; [exact G|reflexivity]. }
    destruct (ty =? FTP_WRITE).
    { unfold RecvWrite_t. cbv zeta. intros H. destruct (p_str data) as [(hb, t)|]; [|sst H].
      destruct (file_of_t hb s) as [e|]; [|sst H].
      destruct (p_two true t) as [((hi, lo), t1)|]; [|leaf H; none].
      destruct (p_str t1) as [(d, t2)|]; [|leaf H; none].
      destruct (write_loop _ _ _ _ _ _ _) as (okw, s2) eqn:W.
      assert (G : logs E P s s2).
      { apply grow_logs. eapply grow_weak; [|eapply write_grow; exact W]. intros (c, y) (d' & o & Q). cbn [fst] in Q. subst c. apply ok0. reflexivity. }
      destruct okw; (sst H; [exact G|eapply write_paths; exact W]). }
    destruct (ty =? FTP_CLOSE).
    { unfold RecvClose_t. intros H. destruct (p_str data) as [(hb, t)|]; [|leaf H; none].
      destruct (MAX_HANDLE <? lenN hb); [leaf H; none|]. cbv zeta in H.
      destruct (negb _); [sst H|]. unfold RecvCloseDir in H.
      destruct (FindDir (decode_t hb) (s_dirs s)) as [e|].
      - sst H. eapply logs_ask; [reflexivity|]. intros; apply ok0; reflexivity.
      - destruct (FindFileHandle _ _) as [e|]; [|sst H].
        destruct (_ <=? _)%Z; (sst H; eapply logs_ask; [reflexivity|]; intros; apply ok0; reflexivity). }
    destruct (ty =? FTP_REMOVE).
    { unfold RecvRemove_t. intros H. destruct (p_str data) as [(path, t)|]; [|leaf H; none].
      destruct (_ <? _); [leaf H; none|].
      destruct (clean_t E path s) as (ret, dir) eqn:C. cbv zeta in H. destruct (rc_eqb ret WS_SUCCESS) eqn:R; soc H.
      eapply logs_ask; [reflexivity|]. intros. eapply ok1; [eapply suc; eassumption|reflexivity]. }
    destruct (ty =? FTP_RENAME).
    { unfold RecvRename_t. cbv zeta. intros H. destruct (p_str data) as [(path, t)|]; [|soc H].
      destruct (clean_t E path s) as (ret, dir) eqn:C. destruct (rc_eqb ret WS_SUCCESS) eqn:R; cbn [negb] in H; [|soc H].
      destruct (p_str t) as [(path2, t2)|]; [|soc H].
      destruct (clean_t E path2 s) as (ret2, dir2) eqn:C2. destruct (rc_eqb ret2 WS_SUCCESS) eqn:R2; cbn [negb] in H; [|soc H].
      soc H. eapply logs_ask; [reflexivity|]. intros. apply HP. cbn [names].
      constructor; [eapply suc; eassumption|]. constructor; [eapply suc; eassumption|constructor]. }
    destruct (ty =? FTP_SETSTAT).
    { unfold RecvSetSTAT_t. cbv zeta. intros H. destruct (p_str data) as [(path, t)|]; [|leaf H; none].
      destruct (clean_t E path s) as (ret, dir) eqn:C. destruct (rc_eqb ret WS_SUCCESS) eqn:R; cbn [negb] in H; [|soc H].
      destruct (p_attrs t) as [(a, t')|]; [|soc H].
      destruct (set_attrs E (FChmod dir) (FSetTime dir) a s) as (oka, s2) eqn:SA. soc H; [|eapply setattrs_paths; exact SA].
      apply grow_logs. eapply setattrs_grow; [| |exact SA]; intros; (eapply ok1; [eapply suc; eassumption|reflexivity]). }
    destruct (ty =? FTP_FSETSTAT).
    { unfold RecvFSetSTAT_t. cbv zeta. intros H. destruct (p_str data) as [(hb, t)|]; [|leaf H; none].
      destruct (file_of_t hb s) as [e|]; [|soc H].
      destruct (p_attrs t) as [(a, t')|]; [|soc H].
      destruct (set_attrs E _ _ a s) as (oka, s2) eqn:SA. soc H; [|eapply setattrs_paths; exact SA].
      apply grow_logs. eapply setattrs_grow; [| |exact SA]; intros; apply ok0; reflexivity. }
    destruct (ty =? FTP_OPENDIR).
    { unfold RecvOpenDir_t. intros H. destruct (p_str data) as [(path, t)|]; [|leaf H; none].
      destruct (clean_t E path s) as (ret, dir) eqn:C. destruct (rc_eqb ret WS_PERMISSIONS); [sst H|].
      destruct (rc_eqb ret WS_SUCCESS) eqn:R; cbn [negb] in H; [|leaf H; none].
      destruct (capped 0 (s_dirs s)); [sst H|]. cbv zeta in H.
      set (s1 := ask (FOpendir dir) s) in *.
      assert (G1 : forall s2, s_log s2 = s_log s1 -> logs E P s s2).
      { intros s2 L2. eapply logs_ask; [rewrite L2; reflexivity|]; intros; eapply ok1; [eapply suc; eassumption|reflexivity]. }
      destruct (_ <? 0)%Z; [destruct (mem E (s_log s1) 1); leaf H; (split; [apply G1; reflexivity|reflexivity])|].
      destruct (negb _).
      { leaf H. split; [|reflexivity]. eapply logs_trans; [apply (G1 s1); reflexivity|]. eapply logs_ask; [reflexivity|].
        intros; apply ok0; reflexivity. }
      unfold HandleIdNext in H. destruct (mem _ _ 1); leaf H; (split; [apply G1; reflexivity|reflexivity]). }
    destruct (N.eqb_spec ty FTP_READDIR) as [T12|_].
    { specialize (Hd T12). unfold RecvReadDir_t. intros H. destruct (p_str data) as [(hb, t)|]; [|leaf H; none].
      destruct (_ <? _); [leaf H; none|]. destruct (negb _); [leaf H; none|]. cbv zeta in H.
      destruct (FindDir (decode_t hb) (s_dirs s)) as [e|] eqn:F; [|leaf H; none].
      assert (K : forall l s2, (if d_eof e then ([], s) else readdir_loop E (d_name e)
         (r_names (fs E (s_log (ask (FReaddir (d_dir e)) s)))) [] (ask (FReaddir (d_dir e)) s)) = (l, s2) ->
         logs E P s s2 /\ s_paths s2 = s_paths s).
      { intros l s2 Q. destruct (d_eof e); [assert (s = s2) by congruence; subst; none|]. split.
        - eapply logs_trans; [|eapply readdir_logs; [|exact Q]].
          + eapply logs_ask; [reflexivity|]. intros; apply ok0; reflexivity.
          + intros n p y Hn Hr. apply (Hd e n p y _ (proj1 (findd_in _ _ _ F)) Hn Hr).
        - apply readdir_paths in Q. exact Q. }
      destruct (if d_eof e then _ else _) as (l, s2) eqn:Q. destruct (K _ _ eq_refl) as (K1 & K2).
      destruct l as [|x l]; [destruct (mem E (s_log s2) 1); leaf H; (split; [exact K1|exact K2])|].
      destruct (negb _); [leaf H; split; [exact K1|exact K2]|].
      destruct (_ <? 13); [leaf H; split; [exact K1|exact K2]|].
      destruct (put_names _ _); leaf H; (split; [exact K1|exact K2]). }
    cbv zeta. intros H. destruct (_ || _); leaf H; none.
  Qed.
End safe.

Lemma realpath_paths : forall E id data s r out s', RecvRealPathMsg_t E id data s = (r, out, s') ->
  (exists new, s_log s' = rev new ++ s_log s /\ (new = [] \/ new = [FGetcwd])) /\
  (s_paths s' = s_paths s \/ exists cw d, s_paths s' = fst (RecvRealPath cw d (s_paths s))).
Proof.
  intros E id data s r out s' H. unfold RecvRealPathMsg_t in H.
  assert (N : (exists new, s_log s = rev new ++ s_log s /\ (new = [] \/ new = [FGetcwd])) /\
     (s_paths s = s_paths s \/ exists cw d, s_paths s = fst (RecvRealPath cw d (s_paths s)))).
  { split; [exists []; split; [reflexivity|left; reflexivity]|left; reflexivity]. }
  destruct (p_str data) as [(hb, t)|]; [|leaf H; exact N].
  destruct (_ <=? _); [leaf H; exact N|]. clear N. cbv zeta in H.
  set (s2 := match sp_default (s_paths s) with Some _ => s | None => ask FGetcwd s end) in *.
  assert (P2 : s_paths s2 = s_paths s) by (unfold s2; destruct (sp_default (s_paths s)); reflexivity).
  destruct (RecvRealPath _ hb (s_paths s2)) as (p, o) eqn:R.
  assert (G : (exists new, s_log (set_paths p s2) = rev new ++ s_log s /\ (new = [] \/ new = [FGetcwd])) /\
     (s_paths (set_paths p s2) = s_paths s \/ exists cw d, s_paths (set_paths p s2) = fst (RecvRealPath cw d (s_paths s)))).
  { split.
    - unfold s2. destruct (sp_default (s_paths s)); [exists []; split; [reflexivity|left; reflexivity]|exists [FGetcwd]; split; [reflexivity|right; reflexivity]].
    - right. eexists _, _. rewrite <- P2, R. reflexivity. }
  destruct (sp_default p).
  2: { destruct (mem _ _ 1); leaf H; exact G. }
  destruct o as [x|]; [|leaf H; exact G]. destruct (_ && _); leaf H; exact G.
Qed.
