(* SftpProofs8.v - proofs about the SFTP server: when there is a reply, and what
   SETSTAT, STAT and READDIR do. *)
From Verif Require Import Base WireModel WireSpec WireProofs PathModel PathSpec PathProofs NegoSpec ReqSpec ReqProofs ReqProofs3.
From Verif Require Import SftpModel SftpProofs SftpSpec SftpProofs2 SftpProofs3 SftpProofs4 SftpProofs5 SftpProofs6 SftpProofs7.
From Coq Require Import List NArith ZArith Bool Lia String.
Import ListNotations.
Open Scope N_scope.

Lemma status_some : forall E r c i t s r' out s', roomy E -> status_t E r c i t s = (r', out, s') -> out = Some (CreateStatus c i t English) /\ s' = s.
Proof.
  intros E r c i t s r' out s' M H. unfold status_t in H. rewrite M in H. apply triple_inv in H. destruct H as (_ & <- & <-). split; reflexivity.
Qed.
Lemma outcome_some : forall E i p o a b s r' out s', roomy E -> outcome_t E i p o a b s = (r', out, s') ->
  s' = s /\ out = Some (CreateStatus (if p then FTP_PERMISSION else if o then FTP_OK else FTP_FAILURE) i (if p then ascii "Permission denied" else if o then a else b) English).
Proof.
  intros E i p o a b s r' out s' M H. unfold outcome_t in H. destruct p; [|destruct o]; apply status_some in H; try assumption; destruct H as (-> & ->); split; reflexivity.
Qed.
Lemma attrs_some : forall E i t s r' out s', roomy E -> attrs_reply_t E i t s = (r', out, s') ->
  s' = s /\ out = Some (if (r_int (fs E (s_log s)) =? 0)%Z then SetHeader i FTP_ATTRS (AttributesSz (r_attr (fs E (s_log s)))) ++ SetAttributes (r_attr (fs E (s_log s)))
                        else CreateStatus FTP_FAILURE i t English).
Proof.
  intros E i t s r' out s' M H. unfold attrs_reply_t in H. cbv zeta in H. rewrite M in H. cbn [negb] in H.
  destruct (_ =? 0)%Z; apply triple_inv in H; destruct H as (_ & <- & <-); split; reflexivity.
Qed.

Section silent.
  Variables (E : senv) (id : N) (data : bytes) (s : srv) (r : rc) (s' : srv).
  Hypothesis M : roomy E.

  Local Ltac st H := exfalso; apply status_some in H; [|exact M]; destruct H as (H & _); discriminate H.
  Local Ltac oc H := exfalso; apply outcome_some in H; [|exact M]; destruct H as (_ & H); discriminate H.
  Local Ltac at_ H := exfalso; apply attrs_some in H; [|exact M]; destruct H as (_ & H); discriminate H.
  Local Ltac sil H := apply triple_inv in H; destruct H as (_ & H & H2); first [discriminate H | (left; symmetry; exact H2)].

  Lemma dispatch_silent : forall ty, ty <> 12 -> dispatch_t E ty id data s = (r, None, s') -> s' = s \/ s_log s' = s_log s \/ s_log s' = FGetcwd :: s_log s.
  Proof using M.
    intros ty T D. unfold dispatch_t in D.
    destruct (ty =? FTP_REALPATH).
    { revert D. unfold RecvRealPathMsg_t. intros H. destruct (p_str data) as [(path, r0)|]; [|sil H].
      destruct (_ <=? _); [sil H|]. cbv zeta in H.
      set (s1 := match sp_default (s_paths s) with Some _ => s | None => ask FGetcwd s end) in H.
      assert (L : s_log s1 = s_log s \/ s_log s1 = FGetcwd :: s_log s) by (unfold s1; destruct (sp_default (s_paths s)); [left|right]; reflexivity).
      right. destruct (RecvRealPath _ path (s_paths s1)) as (p, o).
      rewrite !M in H. destruct (sp_default p); [|apply triple_inv in H; destruct H as (_ & H & _); discriminate H].
      destruct o as [q|]; [|apply triple_inv in H; destruct H as (_ & _ & <-); exact L].
      cbn [negb] in H. rewrite andb_false_r in H. apply triple_inv in H; destruct H as (_ & H & _); discriminate H. }
    destruct (ty =? FTP_RMDIR).
    { revert D. unfold RecvRMDIR_t. intros H. destruct (p_str data) as [(path, r0)|]; [|sil H]. destruct (clean_t E path s) as (ret, dir). cbv zeta in H.
      destruct (rc_eqb _ WS_SUCCESS); oc H. }
    destruct (ty =? FTP_MKDIR).
    { revert D. unfold RecvMKDIR_t. intros H. destruct (p_str data) as [(path, r0)|]; [|sil H]. destruct (clean_t E path s) as (ret, dir). cbv zeta in H.
      destruct (rc_eqb ret WS_SUCCESS); [destruct (p_attrs r0) as [(a, r1)|]; [oc H|sil H]|]. destruct (rc_eqb ret WS_PERMISSIONS); [oc H|sil H]. }
    assert (STAT : forall nf, RecvStat_t nf E id data s = (r, None, s') -> s' = s \/ s_log s' = s_log s \/ s_log s' = FGetcwd :: s_log s).
    { intros nf H. revert H. unfold RecvStat_t. intros H. destruct (p_str data) as [(path, r0)|]; [|sil H]. destruct (clean_t E path s) as (ret, dir). cbv zeta in H.
      destruct (rc_eqb ret WS_SUCCESS); [at_ H|].
      destruct (negb _); [sil H|]. destruct (rc_eqb ret WS_PERMISSIONS); sil H. }
    destruct (ty =? FTP_STAT); [eapply STAT; exact D|].
    destruct (ty =? FTP_LSTAT); [eapply STAT; exact D|]. clear STAT.
    destruct (ty =? FTP_FSTAT).
    { revert D. unfold RecvFSTAT_t. intros H. destruct (p_str data) as [(hb, r0)|]; [|sil H]. destruct (file_of_t hb s); [at_ H|sil H]. }
    destruct (ty =? FTP_OPEN).
    { revert D. unfold RecvOpen_t. intros H. destruct (p_str data) as [(path, r0)|]; [|sil H]. destruct (clean_t E path s) as (ret, dir).
      destruct (rc_eqb ret WS_PERMISSIONS); [st H|]. destruct (negb _); [sil H|]. destruct (capped _ _); [st H|].
      destruct (p_u32 r0) as [(reason, r1)|]; [|sil H]. destruct (p_attrs r1) as [(a, r2)|]; [|sil H]. cbv zeta in H. rewrite !M in H.
      destruct (_ && _); [sil H|]. destruct (_ <? 0)%Z; [sil H|].
      destruct (HandleIdNext _) as (h, s4). destruct (AddFileHandle _ _ _ _ s4) as (ret2, s5). rewrite !M in H.
      destruct (negb _); sil H. }
    destruct (ty =? FTP_READ).
    { revert D. unfold RecvRead_t. cbv zeta. intros H. rewrite !M in H. rewrite !orb_true_r in H. cbn [negb] in H. destruct (p_str data) as [(hb, r0)|]; [|sil H].
      destruct (file_of_t hb s); [|sil H].
      destruct (p_two true r0) as [((hi, lo), t1)|]; [|sil H]. destruct (p_u32 t1) as [(sz, t2)|]; [|sil H].
      destruct (MAX_SFTP_RW <? sz); [sil H|]. rewrite !M in H. cbn [negb] in H. rewrite !orb_true_r in H.
      destruct (_ || _); [sil H|]. destruct (_ =? 0); sil H. }
    destruct (ty =? FTP_WRITE).
    { revert D. unfold RecvWrite_t. cbv zeta. intros H. destruct (p_str data) as [(hb, r0)|]; [|st H].
      destruct (file_of_t hb s); [|st H].
      destruct (p_two true r0) as [((hi, lo), t1)|]; [|sil H]. destruct (p_str t1) as [(d, t2)|]; [|sil H].
      destruct (write_loop _ _ _ _ _ _ _) as (ok, s2). destruct ok; st H. }
    destruct (ty =? FTP_CLOSE).
    { revert D. unfold RecvClose_t. intros H. destruct (p_str data) as [(hb, r0)|]; [|sil H]. destruct (_ <? _); [sil H|]. cbv zeta in H.
      destruct (negb _); [st H|]. destruct (RecvCloseDir _ _); [st H|]. destruct (FindFileHandle _ _); [|st H].
      destruct (_ <=? _)%Z; st H. }
    destruct (ty =? FTP_REMOVE).
    { revert D. unfold RecvRemove_t. intros H. destruct (p_str data) as [(path, r0)|]; [|sil H]. destruct (_ <? _); [sil H|].
      destruct (clean_t E path s) as (ret, dir). cbv zeta in H. destruct (rc_eqb _ WS_SUCCESS); oc H. }
    destruct (ty =? FTP_RENAME).
    { revert D. unfold RecvRename_t. cbv zeta. intros H. destruct (p_str data) as [(path, r0)|]; [|oc H].
      destruct (clean_t E path s) as (ret, dir). destruct (negb _); [oc H|]. destruct (p_str r0) as [(path2, r1)|]; [|oc H].
      destruct (clean_t E path2 s) as (ret2, dir2). destruct (negb _); oc H. }
    destruct (ty =? FTP_SETSTAT).
    { revert D. unfold RecvSetSTAT_t. cbv zeta. intros H. destruct (p_str data) as [(path, r0)|]; [|sil H].
      destruct (clean_t E path s) as (ret, dir). destruct (negb _); [oc H|]. destruct (p_attrs r0) as [(a, r1)|]; [|oc H].
      destruct (set_attrs _ _ _ _ _) as (ok, s2). oc H. }
    destruct (ty =? FTP_FSETSTAT).
    { revert D. unfold RecvFSetSTAT_t. cbv zeta. intros H. destruct (p_str data) as [(path, r0)|]; [|sil H].
      destruct (file_of_t path s); [|oc H]. destruct (p_attrs r0) as [(a, r1)|]; [|oc H].
      destruct (set_attrs _ _ _ _ _) as (ok, s2). oc H. }
    destruct (ty =? FTP_OPENDIR).
    { revert D. unfold RecvOpenDir_t. intros H. destruct (p_str data) as [(path, r0)|]; [|sil H]. destruct (clean_t E path s) as (ret, dir).
      destruct (rc_eqb ret WS_PERMISSIONS); [st H|]. destruct (negb _); [sil H|]. destruct (capped _ _); [st H|]. cbv zeta in H. rewrite !M in H.
      destruct (_ <? 0)%Z; [sil H|]. cbn [negb] in H.
      destruct (HandleIdNext _) as (h, s4). rewrite !M in H. sil H. }
    destruct (ty =? FTP_READDIR) eqn:K12; [apply N.eqb_eq in K12; contradiction|].
    rewrite M, orb_true_r in D. sil D.
  Qed.

  (* a well-formed request that can be answered is answered *)
  Lemma dispatch_answer : forall ty out, dispatch_t E ty id data s = (r, out, s') ->
    shaped ty data -> ~ In ty [3; 11; 12; 14; 16] ->
    (ty = 4 -> forall hb x, p_str data = Some (hb, x) -> lenN hb <= 256) ->
    (ty = 5 -> forall hb x v y n z, p_str data = Some (hb, x) -> p_two true x = Some (v, y) -> p_u32 y = Some (n, z) -> n <= 32768) ->
    (ty = 8 -> forall hb x, p_str data = Some (hb, x) -> file_of_t hb s <> None) ->
    (ty = 13 -> forall p x, p_str data = Some (p, x) -> lenN p <= 256) ->
    exists m, out = Some m.
  Proof using M.
    intros ty out D S T C4 C5 C8 C13. destruct out as [m|]; [eexists; reflexivity|]. exfalso.
    destruct S as (S1 & S2 & S3 & S4 & S5 & S6 & S7). unfold dispatch_t in D.
    destruct (N.eqb_spec ty FTP_REALPATH) as [K|_]; [subst ty; apply T; cbn; tauto|].
    destruct (N.eqb_spec ty FTP_RMDIR) as [K|_].
    { subst ty. destruct S1 as (path & pb & x & Sp & ->); [cbn; tauto|]. revert D. unfold RecvRMDIR_t. rewrite (p_str_app path pb) by assumption. intros H.
      destruct (clean_t E path s) as (ret, dir). cbv zeta in H. destruct (rc_eqb _ WS_SUCCESS); oc H. }
    destruct (N.eqb_spec ty FTP_MKDIR) as [K|_]; [subst ty; apply T; cbn; tauto|].
    assert (STAT : forall nf, RecvStat_t nf E id data s = (r, None, s') -> In ty [4; 7; 8; 12; 11; 13; 15; 16; 17] -> False).
    { intros nf H K. destruct (S1 K) as (path & pb & x & Sp & ->). revert H. unfold RecvStat_t. rewrite (p_str_app path pb) by assumption. intros H.
      destruct (clean_t E path s) as (ret, dir). cbv zeta in H.
      destruct (rc_eqb ret WS_SUCCESS); [at_ H|]. rewrite M in H. cbn [negb] in H.
      destruct (rc_eqb ret WS_PERMISSIONS); apply triple_inv in H; destruct H as (_ & H & _); discriminate H. }
    destruct (N.eqb_spec ty FTP_STAT) as [K|_]; [subst ty; eapply STAT; [exact D|cbn; tauto]|].
    destruct (N.eqb_spec ty FTP_LSTAT) as [K|_]; [subst ty; eapply STAT; [exact D|cbn; tauto]|]. clear STAT.
    destruct (N.eqb_spec ty FTP_FSTAT) as [K|_].
    { subst ty. destruct S1 as (hb & pb & x & Sp & ->); [cbn; tauto|]. pose proof (p_str_app hb pb x Sp) as P. specialize (C8 eq_refl hb x P).
      revert D. unfold RecvFSTAT_t. rewrite P. intros H. destruct (file_of_t hb s); [at_ H|congruence]. }
    destruct (N.eqb_spec ty FTP_OPEN) as [K|_]; [subst ty; apply T; cbn; tauto|].
    destruct (N.eqb_spec ty FTP_READ) as [K|_].
    { subst ty. destruct (S4 eq_refl) as (hb & pb & o & ob & n & nb & x & Sp & So & Sn & Q).
      assert (P : p_str data = Some (hb, ob ++ nb ++ x)) by (rewrite Q; apply p_str_app; assumption).
      revert D. unfold RecvRead_t. cbv zeta. rewrite P. intros H. rewrite !M in H. rewrite !orb_true_r in H. cbn [negb] in H.
      destruct (file_of_t hb s); [|apply triple_inv in H; destruct H as (_ & H & _); discriminate H].
      assert (P2 : exists v, p_two true (ob ++ nb ++ x) = Some (v, nb ++ x)).
      { destruct So as (L8 & _). exists (be_value (takeN 4 ob), be_value (dropN 4 ob)).
        rewrite <- (takeN_dropN N 4 ob) at 1. rewrite <- app_assoc. apply p_two_app; split; try reflexivity; [rewrite lenN_takeN|rewrite lenN_dropN]; lia. }
      destruct P2 as (v & P2). pose proof (p_u32_app n nb x Sn) as P3. pose proof (C5 eq_refl _ _ _ _ _ _ P P2 P3) as Ln.
      rewrite P2 in H. destruct v as (hi, lo). rewrite P3 in H. unfold MAX_SFTP_RW in H. destruct (N.ltb_spec 32768 n); [lia|].
      rewrite !M in H. rewrite !orb_true_r in H. cbn [negb] in H.
      destruct (_ || _); [|destruct (_ =? 0)]; apply triple_inv in H; destruct H as (_ & H & _); discriminate H. }
    destruct (N.eqb_spec ty FTP_WRITE) as [K|_].
    { subst ty. destruct (S5 eq_refl) as (hb & pb & o & ob & d & db & x & Sp & So & Sd & Q).
      assert (P : p_str data = Some (hb, ob ++ db ++ x)) by (rewrite Q; apply p_str_app; assumption).
      revert D. unfold RecvWrite_t. cbv zeta. rewrite P. intros H.
      destruct (file_of_t hb s); [|st H].
      assert (P2 : exists v, p_two true (ob ++ db ++ x) = Some (v, db ++ x)).
      { destruct So as (L8 & _). exists (be_value (takeN 4 ob), be_value (dropN 4 ob)).
        rewrite <- (takeN_dropN N 4 ob) at 1. rewrite <- app_assoc. apply p_two_app; split; try reflexivity; [rewrite lenN_takeN|rewrite lenN_dropN]; lia. }
      destruct P2 as ((hi, lo) & P2). rewrite P2, (p_str_app d db) in H by assumption.
      destruct (write_loop _ _ _ _ _ _ _) as (ok, s2). destruct ok; st H. }
    destruct (N.eqb_spec ty FTP_CLOSE) as [K|_].
    { subst ty. destruct S1 as (hb & pb & x & Sp & Q); [cbn; tauto|]. assert (P : p_str data = Some (hb, x)) by (rewrite Q; apply p_str_app; assumption).
      specialize (C4 eq_refl _ _ P). revert D. unfold RecvClose_t. rewrite P. intros H. unfold MAX_HANDLE in H. destruct (N.ltb_spec 256 (lenN hb)); [lia|]. cbv zeta in H.
      destruct (negb _); [st H|]. destruct (RecvCloseDir _ _); [st H|]. destruct (FindFileHandle _ _); [|st H].
      destruct (_ <=? _)%Z; st H. }
    destruct (N.eqb_spec ty FTP_REMOVE) as [K|_].
    { subst ty. destruct S1 as (path & pb & x & Sp & Q); [cbn; tauto|]. assert (P : p_str data = Some (path, x)) by (rewrite Q; apply p_str_app; assumption).
      specialize (C13 eq_refl _ _ P). revert D. unfold RecvRemove_t. rewrite P. intros H. unfold MAX_FILENAME in H. destruct (N.ltb_spec 256 (lenN path)); [lia|].
      destruct (clean_t E path s) as (ret, dir). cbv zeta in H. destruct (rc_eqb _ WS_SUCCESS); oc H. }
    destruct (N.eqb_spec ty FTP_RENAME) as [K|_].
    { subst ty. revert D. unfold RecvRename_t. cbv zeta. intros H. destruct (p_str data) as [(path, r0)|]; [|oc H].
      destruct (clean_t E path s) as (ret, dir). destruct (negb _); [oc H|]. destruct (p_str r0) as [(path2, r1)|]; [|oc H].
      destruct (clean_t E path2 s) as (ret2, dir2). destruct (negb _); oc H. }
    destruct (N.eqb_spec ty FTP_SETSTAT) as [K|_].
    { subst ty. destruct (S3 ltac:(cbn; tauto)) as (path & pb & a & ab & x & Sp & Sa & Q). assert (P : p_str data = Some (path, ab ++ x)) by (rewrite Q; apply p_str_app; assumption).
      revert D. unfold RecvSetSTAT_t. cbv zeta. rewrite P. intros H.
      destruct (clean_t E path s) as (ret, dir). destruct (negb _); [oc H|]. destruct (p_attrs _) as [(a', r1)|]; [|oc H].
      destruct (set_attrs _ _ _ _ _) as (ok, s2). oc H. }
    destruct (N.eqb_spec ty FTP_FSETSTAT) as [K|_].
    { subst ty. destruct (S3 ltac:(cbn; tauto)) as (path & pb & a & ab & x & Sp & Sa & Q). assert (P : p_str data = Some (path, ab ++ x)) by (rewrite Q; apply p_str_app; assumption).
      revert D. unfold RecvFSetSTAT_t. cbv zeta. rewrite P. intros H.
      destruct (file_of_t path s); [|oc H]. destruct (p_attrs _) as [(a', r1)|]; [|oc H].
      destruct (set_attrs _ _ _ _ _) as (ok, s2). oc H. }
    destruct (N.eqb_spec ty FTP_OPENDIR) as [K|_]; [subst ty; apply T; cbn; tauto|].
    destruct (N.eqb_spec ty FTP_READDIR) as [K|_]; [subst ty; apply T; cbn; tauto|].
    rewrite M, orb_true_r in D. apply triple_inv in D. destruct D as (_ & D & _). discriminate D.
  Qed.
End silent.

(* ---- setting attributes ------------------------------------------------------- *)

Lemma set_attrs_log : forall E ch st a s ok s', set_attrs E ch st a s = (ok, s') ->
  let pc := if N.testbit (a_flags a) 2 then [ch (N.land (a_per a) 511)] else [] in
  let tc := if N.testbit (a_flags a) 3 then [st (a_atime a) (a_mtime a)] else [] in
  let all := answered E (s_log s) (pc ++ tc) in
  s_paths s' = s_paths s /\
  ((ok = true /\ s_log s' = rev (pc ++ tc) ++ s_log s /\ Forall (fun x => r_int (snd x) = 0%Z) all) \/
   (ok = false /\ exists done last rest, pc ++ tc = done ++ last :: rest /\ s_log s' = rev (done ++ [last]) ++ s_log s /\
      Forall (fun x => r_int (snd x) = 0%Z) (answered E (s_log s) done) /\ r_int (fs E (last :: rev done ++ s_log s)) <> 0%Z)).
Proof.
  intros E ch st a s ok s' H pc tc all. unfold set_attrs, SAFE_MODE in H. rewrite bit_perm, bit_time in H.
  subst pc tc all. cbv zeta in H. destruct (N.testbit (a_flags a) 2); destruct (N.testbit (a_flags a) 3); cbn [andb app answered rev] in *.
  - destruct (Z.eqb_spec (r_int (fs E (s_log (ask (ch (N.land (a_per a) 511)) s)))) 0) as [Q|Q]; cbn [andb] in H.
    + set (s1 := ask (ch (N.land (a_per a) 511)) s) in *. change (ch (N.land (a_per a) 511) :: s_log s) with (s_log s1).
      destruct (Z.eqb_spec (r_int (fs E (s_log (ask (st (a_atime a) (a_mtime a)) s1)))) 0) as [Q2|Q2];
        apply pair_equal_spec in H; destruct H as (<- & <-); (split; [reflexivity|]).
      * left. split; [reflexivity|]. split; [reflexivity|]. constructor; [exact Q|]. constructor; [exact Q2|constructor].
      * right. split; [reflexivity|]. exists [ch (N.land (a_per a) 511)], (st (a_atime a) (a_mtime a)), []. split; [reflexivity|]. split; [reflexivity|].
        split; [constructor; [exact Q|constructor]|exact Q2].
    + apply pair_equal_spec in H. destruct H as (<- & <-). split; [reflexivity|]. right. split; [reflexivity|].
      exists [], (ch (N.land (a_per a) 511)), [st (a_atime a) (a_mtime a)]. split; [reflexivity|]. split; [reflexivity|]. split; [constructor|exact Q].
  - rewrite andb_false_r in H. destruct (Z.eqb_spec (r_int (fs E (s_log (ask (ch (N.land (a_per a) 511)) s)))) 0) as [Q|Q];
      apply pair_equal_spec in H; destruct H as (<- & <-); (split; [reflexivity|]).
    + left. split; [reflexivity|]. split; [reflexivity|]. constructor; [exact Q|constructor].
    + right. split; [reflexivity|]. exists [], (ch (N.land (a_per a) 511)), []. split; [reflexivity|]. split; [reflexivity|]. split; [constructor|exact Q].
  - destruct (Z.eqb_spec (r_int (fs E (s_log (ask (st (a_atime a) (a_mtime a)) s)))) 0) as [Q|Q];
      apply pair_equal_spec in H; destruct H as (<- & <-); (split; [reflexivity|]).
    + left. split; [reflexivity|]. split; [reflexivity|]. constructor; [exact Q|constructor].
    + right. split; [reflexivity|]. exists [], (st (a_atime a) (a_mtime a)), []. split; [reflexivity|]. split; [reflexivity|]. split; [constructor|exact Q].
  - apply pair_equal_spec in H. destruct H as (<- & <-). split; [reflexivity|]. left. split; [reflexivity|]. split; [reflexivity|constructor].
Qed.
