(* SshdSessionProofs.v - lemmas for SshdSessionProps.v *)
From Coq Require Import List NArith ZArith Lia Bool String.
From Verif Require Import Base NegoSpec SshdConfModel SshdSessionModel SshdSessionSpec.
Import ListNotations.
Open Scope N_scope.

Section P.
Variable K : kernel.

Lemma sys_true : forall x p q, sys K x p = (true, q) -> may K (p_cred p) x = true /\ p_cred q = effect K (p_cred p) x.
Proof.
  intros x p q E. unfold sys in E.
  destruct (k_ok K (p_n p) x && may K (p_cred p) x) eqn:Q; inversion E; subst.
  apply andb_true_iff in Q. split; [exact (proj2 Q) | reflexivity].
Qed.
Lemma sys_false : forall x p q, sys K x p = (false, q) -> p_cred q = p_cred p.
Proof.
  intros x p q E. unfold sys in E.
  destruct (k_ok K (p_n p) x && may K (p_cred p) x) eqn:Q; inversion E; subst. reflexivity.
Qed.
Lemma sys_plain : forall x p b q, (forall c, effect K c x = c) -> sys K x p = (b, q) -> p_cred q = p_cred p.
Proof.
  intros x p b q H E. destruct b.
  - destruct (sys_true _ _ _ E) as [_ ->]. apply H.
  - apply (sys_false _ _ _ E).
Qed.
Lemma sys_well : all_well K -> forall x p, may K (p_cred p) x = true ->
  sys K x p = (true, Proc (S (p_n p)) (effect K (p_cred p) x)).
Proof. intros A x p M. unfold sys. now rewrite A, M. Qed.

Definition same_place (c d : cred) : Prop := c_groups d = c_groups c /\ c_root d = c_root c /\ c_cwd d = c_cwd c.

Lemma keep_id : forall x o, x <> NO_ID -> keep x o = x.
Proof. intros x o H. unfold keep. destruct (N.eqb_spec x NO_ID); congruence. Qed.

Lemma reduce_user_ids : forall uid gid p q, uid <> NO_ID -> gid <> NO_ID ->
  reduce_user K uid gid p = (true, q) -> ids_of uid gid (p_cred q) /\ same_place (p_cred p) (p_cred q).
Proof.
  intros uid gid p q HU HG E. unfold reduce_user in E.
  destruct (sys K (SetRegid gid gid) p) as [g p1] eqn:E1. destruct g; [|discriminate].
  destruct (sys_true _ _ _ E1) as [_ C1]. destruct (sys_true _ _ _ E) as [_ C2].
  rewrite C2, C1. cbn [effect c_ruid c_euid c_suid c_rgid c_egid c_sgid c_groups c_root c_cwd].
  rewrite !(keep_id uid), !(keep_id gid) by assumption.
  assert (XU : (uid =? NO_ID) = false) by (apply N.eqb_neq; exact HU).
  assert (XG : (gid =? NO_ID) = false) by (apply N.eqb_neq; exact HG).
  unfold ids_of, same_place. cbn [c_ruid c_euid c_suid c_rgid c_egid c_sgid c_groups c_root c_cwd].
  rewrite XU, XG. cbn [negb orb]. repeat split.
Qed.
(* whatever the outcome, reduce_user moves nothing *)
Lemma reduce_user_place : forall uid gid p b q, reduce_user K uid gid p = (b, q) -> same_place (p_cred p) (p_cred q).
Proof.
  intros uid gid p b q E. unfold reduce_user in E.
  destruct (sys K (SetRegid gid gid) p) as [g p1] eqn:E1. destruct g.
  - destruct (sys_true _ _ _ E1) as [_ C1]. destruct b.
    + destruct (sys_true _ _ _ E) as [_ C2]. rewrite C2, C1. repeat split.
    + rewrite (sys_false _ _ _ E), C1. repeat split.
  - inversion E; subst. rewrite (sys_false _ _ _ E1). repeat split.
Qed.

Lemma raise_place : forall a p b q, raise_permissions K a p = (b, q) -> same_place (p_cred p) (p_cred q).
Proof.
  intros a p b q E. unfold raise_permissions in E. destruct (separated a).
  - destruct (sys K (SetEgid (i_sgid a)) p) as [g p1] eqn:E1. destruct g.
    + destruct (sys_true _ _ _ E1) as [_ C1]. destruct b.
      * destruct (sys_true _ _ _ E) as [_ C2]. rewrite C2, C1. repeat split.
      * rewrite (sys_false _ _ _ E), C1. repeat split.
    + inversion E; subst. rewrite (sys_false _ _ _ E1). repeat split.
  - inversion E; subst. repeat split.
Qed.
Lemma raise_fails : forall a p q, raise_permissions K a p = (false, q) -> c_euid (p_cred q) = c_euid (p_cred p).
Proof.
  intros a p q E. unfold raise_permissions in E. destruct (separated a); [|discriminate].
  destruct (sys K (SetEgid (i_sgid a)) p) as [g p1] eqn:E1. destruct g.
  - destruct (sys_true _ _ _ E1) as [_ C1]. rewrite (sys_false _ _ _ E), C1. reflexivity.
  - inversion E; subst. now rewrite (sys_false _ _ _ E1).
Qed.
Lemma reduce_ids : forall a p q, separated a = true -> reduce_permissions K a p = (true, q) ->
  c_euid (p_cred q) = i_uid a /\ c_egid (p_cred q) = i_gid a.
Proof.
  intros a p q S E. unfold reduce_permissions in E. rewrite S in E.
  destruct (sys K (SetEgid (i_gid a)) p) as [g p1] eqn:E1.
  destruct (sys K (SetEuid (i_uid a)) p1) as [u p2] eqn:E2.
  destruct g; [|discriminate]. destruct u; [|discriminate].
  inversion E; subst. destruct (sys_true _ _ _ E1) as [_ C1]. destruct (sys_true _ _ _ E2) as [_ C2].
  rewrite C2, C1. split; reflexivity.
Qed.

Lemma group_list_some : forall fuel s l gs, group_list fuel s l = Some gs -> gs = l.
Proof.
  induction fuel as [|n IH]; intros s l gs E; cbn [group_list] in E; [discriminate|].
  destruct (lenN l <=? s); [congruence|].
  destruct (GROUP_LIST_MAX <=? s); [discriminate|]. exact (IH _ _ _ E).
Qed.
Lemma group_list_all : forall l, lenN l <= GROUP_LIST_MAX -> group_list 12 GROUP_LIST_INIT l = Some l.
Proof.
  intros l H. unfold GROUP_LIST_INIT.
  assert (ST : forall n s, lenN l <= N.min (s * 2) GROUP_LIST_MAX \/ group_list n (N.min (s * 2) GROUP_LIST_MAX) l = Some l ->
                 s < GROUP_LIST_MAX -> (0 < n)%nat -> group_list (S n) s l = Some l).
  { intros n s Q B HN. cbn [group_list]. destruct (N.leb_spec (lenN l) s); [reflexivity|].
    destruct (N.leb_spec GROUP_LIST_MAX s); [lia|].
    destruct Q as [Q|Q]; [|exact Q]. destruct n; [lia|]. cbn [group_list].
    destruct (N.leb_spec (lenN l) (N.min (s * 2) GROUP_LIST_MAX)); [reflexivity|lia]. }
  unfold GROUP_LIST_MAX in *.
  do 10 (apply ST; [right | lia | lia];
         match goal with |- context [N.min (?s * 2) 65536] => let v := eval vm_compute in (N.min (s * 2) 65536) in
           change (N.min (s * 2) 65536) with v end).
  apply ST; [left; exact H | lia | lia].
Qed.
Lemma set_groups_true : forall l p q, auth_set_groups K l p = (true, q) ->
  c_euid (p_cred p) = 0 /\ c_groups (p_cred q) = l /\ c_root (p_cred q) = c_root (p_cred p) /\ c_cwd (p_cred q) = c_cwd (p_cred p).
Proof.
  intros l p q E. unfold auth_set_groups in E.
  destruct (group_list 12 GROUP_LIST_INIT l) as [gs|] eqn:G; [|discriminate].
  apply group_list_some in G. subst gs. destruct (sys_true _ _ _ E) as [M C]. cbn [may] in M.
  rewrite C. cbn [effect c_groups c_root c_cwd]. apply N.eqb_eq in M. auto.
Qed.

(* Nothing a confined process names is outside. *)
Definition jailed (path : option bytes) (before after : cred) : Prop :=
  match path with
  | None => c_root after = c_root before /\ c_cwd after = c_cwd before
  | Some d => fs_ok (k_lookup K) -> absolute d ->
      k_lookup K (c_root before) (c_cwd before) d = Some (c_root after) /\ c_cwd after = c_root after
  end.
Lemma chroot_set : forall d p q, setup_chroot K (Some d) p = (CSet, q) ->
  c_groups (p_cred q) = c_groups (p_cred p) /\ jailed (Some d) (p_cred p) (p_cred q).
Proof.
  intros d p q E. unfold setup_chroot in E.
  destruct (sys K (Chdir d) p) as [b1 p1] eqn:E1. destruct b1; [|discriminate].
  destruct (sys K (Chroot d) p1) as [b2 p2] eqn:E2. destruct b2; [|discriminate].
  destruct (sys K (Chdir slash) p2) as [b3 p3] eqn:E3. destruct b3; [|discriminate].
  inversion E; subst q. clear E.
  destruct (sys_true _ _ _ E1) as [M1 C1]. destruct (sys_true _ _ _ E2) as [M2 C2]. destruct (sys_true _ _ _ E3) as [M3 C3].
  cbn [may] in M1, M2, M3. cbn [effect] in C1, C2, C3.
  destruct (k_lookup K (c_root (p_cred p)) (c_cwd (p_cred p)) d) as [e1|] eqn:L1; [|discriminate].
  rewrite C1 in M2, C2. cbn [c_root c_cwd c_euid] in M2, C2.
  destruct (k_lookup K (c_root (p_cred p)) e1 d) as [e2|] eqn:L2; [|now rewrite andb_false_r in M2].
  rewrite C2 in C3, M3. cbn [c_root c_cwd c_euid] in C3, M3.
  destruct (k_lookup K e2 e1 slash) as [e3|] eqn:L3; [|discriminate].
  rewrite C3. cbn [c_groups c_root c_cwd]. split; [reflexivity|].
  unfold jailed. cbn [c_groups c_root c_cwd]. intros (F1 & F2 & _) A.
  rewrite (F2 _ _ e1 _ A) in L1. unfold slash in L3. rewrite F1 in L3. rewrite (F2 _ _ e1 _ A).
  split; congruence.
Qed.
Lemma chroot_none : forall p q r, setup_chroot K None p = (r, q) -> r = CNone /\ q = p.
Proof. intros p q r E. inversion E. split; reflexivity. Qed.
Lemma chroot_some : forall d p q, setup_chroot K (Some d) p = (CNone, q) -> False.
Proof.
  intros d p q E. unfold setup_chroot in E.
  destruct (sys K (Chdir d) p) as [b1 p1]. destruct b1; [|discriminate].
  destruct (sys K (Chroot d) p1) as [b2 p2]. destruct b2; [|discriminate].
  destruct (sys K (Chdir slash) p2) as [b3 p3]. destruct b3; discriminate.
Qed.
Lemma chroot_ok : forall path r p q, setup_chroot K path p = (r, q) -> r <> CErr ->
  c_groups (p_cred q) = c_groups (p_cred p) /\ jailed path (p_cred p) (p_cred q).
Proof.
  intros path r p q E N. destruct path as [d|].
  - destruct r; [apply (chroot_set _ _ _ E) | destruct (chroot_some _ _ _ E) | congruence].
  - destruct (chroot_none _ _ _ E) as [-> ->]. repeat split.
Qed.

Lemma sftp_start_cred : forall u b p ok s q, sftp_start K u b p = (ok, s, q) -> p_cred q = p_cred p.
Proof.
  intros u b p ok s q E. unfold sftp_start in E.
  assert (X : exists b1 s1 p1, (if b then let '(b0, q0) := sys K (DefaultPath slash) p in (b0, if b0 then Some slash else None, q0) else (true, None, p)) = (b1, s1, p1) /\ p_cred p1 = p_cred p).
  { destruct b.
    - destruct (sys K (DefaultPath slash) p) as [b0 q0] eqn:E0. repeat eexists. refine (sys_plain (DefaultPath slash) p b0 q0 _ E0); reflexivity.
    - repeat eexists. }
  destruct X as (b1 & s1 & p1 & X & C). rewrite X in E. destruct b1; [|inversion E; subst; exact C].
  destruct (sys K (OpenDir (ac_dir u)) p1) as [o p2] eqn:E2. assert (C2 : p_cred p2 = p_cred p1) by (refine (sys_plain (OpenDir (ac_dir u)) p1 o p2 _ E2); reflexivity).
  destruct o; [|inversion E; subst; congruence].
  destruct (sys K (DefaultPath (ac_dir u)) p2) as [o' p3] eqn:E3.
  assert (C3 : p_cred p3 = p_cred p2) by (refine (sys_plain (DefaultPath (ac_dir u)) p2 o' p3 _ E3); reflexivity).
  inversion E; subst; congruence.
Qed.

(* The credentials a service has, as far as they do not come from Chdir. *)
Definition served_ok (path : option bytes) (u : account) (before after : cred) : Prop :=
  (real_ids u -> ids_of (ac_uid u) (ac_gid u) after) /\ c_groups after = ac_groups u /\ jailed path before after.

Lemma reduced_ok : forall path u p p1 p2 q,
  same_place (p_cred p) (p_cred p1) -> c_groups (p_cred p2) = ac_groups u ->
  jailed path (p_cred p1) (p_cred p2) ->
  reduce_user K (ac_uid u) (ac_gid u) p2 = (true, q) -> served_ok path u (p_cred p) (p_cred q).
Proof.
  intros path u p p1 p2 q (S1 & S2 & S3) G J E.
  destruct (reduce_user_place _ _ _ _ _ E) as (T1 & T2 & T3).
  split; [|split].
  - intros [HU HG]. apply (reduce_user_ids _ _ _ _ HU HG E).
  - congruence.
  - destruct path as [d|]; cbn [jailed] in *.
    + intros F A. destruct (J F A) as [J1 J2]. rewrite <- S2, <- S3, J1, T2, T3. auto.
    + destruct J. split; congruence.
Qed.
Lemma jailed_trans : forall path a b c, same_place b c -> jailed path a b -> jailed path a c.
Proof.
  intros path a b c (S1 & S2 & S3) J. destruct path as [d|]; cbn [jailed] in *.
  - intros F A. destruct (J F A). rewrite S2, S3. auto.
  - destruct J. split; congruence.
Qed.
Lemma jailed_groups : forall path a b c,
  c_root b = c_root a -> c_cwd b = c_cwd a -> jailed path b c -> jailed path a c.
Proof.
  intros path a b c R W J. destruct path as [d|]; cbn [jailed] in *.
  - intros F A. destruct (J F A). rewrite <- R, <- W. auto.
  - destruct J. split; congruence.
Qed.

Lemma scp_ok : forall a u c p sts f q, scp_subsystem K a u c p = (sts, f, q) ->
  forall st, In st sts -> s_what st = Scp /\ served_ok (cf_chroot c) u (p_cred p) (s_cred st).
Proof.
  intros a u c p sts f q E st I. unfold scp_subsystem in E.
  destruct (raise_permissions K a p) as [r p1] eqn:E1. destruct r; [|inversion E; subst; destruct I].
  cbn [negb] in E. pose proof (raise_place _ _ _ _ E1) as S1.
  destruct (auth_set_groups K (ac_groups u) p1) as [g p2] eqn:E2.
  destruct g.
  - destruct (set_groups_true _ _ _ E2) as (_ & G & R & W).
    destruct (setup_chroot K (cf_chroot c) p2) as [x p3] eqn:E3.
    assert (X : x <> CErr -> exists q', reduce_user K (ac_uid u) (ac_gid u) p3 = (true, q') /\ sts = [Start Scp (p_cred q')] \/ sts = []).
    { intro X. destruct x; [| |congruence];
        destruct (reduce_user K (ac_uid u) (ac_gid u) p3) as [d p4] eqn:E4; exists p4; destruct d; cbn [negb] in E; inversion E; subst; auto. }
    destruct x; [| |destruct (reduce_user K (ac_uid u) (ac_gid u) p3) as [d p4]; destruct d; cbn [negb] in E; inversion E; subst; destruct I].
    all: destruct X as (q' & [[E4 ->] | ->]); [discriminate | | destruct I].
    all: destruct I as [<- | []]; split; [reflexivity|].
    all: edestruct (chroot_ok _ _ _ _ E3) as [CG CJ]; [discriminate|].
    all: apply (reduced_ok _ _ p p1 p3 q' S1); [congruence | apply (jailed_groups _ _ _ _ R W CJ) | exact E4].
  - destruct (reduce_user K (ac_uid u) (ac_gid u) p2) as [d p4]. destruct d; cbn [negb] in E; inversion E; subst; destruct I.
Qed.

Lemma sftp_ok : forall a u c p sts f q, sftp_subsystem K a u c p = (sts, f, q) ->
  forall st, In st sts -> (exists s, s_what st = Sftp s) /\ served_ok (cf_chroot c) u (p_cred p) (s_cred st).
Proof.
  intros a u c p sts f q E st I. unfold sftp_subsystem in E.
  destruct (raise_permissions K a p) as [r p1] eqn:E1. destruct r; [|inversion E; subst; destruct I].
  cbn [negb] in E. pose proof (raise_place _ _ _ _ E1) as S1.
  destruct (auth_set_groups K (ac_groups u) p1) as [g p2] eqn:E2.
  destruct g.
  - destruct (set_groups_true _ _ _ E2) as (_ & G & R & W).
    destruct (setup_chroot K (cf_chroot c) p2) as [x p3] eqn:E3.
    assert (X : exists (b : bool) ok s p4, (x <> CErr -> sftp_start K u b p3 = (ok, s, p4)) /\ (x = CErr -> ok = false) /\
              (let '(d, p5) := reduce_user K (ac_uid u) (ac_gid u) p4 in
               if negb d then ([], Exits, p5) else if ok then ([Start (Sftp s) (p_cred p5)], Returns true, p5) else ([], Returns false, p5)) = (sts, f, q)).
    { destruct x.
      - destruct (sftp_start K u true p3) as [[ok s] p4] eqn:E4. exists true, ok, s, p4. split; [auto|]. split; [discriminate|exact E].
      - destruct (sftp_start K u false p3) as [[ok s] p4] eqn:E4. exists false, ok, s, p4. split; [auto|]. split; [discriminate|exact E].
      - exists true, false, None, p3. split; [congruence|]. split; [auto|exact E]. }
    destruct X as (b & ok & s & p4 & X1 & X2 & X).
    destruct (reduce_user K (ac_uid u) (ac_gid u) p4) as [d p5] eqn:E5.
    destruct d; cbn [negb] in X; [|inversion X; subst; destruct I].
    destruct ok; [|inversion X; subst; destruct I].
    assert (NE : x <> CErr) by (intro Y; specialize (X2 Y); discriminate).
    inversion X; subst. destruct I as [<- | []]. split; [eexists; reflexivity|]. cbn [s_cred].
    pose proof (sftp_start_cred _ _ _ _ _ _ (X1 NE)) as C4.
    edestruct (chroot_ok _ _ _ _ E3 NE) as [CG CJ].
    apply (reduced_ok _ _ p p1 p4 q S1); [congruence | rewrite C4; apply (jailed_groups _ _ _ _ R W CJ) | exact E5].
  - destruct (reduce_user K (ac_uid u) (ac_gid u) p2) as [d p4]. destruct d; cbn [negb] in E; inversion E; subst; destruct I.
Qed.

Lemma calls_plain : forall xs p b q, (forall x, In x xs -> forall c, effect K c x = c) -> calls K xs p = (b, q) -> p_cred q = p_cred p.
Proof.
  induction xs as [|x r IH]; intros p b q H E; cbn [calls] in E.
  - inversion E. reflexivity.
  - destruct (sys K x p) as [o p1] eqn:E1. pose proof (sys_plain _ _ _ _ (H x (or_introl eq_refl)) E1) as C1.
    destruct o; [|inversion E; subst; exact C1].
    rewrite (IH _ _ _ (fun y J => H y (or_intror J)) E). exact C1.
Qed.

(* after the last Chdir the working directory is still inside *)
Definition served_in (path : option bytes) (u : account) (before after : cred) : Prop :=
  (real_ids u -> ids_of (ac_uid u) (ac_gid u) after) /\ c_groups after = ac_groups u /\
  match path with
  | None => c_root after = c_root before
  | Some d => fs_ok (k_lookup K) -> absolute d -> confined (k_lookup K) before d after
  end.
Lemma below_refl : forall r, below r r.
Proof. intro r. exists []. now rewrite app_nil_r. Qed.
Lemma served_served_in : forall path u b a, served_ok path u b a -> served_in path u b a.
Proof.
  intros path u b a (H1 & H2 & H3). split; [exact H1|]. split; [exact H2|]. destruct path as [d|]; cbn [jailed] in H3.
  - intros F A. destruct (H3 F A) as [J1 J2]. split; [exact J1|]. rewrite J2. apply below_refl.
  - apply H3.
Qed.
Lemma served_chdir : forall path u b q w ok q', served_in path u b (p_cred q) -> sys K (Chdir w) q = (ok, q') ->
  served_in path u b (p_cred q').
Proof.
  intros path u b q w ok q' H E. destruct ok; [|rewrite (sys_false _ _ _ E); exact H].
  destruct (sys_true _ _ _ E) as [M C]. cbn [may] in M. cbn [effect] in C.
  destruct (k_lookup K (c_root (p_cred q)) (c_cwd (p_cred q)) w) as [d|] eqn:L; [|discriminate].
  rewrite C. destruct H as (H1 & H2 & H3). split; [|split].
  - intro R. exact (H1 R).
  - exact H2.
  - destruct path as [x|]; cbn [c_root c_cwd] in *; [|exact H3].
    intros F A. destruct (H3 F A) as [J1 J2]. split; [exact J1|]. cbn [c_root c_cwd]. destruct F as (_ & _ & F).
    exact (F _ _ _ _ J2 L).
Qed.

Lemma child_ok : forall u c cmd piped p sts q, shell_child K u c cmd piped p = (sts, q) ->
  forall st, In st sts ->
    s_what st = Exec (program (ac_shell u)) (argv0 (ac_shell u) :: match cmd with Some x => [ascii "-c"; x] | None => [] end) /\
    served_in (cf_chroot c) u (p_cred p) (s_cred st).
Proof.
  intros u c cmd piped p sts q E st I. unfold shell_child in E.
  assert (X : exists b1 p1, (if piped then calls K [Dup; Dup; Dup] p else (true, p)) = (b1, p1) /\ p_cred p1 = p_cred p).
  { destruct piped.
    - destruct (calls K [Dup; Dup; Dup] p) as [b1 p1] eqn:E1. exists b1, p1. split; [reflexivity|].
      refine (calls_plain _ _ _ _ _ E1). intros x J z. destruct J as [<-|[<-|[<-|[]]]]; reflexivity.
    - exists true, p. auto. }
  destruct X as (b1 & p1 & X & C1). rewrite X in E. clear X.
  destruct b1; [|inversion E; subst; destruct I]. cbn [negb] in E.
  destruct (auth_set_groups K (ac_groups u) p1) as [g p2] eqn:E2. destruct g; [|inversion E; subst; destruct I]. cbn [negb] in E.
  destruct (set_groups_true _ _ _ E2) as (_ & G & R & W).
  destruct (setup_chroot K (cf_chroot c) p2) as [x p3] eqn:E3.
  assert (X : exists b3 p4, (match x with CErr => (false, p3) | CSet => sys K (Chdir slash) p3 | CNone => (true, p3) end) = (b3, p4)).
  { destruct x; [destruct (sys K (Chdir slash) p3) as [b q0]|..]; eauto. }
  destruct X as (b3 & p4 & X). rewrite X in E.
  destruct b3; [|inversion E; subst; destruct I]. cbn [negb] in E.
  destruct (reduce_user K (ac_uid u) (ac_gid u) p4) as [b4 p5] eqn:E5.
  destruct b4; [|inversion E; subst; destruct I]. cbn [negb] in E.
  destruct (sys K (Chdir (ac_dir u)) p5) as [b6 p6] eqn:E6. inversion E; subst. destruct I as [<- | []].
  split; [reflexivity|]. cbn [s_cred].
  assert (NE : x <> CErr) by (intro Y; subst x; discriminate).
  destruct (chroot_ok _ _ _ _ E3 NE) as [CG CJ].
  assert (J4 : c_groups (p_cred p4) = c_groups (p_cred p2) /\ jailed (cf_chroot c) (p_cred p2) (p_cred p4)).
  { destruct x; [|inversion X; subst; auto|congruence].
    destruct (sys_true _ _ _ X) as [M C]. cbn [may] in M. cbn [effect] in C.
    destruct (k_lookup K (c_root (p_cred p3)) (c_cwd (p_cred p3)) slash) as [e|] eqn:L; [|discriminate].
    rewrite C. split; [exact CG|]. destruct (cf_chroot c) as [y|].
    - cbn [jailed c_root c_cwd]. intros F A. destruct (CJ F A) as [J1 _]. split; [exact J1|].
      destruct F as (F & _). unfold slash in L. rewrite F in L. congruence.
    - destruct (chroot_none _ _ _ E3) as [Y _]. discriminate. }
  destruct J4 as [CG4 CJ4].
  eapply served_chdir; [|exact E6]. apply served_served_in.
  apply (reduced_ok _ _ p p1 p4 p5); [rewrite C1; repeat split | congruence | apply (jailed_groups _ _ _ _ R W CJ4) | exact E5].
Qed.

Lemma relay_ids : forall uid gid p q, reduce_user K uid gid p = (true, q) -> uid <> NO_ID -> gid <> NO_ID -> ids_of uid gid (p_cred q).
Proof. intros uid gid p q E H1 H2. apply (reduce_user_ids _ _ _ _ H1 H2 E). Qed.

(* ---- for good --------------------------------------------------------- *)
Lemma one_of_in : forall x l, one_of x l = true -> In x l.
Proof. intros x l H. apply existsb_exists in H. destruct H as (y & I & E). apply N.eqb_eq in E. now subst. Qed.
Lemma kept : forall x n l, (forall y, In y l -> y = n) -> one_of x (NO_ID :: l) = true -> keep x n = n.
Proof.
  intros x n l H O. apply one_of_in in O. unfold keep. destruct (N.eqb_spec x NO_ID); [reflexivity|].
  destruct O as [O|O]; [congruence|]. exact (H _ O).
Qed.
Lemma later_ids : forall uid gid, uid <> 0 -> forall x p, ids_of uid gid (p_cred p) ->
  ids_of uid gid (p_cred (snd (sys K x p))) /\ c_groups (p_cred (snd (sys K x p))) = c_groups (p_cred p) /\
  c_root (p_cred (snd (sys K x p))) = c_root (p_cred p) /\
  (fs_ok (k_lookup K) -> below (c_root (p_cred p)) (c_cwd (p_cred p)) -> below (c_root (p_cred p)) (c_cwd (p_cred (snd (sys K x p))))).
Proof.
  intros uid gid H0 x p H. destruct (sys K x p) as [b q] eqn:E. cbn [snd].
  destruct b; [|rewrite (sys_false _ _ _ E); auto].
  destruct (sys_true _ _ _ E) as [M C]. rewrite C. clear E C.
  destruct H as ((A1 & A2 & A3) & (B1 & B2 & B3)).
  assert (ZR : (c_euid (p_cred p) =? 0) = false) by (apply N.eqb_neq; congruence).
  destruct x; cbn [may] in M; cbn [effect c_groups c_root c_cwd]; rewrite ?ZR in M; cbn [orb andb] in M; try discriminate; try (split; [repeat split; assumption | auto]; fail).
  - (* setegid *)
    apply andb_true_iff in M. destruct M as [_ M]. apply one_of_in in M.
    split; [|auto]. repeat split; cbn; try assumption. destruct M as [M|[M|[M|[]]]]; congruence.
  - apply andb_true_iff in M. destruct M as [_ M]. apply one_of_in in M.
    split; [|auto]. repeat split; cbn; try assumption. destruct M as [M|[M|[M|[]]]]; congruence.
  - apply andb_true_iff in M. destruct M as [M1 M2].
    rewrite B1, B2, B3 in *.
    rewrite (kept r gid [gid; gid] ltac:(cbn; intuition congruence) M1).
    rewrite (kept e gid [gid; gid; gid] ltac:(cbn; intuition congruence) M2).
    split; [|auto]. unfold ids_of. cbn [c_ruid c_euid c_suid c_rgid c_egid c_sgid].
    match goal with |- context [if ?b then gid else gid] => destruct b end; repeat split; assumption.
  - apply andb_true_iff in M. destruct M as [M1 M2].
    rewrite A1, A2, A3 in *.
    rewrite (kept r uid [uid; uid] ltac:(cbn; intuition congruence) M1).
    rewrite (kept e uid [uid; uid; uid] ltac:(cbn; intuition congruence) M2).
    split; [|auto]. unfold ids_of. cbn [c_ruid c_euid c_suid c_rgid c_egid c_sgid].
    match goal with |- context [if ?b then uid else uid] => destruct b end; repeat split; assumption.
  - destruct (k_lookup K (c_root (p_cred p)) (c_cwd (p_cred p)) p0) as [d|] eqn:L; [|discriminate].
    cbn [c_groups c_root c_cwd]. split; [repeat split; assumption|]. split; [reflexivity|]. split; [reflexivity|].
    intros (_ & _ & F) Bl. exact (F _ _ _ _ Bl L).
Qed.
Lemma later_all : forall uid gid, uid <> 0 -> forall xs p, ids_of uid gid (p_cred p) ->
  ids_of uid gid (p_cred (later K xs p)) /\ c_groups (p_cred (later K xs p)) = c_groups (p_cred p) /\
  c_root (p_cred (later K xs p)) = c_root (p_cred p) /\
  (fs_ok (k_lookup K) -> below (c_root (p_cred p)) (c_cwd (p_cred p)) -> below (c_root (p_cred p)) (c_cwd (p_cred (later K xs p)))).
Proof.
  intros uid gid H0. induction xs as [|x r IH]; intros p H; cbn [later].
  - auto.
  - destruct (later_ids uid gid H0 x p H) as (A & B & C & D).
    destruct (IH _ A) as (A' & B' & C' & D'). split; [exact A'|]. split; [congruence|]. split; [congruence|].
    intros F Bl. rewrite <- C. apply D'; [exact F|]. rewrite C. apply D; assumption.
Qed.

(* ---- all well --------------------------------------------------------- *)
Lemma raise_well : all_well K -> forall a p, root_able a (p_cred p) ->
  exists p1, raise_permissions K a p = (true, p1) /\ c_euid (p_cred p1) = 0 /\ same_place (p_cred p) (p_cred p1).
Proof.
  intros A a p R. unfold root_able in R. unfold raise_permissions. destruct (separated a).
  - destruct R as (S0 & RU & NG & RG).
    assert (M1 : may K (p_cred p) (SetEgid (i_sgid a)) = true).
    { cbn [may]. apply N.eqb_neq in NG. rewrite NG. cbn [negb andb]. apply orb_true_iff. right.
      unfold one_of. cbn [existsb]. destruct RG as [-> | ->]; rewrite N.eqb_refl, ?orb_true_r; reflexivity. }
    rewrite (sys_well A _ _ M1).
    match goal with |- context [sys K (SetEuid _) ?q] => set (p1 := q) end.
    assert (M2 : may K (p_cred p1) (SetEuid (i_suid a)) = true).
    { cbn [may p1 p_cred effect c_euid c_ruid c_suid]. rewrite S0. cbn [N.eqb NO_ID negb andb].
      apply orb_true_iff. right. unfold one_of. cbn [existsb].
      destruct RU as [-> | ->]; rewrite ?N.eqb_refl, ?orb_true_r; reflexivity. }
    rewrite (sys_well A _ _ M2). eexists. split; [reflexivity|]. cbn. split; [exact S0|repeat split].
  - exists p. split; [reflexivity|]. split; [exact R|repeat split].
Qed.
Lemma groups_well : all_well K -> forall l p, lenN l <= GROUP_LIST_MAX -> c_euid (p_cred p) = 0 ->
  exists p1, auth_set_groups K l p = (true, p1) /\ c_euid (p_cred p1) = 0 /\
             c_root (p_cred p1) = c_root (p_cred p) /\ c_cwd (p_cred p1) = c_cwd (p_cred p).
Proof.
  intros A l p H E. unfold auth_set_groups. rewrite (group_list_all _ H).
  rewrite (sys_well A); [|cbn [may]; rewrite E; reflexivity].
  eexists. split; [reflexivity|]. cbn. auto.
Qed.
Lemma reduce_well : all_well K -> forall uid gid p, c_euid (p_cred p) = 0 -> exists p1, reduce_user K uid gid p = (true, p1).
Proof.
  intros A uid gid p E. unfold reduce_user.
  rewrite (sys_well A); [|cbn [may]; rewrite E; reflexivity].
  rewrite (sys_well A); [|cbn [may p_cred effect c_euid]; rewrite E; reflexivity].
  eexists. reflexivity.
Qed.
Lemma chroot_well : all_well K -> forall d p x, fs_ok (k_lookup K) -> absolute d -> c_euid (p_cred p) = 0 ->
  k_lookup K (c_root (p_cred p)) (c_cwd (p_cred p)) d = Some x ->
  exists p1, setup_chroot K (Some d) p = (CSet, p1) /\ c_euid (p_cred p1) = 0.
Proof.
  intros A d p x (F1 & F2 & _) AB E L. unfold setup_chroot.
  rewrite (sys_well A); [|cbn [may]; rewrite L; reflexivity]. cbn [effect]. rewrite L.
  match goal with |- context [sys K (Chroot d) ?q] => set (q1 := q) end.
  assert (L2 : k_lookup K (c_root (p_cred q1)) (c_cwd (p_cred q1)) d = Some x).
  { cbn [q1 p_cred c_root c_cwd]. rewrite (F2 _ _ (c_cwd (p_cred p)) _ AB). exact L. }
  rewrite (sys_well A); [|cbn [may]; rewrite L2; cbn [q1 p_cred c_euid]; rewrite E; reflexivity].
  cbn [effect]. rewrite L2. cbn [q1 p_cred c_root c_cwd].
  rewrite (sys_well A); [|cbn [may p_cred c_root c_cwd]; unfold slash; rewrite F1; reflexivity].
  eexists. split; [reflexivity|]. cbn [p_cred effect c_root c_cwd]. unfold slash. rewrite F1. exact E.
Qed.
Lemma calls_well : all_well K -> forall xs p, (forall x, In x xs -> In x [Pipe; Fork; Dup]) -> exists n, calls K xs p = (true, Proc n (p_cred p)).
Proof.
  intros A. induction xs as [|x r IH]; intros p H; cbn [calls].
  - exists (p_n p). now destruct p.
  - assert (X : In x [Pipe; Fork; Dup]) by (apply H; left; reflexivity).
    rewrite (sys_well A); [|destruct X as [<-|[<-|[<-|[]]]]; reflexivity].
    destruct (IH (Proc (S (p_n p)) (effect K (p_cred p) x)) (fun y J => H y (or_intror J))) as [n ->].
    exists n. cbn [p_cred]. destruct X as [<-|[<-|[<-|[]]]]; reflexivity.
Qed.
End P.

Section S.
Variable K KC : kernel.

Definition or_else (a b : option bytes) : option bytes := match a with Some x => Some x | None => b end.
Lemma shell_ok : forall a u c cert pty sub p sts f q, shell_subsystem K KC a u c cert pty sub p = (sts, f, q) ->
  forall st, In st sts ->
    let cmd := or_else (or_else (cf_cmd c) cert) sub in
    is_internal_sftp cmd = false /\
    ((s_what st = Exec (program (ac_shell u)) (argv0 (ac_shell u) :: match cmd with Some x => [ascii "-c"; x] | None => [] end) /\
      served_in KC (cf_chroot c) u (p_cred p) (s_cred st)) \/
     (s_what st = Relay /\ (real_ids u -> ids_of (ac_uid u) (ac_gid u) (s_cred st)) /\ same_place (p_cred p) (s_cred st))).
Proof.
  intros a u c cert pty sub p sts f q E st I cmd. unfold shell_subsystem in E.
  destruct pty as [t|]; [|inversion E; subst; destruct I].
  change (match effective_cmd (cf_cmd c) cert with Some x => Some x | None => sub end) with cmd in E.
  destruct (is_internal_sftp cmd); [inversion E; subst; destruct I|]. split; [reflexivity|].
  destruct (raise_permissions K a p) as [r p1] eqn:E1. destruct r; cbn [negb] in E; [|inversion E; subst; destruct I].
  pose proof (raise_place _ _ _ _ _ E1) as (S1 & S2 & S3).
  match type of E with context [calls K ?l p1] => destruct (calls K l p1) as [ok p2] eqn:E2; assert (C2 : p_cred p2 = p_cred p1) end.
  { refine (calls_plain K _ _ _ _ _ E2). intros x J z. apply in_app_iff in J.
    destruct J as [J|J]; [destruct (negb t || match cmd with Some _ => true | None => false end)|];
      [destruct J as [<-|[<-|[<-|[]]]] | destruct J | destruct J as [<-|[]]]; reflexivity. }
  destruct ok; cbn [negb] in E.
  2:{ destruct (reduce_permissions K a p2) as [d p3]. inversion E; subst; destruct I. }
  match type of E with context [shell_child KC u c cmd ?b ?p0] => destruct (shell_child KC u c cmd b p0) as [ch qc] eqn:E3 end.
  destruct (reduce_user K (ac_uid u) (ac_gid u) p2) as [d p3] eqn:E4.
  assert (CH : forall st, In st ch -> s_what st = Exec (program (ac_shell u)) (argv0 (ac_shell u) :: match cmd with Some x => [ascii "-c"; x] | None => [] end) /\
      served_in KC (cf_chroot c) u (p_cred p) (s_cred st)).
  { intros s0 I0. destruct (child_ok _ _ _ _ _ _ _ _ E3 _ I0) as [W (H1 & H2 & H3)]. split; [exact W|]. split; [exact H1|]. split; [exact H2|].
    cbn [p_cred] in H3. rewrite C2 in H3. destruct (cf_chroot c) as [x|].
    - intros F A. destruct (H3 F A) as [J1 J2]. split; [|exact J2]. rewrite <- S2, <- S3. exact J1.
    - congruence. }
  destruct d; inversion E; subst.
  - apply in_app_iff in I. destruct I as [I|[<-|[]]]; [left; exact (CH _ I)|]. right. cbn [s_what s_cred]. split; [reflexivity|].
    split; [intros [HU HG]; exact (relay_ids K _ _ _ _ E4 HU HG)|].
    destruct (reduce_user_place _ _ _ _ _ _ E4) as (T1 & T2 & T3). split; [|split]; congruence.
  - left. exact (CH _ I).
Qed.

(* the command of a session that may get a shell *)
Definition asked (s : session) : option (option bytes) :=
  match s with SShell => Some None | SExec c | SUnknown c => Some c | _ => None end.
Definition Served (u : account) (c : conf) (cert : option bytes) (acc : accepted) (s : session) (p : proc) (st : start) : Prop :=
  (s_what st = Scp /\ acc = AccScp /\ cert = None /\ root_transfer_blocked u c = false /\ served_ok K (cf_chroot c) u (p_cred p) (s_cred st)) \/
  ((exists d, s_what st = Sftp d) /\ s = SSubsystem /\ acc = AccSftp /\ (cert = None \/ is_internal_sftp cert = true) /\
    root_transfer_blocked u c = false /\ served_ok K (cf_chroot c) u (p_cred p) (s_cred st)) \/
  (acc = AccShell /\ exists sub, asked s = Some sub /\
    let cmd := or_else (or_else (cf_cmd c) cert) sub in
    is_internal_sftp cmd = false /\
    ((s_what st = Exec (program (ac_shell u)) (argv0 (ac_shell u) :: match cmd with Some x => [ascii "-c"; x] | None => [] end) /\
      served_in KC (cf_chroot c) u (p_cred p) (s_cred st)) \/
     (s_what st = Relay /\ (real_ids u -> ids_of (ac_uid u) (ac_gid u) (s_cred st)) /\ same_place (p_cred p) (s_cred st)))).
Lemma handle_ok : forall a u c cert pty acc s p sts f q, handle K KC a u c cert pty acc s p = (sts, f, q) ->
  forall st, In st sts -> Served u c cert acc s p st.
Proof.
  intros a u c cert pty acc s p sts f q E st I. unfold handle in E.
  assert (SCP : acc = AccScp -> (match cert with Some _ => ([], Returns false, p) | None => if root_transfer_blocked u c then ([], Returns false, p) else scp_subsystem K a u c p end) = (sts, f, q) -> Served u c cert acc s p st).
  { intros HA X. destruct cert; [inversion X; subst; destruct I|].
    destruct (root_transfer_blocked u c) eqn:RB; [inversion X; subst; destruct I|].
    destruct (scp_ok _ _ _ _ _ _ _ _ X _ I) as [W O]. left. auto. }
  assert (SH : acc = AccShell -> forall sub, asked s = Some sub -> shell_subsystem K KC a u c cert pty sub p = (sts, f, q) -> Served u c cert acc s p st).
  { intros HA sub AS X. right. right. split; [exact HA|]. exists sub. split; [exact AS|]. exact (shell_ok _ _ _ _ _ _ _ _ _ _ X _ I). }
  destruct s.
  - destruct acc; [exact (SH eq_refl _ eq_refl E)|..]; inversion E; subst; destruct I.
  - destruct (match cert with Some _ => negb (is_internal_sftp cert) | None => false end) eqn:CC; [inversion E; subst; destruct I|].
    destruct acc; [inversion E; subst; destruct I| |exact (SCP eq_refl E)].
    destruct (root_transfer_blocked u c) eqn:RB; [inversion E; subst; destruct I|].
    destruct (sftp_ok _ _ _ _ _ _ _ _ E _ I) as [W O]. right. left. split; [exact W|]. split; [reflexivity|]. split; [reflexivity|].
    split; [|auto]. destruct cert as [x|]; [right|left; reflexivity]. now destruct (is_internal_sftp (Some x)).
  - destruct acc; [exact (SH eq_refl _ eq_refl E)| |exact (SCP eq_refl E)]. inversion E; subst; destruct I.
  - destruct acc; [exact (SH eq_refl _ eq_refl E)| |exact (SCP eq_refl E)]. inversion E; subst; destruct I.
  - inversion E; subst; destruct I.
Qed.

(* ---- what is left of the permissions ------------------------------------- *)
Lemma sys_euid : forall x p b q, sys K x p = (b, q) -> (forall c, c_euid (effect K c x) = c_euid c) -> c_euid (p_cred q) = c_euid (p_cred p).
Proof.
  intros x p b q E H. destruct b.
  - destruct (sys_true _ _ _ _ E) as [_ ->]. apply H.
  - now rewrite (sys_false _ _ _ _ E).
Qed.
Lemma reduce_user_done : forall uid gid p q, uid <> NO_ID -> reduce_user K uid gid p = (true, q) -> c_euid (p_cred q) = uid.
Proof.
  intros uid gid p q H E. unfold reduce_user in E. destruct (sys K (SetRegid gid gid) p) as [g p1]. destruct g; [|discriminate].
  destruct (sys_true _ _ _ _ E) as [_ ->]. cbn [effect c_euid]. apply keep_id. exact H.
Qed.
Definition left_over (a : ids) (u : account) (p q : proc) : Prop :=
  c_euid (p_cred q) = c_euid (p_cred p) \/ c_euid (p_cred q) = ac_uid u \/ c_euid (p_cred q) = i_uid a.
Lemma scp_after : forall a u c p sts b q, ac_uid u <> NO_ID -> scp_subsystem K a u c p = (sts, Returns b, q) -> left_over a u p q.
Proof.
  intros a u c p sts b q H E. unfold scp_subsystem in E.
  destruct (raise_permissions K a p) as [r p1] eqn:E1. destruct r; cbn [negb] in E; [|left; inversion E; subst; exact (raise_fails _ _ _ _ E1)].
  destruct (auth_set_groups K (ac_groups u) p1) as [g p2].
  match type of E with context [reduce_user] => idtac end.
  set (Y := if g then _ else _) in E. destruct Y as [ok p3].
  destruct (reduce_user K (ac_uid u) (ac_gid u) p3) as [d p4] eqn:E4. destruct d; cbn [negb] in E; [|discriminate].
  right. left. destruct ok; inversion E; subst; exact (reduce_user_done _ _ _ _ H E4).
Qed.
Lemma sftp_after : forall a u c p sts b q, ac_uid u <> NO_ID -> sftp_subsystem K a u c p = (sts, Returns b, q) -> left_over a u p q.
Proof.
  intros a u c p sts b q H E. unfold sftp_subsystem in E.
  destruct (raise_permissions K a p) as [r p1] eqn:E1. destruct r; cbn [negb] in E; [|left; inversion E; subst; exact (raise_fails _ _ _ _ E1)].
  destruct (auth_set_groups K (ac_groups u) p1) as [g p2].
  set (Y := if g then _ else _) in E. destruct Y as [[ok s] p3].
  destruct (reduce_user K (ac_uid u) (ac_gid u) p3) as [d p4] eqn:E4. destruct d; cbn [negb] in E; [|discriminate].
  right. left. destruct ok; inversion E; subst; exact (reduce_user_done _ _ _ _ H E4).
Qed.
Lemma shell_after : forall a u c cert pty sub p sts b q, ac_uid u <> NO_ID ->
  shell_subsystem K KC a u c cert pty sub p = (sts, Returns b, q) -> left_over a u p q.
Proof.
  intros a u c cert pty sub p sts b q H E. unfold shell_subsystem in E.
  destruct pty as [t|]; [|inversion E; subst; left; reflexivity].
  set (cmd := match effective_cmd (cf_cmd c) cert with Some x => Some x | None => sub end) in E.
  destruct (is_internal_sftp cmd); [inversion E; subst; left; reflexivity|].
  destruct (raise_permissions K a p) as [r p1] eqn:E1. destruct r; cbn [negb] in E; [|left; inversion E; subst; exact (raise_fails _ _ _ _ E1)].
  match type of E with context [calls K ?l p1] => destruct (calls K l p1) as [ok p2] eqn:E2; assert (C2 : p_cred p2 = p_cred p1) end.
  { refine (calls_plain K _ _ _ _ _ E2). intros x J z. apply in_app_iff in J.
    destruct J as [J|J]; [destruct (negb t || match cmd with Some _ => true | None => false end)|];
      [destruct J as [<-|[<-|[<-|[]]]] | destruct J | destruct J as [<-|[]]]; reflexivity. }
  destruct ok; cbn [negb] in E.
  2:{ destruct (reduce_permissions K a p2) as [d p3] eqn:E3. destruct d; [|discriminate]. inversion E; subst.
      destruct (separated a) eqn:S.
      - right. right. exact (proj1 (reduce_ids _ _ _ _ S E3)).
      - left. unfold reduce_permissions in E3. unfold raise_permissions in E1. rewrite S in E1, E3. inversion E3; inversion E1; subst. now rewrite C2. }
  match type of E with context [shell_child KC u c cmd ?b ?p0] => destruct (shell_child KC u c cmd b p0) as [ch qc] eqn:E3 end.
  destruct (reduce_user K (ac_uid u) (ac_gid u) p2) as [d p3] eqn:E4. destruct d; [|discriminate].
  right. left. inversion E; subst. exact (reduce_user_done _ _ _ _ H E4).
Qed.
Lemma handle_after : forall a u c cert pty acc s p sts b q, ac_uid u <> NO_ID ->
  handle K KC a u c cert pty acc s p = (sts, Returns b, q) -> left_over a u p q.
Proof.
  intros a u c cert pty acc s p sts b q H E. unfold handle in E.
  assert (SCP : (match cert with Some _ => ([], Returns false, p) | None => if root_transfer_blocked u c then ([], Returns false, p) else scp_subsystem K a u c p end) = (sts, Returns b, q) -> left_over a u p q).
  { intro X. destruct cert; [inversion X; subst; left; reflexivity|].
    destruct (root_transfer_blocked u c); [inversion X; subst; left; reflexivity|]. exact (scp_after _ _ _ _ _ _ _ H X). }
  destruct s.
  - destruct acc; [exact (shell_after _ _ _ _ _ _ _ _ _ _ H E)|..]; inversion E; subst; left; reflexivity.
  - destruct (match cert with Some _ => negb (is_internal_sftp cert) | None => false end); [inversion E; subst; left; reflexivity|].
    destruct acc; [inversion E; subst; left; reflexivity| |exact (SCP E)].
    destruct (root_transfer_blocked u c); [inversion E; subst; left; reflexivity|exact (sftp_after _ _ _ _ _ _ _ H E)].
  - destruct acc; [exact (shell_after _ _ _ _ _ _ _ _ _ _ H E)| |exact (SCP E)]. inversion E; subst; left; reflexivity.
  - destruct acc; [exact (shell_after _ _ _ _ _ _ _ _ _ _ H E)| |exact (SCP E)]. inversion E; subst; left; reflexivity.
  - inversion E; subst; left; reflexivity.
Qed.

(* ---- all well ------------------------------------------------------------ *)
Lemma shell_well : all_well K -> all_well KC -> forall a u c cert t sub p,
  root_able a (p_cred p) -> lenN (ac_groups u) <= GROUP_LIST_MAX -> cf_chroot c = None ->
  let cmd := or_else (or_else (cf_cmd c) cert) sub in
  is_internal_sftp cmd = false ->
  exists k1 k2 q, shell_subsystem K KC a u c cert (Some t) sub p =
    ([Start (Exec (program (ac_shell u)) (argv0 (ac_shell u) :: match cmd with Some x => [ascii "-c"; x] | None => [] end)) k1; Start Relay k2], Returns true, q).
Proof.
  intros A AC a u c cert t sub p R G CH cmd NI. unfold shell_subsystem.
  change (match effective_cmd (cf_cmd c) cert with Some x => Some x | None => sub end) with cmd. rewrite NI.
  destruct (raise_well K A a p R) as (p1 & E1 & Z1 & _). rewrite E1. cbn [negb].
  match goal with |- context [calls K ?l p1] => destruct (calls_well K A l p1) as [n E2] end.
  { intros x J. apply in_app_iff in J.
    destruct J as [J|J]; [destruct (negb t || match cmd with Some _ => true | None => false end)|];
      [destruct J as [<-|[<-|[<-|[]]]] | destruct J | destruct J as [<-|[]]]; cbn; auto. }
  rewrite E2. cbn [negb p_cred].
  match goal with |- context [shell_child KC u c cmd ?b ?p0] => assert (X : exists k1 qc, shell_child KC u c cmd b p0 = ([Start (Exec (program (ac_shell u)) (argv0 (ac_shell u) :: match cmd with Some x => [ascii "-c"; x] | None => [] end)) k1], qc)) end.
  { unfold shell_child.
    match goal with |- context [if ?b then calls KC ?l ?p0 else (true, ?p0)] => assert (Y : exists m, (if b then calls KC l p0 else (true, p0)) = (true, Proc m (p_cred p1))) end.
    { destruct (negb t || _); [|exists O; reflexivity].
      destruct (calls_well KC AC [Dup; Dup; Dup] (Proc 0 (p_cred p1))) as [m E]; [cbn; tauto|]. exists m. exact E. }
    destruct Y as [m ->]. cbn [negb].
    destruct (groups_well KC AC (ac_groups u) (Proc m (p_cred p1)) G Z1) as (p2 & E3 & Z2 & _). rewrite E3. cbn [negb].
    rewrite CH. cbn [setup_chroot negb].
    destruct (reduce_well KC AC (ac_uid u) (ac_gid u) p2 Z2) as (p3 & ->). cbn [negb].
    destruct (sys KC (Chdir (ac_dir u)) p3) as [b p4]. eexists. eexists. reflexivity. }
  destruct X as (k1 & qc & ->).
  destruct (reduce_well K A (ac_uid u) (ac_gid u) (Proc n (p_cred p1)) Z1) as (p3 & ->).
  eexists. eexists. eexists. reflexivity.
Qed.
Lemma scp_well : all_well K -> forall a u c p,
  root_able a (p_cred p) -> lenN (ac_groups u) <= GROUP_LIST_MAX -> cf_chroot c = None ->
  exists k q, scp_subsystem K a u c p = ([Start Scp k], Returns true, q).
Proof.
  intros A a u c p R G CH. unfold scp_subsystem.
  destruct (raise_well K A a p R) as (p1 & E1 & Z1 & _). rewrite E1. cbn [negb].
  destruct (groups_well K A (ac_groups u) p1 G Z1) as (p2 & E3 & Z2 & _). rewrite E3.
  rewrite CH. cbn [setup_chroot].
  destruct (reduce_well K A (ac_uid u) (ac_gid u) p2 Z2) as (p3 & ->). cbn [negb]. eexists. eexists. reflexivity.
Qed.
Lemma sftp_well : all_well K -> forall a u c p,
  root_able a (p_cred p) -> lenN (ac_groups u) <= GROUP_LIST_MAX ->
  match cf_chroot c with
  | None => True
  | Some d => fs_ok (k_lookup K) /\ absolute d /\ k_lookup K (c_root (p_cred p)) (c_cwd (p_cred p)) d <> None
  end ->
  exists k q, sftp_subsystem K a u c p = ([Start (Sftp (Some (ac_dir u))) k], Returns true, q).
Proof.
  intros A a u c p R G CH. unfold sftp_subsystem.
  destruct (raise_well K A a p R) as (p1 & E1 & Z1 & (_ & P1 & P2)). rewrite E1. cbn [negb].
  destruct (groups_well K A (ac_groups u) p1 G Z1) as (p2 & E3 & Z2 & R2 & W2). rewrite E3.
  assert (X : exists ch p3, setup_chroot K (cf_chroot c) p2 = (ch, p3) /\ ch <> CErr /\ c_euid (p_cred p3) = 0).
  { destruct (cf_chroot c) as [d|].
    - destruct CH as (F & AB & L). destruct (k_lookup K (c_root (p_cred p)) (c_cwd (p_cred p)) d) as [x|] eqn:LX; [|congruence].
      destruct (chroot_well K A d p2 x F AB Z2) as (p3 & E & Z); [congruence|]. exists CSet, p3. split; [exact E|]. split; [discriminate|exact Z].
    - exists CNone, p2. split; [reflexivity|]. split; [discriminate|exact Z2]. }
  destruct X as (ch & p3 & E4 & NE & Z3). rewrite E4.
  assert (Y : forall b, exists n, sftp_start K u b p3 = (true, Some (ac_dir u), Proc n (p_cred p3))).
  { intro b. unfold sftp_start. destruct b.
    - rewrite (sys_well K A (DefaultPath slash) p3 eq_refl). cbn [effect].
      rewrite (sys_well K A (OpenDir (ac_dir u))) by reflexivity. cbn [effect p_n p_cred].
      rewrite (sys_well K A (DefaultPath (ac_dir u))) by reflexivity. cbn [effect p_n p_cred]. eexists. reflexivity.
    - rewrite (sys_well K A (OpenDir (ac_dir u))) by reflexivity. cbn [effect p_n p_cred].
      rewrite (sys_well K A (DefaultPath (ac_dir u))) by reflexivity. cbn [effect p_n p_cred]. eexists. reflexivity. }
  destruct (Y true) as [n1 Y1]. destruct (Y false) as [n2 Y2].
  destruct ch; [rewrite Y1 | rewrite Y2 | congruence].
  - destruct (reduce_well K A (ac_uid u) (ac_gid u) (Proc n1 (p_cred p3)) Z3) as (p4 & ->). cbn [negb]. eexists. eexists. reflexivity.
  - destruct (reduce_well K A (ac_uid u) (ac_gid u) (Proc n2 (p_cred p3)) Z3) as (p4 & ->). cbn [negb]. eexists. eexists. reflexivity.
Qed.
End S.

(* ---- names ---------------------------------------------------------------- *)
Lemma span_no_slash : forall n t, Forall (fun c => c <> 47) n -> span (fun c => negb (c =? 47)) (n ++ 47 :: t) = (n, 47 :: t).
Proof.
  induction n as [|c n IH]; intros t H; cbn [app span].
  - reflexivity.
  - inversion H; subst. replace (c =? 47) with false by (symmetry; apply N.eqb_neq; assumption). cbn [negb]. now rewrite IH.
Qed.
Lemma span_none : forall n, Forall (fun c => c <> 47) n -> span (fun c => negb (c =? 47)) n = (n, []).
Proof.
  induction n as [|c n IH]; intros H; cbn [span]; [reflexivity|].
  inversion H; subst. replace (c =? 47) with false by (symmetry; apply N.eqb_neq; assumption). cbn [negb]. now rewrite IH.
Qed.
Lemma split_first_slash : forall l, Forall (fun c => c <> 47) l \/ exists a b, l = a ++ 47 :: b /\ Forall (fun c => c <> 47) a.
Proof.
  induction l as [|c l IH]; [left; constructor|].
  destruct (N.eqb_spec c 47); [right; exists [], l; subst; split; [reflexivity|constructor]|].
  destruct IH as [H|(a & b & -> & H)]; [left; constructor; assumption|].
  right. exists (c :: a), b. split; [reflexivity|]. constructor; assumption.
Qed.
Lemma argv0_from_name : forall fuel d n, (List.length d <= fuel)%nat -> Forall (fun c => c <> 47) n ->
  argv0_from fuel (d ++ 47 :: n) = 45 :: match d with [] => n | _ => n end.
Proof.
  induction fuel as [|fuel IH]; intros d n H NS.
  - destruct d; [|cbn in H; lia]. reflexivity.
  - destruct d as [|c d].
    + cbn [app argv0_from tl]. cbn [span]. change (45 =? 47) with false. cbn [negb]. rewrite (span_none _ NS). reflexivity.
    + cbn [app argv0_from tl span]. change (45 =? 47) with false. cbn [negb].
      destruct (split_first_slash d) as [F|(a & b & -> & F)].
      * rewrite (span_no_slash _ _ F). cbn [snd]. specialize (IH [] n). cbn [app List.length] in IH. apply IH; [lia|exact NS].
      * rewrite <- app_assoc. cbn [app]. rewrite (span_no_slash _ _ F). cbn [snd].
        specialize (IH (47 :: b) n). cbn [app List.length] in IH. cbn [List.length] in H. rewrite app_length in H. cbn [List.length] in H.
        apply IH; [lia|exact NS].
Qed.
