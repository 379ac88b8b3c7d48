(* SshdSessionProps.v - C76 and C77: what a logged-in user gets. *)
From Coq Require Import List NArith ZArith Lia Bool String.
From Verif Require Import Base NegoSpec SshdConfModel SshdSessionModel SshdSessionSpec SshdSessionProofs SshdConfProofs.
Import ListNotations.
Open Scope N_scope.

(* A system where every call may succeed; directories named by one absolute
   component exist, and by nothing else but "/". *)
Definition names (r d : dir) (p : bytes) : option dir :=
  match p with
  | [47] => Some r
  | 47 :: n => Some (r ++ [n])
  | n => Some (d ++ [n])
  end.
Definition fine : kernel := Kernel (fun _ _ => true) names.
Definition daemon : cred := Cred 0 33 0 0 33 0 [0; 4] [] [].
Definition sshd : ids := Ids 33 33 0 0 PRIV_SEPARAT.
Definition alice : account := Account 1000 1000 [1000; 27] (ascii "/alice") (ascii "/bin/sh").

Example fine_fs : fs_ok (k_lookup fine).
Proof.
  split; [|split].
  - reflexivity.
  - intros r d e p [x ->]. destruct x; reflexivity.
  - intros r d p x [t ->] E. destruct p as [|c p]; [inversion E; exists (t ++ [[]]); now rewrite app_assoc|].
    cbn [k_lookup fine names] in E.
    destruct (N.eqb_spec c 47) as [->|NC].
    + destruct p; inversion E; [exists []; now rewrite app_nil_r | eexists; reflexivity].
    + assert (Y : Some ((r ++ t) ++ [c :: p]) = Some x).
      { rewrite <- E. destruct c as [|q]; [reflexivity|]. do 6 (destruct q as [q|q|]; try reflexivity). congruence. }
      inversion Y. exists (t ++ [c :: p]). now rewrite app_assoc.
Qed.

(* ---- C76 -------------------------------------------------------------- *)

(* Everything that works for a user has that user's ids and groups and is
   confined to the configured directory. *)
Definition C76_full : Prop :=
  forall K KC a u c force pty acc s p sts f q,
    fs_ok (k_lookup K) -> k_lookup KC = k_lookup K ->
    handle K KC a u c (cert_command force) pty acc s p = (sts, f, q) ->
    forall st, In st sts ->
      is_user u (s_cred st) /\
      match cf_chroot c with
      | Some d => confined (k_lookup K) (p_cred p) d (s_cred st)
      | None => c_root (s_cred st) = c_root (p_cred p)
      end.

(* The process that passes the data of a shell keeps the daemon's groups (and
   is not confined). *)
Theorem C76_relay_refuted : ~ C76_full.
Proof.
  intro H.
  destruct (handle fine fine sshd alice conf_new (cert_command None) (Some false) AccShell SShell (Proc 0 daemon)) as [[sts f] q] eqn:E.
  specialize (H fine fine sshd alice conf_new None (Some false) AccShell SShell (Proc 0 daemon) sts f q fine_fs eq_refl E).
  vm_compute in E. inversion E. subst sts. clear E.
  specialize (H (Start Relay (Cred 1000 1000 1000 1000 1000 1000 [0; 4] [] []))).
  destruct H as [[_ G] _]; [right; left; reflexivity|]. discriminate G.
Qed.
(* An account whose uid is (uid_t)-1 gets root. *)
Theorem C76_uid_refuted : ~ C76_full.
Proof.
  intro H.
  destruct (handle fine fine sshd (Account NO_ID 1000 [] (ascii "/x") []) conf_new (cert_command None) None AccSftp SSubsystem (Proc 0 daemon)) as [[sts f] q] eqn:E.
  specialize (H fine fine sshd (Account NO_ID 1000 [] (ascii "/x") []) conf_new None None AccSftp SSubsystem (Proc 0 daemon) sts f q fine_fs eq_refl E).
  vm_compute in E. inversion E. subst sts. clear E.
  specialize (H _ (or_introl eq_refl)).
  destruct H as [[[[R _] _] _] _]. discriminate R.
Qed.
(* A relative ChrootDirectory is looked up twice. *)
Theorem C76_relative_refuted : ~ C76_full.
Proof.
  intro H.
  destruct (handle fine fine sshd alice (set_chroot (Some (ascii "jail")) conf_new) (cert_command None) None AccSftp SSubsystem (Proc 0 daemon)) as [[sts f] q] eqn:E.
  specialize (H fine fine sshd alice (set_chroot (Some (ascii "jail")) conf_new) None None AccSftp SSubsystem (Proc 0 daemon) sts f q fine_fs eq_refl E).
  vm_compute in E. inversion E. subst sts. clear E.
  specialize (H _ (or_introl eq_refl)).
  destruct H as [_ [L _]]. vm_compute in L. discriminate L.
Qed.

(* SCP, SFTP and the program of a shell or exec session run with the user's
   ids, all three of them, and groups: whatever calls fail, and whatever the
   daemon was started as. *)
Theorem C76_user_partial : forall K KC a u c force pty acc s p sts f q,
  handle K KC a u c (cert_command force) pty acc s p = (sts, f, q) -> real_ids u ->
  forall st, In st sts -> s_what st <> Relay -> is_user u (s_cred st).
Proof.
  intros K KC a u c force pty acc s p sts f q E R st I NR.
  destruct (handle_ok _ _ _ _ _ _ _ _ _ _ _ _ _ E _ I) as [(_ & _ & _ & _ & H1 & H2 & _)|[(_ & _ & _ & _ & _ & H1 & H2 & _)|(_ & sub & _ & _ & [(_ & H1 & H2 & _)|(W & _)])]].
  - split; auto.
  - split; auto.
  - split; auto.
  - congruence.
Qed.
(* the process in between has the user's ids *)
Theorem C76_relay_partial : forall K KC a u c force pty acc s p sts f q,
  handle K KC a u c (cert_command force) pty acc s p = (sts, f, q) -> real_ids u ->
  forall st, In st sts -> s_what st = Relay -> ids_of (ac_uid u) (ac_gid u) (s_cred st).
Proof.
  intros K KC a u c force pty acc s p sts f q E R st I W.
  destruct (handle_ok _ _ _ _ _ _ _ _ _ _ _ _ _ E _ I) as [(X & _)|[([d X] & _)|(_ & sub & _ & _ & [(X & _)|(_ & H & _)])]]; try congruence.
  exact (H R).
Qed.
(* with a ChrootDirectory given from the root, they see nothing else *)
Theorem C76_jail_partial : forall K KC a u c force pty acc s p sts f q d,
  handle K KC a u c (cert_command force) pty acc s p = (sts, f, q) ->
  fs_ok (k_lookup K) -> k_lookup KC = k_lookup K ->
  cf_chroot c = Some d -> absolute d ->
  forall st, In st sts -> s_what st <> Relay -> confined (k_lookup K) (p_cred p) d (s_cred st).
Proof.
  intros K KC a u c force pty acc s p sts f q d E F SK CH A st I NR.
  destruct (handle_ok _ _ _ _ _ _ _ _ _ _ _ _ _ E _ I) as [(_ & _ & _ & _ & H)|[(_ & _ & _ & _ & _ & H)|(_ & sub & _ & _ & [(_ & H)|(W & _)])]].
  - apply served_served_in in H. destruct H as (_ & _ & H). rewrite CH in H. exact (H F A).
  - apply served_served_in in H. destruct H as (_ & _ & H). rewrite CH in H. exact (H F A).
  - destruct H as (_ & _ & H). rewrite CH, SK in H. exact (H F A).
  - congruence.
Qed.
Theorem C76_no_jail : forall K KC a u c force pty acc s p sts f q,
  handle K KC a u c (cert_command force) pty acc s p = (sts, f, q) -> cf_chroot c = None ->
  forall st, In st sts -> c_root (s_cred st) = c_root (p_cred p).
Proof.
  intros K KC a u c force pty acc s p sts f q E CH st I.
  destruct (handle_ok _ _ _ _ _ _ _ _ _ _ _ _ _ E _ I) as [(_ & _ & _ & _ & H)|[(_ & _ & _ & _ & _ & H)|(_ & sub & _ & _ & [(_ & H)|(W & _ & H)])]].
  - apply served_served_in in H. destruct H as (_ & _ & H). rewrite CH in H. exact H.
  - apply served_served_in in H. destruct H as (_ & _ & H). rewrite CH in H. exact H.
  - destruct H as (_ & _ & H). rewrite CH in H. exact H.
  - apply H.
Qed.
(* There is no way back: whatever calls a user's process makes, it keeps these
   ids and groups, and its root, and stays inside. *)
Theorem C76_for_good : forall K u p xs,
  is_user u (p_cred p) -> ac_uid u <> 0 ->
  is_user u (p_cred (later K xs p)) /\
  c_root (p_cred (later K xs p)) = c_root (p_cred p) /\
  (fs_ok (k_lookup K) -> below (c_root (p_cred p)) (c_cwd (p_cred p)) ->
   below (c_root (p_cred (later K xs p))) (c_cwd (p_cred (later K xs p)))).
Proof.
  intros K u p xs [HI HG] H0. destruct (later_all K _ _ H0 xs p HI) as (A & B & C & D).
  split; [split; [exact A|congruence]|]. split; [exact C|]. intros F Bl. rewrite C. exact (D F Bl).
Qed.
(* When the connection process goes on, it has not kept root: its effective
   user is the one it had, the user, or the daemon's. *)
Theorem C76_after : forall K KC a u c force pty acc s p sts b q,
  handle K KC a u c (cert_command force) pty acc s p = (sts, Returns b, q) -> ac_uid u <> NO_ID ->
  c_euid (p_cred q) = c_euid (p_cred p) \/ c_euid (p_cred q) = ac_uid u \/ c_euid (p_cred q) = i_uid a.
Proof. intros K KC a u c force pty acc s p sts b q E H. exact (handle_after _ _ _ _ _ _ _ _ _ _ _ _ _ H E). Qed.
(* Lowering the permissions after an authentication request leaves the
   daemon's own user, whatever was raised before. *)
Theorem C76_lowered : forall K a p q,
  separated a = true -> reduce_permissions K a p = (true, q) ->
  c_euid (p_cred q) = i_uid a /\ c_egid (p_cred q) = i_gid a.
Proof. intros K a p q S E. exact (reduce_ids K a p q S E). Qed.
(* The user is put in all groups, however many (up to 65536), or the session
   does not start. *)
Theorem C76_groups : forall K l p q,
  (auth_set_groups K l p = (true, q) -> c_groups (p_cred q) = l) /\
  (all_well K -> c_euid (p_cred p) = 0 -> lenN l <= 65536 -> fst (auth_set_groups K l p) = true).
Proof.
  intros K l p q. split.
  - intro E. apply (set_groups_true _ _ _ _ E).
  - intros A Z H. destruct (groups_well K A l p H Z) as (p1 & -> & _). reflexivity.
Qed.

(* with separation, a jail and every call succeeding *)
Definition jailed_conf : conf := set_chroot (Some (ascii "/srv")) conf_new.
Example C76_met :
  handle fine fine sshd alice jailed_conf (cert_command None) (Some true) AccShell SShell (Proc 0 daemon) =
    ([Start (Exec (ascii "/bin/sh") [ascii "-sh"]) (Cred 1000 1000 1000 1000 1000 1000 [1000; 27] [ascii "srv"] [ascii "srv"; ascii "alice"]);
      Start Relay (Cred 1000 1000 1000 1000 1000 1000 [0; 4] [] [])], Returns true,
     Proc 5 (Cred 1000 1000 1000 1000 1000 1000 [0; 4] [] [])) /\
  real_ids alice /\ absolute (ascii "/srv") /\ ac_uid alice <> 0.
Proof.
  split; [vm_compute; reflexivity|]. split; [split; vm_compute; discriminate|]. split; [eexists; reflexivity|]. vm_compute. discriminate.
Qed.
(* a user cannot become root again, or leave *)
Example C76_met2 :
  p_cred (later fine [SetEuid 0; SetReuid 0 0; SetGroups [0]; Chroot (ascii "/x"); Chdir (ascii "x")]
    (Proc 0 (Cred 1000 1000 1000 1000 1000 1000 [1000; 27] [ascii "srv"] [ascii "srv"]))) =
  Cred 1000 1000 1000 1000 1000 1000 [1000; 27] [ascii "srv"] [ascii "srv"; ascii "x"].
Proof. vm_compute. reflexivity. Qed.

(* ---- C77 -------------------------------------------------------------- *)

(* With a ForceCommand nothing but that command runs (or SFTP, if that is what
   it names). *)
Definition C77_full : Prop :=
  forall K KC a u c force pty acc s p sts f q cmd,
    handle K KC a u c (cert_command force) pty acc s p = (sts, f, q) -> cf_cmd c = Some cmd ->
    forall st, In st sts ->
      runs_command cmd (s_what st) \/ s_what st = Relay \/ (cmd = ascii "internal-sftp" /\ exists d, s_what st = Sftp d).

(* ForceCommand does not keep a user from SFTP. *)
Theorem C77_refuted : ~ C77_full.
Proof.
  intro H.
  destruct (handle fine fine sshd alice (set_cmd (Some (ascii "/bin/date")) conf_new) (cert_command None) None AccSftp SSubsystem (Proc 0 daemon)) as [[sts f] q] eqn:E.
  specialize (H fine fine sshd alice (set_cmd (Some (ascii "/bin/date")) conf_new) None None AccSftp SSubsystem (Proc 0 daemon) sts f q _ E eq_refl).
  vm_compute in E. inversion E. subst sts. clear E.
  specialize (H _ (or_introl eq_refl)).
  destruct H as [(prog & a0 & H)|[H|[H _]]]; [discriminate H | discriminate H | vm_compute in H; discriminate H].
Qed.

Lemma internal_yes : forall x, is_internal_sftp (Some x) = true <-> x = ascii "internal-sftp".
Proof. intro x. cbn [is_internal_sftp]. unfold internal_sftp. apply bytes_eqb_eq. Qed.

(* Whatever program is started runs the configured command, or else the
   certificate's, or else what the client asked for. *)
Theorem C77_command_partial : forall K KC a u c force pty acc s p sts f q cmd,
  handle K KC a u c (cert_command force) pty acc s p = (sts, f, q) -> cf_cmd c = Some cmd ->
  forall st, In st sts ->
    cmd <> ascii "internal-sftp" /\ runs_command cmd (s_what st) \/ s_what st = Relay \/
    s_what st = Scp /\ acc = AccScp \/ (exists d, s_what st = Sftp d) /\ acc = AccSftp /\ s = SSubsystem.
Proof.
  intros K KC a u c force pty acc s p sts f q cmd E CC st I.
  destruct (handle_ok _ _ _ _ _ _ _ _ _ _ _ _ _ E _ I) as [(W & A & _)|[(W & S & A & _)|(_ & sub & _ & NI & [(W & _)|(W & _)])]].
  - right. right. left. auto.
  - right. right. right. auto.
  - left. rewrite CC in NI, W. cbn [or_else] in NI, W. split.
    + intro X. apply internal_yes in X. congruence.
    + unfold runs_command. eauto.
  - right. left. exact W.
Qed.
Lemma cert_command_some : forall force : bytes, force <> [] -> cert_command (Some force) = Some (cstr force).
Proof. intros [|b r] H; [congruence|reflexivity]. Qed.
(* A certificate's force-command restricts everything: a program runs it (or
   the configured command), SFTP needs it to be internal-sftp, and SCP is
   refused. *)
Theorem C77_certificate : forall K KC a u c (force : bytes) pty acc s p sts f q,
  handle K KC a u c (cert_command (Some force)) pty acc s p = (sts, f, q) -> force <> [] ->
  forall st, In st sts ->
    match s_what st with
    | Exec _ _ => runs_command (match cf_cmd c with Some x => x | None => cstr force end) (s_what st) /\ 
                  (cf_cmd c = None -> cstr force <> ascii "internal-sftp")
    | Sftp _ => cstr force = ascii "internal-sftp"
    | Scp => False
    | Relay => acc = AccShell
    end.
Proof.
  intros K KC a u c force pty acc s p sts f q E NE st I. rewrite (cert_command_some _ NE) in E.
  destruct (handle_ok _ _ _ _ _ _ _ _ _ _ _ _ _ E _ I) as [(_ & _ & X & _)|[([d W] & _ & _ & X & _)|(A & sub & _ & NI & [(W & _)|(W & _)])]].
  - discriminate X.
  - rewrite W. destruct X as [X|X]; [discriminate X|]. apply internal_yes in X. exact X.
  - rewrite W. split.
    + unfold runs_command. destruct (cf_cmd c); cbn [or_else]; eauto.
    + intros CN X. rewrite CN in NI. cbn [or_else] in NI. apply internal_yes in X. congruence.
  - rewrite W. exact A.
Qed.
(* A user forced to internal-sftp gets no program. *)
Theorem C77_sftp_only : forall K KC a u c force pty acc s p sts f q,
  handle K KC a u c (cert_command force) pty acc s p = (sts, f, q) ->
  cf_cmd c = Some (ascii "internal-sftp") \/ (cf_cmd c = None /\ cert_command force = Some (ascii "internal-sftp")) ->
  forall st, In st sts -> (exists d, s_what st = Sftp d) \/ (s_what st = Scp /\ cert_command force = None).
Proof.
  intros K KC a u c force pty acc s p sts f q E H st I.
  destruct (handle_ok _ _ _ _ _ _ _ _ _ _ _ _ _ E _ I) as [(W & _ & X & _)|[(W & _)|(A & sub & _ & NI & _)]].
  - right. auto.
  - left. exact W.
  - exfalso. assert (Y : is_internal_sftp (Some (ascii "internal-sftp")) = true) by (apply internal_yes; reflexivity).
    destruct H as [H|[H1 H2]].
    + rewrite H in NI. cbn [or_else] in NI. congruence.
    + rewrite H1, H2 in NI. cbn [or_else] in NI. congruence.
Qed.
(* Root with forced-commands-only transfers files only if the forced command
   is internal-sftp. *)
Theorem C77_root : forall K KC a u c force pty acc s p sts f q,
  handle K KC a u c (cert_command force) pty acc s p = (sts, f, q) ->
  ac_uid u = 0 -> cf_root c = ROOT_FORCED_CMD ->
  forall st, In st sts -> (s_what st = Scp \/ exists d, s_what st = Sftp d) -> cf_cmd c = Some (ascii "internal-sftp").
Proof.
  intros K KC a u c force pty acc s p sts f q E U R st I W.
  assert (X : root_transfer_blocked u c = false).
  { destruct (handle_ok _ _ _ _ _ _ _ _ _ _ _ _ _ E _ I) as [(_ & _ & _ & X & _)|[(_ & _ & _ & _ & X & _)|(_ & sub & _ & _ & [(Y & _)|(Y & _)])]]; try exact X;
      exfalso; destruct W as [W|[d W]]; congruence. }
  unfold root_transfer_blocked in X. rewrite U, R in X. cbn [N.eqb] in X. rewrite N.eqb_refl in X. cbn [andb] in X.
  apply negb_false_iff in X. destruct (cf_cmd c) as [x|]; [|discriminate]. apply internal_yes in X. now subst.
Qed.
(* Without a forced command the client gets what it asked for and nothing
   else: its command by exec, the login shell, SFTP or SCP. *)
Theorem C77_asked : forall K KC a u c pty acc s p sts f q,
  handle K KC a u c None pty acc s p = (sts, f, q) -> cf_cmd c = None ->
  forall st, In st sts ->
    match s_what st with
    | Exec _ argv => acc = AccShell /\
        (s = SShell /\ List.length argv = 1%nat \/
         exists cmd, (s = SExec cmd \/ s = SUnknown cmd) /\
           match cmd with Some x => runs_command x (s_what st) /\ x <> ascii "internal-sftp" | None => List.length argv = 1%nat end)
    | Sftp _ => s = SSubsystem /\ acc = AccSftp
    | Scp => acc = AccScp
    | Relay => acc = AccShell
    end.
Proof.
  intros K KC a u c pty acc s p sts f q E CC st I.
  destruct (handle_ok _ _ _ _ _ _ _ _ _ _ _ _ _ E _ I) as [(W & A & _)|[([d W] & S & A & _)|(A & sub & AS & NI & [(W & _)|(W & _)])]]; rewrite W.
  - exact A.
  - auto.
  - split; [exact A|]. rewrite CC in NI |- *. cbn [or_else] in NI |- *.
    assert (Y : forall cmd, sub = cmd -> match cmd with Some x => runs_command x (Exec (program (ac_shell u)) (argv0 (ac_shell u) :: match sub with Some x => [ascii "-c"; x] | None => [] end)) /\ x <> ascii "internal-sftp"
                       | None => List.length (argv0 (ac_shell u) :: match sub with Some x => [ascii "-c"; x] | None => [] end) = 1%nat end).
    { intros cmd ->. destruct cmd as [x|]; [|reflexivity]. split; [unfold runs_command; eauto|]. intro X. apply internal_yes in X. congruence. }
    destruct s; cbn [asked] in AS; inversion AS; subst.
    + left. auto.
    + right. exists sub. split; [auto|]. exact (Y _ eq_refl).
    + right. exists sub. split; [auto|]. exact (Y _ eq_refl).
  - exact A.
Qed.
(* The program is the user's login shell, started as a login shell. Of a path
   too long for the buffer of 80 bytes, the first 79 are used. *)
Theorem C77_shell_partial : forall K KC a u c force pty acc s p sts f q,
  handle K KC a u c (cert_command force) pty acc s p = (sts, f, q) ->
  forall st prog argv, In st sts -> s_what st = Exec prog argv ->
    (ac_shell u <> [] -> lenN (ac_shell u) < 80 -> prog = ac_shell u) /\
    (80 <= lenN (ac_shell u) -> lenN prog = 79 /\ exists r, ac_shell u = prog ++ r) /\
    (ac_shell u = [] -> prog = ascii "/bin/sh") /\
    (forall d n, ac_shell u = d ++ 47 :: n -> Forall (fun x => x <> 47) n -> lenN (ac_shell u) < 80 -> hd [] argv = 45 :: n).
Proof.
  intros K KC a u c force pty acc s p sts f q E st prog argv I W.
  destruct (handle_ok _ _ _ _ _ _ _ _ _ _ _ _ _ E _ I) as [(X & _)|[([d X] & _)|(A & sub & AS & NI & [(X & _)|(X & _)])]]; try congruence.
  rewrite X in W. inversion W. subst. split; [|split; [|split]].
  - intros NE L. unfold program. destruct (ac_shell u) as [|b r] eqn:Q; [congruence|].
    unfold takeN, MAX_COMMAND_SZ. apply firstn_all2. unfold lenN in L. lia.
  - intros L. unfold program. destruct (ac_shell u) as [|b r] eqn:Q; [cbn in L; lia|]. split.
    + unfold takeN, lenN, MAX_COMMAND_SZ in *. rewrite firstn_length. lia.
    + exists (dropN (MAX_COMMAND_SZ - 1) (b :: r)). unfold takeN, dropN. symmetry. apply firstn_skipn.
  - intros ->. reflexivity.
  - intros d n Q NS L. cbn [hd]. unfold argv0. unfold MAX_COMMAND_SZ. replace (lenN (ac_shell u) <? 80) with true by (symmetry; apply N.ltb_lt; exact L).
    rewrite Q. rewrite argv0_from_name; [now destruct d| |exact NS]. rewrite app_length. lia.
Qed.
(* The command is run: when nothing fails, one program and one relay start, or
   the service asked for. *)
Theorem C77_runs : forall K KC a u c force t s p,
  all_well K -> all_well KC -> root_able a (p_cred p) -> lenN (ac_groups u) <= 65536 -> cf_chroot c = None ->
  (forall sub, (s = SShell /\ sub = None \/ s = SExec sub) ->
     let cmd := match cf_cmd c, cert_command force with Some x, _ => Some x | None, Some x => Some x | None, None => sub end in
     cmd <> Some (ascii "internal-sftp") ->
     exists k1 k2 a0 q, handle K KC a u c (cert_command force) (Some t) AccShell s p =
       ([Start (Exec (program (ac_shell u)) (a0 :: match cmd with Some x => [ascii "-c"; x] | None => [] end)) k1; Start Relay k2], Returns true, q)) /\
  (ac_uid u <> 0 -> cert_command force = None ->
     (exists k q, handle K KC a u c (cert_command force) (Some t) AccSftp SSubsystem p = ([Start (Sftp (Some (ac_dir u))) k], Returns true, q)) /\
     (forall cmd, exists k q, handle K KC a u c (cert_command force) (Some t) AccScp (SExec cmd) p = ([Start Scp k], Returns true, q))).
Proof.
  intros K KC a u c force t s p A AC R G CH. split.
  - intros sub HS cmd NI.
    assert (EC : or_else (or_else (cf_cmd c) (cert_command force)) sub = cmd).
    { unfold cmd. destruct (cf_cmd c); [reflexivity|]. destruct (cert_command force); reflexivity. }
    assert (NJ : is_internal_sftp (or_else (or_else (cf_cmd c) (cert_command force)) sub) = false).
    { rewrite EC. destruct (is_internal_sftp cmd) eqn:Q; [|reflexivity]. destruct cmd as [x|]; [|discriminate]. apply internal_yes in Q. congruence. }
    destruct (shell_well K KC A AC a u c (cert_command force) t sub p R G CH NJ) as (k1 & k2 & q & X). rewrite EC in X.
    exists k1, k2, (argv0 (ac_shell u)), q. destruct HS as [[-> ->] | ->]; exact X.
  - intros NR NC. rewrite NC.
    assert (RB : root_transfer_blocked u c = false) by (unfold root_transfer_blocked; apply N.eqb_neq in NR; rewrite NR; reflexivity).
    split.
    + cbn [handle]. rewrite RB. apply (sftp_well K A); [exact R|exact G|rewrite CH; exact Logic.I].
    + intro cmd. cbn [handle]. rewrite RB. exact (scp_well K A a u c p R G CH).
Qed.

Definition forced_conf : conf := set_cmd (Some (ascii "/bin/date")) conf_new.
Example C77_met :
  map s_what (fst (fst (handle fine fine sshd alice forced_conf (cert_command (Some (ascii "internal-sftp"))) (Some false) AccShell (SExec (Some (ascii "rm x"))) (Proc 0 daemon)))) =
    [Exec (ascii "/bin/sh") [ascii "-sh"; ascii "-c"; ascii "/bin/date"]; Relay] /\
  map s_what (fst (fst (handle fine fine sshd alice conf_new (cert_command (Some (ascii "internal-sftp"))) (Some false) AccSftp SSubsystem (Proc 0 daemon)))) =
    [Sftp (Some (ascii "/alice"))] /\
  map s_what (fst (fst (handle fine fine sshd alice conf_new (cert_command (Some (ascii "internal-sftp"))) (Some false) AccScp (SExec None) (Proc 0 daemon)))) = [] /\
  all_well fine /\ root_able sshd daemon.
Proof.
  split; [vm_compute; reflexivity|]. split; [vm_compute; reflexivity|]. split; [vm_compute; reflexivity|].
  split; [intros n x; reflexivity|]. vm_compute. intuition discriminate.
Qed.

Print Assumptions C76_relay_refuted.
Print Assumptions C76_uid_refuted.
Print Assumptions C76_relative_refuted.
Print Assumptions C76_user_partial.
Print Assumptions C76_relay_partial.
Print Assumptions C76_jail_partial.
Print Assumptions C76_no_jail.
Print Assumptions C76_for_good.
Print Assumptions C76_after.
Print Assumptions C76_lowered.
Print Assumptions C76_groups.
Print Assumptions C77_refuted.
Print Assumptions C77_command_partial.
Print Assumptions C77_certificate.
Print Assumptions C77_sftp_only.
Print Assumptions C77_root.
Print Assumptions C77_asked.
Print Assumptions C77_shell_partial.
Print Assumptions C77_runs.
