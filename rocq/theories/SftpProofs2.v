(* SftpProofs2.v - proofs about the SFTP server: messages, and what a request
   does to the tables. *)
From Verif Require Import Base WireModel WireSpec WireProofs PathModel PathSpec PathProofs NegoSpec ReqSpec ReqProofs ReqProofs3.
From Verif Require Import SftpModel SftpProofs SftpSpec.
From Coq Require Import List NArith ZArith Bool Lia String.
Import ListNotations.
Open Scope N_scope.

(* ---- messages ----------------------------------------------------------- *)

Lemma app_len_inj : forall A (a b c d : list A), a ++ b = c ++ d -> Datatypes.length a = Datatypes.length c -> a = c /\ b = d.
Proof.
  induction a as [|x a IH]; intros b [|y c] d H L; cbn in *; try discriminate; [split; auto|].
  assert (x = y /\ a ++ b = c ++ d) as (-> & H') by (split; congruence).
  destruct (IH b c d H') as (-> & ->); [congruence|]. split; reflexivity.
Qed.
Lemma app_lenN_inj : forall A (a b c d : list A), a ++ b = c ++ d -> lenN a = lenN c -> a = c /\ b = d.
Proof. intros A a b c d H L. apply app_len_inj; [assumption|unfold lenN in L; lia]. Qed.

Lemma str_inj : forall s b x s' b' x', str s b -> str s' b' -> b ++ x = b' ++ x' -> s = s' /\ b = b' /\ x = x'.
Proof.
  intros s b x s' b' x' (l & (Hl & Hv) & ->) (l' & (Hl' & Hv') & ->) H.
  rewrite <- !app_assoc in H. apply app_lenN_inj in H; [|lia]. destruct H as (-> & H).
  apply app_lenN_inj in H; [|lia]. destruct H as (-> & ->). auto.
Qed.
Lemma str_fun : forall s b s', str s b -> str s' b -> s = s'.
Proof. intros s b s' H H'. destruct (str_inj s b [] s' b [] H H' eq_refl). assumption. Qed.

Lemma frame_inj : forall ty id b m ty' id' b', frame ty id b m -> frame ty' id' b' m -> ty = ty' /\ id = id' /\ b = b'.
Proof.
  intros ty id b m ty' id' b' (l & i & (Hl & _) & (Hi & Vi) & ->) (l' & i' & (Hl' & _) & (Hi' & Vi') & E).
  apply app_lenN_inj in E; [|lia]. destruct E as (_ & E). cbn [app] in E.
  assert (ty = ty' /\ i ++ b = i' ++ b') as (-> & E2) by (split; congruence).
  apply app_lenN_inj in E2; [|lia]. destruct E2 as (-> & ->). split; [reflexivity|]. split; [congruence|reflexivity].
Qed.

Lemma frame_set : forall ty id body, is32 id -> 5 + lenN body < W32 ->
  frame ty id body (SetHeader id ty (lenN body) ++ body).
Proof.
  intros ty id body Hi H. unfold SetHeader. rewrite add32_small by (unfold W32 in *; lia).
  exists (c32toa (lenN body + 5)), (c32toa id). split; [|split].
  - rewrite N.add_comm. apply u32_c32. unfold is32. lia.
  - apply u32_c32. assumption.
  - rewrite <- !app_assoc. reflexivity.
Qed.

Lemma str_put : forall s, is32 (lenN s) -> str s (c32toa (lenN s) ++ s).
Proof. intros s H. exists (c32toa (lenN s)). split; [apply u32_c32; assumption|reflexivity]. Qed.

Lemma lenN_c32 : forall v, lenN (c32toa v) = 4.
Proof. intros. reflexivity. Qed.

Lemma status_ok : forall id code text, is32 id -> is32 code -> lenN text < 100 ->
  status_msg id code (CreateStatus code id text English).
Proof.
  intros id code text Hi Hc Ht. unfold CreateStatus. assert (LE : lenN English = 7) by reflexivity.
  exists (c32toa code), text, (c32toa (lenN text) ++ text), English, (c32toa (lenN English) ++ English).
  split; [apply u32_c32; assumption|]. split; [apply str_put; unfold is32, W32; lia|].
  split; [apply str_put; rewrite LE; unfold is32, W32; lia|].
  replace (12 + lenN text + lenN English) with (lenN (c32toa code ++ (c32toa (lenN text) ++ text) ++ c32toa (lenN English) ++ English)).
  2: { rewrite !lenN_app, !lenN_c32. lia. }
  replace (c32toa code ++ c32toa (lenN text) ++ text ++ c32toa (lenN English) ++ English)
    with (c32toa code ++ (c32toa (lenN text) ++ text) ++ c32toa (lenN English) ++ English) by (rewrite <- !app_assoc; reflexivity).
  apply frame_set; [assumption|]. rewrite !lenN_app, !lenN_c32. unfold W32. lia.
Qed.

Lemma packet_ok : forall ty id d, is32 id -> 9 + lenN d < W32 ->
  exists b, str d b /\ frame ty id b (CreatePacket ty id d).
Proof.
  intros ty id d Hi H. exists (c32toa (lenN d) ++ d). split; [apply str_put; unfold is32; lia|].
  unfold CreatePacket. replace (4 + lenN d) with (lenN (c32toa (lenN d) ++ d)) by (rewrite lenN_app, lenN_c32; lia).
  apply frame_set; [assumption|]. rewrite lenN_app, lenN_c32. lia.
Qed.

Lemma encode_len : forall h, lenN (HandleIdEncode h) = 8.
Proof. reflexivity. Qed.
Lemma handle_ok : forall id h, is32 id -> handle_msg id (HandleIdEncode h) (CreatePacket FTP_HANDLE id (HandleIdEncode h)).
Proof. intros id h Hi. apply packet_ok; [assumption|]. rewrite encode_len. unfold W32. lia. Qed.
Lemma handle_fun : forall id id' hb hb' m, handle_msg id hb m -> handle_msg id' hb' m -> hb = hb'.
Proof.
  intros id id' hb hb' m (b & S & F) (b' & S' & F'). destruct (frame_inj _ _ _ _ _ _ _ F F') as (_ & _ & ->).
  eapply str_fun; eassumption.
Qed.

Lemma encode_decode : forall h, is32 (fst h) -> is32 (snd h) -> decode_t (HandleIdEncode h) = h.
Proof.
  intros (a, b) Ha Hb. cbn [fst snd] in *. unfold decode_t, HandleIdEncode.
  rewrite takeN_app_exact, dropN_app_exact by reflexivity. cbn [fst snd].
  rewrite (takeN_all _ 4 (c32toa b)) by (cbn; lia).
  rewrite !be_value_c32toa by assumption. reflexivity.
Qed.
Lemma c32_be : forall l, lenN l = 4 -> bytes_ok l -> c32toa (be_value l) = l.
Proof.
  intros l L B. destruct l as [|a [|b [|c [|d [|e l] ] ] ] ]; unfold lenN in L; cbn [Datatypes.length] in L; try lia.
  unfold bytes_ok in B. repeat match goal with H : Forall _ (_ :: _) |- _ => inversion H; clear H; subst end.
  unfold byte_ok in *. rewrite be_value_4, c32toa_div. repeat f_equal; lia.
Qed.
Lemma decode_encode : forall hb, bytes_ok hb -> lenN hb = 8 -> HandleIdEncode (decode_t hb) = hb.
Proof.
  intros hb Hb L. unfold decode_t, HandleIdEncode. cbn [fst snd].
  rewrite <- (takeN_dropN N 4 hb) at 3.
  rewrite !c32_be; [rewrite (takeN_all _ 4 (dropN 4 hb)); [reflexivity|rewrite lenN_dropN; lia]| | | |].
  all: try (rewrite lenN_takeN; try rewrite lenN_dropN; lia).
  all: try (apply bytes_ok_takeN; try apply bytes_ok_dropN; assumption).
Qed.

(* ---- what a request does to the tables ----------------------------------- *)

Definition nohandle (id : N) (out : option bytes) : Prop := forall m hb, out = Some m -> ~ handle_msg id hb m.

Lemma set_ty : forall ty id n rest ty' id' b, frame ty' id' b (SetHeader id ty n ++ rest) -> ty' = ty.
Proof.
  intros ty id n rest ty' id' b (l & i & (Hl & _) & _ & E). unfold SetHeader in E.
  rewrite <- app_assoc in E. apply app_lenN_inj in E; [|rewrite lenN_c32; lia]. destruct E as (_ & E).
  cbn [app] in E. congruence.
Qed.
Lemma nohandle_set : forall id ty n rest, ty <> 102 -> nohandle id (Some (SetHeader id ty n ++ rest)).
Proof.
  intros id ty n rest Ht m hb H (b & _ & F). apply Ht. symmetry. eapply set_ty.
  assert (m = SetHeader id ty n ++ rest) by congruence. subst m. exact F.
Qed.
Lemma nohandle_none : forall id, nohandle id None.
Proof. intros id m hb H. discriminate. Qed.
Lemma nohandle_status : forall id c m, nohandle id (Some (CreateStatus c id m English)).
Proof. intros id c m. unfold CreateStatus. apply nohandle_set. discriminate. Qed.

Lemma triple_inv : forall A B C (a a' : A) (b b' : B) (c c' : C), (a, b, c) = (a', b', c') -> a = a' /\ b = b' /\ c = c'.
Proof. intros. split; [|split]; congruence. Qed.

Lemma status_inv : forall E r c i m s r' out s', status_t E r c i m s = (r', out, s') ->
  s' = s /\ (out = None \/ out = Some (CreateStatus c i m English)).
Proof.
  intros. unfold status_t, done_t, fail_t in H. destruct (mem E (s_log s) 0); apply triple_inv in H; destruct H as (_ & <- & <-); auto.
Qed.
Lemma outcome_inv : forall E i p o a b s r' out s', outcome_t E i p o a b s = (r', out, s') ->
  s' = s /\ (out = None \/ exists c m, out = Some (CreateStatus c i m English)).
Proof.
  intros. unfold outcome_t in H. destruct p; [|destruct o]; apply status_inv in H; destruct H as (-> & [->| ->]); eauto.
Qed.
Lemma attrs_inv : forall E i m s r' out s', attrs_reply_t E i m s = (r', out, s') -> s' = s /\ nohandle i out.
Proof.
  intros. unfold attrs_reply_t, done_t, fail_t in H. cbv zeta in H.
  destruct (negb _); [|destruct (_ =? 0)%Z]; apply triple_inv in H; destruct H as (_ & <- & <-); (split; [reflexivity|]).
  - apply nohandle_none.
  - apply nohandle_set. discriminate.
  - apply nohandle_status.
Qed.

Definition quiet (s : srv) (x : fscall * ans) : Prop :=
  match fst x with
  | FOpen _ _ _ | FOpendir _ => (r_int (snd x) < 0)%Z
  | FClose _ | FClosedir _ => False
  | FPread fd _ _ | FPwrite fd _ _ | FFstat fd | FFchmod fd _ | FFsetTime fd _ _ => In fd (map f_fd (s_files s))
  | FReaddir d => In d (map d_dir (s_dirs s))
  | _ => True
  end.
Definition dkey (e : dent) := (d_id e, d_dir e, d_name e).

(* [s'] has the tables of [s] and the log has grown by calls satisfying P *)
Definition grow (E : senv) (P : fscall * ans -> Prop) (s s' : srv) : Prop :=
  s_files s' = s_files s /\ s_dirs s' = s_dirs s /\ s_next s' = s_next s /\
  exists new, s_log s' = rev new ++ s_log s /\ Forall P (answered E (s_log s) new).

Lemma answered_app : forall E a b log, answered E log (a ++ b) = answered E log a ++ answered E (rev a ++ log) b.
Proof.
  induction a as [|c a IH]; intros b log; [reflexivity|]. cbn [app answered rev]. rewrite IH. rewrite <- app_assoc. reflexivity.
Qed.
Lemma grow_refl : forall E P s, grow E P s s.
Proof. intros. unfold grow. split; [|split; [|split]]; try reflexivity. exists []. split; [reflexivity|constructor]. Qed.
Lemma grow_trans : forall E P a b c, grow E P a b -> grow E P b c -> grow E P a c.
Proof.
  intros E P a b c (F1 & D1 & N1 & n1 & L1 & P1) (F2 & D2 & N2 & n2 & L2 & P2). unfold grow.
  split; [congruence|]. split; [congruence|]. split; [congruence|].
  exists (n1 ++ n2). split; [rewrite L2, L1, rev_app_distr, app_assoc; reflexivity|].
  rewrite answered_app. apply Forall_app. split; [assumption|]. rewrite <- L1. assumption.
Qed.
Lemma grow_ask : forall E (P : fscall * ans -> Prop) c s, P (c, fs E (c :: s_log s)) -> grow E P s (ask c s).
Proof.
  intros. unfold grow. split; [|split; [|split]]; try reflexivity. exists [c]. split; [reflexivity|].
  cbn [answered]. constructor; [assumption|constructor].
Qed.
Lemma grow_weak : forall E (P Q : fscall * ans -> Prop) s s', (forall x, P x -> Q x) -> grow E P s s' -> grow E Q s s'.
Proof.
  intros E P Q s s' H (F & D & N & new & L & A). unfold grow. split; [|split; [|split]]; try assumption.
  exists new. split; [assumption|]. eapply Forall_impl; eassumption.
Qed.

Lemma write_grow : forall E fd fuel d hi lo s ok s', write_loop fuel E fd d hi lo s = (ok, s') ->
  grow E (fun x => exists d o, fst x = FPwrite fd d o) s s'.
Proof.
  induction fuel as [|f IH]; intros d hi lo s ok s' H; cbn [write_loop] in H; destruct d as [|b d].
  - assert (s = s') by congruence. subst. apply grow_refl.
  - assert (s = s') by congruence. subst. apply grow_refl.
  - assert (s = s') by congruence. subst. apply grow_refl.
  - cbv zeta in H. set (s1 := ask _ s) in *.
    assert (G : grow E (fun x => exists d o, fst x = FPwrite fd d o) s s1).
    { unfold s1. apply grow_ask. cbn [fst]. eexists _, _. reflexivity. }
    destruct (_ <=? 0)%Z; [assert (s1 = s') by congruence; subst; exact G|].
    destruct (_ <? _); [assert (s1 = s') by congruence; subst; exact G|].
    eapply grow_trans; [exact G|]. eapply IH. exact H.
Qed.

Lemma setattrs_grow : forall E (P : fscall * ans -> Prop) ch st a s ok s',
  (forall m y, P (ch m, y)) -> (forall t u y, P (st t u, y)) ->
  set_attrs E ch st a s = (ok, s') -> grow E P s s'.
Proof.
  intros E P ch st a s ok s' H1 H2 H. unfold set_attrs in H. cbv zeta in H.
  set (s1 := ask (ch (SAFE_MODE (a_per a))) s) in *.
  assert (G1 : grow E P s s1) by (unfold s1; apply grow_ask; apply H1).
  destruct (has (a_flags a) A_PERM).
  - destruct (_ && _); [|assert (s1 = s') by congruence; subst; exact G1].
    assert (s' = ask (st (a_atime a) (a_mtime a)) s1) by congruence. subst s'. eapply grow_trans; [exact G1|]. apply grow_ask. apply H2.
  - destruct (_ && _); [|assert (s = s') by congruence; subst; apply grow_refl].
    assert (s' = ask (st (a_atime a) (a_mtime a)) s) by congruence. subst s'. apply grow_ask. apply H2.
Qed.

Lemma readdir_grow : forall E dn names acc s l s', readdir_loop E dn names acc s = (l, s') ->
  s_dirs s' = s_dirs s /\ grow E (fun x => exists p, fst x = FStat p true) s s'.
Proof.
  induction names as [|n t IH]; intros acc s l s' H; cbn [readdir_loop] in H.
  - assert (s = s') by congruence. subst. split; [reflexivity|apply grow_refl].
  - destruct (negb _); [assert (s = s') by congruence; subst; split; [reflexivity|apply grow_refl]|].
    destruct (readdir_path _ _ _) as [p|]; [|assert (s = s') by congruence; subst; split; [reflexivity|apply grow_refl]].
    cbv zeta in H. set (s1 := ask (FStat p true) s) in *.
    assert (G : grow E (fun x => exists p, fst x = FStat p true) s s1) by (apply grow_ask; eexists; reflexivity).
    destruct (longname _ _ _).
    + destruct (IH _ _ _ _ H) as (D & G2). split; [exact D|]. eapply grow_trans; eassumption.
    + assert (s1 = s') by congruence. subst. split; [reflexivity|exact G].
Qed.

Inductive eff (E : senv) (s : srv) (ty id : N) (data : bytes) (out : option bytes) (s' : srv) (l : list (fscall * ans)) : Prop :=
| Ef_quiet :
    s_files s' = s_files s -> map dkey (s_dirs s') = map dkey (s_dirs s) -> s_next s' = s_next s ->
    Forall (quiet s) l -> nohandle id out ->
    (ty = 4 -> forall hb b x, str hb b -> data = b ++ x -> lenN hb = 8 ->
       FindDir (decode_t hb) (s_dirs s) = None /\ FindFileHandle (decode_t hb) (s_files s) = None) ->
    (s_dirs s' = s_dirs s \/ (ty = 12 /\ exists hb b x, str hb b /\ data = b ++ x /\ lenN hb = 8 /\ s_dirs s' = SetEof (decode_t hb) (s_dirs s))) ->
    eff E s ty id data out s' l
| Ef_open : forall dir fl mode st a,
    ty = 3 -> l = [(FStat dir false, st); (FOpen dir fl mode, a)] -> (0 <= r_int a)%Z ->
    capped 0 (s_files s) = false ->
    s_files s' = mkFent (s_next s) (r_int a) dir :: s_files s -> s_dirs s' = s_dirs s ->
    s_next s' = AddAssign64 (s_next s) 1 ->
    out = Some (CreatePacket FTP_HANDLE id (HandleIdEncode (s_next s))) ->
    eff E s ty id data out s' l
| Ef_openclose : forall dir fl mode st a y,
    ty = 3 -> l = [(FStat dir false, st); (FOpen dir fl mode, a); (FClose (r_int a), y)] -> (0 <= r_int a)%Z ->
    s_files s' = s_files s -> s_dirs s' = s_dirs s -> s_next s' = AddAssign64 (s_next s) 1 ->
    nohandle id out ->
    eff E s ty id data out s' l
| Ef_opendir : forall dir a,
    ty = 11 -> l = [(FOpendir dir, a)] -> (0 <= r_int a)%Z -> capped 0 (s_dirs s) = false ->
    s_files s' = s_files s -> s_dirs s' = mkDent (s_next s) (r_int a) dir false :: s_dirs s ->
    s_next s' = AddAssign64 (s_next s) 1 ->
    (out = None \/ out = Some (CreatePacket FTP_HANDLE id (HandleIdEncode (s_next s)))) ->
    eff E s ty id data out s' l
| Ef_opendirclose : forall dir a y,
    ty = 11 -> l = [(FOpendir dir, a); (FClosedir (r_int a), y)] -> (0 <= r_int a)%Z ->
    s_files s' = s_files s -> s_dirs s' = s_dirs s -> s_next s' = s_next s -> nohandle id out ->
    eff E s ty id data out s' l
| Ef_close : forall hb b x e a,
    ty = 4 -> str hb b -> data = b ++ x -> lenN hb = 8 -> FindDir (decode_t hb) (s_dirs s) = None ->
    FindFileHandle (decode_t hb) (s_files s) = Some e -> l = [(FClose (f_fd e), a)] ->
    s_files s' = RemoveFileHandle (decode_t hb) (s_files s) -> s_dirs s' = s_dirs s -> s_next s' = s_next s ->
    nohandle id out ->
    eff E s ty id data out s' l
| Ef_closedir : forall hb b x e a,
    ty = 4 -> str hb b -> data = b ++ x -> lenN hb = 8 -> FindDir (decode_t hb) (s_dirs s) = Some e ->
    l = [(FClosedir (d_dir e), a)] ->
    s_files s' = s_files s -> s_dirs s' = RemoveDir (decode_t hb) (s_dirs s) -> s_next s' = s_next s ->
    nohandle id out ->
    eff E s ty id data out s' l.

Definition effs E s ty id data out s' :=
  exists new, s_log s' = rev new ++ s_log s /\ eff E s ty id data out s' (answered E (s_log s) new).

Lemma effs_quiet : forall E s ty id data out s', ty <> 4 -> grow E (quiet s) s s' -> nohandle id out ->
  effs E s ty id data out s'.
Proof.
  intros E s ty id data out s' Ht (F & D & N & new & L & Q) H. exists new. split; [assumption|].
  apply Ef_quiet; try assumption; [congruence|intros; contradiction|left; assumption].
Qed.
Lemma seteof_key : forall h l, map dkey (SetEof h l) = map dkey l.
Proof.
  induction l as [|e l IH]; [reflexivity|]. cbn [SetEof]. destruct (hid_eqb (d_id e) h); [reflexivity|].
  cbn [map]. rewrite IH. reflexivity.
Qed.
Lemma effs_eof : forall E s id data out s2 hb b x, grow E (quiet s) s s2 -> nohandle id out -> str hb b -> data = b ++ x -> lenN hb = 8 ->
  effs E s 12 id data out (set_dirs (SetEof (decode_t hb) (s_dirs s2)) s2).
Proof.
  intros E s id data out s2 hb b x (F & D & N & new & L & Q) H Sb Qd L8. exists new. split; [assumption|].
  apply Ef_quiet; try assumption; [cbn [s_dirs set_dirs]; rewrite seteof_key; congruence|intros; discriminate|].
  right. split; [reflexivity|]. exists hb, b, x. repeat (split; [assumption|]). cbn [s_dirs set_dirs]. congruence.
Qed.
Lemma effs_same : forall E s ty id data out, ty <> 4 -> nohandle id out -> effs E s ty id data out s.
Proof. intros. apply effs_quiet; [assumption|apply grow_refl|assumption]. Qed.

Lemma find_in : forall h l e, FindFileHandle h l = Some e -> In e l /\ f_id e = h.
Proof.
  induction l as [|x l IH]; intros e H; cbn [FindFileHandle] in H; [discriminate|].
  destruct (hid_eqb (f_id x) h) eqn:Q.
  - assert (x = e) by congruence. subst x. split; [left; reflexivity|]. unfold hid_eqb in Q.
    apply andb_prop in Q. destruct Q as (A & B). apply N.eqb_eq in A. apply N.eqb_eq in B.
    destruct (f_id e), h. cbn in *. congruence.
  - destruct (IH _ H). split; [right; assumption|assumption].
Qed.
Lemma findd_in : forall h l e, FindDir h l = Some e -> In e l /\ d_id e = h.
Proof.
  induction l as [|x l IH]; intros e H; cbn [FindDir] in H; [discriminate|].
  destruct (hid_eqb (d_id x) h) eqn:Q.
  - assert (x = e) by congruence. subst x. split; [left; reflexivity|]. unfold hid_eqb in Q.
    apply andb_prop in Q. destruct Q as (A & B). apply N.eqb_eq in A. apply N.eqb_eq in B.
    destruct (d_id e), h. cbn in *. congruence.
  - destruct (IH _ H). split; [right; assumption|assumption].
Qed.
Lemma file_of_in : forall hb s e, file_of_t hb s = Some e -> lenN hb = 8 /\ In e (s_files s) /\ f_id e = decode_t hb.
Proof.
  intros hb s e H. unfold file_of_t, HANDLE_ID_SZ in H. destruct (N.eqb_spec (lenN hb) 8) as [L|L]; [|discriminate].
  cbn [negb] in H. apply find_in in H. tauto.
Qed.

Ltac leaf H := unfold done_t, fail_t in H; apply triple_inv in H; destruct H as (_ & <- & <-).

Section effs.
  Variables (E : senv) (id : N) (data : bytes) (s : srv) (r : rc) (out : option bytes) (s' : srv).

  Lemma status_effs : forall ty s1 q c m, ty <> 4 -> grow E (quiet s) s s1 ->
    status_t E q c id m s1 = (r, out, s') -> effs E s ty id data out s'.
  Proof.
    intros ty s1 q c m Ht G H. apply status_inv in H. destruct H as (-> & [->| ->]); apply effs_quiet; try assumption.
    - apply nohandle_none.
    - apply nohandle_status.
  Qed.
  Lemma outcome_effs : forall ty s1 p o a b, ty <> 4 -> grow E (quiet s) s s1 ->
    outcome_t E id p o a b s1 = (r, out, s') -> effs E s ty id data out s'.
  Proof.
    intros ty s1 p o a b Ht G H. apply outcome_inv in H. destruct H as (-> & [->| (c & m & ->)]); apply effs_quiet; try assumption.
    - apply nohandle_none.
    - apply nohandle_status.
  Qed.
  Lemma attrs_effs : forall ty s1 m, ty <> 4 -> grow E (quiet s) s s1 ->
    attrs_reply_t E id m s1 = (r, out, s') -> effs E s ty id data out s'.
  Proof.
    intros ty s1 m Ht G H. apply attrs_inv in H. destruct H as (-> & H); apply effs_quiet; assumption.
  Qed.

  Ltac silent := apply effs_same; [discriminate|first [apply nohandle_none|apply nohandle_status|apply nohandle_set; discriminate]].
  Ltac st H := eapply status_effs; [discriminate| |exact H]; try apply grow_refl.
  Ltac oc H := eapply outcome_effs; [discriminate| |exact H]; try apply grow_refl; try (apply grow_ask; exact I).

  Lemma RMDIR_effs : RecvRMDIR_t E id data s = (r, out, s') -> effs E s 15 id data out s'.
  Proof.
    unfold RecvRMDIR_t. intros H. destruct (p_str data) as [(path, t)|]; [|leaf H; silent].
    destruct (clean_t E path s) as (ret, dir). cbv zeta in H. destruct (rc_eqb ret WS_SUCCESS); oc H.
  Qed.
  Lemma MKDIR_effs : RecvMKDIR_t E id data s = (r, out, s') -> effs E s 14 id data out s'.
  Proof.
    unfold RecvMKDIR_t. intros H. destruct (p_str data) as [(path, t)|]; [|leaf H; silent].
    destruct (clean_t E path s) as (ret, dir). cbv zeta in H. destruct (rc_eqb ret WS_SUCCESS).
    - destruct (p_attrs t) as [(a, t')|]; [|leaf H; silent]. oc H.
    - destruct (rc_eqb ret WS_PERMISSIONS); [oc H|leaf H; silent].
  Qed.
  Lemma Remove_effs : RecvRemove_t E id data s = (r, out, s') -> effs E s 13 id data out s'.
  Proof.
    unfold RecvRemove_t. intros H. destruct (p_str data) as [(path, t)|]; [|leaf H; silent].
    destruct (_ <? _); [leaf H; silent|].
    destruct (clean_t E path s) as (ret, dir). cbv zeta in H. destruct (rc_eqb ret WS_SUCCESS); oc H.
  Qed.
  Lemma Rename_effs : RecvRename_t E id data s = (r, out, s') -> effs E s 18 id data out s'.
  Proof.
    unfold RecvRename_t. cbv zeta. intros H. destruct (p_str data) as [(path, t)|]; [|oc H].
    destruct (clean_t E path s) as (ret, dir). destruct (negb _); [oc H|].
    destruct (p_str t) as [(path2, t2)|]; [|oc H].
    destruct (clean_t E path2 s) as (ret2, dir2). destruct (negb _); oc H.
  Qed.
  Lemma FSTAT_effs : RecvFSTAT_t E id data s = (r, out, s') -> effs E s 8 id data out s'.
  Proof.
    unfold RecvFSTAT_t. intros H. destruct (p_str data) as [(hb, t)|]; [|leaf H; silent].
    destruct (file_of_t hb s) as [e|] eqn:F; [|leaf H; silent].
    eapply attrs_effs; [discriminate| |exact H]. apply grow_ask. cbn. apply file_of_in in F. apply in_map. tauto.
  Qed.
  Lemma Stat_effs : forall nf ty, ty <> 4 -> RecvStat_t nf E id data s = (r, out, s') -> effs E s ty id data out s'.
  Proof.
    unfold RecvStat_t. intros nf ty Ht H. cbv zeta in H.
    assert (S : forall o, nohandle id o -> effs E s ty id data o s) by (intros; apply effs_same; assumption).
    destruct (p_str data) as [(path, t)|]; [|leaf H; apply S; apply nohandle_none].
    destruct (clean_t E path s) as (ret, dir). destruct (rc_eqb ret WS_SUCCESS).
    - eapply attrs_effs; [assumption| |exact H]. apply grow_ask. exact I.
    - destruct (negb _); [leaf H; apply S; apply nohandle_none|].
      destruct (rc_eqb _ _); leaf H; apply S; apply nohandle_status.
  Qed.
  Lemma SetSTAT_effs : RecvSetSTAT_t E id data s = (r, out, s') -> effs E s 9 id data out s'.
  Proof.
    unfold RecvSetSTAT_t. cbv zeta. intros H. destruct (p_str data) as [(path, t)|]; [|leaf H; silent].
    destruct (clean_t E path s) as (ret, dir). destruct (negb _); [oc H|].
    destruct (p_attrs t) as [(a, t')|]; [|oc H].
    destruct (set_attrs E (FChmod dir) (FSetTime dir) a s) as (ok, s2) eqn:SA. oc H.
    eapply setattrs_grow; [| |exact SA]; intros; exact I.
  Qed.
  Lemma FSetSTAT_effs : RecvFSetSTAT_t E id data s = (r, out, s') -> effs E s 10 id data out s'.
  Proof.
    unfold RecvFSetSTAT_t. cbv zeta. intros H. destruct (p_str data) as [(hb, t)|]; [|leaf H; silent].
    destruct (file_of_t hb s) as [e|] eqn:F; [|oc H].
    destruct (p_attrs t) as [(a, t')|]; [|oc H].
    destruct (set_attrs E _ _ a s) as (ok, s2) eqn:SA. oc H.
    apply file_of_in in F. destruct F as (_ & F & _).
    eapply setattrs_grow; [| |exact SA]; intros; cbn; apply in_map; assumption.
  Qed.
  Lemma Read_effs : RecvRead_t E id data s = (r, out, s') -> effs E s 5 id data out s'.
  Proof.
    unfold RecvRead_t. cbv zeta. intros H. destruct (p_str data) as [(hb, t)|]; [|leaf H; silent].
    destruct (file_of_t hb s) as [e|] eqn:F.
    2: { destruct (_ || _); leaf H; silent. }
    destruct (p_two true t) as [((hi, lo), t1)|]; [|leaf H; silent].
    destruct (p_u32 t1) as [(sz, t2)|]; [|leaf H; silent].
    destruct (_ <? _); [leaf H; silent|]. destruct (negb _); [leaf H; silent|].
    set (s2 := ask _ s) in *. apply file_of_in in F. destruct F as (_ & F & _).
    assert (G : grow E (quiet s) s s2) by (apply grow_ask; cbn; apply in_map; assumption).
    destruct (_ || _).
    { destruct (_ || _); leaf H; (apply effs_quiet; [discriminate|exact G|first [apply nohandle_none|apply nohandle_status]]). }
    destruct (_ =? 0).
    { destruct (_ || _); leaf H; (apply effs_quiet; [discriminate|exact G|first [apply nohandle_none|apply nohandle_status]]). }
    leaf H. apply effs_quiet; [discriminate|exact G|]. unfold CreatePacket. apply nohandle_set. discriminate.
  Qed.
  Lemma Write_effs : RecvWrite_t E id data s = (r, out, s') -> effs E s 6 id data out s'.
  Proof.
    unfold RecvWrite_t. cbv zeta. intros H. destruct (p_str data) as [(hb, t)|]; [|st H].
    destruct (file_of_t hb s) as [e|] eqn:F; [|st H].
    destruct (p_two true t) as [((hi, lo), t1)|]; [|leaf H; silent].
    destruct (p_str t1) as [(d, t2)|]; [|leaf H; silent].
    destruct (write_loop _ _ _ _ _ _ _) as (ok, s2) eqn:W. apply file_of_in in F. destruct F as (_ & F & _).
    assert (G : grow E (quiet s) s s2).
    { eapply grow_weak; [|eapply write_grow; exact W]. intros (c, y) (d' & o & Q). cbn [fst] in Q. subst c. cbn. apply in_map. assumption. }
    destruct ok; st H; exact G.
  Qed.
  Lemma ReadDir_effs : RecvReadDir_t E id data s = (r, out, s') -> effs E s 12 id data out s'.
  Proof.
    unfold RecvReadDir_t. intros H. destruct (p_str data) as [(hb, t)|] eqn:P; [|leaf H; silent].
    destruct (_ <? _); [leaf H; silent|]. destruct (N.eqb_spec (lenN hb) HANDLE_ID_SZ) as [L8|L8]; cbn [negb] in H; [|leaf H; silent]. cbv zeta in H.
    apply p_str_some in P. destruct P as (b0 & Sb & Qd).
    destruct (FindDir (decode_t hb) (s_dirs s)) as [e|] eqn:F; [|leaf H; silent].
    assert (K : forall l s2, (if d_eof e then ([], s) else readdir_loop E (d_name e)
       (r_names (fs E (s_log (ask (FReaddir (d_dir e)) s)))) [] (ask (FReaddir (d_dir e)) s)) = (l, s2) ->
       grow E (quiet s) s s2).
    { intros l s2 Q. destruct (d_eof e); [assert (s = s2) by congruence; subst; apply grow_refl|].
      apply readdir_grow in Q. destruct Q as (_ & Q). eapply grow_trans.
      - apply (grow_ask E (quiet s) (FReaddir (d_dir e)) s). cbn. apply in_map. apply findd_in in F. tauto.
      - eapply grow_weak; [|exact Q]. intros (c, y) (q & Qc). cbn [fst] in Qc. subst c. exact I. }
    destruct (if d_eof e then _ else _) as (l, s2) eqn:Q. specialize (K _ _ eq_refl).
    destruct l as [|x l]; [destruct (mem E (s_log s2) 1); leaf H; (apply effs_quiet; [discriminate|exact K|first [apply nohandle_none|apply nohandle_status]])|].
    assert (G : forall out, nohandle id out -> effs E s 12 id data out (set_dirs (SetEof (decode_t hb) (s_dirs s2)) s2)).
    { intros o Ho. eapply effs_eof; eassumption. }
    set (s3 := set_dirs _ s2) in *.
    destruct (negb _); [leaf H; apply G; apply nohandle_none|].
    destruct (_ <? 13); [leaf H; apply G; apply nohandle_none|].
    destruct (put_names _ _); leaf H; apply G.
    - apply nohandle_set. discriminate.
    - apply nohandle_none.
  Qed.
  Lemma RealPath_effs : RecvRealPathMsg_t E id data s = (r, out, s') -> effs E s 16 id data out s'.
  Proof.
    unfold RecvRealPathMsg_t. intros H. destruct (p_str data) as [(hb, t)|]; [|leaf H; silent].
    destruct (_ <=? _); [leaf H; silent|]. cbv zeta in H.
    set (s2 := match sp_default (s_paths s) with Some _ => s | None => ask FGetcwd s end) in *.
    assert (G : forall p, grow E (quiet s) s (set_paths p s2)).
    { intros p. apply grow_trans with s2.
      - unfold s2. destruct (sp_default (s_paths s)); [apply grow_refl|apply grow_ask; exact I].
      - unfold grow. split; [|split; [|split]]; try reflexivity. exists []. split; [reflexivity|constructor]. }
    destruct (RecvRealPath _ hb (s_paths s2)) as (p, o). specialize (G p).
    destruct (sp_default p).
    2: { destruct (mem _ _ 1); leaf H; (apply effs_quiet; [discriminate|exact G|first [apply nohandle_none|apply nohandle_status]]). }
    destruct o as [x|]; [|leaf H; apply effs_quiet; [discriminate|exact G|apply nohandle_none]].
    destruct (_ && _); leaf H; (apply effs_quiet; [discriminate|exact G|]).
    - apply nohandle_none.
    - apply nohandle_set. discriminate.
  Qed.

  Lemma Open_effs : RecvOpen_t E id data s = (r, out, s') -> effs E s 3 id data out s'.
  Proof.
    unfold RecvOpen_t. intros H. destruct (p_str data) as [(path, t)|]; [|leaf H; silent].
    destruct (clean_t E path s) as (ret, dir). destruct (rc_eqb ret WS_PERMISSIONS); [st H|].
    destruct (negb _); [leaf H; silent|].
    destruct (capped 0 (s_files s)) eqn:Cp; [st H|].
    destruct (p_u32 t) as [(fl, t1)|]; [|leaf H; silent].
    destruct (p_attrs t1) as [(a, t2)|]; [|leaf H; silent]. cbv zeta in H.
    set (s1 := ask (FStat dir false) s) in *.
    assert (G1 : grow E (quiet s) s s1) by (apply grow_ask; exact I).
    destruct (_ && _).
    { destruct (mem E (s_log s1) 1); leaf H; (apply effs_quiet; [discriminate|exact G1|first [apply nohandle_none|apply nohandle_status]]). }
    set (mode := SAFE_MODE _) in *. set (c := FOpen dir (open_mode fl) mode) in *. set (s2 := ask c s1) in *.
    set (y := fs E (s_log s2)) in *.
    assert (L2 : s_log s2 = rev [FStat dir false; c] ++ s_log s) by reflexivity.
    assert (A2 : answered E (s_log s) [FStat dir false; c] = [(FStat dir false, fs E (s_log s1)); (c, y)]) by reflexivity.
    destruct (Z.ltb_spec (r_int y) 0) as [Neg|Pos].
    { assert (G2 : grow E (quiet s) s s2) by (eapply grow_trans; [exact G1|]; apply grow_ask; exact Neg).
      destruct (mem E (s_log s2) 1); leaf H; (apply effs_quiet; [discriminate|exact G2|first [apply nohandle_none|apply nohandle_status]]). }
    cbn [HandleIdNext] in H. unfold HandleIdNext in H. set (s3 := set_next _ s2) in *.
    assert (Fail : forall o s4, nohandle id o -> s_files s4 = s_files s -> s_dirs s4 = s_dirs s -> s_next s4 = AddAssign64 (s_next s) 1 ->
      s_log s4 = s_log s2 -> effs E s 3 id data o (ask (FClose (r_int y)) s4)).
    { intros o s4 Hn Hf Hd Hx Hl. exists [FStat dir false; c; FClose (r_int y)]. split.
      - cbn [ask s_log]. rewrite Hl, L2. reflexivity.
      - eapply (Ef_openclose E s 3 id data o _ _ dir (open_mode fl) mode (fs E (s_log s1)) y); try assumption; try reflexivity. }
    destruct (AddFileHandle E (r_int y) dir (s_next s2) s3) as (ret2, s4) eqn:Ad.
    assert (S4 : (ret2 <> WS_SUCCESS /\ s4 = s3) \/ (ret2 = WS_SUCCESS /\ s4 = set_files (mkFent (s_next s) (r_int y) dir :: s_files s) s3)).
    { unfold AddFileHandle in Ad. destruct (capped 0 (s_files s3)).
      { left. split; [intros ->; congruence|congruence]. }
      destruct (negb _); [left; split; [intros ->; congruence|congruence]|].
      destruct (_ <? _); [left; split; [intros ->; congruence|congruence]|]. right.
      apply pair_equal_spec in Ad. destruct Ad as (<- & <-). split; reflexivity. }
    destruct S4 as [(Hr & ->)|(-> & ->)].
    - destruct (rc_eqb ret2 WS_SUCCESS) eqn:Rq; [apply rc_eqb_eq in Rq; contradiction|]. cbn [negb] in H.
      destruct (mem E (s_log s3) 1); leaf H; apply Fail; try reflexivity; [apply nohandle_status|apply nohandle_none].
    - cbn [rc_eqb negb] in H. change (rc_eqb WS_SUCCESS WS_SUCCESS) with true in H. cbn [negb] in H.
      destruct (mem _ _ 1); leaf H.
      + exists [FStat dir false; c]. split; [exact L2|].
        eapply (Ef_open E s 3 id data _ _ _ dir (open_mode fl) mode (fs E (s_log s1)) y); try reflexivity; assumption.
      + apply Fail; try reflexivity; [apply nohandle_none|]. cbn. 
        assert (Q : hid_eqb (s_next s) (s_next s) = true) by (unfold hid_eqb; rewrite !N.eqb_refl; reflexivity).
        rewrite Q. reflexivity.
  Qed.

  Lemma OpenDir_effs : RecvOpenDir_t E id data s = (r, out, s') -> effs E s 11 id data out s'.
  Proof.
    unfold RecvOpenDir_t. intros H. destruct (p_str data) as [(path, t)|]; [|leaf H; silent].
    destruct (clean_t E path s) as (ret, dir). destruct (rc_eqb ret WS_PERMISSIONS); [st H|].
    destruct (negb _); [leaf H; silent|].
    destruct (capped 0 (s_dirs s)) eqn:Cp; [st H|]. cbv zeta in H.
    set (s1 := ask (FOpendir dir) s) in *. set (y := fs E (s_log s1)) in *.
    destruct (Z.ltb_spec (r_int y) 0) as [Neg|Pos].
    { assert (G1 : grow E (quiet s) s s1) by (apply grow_ask; exact Neg).
      destruct (mem E (s_log s1) 1); leaf H; (apply effs_quiet; [discriminate|exact G1|first [apply nohandle_none|apply nohandle_status]]). }
    destruct (negb _).
    { leaf H. exists [FOpendir dir; FClosedir (r_int y)]. split; [reflexivity|].
      eapply (Ef_opendirclose E s 11 id data _ _ _ dir y); try reflexivity; [assumption|apply nohandle_none]. }
    unfold HandleIdNext in H.
    destruct (mem _ _ 1); leaf H; exists [FOpendir dir]; (split; [reflexivity|]).
    - eapply (Ef_opendir E s 11 id data _ _ _ dir y); try reflexivity; try assumption. right. reflexivity.
    - eapply (Ef_opendir E s 11 id data _ _ _ dir y); try reflexivity; try assumption. left. reflexivity.
  Qed.

  Lemma Close_effs : RecvClose_t E id data s = (r, out, s') -> effs E s 4 id data out s'.
  Proof.
    unfold RecvClose_t. intros H.
    assert (Q : forall o, nohandle id o ->
       (forall hb b x, str hb b -> data = b ++ x -> lenN hb = 8 ->
         FindDir (decode_t hb) (s_dirs s) = None /\ FindFileHandle (decode_t hb) (s_files s) = None) ->
       effs E s 4 id data o s).
    { intros o Hn Hc. exists []. split; [reflexivity|]. apply Ef_quiet; try reflexivity; try assumption; [constructor|intros _; exact Hc|left; reflexivity]. }
    destruct (p_str data) as [(hb, t)|] eqn:P.
    2: { leaf H. apply Q; [apply nohandle_none|]. intros hb b x Sb -> _. rewrite (p_str_app hb b x Sb) in P. discriminate. }
    destruct (p_str_some _ _ _ P) as (b & Sb & Ed).
    assert (U : forall hb' b' x', str hb' b' -> data = b' ++ x' -> hb' = hb).
    { intros hb' b' x' Sb' Ed'. rewrite Ed in Ed'. destruct (str_inj _ _ _ _ _ _ Sb' Sb (eq_sym Ed')). assumption. }
    destruct (MAX_HANDLE <? lenN hb) eqn:Mx.
    { leaf H. apply Q; [apply nohandle_none|]. intros hb' b' x' Sb' Ed' L8. rewrite (U _ _ _ Sb' Ed') in *. unfold MAX_HANDLE in Mx.
      rewrite L8 in Mx. discriminate. }
    cbv zeta in H.
    assert (F : forall (ok : bool) s1, (if ok then status_t E WS_SUCCESS FTP_OK id (ascii "Closed File") s1
       else status_t E WS_BAD_FILE_E FTP_FAILURE id (ascii "Close File Error") s1) = (r, out, s') -> s' = s1 /\ nohandle id out).
    { intros ok s1 Q1. destruct ok; apply status_inv in Q1; destruct Q1 as (-> & [->| ->]); (split; [reflexivity|]);
        first [apply nohandle_none|apply nohandle_status]. }
    unfold HANDLE_ID_SZ in H. destruct (N.eqb_spec (lenN hb) 8) as [L8|L8]; cbn [negb] in H.
    2: { apply (F false) in H. destruct H as (-> & H). apply Q; [assumption|]. intros hb' b' x' Sb' Ed' L. rewrite (U _ _ _ Sb' Ed') in *. lia. }
    unfold RecvCloseDir in H.
    destruct (FindDir (decode_t hb) (s_dirs s)) as [e|] eqn:Fd.
    - apply (F true) in H. destruct H as (-> & H). exists [FClosedir (d_dir e)]. split; [reflexivity|].
      cbn [answered].
      eapply (Ef_closedir E s 4 id data _ _ _ hb b t e); try reflexivity; assumption.
    - destruct (FindFileHandle (decode_t hb) (s_files s)) as [e|] eqn:Ff.
      + apply (F _) in H. destruct H as (-> & H). exists [FClose (f_fd e)]. split; [reflexivity|]. cbn [answered].
        eapply (Ef_close E s 4 id data _ _ _ hb b t e); try reflexivity; assumption.
      + apply (F false) in H. destruct H as (-> & H). apply Q; [assumption|].
        intros hb' b' x' Sb' Ed' L. rewrite (U _ _ _ Sb' Ed') in *. split; assumption.
  Qed.

  Lemma dispatch_effs : forall ty, dispatch_t E ty id data s = (r, out, s') -> effs E s ty id data out s'.
  Proof.
    intros ty. unfold dispatch_t.
    destruct (N.eqb_spec ty FTP_REALPATH) as [->|N1]; [apply RealPath_effs|].
    destruct (N.eqb_spec ty FTP_RMDIR) as [->|N2]; [apply RMDIR_effs|].
    destruct (N.eqb_spec ty FTP_MKDIR) as [->|N3]; [apply MKDIR_effs|].
    destruct (N.eqb_spec ty FTP_STAT) as [->|N4]; [apply Stat_effs; discriminate|].
    destruct (N.eqb_spec ty FTP_LSTAT) as [->|N5]; [apply Stat_effs; discriminate|].
    destruct (N.eqb_spec ty FTP_FSTAT) as [->|N6]; [apply FSTAT_effs|].
    destruct (N.eqb_spec ty FTP_OPEN) as [->|N7]; [apply Open_effs|].
    destruct (N.eqb_spec ty FTP_READ) as [->|N8]; [apply Read_effs|].
    destruct (N.eqb_spec ty FTP_WRITE) as [->|N9]; [apply Write_effs|].
    destruct (N.eqb_spec ty FTP_CLOSE) as [->|N10]; [apply Close_effs|].
    destruct (N.eqb_spec ty FTP_REMOVE) as [->|N11]; [apply Remove_effs|].
    destruct (N.eqb_spec ty FTP_RENAME) as [->|N12]; [apply Rename_effs|].
    destruct (N.eqb_spec ty FTP_SETSTAT) as [->|N13]; [apply SetSTAT_effs|].
    destruct (N.eqb_spec ty FTP_FSETSTAT) as [->|N14]; [apply FSetSTAT_effs|].
    destruct (N.eqb_spec ty FTP_OPENDIR) as [->|N15]; [apply OpenDir_effs|].
    destruct (N.eqb_spec ty FTP_READDIR) as [->|N16]; [apply ReadDir_effs|].
    cbv zeta. intros H. unfold FTP_CLOSE in N10.
    destruct (_ || _); leaf H; (apply effs_same; [assumption|first [apply nohandle_none|apply nohandle_status]]).
  Qed.
End effs.
