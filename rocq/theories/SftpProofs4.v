(* SftpProofs4.v - proofs about the SFTP server: the invariant of a session. *)
From Verif Require Import Base WireModel WireSpec WireProofs PathModel PathSpec PathProofs NegoSpec ReqSpec ReqProofs ReqProofs3.
From Verif Require Import SftpModel SftpProofs SftpSpec SftpProofs2 SftpProofs3.
From Coq Require Import List NArith ZArith Bool Lia String.
Import ListNotations.
Open Scope N_scope.

(* ---- the tables ------------------------------------------------------------ *)

Lemma hid_eqb_eq : forall a b, hid_eqb a b = true <-> a = b.
Proof.
  intros (a, b) (c, d). unfold hid_eqb. cbn [fst snd]. rewrite andb_true_iff, !N.eqb_eq. split; [intros (-> & ->); reflexivity|].
  intros H. split; congruence.
Qed.
Lemma find_split : forall h l e, FindFileHandle h l = Some e ->
  exists a b, l = a ++ e :: b /\ RemoveFileHandle h l = a ++ b /\ f_id e = h.
Proof.
  induction l as [|x l IH]; intros e H; cbn [FindFileHandle RemoveFileHandle] in *; [discriminate|].
  destruct (hid_eqb (f_id x) h) eqn:Q.
  - assert (x = e) by congruence. subst x. apply hid_eqb_eq in Q. exists [], l. auto.
  - destruct (IH _ H) as (a & b & -> & R & I). exists (x :: a), b. rewrite R. auto.
Qed.
Lemma findd_split : forall h l e, FindDir h l = Some e ->
  exists a b, l = a ++ e :: b /\ RemoveDir h l = a ++ b /\ d_id e = h.
Proof.
  induction l as [|x l IH]; intros e H; cbn [FindDir RemoveDir] in *; [discriminate|].
  destruct (hid_eqb (d_id x) h) eqn:Q.
  - assert (x = e) by congruence. subst x. apply hid_eqb_eq in Q. exists [], l. auto.
  - destruct (IH _ H) as (a & b & -> & R & I). exists (x :: a), b. rewrite R. auto.
Qed.
Lemma ffind_none : forall h l, FindFileHandle h l = None -> forall e, In e l -> f_id e <> h.
Proof.
  induction l as [|x l IH]; intros H e Hi; [destruct Hi|]. cbn [FindFileHandle] in H.
  destruct (hid_eqb (f_id x) h) eqn:Q; [discriminate|]. destruct Hi as [->|Hi].
  - intros K. apply hid_eqb_eq in K. congruence.
  - apply IH; assumption.
Qed.
Lemma findd_none : forall h l, FindDir h l = None -> forall e, In e l -> d_id e <> h.
Proof.
  induction l as [|x l IH]; intros H e Hi; [destruct Hi|]. cbn [FindDir] in H.
  destruct (hid_eqb (d_id x) h) eqn:Q; [discriminate|]. destruct Hi as [->|Hi].
  - intros K. apply hid_eqb_eq in K. congruence.
  - apply IH; assumption.
Qed.
Lemma ffind_some : forall h l e, In e l -> f_id e = h -> exists e', FindFileHandle h l = Some e'.
Proof.
  intros h l e Hi He. destruct (FindFileHandle h l) as [x|] eqn:F; [eauto|]. exfalso. eapply ffind_none; eassumption.
Qed.
Lemma findd_some : forall h l e, In e l -> d_id e = h -> exists e', FindDir h l = Some e'.
Proof.
  intros h l e Hi He. destruct (FindDir h l) as [x|] eqn:F; [eauto|]. exfalso. eapply findd_none; eassumption.
Qed.

Lemma capped_eq : forall A (l : list A) n, (n < 64)%nat -> capped n l = true <-> (64 <= n + Datatypes.length l)%nat.
Proof.
  induction l as [|x l IH]; intros n Hn; cbn [capped Datatypes.length].
  - split; [discriminate|lia].
  - change MAX_SFTP_HANDLES with 64%nat. destruct (Nat.leb_spec 64 (S n)) as [L|L].
    + split; [lia|reflexivity].
    + rewrite IH by assumption. lia.
Qed.

(* ---- counting --------------------------------------------------------------- *)

Definition fcount (fd : Z) (l : list fent) : nat := Datatypes.length (filter (fun e => (f_fd e =? fd)%Z) l).
Definition dcount (fd : Z) (l : list dent) : nat := Datatypes.length (filter (fun e => (d_dir e =? fd)%Z) l).

Lemma times_app : forall f a b, times f (a ++ b) = (times f a + times f b)%nat.
Proof. intros. unfold times. rewrite filter_app, app_length. reflexivity. Qed.
Lemma times_cons : forall f x b, times f (x :: b) = ((if f x then 1 else 0) + times f b)%nat.
Proof. intros. unfold times. cbn [filter]. destruct (f x); reflexivity. Qed.
Lemma times_nil : forall f, times f [] = 0%nat.
Proof. reflexivity. Qed.
Lemma times_none : forall f l, Forall (fun x => f x = false) l -> times f l = 0%nat.
Proof. intros f l H. induction H as [|x l Hx Hl IH]; [reflexivity|]. rewrite times_cons, Hx, IH. reflexivity. Qed.
Lemma fcount_app : forall fd a b, fcount fd (a ++ b) = (fcount fd a + fcount fd b)%nat.
Proof. intros. unfold fcount. rewrite filter_app, app_length. reflexivity. Qed.
Lemma dcount_app : forall fd a b, dcount fd (a ++ b) = (dcount fd a + dcount fd b)%nat.
Proof. intros. unfold dcount. rewrite filter_app, app_length. reflexivity. Qed.
Lemma fcount_cons : forall fd x b, fcount fd (x :: b) = ((if (f_fd x =? fd)%Z then 1 else 0) + fcount fd b)%nat.
Proof. intros. unfold fcount. cbn [filter]. destruct (_ =? _)%Z; reflexivity. Qed.
Lemma dcount_cons : forall fd x b, dcount fd (x :: b) = ((if (d_dir x =? fd)%Z then 1 else 0) + dcount fd b)%nat.
Proof. intros. unfold dcount. cbn [filter]. destruct (_ =? _)%Z; reflexivity. Qed.
Lemma fcount_in : forall fd l, In fd (map f_fd l) -> (1 <= fcount fd l)%nat.
Proof.
  intros fd l H. apply in_map_iff in H. destruct H as (e & He & Hi). apply in_split in Hi. destruct Hi as (a & b & ->).
  rewrite fcount_app, fcount_cons. rewrite (proj2 (Z.eqb_eq _ _) He). lia.
Qed.
Lemma dcount_in : forall fd l, In fd (map d_dir l) -> (1 <= dcount fd l)%nat.
Proof.
  intros fd l H. apply in_map_iff in H. destruct H as (e & He & Hi). apply in_split in Hi. destruct Hi as (a & b & ->).
  rewrite dcount_app, dcount_cons. rewrite (proj2 (Z.eqb_eq _ _) He). lia.
Qed.
Lemma dcount_key : forall fd l l', map dkey l' = map dkey l -> dcount fd l' = dcount fd l.
Proof.
  induction l as [|x l IH]; intros [|y l'] H; try discriminate; [reflexivity|]. cbn [map] in H.
  assert (dkey y = dkey x /\ map dkey l' = map dkey l) as (K & K') by (split; congruence).
  rewrite !dcount_cons. rewrite (IH _ K'). unfold dkey in K. assert (d_dir y = d_dir x) by congruence. rewrite H0. reflexivity.
Qed.
Lemma key_dirs : forall (l l' : list dent), map dkey l' = map dkey l -> map d_dir l' = map d_dir l /\ map d_id l' = map d_id l /\ map d_name l' = map d_name l
  /\ Datatypes.length l' = Datatypes.length l.
Proof.
  induction l as [|x l IH]; intros [|y l'] H; try discriminate; [auto|]. cbn [map] in H.
  assert (dkey y = dkey x /\ map dkey l' = map dkey l) as (K & K') by (split; congruence).
  destruct (IH _ K') as (A & B & C & D). unfold dkey in K. cbn. rewrite A, B, C, D.
  split; [congruence|]. split; [congruence|]. split; congruence.
Qed.

(* ---- one request of a history ------------------------------------------------- *)

Definition W64 : N := W32 * W32.

Lemma s_is32 : forall n, n <= 65536 -> is32 n.
Proof. intros n H. unfold is32, W32. lia. Qed.

Lemma new_fun : forall (a b l m : list fscall), l = rev a ++ m -> l = rev b ++ m -> a = b.
Proof.
  intros a b l m H H'. rewrite H in H'. apply app_inv_tail in H'. rewrite <- (rev_involutive a), H'. apply rev_involutive.
Qed.

Lemma hist_paths : forall E p h s, paths_ok p -> hist E p h s -> paths_ok (s_paths s) /\ sp_confine (s_paths s) = sp_confine p.
Proof.
  intros E p h s Hp H. induction H as [|h s ty id data r out s' new H (IH1 & IH2) Hb Hl Hi D L].
  - split; [exact Hp|reflexivity].
  - rewrite dispatch_eq in D; try assumption; [|apply s_is32; assumption].
    assert (D' : dispatch_t E ty id data s = (r, out, s')) by congruence. clear D.
    destruct (N.eq_dec ty 16) as [->|N16].
    + change (dispatch_t E 16 id data s) with (RecvRealPathMsg_t E id data s) in D'.
      apply realpath_paths in D'. destruct D' as (_ & [-> | (cw & d & ->)]); [split; assumption|].
      destruct (RecvRealPath_inv cw d (s_paths s) IH1) as (A & B). split; [assumption|congruence].
    + destruct (safe_dispatch E id data s r out s' (fun _ => True) (fun _ => True)) with (ty := ty) as (_ & ->); try tauto; auto.
Qed.

(* an inductive view of histories *)
Inductive hst (E : senv) (p : paths) : list hev -> srv -> Prop :=
| Hs_new : hst E p [] (srv0 p)
| Hs_req : forall h s ty id data r out s' l,
    hist E p h s -> hst E p h s -> bytes_ok data -> lenN data <= 65536 -> is32 id -> paths_ok (s_paths s) ->
    dispatch_t E ty id data s = (r, out, s') ->
    eff E s ty id data out s' l ->
    s_log s' = rev (map fst l) ++ s_log s -> l = answered E (s_log s) (map fst l) ->
    hst E p (mkHev ty id data out l :: h) s'.

Lemma answered_fst : forall E new log, map fst (answered E log new) = new.
Proof. induction new as [|c t IH]; intros log; [reflexivity|]. cbn [answered map fst]. rewrite IH. reflexivity. Qed.

Lemma hist_hst : forall E p h s, paths_ok p -> hist E p h s -> hst E p h s.
Proof.
  intros E p h s Hp H. induction H as [|h s ty id data r out s' new H IH Hb Hl Hi D L]; [apply Hs_new|].
  pose proof (hist_paths _ _ _ _ Hp H) as (P1 & _).
  rewrite dispatch_eq in D; try assumption; [|apply s_is32; assumption].
  assert (D' : dispatch_t E ty id data s = (r, out, s')) by congruence. clear D.
  destruct (dispatch_effs _ _ _ _ _ _ _ _ D') as (new' & L' & F). rewrite <- (new_fun _ _ _ _ L L') in F.
  eapply (Hs_req E p h s ty id data r out s'); try eassumption.
  - rewrite answered_fst. assumption.
  - rewrite answered_fst. reflexivity.
Qed.

(* every request can be served: nothing is read or written outside a buffer *)
Lemma hist_total : forall E p h s ty id data, paths_ok p -> hist E p h s -> bytes_ok data -> lenN data <= 65536 -> is32 id ->
  exists ev s', hist E p (ev :: h) s' /\ q_ty ev = ty /\ q_id ev = id /\ q_data ev = data.
Proof.
  intros E p h s ty id data Hp H Hb Hl Hi. pose proof (hist_paths _ _ _ _ Hp H) as (P1 & _).
  destruct (dispatch_t E ty id data s) as ((r, out), s') eqn:D.
  destruct (dispatch_effs _ _ _ _ _ _ _ _ D) as (new & L & _).
  exists (mkHev ty id data out (answered E (s_log s) new)), s'. split; [|auto].
  eapply (H_req E p h s ty id data r out s' new); try eassumption. rewrite dispatch_eq; try assumption; [congruence|apply s_is32; assumption].
Qed.

Lemma calls_cons : forall ev h, calls (ev :: h) = calls h ++ q_calls ev.
Proof.
  intros. unfold calls. cbn [rev]. rewrite map_app, concat_app. cbn. rewrite app_nil_r. reflexivity.
Qed.

Lemma hst_log : forall E p h s, hst E p h s -> s_log s = rev (map fst (calls h)).
Proof.
  intros E p h s H. induction H as [|h s ty id data r out s' l H0 H IH Hb Hl Hi Hp D F L A]; [reflexivity|].
  rewrite calls_cons, map_app, rev_app_distr. cbn [q_calls]. rewrite L, IH. reflexivity.
Qed.

(* ---- cap and counts -------------------------------------------------------------- *)

Definition counts (h : list hev) (s : srv) : Prop :=
  (Datatypes.length (s_files s) <= 64)%nat /\ (Datatypes.length (s_dirs s) <= 64)%nat /\
  (forall fd, times (is_open fd) (calls h) = (times (is_close fd) (calls h) + fcount fd (s_files s))%nat) /\
  (forall d, times (is_opendir d) (calls h) = (times (is_closedir d) (calls h) + dcount d (s_dirs s))%nat).

Lemma quiet_none : forall s l fd, Forall (quiet s) l ->
  times (is_open fd) l = 0%nat /\ times (is_close fd) l = 0%nat /\ times (is_opendir fd) l = 0%nat /\ times (is_closedir fd) l = 0%nat.
Proof.
  intros s l fd H.
  assert (K : forall f, (forall x, quiet s x -> f x = false) -> times f l = 0%nat).
  { intros f Hf. apply times_none. eapply Forall_impl; [|exact H]. exact Hf. }
  split; [|split; [|split]]; apply K; intros (c, y) Q; unfold quiet in Q; cbn [fst snd] in Q;
    unfold is_open, is_close, is_opendir, is_closedir; cbn [fst snd]; destruct c; try reflexivity; try contradiction.
  - destruct (Z.leb_spec 0 fd); [|reflexivity]. cbn [andb]. apply Z.eqb_neq. lia.
  - destruct (Z.leb_spec 0 fd); [|reflexivity]. cbn [andb]. apply Z.eqb_neq. lia.
Qed.

Lemma open_hit : forall path fl mode a fd, (0 <= r_int a)%Z -> is_open fd (FOpen path fl mode, a) = (r_int a =? fd)%Z.
Proof.
  intros. unfold is_open. cbn [fst snd]. destruct (Z.leb_spec 0 fd); [reflexivity|]. cbn [andb]. symmetry. apply Z.eqb_neq. lia.
Qed.
Lemma opendir_hit : forall path a fd, (0 <= r_int a)%Z -> is_opendir fd (FOpendir path, a) = (r_int a =? fd)%Z.
Proof.
  intros. unfold is_opendir. cbn [fst snd]. destruct (Z.leb_spec 0 fd); [reflexivity|]. cbn [andb]. symmetry. apply Z.eqb_neq. lia.
Qed.

Lemma not_capped : forall A (l : list A), capped 0 l = false -> (Datatypes.length l < 64)%nat.
Proof.
  intros A l H. destruct (Nat.lt_ge_cases (Datatypes.length l) 64) as [|L]; [assumption|].
  assert (capped 0 l = true) by (apply capped_eq; cbn; lia). congruence.
Qed.

Lemma eff_counts : forall E s ty id data out s' l h, counts h s -> eff E s ty id data out s' l ->
  counts (mkHev ty id data out l :: h) s'.
Proof.
  intros E s ty id data out s' l h (C1 & C2 & C3 & C4) F. unfold counts. rewrite calls_cons. cbn [q_calls].
  assert (T : forall f, times f (calls h ++ l) = (times f (calls h) + times f l)%nat) by (intros; apply times_app).
  destruct F as [F D N Q O _ _ | dir fl mode st a Hty -> Ha Cp F D N O | dir fl mode st a y Hty -> Ha F D N O
    | dir a Hty -> Ha Cp F D N O | dir a y Hty -> Ha F D N O | hb b x e a Hty Sb Ed L8 Fd Ff -> F D N O | hb b x e a Hty Sb Ed L8 Fd -> F D N O].
  - rewrite F. destruct (key_dirs _ _ D) as (_ & _ & _ & ->). split; [assumption|]. split; [assumption|]. split; intros fd; rewrite !T.
    + destruct (quiet_none s l fd Q) as (-> & -> & _). rewrite C3. lia.
    + destruct (quiet_none s l fd Q) as (_ & _ & -> & ->). rewrite C4. rewrite (dcount_key _ _ _ D). lia.
  - rewrite F, D. cbn [Datatypes.length]. apply not_capped in Cp. split; [lia|]. split; [assumption|].
    split; intros fd; rewrite !T, !times_cons, !times_nil.
    + rewrite (open_hit dir fl mode a fd Ha). rewrite fcount_cons. cbn [f_fd is_open is_close fst]. rewrite C3. destruct (_ =? fd)%Z; lia.
    + cbn [is_opendir is_closedir fst]. rewrite C4. lia.
  - rewrite F, D. split; [assumption|]. split; [assumption|]. split; intros fd; rewrite !T, !times_cons, !times_nil.
    + rewrite (open_hit dir fl mode a fd Ha). cbn [is_open is_close fst]. rewrite C3. destruct (_ =? fd)%Z; lia.
    + cbn [is_opendir is_closedir fst]. rewrite C4. lia.
  - rewrite F, D. cbn [Datatypes.length]. apply not_capped in Cp. split; [assumption|]. split; [lia|].
    split; intros fd; rewrite !T, !times_cons, !times_nil.
    + cbn [is_open is_close fst]. rewrite C3. lia.
    + rewrite (opendir_hit dir a fd Ha). rewrite dcount_cons. cbn [d_dir is_opendir is_closedir fst]. rewrite C4. destruct (_ =? fd)%Z; lia.
  - rewrite F, D. split; [assumption|]. split; [assumption|]. split; intros fd; rewrite !T, !times_cons, !times_nil.
    + cbn [is_open is_close fst]. rewrite C3. lia.
    + rewrite (opendir_hit dir a fd Ha). cbn [is_opendir is_closedir fst]. rewrite C4. destruct (_ =? fd)%Z; lia.
  - destruct (find_split _ _ _ Ff) as (u & v & E1 & R & _). rewrite F, D, R. rewrite E1 in C1, C3.
    rewrite app_length in *. cbn [Datatypes.length] in C1. split; [lia|]. split; [assumption|].
    split; intros fd; rewrite !T, !times_cons, !times_nil.
    + specialize (C3 fd). rewrite fcount_app, fcount_cons in C3. rewrite fcount_app.
      cbn [is_open is_close fst]. rewrite C3. destruct (_ =? fd)%Z; lia.
    + cbn [is_opendir is_closedir fst]. rewrite C4. lia.
  - destruct (findd_split _ _ _ Fd) as (u & v & E1 & R & _). rewrite F, D, R. rewrite E1 in C2, C4.
    rewrite app_length in *. cbn [Datatypes.length] in C2. split; [assumption|]. split; [lia|].
    split; intros fd; rewrite !T, !times_cons, !times_nil.
    + cbn [is_open is_close fst]. rewrite C3. lia.
    + specialize (C4 fd). rewrite dcount_app, dcount_cons in C4. rewrite dcount_app.
      cbn [is_opendir is_closedir fst]. rewrite C4. destruct (_ =? fd)%Z; lia.
Qed.

Lemma hst_counts : forall E p h s, hst E p h s -> counts h s.
Proof.
  intros E p h s H. induction H as [|h s ty id data r out s' l H0 H IH Hb Hl Hi Hp D F L A].
  - split; [cbn; lia|]. split; [cbn; lia|]. split; reflexivity.
  - eapply eff_counts; eassumption.
Qed.

(* ---- descriptors are used only while they are open ------------------------------- *)

Definition fine (a b : list (fscall * ans)) : Prop :=
  forall pre x post, b = pre ++ x :: post ->
   (forall fd, on_fd (fst x) fd -> (times (is_close fd) (a ++ pre) < times (is_open fd) (a ++ pre))%nat) /\
   (forall d, on_dir (fst x) d -> (times (is_closedir d) (a ++ pre) < times (is_opendir d) (a ++ pre))%nat).

Lemma fine_nil : forall a, fine a [].
Proof. intros a pre x post H. destruct pre; discriminate. Qed.
Lemma fine_cons : forall a x b,
  (forall fd, on_fd (fst x) fd -> (times (is_close fd) a < times (is_open fd) a)%nat) ->
  (forall d, on_dir (fst x) d -> (times (is_closedir d) a < times (is_opendir d) a)%nat) ->
  fine (a ++ [x]) b -> fine a (x :: b).
Proof.
  intros a x b H1 H2 H3 pre y post E. destruct pre as [|z pre]; cbn [app] in E.
  - assert (x = y) by congruence. subst y. rewrite app_nil_r. split; assumption.
  - assert (x = z /\ b = pre ++ y :: post) as (<- & E') by (split; congruence).
    destruct (H3 _ _ _ E') as (A & B). rewrite <- app_assoc in A, B. split; assumption.
Qed.
Lemma fine_app : forall b a c, fine a b -> fine (a ++ b) c -> fine a (b ++ c).
Proof.
  induction b as [|x b IH]; intros a c H1 H2; cbn [app].
  - rewrite app_nil_r in H2. assumption.
  - apply fine_cons.
    + intros fd Hf. destruct (H1 [] x b eq_refl) as (A & _). rewrite app_nil_r in A. apply A. assumption.
    + intros fd Hf. destruct (H1 [] x b eq_refl) as (_ & A). rewrite app_nil_r in A. apply A. assumption.
    + apply IH.
      * intros pre y post E. destruct (H1 (x :: pre) y post) as (A & B); [cbn; congruence|].
        rewrite <- app_assoc. cbn [app]. split; assumption.
      * rewrite <- app_assoc. exact H2.
Qed.

Lemma quiet_fine : forall s l a,
  (forall fd, In fd (map f_fd (s_files s)) -> (times (is_close fd) a < times (is_open fd) a)%nat) ->
  (forall d, In d (map d_dir (s_dirs s)) -> (times (is_closedir d) a < times (is_opendir d) a)%nat) ->
  Forall (quiet s) l -> fine a l.
Proof.
  intros s l a H1 H2 Q pre x post E. rewrite E in Q. apply Forall_app in Q. destruct Q as (Q1 & Q2).
  inversion Q2 as [|? ? Qx _]; subst. destruct x as (c, y). cbn [fst]. unfold quiet in Qx. cbn [fst snd] in Qx.
  split; intros fd Hf; rewrite !times_app; destruct (quiet_none s pre fd Q1) as (T1 & T2 & T3 & T4); rewrite ?T1, ?T2, ?T3, ?T4, !Nat.add_0_r.
  - apply H1. destruct c; cbn [on_fd] in Hf; try contradiction; subst; assumption.
  - apply H2. destruct c; cbn [on_dir] in Hf; try contradiction; subst; assumption.
Qed.

Lemma eff_fine : forall E s ty id data out s' l h, counts h s -> eff E s ty id data out s' l -> fine (calls h) l.
Proof.
  intros E s ty id data out s' l h (C1 & C2 & C3 & C4) F.
  assert (K1 : forall fd, In fd (map f_fd (s_files s)) -> (times (is_close fd) (calls h) < times (is_open fd) (calls h))%nat).
  { intros fd Hf. rewrite C3. apply fcount_in in Hf. lia. }
  assert (K2 : forall fd, In fd (map d_dir (s_dirs s)) -> (times (is_closedir fd) (calls h) < times (is_opendir fd) (calls h))%nat).
  { intros fd Hf. rewrite C4. apply dcount_in in Hf. lia. }
  assert (O : forall (a : ans), (r_int a =? r_int a)%Z = true) by (intros; apply Z.eqb_refl).
  destruct F as [F D N Q _ _ _ | dir fl mode st a Hty -> Ha Cp F D N Ou | dir fl mode st a y Hty -> Ha F D N Ou
    | dir a Hty -> Ha Cp F D N Ou | dir a y Hty -> Ha F D N Ou | hb b x e a Hty Sb Ed L8 Fd Ff -> F D N Ou | hb b x e a Hty Sb Ed L8 Fd -> F D N Ou].
  - eapply quiet_fine; eassumption.
  - apply fine_cons; [intros ? []|intros ? []|]. apply fine_cons; [intros ? []|intros ? []|]. apply fine_nil.
  - apply fine_cons; [intros ? []|intros ? []|]. apply fine_cons; [intros ? []|intros ? []|]. apply fine_cons; [|intros ? []|apply fine_nil].
    cbn [fst on_fd]. intros fd <-. rewrite !times_app, !times_cons, !times_nil.
    rewrite (open_hit dir fl mode a (r_int a) Ha), O. cbn [is_open is_close fst]. rewrite C3. lia.
  - apply fine_cons; [intros ? []|intros ? []|apply fine_nil].
  - apply fine_cons; [intros ? []|intros ? []|]. apply fine_cons; [intros ? []| |apply fine_nil].
    cbn [fst on_dir]. intros fd <-. rewrite !times_app, !times_cons, !times_nil.
    rewrite (opendir_hit dir a (r_int a) Ha), O. cbn [is_opendir is_closedir fst]. rewrite C4. lia.
  - apply fine_cons; [|intros ? []|apply fine_nil]. cbn [fst on_fd]. intros fd <-. apply K1. apply in_map. apply find_in in Ff. tauto.
  - apply fine_cons; [intros ? []| |apply fine_nil]. cbn [fst on_dir]. intros fd <-. apply K2. apply in_map. apply findd_in in Fd. tauto.
Qed.

Lemma hst_fine : forall E p h s, hst E p h s -> fine [] (calls h).
Proof.
  intros E p h s H. induction H as [|h s ty id data r out s' l H0 H IH Hb Hl Hi Hp D F L A].
  - apply fine_nil.
  - rewrite calls_cons. apply fine_app; [assumption|]. cbn [app q_calls]. eapply eff_fine; [|exact F]. eapply hst_counts. exact H.
Qed.
