(* SftpProofs10.v - proofs about the SFTP server: listing directories, and the
   paths of all calls of a session. *)
From Verif Require Import Base WireModel WireSpec WireProofs PathModel PathSpec PathProofs NegoSpec ReqSpec ReqProofs ReqProofs3.
From Verif Require Import SftpModel SftpProofs SftpSpec SftpProofs2 SftpProofs3 SftpProofs4 SftpProofs5 SftpProofs6 SftpProofs7 SftpProofs8 SftpProofs9.
From Coq Require Import List NArith ZArith Bool Lia String.
Import ListNotations.
Open Scope N_scope.

(* ---- paths ------------------------------------------------------------------ *)

Lemma walk1_len : forall cs n, entry_name n -> lenN (path_of (walk1 cs n)) <= lenN (path_of cs) + 1 + lenN n.
Proof.
  intros cs n [P|[-> | ->] ].
  - rewrite walk1_down by assumption. rewrite (path_of_fm (cs ++ [n])) by (destruct cs; discriminate).
    rewrite flat_map_app. cbn [flat_map]. rewrite app_nil_r, lenN_app, lenN_cons. destruct cs as [|c cs]; [cbn [flat_map path_of]; rewrite lenN_cons; change (lenN (@nil N)) with 0; lia|].
    rewrite path_of_fm by discriminate. lia.
  - change (walk1 cs dot) with cs. lia.
  - change (walk1 cs dotdot) with (removelast cs). destruct cs as [|c cs _] using rev_ind; [cbn [removelast]; lia|]. rewrite removelast_last.
    pose proof (path_len_mono cs [c]). lia.
Qed.

Lemma walk_prefix : forall cs k, Forall plain cs -> exists a b, cs = a ++ b /\ walk [] (firstn k (pieces (path_of cs))) = a.
Proof.
  intros cs k P. destruct cs as [|c cs].
  - exists [], []. split; [reflexivity|]. do 3 (destruct k as [|k]; [reflexivity|]). reflexivity.
  - rewrite path_of_fm by discriminate. rewrite pieces_fm by assumption. destruct k as [|k].
    + exists [], (c :: cs). split; reflexivity.
    + exists (firstn k (c :: cs)), (skipn k (c :: cs)). split; [symmetry; apply firstn_skipn|].
      change (firstn (S k) ([] :: c :: cs)) with ([] :: firstn k (c :: cs)).
      change (walk [] ([] :: firstn k (c :: cs))) with (walk [] (firstn k (c :: cs))).
      rewrite walk_plain; [reflexivity|]. rewrite <- (firstn_skipn k (c :: cs)) in P. apply Forall_app in P. apply P.
Qed.

Lemma readdir_complete : forall p cs n, paths_ok p -> Forall plain cs -> entry_name n -> lenN (path_of cs) + 1 + lenN n < 256 ->
  readdir_path p (path_of cs) n = Some (path_of (walk1 cs n)).
Proof.
  intros p cs n Hp Hc Hn L. unfold readdir_path. set (r := path_of cs ++ [SLASH] ++ n).
  assert (Lr : lenN r = lenN (path_of cs) + 1 + lenN n) by (unfold r; rewrite !lenN_app; change (lenN [SLASH]) with 1; lia).
  destruct (N.leb_spec MAX_FILENAME (lenN r)) as [K|_]; [unfold MAX_FILENAME in K; lia|].
  destruct (stored_default p Hp) as (from & Hd). destruct m256 as (M1 & M2).
  assert (A : absolute r) by (destruct (absolute_path cs) as (t & T); unfold r; rewrite T; eexists; reflexivity).
  assert (R32 : is32 (lenN r)) by (unfold is32, W32; lia).
  destruct (RealPath_ok _ from r MAX_FILENAME [] Hd R32 M1 M2 ltac:(left; split; [assumption|reflexivity])) as (ret & out & G & K).
  rewrite G.
  assert (Pr : pieces r = pieces (path_of cs) ++ [n]).
  { unfold r. cbn [app]. unfold SLASH. rewrite pieces_join, (pieces_one n) by (apply entry_noslash; assumption). reflexivity. }
  assert (F : fits MAX_FILENAME [] (pieces r)).
  { intros k. rewrite Pr. destruct (Nat.le_gt_cases k (Datatypes.length (pieces (path_of cs)))) as [Lk|Lk].
    - rewrite firstn_app. replace (k - _)%nat with 0%nat by lia. cbn [firstn]. rewrite app_nil_r.
      destruct (walk_prefix cs k Hc) as (a & b & E & ->). pose proof (path_len_mono a b) as PL. rewrite <- E in PL. unfold MAX_FILENAME. lia.
    - rewrite firstn_all2 by (rewrite app_length; cbn; lia). rewrite walk_app, walk_pieces_path by assumption.
      change (walk ([] ++ cs) [n]) with (walk1 cs n). pose proof (walk1_len cs n Hn). unfold MAX_FILENAME. lia. }
  destruct K as [(-> & _ & -> & _)|(_ & K)]; [|contradiction].
  change (rc_eqb WS_SUCCESS WS_SUCCESS) with true. cbv iota. rewrite Pr, walk_app, walk_pieces_path by assumption. reflexivity.
Qed.

Lemma pieces_noslash : forall s, Forall (fun c => ~ In 47 c) (pieces s).
Proof.
  induction s as [|c s IH]; cbn [pieces]; [repeat constructor; intros []|].
  pose proof (pieces_ne s). destruct (pieces s) as [|p ps]; [contradiction|].
  inversion IH as [|? ? H1 H2]; subst. destruct (N.eq_dec c 47) as [K|K]; [repeat constructor; try assumption; intros []|].
    constructor; [|assumption]. intros [Q|Q]; [congruence|contradiction].
Qed.
Lemma walk_plains : forall l st, Forall plain st -> Forall (fun c => ~ In 47 c) l -> Forall plain (walk st l).
Proof.
  induction l as [|c l IH]; intros st P H; [assumption|]. inversion H as [|? ? H1 H2]; subst.
  change (walk st (c :: l)) with (walk (walk1 st c) l). apply IH; [|assumption].
  destruct (list_eq_dec N.eq_dec c []) as [->|K]; [exact P|]. apply walk1_plain; [assumption|]. split; assumption.
Qed.
Lemma start_plain : forall d from t st, default_is d from -> start from t st -> Forall plain st.
Proof. intros d from t st (P & _) [(_ & ->)|(_ & ->)]; [constructor|assumption]. Qed.

Lemma clean_place : forall E path s dir, paths_ok (s_paths s) -> clean_t E path s = (WS_SUCCESS, dir) ->
  exists cs, Forall plain cs /\ dir = path_of cs /\ allowed (lnk E (s_log s)) (s_paths s) cs.
Proof.
  intros E path s dir Hp C. destruct (stored_default _ Hp) as (from & Hd). destruct (start_total from (cstr path)) as (st & Hst).
  set (cs := walk st (pieces (cstr path))).
  assert (M : means (s_paths s) path cs) by (exists from, (cstr path), st; split; [assumption|]; split; [apply cstr_text|]; split; [assumption|reflexivity]).
  destruct (clean_res E path s _ _ cs Hp C M) as [(_ & -> & Sh & Al)|[(K & _)|(K & _)] ]; [|discriminate|congruence].
  exists cs. split; [|split; [reflexivity|assumption]]. apply walk_plains; [|apply pieces_noslash]. eapply start_plain; eassumption.
Qed.

(* ---- the tables ---------------------------------------------------------------- *)

Lemma hst_confine : forall E p h s, hst E p h s -> sp_confine (s_paths s) = sp_confine p.
Proof.
  intros E p h s H. induction H as [|h s ty id data r out s' l H0 H IH Hb Hl Hi Hp D F L A]; [reflexivity|].
  destruct (N.eq_dec ty 16) as [->|T].
  - change (dispatch_t E 16 id data s) with (RecvRealPathMsg_t E id data s) in D. apply realpath_paths in D. destruct D as (_ & [->|(cw & d & ->)]); [assumption|].
    destruct (RecvRealPath_inv cw d (s_paths s) Hp) as (_ & ->). assumption.
  - destruct (safe_dispatch E id data s r out s' (fun _ => True) (fun _ => True)) with (ty := ty) as (_ & ->); auto.
Qed.

(* the directories that are open were named by requests *)
Definition placed (p : paths) (e : dent) : Prop :=
  exists cs, Forall plain cs /\ d_name e = path_of cs /\
    forall root, Forall plain root -> sp_confine p = Some (path_of root) -> inside root cs.

Lemma opendir_place : forall E id data s r out s' dir a, paths_ok (s_paths s) -> RecvOpenDir_t E id data s = (r, out, s') ->
  forall (l : list (fscall * ans)), s_log s' = rev (map fst l) ++ s_log s -> In (FOpendir dir, a) l ->
  exists cs, Forall plain cs /\ dir = path_of cs /\ forall root, Forall plain root -> sp_confine (s_paths s) = Some (path_of root) -> inside root cs.
Proof.
  intros E id data s r out s' dir a Hp D l L K.
  destruct (safe_dispatch E id data s r out s'
    (fun x => exists cs, Forall plain cs /\ x = path_of cs /\ forall root, Forall plain root -> sp_confine (s_paths s) = Some (path_of root) -> inside root cs)
    (fun y => match fst y with FOpendir x => exists cs, Forall plain cs /\ x = path_of cs /\ forall root, Forall plain root -> sp_confine (s_paths s) = Some (path_of root) -> inside root cs | _ => True end))
    with (ty := 11) as ((new & L2 & G) & _).
  - intros path d C. destruct (clean_place _ _ _ _ Hp C) as (cs & P & -> & Al). exists cs. split; [assumption|]. split; [reflexivity|].
    intros root Pr Hr. apply Al; assumption.
  - intros c y H. cbn [fst]. destruct c; try exact Logic.I. cbn [names] in H. inversion H; subst. assumption.
  - discriminate.
  - discriminate.
  - exact D.
  - rewrite L in L2. apply app_inv_tail in L2. apply (f_equal (@rev fscall)) in L2. rewrite !rev_involutive in L2. subst new.
    assert (Kc : In (FOpendir dir) (map fst l)) by (change (FOpendir dir) with (fst (FOpendir dir, a)); apply in_map; assumption).
    rewrite <- (answered_fst E (map fst l) (s_log s)) in Kc. apply in_map_iff in Kc. destruct Kc as ((c, y) & Q & Kc). cbn [fst] in Q. subst c.
    rewrite Forall_forall in G. exact (G _ Kc).
Qed.

Lemma hst_placed : forall E p h s, hst E p h s -> Forall (placed p) (s_dirs s).
Proof.
  intros E p h s H. pose proof (hst_confine _ _ _ _ H) as HC.
  induction H as [|h s ty id data r out s' l H0 H IH Hb Hl Hi Hp D F L A]; [constructor|].
  pose proof (hst_confine _ _ _ _ H) as HC0. specialize (IH HC0).
  assert (KK : forall e e', dkey e' = dkey e -> placed p e -> placed p e').
  { intros e e' Q (cs & P & N & R). exists cs. split; [assumption|]. split; [|assumption]. unfold dkey in Q. congruence. }
  destruct F as [F Dk N Q O Cl _ | dir fl mode st a Hty El Ha Cp F Dk N O | dir fl mode st a y Hty El Ha F Dk N O
    | dir a Hty El Ha Cp F Dk N O | dir a y Hty El Ha F Dk N O | hb b x e a Hty Sb Ed L8 Fd Ff El F Dk N O | hb b x e a Hty Sb Ed L8 Fd El F Dk N O];
    try (rewrite Dk; assumption).
  - rewrite Forall_forall in *. intros e' He'. assert (Kd : In (dkey e') (map dkey (s_dirs s))) by (rewrite <- Dk; apply in_map; assumption).
    apply in_map_iff in Kd. destruct Kd as (e & Qk & He). eapply KK; [symmetry; exact Qk|apply IH; assumption].
  - rewrite Dk. constructor; [|assumption]. unfold placed. cbn [d_name]. subst ty.
    change (dispatch_t E 11 id data s) with (RecvOpenDir_t E id data s) in D.
    destruct (opendir_place _ _ _ _ _ _ _ dir a Hp D l L) as (cs & P & Q & R); [subst l; left; reflexivity|].
    exists cs. split; [assumption|]. split; [assumption|]. intros root Pr Hr. apply R; [assumption|congruence].
  - rewrite Dk. rewrite Forall_forall in *. intros e' He'. apply IH. destruct (findd_split _ _ _ Fd) as (u & v & Eq & R & _). rewrite R in He'. rewrite Eq.
    apply in_app_or in He'. apply in_or_app. destruct He'; [left|right; right]; assumption.
Qed.

(* ---- the names listed ------------------------------------------------------------ *)

Definition made (E : senv) (p : paths) (dn : bytes) (e : nent) (x : fscall * ans) : Prop :=
  match e with (n, t, a) =>
    (exists q, readdir_path p dn n = Some q /\ fst x = FStat q true) /\
    a = (if (r_int (snd x) =? 0)%Z then r_attr (snd x) else no_attrs) /\ longname E n a = Some t
  end.

Lemma loop_spec : forall E dn ns acc s l s', readdir_loop E dn ns acc s = (l, s') ->
  exists es left new extra, l = rev es ++ acc /\ ns = map entry_key es ++ left /\
    s_log s' = rev (new ++ extra) ++ s_log s /\ Forall2 (made E (s_paths s) dn) es (answered E (s_log s) new) /\
    s_dirs s' = s_dirs s /\
    (roomy_dir E -> (forall n, In n ns -> readdir_path (s_paths s) dn n <> None) -> left = [] /\ extra = []).
Proof.
  induction ns as [|n ns IH]; intros acc s l s' H; cbn [readdir_loop] in H.
  - exists [], [], [], []. apply pair_equal_spec in H. destruct H as (<- & <-). repeat split; constructor.
  - assert (N0 : forall left, (acc, s) = (l, s') -> n :: ns = left -> (roomy_dir E -> (forall n0, In n0 (n :: ns) -> readdir_path (s_paths s) dn n0 <> None) -> False) ->
       exists es left new extra, l = rev es ++ acc /\ n :: ns = map entry_key es ++ left /\
       s_log s' = rev (new ++ extra) ++ s_log s /\ Forall2 (made E (s_paths s) dn) es (answered E (s_log s) new) /\ s_dirs s' = s_dirs s /\
       (roomy_dir E -> (forall n0, In n0 (n :: ns) -> readdir_path (s_paths s) dn n0 <> None) -> left = [] /\ extra = [])).
    { intros left Q Ql No. apply pair_equal_spec in Q. destruct Q as (<- & <-). exists [], left, [], []. repeat (split; [first [reflexivity|assumption|constructor]|]).
      intros R K. exfalso. exact (No R K). }
    destruct (negb (mem E (s_log s) 5)) eqn:Me; [eapply N0; [exact H|reflexivity|]; intros (R & _) _; rewrite R in Me; discriminate|].
    destruct (readdir_path (s_paths s) dn n) as [q|] eqn:Rp.
    2: { eapply N0; [exact H|reflexivity|]. intros _ K. apply (K n); [left; reflexivity|assumption]. }
    clear N0. cbv zeta in H. set (s1 := ask (FStat q true) s) in *. set (a := fs E (s_log s1)) in *.
    set (atr := if (r_int a =? 0)%Z then r_attr a else no_attrs) in *.
    destruct (longname E n atr) as [t|] eqn:Ln.
    + destruct (IH _ _ _ _ H) as (es & left & new & extra & Q1 & Q2 & Q3 & Q4 & Q5 & Q6).
      exists ((n, t, atr) :: es), left, (FStat q true :: new), extra. split; [rewrite Q1; cbn [rev]; rewrite <- app_assoc; reflexivity|].
      split; [rewrite Q2; reflexivity|]. split; [rewrite Q3; cbn [app rev]; rewrite <- app_assoc; reflexivity|]. split.
      * cbn [answered]. constructor; [|exact Q4]. unfold made. split; [exists q; split; [assumption|reflexivity]|]. split; [reflexivity|assumption].
      * split; [rewrite Q5; reflexivity|]. intros R K. apply Q6; [assumption|]. intros n' Hn. apply (K n'). right. assumption.
    + apply pair_equal_spec in H. destruct H as (<- & <-). exists [], (n :: ns), [], [FStat q true]. repeat (split; [first [reflexivity|constructor]|]).
      intros (_ & R) _. exfalso. exact (R n atr Ln).
Qed.
