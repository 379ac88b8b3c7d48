(* ScpTreeProofs.v - the default send callback over a fixed file tree (C63). *)
From Verif Require Import Base WireProofs PathModel PathSpec PathProofs ScpModel ScpSpec ScpSpec2 ScpSrcModel ScpSrcSpec ScpSrcProofs ScpSrcProofs2 ScpSrcProofs3 ScpTreeSpec.
From Coq Require Import List NArith ZArith Bool Lia.
Import ListNotations.
Open Scope N_scope.

Lemma dropN_len_app : forall (a b : bytes), dropN (lenN a) (a ++ b) = b.
Proof. intros a b. unfold dropN, lenN. rewrite Nat2N.id, skipn_app, skipn_all, Nat.sub_diag. reflexivity. Qed.
Lemma lenN_nil_inv : forall (l : bytes), lenN l = 0 -> l = [].
Proof. intros [|x l] H; [reflexivity|]. rewrite lenN_cons in H. lia. Qed.

(* ------------------------------------------------------------------ *)
(* trees *)
Lemma look_snoc : forall cs T n, look T (cs ++ [n]) =
  match look T cs with Some (Dir _ _ _ es) => entry n es | _ => None end.
Proof.
  induction cs as [|c cs IH]; intros T n; cbn [look app].
  - destruct T; [reflexivity|]. destruct (entry n entries); reflexivity.
  - destruct T; [reflexivity|]. destruct (entry c entries); [apply IH|reflexivity].
Qed.
Lemma entry_in : forall seen n t rs, NoDup (map fst (seen ++ (n, t) :: rs)) -> entry n (seen ++ (n, t) :: rs) = Some t.
Proof.
  induction seen as [|[m u] seen IH]; intros n t rs N; cbn [app entry].
  - destruct (list_eq_dec N.eq_dec n n); congruence.
  - cbn [app map] in N. inversion N as [|x y N1 N2]; subst. destruct (list_eq_dec N.eq_dec m n) as [->|Q]; [|apply IH; exact N2].
    exfalso. apply N1. rewrite map_app. apply in_or_app. right. left. reflexivity.
Qed.
Lemma below_snoc : forall base cs n, below base (cs ++ [n]) = below base cs ++ [47] ++ n.
Proof. intros. unfold below. rewrite flat_map_app. cbn [flat_map]. rewrite app_nil_r, <- app_assoc. reflexivity. Qed.

(* names read from a directory *)
Lemma dots_not_dots : forall n, is_dots n = negb (not_dots n).
Proof.
  intros n. unfold is_dots, not_dots, dot, dotdot, DOT.
  destruct n as [|a [|b [|c t]]].
  - reflexivity.
  - destruct (list_eq_dec N.eq_dec [a] [46]) as [E|E].
    + injection E as ->. reflexivity.
    + destruct (list_eq_dec N.eq_dec [a] [46; 46]); [discriminate|]. apply N.eqb_neq. congruence.
  - destruct (list_eq_dec N.eq_dec [a; b] [46]); [discriminate|]. destruct (list_eq_dec N.eq_dec [a; b] [46; 46]) as [E|E].
    + injection E as -> ->. reflexivity.
    + cbn [negb]. destruct (N.eqb_spec a 46) as [->|]; [|reflexivity]. destruct (N.eqb_spec b 46) as [->|]; [congruence|reflexivity].
  - destruct (list_eq_dec N.eq_dec _ [46]); [discriminate|]. destruct (list_eq_dec N.eq_dec _ [46; 46]); [discriminate|reflexivity].
Qed.
Lemma next_none : forall l, filter not_dots l = [] -> fst (next_name l) = None.
Proof.
  induction l as [|n l IH]; intros F; [reflexivity|]. cbn [next_name filter] in *. rewrite dots_not_dots.
  destruct (not_dots n); [discriminate F|]. apply IH. exact F.
Qed.
Lemma next_some : forall l n ns, filter not_dots l = n :: ns -> exists l', next_name l = (Some n, l') /\ filter not_dots l' = ns.
Proof.
  induction l as [|x l IH]; intros n ns F; [discriminate F|]. cbn [next_name filter] in *. rewrite dots_not_dots.
  destruct (not_dots x); [|apply IH; exact F]. injection F as -> F. exists l. auto.
Qed.

(* the last separator *)
Lemma last_sep_none : forall l i r, (forall c, In c l -> is_sep c = false) -> last_sep l i r = r.
Proof.
  induction l as [|c l IH]; intros i r F; [reflexivity|]. cbn [last_sep]. rewrite (F c (or_introl eq_refl)). apply IH. intros x H. apply F. right. exact H.
Qed.
Lemma last_sep_slash : forall p n i r, (forall c, In c n -> is_sep c = false) -> last_sep (p ++ [47] ++ n) i r = Some (i + lenN p).
Proof.
  induction p as [|c p IH]; intros n i r F.
  - cbn [app last_sep]. change (is_sep 47) with true. cbv iota. rewrite last_sep_none by exact F. change (lenN (@nil N)) with 0. f_equal. lia.
  - change ((c :: p) ++ [47] ++ n) with (c :: (p ++ [47] ++ n)). cbn [last_sep]. rewrite IH by exact F. rewrite lenN_cons. f_equal. lia.
Qed.
Lemma no_sep : forall n, ~ In 47 n -> ~ In 92 n -> forall c, In c n -> is_sep c = false.
Proof.
  intros n A B c H. unfold is_sep, SLASH, BSLASH. destruct (N.eqb_spec c 47) as [->|]; [contradiction|]. destruct (N.eqb_spec c 92) as [->|]; [contradiction|]. reflexivity.
Qed.

(* ------------------------------------------------------------------ *)
(* files offered *)
Definition part_of_file (n : bytes) (f : tree) (ans : list answer) (got more : bytes) : Prop :=
  exists a l d c m mt at_, f = File m mt at_ ((d ++ c) ++ more) /\ got = d ++ c /\ ans = a :: l /\ a_ret a = RData d /\ a_name a = n /\
    a_mtime a = mt /\ a_atime a = at_ /\ a_mode a = N.land m 511 /\ a_size a = lenN ((d ++ c) ++ more) /\ parts (a_size a) c l.

Lemma parts_snoc : forall size c l, parts size c l -> forall a d, a_ret a = RData d -> d <> [] -> a_size a = size -> parts size (c ++ d) (l ++ [a]).
Proof.
  intros size c l P. induction P as [|b e c l R N S P IH]; intros a d Ra Nd Sa; cbn [app].
  - rewrite <- (app_nil_r d). apply parts_cons; auto. constructor.
  - rewrite <- app_assoc. apply parts_cons; auto.
Qed.
Lemma parts_nil_inv : forall size l, parts size [] l -> l = [].
Proof. intros size l P. inversion P; [reflexivity|]. destruct d; [congruence|discriminate]. Qed.

Lemma part_more : forall n f ans got more a d rest, part_of_file n f ans got more -> more = d ++ rest -> d <> [] -> a_ret a = RData d ->
  a_size a = lenN (got ++ more) -> part_of_file n f (ans ++ [a]) (got ++ d) rest.
Proof.
  intros n f ans got more a d rest (b & l & e & c & m & mt & at_ & Ef & Eg & Ea & R & Nm & Mt & At_ & Md & Sz & P) Em Nd Ra Sa. subst.
  exists b, (l ++ [a]), e, (c ++ d), m, (a_mtime b), (a_atime b). rewrite <- !app_assoc in *. cbn [app]. repeat split; auto.
  rewrite Sz in P |- *. apply parts_snoc; auto.
Qed.

Lemma part_whole : forall ts n f ans got its, part_of_file n f ans got [] -> listing ts n f its ->
  offers_all ts its ans.
Proof.
  intros ts n f ans got its (b & l & e & c & m & mt & at_ & Ef & Eg & Ea & R & Nm & Mt & At_ & Md & Sz & P) L. subst. rewrite app_nil_r in *.
  inversion L; subst. rewrite <- (app_nil_r (b :: l)). apply offers_cons; [|constructor]. apply offers_file; auto.
  - intros ->. eapply parts_nil_inv. exact P.
  - rewrite Sz. assumption.
  - rewrite Md, <- N.land_assoc, N.land_diag. assumption.
  - rewrite Sz. assumption.
Qed.

Lemma parts_told_part : forall ts size c l, parts size c l -> size < W32 -> forall s, y_file s = true -> y_off s + lenN c < size ->
  let s' := fold_left (tell ts) l s in y_file s' = true /\ y_off s' = y_off s + lenN c.
Proof.
  intros ts size c l P Lt. induction P as [|a d c l R Nd Sz P IH]; intros s F O; cbv zeta.
  - cbn [fold_left]. change (lenN (@nil N)) with 0. split; [exact F|lia].
  - rewrite lenN_app in *. cbn [fold_left].
    assert (E : tell ts s a = mkStory (y_done s ++ []) (y_now s ++ d) true (y_off s + lenN d) (error_of s a)).
    { unfold tell. rewrite R, F, Sz. rewrite w32_small by (unfold is32; lia). rewrite (proj2 (N.leb_gt _ _)) by lia. reflexivity. }
    rewrite E. destruct (IH (mkStory (y_done s ++ []) (y_now s ++ d) true (y_off s + lenN d) (error_of s a)) eq_refl) as [A B]; [cbn [y_off]; lia|].
    split; [exact A|]. rewrite B. cbn [y_off]. lia.
Qed.
Lemma part_told : forall ts n f ans got more, part_of_file n f ans got more -> more <> [] ->
  (match f with File _ _ _ c => lenN c < 4294967296 | _ => True end) -> forall s, fresh s ->
  let s' := fold_left (tell ts) ans s in y_file s' = true /\ y_off s' = lenN got.
Proof.
  intros ts n f ans got more (b & l & e & c & m & mt & at_ & Ef & Eg & Ea & R & Nm & Mt & At_ & Md & Sz & P) Nm' Lt s (F1 & F2 & F3). subst. cbv zeta.
  destruct more as [|m0 mt0]; [congruence|]. rewrite !lenN_app, lenN_cons in *. cbn [fold_left].
  unfold tell at 2 4. rewrite R, F2, F3, N.add_0_l, Sz. rewrite w32_small by (unfold is32, W32; lia). rewrite (proj2 (N.leb_gt _ _)) by lia.
  match goal with |- context [fold_left _ l ?x] => destruct (parts_told_part ts _ c l P ltac:(unfold W32; lia) x eq_refl) as [A B] end; [cbn [y_off]; lia|].
  split; [exact A|]. rewrite B. reflexivity.
Qed.

(* every listing can be offered *)
Scheme listing_rect2 := Induction for listing Sort Prop with listings_rect2 := Induction for listings Sort Prop.
Definition offerable (ts : bool) (i : item) : Prop := exists a, offers ts i a.
Lemma listing_offerable : forall ts n t its, listing ts n t its -> Forall (offerable ts) its.
Proof.
  intros ts. apply (listing_rect2 ts (fun n t its _ => Forall (offerable ts) its) (fun es its _ => Forall (offerable ts) its)).
  - intros n m mt at_ c t o ds L O D T. constructor; [|constructor].
    exists [mkAns (RData c) n mt at_ m (lenN c) None]. rewrite <- (app_nil_r c) at 1.
    apply (offers_file ts t o ds (mkAns (RData c) n mt at_ m (lenN c) None) c [] []); auto; [constructor|]. rewrite app_nil_r. reflexivity.
  - intros n m mt at_ es o l O Ls F. constructor.
    + exists [mkAns REnter n mt at_ m 0 None]. apply (offers_dir ts o (mkAns REnter n mt at_ m 0 None)); [reflexivity|exact O].
    + apply Forall_app. split; [exact F|]. constructor; [|constructor]. exists [mkAns RExit [] 0 0 0 0 None]. constructor. left. reflexivity.
  - constructor.
  - intros n t es a b L Fa Ls Fb. apply Forall_app. auto.
Qed.
Lemma offerable_all : forall ts l, Forall (offerable ts) l -> exists a, offers_all ts l a.
Proof.
  intros ts l F. induction F as [|i l (a & A) F (b & B)]; [exists []; constructor|]. exists (a ++ b). constructor; assumption.
Qed.
Lemma offers_all_app : forall ts a x, offers_all ts a x -> forall b y, offers_all ts b y -> offers_all ts (a ++ b) (x ++ y).
Proof. intros ts a x O. induction O as [|i l p q Oi O IH]; intros b y B; [exact B|]. cbn [app]. rewrite <- app_assoc. constructor; auto. Qed.

(* ------------------------------------------------------------------ *)
(* the stack of directories, and what is still to be sent *)
Section Tree.
Context (E : csys) (base : bytes) (T : tree) (ts : bool) (its : list item).
Context (HT : has_tree E base T) (LW : named_well T) (LB : no_backslash T) (ST : short base T) (HB : base <> []).
Context (n0 : bytes) (LN : last_name base n0).

Inductive Stack : list bytes -> list (Z * list bytes) -> list item -> Prop :=
| st_none cs : Stack cs [] []
| st_top cs h names m mt at_ seen rs l up rem :
    look T cs = Some (Dir m mt at_ (seen ++ rs)) -> filter not_dots names = map fst rs -> listings ts rs l ->
    (up = [] /\ rem = [] \/ up <> [] /\ exists cs' n, cs = cs' ++ [n] /\ Stack cs' up rem) ->
    Stack cs ((h, names) :: up) (l ++ IEnd :: rem).

(* reading a part of a file *)
Lemma read_ok : forall cs m mt at_ got more h room (c : sctx), look T cs = Some (File m mt at_ (got ++ more)) ->
  stream (c_log c) h = Some (below base cs, lenN got) -> 0 < room ->
  exists d rest c', read_file E h room c = (d, c') /\ more = d ++ rest /\ (more <> [] -> d <> []) /\
    c_fp c' = c_fp c /\ c_dirs c' = c_dirs c /\ c_dir c' = c_dir c /\ stream (c_log c') h = Some (below base cs, lenN (got ++ d)).
Proof.
  intros cs m mt at_ got more h room c L S R. destruct (HT (c_log c) cs _ L) as (_ & _ & _ & _ & F).
  destruct (F h _ S) as [_ F2]. specialize (F2 room). cbv zeta in F2. destruct F2 as (A & (rest & B) & D).
  rewrite dropN_len_app in B. unfold read_file, sysc. set (r := E (c_log c) (CRead h room)) in *.
  exists (r_data r), rest. eexists. split; [rewrite takeN_all by exact A; reflexivity|]. split; [exact B|]. split.
  - intros Nm. apply D; [exact R|]. rewrite lenN_app. destruct more; [congruence|]. rewrite lenN_cons. lia.
  - cbn [c_fp c_dirs c_dir c_log stream]. rewrite S, Z.eqb_refl, lenN_app. auto.
Qed.

(* where the transfer is: between two things, in a file, at the end *)
Definition Between (ans : list answer) (c : sctx) : Prop :=
  exists dn rem cs, its = dn ++ rem /\ offers_all ts dn ans /\ Stack cs (c_dirs c) rem /\ c_dirs c <> [] /\ c_dir c = below base cs.
Definition InFile (got more : bytes) (ans : list answer) (c : sctx) : Prop :=
  exists dn fi rem ans1 ans2 cs csf n f h,
    its = dn ++ fi ++ rem /\ offers_all ts dn ans1 /\ ans = ans1 ++ ans2 /\ part_of_file n f ans2 got more /\ more <> [] /\ listing ts n f fi /\
    look T csf = Some f /\ c_fp c = Some h /\ stream (c_log c) h = Some (below base csf, lenN got) /\
    Stack cs (c_dirs c) rem /\ (c_dirs c <> [] -> c_dir c = below base cs).
Definition Ended (ans : list answer) (c : sctx) : Prop := offers_all ts its ans /\ c_dirs c = [].
Definition Moved (dirs : list (Z * list bytes)) (ans : list answer) (c : sctx) : Prop :=
  (c_dirs c = dirs /\ exists got more, InFile got more ans c) \/ (dirs <> [] /\ Between ans c) \/ (dirs = [] /\ Ended ans c).

Lemma shut_dirs : forall c, c_dirs (shut_file E c) = c_dirs c /\ c_dir (shut_file E c) = c_dir c.
Proof. intros c. unfold shut_file, sysc. destruct (c_fp c); split; reflexivity. Qed.

(* a whole file has been given, or there is more *)
Lemma given : forall dn fi rem ans1 ans2 cs csf n f h got more c (whole : bool),
  its = dn ++ fi ++ rem -> offers_all ts dn ans1 -> part_of_file n f ans2 got more -> listing ts n f fi -> look T csf = Some f ->
  c_fp c = Some h -> stream (c_log c) h = Some (below base csf, lenN got) -> Stack cs (c_dirs c) rem -> (c_dirs c <> [] -> c_dir c = below base cs) ->
  (whole = true <-> more = []) ->
  Moved (c_dirs c) (ans1 ++ ans2) (if whole then shut_file E c else c).
Proof.
  intros dn fi rem ans1 ans2 cs csf n f h got more c whole Ei O P L Lk Fp Sm Sk Dr W. destruct whole.
  - rewrite (proj1 W eq_refl) in P. pose proof (part_whole ts n f ans2 got fi P L) as O2. destruct (shut_dirs c) as [S1 S2]. right.
    destruct (c_dirs c) as [|x y] eqn:Ed.
    + right. split; [reflexivity|]. split; [|rewrite S1; reflexivity]. inversion Sk; subst. rewrite app_nil_r. apply offers_all_app; assumption.
    + left. split; [discriminate|]. exists (dn ++ fi), rem, cs. rewrite S1, S2, <- app_assoc.
      split; [exact Ei|]. split; [apply offers_all_app; assumption|]. split; [exact Sk|]. split; [discriminate|]. apply Dr. discriminate.
  - left. split; [reflexivity|]. exists got, more, dn, fi, rem, ans1, ans2, cs, csf, n, f, h. assert (more <> []) by (intros Q; apply W in Q; discriminate Q). repeat split; auto.
Qed.

Lemma continue_ok : forall got more ans c q, InFile got more ans c -> q_off q = lenN got -> q_size q = lenN (got ++ more) -> 0 < q_room q ->
  exists a c', continue_file E q c = (a, c') /\ (exists d, a_ret a = RData d) /\ Moved (c_dirs c) (ans ++ [a]) c'.
Proof.
  intros got more ans c q (dn & fi & rem & ans1 & ans2 & cs & csf & n & f & h & Ei & O & Ea & P & Nm & L & Lk & Fp & Sm & Sk & Dr) Of Sz Rm.
  pose proof P as (b & l & e & c0 & m & mt & at_ & Ef & Eg & _). rewrite <- Eg in Ef.
  rewrite Ef in Lk. destruct (read_ok csf m mt at_ got more h (q_room q) c Lk Sm Rm) as (d & rest & c1 & Rd & Em & Nd & F1 & F2 & F3 & F4).
  specialize (Nd Nm). unfold continue_file. rewrite Fp, Rd. destruct d as [|d0 dt]; [congruence|].
  eexists _, _. split; [reflexivity|]. split; [eexists; reflexivity|]. rewrite Ea, <- app_assoc, <- F2.
  eapply given with (got := got ++ d0 :: dt) (more := rest); try eassumption.
  - eapply part_more; eauto.
  - rewrite Ef. exact Lk.
  - congruence.
  - rewrite F2. exact Sk.
  - rewrite F2, F3. exact Dr.
  - assert (Lt : lenN (got ++ more) < 4294967296) by (rewrite Ef in L; inversion L; assumption).
    rewrite Em, app_assoc in Lt, Sz. rewrite Of, Sz. rewrite add32_small by (unfold W32; rewrite !lenN_app in *; lia).
    rewrite N.eqb_eq, !lenN_app. split; [intros Q; apply lenN_nil_inv; lia|intros ->; change (lenN (@nil N)) with 0; lia].
Qed.

(* opening a file and reading its first part *)
Definition opened (c : sctx) (p : bytes) (h : Z) : Prop := c_fp c = Some h /\ stream (c_log c) h = Some (p, 0).

Lemma first_part : forall dn fi rem ans cs csf n m mt at_ content h c q r,
  its = dn ++ fi ++ rem -> offers_all ts dn ans -> listing ts n (File m mt at_ content) fi -> look T csf = Some (File m mt at_ content) ->
  opened c (below base csf) h -> Stack cs (c_dirs c) rem -> (c_dirs c <> [] -> c_dir c = below base cs) -> 0 < q_room q ->
  q_size q = lenN content -> q_name q = n -> q_mtime q = mt -> q_atime q = at_ -> q_mode q = N.land m 511 ->
  read_file E h (q_room q) c = r ->
  exists rest, content = fst r ++ rest /\ (content <> [] -> fst r <> []) /\
  Moved (c_dirs c) (ans ++ [give q (RData (fst r)) None]) (if q_size q =? lenN (fst r) then shut_file E (snd r) else snd r).
Proof.
  intros dn fi rem ans cs csf n m mt at_ content h c q r Ei O L Lk [Fp Sm] Sk Dr Rm Sz Nn Nt Na Nm Er.
  destruct (read_ok csf m mt at_ [] content h (q_room q) c Lk Sm Rm) as (d & rest & c1 & Rd & Em & Nd & F1 & F2 & F3 & F4).
  rewrite Rd in Er. subst r. cbn [fst snd]. exists rest. split; [exact Em|]. split; [exact Nd|]. rewrite <- F2.
  eapply given with (got := [] ++ d) (more := rest); try eassumption.
  - exists (give q (RData d) None), [], d, [], m, mt, at_. cbn [app]. rewrite app_nil_r, <- Em. repeat split; auto. constructor.
  - congruence.
  - rewrite F2. exact Sk.
  - rewrite F2, F3. exact Dr.
  - rewrite N.eqb_eq, Sz, Em, lenN_app. split; [intros Q; apply lenN_nil_inv; lia|intros ->; change (lenN (@nil N)) with 0; lia].
Qed.

Lemma name_of : forall cs n t, look T (cs ++ [n]) = Some t -> PathSpec.plain n /\ ~ In 92 n.
Proof.
  intros cs n t L. rewrite look_snoc in L. destruct (look T cs) as [[|m mt at_ es]|] eqn:Lc; try discriminate L.
  destruct (LW cs _ _ _ _ Lc) as [_ F1]. pose proof (LB cs _ _ _ _ Lc) as F2.
  assert (F : Forall (fun n => PathSpec.plain n /\ ~ In 92 n) (map fst es)) by (apply Forall_and; assumption). clear Lc F1 F2. induction es as [|[x u] es IH]; [discriminate L|]. cbn [entry] in L. cbn [map fst] in F. inversion F; subst.
  destruct (list_eq_dec N.eq_dec x n) as [->|]; [assumption|]. apply IH; assumption.
Qed.

Lemma entry_ok : forall dn rem ans cs m mt at_ seen n t rs a b h names up c q,
  its = dn ++ (a ++ b) ++ IEnd :: rem -> offers_all ts dn ans -> look T cs = Some (Dir m mt at_ (seen ++ (n, t) :: rs)) ->
  filter not_dots names = map fst rs -> listing ts n t a -> listings ts rs b ->
  (up = [] /\ rem = [] \/ up <> [] /\ exists cs' x, cs = cs' ++ [x] /\ Stack cs' up rem) ->
  c_dirs c = (h, names) :: up -> c_dir c = below base cs -> 0 < q_room q ->
  exists x c', process_entry E n q c = (x, c') /\
    (a_ret x = REnter /\ Between (ans ++ [x]) c' \/
     (exists d, a_ret x = RData d) /\ ((c_dirs c' <> [] /\ exists got more, InFile got more (ans ++ [x]) c') \/ Between (ans ++ [x]) c')).
Proof.
  intros dn rem ans cs m mt at_ seen n t rs a b h names up c q Ei O Lk Fn La Lb Up Ed Er Rm.
  assert (Lt : look T (cs ++ [n]) = Some t).
  { rewrite look_snoc, Lk. apply entry_in. apply (LW cs _ _ _ _ Lk). }
  assert (Pp : c_dir c ++ [SLASH] ++ n = below base (cs ++ [n])) by (rewrite Er, below_snoc; reflexivity).
  assert (Sp := ST (cs ++ [n]) t Lt). unfold process_entry. rewrite Pp.
  replace (SCP_MSG_SZ <=? lenN (c_dir c) + 1 + lenN n) with false.
  2:{ symmetry. apply N.leb_gt. rewrite <- Pp in Sp. rewrite !lenN_app in Sp. change (lenN [SLASH]) with 1 in Sp. unfold SCP_MSG_SZ. lia. }
  set (p := below base (cs ++ [n])) in *. unfold sysc at 1.
  destruct (HT (c_log c) _ _ Lt) as (H1 & _). fold p in H1. rewrite H1. change (negb (0 =? 0)%Z) with false. cbv iota.
  unfold GetFileStats, sysc at 1. cbn [c_log].
  destruct (HT ((CLink p, E (c_log c) (CLink p)) :: c_log c) _ _ Lt) as (_ & H2 & H3 & H4). fold p in H2, H3, H4.
  set (L1 := (CLink p, E (c_log c) (CLink p)) :: c_log c) in *. set (r2 := E L1 (CLstat p)) in *.
  rewrite (proj2 (Z.ltb_ge _ _)) by exact H2. cbn [negb]. cbn [with_kind c_kind c_fp c_dirs c_dir c_log].
  destruct t as [fm fmt fat content|dm dmt dat es].
  - destruct H3 as (K1 & K2 & K3 & K4). rewrite K1. unfold sysc at 1. cbn [c_log c_fp c_dirs c_dir c_kind with_kind with_fp].
    set (L2 := (CLstat p, r2) :: L1) in *.
    destruct (HT L2 _ _ Lt) as (_ & _ & _ & H5 & _). fold p in H5. set (r3 := E L2 (CFopen p)) in *.
    rewrite (proj2 (Z.ltb_ge _ _)) by exact H5. unfold sysc at 1. cbn [c_log c_fp c_dirs c_dir c_kind with_kind with_fp].
    set (L3 := (CFopen p, r3) :: L2) in *.
    destruct (HT L3 _ _ Lt) as (_ & _ & _ & _ & H6). fold p in H6.
    assert (S3 : stream L3 (r_num r3) = Some (p, 0)) by (unfold L3; cbn [stream]; rewrite Z.eqb_refl; reflexivity).
    destruct (H6 _ _ S3) as [H7 _]. rewrite H7. rewrite (proj2 (Z.ltb_ge _ _)) by lia. rewrite N2Z.id.
    assert (Ls : lenN content < 4294967296) by (inversion La; assumption).
    rewrite w32_small by exact Ls.
    set (c4 := mkCtx (Some (r_num r3)) (c_dirs c) (c_dir c) KFile ((CSize (r_num r3), E L3 (CSize (r_num r3))) :: L3)).
    set (q1 := sized (lenN content) (statted r2 (named n q))).
    destruct (read_file E (r_num r3) (q_room q1) c4) as [d c5] eqn:Er5.
    pose proof (first_part dn a (b ++ IEnd :: rem) ans cs (cs ++ [n]) n fm fmt fat content (r_num r3) c4 q1 (d, c5)
      ltac:(rewrite Ei, <- !app_assoc; reflexivity) O La Lt) as FP.
    assert (Op : opened c4 p (r_num r3)) by (split; [reflexivity|]; unfold c4; cbn [c_log stream]; exact S3).
    assert (Sk : Stack cs (c_dirs c4) (b ++ IEnd :: rem)).
    { unfold c4. cbn [c_dirs]. rewrite Ed. apply (st_top cs h names m mt at_ (seen ++ [(n, File fm fmt fat content)]) rs b up rem); auto.
      rewrite <- app_assoc. exact Lk. }
    specialize (FP Op Sk (fun _ => Er) Rm eq_refl eq_refl K3 K4 ltac:(unfold q1; cbn; rewrite K2; reflexivity) Er5).
    cbn [fst snd] in FP. destruct FP as (rest & _ & _ & Mv).
    eexists _, _. split; [reflexivity|]. right. split; [eexists; reflexivity|].
    destruct Mv as [[Q Mv]|[[_ Mv]|[Q _]]]; [left; split; [rewrite Q; unfold c4; cbn [c_dirs]; rewrite Ed; discriminate|exact Mv]|right; exact Mv|]. unfold c4 in Q. cbn [c_dirs] in Q. rewrite Ed in Q. discriminate Q.
  - destruct H3 as (K1 & K2 & K3 & K4). rewrite K1. unfold PushDir. replace (SCP_MSG_SZ <=? lenN p) with false by (symmetry; apply N.leb_gt; exact Sp).
    unfold sysc. cbn [c_log c_fp c_dirs c_dir c_kind with_kind with_fp with_dirs].
    set (L2 := (CLstat p, r2) :: L1) in *. destruct (HT L2 _ _ Lt) as (_ & _ & _ & H5 & H6). fold p in H5, H6. set (r3 := E L2 (COpendir p)) in *.
    rewrite (proj2 (Z.ltb_ge _ _)) by exact H5. eexists _, _. split; [reflexivity|]. left. split; [reflexivity|].
    inversion La as [|n' m' mt' at' es' o l0 Oc Ll]; subst n' m' mt' at' es' a.
    exists (dn ++ [IDir o [48] n]), (l0 ++ IEnd :: (b ++ IEnd :: rem)), (cs ++ [n]). cbn [c_dirs c_dir with_dirs].
    split; [rewrite Ei; cbn [app]; rewrite <- ?app_assoc; cbn [app]; rewrite <- ?app_assoc; cbn [app]; rewrite <- ?app_assoc; reflexivity|]. split.
    + apply offers_all_app; [exact O|]. apply (offers_cons ts _ [] [_] []); [|constructor].
      set (x := give (statted r2 (named n q)) REnter None). change n with (a_name x). apply offers_dir; [reflexivity|].
      unfold x. cbn. rewrite K2, <- N.land_assoc, N.land_diag. exact Oc.
    + split; [|split; [discriminate|reflexivity]]. rewrite Ed.
      apply (st_top (cs ++ [n]) (r_num r3) (r_names r3) dm dmt dat [] es l0); auto.
      right. split; [discriminate|]. exists cs, n. split; [reflexivity|].
      apply (st_top cs h names m mt at_ (seen ++ [(n, Dir dm dmt dat es)]) rs b up rem); auto. rewrite <- app_assoc. exact Lk.
Qed.

Lemma recursive_ok : forall ans c q, Between ans c -> 0 < q_room q ->
  exists x c', recursive E q c = (x, c') /\
    ((a_ret x = REnter \/ a_ret x = RExit) /\ Between (ans ++ [x]) c' \/
     (exists d, a_ret x = RData d) /\ ((c_dirs c' <> [] /\ exists got more, InFile got more (ans ++ [x]) c') \/ Between (ans ++ [x]) c') \/
     a_ret x = RFinal /\ Ended (ans ++ [x]) c').
Proof.
  intros ans c q (dn & rem & cs & Ei & O & Sk & Nd & Er) Rm. unfold recursive, NextEntry.
  destruct (c_dirs c) as [|[h names] up] eqn:Ed; [congruence|]. inversion Sk as [|cs' h' names' m mt at_ seen rs l up' rem' Lk Fn Ll Up]; subst.
  destruct rs as [|[n t] rs].
  - (* the directory is done *)
    pose proof (next_none names Fn) as Nn. destruct (next_name names) as [o names'] eqn:En. cbn [fst] in Nn. subst o.
    inversion Ll; subst. cbn [app] in Ei. unfold PopDir, sysc. cbn [c_dirs c_dir with_dirs c_fp c_kind c_log].
    assert (On : forall x, a_ret x = RExit \/ a_ret x = RFinal -> offers_all ts (dn ++ [IEnd]) (ans ++ [x])).
    { intros x Hx. apply offers_all_app; [exact O|]. apply (offers_cons ts _ [] [x] []); [|constructor]. constructor. exact Hx. }
    destruct Up as [[-> ->]|(Nu & cs' & n & -> & Sk')].
    + eexists _, _. split; [reflexivity|]. right. right. split; [reflexivity|]. split; [|reflexivity]. rewrite Ei. apply On. right. reflexivity.
    + destruct up as [|u up]; [congruence|]. eexists _, _. split; [reflexivity|]. left. split; [right; reflexivity|].
      exists (dn ++ [IEnd]), rem', cs'. cbn [c_dirs c_dir with_dirs]. rewrite <- app_assoc. split; [exact Ei|]. split; [apply On; left; reflexivity|].
      split; [exact Sk'|]. split; [discriminate|]. rewrite Er, below_snoc.
      destruct (name_of cs' n _ Lk) as [(_ & _ & _ & N1) N2]. rewrite (last_sep_slash _ n 0 None (no_sep n N1 N2)). rewrite N.add_0_l.
      destruct (N.eqb_spec (lenN (below base cs')) 0) as [Q|Q].
      { apply lenN_nil_inv in Q. unfold below in Q. apply app_eq_nil in Q. destruct Q; contradiction. }
      apply takeN_app_exact. reflexivity.
  - destruct (next_some names n (map fst rs) Fn) as (names' & En & Fn'). rewrite En. inversion Ll as [|n' t' es a b La Lb]; subst.
    destruct (entry_ok dn rem' ans cs m mt at_ seen n t rs a b h names' up (with_dirs ((h, names') :: up) (c_dir c) c) q Ei O Lk Fn' La Lb Up eq_refl Er Rm)
      as (x & c' & E1 & R). exists x, c'. split; [exact E1|]. destruct R as [[R M]|R]; auto.
Qed.

Lemma extract_base : ExtractFileName base SCP_MSG_SZ = Some n0.
Proof.
  assert (Sb : lenN base < 1024) by (specialize (ST [] T eq_refl); unfold below in ST; cbn [flat_map] in ST; rewrite app_nil_r in ST; exact ST).
  destruct LN as (B & (N1 & _ & _ & N2) & N3). unfold ExtractFileName. destruct base as [|b0 bt] eqn:Eb; [congruence|]. rewrite <- Eb in *. clear Eb b0 bt.
  destruct B as [->|(p & ->)].
  - rewrite last_sep_none by (apply no_sep; assumption). rewrite (proj2 (N.ltb_ge _ _)) by (unfold SCP_MSG_SZ; lia). reflexivity.
  - rewrite (last_sep_slash p n0 0 None (no_sep n0 N2 N3)). rewrite N.add_0_l.
    replace (dropN (lenN p + 1) (p ++ [47] ++ n0)) with n0.
    + rewrite !lenN_app in Sb. rewrite (proj2 (N.ltb_ge _ _)) by (change (lenN [47]) with 1 in Sb; unfold SCP_MSG_SZ; lia). reflexivity.
    + rewrite app_assoc. replace (lenN p + 1) with (lenN (p ++ [47])) by (rewrite lenN_app; reflexivity). rewrite dropN_len_app. reflexivity.
Qed.
Lemma trim_base : forall f, trim_sep f base = base.
Proof.
  destruct LN as (B & (N1 & _ & _ & N2) & N3). intros [|f]; [reflexivity|]. cbn [trim_sep].
  assert (Q : exists x c, base = x ++ [c] /\ In c n0).
  { destruct n0 as [|c r _] using rev_ind; [congruence|]. destruct B as [->|(p & ->)].
    - exists r, c. split; [reflexivity|]. apply in_or_app. right. left. reflexivity.
    - exists (p ++ [47] ++ r), c. split; [rewrite <- !app_assoc; reflexivity|]. apply in_or_app. right. left. reflexivity. }
  destruct Q as (x & c & Eb & Ic). rewrite Eb.
  assert (Ec : chr (x ++ [c]) (lenN (x ++ [c]) - 1) = c).
  { rewrite lenN_app. change (lenN [c]) with 1. replace (lenN x + 1 - 1) with (lenN x) by lia. unfold chr, lenN. rewrite Nat2N.id, app_nth2, Nat.sub_diag by lia. reflexivity. }
  rewrite Ec, (no_sep n0 N2 N3 c Ic), andb_false_r. reflexivity.
Qed.
Lemma below_nil : below base [] = base. Proof. unfold below. apply app_nil_r. Qed.

Lemma first_ok : forall m mt at_ es c q, T = Dir m mt at_ es -> listing ts n0 T its -> c_dirs c = [] -> q_base q = base ->
  exists x c', recursive E q c = (x, c') /\ a_ret x = REnter /\ Between [x] c'.
Proof.
  intros m mt at_ es c q Et Li Ed Eq. unfold recursive. rewrite Ed, Eq, trim_base, extract_base.
  assert (Lk : look T [] = Some (Dir m mt at_ es)) by (rewrite <- Et; reflexivity).
  assert (Sb := ST [] _ Lk). rewrite below_nil in Sb. replace (SCP_MSG_SZ <=? lenN base) with false by (symmetry; apply N.leb_gt; exact Sb).
  unfold sysc at 1. destruct (HT (c_log c) _ _ Lk) as (H1 & _). rewrite below_nil in H1. rewrite H1. change (negb (0 =? 0)%Z) with false. cbv iota.
  unfold PushDir. replace (SCP_MSG_SZ <=? lenN base) with false by (symmetry; apply N.leb_gt; exact Sb).
  unfold sysc at 1. cbn [c_log c_fp c_dirs c_dir c_kind]. set (L1 := (CLink base, E (c_log c) (CLink base)) :: c_log c) in *.
  destruct (HT L1 _ _ Lk) as (_ & _ & _ & H5 & H6). rewrite below_nil in H5, H6. set (r3 := E L1 (COpendir base)) in *.
  rewrite (proj2 (Z.ltb_ge _ _)) by exact H5. cbn [negb]. unfold GetFileStats, sysc. cbn [with_dirs c_log c_fp c_dirs c_dir c_kind named q_base].
  rewrite Eq. set (L2 := (COpendir base, r3) :: L1) in *. destruct (HT L2 _ _ Lk) as (_ & H2 & (K1 & K2 & K3 & K4) & _). rewrite below_nil in *.
  set (r2 := E L2 (CLstat base)) in *. rewrite (proj2 (Z.ltb_ge _ _)) by exact H2. eexists _, _. split; [reflexivity|]. split; [reflexivity|].
  rewrite Et in Li. inversion Li as [|n' m' mt' at' es' o l0 Oc Ll Q1 Q2 Q3]. subst n' m' mt' at' es'.
  exists [IDir o [48] n0], (l0 ++ [IEnd]), []. cbn [c_dirs c_dir with_kind with_dirs]. rewrite Ed, below_nil. split; [symmetry; exact Q3|]. split.
  - apply (offers_cons ts _ [] [_] []); [|constructor]. match goal with |- offers _ _ [?y] => change n0 with (a_name y) end. apply offers_dir; [reflexivity|].
    cbn. rewrite K2, <- N.land_assoc, N.land_diag. exact Oc.
  - split; [|split; [discriminate|reflexivity]]. apply (st_top [] (r_num r3) (r_names r3) m mt at_ [] es l0 [] []); auto.
Qed.

Lemma single_ok : forall m mt at_ content c q, T = File m mt at_ content -> listing ts n0 T its -> c_dirs c = [] -> q_base q = base -> 0 < q_room q ->
  exists x c', single_file E q c = (x, c') /\ (exists d, a_ret x = RData d) /\ c_dirs c' = [] /\ Moved [] [x] c'.
Proof.
  intros m mt at_ content c q Et Li Ed Eq Rm. unfold single_file. rewrite Eq.
  assert (Lk : look T [] = Some (File m mt at_ content)) by (rewrite <- Et; reflexivity).
  unfold sysc at 1. cbn [c_log c_fp c_dirs c_dir c_kind]. destruct (HT (c_log c) _ _ Lk) as (_ & _ & _ & H5 & _). rewrite below_nil in H5.
  set (r3 := E (c_log c) (CFopen base)) in *. rewrite (proj2 (Z.ltb_ge _ _)) by exact H5.
  unfold sysc at 1. cbn [c_log c_fp c_dirs c_dir c_kind with_fp]. set (L3 := (CFopen base, r3) :: c_log c) in *.
  destruct (HT L3 _ _ Lk) as (_ & _ & _ & _ & H6). rewrite below_nil in H6.
  assert (S3 : stream L3 (r_num r3) = Some (base, 0)) by (unfold L3; cbn [stream]; rewrite Z.eqb_refl; reflexivity).
  destruct (H6 _ _ S3) as [H7 _]. rewrite H7. rewrite (proj2 (Z.ltb_ge _ _)) by lia. rewrite N2Z.id.
  assert (Ls : lenN content < 4294967296) by (rewrite Et in Li; inversion Li; assumption). rewrite w32_small by exact Ls.
  unfold GetFileStats, sysc at 1. cbn [c_log c_fp c_dirs c_dir c_kind with_fp sized q_base]. rewrite Eq.
  set (L4 := (CSize (r_num r3), E L3 (CSize (r_num r3))) :: L3) in *.
  destruct (HT L4 _ _ Lk) as (_ & H2 & (K1 & K2 & K3 & K4) & _). rewrite below_nil in *. set (r2 := E L4 (CLstat base)) in *.
  rewrite (proj2 (Z.ltb_ge _ _)) by exact H2. cbn [negb]. cbn [statted q_base sized]. rewrite Eq, extract_base.
  set (c4 := with_kind (r_kind r2) (mkCtx (Some (r_num r3)) (c_dirs c) (c_dir c) (c_kind c) ((CLstat base, r2) :: L4))).
  match goal with |- context [named n0 ?y] => set (q1 := named n0 y) end.
  assert (Hsz : q_size q1 = lenN content) by reflexivity.
  destruct (read_file E (r_num r3) (q_room q1) c4) as [d c5] eqn:Er5.
  assert (D5 : c_dirs c5 = c_dirs c4 /\ c_fp c5 = c_fp c4).
  { unfold read_file, sysc in Er5. apply (f_equal snd) in Er5. cbn [snd] in Er5. subst c5. split; reflexivity. }
  assert (FP : exists rest, content = d ++ rest /\ (content <> [] -> d <> []) /\
     Moved (c_dirs c4) ([] ++ [give q1 (RData d) None]) (if q_size q1 =? lenN d then shut_file E c5 else c5)).
  { apply (first_part [] its [] [] [] [] n0 m mt at_ content (r_num r3) c4 q1 (d, c5)); auto.
    - rewrite app_nil_r. reflexivity.
    - constructor.
    - rewrite <- Et. exact Li.
    - rewrite below_nil. split; [reflexivity|]. unfold c4. cbn [c_log with_kind stream]. exact S3.
    - unfold c4. cbn [c_dirs with_kind]. rewrite Ed. constructor.
    - unfold c4. cbn [c_dirs with_kind]. rewrite Ed. congruence.
    - unfold q1. cbn. rewrite K2. reflexivity. }
  destruct FP as (rest & Ec & Nd & Mv). unfold c4 in Mv, D5. cbn [c_dirs with_kind app] in Mv, D5. rewrite Ed in Mv, D5. destruct D5 as [D5 D6].
  destruct (N.eqb_spec (q_size q1) 0) as [Z0|Z0].
  - (* an empty file *)
    assert (C0 : content = []) by (apply lenN_nil_inv; lia). rewrite C0 in Ec. eexists _, _. split; [reflexivity|]. split; [eexists; reflexivity|].
    rewrite (proj1 (shut_dirs c4)). unfold c4. cbn [c_dirs with_kind]. split; [exact Ed|]. right. right. split; [reflexivity|].
    symmetry in Ec. apply app_eq_nil in Ec. destruct Ec as [-> ->]. change (lenN (@nil N)) with 0 in Mv. rewrite Z0 in Mv. change (0 =? 0) with true in Mv. cbv iota in Mv.
    destruct Mv as [(_ & g & mr & F)|[[Q _]|[_ (Oe & _)]]]; [|congruence|split; [exact Oe|rewrite (proj1 (shut_dirs _)); exact Ed]].
    exfalso. destruct F as (dn & fi & rem & ans1 & ans2 & cs & csf & n & f & h & _ & _ & _ & _ & _ & _ & _ & F & _).
    unfold shut_file in F. rewrite D6 in F. discriminate F.
  - destruct d as [|d0 dt].
    + exfalso. apply Nd; [|reflexivity]. intros ->. apply Z0. exact Hsz.
    + eexists _, _. split; [reflexivity|]. split; [eexists; reflexivity|]. split; [|exact Mv].
      destruct (q_size q1 =? lenN (d0 :: dt)); [rewrite (proj1 (shut_dirs c5))|]; exact D5.
Qed.
End Tree.
