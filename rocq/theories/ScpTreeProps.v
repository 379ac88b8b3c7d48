(* ScpTreeProps.v - C63: downloading a file or a directory over SCP. *)
From Coq Require Import String.
From Verif Require Import Base WireProofs NegoSpec PathModel PathSpec PathProofs ScpModel ScpSpec ScpSpec2 ScpSrcModel ScpSrcSpec ScpSrcProofs ScpSrcProofs2 ScpSrcProofs3 ScpTreeSpec ScpTreeProofs ScpTreeProofs2.
From Coq Require Import List NArith ZArith Bool Lia.
Import ListNotations.
Open Scope N_scope.

Definition is_dir (T : tree) : bool := match T with Dir _ _ _ _ => true | File _ _ _ _ => false end.

(* A file, or a directory with all that is in it, is at [base] and does not
   change. Then what is sent, under every schedule, is the control messages and
   contents of just the files and directories there, in the order in which they
   are listed, and when the sender is done it has sent them all. *)
Definition C63_full : Prop := forall E base n T ts its es w,
  has_tree E base T -> named_well T -> short base T -> last_name base n -> listing ts n T its -> Forall fits its ->
  came (source_run (wsScpSend E) es (source0 base (is_dir T) ts ctx0)) w ->
  so_far (turns_of (w_trace w)) ([] :: flat_map item_turns its ++ [[]]) /\
  (source_run (wsScpSend E) es (source0 base (is_dir T) ts ctx0) = Go w -> w_st w = W_DONE ->
   turns_of (w_trace w) = [] :: flat_map item_turns its ++ [[]]).

(* ------------------------------------------------------------------ *)
Lemma strip_app : forall base r, strip base (base ++ r) = Some r.
Proof. induction base as [|b base IH]; intros r; [reflexivity|]. cbn [app strip]. destruct (N.eq_dec b b); [apply IH|congruence]. Qed.
Lemma pieces_name : forall n r, ~ In 47 n -> pieces (n ++ 47 :: r) = n :: pieces r.
Proof.
  induction n as [|c n IH]; intros r H.
  - cbn [app pieces]. destruct (pieces r) eqn:E; [exfalso; exact (pieces_ne r E)|]. reflexivity.
  - cbn [app pieces]. rewrite IH by (intros Q; apply H; right; exact Q). destruct (N.eq_dec c 47) as [->|]; [exfalso; apply H; left; reflexivity|reflexivity].
Qed.
Lemma pieces_one : forall n, ~ In 47 n -> pieces n = [n].
Proof.
  induction n as [|c n IH]; intros H; [reflexivity|]. cbn [pieces]. rewrite IH by (intros Q; apply H; right; exact Q).
  destruct (N.eq_dec c 47) as [->|]; [exfalso; apply H; left; reflexivity|reflexivity].
Qed.
Lemma pieces_path : forall cs n, ~ In 47 n -> Forall (fun c => ~ In 47 c) cs -> pieces (n ++ flat_map (fun c => 47 :: c) cs) = n :: cs.
Proof.
  induction cs as [|c cs IH]; intros n Hn F; cbn [flat_map]; [rewrite app_nil_r; apply pieces_one; exact Hn|].
  inversion F; subst. cbn [app]. rewrite pieces_name by exact Hn. rewrite IH by assumption. reflexivity.
Qed.
Lemma look_names : forall T, named_well T -> forall cs t, look T cs = Some t -> Forall (fun c => ~ In 47 c) cs.
Proof.
  intros T W cs. induction cs as [|c cs IH] using rev_ind; intros t L; [constructor|].
  rewrite look_snoc in L. destruct (look T cs) as [[|m mt at_ es]|] eqn:Lc; try discriminate L.
  apply Forall_app. split; [eapply IH; reflexivity|]. constructor; [|constructor].
  destruct (W cs _ _ _ _ Lc) as [_ F]. clear Lc IH. induction es as [|[x u] es IHe]; [discriminate L|]. cbn [entry] in L. cbn [map fst] in F. inversion F as [|y z Hx Hz]; subst.
  destruct (list_eq_dec N.eq_dec x c) as [->|]; [apply Hx|]. apply IHe; assumption.
Qed.
Lemma found_below : forall base T cs t, named_well T -> look T cs = Some t -> found base T (below base cs) = Some t.
Proof.
  intros base T cs t W L. unfold found, below. rewrite strip_app.
  pose proof (pieces_path cs [] (fun x => x) (look_names T W cs t L)) as P. cbn [app] in P. rewrite P. exact L.
Qed.
Lemma filter_plain : forall l, Forall PathSpec.plain l -> filter not_dots l = l.
Proof.
  induction l as [|n l IH]; intros F; [reflexivity|]. inversion F as [|x y (_ & A & B & _) Fl]; subst. cbn [filter]. unfold not_dots at 1.
  destruct (list_eq_dec N.eq_dec n dot); [contradiction|]. destruct (list_eq_dec N.eq_dec n dotdot); [contradiction|]. rewrite IH by assumption. reflexivity.
Qed.

(* There is such a system for every tree. *)
Theorem C63_disk : forall base T, named_well T -> has_tree (disk base T) base T.
Proof.
  intros base T W l cs t L. pose proof (found_below base T cs t W L) as F. cbv zeta. unfold disk. rewrite F. cbn [r_num num].
  split; [reflexivity|]. split; [destruct t; cbn; lia|]. split; [destruct t; cbn; auto|]. destruct t as [m mt at_ c|m mt at_ es].
  - split; [cbn; lia|]. intros h k S. rewrite S, F. split; [reflexivity|]. intros n. cbn [r_data]. cbv zeta. split; [rewrite lenN_takeN; lia|]. split.
    + exists (dropN n (dropN k c)). symmetry. apply takeN_dropN.
    + intros N1 N2 Q. assert (X : lenN (takeN n (dropN k c)) = 0) by (rewrite Q; reflexivity). rewrite lenN_takeN, lenN_dropN in X. lia.
  - cbn [r_num r_names]. split; [lia|]. cbn [filter]. unfold not_dots at 1. cbn. apply filter_plain. apply (W cs _ _ _ _ L).
Qed.
Print Assumptions C63_disk.

(* A directory with a backslash in its name, and a file after it. *)
Definition tree2 : tree := Dir 493 0 0 [(ascii "a\b", Dir 493 0 0 []); (ascii "z", File 420 0 0 (ascii "x"))].
Definition list2 : list item :=
  [IDir (ascii "0755") (ascii "0") (ascii "top"); IDir (ascii "0755") (ascii "0") (ascii "a\b"); IEnd;
   IFile None (ascii "0644") (ascii "1") (ascii "z") (ascii "x"); IEnd].
Definition turns2 : list wev :=
  [WWant; WWant; WData [0]; WWant; WSent 12; WData [0]; WWant; WSent 12; WData [0]; WWant; WSent 2; WData [0]; WWant; WSent 1].

Ltac plain_name := repeat split; try discriminate; cbn; intros X; repeat (destruct X as [X|X]; [discriminate X|]); exact X.
Lemma octal_of : forall n l, octals l -> value 8 l = n -> octal4 n l. Proof. intros. split; assumption. Qed.
Ltac octal_ok := apply octal_of; [split; [reflexivity|]; cbn; repeat (constructor; [split; discriminate|]); constructor|reflexivity].
Ltac decimal_ok := split; [split; [discriminate|]; cbn; repeat (constructor; [split; discriminate|]); constructor|split; [reflexivity|try discriminate; reflexivity]].

Lemma tree2_named : named_well tree2.
Proof.
  intros cs m mt at_ es L. destruct cs as [|a cs].
  - cbn in L. injection L as <- <- <- <-. split.
    + cbn. constructor; [intros [Q|[]]; discriminate Q|]. constructor; [intros []|constructor].
    + constructor; [plain_name|]. constructor; [plain_name|constructor].
  - cbn [look tree2 entry] in L. destruct (list_eq_dec N.eq_dec (ascii "a\b") a).
    + destruct cs as [|b cs]; [injection L as <- <- <- <-; split; constructor|discriminate L].
    + destruct (list_eq_dec N.eq_dec (ascii "z") a); [|discriminate L]. destruct cs; discriminate L.
Qed.
Lemma tree2_short : short (ascii "/top") tree2.
Proof.
  intros cs t L. destruct cs as [|a cs]; [reflexivity|].
  cbn [look tree2 entry] in L. destruct (list_eq_dec N.eq_dec (ascii "a\b") a) as [<-|].
  - destruct cs as [|b cs]; [reflexivity|discriminate L].
  - destruct (list_eq_dec N.eq_dec (ascii "z") a) as [<-|]; [|discriminate L]. destruct cs; [reflexivity|discriminate L].
Qed.
Lemma top_name : last_name (ascii "/top") (ascii "top").
Proof. split; [right; exists []; reflexivity|]. split; plain_name. Qed.
Lemma tree2_listing : listing false (ascii "top") tree2 list2.
Proof.
  apply (list_dir false _ _ _ _ _ (ascii "0755") [IDir (ascii "0755") (ascii "0") (ascii "a\b"); IEnd; IFile None (ascii "0644") (ascii "1") (ascii "z") (ascii "x")]); [octal_ok|].
  apply (list_more false _ _ _ [IDir (ascii "0755") (ascii "0") (ascii "a\b"); IEnd]); [|apply (list_more false _ _ _ [IFile None (ascii "0644") (ascii "1") (ascii "z") (ascii "x")] []); [|constructor]].
  - apply (list_dir false _ _ _ _ _ (ascii "0755") []); [octal_ok|constructor].
  - apply list_file; [reflexivity|octal_ok|decimal_ok|reflexivity].
Qed.

Theorem C63_refuted : ~ C63_full.
Proof.
  intros H.
  destruct (source_run (wsScpSend (disk (ascii "/top") tree2)) turns2 (source0 (ascii "/top") true false ctx0)) as [w|w|] eqn:R.
  - vm_compute in R. discriminate R.
  - assert (Tw : turns_of (w_trace w) = [[]; ascii "D0755 0 top" ++ [10]; ascii "D0755 0 a\b" ++ [10]; ascii "E" ++ [10]; [1]]).
    { assert (X : match source_run (wsScpSend (disk (ascii "/top") tree2)) turns2 (source0 (ascii "/top") true false ctx0) with
                  | Stop w => turns_of (w_trace w) | _ => [] end = [[]; ascii "D0755 0 top" ++ [10]; ascii "D0755 0 a\b" ++ [10]; ascii "E" ++ [10]; [1]]) by (vm_compute; reflexivity).
      rewrite R in X. exact X. }
    destruct (H (disk (ascii "/top") tree2) (ascii "/top") (ascii "top") tree2 false list2 turns2 w
       (C63_disk _ _ tree2_named) tree2_named tree2_short top_name tree2_listing) as [S _].
    + repeat constructor; cbn; try (vm_compute; discriminate).
    + right. exact R.
    + rewrite Tw in S. destruct S as (d & n & m & r & E1 & E2).
      assert (E3 : d = [[]; ascii "D0755 0 top" ++ [10]; ascii "D0755 0 a\b" ++ [10]; ascii "E" ++ [10]] /\ n = [1]).
      { change [[]; ascii "D0755 0 top" ++ [10]; ascii "D0755 0 a\b" ++ [10]; ascii "E" ++ [10]; [1]] with
               ([[]; ascii "D0755 0 top" ++ [10]; ascii "D0755 0 a\b" ++ [10]; ascii "E" ++ [10]] ++ [[1]]) in E1.
        apply app_inj_tail in E1. destruct E1 as [<- <-]. auto. }
      destruct E3 as [-> ->]. apply (f_equal (fun l => nth 0 (nth 4 l []) 0)) in E2. vm_compute in E2. discriminate E2.
  - vm_compute in R. discriminate R.
Qed.
Print Assumptions C63_refuted.

(* Missing: names with a backslash. *)
Theorem C63_download_partial : forall E base n T ts its es w,
  has_tree E base T -> named_well T -> no_backslash T -> short base T -> last_name base n -> listing ts n T its -> Forall fits its ->
  came (source_run (wsScpSend E) es (source0 base (is_dir T) ts ctx0)) w ->
  so_far (turns_of (w_trace w)) ([] :: flat_map item_turns its ++ [[]]) /\
  (source_run (wsScpSend E) es (source0 base (is_dir T) ts ctx0) = Go w -> w_st w = W_DONE ->
   turns_of (w_trace w) = [] :: flat_map item_turns its ++ [[]] /\ List.concat (turns_of (w_trace w)) = script its).
Proof.
  intros E base n T ts its es w HT LW LB ST LN LI F H.
  assert (HB : base <> []).
  { destruct LN as ([->|(p & ->)] & (N1 & _) & _); [exact N1|]. destruct p; discriminate. }
  assert (RT : match T with Dir _ _ _ _ => is_dir T = true | File _ _ _ _ => is_dir T = false end) by (destruct T; reflexivity).
  destruct (download E base T ts its HT LW LB ST HB n LN LI (is_dir T) RT es w H F) as [A B]. split; [exact A|].
  intros G D. specialize (B G D). split; [exact B|]. rewrite B. cbn [List.concat app]. rewrite concat_app, turns_script. cbn. apply app_nil_r.
Qed.
Print Assumptions C63_download_partial.

(* ------------------------------------------------------------------ *)
(* a directory with a file and a directory with a file, sent to the end, in
   pieces *)
Definition tree3 : tree := Dir 493 0 0 [(ascii "d", Dir 448 0 0 [(ascii "f", File 420 7 8 (ascii "abc"))]); (ascii "z", File 384 1 2 [])].
Definition turns3 : list wev :=
  [WWant; WWant; WData [0]; WWant; WSent 12; WData [0]; WWant; WSent 10; WData [0];
   WWant; WSent 9; WWant; WData [0]; WSent 10; WData [0]; WSent 2; WWant; WSent 1; WSent 1; WData [0];
   WWant; WSent 2; WData [0]; WWant; WSent 9; WData [0]; WSent 10; WData [0]; WWant; WSent 1; WData [0]; WWant; WSent 2; WData [0]].
Definition turns_done (r : wres (C:=sctx)) : option (wstate * list bytes) :=
  match r with Go w => Some (w_st w, turns_of (w_trace w)) | _ => None end.
Example C63_not_vacuous :
  turns_done (source_run (wsScpSend (disk (ascii "/top") tree3)) turns3 (source0 (ascii "/top") true true ctx0)) =
  Some (W_DONE, [[]; ascii "D0755 0 top" ++ [10]; ascii "D0700 0 d" ++ [10]; ascii "T7 0 8 0" ++ [10]; ascii "C0644 3 f" ++ [10]; ascii "abc" ++ [0];
                 ascii "E" ++ [10]; ascii "T1 0 2 0" ++ [10]; ascii "C0600 0 z" ++ [10]; [0]; ascii "E" ++ [10]; []]).
Proof. vm_compute. reflexivity. Qed.
(* and a single file *)
Example C63_not_vacuous2 :
  turns_done (source_run (wsScpSend (disk (ascii "/f") (File 420 7 8 (ascii "abc")))) [WWant; WWant; WData [0]; WWant; WSent 10; WData [0]; WSent 3; WSent 1; WData [0]]
     (source0 (ascii "/f") false false ctx0)) =
  Some (W_DONE, [[]; ascii "C0644 3 f" ++ [10]; ascii "abc" ++ [0]; []]).
Proof. vm_compute. reflexivity. Qed.
