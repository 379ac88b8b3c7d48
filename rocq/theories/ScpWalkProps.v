(* ScpWalkProps.v - C64, what a sender opens, and C65, what it leaves open. *)
From Coq Require Import String.
From Verif Require Import Base WireProofs NegoSpec PathModel PathSpec PathProofs ScpModel ScpSpec ScpSpec2 ScpSrcModel ScpSrcSpec ScpSrcProofs ScpSrcProofs2 ScpSrcProofs3 ScpTreeSpec ScpTreeProofs ScpTreeProofs2 ScpTreeProps ScpWalkSpec ScpWalkProofs ScpWalkProofs2 ScpWalkProofs3.
From Coq Require Import List NArith ZArith Bool Lia.
Import ListNotations.
Open Scope N_scope.

(* Whatever the system answers and whatever happens on the channel, only the
   path asked for is touched, and names listed in a directory that was opened,
   and these only after they were found not to be links. *)
Definition C64_full : Prop := forall E base rec ts es w, base <> [] -> lists_names E ->
  came (source_run (wsScpSend E) es (source0 base rec ts ctx0)) w -> careful rec base (c_log (w_ctx w)).

Lemma careful_at : forall rec base l, careful rec base l -> forall a x r b p, l = a ++ (x, r) :: b -> touches x = Some p ->
  (p = base /\ (rec = true -> exists root, root_of base root /\ checked b root)) \/
  (exists d n, p = d ++ [47] ++ n /\ listed b d n /\ checked b p).
Proof.
  intros rec base l C. induction C as [|x r l C IH H]; intros a y q b p E T.
  - destruct a; discriminate E.
  - destruct a as [|z a]; cbn [app] in E.
    + injection E as -> -> ->. exact (H p T).
    + injection E as _ ->. exact (IH a y q b p eq_refl T).
Qed.

(* The directory "/top" has the directory "d\e" and the file "z"; "/top/d" may
   be a link to anywhere. *)
Definition named_in (p : bytes) (l : list (string * list string)) : option (list bytes) :=
  match find (fun x => if list_eq_dec N.eq_dec (ascii (fst x)) p then true else false) l with
  | Some x => Some (map ascii (snd x))
  | None => None
  end.
Definition sly : csys := fun l x =>
  match x with
  | CLstat p => mkRes 0 [] [] (match named_in p [("/top", []); ("/top/d\e", [])]%string with Some _ => KDir | None => KFile end) 420 0 0
  | COpendir p => match named_in p [("/top", ["d\e"; "z"]); ("/top/d\e", [])]%string with Some ns => mkRes 0 [] ns KOther 0 0 0 | None => num (-1) end
  | CFopen _ => num 3
  | CSize _ => num 1
  | CRead _ _ => mkRes 0 (ascii "s") [] KOther 0 0 0
  | _ => num 0
  end.
Definition sly_turns : list wev :=
  [WWant; WWant; WData [0]; WWant; WSent 12; WData [0]; WWant; WSent 12; WData [0]; WWant; WSent 2; WData [0]; WWant].
Definition log_of (r : wres (C:=sctx)) : clog := match r with Go w | Stop w => c_log (w_ctx w) | Undef => [] end.

Theorem C64_refuted : ~ C64_full.
Proof.
  intros H.
  assert (LN : lists_names sly).
  { intros l d n. cbn [sly]. unfold named_in. cbn [find fst snd]. destruct (list_eq_dec N.eq_dec (ascii "/top") d).
    - cbn. intros [<-|[<-|[]]]; vm_compute; intros X; repeat (destruct X as [X|X]; [discriminate X|]); exact X.
    - destruct (list_eq_dec N.eq_dec (ascii "/top/d\e") d); cbn; intros []. }
  assert (CE : exists w, came (source_run (wsScpSend sly) sly_turns (source0 (ascii "/top") true false ctx0)) w /\
     c_log (w_ctx w) = log_of (source_run (wsScpSend sly) sly_turns (source0 (ascii "/top") true false ctx0))).
  { destruct (source_run (wsScpSend sly) sly_turns (source0 (ascii "/top") true false ctx0)) as [w|w|] eqn:R.
    - exists w. split; [left; reflexivity|reflexivity].
    - exists w. split; [right; reflexivity|reflexivity].
    - vm_compute in R. discriminate R. }
  destruct CE as (w & C & L).
  pose proof (H sly (ascii "/top") true false sly_turns w ltac:(discriminate) LN C) as K. rewrite L in K. clear L C H.
  assert (X : exists a r b, log_of (source_run (wsScpSend sly) sly_turns (source0 (ascii "/top") true false ctx0)) = a ++ (CFopen (ascii "/top/d/z"), r) :: b /\
    forall d q, In (COpendir d, q) b -> (d = ascii "/top" /\ r_names q = [ascii "d\e"; ascii "z"]) \/ (d = ascii "/top/d\e" /\ r_names q = [])).
  { let l := eval vm_compute in (log_of (source_run (wsScpSend sly) sly_turns (source0 (ascii "/top") true false ctx0))) in
    match l with ?a :: ?b :: ?c :: (CFopen _, ?r) :: ?t => exists [a; b; c], r, t end.
    split; [vm_compute; reflexivity|]. intros d q. cbn [In]. intros I. repeat (destruct I as [I|I]; [try discriminate I; injection I as <- <-; try (left; split; vm_compute; reflexivity); right; split; vm_compute; reflexivity|]). destruct I. }
  destruct X as (a & r & b & X1 & X2).
  destruct (careful_at _ _ _ K a _ r b (ascii "/top/d/z") X1 eq_refl) as [[Q _]|(d & n & P & (q & Q1 & _ & Q2 & _) & _)]; [discriminate Q|].
  destruct (X2 d q Q1) as [[-> Y]|[-> Y]]; rewrite Y in Q2.
  - apply (f_equal (dropN 5)) in P. destruct Q2 as [<-|[<-|[]]]; vm_compute in P; discriminate P.
  - destruct Q2.
Qed.
Print Assumptions C64_refuted.

(* Missing: names with a backslash. *)
Theorem C64_careful_partial : forall E base rec ts es w, base <> [] -> lists_names E -> lists_no_backslash E ->
  came (source_run (wsScpSend E) es (source0 base rec ts ctx0)) w -> careful rec base (c_log (w_ctx w)).
Proof. intros E base rec ts es w HB HS HK. exact (walk_careful E base rec HB HS HK ts es w). Qed.
Print Assumptions C64_careful_partial.

(* ------------------------------------------------------------------ *)
(* Nothing goes wrong, and what was opened is closed when the sender is done. *)
Definition C65_full : Prop := forall E base rec ts es,
  source_run (wsScpSend E) es (source0 base rec ts ctx0) <> Undef /\
  forall w, source_run (wsScpSend E) es (source0 base rec ts ctx0) = Go w -> w_st w = W_DONE ->
    open_dirs (c_log (w_ctx w)) = [] /\ open_files (c_log (w_ctx w)) = [].

(* the connection fails while a file of one byte is sent *)
Theorem C65_refuted : ~ C65_full.
Proof.
  intros H. destruct (H (disk (ascii "/f") (File 420 0 0 (ascii "x"))) (ascii "/f") false false [WWant; WWant; WData [0]; WWant; WSent 10; WData [0]; WFail]) as [X _].
  apply X. vm_compute. reflexivity.
Qed.
Print Assumptions C65_refuted.

(* a file that has grown when it is read *)
Definition grown : csys := fun l x =>
  match x with
  | CFopen _ => num 3
  | CSize _ => num 1
  | CRead _ _ => mkRes 0 (ascii "xy") [] KOther 0 0 0
  | CLstat _ => mkRes 0 [] [] KFile 420 0 0
  | _ => num 0
  end.
Theorem C65_refuted_stream : exists E base es w, source_run (wsScpSend E) es (source0 base false false ctx0) = Go w /\ w_st w = W_DONE /\
  open_files (c_log (w_ctx w)) = [3%Z].
Proof.
  exists grown, (ascii "/f"), [WWant; WWant; WData [0]; WWant; WSent 10; WData [0]; WSent 2; WSent 1; WData [0]].
  eexists. split; [vm_compute; reflexivity|]. split; reflexivity.
Qed.
Print Assumptions C65_refuted_stream.

(* Directories are closed in the end, and when the transfer is given up, on any
   system. *)
Theorem C65_dirs_partial : forall E base rec ts es w, source_run (wsScpSend E) es (source0 base rec ts ctx0) = Go w ->
  w_st w = W_DONE \/ w_conf w = ABORT ->
  open_dirs (c_log (w_ctx w)) = [].
Proof. exact dirs_closed. Qed.
Print Assumptions C65_dirs_partial.

(* When files do not grow, at most one is open at a time, and none in the end. *)
Theorem C65_files_partial : forall E, steady E -> forall base rec ts es w, source_run (wsScpSend E) es (source0 base rec ts ctx0) = Go w ->
  (List.length (open_files (c_log (w_ctx w))) <= 1)%nat /\ (w_st w = W_DONE -> open_files (c_log (w_ctx w)) = []).
Proof. exact files_closed. Qed.
Print Assumptions C65_files_partial.

(* It dies only when a send fails after all of the file was read. *)
Theorem C65_dies_partial : forall E, steady E -> forall base rec ts es, source_run (wsScpSend E) es (source0 base rec ts ctx0) = Undef ->
  exists l e r w, es = l ++ e :: r /\ source_run (wsScpSend E) l (source0 base rec ts ctx0) = Go w /\
    w_st w = SEND_FILE /\ w_buf w <> [] /\ w_off w + lenN (w_buf w) = w_size w /\ match e with WFail | WData _ => True | _ => False end.
Proof. exact dies_at_last_part. Qed.
Print Assumptions C65_dies_partial.

(* ------------------------------------------------------------------ *)
(* Such systems: a disk with a tree. *)
Definition not_huge (T : tree) : Prop := forall cs m mt at_ c, look T cs = Some (File m mt at_ c) -> lenN c < 4294967296.
Definition told_well (base : bytes) (T : tree) (l : clog) (h : Z) : Prop := forall s k, told l h = Some (s, k) -> k <= s /\
  forall p k', stream l h = Some (p, k') -> k <= k' /\
    match found base T p with Some (File _ _ _ c) => s = lenN c /\ k' <= lenN c | _ => k = s end.
Definition within (base : bytes) (T : tree) (l : clog) (h : Z) : Prop := forall p k', stream l h = Some (p, k') ->
  match found base T p with Some (File _ _ _ c) => k' <= lenN c | _ => True end.
Lemma disk_within : forall base T l h, own (disk base T) l -> within base T l h.
Proof.
  intros base T l. induction l as [|[x r] l IH]; intros h O; [intros p k' S; discriminate S|]. destruct O as [R O]. specialize (IH h O).
  destruct x; cbn [stream] in *; try exact IH; intros q k' S; cbn [stream] in S.
  - destruct (r_num r =? h)%Z; [|exact (IH q k' S)]. injection S as <- <-. destruct (found base T p) as [[]|]; auto. lia.
  - destruct (stream l h) as [[q' k]|] eqn:St; [|discriminate S]. injection S as -> <-. specialize (IH _ _ St). destruct (Z.eqb_spec h0 h) as [->|]; [|exact IH].
    rewrite R. unfold disk. rewrite St. destruct (found base T q) as [[m mt at_ c|]|]; auto. cbn [r_data]. rewrite lenN_takeN, lenN_dropN. lia.
  - destruct (h0 =? h)%Z; [discriminate S|exact (IH q k' S)].
Qed.
Lemma disk_told : forall base T l h, own (disk base T) l -> told_well base T l h.
Proof.
  intros base T l. induction l as [|[x r] l IH]; intros h O; [intros s k Q; discriminate Q|]. pose proof O as O'. destruct O as [R O]. specialize (IH h O).
  pose proof (disk_within base T l h O) as Wi. unfold told_well in *. destruct x; cbn [told stream] in *; try exact IH; intros s k Q.
  - destruct (r_num r =? h)%Z; [discriminate Q|]. exact (IH s k Q).
  - destruct (Z.eqb_spec h0 h) as [->|]; [|exact (IH s k Q)]. injection Q as <- <-. split; [lia|]. intros p k' S. split; [lia|].
    specialize (Wi p k' S). rewrite R. unfold disk. rewrite S. destruct (found base T p) as [[m mt at_ c|]|]; cbn [num r_num]; [|reflexivity|reflexivity]. split; [lia|exact Wi].
  - destruct (told l h) as [[s0 k0]|] eqn:Tl; [|discriminate Q]. destruct (IH s0 k0 eq_refl) as [A B].
    injection Q as <- <-. destruct (Z.eqb_spec h0 h) as [->|Nh].
    + destruct (stream l h) as [[p k']|] eqn:St.
      * destruct (B p k' eq_refl) as [B1 B2]. rewrite R. unfold disk. rewrite St. destruct (found base T p) as [[m mt at_ c|]|] eqn:Fp; cbn [num r_data].
        -- destruct B2 as [B2 B3]. rewrite lenN_takeN, lenN_dropN. split; [lia|]. intros p2 k2 S. injection S as <- <-. rewrite Fp. split; [lia|]. lia.
        -- change (lenN (@nil N)) with 0. split; [lia|]. intros p2 k2 S. injection S as <- <-. rewrite Fp. lia.
        -- change (lenN (@nil N)) with 0. split; [lia|]. intros p2 k2 S. injection S as <- <-. rewrite Fp. lia.
      * rewrite R. unfold disk. rewrite St. cbn. change (lenN (@nil N)) with 0. split; [lia|]. intros p2 k2 S. discriminate S.
    + split; [exact A|]. intros p2 k2 S. destruct (stream l h) as [[p k']|] eqn:St; [|discriminate S]. injection S as <- <-. exact (B p k' eq_refl).
  - destruct (IH s k Q) as [A B]. split; [exact A|]. intros p k' S. destruct (h0 =? h)%Z; [discriminate S|]. exact (B p k' S).
Qed.
Lemma found_look : forall base T p t, found base T p = Some t -> exists cs, look T cs = Some t.
Proof. intros base T p t F. unfold found in F. destruct (strip base p); [|discriminate F]. eauto. Qed.
Theorem C65_disk : forall base T, not_huge T -> steady (disk base T).
Proof.
  intros base T NH l O h. pose proof (disk_told base T l h O) as Td. split.
  - cbn [disk]. destruct (stream l h) as [[p k]|]; [|reflexivity]. destruct (found base T p) as [[m mt at_ c|]|] eqn:F; [|reflexivity|reflexivity].
    destruct (found_look _ _ _ _ F) as [cs L]. apply NH in L. cbn [num r_num]. lia.
  - intros n. split.
    + cbn [disk]. destruct (stream l h) as [[p k]|]; [|cbn; lia]. destruct (found base T p) as [[m mt at_ c|]|]; cbn [num r_data]; [rewrite lenN_takeN; lia| |]; cbn; lia.
    + intros s k Q. destruct (Td s k Q) as [A B]. cbn [disk]. destruct (stream l h) as [[p k']|]; [|cbn; lia]. destruct (B p k' eq_refl) as [B1 B2].
      destruct (found base T p) as [[m mt at_ c|]|]; cbn [num r_data]; [rewrite lenN_takeN, lenN_dropN; lia| |]; cbn; lia.
Qed.
Print Assumptions C65_disk.

(* The names are names there. *)
Theorem C64_disk : forall base T, named_well T -> no_backslash T -> lists_names (disk base T) /\ lists_no_backslash (disk base T).
Proof.
  intros base T W B.
  assert (X : forall l d n, In n (r_names (disk base T l (COpendir d))) -> ~ In 47 n /\ ~ In 92 n).
  { intros l d n. cbn [disk]. destruct (found base T d) as [[|m mt at_ es]|] eqn:F; [intros []| |intros []]. destruct (found_look _ _ _ _ F) as [cs L].
    destruct (W cs _ _ _ _ L) as [_ W1]. pose proof (B cs _ _ _ _ L) as B1. cbn [r_names]. intros [<-|[<-|I]].
    - split; intros Q; repeat (destruct Q as [Q|Q]; [discriminate Q|]); exact Q.
    - split; intros Q; repeat (destruct Q as [Q|Q]; [discriminate Q|]); exact Q.
    - rewrite Forall_forall in W1, B1. split; [apply (W1 n I)|exact (B1 n I)]. }
  split; intros l d n I; apply (X l d n I).
Qed.
Print Assumptions C64_disk.

(* the run of C63_not_vacuous: two files and two directories opened and closed *)
Example C65_not_vacuous : let l := log_of (source_run (wsScpSend (disk (ascii "/top") tree3)) turns3 (source0 (ascii "/top") true true ctx0)) in
  filter (fun x => match x with COpendir _ | CFopen _ | CClose _ | CClosedir _ => true | _ => false end) (rev (map fst l)) =
  [COpendir (ascii "/top"); COpendir (ascii "/top/d"); CFopen (ascii "/top/d/f"); CClose 3; CClosedir 0; CFopen (ascii "/top/z"); CClose 3; CClosedir 0].
Proof. vm_compute. reflexivity. Qed.
