(* ScpProps2.v - C60: a whole upload. *)
From Coq Require Import String.
From Verif Require Import Base PathModel WireProofs NegoSpec ScpModel PathSpec PathProofs ScpSpec ScpSpec2 ScpProofs ScpProofs2 ScpProofs3 ScpProofs4 ScpProofs5 ScpProofs6 ScpProps.
From Coq Require Import List NArith ZArith Bool Lia.
Import ListNotations.
Open Scope N_scope.

(* What is sent, with the first thing under the destination's name. *)
Definition expected (k0 : sink) (l : list item) : list thing :=
  placed [] (if k_rename k0 then rename_first (k_name k0) l else l).

(* If everything works and the receiver has taken exactly the bytes of the
   sender and come to its end, everything sent is there. *)
Definition C60_full : Prop := forall E k0 l es k', kind E -> starts E k0 -> (k_rename k0 = true -> plain (k_name k0)) ->
  items_ok 0 l -> sink_run E es k0 = Some k' -> k_st k' = SCP_DONE -> k_taken k' = script l ->
  made (k_log k') = expected k0 l.

(* Two files; the read for the confirmation after the first also takes the
   second. *)
Definition two_files : list item :=
  [IFile None (ascii "0644") (ascii "1") (ascii "a") (ascii "x"); IFile None (ascii "0644") (ascii "1") (ascii "b") (ascii "y")].
Definition joined : list sev :=
  [EAgain; ESent 1; EData (ascii "C0644 1 a" ++ nl); ESent 1; EData (ascii "x"); ESent 1;
   EData ([0] ++ ascii "C0644 1 b" ++ nl ++ ascii "y" ++ [0]); EEnd].
Lemma good_kind : kind good_sys.
Proof. intros l c. destruct c; cbn; auto. lia. Qed.

Ltac not_in := cbn; let X := fresh in intros X; repeat (destruct X as [X|X]; [discriminate|]); exact X.
Lemma plain_1 : forall c, c <> 46 -> c <> 47 -> c <> 92 -> plain [c].
Proof. intros c A B D. repeat split; try discriminate; try congruence; intros [Q|[]]; congruence. Qed.

Lemma header_small : forall t o ds n, header t o ds n = t :: o ++ [32] ++ ds ++ [32] ++ n.
Proof. reflexivity. Qed.

Lemma two_files_ok : items_ok 0 two_files.
Proof.
  assert (O : octals (ascii "0644")) by (split; [reflexivity|]; cbn; repeat constructor; discriminate).
  assert (D : digits (ascii "1")) by (split; [discriminate|]; repeat constructor; discriminate).
  assert (V : value 10 (ascii "1") = 1) by (vm_compute; reflexivity).
  unfold two_files. cbn [items_ok times_ok]. unfold header_ok, name_ok, text_ok. rewrite V.
  repeat (split; [try exact I; try exact O; try exact D; try reflexivity; try (vm_compute; discriminate); try not_in|]);
    try exact I; try reflexivity; try not_in; try (vm_compute; discriminate); try (repeat split; try (vm_compute; discriminate); not_in).
Qed.

Lemma plain_up : plain (ascii "up").
Proof. repeat split; try discriminate; not_in. Qed.

Theorem C60_refuted : ~ C60_full.
Proof.
  intros H. destruct (serve good_sys upload) as [r k] eqn:Sv.
  assert (K : k = snd (serve good_sys upload)) by (rewrite Sv; reflexivity).
  assert (R : r = WS_SUCCESS) by (vm_compute in Sv; congruence). subst r.
  destruct (sink_run good_sys joined k) as [k'|] eqn:Rn; [|exact (run_some _ _ _ Rn)].
  assert (Q : option_map (fun x => (k_st x, k_taken x, Datatypes.length (made (k_log x)))) (sink_run good_sys joined (snd (serve good_sys upload))) =
    Some (SCP_DONE, script two_files, 1%nat)) by (vm_compute; reflexivity).
  rewrite <- K, Rn in Q. cbn [option_map] in Q.
  assert (Q1 : k_st k' = SCP_DONE) by congruence. assert (Q2 : k_taken k' = script two_files) by congruence.
  assert (Q3 : Datatypes.length (made (k_log k')) = 1%nat) by congruence.
  assert (P : k_name k = ascii "up" /\ k_rename k = true) by (rewrite K; vm_compute; auto). destruct P as [P1 P2].
  specialize (H good_sys k two_files joined k' good_kind (or_introl (ex_intro _ upload Sv))).
  rewrite H in Q3; try assumption.
  - unfold expected in Q3. rewrite P2 in Q3. discriminate Q3.
  - intros _. rewrite P1. exact plain_up.
  - exact two_files_ok.
Qed.
Print Assumptions C60_refuted.

(* With a sender that waits for each confirmation, and whose own confirmation
   after a file is read by itself: for every list of files and directories,
   however the messages and the contents are cut into pieces and whatever
   pauses there are, the receiver comes to its end, has answered nothing but
   positive confirmations, and exactly the things sent are there: in the same
   places, with the same names, contents and times. *)
Theorem C60_upload_partial : forall E k0 l es, kind E -> starts E k0 -> (k_rename k0 = true -> plain (k_name k0)) ->
  items_ok 0 l -> lenN l < 4294967296 -> session_of l es ->
  exists k', sink_run E es k0 = Some k' /\ k_st k' = SCP_DONE /\ made (k_log k') = expected k0 l /\
    Forall (fun b => b = 0) (k_out k').
Proof.
  intros E k0 l es KE Hs Rn OK Ll [e a b A S].
  destruct (starts_started E k0 Hs) as (St & P & _ & O & _ & M & _ & _ & Ou & Tm & Ta & _). cbn in P, O, M, Ou, Tm, Ta.
  set (ren := if k_rename k0 then Some (k_name k0) else None).
  change (e :: a ++ b ++ [EEnd]) with ([e] ++ a ++ b ++ [EEnd]). rewrite run_app.
  assert (B : exists k1, sink_run E [e] k0 = Some k1 /\ Answer RECEIVE_MESSAGE [] ren 0 0 [] k1).
  { cbn [sink_run]. unfold sink_step. rewrite St. eexists. split; [reflexivity|]. unfold cb_request, call, go. cbv zeta.
    cbn [k_log k_base set_st]. assert (Q := KE (k_log k0) (SChdir (k_base k0))). cbn in Q. rewrite Q. change (0 =? 0)%Z with true. cbv iota.
    assert (Rp : replay (k_log k0) = mkDisk None None []).
    { clear - P. induction P as [|[c r] l (p & Hp) Hl IH]; [reflexivity|]. cbn [fst] in Hp. subst c. cbn [replay apply_call]. exact IH. }
    constructor; try reflexivity; flds; try assumption.
    - unfold ren, ren_ok. destruct (k_rename k0) eqn:Q1; flds; auto.
    - cbn [replay]. rewrite Rp. reflexivity.
    - rewrite Ou. constructor. }
  destruct B as (k1 & E1 & A1). rewrite E1, run_app.
  destruct (answer_acked E a [] ren 0 0 [] k1 A A1) as (k2 & E2 & R2). rewrite E2, run_app.
  assert (Rc : forall n, ren = Some n -> plain n /\ @nil bytes = []).
  { intros n. unfold ren. destruct (k_rename k0); [|discriminate]. intros Q. split; [|reflexivity].
    assert (n = k_name k0) by congruence. subst. apply Rn. reflexivity. }
  destruct (items_run E l b S [] ren [] k2 KE OK Rc ltac:(change (lenN (@nil bytes)) with 0; unfold W32; lia) R2) as (k3 & s3 & r3 & E3 & R3).
  rewrite E3. destruct R3 as [H1 HC H2 H3 H4 H5 H6 H7 H8 H9]. cbn [sink_run]. unfold sink_step. rewrite H1, H2.
  change (SCP_MSG_SZ - 1 <=? lenN (@nil N)) with false. cbv iota. eexists. split; [reflexivity|]. split; [reflexivity|].
  cbn [k_log k_out set_st]. split; [|exact H9]. unfold made. rewrite H8. cbn [d_made]. rewrite app_nil_r, rev_involutive.
  unfold expected, renamed, ren. destruct (k_rename k0); reflexivity.
Qed.
Print Assumptions C60_upload_partial.

(* The same for an upload to an absolute destination: the first thing is stored
   under the last component, all of it in the parent directory. *)
Theorem C60_destination_partial : forall E fs cs c l es k0, kind E -> Forall plain (cs ++ [c]) ->
  Forall (fun c => ~ In 0 c) (cs ++ [c]) -> ~ In 58 c -> lenN (path_of (cs ++ [c])) + 4 <= 1024 ->
  quiet (path_of (cs ++ [c])) 0 -> Forall (fun c => c <> 116 /\ c <> 102) fs ->
  serve E (scp_to fs (path_of (cs ++ [c]))) = (WS_SUCCESS, k0) ->
  items_ok 0 l -> lenN l < 4294967296 -> session_of l es ->
  exists k', sink_run E es k0 = Some k' /\ k_st k' = SCP_DONE /\ made (k_log k') = placed [] (rename_first c l) /\
    confined (flat_map (cons 47) cs ++ [47]) (k_log k').
Proof.
  intros E fs cs c l es k0 KE F Z Hc L Q Fl Sv OK Ll S.
  pose proof (C62_destination_partial E fs cs c F Z Hc L Q Fl) as D. cbv zeta in D. rewrite Sv in D.
  destruct D as (_ & _ & D). destruct (D eq_refl) as (_ & _ & N1 & R1).
  assert (Pc : plain c) by (apply Forall_app in F; destruct F as [_ F]; inversion F; assumption).
  destruct (C60_upload_partial E k0 l es KE (or_introl (ex_intro _ _ Sv)) ltac:(intros _; rewrite N1; exact Pc) OK Ll S) as (k' & R & Dn & Md & _).
  exists k'. split; [exact R|]. split; [exact Dn|]. split.
  - rewrite Md. unfold expected. rewrite R1, N1. reflexivity.
  - exact (C57_destination_partial E fs cs c es k0 k' F Z Hc L Q Fl Sv R).
Qed.
Print Assumptions C60_destination_partial.

(* A concrete session of this kind. *)
Definition tree : list item :=
  [IDir (ascii "0755") (ascii "0") (ascii "d");
   IFile (Some (ascii "17", ascii "18")) (ascii "0644") (ascii "5") (ascii "a") (ascii "hello");
   IFile None (ascii "0600") (ascii "0") (ascii "e") []; IEnd].
Definition tree_session : list sev :=
  EAgain :: [ESent 1] ++
  (([EData (ascii "D0755 0"); EAgain; EData (ascii " d" ++ nl)] ++ [ESent 0; ESent 1]) ++
   (([EData (ascii "T17 0 18 0" ++ nl)] ++ [ESent 1]) ++
    ([EData (ascii "C0644 5 a" ++ nl)] ++ [ESent 1]) ++ [EData (ascii "he"); EAgain; EData (ascii "llo")] ++ [ESent 1] ++ [EAgain; EData [0]]) ++
   (([EData (ascii "C0600 0 e" ++ nl)] ++ [ESent 1]) ++ [EAgain] ++ [ESent 1] ++ [EData [0]]) ++
   ([EData (ascii "E" ++ nl)] ++ [ESent 1]) ++ []) ++ [EEnd].

Ltac one := first [apply acked_now | apply acked_wait; one | apply acked_none; one].
Ltac rd1 := match goal with |- reads ?m [EData ?d] => change m with d; apply reads_last; [discriminate|vm_compute; discriminate] end.
Example C60_session : session_of tree tree_session.
Proof.
  unfold tree_session, tree. constructor; [one|].
  apply (sends_cons _ _ ([EData (ascii "D0755 0"); EAgain; EData (ascii " d" ++ nl)] ++ [ESent 0; ESent 1])).
  { apply sends_dir. constructor; [|one].
    change (header 68 (ascii "0755") (ascii "0") (ascii "d") ++ [10]) with (ascii "D0755 0" ++ (ascii " d" ++ nl)).
    apply reads_some; [discriminate|vm_compute; discriminate|]. apply reads_wait. rd1. }
  apply sends_cons.
  { apply sends_timed.
    - constructor; [rd1|one].
    - apply sends_file; [constructor; [rd1|one]| |one|apply confirms_wait; apply confirms_now].
      apply data_some; [discriminate|]. change (ascii "hello") with (ascii "he" ++ ascii "llo").
      apply reads_some; [discriminate|vm_compute; discriminate|]. apply reads_wait. rd1. }
  apply sends_cons.
  { apply sends_file; [constructor; [rd1|one]|apply data_none|one|apply confirms_now]. }
  apply sends_cons; [|apply sends_nil].
  apply sends_end. constructor; [rd1|one].
Qed.
Example C60_tree_ok : items_ok 0 tree.
Proof.
  assert (O1 : octals (ascii "0644")) by (split; [reflexivity|]; cbn; repeat constructor; discriminate).
  assert (O2 : octals (ascii "0600")) by (split; [reflexivity|]; cbn; repeat constructor; discriminate).
  assert (O3 : octals (ascii "0755")) by (split; [reflexivity|]; cbn; repeat constructor; discriminate).
  assert (D0 : digits (ascii "0")) by (split; [discriminate|]; repeat constructor; discriminate).
  assert (D1 : digits (ascii "5")) by (split; [discriminate|]; repeat constructor; discriminate).
  assert (D2 : digits (ascii "17")) by (split; [discriminate|]; repeat constructor; discriminate).
  assert (D3 : digits (ascii "18")) by (split; [discriminate|]; repeat constructor; discriminate).
  assert (V0 : value 10 (ascii "0") = 0) by (vm_compute; reflexivity).
  assert (V1 : value 10 (ascii "5") = 5) by (vm_compute; reflexivity).
  assert (V2 : value 10 (ascii "17") = 17) by (vm_compute; reflexivity).
  assert (V3 : value 10 (ascii "18") = 18) by (vm_compute; reflexivity).
  assert (P : plain (ascii "a") /\ plain (ascii "d") /\ plain (ascii "e")) by (repeat split; try discriminate; not_in).
  destruct P as (P1 & P2 & P3).
  unfold tree. cbn [items_ok times_ok]. unfold header_ok, name_ok, text_ok. rewrite V0, V1, V2, V3.
  repeat match goal with |- _ /\ _ => split end;
    first [assumption | exact I | reflexivity | (vm_compute; discriminate) | not_in | (left; discriminate)].
Qed.
Example C60_made : option_map (fun k => made (k_log k)) (after upload tree_session) =
  Some [ADir [] (ascii "up") 493; AFile [ascii "up"] (ascii "a") (ascii "hello") (Some (17, 18)); AFile [ascii "up"] (ascii "e") [] None].
Proof. vm_compute. reflexivity. Qed.
