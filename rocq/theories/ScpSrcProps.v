(* ScpSrcProps.v - C61: what an SCP sender sends. *)
From Coq Require Import String.
From Verif Require Import Base WireProofs NegoSpec PathSpec ScpModel ScpSpec ScpSpec2 ScpProps2 ScpSrcModel ScpSrcSpec ScpSrcProofs ScpSrcProofs2 ScpSrcProofs3.
From Coq Require Import List NArith ZArith Bool Lia.
Import ListNotations.
Open Scope N_scope.

(* Whatever the callback answers and whatever the channel does: in every turn
   the sender says what the answers call for, it never speaks out of turn, and
   a turn begins only when the peer has confirmed. *)
Definition C61_full : Prop := forall (C : Type) (B : callbacks C) es base rec ts c w,
  came (source_run B es (source0 base rec ts c)) w ->
  so_far (turns_of (w_trace w)) (to_say ts (w_first w) (w_ans w)) /\
  Forall confirms_turn (w_trace w).

(* A file of three bytes, offered in two parts. *)
Definition hello : answer := mkAns RComplete [] 0 0 0 0 None.
Definition gone : answer := mkAns RFinal [] 0 0 0 0 None.
Definition part1 : answer := mkAns (RData (ascii "ab")) (ascii "f") 7 8 420 3 None.
Definition part2 : answer := mkAns (RData (ascii "c")) (ascii "f") 7 8 420 3 None.
Definition enter : answer := mkAns REnter (ascii "d") 0 0 493 0 None.

(* Data on the error stream stands for the first confirmation. *)
Theorem C61_refuted : ~ C61_full.
Proof.
  intros H.
  assert (Q : exists w, source_run teller [WWant; WWant; WExt] (source0 [] true false [hello; enter]) = Go w /\ w_trace w = [Heard None]).
  { eexists. split; [vm_compute; reflexivity|reflexivity]. }
  destruct Q as (w & E & T). destruct (H _ teller _ _ _ _ _ w (or_introl E)) as [_ F]. rewrite T in F. inversion F as [|x y Q]. exact Q.
Qed.
Print Assumptions C61_refuted.

(* Missing: what counts as a confirmation (next theorem). *)
Theorem C61_turns_partial : forall (C : Type) (B : callbacks C) es base rec ts c w,
  came (source_run B es (source0 base rec ts c)) w ->
  so_far (turns_of (w_trace w)) (to_say ts (w_first w) (w_ans w)) /\
  (source_run B es (source0 base rec ts c) = Go w -> w_st w = W_DONE ->
   turns_of (w_trace w) = to_say ts (w_first w) (w_ans w)).
Proof.
  intros C B es base rec ts c w H. split; [eapply run_turns; exact H|]. intros G D. eapply run_done; [exact G|exact D].
Qed.
Print Assumptions C61_turns_partial.

(* Missing: peers that send data on the error stream or empty data. *)
Theorem C61_confirmed_partial : forall (C : Type) (B : callbacks C) es base rec ts c w,
  Forall fair es -> came (source_run B es (source0 base rec ts c)) w -> Forall confirms_turn (w_trace w).
Proof.
  intros C B es base rec ts c w F H. pose proof (heard_run C B es (source0 base rec ts c) F (Forall_nil _)) as G.
  destruct H as [H|H]; rewrite H in G; exact G.
Qed.
Print Assumptions C61_confirmed_partial.

(* When the answers offer files and directories, these are sent: the texts,
   the contents and the ends of the files, each in its turn; and when the
   sender is done, all of them have been sent and nothing else. *)
Theorem C61_items_partial : forall (C : Type) (B : callbacks C) es base rec ts c w f l rest,
  came (source_run B es (source0 base rec ts c)) w ->
  w_first w = Some f -> a_ret f <> RAbort -> a_ret f <> REof ->
  offers_all ts l (w_ans w ++ rest) -> Forall fits l ->
  so_far (turns_of (w_trace w)) ([] :: flat_map item_turns l ++ [[]]) /\
  (source_run B es (source0 base rec ts c) = Go w -> w_st w = W_DONE -> rest = [] ->
   turns_of (w_trace w) = [] :: flat_map item_turns l ++ [[]] /\
   List.concat (turns_of (w_trace w)) = script l).
Proof.
  intros C B es base rec ts c w f l rest H F Na Ne O Ft.
  assert (N : is_normal (w_first w)) by (exists f; auto). split.
  - eapply so_far_trans; [eapply run_turns; exact H|]. eapply to_say_part; eassumption.
  - intros G D ->. rewrite app_nil_r in O.
    assert (T : turns_of (w_trace w) = [] :: flat_map item_turns l ++ [[]]).
    { rewrite (run_done C B es base rec ts c w G D). apply to_say_items; assumption. }
    split; [exact T|]. rewrite T. cbn [List.concat app]. rewrite concat_app, turns_script. cbn. apply app_nil_r.
Qed.
Print Assumptions C61_items_partial.

(* The sender gets there, if the peer goes along. *)
Theorem C61_completes_partial : forall base ts h l ans last, a_ret h <> RAbort -> a_ret h <> REof ->
  offers_all ts l (ans ++ [last]) -> Forall fits l ->
  Forall (fun a => a_ret a <> RFinal) ans -> a_ret last = RFinal ->
  exists es w, source_run teller es (source0 base true ts (h :: ans ++ [last])) = Go w /\ w_st w = W_DONE /\
    turns_of (w_trace w) = [] :: flat_map item_turns l ++ [[]].
Proof.
  intros base ts h l ans last Na Ne O Ft Nf Lf.
  assert (O2 : exists l1 l2 a2, offers_all ts l1 ans /\ a2 = [last] /\ l = l1 ++ l2).
  { clear - O Nf Lf. remember (ans ++ [last]) as x eqn:E. revert ans E Nf. induction O as [|i l a b Oi O IH]; intros ans E Nf.
    - destruct ans; discriminate E.
    - destruct b as [|b0 bt _] using rev_ind.
      + rewrite app_nil_r in E. destruct Oi as [t o ds a d c l0 R P _ _ _ _ _ _|o a R _|a R].
        * exfalso. assert (Q : Forall (fun x => exists d, a_ret x = RData d) (a :: l0)).
          { constructor; [eauto|]. clear - P. induction P; constructor; eauto. }
          rewrite E in Q. apply Forall_app in Q. destruct Q as [_ Q]. inversion Q as [|x y [d' Q1]]; subst. congruence.
        * destruct ans as [|z [|]]; try discriminate E. injection E as ->. congruence.
        * destruct ans as [|z [|]]; try discriminate E. exists [], (IEnd :: l), [last]. repeat split. constructor.
      + rewrite app_assoc in E. apply app_inj_tail in E. destruct E as [<- ->]. apply Forall_app in Nf. destruct Nf as [N1 N2].
        destruct (IH bt eq_refl N2) as (l1 & l2 & a2 & A & B & D). exists (i :: l1), l2, a2. rewrite D. repeat split; auto. constructor; assumption. }
  destruct O2 as (l1 & l2 & a2 & O1 & _ & _).
  destruct (start_runs h (ans ++ [last]) base ts Na Ne) as (e0 & w0 & E0 & R0).
  destruct (items_run ts l1 ans O1 Nf [last] w0 R0) as (e1 & w1 & E1 & R1).
  assert (E2 : exists e2 w2, source_run teller e2 w1 = Go w2 /\ w_st w2 = W_DONE /\ w_ctx w2 = []).
  { destruct R1 as (S & (C1 & R & T) & B & H & Of & St). eexists [WWant; WSent _; WData [0]], _. split.
    - unfold source_run, source_step at 1. rewrite S, C1. cbn [teller cb_ask app]. rewrite Lf.
      unfold source_step at 1. cbn [w_st to_st]. rewrite say_all. unfold source_step at 1. cbn [w_st to_st]. rewrite hear_ok. reflexivity.
    - split; reflexivity. }
  destruct E2 as (e2 & w2 & E2 & D2 & X2).
  exists (e0 ++ e1 ++ e2), w2.
  assert (Run : source_run teller (e0 ++ e1 ++ e2) (source0 base true ts (h :: ans ++ [last])) = Go w2).
  { rewrite (run_app _ _ _ _ _ _ E0), (run_app _ _ _ _ _ _ E1). exact E2. }
  split; [exact Run|]. split; [exact D2|].
  assert (K : Asked h (ans ++ [last]) w2).
  { eapply asked_run; [| |exact Run]; [apply start_good|]. unfold Asked, source0. cbn. auto. }
  unfold Asked in K. pose proof (run_good _ teller (e0 ++ e1 ++ e2) _ (start_good _ base true ts (h :: ans ++ [last]))) as G.
  rewrite (run_done _ teller _ base true ts _ w2 Run D2).
  destruct (w_first w2) as [x|] eqn:Fx.
  - destruct K as [-> K]. rewrite X2, app_nil_r in K. rewrite K. apply to_say_items; auto. exists h. auto.
  - destruct K as [K _]. rewrite X2 in K. discriminate K.
Qed.
Print Assumptions C61_completes_partial.

(* What is offered is received: a receiver taking these items from a peer that
   waits for its answers has them all on its disk (C60). *)
Theorem C61_received_partial : forall ts l ans E k0 es, offers_all ts l ans -> Forall fits l -> carried 0 l ->
  kind E -> starts E k0 -> (k_rename k0 = true -> plain (k_name k0)) -> lenN l < 4294967296 -> session_of l es ->
  exists k', sink_run E es k0 = Some k' /\ k_st k' = SCP_DONE /\ made (k_log k') = expected k0 l.
Proof.
  intros ts l ans E k0 es O F K KE S R L Se.
  destruct (C60_upload_partial E k0 l es KE S R (offered_ok ts l ans O 0 F K) L Se) as (k' & A & B & D & _).
  exists k'. auto.
Qed.
Print Assumptions C61_received_partial.

(* ------------------------------------------------------------------ *)
(* a directory with a file in two parts, with times *)
Definition tree1 : list item :=
  [IDir (ascii "0755") (ascii "0") (ascii "d"); IFile (Some (ascii "7", ascii "8")) (ascii "0644") (ascii "3") (ascii "f") (ascii "abc"); IEnd].
Lemma tree1_offered : offers_all true tree1 ([enter; part1; part2] ++ [gone]).
Proof.
  assert (Dg : forall c, 48 <= c <= 57 -> digits [c]) by (intros; split; [discriminate|constructor; [assumption|constructor]]).
  assert (D1 : decimal 7 (ascii "7")) by (split; [apply Dg; split; discriminate|split; [reflexivity|discriminate]]).
  assert (D2 : decimal 8 (ascii "8")) by (split; [apply Dg; split; discriminate|split; [reflexivity|discriminate]]).
  assert (D3 : decimal 3 (ascii "3")) by (split; [apply Dg; split; discriminate|split; [reflexivity|discriminate]]).
  assert (O1 : octal4 (N.land 493 511) (ascii "0755")) by (split; [split; [reflexivity|]; cbn; repeat constructor; discriminate|reflexivity]).
  assert (O2 : octal4 (N.land 420 511) (ascii "0644")) by (split; [split; [reflexivity|]; cbn; repeat constructor; discriminate|reflexivity]).
  unfold tree1. apply (offers_cons true _ _ [enter] ([part1; part2] ++ [gone])); [|apply (offers_cons true _ _ [part1; part2] [gone])].
  - apply (offers_dir true (ascii "0755") enter); [reflexivity|exact O1].
  - apply (offers_file true (Some (ascii "7", ascii "8")) (ascii "0644") (ascii "3") part1 (ascii "ab") (ascii "c") [part2]); auto; try reflexivity.
    + apply (parts_cons 3 part2 (ascii "c") [] []); try reflexivity; [discriminate|constructor].
    + discriminate.
    + exists (ascii "7"), (ascii "8"). auto.
  - apply (offers_cons true IEnd [] [gone] []); [|constructor]. apply offers_end. right. reflexivity.
Qed.
Example C61_not_vacuous : exists es w,
  source_run teller es (source0 [] true true (hello :: [enter; part1; part2] ++ [gone])) = Go w /\ w_st w = W_DONE /\
  turns_of (w_trace w) = [[]; ascii "D0755 0 d" ++ [10]; ascii "T7 0 8 0" ++ [10]; ascii "C0644 3 f" ++ [10]; ascii "abc" ++ [0]; ascii "E" ++ [10]; []].
Proof.
  apply (C61_completes_partial [] true hello tree1 [enter; part1; part2] gone); try discriminate.
  - exact tree1_offered.
  - repeat constructor; cbn; try (vm_compute; discriminate).
  - repeat constructor; discriminate.
  - reflexivity.
Qed.
