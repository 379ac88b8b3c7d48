(* SshdRelayProps.v - C78 and C79: what passes between a session's program and
   the client. *)
From Coq Require Import List NArith ZArith Lia Bool.
From Verif Require Import Base SshdRelayModel SshdRelaySpec SshdRelayProofs.
Import ListNotations.
Open Scope N_scope.

(* ---- C78 ------------------------------------------------------------------ *)
(* At every moment what was sent on each stream is a beginning of what the
   program wrote there: nothing is repeated, reordered or mixed. *)
Theorem C78_prefix : forall piped out err ts,
  fits piped out err init ts ->
  prefix (r_out (run piped ts init)) out /\ prefix (r_err (run piped ts init)) err.
Proof.
  intros piped out err ts F. pose proof (run_ok piped out err ts init (Inv_init out err) F) as (A & B & C & D).
  destruct (r_stop (run piped ts init)) as [[| |]|].
  - destruct D as (D1 & _ & D2). rewrite D1. split; [apply prefix_refl|]. rewrite <- D2. exact B.
  - destruct D as [D1 D2]. split; [exact (prefix_trans _ _ _ D1 A)|exact (prefix_trans _ _ _ D2 B)].
  - destruct D as [D1 D2]. rewrite D1 in A. rewrite D2 in B. split; (eapply prefix_trans; [apply prefix_app|eassumption]).
  - destruct D as [D1 D2]. rewrite D1 in A. rewrite D2 in B. split; (eapply prefix_trans; [apply prefix_app|eassumption]).
Qed.
(* While the loop runs, what was read from the program has been sent, except
   the bytes held for one of the streams. *)
Theorem C78_held : forall piped out err ts,
  fits piped out err init ts ->
  let s := run piped ts init in
  r_stop s = None ->
  (r_rout s = r_out s ++ r_held s /\ r_rerr s = r_err s) \/ (r_rout s = r_out s /\ r_rerr s = r_err s ++ r_held s).
Proof.
  intros piped out err ts F s N. pose proof (run_ok piped out err ts init (Inv_init out err) F) as (A & B & C & D).
  fold s in D. rewrite N in D. unfold h_out, h_err in D. destruct (r_ext s); rewrite app_nil_r in D; [right|left]; exact D.
Qed.
(* When the loop ends because all is done, all of the output was sent, and all
   of stderr that was read. *)
Theorem C78_normal : forall piped out err ts,
  fits piped out err init ts ->
  let s := run piped ts init in
  r_stop s = Some Normal -> r_out s = out /\ r_err s = r_rerr s.
Proof.
  intros piped out err ts F s N. pose proof (run_ok piped out err ts init (Inv_init out err) F) as (A & B & C & D).
  fold s in D. rewrite N in D. destruct D as (D1 & _ & D2). auto.
Qed.

(* The whole property: when the relay ends without a failure of the connection
   the client has been sent all that the program wrote. *)
Definition C78_full : Prop := forall piped out err ts o e ro re w,
  fits piped out err init ts ->
  let s := run piped ts init in
  r_stop s = Some w -> w <> Broken ->
  rest_ok out (r_rout s) o -> rest_ok err (r_rerr s) e -> at_once o ro -> at_once e re ->
  let f := finish piped o e ro re s in
  r_out f = out /\ (piped = true -> r_err f = err).
(* The same where the loop ends by its condition. *)
Definition C78_normal_full : Prop := forall piped out err ts o e ro re,
  fits piped out err init ts ->
  let s := run piped ts init in
  r_stop s = Some Normal ->
  rest_ok out (r_rout s) o -> rest_ok err (r_rerr s) e -> at_once o ro -> at_once e re ->
  let f := finish piped o e ro re s in
  r_out f = out /\ (piped = true -> r_err f = err).
(* A client that ends its input still gets the output. *)
Definition C78_eof_full : Prop := forall piped out err ts,
  fits piped out err init ts -> Forall sound ts -> r_stop (run piped ts init) <> Some Broken.

Definition long : bytes := repeat 7 (N.to_nat 40000).
(* stderr is closed while errno is that of an earlier call *)
Definition stale : turn :=
  Turn false false false (SelReady false true true) WOk [] false 0 SFull (REnd true) SFull (RFail false) SFull.
Theorem C78_refuted : ~ C78_full.
Proof.
  intro H. specialize (H true long [] [stale] (takeN 32768 long) [] [SSent 32768] [] Quit).
  assert (E : run true [stale] init = halt Quit init) by reflexivity. cbv zeta in H. rewrite E in H.
  destruct H as [H _].
  - cbn [fits]. split; [|exact I]. unfold turn_ok. cbn. auto.
  - reflexivity.
  - discriminate.
  - exists long. split; reflexivity.
  - exists []. split; reflexivity.
  - right. exists 32768, []. split; [reflexivity|]. vm_compute. discriminate.
  - left. reflexivity.
  - assert (L : lenN (r_out (finish true (takeN 32768 long) [] [SSent 32768] [] (halt Quit init))) = 32768) by (vm_compute; reflexivity).
    rewrite H in L. vm_compute in L. discriminate.
Qed.
(* stderr may have more left than one read gives *)
Theorem C78_stderr_refuted : ~ C78_normal_full.
Proof.
  intro H. specialize (H true [] long [ends; ends] [] (takeN 32768 long) [] [SSent 32768]).
  cbv zeta in H. destruct H as [_ H].
  - cbn [fits]. unfold turn_ok. cbn. auto 10.
  - reflexivity.
  - exists []. split; reflexivity.
  - exists long. split; reflexivity.
  - left. reflexivity.
  - right. exists 32768, []. split; [reflexivity|]. vm_compute. discriminate.
  - specialize (H eq_refl).
    assert (L : lenN (r_err (finish true [] (takeN 32768 long) [] [SSent 32768] (run true [ends; ends] init))) = 32768) by (vm_compute; reflexivity).
    rewrite H in L. vm_compute in L. discriminate.
Qed.
(* the client's EOF is answered by an EOF of the server, after which nothing
   can be sent *)
Definition client_eof : turn :=
  Turn false false false (SelReady true false false) WOk [] true 0 SFull (RFail false) SFull (RFail false) SFull.
Theorem C78_eof_refuted : ~ C78_eof_full.
Proof.
  intro H. apply (H true [1;2;3] [] [client_eof; says [1;2;3]]).
  - cbn [fits]. unfold turn_ok. cbn. repeat split; try discriminate; try lia. exists []. reflexivity.
  - repeat constructor; cbn; discriminate.
  - reflexivity.
Qed.

(* What is missing in C78_full: at the end each stream must have no more than
   one read left, nothing may be held, and the client must not have sent EOF. *)
Theorem C78_end_partial : forall piped out err ts o e ro re w,
  fits piped out err init ts ->
  let s := run piped ts init in
  r_stop s = Some w -> w <> Broken -> r_eof s = false -> r_held s = [] -> (piped = false -> w = Normal) ->
  rest_ok out (r_rout s) o -> rest_ok err (r_rerr s) e -> at_once o ro -> at_once e re ->
  lenN out <= lenN (r_rout s) + 32768 -> lenN err <= lenN (r_rerr s) + 32768 ->
  let f := finish piped o e ro re s in
  r_out f = out /\ (piped = true -> r_err f = err).
Proof.
  intros piped out err ts o e ro re w F s N NB EF HE PW RO RE AO AE LO LE f.
  pose proof (run_ok piped out err ts init (Inv_init out err) F) as (A & B & C & D). fold s in A, B, C, D. rewrite N in D.
  assert (X : (w = Normal -> r_out s = out) /\ r_rout s = r_out s /\ r_rerr s = r_err s).
  { unfold h_out, h_err in D. rewrite HE in D. destruct w; [|congruence|].
    - destruct D as (D1 & D2 & D3). auto.
    - split; [discriminate|]. destruct (r_ext s); rewrite !app_nil_r in D; exact D. }
  destruct X as (X0 & X1 & X2).
  destruct RO as (xo & RO & EO). destruct RE as (xe & RE & EE).
  assert (SO : o = xo) by (rewrite EO; apply take_all; rewrite RO in LO; unfold lenN in *; rewrite app_length in LO; lia).
  assert (SE : e = xe) by (rewrite EE; apply take_all; rewrite RE in LE; unfold lenN in *; rewrite app_length in LE; lia).
  unfold f, finish. destruct piped.
  - unfold drain. cbn [r_eof log_sent log_read r_out r_err]. rewrite EF.
    unfold FLUSH_TRIES. rewrite (flush_one 9 o ro AO), (flush_one 9 e re AE). subst o e. rewrite <- X1, <- X2, RO at 1. split; [congruence|]. intros _. congruence.
  - split; [exact (X0 (PW eq_refl))|discriminate].
Qed.

(* Output that is taken as it comes arrives whole. *)
Theorem C78_delivers : forall piped bs,
  Forall (fun b => b <> [] /\ lenN b <= 32768) bs ->
  let ts := map says bs ++ [ends; ends] in
  fits piped (concat bs) [] init ts /\ r_stop (run piped ts init) = Some Normal /\ r_out (run piped ts init) = concat bs.
Proof.
  intros piped bs F ts.
  set (at_ := fun b : bytes => RS [] false false true false true true false [] [] [] b [] b [] None).
  assert (ST : forall b c, c <> [] -> step piped (at_ b) (says c) = at_ (b ++ c)).
  { intros b c NC. unfold step, at_, says. cbn -[takeN lenN N.ltb]. rewrite andb_false_r. cbn -[takeN lenN N.ltb].
    rewrite N.ltb_irrefl, andb_false_r. rewrite (take_all (lenN c) c) by lia. cbn. reflexivity. }
  assert (G : forall l b x, Forall (fun b => b <> [] /\ lenN b <= 32768) l -> fits piped (b ++ concat l ++ x) [] (at_ b) (map says l) /\ run piped (map says l) (at_ b) = at_ (b ++ concat l)).
  { induction l as [|c l IH]; intros b x Fl; cbn [map fits run fold_left concat].
    - rewrite app_nil_r. split; [exact Logic.I|reflexivity].
    - inversion Fl as [|? ? [C1 C2] Fl']; subst. rewrite (ST b c C1).
      destruct (IH (b ++ c) x Fl') as [I1 I2]. rewrite <- !app_assoc in I1. unfold run in I2. rewrite I2.
      split; [|now rewrite <- app_assoc]. split; [|rewrite <- app_assoc; exact I1].
      unfold turn_ok, says, at_. cbn -[lenN]. repeat split; try assumption.
      + exists (concat l ++ x). now rewrite <- !app_assoc.
      + destruct c; [congruence|]. unfold lenN. cbn [List.length]. lia. }
  destruct (G bs [] [] F) as [G1 G2]. cbn [app] in G1, G2. rewrite app_nil_r in G1.
  assert (FA : forall l s r, fits piped (concat bs) [] s l -> fits piped (concat bs) [] (run piped l s) r -> fits piped (concat bs) [] s (l ++ r)).
  { induction l as [|t l IH]; intros s r A B; cbn [app fits]; [exact B|]. destruct A as [A1 A2]. split; [exact A1|]. apply IH; [exact A2|exact B]. }
  unfold ts. split.
  - apply FA; [exact G1|]. change init with (at_ []). rewrite G2. cbn [fits]. split; [unfold turn_ok, at_, ends; cbn; auto|]. split; [|exact Logic.I].
    unfold at_, ends, turn_ok. destruct piped; cbn; auto.
  - unfold run in *. rewrite fold_left_app. change init with (at_ []). rewrite G2. unfold at_, ends. destruct piped; cbn; auto.
Qed.

(* Partial sends, a full window, a full socket and both streams. *)
Definition busy : list turn :=
  [ Turn false false false (SelReady false true true) WOk [] false 0 SFull (RData [9;8;7]) (SSent 1) (RFail false) SFull;
    Turn false false false (SelReady false true true) WWantRead [] false 0 SFull (RFail false) SFull (RFail false) SFull;
    Turn false false false (SelReady true true true) WWantRead [] false 0 (SSent 5) (RFail false) SFull (RData [1;2;3]) SWant;
    Turn true false false (SelReady true true true) WWantRead [] false 0 (SSent 2) (RFail false) SFull (RFail false) SFull;
    Turn false false false (SelReady true true true) WWantRead [] false 0 (SSent 1) (REnd false) SFull (RData [4]) (SSent 1);
    Turn false false false (SelReady true true true) WWantRead [] false 0 SFull (REnd false) SFull (REnd false) SFull; ends ].
Example C78_met : fits true [1;2;3;4] [9;8;7] init busy /\ r_stop (run true busy init) = Some Normal /\ r_eof (run true busy init) = false /\ r_held (run true busy init) = [] /\
  r_out (run true busy init) = [1;2;3;4] /\ r_err (run true busy init) = [9;8;7] /\ r_held (run true (firstn 3 busy) init) = [1;2;3].
Proof.
  split; [|repeat split; reflexivity].
  cbn [fits busy]. unfold turn_ok. repeat split; cbn; try discriminate; try lia; try reflexivity; try exact I;
    match goal with |- prefix _ _ => eexists; reflexivity end.
Qed.
Example C78_met2 : r_stop (run true [stale] init) = Some Quit /\ rest_ok [1;2;3] (r_rout (run true [stale] init)) [1;2;3] /\ at_once [1;2;3] [SSent 3] /\
  r_out (finish true [1;2;3] [] [SSent 3] [] (run true [stale] init)) = [1;2;3].
Proof.
  split; [reflexivity|]. split; [exists [1;2;3]; split; reflexivity|]. split; [right; exists 3, []; split; [reflexivity|vm_compute; discriminate]|reflexivity].
Qed.

(* ---- C79 ------------------------------------------------------------------ *)
(* Where the program takes all that is written to it, what it got is a
   beginning of what the client sent; while the loop runs the rest is in the
   channel. *)
Theorem C79_prefix_partial : forall piped ts,
  Forall whole ts ->
  let s := run piped ts init in
  prefix (r_got s) (r_rcvd s) /\ (r_stop s = None -> r_rcvd s = r_got s ++ r_chan s).
Proof.
  intros piped ts F s. destruct (run_in piped ts init F) as [A B].
  - reflexivity.
  - apply prefix_refl.
  - split; [exact B|]. intro N. symmetry. exact (A N).
Qed.

(* The whole property: when the program's input is closed it has got all that
   was received; and when the client is silent and something it sent is left,
   that is passed on. *)
Definition C79_closed_full : Prop := forall ts,
  Forall whole ts -> Forall sound ts ->
  r_stdin (run true ts init) = false -> r_got (run true ts init) = r_rcvd (run true ts init).
Definition C79_passed_full : Prop := forall piped ts,
  Forall whole ts -> Forall sound ts -> r_stop (run piped ts init) = None ->
  exists n, forall l, List.length l = n -> Forall whole l -> Forall silent l ->
  r_got (run piped (ts ++ l) init) = r_rcvd (run piped (ts ++ l) init).

(* The client's data comes while output waits for the window. *)
Definition crossed : list turn :=
  [ Turn false false false (SelReady false true false) WOk [] false 32768 SFull (RFail false) SFull (RData [1]) SFull;
    Turn false false false (SelReady true false false) (WRxd true) [5;6] false 32768 (SSent 1) (RFail false) SFull (RFail false) SFull ].
Definition then_eof : turn :=
  Turn false false false (SelReady true false false) WOk [] true 32768 SFull (RFail false) SFull (RFail false) SFull.
Lemma crossed_whole : Forall whole crossed.
Proof. repeat constructor; unfold whole; cbn; lia. Qed.
Lemma crossed_sound : Forall sound crossed.
Proof. repeat constructor; cbn; discriminate. Qed.
Theorem C79_closed_refuted : ~ C79_closed_full.
Proof.
  intro H. specialize (H (crossed ++ [then_eof])).
  assert (E : r_got (run true (crossed ++ [then_eof]) init) = r_rcvd (run true (crossed ++ [then_eof]) init)).
  { apply H.
    - apply Forall_app. split; [apply crossed_whole|]. repeat constructor. unfold whole. cbn. lia.
    - apply Forall_app. split; [apply crossed_sound|]. repeat constructor; cbn; discriminate.
    - reflexivity. }
  vm_compute in E. discriminate.
Qed.
(* With data of the client left in the channel and the client silent nothing
   passes any more, in either direction: neither its data nor what the program
   writes, for as long as this lasts. *)
Theorem C79_stalls : forall piped l s,
  r_stop s = None -> r_chan s <> [] -> r_eof s = false -> r_held s = [] -> r_empty s = false ->
  Forall silent l ->
  let s' := run piped l s in
  r_stop s' = None /\ r_chan s' = r_chan s /\ r_got s' = r_got s /\ r_rout s' = r_rout s /\ r_rerr s' = r_rerr s.
Proof.
  intros piped l. induction l as [|t l IH]; intros s N C E H M F; cbn [run fold_left]; [auto|].
  inversion F as [|? ? (K & I & EO & W) F']; subst.
  assert (G : exists c, step piped s t = RS [] (r_ext s) false (r_peer s) false c (r_stdin s) false (r_chan s) (r_rcvd s) (r_got s) (r_rout s) (r_rerr s) (r_out s) (r_err s) None).
  { exists (r_child s && negb (t_exit t) && negb (t_late t)).
    destruct s as [held ext wt pr em ch si eo cn rc gt ro re ou er st]. cbn in N, C, E, H, M. subst st eo held em.
    unfold step. cbn [r_stop].
    assert (X : exited (t_exit t) (RS [] ext wt pr false ch si false cn rc gt ro re ou er None) = RS [] ext wt pr false (ch && negb (t_exit t)) si false cn rc gt ro re ou er None).
    { unfold exited. destruct (t_exit t); cbn; rewrite ?andb_false_r, ?andb_true_r; reflexivity. }
    rewrite X. unfold goes_on. cbn [r_child r_held nonempty r_empty negb]. rewrite orb_true_r. cbn [orb].
    unfold body, pending. cbn [r_eof r_chan]. rewrite K. destruct cn as [|x cn]; [congruence|]. cbn [negb andb nonempty r_want r_held orb].
    rewrite !orb_true_r. unfold input. rewrite W, I, EO. cbn [receive want]. cbn -[exited]. rewrite andb_false_r. cbn -[exited].
    unfold exited. destruct (t_late t); cbn; rewrite ?andb_false_r, ?andb_true_r, ?app_nil_r; unfold receive, want; cbn; rewrite ?app_nil_r; reflexivity. }
  destruct G as [c G]. unfold run in IH. rewrite G.
  destruct (IH (RS [] (r_ext s) false (r_peer s) false c (r_stdin s) false (r_chan s) (r_rcvd s) (r_got s) (r_rout s) (r_rerr s) (r_out s) (r_err s) None)) as (A & B & D & O & R); try reflexivity; try assumption.
  cbn in *. auto.
Qed.
Lemma crossed_left : exists s, run true crossed init = s /\ r_stop s = None /\ r_chan s = [5;6] /\ r_eof s = false /\ r_held s = [] /\ r_empty s = false.
Proof. eexists. split; [vm_compute; reflexivity|]. repeat split. Qed.
Theorem C79_passed_refuted : ~ C79_passed_full.
Proof.
  intro H. destruct crossed_left as (s & R & A1 & A2 & A3 & A4 & A5).
  destruct (H true crossed crossed_whole crossed_sound) as [n Hn]; [rewrite R; exact A1|].
  set (q := Turn false false false (SelReady false true true) WWantRead [] false 32768 SFull (RFail false) SFull (RFail false) SFull) in *.
  specialize (Hn (repeat q n) (repeat_length q n)).
  assert (W : Forall whole (repeat q n)). { apply Forall_forall. intros x X. apply repeat_spec in X. subst x. apply N.le_refl. }
  assert (S : Forall silent (repeat q n)). { apply Forall_forall. intros x X. apply repeat_spec in X. subst x. repeat split. }
  specialize (Hn W S).
  destruct (C79_prefix_partial true (crossed ++ repeat q n)) as [_ P]; [apply Forall_app; split; [apply crossed_whole|exact W]|].
  assert (Q : run true (crossed ++ repeat q n) init = run true (repeat q n) s) by (rewrite <- R; apply fold_left_app).
  rewrite Q in *. clearbody q. clear Q R.
  destruct (C79_stalls true (repeat q n) s A1) as (A & B & C & _); try assumption; [rewrite A2; discriminate|].
  specialize (P A). rewrite <- Hn, B, A2 in P.
  apply (f_equal (@List.length N)) in P. rewrite app_length in P. cbn [List.length] in P. lia.
Qed.
(* What is missing: data must come when no output is held, and be announced. *)
Theorem C79_delivered_partial : forall piped ts,
  Forall whole ts -> calm piped init ts ->
  r_stop (run piped ts init) = None -> r_got (run piped ts init) = r_rcvd (run piped ts init).
Proof.
  intros piped ts W C N.
  assert (G : forall l s, Forall whole l -> calm piped s l -> (r_stop s = None -> r_chan s = []) -> (r_stop (run piped l s) = None -> r_chan (run piped l s) = [])).
  { induction l as [|t l IH]; intros s Wl Cl I; cbn [run fold_left]; [exact I|].
    inversion Wl as [|? ? W1 W2]; subst. destruct Cl as [C1 C2]. apply IH; [exact W2|exact C2|]. exact (calm_step piped t s W1 C1 I). }
  destruct (C79_prefix_partial piped ts W) as [_ P]. specialize (P N).
  rewrite (G ts init W C (fun _ => eq_refl) N), app_nil_r in P. congruence.
Qed.
Definition typed : list turn :=
  [ Turn false false false (SelReady true false false) (WRxd true) [5;6] false 32768 SFull (RFail false) SFull (RFail false) SFull;
    Turn false false false (SelReady true true false) (WRxd true) [7] false 32768 SFull (RFail false) SFull (RData [1]) (SSent 1);
    then_eof ].
Example C79_met : Forall whole typed /\ calm true init typed /\ r_stop (run true typed init) = None /\ r_stdin (run true typed init) = false /\ r_got (run true typed init) = [5;6;7].
Proof.
  split; [repeat constructor; unfold whole; cbn; lia|]. split; [|repeat split; reflexivity].
  cbn. split; [right; repeat split; vm_compute; discriminate|]. split; [right; repeat split; vm_compute; discriminate|]. auto.
Qed.
Example C79_met2 : let s := run true crossed init in r_stop s = None /\ r_chan s = [5;6] /\ r_eof s = false /\ r_held s = [] /\ r_empty s = false.
Proof. repeat split; reflexivity. Qed.

Print Assumptions C78_prefix.
Print Assumptions C78_held.
Print Assumptions C78_normal.
Print Assumptions C78_refuted.
Print Assumptions C78_stderr_refuted.
Print Assumptions C78_eof_refuted.
Print Assumptions C78_end_partial.
Print Assumptions C78_delivers.
Print Assumptions C79_prefix_partial.
Print Assumptions C79_closed_refuted.
Print Assumptions C79_stalls.
Print Assumptions C79_passed_refuted.
Print Assumptions C79_delivered_partial.
