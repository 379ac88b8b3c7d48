(* SshdRelayProofs.v - lemmas for SshdRelayProps.v *)
From Coq Require Import List NArith ZArith Lia Bool.
From Verif Require Import Base SshdRelayModel SshdRelaySpec.
Import ListNotations.
Open Scope N_scope.

Lemma prefix_refl : forall a, prefix a a.
Proof. intro a. exists []. now rewrite app_nil_r. Qed.
Lemma prefix_app : forall a b, prefix a (a ++ b).
Proof. intros a b. exists b. reflexivity. Qed.
Lemma prefix_trans : forall a b c, prefix a b -> prefix b c -> prefix a c.
Proof. intros a b c [x ->] [y ->]. exists (x ++ y). now rewrite app_assoc. Qed.
Lemma take_drop : forall n (b : bytes), takeN n b ++ dropN n b = b.
Proof. intros. unfold takeN, dropN. apply firstn_skipn. Qed.
Lemma take_all : forall n (b : bytes), lenN b <= n -> takeN n b = b.
Proof. intros n b H. unfold takeN, lenN in *. apply firstn_all2. lia. Qed.
Lemma drop_all : forall n (b : bytes), lenN b <= n -> dropN n b = [].
Proof. intros n b H. unfold dropN, lenN in *. apply skipn_all2. lia. Qed.
Lemma nonempty_nil : forall b, nonempty b = false -> b = [].
Proof. intros [|x b] H; [reflexivity|discriminate]. Qed.

Section P.
Variable piped : bool.
Variable TO TE : bytes.

(* what is held belongs to one of the streams *)
Definition h_out (s : rst) : bytes := if r_ext s then [] else r_held s.
Definition h_err (s : rst) : bytes := if r_ext s then r_held s else [].
Definition Inv (s : rst) : Prop :=
  prefix (r_rout s) TO /\ prefix (r_rerr s) TE /\ (r_empty s = true -> r_rout s = TO) /\
  match r_stop s with
  | None | Some Quit => r_rout s = r_out s ++ h_out s /\ r_rerr s = r_err s ++ h_err s
  | Some Normal => r_out s = TO /\ r_rout s = r_out s /\ r_rerr s = r_err s
  | Some Broken => prefix (r_out s) (r_rout s) /\ prefix (r_err s) (r_rerr s)
  end.
Definition fresh (n : next) : Prop := match n with Go s | Skip s => r_stop s = None | Break s => r_stop s = Some Broken \/ r_stop s = Some Quit end.
Definition NInv (n : next) : Prop := Inv (state n) /\ fresh n.

Ltac unf := cbn [hold want peer empty exited close_stdin receive deliver log_read log_sent halt state r_held r_ext r_want r_peer r_empty r_child r_stdin r_eof r_chan r_rcvd r_got r_rout r_rerr r_out r_err r_stop h_out h_err fst snd] in *.

Lemma Inv_halt : forall s w, w <> Normal -> Inv s -> r_stop s = None -> Inv (halt w s).
Proof.
  intros s w W (A & B & C & D) N. rewrite N in D. destruct D as [D1 D2].
  unfold Inv. unf. split; [exact A|]. split; [exact B|]. split; [exact C|].
  destruct w; [congruence| |split; assumption]; rewrite D1, D2; split; apply prefix_app.
Qed.
Lemma input_ok : forall t s, Inv s -> r_stop s = None -> NInv (input piped t s) /\ r_rout (state (input piped t s)) = r_rout s /\ r_rerr (state (input piped t s)) = r_rerr s.
Proof.
  intros t s I N. unfold input.
  set (s1 := receive (t_in t) (t_eof t) (want false s)).
  assert (I1 : Inv s1) by exact I. assert (N1 : r_stop s1 = None) by exact N.
  assert (R1 : r_rout s1 = r_rout s) by reflexivity. assert (R2 : r_rerr s1 = r_rerr s) by reflexivity.
  rewrite <- R1, <- R2. clearbody s1.
  destruct (t_work t) as [[|]| | | | | |].
  - destruct (nonempty (r_held s1)); [split; [split; assumption|auto]|].
    destruct (nonempty (takeN SHELL_BUFFER (r_chan s1))).
    + set (w := if piped && negb (r_stdin s1) then [] else takeN (t_write t) (takeN SHELL_BUFFER (r_chan s1))).
      destruct (nonempty w).
      * split; [split; [exact I1|exact N1]|auto].
      * split; [split; [|right; reflexivity]|auto]. apply Inv_halt; [discriminate|exact I1|exact N1].
    + split; [split; [|right; reflexivity]|auto]. apply Inv_halt; [discriminate|exact I1|exact N1].
  - split; [split; assumption|auto].
  - split; [split; [exact I1|exact N1]|auto].
  - split; [split; [exact I1|exact N1]|auto].
  - split; [split; [exact I1|exact N1]|auto].
  - split; [split; assumption|auto].
  - split; [split; [|left; reflexivity]|auto]. apply Inv_halt; [discriminate|exact I1|exact N1].
  - destruct (r_eof s1 && piped); (split; [split; [exact I1|exact N1]|auto]).
Qed.
Lemma send_sent : forall s r n, send_res s r = SSent n -> r = SSent n /\ r_eof s = false.
Proof. intros s r n E. unfold send_res in E. destruct r; try discriminate. destruct (r_eof s); [discriminate|auto]. Qed.

Lemma resend_ok : forall t s, Inv s -> r_stop s = None -> NInv (resend t s) /\ r_rout (state (resend t s)) = r_rout s /\ r_rerr (state (resend t s)) = r_rerr s /\
  (forall s', resend t s = Go s' -> r_held s' = []).
Proof.
  intros t s I N. unfold resend. destruct (nonempty (r_held s)) eqn:NE.
  - destruct (send_res s (t_resend t)) as [| | |n].
    + split; [split; assumption|]. split; [reflexivity|]. split; [reflexivity|]. discriminate.
    + split; [split; [exact I|exact N]|]. split; [reflexivity|]. split; [reflexivity|]. discriminate.
    + split; [split; [apply Inv_halt; [discriminate|exact I|exact N]|left; reflexivity]|]. split; [reflexivity|]. split; [reflexivity|]. discriminate.
    + set (s' := hold (dropN n (r_held s)) (r_ext s) (log_sent (r_ext s) (takeN n (r_held s)) s)).
      assert (I' : Inv s').
      { destruct I as (A & B & C & D). rewrite N in D. destruct D as [D1 D2].
        unfold Inv, s'. unf. rewrite N. split; [exact A|]. split; [exact B|]. split; [exact C|].
        unfold h_out, h_err in *. unf. destruct (r_ext s); rewrite D1, D2, ?app_nil_r, <- ?app_assoc, ?take_drop; auto. }
      assert (N' : r_stop s' = None) by exact N.
      destruct (nonempty (r_held s')) eqn:NE'.
      * split; [split; assumption|]. split; [reflexivity|]. split; [reflexivity|]. discriminate.
      * apply nonempty_nil in NE'. split; [split; [|exact N]|].
        { destruct I' as (A & B & C & D). rewrite N' in D. unfold Inv. unf. rewrite N'. split; [exact A|]. split; [exact B|]. split; [exact C|].
          unfold h_out, h_err in *. rewrite NE' in D. unf. destruct (r_ext s'); rewrite ?app_nil_r in *; exact D. }
        split; [reflexivity|]. split; [reflexivity|]. intros s'' E. inversion E. reflexivity.
  - split; [split; assumption|]. split; [reflexivity|]. split; [reflexivity|]. intros s' E. inversion E. subst. apply nonempty_nil. exact NE.
Qed.

Lemma pass_err_ok : forall t s, Inv s -> r_stop s = None -> r_held s = [] -> read_ok TE (r_rerr s) (t_err t) -> sent_ok (t_err_sent t) ->
  NInv (pass_err t s) /\ r_rout (state (pass_err t s)) = r_rout s /\ (forall s', pass_err t s = Go s' -> r_held s' = []).
Proof.
  intros t s I N H R S. unfold pass_err. destruct (t_err t) as [b|bad|bad].
  2,3: destruct bad; [split; [split; [apply Inv_halt; [discriminate|exact I|exact N]|right; reflexivity]|split; [reflexivity|discriminate]]
                   |split; [split; assumption|split; [reflexivity|intros s' E; inversion E; subst; exact H]]].
  destruct R as (NB & LB & RB).
  assert (I1 : forall held out, b = out ++ held -> Inv (hold held true (log_sent true out (log_read true b s)))).
  { intros held out E. destruct I as (A & B & C & D). rewrite N in D. destruct D as [D1 D2].
    unfold Inv, h_out, h_err in *. unf. rewrite N. rewrite H in D1, D2. 
    assert (X1 : r_rout s = r_out s) by (destruct (r_ext s); now rewrite app_nil_r in D1).
    assert (X2 : r_rerr s = r_err s) by (destruct (r_ext s); now rewrite app_nil_r in D2).
    split; [exact A|]. split; [exact RB|]. split; [exact C|]. rewrite app_nil_r. split; [exact X1|]. rewrite X2, E. now rewrite <- app_assoc. }
  destruct (send_res s (t_err_sent t)) as [| | |n] eqn:Q.
  - split; [split; [|exact N]|split; [reflexivity|discriminate]].
    assert (Z : hold b true (log_read true b s) = hold b true (log_sent true [] (log_read true b s))).
    { unfold hold, log_sent, log_read. unf. now rewrite app_nil_r. }
    cbn [state]. rewrite Z. apply I1. reflexivity.
  - split; [split; [|exact N]|split; [reflexivity|discriminate]].
    assert (Z : hold b true (log_read true b s) = hold b true (log_sent true [] (log_read true b s))).
    { unfold hold, log_sent, log_read. unf. now rewrite app_nil_r. }
    change (Inv (hold b true (log_read true b s))). rewrite Z. apply I1. reflexivity.
  - split; [split; [|left; reflexivity]|split; [reflexivity|discriminate]]. cbn [state].
    destruct I as (A & B & C & D). rewrite N in D. destruct D as [D1 D2]. unfold Inv. unf.
    split; [exact A|]. split; [exact RB|]. split; [exact C|]. rewrite D1, D2, <- !app_assoc. split; apply prefix_app.
  - apply send_sent in Q. destruct Q as [Q _]. rewrite Q in S. cbn [sent_ok] in S.
    destruct ((0 <? n) && (n <? lenN b)) eqn:L.
    + split; [split; [|exact N]|split; [reflexivity|discriminate]]. apply I1. symmetry. apply take_drop.
    + split; [split; [|exact N]|split; [reflexivity|intros s' E; inversion E; subst; exact H]].
      assert (LN : lenN b <= n).
      { apply andb_false_iff in L. destruct L as [L|L]; [apply N.ltb_ge in L; lia|apply N.ltb_ge in L; exact L]. }
      rewrite (take_all _ _ LN). specialize (I1 [] b ltac:(now rewrite app_nil_r)).
      destruct I1 as (A & B & C & D). unfold Inv in *. unfold h_out, h_err in *. unf. rewrite N in *. rewrite H.
      split; [exact A|]. split; [exact B|]. split; [exact C|]. destruct (r_ext s); exact D.
Qed.
Lemma pass_out_ok : forall t s, Inv s -> r_stop s = None -> r_held s = [] -> read_ok TO (r_rout s) (t_out t) -> sent_ok (t_out_sent t) ->
  NInv (pass_out t s).
Proof.
  intros t s I N H R S. unfold pass_out. destruct (t_out t) as [b|bad|bad].
  2:{ cbn [read_ok] in R. split; [|exact N]. destruct I as (A & B & C & D). unfold Inv. unf. auto. }
  2:{ destruct bad; [split; [apply Inv_halt; [discriminate|exact I|exact N]|right; reflexivity]|split; assumption]. }
  destruct R as (NB & LB & RB).
  assert (NEm : r_empty s = false).
  { destruct (r_empty s) eqn:Em; [|reflexivity]. destruct I as (A & B & C & D). specialize (C Em).
    destruct RB as [r Hr]. rewrite C in Hr. exfalso.
    assert (L : List.length TO = List.length (TO ++ b ++ r)) by (rewrite app_assoc; rewrite <- Hr; reflexivity).
    rewrite !app_length in L. destruct b; [congruence|cbn in L; lia]. }
  assert (I1 : forall held out, b = out ++ held -> Inv (hold held false (log_sent false out (log_read false b s)))).
  { intros held out E. destruct I as (A & B & C & D). rewrite N in D. destruct D as [D1 D2].
    unfold Inv, h_out, h_err in *. unf. rewrite N. rewrite H in D1, D2. 
    assert (X1 : r_rout s = r_out s) by (destruct (r_ext s); now rewrite app_nil_r in D1).
    assert (X2 : r_rerr s = r_err s) by (destruct (r_ext s); now rewrite app_nil_r in D2).
    split; [exact RB|]. split; [exact B|]. split; [congruence|]. rewrite app_nil_r. split; [|exact X2]. rewrite X1, E. now rewrite <- app_assoc. }
  destruct (send_res s (t_out_sent t)) as [| | |n] eqn:Q.
  - split; [|exact N].
    assert (Z : hold b false (log_read false b s) = hold b false (log_sent false [] (log_read false b s))).
    { unfold hold, log_sent, log_read. unf. now rewrite app_nil_r. }
    cbn [state]. rewrite Z. apply I1. reflexivity.
  - split; [|exact N].
    assert (Z : hold b false (log_read false b s) = hold b false (log_sent false [] (log_read false b s))).
    { unfold hold, log_sent, log_read. unf. now rewrite app_nil_r. }
    change (Inv (hold b false (log_read false b s))). rewrite Z. apply I1. reflexivity.
  - split; [|left; reflexivity]. cbn [state].
    destruct I as (A & B & C & D). rewrite N in D. destruct D as [D1 D2]. unfold Inv. unf.
    split; [exact RB|]. split; [exact B|]. split; [congruence|]. rewrite D1, D2, <- !app_assoc. split; apply prefix_app.
  - apply send_sent in Q. destruct Q as [Q _]. rewrite Q in S. cbn [sent_ok] in S.
    destruct ((0 <? n) && (n <? lenN b)) eqn:L.
    + split; [|exact N]. apply I1. symmetry. apply take_drop.
    + split; [|exact N].
      assert (LN : lenN b <= n).
      { apply andb_false_iff in L. destruct L as [L|L]; [apply N.ltb_ge in L; lia|apply N.ltb_ge in L; exact L]. }
      rewrite (take_all _ _ LN). specialize (I1 [] b ltac:(now rewrite app_nil_r)).
      destruct I1 as (A & B & C & D). unfold Inv in *. unfold h_out, h_err in *. cbn [state]. unf. rewrite N in *. rewrite H.
      split; [exact A|]. split; [exact B|]. split; [exact C|]. destruct (r_ext s); exact D.
Qed.

Lemma body_ok : forall t s, Inv s -> r_stop s = None -> turn_ok TO TE s t -> NInv (body piped t s).
Proof.
  intros t s I N (RO & RE & SR & SE & SO). unfold body.
  destruct (if pending t s then SelReady true false false else t_select t) as [| |ssh out err].
  - split; [apply Inv_halt; [discriminate|exact I|exact N]|right; reflexivity].
  - split; assumption.
  - set (n1 := if r_want s || nonempty (r_held s) || pending t s || ssh then input piped t s else Go s).
    assert (H1 : NInv n1 /\ r_rout (state n1) = r_rout s /\ r_rerr (state n1) = r_rerr s).
    { unfold n1. destruct (_ || ssh); [apply input_ok; assumption|]. split; [split; assumption|auto]. }
    destruct n1 as [s1|s1|s1]; cbn [bind]; try apply H1. destruct H1 as ([I1 N1] & O1 & E1). cbn [state fresh] in *.
    destruct (resend_ok t s1 I1 N1) as (H2 & O2 & E2 & HD2).
    destruct (resend t s1) as [s2|s2|s2]; cbn [bind]; try apply H2. destruct H2 as [I2 N2]. cbn [state fresh] in *. specialize (HD2 _ eq_refl).
    set (n3 := if piped && err then pass_err t s2 else Go s2).
    assert (H3 : NInv n3 /\ r_rout (state n3) = r_rout s2 /\ (forall s', n3 = Go s' -> r_held s' = [])).
    { unfold n3. destruct (piped && err).
      - apply pass_err_ok; try assumption. rewrite E2, E1. exact RE.
      - split; [split; assumption|]. split; [reflexivity|]. intros s' E. inversion E; subst; exact HD2. }
    destruct n3 as [s3|s3|s3]; cbn [bind]; try apply H3. destruct H3 as ([I3 N3] & O3 & HD3). cbn [state fresh] in *. specialize (HD3 _ eq_refl).
    set (n4 := if out then pass_out t s3 else Go s3).
    assert (H4 : NInv n4).
    { unfold n4. destruct out; [|split; assumption]. apply pass_out_ok; try assumption. rewrite O3, O2, O1. exact RO. }
    destruct n4 as [s4|s4|s4]; cbn [bind]; try apply H4. destruct H4 as [I4 N4]. cbn [state fresh] in *.
    unfold last_check. split.
    + cbn [state]. assert (X : Inv (exited (t_late t) s4)) by (unfold exited; destruct (t_late t); exact I4).
      destruct (negb (r_child (exited (t_late t) s4)) && r_peer (exited (t_late t) s4) && r_empty (exited (t_late t) s4) && negb (nonempty (r_held (exited (t_late t) s4)))); exact X.
    + cbn [fresh]. unfold exited. destruct (t_late t); unf; match goal with |- context [if ?b then _ else _] => destruct b end; exact N4.
Qed.
Lemma step_ok : forall t s, Inv s -> turn_ok TO TE s t -> Inv (step piped s t).
Proof.
  intros t s I T. unfold step. destruct (r_stop s) eqn:N; [exact I|].
  assert (I' : Inv (exited (t_exit t) s)) by (unfold exited; destruct (t_exit t); exact I).
  assert (N' : r_stop (exited (t_exit t) s) = None) by (unfold exited; destruct (t_exit t); exact N).
  assert (T' : turn_ok TO TE (exited (t_exit t) s) t) by (unfold exited; destruct (t_exit t); exact T).
  set (s' := exited (t_exit t) s) in *. clearbody s'.
  destruct (goes_on s') eqn:G.
  - apply (body_ok t s' I' N' T').
  - unfold goes_on in G. apply orb_false_iff in G. destruct G as [G1 G4]. apply orb_false_iff in G1. destruct G1 as [G1 G3]. apply orb_false_iff in G1. destruct G1 as [G1 G2].
    apply negb_false_iff in G3. apply nonempty_nil in G2.
    destruct I' as (A & B & C & D). rewrite N' in D. destruct D as [D1 D2]. unfold Inv, h_out, h_err in *. unf. rewrite G2 in *.
    split; [exact A|]. split; [exact B|]. split; [exact C|]. specialize (C G3).
    destruct (r_ext s'); rewrite app_nil_r in *; repeat split; congruence.
Qed.
Lemma run_ok : forall ts s, Inv s -> fits piped TO TE s ts -> Inv (run piped ts s).
Proof.
  induction ts as [|t r IH]; intros s I F; cbn [run fold_left]; [exact I|].
  destruct F as [T F]. apply IH; [apply step_ok; assumption|exact F].
Qed.
Lemma Inv_init : Inv init.
Proof.
  unfold Inv, init, h_out, h_err. cbn. split; [exists TO; reflexivity|]. split; [exists TE; reflexivity|]. split; [discriminate|auto].
Qed.
End P.

Lemma flush_nil : forall k rs eof, flush k rs eof [] = [].
Proof. intros [|k] rs eof; reflexivity. Qed.
Lemma flush_one : forall k b rs, b = [] \/ (exists n r, rs = SSent n :: r /\ lenN b <= n) -> flush (S k) rs false b = b.
Proof.
  intros k b rs [->|(n & r & -> & L)]; [reflexivity|].
  destruct b as [|x b]; [reflexivity|]. cbn [flush]. rewrite (take_all _ _ L), (drop_all _ _ L), flush_nil. apply app_nil_r.
Qed.
Lemma flush_prefix : forall tries rs eof b, prefix (flush tries rs eof b) b.
Proof.
  induction tries as [|k IH]; intros rs eof b; cbn [flush]; [exists b; reflexivity|].
  destruct b as [|x b]; [apply prefix_refl|]. destruct rs as [|r rs]; [exists (x :: b); reflexivity|].
  destruct r as [| | |n]; [apply IH|apply IH|exists (x :: b); reflexivity|].
  destruct eof; [exists (x :: b); reflexivity|].
  destruct (IH rs false (dropN n (x :: b))) as [y Hy]. exists y. rewrite <- app_assoc. rewrite <- Hy. symmetry. apply take_drop.
Qed.

(* ---- input --------------------------------------------------------------- *)
Definition InvIn (s : rst) : Prop := r_got s ++ r_chan s = r_rcvd s.
Ltac unf := cbn [hold want peer empty exited close_stdin receive deliver log_read log_sent halt state r_held r_ext r_want r_peer r_empty r_child r_stdin r_eof r_chan r_rcvd r_got r_rout r_rerr r_out r_err r_stop fst snd] in *.

Definition same_in (a b : rst) : Prop := r_got b = r_got a /\ r_chan b = r_chan a /\ r_rcvd b = r_rcvd a.
Lemma resend_in : forall t s, same_in s (state (resend t s)).
Proof.
  intros t s. unfold resend, same_in. destruct (nonempty (r_held s)); [|repeat split].
  destruct (send_res s (t_resend t)); try (repeat split; fail). unf.
  match goal with |- context [if ?b then _ else _] => destruct b end; repeat split.
Qed.
Lemma pass_err_in : forall t s, same_in s (state (pass_err t s)).
Proof.
  intros t s. unfold pass_err, same_in. destruct (t_err t) as [b|[]|[]]; try (repeat split; fail).
  destruct (send_res s (t_err_sent t)); try (repeat split; fail).
  match goal with |- context [if ?b then _ else _] => destruct b end; repeat split.
Qed.
Lemma pass_out_in : forall t s, same_in s (state (pass_out t s)).
Proof.
  intros t s. unfold pass_out, same_in. destruct (t_out t) as [b|bad|[]]; try (repeat split; fail).
  destruct (send_res s (t_out_sent t)); try (repeat split; fail). cbn [state].
  match goal with |- context [if ?b then _ else _] => destruct b end; repeat split.
Qed.
(* after the receiving part nothing touches the input *)
Lemma body_in : forall piped t s,
  same_in s (state (body piped t s)) \/
  (same_in (state (input piped t s)) (state (body piped t s)) /\ forall x, input piped t s = Break x -> state (body piped t s) = x).
Proof.
  intros piped t s. unfold body.
  destruct (if pending t s then SelReady true false false else t_select t) as [| |ssh out err]; [left; repeat split..|].
  set (n1 := if r_want s || nonempty (r_held s) || pending t s || ssh then input piped t s else Go s).
  assert (H1 : n1 = input piped t s \/ n1 = Go s) by (unfold n1; destruct (_ || ssh); auto).
  assert (X : same_in (state n1) (state (bind n1 (fun s => bind (resend t s) (fun s => bind (if piped && err then pass_err t s else Go s) (fun s => bind (if out then pass_out t s else Go s) (fun s => last_check (exited (t_late t) s)))))))).
  { destruct n1 as [s1|s1|s1]; cbn [bind state]; try (repeat split; fail).
    assert (TR : forall a b c, same_in a b -> same_in b c -> same_in a c).
    { intros a b c (A1 & A2 & A3) (B1 & B2 & B3). repeat split; congruence. }
    pose proof (resend_in t s1) as R. destruct (resend t s1) as [s2|s2|s2]; cbn [bind state] in *; try exact R.
    apply (TR _ _ _ R). clear R.
    assert (R : same_in s2 (state (if piped && err then pass_err t s2 else Go s2))) by (destruct (piped && err); [apply pass_err_in|repeat split]).
    destruct (if piped && err then pass_err t s2 else Go s2) as [s3|s3|s3]; cbn [bind state] in *; try exact R.
    apply (TR _ _ _ R). clear R.
    assert (R : same_in s3 (state (if out then pass_out t s3 else Go s3))) by (destruct out; [apply pass_out_in|repeat split]).
    destruct (if out then pass_out t s3 else Go s3) as [s4|s4|s4]; cbn [bind state] in *; try exact R.
    apply (TR _ _ _ R). unfold last_check, exited. cbn [state]. destruct (t_late t); match goal with |- context [if ?b then _ else _] => destruct b end; repeat split. }
  destruct H1 as [H1|H1]; rewrite H1 in X |- *; [right|left; exact X]. split; [exact X|]. intros x E. rewrite E. reflexivity.
Qed.
Lemma input_in : forall piped t s, whole t -> InvIn s ->
  (InvIn (state (input piped t s)) \/ exists x, input piped t s = Break x /\ r_stop x = Some Quit) /\ prefix (r_got (state (input piped t s))) (r_rcvd (state (input piped t s))).
Proof.
  intros piped t s W I. unfold input.
  set (s1 := receive (t_in t) (t_eof t) (want false s)).
  assert (I1 : InvIn s1). { unfold InvIn, s1 in *. unf. rewrite app_assoc. congruence. }
  assert (P1 : prefix (r_got s1) (r_rcvd s1)) by (unfold InvIn in I1; rewrite <- I1; apply prefix_app).
  clearbody s1.
  destruct (t_work t) as [[|]| | | | | |]; try (split; [left; exact I1|exact P1]).
  - destruct (nonempty (r_held s1)); [split; [left; exact I1|exact P1]|].
    destruct (nonempty (takeN SHELL_BUFFER (r_chan s1))); [|split; [right; eexists; split; reflexivity|exact P1]].
    destruct (piped && negb (r_stdin s1)) eqn:CL; cbn [nonempty].
    + split; [right; eexists; split; reflexivity|]. unf. rewrite app_nil_r. exact P1.
    + assert (L : takeN (t_write t) (takeN SHELL_BUFFER (r_chan s1)) = takeN SHELL_BUFFER (r_chan s1)).
      { apply take_all. unfold whole in W. unfold takeN, lenN, SHELL_BUFFER. rewrite firstn_length. lia. }
      rewrite L. destruct (nonempty (takeN SHELL_BUFFER (r_chan s1))).
      * assert (Q : InvIn (deliver (takeN SHELL_BUFFER (r_chan s1)) (takeN SHELL_BUFFER (r_chan s1)) s1)).
        { unfold InvIn in *. unf. rewrite <- I1, <- app_assoc. f_equal.
          unfold takeN, dropN, lenN. rewrite Nat2N.id, firstn_length.
          destruct (Nat.min_spec (N.to_nat SHELL_BUFFER) (List.length (r_chan s1))) as [[M ->]|[M ->]]; [apply firstn_skipn|].
          rewrite skipn_all, app_nil_r. apply firstn_all2. exact M. }
        split; [left; exact Q|]. unfold InvIn in Q. cbn [state]. rewrite <- Q. apply prefix_app.
      * split; [right; eexists; split; reflexivity|]. unf. destruct P1 as [x P1]. 
        unfold InvIn in I1. rewrite <- I1. rewrite <- (take_drop SHELL_BUFFER (r_chan s1)) at 2. rewrite app_assoc. apply prefix_app.
  - destruct (r_eof s1 && piped); (split; [left; exact I1|exact P1]).
Qed.
Lemma step_in : forall piped t s, whole t -> (r_stop s = None -> InvIn s) -> prefix (r_got s) (r_rcvd s) ->
  (r_stop (step piped s t) = None -> InvIn (step piped s t)) /\ prefix (r_got (step piped s t)) (r_rcvd (step piped s t)).
Proof.
  intros piped t s W I P. unfold step. destruct (r_stop s) eqn:N; [split; [congruence|exact P]|].
  specialize (I eq_refl).
  assert (I' : InvIn (exited (t_exit t) s)) by (unfold exited; destruct (t_exit t); exact I).
  assert (P' : prefix (r_got (exited (t_exit t) s)) (r_rcvd (exited (t_exit t) s))) by (unfold exited; destruct (t_exit t); exact P).
  set (s' := exited (t_exit t) s) in *. clearbody s'. destruct (goes_on s'); [|split; [discriminate|exact P']].
  assert (TS : forall a b, same_in a b -> InvIn a -> InvIn b) by (intros a b (A1 & A2 & A3) Q; unfold InvIn in *; congruence).
  destruct (body_in piped t s') as [B|B].
  - split; [intros _; exact (TS _ _ B I')|]. destruct B as (-> & _ & ->). exact P'.
  - destruct B as [B BB]. destruct (input_in piped t s' W I') as [Q1 Q2]. split; [|destruct B as (-> & _ & ->); exact Q2].
    intro NS. destruct Q1 as [Q1|(x & Q1 & Q3)]; [exact (TS _ _ B Q1)|].
    rewrite (BB _ Q1) in NS. congruence.
Qed.
Lemma run_in : forall piped ts s, Forall whole ts -> (r_stop s = None -> InvIn s) -> prefix (r_got s) (r_rcvd s) ->
  (r_stop (run piped ts s) = None -> InvIn (run piped ts s)) /\ prefix (r_got (run piped ts s)) (r_rcvd (run piped ts s)).
Proof.
  induction ts as [|t r IH]; intros s F I P; cbn [run fold_left]; [split; assumption|].
  inversion F as [|? ? W F']; subst. destruct (step_in piped t s W I P) as [A B]. exact (IH _ F' A B).
Qed.

(* ---- input passes at once when nothing is held ---------------------------- *)
Lemma calm_step : forall piped t s, whole t -> (t_in t = [] \/ (t_work t = WRxd true /\ lenN (t_in t) <= 32768 /\ r_held s = [])) ->
  (r_stop s = None -> r_chan s = []) -> r_stop (step piped s t) = None -> r_chan (step piped s t) = [].
Proof.
  intros piped t s W C I N. unfold step in *. destruct (r_stop s) eqn:N0; [congruence|]. specialize (I eq_refl).
  assert (I' : r_chan (exited (t_exit t) s) = []) by (unfold exited; destruct (t_exit t); exact I).
  assert (H' : r_held (exited (t_exit t) s) = r_held s) by (unfold exited; destruct (t_exit t); reflexivity).
  rewrite <- H' in C. set (s' := exited (t_exit t) s) in *. clearbody s'. clear I H'.
  destruct (goes_on s'); [|discriminate].
  destruct (body_in piped t s') as [(_ & -> & _)|[(_ & -> & _) BB]]; [exact I'|].
  clear BB. change 32768 with SHELL_BUFFER in C. revert C. unfold input. generalize SHELL_BUFFER as K. intros K C.
  set (s1 := receive (t_in t) (t_eof t) (want false s')) in *.
  assert (C1 : r_chan s1 = t_in t) by (unfold s1; unf; now rewrite I').
  assert (H1 : r_held s1 = r_held s') by reflexivity. clearbody s1.
  destruct C as [C|(C & L & H)].
  - assert (E1 : r_chan s1 = []) by congruence.
    assert (E2 : takeN K (r_chan s1) = []) by (rewrite E1; unfold takeN; now rewrite firstn_nil).
    destruct (t_work t) as [[|]| | | | | |]; try exact E1.
    + destruct (nonempty (r_held s1)); [exact E1|]. rewrite E2. cbn [nonempty]. exact E1.
    + destruct (r_eof s1 && piped); exact E1.
  - rewrite C. rewrite H1, H. cbn [nonempty].
    assert (E2 : takeN K (r_chan s1) = r_chan s1) by (apply take_all; rewrite C1; exact L).
    rewrite E2. destruct (nonempty (r_chan s1)) eqn:NE; [|apply nonempty_nil in NE; exact NE].
    set (w := if piped && negb (r_stdin s1) then [] else takeN (t_write t) (r_chan s1)). clearbody w.
    destruct (nonempty w); unf; apply drop_all; lia.
Qed.
