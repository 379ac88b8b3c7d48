(* ScpWalkProofs2.v - what a sender has open (C65). *)
From Verif Require Import Base WireProofs PathModel PathSpec PathProofs ScpModel ScpSpec ScpSpec2 ScpSrcModel ScpSrcSpec ScpSrcProofs ScpSrcProofs2 ScpSrcProofs3 ScpTreeSpec ScpTreeProofs ScpWalkSpec ScpWalkProofs.
From Coq Require Import List NArith ZArith Bool Lia.
Import ListNotations.
Open Scope N_scope.

Section Held.
Variable E : csys.

(* ------------------------------------------------------------------ *)
(* directories *)
Definition OD (c : sctx) : Prop := open_dirs (c_log c) = map fst (c_dirs c).
Definition dirless (x : wcall) : Prop := match x with COpendir _ | CClosedir _ => False | _ => True end.
Lemma od_call : forall x c r c', sysc E x c = (r, c') -> dirless x -> OD c -> OD c' /\ c_dirs c' = c_dirs c.
Proof. intros x c r c' H N O. apply sysc_eq in H. subst c'. split; [|reflexivity]. unfold OD in *. cbn [c_log c_dirs]. destruct x; try contradiction N; exact O. Qed.
Lemma od_shut : forall c, OD c -> OD (shut_file E c) /\ c_dirs (shut_file E c) = c_dirs c.
Proof.
  intros c H. unfold shut_file. destruct (c_fp c) as [h|]; [|auto]. destruct (sysc E (CClose h) c) as [r c'] eqn:S. exact (od_call _ _ _ _ S I H).
Qed.
Lemma od_read : forall h n c d c', read_file E h n c = (d, c') -> OD c -> OD c' /\ c_dirs c' = c_dirs c.
Proof. intros h n c d c' R H. unfold read_file in R. destruct (sysc E (CRead h n) c) as [r x] eqn:S. injection R as _ <-. exact (od_call _ _ _ _ S I H). Qed.
Lemma od_push : forall p c ok c', PushDir E p c = (ok, c') -> OD c -> OD c'.
Proof.
  intros p c ok c' P H. unfold PushDir in P. destruct (SCP_MSG_SZ <=? lenN p); [injection P as _ <-; exact H|].
  destruct (sysc E (COpendir p) c) as [r x] eqn:S. apply sysc_eq in S. subst x. unfold OD in *. destruct (Z.ltb (r_num r) 0%Z) eqn:Q; injection P as _ <-.
  - cbn [c_log c_dirs open_dirs]. rewrite Q. exact H.
  - cbn [with_dirs c_log c_dirs open_dirs map fst]. rewrite Q, H. reflexivity.
Qed.
Lemma od_pop : forall c, OD c -> OD (snd (PopDir E c)) /\ c_dirs (snd (PopDir E c)) = tl (c_dirs c) /\ (fst (PopDir E c) = false -> c_dirs (snd (PopDir E c)) = []).
Proof.
  intros c H. unfold PopDir, OD in *. destruct (c_dirs c) as [|[h ns] ds] eqn:D.
  - cbn [fst snd with_dirs c_dirs c_log]. rewrite D. auto.
  - destruct (sysc E (CClosedir h) c) as [r x] eqn:S. apply sysc_eq in S. subst x. cbn [fst snd with_dirs c_dirs c_log open_dirs tl map without] in *. rewrite H.
    cbn [map fst without]. rewrite Z.eqb_refl. split; [reflexivity|]. split; [reflexivity|]. destruct ds; [auto|discriminate].
Qed.
Lemma od_free : forall k c, OD c -> OD (FreeDirs k E c) /\ ((List.length (c_dirs c) <= k)%nat -> c_dirs (FreeDirs k E c) = []).
Proof.
  induction k as [|k IH]; intros c H; cbn [FreeDirs].
  - split; [exact H|]. intros L. destruct (c_dirs c); [reflexivity|cbn in L; lia].
  - destruct (c_dirs c) as [|e ds] eqn:D; [auto|]. destruct (od_pop c H) as (A & B & _). destruct (IH _ A) as [X Y]. split; [exact X|].
    intros L. apply Y. rewrite B, D. cbn [tl List.length] in *. lia.
Qed.
Lemma od_stat : forall p q c ok q' c', GetFileStats E p q c = (ok, q', c') -> OD c -> OD c' /\ c_dirs c' = c_dirs c.
Proof.
  intros p q c ok q' c' G H. unfold GetFileStats in G. destruct (sysc E (CLstat p) c) as [r x] eqn:S. destruct (od_call _ _ _ _ S I H) as [A B].
  destruct (Z.ltb (r_num r) 0%Z); injection G as _ _ <-; auto.
Qed.

Ltac shut := match goal with |- context [shut_file E ?c] => match goal with H : OD c |- _ => destruct (od_shut c H) end end.
Lemma od_single : forall q c a c', single_file E q c = (a, c') -> OD c -> OD c' /\ c_dirs c' = c_dirs c.
Proof.
  intros q c a c' H O. unfold single_file in H. destruct (sysc E (CFopen (q_base q)) c) as [r1 c1] eqn:S1. destruct (od_call _ _ _ _ S1 I O) as [O1 D1].
  destruct (Z.ltb (r_num r1) 0%Z); [injection H as _ <-; auto|]. cbv zeta in H.
  assert (O2 : OD (with_fp (Some (r_num r1)) c1)) by exact O1.
  destruct (sysc E (CSize (r_num r1)) (with_fp (Some (r_num r1)) c1)) as [r3 c3] eqn:S3. destruct (od_call _ _ _ _ S3 I O2) as [O3 D3].
  change (c_dirs (with_fp (Some (r_num r1)) c1)) with (c_dirs c1) in D3.
  destruct (Z.ltb (r_num r3) 0%Z); [injection H as _ <-; shut; split; congruence|].
  match type of H with context [GetFileStats E ?p ?q ?c] => destruct (GetFileStats E p q c) as [[ok q'] c4] eqn:G end. destruct (od_stat _ _ _ _ _ _ G O3) as [O4 D4].
  destruct ok; cbn [negb] in H; [|injection H as _ <-; shut; split; congruence].
  destruct (ExtractFileName (q_base q') SCP_MSG_SZ); [|injection H as _ <-; shut; split; congruence].
  match type of H with context [if ?b then _ else _] => destruct b end; [injection H as _ <-; shut; split; congruence|].
  match type of H with context [read_file E ?h ?n ?c] => destruct (read_file E h n c) as [d c5] eqn:R end. destruct (od_read _ _ _ _ _ R O4) as [O5 D5].
  destruct d; [injection H as _ <-; shut; split; congruence|]. apply (f_equal snd) in H. cbn [snd] in H. subst c'.
  match goal with |- context [if ?b then _ else _] => destruct b end; [shut; split; congruence|split; congruence].
Qed.
Lemma od_continue : forall q c a c', continue_file E q c = (a, c') -> OD c -> OD c' /\ c_dirs c' = c_dirs c.
Proof.
  intros q c a c' H O. unfold continue_file in H. destruct (c_fp c); [|injection H as _ <-; auto].
  match type of H with context [read_file E ?h ?n ?c] => destruct (read_file E h n c) as [d c5] eqn:R end. destruct (od_read _ _ _ _ _ R O) as [O5 D5].
  destruct d; [injection H as _ <-; shut; split; congruence|]. apply (f_equal snd) in H. cbn [snd] in H. subst c'.
  match goal with |- context [if ?b then _ else _] => destruct b end; [shut; split; congruence|split; congruence].
Qed.
Lemma od_entry : forall n q c a c', process_entry E n q c = (a, c') -> OD c -> OD c' /\ a_ret a <> RFinal.
Proof.
  intros n q c a c' H O. unfold process_entry in H. destruct (SCP_MSG_SZ <=? lenN (c_dir c) + 1 + lenN n); [injection H as <- <-; split; [exact O|discriminate]|].
  cbv zeta in H. match type of H with context [sysc E ?x c] => destruct (sysc E x c) as [r1 c1] eqn:S1 end. destruct (od_call _ _ _ _ S1 I O) as [O1 D1].
  match type of H with context [if ?b then _ else _] => destruct b end; [injection H as <- <-; split; [exact O1|discriminate]|].
  match type of H with context [GetFileStats E ?p ?q ?c] => destruct (GetFileStats E p q c) as [[ok q'] c4] eqn:G end. destruct (od_stat _ _ _ _ _ _ G O1) as [O4 D4].
  destruct ok; cbn [negb] in H; [|injection H as <- <-; split; [exact O4|discriminate]]. destruct (c_kind c4).
  - match type of H with context [PushDir E ?p ?c] => destruct (PushDir E p c) as [ok c5] eqn:P end. injection H as <- <-. split; [eapply od_push; eauto|]. destruct ok; discriminate.
  - match type of H with context [sysc E ?x c4] => destruct (sysc E x c4) as [r5 c5] eqn:S5 end. destruct (od_call _ _ _ _ S5 I O4) as [O5 D5].
    destruct (Z.ltb (r_num r5) 0%Z); [injection H as <- <-; split; [exact O5|discriminate]|].
    assert (O6 : OD (with_fp (Some (r_num r5)) c5)) by exact O5.
    destruct (sysc E (CSize (r_num r5)) (with_fp (Some (r_num r5)) c5)) as [r7 c7] eqn:S7. destruct (od_call _ _ _ _ S7 I O6) as [O7 D7].
    destruct (Z.ltb (r_num r7) 0%Z); [injection H as <- <-; shut; split; [assumption|discriminate]|].
    match type of H with context [read_file E ?h ?n ?c] => destruct (read_file E h n c) as [d c8] eqn:R end. destruct (od_read _ _ _ _ _ R O7) as [O8 D8].
    pose proof (f_equal fst H) as Ha. apply (f_equal snd) in H. cbn [fst snd] in H, Ha. subst c' a. split; [|discriminate].
    match goal with |- context [if ?b then _ else _] => destruct b end; [shut; assumption|assumption].
  - injection H as <- <-. split; [exact O4|discriminate].
Qed.
Lemma od_recursive : forall q c a c', recursive E q c = (a, c') -> OD c -> OD c' /\ (a_ret a = RFinal -> c_dirs c' = []).
Proof.
  intros q c a c' H O. unfold recursive in H. destruct (c_dirs c) as [|e ds] eqn:De.
  - cbv zeta in H. match type of H with context [if ?b then _ else _] => destruct b end; [injection H as <- <-; split; [exact O|discriminate]|].
    match type of H with context [sysc E ?x c] => destruct (sysc E x c) as [r1 c1] eqn:S1 end. destruct (od_call _ _ _ _ S1 I O) as [O1 D1].
    match type of H with context [if ?b then _ else _] => destruct b end; [injection H as <- <-; split; [exact O1|discriminate]|].
    match type of H with context [PushDir E ?p ?c] => destruct (PushDir E p c) as [ok c2] eqn:P end. pose proof (od_push _ _ _ _ P O1) as O2.
    destruct ok; cbn [negb] in H; [|injection H as <- <-; split; [exact O2|discriminate]].
    destruct (ExtractFileName (q_base q) SCP_MSG_SZ); [|injection H as <- <-; split; [exact O2|discriminate]].
    match type of H with context [GetFileStats E ?p ?q ?c] => destruct (GetFileStats E p q c) as [[ok q'] c4] eqn:G end. destruct (od_stat _ _ _ _ _ _ G O2) as [O4 D4].
    injection H as <- <-. split; [exact O4|]. destruct ok; discriminate.
  - unfold NextEntry in H. rewrite De in H. destruct e as [h ns]. destruct (next_name ns) as [n l'].
    assert (O1 : OD (with_dirs ((h, l') :: ds) (c_dir c) c)) by (unfold OD in *; cbn; rewrite De in O; exact O).
    destruct n as [n|].
    + destruct (od_entry _ _ _ _ _ H O1) as [A B]. split; [exact A|congruence].
    + destruct (od_pop _ O1) as (A & B & C). destruct (PopDir E (with_dirs ((h, l') :: ds) (c_dir c) c)) as [more c2]. injection H as <- <-. cbn [fst snd] in *.
      split; [exact A|]. destruct more; [discriminate|auto].
Qed.

Definition DI (rec : bool) (w : source sctx) : Prop :=
  OD (w_ctx w) /\ w_rec w = rec /\ (w_req w = RECURSIVE -> rec = true) /\ (rec = false -> c_dirs (w_ctx w) = []) /\
  match w_st w with
  | W_DONE | SEND_EXIT_DIRECTORY_FINAL | W_SEND_CONFIRMATION => c_dirs (w_ctx w) = [] /\ (w_st w = W_SEND_CONFIRMATION -> w_next w = W_DONE)
  | W_RECEIVE_CONFIRMATION | W_CONFIRMATION_WITH_RECEIPT =>
      match w_next w with W_DONE => c_dirs (w_ctx w) = [] | TRANSFER | SEND_FILE_HEADER | SEND_FILE => True | _ => False end
  | W_RECEIVE_CONFIRMATION_WITH_RECEIPT => False
  | _ => True
  end.

Lemma di_after : forall rec x y, OD (w_ctx x) -> w_rec x = rec -> (w_req x = RECURSIVE -> rec = true) -> (rec = false -> c_dirs (w_ctx x) = []) ->
  after_data x = Go y -> DI rec y.
Proof.
  intros rec x y A B C D H. unfold after_data in H. destruct (w_off x <? w_size x).
  - destruct (w_stall x); [discriminate H|]. injection H as <-. repeat (split; [try exact A; try exact B; try (cbn; discriminate); try exact D|]). exact I.
  - destruct (w_rec x) eqn:R; injection H as <-.
    + split; [exact A|]. split; [cbn; congruence|]. split; [intros _; congruence|]. split; [exact D|]. exact I.
    + split; [exact A|]. split; [cbn; congruence|]. split; [exact C|]. split; [exact D|]. cbn. apply D. congruence.
Qed.
Lemma di_step : forall rec e w w', DI rec w -> source_step (wsScpSend E) e w = Go w' -> DI rec w'.
Proof.
  intros rec e w w' Hi H. pose proof Hi as (A & B & C & D & S). unfold source_step in H.
  assert (SAY : forall m f, say m e f w = Go w' -> (forall x, DI rec x -> w_st x = w_st w -> w_next x = w_next w -> w_ctx x = w_ctx w -> f x = Go w' -> DI rec w') -> DI rec w').
  { intros m f Q F. unfold say in Q. destruct e; try discriminate Q; try (injection Q as <-; exact Hi). destruct (lenN m <? n); [injection Q as <-; exact Hi|].
    destruct (n =? lenN m); [|discriminate Q]. apply (F (to_trace (Wrote (takeN n m)) w)); [exact Hi|reflexivity|reflexivity|reflexivity|exact Q]. }
  assert (HEAR : forall s, hear e s w = Go w' -> w' = w \/ (exists t, w' = to_st s (w_next w) (to_trace (Heard t) w))).
  { intros s Q. unfold hear in Q. destruct e as [d| | | |]; try discriminate Q; try (injection Q as <-; eauto).
    destruct (SCP_MSG_SZ <? lenN d); [injection Q as <-; eauto|]. destruct (chr d 0 =? 0); [injection Q as <-; eauto|discriminate Q]. }
  destruct (w_st w) eqn:Sw.
  - (* BEGIN *) cbn in H. injection H as <-. unfold DI. cbn. auto.
  - injection H as <-. unfold DI. cbn. auto.
  - (* W_SEND_CONFIRMATION *) unfold say_confirm in H. apply SAY in H; [exact H|]. intros x X X1 X2 X3 Q. cbv beta in Q. destruct (w_conf x); [|discriminate Q]. injection Q as <-.
    destruct X as (A' & B' & C' & D' & _). destruct S as [S1 S2]. specialize (S2 eq_refl). unfold DI. cbn. rewrite X2, S2, X3. repeat split; auto; try congruence.
  - (* W_CONFIRMATION_WITH_RECEIPT *) unfold say_confirm in H. apply SAY in H; [exact H|]. intros x X X1 X2 X3 Q. cbv beta in Q. destruct (w_conf x); [|discriminate Q]. injection Q as <-.
    destruct X as (A' & B' & C' & D' & _). unfold DI. cbn. rewrite X2, X3. repeat split; auto; congruence.
  - contradiction S.
  - (* W_RECEIVE_CONFIRMATION *) apply HEAR in H. destruct H as [->|[t ->]]; [exact Hi|]. unfold DI. cbn. repeat split; auto.
    destruct (w_next w); try contradiction S; auto.
  - (* TRANSFER *)
    destruct (cb_ask (wsScpSend E) (w_ctx w) (ask w (w_req w))) as [a c] eqn:Ea.
    assert (P : OD c /\ (a_ret a = RFinal -> c_dirs c = []) /\ (rec = false -> c_dirs c = [])).
    { cbn [wsScpSend cb_ask] in Ea. cbn [ask q_type] in Ea. destruct (w_req w) eqn:Rq.
      - injection Ea as <- <-. split; [exact A|]. split; [discriminate|exact D].
      - destruct (od_single _ _ _ _ Ea A) as [X Y]. split; [exact X|]. rewrite Y. split; [|exact D]. intros F.
        exfalso. clear - Ea F. unfold single_file in Ea. repeat (match type of Ea with
          | context [let (_, _) := ?p in _] => destruct p
          | context [let '(_, _) := ?p in _] => destruct p
          | context [if ?b then _ else _] => destruct b
          | context [match ?x with _ => _ end] => destruct x end; try (injection Ea as <- _; discriminate F)).
      - destruct (od_recursive _ _ _ _ Ea A) as [X Y]. split; [exact X|]. split; [exact Y|]. intros F. specialize (C eq_refl). congruence.
      - destruct (od_continue _ _ _ _ Ea A) as [X Y]. split; [exact X|]. rewrite Y. split; [|exact D]. intros F.
        exfalso. clear - Ea F. unfold continue_file in Ea. repeat (match type of Ea with
          | context [let (_, _) := ?p in _] => destruct p
          | context [match ?x with _ => _ end] => destruct x end; try (injection Ea as <- _; discriminate F)). }
    destruct P as (P1 & P2 & P3).
    assert (P4 : OD (cb_abort (wsScpSend E) c) /\ c_dirs (cb_abort (wsScpSend E) c) = []).
    { cbn [wsScpSend cb_abort]. destruct (od_free (Datatypes.S (List.length (c_dirs c))) c P1) as [X Y]. split; [exact X|]. apply Y. lia. }
    cbv zeta in H. change (w_ctx (to_answer a c w)) with c in H. set (c2 := cb_abort (wsScpSend E) c) in *. clearbody c2. destruct P4 as [P4 P5].
    destruct (a_ret a) eqn:Ra; try discriminate H; injection H as <-; unfold DI; cbn; repeat split; auto.
    + destruct (w_hdr w); [exact I|]. destruct (w_ts w); exact I.
    + discriminate.
    + (* RComplete *) exfalso. cbn [wsScpSend cb_ask] in Ea. cbn [ask q_type] in Ea.
      destruct (w_req w); [injection Ea as <- _; discriminate Ra| | |];
      unfold single_file, recursive, continue_file, process_entry, NextEntry in Ea; repeat (match type of Ea with
          | context [let (_, _) := ?p in _] => destruct p
          | context [if ?b then _ else _] => destruct b
          | context [match ?x with _ => _ end] => destruct x end; try (injection Ea as <- _; discriminate Ra)).
    + discriminate.
  - apply SAY in H; [exact H|]. intros x X X1 X2 X3 Q. injection Q as <-. destruct X as (A' & B' & C' & D' & _). unfold DI. cbn. auto.
  - apply SAY in H; [exact H|]. intros x X X1 X2 X3 Q. injection Q as <-. destruct X as (A' & B' & C' & D' & _). unfold DI. cbn. auto.
  - apply SAY in H; [exact H|]. intros x X X1 X2 X3 Q. injection Q as <-. destruct X as (A' & B' & C' & D' & _). unfold DI. cbn. auto.
  - apply SAY in H; [exact H|]. intros x X X1 X2 X3 Q. injection Q as <-. destruct X as (A' & B' & C' & D' & _). unfold DI. cbn. repeat split; auto. rewrite X3. apply S.
  - apply SAY in H; [exact H|]. intros x X X1 X2 X3 Q. injection Q as <-. destruct X as (A' & B' & C' & D' & _). unfold DI. cbn. auto.
  - (* SEND_FILE *)
    destruct (w_buf w) as [|b0 b] eqn:Bw; [eapply di_after; eauto|].
    destruct e as [d| |n| |]; try (injection H as <-; exact Hi);
      try (destruct (cb_broken (wsScpSend E) (w_ctx w)); discriminate H).
    destruct (lenN (b0 :: b) <? n); [injection H as <-; exact Hi|]. cbv zeta in H.
    destruct (0 <? n); cbn [to_stall to_data w_buf] in H; (destruct (dropN n (b0 :: b)); [eapply di_after; [| | | |exact H]; assumption|injection H as <-; unfold DI; cbn; rewrite Sw; auto]).
  - injection H as <-. exact Hi.
Qed.
Lemma di_run : forall rec es w w', DI rec w -> source_run (wsScpSend E) es w = Go w' -> DI rec w'.
Proof.
  intros rec. induction es as [|e es IH]; intros w w' Hi H; cbn [source_run] in H; [injection H as <-; exact Hi|].
  destruct (source_step (wsScpSend E) e w) as [x|x|] eqn:Es; [|discriminate H|discriminate H]. eapply IH; [|exact H]. eapply di_step; eauto.
Qed.
(* an abort is told to the peer next *)
Definition CA (w : source sctx) : Prop := w_conf w = ABORT -> w_st w = W_SEND_CONFIRMATION.
Lemma ca_step : forall rec e w w', DI rec w -> CA w -> source_step (wsScpSend E) e w = Go w' -> CA w'.
Proof.
  intros rec e w w' (_ & _ & _ & _ & S) Hi H. unfold CA in *. unfold source_step in H.
  assert (SAY : forall m f, w_conf w = CONTINUE -> say m e f w = Go w' -> (forall t x, f (to_trace t w) = Go x -> w_conf x = CONTINUE) -> w_conf w' = CONTINUE).
  { intros m f Cw Q F. unfold say in Q. destruct e; try discriminate Q; try (injection Q as <-; exact Cw). destruct (lenN m <? n); [injection Q as <-; exact Cw|].
    destruct (n =? lenN m); [|discriminate Q]. eapply F. exact Q. }
  assert (AD : forall (x y : source sctx), w_conf x = CONTINUE -> after_data x = Go y -> w_conf y = CONTINUE).
  { intros x y Cx Q. unfold after_data in Q. destruct (w_off x <? w_size x); [destruct (w_stall x); [discriminate Q|]|destruct (w_rec x)]; injection Q as <-; exact Cx. }
  assert (Cw : w_st w <> W_SEND_CONFIRMATION -> w_conf w = CONTINUE) by (intros N; destruct (w_conf w); [reflexivity|exfalso; auto]).
  assert (G : w_st w <> W_SEND_CONFIRMATION -> (w_conf w' = CONTINUE \/ w_st w' = W_SEND_CONFIRMATION) -> w_conf w' = ABORT -> w_st w' = W_SEND_CONFIRMATION).
  { intros _ [X|X] Y; [congruence|exact X]. }
  destruct (w_st w) eqn:Sw; try contradiction S; try (apply G; [discriminate|]); try specialize (Cw ltac:(discriminate)).
  - cbn in H. injection H as <-. left. reflexivity.
  - injection H as <-. left. exact Cw.
  - (* W_SEND_CONFIRMATION *) unfold say_confirm, say in H. destruct e; try discriminate H; try (injection H as <-; intros _; exact Sw).
    destruct (lenN (msg_confirm (w_conf w) (w_err w)) <? n); [injection H as <-; intros _; exact Sw|]. destruct (n =? lenN (msg_confirm (w_conf w) (w_err w))); [|discriminate H].
    cbn [to_trace w_conf] in H. destruct (w_conf w); [|discriminate H]. injection H as <-. cbn. discriminate.
  - left. unfold say_confirm in H. eapply SAY; [exact Cw|exact H|]. intros t x Q. cbv beta in Q. destruct (w_conf (to_trace t w)); [|discriminate Q]. injection Q as <-. reflexivity.
  - left. unfold hear in H. destruct e as [d| | | |]; try discriminate H; try (injection H as <-; exact Cw).
    destruct (SCP_MSG_SZ <? lenN d); [injection H as <-; exact Cw|]. destruct (chr d 0 =? 0); [injection H as <-; exact Cw|discriminate H].
  - destruct (cb_ask (wsScpSend E) (w_ctx w) (ask w (w_req w))) as [a c]. destruct (a_ret a); try discriminate H; injection H as <-; auto.
  - left. eapply SAY; [exact Cw|exact H|]. intros t x Q. injection Q as <-. exact Cw.
  - left. eapply SAY; [exact Cw|exact H|]. intros t x Q. injection Q as <-. exact Cw.
  - left. eapply SAY; [exact Cw|exact H|]. intros t x Q. injection Q as <-. exact Cw.
  - left. eapply SAY; [exact Cw|exact H|]. intros t x Q. injection Q as <-. exact Cw.
  - left. eapply SAY; [exact Cw|exact H|]. intros t x Q. injection Q as <-. exact Cw.
  - left. destruct (w_buf w) as [|b0 b]; [exact (AD _ _ Cw H)|].
    destruct e as [d| |n| |]; try (injection H as <-; exact Cw); try (destruct (cb_broken (wsScpSend E) (w_ctx w)); discriminate H).
    destruct (lenN (b0 :: b) <? n); [injection H as <-; exact Cw|]. cbv zeta in H.
    destruct (0 <? n); cbn [to_stall to_data w_buf] in H; (destruct (dropN n (b0 :: b)); [eapply AD; [|exact H]; exact Cw|injection H as <-; exact Cw]).
  - injection H as <-. left. exact Cw.
Qed.
Lemma ca_run : forall rec es w w', DI rec w -> CA w -> source_run (wsScpSend E) es w = Go w' -> CA w'.
Proof.
  intros rec. induction es as [|e es IH]; intros w w' Hi Hc H; cbn [source_run] in H; [injection H as <-; exact Hc|].
  destruct (source_step (wsScpSend E) e w) as [x|x|] eqn:Es; [|discriminate H|discriminate H]. eapply IH; [| |exact H]; [eapply di_step; eauto|eapply ca_step; eauto].
Qed.
Theorem dirs_closed : forall base rec ts es w, source_run (wsScpSend E) es (source0 base rec ts ctx0) = Go w -> w_st w = W_DONE \/ w_conf w = ABORT ->
  open_dirs (c_log (w_ctx w)) = [].
Proof.
  intros base rec ts es w H D. assert (X0 : DI rec (source0 base rec ts ctx0)).
  { unfold DI. cbn. repeat split; auto. destruct rec; [auto|discriminate]. }
  pose proof (di_run _ _ _ _ X0 H) as X. assert (Y : CA w) by (eapply ca_run; [exact X0| |exact H]; intros Q; discriminate Q).
  assert (Z : c_dirs (w_ctx w) = []).
  { destruct X as (_ & _ & _ & _ & S). destruct D as [D|D]; [|apply Y in D]; rewrite D in S; apply S. }
  destruct X as (A & _). unfold OD in A. rewrite A, Z. reflexivity.
Qed.
End Held.
