(* ScpWalkProofs3.v - the files a sender has open (C65). *)
From Verif Require Import Base WireProofs PathModel PathSpec PathProofs ScpModel ScpSpec ScpSpec2 ScpSrcModel ScpSrcSpec ScpSrcProofs ScpSrcProofs2 ScpSrcProofs3 ScpTreeSpec ScpTreeProofs ScpWalkSpec ScpWalkProofs ScpWalkProofs2.
From Coq Require Import List NArith ZArith Bool Lia.
Import ListNotations.
Open Scope N_scope.

Section Files.
Variable E : csys.
Hypothesis HE : steady E.

Definition OF (c : sctx) : Prop := own E (c_log c) /\ open_files (c_log c) = match c_fp c with Some h => [h] | None => [] end.
Lemma own_call : forall x c r c', sysc E x c = (r, c') -> own E (c_log c) -> own E (c_log c').
Proof. intros x c r c' S H. unfold sysc in S. injection S as <- <-. split; [reflexivity|exact H]. Qed.
Definition big : N := 4294967296.
(* [len] bytes are in the buffer, [off] were sent *)
Definition Pt (c : sctx) (size off len : N) : Prop :=
  match c_fp c with
  | Some h => told (c_log c) h = Some (size, off + len) /\ off + len < size
  | None => len = 0 \/ off + len = size
  end.
Definition fileless (x : wcall) : Prop := match x with CFopen _ | CClose _ => False | _ => True end.
Lemma of_call : forall x c r c', sysc E x c = (r, c') -> fileless x -> OF c -> OF c' /\ c_fp c' = c_fp c.
Proof. intros x c r c' H N [O1 O]. pose proof (own_call _ _ _ _ H O1) as O2. apply sysc_eq in H. subst c'. split; [|reflexivity]. split; [exact O2|]. cbn [c_log c_fp]. destruct x; try contradiction N; exact O. Qed.
Lemma of_shut : forall c, OF c -> OF (shut_file E c) /\ c_fp (shut_file E c) = None.
Proof.
  intros c H. unfold shut_file. destruct (c_fp c) as [h|] eqn:F; [|auto]. destruct (sysc E (CClose h) c) as [r c'] eqn:S. destruct H as [H0 H]. pose proof (own_call _ _ _ _ S H0) as H1. apply sysc_eq in S. subst c'.
  split; [|reflexivity]. split; [exact H1|]. cbn [with_fp c_log c_fp open_files]. rewrite H, F. cbn [without]. rewrite Z.eqb_refl. reflexivity.
Qed.
Lemma of_open : forall p c r c', sysc E (CFopen p) c = (r, c') -> OF c -> c_fp c = None ->
  if (r_num r <? 0)%Z then OF (with_fp None c') else OF (with_fp (Some (r_num r)) c').
Proof.
  intros p c r c' S [O1 O] N. pose proof (own_call _ _ _ _ S O1) as O2. apply sysc_eq in S. subst c'. rewrite N in O.
  destruct (r_num r <? 0)%Z eqn:Q; (split; [exact O2|]); cbn [with_fp c_log c_fp open_files]; rewrite Q, O; reflexivity.
Qed.
Lemma of_push : forall p c ok c', PushDir E p c = (ok, c') -> OF c -> OF c' /\ c_fp c' = c_fp c.
Proof.
  intros p c ok c' P H. unfold PushDir in P. destruct (SCP_MSG_SZ <=? lenN p); [injection P as _ <-; auto|].
  destruct (sysc E (COpendir p) c) as [r x] eqn:S. destruct (of_call _ _ _ _ S I H). destruct (r_num r <? 0)%Z; injection P as _ <-; auto.
Qed.
Lemma of_pop : forall c, OF c -> OF (snd (PopDir E c)) /\ c_fp (snd (PopDir E c)) = c_fp c.
Proof.
  intros c H. unfold PopDir. destruct (c_dirs c) as [|[h ns] ds]; [auto|].
  destruct (sysc E (CClosedir h) c) as [r x] eqn:S. destruct (of_call _ _ _ _ S I H). auto.
Qed.
Lemma of_free : forall k c, OF c -> OF (FreeDirs k E c) /\ c_fp (FreeDirs k E c) = c_fp c.
Proof.
  induction k as [|k IH]; intros c H; cbn [FreeDirs]; [auto|]. destruct (c_dirs c); [auto|]. destruct (of_pop c H) as [A B]. destruct (IH _ A) as [X Y]. split; [exact X|congruence].
Qed.
Lemma of_stat : forall p q c ok q' c', GetFileStats E p q c = (ok, q', c') -> OF c -> OF c' /\ c_fp c' = c_fp c /\ q_size q' = q_size q /\ q_room q' = q_room q /\ (forall h, told (c_log c') h = told (c_log c) h).
Proof.
  intros p q c ok q' c' G H. unfold GetFileStats in G. destruct (sysc E (CLstat p) c) as [r x] eqn:S. destruct (of_call _ _ _ _ S I H) as [A B]. apply sysc_eq in S.
  destruct (r_num r <? 0)%Z; injection G as _ <- <-; subst x; auto.
Qed.
(* the size told, then a read *)
Lemma size_told : forall h c r c', sysc E (CSize h) c = (r, c') -> OF c -> (r_num r <? 0)%Z = false ->
  told (c_log c') h = Some (w32 (Z.to_N (r_num r)), 0) /\ w32 (Z.to_N (r_num r)) < big.
Proof.
  intros h c r c' S [O _] N. pose proof (sysc_eq E _ _ _ _ S) as Q. unfold sysc in S. injection S as S1 _. destruct (HE (c_log c) O h) as [H1 _].
  rewrite S1 in H1. apply Z.ltb_ge in N. assert (X : Z.to_N (r_num r) < big) by (unfold big; lia).
  rewrite w32_small by exact X. split; [|exact X]. subst c'. cbn [c_log told]. rewrite Z.eqb_refl. reflexivity.
Qed.
Lemma read_told : forall h n c d c' s k, read_file E h n c = (d, c') -> OF c -> told (c_log c) h = Some (s, k) ->
  OF c' /\ c_fp c' = c_fp c /\ told (c_log c') h = Some (s, k + lenN d) /\ k + lenN d <= s.
Proof.
  intros h n c d c' s k R O T. unfold read_file in R. destruct (sysc E (CRead h n) c) as [r x] eqn:S. destruct (of_call _ _ _ _ S I O) as [A B].
  pose proof (sysc_eq E _ _ _ _ S) as Q. unfold sysc in S. injection S as S1 _. destruct O as [O _]. destruct (HE (c_log c) O h) as [_ H1]. destruct (H1 n) as [H3 H2]. specialize (H2 _ _ T). rewrite S1 in H2, H3.
  injection R as <- <-. rewrite takeN_all by exact H3. split; [exact A|]. split; [exact B|]. split; [|exact H2]. subst x. cbn [c_log told]. rewrite T, Z.eqb_refl. reflexivity.
Qed.

Ltac shut := match goal with |- context [shut_file E ?c] => match goal with H : OF c |- _ => let A := fresh in let B := fresh in destruct (of_shut c H) as [A B] end end.
Definition opened (a : answer) (c' : sctx) : Prop := OF c' /\ a_size a < big /\ match a_ret a with RData d => Pt c' (a_size a) 0 (lenN d) | _ => c_fp c' = None end.

Lemma of_single : forall q c a c', single_file E q c = (a, c') -> OF c -> c_fp c = None -> q_size q < big -> opened a c'.
Proof.
  intros q c a c' H O N B. unfold single_file in H. destruct (sysc E (CFopen (q_base q)) c) as [r1 c1] eqn:S1. pose proof (of_open _ _ _ _ S1 O N) as O1.
  destruct (r_num r1 <? 0)%Z; [injection H as <- <-; split; [exact O1|]; split; [exact B|reflexivity]|]. cbv zeta in H.
  destruct (sysc E (CSize (r_num r1)) (with_fp (Some (r_num r1)) c1)) as [r3 c3] eqn:S3. destruct (of_call _ _ _ _ S3 I O1) as [O3 F3]. cbn [with_fp c_fp] in F3.
  destruct (r_num r3 <? 0)%Z eqn:Q3; [injection H as <- <-; shut; split; [assumption|]; split; [exact B|assumption]|].
  destruct (size_told _ _ _ _ S3 O1 Q3) as [T3 B3].
  match type of H with context [GetFileStats E ?p ?q ?c] => destruct (GetFileStats E p q c) as [[ok q'] c4] eqn:G end. destruct (of_stat _ _ _ _ _ _ G O3) as (O4 & F4 & Z4 & R4 & T4).
  cbn [sized q_size] in Z4. assert (B4 : q_size q' < big) by (rewrite Z4; exact B3).
  destruct ok; cbn [negb] in H; [|injection H as <- <-; shut; split; [assumption|]; split; [exact B4|assumption]].
  destruct (ExtractFileName (q_base q') SCP_MSG_SZ) as [n|]; [|injection H as <- <-; shut; split; [assumption|]; split; [exact B4|assumption]].
  cbn [named q_size] in H. destruct (N.eqb_spec (q_size q') 0) as [Zz|Zz].
  { injection H as <- <-. shut. split; [assumption|]. split; [exact B4|]. unfold Pt. cbn [give a_ret]. rewrite H0. left. reflexivity. }
  match type of H with context [read_file E ?h ?n ?c] => destruct (read_file E h n c) as [d c5] eqn:R end.
  assert (T5 : told (c_log c4) (r_num r1) = Some (q_size q', 0)) by (rewrite T4, T3, Z4; reflexivity).
  destruct (read_told _ _ _ _ _ _ _ R O4 T5) as (O5 & F5 & T6 & L6).
  destruct d as [|b d]; [injection H as <- <-; shut; split; [assumption|]; split; [exact B4|assumption]|].
  pose proof (f_equal fst H) as Ha. apply (f_equal snd) in H. cbn [fst snd] in H, Ha. subst a c'. unfold opened, Pt. cbn [give a_size a_ret named q_size].
  destruct (N.eqb_spec (q_size q') (lenN (b :: d))) as [Q|Q].
  - shut. split; [assumption|]. split; [exact B4|]. rewrite H0. right. lia.
  - split; [exact O5|]. split; [exact B4|]. rewrite F5, F4, F3. split; [exact T6|lia].
Qed.
Lemma of_entry : forall n q c a c', process_entry E n q c = (a, c') -> OF c -> c_fp c = None -> q_size q < big -> opened a c'.
Proof.
  intros n q c a c' H O N B. unfold process_entry in H. destruct (SCP_MSG_SZ <=? lenN (c_dir c) + 1 + lenN n); [injection H as <- <-; split; [exact O|]; split; [exact B|exact N]|].
  cbv zeta in H. match type of H with context [sysc E ?x c] => destruct (sysc E x c) as [r1 c1] eqn:S1 end. destruct (of_call _ _ _ _ S1 I O) as [O1 F1].
  match type of H with context [if ?b then _ else _] => destruct b end; [injection H as <- <-; split; [exact O1|]; split; [exact B|cbn; congruence]|].
  match type of H with context [GetFileStats E ?p ?q ?c] => destruct (GetFileStats E p q c) as [[ok q'] c4] eqn:G end. destruct (of_stat _ _ _ _ _ _ G O1) as (O4 & F4 & Z4 & R4 & T4).
  cbn [named q_size] in Z4. assert (B4 : q_size q' < big) by (rewrite Z4; exact B). assert (N4 : c_fp c4 = None) by congruence.
  destruct ok; cbn [negb] in H; [|injection H as <- <-; split; [exact O4|]; split; [exact B4|exact N4]]. destruct (c_kind c4).
  - match type of H with context [PushDir E ?p ?c] => destruct (PushDir E p c) as [ok c5] eqn:P end. destruct (of_push _ _ _ _ P O4) as [O5 F5].
    injection H as <- <-. split; [exact O5|]. split; [exact B4|]. destruct ok; cbn; congruence.
  - match type of H with context [sysc E ?x c4] => destruct (sysc E x c4) as [r5 c5] eqn:S5 end. pose proof (of_open _ _ _ _ S5 O4 N4) as O5.
    destruct (r_num r5 <? 0)%Z; [injection H as <- <-; split; [exact O5|]; split; [exact B4|reflexivity]|].
    destruct (sysc E (CSize (r_num r5)) (with_fp (Some (r_num r5)) c5)) as [r7 c7] eqn:S7. destruct (of_call _ _ _ _ S7 I O5) as [O7 F7]. cbn [with_fp c_fp] in F7.
    destruct (r_num r7 <? 0)%Z eqn:Q7; [injection H as <- <-; shut; split; [assumption|]; split; [exact B4|assumption]|].
    destruct (size_told _ _ _ _ S7 O5 Q7) as [T7 B7].
    match type of H with context [read_file E ?h ?n ?c] => destruct (read_file E h n c) as [d c8] eqn:R end.
    destruct (read_told _ _ _ _ _ _ _ R O7 T7) as (O8 & F8 & T8 & L8).
    pose proof (f_equal fst H) as Ha. apply (f_equal snd) in H. cbn [fst snd] in H, Ha. subst c' a. unfold opened, Pt. cbn [give a_size a_ret sized q_size].
    destruct (N.eqb_spec (w32 (Z.to_N (r_num r7))) (lenN d)) as [Q|Q].
    + shut. split; [assumption|]. split; [exact B7|]. rewrite H0. right. lia.
    + split; [exact O8|]. split; [exact B7|]. rewrite F8, F7. split; [exact T8|lia].
  - injection H as <- <-. split; [exact O4|]. split; [exact B4|]. unfold Pt. rewrite N4. left. reflexivity.
Qed.
Lemma of_recursive : forall q c a c', recursive E q c = (a, c') -> OF c -> c_fp c = None -> q_size q < big -> opened a c'.
Proof.
  intros q c a c' H O N B. unfold recursive in H. destruct (c_dirs c) as [|e ds] eqn:De.
  - cbv zeta in H. match type of H with context [if ?b then _ else _] => destruct b end; [injection H as <- <-; split; [exact O|]; split; [exact B|exact N]|].
    match type of H with context [sysc E ?x c] => destruct (sysc E x c) as [r1 c1] eqn:S1 end. destruct (of_call _ _ _ _ S1 I O) as [O1 F1]. assert (N1 : c_fp c1 = None) by congruence.
    match type of H with context [if ?b then _ else _] => destruct b end; [injection H as <- <-; split; [exact O1|]; split; [exact B|exact N1]|].
    match type of H with context [PushDir E ?p ?c] => destruct (PushDir E p c) as [ok c2] eqn:P end. destruct (of_push _ _ _ _ P O1) as [O2 F2]. assert (N2 : c_fp c2 = None) by congruence.
    destruct ok; cbn [negb] in H; [|injection H as <- <-; split; [exact O2|]; split; [exact B|exact N2]].
    destruct (ExtractFileName (q_base q) SCP_MSG_SZ); [|injection H as <- <-; split; [exact O2|]; split; [exact B|exact N2]].
    match type of H with context [GetFileStats E ?p ?q ?c] => destruct (GetFileStats E p q c) as [[ok q'] c4] eqn:G end. destruct (of_stat _ _ _ _ _ _ G O2) as (O4 & F4 & Z4 & _).
    injection H as <- <-. split; [exact O4|]. split; [cbn; rewrite Z4; exact B|]. destruct ok; cbn; congruence.
  - unfold NextEntry in H. rewrite De in H. destruct e as [h ns]. destruct (next_name ns) as [n l'].
    assert (O1 : OF (with_dirs ((h, l') :: ds) (c_dir c) c)) by exact O.
    destruct n as [n|]; [exact (of_entry _ _ _ _ _ H O1 N B)|].
    destruct (of_pop _ O1) as [A F]. destruct (PopDir E (with_dirs ((h, l') :: ds) (c_dir c) c)) as [more c2]. injection H as <- <-. cbn [snd] in *.
    split; [exact A|]. split; [exact B|]. destruct more; cbn [give a_ret]; rewrite F; exact N.
Qed.
Lemma of_continue : forall q c a c', continue_file E q c = (a, c') -> OF c -> q_size q < big -> Pt c (q_size q) (q_off q) 0 ->
  OF c' /\ a_size a = q_size q /\ match a_ret a with RData d => Pt c' (q_size q) (q_off q) (lenN d) | REof | RAbort => c_fp c' = None | _ => False end.
Proof.
  intros q c a c' H O B P. unfold continue_file in H. unfold Pt in P. destruct (c_fp c) as [h|] eqn:F; [|injection H as <- <-; auto].
  destruct P as [T L]. match type of H with context [read_file E ?h ?n ?c] => destruct (read_file E h n c) as [d c5] eqn:R end.
  replace (q_off q + 0) with (q_off q) in * by lia.
  destruct (read_told _ _ _ _ _ _ _ R O T) as (O5 & F5 & T5 & L5).
  destruct d as [|b d]; [injection H as <- <-; shut; auto|].
  pose proof (f_equal fst H) as Ha. apply (f_equal snd) in H. cbn [fst snd] in H, Ha. subst a c'. unfold Pt. cbn [give a_size a_ret].
  rewrite add32_small by (unfold big, W32 in *; lia).
  destruct (N.eqb_spec (q_off q + lenN (b :: d)) (q_size q)) as [Q|Q].
  - shut. split; [assumption|]. split; [reflexivity|]. rewrite H0. right. lia.
  - split; [exact O5|]. split; [reflexivity|]. rewrite F5, F. split; [exact T5|lia].
Qed.

(* ------------------------------------------------------------------ *)
Definition part (w : source sctx) : Prop := Pt (w_ctx w) (w_size w) (w_off w) (lenN (w_buf w)).
Definition idle (w : source sctx) : Prop := c_fp (w_ctx w) = None.
Definition clean (w : source sctx) : Prop := idle w /\ w_off w = 0 /\ w_buf w = [] /\ w_req w <> CONTINUE_FILE.
Definition FI (w : source sctx) : Prop :=
  OF (w_ctx w) /\ w_size w < big /\
  match w_st w with
  | SOURCE_BEGIN | SOURCE_INIT => idle w /\ w_req w <> CONTINUE_FILE
  | W_SEND_CONFIRMATION => idle w /\ w_next w = W_DONE
  | W_CONFIRMATION_WITH_RECEIPT => (w_next w = TRANSFER /\ clean w) \/ (w_next w = W_DONE /\ idle w)
  | W_RECEIVE_CONFIRMATION => (w_next w = TRANSFER /\ clean w) \/ (w_next w = W_DONE /\ idle w) \/
      ((w_next w = SEND_FILE_HEADER \/ w_next w = SEND_FILE) /\ part w)
  | W_RECEIVE_CONFIRMATION_WITH_RECEIPT => False
  | TRANSFER => clean w \/ (w_req w = CONTINUE_FILE /\ part w /\ w_buf w = [])
  | SEND_TIMESTAMP | SEND_FILE_HEADER | SEND_FILE => part w
  | SEND_ENTER_DIRECTORY | SEND_EXIT_DIRECTORY => clean w
  | SEND_EXIT_DIRECTORY_FINAL | W_DONE => idle w
  end.

Lemma fi_after : forall x y, OF (w_ctx x) -> w_size x < big -> part x -> w_buf x = [] -> after_data x = Go y -> FI y.
Proof.
  intros x y A B P Bf H. unfold after_data in H. destruct (N.ltb_spec (w_off x) (w_size x)) as [L|L].
  - destruct (w_stall x); [discriminate H|]. injection H as <-. split; [exact A|]. split; [exact B|]. cbn. right. auto.
  - assert (N : c_fp (w_ctx x) = None).
    { unfold part, Pt in P. destruct (c_fp (w_ctx x)); [|reflexivity]. lia. }
    destruct (w_rec x); injection H as <-; (split; [exact A|]; split; [exact B|]); cbn.
    + left. split; [reflexivity|]. split; [exact N|]. repeat split; discriminate.
    + right. auto.
Qed.
Lemma fi_step : forall e w w', FI w -> source_step (wsScpSend E) e w = Go w' -> FI w'.
Proof.
  intros e w w' Hi H. pose proof Hi as (A & B & S). unfold source_step in H.
  assert (SAY : forall m f, say m e f w = Go w' -> (forall t, f (to_trace t w) = Go w' -> FI w') -> FI w').
  { intros m f Q F. unfold say in Q. destruct e; try discriminate Q; try (injection Q as <-; exact Hi). destruct (lenN m <? n); [injection Q as <-; exact Hi|].
    destruct (n =? lenN m); [|discriminate Q]. eapply F. exact Q. }
  assert (HEAR : forall s, hear e s w = Go w' -> w' = w \/ (exists t, w' = to_st s (w_next w) (to_trace (Heard t) w))).
  { intros s Q. unfold hear in Q. destruct e as [d| | | |]; try discriminate Q; try (injection Q as <-; eauto).
    destruct (SCP_MSG_SZ <? lenN d); [injection Q as <-; eauto|]. destruct (chr d 0 =? 0); [injection Q as <-; eauto|discriminate Q]. }
  destruct (w_st w) eqn:Sw.
  - (* BEGIN *) cbn in H. injection H as <-. split; [exact A|]. split; [exact B|]. exact S.
  - injection H as <-. split; [exact A|]. split; [exact B|]. cbn. left. split; [reflexivity|]. destruct S as [S1 S2]. repeat split; assumption.
  - (* W_SEND_CONFIRMATION *) unfold say_confirm in H. apply SAY in H; [exact H|]. intros t Q. cbv beta in Q. cbn [w_conf to_trace] in Q. destruct (w_conf w); [|discriminate Q]. injection Q as <-.
    destruct S as [S1 S2]. split; [exact A|]. split; [exact B|]. cbn. rewrite S2. exact S1.
  - (* W_CONFIRMATION_WITH_RECEIPT *) unfold say_confirm in H. apply SAY in H; [exact H|]. intros t Q. cbv beta in Q. cbn [w_conf to_trace] in Q. destruct (w_conf w); [|discriminate Q]. injection Q as <-.
    split; [exact A|]. split; [exact B|]. cbn. destruct S as [S|S]; [left; exact S|right; left; exact S].
  - contradiction S.
  - (* W_RECEIVE_CONFIRMATION *) apply HEAR in H. destruct H as [->|[t ->]]; [exact Hi|]. split; [exact A|]. split; [exact B|]. cbn.
    destruct S as [[-> S]|[[-> S]|[[->| ->] S]]]; [left; exact S|exact S|exact S|exact S].
  - (* TRANSFER *)
    destruct (cb_ask (wsScpSend E) (w_ctx w) (ask w (w_req w))) as [a c] eqn:Ea.
    assert (P : OF c /\ a_size a < big /\ match a_ret a with RData d => Pt c (a_size a) (w_off w) (lenN (w_buf w) + lenN d) |
        REof | RAbort | RError => c_fp c = None | _ => c_fp c = None /\ w_off w = 0 /\ w_buf w = [] /\ w_req w <> CONTINUE_FILE end).
    { destruct S as [(S1 & S2 & S3 & S4)|(S1 & S2 & S3)].
      - assert (X : opened a c).
        { cbn [wsScpSend cb_ask] in Ea. cbn [ask q_type] in Ea. destruct (w_req w) eqn:Rq; [| | |congruence].
          - injection Ea as <- <-. split; [exact A|]. split; [exact B|]. unfold Pt. rewrite S1. left. reflexivity.
          - exact (of_single _ _ _ _ Ea A S1 B).
          - exact (of_recursive _ _ _ _ Ea A S1 B). }
        destruct X as (X1 & X2 & X3). split; [exact X1|]. split; [exact X2|]. rewrite S2, S3. change (lenN (@nil N)) with 0. destruct (a_ret a); auto.
      - cbn [wsScpSend cb_ask] in Ea. cbn [ask q_type] in Ea. rewrite S1 in Ea. unfold part in S2. rewrite S3 in S2. change (lenN (@nil N)) with 0 in S2.
        destruct (of_continue _ _ _ _ Ea A B S2) as (X1 & X2 & X3). cbn [ask q_size q_off] in X2, X3. split; [exact X1|]. split; [rewrite X2; exact B|].
        rewrite S3. change (lenN (@nil N)) with 0. rewrite X2. destruct (a_ret a); try contradiction X3; auto. }
    destruct P as (P1 & P2 & P3).
    destruct (a_ret a) eqn:Ra; try discriminate H.
    + assert (P3' : Pt c (a_size a) (w_off w) (lenN (w_buf w ++ d))) by (rewrite lenN_app; exact P3).
      cbv zeta in H. cbn [to_conf to_data to_answer w_hdr w_ts w_next w_err w_off w_buf] in H. destruct (w_hdr w); [|destruct (w_ts w)]; injection H as <-; (split; [exact P1|split; [exact P2|exact P3']]).
    + injection H as <-. split; [exact P1|]. split; [exact P2|]. exact P3.
    + injection H as <-. split; [exact P1|]. split; [exact P2|]. exact P3.
    + injection H as <-. split; [exact P1|]. split; [exact P2|]. apply P3.
    + injection H as <-. split; [exact P1|]. split; [exact P2|]. apply P3.
    + (* RAbort *)
      assert (P4 : OF (cb_abort (wsScpSend E) c) /\ c_fp (cb_abort (wsScpSend E) c) = None).
      { cbn [wsScpSend cb_abort]. destruct (of_free (Datatypes.S (List.length (c_dirs c))) c P1) as [X Y]. split; [exact X|]. rewrite Y. exact P3. }
      cbv zeta in H. change (w_ctx (to_answer a c w)) with c in H. set (c2 := cb_abort (wsScpSend E) c) in *. clearbody c2. destruct P4 as [P4 P5].
      injection H as <-. split; [exact P4|]. split; [exact P2|]. cbn. auto.
  - apply SAY in H; [exact H|]. intros t Q. injection Q as <-. split; [exact A|]. split; [exact B|]. cbn. right. right. split; [left; reflexivity|exact S].
  - apply SAY in H; [exact H|]. intros t Q. injection Q as <-. split; [exact A|]. split; [exact B|]. cbn. left. split; [reflexivity|exact S].
  - apply SAY in H; [exact H|]. intros t Q. injection Q as <-. split; [exact A|]. split; [exact B|]. cbn. left. split; [reflexivity|exact S].
  - apply SAY in H; [exact H|]. intros t Q. injection Q as <-. split; [exact A|]. split; [exact B|]. cbn. right. left. split; [reflexivity|exact S].
  - apply SAY in H; [exact H|]. intros t Q. injection Q as <-. split; [exact A|]. split; [exact B|]. cbn. right. right. split; [right; reflexivity|exact S].
  - (* SEND_FILE *)
    destruct (w_buf w) as [|b0 b] eqn:Bw; [eapply fi_after; eauto|].
    destruct e as [d| |n| |]; try (injection H as <-; exact Hi);
      try (destruct (cb_broken (wsScpSend E) (w_ctx w)); discriminate H).
    destruct (N.ltb_spec (lenN (b0 :: b)) n) as [Ln|Ln]; [injection H as <-; exact Hi|]. cbv zeta in H.
    assert (S' : Pt (w_ctx w) (w_size w) (add32 (w_off w) n) (lenN (dropN n (b0 :: b)))).
    { unfold part, Pt in S |- *. rewrite Bw in S. rewrite lenN_dropN. destruct (c_fp (w_ctx w)).
      - destruct S as [S1 S2]. unfold big in B. rewrite add32_small by (unfold W32; lia). replace (w_off w + n + (lenN (b0 :: b) - n)) with (w_off w + lenN (b0 :: b)) by lia. auto.
      - destruct S as [S|S]; [rewrite lenN_cons in S; lia|]. unfold big in B. rewrite add32_small by (unfold W32; lia). lia. }
    set (b' := dropN n (b0 :: b)) in *. clearbody b'.
    destruct (0 <? n); cbn [to_stall to_data w_buf] in H; (destruct b'; [eapply fi_after; [| | | |exact H]; try assumption; reflexivity|injection H as <-; split; [exact A|]; split; [exact B|]; cbn; rewrite Sw; exact S']).
  - injection H as <-. exact Hi.
Qed.
Lemma fi_run : forall es w w', FI w -> source_run (wsScpSend E) es w = Go w' -> FI w'.
Proof.
  induction es as [|e es IH]; intros w w' Hi H; cbn [source_run] in H; [injection H as <-; exact Hi|].
  destruct (source_step (wsScpSend E) e w) as [x|x|] eqn:Es; [|discriminate H|discriminate H]. eapply IH; [|exact H]. eapply fi_step; eauto.
Qed.
Lemma fi_start : forall base rec ts, FI (source0 base rec ts ctx0).
Proof. intros. split; [split; [exact I|reflexivity]|]. split; [reflexivity|]. cbn. split; [reflexivity|]. destruct rec; discriminate. Qed.

Theorem files_closed : forall base rec ts es w, source_run (wsScpSend E) es (source0 base rec ts ctx0) = Go w ->
  (List.length (open_files (c_log (w_ctx w))) <= 1)%nat /\ (w_st w = W_DONE -> open_files (c_log (w_ctx w)) = []).
Proof.
  intros base rec ts es w H. destruct (fi_run _ _ _ (fi_start base rec ts) H) as ((_ & A) & _ & S). split.
  - rewrite A. destruct (c_fp (w_ctx w)); cbn; lia.
  - intros D. rewrite D in S. rewrite A, S. reflexivity.
Qed.

(* where it dies *)
Lemma undef_at : forall (C : Type) (B : callbacks C) es w, source_run B es w = Undef -> exists l e r x, es = l ++ e :: r /\ source_run B l w = Go x /\ source_step B e x = Undef.
Proof.
  intros C B. induction es as [|e es IH]; intros w H; cbn [source_run] in H; [discriminate H|].
  destruct (source_step B e w) as [x|x|] eqn:Es.
  - destruct (IH _ H) as (l & e' & r & y & -> & R & U). exists (e :: l), e', r, y. split; [reflexivity|]. split; [cbn; rewrite Es; exact R|exact U].
  - discriminate H.
  - exists [], e, es, w. auto.
Qed.
Lemma undef_step : forall e w, source_step (wsScpSend E) e w = Undef ->
  w_st w = SEND_FILE /\ w_buf w <> [] /\ c_fp (w_ctx w) = None /\ match e with WFail | WData _ => True | _ => False end.
Proof.
  intros e w H. unfold source_step in H.
  assert (SAY : forall m f, say m e f w = Undef -> (forall t, f (to_trace t w) <> Undef) -> False).
  { intros m f Q F. unfold say in Q. destruct e; try discriminate Q. destruct (lenN m <? n); [discriminate Q|]. destruct (n =? lenN m); [exact (F _ Q)|discriminate Q]. }
  assert (HEAR : forall s, hear e s w = Undef -> False).
  { intros s Q. unfold hear in Q. destruct e as [d| | | |]; try discriminate Q. destruct (SCP_MSG_SZ <? lenN d); [discriminate Q|]. destruct (chr d 0 =? 0); discriminate Q. }
  assert (AD : forall C (x : source C), after_data x <> Undef).
  { intros C x Q. unfold after_data in Q. destruct (w_off x <? w_size x); [destruct (w_stall x)|destruct (w_rec x)]; discriminate Q. }
  destruct (w_st w) eqn:Sw; try (exfalso; eapply HEAR; exact H); try discriminate H;
    try (exfalso; eapply SAY; [exact H|intros t Q; discriminate Q]);
    try (exfalso; unfold say_confirm in H; eapply SAY; [exact H|intros t Q; cbv beta in Q; destruct (w_conf (to_trace t w)); discriminate Q]).
  - exfalso. destruct (cb_ask (wsScpSend E) (w_ctx w) (ask w (w_req w))) as [a c]. destruct (a_ret a); discriminate H.
  - destruct (w_buf w) as [|b0 b] eqn:Bw; [exfalso; exact (AD _ _ H)|]. split; [reflexivity|]. split; [discriminate|].
    assert (K : cb_broken (wsScpSend E) (w_ctx w) = None -> c_fp (w_ctx w) = None) by (cbn [wsScpSend cb_broken]; destruct (c_fp (w_ctx w)); [discriminate|auto]).
    destruct e as [d| |n| |]; try discriminate H.
    + destruct (cb_broken (wsScpSend E) (w_ctx w)); [discriminate H|auto].
    + exfalso. destruct (lenN (b0 :: b) <? n); [discriminate H|]. cbv zeta in H.
      destruct (0 <? n); cbn [to_stall to_data w_buf] in H; (destruct (dropN n (b0 :: b)); [exact (AD _ _ H)|discriminate H]).
    + destruct (cb_broken (wsScpSend E) (w_ctx w)); [discriminate H|auto].
Qed.
Theorem dies_at_last_part : forall base rec ts es, source_run (wsScpSend E) es (source0 base rec ts ctx0) = Undef ->
  exists l e r w, es = l ++ e :: r /\ source_run (wsScpSend E) l (source0 base rec ts ctx0) = Go w /\
    w_st w = SEND_FILE /\ w_buf w <> [] /\ w_off w + lenN (w_buf w) = w_size w /\ match e with WFail | WData _ => True | _ => False end.
Proof.
  intros base rec ts es H. destruct (undef_at _ _ _ _ H) as (l & e & r & w & -> & R & U). exists l, e, r, w. split; [reflexivity|]. split; [exact R|].
  destruct (undef_step _ _ U) as (A & B & C & D). split; [exact A|]. split; [exact B|]. split; [|exact D].
  destruct (fi_run _ _ _ (fi_start base rec ts) R) as (_ & _ & S). rewrite A in S. unfold part, Pt in S. rewrite C in S. destruct S as [S|S]; [|exact S].
  exfalso. destruct (w_buf w); [congruence|]. rewrite lenN_cons in S. lia.
Qed.
End Files.
