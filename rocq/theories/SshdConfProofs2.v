(* SshdConfProofs2.v - the configuration file: from the text to the records. *)
From Coq Require Import List NArith ZArith Lia Bool String.
From Verif Require Import Base NegoSpec SshdConfModel SshdConfSpec SshdConfProofs.
Import ListNotations.
Open Scope N_scope.

(* every string kept is one CreateString made *)
Definition kept (o : option bytes) : Prop := match o with None => True | Some s => create_string s = Some s end.
Record sane (c : conf) : Prop := {
  sn_banner : kept (cf_banner c); sn_chroot : kept (cf_chroot c); sn_hostkey : kept (cf_hostkey c);
  sn_hostcert : kept (cf_hostcert c); sn_ca : kept (cf_ca c); sn_keys : kept (cf_keys c); sn_cmd : kept (cf_cmd c);
  sn_pid : kept (cf_pid c); sn_upn : kept (cf_upn c) }.
Definition same_sel (a b : conf) : Prop := cf_usr a = cf_usr b /\ cf_grp a = cf_grp b.

Definition word_opt (w : bytes) : option bytes := match w with [] => None | _ => Some w end.

Ltac snoc := unfold switch, choice in *; rewrite ?value_snoc, ?text_snoc; cbn [d_key d_word d_arg].
Ltac keys := repeat match goal with |- context [bytes_eqb (lit ?a) (ascii ?b)] =>
    let e := eval vm_compute in (bytes_eqb (lit a) (ascii b)) in change (bytes_eqb (lit a) (ascii b)) with e end.
Ltac others H := destruct H; constructor; snoc; keys; try assumption.

Lemma set_string_ok : forall v f c', set_string v f = HOk c' -> exists s, create_string v = Some s /\ c' = f (Some s).
Proof. intros v f c' H. unfold set_string in H. destruct (create_string v) as [s|]; [|discriminate]. injection H as <-. eauto. Qed.
Lemma yes_no_ok : forall v f c', yes_no v f = HOk c' -> exists b, c' = f b /\ b = bytes_eqb v (ascii "yes") /\ (v = ascii "yes" \/ v = ascii "no").
Proof.
  intros v f c' H. unfold yes_no, is_lit in H.
  destruct (bytes_eqb v (lit "no")) eqn:E.
  - injection H as <-. apply bytes_eqb_eq in E. subst v. exists false. repeat split; auto.
  - destruct (bytes_eqb v (lit "yes")) eqn:F; [|discriminate]. injection H as <-. exists true. apply bytes_eqb_eq in F. subst v. repeat split; auto.
Qed.

Definition arg_of (full : bytes) : bytes := trim_end full.
Lemma handle_option_settings : forall o k l full c c' ds,
  In (o, k) options -> (full = [] \/ exists x t, full = x :: t /\ is_white x = false) -> word full = l ->
  settings c ds -> sane c -> handle_option o l full c = HOk c' ->
  settings c' (ds ++ [Dir k (word_opt l) (arg_of full)]) /\ sane c' /\ same_sel c c'.
Proof.
  intros o k l full c c' ds I FU W ST SN H.
  assert (CW : forall s, create_string l = Some s -> word_opt l = Some s /\ create_string s = Some s).
  { intros s E. split; [|eapply create_string_idem; exact E]. subst l. rewrite create_string_word in E. destruct (word full); [discriminate|]. exact E. }
  assert (CF : forall s, create_string full = Some s -> arg_of full = s /\ create_string s = Some s).
  { intros s E. split; [|eapply create_string_idem; exact E]. destruct FU as [->|(x & t & -> & X)]; [discriminate E|].
    rewrite create_string_text in E by exact X. injection E as <-. reflexivity. }
  assert (YN : forall v, v = ascii "yes" \/ v = ascii "no" -> word_opt v = Some v) by (intros v [->| ->]; reflexivity).
  unfold options in I. cbn [In] in I.
  destruct I as [I|I].
  { injection I as <- <-. cbn [handle_option] in H. apply set_string_ok in H as (s & E & ->). destruct (CW s E) as [E1 E2]. rewrite E1.
    split; [|split; [destruct SN; constructor; assumption|split; reflexivity]]. others ST; reflexivity. }
  destruct I as [I|I].
  { injection I as <- <-. cbn [handle_option] in H. unfold handle_priv_sep, is_lit in H.
    destruct (bytes_eqb l (lit "sandbox")) eqn:E1; [|destruct (bytes_eqb l (lit "yes")) eqn:E2; [|destruct (bytes_eqb l (lit "no")) eqn:E3; [|discriminate]]];
    injection H as <-.
    - apply bytes_eqb_eq in E1. rewrite E1. split; [|split; [destruct SN; constructor; assumption|split; reflexivity]]. others ST; reflexivity.
    - apply bytes_eqb_eq in E2. rewrite E2. split; [|split; [destruct SN; constructor; assumption|split; reflexivity]]. others ST; reflexivity.
    - apply bytes_eqb_eq in E3. rewrite E3. split; [|split; [destruct SN; constructor; assumption|split; reflexivity]]. others ST; reflexivity. }
  destruct I as [I|I].
  { injection I as <- <-. cbn [handle_option] in H. apply yes_no_ok in H as (b & -> & -> & YV). rewrite (YN l YV).
    split; [|split; [destruct SN; constructor; assumption|split; reflexivity]]. others ST; reflexivity. }
  destruct I as [I|I]; [injection I as <- <-; cbn [handle_option] in H; injection H as <-; split; [others ST|split; [exact SN|split; reflexivity]]|].
  destruct I as [I|I]; [injection I as <- <-; cbn [handle_option] in H; injection H as <-; split; [others ST|split; [exact SN|split; reflexivity]]|].
  destruct I as [I|I]; [injection I as <- <-; cbn [handle_option] in H; injection H as <-; split; [others ST|split; [exact SN|split; reflexivity]]|].
  destruct I as [I|I]; [injection I as <- <-; cbn [handle_option] in H; injection H as <-; split; [others ST|split; [exact SN|split; reflexivity]]|].
  destruct I as [I|I]; [injection I as <- <-; cbn [handle_option] in H; injection H as <-; split; [others ST|split; [exact SN|split; reflexivity]]|].
  destruct I as [I|I]; [injection I as <- <-; cbn [handle_option] in H; injection H as <-; split; [others ST|split; [exact SN|split; reflexivity]]|].
  destruct I as [I|I].
  { injection I as <- <-. cbn [handle_option] in H. unfold handle_protocol in H.
    destruct (get_config_int l false) as [n|]; [|discriminate]. destruct (Z.leb n 0); [discriminate|]. destruct (Z.eqb n 2); [|discriminate].
    injection H as <-. split; [others ST|split; [exact SN|split; reflexivity]]. }
  destruct I as [I|I].
  { injection I as <- <-. cbn [handle_option] in H. unfold handle_grace in H.
    destruct (get_config_int l true) as [n|] eqn:G; [|discriminate].
    destruct (Z.ltb_spec n 0).
    - destruct (Z.eqb_spec (n mod 4294967296) 0) as [M|M]; [|discriminate]. injection H as <-.
      split; [others ST|split; [exact SN|split; reflexivity]].
      destruct (word_opt l) as [w|] eqn:WO.
      + intros m Hm. exfalso.
        assert (w = l) by (unfold word_opt in WO; destruct l; [discriminate|congruence]). subst w.
        unfold get_config_int in G. unfold seconds in Hm. destruct (rev l) as [|ch r]; [discriminate|].
        assert (K : forall num mult m', (match atol num with
            | None => None
            | Some z0 => if Z.eqb z0 0 && negb (bytes_eqb num [48]) then Some WS_BAD_ARG_NUM
                else if Z.ltb 0 z0 then if long_ok (z0 * mult)%Z then Some (z0 * mult)%Z else None else Some z0 end) = Some n ->
            (0 < mult)%Z -> decimal num = Some m' -> False).
        { intros num mult m' HH MU Dm. destruct (number_decimal num m' Dm) as [A _]. rewrite A in HH.
          destruct (long_ok (Z.of_N m')); [|discriminate].
          destruct (Z.eqb (Z.of_N m') 0 && negb (bytes_eqb num [48])).
          - injection HH as <-. vm_compute in M. discriminate.
          - destruct (Z.ltb_spec 0 (Z.of_N m')).
            + destruct (long_ok (Z.of_N m' * mult)); [|discriminate]. injection HH as <-. nia.
            + injection HH as <-. lia. }
        destruct (ch =? 109).
        * destruct (decimal (rev r)) as [m'|] eqn:D; [|discriminate]. exact (K _ _ m' G ltac:(lia) D).
        * destruct (ch =? 104).
          -- destruct (decimal (rev r)) as [m'|] eqn:D; [|discriminate]. exact (K _ _ m' G ltac:(lia) D).
          -- exact (K _ _ m G ltac:(lia) Hm).
      + exfalso. destruct l; [|discriminate WO]. cbn in G. injection G as <-. vm_compute in M. discriminate.
    - injection H as <-. split; [|split; [destruct SN; constructor; assumption|split; reflexivity]].
      others ST. destruct (word_opt l) as [w|] eqn:WO.
      + assert (w = l) by (unfold word_opt in WO; destruct l; [discriminate|congruence]). subst w.
        intros m Hm. cbn [set_grace cf_grace]. exact (config_int_seconds l m n Hm G ltac:(assumption)).
      + exfalso. destruct l; [|discriminate WO]. cbn in G. injection G as <-. vm_compute in H0. congruence. }
  destruct I as [I|I].
  { injection I as <- <-. cbn [handle_option] in H. apply set_string_ok in H as (s & E & ->). destruct (CW s E) as [E1 E2]. rewrite E1.
    split; [|split; [destruct SN; constructor; assumption|split; reflexivity]]. others ST; reflexivity. }
  destruct I as [I|I].
  { injection I as <- <-. cbn [handle_option] in H. apply yes_no_ok in H as (b & -> & -> & YV). rewrite (YN l YV).
    split; [|split; [destruct SN; constructor; assumption|split; reflexivity]]. others ST; reflexivity. }
  destruct I as [I|I].
  { injection I as <- <-. cbn [handle_option] in H. apply yes_no_ok in H as (b & -> & -> & YV). rewrite (YN l YV).
    split; [|split; [destruct SN; constructor; assumption|split; reflexivity]]. others ST; reflexivity. }
  destruct I as [I|I].
  { injection I as <- <-. cbn [handle_option] in H. unfold handle_port in H.
    destruct (get_config_int l false) as [n|] eqn:G; [|discriminate]. destruct (Z.leb_spec n 0); [discriminate|]. destruct (Z.leb n 65535); [|discriminate].
    injection H as <-. split; [|split; [destruct SN; constructor; assumption|split; reflexivity]].
    others ST. destruct (word_opt l) as [w|] eqn:WO.
    + assert (w = l) by (unfold word_opt in WO; destruct l; [discriminate|congruence]). subst w.
      intros m Hm. cbn [set_port cf_port]. rewrite (config_int_decimal l m n Hm G ltac:(lia)). apply N2Z.id.
    + exfalso. destruct l; [|discriminate WO]. cbn in G. injection G as <-. vm_compute in H0. congruence. }
  destruct I as [I|I].
  { injection I as <- <-. cbn [handle_option] in H. unfold handle_root, is_lit in H.
    destruct (bytes_eqb l (lit "no")) eqn:E1;
      [|destruct (bytes_eqb l (lit "yes")) eqn:E2;
        [|destruct (bytes_eqb l (lit "prohibit-password")) eqn:E3;
          [|destruct (bytes_eqb l (lit "without-password")) eqn:E4;
            [|cbn [orb] in H; destruct (bytes_eqb l (lit "forced-commands-only")) eqn:E5; [|discriminate]]]]];
    cbn [orb] in H; injection H as <-;
    match goal with E : bytes_eqb l _ = true |- _ => apply bytes_eqb_eq in E; rewrite E end;
    (split; [|split; [destruct SN; constructor; assumption|split; reflexivity]]); others ST; reflexivity. }
  destruct I as [I|I]; [injection I as <- <-; cbn [handle_option] in H; injection H as <-; split; [others ST|split; [exact SN|split; reflexivity]]|].
  destruct I as [I|I]; [injection I as <- <-; cbn [handle_option] in H; discriminate H|].
  destruct I as [I|I].
  { injection I as <- <-. cbn [handle_option] in H. apply set_string_ok in H as (s & E & ->). destruct (CW s E) as [E1 E2]. rewrite E1.
    split; [|split; [destruct SN; constructor; assumption|split; reflexivity]]. others ST; reflexivity. }
  destruct I as [I|I]; [injection I as <- <-; cbn [handle_option] in H; discriminate H|].
  destruct I as [I|I].
  { injection I as <- <-. cbn [handle_option] in H. apply set_string_ok in H as (s & E & ->). destruct (CF s E) as [E1 E2]. rewrite E1.
    split; [|split; [destruct SN; constructor; assumption|split; reflexivity]]. others ST; reflexivity. }
  destruct I as [I|I].
  { injection I as <- <-. cbn [handle_option] in H. apply set_string_ok in H as (s & E & ->). destruct (CW s E) as [E1 E2]. rewrite E1.
    split; [|split; [destruct SN; constructor; assumption|split; reflexivity]]. others ST; reflexivity. }
  destruct I as [I|I].
  { injection I as <- <-. cbn [handle_option] in H. apply set_string_ok in H as (s & E & ->). destruct (CW s E) as [E1 E2]. rewrite E1.
    split; [|split; [destruct SN; constructor; assumption|split; reflexivity]]. others ST; reflexivity. }
  destruct I as [I|I].
  { injection I as <- <-. cbn [handle_option] in H. apply set_string_ok in H as (s & E & ->). destruct (CW s E) as [E1 E2]. rewrite E1.
    split; [|split; [destruct SN; constructor; assumption|split; reflexivity]]. others ST; reflexivity. }
  destruct I as [I|I].
  { injection I as <- <-. cbn [handle_option] in H. apply set_string_ok in H as (s & E & ->). destruct (CW s E) as [E1 E2]. rewrite E1.
    split; [|split; [destruct SN; constructor; assumption|split; reflexivity]]. others ST; reflexivity. }
  destruct I as [I|I].
  { injection I as <- <-. cbn [handle_option] in H. apply yes_no_ok in H as (b & -> & -> & YV). rewrite (YN l YV).
    split; [|split; [destruct SN; constructor; assumption|split; reflexivity]]. others ST; reflexivity. }
  destruct I as [I|[]].
  { injection I as <- <-. cbn [handle_option] in H. apply set_string_ok in H as (s & E & ->). destruct (CF s E) as [E1 E2]. rewrite E1.
    split; [|split; [destruct SN; constructor; assumption|split; reflexivity]]. others ST; reflexivity. }
Qed.

(* a copied record *)
Lemma config_copy_settings : forall c c' ds, sane c -> settings c ds -> config_copy c = Some c' ->
  settings c' ds /\ sane c' /\ cf_usr c' = None /\ cf_grp c' = None.
Proof.
  intros c c' ds SN ST H.
  assert (K : forall o, kept o -> copy_string o = Some o) by (intros [s|] E; cbn in *; [now rewrite E|reflexivity]).
  unfold config_copy in H. destruct SN. rewrite !K in H by assumption. injection H as <-.
  split; [destruct ST; constructor; assumption|]. split; [constructor; assumption|]. split; reflexivity.
Qed.
Lemma config_copy_ok : forall c, sane c -> exists c', config_copy c = Some c'.
Proof.
  intros c SN. assert (K : forall o, kept o -> copy_string o = Some o) by (intros [s|] E; cbn in *; [now rewrite E|reflexivity]).
  unfold config_copy. destruct SN. rewrite !K by assumption. eauto.
Qed.

(* Match lines *)
Lemma check_match_words : forall fuel l found, (List.length l <= fuel)%nat -> check_match fuel found l = true -> (words l = [] -> found = true) /\
  forall k ws, words l = k :: ws -> (k = ascii "User" \/ k = ascii "Group").
Proof.
  intros [|fuel] l found L H.
  - assert (l = []) as -> by (destruct l; [reflexivity|cbn in L; lia]). cbn in H. split; [auto|discriminate].
  - cbn [check_match] in H. destruct (skip_ws l) as [|c t] eqn:S.
    + apply words_nil_skip in S. rewrite S. split; [auto|discriminate].
    + split; [intros W; apply words_nil_skip in W; congruence|]. intros k ws W.
      destruct (words_uncons l k ws W) as (c' & t' & S' & K & _ & _). rewrite S in *. rewrite K in H.
      unfold is_lit in H. destruct (bytes_eqb k (lit "User")) eqn:E; [apply bytes_eqb_eq in E; auto|].
      destruct (bytes_eqb k (lit "Group")) eqn:F; [apply bytes_eqb_eq in F; auto|discriminate].
Qed.
Lemma span_len : forall p l, (List.length (snd (span p l)) <= List.length l)%nat.
Proof. induction l as [|c t IH]; cbn; [lia|]. destruct (p c); [|cbn; lia]. destruct (span p t); cbn in *. lia. Qed.
Lemma after_word_len : forall l c t, l = c :: t -> is_white c = false -> (List.length (after_word l) < List.length l)%nat.
Proof.
  intros l c t -> E. unfold after_word. cbn [span]. rewrite space_white, E. cbn [negb].
  pose proof (span_len (fun c0 => negb (space c0)) t) as L. destruct (span (fun c0 => negb (space c0)) t); cbn in *. lia.
Qed.
Lemma words_two : forall l a b r, words l = a :: b :: r ->
  word (skip_ws l) = a /\ word (skip_ws (after_word (skip_ws l))) = b /\
  words (after_word (skip_ws (after_word (skip_ws l)))) = r /\
  (List.length (after_word (skip_ws (after_word (skip_ws l)))) + 2 <= List.length l)%nat /\ a <> [] /\ b <> [].
Proof.
  intros l a b r W. destruct (words_uncons l a (b :: r) W) as (c & t & S & K & R & NA).
  destruct (words_uncons _ b r R) as (d & u & S2 & K2 & R2 & NB).
  repeat split; try assumption.
  pose proof (after_word_len _ c t S (skip_ws_hd _ _ _ S)) as L1.
  pose proof (after_word_len _ d u S2 (skip_ws_hd _ _ _ S2)) as L2.
  pose proof (span_len space l) as L3. fold (skip_ws l) in L3.
  pose proof (span_len space (after_word (skip_ws l))) as L4. fold (skip_ws (after_word (skip_ws l))) in L4. lia.
Qed.

Lemma is_lit_spec : forall v s, is_lit v s = bytes_eqb v (ascii s).
Proof. reflexivity. Qed.
Lemma parse_match_words : forall n l fuel fuel' found c c', (List.length l <= n)%nat -> (List.length l <= fuel)%nat -> (List.length l <= fuel')%nat ->
  check_match fuel' found l = true -> parse_match fuel c l = Some c' ->
  (exists u g, c' = set_grp g (set_usr u c) /\
     u = match criterion (ascii "User") (words l) with Some m => Some m | None => cf_usr c end /\
     g = match criterion (ascii "Group") (words l) with Some m => Some m | None => cf_grp c end) /\
  pairs_ok (words l) /\ (found = false -> words l <> []).
Proof.
  induction n as [|n IH]; intros l fuel fuel' found c c' L LF LF' CM H.
  - assert (l = []) as -> by (destruct l; [reflexivity|cbn in L; lia]).
    assert (c' = c) as -> by (destruct fuel; cbn in H; congruence).
    split; [exists (cf_usr c), (cf_grp c); destruct c; repeat split|]. split; [exact I|].
    intros -> _. destruct fuel'; cbn in CM; discriminate.
  - destruct fuel as [|fuel].
    { assert (l = []) as -> by (destruct l; [reflexivity|cbn in LF; lia]). apply (IH [] O fuel' found c c'); cbn; try lia; assumption. }
    cbn [parse_match] in H.
    destruct (words l) as [|k ws] eqn:W.
    { assert (S := W). apply words_nil_skip in S. rewrite S in H. injection H as <-.
      split; [exists (cf_usr c), (cf_grp c); destruct c; repeat split|]. split; [exact I|].
      intros ->. destruct (check_match_words fuel' l false LF' CM) as [A _]. specialize (A W). discriminate. }
    destruct (check_match_words fuel' l found LF' CM) as [_ A]. specialize (A k ws W).
    destruct (words_uncons l k ws W) as (ch & t & S & K & R & NA).
    rewrite S in *. cbv zeta in H. rewrite K in H.
    assert (KK : (is_lit k "User" || is_lit k "Group" = true)%bool) by (destruct A as [-> | ->]; reflexivity).
    rewrite KK in H.
    destruct ws as [|m r].
    { assert (S2 := R). apply words_nil_skip in S2. rewrite S2 in H. cbn in H. discriminate. }
    destruct (words_two l k m r W) as (W1 & W2 & W3 & WL & _ & NB). rewrite S in W1, W2, W3, WL.
    rewrite W2 in H.
    assert (CS : create_string m = Some m) by (rewrite <- W2, create_string_word, W2; destruct m; [contradiction|reflexivity]).
    destruct m as [|m0 mt]; [contradiction|]. rewrite CS in H.
    destruct fuel' as [|fuel']. { assert (l = []) as -> by (destruct l; [reflexivity|cbn in LF'; lia]). discriminate W. }
    cbn [check_match] in CM. rewrite S in CM. cbv zeta in CM. rewrite K, KK in CM.
    specialize (IH (after_word (skip_ws (after_word (ch :: t)))) fuel fuel' true _ c' ltac:(lia) ltac:(lia) ltac:(lia) CM H).
    destruct IH as ((u & g & E & EU & EG) & PO & _). rewrite W3 in *.
    split; [|split; [cbn [pairs_ok]; split; assumption|discriminate]].
    exists u, g. cbn [criterion].
    destruct A as [-> | ->].
    + change (is_lit (ascii "User") "User") with true in *. change (bytes_eqb (ascii "User") (ascii "User")) with true. change (bytes_eqb (ascii "User") (ascii "Group")) with false. cbv iota in *.
      split; [rewrite E; reflexivity|]. cbn [cf_usr cf_grp set_usr] in EU, EG.
      split; [rewrite EU; destruct (criterion (ascii "User") r); reflexivity|]. rewrite EG. destruct (criterion (ascii "Group") r); reflexivity.
    + change (is_lit (ascii "Group") "User") with false in *. change (bytes_eqb (ascii "Group") (ascii "User")) with false. change (bytes_eqb (ascii "Group") (ascii "Group")) with true. cbv iota in *.
      split; [rewrite E; reflexivity|]. cbn [cf_usr cf_grp set_grp] in EU, EG.
      split; [rewrite EU; destruct (criterion (ascii "User") r); reflexivity|]. rewrite EG. destruct (criterion (ascii "Group") r); reflexivity.
Qed.
