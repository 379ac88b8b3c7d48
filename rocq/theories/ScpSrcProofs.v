(* ScpSrcProofs.v - the numbers an SCP sender prints. *)
From Verif Require Import Base WireProofs ScpModel ScpSpec ScpSpec2 ScpSrcModel ScpSrcSpec.
From Coq Require Import List NArith ZArith Bool Lia.
Import ListNotations.
Open Scope N_scope.

Lemma value_snoc : forall b l c, value b (l ++ [c]) = value b l * b + (c - 48).
Proof.
  intros b l c. induction l as [|x t IH]; cbn [app value].
  - change (lenN (@nil N)) with 0. rewrite N.pow_0_r. lia.
  - rewrite IH, lenN_app. change (lenN [c]) with 1. rewrite N.pow_add_r, N.pow_1_r. lia.
Qed.

Lemma canonical_pos : forall b l, 2 <= b -> l <> [] -> Forall (fun c => 48 <= c) l -> hd 0 l <> 48 -> 0 < value b l.
Proof.
  intros b [|x t] B H F Q; [congruence|]. inversion F; subst. cbn [hd] in Q. cbn [value].
  assert (0 < b ^ lenN t) by (apply N.neq_0_lt_0, N.pow_nonzero; lia). nia.
Qed.

(* Printing gives the one way to write a number without leading zeros. *)
Lemma loop_unique : forall b l, 2 <= b -> l <> [] -> Forall (fun c => 48 <= c < 48 + b) l -> (hd 0 l = 48 -> l = [48]) ->
  forall fuel acc, value b l < 2 ^ N.of_nat fuel -> digits_loop (S fuel) b (value b l) acc = l ++ acc.
Proof.
  intros b l B. induction l as [|c l IH] using rev_ind; [congruence|].
  intros _ F Q fuel acc Lt. apply Forall_app in F. destruct F as [F Fc]. inversion Fc; subst.
  assert (M : value b (l ++ [c]) mod b = c - 48).
  { rewrite value_snoc, N.add_comm, N.mod_add by lia. apply N.mod_small. lia. }
  assert (D : value b (l ++ [c]) / b = value b l).
  { rewrite value_snoc, N.add_comm, N.div_add by lia. rewrite N.div_small by lia. lia. }
  cbn [digits_loop]. rewrite M, D. replace (48 + (c - 48)) with c by lia. rewrite <- app_assoc.
  destruct l as [|x t].
  - reflexivity.
  - assert (Hx : hd 0 (x :: t) <> 48).
    { cbn [hd]. intros ->. specialize (Q eq_refl). destruct t; discriminate Q. }
    assert (P : 0 < value b (x :: t)).
    { apply canonical_pos; [exact B|discriminate| |exact Hx]. eapply Forall_impl; [|exact F]. cbn beta; intros; lia. }
    destruct (value b (x :: t) =? 0) eqn:Z; [apply N.eqb_eq in Z; lia|].
    destruct fuel as [|f].
    + change (2 ^ N.of_nat 0) with 1 in Lt. rewrite value_snoc in Lt. nia.
    + rewrite IH; [reflexivity|discriminate|exact F|intros; congruence|].
      rewrite Nat2N.inj_succ, N.pow_succ_r' in Lt. rewrite value_snoc in Lt. nia.
Qed.

Lemma print_unique : forall b l, 2 <= b -> l <> [] -> Forall (fun c => 48 <= c < 48 + b) l -> (hd 0 l = 48 -> l = [48]) ->
  print b (value b l) = l.
Proof.
  intros. unfold print. rewrite loop_unique; [apply app_nil_r|assumption..|]. rewrite N2Nat.id. apply N.size_gt.
Qed.

(* and it is one *)
Lemma loop_ok : forall b fuel n acc, 2 <= b -> n < 2 ^ N.of_nat fuel ->
  exists l, digits_loop (S fuel) b n acc = l ++ acc /\ l <> [] /\ Forall (fun c => 48 <= c < 48 + b) l /\
    (hd 0 l = 48 -> l = [48]) /\ value b l = n.
Proof.
  intros b fuel. induction fuel as [|f IH]; intros n acc B Lt.
  - assert (n = 0) by (cbn in Lt; lia). subst n. exists [48]. cbn [digits_loop]. rewrite N.mod_0_l, N.div_0_l by lia.
    split; [reflexivity|]. split; [discriminate|]. split; [constructor; [lia|constructor]|]. split; reflexivity.
  - set (d := n mod b). set (m := n / b). assert (Dm : n = b * m + d) by (apply N.div_mod; lia).
    assert (Ld : d < b) by (apply N.mod_lt; lia).
    assert (E : digits_loop (S (S f)) b n acc = if m =? 0 then (48 + d) :: acc else digits_loop (S f) b m ((48 + d) :: acc)) by reflexivity.
    rewrite E. destruct (m =? 0) eqn:Z.
    + apply N.eqb_eq in Z. exists [48 + d]. split; [reflexivity|]. split; [discriminate|].
      split; [constructor; [lia|constructor]|]. cbn [hd]. split; [intros Q; f_equal; lia|].
      cbn [value]. change (lenN (@nil N)) with 0. rewrite N.pow_0_r. lia.
    + apply N.eqb_neq in Z. rewrite Nat2N.inj_succ, N.pow_succ_r' in Lt.
      destruct (IH m ((48 + d) :: acc) B ltac:(nia)) as (l & E1 & N1 & F1 & H1 & V1).
      exists (l ++ [48 + d]). split; [rewrite E1, <- app_assoc; reflexivity|]. split; [destruct l; discriminate|].
      split; [apply Forall_app; split; [exact F1|constructor; [lia|constructor]]|]. split.
      * destruct l as [|x t]; [congruence|]. cbn [app hd] in *. intros Q. specialize (H1 Q). injection H1 as -> ->.
        exfalso. cbn in V1. lia.
      * rewrite value_snoc, V1. lia.
Qed.

Lemma print_decimal : forall n, decimal n (print 10 n).
Proof.
  intros n. destruct (loop_ok 10 (N.to_nat (N.size n)) n [] ltac:(lia) ltac:(rewrite N2Nat.id; apply N.size_gt)) as (l & E & N1 & F & H & V).
  unfold print. rewrite E, app_nil_r. split; [split; [exact N1|]|split; [exact V|exact H]].
  eapply Forall_impl; [|exact F]. cbn beta; intros; lia.
Qed.
Lemma decimal_print : forall n l, decimal n l -> l = print 10 n.
Proof.
  intros n l ((N1 & F) & V & H). rewrite <- V. symmetry. apply print_unique; [lia|exact N1| |exact H].
  eapply Forall_impl; [|exact F]. cbn beta; intros; lia.
Qed.

Definition oct_test (n : N) : bool :=
  (length (print4 n) =? 4)%nat && forallb (fun c => (48 <=? c) && (c <=? 55)) (print4 n) && (value 8 (print4 n) =? n).
Lemma print4_octal : forall n, n < 512 -> octal4 n (print4 n).
Proof.
  intros n L. assert (T : forallb oct_test (map N.of_nat (seq 0 512)) = true) by (vm_compute; reflexivity).
  rewrite forallb_forall in T. specialize (T n). unfold oct_test in T.
  assert (I : In n (map N.of_nat (seq 0 512))).
  { apply in_map_iff. exists (N.to_nat n). split; [apply N2Nat.id|]. apply in_seq. lia. }
  specialize (T I). apply andb_true_iff in T. destruct T as [T V]. apply andb_true_iff in T. destruct T as [Le F].
  apply Nat.eqb_eq in Le. apply N.eqb_eq in V. split; [split; [exact Le|]|exact V].
  apply Forall_forall. intros x Hx. rewrite forallb_forall in F. specialize (F x Hx). apply andb_true_iff in F.
  destruct F as [A B]. apply N.leb_le in A, B. lia.
Qed.
Lemma octal4_unique : forall n a b, octal4 n a -> octal4 n b -> a = b.
Proof.
  intros n a b ((La & Fa) & Va) ((Lb & Fb) & Vb).
  destruct a as [|a1 [|a2 [|a3 [|a4 [|]]]]]; try discriminate La. destruct b as [|b1 [|b2 [|b3 [|b4 [|]]]]]; try discriminate Lb.
  repeat match goal with H : Forall _ (_ :: _) |- _ => inversion H; clear H; subst end. cbn [value] in *.
  change (lenN [a2; a3; a4]) with 3 in *. change (lenN [a3; a4]) with 2 in *. change (lenN [a4]) with 1 in *.
  change (lenN [b2; b3; b4]) with 3 in *. change (lenN [b3; b4]) with 2 in *. change (lenN [b4]) with 1 in *.
  change (lenN (@nil N)) with 0 in *. change (8 ^ 3) with 512 in *. change (8 ^ 2) with 64 in *. change (8 ^ 1) with 8 in *. change (8 ^ 0) with 1 in *.
  assert (a1 = b1) by lia. assert (a2 = b2) by lia. assert (a3 = b3) by lia. assert (a4 = b4) by lia. congruence.
Qed.
Lemma octal4_print : forall m o, octal4 (N.land m 511) o -> o = print4 (N.land m MODE_MASK).
Proof.
  intros m o H. eapply octal4_unique; [exact H|]. unfold MODE_MASK. apply print4_octal.
  change 511 with (N.ones 9). rewrite N.land_ones. apply N.mod_lt. discriminate.
Qed.
