(* SftpClientProofs4.v - concrete conversations, for the refutations and the
   examples of SftpClientProps.v. *)
From Verif Require Import Base WireModel WireProofs OsshSpec OsshProofs PathModel SftpModel SftpProofs2
  SftpClientModel SftpClientSpec SftpClientProofs SftpClientProofs2 SftpClientProofs3.
From Coq Require Import List NArith Lia Bool.
Import ListNotations.
Open Scope N_scope.
Local Notation str := OsshSpec.str.

Definition framedb (m : msg) : bool :=
  (m_type m <? 256) && (m_id m <? W32) && forallb (fun b => b <? 256) (m_body m) &&
  (0 <? lenN (m_body m)) && (lenN (m_body m) <? 2147483648).
Lemma framed_all : forall l, forallb framedb l = true -> Forall framed l.
Proof.
  induction l as [|m l IH]; cbn [forallb]; intros H; [constructor|].
  apply andb_true_iff in H. destruct H as (H & H'). constructor; [|apply IH; exact H'].
  unfold framedb in H. rewrite !andb_true_iff in H. destruct H as ((((A & B) & C) & D) & E).
  apply N.ltb_lt in A, B, D, E. split; [exact A|]. split; [exact B|]. split; [|split; assumption].
  apply Forall_forall. intros x Hx. rewrite forallb_forall in C. specialize (C x Hx). apply N.ltb_lt in C. exact C.
Qed.

Definition q_stat id from := Msg 17 id (str from).
Definition q_open id path flags := Msg 3 id (str path ++ be32 flags ++ be32 0).
Definition q_read id h off := Msg 5 id (str h ++ be64 off ++ be32 32768).
Definition q_write id h off d := Msg 6 id (str h ++ be64 off ++ str d).
Definition q_close id h := Msg 4 id (str h).
Definition r_attrs id := Msg 105 id (be32 4 ++ be32 33188).
Definition r_handle id h := Msg 102 id (str h).
Definition r_data id d := Msg 103 id (str d).
Definition r_status id code := Msg 101 id (be32 code ++ str [] ++ str []).

Lemma is_status : forall code, code < W32 -> status code (be32 code ++ str [] ++ str []).
Proof. intros code H. split; [exact H|]. exists [], []. reflexivity. Qed.

Section Gives.
Variables (F h : bytes).
Lemma g_other : forall q r, m_id r = m_id q -> m_type q <> 3 -> m_type q <> 5 -> gives F h q r.
Proof. intros q r H A B. split; [exact H|]. split; intros T; congruence. Qed.
Lemma g_open : forall id p fl, gives F h (q_open id p fl) (r_handle id h).
Proof. intros id p fl. split; [reflexivity|]. split; [|discriminate]. intros _. left. split; reflexivity. Qed.
Lemma g_read : forall (id : N) off off' n, off < W32 * W32 -> off' < W32 * W32 -> n < W32 ->
  str h ++ be64 off ++ be32 32768 = str h ++ be64 off' ++ be32 n -> off' = off /\ n = 32768.
Proof.
  intros _ off off' n A B C H. apply app_inv_head in H.
  apply app_lenN_inj in H; [|rewrite !lenN_be64; reflexivity]. destruct H as (H1 & H2).
  apply be64_inj in H1; try assumption. apply be32_inj in H2; [|reflexivity|exact C]. auto.
Qed.
Lemma g_data : forall id off k, off < W32 * W32 -> 0 < k <= 32768 -> off + k <= lenN F ->
  gives F h (q_read id h off) (r_data id (takeN k (dropN off F))).
Proof.
  intros id off k Ho Hk Hl. split; [reflexivity|]. split; [discriminate|]. intros _ off' n A B H.
  destruct (g_read 0 off off' n Ho A B H) as (-> & ->). left. split; [reflexivity|]. exists k. auto.
Qed.
Lemma g_eof : forall id off, off < W32 * W32 -> lenN F <= off -> gives F h (q_read id h off) (r_status id 1).
Proof.
  intros id off Ho Hl. split; [reflexivity|]. split; [discriminate|]. intros _ off' n A B H.
  destruct (g_read 0 off off' n Ho A B H) as (-> & ->). right. split; [reflexivity|]. exists 1.
  split; [apply is_status; reflexivity|]. split; [discriminate|]. intros _. exact Hl.
Qed.
End Gives.

(* a system in which nothing goes wrong; [k] bytes are read at a time *)
Definition fair (k : N) (junk : bytes) : cenv := mkCenv None true true (fun _ n => n) (fun p => p) (fun _ => k) junk 0.
Definition go (n : nat) : list ev := repeat (EMove 1000 false) n.
Definition names (resume : bool) : job := mkJob [97] [98] resume.

Lemma whole_big : forall E j es c, Forall (fun e => match e with EMove n _ => 4 <= n | _ => True end) es ->
  whole_lengths E j es c.
Proof.
  intros E j es c H. revert c. induction H as [|e es He H IH]; intros c; cbn [whole_lengths]; [exact I|].
  split; [|apply IH]. intros _ n b ->. exact He.
Qed.
Lemma go_big : forall n, Forall (fun e => match e with EMove n _ => 4 <= n | _ => True end) (go n).
Proof. intros n. apply Forall_forall. intros e He. apply repeat_spec in He. subst e. discriminate. Qed.
Lemma go_quiet : forall n, uninterrupted (go n).
Proof. intros n H. apply repeat_spec in H. discriminate H. Qed.
Lemma go_well : forall n, ~ In EFail (go n).
Proof. intros n H. apply repeat_spec in H. discriminate H. Qed.

Lemma saved_get : forall from to o tab, saved from to o tab -> exists tab', GetOfst from to tab = (o, tab').
Proof.
  intros from to o tab (pre & x & post & -> & A & B & C & D). revert D.
  induction pre as [|y pre IH]; intros D; cbn [app GetOfst].
  - rewrite A, B. rewrite !(proj2 (beq_eq _ _) eq_refl). cbn [andb]. rewrite C. eauto.
  - destruct (IH (fun s Hs => D s (or_intror Hs))) as (tab' & ->).
    destruct (beq from (o_from y) && beq to (o_to y)) eqn:Q; [|eauto]. exfalso.
    apply andb_true_iff in Q. destruct Q as (Q1 & Q2). apply beq_eq in Q1, Q2.
    apply (D y (or_introl eq_refl)). auto.
Qed.
