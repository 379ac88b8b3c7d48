(* Base.v - words, bytes, return codes and the result types used by every
   model file. *)
From Coq Require Import List NArith ZArith Lia Bool.
From Coq Require Import ZifyBool ZifyNat ZifyN.
Import ListNotations.
Open Scope N_scope.

Ltac Zify.zify_post_hook ::= Z.div_mod_to_equations.

(* A byte buffer. wolfssh/types: [byte] is an unsigned char; here an N, below
   256 whenever a theorem needs it ([bytes_ok]). *)
Definition bytes := list N.
Definition byte_ok (b : N) : Prop := b < 256.
Definition bytes_ok (l : bytes) : Prop := Forall byte_ok l.

(* Length of a buffer as a machine number. *)
Definition lenN {A} (l : list A) : N := N.of_nat (length l).

(* word32 arithmetic: [word32] is an unsigned 32-bit integer
   (wolfssl/wolfcrypt/types.h); addition and subtraction wrap. *)
Definition W32 : N := 4294967296.
Definition w32 (x : N) : N := x mod W32.
Definition add32 (a b : N) : N := w32 (a + b).
Definition sub32 (a b : N) : N := w32 (a + (W32 - w32 b)).
Definition is32 (x : N) : Prop := x < W32.

(* Memory reads. None is a read outside the buffer. *)
Definition rd (b : bytes) (i : N) : option N := nth_error b (N.to_nat i).
Definition takeN {A} (n : N) (l : list A) : list A := firstn (N.to_nat n) l.
Definition dropN {A} (n : N) (l : list A) : list A := skipn (N.to_nat n) l.
Definition rdn (b : bytes) (off n : N) : option bytes :=
  if off + n <=? lenN b then Some (takeN n (dropN off b)) else None.

(* Return codes, wolfssh/error.h 37-150 (only those the models use). *)
Inductive rc : Set :=
| WS_SUCCESS | WS_ERROR | WS_BAD_ARGUMENT | WS_MEMORY_E | WS_BUFFER_E
| WS_PARSE_E | WS_OVERFLOW_E | WS_SOCKET_ERROR_E | WS_WANT_READ
| WS_WANT_WRITE | WS_RECV_OVERFLOW_E | WS_VERSION_E | WS_SEND_OOB_READ_E
| WS_INVALID_ALGO_ID | WS_DECRYPT_E | WS_ENCRYPT_E | WS_VERIFY_MAC_E
| WS_CREATE_MAC_E | WS_RESOURCE_E | WS_INVALID_CHANTYPE | WS_INVALID_CHANID
| WS_CRYPTO_FAILED | WS_INVALID_STATE_E | WS_EOF | WS_CHANOPEN_FAILED
| WS_REKEYING | WS_CHANNEL_CLOSED | WS_INVALID_PATH_E | WS_CHAN_RXD
| WS_EXTDATA | WS_INVALID_EXTDATA | WS_USER_AUTH_E | WS_CHANNEL_NOT_CONF
| WS_WINDOW_FULL | WS_DH_SIZE_E | WS_MSGID_NOT_ALLOWED_E | WS_AUTH_PENDING
| WS_DISCONNECT | WS_PERMISSIONS | WS_UNIMPLEMENTED_E
| WS_MATCH_KEX_ALGO_E | WS_MATCH_KEY_ALGO_E | WS_MATCH_ENC_ALGO_E
| WS_MATCH_MAC_ALGO_E | WS_FATAL_OTHER.

(* WS_FATAL_ERROR and WS_ERROR are the same number (error.h 40-41). *)
Definition WS_FATAL_ERROR := WS_ERROR.

Definition rc_eq_dec (a b : rc) : {a = b} + {a <> b}.
Proof. decide equality. Defined.
Definition rc_eqb (a b : rc) : bool := if rc_eq_dec a b then true else false.
(* every code but WS_SUCCESS is a negative number *)
Definition rc_neg (a : rc) : bool := negb (rc_eqb a WS_SUCCESS).

Lemma rc_eqb_eq : forall a b, rc_eqb a b = true <-> a = b.
Proof. intros a b; unfold rc_eqb; destruct (rc_eq_dec a b); split; congruence. Qed.
Lemma rc_eqb_neq : forall a b, rc_eqb a b = false <-> a <> b.
Proof. intros a b; unfold rc_eqb; destruct (rc_eq_dec a b); split; congruence. Qed.
Lemma rc_eqb_refl : forall a, rc_eqb a a = true.
Proof. intros a; apply rc_eqb_eq; reflexivity. Qed.

(* Result of a reader: value and new index, error code and the index left
   behind, or a read outside the buffer. *)
Inductive pres (A : Type) : Type :=
| POk (a : A) (idx : N)
| PErr (e : rc) (idx : N)
| POob.
Arguments POk {A} a idx.
Arguments PErr {A} e idx.
Arguments POob {A}.

Definition pbind {A B} (r : pres A) (f : A -> N -> pres B) : pres B :=
  match r with
  | POk a i => f a i
  | PErr e i => PErr e i
  | POob => POob
  end.

(* ------------------------------------------------------------------ *)
(* General lemmas                                                       *)

Lemma lenN_app : forall A (a b : list A), lenN (a ++ b) = lenN a + lenN b.
Proof. intros; unfold lenN; rewrite app_length; lia. Qed.
Lemma lenN_nil : forall A, lenN (@nil A) = 0.
Proof. reflexivity. Qed.
Lemma lenN_cons : forall A (x : A) l, lenN (x :: l) = 1 + lenN l.
Proof. intros; unfold lenN; cbn [length]; lia. Qed.
Lemma lenN_0 : forall A (l : list A), lenN l = 0 -> l = [].
Proof. intros A l H; unfold lenN in H; destruct l; cbn in *; [reflexivity | lia]. Qed.
Lemma lenN_takeN : forall A n (l : list A), lenN (takeN n l) = N.min n (lenN l).
Proof. intros; unfold lenN, takeN; rewrite firstn_length; lia. Qed.
Lemma lenN_dropN : forall A n (l : list A), lenN (dropN n l) = lenN l - n.
Proof. intros; unfold lenN, dropN; rewrite skipn_length; lia. Qed.
Lemma takeN_dropN : forall A n (l : list A), takeN n l ++ dropN n l = l.
Proof. intros; unfold takeN, dropN; apply firstn_skipn. Qed.
Lemma takeN_all : forall A n (l : list A), lenN l <= n -> takeN n l = l.
Proof. intros A n l H; unfold takeN, lenN in *; apply firstn_all2; lia. Qed.
Lemma dropN_all : forall A n (l : list A), lenN l <= n -> dropN n l = [].
Proof. intros A n l H; unfold dropN, lenN in *; apply skipn_all2; lia. Qed.
Lemma takeN_0 : forall A (l : list A), takeN 0 l = [].
Proof. reflexivity. Qed.
Lemma dropN_0 : forall A (l : list A), dropN 0 l = l.
Proof. reflexivity. Qed.
Lemma takeN_app_exact : forall A n (a b : list A), n = lenN a -> takeN n (a ++ b) = a.
Proof.
  intros A n a b ->; unfold takeN, lenN; rewrite Nat2N.id.
  rewrite firstn_app, Nat.sub_diag, firstn_all; cbn; apply app_nil_r.
Qed.
Lemma dropN_app_exact : forall A n (a b : list A), n = lenN a -> dropN n (a ++ b) = b.
Proof.
  intros A n a b ->; unfold dropN, lenN; rewrite Nat2N.id.
  rewrite skipn_app, Nat.sub_diag, skipn_all; reflexivity.
Qed.
Lemma takeN_app_l : forall A n (a b : list A), n <= lenN a -> takeN n (a ++ b) = takeN n a.
Proof.
  intros A n a b H; unfold takeN, lenN in *. rewrite firstn_app.
  replace (N.to_nat n - length a)%nat with 0%nat by lia. cbn; apply app_nil_r.
Qed.
Lemma dropN_app_l : forall A n (a b : list A), n <= lenN a -> dropN n (a ++ b) = dropN n a ++ b.
Proof.
  intros A n a b H; unfold dropN, lenN in *. rewrite skipn_app.
  replace (N.to_nat n - length a)%nat with 0%nat by lia. reflexivity.
Qed.
Lemma takeN_app_r : forall A n (a b : list A), lenN a <= n ->
  takeN n (a ++ b) = a ++ takeN (n - lenN a) b.
Proof.
  intros A n a b H; unfold takeN, lenN in *. rewrite firstn_app.
  rewrite firstn_all2 by lia. f_equal. f_equal. lia.
Qed.
Lemma dropN_app_r : forall A n (a b : list A), lenN a <= n ->
  dropN n (a ++ b) = dropN (n - lenN a) b.
Proof.
  intros A n a b H; unfold dropN, lenN in *. rewrite skipn_app.
  rewrite skipn_all2 by lia. cbn. f_equal. lia.
Qed.
Lemma dropN_dropN : forall A n m (l : list A), dropN n (dropN m l) = dropN (m + n) l.
Proof.
  intros A n m l; unfold dropN. revert l.
  replace (N.to_nat (m + n)) with (N.to_nat m + N.to_nat n)%nat by lia.
  generalize (N.to_nat n) as b. generalize (N.to_nat m) as a.
  induction a as [|a IH]; intros b l; [reflexivity|].
  destruct l as [|x l]; cbn; [destruct b; reflexivity | apply IH].
Qed.
Lemma takeN_takeN : forall A n m (l : list A), takeN n (takeN m l) = takeN (N.min n m) l.
Proof.
  intros; unfold takeN; rewrite firstn_firstn; f_equal; lia.
Qed.
Lemma takeN_add : forall A n m (l : list A), takeN (n + m) l = takeN n l ++ takeN m (dropN n l).
Proof.
  intros A n m l; unfold takeN, dropN.
  replace (N.to_nat (n + m)) with (N.to_nat n + N.to_nat m)%nat by lia.
  generalize (N.to_nat n) as a, (N.to_nat m) as b. clear n m.
  intros a; revert l; induction a as [|a IH]; intros l b; [reflexivity|].
  destruct l as [|x l]; cbn; [destruct b; reflexivity | f_equal; apply IH].
Qed.

Lemma is32_w32 : forall x, is32 (w32 x).
Proof. intros x; unfold is32, w32, W32; lia. Qed.
Lemma w32_small : forall x, is32 x -> w32 x = x.
Proof. intros x H; unfold is32, w32, W32 in *; lia. Qed.
Lemma add32_small : forall a b, a + b < W32 -> add32 a b = a + b.
Proof. intros a b H; unfold add32, w32, W32 in *; lia. Qed.
Lemma sub32_small : forall a b, b <= a -> a < W32 -> sub32 a b = a - b.
Proof. intros a b H1 H2; unfold sub32, w32, W32 in *; lia. Qed.

Lemma rd_some : forall b i, i < lenN b -> exists x, rd b i = Some x /\ In x b.
Proof.
  intros b i H; unfold rd. destruct (nth_error b (N.to_nat i)) as [x|] eqn:E.
  - exists x; split; [reflexivity | eapply nth_error_In; eassumption].
  - apply nth_error_None in E. unfold lenN in H. lia.
Qed.
Lemma rd_none : forall b i, lenN b <= i -> rd b i = None.
Proof. intros b i H; unfold rd; apply nth_error_None; unfold lenN in H; lia. Qed.
Lemma rd_lt : forall b i x, rd b i = Some x -> i < lenN b.
Proof.
  intros b i x H; unfold rd in H.
  assert (N.to_nat i < length b)%nat by (apply nth_error_Some; congruence).
  unfold lenN; lia.
Qed.
Lemma rd_app_r : forall a b i, rd (a ++ b) (lenN a + i) = rd b i.
Proof.
  intros a b i; unfold rd, lenN. rewrite nth_error_app2 by lia. f_equal. lia.
Qed.
Lemma rd_app_l : forall a b i, i < lenN a -> rd (a ++ b) i = rd a i.
Proof. intros a b i H; unfold rd, lenN in *. apply nth_error_app1; lia. Qed.
Lemma rd_ok : forall b i x, bytes_ok b -> rd b i = Some x -> x < 256.
Proof.
  intros b i x Hb H; unfold rd in H. apply nth_error_In in H.
  unfold bytes_ok in Hb. rewrite Forall_forall in Hb. apply Hb; assumption.
Qed.
Lemma bytes_ok_app : forall a b, bytes_ok (a ++ b) <-> bytes_ok a /\ bytes_ok b.
Proof. intros; unfold bytes_ok; apply Forall_app. Qed.
Lemma bytes_ok_takeN : forall n b, bytes_ok b -> bytes_ok (takeN n b).
Proof.
  intros n b H. rewrite <- (takeN_dropN _ n b) in H. apply bytes_ok_app in H; tauto.
Qed.
Lemma bytes_ok_dropN : forall n b, bytes_ok b -> bytes_ok (dropN n b).
Proof.
  intros n b H. rewrite <- (takeN_dropN _ n b) in H. apply bytes_ok_app in H; tauto.
Qed.

(* A result without an index. *)
Inductive res (A : Type) : Type := ROk (a : A) | RErr (e : rc).
Arguments ROk {A} a.
Arguments RErr {A} e.
