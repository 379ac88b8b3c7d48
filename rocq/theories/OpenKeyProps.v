(* OpenKeyProps.v - C89: private key files in OpenSSH's format are read as they
   are written; C90: files with encrypted keys. *)
From Verif Require Import Base WireModel WireSpec WireProofs NameTable NegoModel NegoSpec NegoProofs AuthModel AuthSpec AuthProofs
  OsshModel OsshSpec OsshProofs OsshProofs2 OsshProofs3 OpenKeyModel OpenKeySpec OpenKeyProofs OpenKeyProofs2.
From Coq Require Import List NArith Lia Bool String.
Import ListNotations.
Open Scope N_scope.
Local Notation "a ++ b" := (@app _ a b) : list_scope.

(* ------------------------------------------------------------------ *)
(* C89                                                                  *)

(* A decoded file is accepted, and its key handed to the crypto library, exactly
   when it has the layout, with one key whose values the library takes. *)
Theorem C89_accepted : forall lib buf id k, bytes_ok buf -> is32 (lenN buf) ->
  ((exists j, GetOpenSshKey lib buf = POk (id, k) j) <->
   lib k = true /\ exists type, id = NameToId (ascii type) /\ holds buf type k).
Proof. exact key_iff. Qed.

(* No read leaves the buffer, whatever is in it. *)
Theorem C89_safe : forall lib buf, bytes_ok buf -> is32 (lenN buf) -> GetOpenSshKey lib buf <> POob.
Proof. exact key_noob2. Qed.

(* A file holds one key only: no second reading of it gives another one. *)
Theorem C89_unambiguous : forall buf t1 k1 t2 k2, bytes_ok buf -> is32 (lenN buf) ->
  holds buf t1 k1 -> holds buf t2 k2 -> t1 = t2 /\ k1 = k2.
Proof.
  intros buf t1 k1 t2 k2 B L H1 H2.
  destruct (proj2 (key_iff (fun _ => true) buf (NameToId (ascii t1)) k1 B L) ltac:(eauto)) as (j1 & G1).
  destruct (proj2 (key_iff (fun _ => true) buf (NameToId (ascii t2)) k2 B L) ltac:(eauto)) as (j2 & G2).
  rewrite G1 in G2. injection G2 as E -> _. split; [|reflexivity].
  pose proof (holds_type _ _ _ H1) as T1. pose proof (holds_type _ _ _ H2) as T2. cbn [In key_types] in T1, T2.
  destruct T1 as [<- |[<- |[<- |[<- |[<- |[]]]]]]; destruct T2 as [<- |[<- |[<- |[<- |[<- |[]]]]]]; try reflexivity; vm_compute in E; discriminate.
Qed.

(* Reading the text of a file: the caller gets the decoded file and the name of
   the key's type exactly when the text between the markers decodes to a file
   that is accepted, and their buffer, if they have one, is not smaller than
   the text. *)
Theorem C89_text : forall lib b64 room inp out name, is32 (lenN inp) -> decoder b64 ->
  (DoOpenSshKey lib b64 room inp = ROk (out, name) <->
   (forall n, room = Some n -> lenN inp <= n) /\
   exists code type k, wraps inp code /\ b64 code = Some out /\ name = ascii type /\ holds out type k /\ lib k = true).
Proof. exact file_iff. Qed.

(* Base 64 has no hyphen and no zero byte, so whatever follows the end marker
   what is decoded is what stands before it. *)
Theorem C89_markers : forall code rest, ~ In 0 code -> ~ In 45 code ->
  wraps (begin_marker ++ code ++ end_marker ++ rest) code.
Proof.
  intros code rest Z H. exists rest. split; [reflexivity|]. split; [exact Z|]. intros a b E.
  destruct (N.le_gt_cases (lenN code) (lenN a)) as [|L]; [assumption|]. exfalso. apply H.
  pose proof (f_equal (fun l => rd l (lenN a)) E) as R. cbv beta in R.
  rewrite rd_app_l in R by exact L. rewrite <- (N.add_0_r (lenN a)) in R at 2. rewrite rd_app_r in R.
  change (rd (end_marker ++ b) 0) with (Some 45) in R. unfold rd in R. apply nth_error_In in R. exact R.
Qed.

(* one decomposition of a file *)
Lemma file_inj : forall c1 c2 k1 k2 o1 o2 n1 n2 p1 p2 s1 s2 r1 r2, n1 < W32 -> n2 < W32 ->
  is32 (lenN (file c1 k1 o1 n1 p1 s1 r1)) -> file c1 k1 o1 n1 p1 s1 r1 = file c2 k2 o2 n2 p2 s2 r2 ->
  c1 = c2 /\ n1 = n2 /\ s1 = s2.
Proof.
  intros c1 c2 k1 k2 o1 o2 n1 n2 p1 p2 s1 s2 r1 r2 N1 N2 L E. pose proof L as L2. rewrite E in L2. unfold file in *.
  rewrite !lenN_app, !lenN_str in L, L2.
  apply app_inv_head in E. apply app_inv_head in E.
  apply str_inj in E; [|unfold is32, W32 in *; lia|unfold is32, W32 in *; lia]. destruct E as (-> & E).
  apply str_inj in E; [|unfold is32, W32 in *; lia|unfold is32, W32 in *; lia]. destruct E as (_ & E).
  apply str_inj in E; [|unfold is32, W32 in *; lia|unfold is32, W32 in *; lia]. destruct E as (_ & E).
  apply app_inj_len in E; [|rewrite !lenN_be32; reflexivity]. destruct E as (En & E). apply be32_inj in En; [|assumption|assumption].
  apply str_inj in E; [|unfold is32, W32 in *; lia|unfold is32, W32 in *; lia]. destruct E as (_ & E).
  apply str_inj in E; [|unfold is32, W32 in *; lia|unfold is32, W32 in *; lia]. tauto.
Qed.

(* A file that does not hold exactly one key is refused. *)
Theorem C89_one_key : forall lib cipher kdf options count public s rest r j,
  let buf := file cipher kdf options count public s rest in
  bytes_ok buf -> is32 (lenN buf) -> count < W32 -> count <> 1 -> GetOpenSshKey lib buf <> POk r j.
Proof.
  cbv zeta. intros lib cipher kdf options count public s rest (id, k) j B L V N1 G.
  destruct (proj1 (key_iff lib _ id k B L) ltac:(eauto)) as (_ & type & _ & c & kd & o & p & ch & fs & cm & pad & rs & E & _).
  apply file_inj in E; [|exact V|reflexivity|exact L]. tauto.
Qed.

(* In a section whose length is a multiple of eight, a wrong padding byte is
   noticed. *)
Theorem C89_padding : forall lib cipher kdf options public check type fields comment pad rest r j k,
  let s := section check check type fields comment pad in let buf := file cipher kdf options 1 public s rest in
  bytes_ok buf -> is32 (lenN buf) -> check < W32 -> written type k fields -> lenN s mod 8 = 0 ->
  pad <> counting 1 (N.to_nat (lenN pad)) -> GetOpenSshKey lib buf <> POk r j.
Proof.
  cbv zeta. intros lib cipher kdf options public check type fields comment pad rest (id, k2) j k B L V W M Np G.
  set (s := section check check type fields comment pad) in *.
  destruct (proj1 (key_iff lib _ id k2 B L) ltac:(eauto)) as (_ & type2 & _ & c & kd & o & p & ch & fs & cm & pad2 & rs & E & V2 & W2 & P2).
  apply file_inj in E; [|reflexivity|reflexivity|exact L]. destruct E as (_ & _ & E).
  assert (Ls : is32 (lenN s)) by (unfold file in L; rewrite !lenN_app, !lenN_str in L; unfold is32, W32 in *; lia).
  rewrite <- E in P2. specialize (P2 M). pose proof Ls as Ls2. rewrite E in Ls2. unfold s, section in Ls. unfold section in Ls2.
  unfold s, section in E. rewrite !lenN_app, !lenN_str in Ls, Ls2.
  apply app_inj_len in E; [|rewrite !lenN_be32; reflexivity]. destruct E as (_ & E).
  apply app_inj_len in E; [|rewrite !lenN_be32; reflexivity]. destruct E as (_ & E).
  apply str_inj in E; [|unfold is32, W32 in *; lia|unfold is32, W32 in *; lia]. destruct E as (Et & E).
  assert (Fi : forall t f1 f2 k1 k2 x y, written t k1 f1 -> written t k2 f2 -> is32 (lenN (strs f1)) -> is32 (lenN (strs f2)) ->
     strs f1 ++ x = strs f2 ++ y -> x = y).
  { intros t f1 f2 ka kb x y Wa Wb La Lb Es.
    assert (G2 : forall l1 l2, List.length l1 = List.length l2 -> is32 (lenN (strs l1)) -> is32 (lenN (strs l2)) -> strs l1 ++ x = strs l2 ++ y -> x = y).
    { induction l1 as [|a1 l1 IH]; intros [|a2 l2] El H1 H2 Eq; try discriminate; [exact Eq|].
      rewrite !strs_cons, <- !app_assoc in Eq. rewrite strs_cons, lenN_app, lenN_str in H1, H2.
      apply str_inj in Eq; [|unfold is32, W32 in *; lia|unfold is32, W32 in *; lia]. destruct Eq as (_ & Eq).
      apply (IH l2); [injection El; auto|unfold is32, W32 in *; lia|unfold is32, W32 in *; lia|exact Eq]. }
    apply (G2 f1 f2); try assumption.
    inversion Wa; subst; inversion Wb; subst; try reflexivity; exfalso; cbn [In] in *; intuition discriminate. }
  assert (type = type2) as <-.
  { apply written_type in W. apply written_type in W2. cbn [In key_types] in W, W2.
    destruct W as [<- |[<- |[<- |[<- |[<- |[]]]]]]; destruct W2 as [<- |[<- |[<- |[<- |[<- |[]]]]]]; try reflexivity; vm_compute in Et; discriminate. }
  apply (Fi type _ _ k k2) in E; [|assumption|assumption|unfold is32, W32 in *; lia|unfold is32, W32 in *; lia].
  apply str_inj in E; [|unfold is32, W32 in *; lia|unfold is32, W32 in *; lia]. destruct E as (_ & E).
  apply Np. rewrite E. exact P2.
Qed.

(* An Ed25519 file with comment "me", as ssh-keygen lays it out (shorter key). *)
Definition sample_section : bytes :=
  section 7 7 "ssh-ed25519" [[1; 2; 3; 4]; [9; 8; 7; 6] ++ [1; 2; 3; 4]] [109; 101] [1; 2; 3; 4; 5; 6; 7].
Definition sample : bytes := file (ascii "none") (ascii "none") [] 1 [5; 5] sample_section [].

Example C89_met : holds sample "ssh-ed25519" (EdPriv [1; 2; 3; 4] [9; 8; 7; 6]) /\ lenN sample_section mod 8 = 0 /\
  bytes_ok sample /\ is32 (lenN sample) /\
  GetOpenSshKey (fun _ => true) sample = POk (NameToId (ascii "ssh-ed25519"), EdPriv [1; 2; 3; 4] [9; 8; 7; 6]) (lenN sample).
Proof.
  split.
  { exists (ascii "none"), (ascii "none"), [], [5; 5], 7, [[1; 2; 3; 4]; [9; 8; 7; 6] ++ [1; 2; 3; 4]], [109; 101], [1; 2; 3; 4; 5; 6; 7], [].
    cbv zeta. split; [reflexivity|]. split; [reflexivity|]. split; [constructor; reflexivity|]. intros _. reflexivity. }
  split; [vm_compute; reflexivity|]. split; [|split; [vm_compute; reflexivity|vm_compute; reflexivity]].
  unfold bytes_ok. assert (X : forallb (fun x => x <? 256) sample = true) by (vm_compute; reflexivity).
  rewrite forallb_forall in X. apply Forall_forall. intros x I. apply N.ltb_lt. exact (X x I).
Qed.

(* the other kinds of keys *)
Example C89_kinds :
  (let s := section 7 7 "ssh-rsa" [[11]; [3]; [5]; [2]; [7]; [1]] [] [1; 2; 3] in
   holds (file [] [] [] 1 [] s [0]) "ssh-rsa" (RsaPriv [11] [3] [5] [2] [7] [1])) /\
  (let s := section 7 7 "ecdsa-sha2-nistp384" [ascii "nistp384"; [4; 1; 2]; [77]] [] [] in
   holds (file [] [] [] 1 [] s []) "ecdsa-sha2-nistp384" (EccPriv [4; 1; 2] [77])).
Proof.
  split.
  - exists [], [], [], [], 7, [[11]; [3]; [5]; [2]; [7]; [1]], [], [1; 2; 3], [0]. cbv zeta. split; [reflexivity|]. split; [reflexivity|].
    split; [constructor; repeat (constructor; [reflexivity|]); constructor|]. intros _. reflexivity.
  - exists [], [], [], [], 7, [ascii "nistp384"; [4; 1; 2]; [77]], [], [], []. cbv zeta. split; [reflexivity|]. split; [reflexivity|].
    split; [apply w_ecc; [cbn; auto|reflexivity]|]. intros _. reflexivity.
Qed.

(* the text of the sample, with a decoder that knows it *)
Definition sample_code : bytes := ascii "QQ==".
Definition sample_b64 (c : bytes) : option bytes := if bytes_eqb c sample_code then Some sample else None.
Example C89_text_sample : forall room, (forall n, room = Some n -> 73 <= n) ->
  DoOpenSshKey (fun _ => true) sample_b64 room (begin_marker ++ sample_code ++ end_marker ++ [10]) = ROk (sample, ascii "ssh-ed25519").
Proof.
  intros room R. unfold DoOpenSshKey.
  replace (match room with Some n => n <? lenN (begin_marker ++ sample_code ++ end_marker ++ [10]) | None => false end) with false.
  - vm_compute. reflexivity.
  - destruct room as [n|]; [|reflexivity]. symmetry. apply N.ltb_ge. exact (R n eq_refl).
Qed.

(* ------------------------------------------------------------------ *)
(* C90                                                                  *)

(* The full claim: a file that says it is encrypted is refused (no pass phrase
   is ever asked for). *)
Definition C90_full : Prop := forall lib cipher kdf options public s rest r j,
  let buf := file cipher kdf options 1 public s rest in
  bytes_ok buf -> is32 (lenN buf) -> cipher <> ascii "none" -> GetOpenSshKey lib buf <> POk r j.

(* It does not hold: the name of the cipher is not looked at. *)
Theorem C90_refuted : ~ C90_full.
Proof.
  intros H. refine (H (fun _ => true) (ascii "aes256-ctr") (ascii "bcrypt") [] [5; 5] sample_section [] _ _ _ _ _ _).
  4:{ vm_compute. reflexivity. }
  - unfold bytes_ok. assert (X : forallb (fun x => x <? 256) (file (ascii "aes256-ctr") (ascii "bcrypt") [] 1 [5; 5] sample_section []) = true) by (vm_compute; reflexivity).
    rewrite forallb_forall in X. apply Forall_forall. intros x I. apply N.ltb_lt. exact (X x I).
  - vm_compute. reflexivity.
  - vm_compute. discriminate.
Qed.

(* What there is instead: the two check numbers. Where they differ, as they do
   in an encrypted section but for one chance in 2^32, or are not there, the
   file is refused. *)
Theorem C90_partial : forall lib cipher kdf options count public s rest r j,
  let buf := file cipher kdf options count public s rest in
  bytes_ok buf -> is32 (lenN buf) -> count < W32 ->
  (forall check t, check < W32 -> s <> be32 check ++ be32 check ++ t) -> GetOpenSshKey lib buf <> POk r j.
Proof.
  cbv zeta. intros lib cipher kdf options count public s rest (id, k) j B L V Nc G.
  destruct (proj1 (key_iff lib _ id k B L) ltac:(eauto)) as (_ & type & _ & c & kd & o & p & ch & fs & cm & pad & rs & E & V2 & _).
  apply file_inj in E; [|exact V|reflexivity|exact L]. destruct E as (_ & _ & E). exact (Nc ch _ V2 E).
Qed.

Example C90_met : forall check t, check < W32 -> [1; 2; 3; 4; 5; 6; 7; 8; 9] <> be32 check ++ be32 check ++ t.
Proof. intros check t _ E. unfold be32 in E. cbn [app] in E. congruence. Qed.

Print Assumptions C89_accepted.
Print Assumptions C89_safe.
Print Assumptions C89_unambiguous.
Print Assumptions C89_text.
Print Assumptions C89_markers.
Print Assumptions C89_one_key.
Print Assumptions C89_padding.
Print Assumptions C90_refuted.
Print Assumptions C90_partial.
