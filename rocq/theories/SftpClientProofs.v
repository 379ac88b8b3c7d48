(* SftpClientProofs.v - lemmas on messages and the Get of the SFTP client. *)
From Verif Require Import Base WireModel WireProofs OsshSpec OsshProofs PathModel SftpModel SftpProofs2
  SftpClientModel SftpClientSpec.
From Coq Require Import List NArith Lia Bool.
Import ListNotations.
Open Scope N_scope.
Local Notation str := OsshSpec.str.

(* ---- numbers and messages ------------------------------------------- *)

Lemma be32_inj : forall v w, v < W32 -> w < W32 -> be32 v = be32 w -> v = w.
Proof.
  intros v w Hv Hw H. unfold be32, W32 in *. injection H as A B C D. lia.
Qed.

Lemma land255 : forall x, N.land x 255 = x mod 256.
Proof. intros x. change 255 with (N.ones 8). rewrite N.land_ones. reflexivity. Qed.

Lemma be32_back : forall v, v < W32 ->
  ((v / 16777216 mod 256 * 256 + v / 65536 mod 256) * 256 + v / 256 mod 256) * 256 + v mod 256 = v.
Proof.
  intros v H. unfold W32 in H.
  assert (A : v / 16777216 mod 256 = v / 16777216) by (apply N.mod_small; lia). rewrite A.
  assert (B : v / 16777216 = v / 65536 / 256) by (rewrite N.div_div by lia; reflexivity).
  assert (C : v / 65536 = v / 256 / 256) by (rewrite N.div_div by lia; reflexivity).
  rewrite B. rewrite C. lia.
Qed.

Lemma ato32_be32 : forall v x, v < W32 -> ato32 (be32 v ++ x) 0 = Some v.
Proof.
  intros v x H. transitivity (Some (ato32_val (v / 16777216 mod 256) (v / 65536 mod 256) (v / 256 mod 256) (v mod 256))); [reflexivity|].
  unfold ato32_val. rewrite !land255, !N.mod_mod by discriminate. f_equal. apply be32_back. exact H.
Qed.

Lemma header_parse : forall L t i, L < W32 -> i < W32 ->
  let g := be32 L ++ [t] ++ be32 i in
  ato32 g 0 = Some L /\ rd g 4 = Some t /\ ato32 g 5 = Some i.
Proof.
  intros L t i HL Hi. cbv zeta. split; [apply ato32_be32; exact HL|]. split; [reflexivity|].
  transitivity (Some (ato32_val (i / 16777216 mod 256) (i / 65536 mod 256) (i / 256 mod 256) (i mod 256))); [reflexivity|].
  unfold ato32_val. rewrite !land255, !N.mod_mod by discriminate. f_equal. apply be32_back. exact Hi.
Qed.

Definition small (m : msg) : Prop := m_id m < W32 /\ 5 + lenN (m_body m) < W32.
Lemma framed_small : forall m, framed m -> small m.
Proof. intros m (_ & A & _ & B). unfold small, W32 in *. lia. Qed.

Lemma wire_len : forall m, lenN (wire m) = 9 + lenN (m_body m).
Proof. intros m. unfold wire. rewrite !lenN_app, !lenN_be32, lenN_cons, lenN_nil. lia. Qed.

Lemma wire_inj : forall a b x y, small a -> small b -> wire a ++ x = wire b ++ y -> a = b /\ x = y.
Proof.
  intros (ta, ia, ba) (tb, ib, bb) x y (A1 & A2) (B1 & B2) H. unfold wire in H. cbn [m_type m_id m_body] in *.
  rewrite <- !app_assoc in H.
  apply app_lenN_inj in H; [|rewrite !lenN_be32; reflexivity]. destruct H as (HL & H).
  apply be32_inj in HL; [|lia|lia].
  apply app_lenN_inj in H; [|reflexivity]. destruct H as (Ht & H).
  assert (ta = tb) as -> by congruence.
  apply app_lenN_inj in H; [|rewrite !lenN_be32; reflexivity]. destruct H as (Hi & H).
  apply be32_inj in Hi; [|lia|lia]. subst ib.
  apply app_lenN_inj in H; [|lia]. destruct H as (-> & ->). split; reflexivity.
Qed.

Lemma wires_split : forall qd qs q d, Forall small qs -> small q -> Forall small qd ->
  List.concat (map wire qs) = List.concat (map wire qd) ++ wire q ++ d ->
  exists qr, qs = qd ++ q :: qr.
Proof.
  induction qd as [|a qd IH]; intros qs q d S Sq Sd H; cbn [map List.concat app] in H.
  - destruct qs as [|b qs]; cbn [map List.concat] in H.
    + apply (f_equal lenN) in H. rewrite lenN_app, wire_len, lenN_nil in H. lia.
    + inversion S; subst. apply wire_inj in H; [|assumption|assumption]. destruct H as (-> & _).
      exists qs. reflexivity.
  - destruct qs as [|b qs]; cbn [map List.concat] in H.
    + apply (f_equal lenN) in H. rewrite !lenN_app, wire_len, lenN_nil in H. lia.
    + inversion S; subst. inversion Sd; subst. rewrite <- app_assoc in H.
      apply wire_inj in H; [|assumption|assumption]. destruct H as (-> & H).
      destruct (IH qs q d) as (qr & ->); try assumption. exists qr. reflexivity.
Qed.

Lemma set_header : forall id ty body, 5 + lenN body < W32 ->
  SetHeader id ty (lenN body) ++ body = wire (Msg ty id body).
Proof.
  intros id ty body H. unfold SetHeader, wire. cbn [m_type m_id m_body].
  rewrite add32_small by (unfold W32 in *; lia). rewrite !be32_c32toa, <- !app_assoc.
  replace (lenN body + 5) with (5 + lenN body) by lia. reflexivity.
Qed.

Lemma simple_wire : forall ty id b, 9 + lenN b < W32 -> SimpleMsg ty id b = wire (Msg ty id (str b)).
Proof.
  intros ty id b H. unfold SimpleMsg, str. rewrite <- be32_c32toa.
  replace (lenN b + 4) with (lenN (be32 (lenN b) ++ b)) by (rewrite lenN_app, lenN_be32; lia).
  apply set_header. rewrite lenN_app, lenN_be32. lia.
Qed.

Lemma open_wire : forall id dir fl, 17 + lenN dir < W32 ->
  OpenMsg id dir fl = wire (Msg 3 id (str dir ++ be32 fl ++ be32 0)).
Proof.
  intros id dir fl H. unfold OpenMsg, str. rewrite <- !be32_c32toa.
  set (b := (be32 (lenN dir) ++ dir) ++ be32 fl ++ be32 0).
  assert (L : lenN b = lenN dir + 12) by (unfold b; rewrite !lenN_app, !lenN_be32; lia).
  replace (lenN dir + 8 + 4) with (lenN b) by lia.
  change (be32 (lenN dir) ++ dir ++ be32 fl ++ be32 0) with (be32 (lenN dir) ++ (dir ++ be32 fl ++ be32 0)).
  rewrite app_assoc. unfold b. apply set_header. fold b. lia.
Qed.

Lemma be64_words : forall o, words o -> be64 (offset o) = be32 (snd o) ++ be32 (fst o).
Proof.
  intros (lo, hi) (A & B). unfold offset, be64. cbn [fst snd] in *.
  replace ((hi * W32 + lo) / W32) with hi by (unfold W32 in *; lia).
  replace ((hi * W32 + lo) mod W32) with lo by (unfold W32 in *; lia). reflexivity.
Qed.

Lemma read_wire : forall id h o n, words o -> 21 + lenN h < W32 ->
  ReadMsg id h o n = wire (Msg 5 id (str h ++ be64 (offset o) ++ be32 n)).
Proof.
  intros id h o n W H. rewrite be64_words by exact W. unfold ReadMsg, str. rewrite <- !be32_c32toa.
  set (b := (be32 (lenN h) ++ h) ++ (be32 (snd o) ++ be32 (fst o)) ++ be32 n).
  assert (L : lenN b = lenN h + 16) by (unfold b; rewrite !lenN_app, !lenN_be32; lia).
  rewrite <- L. replace (be32 (lenN h) ++ h ++ be32 (snd o) ++ be32 (fst o) ++ be32 n) with b
    by (unfold b; rewrite <- !app_assoc; reflexivity).
  apply set_header. lia.
Qed.

Lemma write_wire : forall id h o d, words o -> 21 + lenN h + lenN d < W32 ->
  WriteHead id h o (lenN d) ++ d = wire (Msg 6 id (str h ++ be64 (offset o) ++ str d)).
Proof.
  intros id h o d W H. rewrite be64_words by exact W. unfold WriteHead, str. rewrite <- !be32_c32toa.
  set (b := (be32 (lenN h) ++ h) ++ (be32 (snd o) ++ be32 (fst o)) ++ be32 (lenN d) ++ d).
  assert (L : lenN b = lenN h + 16 + lenN d) by (unfold b; rewrite !lenN_app, !lenN_be32; lia).
  rewrite <- L. rewrite <- !app_assoc.
  replace (be32 (lenN h) ++ h ++ be32 (snd o) ++ be32 (fst o) ++ be32 (lenN d) ++ d) with b
    by (unfold b; rewrite <- !app_assoc; reflexivity).
  apply set_header. lia.
Qed.

Lemma do_status : forall code b, status code b -> bytes_ok b -> lenN b < 2147483648 ->
  DoStatus b = Some (if 8 <? code then 4 else code).
Proof.
  intros code b (Hc & t & l & E) Hb Hl.
  assert (H32 : is32 (lenN b)) by (unfold is32, W32; lia).
  assert (D0 : dropN 0 b = be32 code ++ (str t ++ str l)) by (rewrite dropN_0; exact E).
  destruct (at_of b 0 (be32 code) _ D0 ltac:(lia)) as (A1 & D1).
  destruct (at_of b (0 + lenN (be32 code)) (str t) _ D1 ltac:(destruct A1 as (_ & ? & ?); lia)) as (A2 & D2).
  rewrite <- (app_nil_r (str l)) in D2.
  destruct (at_of b (0 + lenN (be32 code) + lenN (str t)) (str l) _ D2 ltac:(destruct A2 as (_ & ? & ?); lia)) as (A3 & _).
  unfold DoStatus.
  assert (G1 : GetUint32 b (lenN b) 0 = POk code (0 + lenN (be32 code))).
  { apply (GetUint32_iff b Hb H32); [lia|]. split; [exact A1|exact Hc]. }
  rewrite G1.
  destruct (proj2 (StringRef_iff b Hb H32 (0 + lenN (be32 code)) (0 + lenN (be32 code) + lenN (str t))
                     ltac:(destruct A1 as (_ & ? & ?); lia)) (ex_intro _ t A2)) as (r2 & G2).
  rewrite G2.
  destruct (proj2 (StringRef_iff b Hb H32 (0 + lenN (be32 code) + lenN (str t)) (0 + lenN (be32 code) + lenN (str t) + lenN (str l))
                     ltac:(destruct A2 as (_ & ? & ?); lia)) (ex_intro _ l A3)) as (r3 & G3).
  rewrite G3. reflexivity.
Qed.

Lemma parse_handle : forall h, is32 (lenN h) -> ParseHandle (str h) = if lenN h <=? 256 then Some h else None.
Proof.
  intros h H. unfold ParseHandle. rewrite lenN_str.
  destruct (N.ltb_spec (4 + lenN h) 4); [lia|]. unfold str. rewrite ato32_be32 by exact H.
  unfold MAX_HANDLE. destruct (N.ltb_spec 256 (lenN h)); cbn [orb].
  - destruct (N.leb_spec (lenN h) 256); [lia|reflexivity].
  - destruct (N.ltb_spec (4 + lenN h) (4 + lenN h)); [lia|].
    destruct (N.leb_spec (lenN h) 256); [|lia].
    rewrite dropN_app_exact by (rewrite lenN_be32; reflexivity). rewrite takeN_all by lia. reflexivity.
Qed.

Lemma add64 : forall o n, words o -> n < W32 -> offset o + n < W32 * W32 ->
  words (AddAssign64 o n) /\ offset (AddAssign64 o n) = offset o + n.
Proof.
  intros (lo, hi) n (A & B) Hn H. unfold words, offset, AddAssign64, add32, w32 in *. cbn [fst snd] in *.
  destruct (N.ltb_spec ((lo + n) mod W32) lo); unfold W32 in *; lia.
Qed.

Lemma zero64_spec : forall o, zero64 o = true <-> offset o = 0.
Proof.
  intros (lo, hi). unfold zero64, offset. cbn [fst snd]. rewrite andb_true_iff, !N.eqb_eq. unfold W32. lia.
Qed.
