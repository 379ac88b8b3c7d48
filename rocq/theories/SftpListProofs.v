(* SftpListProofs.v - proofs about listing a directory with the SFTP client. *)
From Verif Require Import Base WireModel WireSpec WireProofs OsshSpec OsshProofs NegoSpec ReqSpec ReqProofs PathModel SftpModel
  SftpSpec SftpProofs SftpProofs2 SftpProofs7 SftpClientModel SftpClientSpec SftpClientProofs SftpListModel SftpListSpec.
From Coq Require Import List NArith Lia Bool.
Import ListNotations.
Open Scope N_scope.
Local Notation str := OsshSpec.str.
Local Notation status := SftpClientSpec.status.

(* ---- the contents of a NAME reply ------------------------------------ *)

Lemma name_app : forall e b r, name_wire e b ->
  exists n t a r1 r2, e = (n, t, a) /\ p_str (b ++ r) = Some (n, r1) /\ p_str r1 = Some (t, r2) /\ p_attrs r2 = Some (a, r).
Proof.
  intros ((n, t), a) b r (nb & tb & ab & Hn & Ht & Ha & ->).
  exists n, t, a, ((tb ++ ab) ++ r), (ab ++ r). split; [reflexivity|]. rewrite <- !app_assoc.
  split; [apply p_str_app; exact Hn|]. split; [apply p_str_app; exact Ht|]. apply p_attrs_app. exact Ha.
Qed.

Lemma loop_app : forall m, bytes_ok m -> is32 (lenN m) -> forall es bs, Forall2 name_wire es bs ->
  forall fuel pre x acc, m = pre ++ List.concat bs ++ x -> (Datatypes.length (List.concat bs ++ x) <= fuel)%nat ->
  exists i, name_loop fuel (lenN es) m (lenN pre) acc = POk (rev es ++ acc) i.
Proof.
  intros m Hm H32 es bs F. induction F as [|e b es bs He F IH]; intros fuel pre x acc Em L.
  - exists (lenN pre). destruct fuel; reflexivity.
  - cbn [List.concat] in Em, L. rewrite <- app_assoc in Em, L.
    destruct (name_app e b (List.concat bs ++ x) He) as (n & t & a & r1 & r2 & -> & P1 & P2 & P3).
    pose proof (p_str_len _ _ _ P1) as L1.
    destruct fuel as [|fuel].
    { exfalso. unfold lenN in L1. lia. }
    assert (L2 : (Datatypes.length (List.concat bs ++ x) <= fuel)%nat).
    { pose proof (p_str_len _ _ _ P2) as L2. apply p_attrs_some in P3. destruct P3 as (ab & _ & ->). rewrite lenN_app in L2.
      unfold lenN in *. lia. }
    cbn [name_loop]. rewrite lenN_cons. destruct (N.eqb_spec (1 + lenN es) 0); [lia|].
    pose proof (ref_tail m pre _ Hm H32 Em) as T. rewrite P1 in T. destruct T as (p1 & E1 & ->). cbn [pbind].
    pose proof (ref_tail m p1 _ Hm H32 E1) as T. rewrite P2 in T. destruct T as (p2 & E2 & ->). cbn [pbind].
    pose proof (attrs_tail m p2 _ Hm H32 E2) as T. rewrite P3 in T. destruct T as (p3 & E3 & ->). cbn [pbind].
    replace (1 + lenN es - 1) with (lenN es) by lia.
    destruct (IH fuel p3 x ((n, t, a) :: acc) E3 L2) as (i & ->). exists i.
    cbn [rev]. rewrite <- app_assoc. reflexivity.
Qed.

Lemma loop_inv : forall m, bytes_ok m -> is32 (lenN m) -> forall fuel c pre rest acc, m = pre ++ rest ->
  match name_loop fuel c m (lenN pre) acc with
  | POk l _ => exists es bs x, l = rev es ++ acc /\ lenN es = c /\ Forall2 name_wire es bs /\ rest = List.concat bs ++ x
  | PErr _ _ => True
  | POob => False
  end.
Proof.
  intros m Hm H32. induction fuel as [|fuel IH]; intros c pre rest acc Em; cbn [name_loop].
  - destruct (N.eqb_spec c 0) as [->|Z]; [|exact I]. exists [], [], rest. repeat split. constructor.
  - destruct (N.eqb_spec c 0) as [->|Z]. { exists [], [], rest. repeat split. constructor. }
    pose proof (ref_tail m pre _ Hm H32 Em) as T. destruct (p_str rest) as [(n, r1)|] eqn:P1;
      [destruct T as (p1 & E1 & ->)|destruct T as (? & ? & ->); exact I]. cbn [pbind].
    pose proof (ref_tail m p1 _ Hm H32 E1) as T. destruct (p_str r1) as [(t, r2)|] eqn:P2;
      [destruct T as (p2 & E2 & ->)|destruct T as (? & ? & ->); exact I]. cbn [pbind].
    pose proof (attrs_tail m p2 _ Hm H32 E2) as T. destruct (p_attrs r2) as [(a, r3)|] eqn:P3;
      [destruct T as (p3 & E3 & ->)|destruct T as (? & ->); exact I]. cbn [pbind].
    specialize (IH (c - 1) p3 r3 ((n, t, a) :: acc) E3).
    destruct (name_loop fuel (c - 1) m (lenN p3) ((n, t, a) :: acc)) as [l i| |]; [|exact I|exact IH].
    destruct IH as (es & bs & x & -> & Lc & F & ->).
    assert (Lc' : 1 + lenN es = c) by lia.
    apply p_str_some in P1. destruct P1 as (nb & Hn & ->). apply p_str_some in P2. destruct P2 as (tb & Ht & ->).
    apply p_attrs_some in P3. destruct P3 as (ab & Ha & ->).
    exists ((n, t, a) :: es), ((nb ++ tb ++ ab) :: bs), x. cbn [rev List.concat]. rewrite <- !app_assoc.
    split; [reflexivity|]. split; [rewrite lenN_cons; exact Lc'|]. split; [|reflexivity].
    constructor; [|exact F]. exists nb, tb, ab. repeat split; assumption.
Qed.

Definition contents (es : list entry) (b : bytes) : Prop :=
  exists cb bs x, u32 (lenN es) cb /\ Forall2 name_wire es bs /\ b = cb ++ List.concat bs ++ x.

Lemma parse_names_app : forall es b, bytes_ok b -> is32 (lenN b) -> contents es b ->
  exists i, ParseNames b = POk (rev es) i.
Proof.
  intros es b Hb H32 (cb & bs & x & U & F & E). unfold ParseNames.
  pose proof (u32_tail b [] b Hb H32 eq_refl) as T.
  assert (P : p_u32 b = Some (lenN es, List.concat bs ++ x)) by (rewrite E; apply p_u32_app; exact U).
  rewrite P in T. destruct T as (p & Ep & T). change (lenN []) with 0 in T. rewrite T. cbn [pbind].
  destruct (loop_app b Hb H32 es bs F (Datatypes.length b) p x [] Ep) as (i & G).
  { rewrite Ep, !app_length. lia. }
  exists i. rewrite app_nil_r in G. exact G.
Qed.

Lemma parse_names_inv : forall b, bytes_ok b -> is32 (lenN b) ->
  match ParseNames b with
  | POk l _ => exists es, l = rev es /\ contents es b
  | PErr _ _ => True
  | POob => False
  end.
Proof.
  intros b Hb H32. unfold ParseNames.
  pose proof (u32_tail b [] b Hb H32 eq_refl) as T. change (lenN []) with 0 in T.
  destruct (p_u32 b) as [(c, r)|] eqn:P; [destruct T as (p & Ep & ->)|destruct T as (? & ->); exact I].
  cbn [pbind]. pose proof (loop_inv b Hb H32 (Datatypes.length b) c p r [] Ep) as G.
  destruct (name_loop (Datatypes.length b) c b (lenN p) []) as [l i| |]; [|exact I|exact G].
  destruct G as (es & bs & x & -> & Lc & F & ->). apply p_u32_some in P. destruct P as (cb & U & ->).
  exists es. rewrite app_nil_r. split; [reflexivity|]. exists cb, bs, x. rewrite Lc. split; [exact U|]. split; [exact F|reflexivity].
Qed.

(* ---- messages --------------------------------------------------------- *)

Lemma take_app : forall b r o i, take (lenN b) (mkLs (b ++ r) o i) = (Some b, mkLs r o i).
Proof.
  intros b r o i. unfold take. cbn [l_in l_out l_id]. rewrite lenN_app.
  destruct (N.ltb_spec (lenN b + lenN r) (lenN b)); [lia|].
  rewrite takeN_app_exact, dropN_app_exact by reflexivity. reflexivity.
Qed.

Lemma sub5 : forall n, n < 2147483648 -> sub32 (5 + n) 5 = n.
Proof. intros n H. unfold sub32, w32, W32. lia. Qed.

Lemma header_app : forall m r o i, framed m ->
  GetHeader (mkLs (wire m ++ r) o i) = (Some (lenN (m_body m), m_type m, m_id m), mkLs (m_body m ++ r) o i).
Proof.
  intros (ty, id, b) r o i (_ & Hi & _ & Hb). unfold wire. cbn [m_type m_id m_body] in *. unfold GetHeader.
  set (g := be32 (5 + lenN b) ++ [ty] ++ be32 id).
  replace ((be32 (5 + lenN b) ++ [ty] ++ be32 id ++ b) ++ r) with (g ++ (b ++ r)) by (unfold g; rewrite <- !app_assoc; reflexivity).
  change SFTP_HEADER with (lenN g). rewrite take_app.
  destruct (header_parse (5 + lenN b) ty id ltac:(unfold W32; lia) Hi) as (A & B & C). fold g in A, B, C.
  rewrite A, B, C. rewrite sub5 by lia.
  destruct (N.eqb_spec (lenN b) 0); [lia|]. destruct (N.leb_spec 2147483648 (lenN b)); [lia|]. reflexivity.
Qed.

Lemma names_done : forall id es m r o, names id es m -> id < W32 ->
  DoName (mkLs (wire m ++ r) o id) = Some (rev es, mkLs r o (up id 1)).
Proof.
  intros id es m r o (F & T & I & L & C) H. unfold DoName. rewrite header_app by exact F. rewrite T, I. cbn [l_id].
  unfold MAX_SFTP_NAME. destruct (N.ltb_spec 1048576 (lenN (m_body m))); [lia|]. rewrite N.eqb_refl. cbn [negb].
  change (104 =? FTP_NAME) with true. cbv iota. unfold next_id. cbn [l_in l_out l_id]. rewrite take_app.
  destruct F as (_ & _ & B & _).
  destruct (parse_names_app es (m_body m) B ltac:(unfold is32, W32; lia) C) as (i & ->). reflexivity.
Qed.

Lemma status_stops : forall code m r o, status_of code m -> lenN (m_body m) <= 1048576 ->
  DoName (mkLs (wire m ++ r) o (m_id m)) = Some ([], mkLs r o (m_id m)).
Proof.
  intros code m r o (F & T & S) L. unfold DoName. rewrite header_app by exact F. rewrite T. cbn [l_id].
  unfold MAX_SFTP_NAME. destruct (N.ltb_spec 1048576 (lenN (m_body m))); [lia|]. rewrite N.eqb_refl. cbn [negb].
  change (101 =? FTP_NAME) with false. change (101 =? FTP_STATUS) with true. cbv iota. rewrite take_app. reflexivity.
Qed.

Lemma handle_done : forall id h m r o, handle_of id h m -> id < W32 ->
  GetHandle (mkLs (wire m ++ r) o id) = (Some h, mkLs r o (up id 1)).
Proof.
  intros id h m r o (F & T & I & L & B) H. unfold GetHandle. rewrite header_app by exact F. rewrite T, I. cbn [l_id].
  change (102 =? FTP_HANDLE) with true. cbv iota. rewrite N.eqb_refl. cbn [negb]. unfold next_id. cbn [l_in l_out l_id].
  rewrite take_app, B, parse_handle by (unfold is32, W32; lia). destruct (N.leb_spec (lenN h) 256); [reflexivity|lia].
Qed.

Lemma send_eq : forall ty b i o id, 9 + lenN b < W32 ->
  send ty b (mkLs i o id) = mkLs i (o ++ wire (Msg ty id (str b))) id.
Proof. intros ty b i o id H. unfold send. cbn [l_in l_out l_id]. rewrite simple_wire by exact H. reflexivity. Qed.

Lemma close_done : forall h m r o id, status_of 0 m -> lenN h <= 256 ->
  Close h (mkLs (wire m ++ r) o id) = (true, mkLs r (o ++ wire (Msg 4 id (str h))) id).
Proof.
  intros h m r o id (F & T & S) L. unfold Close. rewrite send_eq by (unfold W32; lia). rewrite header_app by exact F.
  rewrite T. change (negb (101 =? FTP_STATUS)) with false. cbv iota. rewrite take_app.
  destruct F as (_ & _ & B & Lb). rewrite (do_status 0) by (assumption || lia). reflexivity.
Qed.

Lemma up_lt : forall id k, up id k < W32.
Proof. intros. unfold up, W32. lia. Qed.
Lemma up_up : forall id j k, up (up id j) k = up id (j + k).
Proof. intros. unfold up, W32. rewrite N.add_mod_idemp_l by discriminate. f_equal. lia. Qed.
Lemma up_0 : forall id, id < W32 -> up id 0 = id.
Proof. intros. unfold up. rewrite N.add_0_r. apply N.mod_small. assumption. Qed.

Lemma wires_cons : forall m ms, wires (m :: ms) = wire m ++ wires ms.
Proof. reflexivity. Qed.
Lemma wires_app : forall a b, wires (a ++ b) = wires a ++ wires b.
Proof. intros. unfold wires. rewrite map_app, concat_app. reflexivity. Qed.

Definition asks (id : N) (h : bytes) (n : N) (rd : list msg) : Prop :=
  lenN rd = n + 1 /\ forall k, k <= n -> nth_error rd (N.to_nat k) = Some (Msg 12 (up id k) (str h)).

Lemma asks_0 : forall id h, id < W32 -> asks id h 0 [Msg 12 id (str h)].
Proof.
  intros id h H. split; [reflexivity|]. intros k K. assert (k = 0) as -> by lia. rewrite up_0 by exact H. reflexivity.
Qed.
Lemma asks_S : forall id h n rd, id < W32 -> asks (up id 1) h n rd -> asks id h (1 + n) (Msg 12 id (str h) :: rd).
Proof.
  intros id h n rd H (L & A). split; [rewrite lenN_cons; lia|]. intros k K. destruct (N.eq_dec k 0) as [->|Z].
  - rewrite up_0 by exact H. reflexivity.
  - replace (N.to_nat k) with (S (N.to_nat (k - 1))) by lia. cbn [nth_error]. rewrite A by lia. rewrite up_up.
    replace (1 + (k - 1)) with k by lia. reflexivity.
Qed.

Lemma reading : forall h, lenN h <= 256 -> forall id ess bs, batches id ess bs -> id < W32 ->
  forall fuel acc code m2 r o, (Datatypes.length ess < fuel)%nat ->
  status_of code m2 -> m_id m2 = up id (lenN ess) -> lenN (m_body m2) <= 1048576 ->
  exists rd, asks id h (lenN ess) rd /\
    read_loop fuel h acc (mkLs (wires bs ++ wire m2 ++ r) o id) =
    Some (acc ++ List.concat (map (@rev entry) ess), mkLs r (o ++ wires rd) (up id (lenN ess))).
Proof.
  intros h Hh id ess bs B. induction B as [id|id es ess m ms NE Nm B IH]; intros Hid fuel acc code m2 r o Lf S2 I2 L2;
    (destruct fuel as [|fuel]; [cbn [Datatypes.length] in Lf; lia|]); cbn [read_loop]; rewrite send_eq by (unfold W32; lia).
  - exists [Msg 12 id (str h)]. split; [apply asks_0; exact Hid|]. change (wires []) with (@nil N). cbn [app].
    change (lenN (@nil (list entry))) with 0 in *. rewrite up_0 in I2 |- * by exact Hid. rewrite <- I2 at 2.
    rewrite (status_stops code) by assumption. cbn [map List.concat]. rewrite app_nil_r, I2.
    unfold wires. cbn [map List.concat]. rewrite app_nil_r. reflexivity.
  - rewrite lenN_cons in I2. rewrite wires_cons, <- app_assoc. rewrite (names_done id es) by assumption.
    destruct (IH (up_lt id 1) fuel (acc ++ rev es) code m2 r (o ++ wire (Msg 12 id (str h)))) as (rd & A & R);
      [cbn [Datatypes.length] in Lf; lia|exact S2|rewrite up_up; exact I2|exact L2|].
    exists (Msg 12 id (str h) :: rd). rewrite lenN_cons. split; [apply asks_S; assumption|].
    destruct (rev es) as [|e l] eqn:Er.
    { apply (f_equal (@rev _)) in Er. rewrite rev_involutive in Er. contradiction. }
    change FTP_READDIR with 12. rewrite R. cbn [map List.concat]. rewrite Er, up_up, <- !app_assoc. reflexivity.
Qed.

Lemma batches_len : forall id ess bs, batches id ess bs -> (Datatypes.length ess <= Datatypes.length (wires bs))%nat.
Proof.
  intros id ess bs B. induction B as [|id es ess m ms NE Nm B IH]; [cbn; lia|].
  rewrite wires_cons, app_length. cbn [Datatypes.length]. pose proof (wire_len m). unfold lenN in *. lia.
Qed.

Lemma listing : forall id dir path h ess code ms rest o, id < W32 -> lenN dir < 2147483648 -> path <> [] ->
  served id path h ess code ms ->
  exists qs, asked id dir path h (lenN ess) qs /\
    SFTP_LS dir (mkLs (wires ms ++ rest) o id) =
    Some (List.concat (map (@rev entry) ess), mkLs rest (o ++ wires qs) (up id (2 + lenN ess))).
Proof.
  intros id dir path h ess code ms rest o Hid Hd Hp (long & a & m0 & m1 & bs & m2 & m3 & N0 & H1 & B & S2 & I2 & L2 & S3 & ->).
  assert (Lp : 0 < lenN path <= 1048576).
  { split; [destruct path; [contradiction|rewrite lenN_cons; lia]|].
    destruct N0 as (_ & _ & _ & L & cb & nbs & x & _ & F & E). inversion F as [|e b es l W F']; subst.
    destruct W as (nb & tb & ab & (lb & _ & ->) & _ & _ & ->). rewrite E in L. cbn [List.concat] in L.
    rewrite !lenN_app in L. lia. }
  assert (Lh : lenN h <= 256) by apply H1.
  pose proof (batches_len _ _ _ B) as LB.
  destruct (reading h Lh (up id 2) ess bs B (up_lt id 2)
              (S (Datatypes.length (wires bs ++ wire m2 ++ wire m3 ++ rest))) [] code m2 (wire m3 ++ rest)
              ((o ++ wire (Msg 16 id (str dir))) ++ wire (Msg 11 (up id 1) (str path)))) as (rd & (Lr & A) & R);
    [rewrite app_length; lia|exact S2|rewrite up_up; exact I2|exact L2|].
  exists (Msg 16 id (str dir) :: Msg 11 (up id 1) (str path) :: rd ++ [Msg 4 (up id (2 + lenN ess)) (str h)]). split.
  - exists rd. split; [reflexivity|]. split; [exact Lr|]. intros k K. rewrite A by exact K. rewrite up_up. reflexivity.
  - unfold SFTP_LS. rewrite send_eq by (unfold W32; lia). rewrite !wires_cons, wires_app, <- !app_assoc.
    rewrite (names_done id _ m0 _ _ N0 Hid). cbn [rev app].
    destruct (N.eqb_spec (lenN path) 0); [lia|]. rewrite send_eq by (unfold W32; lia).
    rewrite (handle_done (up id 1) h m1) by (assumption || apply up_lt). rewrite up_up. cbn [l_in].
    change (1 + 1) with 2.
    replace (wires [m2; m3] ++ rest) with (wire m2 ++ wire m3 ++ rest)
      by (unfold wires; cbn [map List.concat]; rewrite app_nil_r, <- app_assoc; reflexivity).
    change FTP_REALPATH with 16. change FTP_OPENDIR with 11. rewrite R. cbn [app]. rewrite close_done by assumption. rewrite up_up. rewrite ?wires_app, ?wires_cons.
    change (wires []) with (@nil N). rewrite app_nil_r, <- !app_assoc. reflexivity.
Qed.
