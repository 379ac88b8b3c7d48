(* SftpClientProofs3.v - what a Put leaves in the remote file. *)
From Verif Require Import Base WireModel WireProofs OsshSpec OsshProofs PathModel SftpModel SftpProofs2
  SftpClientModel SftpClientSpec SftpClientProofs SftpClientProofs2.
From Coq Require Import List NArith Lia Bool.
Import ListNotations.
Open Scope N_scope.
Local Notation str := OsshSpec.str.

Lemma serves_length : forall h f qs rs f', serves h f qs rs f' -> length qs = length rs.
Proof. intros h f qs rs f' H. induction H; cbn; congruence. Qed.

Lemma str_inj : forall a b x y, lenN a < W32 -> lenN b < W32 -> str a ++ x = str b ++ y -> a = b /\ x = y.
Proof.
  intros a b x y La Lb H. unfold str in H. rewrite <- !app_assoc in H.
  apply app_lenN_inj in H; [|rewrite !lenN_be32; reflexivity]. destruct H as (HL & H).
  apply be32_inj in HL; try assumption. apply app_lenN_inj in H; assumption.
Qed.

Lemma be64_inj : forall a b, a < W32 * W32 -> b < W32 * W32 -> be64 a = be64 b -> a = b.
Proof.
  intros a b Ha Hb H. unfold be64 in H. apply app_lenN_inj in H; [|rewrite !lenN_be32; reflexivity].
  destruct H as (H1 & H2). apply be32_inj in H1, H2; unfold W32 in *; lia.
Qed.

Lemma serves_open_inv : forall h f q r qs rs f' id path, lenN path < 2147483000 ->
  serves h f (q :: qs) (r :: rs) f' -> q = Msg 3 id (str path ++ be32 26 ++ be32 0) ->
  (m_type r = 102 /\ m_body r = str h /\ serves h [] qs rs f') \/
  (m_type r = 101 /\ exists code, status code (m_body r) /\ code <> 0).
Proof.
  intros h f q r qs rs f' id path Lp H Eq.
  assert (T : m_type q = 3) by (rewrite Eq; reflexivity).
  assert (B : m_body q = str path ++ be32 26 ++ be32 0) by (rewrite Eq; reflexivity). clear Eq.
  inversion H; subst; cbn [m_type m_body] in *; try congruence; try discriminate.
  - left. change (str path0 ++ be32 flags ++ x = str path ++ be32 26 ++ be32 0) in B.
    assert (LB : lenN path0 < W32).
    { pose proof (f_equal lenN B) as LB. rewrite !lenN_app, !lenN_str, !lenN_be32 in LB. unfold W32. lia. }
    apply str_inj in B; [|exact LB|unfold W32; lia]. destruct B as (_ & B).
    apply app_lenN_inj in B; [|rewrite !lenN_be32; reflexivity]. destruct B as (B & _).
    apply be32_inj in B; [|assumption|reflexivity]. subst flags.
    auto.
  - right. split; [assumption|]. exists code. auto.
Qed.

Lemma serves_write_inv : forall h f q r qs rs f' id off d, lenN h <= 256 -> lenN d <= 32768 -> off < W32 * W32 ->
  serves h f (q :: qs) (r :: rs) f' -> q = Msg 6 id (str h ++ be64 off ++ str d) ->
  m_type r = 101 /\
  ((status 0 (m_body r) /\ serves h (overlay f off d) qs rs f') \/
   (exists code, status code (m_body r) /\ code <> 0)).
Proof.
  intros h f q r qs rs f' id off d Lh Ld Lo H Eq.
  assert (T : m_type q = 6) by (rewrite Eq; reflexivity).
  assert (B : m_body q = str h ++ be64 off ++ str d) by (rewrite Eq; reflexivity). clear Eq.
  inversion H; subst; cbn [m_type m_body] in *; try congruence; try discriminate.
  - split; [assumption|]. left. split; [assumption|].
    change (str h ++ be64 off0 ++ str d0 = str h ++ be64 off ++ str d) in B. apply app_inv_head in B.
    apply app_lenN_inj in B; [|rewrite !lenN_be64; reflexivity]. destruct B as (B1 & B2).
    apply be64_inj in B1; try assumption. subst off0.
    assert (LB : lenN d0 < W32).
    { pose proof (f_equal lenN B2) as LB. rewrite !lenN_str in LB. unfold W32. lia. }
    rewrite <- (app_nil_r (str d0)), <- (app_nil_r (str d)) in B2. apply str_inj in B2; [|exact LB|unfold W32; lia].
    destruct B2 as (-> & _). assumption.
  - split; [assumption|]. right. exists code. auto.
Qed.

Lemma serves_close_inv : forall h f q r qs rs f', serves h f (q :: qs) (r :: rs) f' -> m_type q = 4 -> serves h f qs rs f'.
Proof.
  intros h f q r qs rs f' H T. inversion H; subst; cbn [m_type] in *; try congruence; try discriminate.
Qed.

Lemma serves_id : forall h f q r qs rs f', serves h f (q :: qs) (r :: rs) f' -> m_id r = m_id q.
Proof. intros h f q r qs rs f' H. inversion H; subst; cbn [m_id] in *; congruence. Qed.

Lemma status_code : forall a b x, status a x -> status b x -> a = b.
Proof.
  intros a b x (A & t & l & E) (B & t' & l' & E'). rewrite E in E'.
  apply app_lenN_inj in E'; [|rewrite !lenN_be32; reflexivity]. apply be32_inj; tauto.
Qed.

Definition zeros (n : N) : bytes := repeat 0 (N.to_nat n).
Lemma lenN_zeros : forall n, lenN (zeros n) = n.
Proof. intros n. unfold lenN, zeros. rewrite repeat_length. lia. Qed.

(* what is left when writing starts at [o0] of an empty file *)
Definition late (o0 : N) (L : bytes) : bytes := zeros o0 ++ dropN o0 L.
Lemma late_len : forall o0 L, o0 <= lenN L -> lenN (late o0 L) = lenN L.
Proof. intros o0 L H. unfold late. rewrite lenN_app, lenN_zeros, lenN_dropN. lia. Qed.
Lemma dropN_dropN : forall A a b (l : list A), dropN a (dropN b l) = dropN (b + a) l.
Proof.
  intros A a b l. unfold dropN. replace (N.to_nat (b + a)) with (N.to_nat b + N.to_nat a)%nat by lia.
  generalize (N.to_nat a) as x. revert l. induction (N.to_nat b) as [|y IH]; intros l x; [reflexivity|].
  destruct l; cbn; [destruct x; reflexivity|apply IH].
Qed.
Lemma late_drop : forall o0 o L, o0 <= o -> dropN o (late o0 L) = dropN o L.
Proof.
  intros o0 o L H. unfold late. replace o with (o0 + (o - o0)) at 1 by lia. rewrite <- dropN_dropN.
  rewrite dropN_app_exact by (rewrite lenN_zeros; reflexivity). rewrite dropN_dropN. f_equal. lia.
Qed.

(* the remote file when everything up to [o] was written *)
Definition sofar (o0 o : N) (L cur : bytes) : Prop := cur = takeN o (late o0 L) \/ (cur = [] /\ o = o0).

Lemma overlay_grow : forall L o0 o k cur, o0 <= o -> o + k <= lenN L -> sofar o0 o L cur ->
  overlay cur o (takeN k (dropN o L)) = takeN (o + k) (late o0 L).
Proof.
  intros L o0 o k cur Ho H Hc. unfold overlay. pose proof (late_len o0 L ltac:(lia)) as LL.
  assert (L2 : lenN (takeN k (dropN o L)) = k) by (rewrite lenN_takeN, lenN_dropN; lia). rewrite L2.
  destruct Hc as [Hc|(Hc & E)].
  - assert (L1 : lenN cur = o) by (rewrite Hc, lenN_takeN; lia).
    rewrite L1, (takeN_all _ o cur), (dropN_all _ (o + k) cur) by lia. rewrite N.sub_diag, app_nil_r. cbn [N.to_nat repeat app].
    rewrite Hc, <- (late_drop o0 o L) by exact Ho. apply takeN_add.
  - subst cur o. rewrite (takeN_all _ o0 []), (dropN_all _ (o0 + k) []) by (rewrite lenN_nil; lia). cbn [app].
    rewrite app_nil_r, lenN_nil, N.sub_0_r, <- takeN_add. rewrite late_drop by lia. f_equal. unfold late.
    symmetry. apply takeN_app_exact. symmetry. apply (lenN_zeros o0).
Qed.

Section Put.
Variables (E : cenv) (j : job) (L h : bytes) (qs rs : list msg) (rest : bytes).
Variables (f0 f1 : bytes) (noint : Prop) (o0 : N) (tab1 : list slot).
Hypothesis Ho0 : o0 <= lenN L.
Hypothesis HL : lenN L < W32 * W32.
Hypothesis Hto : lenN (j_to j) < 2147483000.
Hypothesis Hqs : Forall framed qs.
Hypothesis Hrs : Forall framed rs.
Hypothesis Hserves : serves h f0 qs rs f1.
Hypothesis Hok : Forall2 (fun q r => m_type q = 6 -> status 0 (m_body r)) qs rs.
Hypothesis Hread : forall p, p < lenN L -> 0 < ce_read E p.

Definition pasks (s : stage) (id : N) (c : xfer) : msg :=
  match s with
  | POpen => Msg 3 id (str (j_to j) ++ be32 26 ++ be32 0)
  | PWrite => Msg 6 id (str (x_handle c) ++ be64 (offset (x_ofst c)) ++ str (x_chunk c))
  | _ => Msg 4 id (str (x_handle c))
  end.

(* the message sent first *)
Definition phead (s : stage) (c : xfer) : bytes :=
  match s with
  | PWrite => WriteHead (x_req c) (x_handle c) (x_ofst c) (lenN (x_chunk c))
  | _ => wire (pasks s (x_req c) c)
  end.

Definition pbase (c : xfer) : Prop :=
  lenN (x_handle c) <= 256 /\ x_req c < W32 /\ (noint -> x_int c = false) /\ x_file c = L /\ words (x_ofst c) /\
  o0 <= offset (x_ofst c) /\ offset (x_ofst c) + lenN (x_chunk c) <= lenN L /\
  x_chunk c = takeN (lenN (x_chunk c)) (dropN (offset (x_ofst c)) L) /\ lenN (x_chunk c) <= 32768 /\
  x_pos c = offset (x_ofst c) + lenN (x_chunk c).

Definition partly (t : list slot) (cur : bytes) : Prop := exists p, p <= lenN L /\ sofar o0 p L cur /\ (noint -> p = lenN L) /\
  (p = lenN L \/ exists o, offset o = p /\ words o /\ t = SaveOfst (j_from j) (j_to j) o tab1).

Definition pfacts (s : stage) (cur : bytes) (c : xfer) : Prop :=
  pbase c /\
  match s with
  | POpen => offset (x_ofst c) = o0 /\ x_chunk c = [] /\ x_tab c = tab1
  | PWrite => x_handle c = h /\ 0 < lenN (x_chunk c) /\ sofar o0 (offset (x_ofst c)) L cur /\ x_tab c = tab1
  | PClose => partly (x_tab c) cur
  | _ => False
  end.

(* [qd] and [rd] are over, the server is at [cur] *)
Definition over (cur : bytes) (qd qr rd rr : list msg) : Prop :=
  qs = qd ++ qr /\ rs = rd ++ rr /\ length qd = length rd /\ serves h cur qr rr f1.

Definition pinv (c : xfer) : Prop :=
  match x_res c with
  | Some r => r = WS_SUCCESS -> exists cur qd qr rd rr, over cur qd qr rd rr /\ x_out c = wires qd /\ partly (x_tab c) cur
  | None =>
      exists cur qd qr rd rr, over cur qd qr rd rr /\ pfacts (x_stage c) cur c /\
      match x_wire c with
      | WSend m i => m = phead (x_stage c) c /\ i <= lenN m /\ x_out c = wires qd ++ takeN i m /\ x_in c = wires rr ++ rest
      | WBody d i =>
          x_stage c = PWrite /\ d = x_chunk c /\ i <= lenN d /\
          x_out c = wires qd ++ phead PWrite c ++ takeN i d /\ x_in c = wires rr ++ rest
      | WHead got =>
          exists qr' r rr', qr = pasks (x_stage c) (x_req c) c :: qr' /\ rr = r :: rr' /\ framed r /\
            x_out c = wires qd ++ wire (pasks (x_stage c) (x_req c) c) /\
            lenN got <= 9 /\ got ++ x_in c = wire r ++ wires rr' ++ rest
      | WMsg t i sz got =>
          exists id qr' r rr', qr = pasks (x_stage c) id c :: qr' /\ rr = r :: rr' /\ framed r /\
            x_out c = wires qd ++ wire (pasks (x_stage c) id c) /\
            t = m_type r /\ sz = lenN (m_body r) /\ lenN got <= sz /\
            got ++ x_in c = m_body r ++ wires rr' ++ rest
      | _ => False
      end
  end.

Definition psync (cur : bytes) (c : xfer) : Prop :=
  x_res c = None /\ exists qd qr rd rr, over cur qd qr rd rr /\ x_out c = wires qd /\ x_in c = wires rr ++ rest.

Lemma pinv_fatal : forall c, pinv (finish WS_FATAL_ERROR c).
Proof. intros c. unfold pinv. cbn [x_res finish]. discriminate. Qed.

Lemma pinv_request : forall s m cur c, psync cur c -> pfacts s cur c -> m = phead s c -> pinv (request s m c).
Proof.
  intros s m cur c (R & qd & qr & rd & rr & Hov & O & I) Hf Hm. unfold pinv, request. cbn [x_res set_stage set_wire].
  rewrite R. cbn [x_stage x_wire set_stage set_wire x_req x_out x_in]. exists cur, qd, qr, rd, rr.
  split; [exact Hov|]. split; [exact Hf|]. split; [exact Hm|]. split; [lia|]. split; [|exact I].
  rewrite takeN_0, app_nil_r. exact O.
Qed.

Lemma pinv_end : forall cur c, psync cur c -> pbase c -> x_tab c = tab1 -> sofar o0 (offset (x_ofst c)) L cur ->
  (noint -> offset (x_ofst c) = lenN L) -> (offset (x_ofst c) = lenN L \/ x_int c = true) -> pinv (put_end j c).
Proof.
  intros cur c (R & S) Hb Ht Hcur Hn Hi. unfold put_end.
  set (c' := if x_int c then _ else c).
  assert (S' : psync cur c') by (unfold c'; destruct (x_int c); split; assumption).
  assert (Hb' : pbase c').
  { unfold c'. destruct (x_int c) eqn:I; [|exact Hb].
    destruct Hb as (B1 & B2 & B3 & B4). split; [exact B1|]. split; [exact B2|]. split; [reflexivity|exact B4]. }
  assert (Hp : partly (x_tab c') cur).
  { destruct Hb as (_ & _ & _ & _ & B5 & _ & B6 & _). exists (offset (x_ofst c)). split; [lia|]. split; [exact Hcur|]. split; [exact Hn|].
    unfold c'. destruct (x_int c) eqn:I; [|left; destruct Hi as [Hi|Hi]; [exact Hi|discriminate]].
    right. exists (x_ofst c). split; [reflexivity|]. split; [exact B5|]. cbn [x_tab set_int set_tab]. rewrite Ht. reflexivity. }
  clearbody c'. destruct (0 <? lenN (x_handle c')).
  - apply (pinv_request PClose _ cur); [exact S'|split; [exact Hb'|exact Hp]|].
    apply simple_wire. destruct Hb' as (B1 & _). unfold W32. lia.
  - destruct S' as (R' & qd & qr & rd & rr & Hov & O & I). unfold pinv. cbn [x_res finish x_out x_tab]. intros _.
    exists cur, qd, qr, rd, rr. auto.
Qed.

Lemma pinv_write : forall cur c, psync cur c -> pbase c -> x_handle c = h -> x_chunk c = [] -> x_tab c = tab1 ->
  sofar o0 (offset (x_ofst c)) L cur -> pinv (put_write E j c).
Proof.
  intros cur c S Hb Hh Hc Ht Hcur. pose proof S as (R & S'). destruct Hb as (B1 & B2 & B3 & B4 & B5 & B0 & B6 & B7 & B8 & B9).
  rewrite Hc, lenN_nil, N.add_0_r in *.
  unfold put_write. rewrite Hc, lenN_nil, B9, B4. cbn [N.eqb].
  set (o := offset (x_ofst c)) in *.
  set (r := takeN (N.min MAX_SFTP_RW (ce_read E o)) (dropN o L)).
  assert (Lr : lenN r <= 32768 /\ o + lenN r <= lenN L /\ (lenN r = 0 -> o = lenN L)).
  { unfold r. rewrite lenN_takeN, lenN_dropN. unfold MAX_SFTP_RW. pose proof (Hread o).
    destruct (N.ltb_spec o (lenN L)); lia. }
  assert (Er : r = takeN (lenN r) (dropN o L)).
  { unfold r at 2. rewrite lenN_takeN. unfold r.
    destruct (N.le_ge_cases (N.min MAX_SFTP_RW (ce_read E o)) (lenN (dropN o L))) as [Q|Q].
    - rewrite (N.min_l _ _ Q). reflexivity.
    - rewrite (N.min_r _ _ Q). rewrite !takeN_all by lia. reflexivity. }
  clearbody r. cbv zeta.
  set (c' := set_chunk r (set_pos (o + lenN r) c)).
  assert (Hb' : pbase c').
  { unfold pbase, c'. cbn [x_handle x_req x_int x_file x_ofst x_chunk x_pos set_chunk set_pos]. fold o.
    split; [exact B1|]. split; [exact B2|]. split; [exact B3|]. split; [exact B4|]. split; [exact B5|].
    split; [exact B0|]. split; [apply Lr|]. split; [exact Er|]. split; [apply Lr|reflexivity]. }
  assert (S2 : psync cur c') by (split; assumption).
  change (x_chunk c') with r. destruct (N.eqb_spec (lenN r) 0) as [Z|Z].
  - apply (pinv_end cur); [exact S2|exact Hb'|exact Ht|exact Hcur|intros _; apply Lr; exact Z|left; apply Lr; exact Z].
  - apply (pinv_request PWrite _ cur); [exact S2| |reflexivity]. split; [exact Hb'|].
    unfold c'. cbn [x_handle x_chunk set_chunk set_pos x_ofst]. split; [exact Hh|]. split; [lia|]. split; [exact Hcur|exact Ht].
Qed.

(* the WRITE in progress was done *)
Lemma pinv_wrote : forall cur c, psync cur c -> pbase c -> x_handle c = h -> 0 < lenN (x_chunk c) -> x_tab c = tab1 ->
  sofar o0 (offset (x_ofst c) + lenN (x_chunk c)) L cur -> pinv (put_wrote E j (lenN (x_chunk c)) c).
Proof.
  intros cur c S (B1 & B2 & B3 & B4 & B5 & B0 & B6 & B7 & B8 & B9) Hh Hp Ht Hcur. unfold put_wrote.
  destruct (N.eqb_spec (lenN (x_chunk c)) 0) as [Z|_]; [lia|]. cbv zeta. cbn [x_chunk set_ofst].
  rewrite N.sub_diag, takeN_0.
  destruct (add64 (x_ofst c) (lenN (x_chunk c)) B5 ltac:(unfold W32; lia) ltac:(lia)) as (W' & O').
  set (c' := set_chunk [] (set_ofst (AddAssign64 (x_ofst c) (lenN (x_chunk c))) c)).
  assert (Hb' : pbase c').
  { unfold pbase, c'. cbn [x_handle x_req x_int x_file x_ofst x_chunk x_pos set_chunk set_ofst].
    rewrite O', lenN_nil, takeN_0. split; [exact B1|]. split; [exact B2|]. split; [exact B3|]. split; [exact B4|].
    split; [exact W'|]. split; [lia|]. split; [lia|]. split; [reflexivity|]. split; [lia|]. rewrite B9. lia. }
  assert (S2 : psync cur c') by (destruct S; split; assumption).
  assert (Hc' : sofar o0 (offset (x_ofst c')) L cur) by (unfold c'; cbn [x_ofst set_chunk set_ofst]; rewrite O'; exact Hcur).
  change (x_int c') with (x_int c). destruct (x_int c) eqn:I.
  - apply (pinv_end cur); [exact S2|exact Hb'|exact Ht|exact Hc'| |right; exact I]. intros N. specialize (B3 N). congruence.
  - apply (pinv_write cur); [exact S2|exact Hb'|exact Hh|reflexivity|exact Ht|exact Hc'].
Qed.

Lemma pover : forall cur' cur q r qd qr rd rr c, over cur qd (q :: qr) rd (r :: rr) -> serves h cur' qr rr f1 ->
  x_res c = None -> x_out c = wires qd ++ wire q -> x_in c = wires rr ++ rest -> psync cur' c.
Proof.
  intros cur' cur q r qd qr rd rr c (Hq & Hr & Ln & _) S R O I. split; [exact R|].
  exists (qd ++ [q]), qr, (rd ++ [r]), rr. unfold over. rewrite <- !app_assoc. cbn [app].
  rewrite !app_length, Ln, wires_app, wires_one. auto.
Qed.

Lemma ok_nth : forall qd q qr rd r rr, qs = qd ++ q :: qr -> rs = rd ++ r :: rr -> length qd = length rd ->
  m_type q = 6 -> status 0 (m_body r).
Proof.
  intros qd q qr rd r rr Hq Hr Ln. pose proof Hok as G. rewrite Hq, Hr in G. clear Hq Hr. revert rd Ln G.
  induction qd as [|a qd IH]; intros [|b rd] Ln G; cbn in Ln; try discriminate; cbn [app] in G; inversion G; subst; auto.
  apply (IH rd); [congruence|assumption].
Qed.

Lemma pinv_reply : forall id r cur qd qr rd rr c,
  over cur qd (pasks (x_stage c) id c :: qr) rd (r :: rr) -> pfacts (x_stage c) cur c -> framed r ->
  x_res c = None -> x_out c = wires qd ++ wire (pasks (x_stage c) id c) -> x_in c = wires rr ++ rest ->
  pinv (reply E j (m_type r) (m_body r) c).
Proof.
  intros id r cur qd qr rd rr c Hov (Hb & Hf) (Ft & Fi & Fb & Fl) R O I. pose proof Hov as (Hq & Hr & Ln & S).
  unfold reply. destruct (x_stage c) eqn:Es; try (exfalso; exact Hf).
  - destruct (serves_open_inv _ _ _ _ _ _ _ id (j_to j) Hto S eq_refl) as [(T & B & S')|(T & code & St & C0)]; rewrite T.
    + cbn [N.eqb Pos.eqb FTP_HANDLE]. rewrite B, parse_handle.
      * destruct (N.leb_spec (lenN h) 256) as [Lh|_]; [|unfold fail_request; rewrite Es; apply pinv_fatal].
        destruct Hf as (Z & Hc & Ht). apply (pinv_write []).
        -- pose proof (pover [] cur _ r qd qr rd rr c Hov S' R O I) as (P1 & P2). split; assumption.
        -- destruct Hb as (_ & B2). split; [exact Lh|exact B2].
        -- reflexivity.
        -- exact Hc.
        -- exact Ht.
        -- cbn [x_ofst set_handle]. right. auto.
      * rewrite B, lenN_str in Fl. unfold is32, W32. lia.
    + cbn [N.eqb Pos.eqb FTP_HANDLE]. rewrite (do_status code) by (assumption || lia).
      assert (FT : pinv (fail_request E j c)) by (unfold fail_request; rewrite Es; apply pinv_fatal).
      destruct (8 <? code); [exact FT|]. destruct code; [congruence|exact FT].
  - pose proof Hb as (B1 & B2 & B3 & B4 & B5 & B0 & B6 & B7 & B8 & B9). destruct Hf as (Hh & Hp & Hcur & Ht).
    pose proof (ok_nth qd _ qr rd r rr Hq Hr Ln eq_refl) as St.
    cbn [pasks] in S. rewrite Hh in S.
    destruct (serves_write_inv h cur _ r qr rr f1 id (offset (x_ofst c)) (x_chunk c) ltac:(rewrite <- Hh; exact B1)
                B8 ltac:(lia) S eq_refl) as (T & [(_ & S')|(code & St' & C0)]).
    + rewrite (do_status 0) by (assumption || lia). cbn [N.ltb N.compare].
      apply (pinv_wrote (overlay cur (offset (x_ofst c)) (x_chunk c))); try assumption.
      * apply (pover _ cur (pasks PWrite id c) r qd qr rd rr); try assumption. 
      * left. rewrite B7 at 1. apply overlay_grow; assumption.
    + exfalso. apply C0. eapply status_code; eassumption.
  - assert (FT : pinv (fail_request E j c)) by (unfold fail_request; rewrite Es; apply pinv_fatal).
    destruct (DoStatus (m_body r)) as [[|]|]; [|exact FT|exact FT].
    unfold pinv. cbn [x_res finish x_out x_tab]. intros _.
    exists cur, (qd ++ [pasks PClose id c]), qr, (rd ++ [r]), rr. unfold over. rewrite <- !app_assoc. cbn [app].
    rewrite !app_length, Ln, wires_app, wires_one. apply serves_close_inv in S; [|reflexivity]. auto 10.
Qed.

Lemma pstep : forall e c, pinv c -> (noint -> e <> EInt) -> e <> EFail ->
  (exists d, wires qs = x_out (step E j e c) ++ d) -> pinv (step E j e c).
Proof.
  intros e c I Hint Hfail (dd & Hout). unfold step in *. unfold pinv in I. destruct (x_res c) as [r|] eqn:R.
  { unfold pinv. rewrite R. exact I. }
  destruct I as (cur & qd & qr & rd & rr & Hov & Hf & I).
  destruct e as [n b|w| |].
  - (* a request that was sent in full *)
    assert (FULL : forall c', x_res c' = None -> x_stage c' = x_stage c -> pasks (x_stage c) (x_req c') c' = pasks (x_stage c) (x_req c) c ->
              pfacts (x_stage c) cur c' -> x_out c' = wires qd ++ wire (pasks (x_stage c) (x_req c) c) -> x_in c' = wires rr ++ rest ->
              x_wire c' = WHead [] -> (exists d, wires qs = x_out c' ++ d) -> pinv c').
    { intros c' R' S' A' F' O' I' W' (d & Hd). pose proof Hov as (Hq & Hr & Ln & S).
      rewrite O', <- app_assoc in Hd.
      assert (SM : small (pasks (x_stage c) (x_req c) c)).
      { destruct Hf as ((Hh & Hr' & _ & _ & _ & _ & _ & _ & Hc & _) & Hs). unfold small. destruct (x_stage c); cbn [pasks m_id m_body];
          rewrite ?lenN_app, ?lenN_str, ?lenN_be64, ?lenN_be32, ?lenN_str; split; try assumption; unfold W32; lia. }
      assert (SQ : Forall small qs) by (eapply Forall_impl; [|exact Hqs]; apply framed_small).
      destruct (wires_split qd qs (pasks (x_stage c) (x_req c) c) d SQ SM) as (qr' & E').
      - rewrite Hq in SQ. apply Forall_app in SQ. apply SQ.
      - exact Hd.
      - rewrite Hq in E'. apply app_inv_head in E'.
        assert (LR : exists r rr', rr = r :: rr').
        { destruct rr as [|r rr']; [|eauto]. exfalso. apply serves_length in S. rewrite E' in S. discriminate S. }
        destruct LR as (r & rr' & Rr).
        assert (FR : framed r).
        { rewrite Hr, Rr in Hrs. apply Forall_app in Hrs. destruct Hrs as (_ & H). inversion H; assumption. }
        unfold pinv. rewrite R', S', W'. exists cur, qd, qr, rd, rr. split; [exact Hov|]. split; [exact F'|].
        exists qr', r, rr'. rewrite A'. split; [exact E'|]. split; [exact Rr|]. split; [exact FR|]. split; [exact O'|].
        split; [rewrite lenN_nil; lia|]. cbn [app]. rewrite I', Rr, wires_cons, <- app_assoc. reflexivity. }
    destruct (x_wire c) as [m i|d i|got|t i sz got| |sz got] eqn:W; cbv zeta in *.
    + destruct I as (Hm & Hi & O & In). set (k := N.min n (lenN m - i)) in *.
      assert (O' : x_out c ++ takeN k (dropN i m) = wires qd ++ takeN (i + k) m).
      { rewrite O, <- app_assoc, takeN_add. reflexivity. }
      rewrite O' in *.
      assert (KEEP : i + k <= lenN m -> pinv (set_wire (WSend m (i + k)) (set_out (wires qd ++ takeN (i + k) m) c))).
      { intros Lk. unfold pinv. cbn [x_res set_wire set_out]. rewrite R. cbn [x_stage x_wire set_wire set_out x_req x_out x_in].
        exists cur, qd, qr, rd, rr. split; [exact Hov|]. split; [exact Hf|]. split; [exact Hm|]. split; [exact Lk|].
        split; [reflexivity|exact In]. }
      destruct (N.ltb_spec (i + k) (lenN m)) as [Lk|Lk]; [apply KEEP; lia|].
      specialize (KEEP ltac:(lia)).
      assert (Q : phead (x_stage c) c = wire (pasks (x_stage c) (x_req c) c) \/ x_stage c = PWrite)
        by (destruct (x_stage c); auto).
      rewrite takeN_all in * by lia. rewrite sent_out in Hout. cbn [x_out set_wire set_out] in Hout.
      assert (HEAD : x_stage c <> PWrite ->
                 pinv (set_wire (WHead []) (set_wire (WSend m (i + k)) (set_out (wires qd ++ m) c)))).
      { intros NP. destruct Q as [Q|Q]; [|congruence]. apply FULL; try reflexivity; try assumption.
        - cbn [x_out set_wire set_out]. rewrite Hm, Q. reflexivity.
        - exists dd. exact Hout. }
      unfold sent. cbn [x_stage set_wire set_out x_chunk].
      destruct Hf as (Hb & Hs).
      destruct (x_stage c) eqn:Es; try (exfalso; exact Hs); destruct b; try exact KEEP; try (apply HEAD; discriminate);
        try apply pinv_fatal.
      unfold pinv. cbn [x_res set_wire set_out]. rewrite R. cbn [x_stage x_wire set_wire set_out x_req x_out x_in]. rewrite Es.
      exists cur, qd, qr, rd, rr. split; [exact Hov|]. split; [split; [exact Hb|exact Hs]|]. split; [reflexivity|].
      split; [reflexivity|]. split; [lia|]. split; [|exact In]. rewrite takeN_0, app_nil_r. rewrite Hm. reflexivity.
    + destruct I as (Es & Hd & Hi & O & In). set (k := N.min n (lenN d - i)) in *.
      assert (O' : x_out c ++ takeN k (dropN i d) = wires qd ++ phead PWrite c ++ takeN (i + k) d).
      { rewrite O, <- !app_assoc, takeN_add. reflexivity. }
      rewrite O' in *. destruct (N.ltb_spec (i + k) (lenN d)) as [Lk|Lk].
      * unfold pinv. cbn [x_res set_wire set_out]. rewrite R. cbn [x_stage x_wire set_wire set_out x_req x_out x_in].
        exists cur, qd, qr, rd, rr. split; [exact Hov|]. split; [exact Hf|]. split; [exact Es|]. split; [exact Hd|]. split; [lia|].
        split; [reflexivity|exact In].
      * rewrite takeN_all in * by lia.
        assert (WW : phead PWrite c ++ d = wire (pasks (x_stage c) (x_req c) c)).
        { rewrite Es, Hd. cbn [phead pasks]. destruct Hf as ((B1 & _ & _ & _ & B5 & _ & _ & _ & B8 & _) & _).
          apply write_wire; [exact B5|unfold W32; lia]. }
        rewrite WW in *. apply FULL; try reflexivity; try assumption. exists dd. exact Hout.
    + destruct I as (qr' & r & rr' & Qr & Rr & FR & O & Lg & In).
      set (k := N.min n (SFTP_HEADER - lenN got)) in *.
      assert (In' : (got ++ takeN k (x_in c)) ++ dropN k (x_in c) = wire r ++ wires rr' ++ rest).
      { rewrite <- app_assoc, takeN_dropN. exact In. }
      assert (Lg' : lenN (got ++ takeN k (x_in c)) <= 9).
      { rewrite lenN_app, lenN_takeN. unfold k, SFTP_HEADER. lia. }
      set (got' := got ++ takeN k (x_in c)) in *. clearbody got'.
      destruct (N.ltb_spec (lenN got') SFTP_HEADER) as [Ls|Ls].
      * unfold pinv. cbn [x_res set_wire set_in]. rewrite R. cbn [x_stage x_wire set_wire set_in x_req x_out x_in].
        exists cur, qd, qr, rd, rr. split; [exact Hov|]. split; [exact Hf|].
        exists qr', r, rr'. split; [exact Qr|]. split; [exact Rr|]. split; [exact FR|]. split; [exact O|].
        split; [exact Lg'|exact In'].
      * unfold SFTP_HEADER in Ls.
        assert (P : got' = be32 (5 + lenN (m_body r)) ++ [m_type r] ++ be32 (m_id r) /\
                    dropN k (x_in c) = m_body r ++ wires rr' ++ rest).
        { unfold wire in In'. rewrite <- !app_assoc in In'.
          change (be32 (5 + lenN (m_body r)) ++ [m_type r] ++ be32 (m_id r) ++ m_body r ++ wires rr' ++ rest)
            with ((be32 (5 + lenN (m_body r)) ++ [m_type r] ++ be32 (m_id r)) ++ (m_body r ++ wires rr' ++ rest)) in In'.
          apply app_lenN_inj in In'; [exact In'|]. rewrite !lenN_app, !lenN_be32, lenN_cons, lenN_nil. lia. }
        destruct P as (Pg & Pi). pose proof FR as (Ft & Fi & Fb & Fl).
        destruct (header_parse (5 + lenN (m_body r)) (m_type r) (m_id r) ltac:(unfold W32; lia) Fi) as (P1 & P2 & P3).
        cbv zeta in P1, P2, P3. rewrite <- Pg in P1, P2, P3. rewrite P1, P2, P3.
        assert (SZ : sub32 (5 + lenN (m_body r)) 5 = lenN (m_body r)).
        { rewrite sub32_small by (unfold is32, W32; lia). lia. }
        rewrite SZ. set (c' := set_wire (WHead got') (set_in (dropN k (x_in c)) c)).
        assert (GO : forall id, id < W32 ->
                   pinv (set_wire (WMsg (m_type r) (m_id r) (lenN (m_body r)) []) (set_req id c'))).
        { intros id Hid. unfold pinv, c'. cbn [x_res set_wire set_in set_req]. rewrite R.
          cbn [x_stage x_wire set_wire set_in set_req x_req x_out x_in].
          exists cur, qd, qr, rd, rr. split; [exact Hov|].
          split; [destruct Hf as ((A1 & A2 & A3) & A4); split; [split; [exact A1|]; split; [exact Hid|exact A3]|exact A4]|].
          exists (x_req c), qr', r, rr'. split; [exact Qr|]. split; [exact Rr|]. split; [exact FR|]. split; [exact O|].
          split; [reflexivity|]. split; [reflexivity|].
          split; [rewrite lenN_nil; lia|]. cbn [app]; exact Pi. }
        assert (IDR : m_id r =? x_req c' = true).
        { apply N.eqb_eq. destruct Hov as (_ & _ & _ & S). rewrite Qr, Rr in S. apply serves_id in S. rewrite S.
          destruct (x_stage c); reflexivity. }
        assert (OK : (0 <? lenN (m_body r)) && (lenN (m_body r) <? 2147483648) = true).
        { apply andb_true_iff. rewrite !N.ltb_lt. lia. }
        assert (N32 : add32 (x_req c') 1 < W32) by (apply N.mod_lt; discriminate).
        assert (C32 : x_req c' < W32) by apply Hf.
        assert (SAME : set_wire (WMsg (m_type r) (m_id r) (lenN (m_body r)) []) c' =
                       set_wire (WMsg (m_type r) (m_id r) (lenN (m_body r)) []) (set_req (x_req c') c')) by reflexivity.
        unfold header. cbv zeta. rewrite IDR, OK. cbn [andb negb].
        assert (ES : x_stage c' = x_stage c) by reflexivity. rewrite ES.
        assert (FT : x_stage c <> PWrite -> x_stage c <> GRead -> x_stage c <> GClose -> pinv (fail_request E j c')).
        { intros NP N1 N2. unfold fail_request. rewrite ES. destruct (x_stage c); try apply pinv_fatal; congruence. }
        assert (WR : x_stage c = PWrite -> m_type r = 101).
        { intros Es. destruct Hov as (_ & _ & _ & S). rewrite Qr, Rr, Es in S.
          inversion S; subst; cbn [m_type pasks] in *; try congruence; try discriminate. }
        clearbody c'. destruct Hf as (Hb & Hs).
        destruct (x_stage c) eqn:Es; try (exfalso; exact Hs).
        -- destruct (m_type r =? FTP_HANDLE); [apply GO; exact N32|].
           destruct (m_type r =? FTP_STATUS); [|apply FT; discriminate]. rewrite SAME. apply GO. exact C32.
        -- rewrite WR by reflexivity. cbn [N.eqb Pos.eqb FTP_STATUS]. rewrite <- (WR eq_refl). apply GO. exact N32.
        -- rewrite andb_true_r. destruct (m_type r =? FTP_STATUS); [|apply FT; discriminate]. rewrite SAME. apply GO. exact C32.
    + destruct I as (id & qr' & r & rr' & Qr & Rr & FR & O & Et & Ez & Lg & In).
      set (k := N.min n (sz - lenN got)) in *.
      assert (In' : (got ++ takeN k (x_in c)) ++ dropN k (x_in c) = m_body r ++ wires rr' ++ rest).
      { rewrite <- app_assoc, takeN_dropN. exact In. }
      assert (Lg' : lenN (got ++ takeN k (x_in c)) <= sz).
      { rewrite lenN_app, lenN_takeN. unfold k. lia. }
      set (got' := got ++ takeN k (x_in c)) in *. clearbody got'.
      destruct (N.ltb_spec (lenN got') sz) as [Ls|Ls].
      * unfold pinv. cbn [x_res set_wire set_in]. rewrite R. cbn [x_stage x_wire set_wire set_in x_req x_out x_in].
        exists cur, qd, qr, rd, rr. split; [exact Hov|]. split; [exact Hf|].
        exists id, qr', r, rr'. repeat (split; [assumption|]). exact In'.
      * apply app_lenN_inj in In'; [|lia]. destruct In' as (Pg & Pi). subst got' t qr rr.
        apply (pinv_reply id r cur qd qr' rd rr'); try assumption.
    + destruct I.
    + destruct I.
  - assert (SAME : pinv c) by (unfold pinv; rewrite R; exists cur, qd, qr, rd, rr; auto).
    destruct w; [exact SAME|]. destruct Hf as (Hb & Hs).
    unfold notice. destruct (x_stage c) eqn:Es; try (exfalso; exact Hs);
      try apply pinv_fatal; try exact SAME. destruct (x_wire c); try exact SAME; apply pinv_fatal.
  - congruence.
  - unfold pinv. cbn [x_res set_int]. rewrite R. cbn [x_stage x_wire set_int].
    exists cur, qd, qr, rd, rr. split; [exact Hov|]. split; [|exact I].
    destruct Hf as ((A1 & A2 & A3 & A4) & A5). split; [|exact A5]. split; [exact A1|]. split; [exact A2|]. split; [|exact A4].
    intros N. exfalso. apply (Hint N). reflexivity.
Qed.

Lemma prun : forall es c, pinv c -> (noint -> ~ In EInt es) -> ~ In EFail es ->
  (exists d, wires qs = x_out (run E j es c) ++ d) -> pinv (run E j es c).
Proof.
  induction es as [|e es IH]; intros c I Hint HW Hout; [exact I|]. cbn [run] in *. apply IH.
  - apply pstep; [exact I| | |].
    + intros N H. apply (Hint N). left. exact H.
    + intros H. apply HW. left. exact H.
    + destruct Hout as (d & Hout). destruct (run_grows E j es (step E j e c)) as (d' & G).
      exists (d' ++ d). rewrite Hout, G, <- app_assoc. reflexivity.
  - intros N H. apply (Hint N). right. exact H.
  - intros H. apply HW. right. exact H.
  - exact Hout.
Qed.

Lemma wires_nil : forall l, wires l = [] -> l = [].
Proof.
  intros [|a l] H; [reflexivity|]. exfalso. rewrite wires_cons in H. pose proof (f_equal lenN H) as K.
  rewrite lenN_app, wire_len, lenN_nil in K. lia.
Qed.

Theorem put_final : forall es req int tab o tab', req < W32 ->
  (if j_resume j then GetOfst (j_from j) (j_to j) tab else ((0, 0), tab)) = (o, tab') -> words o -> offset o = o0 ->
  (noint -> int = false /\ uninterrupted es) -> ~ In EFail es ->
  let c0 := idle req int tab L (wires rs ++ rest) in
  let c := SFTP_Put E j es c0 in
  x_out c = wires qs -> tab' = tab1 -> x_res c = Some WS_SUCCESS -> partly (x_tab c) f1.
Proof.
  intros es req int tab o tab' Hreq HG Wo Oo Hint Hfail c0 c HO Ht1 HR.
  assert (I : pinv c).
  { apply prun.
    - unfold put_start. cbn [x_tab c0 idle]. rewrite HG.
      destruct (match ce_kind E with Some _ => _ | None => _ end); [apply pinv_fatal|].
      destruct (negb (ce_open E)); [apply pinv_fatal|].
      destruct (j_resume j && negb (ce_seek E)); [apply pinv_fatal|].
      assert (P : (if j_resume j then snd o * W32 + fst o else 0) = o0).
      { destruct (j_resume j); [exact Oo|]. rewrite <- Oo. injection HG as <- _. reflexivity. }
      apply (pinv_request POpen _ f0).
      + split; [reflexivity|]. exists [], qs, [], rs. split; [|split; reflexivity]. repeat split. exact Hserves.
      + split; [|split; [exact Oo|split; [reflexivity|exact Ht1]]]. unfold pbase, c0.
        cbn [x_handle x_req x_int x_ofst x_file x_tab x_chunk x_pos set_pos set_chunk set_tab set_ofst idle].
        rewrite !lenN_nil, Oo, P. split; [lia|]. split; [exact Hreq|]. split; [apply Hint|]. split; [reflexivity|].
        split; [exact Wo|]. split; [lia|]. split; [lia|]. split; [rewrite takeN_0; reflexivity|]. split; lia.
      + apply open_wire. unfold W32. lia.
    - intros N. apply (Hint N).
    - exact Hfail.
    - exists []. rewrite app_nil_r. symmetry. exact HO. }
  unfold pinv in I. rewrite HR in I. destruct (I eq_refl) as (cur & qd & qr & rd & rr & (Hq & Hr & Ln & S) & O & P).
  rewrite HO, Hq, wires_app in O. rewrite <- (app_nil_r (wires qd)) in O at 2. apply app_inv_head in O.
  apply wires_nil in O. subst qr. inversion S; subst. exact P.
Qed.
End Put.
