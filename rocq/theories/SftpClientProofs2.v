(* SftpClientProofs2.v - what a Get leaves in the local file. *)
From Verif Require Import Base WireModel WireProofs OsshSpec OsshProofs PathModel SftpModel SftpProofs2
  SftpClientModel SftpClientSpec SftpClientProofs.
From Coq Require Import List NArith Lia Bool.
Import ListNotations.
Open Scope N_scope.
Local Notation str := OsshSpec.str.

(* ---- what is sent only grows ----------------------------------------- *)

Definition grows (a b : xfer) : Prop := exists d, x_out b = x_out a ++ d.
Lemma grows_same : forall a b, x_out b = x_out a -> grows a b.
Proof. intros a b H. exists []. rewrite app_nil_r. exact H. Qed.

Ltac dd := repeat match goal with
  | |- context [match ?x with _ => _ end] => destruct x
  end.

Lemma end_out : forall j c, x_out (put_end j c) = x_out c.
Proof. intros j c. unfold put_end. destruct (x_int c); dd; reflexivity. Qed.
Lemma fail_out : forall E j c, x_out (fail_request E j c) = x_out c.
Proof. intros E j c. unfold fail_request. destruct (x_stage c); try reflexivity. apply end_out. Qed.
Lemma data_out : forall E j d c, x_out (get_data E j d c) = x_out c.
Proof. intros E j d c. unfold get_data, get_close_remote, get_close_local, get_read. cbv zeta. dd; reflexivity. Qed.
Lemma opened_out : forall E j h c, x_out (get_opened E j h c) = x_out c.
Proof.
  intros E j h c. unfold get_opened. cbv zeta. destruct (if j_resume j then _ else _) as (o, t).
  destruct (ce_open E); [|reflexivity]. destruct (zero64 o); reflexivity.
Qed.
Lemma write_out : forall E j c, x_out (put_write E j c) = x_out c.
Proof.
  intros E j c. unfold put_write. cbv zeta. destruct (lenN (x_chunk c) =? 0); cbn [x_chunk set_chunk set_pos].
  - destruct (_ =? 0); [rewrite end_out|]; reflexivity.
  - destruct (_ =? 0); [rewrite end_out|]; reflexivity.
Qed.
Lemma wrote_out : forall E j n c, x_out (put_wrote E j n c) = x_out c.
Proof.
  intros E j n c. unfold put_wrote. destruct (n =? 0); [apply end_out|]. cbv zeta. cbn [x_int set_chunk set_ofst].
  destruct (x_int c); [rewrite end_out|rewrite write_out]; reflexivity.
Qed.
Lemma stat_out : forall j p c, x_out (get_stat j p c) = x_out c.
Proof. intros j p c. unfold get_stat. cbv zeta. dd; reflexivity. Qed.
Lemma reply_out : forall E j t b c, x_out (reply E j t b c) = x_out c.
Proof.
  intros E j t b c. unfold reply. destruct (x_stage c); dd;
    rewrite ?fail_out, ?stat_out, ?opened_out, ?write_out, ?wrote_out, ?data_out; reflexivity.
Qed.
Lemma header_out : forall E j t i n c, x_out (header E j t i n c) = x_out c.
Proof.
  intros E j t i n c. unfold header. cbv zeta. destruct (x_stage c); dd;
    rewrite ?fail_out, ?data_out; reflexivity.
Qed.
Lemma sent_out : forall E j b c, x_out (sent E j b c) = x_out c.
Proof. intros E j b c. unfold sent. destruct (x_stage c), b; reflexivity. Qed.
Lemma notice_out : forall E j c, x_out (notice E j c) = x_out c.
Proof. intros E j c. unfold notice. destruct (x_stage c); try reflexivity. destruct (x_wire c); reflexivity. Qed.

Lemma step_grows : forall E j e c, grows c (step E j e c).
Proof.
  intros E j e c. unfold step. destruct (x_res c); [apply grows_same; reflexivity|].
  destruct e as [n b|w| |]; [|apply grows_same; destruct w; [reflexivity|apply notice_out]
    |apply grows_same; apply fail_out|apply grows_same; reflexivity].
  destruct (x_wire c) as [m i|d i|got|t i s got| |s got]; cbv zeta.
  - destruct (_ <? _).
    + eexists. reflexivity.
    + eexists. rewrite sent_out. reflexivity.
  - destruct (_ <? _); eexists; reflexivity.
  - apply grows_same. destruct (_ <? _); [reflexivity|]. dd; rewrite ?header_out; reflexivity.
  - apply grows_same. destruct (_ <? _); [reflexivity|]. rewrite reply_out. reflexivity.
  - apply grows_same. destruct (ato32 _ 0); [|reflexivity]. destruct (_ || _); [rewrite fail_out|]; reflexivity.
  - apply grows_same. destruct (_ <? _); [reflexivity|]. rewrite data_out. reflexivity.
Qed.

Lemma grows_trans : forall a b c, grows a b -> grows b c -> grows a c.
Proof. intros a b c (d & H) (d' & H'). exists (d ++ d'). rewrite H', H, app_assoc. reflexivity. Qed.
Lemma run_grows : forall E j es c, grows c (run E j es c).
Proof.
  induction es as [|e es IH]; intros c; cbn [run]; [apply grows_same; reflexivity|].
  eapply grows_trans; [apply step_grows|apply IH].
Qed.

Lemma run_done : forall E j es c r, x_res c = Some r -> run E j es c = c.
Proof.
  induction es as [|e es IH]; intros c r H; cbn [run]; [reflexivity|].
  assert (S : step E j e c = c) by (unfold step; rewrite H; reflexivity). rewrite S. apply (IH c r H).
Qed.

(* ---- the invariant ---------------------------------------------------- *)

Lemma takeN_add : forall A n m (l : list A), takeN n l ++ takeN m (dropN n l) = takeN (n + m) l.
Proof.
  intros A n m l. unfold takeN, dropN. replace (N.to_nat (n + m)) with (N.to_nat n + N.to_nat m)%nat by lia.
  revert l. generalize (N.to_nat n) as a, (N.to_nat m) as b.
  induction a as [|a IH]; intros b l; [reflexivity|].
  destruct l as [|x l]; cbn; [destruct b; reflexivity|]. rewrite IH. reflexivity.
Qed.

Definition wires (l : list msg) : bytes := List.concat (map wire l).
Lemma wires_app : forall a b, wires (a ++ b) = wires a ++ wires b.
Proof. intros a b. unfold wires. rewrite map_app, concat_app. reflexivity. Qed.
Lemma wires_one : forall q, wires [q] = wire q.
Proof. intros q. unfold wires. cbn [map List.concat]. apply app_nil_r. Qed.
Lemma wires_cons : forall q l, wires (q :: l) = wire q ++ wires l.
Proof. reflexivity. Qed.

Lemma forall2_length : forall P (a b : list msg), Forall2 P a b -> length a = length b.
Proof. intros P a b H. induction H; cbn; congruence. Qed.

Section Get.
Variables (E : cenv) (j : job) (F h : bytes) (qs rs : list msg) (rest : bytes).
Variables (file0 : bytes) (tab0 : list slot) (noint : Prop).
Variables (o0 : hid) (tab1 : list slot).
Hypothesis HG : (if j_resume j then GetOfst (j_from j) (j_to j) tab0 else ((0, 0), tab0)) = (o0, tab1).
Hypothesis Hflush : forall p, p <= ce_flush E p.
Hypothesis HF : lenN F < W32 * W32.
Hypothesis Hfrom : lenN (j_from j) < 2147483000.
Hypothesis Hqs : Forall framed qs.
Hypothesis Hrs : Forall framed rs.
Hypothesis Hgives : Forall2 (gives F h) qs rs.
Hypothesis Ho0 : words o0.
Hypothesis Hstart : offset o0 = 0 \/ (offset o0 <= lenN F /\ file0 = takeN (offset o0) F).

Definition final (c : xfer) : Prop :=
  exists p, x_file c = takeN p F /\ p <= lenN F /\ words (x_ofst c) /\ offset (x_ofst c) = p /\
    ((p = lenN F /\ x_tab c = tab1) \/
     (~ noint /\ x_tab c = SaveOfst (j_from j) (j_to j) (x_ofst c) tab1)).

(* what the table and the file may be when the call ends, in whatever way *)
Definition settled (c : xfer) : Prop :=
  x_req c < W32 /\
  ((x_tab c = tab0 /\ x_file c = file0) \/ x_tab c = tab1 \/
   (exists p, x_file c = takeN p F /\ p <= lenN F /\ words (x_ofst c) /\ offset (x_ofst c) = p /\
      x_tab c = SaveOfst (j_from j) (j_to j) (x_ofst c) tab1)).

(* the request in progress *)
Definition asks (s : stage) (id : N) (c : xfer) : msg :=
  match s with
  | GStat => Msg 17 id (str (j_from j))
  | GOpen => Msg 3 id (str (j_from j) ++ be32 1 ++ be32 0)
  | GRead => Msg 5 id (str (x_handle c) ++ be64 (offset (x_ofst c)) ++ be32 32768)
  | _ => Msg 4 id (str (x_handle c))
  end.

Definition facts (s : stage) (c : xfer) : Prop :=
  lenN (x_handle c) <= 256 /\ x_req c < W32 /\ (noint -> x_int c = false) /\
  match s with
  | GStat | GOpen => x_file c = file0 /\ x_tab c = tab0 /\ x_ofst c = (0, 0)
  | GRead => x_handle c = h /\ words (x_ofst c) /\ offset (x_ofst c) <= lenN F /\
             x_file c = takeN (offset (x_ofst c)) F /\ x_tab c = tab1
  | GClose => final c
  | _ => False
  end.

Definition inv (c : xfer) : Prop :=
  match x_res c with
  | Some r => settled c /\ (r = WS_SUCCESS -> final c)
  | None =>
      facts (x_stage c) c /\
      exists qd qr rd rr, qs = qd ++ qr /\ rs = rd ++ rr /\ length qd = length rd /\
      match x_wire c with
      | WSend m i =>
          m = wire (asks (x_stage c) (x_req c) c) /\ i <= lenN m /\
          x_out c = wires qd ++ takeN i m /\ x_in c = wires rr ++ rest
      | WBody _ _ => False
      | WHead got =>
          exists r rr', rr = r :: rr' /\ gives F h (asks (x_stage c) (x_req c) c) r /\ framed r /\
            x_out c = wires qd ++ wire (asks (x_stage c) (x_req c) c) /\
            (exists qr', qr = asks (x_stage c) (x_req c) c :: qr') /\
            lenN got <= 9 /\ got ++ x_in c = wire r ++ wires rr' ++ rest
      | WMsg t i sz got =>
          exists id r rr', rr = r :: rr' /\ gives F h (asks (x_stage c) id c) r /\ framed r /\
            x_out c = wires qd ++ wire (asks (x_stage c) id c) /\
            (exists qr', qr = asks (x_stage c) id c :: qr') /\
            t = m_type r /\ sz = lenN (m_body r) /\ lenN got <= sz /\
            got ++ x_in c = m_body r ++ wires rr' ++ rest /\
            (x_stage c = GRead -> t = 101)
      | WLen =>
          exists id r rr', rr = r :: rr' /\ gives F h (asks (x_stage c) id c) r /\ framed r /\
            x_out c = wires qd ++ wire (asks (x_stage c) id c) /\
            (exists qr', qr = asks (x_stage c) id c :: qr') /\
            x_stage c = GRead /\ m_type r = 103 /\ x_in c = m_body r ++ wires rr' ++ rest
      | WData sz got =>
          exists id r rr' d, rr = r :: rr' /\ gives F h (asks (x_stage c) id c) r /\ framed r /\
            x_out c = wires qd ++ wire (asks (x_stage c) id c) /\
            (exists qr', qr = asks (x_stage c) id c :: qr') /\
            x_stage c = GRead /\ sz = lenN d /\ 0 < sz <= 32768 /\
            offset (x_ofst c) + sz <= lenN F /\ d = takeN sz (dropN (offset (x_ofst c)) F) /\
            lenN got <= sz /\ got ++ x_in c = d ++ wires rr' ++ rest
      end
  end.

(* between a reply and the next request *)
Definition sync (c : xfer) : Prop :=
  x_res c = None /\ exists qd qr rd rr, qs = qd ++ qr /\ rs = rd ++ rr /\ length qd = length rd /\
    x_out c = wires qd /\ x_in c = wires rr ++ rest.

Lemma final_settled : forall c, x_req c < W32 -> final c -> settled c.
Proof.
  intros c R (p & A & B & C & D & [(Ep & T)|(_ & T)]); split; try exact R; [right; left; exact T|].
  right. right. exists p. auto.
Qed.
Lemma facts_settled : forall s c, facts s c -> settled c.
Proof.
  intros s c (Hh & Hr & Hi & Hs).
  assert (G : x_file c = file0 /\ x_tab c = tab0 /\ x_ofst c = (0, 0) -> settled c).
  { intros (A & B & _). split; [exact Hr|left; split; assumption]. }
  destruct s; cbn in Hs.
  - exact (G Hs).
  - exact (G Hs).
  - split; [exact Hr|]. right. left. apply Hs.
  - apply final_settled; assumption.
  - destruct Hs.
  - destruct Hs.
  - destruct Hs.
Qed.

Lemma inv_finish : forall r c, settled c -> (r = WS_SUCCESS -> final c) -> inv (finish r c).
Proof. intros r c S H. unfold inv. cbn [x_res finish]. split; [exact S|exact H]. Qed.
Lemma inv_fatal : forall c, settled c -> inv (finish WS_FATAL_ERROR c).
Proof. intros c S. apply inv_finish; [exact S|discriminate]. Qed.

Lemma inv_request : forall s m c, sync c -> facts s c -> m = wire (asks s (x_req c) c) ->
  inv (request s m c).
Proof.
  intros s m c (R & qd & qr & rd & rr & Hq & Hr & L & O & I) Hf Hm. unfold inv, request. cbn [x_res set_stage set_wire].
  rewrite R. cbn [x_stage x_wire set_stage set_wire x_req x_out x_in]. split; [exact Hf|].
  exists qd, qr, rd, rr. split; [exact Hq|]. split; [exact Hr|]. split; [exact L|]. split; [exact Hm|].
  split; [lia|]. split; [|exact I]. rewrite takeN_0, app_nil_r. exact O.
Qed.

Lemma inv_close_local : forall r c, settled c -> (r = WS_SUCCESS -> final c) -> inv (get_close_local E r c).
Proof.
  intros r c S0 H. unfold get_close_local. rewrite takeN_all by apply Hflush.
  apply inv_finish; [exact S0|]. intros S. destruct (H S) as (p & A). exists p. exact A.
Qed.

Lemma inv_read : forall c, sync c -> facts GRead c -> inv (get_read c).
Proof.
  intros c S Hf. apply inv_request; [exact S|exact Hf|].
  destruct Hf as (Hh & _ & _ & _ & W & _). apply read_wire; [exact W|unfold W32; lia].
Qed.

Lemma inv_close_remote : forall c, sync c -> facts GClose c -> inv (get_close_remote E c).
Proof.
  intros c S Hf. unfold get_close_remote. destruct (0 <? lenN (x_handle c)).
  - apply inv_request; [exact S|exact Hf|]. destruct Hf as (Hh & _). apply simple_wire. unfold W32. lia.
  - apply inv_close_local; [apply (facts_settled GClose); exact Hf|]. intros _. apply Hf.
Qed.

(* [d] is the part of the file from the offset on, or it is empty at its end *)
Lemma inv_data : forall d c, sync c -> facts GRead c ->
  lenN d <= 32768 -> offset (x_ofst c) + lenN d <= lenN F -> d = takeN (lenN d) (dropN (offset (x_ofst c)) F) ->
  (lenN d = 0 -> offset (x_ofst c) = lenN F) ->
  inv (get_data E j d c).
Proof.
  intros d c S (Hh & Hr & Hi & Eh & W & Ho & Ef & Et) Ld Lo Ed Hend. unfold get_data. cbv zeta.
  set (w := N.min _ _). destruct (N.eqb_spec w (lenN d)) as [Ew|]; cbn [negb]; [|apply inv_fatal; split; [exact Hr|right; left; exact Et]].
  rewrite Ew, takeN_all by lia. clearbody w.
  destruct (add64 (x_ofst c) (lenN d) W ltac:(unfold W32; lia) ltac:(lia)) as (W' & O').
  assert (Ef' : x_file c ++ d = takeN (offset (x_ofst c) + lenN d) F).
  { rewrite Ef, Ed at 1. apply takeN_add. }
  set (c' := set_ofst (AddAssign64 (x_ofst c) (lenN d)) (set_file (x_file c ++ d) c)).
  change (x_ofst (set_file (x_file c ++ d) c)) with (x_ofst c).
  fold c'.
  destruct S as (R & S).
  assert (S' : sync c') by (split; [exact R|exact S]).
  destruct ((0 <? lenN d) && negb (x_int c')) eqn:EI.
  - apply inv_read; [exact S'|]. unfold facts, c'. cbn [x_handle x_req x_int x_ofst x_file x_tab set_ofst set_file].
    split; [exact Hh|]. split; [exact Hr|]. split; [exact Hi|]. split; [exact Eh|]. split; [exact W'|].
    rewrite O'. split; [lia|]. split; [exact Ef'|exact Et].
  - apply inv_close_remote.
    + unfold c' in *. destruct (x_int _); split; try exact R; exact S.
    + assert (Ei : x_int c' = x_int c) by reflexivity. rewrite Ei in *. rewrite andb_false_iff, negb_false_iff in EI.
      unfold facts. destruct (x_int c) eqn:I.
      * cbn [x_handle x_req x_int set_int set_tab]. split; [exact Hh|]. split; [exact Hr|]. split; [reflexivity|].
        exists (offset (x_ofst c) + lenN d).
        cbn [x_handle x_req x_int x_ofst x_file x_tab set_int set_tab set_ofst set_file c'].
        split; [exact Ef'|]. split; [lia|]. split; [exact W'|]. split; [exact O'|]. right.
        split; [intros N; specialize (Hi N); congruence|]. rewrite Et. reflexivity.
      * cbn [x_handle x_req x_int set_int set_tab]. split; [exact Hh|]. split; [exact Hr|]. split; [reflexivity|].
        destruct EI as [EI|EI]; [|discriminate]. apply N.ltb_ge in EI.
        exists (offset (x_ofst c) + lenN d).
        cbn [x_handle x_req x_int x_ofst x_file x_tab set_int set_tab set_ofst set_file c'].
        split; [exact Ef'|]. split; [lia|]. split; [exact W'|]. split; [exact O'|]. left.
        split; [|exact Et]. rewrite Hend by lia. lia.
Qed.

Lemma inv_opened : forall c, sync c -> facts GOpen c -> lenN h <= 256 -> inv (get_opened E j h c).
Proof.
  intros c (R & S) (Hh & Hr & Hi & Ef & Et & Eo) L. unfold get_opened. cbv zeta.
  cbn [x_tab set_handle]. rewrite Et.
  rewrite HG.
  destruct (ce_open E); [|apply inv_fatal; split; [exact Hr|right; left; reflexivity]].
  destruct (zero64 o0) eqn:Z.
  - apply inv_read; [split; [exact R|exact S]|]. apply zero64_spec in Z.
    unfold facts. cbn [x_handle x_req x_int x_ofst x_file x_tab set_ofst set_file set_tab set_handle].
    split; [exact L|]. split; [exact Hr|]. split; [exact Hi|]. split; [reflexivity|].
    split; [exact Ho0|]. rewrite Z. split; [lia|]. split; [reflexivity|]. reflexivity.
  - apply inv_read; [split; [exact R|exact S]|].
    unfold facts. cbn [x_handle x_req x_int x_ofst x_file x_tab set_ofst set_file set_tab set_handle].
    split; [exact L|]. split; [exact Hr|]. split; [exact Hi|]. split; [reflexivity|].
    split; [exact Ho0|]. destruct Hstart as [H0|(H0 & H1)].
    + apply zero64_spec in H0. congruence.
    + split; [exact H0|]. split; [congruence|]. reflexivity.
Qed.

Lemma inv_stat : forall p c, sync c -> facts GStat c -> inv (get_stat j p c).
Proof.
  intros p c S Hf. unfold get_stat. cbv zeta. destruct (_ || _); [|apply inv_fatal; apply (facts_settled GStat); exact Hf].
  apply inv_request; [exact S|exact Hf|]. apply open_wire. unfold W32. lia.
Qed.

Lemma inv_fail : forall c, (exists s, facts s c /\ x_stage c = s) -> inv (fail_request E j c).
Proof.
  intros c (s & Hf & Es). unfold fail_request. rewrite Es.
  pose proof (facts_settled s c Hf) as S.
  destruct s; try (apply inv_fatal; exact S); try (apply inv_close_local; [exact S|discriminate]).
  destruct Hf as (_ & _ & _ & []).
Qed.

(* the reply [r] to the current request has been read *)
Lemma synced : forall q r qd qr rd rr c,
  qs = qd ++ q :: qr -> rs = rd ++ r :: rr -> length qd = length rd -> x_res c = None ->
  x_out c = wires qd ++ wire q -> x_in c = wires rr ++ rest -> sync c.
Proof.
  intros q r qd qr rd rr c Hq Hr L R O I. split; [exact R|].
  exists (qd ++ [q]), qr, (rd ++ [r]), rr. rewrite <- !app_assoc. split; [exact Hq|]. split; [exact Hr|].
  rewrite !app_length, L. split; [reflexivity|]. split; [|exact I]. rewrite wires_app, wires_one. exact O.
Qed.

Lemma inv_reply : forall r id c, sync c -> facts (x_stage c) c -> gives F h (asks (x_stage c) id c) r -> framed r ->
  (x_stage c = GRead -> m_type r = 101) -> inv (reply E j (m_type r) (m_body r) c).
Proof.
  intros r id c S Hf (Gi & Go & Gr) (Ft & Fi & Fb & Fl) Hrd.
  assert (FAIL : inv (fail_request E j c)) by (apply inv_fail; exists (x_stage c); auto).
  unfold reply. destruct (x_stage c) eqn:Es.
  - destruct (_ =? _).
    + destruct (ParseAttributes _ _ _); apply inv_stat; assumption.
    + destruct (_ =? _); [|exact FAIL].
      destruct (DoStatus (m_body r)) as [[|]|]; [apply inv_stat; assumption|exact FAIL|exact FAIL].
  - cbn [asks m_type m_id m_body] in Go. destruct (Go eq_refl) as [(T & B)|(T & code & C0 & St)]; rewrite T.
    + cbn [N.eqb Pos.eqb FTP_HANDLE]. rewrite B, parse_handle.
      * destruct (N.leb_spec (lenN h) 256) as [L|L]; [|exact FAIL]. apply inv_opened; assumption.
      * rewrite B, lenN_str in Fl. unfold is32, W32. lia.
    + cbn [N.eqb Pos.eqb FTP_HANDLE]. rewrite (do_status code) by (assumption || lia).
      destruct (8 <? code); [exact FAIL|]. destruct code; [congruence|exact FAIL].
  - cbn [asks m_type m_id m_body] in Gr. pose proof Hf as (_ & _ & _ & Eh & W & Ho & Ef & Et).
    destruct (Gr eq_refl (offset (x_ofst c)) 32768 ltac:(lia) eq_refl ltac:(rewrite Eh; reflexivity)) as [(T & _)|(T & code & St & C0 & C1)].
    + rewrite Hrd in T by reflexivity. discriminate.
    + rewrite (do_status code) by (assumption || lia). destruct (8 <? code); [exact FAIL|].
      destruct code as [|[| |]]; try congruence; try exact FAIL.
      apply inv_data; [exact S|exact Hf|rewrite lenN_nil; lia|rewrite lenN_nil; lia|reflexivity|].
      intros _. specialize (C1 eq_refl). lia.
  - destruct (DoStatus (m_body r)) as [[|]|]; [|exact FAIL|exact FAIL].
    apply inv_close_local; [apply (facts_settled GClose); exact Hf|]. intros _. apply Hf.
  - destruct Hf as (_ & _ & _ & []).
  - destruct Hf as (_ & _ & _ & []).
  - destruct Hf as (_ & _ & _ & []).
Qed.

Lemma gives_nth : forall qd q qr rd r rr, qs = qd ++ q :: qr -> rs = rd ++ r :: rr -> length qd = length rd ->
  gives F h q r /\ framed r.
Proof.
  intros qd q qr rd r rr Hq Hr L. split.
  - pose proof Hgives as G. rewrite Hq, Hr in G. clear Hq Hr. revert rd L G.
    induction qd as [|a qd IH]; intros [|b rd] L G; cbn in L; try discriminate; cbn [app] in G; inversion G; subst; auto.
    apply (IH rd); [congruence|assumption].
  - rewrite Hr in Hrs. apply Forall_app in Hrs. destruct Hrs as (_ & H). inversion H; assumption.
Qed.

(* a step; what is sent in the end begins with what was sent so far *)
Lemma inv_step : forall e c, inv c -> (noint -> e <> EInt) ->
  (x_wire c = WLen -> forall n b, e = EMove n b -> 4 <= n) ->
  (exists d, wires qs = x_out (step E j e c) ++ d) -> inv (step E j e c).
Proof.
  intros e c I Hint Hlen (dd & Hout). unfold step in *. unfold inv in I. destruct (x_res c) as [r|] eqn:R.
  { unfold inv. rewrite R. exact I. }
  destruct I as (Hf & qd & qr & rd & rr & Hq & Hr & L & I).
  assert (FAIL : inv (fail_request E j c)) by (apply inv_fail; exists (x_stage c); auto).
  destruct e as [n b|w| |].
  - destruct (x_wire c) as [m i|d i|got|t i sz got| |sz got] eqn:W; cbv zeta in *.
    + destruct I as (Hm & Hi & O & In). set (k := N.min n (lenN m - i)) in *.
      assert (O' : x_out c ++ takeN k (dropN i m) = wires qd ++ takeN (i + k) m).
      { rewrite O, <- app_assoc, takeN_add. reflexivity. }
      rewrite O' in *. destruct (N.ltb_spec (i + k) (lenN m)) as [Lk|Lk].
      * unfold inv. cbn [x_res set_wire set_out]. rewrite R. cbn [x_stage x_wire set_wire set_out x_req x_out x_in].
        split; [exact Hf|]. exists qd, qr, rd, rr. repeat (split; [first [assumption|reflexivity|lia]|]).
        exact In.
      * rewrite sent_out in Hout. cbn [x_out set_wire set_out] in Hout.
        rewrite takeN_all in * by lia.
        assert (Q : exists qr', qr = asks (x_stage c) (x_req c) c :: qr').
        { rewrite Hm in Hout. rewrite <- app_assoc in Hout.
          assert (SM : small (asks (x_stage c) (x_req c) c)).
          { destruct Hf as (Hh & Hr' & _ & Hs). unfold small. destruct (x_stage c); cbn [asks m_id m_body];
              rewrite ?lenN_app, ?lenN_str, ?lenN_be64, ?lenN_be32; split; try assumption; unfold W32; lia. }
          assert (SQ : Forall small qs) by (eapply Forall_impl; [|exact Hqs]; apply framed_small).
          destruct (wires_split qd qs (asks (x_stage c) (x_req c) c) dd SQ SM) as (qr' & E').
          - rewrite Hq in SQ. apply Forall_app in SQ. apply SQ.
          - exact Hout.
          - exists qr'. rewrite Hq in E'. apply app_inv_head in E'. exact E'. }
        destruct Q as (qr' & Q).
        assert (LR : exists r rr', rr = r :: rr').
        { destruct rr as [|r rr']; [|eauto]. exfalso. pose proof (forall2_length _ _ _ Hgives) as LG.
          rewrite Hq, Hr, !app_length, L, Q in LG. cbn in LG. lia. }
        destruct LR as (r & rr' & Rr).
        destruct (gives_nth qd _ qr' rd r rr' ltac:(rewrite Hq, Q; reflexivity) ltac:(rewrite Hr, Rr; reflexivity) L) as (G & FR).
        assert (HEAD : inv (set_wire (WHead []) (set_wire (WSend m (i + k)) (set_out (wires qd ++ m) c)))).
        { unfold inv. cbn [x_res set_wire set_out]. rewrite R. cbn [x_stage x_wire set_wire set_out x_req x_out x_in].
          split; [exact Hf|]. exists qd, qr, rd, rr. split; [exact Hq|]. split; [exact Hr|]. split; [exact L|].
          exists r, rr'. split; [exact Rr|]. split; [exact G|]. split; [exact FR|].
          split; [rewrite Hm; reflexivity|]. split; [exists qr'; exact Q|]. split; [rewrite lenN_nil; lia|].
          cbn [app]. rewrite In, Rr, wires_cons, <- app_assoc. reflexivity. }
        assert (KEEP : inv (set_wire (WSend m (i + k)) (set_out (wires qd ++ m) c))).
        { unfold inv. cbn [x_res set_wire set_out]. rewrite R. cbn [x_stage x_wire set_wire set_out x_req x_out x_in].
          split; [exact Hf|]. exists qd, qr, rd, rr. repeat (split; [first [assumption|reflexivity|lia]|]).
          split; [|exact In]. rewrite takeN_all by lia. reflexivity. }
        unfold sent. cbn [x_stage set_wire set_out].
        destruct (x_stage c) eqn:Es; try exact HEAD; try (destruct b; [exact KEEP|exact HEAD]);
          try (exfalso; exact (proj2 (proj2 (proj2 Hf)))).
        destruct b; [|exact HEAD]. apply inv_close_local; [|discriminate].
        apply (facts_settled GClose). exact Hf.
    + destruct I.
    + destruct I as (r & rr' & Rr & G & FR & O & (qr' & Q) & Lg & In).
      set (k := N.min n (SFTP_HEADER - lenN got)) in *.
      assert (In' : (got ++ takeN k (x_in c)) ++ dropN k (x_in c) = wire r ++ wires rr' ++ rest).
      { rewrite <- app_assoc, takeN_dropN. exact In. }
      assert (Lg' : lenN (got ++ takeN k (x_in c)) <= 9).
      { rewrite lenN_app, lenN_takeN. unfold k, SFTP_HEADER. lia. }
      set (got' := got ++ takeN k (x_in c)) in *. clearbody got'.
      destruct (N.ltb_spec (lenN got') SFTP_HEADER) as [Ls|Ls].
      * unfold inv. cbn [x_res set_wire set_in]. rewrite R. cbn [x_stage x_wire set_wire set_in x_req x_out x_in].
        split; [exact Hf|]. exists qd, qr, rd, rr. split; [exact Hq|]. split; [exact Hr|]. split; [exact L|].
        exists r, rr'. split; [exact Rr|]. split; [exact G|]. split; [exact FR|]. split; [exact O|].
        split; [exists qr'; exact Q|]. split; [exact Lg'|exact In'].
      * unfold SFTP_HEADER in Ls.
        assert (P : got' = be32 (5 + lenN (m_body r)) ++ [m_type r] ++ be32 (m_id r) /\
                    dropN k (x_in c) = m_body r ++ wires rr' ++ rest).
        { unfold wire in In'. rewrite <- !app_assoc in In'.
          change (be32 (5 + lenN (m_body r)) ++ [m_type r] ++ be32 (m_id r) ++ m_body r ++ wires rr' ++ rest)
            with ((be32 (5 + lenN (m_body r)) ++ [m_type r] ++ be32 (m_id r)) ++ (m_body r ++ wires rr' ++ rest)) in In'.
          apply app_lenN_inj in In'; [exact In'|]. rewrite !lenN_app, !lenN_be32, lenN_cons, lenN_nil. lia. }
        destruct P as (Pg & Pi). destruct FR as (Ft & Fi & Fb & Fl).
        destruct (header_parse (5 + lenN (m_body r)) (m_type r) (m_id r) ltac:(unfold W32; lia) Fi) as (P1 & P2 & P3).
        cbv zeta in P1, P2, P3. rewrite <- Pg in P1, P2, P3. rewrite P1, P2, P3.
        assert (SZ : sub32 (5 + lenN (m_body r)) 5 = lenN (m_body r)).
        { rewrite sub32_small by (unfold is32, W32; lia). lia. }
        rewrite SZ. set (c' := set_wire (WHead got') (set_in (dropN k (x_in c)) c)).
        assert (FAIL' : inv (fail_request E j c')) by (apply inv_fail; exists (x_stage c); split; [exact Hf|reflexivity]).
        assert (FAIL2 : inv (fail_request E j (set_req (add32 (x_req c') 1) c'))).
        { apply inv_fail. exists (x_stage c). split; [|reflexivity].
          destruct Hf as (A1 & A2 & A3). split; [exact A1|]. split; [apply N.mod_lt; discriminate|exact A3]. }
        assert (FR : framed r) by (repeat split; assumption || lia).
        assert (GO : forall id, (x_stage c = GRead -> m_type r = 101) -> id < W32 ->
                   inv (set_wire (WMsg (m_type r) (m_id r) (lenN (m_body r)) []) (set_req id c'))).
        { intros id TR Hid. unfold inv, c'. cbn [x_res set_wire set_in set_req]. rewrite R.
          cbn [x_stage x_wire set_wire set_in set_req x_req x_out x_in].
          split; [destruct Hf as (A1 & A2 & A3); split; [exact A1|]; split; [exact Hid|exact A3]|].
          exists qd, qr, rd, rr. split; [exact Hq|]. split; [exact Hr|]. split; [exact L|].
          exists (x_req c), r, rr'. split; [exact Rr|]. split; [exact G|]. split; [exact FR|]. split; [exact O|].
          split; [exists qr'; exact Q|]. split; [reflexivity|]. split; [reflexivity|].
          split; [rewrite lenN_nil; lia|]. split; [cbn [app]; exact Pi|exact TR]. }
        assert (IDR : m_id r =? x_req c' = true).
        { apply N.eqb_eq. destruct G as (Gi & _). rewrite Gi. destruct (x_stage c); reflexivity. }
        assert (OK : (0 <? lenN (m_body r)) && (lenN (m_body r) <? 2147483648) = true).
        { apply andb_true_iff. rewrite !N.ltb_lt. lia. }
        assert (N32 : add32 (x_req c') 1 < W32) by (apply N.mod_lt; discriminate).
        assert (C32 : x_req c' < W32) by apply Hf.
        assert (SAME : set_wire (WMsg (m_type r) (m_id r) (lenN (m_body r)) []) c' =
                       set_wire (WMsg (m_type r) (m_id r) (lenN (m_body r)) []) (set_req (x_req c') c')) by reflexivity.
        unfold header. cbv zeta. rewrite IDR, OK. cbn [andb negb].
        assert (ES : x_stage c' = x_stage c) by reflexivity. rewrite ES.
        assert (RC' : x_res c' = None) by exact R. assert (OC' : x_out c' = x_out c) by reflexivity.
        assert (IC' : x_in c' = dropN k (x_in c)) by reflexivity.
        assert (HFN : facts (x_stage c) (set_wire WLen (set_req (add32 (x_req c') 1) c'))).
        { destruct Hf as (A1 & A2 & A3). split; [exact A1|]. split; [exact N32|exact A3]. }
        assert (ASK : asks GRead (x_req c) (set_wire WLen (set_req (add32 (x_req c') 1) c')) = asks GRead (x_req c) c)
          by reflexivity.
        clearbody c'.
        destruct (x_stage c) eqn:Es; try (exfalso; exact (proj2 (proj2 (proj2 Hf)))).
        -- apply GO; [discriminate|exact N32].
        -- destruct (m_type r =? FTP_HANDLE); [apply GO; [discriminate|exact N32]|]. destruct (m_type r =? FTP_STATUS); [|exact FAIL'].
           rewrite SAME. apply GO; [discriminate|exact C32].
        -- destruct (N.eqb_spec (lenN (m_body r)) 0) as [Z|_]; [lia|].
           destruct (N.eqb_spec (m_type r) FTP_DATA) as [TD|TD].
           ++ unfold inv. cbn [x_res set_wire set_req]. rewrite RC'.
              cbn [x_stage x_wire set_wire set_req x_req x_out x_in]. rewrite ES, OC', IC'.
              split; [apply HFN|].
              exists qd, qr, rd, rr. split; [exact Hq|]. split; [exact Hr|]. split; [exact L|].
              exists (x_req c), r, rr'. split; [exact Rr|]. split; [rewrite ASK; exact G|]. split; [exact FR|].
              split; [rewrite ASK; exact O|]. split; [exists qr'; rewrite ASK; exact Q|].
              split; [reflexivity|]. split; [exact TD|exact Pi].
           ++ destruct (N.eqb_spec (m_type r) FTP_STATUS) as [TS|TS]; [|exact FAIL2].
              apply GO; [intros _; exact TS|exact N32].
        -- rewrite andb_true_r. destruct (m_type r =? FTP_STATUS); [|exact FAIL'].
           rewrite SAME. apply GO; [discriminate|exact C32].
    + destruct I as (id & r & rr' & Rr & G & FR & O & (qr' & Q) & Et & Es & Lg & In & TR).
      set (k := N.min n (sz - lenN got)) in *.
      assert (In' : (got ++ takeN k (x_in c)) ++ dropN k (x_in c) = m_body r ++ wires rr' ++ rest).
      { rewrite <- app_assoc, takeN_dropN. exact In. }
      assert (Lg' : lenN (got ++ takeN k (x_in c)) <= sz).
      { rewrite lenN_app, lenN_takeN. unfold k. lia. }
      set (got' := got ++ takeN k (x_in c)) in *. clearbody got'.
      destruct (N.ltb_spec (lenN got') sz) as [Ls|Ls].
      * unfold inv. cbn [x_res set_wire set_in]. rewrite R. cbn [x_stage x_wire set_wire set_in x_req x_out x_in].
        split; [exact Hf|]. exists qd, qr, rd, rr. split; [exact Hq|]. split; [exact Hr|]. split; [exact L|].
        exists id, r, rr'. repeat (split; [first [assumption|exists qr'; exact Q]|]). exact TR.
      * apply app_lenN_inj in In'; [|lia]. destruct In' as (Pg & Pi). subst got' t.
        apply (inv_reply r id); [|exact Hf|exact G|exact FR|exact TR].
        apply (synced (asks (x_stage c) id c) r qd qr' rd rr'); try assumption; congruence.
    + destruct I as (id & r & rr' & Rr & G & FR & O & (qr' & Q) & Es & T & In).
      specialize (Hlen eq_refl n b eq_refl). replace (N.min n 4) with 4 in * by lia.
      pose proof Hf as Hf'. rewrite Es in Hf', G. destruct Hf' as (_ & _ & _ & Eh & Wo & Ho & Ef & Et).
      pose proof G as (_ & _ & Gr). cbn [asks m_type m_id m_body] in Gr.
      destruct (Gr eq_refl (offset (x_ofst c)) 32768 ltac:(lia) eq_refl ltac:(rewrite Eh; reflexivity))
        as [(_ & k & Hk & Hk' & B)|(T' & _)]; [|congruence].
      set (d := takeN k (dropN (offset (x_ofst c)) F)) in *.
      assert (Ld : lenN d = k) by (unfold d; rewrite lenN_takeN, lenN_dropN; lia).
      assert (In' : x_in c = be32 k ++ d ++ wires rr' ++ rest).
      { rewrite In, B. unfold str. rewrite Ld, <- app_assoc. reflexivity. }
      assert (T4 : takeN 4 (x_in c) = be32 k).
      { rewrite In'. rewrite <- (lenN_be32 k) at 1. apply takeN_app_exact. reflexivity. }
      assert (D4 : dropN 4 (x_in c) = d ++ wires rr' ++ rest).
      { rewrite In'. rewrite <- (lenN_be32 k) at 1. apply dropN_app_exact. reflexivity. }
      rewrite T4, ato32_be32 by (unfold W32; lia).
      destruct (N.ltb_spec MAX_SFTP_RW k) as [X|_]; [unfold MAX_SFTP_RW in X; lia|].
      destruct (N.eqb_spec k 0) as [X|_]; [lia|]. cbn [orb].
      unfold inv. cbn [x_res set_wire set_in]. rewrite R. cbn [x_stage x_wire set_wire set_in x_req x_out x_in x_ofst].
      split; [exact Hf|]. exists qd, qr, rd, rr. split; [exact Hq|]. split; [exact Hr|]. split; [exact L|].
      exists id, r, rr', d. split; [exact Rr|]. rewrite Es in *. split; [exact G|]. split; [exact FR|]. split; [exact O|].
      split; [exists qr'; exact Q|]. split; [reflexivity|]. split; [congruence|]. split; [lia|]. split; [lia|].
      split; [reflexivity|]. split; [rewrite lenN_nil; lia|]. cbn [app]. exact D4.
    + destruct I as (id & r & rr' & d & Rr & G & FR & O & (qr' & Q) & Es & Ez & Hz & Hz' & Ed & Lg & In).
      set (k := N.min n (sz - lenN got)) in *.
      assert (In' : (got ++ takeN k (x_in c)) ++ dropN k (x_in c) = d ++ wires rr' ++ rest).
      { rewrite <- app_assoc, takeN_dropN. exact In. }
      assert (Lg' : lenN (got ++ takeN k (x_in c)) <= sz).
      { rewrite lenN_app, lenN_takeN. unfold k. lia. }
      set (got' := got ++ takeN k (x_in c)) in *. clearbody got'.
      destruct (N.ltb_spec (lenN got') sz) as [Ls|Ls].
      * unfold inv. cbn [x_res set_wire set_in]. rewrite R. cbn [x_stage x_wire set_wire set_in x_req x_out x_in x_ofst].
        split; [exact Hf|]. exists qd, qr, rd, rr. split; [exact Hq|]. split; [exact Hr|]. split; [exact L|].
        exists id, r, rr', d. repeat (split; [first [assumption|exists qr'; exact Q]|]). exact In'.
      * apply app_lenN_inj in In'; [|lia]. destruct In' as (Pg & Pi). subst got'.
        rewrite Es in Hf. apply inv_data; cbn [x_ofst set_wire set_in].
        -- apply (synced (asks (x_stage c) id c) r qd qr' rd rr'); try assumption; congruence.
        -- exact Hf.
        -- lia.
        -- lia.
        -- rewrite <- Ez. exact Ed.
        -- lia.
  - destruct w; [unfold inv; rewrite R; split; [exact Hf|]; exists qd, qr, rd, rr; auto|].
    unfold notice. destruct (x_stage c) eqn:Es; try (exfalso; exact (proj2 (proj2 (proj2 Hf))));
      try (apply inv_fatal; apply (facts_settled _ c Hf));
      try (apply inv_close_local; [apply (facts_settled _ c Hf)|discriminate]);
      unfold inv; rewrite R, Es; (split; [exact Hf|]; exists qd, qr, rd, rr; auto).
  - exact FAIL.
  - unfold inv. cbn [x_res set_int]. rewrite R. cbn [x_stage x_wire set_int].
    split; [|exists qd, qr, rd, rr; auto].
    destruct Hf as (A1 & A2 & A3 & A4). split; [exact A1|]. split; [exact A2|]. split; [|exact A4].
    intros N. exfalso. apply (Hint N). reflexivity.
Qed.

Lemma inv_run : forall es c, inv c -> (noint -> ~ In EInt es) -> whole_lengths E j es c ->
  (exists d, wires qs = x_out (run E j es c) ++ d) -> inv (run E j es c).
Proof.
  induction es as [|e es IH]; intros c I Hint HW Hout; [exact I|]. cbn [run whole_lengths] in *.
  destruct HW as (H1 & H2). apply IH.
  - apply inv_step; [exact I| |exact H1|].
    + intros N H. apply (Hint N). left. exact H.
    + destruct Hout as (d & Hout). destruct (run_grows E j es (step E j e c)) as (d' & G).
      exists (d' ++ d). rewrite Hout, G, <- app_assoc. reflexivity.
  - intros N H. apply (Hint N). right. exact H.
  - exact H2.
  - exact Hout.
Qed.

Theorem get_final : forall es req int, req < W32 -> (noint -> int = false /\ uninterrupted es) ->
  let c0 := idle req int tab0 file0 (wires rs ++ rest) in
  let c := SFTP_Get E j es c0 in
  whole_lengths E j es (get_start j c0) -> (exists d, wires qs = x_out c ++ d) ->
  forall r, x_res c = Some r -> settled c /\ (r = WS_SUCCESS -> final c).
Proof.
  intros es req int Hreq Hint c0 c HW HO r HR.
  assert (I : inv c).
  { apply inv_run.
    - unfold get_start. apply inv_request.
      + split; [reflexivity|]. exists [], qs, [], rs. repeat split; reflexivity.
      + unfold facts, c0. cbn [x_handle x_req x_int x_ofst x_file x_tab set_ofst idle].
        split; [rewrite lenN_nil; lia|]. split; [exact Hreq|]. split; [apply Hint|]. auto.
      + apply simple_wire. unfold W32. lia.
    - intros N. apply (Hint N).
    - exact HW.
    - exact HO. }
  unfold inv in I. rewrite HR in I. exact I.
Qed.
End Get.

(* ---- the table ---------------------------------------------------------- *)

Lemma beq_eq : forall a b, beq a b = true <-> a = b.
Proof.
  induction a as [|x a IH]; intros [|y b]; cbn [beq]; split; intros H; try discriminate; try reflexivity.
  - apply andb_true_iff in H. destruct H as (H1 & H2). apply N.eqb_eq in H1. apply IH in H2. congruence.
  - injection H as -> ->. rewrite N.eqb_refl. apply IH. reflexivity.
Qed.

Section Table.
Variables (F from to : bytes).
Definition named (s : slot) : bool := beq from (o_from s) && beq to (o_to s).
Definition good (file : bytes) (o : hid) : Prop :=
  words o /\ (offset o = 0 \/ (offset o <= lenN F /\ file = takeN (offset o) F)).
Definition all_zero (t : list slot) : Prop := Forall (fun s => named s = true -> offset (o_ofst s) = 0) t.
Fixpoint fine (file : bytes) (t : list slot) : Prop :=
  match t with
  | [] => True
  | x :: t => if named x then good file (o_ofst x) /\ all_zero t else fine file t
  end.

Lemma offset0 : forall o, offset o = 0 -> o = (0, 0).
Proof. intros (a, b). unfold offset, W32. cbn [fst snd]. intros H. f_equal; lia. Qed.
Lemma good0 : forall file o, offset o = 0 -> good file o.
Proof. intros file o H. split; [|left; exact H]. apply offset0 in H. subst o. split; reflexivity. Qed.
Lemma zero_fine : forall file t, all_zero t -> fine file t.
Proof.
  intros file t H. induction H as [|x t Hx H IH]; cbn [fine]; [exact I|].
  destruct (named x); [|exact IH]. split; [apply good0; auto|exact H].
Qed.
Lemma get_fine : forall file t o t', fine file t -> GetOfst from to t = (o, t') -> good file o /\ all_zero t'.
Proof.
  induction t as [|x t IH]; intros o t' H HG; cbn [GetOfst fine] in *.
  - injection HG as <- <-. split; [apply good0; reflexivity|constructor].
  - unfold named in *. destruct (beq from (o_from x) && beq to (o_to x)) eqn:B.
    + injection HG as <- <-. destruct H as (H1 & H2). split; [exact H1|]. constructor; [|exact H2]. reflexivity.
    + destruct (GetOfst from to t) as (o1, t1). injection HG as <- <-. destruct (IH _ _ H eq_refl) as (H1 & H2).
      split; [exact H1|]. constructor; [|exact H2]. unfold named. rewrite B. discriminate.
Qed.
Lemma save_fine : forall file o t, all_zero t -> good file o -> fine file (SaveOfst from to o t).
Proof.
  intros file o t H Hg.
  assert (Q : forall t', save_slot (mkSlot from to o) t = Some t' -> fine file t').
  { clear -H Hg. induction H as [|x t Hx H IH]; intros t' Ht; cbn [save_slot] in Ht; [discriminate|].
    destruct (zero64 (o_ofst x)) eqn:Z.
    - injection Ht as <-. cbn [fine o_ofst]. destruct (named (mkSlot from to o)); [split; assumption|apply zero_fine; exact H].
    - destruct (save_slot (mkSlot from to o) t) as [t1|]; [|discriminate]. injection Ht as <-. cbn [fine].
      destruct (named x) eqn:Nx; [|apply IH; reflexivity].
      apply zero64_spec in Hx; congruence. }
  unfold SaveOfst. destruct (save_slot _ _) as [t'|]; [|apply zero_fine; exact H].
  destruct (_ || _); [apply zero_fine; exact H|apply Q; reflexivity].
Qed.
End Table.

(* ---- histories ---------------------------------------------------------- *)

Section History.
Variables (F from to : bytes).
Hypothesis HF : lenN F < W32 * W32.
Hypothesis Hfrom : lenN from < 2147483000.

Definition ready (c : xfer) : Prop := x_req c < W32 /\ fine F from to (x_file c) (x_tab c).

Lemma attempt_ends : forall c j es c', j_from j = from -> j_to j = to -> j_resume j = true ->
  ready c -> attempt F c j es c' ->
  ready c' /\
  (x_res c' = Some WS_SUCCESS -> exists p, x_file c' = takeN p F /\ p <= lenN F /\
     (x_int c = false -> uninterrupted es -> p = lenN F)).
Proof.
  intros c j es c' Hf Ht Hr (R & Hfine) [E input h qs rs more rest c0 Hc Hres Hfl HW Fq Fr G O I].
  destruct (GetOfst from to (x_tab c)) as (o0, tab1) eqn:HG.
  destruct (get_fine F from to _ _ _ _ Hfine HG) as ((W & Hs) & HZ).
  destruct (x_res c') as [r|] eqn:ER; [|congruence].
  pose proof (get_final E j F h qs rs rest (x_file c) (x_tab c) (x_int c = false /\ uninterrupted es) o0 tab1
              ltac:(rewrite Hr, Hf, Ht; exact HG) Hfl HF ltac:(rewrite Hf; exact Hfrom) Fq Fr G W Hs
              es (x_req c) (x_int c) R ltac:(tauto)) as K.
  cbv zeta in K. unfold wires in K. rewrite <- I in K. fold c0 in K. rewrite <- Hc in K.
  destruct (K HW (ex_intro _ more O) r ER) as (S & Fin). clear K. split.
  - destruct S as (Rq & S). split; [exact Rq|]. destruct S as [(S1 & S2)|[S|(p & S1 & S2 & S3 & S4 & S5)]].
      * rewrite S1, S2. exact Hfine.
      * rewrite S. apply zero_fine. exact HZ.
      * rewrite S5, Hf, Ht. apply save_fine; [exact HZ|]. split; [exact S3|]. right. rewrite S4. auto.
  - intros Er. assert (r = WS_SUCCESS) by congruence.
      destruct (Fin H) as (p & A & B & _ & _ & D). exists p. split; [exact A|]. split; [exact B|].
      intros N1 N2. destruct D as [(D & _)|(D & _)]; [exact D|tauto].
Qed.

Lemma tried_ready : forall c, tried (fun j => j_resume j = true) F from to c -> ready c.
Proof.
  intros c H. induction H as [c R H|c j es c' H IH Hf Ht Hr A].
  - split; [exact R|]. apply zero_fine. apply Forall_forall. intros s Hs Hn. unfold named in Hn.
    apply andb_true_iff in Hn. destruct Hn as (N1 & N2). apply beq_eq in N1, N2. rewrite (H s) by congruence. reflexivity.
  - apply (attempt_ends c j es c'); assumption.
Qed.
End History.
