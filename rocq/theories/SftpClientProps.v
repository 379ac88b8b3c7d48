(* SftpClientProps.v - C82 to C85: file transfer by the SFTP client. *)
From Verif Require Import Base WireModel WireSpec WireProofs OsshSpec OsshProofs PathModel SftpModel SftpProofs2
  SftpClientModel SftpClientSpec SftpClientProofs SftpClientProofs2 SftpClientProofs3 SftpClientProofs4.
From Coq Require Import List NArith Lia Bool.
Import ListNotations.
Open Scope N_scope.
Local Notation str := OsshSpec.str.

Ltac pairs := unfold all_written; repeat first [apply Forall2_nil | apply Forall2_cons].

(* ---- C82: a Get ------------------------------------------------------- *)

(* Whatever else holds, [side] is assumed too. *)
Definition C82_get (side : cenv -> job -> list ev -> xfer -> Prop) : Prop :=
  forall E j F h qs rs es req tab file input,
  let c0 := idle req false tab file input in
  let c := SFTP_Get E j es c0 in
  j_resume j = false -> req < W32 -> lenN F < W32 * W32 -> lenN (j_from j) < 2147483000 ->
  side E j es (get_start j c0) ->
  conversation qs rs (x_out c) input -> Forall2 (gives F h) qs rs ->
  uninterrupted es -> x_res c = Some WS_SUCCESS -> x_file c = F.
Definition C82_full : Prop := C82_get (fun _ _ _ _ => True).

Theorem C82_get_partial : C82_get (fun E j es c => closes E /\ whole_lengths E j es c).
Proof.
  intros E j F h qs rs es req tab file input c0 c Hres Hreq HF Hfrom (Hc & HW) [rest Ln Fq Fr O I] G Hu HR.
  pose proof (get_final E j F h qs rs rest file tab True (0, 0) tab ltac:(rewrite Hres; reflexivity) Hc HF Hfrom Fq Fr G
                ltac:(split; reflexivity) ltac:(left; reflexivity) es req false Hreq ltac:(auto)) as K.
  cbv zeta in K. unfold wires in K. rewrite <- I in K. fold c0 in K.
  destruct (K HW ltac:(exists []; rewrite app_nil_r; symmetry; exact O) _ HR) as (_ & Fin).
  destruct (Fin eq_refl) as (p & A & B & _ & _ & [(D & _)|(D & _)]); [|tauto].
  unfold c. rewrite A, D. apply takeN_all. lia.
Qed.
Print Assumptions C82_get_partial.

(* The length of a DATA reply that comes in two pieces is not waited for: the
   rest of the reply is then taken for its data and for further replies. *)
Definition cut_file : bytes := [65] ++ wire (r_status 3 1) ++ wire (r_status 9 0).
Definition cut_qs := [q_stat 0 [97]; q_open 1 [97] 1; q_read 2 [7] 0; q_read 3 [7] 2; q_close 4 [7]].
Definition cut_rs := [r_attrs 0; r_handle 1 [7]; r_data 2 cut_file; r_data 3 (takeN 41 (dropN 2 cut_file)); r_status 4 0].
Definition cut_es := go 8 ++ EMove 3 false :: go 7.
Local Notation cut_run := (SFTP_Get (fair 9 [0; 0; 0; 2]) (names false) cut_es (idle 0 false table0 [] (wires cut_rs))).
Lemma cut_out : x_out cut_run = wires cut_qs. Proof. vm_compute. reflexivity. Qed.
Lemma cut_res : x_res cut_run = Some WS_SUCCESS. Proof. vm_compute. reflexivity. Qed.
Lemma cut_left : x_file cut_run = [43; 65]. Proof. vm_compute. reflexivity. Qed.
Lemma cut_gives : Forall2 (gives cut_file [7]) cut_qs cut_rs.
Proof.
  pairs; try (apply g_other; [reflexivity|discriminate|discriminate]).
  - apply g_open.
  - apply (g_data cut_file [7] 2 0 43); [reflexivity| |]; vm_compute; intuition congruence.
  - apply (g_data cut_file [7] 3 2 41); [reflexivity| |]; vm_compute; intuition congruence.
Qed.

Theorem C82_refuted : ~ C82_get (fun E _ _ _ => closes E).
Proof.
  intros H.
  pose proof (H (fair 9 [0; 0; 0; 2]) (names false) cut_file [7] cut_qs cut_rs cut_es 0 table0 [] (wires cut_rs)
                eq_refl eq_refl eq_refl eq_refl (fun p => N.le_refl p)) as K.
  cbv zeta in K.
  assert (C : conversation cut_qs cut_rs (x_out cut_run) (wires cut_rs)).
  { apply (Conversation _ _ _ _ []); [reflexivity| | |apply cut_out|rewrite app_nil_r; reflexivity];
      apply framed_all; vm_compute; reflexivity. }
  specialize (K C cut_gives). rewrite cut_left in K. discriminate K; [|exact cut_res].
  intros Q. apply in_app_or in Q. destruct Q as [Q|[Q|Q]]; [exact (go_quiet _ Q)|discriminate|exact (go_quiet _ Q)].
Qed.
Print Assumptions C82_refuted.
Theorem C82_full_refuted : ~ C82_full.
Proof. intros H. apply C82_refuted. repeat intro. eapply H; eauto. Qed.
Print Assumptions C82_full_refuted.

(* What fclose cannot write is not missed. *)
Definition get_file : bytes := [1; 2; 3].
Definition get_qs := [q_stat 0 [97]; q_open 1 [97] 1; q_read 2 [7] 0; q_read 3 [7] 2; q_read 4 [7] 3; q_close 5 [7]].
Definition get_rs := [r_attrs 0; r_handle 1 [7]; r_data 2 [1; 2]; r_data 3 [3]; r_status 4 1; r_status 5 0].
Definition full_disk : cenv := mkCenv None true true (fun _ n => n) (fun _ => 1) (fun _ => 9) [0; 0; 0; 0] 0.
Local Notation get_run E := (SFTP_Get E (names false) (go 20) (idle 0 false table0 [9; 9; 9; 9] (wires get_rs))).
Lemma get_gives : Forall2 (gives get_file [7]) get_qs get_rs.
Proof.
  pairs; try (apply g_other; [reflexivity|discriminate|discriminate]).
  - apply g_open.
  - apply (g_data get_file [7] 2 0 2); [reflexivity| |]; vm_compute; intuition congruence.
  - apply (g_data get_file [7] 3 2 1); [reflexivity| |]; vm_compute; intuition congruence.
  - apply g_eof; [reflexivity|vm_compute; congruence].
Qed.
Lemma get_talk : forall E, x_out (get_run E) = wires get_qs -> conversation get_qs get_rs (x_out (get_run E)) (wires get_rs).
Proof.
  intros E O. apply (Conversation _ _ _ _ []); [reflexivity| | |exact O|rewrite app_nil_r; reflexivity];
    apply framed_all; vm_compute; reflexivity.
Qed.

Theorem C82_refuted_close : ~ C82_get whole_lengths.
Proof.
  intros H.
  pose proof (H full_disk (names false) get_file [7] get_qs get_rs (go 20) 0 table0 [9; 9; 9; 9] (wires get_rs)
                eq_refl eq_refl eq_refl eq_refl (whole_big _ _ _ _ (go_big 20))) as K.
  cbv zeta in K.
  assert (Q : x_file (get_run full_disk) = [1]) by (vm_compute; reflexivity). rewrite Q in K.
  discriminate K; [apply get_talk; vm_compute; reflexivity|exact get_gives|apply go_quiet|vm_compute; reflexivity].
Qed.
Print Assumptions C82_refuted_close.

(* a Get of three bytes in two pieces meets the hypotheses *)
Example C82_met :
  let E := fair 9 [0; 0; 0; 0] in
  closes E /\ whole_lengths E (names false) (go 20) (get_start (names false) (idle 0 false table0 [9; 9; 9; 9] (wires get_rs))) /\
  conversation get_qs get_rs (x_out (get_run E)) (wires get_rs) /\ Forall2 (gives get_file [7]) get_qs get_rs /\
  x_res (get_run E) = Some WS_SUCCESS /\ x_file (get_run E) = get_file.
Proof.
  split; [intros p; reflexivity|]. split; [apply whole_big; apply go_big|].
  split; [apply get_talk; vm_compute; reflexivity|]. split; [exact get_gives|]. split; vm_compute; reflexivity.
Qed.

(* ---- C83: a Get that is resumed --------------------------------------- *)

Definition C83_resume (P : job -> Prop) : Prop :=
  forall F from to c es c',
  lenN F < W32 * W32 -> lenN from < 2147483000 ->
  tried P F from to c -> attempt F c (mkJob from to true) es c' ->
  x_res c' = Some WS_SUCCESS ->
  (exists p, x_file c' = takeN p F) /\
  (x_int c = false -> uninterrupted es -> x_file c' = F).
Definition C83_full : Prop := C83_resume (fun _ => True).

Theorem C83_resume_partial : C83_resume (fun j => j_resume j = true).
Proof.
  intros F from to c es c' HF Hfrom HT HA HR.
  destruct (attempt_ends F from to HF Hfrom c (mkJob from to true) es c' eq_refl eq_refl eq_refl
              (tried_ready F from to HF Hfrom c HT) HA) as (_ & H).
  destruct (H HR) as (p & A & B & D). split; [exists p; exact A|].
  intros N1 N2. rewrite A, (D N1 N2). apply takeN_all. lia.
Qed.
Print Assumptions C83_resume_partial.

(* Three Gets: one interrupted after a byte, a plain one interrupted after two,
   and one that is to go on with it. *)
Definition res_E := fair 9 [0; 0; 0; 0].
Definition res_s0 := idle 0 false table0 [] [].
Definition res_q1 := [q_stat 0 [97]; q_open 1 [97] 1; q_read 2 [7] 0; q_close 3 [7]].
Definition res_r1 := [r_attrs 0; r_handle 1 [7]; r_data 2 [1]; r_status 3 0].
Definition res_e1 := EInt :: go 13.
Definition res_s1 b := SFTP_Get res_E (names b) res_e1 (idle 0 false table0 [] (wires res_r1)).
Definition res_q2 := [q_stat 3 [97]; q_open 4 [97] 1; q_read 5 [7] 0; q_close 6 [7]].
Definition res_r2 := [r_attrs 3; r_handle 4 [7]; r_data 5 [1; 2]; r_status 6 0].
Definition res_s2 := SFTP_Get res_E (names false) res_e1
  (idle (x_req (res_s1 true)) (x_int (res_s1 true)) (x_tab (res_s1 true)) (x_file (res_s1 true)) (wires res_r2)).
Definition res_q3 n := [q_stat n [97]; q_open (n + 1) [97] 1; q_read (n + 2) [7] 1; q_read (n + 3) [7] 3; q_close (n + 4) [7]].
Definition res_r3 n := [r_attrs n; r_handle (n + 1) [7]; r_data (n + 2) [2; 3]; r_status (n + 3) 1; r_status (n + 4) 0].
Definition res_s3 n c := SFTP_Get res_E (names true) (go 16) (idle (x_req c) (x_int c) (x_tab c) (x_file c) (wires (res_r3 n))).

Lemma res_gives1 : Forall2 (gives get_file [7]) res_q1 res_r1.
Proof.
  pairs; try (apply g_other; [reflexivity|discriminate|discriminate]).
  - apply g_open.
  - apply (g_data get_file [7] 2 0 1); [reflexivity| |]; vm_compute; intuition congruence.
Qed.
Lemma res_gives2 : Forall2 (gives get_file [7]) res_q2 res_r2.
Proof.
  pairs; try (apply g_other; [reflexivity|discriminate|discriminate]).
  - apply g_open.
  - apply (g_data get_file [7] 5 0 2); [reflexivity| |]; vm_compute; intuition congruence.
Qed.
Lemma res_gives3 : forall n, Forall2 (gives get_file [7]) (res_q3 n) (res_r3 n).
Proof.
  intros n. pairs; try (apply g_other; [reflexivity|discriminate|discriminate]).
  - apply g_open.
  - apply (g_data get_file [7] (n + 2) 1 2); [reflexivity| |]; vm_compute; intuition congruence.
  - apply g_eof; [reflexivity|vm_compute; congruence].
Qed.
Lemma res_e1_big : Forall (fun e => match e with EMove n _ => 4 <= n | _ => True end) res_e1.
Proof. constructor; [exact I|apply go_big]. Qed.

Lemma res_a1 : forall b, attempt get_file res_s0 (names b) res_e1 (res_s1 b).
Proof.
  intros b. apply (Attempt get_file res_s0 (names b) res_e1 (res_s1 b) res_E (wires res_r1) [7] res_q1 res_r1 [] []).
  - reflexivity.
  - destruct b; vm_compute; discriminate.
  - intros p. reflexivity.
  - apply whole_big. exact res_e1_big.
  - apply framed_all. vm_compute. reflexivity.
  - apply framed_all. vm_compute. reflexivity.
  - exact res_gives1.
  - destruct b; vm_compute; reflexivity.
  - rewrite app_nil_r. reflexivity.
Qed.
Lemma res_a2 : attempt get_file (res_s1 true) (names false) res_e1 res_s2.
Proof.
  apply (Attempt get_file (res_s1 true) (names false) res_e1 res_s2 res_E (wires res_r2) [7] res_q2 res_r2 [] []).
  - reflexivity.
  - vm_compute. discriminate.
  - intros p. reflexivity.
  - apply whole_big. exact res_e1_big.
  - apply framed_all. vm_compute. reflexivity.
  - apply framed_all. vm_compute. reflexivity.
  - exact res_gives2.
  - vm_compute. reflexivity.
  - rewrite app_nil_r. reflexivity.
Qed.
Lemma res_a3 : forall n c, forallb framedb (res_q3 n) = true -> forallb framedb (res_r3 n) = true ->
  x_res (res_s3 n c) = Some WS_SUCCESS -> x_out (res_s3 n c) = wires (res_q3 n) ->
  attempt get_file c (names true) (go 16) (res_s3 n c).
Proof.
  intros n c Fq Fr R O.
  apply (Attempt get_file c (names true) (go 16) (res_s3 n c) res_E (wires (res_r3 n)) [7] (res_q3 n) (res_r3 n) [] []).
  - reflexivity.
  - rewrite R. discriminate.
  - intros p. reflexivity.
  - apply whole_big. apply go_big.
  - apply framed_all. exact Fq.
  - apply framed_all. exact Fr.
  - apply res_gives3.
  - rewrite app_nil_r. symmetry. exact O.
  - rewrite app_nil_r. reflexivity.
Qed.
Lemma res_none : forall P, tried P get_file [97] [98] res_s0.
Proof.
  intros P. apply Tried_none; [reflexivity|]. intros s [<-|[<-|[<-|[]]]]; discriminate.
Qed.

Theorem C83_refuted : ~ C83_full.
Proof.
  intros H.
  assert (T : tried (fun _ => True) get_file [97] [98] res_s2).
  { apply (Tried_more _ _ _ _ (res_s1 true) (names false) res_e1); [|reflexivity|reflexivity|exact I|exact res_a2].
    apply (Tried_more _ _ _ _ res_s0 (names true) res_e1); [apply res_none|reflexivity|reflexivity|exact I|apply res_a1]. }
  assert (A : attempt get_file res_s2 (names true) (go 16) (res_s3 6 res_s2))
    by (apply res_a3; vm_compute; reflexivity).
  destruct (H get_file [97] [98] res_s2 (go 16) (res_s3 6 res_s2) eq_refl eq_refl T A) as (_ & K); [vm_compute; reflexivity|].
  assert (Q : x_file (res_s3 6 res_s2) = [1; 2; 2; 3]) by (vm_compute; reflexivity).
  rewrite Q in K. discriminate K; [vm_compute; reflexivity|apply go_quiet].
Qed.
Print Assumptions C83_refuted.

(* a Get interrupted after a byte, and one that goes on with it *)
Example C83_met :
  tried (fun j => j_resume j = true) get_file [97] [98] (res_s1 true) /\ x_file (res_s1 true) = [1] /\
  attempt get_file (res_s1 true) (mkJob [97] [98] true) (go 16) (res_s3 3 (res_s1 true)) /\
  x_res (res_s3 3 (res_s1 true)) = Some WS_SUCCESS /\ x_file (res_s3 3 (res_s1 true)) = get_file.
Proof.
  split; [|split; [vm_compute; reflexivity|split; [apply res_a3; vm_compute; reflexivity|split; vm_compute; reflexivity]]].
  apply (Tried_more _ _ _ _ res_s0 (names true) res_e1); [apply res_none|reflexivity|reflexivity|reflexivity|apply res_a1].
Qed.

(* ---- C84: a Put -------------------------------------------------------- *)

Definition C84_put (side : cenv -> bytes -> list msg -> list msg -> list ev -> Prop) : Prop :=
  forall E j L h f0 f1 qs rs es req tab input,
  let c := SFTP_Put E j es (idle req false tab L input) in
  j_resume j = false -> req < W32 -> lenN L < W32 * W32 -> lenN (j_to j) < 2147483000 ->
  side E L qs rs es ->
  conversation qs rs (x_out c) input -> serves h f0 qs rs f1 ->
  uninterrupted es -> x_res c = Some WS_SUCCESS -> f1 = L.
Definition C84_full : Prop := C84_put (fun _ _ _ _ _ => True).

Lemma late_0 : forall L, late 0 L = L.
Proof. intros L. reflexivity. Qed.

Theorem C84_put_partial :
  C84_put (fun E L qs rs es => readable E (lenN L) /\ all_written qs rs /\ no_failure es).
Proof.
  intros E j L h f0 f1 qs rs es req tab input c Hres Hreq HL Hto (Hrd & Hok & Hnf) [rest Ln Fq Fr O I] S Hu HR.
  pose proof (put_final E j L h qs rs rest f0 f1 True 0 tab ltac:(lia) HL Hto Fq Fr S Hok Hrd es req false tab (0, 0) tab
                Hreq ltac:(rewrite Hres; reflexivity) ltac:(split; reflexivity) eq_refl ltac:(auto) Hnf) as K.
  cbv zeta in K. unfold wires in K. rewrite <- I in K.
  destruct (K O eq_refl HR) as (p & Lp & Q & Hp & _). specialize (Hp Logic.I). subst p. unfold sofar in Q. rewrite late_0 in Q.
  destruct Q as [Q|(Q & Z)].
  - rewrite Q. apply takeN_all. lia.
  - subst f1. destruct L; [reflexivity|]. rewrite lenN_cons in Z. lia.
Qed.
Print Assumptions C84_put_partial.

(* The handle used is the one in the reply, whole; a reply without one is
   refused (also for Get). *)
Theorem C84_handle : forall buf h, bytes_ok buf -> is32 (lenN buf) ->
  (ParseHandle buf = Some h <-> lenN h <= 256 /\ exists rest, buf = str h ++ rest).
Proof.
  intros buf h Hb Hl. unfold ParseHandle, MAX_HANDLE. split.
  - destruct (N.ltb_spec (lenN buf) 4) as [|L4]; [discriminate|].
    assert (E : exists v, buf = be32 v ++ dropN 4 buf /\ v < W32).
    { exists (be_value (takeN 4 buf)). assert (L : lenN (takeN 4 buf) = 4) by (rewrite lenN_takeN; lia).
      assert (B : bytes_ok (takeN 4 buf)) by (apply bytes_ok_takeN; exact Hb).
      rewrite be32_value by assumption. split; [symmetry; apply takeN_dropN|]. pose proof (be_value_lt buf 0 Hb ltac:(lia)) as V. unfold slice in V. exact V. }
    destruct E as (v & E & Hv). rewrite E at 1. rewrite ato32_be32 by exact Hv.
    destruct (N.ltb_spec 256 v) as [|V1]; [discriminate|]. destruct (N.ltb_spec (lenN buf) (4 + v)) as [|V2]; [discriminate|]. cbn [orb].
    intros H. injection H as <-. assert (LH : lenN (takeN v (dropN 4 buf)) = v) by (rewrite lenN_takeN, lenN_dropN; lia).
    rewrite LH. split; [exact V1|]. exists (dropN v (dropN 4 buf)). unfold str. rewrite LH, <- app_assoc, takeN_dropN. exact E.
  - intros (Lh & rest & ->). rewrite lenN_app, lenN_str. destruct (N.ltb_spec (4 + lenN h + lenN rest) 4); [lia|].
    unfold str. rewrite <- app_assoc, ato32_be32 by (unfold is32, W32; lia).
    destruct (N.ltb_spec 256 (lenN h)); [lia|]. destruct (N.ltb_spec (4 + lenN h + lenN rest) (4 + lenN h)); [lia|]. cbn [orb].
    rewrite dropN_app_exact by (rewrite lenN_be32; reflexivity). rewrite takeN_app_exact by reflexivity. reflexivity.
Qed.
Print Assumptions C84_handle.

(* What was interrupted left a beginning of the file; if it is not the whole
   file, and there was room, its length is kept for the two names. *)
Lemma save_saved : forall from to o tab, room from to tab -> saved from to o (SaveOfst from to o tab).
Proof.
  intros from to o tab (L1 & L2 & (x & Ix & Zx) & Hno). unfold SaveOfst, MAX_FILENAME.
  destruct (N.leb_spec 256 (lenN from)) as [Q|_]; [lia|]. destruct (N.leb_spec 256 (lenN to)) as [Q|_]; [lia|]. cbn [orb].
  assert (G : exists t, save_slot (mkSlot from to o) tab = Some t /\ saved from to o t).
  { induction tab as [|y tab IH]; [destruct Ix|]. cbn [save_slot].
    destruct (zero64 (o_ofst y)) eqn:Z.
    - eexists. split; [reflexivity|]. exists [], (mkSlot from to o), tab. split; [reflexivity|]. split; [reflexivity|].
      split; [reflexivity|]. split; [reflexivity|]. intros s [].
    - destruct Ix as [->|Ix]. { apply zero64_spec in Zx. congruence. }
      destruct IH as (t & E & pre & z & post & -> & S1 & S2 & S3 & S4); [exact Ix|intros s Is; apply Hno; right; exact Is|].
      rewrite E. eexists. split; [reflexivity|]. exists (y :: pre), z, post. split; [reflexivity|]. split; [exact S1|].
      split; [exact S2|]. split; [exact S3|]. intros s [<-|Is]; [apply Hno; left; reflexivity|apply S4; exact Is]. }
  destruct G as (t & E & G). rewrite E. exact G.
Qed.
Theorem C84_interrupted : forall E j L h f0 f1 qs rs es req int tab input,
  let c := SFTP_Put E j es (idle req int tab L input) in
  j_resume j = false -> req < W32 -> lenN L < W32 * W32 -> lenN (j_to j) < 2147483000 ->
  readable E (lenN L) -> all_written qs rs -> no_failure es ->
  conversation qs rs (x_out c) input -> serves h f0 qs rs f1 ->
  x_res c = Some WS_SUCCESS ->
  f1 = L \/ exists o, words o /\ f1 = takeN (offset o) L /\ (room (j_from j) (j_to j) tab -> saved (j_from j) (j_to j) o (x_tab c)).
Proof.
  intros E j L h f0 f1 qs rs es req int tab input c Hres Hreq HL Hto Hrd Hok Hnf [rest Ln Fq Fr O I] S HR.
  pose proof (put_final E j L h qs rs rest f0 f1 False 0 tab ltac:(lia) HL Hto Fq Fr S Hok Hrd es req int tab (0, 0) tab
                Hreq ltac:(rewrite Hres; reflexivity) ltac:(split; reflexivity) eq_refl ltac:(tauto) Hnf) as K.
  cbv zeta in K. unfold wires in K. rewrite <- I in K.
  destruct (K O eq_refl HR) as (p & Lp & Q & _ & T). unfold sofar in Q. rewrite late_0 in Q.
  assert (Ef : f1 = takeN p L) by (destruct Q as [Q|(Q & ->)]; [exact Q|rewrite takeN_0; exact Q]).
  destruct T as [->|(o & <- & Wo & T)]; [left; rewrite Ef; apply takeN_all; lia|].
  right. exists o. split; [exact Wo|]. split; [exact Ef|]. intros Hroom. fold c in T. rewrite T.
  apply save_saved. exact Hroom.
Qed.
Print Assumptions C84_interrupted.

Local Notation put_run E es rs := (SFTP_Put E (names false) es (idle 0 false table0 [1; 2] (wires rs))).
Definition put_qs := [q_open 0 [98] 26; q_write 1 [7] 0 [1]; q_write 2 [7] 1 [2]; q_close 3 [7]].
Definition put_rs := [r_handle 0 [7]; r_status 1 0; r_status 2 0; r_status 3 0].
(* the second WRITE is refused *)
Definition bad_rs := [r_handle 0 [7]; r_status 1 0; r_status 2 4; r_status 3 0].
(* no second WRITE is made *)
Definition less_qs := [q_open 0 [98] 26; q_write 1 [7] 0 [1]; q_close 2 [7]].
Definition less_rs := [r_handle 0 [7]; r_status 1 0; r_status 2 0].

Lemma put_talk : forall E es qs rs, length qs = length rs -> forallb framedb qs = true -> forallb framedb rs = true ->
  x_out (put_run E es rs) = wires qs -> conversation qs rs (x_out (put_run E es rs)) (wires rs).
Proof.
  intros E es qs rs Ln Fq Fr O. apply (Conversation _ _ _ _ []); [exact Ln| | |exact O|rewrite app_nil_r; reflexivity];
    apply framed_all; assumption.
Qed.
Ltac served :=
  lazymatch goal with
  | |- serves _ _ (q_open _ _ _ :: _) _ _ => apply Serves_open; [|reflexivity|reflexivity|reflexivity|reflexivity]
  | |- serves _ _ (q_write _ _ _ _ :: _) (r_status _ 0 :: _) _ =>
      apply Serves_write; [|reflexivity|reflexivity|reflexivity|apply is_status; reflexivity]
  | |- serves _ _ (q_write _ _ _ _ :: _) (r_status _ ?k :: _) _ =>
      apply (Serves_fail _ _ _ _ _ _ _ k); [|reflexivity|reflexivity|reflexivity|apply is_status; reflexivity|discriminate]
  | |- serves _ _ (q_close _ _ :: _) _ _ => apply Serves_other; [|discriminate|discriminate|reflexivity]
  | |- serves _ _ [] [] _ => apply Serves_nil
  end.
Lemma put_served : serves [7] [9; 9; 9] put_qs put_rs [1; 2].
Proof. unfold put_qs, put_rs. repeat served. Qed.
Lemma bad_served : serves [7] [9; 9; 9] put_qs bad_rs [1].
Proof. unfold put_qs, bad_rs. repeat served. Qed.
Lemma less_served : serves [7] [9; 9; 9] less_qs less_rs [1].
Proof. unfold less_qs, less_rs. repeat served. Qed.
Lemma less_written : all_written less_qs less_rs.
Proof. pairs; intros T; try discriminate T; apply is_status; reflexivity. Qed.

(* A WRITE that the server refuses ends the Put, with success. *)
Theorem C84_refuted : ~ C84_put (fun E L _ _ es => readable E (lenN L) /\ no_failure es).
Proof.
  intros H.
  pose proof (H (fair 1 []) (names false) [1; 2] [7] [9; 9; 9] [1] put_qs bad_rs (go 17) 0 table0 (wires bad_rs)
                eq_refl eq_refl eq_refl eq_refl) as K.
  cbv zeta in K. discriminate K.
  - split; [intros p _; reflexivity|apply go_well].
  - apply put_talk; vm_compute; reflexivity.
  - exact bad_served.
  - apply go_quiet.
  - vm_compute. reflexivity.
Qed.
Print Assumptions C84_refuted.
Theorem C84_full_refuted : ~ C84_full.
Proof. intros H. apply C84_refuted. repeat intro. eapply H; eauto. Qed.
Print Assumptions C84_full_refuted.

(* So does a local file that cannot be read any further. *)
Definition torn : cenv := mkCenv None true true (fun _ n => n) (fun p => p) (fun p => 1 - p) [] 0.
Theorem C84_refuted_read : ~ C84_put (fun _ _ qs rs es => all_written qs rs /\ no_failure es).
Proof.
  intros H.
  pose proof (H torn (names false) [1; 2] [7] [9; 9; 9] [1] less_qs less_rs (go 17) 0 table0 (wires less_rs)
                eq_refl eq_refl eq_refl eq_refl) as K.
  cbv zeta in K. discriminate K.
  - split; [exact less_written|apply go_well].
  - apply put_talk; vm_compute; reflexivity.
  - exact less_served.
  - apply go_quiet.
  - vm_compute. reflexivity.
Qed.
Print Assumptions C84_refuted_read.

(* And so does memory that runs out when a WRITE is made. *)
Definition fail_es := go 7 ++ EFail :: go 10.
Theorem C84_refuted_failure : ~ C84_put (fun E L qs rs _ => readable E (lenN L) /\ all_written qs rs).
Proof.
  intros H.
  pose proof (H (fair 1 []) (names false) [1; 2] [7] [9; 9; 9] [1] less_qs less_rs fail_es 0 table0 (wires less_rs)
                eq_refl eq_refl eq_refl eq_refl) as K.
  cbv zeta in K. discriminate K.
  - split; [intros p _; reflexivity|exact less_written].
  - apply put_talk; vm_compute; reflexivity.
  - exact less_served.
  - intros Q. apply in_app_or in Q. destruct Q as [Q|[Q|Q]]; [exact (go_quiet _ Q)|discriminate|exact (go_quiet _ Q)].
  - vm_compute. reflexivity.
Qed.
Print Assumptions C84_refuted_failure.

(* a Put of two bytes in two pieces meets the hypotheses *)
Example C84_met :
  readable (fair 1 []) 2 /\ all_written put_qs put_rs /\ no_failure (go 17) /\
  conversation put_qs put_rs (x_out (put_run (fair 1 []) (go 17) put_rs)) (wires put_rs) /\
  serves [7] [9; 9; 9] put_qs put_rs [1; 2] /\ x_res (put_run (fair 1 []) (go 17) put_rs) = Some WS_SUCCESS.
Proof.
  split; [intros p _; reflexivity|]. split; [pairs; intros T; try discriminate T; apply is_status; reflexivity|].
  split; [apply go_well|]. split; [apply put_talk; vm_compute; reflexivity|]. split; [exact put_served|].
  vm_compute. reflexivity.
Qed.

(* ---- C85: a Put that is resumed ---------------------------------------- *)

(* A Put that was interrupted at [o] left the remote file [takeN (offset o) L]
   and that offset in the table; then the Put is resumed. *)
Definition C85_resume (left : N -> bytes -> bytes) : Prop :=
  forall E from to L h f1 qs rs es req tab input o,
  let c := SFTP_Put E (mkJob from to true) es (idle req false tab L input) in
  saved from to o tab -> words o -> offset o < lenN L ->
  req < W32 -> lenN L < W32 * W32 -> lenN to < 2147483000 ->
  readable E (lenN L) -> all_written qs rs -> no_failure es ->
  conversation qs rs (x_out c) input -> serves h (takeN (offset o) L) qs rs f1 ->
  uninterrupted es -> x_res c = Some WS_SUCCESS -> f1 = left (offset o) L.
Definition C85_full : Prop := C85_resume (fun _ L => L).

(* The remote file is emptied first, so zeros take the place of what was there. *)
Theorem C85_resume_partial : C85_resume (fun o L => repeat 0 (N.to_nat o) ++ dropN o L).
Proof.
  intros E from to L h f1 qs rs es req tab input o c Hs Ho Hlt Hreq HL Hto Hrd Hok Hnf [rest Ln Fq Fr O I] S Hu HR.
  destruct (saved_get from to o tab Hs) as (tab' & HG).
  pose proof (put_final E (mkJob from to true) L h qs rs rest (takeN (offset o) L) f1 True (offset o) tab' ltac:(lia) HL Hto Fq Fr S Hok Hrd
                es req false tab o tab' Hreq HG Ho eq_refl ltac:(auto) Hnf) as K.
  cbv zeta in K. unfold wires in K. rewrite <- I in K.
  destruct (K O eq_refl HR) as (p & Lp & Q & Hp & _). specialize (Hp Logic.I). subst p.
  destruct Q as [Q|(Q & Z)]; [|lia]. rewrite Q. apply takeN_all. pose proof (late_len (offset o) L ltac:(lia)) as LL. unfold late in LL. unfold zeros in LL. lia.
Qed.
Print Assumptions C85_resume_partial.

Definition again_tab := [mkSlot [97] [98] (1, 0); no_slot; no_slot].
Definition again_qs := [q_open 0 [98] 26; q_write 1 [7] 1 [2]; q_close 2 [7]].
Local Notation again_run := (SFTP_Put (fair 9 []) (names true) (go 17) (idle 0 false again_tab [1; 2] (wires less_rs))).
Lemma again_talk : conversation again_qs less_rs (x_out again_run) (wires less_rs).
Proof.
  apply (Conversation _ _ _ _ []); [reflexivity| | |vm_compute; reflexivity|rewrite app_nil_r; reflexivity];
    apply framed_all; vm_compute; reflexivity.
Qed.
Lemma again_served : serves [7] [1] again_qs less_rs [0; 2].
Proof. unfold again_qs, less_rs. repeat served. Qed.
Lemma again_saved : saved [97] [98] (1, 0) again_tab.
Proof. exists [], (mkSlot [97] [98] (1, 0)), [no_slot; no_slot]. repeat split. intros s []. Qed.

Theorem C85_refuted : ~ C85_full.
Proof.
  intros H.
  pose proof (H (fair 9 []) [97] [98] [1; 2] [7] [0; 2] again_qs less_rs (go 17) 0 again_tab (wires less_rs) (1, 0)
                again_saved ltac:(split; reflexivity) eq_refl eq_refl eq_refl eq_refl) as K.
  cbv zeta in K. change (mkJob [97] [98] true) with (names true) in K. discriminate K.
  - intros p _. reflexivity.
  - pairs; intros T; try discriminate T; apply is_status; reflexivity.
  - apply go_well.
  - exact again_talk.
  - exact again_served.
  - apply go_quiet.
  - vm_compute. reflexivity.
Qed.
Print Assumptions C85_refuted.

Example C85_met :
  saved [97] [98] (1, 0) again_tab /\ conversation again_qs less_rs (x_out again_run) (wires less_rs) /\
  serves [7] (takeN 1 [1; 2]) again_qs less_rs [0; 2] /\ x_res again_run = Some WS_SUCCESS.
Proof.
  split; [exact again_saved|]. split; [exact again_talk|]. split; [exact again_served|]. vm_compute. reflexivity.
Qed.
