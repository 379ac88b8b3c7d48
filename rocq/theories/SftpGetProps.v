(* SftpGetProps.v - C94: this library's SFTP client fetches a file from this
   library's SFTP server. The server's sessions are the histories of SftpSpec.v,
   newest request first. *)
From Verif Require Import Base WireModel WireSpec WireProofs PathModel PathSpec NegoSpec ReqSpec ReqProofs OsshSpec OsshProofs
  SftpModel SftpSpec SftpProofs7 SftpProps SftpProps2 SftpProps3 SftpClientModel SftpClientSpec SftpClientProofs SftpClientProofs2
  SftpClientProofs4 SftpClientProps SftpListProps SftpListProps2.
From Coq Require Import List NArith ZArith Lia String.
Import ListNotations.
Open Scope N_scope.
Local Notation str := OsshSpec.str.
Local Notation r_data := SftpModel.r_data.
Local Notation closes := SftpClientSpec.closes.
Local Notation "a ++ b" := (@app _ a b) : list_scope.

(* What the system returned from the file behind [fd] is in [F]: some of what is
   at that place, and nothing only at the end of [F] or if nothing was asked
   for. It may fail. *)
Definition reads_from (fd : Z) (F : bytes) (x : fscall * ans) : Prop :=
  forall n o, fst x = FPread fd n o -> (0 <= r_int (snd x))%Z ->
  exists k, r_data (snd x) = takeN k (dropN o F) /\ (o < lenN F -> 0 < n -> 0 < k).

(* a READ asks for something *)
Definition asks_some (hb : bytes) (q : msg) : Prop :=
  m_type q = 5 -> forall off, m_body q <> str hb ++ be64 off ++ be32 0.

(* ---- the server's bytes are messages --------------------------------------- *)

Lemma server_frame : forall ty id body b, frame ty id body b -> bytes_ok b -> id < W32 -> lenN b <= 1048585 -> ty < 256 -> 0 < lenN body ->
  wire (Msg ty id body) = b /\ framed (Msg ty id body).
Proof.
  intros ty id body b (lb & ib & (L1 & L2) & (I1 & I2) & ->) Hb Hid Lb Ht Hp.
  rewrite !lenN_app in Lb. apply bytes_ok_app in Hb. destruct Hb as (B1 & Hb). apply bytes_ok_app in Hb. destruct Hb as (_ & Hb).
  apply bytes_ok_app in Hb. destruct Hb as (B2 & B3). split.
  - unfold wire. cbn [m_type m_id m_body]. rewrite <- L2, <- I2, !be32_value by assumption. reflexivity.
  - split; [exact Ht|]. split; [exact Hid|]. split; [exact B3|]. cbn [m_body]. lia.
Qed.

Lemma frame_body : forall ty id body b, frame ty id body b -> bytes_ok b -> bytes_ok body.
Proof.
  intros ty id body b (lb & ib & _ & _ & ->) Hb. apply bytes_ok_app in Hb. destruct Hb as (_ & Hb). apply bytes_ok_app in Hb.
  destruct Hb as (_ & Hb). apply bytes_ok_app in Hb. exact (proj2 Hb).
Qed.

Lemma str_fun : forall s b, ReqSpec.str s b -> bytes_ok b -> b = str s.
Proof.
  intros s b (lb & (L1 & L2) & ->) Hb. apply bytes_ok_app in Hb. destruct Hb as (B & _). unfold OsshSpec.str.
  rewrite <- L2, be32_value by assumption. reflexivity.
Qed.

Lemma str_pos : forall s b, ReqSpec.str s b -> 0 < lenN b.
Proof. intros s b (lb & (L1 & _) & ->). rewrite lenN_app. lia. Qed.

Lemma server_reply : forall ty id b, reply_msg ty id b -> bytes_ok b -> id < W32 -> lenN b <= 1048585 ->
  exists m, wire m = b /\ framed m /\ m_id m = id.
Proof.
  assert (K : forall t id body b, frame t id body b -> bytes_ok b -> id < W32 -> lenN b <= 1048585 -> t < 256 -> 0 < lenN body ->
    exists m, wire m = b /\ framed m /\ m_id m = id).
  { intros t id body b Fr Hb Hid Lb Ht Hp. destruct (server_frame _ _ _ _ Fr Hb Hid Lb Ht Hp). eexists. split; [eassumption|]. split; [assumption|reflexivity]. }
  intros ty id b H Hb Hid Lb.
  destruct H as [(c & cb & tx & tb & lg & lb & (C & _) & _ & _ & Fr)|[(_ & hb & x & S & Fr)|[(_ & d & x & S & Fr)|[(_ & l & cb & bs & (C & _) & _ & Fr)|(_ & a & x & A & Fr)]]]].
  - eapply K; try eassumption; [reflexivity|]. rewrite lenN_app. lia.
  - eapply K; try eassumption; [reflexivity|]. eapply str_pos; eassumption.
  - eapply K; try eassumption; [reflexivity|]. eapply str_pos; eassumption.
  - eapply K; try eassumption; [reflexivity|]. rewrite lenN_app. lia.
  - eapply K; try eassumption; [reflexivity|]. destruct A as (fb & A). decompose [ex and] A. subst x.
    match goal with U : u32 (a_flags a) _ |- _ => destruct U as (U & _) end. rewrite lenN_app. lia.
Qed.

Lemma server_status2 : forall id code b, status_msg id code b -> bytes_ok b -> id < W32 -> code < W32 -> lenN b <= 1048585 ->
  exists m, wire m = b /\ framed m /\ m_id m = id /\ m_type m = 101 /\ status code (m_body m).
Proof.
  intros id code b S Hb Hid Hc Lb. destruct (server_status _ _ _ S Hb Hid Hc Lb) as (m & W & (Fr & T & St) & I & _).
  exists m. auto.
Qed.

(* ---- one request ------------------------------------------------------------ *)

Lemma u64_be64 : forall n, n < W32 * W32 -> u64 n (be64 n).
Proof.
  intros n H. split; [reflexivity|]. unfold be64.
  assert (A : n / W32 < W32) by (apply N.div_lt_upper_bound; [unfold W32; lia|exact H]).
  assert (B : n mod W32 < W32) by (apply N.mod_lt; unfold W32; lia).
  pose proof (N.div_mod n W32 ltac:(unfold W32; lia)) as D.
  destruct (u32_be32 _ A) as (_ & A'). destruct (u32_be32 _ B) as (_ & B').
  rewrite be_value_app, A', B', lenN_be32. change (256 ^ 4) with W32. lia.
Qed.

Lemma hist_id : forall E p ev h s, hist E p (ev :: h) s -> q_id ev < W32.
Proof. intros E p ev h s H. inversion H; subst. assumption. Qed.

(* the server answers [ev] as C82 expects it of a server that has [F] *)
Definition honest (F hb : bytes) (ev : hev) : Prop :=
  forall q b, got ev q -> replied ev b -> asks_some hb q -> exists r, wire r = b /\ framed r /\ gives F hb q r.

Lemma same_wire : forall m m' b, wire m = b -> wire m' = b -> framed m -> framed m' -> m = m'.
Proof.
  intros m m' b H H' Fm Fm'. apply framed_small in Fm, Fm'.
  destruct (wire_inj m m' [] [] Fm Fm') as (K & _); [rewrite H, H'; reflexivity|exact K].
Qed.

Lemma read_honest : forall E os ev h s hb fd F,
  hist E (path_run os) (ev :: h) s -> lenN (ev :: h) < 2 ^ 64 -> live opened hb fd h -> lenN hb < W32 ->
  Forall sane (q_calls ev) -> Forall (reads_from fd F) (q_calls ev) -> stat_env E -> q_ty ev = 5 -> honest F hb ev.
Proof.
  intros E os ev h s hb fd F H Hn L Hh Sn Rf Se T q b G (Rb & Bb & Lb) As.
  pose proof (hist_id _ _ _ _ _ H) as Hid.
  destruct (server_reply _ _ _ (C54_reply E os ev h s b Se H Rb) Bb Hid Lb) as (r & Wr & Fr & Ir).
  destruct G as (Gt & Gi & Gd). exists r. split; [exact Wr|]. split; [exact Fr|].
  split; [congruence|]. split; [congruence|]. intros Tq off n Ho Hn' Q.
  assert (n <> 0). { intros ->. exact (As Tq off Q). }
  rewrite <- Gd in Q.
  destruct (N.le_gt_cases n 32768) as [Le|Gt'].
  2:{ destruct (C52_too_long E os ev h s hb fd (str hb) off (be64 off) n (be32 n) [] H Hn L T
        ltac:(rewrite app_nil_r; exact Q) (str_rel _ Hh) (u64_be64 _ Ho) (u32_be32 _ Hn') Gt') as (_ & N0). congruence. }
  destruct (C52_read E os ev h s hb fd (str hb) off (be64 off) n (be32 n) [] H Hn L T
    ltac:(rewrite app_nil_r; exact Q) (str_rel _ Hh) (u64_be64 _ Ho) (u32_be32 _ Hn') Le Sn) as [(_ & N0)|(a & Ca & K)]; [congruence|].
  destruct K as [N0|(m & Rm & K)]; [congruence|]. assert (m = b) as -> by congruence. clear Rm.
  rewrite Ca in Rf, Sn. inversion_clear Rf as [|? ? Rf0 _]. specialize (Rf0 n off eq_refl). cbn [snd] in Rf0.
  inversion_clear Sn as [|? ? Sn0 _]. cbn [sane] in Sn0.
  destruct K as [(A1 & A2)|[(A1 & A2 & A3)|(A1 & A2 & A3)]].
  - destruct (server_status2 _ _ _ A2 Bb Hid eq_refl Lb) as (r' & W' & F' & _ & T' & S').
    rewrite (same_wire _ _ _ Wr W' Fr F'). right. split; [exact T'|]. exists 4. split; [exact S'|]. split; discriminate.
  - destruct (server_status2 _ _ _ A3 Bb Hid eq_refl Lb) as (r' & W' & F' & _ & T' & S').
    rewrite (same_wire _ _ _ Wr W' Fr F'). right. split; [exact T'|]. exists 1. split; [exact S'|]. split; [discriminate|]. intros _.
    destruct (Rf0 A1) as (k & Dk & Pk). rewrite A2 in Dk. apply N.nlt_ge. intros Lo. specialize (Pk Lo ltac:(lia)).
    apply (f_equal (@lenN N)) in Dk. rewrite lenN_takeN, lenN_dropN in Dk. change (lenN (@nil N)) with 0 in Dk. lia.
  - destruct (Rf0 A1) as (k & Dk & _). destruct A3 as (x & Sx & Fx).
    pose proof (str_fun _ _ Sx (frame_body _ _ _ _ Fx Bb)) as ->.
    destruct (server_frame _ _ _ _ Fx Bb Hid Lb eq_refl (str_pos _ _ Sx)) as (W' & F').
    rewrite (same_wire _ _ _ Wr W' Fr F'). left. split; [reflexivity|]. cbn [m_body].
    assert (Lk : lenN (r_data a) = N.min k (lenN F - off)) by (rewrite Dk, lenN_takeN, lenN_dropN; reflexivity).
    assert (0 < lenN (r_data a)). { destruct (r_data a); [congruence|]. rewrite lenN_cons. lia. }
    exists (lenN (r_data a)). split; [lia|]. split; [lia|]. f_equal.
    transitivity (takeN (lenN (r_data a)) (r_data a)); [symmetry; apply takeN_all; lia|].
    rewrite Dk at 2. rewrite takeN_takeN. f_equal. lia.
Qed.

Lemma other_honest : forall E os ev h s hb F, hist E (path_run os) (ev :: h) s -> stat_env E ->
  q_ty ev <> 3 -> q_ty ev <> 5 -> honest F hb ev.
Proof.
  intros E os ev h s hb F H Se N3 N5 q b (Gt & Gi & _) (Rb & Bb & Lb) _.
  destruct (server_reply _ _ _ (C54_reply E os ev h s b Se H Rb) Bb (hist_id _ _ _ _ _ H) Lb) as (r & Wr & Fr & Ir).
  exists r. split; [exact Wr|]. split; [exact Fr|]. apply g_other; congruence.
Qed.

Lemma open_honest : forall E p ev h s hb fd F, hist E p (ev :: h) s -> opened ev hb fd -> honest F hb ev.
Proof.
  intros E p ev h s hb fd F H (T & (m & Rm & x & Sx & Fx) & _) q b (Gt & Gi & _) (Rb & Bb & Lb) _.
  assert (m = b) as -> by congruence.
  pose proof (str_fun _ _ Sx (frame_body _ _ _ _ Fx Bb)) as ->.
  destruct (server_frame _ _ _ _ Fx Bb (hist_id _ _ _ _ _ H) Lb eq_refl (str_pos _ _ Sx)) as (W & Fr).
  eexists. split; [exact W|]. split; [exact Fr|]. split; [exact Gi|]. split; [|congruence]. intros _. left. split; reflexivity.
Qed.

Lemma live_reads : forall hb fd ev h reads, opened ev hb fd -> Forall (fun e => q_ty e = 5) reads -> live opened hb fd (reads ++ ev :: h).
Proof.
  intros hb fd ev h reads Op. induction 1 as [|e l T _ IH]; [apply L_open; exact Op|]. cbn [app].
  apply L_keep; [exact IH|]. intros (T' & _). congruence.
Qed.

Lemma reads_honest : forall E os ev h hb fd F, stat_env E -> opened ev hb fd -> lenN hb < W32 ->
  forall reads s, hist E (path_run os) (reads ++ ev :: h) s -> lenN (reads ++ ev :: h) < 2 ^ 64 ->
  Forall (fun e => q_ty e = 5 /\ Forall sane (q_calls e) /\ Forall (reads_from fd F) (q_calls e)) reads ->
  Forall (honest F hb) reads.
Proof.
  intros E os ev h hb fd F Se Op Hh. induction reads as [|e l IH]; intros s H Hn A; [constructor|].
  inversion_clear A as [|? ? (T & Sn & Rf) A']. cbn [app] in H, Hn |- *. constructor.
  - eapply read_honest; try eassumption. apply live_reads; [exact Op|]. eapply Forall_impl; [|exact A']. intros z (Tz & _). exact Tz.
  - destruct (hist_tail _ _ _ _ _ H) as (s0 & H0). eapply IH; [exact H0| |exact A']. rewrite lenN_cons in Hn. lia.
Qed.

Lemma hist_drop : forall E p l h s, hist E p (l ++ h) s -> exists s0, hist E p h s0.
Proof.
  intros E p l h. induction l as [|e l IH]; intros s H; [exists s; exact H|]. destruct (hist_tail _ _ _ _ _ H) as (s0 & H0). eapply IH; exact H0.
Qed.

Lemma all_honest : forall F hb evs qs bs, Forall (honest F hb) evs -> Forall2 got evs qs -> Forall2 replied evs bs -> Forall (asks_some hb) qs ->
  exists rs, map wire rs = bs /\ Forall framed rs /\ Forall2 (gives F hb) qs rs.
Proof.
  intros F hb evs qs bs A G. revert bs. induction G as [|ev q evs qs G1 G IH]; intros bs R S.
  - inversion R; subst. exists []. split; [reflexivity|]. split; constructor.
  - inversion R as [|? b ? bs' R1 R']; subst. inversion_clear A as [|? ? A1 A']. inversion_clear S as [|? ? S1 S'].
    destruct (IH A' _ R' S') as (rs & <- & Fr & Gv). destruct (A1 _ _ G1 R1 S1) as (r & <- & F1 & V1).
    exists (r :: rs). split; [reflexivity|]. split; constructor; assumption.
Qed.

(* C94: the server was asked for a file's attributes, to open it, to read it and
   to close it, these are the requests the client sent, and the client was given
   the replies. If what is behind the descriptor is [F] all the time and the
   client says it succeeded, then the file it wrote is [F]. [side] is assumed,
   too. *)
Definition C94_get (side : cenv -> job -> list ev -> xfer -> Prop) : Prop :=
  forall E os h s ev0 evo reads evc hb fd F qs bs rest C j es req tab file,
  let evs := ev0 :: evo :: rev reads ++ [evc] in
  let c0 := idle req false tab file (List.concat bs ++ rest) in
  let c := SFTP_Get C j es c0 in
  stat_env E ->
  hist E (path_run os) (evc :: reads ++ evo :: ev0 :: h) s -> lenN (evc :: reads ++ evo :: ev0 :: h) < 2 ^ 64 ->
  q_ty ev0 = 17 -> opened evo hb fd -> q_ty evc = 4 ->
  Forall (fun e => q_ty e = 5 /\ Forall sane (q_calls e) /\ Forall (reads_from fd F) (q_calls e)) reads ->
  Forall2 got evs qs -> Forall2 replied evs bs -> Forall framed qs -> Forall (asks_some hb) qs ->
  j_resume j = false -> req < W32 -> lenN F < W32 * W32 -> lenN (j_from j) < 2147483000 ->
  side C j es (get_start j c0) -> uninterrupted es ->
  x_out c = List.concat (map wire qs) -> x_res c = Some WS_SUCCESS -> x_file c = F.
Definition C94_full : Prop := C94_get (fun _ _ _ _ => True).

(* missing from the full statement: local files whose closing fails, and streams
   that cut the length of a DATA reply in two (C82_refuted) *)
Theorem C94_get_partial : C94_get (fun C j es c => closes C /\ whole_lengths C j es c).
Proof.
  intros E os h s ev0 evo reads evc hb fd F qs bs rest C j es req tab file evs c0 c Se H Hn T0 Op Tc Rd G R Fq As
    Hr Hq HF Hf (Hc & Hw) Hu O Res.
  destruct (hist_tail _ _ _ _ _ H) as (s1 & H1). destruct (hist_drop _ _ _ _ _ H1) as (s2 & H2). destruct (hist_tail _ _ _ _ _ H2) as (s3 & H3).
  assert (Hh : lenN hb < W32).
  { destruct Op as (_ & (m & Rm & Hm) & _). destruct (C49_fresh E os evo (ev0 :: h) s2 hb m H2) as (L8 & _); [|assumption|assumption|unfold W32; lia].
    rewrite lenN_cons, lenN_app in Hn. lia. }
  assert (A : Forall (honest F hb) evs).
  { constructor; [|constructor]; [| |apply Forall_app; split; [apply Forall_rev|constructor; [|constructor] ] ].
    - eapply other_honest; [exact H3|exact Se| |]; rewrite T0; discriminate.
    - eapply open_honest; [exact H2|exact Op].
    - eapply reads_honest; try eassumption. rewrite lenN_cons in Hn. lia.
    - eapply other_honest; [exact H|exact Se| |]; rewrite Tc; discriminate. }
  destruct (all_honest _ _ _ _ _ A G R As) as (rs & <- & Fr & Gv).
  eapply (C82_get_partial C j F hb qs rs es req tab file); try eassumption.
  - split; assumption.
  - eapply Conversation; [|exact Fq|exact Fr|exact O|reflexivity]. eapply forall2_length; exact Gv.
Qed.
Print Assumptions C94_get_partial.

(* ---- the session is met --------------------------------------------------- *)

(* a file system with one file, read two bytes at a time *)
Definition get_fs (F : bytes) (log : list fscall) : ans :=
  match log with
  | FOpen _ _ _ :: _ => ls_ans 7 []
  | FPread _ _ o :: _ => mkAns 0 (takeN 2 (dropN o F)) (mkAttrs 15 0 3 1000 1000 33188 1 2 0) []
  | _ => ls_ans 0 []
  end.
Definition getE : senv := mkSenv (get_fs get_file) (fun _ _ => false) (fun _ _ => true) (fun n _ => Some n).
Definition both_get : list msg :=
  [q_stat 0 [97]; q_open 1 [97] 1; q_read 2 ls_hb 0; q_read 3 ls_hb 2; q_read 4 ls_hb 3; q_close 5 ls_hb].
Definition get_step (x : list hev * srv) (q : msg) : list hev * srv := ls_do getE x (m_type q, m_id q, m_body q).
Definition get_serve (n : nat) : list hev * srv := fold_left get_step (firstn n both_get) ([], srv0 (path_run [])).
Definition get_ev (n : nat) : hev := nth n (rev (fst (get_serve 6))) (mkHev 0 0 [] None []).
Definition get_b (n : nat) : bytes := match q_reply (get_ev n) with Some b => b | None => [] end.
Definition get_bs : list bytes := map get_b [0; 1; 2; 3; 4; 5]%nat.
Definition get_idle : xfer := idle 0 false table0 [9; 9; 9; 9] (List.concat get_bs).
Definition get_both : xfer := SFTP_Get (fair 9 [0; 0; 0; 0]) (names false) (go 20) get_idle.

(* client and server run on each other's bytes *)
Example C94_sample : x_out get_both = List.concat (map wire both_get) /\ x_res get_both = Some WS_SUCCESS /\ x_file get_both = get_file.
Proof. vm_compute. repeat split; reflexivity. Qed.

Local Ltac both H q :=
  eapply (SftpProps3.ls_hist _ _ _ _ (m_type q) (m_id q) (m_body q) _ _ H);
  [vm_compute; repeat constructor|vm_compute; discriminate|reflexivity|vm_compute; reflexivity|eexists; eexists; split; vm_compute; reflexivity].
Local Ltac reply_by := split; [vm_compute; reflexivity|split; [apply ok_bytes; vm_compute; reflexivity|vm_compute; discriminate] ].

(* and meet what the theorem asks for *)
Example C94_met :
  stat_env getE /\
  hist getE (path_run []) (get_ev 5 :: map get_ev [4; 3; 2]%nat ++ get_ev 1 :: get_ev 0 :: []) (snd (get_serve 6)) /\
  opened (get_ev 1) ls_hb 7 /\
  Forall (fun e => q_ty e = 5 /\ Forall sane (q_calls e) /\ Forall (reads_from 7 get_file) (q_calls e)) (map get_ev [4; 3; 2]%nat) /\
  Forall2 got (map get_ev [0; 1; 2; 3; 4; 5]%nat) both_get /\ Forall2 replied (map get_ev [0; 1; 2; 3; 4; 5]%nat) get_bs /\
  Forall framed both_get /\ Forall (asks_some ls_hb) both_get /\
  closes (fair 9 [0; 0; 0; 0]) /\ whole_lengths (fair 9 [0; 0; 0; 0]) (names false) (go 20) (get_start (names false) get_idle) /\
  uninterrupted (go 20).
Proof.
  split.
  { assert (K : forall n k, stat_attrs (r_attr (ls_ans n k))) by (intros; repeat split; reflexivity).
    intros log. cbn [fs getE]. unfold get_fs. destruct log as [|c log]; [apply K|]. destruct c; try apply K. repeat split; reflexivity. }
  split.
  { replace (get_ev 5 :: map get_ev [4; 3; 2]%nat ++ get_ev 1 :: get_ev 0 :: []) with (fst (get_serve 6)) by (vm_compute; reflexivity).
    assert (H0 : hist getE (path_run []) (fst (get_serve 0)) (snd (get_serve 0))) by constructor.
    assert (H1 : hist getE (path_run []) (fst (get_serve 1)) (snd (get_serve 1))) by (both H0 (q_stat 0 [97])).
    assert (H2 : hist getE (path_run []) (fst (get_serve 2)) (snd (get_serve 2))) by (both H1 (q_open 1 [97] 1)).
    assert (H3 : hist getE (path_run []) (fst (get_serve 3)) (snd (get_serve 3))) by (both H2 (q_read 2 ls_hb 0)).
    assert (H4 : hist getE (path_run []) (fst (get_serve 4)) (snd (get_serve 4))) by (both H3 (q_read 3 ls_hb 2)).
    assert (H5 : hist getE (path_run []) (fst (get_serve 5)) (snd (get_serve 5))) by (both H4 (q_read 4 ls_hb 3)).
    both H5 (q_close 5 ls_hb). }
  split.
  { split; [vm_compute; reflexivity|]. split; [|split; [lia|]].
    - exists (get_b 1). split; [vm_compute; reflexivity|]. exists (str ls_hb). split; [apply str_rel; reflexivity|].
      exists (be32 (5 + 12)), (be32 1). split; [apply u32_be32; reflexivity|]. split; [apply u32_be32; reflexivity|]. vm_compute. reflexivity.
    - exists (ascii "/a"), 0, 420, (ls_ans 7 []). split; [vm_compute; tauto|reflexivity]. }
  split.
  { assert (K : forall ev o d, q_ty ev = 5 ->
      q_calls ev = [(FPread 7 32768 o, mkAns 0 d (mkAttrs 15 0 3 1000 1000 33188 1 2 0) [])] -> d = takeN 2 (dropN o get_file) ->
      q_ty ev = 5 /\ Forall sane (q_calls ev) /\ Forall (reads_from 7 get_file) (q_calls ev)).
    { intros ev o d T Q D. split; [exact T|]. rewrite Q. split; (constructor; [|constructor]).
      - cbn [sane SftpModel.r_data]. rewrite D, lenN_takeN. lia.
      - intros n o' Ef _. cbn [fst snd SftpModel.r_data] in *. assert (o' = o) as -> by congruence. exists 2. split; [exact D|]. intros _ _. reflexivity. }
    constructor; [|constructor; [|constructor; [|constructor] ] ];
      [apply (K _ 3 []) | apply (K _ 2 [3]) | apply (K _ 0 [1; 2])]; vm_compute; reflexivity. }
  split; [repeat constructor|]. split; [repeat (constructor; [reply_by|]); constructor|].
  split; [apply framed_all; vm_compute; reflexivity|]. split.
  { repeat (constructor; [|]); try constructor; intros T off Q; try discriminate T;
      apply (f_equal (@rev N)) in Q; rewrite !rev_app_distr in Q; discriminate Q. }
  split; [intros p; reflexivity|]. split; [apply whole_big, go_big|apply go_quiet].
Qed.

(* What fclose cannot write is not missed, whoever serves the file. *)
Theorem C94_refuted : ~ C94_get whole_lengths.
Proof.
  intros K. destruct C94_met as (Se & H & Op & Rd & G & R & Fq & As & _ & _ & Hu).
  specialize (K getE [] [] (snd (get_serve 6)) (get_ev 0) (get_ev 1) (map get_ev [4; 3; 2]%nat) (get_ev 5) ls_hb 7%Z get_file both_get get_bs []
    full_disk (names false) (go 20) 0 table0 [9; 9; 9; 9]). rewrite app_nil_r in K. cbv zeta in K.
  specialize (K Se H eq_refl ltac:(vm_compute; reflexivity) Op ltac:(vm_compute; reflexivity) Rd G R Fq As eq_refl eq_refl eq_refl eq_refl
    (whole_big _ _ _ _ (go_big 20)) Hu ltac:(vm_compute; reflexivity) ltac:(vm_compute; reflexivity)).
  vm_compute in K. discriminate K.
Qed.
Print Assumptions C94_refuted.
Theorem C94_full_refuted : ~ C94_full.
Proof. intros H. apply C94_refuted. repeat intro. eapply H; eauto. Qed.
Print Assumptions C94_full_refuted.
