(* SftpListProps2.v - C93: this library's SFTP client lists a directory of this
   library's SFTP server. The server's sessions are the histories of SftpSpec.v,
   newest request first. *)
From Verif Require Import Base WireModel WireSpec WireProofs PathModel PathSpec NegoSpec ReqSpec ReqProofs OsshSpec OsshProofs
  SftpModel SftpSpec SftpProofs7 SftpProps3 SftpClientModel SftpClientSpec SftpClientProofs
  SftpListModel SftpListSpec SftpListProofs SftpListProofs2 SftpListProps.
From Coq Require Import List NArith ZArith Lia String.
Import ListNotations.
Open Scope N_scope.
Local Notation str := OsshSpec.str.
Local Notation "a ++ b" := (@app _ a b) : list_scope.

(* the server was asked what the message says *)
Definition got (ev : hev) (q : msg) : Prop := q_ty ev = m_type q /\ q_id ev = m_id q /\ q_data ev = m_body q.
(* its reply is in bytes, with at most 1 MiB of contents *)
Definition replied (ev : hev) (b : bytes) : Prop := q_reply ev = Some b /\ bytes_ok b /\ lenN b <= 1048585.

Lemma server_status : forall id code b, status_msg id code b -> bytes_ok b -> id < W32 -> code < W32 -> lenN b <= 1048585 ->
  exists m, wire m = b /\ status_of code m /\ m_id m = id /\ lenN (m_body m) <= 1048576.
Proof.
  intros id code b (cb & text & tb & lang & gb & (C1 & C2) & (tl & (T1 & T2) & ->) & (gl & (G1 & G2) & ->) & lb & ib & (L1 & L2) & (I1 & I2) & ->)
    Hb Hid Hc Lb.
  set (body := cb ++ (tl ++ text) ++ gl ++ lang) in *. exists (Msg 101 id body).
  rewrite !lenN_app in Lb. change (lenN [101]) with 1 in Lb.
  apply bytes_ok_app in Hb. destruct Hb as (B1 & Hb). apply bytes_ok_app in Hb. destruct Hb as (_ & Hb).
  apply bytes_ok_app in Hb. destruct Hb as (B2 & B3).
  assert (Lbody : 0 < lenN body) by (unfold body; rewrite lenN_app; lia).
  split; [unfold wire; cbn [m_type m_id m_body]; rewrite <- L2, <- I2, !be32_value by assumption; reflexivity|].
  split; [|split; [reflexivity|cbn [m_body]; lia]].
  split; [split; [cbn; lia|]; split; [exact Hid|]; split; [exact B3|]; cbn [m_body]; lia|].
  split; [reflexivity|]. split; [exact Hc|]. exists text, lang. cbn [m_body]. unfold body in *. clear body.
  apply bytes_ok_app in B3. destruct B3 as (D1 & B3). apply bytes_ok_app in B3. destruct B3 as (B3 & B4).
  apply bytes_ok_app in B3. destruct B3 as (D2 & _). apply bytes_ok_app in B4. destruct B4 as (D3 & _).
  unfold OsshSpec.str. rewrite <- C2, <- T2, <- G2, !be32_value by assumption. reflexivity.
Qed.

Lemma server_handle : forall id h b, handle_msg id h b -> bytes_ok b -> id < W32 -> lenN h <= 256 -> lenN b <= 1048585 ->
  exists m, wire m = b /\ handle_of id h m.
Proof.
  intros id h b (hb & (hl & (H1 & H2) & ->) & lb & ib & (L1 & L2) & (I1 & I2) & ->) Hb Hid Hh Lb.
  set (body := hl ++ h) in *. exists (Msg 102 id body).
  rewrite !lenN_app in Lb. change (lenN [102]) with 1 in Lb.
  apply bytes_ok_app in Hb. destruct Hb as (B1 & Hb). apply bytes_ok_app in Hb. destruct Hb as (_ & Hb).
  apply bytes_ok_app in Hb. destruct Hb as (B2 & B3).
  assert (Lbody : 0 < lenN body) by (unfold body; rewrite lenN_app; lia).
  split; [unfold wire; cbn [m_type m_id m_body]; rewrite <- L2, <- I2, !be32_value by assumption; reflexivity|].
  split; [split; [cbn; lia|]; split; [exact Hid|]; split; [exact B3|]; cbn [m_body]; lia|].
  split; [reflexivity|]. split; [reflexivity|]. split; [exact Hh|]. cbn [m_body]. unfold body in *. clear body.
  apply bytes_ok_app in B3. destruct B3 as (D1 & _).
  unfold OsshSpec.str. rewrite <- H2, !be32_value by assumption. reflexivity.
Qed.

Lemma got_lists : forall ev id h, got ev (Msg 12 id (str h)) -> lenN h < W32 -> lists ev h.
Proof.
  intros ev id h (T & _ & D) L. cbn [m_type m_body] in *. split; [exact T|]. split; [rewrite T; cbn; tauto|].
  exists (str h), []. split; [apply str_rel; exact L|]. rewrite app_nil_r. exact D.
Qed.

Lemma hist_tail : forall E p ev h s, hist E p (ev :: h) s -> exists s0, hist E p h s0.
Proof. intros E p ev h s H. inversion H; subst. eexists. eassumption. Qed.

(* C93: the five requests of the listing come to the server one after the
   other, the name is resolved to [p], the server opened its directory [path]
   for that, and closing succeeded. Then the client has the entries the system
   reported for that directory, all of them, in that order, each with what
   lstat() said about that file, and it sent those requests. *)
Theorem C93_together : forall E os h s evr evo ev1 ev2 evc dir p hb path d id sent b0 bh b1 b2 bc long at0,
  stat_env E -> dir_env E -> roomy_dir E ->
  hist E (path_run os) (evc :: ev2 :: ev1 :: evo :: evr :: h) s -> lenN (evc :: ev2 :: ev1 :: evo :: evr :: h) < 2 ^ 64 ->
  id < W32 -> lenN dir < 2147483648 -> p <> [] -> lenN hb <= 256 ->
  got evr (Msg 16 id (str dir)) -> got evo (Msg 11 (up id 1) (str p)) ->
  got ev1 (Msg 12 (up id 2) (str hb)) -> got ev2 (Msg 12 (up id 3) (str hb)) -> got evc (Msg 4 (up id 3) (str hb)) ->
  replied evr b0 -> replied evo bh -> replied ev1 b1 -> replied ev2 b2 -> replied evc bc ->
  name_msg id [(p, long, at0)] b0 -> opened_at path evo hb d -> status_msg (up id 3) 0 bc ->
  (forall a, In (FReaddir d, a) (q_calls ev1) ->
     r_names a <> [] /\ forall n, In n (r_names a) -> lenN path + lenN n < 255) ->
  exists cs a es new, Forall plain cs /\ path = path_of cs /\
    q_calls ev1 = (FReaddir d, a) :: new /\ r_names a = map entry_key es /\ Forall2 (entry_of cs) es new /\
    (listing_size es < 2 ^ 32 ->
     SFTP_LS dir (mkLs (b0 ++ bh ++ b1 ++ b2 ++ bc) sent id) =
     Some (es, mkLs [] (sent ++ wires [Msg 16 id (str dir); Msg 11 (up id 1) (str p); Msg 12 (up id 2) (str hb);
                                       Msg 12 (up id 3) (str hb); Msg 4 (up id 3) (str hb)]) (up id 3))).
Proof.
  intros E os h s evr evo ev1 ev2 evc dir p hb path d id sent b0 bh b1 b2 bc long at0 Se De Ro H Hn Hid Hd Hp Hh
    Gr Go G1 G2 Gc (Rr & Br & Lr) (Rov & Bo & Lo) (R1 & B1 & L1) (R2 & B2 & L2) (Rc & Bc & Lc) N0 Op Sc Sh.
  destruct (hist_tail _ _ _ _ _ H) as (s2 & H2). destruct (hist_tail _ _ _ _ _ H2) as (s1 & H1).
  pose proof (got_lists _ _ _ G1 ltac:(unfold W32; lia)) as Li1. pose proof (got_lists _ _ _ G2 ltac:(unfold W32; lia)) as Li2.
  rewrite !lenN_cons in Hn.
  assert (U : unlisted path hb d (evo :: evr :: h)) by (constructor; exact Op).
  destruct (C55_complete_partial E os ev1 _ s1 path hb d Se De Ro H1 ltac:(rewrite !lenN_cons; lia) U Li1) as
    (cs & a & es & new & Pc & Ep & Ca & Nm & F & _ & Na).
  { intros a n Ia In. destruct (Sh a Ia) as (_ & S). apply S. exact In. }
  exists cs, a, es, new. split; [exact Pc|]. split; [exact Ep|]. split; [exact Ca|]. split; [exact Nm|]. split; [exact F|].
  intros Sz.
  assert (Ne : es <> []).
  { intros ->. destruct (Sh a ltac:(rewrite Ca; left; reflexivity)) as (S & _). apply S. exact Nm. }
  destruct (Na Ne Sz) as (m & Rm & Nme). assert (m = b1) as -> by congruence.
  assert (Lv : live (opened_at path) hb d (ev1 :: evo :: evr :: h)).
  { apply L_keep; [apply L_open; exact Op|]. intros (T & _). destruct Li1 as (T' & _). congruence. }
  destruct (C55_eof E os ev2 _ s2 path hb d ev1 b1 (rev es) Se H2 ltac:(rewrite !lenN_cons; lia) Lv (or_introl eq_refl) Li1 R1 Nme Li2) as (_ & Sy).
  destruct Sy as [Sy|(m & Rm2 & S2)]; [congruence|]. assert (m = b2) as -> by congruence.
  destruct Op as (_ & (m & Rmo & Ho) & _). assert (m = bh) as -> by congruence.
  destruct Go as (_ & Io & _). destruct G1 as (_ & I1 & _). destruct G2 as (_ & I2 & _). cbn [m_id] in Io, I1, I2.
  rewrite Io in Ho. rewrite I1 in Nme. rewrite I2 in S2.
  destruct (server_names _ _ _ N0 Br Hid Lr) as (w0 & <- & W0).
  destruct (server_handle _ _ _ Ho Bo (up_lt _ _) Hh Lo) as (w1 & <- & W1).
  destruct (server_names _ _ _ Nme B1 (up_lt _ _) L1) as (w2 & <- & W2).
  destruct (server_status _ _ _ S2 B2 (up_lt _ _) eq_refl L2) as (w3 & <- & W3 & J3 & K3).
  destruct (server_status _ _ _ Sc Bc (up_lt _ _) eq_refl Lc) as (w4 & <- & W4 & _ & _).
  assert (Sv : served id p hb [rev es] 1 [w0; w1; w2; w3; w4]).
  { exists long, at0, w0, w1, [w2], w3, w4. split; [exact W0|]. split; [exact W1|]. split.
    - constructor; [|exact W2|constructor]. intros Z. apply Ne. rewrite <- (rev_involutive es), Z. reflexivity.
    - split; [exact W3|]. split; [exact J3|]. split; [exact K3|]. split; [exact W4|reflexivity]. }
  destruct (C91_served id dir p hb [rev es] 1 _ [] sent Hid Hd Hp Sv) as (qs & (rd & -> & Lrd & A) & R).
  replace (wire w0 ++ wire w1 ++ wire w2 ++ wire w3 ++ wire w4) with (wires [w0; w1; w2; w3; w4] ++ [])
    by (unfold wires; cbn [map List.concat]; rewrite !app_nil_r; reflexivity).
  rewrite R. cbn [map List.concat]. rewrite rev_involutive, app_nil_r.
  assert (rd = [Msg 12 (up id 2) (str hb); Msg 12 (up id 3) (str hb)]) as ->; [|reflexivity].
  pose proof (A 0 ltac:(lia)) as A0. pose proof (A 1 ltac:(cbn; lia)) as A1. change (lenN [rev es]) with 1 in Lrd.
  destruct rd as [|x [|y [|z rd] ] ]; [discriminate A0|discriminate A1| |].
  - cbn [N.to_nat nth_error] in A0. change (nth_error [x; y] (N.to_nat 1)) with (Some y) in A1.
    assert (x = Msg 12 (up id (2 + 0)) (str hb)) as -> by congruence. assert (y = Msg 12 (up id (2 + 1)) (str hb)) as -> by congruence.
    reflexivity.
  - exfalso. rewrite !lenN_cons in Lrd. lia.
Qed.

(* ---- the session is met --------------------------------------------------- *)

Definition both_path : bytes := ascii "/".
Definition both_qs : list msg :=
  [Msg 16 7 (str (ascii ".")); Msg 11 8 (str both_path); Msg 12 9 (str ls_hb); Msg 12 10 (str ls_hb); Msg 4 10 (str ls_hb)].
Definition both_step (x : list hev * srv) (q : msg) : list hev * srv := ls_do lsE x (m_type q, m_id q, m_body q).
Definition both_run (n : nat) : list hev * srv := fold_left both_step (firstn n both_qs) ([], srv0 (path_run [])).
Definition both_ev (n : nat) : hev := nth n (rev (fst (both_run 5))) (mkHev 0 0 [] None []).
Definition both_b (n : nat) : bytes := match q_reply (both_ev n) with Some b => b | None => [] end.

(* client and server run on each other's bytes *)
Example C93_sample :
  match SFTP_LS (ascii ".") (mkLs (List.concat (map both_b [0; 1; 2; 3; 4]%nat)) [] 7) with
  | Some (l, s) => map entry_key l = ls_names /\ l_in s = [] /\ l_out s = wires both_qs
  | None => False
  end.
Proof. vm_compute. repeat split; reflexivity. Qed.

Local Ltac both H q :=
  eapply (SftpProps3.ls_hist _ _ _ _ (m_type q) (m_id q) (m_body q) _ _ H);
  [vm_compute; repeat constructor|vm_compute; discriminate|reflexivity|vm_compute; reflexivity|eexists; eexists; split; vm_compute; reflexivity].
Local Ltac reply_by := split; [vm_compute; reflexivity|split; [apply ok_bytes; vm_compute; reflexivity|vm_compute; discriminate] ].

(* and meet what the theorem asks for *)
Example C93_met :
  (stat_env lsE /\ dir_env lsE /\ roomy_dir lsE) /\
  hist lsE (path_run []) [both_ev 4; both_ev 3; both_ev 2; both_ev 1; both_ev 0] (snd (both_run 5)) /\
  Forall2 got (map both_ev [0; 1; 2; 3; 4]%nat) both_qs /\
  Forall (fun n => replied (both_ev n) (both_b n)) [0; 1; 2; 3; 4]%nat /\
  name_msg 7 [(both_path, both_path, no_attrs)] (both_b 0) /\ opened_at both_path (both_ev 1) ls_hb 7 /\ status_msg 10 0 (both_b 4) /\
  (forall a, In (FReaddir 7, a) (q_calls (both_ev 2)) -> r_names a = ls_names).
Proof.
  split; [exact (proj1 C55_ex)|]. split.
  { replace [both_ev 4; both_ev 3; both_ev 2; both_ev 1; both_ev 0] with (fst (both_run 5)) by (vm_compute; reflexivity).
    assert (H0 : hist lsE (path_run []) (fst (both_run 0)) (snd (both_run 0))) by constructor.
    assert (H1 : hist lsE (path_run []) (fst (both_run 1)) (snd (both_run 1))) by (both H0 (Msg 16 7 (str (ascii ".")))).
    assert (H2 : hist lsE (path_run []) (fst (both_run 2)) (snd (both_run 2))) by (both H1 (Msg 11 8 (str both_path))).
    assert (H3 : hist lsE (path_run []) (fst (both_run 3)) (snd (both_run 3))) by (both H2 (Msg 12 9 (str ls_hb))).
    assert (H4 : hist lsE (path_run []) (fst (both_run 4)) (snd (both_run 4))) by (both H3 (Msg 12 10 (str ls_hb))).
    both H4 (Msg 4 10 (str ls_hb)). }
  split; [repeat constructor|].
  split; [repeat (constructor; [reply_by|]); constructor|].
  split.
  { exists (be32 1), [str both_path ++ str both_path ++ be32 0]. split; [apply u32_be32; reflexivity|]. split.
    - constructor; [|constructor]. exists (str both_path), (str both_path), (be32 0).
      split; [apply str_rel; reflexivity|]. split; [apply str_rel; reflexivity|]. split; [exact (proj1 none_wire)|reflexivity].
    - exists (be32 (5 + 18)), (be32 7). split; [apply u32_be32; reflexivity|]. split; [apply u32_be32; reflexivity|]. vm_compute. reflexivity. }
  split.
  { split; [vm_compute; reflexivity|]. split; [|split; [lia|]].
    - exists (both_b 1). split; [vm_compute; reflexivity|]. exists (str ls_hb). split; [apply str_rel; reflexivity|].
      exists (be32 (5 + 12)), (be32 8). split; [apply u32_be32; reflexivity|]. split; [apply u32_be32; reflexivity|]. vm_compute. reflexivity.
    - exists (ls_ans 7 []). split; [vm_compute; left; reflexivity|reflexivity]. }
  split.
  { exists (be32 0), (ascii "Closed File"), (str (ascii "Closed File")), (ascii "English"), (str (ascii "English")).
    split; [apply u32_be32; reflexivity|]. split; [apply str_rel; reflexivity|]. split; [apply str_rel; reflexivity|].
    exists (be32 (5 + 30)), (be32 10). split; [apply u32_be32; reflexivity|]. split; [apply u32_be32; reflexivity|]. vm_compute. reflexivity. }
  intros a Ha. vm_compute in Ha. repeat (destruct Ha as [Ha|Ha]; [try discriminate Ha; injection Ha as <-; vm_compute; reflexivity|]). destruct Ha.
Qed.

Print Assumptions C93_together.
