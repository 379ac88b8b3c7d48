(* SftpProps.v - C49 to C52: handles, descriptors, reads and writes of the SFTP
   server. A history [h] has the last request first. *)
From Verif Require Import Base WireModel WireSpec PathModel PathSpec PathProofs NegoSpec ReqSpec ReqProofs.
From Verif Require Import SftpModel SftpSpec.
From Verif Require Import SftpProofs SftpProofs2 SftpProofs3 SftpProofs4 SftpProofs5 SftpProofs6.
From Coq Require Import List NArith ZArith Bool Lia String.
Import ListNotations.
Open Scope N_scope.

(* ---- C49: a handle names the file it was given out for, and only until it is
   closed ------------------------------------------------------------------- *)

(* whatever a request about a live handle makes the server do, it does to the
   descriptor this handle was given out for *)
Theorem C49_live_handle : forall E os ev h s hb fd,
  hist E (path_run os) (ev :: h) s -> lenN (ev :: h) < 2 ^ 64 ->
  live opened hb fd h -> about ev hb ->
  Forall (fun x => on_fd (fst x) fd) (q_calls ev).
Proof.
  intros E os ev h s' hb fd H Hn L A. change (2 ^ 64) with W64 in Hn. rewrite lenN_cons in Hn.
  destruct (hist_last _ _ _ _ _ (path_run_ok os) H) as (s & r & Hs & _ & Hb & Hl & Hi & D & F & Lg & An).
  assert (I : inv h s) by (eapply hst_inv; [exact Hs|lia]).
  destruct (live_file h s I hb fd L) as (e & Fe & Efd & L8 & Fd & _). rewrite <- Efd.
  destruct (about_str _ _ A Hb) as (x & P & Bh). destruct A as (At & _).
  destruct (N.eq_dec (q_ty ev) 12) as [T|T].
  - destruct (readdir_dead E _ _ _ _ _ _ _ _ _ D P T (fun _ => Fd)) as (-> & _).
    rewrite (log_same E s (q_calls ev) Lg An). constructor.
  - eapply logs_all; [|exact Lg|exact An]. eapply (about_calls E (q_ty ev) (q_id ev) (q_data ev)); try eassumption.
    cbn [In] in *. intuition congruence.
Qed.

(* the same for directories; listing one also looks at the entries *)
Theorem C49_live_dir : forall E os ev h s hb d,
  hist E (path_run os) (ev :: h) s -> lenN (ev :: h) < 2 ^ 64 ->
  live opened_dir hb d h -> about ev hb ->
  Forall (fun x => on_dir (fst x) d \/ (q_ty ev = 12 /\ exists path, fst x = FStat path true)) (q_calls ev).
Proof.
  intros E os ev h s' hb fd H Hn L A. change (2 ^ 64) with W64 in Hn. rewrite lenN_cons in Hn.
  destruct (hist_last _ _ _ _ _ (path_run_ok os) H) as (s & r & Hs & _ & Hb & Hl & Hi & D & F & Lg & An).
  assert (I : inv h s) by (eapply hst_inv; [exact Hs|lia]).
  destruct (live_dir h s I hb fd L) as (e & Fe & Efd & L8 & Fd). rewrite <- Efd.
  destruct (about_str _ _ A Hb) as (x & P & Bh). destruct A as (At & _).
  assert (K : In (q_ty ev) [4; 12] \/ In (q_ty ev) [5; 6; 8; 10]) by (cbn [In] in *; intuition congruence).
  destruct K as [K|K].
  - eapply logs_all; [|exact Lg|exact An]. eapply (dir_calls E (q_ty ev) (q_id ev) (q_data ev)); try eassumption.
  - destruct (about_dead E _ _ _ _ _ _ _ _ _ D P K Fd) as (-> & _). rewrite (log_same E s (q_calls ev) Lg An). constructor.
Qed.

(* READ, WRITE, FSTAT and FSETSTAT of anything else - a handle never given out,
   one that was closed, the handle of a directory - reach no file: nothing is
   asked of the file system, and the answer is a failure or nothing *)
Theorem C49_dead_file : forall E os ev h s hb,
  hist E (path_run os) (ev :: h) s -> lenN (ev :: h) < 2 ^ 64 ->
  (forall fd, ~ live opened hb fd h) -> about ev hb -> In (q_ty ev) [5; 6; 8; 10] ->
  q_calls ev = [] /\ (q_reply ev = None \/ exists m, q_reply ev = Some m /\ status_msg (q_id ev) 4 m).
Proof.
  intros E os ev h s' hb H Hn L A At. change (2 ^ 64) with W64 in Hn. rewrite lenN_cons in Hn.
  destruct (hist_last _ _ _ _ _ (path_run_ok os) H) as (s & r & Hs & _ & Hb & Hl & Hi & D & F & Lg & An).
  assert (I : inv h s) by (eapply hst_inv; [exact Hs|lia]).
  destruct (about_str _ _ A Hb) as (x & P & Bh).
  pose proof (dead_file h s I hb Bh L) as Fn.
  destruct (about_dead E _ _ _ _ _ _ _ _ _ D P At Fn) as (-> & R). split; [apply (log_same E s); assumption|].
  apply refused_status; assumption.
Qed.

(* likewise CLOSE and READDIR, if no reply to an OPENDIR was lost *)
Theorem C49_dead_handle : forall E os ev h s hb,
  hist E (path_run os) (ev :: h) s -> lenN (ev :: h) < 2 ^ 64 ->
  (forall fd, ~ live opened hb fd h) -> (forall d, ~ live opened_dir hb d h) ->
  (forall ev' path a, In ev' h -> In (FOpendir path, a) (q_calls ev') -> q_reply ev' <> None) ->
  about ev hb ->
  q_calls ev = [] /\ (q_reply ev = None \/ exists m, q_reply ev = Some m /\ status_msg (q_id ev) 4 m).
Proof.
  intros E os ev h s' hb H Hn L Ld R A. pose proof Hn as Hn'. change (2 ^ 64) with W64 in Hn. rewrite lenN_cons in Hn.
  destruct (hist_last _ _ _ _ _ (path_run_ok os) H) as (s & r & Hs & _ & Hb & Hl & Hi & D & F & Lg & An).
  assert (I : inv h s) by (eapply hst_inv; [exact Hs|lia]).
  destruct (about_str _ _ A Hb) as (x & P & Bh). pose proof A as (At & _).
  assert (K : In (q_ty ev) [5; 6; 8; 10] \/ q_ty ev = 4 \/ q_ty ev = 12) by (cbn [In] in *; intuition congruence).
  assert (Fd : lenN hb = 8 -> FindDir (SftpProofs.decode_t hb) (s_dirs s) = None) by (intros L8; apply (dead_dir h s I); assumption).
  destruct K as [K|[K|K]].
  - eapply C49_dead_file; eassumption.
  - pose proof (dead_file h s I hb Bh L) as Fn.
    destruct (close_dead E _ _ _ _ _ _ _ _ _ D P K Fn Fd) as (-> & Q). split; [apply (log_same E s); assumption|].
    apply refused_status; assumption.
  - destruct (readdir_dead E _ _ _ _ _ _ _ _ _ D P K Fd) as (-> & Q). split; [apply (log_same E s); assumption|]. left. exact Q.
Qed.

(* a handle that is given out was never given out before in this session *)
Theorem C49_fresh : forall E os ev h s hb m,
  hist E (path_run os) (ev :: h) s -> lenN (ev :: h) < 2 ^ 64 ->
  q_reply ev = Some m -> handle_msg (q_id ev) hb m ->
  lenN hb = 8 /\ forall ev' m', In ev' h -> q_reply ev' = Some m' -> ~ handle_msg (q_id ev') hb m'.
Proof.
  intros E os ev h s' hb m H Hn Q M. change (2 ^ 64) with W64 in Hn. rewrite lenN_cons in Hn.
  destruct (hist_last _ _ _ _ _ (path_run_ok os) H) as (s & r & Hs & _ & Hb & Hl & Hi & D & F & Lg & An).
  assert (I : inv h s) by (eapply hst_inv; [exact Hs|lia]).
  assert (K : hb = HandleIdEncode (s_next s)).
  { destruct F as [? ? ? ? O|? ? ? ? ? ? ? ? ? ? ? ? O|? ? ? ? ? ? ? ? ? ? ? ? O|? ? ? ? ? ? ? ? ? O|? ? ? ? ? ? ? ? ? O|? ? ? ? ? ? ? ? ? ? ? ? ? ? ? O|? ? ? ? ? ? ? ? ? ? ? ? ? ? O];
      try (exfalso; exact (O _ _ Q M)).
    - rewrite O in Q. assert (m = CreatePacket FTP_HANDLE (q_id ev) (HandleIdEncode (s_next s))) by congruence. subst m.
      eapply handle_fun; [exact M|apply handle_ok; exact Hi].
    - destruct O as [O|O]; [congruence|]. rewrite O in Q.
      assert (m = CreatePacket FTP_HANDLE (q_id ev) (HandleIdEncode (s_next s))) by congruence. subst m.
      eapply handle_fun; [exact M|apply handle_ok; exact Hi]. }
  subst hb. split; [apply encode_len|]. intros ev' m' In' Q' M'.
  destruct (i_given h s I _ _ _ In' Q' M') as (i & Ei & Oi & Vi).
  apply encode_inj in Ei; [subst i; lia|apply (i_next h s I)|assumption].
Qed.

(* one live handle stands for one descriptor, and for a file or a directory *)
Theorem C49_one_file : forall E os h s hb fd, hist E (path_run os) h s -> lenN h < 2 ^ 64 ->
  live opened hb fd h ->
  (forall fd', live opened hb fd' h -> fd' = fd) /\ (forall d, ~ live opened_dir hb d h).
Proof.
  intros E os h s hb fd H Hn L. change (2 ^ 64) with W64 in Hn. apply hist_hst in H; [|apply path_run_ok].
  assert (I : inv h s) by (eapply hst_inv; [exact H|lia]).
  destruct (live_file h s I hb fd L) as (e & Fe & Efd & L8 & Fd & _). split.
  - intros fd' L'. destruct (live_file h s I hb fd' L') as (e' & Fe' & Efd' & _). congruence.
  - intros d Ld. destruct (live_dir h s I hb d Ld) as (e' & Fe' & _). congruence.
Qed.

(* CLOSE closes the descriptor, once *)
Theorem C49_close : forall E os ev h s hb fd,
  hist E (path_run os) (ev :: h) s -> lenN (ev :: h) < 2 ^ 64 ->
  live opened hb fd h -> closes ev hb ->
  exists a, q_calls ev = [(FClose fd, a)] /\
   (q_reply ev = None \/ exists m, q_reply ev = Some m /\ status_msg (q_id ev) (if (0 <=? r_int a)%Z then 0 else 4) m).
Proof.
  intros E os ev h s' hb fd H Hn L (T & A). change (2 ^ 64) with W64 in Hn. rewrite lenN_cons in Hn.
  destruct (hist_last _ _ _ _ _ (path_run_ok os) H) as (s & r & Hs & _ & Hb & Hl & Hi & D & F & Lg & An).
  assert (I : inv h s) by (eapply hst_inv; [exact Hs|lia]).
  destruct (live_file h s I hb fd L) as (e & Fe & Efd & L8 & Fd & Ff). rewrite <- Efd.
  destruct (about_str _ _ A Hb) as (x & P & Bh). rewrite T in D.
  change (dispatch_t E 4 (q_id ev) (q_data ev) s) with (RecvClose_t E (q_id ev) (q_data ev) s) in D. revert D. unfold RecvClose_t. rewrite P. intros D.
  unfold MAX_HANDLE, HANDLE_ID_SZ in D. rewrite L8 in D.
  change (256 <? 8) with false in D. change (8 =? 8) with true in D. cbn [negb] in D. cbv zeta in D. unfold RecvCloseDir in D. rewrite Fd, Ff in D.
  set (s1 := set_files _ _) in D.
  assert (Q : s' = s1 /\ (q_reply ev = None \/ exists m, q_reply ev = Some m /\ status_msg (q_id ev) (if (0 <=? r_int (fs E (FClose (f_fd e) :: s_log s)))%Z then 0 else 4) m)).
  { change (s_log s1) with (FClose (f_fd e) :: s_log s) in D.
    destruct (_ <=? _)%Z; apply status_inv in D; destruct D as (-> & [->| ->]); (split; [reflexivity|]); try (left; reflexivity);
      right; eexists; (split; [reflexivity|]); apply status_ok; try assumption; reflexivity. }
  destruct Q as (-> & Q). exists (fs E (FClose (f_fd e) :: s_log s)). split; [|exact Q].
  apply (log_is E s s1 (q_calls ev) [FClose (f_fd e)]); [reflexivity|assumption|assumption].
Qed.

(* ---- C50: descriptors are bounded, used only while open, and all closed ------ *)

Lemma live_count : forall E p h s l, hst E p h s -> lenN h < W64 -> NoDup l ->
  ((forall hb, In hb l -> exists fd, live opened hb fd h) -> (Datatypes.length l <= Datatypes.length (s_files s))%nat) /\
  ((forall hb, In hb l -> exists d, live opened_dir hb d h) -> (Datatypes.length l <= Datatypes.length (s_dirs s))%nat).
Proof.
  intros E p h s l H Hn Nd. assert (I : inv h s) by (eapply hst_inv; [exact H|exact Hn]). split; intros K.
  - rewrite <- (map_length (fun e => HandleIdEncode (f_id e)) (s_files s)). apply NoDup_incl_length; [assumption|].
    intros hb Hb. destruct (K hb Hb) as (fd & L). apply (i_live h s I) in L. destruct L as (e & He & <- & _).
    apply in_map_iff. exists e. auto.
  - rewrite <- (map_length (fun e => HandleIdEncode (d_id e)) (s_dirs s)). apply NoDup_incl_length; [assumption|].
    intros hb Hb. destruct (K hb Hb) as (fd & L). apply (i_dlive h s I) in L. destruct L as (e & He & <- & _).
    apply in_map_iff. exists e. auto.
Qed.

Theorem C50_at_most_64 : forall E os h s l, hist E (path_run os) h s -> lenN h < 2 ^ 64 -> NoDup l ->
  ((forall hb, In hb l -> exists fd, live opened hb fd h) -> (Datatypes.length l <= 64)%nat) /\
  ((forall hb, In hb l -> exists d, live opened_dir hb d h) -> (Datatypes.length l <= 64)%nat).
Proof.
  intros E os h s l H Hn Nd. change (2 ^ 64) with W64 in Hn. apply hist_hst in H; [|apply path_run_ok].
  destruct (live_count E (path_run os) h s l H Hn Nd) as (A & B). destruct (hst_counts _ _ _ _ H) as (C1 & C2 & _).
  split; intros K; [specialize (A K)|specialize (B K)]; lia.
Qed.

(* with 64 files open, OPEN asks nothing of the file system and gives out nothing *)
Theorem C50_refuses_65th : forall E os ev h s l, hist E (path_run os) (ev :: h) s -> lenN (ev :: h) < 2 ^ 64 ->
  NoDup l -> Datatypes.length l = 64%nat -> (forall hb, In hb l -> exists fd, live opened hb fd h) ->
  q_ty ev = 3 ->
  q_calls ev = [] /\ forall hb m, q_reply ev = Some m -> ~ handle_msg (q_id ev) hb m.
Proof.
  intros E os ev h s' l H Hn Nd L64 K T. change (2 ^ 64) with W64 in Hn. rewrite lenN_cons in Hn.
  destruct (hist_last _ _ _ _ _ (path_run_ok os) H) as (s & r & Hs & _ & Hb & Hl & Hi & D & F & Lg & An).
  destruct (live_count E (path_run os) h s l Hs ltac:(lia) Nd) as (A & _). specialize (A K).
  assert (C : capped 0 (s_files s) = true) by (apply capped_eq; lia).
  rewrite T in D. change (dispatch_t E 3 (q_id ev) (q_data ev) s) with (RecvOpen_t E (q_id ev) (q_data ev) s) in D. revert D. unfold RecvOpen_t. rewrite C.
  intros D.
  assert (Q : s' = s /\ nohandle (q_id ev) (q_reply ev)).
  { destruct (p_str (q_data ev)) as [(path, r0)|]; [|apply triple_inv in D; destruct D as (_ & <- & <-); split; [reflexivity|apply nohandle_none]].
    destruct (clean_t E path s) as (ret, dir).
    destruct (rc_eqb ret WS_PERMISSIONS); [apply status_inv in D; destruct D as (-> & [->| ->]); (split; [reflexivity|]); [apply nohandle_none|apply nohandle_status]|].
    destruct (negb _); [apply triple_inv in D; destruct D as (_ & <- & <-); split; [reflexivity|apply nohandle_none]|].
    apply status_inv in D; destruct D as (-> & [->| ->]); (split; [reflexivity|]); [apply nohandle_none|apply nohandle_status]. }
  destruct Q as (-> & Q). split; [apply (log_same E s); assumption|]. intros hb m R. apply Q. exact R.
Qed.

(* every descriptor that is read, written, closed ... has been opened more often
   than closed until then *)
Theorem C50_only_open : forall E os h s before x after, hist E (path_run os) h s ->
  calls h = before ++ x :: after ->
  (forall fd, on_fd (fst x) fd -> (times (is_close fd) before < times (is_open fd) before)%nat) /\
  (forall d, on_dir (fst x) d -> (times (is_closedir d) before < times (is_opendir d) before)%nat).
Proof.
  intros E os h s before x after H Q. apply hist_hst in H; [|apply path_run_ok]. exact (hst_fine _ _ _ _ H before x after Q).
Qed.

(* and when the session is freed, everything that was opened has been closed,
   exactly once *)
Theorem C50_all_closed : forall E os h s, hist E (path_run os) h s ->
  let all := answered E [] (rev (s_log (SFTP_free s))) in
  exists last, all = calls h ++ last /\
  forall fd, times (is_open fd) all = times (is_close fd) all /\ times (is_opendir fd) all = times (is_closedir fd) all.
Proof.
  intros E os h s H all. apply hist_hst in H; [|apply path_run_ok].
  assert (An : calls h = answered E [] (map fst (calls h))).
  { clear all. induction H as [|h s ty id data r out s' l H0 H IH Hb Hl Hi Hp D F L A]; [reflexivity|].
    rewrite calls_cons, map_app, answered_app, app_nil_r. cbn [q_calls]. rewrite <- IH. f_equal.
    rewrite <- (hst_log _ _ _ _ H). exact A. }
  set (fin := map (fun e => FClose (f_fd e)) (s_files s) ++ map (fun e => FClosedir (d_dir e)) (s_dirs s)).
  assert (All : all = calls h ++ answered E (rev (map fst (calls h))) fin).
  { unfold all, SFTP_free. cbn [s_log]. fold fin. rewrite rev_app_distr, rev_involutive, (hst_log _ _ _ _ H), rev_involutive.
    rewrite answered_app, app_nil_r, <- An. reflexivity. }
  exists (answered E (rev (map fst (calls h))) fin). split; [exact All|]. intros fd. rewrite All, !times_app.
  destruct (hst_counts _ _ _ _ H) as (_ & _ & C3 & C4). rewrite (C3 fd), (C4 fd).
  assert (K : forall fin log, Forall (fun c => match c with FClose _ | FClosedir _ => True | _ => False end) fin ->
     times (is_open fd) (answered E log fin) = 0%nat /\ times (is_opendir fd) (answered E log fin) = 0%nat).
  { clear. induction fin as [|c fin IH]; intros log Hf; [split; reflexivity|]. inversion Hf as [|? ? Hc Hf']; subst. cbn [answered]. rewrite !times_cons.
    destruct (IH (c :: log) Hf') as (A & B). rewrite A, B. destruct c; try destruct Hc; split; reflexivity. }
  destruct (K fin (rev (map fst (calls h)))) as (K1 & K2).
  { unfold fin. apply Forall_app. split; apply Forall_forall; intros c Hc; apply in_map_iff in Hc; destruct Hc as (e & <- & _); exact Logic.I. }
  rewrite K1, K2.
  assert (J : forall l2 log, times (is_close fd) (answered E log (map (fun e => FClosedir (d_dir e)) l2)) = 0%nat /\
                             times (is_closedir fd) (answered E log (map (fun e => FClosedir (d_dir e)) l2)) = dcount fd l2).
  { clear. induction l2 as [|e l2 IH]; intros log; [split; reflexivity|]. cbn [map answered]. rewrite !times_cons, dcount_cons.
    destruct (IH (FClosedir (d_dir e) :: log)) as (A & B). rewrite A, B. split; reflexivity. }
  assert (J2 : forall l1 l2 log, times (is_close fd) (answered E log (map (fun e => FClose (f_fd e)) l1 ++ map (fun e => FClosedir (d_dir e)) l2)) = fcount fd l1 /\
     times (is_closedir fd) (answered E log (map (fun e => FClose (f_fd e)) l1 ++ map (fun e => FClosedir (d_dir e)) l2)) = dcount fd l2).
  { clear - J. induction l1 as [|e l1 IH]; intros l2 log; [apply J|]. cbn [map app answered]. rewrite !times_cons, fcount_cons.
    destruct (IH l2 (FClose (f_fd e) :: log)) as (A & B). rewrite A, B. split; reflexivity. }
  destruct (J2 (s_files s) (s_dirs s) (rev (map fst (calls h)))) as (J3 & J4). fold fin in J3, J4. rewrite J3, J4. split; lia.
Qed.

(* ---- C51: WRITE puts the bytes where the request says, and nowhere else ------- *)

Theorem C51_write : forall E os ev h s hb fd b o ob d db x,
  hist E (path_run os) (ev :: h) s -> lenN (ev :: h) < 2 ^ 64 -> live opened hb fd h ->
  q_ty ev = 6 -> q_data ev = b ++ ob ++ db ++ x -> str hb b -> u64 o ob -> str d db ->
  o + lenN d <= 2 ^ 64 -> Forall sane (q_calls ev) ->
  exists k, k <= lenN d /\
   (forall f y, effects fd (q_calls ev) f y = patch f o (takeN k d) y) /\
   (forall fd' f, fd' <> fd -> effects fd' (q_calls ev) f = f) /\
   (q_reply ev = None \/
    (exists m, q_reply ev = Some m /\ status_msg (q_id ev) 0 m /\ k = lenN d) \/
    (exists m, q_reply ev = Some m /\ status_msg (q_id ev) 4 m /\ k < lenN d /\
       exists y, In y (q_calls ev) /\ (r_int (snd y) <= 0)%Z)).
Proof.
  intros E os ev h s' hb fd b o ob d db x H Hn L T Q Sb Uo Sd Ho Sn. change (2 ^ 64) with W64 in *. rewrite lenN_cons in Hn.
  destruct (hist_last _ _ _ _ _ (path_run_ok os) H) as (s & r & Hs & _ & Hb & Hl & Hi & D & F & Lg & An).
  assert (I : inv h s) by (eapply hst_inv; [exact Hs|lia]).
  destruct (live_file h s I hb fd L) as (e & Fe & Efd & L8 & Fd & Ff). rewrite T in D.
  destruct (write_req E (q_id ev) (q_data ev) s r (q_reply ev) s' b x hb ob o db d e D Q Sb Uo Sd Hb Hl Fe Ho) as (new & ok & L2 & W & R & G).
  rewrite <- (log_is E s s' (q_calls ev) new L2 Lg An) in *.
  destruct (W Sn) as (k & K1 & K2 & K3 & K4). exists k. split; [assumption|]. split; [rewrite <- Efd; exact K2|]. split.
  - intros fd' f Nf. revert G. generalize f. clear - Nf Efd. induction (q_calls ev) as [|y l IH]; intros f G; [reflexivity|].
    inversion G as [|? ? (dd & oo & Gy) G']; subst. destruct y as (c, a). cbn [fst] in Gy. subst c. cbn [effects fold_left effect].
    destruct (Z.eqb_spec (f_fd e) fd'); [congruence|]. apply IH. assumption.
  - destruct R as [R|(m & Lm & R)]; [left; assumption|right]. destruct ok; [left|right]; eexists; (split; [exact R|]); (split; [apply status_ok; [assumption|reflexivity|assumption]|]).
    + apply K3. reflexivity.
    + apply K4. reflexivity.
Qed.

(* ---- C52: READ returns what the file holds at the place asked for ------------- *)

Theorem C52_read : forall E os ev h s hb fd b o ob n nb x,
  hist E (path_run os) (ev :: h) s -> lenN (ev :: h) < 2 ^ 64 -> live opened hb fd h ->
  q_ty ev = 5 -> q_data ev = b ++ ob ++ nb ++ x -> str hb b -> u64 o ob -> u32 n nb ->
  n <= 32768 -> Forall sane (q_calls ev) ->
  (q_calls ev = [] /\ q_reply ev = None) \/
  exists a, q_calls ev = [(FPread fd n o, a)] /\
   (q_reply ev = None \/
    exists m, q_reply ev = Some m /\
     (((r_int a < 0)%Z /\ status_msg (q_id ev) 4 m) \/
      ((0 <= r_int a)%Z /\ r_data a = [] /\ status_msg (q_id ev) 1 m) \/
      ((0 <= r_int a)%Z /\ r_data a <> [] /\ data_msg (q_id ev) (r_data a) m))).
Proof.
  intros E os ev h s' hb fd b o ob n nb x H Hn L T Q Sb Uo Un Hn2 Sn. change (2 ^ 64) with W64 in *. rewrite lenN_cons in Hn.
  destruct (hist_last _ _ _ _ _ (path_run_ok os) H) as (s & r & Hs & _ & Hb & Hl & Hi & D & F & Lg & An).
  assert (I : inv h s) by (eapply hst_inv; [exact Hs|lia]).
  destruct (live_file h s I hb fd L) as (e & Fe & Efd & L8 & Fd & Ff). rewrite T in D.
  destruct (read_req E (q_id ev) (q_data ev) s r (q_reply ev) s' b x hb ob o nb n e D Q Sb Uo Un Hb Fe) as (_ & R).
  destruct (R Hn2) as [(R1 & R2)|(R1 & R2)].
  - left. split; [|assumption]. rewrite R1 in Lg. apply (log_same E s); assumption.
  - right. rewrite Efd in *. set (c := FPread fd n o) in *. set (a := fs E (c :: s_log s)) in *.
    pose proof (log_is E s s' (q_calls ev) [c] R1 Lg An) as Qc. exists a. split; [exact Qc|].
    assert (Ls : lenN (r_data a) <= n).
    { rewrite Qc in Sn. cbn [answered] in Sn. inversion Sn; subst. assumption. }
    destruct (R2 Ls) as [(A1 & A2)|[(A1 & A2 & A3)|(A1 & A2 & A3)]].
    + apply refused_status in A2; [|assumption]. destruct A2 as [A2|(m & A2 & A3)]; [left; assumption|right]. exists m. auto.
    + destruct A3 as [A3|(m & A3 & A4)]; [left; assumption|right]. eexists. split; [exact A4|]. right. left. split; [assumption|].
      split; [destruct (r_data a); [reflexivity|rewrite lenN_cons in A2; lia]|]. apply status_ok; [assumption|reflexivity|assumption].
    + right. eexists. split; [exact A3|]. right. right. split; [assumption|]. split; [intros Z0; rewrite Z0 in A2; cbn in A2; lia|].
      apply packet_ok; [assumption|]. unfold W32. lia.
Qed.

(* more than 32768 bytes may not be asked for *)
Theorem C52_too_long : forall E os ev h s hb fd b o ob n nb x,
  hist E (path_run os) (ev :: h) s -> lenN (ev :: h) < 2 ^ 64 -> live opened hb fd h ->
  q_ty ev = 5 -> q_data ev = b ++ ob ++ nb ++ x -> str hb b -> u64 o ob -> u32 n nb ->
  32768 < n -> q_calls ev = [] /\ q_reply ev = None.
Proof.
  intros E os ev h s' hb fd b o ob n nb x H Hn L T Q Sb Uo Un Hn2. change (2 ^ 64) with W64 in *. rewrite lenN_cons in Hn.
  destruct (hist_last _ _ _ _ _ (path_run_ok os) H) as (s & r & Hs & _ & Hb & Hl & Hi & D & F & Lg & An).
  assert (I : inv h s) by (eapply hst_inv; [exact Hs|lia]).
  destruct (live_file h s I hb fd L) as (e & Fe & Efd & L8 & Fd & Ff). rewrite T in D.
  destruct (read_req E (q_id ev) (q_data ev) s r (q_reply ev) s' b x hb ob o nb n e D Q Sb Uo Un Hb Fe) as (R & _).
  destruct (R Hn2) as (R1 & R2). split; [|assumption]. rewrite R2 in Lg. apply (log_same E s); assumption.
Qed.

(* ---- a session that meets the hypotheses: OPEN, WRITE (done two bytes at a
   time), READ, CLOSE, READ ---------------------------------------------------- *)

Definition ex_ans (n : Z) (d : bytes) : ans := mkAns n d no_attrs [].
Definition ex_fs (log : list fscall) : ans :=
  match log with
  | FStat _ false :: _ => ex_ans (-1) []
  | FOpen _ _ _ :: t => ex_ans (3 + Z.of_nat (Datatypes.length t)) []
  | FPwrite _ d _ :: _ => ex_ans (Z.min 2 (Z.of_N (lenN d))) []
  | FPread _ _ _ :: _ => ex_ans 3 [7; 8; 9]
  | _ => ex_ans 0 []
  end.
Definition ex_env : senv := mkSenv ex_fs (fun _ _ => false) (fun _ _ => true) (fun n _ => Some n).
Definition ex_p := path_run [].

Definition ex_hb : bytes := [0; 0; 0; 0; 0; 0; 0; 0].
Definition ex_open : bytes := c32toa 2 ++ ascii "/f" ++ c32toa 11 ++ c32toa 0.
Definition ex_write : bytes := (c32toa 8 ++ ex_hb) ++ (c32toa 0 ++ c32toa 4294967295) ++ (c32toa 5 ++ ascii "hello") ++ [].
Definition ex_read : bytes := (c32toa 8 ++ ex_hb) ++ (c32toa 0 ++ c32toa 10) ++ c32toa 100 ++ [].
Definition ex_close : bytes := c32toa 8 ++ ex_hb.

Definition ex_step (x : list hev * srv) (r : N * N * bytes) : list hev * srv :=
  let '(h, s) := x in let '(ty, id, data) := r in
  match dispatch ex_env ty id data s with
  | Some (_, out, s') =>
      (mkHev ty id data out (answered ex_env (s_log s)
         (rev (firstn (Datatypes.length (s_log s') - Datatypes.length (s_log s)) (s_log s')))) :: h, s')
  | None => x
  end.
Definition ex_run (l : list (N * N * bytes)) : list hev * srv := fold_left ex_step l ([], srv0 ex_p).

Lemma ex_hist : forall h s ty id data h' s', hist ex_env ex_p h s ->
  bytes_ok data -> lenN data <= 65536 -> is32 id -> ex_step (h, s) (ty, id, data) = (h', s') ->
  (exists r out, dispatch ex_env ty id data s = Some (r, out, s') /\
     rev (rev (firstn (Datatypes.length (s_log s') - Datatypes.length (s_log s)) (s_log s'))) ++ s_log s = s_log s') ->
  hist ex_env ex_p h' s'.
Proof.
  intros h s ty id data h' s' H Hb Hl Hi St (r & out & D & L). unfold ex_step in St. rewrite D in St.
  assert (h' = mkHev ty id data out (answered ex_env (s_log s)
         (rev (firstn (Datatypes.length (s_log s') - Datatypes.length (s_log s)) (s_log s')))) :: h) as -> by congruence.
  eapply H_req; try eassumption. symmetry. exact L.
Qed.

Definition ex_h1 := fst (ex_run [(3, 1, ex_open)]).
Definition ex_s1 := snd (ex_run [(3, 1, ex_open)]).
Definition ex_h2 := fst (ex_run [(3, 1, ex_open); (6, 2, ex_write)]).
Definition ex_s2 := snd (ex_run [(3, 1, ex_open); (6, 2, ex_write)]).
Definition ex_h3 := fst (ex_run [(3, 1, ex_open); (6, 2, ex_write); (5, 3, ex_read)]).
Definition ex_s3 := snd (ex_run [(3, 1, ex_open); (6, 2, ex_write); (5, 3, ex_read)]).
Definition ex_h4 := fst (ex_run [(3, 1, ex_open); (6, 2, ex_write); (5, 3, ex_read); (4, 4, ex_close)]).
Definition ex_s4 := snd (ex_run [(3, 1, ex_open); (6, 2, ex_write); (5, 3, ex_read); (4, 4, ex_close)]).
Definition ex_h5 := fst (ex_run [(3, 1, ex_open); (6, 2, ex_write); (5, 3, ex_read); (4, 4, ex_close); (5, 5, ex_read)]).
Definition ex_s5 := snd (ex_run [(3, 1, ex_open); (6, 2, ex_write); (5, 3, ex_read); (4, 4, ex_close); (5, 5, ex_read)]).

Ltac ex_step_tac H ty id data :=
  eapply (ex_hist _ _ ty id data _ _ H);
  [vm_compute; repeat constructor|vm_compute; discriminate|reflexivity|vm_compute; reflexivity|eexists; eexists; split; vm_compute; reflexivity].

Example ex_session : hist ex_env (path_run []) ex_h1 ex_s1 /\ hist ex_env (path_run []) ex_h2 ex_s2 /\ hist ex_env (path_run []) ex_h3 ex_s3 /\
  hist ex_env (path_run []) ex_h4 ex_s4 /\ hist ex_env (path_run []) ex_h5 ex_s5.
Proof.
  assert (H0 : hist ex_env ex_p [] (srv0 ex_p)) by constructor.
  assert (H1 : hist ex_env ex_p ex_h1 ex_s1) by (ex_step_tac H0 3 1 ex_open).
  assert (H2 : hist ex_env ex_p ex_h2 ex_s2) by (ex_step_tac H1 6 2 ex_write).
  assert (H3 : hist ex_env ex_p ex_h3 ex_s3) by (ex_step_tac H2 5 3 ex_read).
  assert (H4 : hist ex_env ex_p ex_h4 ex_s4) by (ex_step_tac H3 4 4 ex_close).
  assert (H5 : hist ex_env ex_p ex_h5 ex_s5) by (ex_step_tac H4 5 5 ex_read).
  repeat split; assumption.
Qed.

(* the handle is live after OPEN, and WRITE, READ and CLOSE are about it; what
   they ask is what the theorems say *)
Example ex_live : live opened ex_hb 4 ex_h1.
Proof.
  apply L_open. split; [reflexivity|]. split.
  - eexists. split; [vm_compute; reflexivity|]. exists ([0; 0; 0; 8] ++ ex_hb). split.
    + exists [0; 0; 0; 8]. repeat split; reflexivity.
    + exists [0; 0; 0; 17], [0; 0; 0; 1]. repeat split; reflexivity.
  - split; [lia|]. do 4 eexists. split; [right; left; reflexivity|]. vm_compute. reflexivity.
Qed.
Example ex_about : forall ev h, In (ev :: h) [ex_h2; ex_h3; ex_h4; ex_h5] -> about ev ex_hb.
Proof.
  intros ev h H. cbn [In] in H.
  assert (K : q_data ev = [0; 0; 0; 8] ++ ex_hb ++ dropN 12 (q_data ev) /\ In (q_ty ev) [4; 5; 6; 8; 10; 12]).
  { destruct H as [H|[H|[H|[H|[] ] ] ] ]; vm_compute in H; inversion H; subst; vm_compute; tauto. }
  destruct K as (K & T). split; [exact T|]. exists ([0; 0; 0; 8] ++ ex_hb), (dropN 12 (q_data ev)). split.
  - exists [0; 0; 0; 8]. repeat split; reflexivity.
  - rewrite <- app_assoc. exact K.
Qed.
Example ex_calls :
  map q_calls ex_h5 =
  [ [];
    [(FClose 4, ex_ans 0 [])];
    [(FPread 4 100 10, ex_ans 3 [7; 8; 9])];
    [(FPwrite 4 (ascii "hello") 4294967295, ex_ans 2 []); (FPwrite 4 (ascii "llo") 4294967297, ex_ans 2 []);
     (FPwrite 4 (ascii "o") 4294967299, ex_ans 1 [])];
    [(FStat (ascii "/f") false, ex_ans (-1) []); (FOpen (ascii "/f") 66 420, ex_ans 4 [])] ].
Proof. vm_compute. reflexivity. Qed.
Example ex_sane : Forall (fun ev => Forall sane (q_calls ev)) ex_h5.
Proof. vm_compute. repeat constructor; discriminate. Qed.
Example ex_fields : u64 4294967295 (c32toa 0 ++ c32toa 4294967295) /\ str (ascii "hello") (c32toa 5 ++ ascii "hello") /\
  u64 10 (c32toa 0 ++ c32toa 10) /\ u32 100 (c32toa 100).
Proof. repeat split; try (vm_compute; reflexivity). exists (c32toa 5). repeat split; vm_compute; reflexivity. Qed.

Print Assumptions C49_live_handle.
Print Assumptions C49_live_dir.
Print Assumptions C49_dead_file.
Print Assumptions C49_dead_handle.
Print Assumptions C49_fresh.
Print Assumptions C49_one_file.
Print Assumptions C49_close.
Print Assumptions C50_at_most_64.
Print Assumptions C50_refuses_65th.
Print Assumptions C50_only_open.
Print Assumptions C50_all_closed.
Print Assumptions C51_write.
Print Assumptions C52_read.
Print Assumptions C52_too_long.
