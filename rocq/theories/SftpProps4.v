(* SftpProps4.v - C48: the SFTP server over a byte stream. *)
From Verif Require Import Base WireModel WireSpec WireProofs PathModel PathSpec PathProofs NegoSpec ReqSpec ReqProofs ReqProofs3.
From Verif Require Import SftpModel SftpProofs SftpSpec SftpSpec2 SftpProofs2 SftpProofs4 SftpProofs6 SftpProofs9 SftpProofs12.
From Coq Require Import List NArith ZArith Bool Lia String.
Import ListNotations.
Open Scope N_scope.

(* ---- C48 ---------------------------------------------------------------------------
   Whatever the peer sends, and however the transport splits what is received
   and sent and interrupts the server, the server reads and writes nothing
   outside its buffers; the requests it serves are those in the input, in order,
   one at a time, as soon as they are complete; what it sends is their replies, in
   order, each once. *)

(* At any moment of any run there is a history, so that all that is said of
   histories (C49 to C56) holds of it. [part] is what was read of the next
   request, [unsent] what is to be sent of the last reply. *)
Theorem C48_stream : forall E os input es, bytes_ok input ->
  exists c h part unsent,
    sftp_run E es (conn0 (path_run os) input) = Some c /\ hist E (path_run os) h (c_srv c) /\
    holds input (requests h) (part ++ c_in c) /\ replies h = c_out c ++ unsent /\
    lenN part <= 65545 /\
    (unsent = [] \/ part = [] /\ exists ev h' m, h = ev :: h' /\ q_reply ev = Some m /\ lenN unsent <= lenN m) /\
    (c_st c <> RDead -> forall q m, req_frame q m -> ~ is_prefix m part).
Proof.
  intros E os input es Hin.
  destruct (run_all E (path_run os) input (path_run_ok os) Hin es) as (c & h & Q & H & S). exists c, h.
  destruct (c_st c) as [got|ty id sz got|m idx|] eqn:St.
  - destruct S as (A & B & L). exists got, []. rewrite app_nil_r. split; [assumption|]. split; [assumption|]. split; [assumption|]. split; [symmetry; assumption|].
    split; [lia|]. split; [left; reflexivity|]. intros _ ((ty, id), d) m F (x & K). cbn [req_frame] in F. apply frame_len in F.
    rewrite K, lenN_app in L. lia.
  - destruct S as (hd & Hh & Hi & A & B & L & S). exists (hd ++ got), []. rewrite app_nil_r, <- app_assoc. pose proof (head_len _ _ _ _ Hh) as L9.
    split; [assumption|]. split; [assumption|]. split; [assumption|]. split; [symmetry; assumption|].
    split; [rewrite lenN_app; lia|]. split; [left; reflexivity|]. intros _ ((ty', id'), d) m F (x & K). cbn [req_frame] in F. pose proof (frame_len _ _ _ _ F) as Lm.
    assert (Ld : lenN d = sz).
    { destruct F as (lb & ib & (L1 & V1) & _ & Qm). destruct Hh as (lb' & ib' & (L1' & V1') & _ & Qh). rewrite Qm, Qh, <- !app_assoc in K.
      apply app_lenN_inj in K; [|lia]. destruct K as (<- & _). lia. }
    apply (f_equal (@lenN N)) in K. rewrite !lenN_app in K. lia.
  - destruct S as (ev & h' & -> & R & Li & O & A). exists [], (dropN idx m). split; [assumption|]. split; [assumption|]. split; [assumption|].
    split; [rewrite replies_cons, R, O, <- app_assoc, takeN_dropN; reflexivity|]. split; [cbn; lia|]. split.
    + right. split; [reflexivity|]. exists ev, h', m. split; [reflexivity|]. split; [assumption|]. rewrite lenN_dropN. lia.
    + intros _ ((ty', id'), d) m' F (x & K). cbn [req_frame] in F. apply frame_len in F. symmetry in K. apply app_eq_nil in K. destruct K as (-> & _).
      change (lenN (@nil N)) with 0 in F. lia.
  - destruct S as ((part & A & Lp & Sd) & unsent & R & U). exists part, unsent. repeat (split; [assumption|]). split; [|congruence].
    destruct U as [U|U]; [left; assumption|]. destruct Sd as [Sd|Sd]; [|right; split; assumption].
    left. rewrite Sd in R. rewrite <- (app_nil_r (replies h)) in R at 1. apply app_inv_head in R. symmetry. exact R.
Qed.

(* What is sent and what is asked of the file system does not depend on how the
   transport splits and delays: of two runs, one is ahead of the other. *)
Theorem C48_schedule : forall E os input es1 es2 c1 c2, bytes_ok input ->
  sftp_run E es1 (conn0 (path_run os) input) = Some c1 -> sftp_run E es2 (conn0 (path_run os) input) = Some c2 ->
  (is_prefix (c_out c1) (c_out c2) \/ is_prefix (c_out c2) (c_out c1)) /\
  (is_prefix (rev (s_log (c_srv c1))) (rev (s_log (c_srv c2))) \/ is_prefix (rev (s_log (c_srv c2))) (rev (s_log (c_srv c1)))).
Proof.
  intros E os input es1 es2 c1 c2 Hin R1 R2.
  assert (PP : forall (a b x y : bytes), a ++ x = b ++ y -> is_prefix a b \/ is_prefix b a).
  { induction a as [|z a IH]; intros b x y K; [left; exists b; reflexivity|]. destruct b as [|w b]; [right; eexists; reflexivity|].
    cbn [app] in K. assert (z = w /\ a ++ x = b ++ y) as (-> & K') by (split; congruence).
    destruct (IH _ _ _ K') as [(t & ->)|(t & ->)]; [left|right]; exists t; reflexivity. }
  destruct (C48_stream E os input es1 Hin) as (c1' & h1 & p1 & u1 & Q1 & H1 & A1 & O1 & _). assert (c1' = c1) by congruence. subst c1'.
  destruct (C48_stream E os input es2 Hin) as (c2' & h2 & p2 & u2 & Q2 & H2 & A2 & O2 & _). assert (c2' = c2) by congruence. subst c2'.
  rewrite (hst_log _ _ _ _ (hist_hst _ _ _ _ (path_run_ok os) H1)), (hst_log _ _ _ _ (hist_hst _ _ _ _ (path_run_ok os) H2)), !rev_involutive.
  destruct A1 as (ms1 & F1 & E1). destruct A2 as (ms2 & F2 & E2). rewrite E1 in E2.
  assert (RA : forall y h, replies (y ++ h) = replies h ++ replies y) by (intros; unfold replies; rewrite rev_app_distr, map_app, concat_app; reflexivity).
  assert (CA : forall y h, calls (y ++ h) = calls h ++ calls y) by (intros; unfold calls; rewrite rev_app_distr, map_app, concat_app; reflexivity).
  destruct (frames_cmp _ _ F1 _ _ F2 _ _ E2) as [(x & mx & Qx & _)|(x & mx & Qx & _)].
  - destruct (hist_prefix _ _ _ _ _ _ H1 H2 _ Qx) as (y & -> & _). rewrite RA, O2, <- app_assoc in O1. split.
    + eapply PP. symmetry. exact O1.
    + right. exists (map fst (calls y)). rewrite CA, map_app. reflexivity.
  - destruct (hist_prefix _ _ _ _ _ _ H2 H1 _ Qx) as (y & -> & _). rewrite RA, O1, <- app_assoc in O2. split.
    + eapply PP. exact O2.
    + left. exists (map fst (calls y)). rewrite CA, map_app. reflexivity.
Qed.

(* No request is lost: if the input is requests of 1 to 65536 bytes after the
   header and there is memory, then every run that has not failed can go on until
   all requests have been served and all replies sent, or until one without reply
   ends the session. *)
Theorem C48_complete : forall E os input es c qs, bytes_ok input -> holds input qs [] -> Forall takes qs -> roomy E ->
  sftp_run E es (conn0 (path_run os) input) = Some c -> c_st c <> RDead ->
  exists more c' h, Forall (fun e => exists n, e = IMove n false) more /\
    sftp_run E (es ++ more) (conn0 (path_run os) input) = Some c' /\ hist E (path_run os) h (c_srv c') /\
    c_out c' = replies h /\
    ((requests h = qs /\ c_in c' = [] /\ c_st c' = RHead []) \/
     (is_prefix (requests h) qs /\ exists ev h', h = ev :: h' /\ q_reply ev = None)).
Proof.
  intros E os input es c qs Hin (fr & Fr & Qi) Tk Ro R Nd. rewrite app_nil_r in Qi.
  destruct (run_all E (path_run os) input (path_run_ok os) Hin es) as (c0 & h & Q & I). assert (c0 = c) by congruence. subst c0.
  destruct (all_end E (path_run os) input (path_run_ok os) Hin qs fr Fr Qi Tk Ro c h I Nd) as (more & c' & h' & M & R' & (H' & S') & F).
  exists more, c', h'. split; [assumption|]. split; [rewrite run_app, R; assumption|]. split; [assumption|].
  destruct F as [(St & Qx)|(St & (x & Qx) & ev & h2 & -> & Rn)]; rewrite St in S'.
  - destruct S' as (A & B & _). split; [assumption|]. left. split; [assumption|]. split; [|assumption].
    cbn [app] in A. destruct (left_over input qs fr h' _ Fr Qi A) as (y & my & Qy & Fy & Qz). rewrite Qx in Qy.
    assert (y = []) as ->. { rewrite <- (app_nil_r qs) in Qy at 1. apply app_inv_head in Qy. symmetry. exact Qy. }
    inversion Fy; subst. exact Qz.
  - destruct S' as (_ & unsent & Rp & U). split.
    + destruct U as [->|(ev' & h3 & m & Qe & Rm & _)]; [rewrite app_nil_r in Rp; symmetry; assumption|]. assert (ev' = ev) by congruence. subst ev'. congruence.
    + right. split; [exists x; assumption|]. exists ev, h2. split; [reflexivity|assumption].
Qed.

(* ---- a run: STAT of "a" and an unknown request, in small pieces ---------------------- *)
Definition rn_env : senv := mkSenv (fun _ => mkAns 0 [] (mkAttrs 15 0 10 1000 1000 33188 1 2 0) []) (fun _ _ => false) (fun _ _ => true) (fun n _ => Some n).
Definition rn_q1 : bytes := c32toa 10 ++ [17] ++ c32toa 5 ++ c32toa 1 ++ ascii "a".
Definition rn_q2 : bytes := c32toa 6 ++ [99] ++ c32toa 6 ++ [1].
Definition rn_in : bytes := rn_q1 ++ rn_q2.
Example C48_ex_input : bytes_ok rn_in /\ holds rn_in [(17, 5, c32toa 1 ++ ascii "a"); (99, 6, [1])] [] /\
  Forall takes [(17, 5, c32toa 1 ++ ascii "a"); (99, 6, [1])] /\ roomy rn_env.
Proof.
  split; [vm_compute; repeat constructor|]. split; [|split; [|intros log k; reflexivity]].
  - exists [rn_q1; rn_q2]. split; [|reflexivity]. constructor; [|constructor; [|constructor]].
    + exists (c32toa 10), (c32toa 5). split; [apply u32_c32; reflexivity|]. split; [apply u32_c32; reflexivity|reflexivity].
    + exists (c32toa 6), (c32toa 6). split; [apply u32_c32; reflexivity|]. split; [apply u32_c32; reflexivity|reflexivity].
  - repeat constructor; vm_compute; discriminate.
Qed.
Definition rn_small : list io := List.concat (repeat [IMove 3 false; IStop; IMove 1 true] 40).
Example C48_ex_run :
  (match sftp_run rn_env rn_small (conn0 (path_run []) rn_in) with
   | Some c => (lenN (c_out c), c_in c, c_st c, rev (s_log (c_srv c)))
   | None => (0, [], RDead, [])
   end) = (100, [], RHead [], [FStat (ascii "/a") false]).
Proof. vm_compute. reflexivity. Qed.

Print Assumptions C48_stream.
Print Assumptions C48_schedule.
Print Assumptions C48_complete.
