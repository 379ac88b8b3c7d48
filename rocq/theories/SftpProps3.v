(* SftpProps3.v - C55 (listing directories) and C30 over whole sessions of the
   SFTP server. *)
From Verif Require Import Base WireModel WireSpec WireProofs PathModel PathSpec PathProofs NegoSpec ReqSpec ReqProofs ReqProofs3.
From Verif Require Import SftpModel SftpProofs SftpSpec SftpProofs2 SftpProofs3 SftpProofs4 SftpProofs5 SftpProofs6 SftpProofs7 SftpProofs8 SftpProofs9 SftpProofs10 SftpProofs11.
From Coq Require Import List NArith ZArith Bool Lia String.
Import ListNotations.
Open Scope N_scope.

(* The server, the entry behind a handle and what READDIR does with it. *)
Local Lemma at_entry : forall E os ev h s' hb (en : srv -> dent -> Prop), stat_env E ->
  hist E (path_run os) (ev :: h) s' -> lenN (ev :: h) < 2 ^ 64 -> lists ev hb ->
  (forall s, inv h s -> dinv h s -> exists e, In e (s_dirs s) /\ HandleIdEncode (d_id e) = hb /\ en s e) ->
  exists s e, inv h s /\ dinv h s /\ In e (s_dirs s) /\ HandleIdEncode (d_id e) = hb /\ en s e /\ paths_ok (s_paths s) /\ is32 (q_id ev) /\
   placed (path_run os) e /\
  (d_eof e = true -> q_calls ev = [] /\ (q_reply ev = None \/ q_reply ev = Some (eof_msg (q_id ev)))) /\
  (d_eof e = false -> exists a es left new extra,
     q_calls ev = (FReaddir (d_dir e), a) :: new ++ extra /\ r_names a = map entry_key es ++ left /\ (exists lg, a = fs E lg) /\
     Forall2 (made E (s_paths s) (d_name e)) es new /\
     (roomy_dir E -> (forall n, In n (r_names a) -> readdir_path (s_paths s) (d_name e) n <> None) -> left = [] /\ extra = []) /\
     (es = [] -> (q_reply ev = None \/ q_reply ev = Some (eof_msg (q_id ev))) /\ (roomy E -> q_reply ev <> None)) /\
     (es <> [] -> (forall m, q_reply ev = Some m -> name_msg (q_id ev) (rev es) m) /\ (roomy E -> listing_size es < W32 -> q_reply ev <> None))).
Proof.
  intros E os ev h s' hb en Se H Hn (T & A) En. change (2 ^ 64) with W64 in *. rewrite lenN_cons in Hn.
  destruct (hist_last _ _ _ _ _ (path_run_ok os) H) as (s & r & Hs & Hh & Hb & Hl & Hi & D & F & Lg & An). clear F.
  assert (I : inv h s) by (eapply hst_inv; [exact Hs|lia]).
  assert (J : dinv h s) by (eapply hst_dinv; [exact Hs|lia]).
  destruct (En s I J) as (e & He & Q & Ke). exists s, e. do 5 (split; [assumption|]).
  split; [eapply hist_paths; [apply path_run_ok|exact Hh]|]. split; [assumption|].
  split; [pose proof (hst_placed _ _ _ _ Hs) as K; rewrite Forall_forall in K; apply K; assumption|].
  destruct (find_entry h s e I He) as (Fe & L8). rewrite Q in Fe, L8.
  destruct (about_str ev hb A Hb) as (x & P & _). rewrite T in D.
  exact (readdir_done _ _ _ _ _ _ _ _ _ _ _ D P L8 Fe Se Hi Lg An).
Qed.

Local Lemma eof_is : forall id, is32 id -> status_msg id 1 (eof_msg id).
Proof. intros id H. exact (status_ok id 1 (ascii "No More Files In Directory") H eq_refl eq_refl). Qed.
Local Lemma eof_says : forall ev, is32 (q_id ev) -> q_reply ev = None \/ q_reply ev = Some (eof_msg (q_id ev)) -> says ev 1.
Proof. intros ev Hi [K|K]; [left; assumption|right]. eexists. split; [exact K|]. apply eof_is. assumption. Qed.

Local Lemma made_of : forall E p cs es new, paths_ok p -> Forall plain cs -> Forall entry_name (map entry_key es) ->
  Forall2 (made E p (path_of cs)) es new -> Forall2 (entry_of cs) es new.
Proof.
  intros E p cs es new Hp Hc Hn H. induction H as [|((n, t), a) x es new M H IH]; [constructor|].
  cbn [map entry_key fst] in Hn. inversion Hn as [|? ? N1 N2]; subst. constructor; [|apply IH; assumption].
  destruct M as ((q & Rq & Fq) & Ma & _). destruct (readdir_spec _ _ _ _ Hp Hc N1 Rq) as (-> & _). split; assumption.
Qed.

(* ---- C55: listing directories ----------------------------------------------------
   A READDIR on a handle that was given out for a directory is answered with the
   entries the system reports for that directory, each once, with the attributes
   of the file it names; once they have been sent, with EOF. *)

(* Nothing else than that is ever sent: the names sent are the first ones the
   system returned, each with what lstat() said about that name in that
   directory. *)
Theorem C55_sound : forall E os ev h s path hb d m, stat_env E -> dir_env E ->
  hist E (path_run os) (ev :: h) s -> lenN (ev :: h) < 2 ^ 64 -> live (opened_at path) hb d h ->
  lists ev hb -> q_reply ev = Some m ->
  status_msg (q_id ev) 1 m \/
  exists cs a es left new extra, Forall plain cs /\ path = path_of cs /\
    q_calls ev = (FReaddir d, a) :: new ++ extra /\ r_names a = map entry_key es ++ left /\
    Forall2 (entry_of cs) es new /\ name_msg (q_id ev) (rev es) m.
Proof.
  intros E os ev h s' path hb d m Se De H Hn L Li R.
  destruct (at_entry E os ev h s' hb (fun s e => d_dir e = d /\ d_name e = path) Se H Hn Li) as (s & e & I & J & He & Q & (K1 & K2) & Hp & Hi & Pl & O1 & O2).
  { intros s I J. destruct (j_at h s J _ _ _ L) as (e & He & Q & K). exists e. auto. }
  destruct (d_eof e); [destruct (O1 eq_refl) as (_ & [O|O]); [congruence|] | destruct (O2 eq_refl) as (a & es & left & new & extra & C1 & C2 & (lg & C3) & C4 & _ & C6 & C7)].
  - left. assert (m = eof_msg (q_id ev)) as -> by congruence. apply eof_is. assumption.
  - destruct Pl as (cs & Pc & Nm & _). destruct es as [|e1 es].
    + left. destruct (C6 eq_refl) as ([O|O] & _); [congruence|]. assert (m = eof_msg (q_id ev)) as -> by congruence. apply eof_is. assumption.
    + right. exists cs, a, (e1 :: es), left, new, extra. split; [assumption|]. split; [congruence|]. split; [rewrite C1, K1; reflexivity|]. split; [assumption|].
      split; [|apply C7; [discriminate|assumption]]. rewrite Nm in C4. eapply made_of; try eassumption.
      pose proof (De lg) as K. rewrite <- C3, C2, Forall_app in K. apply K.
Qed.

(* Everything the system reports is sent by the first READDIR. *)
Definition all_listed (E : senv) (ev : hev) (path : bytes) (d : Z) : Prop :=
  exists cs a es new, Forall plain cs /\ path = path_of cs /\
    q_calls ev = (FReaddir d, a) :: new /\ r_names a = map entry_key es /\ Forall2 (entry_of cs) es new /\
    (es = [] -> exists m, q_reply ev = Some m /\ status_msg (q_id ev) 1 m) /\
    (es <> [] -> listing_size es < 2 ^ 32 -> exists m, q_reply ev = Some m /\ name_msg (q_id ev) (rev es) m).
Definition C55_full : Prop := forall E os ev h s path hb d, stat_env E -> dir_env E -> roomy_dir E ->
  hist E (path_run os) (ev :: h) s -> lenN (ev :: h) < 2 ^ 64 -> unlisted path hb d h -> lists ev hb ->
  all_listed E ev path d.

(* It holds if the directory's path and each name are shorter than 255 bytes
   together. *)
Theorem C55_complete_partial : forall E os ev h s path hb d, stat_env E -> dir_env E -> roomy_dir E ->
  hist E (path_run os) (ev :: h) s -> lenN (ev :: h) < 2 ^ 64 -> unlisted path hb d h -> lists ev hb ->
  (forall a n, In (FReaddir d, a) (q_calls ev) -> In n (r_names a) -> lenN path + lenN n < 255) ->
  all_listed E ev path d.
Proof.
  intros E os ev h s' path hb d Se De Ro H Hn U Li Sh.
  destruct (at_entry E os ev h s' hb (fun s e => d_dir e = d /\ d_name e = path /\ d_eof e = false) Se H Hn Li) as (s & e & I & J & He & Q & (K1 & K2 & K3) & Hp & Hi & Pl & _ & O2).
  { intros s I J. destruct (j_un h s J _ _ _ U) as (e & He & Q & K). exists e. auto. }
  destruct (O2 K3) as (a & es & left & new & extra & C1 & C2 & (lg & C3) & C4 & C5 & C6 & C7). clear O2.
  destruct Pl as (cs & Pc & Nm & _).
  assert (Hne : Forall entry_name (r_names a)) by (rewrite C3; apply De).
  assert (Q1 : d_name e = path_of cs /\ path = path_of cs) by (split; congruence). destruct Q1 as (Q1 & Q2).
  destruct C5 as (-> & ->); [assumption| |].
  { intros n Hin. rewrite Q1. rewrite (readdir_complete (s_paths s) cs n); try assumption; [discriminate| |].
    - rewrite Forall_forall in Hne. apply Hne. assumption.
    - rewrite <- Q2. assert (lenN path + lenN n < 255); [|lia]. apply (Sh a n); [|assumption]. rewrite C1, K1. left. reflexivity. }
  rewrite !app_nil_r in *. exists cs, a, es, new. split; [assumption|]. split; [assumption|]. split; [rewrite C1, K1; reflexivity|].
  split; [assumption|]. split; [rewrite Q1 in C4; eapply made_of; try eassumption; rewrite <- C2; assumption|]. destruct Ro as (Ro & _). split.
  - intros Z. destruct (C6 Z) as ([O|O] & Ne); [contradiction (Ne Ro)|]. eexists. split; [exact O|]. apply eof_is. assumption.
  - intros Z Lt. destruct (C7 Z) as (M & Ne). destruct (q_reply ev) as [m|]; [|exfalso; apply (Ne Ro Lt); reflexivity]. exists m. split; [reflexivity|]. apply M. reflexivity.
Qed.

(* Once a READDIR on a handle has been answered with names, EOF follows. *)
Theorem C55_eof : forall E os ev h s path hb d ev0 m l, stat_env E ->
  hist E (path_run os) (ev :: h) s -> lenN (ev :: h) < 2 ^ 64 -> live (opened_at path) hb d h ->
  In ev0 h -> lists ev0 hb -> q_reply ev0 = Some m -> name_msg (q_id ev0) l m -> lists ev hb ->
  q_calls ev = [] /\ says ev 1.
Proof.
  intros E os ev h s' path hb d ev0 m l Se H Hn L I0 L0 R0 M0 Li.
  destruct (at_entry E os ev h s' hb (fun s e => d_eof e = true) Se H Hn Li) as (s & e & I & J & He & Q & K & Hp & Hi & Pl & O1 & _).
  { intros s I J. destruct (j_at h s J _ _ _ L) as (e & He & Q & _). exists e. split; [assumption|]. split; [assumption|].
    destruct (j_eof h s J _ _ _ _ I0 L0 R0 M0) as (_ & K). apply K; assumption. }
  destruct (O1 K) as (C & O). split; [assumption|]. apply eof_says; assumption.
Qed.

(* ---- a session: OPENDIR, READDIR, READDIR ------------------------------------------ *)
Definition ls_ans (n : Z) (l : list bytes) : ans := mkAns n [] (mkAttrs 15 0 10 1000 1000 33188 1 2 0) l.
(* a file system with one directory of the entries [l] *)
Definition ls_fs (l : list bytes) (log : list fscall) : ans :=
  match log with
  | FOpendir _ :: _ => ls_ans 7 []
  | FReaddir _ :: _ => ls_ans 0 l
  | _ => ls_ans 0 []
  end.
Definition ls_env (l : list bytes) : senv := mkSenv (ls_fs l) (fun _ _ => false) (fun _ _ => true) (fun n _ => Some n).
Definition ls_hb : bytes := [0; 0; 0; 0; 0; 0; 0; 0].
Definition ls_dir (path : bytes) : bytes := (c32toa (lenN path) ++ path) ++ [].
Definition ls_list : bytes := (c32toa 8 ++ ls_hb) ++ [].
Definition ls_do (E : senv) (x : list hev * srv) (r : N * N * bytes) : list hev * srv :=
  let '(h, s) := x in let '(ty, id, data) := r in
  match dispatch E ty id data s with
  | Some (_, out, s') =>
      (mkHev ty id data out (answered E (s_log s)
         (rev (firstn (Datatypes.length (s_log s') - Datatypes.length (s_log s)) (s_log s')))) :: h, s')
  | None => x
  end.
Definition ls_run (E : senv) (os : list path_set) (path : bytes) (n : nat) : list hev * srv :=
  fold_left (ls_do E) (firstn n [(11, 1, ls_dir path); (12, 2, ls_list); (12, 3, ls_list)]) ([], srv0 (path_run os)).

Local Lemma ls_hist : forall E p h s ty id data h' s', hist E p h s ->
  bytes_ok data -> lenN data <= 65536 -> is32 id -> ls_do E (h, s) (ty, id, data) = (h', s') ->
  (exists r out, dispatch E ty id data s = Some (r, out, s') /\
     rev (rev (firstn (Datatypes.length (s_log s') - Datatypes.length (s_log s)) (s_log s'))) ++ s_log s = s_log s') ->
  hist E p h' s'.
Proof.
  intros E p h s ty id data h' s' H Hb Hl Hi St (r & out & D & L). unfold ls_do in St. rewrite D in St.
  assert (h' = mkHev ty id data out (answered E (s_log s)
         (rev (firstn (Datatypes.length (s_log s') - Datatypes.length (s_log s)) (s_log s')))) :: h) as -> by congruence.
  eapply H_req; try eassumption. symmetry. exact L.
Qed.
Local Ltac ls_step H ty id data :=
  eapply (ls_hist _ _ _ _ ty id data _ _ H);
  [vm_compute; repeat constructor|vm_compute; discriminate|reflexivity|vm_compute; reflexivity|eexists; eexists; split; vm_compute; reflexivity].

Local Lemma ls_envs : forall l, Forall entry_name l -> stat_env (ls_env l) /\ dir_env (ls_env l) /\ roomy_dir (ls_env l).
Proof.
  intros l Hl. assert (K : forall n k, stat_attrs (r_attr (ls_ans n k))) by (intros; repeat split; reflexivity). split; [|split; [|split]].
  - intros log. cbn [fs ls_env]. unfold ls_fs. destruct log as [|c log]; [apply K|]. destruct c; apply K.
  - intros log. cbn [fs ls_env]. unfold ls_fs. destruct log as [|c log]; [constructor|]. destruct c; try constructor; assumption.
  - intros log k. reflexivity.
  - intros n a. discriminate.
Qed.

Local Lemma ls_opened : forall l os path q h s, ls_run (ls_env l) os path 1 = (h, s) ->
  h = [mkHev 11 1 (ls_dir path) (Some (CreatePacket FTP_HANDLE 1 ls_hb)) [(FOpendir q, ls_ans 7 [])]] ->
  unlisted q ls_hb 7 h.
Proof.
  intros l os path q h s _ ->. constructor. split; [reflexivity|]. split; [|split; [lia|]].
  - eexists. split; [reflexivity|]. apply (handle_ok 1 (0, 0)). reflexivity.
  - exists (ls_ans 7 []). split; [left; reflexivity|reflexivity].
Qed.
Local Lemma ls_lists : forall id out l, lists (mkHev 12 id ls_list out l) ls_hb.
Proof.
  intros. split; [reflexivity|]. split; [cbn; tauto|]. exists (c32toa 8 ++ ls_hb), []. split; [|reflexivity].
  exists (c32toa 8). split; [apply u32_c32; reflexivity|reflexivity].
Qed.

(* A name of 254 bytes in the root directory is not sent. *)
Definition long_name : bytes := repeat 97 254.
Theorem C55_long_refuted : ~ C55_full.
Proof.
  intros H. set (E := ls_env [long_name]).
  assert (En : Forall entry_name [long_name]).
  { constructor; [|constructor]. left. repeat (split; [discriminate|]).
    intros K. apply repeat_spec in K. discriminate. }
  destruct (ls_envs _ En) as (Se & De & Ro). fold E in Se, De, Ro.
  assert (H0 : hist E (path_run []) (fst (ls_run E [] (ascii "/") 0)) (snd (ls_run E [] (ascii "/") 0))) by constructor.
  assert (H1 : hist E (path_run []) (fst (ls_run E [] (ascii "/") 1)) (snd (ls_run E [] (ascii "/") 1))) by (ls_step H0 11 1 (ls_dir (ascii "/"))).
  assert (H2 : hist E (path_run []) (fst (ls_run E [] (ascii "/") 2)) (snd (ls_run E [] (ascii "/") 2))) by (ls_step H1 12 2 ls_list).
  destruct (fst (ls_run E [] (ascii "/") 2)) as [|ev h] eqn:Q; [vm_compute in Q; discriminate|].
  assert (Qh : h = fst (ls_run E [] (ascii "/") 1)) by (vm_compute in Q; vm_compute; congruence).
  assert (Qe : ev = mkHev 12 2 ls_list (Some (eof_msg 2)) [(FReaddir 7, ls_ans 0 [long_name])]) by (vm_compute in Q; vm_compute; congruence).
  destruct (H E [] ev h _ (ascii "/") ls_hb 7%Z Se De Ro H2) as (cs & a & es & new & _ & _ & C & Nm & F2 & _).
  - rewrite Qh. reflexivity.
  - rewrite Qh. eapply ls_opened; [apply surjective_pairing|]. vm_compute. reflexivity.
  - rewrite Qe. apply ls_lists.
  - rewrite Qe in C. cbn [q_calls] in C. assert (new = [] /\ a = ls_ans 0 [long_name]) as (-> & ->) by (split; congruence).
    inversion F2; subst. discriminate Nm.
Qed.

(* A directory with three entries is listed, then EOF is said. *)
Definition ls_names : list bytes := [dot; dotdot; ascii "file"].
Definition ls_jail : list path_set := [SetConfine None (Some (ascii "/srv/jail"))].
Definition lsE : senv := ls_env ls_names.
Definition lsR (n : nat) : list hev * srv := ls_run lsE ls_jail (ascii "/srv/jail") n.
Local Lemma ls_session : forall n, (n <= 3)%nat -> hist lsE (path_run ls_jail) (fst (lsR n)) (snd (lsR n)).
Proof.
  assert (H0 : hist lsE (path_run ls_jail) (fst (lsR 0)) (snd (lsR 0))) by constructor.
  assert (H1 : hist lsE (path_run ls_jail) (fst (lsR 1)) (snd (lsR 1))) by (ls_step H0 11 1 (ls_dir (ascii "/srv/jail"))).
  assert (H2 : hist lsE (path_run ls_jail) (fst (lsR 2)) (snd (lsR 2))) by (ls_step H1 12 2 ls_list).
  assert (H3 : hist lsE (path_run ls_jail) (fst (lsR 3)) (snd (lsR 3))) by (ls_step H2 12 3 ls_list).
  intros n Hn. do 4 (destruct n as [|n]; [assumption|]). lia.
Qed.
Example C55_ex : 
  (stat_env lsE /\ dir_env lsE /\ roomy_dir lsE) /\
  (forall n, (n <= 3)%nat -> hist lsE (path_run ls_jail) (fst (lsR n)) (snd (lsR n))) /\
  unlisted (ascii "/srv/jail") ls_hb 7 (fst (lsR 1%nat)) /\
  map (fun ev => (q_ty ev, map fst (q_calls ev))) (fst (lsR 3%nat)) =
   [ (12, []);
     (12, [FReaddir 7; FStat (ascii "/srv/jail") true; FStat (ascii "/srv") true; FStat (ascii "/srv/jail/file") true]);
     (11, [FOpendir (ascii "/srv/jail")]) ] /\
  (exists ev h, fst (lsR 2%nat) = ev :: h /\ h = fst (lsR 1%nat) /\ lists ev ls_hb /\
     forall a n, In (FReaddir 7, a) (q_calls ev) -> In n (r_names a) -> lenN (ascii "/srv/jail") + lenN n < 255).
Proof.
  assert (En : Forall entry_name ls_names).
  { constructor; [right; left; reflexivity|]. constructor; [right; right; reflexivity|]. constructor; [left|constructor]. repeat (split; [discriminate|]).
    vm_compute. intuition discriminate. }
  split; [apply ls_envs; exact En|]. split; [apply ls_session|].
  split; [eapply ls_opened; [apply surjective_pairing|]; vm_compute; reflexivity|]. split; [vm_compute; reflexivity|].
  destruct (fst (lsR 2%nat)) as [|ev h] eqn:Q; [vm_compute in Q; discriminate|]. exists ev, h. split; [reflexivity|].
  split; [vm_compute in Q; vm_compute; congruence|].
  assert (Qe : ev = mkHev 12 2 ls_list (q_reply ev) (q_calls ev) /\ hd_error (q_calls ev) = Some (FReaddir 7, ls_ans 0 ls_names) /\
     Forall (fun x => match fst x with FReaddir _ => False | _ => True end) (tl (q_calls ev))).
  { assert (Qe : ev = hd ev (fst (lsR 2%nat))) by (rewrite Q; reflexivity). rewrite Qe. vm_compute. repeat (split; [reflexivity|]). repeat constructor. }
  destruct Qe as (Qe & Q1 & Q2). split; [rewrite Qe; apply ls_lists|]. intros a n Ha Hin.
  destruct (q_calls ev) as [|c0 cl]; [destruct Ha|]. cbn [hd_error tl] in *. destruct Ha as [Ha|Ha].
  - assert (a = ls_ans 0 ls_names) as -> by congruence. cbn [r_names ls_ans ls_names In] in Hin. destruct Hin as [<-|[<-|[<-|[] ] ] ]; reflexivity.
  - rewrite Forall_forall in Q2. destruct (Q2 _ Ha).
Qed.

(* ---- C30, whole sessions ---------------------------------------------------------
   In any session with a confinement directory, every path handed to the file
   system names that directory or something inside it, except that READDIR may
   fetch the attributes of the directory above it. *)
Theorem C30_session_partial : forall E os h s c, dir_env E -> hist E (path_run os) h s ->
  sp_confine (path_run os) = Some c ->
  exists root, c = path_of root /\ Forall plain root /\
    forall ev call a x, In ev h -> In (call, a) (q_calls ev) -> In x (names call) ->
      names_inside root x \/ (q_ty ev = 12 /\ call = FStat x true /\ x = path_of (removelast root)).
Proof.
  intros E os h s c De H Hc. destruct (path_run_ok os) as (_ & Hp2). destruct (Hp2 c Hc) as (root & P & -> & _).
  exists root. split; [reflexivity|]. split; [assumption|]. intros ev call a x Hin Hca Hx.
  eapply (hst_inside E (path_run os) h s); try eassumption. apply hist_hst; [apply path_run_ok|assumption].
Qed.
Example C30_session_ex : sp_confine (path_run ls_jail) = Some (ascii "/srv/jail"). Proof. vm_compute. reflexivity. Qed.

Print Assumptions C55_sound.
Print Assumptions C55_complete_partial.
Print Assumptions C55_long_refuted.
Print Assumptions C55_eof.
Print Assumptions C30_session_partial.
