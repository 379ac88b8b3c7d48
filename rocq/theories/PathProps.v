(* PathProps.v - C29 (server path resolution) and C30 (confinement). *)
From Verif Require Import Base PathModel PathSpec PathProofs NegoSpec.
From Coq Require Import List NArith Lia String.
Import ListNotations.
Open Scope N_scope.

(* ---- C29 --------------------------------------------------------------------
   [resolves_to]: the call of wolfSSH_RealPath for the request [inp], with the
   start directory [from], either yields the canonical name of the place the
   request leads to, shorter than the buffer, or reports an invalid path, which
   happens exactly if some directory on the way has a name that does not fit. *)
Definition resolves_to (sz : N) (d : option bytes) (from : list bytes) (inp : bytes) : Prop :=
  forall st, start from inp st ->
  exists ret out, RealPath d inp sz = Some (ret, out) /\
    ((ret = WS_SUCCESS /\ fits sz st (pieces inp) /\
      out = path_of (walk st (pieces inp)) /\ canonical out /\ lenN out < sz) \/
     (ret = WS_INVALID_PATH_E /\ ~ fits sz st (pieces inp))).

Definition C29_full : Prop :=
  forall sz d from inp, default_is d from -> is32 (lenN inp) -> is32 sz -> 0 < sz -> resolves_to sz d from inp.

(* A buffer of one byte: out[1] is written. *)
Theorem C29_one_byte_buffer_refuted : ~ C29_full.
Proof.
  intros H. assert (D : default_is None []) by apply default_none.
  assert (I1 : is32 (lenN [47])) by (unfold is32, W32; reflexivity).
  assert (I2 : is32 1) by (unfold is32, W32; reflexivity).
  destruct (H 1 None [] [47] D I1 I2 eq_refl []) as (ret & out & E & _).
  - left. split; [exists []; reflexivity|reflexivity].
  - vm_compute in E. discriminate.
Qed.

Theorem C29_resolution_partial : forall sz d from inp,
  default_is d from -> is32 (lenN inp) -> is32 sz -> 2 <= sz -> resolves_to sz d from inp.
Proof.
  intros sz d from inp Hd Hi Hz H2 st Hst.
  destruct (RealPath_ok d from inp sz st Hd Hi Hz H2 Hst) as (ret & out & E & H).
  exists ret, out. split; [assumption|]. destruct H as [(-> & F & -> & P)|H]; [left|right; assumption].
  split; [reflexivity|]. split; [assumption|]. split; [reflexivity|]. split.
  - eexists. split; [exact P|reflexivity].
  - apply fits_end. assumption.
Qed.

(* A canonical path is resolved to itself. *)
Theorem C29_canonical_kept : forall sz d from s, default_is d from -> is32 sz -> 2 <= sz ->
  canonical s -> lenN s < sz -> RealPath d s sz = Some (WS_SUCCESS, s).
Proof.
  intros sz d from s Hd Hz H2 (cs & P & ->) L.
  assert (I : is32 (lenN (path_of cs))) by (unfold is32 in *; lia).
  assert (S : start from (path_of cs) []) by (left; split; [apply absolute_path|reflexivity]).
  destruct (RealPath_ok d from (path_of cs) sz [] Hd I Hz H2 S) as (ret & out & E & [(-> & F & -> & _) | (_ & F)]).
  - rewrite E. rewrite walk_pieces_path by assumption. reflexivity.
  - exfalso. apply F. apply fits_path; assumption.
Qed.

(* The server: whatever paths were configured and requested, no request makes
   it write outside its buffers, and REALPATH answers with the place the
   request leads to from the start directory. *)
Theorem C29_server : forall os,
  (forall link q, exists l, fs_paths (path_run os) link q = Some l) /\
  (forall cwd data p' s t, RecvRealPath cwd data (path_run os) = (p', Some s) -> text data t ->
     exists from st, default_is (sp_default p') from /\ start from t st /\
       s = path_of (walk st (pieces t)) /\ canonical s /\ lenN s < 256).
Proof.
  intros os. pose proof (path_run_ok os) as Hp. split; [intros link q; apply fs_total; assumption|].
  intros cwd data p' s t E T. apply text_cstr in T. subst t.
  pose proof (RecvRealPath_inv cwd data (path_run os) Hp) as (I & _). rewrite E in I. cbn [fst] in I.
  destruct (stored_default p' I) as (from & Hd). exists from.
  unfold RecvRealPath in E. destruct (N.leb_spec MAX_FILENAME (lenN data)) as [L|L]; [discriminate|].
  set (p1 := match sp_default (path_run os) with Some _ => _ | None => _ end) in E. clearbody p1.
  destruct (sp_default p1) as [d|] eqn:D1; [|discriminate].
  destruct (RealPath (Some d) (cstr data) MAX_FILENAME) as [[ret x]|] eqn:R; [|discriminate].
  destruct (rc_eqb ret WS_SUCCESS) eqn:Er; [|discriminate]. apply rc_eqb_eq in Er.
  apply pair_equal_spec in E. destruct E as (<- & E). assert (x = s) by congruence. subst x. rewrite D1 in Hd.
  assert (L32 : is32 (lenN (cstr data))) by (pose proof (cstr_len data); unfold is32, MAX_FILENAME, W32 in *; lia).
  destruct (RealPath_stored _ _ _ _ _ Hd L32 R Er) as (st & Hst & -> & P & (cs & P2 & E2 & L2) & _).
  exists st. rewrite D1. split; [assumption|]. split; [assumption|]. split; [reflexivity|]. split; [|exact L2].
  eexists. split; [exact P|reflexivity].
Qed.

Example C29_ex1 :
  RealPath (Some (ascii "/home/fred")) (ascii "a/../../../barney//./x/") 256 = Some (WS_SUCCESS, ascii "/barney/x").
Proof. vm_compute. reflexivity. Qed.
Example C29_ex2 : default_is (Some (ascii "/home/fred")) [ascii "home"; ascii "fred"].
Proof.
  split; [|split; [reflexivity|vm_compute; reflexivity]].
  repeat constructor; try discriminate; vm_compute; intuition discriminate.
Qed.
Example C29_ex3 : RealPath None (ascii "/abcdefgh") 9 = Some (WS_INVALID_PATH_E, []) /\
  RealPath None (ascii "/abcdefgh") 10 = Some (WS_SUCCESS, ascii "/abcdefgh").
Proof. split; vm_compute; reflexivity. Qed.

(* ---- C30 --------------------------------------------------------------------
   After any sequence of path settings and REALPATH requests, every path handed
   to the file system while a request is served names the confinement directory
   or something inside it. *)
Definition confined (os : list path_set) (q : path_req) : Prop :=
  forall c, sp_confine (path_run os) = Some c ->
  exists root, c = path_of root /\ Forall plain root /\
    forall link l, fs_paths (path_run os) link q = Some l -> forall x, In x l -> names_inside root x.

Definition C30_full : Prop :=
  forall os q, (forall data name, q = QReaddir data name -> entry_name name) -> confined os q.

(* Listing the confinement directory fetches the attributes of its parent. *)
Theorem C30_listing_refuted : ~ C30_full.
Proof.
  intros H.
  destruct (H [SetConfine None (Some (ascii "/jail"))] (QReaddir (ascii "/jail") dotdot)) with (c := ascii "/jail")
    as (root & E & P & K).
  - intros data name E. injection E as _ <-. right. right. reflexivity.
  - vm_compute. reflexivity.
  - assert (R : root = [ascii "jail"]).
    { apply path_of_inj; [assumption| |symmetry; exact E]. repeat constructor; try discriminate; vm_compute; intuition discriminate. }
    subst root. destruct (K (fun _ => false) [ascii "/"]) with (x := ascii "/") as (cs & Pc & Ec & (r & ->)).
    + vm_compute. reflexivity.
    + left. reflexivity.
    + vm_compute in Ec. discriminate.
Qed.

Theorem C30_confined_partial : forall os q,
  (forall data name, q = QReaddir data name -> entry_name name /\ name <> dotdot) -> confined os q.
Proof.
  intros os q Hq c Hc. pose proof (path_run_ok os) as Hp.
  destruct Hp as (Hp1 & Hp2). destruct (Hp2 c Hc) as (root & P & -> & _). exists root. split; [reflexivity|]. split; [assumption|].
  intros link l E. destruct (fs_inside _ _ _ _ _ (path_run_ok os) Hc E) as (root' & E' & P' & H).
  - intros data name Q. destruct (Hq data name Q) as ([A|[A|A]] & B); [left|right|]; auto. contradiction.
  - apply path_of_inj in E'; [|assumption|assumption]. subst root'. assumption.
Qed.

(* Exactly the requests that lead to the confinement directory or below it,
   without passing a link, are let through. *)
Theorem C30_decision : forall os root from link data t st,
  sp_confine (path_run os) = Some (path_of root) -> Forall plain root ->
  default_is (sp_default (path_run os)) from -> text data t -> lenN data < 256 -> start from t st ->
  exists ret s q, GetAndCleanPath (path_run os) link data 256 = Some (ret, s, q) /\
   (ret = WS_SUCCESS <->
      fits 256 st (pieces t) /\ inside root (walk st (pieces t)) /\
      (root = [] \/ no_links link root (walk st (pieces t)))) /\
   (ret = WS_SUCCESS -> s = path_of (walk st (pieces t))) /\
   (ret <> WS_SUCCESS -> fits 256 st (pieces t) -> ret = WS_PERMISSIONS).
Proof.
  intros os root from link data t st Hc P Hd T L Hst. apply text_cstr in T. subst t. destruct m256 as (M1 & M2).
  destruct (GetAndCleanPath_ok _ from root link data MAX_FILENAME st Hd Hc P M1 M2 L Hst) as (ret & s & q & G & H).
  exists ret, s, q. split; [exact G|]. change MAX_FILENAME with 256 in H.
  destruct H as [(F & -> & P2 & [(I & D & K & _) | (I & -> & ->)]) | (F & -> & ->)].
  - split; [tauto|]. split; [reflexivity|]. tauto.
  - split; [|split; [discriminate|reflexivity]]. split; [discriminate|]. tauto.
  - split; [|split; [discriminate|tauto]]. split; [discriminate|tauto].
Qed.

(* What the configuration calls store: the directory that was meant, or on an
   error nothing new. A first REALPATH never confines the session. *)
Theorem C30_configuration : forall cwd path p p' ret, getcwd_ok cwd -> SetConfinePath cwd path p = (p', ret) ->
  sp_default p' = sp_default p /\
  ((ret = WS_SUCCESS /\ exists s cs, path = Some s /\ resolved cwd s cs /\ Forall plain cs /\ sp_confine p' = Some (path_of cs)) \/
   (ret = WS_SUCCESS /\ path = None /\ p' = p) \/
   (ret <> WS_SUCCESS /\ p' = p)).
Proof.
  intros cwd path p p' ret Hw E. unfold SetConfinePath in E. destruct path as [s|].
  2: { apply pair_equal_spec in E. destruct E as (<- & <-). split; [reflexivity|]. right. left. auto. }
  destruct (Canonicalize_ok cwd s) as (r & c & C & H). rewrite C in E. destruct (rc_eqb r WS_SUCCESS) eqn:Er.
  - apply rc_eqb_eq in Er. destruct (H Er) as (_ & cs & -> & P & D). apply pair_equal_spec in E. destruct E as (<- & <-).
    split; [reflexivity|]. left. split; [reflexivity|]. exists s, cs. split; [reflexivity|]. split; [|split; [assumption|reflexivity]].
    destruct D as [D | (NA & w & -> & D)]; [left; assumption|]. right. split; [assumption|]. exists w. split; [reflexivity|].
    destruct (Hw w eq_refl) as (L & Z & _). rewrite takeN_all in D by lia.
    rewrite (text_cstr w w) in D by (split; [assumption|left; reflexivity]). assumption.
  - apply rc_eqb_neq in Er. apply pair_equal_spec in E. destruct E as (<- & <-). split; [reflexivity|]. right. right. auto.
Qed.

Theorem C30_only_configuration_confines : forall os,
  (forall cwd path, ~ In (SetConfine cwd path) os) -> sp_confine (path_run os) = None.
Proof.
  intros os H. unfold path_run.
  assert (G : forall p, paths_ok p -> sp_confine p = None -> sp_confine (fold_left path_step os p) = None).
  { induction os as [|o os IH]; intros p Hp Hn; [assumption|]. cbn [fold_left].
    assert (K : paths_ok (path_step p o) /\ sp_confine (path_step p o) = None).
    { destruct o; cbn [path_step].
      - destruct (SetDefault_inv cwd path p Hp) as (A & B). split; [assumption|congruence].
      - exfalso. apply (H cwd path). left. reflexivity.
      - destruct (RecvRealPath_inv cwd data p Hp) as (A & B). split; [assumption|congruence]. }
    destruct K. apply IH; auto. intros cwd path Q. apply (H cwd path). right. assumption. }
  apply G; [split; discriminate|reflexivity].
Qed.

Definition jail : list path_set :=
  [SetConfine None (Some (ascii "/srv/./jail/")); SetDefault (Some (ascii "/srv")) (Some (ascii "jail/up"))].
Example C30_ex1 : sp_confine (path_run jail) = Some (ascii "/srv/jail") /\ sp_default (path_run jail) = Some (ascii "/srv/jail/up").
Proof. split; vm_compute; reflexivity. Qed.
Example C30_ex2 :
  fs_paths (path_run jail) (fun _ => false) (QPath POpen true (ascii "../f")) = Some [ascii "/srv/jail/f"; ascii "/srv/jail/f"] /\
  fs_paths (path_run jail) (fun _ => false) (QPath POpen true (ascii "../../jailbird")) = Some [] /\
  fs_paths (path_run jail) (fun _ => false) (QRename (ascii "a") (ascii "/etc/passwd")) =
    Some [ascii "/srv/jail/up"; ascii "/srv/jail/up/a"].
Proof. split; [|split]; vm_compute; reflexivity. Qed.

Print Assumptions C29_one_byte_buffer_refuted.
Print Assumptions C29_resolution_partial.
Print Assumptions C29_canonical_kept.
Print Assumptions C29_server.
Print Assumptions C30_listing_refuted.
Print Assumptions C30_confined_partial.
Print Assumptions C30_decision.
Print Assumptions C30_configuration.
Print Assumptions C30_only_configuration_confines.
