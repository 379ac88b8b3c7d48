(* SftpProps2.v - C53 (attributes), C54 (replies) and C56 (requests about
   paths) of the SFTP server. *)
From Verif Require Import Base WireModel WireSpec WireProofs PathModel PathSpec PathProofs NegoSpec ReqSpec ReqProofs ReqProofs3.
From Verif Require Import SftpModel SftpProofs SftpSpec SftpProofs2 SftpProofs3 SftpProofs4 SftpProofs5 SftpProofs6 SftpProofs7 SftpProofs8 SftpProofs9 SftpProps.
From Coq Require Import List NArith ZArith Bool Lia String.
Import ListNotations.
Open Scope N_scope.

Local Lemma last2 : forall E os ev h s0 s', hist E (path_run os) h s0 -> hist E (path_run os) (ev :: h) s' ->
  exists r, hst E (path_run os) h s0 /\ paths_ok (s_paths s0) /\ s_log s0 = rev (map fst (calls h)) /\ bytes_ok (q_data ev) /\ lenN (q_data ev) <= 65536 /\ is32 (q_id ev) /\
   dispatch_t E (q_ty ev) (q_id ev) (q_data ev) s0 = (r, q_reply ev, s') /\
   s_log s' = rev (map fst (q_calls ev)) ++ s_log s0 /\ q_calls ev = answered E (s_log s0) (map fst (q_calls ev)).
Proof.
  intros E os ev h s0 s' H0 H.
  destruct (hist_last _ _ _ _ _ (path_run_ok os) H) as (s & r & Hs & Hh & Hb & Hl & Hi & D & F & Lg & An).
  rewrite (hist_fun _ _ _ _ Hh _ H0) in *. exists r. split; [assumption|]. split; [apply (hist_paths _ _ _ _ (path_run_ok os) H0)|].
  split; [eapply hst_log; exact Hs|]. repeat (split; [assumption|]). assumption.
Qed.
Local Lemma nocalls : forall E (s s' : srv) l, s' = s -> s_log s' = rev (map fst l) ++ s_log s -> l = answered E (s_log s) (map fst l) -> l = [].
Proof. intros E s s' l -> L A. eapply log_same; eassumption. Qed.
Local Lemma sayn : forall ev c, q_reply ev = None -> says ev c. Proof. intros. left. assumption. Qed.

(* The three outcomes of a path. *)
Local Ltac paths_case C cs M Hp Lg0 :=
  destruct (clean_res _ _ _ _ _ cs Hp C M) as [(-> & -> & Sh & Al)|[(-> & Sh & Al)|(Nr1 & Nr2 & Sh)] ];
  try rewrite Lg0 in Al; (split; [intros Sh2 Al2|split; intros Sh2; [intros Al2|] ]); try contradiction.

(* ---- C53: attributes ------------------------------------------------------------
   STAT, LSTAT and FSTAT ask for the attributes of the file named, once, and
   return them; SETSTAT and FSETSTAT change the mode (below 0o1000) and the times
   of that file as asked, and say OK only if that worked. *)
Theorem C53_stat : forall E os ev h s0 s p pb x, stat_env E ->
  hist E (path_run os) h s0 -> hist E (path_run os) (ev :: h) s ->
  (q_ty ev = 17 \/ q_ty ev = 7) -> q_data ev = pb ++ x -> str p pb ->
  on_path E h (s_paths s0) ev p (fun f => looked ev (FStat f (q_ty ev =? 7))) (says ev 4).
Proof.
  intros E os ev h s0 s p pb x Se H0 H T Q Sp cs M ok. unfold ok. clear ok.
  destruct (last2 _ _ _ _ _ _ H0 H) as (r & Hs & Hp & Lg0 & Hb & Hl & Hi & D & Lg & An).
  assert (D' : RecvStat_t (q_ty ev =? 7) E (q_id ev) (q_data ev) s0 = (r, q_reply ev, s)) by (destruct T as [T|T]; rewrite T in *; exact D).
  clear D. set (nf := q_ty ev =? 7) in *. clearbody nf. revert D'. unfold RecvStat_t. rewrite Q, (p_str_app p pb) by assumption. intros D.
  destruct (clean_t E p s0) as (ret, dir) eqn:C. cbv zeta in D. paths_case C cs M Hp Lg0.
  - change (rc_eqb WS_SUCCESS WS_SUCCESS) with true in D. cbv iota in D. eapply attrs_look; try eassumption. destruct nf; reflexivity.
  - change (rc_eqb WS_PERMISSIONS WS_SUCCESS) with false in D. change (rc_eqb WS_PERMISSIONS WS_PERMISSIONS) with true in D. cbv iota in D.
    destruct (negb _); apply triple_inv in D; destruct D as (_ & R & S); (split; [eapply nocalls; [symmetry; exact S|exact Lg|exact An]|]).
    + apply sayn. symmetry. exact R.
    + eapply says_code; [symmetry; exact R|assumption|reflexivity|reflexivity].
  - destruct (rc_eqb ret WS_SUCCESS) eqn:K; [apply rc_eqb_eq in K; contradiction|].
    destruct (rc_eqb ret WS_PERMISSIONS) eqn:K2; [apply rc_eqb_eq in K2; contradiction|].
    destruct (negb _); apply triple_inv in D; destruct D as (_ & R & S); (split; [eapply nocalls; [symmetry; exact S|exact Lg|exact An]|]).
    + apply sayn. symmetry. exact R.
    + eapply says_code; [symmetry; exact R|assumption|reflexivity|destruct nf; reflexivity].
Qed.

Theorem C53_fstat : forall E os ev h s hb fd b x, stat_env E ->
  hist E (path_run os) (ev :: h) s -> lenN (ev :: h) < 2 ^ 64 -> live opened hb fd h ->
  q_ty ev = 8 -> q_data ev = b ++ x -> str hb b -> looked ev (FFstat fd).
Proof.
  intros E os ev h s' hb fd b x Se H Hn L T Q Sb. change (2 ^ 64) with W64 in *. rewrite lenN_cons in Hn.
  destruct (hist_last _ _ _ _ _ (path_run_ok os) H) as (s & r & Hs & _ & Hb & Hl & Hi & D & F & Lg & An).
  assert (I : inv h s) by (eapply hst_inv; [exact Hs|lia]).
  destruct (live_file h s I hb fd L) as (e & Fe & <- & _). rewrite T in D.
  change (dispatch_t E 8 (q_id ev) (q_data ev) s) with (RecvFSTAT_t E (q_id ev) (q_data ev) s) in D. revert D. unfold RecvFSTAT_t.
  rewrite Q, (p_str_app hb b), Fe by assumption. intros D. eapply attrs_look; try eassumption. reflexivity.
Qed.

Theorem C53_setstat : forall E os ev h s0 s p pb a ab x,
  hist E (path_run os) h s0 -> hist E (path_run os) (ev :: h) s ->
  q_ty ev = 9 -> q_data ev = pb ++ ab ++ x -> str p pb -> attr_wire a ab ->
  on_path E h (s_paths s0) ev p (fun f => tried_all ev (changes a (FChmod f) (FSetTime f))) (says ev 4).
Proof.
  intros E os ev h s0 s p pb a ab x H0 H T Q Sp Sa cs M ok. unfold ok. clear ok.
  destruct (last2 _ _ _ _ _ _ H0 H) as (r & Hs & Hp & Lg0 & Hb & Hl & Hi & D & Lg & An). rewrite T in D.
  change (dispatch_t E 9 (q_id ev) (q_data ev) s0) with (RecvSetSTAT_t E (q_id ev) (q_data ev) s0) in D. revert D. unfold RecvSetSTAT_t. cbv zeta.
  rewrite Q, (p_str_app p pb) by assumption. rewrite (p_attrs_app a ab x Sa). intros D.
  destruct (clean_t E p s0) as (ret, dir) eqn:C. paths_case C cs M Hp Lg0.
  - change (rc_eqb WS_SUCCESS WS_SUCCESS) with true in D. cbn [negb] in D.
    destruct (set_attrs E _ _ a s0) as (oka, s2) eqn:SA.
    destruct (outcome_says _ _ _ _ _ _ _ _ ev D Hi eq_refl eq_refl) as (-> & Sy). cbv iota in Sy. eapply set_try; eassumption.
  - change (rc_eqb WS_PERMISSIONS WS_SUCCESS) with false in D. change (rc_eqb WS_PERMISSIONS WS_PERMISSIONS) with true in D. cbn [negb] in D.
    destruct (outcome_says _ _ _ _ _ _ _ _ ev D Hi eq_refl eq_refl) as (S & Sy). split; [eapply nocalls; eassumption|exact Sy].
  - destruct (rc_eqb ret WS_SUCCESS) eqn:K; [apply rc_eqb_eq in K; contradiction|]. cbn [negb] in D.
    destruct (rc_eqb ret WS_PERMISSIONS) eqn:K2; [apply rc_eqb_eq in K2; contradiction|].
    destruct (outcome_says _ _ _ _ _ _ _ _ ev D Hi eq_refl eq_refl) as (S & Sy). split; [eapply nocalls; eassumption|exact Sy].
Qed.

Theorem C53_fsetstat : forall E os ev h s hb fd b a ab x,
  hist E (path_run os) (ev :: h) s -> lenN (ev :: h) < 2 ^ 64 -> live opened hb fd h ->
  q_ty ev = 10 -> q_data ev = b ++ ab ++ x -> str hb b -> attr_wire a ab ->
  tried_all ev (changes a (FFchmod fd) (FFsetTime fd)).
Proof.
  intros E os ev h s' hb fd b a ab x H Hn L T Q Sb Sa. change (2 ^ 64) with W64 in *. rewrite lenN_cons in Hn.
  destruct (hist_last _ _ _ _ _ (path_run_ok os) H) as (s & r & Hs & _ & Hb & Hl & Hi & D & F & Lg & An).
  assert (I : inv h s) by (eapply hst_inv; [exact Hs|lia]).
  destruct (live_file h s I hb fd L) as (e & Fe & <- & _). rewrite T in D.
  change (dispatch_t E 10 (q_id ev) (q_data ev) s) with (RecvFSetSTAT_t E (q_id ev) (q_data ev) s) in D. revert D. unfold RecvFSetSTAT_t. cbv zeta.
  rewrite Q, (p_str_app hb b), Fe, (p_attrs_app a ab x Sa) by assumption. intros D.
  destruct (set_attrs E _ _ a s) as (oka, s2) eqn:SA.
  destruct (outcome_says _ _ _ _ _ _ _ _ ev D Hi eq_refl eq_refl) as (-> & Sy). cbv iota in Sy. eapply set_try; eassumption.
Qed.

(* Attributes can be read in one way only. *)
Theorem C53_unambiguous : forall a b a' b' x y, attr_wire a b -> attr_wire a' b' -> b ++ x = b' ++ y -> a = a' /\ x = y.
Proof.
  intros a b a' b' x y A A' Q. pose proof (p_attrs_app a b x A) as P. rewrite Q, (p_attrs_app a' b' y A') in P. split; congruence.
Qed.

(* The full property wants OK only if all attributes were set; an attribute block
   with only a size is answered OK and nothing is done. *)
Definition C53_full : Prop :=
  forall E os ev h s hb fd b a ab x m,
  hist E (path_run os) (ev :: h) s -> lenN (ev :: h) < 2 ^ 64 -> live opened hb fd h ->
  q_ty ev = 10 -> q_data ev = b ++ ab ++ x -> str hb b -> attr_wire a ab ->
  a_flags a <> 0 -> q_reply ev = Some m -> status_msg (q_id ev) 0 m -> q_calls ev <> [].

Definition ex_setsize : bytes := (c32toa 8 ++ ex_hb) ++ (c32toa 1 ++ c32toa 0 ++ c32toa 77) ++ [].
Definition ex_size := mkAttrs 1 0 77 0 0 0 0 0 0.
Definition ex_hz := fst (ex_run [(3, 1, ex_open); (10, 2, ex_setsize)]).
Definition ex_sz := snd (ex_run [(3, 1, ex_open); (10, 2, ex_setsize)]).
Lemma ex_setsize_run : hist ex_env (path_run []) ex_hz ex_sz.
Proof.
  assert (H0 : hist ex_env ex_p [] (srv0 ex_p)) by constructor.
  assert (H1 : hist ex_env ex_p ex_h1 ex_s1) by (ex_step_tac H0 3 1 ex_open).
  assert (H2 : hist ex_env ex_p ex_hz ex_sz) by (ex_step_tac H1 10 2 ex_setsize). exact H2.
Qed.
Lemma ex_size_wire : attr_wire ex_size (c32toa 1 ++ c32toa 0 ++ c32toa 77).
Proof.
  exists (c32toa 1), (c32toa 0), (c32toa 77), [], [], [], [], [], [], []. cbn [a_flags ex_size].
  repeat (split; [first [apply u32_c32; reflexivity | split; reflexivity | constructor]|]). reflexivity.
Qed.
Theorem C53_size_refuted : ~ C53_full.
Proof.
  intros K. pose proof ex_setsize_run as H. vm_compute in H.
  refine (K ex_env [] _ _ _ ex_hb 4%Z (c32toa 8 ++ ex_hb) ex_size (c32toa 1 ++ c32toa 0 ++ c32toa 77) [] _ H _ _ _ _ _ ex_size_wire _ _ _ _).
  - vm_compute. reflexivity.
  - exact ex_live.
  - reflexivity.
  - vm_compute. reflexivity.
  - exists (c32toa 8). repeat split; vm_compute; reflexivity.
  - discriminate.
  - cbn [q_reply]. reflexivity.
  - exact (status_ok 2 0 (ascii "Set Attributes") eq_refl eq_refl eq_refl).
  - reflexivity.
Qed.

(* ---- C54: replies ---------------------------------------------------------------
   Every reply is a well-formed message of a kind that belongs to the request, with
   the request's id. *)
Theorem C54_reply : forall E os ev h s m, stat_env E -> hist E (path_run os) (ev :: h) s ->
  q_reply ev = Some m -> reply_msg (q_ty ev) (q_id ev) m.
Proof.
  intros E os ev h s' m Se H Q.
  destruct (hist_last _ _ _ _ _ (path_run_ok os) H) as (s & r & Hs & Hh & Hb & Hl & Hi & D & F & Lg & An).
  destruct (hist_paths _ _ _ _ (path_run_ok os) Hh) as (Hp & _).
  exact (dispatch_good E (q_id ev) (q_data ev) s r (q_reply ev) s' Se Hi Hl Hp (q_ty ev) D m Q).
Qed.

(* Every request laid out as it should be is answered (memory permitting)? No:
   FSTAT with a handle that does not exist. *)
Definition C54_full : Prop :=
  forall E os ev h s, roomy E -> hist E (path_run os) (ev :: h) s -> shaped (q_ty ev) (q_data ev) -> exists m, q_reply ev = Some m.

Definition ex_hf := fst (ex_run [(8, 1, ex_close)]).
Definition ex_sf := snd (ex_run [(8, 1, ex_close)]).
Theorem C54_always_refuted : ~ C54_full.
Proof.
  intros K.
  assert (H0 : hist ex_env ex_p [] (srv0 ex_p)) by constructor.
  assert (H1 : hist ex_env ex_p ex_hf ex_sf) by (ex_step_tac H0 8 1 ex_close).
  vm_compute in H1. destruct (K ex_env [] _ _ _ (fun _ _ => eq_refl) H1) as (m & Q).
  - cbn [q_ty q_data]. unfold shaped. split.
    { intros _. exists ex_hb, ([0; 0; 0; 8] ++ ex_hb), []. split; [|reflexivity]. exists [0; 0; 0; 8]. repeat split; reflexivity. }
    split; [discriminate|]. split; [cbn [In]; intros [Z|[Z|[Z|Z] ] ]; discriminate || contradiction|]. repeat (split; [discriminate|]). reflexivity.
  - discriminate Q.
Qed.

Local Lemma short_ret : forall E p s ret dir, paths_ok (s_paths s) -> clean_t E p s = (ret, dir) -> short (s_paths s) p ->
  ret = WS_SUCCESS \/ ret = WS_PERMISSIONS.
Proof.
  intros E p s ret dir Hp C (L & from & t & st & D & T & S & F).
  assert (M : means (s_paths s) p (walk st (pieces t))) by (exists from, t, st; repeat split; assumption || reflexivity || apply D || apply T).
  destruct (clean_res E p s ret dir _ Hp C M) as [(-> & _)|[(-> & _)|(_ & _ & K)] ]; [left; reflexivity|right; reflexivity|].
  exfalso. apply K. split; [assumption|]. exists from, t, st. repeat split; assumption || apply D || apply T.
Qed.

(* It holds if handles have at most 256 bytes, FSTAT's handle is open, reads are
   of at most 32768 bytes, paths are short, and REALPATH has a start directory;
   READDIR is C55. *)
Theorem C54_always_partial : forall E os ev h s0 s, roomy E ->
  hist E (path_run os) h s0 -> hist E (path_run os) (ev :: h) s -> lenN (ev :: h) < 2 ^ 64 -> shaped (q_ty ev) (q_data ev) ->
  q_ty ev <> 12 ->
  (forall hb, q_ty ev = 4 -> about ev hb -> lenN hb <= 256) ->
  (forall hb, q_ty ev = 8 -> about ev hb -> exists fd, live opened hb fd h) ->
  (forall hb b o ob n nb x, q_ty ev = 5 -> q_data ev = b ++ ob ++ nb ++ x -> str hb b -> u64 o ob -> u32 n nb -> n <= 32768) ->
  (forall p pb x, In (q_ty ev) [3; 11; 13; 14; 16] -> q_data ev = pb ++ x -> str p pb -> short (s_paths s0) p) ->
  (q_ty ev = 16 -> sp_default (s_paths s0) <> None) ->
  exists m, q_reply ev = Some m.
Proof.
  intros E os ev h s0 s R H0 H Hn Sh N12 C4 C8 C5 CP C16.
  destruct (last2 _ _ _ _ _ _ H0 H) as (r & Hs & Hp & Lg0 & Hb & Hl & Hi & D & Lg & An).
  change (2 ^ 64) with W64 in Hn. rewrite lenN_cons in Hn. assert (I : inv h s0) by (eapply hst_inv; [exact Hs|lia]).
  destruct (in_dec N.eq_dec (q_ty ev) [3; 11; 12; 14; 16]) as [K|K].
  - destruct (q_reply ev) as [m|] eqn:Re; [eexists; reflexivity|]. exfalso. destruct Sh as (S1 & S2 & S3 & _).
    destruct K as [K|[K|[K|[K|[K|[] ] ] ] ] ]; symmetry in K.
    + destruct (S2 K) as (p & pb & fl & fb & a & ab & x & Sp & Sf & Sa & Q). specialize (CP p pb _ ltac:(rewrite K; cbn; tauto) Q Sp).
      rewrite K in D. change (dispatch_t E 3 (q_id ev) (q_data ev) s0) with (RecvOpen_t E (q_id ev) (q_data ev) s0) in D. revert D. unfold RecvOpen_t.
      rewrite Q, (p_str_app p pb) by assumption. intros D. destruct (clean_t E p s0) as (ret, dir) eqn:C.
      destruct (short_ret _ _ _ _ _ Hp C CP) as [->| ->].
      * change (rc_eqb WS_SUCCESS WS_PERMISSIONS) with false in D. change (rc_eqb WS_SUCCESS WS_SUCCESS) with true in D. cbn [negb] in D.
        destruct (capped _ _); [apply status_some in D; [|exact R]; destruct D as (D & _); discriminate D|].
        rewrite (p_u32_app fl fb) in D by assumption. rewrite (p_attrs_app a ab) in D by assumption. cbv zeta in D. rewrite !R in D.
        destruct (_ && _); [apply triple_inv in D; destruct D as (_ & D & _); discriminate D|].
        destruct (_ <? 0)%Z; [apply triple_inv in D; destruct D as (_ & D & _); discriminate D|].
        destruct (HandleIdNext _) as (hh, s4). destruct (AddFileHandle _ _ _ _ s4) as (ret2, s5). rewrite !R in D.
        destruct (negb _); apply triple_inv in D; destruct D as (_ & D & _); discriminate D.
      * change (rc_eqb WS_PERMISSIONS WS_PERMISSIONS) with true in D. apply status_some in D; [|exact R]. destruct D as (D & _). discriminate D.
    + destruct (S1 ltac:(rewrite K; cbn; tauto)) as (p & pb & x & Sp & Q). specialize (CP p pb _ ltac:(rewrite K; cbn; tauto) Q Sp).
      rewrite K in D. change (dispatch_t E 11 (q_id ev) (q_data ev) s0) with (RecvOpenDir_t E (q_id ev) (q_data ev) s0) in D. revert D. unfold RecvOpenDir_t.
      rewrite Q, (p_str_app p pb) by assumption. intros D. destruct (clean_t E p s0) as (ret, dir) eqn:C.
      destruct (short_ret _ _ _ _ _ Hp C CP) as [->| ->].
      * change (rc_eqb WS_SUCCESS WS_PERMISSIONS) with false in D. change (rc_eqb WS_SUCCESS WS_SUCCESS) with true in D. cbn [negb] in D.
        destruct (capped _ _); [apply status_some in D; [|exact R]; destruct D as (D & _); discriminate D|]. cbv zeta in D. rewrite !R in D.
        destruct (_ <? 0)%Z; [apply triple_inv in D; destruct D as (_ & D & _); discriminate D|]. cbn [negb] in D.
        destruct (HandleIdNext _) as (hh, s4). rewrite !R in D. apply triple_inv in D; destruct D as (_ & D & _); discriminate D.
      * change (rc_eqb WS_PERMISSIONS WS_PERMISSIONS) with true in D. apply status_some in D; [|exact R]. destruct D as (D & _). discriminate D.
    + contradiction.
    + destruct (S3 ltac:(rewrite K; cbn; tauto)) as (p & pb & a & ab & x & Sp & Sa & Q). specialize (CP p pb _ ltac:(rewrite K; cbn; tauto) Q Sp).
      rewrite K in D. change (dispatch_t E 14 (q_id ev) (q_data ev) s0) with (RecvMKDIR_t E (q_id ev) (q_data ev) s0) in D. revert D. unfold RecvMKDIR_t.
      rewrite Q, (p_str_app p pb), (p_attrs_app a ab) by assumption. intros D. destruct (clean_t E p s0) as (ret, dir) eqn:C. cbv zeta in D.
      destruct (short_ret _ _ _ _ _ Hp C CP) as [->| ->].
      * change (rc_eqb WS_SUCCESS WS_SUCCESS) with true in D. cbv iota in D. apply outcome_some in D; [|exact R]. destruct D as (_ & D). discriminate D.
      * change (rc_eqb WS_PERMISSIONS WS_SUCCESS) with false in D. change (rc_eqb WS_PERMISSIONS WS_PERMISSIONS) with true in D. cbv iota in D.
        apply outcome_some in D; [|exact R]. destruct D as (_ & D). discriminate D.
    + destruct (S1 ltac:(rewrite K; cbn; tauto)) as (p & pb & x & Sp & Q). specialize (CP p pb _ ltac:(rewrite K; cbn; tauto) Q Sp).
      specialize (C16 K). rewrite K in D.
      change (dispatch_t E 16 (q_id ev) (q_data ev) s0) with (RecvRealPathMsg_t E (q_id ev) (q_data ev) s0) in D. revert D. unfold RecvRealPathMsg_t.
      rewrite Q, (p_str_app p pb) by assumption. intros D. destruct CP as (L & from & t & st & Dd & T & S & F). apply text_cstr in T. subst t.
      unfold MAX_FILENAME in D. destruct (N.leb_spec 256 (lenN p)); [lia|]. cbv zeta in D.
      destruct (sp_default (s_paths s0)) as [d|] eqn:Ed; [|congruence].
      assert (L32 : is32 (lenN (cstr p))) by (pose proof (cstr_len p); unfold is32, W32 in *; lia).
      destruct m256 as (M1 & M2). destruct (RealPath_ok _ _ _ _ _ Dd L32 M1 M2 S) as (ret' & out & G & X).
      destruct X as [(-> & _ & -> & _)|(_ & X)]; [|contradiction].
      unfold RecvRealPath in D. change MAX_FILENAME with 256 in D, G. destruct (N.leb_spec 256 (lenN p)); [lia|].
      rewrite Ed in D. cbv zeta in D. rewrite Ed, G in D. change (rc_eqb WS_SUCCESS WS_SUCCESS) with true in D. cbv iota in D.
      rewrite Ed in D. rewrite R in D. cbn [negb] in D. rewrite andb_false_r in D. apply triple_inv in D. destruct D as (_ & D & _). discriminate D.
  - eapply (dispatch_answer E); [exact R|exact D|exact Sh|exact K| | | |].
    + intros T hb x P. apply (C4 hb T). split; [rewrite T; cbn; tauto|]. apply p_str_some in P. destruct P as (b & Sb & Q). exists b, x. split; assumption.
    + intros T hb x v y n z P P2 P3. apply p_str_some in P. destruct P as (b & Sb & Q). apply p_two_some in P2. destruct P2 as (b1 & b2 & U1 & U2 & ->).
      apply p_u32_some in P3. destruct P3 as (nb & Un & ->). cbn [field] in U1, U2.
      eapply (C5 hb b (be_value (b1 ++ b2)) (b1 ++ b2) n nb z T); try assumption.
      * rewrite <- app_assoc. exact Q.
      * split; [|reflexivity]. destruct U1 as (U1 & _). destruct U2 as (U2 & _). rewrite lenN_app. lia.
    + intros T hb x P. apply p_str_some in P. destruct P as (b & Sb & Q). destruct (C8 hb T) as (fd & L).
      { split; [rewrite T; cbn; tauto|]. exists b, x. split; assumption. }
      destruct (live_file h s0 I hb fd L) as (e & Fe & _). congruence.
    + intros T p x P. apply p_str_some in P. destruct P as (b & Sb & Q). destruct (CP p b x ltac:(rewrite T; cbn; tauto) Q Sb) as (L & _). lia.
Qed.

(* A request that gets no reply asked nothing of the file system, but for the
   working directory. *)
Theorem C54_silent : forall E os ev h s, roomy E -> hist E (path_run os) (ev :: h) s -> q_ty ev <> 12 ->
  q_reply ev = None -> Forall (fun x => fst x = FGetcwd) (q_calls ev).
Proof.
  intros E os ev h s' R H T Re.
  destruct (hist_last _ _ _ _ _ (path_run_ok os) H) as (s & r & Hs & Hh & Hb & Hl & Hi & D & F & Lg & An). rewrite Re in D.
  destruct (dispatch_silent E _ _ _ _ _ R _ T D) as [->|[L|L] ].
  - rewrite (log_same E s _ Lg An). constructor.
  - rewrite L in Lg. rewrite (log_same E s _ Lg An). constructor.
  - rewrite (log_is E s s' _ [FGetcwd] L Lg An). constructor; [reflexivity|constructor].
Qed.

(* ---- C56: requests about paths -----------------------------------------------------
   The file named (C29), if the configuration allows it (C30), is operated on by
   one call, and the reply tells how that went. *)
Theorem C56_remove : forall E os ev h s0 s p pb x,
  hist E (path_run os) h s0 -> hist E (path_run os) (ev :: h) s -> q_ty ev = 13 -> q_data ev = pb ++ x -> str p pb ->
  on_path E h (s_paths s0) ev p (fun f => tried ev (FRemove f) (fun n => (0 <= n)%Z)) (says ev 4).
Proof.
  intros E os ev h s0 s p pb x H0 H T Q Sp cs M ok. unfold ok. clear ok.
  destruct (last2 _ _ _ _ _ _ H0 H) as (r & Hs & Hp & Lg0 & Hb & Hl & Hi & D & Lg & An). rewrite T in D.
  change (dispatch_t E 13 (q_id ev) (q_data ev) s0) with (RecvRemove_t E (q_id ev) (q_data ev) s0) in D. revert D. unfold RecvRemove_t.
  rewrite Q, (p_str_app p pb) by assumption. intros D. unfold MAX_FILENAME in D.
  destruct (N.ltb_spec 256 (lenN p)) as [L|L].
  { apply triple_inv in D. destruct D as (_ & R & S).
    split; [intros (? & _); lia|]. split; [intros (? & _); lia|]. intros _. split; [eapply nocalls; [symmetry; exact S|exact Lg|exact An]|].
    apply sayn. symmetry. exact R. }
  destruct (clean_t E p s0) as (ret, dir) eqn:C. cbv zeta in D. paths_case C cs M Hp Lg0.
  - change (rc_eqb WS_SUCCESS WS_SUCCESS) with true in D. change (rc_eqb WS_SUCCESS WS_PERMISSIONS) with false in D. cbv iota in D.
    destruct (outcome_says _ _ _ _ _ _ _ _ ev D Hi eq_refl eq_refl) as (S & Sy). cbv iota in Sy. rewrite S in Lg.
    pose proof (log_is E s0 (ask (FRemove (path_of cs)) s0) (q_calls ev) [FRemove (path_of cs)] eq_refl Lg An) as Ca. cbn [answered] in Ca.
    eexists. split; [exact Ca|]. cbn [s_log ask] in Sy.
    destruct (Z.leb_spec 0 (r_int (fs E (FRemove (path_of cs) :: s_log s0)))); (split; intros; [|]); try assumption; lia.
  - change (rc_eqb WS_PERMISSIONS WS_SUCCESS) with false in D. change (rc_eqb WS_PERMISSIONS WS_PERMISSIONS) with true in D.
    destruct (outcome_says _ _ _ _ _ _ _ _ ev D Hi eq_refl eq_refl) as (S & Sy). split; [eapply nocalls; eassumption|exact Sy].
  - destruct (rc_eqb ret WS_SUCCESS) eqn:K; [apply rc_eqb_eq in K; contradiction|].
    destruct (rc_eqb ret WS_PERMISSIONS) eqn:K2; [apply rc_eqb_eq in K2; contradiction|].
    destruct (outcome_says _ _ _ _ _ _ _ _ ev D Hi eq_refl eq_refl) as (S & Sy). split; [eapply nocalls; eassumption|exact Sy].
Qed.

Theorem C56_rmdir : forall E os ev h s0 s p pb x,
  hist E (path_run os) h s0 -> hist E (path_run os) (ev :: h) s -> q_ty ev = 15 -> q_data ev = pb ++ x -> str p pb ->
  on_path E h (s_paths s0) ev p (fun f => tried ev (FRmdir f) (fun n => n = 0%Z)) (says ev 4).
Proof.
  intros E os ev h s0 s p pb x H0 H T Q Sp cs M ok. unfold ok. clear ok.
  destruct (last2 _ _ _ _ _ _ H0 H) as (r & Hs & Hp & Lg0 & Hb & Hl & Hi & D & Lg & An). rewrite T in D.
  change (dispatch_t E 15 (q_id ev) (q_data ev) s0) with (RecvRMDIR_t E (q_id ev) (q_data ev) s0) in D. revert D. unfold RecvRMDIR_t.
  rewrite Q, (p_str_app p pb) by assumption. intros D.
  destruct (clean_t E p s0) as (ret, dir) eqn:C. cbv zeta in D. paths_case C cs M Hp Lg0.
  - change (rc_eqb WS_SUCCESS WS_SUCCESS) with true in D. change (rc_eqb WS_SUCCESS WS_PERMISSIONS) with false in D. cbv iota in D.
    destruct (outcome_says _ _ _ _ _ _ _ _ ev D Hi eq_refl eq_refl) as (S & Sy). cbv iota in Sy. rewrite S in Lg.
    pose proof (log_is E s0 (ask (FRmdir (path_of cs)) s0) (q_calls ev) [FRmdir (path_of cs)] eq_refl Lg An) as Ca. cbn [answered] in Ca.
    eexists. split; [exact Ca|]. cbn [s_log ask] in Sy.
    destruct (Z.eqb_spec (r_int (fs E (FRmdir (path_of cs) :: s_log s0))) 0); (split; intros; [|]); try assumption; contradiction.
  - change (rc_eqb WS_PERMISSIONS WS_SUCCESS) with false in D. change (rc_eqb WS_PERMISSIONS WS_PERMISSIONS) with true in D.
    destruct (outcome_says _ _ _ _ _ _ _ _ ev D Hi eq_refl eq_refl) as (S & Sy). split; [eapply nocalls; eassumption|exact Sy].
  - destruct (rc_eqb ret WS_SUCCESS) eqn:K; [apply rc_eqb_eq in K; contradiction|].
    destruct (rc_eqb ret WS_PERMISSIONS) eqn:K2; [apply rc_eqb_eq in K2; contradiction|].
    destruct (outcome_says _ _ _ _ _ _ _ _ ev D Hi eq_refl eq_refl) as (S & Sy). split; [eapply nocalls; eassumption|exact Sy].
Qed.

Theorem C56_mkdir : forall E os ev h s0 s p pb a ab x,
  hist E (path_run os) h s0 -> hist E (path_run os) (ev :: h) s -> q_ty ev = 14 -> q_data ev = pb ++ ab ++ x -> str p pb -> attr_wire a ab ->
  on_path E h (s_paths s0) ev p
    (fun f => tried ev (FMkdir f (if N.testbit (a_flags a) 2 then a_per a mod 512 else 493)) (fun n => n = 0%Z)) (q_reply ev = None).
Proof.
  intros E os ev h s0 s p pb a ab x H0 H T Q Sp Sa cs M ok. unfold ok. clear ok.
  destruct (last2 _ _ _ _ _ _ H0 H) as (r & Hs & Hp & Lg0 & Hb & Hl & Hi & D & Lg & An). rewrite T in D.
  change (dispatch_t E 14 (q_id ev) (q_data ev) s0) with (RecvMKDIR_t E (q_id ev) (q_data ev) s0) in D. revert D. unfold RecvMKDIR_t.
  rewrite Q, (p_str_app p pb), (p_attrs_app a ab) by assumption. intros D.
  destruct (clean_t E p s0) as (ret, dir) eqn:C. cbv zeta in D. rewrite bit_perm, safe_mode in D. set (md := if N.testbit (a_flags a) 2 then _ else _) in *. clearbody md.
  paths_case C cs M Hp Lg0.
  - change (rc_eqb WS_SUCCESS WS_SUCCESS) with true in D. cbv iota in D.
    destruct (outcome_says _ _ _ _ _ _ _ _ ev D Hi eq_refl eq_refl) as (S & Sy). cbv iota in Sy. rewrite S in Lg.
    pose proof (log_is E s0 (ask (FMkdir (path_of cs) md) s0) (q_calls ev) [FMkdir (path_of cs) md] eq_refl Lg An) as Ca. cbn [answered] in Ca.
    eexists. split; [exact Ca|]. cbn [s_log ask] in Sy.
    destruct (Z.eqb_spec (r_int (fs E (FMkdir (path_of cs) md :: s_log s0))) 0); (split; intros; [|]); try assumption; contradiction.
  - change (rc_eqb WS_PERMISSIONS WS_SUCCESS) with false in D. change (rc_eqb WS_PERMISSIONS WS_PERMISSIONS) with true in D.
    destruct (outcome_says _ _ _ _ _ _ _ _ ev D Hi eq_refl eq_refl) as (S & Sy). split; [eapply nocalls; eassumption|exact Sy].
  - destruct (rc_eqb ret WS_SUCCESS) eqn:K; [apply rc_eqb_eq in K; contradiction|].
    destruct (rc_eqb ret WS_PERMISSIONS) eqn:K2; [apply rc_eqb_eq in K2; contradiction|].
    apply triple_inv in D. destruct D as (_ & R & S). split; [eapply nocalls; [symmetry; exact S|exact Lg|exact An]|symmetry; exact R].
Qed.

Theorem C56_rename : forall E os ev h s0 s p pb q qb x,
  hist E (path_run os) h s0 -> hist E (path_run os) (ev :: h) s -> q_ty ev = 18 -> q_data ev = pb ++ qb ++ x -> str p pb -> str q qb ->
  on_path E h (s_paths s0) ev p (fun f =>
    on_path E h (s_paths s0) ev q (fun g => tried ev (FRename f g) (fun n => (0 <= n)%Z)) (says ev 4)) (says ev 4).
Proof.
  intros E os ev h s0 s p pb q qb x H0 H T Q Sp Sq cs M ok. unfold ok. clear ok.
  destruct (last2 _ _ _ _ _ _ H0 H) as (r & Hs & Hp & Lg0 & Hb & Hl & Hi & D & Lg & An). rewrite T in D.
  change (dispatch_t E 18 (q_id ev) (q_data ev) s0) with (RecvRename_t E (q_id ev) (q_data ev) s0) in D. revert D. unfold RecvRename_t. cbv zeta.
  rewrite Q, (p_str_app p pb), (p_str_app q qb) by assumption. intros D.
  destruct (clean_t E p s0) as (ret, dir) eqn:C. paths_case C cs M Hp Lg0.
  - change (rc_eqb WS_SUCCESS WS_SUCCESS) with true in D. cbn [negb] in D.
    intros cs2 M2 ok. unfold ok. clear ok. destruct (clean_t E q s0) as (ret2, dir2) eqn:C2.
    set (f := path_of cs) in *. clearbody f. clear Sh Al Sh2 Al2. paths_case C2 cs2 M2 Hp Lg0.
    + change (rc_eqb WS_SUCCESS WS_SUCCESS) with true in D. cbn [negb] in D. set (g := path_of cs2) in *. clearbody g.
      destruct (outcome_says _ _ _ _ _ _ _ _ ev D Hi eq_refl eq_refl) as (S & Sy). cbv iota in Sy. rewrite S in Lg.
      pose proof (log_is E s0 (ask (FRename f g) s0) (q_calls ev) [FRename f g] eq_refl Lg An) as Ca. cbn [answered] in Ca.
      eexists. split; [exact Ca|]. cbn [s_log ask] in Sy.
      destruct (Z.leb_spec 0 (r_int (fs E (FRename f g :: s_log s0)))); (split; intros; [|]); try assumption; lia.
    + change (rc_eqb WS_PERMISSIONS WS_SUCCESS) with false in D. change (rc_eqb WS_PERMISSIONS WS_PERMISSIONS) with true in D. cbn [negb] in D.
      destruct (outcome_says _ _ _ _ _ _ _ _ ev D Hi eq_refl eq_refl) as (S & Sy). split; [eapply nocalls; eassumption|exact Sy].
    + destruct (rc_eqb ret2 WS_SUCCESS) eqn:K; [apply rc_eqb_eq in K; contradiction|]. cbn [negb] in D.
      destruct (rc_eqb ret2 WS_PERMISSIONS) eqn:K2; [apply rc_eqb_eq in K2; contradiction|].
      destruct (outcome_says _ _ _ _ _ _ _ _ ev D Hi eq_refl eq_refl) as (S & Sy). split; [eapply nocalls; eassumption|exact Sy].
  - change (rc_eqb WS_PERMISSIONS WS_SUCCESS) with false in D. change (rc_eqb WS_PERMISSIONS WS_PERMISSIONS) with true in D. cbn [negb] in D.
    destruct (outcome_says _ _ _ _ _ _ _ _ ev D Hi eq_refl eq_refl) as (S & Sy). split; [eapply nocalls; eassumption|exact Sy].
  - destruct (rc_eqb ret WS_SUCCESS) eqn:K; [apply rc_eqb_eq in K; contradiction|]. cbn [negb] in D.
    destruct (rc_eqb ret WS_PERMISSIONS) eqn:K2; [apply rc_eqb_eq in K2; contradiction|].
    destruct (outcome_says _ _ _ _ _ _ _ _ ev D Hi eq_refl eq_refl) as (S & Sy). split; [eapply nocalls; eassumption|exact Sy].
Qed.

(* OPEN and OPENDIR, if there is memory for the handle and fewer than 64 handles
   are open *)
Local Lemma short_len : forall p path cs, means p path cs -> short p path -> lenN (path_of cs) < 256.
Proof.
  intros p path cs M S. destruct (means_inv _ _ _ M) as (from & st & D & St & ->). destruct (short_inv _ _ _ _ D St S) as (_ & F).
  specialize (F (Datatypes.length (pieces (cstr path)))). rewrite firstn_all in F. exact F.
Qed.

Theorem C56_open : forall E os ev h s0 s p pb fl fb a ab x, roomy E -> lenN (ev :: h) < 2 ^ 64 -> few opened h ->
  hist E (path_run os) h s0 -> hist E (path_run os) (ev :: h) s ->
  q_ty ev = 3 -> q_data ev = pb ++ fb ++ ab ++ x -> str p pb -> u32 fl fb -> attr_wire a ab ->
  on_path E h (s_paths s0) ev p (fun f => opens ev f fl a) (q_reply ev = None).
Proof.
  intros E os ev h s0 s p pb fl fb a ab x R Hn Fw H0 H T Q Sp Sf Sa cs M ok. unfold ok. clear ok.
  destruct (last2 _ _ _ _ _ _ H0 H) as (r & Hs & Hp & Lg0 & Hb & Hl & Hi & D & Lg & An). rewrite T in D.
  change (2 ^ 64) with W64 in *. rewrite lenN_cons in Hn. assert (I : inv h s0) by (eapply hst_inv; [exact Hs|lia]).
  pose proof (few_files h s0 I Fw) as Cp.
  change (dispatch_t E 3 (q_id ev) (q_data ev) s0) with (RecvOpen_t E (q_id ev) (q_data ev) s0) in D. revert D. unfold RecvOpen_t.
  rewrite Q, (p_str_app p pb), Cp by assumption. rewrite (p_u32_app fl fb), (p_attrs_app a ab), open_flags_ok, bit_perm by assumption. intros D.
  destruct (clean_t E p s0) as (ret, dir) eqn:C. paths_case C cs M Hp Lg0.
  - change (rc_eqb WS_SUCCESS WS_SUCCESS) with true in D. change (rc_eqb WS_SUCCESS WS_PERMISSIONS) with false in D. cbn [negb] in D. cbv zeta in D.
    pose proof (short_len _ _ _ M Sh) as Ln. set (f := path_of cs) in *. clearbody f. rewrite !R in D. rewrite safe_mode in D.
    set (md := (if N.testbit (a_flags a) 2 then a_per a else 420) mod 512) in *.
    assert (Emd : md = if N.testbit (a_flags a) 2 then a_per a mod 512 else 420) by (unfold md; destruct (N.testbit _ _); reflexivity). unfold opens. rewrite <- Emd. clearbody md.
    cbn [s_log ask] in D. set (st := fs E (FStat f false :: s_log s0)) in *. set (c := FOpen f (open_flags fl) md) in *.
    set (o := fs E (c :: FStat f false :: s_log s0)) in *. exists st. cbv zeta.
    destruct (Z.eqb_spec (r_int st) 0) as [St|St].
    + destruct (N.eqb_spec (N.land (a_per (r_attr st)) PER_MASK_TYPE) PER_FILE) as [Pf|Pf]; cbn [andb negb] in D; cbv iota in D.
      * assert (No : ~ (r_int st = 0%Z /\ N.land (a_per (r_attr st)) 258048 <> 32768)) by (intros (_ & Z); apply Z; exact Pf).
        assert (G : q_calls ev = [(FStat f false, st); (c, o)] /\ ((r_int o < 0)%Z -> says ev 4) /\
           ((0 <= r_int o)%Z -> exists hb m, q_reply ev = Some m /\ handle_msg (q_id ev) hb m)).
        { destruct (Z.ltb_spec (r_int o) 0) as [Lo|Lo].
          - apply triple_inv in D. destruct D as (_ & Rp & S). split; [eapply (log_is E s0 s _ [FStat f false; c]); [rewrite <- S; reflexivity|exact Lg|exact An]|].
            split; [|lia]. intros _. eapply says_code; [symmetry; exact Rp|assumption|reflexivity|reflexivity].
          - unfold AddFileHandle, HandleIdNext in D. cbn [s_files set_next ask] in D. rewrite Cp in D. rewrite !R in D. cbn [negb] in D. unfold MAX_FILENAME in D.
            destruct (N.ltb_spec 256 (lenN f + 1)); [lia|]. change (rc_eqb WS_SUCCESS WS_SUCCESS) with true in D. cbn [negb] in D. rewrite !R in D.
            apply triple_inv in D. destruct D as (_ & Rp & S). split; [eapply (log_is E s0 s _ [FStat f false; c]); [rewrite <- S; reflexivity|exact Lg|exact An]|].
            split; [lia|]. intros _. eexists. eexists. split; [symmetry; exact Rp|]. apply handle_ok. assumption. }
        destruct G as (G1 & G2 & G3). split; [rewrite G1; left; reflexivity|]. split; [intros Z; contradiction|]. intros _. exists o. split; intros Z; (split; [exact G1|auto]).
      * apply triple_inv in D. destruct D as (_ & Rp & S).
        pose proof (log_is E s0 s _ [FStat f false] ltac:(rewrite <- S; reflexivity) Lg An) as G1. cbn [answered] in G1. fold st in G1.
        split; [rewrite G1; left; reflexivity|]. split.
        -- intros _. split; [exact G1|]. eapply says_code; [symmetry; exact Rp|assumption|reflexivity|reflexivity].
        -- intros Z. exfalso. apply Z. split; [assumption|exact Pf].
    + cbn [andb] in D. cbv iota in D.
      assert (No : ~ (r_int st = 0%Z /\ N.land (a_per (r_attr st)) 258048 <> 32768)) by (intros (Z & _); contradiction).
      assert (G : q_calls ev = [(FStat f false, st); (c, o)] /\ ((r_int o < 0)%Z -> says ev 4) /\
           ((0 <= r_int o)%Z -> exists hb m, q_reply ev = Some m /\ handle_msg (q_id ev) hb m)).
      { destruct (Z.ltb_spec (r_int o) 0) as [Lo|Lo].
        - apply triple_inv in D. destruct D as (_ & Rp & S). split; [eapply (log_is E s0 s _ [FStat f false; c]); [rewrite <- S; reflexivity|exact Lg|exact An]|].
          split; [|lia]. intros _. eapply says_code; [symmetry; exact Rp|assumption|reflexivity|reflexivity].
        - unfold AddFileHandle, HandleIdNext in D. cbn [s_files set_next ask] in D. rewrite Cp in D. rewrite !R in D. cbn [negb] in D. unfold MAX_FILENAME in D.
          destruct (N.ltb_spec 256 (lenN f + 1)); [lia|]. change (rc_eqb WS_SUCCESS WS_SUCCESS) with true in D. cbn [negb] in D. rewrite !R in D.
          apply triple_inv in D. destruct D as (_ & Rp & S). split; [eapply (log_is E s0 s _ [FStat f false; c]); [rewrite <- S; reflexivity|exact Lg|exact An]|].
          split; [lia|]. intros _. eexists. eexists. split; [symmetry; exact Rp|]. apply handle_ok. assumption. }
      destruct G as (G1 & G2 & G3). split; [rewrite G1; left; reflexivity|]. split; [intros Z; contradiction|]. intros _. exists o. split; intros Z; (split; [exact G1|auto]).
  - change (rc_eqb WS_PERMISSIONS WS_PERMISSIONS) with true in D. cbv iota in D.
    destruct (status_says _ _ _ _ _ _ _ ev D Hi eq_refl eq_refl) as (S & Sy). split; [eapply nocalls; eassumption|exact Sy].
  - destruct (rc_eqb ret WS_PERMISSIONS) eqn:K2; [apply rc_eqb_eq in K2; contradiction|].
    destruct (rc_eqb ret WS_SUCCESS) eqn:K; [apply rc_eqb_eq in K; contradiction|]. cbn [negb] in D.
    apply triple_inv in D. destruct D as (_ & Rp & S). split; [eapply nocalls; [symmetry; exact S|exact Lg|exact An]|symmetry; exact Rp].
Qed.

Theorem C56_opendir : forall E os ev h s0 s p pb x, roomy E -> lenN (ev :: h) < 2 ^ 64 -> few opened_dir h ->
  hist E (path_run os) h s0 -> hist E (path_run os) (ev :: h) s ->
  q_ty ev = 11 -> q_data ev = pb ++ x -> str p pb ->
  on_path E h (s_paths s0) ev p (fun f => opens_dir ev f) (q_reply ev = None).
Proof.
  intros E os ev h s0 s p pb x R Hn Fw H0 H T Q Sp cs M ok. unfold ok. clear ok.
  destruct (last2 _ _ _ _ _ _ H0 H) as (r & Hs & Hp & Lg0 & Hb & Hl & Hi & D & Lg & An). rewrite T in D.
  change (2 ^ 64) with W64 in *. rewrite lenN_cons in Hn. assert (I : inv h s0) by (eapply hst_inv; [exact Hs|lia]).
  pose proof (few_dirs h s0 I (roomy_dirs _ _ _ _ R Hs) Fw) as Cp.
  change (dispatch_t E 11 (q_id ev) (q_data ev) s0) with (RecvOpenDir_t E (q_id ev) (q_data ev) s0) in D. revert D. unfold RecvOpenDir_t.
  rewrite Q, (p_str_app p pb), Cp by assumption. intros D.
  destruct (clean_t E p s0) as (ret, dir) eqn:C. paths_case C cs M Hp Lg0.
  - change (rc_eqb WS_SUCCESS WS_SUCCESS) with true in D. change (rc_eqb WS_SUCCESS WS_PERMISSIONS) with false in D. cbn [negb] in D. cbv zeta in D.
    rewrite !R in D. cbn [negb] in D. cbn [s_log ask] in D. set (c := FOpendir (path_of cs)) in *. set (o := fs E (c :: s_log s0)) in *. exists o.
    destruct (Z.ltb_spec (r_int o) 0) as [Lo|Lo].
    + apply triple_inv in D. destruct D as (_ & Rp & S). split; [eapply (log_is E s0 s _ [c]); [rewrite <- S; reflexivity|exact Lg|exact An]|].
      split; [|lia]. intros _. eapply says_code; [symmetry; exact Rp|assumption|reflexivity|reflexivity].
    + unfold HandleIdNext in D. rewrite !R in D. apply triple_inv in D. destruct D as (_ & Rp & S).
      split; [eapply (log_is E s0 s _ [c]); [rewrite <- S; reflexivity|exact Lg|exact An]|]. split; [lia|]. intros _.
      eexists. eexists. split; [symmetry; exact Rp|]. apply handle_ok. assumption.
  - change (rc_eqb WS_PERMISSIONS WS_PERMISSIONS) with true in D. cbv iota in D.
    destruct (status_says _ _ _ _ _ _ _ ev D Hi eq_refl eq_refl) as (S & Sy). split; [eapply nocalls; eassumption|exact Sy].
  - destruct (rc_eqb ret WS_PERMISSIONS) eqn:K2; [apply rc_eqb_eq in K2; contradiction|].
    destruct (rc_eqb ret WS_SUCCESS) eqn:K; [apply rc_eqb_eq in K; contradiction|]. cbn [negb] in D.
    apply triple_inv in D. destruct D as (_ & Rp & S). split; [eapply nocalls; [symmetry; exact S|exact Lg|exact An]|symmetry; exact Rp].
Qed.

(* ---- a session in the directory /srv/jail, starting from /srv/jail/up, that
   meets the hypotheses: OPEN, SETSTAT, REMOVE outside, RENAME, FSTAT, STAT ------- *)
Definition jl : list path_set :=
  [SetConfine None (Some (ascii "/srv/jail")); SetDefault None (Some (ascii "/srv/jail/up"))].
Definition jl_open : bytes := (c32toa 4 ++ ascii "../f") ++ c32toa 11 ++ c32toa 0 ++ [].
Definition jl_ab : bytes := c32toa 13 ++ (c32toa 0 ++ c32toa 77) ++ c32toa 2541 ++ c32toa 5 ++ c32toa 6.
Definition jl_a := mkAttrs 13 0 77 0 0 2541 5 6 0.
Definition jl_set : bytes := (c32toa 1 ++ ascii "g") ++ jl_ab ++ [].
Definition jl_rm : bytes := (c32toa 11 ++ ascii "/etc/passwd") ++ [].
Definition jl_mv : bytes := (c32toa 1 ++ ascii "a") ++ (c32toa 1 ++ ascii "b") ++ [].
Definition jl_fstat : bytes := (c32toa 8 ++ ex_hb) ++ [].
Definition jl_stat : bytes := (c32toa 1 ++ ascii "a") ++ [].
Definition jl_ans (n : Z) : ans := mkAns n [] (mkAttrs 15 0 10 1000 1000 33188 1 2 0) [].
Definition jl_fs (log : list fscall) : ans :=
  match log with
  | FStat _ false :: [] => jl_ans (-1)
  | FOpen _ _ _ :: t => jl_ans 4
  | _ => jl_ans 0
  end.
Definition jl_env : senv := mkSenv jl_fs (fun _ _ => false) (fun _ _ => true) (fun n _ => Some n).
Definition jl_do (x : list hev * srv) (r : N * N * bytes) : list hev * srv :=
  let '(h, s) := x in let '(ty, id, data) := r in
  match dispatch jl_env ty id data s with
  | Some (_, out, s') =>
      (mkHev ty id data out (answered jl_env (s_log s)
         (rev (firstn (Datatypes.length (s_log s') - Datatypes.length (s_log s)) (s_log s')))) :: h, s')
  | None => x
  end.
Definition jl_reqs := [(3, 1, jl_open); (9, 2, jl_set); (13, 3, jl_rm); (18, 4, jl_mv); (8, 5, jl_fstat); (17, 6, jl_stat)].
Definition jl_run (n : nat) : list hev * srv := fold_left jl_do (firstn n jl_reqs) ([], srv0 (path_run jl)).

Local Lemma jl_hist : forall p h s ty id data h' s', hist jl_env p h s ->
  bytes_ok data -> lenN data <= 65536 -> is32 id -> jl_do (h, s) (ty, id, data) = (h', s') ->
  (exists r out, dispatch jl_env ty id data s = Some (r, out, s') /\
     rev (rev (firstn (Datatypes.length (s_log s') - Datatypes.length (s_log s)) (s_log s'))) ++ s_log s = s_log s') ->
  hist jl_env p h' s'.
Proof.
  intros p h s ty id data h' s' H Hb Hl Hi St (r & out & D & L). unfold jl_do in St. rewrite D in St.
  assert (h' = mkHev ty id data out (answered jl_env (s_log s)
         (rev (firstn (Datatypes.length (s_log s') - Datatypes.length (s_log s)) (s_log s')))) :: h) as -> by congruence.
  eapply H_req; try eassumption. symmetry. exact L.
Qed.
Ltac jl_step H ty id data :=
  eapply (jl_hist (path_run jl) _ _ ty id data _ _ H);
  [vm_compute; repeat constructor|vm_compute; discriminate|reflexivity|vm_compute; reflexivity|eexists; eexists; split; vm_compute; reflexivity].
Example jl_session : forall n, (n <= 6)%nat -> hist jl_env (path_run jl) (fst (jl_run n)) (snd (jl_run n)).
Proof.
  assert (H0 : hist jl_env (path_run jl) (fst (jl_run 0)) (snd (jl_run 0))) by constructor.
  assert (H1 : hist jl_env (path_run jl) (fst (jl_run 1)) (snd (jl_run 1))) by (jl_step H0 3 1 jl_open).
  assert (H2 : hist jl_env (path_run jl) (fst (jl_run 2)) (snd (jl_run 2))) by (jl_step H1 9 2 jl_set).
  assert (H3 : hist jl_env (path_run jl) (fst (jl_run 3)) (snd (jl_run 3))) by (jl_step H2 13 3 jl_rm).
  assert (H4 : hist jl_env (path_run jl) (fst (jl_run 4)) (snd (jl_run 4))) by (jl_step H3 18 4 jl_mv).
  assert (H5 : hist jl_env (path_run jl) (fst (jl_run 5)) (snd (jl_run 5))) by (jl_step H4 8 5 jl_fstat).
  assert (H6 : hist jl_env (path_run jl) (fst (jl_run 6)) (snd (jl_run 6))) by (jl_step H5 17 6 jl_stat).
  intros n Hn. do 7 (destruct n as [|n]; [assumption|]). lia.
Qed.
Example jl_calls : map (fun ev => map fst (q_calls ev)) (fst (jl_run 6)) =
  [ [FStat (ascii "/srv/jail/up/a") false];
    [FFstat 4];
    [FRename (ascii "/srv/jail/up/a") (ascii "/srv/jail/up/b")];
    [];
    [FChmod (ascii "/srv/jail/up/g") 493; FSetTime (ascii "/srv/jail/up/g") 5 6];
    [FStat (ascii "/srv/jail/f") false; FOpen (ascii "/srv/jail/f") 66 420] ].
Proof. vm_compute. reflexivity. Qed.
Definition jl_home : list bytes := [ascii "srv"; ascii "jail"; ascii "up"].
Example jl_means : means (path_run jl) (ascii "../f") [ascii "srv"; ascii "jail"; ascii "f"] /\ short (path_run jl) (ascii "../f").
Proof.
  assert (D : default_is (sp_default (path_run jl)) jl_home).
  { change (sp_default (path_run jl)) with (Some (ascii "/srv/jail/up")). split; [|split; [reflexivity|vm_compute; reflexivity]].
    repeat constructor; try discriminate; vm_compute; intuition discriminate. }
  assert (T : text (ascii "../f") (ascii "../f")) by (apply (cstr_text (ascii "../f"))).
  assert (S : start jl_home (ascii "../f") jl_home) by (right; split; [intros (x & K); discriminate K|reflexivity]).
  split; [exists jl_home, (ascii "../f"), jl_home; repeat (split; [assumption|]); vm_compute; reflexivity|].
  split; [reflexivity|]. exists jl_home, (ascii "../f"), jl_home. repeat (split; [assumption|]).
  intros n. do 3 (destruct n as [|n]; [vm_compute; reflexivity|]). vm_compute. reflexivity.
Qed.
Example jl_allowed : allowed (lnk jl_env []) (path_run jl) [ascii "srv"; ascii "jail"; ascii "f"] /\
  ~ allowed (lnk jl_env []) (path_run jl) [ascii "etc"; ascii "passwd"].
Proof.
  change (lnk jl_env []) with (fun _ : bytes => false). split.
  - intros root P Q. change (sp_confine (path_run jl)) with (Some (path_of [ascii "srv"; ascii "jail"])) in Q.
    assert (root = [ascii "srv"; ascii "jail"]) as ->.
    { apply path_of_inj; [assumption| |congruence]. repeat constructor; try discriminate; vm_compute; intuition discriminate. }
    split; [exists [ascii "f"]; reflexivity|]. right. intros a b _ _. reflexivity.
  - intros K. destruct (K [ascii "srv"; ascii "jail"]) as ((x & A) & _).
    + repeat constructor; try discriminate; vm_compute; intuition discriminate.
    + vm_compute. reflexivity.
    + discriminate A.
Qed.
Example jl_wire : attr_wire jl_a jl_ab.
Proof.
  exists (c32toa 13), (c32toa 0), (c32toa 77), [], [], (c32toa 2541), (c32toa 5), (c32toa 6), [], []. cbn [a_flags jl_a].
  repeat (split; [first [apply u32_c32; reflexivity | split; reflexivity | constructor]|]). reflexivity.
Qed.
Example jl_few : few opened [] /\ roomy jl_env /\ stat_env jl_env.
Proof.
  split; [|split].
  - intros [|b l] _ K; [cbn; lia|]. destruct (K b ltac:(left; reflexivity)) as (fd & L). inversion L.
  - intros log n. reflexivity.
  - intros log. assert (K : forall n, stat_attrs (r_attr (jl_ans n))) by (intros n; repeat split; reflexivity).
    cbn [fs jl_env]. unfold jl_fs. destruct log as [|c log]; [apply K|]. destruct c; try apply K. destruct nofollow; try apply K. destruct log; apply K.
Qed.

Print Assumptions C53_stat.
Print Assumptions C53_fstat.
Print Assumptions C53_setstat.
Print Assumptions C53_fsetstat.
Print Assumptions C53_unambiguous.
Print Assumptions C53_size_refuted.
Print Assumptions C54_reply.
Print Assumptions C54_always_refuted.
Print Assumptions C54_always_partial.
Print Assumptions C54_silent.
Print Assumptions C56_remove.
Print Assumptions C56_rmdir.
Print Assumptions C56_mkdir.
Print Assumptions C56_rename.
Print Assumptions C56_open.
Print Assumptions C56_opendir.
