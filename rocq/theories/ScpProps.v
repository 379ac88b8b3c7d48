(* ScpProps.v - the properties C57, C58, C59 and C62 of receiving files over
   SCP. *)
From Coq Require Import String.
From Verif Require Import Base PathModel WireProofs NegoSpec ScpModel PathSpec PathProofs ScpSpec ScpProofs ScpProofs2 ScpProofs3 ScpProofs4 ScpProofs5.
From Coq Require Import List NArith ZArith Bool Lia.
Import ListNotations.
Open Scope N_scope.

Lemma starts_started : forall E k, starts E k -> started k.
Proof. intros E k [(c & H)|(d & H)]; [exact (serve_started E c k H)|exact (from_started E d k H)]. Qed.

(* A concrete system: everything succeeds, the stream is 3. *)
Definition good_sys : sys := fun _ c =>
  match c with SOpen _ => 3%Z | SWrite _ d => Z.of_N (lenN d) | _ => 0%Z end.
Definition upload : bytes := ascii "scp -r -t /srv/up".
Definition nl : bytes := [10].
(* A directory "d" with the file "a" of five bytes, in pieces. *)
Definition session : list sev :=
  [EAgain; ESent 1; EData (ascii "D0755 0 "); EData (ascii "d" ++ nl); ESent 1;
   EData (ascii "C0644 5 a" ++ nl); ESent 0; ESent 1; EData (ascii "he"); EAgain; EData (ascii "llo"); ESent 1; EData [0];
   EData (ascii "E" ++ nl); ESent 1; EEnd].
Definition after (cmd : bytes) (es : list sev) : option sink :=
  match serve good_sys cmd with (WS_SUCCESS, k) => sink_run good_sys es k | _ => None end.

(* ------------------------------------------------------------------ *)
(* C57                                                                  *)

(* Whatever the peer sends, in whatever pieces, and whatever the system
   answers: directories are entered, and files and directories created, only
   inside the directory that receiving started in. *)
Definition C57_full : Prop :=
  forall E k es k', starts E k -> sink_run E es k = Some k' -> confined (k_base k) (k_log k').

(* A destination "x.." makes the receiver enter "x" and rename what it is sent
   to "..": with "-r", it climbs to the parent. *)
Definition dots_sys : sys := fun _ c =>
  match c with SMkdir _ _ => EEXIST | SOpen _ => 3%Z | _ => 0%Z end.
Definition dots_events : list sev := [EAgain; ESent 1; EData (ascii "D0755 0 d" ++ nl)].
Theorem C57_refuted : ~ C57_full.
Proof.
  intros H. destruct (serve dots_sys (ascii "scp -r -t x..")) as [r k] eqn:Sv.
  assert (R : r = WS_SUCCESS) by (vm_compute in Sv; congruence). subst r.
  assert (Hs : starts dots_sys k) by (left; eexists; exact Sv).
  destruct (sink_run dots_sys dots_events k) as [k'|] eqn:Rn; [|exact (run_some _ _ _ Rn)].
  specialize (H dots_sys k dots_events k' Hs Rn).
  assert (K : k = snd (serve dots_sys (ascii "scp -r -t x.."))) by (rewrite Sv; reflexivity).
  assert (L : option_map k_log (sink_run dots_sys dots_events (snd (serve dots_sys (ascii "scp -r -t x..")))) =
    Some ((SChdir (ascii ".."), 0%Z) :: (SLink (ascii ".."), 0%Z) :: [(SMkdir (ascii "..") 493, EEXIST);
          (SChdir (ascii "x"), 0%Z); (SProbe (ascii "x"), 0%Z)])) by (vm_compute; reflexivity).
  rewrite <- K, Rn in L. cbn [option_map] in L.
  assert (L' : k_log k' = [(SChdir (ascii ".."), 0%Z); (SLink (ascii ".."), 0%Z)] ++ (SMkdir (ascii "..") 493, EEXIST) ::
          [(SChdir (ascii "x"), 0%Z); (SProbe (ascii "x"), 0%Z)]) by (cbn [app]; congruence).
  specialize (H _ _ _ _ L'). destruct H as (_ & _ & _ & P & _). apply P. reflexivity.
Qed.
Print Assumptions C57_refuted.

(* It holds when the name taken from the destination, if any, is a proper one. *)
Theorem C57_confined_partial : forall E k es k', starts E k -> (k_name k = [] \/ plain (k_name k)) ->
  sink_run E es k = Some k' -> confined (k_base k) (k_log k').
Proof.
  intros E k es k' Hs G R. destruct (started_Inv k (starts_started E k Hs) G) as [I _].
  destruct (Inv_run E (k_base k) es k k' I R) as ((C & _) & _). exact C.
Qed.
Print Assumptions C57_confined_partial.

(* In particular for a destination with proper components: everything happens
   inside its parent directory. *)
Theorem C57_destination_partial : forall E fs cs c es k k', Forall plain (cs ++ [c]) -> Forall (fun c => ~ In 0 c) (cs ++ [c]) ->
  ~ In 58 c -> lenN (path_of (cs ++ [c])) + 4 <= 1024 -> quiet (path_of (cs ++ [c])) 0 ->
  Forall (fun c => c <> 116 /\ c <> 102) fs ->
  serve E (scp_to fs (path_of (cs ++ [c]))) = (WS_SUCCESS, k) -> sink_run E es k = Some k' ->
  confined (flat_map (cons 47) cs ++ [47]) (k_log k').
Proof.
  intros E fs cs c es k k' F Z Hc L Q Fl Sv R. pose proof Sv as Sv0. rewrite serve_to in Sv by assumption. cbv zeta in Sv.
  destruct (E [] _ =? 0)%Z; [|discriminate]. apply pair_equal_spec in Sv. destruct Sv as [_ Sv].
  assert (B : k_base k = fm cs ++ [47] /\ k_name k = c) by (rewrite <- Sv; split; reflexivity). destruct B as [B N1].
  change (flat_map (cons 47) cs) with (fm cs). rewrite <- B. apply (C57_confined_partial E k es k'); [left; eexists; exact Sv0| |exact R].
  right. rewrite N1. apply Forall_app in F. destruct F as [_ F]. inversion F. assumption.
Qed.
Print Assumptions C57_destination_partial.

Example C57_session : option_map (fun k => rev (k_log k)) (after upload session) =
  Some [(SProbe (ascii "/srv/"), 0%Z); (SChdir (ascii "/srv/"), 0%Z);
        (SMkdir (ascii "up") 493, 0%Z); (SLink (ascii "up"), 0%Z); (SChdir (ascii "up"), 0%Z);
        (SLink (ascii "a"), 0%Z); (SOpen (ascii "a"), 3%Z); (SWrite 3 (ascii "he"), 2%Z); (SWrite 3 (ascii "llo"), 3%Z);
        (SClose 3, 0%Z); (SChdir (ascii ".."), 0%Z)].
Proof. vm_compute. reflexivity. Qed.
Example C57_hypotheses : upload = scp_to [114] (path_of ([ascii "srv"] ++ [ascii "up"])) /\
  Forall plain ([ascii "srv"] ++ [ascii "up"]).
Proof.
  split; [reflexivity|]. cbn [app]. repeat constructor; try discriminate; cbn; intros H; repeat (destruct H as [H|H]; [discriminate|]); exact H.
Qed.

(* ------------------------------------------------------------------ *)
(* C58                                                                  *)

(* A stream is written to, given times and closed only while it is the one
   open; and none is open when the request has ended, or was aborted. *)
Theorem C58_streams : forall E k es k', starts E k -> sink_run E es k = Some k' ->
  streams_ok (k_log k') /\
  (k_st k' = SCP_DONE \/ (k_st k' = SEND_CONFIRMATION /\ k_conf k' = ABORT) -> live (k_log k') = None).
Proof.
  intros E k es k' Hs R. destruct (started_InvS k (starts_started E k Hs)) as [I _].
  pose proof (InvS_run E es k k' I R) as I'. split; [apply I'|apply InvS_end; exact I'].
Qed.
Print Assumptions C58_streams.

(* The contents. [k2]: the state in which a file's bytes begin to be read, after
   any history; [k3]: a later one, no bytes of anything else having been read
   since. The stream [f] was opened last, by the name of the file. Until all
   announced bytes are here, just the bytes taken from the channel have been
   written, and nothing else has been done; then the times are set and the
   stream is closed; the confirmation is positive if that worked. If a write
   falls short the stream is closed, and the answer is an abort. *)
Theorem C58_content : forall E k0 es k1 e k2 es' k3, starts E k0 -> sink_run E es k0 = Some k1 ->
  k_st k1 <> RECEIVE_FILE -> sink_step E e k1 = Some k2 -> k_st k2 = RECEIVE_FILE -> during E es' k2 k3 ->
  exists f l, k_log k2 = (SOpen (k_name k2), f) :: l /\ (0 <= f)%Z /\
    let T0 := k_taken k2 in let T := k_taken k3 in let L0 := k_log k2 in let L := k_log k3 in
    let n := k_size k2 in
    ((k_st k3 = RECEIVE_FILE /\ partly f n T0 T L0 L) \/
     (k_st k3 = SEND_CONFIRMATION /\
      ((exists good, complete f n (k_mtime k2) (k_atime k2) T0 T L0 L good /\
         k_conf k3 = (if good then CONTINUE else ABORT) /\ k_next k3 = RECEIVE_CONFIRMATION) \/
       (cut_short f n T0 T L0 L /\ k_conf k3 = ABORT)))).
Proof.
  intros E k0 es k1 e k2 es' k3 Hs R N1 S F D.
  destruct (started_InvS k0 (starts_started E k0 Hs)) as [I1 I2].
  pose proof (InvS_run E es k0 k1 I1 R) as J1. pose proof (Inv2_run E es k0 k1 I2 R) as J2.
  destruct (enter_file E e k1 k2 J2 J1 N1 S F) as (f & l & A & B & C & O).
  exists f, l. split; [exact A|]. split; [exact B|]. cbv zeta.
  destruct (Inv2_step E e k1 k2 J2 S) as (H32 & _).
  assert (Md : Mid f (k_size k2) (k_mtime k2) (k_atime k2) (k_taken k2) (k_log k2) k2).
  { split; [exact F|]. split; [exact C|]. repeat (split; [reflexivity|]). exists [], []. rewrite app_nil_r.
    split; [reflexivity|]. split; [reflexivity|]. split; [constructor|]. split; [exact O|right; reflexivity]. }
  destruct (during_cases E f _ _ _ _ _ H32 es' k2 k3 D Md) as [M|M].
  - left. destruct M as (M1 & _ & _ & _ & _ & d & w & M2 & M3 & M4 & _ & M5). split; [exact M1|]. exists d, w.
    split; [exact M2|]. split; [exact M3|]. split; [exact M4|]. destruct M5 as [M5| ->]; [lia|]. change (lenN (@nil N)) with 0. lia.
  - right. exact M.
Qed.
Print Assumptions C58_content.

Example C58_phase : exists k1 k2, after upload (firstn 7 session) = Some k1 /\
  sink_step good_sys (ESent 1) k1 = Some k2 /\ k_st k2 = RECEIVE_FILE /\ k_size k2 = 5 /\
  exists k3, during good_sys [EData (ascii "he"); EAgain; EData (ascii "llo")] k2 k3 /\ k_st k3 = SEND_CONFIRMATION.
Proof.
  eexists. eexists. split; [vm_compute; reflexivity|]. split; [vm_compute; reflexivity|]. split; [reflexivity|].
  split; [reflexivity|]. eexists. split.
  - eapply during_step; [reflexivity|vm_compute; reflexivity|]. eapply during_step; [reflexivity|vm_compute; reflexivity|].
    eapply during_step; [reflexivity|vm_compute; reflexivity|]. apply during_nil.
  - reflexivity.
Qed.

(* ------------------------------------------------------------------ *)
(* C59                                                                  *)

(* No message, however it is cut into reads, makes the receiver read outside
   the message. *)
Theorem C59_in_bounds : forall E es k, sink_run E es k <> None.
Proof. exact run_some. Qed.
Print Assumptions C59_in_bounds.

(* A message is accepted only if it is one of the protocol's. *)
Definition C59_full : Prop := forall m k k', parse_msg (m ++ [0]) k = Some (true, k') ->
  (exists t o ds n, m = header t o ds n /\ octals o /\ digits ds) \/
  (exists dm da, m = times_msg dm da /\ digits dm /\ digits da) \/ m = [69].
Theorem C59_refuted : ~ C59_full.
Proof.
  intros H.
  assert (A : exists k', parse_msg (ascii "C0644X5 f" ++ [0]) sink0 = Some (true, k')) by (eexists; vm_compute; reflexivity).
  destruct A as (k' & A). destruct (H _ _ _ A) as [B|[B|B]].
  - destruct B as (t & o & ds & n & B & (O & _) & _). unfold header in B.
    destruct o as [|a [|b [|c [|d [|e o]]]]]; try discriminate O. cbn in B. congruence.
  - destruct B as (dm & da & B & _). discriminate B.
  - discriminate B.
Qed.
Print Assumptions C59_refuted.

(* What is accepted as a file or directory header: the mode is four octal
   digits, one byte of any kind follows, the size is decimal and below 2^32,
   and after a space comes the name, a proper one unless it is replaced by the
   destination's. The type, the mode, the size and the name become those of the
   message. *)
Theorem C59_header_partial : forall t tl k k', t = 67 \/ t = 68 ->
  (parse_msg ((t :: tl) ++ [0]) k = Some (true, k') <->
   exists o sep ds rest, tl = o ++ sep :: ds ++ 32 :: rest /\ octals o /\ digits ds /\ value 10 ds <= 4294967295 /\
     (k_rename k = true \/ plain (cstr rest)) /\
     k' = after_header t (N.land (value 8 o) 511) (value 10 ds) (cstr rest) k).
Proof. exact parse_header_iff. Qed.
Print Assumptions C59_header_partial.

(* ... and as a time message. *)
Theorem C59_times_partial : forall tl k k',
  parse_msg ((84 :: tl) ++ [0]) k = Some (true, k') <->
  exists dm da rest, tl = dm ++ [32; 48; 32] ++ da ++ 32 :: rest /\ digits dm /\ digits da /\
    value 10 dm <= MAX64 /\ value 10 da <= MAX64 /\
    k' = set_times (value 10 dm) (value 10 da) (set_type MSG_TIME k).
Proof. exact parse_time_iff. Qed.
Print Assumptions C59_times_partial.

Lemma cstr_id : forall n, ~ In 0 n -> cstr n = n.
Proof.
  induction n as [|c n IH]; intros H; [reflexivity|]. cbn [cstr]. destruct (N.eqb_spec c 0) as [->|_]; [destruct H; left; reflexivity|].
  f_equal. apply IH. intros Q. apply H. right. exact Q.
Qed.

(* Every proper message is accepted and read as it was meant. *)
Theorem C59_accepts : forall k,
  (forall t o ds n, (t = 67 \/ t = 68) -> octals o -> digits ds -> value 10 ds <= 4294967295 -> plain n -> ~ In 0 n ->
    exists k', parse_msg (header t o ds n ++ [0]) k = Some (true, k') /\
      k_type k' = (if t =? 67 then MSG_FILE else MSG_DIR) /\ k_mode k' = N.land (value 8 o) 511 /\ k_size k' = value 10 ds /\
      k_name k' = (if k_rename k then k_name k else n) /\ k_rename k' = false) /\
  (forall dm da, digits dm -> digits da -> value 10 dm <= MAX64 -> value 10 da <= MAX64 ->
    exists k', parse_msg (times_msg dm da ++ [0]) k = Some (true, k') /\
      k_type k' = MSG_TIME /\ k_mtime k' = value 10 dm /\ k_atime k' = value 10 da) /\
  (exists k', parse_msg ([69] ++ [0]) k = Some (true, k') /\ k_type k' = MSG_END_DIR).
Proof.
  intros k. split; [|split].
  - intros t o ds n T O D V P Z.
    exists (after_header t (N.land (value 8 o) 511) (value 10 ds) n k). split.
    + unfold header. apply (C59_header_partial t _ k _ T). exists o, 32, ds, n. rewrite (cstr_id n Z).
      split; [reflexivity|]. repeat (split; [assumption|]). split; [right; assumption|reflexivity].
    + unfold after_header, named. destruct (k_rename k); cbn; auto.
  - intros dm da Dm Da Vm Va. exists (set_times (value 10 dm) (value 10 da) (set_type MSG_TIME k)). split; [|auto].
    unfold times_msg. apply C59_times_partial. exists dm, da, [48]. repeat (split; [assumption || reflexivity|]). reflexivity.
  - exists (set_type MSG_END_DIR k). split; reflexivity.
Qed.
Print Assumptions C59_accepts.

Example C59_text : header 67 (ascii "0644") (ascii "5") (ascii "a") = ascii "C0644 5 a" /\
  times_msg (ascii "1700000000") (ascii "1700000001") = ascii "T1700000000 0 1700000001 0" /\
  value 10 (ascii "1700000000") = 1700000000 /\ value 8 (ascii "0644") = 420 /\ octals (ascii "0644").
Proof. split; [reflexivity|]. split; [reflexivity|]. split; [vm_compute; reflexivity|]. split; [vm_compute; reflexivity|].
  split; [reflexivity|]. cbn. repeat constructor; vm_compute; discriminate. Qed.

(* ------------------------------------------------------------------ *)
(* C62                                                                  *)

(* "scp -t dst": what is received is stored under the last component of the
   destination (when it does not end in '/'). *)
Definition C62_full : Prop := forall E dst k, ~ In 0 dst -> quiet dst 0 -> last dst 0 <> 47 ->
  serve E (scp_to [] dst) = (WS_SUCCESS, k) -> k_name k = last (pieces dst) [].
Theorem C62_refuted : ~ C62_full.
Proof.
  intros H. destruct (serve good_sys (scp_to [] (ascii "foo"))) as [r k] eqn:Sv.
  assert (R : r = WS_SUCCESS) by (vm_compute in Sv; congruence). subst r.
  assert (N1 : k_name k = ascii "oo").
  { assert (K : k = snd (serve good_sys (scp_to [] (ascii "foo")))) by (rewrite Sv; reflexivity). rewrite K. vm_compute. reflexivity. }
  assert (Q : k_name k = ascii "foo").
  { apply (H good_sys (ascii "foo") k); [| | |exact Sv].
    - cbn. intros X. repeat (destruct X as [X|X]; [discriminate|]). exact X.
    - intros j _ [A _]. destruct (N.ltb_spec j 3) as [L|L].
      + assert (J : j = 0 \/ j = 1 \/ j = 2) by lia. destruct J as [-> |[-> | ->] ]; discriminate A.
      + rewrite chr_end in A by (change (lenN (ascii "foo")) with 3; exact L). discriminate A.
    - discriminate. }
  rewrite Q in N1. discriminate N1.
Qed.
Print Assumptions C62_refuted.

(* For an absolute destination with proper components, whatever flags come
   before: the request is accepted just if the parent directory can be opened,
   and receiving starts in the parent with the last component as the name of
   what comes first. *)
Theorem C62_destination_partial : forall E fs cs c, Forall plain (cs ++ [c]) -> Forall (fun c => ~ In 0 c) (cs ++ [c]) ->
  ~ In 58 c -> lenN (path_of (cs ++ [c])) + 4 <= 1024 -> quiet (path_of (cs ++ [c])) 0 ->
  Forall (fun c => c <> 116 /\ c <> 102) fs ->
  let parent := flat_map (cons 47) cs ++ [47] in
  let (r, k) := serve E (scp_to fs (path_of (cs ++ [c]))) in
  k_log k = [(SProbe parent, E [] (SProbe parent))] /\
  (r = WS_SUCCESS <-> E [] (SProbe parent) = 0%Z) /\
  (r = WS_SUCCESS -> k_st k = SINK_BEGIN /\ k_base k = parent /\ k_name k = c /\ k_rename k = true).
Proof.
  intros E fs cs c F Z Hc L Q Fl. rewrite serve_to by assumption. cbv zeta.
  change (flat_map (cons 47) cs) with (fm cs). set (d := fm cs ++ [47]).
  destruct (Z.eqb_spec (E [] (SProbe d)) 0) as [R|R]; cbn [k_log set_log set_st].
  - split; [reflexivity|]. split; [tauto|]. auto.
  - split; [reflexivity|]. split; [split; [discriminate|contradiction]|discriminate].
Qed.
Print Assumptions C62_destination_partial.

(* Cleaning a path leaves an absolute one with proper components alone, and
   resolves one last ".." to the parent. *)
Theorem C62_clean_partial : forall cs sz, cs <> [] -> Forall plain cs -> Forall (fun c => ~ In 0 c) cs ->
  lenN (path_of cs) < sz -> CleanPath (path_of cs) sz = Some (path_of cs).
Proof. intros cs sz N1 F Z L. rewrite path_of_fm in * by assumption. apply clean_fm; assumption. Qed.
Print Assumptions C62_clean_partial.

Theorem C62_parent_partial : forall cs c sz, Forall plain (cs ++ [c]) -> Forall (fun c => ~ In 0 c) (cs ++ [c]) -> ~ In 58 c ->
  lenN (path_of (cs ++ [c])) + 3 < sz -> CleanPath (path_of (cs ++ [c]) ++ ascii "/..") sz = Some (path_of cs).
Proof.
  intros cs c sz F Z Hc L. rewrite (path_of_fm (cs ++ [c])) in * by (destruct cs; discriminate). change (ascii "/..") with [47; 46; 46].
  apply clean_parent; assumption.
Qed.
Print Assumptions C62_parent_partial.

(* Found on the way: the destination is an existing directory, but the file is
   renamed to its name in its parent; and ':' in the last component *)
Example C62_existing_directory : k_base (snd (serve good_sys (ascii "scp -t /tmp/"))) = ascii "/" /\
  k_name (snd (serve good_sys (ascii "scp -t /tmp/"))) = ascii "tmp".
Proof. vm_compute. split; reflexivity. Qed.
Example C62_colon : k_base (snd (serve good_sys (ascii "scp -t /a/b:c"))) = ascii "/a/b:" /\
  k_name (snd (serve good_sys (ascii "scp -t /a/b:c"))) = ascii "c".
Proof. vm_compute. split; reflexivity. Qed.
