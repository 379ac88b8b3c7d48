(* HsProps.v - C06, C07, C08, C32, C33, C40, C43, C45: theorems about the
   histories of a connection, in the vocabulary of HsSpec. *)
From Verif Require Import Base WireModel WireSpec WireProofs NameTable NegoModel NegoSpec AuthModel AuthSpec AuthProofs AuthStep AuthProps
  HsModel HsSpec HsProofs HsStep HsStep2 HsStep3 HsRun HsAccept HsConnect HsMain.
From Coq Require Import String List NArith Bool Lia.
Import ListNotations.
Open Scope N_scope.

Lemma succeeded_isok : forall r, succeeded r -> isok r = true.
Proof. intros [r| | | |]; cbn; try reflexivity; [intros ->; reflexivity|contradiction]. Qed.
Lemma ok_at : forall c s e pre, reachable c s -> happened (s_log s) e pre -> okev c e pre.
Proof. intros c s e pre R H. eapply holds_happened; [apply (i_ok c s), reachable_inv, R|exact H]. Qed.

(* ------------------------------------------------------------------ *)
(* C06                                                                  *)

(* A server acts on a connection-protocol message only after it has granted
   authentication and accept has produced the success message. *)
Theorem C06_connection_after_auth : forall c s m p pre, c_side c = Server -> reachable c s ->
  happened (s_log s) (EAct m p) pre -> 80 <= m -> granted pre /\ success_sent pre.
Proof.
  intros c s m p pre Hs R H L. apply (ok_at c s _ _ R) in H. destruct H as (_ & _ & H & _). destruct (H Hs) as (_ & H' & _). auto.
Qed.
(* and authentication is granted only for a credential presented in a message
   of this connection, bound to its session identifier, that the application
   accepted. *)
Theorem C06_grant_is_for_this_session : forall c s u cr pre, reachable c s ->
  happened (s_log s) (EAuth (EGranted u cr)) pre ->
  exists m p am bound, In (EAct m p) pre /\ auth_msg m p am /\
    legitimate (c_crypto c) (session_id pre) bound u am cr /\ In (EAuth (ECallback u cr CbSuccess)) pre.
Proof. intros c s u cr pre R H. apply (ok_at c s _ _ R) in H. exact H. Qed.

(* Once a connection-protocol message was acted upon, no authentication
   message is. *)
Theorem C06_no_auth_after_connection : forall c s m p pre m' p', reachable c s ->
  happened (s_log s) (EAct m p) pre -> 50 <= m < 80 -> In (EAct m' p') pre -> m' < 80.
Proof.
  intros c s m p pre m' p' R H L. apply (ok_at c s _ _ R) in H. destruct H as (_ & _ & H1 & H2).
  destruct (c_side c) eqn:E; [destruct (H1 eq_refl) as (_ & _ & X)|destruct (H2 eq_refl) as (_ & _ & _ & X & _)]; apply X; exact L.
Qed.

(* After accept has succeeded no authentication message is acted upon by any
   later call. *)
Theorem C06_no_auth_after_accept : forall c s r ops, c_side c = Server -> accepting c s r -> succeeded r ->
  Forall (fits c) ops -> Forall wf_op ops ->
  exists new, s_log (run_hs c s ops) = new ++ s_log s /\ forall m p, In (EAct m p) new -> ~ (50 <= m < 80).
Proof.
  intros c s r ops Hs A Hr F W. destruct (accepting_inv c s r Hs A) as (G & _ & _ & AF10).
  specialize (AF10 (succeeded_isok r Hr)). destruct (run_good c ops s G F W) as (G' & new & E).
  exists new. split; [exact E|]. intros m p Hin Hm.
  assert (Q : In EChanReq (s_log s)) by (apply (af_req 10 s AF10); lia).
  destruct (in_happened _ _ Q) as (pre & Hq). pose proof (holds_happened _ _ _ _ (i_ok c s (g_inv c s G)) Hq) as (p' & pre' & Ep).
  assert (Hi : In (EAct 98 p') (s_log s)) by (apply (in_pre _ _ _ _ Hq); rewrite Ep; left; reflexivity).
  apply in_split in Hin. destruct Hin as (n1 & n2 & ->).
  assert (Hh : happened (s_log (run_hs c s ops)) (EAct m p) (n2 ++ s_log s)) by (exists n1; rewrite E, <- app_assoc; reflexivity).
  pose proof (holds_happened _ _ _ _ (i_ok c _ (g_inv c _ G')) Hh) as (_ & _ & O & _). destruct (O Hs) as (_ & _ & O').
  specialize (O' Hm 98 p' (in_app_r _ _ _ Hi)). lia.
Qed.

(* The whole claim: nor is one after the success message was produced. It is
   false: if sending that message blocks and the application calls the worker
   before accept, an authentication request is still processed. *)
Definition C06_no_auth_after_success_full : Prop := forall c s m p pre, c_side c = Server -> reachable c s ->
  happened (s_log s) (EAct m p) pre -> 50 <= m < 80 -> ~ In (ESent (Some 7) OAuthSuccess) pre.
(* It holds of a server that repeats accept until it is done. *)
Theorem C06_no_auth_after_success_partial : forall c s r m p pre, c_side c = Server -> accepting c s r ->
  happened (s_log s) (EAct m p) pre -> 50 <= m < 80 -> ~ In (ESent (Some 7) OAuthSuccess) pre.
Proof.
  intros c s r m p pre Hs A H L. destruct (accepting_inv c s r Hs A) as (_ & O & _).
  apply (holds_happened _ _ _ _ O H). exact L.
Qed.

(* ------------------------------------------------------------------ *)
(* C07                                                                  *)

Theorem C07_connection_after_success : forall c s m p pre, c_side c = Client -> reachable c s ->
  happened (s_log s) (EAct m p) pre -> 80 <= m -> In (EAct 52 []) pre.
Proof.
  intros c s m p pre Hs R H L. apply (ok_at c s _ _ R) in H. destruct H as (_ & _ & _ & H). destruct (H Hs) as (_ & _ & H' & _). auto.
Qed.

(* The messages only a client may send: SERVICE_REQUEST, KEXDH_INIT, GEX_INIT,
   GEX_REQUEST, USERAUTH_REQUEST, USERAUTH_INFO_RESPONSE. A client acts on the
   last; the others it refuses. *)
Definition C07_client_messages_full : Prop := forall c s m p pre, c_side c = Client -> reachable c s ->
  happened (s_log s) (EAct m p) pre -> ~ In m [5; 30; 32; 34; 50; 61].
Theorem C07_client_messages_partial : forall c s m p pre, c_side c = Client -> reachable c s ->
  happened (s_log s) (EAct m p) pre -> ~ In m [5; 30; 32; 34; 50].
Proof.
  intros c s m p pre Hs R H Hin. apply (ok_at c s _ _ R) in H. destruct H as (_ & _ & _ & H). destruct (H Hs) as (H5 & H50 & _ & _ & Hk).
  cbn in Hin. decompose [or] Hin; subst; try contradiction; try tauto;
    (destruct Hk as [X|(_ & X)]; [unfold kex_number; lia|discriminate|lia]).
Qed.

(* ------------------------------------------------------------------ *)
(* C08                                                                  *)

(* The peer's KEXINIT is acted upon only outside a key exchange of the peer;
   outside one no other key exchange message is; and when this side waits for
   one of them, only that one is. *)
Theorem C08_kex_order : forall c s m p pre, reachable c s -> happened (s_log s) (EAct m p) pre -> kex_number m ->
  (m = 20 -> in_kex pre = false) /\ (in_kex pre = false -> m = 20) /\ (forall x, awaited pre = Some x -> m = x).
Proof.
  intros c s m p pre R H Hk. apply (ok_at c s _ _ R) in H. destruct H as (H1 & H2 & _). destruct (H2 Hk). auto.
Qed.
(* A client acts on no other than an awaited one. *)
Theorem C08_client_awaited : forall c s m p pre, c_side c = Client -> reachable c s ->
  happened (s_log s) (EAct m p) pre -> kex_number m -> m <> 20 -> awaited pre = Some m.
Proof.
  intros c s m p pre Hs R H Hk N. apply (ok_at c s _ _ R) in H. destruct H as (_ & _ & _ & H). destruct (H Hs) as (_ & _ & _ & _ & X).
  destruct (X Hk) as [E|(E & _)]; [contradiction|exact E].
Qed.
(* Receive keys are changed by an empty NEWKEYS inside a key exchange only. *)
Theorem C08_keys_by_newkeys : forall c s o pre, reachable c s -> happened (s_log s) (EKeysIn o) pre ->
  exists pre', pre = EAct 21 [] :: pre' /\ in_kex pre' = true.
Proof.
  intros c s o pre R H. pose proof (ok_at c s _ _ R H) as ((pre' & E) & _). exists pre'. split; [exact E|].
  assert (H' : happened (s_log s) (EAct 21 []) pre') by (destruct H as (post & Hp); exists (post ++ [EKeysIn o]); rewrite Hp, E, <- app_assoc; reflexivity).
  destruct (C08_kex_order c s 21 [] pre' R H') as (_ & X & _); [unfold kex_number; lia|].
  destruct (in_kex pre'); [reflexivity|]. specialize (X eq_refl). discriminate.
Qed.

(* ------------------------------------------------------------------ *)
(* C32                                                                  *)

(* The session identifier is the first exchange hash of the connection, *)
Theorem C32_session_id_first : forall c s, reachable c s ->
  (a_sid (s_auth s) = [] /\ forall H, ~ In (EHash H) (s_log s)) \/
  exists H pre, happened (s_log s) (EHash H) pre /\ (forall H', ~ In (EHash H') pre) /\ a_sid (s_auth s) = H /\ H <> [].
Proof.
  intros c s R. apply reachable_inv in R. destruct R as [I _]. rewrite (i_sid c s I). pose proof (i_ok c s I) as O. clear I.
  induction (s_log s) as [|e t IH]; [left; split; [reflexivity|auto]|]. destruct O as (Oe & Ot). specialize (IH Ot).
  assert (D : (exists H, e = EHash H) \/ ((forall H, e <> EHash H) /\ session_id (e :: t) = session_id t)).
  { destruct e; try (right; split; [discriminate|reflexivity]). left. eexists. reflexivity. }
  destruct IH as [(E & N)|(H & pre & A & B & C & D')].
  - destruct D as [(H & ->)|(D1 & D2)].
    + right. exists H, t. split; [exists []; reflexivity|]. split; [exact N|]. split; [cbn; rewrite E; reflexivity|exact Oe].
    + left. split; [congruence|]. intros H [X|X]; [apply (D1 H X)|apply (N H X)].
  - right. exists H, pre. split; [apply (happened_app [e]), A|]. split; [exact B|]. split; [|exact D'].
    destruct D as [(H' & ->)|(D1 & D2)]; [|congruence]. cbn. rewrite C. destruct H; [contradiction|reflexivity].
Qed.
(* and no later call changes it. *)
Theorem C32_session_id_stable : forall c s o, reachable c s -> fits c o -> wf_op o -> a_sid (s_auth s) <> [] ->
  a_sid (s_auth (fst (step c o s))) = a_sid (s_auth s).
Proof.
  intros c s o R F W N. pose proof (reachable_inv c s R) as G. destruct (step_good c o s G F W) as (G' & (n & E) & _).
  rewrite (i_sid c _ (g_inv c _ G')), E. rewrite (i_sid c s (g_inv c s G)) in *. apply session_id_app, N.
Qed.

(* ------------------------------------------------------------------ *)
(* C33                                                                  *)

(* accept succeeded: the version was accepted, keys of one exchange are in use
   in both directions, authentication granted, a channel opened and a request
   made on it, and accept has sent each of its messages once and in order. *)
Theorem C33_accept : forall c s r, c_side c = Server -> accepting c s r -> succeeded r ->
  In EVersion (s_log s) /\ keyed (s_log s) /\ granted (s_log s) /\ In EChanOpen (s_log s) /\ In EChanReq (s_log s) /\
  own_msgs (s_log s) = [(0, OVersion); (2, OKexInit); (5, OServiceAccept); (7, OAuthSuccess)].
Proof.
  intros c s r Hs A Hr. destruct (accepting_inv c s r Hs A) as (G & _ & _ & X). specialize (X (succeeded_isok r Hr)).
  destruct X as [A1 A2 A3 A4 A5 A6 A7 A8 A9].
  assert (Q : In EChanReq (s_log s)) by (apply A7; lia).
  split; [apply A5; lia|]. split; [apply A3; lia|]. split; [|split; [apply A8, Q|split; [exact Q|exact A6]]].
  destruct (in_happened _ _ Q) as (pre & Hq). pose proof (holds_happened _ _ _ _ (i_ok c s (g_inv c s G)) Hq) as (p' & pre' & Ep).
  assert (H98 : happened (s_log s) (EAct 98 p') pre') by (destruct Hq as (post & Hp); exists (post ++ [EChanReq]); rewrite Hp, Ep, <- app_assoc; reflexivity).
  pose proof (holds_happened _ _ _ _ (i_ok c s (g_inv c s G)) H98) as (_ & _ & O & _). destruct (O Hs) as (_ & O' & _).
  destruct (O' ltac:(lia)) as ((u & cr & Gr) & _). exists u, cr. eapply in_pre; eassumption.
Qed.
(* At no time does accept act on a message of authentication or later before
   the first key exchange is complete. *)
Theorem C33_accept_keys_first : forall c s r m p pre, c_side c = Server -> accepting c s r ->
  happened (s_log s) (EAct m p) pre -> 50 <= m -> keyed pre.
Proof.
  intros c s r m p pre Hs A H L. destruct (accepting_inv c s r Hs A) as (_ & O & _).
  apply (holds_happened _ _ _ _ O H). exact L.
Qed.

(* The whole claim for connect. It is false: a server that answers the channel
   open with CHANNEL_SUCCESS makes connect succeed without a channel. *)
Definition C33_connect_full : Prop := forall c s r, c_side c = Client -> connecting c s r -> succeeded r ->
  In EVersion (s_log s) /\ keyed (s_log s) /\ In (EAct 52 []) (s_log s) /\ In EChanConf (s_log s) /\ In EChanOk (s_log s) /\
  exists kx, (kx = OGexRequest \/ kx = ODhInit false \/ kx = ODhInit true) /\
    own_msgs (s_log s) = [(0, OVersion); (2, OKexInit); (4, kx); (6, OServiceRequest); (8, OAuthRequest); (10, OChanOpen); (14, OChanRequest)].
Theorem C33_connect_partial : forall c s r, c_side c = Client -> connecting c s r -> succeeded r ->
  In EVersion (s_log s) /\ keyed (s_log s) /\ In (EAct 52 []) (s_log s) /\ In EChanOk (s_log s) /\
  exists kx, (kx = OGexRequest \/ kx = ODhInit false \/ kx = ODhInit true) /\
    own_msgs (s_log s) = [(0, OVersion); (2, OKexInit); (4, kx); (6, OServiceRequest); (8, OAuthRequest); (10, OChanOpen); (14, OChanRequest)].
Proof.
  intros c s r Hs A Hr. destruct (connecting_inv c s r Hs A) as (I & _ & X). specialize (X (succeeded_isok r Hr)).
  destruct X as [A1 A2 A3 A4 A5 (o4 & A6 & A6') A7 A8]. assert (Q : In EChanOk (s_log s)) by (apply A7; lia).
  split; [apply A5; lia|]. split; [apply A3; lia|]. split; [|split; [exact Q|]].
  - destruct (in_happened _ _ Q) as (pre & Hq). pose proof (holds_happened _ _ _ _ (i_ok c s I) Hq) as (p' & pre' & Ep).
    assert (H99 : happened (s_log s) (EAct 99 p') pre') by (destruct Hq as (post & Hp); exists (post ++ [EChanOk]); rewrite Hp, Ep, <- app_assoc; reflexivity).
    pose proof (holds_happened _ _ _ _ (i_ok c s I) H99) as (_ & _ & _ & O). destruct (O Hs) as (_ & _ & O' & _).
    eapply in_pre; [exact H99|]. apply O'. lia.
  - exists o4. split; [|exact A6']. destruct A6 as [-> |([|] & ->)]; auto.
Qed.

(* ------------------------------------------------------------------ *)
(* C40                                                                  *)

Lemma agreed_proved : forall c s l H, reachable c s -> (exists n, s_log s = n ++ l) -> In (EAgreed true H) (exchange l) ->
  host_proved c H (exchange l).
Proof.
  intros c s l H R (n & E) Hin. destruct (exchange_in _ _ Hin) as (pre & Hp & k & Ek).
  assert (Hh : happened (s_log s) (EAgreed true H) pre) by (rewrite E; apply happened_app, Hp).
  pose proof (ok_at c s _ _ R Hh) as (_ & _ & _ & X). rewrite Ek. apply host_proved_app, (host_proved_app c H [_]), X. reflexivity.
Qed.
(* A client puts keys in use, in either direction, only if in this very key
   exchange the application accepted the host key and the host's signature by
   that key over this exchange's hash verified. *)
Theorem C40_host_proved : forall c s o pre, c_side c = Client -> reachable c s ->
  (happened (s_log s) (EKeysIn o) pre \/ happened (s_log s) (EKeysOut o) pre) ->
  exists H, o = Some H /\ host_proved c H (exchange pre).
Proof.
  intros c s o pre Hs R [H|H].
  - pose proof (ok_at c s _ _ R H) as (_ & X). destruct (X Hs) as (h & E & Hin). exists h. split; [exact E|].
    eapply agreed_proved; [exact R| |exact Hin]. destruct H as (post & ->). exists (post ++ [EKeysIn o]). rewrite <- app_assoc. reflexivity.
  - pose proof (ok_at c s _ _ R H) as (h & b & E & Hin & X). rewrite (X Hs) in Hin. exists h. split; [exact E|].
    eapply agreed_proved; [exact R| |exact Hin]. destruct H as (post & ->). exists (post ++ [EKeysOut o]). rewrite <- app_assoc. reflexivity.
Qed.
Lemma wf_log : forall c s, reachable c s -> holds (okev c) (s_log s).
Proof. intros c s R. apply (i_ok c s), reachable_inv, R. Qed.

(* ------------------------------------------------------------------ *)
(* C43                                                                  *)

(* In one key exchange keys are agreed at most once. *)
Theorem C43_one_agreement : forall c s b H pre, reachable c s -> happened (s_log s) (EAgreed b H) pre ->
  in_kex pre = true /\ forall b' H', ~ In (EAgreed b' H') (exchange pre).
Proof. intros c s b H pre R Hh. pose proof (ok_at c s _ _ R Hh) as (X & _ & Y & _). split; assumption. Qed.
(* Keys used for sending come from this exchange's agreement, *)
Theorem C43_keys_out : forall c s o pre, reachable c s -> happened (s_log s) (EKeysOut o) pre ->
  exists H b, o = Some H /\ In (EAgreed b H) (exchange pre).
Proof. intros c s o pre R Hh. pose proof (ok_at c s _ _ R Hh) as (H & b & E & X & _). eauto. Qed.
(* and so do those for receiving. *)
Definition C43_keys_in_full : Prop := forall c s o pre, reachable c s -> happened (s_log s) (EKeysIn o) pre ->
  exists H b, o = Some H /\ In (EAgreed b H) (exchange pre).
Theorem C43_keys_in_client_partial : forall c s o pre, c_side c = Client -> reachable c s -> happened (s_log s) (EKeysIn o) pre ->
  exists H b, o = Some H /\ In (EAgreed b H) (exchange pre).
Proof. intros c s o pre Hs R Hh. pose proof (ok_at c s _ _ R Hh) as (_ & X). destruct (X Hs) as (H & E & Hin). eauto. Qed.
(* On either side, of an application that stops at the first fatal error, and
   then both directions use the keys of one agreement. *)
Theorem C43_keys_in_careful_partial : forall c s o pre, carefully_reachable c s -> happened (s_log s) (EKeysIn o) pre ->
  exists H b, o = Some H /\ In (EKeysOut (Some H)) (exchange pre) /\ In (EAgreed b H) (exchange pre).
Proof.
  intros c s o pre R Hh. destruct (careful_inv c s R) as ([I _] & Kn).
  pose proof (holds_happened _ _ _ _ Kn Hh) as (H & E & Hin). exists H.
  destruct (exchange_in _ _ Hin) as (pre' & Hp & k & Ek). pose proof (happened_pre _ _ _ _ _ Hh Hp) as Hh'.
  pose proof (holds_happened _ _ _ _ (i_ok c s I) Hh') as (H' & b & E' & X & _). injection E' as <-.
  exists b. split; [exact E|]. split; [exact Hin|]. rewrite Ek. apply in_app_r. right. exact X.
Qed.

(* ------------------------------------------------------------------ *)
(* C45                                                                  *)

(* No history dereferences the handshake record while there is none. *)
Theorem C45_no_null_handshake : forall c s, reachable c s -> ~ In ECrash (s_log s).
Proof. intros c s R H. destruct (in_happened _ _ H) as (pre & Hp). exact (ok_at c s _ _ R Hp). Qed.

(* ------------------------------------------------------------------ *)
(* Concrete connections                                                 *)

Fixpoint somewhere (P : ev -> list ev -> bool) (l : list ev) : bool :=
  match l with [] => false | e :: t => P e t || somewhere P t end.
Lemma somewhere_ok : forall P l, somewhere P l = true -> exists e pre, happened l e pre /\ P e pre = true.
Proof.
  intros P l. induction l as [|e t IH]; cbn; [discriminate|]. intros H. apply orb_prop in H. destruct H as [H|H].
  - exists e, t. split; [exists []; reflexivity|exact H].
  - destruct (IH H) as (e' & pre & A & B). exists e', pre. split; [apply (happened_app [e]), A|exact B].
Qed.

Definition x_hans (n : nego) (h : bytes) : hans :=
  mkHans WS_SUCCESS 0 false true n true (Some h) true true 0 false (says CbSuccess) 0 false.
Definition x_a : hans := x_hans (NOk false false) [1; 2; 3; 4].
Definition x_slot (m : N) (p : bytes) : slot := mkSlot (RxPkt (PMsg m p)) x_a.
Definition x_line : slot := mkSlot RxLine x_a.
Definition x_wait : slot := mkSlot (RxErr WS_WANT_READ) x_a.
Definition x_hostsig (key sig H : bytes) : bool := bytes_eqb sig (key ++ H).
Definition x_srv : hcfg := mkHcfg Server true true ex_cfg ex_crypto x_hostsig.
Definition x_cli : hcfg := mkHcfg Client true true ex_cfg ex_crypto x_hostsig.
Definition x_init (c : hcfg) (io : list ioans) : hs := init_hs c (ascii "ann") 6 [] io.
Definition x_service : bytes := PutString (ascii "ssh-userauth").
Definition x_reply : bytes := PutString [8; 8] ++ PutString [5] ++ PutString [8; 8; 1; 2; 3; 4].

Definition wf_slotb (x : slot) : bool :=
  match sl_rx x with RxPkt (PMsg _ p) => forallb (fun b => b <? 256) p && (lenN p <? W32) | _ => true end &&
  match ha_hash (sl_a x) with Some H => lenN H <? W32 | None => true end.
Lemma wf_slotb_ok : forall x, wf_slotb x = true -> wf_slot x.
Proof.
  intros x H. unfold wf_slotb in H. apply andb_prop in H. destruct H as (H1 & H2). split.
  - destruct (sl_rx x) as [|  |[m p|e]]; try exact Logic.I. apply andb_prop in H1. destruct H1 as (H1 & H3). split.
    + apply Forall_forall. intros b Hb. rewrite forallb_forall in H1. apply N.ltb_lt, H1, Hb.
    + apply N.ltb_lt in H3. exact H3.
  - unfold wf_hans. destruct (ha_hash (sl_a x)); [apply N.ltb_lt in H2; exact H2|exact Logic.I].
Qed.
Lemma wf_slotsb_ok : forall l, forallb wf_slotb l = true -> Forall wf_slot l.
Proof. intros l H. apply Forall_forall. intros x Hx. rewrite forallb_forall in H. apply wf_slotb_ok, H, Hx. Qed.
Definition wf_opb (c : hcfg) (o : op) : bool :=
  match o with
  | OAccept _ sl => match c_side c with Server => forallb wf_slotb sl | Client => false end
  | OConnect a _ sl => match c_side c with Client => wf_slotb (mkSlot RxLine a) && forallb wf_slotb sl | Server => false end
  | OWorker x y => wf_slotb x && wf_slotb y
  | ORecv x => wf_slotb x
  | _ => true
  end.
Lemma wf_opb_ok : forall c l, forallb (wf_opb c) l = true -> Forall (fits c) l /\ Forall wf_op l.
Proof.
  intros c l H. rewrite forallb_forall in H. split; apply Forall_forall; intros o Ho; specialize (H o Ho); destruct o; cbn in *; try exact Logic.I.
  - destruct (c_side c); [reflexivity|discriminate].
  - destruct (c_side c); [discriminate|reflexivity].
  - destruct (c_side c); [apply wf_slotsb_ok, H|discriminate].
  - destruct (c_side c); [discriminate|]. apply andb_prop in H. destruct H as (H1 & H2). split; [apply (wf_slotb_ok (mkSlot RxLine a) H1)|apply wf_slotsb_ok, H2].
  - apply andb_prop in H. destruct H. split; apply wf_slotb_ok; assumption.
  - apply wf_slotb_ok, H.
Qed.
Lemma x_reachable : forall c io ops, forallb (wf_opb c) ops = true -> reachable c (run_hs c (x_init c io) ops).
Proof. intros c io ops H. apply wf_opb_ok in H. destruct H. exists (ascii "ann"), 6, [], io, ops. auto. Qed.

(* a server, two of whose sends block, one of whose reads has to wait *)
Definition x_up : list slot := [x_line; x_slot 20 [1]; x_slot 30 [1]; x_slot 21 []; x_slot 5 x_service].
Definition x_auth : slot := x_slot 50 (msg_bytes ex_good).
Definition x_io : list ioans := [IoOk false; IoBlock; IoOk false; IoOk false; IoOk false; IoBlock].
Definition acc1_in : list slot := [x_line].
Definition acc1 := accept x_srv 0 (x_init x_srv x_io) acc1_in.
Definition acc2_in : list slot := [x_slot 20 [1]; x_slot 30 [1]; x_wait].
Definition acc2 := accept x_srv 0 (fst acc1) acc2_in.
Definition acc3_in : list slot := [x_slot 21 []; x_slot 5 x_service; x_auth].
Definition acc3 := accept x_srv 0 (fst acc2) acc3_in.
Definition acc4_in : list slot := [x_slot 90 []; x_slot 98 []].
Definition acc4 := accept x_srv 0 (fst acc3) acc4_in.
Definition is_ret (r : ares) (e : rc) : bool := match r with ARet r => rc_eqb r e | _ => false end.
Lemma is_ret_ok : forall r e, is_ret r e = true -> r = ARet e.
Proof. intros [r| | | |] e H; try discriminate. apply rc_eqb_eq in H. subst. reflexivity. Qed.
Example ex_accept : is_ret (snd acc1) WS_FATAL_ERROR && rc_eqb (s_err (fst acc1)) WS_WANT_WRITE &&
  is_ret (snd acc2) WS_FATAL_ERROR && rc_eqb (s_err (fst acc2)) WS_WANT_READ &&
  is_ret (snd acc3) WS_FATAL_ERROR && rc_eqb (s_err (fst acc3)) WS_WANT_WRITE && is_ret (snd acc4) WS_SUCCESS = true.
Proof. vm_compute. reflexivity. Qed.
Lemma x_first : forall c io sl, Forall wf_slot sl -> accepting c (fst (accept c 0 (x_init c io) sl)) (snd (accept c 0 (x_init c io) sl)).
Proof. intros. eapply acc_first; [eassumption|]. apply surjective_pairing. Qed.
Lemma x_again : forall c s r sl, accepting c s r -> r <> AMore -> Forall wf_slot sl -> accepting c (fst (accept c 0 s sl)) (snd (accept c 0 s sl)).
Proof. intros. eapply acc_again; [eassumption|eassumption|eassumption|]. apply surjective_pairing. Qed.
Lemma x_con : forall c io a o sl, wf_hans a -> Forall wf_slot sl -> connecting c (fst (connect c a o (x_init c io) sl)) (snd (connect c a o (x_init c io) sl)).
Proof. intros. eapply con_first; [eassumption|eassumption|]. apply surjective_pairing. Qed.
Lemma x_con_again : forall c s r a o sl, connecting c s r -> r <> AMore -> is_want (s_err s) = true -> wf_hans a -> Forall wf_slot sl ->
  connecting c (fst (connect c a o s sl)) (snd (connect c a o s sl)).
Proof. intros. eapply con_again; [eassumption|eassumption|eassumption|eassumption|eassumption|]. apply surjective_pairing. Qed.
Example ex_accepting : accepting x_srv (fst acc4) (snd acc4) /\ succeeded (snd acc4).
Proof.
  pose proof ex_accept as E. rewrite !andb_true_iff in E. destruct E as ((((((E1 & _) & E2) & _) & E3) & _) & E4).
  apply is_ret_ok in E1, E2, E3, E4. split; [|rewrite E4; reflexivity].
  assert (W : Forall wf_slot acc1_in /\ Forall wf_slot acc2_in /\ Forall wf_slot acc3_in /\ Forall wf_slot acc4_in) by (repeat split; apply wf_slotsb_ok; vm_compute; reflexivity).
  destruct W as (W1 & W2 & W3 & W4).
  assert (A1 : accepting x_srv (fst acc1) (snd acc1)) by (unfold acc1; apply x_first; exact W1).
  assert (A2 : accepting x_srv (fst acc2) (snd acc2)) by (unfold acc2; apply (x_again x_srv (fst acc1) (snd acc1) acc2_in A1); [rewrite E1; discriminate|exact W2]).
  assert (A3 : accepting x_srv (fst acc3) (snd acc3)) by (unfold acc3; apply (x_again x_srv (fst acc2) (snd acc2) acc3_in A2); [rewrite E2; discriminate|exact W3]).
  assert (A4 : accepting x_srv (fst acc4) (snd acc4)) by (unfold acc4; apply (x_again x_srv (fst acc3) (snd acc3) acc4_in A3); [rewrite E3; discriminate|exact W4]).
  exact A4.
Qed.

(* the success message blocks, the worker still processes a request *)
Definition x_late : list op := [OAccept 0 (x_up ++ [x_auth]); OWorker x_auth x_auth].
Definition late_io : list ioans := [IoOk false; IoOk false; IoOk false; IoOk false; IoBlock].
Definition is_auth_success (e : ev) : bool := match e with ESent (Some 7) OAuthSuccess => true | _ => false end.
Theorem C06_no_auth_after_success_refuted : ~ C06_no_auth_after_success_full.
Proof.
  intros H. set (s := run_hs x_srv (x_init x_srv late_io) x_late).
  assert (R : reachable x_srv s) by (apply x_reachable; vm_compute; reflexivity).
  assert (W : somewhere (fun e pre => match e with EAct m p => (50 <=? m) && (m <? 80) && existsb is_auth_success pre | _ => false end) (s_log s) = true)
    by (vm_compute; reflexivity).
  apply somewhere_ok in W. destruct W as (e & pre & Hh & W). destruct e as [|m p| | | | | | | | | | | | | |]; try discriminate.
  rewrite !andb_true_iff in W. destruct W as ((W1 & W2) & W3). apply N.leb_le in W1. apply N.ltb_lt in W2.
  apply (H x_srv s m p pre eq_refl R Hh (conj W1 W2)).
  apply existsb_exists in W3. destruct W3 as (x & Hx & Wx). destruct x as [| |[k|] o| | | | | | | | | | | | |]; try discriminate.
  destruct k as [|[[[]|[]|]|[]|]]; try discriminate. destruct o; try discriminate. exact Hx.
Qed.

(* a client *)
Definition x_cup : list slot := [x_line; x_slot 20 [1]; x_slot 31 x_reply; x_slot 21 []; x_slot 6 x_service].
Definition con1 := connect x_cli x_a (false, false) (x_init x_cli [IoOk false; IoOk false; IoBlock]) x_cup.
Definition con2_in : list slot := tl (tl x_cup) ++ [x_slot 52 []; x_slot 91 []; x_slot 99 []].
Definition con2 := connect x_cli x_a (false, false) (fst con1) con2_in.
Example ex_connect : is_ret (snd con1) WS_FATAL_ERROR && is_want (s_err (fst con1)) && is_ret (snd con2) WS_SUCCESS = true.
Proof. vm_compute. reflexivity. Qed.
Example ex_connecting : connecting x_cli (fst con2) (snd con2) /\ succeeded (snd con2).
Proof.
  pose proof ex_connect as E. rewrite !andb_true_iff in E. destruct E as ((E1 & E2) & E3). apply is_ret_ok in E1, E3.
  split; [|rewrite E3; reflexivity].
  assert (Wa : wf_hans x_a) by (apply (wf_slotb_ok (mkSlot RxLine x_a)); vm_compute; reflexivity).
  assert (W : Forall wf_slot x_cup /\ Forall wf_slot con2_in) by (split; apply wf_slotsb_ok; vm_compute; reflexivity). destruct W as (W1 & W2).
  assert (A1 : connecting x_cli (fst con1) (snd con1)) by (unfold con1; apply x_con; assumption).
  unfold con2; apply (x_con_again x_cli (fst con1) (snd con1) x_a (false, false) con2_in A1); [rewrite E1; discriminate|exact E2|exact Wa|exact W2].
Qed.

Definition con_early_in : list slot := x_cup ++ [x_slot 52 []; x_slot 99 []].
Definition con_early := connect x_cli x_a (false, false) (x_init x_cli []) con_early_in.
Theorem C33_connect_refuted : ~ C33_connect_full.
Proof.
  intros H.
  assert (E : is_ret (snd con_early) WS_SUCCESS && negb (existsb (fun e => match e with EChanConf => true | _ => false end) (s_log (fst con_early))) = true)
    by (vm_compute; reflexivity).
  apply andb_prop in E. destruct E as (E1 & E2). apply is_ret_ok in E1. apply negb_true_iff in E2.
  destruct (H x_cli (fst con_early) (snd con_early)) as (_ & _ & _ & X & _); [reflexivity| |rewrite E1; reflexivity|].
  - assert (Wa : wf_hans x_a) by (apply (wf_slotb_ok (mkSlot RxLine x_a)); vm_compute; reflexivity).
    assert (W : Forall wf_slot con_early_in) by (apply wf_slotsb_ok; vm_compute; reflexivity).
    unfold con_early; apply x_con; assumption.
  - assert (Y : existsb (fun e => match e with EChanConf => true | _ => false end) (s_log (fst con_early)) = true)
      by (apply existsb_exists; exists EChanConf; split; [exact X|reflexivity]).
    rewrite E2 in Y. discriminate.
Qed.

Definition x_61 : list op := [OConnect x_a (false, false) (x_cup ++ [x_slot 61 [0; 0; 0; 0]])].
Theorem C07_client_messages_refuted : ~ C07_client_messages_full.
Proof.
  intros H. set (s := run_hs x_cli (x_init x_cli []) x_61).
  assert (R : reachable x_cli s) by (apply x_reachable; vm_compute; reflexivity).
  assert (W : somewhere (fun e pre => match e with EAct m p => m =? 61 | _ => false end) (s_log s) = true) by (vm_compute; reflexivity).
  apply somewhere_ok in W. destruct W as (e & pre & Hh & W). destruct e as [|m p| | | | | | | | | | | | | |]; try discriminate.
  apply N.eqb_eq in W. subst m. apply (H x_cli s 61 p pre eq_refl R Hh). cbn. auto 10.
Qed.

(* a rekeying whose negotiation failed, then NEWKEYS *)
Definition x_nokeys : list op :=
  [OAccept 0 (x_up ++ [x_auth; x_slot 90 []; x_slot 98 []]);
   OWorker (mkSlot (RxPkt (PMsg 20 [1])) (x_hans (NFail None true) [1])) x_wait; OWorker (x_slot 21 []) x_wait].
Theorem C43_keys_in_refuted : ~ C43_keys_in_full.
Proof.
  intros H. set (s := run_hs x_srv (x_init x_srv []) x_nokeys).
  assert (R : reachable x_srv s) by (apply x_reachable; vm_compute; reflexivity).
  assert (W : somewhere (fun e pre => match e with EKeysIn None => true | _ => false end) (s_log s) = true) by (vm_compute; reflexivity).
  apply somewhere_ok in W. destruct W as (e & pre & Hh & W). destruct e as [| | | | | | | |[h|]| | | | | | |]; try discriminate.
  destruct (H x_srv s None pre R Hh) as (h & b & E & _). discriminate.
Qed.

(* a connection with a second key exchange, started by either side: the
   hypotheses of the theorems about key changes and the session identifier *)
Definition x_rekey : list op :=
  [OAccept 0 (x_up ++ [x_auth; x_slot 90 []; x_slot 98 []]); OTrigger;
   OWorker (x_slot 20 [2]) x_wait; OWorker (mkSlot (RxPkt (PMsg 30 [1])) (x_hans (NOk false false) [7; 7])) x_wait; OWorker (x_slot 21 []) x_wait;
   OWorker (x_slot 94 [0]) x_wait].
Example ex_rekey : let s := run_hs x_srv (x_init x_srv []) x_rekey in
  reachable x_srv s /\ bytes_eqb (a_sid (s_auth s)) [1; 2; 3; 4] = true /\
  somewhere (fun e _ => match e with EKeysIn (Some [7; 7]) => true | _ => false end) (s_log s) = true /\
  somewhere (fun e _ => match e with EKeysOut (Some [7; 7]) => true | _ => false end) (s_log s) = true /\
  somewhere (fun e _ => match e with EAct 94 _ => true | _ => false end) (s_log s) = true.
Proof. cbv zeta. split; [apply x_reachable; vm_compute; reflexivity|]. vm_compute. auto. Qed.
Lemma x_careful : forall c io ops, forallb (wf_opb c) ops = true -> carefully_reachable c (run_careful c (x_init c io) ops).
Proof. intros c io ops H. apply wf_opb_ok in H. destruct H. exists (ascii "ann"), 6, [], io, ops. auto. Qed.
Example ex_careful : let s := run_careful x_srv (x_init x_srv []) x_rekey in
  carefully_reachable x_srv s /\ somewhere (fun e _ => match e with EKeysIn (Some [7; 7]) => true | _ => false end) (s_log s) = true.
Proof. cbv zeta. split; [apply x_careful; vm_compute; reflexivity|]. vm_compute. reflexivity. Qed.
(* and one of a client *)
Definition x_crekey : list op :=
  [OConnect x_a (false, false) (x_cup ++ [x_slot 52 []; x_slot 91 []; x_slot 99 []]);
   OWorker (x_slot 20 [2]) x_wait;
   OWorker (mkSlot (RxPkt (PMsg 31 (PutString [8; 8] ++ PutString [5] ++ PutString [8; 8; 7; 7]))) (x_hans (NOk false false) [7; 7])) x_wait;
   OWorker (x_slot 21 []) x_wait; OWorker (x_slot 94 [0]) x_wait].
Example ex_crekey : let s := run_hs x_cli (x_init x_cli []) x_crekey in
  reachable x_cli s /\
  somewhere (fun e _ => match e with EKeysIn (Some [7; 7]) => true | _ => false end) (s_log s) = true /\
  somewhere (fun e _ => match e with EKeysOut (Some [7; 7]) => true | _ => false end) (s_log s) = true /\
  somewhere (fun e _ => match e with EAct 94 _ => true | _ => false end) (s_log s) = true.
Proof. cbv zeta. split; [apply x_reachable; vm_compute; reflexivity|]. vm_compute. auto. Qed.

Print Assumptions C06_connection_after_auth.
Print Assumptions C06_grant_is_for_this_session.
Print Assumptions C06_no_auth_after_connection.
Print Assumptions C06_no_auth_after_accept.
Print Assumptions C06_no_auth_after_success_partial.
Print Assumptions C06_no_auth_after_success_refuted.
Print Assumptions C07_connection_after_success.
Print Assumptions C07_client_messages_partial.
Print Assumptions C07_client_messages_refuted.
Print Assumptions C08_kex_order.
Print Assumptions C08_client_awaited.
Print Assumptions C08_keys_by_newkeys.
Print Assumptions C32_session_id_first.
Print Assumptions C32_session_id_stable.
Print Assumptions C33_accept.
Print Assumptions C33_accept_keys_first.
Print Assumptions C33_connect_partial.
Print Assumptions C33_connect_refuted.
Print Assumptions C40_host_proved.
Print Assumptions C43_one_agreement.
Print Assumptions C43_keys_out.
Print Assumptions C43_keys_in_client_partial.
Print Assumptions C43_keys_in_careful_partial.
Print Assumptions C43_keys_in_refuted.
Print Assumptions C45_no_null_handshake.
