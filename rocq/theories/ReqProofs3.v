(* ReqProofs3.v - the request functions as a whole. *)
From Verif Require Import Base WireModel WireSpec WireProofs NameTable NegoModel NegoSpec NegoProofs ChanModel ChanProofs ChanStep ReqModel ReqSpec ReqProofs ReqProofs2.
From Coq Require Import List NArith ZArith Bool Lia String.
Import ListNotations.
Open Scope N_scope.

Lemma eqb_len : forall a b, lenN a <> lenN b -> bytes_eqb a b = false.
Proof.
  intros a b H. destruct (bytes_eqb a b) eqn:E; [|reflexivity]. apply bytes_eqb_eq in E. congruence.
Qed.

(* a type that does not fit the 32-byte buffer is cut, and known to nobody *)
Lemma handle_verdict_cut : forall e id type rest q, verdict e id type rest q (handle_t e id (takeN 31 type) rest q).
Proof.
  intros e id type rest q. destruct (N.leb_spec (lenN type) 31) as [H|H].
  - rewrite takeN_all by exact H. apply handle_verdict.
  - assert (L : lenN (takeN 31 type) = 31) by (rewrite lenN_takeN; lia).
    assert (E : handle_t e id (takeN 31 type) rest q = (WS_SUCCESS, true, false, q)).
    { unfold handle_t. rewrite !eqb_len by (rewrite L; vm_compute; discriminate).
      rewrite !andb_false_r. reflexivity. }
    rewrite E. apply v_unknown.
    + intros K. destruct K; vm_compute in H; discriminate H.
    + intros [(-> & _)|([->| ->] & _)]; vm_compute in H; discriminate H.
Qed.

Lemma send_msg_cases : forall id m a s r s', send_msg id m a s = (r, s') ->
  s_list s' = s_list s /\
  (s_log s' = s_log s ++ [Sent (keying s) id m] \/
   (s_log s' = s_log s /\ r <> WS_SUCCESS /\ (a_prep a <> WS_SUCCESS \/ a_bund a <> WS_SUCCESS))).
Proof.
  intros id m a s r s' H. split; [eapply send_msg_list; exact H|].
  unfold send_msg in H. destruct (bundle id m a s) as [r1 s1] eqn:E.
  destruct (bundle_cases _ _ _ _ _ _ E) as [(-> & ->)|(Hne & Q)].
  - left. rewrite (q_log _ _ (flush_quiet _ _ _ _ H)). reflexivity.
  - right. assert (s' = s1 /\ r = r1) as (-> & ->) by (destruct r1; split; congruence).
    split; [apply Q|]. split; [exact Hne|]. unfold bundle in E.
    destruct (rc_eq_dec (a_prep a) WS_SUCCESS) as [Ep|Ep]; [|left; exact Ep].
    destruct (rc_eq_dec (a_bund a) WS_SUCCESS) as [Eb|Eb]; [|right; exact Eb].
    rewrite Ep, Eb in E. exfalso. apply Hne. congruence.
Qed.

Lemma u32_c32 : forall v, is32 v -> u32 v (c32toa v).
Proof. intros v H. split; [apply c32toa_length | apply be_value_c32toa; exact H]. Qed.

Definition p_request (buf : bytes) : option (N * bytes * N * bytes) :=
  match p_u32 buf with None => None | Some (id, r) =>
  match p_str r with None => None | Some (t, r) =>
  match p_byte r with None => None | Some (w, r) => Some (id, t, w, r) end end end.

Lemma p_request_spec : forall buf id t w r, p_request buf = Some (id, t, w, r) <-> request id t w r buf.
Proof.
  intros buf id t w r. unfold p_request. split.
  - destruct (p_u32 buf) as [(id', r1)|] eqn:A1; [|discriminate].
    destruct (p_str r1) as [(t', r2)|] eqn:A2; [|discriminate].
    destruct r2 as [|w' r3]; cbn [p_byte]; [discriminate|]. intros H. injection H as -> -> -> ->.
    destruct (p_u32_some _ _ _ A1) as (ib & Hi & ->). destruct (p_str_some _ _ _ A2) as (tb & Ht & ->).
    exists ib, tb. auto.
  - intros (ib & tb & Hi & Ht & ->). rewrite (p_u32_app _ _ _ Hi), (p_str_app _ _ _ Ht). reflexivity.
Qed.

(* the body of DoChannelRequest after the header *)
Definition answer (e : env) (a : sendans) (id : N) (t : bytes) (w : N) (r : bytes) (q : rq) : rc * rq :=
  match find_self id (s_list (q_cs q)) with
  | None => (WS_INVALID_CHANID, q)
  | Some c =>
      let '(ret, rej, nr, q1) := handle_t e id (takeN 31 t) r q in
      if nr then (ret, q1)
      else if w =? 0 then (ret, q1)
      else let '(r, s) := send_msg id ([if rc_eqb ret WS_SUCCESS && negb rej then MSGID_CHANNEL_SUCCESS
                                        else MSGID_CHANNEL_FAILURE] ++ c32toa (c_peer c)) a (q_cs q1) in
           (if rc_eqb r WS_SUCCESS then ret else r, q_set_cs s q1)
  end.

Lemma q_set_cs_id : forall q, q_set_cs (q_cs q) q = q.
Proof. intros q. destruct q. reflexivity. Qed.

Lemma handle_t_cs : forall e id t r q, match handle_t e id t r q with (_, _, _, q1) => q_cs q1 = q_cs q end.
Proof.
  intros e id t r q. pose proof (handle_verdict e id t r q) as V. unfold verdict in V.
  destruct (handle_t e id t r q) as (((ret & rej) & nr) & q1). apply V.
Qed.

Lemma DoChannelRequest_eq : forall e a buf q, bytes_ok buf -> is32 (lenN buf) ->
  DoChannelRequest e a buf q =
    match p_request buf with
    | Some (id, t, w, r) => Some (answer e a id t w r q)
    | None => Some (WS_BUFFER_E, q)
    end.
Proof.
  intros e a buf q Hm H32. unfold DoChannelRequest, p_request. cbv zeta.
  assert (Em : buf = [] ++ buf) by reflexivity. change 0 with (lenN (@nil N)) at 1.
  u32_step Hm H32. u32_step Hm H32. rewrite removelast_app1. change (32 - 1) with 31.
  u32_step Hm H32. unfold answer.
  match goal with |- context [find_self ?i (s_list (q_cs q))] => destruct (find_self i (s_list (q_cs q))) as [c|] eqn:Ef end.
  - rewrite (handle_eq _ _ _ _ _ _ _ Hm H32 Em2).
    match goal with |- context [handle_t e ?i ?t ?r q] => pose proof (handle_t_cs e i t r q) as Hcs;
      destruct (handle_t e i t r q) as (((ret & rej) & nr) & q1) end.
    cbv zeta. destruct nr; [reflexivity|].
    match goal with |- context [negb (?w =? 0)] => destruct (w =? 0) end; cbn [negb]; [reflexivity|].
    unfold SendChannelSuccess. rewrite Hcs, Ef.
    match goal with |- context [send_msg ?i ?m a ?s] => destruct (send_msg i m a s) as (rr & ss) end. reflexivity.
  - cbv zeta. match goal with |- context [negb (?w =? 0)] => destruct (w =? 0) end; cbn [negb]; [reflexivity|].
    unfold SendChannelSuccess. rewrite Ef. cbn [rc_eqb]. rewrite q_set_cs_id. reflexivity.
Qed.

Lemma answer_facts : forall e a id t w r q c ret q',
  find_self id (s_list (q_cs q)) = Some c -> is32 (c_peer c) ->
  answer e a id t w r q = (ret, q') ->
  s_list (q_cs q') = s_list (q_cs q) /\
  (w = 0 \/ unanswered e t -> s_log (q_cs q') = s_log (q_cs q)) /\
  (w <> 0 -> ~ unanswered e t ->
     exists g m, reply_msg g (c_peer c) m /\ (g = true <-> body e t r /\ ~ refused e id t r) /\
       (s_log (q_cs q') = s_log (q_cs q) ++ [Sent (keying (q_cs q)) id m] \/
        (s_log (q_cs q') = s_log (q_cs q) /\ ret <> WS_SUCCESS /\
         (a_prep a <> WS_SUCCESS \/ a_bund a <> WS_SUCCESS)))) /\
  exists cs, q_calls q' = q_calls q ++ cs /\
    (body e t r -> has_callback e t -> told e id t r cs) /\
    (body e t r -> ~ has_callback e t -> cs = []) /\
    (~ body e t r -> t <> ascii "exec" -> t <> ascii "subsystem" -> cs = []).
Proof.
  intros e a id t w r q c ret q' Hf Hp H. unfold answer in H. rewrite Hf in H.
  pose proof (handle_verdict_cut e id t r q) as V. unfold verdict in V.
  destruct (handle_t e id (takeN 31 t) r q) as (((ret1 & rej) & nr) & q1).
  destruct V as (Vc & Vn & Vv & Vk).
  destruct nr.
  - apply pair_equal_spec in H. destruct H as (<- & <-).
    assert (U : unanswered e t) by (apply Vn; reflexivity).
    split; [rewrite Vc; reflexivity|]. split; [rewrite Vc; auto|]. split; [intros _ K; contradiction|exact Vk].
  - assert (U : ~ unanswered e t) by (intros K; apply Vn in K; discriminate K).
    specialize (Vv U). destruct (N.eqb_spec w 0) as [Hw|Hw].
    + apply pair_equal_spec in H. destruct H as (<- & <-).
      split; [rewrite Vc; reflexivity|]. split; [rewrite Vc; auto|]. split; [intros K; contradiction|exact Vk].
    + set (g := rc_eqb ret1 WS_SUCCESS && negb rej) in *.
      destruct (send_msg id ([if g then MSGID_CHANNEL_SUCCESS else MSGID_CHANNEL_FAILURE] ++ c32toa (c_peer c)) a (q_cs q1))
        as (rr & ss) eqn:Es.
      apply pair_equal_spec in H. destruct H as (<- & <-). cbn [q_cs q_set_cs q_calls].
      destruct (send_msg_cases _ _ _ _ _ _ Es) as (Hl & Hlog). rewrite Vc in Hl, Hlog.
      split; [exact Hl|]. split; [intros [K|K]; contradiction|]. split; [|exact Vk].
      intros _ _. exists g, ([if g then MSGID_CHANNEL_SUCCESS else MSGID_CHANNEL_FAILURE] ++ c32toa (c_peer c)).
      split; [exists (c32toa (c_peer c)); split; [apply u32_c32; exact Hp|destruct g; reflexivity]|]. split.
      * rewrite <- Vv. unfold g. rewrite andb_true_iff, negb_true_iff, rc_eqb_eq. tauto.
      * destruct Hlog as [Hlog|(Hlog & Hr & Ha)]; [left; exact Hlog|right].
        split; [exact Hlog|]. split; [|exact Ha]. apply rc_eqb_neq in Hr. rewrite Hr. intros K. rewrite K in Hr.
        discriminate Hr.
Qed.

(* ---- global requests ---------------------------------------------------- *)

Lemma fwd_name : forall n, (NameToId n =? ID_GLOBREQ_TCPIP_FWD) = true <-> n = ascii "tcpip-forward".
Proof.
  intros n. split.
  - intros H. apply N.eqb_eq in H. symmetry. apply NameToId_inj.
    + vm_compute. reflexivity.
    + rewrite H. vm_compute. reflexivity.
    + vm_compute. discriminate.
  - intros ->. vm_compute. reflexivity.
Qed.
Lemma cancel_name : forall n, (NameToId n =? ID_GLOBREQ_TCPIP_FWD_CANCEL) = true <-> n = ascii "cancel-tcpip-forward".
Proof.
  intros n. split.
  - intros H. apply N.eqb_eq in H. symmetry. apply NameToId_inj.
    + vm_compute. reflexivity.
    + rewrite H. vm_compute. reflexivity.
    + vm_compute. discriminate.
  - intros ->. vm_compute. reflexivity.
Qed.

Lemma name_cut : forall n m : bytes, lenN m < 79 -> takeN 79 n = m <-> n = m.
Proof.
  intros n m Hm. split.
  - intros E. destruct (N.leb_spec (lenN n) 79) as [H|H]; [rewrite takeN_all in E by exact H; exact E|].
    assert (L : lenN (takeN 79 n) = 79) by (rewrite lenN_takeN; lia). rewrite E in L. lia.
  - intros ->. apply takeN_all. lia.
Qed.

Definition p_fwd (rest : bytes) : option (bytes * N) :=
  match p_str rest with None => None | Some (s, r) =>
  match p_u32 r with None => None | Some (p, _) => Some (s, p) end end.
Lemma p_fwd_spec : forall rest s p, p_fwd rest = Some (s, p) <-> fwd_body s p rest.
Proof.
  intros rest s p. unfold p_fwd. split.
  - destruct (p_str rest) as [(s', r)|] eqn:A; [|discriminate]. destruct (p_u32 r) as [(p', x)|] eqn:B; [|discriminate].
    intros H. injection H as -> ->. destruct (p_str_some _ _ _ A) as (ab & Ha & ->).
    destruct (p_u32_some _ _ _ B) as (pb & Hp & ->). exists ab, pb, x. auto.
  - intros (ab & pb & x & Ha & Hp & ->). rewrite (p_str_app _ _ _ Ha), (p_u32_app _ _ _ Hp). reflexivity.
Qed.
Definition p_greq (buf : bytes) : option (bytes * N * bytes) :=
  match p_str buf with None => None | Some (n, r) =>
  match p_byte r with None => None | Some (w, r) => Some (n, w, r) end end.
Lemma p_greq_spec : forall buf n w r, p_greq buf = Some (n, w, r) <-> greq n w r buf.
Proof.
  intros buf n w r. unfold p_greq. split.
  - destruct (p_str buf) as [(n', r1)|] eqn:A; [|discriminate].
    destruct r1 as [|w' r2]; cbn [p_byte]; [discriminate|]. intros H. injection H as -> -> ->.
    destruct (p_str_some _ _ _ A) as (nb & Hn & ->). exists nb. auto.
  - intros (nb & Hn & ->). rewrite (p_str_app _ _ _ Hn). reflexivity.
Qed.

(* what DoGlobalRequestFwd decides: result, port and session *)
Definition fwd_decide (e : env) (isCancel : bool) (pf : option (bytes * N)) (q : rq) : rc * N * rq :=
  match pf with
  | None => (WS_BUFFER_E, 0, q)
  | Some (addr, requested) =>
      match cb_fwd e with
      | None => (WS_UNIMPLEMENTED_E, requested, q)
      | Some f =>
          let cbRet := f isCancel addr requested in
          let q := q_called (CFwd isCancel addr requested) q in
          let '(ret, bindPort) :=
            if negb isCancel && (WS_FWD_PORT_CHECK <=? cbRet)%Z then
              (WS_SUCCESS, if (requested =? 0) && (cbRet <=? 65535)%Z then word_of_int cbRet else requested)
            else if negb (cbRet =? WS_FWD_SUCCESS)%Z then (WS_RESOURCE_E, requested)
            else (WS_SUCCESS, requested) in
          if rc_eqb ret WS_SUCCESS && negb isCancel && (requested =? 0) && (bindPort <? Z.to_N WS_FWD_PORT_CHECK)
          then (WS_RESOURCE_E, bindPort, q_called (CFwd true addr bindPort) q)
          else (ret, bindPort, q)
      end
  end.
Definition fwd_finish (a : sendans) (want : N) (isCancel : bool) (x : rc * N * rq) : rc * rq :=
  let '(ret, port, q) := x in
  if negb (want =? 0) then
    let '(r, s) :=
      if rc_eqb ret WS_SUCCESS
      then (if isCancel then SendRequestSuccess true a (q_cs q) else SendGlobalRequestFwdSuccess port a (q_cs q))
      else SendRequestSuccess false a (q_cs q) in
    (r, q_set_cs s q)
  else (if rc_eqb ret WS_UNIMPLEMENTED_E || rc_eqb ret WS_RESOURCE_E then WS_SUCCESS else ret, q).

Lemma fwd_eq : forall e a m pre rest want isCancel q, bytes_ok m -> is32 (lenN m) -> m = pre ++ rest ->
  DoGlobalRequestFwd e a m (lenN pre) want isCancel q =
    Some (fwd_finish a want isCancel (fwd_decide e isCancel (p_fwd rest) q)).
Proof.
  intros e a m pre rest want isCancel q Hm H32 Em. unfold DoGlobalRequestFwd, p_fwd. cbv zeta.
  pose proof (alloc_tail m pre rest Hm H32 Em) as P. destruct (p_str rest) as [(s, r)|].
  2:{ destruct P as (i & ->). unfold fwd_finish, fwd_decide.
      destruct (want =? 0); cbn [negb rc_eqb]; [reflexivity|].
      destruct (SendRequestSuccess false a (q_cs q)); reflexivity. }
  destruct P as (pre' & Em' & ->).
  pose proof (u32_tail m pre' r Hm H32 Em') as P. destruct (p_u32 r) as [(p, x)|].
  2:{ destruct P as (i & ->). unfold fwd_finish, fwd_decide.
      destruct (want =? 0); cbn [negb rc_eqb]; [reflexivity|].
      destruct (SendRequestSuccess false a (q_cs q)); reflexivity. }
  destruct P as (pre2 & Em2 & ->). rewrite removelast_app1. unfold fwd_decide, fwd_finish. cbv zeta.
  match goal with |- match ?x with (_, _) => _ end = Some (match ?y with (_, _) => _ end) => change y with x; set (z := x) end.
  destruct z as ((ret & port) & q1). destruct (want =? 0); cbn [negb]; [reflexivity|].
  destruct (if rc_eqb ret WS_SUCCESS then _ else _); reflexivity.
Qed.

Lemma finish_replied : forall a want isCancel ret port q r q',
  fwd_finish a want isCancel (ret, port, q) = (r, q') ->
  q_calls q' = q_calls q /\
  replied want a (if rc_eqb ret WS_SUCCESS
                  then (if isCancel then [MSGID_REQUEST_SUCCESS] else MSGID_REQUEST_SUCCESS :: c32toa port)
                  else [MSGID_REQUEST_FAILURE]) r (q_cs q) (q_cs q') /\
  (want = 0 -> r = if rc_eqb ret WS_UNIMPLEMENTED_E || rc_eqb ret WS_RESOURCE_E then WS_SUCCESS else ret).
Proof.
  intros a want isCancel ret port q r q' H. unfold fwd_finish in H. destruct (N.eqb_spec want 0) as [Hw|Hw]; cbn [negb] in H.
  - apply pair_equal_spec in H. destruct H as (<- & <-). split; [reflexivity|]. split; [|reflexivity].
    unfold replied. split; [reflexivity|]. split; [reflexivity|]. intros K; contradiction.
  - set (m := if rc_eqb ret WS_SUCCESS then _ else _).
    assert (E : (if rc_eqb ret WS_SUCCESS
       then (if isCancel then SendRequestSuccess true a (q_cs q) else SendGlobalRequestFwdSuccess port a (q_cs q))
       else SendRequestSuccess false a (q_cs q)) = send_msg 0 m a (q_cs q)).
    { unfold m. destruct (rc_eqb ret WS_SUCCESS); [destruct isCancel|]; reflexivity. }
    rewrite E in H. destruct (send_msg 0 m a (q_cs q)) as (r1 & s1) eqn:Es.
    apply pair_equal_spec in H. destruct H as (<- & <-). split; [reflexivity|].
    split; [|intros K; contradiction]. cbn [q_cs q_set_cs].
    destruct (send_msg_cases _ _ _ _ _ _ Es) as (Hl & Hlog). unfold replied. split; [exact Hl|].
    split; [intros K; contradiction|]. intros _. exact Hlog.
Qed.

Lemma greq_eq : forall e a buf q, bytes_ok buf -> is32 (lenN buf) ->
  DoGlobalRequest e a buf q =
    if lenN buf =? 0 then Some (WS_BAD_ARGUMENT, q) else
    match p_greq buf with
    | None => Some (WS_BUFFER_E, q)
    | Some (n, want, r) =>
        let fwd c := Some (fwd_finish a want c (fwd_decide e c (p_fwd r) q)) in
        if b_fwd e && (NameToId (takeN 79 n) =? ID_GLOBREQ_TCPIP_FWD) then fwd false
        else if b_fwd e && (NameToId (takeN 79 n) =? ID_GLOBREQ_TCPIP_FWD_CANCEL) then fwd true
        else
          match cb_global e with
          | Some f =>
              let ret := f (takeN 79 n) want in
              let q := q_called (CGlobal (takeN 79 n) want) q in
              if negb (want =? 0)
              then let '(r, s) := SendRequestSuccess (rc_eqb ret WS_SUCCESS) a (q_cs q) in Some (r, q_set_cs s q)
              else Some (ret, q)
          | None =>
              if negb (want =? 0)
              then let '(r, s) := SendRequestSuccess false a (q_cs q) in Some (r, q_set_cs s q)
              else Some (WS_SUCCESS, q)
          end
    end.
Proof.
  intros e a buf q Hm H32. unfold DoGlobalRequest, p_greq. cbv zeta.
  destruct (lenN buf =? 0); [reflexivity|].
  assert (Em : buf = [] ++ buf) by reflexivity. change (GetString 80 buf (lenN buf) 0) with (GetString 80 buf (lenN buf) (lenN (@nil N))).
  u32_step Hm H32. rewrite removelast_app1. change (80 - 1) with 79.
  u32_step Hm H32.
  rewrite (fwd_eq _ _ _ _ _ _ _ _ Hm H32 Em1). rewrite (fwd_eq _ _ _ _ _ _ _ _ Hm H32 Em1). reflexivity.
Qed.
