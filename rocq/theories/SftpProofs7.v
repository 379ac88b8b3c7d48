(* SftpProofs7.v - proofs about the SFTP server: attributes and replies. *)
From Verif Require Import Base WireModel WireSpec WireProofs PathModel PathSpec PathProofs NegoSpec ReqSpec ReqProofs ReqProofs3.
From Verif Require Import SftpModel SftpProofs SftpSpec SftpProofs2 SftpProofs3 SftpProofs4 SftpProofs5 SftpProofs6.
From Coq Require Import List NArith ZArith Bool Lia String.
Import ListNotations.
Open Scope N_scope.

Lemma has_bit : forall fl n, has fl (2 ^ n) = N.testbit fl n.
Proof.
  intros fl n. unfold has. destruct (N.testbit fl n) eqn:T.
  - destruct (N.eqb_spec (N.land fl (2 ^ n)) 0) as [Z|Z]; [|reflexivity]. exfalso.
    apply (f_equal (fun x => N.testbit x n)) in Z. rewrite N.land_spec, T, N.pow2_bits_true, N.bits_0 in Z. discriminate.
  - replace (N.land fl (2 ^ n)) with 0; [reflexivity|]. symmetry. apply N.bits_inj. intros k. rewrite N.land_spec, N.bits_0.
    destruct (N.eq_dec k n) as [->|K]; [rewrite T; reflexivity|]. rewrite N.pow2_bits_false by congruence. apply andb_false_r.
Qed.
Lemma bit_size : forall fl, has fl A_SIZE = N.testbit fl 0. Proof. intros. apply (has_bit fl 0). Qed.
Lemma bit_owner : forall fl, has fl A_UIDGID = N.testbit fl 1. Proof. intros. apply (has_bit fl 1). Qed.
Lemma bit_perm : forall fl, has fl A_PERM = N.testbit fl 2. Proof. intros. apply (has_bit fl 2). Qed.
Lemma bit_time : forall fl, has fl A_TIME = N.testbit fl 3. Proof. intros. apply (has_bit fl 3). Qed.
Lemma bit_ext : forall fl, has fl A_EXT = N.testbit fl 31. Proof. intros. apply (has_bit fl 31). Qed.

(* ---- reading attributes -------------------------------------------------------- *)

Lemma p_two_app : forall h v v2 b b2 r, field h v b -> field h v2 b2 -> p_two h (b ++ b2 ++ r) = Some ((v, v2), r).
Proof.
  intros [|] v v2 b b2 r F F2; cbn [field] in *; unfold p_two.
  - rewrite (p_u32_app v b) by assumption. rewrite (p_u32_app v2 b2) by assumption. reflexivity.
  - destruct F as (-> & ->). destruct F2 as (-> & ->). reflexivity.
Qed.
Lemma p_one_app : forall h v b r, field h v b -> p_one h (b ++ r) = Some (v, r).
Proof.
  intros [|] v b r F; cbn [field] in *; unfold p_one.
  - apply p_u32_app. assumption.
  - destruct F as (-> & ->). reflexivity.
Qed.
Lemma pairs_nz : forall n b, pairs n b -> n = 0 -> b = [].
Proof. intros n b H. destruct H; intros Z; [reflexivity|lia]. Qed.
Lemma p_ext_app : forall n b, pairs n b -> forall fuel r, (Datatypes.length (b ++ r) <= fuel)%nat -> p_ext fuel n (b ++ r) = Some r.
Proof.
  intros n b H. induction H as [|n x xb y yb b Hx Hy H IH]; intros fuel r L.
  - destruct fuel; reflexivity.
  - assert (4 <= lenN xb) by (destruct Hx as (l & (Hl & _) & ->); rewrite lenN_app; lia).
    destruct fuel as [|fuel]; [rewrite !app_length in L; unfold lenN in *; lia|]. cbn [p_ext].
    destruct (N.eqb_spec (n + 1) 0); [lia|]. rewrite <- !app_assoc. rewrite (p_str_app x xb) by assumption. rewrite (p_str_app y yb) by assumption.
    replace (n + 1 - 1) with n by lia. apply IH. rewrite <- !app_assoc, !app_length in *. unfold lenN in *. lia.
Qed.

Lemma p_attrs_app : forall a b r, attr_wire a b -> p_attrs (b ++ r) = Some (a, r).
Proof.
  intros a b r (fb & hb & lb & ub & gb & pb & ab & mb & eb & xb & F & S1 & S2 & U1 & U2 & P & T1 & T2 & X & Xs & Q).
  unfold p_attrs, p_attrs_f.
  assert (L : (Datatypes.length (xb ++ r) <= Datatypes.length (b ++ r))%nat) by (rewrite Q, !app_length; lia).
  set (fuel := Datatypes.length (b ++ r)) in *. clearbody fuel. rewrite Q. rewrite <- !app_assoc.
  rewrite (p_u32_app (a_flags a) fb) by assumption.
  rewrite bit_size. rewrite (p_two_app _ (a_hi a) (a_lo a) hb lb) by assumption.
  rewrite bit_owner. rewrite (p_two_app _ (a_uid a) (a_gid a) ub gb) by assumption.
  rewrite bit_perm. rewrite (p_one_app _ (a_per a) pb) by assumption.
  rewrite bit_time. rewrite (p_two_app _ (a_atime a) (a_mtime a) ab mb) by assumption.
  rewrite bit_ext. rewrite (p_one_app _ (a_ext a) eb) by assumption.
  rewrite (p_ext_app (a_ext a) xb Xs) by assumption. cbn [fst snd]. destruct a; reflexivity.
Qed.

Lemma p_two_some : forall h r v r', p_two h r = Some (v, r') -> exists b b2, field h (fst v) b /\ field h (snd v) b2 /\ r = b ++ b2 ++ r'.
Proof.
  intros [|] r v r' H; unfold p_two in H.
  - destruct (p_u32 r) as [(x, r1)|] eqn:E1; [|discriminate]. destruct (p_u32 r1) as [(y, r2)|] eqn:E2; [|discriminate].
    assert (v = (x, y) /\ r2 = r') as (-> & <-) by (split; congruence).
    destruct (p_u32_some _ _ _ E1) as (b & U1 & ->). destruct (p_u32_some _ _ _ E2) as (b2 & U2 & ->).
    exists b, b2. split; [exact U1|]. split; [exact U2|reflexivity].
  - assert (v = (0, 0) /\ r = r') as (-> & <-) by (split; congruence). exists [], []. repeat split; reflexivity.
Qed.
Lemma p_one_some : forall h r v r', p_one h r = Some (v, r') -> exists b, field h v b /\ r = b ++ r'.
Proof.
  intros [|] r v r' H; unfold p_one in H.
  - destruct (p_u32_some _ _ _ H) as (b & U1 & ->). exists b. split; [exact U1|reflexivity].
  - assert (v = 0 /\ r = r') as (-> & <-) by (split; congruence). exists []. repeat split; reflexivity.
Qed.
Lemma p_ext_some : forall fuel n r r', p_ext fuel n r = Some r' -> exists b, pairs n b /\ r = b ++ r'.
Proof.
  induction fuel as [|f IH]; intros n r r' H; cbn [p_ext] in H; destruct (N.eqb_spec n 0) as [->|Z].
  - assert (r = r') as <- by congruence. exists []. split; [constructor|reflexivity].
  - discriminate.
  - assert (r = r') as <- by congruence. exists []. split; [constructor|reflexivity].
  - destruct (p_str r) as [(x, r1)|] eqn:E1; [|discriminate]. destruct (p_str r1) as [(y, r2)|] eqn:E2; [|discriminate].
    destruct (p_str_some _ _ _ E1) as (xb & Sx & ->). destruct (p_str_some _ _ _ E2) as (yb & Sy & ->).
    destruct (IH _ _ _ H) as (b & P & ->). exists (xb ++ yb ++ b). split; [|rewrite <- !app_assoc; reflexivity].
    replace n with (n - 1 + 1) by lia. econstructor; eassumption.
Qed.
Lemma p_attrs_some : forall r a r', p_attrs r = Some (a, r') -> exists b, attr_wire a b /\ r = b ++ r'.
Proof.
  intros r a r' H. unfold p_attrs, p_attrs_f in H. set (fuel := Datatypes.length r) in H. clearbody fuel.
  destruct (p_u32 r) as [(fl, r0)|] eqn:E0; [|discriminate]. rewrite bit_size, bit_owner, bit_perm, bit_time, bit_ext in H.
  destruct (p_two (N.testbit fl 0) r0) as [(s, r1)|] eqn:E1; [|discriminate].
  destruct (p_two (N.testbit fl 1) r1) as [(o, r2)|] eqn:E2; [|discriminate].
  destruct (p_one (N.testbit fl 2) r2) as [(p, r3)|] eqn:E3; [|discriminate].
  destruct (p_two (N.testbit fl 3) r3) as [(t, r4)|] eqn:E4; [|discriminate].
  destruct (p_one (N.testbit fl 31) r4) as [(e, r5)|] eqn:E5; [|discriminate].
  destruct (p_ext fuel e r5) as [r6|] eqn:E6; [|discriminate].
  assert (a = mkAttrs fl (fst s) (snd s) (fst o) (snd o) p (fst t) (snd t) e /\ r6 = r') as (-> & <-) by (split; congruence).
  destruct (p_u32_some _ _ _ E0) as (fb & F & ->).
  destruct (p_two_some _ _ _ _ E1) as (hb & lb & S1 & S2 & ->).
  destruct (p_two_some _ _ _ _ E2) as (ub & gb & U1 & U2 & ->).
  destruct (p_one_some _ _ _ _ E3) as (pb & P & ->).
  destruct (p_two_some _ _ _ _ E4) as (ab & mb & T1 & T2 & ->).
  destruct (p_one_some _ _ _ _ E5) as (eb & X & ->).
  destruct (p_ext_some _ _ _ _ E6) as (xb & Xs & ->).
  exists (fb ++ hb ++ lb ++ ub ++ gb ++ pb ++ ab ++ mb ++ eb ++ xb). split; [|rewrite <- !app_assoc; reflexivity].
  exists fb, hb, lb, ub, gb, pb, ab, mb, eb, xb. cbn [a_flags a_hi a_lo a_uid a_gid a_per a_atime a_mtime a_ext].
  repeat (split; [assumption|]). reflexivity.
Qed.

(* ---- writing them ---------------------------------------------------------------- *)

Lemma c32_cases : forall (h : bool) v, is32 v -> (h = false -> v = 0) -> field h v (if h then c32toa v else []).
Proof. intros [|] v Hv Hz; cbn [field]; [apply u32_c32; assumption|split; [reflexivity|apply Hz; reflexivity]]. Qed.

Lemma stat_wire : forall a, stat_attrs a -> attr_wire a (SetAttributes a) /\ lenN (SetAttributes a) = AttributesSz a /\ lenN (SetAttributes a) = 32.
Proof.
  intros a (F & H1 & H2 & H3 & H4 & H5 & H6 & H7 & H8). unfold SetAttributes, AttributesSz, attr_wire. cbv zeta.
  rewrite !bit_size, !bit_owner, !bit_perm, !bit_time, !bit_ext, F.
  change (N.testbit 15 0) with true. change (N.testbit 15 1) with true. change (N.testbit 15 2) with true. change (N.testbit 15 3) with true.
  change (N.testbit 15 31) with false. cbn [field]. split; [|split].
  - exists (c32toa 15), (c32toa (a_hi a)), (c32toa (a_lo a)), (c32toa (a_uid a)), (c32toa (a_gid a)), (c32toa (a_per a)), (c32toa (a_atime a)), (c32toa (a_mtime a)), [], [].
    repeat (split; [first [apply u32_c32; assumption | apply u32_c32; reflexivity | split; [reflexivity|assumption] ]|]).
    split; [rewrite H8; constructor|]. rewrite <- !app_assoc. reflexivity.
  - rewrite !lenN_app, !lenN_c32. reflexivity.
  - rewrite !lenN_app, !lenN_c32. reflexivity.
Qed.
Lemma none_wire : attr_wire no_attrs (SetAttributes no_attrs) /\ lenN (SetAttributes no_attrs) = AttributesSz no_attrs /\ lenN (SetAttributes no_attrs) = 4.
Proof.
  split; [|split; reflexivity]. exists (c32toa 0), [], [], [], [], [], [], [], [], []. cbn [a_flags no_attrs].
  repeat (split; [first [apply u32_c32; reflexivity | split; reflexivity | constructor]|]). reflexivity.
Qed.
Definition okat (a : attrs) : Prop := attr_wire a (SetAttributes a) /\ lenN (SetAttributes a) = AttributesSz a.

(* ---- every reply is a reply to the request ------------------------------------------ *)

Definition good (ty id : N) (o : option bytes) : Prop := forall m, o = Some m -> reply_msg ty id m.
Lemma good_none : forall ty id, good ty id None. Proof. intros ty id m H. discriminate. Qed.
Lemma good_status : forall ty id c text, is32 id -> is32 c -> lenN text < 100 -> good ty id (Some (CreateStatus c id text English)).
Proof. intros ty id c text Hi Hc Ht m H. assert (m = CreateStatus c id text English) by congruence. subst. left. exists c. apply status_ok; assumption. Qed.
Lemma status_good : forall ty E r c i t s r' out s', status_t E r c i t s = (r', out, s') -> is32 i -> is32 c -> lenN t < 100 -> good ty i out.
Proof. intros ty E r c i t s r' out s' H Hi Hc Ht. apply status_inv in H. destruct H as (_ & [->| ->]); [apply good_none|apply good_status; assumption]. Qed.
Lemma outcome_good : forall ty E i p o a b s r' out s', outcome_t E i p o a b s = (r', out, s') -> is32 i -> lenN a < 100 -> lenN b < 100 -> good ty i out.
Proof.
  intros ty E i p o a b s r' out s' H Hi Ha Hb. unfold outcome_t in H. destruct p; [|destruct o]; eapply status_good; try exact H; try assumption; reflexivity.
Qed.
Lemma attrs_good : forall ty E i t s r' out s', In ty [7; 8; 17] -> attrs_reply_t E i t s = (r', out, s') -> stat_env E -> is32 i -> lenN t < 100 -> good ty i out.
Proof.
  intros ty E i t s r' out s' Ty H Se Hi Ht. unfold attrs_reply_t in H. cbv zeta in H. destruct (negb _); [apply triple_inv in H; destruct H as (_ & <- & _); apply good_none|].
  destruct (_ =? 0)%Z; apply triple_inv in H; destruct H as (_ & <- & _).
  - destruct (stat_wire _ (Se (s_log s))) as (A & B & C). intros m Q. assert (m = SetHeader i FTP_ATTRS (AttributesSz (r_attr (fs E (s_log s)))) ++ SetAttributes (r_attr (fs E (s_log s)))) by congruence. subst m.
    right. right. right. right. split; [exact Ty|]. eexists. exists (SetAttributes (r_attr (fs E (s_log s)))). split; [exact A|]. rewrite <- B.
    apply frame_set; [assumption|]. rewrite C. reflexivity.
  - apply good_status; [assumption|reflexivity|assumption].
Qed.

Lemma put_names_ok : forall l room b, put_names l room = Some b -> room < W32 -> Forall (fun e => okat (snd e)) l ->
  names_sz l <= room /\ lenN b = names_sz l /\ exists bs, Forall2 name_wire l bs /\ b = List.concat bs.
Proof.
  induction l as [|((f, g), a) l IH]; intros room b H Hr Ho; cbn [put_names names_sz fold_right] in *.
  - assert (b = []) as -> by congruence. split; [lia|]. split; [reflexivity|]. exists []. split; [constructor|reflexivity].
  - inversion Ho as [|? ? (A1 & A2) Ho']; subst. cbn [snd] in *.
    destruct (N.ltb_spec room (lenN f + lenN g + 8)) as [L1|L1]; [discriminate|]. cbv zeta in H.
    destruct (N.ltb_spec (room - (lenN f + lenN g + 8)) (AttributesSz a)) as [L2|L2]; [discriminate|].
    destruct (put_names l _) as [b'|] eqn:E; [|discriminate].
    destruct (IH _ _ E ltac:(lia) Ho') as (B1 & B2 & bs & B3 & B4). fold (names_sz l) in *.
    assert (b = PutString f ++ PutString g ++ SetAttributes a ++ b') as -> by congruence.
    split; [lia|]. unfold PutString. rewrite !lenN_app, !lenN_c32, A2, B2. split; [lia|].
    exists ((PutString f ++ PutString g ++ SetAttributes a) :: bs). split.
    + constructor; [|assumption]. exists (PutString f), (PutString g), (SetAttributes a).
      split; [apply str_put; unfold is32; lia|]. split; [apply str_put; unfold is32; lia|]. split; [assumption|reflexivity].
    + cbn [List.concat]. unfold PutString. rewrite <- !app_assoc. rewrite B4. reflexivity.
Qed.

Lemma name_good : forall id l b n, is32 id -> n = 13 + names_sz l -> n < W32 -> put_names l (n - 13) = Some b -> Forall (fun e => okat (snd e)) l ->
  name_msg id l (SetHeader id FTP_NAME (n - 9) ++ c32toa (lenN l) ++ b).
Proof.
  intros id l b n Hi Hn Hlt P Ho. destruct (put_names_ok _ _ _ P ltac:(lia) Ho) as (A & B & bs & C & D).
  assert (LL : lenN l <= names_sz l).
  { clear. induction l as [|((f, g), a) l IH]; [reflexivity|]. rewrite lenN_cons. cbn [names_sz fold_right]. fold (names_sz l). lia. }
  exists (c32toa (lenN l)), bs. split; [apply u32_c32; unfold is32; lia|]. split; [assumption|]. rewrite <- D.
  replace (n - 9) with (lenN (c32toa (lenN l) ++ b)) by (rewrite lenN_app, lenN_c32, B; lia).
  apply frame_set; [assumption|]. rewrite lenN_app, lenN_c32, B. lia.
Qed.

Lemma readdir_okat : forall E, stat_env E -> forall dn names acc s l s', readdir_loop E dn names acc s = (l, s') ->
  Forall (fun e => okat (snd e)) acc -> Forall (fun e => okat (snd e)) l.
Proof.
  intros E Se dn. induction names as [|n t IH]; intros acc s l s' H Ha; cbn [readdir_loop] in H.
  - assert (l = acc) as -> by congruence. assumption.
  - destruct (negb _); [assert (l = acc) as -> by congruence; assumption|].
    destruct (readdir_path _ _ _) as [p|]; [|assert (l = acc) as -> by congruence; assumption]. cbv zeta in H.
    destruct (longname _ _ _) as [ln|]; [|assert (l = acc) as -> by congruence; assumption].
    eapply IH; [exact H|]. constructor; [|assumption]. cbn [snd]. destruct (_ =? 0)%Z.
    + destruct (stat_wire _ (Se (s_log (ask (FStat p true) s)))) as (A & B & _). split; assumption.
    + destruct none_wire as (A & B & _). split; assumption.
Qed.

Lemma wrap_out : forall l, (w32 (13 + names_sz l) <? 13) = false -> put_names l (w32 (13 + names_sz l) - 13) <> None ->
  Forall (fun e => okat (snd e)) l -> w32 (13 + names_sz l) = 13 + names_sz l /\ 13 + names_sz l < W32.
Proof.
  intros l H P Ho. destruct (put_names l _) as [b|] eqn:E; [|congruence].
  assert (w32 (13 + names_sz l) < W32) by (unfold w32; apply N.mod_lt; discriminate).
  destruct (put_names_ok _ _ _ E ltac:(lia) Ho) as (A & _). apply N.ltb_ge in H.
  assert (w32 (13 + names_sz l) <= 13 + names_sz l) by (unfold w32; apply N.mod_le; discriminate). lia.
Qed.

Lemma RecvRealPath_len : forall cwd data p, paths_ok p -> forall q, snd (RecvRealPath cwd data p) = Some q -> lenN q < 256.
Proof.
  intros cwd data p Hp q. unfold RecvRealPath. destruct (N.leb_spec MAX_FILENAME (lenN data)) as [L|L]; [discriminate|].
  set (p1 := match sp_default p with Some _ => p | None => _ end).
  assert (H1 : paths_ok p1).
  { unfold p1. destruct (sp_default p) as [d|]; [assumption|].
    destruct cwd as [w|]; [|assumption].
    destruct (RealPath None (cstr (takeN 255 w)) MAX_FILENAME) as [[ret s]|]; [|assumption].
    destruct (rc_eqb ret WS_SUCCESS); [|assumption]. apply SetDefault_inv. assumption. }
  clearbody p1. destruct (sp_default p1) as [d|] eqn:Ed; [|discriminate].
  destruct (stored_default p1 H1) as (from & F). rewrite Ed in F.
  destruct (RealPath (Some d) (cstr data) MAX_FILENAME) as [[ret s]|] eqn:R; [|discriminate].
  destruct (rc_eqb ret WS_SUCCESS) eqn:Er; [|discriminate]. cbn [snd]. intros Q. assert (s = q) as -> by congruence.
  apply rc_eqb_eq in Er.
  assert (I : is32 (lenN (cstr data))) by (pose proof (cstr_len data); unfold is32, W32, MAX_FILENAME in *; lia).
  destruct (RealPath_stored _ _ _ _ _ F I R Er) as (st & _ & _ & _ & (cs & _ & _ & S) & _).
  exact S.
Qed.

Ltac gl H := apply triple_inv in H; destruct H as (_ & <- & _); apply good_none.

Section good.
  Variables (E : senv) (id : N) (data : bytes) (s : srv) (r : rc) (out : option bytes) (s' : srv).
  Hypothesis Se : stat_env E.
  Hypothesis Hi : is32 id.
  Hypothesis Hl : lenN data <= 65536.
  Hypothesis Hp : paths_ok (s_paths s).

  Local Ltac st H := eapply status_good; [exact H|assumption|reflexivity|reflexivity].
  Local Ltac oc H := eapply outcome_good; [exact H|assumption|reflexivity|reflexivity].
  Local Ltac cs H := apply triple_inv in H; destruct H as (_ & <- & _); first [apply good_none | apply good_status; [assumption|reflexivity|reflexivity]].

  Lemma dispatch_good : forall ty, dispatch_t E ty id data s = (r, out, s') -> good ty id out.
  Proof using Se Hi Hl Hp.
    intros ty D. unfold dispatch_t in D.
    destruct (N.eqb_spec ty FTP_REALPATH) as [Ty|_].
    { revert D. unfold RecvRealPathMsg_t. intros H. destruct (p_str data) as [(path, r0)|]; [|gl H].
      destruct (_ <=? _); [gl H|]. cbv zeta in H.
      set (s1 := match sp_default (s_paths s) with Some _ => s | None => ask FGetcwd s end) in H.
      assert (Hp1 : paths_ok (s_paths s1)) by (unfold s1; destruct (sp_default (s_paths s)); exact Hp).
      pose proof (RecvRealPath_len (if (r_int (fs E (s_log s1)) =? 0)%Z then Some (r_data (fs E (s_log s1))) else None) path (s_paths s1) Hp1) as RL.
      destruct (RecvRealPath _ path (s_paths s1)) as (p, o). cbn [snd] in RL.
      destruct (sp_default p); [|destruct (mem _ _ _); cs H].
      destruct o as [q|]; [|gl H]. specialize (RL q eq_refl).
      destruct (_ && _); [gl H|]. apply triple_inv in H. destruct H as (_ & <- & _). intros m Q.
      right. right. right. left. split; [subst ty; cbn; tauto|]. exists [(q, q, no_attrs)].
      assert (P : put_names [(q, q, no_attrs)] (25 + lenN q + lenN q - 13) = Some (PutString q ++ PutString q ++ SetAttributes no_attrs ++ [])).
      { cbn [put_names]. change (AttributesSz no_attrs) with 4.
        destruct (N.ltb_spec (25 + lenN q + lenN q - 13) (lenN q + lenN q + 8)); [lia|]. cbv zeta.
        destruct (N.ltb_spec (25 + lenN q + lenN q - 13 - (lenN q + lenN q + 8)) 4); [lia|]. reflexivity. }
      rewrite app_nil_r in P.
      assert (m = SetHeader id FTP_NAME (25 + lenN q + lenN q - 9) ++ c32toa (lenN [(q, q, no_attrs)]) ++ PutString q ++ PutString q ++ SetAttributes no_attrs) as ->.
      { change (lenN [(q, q, no_attrs)]) with 1. congruence. }
      apply name_good; try assumption.
      - cbn [names_sz fold_right]. change (AttributesSz no_attrs) with 4. lia.
      - unfold W32. lia.
      - constructor; [|constructor]. destruct none_wire as (A & B & _). split; assumption. }
    destruct (N.eqb_spec ty FTP_RMDIR) as [Ty|_].
    { revert D. unfold RecvRMDIR_t. intros H. destruct (p_str data) as [(path, r0)|]; [|gl H]. destruct (clean_t E path s) as (ret, dir). cbv zeta in H.
      destruct (rc_eqb _ WS_SUCCESS); oc H. }
    destruct (N.eqb_spec ty FTP_MKDIR) as [Ty|_].
    { revert D. unfold RecvMKDIR_t. intros H. destruct (p_str data) as [(path, r0)|]; [|gl H]. destruct (clean_t E path s) as (ret, dir). cbv zeta in H.
      destruct (rc_eqb ret WS_SUCCESS); [destruct (p_attrs r0) as [(a, r1)|]; [oc H|gl H]|]. destruct (rc_eqb ret WS_PERMISSIONS); [oc H|gl H]. }
    assert (STAT : forall nf, In ty [7; 8; 17] -> RecvStat_t nf E id data s = (r, out, s') -> good ty id out).
    { intros nf Ty H. revert H. unfold RecvStat_t. intros H. destruct (p_str data) as [(path, r0)|]; [|gl H]. destruct (clean_t E path s) as (ret, dir). cbv zeta in H.
      destruct (rc_eqb ret WS_SUCCESS); [eapply attrs_good; [exact Ty|exact H|assumption|assumption|destruct nf; reflexivity]|].
      destruct (negb _); [gl H|]. destruct (rc_eqb ret WS_PERMISSIONS); [cs H|].
      apply triple_inv in H. destruct H as (_ & <- & _). apply good_status; [assumption|reflexivity|destruct nf; reflexivity]. }
    destruct (N.eqb_spec ty FTP_STAT) as [Ty|_]; [eapply STAT; [subst ty; cbn; tauto|exact D]|].
    destruct (N.eqb_spec ty FTP_LSTAT) as [Ty|_]; [eapply STAT; [subst ty; cbn; tauto|exact D]|]. clear STAT.
    destruct (N.eqb_spec ty FTP_FSTAT) as [Ty|_].
    { revert D. unfold RecvFSTAT_t. intros H. destruct (p_str data) as [(hb, r0)|]; [|gl H]. destruct (file_of_t hb s); [|gl H].
      eapply attrs_good; [subst ty; cbn; tauto|exact H|assumption|assumption|reflexivity]. }
    destruct (N.eqb_spec ty FTP_OPEN) as [Ty|_].
    { revert D. unfold RecvOpen_t. intros H. destruct (p_str data) as [(path, r0)|]; [|gl H]. destruct (clean_t E path s) as (ret, dir).
      destruct (rc_eqb ret WS_PERMISSIONS); [st H|]. destruct (negb _); [gl H|]. destruct (capped _ _); [st H|].
      destruct (p_u32 r0) as [(reason, r1)|]; [|gl H]. destruct (p_attrs r1) as [(a, r2)|]; [|gl H]. cbv zeta in H.
      destruct (_ && _); [destruct (mem _ _ _); cs H|]. destruct (_ <? 0)%Z; [destruct (mem _ _ _); cs H|].
      destruct (HandleIdNext _) as (h, s4). destruct (AddFileHandle _ _ _ _ s4) as (ret2, s5).
      destruct (negb _); [destruct (mem _ _ _); cs H|]. destruct (mem _ _ _); [|gl H].
      apply triple_inv in H. destruct H as (_ & <- & _). intros m Q. right. left. split; [subst ty; cbn; tauto|]. exists (HandleIdEncode h).
      assert (m = CreatePacket FTP_HANDLE id (HandleIdEncode h)) as -> by congruence. apply handle_ok. assumption. }
    destruct (N.eqb_spec ty FTP_READ) as [Ty|_].
    { revert D. unfold RecvRead_t. cbv zeta. intros H. destruct (p_str data) as [(hb, r0)|]; [|gl H].
      destruct (file_of_t hb s); [|destruct (_ || _); cs H].
      destruct (p_two true r0) as [((hi, lo), t1)|]; [|gl H]. destruct (p_u32 t1) as [(sz, t2)|]; [|gl H].
      destruct (N.ltb_spec MAX_SFTP_RW sz) as [L|L]; [gl H|]. destruct (negb _); [gl H|].
      destruct (r_int _ <? 0)%Z; cbn [orb] in H; [destruct (_ || _); cs H|].
      match type of H with (if ?x then _ else _) = _ => destruct x eqn:L2 end; [destruct (_ || _); cs H|].
      destruct (_ =? 0); [destruct (_ || _); cs H|].
      apply triple_inv in H. destruct H as (_ & <- & _). intros m Q. apply N.ltb_ge in L2. unfold MAX_SFTP_RW in L.
      right. right. left. split; [exact Ty|]. eexists. assert (Qm : m = CreatePacket FTP_DATA id (r_data (fs E (s_log (ask (FPread (f_fd f) sz (hi * W32 + lo)) s))))) by congruence.
      rewrite Qm. apply packet_ok; [assumption|]. unfold W32 in *. lia. }
    destruct (N.eqb_spec ty FTP_WRITE) as [Ty|_].
    { revert D. unfold RecvWrite_t. cbv zeta. intros H. destruct (p_str data) as [(hb, r0)|]; [|st H].
      destruct (file_of_t hb s); [|st H].
      destruct (p_two true r0) as [((hi, lo), t1)|]; [|gl H]. destruct (p_str t1) as [(d, t2)|]; [|gl H].
      destruct (write_loop _ _ _ _ _ _ _) as (ok, s2). destruct ok; st H. }
    destruct (N.eqb_spec ty FTP_CLOSE) as [Ty|_].
    { revert D. unfold RecvClose_t. intros H. destruct (p_str data) as [(hb, r0)|]; [|gl H]. destruct (_ <? _); [gl H|]. cbv zeta in H.
      destruct (negb _); [st H|]. destruct (RecvCloseDir _ _); [st H|]. destruct (FindFileHandle _ _); [|st H].
      destruct (_ <=? _)%Z; st H. }
    destruct (N.eqb_spec ty FTP_REMOVE) as [Ty|_].
    { revert D. unfold RecvRemove_t. intros H. destruct (p_str data) as [(path, r0)|]; [|gl H]. destruct (_ <? _); [gl H|].
      destruct (clean_t E path s) as (ret, dir). cbv zeta in H. destruct (rc_eqb _ WS_SUCCESS); oc H. }
    destruct (N.eqb_spec ty FTP_RENAME) as [Ty|_].
    { revert D. unfold RecvRename_t. cbv zeta. intros H. destruct (p_str data) as [(path, r0)|]; [|oc H].
      destruct (clean_t E path s) as (ret, dir). destruct (negb _); [oc H|]. destruct (p_str r0) as [(path2, r1)|]; [|oc H].
      destruct (clean_t E path2 s) as (ret2, dir2). destruct (negb _); oc H. }
    destruct (N.eqb_spec ty FTP_SETSTAT) as [Ty|_].
    { revert D. unfold RecvSetSTAT_t. cbv zeta. intros H. destruct (p_str data) as [(path, r0)|]; [|gl H].
      destruct (clean_t E path s) as (ret, dir). destruct (negb _); [oc H|]. destruct (p_attrs r0) as [(a, r1)|]; [|oc H].
      destruct (set_attrs _ _ _ _ _) as (ok, s2). oc H. }
    destruct (N.eqb_spec ty FTP_FSETSTAT) as [Ty|_].
    { revert D. unfold RecvFSetSTAT_t. cbv zeta. intros H. destruct (p_str data) as [(path, r0)|]; [|gl H].
      destruct (file_of_t path s); [|oc H]. destruct (p_attrs r0) as [(a, r1)|]; [|oc H].
      destruct (set_attrs _ _ _ _ _) as (ok, s2). oc H. }
    destruct (N.eqb_spec ty FTP_OPENDIR) as [Ty|_].
    { revert D. unfold RecvOpenDir_t. intros H. destruct (p_str data) as [(path, r0)|]; [|gl H]. destruct (clean_t E path s) as (ret, dir).
      destruct (rc_eqb ret WS_PERMISSIONS); [st H|]. destruct (negb _); [gl H|]. destruct (capped _ _); [st H|]. cbv zeta in H.
      destruct (_ <? 0)%Z; [destruct (mem _ _ _); cs H|]. destruct (negb _); [gl H|].
      destruct (HandleIdNext _) as (h, s4). destruct (mem _ _ _); [|gl H].
      apply triple_inv in H. destruct H as (_ & <- & _). intros m Q. right. left. split; [subst ty; cbn; tauto|]. exists (HandleIdEncode h).
      assert (m = CreatePacket FTP_HANDLE id (HandleIdEncode h)) as -> by congruence. apply handle_ok. assumption. }
    destruct (N.eqb_spec ty FTP_READDIR) as [Ty|_].
    { revert D. unfold RecvReadDir_t. intros H. destruct (p_str data) as [(hb, r0)|]; [|gl H]. destruct (_ <? _); [gl H|].
      destruct (negb _); [gl H|]. cbv zeta in H. destruct (FindDir _ _) as [e|]; [|gl H].
      match type of H with (let '(_, _) := ?q in _) = _ => assert (K : Forall (fun e => okat (snd e)) (fst q)) end.
      { destruct (d_eof e); [constructor|]. destruct (readdir_loop _ _ _ _ _) as (l, s2) eqn:Q. eapply readdir_okat; [exact Se|exact Q|constructor]. }
      destruct (if d_eof e then _ else _) as (l, s2). cbn [fst] in K.
      destruct l as [|z l]; [destruct (mem E (s_log s2) 1); cs H|]. set (L := z :: l) in *.
      destruct (negb _); [gl H|]. destruct (w32 (13 + names_sz L) <? 13) eqn:W; [gl H|].
      destruct (put_names L _) as [b|] eqn:PN; [|gl H]. apply triple_inv in H. destruct H as (_ & <- & _). intros m Q.
      destruct (wrap_out L W ltac:(congruence) K) as (W1 & W2). rewrite W1 in *.
      right. right. right. left. split; [subst ty; cbn; tauto|]. exists L. assert (m = SetHeader id FTP_NAME (13 + names_sz L - 9) ++ c32toa (lenN L) ++ b) as -> by congruence.
      apply name_good; try assumption. reflexivity. }
    destruct (_ || _); cs D.
  Qed.
End good.
