(* SshdLoginProofs.v - who may log in. *)
From Coq Require Import List NArith ZArith Lia Bool String.
From Verif Require Import Base WireSpec WireProofs KexSpec NegoSpec SshdConfModel SshdConfSpec SshdConfProofs SshdKeysModel SshdKeysSpec
  SshdKeysProofs SshdKeysProofs2 SshdKeysProofs3 SshdLoginModel SshdLoginSpec.
Import ListNotations.
Open Scope N_scope.

Lemma bytes_eqb_refl' : forall s, bytes_eqb s s = true.
Proof. intros s. apply bytes_eqb_eq. reflexivity. Qed.
Lemma starts_iff : forall c s, starts c s = true <-> exists r, s = c :: r.
Proof.
  intros c [|x s]; cbn [starts]; [split; [discriminate|intros (r & H); discriminate H]|]. rewrite N.eqb_eq. split; [intros ->; exists s; reflexivity|].
  intros (r & H). inversion H. reflexivity.
Qed.

Section Login.
Variable B : build.
Variable W : world.

Lemma is_root_iff : forall u, is_root W u = true <-> rootlike W u.
Proof.
  intros u. unfold is_root, rootlike. rewrite orb_true_iff, bytes_eqb_eq. destruct (w_pw W u) as [p|].
  - rewrite N.eqb_eq. split; (intros [H|H]; [right|left]); try exact H.
    + exists p. split; [reflexivity|exact H].
    + destruct H as (p' & E & H). inversion E; subst. exact H.
  - split; [intros [H|H]; [discriminate|left; exact H]|]. intros [H|(p & E & _)]; [right; exact H|discriminate E].
Qed.
Lemma governs_iff : forall a u c, auth_user_conf W a u = Some c <-> governs W a u c.
Proof.
  intros a u c. unfold auth_user_conf, governs. destruct (w_pw W u) as [p|].
  - destruct (w_groups W u (pw_gid p)) as [gs|] eqn:G.
    + split; [intros H; inversion H; exists p, gs; auto|]. intros (p' & gs' & E1 & E2 & ->). inversion E1; subst p'. rewrite G in E2. inversion E2. reflexivity.
    + split; [discriminate|]. intros (p' & gs' & E1 & E2 & _). inversion E1; subst p'. congruence.
  - split; [discriminate|]. intros (p' & gs' & E1 & _). discriminate E1.
Qed.
Lemma check_user_ok : forall a u c, auth_user_conf W a u = Some c ->
  (check_user W a u (is_root W u) = UOk <-> (rootlike W u -> cf_root c <> ROOT_NO)).
Proof.
  intros a u c G. assert (A : exists p, w_pw W u = Some p) by (apply governs_iff in G; destruct G as (p & gs & E & _); exists p; exact E). destruct A as (p & A).
  unfold check_user. rewrite G, A. pose proof (is_root_iff u) as R. destruct (is_root W u); cbn [andb].
  - destruct (N.eqb_spec (cf_root c) ROOT_NO) as [E|E].
    + split; [discriminate|]. intros H. exfalso. apply (H (proj1 R eq_refl)). exact E.
    + split; [intros _ _; exact E|reflexivity].
  - split; [|reflexivity]. intros _ Q. apply R in Q. discriminate Q.
Qed.

(* ---- passwords ----------------------------------------------------------- *)
Lemma hash_iff : forall u p h, w_pw W u = Some p -> (stored_hash B W u = Some h <-> hash_of B W u h).
Proof.
  intros u p h A. unfold stored_hash, hash_of. rewrite A. pose proof (starts_iff 120 (pw_hash p)) as X.
  change (ascii "x") with [120] in *. cbn [app]. destruct (b_shadow B) eqn:SB; cbn [andb].
  - destruct (starts 120 (pw_hash p)).
    + assert (XX : exists r, pw_hash p = 120 :: r) by (apply X; reflexivity).
      destruct (w_shadow W u) as [[h'|]|].
      * unfold FAKE_HASH_SZ. destruct (N.leb_spec 256 (lenN h')) as [L|L].
        -- split; [discriminate|]. intros (p' & E & [(_ & _ & Q & Q2)|(Q & _)]); inversion E; subst; [inversion Q; subst; lia|]. exfalso. apply Q. split; [reflexivity|exact XX].
        -- split.
           ++ intros H. inversion H; subst. exists p. split; [reflexivity|]. left. split; [reflexivity|]. split; [exact XX|]. split; [reflexivity|exact L].
           ++ intros (p' & E & [(_ & _ & Q & Q2)|(Q & _)]); inversion E; subst; [inversion Q; reflexivity|]. exfalso. apply Q. split; [reflexivity|exact XX].
      * split; [discriminate|]. intros (p' & E & [(_ & _ & Q & Q2)|(Q & _)]); inversion E; subst; [discriminate Q|]. exfalso. apply Q. split; [reflexivity|exact XX].
      * split; [discriminate|]. intros (p' & E & [(_ & _ & Q & Q2)|(Q & _)]); inversion E; subst; [discriminate Q|]. exfalso. apply Q. split; [reflexivity|exact XX].
    + split.
      * intros H. inversion H; subst. exists p. split; [reflexivity|]. right. split; [|reflexivity]. intros [_ Q]. apply X in Q. discriminate Q.
      * intros (p' & E & [(_ & Q & _)|(_ & Q)]); inversion E; subst; [apply X in Q; discriminate Q|reflexivity].
  - split.
    + intros H. inversion H; subst. exists p. split; [reflexivity|]. right. split; [|reflexivity]. intros [Q _]. discriminate Q.
    + intros (p' & E & [(Q & _)|(_ & Q)]); inversion E; subst; [discriminate Q|reflexivity].
Qed.
Lemma check_hash_yes : forall fakes pw h, fst (check_hash B W fakes pw h) = AYes <-> unlocks W pw h.
Proof.
  intros fakes pw h. unfold unlocks. destruct h as [|c t].
  - destruct pw as [|x y]; cbn [check_hash fst].
    + split; [intros _; left; split; reflexivity|reflexivity].
    + cbv zeta. split; [|intros [[_ Q]|[Q _]]; [discriminate Q|congruence]].
      destruct (no_hash (w_crypt W (x :: y) (locked_salt B fakes []))).
      * destruct (no_hash (w_crypt W (x :: y) fake_md5)); cbn [fst]; [destruct (w_crypt W (x :: y) fake_des)|destruct (w_crypt W (x :: y) fake_md5)]; discriminate.
      * destruct (no_hash (w_crypt W (x :: y) (locked_salt B fakes []))); cbn [fst]; [destruct (w_crypt W (x :: y) fake_des)|destruct (w_crypt W (x :: y) (locked_salt B fakes []))]; discriminate.
  - set (h := c :: t). assert (E : check_hash B W fakes pw h =
      (let locked := (c =? 42) || (c =? 33) in
       let s0 := if locked then locked_salt B fakes h else h in
       let h0 := w_crypt W pw s0 in
       if locked then
         let '(h1, t1) := if no_hash h0 then (w_crypt W pw fake_md5, [fake_md5]) else (h0, []) in
         let '(h2, t2) := if no_hash h1 then (w_crypt W pw fake_des, [fake_des]) else (h1, []) in
         (match h2 with None => AErr | Some _ => ANo end, s0 :: t1 ++ t2)
       else (match h0 with None => AErr | Some x => if (match x with [] => true | _ => false end) || starts 42 x || negb (bytes_eqb x h) then ANo else AYes end, [s0]))).
    { unfold h. destruct pw; reflexivity. }
    rewrite E. cbv zeta. clear E. change (hd 0 h) with c. destruct (N.eqb_spec c 42) as [E42|N42]; [|destruct (N.eqb_spec c 33) as [E33|N33]]; cbn [orb].
    + split; [|intros [[Q _]|(_ & Q & _)]; [discriminate Q|congruence]].
      destruct (no_hash (w_crypt W pw (locked_salt B fakes h))); cbv iota beta.
      * destruct (no_hash (w_crypt W pw fake_md5)); cbn [fst]; [destruct (w_crypt W pw fake_des)|destruct (w_crypt W pw fake_md5)]; discriminate.
      * destruct (no_hash (w_crypt W pw (locked_salt B fakes h))); cbn [fst]; [destruct (w_crypt W pw fake_des)|destruct (w_crypt W pw (locked_salt B fakes h))]; discriminate.
    + split; [|intros [[Q _]|(_ & _ & Q & _)]; [discriminate Q|congruence]].
      destruct (no_hash (w_crypt W pw (locked_salt B fakes h))); cbv iota beta.
      * destruct (no_hash (w_crypt W pw fake_md5)); cbn [fst]; [destruct (w_crypt W pw fake_des)|destruct (w_crypt W pw fake_md5)]; discriminate.
      * destruct (no_hash (w_crypt W pw (locked_salt B fakes h))); cbn [fst]; [destruct (w_crypt W pw fake_des)|destruct (w_crypt W pw (locked_salt B fakes h))]; discriminate.
    + cbn [fst]. destruct (w_crypt W pw h) as [x|] eqn:C.
      * destruct (bytes_eqb x h) eqn:EQ.
        -- apply bytes_eqb_eq in EQ. subst x. assert (S : starts 42 h = false) by (unfold h; cbn [starts]; apply N.eqb_neq; exact N42). rewrite S. unfold h at 1. cbn [orb negb].
           split; [intros _|reflexivity]. right. split; [discriminate|]. split; [exact N42|]. split; [exact N33|reflexivity].
        -- cbn [negb]. rewrite orb_true_r. split; [discriminate|]. intros [[Q _]|(_ & _ & _ & Q)]; [discriminate Q|]. inversion Q; subst. rewrite bytes_eqb_refl' in EQ. discriminate EQ.
      * split; [discriminate|]. intros [[Q _]|(_ & _ & _ & Q)]; discriminate Q.
Qed.
Lemma check_password_yes : forall fakes u p pw, w_pw W u = Some p ->
  (fst (check_password B W fakes u pw) = AYes <-> exists h, hash_of B W u h /\ unlocks W (cstr pw) h).
Proof.
  intros fakes u p pw A. unfold check_password. destruct (stored_hash B W u) as [h|] eqn:S.
  - apply (hash_iff u p h A) in S. split.
    + intros H. apply check_hash_yes in H. exists h. split; assumption.
    + intros (h' & H' & U). apply (hash_iff u p _ A) in S, H'. rewrite S in H'. inversion H'; subst h'. apply check_hash_yes. exact U.
  - split; [discriminate|]. intros (h & H & _). apply (hash_iff u p h A) in H. congruence.
Qed.
Lemma root_blocked : forall u c, (rootlike W u -> cf_root c <> ROOT_NO) ->
  (root_pw_blocked (is_root W u) c = false <-> (rootlike W u -> cf_root c <> ROOT_NO /\ cf_root c <> ROOT_PROHIBIT_PW /\ cf_root c <> ROOT_FORCED_CMD)).
Proof.
  intros u c NO. unfold root_pw_blocked. pose proof (is_root_iff u) as R. destruct (is_root W u); cbn [andb].
  - rewrite orb_false_iff, !N.eqb_neq. assert (RR : rootlike W u) by (apply R; reflexivity). split; [intros [A1 A2] _; split; [apply NO; exact RR|split; assumption]|].
    intros H. destruct (H RR) as (_ & A1 & A2). split; assumption.
  - split; [|reflexivity]. intros _ Q. apply R in Q. discriminate Q.
Qed.
Lemma request_pw_ok : forall a u c pw, auth_user_conf W a u = Some c -> (rootlike W u -> cf_root c <> ROOT_NO) ->
  (fst (fst (fst (request_password B W a u (is_root W u) c pw))) = UOk <->
   cf_pw c = true /\ (rootlike W u -> cf_root c <> ROOT_NO /\ cf_root c <> ROOT_PROHIBIT_PW /\ cf_root c <> ROOT_FORCED_CMD) /\
   (pw = [] -> cf_empty c = true) /\ exists h, hash_of B W u h /\ unlocks W (cstr pw) h).
Proof.
  intros a u c pw G NO. assert (A : exists p, w_pw W u = Some p) by (apply governs_iff in G; destruct G as (p & gs & E & _); exists p; exact E). destruct A as (p & A).
  unfold request_password. destruct (cf_pw c); cbn [negb]; [|split; [discriminate|intros (Q & _); discriminate Q]].
  pose proof (root_blocked u c NO) as RB. destruct (root_pw_blocked (is_root W u) c).
  { split; [discriminate|]. intros (_ & Q & _). apply RB in Q. discriminate Q. }
  assert (RB1 := proj1 RB eq_refl). clear RB.
  destruct (match pw with [] => true | _ => false end && negb (cf_empty c)) eqn:EM.
  { split; [discriminate|]. intros (_ & _ & Q & _). destruct pw; [|discriminate EM]. rewrite (Q eq_refl) in EM. discriminate EM. }
  pose proof (check_password_yes (a_fakes a) u p pw A) as CP. destruct (check_password B W (a_fakes a) u pw) as [r t]. cbn [fst] in CP.
  assert (EM2 : pw = [] -> cf_empty c = true) by (intros ->; destruct (cf_empty c); [reflexivity|discriminate EM]).
  destruct r.
  - split; [intros _|reflexivity]. split; [reflexivity|]. split; [exact RB1|]. split; [exact EM2|]. apply CP. reflexivity.
  - split; [cbv zeta; destruct (Z.eqb (a_left a - 1) 0); discriminate|]. intros (_ & _ & _ & Q). apply CP in Q. discriminate Q.
  - split; [discriminate|]. intros (_ & _ & _ & Q). apply CP in Q. discriminate Q.
Qed.
Lemma request_ok : forall a name l raised reduced,
  fst (fst (request B W a name l raised reduced)) = UOk <->
  raised = true /\ reduced = true /\ exists c, auth_user_conf W a (cstr name) = Some c /\
    (rootlike W (cstr name) -> cf_root c <> ROOT_NO) /\
    match l with
    | LPassword pw => fst (fst (fst (request_password B W a (cstr name) (is_root W (cstr name)) c pw))) = UOk
    | LKey k => request_key B W a (cstr name) (is_root W (cstr name)) c k = UOk
    end.
Proof.
  intros a name l raised reduced. unfold request. set (u := cstr name).
  destruct reduced.
  2:{ split; [|intros (_ & Q & _); discriminate Q].
      match goal with |- fst (fst (let '(_, _) := ?x in _)) = _ -> _ => destruct x as [[r n] t] end. discriminate. }
  assert (FST : forall x : uares * Z * list bytes, fst (fst (let '(r, n, t) := x in (r, n, t))) = fst (fst x)) by (intros [[r n] t]; reflexivity).
  cbv zeta. rewrite FST.
  assert (NC : forall c, check_user W a u (is_root W u) <> UOk -> auth_user_conf W a u = Some c -> ~ (rootlike W u -> cf_root c <> ROOT_NO)).
  { intros c N1 G Q. apply N1. apply (check_user_ok a u c G). exact Q. }
  destruct (check_user W a u (is_root W u)) eqn:CU.
  2-7: (split; [destruct l; discriminate|intros (_ & _ & c & G & NO & _); exfalso; apply (NC c ltac:(discriminate) G); exact NO]).
  destruct raised; cbn [negb].
  2:{ split; [destruct l; discriminate|]. intros (Q & _). discriminate Q. }
  destruct (auth_user_conf W a u) as [c|] eqn:G.
  2:{ split; [destruct l; discriminate|]. intros (_ & _ & c & Q & _). discriminate Q. }
  assert (NO : rootlike W u -> cf_root c <> ROOT_NO) by (apply (check_user_ok a u c G); exact CU).
  destruct l as [pw|k].
  - destruct (request_password B W a u (is_root W u) c pw) as [[[r n] t] f] eqn:RP. cbn [fst]. split.
    + intros ->. split; [reflexivity|]. split; [reflexivity|]. exists c. split; [reflexivity|]. split; [exact NO|]. rewrite RP. reflexivity.
    + intros (_ & _ & c' & E & _ & H). inversion E; subst c'. rewrite RP in H. exact H.
  - cbn [fst]. split.
    + intros H. split; [reflexivity|]. split; [reflexivity|]. exists c. split; [reflexivity|]. split; [exact NO|exact H].
    + intros (_ & _ & c' & E & _ & H). inversion E; subst c'. exact H.
Qed.
Lemma password_ok : forall a name pw raised reduced, ~ In 0 pw ->
  (fst (fst (request B W a name (LPassword pw) raised reduced)) = UOk <->
   raised = true /\ reduced = true /\ password_login B W a (cstr name) pw).
Proof.
  intros a name pw raised reduced Z. rewrite request_ok. unfold password_login. split.
  - intros (R1 & R2 & c & G & NO & H). split; [exact R1|]. split; [exact R2|]. apply (request_pw_ok a _ c pw G NO) in H. rewrite (cstr_id pw Z) in H. exists c. split; [apply governs_iff; exact G|exact H].
  - intros (R1 & R2 & c & G & H). split; [exact R1|]. split; [exact R2|]. exists c. apply governs_iff in G. split; [exact G|].
    assert (NO : rootlike W (cstr name) -> cf_root c <> ROOT_NO) by (intros Q; destruct H as (_ & H & _); destruct (H Q) as (H1 & _); exact H1).
    split; [exact NO|]. apply (request_pw_ok a _ c pw G NO). rewrite (cstr_id pw Z). exact H.
Qed.

(* ---- keys ------------------------------------------------------------------ *)
Lemma trusted_iff : forall owner o, (forall p, o_real o = Some p -> canonical p) -> (open_secure owner false o = true <-> trusted owner o).
Proof.
  intros owner o C. rewrite (open_iff owner false o C). unfold trusted. split.
  - intros (lst & p & st & A1 & A2 & A3 & A4 & A5 & A6 & A7 & A8 & _ & A9 & A10 & A11 & A12). exists lst, p, st. repeat (split; [assumption|]). assumption.
  - intros (lst & p & st & A1 & A2 & A3 & A4 & A5 & A6 & A7 & A8 & A9 & A10 & A11 & A12). exists lst, p, st. repeat (split; [assumption|]). split; [intros Q; discriminate Q|]. repeat (split; [assumption|]). assumption.
Qed.
Hypothesis SANE : sane W.
Lemma search_iff : forall key owner strict path, search_file W key owner strict path = AYes <-> listed W key owner strict path.
Proof.
  intros key owner strict path. unfold search_file, get_file, listed, search_keys_file. destruct SANE as [SB SL SR SF _].
  destruct key as [|x y] eqn:K; [split; [discriminate|intros (Q & _); congruence]|]. rewrite <- K. assert (KN : key <> []) by (rewrite K; discriminate). clear K x y.
  assert (RD : forall s, w_read W path = Some s -> (scan_lines (w_b64 W) key (fgets_all (w_line W) s) = AYes <->
      exists s' pre l post, Some s = Some s' /\ lines s' = pre ++ l :: post /\ Forall (readable (w_b64 W)) pre /\ lists (w_b64 W) l key)).
  { intros s E. pose proof (SF path s E) as SH.
    rewrite (scan_held (w_b64 W) key KN SB (fgets_all (w_line W) s) (lines s)).
    - split; [intros (pre & l & post & H); exists s, pre, l, post; split; [reflexivity|exact H]|]. intros (s' & pre & l & post & Q & H). inversion Q; subst s'. exists pre, l, post. exact H.
    - apply fgets_held; [exact SL|]. eapply Forall_impl; [|exact SH]. intros l [_ Q]. exact Q.
    - eapply Forall_impl; [|exact SH]. intros l [Q _]. exact Q. }
  destruct strict.
  - pose proof (trusted_iff owner (w_open W path) (SR path)) as T. destruct (open_secure owner false (w_open W path)).
    + destruct (w_read W path) as [s|] eqn:E.
      * rewrite (RD s eq_refl). split; [intros H; split; [exact KN|split; [intros _; apply T; reflexivity|exact H]]|]. intros (_ & _ & H). exact H.
      * split; [discriminate|]. intros (_ & _ & s & pre & l & post & Q & _). discriminate Q.
    + split; [discriminate|]. intros (_ & Q & _). apply T in Q; [discriminate Q|reflexivity].
  - destruct (w_read W path) as [s|] eqn:E.
    + rewrite (RD s eq_refl). split; [intros H; split; [exact KN|split; [intros Q; discriminate Q|exact H]]|]. intros (_ & _ & H). exact H.
    + split; [discriminate|]. intros (_ & _ & s & pre & l & post & Q & _). discriminate Q.
Qed.
Lemma pattern_app : forall a b, pattern_of (a ++ b) = pattern_of a ++ pattern_of b.
Proof. intros. unfold pattern_of. rewrite map_app, concat_app. reflexivity. Qed.
Lemma value_app : forall h u a b, value_of h u (a ++ b) = value_of h u a ++ value_of h u b.
Proof. intros. unfold value_of. rewrite map_app, concat_app. reflexivity. Qed.
Lemma expand_lone : forall home user ps out, lenN out < 80 ->
  expand_tokens home user out (pattern_of ps ++ [37]) = expand_tokens home user out (pattern_of (ps ++ [PChar 37])).
Proof.
  intros home user ps. induction ps as [|p ps IH]; intros out L.
  - reflexivity.
  - unfold pattern_of in *. cbn [map List.concat app]. rewrite <- !app_assoc.
    assert (STEP : forall ins, (if MAX_PATH_SZ <=? lenN out + lenN ins then None else expand_tokens home user (out ++ ins) (List.concat (map written ps) ++ [37])) =
       (if MAX_PATH_SZ <=? lenN out + lenN ins then None else expand_tokens home user (out ++ ins) (List.concat (map written (ps ++ [PChar 37]))))).
    { intros ins. destruct (N.leb_spec MAX_PATH_SZ (lenN out + lenN ins)) as [Q|Q]; [reflexivity|]. apply IH. rewrite lenN_app. unfold MAX_PATH_SZ in Q. exact Q. }
    destruct p as [c| |]; cbn [written].
    + destruct (N.eqb_spec c 37) as [->|C].
      * change (ascii "%%" ++ List.concat (map written ps) ++ [37]) with (37 :: 37 :: (List.concat (map written ps) ++ [37])).
        change (ascii "%%" ++ List.concat (map written (ps ++ [PChar 37]))) with (37 :: 37 :: List.concat (map written (ps ++ [PChar 37]))). cbn [expand_tokens N.eqb Pos.eqb]. exact (STEP [37]).
      * apply N.eqb_neq in C. cbn [app expand_tokens]. rewrite C. exact (STEP [c]).
    + change (ascii "%h" ++ List.concat (map written ps) ++ [37]) with (37 :: 104 :: (List.concat (map written ps) ++ [37])).
      change (ascii "%h" ++ List.concat (map written (ps ++ [PChar 37]))) with (37 :: 104 :: List.concat (map written (ps ++ [PChar 37]))). cbn [expand_tokens N.eqb Pos.eqb]. exact (STEP home).
    + change (ascii "%u" ++ List.concat (map written ps) ++ [37]) with (37 :: 117 :: (List.concat (map written ps) ++ [37])).
      change (ascii "%u" ++ List.concat (map written (ps ++ [PChar 37]))) with (37 :: 117 :: List.concat (map written (ps ++ [PChar 37]))). cbn [expand_tokens N.eqb Pos.eqb]. exact (STEP user).
Qed.
Lemma resolve_lone : forall home user ps, resolve_path home user (Some (pattern_of ps ++ [37])) = resolve_path home user (Some (pattern_of (ps ++ [PChar 37]))).
Proof.
  intros home user ps. unfold resolve_path.
  destruct (pattern_of ps ++ [37]) as [|x y] eqn:E1; [destruct (pattern_of ps); discriminate E1|]. rewrite <- E1.
  destruct (pattern_of (ps ++ [PChar 37])) as [|x' y'] eqn:E2; [apply pattern_nil in E2; destruct ps; discriminate E2|]. rewrite <- E2.
  rewrite expand_lone by (cbn; lia). reflexivity.
Qed.
Lemma key_file_iff : forall home user pat f, resolve_path home user pat = Some f <-> key_file home user pat f.
Proof.
  intros home user pat f. unfold key_file. split.
  - intros H. destruct pat as [[|c t]|].
    + left. split; [right; reflexivity|]. rewrite <- (resolve_default home user). exact H.
    + right. destruct (resolve_refused _ _ _ _ H) as (ps & [E|E]).
      * assert (NE : ps <> []) by (intros ->; discriminate E). rewrite E in *. exists ps. split; [exact NE|]. split; [left; reflexivity|]. rewrite <- resolve_pattern by exact NE. exact H.
      * rewrite E in *. exists (ps ++ [PChar 37]). split; [destruct ps; discriminate|]. split; [right; exists ps; split; reflexivity|].
        rewrite resolve_lone, resolve_pattern in H by (destruct ps; discriminate). exact H.
    + left. split; [left; reflexivity|]. rewrite <- (resolve_default home user). exact H.
  - intros [[[->| ->] H]|(ps & NE & [->|(ps' & -> & ->)] & H)].
    + rewrite resolve_default. exact H.
    + change (resolve_path home user (Some [])) with (resolve_path home user None). rewrite resolve_default. exact H.
    + rewrite resolve_pattern by exact NE. exact H.
    + change (ascii "%") with [37]. rewrite resolve_lone, resolve_pattern by exact NE. exact H.
Qed.
Lemma answer_yes : forall b, answer b = AYes <-> b = true.
Proof. intros []; split; intros H; try reflexivity; discriminate H. Qed.
Lemma and_then_yes : forall r k, and_then r k = AYes <-> r = AYes /\ k = AYes.
Proof. intros [] k; cbn [and_then]; split; intros H; try (destruct H; discriminate); try discriminate; try (split; [reflexivity|exact H]). destruct H as [_ H]. exact H. Qed.
Lemma check_key_yes : forall a u k ca pat p, w_pw W u = Some p -> sane_key k ->
  (check_key W a u k ca pat = AYes <->
   if k_ossh k then cert_login W a u k ca else plain_login W u k pat (cf_strict (global_conf a))).
Proof.
  intros a u k ca pat p A [KO KL [KZ KC]]. unfold check_key. rewrite A. destruct (k_ossh k).
  - unfold cert_login. destruct (k_ca k) as [|x y] eqn:E.
    { split; [discriminate|]. intros (f & _ & (Q & _) & _). congruence. }
    rewrite <- E. destruct ca as [f|].
    2:{ split; [discriminate|]. intros (f & Q & _). discriminate Q. }
    rewrite !and_then_yes, search_iff, !answer_yes, (principal_iff _ u KO KL).
    assert (V : check_validity (w_now W) (k_after k) (k_before k) = true <-> k_after k <= w_now W /\ w_now W < k_before k).
    { unfold check_validity. rewrite negb_true_iff, orb_false_iff, N.ltb_ge, N.leb_gt. tauto. }
    rewrite V.
    assert (S : check_source (w_pton4 W) (w_pton6 W) (k_source k) (a_peer a) = true <-> (k_source k <> [] -> permitted (w_pton4 W) (w_pton6 W) (splits (N.eqb 44) (k_source k)) (a_peer a))).
    { destruct (k_source k) as [|c t] eqn:ES; [split; [intros _ Q; congruence|reflexivity]|]. rewrite <- ES in *. assert (NE : k_source k <> []) by (rewrite ES; discriminate).
      rewrite (source_iff _ _ (sn_res W SANE) _ (a_peer a) NE KZ KC). split; [intros H _; exact H|intros H; exact (H NE)]. }
    rewrite S. split.
    + intros (H1 & H2 & [H3 H4] & H5). exists f. split; [reflexivity|]. repeat (split; [assumption|]). assumption.
    + intros (f' & Q & H1 & H2 & H3 & H4 & H5). inversion Q; subst f'. split; [exact H1|]. split; [exact H2|]. split; [split; assumption|exact H5].
  - unfold plain_login, search_for_key. fold (global_conf a). destruct (resolve_path (pw_dir p) u pat) as [f|] eqn:R.
    + rewrite search_iff. split.
      * intros H. exists p, f. split; [exact A|]. split; [apply key_file_iff; exact R|exact H].
      * intros (p' & f' & Q & KF & H). rewrite A in Q. inversion Q; subst p'. apply key_file_iff in KF. rewrite R in KF. inversion KF; subst f'. exact H.
    + split; [discriminate|]. intros (p' & f' & Q & KF & _). rewrite A in Q. inversion Q; subst p'. apply key_file_iff in KF. congruence.
Qed.
Lemma upn_ok_iff : forall u k c, upn_ok B W u k c = true <-> (b_fpki B = true -> k_x509 k = true -> names_user W u k c).
Proof.
  intros u k c. unfold upn_ok, names_user. destruct (b_fpki B); cbn [andb]; [|split; [intros _ Q; discriminate Q|reflexivity]].
  destruct (k_x509 k); [|split; [intros _ _ Q; discriminate Q|reflexivity]].
  destruct (w_upns W (k_blob k)) as [ns|].
  2:{ split; [discriminate|]. intros H. destruct (H eq_refl eq_refl) as (ns & n & d & Q & _). discriminate Q. }
  rewrite existsb_exists. split.
  - intros (n & I1 & M) _ _. apply upn_iff in M. destruct M as (d & U & L). exists ns, n, d. split; [reflexivity|]. split; [exact I1|]. split; assumption.
  - intros H. destruct (H eq_refl eq_refl) as (ns' & n & d & Q & I1 & U & L). inversion Q; subst ns'. exists n. split; [exact I1|]. apply upn_iff. exists d. split; assumption.
Qed.
Lemma ca_same : forall a b, ca_differs a b = false <-> b = a.
Proof.
  intros [x|] [y|]; cbn [ca_differs]; try (split; intros H; discriminate H); [|split; reflexivity].
  rewrite negb_false_iff, bytes_eqb_eq. split; [intros ->; reflexivity|]. intros H. inversion H. reflexivity.
Qed.
Lemma cmd_missing : forall u c, root_cmd_missing (is_root W u) c = false <-> (rootlike W u -> cf_root c = ROOT_FORCED_CMD -> cf_cmd c <> None).
Proof.
  intros u c. unfold root_cmd_missing. pose proof (is_root_iff u) as R. destruct (is_root W u); cbn [andb].
  - assert (RR : rootlike W u) by (apply R; reflexivity). destruct (N.eqb_spec (cf_root c) ROOT_FORCED_CMD) as [E|E]; cbn [andb].
    + destruct (cf_cmd c) as [x|].
      * split; [intros _ _ _; discriminate|reflexivity].
      * split; [discriminate|]. intros H. exfalso. apply (H RR E). reflexivity.
    + split; [intros _ _ Q; contradiction|reflexivity].
  - split; [|reflexivity]. intros _ Q. apply R in Q. discriminate Q.
Qed.
Lemma request_key_ok : forall a u k c p, w_pw W u = Some p -> sane_key k ->
  (request_key B W a u (is_root W u) c k = UOk <->
   cf_pk c = true /\ (rootlike W u -> cf_root c = ROOT_FORCED_CMD -> cf_cmd c <> None) /\ (b_fpki B = true -> k_x509 k = true -> names_user W u k c) /\
   if k_x509 k && negb (cf_keys_set c) then b_fpki B = true /\ cf_ca c = cf_ca (global_conf a)
   else if k_ossh k then cert_login W a u k (cf_ca c) else plain_login W u k (cf_keys c) (cf_strict (global_conf a))).
Proof.
  intros a u k c p A SK. unfold request_key. destruct (cf_pk c); cbn [negb]; [|split; [discriminate|intros (Q & _); discriminate Q]].
  pose proof (cmd_missing u c) as CM. destruct (root_cmd_missing (is_root W u) c).
  { split; [discriminate|]. intros (_ & Q & _). apply CM in Q. discriminate Q. }
  assert (CM1 := proj1 CM eq_refl). clear CM. pose proof (upn_ok_iff u k c) as UP. destruct (upn_ok B W u k c); cbn [negb].
  2:{ split; [discriminate|]. intros (_ & _ & Q & _). apply UP in Q. discriminate Q. }
  assert (UP1 := proj1 UP eq_refl). clear UP. destruct (k_x509 k && negb (cf_keys_set c)).
  - fold (global_conf a). pose proof (ca_same (cf_ca (global_conf a)) (cf_ca c)) as CS. destruct (ca_differs (cf_ca (global_conf a)) (cf_ca c)).
    + split; [discriminate|]. intros (_ & _ & _ & _ & Q). apply CS in Q. discriminate Q.
    + destruct (b_fpki B).
      * split; [intros _|reflexivity]. split; [reflexivity|]. split; [exact CM1|]. split; [exact UP1|]. split; [reflexivity|apply CS; reflexivity].
      * split; [discriminate|]. intros (_ & _ & _ & Q & _). discriminate Q.
  - pose proof (check_key_yes a u k (cf_ca c) (cf_keys c) p A SK) as CK. destruct (check_key W a u k (cf_ca c) (cf_keys c)).
    + split; [intros _|reflexivity]. split; [reflexivity|]. split; [exact CM1|]. split; [exact UP1|]. apply CK. reflexivity.
    + split; [discriminate|]. intros (_ & _ & _ & Q). apply CK in Q. discriminate Q.
    + split; [discriminate|]. intros (_ & _ & _ & Q). apply CK in Q. discriminate Q.
Qed.
Lemma key_ok : forall a name k raised reduced, sane_key k ->
  (fst (fst (request B W a name (LKey k) raised reduced)) = UOk <->
   raised = true /\ reduced = true /\ key_login B W a (cstr name) k (fun _ => cf_strict (global_conf a))).
Proof.
  intros a name k raised reduced SK. rewrite request_ok. unfold key_login. split.
  - intros (R1 & R2 & c & G & NO & H). split; [exact R1|]. split; [exact R2|]. apply governs_iff in G. exists c. split; [exact G|]. destruct G as (p & gs & A & _).
    apply (request_key_ok a _ k c p A SK) in H. destruct H as (H1 & H2 & H3 & H4). split; [exact H1|]. split; [|split; assumption]. intros Q. split; [apply NO; exact Q|apply H2; exact Q].
  - intros (R1 & R2 & c & G & H1 & H2 & H3 & H4). split; [exact R1|]. split; [exact R2|]. exists c. split; [apply governs_iff; exact G|].
    split; [intros Q; apply (H2 Q)|]. destruct G as (p & gs & A & _). apply (request_key_ok a _ k c p A SK). split; [exact H1|]. split; [intros Q; apply (H2 Q)|]. split; assumption.
Qed.
End Login.
