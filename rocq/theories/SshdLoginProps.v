(* SshdLoginProps.v - C73 to C75: logging in with a password, logging in with
   a key, and what a refused password costs. *)
From Coq Require Import List NArith ZArith Lia Bool String.
From Verif Require Import Base WireSpec KexSpec NegoSpec SshdConfModel SshdConfSpec SshdConfProofs SshdKeysModel SshdKeysSpec
  SshdKeysProofs SshdKeysProofs2 SshdKeysProofs3 SshdKeysProps SshdLoginModel SshdLoginSpec SshdLoginProofs SshdLoginProofs2.
Import ListNotations.
Open Scope N_scope.

(* A system with three accounts: bob, carol who has no password, and root
   whose password is locked. *)
Definition bob_hash : bytes := ascii "$6$salt$digest".
Definition sample_world (strict_open : opening) : world :=
  World (fun u => if bytes_eqb u (ascii "bob") then Some (Passwd 1000 100 (ascii "/home/bob") (ascii "x"))
                  else if bytes_eqb u (ascii "carol") then Some (Passwd 1001 100 (ascii "/home/carol") (ascii "x"))
                  else if bytes_eqb u (ascii "root") then Some (Passwd 0 0 (ascii "/root") (ascii "x")) else None)
    (fun _ => false)
    (fun u => if bytes_eqb u (ascii "bob") then Some (Some bob_hash)
              else if bytes_eqb u (ascii "carol") then Some (Some []) else Some (Some (ascii "*")))
    (fun _ _ => Some [ascii "users"])
    (fun pw salt => if bytes_eqb pw (ascii "secret") && bytes_eqb salt bob_hash then Some bob_hash else Some (ascii "$6$salt$other"))
    sample_b64 200
    (fun p => if bytes_eqb p (ascii "/home/bob/.ssh/authorized_keys") then Some sample_keys else None)
    (fun _ => strict_open) 0 1000 table4 table6 (fun _ => None).
Definition plain_conf : conf := conf_new.
Definition ctx0 : actx := ACtx [plain_conf] (ascii "10.0.0.1") 3 (auth_init [ascii "bob:$6$salt$digest:1:0:"; ascii "root:*:1:0:"] None).
Definition shadowed : build := Build false true.

(* ----- C73: who logs in with a password, and how often one may try ----- *)

(* Full statement. *)
Definition C73_full : Prop := forall B W a name pw raised reduced,
  fst (fst (request B W a name (LPassword pw) raised reduced)) = UOk <->
  raised = true /\ reduced = true /\ password_login B W a (cstr name) pw.

(* A password of one NUL opens an account without a password although empty
   passwords are not permitted. *)
Theorem C73_empty_refuted : exists B W a name pw c,
  governs W a (cstr name) c /\ cf_empty c = false /\ hash_of B W (cstr name) [] /\ pw <> [] /\
  fst (fst (request B W a name (LPassword pw) true true)) = UOk.
Proof.
  exists shadowed, (sample_world (sample_open 493)), ctx0, (ascii "carol"), [0], conf_new.
  split; [exists (Passwd 1001 100 (ascii "/home/carol") (ascii "x")), [ascii "users"]; vm_compute; auto|]. split; [reflexivity|].
  split; [|split; [discriminate|vm_compute; reflexivity]].
  exists (Passwd 1001 100 (ascii "/home/carol") (ascii "x")). split; [reflexivity|]. left. split; [reflexivity|]. split; [exists []; reflexivity|]. split; reflexivity.
Qed.
Theorem C73_refuted : ~ C73_full.
Proof.
  intros F. pose proof (F shadowed (sample_world (sample_open 493)) ctx0 (ascii "bob") (ascii "secret" ++ [0] ++ ascii "junk") true true) as [H _].
  destruct H as (_ & _ & c & _ & _ & _ & _ & h & (p & E & HH) & U); [vm_compute; reflexivity|].
  destruct U as [[_ Q]|(_ & _ & _ & Q)]; [discriminate Q|]. vm_compute in Q. inversion Q as [QH]. destruct HH as [(_ & _ & HH & _)|(HH & _)].
  - vm_compute in HH. rewrite <- QH in HH. discriminate HH.
  - apply HH. split; [reflexivity|]. vm_compute in E. inversion E; subst p. exists []. reflexivity.
Qed.
(* What holds: passwords without a NUL. *)
Theorem C73_password_login_partial : forall B W a name pw raised reduced, ~ In 0 pw ->
  (fst (fst (request B W a name (LPassword pw) raised reduced)) = UOk <->
   raised = true /\ reduced = true /\ password_login B W a (cstr name) pw).
Proof. exact password_ok. Qed.
(* On one connection, whoever the attempts are for and whatever else is tried:
   two answers "wrong password" at most, three wrong passwords at most, and
   the third ends the connection. *)
Theorem C73_attempts : forall B a es, a_left a = MAX_ATTEMPTS ->
  (List.length (filter bad_pw (run B a es)) <= 2)%nat.
Proof. intros B a es L. pose proof (run_bad B es a) as H. rewrite L in H. unfold MAX_ATTEMPTS in H. specialize (H ltac:(lia)). lia. Qed.
Theorem C73_third : forall B a es w, a_left a = MAX_ATTEMPTS -> (forall e, w e = true -> wrong_password B a e) ->
  let rs := run B a es in
  let tried := List.length (filter w (firstn (List.length rs) es)) in
  (tried <= 3)%nat /\ (tried = 3%nat -> last rs UOk = URejected).
Proof.
  intros B a es w L HW. pose proof (run_wrong B w es a) as H. rewrite L in H. unfold MAX_ATTEMPTS in H. specialize (H ltac:(lia) HW). cbv zeta in H. cbv zeta. destruct H as [H1 H2].
  split; [lia|]. intros Q. apply H2. lia.
Qed.
Definition try (u pw : string) : event := Event (sample_world (sample_open 493)) (ascii u) (LPassword (ascii pw)) true true.
Lemma bob_governed : governs (sample_world (sample_open 493)) ctx0 (ascii "bob") conf_new.
Proof. exists (Passwd 1000 100 (ascii "/home/bob") (ascii "x")), [ascii "users"]. vm_compute. auto. Qed.
Lemma bob_has_hash : hash_of shadowed (sample_world (sample_open 493)) (ascii "bob") bob_hash.
Proof. exists (Passwd 1000 100 (ascii "/home/bob") (ascii "x")). split; [reflexivity|]. left. split; [reflexivity|]. split; [exists []; reflexivity|]. split; reflexivity. Qed.
Lemma bob_no_root : ~ rootlike (sample_world (sample_open 493)) (ascii "bob").
Proof. intros [Q|(p & E & Q)]; [discriminate Q|]. vm_compute in E. inversion E; subst p. discriminate Q. Qed.
Example C73_met :
  a_left ctx0 = MAX_ATTEMPTS /\ password_login shadowed (sample_world (sample_open 493)) ctx0 (ascii "bob") (ascii "secret") /\
  wrong_password shadowed ctx0 (try "bob" "guess") /\
  run shadowed ctx0 [try "bob" "guess"; try "nobody" "x"; try "bob" "hello"; try "bob" "secret"] = [UBadPw; UNoUser; UBadPw; UOk] /\
  run shadowed ctx0 [try "bob" "guess"; try "root" "x"] = [UBadPw; URejected] /\
  run shadowed ctx0 [try "bob" "guess"; try "bob" "x"; try "bob" "hello"; try "bob" "secret"] = [UBadPw; UBadPw; URejected].
Proof.
  split; [reflexivity|]. split.
  { exists conf_new. split; [exact bob_governed|]. split; [reflexivity|]. split; [intros Q; destruct (bob_no_root Q)|]. split; [discriminate|].
    exists bob_hash. split; [exact bob_has_hash|]. right. split; [discriminate|]. split; [discriminate|]. split; [discriminate|reflexivity]. }
  split.
  { exists (ascii "guess"), conf_new, bob_hash. split; [reflexivity|]. split; [reflexivity|]. split; [reflexivity|]. split; [exact bob_governed|]. split; [reflexivity|].
    split; [intros Q; destruct (bob_no_root Q)|]. split; [discriminate|]. split; [exact bob_has_hash|]. split.
    - intros [[Q _]|(_ & _ & _ & Q)]; discriminate Q.
    - intros salt. cbn [w_crypt e_world try sample_world]. destruct (_ && _); discriminate. }
  vm_compute. auto.
Qed.

(* ----- C74: who logs in with a key ------------------------------------- *)

(* Full statement, with the StrictModes that govern the user. *)
Definition C74_full : Prop := forall B W a name k raised reduced, sane W -> sane_key k ->
  (fst (fst (request B W a name (LKey k) raised reduced)) = UOk <->
   raised = true /\ reduced = true /\ key_login B W a (cstr name) k cf_strict).
Definition unsafe_open : opening := Opening None None false None (fun _ => None) false.
Definition bob_key : pkey := PKey abc false false [] [] 0 0 [].
Lemma sample_sane : forall o, (forall p, o_real o = Some p -> canonical p) -> sane (sample_world o).
Proof.
  intros o R. split.
  - exact sample_decoder.
  - cbn. lia.
  - intros path p E. exact (R p E).
  - intros path s E. cbn [w_read sample_world] in E. destruct (bytes_eqb path (ascii "/home/bob/.ssh/authorized_keys")); [|discriminate E]. inversion E; subst s.
    destruct C68_met as [F _]. eapply Forall_impl; [|exact F]. intros l [N L]. split; [exact N|]. cbn [w_line sample_world]. cbv beta in L. lia.
  - exact table_resolver.
Qed.
Lemma bob_sane_key : sane_key bob_key.
Proof. split; [constructor|cbn; lia|]. split; [intros []|discriminate]. Qed.
(* A Match block that turns StrictModes on for bob does nothing. *)
Definition relaxed : conf := set_strict false conf_new.
Definition for_bob : conf := set_usr (Some (ascii "bob")) conf_new.
Theorem C74_refuted : ~ C74_full.
Proof.
  intros F. set (a := ACtx [relaxed; for_bob] (ascii "10.0.0.1") 3 []).
  destruct (F shadowed (sample_world unsafe_open) a (ascii "bob") bob_key true true) as [H _].
  - apply sample_sane. intros p Q. discriminate Q.
  - exact bob_sane_key.
  - destruct H as (_ & _ & c & (p & gs & _ & G2 & G3) & _ & _ & _ & L); [vm_compute; reflexivity|].
    assert (CS : cf_strict c = true /\ cf_keys_set c = false) by (vm_compute in G2; inversion G2; subst gs; rewrite G3; vm_compute; auto). destruct CS as [CS CK].
    cbn [k_x509 k_ossh bob_key andb] in L. rewrite CS in L. destruct L as (p' & f & _ & _ & (_ & T & _)). destruct (T eq_refl) as (lst & _ & _ & Q & _). discriminate Q.
Qed.
(* What holds: the same with the StrictModes of the global settings. *)
Theorem C74_key_login_partial : forall B W a name k raised reduced, sane W -> sane_key k ->
  (fst (fst (request B W a name (LKey k) raised reduced)) = UOk <->
   raised = true /\ reduced = true /\ key_login B W a (cstr name) k (fun _ => cf_strict (global_conf a))).
Proof. intros B W a name k raised reduced S SK. exact (key_ok B W S a name k raised reduced SK). Qed.
(* So the full statement holds where no Match block changes StrictModes. *)
Theorem C74_strict_partial : forall B W a name k raised reduced, sane W -> sane_key k ->
  (forall c, governs W a (cstr name) c -> cf_strict c = cf_strict (global_conf a)) ->
  (fst (fst (request B W a name (LKey k) raised reduced)) = UOk <->
   raised = true /\ reduced = true /\ key_login B W a (cstr name) k cf_strict).
Proof.
  intros B W a name k raised reduced S SK E. rewrite (key_ok B W S a name k raised reduced SK). unfold key_login. split.
  - intros (R1 & R2 & c & G & H). split; [exact R1|]. split; [exact R2|]. exists c. split; [exact G|]. rewrite (E c G). exact H.
  - intros (R1 & R2 & c & G & H). split; [exact R1|]. split; [exact R2|]. exists c. split; [exact G|]. rewrite (E c G) in H. exact H.
Qed.
(* A key never uses up an attempt, and never costs a password check. *)
Theorem C74_no_attempt : forall B W a name k raised reduced,
  snd (fst (request B W a name (LKey k) raised reduced)) = a_left a /\ snd (request B W a name (LKey k) raised reduced) = [].
Proof.
  intros B W a name k raised reduced. unfold request. cbv zeta.
  destruct (check_user W a (cstr name) (is_root W (cstr name))); try (destruct reduced; split; reflexivity).
  destruct raised; cbn [negb]; [destruct (auth_user_conf W a (cstr name))|]; destruct reduced; split; reflexivity.
Qed.
Example C74_met :
  sane (sample_world (sample_open 493)) /\ sane_key bob_key /\
  (forall c, governs (sample_world (sample_open 493)) ctx0 (ascii "bob") c -> cf_strict c = cf_strict (global_conf ctx0)) /\
  fst (fst (request shadowed (sample_world (sample_open 493)) ctx0 (ascii "bob") (LKey bob_key) true true)) = UOk /\
  fst (fst (request shadowed (sample_world (sample_open 511)) ctx0 (ascii "bob") (LKey bob_key) true true)) = UBadKey /\
  fst (fst (request shadowed (sample_world (sample_open 493)) ctx0 (ascii "bob") (LKey (PKey (ascii "GHI") false false [] [] 0 0 [])) true true)) = UBadKey.
Proof.
  split; [apply sample_sane; intros p Q; inversion Q; subst p; apply C70_met|]. split; [exact bob_sane_key|]. split.
  - intros c (p & gs & _ & G2 & G3). vm_compute in G2. inversion G2; subst gs. rewrite G3. reflexivity.
  - vm_compute. auto.
Qed.

(* ----- C75: a refused password tells nothing by its cost ----------------- *)

(* Full statement: for whom the attempts were cannot be seen from what becomes
   of them. *)
Definition C75_full : Prop := forall B W a name1 name2 pws,
  (forall pw, In pw pws -> ~ password_login B W a (cstr name1) pw /\ ~ password_login B W a (cstr name2) pw) ->
  a_left a = MAX_ATTEMPTS -> ~ rootlike W (cstr name1) -> ~ rootlike W (cstr name2) ->
  (forall pw salt, w_crypt W pw salt <> None) ->
  let run_for n := map view (run B a (map (fun pw => Event W n (LPassword pw) true true) pws)) in
  run_for name1 = run_for name2.
Theorem C75_refuted : ~ C75_full.
Proof.
  intros F. specialize (F shadowed (sample_world (sample_open 493)) ctx0 (ascii "bob") (ascii "nobody") [ascii "a"; ascii "b"; ascii "c"; ascii "d"]).
  cbv zeta in F. assert (H : map view (run shadowed ctx0 (map (fun pw => Event (sample_world (sample_open 493)) (ascii "bob") (LPassword pw) true true) [ascii "a"; ascii "b"; ascii "c"; ascii "d"])) =
    map view (run shadowed ctx0 (map (fun pw => Event (sample_world (sample_open 493)) (ascii "nobody") (LPassword pw) true true) [ascii "a"; ascii "b"; ascii "c"; ascii "d"]))).
  { apply F.
    - intros pw I1. split.
      + change (cstr (ascii "bob")) with (ascii "bob"). intros (c & _ & _ & _ & _ & h & H & U). destruct H as (p & E & [(_ & _ & Q & _)|[Q _]]).
        * vm_compute in Q. inversion Q; subst h. destruct U as [[U _]|(_ & _ & _ & U)]; [discriminate U|]. repeat (destruct I1 as [<-|I1]; [discriminate U|]). destruct I1.
        * apply Q. split; [reflexivity|]. vm_compute in E. inversion E; subst p. exists []. reflexivity.
      + intros (c & (p & gs & E & _) & _). discriminate E.
    - reflexivity.
    - exact bob_no_root.
    - intros [Q|(p & E & Q)]; [discriminate Q|discriminate E].
    - intros pw salt. cbn [w_crypt sample_world]. destruct (_ && _); discriminate. }
  vm_compute in H. discriminate H.
Qed.
(* What holds. No refusal is cheap: crypt(3) is called on the password,
   whatever the reason of the refusal. *)
Theorem C75_cost_partial : forall B W a name pw raised ls root, a_fakes a = auth_init ls root ->
  fst (fst (request B W a name (LPassword pw) raised true)) <> UOk ->
  snd (request B W a name (LPassword pw) raised true) <> [].
Proof. intros B W a name pw raised ls root F. apply refusal_cost. rewrite F. apply init_marked. Qed.
(* And one of the calls does hash the password, wherever crypt knows the
   oldest of the schemes and that of the account's own hash. *)
Theorem C75_work_partial : forall B W a name pw raised ls root, a_fakes a = auth_init ls root ->
  (forall p, exists h, w_crypt W p fake_des = Some h /\ hd 0 h <> 42) ->
  (forall h, hash_of B W (cstr name) h -> h <> [] -> hd 0 h <> 42 -> hd 0 h <> 33 ->
     exists r, w_crypt W (cstr pw) h = Some r /\ hd 0 r <> 42) ->
  fst (fst (request B W a name (LPassword pw) raised true)) <> UOk ->
  exists salt r, In salt (snd (request B W a name (LPassword pw) raised true)) /\
    w_crypt W (cstr pw) salt = Some r /\ hd 0 r <> 42.
Proof.
  intros B W a name pw raised ls root F D U NO.
  destruct (refusal_work B W a name pw raised) as (s & I1 & (r & H1 & H2)); [rewrite F; apply init_marked|exact D|exact U|exact NO|].
  exists s, r. split; [exact I1|]. split; [exact H1|exact H2].
Qed.
(* Where the accounts use one scheme with one set of parameters, that scheme
   is also what a refused attempt for an unknown, locked or forbidden account
   costs. *)
Theorem C75_scheme_partial : forall s B W a name pw raised ls root,
  scheme_text s -> lenN s <= 238 -> b_shadow B = true -> a_fakes a = auth_init ls root ->
  Forall (fun l => uses_scheme s l \/ uses_none l) ls -> (exists l, In l ls /\ uses_scheme s l) ->
  (forall h, hash_of B W (cstr name) h -> uniform s h) ->
  fst (fst (request B W a name (LPassword pw) raised true)) <> UOk ->
  exists rest calls, snd (request B W a name (LPassword pw) raised true) = (s ++ rest) :: calls.
Proof.
  intros s B W a name pw raised ls root ST SL BS F FU (l & I1 & (u & rest & salt & digest & N1 & N2 & L)) U NO.
  destruct (init_T s ST SL ls root) as [NE FT].
  - eapply Forall_impl; [|exact FU]. intros x Q. apply uniform_line. exact Q.
  - exists l, salt, digest. split; [exact I1|]. split; [exact N1|]. split; [exact N2|]. exact (field2_line _ _ _ _ L).
  - rewrite <- F in NE, FT. exact (request_first s ST SL B W BS a name pw raised NE FT U NO).
Qed.
(* As long as two attempts are left, a refused password looks the same for
   every name: an account or none, locked, without hash or with another. *)
Theorem C75_view_partial : forall B W a name pw raised, (2 <= a_left a)%Z -> ~ rootlike W (cstr name) ->
  (forall c, governs W a (cstr name) c -> cf_pw c = true) ->
  fst (fst (request B W a name (LPassword pw) raised true)) <> UOk ->
  view (fst (fst (request B W a name (LPassword pw) raised true))) = SFailure.
Proof.
  intros B W a name pw raised L NR PW NO. unfold request in *. set (u := cstr name) in *. cbv zeta in *.
  assert (R : is_root W u = false) by (destruct (is_root W u) eqn:E; [exfalso; apply NR, is_root_iff; exact E|reflexivity]). rewrite R in *.
  destruct (check_user W a u false) eqn:CU; cbn [fst] in *; try reflexivity.
  2,3: unfold check_user in CU; cbn [andb] in CU; destruct (w_pw W u); [discriminate CU|destruct (w_pw_errno W u); discriminate CU].
  destruct raised; cbn [negb fst] in *; [|reflexivity]. destruct (auth_user_conf W a u) as [c|] eqn:G; [|reflexivity].
  apply governs_iff in G. unfold request_password in *. rewrite (PW c G) in *. cbn [negb root_pw_blocked andb] in *.
  match goal with |- context [if ?b then (UFail, a_left a, [], true) else _] => destruct b end; [reflexivity|].
  destruct (check_password B W (a_fakes a) u pw) as [r t]. destruct r; cbn [fst] in *; [congruence| |reflexivity].
  destruct (Z.eqb_spec (a_left a - 1) 0) as [Q|Q]; [lia|reflexivity].
Qed.
(* The salts made up for that hold nothing of the salts and digests of the
   system. *)
Theorem C75_no_secret : forall ls1 ls2 root1 root2, Forall2 same_but_secrets ls1 ls2 ->
  (root1 = root2 \/ exists h1 h2, root1 = Some h1 /\ root2 = Some h2 /\ same_but_secret h1 h2) ->
  auth_init ls1 root1 = auth_init ls2 root2.
Proof. exact init_same. Qed.
(* And no made-up hash ever lets anybody in. *)
Theorem C75_no_account : forall B W a name pw raised reduced, w_pw W (cstr name) = None ->
  fst (fst (request B W a name (LPassword pw) raised reduced)) <> UOk.
Proof.
  intros B W a name pw raised reduced N H. apply request_ok in H. destruct H as (_ & _ & c & G & _). apply governs_iff in G. destruct G as (p & gs & E & _). congruence.
Qed.
Example C75_met :
  let W := sample_world (sample_open 493) in
  let s := ascii "$6$" in
  let ls := [ascii "bob:$6$salt$digest:1:0:"; ascii "root:*:1:0:"] in
  scheme_text s /\ Forall (fun l => uses_scheme s l \/ uses_none l) ls /\ (exists l, In l ls /\ uses_scheme s l) /\
  (forall h, hash_of shadowed W (cstr (ascii "root")) h -> uniform s h) /\
  request shadowed W ctx0 (ascii "root") (LPassword (ascii "x")) true true = (URejected, 3%Z, [ascii "$6$wolfSSHFakeSalt$"]) /\
  request shadowed W ctx0 (ascii "eve") (LPassword (ascii "x")) true true = (UNoUser, 3%Z, [ascii "$6$wolfSSHFakeSalt$"]) /\
  Forall2 same_but_secrets ls [ascii "bob:$6$other$hidden:1:0:"; ascii "root:*:1:0:"].
Proof.
  assert (L : forall salt digest, ~ In 58 salt -> ~ In 58 digest -> shadow_line (ascii "bob") (hash_text (ascii "$6$") salt digest) (ascii "1:0:") (ascii "bob:$6$" ++ salt ++ ascii "$" ++ digest ++ ascii ":1:0:")).
  { intros salt digest N1 N2. split; [vm_compute; intuition discriminate|]. split.
    - unfold hash_text. intros Q. repeat (apply in_app_or in Q; destruct Q as [Q|Q]); [vm_compute in Q; intuition discriminate|exact (N1 Q)|vm_compute in Q; intuition discriminate|exact (N2 Q)].
    - unfold hash_text. change (ascii "bob:$6$") with (ascii "bob" ++ ascii ":" ++ ascii "$6$"). change (ascii ":1:0:") with (ascii ":" ++ ascii "1:0:"). rewrite <- !app_assoc. reflexivity. }
  assert (ND : forall x, existsb (N.eqb 36) x = false -> no_dollar x).
  { intros x E Q. assert (existsb (N.eqb 36) x = true) by (apply existsb_exists; exists 36; split; [exact Q|reflexivity]). congruence. }
  assert (US : uses_scheme (ascii "$6$") (ascii "bob:$6$salt$digest:1:0:")).
  { exists (ascii "bob"), (ascii "1:0:"), (ascii "salt"), (ascii "digest"). split; [apply ND; reflexivity|]. split; [apply ND; reflexivity|]. apply L; vm_compute; intuition discriminate. }
  assert (ST : scheme_text (ascii "$6$")) by (left; exists (ascii "6"); split; [reflexivity|]; split; [discriminate|apply ND; reflexivity]).
  cbv zeta. split; [exact ST|]. split.
  { constructor; [left; exact US|]. constructor; [|constructor]. right. intros u h rest SH. apply field2_line in SH. vm_compute in SH. inversion SH. discriminate. }
  split; [eexists; split; [left; reflexivity|exact US]|]. split.
  { intros h (p & E & [(_ & _ & Q & _)|[Q _]]).
    - vm_compute in Q. inversion Q. right. right. right. left. exists []. reflexivity.
    - exfalso. apply Q. split; [reflexivity|]. vm_compute in E. inversion E; subst p. exists []. reflexivity. }
  split; [vm_compute; reflexivity|]. split; [vm_compute; reflexivity|].
  constructor; [|constructor; [left; reflexivity|constructor]]. right. exists (ascii "bob"), (ascii "1:0:"), (hash_text (ascii "$6$") (ascii "salt") (ascii "digest")), (hash_text (ascii "$6$") (ascii "other") (ascii "hidden")).
  split; [left; exists (ascii "$6$"), (ascii "salt"), (ascii "digest"), (ascii "other"), (ascii "hidden"); split; [exact ST|]; split; [cbn; lia|]; split; [apply ND; reflexivity|]; split; [apply ND; reflexivity|]; split; [apply ND; reflexivity|]; split; [apply ND; reflexivity|]; split; reflexivity|].
  split; apply L; vm_compute; intuition discriminate.
Qed.

Print Assumptions C73_empty_refuted.
Print Assumptions C73_refuted.
Print Assumptions C73_password_login_partial.
Print Assumptions C73_attempts.
Print Assumptions C73_third.
Print Assumptions C74_refuted.
Print Assumptions C74_key_login_partial.
Print Assumptions C74_strict_partial.
Print Assumptions C74_no_attempt.
Print Assumptions C75_refuted.
Print Assumptions C75_cost_partial.
Print Assumptions C75_work_partial.
Print Assumptions C75_scheme_partial.
Print Assumptions C75_view_partial.
Print Assumptions C75_no_secret.
Print Assumptions C75_no_account.
