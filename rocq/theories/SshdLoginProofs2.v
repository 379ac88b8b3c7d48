(* SshdLoginProofs2.v - how many attempts, and what they cost. *)
From Coq Require Import List NArith ZArith Lia Bool String.
From Verif Require Import Base WireSpec WireProofs KexSpec NegoSpec SshdConfModel SshdConfSpec SshdConfProofs SshdKeysModel SshdKeysSpec
  SshdKeysProofs SshdLoginModel SshdLoginSpec SshdLoginProofs.
Import ListNotations.
Open Scope N_scope.

(* ---- attempts -------------------------------------------------------------- *)
Lemma check_hash_err : forall B W fakes pw h, (forall s, w_crypt W pw s <> None) -> fst (check_hash B W fakes pw h) <> AErr.
Proof.
  intros B W fakes pw h C. unfold check_hash.
  assert (LOCK : forall s0, fst (let '(h1, t1) := if no_hash (w_crypt W pw s0) then (w_crypt W pw fake_md5, [fake_md5]) else (w_crypt W pw s0, []) in
     let '(h2, t2) := if no_hash h1 then (w_crypt W pw fake_des, [fake_des]) else (h1, []) in
     (match h2 with None => AErr | Some _ => ANo end, s0 :: t1 ++ t2)) <> AErr).
  { intros s0. destruct (no_hash (w_crypt W pw s0)) eqn:N0.
    - destruct (no_hash (w_crypt W pw fake_md5)) eqn:N1; cbn [fst].
      + specialize (C fake_des). destruct (w_crypt W pw fake_des); [discriminate|congruence].
      + specialize (C fake_md5). destruct (w_crypt W pw fake_md5); [discriminate|congruence].
    - rewrite N0. cbn [fst]. specialize (C s0). destruct (w_crypt W pw s0); [discriminate|congruence]. }
  destruct h as [|c t].
  - destruct pw; [discriminate|]. apply LOCK.
  - assert (OPEN : fst (match w_crypt W pw (c :: t) with None => AErr | Some x => if (match x with [] => true | _ => false end) || starts 42 x || negb (bytes_eqb x (c :: t)) then ANo else AYes end, [c :: t]) <> AErr).
    { cbn [fst]. specialize (C (c :: t)). destruct (w_crypt W pw (c :: t)) as [x|]; [|congruence]. match goal with |- (if ?b then _ else _) <> _ => destruct b end; discriminate. }
    cbv zeta. destruct ((c =? 42) || (c =? 33)).
    + destruct pw; apply LOCK.
    + destruct pw; exact OPEN.
Qed.

Section Attempts.
Variable B : build.
Definition req (a : actx) (e : event) := request B (e_world e) a (e_name e) (e_login e) (e_raised e) (e_reduced e).

Lemma req_wrong : forall a e, wrong_password B a e ->
  fst (req a e) = ((if Z.eqb (a_left a - 1) 0 then URejected else UBadPw), (a_left a - 1)%Z).
Proof.
  intros a e (pw & c & h & EL & ER & ED & G & PW & RT & EM & H & U & C). unfold req, request. rewrite EL, ER, ED.
  set (W := e_world e) in *. set (u := cstr (e_name e)) in *. apply governs_iff in G.
  assert (NO : rootlike W u -> cf_root c <> ROOT_NO) by (intros Q; apply (RT Q)).
  rewrite (proj2 (check_user_ok W a u c G) NO). cbn [negb]. rewrite G. unfold request_password. rewrite PW. cbn [negb].
  rewrite (proj2 (root_blocked W u c NO) RT).
  assert (EM2 : (match pw with [] => true | _ => false end) && negb (cf_empty c) = false) by (destruct pw; [rewrite EM by reflexivity|]; reflexivity). rewrite EM2.
  unfold check_password. assert (A : exists p, w_pw W u = Some p) by (destruct H as (p & A & _); exists p; exact A). destruct A as (p & A).
  rewrite (proj2 (hash_iff B W u p h A) H).
  pose proof (check_hash_err B W (a_fakes a) (cstr pw) h C) as NE. pose proof (check_hash_yes B W (a_fakes a) (cstr pw) h) as Y.
  destruct (check_hash B W (a_fakes a) (cstr pw) h) as [r t]. cbn [fst] in NE, Y. destruct r.
  - exfalso. apply U. apply Y. reflexivity.
  - reflexivity.
  - congruence.
Qed.
Lemma req_left : forall a e, let r := fst (fst (req a e)) in let n := snd (fst (req a e)) in
  (r <> UBadPw \/ n <> 0%Z) /\ ((n = a_left a /\ r <> UBadPw) \/ n = (a_left a - 1)%Z /\ (n = 0%Z -> ends r = true)).
Proof.
  intros a e. cbv zeta. unfold req, request. set (W := e_world e). set (u := cstr (e_name e)).
  assert (FIN : forall x : uares * Z * list bytes,
     let P y := (fst (fst y) <> UBadPw \/ snd (fst y) <> 0%Z) /\ ((snd (fst y) = a_left a /\ fst (fst y) <> UBadPw) \/ snd (fst y) = (a_left a - 1)%Z /\ (snd (fst y) = 0%Z -> ends (fst (fst y)) = true)) in
     P x -> P (let '(r, n, t) := x in if e_reduced e then (r, n, t) else (UExit, n, t))).
  { intros [[r n] t] P H. unfold P in *. cbn [fst snd] in *. destruct (e_reduced e); cbn [fst snd]; [exact H|]. split; [left; discriminate|]. destruct H as [_ [[H _]|[H _]]]; [left; split; [exact H|discriminate]|right; split; [exact H|reflexivity]]. }
  apply FIN. clear FIN. cbv zeta.
  assert (FAIL : forall r, r <> UBadPw -> let y := match e_login e with LPassword pw => (r, a_left a, fake_check B W (a_fakes a) (e_name e) pw) | LKey _ => (r, a_left a, []) end in
    (fst (fst y) <> UBadPw \/ snd (fst y) <> 0%Z) /\ ((snd (fst y) = a_left a /\ fst (fst y) <> UBadPw) \/ snd (fst y) = (a_left a - 1)%Z /\ (snd (fst y) = 0%Z -> ends (fst (fst y)) = true))).
  { intros r R. destruct (e_login e); cbn [fst snd]; (split; [left; exact R|left; split; [reflexivity|exact R]]). }
  assert (CU : check_user W a u (is_root W u) <> UBadPw).
  { unfold check_user. match goal with |- (if ?b then _ else _) <> _ => destruct b end; [discriminate|]. destruct (w_pw W u); [discriminate|]. destruct (w_pw_errno W u); discriminate. }
  destruct (check_user W a u (is_root W u)); try (apply FAIL; (discriminate || exact CU)).
  destruct (e_raised e); cbn [negb]; [|apply FAIL; discriminate].
  destruct (auth_user_conf W a u) as [c|]; [|apply FAIL; discriminate].
  destruct (e_login e) as [pw|k].
  - unfold request_password. destruct (cf_pw c); cbn [negb fst snd]; [|split; [left; discriminate|left; split; [reflexivity|discriminate]]].
    destruct (root_pw_blocked (is_root W u) c); [cbn [fst snd]; split; [left; discriminate|left; split; [reflexivity|discriminate]]|].
    match goal with |- context [if ?b then (UFail, a_left a, [], true) else _] => destruct b end; [cbn [fst snd]; split; [left; discriminate|left; split; [reflexivity|discriminate]]|].
    destruct (check_password B W (a_fakes a) u pw) as [r t]. destruct r; cbn [fst snd].
    + split; [left; discriminate|left; split; [reflexivity|discriminate]].
    + destruct (Z.eqb_spec (a_left a - 1) 0) as [E|E]; cbn [fst snd].
      * split; [left; discriminate|]. right. split; [reflexivity|reflexivity].
      * split; [right; exact E|]. right. split; [reflexivity|]. intros Q. contradiction.
    + split; [left; discriminate|left; split; [reflexivity|discriminate]].
  - cbn [fst snd]. assert (RK : request_key B W a u (is_root W u) c k <> UBadPw).
    { unfold request_key. repeat match goal with |- (if ?b then _ else _) <> _ => destruct b; try discriminate end. destruct (check_key W a u k (cf_ca c) (cf_keys c)); discriminate. }
    split; [left; exact RK|left; split; [reflexivity|exact RK]].
Qed.
Lemma run_step : forall a e t, run B a (e :: t) = fst (fst (req a e)) :: (if ends (fst (fst (req a e))) then [] else run B (with_left (snd (fst (req a e))) a) t).
Proof. intros a e t. cbn [run]. fold (req a e). destruct (req a e) as [[r n] s]. reflexivity. Qed.
Definition bad_pw (r : uares) : bool := match r with UBadPw => true | _ => false end.
Lemma run_bad : forall es a, (1 <= a_left a)%Z -> (Z.of_nat (List.length (filter bad_pw (run B a es))) < a_left a)%Z.
Proof.
  induction es as [|e t IH]; intros a L; [cbn; lia|]. rewrite run_step. destruct (req_left a e) as [A1 A2]. cbv zeta in A1, A2.
  set (r := fst (fst (req a e))) in *. set (n := snd (fst (req a e))) in *.
  destruct (ends r) eqn:ER.
  - destruct r; cbn [filter bad_pw List.length]; try lia. discriminate ER.
  - assert (N1 : (1 <= n)%Z). { destruct A2 as [[-> _]|[E1 E2]]; [exact L|]. destruct (Z.eq_dec n 0) as [E|E]; [pose proof (E2 E); congruence|lia]. }
    specialize (IH (with_left n a) N1). cbn [a_left with_left] in IH. cbn [filter]. destruct (bad_pw r) eqn:BR.
    + cbn [List.length]. assert (n = (a_left a - 1)%Z) by (destruct A2 as [[_ Q]|[Q _]]; [destruct r; cbn in BR; congruence|exact Q]). lia.
    + destruct A2 as [[Q _]|[Q _]]; lia.
Qed.
Lemma run_wrong : forall w es a, (1 <= a_left a)%Z -> (forall e, w e = true -> wrong_password B a e) ->
  let rs := run B a es in let k := Z.of_nat (List.length (filter w (firstn (List.length rs) es))) in
  (k <= a_left a)%Z /\ (k = a_left a -> last rs UOk = URejected).
Proof.
  intros w. induction es as [|e t IH]; intros a L HW; [cbn; lia|]. cbv zeta. rewrite run_step. destruct (req_left a e) as [A1 A2]. cbv zeta in A1, A2.
  set (r := fst (fst (req a e))) in *. set (n := snd (fst (req a e))) in *. cbn [List.length firstn filter].
  destruct (w e) eqn:WE.
  - assert (Q := req_wrong a e (HW e WE)).
    assert (QR : r = if Z.eqb (a_left a - 1) 0 then URejected else UBadPw) by (unfold r; rewrite Q; reflexivity). assert (QN : n = (a_left a - 1)%Z) by (unfold n; rewrite Q; reflexivity).
    destruct (Z.eqb_spec (a_left a - 1) 0) as [E|E]; rewrite QR; cbn [ends].
    + cbn [List.length firstn filter last]. split; [lia|reflexivity].
    + specialize (IH (with_left n a) ltac:(cbn [a_left with_left]; lia) (fun e' He => HW e' He)). cbv zeta in IH. cbn [a_left with_left] in IH.
      destruct (run B (with_left n a) t) as [|r1 rs] eqn:RR.
      * cbn [List.length firstn filter]. lia.
      * destruct IH as [I1 I2]. cbn [List.length] in *. split; [lia|]. intros Q2. change (last (UBadPw :: r1 :: rs) UOk) with (last (r1 :: rs) UOk). apply I2. lia.
  - destruct (ends r) eqn:ER; [cbn [List.length firstn filter]; lia|].
    assert (N1 : (1 <= n)%Z). { destruct A2 as [[-> _]|[E1 E2]]; [exact L|]. destruct (Z.eq_dec n 0) as [E|E]; [pose proof (E2 E); congruence|lia]. }
    specialize (IH (with_left n a) N1 (fun e' He => HW e' He)). cbv zeta in IH. cbn [a_left with_left] in IH. destruct IH as [I1 I2].
    assert (n <= a_left a)%Z by (destruct A2 as [[Q _]|[Q _]]; lia). split; [lia|]. intros Q2. assert (n = a_left a) by lia.
    destruct (run B (with_left n a) t) as [|r1 rs] eqn:RR; [cbn in Q2; lia|]. change (last (r :: r1 :: rs) UOk) with (last (r1 :: rs) UOk). apply I2. lia.
Qed.

(* ---- the cost --------------------------------------------------------------- *)
Variable W : world.
Lemma hash_cost : forall fakes pw h, h <> [] -> snd (check_hash B W fakes pw h) <> [].
Proof.
  intros fakes pw [|c t] NE; [congruence|]. unfold check_hash. cbv zeta. destruct ((c =? 42) || (c =? 33)).
  - match goal with |- context [no_hash ?x] => destruct (no_hash x) end; repeat (match goal with |- context [if no_hash ?x then _ else _] => destruct (no_hash x) end); destruct pw; discriminate.
  - destruct pw; discriminate.
Qed.
Definition marked (t : bytes) : Prop := t <> [] /\ hd 0 t = 33.
Lemma fake_cost : forall fakes name pw, Forall marked fakes -> fake_check B W fakes name pw <> [].
Proof.
  intros fakes name pw F. unfold fake_check. apply hash_cost. destruct (b_shadow B); [|discriminate]. destruct fakes as [|f0 fs]; [discriminate|].
  set (i := N.to_nat _). destruct (nth_in_or_default i (f0 :: fs) (ascii "*")) as [I1|E].
  - rewrite Forall_forall in F. destruct (F _ I1) as [Q _]. exact Q.
  - rewrite E. discriminate.
Qed.
(* The crypt calls of an attempt with a password. *)
Lemma salts_cases : forall a name pw raised,
  let x := request B W a name (LPassword pw) raised true in
  snd x = fake_check B W (a_fakes a) name pw \/
  (exists h, stored_hash B W (cstr name) = Some h /\ (exists p, w_pw W (cstr name) = Some p) /\ let y := check_hash B W (a_fakes a) (cstr pw) h in
     (snd x = snd y /\ (fst y = AYes -> fst (fst x) = UOk)) \/ (fst y = AErr /\ snd x = snd y ++ fake_check B W (a_fakes a) name pw)).
Proof.
  intros a name pw raised. cbv zeta. unfold request. set (u := cstr name).
  assert (DONE : forall x : uares * Z * list bytes, (let '(r, n, t) := x in (r, n, t)) = x) by (intros [[r n] t]; reflexivity). rewrite DONE. clear DONE.
  destruct (check_user W a u (is_root W u)) eqn:CU; try (left; reflexivity).
  destruct raised; cbn [negb]; [|left; reflexivity]. destruct (auth_user_conf W a u) as [c|] eqn:G; [|left; reflexivity].
  assert (A : exists p, w_pw W u = Some p) by (apply governs_iff in G; destruct G as (p & gs & E & _); exists p; exact E).
  unfold request_password. destruct (cf_pw c); cbn [negb]; [|left; reflexivity]. destruct (root_pw_blocked (is_root W u) c); [left; reflexivity|].
  match goal with |- context [if ?b then (UFail, a_left a, [], true) else _] => destruct b end; [left; reflexivity|].
  unfold check_password. destruct (stored_hash B W u) as [h|]; [|left; reflexivity]. right. exists h. split; [reflexivity|]. split; [exact A|].
  destruct (check_hash B W (a_fakes a) (cstr pw) h) as [r t]. cbn [fst snd]. destruct r; cbn [fst snd].
  - left. split; reflexivity.
  - left. split; [destruct (Z.eqb (a_left a - 1) 0); reflexivity|discriminate].
  - right. split; reflexivity.
Qed.
Lemma refusal_cost : forall a name pw raised, Forall marked (a_fakes a) ->
  fst (fst (request B W a name (LPassword pw) raised true)) <> UOk -> snd (request B W a name (LPassword pw) raised true) <> [].
Proof.
  intros a name pw raised F NO. destruct (salts_cases a name pw raised) as [E|(h & S & _ & [[E1 E2]|[E1 E2]])].
  - rewrite E. apply fake_cost. exact F.
  - rewrite E1. destruct h as [|c t]; [|apply hash_cost; discriminate].
    destruct (cstr pw) as [|x y] eqn:P; [exfalso; apply NO, E2; reflexivity|].
    unfold check_hash. cbv zeta. match goal with |- context [no_hash ?x] => destruct (no_hash x) end; repeat (match goal with |- context [if no_hash ?x then _ else _] => destruct (no_hash x) end); discriminate.
  - rewrite E2. intros Q. apply app_eq_nil in Q. destruct Q as [_ Q]. revert Q. apply fake_cost. exact F.
Qed.
(* crypt gave a hash *)
Definition hashed (r : option bytes) : Prop := exists h, r = Some h /\ hd 0 h <> 42.
Lemma no_hash_false : forall r, no_hash r = false -> hashed r.
Proof.
  intros [h|] E; [|discriminate E]. exists h. split; [reflexivity|]. destruct h as [|c t]; cbn in *; [discriminate|].
  intros ->. discriminate E.
Qed.
Lemma hashed_no : forall r, hashed r -> no_hash r = false.
Proof.
  intros r (h & -> & H). destruct h as [|c t]; [reflexivity|]. cbn in *. apply N.eqb_neq. exact H.
Qed.
Lemma hash_work : forall fakes pw h, (forall p, hashed (w_crypt W p fake_des)) ->
  (h <> [] -> hd 0 h <> 42 -> hd 0 h <> 33 -> hashed (w_crypt W pw h)) -> ~ (h = [] /\ pw = []) ->
  exists s, In s (snd (check_hash B W fakes pw h)) /\ hashed (w_crypt W pw s).
Proof.
  intros fakes pw h D U NE. unfold check_hash.
  assert (L : forall s0, exists s, In s (snd (
    let '(h1, t1) := if no_hash (w_crypt W pw s0) then (w_crypt W pw fake_md5, [fake_md5]) else (w_crypt W pw s0, []) in
    let '(h2, t2) := if no_hash h1 then (w_crypt W pw fake_des, [fake_des]) else (h1, []) in
    (match h2 with None => AErr | Some _ => ANo end, s0 :: t1 ++ t2))) /\ hashed (w_crypt W pw s)).
  { intros s0. destruct (no_hash (w_crypt W pw s0)) eqn:E1.
    - destruct (no_hash (w_crypt W pw fake_md5)) eqn:E2; cbn [snd app].
      + exists fake_des. split; [right; right; left; reflexivity|apply D].
      + exists fake_md5. split; [right; left; reflexivity|apply no_hash_false; exact E2].
    - rewrite E1. cbn [snd app]. exists s0. split; [left; reflexivity|apply no_hash_false; exact E1]. }
  destruct h as [|c t].
  - destruct pw as [|x y]; [exfalso; apply NE; split; reflexivity|]. cbv zeta. apply L.
  - cbv zeta. destruct ((c =? 42) || (c =? 33)) eqn:C.
    + destruct pw; apply L.
    + apply orb_false_iff in C. destruct C as [C1 C2]. apply N.eqb_neq in C1. apply N.eqb_neq in C2.
      exists (c :: t). split; [destruct pw; left; reflexivity|]. apply U; [discriminate|exact C1|exact C2].
Qed.
Lemma fake_work : forall fakes name pw, Forall marked fakes -> (forall p, hashed (w_crypt W p fake_des)) ->
  exists s, In s (fake_check B W fakes name pw) /\ hashed (w_crypt W (cstr pw) s).
Proof.
  intros fakes name pw F D. unfold fake_check.
  match goal with |- context [check_hash B W fakes (cstr pw) ?x] => set (h := x) end.
  assert (M : h <> [] /\ (hd 0 h = 42 \/ hd 0 h = 33)).
  { unfold h. destruct (b_shadow B); [|split; [discriminate|left; reflexivity]]. destruct fakes as [|f0 fs]; [split; [discriminate|left; reflexivity]|].
    set (i := N.to_nat _). destruct (nth_in_or_default i (f0 :: fs) (ascii "*")) as [I1|E].
    - rewrite Forall_forall in F. destruct (F _ I1) as [Q R]. split; [exact Q|right; exact R].
    - rewrite E. split; [discriminate|left; reflexivity]. }
  destruct M as [M1 M2]. apply hash_work; [exact D| |intros [Q _]; exact (M1 Q)].
  intros _ Q1 Q2. exfalso. destruct M2 as [M2|M2]; [exact (Q1 M2)|exact (Q2 M2)].
Qed.
Lemma refusal_work : forall a name pw raised, Forall marked (a_fakes a) -> (forall p, hashed (w_crypt W p fake_des)) ->
  (forall h, hash_of B W (cstr name) h -> h <> [] -> hd 0 h <> 42 -> hd 0 h <> 33 -> hashed (w_crypt W (cstr pw) h)) ->
  fst (fst (request B W a name (LPassword pw) raised true)) <> UOk ->
  exists s, In s (snd (request B W a name (LPassword pw) raised true)) /\ hashed (w_crypt W (cstr pw) s).
Proof.
  intros a name pw raised F D U NO. destruct (salts_cases a name pw raised) as [E|(h & S & (p & P) & [[E1 E2]|[E1 E2]])].
  - rewrite E. apply fake_work; assumption.
  - rewrite E1. apply hash_work; [exact D| |].
    + apply (U h). apply (hash_iff B W _ p h P). exact S.
    + intros [-> Q]. apply NO, E2. rewrite Q. reflexivity.
  - rewrite E2. destruct (fake_work (a_fakes a) name pw F D) as (s & I1 & H). exists s. split; [apply in_or_app; right; exact I1|exact H].
Qed.
End Attempts.

(* ---- the fake hashes ------------------------------------------------------- *)
Lemma keeps_marked : forall t, keeps (fake_of t) = true -> marked (fake_of t).
Proof.
  intros t K. assert (E : exists r, fake_of t = 33 :: r).
  { unfold fake_of. repeat match goal with |- context [match ?x with _ => _ end] => destruct x end; eexists; reflexivity. }
  destruct E as (r & E). rewrite E. split; [discriminate|reflexivity].
Qed.
Lemma add_marked : forall c l, Forall marked c -> Forall marked (add_line c l).
Proof.
  intros c l F. unfold add_line. destruct (8 <=? lenN c); [exact F|]. destruct (field2 l) as [h|]; [|exact F]. cbv zeta.
  destruct (keeps (fake_of h)) eqn:K; cbn [andb]; [|exact F]. destruct (negb (existsb (bytes_eqb (fake_of h)) c)); [|exact F].
  apply Forall_app. split; [exact F|]. constructor; [apply keeps_marked; exact K|constructor].
Qed.
Lemma init_marked : forall ls root, Forall marked (auth_init ls root).
Proof.
  intros ls root. assert (G : forall c, Forall marked c -> Forall marked (fold_left add_line ls c)) by (induction ls as [|l ls IH]; intros c F; [exact F|]; cbn [fold_left]; apply IH, add_marked, F).
  specialize (G [] ltac:(constructor)). unfold auth_init. destruct (fold_left add_line ls []) as [|x y]; [|exact G].
  destruct root as [h|]; [|constructor]. cbv zeta. destruct (keeps (fake_of h)) eqn:K; [|constructor]. constructor; [apply keeps_marked; exact K|constructor].
Qed.
Definition dol (k : nat) (s : bytes) : list N := map fst (filter (fun e => snd e =? 36) (combine (map N.of_nat (seq k (List.length s))) s)).
Lemma dol_cons : forall k c s, dol k (c :: s) = (if c =? 36 then [N.of_nat k] else []) ++ dol (S k) s.
Proof. intros k c s. unfold dol. cbn [List.length seq map combine filter snd]. destruct (c =? 36); reflexivity. Qed.
Lemma dol_app : forall a k b, dol k (a ++ b) = dol k a ++ dol (k + List.length a) b.
Proof.
  induction a as [|c a IH]; intros k b; [cbn [app List.length]; rewrite Nat.add_0_r; reflexivity|].
  cbn [app]. rewrite !dol_cons, IH, <- app_assoc. cbn [List.length]. f_equal. f_equal. f_equal. lia.
Qed.
Lemma dol_none : forall a k, no_dollar a -> dol k a = [].
Proof.
  induction a as [|c a IH]; intros k N; [reflexivity|]. rewrite dol_cons, IH by (intros Q; apply N; right; exact Q).
  destruct (N.eqb_spec c 36) as [->|]; [exfalso; apply N; left; reflexivity|reflexivity].
Qed.
Definition FAKE : bytes := ascii "wolfSSHFakeSalt$".
Lemma scheme_dollars : forall s, scheme_text s -> exists r x y, s = 36 :: r /\ hd 0 r <> 50 /\ rev (dol 0 s) = (lenN s - 1) :: x :: y.
Proof.
  intros s [(id & -> & H & ND)|(id & params & -> & H & ND & NP)]; change (ascii "$") with [36].
  - exists (id ++ [36]). cbn [app]. rewrite dol_cons, dol_app, (dol_none id) by exact ND. cbn [N.eqb Pos.eqb app rev]. eexists _, _.
    split; [reflexivity|]. split; [destruct id; [discriminate|exact H]|]. unfold dol. cbn [List.length seq map combine filter snd N.eqb Pos.eqb fst rev app]. f_equal. unfold lenN. cbn [List.length]. rewrite app_length. cbn [List.length]. lia.
  - exists (id ++ [36] ++ params ++ [36]). cbn [app]. rewrite dol_cons, !dol_app, (dol_none id) by exact ND. rewrite dol_cons, dol_app, (dol_none params) by exact NP. cbn [N.eqb Pos.eqb app rev]. eexists _, _.
    split; [reflexivity|]. split; [destruct id; [discriminate|exact H]|]. unfold dol. cbn [List.length seq map combine filter snd N.eqb Pos.eqb fst rev app]. f_equal. unfold lenN. cbn [List.length]. rewrite !app_length. cbn [List.length]. rewrite app_length. cbn [List.length]. lia.
Qed.
Lemma fake_modular : forall s salt digest, scheme_text s -> lenN s < 250 -> no_dollar salt -> no_dollar digest ->
  fake_of (hash_text s salt digest) = takeN 255 (33 :: s ++ FAKE).
Proof.
  intros s salt digest ST L NS NG. destruct (scheme_dollars s ST) as (r & x & y & E & HD & D).
  assert (DD : dollars (hash_text s salt digest) = dol 0 s ++ [N.of_nat (List.length s + List.length salt)]).
  { change (dollars (hash_text s salt digest)) with (dol 0 (hash_text s salt digest)). unfold hash_text. rewrite !dol_app, (dol_none salt), (dol_none digest) by assumption.
    cbn [app]. rewrite app_nil_r. f_equal. }
  assert (F : fake_of (hash_text s salt digest) = match rev (dollars (hash_text s salt digest)) with _ :: i :: _ :: _ => if i + 2 <? FAKE_HASH_SZ then takeN (FAKE_HASH_SZ - 1) (33 :: takeN (i + 1) (hash_text s salt digest) ++ FAKE) else ascii "!*" | _ => ascii "!*" end).
  { unfold hash_text at 1. rewrite E at 1. cbn [app]. unfold fake_of. destruct r as [|r0 r].
    - exfalso. rewrite E in D. cbn in D. discriminate D.
    - cbn [hd] in HD. cbn [app].
      assert (Q : forall (A : Type) (x y : A), match r0 with 50 => x | _ => y end = y).
      { intros A p q. destruct r0 as [|b]; [reflexivity|]. do 6 (destruct b as [b|b|]; try reflexivity). exfalso. apply HD. reflexivity. }
      rewrite Q. unfold hash_text. rewrite E. reflexivity. }
  rewrite F, DD, rev_app_distr, D. cbn [rev app]. unfold FAKE_HASH_SZ.
  assert (LB : lenN s - 1 + 2 <? 256 = true) by (apply N.ltb_lt; lia). rewrite LB. change (256 - 1) with 255.
  assert (L1 : 1 <= lenN s) by (rewrite E; unfold lenN; cbn [List.length]; lia). replace (lenN s - 1 + 1) with (lenN s) by lia.
  unfold hash_text. rewrite takeN_app_exact by reflexivity. reflexivity.
Qed.
Lemma fake_bcrypt : forall s rest, bcrypt_scheme s -> 22 <= lenN rest -> fake_of (s ++ rest) = 33 :: s ++ dummy_salt.
Proof.
  intros s rest [(x & y & ->)|(v & x & y & V & ->)] L.
  - change (ascii "$2$" ++ [x; y] ++ ascii "$") with [36; 50; 36; x; y; 36]. cbn [app].
    unfold fake_of. change (starts 36 (dropN 2 (36 :: 50 :: 36 :: x :: y :: 36 :: rest))) with true. cbv zeta iota. change (N.min (6 + 22) 254) with 28.
    assert (Q : N.min 28 (lenN (36 :: 50 :: 36 :: x :: y :: 36 :: rest)) = 28) by (unfold lenN in *; cbn [List.length]; lia). rewrite Q. reflexivity.
  - change (ascii "$2" ++ [v] ++ ascii "$" ++ [x; y] ++ ascii "$") with [36; 50; v; 36; x; y; 36]. cbn [app].
    assert (S : starts 36 (dropN 2 (36 :: 50 :: v :: 36 :: x :: y :: 36 :: rest)) = false) by (change (dropN 2 (36 :: 50 :: v :: 36 :: x :: y :: 36 :: rest)) with (v :: 36 :: x :: y :: 36 :: rest); cbn [starts]; apply N.eqb_neq; exact V).
    unfold fake_of. rewrite S. cbv zeta. change (N.min (7 + 22) 254) with 29.
    assert (Q : N.min 29 (lenN (36 :: 50 :: v :: 36 :: x :: y :: 36 :: rest)) = 29) by (unfold lenN in *; cbn [List.length]; lia). rewrite Q. reflexivity.
Qed.
Lemma fake_same : forall h1 h2, same_but_secret h1 h2 -> fake_of h1 = fake_of h2.
Proof.
  intros h1 h2 [(s & a1 & d1 & a2 & d2 & ST & L & N1 & N2 & N3 & N4 & -> & ->)|(s & r1 & r2 & BS & L1 & L2 & -> & ->)].
  - rewrite !fake_modular by assumption. reflexivity.
  - rewrite !fake_bcrypt by assumption. reflexivity.
Qed.
Lemma span_colon : forall a b, ~ In 58 a -> span (fun c => negb (c =? 58)) (a ++ 58 :: b) = (a, 58 :: b).
Proof.
  induction a as [|c a IH]; intros b N; [reflexivity|]. cbn [app span]. destruct (N.eqb_spec c 58) as [->|]; [exfalso; apply N; left; reflexivity|].
  cbn [negb]. rewrite IH by (intros Q; apply N; right; exact Q). reflexivity.
Qed.
Lemma field2_line : forall u h rest l, shadow_line u h rest l -> field2 l = Some h.
Proof.
  intros u h rest l (N1 & N2 & ->). unfold field2. change (ascii ":") with [58]. cbn [app].
  rewrite span_colon by exact N1. cbn [snd]. rewrite span_colon by exact N2. reflexivity.
Qed.
Lemma add_same : forall c l1 l2, same_but_secrets l1 l2 -> add_line c l1 = add_line c l2.
Proof.
  intros c l1 l2 [->|(u & rest & h1 & h2 & S & L1 & L2)]; [reflexivity|]. unfold add_line.
  rewrite (field2_line _ _ _ _ L1), (field2_line _ _ _ _ L2), (fake_same _ _ S). reflexivity.
Qed.
Lemma init_same : forall ls1 ls2 root1 root2, Forall2 same_but_secrets ls1 ls2 ->
  (root1 = root2 \/ exists h1 h2, root1 = Some h1 /\ root2 = Some h2 /\ same_but_secret h1 h2) -> auth_init ls1 root1 = auth_init ls2 root2.
Proof.
  intros ls1 ls2 root1 root2 F R. assert (G : forall c, fold_left add_line ls1 c = fold_left add_line ls2 c).
  { induction F as [|l1 l2 t1 t2 H F IH]; intros c; [reflexivity|]. cbn [fold_left]. rewrite (add_same c l1 l2 H). apply IH. }
  unfold auth_init. rewrite G. destruct (fold_left add_line ls2 []); [|reflexivity].
  destruct R as [->|(h1 & h2 & -> & -> & S)]; [reflexivity|]. rewrite (fake_same _ _ S). reflexivity.
Qed.

Lemma field2_some : forall l h, field2 l = Some h -> exists u rest, shadow_line u h rest l.
Proof.
  assert (SP : forall l, l = fst (span (fun c => negb (c =? 58)) l) ++ snd (span (fun c => negb (c =? 58)) l) /\ ~ In 58 (fst (span (fun c => negb (c =? 58)) l)) /\
    (snd (span (fun c => negb (c =? 58)) l) = [] \/ exists r, snd (span (fun c => negb (c =? 58)) l) = 58 :: r)).
  { induction l as [|c l (I1 & I2 & I3)]; [cbn; intuition|]. cbn [span]. destruct (N.eqb_spec c 58) as [->|NC]; cbn [negb].
    - cbn [fst snd app]. split; [reflexivity|]. split; [intros []|]. right. exists l. reflexivity.
    - destruct (span (fun c => negb (c =? 58)) l) as [x y]. cbn [fst snd] in *. split; [rewrite I1; reflexivity|]. split; [|exact I3]. intros [Q|Q]; [congruence|exact (I2 Q)]. }
  intros l h H. unfold field2 in H. destruct (SP l) as (E1 & N1 & D1). destruct (span (fun c => negb (c =? 58)) l) as [u r]. cbn [fst snd] in *.
  destruct r as [|c r]; [discriminate H|]. destruct D1 as [D1|(r' & D1)]; [discriminate D1|]. inversion D1; subst c r'.
  destruct (SP r) as (E2 & N2 & D2). destruct (span (fun c => negb (c =? 58)) r) as [f rest]. cbn [fst snd] in *.
  destruct rest as [|c rest]; [discriminate H|]. destruct D2 as [D2|(r' & D2)]; [discriminate D2|]. inversion D2; subst c r'. inversion H; subst f.
  exists u, rest. split; [exact N1|]. split; [exact N2|]. rewrite E1, E2. reflexivity.
Qed.

(* ---- one scheme on the whole system ---------------------------------------- *)
Definition shadow_uniform (s : bytes) (l : bytes) : Prop :=
  match field2 l with
  | None => True
  | Some h => hd 0 h <> 36 \/ exists salt digest, no_dollar salt /\ no_dollar digest /\ h = hash_text s salt digest
  end.
Lemma uniform_line : forall s l, uses_scheme s l \/ uses_none l -> shadow_uniform s l.
Proof.
  intros s l H. unfold shadow_uniform. destruct (field2 l) as [h|] eqn:E; [|exact I]. destruct H as [(u & rest & salt & digest & N1 & N2 & L)|H].
  - rewrite (field2_line _ _ _ _ L) in E. inversion E; subst h. right. exists salt, digest. split; [exact N1|]. split; [exact N2|reflexivity].
  - left. apply field2_some in E. destruct E as (u & rest & L). exact (H u h rest L).
Qed.
Lemma fake_plain : forall h, hd 0 h <> 36 -> fake_of h = [33].
Proof. intros [|c t] H; [reflexivity|]. cbn [hd] in H. unfold fake_of. destruct c as [|b]; [reflexivity|]. do 6 (destruct b as [b|b|]; try reflexivity). exfalso. apply H. reflexivity. Qed.
Section Scheme.
Variable s : bytes.
Hypothesis ST : scheme_text s.
Hypothesis SL : lenN s <= 238.
Definition T : bytes := 33 :: s ++ FAKE.
Lemma fake_T : forall salt digest, no_dollar salt -> no_dollar digest -> fake_of (hash_text s salt digest) = T.
Proof.
  intros salt digest N1 N2. rewrite fake_modular by (assumption || lia). unfold T. apply takeN_all. unfold lenN in *. cbn [List.length]. rewrite app_length. change (List.length FAKE) with 16%nat. lia.
Qed.
Lemma keeps_T : keeps T = true.
Proof. destruct (scheme_dollars s ST) as (r & _ & _ & E & _). unfold T. rewrite E. reflexivity. Qed.
Lemma add_T : forall c l, shadow_uniform s l -> Forall (eq T) c -> Forall (eq T) (add_line c l).
Proof.
  intros c l U F. unfold add_line. destruct (8 <=? lenN c); [exact F|]. unfold shadow_uniform in U. destruct (field2 l) as [h|]; [|exact F]. cbv zeta.
  destruct U as [U|(salt & digest & N1 & N2 & ->)]; [rewrite (fake_plain h U); exact F|]. rewrite (fake_T salt digest N1 N2).
  destruct (keeps T && negb (existsb (bytes_eqb T) c)); [|exact F]. apply Forall_app. split; [exact F|constructor; [reflexivity|constructor]].
Qed.
Lemma add_grows : forall c l, c <> [] -> add_line c l <> [].
Proof.
  intros c l N. unfold add_line. destruct (8 <=? lenN c); [exact N|]. destruct (field2 l); [|exact N]. cbv zeta. match goal with |- (if ?b then _ else _) <> _ => destruct b end; [destruct c; discriminate|exact N].
Qed.
Lemma init_T : forall ls root, Forall (shadow_uniform s) ls ->
  (exists l salt digest, In l ls /\ no_dollar salt /\ no_dollar digest /\ field2 l = Some (hash_text s salt digest)) ->
  auth_init ls root <> [] /\ Forall (eq T) (auth_init ls root).
Proof.
  intros ls root F (l & salt & digest & I1 & N1 & N2 & F2).
  assert (G : forall ls c, Forall (shadow_uniform s) ls -> Forall (eq T) c -> Forall (eq T) (fold_left add_line ls c)).
  { intros ls'. induction ls' as [|x ls' IH]; intros c FU FC; [exact FC|]. cbn [fold_left]. inversion FU; subst. apply IH; [assumption|]. apply add_T; assumption. }
  assert (GR : forall ls c, c <> [] -> fold_left add_line ls c <> []).
  { intros ls'. induction ls' as [|x ls' IH]; intros c N; [exact N|]. cbn [fold_left]. apply IH, add_grows, N. }
  assert (NE : fold_left add_line ls [] <> []).
  { apply in_split in I1. destruct I1 as (l1 & l2 & ->). rewrite fold_left_app. cbn [fold_left]. apply GR. set (c := fold_left add_line l1 []).
    destruct c as [|x y]; [|apply add_grows; discriminate]. unfold add_line. rewrite F2. cbv zeta. rewrite (fake_T salt digest N1 N2), keeps_T. discriminate. }
  specialize (G ls [] F ltac:(constructor)). unfold auth_init. destruct (fold_left add_line ls []) as [|x y]; [congruence|]. split; [discriminate|exact G].
Qed.
Variable B : build.
Variable W : world.
Hypothesis BS : b_shadow B = true.
Lemma locked_T : forall fakes h, fakes <> [] -> Forall (eq T) fakes -> (forall r, h <> 33 :: 36 :: r) -> locked_salt B fakes h = s ++ FAKE.
Proof.
  intros fakes h N F NH. destruct fakes as [|f fs]; [congruence|]. inversion F; subst. destruct (scheme_dollars s ST) as (r & _ & _ & E & _).
  assert (Q : (match T :: fs with (33 :: 36 :: r) :: _ => if b_shadow B then 36 :: r else fake_sha512 | _ => fake_sha512 end) = s ++ FAKE) by (unfold T; rewrite E; cbn [app]; rewrite BS; reflexivity).
  unfold locked_salt. destruct h as [|a [|b t]].
  - exact Q.
  - destruct a as [|p]; [exact Q|]. do 6 (destruct p as [p|p|]; try exact Q).
  - destruct (N.eq_dec a 33) as [->|Na].
    + destruct (N.eq_dec b 36) as [->|Nb]; [exfalso; apply (NH t); reflexivity|].
      destruct b as [|p]; [exact Q|]. do 6 (destruct p as [p|p|]; try exact Q). exfalso. apply Nb. reflexivity.
    + destruct a as [|p]; [exact Q|]. do 6 (destruct p as [p|p|]; try exact Q). exfalso. apply Na. reflexivity.
Qed.
Lemma hash_first : forall fakes pw h, fakes <> [] -> Forall (eq T) fakes -> uniform s h -> (h = [] -> pw <> []) ->
  exists r t, snd (check_hash B W fakes pw h) = (s ++ r) :: t.
Proof.
  intros fakes pw h N F U NE. destruct (scheme_dollars s ST) as (s' & _ & _ & ES & _).
  assert (LOCK : forall s0 r, s0 = s ++ r -> exists r t, snd (let '(h1, t1) := if no_hash (w_crypt W pw s0) then (w_crypt W pw fake_md5, [fake_md5]) else (w_crypt W pw s0, []) in
     let '(h2, t2) := if no_hash h1 then (w_crypt W pw fake_des, [fake_des]) else (h1, []) in
     (match h2 with None => AErr | Some _ => ANo end, s0 :: t1 ++ t2)) = (s ++ r) :: t).
  { intros s0 r ->. exists r. destruct (no_hash (w_crypt W pw (s ++ r))) eqn:N0; [destruct (no_hash (w_crypt W pw fake_md5))|rewrite N0]; eexists; reflexivity. }
  assert (LOCKED : forall c t, (c =? 42) || (c =? 33) = true -> (exists r, locked_salt B fakes (c :: t) = s ++ r) -> exists r t', snd (check_hash B W fakes pw (c :: t)) = (s ++ r) :: t').
  { intros c t CL (r & E). unfold check_hash. cbv zeta. rewrite CL. destruct pw; apply (LOCK _ r E). }
  destruct U as [(r & ->)|[(r & ->)|[->|[(r & ->)|[->|(c & r & C & ->)]]]]].
  - exists r, []. rewrite ES. cbn [app]. destruct pw; reflexivity.
  - apply LOCKED; [reflexivity|]. exists r. rewrite ES. reflexivity.
  - destruct pw as [|x y]; [exfalso; apply NE; reflexivity|]. unfold check_hash. cbv zeta. apply (LOCK _ FAKE). apply locked_T; [exact N|exact F|discriminate].
  - apply LOCKED; [reflexivity|]. exists FAKE. apply locked_T; [exact N|exact F|discriminate].
  - apply LOCKED; [reflexivity|]. exists FAKE. apply locked_T; [exact N|exact F|discriminate].
  - apply LOCKED; [reflexivity|]. exists FAKE. apply locked_T; [exact N|exact F|]. intros r' Q. inversion Q. contradiction.
Qed.
Lemma fake_first : forall fakes name pw, fakes <> [] -> Forall (eq T) fakes -> exists r t, fake_check B W fakes name pw = (s ++ r) :: t.
Proof.
  intros fakes name pw N F. unfold fake_check. rewrite BS. destruct fakes as [|f0 fs]; [congruence|]. set (i := N.to_nat _).
  assert (Q : nth i (f0 :: fs) (ascii "*") = T).
  { rewrite Forall_forall in F. symmetry. apply F. apply nth_In. unfold i. pose proof (N.mod_lt ((fold_left N.add name 0) mod 2 ^ 32) (lenN (f0 :: fs))) as M. unfold lenN in *. cbn [List.length] in *. lia. }
  rewrite Q. apply hash_first; [exact N|exact F| |discriminate]. right. left. exists FAKE. reflexivity.
Qed.
Lemma request_first : forall a name pw raised, a_fakes a <> [] -> Forall (eq T) (a_fakes a) ->
  (forall h, hash_of B W (cstr name) h -> uniform s h) ->
  fst (fst (request B W a name (LPassword pw) raised true)) <> UOk ->
  exists r t, snd (request B W a name (LPassword pw) raised true) = (s ++ r) :: t.
Proof.
  intros a name pw raised N F U NO. destruct (salts_cases B W a name pw raised) as [E|(h & SH & (p & A) & [[E1 E2]|[E1 E2]])].
  - rewrite E. apply fake_first; assumption.
  - rewrite E1. apply hash_first; [exact N|exact F|apply U; apply (hash_iff B W _ p h A); exact SH|]. intros -> Q. apply NO, E2. rewrite Q. reflexivity.
  - rewrite E2. assert (Q : exists r t, snd (check_hash B W (a_fakes a) (cstr pw) h) = (s ++ r) :: t).
    { apply hash_first; [exact N|exact F|apply U; apply (hash_iff B W _ p h A); exact SH|]. intros -> Q. rewrite Q in E1. discriminate E1. }
    destruct Q as (r & t & Q). rewrite Q. eexists _, _. reflexivity.
Qed.
End Scheme.
