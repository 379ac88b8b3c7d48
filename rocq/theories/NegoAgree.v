(* NegoAgree.v - proofs: two wolfSSH peers reading each other's KEXINIT. *)
From Verif Require Import Base WireModel WireSpec WireProofs NameTable NegoModel NegoSpec NegoProofs.
From Coq Require Import List NArith Lia Bool ZifyBool ZifyNat ZifyN.
Import ListNotations.
Open Scope N_scope.

(* ---- strings are read back as written -------------------------------- *)
Lemma string_at_unique : forall m len i s s', string_at m len i s -> string_at m len i s' -> s = s'.
Proof.
  intros m len i s s' ((_ & H1) & _ & H2) ((_ & H3) & _ & H4). rewrite <- H1 in H3. rewrite H2, H4, H3. reflexivity.
Qed.
Lemma strings_at_unique : forall m len i ss k, strings_at m len i ss k ->
  forall ss' k', length ss = length ss' -> strings_at m len i ss' k' -> ss = ss' /\ k = k'.
Proof.
  intros m len i ss k H. induction H as [i|i s ss k Hs Hr IH]; intros ss' k' HL H'.
  - destruct ss'; [|discriminate]. inversion H'. auto.
  - destruct ss' as [|s' ss']; [discriminate|]. inversion H' as [|? ? ? ? Hs' Hr']; subst.
    pose proof (string_at_unique _ _ _ _ _ Hs Hs') as ->.
    destruct (IH ss' k') as [-> ->]; auto.
Qed.
Lemma string_at_put : forall a s b, is32 (lenN s) ->
  string_at (a ++ PutString s ++ b) (lenN (a ++ PutString s ++ b)) (lenN a) s.
Proof.
  intros a s b Hs. unfold PutString. unfold string_at, uint32_at.
  assert (L4 : lenN (c32toa (lenN s)) = 4) by reflexivity.
  rewrite !lenN_app, L4. repeat split; try lia.
  - rewrite <- app_assoc. rewrite <- L4 at 1. rewrite slice_mid.
    symmetry. apply be_value_c32toa. assumption.
  - rewrite <- app_assoc, (app_assoc a). replace (lenN a + 4) with (lenN (a ++ c32toa (lenN s))) by (rewrite lenN_app; lia).
    rewrite slice_mid. reflexivity.
Qed.
Lemma strings_at_puts : forall ss a b, Forall (fun s => is32 (lenN s)) ss ->
  let m := a ++ concat (map PutString ss) ++ b in
  strings_at m (lenN m) (lenN a) ss (lenN (a ++ concat (map PutString ss))).
Proof.
  induction ss as [|s ss IH]; intros a b H m; inversion H as [|? ? H1 H2]; subst.
  - cbn. rewrite app_nil_r. apply strings_nil.
  - unfold m. cbn [map concat]. rewrite <- !app_assoc. apply strings_cons.
    + apply string_at_put; assumption.
    + specialize (IH (a ++ PutString s) b H2). cbv zeta in IH. rewrite <- !app_assoc in IH.
      replace (lenN a + 4 + lenN s) with (lenN (a ++ PutString s)); [exact IH|].
      unfold PutString. rewrite !lenN_app. cbn [c32toa]. change (lenN (c32toa (lenN s))) with 4. lia.
Qed.

(* ---- splitting -------------------------------------------------------- *)
Lemma split_app : forall a b, split_comma (a ++ 44 :: b) = split_comma a ++ split_comma b.
Proof.
  induction a as [|c a IH]; intros b; [reflexivity|]. cbn [split_comma app].
  destruct (c =? 44); [rewrite IH; reflexivity|]. rewrite IH.
  destruct (split_ne a) as (t & ts & ->). reflexivity.
Qed.
Lemma split_plain : forall n, ~ In 44 n -> split_comma n = [n].
Proof.
  induction n as [|c n IH]; intros H; [reflexivity|]. cbn [split_comma].
  destruct (N.eqb_spec c 44) as [->|_]; [exfalso; apply H; left; reflexivity|].
  rewrite IH; [reflexivity|]. intros X. apply H. right. assumption.
Qed.
Lemma until_empty_all : forall ts, Forall (fun t => t <> []) ts -> until_empty ts = ts.
Proof.
  induction ts as [|t ts IH]; intros H; [reflexivity|]. inversion H; subst.
  rewrite until_empty_cons by assumption. rewrite IH by assumption. reflexivity.
Qed.

(* ---- what a checked list consists of --------------------------------- *)
Definition okname (type : N) (n : bytes) : Prop :=
  n <> [] /\ (NameToId n = ID_UNKNOWN \/ snd (NameToIdType n) = type).

Lemma check_algo_spec : forall l type u first cur,
  check_algo type u first cur l = WS_SUCCESS ->
  let ts := pre1 cur (split_comma l) in
  Forall (okname type) (removelast ts) /\
  (last ts [] = [] \/ okname type (last ts [])) /\ (first = true -> cur = [] -> l = [] -> False).
Proof.
  induction l as [|c r IH]; intros type u first cur H ts; subst ts.
  - cbn [check_algo] in H. cbn [split_comma pre1 removelast last]. rewrite app_nil_r.
    split; [constructor|]. destruct (N.eqb_spec (lenN cur) 0) as [E|E].
    + assert (cur = []) as -> by (apply lenN_0; assumption). cbn [negb orb] in H.
      destruct first; [discriminate|]. split; [left; reflexivity|discriminate].
    + assert (Hne : cur <> []) by (intros ->; apply E; reflexivity).
      split; [right|intros _ X; contradiction].
      split; [assumption|]. unfold NameToId. destruct (NameToIdType cur) as [id ty]. cbn [fst snd].
      destruct (id =? ID_NONE); [discriminate|].
      destruct (N.eqb_spec id ID_UNKNOWN) as [Ei|Ei]; [left; assumption|]. cbn [negb] in H.
      destruct (N.eqb_spec ty type) as [Et|Et]; [right; assumption|discriminate].
  - cbn [check_algo] in H. unfold COMMA in H. destruct (N.eqb_spec c 44) as [->|Hc].
    + cbn [split_comma]. change (44 =? 44) with true. cbn [pre1]. rewrite app_nil_r.
      destruct (split_ne r) as (t & ts & Er).
      assert (Hp : pre1 [] (split_comma r) = split_comma r) by (rewrite Er; reflexivity).
      destruct (N.eqb_spec (lenN cur) 0) as [E|E]; [discriminate|].
      assert (Hne : cur <> []) by (intros ->; apply E; reflexivity).
      assert (K : exists u', check_algo type u' false [] r = WS_SUCCESS /\ okname type cur).
      { unfold okname, NameToId. destruct (NameToIdType cur) as [id ty]. cbn [fst snd].
        destruct (id =? ID_NONE); [discriminate|].
        destruct (N.eqb_spec id ID_UNKNOWN) as [Ei|Ei]; cbn [negb] in H; [exists u; repeat split; auto|].
        destruct (N.eqb_spec ty type) as [Et|Et]; [exists (u + 1); repeat split; auto|discriminate]. }
      destruct K as (u' & H' & Hk). specialize (IH _ _ _ _ H'). cbv zeta in IH. rewrite Hp in IH.
      destruct IH as (I1 & I2 & _). rewrite Er in *.
      split; [|split; [exact I2|discriminate]].
      change (removelast (cur :: t :: ts)) with (cur :: removelast (t :: ts)). constructor; assumption.
    + rewrite pre1_cons by assumption. specialize (IH _ _ _ _ H). cbv zeta in IH.
      destruct IH as (I1 & I2 & _). repeat split; try assumption. discriminate.
Qed.

Lemma checked_names : forall l type, CheckAlgoList l type = WS_SUCCESS ->
  Forall (okname type) (split_comma (strip_comma l)).
Proof.
  intros l type H. unfold CheckAlgoList in H. apply check_algo_spec in H. cbv zeta in H.
  destruct (split_ne l) as (t & ts & El).
  assert (Hp : pre1 [] (split_comma l) = split_comma l) by (rewrite El; reflexivity).
  rewrite Hp in H. clear t ts El Hp. destruct H as (H1 & H2 & H3).
  assert (Hl : l <> []) by (intros ->; apply H3; reflexivity). clear H3.
  unfold strip_comma.
  destruct (exists_last Hl) as (l' & c & ->). rewrite rev_unit. unfold COMMA.
  destruct (N.eqb_spec c 44) as [->|Hc].
  - rewrite rev_involutive. rewrite split_app in H1. cbn [split_comma] in H1.
    rewrite removelast_last in H1. assumption.
  - assert (Hne : split_comma (l' ++ [c]) <> []) by (destruct (split_ne (l' ++ [c])) as (t & ts & ->); discriminate).
    rewrite (app_removelast_last [] Hne) in *. set (ts := split_comma (l' ++ [c])) in *.
    apply Forall_app. rewrite removelast_last in H1. rewrite last_last in H2.
    split; [assumption|]. constructor; [|constructor].
    destruct H2 as [H2|H2]; [exfalso|assumption].
    (* a list not ending in a comma has a non-empty last element *)
    assert (X : forall q, last (split_comma (q ++ [c])) [] <> []).
    { induction q as [|x q IH]; cbn [app split_comma].
      - destruct (N.eqb_spec c 44); [contradiction|]. discriminate.
      - destruct (split_ne (q ++ [c])) as (t & us & E). rewrite E in *.
        destruct (x =? 44); [exact IH|]. destruct us; [|exact IH]. discriminate. }
    exact (X l' H2).
Qed.

(* names in the table: not empty, no comma *)
Lemma table_names_plain : forallb (fun n => negb (existsb (N.eqb 44) n) && negb (lenN n =? 0)) table_names = true.
Proof. vm_compute. reflexivity. Qed.
Definition ids_have_names : bool := forallb (fun i => knownb (IdToName i)) table_ids.
Lemma ids_have_names_ok : ids_have_names = true.
Proof. vm_compute. reflexivity. Qed.
Lemma IdToName_plain : forall i, In i table_ids -> ~ In 44 (IdToName i) /\ IdToName i <> [].
Proof.
  intros i Hi. assert (K : In (IdToName i) table_names).
  { apply known_in_table. pose proof ids_have_names_ok as H. unfold ids_have_names in H.
    rewrite forallb_forall in H. apply H. assumption. }
  pose proof table_names_plain as T. rewrite forallb_forall in T. specialize (T _ K).
  apply andb_true_iff in T. destruct T as [T1 T2]. split.
  - intros X. apply negb_true_iff in T1. apply Bool.not_true_iff_false in T1. apply T1.
    apply existsb_exists. exists 44. split; [assumption|reflexivity].
  - intros E. rewrite E in T2. discriminate.
Qed.
Lemma BuildNameList_split : forall ids, Forall (fun i => In i table_ids) ids -> ids <> [] ->
  split_comma (BuildNameList ids) = map IdToName ids.
Proof.
  induction ids as [|x ids IH]; intros H Hne; [contradiction|]. inversion H as [|? ? Hx Hr]; subst.
  destruct (IdToName_plain x Hx) as [P1 P2]. destruct ids as [|y ids].
  - cbn [BuildNameList map]. apply split_plain. assumption.
  - change (BuildNameList (x :: y :: ids)) with (IdToName x ++ 44 :: BuildNameList (y :: ids)).
    rewrite split_app, split_plain by assumption. rewrite IH by (assumption || discriminate). reflexivity.
Qed.
Lemma last_split_nonempty_strip : forall l, Forall (fun t => t <> []) (split_comma l) -> strip_comma l = l.
Proof.
  intros l H. unfold strip_comma. destruct l as [|a l0]; [reflexivity|].
  destruct (exists_last (l := a :: l0) ltac:(discriminate)) as (l' & c & E). rewrite E in *. clear a l0 E.
  rewrite rev_unit. unfold COMMA. destruct (N.eqb_spec c 44) as [->|Hc]; [|reflexivity].
  rewrite split_app in H. apply Forall_app in H. destruct H as [_ H]. cbn in H. inversion H. contradiction.
Qed.
Lemma names_of_key_server : forall ids, Forall (fun i => In i table_ids) ids ->
  names_of (strip_comma (BuildNameList ids)) = map IdToName ids.
Proof.
  intros ids H. destruct ids as [|x ids]; [reflexivity|].
  assert (S : split_comma (BuildNameList (x :: ids)) = map IdToName (x :: ids))
    by (apply BuildNameList_split; [assumption|discriminate]).
  assert (P : Forall (fun t : bytes => t <> []) (map IdToName (x :: ids))).
  { apply Forall_forall. intros n Hn. apply in_map_iff in Hn. destruct Hn as (i & <- & Hi).
    rewrite Forall_forall in H. apply IdToName_plain. apply H. assumption. }
  rewrite last_split_nonempty_strip by (rewrite S; assumption).
  unfold names_of. rewrite S. apply until_empty_all. assumption.
Qed.
Lemma names_of_key : forall sd c, pubkeys_ok c -> names_of (key_names sd c) = own_key sd c.
Proof.
  intros sd c H. unfold key_names, own_key. destruct sd, (a_key c); try reflexivity.
  apply names_of_key_server. assumption.
Qed.

(* ext-info-c / ext-info-s *)
Definition ext_name (sd : side) : bytes := tl (ext_suffix sd).
Lemma ext_suffix_eq : forall sd, ext_suffix sd = 44 :: ext_name sd.
Proof. destruct sd; reflexivity. Qed.
Lemma names_of_kex : forall sd c, CheckAlgoList (a_kex c) TYPE_KEX = WS_SUCCESS ->
  names_of (strip_comma (a_kex c) ++ ext_suffix sd) = own_kex c ++ [ext_name sd].
Proof.
  intros sd c H. apply checked_names in H. unfold own_kex, names_of. rewrite ext_suffix_eq, split_app.
  assert (P : Forall (fun t : bytes => t <> []) (split_comma (strip_comma (a_kex c)))).
  { eapply Forall_impl; [|exact H]. intros n (Hn & _). assumption. }
  rewrite (until_empty_all _ P). replace (split_comma (ext_name sd)) with [ext_name sd] by (destruct sd; reflexivity).
  apply until_empty_all. apply Forall_app. split; [assumption|]. constructor; [destruct sd; discriminate|constructor].
Qed.
Lemma ext_not_own : forall sd c, CheckAlgoList (a_kex c) TYPE_KEX = WS_SUCCESS -> ~ In (ext_name sd) (own_kex c).
Proof.
  intros sd c H. apply checked_names in H.
  assert (P : Forall (fun t : bytes => t <> []) (split_comma (strip_comma (a_kex c)))).
  { eapply Forall_impl; [|exact H]. intros n (Hn & _). assumption. }
  unfold own_kex, names_of. rewrite (until_empty_all _ P). intros X. rewrite Forall_forall in H.
  destruct (H _ X) as (_ & [E|E]); destruct sd; vm_compute in E; discriminate.
Qed.

Lemma first_common_snoc_l : forall A (c s : list A) e x, ~ In e s ->
  first_common (c ++ [e]) s x <-> first_common c s x.
Proof.
  intros A c s e x He. split.
  - intros (b & a & E & Hs & Hb).
    destruct (exists_last (l := x :: a) ltac:(discriminate)) as (a' & z & Ea). rewrite Ea, app_assoc in E.
    apply app_inj_tail in E. destruct E as [-> ->]. destruct a' as [|y a'].
    + cbn in Ea. injection Ea as -> ->. contradiction.
    + cbn in Ea. injection Ea as <- ->. exists b, a'. auto.
  - intros (b & a & -> & Hs & Hb). exists b, (a ++ [e]). rewrite <- app_assoc. auto.
Qed.
Lemma first_common_snoc_r : forall A (c s : list A) e x, ~ In e c ->
  first_common c (s ++ [e]) x <-> first_common c s x.
Proof.
  intros A c s e x He. split; intros (b & a & -> & Hs & Hb); exists b, a.
  - split; [reflexivity|]. split.
    + apply in_app_iff in Hs. destruct Hs as [Hs|[<-|[]]]; [assumption|]. exfalso. apply He. apply in_elt.
    + intros y Hy Hys. apply (Hb y Hy). apply in_app_iff. auto.
  - split; [reflexivity|]. split; [apply in_app_iff; auto|]. intros y Hy Hys.
    apply in_app_iff in Hys. destruct Hys as [Hys|[<-|[]]]; [exact (Hb y Hy Hys)|].
    apply He. apply in_app_iff. auto.
Qed.

(* ---- the ten lists of a wolfSSH KEXINIT ------------------------------- *)
Definition kexinit_lists (sd : side) (c : algocfg) : list bytes :=
  [strip_comma (a_kex c) ++ ext_suffix sd; key_names sd c;
   strip_comma (a_enc c); strip_comma (a_enc c); strip_comma (a_mac c); strip_comma (a_mac c);
   strip_comma cannedNoneNames; strip_comma cannedNoneNames; []; []].

Lemma kexinit_strings : forall sd c ck, lenN ck = 16 -> is32 (lenN (kexinit_payload sd c ck)) ->
  exists k, strings_at (kexinit_payload sd c ck) (lenN (kexinit_payload sd c ck)) 16 (kexinit_lists sd c) k.
Proof.
  intros sd c ck Hck H32.
  assert (E : kexinit_payload sd c ck = ck ++ concat (map PutString (kexinit_lists sd c)) ++ (PutBoolean 0 ++ PutUint32 0)).
  { unfold kexinit_payload, kexinit_lists. cbn [map concat]. rewrite <- !app_assoc. reflexivity. }
  assert (B : Forall (fun s => is32 (lenN s)) (kexinit_lists sd c)).
  { apply Forall_forall. intros s Hs. unfold is32 in *.
    apply in_split in Hs. destruct Hs as (a & b & Es). rewrite E, Es in H32.
    rewrite map_app, concat_app in H32. cbn [map concat] in H32. unfold PutString at 2 in H32.
    rewrite !lenN_app in H32. lia. }
  pose proof (strings_at_puts (kexinit_lists sd c) ck (PutBoolean 0 ++ PutUint32 0) B) as S.
  cbv zeta in S. rewrite <- E, Hck in S. eauto.
Qed.

(* ---- the two peers agree ---------------------------------------------- *)
Lemma dir_ok_eq : forall a b, dir_ok a -> dir_ok b -> d_enc a = d_enc b -> d_mac a = d_mac b -> a = b.
Proof. intros a b Ha Hb E1 E2. rewrite Ha, Hb, E1, E2. reflexivity. Qed.

Lemma list10_inj : forall (a1 a2 a3 a4 a5 a6 a7 a8 a9 a0 b1 b2 b3 b4 b5 b6 b7 b8 b9 b0 : bytes),
  [a1; a2; a3; a4; a5; a6; a7; a8; a9; a0] = [b1; b2; b3; b4; b5; b6; b7; b8; b9; b0] ->
  a1 = b1 /\ a2 = b2 /\ a3 = b3 /\ a4 = b4 /\ a5 = b5 /\ a6 = b6.
Proof. intros. injection H as -> -> -> -> -> -> _ _ _ _. repeat split. Qed.

Theorem peers_agree : forall cc cs ckc cks len32c len32s rc' rs jc js,
  cfg_ok Client cc -> cfg_ok Server cs ->
  CheckAlgoList (a_kex cc) TYPE_KEX = WS_SUCCESS -> CheckAlgoList (a_kex cs) TYPE_KEX = WS_SUCCESS ->
  let pc := kexinit_payload Client cc ckc in
  let ps := kexinit_payload Server cs cks in
  lenN ckc = 16 -> lenN cks = 16 -> bytes_ok pc -> bytes_ok ps ->
  lenN pc = len32c -> lenN ps = len32s -> is32 len32c -> is32 len32s ->
  DoKexInit Server cs pc len32c 0 = POk rs js ->
  DoKexInit Client cc ps len32s 0 = POk rc' jc ->
  n_kex rc' = n_kex rs /\ n_pubkey rc' = n_pubkey rs /\
  n_local rc' = n_peer rs /\ n_peer rc' = n_local rs.
Proof.
  intros cc cs ckc cks lc ls r1 r2 jc js Hc Hs Kc Ks pc ps Lc Ls Bc Bs Ec Es H32c H32s Ds Dc.
  apply DoKexInit_success in Ds; [|assumption|lia|assumption|reflexivity|assumption].
  apply DoKexInit_success in Dc; [|assumption|lia|assumption|reflexivity|assumption].
  destruct Ds as (kex & key & e1 & e2 & m1 & m2 & c1 & c2 & l1 & l2 & k & S & _ & _ & X1 & X2 & X3 & X4 & X5 & X6 & X7 & X8).
  destruct (kexinit_strings Client cc ckc Lc) as (k' & S').
  { fold pc. rewrite Ec. assumption. }
  fold pc in S'. rewrite Ec in S'.
  destruct (strings_at_unique _ _ _ _ _ S (kexinit_lists Client cc) k' eq_refl S') as [E _].
  apply list10_inj in E. destruct E as (-> & -> & -> & -> & -> & ->).
  destruct Dc as (kex & key & e1 & e2 & m1 & m2 & d1 & d2 & n1 & n2 & k2 & T & _ & _ & Y1 & Y2 & Y3 & Y4 & Y5 & Y6 & Y7 & Y8).
  destruct (kexinit_strings Server cs cks Ls) as (k2' & T').
  { fold ps. rewrite Es. assumption. }
  fold ps in T'. rewrite Es in T'.
  destruct (strings_at_unique _ _ _ _ _ T (kexinit_lists Server cs) k2' eq_refl T') as [E _].
  apply list10_inj in E. destruct E as (-> & -> & -> & -> & -> & ->).
  clear S S' T T'.
  cbn [client_first c2s_of s2c_of] in *.
  rewrite names_of_kex in X1, Y1 by assumption.
  rewrite names_of_key in X2, Y2 by (apply Hc || apply Hs).
  fold (own_enc cc) in X3, X4. fold (own_enc cs) in Y3, Y4.
  fold (own_mac cc) in X5, X6. fold (own_mac cs) in Y5, Y6.
  assert (U : forall A B n m, (exists x, first_common A B x /\ n = NameToId x) ->
             (exists x, first_common A B x /\ m = NameToId x) -> n = m).
  { intros A B n m (x & Hx & ->) (y & Hy & ->). f_equal. eapply first_common_unique; eassumption. }
  assert (Ee1 : d_enc (n_local r1) = d_enc (n_peer r2)) by (eapply U; eassumption).
  assert (Ee2 : d_enc (n_peer r1) = d_enc (n_local r2)) by (eapply U; eassumption).
  split; [|split; [|split]].
  - destruct X1 as (x & Hx & ->). destruct Y1 as (y & Hy & ->).
    apply first_common_snoc_l in Hx; [|apply ext_not_own; assumption].
    apply first_common_snoc_r in Hy; [|apply ext_not_own; assumption].
    f_equal. eapply first_common_unique; eassumption.
  - eapply U; eassumption.
  - apply dir_ok_eq; try assumption. rewrite <- Ee1 in X5.
    destruct (AeadModeForId (d_enc (n_local r1))); [congruence|eapply U; eassumption].
  - apply dir_ok_eq; try assumption. rewrite <- Ee2 in X6.
    destruct (AeadModeForId (d_enc (n_peer r1))); [congruence|eapply U; eassumption].
Qed.
