(* ScpProofs5.v - the state in which receiving starts, and the destination
   given in the command (C57, C58, C62). *)
From Coq Require Import String.
From Verif Require Import Base PathModel WireProofs NegoSpec ScpModel PathSpec PathProofs ScpSpec ScpProofs ScpProofs2 ScpProofs3 ScpProofs4.
From Coq Require Import List NArith ZArith Bool Lia.
Import ListNotations.
Open Scope N_scope.

(* ---------------------------------------------------------------- *)
(* The start                                                          *)

Definition probes (l : slog) : Prop := Forall (fun x => exists p, fst x = SProbe p) l.

Lemma probes_here : forall l, probes l -> here l = None.
Proof.
  induction l as [|[c r] l IH]; intros H; [reflexivity|]. inversion H as [|? ? (p & Hp) Hl]; subst. cbn [fst] in Hp. subst c.
  cbn [here]. exact (IH Hl).
Qed.

Lemma probes_live : forall l, probes l -> live l = None.
Proof.
  induction l as [|[c r] l IH]; intros H; [reflexivity|]. inversion H as [|? ? (p & Hp) Hl]; subst. cbn [fst] in Hp. subst c.
  cbn [live]. exact (IH Hl).
Qed.

Lemma probes_confined : forall base l, probes l -> confined base l /\ streams_ok l.
Proof.
  intros base. induction l as [|[c r] l IH]; intros H; [split; [apply confined_nil|apply streams_nil]|].
  inversion H as [|? ? (p & Hp) Hl]; subst. cbn [fst] in Hp. subst c. destruct (IH Hl) as [C S]. split.
  - apply confined_cons; [|exact C]. exact (probes_here l Hl).
  - apply streams_cons; [exact I|exact S].
Qed.

(* Nothing but the paths has been touched. *)
Definition fresh (k : sink) : Prop :=
  probes (k_log k) /\ k_st k = SCP_DONE /\ k_off k = 0 /\ k_size k = 0 /\ k_msg k = [] /\ k_fp k = None /\
  k_taken k = [] /\ k_out k = [] /\ k_mtime k = 0 /\ k_atime k = 0 /\ k_err k = None.

Lemma rename_fresh : forall k, fresh k -> fresh (snd (CheckForRename k)).
Proof.
  intros k F. unfold CheckForRename. destruct (_ <? _); [exact F|]. destruct (CleanPath _ _) as [buf|]; [|exact F].
  cbv zeta. set (idx := if (lenN buf =? 1) && (chr buf 0 =? SLASH) then lenN buf else lenN buf + 1).
  destruct (_ <? idx); [exact F|].
  destruct (k_cap k <=? lenN (dropN idx (k_base k))); cbv iota beta zeta;
    match goal with |- fresh (snd (if ?b then _ else _)) => destruct b end; exact F.
Qed.

Lemma helper_fresh : forall E k, fresh k -> fresh (snd (BasePathHelper E k)).
Proof.
  intros E k F. unfold BasePathHelper. pose proof (rename_fresh k F) as F1. destruct (CheckForRename k) as [r k1]. cbn [snd] in F1.
  destruct (rc_eqb r WS_SUCCESS); [|exact F1]. destruct (_ <=? _); [exact F1|]. unfold call.
  set (a := E _ _).
  assert (F2 : fresh (set_log ((SProbe (k_base k1), a) :: k_log k1) k1)).
  { destruct F1 as (P & F1). split; [|exact F1]. constructor; [exists (k_base k1); reflexivity|exact P]. }
  destruct (a =? 0)%Z; exact F2.
Qed.

Lemma opts_fresh : forall fuel E cmd idx m k, fresh k -> fresh (snd (parse_opts fuel E cmd idx m k)).
Proof.
  induction fuel as [|f IH]; intros E cmd idx m k F; [exact F|]. cbn [parse_opts].
  destruct (_ <? _); [|exact F]. destruct (_ && _ && _); [|apply IH; exact F]. cbv zeta.
  assert (G : forall x : rc * N * command * sink, fresh (snd x) ->
    fresh (snd (let '(r, idx0, m0, k0) := x in if rc_eqb r WS_SUCCESS then parse_opts f E cmd (idx0 + 1) m0 k0 else (r, m0, k0)))).
  { intros [[[r i] m'] k'] Fx. cbn [snd] in Fx. destruct (rc_eqb r WS_SUCCESS); [apply IH|]; exact Fx. }
  apply G. clear G. destruct (_ =? 114); [exact F|]. destruct (_ =? 112); [exact F|].
  destruct (_ =? 116).
  - destruct (_ <? _); [|exact F]. destruct (CleanPath _ _) as [p|]; [|exact F].
    pose proof (helper_fresh E (set_base p k) F) as F1. destruct (BasePathHelper E (set_base p k)) as [r k1]. exact F1.
  - destruct (_ =? 102); [|exact F]. destruct (_ <? _); [|exact F]. destruct (CleanPath _ _) as [p|]; exact F.
Qed.

Lemma sink0_fresh : fresh sink0.
Proof. repeat split. constructor. Qed.

(* [started k]: receiving is about to start *)
Definition started (k : sink) : Prop := k_st k = SINK_BEGIN /\ fresh (set_st SCP_DONE SCP_DONE k).

Lemma fresh_set_st : forall k s n, fresh k -> fresh (set_st SCP_DONE SCP_DONE (set_st s n k)).
Proof. intros k s n (P & _ & F). split; [exact P|]. split; [reflexivity|exact F]. Qed.

Lemma serve_started : forall E cmd k, serve E cmd = (WS_SUCCESS, k) -> started k.
Proof.
  intros E cmd k H. unfold serve, ParseScpCommand in H.
  pose proof (opts_fresh (S (Datatypes.length cmd)) E cmd 0 (mkCommand DIR_NONE false false false) sink0 sink0_fresh) as F.
  destruct (parse_opts _ E cmd 0 _ sink0) as [[r m] k1]. cbn [snd] in F.
  destruct (m_dir m) eqn:D; try rewrite D in H; try discriminate.
  - destruct (rc_eqb r WS_SUCCESS && negb (m_set m)); rewrite D in H; try discriminate.
    apply pair_equal_spec in H. destruct H as [Hr Hk]. rewrite Hr in Hk. cbn in Hk. rewrite <- Hk.
    split; [reflexivity|]. apply fresh_set_st. exact F.
  - destruct (rc_eqb r WS_SUCCESS && negb (m_set m)); rewrite D in H; discriminate.
Qed.

Lemma from_started : forall E dst k, SCP_from E dst = (WS_SUCCESS, k) -> started k.
Proof.
  intros E dst k H. unfold SCP_from in H. pose proof (helper_fresh E (set_base dst sink0) sink0_fresh) as F.
  destruct (BasePathHelper E (set_base dst sink0)) as [r k1]. cbn [snd] in F.
  apply pair_equal_spec in H. destruct H as [Hr Hk]. rewrite Hr in Hk. cbn in Hk. rewrite <- Hk.
  split; [reflexivity|]. apply fresh_set_st. exact F.
Qed.

Lemma started_Inv : forall k, started k -> good_name (k_name k) -> Inv (k_base k) k /\ Inv2 k.
Proof.
  intros k (S & P & _ & O & Z & _) G. cbn in P, O, Z. destruct (probes_confined (k_base k) _ P) as [C T]. split.
  - split; [repeat split; assumption|]. rewrite S. auto using probes_here, probes_live.
  - unfold Inv2. rewrite Z, S. split; [reflexivity|discriminate].
Qed.

Lemma started_InvS : forall k, started k -> InvS k /\ Inv2 k.
Proof.
  intros k (S & P & _ & O & Z & _). cbn in P, O, Z. destruct (probes_confined (k_base k) _ P) as [_ T]. split.
  - split; [exact T|]. rewrite S. split; [exact (probes_live _ P)|exact O].
  - unfold Inv2. rewrite Z, S. split; [reflexivity|discriminate].
Qed.

(* ---------------------------------------------------------------- *)
(* The destination                                                    *)

Lemma strncmp_nil : forall c, c <> [] -> ~ In 0 c -> strncmp0 (N.to_nat (lenN c)) [] c = false.
Proof.
  intros c Hn Hz. destruct c as [|x c]; [congruence|]. rewrite lenN_cons.
  replace (N.to_nat (1 + lenN c)) with (S (N.to_nat (lenN c))) by lia. cbn [strncmp0].
  destruct x; [destruct Hz; left; reflexivity|reflexivity].
Qed.

Lemma rename_split : forall k cs c, k_base k = path_of (cs ++ [c]) -> k_cap k = 0 ->
  Forall plain (cs ++ [c]) -> Forall (fun c => ~ In 0 c) (cs ++ [c]) -> ~ In 58 c ->
  lenN (path_of (cs ++ [c])) + 4 <= 1024 ->
  CheckForRename k = (WS_SUCCESS, set_base (fm cs ++ [47]) (set_name c (lenN c + 1) true k)).
Proof.
  intros k cs c B Cap F Z Hc L. rewrite path_of_fm in B, L by (destruct cs; discriminate).
  unfold CheckForRename. rewrite B. cbv zeta.
  destruct (N.ltb_spec SCP_MSG_SZ (lenN (fm (cs ++ [c])) + 4)) as [Q|_]; [unfold SCP_MSG_SZ in Q; lia|].
  change [SLASH; DOT; DOT] with [47; 46; 46]. rewrite clean_parent by (try assumption; unfold SCP_MSG_SZ; lia).
  set (idx := if (lenN (path_of cs) =? 1) && (chr (path_of cs) 0 =? SLASH) then lenN (path_of cs) else lenN (path_of cs) + 1).
  assert (Fc : Forall plain cs /\ plain c).
  { apply Forall_app in F. destruct F as [F1 F2]. inversion F2; subst. auto. }
  destruct Fc as [Fcs Pc]. assert (Pc' := Pc). destruct Pc' as (Pc1 & _ & _ & Pc2 & Pc3).
  assert (Zc : ~ In 0 c) by (apply Forall_app in Z; destruct Z as [_ Z]; inversion Z; assumption).
  assert (Ix : idx = lenN (fm cs) + 1).
  { unfold idx. destruct cs as [|d cs]; [reflexivity|]. rewrite path_of_fm by discriminate. set (r := d :: cs) in *.
    destruct (N.eqb_spec (lenN (fm r)) 1) as [K|_]; [|reflexivity]. exfalso. unfold r in K. cbn [flat_map] in K.
    inversion Fcs as [|? ? (Pd & _) _]; subst. destruct d; [congruence|]. rewrite lenN_app, !lenN_cons in K. lia. }
  clearbody idx. subst idx.
  assert (E : fm (cs ++ [c]) = (fm cs ++ [47]) ++ c) by (rewrite fm_last, <- app_assoc; reflexivity).
  assert (Ld : lenN (fm cs ++ [47]) = lenN (fm cs) + 1) by (rewrite lenN_app; reflexivity).
  rewrite E at 1. rewrite lenN_app, Ld.
  destruct (N.ltb_spec (lenN (fm cs) + 1 + lenN c) (lenN (fm cs) + 1)) as [Q|_]; [lia|].
  replace (dropN (lenN (fm cs) + 1) (fm (cs ++ [c]))) with c by (rewrite E; symmetry; apply dropN_app_exact; lia).
  replace (takeN (lenN (fm cs) + 1) (fm (cs ++ [c]))) with (fm cs ++ [47]) by (rewrite E; symmetry; apply takeN_app_exact; lia).
  rewrite Cap. destruct (N.leb_spec 0 (lenN c)) as [_|Q]; [|lia].
  destruct (exists_last Pc1) as (c0 & x & X).
  assert (Q : chr (fm (cs ++ [c])) (lenN (fm (cs ++ [c])) - 1) = x).
  { rewrite E, X, app_assoc. apply chr_last. }
  rewrite Q. assert (Ix : In x c) by (rewrite X; apply in_or_app; right; left; reflexivity).
  destruct (N.eqb_spec x SLASH) as [K|_]; [unfold SLASH in K; subst; contradiction|].
  destruct (N.eqb_spec x BSLASH) as [K|_]; [unfold BSLASH in K; subst; contradiction|].
  rewrite strncmp_nil by assumption. reflexivity.
Qed.

(* ---------------------------------------------------------------- *)
(* The command                                                        *)

(* no " -" at [i] or later *)
Definition quiet (cmd : bytes) (i : N) : Prop := forall j, i <= j -> ~ (chr cmd j = 32 /\ chr cmd (j + 1) = 45).

Lemma opts_quiet : forall fuel E cmd idx m k, quiet cmd idx -> parse_opts fuel E cmd idx m k = (WS_SUCCESS, m, k).
Proof.
  induction fuel as [|f IH]; intros E cmd idx m k Q; [reflexivity|]. cbn [parse_opts].
  destruct (_ <? _); [|reflexivity].
  destruct ((chr cmd idx =? SPACE) && (chr cmd (idx + 1) =? DASH) && _) eqn:A.
  - exfalso. apply andb_true_iff in A. destruct A as [A _]. apply andb_true_iff in A. destruct A as [A1 A2].
    apply N.eqb_eq in A1, A2. exact (Q idx (N.le_refl _) (conj A1 A2)).
  - apply IH. intros j Hj. apply Q. lia.
Qed.

Lemma opts_skip : forall f E cmd pre c rest m k, cmd = pre ++ c :: rest -> c <> 32 -> rest <> [] ->
  parse_opts (S f) E cmd (lenN pre) m k = parse_opts f E cmd (lenN (pre ++ [c])) m k.
Proof.
  intros f E cmd pre c rest m k C N1 N2. cbn [parse_opts]. rewrite lenN_app. change (lenN [c]) with 1.
  assert (L : lenN pre + 1 < lenN cmd).
  { rewrite C, lenN_app, lenN_cons. destruct rest; [congruence|]. rewrite lenN_cons. lia. }
  destruct (N.ltb_spec (lenN pre + 1) (lenN cmd)) as [_|Q]; [|lia].
  replace (chr cmd (lenN pre)) with c by (rewrite C; symmetry; apply chr_app; reflexivity).
  destruct (N.eqb_spec c SPACE) as [K|_]; [contradiction|]. reflexivity.
Qed.

(* the flags before -t *)
Definition flag (m : command) (c : N) : command :=
  if c =? 114 then mkCommand (m_dir m) true (m_time m) (m_set m)
  else if c =? 112 then mkCommand (m_dir m) (m_rec m) true (m_set m) else m.

Lemma opt_chars : forall cmd pre a b c rest, cmd = pre ++ a :: b :: c :: rest ->
  chr cmd (lenN pre) = a /\ chr cmd (lenN pre + 1) = b /\ chr cmd (lenN pre + 2) = c /\ lenN cmd = lenN pre + 3 + lenN rest.
Proof.
  intros cmd pre a b c rest ->. rewrite <- (N.add_0_r (lenN pre)) at 1. rewrite !chr_right, lenN_app, !lenN_cons.
  repeat split. lia.
Qed.

Lemma opts_flag : forall f E cmd pre c rest m k, cmd = pre ++ 32 :: 45 :: c :: rest -> c <> 116 -> c <> 102 ->
  parse_opts (S f) E cmd (lenN pre) m k = parse_opts f E cmd (lenN (pre ++ [32; 45; c])) (flag m c) k.
Proof.
  intros f E cmd pre c rest m k C N1 N2. destruct (opt_chars _ _ _ _ _ _ C) as (A & B & D & L). cbn [parse_opts].
  rewrite A, B. destruct (N.ltb_spec (lenN pre + 1) (lenN cmd)) as [_|Q]; [|lia].
  destruct (N.ltb_spec (lenN pre + 2) (lenN cmd)) as [_|Q]; [|lia].
  change ((32 =? SPACE) && (45 =? DASH) && true) with true. cbv iota zeta. rewrite D.
  replace (lenN (pre ++ [32; 45; c])) with (lenN pre + 2 + 1) by (rewrite lenN_app; change (lenN [32; 45; c]) with 3; lia).
  unfold flag. destruct (c =? 114); [reflexivity|]. destruct (c =? 112); [reflexivity|].
  destruct (N.eqb_spec c 116); [contradiction|]. destruct (N.eqb_spec c 102); [contradiction|]. reflexivity.
Qed.

Lemma opts_flags : forall E cmd fs f pre rest m k, cmd = pre ++ flat_map (fun c => [32; 45; c]) fs ++ rest ->
  Forall (fun c => c <> 116 /\ c <> 102) fs ->
  parse_opts (Datatypes.length fs + f) E cmd (lenN pre) m k =
  parse_opts f E cmd (lenN (pre ++ flat_map (fun c => [32; 45; c]) fs)) (fold_left flag fs m) k.
Proof.
  intros E cmd fs. induction fs as [|c fs IH]; intros f pre rest m k C F.
  - cbn. rewrite app_nil_r. reflexivity.
  - inversion F as [|? ? [F1 F2] F3]; subst. cbn [Datatypes.length plus fold_left]. cbn [flat_map] in *.
    set (cmd := pre ++ ([32; 45; c] ++ flat_map (fun c => [32; 45; c]) fs) ++ rest) in *.
    rewrite (opts_flag _ E cmd pre c (flat_map (fun c => [32; 45; c]) fs ++ rest)) by (auto; reflexivity).
    rewrite (IH f (pre ++ [32; 45; c]) rest) by (try assumption; unfold cmd; rewrite <- !app_assoc; reflexivity).
    rewrite <- !app_assoc. reflexivity.
Qed.

Lemma flag_dir : forall fs m, m_dir (fold_left flag fs m) = m_dir m /\ m_set (fold_left flag fs m) = m_set m.
Proof.
  induction fs as [|c fs IH]; intros m; [auto|]. cbn [fold_left]. destruct (IH (flag m c)) as [A B]. rewrite A, B.
  unfold flag. destruct (c =? 114); [auto|]. destruct (c =? 112); auto.
Qed.

(* "scp", the flags, "-t" and the destination *)
Definition scp_to (fs dst : bytes) : bytes :=
  [115; 99; 112] ++ flat_map (fun c => [32; 45; c]) fs ++ [32; 45; 116; 32] ++ dst.

Lemma command_to : forall E fs dst p k, dst <> [] -> quiet dst 0 -> Forall (fun c => c <> 116 /\ c <> 102) fs ->
  CleanPath dst (lenN (scp_to fs dst) + MAX_FILENAME) = Some p ->
  exists m, ParseScpCommand E (scp_to fs dst) k =
    (let (r, k1) := BasePathHelper E (set_base p k) in (r, m, k1)) /\ m_dir m = DIR_TO.
Proof.
  intros E fs dst p k Nd Q F C. unfold ParseScpCommand. set (cmd := scp_to fs dst) in *.
  set (m0 := mkCommand DIR_NONE false false false).
  set (fl := flat_map (fun c => [32; 45; c]) fs) in *.
  assert (Lf : lenN fl = 3 * lenN fs).
  { unfold fl. clear. induction fs as [|c fs IH]; [reflexivity|]. cbn [flat_map]. rewrite lenN_app, IH.
    change (lenN [32; 45; c]) with 3. rewrite lenN_cons. lia. }
  assert (Lc : lenN cmd = 7 + lenN fl + lenN dst).
  { unfold cmd, scp_to. fold fl. rewrite !lenN_app. change (lenN [115; 99; 112]) with 3.
    change (lenN [32; 45; 116; 32]) with 4. lia. }
  assert (Fu : exists g, S (Datatypes.length cmd) = (3 + (Datatypes.length fs + S g))%nat).
  { exists (S (Datatypes.length cmd) - (3 + (Datatypes.length fs + 1)))%nat.
    clear - Lf Lc. clearbody cmd fl. unfold lenN in *. lia. }
  destruct Fu as (g & Fu). rewrite Fu. cbn [plus].
  set (tl := fl ++ [32; 45; 116; 32] ++ dst).
  assert (Nt : tl <> []) by (unfold tl; destruct fl; discriminate).
  assert (St : parse_opts (S (S (S (Datatypes.length fs + S g)))) E cmd 0 m0 k =
    parse_opts (Datatypes.length fs + S g) E cmd (lenN [115; 99; 112]) m0 k).
  { change 0 with (lenN (@nil N)).
    rewrite (opts_skip _ E cmd [] 115 (99 :: 112 :: tl)) by (discriminate || reflexivity).
    rewrite (opts_skip _ E cmd ([] ++ [115]) 99 (112 :: tl)) by (discriminate || reflexivity).
    rewrite (opts_skip _ E cmd (([] ++ [115]) ++ [99]) 112 tl) by (assumption || discriminate || reflexivity). reflexivity. }
  rewrite St.
  assert (Sf : parse_opts (Datatypes.length fs + S g) E cmd (lenN [115; 99; 112]) m0 k =
    parse_opts (S g) E cmd (lenN ([115; 99; 112] ++ fl)) (fold_left flag fs m0) k).
  { exact (opts_flags E cmd fs (S g) [115; 99; 112] ([32; 45; 116; 32] ++ dst) m0 k eq_refl F). }
  rewrite Sf.
  set (m1 := fold_left flag fs m0). set (pre := [115; 99; 112] ++ fl).
  assert (Cc : cmd = pre ++ 32 :: 45 :: 116 :: 32 :: dst) by (unfold cmd, scp_to, pre; fold fl; rewrite <- app_assoc; reflexivity).
  destruct (opt_chars cmd pre 32 45 116 (32 :: dst) Cc) as (A & B & D & L). rewrite lenN_cons in L.
  assert (Ld : 1 <= lenN dst) by (destruct dst; [congruence|]; rewrite lenN_cons; lia).
  assert (Dr : dropN (lenN pre + 2 + 2) cmd = dst).
  { rewrite Cc. change (pre ++ 32 :: 45 :: 116 :: 32 :: dst) with (pre ++ [32; 45; 116; 32] ++ dst). rewrite app_assoc.
    apply dropN_app_exact. rewrite lenN_app. change (lenN [32; 45; 116; 32]) with 4. lia. }
  cbn [parse_opts]. rewrite A, B. destruct (N.ltb_spec (lenN pre + 1) (lenN cmd)) as [_|Z]; [|lia].
  destruct (N.ltb_spec (lenN pre + 2) (lenN cmd)) as [_|Z]; [|lia].
  change ((32 =? SPACE) && (45 =? DASH) && true) with true. cbv iota zeta. rewrite D.
  change (116 =? 114) with false. change (116 =? 112) with false. change (116 =? 116) with true. cbv iota.
  destruct (N.ltb_spec (lenN pre + 2 + 2) (lenN cmd)) as [_|Z]; [|lia]. rewrite Dr, C. cbv iota.
  destruct (BasePathHelper E (set_base p k)) as [r k1].
  exists (mkCommand DIR_TO (m_rec m1) (m_time m1) true). split; [|reflexivity]. cbv iota beta.
  destruct (rc_eqb r WS_SUCCESS) eqn:R.
  - rewrite opts_quiet.
    + cbn [m_dir m_set]. change (rc_eqb WS_SUCCESS WS_SUCCESS && negb true) with false. cbv iota.
      apply rc_eqb_eq in R. subst r. reflexivity.
    + intros j Hj [J1 J2]. rewrite Cc in J1, J2. change (pre ++ 32 :: 45 :: 116 :: 32 :: dst) with (pre ++ [32; 45; 116; 32] ++ dst) in J1, J2.
      rewrite app_assoc in J1, J2.
      assert (Lp : lenN (pre ++ [32; 45; 116; 32]) = lenN pre + 4) by (rewrite lenN_app; reflexivity).
      replace j with (lenN (pre ++ [32; 45; 116; 32]) + (j - lenN pre - 4)) in J1 by lia.
      replace (j + 1) with (lenN (pre ++ [32; 45; 116; 32]) + (j - lenN pre - 4 + 1)) in J2 by lia.
      rewrite chr_right in J1, J2. exact (Q _ (N.le_0_l _) (conj J1 J2)).
  - cbn [m_dir m_set]. rewrite R. reflexivity.
Qed.

Lemma serve_to : forall E fs cs c, Forall plain (cs ++ [c]) -> Forall (fun c => ~ In 0 c) (cs ++ [c]) -> ~ In 58 c ->
  lenN (path_of (cs ++ [c])) + 4 <= 1024 -> quiet (path_of (cs ++ [c])) 0 -> Forall (fun c => c <> 116 /\ c <> 102) fs ->
  serve E (scp_to fs (path_of (cs ++ [c]))) =
  (let d := fm cs ++ [47] in let r := E [] (SProbe d) in
   let k := set_log [(SProbe d, r)] (set_base d (set_name c (lenN c + 1) true sink0)) in
   if (r =? 0)%Z then (WS_SUCCESS, set_st SINK_BEGIN SCP_DONE k) else (WS_FATAL_ERROR, k)).
Proof.
  intros E fs cs c F Z Hc L Q Fl. set (dst := path_of (cs ++ [c])) in *.
  assert (Ed : dst = fm (cs ++ [c])) by (apply path_of_fm; destruct cs; discriminate).
  assert (Nd : dst <> []) by (rewrite Ed, fm_last; destruct (fm cs); discriminate).
  assert (C : CleanPath dst (lenN (scp_to fs dst) + MAX_FILENAME) = Some dst).
  { rewrite Ed. apply clean_fm; try assumption; [destruct cs; discriminate|]. unfold scp_to. rewrite !lenN_app.
    change (lenN [115; 99; 112]) with 3. lia. }
  destruct (command_to E fs dst dst sink0 Nd Q Fl C) as (m & P & D). unfold serve. rewrite P.
  unfold BasePathHelper. rewrite (rename_split (set_base dst sink0) cs c) by (assumption || reflexivity). cbn [fst snd].
  change (rc_eqb WS_SUCCESS WS_SUCCESS) with true. cbv iota. set (d := fm cs ++ [47]).
  cbn [k_base set_base set_name].
  assert (Ll : lenN d < 1024).
  { unfold d. rewrite Ed, fm_last, lenN_app, lenN_cons in L. rewrite lenN_app. change (lenN [47]) with 1. lia. }
  destruct (N.leb_spec SCP_MSG_SZ (lenN d)) as [K|_]; [unfold SCP_MSG_SZ in K; lia|].
  unfold call. cbn [k_log set_base set_name sink0]. set (r := E [] (SProbe d)). cbv zeta.
  destruct (r =? 0)%Z; cbv iota beta; rewrite D; reflexivity.
Qed.
