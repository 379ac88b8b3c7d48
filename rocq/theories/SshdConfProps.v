(* SshdConfProps.v - C66 and C67: the configuration file of the daemon. *)
From Coq Require Import List NArith ZArith Lia Bool String.
From Verif Require Import Base NegoSpec SshdConfModel SshdConfSpec SshdConfProofs SshdConfProofs2 SshdConfProofs3 SshdConfProofs4 SshdConfProofs5 SshdConfProofs6.
Import ListNotations.
Open Scope N_scope.

Definition nl : bytes := [10].
Definition line (s : string) : bytes := ascii s ++ nl.
Definition one_file (s : bytes) : disk := Disk (fun f => if bytes_eqb f (ascii "conf") then Some s else None) (fun _ => None).

Lemma not_in : forall c s, existsb (N.eqb c) s = false -> ~ In c s.
Proof. intros c s E H. assert (existsb (N.eqb c) s = true) by (apply existsb_exists; exists c; split; [exact H|apply N.eqb_refl]). congruence. Qed.
Ltac ord :=
  split; [apply not_in; vm_compute; reflexivity|
    match goal with |- Forall _ (lines ?s) => let l := eval vm_compute in (lines s) in change (lines s) with l end;
    repeat (apply Forall_cons; [split; [vm_compute; discriminate|vm_compute; tauto]|]); apply Forall_nil].

(* ----- C66: the text governs ----- *)

(* Full statement: whatever the text, once the daemon has loaded it every user
   is governed by what it says. *)
Definition C66_full : Prop := forall D f s ns u gs,
  d_read D f = Some s -> load_config D f = COk ns -> settings (user_conf ns (Some u) gs) (governing s u gs).

(* A comment of more than 158 bytes: its end is read as a line of its own. *)
Definition long_comment : bytes := 35 :: repeat 45 158 ++ line "PermitRootLogin yes".
Theorem C66_refuted : ~ C66_full.
Proof.
  intros F. assert (E : exists ns, load_config (one_file long_comment) (ascii "conf") = COk ns /\ cf_root (user_conf ns (Some (ascii "bob")) []) = ROOT_YES).
  { eexists. split; [vm_compute; reflexivity|]. vm_compute. reflexivity. }
  destruct E as (ns & L & R).
  specialize (F (one_file long_comment) (ascii "conf") long_comment ns (ascii "bob") [] eq_refl L).
  apply st_root in F. rewrite R in F. vm_compute in F. discriminate F.
Qed.

(* A keyword the daemon does not know, but which starts with one it knows: it
   is neither refused nor ignored. *)
Theorem C66_prefix_refuted : ~ (forall D f s ns u gs,
  d_read D f = Some s -> Forall (fun l => lenN l <= 158) (lines s) -> load_config D f = COk ns -> settings (user_conf ns (Some u) gs) (governing s u gs)).
Proof.
  intros F. set (s := line "HostKeyAlgorithms rsa-sha2-256").
  assert (E : exists ns, load_config (one_file s) (ascii "conf") = COk ns /\ cf_hostkey (user_conf ns (Some (ascii "bob")) []) = Some (ascii "Algorithms")).
  { eexists. split; [vm_compute; reflexivity|]. vm_compute. reflexivity. }
  destruct E as (ns & L & R).
  specialize (F (one_file s) (ascii "conf") s ns (ascii "bob") [] eq_refl).
  specialize (F ltac:(vm_compute; repeat constructor; discriminate) L).
  apply st_hostkey in F. rewrite R in F. vm_compute in F. discriminate F.
Qed.

(* Ordinary files: short lines, each blank, a comment, or headed by a keyword
   of the manual other than Include. *)
Theorem C66_settings_partial : forall D f s ns u gs,
  d_read D f = Some s -> ordinary s -> load_config D f = COk ns -> settings (user_conf ns (Some u) gs) (governing s u gs).
Proof. intros D f s ns u gs R O L. exact (proj1 (load_ordinary D f s ns R O L) u gs). Qed.

(* A wrong value, or a Match line with anything but User and Group and their
   names, and the daemon does not start. *)
Theorem C66_refused : forall D f s ns,
  d_read D f = Some s -> ordinary s -> load_config D f = COk ns ->
  forall i, In i (items s) -> match i with IDir d => proper d | IMatch ws => criteria_ok ws end.
Proof.
  intros D f s ns R O L i Hi. pose proof (proj2 (load_ordinary D f s ns R O L)) as A. unfold all_proper in A. rewrite Forall_forall in A. exact (A i Hi).
Qed.

(* And every file of that kind with proper values is loaded. *)
Theorem C66_loads : forall D f s, d_read D f = Some s -> plain_file s -> exists ns, load_config D f = COk ns.
Proof. exact load_plain. Qed.

(* A line that is not a comment and starts with no known keyword is refused,
   in any file. *)
Theorem C66_unknown : forall D k ps p t ns cur r,
  Forall (fun o => prefixb (snd o) (snd (span blank (cstr p))) = false) options ->
  2 < lenN (snd (span blank (cstr p))) -> prefixb [35] (snd (span blank (cstr p))) = false ->
  load_lines D (config_load D k) (ps ++ p :: t) ns cur <> COk r.
Proof.
  intros D k ps p t ns cur r U L2 C. revert ns cur. induction ps as [|q ps IH]; intros ns cur; cbn [app load_lines]; cbv zeta.
  - destruct (N.leb_spec (lenN (snd (span blank (cstr p)))) 2); [lia|]. rewrite C.
    unfold parse_line. replace (find (fun o => prefixb (snd o) (snd (span blank (cstr p)))) options) with (@None (opt * bytes)); [discriminate|].
    symmetry. clear -U. generalize dependent options. intros os U. induction U as [|o os E U IH]; [reflexivity|]. cbn [find]. rewrite E. exact IH.
  - destruct (lenN (snd (span blank (cstr q))) <=? 2); [apply IH|]. destruct (prefixb [35] (snd (span blank (cstr q)))); [apply IH|].
    destruct (parse_line D (config_load D k) (snd (span blank (cstr q))) ns cur); [apply IH|discriminate|discriminate].
Qed.

(* Not vacuous: a file with a comment, global directives, and two blocks. *)
Definition sample : bytes :=
  line "# the daemon" ++ line "Port 2222" ++ line "PermitRootLogin no" ++ nl ++ line "  PasswordAuthentication no" ++
  line "LoginGraceTime 2m" ++ line "AuthorizedKeysFile .ssh/keys" ++
  line "Match User alice Group staff" ++ line "  PasswordAuthentication yes" ++ line "  ForceCommand /bin/echo hi there" ++
  line "Match Group staff" ++ line "PermitRootLogin prohibit-password" ++ line "PermitRootLogin forced-commands-only".
Example C66_sample_plain : plain_file sample.
Proof.
  split; [ord|split].
  - intros c H. repeat split; intros ->; revert H; apply not_in; vm_compute; reflexivity.
  - match goal with |- Forall _ (items ?s) => let l := eval vm_compute in (items s) in change (items s) with l end.
    repeat (apply Forall_cons; [|]); try apply Forall_nil; unfold acceptable, proper, criteria_ok; cbn [d_key d_word];
    repeat split; try (intros K; exfalso; revert K; vm_compute; intuition discriminate); try discriminate;
    try (intros _; eexists; eexists; repeat split; vm_compute; first [reflexivity|discriminate]);
    try (intros _; eexists; split; [reflexivity|]; vm_compute; tauto); try (intros _; eexists; reflexivity);
    vm_compute; tauto.
Qed.
Example C66_sample_governs : exists ns, load_config (one_file sample) (ascii "conf") = COk ns /\
  let alice := user_conf ns (Some (ascii "alice")) [ascii "staff"] in
  let bob := user_conf ns (Some (ascii "bob")) [ascii "users"; ascii "staff"] in
  let eve := user_conf ns (Some (ascii "eve")) [ascii "users"] in
  cf_pw alice = true /\ cf_cmd alice = Some (ascii "/bin/echo hi there") /\ cf_root alice = ROOT_NO /\
  cf_pw bob = false /\ cf_cmd bob = None /\ cf_root bob = ROOT_FORCED_CMD /\
  cf_pw eve = false /\ cf_root eve = ROOT_NO /\ cf_port eve = 2222 /\ cf_grace eve = 120%Z.
Proof. eexists. split; [vm_compute; reflexivity|]. vm_compute. repeat split. Qed.
Example C66_unknown_sample : load_config (one_file (line "Port 22" ++ line "PermitTunnel yes")) (ascii "conf") = CErr.
Proof. vm_compute. reflexivity. Qed.
Example C66_match_refused : load_config (one_file (line "Match User alice Address 10.0.0.0/8")) (ascii "conf") = CErr /\
  load_config (one_file (line "Match all")) (ascii "conf") = CErr /\ load_config (one_file (line "Match User")) (ascii "conf") = CErr.
Proof. vm_compute. repeat split. Qed.

(* ----- C67: Include ----- *)

(* Files that include one another in a circle are never loaded. *)
Theorem C67_circle : forall D fs f ns, circle D fs -> Forall simple_name fs -> In f fs -> load_config D f <> COk ns.
Proof. intros D fs f ns C S I. exact (circle_never_loads D fs C S MAX_INCLUDE_DEPTH f O [conf_new] ns I). Qed.

(* Full statement for an Include at the head of a file: the directives of the
   included file come first, its Match blocks stay blocks, and what follows the
   Include outside of a Match block is global: it governs every user, unless a
   block that applies says otherwise. *)
Definition C67_full : Prop := forall D f g sg t ns u gs,
  d_read D f = Some (ascii "Include " ++ g ++ 10 :: t) -> d_read D g = Some sg -> simple_name g -> lenN g <= 150 -> ~ In 0 g ->
  ordinary sg -> ordinary t -> snd (sections (items t)) = [] -> load_config D f = COk ns ->
  settings (user_conf ns (Some u) gs)
    (fst (sections (items sg)) ++ fst (sections (items t)) ++
     match find (fun b => applies u gs (fst b)) (snd (sections (items sg))) with Some b => snd b | None => [] end).

Definition two_files (a b : bytes) : disk :=
  Disk (fun f => if bytes_eqb f (ascii "conf") then Some a else if bytes_eqb f (ascii "more") then Some b else None) (fun _ => None).
Definition main_text : bytes := ascii "Include " ++ ascii "more" ++ 10 :: line "PasswordAuthentication no".
Definition more_text : bytes := line "Match User bob" ++ line "X11Forwarding no".
Theorem C67_refuted : ~ C67_full.
Proof.
  intros F.
  assert (E : exists ns, load_config (two_files main_text more_text) (ascii "conf") = COk ns /\ cf_pw (user_conf ns (Some (ascii "bob")) []) = true).
  { eexists. split; [vm_compute; reflexivity|]. vm_compute. reflexivity. }
  destruct E as (ns & L & R).
  specialize (F (two_files main_text more_text) (ascii "conf") (ascii "more") more_text (line "PasswordAuthentication no") ns (ascii "bob") [] eq_refl eq_refl).
  assert (S : simple_name (ascii "more")) by (split; [discriminate|repeat constructor; discriminate]).
  specialize (F S ltac:(vm_compute; discriminate) ltac:(vm_compute; intuition discriminate)).
  assert (O1 : ordinary more_text) by ord.
  assert (O2 : ordinary (line "PasswordAuthentication no")) by ord.
  specialize (F O1 O2 eq_refl L). apply st_pw in F. rewrite R in F. vm_compute in F. discriminate F.
Qed.

(* Proved when the included file has no Match blocks; what follows may have. *)
Theorem C67_include_partial : forall D f g sg t ns u gs,
  d_read D f = Some (ascii "Include " ++ g ++ 10 :: t) -> d_read D g = Some sg -> simple_name g -> lenN g <= 150 -> ~ In 0 g ->
  ordinary sg -> snd (sections (items sg)) = [] -> ordinary t -> load_config D f = COk ns ->
  settings (user_conf ns (Some u) gs) (fst (sections (items sg)) ++ governing t u gs).
Proof. intros. eapply load_include_first; eassumption. Qed.

(* An Include by name anywhere in a file, also inside of a Match block: the
   included text stands in its place, and what follows stays in the block it is
   in. Missing: an included file with Match blocks (see C67_refuted), with an
   Include of its own, or whose last line has no newline. *)
Definition whole_lines (s : bytes) : Prop := s = [] \/ exists m, s = m ++ [10].
Theorem C67_in_place_partial : forall D f g s1 sg t ns u gs,
  d_read D f = Some (s1 ++ ascii "Include " ++ g ++ 10 :: t) -> d_read D g = Some sg -> simple_name g -> lenN g <= 150 -> ~ In 0 g ->
  ordinary s1 -> whole_lines s1 -> ordinary sg -> whole_lines sg -> snd (sections (items sg)) = [] -> ordinary t -> load_config D f = COk ns ->
  settings (user_conf ns (Some u) gs) (governing (s1 ++ sg ++ t) u gs).
Proof.
  intros D f g s1 sg t ns u gs RF RG SG LG NG O1 W1 OG WG NB OT H.
  set (D' := Disk (fun x => if bytes_eqb x f then Some (s1 ++ sg ++ t) else None) (fun _ => None)).
  assert (RF' : d_read D' f = Some (s1 ++ sg ++ t)) by (cbn [D' d_read]; now rewrite bytes_eqb_refl).
  rewrite (include_in_place D D' f g s1 sg t RF RG SG LG NG O1 W1 OG WG NB OT RF') in H.
  destruct (ordinary_app sg t OG OT WG) as (O2 & _ & _). destruct (ordinary_app s1 (sg ++ t) O1 O2 W1) as (O3 & _ & _).
  exact (C66_settings_partial D' f _ ns u gs RF' O3 H).
Qed.
(* And it loads when the text with the included file in its place would. *)
Theorem C67_in_place_loads_partial : forall D f g s1 sg t,
  d_read D f = Some (s1 ++ ascii "Include " ++ g ++ 10 :: t) -> d_read D g = Some sg -> simple_name g -> lenN g <= 150 -> ~ In 0 g ->
  whole_lines s1 -> plain_file s1 -> whole_lines sg -> plain_file sg -> snd (sections (items sg)) = [] -> plain_file t ->
  exists ns, load_config D f = COk ns.
Proof.
  intros D f g s1 sg t RF RG SG LG NG W1 (O1 & C1 & P1) WG (OG & CG & PG) NB (OT & CT & PT).
  set (D' := Disk (fun x => if bytes_eqb x f then Some (s1 ++ sg ++ t) else None) (fun _ => None)).
  assert (RF' : d_read D' f = Some (s1 ++ sg ++ t)) by (cbn [D' d_read]; now rewrite bytes_eqb_refl).
  rewrite (include_in_place D D' f g s1 sg t RF RG SG LG NG O1 W1 OG WG NB OT RF').
  destruct (ordinary_app sg t OG OT WG) as (O2 & L2 & _). destruct (ordinary_app s1 (sg ++ t) O1 O2 W1) as (O3 & L3 & _).
  apply (C66_loads D' f _ RF'). split; [exact O3|split].
  - intros c I. apply in_app_or in I. destruct I as [I|I]; [exact (C1 c I)|]. apply in_app_or in I. destruct I as [I|I]; [exact (CG c I)|exact (CT c I)].
  - unfold items in *. rewrite L3, L2, !flat_map_app. apply Forall_app. split; [exact P1|apply Forall_app; split; assumption].
Qed.

(* Include with a pattern. Full statement: the files that the pattern stands
   for are read in string order, as if they stood there. *)
Definition C67_pattern_full : Prop := forall D f dir pre post es names texts t ns u gs,
  d_read D f = Some (ascii "Include " ++ pattern dir pre post ++ 10 :: t) -> lenN (pattern dir pre post) <= 150 ->
  dir <> [] -> simple_name dir -> ~ In 0 dir -> simple_part pre -> simple_part post ->
  d_list D dir = Some es -> NoDup (map fst es) -> selected pre post es names -> texts_of D dir names texts ->
  ordinary t -> load_config D f = COk ns ->
  settings (user_conf ns (Some u) gs) (flat_map (fun s => fst (sections (items s))) texts ++ governing t u gs).
Definition wild (main a : bytes) (es : list (bytes * bool)) : disk :=
  Disk (fun f => if bytes_eqb f (ascii "conf") then Some main else if bytes_eqb f (ascii "d/a.") then Some a
                 else if bytes_eqb f (ascii "d/ab") then Some (line "PasswordAuthentication yes") else None)
       (fun d => if bytes_eqb d (ascii "d") then Some es else None).
Definition wild_text : bytes := ascii "Include " ++ pattern (ascii "d") (ascii "a.") [] ++ 10 :: line "Port 2022".
(* a file whose name is just the pattern without its star is left out *)
Theorem C67_pattern_refuted : ~ C67_pattern_full.
Proof.
  intros F.
  set (D := wild wild_text (line "PasswordAuthentication no") [(ascii "a.", false)]).
  assert (E : exists ns, load_config D (ascii "conf") = COk ns /\ cf_pw (user_conf ns (Some (ascii "bob")) []) = true).
  { eexists. split; [vm_compute; reflexivity|]. vm_compute. reflexivity. }
  destruct E as (ns & L & R).
  specialize (F D (ascii "conf") (ascii "d") (ascii "a.") [] [(ascii "a.", false)] [ascii "a."] [line "PasswordAuthentication no"] (line "Port 2022") ns (ascii "bob") [] eq_refl).
  assert (X : settings (user_conf ns (Some (ascii "bob")) []) (flat_map (fun s => fst (sections (items s))) [line "PasswordAuthentication no"] ++ governing (line "Port 2022") (ascii "bob") [])).
  { apply F.
    - vm_compute. discriminate.
    - discriminate.
    - split; [discriminate|repeat constructor; discriminate].
    - vm_compute. intuition discriminate.
    - repeat constructor; discriminate.
    - constructor.
    - reflexivity.
    - repeat constructor. intros [].
    - split; [constructor; [intros ? []|constructor]|]. intro n. cbn [In]. split.
      + intros [<-|[]]. split; [left; reflexivity|]. exists []. reflexivity.
      + intros [[H|[]] _]. left. congruence.
    - constructor; [|constructor]. split; [reflexivity|]. split; [ord|reflexivity].
    - ord.
    - exact L. }
  apply st_pw in X. rewrite R in X. vm_compute in X. discriminate X.
Qed.
(* Missing in the proved part: names no longer than the pattern's parts, which
   must not begin and end like them. *)
Theorem C67_pattern_partial : forall D f dir pre post es names texts t ns u gs,
  d_read D f = Some (ascii "Include " ++ pattern dir pre post ++ 10 :: t) -> lenN (pattern dir pre post) <= 150 ->
  dir <> [] -> simple_name dir -> ~ In 0 dir -> simple_part pre -> simple_part post ->
  d_list D dir = Some es -> NoDup (map fst es) -> selected pre post es names -> texts_of D dir names texts ->
  (forall n, In (n, false) es -> lenN n <= lenN pre + lenN post -> ~ ((exists r, n = pre ++ r) /\ (exists r, n = r ++ post))) ->
  ordinary t -> load_config D f = COk ns ->
  settings (user_conf ns (Some u) gs) (flat_map (fun s => fst (sections (items s))) texts ++ governing t u gs).
Proof.
  intros D f dir pre post es names texts t ns u gs RF LG ND SD ZD PR PO LD NDU SEL TX EDGE OT H.
  unfold load_config in H. change MAX_INCLUDE_DEPTH with (Datatypes.S (Datatypes.S 14)) in H.
  rewrite (load_first_line D f (pattern dir pre post) t 15 [conf_new] 0 RF) in H.
  - rewrite (include_pattern D _ dir pre post [conf_new] ND PR PO), LD, (matches_selected pre post es names NDU EDGE SEL) in H.
    destruct (load_all (config_load D 15 0) dir names [conf_new]) as [x| |] eqn:E; try discriminate.
    destruct (load_all_no_blocks D 14 dir names texts conf_new [] x TX head_new E) as (h' & -> & HO).
    exact (after_head D _ t h' _ ns u gs OT HO H).
  - unfold pattern. destruct dir; discriminate.
  - apply pattern_chars; [reflexivity|reflexivity| | |]; (eapply Forall_impl; [|first [exact (proj2 SD)|exact PR|exact PO]]); cbn; tauto.
  - exact LG.
  - intro I. assert (Q : Forall (fun c => c <> 0) (pattern dir pre post)).
    { apply pattern_chars; [discriminate|discriminate| | |].
      - apply Forall_forall. intros c C ->. exact (ZD C).
      - eapply Forall_impl; [|exact PR]. cbn. tauto.
      - eapply Forall_impl; [|exact PO]. cbn. tauto. }
    rewrite Forall_forall in Q. exact (Q 0 I eq_refl).
Qed.
(* What is missing is an error, not left out: a file, a directory, or one of
   the files of a pattern. *)
Theorem C67_missing : forall D f v t, 
  d_read D f = Some (ascii "Include " ++ v ++ 10 :: t) -> lenN v <= 150 -> ~ In 0 v ->
  (simple_name v /\ d_read D v = None \/
   exists dir pre post, v = pattern dir pre post /\ dir <> [] /\ simple_name dir /\ simple_part pre /\ simple_part post /\
     (d_list D dir = None \/ exists es n, d_list D dir = Some es /\ NoDup (map fst es) /\ In (n, false) es /\ lenN pre + lenN post < lenN n /\ stands_for pre post n /\ d_read D (dir ++ 47 :: n) = None)) ->
  forall ns, load_config D f <> COk ns.
Proof.
  intros D f v t RF LG NZ C ns H. unfold load_config in H. change MAX_INCLUDE_DEPTH with (Datatypes.S (Datatypes.S 14)) in H.
  destruct C as [[[NE SG] RN]|(dir & pre & post & -> & ND & SD & PR & PO & C)].
  - rewrite (load_first_line D f v t 15 [conf_new] 0 RF NE) in H; [|eapply Forall_impl; [|exact SG]; cbn; tauto|exact LG|exact NZ].
    unfold handle_include in H. destruct v as [|c v']; [contradiction|].
    rewrite find_star_none in H by (apply Forall_rev; inversion SG; assumption).
    cbn [config_load] in H. rewrite RN in H. discriminate.
  - rewrite (load_first_line D f (pattern dir pre post) t 15 [conf_new] 0 RF) in H.
    + rewrite (include_pattern D _ dir pre post [conf_new] ND PR PO) in H.
      destruct C as [C|(es & n & LD & NDU & I & L & SF & RN)]; [rewrite C in H; discriminate|]. rewrite LD in H.
      assert (I2 : In n (filter (name_matches pre post) (sorted_names es))).
      { apply filter_In. split; [apply (sorted_ok es NDU); exact I|apply name_matches_iff; assumption]. }
      assert (X : forall l ns', In n l -> exists e, load_all (config_load D 15 0) dir l ns' = e /\ forall x, e <> COk x).
      { induction l as [|m l IH]; intros ns' IN; [destruct IN|]. cbn [load_all].
        destruct (PATH_MAX <=? lenN (dir ++ 47 :: m)); [eexists; split; [reflexivity|discriminate]|].
        destruct IN as [->|IN].
        - cbn [config_load]. rewrite RN. eexists; split; [reflexivity|discriminate].
        - destruct (config_load D 15 0 ns' (dir ++ 47 :: m)) as [y| |]; [apply IH; exact IN|..]; (eexists; split; [reflexivity|discriminate]). }
      destruct (X _ [conf_new] I2) as (e & E & NE). rewrite E in H. destruct e as [y| |]; [exact (NE y eq_refl)|discriminate|discriminate].
    + unfold pattern. destruct dir; discriminate.
    + apply pattern_chars; [reflexivity|reflexivity| | |]; (eapply Forall_impl; [|first [exact (proj2 SD)|exact PR|exact PO]]); cbn; tauto.
    + exact LG.
    + exact NZ.
Qed.
(* a directory with a subdirectory, an other name and one that matches *)
Definition wild_list : list (bytes * bool) := [(ascii "zz", false); (ascii "ab", false); (ascii "aa", true); (ascii "a.", false)].
Definition wild_disk : disk := wild (ascii "Include " ++ pattern (ascii "d") (ascii "a") [] ++ 10 :: line "Port 2022") (line "PasswordAuthentication no") wild_list.
Example C67_pattern_sample : selected (ascii "a") [] wild_list [ascii "a."; ascii "ab"] /\
  texts_of wild_disk (ascii "d") [ascii "a."; ascii "ab"] [line "PasswordAuthentication no"; line "PasswordAuthentication yes"] /\
  (forall n, In (n, false) wild_list -> lenN n <= lenN (ascii "a") + lenN (@nil N) -> ~ ((exists r, n = ascii "a" ++ r) /\ (exists r, n = r ++ []))) /\
  exists ns, load_config wild_disk (ascii "conf") = COk ns /\ cf_pw (user_conf ns (Some (ascii "bob")) []) = true /\ cf_port (user_conf ns (Some (ascii "bob")) []) = 2022.
Proof.
  split; [|split; [|split]].
  - split.
    + constructor; [|constructor; [intros ? []|constructor]]. intros y [<-|[]]. apply cb_same. apply cb_less. reflexivity.
    + intro n. split.
      * intros [<-|[<-|[]]]; (split; [cbn; tauto|eexists; rewrite app_nil_r; reflexivity]).
      * intros [I [mid M]]. cbn [In wild_list] in I. destruct I as [I|[I|[I|[I|[]]]]]; inversion I; subst; try discriminate; cbn; auto.
  - constructor; [|constructor; [|constructor]]; (split; [reflexivity|]; split; [ord|reflexivity]).
  - intros n I L. cbn [In wild_list] in I. destruct I as [I|[I|[I|[I|[]]]]]; inversion I; subst; vm_compute in L; congruence.
  - eexists. split; [vm_compute; reflexivity|]. vm_compute. repeat split.
Qed.
Example C67_missing_sample : load_config (wild wild_text [] [(ascii "a.x", false)]) (ascii "conf") = CErr /\
  load_config (one_file (ascii "Include " ++ pattern (ascii "d") (ascii "a") [] ++ [10])) (ascii "conf") = CErr.
Proof. vm_compute. split; reflexivity. Qed.

Definition more_plain : bytes := line "PasswordAuthentication no" ++ line "Port 2022".
Definition main_plain : bytes := ascii "Include " ++ ascii "more" ++ 10 :: line "Port 2023" ++ line "Match User bob" ++ line "PasswordAuthentication yes".
Example C67_include_sample : exists ns, load_config (two_files main_plain more_plain) (ascii "conf") = COk ns /\
  cf_pw (user_conf ns (Some (ascii "bob")) []) = true /\ cf_pw (user_conf ns (Some (ascii "eve")) []) = false /\
  cf_port (user_conf ns (Some (ascii "eve")) []) = 2023.
Proof. eexists. split; [vm_compute; reflexivity|]. vm_compute. repeat split. Qed.
Definition block_main : bytes := line "Port 2023" ++ line "Match User bob".
Definition block_rest : bytes := line "PermitRootLogin yes" ++ line "Match User eve" ++ line "PermitEmptyPasswords yes".
Example C67_in_place_sample :
  let D := two_files (block_main ++ ascii "Include " ++ ascii "more" ++ 10 :: block_rest) (line "PasswordAuthentication no") in
  ordinary block_main /\ whole_lines block_main /\ ordinary (line "PasswordAuthentication no") /\ whole_lines (line "PasswordAuthentication no") /\
  snd (sections (items (line "PasswordAuthentication no"))) = [] /\ ordinary block_rest /\
  exists ns, load_config D (ascii "conf") = COk ns /\
  cf_pw (user_conf ns (Some (ascii "bob")) []) = false /\ cf_pw (user_conf ns (Some (ascii "eve")) []) = true /\ cf_pw (user_conf ns (Some (ascii "al")) []) = true /\
  cf_root (user_conf ns (Some (ascii "bob")) []) = ROOT_YES /\ cf_root (user_conf ns (Some (ascii "al")) []) = ROOT_NO /\
  cf_empty (user_conf ns (Some (ascii "eve")) []) = true.
Proof.
  cbv zeta. split; [ord|]. split; [right; exists (removelast block_main); reflexivity|]. split; [ord|]. split; [right; exists (removelast (line "PasswordAuthentication no")); reflexivity|].
  split; [reflexivity|]. split; [ord|]. eexists. split; [vm_compute; reflexivity|]. vm_compute. repeat split.
Qed.
Definition loop_disk : disk := two_files (line "Port 22" ++ line "Include more") (line "Include conf" ++ line "Port 23").
Example C67_circle_sample : circle loop_disk [ascii "conf"; ascii "more"] /\ Forall simple_name [ascii "conf"; ascii "more"].
Proof.
  split; [|repeat constructor; discriminate].
  intros f [<-|[<-|[]]].
  - exists (line "Port 22" ++ line "Include more"), (ascii "more"). split; [reflexivity|]. split; [apply not_in; vm_compute; reflexivity|].
    split; [repeat (apply Forall_cons; [vm_compute; discriminate|]); apply Forall_nil|]. split; [right; left; reflexivity|right; left; reflexivity].
  - exists (line "Include conf" ++ line "Port 23"), (ascii "conf"). split; [reflexivity|]. split; [apply not_in; vm_compute; reflexivity|].
    split; [repeat (apply Forall_cons; [vm_compute; discriminate|]); apply Forall_nil|]. split; [left; reflexivity|left; reflexivity].
Qed.

Print Assumptions C66_refuted.
Print Assumptions C66_prefix_refuted.
Print Assumptions C66_settings_partial.
Print Assumptions C66_refused.
Print Assumptions C66_loads.
Print Assumptions C66_unknown.
Print Assumptions C67_circle.
Print Assumptions C67_refuted.
Print Assumptions C67_include_partial.
Print Assumptions C67_pattern_refuted.
Print Assumptions C67_pattern_partial.
Print Assumptions C67_missing.
Print Assumptions C67_in_place_partial.
Print Assumptions C67_in_place_loads_partial.
