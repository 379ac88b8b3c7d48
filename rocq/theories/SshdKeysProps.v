(* SshdKeysProps.v - C68 to C72: authorized keys, where they are looked for,
   how the file is opened, and the restrictions in certificates. *)
From Coq Require Import List NArith ZArith Lia Bool String.
From Verif Require Import Base WireSpec KexSpec NegoSpec SshdConfModel SshdConfSpec SshdKeysModel SshdKeysSpec
  SshdKeysProofs SshdKeysProofs2 SshdKeysProofs3.
Import ListNotations.
Open Scope N_scope.

(* ----- C68: a key is accepted exactly when authorized_keys lists it ----- *)

(* Full statement, with n + 1 the size of the daemon's line buffer. *)
Definition C68_full : Prop := forall b64 n key s,
  decoder b64 -> key <> [] -> (20 <= n)%nat -> ~ In 0 s ->
  (search_keys_file b64 n key false (Some s) = AYes <-> exists l, In l (lines s) /\ lists b64 l key).

(* A decoder that knows one text. *)
Definition abc : bytes := ascii "ABC".
Definition sample_b64 (t : bytes) : option bytes :=
  let t := rev (snd (span (N.eqb 10) (rev t))) in
  if bytes_eqb t (ascii "QUJD") then Some abc else if bytes_eqb t (ascii "REVG") then Some (ascii "DEF") else
  match t with [] => Some [] | _ => None end.
Lemma sample_decoder : decoder sample_b64.
Proof.
  split.
  - intros t. unfold sample_b64. rewrite rev_app_distr. cbn [rev app span N.eqb Pos.eqb]. destruct (span (N.eqb 10) (rev t)). reflexivity.
  - intros k H. vm_compute in H. inversion H. reflexivity.
Qed.
Lemma not_zero : forall s, existsb (N.eqb 0) s = false -> ~ In 0 s.
Proof. intros s E H. assert (existsb (N.eqb 0) s = true) by (apply existsb_exists; exists 0; split; [exact H|reflexivity]). congruence. Qed.

Lemma fgets_more : forall n r c t, c =? 10 = false ->
  fgets_from n (S (S r)) (c :: t) = match fgets_from n (S r) t with [] => [[c]] | p :: ps => (c :: p) :: ps end.
Proof.
  intros n r c t C. change (fgets_from n (S (S r)) (c :: t)) with
    (if c =? 10 then [c] :: fgets_from n n t else match fgets_from n (S r) t with [] => [[c]] | p :: ps => (c :: p) :: ps end). rewrite C. reflexivity.
Qed.
Lemma fgets_full : forall n a rest, ~ In 10 a -> a <> [] -> fgets_from n (List.length a) (a ++ rest) = a :: fgets_from n n rest.
Proof.
  intros n a. induction a as [|c a IH]; intros rest NI NE; [congruence|]. assert (C : c =? 10 = false) by (apply N.eqb_neq; intros ->; apply NI; left; reflexivity).
  destruct a as [|d a]; [reflexivity|]. cbn [List.length]. cbn [app]. rewrite (fgets_more _ _ _ _ C).
  assert (Q : fgets_from n (S (List.length a)) ((d :: a) ++ rest) = (d :: a) :: fgets_from n n rest) by (apply (IH rest); [intros Q; apply NI; right; exact Q|discriminate]).
  cbn [app] in Q. rewrite Q. reflexivity.
Qed.
(* A comment as long as the buffer: what follows it on the line is read as a
   line of its own, so a key inside a comment is accepted. *)
Definition dashes (n : nat) : bytes := 35 :: repeat 45 (n - 1).
Theorem C68_long_line_refuted : forall n, (20 <= n)%nat ->
  ~ (forall b64 key s, decoder b64 -> key <> [] -> ~ In 0 s ->
     search_keys_file b64 n key false (Some s) = AYes -> exists l, In l (lines s) /\ lists b64 l key).
Proof.
  intros n N20 F. set (key := abc).
  assert (L : List.length (dashes n) = n) by (unfold dashes; cbn [List.length]; rewrite repeat_length; lia).
  assert (NN : ~ In 10 (dashes n)). { intros [Q|Q]; [discriminate Q|]. apply repeat_spec in Q. discriminate Q. }
  set (tail := ascii "ssh-rsa QUJD").
  destruct (F sample_b64 key (dashes n ++ tail) sample_decoder) as (l & I1 & NC & _); [discriminate| | |].
  - intros Q. apply in_app_or in Q. destruct Q as [[Q|Q]|Q]; [discriminate Q|apply repeat_spec in Q; discriminate Q|]. revert Q. apply not_zero. reflexivity.
  - unfold search_keys_file, fgets_all. change key with (65 :: ascii "BC").
    assert (FG : fgets_from n n (dashes n ++ tail) = dashes n :: fgets_from n n tail).
    { pose proof (fgets_full n (dashes n) tail NN ltac:(discriminate)) as Q. rewrite L in Q. exact Q. }
    rewrite FG.
    assert (T : fgets_from n n tail = [tail]).
    { replace n with (List.length tail + (n - List.length tail))%nat by (cbn; cbn in N20; lia). generalize (n - List.length tail)%nat. intros m. destruct m; reflexivity. }
    rewrite T. cbn [scan_lines].
    assert (CS : cstr (dashes n) = dashes n) by (apply cstr_id; intros [Q|Q]; [discriminate Q|apply repeat_spec in Q; discriminate Q]). rewrite CS.
    assert (SP : snd (span is_blank (dashes n)) = dashes n) by reflexivity. rewrite SP.
    assert (LL : lenN (dashes n) <=? 1 = false) by (apply N.leb_gt; unfold lenN; rewrite L; lia). rewrite LL. change (prefixb [35] (dashes n)) with true. cbv iota.
    vm_compute. reflexivity.
  - assert (LN : lines (dashes n ++ tail) = [dashes n ++ tail]).
    { assert (G : forall a, ~ In 10 a -> a <> [] -> lines a = [a]).
      { induction a as [|c a IH]; intros A NE; [congruence|]. cbn [lines]. assert (C : c =? 10 = false) by (apply N.eqb_neq; intros ->; apply A; left; reflexivity). rewrite C.
        destruct a as [|d a]; [reflexivity|]. rewrite IH; [reflexivity|intros Q; apply A; right; exact Q|discriminate]. }
      apply G; [|discriminate]. intros Q. apply in_app_or in Q. destruct Q as [Q|Q]; [exact (NN Q)|]. vm_compute in Q. intuition discriminate. }
    rewrite LN in I1. destruct I1 as [<-|[]]. apply NC. unfold is_comment, fields, dashes. cbn [app splits N.eqb Pos.eqb].
    destruct (splits_cons (N.eqb 32) (repeat 45 (n - 1) ++ tail)) as (w & ws & E). rewrite E. cbn [filter nonempty]. eexists _, _. reflexivity.
Qed.
Theorem C68_refuted : ~ C68_full.
Proof.
  intros F. apply (C68_long_line_refuted 200); [lia|]. intros b64 key s D K Z H. apply (F b64 200%nat key s D K); [lia|exact Z|exact H].
Qed.

(* A line with one word ends the search: a key listed below it is refused. *)
Theorem C68_bad_line_refuted : forall n, (20 <= n)%nat ->
  ~ (forall b64 key s, decoder b64 -> key <> [] -> ~ In 0 s ->
     Forall (fun l => (List.length l + 1 <= n)%nat) (lines s) ->
     (exists l, In l (lines s) /\ lists b64 l key) -> search_keys_file b64 n key false (Some s) = AYes).
Proof.
  intros n N20 F. set (s := ascii "junk" ++ [10] ++ ascii "ssh-rsa QUJD" ++ [10]).
  assert (SH : Forall (fun l => (List.length l + 1 <= n)%nat) (lines s)).
  { assert (E : lines s = [ascii "junk"; ascii "ssh-rsa QUJD"]) by reflexivity. rewrite E. repeat constructor; cbn; lia. }
  assert (H : search_keys_file sample_b64 n abc false (Some s) = AYes).
  { apply (F sample_b64 abc s sample_decoder); [discriminate|apply not_zero; reflexivity|exact SH|].
    exists (ascii "ssh-rsa QUJD"). split; [vm_compute; auto|]. split.
    - intros (w & ws & Q). vm_compute in Q. discriminate Q.
    - exists (ascii "ssh-rsa"), (ascii "QUJD"), []. split; [reflexivity|]. split; [left; reflexivity|reflexivity]. }
  unfold search_keys_file in H. cbn [abc ascii] in H.
  pose proof (proj1 (scan_held sample_b64 abc ltac:(discriminate) sample_decoder (fgets_all n s) (lines s) (fgets_held n s ltac:(lia) SH)
                ltac:(repeat constructor; apply not_zero; reflexivity)) H) as (pre & l & post & E & R & LI).
  change (lines s) with [ascii "junk"; ascii "ssh-rsa QUJD"] in E. destruct pre as [|p pre].
  - cbn [app] in E. inversion E; subst. destruct LI as (_ & ty & t & ws & Q & _). vm_compute in Q. discriminate Q.
  - cbn [app] in E. inversion E; subst. inversion R as [|? ? R1 _]; subst. destruct R1 as [Q|[(w & ws & Q)|[(ty & t & ws & Q & _)|(ty & l' & Q & Q2 & _)]]].
    + vm_compute in Q. discriminate Q.
    + vm_compute in Q. discriminate Q.
    + vm_compute in Q. discriminate Q.
    + apply (f_equal (fun l => last l 0)) in Q2. rewrite last_last in Q2. vm_compute in Q2. discriminate Q2.
Qed.

(* What holds: with every line within the buffer, a key is accepted exactly
   when a line lists it and every line above that one can be read. *)
Theorem C68_authorized_keys_partial : forall b64 n key strict s,
  decoder b64 -> key <> [] -> (1 <= n)%nat -> Forall (fun l => ~ In 0 l /\ (List.length l + 1 <= n)%nat) (lines s) ->
  (search_keys_file b64 n key strict (Some s) = AYes <->
   exists pre l post, lines s = pre ++ l :: post /\ Forall (readable b64) pre /\ lists b64 l key).
Proof.
  intros b64 n key strict s D K N1 H. unfold search_keys_file. destruct key as [|k ks] eqn:E; [congruence|]. rewrite <- E in *.
  apply (scan_held b64 key K D).
  - apply fgets_held; [exact N1|]. eapply Forall_impl; [|exact H]. intros l [_ Q]. exact Q.
  - eapply Forall_impl; [|exact H]. intros l [Q _]. exact Q.
Qed.
(* So a key that no line lists is not accepted, and neither is any key when
   the file cannot be opened. *)
Theorem C68_unlisted_partial : forall b64 n key strict f,
  decoder b64 -> key <> [] -> (1 <= n)%nat ->
  search_keys_file b64 n key strict f = AYes ->
  exists s, f = Some s /\
    (Forall (fun l => ~ In 0 l /\ (List.length l + 1 <= n)%nat) (lines s) -> exists l, In l (lines s) /\ lists b64 l key).
Proof.
  intros b64 n key strict f D K N1 H. destruct f as [s|]; [|unfold search_keys_file in H; destruct key, strict; discriminate H].
  exists s. split; [reflexivity|]. intros SH. apply (C68_authorized_keys_partial b64 n key strict s D K N1 SH) in H. destruct H as (pre & l & post & E & _ & LI).
  exists l. split; [rewrite E; apply in_or_app; right; left; reflexivity|exact LI].
Qed.
(* And in a file all of whose lines can be read, the lines decide. *)
Theorem C68_readable_partial : forall b64 n key strict s,
  decoder b64 -> key <> [] -> (1 <= n)%nat -> Forall (fun l => ~ In 0 l /\ (List.length l + 1 <= n)%nat) (lines s) ->
  Forall (readable b64) (lines s) ->
  (search_keys_file b64 n key strict (Some s) = AYes <-> exists l, In l (lines s) /\ lists b64 l key).
Proof.
  intros b64 n key strict s D K N1 SH R. rewrite (C68_authorized_keys_partial b64 n key strict s D K N1 SH). split.
  - intros (pre & l & post & E & _ & LI). exists l. split; [rewrite E; apply in_or_app; right; left; reflexivity|exact LI].
  - intros (l & I1 & LI). apply in_split in I1. destruct I1 as (pre & post & E). exists pre, l, post. split; [exact E|]. split; [|exact LI].
    rewrite E in R. apply Forall_app in R. apply R.
Qed.
Definition sample_keys : bytes :=
  ascii "# keys of bob" ++ [10; 10] ++ ascii "  ssh-foo XYZ" ++ [10] ++ ascii "ssh-ed25519 REVG" ++ [10] ++ ascii " ecdsa-sha2-nistp256  QUJD bob@home" ++ [10].
Example C68_met :
  Forall (fun l => ~ In 0 l /\ (List.length l + 1 <= 40)%nat) (lines sample_keys) /\ Forall (readable sample_b64) (lines sample_keys) /\
  search_keys_file sample_b64 40 abc true (Some sample_keys) = AYes /\ search_keys_file sample_b64 40 (ascii "GHI") true (Some sample_keys) = ANo.
Proof.
  split.
  { assert (E : lines sample_keys = [ascii "# keys of bob"; []; ascii "  ssh-foo XYZ"; ascii "ssh-ed25519 REVG"; ascii " ecdsa-sha2-nistp256  QUJD bob@home"]) by reflexivity.
    rewrite E. repeat (apply Forall_cons; [split; [apply not_zero; reflexivity|cbn; lia]|]). apply Forall_nil. }
  split.
  { assert (E : lines sample_keys = [ascii "# keys of bob"; []; ascii "  ssh-foo XYZ"; ascii "ssh-ed25519 REVG"; ascii " ecdsa-sha2-nistp256  QUJD bob@home"]) by reflexivity.
    rewrite E. apply Forall_cons; [right; left; eexists _, _; reflexivity|]. apply Forall_cons; [left; reflexivity|].
    apply Forall_cons; [right; right; left; eexists _, _, _; split; [reflexivity|intros Q; vm_compute in Q; intuition discriminate]|].
    apply Forall_cons; [right; right; left; eexists _, _, _; split; [reflexivity|intros _; discriminate]|].
    apply Forall_cons; [right; right; left; eexists _, _, _; split; [reflexivity|intros _; discriminate]|]. apply Forall_nil. }
  split; vm_compute; reflexivity.
Qed.

(* ----- C69: the file AuthorizedKeysFile names ----- *)

Theorem C69_path : forall home user ps, ps <> [] ->
  resolve_path home user (Some (pattern_of ps)) = named_file home (value_of home user ps).
Proof. exact resolve_pattern. Qed.
Theorem C69_default : forall home user pat, pat = None \/ pat = Some [] ->
  resolve_path home user pat = named_file home (ascii ".ssh/authorized_keys").
Proof. intros home user pat [->| ->]; exact (resolve_default home user). Qed.
(* Any other escape is an error. *)
Theorem C69_escapes : forall home user pat f, resolve_path home user (Some pat) = Some f ->
  exists ps, pat = pattern_of ps \/ pat = pattern_of ps ++ ascii "%".
Proof. exact resolve_refused. Qed.
(* No two users share a file when the pattern is absolute and has %u, even if
   they share a home directory. *)
Theorem C69_users : forall h1 h2 u1 u2 ps f, In PUser ps -> ~ In PHome ps -> hd PHome ps = PChar 47 ->
  resolve_path h1 u1 (Some (pattern_of ps)) = Some f -> resolve_path h2 u2 (Some (pattern_of ps)) = Some f -> u1 = u2.
Proof.
  intros h1 h2 u1 u2 ps f IU IH HD R1 R2. assert (NE : ps <> []) by (intros ->; destruct IU).
  rewrite resolve_pattern in R1, R2 by exact NE.
  assert (V : forall h u, value_of h u ps = value_of h1 u ps).
  { intros h u. clear -IH. unfold value_of. induction ps as [|p ps IHp]; [reflexivity|]. cbn [map List.concat]. rewrite IHp by (intros Q; apply IH; right; exact Q).
    destruct p; [reflexivity| |reflexivity]. exfalso. apply IH. left. reflexivity. }
  assert (G : forall h u, named_file h (value_of h u ps) = Some f -> value_of h1 u ps = f).
  { intros h u H. rewrite <- (V h u). destruct ps as [|p ps']; [congruence|]. cbn [hd] in HD. subst p. unfold named_file, value_of in *. cbn [map List.concat stands_for app] in *.
    cbv zeta in H. destruct (_ <? 80) in H; [|discriminate H]. inversion H. reflexivity. }
  apply G in R1. apply G in R2. rewrite <- R2 in R1. apply value_inj in R1; assumption.
Qed.
Definition sample_pattern : list piece := map PChar (ascii "/etc/keys/") ++ [PUser; PChar 46; PChar 37].
Example C69_met :
  pattern_of sample_pattern = ascii "/etc/keys/%u.%%" /\
  resolve_path (ascii "/home/bob") (ascii "bob") (Some (ascii "/etc/keys/%u.%%")) = Some (ascii "/etc/keys/bob.%") /\
  resolve_path (ascii "/home/bob") (ascii "bob") (Some (ascii "%h/k")) = Some (ascii "/home/bob/k") /\
  resolve_path (ascii "/home/bob") (ascii "bob") (Some (ascii "k/%u")) = Some (ascii "/home/bob/k/bob") /\
  resolve_path (ascii "/home/bob") (ascii "bob") (Some (ascii "/k/%d")) = None /\
  In PUser sample_pattern /\ ~ In PHome sample_pattern /\ hd PHome sample_pattern = PChar 47.
Proof. repeat (split; [vm_compute; reflexivity|]). split; [vm_compute; auto 20|]. split; [intros Q; vm_compute in Q; intuition discriminate|reflexivity]. Qed.

(* ----- C70: a trusted file that is opened is one nobody else could have written ----- *)

(* Whatever answers the system gives, in whatever state other processes leave
   it between the calls. *)
Theorem C70_secure_open : forall owner reject_readable o, (forall p, o_real o = Some p -> canonical p) ->
  (open_secure owner reject_readable o = true <->
   exists lst p st, o_lstat o = Some lst /\ st_reg lst = true /\ o_real o = Some p /\ o_open o = true /\ o_fstat o = Some st /\
     (* the opened file *)
     st_reg st = true /\ (st_uid st = owner \/ st_uid st = 0) /\ ~ others_write (st_mode st) /\
     (reject_readable = true -> ~ others_read (st_mode st)) /\
     (* is the one the path named *)
     st_dev st = st_dev lst /\ st_ino st = st_ino lst /\
     (* and nobody else can replace it or a directory above it *)
     (forall d, above d p -> exists sd, o_stat o d = Some sd /\ st_dir sd = true /\ (others_write (st_mode sd) -> sticky (st_mode sd))) /\
     o_fdopen o = true).
Proof. exact open_iff. Qed.
Definition sample_file : fstat_t := FStat true false 1000 384 8 42.   (* -rw------- *)
Definition sample_dir (m : N) : fstat_t := FStat false true 0 m 8 1.
Definition sample_open (m : N) : opening :=
  Opening (Some sample_file) (Some (ascii "/home/bob/keys")) true (Some sample_file)
    (fun d => if bytes_eqb d (ascii "/home/bob") then Some (sample_dir 493)
              else if bytes_eqb d (ascii "/home") then Some (sample_dir m)
              else if bytes_eqb d (ascii "/") then Some (sample_dir 493) else None) true.
Example C70_met :
  canonical (ascii "/home/bob/keys") /\ open_secure 1000 true (sample_open 493) = true /\ open_secure 1000 true (sample_open 511) = false /\
  open_secure 1000 true (sample_open 1023) = true /\ open_secure 1001 true (sample_open 493) = false.
Proof.
  split; [|vm_compute; auto]. exists [ascii "home"; ascii "bob"; ascii "keys"]. split; [discriminate|]. split; [|reflexivity].
  repeat (apply Forall_cons; [split; [discriminate|intros Q; vm_compute in Q; intuition discriminate]|]). apply Forall_nil.
Qed.

(* ----- C71: the restrictions of an OpenSSH certificate ----- *)

(* The user is one of the principals. *)
Theorem C71_principal : forall names user, Forall bytes_ok names -> lenN (principals names) < 2 ^ 32 ->
  (check_principal (principals names) user = true <-> In user names).
Proof. intros names user OK L. apply principal_names; [exact OK|exact L]. Qed.
(* Whatever the bytes are, what is accepted is preceded by whole names only. *)
Theorem C71_principal_bytes : forall region user, bytes_ok region -> lenN region < 2 ^ 32 ->
  (check_principal region user = true <-> exists names rest, region = principals (names ++ [user]) ++ rest).
Proof. intros region user OK L. apply principal_iff; [exact OK|exact L]. Qed.
Example C71_principal_met :
  check_principal (principals [ascii "alice"; ascii "bob"]) (ascii "bob") = true /\
  check_principal (principals [ascii "alice"; ascii "bobby"]) (ascii "bob") = false /\
  check_principal [] [] = false.
Proof. vm_compute. auto. Qed.

(* It is used within its validity interval. *)
Theorem C71_validity : forall now after before, check_validity now after before = true <-> after <= now /\ now < before.
Proof.
  intros. unfold check_validity. rewrite negb_true_iff, orb_false_iff, N.ltb_ge, N.leb_gt. tauto.
Qed.
Example C71_validity_met : check_validity 5 5 6 = true /\ check_validity 6 5 6 = false /\ check_validity 4 5 6 = false.
Proof. vm_compute. auto. Qed.

(* Full statement: a source-address list is a list of entries with commas
   between them, all of them well formed, one of which holds the peer. *)
Definition C71_source_full : Prop := forall pton4 pton6 l ip, resolver pton4 pton6 -> l <> [] ->
  (check_source pton4 pton6 l ip = true <-> permitted pton4 pton6 (splits (N.eqb 44) l) ip).

Definition table4 (s : bytes) : option bytes :=
  if bytes_eqb s (ascii "10.0.0.0") then Some [10; 0; 0; 0] else if bytes_eqb s (ascii "10.1.2.3") then Some [10; 1; 2; 3]
  else if bytes_eqb s (ascii "192.0.2.1") then Some [192; 0; 2; 1] else None.
Definition table6 (s : bytes) : option bytes :=
  if bytes_eqb s (ascii "::ffff:10.1.2.3") then Some (mapped ++ [10; 1; 2; 3]) else if bytes_eqb s (ascii "::1") then Some (repeat 0 15 ++ [1]) else None.
Lemma table_resolver : resolver table4 table6.
Proof.
  split; [reflexivity|]. split; [reflexivity|].
  assert (OK : forall a, forallb (fun x => x <? 256) a = true -> bytes_ok a).
  { intros a H. apply Forall_forall. intros x I1. rewrite forallb_forall in H. apply H in I1. apply N.ltb_lt in I1. exact I1. }
  split; intros s a H; unfold table4, table6 in H; repeat (destruct (bytes_eqb _ _) in H; [inversion H; split; [reflexivity|apply OK; reflexivity]|]); discriminate H.
Qed.
(* A comma at the end is let pass, although an empty entry elsewhere is not. *)
Theorem C71_source_refuted : ~ C71_source_full.
Proof.
  intros F. assert (H : check_source table4 table6 (ascii "10.0.0.0/8,") (ascii "10.1.2.3") = true) by (vm_compute; reflexivity).
  apply (F table4 table6 _ _ table_resolver) in H; [|discriminate]. destruct H as (peer & _ & A & _).
  destruct (A []) as (a & bits & _ & _ & host & _ & _ & [(-> & NE & _)|(ds & Q & _)]); [vm_compute; auto|congruence|]. destruct host; discriminate Q.
Qed.
(* A NUL byte hides the rest of the entry. *)
Theorem C71_source_nul_refuted : ~ (forall pton4 pton6 l ip, resolver pton4 pton6 -> l <> [] -> last l 0 <> 44 ->
  check_source pton4 pton6 l ip = true -> permitted pton4 pton6 (splits (N.eqb 44) l) ip).
Proof.
  intros F. set (l := ascii "10.0.0.0/8" ++ [0] ++ ascii "junk").
  assert (H : check_source table4 table6 l (ascii "10.1.2.3") = true) by (vm_compute; reflexivity).
  apply (F table4 table6 _ _ table_resolver) in H; [|discriminate|vm_compute; discriminate]. destruct H as (peer & _ & A & _).
  destruct (A l) as (a & bits & _ & _ & host & NS & _ & [(Q & _ & _)|(ds & Q & D & _)]); [left; reflexivity| |].
  - apply NS. rewrite <- Q. vm_compute. auto 20.
  - assert (E : span (fun c => negb (c =? 47)) l = (host, 47 :: ds)) by (rewrite Q; apply span_slash; exact NS). vm_compute in E. inversion E; subst ds. vm_compute in D. discriminate D.
Qed.
Theorem C71_source_partial : forall pton4 pton6 l ip, resolver pton4 pton6 -> l <> [] -> ~ In 0 l -> last l 0 <> 44 ->
  (check_source pton4 pton6 l ip = true <-> permitted pton4 pton6 (splits (N.eqb 44) l) ip).
Proof. intros pton4 pton6 l ip R NE Z LAST. exact (source_iff pton4 pton6 R l ip NE Z LAST). Qed.
(* Two addresses are in the same network of b bits when they agree in the
   first b bits. *)
Theorem C71_network : forall a1 a2, bytes_ok a1 -> bytes_ok a2 -> lenN a1 = lenN a2 -> forall bits, bits <= 8 * lenN a1 ->
  (network a1 bits = network a2 bits <->
   forall i, 8 * lenN a1 - bits <= i -> N.testbit (be_value a1) i = N.testbit (be_value a2) i).
Proof.
  intros a1 a2 _ _ L bits B. unfold network. rewrite <- L, <- !N.shiftr_div_pow2. split.
  - intros H i I1. assert (Q : N.testbit (N.shiftr (be_value a1) (8 * lenN a1 - bits)) (i - (8 * lenN a1 - bits)) = N.testbit (N.shiftr (be_value a2) (8 * lenN a1 - bits)) (i - (8 * lenN a1 - bits))) by (rewrite H; reflexivity).
    rewrite !N.shiftr_spec in Q by apply N.le_0_l. replace (i - (8 * lenN a1 - bits) + (8 * lenN a1 - bits)) with i in Q by lia. exact Q.
  - intros H. apply N.bits_inj. intros i. rewrite !N.shiftr_spec by apply N.le_0_l. apply H. lia.
Qed.
Example C71_source_met :
  check_source table4 table6 (ascii "192.0.2.1,10.0.0.0/8") (ascii "10.1.2.3") = true /\
  check_source table4 table6 (ascii "192.0.2.1,10.0.0.0/8") (ascii "::ffff:10.1.2.3") = true /\
  check_source table4 table6 (ascii "192.0.2.1,10.0.0.0/16") (ascii "10.1.2.3") = false /\
  check_source table4 table6 (ascii "::1/0") (ascii "10.1.2.3") = false /\
  check_source table4 table6 (ascii "10.0.0.0/8,!10.1.2.3") (ascii "10.1.2.3") = false /\
  check_source table4 table6 (ascii "10.0.0.0/33") (ascii "10.1.2.3") = false.
Proof. vm_compute. repeat split. Qed.

(* ----- C72: the user name in an X.509 certificate ----- *)

Theorem C72_upn : forall user name allow,
  (match_upn user name allow = true <->
   exists domain, upn_names name user domain /\
     forall l, allow = Some l -> l <> [] -> exists d r, domain = Some d /\ In r (realms l) /\ same_text r d).
Proof. exact upn_iff. Qed.
Example C72_met :
  match_upn (ascii "bob") (ascii "bob@Example.COM") (Some (ascii "corp.example, example.com")) = true /\
  match_upn (ascii "bob") (ascii "bob@evil.com") (Some (ascii "example.com")) = false /\
  match_upn (ascii "bob") (ascii "bob") (Some (ascii "example.com")) = false /\
  match_upn (ascii "bob") (ascii "bobby@example.com") None = false /\
  match_upn (ascii "bob") (ascii "bob@anywhere") None = true /\
  match_upn (ascii "BOB") (ascii "bob@anywhere") None = false.
Proof. vm_compute. repeat split. Qed.

Print Assumptions C68_refuted.
Print Assumptions C68_long_line_refuted.
Print Assumptions C68_bad_line_refuted.
Print Assumptions C68_authorized_keys_partial.
Print Assumptions C68_unlisted_partial.
Print Assumptions C68_readable_partial.
Print Assumptions C69_path.
Print Assumptions C69_default.
Print Assumptions C69_escapes.
Print Assumptions C69_users.
Print Assumptions C70_secure_open.
Print Assumptions C71_principal.
Print Assumptions C71_principal_bytes.
Print Assumptions C71_validity.
Print Assumptions C71_source_refuted.
Print Assumptions C71_source_nul_refuted.
Print Assumptions C71_source_partial.
Print Assumptions C71_network.
Print Assumptions C72_upn.
