(* SftpListProofs2.v - more about listing a directory: what a list that is
   returned says about the replies. *)
From Verif Require Import Base WireModel WireSpec WireProofs OsshSpec OsshProofs NegoSpec ReqSpec ReqProofs PathModel SftpModel
  SftpSpec SftpProofs SftpProofs2 SftpProofs7 SftpClientModel SftpClientSpec SftpClientProofs SftpListModel SftpListSpec SftpListProofs.
From Coq Require Import List NArith Lia Bool.
Import ListNotations.
Open Scope N_scope.
Local Notation str := OsshSpec.str.

Definition good (s : ls) : Prop := bytes_ok (l_in s) /\ l_id s < W32.

Lemma take_inv : forall n s b s', take n s = (Some b, s') ->
  l_in s = b ++ l_in s' /\ lenN b = n /\ l_out s' = l_out s /\ l_id s' = l_id s.
Proof.
  intros n s b s' H. unfold take in H. destruct (N.ltb_spec (lenN (l_in s)) n); [discriminate|].
  assert (b = takeN n (l_in s)) as -> by congruence.
  assert (s' = mkLs (dropN n (l_in s)) (l_out s) (l_id s)) as -> by congruence. cbn [l_in l_out l_id].
  split; [symmetry; apply takeN_dropN|]. split; [rewrite lenN_takeN; lia|]. split; reflexivity.
Qed.

Lemma take_good : forall n s x s', good s -> take n s = (x, s') -> good s' /\ l_id s' = l_id s.
Proof.
  intros n s x s' (G & I) H. unfold take in H. destruct (lenN (l_in s) <? n).
  - assert (s' = mkLs [] (l_out s) (l_id s)) as -> by congruence. split; [split; [constructor|exact I]|reflexivity].
  - assert (s' = mkLs (dropN n (l_in s)) (l_out s) (l_id s)) as -> by congruence.
    split; [split; [apply bytes_ok_dropN; exact G|exact I]|reflexivity].
Qed.

Lemma four : forall a b c d, a < 256 -> b < 256 -> c < 256 -> d < 256 ->
  be32 (ato32_val a b c d) = [a; b; c; d] /\ ato32_val a b c d < W32.
Proof.
  intros a b c d A B C D. rewrite ato32_val_be by assumption. split.
  - apply be32_value; [reflexivity|]. repeat (constructor; [assumption|]). constructor.
  - unfold be_value, W32. cbn. lia.
Qed.

Lemma header_inv : forall s n ty id s', good s -> GetHeader s = (Some (n, ty, id), s') ->
  exists g, l_in s = g ++ l_in s' /\ g = be32 (5 + n) ++ [ty] ++ be32 id /\
    0 < n < 2147483648 /\ ty < 256 /\ id < W32 /\ l_out s' = l_out s /\ l_id s' = l_id s.
Proof.
  intros s n ty id s' (G & _) H. unfold GetHeader in H. destruct (take SFTP_HEADER s) as ([h|], s1) eqn:T; [|discriminate].
  destruct (take_inv _ _ _ _ T) as (E & L & O & I). rewrite E in G. apply bytes_ok_app in G. destruct G as (G & _).
  do 9 (destruct h as [|? h]; [exfalso; revert L; rewrite ?lenN_cons; change SFTP_HEADER with 9; change (lenN (@nil N)) with 0; lia|]).
  destruct h; [|exfalso; revert L; rewrite !lenN_cons; change SFTP_HEADER with 9; lia].
  unfold bytes_ok in G. repeat match goal with X : Forall _ (_ :: _) |- _ => apply Forall_cons_iff in X; destruct X end.
  match type of H with context [ato32 [?a; ?b; ?c; ?d; ?t; ?e; ?f; ?g; ?i] 0] =>
    change (ato32 [a; b; c; d; t; e; f; g; i] 0) with (Some (ato32_val a b c d)) in H;
    change (rd [a; b; c; d; t; e; f; g; i] 4) with (Some t) in H;
    change (ato32 [a; b; c; d; t; e; f; g; i] 5) with (Some (ato32_val e f g i)) in H;
    destruct (four a b c d) as (Q1 & Q2); [assumption|assumption|assumption|assumption|];
    destruct (four e f g i) as (Q3 & Q4); [assumption|assumption|assumption|assumption|];
    set (len := ato32_val a b c d) in *; set (num := ato32_val e f g i) in *; clearbody len num
  end.
  cbv beta iota zeta in H. destruct (N.eqb_spec (sub32 len 5) 0) as [|Z]; cbn [orb] in H; [discriminate H|].
  destruct (N.leb_spec 2147483648 (sub32 len 5)) as [|Y]; [discriminate H|].
  assert (n = sub32 len 5) as -> by congruence. assert (num = id) as <- by congruence.
  assert (s1 = s') as <- by congruence.
  match type of H with context [(Some (_, ?t, _), _)] => assert (ty = t) as -> by congruence end.
  assert (len = 5 + sub32 len 5) as Q5 by (unfold sub32, w32, W32 in *; lia).
  eexists. split; [exact E|]. rewrite <- Q5, Q1, Q3. split; [reflexivity|].
  split; [lia|]. split; [assumption|]. split; [exact Q4|]. split; [exact O|exact I].
Qed.

Lemma header_good : forall s x s', good s -> GetHeader s = (x, s') -> good s' /\ l_id s' = l_id s.
Proof.
  intros s x s' G H. unfold GetHeader in H. destruct (take SFTP_HEADER s) as (h, s1) eqn:T.
  destruct (take_good _ _ _ _ G T) as (G1 & I1).
  assert (s' = s1) as ->; [|split; assumption].
  destruct h as [h|]; [|congruence]. destruct (ato32 h 0); [|congruence]. destruct (rd h 4); [|congruence].
  destruct (ato32 h 5); [|congruence]. cbv zeta in H. destruct (_ || _); congruence.
Qed.

(* a header and its contents are a message *)
Lemma message : forall s n ty id s1 b s2, good s -> GetHeader s = (Some (n, ty, id), s1) ->
  take n s1 = (Some b, s2) ->
  framed (Msg ty id b) /\ l_in s = wire (Msg ty id b) ++ l_in s2 /\ lenN b = n.
Proof.
  intros s n ty id s1 b s2 G H T. destruct (header_inv _ _ _ _ _ G H) as (g & E & -> & Hn & Ht & Hi & _ & _).
  destruct (take_inv _ _ _ _ T) as (E2 & L & _ & _). destruct G as (G & _). rewrite E, E2 in G.
  apply bytes_ok_app in G. destruct G as (_ & G). apply bytes_ok_app in G. destruct G as (G & _).
  split; [|split; [|exact L]].
  - split; [exact Ht|]. split; [exact Hi|]. split; [exact G|]. cbn [m_body]. lia.
  - rewrite E, E2. unfold wire. cbn [m_type m_id m_body]. rewrite L, <- !app_assoc. reflexivity.
Qed.

Lemma add_up : forall i, add32 i 1 = up i 1.
Proof. reflexivity. Qed.
Lemma next_good : forall s, good s -> good (next_id s).
Proof. intros s (G & I). split; [exact G|]. apply up_lt. Qed.

Lemma take_next : forall n s b s2, take n (next_id s) = (Some b, s2) ->
  take n s = (Some b, mkLs (l_in s2) (l_out s2) (l_id s)).
Proof.
  intros n (i, o, r) b s2 T. unfold take, next_id in *. cbn [l_in l_out l_id] in *.
  destruct (lenN i <? n); [discriminate|]. injection T as <- <-. reflexivity.
Qed.

Lemma name_inv : forall s, good s ->
  match DoName s with
  | None => False
  | Some (l, s') => good s' /\
      (l <> [] -> exists es m, l = rev es /\ names (l_id s) es m /\ l_in s = wire m ++ l_in s' /\ l_id s' = up (l_id s) 1)
  end.
Proof.
  intros s G. unfold DoName. destruct (GetHeader s) as ([((n, ty), id)|], s1) eqn:H;
    destruct (header_good _ _ _ G H) as (G1 & I1); [|split; [exact G1|intros X; contradiction]].
  destruct (N.ltb_spec MAX_SFTP_NAME n) as [|Ln]; [split; [exact G1|intros X; contradiction]|].
  destruct (N.eqb_spec id (l_id s1)) as [Ei|]; cbn [negb]; [|split; [exact G1|intros X; contradiction]].
  destruct (N.eqb_spec ty FTP_NAME) as [->|].
  - destruct (take n (next_id s1)) as ([b|], s2) eqn:T;
      destruct (take_good _ _ _ _ (next_good _ G1) T) as (G2 & I2); [|split; [exact G2|intros X; contradiction]].
    assert (T' : take n s1 = (Some b, mkLs (l_in s2) (l_out s2) (l_id s1))).
    { apply take_next. exact T. }
    destruct (message _ _ _ _ _ _ _ G H T') as (F & E & L). cbn [l_in] in E.
    assert (Fb : bytes_ok b) by apply F. destruct (header_inv _ _ _ _ _ G H) as (_ & _ & _ & Hn & _).
    pose proof (parse_names_inv b Fb ltac:(unfold is32, W32; lia)) as P.
    destruct (ParseNames b) as [l i|e i|]; [|split; [exact G2|intros X; contradiction]|exact P].
    destruct P as (es & -> & C). split; [exact G2|]. intros _. exists es, (Msg FTP_NAME id b).
    split; [reflexivity|]. split; [|split; [exact E|]].
    + split; [exact F|]. split; [reflexivity|]. split; [cbn [m_id]; congruence|]. split; [|exact C].
      cbn [m_body]. unfold MAX_SFTP_NAME in Ln. lia.
    + rewrite I2. unfold next_id. cbn [l_id]. rewrite add_up, I1. reflexivity.
  - destruct (ty =? FTP_STATUS); [|split; [exact G1|intros X; contradiction]].
    destruct (take n s1) as (x, s2) eqn:T. cbn [snd].
    split; [apply (take_good _ _ _ _ G1 T)|intros X; contradiction].
Qed.

(* nothing is put back *)
Lemma take_left : forall n s x s', take n s = (x, s') -> exists p, l_in s = p ++ l_in s'.
Proof.
  intros n s x s' H. unfold take in H. destruct (lenN (l_in s) <? n).
  - assert (s' = mkLs [] (l_out s) (l_id s)) as -> by congruence. exists (l_in s). cbn. rewrite app_nil_r. reflexivity.
  - assert (s' = mkLs (dropN n (l_in s)) (l_out s) (l_id s)) as -> by congruence. exists (takeN n (l_in s)).
    symmetry. apply takeN_dropN.
Qed.
Lemma header_left : forall s x s', GetHeader s = (x, s') -> exists p, l_in s = p ++ l_in s'.
Proof.
  intros s x s' H. unfold GetHeader in H. destruct (take SFTP_HEADER s) as (h, s1) eqn:T.
  assert (s' = s1) as ->; [|apply (take_left _ _ _ _ T)].
  destruct h as [h|]; [|congruence]. destruct (ato32 h 0); [|congruence]. destruct (rd h 4); [|congruence].
  destruct (ato32 h 5); [|congruence]. cbv zeta in H. destruct (_ || _); congruence.
Qed.
Lemma name_left : forall s,
  match DoName s with None => True | Some (_, s') => exists p, l_in s = p ++ l_in s' end.
Proof.
  intros s. unfold DoName. destruct (GetHeader s) as ([((n, ty), id)|], s1) eqn:H;
    destruct (header_left _ _ _ H) as (p & E); [|exists p; exact E].
  destruct (MAX_SFTP_NAME <? n); [exists p; exact E|]. destruct (negb (id =? l_id s1)); [exists p; exact E|].
  destruct (ty =? FTP_NAME).
  - destruct (take n (next_id s1)) as (b, s2) eqn:T. destruct (take_left _ _ _ _ T) as (q & E2).
    assert (exists p, l_in s = p ++ l_in s2).
    { exists (p ++ q). cbn [next_id l_in] in E2. rewrite E, E2, app_assoc. reflexivity. }
    destruct b as [b|]; [|assumption]. destruct (ParseNames b); [assumption|assumption|exact I].
  - destruct (ty =? FTP_STATUS); [|exists p; exact E]. destruct (take n s1) as (b, s2) eqn:T.
    destruct (take_left _ _ _ _ T) as (q & E2). cbn [snd]. exists (p ++ q). rewrite E, E2, app_assoc. reflexivity.
Qed.

Lemma send_good : forall ty b s, good s -> good (send ty b s).
Proof. intros ty b s (A & B). split; assumption. Qed.

Lemma status_ok_inv : forall b, bytes_ok b -> is32 (lenN b) -> DoStatus b = Some 0 -> exists x, b = be32 0 ++ x.
Proof.
  intros b Hb H3 H. unfold DoStatus in H. destruct (GetUint32 b (lenN b) 0) as [st i| |] eqn:E; [|discriminate|discriminate].
  assert (st = 0) as ->.
  { destruct (GetStringRef b (lenN b) i) as [q j| |]; [|discriminate|discriminate].
    destruct (GetStringRef b (lenN b) j); [|discriminate|discriminate].
    unfold FTP_UNSUPPORTED, FTP_FAILURE in H. destruct (8 <? st); congruence. }
  apply (GetUint32_iff b Hb H3) in E; [|lia]. destruct E as ((A & _) & _).
  rewrite dropN_0 in A. eexists. exact A.
Qed.

Lemma handle_inv : forall s h s', good s -> GetHandle s = (h, s') -> good s' /\
  (h <> None -> exists m, opened (l_id s) m (l_id s') /\ l_in s = wire m ++ l_in s').
Proof.
  intros s h s' G R. unfold GetHandle in R. destruct (GetHeader s) as ([((n, ty), id)|], s1) eqn:H;
    destruct (header_good _ _ _ G H) as (G1 & I1);
    [|assert (s' = s1) as -> by congruence; split; [exact G1|intros X; exfalso; apply X; congruence]].
  destruct (N.eqb_spec ty FTP_HANDLE) as [->|].
  - destruct (N.eqb_spec id (l_id s1)) as [Ei|]; cbn [negb] in R;
      [|assert (s' = s1) as -> by congruence; split; [exact G1|intros X; exfalso; apply X; congruence]].
    destruct (take n (next_id s1)) as ([b|], s2) eqn:T;
      destruct (take_good _ _ _ _ (next_good _ G1) T) as (G2 & I2);
      assert (s' = s2) as -> by congruence; [|split; [exact G2|intros X; exfalso; apply X; congruence]].
    split; [exact G2|]. intros _.
    assert (T' : take n s1 = (Some b, mkLs (l_in s2) (l_out s2) (l_id s1))).
    { apply take_next. exact T. }
    destruct (message _ _ _ _ _ _ _ G H T') as (F & E & L). cbn [l_in] in E.
    exists (Msg FTP_HANDLE id b). split; [|exact E]. left. split; [exact F|]. split; [reflexivity|].
    split; [cbn [m_id]; congruence|]. rewrite I2. unfold next_id. cbn [l_id]. rewrite add_up, I1. reflexivity.
  - destruct (N.eqb_spec ty FTP_STATUS) as [->|];
      [|assert (s' = s1) as -> by congruence; split; [exact G1|intros X; exfalso; apply X; congruence]].
    destruct (take n s1) as ([b|], s2) eqn:T; destruct (take_good _ _ _ _ G1 T) as (G2 & I2);
      [|assert (s' = s2) as -> by congruence; split; [exact G2|intros X; exfalso; apply X; congruence]].
    destruct (message _ _ _ _ _ _ _ G H T) as (F & E & L).
    destruct (header_inv _ _ _ _ _ G H) as (_ & _ & _ & Hn & _).
    assert (s' = s2) as -> by (destruct (DoStatus b) as [[|]|]; congruence). split; [exact G2|]. intros X.
    exists (Msg FTP_STATUS id b). split; [|exact E]. right. split; [|congruence].
    split; [exact F|]. split; [reflexivity|]. cbn [m_body]. apply status_ok_inv; [apply F|unfold is32, W32; lia|].
    destruct (DoStatus b) as [[|]|]; [reflexivity|exfalso; apply X; congruence|exfalso; apply X; congruence].
Qed.

Lemma loop_read : forall h fuel acc s, good s ->
  match read_loop fuel h acc s with
  | None => False
  | Some (l, s') => good s' /\ exists ess bs x, l = acc ++ List.concat (map (@rev entry) ess) /\
      batches (l_id s) ess bs /\ l_in s = wires bs ++ x ++ l_in s'
  end.
Proof.
  intros h. induction fuel as [|fuel IH]; intros acc s G; cbn [read_loop].
  - split; [exact G|]. exists [], [], []. cbn. rewrite app_nil_r. split; [reflexivity|]. split; [constructor|reflexivity].
  - pose proof (name_inv _ (send_good FTP_READDIR h s G)) as P. pose proof (name_left (send FTP_READDIR h s)) as Q.
    destruct (DoName (send FTP_READDIR h s)) as [(l, s1)|]; [|exact P].
    destruct P as (G1 & P). destruct l as [|e l].
    + split; [exact G1|]. destruct Q as (x & Q). exists [], [], x. cbn [map List.concat]. rewrite app_nil_r.
      split; [reflexivity|]. split; [constructor|exact Q].
    + destruct (P ltac:(discriminate)) as (es & m & El & Nm & E & I). specialize (IH (acc ++ e :: l) s1 G1).
      destruct (read_loop fuel h (acc ++ e :: l) s1) as [(l', s')|]; [|exact IH].
      destruct IH as (G' & ess & bs & x & -> & B & E'). split; [exact G'|]. exists (es :: ess), (m :: bs), x.
      split; [cbn [map List.concat]; rewrite <- app_assoc, El; reflexivity|]. split.
      * constructor; [intros ->; discriminate El|exact Nm|]. cbn [send l_id] in I. rewrite <- I. exact B.
      * cbn [send l_in] in E. rewrite wires_cons, E, E', <- app_assoc. reflexivity.
Qed.

Lemma close_inv : forall h s s', good s -> Close h s = (true, s') ->
  exists m, success m /\ l_in s = wire m ++ l_in s'.
Proof.
  intros h s s' G R. unfold Close in R. pose proof (send_good FTP_CLOSE h s G) as Gs.
  destruct (GetHeader (send FTP_CLOSE h s)) as ([((n, ty), id)|], s1) eqn:H; [|discriminate].
  destruct (N.eqb_spec ty FTP_STATUS) as [->|]; cbn [negb] in R; [|discriminate].
  destruct (take n s1) as ([b|], s2) eqn:T; [|discriminate].
  destruct (message _ _ _ _ _ _ _ Gs H T) as (F & E & L). destruct (header_inv _ _ _ _ _ Gs H) as (_ & _ & _ & Hn & _).
  assert (s' = s2) as -> by congruence. exists (Msg FTP_STATUS id b). split; [|exact E].
  split; [exact F|]. split; [reflexivity|]. cbn [m_body]. apply status_ok_inv; [apply F|unfold is32, W32; lia|].
  destruct (DoStatus b) as [[|]|]; [reflexivity|discriminate|discriminate].
Qed.

Lemma listed : forall dir s, good s ->
  match SFTP_LS dir s with
  | None => False
  | Some (l, s') => l <> [] ->
      exists es0 m0 m1 id2 ess bs x m3,
        names (l_id s) es0 m0 /\ opened (up (l_id s) 1) m1 id2 /\ batches id2 ess bs /\ success m3 /\
        l = List.concat (map (@rev entry) ess) /\
        l_in s = wire m0 ++ wire m1 ++ wires bs ++ x ++ wire m3 ++ l_in s'
  end.
Proof.
  intros dir s G. unfold SFTP_LS. pose proof (name_inv _ (send_good FTP_REALPATH dir s G)) as P.
  destruct (DoName (send FTP_REALPATH dir s)) as [(l, s1)|]; [|exact P]. destruct P as (G1 & P).
  destruct l as [|((path, lg), a) l]; [intros X; contradiction|].
  destruct (P ltac:(discriminate)) as (es0 & m0 & _ & N0 & E0 & I0). cbn [send l_in l_id] in N0, E0, I0.
  destruct (lenN path =? 0); [intros X; contradiction|].
  destruct (GetHandle (send FTP_OPENDIR path s1)) as (hd, s2) eqn:H.
  destruct (handle_inv _ _ _ (send_good FTP_OPENDIR path s1 G1) H) as (G2 & P2).
  destruct hd as [h|]; [|intros X; contradiction].
  destruct (P2 ltac:(discriminate)) as (m1 & O1 & E1). cbn [send l_in l_id] in O1, E1. rewrite I0 in O1.
  pose proof (loop_read h (S (List.length (l_in s2))) [] s2 G2) as R.
  destruct (read_loop (S (List.length (l_in s2))) h [] s2) as [(l', s3)|]; [|exact R].
  destruct R as (G3 & ess & bs & x & -> & B & E3). cbn [app].
  destruct (Close h s3) as ([|], s4) eqn:C; [|intros X; contradiction]. intros _.
  destruct (close_inv _ _ _ G3 C) as (m3 & S3 & E4).
  exists es0, m0, m1, (l_id s2), ess, bs, x, m3.
  split; [exact N0|]. split; [exact O1|]. split; [exact B|]. split; [exact S3|]. split; [reflexivity|].
  rewrite E0, E1, E3, E4. reflexivity.
Qed.

(* ---- a connection that ends early -------------------------------------- *)

Lemma cut_case : forall A (p q a b : list A), p ++ q = a ++ b ->
  (exists p', p = a ++ p' /\ p' ++ q = b) \/ (exists q', a = p ++ q' /\ q' <> [] /\ q = q' ++ b).
Proof.
  induction p as [|x p IH]; intros q a b H.
  - destruct a as [|y a]; [left; exists []; split; [reflexivity|exact H]|].
    right. exists (y :: a). split; [reflexivity|]. split; [discriminate|exact H].
  - destruct a as [|y a]; [left; exists (x :: p); split; [reflexivity|exact H]|].
    cbn [app] in H. injection H as <- H. destruct (IH _ _ _ H) as [(p' & -> & E)|(q' & -> & N & E)].
    + left. exists p'. split; [reflexivity|exact E].
    + right. exists q'. split; [reflexivity|]. split; assumption.
Qed.

(* a message of which the end is missing *)
Lemma header_cut : forall m p q o i, framed m -> wire m = p ++ q -> q <> [] ->
  exists s', (GetHeader (mkLs p o i) = (None, s') /\ l_in s' = []) \/
    (GetHeader (mkLs p o i) = (Some (lenN (m_body m), m_type m, m_id m), s') /\ l_id s' = i /\ lenN (l_in s') < lenN (m_body m)).
Proof.
  intros m p q o i F E N. destruct (N.ltb_spec (lenN p) 9) as [L|L].
  - exists (mkLs [] o i). left. unfold GetHeader, take. cbn [l_in l_out l_id]. change SFTP_HEADER with 9.
    destruct (N.ltb_spec (lenN p) 9); [split; reflexivity|lia].
  - assert (Ep : exists t, p = (be32 (5 + lenN (m_body m)) ++ [m_type m] ++ be32 (m_id m)) ++ t /\ m_body m = t ++ q).
    { unfold wire in E. set (g := be32 (5 + lenN (m_body m)) ++ [m_type m] ++ be32 (m_id m)).
      assert (E' : p ++ q = g ++ m_body m) by (rewrite <- E; unfold g; rewrite <- !app_assoc; reflexivity).
      destruct (cut_case _ _ _ _ _ E') as [(t & A & B)|(t & A & B & C)].
      - exists t. split; [exact A|symmetry; exact B].
      - exfalso. apply (f_equal lenN) in A. rewrite lenN_app in A. change (lenN g) with 9 in A.
        destruct t; [contradiction|]. rewrite lenN_cons in A. lia. }
    destruct Ep as (t & Ep & Eb). exists (mkLs t o i). right.
    assert (Lt : lenN t < lenN (m_body m)) by (rewrite Eb, lenN_app; destruct q; [contradiction|]; rewrite lenN_cons; lia).
    split; [|split; [reflexivity|exact Lt]].
    destruct m as (ty, id, b). destruct F as (_ & Hi & _ & Hb). cbn [m_type m_id m_body] in *. unfold GetHeader.
    rewrite Ep. set (g := be32 (5 + lenN b) ++ [ty] ++ be32 id).
    change SFTP_HEADER with (lenN g). rewrite take_app.
    destruct (header_parse (5 + lenN b) ty id ltac:(unfold W32; lia) Hi) as (A & B & C). fold g in A, B, C.
    rewrite A, B, C. rewrite sub5 by lia.
    destruct (N.eqb_spec (lenN b) 0); [lia|]. destruct (N.leb_spec 2147483648 (lenN b)); [lia|]. reflexivity.
Qed.

Lemma take_cut : forall n s, lenN (l_in s) < n -> take n s = (None, mkLs [] (l_out s) (l_id s)).
Proof. intros n s H. unfold take. destruct (N.ltb_spec (lenN (l_in s)) n); [reflexivity|lia]. Qed.

Lemma name_cut : forall m p q o, framed m -> (m_type m = 104 \/ m_type m = 101) -> lenN (m_body m) <= 1048576 ->
  wire m = p ++ q -> q <> [] ->
  exists s', DoName (mkLs p o (m_id m)) = Some ([], s') /\ l_in s' = [].
Proof.
  intros m p q o F T L E N. destruct (header_cut m p q o (m_id m) F E N) as (s1 & [(H & Z)|(H & I & Lt)]); unfold DoName; rewrite H.
  - exists s1. split; [reflexivity|exact Z].
  - unfold MAX_SFTP_NAME. destruct (N.ltb_spec 1048576 (lenN (m_body m))); [lia|]. rewrite I, N.eqb_refl. cbn [negb].
    destruct T as [->| ->].
    + change (104 =? FTP_NAME) with true. cbv iota. rewrite take_cut by exact Lt. eexists. split; reflexivity.
    + change (101 =? FTP_NAME) with false. change (101 =? FTP_STATUS) with true. cbv iota. rewrite take_cut by exact Lt.
      eexists. split; reflexivity.
Qed.

Lemma handle_cut : forall m p q o i, framed m -> wire m = p ++ q -> q <> [] ->
  fst (GetHandle (mkLs p o i)) = None.
Proof.
  intros m p q o i F E N. destruct (header_cut m p q o i F E N) as (s1 & [(H & Z)|(H & I & Lt)]); unfold GetHandle; rewrite H; [reflexivity|].
  destruct (m_type m =? FTP_HANDLE).
  - destruct (m_id m =? l_id s1); cbn [negb]; [|reflexivity]. rewrite take_cut by exact Lt. reflexivity.
  - destruct (m_type m =? FTP_STATUS); [|reflexivity]. rewrite take_cut by exact Lt. reflexivity.
Qed.

Lemma close_cut : forall m h p q o i, framed m -> wire m = p ++ q -> q <> [] ->
  fst (Close h (mkLs p o i)) = false.
Proof.
  intros m h p q o i F E N. unfold Close, send. cbn [l_in l_out l_id].
  destruct (header_cut m p q (o ++ SimpleMsg FTP_CLOSE i h) i F E N) as (s1 & [(H & Z)|(H & I & Lt)]); rewrite H; [reflexivity|].
  destruct (m_type m =? FTP_STATUS); cbn [negb]; [|reflexivity]. rewrite take_cut by exact Lt. reflexivity.
Qed.
Lemma close_none : forall h s, l_in s = [] -> fst (Close h s) = false.
Proof.
  intros h (i, o, r) E. cbn [l_in] in E. subst i. reflexivity.
Qed.

(* the batches, the status and the acknowledgement, cut *)
Lemma loop_cut : forall h, lenN h <= 256 -> forall id ess bs, batches id ess bs -> id < W32 ->
  forall code m2 m3 p q o fuel acc, status_of code m2 -> m_id m2 = up id (lenN ess) -> lenN (m_body m2) <= 1048576 -> status_of 0 m3 ->
  (Datatypes.length p < fuel)%nat ->
  wires bs ++ wire m2 ++ wire m3 = p ++ q -> q <> [] ->
  exists l s', read_loop fuel h acc (mkLs p o id) = Some (l, s') /\ fst (Close h s') = false.
Proof.
  intros h Hh id ess bs B. induction B as [id|id es ess m ms NE Nm B IH]; intros Hid code m2 m3 p q o fuel acc S2 I2 L2 S3 Lf E N;
    (destruct fuel as [|fuel]; [lia|]); cbn [read_loop]; rewrite send_eq by (unfold W32; lia).
  - change (lenN (@nil (list entry))) with 0 in I2. rewrite up_0 in I2 by exact Hid.
    change (wires [] ++ wire m2 ++ wire m3) with (wire m2 ++ wire m3) in E. symmetry in E.
    destruct (cut_case _ _ _ _ _ E) as [(p' & -> & E')|(q' & E' & N' & _)].
    + pose proof (status_stops code m2 p' (o ++ wire (Msg FTP_READDIR id (str h))) S2 L2) as H. rewrite I2 in H. rewrite H. eexists acc, _. split; [reflexivity|].
      apply (close_cut m3 h p' q); [apply S3|symmetry; exact E'|exact N].
    + assert (T : m_type m2 = 101) by apply S2.
      destruct (name_cut m2 p q' (o ++ wire (Msg FTP_READDIR id (str h))) (proj1 S2) (or_intror T) L2 E' N') as (s' & H & Z).
      rewrite I2 in H. rewrite H. exists acc, s'. split; [reflexivity|]. apply close_none. exact Z.
  - rewrite wires_cons, <- app_assoc in E. symmetry in E. rewrite lenN_cons in I2.
    destruct (cut_case _ _ _ _ _ E) as [(p' & -> & E')|(q' & E' & N' & _)].
    + rewrite (names_done id es) by assumption.
      destruct (rev es) as [|e l] eqn:Er.
      { apply (f_equal (@rev _)) in Er. rewrite rev_involutive in Er. contradiction. }
      rewrite app_length in Lf. pose proof (wire_len m) as Lw. unfold lenN in Lw.
      apply (IH (up_lt id 1) code m2 m3 p' q); try assumption; [rewrite up_up; exact I2|lia|symmetry; exact E'].
    + destruct Nm as (Fm & Tm & Im & Lm & _).
      destruct (name_cut m p q' (o ++ wire (Msg FTP_READDIR id (str h))) Fm (or_introl Tm) Lm E' N') as (s' & H & Z).
      rewrite Im in H. rewrite H. exists acc, s'. split; [reflexivity|]. apply close_none. exact Z.
Qed.

Lemma listing_cut : forall id dir path h ess code ms p q o, id < W32 -> lenN dir < 2147483648 -> path <> [] ->
  served id path h ess code ms -> wires ms = p ++ q -> q <> [] ->
  exists s', SFTP_LS dir (mkLs p o id) = Some ([], s').
Proof.
  intros id dir path h ess code ms p q o Hid Hd Hp S E N. pose proof S as S'.
  destruct S as (long & a & m0 & m1 & bs & m2 & m3 & N0 & H1 & B & S2 & I2 & L2 & S3 & ->).
  assert (Lp : 0 < lenN path <= 1048576).
  { split; [destruct path; [contradiction|rewrite lenN_cons; lia]|].
    destruct N0 as (_ & _ & _ & L & cb & nbs & x & _ & F & E0). inversion F as [|e b es l W F']; subst.
    destruct W as (nb & tb & ab & (lb & _ & ->) & _ & _ & ->). rewrite E0 in L. cbn [List.concat] in L.
    rewrite !lenN_app in L. lia. }
  assert (Lh : lenN h <= 256) by apply H1.
  rewrite !wires_cons, wires_app in E. symmetry in E. unfold SFTP_LS. rewrite send_eq by (unfold W32; lia).
  destruct (cut_case _ _ _ _ _ E) as [(p' & -> & E')|(q' & E' & N' & _)].
  2: { destruct N0 as (F0 & T0 & I0 & L0 & _).
       destruct (name_cut m0 p q' (o ++ wire (Msg FTP_REALPATH id (str dir))) F0 (or_introl T0) L0 E' N') as (s' & H & _).
       rewrite I0 in H. rewrite H. exists s'. reflexivity. }
  rewrite (names_done id _ m0 _ _ N0 Hid). cbn [rev app]. destruct (N.eqb_spec (lenN path) 0); [lia|].
  rewrite send_eq by (unfold W32; lia).
  destruct (cut_case _ _ _ _ _ E') as [(p2 & -> & E2)|(q' & E2 & N' & _)].
  2: { match goal with |- context [GetHandle (mkLs p' ?o' ?i')] =>
         pose proof (handle_cut m1 p' q' o' i' (proj1 H1) E2 N') as H; destruct (GetHandle (mkLs p' o' i')) as (hd, s') end.
       cbn [fst] in H. subst hd. exists s'. reflexivity. }
  rewrite (handle_done (up id 1) h m1) by (assumption || apply up_lt). rewrite up_up. change (1 + 1) with 2. cbn [l_in].
  match goal with |- context [read_loop ?f h [] (mkLs p2 ?o' ?i')] =>
    destruct (loop_cut h Lh (up id 2) ess bs B (up_lt id 2) code m2 m3 p2 q o' f []) as (l & s' & R & C) end;
    try assumption; [rewrite up_up; exact I2|lia| |].
  { rewrite E2. unfold wires at 3. cbn [map List.concat]. rewrite app_nil_r. reflexivity. }
  rewrite R. destruct (Close h s') as (c, s2). cbn [fst] in C. subst c. exists s2. reflexivity.
Qed.

(* ---- what the server of SftpModel.v sends ------------------------------- *)

Lemma server_names : forall id es b, name_msg id es b -> bytes_ok b -> id < W32 -> lenN b <= 1048585 ->
  exists m, wire m = b /\ names id es m.
Proof.
  intros id es b (cb & bs & U & F & lb & ib & (L1 & L2) & (I1 & I2) & ->) Hb Hid Lb.
  set (body := cb ++ List.concat bs) in *. exists (Msg 104 id body).
  rewrite !lenN_app in Lb. change (lenN [104]) with 1 in Lb.
  apply bytes_ok_app in Hb. destruct Hb as (B1 & Hb). apply bytes_ok_app in Hb. destruct Hb as (_ & Hb).
  apply bytes_ok_app in Hb. destruct Hb as (B2 & B3).
  assert (0 < lenN body) by (unfold body; rewrite lenN_app; destruct U; lia).
  split.
  - unfold wire. cbn [m_type m_id m_body]. rewrite <- L2, <- I2, !be32_value by assumption. reflexivity.
  - split; [split; [cbn; lia|]; split; [exact Hid|]; split; [exact B3|]; cbn [m_body]; lia|].
    split; [reflexivity|]. split; [reflexivity|]. split; [cbn [m_body]; lia|].
    exists cb, bs, []. rewrite app_nil_r. split; [exact U|]. split; [exact F|reflexivity].
Qed.
