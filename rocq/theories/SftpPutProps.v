(* SftpPutProps.v - C95: this library's SFTP client stores a file on this
   library's SFTP server. The server's sessions are the histories of SftpSpec.v,
   newest request first. *)
From Verif Require Import Base WireModel WireSpec WireProofs PathModel PathSpec NegoSpec ReqSpec ReqProofs OsshSpec OsshProofs
  SftpModel SftpSpec SftpProofs7 SftpProps SftpProps2 SftpProps3 SftpClientModel SftpClientSpec SftpClientProofs SftpClientProofs2
  SftpClientProofs4 SftpClientProps SftpListProps SftpListProps2 SftpGetProps.
From Coq Require Import List NArith ZArith Bool Lia String.
Import ListNotations.
Open Scope N_scope.
Local Notation str := OsshSpec.str.
Local Notation "a ++ b" := (@app _ a b) : list_scope.

(* What a call does to the contents of the file behind [fd]: a pwrite() that
   returns n > 0 puts the first n bytes at its offset, with zeros before it if
   the file was shorter. *)
Definition writes_to (fd : Z) (f : bytes) (x : fscall * ans) : bytes :=
  match x with
  | (FPwrite y d o, a) => if (y =? fd)%Z && (0 <? r_int a)%Z then overlay f o (takeN (Z.to_N (r_int a)) d) else f
  | _ => f
  end.
Definition file_after (fd : Z) (l : list (fscall * ans)) (f : bytes) : bytes := fold_left (writes_to fd) l f.

(* a WRITE of some bytes, below 2^64 *)
Definition some_write (hb : bytes) (q : msg) : Prop :=
  m_type q = 6 -> exists off d, d <> [] /\ off + lenN d <= 2 ^ 64 /\ m_body q = str hb ++ be64 off ++ str d.

(* ---- contents as functions ---------------------------------------------------- *)

Definition at_ (f : bytes) : file := fun y => nth (N.to_nat y) f 0.

Lemma overlay_len : forall f o d, lenN (overlay f o d) = N.max (N.max (lenN f) o) (o + lenN d).
Proof.
  intros f o d. unfold overlay. rewrite !lenN_app, lenN_takeN, lenN_dropN.
  assert (lenN (repeat 0 (N.to_nat (o - lenN f))) = o - lenN f) as -> by (unfold lenN; rewrite repeat_length; lia). lia.
Qed.

Lemma nth_skip : forall n i (l : bytes), nth i (skipn n l) 0 = nth (n + i) l 0.
Proof. induction n as [|n IH]; intros i [|a l]; cbn [skipn nth Nat.add]; try reflexivity; [destruct i; reflexivity|apply IH]. Qed.

Lemma overlay_at : forall f o d y, at_ (overlay f o d) y = patch (at_ f) o d y.
Proof.
  intros f o d y. unfold at_, patch, overlay.
  assert (Lt : List.length (takeN o f) = N.to_nat (N.min o (lenN f))) by (pose proof (lenN_takeN N o f) as K; unfold lenN in *; lia).
  destruct (N.leb_spec o y) as [A|A]; cbn [andb].
  - rewrite app_nth2 by (rewrite Lt; lia).
    rewrite app_nth2 by (rewrite Lt, repeat_length; lia). rewrite Lt, repeat_length.
    replace (N.to_nat y - N.to_nat (N.min o (lenN f)) - N.to_nat (o - lenN f))%nat with (N.to_nat (y - o)) by lia.
    destruct (N.ltb_spec y (o + lenN d)) as [B|B].
    + apply app_nth1. unfold lenN in B. lia.
    + rewrite app_nth2 by (unfold lenN in B; lia). unfold dropN. rewrite nth_skip. f_equal. unfold lenN in *. lia.
  - destruct (N.ltb_spec y (lenN f)) as [B|B].
    + rewrite app_nth1 by (rewrite Lt; lia). unfold takeN. rewrite <- (firstn_skipn (N.to_nat o) f) at 2.
      symmetry. apply app_nth1. rewrite firstn_length. unfold lenN in *. lia.
    + rewrite app_nth2 by (rewrite Lt; lia). rewrite app_nth1 by (rewrite Lt, repeat_length; lia). rewrite nth_repeat.
      symmetry. apply nth_overflow. unfold lenN in *. lia.
Qed.

Lemma same_file : forall a b, lenN a = lenN b -> (forall y, at_ a y = at_ b y) -> a = b.
Proof.
  intros a b L H. apply (nth_ext _ _ 0 0); [unfold lenN in L; lia|]. intros n _. specialize (H (N.of_nat n)). unfold at_ in H.
  rewrite Nat2N.id in H. exact H.
Qed.

Lemma effects_ext : forall fd l f g, (forall y, f y = g y) -> forall y, effects fd l f y = effects fd l g y.
Proof.
  intros fd. induction l as [|x l IH]; intros f g H; [exact H|]. cbn [effects fold_left]. apply IH. intros y.
  destruct x as (c, a). destruct c; cbn [effect]; try apply H. destruct (_ && _)%bool; [|apply H]. unfold patch. rewrite H. reflexivity.
Qed.

Lemma after_at : forall fd l f y, at_ (file_after fd l f) y = effects fd l (at_ f) y.
Proof.
  intros fd. induction l as [|x l IH]; intros f y; [reflexivity|]. cbn [file_after effects fold_left].
  fold (file_after fd l (writes_to fd f x)). rewrite IH. apply effects_ext. intros z.
  destruct x as (c, a). destruct c; cbn [effect writes_to]; try reflexivity. destruct (_ && _)%bool; [apply overlay_at|reflexivity].
Qed.

(* How long the file is, by what is written to it: a byte is, if it is the same
   whatever was there before. *)
Lemma after_len : forall fd l, Forall sane l -> forall n0 f g0 g1,
  (forall y, g0 y = g1 y -> y < lenN f) -> n0 <= lenN f -> (lenN f = n0 \/ g0 (lenN f - 1) = g1 (lenN f - 1)) ->
  (forall y, effects fd l g0 y = effects fd l g1 y -> y < lenN (file_after fd l f)) /\ n0 <= lenN (file_after fd l f) /\
  (lenN (file_after fd l f) = n0 \/
   effects fd l g0 (lenN (file_after fd l f) - 1) = effects fd l g1 (lenN (file_after fd l f) - 1)).
Proof.
  intros fd l Sn. induction Sn as [|x l S0 _ IH]; intros n0 f g0 g1 A B C; [auto|]. cbn [file_after effects fold_left].
  fold (file_after fd l (writes_to fd f x)). fold (effects fd l (effect fd g0 x)). fold (effects fd l (effect fd g1 x)).
  destruct x as (c, a). destruct c; cbn [effect writes_to]; try (apply IH; assumption).
  destruct ((_ =? fd)%Z && (0 <? r_int a)%Z) eqn:Q; [|apply IH; assumption].
  apply andb_true_iff in Q. destruct Q as (_ & Q). apply Z.ltb_lt in Q. cbn [sane] in S0.
  match goal with |- context [overlay f ?o (takeN ?k ?d)] => set (t := takeN k d); set (n := o);
    assert (Lt : 0 < lenN t) by (unfold t; rewrite lenN_takeN; lia) end. clearbody t n.
  apply IH; rewrite ?overlay_len.
  - intros y. unfold patch. destruct (N.leb_spec n y) as [M|M]; cbn [andb]; [destruct (N.ltb_spec y (n + lenN t)) as [K|K]|]; [lia| |]; intros G; apply A in G; lia.
  - lia.
  - destruct (N.le_gt_cases (n + lenN t) (lenN f)) as [K|K].
    + rewrite !N.max_l by lia. destruct C as [C|C]; [left; exact C|right]. unfold patch. rewrite C. reflexivity.
    + right. rewrite N.max_r by lia. unfold patch.
      destruct (N.leb_spec n (n + lenN t - 1)) as [M|M]; [|lia]. destruct (N.ltb_spec (n + lenN t - 1) (n + lenN t)) as [M'|M']; [reflexivity|lia].
Qed.

(* calls that change the file as one write does are one write *)
Lemma one_write : forall fd l o d, Forall sane l -> d <> [] -> (forall f y, effects fd l f y = patch f o d y) ->
  forall f, file_after fd l f = overlay f o d.
Proof.
  intros fd l o d Sn Nd H f. assert (Ld : 0 < lenN d) by (destruct d; [congruence|rewrite lenN_cons; lia]).
  apply same_file.
  - destruct (after_len fd l Sn (lenN f) f (fun _ => 0) (fun _ => 1)) as (A & B & C); [discriminate|lia|left; reflexivity|].
    set (n := lenN (file_after fd l f)) in *. clearbody n. rewrite overlay_len. rewrite !H in C.
    pose proof (A (o + lenN d - 1)) as A1. rewrite !H in A1. unfold patch in A1, C.
    destruct (N.leb_spec o (o + lenN d - 1)) as [M|M]; [|lia]. destruct (N.ltb_spec (o + lenN d - 1) (o + lenN d)) as [M'|M']; [|lia].
    specialize (A1 eq_refl). destruct C as [C|C]; [lia|].
    destruct (N.leb_spec o (n - 1)) as [K|K]; [|discriminate C]. destruct (N.ltb_spec (n - 1) (o + lenN d)) as [K'|K']; [|discriminate C]. lia.
  - intros y. rewrite after_at, overlay_at. apply H.
Qed.

(* ---- one request ---------------------------------------------------------------- *)

(* every pwrite() writes something, and not more than it is given *)
Definition all_taken (l : list (fscall * ans)) : Prop := Forall sane l /\ Forall (fun x => (0 < r_int (snd x))%Z) l.

Definition stored (fd : Z) (hb : bytes) (ev : hev) : Prop :=
  forall q b, got ev q -> replied ev b -> some_write hb q ->
  exists off d r, q = Msg 6 (m_id q) (str hb ++ be64 off ++ str d) /\ off < W32 * W32 /\
    wire r = b /\ framed r /\ m_id r = m_id q /\ m_type r = 101 /\ status 0 (m_body r) /\
    forall f, file_after fd (q_calls ev) f = overlay f off d.

Lemma write_stored : forall E os ev h s hb fd,
  hist E (path_run os) (ev :: h) s -> lenN (ev :: h) < 2 ^ 64 -> live opened hb fd h -> lenN hb < W32 ->
  all_taken (q_calls ev) -> q_ty ev = 6 -> stored fd hb ev.
Proof.
  intros E os ev h s hb fd H Hn L Hh (Sn & Pos) T q b (Gt & Gi & Gd) (Rb & Bb & Lb) W.
  destruct (W ltac:(congruence)) as (off & d & Nd & Lo & Q).
  assert (Ld : 0 < lenN d) by (destruct d; [congruence|rewrite lenN_cons; lia]).
  assert (Ho : off < W32 * W32) by (change (W32 * W32) with (2 ^ 64); lia).
  assert (Ldd : lenN (q_data ev) <= 65536) by (inversion H; subst; assumption).
  rewrite Gd, Q, !lenN_app, lenN_str in Ldd.
  destruct (C51_write E os ev h s hb fd (str hb) off (be64 off) d (str d) [] H Hn L T
    ltac:(rewrite app_nil_r, Gd; exact Q) (str_rel _ Hh) (u64_be64 _ Ho) (str_rel d ltac:(unfold W32; rewrite lenN_str in Ldd; lia)) Lo Sn)
    as (k & Lk & Ef & _ & [N0|[(m & Rm & Sm & ->)|(m & _ & _ & _ & y & Iy & Ny)]]); [congruence| |].
  2:{ exfalso. rewrite Forall_forall in Pos. specialize (Pos _ Iy). lia. }
  assert (m = b) as -> by congruence.
  destruct (server_status2 _ _ _ Sm Bb (hist_id _ _ _ _ _ H) eq_refl Lb) as (r & Wr & Fr & Ir & Tr & Sr).
  exists off, d, r. split; [destruct q as (t, i, bd); cbn [m_type m_id m_body] in *; congruence|]. split; [exact Ho|].
  split; [exact Wr|]. split; [exact Fr|]. split; [congruence|]. split; [exact Tr|]. split; [exact Sr|].
  apply one_write; [exact Sn|exact Nd|]. intros f y. rewrite Ef, takeN_all by lia. reflexivity.
Qed.

Lemma live_writes : forall hb fd ev h l, opened ev hb fd -> Forall (fun e => q_ty e = 6) l -> live opened hb fd (l ++ ev :: h).
Proof.
  intros hb fd ev h l Op. induction 1 as [|e l T _ IH]; [apply L_open; exact Op|]. cbn [app].
  apply L_keep; [exact IH|]. intros (T' & _). congruence.
Qed.

Lemma writes_stored : forall E os ev h hb fd, opened ev hb fd -> lenN hb < W32 ->
  forall l s, hist E (path_run os) (l ++ ev :: h) s -> lenN (l ++ ev :: h) < 2 ^ 64 ->
  Forall (fun e => q_ty e = 6 /\ all_taken (q_calls e)) l -> Forall (stored fd hb) l.
Proof.
  intros E os ev h hb fd Op Hh. induction l as [|e l IH]; intros s H Hn A; [constructor|].
  inversion_clear A as [|? ? (T & Tk) A']. cbn [app] in H, Hn |- *. constructor.
  - eapply write_stored; try eassumption. apply live_writes; [exact Op|]. eapply Forall_impl; [|exact A']. intros z (Tz & _). exact Tz.
  - destruct (hist_tail _ _ _ _ _ H) as (s0 & H0). eapply IH; [exact H0| |exact A']. rewrite lenN_cons in Hn. lia.
Qed.

Lemma file_after_app : forall fd a b f, file_after fd (a ++ b) f = file_after fd b (file_after fd a f).
Proof. intros. unfold file_after. apply fold_left_app. Qed.

(* a run of WRITEs, oldest first, then something else *)
Lemma all_stored : forall fd hb evs, Forall (stored fd hb) evs -> forall qs bs q r,
  Forall2 got evs qs -> Forall2 replied evs bs -> Forall (some_write hb) qs ->
  m_type q <> 3 -> m_type q <> 6 -> m_id r = m_id q ->
  exists rs, map wire rs = bs /\ Forall framed rs /\
    (forall f, serves hb f (qs ++ [q]) (rs ++ [r]) (file_after fd (List.concat (map q_calls evs)) f)) /\ all_written (qs ++ [q]) (rs ++ [r]).
Proof.
  intros fd hb evs. induction evs as [|ev evs IH]; intros A qs bs q r G R S N3 N6 Ir.
  - inversion G; subst. inversion R; subst. exists []. split; [reflexivity|]. split; [constructor|]. split.
    + intros f. apply Serves_other; [apply Serves_nil| | |]; assumption.
    + constructor; [intros T; congruence|constructor].
  - inversion G as [|? q0 ? qs' G1 G']; subst. inversion R as [|? b0 ? bs' R1 R']; subst.
    inversion_clear A as [|? ? A1 A']. inversion_clear S as [|? ? S1 S'].
    destruct (IH A' _ _ q r G' R' S' N3 N6 Ir) as (rs & <- & Fr & Sv & Aw).
    destruct (A1 _ _ G1 R1 S1) as (off & d & r0 & Q & Ho & <- & F0 & I0 & T0 & S0 & Fl).
    exists (r0 :: rs). split; [reflexivity|]. split; [constructor; assumption|]. split.
    + intros f. cbn [map List.concat app]. rewrite file_after_app, Fl. rewrite Q. apply Serves_write; auto.
    + cbn [app]. constructor; [intros _; exact S0|exact Aw].
Qed.

(* C95: the server was asked to open a file, to write to it and to close it,
   these are the requests the client sent, and the client was given the replies.
   If the file was empty when it was open, as the client asks for, and the client
   says it succeeded, then the server's file is the local file [L]. [side] is
   assumed, too. *)
Definition C95_put (side : cenv -> bytes -> list hev -> list ev -> Prop) : Prop :=
  forall E os h s evo writes evc hb fd L path flags x qs qo qc bs rest C j es req tab,
  let evs := evo :: rev writes ++ [evc] in
  let c := SFTP_Put C j es (idle req false tab L (List.concat bs ++ rest)) in
  stat_env E ->
  hist E (path_run os) (evc :: writes ++ evo :: h) s -> lenN (evc :: writes ++ evo :: h) < 2 ^ 64 ->
  opened evo hb fd -> Forall (fun e => q_ty e = 6 /\ Forall sane (q_calls e)) writes -> q_ty evc = 4 ->
  m_body qo = str path ++ be32 flags ++ x -> flags < W32 ->
  Forall2 got evs (qo :: qs ++ [qc]) -> Forall2 replied evs bs -> Forall framed (qo :: qs ++ [qc]) -> Forall (some_write hb) qs ->
  j_resume j = false -> req < W32 -> lenN L < W32 * W32 -> lenN (j_to j) < 2147483000 ->
  side C L writes es -> uninterrupted es ->
  x_out c = List.concat (map wire (qo :: qs ++ [qc])) -> x_res c = Some WS_SUCCESS ->
  file_after fd (calls writes) [] = L.
Definition C95_full : Prop := C95_put (fun _ _ _ _ => True).

(* missing from the full statement: writes of the server that fail, local reads
   that fail, and failures of the client's stream and memory (C84_refuted) *)
Theorem C95_put_partial : C95_put (fun C L writes es =>
  Forall (fun e => Forall (fun y => (0 < r_int (snd y))%Z) (q_calls e)) writes /\ readable C (lenN L) /\ no_failure es).
Proof.
  intros E os h s evo writes evc hb fd L path flags x qs qo qc bs rest C j es req tab evs c Se H Hn Op Wr Tc Qo Hfl G R Fq Sw
    Hr Hq HL Ht (Pos & Rd & Nf) Hu O Res.
  destruct (hist_tail _ _ _ _ _ H) as (s1 & H1). destruct (hist_drop _ _ _ _ _ H1) as (s2 & H2).
  assert (Hh : lenN hb < W32).
  { destruct Op as (_ & (m & Rm & Hm) & _). destruct (C49_fresh E os evo h s2 hb m H2) as (L8 & _); [|assumption|assumption|unfold W32; lia].
    rewrite lenN_cons, lenN_app in Hn. lia. }
  assert (St : Forall (stored fd hb) (rev writes)).
  { apply Forall_rev. eapply writes_stored; try eassumption; [rewrite lenN_cons in Hn; lia|].
    rewrite Forall_forall in *. intros e He. destruct (Wr e He) as (T & S). split; [exact T|]. split; [exact S|apply Pos; exact He]. }
  subst evs. inversion G as [|? ? ? ? Go G']; subst. inversion R as [|? bo ? bs' Ro R']; subst.
  apply Forall2_app_inv_l in R'. destruct R' as (bw & bc & Rw & Rc & ->). inversion Rc as [|? b1 ? ? Rc1 Rc2]; subst. inversion Rc2; subst.
  assert (Gw : Forall2 got (rev writes) qs /\ got evc qc).
  { apply Forall2_app_inv_l in G'. destruct G' as (qw & qz & Gw & Gz & Eq). inversion Gz as [|? q1 ? ? Gz1 Gz2]; subst. inversion Gz2; subst.
    apply app_inj_tail in Eq. destruct Eq as (-> & ->). auto. }
  destruct Gw as (Gw & Gc).
  assert (Ac : exists r, wire r = b1 /\ framed r /\ gives [] hb qc r).
  { eapply other_honest; [exact H|exact Se| | |exact Gc|exact Rc1|]; try (rewrite Tc; discriminate). intros T. destruct Gc as (T' & _). congruence. }
  destruct Ac as (rc & <- & Frc & Irc & _).
  assert (To : m_type qo = 3) by (destruct Op as (T & _); destruct Go as (T' & _); congruence).
  assert (Ao : exists r, wire r = bo /\ framed r /\ gives [] hb qo r).
  { eapply open_honest; [exact H2|exact Op|exact Go|exact Ro|]. intros T. congruence. }
  assert (Ao2 : exists r, wire r = bo /\ framed r /\ m_id r = m_id qo /\ m_type r = 102 /\ m_body r = str hb).
  { clear Ao. destruct Op as (_ & (m & Rm & z & Sz & Fz) & _). destruct Ro as (Rb & Bb & Lb). assert (m = bo) as -> by congruence.
    pose proof (str_fun _ _ Sz (frame_body _ _ _ _ Fz Bb)) as ->.
    destruct (server_frame _ _ _ _ Fz Bb (hist_id _ _ _ _ _ H2) Lb eq_refl (str_pos _ _ Sz)) as (W & Fr).
    eexists. split; [exact W|]. split; [exact Fr|]. destruct Go as (_ & Gi & _). split; [exact Gi|]. split; reflexivity. }
  clear Ao. destruct Ao2 as (ro & <- & Fro & Iro & Tro & Bro).
  assert (Tq : m_type qc = 4) by (destruct Gc; congruence).
  destruct (all_stored fd hb (rev writes) St qs bw qc rc Gw Rw Sw ltac:(rewrite Tq; discriminate) ltac:(rewrite Tq; discriminate) Irc)
    as (rs & <- & Frs & Sv & Aw).
  assert (S0 : serves hb [] (qo :: qs ++ [qc]) (ro :: rs ++ [rc]) (file_after fd (calls writes) [])).
  { destruct qo as (t, i, bd). cbn [m_type m_id m_body] in *. subst t bd. apply Serves_open; try assumption.
    destruct (N.testbit flags 4); apply Sv. }
  eapply (C84_put_partial C j L hb [] _ (qo :: qs ++ [qc]) (ro :: rs ++ [rc]) es req tab
    (List.concat (wire ro :: map wire rs ++ [wire rc]) ++ rest)); try eassumption.
  - split; [exact Rd|]. split; [constructor; [congruence|exact Aw]|exact Nf].
  - eapply Conversation; [| exact Fq| |exact O|].
    + cbn [List.length]. f_equal. eapply forall2_length. exact Aw.
    + constructor; [exact Fro|]. apply Forall_app. split; [exact Frs|]. constructor; [exact Frc|constructor].
    + cbn [map]. rewrite map_app. reflexivity.
Qed.
Print Assumptions C95_put_partial.

(* ---- the session is met --------------------------------------------------- *)

(* a file system that writes one byte at a time, and fails at the offset [bad] *)
Definition put_fs (bad : N) (log : list fscall) : ans :=
  match log with
  | FOpen _ _ _ :: _ => ls_ans 7 []
  | FPwrite _ _ o :: _ => ls_ans (if o =? bad then -1 else 1) []
  | _ => ls_ans 0 []
  end.
Definition putE (bad : N) : senv := mkSenv (put_fs bad) (fun _ _ => false) (fun _ _ => true) (fun n _ => Some n).
Definition put_L : bytes := [1; 2; 3].
Definition put_ws : list msg := [q_write 1 ls_hb 0 [1; 2]; q_write 2 ls_hb 2 [3]].
Definition both_put : list msg := q_open 0 [98] 26 :: put_ws ++ [q_close 3 ls_hb].
Definition put_step (bad : N) (x : list hev * srv) (q : msg) : list hev * srv := ls_do (putE bad) x (m_type q, m_id q, m_body q).
Definition put_serve (bad : N) (n : nat) : list hev * srv := fold_left (put_step bad) (firstn n both_put) ([], srv0 (path_run [])).
Definition put_ev (bad : N) (n : nat) : hev := nth n (rev (fst (put_serve bad 4))) (mkHev 0 0 [] None []).
Definition put_b (bad : N) (n : nat) : bytes := match q_reply (put_ev bad n) with Some b => b | None => [] end.
Definition put_bs (bad : N) : list bytes := map (put_b bad) [0; 1; 2; 3]%nat.
Definition put_both (bad : N) : xfer :=
  SFTP_Put (fair 2 []) (names false) (go 17) (idle 0 false table0 put_L (List.concat (put_bs bad))).

(* client and server run on each other's bytes; the second WRITE may fail *)
Example C95_sample :
  (x_out (put_both 9) = List.concat (map wire both_put) /\ x_res (put_both 9) = Some WS_SUCCESS) /\
  file_after 7 (calls (map (put_ev 9) [2; 1]%nat)) [] = put_L /\
  map fst (q_calls (put_ev 9 1)) = [FPwrite 7 [1; 2] 0; FPwrite 7 [2] 1] /\
  (x_out (put_both 2) = List.concat (map wire both_put) /\ x_res (put_both 2) = Some WS_SUCCESS) /\
  file_after 7 (calls (map (put_ev 2) [2; 1]%nat)) [] = [1; 2].
Proof. vm_compute. repeat split; reflexivity. Qed.

Local Ltac both H q :=
  eapply (SftpProps3.ls_hist _ _ _ _ (m_type q) (m_id q) (m_body q) _ _ H);
  [vm_compute; repeat constructor|vm_compute; discriminate|reflexivity|vm_compute; reflexivity|eexists; eexists; split; vm_compute; reflexivity].
Local Ltac reply_by := split; [vm_compute; reflexivity|split; [apply ok_bytes; vm_compute; reflexivity|vm_compute; discriminate] ].

(* what the theorem asks for, without [side] *)
Definition put_meets (bad : N) : Prop :=
  stat_env (putE bad) /\
  hist (putE bad) (path_run []) (put_ev bad 3 :: map (put_ev bad) [2; 1]%nat ++ put_ev bad 0 :: []) (snd (put_serve bad 4)) /\
  opened (put_ev bad 0) ls_hb 7 /\
  Forall (fun e => q_ty e = 6 /\ Forall sane (q_calls e)) (map (put_ev bad) [2; 1]%nat) /\
  Forall2 got (map (put_ev bad) [0; 1; 2; 3]%nat) both_put /\ Forall2 replied (map (put_ev bad) [0; 1; 2; 3]%nat) (put_bs bad) /\
  Forall framed both_put /\ Forall (some_write ls_hb) put_ws.

Local Lemma put_met : forall bad, bad = 9 \/ bad = 2 -> put_meets bad.
Proof.
  intros bad D. split.
  { assert (K : forall n k, stat_attrs (r_attr (ls_ans n k))) by (intros; repeat split; reflexivity).
    intros log. cbn [fs putE]. unfold put_fs. destruct log as [|c log]; [apply K|]. destruct c; apply K. }
  split.
  { destruct D as [-> | ->].
    - replace (put_ev 9 3 :: map (put_ev 9) [2; 1]%nat ++ put_ev 9 0 :: []) with (fst (put_serve 9 4)) by (vm_compute; reflexivity).
      assert (H0 : hist (putE 9) (path_run []) (fst (put_serve 9 0)) (snd (put_serve 9 0))) by constructor.
      assert (H1 : hist (putE 9) (path_run []) (fst (put_serve 9 1)) (snd (put_serve 9 1))) by (both H0 (q_open 0 [98] 26)).
      assert (H2 : hist (putE 9) (path_run []) (fst (put_serve 9 2)) (snd (put_serve 9 2))) by (both H1 (q_write 1 ls_hb 0 [1; 2])).
      assert (H3 : hist (putE 9) (path_run []) (fst (put_serve 9 3)) (snd (put_serve 9 3))) by (both H2 (q_write 2 ls_hb 2 [3])).
      both H3 (q_close 3 ls_hb).
    - replace (put_ev 2 3 :: map (put_ev 2) [2; 1]%nat ++ put_ev 2 0 :: []) with (fst (put_serve 2 4)) by (vm_compute; reflexivity).
      assert (H0 : hist (putE 2) (path_run []) (fst (put_serve 2 0)) (snd (put_serve 2 0))) by constructor.
      assert (H1 : hist (putE 2) (path_run []) (fst (put_serve 2 1)) (snd (put_serve 2 1))) by (both H0 (q_open 0 [98] 26)).
      assert (H2 : hist (putE 2) (path_run []) (fst (put_serve 2 2)) (snd (put_serve 2 2))) by (both H1 (q_write 1 ls_hb 0 [1; 2])).
      assert (H3 : hist (putE 2) (path_run []) (fst (put_serve 2 3)) (snd (put_serve 2 3))) by (both H2 (q_write 2 ls_hb 2 [3])).
      both H3 (q_close 3 ls_hb). }
  split.
  { split; [destruct D as [-> | ->]; vm_compute; reflexivity|]. split; [|split; [lia|]].
    - exists (put_b bad 0). split; [destruct D as [-> | ->]; vm_compute; reflexivity|]. exists (str ls_hb). split; [apply str_rel; reflexivity|].
      exists (be32 (5 + 12)), (be32 0). split; [apply u32_be32; reflexivity|]. split; [destruct D as [-> | ->]; apply u32_be32; reflexivity|].
      destruct D as [-> | ->]; vm_compute; reflexivity.
    - exists (ascii "/b"), 577, 420, (ls_ans 7 []). split; [destruct D as [-> | ->]; vm_compute; tauto|reflexivity]. }
  split.
  { destruct D as [-> | ->]; (constructor; [|constructor; [|constructor] ]); (split; [vm_compute; reflexivity|]);
      vm_compute; repeat (constructor; [discriminate|]); constructor. }
  split; [destruct D as [-> | ->]; repeat constructor|].
  split; [destruct D as [-> | ->]; (repeat (constructor; [reply_by|]); constructor)|].
  split; [apply framed_all; vm_compute; reflexivity|].
  constructor; [|constructor; [|constructor] ]; intros _.
  - exists 0, [1; 2]. split; [discriminate|]. split; [vm_compute; discriminate|reflexivity].
  - exists 2, [3]. split; [discriminate|]. split; [vm_compute; discriminate|reflexivity].
Qed.

(* three bytes in two WRITEs and three pwrite()s meet what the theorem asks for *)
Example C95_met : put_meets 9 /\
  Forall (fun e => Forall (fun y => (0 < r_int (snd y))%Z) (q_calls e)) (map (put_ev 9) [2; 1]%nat) /\
  readable (fair 2 []) (lenN put_L) /\ no_failure (go 17) /\ uninterrupted (go 17).
Proof.
  split; [apply put_met; left; reflexivity|]. split.
  { constructor; [|constructor; [|constructor] ]; vm_compute; repeat (constructor; [reflexivity|]); constructor. }
  split; [intros p _; reflexivity|]. split; [apply go_well|apply go_quiet].
Qed.

(* A server whose disk is full says so, and the client says that it succeeded. *)
Theorem C95_refuted : ~ C95_put (fun C L writes es => readable C (lenN L) /\ no_failure es).
Proof.
  intros K. destruct (put_met 2 (or_intror eq_refl)) as (Se & H & Op & Wr & G & R & Fq & Sw).
  specialize (K (putE 2) [] [] (snd (put_serve 2 4)) (put_ev 2 0) (map (put_ev 2) [2; 1]%nat) (put_ev 2 3) ls_hb 7%Z put_L [98] 26 (be32 0)
    put_ws (q_open 0 [98] 26) (q_close 3 ls_hb) (put_bs 2) [] (fair 2 []) (names false) (go 17) 0 table0). rewrite app_nil_r in K. cbv zeta in K.
  specialize (K Se H eq_refl Op Wr ltac:(vm_compute; reflexivity) eq_refl eq_refl G R Fq Sw eq_refl eq_refl eq_refl eq_refl).
  specialize (K ltac:(split; [intros p _; reflexivity|apply go_well]) (go_quiet _) ltac:(vm_compute; reflexivity) ltac:(vm_compute; reflexivity)).
  vm_compute in K. discriminate K.
Qed.
Print Assumptions C95_refuted.
Theorem C95_full_refuted : ~ C95_full.
Proof. intros H. apply C95_refuted. repeat intro. eapply H; eauto. Qed.
Print Assumptions C95_full_refuted.
