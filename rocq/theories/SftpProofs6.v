(* SftpProofs6.v - proofs about the SFTP server: requests about handles. *)
From Verif Require Import Base WireModel WireSpec WireProofs PathModel PathSpec PathProofs NegoSpec ReqSpec ReqProofs ReqProofs3.
From Verif Require Import SftpModel SftpProofs SftpSpec SftpProofs2 SftpProofs3 SftpProofs4 SftpProofs5.
From Coq Require Import List NArith ZArith Bool Lia String.
Import ListNotations.
Open Scope N_scope.

Lemma logs_all : forall E P s s' l, logs E P s s' -> s_log s' = rev (map fst l) ++ s_log s -> l = answered E (s_log s) (map fst l) -> Forall P l.
Proof.
  intros E P s s' l (new & L & F) L' A. rewrite A. rewrite <- (new_fun _ _ _ _ L L'). assumption.
Qed.
Lemma log_same : forall E (s : srv) l, s_log s = rev (map fst l) ++ s_log s -> l = answered E (s_log s) (map fst l) -> l = [].
Proof.
  intros E s l H A. apply (f_equal (@Datatypes.length _)) in H. rewrite app_length, rev_length, map_length in H.
  destruct l; [reflexivity|cbn in H; lia].
Qed.
Lemma log_is : forall E (s s' : srv) l new, s_log s' = rev new ++ s_log s -> s_log s' = rev (map fst l) ++ s_log s ->
  l = answered E (s_log s) (map fst l) -> l = answered E (s_log s) new.
Proof. intros E s s' l new H L A. rewrite (new_fun _ _ _ _ H L). assumption. Qed.

Section handle.
  Variables (h : list hev) (s : srv).
  Hypothesis I : inv h s.

  Lemma live_file : forall hb fd, live opened hb fd h ->
    exists e, file_of_t hb s = Some e /\ f_fd e = fd /\ lenN hb = 8 /\ FindDir (decode_t hb) (s_dirs s) = None /\
      FindFileHandle (decode_t hb) (s_files s) = Some e.
  Proof using I.
    intros hb fd L. destruct I as [N1 N2 N3 N4 N5 N6 N7 N8]. apply N5 in L. destruct L as (e & He & <- & <-).
    assert (O : ok_id (f_id e)) by (apply N3; apply in_or_app; left; apply in_map; assumption). destruct O as (O1 & O2).
    assert (F : FindFileHandle (f_id e) (s_files s) = Some e).
    { destruct (ffind_some (f_id e) _ e He eq_refl) as (e' & F). rewrite F. f_equal.
      destruct (find_in _ _ _ F) as (He' & Q).
      assert (ND : NoDup (map f_id (s_files s))).
      { clear - N4. induction (map f_id (s_files s)) as [|x l IH]; [constructor|]. cbn [app] in N4. inversion N4; subst.
        constructor; [intros K; apply H1; apply in_or_app; left; assumption|apply IH; assumption]. }
      clear - ND He He' Q. induction (s_files s) as [|x l IH]; [destruct He|]. cbn [map] in ND. inversion ND; subst.
      destruct He as [->|He]; destruct He' as [->|He'].
      - reflexivity.
      - exfalso. apply H1. rewrite <- Q. apply in_map. assumption.
      - exfalso. apply H1. rewrite Q. apply in_map. assumption.
      - apply IH; assumption. }
    exists e. unfold file_of_t. rewrite encode_decode by assumption.
    change (lenN (HandleIdEncode (f_id e)) =? HANDLE_ID_SZ) with true. cbn [negb].
    split; [exact F|]. split; [reflexivity|]. split; [apply encode_len|]. split; [|exact F].
    destruct (FindDir (f_id e) (s_dirs s)) as [e'|] eqn:Fd; [|reflexivity]. exfalso.
    destruct (findd_in _ _ _ Fd) as (He' & Q).
    apply in_split in He. destruct He as (u & v & Eq). rewrite Eq, map_app in N4. cbn [map] in N4.
    rewrite <- app_assoc in N4. cbn [app] in N4. apply NoDup_remove_2 in N4. apply N4. rewrite <- Q. apply in_or_app. right.
    apply in_or_app. right. apply in_map. assumption.
  Qed.

  Lemma dead_file : forall hb, bytes_ok hb -> (forall fd, ~ live opened hb fd h) -> file_of_t hb s = None.
  Proof using I.
    intros hb Hb L. destruct (file_of_t hb s) as [e|] eqn:F; [|reflexivity]. exfalso.
    apply file_of_in in F. destruct F as (L8 & He & Q). apply (L (f_fd e)).
    apply (i_live h s I). exists e. split; [assumption|]. split; [rewrite Q; apply decode_encode; assumption|reflexivity].
  Qed.

  Lemma live_dir : forall hb d, live opened_dir hb d h ->
    exists e, FindDir (decode_t hb) (s_dirs s) = Some e /\ d_dir e = d /\ lenN hb = 8 /\ file_of_t hb s = None.
  Proof using I.
    intros hb d L. destruct I as [N1 N2 N3 N4 N5 N6 N7 N8]. apply N7 in L. destruct L as (e & He & <- & <-).
    assert (O : ok_id (d_id e)) by (apply N3; apply in_or_app; right; apply in_map; assumption). destruct O as (O1 & O2).
    assert (ND : NoDup (map d_id (s_dirs s))).
    { clear - N4. induction (map f_id (s_files s)) as [|x l IH]; [exact N4|]. cbn [app] in N4. inversion N4; subst. apply IH. assumption. }
    exists e. rewrite encode_decode by assumption. split.
    { destruct (findd_some (d_id e) _ e He eq_refl) as (e' & F). rewrite F. f_equal.
      destruct (findd_in _ _ _ F) as (He' & Q).
      clear - ND He He' Q. induction (s_dirs s) as [|x l IH]; [destruct He|]. cbn [map] in ND. inversion ND; subst.
      destruct He as [->|He]; destruct He' as [->|He'].
      - reflexivity.
      - exfalso. apply H1. rewrite <- Q. apply in_map. assumption.
      - exfalso. apply H1. rewrite Q. apply in_map. assumption.
      - apply IH; assumption. }
    split; [reflexivity|]. split; [apply encode_len|].
    unfold file_of_t. rewrite encode_decode by assumption.
    change (lenN (HandleIdEncode (d_id e)) =? HANDLE_ID_SZ) with true. cbn [negb].
    destruct (FindFileHandle (d_id e) (s_files s)) as [e'|] eqn:Fd; [|reflexivity]. exfalso.
    destruct (find_in _ _ _ Fd) as (He' & Q).
    apply in_split in He'. destruct He' as (u & v & Eq). rewrite Eq, map_app in N4. cbn [map] in N4.
    rewrite <- app_assoc in N4. cbn [app] in N4. apply NoDup_remove_2 in N4. apply N4. rewrite Q. apply in_or_app. right.
    apply in_or_app. right. apply in_map. assumption.
  Qed.

  Lemma dead_dir : forall hb, bytes_ok hb -> lenN hb = 8 ->
    (forall ev path a, In ev h -> In (FOpendir path, a) (q_calls ev) -> q_reply ev <> None) ->
    (forall d, ~ live opened_dir hb d h) -> FindDir (decode_t hb) (s_dirs s) = None.
  Proof using I.
    intros hb Hb L8 R L. destruct (FindDir (decode_t hb) (s_dirs s)) as [e|] eqn:F; [|reflexivity]. exfalso.
    apply findd_in in F. destruct F as (He & Q). apply (L (d_dir e)).
    replace hb with (HandleIdEncode (d_id e)) by (rewrite Q; apply decode_encode; assumption).
    apply (i_dback h s I); assumption.
  Qed.
End handle.

(* ---- requests about files ------------------------------------------------------ *)

Section about.
  Variables (E : senv) (ty id : N) (data : bytes) (s : srv) (r : rc) (out : option bytes) (s' : srv) (hb x : bytes).
  Hypothesis D : dispatch_t E ty id data s = (r, out, s').
  Hypothesis P : p_str data = Some (hb, x).

  Definition refused (o : option bytes) : Prop := o = None \/ exists m, o = Some (CreateStatus FTP_FAILURE id m English) /\ lenN m < 100.

  Lemma st_refused : forall q m s1, lenN m < 100 -> status_t E q FTP_FAILURE id m s1 = (r, out, s') -> s' = s1 /\ refused out.
  Proof using.
    intros q m s1 Hm H. apply status_inv in H. destruct H as (A & B). split; [assumption|]. destruct B as [B|B]; [left|right]; eauto.
  Qed.
  Lemma oc_refused : forall m s1 a, lenN m < 100 -> outcome_t E id false false a m s1 = (r, out, s') -> s' = s1 /\ refused out.
  Proof using. intros m s1 a Hm H. unfold outcome_t in H. eapply st_refused; eassumption. Qed.

  Lemma about_calls : forall e, In ty [4; 5; 6; 8; 10] -> file_of_t hb s = Some e -> FindDir (decode_t hb) (s_dirs s) = None ->
    logs E (fun y => on_fd (fst y) (f_fd e)) s s'.
  Proof using D P.
    intros e Ht F Fd. destruct (file_of_in _ _ _ F) as (L8 & _).
    destruct Ht as [<-|[<-|[<-|[<-|[<-|[]]]]]].
    - change (dispatch_t E 4 id data s) with (RecvClose_t E id data s) in D. revert D. unfold RecvClose_t. rewrite P. intros H.
      unfold MAX_HANDLE, HANDLE_ID_SZ in H. rewrite L8 in H. cbn [N.ltb N.compare Pos.compare Pos.compare_cont N.eqb Pos.eqb negb] in H.
      change (256 <? 8) with false in H. change (8 =? 8) with true in H. cbn [negb] in H. cbv zeta in H. unfold RecvCloseDir in H. rewrite Fd in H.
      unfold file_of_t, HANDLE_ID_SZ in F. rewrite L8 in F. change (8 =? 8) with true in F. cbn [negb] in F. rewrite F in H.
      set (s1 := set_files _ _) in H.
      assert (G : logs E (fun y => on_fd (fst y) (f_fd e)) s s1) by (eapply logs_ask; [reflexivity|]; reflexivity).
      destruct (_ <=? _)%Z; apply status_inv in H; destruct H as (-> & _); exact G.
    - change (dispatch_t E 5 id data s) with (RecvRead_t E id data s) in D. revert D. unfold RecvRead_t. cbv zeta. rewrite P, F. intros H.
      assert (N0 : logs E (fun y => on_fd (fst y) (f_fd e)) s s) by (apply logs_refl; reflexivity).
      destruct (p_two true x) as [((hi, lo), t1)|]; [|leaf H; exact N0].
      destruct (p_u32 t1) as [(sz, t2)|]; [|leaf H; exact N0].
      destruct (_ <? _); [leaf H; exact N0|]. destruct (negb _); [leaf H; exact N0|].
      set (s2 := ask _ s) in *.
      assert (G : logs E (fun y => on_fd (fst y) (f_fd e)) s s2) by (eapply logs_ask; [reflexivity|]; reflexivity).
      destruct (_ || _); [destruct (_ || _); leaf H; exact G|].
      destruct (_ =? 0); [destruct (_ || _); leaf H; exact G|]. leaf H. exact G.
    - change (dispatch_t E 6 id data s) with (RecvWrite_t E id data s) in D. revert D. unfold RecvWrite_t. cbv zeta. rewrite P, F. intros H.
      assert (N0 : logs E (fun y => on_fd (fst y) (f_fd e)) s s) by (apply logs_refl; reflexivity).
      destruct (p_two true x) as [((hi, lo), t1)|]; [|leaf H; exact N0].
      destruct (p_str t1) as [(d, t2)|]; [|leaf H; exact N0].
      destruct (write_loop _ _ _ _ _ _ _) as (ok, s2) eqn:W.
      assert (G : logs E (fun y => on_fd (fst y) (f_fd e)) s s2).
      { apply grow_logs. eapply grow_weak; [|eapply write_grow; exact W]. intros (c, y) (d' & o & Q). cbn [fst] in Q. subst c. reflexivity. }
      destruct ok; apply status_inv in H; destruct H as (-> & _); exact G.
    - change (dispatch_t E 8 id data s) with (RecvFSTAT_t E id data s) in D. revert D. unfold RecvFSTAT_t. rewrite P, F. intros H.
      apply attrs_inv in H. destruct H as (-> & _). eapply logs_ask; [reflexivity|]; reflexivity.
    - change (dispatch_t E 10 id data s) with (RecvFSetSTAT_t E id data s) in D. revert D. unfold RecvFSetSTAT_t. cbv zeta. rewrite P, F. intros H.
      destruct (p_attrs x) as [(a, t')|].
      2: { apply outcome_inv in H. destruct H as (-> & _). apply logs_refl. reflexivity. }
      destruct (set_attrs E _ _ a s) as (ok, s2) eqn:SA. apply outcome_inv in H. destruct H as (-> & _).
      apply grow_logs. eapply setattrs_grow; [| |exact SA]; reflexivity.
  Qed.

  Lemma about_dead : In ty [5; 6; 8; 10] -> file_of_t hb s = None -> s' = s /\ refused out.
  Proof using D P.
    intros Ht F. destruct Ht as [<-|[<-|[<-|[<-|[]]]]].
    - change (dispatch_t E 5 id data s) with (RecvRead_t E id data s) in D. revert D. unfold RecvRead_t. cbv zeta. rewrite P, F. intros H.
      destruct (_ || _); apply triple_inv in H; destruct H as (_ & <- & <-).
      + split; [reflexivity|]. right. eexists. split; [reflexivity|]. reflexivity.
      + split; [reflexivity|left; reflexivity].
    - change (dispatch_t E 6 id data s) with (RecvWrite_t E id data s) in D. revert D. unfold RecvWrite_t. cbv zeta. rewrite P, F. intros H.
      eapply st_refused; [|exact H]. reflexivity.
    - change (dispatch_t E 8 id data s) with (RecvFSTAT_t E id data s) in D. revert D. unfold RecvFSTAT_t. rewrite P, F. intros H.
      apply triple_inv in H. destruct H as (_ & <- & <-). split; [reflexivity|left; reflexivity].
    - change (dispatch_t E 10 id data s) with (RecvFSetSTAT_t E id data s) in D. revert D. unfold RecvFSetSTAT_t. cbv zeta. rewrite P, F. intros H.
      eapply oc_refused; [|exact H]. reflexivity.
  Qed.

  Lemma close_dead : ty = 4 -> file_of_t hb s = None -> (lenN hb = 8 -> FindDir (decode_t hb) (s_dirs s) = None) -> s' = s /\ refused out.
  Proof using D P.
    intros -> F Fd. change (dispatch_t E 4 id data s) with (RecvClose_t E id data s) in D. revert D. unfold RecvClose_t. rewrite P. intros H.
    destruct (MAX_HANDLE <? lenN hb); [apply triple_inv in H; destruct H as (_ & <- & <-); split; [reflexivity|left; reflexivity]|].
    cbv zeta in H. unfold file_of_t in F. destruct (N.eqb_spec (lenN hb) HANDLE_ID_SZ) as [L8|L8]; cbn [negb] in *.
    - unfold RecvCloseDir in H. rewrite (Fd L8), F in H. eapply st_refused; [|exact H]. reflexivity.
    - eapply st_refused; [|exact H]. reflexivity.
  Qed.
  Lemma readdir_dead : ty = 12 -> (lenN hb = 8 -> FindDir (decode_t hb) (s_dirs s) = None) -> s' = s /\ out = None.
  Proof using D P.
    intros -> Fd. change (dispatch_t E 12 id data s) with (RecvReadDir_t E id data s) in D. revert D. unfold RecvReadDir_t. rewrite P. intros H.
    destruct (MAX_HANDLE <? lenN hb); [apply triple_inv in H; destruct H as (_ & <- & <-); split; reflexivity|].
    destruct (N.eqb_spec (lenN hb) HANDLE_ID_SZ) as [L8|L8]; cbn [negb] in H; [|apply triple_inv in H; destruct H as (_ & <- & <-); split; reflexivity].
    cbv zeta in H. rewrite (Fd L8) in H. apply triple_inv in H; destruct H as (_ & <- & <-); split; reflexivity.
  Qed.

  Lemma dir_calls : forall e, In ty [4; 12] -> lenN hb = 8 -> FindDir (decode_t hb) (s_dirs s) = Some e ->
    logs E (fun y => on_dir (fst y) (d_dir e) \/ (ty = 12 /\ exists p, fst y = FStat p true)) s s'.
  Proof using D P.
    intros e Ht L8 Fd. destruct Ht as [<-|[<-|[]]].
    - change (dispatch_t E 4 id data s) with (RecvClose_t E id data s) in D. revert D. unfold RecvClose_t. rewrite P. intros H.
      unfold MAX_HANDLE, HANDLE_ID_SZ in H. rewrite L8 in H.
      change (256 <? 8) with false in H. change (8 =? 8) with true in H. cbn [negb] in H. cbv zeta in H. unfold RecvCloseDir in H. rewrite Fd in H.
      apply status_inv in H. destruct H as (-> & _). eapply logs_ask; [reflexivity|]. left. reflexivity.
    - change (dispatch_t E 12 id data s) with (RecvReadDir_t E id data s) in D. revert D. unfold RecvReadDir_t. rewrite P. intros H.
      unfold MAX_HANDLE, HANDLE_ID_SZ in H. rewrite L8 in H.
      change (256 <? 8) with false in H. change (8 =? 8) with true in H. cbn [negb] in H. cbv zeta in H. rewrite Fd in H.
      set (PP := fun y : fscall * ans => on_dir (fst y) (d_dir e) \/ (12 = 12 /\ exists p, fst y = FStat p true)).
      assert (K : forall l s2, (if d_eof e then ([], s) else readdir_loop E (d_name e)
         (r_names (fs E (s_log (ask (FReaddir (d_dir e)) s)))) [] (ask (FReaddir (d_dir e)) s)) = (l, s2) -> logs E PP s s2).
      { intros l s2 Q. destruct (d_eof e); [assert (s = s2) by congruence; subst; apply logs_refl; reflexivity|].
        apply readdir_grow in Q. destruct Q as (_ & Q). eapply logs_trans.
        - apply (logs_ask E PP (FReaddir (d_dir e)) s (ask (FReaddir (d_dir e)) s)); [reflexivity|]. intros y. left. reflexivity.
        - apply grow_logs. eapply grow_weak; [|exact Q]. intros y Hy. right. split; [reflexivity|exact Hy]. }
      destruct (if d_eof e then _ else _) as (l, s2) eqn:Q. specialize (K _ _ eq_refl).
      destruct l as [|z l]; [destruct (mem E (s_log s2) 1); leaf H; exact K|].
      destruct (negb _); [leaf H; exact K|]. destruct (_ <? 13); [leaf H; exact K|]. destruct (put_names _ _); leaf H; exact K.
  Qed.
End about.

(* ---- READ and WRITE --------------------------------------------------------------- *)

Lemma two_app : forall v b r, u64 v b -> bytes_ok b -> exists hi lo, p_two true (b ++ r) = Some ((hi, lo), r) /\ hi * W32 + lo = v /\ is32 hi /\ is32 lo.
Proof.
  intros v b r (L & V) Hb.
  assert (L1 : lenN (takeN 4 b) = 4) by (rewrite lenN_takeN; lia).
  assert (L2 : lenN (dropN 4 b) = 4) by (rewrite lenN_dropN; lia).
  exists (be_value (takeN 4 b)), (be_value (dropN 4 b)). unfold p_two.
  rewrite <- (takeN_dropN N 4 b) at 1. rewrite <- app_assoc.
  rewrite (p_u32_app (be_value (takeN 4 b)) (takeN 4 b)) by (split; [assumption|reflexivity]).
  rewrite (p_u32_app (be_value (dropN 4 b)) (dropN 4 b)) by (split; [assumption|reflexivity]).
  split; [reflexivity|]. split.
  - rewrite <- V. rewrite <- (takeN_dropN N 4 b) at 3. rewrite be_value_app, L2. reflexivity.
  - assert (K : forall m, bytes_ok m -> lenN m = 4 -> is32 (be_value m)).
    { intros m Hm Lm. pose proof (be_value_lt m 0 Hm) as K. unfold slice in K. change (dropN 0 m) with m in K.
      rewrite takeN_all in K by lia. apply K. lia. }
    split; apply K; try assumption; [apply bytes_ok_takeN|apply bytes_ok_dropN]; assumption.
Qed.

Lemma nth_takeN : forall (d : bytes) k i, (i < N.to_nat k)%nat -> nth i (takeN k d) 0 = nth i d 0.
Proof.
  intros d k i H. unfold takeN. revert d i H. induction (N.to_nat k) as [|n IH]; intros d i H; [lia|].
  destruct d as [|y d]; [destruct i; reflexivity|]. destruct i as [|i]; [reflexivity|]. cbn. apply IH. lia.
Qed.
Lemma nth_dropN : forall (d : bytes) k i, nth i (dropN k d) 0 = nth (N.to_nat k + i) d 0.
Proof.
  intros d k i. unfold dropN. revert d. induction (N.to_nat k) as [|n IH]; intros d; [reflexivity|].
  destruct d as [|y d]; [destruct i; reflexivity|]. cbn. apply IH.
Qed.

Lemma patch_two : forall f o d k j x, k <= lenN d ->
  patch (patch f o (takeN k d)) (o + k) (takeN j (dropN k d)) x = patch f o (takeN (k + j) d) x.
Proof.
  intros f o d k j x Hk. unfold patch. rewrite !lenN_takeN, lenN_dropN.
  replace (N.min k (lenN d)) with k by lia.
  destruct (N.leb_spec (o + k) x) as [A|A]; cbn [andb].
  - destruct (N.ltb_spec x (o + k + N.min j (lenN d - k))) as [B|B].
    + destruct (N.leb_spec o x); [|lia]. destruct (N.ltb_spec x (o + N.min (k + j) (lenN d))); [|lia]. cbn [andb].
      rewrite !nth_takeN, nth_dropN by lia. f_equal. lia.
    + destruct (N.leb_spec o x); [|lia]. destruct (N.ltb_spec x (o + k)); [lia|]. cbn [andb].
      destruct (N.ltb_spec x (o + N.min (k + j) (lenN d))); [lia|]. reflexivity.
  - destruct (N.leb_spec o x) as [B|B]; cbn [andb]; [|reflexivity].
    destruct (N.ltb_spec x (o + k)); [|lia]. destruct (N.ltb_spec x (o + N.min (k + j) (lenN d))); [|lia].
    rewrite !nth_takeN by lia. reflexivity.
Qed.
Lemma patch_ext : forall f g o d, (forall x, f x = g x) -> forall x, patch f o d x = patch g o d x.
Proof. intros f g o d H x. unfold patch. destruct (_ && _); [reflexivity|apply H]. Qed.
Lemma effects_ext : forall fd l f g, (forall x, f x = g x) -> forall x, effects fd l f x = effects fd l g x.
Proof.
  induction l as [|(c, a) l IH]; intros f g H x; [apply H|]. cbn [effects fold_left]. apply IH. intros y.
  unfold effect. destruct c; try apply H. destruct (_ && _)%Z; [apply patch_ext; assumption|apply H].
Qed.



Definition whole (l : list (fscall * ans)) (fd : Z) (o : N) (d : bytes) : Prop :=
  forall f x, effects fd l f x = patch f o d x.

Lemma patch_0 : forall f o d x, patch f o (takeN 0 d) x = f x.
Proof.
  intros. unfold patch. change (lenN (takeN 0 d)) with 0. destruct (N.leb_spec o x); [|reflexivity].
  destruct (N.ltb_spec x (o + 0)); [lia|reflexivity].
Qed.

(* the position in two words *)
Lemma carry : forall hi lo k n, is32 hi -> is32 lo -> k <= n -> 0 < k -> n <= 65536 -> hi * W32 + lo + n <= W64 ->
  (k = n \/ (let lo' := add32 lo k in let hi' := if lo' <? w32 k then add32 hi 1 else hi in
   is32 hi' /\ is32 lo' /\ hi' * W32 + lo' = hi * W32 + lo + k)).
Proof.
  intros hi lo k n H1 H2 Hk K0 Hn Ho. destruct (N.eq_dec k n) as [E|NE]; [left; assumption|right]. cbv zeta.
  unfold is32, W64, W32 in *. unfold w32, W32. rewrite (N.mod_small k) by lia.
  unfold add32, w32, W32. change (2 ^ 64) with 18446744073709551616 in Ho.
  destruct (N.lt_ge_cases (lo + k) 4294967296) as [A|A].
  - rewrite (N.mod_small (lo + k)) by lia. destruct (N.ltb_spec (lo + k) k); [lia|]. lia.
  - assert (Q : (lo + k) mod 4294967296 = lo + k - 4294967296).
    { symmetry. apply N.mod_unique with 1; lia. }
    rewrite Q. destruct (N.ltb_spec (lo + k - 4294967296) k); [|lia].
    rewrite N.mod_small by lia. lia.
Qed.

Definition wrote (E : senv) (fd : Z) (d : bytes) (o : N) (ok : bool) (l : list (fscall * ans)) : Prop :=
  exists k, k <= lenN d /\ whole l fd o (takeN k d) /\ (ok = true -> k = lenN d) /\
   (ok = false -> k < lenN d /\ exists x, In x l /\ (r_int (snd x) <= 0)%Z).

Lemma write_ok : forall E fd fuel d hi lo s ok s', write_loop fuel E fd d hi lo s = (ok, s') ->
  (Datatypes.length d < fuel)%nat -> is32 hi -> is32 lo -> lenN d <= 65536 -> hi * W32 + lo + lenN d <= W64 ->
  exists new, s_log s' = rev new ++ s_log s /\
  (Forall sane (answered E (s_log s) new) -> wrote E fd d (hi * W32 + lo) ok (answered E (s_log s) new)).
Proof.
  intros E fd. induction fuel as [|f IH]; intros d hi lo s ok s' W Hf H1 H2 Hd Ho; [lia|].
  destruct d as [|b d'].
  - cbn [write_loop] in W. assert (s = s' /\ ok = true) as (<- & ->) by (split; congruence).
    exists []. split; [reflexivity|]. intros _. exists 0. split; [lia|]. split; [intros g x; cbn [answered effects fold_left]; rewrite patch_0; reflexivity|].
    split; [reflexivity|discriminate].
  - set (d := b :: d') in *.
    change (write_loop (S f) E fd d hi lo s) with
      (let s := ask (FPwrite fd d (hi * W32 + lo)) s in
       let n := r_int (fs E (s_log s)) in
       if (n <=? 0)%Z then (false, s)
       else
         let k := Z.to_N n in
         let lo' := add32 lo k in
         let hi' := if lo' <? w32 k then add32 hi 1 else hi in
         if lenN d <? k then (false, s)
         else write_loop f E fd (dropN k d) hi' lo' s) in W.
    cbv zeta in W. set (c := FPwrite fd d (hi * W32 + lo)) in *. set (s1 := ask c s) in *.
    set (a := fs E (s_log s1)) in *.
    assert (Ld : 0 < lenN d) by (unfold d; rewrite lenN_cons; lia).
    destruct (Z.leb_spec (r_int a) 0) as [Ra|Ra].
    { assert (false = ok /\ s1 = s') as (<- & <-) by (split; congruence).
      exists [c]. split; [reflexivity|]. intros _. exists 0. cbn [answered]. split; [lia|]. split.
      - intros g x. cbn [effects fold_left]. change (fs E (c :: s_log s)) with a. unfold c. cbn [effect].
        destruct (Z.ltb_spec 0 (r_int a)); [lia|]. rewrite andb_false_r. rewrite patch_0. reflexivity.
      - split; [discriminate|]. intros _. split; [lia|]. eexists. split; [left; reflexivity|]. cbn [snd]. exact Ra. }
    set (k := Z.to_N (r_int a)) in *.
    destruct (N.ltb_spec (lenN d) k) as [K1|K1].
    { exists [c]. assert (false = ok /\ s1 = s') as (<- & <-) by (split; congruence). split; [reflexivity|].
      intros Sn. exfalso. cbn [answered] in Sn. inversion Sn; subst. change (fs E (c :: s_log s)) with a in H3. unfold c in H3. cbn [sane] in H3. lia. }
    destruct (carry hi lo k (lenN d) H1 H2 K1 ltac:(lia) Hd Ho) as [K2|(K2 & K3 & K4)].
    + (* all of it *)
      assert (Q : dropN k d = []).
      { rewrite K2. unfold dropN, lenN. rewrite Nnat.Nat2N.id. apply skipn_all. }
      rewrite Q in W. destruct f as [|f']; [cbn [Datatypes.length d] in Hf; lia|].
      cbn [write_loop] in W. assert (true = ok /\ s1 = s') as (<- & <-) by (split; congruence).
      exists [c]. split; [reflexivity|]. intros _. exists (lenN d). split; [lia|]. split; [|split; [reflexivity|discriminate]].
      intros g x. cbn [answered effects fold_left]. change (fs E (c :: s_log s)) with a. unfold c. cbn [effect].
      rewrite Z.eqb_refl. destruct (Z.ltb_spec 0 (r_int a)); [|lia]. cbn [andb]. fold k. rewrite K2. reflexivity.
    + cbv zeta in K4. set (lo' := add32 lo k) in *. set (hi' := if lo' <? w32 k then add32 hi 1 else hi) in *.
      destruct (IH _ _ _ _ _ _ W) as (new & L & N); try assumption.
      { pose proof (lenN_dropN N k d) as Q. unfold lenN in *. lia. }
      { rewrite lenN_dropN. lia. }
      { rewrite lenN_dropN, K4. lia. }
      exists (c :: new). split; [rewrite L; cbn [rev]; rewrite <- app_assoc; reflexivity|].
      intros Sn. cbn [answered] in *. change (c :: s_log s) with (s_log s1) in *. inversion Sn; subst.
      destruct (N H4) as (j & J1 & J2 & J3 & J4). rewrite lenN_dropN in *.
      exists (k + j). split; [lia|]. split.
      * intros g x. cbn [effects fold_left]. change (fold_left (effect fd) ?l ?y) with (effects fd l y). rewrite J2, K4.
        rewrite <- (patch_two g (hi * W32 + lo) d k j x K1). apply patch_ext. intros y.
        change (fs E (s_log s1)) with a. unfold c. cbn [effect].
        rewrite Z.eqb_refl. destruct (Z.ltb_spec 0 (r_int a)); [|lia]. reflexivity.
      * split; [intros Q; specialize (J3 Q); lia|]. intros Q. destruct (J4 Q) as (Q1 & y & Q2 & Q3). split; [lia|].
        exists y. split; [right; assumption|assumption].
Qed.

Lemma write_req : forall E id data s r out s' b x hb ob o db d e,
  dispatch_t E 6 id data s = (r, out, s') -> data = b ++ ob ++ db ++ x -> str hb b -> u64 o ob -> str d db -> bytes_ok data -> lenN data <= 65536 ->
  file_of_t hb s = Some e -> o + lenN d <= W64 ->
  exists new ok, s_log s' = rev new ++ s_log s /\ (Forall sane (answered E (s_log s) new) -> wrote E (f_fd e) d o ok (answered E (s_log s) new)) /\
   (out = None \/ exists m, lenN m < 100 /\ out = Some (CreateStatus (if ok then FTP_OK else FTP_FAILURE) id m English)) /\
   Forall (fun y => exists dd oo, fst y = FPwrite (f_fd e) dd oo) (answered E (s_log s) new).
Proof.
  intros E id data s r out s' b x hb ob o db d e D Hd H1 H2 H3 Hb Hl F Ho.
  change (dispatch_t E 6 id data s) with (RecvWrite_t E id data s) in D. revert D. unfold RecvWrite_t. cbv zeta.
  assert (Bo : bytes_ok ob). { rewrite Hd in Hb. apply bytes_ok_app in Hb. destruct Hb as (_ & Hb). apply bytes_ok_app in Hb. tauto. }
  destruct (two_app o ob (db ++ x) H2 Bo) as (hi & lo & T & V & I1 & I2).
  rewrite Hd at 1. rewrite (p_str_app hb b) by assumption. rewrite F. rewrite T. rewrite (p_str_app d db) by assumption.
  destruct (write_loop _ _ _ _ _ _ _) as (ok, s2) eqn:W. intros H.
  assert (Ld : lenN d <= lenN data).
  { rewrite Hd, !lenN_app. destruct H3 as (lb & _ & ->). rewrite lenN_app. lia. }
  pose proof (write_grow _ _ _ _ _ _ _ _ _ W) as G.
  apply write_ok in W; try assumption; try lia.
  destruct W as (new & L & N). rewrite V in N.
  assert (St : s' = s2 /\ (out = None \/ exists m, lenN m < 100 /\ out = Some (CreateStatus (if ok then FTP_OK else FTP_FAILURE) id m English))).
  { destruct ok; apply status_inv in H; destruct H as (-> & [->| ->]); (split; [reflexivity|]); first [left; reflexivity | right; eexists; split; [|reflexivity]; reflexivity]. }
  destruct St as (-> & St). exists new, ok. split; [assumption|]. split; [assumption|]. split; [assumption|].
  destruct G as (_ & _ & _ & n2 & L2 & G). rewrite (new_fun _ _ _ _ L L2). exact G.
Qed.

Lemma read_req : forall E id data s r out s' b x hb ob o nb n e,
  dispatch_t E 5 id data s = (r, out, s') -> data = b ++ ob ++ nb ++ x -> str hb b -> u64 o ob -> u32 n nb -> bytes_ok data ->
  file_of_t hb s = Some e ->
  (32768 < n -> out = None /\ s' = s) /\
  (n <= 32768 ->
    (s' = s /\ out = None) \/
    (let c := FPread (f_fd e) n o in let a := fs E (c :: s_log s) in
     s_log s' = c :: s_log s /\
     (lenN (r_data a) <= n ->
      ((r_int a < 0)%Z /\ refused id out) \/
      ((0 <= r_int a)%Z /\ lenN (r_data a) = 0 /\ (out = None \/ exists m, lenN m < 100 /\ out = Some (CreateStatus FTP_EOF id m English))) \/
      ((0 <= r_int a)%Z /\ 0 < lenN (r_data a) /\ out = Some (CreatePacket FTP_DATA id (r_data a)))))).
Proof.
  intros E id data s r out s' b x hb ob o nb n e D Hd H1 H2 H3 Hb F.
  change (dispatch_t E 5 id data s) with (RecvRead_t E id data s) in D. revert D. unfold RecvRead_t. cbv zeta.
  assert (Bo : bytes_ok ob). { rewrite Hd in Hb. apply bytes_ok_app in Hb. destruct Hb as (_ & Hb). apply bytes_ok_app in Hb. tauto. }
  destruct (two_app o ob (nb ++ x) H2 Bo) as (hi & lo & T & V & I1 & I2).
  rewrite Hd at 1. rewrite (p_str_app hb b) by assumption. rewrite F. rewrite T. rewrite (p_u32_app n nb) by assumption.
  change MAX_SFTP_RW with 32768. rewrite V. intros H.
  destruct (N.ltb_spec 32768 n) as [A|A].
  { apply triple_inv in H. destruct H as (_ & <- & <-). split; [intros _; split; reflexivity|lia]. }
  split; [lia|]. intros _. destruct (mem E (s_log s) 4); cbn [negb] in H.
  2: { apply triple_inv in H. destruct H as (_ & <- & <-). left. split; reflexivity. }
  right. cbv zeta. set (c := FPread (f_fd e) n o) in *. change (s_log (ask c s)) with (c :: s_log s) in H.
  set (a := fs E (c :: s_log s)) in *.
  destruct (Z.ltb_spec (r_int a) 0) as [R|R]; cbn [orb] in H.
  { destruct (_ || _) in H; apply triple_inv in H; destruct H as (_ & <- & <-); (split; [reflexivity|]); intros _; left; (split; [assumption|]).
    - right. eexists. split; [reflexivity|reflexivity].
    - left. reflexivity. }
  destruct (N.ltb_spec n (lenN (r_data a))) as [R2|R2].
  { split; [|lia]. destruct (_ || _) in H; apply triple_inv in H; destruct H as (_ & _ & <-); reflexivity. }
  destruct (N.eqb_spec (lenN (r_data a)) 0) as [R3|R3].
  { destruct (_ || _) in H; apply triple_inv in H; destruct H as (_ & <- & <-); (split; [reflexivity|]); intros _; right; left; (split; [assumption|]); (split; [assumption|]).
    - right. eexists. split; [|reflexivity]. reflexivity.
    - left. reflexivity. }
  apply triple_inv in H. destruct H as (_ & <- & <-). split; [reflexivity|]. intros _. right. right. split; [assumption|]. split; [lia|reflexivity].
Qed.

(* ---- requests seen from outside ---------------------------------------------- *)

Lemma hist_last : forall E p ev h s', paths_ok p -> hist E p (ev :: h) s' ->
  exists s r, hst E p h s /\ hist E p h s /\ bytes_ok (q_data ev) /\ lenN (q_data ev) <= 65536 /\ is32 (q_id ev) /\
   dispatch_t E (q_ty ev) (q_id ev) (q_data ev) s = (r, q_reply ev, s') /\
   eff E s (q_ty ev) (q_id ev) (q_data ev) (q_reply ev) s' (q_calls ev) /\
   s_log s' = rev (map fst (q_calls ev)) ++ s_log s /\ q_calls ev = answered E (s_log s) (map fst (q_calls ev)).
Proof.
  intros E p ev h s' Hp H. apply hist_hst in H; [|assumption].
  inversion H as [|h0 s ty id data r out s1 l H0 H1 Hb Hl Hi Hpp D F L A]; subst. exists s, r. cbn [q_ty q_id q_data q_reply q_calls].
  split; [assumption|]. split; [assumption|]. split; [assumption|]. split; [assumption|]. split; [assumption|]. split; [assumption|].
  split; [assumption|]. split; [assumption|]. assumption.
Qed.

Lemma about_str : forall ev hb, about ev hb -> bytes_ok (q_data ev) -> exists x, p_str (q_data ev) = Some (hb, x) /\ bytes_ok hb.
Proof.
  intros ev hb (_ & b & x & S & Q) Hb. exists x. split; [rewrite Q; apply p_str_app; assumption|].
  destruct S as (l & _ & Eb). rewrite Q, Eb, !bytes_ok_app in Hb. tauto.
Qed.

Lemma refused_status : forall id out, is32 id -> refused id out -> out = None \/ exists m, out = Some m /\ status_msg id 4 m.
Proof.
  intros id out Hi [->|(m & -> & Hm)]; [left; reflexivity|]. right. eexists. split; [reflexivity|]. apply status_ok; [assumption| |assumption].
  unfold is32, W32. reflexivity.
Qed.
