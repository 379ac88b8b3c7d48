(* KexProofs2.v - group exchange, exchange hash and key derivation. *)
From Verif Require Import Base WireModel WireSpec WireProofs DhTable KexModel KexSpec KexProofs.
From Coq Require Import List NArith ZArith Lia Bool.
From Coq Require Import ZifyBool ZifyNat ZifyN.
Import ListNotations.
Open Scope N_scope.

Lemma be32_ok : forall n, is32 n -> bytes_ok (be32 n).
Proof. intros n H. rewrite <- be32_c32toa by assumption. apply c32toa_ok. Qed.

Lemma str_ok : forall s, is32 (lenN s) -> bytes_ok s -> bytes_ok (str s).
Proof. intros s H Hs. apply Forall_app. split; [apply be32_ok|]; assumption. Qed.

Lemma lenN_be32 : forall n, lenN (be32 n) = 4.
Proof. reflexivity. Qed.

Lemma uint32_at : forall pre n post, let m := pre ++ be32 n ++ post in
  bytes_ok m -> is32 (lenN m) -> is32 n -> GetUint32 m (lenN m) (lenN pre) = POk n (lenN pre + 4).
Proof.
  intros pre n post m Hm H32 Hn.
  assert (HL : lenN m = lenN pre + 4 + lenN post) by (unfold m; rewrite !lenN_app, lenN_be32; lia).
  rewrite GetUint32_eq by (try assumption; unfold is32 in *; lia).
  destruct (N.leb_spec (lenN pre + 4) (lenN m)); [|lia].
  assert (S1 : slice m (lenN pre) 4 = be32 n) by (rewrite <- (lenN_be32 n); apply slice_mid).
  rewrite S1, <- be32_c32toa, be_value_c32toa by assumption. reflexivity.
Qed.

Lemma request_parse : forall l mn pf mx rest x,
  is32 mn -> is32 pf -> is32 mx -> bytes_ok rest -> is32 (lenN rest + 12) ->
  DoKexDhGexRequest l (be32 mn ++ be32 pf ++ be32 mx ++ rest) x
  = SendKexDhGexGroup l (mkGex mn pf mx (x_p x) (x_g x)).
Proof.
  intros l mn pf mx rest x Hmn Hpf Hmx Hr HL. unfold DoKexDhGexRequest.
  set (m := be32 mn ++ be32 pf ++ be32 mx ++ rest).
  assert (Hm : bytes_ok m).
  { unfold m. apply Forall_app. split; [apply be32_ok; assumption|]. apply Forall_app. split; [apply be32_ok; assumption|].
    apply Forall_app. split; [apply be32_ok; assumption|assumption]. }
  assert (H32 : is32 (lenN m)) by (unfold m; rewrite !lenN_app, !lenN_be32; unfold is32 in *; lia).
  cbv zeta. change m with ([] ++ be32 mn ++ (be32 pf ++ be32 mx ++ rest)) at 1 2.
  change 0 with (lenN (@nil N)) at 1. rewrite uint32_at by assumption.
  change (lenN (@nil N) + 4) with (lenN (be32 mn)).
  change m with (be32 mn ++ be32 pf ++ (be32 mx ++ rest)) at 1 2.
  rewrite uint32_at by assumption.
  replace (lenN (be32 mn) + 4) with (lenN (be32 mn ++ be32 pf)) by reflexivity.
  replace m with ((be32 mn ++ be32 pf) ++ be32 mx ++ rest) by (unfold m; rewrite app_assoc; reflexivity).
  rewrite uint32_at.
  - reflexivity.
  - rewrite <- app_assoc. assumption.
  - rewrite <- app_assoc. assumption.
  - assumption.
Qed.

Lemma lead_len : forall p b, bytes_ok p -> hd 0 p <> 0 -> be_value p < 2 ^ b ->
  0 < lenN p /\ 8 * (lenN p - 1) < b.
Proof.
  intros [|x r] b Hp Hh Hv; [cbn in Hh; lia|]. cbn [hd] in Hh. rewrite lenN_cons. split; [lia|].
  replace (1 + lenN r - 1) with (lenN r) by lia. rewrite be_value_cons in Hv.
  assert (256 ^ lenN r < 2 ^ b) by nia.
  change 256 with (2 ^ 8) in H. rewrite <- N.pow_mul_r in H.
  apply N.pow_lt_mono_r_iff in H; lia.
Qed.

Lemma group_msg : forall p b, bytes_ok p -> hd 0 p <> 0 -> be_value p < 2 ^ b -> b <= 13592 ->
  PutPadded p = str (mpint_contents p) /\ is32 (lenN (mpint_contents p)) /\
  PutPadded dhGenerator = str [2].
Proof.
  intros p b Hp Hh Hv Hb. destruct (lead_len p b Hp Hh Hv) as [HL1 HL2].
  pose proof (num_contents_len true p) as HN. cbn [num_contents] in HN.
  assert (is32 (lenN (mpint_contents p))) by (unfold is32, W32; lia).
  split; [|split; [assumption|reflexivity]].
  rewrite PutPadded_string by (unfold is32, W32; lia). rewrite padded_mpint by assumption.
  apply str_put. assumption.
Qed.

Lemma encodes_mpint : forall p, bytes_ok p -> encodes (VNum (be_value p)) (mpint_contents p).
Proof. intros p H. apply (num_contents_encodes true p H). Qed.

(* the server's answer *)
Lemma group_choice : forall l mn pf mx x, table_ok l ->
  match SendKexDhGexGroup l (mkGex mn pf mx (x_p x) (x_g x)) with
  | (x', Some msg) => exists b p, In (b, p) l /\ best_size (map fst l) mn pf mx b /\
      msg = 31 :: str (mpint_contents p) ++ str [2] /\ x' = mkGex mn pf mx (Some p) (x_g x)
  | (x', None) => forall b, ~ acceptable (map fst l) mn mx b
  end.
Proof.
  intros l mn pf mx x [Ha Ht]. unfold SendKexDhGexGroup. cbn [x_min x_pref x_max x_p x_g].
  pose proof (select_spec l mn pf mx Ha) as S.
  destruct (SelectKexDhGexGroup l mn pf mx) as [[b p]|]; [|exact S].
  destruct S as [Hin Hbest]. cbn [fst] in Hbest. exists b, p.
  split; [assumption|]. split; [assumption|]. split; [|reflexivity].
  rewrite Forall_forall in Ht. specialize (Ht _ Hin). cbn [fst snd] in Ht. destruct Ht as (T1 & T2 & _ & _ & T3).
  assert (b <= 13592) by (unfold best_size, acceptable in Hbest; lia).
  destruct (group_msg p b T1 T2 T3 H) as (E1 & _ & E2). rewrite E1, E2. reflexivity.
Qed.

(* the client's request *)
Lemma request_window : forall x, is32 (x_min x) -> is32 (x_pref x) -> is32 (x_max x) ->
  match SendKexDhGexRequest x with
  | (x', Some msg) => exists mn pf mx, msg = 34 :: be32 mn ++ be32 pf ++ be32 mx /\
      x' = mkGex mn pf mx (x_p x) (x_g x) /\
      mn = N.max 2048 (x_min x) /\ mx = x_max x /\ mn <= pf /\ pf <= mx /\
      (mn <= x_pref x /\ x_pref x <= mx -> pf = x_pref x)
  | (_, None) => x_max x < N.max 2048 (x_min x)
  end.
Proof.
  intros x H1 H2 H3. unfold SendKexDhGexRequest, GEX_MIN_BITS. cbv zeta.
  set (mn := if x_min x <? 2048 then 2048 else x_min x).
  assert (Hmn : mn = N.max 2048 (x_min x)) by (unfold mn; destruct (N.ltb_spec (x_min x) 2048); lia).
  rewrite <- Hmn. destruct (N.ltb_spec (x_max x) mn) as [H|H]; [assumption|].
  set (pf := if x_max x <? (if x_pref x <? mn then mn else x_pref x) then x_max x
             else if x_pref x <? mn then mn else x_pref x).
  assert (Hpf : mn <= pf /\ pf <= x_max x /\ (mn <= x_pref x /\ x_pref x <= x_max x -> pf = x_pref x)).
  { unfold pf. destruct (N.ltb_spec (x_pref x) mn).
    - destruct (N.ltb_spec (x_max x) mn); lia.
    - destruct (N.ltb_spec (x_max x) (x_pref x)); lia. }
  exists mn, pf, (x_max x).
  assert (is32 mn) by (unfold is32, W32 in *; lia). assert (is32 pf) by (unfold is32, W32 in *; lia).
  rewrite !be32_c32toa by assumption.
  split; [reflexivity|]. split; [reflexivity|]. split; [reflexivity|]. split; [reflexivity|].
  split; [lia|]. split; [lia|]. apply Hpf.
Qed.

(* what the client checks *)
Definition lead (b : bytes) : N := match b with 0 :: _ => 1 | _ => 0 end.

Lemma validate_ok : forall p g mn mx pt1 pt2, bytes_ok p ->
  ValidateKexDhGexGroup p g mn mx pt1 pt2 = WS_SUCCESS -> 0 < mn -> mn < 2147483648 ->
  let P := be_value p in let G := be_value g in
  (exists b, has_bits P b /\ mn <= b /\ b <= mx) /\ N.odd P = true /\ 2 <= G /\ G + 2 <= P /\
  pt1 P = true /\ pt2 ((P - 1) / 2) = true.
Proof.
  intros p g mn mx pt1 pt2 Hp E Hmn Hmn2. unfold ValidateKexDhGexGroup in E. rewrite (mp_val_be p), (mp_val_be g) in E. cbv zeta in *.
  set (P := be_value p) in *. set (G := be_value g) in *.
  destruct ((lenN p =? 0) || (lenN g =? 0)); [discriminate|].
  match type of E with (if ?c then _ else _) = _ => destruct c; [discriminate|] end.
  match type of E with (if ?c then _ else _) = _ => destruct c eqn:B; [discriminate|] end.
  destruct (N.odd P) eqn:O; [|discriminate]. cbn [negb] in E.
  destruct (N.leb_spec G 1) as [|HG]; [discriminate|].
  destruct (N.leb_spec (P - 1) G) as [|HP]; [discriminate|].
  destruct (pt1 P) eqn:T1; [|discriminate]. cbn [negb] in E.
  destruct (pt2 ((P - 1) / 2)) eqn:T2; [|discriminate].
  split; [|repeat split; lia].
  exists (N.size P). split; [apply size_bits; lia|].
  apply orb_false_iff in B. destruct B as [B1 B2]. unfold mp_bits in *.
  apply Z.ltb_ge in B1. apply Z.ltb_ge in B2. unfold int32 in *.
  destruct (N.ltb_spec mn 2147483648); destruct (N.ltb_spec mx 2147483648); lia.
Qed.

Lemma validate_accepts : forall p mn mx pt1 pt2 b, bytes_ok p -> hd 0 p <> 0 ->
  N.odd (be_value p) = true -> has_bits (be_value p) b -> 2048 <= b -> b <= 13592 ->
  mn <= b -> b <= mx -> mx < 2147483648 ->
  pt1 (be_value p) = true -> pt2 ((be_value p - 1) / 2) = true ->
  ValidateKexDhGexGroup (mpint_contents p) [2] mn mx pt1 pt2 = WS_SUCCESS.
Proof.
  intros p mn mx pt1 pt2 b Hp Hh Ho Hb H1 H2 H3 H4 H5 T1 T2.
  destruct (lead_len p b Hp Hh (proj2 Hb)) as [L1 L2].
  unfold ValidateKexDhGexGroup. rewrite (mp_val_be (mpint_contents p)), (mp_val_be [2]), mpint_contents_value. change (be_value [2]) with 2.
  change (lenN [2]) with 1. cbv zeta.
  assert (LP : sub32 (lenN (mpint_contents p)) (lead (mpint_contents p)) = lenN p /\ lenN (mpint_contents p) <> 0).
  { rewrite <- padded_mpint by assumption. destruct p as [|x r]; [cbn in L1; lia|].
    cbn [hd] in Hh. unfold pad_of. rewrite lenN_cons in *.
    destruct (N.testbit x 7); cbn [N.eqb Pos.eqb app lead]; rewrite !lenN_cons.
    - split; [|lia]. rewrite sub32_small by (unfold W32; lia). lia.
    - destruct x as [|q]; [lia|]. split; [|lia]. rewrite sub32_small by (unfold W32; lia). lia. }
  unfold lead in LP. destruct LP as [LP LP0]. rewrite LP.
  destruct (N.eqb_spec (lenN (mpint_contents p)) 0); [contradiction|]. change (1 =? 0) with false. cbn [orb].
  change (sub32 1 0) with 1.
  assert (MB : lenN p <= mx / 8 + (if mx mod 8 =? 0 then 0 else 1)).
  { pose proof (N.div_mod mx 8 ltac:(lia)). pose proof (N.mod_lt mx 8 ltac:(lia)).
    destruct (N.eqb_spec (mx mod 8) 0); lia. }
  destruct (N.ltb_spec (mx / 8 + (if mx mod 8 =? 0 then 0 else 1)) (lenN p)); [lia|].
  destruct (N.ltb_spec (lenN p) 1); [lia|]. cbn [orb].
  unfold mp_bits. rewrite (bits_size _ b) by (try assumption; lia).
  unfold int32. destruct (N.ltb_spec mn 2147483648); [|lia]. destruct (N.ltb_spec mx 2147483648); [|lia].
  destruct (Z.ltb_spec (Z.of_N b) (Z.of_N mn)); [lia|]. destruct (Z.ltb_spec (Z.of_N mx) (Z.of_N b)); [lia|].
  cbn [orb]. rewrite Ho, T1, T2. cbn [negb]. change (2 <=? 1) with false. cbv iota.
  destruct (N.leb_spec (be_value p - 1) 2) as [B|]; [exfalso|reflexivity].
  destruct Hb as [Hb _]. assert (2 ^ 2 <= 2 ^ (b - 1)) by (apply N.pow_le_mono_r; lia).
  change (2 ^ 2) with 4 in H7. assert (be_value p <= 3) by lia. lia.
Qed.

(* the accepted message *)
Definition no_top (s : bytes) : Prop := match s with x :: _ => N.testbit x 7 = false | [] => True end.

Lemma group_parse : forall pt1 pt2 p g x, bytes_ok p -> bytes_ok g -> no_top p -> no_top g ->
  lenN p <= 3169 -> is32 (lenN p + lenN g + 8) ->
  DoKexDhGexGroup pt1 pt2 (str p ++ str g) x =
    let mn := N.max 2048 (x_min x) in
    let r := ValidateKexDhGexGroup p g mn (x_max x) pt1 pt2 in
    if rc_eqb r WS_SUCCESS then (mkGex (x_min x) (x_pref x) (x_max x) (Some p) (Some g), WS_SUCCESS) else (x, r).
Proof.
  intros pt1 pt2 p g x Hp Hg Tp Tg HL H32. unfold DoKexDhGexGroup.
  set (m := str p ++ str g).
  assert (Lm : lenN m = lenN p + lenN g + 8) by (unfold m; rewrite lenN_app, !lenN_str; lia).
  assert (Hm : bytes_ok m).
  { unfold m. apply Forall_app. split; apply str_ok; try assumption; unfold is32 in *; lia. }
  assert (Hm32 : is32 (lenN m)) by (rewrite Lm; assumption).
  assert (E1 : m = [] ++ str p ++ str g) by reflexivity.
  assert (E2 : m = str p ++ str g ++ []) by (rewrite app_nil_r; reflexivity).
  cbv zeta.
  assert (P1 : GetMpint m (lenN m) 0 = POk (4, lenN p) (4 + lenN p)).
  { pose proof (mpint_at [] p (str g)) as Q. cbv zeta in Q. rewrite <- E1 in Q. apply Q; assumption. }
  assert (P2 : GetMpint m (lenN m) (4 + lenN p) = POk (4 + lenN p + 4, lenN g) (4 + lenN p + 4 + lenN g)).
  { pose proof (mpint_at (str p) g []) as Q. cbv zeta in Q. rewrite <- E2, lenN_str in Q. apply Q; assumption. }
  assert (R1 : rdn m 4 (lenN p) = Some p).
  { pose proof (string_ref_at [] p (str g)) as Q. cbv zeta in Q. rewrite <- E1 in Q.
    destruct (Q Hm Hm32) as (_ & _ & R & _). exact R. }
  assert (R2 : rdn m (4 + lenN p + 4) (lenN g) = Some g).
  { pose proof (string_ref_at (str p) g []) as Q. cbv zeta in Q. rewrite <- E2, lenN_str in Q.
    destruct (Q Hm Hm32) as (_ & _ & R & _). exact R. }
  rewrite P1. cbn [fst snd]. unfold MAX_KEX_KEY_SZ. change (3168 + 1) with 3169.
  destruct (N.ltb_spec 3169 (lenN p)); [lia|]. rewrite P2. cbn [fst snd]. rewrite R1, R2.
  unfold GEX_MIN_BITS.
  replace (if x_min x <? 2048 then 2048 else x_min x) with (N.max 2048 (x_min x)); [reflexivity|].
  destruct (N.ltb_spec (x_min x) 2048); lia.
Qed.

(* the two numbers any accepted message contains *)
Lemma str_slice : forall m i n, bytes_ok m -> i + 4 + n <= lenN m -> n = be_value (slice m i 4) ->
  slice m i (4 + n) = str (slice m (i + 4) n).
Proof.
  intros m i n Hm HL E. rewrite slice_join. unfold str. rewrite slice_length by assumption. f_equal.
  pose proof (be_value_lt m i Hm ltac:(lia)) as HV. rewrite E. rewrite <- be32_c32toa by exact HV.
  apply be_value_inj.
  - apply slice_ok. assumption.
  - apply c32toa_ok.
  - rewrite slice_length by lia. reflexivity.
  - rewrite be_value_c32toa by exact HV. reflexivity.
Qed.

Lemma slice_all : forall m i n, i + n <= lenN m -> m = takeN i m ++ slice m i n ++ dropN (i + n) m.
Proof.
  intros m i n H. unfold slice. rewrite <- dropN_dropN. rewrite takeN_dropN, takeN_dropN. reflexivity.
Qed.

Lemma mpint_inv : forall m i o s j, bytes_ok m -> is32 (lenN m) -> is32 i ->
  GetMpint m (lenN m) i = POk (o, s) j ->
  o = i + 4 /\ j = i + 4 + s /\ j <= lenN m /\ slice m i (4 + s) = str (slice m o s) /\ no_top (slice m o s).
Proof.
  intros m i o s j Hm H32 Hi E. rewrite GetMpint_eq in E by (try assumption; lia).
  destruct (N.leb_spec (i + 4) (lenN m)) as [H1|H1]; [|discriminate]. cbv zeta in E.
  remember (be_value (slice m i 4)) as n eqn:En.
  destruct (N.leb_spec (i + 4 + n) (lenN m)) as [H2|H2]; [|discriminate].
  assert (EE : o = i + 4 /\ s = n /\ j = i + 4 + n /\ no_top (slice m (i + 4) n)).
  { destruct (slice m (i + 4) n) as [|x t]; cbn [no_top].
    - injection E as <- <- <-. repeat split.
    - destruct (N.testbit x 7); [discriminate|]. injection E as <- <- <-. repeat split. }
  destruct EE as (-> & -> & -> & T).
  split; [reflexivity|]. split; [reflexivity|]. split; [assumption|]. split; [|exact T].
  apply str_slice; assumption.
Qed.

Lemma GetMpint_no_oob : forall m i, bytes_ok m -> is32 (lenN m) -> is32 i -> GetMpint m (lenN m) i <> POob.
Proof.
  intros m i Hm H32 Hi E. rewrite GetMpint_eq in E by (try assumption; lia).
  destruct (_ <=? _); [|discriminate]. cbv zeta in E. destruct (_ <=? _); [|discriminate].
  destruct (slice m (i + 4) (be_value (slice m i 4))) as [|x t]; [discriminate|].
  destruct (N.testbit x 7); discriminate.
Qed.

Lemma validate_no_other : forall p g mn mx pt1 pt2, ValidateKexDhGexGroup p g mn mx pt1 pt2 <> WS_FATAL_OTHER.
Proof.
  intros. unfold ValidateKexDhGexGroup. cbv zeta.
  repeat match goal with |- (if ?c then _ else _) <> _ => destruct c; try discriminate end.
Qed.

Lemma GetMpint_err : forall m i e j, bytes_ok m -> is32 (lenN m) -> is32 i ->
  GetMpint m (lenN m) i = PErr e j -> e <> WS_FATAL_OTHER /\ e <> WS_SUCCESS.
Proof.
  intros m i e j Hm H32 Hi E. rewrite GetMpint_eq in E by (try assumption; lia).
  destruct (_ <=? _); [|injection E as <- <-; split; discriminate]. cbv zeta in E.
  destruct (_ <=? _); [|injection E as <- <-; split; discriminate].
  destruct (slice m (i + 4) (be_value (slice m i 4))) as [|x t]; [discriminate|].
  destruct (N.testbit x 7); [injection E as <- <-; split; discriminate|discriminate].
Qed.

(* any group the client takes *)
Lemma group_taken : forall pt1 pt2 buf x x' r, bytes_ok buf -> is32 (lenN buf) ->
  x_min x < 2147483648 -> DoKexDhGexGroup pt1 pt2 buf x = (x', r) ->
  r <> WS_FATAL_OTHER /\ (r <> WS_SUCCESS -> x' = x) /\
  (r = WS_SUCCESS -> exists p g rest, buf = str p ++ str g ++ rest /\
     x' = mkGex (x_min x) (x_pref x) (x_max x) (Some p) (Some g) /\ no_top p /\ no_top g /\
     let P := be_value p in let G := be_value g in
     (exists b, has_bits P b /\ 2048 <= b /\ x_min x <= b /\ b <= x_max x) /\
     N.odd P = true /\ 2 <= G /\ G + 2 <= P /\ pt1 P = true /\ pt2 ((P - 1) / 2) = true).
Proof.
  intros pt1 pt2 buf x x' r Hb H32 Hmin E. unfold DoKexDhGexGroup in E. cbv zeta in E.
  assert (HF : forall e, (x, e) = (x', r) -> e <> WS_FATAL_OTHER -> e <> WS_SUCCESS ->
     r <> WS_FATAL_OTHER /\ (r <> WS_SUCCESS -> x' = x) /\
     (r = WS_SUCCESS -> exists p g rest, buf = str p ++ str g ++ rest /\
     x' = mkGex (x_min x) (x_pref x) (x_max x) (Some p) (Some g) /\ no_top p /\ no_top g /\
     let P := be_value p in let G := be_value g in
     (exists b, has_bits P b /\ 2048 <= b /\ x_min x <= b /\ b <= x_max x) /\
     N.odd P = true /\ 2 <= G /\ G + 2 <= P /\ pt1 P = true /\ pt2 ((P - 1) / 2) = true)).
  { intros e Ee H1 H2. injection Ee as <- <-. split; [assumption|]. split; [reflexivity|]. intros Q. contradiction. }
  assert (Z32 : is32 0) by (unfold is32, W32; lia).
  destruct (GetMpint buf (lenN buf) 0) as [[po ps] i|e j|] eqn:G1.
  2: { destruct (GetMpint_err _ _ _ _ Hb H32 Z32 G1). apply (HF e); assumption. }
  2: { exfalso. apply (GetMpint_no_oob buf 0 Hb H32 Z32 G1). }
  cbn [fst snd] in E.
  destruct (MAX_KEX_KEY_SZ + 1 <? ps); [apply (HF _ E); discriminate|].
  destruct (mpint_inv _ _ _ _ _ Hb H32 Z32 G1) as (-> & -> & L1 & S1 & T1).
  assert (I32 : is32 (0 + 4 + ps)) by (unfold is32 in *; lia).
  destruct (GetMpint buf (lenN buf) (0 + 4 + ps)) as [[go gs] i|e j|] eqn:G2.
  2: { destruct (GetMpint_err _ _ _ _ Hb H32 I32 G2). apply (HF e); assumption. }
  2: { exfalso. apply (GetMpint_no_oob buf _ Hb H32 I32 G2). }
  destruct (mpint_inv _ _ _ _ _ Hb H32 I32 G2) as (-> & -> & L2 & S2 & T2).
  cbn [fst snd] in E. rewrite !rdn_some in E by lia.
  set (pb := slice buf (0 + 4) ps) in *. set (gb := slice buf (0 + 4 + ps + 4) gs) in *.
  unfold GEX_MIN_BITS in E.
  replace (if x_min x <? 2048 then 2048 else x_min x) with (N.max 2048 (x_min x)) in E
    by (destruct (N.ltb_spec (x_min x) 2048); lia).
  destruct (rc_eqb (ValidateKexDhGexGroup pb gb (N.max 2048 (x_min x)) (x_max x) pt1 pt2) WS_SUCCESS) eqn:V.
  - apply rc_eqb_eq in V. injection E as <- <-.
    split; [discriminate|]. split; [intros Q; contradiction Q; reflexivity|]. intros _.
    exists pb, gb, (dropN (0 + 4 + ps + 4 + gs) buf).
    split.
    { rewrite <- S1, <- S2. rewrite app_assoc.
      replace (slice buf 0 (4 + ps)) with (takeN (4 + ps) buf) by reflexivity.
      rewrite (slice_all buf (0 + 4 + ps) (4 + gs) ltac:(lia)) at 1.
      replace (0 + 4 + ps + (4 + gs)) with (0 + 4 + ps + 4 + gs) by lia.
      rewrite app_assoc. f_equal. }
    split; [reflexivity|]. split; [exact T1|]. split; [exact T2|].
    assert (Hpb : bytes_ok pb) by (apply slice_ok; assumption).
    destruct (validate_ok pb gb _ _ pt1 pt2 Hpb V) as (B & R); [lia|lia|].
    cbv zeta. split; [|exact R]. destruct B as (b & B1 & B2 & B3). exists b. split; [assumption|]. lia.
  - apply (HF _ E); [apply validate_no_other|]. intros Q. rewrite Q in V. discriminate.
Qed.
