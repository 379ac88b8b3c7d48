(* WireProps.v - C01, C02, C03. *)
From Verif Require Import Base WireModel WireSpec WireProofs.
From Coq Require Import List NArith Lia.
From Coq Require Import ZifyBool ZifyNat ZifyN.
Import ListNotations.
Open Scope N_scope.

(* ---- C01 ---------------------------------------------------------- *)
(* [m] is the memory behind the buffer pointer, [len] the length the caller
   passes (at most the memory available), [i] any 32-bit index. Each reader's
   whole result is given: it never is POob, success needs the whole field
   inside [len], the value is the field's, and the index lands just after it. *)

Theorem C01_uint32 : forall m len i, bytes_ok m -> len <= lenN m -> is32 len -> is32 i ->
  GetUint32 m len i <> POob /\
  (forall v j, GetUint32 m len i = POk v j <-> uint32_at m len i v /\ j = i + 4) /\
  (forall e j, GetUint32 m len i = PErr e j -> len < i + 4).
Proof.
  intros m len i Hm Hl H32 Hi. rewrite GetUint32_eq by assumption. unfold uint32_at.
  destruct (N.leb_spec (i + 4) len) as [H|H]; repeat split; try discriminate; intros.
  - injection H0; intros; subst; tauto.
  - injection H0; intros; subst; tauto.
  - injection H0; intros; subst; tauto.
  - destruct H0 as ((_ & ->) & ->); reflexivity.
  - lia.
  - assumption.
Qed.

Theorem C01_boolean : forall m len i, len <= lenN m -> is32 len ->
  GetBoolean m len i <> POob /\
  (forall v j, GetBoolean m len i = POk v j -> i < len /\ j = i + 1 /\ rd m i = Some v) /\
  (forall e j, GetBoolean m len i = PErr e j -> len <= i).
Proof.
  intros m len i Hl H32. rewrite GetBoolean_eq by assumption.
  destruct (N.ltb_spec i len) as [H|H].
  - destruct (rd_some (takeN len m) i) as (x & Ex & _).
    { rewrite lenN_takeN; lia. }
    rewrite Ex. split; [discriminate|split; [intros v j Hv|discriminate]].
    injection Hv as <- <-. split; [assumption|split; [reflexivity|]].
    rewrite <- (takeN_dropN _ len m). rewrite rd_app_l; [assumption|].
      rewrite lenN_takeN; lia.
  - rewrite rd_none by (rewrite lenN_takeN; lia). repeat split; try discriminate. intros; lia.
Qed.

Theorem C01_uint64 : forall m len i, bytes_ok m -> len <= lenN m -> is32 len -> is32 i ->
  GetUint64 m len i <> POob /\
  (forall v j, GetUint64 m len i = POk v j ->
     i + 8 <= len /\ j = i + 8 /\ v = be_value (slice m i 4) * W32 + be_value (slice m (i + 4) 4)) /\
  (forall e j, GetUint64 m len i = PErr e j -> len < i + 8).
Proof.
  intros m len i Hm Hl H32 Hi. rewrite GetUint64_eq by assumption.
  destruct (N.leb_spec (i + 8) len) as [H|H].
  - repeat split; try discriminate; congruence.
  - destruct (N.leb_spec (i + 4) len); repeat split; try discriminate; intros; assumption.
Qed.

(* The size reader: the size it returns fits in what is left. *)
Theorem C01_size : forall m len i, bytes_ok m -> len <= lenN m -> is32 len -> is32 i ->
  GetSize m len i <> POob /\
  (forall n j, GetSize m len i = POk n j <->
     uint32_at m len i n /\ j = i + 4 /\ i + 4 + n <= len) /\
  (forall e j, GetSize m len i = PErr e j -> i <= j /\ (j <= len \/ j = i)).
Proof.
  intros m len i Hm Hl H32 Hi. rewrite GetSize_eq by assumption. unfold uint32_at. cbv zeta.
  destruct (N.leb_spec (i + 4) len) as [H|H].
  - destruct (N.leb_spec (i + 4 + be_value (slice m i 4)) len) as [H2|H2];
      (split; [discriminate|split; [intros n j; split|intros e j]]); try discriminate.
    + intros E; injection E as <- <-; auto.
    + intros ((_ & ->) & -> & _); reflexivity.
    + intros ((_ & ->) & -> & H3); lia.
    + intros E; injection E as <- <-. lia.
  - split; [discriminate|split; [intros n j; split|intros e j]]; try discriminate.
    + intros ((H3 & _) & _); lia.
    + intros E; injection E as <- <-. lia.
Qed.

Theorem C01_skip : forall m len i, bytes_ok m -> len <= lenN m -> is32 len -> is32 i ->
  GetSkip m len i <> POob /\
  (forall u j, GetSkip m len i = POk u j <->
     exists s, string_at m len i s /\ j = i + 4 + lenN s) /\
  (forall e j, GetSkip m len i = PErr e j -> i <= j /\ (j <= len \/ j = i)).
Proof.
  intros m len i Hm Hl H32 Hi. rewrite GetSkip_eq by assumption.
  unfold string_at, uint32_at. cbv zeta.
  destruct (N.leb_spec (i + 4) len) as [H|H].
  - destruct (N.leb_spec (i + 4 + be_value (slice m i 4)) len) as [H2|H2];
      (split; [discriminate|split; [intros u j; split|intros e j]]); try discriminate.
    + intros E; injection E as _ <-.
      exists (slice m (i + 4) (be_value (slice m i 4))).
      rewrite !slice_length by lia. repeat split; try lia.
    + intros (s & ((_ & Hs) & _ & _) & ->). destruct u. rewrite Hs. reflexivity.
    + intros (s & ((_ & Hs) & H3 & _) & _). rewrite Hs in H3. lia.
    + intros E; injection E as <- <-. lia.
  - split; [discriminate|split; [intros u j; split|intros e j]]; try discriminate.
    + intros (s & ((H3 & _) & _ & _) & _); lia.
    + intros E; injection E as <- <-. lia.
Qed.

(* string reference: it succeeds exactly when a whole string is there, and the
   (offset, size) it returns is that string *)
Theorem C01_string_ref : forall m len i, bytes_ok m -> len <= lenN m -> is32 len -> is32 i ->
  GetStringRef m len i <> POob /\
  (forall off n j, GetStringRef m len i = POk (off, n) j ->
     j = off + n /\ j <= len /\ i < j /\ string_at m len i (slice m off n)) /\
  (forall s, string_at m len i s ->
     exists off j, GetStringRef m len i = POk (off, lenN s) j /\ slice m off (lenN s) = s) /\
  (forall e j, GetStringRef m len i = PErr e j -> i <= j /\ (j <= len \/ j = i)).
Proof.
  intros m len i Hm Hl H32 Hi. repeat split.
  - rewrite GetStringRef_eq by assumption. cbv zeta.
    destruct (i + 4 <=? len); [|discriminate].
    destruct (i + 4 + _ <=? len); discriminate.
  - rewrite GetStringRef_eq in H by assumption. cbv zeta in H.
    destruct (N.leb_spec (i + 4) len); [|discriminate].
    destruct (N.leb_spec (i + 4 + be_value (slice m i 4)) len); [|discriminate].
    injection H as <- <- <-. reflexivity.
  - rewrite GetStringRef_eq in H by assumption. cbv zeta in H.
    destruct (N.leb_spec (i + 4) len); [|discriminate].
    destruct (N.leb_spec (i + 4 + be_value (slice m i 4)) len); [|discriminate].
    injection H as <- <- <-. assumption.
  - rewrite GetStringRef_eq in H by assumption. cbv zeta in H.
    destruct (N.leb_spec (i + 4) len); [|discriminate].
    destruct (N.leb_spec (i + 4 + be_value (slice m i 4)) len); [|discriminate].
    injection H as <- <- <-. lia.
  - rewrite GetStringRef_eq in H by assumption. cbv zeta in H.
    destruct (N.leb_spec (i + 4) len); [|discriminate]. assumption.
  - rewrite GetStringRef_eq in H by assumption. cbv zeta in H.
    destruct (N.leb_spec (i + 4) len); [|discriminate].
    destruct (N.leb_spec (i + 4 + be_value (slice m i 4)) len); [|discriminate].
    injection H as <- <- <-. rewrite slice_length by lia. reflexivity.
  - rewrite GetStringRef_eq in H by assumption. cbv zeta in H.
    destruct (N.leb_spec (i + 4) len); [|discriminate].
    destruct (N.leb_spec (i + 4 + be_value (slice m i 4)) len); [|discriminate].
    injection H as <- <- <-. rewrite slice_length by lia. assumption.
  - rewrite GetStringRef_eq in H by assumption. cbv zeta in H.
    destruct (N.leb_spec (i + 4) len); [|discriminate].
    destruct (N.leb_spec (i + 4 + be_value (slice m i 4)) len); [|discriminate].
    injection H as <- <- <-. rewrite slice_length by lia. reflexivity.
  - intros s Hs. apply string_at_ref in Hs; try assumption. destruct Hs as [E1 E2].
    exists (i + 4), (i + 4 + lenN s). split; [assumption|symmetry; assumption].
  - rewrite GetStringRef_eq in H by assumption. cbv zeta in H.
    destruct (N.leb_spec (i + 4) len); [destruct (N.leb_spec (i + 4 + be_value (slice m i 4)) len); [discriminate|]|];
    injection H as <- <-; lia.
  - rewrite GetStringRef_eq in H by assumption. cbv zeta in H.
    destruct (N.leb_spec (i + 4) len); [destruct (N.leb_spec (i + 4 + be_value (slice m i 4)) len); [discriminate|]|];
    injection H as <- <-; lia.
Qed.

(* copied strings: the destination holds the string cut to its capacity and a
   NUL, and never more than the capacity *)
Theorem C01_string_copy : forall m len i sSz, bytes_ok m -> len <= lenN m -> is32 len ->
  is32 i -> 0 < sSz ->
  GetString sSz m len i <> POob /\
  (forall d j, GetString sSz m len i = POk d j <->
     exists s, string_at m len i s /\ d = takeN (sSz - 1) s ++ [0] /\ j = i + 4 + lenN s) /\
  (forall d j, GetString sSz m len i = POk d j -> lenN d <= sSz).
Proof.
  intros m len i sSz Hm Hl H32 Hi Hs. rewrite GetString_eq by assumption.
  unfold string_at, uint32_at. cbv zeta.
  destruct (N.leb_spec (i + 4) len) as [H|H].
  - destruct (N.leb_spec (i + 4 + be_value (slice m i 4)) len) as [H2|H2];
      (split; [discriminate|split; [intros d j; split|intros d j]]); try discriminate.
    + intros E; injection E as <- <-.
      exists (slice m (i + 4) (be_value (slice m i 4))).
      rewrite !slice_length by lia. repeat split; try lia.
    + intros (s & ((_ & E1) & _ & E2) & -> & ->). rewrite <- E1, <- E2. reflexivity.
    + intros E; injection E as <- <-. rewrite lenN_app, lenN_takeN.
      change (lenN [0]) with 1. lia.
    + intros (s & ((_ & E1) & H3 & E2) & _). rewrite E1 in H3. lia.
  - split; [discriminate|split; [intros d j; split|intros d j]]; try discriminate.
    intros (s & ((H3 & _) & _) & _). lia.
Qed.

Theorem C01_string_alloc : forall m len i, bytes_ok m -> len <= lenN m -> is32 len -> is32 i ->
  GetStringAlloc m len i <> POob /\
  (forall d j, GetStringAlloc m len i = POk d j <->
     exists s, string_at m len i s /\ d = s ++ [0] /\ j = i + 4 + lenN s).
Proof.
  intros m len i Hm Hl H32 Hi. rewrite GetStringAlloc_eq by assumption.
  unfold string_at, uint32_at. cbv zeta.
  destruct (N.leb_spec (i + 4) len) as [H|H].
  - destruct (N.leb_spec (i + 4 + be_value (slice m i 4)) len) as [H2|H2];
      (split; [discriminate|intros d j; split]); try discriminate.
    + intros E; injection E as <- <-.
      exists (slice m (i + 4) (be_value (slice m i 4))).
      rewrite !slice_length by lia. repeat split; try lia.
    + intros (s & ((_ & E1) & _ & E2) & -> & ->). rewrite <- E1, <- E2. reflexivity.
    + intros (s & ((_ & E1) & H3 & E2) & _). rewrite E1 in H3. lia.
  - split; [discriminate|intros d j; split]; try discriminate.
    intros (s & ((H3 & _) & _) & _). lia.
Qed.

Theorem C01_mpint : forall m len i, bytes_ok m -> len <= lenN m -> is32 len -> is32 i ->
  GetMpint m len i <> POob /\
  (forall off n j, GetMpint m len i = POk (off, n) j ->
     j = off + n /\ j <= len /\ i < j /\ string_at m len i (slice m off n)).
Proof.
  intros m len i Hm Hl H32 Hi.
  destruct (C01_string_ref m len i Hm Hl H32 Hi) as (_ & Hok & _).
  assert (Hsub : forall off n j, GetMpint m len i = POk (off, n) j ->
                 GetStringRef m len i = POk (off, n) j).
  { intros off n j. unfold GetMpint. destruct (GetStringRef m len i) as [[o k] j'|e j'|]; cbn [pbind fst snd];
      [|discriminate|discriminate].
    destruct (0 <? k); [|trivial]. destruct (rd m o); [|discriminate].
    destruct (N.testbit n0 7); [discriminate|trivial]. }
  split.
  - rewrite GetMpint_eq by assumption. cbv zeta.
    destruct (i + 4 <=? len); [|discriminate]. destruct (i + 4 + _ <=? len); [|discriminate].
    destruct (slice m (i + 4) (be_value (slice m i 4))); [discriminate|].
    destruct (N.testbit _ 7); discriminate.
  - intros off n j E. apply Hok. apply Hsub. assumption.
Qed.

Print Assumptions C01_uint32.
Print Assumptions C01_boolean.
Print Assumptions C01_uint64.
Print Assumptions C01_size.
Print Assumptions C01_skip.
Print Assumptions C01_string_ref.
Print Assumptions C01_string_copy.
Print Assumptions C01_string_alloc.
Print Assumptions C01_mpint.

(* a message meeting the hypotheses, and one whose length field lies *)
Example C01_nonvacuous :
  let m := [0;0;0;3;65;66;67;9] in
  bytes_ok m /\ GetStringRef m 8 0 = POk (4, 3) 7 /\ GetString 3 m 8 0 = POk [65;66;0] 7 /\
  GetStringRef m 6 0 = PErr WS_BUFFER_E 4 /\
  GetStringRef [255;255;255;255;1] 5 0 = PErr WS_BUFFER_E 4 /\
  GetUint32 m 8 4294967295 = PErr WS_BUFFER_E 4294967295.
Proof.
  cbv zeta; split; [repeat constructor|repeat split; reflexivity].
Qed.

(* ---- C02 ---------------------------------------------------------- *)
(* Any sequence of fields, written by the encoders anywhere inside a message,
   is read back field for field and the reader stops right after it. *)
Theorem C02_fields_round_trip : forall fs pre post,
  let m := pre ++ put_fields fs ++ post in
  bytes_ok m -> is32 (lenN m) -> Forall field_ok fs ->
  get_fields (map kind_of fs) m (lenN m) (lenN pre)
  = POk fs (lenN pre + lenN (put_fields fs)).
Proof. intros fs pre post m Hb H32 Hf. apply get_fields_put; assumption. Qed.

(* and what the encoders write is what RFC 4251 says *)
Theorem C02_encoders_meaning : forall v s,
  is32 v -> is32 (lenN s) ->
  be_value (PutUint32 v) = v /\ lenN (PutUint32 v) = 4 /\ bytes_ok (PutUint32 v) /\
  string_at (PutString s) (lenN (PutString s)) 0 s.
Proof.
  intros v s Hv Hs. split; [apply be_value_c32toa; assumption|]. split; [reflexivity|].
  split; [apply c32toa_ok|]. unfold string_at, uint32_at, PutString.
  rewrite lenN_app. change (lenN (c32toa (lenN s))) with 4.
  assert (S1 : slice (c32toa (lenN s) ++ s) 0 4 = c32toa (lenN s)) by reflexivity.
  assert (S2 : slice (c32toa (lenN s) ++ s) (0 + 4) (lenN s) = s).
  { unfold slice. rewrite dropN_app_exact by reflexivity. apply takeN_all; lia. }
  rewrite S1, S2, be_value_c32toa by assumption. repeat split; lia.
Qed.
Print Assumptions C02_fields_round_trip.
Print Assumptions C02_encoders_meaning.

Example C02_nonvacuous :
  let fs := [FU32 305419896; FStr [115;115;104]; FBool 1; FStr []] in
  Forall field_ok fs /\
  put_fields fs = [18;52;86;120; 0;0;0;3;115;115;104; 1; 0;0;0;0] /\
  get_fields (map kind_of fs) ([7] ++ put_fields fs ++ [8;9]) 19 1 = POk fs 17.
Proof.
  cbv zeta; split; [repeat constructor; unfold is32, W32, byte_ok, lenN; cbn; lia|].
  split; reflexivity.
Qed.

(* ---- C03 ---------------------------------------------------------- *)
(* For every magnitude: what is put on the wire is a string whose contents are
   canonical and denote the same number, and the reader accepts it and returns
   those contents, wherever it stands in a message. *)
Theorem C03_mpint_keeps_number : forall buf pre post,
  let m := pre ++ PutMpint buf ++ post in
  bytes_ok buf -> bytes_ok m -> is32 (lenN m) ->
  exists c off,
    PutMpint buf = PutString c /\
    mpint_canonical c /\ be_value c = be_value buf /\
    GetMpint m (lenN m) (lenN pre) = POk (off, lenN c) (lenN pre + lenN (PutMpint buf)) /\
    slice m off (lenN c) = c.
Proof.
  intros buf pre post m Hbuf Hm H32.
  exists (mpint_contents buf), (lenN pre + 4).
  split; [apply PutMpint_string|]. split; [apply mpint_contents_canonical|].
  split; [apply mpint_contents_value|]. apply GetMpint_put; assumption.
Qed.

(* canonical contents are left alone (so the conversion is idempotent) *)
Theorem C03_mpint_idempotent : forall b, mpint_canonical b -> PutMpint b = PutString b.
Proof. intros b H. rewrite PutMpint_string, mpint_contents_fix by assumption. reflexivity. Qed.

(* the reader refuses exactly the strings with the sign bit set *)
Theorem C03_mpint_reader_refuses_negative : forall m len i s,
  bytes_ok m -> len <= lenN m -> is32 len -> is32 i ->
  string_at m len i s ->
  match s with
  | x :: _ => if N.testbit x 7 then GetMpint m len i = PErr WS_PARSE_E (i + 4 + lenN s)
              else exists off, GetMpint m len i = POk (off, lenN s) (i + 4 + lenN s) /\ slice m off (lenN s) = s
  | [] => exists off, GetMpint m len i = POk (off, 0) (i + 4)
  end.
Proof.
  intros m len i s Hm Hl H32 Hi Hs. rewrite GetMpint_eq by assumption.
  destruct Hs as ((H1 & H2) & H3 & H4). cbv zeta. rewrite <- H2.
  destruct (N.leb_spec (i + 4) len); [|lia].
  destruct (N.leb_spec (i + 4 + lenN s) len); [|lia]. rewrite <- H4.
  destruct s as [|x r].
  - exists (i + 4). rewrite lenN_nil, N.add_0_r. reflexivity.
  - destruct (N.testbit x 7); [reflexivity|]. exists (i + 4). split; [reflexivity|symmetry; assumption].
Qed.
Print Assumptions C03_mpint_keeps_number.
Print Assumptions C03_mpint_idempotent.
Print Assumptions C03_mpint_reader_refuses_negative.

Example C03_nonvacuous :
  PutMpint [0;0;128;1] = [0;0;0;3;0;128;1] /\ PutMpint [0;0;1;2] = [0;0;0;2;1;2] /\
  PutMpint [200] = [0;0;0;2;0;200] /\ PutMpint [0;0] = [0;0;0;0] /\
  mpint_canonical [0;128;1] /\
  GetMpint [0;0;0;1;128] 5 0 = PErr WS_PARSE_E 5.
Proof. repeat split; try reflexivity. intros _. exists 128, [1]. split; reflexivity. Qed.
