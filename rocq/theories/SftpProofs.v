(* SftpProofs.v - proofs about the SFTP server: reading the requests. *)
From Verif Require Import Base WireModel WireSpec WireProofs PathModel PathSpec PathProofs NegoSpec ReqSpec ReqProofs SftpModel.
From Coq Require Import List NArith ZArith Bool Lia String.
Import ListNotations.
Open Scope N_scope.

(* ---- the readers, from the tail of the message -------------------------- *)

Definition p_two (want : bool) (r : bytes) : option (N * N * bytes) :=
  if want then
    match p_u32 r with
    | Some (a, r) => match p_u32 r with Some (b, r) => Some (a, b, r) | None => None end
    | None => None
    end
  else Some (0, 0, r).
Definition p_one (want : bool) (r : bytes) : option (N * bytes) :=
  if want then p_u32 r else Some (0, r).
Fixpoint p_ext (fuel : nat) (n : N) (r : bytes) : option bytes :=
  if n =? 0 then Some r
  else match fuel with
  | O => None
  | S f =>
      match p_str r with
      | Some (_, r) => match p_str r with Some (_, r) => p_ext f (n - 1) r | None => None end
      | None => None
      end
  end.
Definition p_attrs_f (fuel : nat) (r : bytes) : option (attrs * bytes) :=
  match p_u32 r with None => None | Some (fl, r) =>
  match p_two (has fl A_SIZE) r with None => None | Some (s, r) =>
  match p_two (has fl A_UIDGID) r with None => None | Some (o, r) =>
  match p_one (has fl A_PERM) r with None => None | Some (p, r) =>
  match p_two (has fl A_TIME) r with None => None | Some (t, r) =>
  match p_one (has fl A_EXT) r with None => None | Some (e, r) =>
  match p_ext fuel e r with None => None | Some r =>
    Some (mkAttrs fl (fst s) (snd s) (fst o) (snd o) p (fst t) (snd t) e, r)
  end end end end end end end.
Definition p_attrs (r : bytes) : option (attrs * bytes) := p_attrs_f (Datatypes.length r) r.

Lemma p_str_len : forall r s r', p_str r = Some (s, r') -> lenN r = 4 + lenN s + lenN r'.
Proof.
  intros r s r' H. destruct (p_str_some _ _ _ H) as (b & (l & (Hl & _) & ->) & ->).
  rewrite !lenN_app. lia.
Qed.

(* the fuel is enough *)
Lemma p_ext_fuel : forall f f' n r, (Datatypes.length r <= f)%nat -> (Datatypes.length r <= f')%nat ->
  p_ext f n r = p_ext f' n r.
Proof.
  induction f as [|f IH]; intros f' n r H H'.
  - destruct r; [|cbn in H; lia]. destruct f'; cbn [p_ext]; [reflexivity|]. destruct (n =? 0); reflexivity.
  - destruct f' as [|f'].
    + destruct r; [|cbn in H'; lia]. cbn [p_ext]. destruct (n =? 0); reflexivity.
    + cbn [p_ext]. destruct (n =? 0); [reflexivity|].
      destruct (p_str r) as [(a, r1)|] eqn:E1; [|reflexivity].
      destruct (p_str r1) as [(b, r2)|] eqn:E2; [|reflexivity].
      apply p_str_len in E1. apply p_str_len in E2. unfold lenN in *. apply IH; lia.
Qed.

Section tail2.
  Variables m pre rest : bytes.
  Hypothesis Hm : bytes_ok m.
  Hypothesis H32 : is32 (lenN m).
  Hypothesis Em : m = pre ++ rest.

  Lemma ref_tail :
    match p_str rest with
    | Some (s, r) => exists pre', m = pre' ++ r /\ GetRef m (lenN m) (lenN pre) = POk s (lenN pre')
    | None => exists e i, GetRef m (lenN m) (lenN pre) = PErr e i
    end.
  Proof using Hm H32 Em.
    unfold GetRef. pose proof (tail_is32 m pre rest H32 Em) as Hp.
    rewrite GetStringRef_eq by (assumption || lia). cbv zeta. rewrite (tail_slice m pre rest Em).
    pose proof (str_parts m pre rest Em) as P. destruct (p_str rest) as [(s, r)|].
    - destruct P as (A & -> & B & S & pre' & E & El). exists pre'. split; [exact E|].
      destruct (N.leb_spec (lenN pre + 4) (lenN m)); [|lia].
      destruct (N.leb_spec (lenN pre + 4 + lenN s) (lenN m)); [|lia].
      destruct (N.eqb_spec (lenN s) 0) as [Z|Z].
      + apply lenN_0 in Z. subst s. rewrite El. reflexivity.
      + rewrite rdn_some by lia. rewrite S, El. reflexivity.
    - destruct (N.leb_spec (lenN pre + 4) (lenN m)); [|eexists _, _; reflexivity].
      destruct (N.leb_spec (lenN pre + 4 + be_value (takeN 4 rest)) (lenN m)); [lia|eexists _, _; reflexivity].
  Qed.

  Lemma skip_tail :
    match p_str rest with
    | Some (s, r) => exists pre', m = pre' ++ r /\ GetSkip m (lenN m) (lenN pre) = POk tt (lenN pre')
    | None => exists e i, GetSkip m (lenN m) (lenN pre) = PErr e i
    end.
  Proof using Hm H32 Em.
    pose proof (tail_is32 m pre rest H32 Em) as Hp.
    rewrite GetSkip_eq by (assumption || lia). cbv zeta. rewrite (tail_slice m pre rest Em).
    pose proof (str_parts m pre rest Em) as P. destruct (p_str rest) as [(s, r)|].
    - destruct P as (A & -> & B & S & pre' & E & El). exists pre'. split; [exact E|].
      destruct (N.leb_spec (lenN pre + 4) (lenN m)); [|lia].
      destruct (N.leb_spec (lenN pre + 4 + lenN s) (lenN m)); [|lia]. rewrite El. reflexivity.
    - destruct (N.leb_spec (lenN pre + 4) (lenN m)); [|eexists _, _; reflexivity].
      destruct (N.leb_spec (lenN pre + 4 + be_value (takeN 4 rest)) (lenN m)); [lia|eexists _, _; reflexivity].
  Qed.

  Lemma two_tail : forall want,
    match p_two want rest with
    | Some (v, r) => exists pre', m = pre' ++ r /\ two32 want m (lenN m) (lenN pre) = POk v (lenN pre')
    | None => exists e i, two32 want m (lenN m) (lenN pre) = PErr e i
    end.
  Proof using Hm H32 Em.
    intros [|]; unfold p_two, two32; [|exists pre; split; [exact Em|reflexivity]].
    pose proof (u32_tail m pre rest Hm H32 Em) as P. destruct (p_u32 rest) as [(a, r)|].
    - destruct P as (pre1 & E1 & ->). cbn [pbind].
      pose proof (u32_tail m pre1 r Hm H32 E1) as P. destruct (p_u32 r) as [(b, r2)|].
      + destruct P as (pre2 & E2 & ->). cbn [pbind]. exists pre2. split; [exact E2|reflexivity].
      + destruct P as (i & ->). cbn [pbind]. eexists _, _. reflexivity.
    - destruct P as (i & ->). cbn [pbind]. eexists _, _. reflexivity.
  Qed.

  Lemma one_tail : forall want,
    match p_one want rest with
    | Some (v, r) => exists pre', m = pre' ++ r /\ one32 want m (lenN m) (lenN pre) = POk v (lenN pre')
    | None => exists e i, one32 want m (lenN m) (lenN pre) = PErr e i
    end.
  Proof using Hm H32 Em.
    intros [|]; unfold p_one, one32; [|exists pre; split; [exact Em|reflexivity]].
    pose proof (u32_tail m pre rest Hm H32 Em) as P. destruct (p_u32 rest) as [(a, r)|].
    - exact P.
    - destruct P as (i & ->). eexists _, _. reflexivity.
  Qed.
End tail2.

Lemma ext_tail : forall m, bytes_ok m -> is32 (lenN m) -> forall fuel n pre rest, m = pre ++ rest ->
  match p_ext fuel n rest with
  | Some r => exists pre', m = pre' ++ r /\ skip_ext fuel n m (lenN m) (lenN pre) = POk tt (lenN pre')
  | None => exists e i, skip_ext fuel n m (lenN m) (lenN pre) = PErr e i
  end.
Proof.
  intros m Hm H32. induction fuel as [|f IH]; intros n pre rest Em; cbn [p_ext skip_ext]; destruct (n =? 0).
  - exists pre. split; [exact Em|reflexivity].
  - eexists _, _. reflexivity.
  - exists pre. split; [exact Em|reflexivity].
  - pose proof (skip_tail m pre rest Hm H32 Em) as P. destruct (p_str rest) as [(a, r)|].
    + destruct P as (pre1 & E1 & ->). pose proof (skip_tail m pre1 r Hm H32 E1) as P.
      destruct (p_str r) as [(b, r2)|].
      * destruct P as (pre2 & E2 & ->). apply IH. exact E2.
      * destruct P as (e & i & ->). eexists _, _. reflexivity.
    + destruct P as (e & i & ->). eexists _, _. reflexivity.
Qed.

Lemma attrs_tail : forall m pre rest, bytes_ok m -> is32 (lenN m) -> m = pre ++ rest ->
  match p_attrs rest with
  | Some (a, r) => exists pre', m = pre' ++ r /\ ParseAttributes m (lenN pre) (lenN m) = POk a (lenN pre')
  | None => exists i, ParseAttributes m (lenN pre) (lenN m) = PErr WS_BUFFER_E i
  end.
Proof.
  intros m pre rest Hm H32 Em. unfold ParseAttributes, p_attrs.
  assert (L : (Datatypes.length rest <= Datatypes.length m)%nat) by (rewrite Em, app_length; lia).
  assert (G : forall e, (fun r => p_ext (Datatypes.length rest) e r) = (fun r => p_ext (Datatypes.length rest) e r)) by reflexivity. clear G.
  assert (F : p_attrs_f (Datatypes.length rest) rest = p_attrs_f (Datatypes.length m) rest).
  { unfold p_attrs_f.
    destruct (p_u32 rest) as [(fl, r0)|] eqn:E0; [|reflexivity].
    assert (L0 : lenN r0 <= lenN rest) by (apply p_u32_some in E0; destruct E0 as (b & _ & ->); rewrite lenN_app; lia).
    assert (T : forall w x a y, p_two w x = Some (a, y) -> lenN y <= lenN x).
    { intros w x a y H. unfold p_two in H. destruct w; [|assert (x = y) by congruence; subst; lia].
      destruct (p_u32 x) as [(u, z)|] eqn:A; [|discriminate]. destruct (p_u32 z) as [(v, z2)|] eqn:B; [|discriminate].
      assert (z2 = y) by congruence. subst. apply p_u32_some in A. apply p_u32_some in B.
      destruct A as (? & _ & ->). destruct B as (? & _ & ->). rewrite !lenN_app. lia. }
    assert (O : forall w x a y, p_one w x = Some (a, y) -> lenN y <= lenN x).
    { intros w x a y H. unfold p_one in H. destruct w; [|assert (x = y) by congruence; subst; lia].
      apply p_u32_some in H. destruct H as (? & _ & ->). rewrite lenN_app. lia. }
    destruct (p_two (has fl A_SIZE) r0) as [(x1, r1)|] eqn:E1; [|reflexivity]. apply T in E1.
    destruct (p_two (has fl A_UIDGID) r1) as [(x2, r2)|] eqn:E2; [|reflexivity]. apply T in E2.
    destruct (p_one (has fl A_PERM) r2) as [(x3, r3)|] eqn:E3; [|reflexivity]. apply O in E3.
    destruct (p_two (has fl A_TIME) r3) as [(x4, r4)|] eqn:E4; [|reflexivity]. apply T in E4.
    destruct (p_one (has fl A_EXT) r4) as [(x5, r5)|] eqn:E5; [|reflexivity]. apply O in E5.
    rewrite (p_ext_fuel (Datatypes.length rest) (Datatypes.length m)); [reflexivity| |]; unfold lenN in *; lia. }
  rewrite F. unfold p_attrs_f. clear F L.
  pose proof (u32_tail m pre rest Hm H32 Em) as P. destruct (p_u32 rest) as [(fl, r0)|].
  2: { destruct P as (i & ->). eexists. reflexivity. }
  destruct P as (p0 & E0 & ->). cbn [pbind].
  pose proof (two_tail m p0 r0 Hm H32 E0 (has fl A_SIZE)) as P. destruct (p_two (has fl A_SIZE) r0) as [(x1, r1)|].
  2: { destruct P as (e & i & ->). eexists. reflexivity. }
  destruct P as (p1 & E1 & ->). cbn [pbind].
  pose proof (two_tail m p1 r1 Hm H32 E1 (has fl A_UIDGID)) as P. destruct (p_two (has fl A_UIDGID) r1) as [(x2, r2)|].
  2: { destruct P as (e & i & ->). eexists. reflexivity. }
  destruct P as (p2 & E2 & ->). cbn [pbind].
  pose proof (one_tail m p2 r2 Hm H32 E2 (has fl A_PERM)) as P. destruct (p_one (has fl A_PERM) r2) as [(x3, r3)|].
  2: { destruct P as (e & i & ->). eexists. reflexivity. }
  destruct P as (p3 & E3 & ->). cbn [pbind].
  pose proof (two_tail m p3 r3 Hm H32 E3 (has fl A_TIME)) as P. destruct (p_two (has fl A_TIME) r3) as [(x4, r4)|].
  2: { destruct P as (e & i & ->). eexists. reflexivity. }
  destruct P as (p4 & E4 & ->). cbn [pbind].
  pose proof (one_tail m p4 r4 Hm H32 E4 (has fl A_EXT)) as P. destruct (p_one (has fl A_EXT) r4) as [(x5, r5)|].
  2: { destruct P as (e & i & ->). eexists. reflexivity. }
  destruct P as (p5 & E5 & ->). cbn [pbind].
  pose proof (ext_tail m Hm H32 (Datatypes.length m) x5 p5 r5 E5) as P.
  destruct (p_ext (Datatypes.length m) x5 r5) as [r6|].
  2: { destruct P as (e & i & ->). eexists. reflexivity. }
  destruct P as (p6 & E6 & ->). cbn [pbind]. exists p6. split; [exact E6|reflexivity].
Qed.

(* ---- the handlers on the tails ------------------------------------------ *)

Definition done_t (r : rc) (out : bytes) (s : srv) : rc * option bytes * srv := (r, Some out, s).
Definition fail_t (r : rc) (s : srv) : rc * option bytes * srv := (r, None, s).
Definition status_t (E : senv) (r : rc) (code reqId : N) (msg : bytes) (s : srv) : rc * option bytes * srv :=
  if mem E (s_log s) 0 then done_t r (CreateStatus code reqId msg English) s else fail_t WS_MEMORY_E s.
Definition outcome_t (E : senv) (reqId : N) (perm ok : bool) (suc err : bytes) (s : srv) : rc * option bytes * srv :=
  if perm then status_t E WS_BAD_FILE_E FTP_PERMISSION reqId (ascii "Permission denied") s
  else if ok then status_t E WS_SUCCESS FTP_OK reqId suc s
  else status_t E WS_BAD_FILE_E FTP_FAILURE reqId err s.
Definition attrs_reply_t (E : senv) (reqId : N) (err : bytes) (s : srv) : rc * option bytes * srv :=
  let a := fs E (s_log s) in
  if negb (mem E (s_log s) 1) then fail_t WS_MEMORY_E s
  else if (r_int a =? 0)%Z then
    done_t WS_SUCCESS (SetHeader reqId FTP_ATTRS (AttributesSz (r_attr a)) ++ SetAttributes (r_attr a)) s
  else done_t WS_BAD_FILE_E (CreateStatus FTP_FAILURE reqId err English) s.
Definition clean_t (E : senv) (path : bytes) (s : srv) : rc * bytes :=
  match clean E path s with Some x => x | None => (WS_ERROR, []) end.

Definition decode_t (hb : bytes) : hid := (be_value (takeN 4 hb), be_value (takeN 4 (dropN 4 hb))).
Definition file_of_t (hb : bytes) (s : srv) : option fent :=
  if negb (lenN hb =? HANDLE_ID_SZ) then None else FindFileHandle (decode_t hb) (s_files s).

Definition RecvOpen_t (E : senv) (reqId : N) (data : bytes) (s : srv) : rc * option bytes * srv :=
  match p_str data with
  | None => fail_t WS_BUFFER_E s
  | Some (path, r) =>
  let '(ret, dir) := clean_t E path s in
  if rc_eqb ret WS_PERMISSIONS then
    status_t E WS_BAD_FILE_E FTP_PERMISSION reqId (ascii "Permission denied") s
  else if negb (rc_eqb ret WS_SUCCESS) then fail_t WS_FATAL_ERROR s
  else if capped 0 (s_files s) then
    status_t E WS_BAD_FILE_E FTP_FAILURE reqId (ascii "Too Many Open File Handles") s
  else
  match p_u32 r with
  | None => fail_t WS_BUFFER_E s
  | Some (reason, r) =>
  match p_attrs r with
  | None => fail_t WS_BAD_FILE_E s
  | Some (atr, r) =>
  let m := open_mode reason in
  (* 2459-2477 *)
  let s := ask (FStat dir false) s in
  let st := fs E (s_log s) in
  if (r_int st =? 0)%Z && negb (N.land (a_per (r_attr st)) PER_MASK_TYPE =? PER_FILE) then
    if mem E (s_log s) 1
    then done_t WS_FATAL_ERROR (CreateStatus FTP_FAILURE reqId (ascii "Not A File") English) s
    else fail_t WS_MEMORY_E s
  else
  let s := ask (FOpen dir m (SAFE_MODE (if has (a_flags atr) A_PERM then a_per atr else 420))) s in
  let fd := r_int (fs E (s_log s)) in
  if (fd <? 0)%Z then
    if mem E (s_log s) 1
    then done_t WS_BAD_FILE_E (CreateStatus FTP_FAILURE reqId (ascii "Open File Error") English) s
    else fail_t WS_MEMORY_E s
  else
  let (h, s) := HandleIdNext s in
  let (ret, s) := AddFileHandle E fd dir h s in
  if negb (rc_eqb ret WS_SUCCESS) then
    if mem E (s_log s) 1
    then done_t WS_FATAL_ERROR (CreateStatus FTP_FAILURE reqId (ascii "Internal Failure") English)
              (ask (FClose fd) s)
    else fail_t WS_MEMORY_E (ask (FClose fd) s)
  else if mem E (s_log s) 1
    then done_t WS_SUCCESS (CreatePacket FTP_HANDLE reqId (HandleIdEncode h)) s
    else fail_t WS_MEMORY_E (ask (FClose fd) (set_files (RemoveFileHandle h (s_files s)) s))
  end end end.

Definition RecvOpenDir_t (E : senv) (reqId : N) (data : bytes) (s : srv) : rc * option bytes * srv :=
  match p_str data with
  | None => fail_t WS_BUFFER_E s
  | Some (path, r) =>
  let '(ret, dir) := clean_t E path s in
  if rc_eqb ret WS_PERMISSIONS then
    status_t E WS_BAD_FILE_E FTP_PERMISSION reqId (ascii "Permission denied") s
  else if negb (rc_eqb ret WS_SUCCESS) then fail_t WS_BUFFER_E s
  else if capped 0 (s_dirs s) then
    status_t E WS_BAD_FILE_E FTP_FAILURE reqId (ascii "Too Many Open Directory Handles") s
  else
  let s := ask (FOpendir dir) s in
  let d := r_int (fs E (s_log s)) in
  if (d <? 0)%Z then
    if mem E (s_log s) 1
    then done_t WS_BAD_FILE_E (CreateStatus FTP_NOFILE reqId (ascii "Unable To Open Directory") English) s
    else fail_t WS_MEMORY_E s
  else if negb (mem E (s_log s) 3) then fail_t WS_MEMORY_E (ask (FClosedir d) s)
  else
  let (h, s) := HandleIdNext s in
  let s := set_dirs (mkDent h d dir false :: s_dirs s) s in
  if mem E (s_log s) 1
  then done_t WS_SUCCESS (CreatePacket FTP_HANDLE reqId (HandleIdEncode h)) s
  else fail_t WS_MEMORY_E s
  end.

Definition RecvClose_t (E : senv) (reqId : N) (data : bytes) (s : srv) : rc * option bytes * srv :=
  match p_str data with
  | None => fail_t WS_BUFFER_E s
  | Some (hb, _) =>
  if MAX_HANDLE <? lenN hb then fail_t WS_BUFFER_E s
  else
  let finish (ok : bool) (s : srv) :=
    if ok then status_t E WS_SUCCESS FTP_OK reqId (ascii "Closed File") s
    else status_t E WS_BAD_FILE_E FTP_FAILURE reqId (ascii "Close File Error") s in
  if negb (lenN hb =? HANDLE_ID_SZ) then finish false s
  else
  match RecvCloseDir (decode_t hb) s with
  | Some s => finish true s
  | None =>
      match FindFileHandle (decode_t hb) (s_files s) with
      | None => finish false s
      | Some e =>
          let s := ask (FClose (f_fd e)) s in
          let ok := (0 <=? r_int (fs E (s_log s)))%Z in
          finish ok (set_files (RemoveFileHandle (decode_t hb) (s_files s)) s)
      end
  end end.

Definition RecvWrite_t (E : senv) (reqId : N) (data : bytes) (s : srv) : rc * option bytes * srv :=
  let bad r := status_t E r FTP_FAILURE reqId (ascii "Write File Error") s in
  match p_str data with
  | None => bad WS_BUFFER_E
  | Some (hb, r) =>
  match file_of_t hb s with
  | None => bad WS_BAD_FILE_E
  | Some e =>
  match p_two true r with
  | None => fail_t WS_BUFFER_E s
  | Some ((hi, lo), r) =>
  match p_str r with
  | None => fail_t WS_BUFFER_E s
  | Some (d, r) =>
      let (ok, s) := write_loop (S (List.length d)) E (f_fd e) d hi lo s in
      if ok then status_t E WS_SUCCESS FTP_OK reqId (ascii "Write File Success") s
      else status_t E WS_INVALID_STATE_E FTP_FAILURE reqId (ascii "Write File Error") s
  end end end end.

Definition RecvRead_t (E : senv) (reqId : N) (data : bytes) (s : srv) : rc * option bytes * srv :=
  let say r code msg room s :=
    let m := CreateStatus code reqId msg English in
    if (lenN m <=? room) || mem E (s_log s) 1 then done_t r m s else fail_t WS_MEMORY_E s in
  match p_str data with
  | None => fail_t WS_BUFFER_E s
  | Some (hb, r) =>
  match file_of_t hb s with
  | None => say WS_BAD_FILE_E FTP_FAILURE (ascii "Read File Error") 0 s
  | Some e =>
  match p_two true r with
  | None => fail_t WS_BUFFER_E s
  | Some ((hi, lo), r) =>
  match p_u32 r with
  | None => fail_t WS_BUFFER_E s
  | Some (sz, r) =>
  if MAX_SFTP_RW <? sz then fail_t WS_BUFFER_E s
  else if negb (mem E (s_log s) 4) then fail_t WS_MEMORY_E s
  else
    let s := ask (FPread (f_fd e) sz (hi * W32 + lo)) s in
    let a := fs E (s_log s) in
    if (r_int a <? 0)%Z || (sz <? lenN (r_data a)) then
      say WS_BAD_FILE_E FTP_FAILURE (ascii "Read File Error") (sz + 13) s
    else if lenN (r_data a) =? 0 then say WS_SUCCESS FTP_EOF (ascii "Read EOF") (sz + 13) s
    else done_t WS_SUCCESS (CreatePacket FTP_DATA reqId (r_data a)) s
  end end end end.

Definition RecvRMDIR_t (E : senv) (reqId : N) (data : bytes) (s : srv) : rc * option bytes * srv :=
  match p_str data with
  | None => fail_t WS_BUFFER_E s
  | Some (path, r) =>
  let '(ret, dir) := clean_t E path s in
  let fin := outcome_t E reqId (rc_eqb ret WS_PERMISSIONS) in
  if rc_eqb ret WS_SUCCESS then
    let s := ask (FRmdir dir) s in
    fin (r_int (fs E (s_log s)) =? 0)%Z (ascii "Removed Directory") (ascii "Remove Directory Error") s
  else fin false (ascii "Removed Directory") (ascii "Remove Directory Error") s
  end.

Definition RecvMKDIR_t (E : senv) (reqId : N) (data : bytes) (s : srv) : rc * option bytes * srv :=
  match p_str data with
  | None => fail_t WS_BUFFER_E s
  | Some (path, r) =>
  let '(ret, dir) := clean_t E path s in
  if rc_eqb ret WS_SUCCESS then
    match p_attrs r with
  | None => fail_t WS_BUFFER_E s
  | Some (atr, r) =>
        let s := ask (FMkdir dir (if has (a_flags atr) A_PERM then SAFE_MODE (a_per atr) else 493)) s in
        outcome_t E reqId false (r_int (fs E (s_log s)) =? 0)%Z
                (ascii "Created Directory") (ascii "Create Directory Error") s
    end
  else if rc_eqb ret WS_PERMISSIONS then outcome_t E reqId true false [] [] s
  else fail_t ret s
  end.

Definition RecvRemove_t (E : senv) (reqId : N) (data : bytes) (s : srv) : rc * option bytes * srv :=
  match p_str data with
  | None => fail_t WS_BUFFER_E s
  | Some (path, r) =>
  if MAX_FILENAME <? lenN path then fail_t WS_BUFFER_E s
  else
  let '(ret, name) := clean_t E path s in
  let fin := outcome_t E reqId (rc_eqb ret WS_PERMISSIONS) in
  if rc_eqb ret WS_SUCCESS then
    let s := ask (FRemove name) s in
    fin (0 <=? r_int (fs E (s_log s)))%Z (ascii "Removed File") (ascii "Remove File Error") s
  else fin false (ascii "Removed File") (ascii "Remove File Error") s
  end.

Definition RecvRename_t (E : senv) (reqId : N) (data : bytes) (s : srv) : rc * option bytes * srv :=
  let fin perm ok s := outcome_t E reqId perm ok (ascii "Renamed File") (ascii "Rename File Error") s in
  match p_str data with
  | None => fin false false s
  | Some (path, r) =>
  let '(ret, old) := clean_t E path s in
  if negb (rc_eqb ret WS_SUCCESS) then fin (rc_eqb ret WS_PERMISSIONS) false s
  else
  match p_str r with
  | None => fin false false s
  | Some (path, r) =>
  let '(ret, new) := clean_t E path s in
  if negb (rc_eqb ret WS_SUCCESS) then fin (rc_eqb ret WS_PERMISSIONS) false s
  else
    let s := ask (FRename old new) s in
    fin false (0 <=? r_int (fs E (s_log s)))%Z s
  end end.

Definition RecvFSTAT_t (E : senv) (reqId : N) (data : bytes) (s : srv) : rc * option bytes * srv :=
  match p_str data with
  | None => fail_t WS_BUFFER_E s
  | Some (hb, r) =>
  match file_of_t hb s with
  | None => fail_t WS_BAD_FILE_E s
  | Some e => attrs_reply_t E reqId (ascii "STAT error") (ask (FFstat (f_fd e)) s)
  end end.

Definition RecvStat_t (nofollow : bool) (E : senv) (reqId : N) (data : bytes) (s : srv) : rc * option bytes * srv :=
  let err := if nofollow then ascii "LSTAT error" else ascii "STAT error" in
  match p_str data with
  | None => fail_t WS_BUFFER_E s
  | Some (path, r) =>
  let '(ret, name) := clean_t E path s in
  if rc_eqb ret WS_SUCCESS then attrs_reply_t E reqId err (ask (FStat name nofollow) s)
  else if negb (mem E (s_log s) 1) then fail_t WS_MEMORY_E s
  else if rc_eqb ret WS_PERMISSIONS then
    done_t WS_BAD_FILE_E (CreateStatus FTP_PERMISSION reqId (ascii "Permission denied") English) s
  else done_t WS_BAD_FILE_E (CreateStatus FTP_FAILURE reqId err English) s
  end.

Definition RecvSetSTAT_t (E : senv) (reqId : N) (data : bytes) (s : srv) : rc * option bytes * srv :=
  let ser := ascii "Unable to set attributes error" in
  match p_str data with
  | None => fail_t WS_BUFFER_E s
  | Some (path, r) =>
  let '(ret, name) := clean_t E path s in
  if negb (rc_eqb ret WS_SUCCESS) then
    outcome_t E reqId (rc_eqb ret WS_PERMISSIONS) false [] ser s
  else
  match p_attrs r with
  | None => outcome_t E reqId false false [] (ascii "Unable to parse attributes error") s
  | Some (a, r) =>
      let (ok, s) := set_attrs E (FChmod name) (FSetTime name) a s in
      outcome_t E reqId false ok (ascii "Set Attributes") ser s
  end end.

Definition RecvFSetSTAT_t (E : senv) (reqId : N) (data : bytes) (s : srv) : rc * option bytes * srv :=
  let ser := ascii "Unable to set attributes error" in
  match p_str data with
  | None => fail_t WS_BUFFER_E s
  | Some (hb, r) =>
  match file_of_t hb s with
  | None => outcome_t E reqId false false [] ser s
  | Some e =>
  match p_attrs r with
  | None => outcome_t E reqId false false [] (ascii "Unable to parse attributes error") s
  | Some (a, r) =>
      let (ok, s) := set_attrs E (FFchmod (f_fd e)) (FFsetTime (f_fd e)) a s in
      outcome_t E reqId false ok (ascii "Set Attributes") ser s
  end end end.

Definition RecvReadDir_t (E : senv) (reqId : N) (data : bytes) (s : srv) : rc * option bytes * srv :=
  match p_str data with
  | None => fail_t WS_BUFFER_E s
  | Some (hb, _) =>
  if MAX_HANDLE <? lenN hb then fail_t WS_BUFFER_E s
  else if negb (lenN hb =? HANDLE_ID_SZ) then fail_t WS_FATAL_ERROR s
  else
  let h := decode_t hb in
  match FindDir h (s_dirs s) with
  | None => fail_t WS_FATAL_ERROR s
  | Some e =>
  let '(l, s) :=
    if d_eof e then ([], s)
    else let s := ask (FReaddir (d_dir e)) s in
         readdir_loop E (d_name e) (r_names (fs E (s_log s))) [] s in
  match l with
  | [] => if mem E (s_log s) 1
          then done_t WS_SUCCESS (CreateStatus FTP_EOF reqId (ascii "No More Files In Directory") English) s
          else fail_t WS_MEMORY_E s
  | _ =>
      let s := set_dirs (SetEof h (s_dirs s)) s in
      let outSz := w32 (13 + names_sz l) in
      if negb (mem E (s_log s) 1) then fail_t WS_MEMORY_E s
      else if outSz <? 13 then fail_t WS_FATAL_ERROR s
      else match put_names l (outSz - 13) with
      | None => fail_t WS_FATAL_ERROR s
      | Some b => done_t WS_SUCCESS
                    (SetHeader reqId FTP_NAME (outSz - 9) ++ c32toa (lenN l) ++ b) s
      end
  end end end.

Definition RecvRealPathMsg_t (E : senv) (reqId : N) (data : bytes) (s : srv) : rc * option bytes * srv :=
  match p_str data with
  | None => fail_t WS_BUFFER_E s
  | Some (path, r) =>
  if MAX_FILENAME <=? lenN path then fail_t WS_BUFFER_E s
  else
  let s := match sp_default (s_paths s) with Some _ => s | None => ask FGetcwd s end in
  let cw := fs E (s_log s) in
  let '(p, out) := RecvRealPath (if (r_int cw =? 0)%Z then Some (r_data cw) else None) path (s_paths s) in
  let s := set_paths p s in
  match sp_default p, out with
  | None, _ =>
      if mem E (s_log s) 1
      then done_t WS_FATAL_OTHER (CreateStatus FTP_FAILURE reqId (ascii "Directory error") English) s
      else fail_t WS_MEMORY_E s
  | Some _, None => fail_t WS_INVALID_PATH_E s
  | Some _, Some r =>
      let outSz := 25 + lenN r + lenN r in
      if (lenN data <? outSz) && negb (mem E (s_log s) 1) then fail_t WS_MEMORY_E s
      else done_t WS_SUCCESS
        (SetHeader reqId FTP_NAME (outSz - 9) ++ c32toa 1 ++ PutString r ++ PutString r
         ++ SetAttributes no_attrs) s
  end end.

Definition dispatch_t (E : senv) (type reqId : N) (data : bytes) (s : srv) : rc * option bytes * srv :=
  if type =? FTP_REALPATH then RecvRealPathMsg_t E reqId data s
  else if type =? FTP_RMDIR then RecvRMDIR_t E reqId data s
  else if type =? FTP_MKDIR then RecvMKDIR_t E reqId data s
  else if type =? FTP_STAT then RecvStat_t false E reqId data s
  else if type =? FTP_LSTAT then RecvStat_t true E reqId data s
  else if type =? FTP_FSTAT then RecvFSTAT_t E reqId data s
  else if type =? FTP_OPEN then RecvOpen_t E reqId data s
  else if type =? FTP_READ then RecvRead_t E reqId data s
  else if type =? FTP_WRITE then RecvWrite_t E reqId data s
  else if type =? FTP_CLOSE then RecvClose_t E reqId data s
  else if type =? FTP_REMOVE then RecvRemove_t E reqId data s
  else if type =? FTP_RENAME then RecvRename_t E reqId data s
  else if type =? FTP_SETSTAT then RecvSetSTAT_t E reqId data s
  else if type =? FTP_FSETSTAT then RecvFSetSTAT_t E reqId data s
  else if type =? FTP_OPENDIR then RecvOpenDir_t E reqId data s
  else if type =? FTP_READDIR then RecvReadDir_t E reqId data s
  else
    let m := CreateStatus FTP_FAILURE reqId (ascii "Unknown/Unsupported packet type") English in
    if (lenN m <=? lenN data) || mem E (s_log s) 1 then done_t WS_SUCCESS m s
    else fail_t WS_FATAL_ERROR s.

Lemma status_eq : forall E r c i m s, status E r c i m s = Some (status_t E r c i m s).
Proof. intros. unfold status, status_t. destruct (mem E (s_log s) 0); reflexivity. Qed.
Lemma outcome_eq : forall E i p o a b s, outcome E i p o a b s = Some (outcome_t E i p o a b s).
Proof. intros. unfold outcome, outcome_t. destruct p; [|destruct o]; apply status_eq. Qed.
Lemma attrs_reply_eq : forall E i m s, attrs_reply E i m s = Some (attrs_reply_t E i m s).
Proof.
  intros. unfold attrs_reply, attrs_reply_t. cbv zeta. destruct (negb _); [reflexivity|].
  destruct (_ =? 0)%Z; reflexivity.
Qed.
Lemma clean_eq : forall E path s, paths_ok (s_paths s) -> clean E path s = Some (clean_t E path s).
Proof.
  intros E path s H. unfold clean_t, clean.
  destruct (Get_total (s_paths s) (lnk E (s_log s)) path H) as (ret & p & q & -> & _). reflexivity.
Qed.
Lemma decode_eq : forall hb, bytes_ok hb -> lenN hb = 8 -> HandleIdDecode hb = Some (decode_t hb).
Proof.
  intros hb Hb L. unfold HandleIdDecode, decode_t.
  rewrite (ato32_slice hb 0) by (assumption || lia). rewrite (ato32_slice hb 4) by (assumption || lia).
  unfold slice. reflexivity.
Qed.
Lemma file_of_eq : forall hb s, bytes_ok hb -> file_of hb s = Some (file_of_t hb s).
Proof.
  intros hb s Hb. unfold file_of, file_of_t, HANDLE_ID_SZ. destruct (N.eqb_spec (lenN hb) 8) as [L|L]; [|reflexivity].
  cbn [negb]. rewrite decode_eq by assumption. reflexivity.
Qed.

Lemma p_str_ok : forall r s r', bytes_ok r -> p_str r = Some (s, r') -> bytes_ok s.
Proof.
  intros r s r' H E. destruct (p_str_some _ _ _ E) as (b & (l & _ & ->) & ->).
  rewrite !bytes_ok_app in H. tauto.
Qed.

Ltac ref0 Hm H32 :=
  match goal with
  | |- context [GetRef ?m (lenN ?m) 0] =>
      let P := fresh "P" in
      pose proof (ref_tail m [] m Hm H32 eq_refl) as P; change (lenN (@nil N)) with 0 in P;
      let E := fresh "Ep" in destruct (p_str m) as [(?s1, ?r1)|] eqn:E;
      [ destruct P as (?p1 & ?E1 & P); rewrite P; clear P | destruct P as (? & ? & P); rewrite P; clear P ]
  end.
Ltac tl L :=
  let P := fresh "P" in pose proof L as P;
  match type of P with
  | match ?x with _ => _ end =>
      let E := fresh "Ep" in destruct x as [(?v, ?r)|] eqn:E;
      [ destruct P as (?pp & ?EE & P); rewrite P; clear P
      | first [destruct P as (? & P); rewrite P; clear P | destruct P as (? & ? & P); rewrite P; clear P ] ]
  end.

Section eqs.
  Variables (E : senv) (id : N) (data : bytes) (s : srv).
  Hypothesis Hm : bytes_ok data.
  Hypothesis H32 : is32 (lenN data).
  Hypothesis Hp : paths_ok (s_paths s).

  Lemma RecvOpen_eq : RecvOpen E id data s = Some (RecvOpen_t E id data s).
  Proof using Hm H32 Hp.
    unfold RecvOpen, RecvOpen_t. cbv zeta. ref0 Hm H32; [|reflexivity].
    rewrite clean_eq by assumption. destruct (clean_t E s1 s) as (ret, dir).
    destruct (rc_eqb ret WS_PERMISSIONS); [apply status_eq|].
    destruct (negb (rc_eqb ret WS_SUCCESS)); [reflexivity|].
    destruct (capped 0 (s_files s)); [apply status_eq|].
    tl (u32_tail data p1 r1 Hm H32 E1); [|reflexivity].
    tl (attrs_tail data pp r Hm H32 EE); [|reflexivity].
    set (s2 := ask (FStat dir false) s).
    destruct ((r_int (fs E (s_log s2)) =? 0)%Z && _); [destruct (mem E (s_log s2) 1); reflexivity|].
    set (s3 := ask (FOpen _ _ _) s2).
    destruct (r_int (fs E (s_log s3)) <? 0)%Z; [destruct (mem E (s_log s3) 1); reflexivity|].
    destruct (HandleIdNext s3) as (h, s4). destruct (AddFileHandle _ _ _ _ s4) as (ret2, s5).
    destruct (negb (rc_eqb ret2 WS_SUCCESS)); destruct (mem E (s_log s5) 1); reflexivity.
  Qed.

  Lemma RecvOpenDir_eq : RecvOpenDir E id data s = Some (RecvOpenDir_t E id data s).
  Proof using Hm H32 Hp.
    unfold RecvOpenDir, RecvOpenDir_t. cbv zeta. ref0 Hm H32; [|reflexivity].
    rewrite clean_eq by assumption. destruct (clean_t E s1 s) as (ret, dir).
    destruct (rc_eqb ret WS_PERMISSIONS); [apply status_eq|].
    destruct (negb (rc_eqb ret WS_SUCCESS)); [reflexivity|].
    destruct (capped 0 (s_dirs s)); [apply status_eq|].
    set (s2 := ask (FOpendir dir) s).
    destruct (r_int (fs E (s_log s2)) <? 0)%Z; [destruct (mem E (s_log s2) 1); reflexivity|].
    destruct (negb (mem E (s_log s2) 3)); [reflexivity|].
    destruct (HandleIdNext s2) as (h, s3). destruct (mem _ _ 1); reflexivity.
  Qed.

  Lemma RecvClose_eq : RecvClose E id data s = Some (RecvClose_t E id data s).
  Proof using Hm H32.
    unfold RecvClose, RecvClose_t. cbv zeta.
    pose proof (str_parts data [] data eq_refl) as P. change (lenN (@nil N)) with 0 in P.
    destruct (N.ltb_spec (lenN data) 4) as [L|L].
    { destruct (p_str data) as [(a, r)|]; [lia|reflexivity]. }
    rewrite (ato32_slice data 0) by (assumption || lia). unfold slice. change (dropN 0 data) with data.
    set (n := be_value (takeN 4 data)) in *.
    assert (Hn : is32 n) by (apply (be_value_lt data 0); [assumption|lia]).
    destruct (p_str data) as [(hb, r)|] eqn:Ep.
    - destruct P as (_ & En & B & Sl & _). rewrite En. clear n Hn En.
      unfold MAX_HANDLE. destruct (N.ltb_spec 256 (lenN hb)) as [H|H]; [rewrite orb_true_r; reflexivity|].
      rewrite orb_false_r. rewrite add32_small by (unfold W32; lia).
      destruct (N.ltb_spec (lenN data) (lenN hb + 4)); [lia|].
      destruct (N.eqb_spec (lenN hb) HANDLE_ID_SZ) as [E8|E8]; cbn [negb]; [|apply status_eq].
      unfold HANDLE_ID_SZ in E8. rewrite rdn_some by (unfold HANDLE_ID_SZ; lia). unfold HANDLE_ID_SZ. rewrite <- E8. change (lenN (@nil N) + 4) with 4 in Sl. change (0 + 4) with 4 in Sl. rewrite Sl.
      rewrite decode_eq; [|eapply p_str_ok; eassumption|assumption].
      destruct (RecvCloseDir (decode_t hb) s) as [s2|]; [apply status_eq|].
      destruct (FindFileHandle (decode_t hb) (s_files s)) as [e|]; [|apply status_eq].
      destruct (0 <=? _)%Z; apply status_eq.
    - destruct P as [P|P]; [lia|]. fold n in P. destruct (MAX_HANDLE <? n) eqn:Hh; [rewrite orb_true_r; reflexivity|].
      unfold MAX_HANDLE in Hh. rewrite add32_small by (unfold W32; lia).
      destruct (N.ltb_spec (lenN data) (n + 4)); [reflexivity|lia].
  Qed.

  Lemma RecvWrite_eq : RecvWrite E id data s = Some (RecvWrite_t E id data s).
  Proof using Hm H32.
    unfold RecvWrite, RecvWrite_t. cbv zeta. ref0 Hm H32; [|apply status_eq].
    rewrite file_of_eq by (eapply p_str_ok; eassumption). destruct (file_of_t s1 s) as [e|]; [|apply status_eq].
    tl (two_tail data p1 r1 Hm H32 E1 true); [|reflexivity]. destruct v as (hi, lo).
    tl (ref_tail data pp r Hm H32 EE); [|reflexivity].
    destruct (write_loop _ _ _ _ _ _ _) as (ok, s2). destruct ok; apply status_eq.
  Qed.

  Lemma RecvRead_eq : RecvRead E id data s = Some (RecvRead_t E id data s).
  Proof using Hm H32.
    unfold RecvRead, RecvRead_t. cbv zeta. ref0 Hm H32; [|reflexivity].
    rewrite file_of_eq by (eapply p_str_ok; eassumption). destruct (file_of_t s1 s) as [e|].
    2: { destruct (_ || _); reflexivity. }
    tl (two_tail data p1 r1 Hm H32 E1 true); [|reflexivity]. destruct v as (hi, lo).
    tl (u32_tail data pp r Hm H32 EE); [|reflexivity].
    destruct (MAX_SFTP_RW <? v); [reflexivity|]. destruct (negb (mem E (s_log s) 4)); [reflexivity|].
    set (s2 := ask (FPread _ _ _) s).
    destruct ((r_int (fs E (s_log s2)) <? 0)%Z || (v <? lenN (r_data (fs E (s_log s2))))).
    { destruct (_ || _); reflexivity. }
    destruct (lenN (r_data (fs E (s_log s2))) =? 0); [|reflexivity]. destruct (_ || _); reflexivity.
  Qed.

  Lemma RecvRMDIR_eq : RecvRMDIR E id data s = Some (RecvRMDIR_t E id data s).
  Proof using Hm H32 Hp.
    unfold RecvRMDIR, RecvRMDIR_t. ref0 Hm H32; [|reflexivity].
    rewrite clean_eq by assumption. destruct (clean_t E s1 s) as (ret, dir). cbv zeta.
    destruct (rc_eqb ret WS_SUCCESS); apply outcome_eq.
  Qed.
  Lemma RecvMKDIR_eq : RecvMKDIR E id data s = Some (RecvMKDIR_t E id data s).
  Proof using Hm H32 Hp.
    unfold RecvMKDIR, RecvMKDIR_t. ref0 Hm H32; [|reflexivity].
    rewrite clean_eq by assumption. destruct (clean_t E s1 s) as (ret, dir). cbv zeta.
    destruct (rc_eqb ret WS_SUCCESS).
    - tl (attrs_tail data p1 r1 Hm H32 E1); [apply outcome_eq|reflexivity].
    - destruct (rc_eqb ret WS_PERMISSIONS); [apply outcome_eq|reflexivity].
  Qed.
  Lemma RecvRemove_eq : RecvRemove E id data s = Some (RecvRemove_t E id data s).
  Proof using Hm H32 Hp.
    unfold RecvRemove, RecvRemove_t. ref0 Hm H32; [|reflexivity].
    destruct (MAX_FILENAME <? lenN s1); [reflexivity|].
    rewrite clean_eq by assumption. destruct (clean_t E s1 s) as (ret, dir). cbv zeta.
    destruct (rc_eqb ret WS_SUCCESS); apply outcome_eq.
  Qed.
  Lemma RecvRename_eq : RecvRename E id data s = Some (RecvRename_t E id data s).
  Proof using Hm H32 Hp.
    unfold RecvRename, RecvRename_t. cbv zeta. ref0 Hm H32; [|apply outcome_eq].
    rewrite clean_eq by assumption. destruct (clean_t E s1 s) as (ret, dir).
    destruct (negb (rc_eqb ret WS_SUCCESS)); [apply outcome_eq|].
    tl (ref_tail data p1 r1 Hm H32 E1); [|apply outcome_eq].
    rewrite clean_eq by assumption. destruct (clean_t E v s) as (ret2, dir2).
    destruct (negb (rc_eqb ret2 WS_SUCCESS)); apply outcome_eq.
  Qed.
  Lemma RecvFSTAT_eq : RecvFSTAT E id data s = Some (RecvFSTAT_t E id data s).
  Proof using Hm H32.
    unfold RecvFSTAT, RecvFSTAT_t. ref0 Hm H32; [|reflexivity].
    rewrite file_of_eq by (eapply p_str_ok; eassumption). destruct (file_of_t s1 s); [apply attrs_reply_eq|reflexivity].
  Qed.
  Lemma RecvStat_eq : forall nf, RecvStat nf E id data s = Some (RecvStat_t nf E id data s).
  Proof using Hm H32 Hp.
    intros nf. unfold RecvStat, RecvStat_t. cbv zeta. ref0 Hm H32; [|reflexivity].
    rewrite clean_eq by assumption. destruct (clean_t E s1 s) as (ret, dir).
    destruct (rc_eqb ret WS_SUCCESS); [apply attrs_reply_eq|].
    destruct (negb (mem E (s_log s) 1)); [reflexivity|]. destruct (rc_eqb ret WS_PERMISSIONS); reflexivity.
  Qed.
  Lemma RecvSetSTAT_eq : RecvSetSTAT E id data s = Some (RecvSetSTAT_t E id data s).
  Proof using Hm H32 Hp.
    unfold RecvSetSTAT, RecvSetSTAT_t. cbv zeta. ref0 Hm H32; [|reflexivity].
    rewrite clean_eq by assumption. destruct (clean_t E s1 s) as (ret, dir).
    destruct (negb (rc_eqb ret WS_SUCCESS)); [apply outcome_eq|].
    tl (attrs_tail data p1 r1 Hm H32 E1); [|apply outcome_eq].
    destruct (set_attrs E (FChmod dir) (FSetTime dir) v s) as (ok, s2). apply outcome_eq.
  Qed.
  Lemma RecvFSetSTAT_eq : RecvFSetSTAT E id data s = Some (RecvFSetSTAT_t E id data s).
  Proof using Hm H32.
    unfold RecvFSetSTAT, RecvFSetSTAT_t. cbv zeta. ref0 Hm H32; [|reflexivity].
    rewrite file_of_eq by (eapply p_str_ok; eassumption). destruct (file_of_t s1 s) as [e|]; [|apply outcome_eq].
    tl (attrs_tail data p1 r1 Hm H32 E1); [|apply outcome_eq].
    destruct (set_attrs E _ _ v s) as (ok, s2). apply outcome_eq.
  Qed.

  Lemma RecvReadDir_eq : RecvReadDir E id data s = Some (RecvReadDir_t E id data s).
  Proof using Hm H32.
    unfold RecvReadDir, RecvReadDir_t. cbv zeta.
    pose proof (str_parts data [] data eq_refl) as P. change (lenN (@nil N)) with 0 in P.
    rewrite GetSize_eq by (assumption || lia || (unfold is32, W32; lia)). cbv zeta.
    unfold slice at 1 2. change (dropN 0 data) with data. set (n := be_value (takeN 4 data)) in *.
    destruct (p_str data) as [(hb, r)|] eqn:Ep.
    - destruct P as (A & En & B & Sl & _).
      destruct (N.leb_spec (0 + 4) (lenN data)); [|lia]. rewrite En.
      destruct (N.leb_spec (0 + 4 + lenN hb) (lenN data)); [|lia].
      destruct (MAX_HANDLE <? lenN hb); [reflexivity|].
      destruct (N.eqb_spec (lenN hb) HANDLE_ID_SZ) as [E8|E8]; cbn [negb]; [|reflexivity].
      unfold HANDLE_ID_SZ in E8. rewrite E8 in *.
      assert (T : two32 true data (lenN data) (0 + 4) = POk (decode_t hb) 12).
      { unfold two32. rewrite GetUint32_eq by (assumption || lia || (unfold is32, W32; lia)).
        destruct (N.leb_spec (0 + 4 + 4) (lenN data)); [|lia]. cbn [pbind].
        rewrite GetUint32_eq by (assumption || lia || (unfold is32, W32; lia)).
        destruct (N.leb_spec (0 + 4 + 4 + 4) (lenN data)); [|lia]. cbn [pbind]. f_equal.
        unfold decode_t. rewrite <- Sl. unfold slice. f_equal.
        - f_equal. rewrite takeN_takeN. reflexivity.
        - f_equal. rewrite <- (takeN_dropN N 4 (takeN 8 (dropN (0 + 4) data))) at 1.
          rewrite takeN_takeN. rewrite dropN_app_exact.
          2: { rewrite lenN_takeN, lenN_dropN. lia. }
          assert (D8 : takeN 8 (dropN (0 + 4) data) = takeN 4 (dropN (0+4) data) ++ takeN 4 (dropN 4 (dropN (0+4) data))).
          { apply (takeN_add N 4 4). }
          rewrite D8. rewrite dropN_app_exact by (rewrite lenN_takeN, lenN_dropN; lia).
          rewrite dropN_dropN. rewrite takeN_takeN. reflexivity. }
      rewrite T. destruct (FindDir (decode_t hb) (s_dirs s)) as [e|]; [|reflexivity].
      destruct (d_eof e).
      + destruct (mem E (s_log s) 1); reflexivity.
      + destruct (readdir_loop E (d_name e) _ [] _) as (l, s2). destruct l as [|x l]; [destruct (mem E (s_log s2) 1); reflexivity|].
        destruct (negb (mem _ _ 1)); [reflexivity|]. destruct (_ <? 13); [reflexivity|].
        destruct (put_names (x :: l) _); reflexivity.
    - destruct (N.leb_spec (0 + 4) (lenN data)); [|reflexivity].
      destruct (N.leb_spec (0 + 4 + n) (lenN data)); [lia|reflexivity].
  Qed.

  Lemma RecvRealPathMsg_eq : RecvRealPathMsg E id data s = Some (RecvRealPathMsg_t E id data s).
  Proof using Hm H32.
    unfold RecvRealPathMsg, RecvRealPathMsg_t. ref0 Hm H32; [|reflexivity].
    destruct (MAX_FILENAME <=? lenN s1); [reflexivity|]. cbv zeta.
    set (s2 := match sp_default (s_paths s) with Some _ => s | None => ask FGetcwd s end).
    destruct (RecvRealPath _ s1 (s_paths s2)) as (p, out).
    destruct (sp_default p); [|destruct (mem _ _ 1); reflexivity].
    destruct out as [x|]; [|reflexivity]. destruct (_ && _); reflexivity.
  Qed.

  Lemma dispatch_eq : forall ty, dispatch E ty id data s = Some (dispatch_t E ty id data s).
  Proof using Hm H32 Hp.
    intros ty. unfold dispatch, dispatch_t.
    destruct (ty =? FTP_REALPATH); [apply RecvRealPathMsg_eq|].
    destruct (ty =? FTP_RMDIR); [apply RecvRMDIR_eq|].
    destruct (ty =? FTP_MKDIR); [apply RecvMKDIR_eq|].
    destruct (ty =? FTP_STAT); [apply RecvStat_eq|].
    destruct (ty =? FTP_LSTAT); [apply RecvStat_eq|].
    destruct (ty =? FTP_FSTAT); [apply RecvFSTAT_eq|].
    destruct (ty =? FTP_OPEN); [apply RecvOpen_eq|].
    destruct (ty =? FTP_READ); [apply RecvRead_eq|].
    destruct (ty =? FTP_WRITE); [apply RecvWrite_eq|].
    destruct (ty =? FTP_CLOSE); [apply RecvClose_eq|].
    destruct (ty =? FTP_REMOVE); [apply RecvRemove_eq|].
    destruct (ty =? FTP_RENAME); [apply RecvRename_eq|].
    destruct (ty =? FTP_SETSTAT); [apply RecvSetSTAT_eq|].
    destruct (ty =? FTP_FSETSTAT); [apply RecvFSetSTAT_eq|].
    destruct (ty =? FTP_OPENDIR); [apply RecvOpenDir_eq|].
    destruct (ty =? FTP_READDIR); [apply RecvReadDir_eq|].
    cbv zeta. destruct (_ || _); reflexivity.
  Qed.
End eqs.
