(* SftpSpec.v - the vocabulary of C48 to C55: SFTP messages
   (draft-ietf-secsh-filexfer-02) written as concatenations, and what an
   observer of a session sees: requests, replies, and calls of the file system
   with their answers. *)
From Verif Require Import Base WireSpec NegoSpec ReqSpec PathModel PathSpec SftpModel.
From Coq Require Import List NArith ZArith Bool String.
Import ListNotations.
Open Scope N_scope.

(* ---- messages ----------------------------------------------------------- *)

Definition u64 (v : N) (b : bytes) : Prop := lenN b = 8 /\ be_value b = v.

(* length of what follows, type, request id, contents *)
Definition frame (ty id : N) (body m : bytes) : Prop :=
  exists lb ib, u32 (5 + lenN body) lb /\ u32 id ib /\ m = lb ++ [ty] ++ ib ++ body.

Definition status_msg (id code : N) (m : bytes) : Prop :=
  exists cb text tb lang lb, u32 code cb /\ str text tb /\ str lang lb /\ frame 101 id (cb ++ tb ++ lb) m.
Definition handle_msg (id : N) (hb m : bytes) : Prop := exists b, str hb b /\ frame 102 id b m.
Definition data_msg (id : N) (d m : bytes) : Prop := exists b, str d b /\ frame 103 id b m.

(* attributes: which are there is said by bits 0 (size), 1 (owner), 2 (mode),
   3 (times) and 31 (pairs of strings) of the flags *)
Inductive pairs : N -> bytes -> Prop :=
| pairs_0 : pairs 0 []
| pairs_S : forall n x xb y yb b, str x xb -> str y yb -> pairs n b -> pairs (n + 1) (xb ++ yb ++ b).

Definition field (here : bool) (v : N) (b : bytes) : Prop := if here then u32 v b else b = [] /\ v = 0.

Definition attr_wire (a : attrs) (b : bytes) : Prop :=
  let bit n := N.testbit (a_flags a) n in
  exists fb hb lb ub gb pb ab mb eb xb,
    u32 (a_flags a) fb /\
    field (bit 0) (a_hi a) hb /\ field (bit 0) (a_lo a) lb /\
    field (bit 1) (a_uid a) ub /\ field (bit 1) (a_gid a) gb /\
    field (bit 2) (a_per a) pb /\
    field (bit 3) (a_atime a) ab /\ field (bit 3) (a_mtime a) mb /\
    field (bit 31) (a_ext a) eb /\ pairs (a_ext a) xb /\
    b = fb ++ hb ++ lb ++ ub ++ gb ++ pb ++ ab ++ mb ++ eb ++ xb.

Definition attrs_msg (id : N) (a : attrs) (m : bytes) : Prop := exists b, attr_wire a b /\ frame 105 id b m.

(* name, text for the user, attributes *)
Definition name_wire (e : bytes * bytes * attrs) (b : bytes) : Prop :=
  match e with (n, t, a) =>
    exists nb tb ab, str n nb /\ str t tb /\ attr_wire a ab /\ b = nb ++ tb ++ ab
  end.
Definition name_msg (id : N) (l : list (bytes * bytes * attrs)) (m : bytes) : Prop :=
  exists cb bs, u32 (lenN l) cb /\ Forall2 name_wire l bs /\ frame 104 id (cb ++ List.concat bs) m.

(* a reply to request [id] of type [ty]: OPEN and OPENDIR get handles, READ data,
   READDIR and REALPATH names, LSTAT, FSTAT and STAT attributes, any a status *)
Definition reply_msg (ty id : N) (m : bytes) : Prop :=
  (exists c, status_msg id c m) \/
  (In ty [3; 11] /\ exists hb, handle_msg id hb m) \/
  (ty = 5 /\ exists d, data_msg id d m) \/
  (In ty [12; 16] /\ exists l, name_msg id l m) \/
  (In ty [7; 8; 17] /\ exists a, attrs_msg id a m).

(* requests laid out as the draft says; bytes after the last field are ignored *)
Definition shaped (ty : N) (d : bytes) : Prop :=
  (* CLOSE, LSTAT, FSTAT, OPENDIR, READDIR, REMOVE, RMDIR, REALPATH, STAT *)
  (In ty [4; 7; 8; 12; 11; 13; 15; 16; 17] -> exists p pb x, str p pb /\ d = pb ++ x) /\
  (* OPEN *)
  (ty = 3 -> exists p pb fl fb a ab x, str p pb /\ u32 fl fb /\ attr_wire a ab /\ d = pb ++ fb ++ ab ++ x) /\
  (* SETSTAT, FSETSTAT, MKDIR *)
  (In ty [9; 10; 14] -> exists p pb a ab x, str p pb /\ attr_wire a ab /\ d = pb ++ ab ++ x) /\
  (* READ *)
  (ty = 5 -> exists h hb o ob n nb x, str h hb /\ u64 o ob /\ u32 n nb /\ d = hb ++ ob ++ nb ++ x) /\
  (* WRITE *)
  (ty = 6 -> exists h hb o ob w wb x, str h hb /\ u64 o ob /\ str w wb /\ d = hb ++ ob ++ wb ++ x) /\
  (* RENAME *)
  (ty = 18 -> exists p pb q qb x, str p pb /\ str q qb /\ d = pb ++ qb ++ x) /\
  ty < 256.

(* ---- what is seen of a session ------------------------------------------ *)

(* a request, the reply to it, and what was asked of the file system while it
   was served, with the answers, in order *)
Record hev := mkHev {
  q_ty : N; q_id : N; q_data : bytes; q_reply : option bytes; q_calls : list (fscall * ans) }.

Fixpoint answered (E : senv) (before calls : list fscall) : list (fscall * ans) :=
  match calls with
  | [] => []
  | c :: t => (c, fs E (c :: before)) :: answered E (c :: before) t
  end.

(* the histories: any requests, in any order, one after the other, the last
   one first *)
Inductive hist (E : senv) (p : paths) : list hev -> srv -> Prop :=
| H_new : hist E p [] (srv0 p)
| H_req : forall h s ty id data r out s' new,
    hist E p h s -> bytes_ok data -> lenN data <= 65536 -> is32 id ->
    dispatch E ty id data s = Some (r, out, s') ->
    s_log s' = rev new ++ s_log s ->
    hist E p (mkHev ty id data out (answered E (s_log s) new) :: h) s'.

Definition calls (h : list hev) : list (fscall * ans) := List.concat (map q_calls (rev h)).

(* ---- handles ------------------------------------------------------------- *)

(* requests about a handle: CLOSE, READ, WRITE, FSTAT, FSETSTAT, READDIR *)
Definition about (ev : hev) (hb : bytes) : Prop :=
  In (q_ty ev) [4; 5; 6; 8; 10; 12] /\ exists b x, str hb b /\ q_data ev = b ++ x.
Definition closes (ev : hev) (hb : bytes) : Prop := q_ty ev = 4 /\ about ev hb.

(* OPEN answered with a handle for the descriptor it got, OPENDIR likewise *)
Definition opened (ev : hev) (hb : bytes) (fd : Z) : Prop :=
  q_ty ev = 3 /\ (exists m, q_reply ev = Some m /\ handle_msg (q_id ev) hb m) /\
  (0 <= fd)%Z /\ exists path fl mode a, In (FOpen path fl mode, a) (q_calls ev) /\ r_int a = fd.
Definition opened_dir (ev : hev) (hb : bytes) (d : Z) : Prop :=
  q_ty ev = 11 /\ (exists m, q_reply ev = Some m /\ handle_msg (q_id ev) hb m) /\
  (0 <= d)%Z /\ exists path a, In (FOpendir path, a) (q_calls ev) /\ r_int a = d.

(* [hb] was given out for [fd] and was not closed since *)
Inductive live (op : hev -> bytes -> Z -> Prop) (hb : bytes) (fd : Z) : list hev -> Prop :=
| L_open : forall ev h, op ev hb fd -> live op hb fd (ev :: h)
| L_keep : forall ev h, live op hb fd h -> ~ closes ev hb -> live op hb fd (ev :: h).

Definition on_fd (c : fscall) (fd : Z) : Prop :=
  match c with
  | FClose x | FPread x _ _ | FPwrite x _ _ | FFstat x | FFchmod x _ | FFsetTime x _ _ => x = fd
  | _ => False
  end.
Definition on_dir (c : fscall) (d : Z) : Prop :=
  match c with FReaddir x | FClosedir x => x = d | _ => False end.

(* how often a descriptor was handed out and closed *)
Definition is_open (fd : Z) (x : fscall * ans) : bool :=
  match fst x with FOpen _ _ _ => (0 <=? fd)%Z && (r_int (snd x) =? fd)%Z | _ => false end.
Definition is_close (fd : Z) (x : fscall * ans) : bool :=
  match fst x with FClose y => (y =? fd)%Z | _ => false end.
Definition is_opendir (fd : Z) (x : fscall * ans) : bool :=
  match fst x with FOpendir _ => (0 <=? fd)%Z && (r_int (snd x) =? fd)%Z | _ => false end.
Definition is_closedir (fd : Z) (x : fscall * ans) : bool :=
  match fst x with FClosedir y => (y =? fd)%Z | _ => false end.
Definition times (f : fscall * ans -> bool) (l : list (fscall * ans)) : nat := List.length (filter f l).

(* ---- the contents of files ------------------------------------------------ *)

(* a file is the byte at every position *)
Definition file := N -> N.
Definition patch (f : file) (at_ : N) (d : bytes) : file :=
  fun x => if (at_ <=? x) && (x <? at_ + lenN d) then nth (N.to_nat (x - at_)) d 0 else f x.

(* what a call does to the file behind descriptor [fd]: pwrite() that returns n
   writes the first n bytes *)
Definition effect (fd : Z) (f : file) (x : fscall * ans) : file :=
  match x with
  | (FPwrite y d o, a) => if (y =? fd)%Z && (0 <? r_int a)%Z then patch f o (takeN (Z.to_N (r_int a)) d) else f
  | _ => f
  end.
Definition effects (fd : Z) (l : list (fscall * ans)) (f : file) : file := fold_left (effect fd) l f.

(* pwrite() never claims more than it was given, pread() does not return more
   than was asked for *)
Definition sane (x : fscall * ans) : Prop :=
  match x with
  | (FPwrite _ d _, a) => (r_int a <= Z.of_N (lenN d))%Z
  | (FPread _ n _, a) => lenN (r_data a) <= n
  | _ => True
  end.

(* what stat() makes of a file: size, owner, mode and times, as the four words
   SFTP_GetAttributesHelper fills in (src/wolfsftp.c:5685-5706) *)
Definition stat_attrs (a : attrs) : Prop :=
  a_flags a = 15 /\ is32 (a_hi a) /\ is32 (a_lo a) /\ is32 (a_uid a) /\ is32 (a_gid a) /\ is32 (a_per a) /\
  is32 (a_atime a) /\ is32 (a_mtime a) /\ a_ext a = 0.
Definition stat_env (E : senv) : Prop := forall log, stat_attrs (r_attr (fs E log)).

(* ---- paths ----------------------------------------------------------------- *)

(* the paths a call is about *)
Definition names (c : fscall) : list bytes :=
  match c with
  | FOpen p _ _ | FStat p _ | FChmod p _ | FSetTime p _ _ | FOpendir p | FMkdir p _ | FRmdir p | FRemove p => [p]
  | FRename p q => [p; q]
  | _ => []
  end.

(* ---- outcomes ---------------------------------------------------------------- *)

(* no allocation fails *)
Definition roomy (E : senv) : Prop := forall log k, mem E log k = true.

(* the reply, if there is one, is this status *)
Definition says (ev : hev) (code : N) : Prop :=
  q_reply ev = None \/ exists m, q_reply ev = Some m /\ status_msg (q_id ev) code m.

(* one call was made; OK is said if [good] holds of what it returned, and failure
   if not *)
Definition tried (ev : hev) (c : fscall) (good : Z -> Prop) : Prop :=
  exists a, q_calls ev = [(c, a)] /\ (good (r_int a) -> says ev 0) /\ (~ good (r_int a) -> says ev 4).

(* the calls [want] were made in order, all returned 0, and OK is said; or they
   were made up to the first that did not return 0, and failure is said *)
Definition tried_all (ev : hev) (want : list fscall) : Prop :=
  (map fst (q_calls ev) = want /\ Forall (fun x => r_int (snd x) = 0%Z) (q_calls ev) /\ says ev 0) \/
  (exists before last rest, want = map fst before ++ fst last :: rest /\ q_calls ev = before ++ [last] /\
     Forall (fun x => r_int (snd x) = 0%Z) before /\ r_int (snd last) <> 0%Z /\ says ev 4).

(* the attributes of one file were asked for and are the reply *)
Definition looked (ev : hev) (c : fscall) : Prop :=
  exists a, q_calls ev = [(c, a)] /\
   (r_int a = 0%Z -> q_reply ev = None \/ exists m, q_reply ev = Some m /\ attrs_msg (q_id ev) (r_attr a) m) /\
   (r_int a <> 0%Z -> says ev 4).

(* setting attributes: the mode, then the times *)
Definition changes (a : attrs) (mode : N -> fscall) (times : N -> N -> fscall) : list fscall :=
  (if N.testbit (a_flags a) 2 then [mode (a_per a mod 512)] else []) ++
  (if N.testbit (a_flags a) 3 then [times (a_atime a) (a_mtime a)] else []).

(* the file a path in a request names (PathSpec), whether the path and the
   directories on the way have names shorter than 256 bytes, and whether the
   configuration allows it *)
Definition means (p : paths) (path : bytes) (cs : list bytes) : Prop :=
  exists from t st, default_is (sp_default p) from /\ text path t /\ start from t st /\ cs = walk st (pieces t).
Definition short (p : paths) (path : bytes) : Prop :=
  lenN path < 256 /\
  exists from t st, default_is (sp_default p) from /\ text path t /\ start from t st /\ fits 256 st (pieces t).
Definition allowed (link : bytes -> bool) (p : paths) (cs : list bytes) : Prop :=
  forall root, Forall plain root -> sp_confine p = Some (path_of root) ->
    inside root cs /\ (root = [] \/ no_links link root cs).

(* a request about [path] after the history [h], which left the server with the
   paths [p]: what happens if the path is short and allowed, and nothing else
   than a refusal if not *)
Definition on_path (E : senv) (h : list hev) (p : paths) (ev : hev) (path : bytes)
    (good : bytes -> Prop) (long : Prop) : Prop :=
  forall cs, means p path cs ->
    let ok := allowed (lnk E (rev (map fst (calls h)))) p cs in
    (short p path -> ok -> good (path_of cs)) /\
    (short p path -> ~ ok -> q_calls ev = [] /\ says ev 3) /\
    (~ short p path -> q_calls ev = [] /\ long).

(* OPEN's flags: bits 0 read, 1 write, 2 append, 3 create, 4 truncate, 5 only if
   new; open()'s: the access mode 0, 1 or 2, and 0o100 create, 0o200 only if new,
   0o1000 truncate, 0o2000 append *)
Definition open_flags (fl : N) : N :=
  (if N.testbit fl 1 then if N.testbit fl 0 then 2 else 1 else 0) +
  (if N.testbit fl 3 then 64 else 0) + (if N.testbit fl 5 then 128 else 0) +
  (if N.testbit fl 4 then 512 else 0) + (if N.testbit fl 2 then 1024 else 0).

(* fewer than 64 handles are open *)
Definition few (op : hev -> bytes -> Z -> Prop) (h : list hev) : Prop :=
  forall l, NoDup l -> (forall hb, In hb l -> exists fd, live op hb fd h) -> (List.length l < 64)%nat.

(* OPEN of the file [f] with the flags [fl] and attributes [a]: it must not be
   something else than a regular file (mode masked with 0o770000 is 0o100000); it is
   opened, with the mode asked for or 0o644; the reply is a handle, or tells of
   the failure *)
Definition opens (ev : hev) (f : bytes) (fl : N) (a : attrs) : Prop :=
  exists st, In (FStat f false, st) (q_calls ev) /\
   let odd := r_int st = 0%Z /\ N.land (a_per (r_attr st)) 258048 <> 32768 in
   (odd -> q_calls ev = [(FStat f false, st)] /\ says ev 4) /\
   (~ odd -> exists o,
      let c := FOpen f (open_flags fl) (if N.testbit (a_flags a) 2 then a_per a mod 512 else 420) in
      ((r_int o < 0)%Z -> q_calls ev = [(FStat f false, st); (c, o)] /\ says ev 4) /\
      ((0 <= r_int o)%Z -> q_calls ev = [(FStat f false, st); (c, o)] /\
         exists hb m, q_reply ev = Some m /\ handle_msg (q_id ev) hb m)).

Definition opens_dir (ev : hev) (f : bytes) : Prop :=
  exists o, q_calls ev = [(FOpendir f, o)] /\
   ((r_int o < 0)%Z -> says ev 2) /\
   ((0 <= r_int o)%Z -> exists hb m, q_reply ev = Some m /\ handle_msg (q_id ev) hb m).

(* ---- listing directories --------------------------------------------------- *)

(* OPENDIR of the directory [path] *)
Definition opened_at (path : bytes) (ev : hev) (hb : bytes) (d : Z) : Prop :=
  q_ty ev = 11 /\ (exists m, q_reply ev = Some m /\ handle_msg (q_id ev) hb m) /\
  (0 <= d)%Z /\ exists a, In (FOpendir path, a) (q_calls ev) /\ r_int a = d.
Definition lists (ev : hev) (hb : bytes) : Prop := q_ty ev = 12 /\ about ev hb.

(* [hb] was given out for [path] and neither closed nor listed since *)
Inductive unlisted (path hb : bytes) (d : Z) : list hev -> Prop :=
| U_open : forall ev h, opened_at path ev hb d -> unlisted path hb d (ev :: h)
| U_keep : forall ev h, unlisted path hb d h -> ~ closes ev hb -> ~ lists ev hb -> unlisted path hb d (ev :: h).

(* what readdir() gives are names *)
Definition dir_env (E : senv) : Prop := forall log, Forall entry_name (r_names (fs E log)).
(* there is memory, for the line of text about a file as well *)
Definition roomy_dir (E : senv) : Prop := roomy E /\ forall n a, longname E n a <> None.

(* an entry for the name [n] in the directory [cs] carries what lstat() said
   about that file, or nothing if that failed *)
Definition entry_of (cs : list bytes) (e : bytes * bytes * attrs) (x : fscall * ans) : Prop :=
  match e with (n, _, a) =>
    fst x = FStat (path_of (walk1 cs n)) true /\
    a = if (r_int (snd x) =? 0)%Z then r_attr (snd x) else no_attrs
  end.
Definition entry_key (e : bytes * bytes * attrs) : bytes := fst (fst e).
(* an upper bound on the length of the reply *)
Definition listing_size (es : list (bytes * bytes * attrs)) : N :=
  fold_right (fun e n => lenN (fst (fst e)) + lenN (snd (fst e)) + 40 + n) 13 es.
