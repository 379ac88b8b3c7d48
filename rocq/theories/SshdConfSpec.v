(* SshdConfSpec.v - what the daemon's configuration file means, stated on its
   text: lines, words, and the last value given for a keyword, in the global
   part or in the first Match block that applies to the user. *)
From Coq Require Import List NArith ZArith Lia Bool String.
From Verif Require Import Base NegoSpec SshdConfModel.
Import ListNotations.
Open Scope N_scope.

(* The lines of a text, without their newlines. *)
Fixpoint lines (s : bytes) : list bytes :=
  match s with
  | [] => []
  | c :: t => if c =? 10 then [] :: lines t else match lines t with [] => [[c]] | l :: ls => (c :: l) :: ls end
  end.

(* White space: blank, tab, newline, vertical tab, form feed, carriage
   return. *)
Definition is_white (c : N) : bool := existsb (N.eqb c) [32; 9; 10; 11; 12; 13].
(* The words of a line: its maximal runs of bytes that are not white. *)
Fixpoint words (l : bytes) : list bytes :=
  match l with
  | [] => []
  | c :: t =>
      if is_white c then words t
      else match t with
           | [] => [[c]]
           | d :: _ => if is_white d then [c] :: words t else match words t with w :: ws => (c :: w) :: ws | [] => [[c]] end
           end
  end.

(* What stands after the first word, without the white space before it and
   without blanks, carriage returns and newlines at its end. *)
Fixpoint drop_while (p : N -> bool) (l : bytes) : bytes :=
  match l with [] => [] | c :: t => if p c then drop_while p t else l end.
Definition argument (l : bytes) : bytes :=
  let t := drop_while is_white (drop_while (fun c => negb (is_white c)) (drop_while is_white l)) in
  rev (drop_while (fun c => existsb (N.eqb c) [32; 13; 10]) (rev t)).

(* A directive: the keyword, the word after it, and all of its argument. *)
Record directive : Type := Dir { d_key : bytes; d_word : option bytes; d_arg : bytes }.
Inductive item : Type := IDir (d : directive) | IMatch (criteria : list bytes).

Definition comment (w : bytes) : bool := match w with c :: _ => c =? 35 | [] => false end.
(* What a line says: nothing, a directive, or the head of a Match block. *)
Definition line_item (l : bytes) : list item :=
  match words l with
  | [] => []
  | k :: ws =>
      if comment k then []
      else if bytes_eqb k (ascii "Match") then [IMatch ws]
      else [IDir (Dir k (hd_error ws) (argument l))]
  end.
Definition items (s : bytes) : list item := flat_map line_item (lines s).

(* The global directives, and the Match blocks with theirs. *)
Fixpoint sections (is : list item) : list directive * list (list bytes * list directive) :=
  match is with
  | [] => ([], [])
  | IDir d :: t => let '(g, bs) := sections t in (d :: g, bs)
  | IMatch c :: t => let '(g, bs) := sections t in ([], (c, g) :: bs)
  end.

(* The name a criterion of a Match line asks for: the last one, if repeated. *)
Fixpoint criterion (key : bytes) (ws : list bytes) : option bytes :=
  match ws with
  | k :: n :: t =>
      match criterion key t with Some m => Some m | None => if bytes_eqb k key then Some n else None end
  | _ => None
  end.
(* The criteria are pairs of User or Group and a name, at least one. *)
Fixpoint pairs_ok (ws : list bytes) : Prop :=
  match ws with
  | [] => True
  | k :: n :: t => (k = ascii "User" \/ k = ascii "Group") /\ pairs_ok t
  | [_] => False
  end.
Definition criteria_ok (ws : list bytes) : Prop := ws <> [] /\ pairs_ok ws.
(* Whether a Match block applies to a user with these groups. *)
Definition applies (u : bytes) (gs : list bytes) (ws : list bytes) : bool :=
  match criterion (ascii "User") ws with None => true | Some n => bytes_eqb n u end &&
  match criterion (ascii "Group") ws with None => true | Some n => existsb (bytes_eqb n) gs end.

(* The directives that govern a user. *)
Definition governing (s : bytes) (u : bytes) (gs : list bytes) : list directive :=
  let '(g, bs) := sections (items s) in
  g ++ match find (fun b => applies u gs (fst b)) bs with Some b => snd b | None => [] end.

(* The value a keyword has: that of its last directive. *)
Definition last_of {A} (f : directive -> A) (key : bytes) (ds : list directive) : option A :=
  match rev (filter (fun d => bytes_eqb (d_key d) key) ds) with [] => None | d :: _ => Some (f d) end.
Definition value (key : string) (ds : list directive) : option bytes :=
  match last_of d_word (ascii key) ds with Some (Some v) => Some v | _ => None end.
Definition text (key : string) (ds : list directive) : option bytes := last_of d_arg (ascii key) ds.

(* A yes or no setting and its default. *)
Definition switch (key : string) (dflt : bool) (ds : list directive) : bool :=
  match value key ds with None => dflt | Some v => bytes_eqb v (ascii "yes") end.
(* PermitRootLogin and UsePrivilegeSeparation: what their words stand for. *)
Definition root_words : list (bytes * N) :=
  [ (ascii "no", ROOT_NO); (ascii "yes", ROOT_YES); (ascii "prohibit-password", ROOT_PROHIBIT_PW);
    (ascii "without-password", ROOT_PROHIBIT_PW); (ascii "forced-commands-only", ROOT_FORCED_CMD) ].
Definition sep_words : list (bytes * N) :=
  [ (ascii "yes", PRIV_SEPARAT); (ascii "no", PRIV_OFF); (ascii "sandbox", PRIV_SANDBOX) ].
Definition choice (ws : list (bytes * N)) (key : string) (dflt : N) (ds : list directive) : N :=
  match value key ds with
  | None => dflt
  | Some v => match find (fun w => bytes_eqb v (fst w)) ws with Some w => snd w | None => dflt end
  end.
(* A number in decimal. *)
Definition decimal (v : bytes) : option N :=
  match v with
  | [] => None
  | _ => if forallb (fun c => (48 <=? c) && (c <=? 57)) v then Some (fold_left (fun n c => n * 10 + (c - 48)) v 0) else None
  end.
(* A time: seconds, or minutes or hours with an m or h at the end. *)
Definition seconds (v : bytes) : option N :=
  match rev v with
  | c :: r =>
      if c =? 109 then match decimal (rev r) with Some n => Some (n * 60) | None => None end
      else if c =? 104 then match decimal (rev r) with Some n => Some (n * 3600) | None => None end
      else decimal v
  | [] => None
  end.

(* The settings the daemon uses are those of these directives. *)
Record settings (c : conf) (ds : list directive) : Prop := {
  st_pw : cf_pw c = switch "PasswordAuthentication" true ds;
  st_pk : cf_pk c = switch "PubkeyAuthentication" true ds;
  st_empty : cf_empty c = switch "PermitEmptyPasswords" false ds;
  st_strict : cf_strict c = switch "StrictModes" true ds;
  st_root : cf_root c = choice root_words "PermitRootLogin" ROOT_NO ds;
  st_sep : cf_sep c = choice sep_words "UsePrivilegeSeparation" PRIV_SEPARAT ds;
  st_keys : cf_keys c = value "AuthorizedKeysFile" ds;
  st_keys_set : cf_keys_set c = match value "AuthorizedKeysFile" ds with Some _ => true | None => false end;
  st_hostkey : cf_hostkey c = value "HostKey" ds;
  st_hostcert : cf_hostcert c = value "HostCertificate" ds;
  st_ca : cf_ca c = value "TrustedUserCAKeys" ds;
  st_pid : cf_pid c = value "PidFile" ds;
  st_banner : cf_banner c = value "Banner" ds;
  st_chroot : cf_chroot c = value "ChrootDirectory" ds;
  st_cmd : cf_cmd c = text "ForceCommand" ds;
  st_upn : cf_upn c = text "AuthorizedUPNDomains" ds;
  st_port : match value "Port" ds with
            | None => cf_port c = 22
            | Some v => forall n, decimal v = Some n -> cf_port c = n
            end;
  st_grace : match value "LoginGraceTime" ds with
             | None => cf_grace c = 120%Z
             | Some v => forall n, seconds v = Some n -> cf_grace c = Z.of_N n
             end }.

(* The keywords of the manual, other than Include. *)
Definition keywords : list bytes :=
  map ascii [ "AuthorizedKeysFile"; "UsePrivilegeSeparation"; "PermitEmptyPasswords"; "Subsystem";
              "ChallengeResponseAuthentication"; "UsePAM"; "X11Forwarding"; "PrintMotd"; "AcceptEnv"; "Protocol";
              "LoginGraceTime"; "HostKey"; "PasswordAuthentication"; "PubkeyAuthentication"; "Port"; "PermitRootLogin";
              "UseDNS"; "ChrootDirectory"; "Match"; "ForceCommand"; "HostCertificate"; "TrustedUserCAKeys"; "PidFile";
              "Banner"; "StrictModes"; "AuthorizedUPNDomains" ]%string.

(* An ordinary file: lines of at most 158 bytes, no NUL, every line blank, a
   comment, or headed by one of the keywords. *)
Definition ordinary (s : bytes) : Prop :=
  ~ In 0 s /\
  Forall (fun l => lenN l <= 158 /\ match words l with [] => True | k :: _ => comment k = true \/ In k keywords end) (lines s).

(* What is a proper value for a directive. *)
Definition yes_or_no (v : bytes) : Prop := v = ascii "yes" \/ v = ascii "no".
Definition proper (d : directive) : Prop :=
  let k := d_key d in
  (In k (map ascii ["PasswordAuthentication"; "PubkeyAuthentication"; "PermitEmptyPasswords"; "StrictModes"]%string) ->
     exists v, d_word d = Some v /\ yes_or_no v) /\
  (k = ascii "PermitRootLogin" -> exists v, d_word d = Some v /\ In v (map fst root_words)) /\
  (k = ascii "UsePrivilegeSeparation" -> exists v, d_word d = Some v /\ In v (map fst sep_words)) /\
  (In k (map ascii ["AuthorizedKeysFile"; "HostKey"; "HostCertificate"; "TrustedUserCAKeys"; "PidFile"; "Banner";
                    "ChrootDirectory"; "ForceCommand"; "AuthorizedUPNDomains"; "Port"; "LoginGraceTime"; "Protocol"]%string) ->
     exists v, d_word d = Some v).

(* Files that are taken: plain white space only, and proper values, numbers
   in range. *)
Definition acceptable (d : directive) : Prop :=
  proper d /\
  (d_key d = ascii "Port" -> exists v n, d_word d = Some v /\ decimal v = Some n /\ 1 <= n <= 65535) /\
  (d_key d = ascii "Protocol" -> exists v, d_word d = Some v /\ decimal v = Some 2) /\
  (d_key d = ascii "LoginGraceTime" -> exists v n, d_word d = Some v /\ seconds v = Some n /\ 1 <= n <= 4294967295).
Definition plain_file (s : bytes) : Prop :=
  ordinary s /\
  (forall c, In c s -> c <> 11 /\ c <> 12 /\ c <> 13) /\
  Forall (fun i => match i with IDir d => acceptable d | IMatch ws => criteria_ok ws end) (items s).

(* Files that include one another in a circle: each of them has a line that
   is an Include of one of them, by name. *)
Definition includes (s g : bytes) : Prop := In (ascii "Include " ++ g) (lines s).
Definition circle (D : disk) (fs : list bytes) : Prop :=
  forall f, In f fs -> exists s g, d_read D f = Some s /\ ~ In 0 s /\ Forall (fun l => lenN l <= 158) (lines s) /\ includes s g /\ In g fs.
(* a file name without white space and wild cards *)
Definition simple_name (g : bytes) : Prop := g <> [] /\ Forall (fun c => is_white c = false /\ c <> 42) g.

(* Include with a pattern: string order, and the names a pattern stands for. *)
Inductive comes_before : bytes -> bytes -> Prop :=
| cb_end : forall x l, comes_before [] (x :: l)
| cb_less : forall x y a b, x < y -> comes_before (x :: a) (y :: b)
| cb_same : forall x a b, comes_before a b -> comes_before (x :: a) (x :: b).
Inductive in_order : list bytes -> Prop :=
| io_nil : in_order []
| io_cons : forall x l, (forall y, In y l -> comes_before x y) -> in_order l -> in_order (x :: l).
Definition stands_for (pre post name : bytes) : Prop := exists mid, name = pre ++ mid ++ post.
(* a piece of a file name without white space, wild cards and slashes *)
Definition simple_part (g : bytes) : Prop := Forall (fun c => is_white c = false /\ c <> 42 /\ c <> 47 /\ c <> 0) g.
Definition pattern (dir pre post : bytes) : bytes := dir ++ 47 :: pre ++ 42 :: post.
(* [names] are the files in the listing [es] that the pattern stands for, in order *)
Definition selected (pre post : bytes) (es : list (bytes * bool)) (names : list bytes) : Prop :=
  in_order names /\ forall n, In n names <-> In (n, false) es /\ stands_for pre post n.
(* [texts] are the texts of the files [names] of a directory, all ordinary and
   without Match blocks *)
Definition texts_of (D : disk) (dir : bytes) (names : list bytes) (texts : list bytes) : Prop :=
  Forall2 (fun n s => d_read D (dir ++ 47 :: n) = Some s /\ ordinary s /\ snd (sections (items s)) = []) names texts.
