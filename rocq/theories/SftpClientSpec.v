(* SftpClientSpec.v - vocabulary of C82 to C84: SFTP messages
   (draft-ietf-secsh-filexfer-02), a conversation of requests and replies, and
   what a server does with a file. Of the model only the types of what the
   caller sees are used. *)
From Verif Require Import Base OsshSpec SftpModel SftpClientModel.
From Coq Require Import List NArith Bool.
Import ListNotations.
Open Scope N_scope.

(* ---- messages ------------------------------------------------------- *)

Record msg := Msg { m_type : N; m_id : N; m_body : bytes }.
Definition wire (m : msg) : bytes :=
  be32 (5 + lenN (m_body m)) ++ [m_type m] ++ be32 (m_id m) ++ m_body m.
Definition framed (m : msg) : Prop :=
  m_type m < 256 /\ m_id m < W32 /\ bytes_ok (m_body m) /\ 0 < lenN (m_body m) < 2147483648.

(* the contents of a STATUS: 0 is success, 1 end of file *)
Definition status (code : N) (b : bytes) : Prop :=
  code < W32 /\ exists text lang, b = be32 code ++ str text ++ str lang.

(* The requests sent, in order, and the replies to them, in order; the server
   may have sent more. *)
Inductive conversation (qs rs : list msg) (out input : bytes) : Prop :=
| Conversation : forall rest,
    length qs = length rs -> Forall framed qs -> Forall framed rs ->
    out = List.concat (map wire qs) -> input = List.concat (map wire rs) ++ rest ->
    conversation qs rs out input.

(* ---- a server with a file to read ----------------------------------- *)

(* [r] answers [q], the file opened being [F] and its handle [h]: an OPEN is
   given the handle or refused, a READ gets some of what is in the file from
   there on, the end of the file where there is nothing, or another error. *)
Definition gives (F h : bytes) (q r : msg) : Prop :=
  m_id r = m_id q /\
  (m_type q = 3 ->
     (m_type r = 102 /\ m_body r = str h) \/
     (m_type r = 101 /\ exists code, code <> 0 /\ status code (m_body r))) /\
  (m_type q = 5 -> forall off n, off < W32 * W32 -> n < W32 -> m_body q = str h ++ be64 off ++ be32 n ->
     (m_type r = 103 /\
        exists k, 0 < k <= n /\ off + k <= lenN F /\ m_body r = str (takeN k (dropN off F))) \/
     (m_type r = 101 /\
        exists code, status code (m_body r) /\ code <> 0 /\ (code = 1 -> lenN F <= off))).

(* ---- a server with a file to write ---------------------------------- *)

Definition overlay (f : bytes) (off : N) (d : bytes) : bytes :=
  takeN off f ++ repeat 0 (N.to_nat (off - lenN f)) ++ d ++ dropN (off + lenN d) f.

(* The file was [f], then the requests came and were answered, then it was
   [f']. An OPEN that asks for it (bit 4) empties the file; a WRITE that is
   answered with success was done, one answered with an error was not. *)
Inductive serves (h : bytes) : bytes -> list msg -> list msg -> bytes -> Prop :=
| Serves_nil : forall f, serves h f [] [] f
| Serves_open : forall f f' qs rs id path flags x r,
    serves h (if N.testbit flags 4 then [] else f) qs rs f' ->
    flags < W32 -> m_id r = id -> m_type r = 102 -> m_body r = str h ->
    serves h f (Msg 3 id (str path ++ be32 flags ++ x) :: qs) (r :: rs) f'
| Serves_refuse : forall f f' qs rs q r code,
    serves h f qs rs f' -> m_type q = 3 ->
    m_id r = m_id q -> m_type r = 101 -> status code (m_body r) -> code <> 0 ->
    serves h f (q :: qs) (r :: rs) f'
| Serves_write : forall f f' qs rs id off d r,
    serves h (overlay f off d) qs rs f' ->
    off < W32 * W32 -> m_id r = id -> m_type r = 101 -> status 0 (m_body r) ->
    serves h f (Msg 6 id (str h ++ be64 off ++ str d) :: qs) (r :: rs) f'
| Serves_fail : forall f f' qs rs q r code,
    serves h f qs rs f' -> m_type q = 6 ->
    m_id r = m_id q -> m_type r = 101 -> status code (m_body r) -> code <> 0 ->
    serves h f (q :: qs) (r :: rs) f'
| Serves_other : forall f f' qs rs q r,
    serves h f qs rs f' -> m_type q <> 3 -> m_type q <> 6 -> m_id r = m_id q ->
    serves h f (q :: qs) (r :: rs) f'.

(* ---- the caller ----------------------------------------------------- *)

(* the application did not interrupt *)
Definition uninterrupted (es : list ev) : Prop := ~ In EInt es.

(* The length word of a DATA reply was never cut in two by the stream. *)
Fixpoint whole_lengths (E : cenv) (j : job) (es : list ev) (c : xfer) : Prop :=
  match es with
  | [] => True
  | e :: t =>
      (x_wire c = WLen -> forall n b, e = EMove n b -> 4 <= n) /\ whole_lengths E j t (step E j e c)
  end.

(* an offset, and the words it is kept in *)
Definition offset (o : hid) : N := snd o * W32 + fst o.
Definition words (o : hid) : Prop := fst o < W32 /\ snd o < W32.

(* closing the local file does not lose what was written *)
Definition closes (E : cenv) : Prop := forall p, p <= ce_flush E p.

(* A Get that ended, well or not: it started where the state [c] left the
   session and its local file, and ended in [c']. The server was honest about
   the file [F]; the last request may have been sent in part only. *)
Inductive attempt (F : bytes) (c : xfer) (j : job) (es : list ev) (c' : xfer) : Prop :=
| Attempt : forall E input h qs rs more rest,
    let c0 := idle (x_req c) (x_int c) (x_tab c) (x_file c) input in
    c' = SFTP_Get E j es c0 -> x_res c' <> None ->
    closes E -> whole_lengths E j es (get_start j c0) ->
    Forall framed qs -> Forall framed rs -> Forall2 (gives F h) qs rs ->
    List.concat (map wire qs) = x_out c' ++ more -> input = List.concat (map wire rs) ++ rest ->
    attempt F c j es c'.

(* A session in which no offset was saved for the two names, then Gets of the
   one to the other, interrupted or not; [P] is what these Gets have in
   common. *)
Inductive tried (P : job -> Prop) (F from to : bytes) : xfer -> Prop :=
| Tried_none : forall c,
    x_req c < W32 ->
    (forall s, In s (x_tab c) -> o_from s = from -> o_to s = to -> o_ofst s = (0, 0)) ->
    tried P F from to c
| Tried_more : forall c j es c',
    tried P F from to c -> j_from j = from -> j_to j = to -> P j ->
    attempt F c j es c' -> tried P F from to c'.

(* The table has the offset [o] for the two names: that of the first entry
   with both. *)
Definition saved (from to : bytes) (o : hid) (tab : list slot) : Prop :=
  exists pre x post, tab = pre ++ x :: post /\ o_from x = from /\ o_to x = to /\ o_ofst x = o /\
    forall s, In s pre -> ~ (o_from s = from /\ o_to s = to).

(* The table has a free entry and none for the two names, which are of file
   name length. *)
Definition room (from to : bytes) (tab : list slot) : Prop :=
  lenN from < 256 /\ lenN to < 256 /\ (exists x, In x tab /\ offset (o_ofst x) = 0) /\
  forall s, In s tab -> ~ (o_from s = from /\ o_to s = to).

(* every WRITE was answered with success *)
Definition all_written (qs rs : list msg) : Prop :=
  Forall2 (fun q r => m_type q = 6 -> status 0 (m_body r)) qs rs.
(* no transport error, and memory did not run out *)
Definition no_failure (es : list ev) : Prop := ~ In EFail es.
(* reading a local file of [n] bytes does not fail *)
Definition readable (E : cenv) (n : N) : Prop := forall p, p < n -> 0 < ce_read E p.
