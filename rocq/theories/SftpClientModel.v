(* SftpClientModel.v - file transfer by the SFTP client of src/wolfsftp.c:
   wolfSSH_SFTP_Get and wolfSSH_SFTP_Put with the requests they make, and the
   table of interrupted transfers. The build modelled is the POSIX one, the
   SFTP session is negotiated, and no other call is unfinished. *)
From Verif Require Import Base WireModel PathModel SftpModel.
From Coq Require Import List NArith Bool.
Import ListNotations.
Open Scope N_scope.

(* wolfssh/wolfsftp.h:131, 72-83 *)
Definition PER_LINK : N := 40960.
Definition FTP_UNSUPPORTED : N := 8.

(* ------------------------------------------------------------------ *)
(* Messages                                                             *)

(* src/wolfsftp.c:6656-6738 SendPacketType, the message it builds
   (6691-6709) *)
Definition SimpleMsg (type reqId : N) (buf : bytes) : bytes :=
  SetHeader reqId type (lenN buf + 4) ++ c32toa (lenN buf) ++ buf.

(* src/wolfsftp.c:8067-8117 wolfSSH_SFTP_Open without attributes *)
Definition OpenMsg (reqId : N) (dir : bytes) (reason : N) : bytes :=
  SetHeader reqId FTP_OPEN (lenN dir + 8 + 4) ++ c32toa (lenN dir) ++ dir ++ c32toa reason ++ c32toa 0.

(* src/wolfsftp.c:8446-8484 wolfSSH_SFTP_SendReadPacket; ofst[0] is the low
   word *)
Definition ReadMsg (reqId : N) (handle : bytes) (ofst : hid) (outSz : N) : bytes :=
  SetHeader reqId FTP_READ (lenN handle + 16)
  ++ c32toa (lenN handle) ++ handle ++ c32toa (snd ofst) ++ c32toa (fst ofst) ++ c32toa outSz.

(* src/wolfsftp.c:8219-8258 wolfSSH_SFTP_SendWritePacket, what goes before the
   data *)
Definition WriteHead (reqId : N) (handle : bytes) (ofst : hid) (inSz : N) : bytes :=
  SetHeader reqId FTP_WRITE (lenN handle + 16 + inSz)
  ++ c32toa (lenN handle) ++ handle ++ c32toa (snd ofst) ++ c32toa (fst ofst) ++ c32toa inSz.

(* src/wolfsftp.c:6755-6811 wolfSSH_SFTP_DoStatus: the code, None for a
   negative result. *)
Definition DoStatus (buf : bytes) : option N :=
  match GetUint32 buf (lenN buf) 0 with
  | POk st i =>
      let st := if FTP_UNSUPPORTED <? st then FTP_FAILURE else st in
      match GetStringRef buf (lenN buf) i with
      | POk _ i =>
          match GetStringRef buf (lenN buf) i with
          | POk _ _ => Some st
          | _ => None
          end
      | _ => None
      end
  | _ => None
  end.

(* src/wolfsftp.c:7415-7440 the handle in a HANDLE reply *)
Definition ParseHandle (buf : bytes) : option bytes :=
  if lenN buf <? 4 then None
  else match ato32 buf 0 with
       | Some sz =>
           if (MAX_HANDLE <? sz) || (lenN buf <? 4 + sz) then None
           else Some (takeN sz (dropN 4 buf))
       | None => None
       end.

(* ------------------------------------------------------------------ *)
(* Saved offsets                                                        *)

(* wolfssh/internal.h:927-936 SFTP_OFST; names without their NUL. The table
   has WOLFSSH_MAX_SFTPOFST = 3 of them. *)
Record slot := mkSlot { o_from : bytes; o_to : bytes; o_ofst : hid }.
Definition no_slot : slot := mkSlot [] [] (0, 0).
Definition table0 : list slot := [no_slot; no_slot; no_slot].

Definition zero64 (h : hid) : bool := (fst h =? 0) && (snd h =? 0).

(* src/wolfsftp.c:9609-9651 wolfSSH_SFTP_SaveOfst. Its result is ignored by
   both callers; None is a failure, which leaves the table as it is. *)
Fixpoint save_slot (s : slot) (t : list slot) : option (list slot) :=
  match t with
  | [] => None
  | x :: t =>
      if zero64 (o_ofst x) then Some (s :: t)
      else match save_slot s t with Some t => Some (x :: t) | None => None end
  end.
Definition SaveOfst (from to : bytes) (o : hid) (t : list slot) : list slot :=
  match save_slot (mkSlot from to o) t with
  | None => t
  | Some t' => if (MAX_FILENAME <=? lenN from) || (MAX_FILENAME <=? lenN to) then t else t'
  end.

Fixpoint beq (a b : bytes) : bool :=
  match a, b with
  | [], [] => true
  | x :: a, y :: b => (x =? y) && beq a b
  | _, _ => false
  end.

(* src/wolfsftp.c:9664-9699 wolfSSH_SFTP_GetOfst: the offset and the table
   left *)
Fixpoint GetOfst (from to : bytes) (t : list slot) : hid * list slot :=
  match t with
  | [] => ((0, 0), [])
  | x :: t =>
      if beq from (o_from x) && beq to (o_to x) then (o_ofst x, no_slot :: t)
      else let (o, t) := GetOfst from to t in (o, x :: t)
  end.

(* ------------------------------------------------------------------ *)
(* A transfer                                                           *)

(* What is not the client's doing:
     ce_kind   Put: the type bits lstat gave for the local file, if it gave any
     ce_open   whether the local file can be opened
     ce_seek   whether the local file can be set to an offset
     ce_write  how many of n bytes fwrite takes when the file has p
     ce_flush  how many of the p bytes written are in the file after fclose
     ce_read   the most fread gives at position p (0 at an error)
     ce_junk   what the four bytes szFlat hold before they are read (8420)
     ce_per    the mode left by attributes that could not be parsed *)
Record cenv := mkCenv {
  ce_kind : option N; ce_open : bool; ce_seek : bool;
  ce_write : N -> N -> N; ce_flush : N -> N; ce_read : N -> N;
  ce_junk : bytes; ce_per : N }.

(* the arguments *)
Record job := mkJob { j_from : bytes; j_to : bytes; j_resume : bool }.

(* Where in the conversation the call is:
     WSend m i    sending [m], [i] bytes of it given to wolfSSH_stream_send
     WBody d i    sending the data of a WRITE (8278-8301)
     WHead got    SFTP_GetHeader
     WMsg         reading the rest of a reply into a buffer
     WLen         STATE_SEND_READ_FTP_DATA (8544-8565)
     WData n got  STATE_SEND_READ_REMAINDER, [n] bytes to come *)
Inductive wst :=
| WSend (m : bytes) (idx : N)
| WBody (d : bytes) (idx : N)
| WHead (got : bytes)
| WMsg (type id sz : N) (got : bytes)
| WLen
| WData (sz : N) (got : bytes).

(* the request the call waits for: of Get and of Put *)
Inductive stage := GStat | GOpen | GRead | GClose | POpen | PWrite | PClose.

Record xfer := mkX {
  x_in : bytes;            (* what the server sends and was not read *)
  x_out : bytes;           (* what was given to wolfSSH_stream_send *)
  x_req : N;               (* ssh->reqId *)
  x_int : bool;            (* ssh->sftpInt *)
  x_tab : list slot;       (* ssh->sftpOfst *)
  x_file : bytes;          (* the local file *)
  x_pos : N;               (* where it is read (Put) *)
  x_ofst : hid;            (* state->gOfst, state->pOfst *)
  x_handle : bytes;        (* state->handle, handleSz bytes *)
  x_chunk : bytes;         (* state->r, rSz bytes (Put) *)
  x_stage : stage;
  x_wire : wst;
  x_res : option rc }.     (* the result, when the call has ended *)

Definition set_wire w (c : xfer) :=
  mkX (x_in c) (x_out c) (x_req c) (x_int c) (x_tab c) (x_file c) (x_pos c) (x_ofst c) (x_handle c)
      (x_chunk c) (x_stage c) w (x_res c).
Definition set_in i (c : xfer) :=
  mkX i (x_out c) (x_req c) (x_int c) (x_tab c) (x_file c) (x_pos c) (x_ofst c) (x_handle c)
      (x_chunk c) (x_stage c) (x_wire c) (x_res c).
Definition set_out o (c : xfer) :=
  mkX (x_in c) o (x_req c) (x_int c) (x_tab c) (x_file c) (x_pos c) (x_ofst c) (x_handle c)
      (x_chunk c) (x_stage c) (x_wire c) (x_res c).
Definition set_req r (c : xfer) :=
  mkX (x_in c) (x_out c) r (x_int c) (x_tab c) (x_file c) (x_pos c) (x_ofst c) (x_handle c)
      (x_chunk c) (x_stage c) (x_wire c) (x_res c).
Definition set_int b (c : xfer) :=
  mkX (x_in c) (x_out c) (x_req c) b (x_tab c) (x_file c) (x_pos c) (x_ofst c) (x_handle c)
      (x_chunk c) (x_stage c) (x_wire c) (x_res c).
Definition set_tab t (c : xfer) :=
  mkX (x_in c) (x_out c) (x_req c) (x_int c) t (x_file c) (x_pos c) (x_ofst c) (x_handle c)
      (x_chunk c) (x_stage c) (x_wire c) (x_res c).
Definition set_file f (c : xfer) :=
  mkX (x_in c) (x_out c) (x_req c) (x_int c) (x_tab c) f (x_pos c) (x_ofst c) (x_handle c)
      (x_chunk c) (x_stage c) (x_wire c) (x_res c).
Definition set_pos p (c : xfer) :=
  mkX (x_in c) (x_out c) (x_req c) (x_int c) (x_tab c) (x_file c) p (x_ofst c) (x_handle c)
      (x_chunk c) (x_stage c) (x_wire c) (x_res c).
Definition set_ofst o (c : xfer) :=
  mkX (x_in c) (x_out c) (x_req c) (x_int c) (x_tab c) (x_file c) (x_pos c) o (x_handle c)
      (x_chunk c) (x_stage c) (x_wire c) (x_res c).
Definition set_handle h (c : xfer) :=
  mkX (x_in c) (x_out c) (x_req c) (x_int c) (x_tab c) (x_file c) (x_pos c) (x_ofst c) h
      (x_chunk c) (x_stage c) (x_wire c) (x_res c).
Definition set_chunk d (c : xfer) :=
  mkX (x_in c) (x_out c) (x_req c) (x_int c) (x_tab c) (x_file c) (x_pos c) (x_ofst c) (x_handle c)
      d (x_stage c) (x_wire c) (x_res c).
Definition set_stage s (c : xfer) :=
  mkX (x_in c) (x_out c) (x_req c) (x_int c) (x_tab c) (x_file c) (x_pos c) (x_ofst c) (x_handle c)
      (x_chunk c) s (x_wire c) (x_res c).
Definition finish r (c : xfer) :=
  mkX (x_in c) (x_out c) (x_req c) (x_int c) (x_tab c) (x_file c) (x_pos c) (x_ofst c) (x_handle c)
      (x_chunk c) (x_stage c) (x_wire c) (Some r).

Definition request s m (c : xfer) : xfer := set_stage s (set_wire (WSend m 0) c).

(* One turn of a loop that sends or receives, as in SftpModel:
     EMove n b   [n] bytes moved. For a message sent: bytes are still queued
                 below if [b] (634-661). For a CLOSE sent: an earlier notice
                 still stands in ssh->error if [b] (8913-8916)
     EStop w     none moved, the call returns to be called again, or goes on;
                 [w]: the socket would block (WS_WANT_READ, WS_WANT_WRITE),
                 otherwise another notice of NoticeError (442-449)
     EFail       a transport error, or no memory
     EInt        wolfSSH_SFTP_Interrupt (9724-9729) *)
Inductive ev := EMove (n : N) (b : bool) | EStop (w : bool) | EFail | EInt.

(* ---- Get ------------------------------------------------------------ *)

(* src/wolfsftp.c:9956-9966 STATE_GET_CLOSE_LOCAL; the result of fclose is
   ignored *)
Definition get_close_local (E : cenv) (r : rc) (c : xfer) : xfer :=
  finish r (set_file (takeN (ce_flush E (lenN (x_file c))) (x_file c)) c).

(* src/wolfsftp.c:9938-9954 STATE_GET_CLOSE_REMOTE *)
Definition get_close_remote (E : cenv) (c : xfer) : xfer :=
  if 0 <? lenN (x_handle c)
  then request GClose (SimpleMsg FTP_CLOSE (x_req c) (x_handle c)) c
  else get_close_local E WS_SUCCESS c.

Definition get_read (c : xfer) : xfer :=
  request GRead (ReadMsg (x_req c) (x_handle c) (x_ofst c) MAX_SFTP_RW) c.

(* src/wolfsftp.c:9878-9936 STATE_GET_READ: [d] is what SendReadPacket gave *)
Definition get_data (E : cenv) (j : job) (d : bytes) (c : xfer) : xfer :=
  let w := N.min (ce_write E (lenN (x_file c)) (lenN d)) (lenN d) in
  let c := set_file (x_file c ++ takeN w d) c in
  if negb (w =? lenN d) then finish WS_FATAL_ERROR c
  else
    let c := set_ofst (AddAssign64 (x_ofst c) (lenN d)) c in
    if (0 <? lenN d) && negb (x_int c) then get_read c
    else
      let c := if x_int c then set_tab (SaveOfst (j_from j) (j_to j) (x_ofst c) (x_tab c)) c else c in
      get_close_remote E (set_int false c).

(* src/wolfsftp.c:9823-9876: the remote file is open *)
Definition get_opened (E : cenv) (j : job) (h : bytes) (c : xfer) : xfer :=
  let c := set_handle h c in
  let '(o, t) := if j_resume j then GetOfst (j_from j) (j_to j) (x_tab c) else ((0, 0), x_tab c) in
  let c := set_tab t (set_ofst o c) in
  if ce_open E then
    (* "ab" or "wb" *)
    get_read (if zero64 o then set_file [] c else c)
  else finish WS_FATAL_ERROR c.

(* src/wolfsftp.c:9795-9810: STAT succeeded with mode [per] *)
Definition get_stat (j : job) (per : N) (c : xfer) : xfer :=
  let t := N.land per PER_MASK_TYPE in
  if (t =? PER_FILE) || (t =? PER_LINK)
  then request GOpen (OpenMsg (x_req c) (j_from j) FXF_READ) c
  else finish WS_FATAL_ERROR c.

(* src/wolfsftp.c:9743-9787 wolfSSH_SFTP_Get up to STAT. *)
Definition get_start (j : job) (c : xfer) : xfer :=
  request GStat (SimpleMsg FTP_STAT (x_req c) (j_from j)) (set_ofst (0, 0) c).

(* ---- Put ------------------------------------------------------------ *)

(* src/wolfsftp.c:10170-10202: the local file is closed, then the remote one.
   handleSz is 0 for an empty handle only; then [ret] is still Open's. *)
Definition put_end (j : job) (c : xfer) : xfer :=
  let c := if x_int c
           then set_int false (set_tab (SaveOfst (j_from j) (j_to j) (x_ofst c) (x_tab c)) c)
           else c in
  if 0 <? lenN (x_handle c)
  then request PClose (SimpleMsg FTP_CLOSE (x_req c) (x_handle c)) c
  else finish WS_SUCCESS c.

(* src/wolfsftp.c:10121-10144 STATE_PUT_WRITE up to SendWritePacket *)
Definition put_write (E : cenv) (j : job) (c : xfer) : xfer :=
  let c :=
    if lenN (x_chunk c) =? 0 then
      let r := takeN (N.min MAX_SFTP_RW (ce_read E (x_pos c))) (dropN (x_pos c) (x_file c)) in
      set_chunk r (set_pos (x_pos c + lenN r) c)
    else c in
  if lenN (x_chunk c) =? 0 then put_end j c
  else request PWrite (WriteHead (x_req c) (x_handle c) (x_ofst c) (lenN (x_chunk c))) c.

(* src/wolfsftp.c:10145-10169: [sz] is what SendWritePacket returned, 0 for an
   error *)
Definition put_wrote (E : cenv) (j : job) (sz : N) (c : xfer) : xfer :=
  if sz =? 0 then put_end j c
  else
    let c := set_ofst (AddAssign64 (x_ofst c) sz) c in
    (* what is left is sent again from the start of state->r *)
    let c := set_chunk (takeN (lenN (x_chunk c) - sz) (x_chunk c)) c in
    if x_int c then put_end j c else put_write E j c.

(* src/wolfsftp.c:9987-10104 wolfSSH_SFTP_Put up to the OPEN. A failure is
   before or after the local file was opened. *)
Definition put_start (E : cenv) (j : job) (c : xfer) : xfer :=
  let '(o, t) := if j_resume j then GetOfst (j_from j) (j_to j) (x_tab c) else ((0, 0), x_tab c) in
  let c := set_chunk [] (set_tab t (set_ofst o c)) in
  let special := match ce_kind E with
                 | Some p => negb (N.land p PER_MASK_TYPE =? PER_FILE)
                 | None => false
                 end in
  if special then finish WS_FATAL_ERROR c
  else if negb (ce_open E) then finish WS_FATAL_ERROR c
  else if j_resume j && negb (ce_seek E) then finish WS_FATAL_ERROR c
  else
    let c := set_pos (if j_resume j then snd o * W32 + fst o else 0) c in
    request POpen (OpenMsg (x_req c) (j_to j) (FXF_WRITE + FXF_CREAT + FXF_TRUNC)) c.

(* ---- both ----------------------------------------------------------- *)

(* The request in progress failed. Get: 9788-9794, 9816-9822, 9886-9893 (the
   local file is closed, the remote one is not), 9946-9953. Put: 10107-10119,
   10145-10150, 10188-10196. *)
Definition fail_request (E : cenv) (j : job) (c : xfer) : xfer :=
  match x_stage c with
  | GStat | GOpen => finish WS_FATAL_ERROR c
  | GRead | GClose => get_close_local E WS_FATAL_ERROR c
  | POpen | PClose => finish WS_FATAL_ERROR c
  | PWrite => put_end j c
  end.

(* A notice that is not "would block". Open gives up (8128-8135, 8150-8158),
   and so does the reading of a WRITE's status (8350-8358); Get gives up on
   CLOSE (9946-9953). A caller that calls again after those starts the request
   afresh; that is not modelled, the call counts as failed. *)
Definition notice (E : cenv) (j : job) (c : xfer) : xfer :=
  match x_stage c, x_wire c with
  | GOpen, _ | POpen, _ => finish WS_FATAL_ERROR c
  | GClose, _ => get_close_local E WS_FATAL_ERROR c
  | PWrite, WMsg _ _ _ _ => finish WS_FATAL_ERROR c
  | _, _ => c
  end.

(* A reply has come in full (its header was checked by [header]). STAT
   7764-7812, Open 7369-7443, Read 8609-8640, Write 8361-8377, Close
   8941-8955. *)
Definition reply (E : cenv) (j : job) (type : N) (body : bytes) (c : xfer) : xfer :=
  match x_stage c with
  | GStat =>
      if type =? FTP_ATTRS then
        (* 7778-7788: WS_SUCCESS also when they cannot be parsed *)
        match ParseAttributes body 0 (lenN body) with
        | POk a _ => get_stat j (a_per a) c
        | _ => get_stat j (ce_per E) c
        end
      else if type =? FTP_STATUS then
        match DoStatus body with
        | Some 0 => get_stat j 0 c
        | _ => fail_request E j c
        end
      else fail_request E j c
  | GOpen =>
      if type =? FTP_HANDLE then
        match ParseHandle body with
        | Some h => get_opened E j h c
        | None => fail_request E j c
        end
      else
        match DoStatus body with
        | Some 0 => get_opened E j (repeat 0 256) c      (* handleSz and handle are as set before *)
        | _ => fail_request E j c
        end
  | POpen =>
      if type =? FTP_HANDLE then
        match ParseHandle body with
        | Some h => put_write E j (set_handle h c)
        | None => fail_request E j c
        end
      else
        match DoStatus body with
        | Some 0 => put_write E j (set_handle (repeat 0 256) c)
        | _ => fail_request E j c
        end
  | GRead =>
      match DoStatus body with
      | Some 0 | Some 1 => get_data E j [] c
      | _ => fail_request E j c
      end
  | PWrite =>
      match DoStatus body with
      | Some 0 => put_wrote E j (lenN (x_chunk c)) c
      | _ => fail_request E j c
      end
  | GClose =>
      match DoStatus body with
      | Some 0 => get_close_local E WS_SUCCESS c
      | _ => fail_request E j c
      end
  | PClose =>
      match DoStatus body with
      | Some 0 => finish WS_SUCCESS c
      | _ => fail_request E j c
      end
  end.

(* A header has come: 1030-1060 and what each request does with it. [sz] is an
   int. STAT 7738-7762, Open 7341-7366, 7396-7405, Read 8508-8542, Write
   8306-8345, Close 8923-8939. *)
Definition header (E : cenv) (j : job) (type id sz : N) (c : xfer) : xfer :=
  let ok := (0 <? sz) && (sz <? 2147483648) in
  let mine := id =? x_req c in
  let next := set_req (add32 (x_req c) 1) c in
  let go c := set_wire (WMsg type id sz []) c in
  match x_stage c with
  | GStat => if ok && mine then go next else fail_request E j c
  | GOpen | POpen =>
      if negb ok then fail_request E j c
      else if type =? FTP_HANDLE then if mine then go next else fail_request E j c
      else if type =? FTP_STATUS then go c
      else fail_request E j c
  | GRead =>
      (* 8512-8518: a reply without contents is returned as 0 bytes read *)
      if sz =? 0 then get_data E j [] c
      else if negb ok then fail_request E j c
      else if negb mine then fail_request E j c
      else if type =? FTP_DATA then set_wire WLen next
      else if type =? FTP_STATUS then go next
      else fail_request E j next
  | PWrite =>
      if negb ok then fail_request E j c
      else if negb mine then fail_request E j c
      else if type =? FTP_STATUS then go next
      else fail_request E j next
  | GClose | PClose =>
      if (type =? FTP_STATUS) && ok then go c else fail_request E j c
  end.

(* A request has been sent in full. SendPacketType (STAT, CLOSE) does not look
   at what is queued below; CLOSE looks at ssh->error instead. *)
Definition sent (E : cenv) (j : job) (b : bool) (c : xfer) : xfer :=
  match x_stage c with
  | GStat => set_wire (WHead []) c
  | GClose => if b then get_close_local E WS_FATAL_ERROR c else set_wire (WHead []) c
  | PClose => if b then finish WS_FATAL_ERROR c else set_wire (WHead []) c
  | PWrite => if b then c else set_wire (WBody (x_chunk c) 0) c
  | _ => if b then c else set_wire (WHead []) c
  end.

(* src/wolfsftp.c:551-661, 716-797, 1030-1060, 8278-8301, 8544-8606 *)
Definition step (E : cenv) (j : job) (e : ev) (c : xfer) : xfer :=
  match x_res c with
  | Some _ => c
  | None =>
  match e with
  | EInt => set_int true c
  | EFail => fail_request E j c
  | EStop w => if w then c else notice E j c
  | EMove n b =>
      match x_wire c with
      | WSend m idx =>
          let k := N.min n (lenN m - idx) in
          let c := set_wire (WSend m (idx + k)) (set_out (x_out c ++ takeN k (dropN idx m)) c) in
          if idx + k <? lenN m then c else sent E j b c
      | WBody d idx =>
          let k := N.min n (lenN d - idx) in
          let c := set_wire (WBody d (idx + k)) (set_out (x_out c ++ takeN k (dropN idx d)) c) in
          if idx + k <? lenN d then c else set_wire (WHead []) c
      | WHead got =>
          let k := N.min n (SFTP_HEADER - lenN got) in
          let got := got ++ takeN k (x_in c) in
          let c := set_wire (WHead got) (set_in (dropN k (x_in c)) c) in
          if lenN got <? SFTP_HEADER then c
          else match ato32 got 0, rd got 4, ato32 got 5 with
               | Some len, Some type, Some id => header E j type id (sub32 len 5) c
               | _, _, _ => c
               end
      | WMsg type id sz got =>
          let k := N.min n (sz - lenN got) in
          let got := got ++ takeN k (x_in c) in
          let c := set_wire (WMsg type id sz got) (set_in (dropN k (x_in c)) c) in
          if lenN got <? sz then c else reply E j type got c
      | WLen =>
          (* one wolfSSH_stream_read, whatever it gives *)
          let k := N.min n 4 in
          let d := takeN k (x_in c) in
          let c := set_in (dropN k (x_in c)) c in
          match ato32 (d ++ dropN (lenN d) (ce_junk E)) 0 with
          | Some sz => if (MAX_SFTP_RW <? sz) || (sz =? 0) then fail_request E j c
                       else set_wire (WData sz []) c
          | None => c
          end
      | WData sz got =>
          let k := N.min n (sz - lenN got) in
          let got := got ++ takeN k (x_in c) in
          let c := set_wire (WData sz got) (set_in (dropN k (x_in c)) c) in
          if lenN got <? sz then c else get_data E j got c
      end
  end
  end.

Fixpoint run (E : cenv) (j : job) (es : list ev) (c : xfer) : xfer :=
  match es with
  | [] => c
  | e :: t => run E j t (step E j e c)
  end.

(* A session in which nothing is going on: the next request's number, the
   interrupt flag, the saved offsets, the local file and what the server will
   send. *)
Definition idle (req : N) (int : bool) (tab : list slot) (file input : bytes) : xfer :=
  mkX input [] req int tab file 0 (0, 0) [] [] GStat (WHead []) None.

Definition SFTP_Get (E : cenv) (j : job) (es : list ev) (c : xfer) : xfer := run E j es (get_start j c).
Definition SFTP_Put (E : cenv) (j : job) (es : list ev) (c : xfer) : xfer := run E j es (put_start E j c).
