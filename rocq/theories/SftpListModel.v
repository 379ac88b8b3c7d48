(* SftpListModel.v - listing a directory with the SFTP client of
   src/wolfsftp.c: wolfSSH_SFTP_LS with wolfSSH_SFTP_RealPath, OpenDir,
   GetHandle, ReadDir, Close and the reader of NAME replies. Simplified: the
   session is blocking, so a read waits for all it asks for and fails only when
   nothing more will come; everything sent is taken; no allocation fails; no
   other call is unfinished; ssh->error is left out. *)
From Verif Require Import Base WireModel PathModel SftpModel SftpClientModel.
From Coq Require Import List NArith Bool.
Import ListNotations.
Open Scope N_scope.

(* wolfssh/wolfsftp.h:151-160 WS_SFTPNAME: name, long name, attributes. A list
   that is NULL is []. *)
Notation ent := (bytes * bytes * attrs)%type (only parsing).

(* wolfssh/wolfsftp.h:185-187 WOLFSSH_MAX_SFTP_NAME, 1024 * 1024 *)
Definition MAX_SFTP_NAME : N := 1048576.

(* what the server will still send, what was sent to it, ssh->reqId *)
Record ls := mkLs { l_in : bytes; l_out : bytes; l_id : N }.

(* src/wolfsftp.c:6656-6738 SendPacketType: the number is not advanced here *)
Definition send (type : N) (buf : bytes) (s : ls) : ls :=
  mkLs (l_in s) (l_out s ++ SimpleMsg type (l_id s) buf) (l_id s).

(* src/wolfsftp.c:7136, 7408 ssh->reqId is advanced *)
Definition next_id (s : ls) : ls := mkLs (l_in s) (l_out s) (add32 (l_id s) 1).

(* src/wolfsftp.c:716-797 wolfSSH_SFTP_buffer_read of n bytes *)
Definition take (n : N) (s : ls) : option bytes * ls :=
  if lenN (l_in s) <? n then (None, mkLs [] (l_out s) (l_id s))
  else (Some (takeN n (l_in s)), mkLs (dropN n (l_in s)) (l_out s) (l_id s)).

(* src/wolfsftp.c:1030-1060 SFTP_GetHeader: size, type and number; None also
   when the size is not positive as an int *)
Definition GetHeader (s : ls) : option (N * N * N) * ls :=
  match take SFTP_HEADER s with
  | (None, s) => (None, s)
  | (Some h, s) =>
      match ato32 h 0, rd h 4, ato32 h 5 with
      | Some len, Some type, Some id =>
          let n := sub32 len 5 in
          if (n =? 0) || (2147483648 <=? n) then (None, s) else (Some (n, type, id), s)
      | _, _, _ => (None, s)
      end
  end.

(* src/wolfsftp.c:7200-7266 the loop of wolfSSH_SFTP_DoName; [acc] is n. Each
   round takes at least 12 bytes, so the fuel is never what ends it. *)
Fixpoint name_loop (fuel : nat) (count : N) (buf : bytes) (i : N) (acc : list ent) : pres (list ent) :=
  if count =? 0 then POk acc i
  else match fuel with
  | O => PErr WS_BUFFER_E i
  | S f =>
      pbind (GetRef buf (lenN buf) i) (fun name i =>
      pbind (GetRef buf (lenN buf) i) (fun long i =>
      pbind (ParseAttributes buf i (lenN buf)) (fun a i =>
      name_loop f (count - 1) buf i ((name, long, a) :: acc))))
  end.

(* src/wolfsftp.c:7187-7198, 7267-7281 the contents of a NAME reply *)
Definition ParseNames (buf : bytes) : pres (list ent) :=
  pbind (GetUint32 buf (lenN buf) 0) (fun count i => name_loop (List.length buf) count buf i []).

(* src/wolfsftp.c:7064-7281 wolfSSH_SFTP_DoName. None: a read outside the
   buffer. The number is advanced by a NAME reply only. *)
Definition DoName (s : ls) : option (list ent * ls) :=
  match GetHeader s with
  | (None, s) => Some ([], s)
  | (Some (n, type, id), s) =>
      if MAX_SFTP_NAME <? n then Some ([], s)
      else if negb (id =? l_id s) then Some ([], s)
      else if type =? FTP_NAME then
        match take n (next_id s) with
        | (None, s) => Some ([], s)
        | (Some b, s) =>
            match ParseNames b with
            | POk l _ => Some (l, s)
            | PErr _ _ => Some ([], s)
            | POob => None
            end
        end
      else if type =? FTP_STATUS then Some ([], snd (take n s))
      else Some ([], s)
  end.

(* src/wolfsftp.c:7310-7460 wolfSSH_SFTP_GetHandle with room for
   WOLFSSH_MAX_HANDLE bytes: the handle left in state->handle, which holds zeros
   before (7495), or None for a failure. A STATUS that says OK is a success. *)
Definition GetHandle (s : ls) : option bytes * ls :=
  match GetHeader s with
  | (None, s) => (None, s)
  | (Some (n, type, id), s) =>
      if type =? FTP_HANDLE then
        if negb (id =? l_id s) then (None, s)
        else match take n (next_id s) with
             | (None, s) => (None, s)
             | (Some b, s) => (ParseHandle b, s)
             end
      else if type =? FTP_STATUS then
        match take n s with
        | (None, s) => (None, s)
        | (Some b, s) =>
            match DoStatus b with
            | Some 0 => (Some (repeat 0 (N.to_nat MAX_HANDLE)), s)
            | _ => (None, s)
            end
        end
      else (None, s)
  end.

(* src/wolfsftp.c:8880-8980 wolfSSH_SFTP_Close: whether it succeeded. The
   number of the reply is not looked at. *)
Definition Close (h : bytes) (s : ls) : bool * ls :=
  match GetHeader (send FTP_CLOSE h s) with
  | (None, s) => (false, s)
  | (Some (n, type, _), s) =>
      if negb (type =? FTP_STATUS) then (false, s)
      else match take n s with
           | (None, s) => (false, s)
           | (Some b, s) => (match DoStatus b with Some 0 => true | _ => false end, s)
           end
  end.

(* src/wolfsftp.c:7552-7589 STATE_LS_READDIR with wolfSSH_SFTP_ReadDir
   (8822-8870): any reply without names ends it. A round takes at least the nine
   bytes of a header, so the fuel is never what ends it. *)
Fixpoint read_loop (fuel : nat) (h : bytes) (acc : list ent) (s : ls) : option (list ent * ls) :=
  match fuel with
  | O => Some (acc, s)
  | S f =>
      match DoName (send FTP_READDIR h s) with
      | None => None
      | Some ([], s) => Some (acc, s)
      | Some (l, s) => read_loop f h (acc ++ l) s
      end
  end.

(* src/wolfsftp.c:7481-7613 wolfSSH_SFTP_LS; RealPath 9130-9165, OpenDir
   9173-9180, which refuses a NULL name *)
Definition SFTP_LS (dir : bytes) (s : ls) : option (list ent * ls) :=
  match DoName (send FTP_REALPATH dir s) with
  | None => None
  | Some ([], s) => Some ([], s)
  | Some ((path, _, _) :: _, s) =>
      if lenN path =? 0 then Some ([], s)
      else match GetHandle (send FTP_OPENDIR path s) with
           | (None, s) => Some ([], s)
           | (Some h, s) =>
               match read_loop (S (List.length (l_in s))) h [] s with
               | None => None
               | Some (l, s) =>
                   match Close h s with
                   | (true, s) => Some (l, s)
                   | (false, s) => Some ([], s)
                   end
               end
           end
  end.
