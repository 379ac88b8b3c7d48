(* SftpListProps.v - C91 and C92: listing a directory with the SFTP client.
   [mkLs input sent id] is a session with the next request's number, what the
   server will still send and what was sent to it; [] is the NULL list. *)
From Verif Require Import Base WireSpec NegoSpec ReqSpec OsshSpec OsshProofs SftpModel SftpSpec SftpProofs7 SftpClientModel SftpClientSpec SftpClientProofs
  SftpListModel SftpListSpec SftpListProofs SftpListProofs2.
From Coq Require Import List NArith Lia.
Import ListNotations.
Open Scope N_scope.
Local Notation str := OsshSpec.str.

(* C91: when the server does its part the list has every entry of every batch
   and nothing else, each batch from its last entry to its first; exactly the
   replies are taken from the session and exactly these requests were sent. *)
Theorem C91_served : forall id dir path h ess code ms rest sent,
  id < W32 -> lenN dir < 2147483648 -> path <> [] -> served id path h ess code ms ->
  exists qs, asked id dir path h (lenN ess) qs /\
    SFTP_LS dir (mkLs (wires ms ++ rest) sent id) =
    Some (List.concat (map (@rev entry) ess), mkLs rest (sent ++ wires qs) (up id (2 + lenN ess))).
Proof. exact listing. Qed.

(* C91: whatever the server sends, a list that is returned has exactly the
   entries of NAME messages it sent one after the other in answer to these
   requests, and the name was resolved, the directory opened and closed. *)
Theorem C91_listed : forall dir input sent id l s', bytes_ok input -> id < W32 ->
  SFTP_LS dir (mkLs input sent id) = Some (l, s') -> l <> [] ->
  exists es0 m0 m1 id2 ess bs x m3,
    names id es0 m0 /\ opened (up id 1) m1 id2 /\ batches id2 ess bs /\ success m3 /\
    l = List.concat (map (@rev entry) ess) /\
    input = wire m0 ++ wire m1 ++ wires bs ++ x ++ wire m3 ++ l_in s'.
Proof.
  intros dir input sent id l s' Hb Hi R N. pose proof (listed dir (mkLs input sent id) (conj Hb Hi)) as P.
  rewrite R in P. exact (P N).
Qed.

(* C91: nothing outside a reply is read, whatever the server sends. *)
Theorem C91_safe : forall dir input sent id, bytes_ok input -> id < W32 ->
  SFTP_LS dir (mkLs input sent id) <> None.
Proof.
  intros dir input sent id Hb Hi R. pose proof (listed dir (mkLs input sent id) (conj Hb Hi)) as P.
  rewrite R in P. exact P.
Qed.

(* C91: the names the server of this library sends (C55) are such a message. *)
Theorem C91_server : forall id es b, name_msg id es b -> bytes_ok b -> id < W32 -> lenN b <= 1048585 ->
  exists m, wire m = b /\ names id es m.
Proof. exact server_names. Qed.

(* C92: a list is returned only when the server has said that there are no more
   entries (status 1). It is not so: *)
Definition C92_full : Prop := forall id dir path h ess code ms sent l s',
  id < W32 -> lenN dir < 2147483648 -> path <> [] -> served id path h ess code ms ->
  SFTP_LS dir (mkLs (wires ms) sent id) = Some (l, s') -> l <> [] -> code = 1.

(* What holds: a connection lost before the end gives no list. *)
Theorem C92_partial : forall id dir path h ess code ms input lost sent,
  id < W32 -> lenN dir < 2147483648 -> path <> [] -> served id path h ess code ms ->
  wires ms = input ++ lost -> lost <> [] ->
  exists s', SFTP_LS dir (mkLs input sent id) = Some ([], s').
Proof. exact listing_cut. Qed.

(* ---- a directory with three entries, sent as two and one ----------------- *)

Definition ent_bytes (n : N) : bytes := str [n] ++ str [n; n] ++ be32 0.
Definition ent_of (n : N) : entry := ([n], [n; n], no_attrs).
Definition name_reply (id : N) (ns : list N) : msg := Msg 104 id (be32 (lenN ns) ++ List.concat (map ent_bytes ns)).
Definition status_reply (id code : N) : msg := Msg 101 id (be32 code ++ str [111; 107] ++ str [101; 110]).
Definition a_handle : bytes := [0; 0; 0; 0; 0; 0; 0; 5].
Definition some_replies (code : N) : list msg :=
  [name_reply 7 [47]; Msg 102 8 (str a_handle); name_reply 9 [97; 98]; name_reply 10 [99]; status_reply 11 code; status_reply 11 0].

Lemma u32_be32 : forall n, n < W32 -> u32 n (be32 n).
Proof.
  intros n H. split; [reflexivity|]. unfold be32, be_value, W32 in *. cbn. lia.
Qed.
Lemma str_rel : forall s, lenN s < W32 -> ReqSpec.str s (str s).
Proof. intros s H. exists (be32 (lenN s)). split; [apply u32_be32; exact H|reflexivity]. Qed.
Lemma ent_wire : forall n, name_wire (ent_of n) (ent_bytes n).
Proof.
  intros n. exists (str [n]), (str [n; n]), (be32 0). split; [apply str_rel; reflexivity|]. split; [apply str_rel; reflexivity|].
  split; [exact (proj1 none_wire)|reflexivity].
Qed.
Lemma ok_bytes : forall b, forallb (fun x => x <? 256) b = true -> bytes_ok b.
Proof. intros b H. apply Forall_forall. intros x X. apply (proj1 (forallb_forall _ b) H) in X. apply N.ltb_lt. exact X. Qed.
Lemma ents_wire : forall ns, Forall2 name_wire (map ent_of ns) (map ent_bytes ns).
Proof. induction ns as [|n ns IH]; [constructor|]. constructor; [apply ent_wire|exact IH]. Qed.

Lemma reply_names : forall id ns, id < W32 -> bytes_ok (m_body (name_reply id ns)) -> lenN (m_body (name_reply id ns)) <= 1048576 ->
  lenN ns < W32 -> names id (map ent_of ns) (name_reply id ns).
Proof.
  intros id ns Hi Hb Hl Hn. split.
  { split; [cbn; lia|]. split; [exact Hi|]. split; [exact Hb|]. split; [|lia].
    unfold name_reply. cbn [m_body]. rewrite lenN_app, lenN_be32. lia. }
  split; [reflexivity|]. split; [reflexivity|]. split; [exact Hl|].
  exists (be32 (lenN ns)), (map ent_bytes ns), []. split; [unfold lenN in *; rewrite map_length; apply u32_be32; exact Hn|].
  split; [apply ents_wire|]. rewrite app_nil_r. reflexivity.
Qed.
Lemma reply_status : forall id code, id < W32 -> code < W32 -> bytes_ok (m_body (status_reply id code)) -> status_of code (status_reply id code).
Proof.
  intros id code Hi Hc Hb. split; [split; [cbn; lia|]; split; [exact Hi|]; split; [exact Hb|]; cbn; lia|].
  split; [reflexivity|]. split; [exact Hc|]. exists [111; 107], [101; 110]. reflexivity.
Qed.

Ltac bytes_by := apply ok_bytes; vm_compute; reflexivity.
Lemma some_served : forall code, code = 1 \/ code = 4 ->
  served 7 [47] a_handle [map ent_of [97; 98]; map ent_of [99]] code (some_replies code).
Proof.
  intros code C. exists [47; 47], no_attrs, (name_reply 7 [47]), (Msg 102 8 (str a_handle)), [name_reply 9 [97; 98]; name_reply 10 [99]],
    (status_reply 11 code), (status_reply 11 0).
  split; [apply (reply_names 7 [47]); [reflexivity|bytes_by|vm_compute; discriminate|reflexivity]|].
  split.
  { split; [split; [reflexivity|]; split; [reflexivity|]; split; [bytes_by|vm_compute; split; reflexivity]|].
    split; [reflexivity|]. split; [reflexivity|]. split; [vm_compute; discriminate|reflexivity]. }
  split.
  { constructor; [discriminate|apply (reply_names 9); [reflexivity|bytes_by|vm_compute; discriminate|reflexivity]|].
    constructor; [discriminate|apply (reply_names 10); [reflexivity|bytes_by|vm_compute; discriminate|reflexivity]|constructor]. }
  split; [apply reply_status; [reflexivity| |]; destruct C as [-> | ->]; [reflexivity|reflexivity|bytes_by|bytes_by]|].
  split; [reflexivity|]. split; [destruct C as [-> | ->]; vm_compute; discriminate|].
  split; [apply reply_status; [reflexivity|reflexivity|bytes_by]|reflexivity].
Qed.

Example C91_met : SFTP_LS [46] (mkLs (wires (some_replies 1) ++ [1; 2; 3]) [] 7) =
  Some ([ent_of 98; ent_of 97; ent_of 99],
        mkLs [1; 2; 3] (wires [Msg 16 7 (str [46]); Msg 11 8 (str [47]); Msg 12 9 (str a_handle); Msg 12 10 (str a_handle);
                               Msg 12 11 (str a_handle); Msg 4 11 (str a_handle)]) 11).
Proof. vm_compute. reflexivity. Qed.

(* an empty directory and a failure look the same *)
Example C91_empty : SFTP_LS [46] (mkLs (wires [name_reply 7 [47]; Msg 102 8 (str a_handle); status_reply 9 1; status_reply 9 0]) [] 7) =
  Some ([], mkLs [] (wires [Msg 16 7 (str [46]); Msg 11 8 (str [47]); Msg 12 9 (str a_handle); Msg 4 9 (str a_handle)]) 9).
Proof. vm_compute. reflexivity. Qed.

(* the server fails (status 4) after three entries *)
Theorem C92_refuted : ~ C92_full.
Proof.
  intros H. assert (E : exists s', SFTP_LS [46] (mkLs (wires (some_replies 4)) [] 7) = Some ([ent_of 98; ent_of 97; ent_of 99], s'))
    by (eexists; vm_compute; reflexivity).
  destruct E as (s' & E).
  specialize (H 7 [46] [47] a_handle _ 4 (some_replies 4) [] _ s' eq_refl eq_refl ltac:(discriminate) (some_served 4 (or_intror eq_refl)) E).
  specialize (H ltac:(discriminate)). discriminate H.
Qed.

Example C92_met : exists s', SFTP_LS [46] (mkLs (takeN 120 (wires (some_replies 1))) [] 7) = Some ([], s') /\ lenN (wires (some_replies 1)) = 170.
Proof. eexists. split; vm_compute; reflexivity. Qed.

Print Assumptions C91_served.
Print Assumptions C91_listed.
Print Assumptions C91_safe.
Print Assumptions C91_server.
Print Assumptions C92_partial.
Print Assumptions C92_refuted.
