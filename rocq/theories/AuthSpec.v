(* AuthSpec.v - user authentication as RFC 4252, 4253 (6.6), 4256, 5656 and
   8709 describe it; vocabulary of C09-C11. Messages are written as
   concatenations of fields, signatures by algorithm name. Only the data types
   of the model (credentials, events, verifier oracles) are used. *)
From Verif Require Import Base WireSpec NegoSpec AuthModel.
From Coq Require Import List NArith String.
Import ListNotations.
Open Scope N_scope.
Local Notation "a ++ b" := (@app _ a b) : list_scope.

(* [is_str f s]: the bytes f are the string field with contents s *)
Definition is_str (f s : bytes) : Prop :=
  exists l, f = l ++ s /\ lenN l = 4 /\ be_value l = lenN s /\ bytes_ok l.

(* a sequence of string fields *)
Definition is_strs (fs : bytes) (ss : list bytes) : Prop :=
  exists parts, fs = List.concat parts /\ Forall2 is_str parts ss.

(* the USERAUTH_REQUEST payload up to the method's own fields *)
Definition request_head (h user : bytes) (method : string) : Prop :=
  is_strs h [user; ascii "ssh-connection"; ascii method].

(* RFC 4252 8: password request, no change *)
Definition password_request (m user pw : bytes) : Prop :=
  exists h p rest, m = h ++ [0] ++ p ++ rest /\ request_head h user "password" /\ is_str p pw.

(* RFC 4252 7: public key request with a signature. [body] is everything up
   to the signature. *)
Definition key_request (m user : bytes) (flag : N) (algo blob sig body rest : bytes) : Prop :=
  exists h ab sg, body = h ++ [flag] ++ ab /\ m = body ++ sg ++ rest /\
    request_head h user "publickey" /\ flag <> 0 /\ is_strs ab [algo; blob] /\ is_str sg sig.

(* the same without one: a query *)
Definition key_query (m user algo blob : bytes) : Prop :=
  exists h ab rest, m = h ++ [0] ++ ab ++ rest /\ request_head h user "publickey" /\ is_strs ab [algo; blob].

Definition none_request (m user : bytes) : Prop :=
  exists h rest, m = h ++ rest /\ request_head h user "none".

(* RFC 4256 3.4 *)
Definition info_response (m : bytes) (rs : list bytes) : Prop :=
  exists cnt fs rest, m = cnt ++ fs ++ rest /\ lenN cnt = 4 /\ be_value cnt = lenN rs /\ is_strs fs rs.

(* RFC 4252 7: what is signed: the session identifier and the request. The
   server also takes in [extra] bytes when bytes follow the signature. *)
Definition signed_message (sid body extra msg : bytes) : Prop :=
  exists s, is_str s sid /\ msg = s ++ [50] ++ body ++ extra.

(* signature algorithms by name *)
Definition rsa_algos : list (string * hash) :=
  [("ssh-rsa", SHA1); ("rsa-sha2-256", SHA256); ("rsa-sha2-512", SHA512)]%string.
Definition ecdsa_algos : list (string * (string * N * hash)) :=
  [("ecdsa-sha2-nistp256", ("nistp256", 256, SHA256)); ("ecdsa-sha2-nistp384", ("nistp384", 384, SHA384));
   ("ecdsa-sha2-nistp521", ("nistp521", 521, SHA512))]%string.
Definition mldsa_algos : list string :=
  ["ssh-mldsa-44"; "ssh-mldsa-65"; "ssh-mldsa-87"; "ssh-mldsa44-es256@wolfssl.com";
   "ssh-mldsa65-es256@wolfssl.com"; "ssh-mldsa87-es384@wolfssl.com"; "ssh-mldsa44-ed25519@openssh.com";
   "ssh-mldsa65-ed25519@wolfssl.com"; "ssh-mldsa87-ed448@wolfssl.com"]%string.

(* the signature field [sig] over [msg] verifies under the key in [blob] *)
Inductive verifies (x : crypto) (algo blob sig msg : bytes) : Prop :=
| ver_ed : forall q s b r1 t r2,
    algo = ascii "ssh-ed25519" ->
    blob = b ++ r1 -> is_strs b [algo; q] ->
    sig = t ++ r2 -> is_strs t [algo; s] ->
    v_ed x q msg s = true -> verifies x algo blob sig msg
| ver_rsa : forall name h e n s b r1 t r2,
    In (name, h) rsa_algos -> algo = ascii name ->
    blob = b ++ r1 -> is_strs b [ascii "ssh-rsa"; e; n] ->
    2 ^ 2047 <= be_value n ->
    sig = t ++ r2 -> is_strs t [algo; s] ->
    v_rsa x h n e msg s = true -> verifies x algo blob sig msg
| ver_ecc : forall name curve bits h q r s b r1 t sz rs r2,
    In (name, (curve, bits, h)) ecdsa_algos -> algo = ascii name ->
    blob = b ++ r1 -> is_strs b [algo; ascii curve; q] ->
    sig = t ++ sz ++ rs ++ r2 -> is_str t algo -> lenN sz = 4 -> is_strs rs [r; s] ->
    v_ecc x bits h q msg r s = true -> verifies x algo blob sig msg
| ver_mldsa : forall name,
    In name mldsa_algos -> algo = ascii name ->
    v_other x algo blob msg sig = true -> verifies x algo blob sig msg.

(* C09: what must have happened for [user] to be authenticated by message m
   with credential c, session identifier sid *)
Inductive legitimate (x : crypto) (sid : bytes) (bound : option bytes) (user : bytes) : amsg -> cred -> Prop :=
| leg_password : forall m pw, password_request m user pw ->
    legitimate x sid bound user (MRequest m) (CrPassword pw)
| leg_none : forall m, none_request m user ->
    legitimate x sid bound user (MRequest m) CrNone
| leg_key : forall m flag algo blob sig body rest extra msg,
    key_request m user flag algo blob sig body rest ->
    lenN extra = lenN rest -> signed_message sid body extra msg ->
    verifies x algo blob sig msg ->
    legitimate x sid bound user (MRequest m) (CrKey flag algo blob sig)
| leg_keyboard : forall m rs, info_response m rs -> bound = Some user ->
    legitimate x sid bound user (MInfoResponse m) (CrKbResponse rs).

(* what the callback may be asked about while message m is handled *)
Inductive presents (bound : option bytes) (user : bytes) : amsg -> cred -> Prop :=
| pres_password : forall m pw, password_request m user pw -> presents bound user (MRequest m) (CrPassword pw)
| pres_none : forall m, none_request m user -> presents bound user (MRequest m) CrNone
| pres_query : forall m algo blob, key_query m user algo blob -> presents bound user (MRequest m) (CrKey 0 algo blob [])
| pres_key : forall m flag algo blob sig body rest, key_request m user flag algo blob sig body rest ->
    presents bound user (MRequest m) (CrKey flag algo blob sig)
| pres_setup : forall m h rest, m = h ++ rest -> request_head h user "keyboard-interactive" ->
    presents bound user (MRequest m) CrKbSetup
| pres_again : forall m, bound = Some user -> presents bound user (MInfoResponse m) CrKbSetup
| pres_response : forall m rs, info_response m rs -> bound = Some user ->
    presents bound user (MInfoResponse m) (CrKbResponse rs).

(* counting events *)
Definition countP {A} (p : A -> bool) (l : list A) : N := lenN (filter p l).
Definition is_failure (e : event) : bool := match e with EFailure _ => true | _ => false end.
(* the client was asked to answer prompts *)
Definition is_prompt (e : event) : bool := match e with EInfoRequest _ => true | _ => false end.
(* the callback was asked to judge a credential and did not accept it *)
Definition is_refusal (e : event) : bool :=
  match e with
  | ECallback _ _ CbFailure | ECallback _ _ CbRejected => true
  | ECallback _ (CrKbSetup) (CbPartial | CbAnother) => true
  | ECallback _ (CrPassword _) (CbPartial | CbAnother) => true
  | ECallback _ CrNone (CbPartial | CbAnother) => true
  | ECallback _ (CrKbResponse _) CbPartial => true
  | ECallback _ (CrKey _ _ _ _) CbAnother => true
  | _ => false
  end.
(* the number of prompts in the last prompt message, d before any *)
Definition last_prompt (d : N) (l : list event) : N :=
  fold_left (fun n e => match e with EInfoRequest k => k | _ => n end) l d.
(* whom an event is about *)
Definition event_user (e : event) : option bytes :=
  match e with ECallback u _ _ | EGranted u _ => Some u | _ => None end.

(* After which return codes the application keeps calling
   (wolfSSH_accept, src/ssh.c 566-574: any other code ends the connection). *)
Definition goes_on (r : rc) : bool :=
  match r with WS_SUCCESS | WS_WANT_READ | WS_WANT_WRITE | WS_AUTH_PENDING => true | _ => false end.

(* A connection: messages with the environment's answers, handled one after
   the other until one ends it. None is a read outside a message. *)
Fixpoint run (c : acfg) (x : crypto) (s : auth) (h : list (amsg * answers)) (last : rc) : option (auth * rc) :=
  match h with
  | [] => Some (s, last)
  | (m, an) :: t =>
      match auth_step c x m an s with
      | HOob => None
      | HR s' r _ => if goes_on r then run c x s' t r else Some (s', r)
      end
  end.

(* every message is made of bytes and shorter than 2^32 *)
Definition msg_bytes (m : amsg) : bytes := match m with MRequest b | MInfoResponse b => b end.
Definition wf_msg (m : amsg) : Prop := bytes_ok (msg_bytes m) /\ is32 (lenN (msg_bytes m)).
Definition wf_history (h : list (amsg * answers)) : Prop := Forall (fun p => wf_msg (fst p)) h.
