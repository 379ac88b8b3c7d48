(* SshdKeysSpec.v - what the key files, key file paths, certificate
   restrictions and user names in certificates mean. *)
From Coq Require Import List NArith ZArith Lia Bool String.
From Verif Require Import Base WireSpec KexSpec NegoSpec SshdConfModel SshdConfSpec SshdKeysModel.
Import ListNotations.
Open Scope N_scope.

(* The parts of a text between bytes that satisfy p. *)
Fixpoint splits (p : N -> bool) (l : bytes) : list bytes :=
  match l with
  | [] => [[]]
  | c :: t => if p c then [] :: splits p t else match splits p t with [] => [[c]] | w :: ws => (c :: w) :: ws end
  end.
Definition nonempty (w : bytes) : bool := match w with [] => false | _ => true end.

(* ---- authorized_keys ------------------------------------------------- *)

(* The fields of a line, separated by one or more blanks. *)
Definition fields (l : bytes) : list bytes := filter nonempty (splits (N.eqb 32) l).
(* The key types a line may name. *)
Definition key_types : list bytes :=
  map ascii
    [ "ssh-rsa"; "rsa-sha2-256"; "rsa-sha2-512"; "ecdsa-sha2-nistp256"; "ecdsa-sha2-nistp384"; "ecdsa-sha2-nistp521";
      "ssh-ed25519"; "ssh-mldsa-44"; "ssh-mldsa44-es256@wolfssl.com"; "ssh-mldsa65-es256@wolfssl.com";
      "ssh-mldsa87-es384@wolfssl.com"; "ssh-mldsa44-ed25519@openssh.com"; "ssh-mldsa65-ed25519@wolfssl.com";
      "ssh-mldsa87-ed448@wolfssl.com"; "ssh-mldsa-65"; "ssh-mldsa-87"; "x509v3-ssh-mldsa-44"; "x509v3-ssh-mldsa-65";
      "x509v3-ssh-mldsa-87"; "x509v3-ssh-rsa"; "x509v3-ecdsa-sha2-nistp256"; "x509v3-ecdsa-sha2-nistp384";
      "x509v3-ecdsa-sha2-nistp521" ]%string.
Definition is_comment (l : bytes) : Prop := exists w ws, fields l = (35 :: w) :: ws.
(* A line that lists a key: a known type and the key in base 64; anything
   after that is a comment. *)
Definition lists (b64 : bytes -> option bytes) (l key : bytes) : Prop :=
  ~ is_comment l /\ exists ty t ws, fields l = ty :: t :: ws /\ In ty key_types /\ b64 t = Some key.
(* A line the daemon can read: blank, a comment, a type it does not know with
   something after it, or a known type with base 64 after it. *)
Definition readable (b64 : bytes -> option bytes) (l : bytes) : Prop :=
  fields l = [] \/ is_comment l \/
  (exists ty t ws, fields l = ty :: t :: ws /\ (In ty key_types -> b64 t <> None)) \/
  (* a type followed by blanks only has an empty key *)
  (exists ty l', fields l = [ty] /\ l = l' ++ [32] /\ (In ty key_types -> b64 [] <> None)).
(* Base 64 may be followed by a newline; no text is no key. *)
Definition decoder (b64 : bytes -> option bytes) : Prop :=
  (forall t, b64 (t ++ [10]) = b64 t) /\ (forall k, b64 [] = Some k -> k = []).

(* ---- the path of the authorized_keys file ---------------------------- *)

Inductive piece : Type := PChar (c : N) | PHome | PUser.
(* How a piece is written in AuthorizedKeysFile, and what it stands for. *)
Definition written (p : piece) : bytes :=
  match p with PChar c => if c =? 37 then ascii "%%" else [c] | PHome => ascii "%h" | PUser => ascii "%u" end.
Definition stands_for (home user : bytes) (p : piece) : bytes :=
  match p with PChar c => [c] | PHome => home | PUser => user end.
Definition pattern_of (ps : list piece) : bytes := List.concat (map written ps).
Definition value_of (home user : bytes) (ps : list piece) : bytes := List.concat (map (stands_for home user) ps).
(* The file a pattern names: as it is if it begins with a slash, otherwise
   under the home directory; None if its name takes 80 bytes or more. *)
Definition named_file (home value : bytes) : option bytes :=
  let f := match value with 47 :: _ => value | _ => home ++ 47 :: value end in
  if lenN f <? 80 then Some f else None.

(* ---- opening a trusted file ------------------------------------------ *)

(* An absolute path from its components, and the directories above it. *)
Definition path_of (cs : list bytes) : bytes := List.concat (map (cons 47) cs).
Definition canonical (p : bytes) : Prop :=
  exists cs, cs <> [] /\ Forall (fun c => c <> [] /\ ~ In 47 c) cs /\ p = path_of cs.
Definition above (d p : bytes) : Prop :=
  exists cs, Forall (fun c => c <> [] /\ ~ In 47 c) cs /\ p = path_of cs /\
  exists up down, cs = up ++ down /\ down <> [] /\ d = match up with [] => [47] | _ => path_of up end.
(* The permission bits of a mode. *)
Definition others_write (m : N) : Prop := N.testbit m 4 = true \/ N.testbit m 1 = true.
Definition others_read (m : N) : Prop := N.testbit m 5 = true \/ N.testbit m 2 = true.
Definition sticky (m : N) : Prop := N.testbit m 9 = true.

(* ---- restrictions of an OpenSSH certificate -------------------------- *)

(* The principals of a certificate, each a string with its length. *)
Definition principals (names : list bytes) : bytes := List.concat (map str names).

(* The network of the first [bits] bits of an address. *)
Definition network (a : bytes) (bits : N) : N := be_value a / 2 ^ (8 * lenN a - bits).
(* An entry of a source-address list: an address and the bits of it that
   count, all of them if no number follows it. *)
Definition cidr (pton4 pton6 : bytes -> option bytes) (e : bytes) (a : bytes) (bits : N) : Prop :=
  lenN e < 80 /\ hd 0 e <> 33 /\
  exists host, ~ In 47 host /\
    (pton4 host = Some a \/ pton4 host = None /\ pton6 host = Some a) /\
    (e = host /\ e <> [] /\ bits = 8 * lenN a \/
     exists ds, e = host ++ 47 :: ds /\ decimal ds = Some bits /\ bits <= 8 * lenN a).
Definition mapped : bytes := [0; 0; 0; 0; 0; 0; 0; 0; 0; 0; 255; 255].
(* The address of a peer; an IPv4 address written as an IPv6 one is IPv4. *)
Definition address (pton4 pton6 : bytes -> option bytes) (ip : bytes) (a : bytes) : Prop :=
  pton4 ip = Some a \/
  pton4 ip = None /\ (pton6 ip = Some (mapped ++ a) \/ pton6 ip = Some a /\ forall v4, a <> mapped ++ v4).
Definition permitted (pton4 pton6 : bytes -> option bytes) (es : list bytes) (ip : bytes) : Prop :=
  exists peer, address pton4 pton6 ip peer /\
  (forall e, In e es -> exists a bits, cidr pton4 pton6 e a bits) /\
  exists e a bits, In e es /\ cidr pton4 pton6 e a bits /\ lenN a = lenN peer /\ network a bits = network peer bits.
(* inet_pton gives 4 or 16 bytes, and nothing for an empty text. *)
Definition resolver (pton4 pton6 : bytes -> option bytes) : Prop :=
  pton4 [] = None /\ pton6 [] = None /\
  (forall s a, pton4 s = Some a -> lenN a = 4 /\ bytes_ok a) /\
  (forall s a, pton6 s = Some a -> lenN a = 16 /\ bytes_ok a).

(* ---- the user name in an X.509 certificate ---------------------------- *)

Definition realms (l : bytes) : list bytes :=
  filter nonempty (splits (fun c => existsb (N.eqb c) [32; 9; 13; 10; 44]) l).
Definition up_case (c : N) : N := if (97 <=? c) && (c <=? 122) then c - 32 else c.
Definition same_text (a b : bytes) : Prop := map up_case a = map up_case b.
(* A certificate name user@domain, or user alone. *)
Definition upn_names (upn usr : bytes) (domain : option bytes) : Prop :=
  ~ In 64 usr /\ upn = match domain with None => usr | Some d => usr ++ 64 :: d end.
