(* OsshSpec.v - OpenSSH user certificates as OpenSSH's PROTOCOL.certkeys
   describes them; vocabulary of C80 and C81. Only the data types of the model
   (what the callback is shown, the verification oracles) are used. *)
From Verif Require Import Base WireSpec NegoSpec AuthModel AuthSpec OsshModel.
From Coq Require Import List NArith String.
Import ListNotations.
Open Scope N_scope.
Local Notation "a ++ b" := (@app _ a b) : list_scope.

(* RFC 4251: uint32, uint64, string *)
Definition be32 (v : N) : bytes :=
  [v / 16777216 mod 256; v / 65536 mod 256; v / 256 mod 256; v mod 256].
Definition be64 (v : N) : bytes := be32 (v / W32) ++ be32 (v mod W32).
Definition str (s : bytes) : bytes := be32 (lenN s) ++ s.
Definition strs (l : list bytes) : bytes := List.concat (map str l).

(* the contents of the mpint of a number that is not negative *)
Definition not_negative (b : bytes) : Prop := match b with [] => True | x :: _ => x < 128 end.

(* The certificate types and the key each certifies. The last two names are
   used for certificates of RSA keys in negotiation. *)
Definition cert_types : list (string * string) :=
  [("ssh-rsa-cert-v01@openssh.com", "ssh-rsa");
   ("ecdsa-sha2-nistp256-cert-v01@openssh.com", "ecdsa-sha2-nistp256");
   ("ecdsa-sha2-nistp384-cert-v01@openssh.com", "ecdsa-sha2-nistp384");
   ("ecdsa-sha2-nistp521-cert-v01@openssh.com", "ecdsa-sha2-nistp521");
   ("ssh-ed25519-cert-v01@openssh.com", "ssh-ed25519");
   ("rsa-sha2-256-cert-v01@openssh.com", "ssh-rsa");
   ("rsa-sha2-512-cert-v01@openssh.com", "ssh-rsa")]%string.

(* the fields of a public key after its type: RSA e and n, ECDSA curve and
   point, Ed25519 point *)
Definition key_fields (type : string) (k : list bytes) : Prop :=
  (type = "ssh-rsa"%string /\ exists e n, k = [e; n] /\ not_negative e /\ not_negative n) \/
  (In type ["ecdsa-sha2-nistp256"; "ecdsa-sha2-nistp384"; "ecdsa-sha2-nistp521"]%string /\
     exists curve q, k = [curve; q]) \/
  (type = "ssh-ed25519"%string /\ exists q, k = [q]).

(* A certificate. Principals, options and the authority's key are the contents
   of their strings. *)
Record certificate := Certificate {
  c_name : string; c_nonce : bytes; c_key : list bytes; c_serial : N; c_kind : N; c_id : bytes;
  c_principals : bytes; c_after : N; c_before : N; c_critical : bytes; c_extensions : bytes;
  c_reserved : bytes; c_authority : bytes; c_signature : bytes }.

(* what the authority signs, and the whole *)
Definition signed_part (c : certificate) : bytes :=
  str (ascii (c_name c)) ++ str (c_nonce c) ++ strs (c_key c) ++ be64 (c_serial c) ++ be32 (c_kind c)
  ++ str (c_id c) ++ str (c_principals c) ++ be64 (c_after c) ++ be64 (c_before c)
  ++ str (c_critical c) ++ str (c_extensions c) ++ str (c_reserved c) ++ str (c_authority c).
Definition cert_bytes (c : certificate) : bytes := signed_part c ++ str (c_signature c).

(* [c] is a certificate for a key of that type; its numbers fit their fields *)
Definition certifies (c : certificate) (type : string) : Prop :=
  In (c_name c, type) cert_types /\ key_fields type (c_key c) /\
  c_serial c < W32 * W32 /\ c_kind c < W32 /\ c_after c < W32 * W32 /\ c_before c < W32 * W32.

(* The signature [sig] over [msg] by the holder of the key [ca]. What is left
   open (t, r1, r2, r3) the server does not look at. *)
Inductive vouches (x : ca_crypto) (ca sig msg : bytes) : Prop :=
| vouch_ed : forall q t s r1 r2,
    ca = strs [ascii "ssh-ed25519"; q] ++ r1 -> sig = strs [t; s] ++ r2 ->
    ca_ed x q msg s = true -> vouches x ca sig msg
| vouch_rsa : forall name h e n s r1 r2,
    In (name, h) [("rsa-sha2-256", SHA256); ("rsa-sha2-512", SHA512)]%string ->
    ca = strs [ascii "ssh-rsa"; e; n] ++ r1 -> not_negative e -> not_negative n ->
    sig = strs [ascii name; s] ++ r2 ->
    ca_rsa x h n e msg s = true -> vouches x ca sig msg
| vouch_ecc : forall name curve bits h q t r s r1 r2 r3,
    In (name, (curve, bits, h)) ecdsa_algos ->
    ca = strs [ascii name; ascii curve; q] ++ r1 ->
    sig = strs [t; strs [r; s] ++ r3] ++ r2 -> not_negative r -> not_negative s ->
    ca_ecc x h q msg r s = true -> vouches x ca sig msg.

(* an option whose value is a string; nothing when it is absent *)
Definition option_field (name : string) (v : bytes) : bytes :=
  match v with [] => [] | _ => str (ascii name) ++ str (str v) end.

(* any list of options *)
Definition options (l : list (bytes * bytes)) : bytes :=
  List.concat (map (fun o => str (fst o) ++ str (snd o)) l).

(* C80: the certificate [c] for a key of type [type] is acceptable, restricted
   to [command] and [source] ([]: not restricted). *)
Definition acceptable (x : ca_crypto) (c : certificate) (type : string) (command source : bytes) : Prop :=
  certifies c type /\ c_kind c = 1 /\
  vouches x (c_authority c) (c_signature c) (signed_part c) /\
  c_critical c = option_field "force-command" command ++ option_field "source-address" source /\
  (exists l, c_extensions c = options l).

(* what the application is shown *)
Definition shown (c : certificate) (type : string) (command source : bytes) (o : offer) : Prop :=
  o_key o = strs (ascii type :: c_key c) /\ o_ca o = c_authority c /\ o_principals o = c_principals c /\
  o_after o = c_after c /\ o_before o = c_before c /\ o_command o = command /\ o_source o = source.

(* C81: signature algorithms of a key *)
Definition signs_with (type algo : string) : Prop :=
  if string_dec type "ssh-rsa" then In algo ["rsa-sha2-256"; "rsa-sha2-512"]%string else algo = type.
