(* AuthKeysSpec.v - good signatures by kind of key, after RFC 8332, 5656 and
   8709; vocabulary of C09_key_accepted and C87_key. *)
From Verif Require Import Base WireSpec NegoSpec AuthModel AuthSpec ClientAuthModel ClientAuthSpec.
From Coq Require Import List NArith String.
Import ListNotations.
Open Scope N_scope.
Local Notation "a ++ b" := (@app _ a b) : list_scope.

(* a number of an mpint field that is not negative *)
Definition nonneg (f : bytes) : Prop := match f with y :: _ => y < 128 | [] => True end.

(* The key blob and the signature field are exactly what the RFCs say for the
   algorithm, and the verifier accepts the signature over msg. [verifies] in
   AuthSpec is the weaker relation with trailing bytes. *)
Inductive well_signed (x : crypto) (algo blob sig msg : bytes) : Prop :=
| ws_ed : forall q s, algo = ascii "ssh-ed25519" -> is_strs blob [algo; q] -> is_strs sig [algo; s] ->
    v_ed x q msg s = true -> well_signed x algo blob sig msg
| ws_rsa : forall name h e n s, In (name, h) rsa_algos -> algo = ascii name ->
    is_strs blob [ascii "ssh-rsa"; e; n] -> nonneg e -> nonneg n -> 2 ^ 2047 <= be_value n ->
    is_strs sig [algo; s] -> v_rsa x h n e msg s = true -> well_signed x algo blob sig msg
| ws_ecc : forall name curve bits h q f r s, In (name, (curve, bits, h)) ecdsa_algos -> algo = ascii name ->
    is_strs blob [algo; ascii curve; q] -> is_strs sig [algo; f] -> is_strs f [r; s] ->
    v_ecc x bits h q msg r s = true -> well_signed x algo blob sig msg
| ws_mldsa : forall name q s, In name mldsa_algos -> algo = ascii name ->
    is_strs blob [algo; q] -> is_strs sig [algo; s] -> v_other x algo blob msg sig = true ->
    well_signed x algo blob sig msg.

(* the private key can make signatures of the algorithm, of the size it says *)
Inductive usable (sg : signer) (algo priv : bytes) : Prop :=
| us_ed : forall z, algo = ascii "ssh-ed25519" -> s_ed_size sg priv = Some z ->
    (forall m, exists g, s_ed sg priv m = Some g) -> usable sg algo priv
| us_rsa : forall name h z, In (name, h) rsa_algos -> algo = ascii name -> s_rsa_size sg priv = Some z ->
    (forall m, exists g, s_rsa sg priv h m = Some g /\ lenN g = z) -> usable sg algo priv
| us_ecc : forall name curve bits h z, In (name, (curve, bits, h)) ecdsa_algos -> algo = ascii name ->
    s_ecc_size sg priv = Some z -> (forall m, exists r s, s_ecc sg priv h m = Some (r, s)) -> usable sg algo priv
| us_mldsa : forall name z, In name mldsa_algos -> algo = ascii name -> s_other_size sg algo priv = Some z ->
    (forall m, exists g, s_other sg algo priv m = Some g) -> usable sg algo priv.

(* what it signs verifies under the public key: the law of the signature
   scheme. ECDSA numbers may have a zero byte in front. *)
Inductive key_pair (x : crypto) (sg : signer) (algo priv blob : bytes) : Prop :=
| kp_ed : forall q, algo = ascii "ssh-ed25519" -> is_strs blob [algo; q] ->
    (forall m g, s_ed sg priv m = Some g -> v_ed x q m g = true) -> key_pair x sg algo priv blob
| kp_rsa : forall name h e n, In (name, h) rsa_algos -> algo = ascii name -> is_strs blob [ascii "ssh-rsa"; e; n] ->
    nonneg e -> nonneg n -> 2 ^ 2047 <= be_value n ->
    (forall m g, s_rsa sg priv h m = Some g -> v_rsa x h n e m g = true) -> key_pair x sg algo priv blob
| kp_ecc : forall name curve bits h q, In (name, (curve, bits, h)) ecdsa_algos -> algo = ascii name ->
    is_strs blob [algo; ascii curve; q] ->
    (forall m r s fr fs, s_ecc sg priv h m = Some (r, s) -> unsigned r fr -> unsigned s fs ->
       v_ecc x bits h q m fr fs = true) -> key_pair x sg algo priv blob
| kp_mldsa : forall name q, In name mldsa_algos -> algo = ascii name -> is_strs blob [algo; q] ->
    (forall m g sig, s_other sg algo priv m = Some g -> is_strs sig [algo; g] -> v_other x algo blob m sig = true) ->
    key_pair x sg algo priv blob.
