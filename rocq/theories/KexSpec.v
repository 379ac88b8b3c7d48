(* KexSpec.v - vocabulary of C28, C39, C44 and C46: RFC 4419 group choice,
   RFC 4253 sections 7.2 and 8, written without the model's functions. *)
From Verif Require Import Base WireSpec.
From Coq Require Import List NArith.
Import ListNotations.
Open Scope N_scope.

(* ---- RFC 4419: which group a server answers with -------------------- *)

(* [sizes]: the sizes, in bits, of the groups the server has. The library's
   own limits are 2048 bits from below and 13592 (an f of 1699 bytes) from
   above. *)
Definition acceptable (sizes : list N) (mn mx b : N) : Prop :=
  In b sizes /\ mn <= b /\ b <= mx /\ 2048 <= b /\ b <= 13592.
(* the smallest acceptable one that is at least the preferred size if there
   is one, otherwise the largest acceptable one *)
Definition best_size (sizes : list N) (mn pf mx b : N) : Prop :=
  acceptable sizes mn mx b /\
  ((pf <= b /\ forall c, acceptable sizes mn mx c -> pf <= c -> b <= c) \/
   (forall c, acceptable sizes mn mx c -> c < pf /\ c <= b)).

(* ascending table, as the comment in the code requires *)
Fixpoint ascending (l : list N) : Prop :=
  match l with
  | a :: (b :: _) as r => a < b /\ ascending r
  | _ => True
  end.

(* [n] has exactly [b] bits *)
Definition has_bits (n b : N) : Prop := 2 ^ (b - 1) <= n /\ n < 2 ^ b.

(* a table of groups as RFC 4419 wants it: sorted by size, every entry an odd
   number of the size it is listed under, written without leading zeros *)
Definition table_ok (l : list (N * bytes)) : Prop :=
  ascending (map fst l) /\
  Forall (fun g => bytes_ok (snd g) /\ hd 0 (snd g) <> 0 /\ N.odd (be_value (snd g)) = true /\
                   has_bits (be_value (snd g)) (fst g)) l.

(* ---- RFC 4253 section 8, RFC 4419 section 3 -------------------------- *)

Definition be32 (n : N) : bytes := [n / 16777216; n / 65536 mod 256; n / 256 mod 256; n mod 256].
Definition str (s : bytes) : bytes := be32 (lenN s) ++ s.

(* the shared secret and the public values are numbers (mpint) or strings *)
Inductive val := VNum (n : N) | VStr (s : bytes).
(* [encodes v s]: s is the string (RFC 4251) that carries v; for a number the
   shortest two's complement form *)
Definition encodes (v : val) (s : bytes) : Prop :=
  match v with
  | VNum n => bytes_ok s /\ mpint_canonical s /\ be_value s = n
  | VStr t => s = t
  end.

(* a big-endian number, or the string itself *)
Definition val_of (number : bool) (b : bytes) : val := if number then VNum (be_value b) else VStr b.

(* host key blobs: RFC 4253 6.6 (RSA), RFC 5656 3.1 (ECDSA), RFC 8709 4 (one
   string), RFC 6187 2.1 (a chain of one certificate, no OCSP responses) *)
Definition rsa_blob (name : bytes) (e n : N) (b : bytes) : Prop :=
  exists se sn, encodes (VNum e) se /\ encodes (VNum n) sn /\ b = str name ++ str se ++ str sn.
Definition ecdsa_blob (name curve q : bytes) : bytes := str name ++ str curve ++ str q.
Definition string_blob (name q : bytes) : bytes := str name ++ str q.
Definition x509_blob (name cert : bytes) : bytes := str name ++ be32 1 ++ str cert ++ be32 0.

(* group exchange part: requested window, prime, generator *)
Record gexpart := mkGp { q_min : N; q_pref : N; q_max : N; q_p : bytes; q_g : bytes }.
Definition gex_bytes (o : option gexpart) : bytes :=
  match o with
  | None => []
  | Some q => be32 (q_min q) ++ be32 (q_pref q) ++ be32 (q_max q) ++ str (q_p q) ++ str (q_g q)
  end.

(* the exchange hash is taken over
   string V_C, string V_S, string I_C, string I_S, string K_S,
   (uint32 min, uint32 n, uint32 max, mpint p, mpint g,)
   mpint or string e, f, K *)
Record transcript := mkTr { t_vc : bytes; t_vs : bytes; t_ic : bytes; t_is : bytes;
  t_ks : bytes; t_gex : option gexpart; t_e : bytes; t_f : bytes; t_k : bytes }.
Definition transcript_bytes (t : transcript) : bytes :=
  str (t_vc t) ++ str (t_vs t) ++ str (t_ic t) ++ str (t_is t) ++ str (t_ks t)
  ++ gex_bytes (t_gex t) ++ str (t_e t) ++ str (t_f t) ++ str (t_k t).

(* ---- RFC 4253 section 7.2 -------------------------------------------- *)

(* K1 = HASH(K || H || X || session_id), Kn+1 = HASH(K || H || K1 || ... || Kn);
   key = K1 || K2 || K3 || ... ; [kdf_upto n] is K1 || ... || Kn *)
Fixpoint kdf_upto (HASH : bytes -> bytes) (kstr hh sid : bytes) (x : N) (n : nat) : bytes :=
  match n with
  | O => []
  | S O => HASH (kstr ++ hh ++ [x] ++ sid)
  | S n => let prev := kdf_upto HASH kstr hh sid x n in prev ++ HASH (kstr ++ hh ++ prev)
  end.
(* the key of [sz] bytes: the first sz bytes of K1 || K2 || ... *)
Definition derived (HASH : bytes -> bytes) (kstr hh sid : bytes) (x sz : N) (key : bytes) : Prop :=
  lenN key = sz /\
  forall n, sz <= lenN (kdf_upto HASH kstr hh sid x n) ->
    key = takeN sz (kdf_upto HASH kstr hh sid x n).
