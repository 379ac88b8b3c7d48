(* NegoSpec.v - name lists and negotiation as RFC 4251 section 5 and RFC 4253
   section 7.1 describe them. *)
From Verif Require Import Base WireSpec.
From Coq Require Import List NArith String Ascii.
Import ListNotations.
Open Scope N_scope.

(* splitting at commas (44); n commas give n+1 elements *)
Fixpoint split_comma (l : bytes) : list bytes :=
  match l with
  | [] => [[]]
  | c :: r =>
      if c =? 44 then [] :: split_comma r
      else match split_comma r with t :: ts => (c :: t) :: ts | [] => [[c]] end
  end.

(* the leading elements up to the first empty one *)
Fixpoint until_empty (ts : list bytes) : list bytes :=
  match ts with
  | [] => []
  | t :: r => match t with [] => [] | _ => t :: until_empty r end
  end.

(* the names of a name-list: empty elements are illegal and end the list *)
Definition names_of (l : bytes) : list bytes := until_empty (split_comma l).

(* RFC 4253 7.1: the first entry of the client's list that is also in the
   server's list *)
Definition first_common {A} (client server : list A) (x : A) : Prop :=
  exists before after,
    client = before ++ x :: after /\ In x server /\
    forall y, In y before -> ~ In y server.
Definition nothing_common {A} (client server : list A) : Prop :=
  forall x, In x client -> ~ In x server.

(* consecutive strings of a message, from i to j *)
Inductive strings_at (m : bytes) (len : N) : N -> list bytes -> N -> Prop :=
| strings_nil : forall i, strings_at m len i [] i
| strings_cons : forall i s ss j,
    string_at m len i s -> strings_at m len (i + 4 + lenN s) ss j ->
    strings_at m len i (s :: ss) j.

(* C04: the identifiers a name list stands for, given the name table [id] and
   its [unknown] marker: one per known name, in order; the first name is kept
   even when unknown (it is the peer's guess). *)
Definition ids_of_names (id : bytes -> N) (unknown : N) (ns : list bytes) : list N :=
  match ns with
  | [] => []
  | n :: r => id n :: filter (fun i => negb (i =? unknown)) (map id r)
  end.

(* ---- transport algorithm sizes (RFC 4253 6.3-6.4, RFC 4344, RFC 4868,
   RFC 6668, RFC 5647), by name; all in bytes ------------------------------- *)
Definition ascii (s : string) : bytes := List.map N_of_ascii (list_ascii_of_string s).
(* block ciphers: name, block, key, initial vector *)
Definition block_ciphers : list (string * (N * N * N)) :=
  [("aes128-cbc", (16, 16, 16)); ("aes192-cbc", (16, 24, 16)); ("aes256-cbc", (16, 32, 16));
   ("aes128-ctr", (16, 16, 16)); ("aes192-ctr", (16, 24, 16)); ("aes256-ctr", (16, 32, 16))]%string.
(* authenticated ciphers: name, block, key, initial vector, tag *)
Definition aead_ciphers : list (string * (N * N * N * N)) :=
  [("aes128-gcm@openssh.com", (16, 16, 12, 16)); ("aes192-gcm@openssh.com", (16, 24, 12, 16));
   ("aes256-gcm@openssh.com", (16, 32, 12, 16))]%string.
(* MACs: name, tag, key *)
Definition macs : list (string * (N * N)) :=
  [("hmac-sha1", (20, 20)); ("hmac-sha1-96", (12, 20)); ("hmac-sha2-256", (32, 32));
   ("hmac-sha2-512", (64, 64))]%string.
