(* ClientAuthSpec.v - what a client may say during user authentication, after
   RFC 4252, 4256, 8308 and 8332; vocabulary of C86 to C88. Messages are
   concatenations of fields, as in AuthSpec. Only the data types of the model
   are used. *)
From Verif Require Import Base WireSpec NegoSpec AuthModel AuthSpec ClientAuthModel.
From Coq Require Import List NArith String.
Import ListNotations.
Open Scope N_scope.
Local Notation "a ++ b" := (@app _ a b) : list_scope.

(* ---- messages from the server ------------------------------------------ *)
(* RFC 4252 5.1: the methods that can continue, then the partial success flag *)
Definition failure_lists (b : bytes) (ms : list bytes) : Prop :=
  exists f names flag rest, b = f ++ [flag] ++ rest /\ is_str f names /\ ms = names_of names.

(* RFC 4256 3.2 *)
Definition prompt_field (f : bytes) (p : bytes * N) : Prop :=
  exists t, f = t ++ [snd p] /\ is_str t (fst p).
Definition info_request (b name instr lang : bytes) (prompts : list (bytes * N)) : Prop :=
  exists h cnt parts rest, b = h ++ cnt ++ List.concat parts ++ rest /\ is_strs h [name; instr; lang] /\
    lenN cnt = 4 /\ be_value cnt = lenN prompts /\ Forall2 prompt_field parts prompts.

(* the text before the first NUL: what a C string shows *)
Inductive text_of : bytes -> bytes -> Prop :=
| text_end : text_of [] []
| text_nul : forall r, text_of (0 :: r) []
| text_more : forall x r t, x <> 0 -> text_of r t -> text_of (x :: r) (x :: t).

(* RFC 8308 2.3: extensions with their values *)
Definition ext_info (b : bytes) (exts : list (bytes * bytes)) : Prop :=
  exists cnt parts rest, b = cnt ++ List.concat parts ++ rest /\ lenN cnt = 4 /\ be_value cnt = lenN exts /\
    Forall2 (fun p e => is_strs p [fst e; snd e]) parts exts.

(* the value of the last server-sig-algs, v before any *)
Definition last_sig_algs (v : option bytes) (exts : list (bytes * bytes)) : option bytes :=
  fold_left (fun v e => if list_eq_dec N.eq_dec (fst e) (ascii "server-sig-algs") then Some (snd e) else v) exts v.

(* ---- a connection -------------------------------------------------------- *)
(* the first request, and messages from the server *)
Inductive cop := CFirst | CMsg (m : smsg).
Definition cop_step (c : ccfg) (sg : signer) (o : cop) (an : canswers) (s : client) : chres :=
  match o with
  | CFirst => let '(s, r) := first_request c sg an s in CR s r 0
  | CMsg m => client_step c sg m an s
  end.
Definition cop_bytes (o : cop) : bytes :=
  match o with CFirst => [] | CMsg (SExtInfo b | SFailure b | SSuccess b | SInfoRequest b) => b end.
Definition wf_op (o : cop) : Prop := bytes_ok (cop_bytes o) /\ is32 (lenN (cop_bytes o)).

(* the user name and what the application gives are byte strings of less than
   256 MiB *)
Definition small (b : bytes) : Prop := bytes_ok b /\ lenN b < 2 ^ 28.
Definition small_answers (an : canswers) : Prop :=
  (forall p, an_password an = Some p -> small p) /\
  (forall k, an_key an = Some k -> small (pk_type k) /\ small (pk_blob k)) /\
  (forall rs, an_prompts an = Some rs -> Forall small rs /\ lenN rs < 2 ^ 28).

(* [creached c sg user sid h s]: s is reached by the steps h from a new
   connection, none of which ended it *)
Inductive creached (c : ccfg) (sg : signer) (user sid : bytes) : list (cop * canswers) -> client -> Prop :=
| cr_init : creached c sg user sid [] (client_init user sid)
| cr_step : forall h s o an s' r j, creached c sg user sid h s -> wf_op o -> small_answers an ->
    cop_step c sg o an s = CR s' r j -> goes_on r = true -> creached c sg user sid (h ++ [(o, an)]) s'.

(* the server's current server-sig-algs after h *)
Inductive announced : list (cop * canswers) -> option bytes -> Prop :=
| an_nil : announced [] None
| an_ext : forall h v b an exts, announced h v -> ext_info b exts ->
    announced (h ++ [(CMsg (SExtInfo b), an)]) (last_sig_algs v exts)
| an_other : forall h v o an, announced h v -> (forall b, o <> CMsg (SExtInfo b)) ->
    announced (h ++ [(o, an)]) v.

(* wolfCrypt's results are byte strings of moderate size *)
Definition small_signer (sg : signer) : Prop :=
  (forall p h m s, s_rsa sg p h m = Some s -> small s) /\
  (forall p h m r s, s_ecc sg p h m = Some (r, s) -> small r /\ small s) /\
  (forall p m s, s_ed sg p m = Some s -> small s) /\
  (forall n p m s, s_other sg n p m = Some s -> small s).

(* wolfCrypt's size functions bound the signatures it makes: for ECDSA the
   size is that of the DER form, at least two bytes above the two numbers; for
   RSA the caller compares the sizes itself *)
Definition sized_signer (sg : signer) : Prop :=
  (forall p n, s_rsa_size sg p = Some n -> n < 2 ^ 28) /\
  (forall p n, s_ecc_size sg p = Some n -> n < 2 ^ 28 /\
     forall h m r s, s_ecc sg p h m = Some (r, s) -> lenN r + lenN s + 2 <= n) /\
  (forall p n, s_ed_size sg p = Some n -> n < 2 ^ 28 /\ forall m s, s_ed sg p m = Some s -> lenN s <= n) /\
  (forall a p n, s_other_size sg a p = Some n -> n < 2 ^ 28 /\ forall m s, s_other sg a p m = Some s -> lenN s <= n).

(* ---- what the client sends ----------------------------------------------- *)
(* RFC 8332 3: which signature algorithms go with a key type *)
Definition algo_fits (key algo : bytes) : Prop :=
  (key = ascii "ssh-rsa" /\ (algo = ascii "rsa-sha2-512" \/ algo = ascii "rsa-sha2-256")) \/
  (key <> ascii "ssh-rsa" /\ algo = key).

(* the first name the server announced that goes with the key *)
Definition first_fit (announced : list bytes) (key algo : bytes) : Prop :=
  exists before after, announced = before ++ algo :: after /\ algo_fits key algo /\
    forall y, In y before -> ~ algo_fits key y.

(* a non-negative number as an mpint: the same value, top bit clear (RFC 4251 5) *)
Definition unsigned (r f : bytes) : Prop :=
  (f = r \/ f = 0 :: r) /\ match f with x :: _ => x < 128 | [] => True end.

(* the signature field [sig] the private key [priv] makes over [msg] *)
Inductive signs (sg : signer) (algo priv msg sig : bytes) : Prop :=
| sg_ed : forall s, algo = ascii "ssh-ed25519" -> s_ed sg priv msg = Some s ->
    is_strs sig [algo; s] -> signs sg algo priv msg sig
| sg_rsa : forall name h s, In (name, h) rsa_algos -> h <> SHA1 -> algo = ascii name ->
    s_rsa sg priv h msg = Some s -> is_strs sig [algo; s] -> signs sg algo priv msg sig
| sg_ecc : forall name curve bits h r s fr fs f,
    In (name, (curve, bits, h)) ecdsa_algos -> algo = ascii name -> s_ecc sg priv h msg = Some (r, s) ->
    unsigned r fr -> unsigned s fs -> is_strs f [fr; fs] -> is_strs sig [algo; f] -> signs sg algo priv msg sig
| sg_mldsa : forall name s, In name mldsa_algos -> algo = ascii name -> s_other sg algo priv msg = Some s ->
    is_strs sig [algo; s] -> signs sg algo priv msg sig.

(* RFC 4256 3.1: empty language tag and submethods *)
Definition keyboard_request (m user : bytes) : Prop :=
  exists h e, m = h ++ e /\ request_head h user "keyboard-interactive" /\ is_strs e [[]; []].

(* RFC 4256 3.4 *)
Definition answers_message (m : bytes) (rs : list bytes) : Prop :=
  exists cnt fs, m = cnt ++ fs /\ lenN cnt = 4 /\ be_value cnt = lenN rs /\ is_strs fs rs.

(* The message [p] is what RFC 4252 says for a credential the application gave
   during the same step (events ev), by a method in [offered]. *)
Inductive presented (sg : signer) (user sid : bytes) (o : cop) (offered : list bytes) (algos : list bytes)
    (ev : list cev) : bytes -> Prop :=
| pt_none : forall m, o = CFirst -> request_head m user "none" ->
    presented sg user sid o offered algos ev (50 :: m)
| pt_password : forall h p pw, In (ascii "password") offered -> In (CvPassword (Some pw)) ev ->
    request_head h user "password" -> is_str p pw ->
    presented sg user sid o offered algos ev (50 :: h ++ [0] ++ p)
| pt_keyboard : forall m, In (ascii "keyboard-interactive") offered -> keyboard_request m user ->
    presented sg user sid o offered algos ev (50 :: m)
| pt_key : forall k m algo sig body msg,
    In (ascii "publickey") offered -> In (CvKey (Some k)) ev -> first_fit algos (pk_type k) algo ->
    key_request m user 1 algo (pk_blob k) sig body [] -> signed_message sid body [] msg ->
    signs sg algo (pk_priv k) msg sig -> In (CvSign (pk_priv k) msg) ev ->
    presented sg user sid o offered algos ev (50 :: m)
| pt_answers : forall n i l ps rs m, In (CvPrompts n i l ps (Some rs)) ev -> lenN ps = lenN rs ->
    answers_message m rs -> presented sg user sid o offered algos ev (61 :: m).

(* What an event of a step may be. The application is asked only for what the
   server offered, and shown the server's prompts; its key signs nothing but
   its own request in this session. *)
Definition proper (sg : signer) (user sid : bytes) (o : cop) (offered : list bytes) (algos : list bytes)
    (ev : list cev) (e : cev) : Prop :=
  match e with
  | CvPassword _ => In (ascii "password") offered
  | CvKey _ => In (ascii "publickey") offered
  | CvPrompts n i l ps _ => exists b n0 i0 l0 ps0, o = CMsg (SInfoRequest b) /\ info_request b n0 i0 l0 ps0 /\
      text_of n0 n /\ text_of i0 i /\ text_of l0 l /\
      Forall2 (fun p q => text_of (fst p) (fst q) /\ snd p = snd q) ps0 ps
  | CvSign priv msg => exists k algo h ab, In (CvKey (Some k)) ev /\ priv = pk_priv k /\
      first_fit algos (pk_type k) algo /\ request_head h user "publickey" /\ is_strs ab [algo; pk_blob k] /\
      signed_message sid (h ++ [1] ++ ab) [] msg
  | CvSend p _ => presented sg user sid o offered algos ev p
  end.

(* the methods of a step: those of the failure message *)
Definition offers (o : cop) (ms : list bytes) : Prop :=
  match o with CMsg (SFailure b) => failure_lists b ms | _ => ms = [] end.

(* a request by the method *)
Definition asks_by (user : bytes) (method : string) (e : cev) : Prop :=
  exists h rest est, e = CvSend (50 :: h ++ rest) est /\ request_head h user method.

(* a use of a private key; a key given by the application *)
Definition is_sign (e : cev) : bool := match e with CvSign _ _ => true | _ => false end.
Definition is_given (e : cev) : bool := match e with CvKey (Some _) => true | _ => false end.
