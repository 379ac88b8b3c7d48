(* NegoProps.v - C04 and C05 (and the name-list reader of C01). *)
From Verif Require Import Base WireModel WireSpec WireProofs NameTable NegoModel NegoSpec NegoProofs NegoAgree.
From Coq Require Import List NArith Lia Bool String ZifyBool ZifyNat ZifyN.
Import ListNotations.
Open Scope N_scope.

(* ---- C01, name-lists -------------------------------------------------- *)
(* Whatever the message, reading a name-list never leaves it; success means a
   complete string stands there and the index is moved just past it. *)
Theorem C01_name_list : forall cap m len i,
  bytes_ok m -> len <= lenN m -> is32 len -> is32 i ->
  GetNameList cap m len i <> POob /\
  (forall ids j, GetNameList cap m len i = POk ids j ->
     exists s, string_at m len i s /\ j = i + 4 + lenN s /\ j <= len).
Proof.
  intros cap m len i Hm Hl H32 Hi. split; [apply GetNameList_noob; assumption|].
  intros ids j E. apply GetNameList_ok in E; try assumption.
  destruct E as (s & Hs & -> & _). exists s. pose proof (string_at_bounds _ _ _ _ Hs). auto.
Qed.
Print Assumptions C01_name_list.
(* "none" after one byte of other data *)
Example C01_name_list_nonvacuous :
  GetNameList 32 [9; 0;0;0;4; 110;111;110;101] 9 1 = POk [ID_NONE] 9.
Proof. vm_compute. reflexivity. Qed.

(* ---- C04 -------------------------------------------------------------- *)
(* The exact result for every byte string and every capacity. *)
Theorem C04_name_list_result : forall cap l,
  let ns := names_of l in
  let ids := ids_of_names NameToId ID_UNKNOWN ns in
  GetNameListRaw cap l =
    if (4096 <? lenN l) || (64 <? lenN ns) || (cap <? lenN ids)
    then RErr WS_BUFFER_E else ROk ids.
Proof.
  intros cap l ns ids. rewrite GetNameListRaw_eq. fold ns. cbv zeta.
  change (decoded ns) with ids. destruct (4096 <? lenN l); reflexivity.
Qed.
(* never more than the capacity *)
Theorem C04_name_list_capacity : forall cap l ids,
  GetNameListRaw cap l = ROk ids -> lenN ids <= cap.
Proof.
  intros cap l ids. rewrite C04_name_list_result. cbv zeta.
  destruct (N.ltb_spec cap (lenN (ids_of_names NameToId ID_UNKNOWN (names_of l)))).
  - rewrite orb_true_r. discriminate.
  - rewrite orb_false_r. destruct (_ || _); [discriminate|]. intros E. injection E as <-. assumption.
Qed.
(* the identifier of a name is the table's, or the unknown marker if the name
   has no row *)
Theorem C04_name_lookup : forall n,
  (NameToId n = ID_UNKNOWN /\ forall row, In row NameIdMap -> snd row <> n) \/
  (NameToId n <> ID_UNKNOWN /\ exists ty, In (NameToId n, ty, n) NameIdMap).
Proof.
  intros n. destruct (knownb n) eqn:E.
  - right. split; [unfold knownb in E; lia|].
    unfold NameToId, NameToIdType. destruct (lookup_name NameIdMap n) as [id ty] eqn:L.
    unfold knownb, NameToId, NameToIdType in E. rewrite L in E. cbn [fst] in *.
    exists ty. revert L E. generalize NameIdMap. induction l as [|((i & t) & nm) r IH]; cbn [lookup_name].
    + intros L E. injection L as <- _. discriminate.
    + destruct (bytes_eqb n nm) eqn:Eb.
      * intros L _. injection L as -> ->. apply bytes_eqb_eq in Eb. subst. left. reflexivity.
      * intros L E. right. apply IH; assumption.
  - left. split; [unfold knownb in E; lia|]. intros row Hr Hn.
    assert (X : knownb n = true); [|congruence]. apply known_in_table. unfold table_names.
    rewrite <- Hn. apply in_map. assumption.
Qed.
Print Assumptions C04_name_list_result.
Print Assumptions C04_name_list_capacity.
Print Assumptions C04_name_lookup.
(* "zz,aes128-ctr,y,aes256-ctr": first unknown kept as the guess, later unknown
   dropped, order kept *)
Example C04_nonvacuous :
  GetNameListRaw 32 [122;122;44; 97;101;115;49;50;56;45;99;116;114; 44;121;44;
                     97;101;115;50;53;54;45;99;116;114]
    = ROk [ID_UNKNOWN; ID_AES128_CTR; ID_AES256_CTR] /\
  GetNameListRaw 2 [122;122;44; 97;101;115;49;50;56;45;99;116;114; 44;121;44;
                     97;101;115;50;53;54;45;99;116;114] = RErr WS_BUFFER_E.
Proof. split; vm_compute; reflexivity. Qed.

(* ---- C05 -------------------------------------------------------------- *)
(* The default configurations of both sides, and a server deriving its
   host-key list from its keys. *)
Definition default_client : algocfg :=
  mkCfg cannedKexAlgoNames (Some cannedKeyAlgoNamesHostKey) [] cannedEncAlgoNames cannedMacAlgoNames.
Definition default_server : algocfg :=
  mkCfg cannedKexAlgoNames None [ID_ECDSA_SHA2_NISTP256; ID_RSA_SHA2_256; ID_SSH_RSA]
        cannedEncAlgoNames cannedMacAlgoNames.

(* Every successful negotiation, on either side, against any peer bytes: the
   message holds the ten lists, and in each slot the choice is the first name
   of the client's list that the server's list has. A MAC is chosen exactly
   when the cipher does not authenticate by itself, and sizes follow the
   chosen algorithms.
   _partial: cfg_ok asks that this endpoint's own lists consist of names in
   the library's table, no RSA certificate name among them; without it the
   claim is false (the refuted theorems below). *)
Theorem C05_choice_partial : forall sd c m len idx r j,
  bytes_ok m -> len <= lenN m -> is32 len -> is32 (idx + 16) -> cfg_ok sd c ->
  DoKexInit sd c m len idx = POk r j ->
  exists kex key e1 e2 m1 m2 c1 c2 l1 l2 k,
    strings_at m len (idx + 16) [kex; key; e1; e2; m1; m2; c1; c2; l1; l2] k /\
    j = k + 5 /\ j <= len /\
    (exists x, client_first sd (own_kex c) (names_of kex) x /\ n_kex r = NameToId x) /\
    (exists x, client_first sd (own_key sd c) (names_of key) x /\ n_pubkey r = NameToId x) /\
    (exists x, client_first sd (own_enc c) (names_of e1) x /\ d_enc (c2s_of sd r) = NameToId x) /\
    (exists x, client_first sd (own_enc c) (names_of e2) x /\ d_enc (s2c_of sd r) = NameToId x) /\
    (if AeadModeForId (d_enc (c2s_of sd r)) then d_mac (c2s_of sd r) = ID_NONE
     else exists x, client_first sd (own_mac c) (names_of m1) x /\ d_mac (c2s_of sd r) = NameToId x) /\
    (if AeadModeForId (d_enc (s2c_of sd r)) then d_mac (s2c_of sd r) = ID_NONE
     else exists x, client_first sd (own_mac c) (names_of m2) x /\ d_mac (s2c_of sd r) = NameToId x) /\
    dir_ok (c2s_of sd r) /\ dir_ok (s2c_of sd r).
Proof. exact DoKexInit_success. Qed.

(* A match failure is reported only when the two lists of that slot share no
   name; every other failure is a malformed or oversized message. *)
Theorem C05_failure_partial : forall sd c m len idx,
  bytes_ok m -> len <= lenN m -> is32 len -> is32 (idx + 16) -> cfg_ok sd c ->
  DoKexInit sd c m len idx <> POob /\
  forall e j, DoKexInit sd c m len idx = PErr e j -> nego_failure sd c m len (idx + 16) e.
Proof. exact DoKexInit_failure. Qed.

(* A client and a server, each reading the other's own KEXINIT: when both
   succeed they hold the same key exchange, host key algorithm and transport
   parameters, crosswise. CheckAlgoList is what the algorithm-list setters
   enforce. *)
Theorem C05_peers_agree_partial : forall cc cs ckc cks rcl rsv jc js,
  cfg_ok Client cc -> cfg_ok Server cs ->
  CheckAlgoList (a_kex cc) TYPE_KEX = WS_SUCCESS -> CheckAlgoList (a_kex cs) TYPE_KEX = WS_SUCCESS ->
  let pc := kexinit_payload Client cc ckc in
  let ps := kexinit_payload Server cs cks in
  lenN ckc = 16 -> lenN cks = 16 -> bytes_ok pc -> bytes_ok ps ->
  is32 (lenN pc) -> is32 (lenN ps) ->
  DoKexInit Server cs pc (lenN pc) 0 = POk rsv js ->
  DoKexInit Client cc ps (lenN ps) 0 = POk rcl jc ->
  n_kex rcl = n_kex rsv /\ n_pubkey rcl = n_pubkey rsv /\
  n_local rcl = n_peer rsv /\ n_peer rcl = n_local rsv.
Proof.
  intros cc cs ckc cks rcl rsv jc js H1 H2 H3 H4 pc ps H5 H6 H7 H8 H9 H10 H11 H12.
  exact (peers_agree cc cs ckc cks _ _ rcl rsv jc js H1 H2 H3 H4 H5 H6 H7 H8 eq_refl eq_refl H9 H10 H11 H12).
Qed.

(* What one direction uses after a negotiation that settled on cipher x and,
   for a cipher that does not authenticate, on MAC y: the sizes of the table. *)
Definition as_negotiated (x y : bytes) (d : dirparams) : Prop :=
  (exists s blk key iv, In (s, (blk, key, iv)) block_ciphers /\ x = ascii s /\
     exists t tag mkey, In (t, (tag, mkey)) macs /\ y = ascii t /\
     d = mkDir (NameToId x) false blk key iv (NameToId y) tag mkey) \/
  (exists s blk key iv tag, In (s, (blk, key, iv, tag)) aead_ciphers /\ x = ascii s /\
     d = mkDir (NameToId x) true blk key iv ID_NONE tag 0).
Definition ciphers_only (ns : list bytes) : Prop :=
  forall n, In n ns -> In n (map ascii (map fst block_ciphers ++ map fst aead_ciphers)).
Definition macs_only (ns : list bytes) : Prop := forall n, In n ns -> In n (map ascii (map fst macs)).

Lemma client_first_own : forall sd own peer x, client_first sd own peer x -> In x own.
Proof.
  intros [] own peer x (b & a & H1 & H2 & _); [assumption|].
  rewrite H1. apply in_or_app. right. left. reflexivity.
Qed.
Lemma block_rows : Forall (fun r => match r with (s, (blk, key, iv)) =>
   let id := NameToId (ascii s) in
   AeadModeForId id = false /\ BlockSzForId id = blk /\ KeySzForId id = key /\ iv = blk end) block_ciphers.
Proof. repeat (apply Forall_cons; [vm_compute; repeat split|]); apply Forall_nil. Qed.
Lemma aead_rows : Forall (fun r => match r with (s, (blk, key, iv, tag)) =>
   let id := NameToId (ascii s) in
   SetAlgoIds id (AeadModeForId id) ID_NONE = mkDir id true blk key iv ID_NONE tag 0 end) aead_ciphers.
Proof. repeat (apply Forall_cons; [vm_compute; repeat split|]); apply Forall_nil. Qed.
Lemma mac_rows : Forall (fun r => match r with (s, (tag, key)) =>
   MacSzForId (NameToId (ascii s)) = tag /\ KeySzForId (NameToId (ascii s)) = key end) macs.
Proof. repeat (apply Forall_cons; [vm_compute; repeat split|]); apply Forall_nil. Qed.
Lemma aead_flag : Forall (fun r => AeadModeForId (NameToId (ascii (fst r))) = true) aead_ciphers.
Proof. repeat (apply Forall_cons; [vm_compute; repeat split|]); apply Forall_nil. Qed.
Lemma dir_table : forall d x,
  dir_ok d -> In x (map ascii (map fst block_ciphers ++ map fst aead_ciphers)) -> d_enc d = NameToId x ->
  forall P, (if AeadModeForId (d_enc d) then d_mac d = ID_NONE
             else exists y, P y /\ In y (map ascii (map fst macs)) /\ d_mac d = NameToId y) ->
  exists y, (AeadModeForId (d_enc d) = false -> P y) /\ as_negotiated x y d.
Proof.
  intros d x Hd Hx He P Hm. unfold dir_ok in Hd. rewrite He in *.
  rewrite map_app in Hx. apply in_app_or in Hx. destruct Hx as [Hx|Hx];
    rewrite map_map in Hx; apply in_map_iff in Hx; destruct Hx as (row & Ex & Hr).
  - pose proof (proj1 (Forall_forall _ _) block_rows row Hr) as R. destruct row as (s & ((blk & key) & iv)).
    cbn [fst] in Ex. cbv zeta beta iota in R. rewrite Ex in R. destruct R as (R1 & R2 & R3 & R4). rewrite R1 in *.
    destruct Hm as (y & Py & Hy & Hm). exists y. split; [intros _; exact Py|]. left.
    exists s, blk, key, iv. split; [assumption|]. split; [congruence|].
    rewrite map_map in Hy. apply in_map_iff in Hy. destruct Hy as ((t & (tag & mkey)) & Et & Ht). cbn [fst] in Et.
    pose proof (proj1 (Forall_forall _ _) mac_rows _ Ht) as Q. cbv beta iota in Q. rewrite Et in Q. destruct Q as [Q1 Q2].
    exists t, tag, mkey. split; [assumption|]. split; [congruence|].
    rewrite Hd, Hm. unfold SetAlgoIds. cbv zeta. cbn [negb]. rewrite R2, R3, Q1, Q2, R4. reflexivity.
  - pose proof (proj1 (Forall_forall _ _) aead_rows row Hr) as R.
    pose proof (proj1 (Forall_forall _ _) aead_flag row Hr) as F. cbv beta in F. rewrite Ex in F.
    destruct row as (s & (((blk & key) & iv) & tag)).
    cbn [fst] in Ex. cbv zeta beta iota in R. rewrite Ex in R. rewrite F in *.
    exists []. split; [intros; discriminate|]. right. exists s, blk, key, iv, tag.
    split; [assumption|]. split; [congruence|]. rewrite Hd, Hm. exact R.
Qed.

(* The sizes both directions use are those of the agreed algorithms: an
   authenticated cipher has no MAC and a 16 byte tag, every other cipher has
   the agreed MAC. Hypotheses beyond C05_choice_partial: this endpoint's lists
   name ciphers and MACs only. *)
Theorem C05_parameters : forall sd c m len idx r j,
  bytes_ok m -> len <= lenN m -> is32 len -> is32 (idx + 16) -> cfg_ok sd c ->
  ciphers_only (own_enc c) -> macs_only (own_mac c) ->
  DoKexInit sd c m len idx = POk r j ->
  exists kex key e1 e2 m1 m2 rest k x1 x2 y1 y2,
    strings_at m len (idx + 16) (kex :: key :: e1 :: e2 :: m1 :: m2 :: rest) k /\
    client_first sd (own_enc c) (names_of e1) x1 /\ as_negotiated x1 y1 (c2s_of sd r) /\
    client_first sd (own_enc c) (names_of e2) x2 /\ as_negotiated x2 y2 (s2c_of sd r) /\
    (d_aead (c2s_of sd r) = false -> client_first sd (own_mac c) (names_of m1) y1) /\
    (d_aead (s2c_of sd r) = false -> client_first sd (own_mac c) (names_of m2) y2).
Proof.
  intros sd c m len idx r j H1 H2 H3 H4 H5 Hc Hm E.
  destruct (DoKexInit_success sd c m len idx r j H1 H2 H3 H4 H5 E)
    as (kex & key & e1 & e2 & m1 & m2 & c1 & c2 & l1 & l2 & k & S & _ & _ & _ & _ & (x1 & X1 & X1') & (x2 & X2 & X2') & M1 & M2 & D1 & D2).
  assert (A1 : exists y, (AeadModeForId (d_enc (c2s_of sd r)) = false -> client_first sd (own_mac c) (names_of m1) y) /\
                as_negotiated x1 y (c2s_of sd r)).
  { apply dir_table; [assumption|apply Hc; eapply client_first_own; eassumption|assumption|].
    destruct (AeadModeForId (d_enc (c2s_of sd r))); [assumption|]. destruct M1 as (y & Y & Y'). exists y.
    split; [assumption|]. split; [apply Hm; eapply client_first_own; eassumption|assumption]. }
  assert (A2 : exists y, (AeadModeForId (d_enc (s2c_of sd r)) = false -> client_first sd (own_mac c) (names_of m2) y) /\
                as_negotiated x2 y (s2c_of sd r)).
  { apply dir_table; [assumption|apply Hc; eapply client_first_own; eassumption|assumption|].
    destruct (AeadModeForId (d_enc (s2c_of sd r))); [assumption|]. destruct M2 as (y & Y & Y'). exists y.
    split; [assumption|]. split; [apply Hm; eapply client_first_own; eassumption|assumption]. }
  assert (AM : forall d, dir_ok d -> d_aead d = AeadModeForId (d_enc d)).
  { intros d Hd. rewrite Hd. unfold SetAlgoIds. cbv zeta. destruct (AeadModeForId (d_enc d)) eqn:Ea; cbn; congruence. }
  destruct A1 as (y1 & P1 & Q1). destruct A2 as (y2 & P2 & Q2).
  exists kex, key, e1, e2, m1, m2, [c1; c2; l1; l2], k, x1, x2, y1, y2.
  rewrite (AM _ D1), (AM _ D2). auto 12.
Qed.

(* own list "x,aes256-ctr" (accepted by the list check) against a peer
   offering "y,aes256-ctr": both contain aes256-ctr, the match still fails *)
Theorem C05_unknown_first_refuted :
  exists own peer : bytes,
    CheckAlgoList own TYPE_CIPHER = WS_SUCCESS /\
    ~ nothing_common (names_of own) (names_of peer) /\
    (forall sd, match GetNameListRaw 32 own, GetNameListRaw 32 peer with
                | ROk o, ROk p => MatchIdLists sd p o = ID_UNKNOWN
                | _, _ => False
                end).
Proof.
  exists [120;44;97;101;115;50;53;54;45;99;116;114], [121;44;97;101;115;50;53;54;45;99;116;114].
  split; [vm_compute; reflexivity|]. split.
  - intros H. apply (H [97;101;115;50;53;54;45;99;116;114]); vm_compute; auto.
  - intros sd. destruct sd; vm_compute; reflexivity.
Qed.
Print Assumptions C05_unknown_first_refuted.

(* a client advertising "x,aes256-ctr" to a server that has both and prefers
   neither: the standard rule gives "x"; the client settles on aes256-ctr *)
Theorem C05_advertised_unknown_refuted :
  exists own peer x : bytes, exists o p,
    CheckAlgoList own TYPE_CIPHER = WS_SUCCESS /\
    first_common (names_of own) (names_of peer) x /\
    GetNameListRaw 32 own = ROk o /\ GetNameListRaw 32 peer = ROk p /\
    MatchIdLists Client p o <> NameToId x /\ MatchIdLists Client p o <> ID_UNKNOWN.
Proof.
  exists [120;44;97;101;115;50;53;54;45;99;116;114],
         [97;101;115;50;53;54;45;99;116;114;44;120], [120],
         [ID_UNKNOWN; ID_AES256_CTR], [ID_AES256_CTR].
  split; [vm_compute; reflexivity|]. split.
  - exists [], [[97;101;115;50;53;54;45;99;116;114]].
    split; [vm_compute; reflexivity|]. split; [vm_compute; auto|]. intros y [].
  - repeat split; vm_compute; congruence.
Qed.
Print Assumptions C05_advertised_unknown_refuted.

(* the three RSA certificate names share one identifier: two offers without a
   common name are taken to agree *)
Theorem C05_cert_alias_refuted :
  exists own peer : bytes, exists o p,
    nothing_common (names_of own) (names_of peer) /\
    GetNameListRaw 32 own = ROk o /\ GetNameListRaw 32 peer = ROk p /\
    MatchIdLists Server p o = ID_OSSH_CERT_RSA.
Proof.
  exists (nth 0 (map snd (filter (fun r => fst (fst r) =? ID_OSSH_CERT_RSA) NameIdMap)) []),
         (nth 1 (map snd (filter (fun r => fst (fst r) =? ID_OSSH_CERT_RSA) NameIdMap)) []),
         [ID_OSSH_CERT_RSA], [ID_OSSH_CERT_RSA].
  repeat split; try (vm_compute; reflexivity).
  vm_compute. intros x [<-|[]] [H|[]]. discriminate H.
Qed.
Print Assumptions C05_cert_alias_refuted.
Print Assumptions C05_parameters.
Print Assumptions C05_choice_partial.
Print Assumptions C05_failure_partial.
Print Assumptions C05_peers_agree_partial.

Definition own_okb (ns : list bytes) : bool :=
  forallb (fun n => knownb n && negb (NameToId n =? ID_OSSH_CERT_RSA)) ns.
Lemma own_okb_ok : forall ns, own_okb ns = true -> own_ok ns.
Proof.
  intros ns H. unfold own_okb in H. rewrite forallb_forall in H. split.
  - apply Forall_forall. intros n Hn. specialize (H n Hn). lia.
  - intros n Hn. specialize (H n Hn). lia.
Qed.
(* The shipped defaults meet the hypotheses, and two such peers do reach
   agreement (rsa-sha2-256, the server key type standing first in the
   client list, and an authenticated cipher). *)
Example C05_nonvacuous :
  cfg_ok Client default_client /\ cfg_ok Server default_server /\
  CheckAlgoList cannedKexAlgoNames TYPE_KEX = WS_SUCCESS /\
  let ck := repeat 7 16 in
  let pc := kexinit_payload Client default_client ck in
  let ps := kexinit_payload Server default_server ck in
  let good r := match r with
                | POk r _ => (n_pubkey r =? ID_RSA_SHA2_256) && d_aead (n_local r)
                | _ => false
                end in
  (lenN pc <? 4096) && (lenN ps <? 4096)
  && good (DoKexInit Server default_server pc (lenN pc) 0)
  && good (DoKexInit Client default_client ps (lenN ps) 0) = true.
Proof.
  assert (P : pubkeys_ok default_server).
  { apply Forall_forall. intros i Hi.
    assert (X : forallb (fun i => existsb (N.eqb i) table_ids) (a_pubkeys default_server) = true) by (vm_compute; reflexivity).
    rewrite forallb_forall in X. specialize (X i Hi). apply existsb_exists in X.
    destruct X as (k & Hk & E). apply N.eqb_eq in E. subst k. assumption. }
  split; [|split; [|split]].
  - unfold cfg_ok. do 4 (split; [apply own_okb_ok; vm_compute; reflexivity|]). constructor.
  - unfold cfg_ok. do 4 (split; [apply own_okb_ok; vm_compute; reflexivity|]). assumption.
  - vm_compute. reflexivity.
  - vm_compute. reflexivity.
Qed.
Definition subsetb (a b : list bytes) : bool := forallb (fun n => existsb (bytes_eqb n) b) a.
Lemma subsetb_ok : forall a b, subsetb a b = true -> forall n, In n a -> In n b.
Proof.
  intros a b H n Hn. unfold subsetb in H. rewrite forallb_forall in H. specialize (H n Hn).
  apply existsb_exists in H. destruct H as (k & Hk & E). apply bytes_eqb_eq in E. subst. assumption.
Qed.
(* and they name ciphers and MACs only, as C05_parameters asks *)
Example C05_parameters_nonvacuous :
  ciphers_only (own_enc default_client) /\ macs_only (own_mac default_client) /\
  ciphers_only (own_enc default_server) /\ macs_only (own_mac default_server).
Proof.
  split; [|split; [|split]]; unfold ciphers_only, macs_only; apply (fun a b H => subsetb_ok a b H); vm_compute; reflexivity.
Qed.
