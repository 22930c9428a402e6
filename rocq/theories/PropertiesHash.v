(** Theorems C07-C13: hashing, seeds, keys and wire formats. *)
From Coq Require Import Strings.String.
From Coq Require Import ZifyBool ZifyN ZifyNat.
From Verif Require Import Base BaseLemmas Deps Hex Eth SpecEth EthProofs Hash SpecHash HashProofs
  HashTree SigMap Settings Siwe Encode SpecWire WireProofs Delegation DelegationProofs Concrete.
Local Open Scope N_scope.

(** ** C07 Integers are hashed by their LEB128 encoding, within the fixed buffer *)

Theorem C07_hashes_minimal_leb128 : forall D n, n <= u64_max ->
  exists l, is_uleb128 l n /\ (length l <= 10)%nat /\ leb_buffer n = Done l /\
    hash_u64 D n = Done (d_sha256 D l).
Proof.
  intros D n H. exists (uleb128 n). split; [now apply uleb128_is|]. split; [apply uleb_length|].
  pose proof (leb_buffer_spec n H) as E. split; [exact E|]. unfold hash_u64. now rewrite E.
Qed.

(** The encoding is read back by an independent reader, whatever follows it. *)
Theorem C07_decodes : forall l n rest, is_uleb128 l n -> leb_read (l ++ rest) = Some (n, rest).
Proof. exact is_uleb_read. Qed.

Theorem C07_unique : forall l1 l2 n, is_uleb128 l1 n -> is_uleb128 l2 n -> l1 = l2.
Proof. exact is_uleb_fun. Qed.

Theorem C07_distinct : forall n1 n2 l, n1 <= u64_max -> n2 <= u64_max ->
  leb_buffer n1 = Done l -> leb_buffer n2 = Done l -> n1 = n2.
Proof.
  intros n1 n2 l H1 H2 E1 E2. rewrite leb_buffer_spec in E1, E2 by assumption.
  injection E1 as <-. injection E2 as E2. pose proof (uleb128_is n1 H1) as U1.
  pose proof (uleb128_is n2 H2) as U2. rewrite E2 in U2. eapply is_uleb_inj; eassumption.
Qed.

Example C07_case : leb_buffer 624485 = Done [xe5; x8e; x26] /\ is_uleb128 [xe5; x8e; x26] 624485 /\
  leb_buffer u64_max = Done [xff;xff;xff;xff;xff;xff;xff;xff;xff;x01].
Proof.
  split; [vm_compute; reflexivity|]. split; [|vm_compute; reflexivity].
  exists [xe5; x8e], x26. split; [reflexivity|]. split; [repeat constructor; vm_compute; discriminate|].
  split; [vm_compute; reflexivity|]. split; [right; vm_compute; discriminate|vm_compute; reflexivity].
Qed.

(** ** C08 The hash of a map does not depend on iteration order *)

Theorem C08_order_independent : forall D entries entries',
  Permutation entries entries' -> Forall (fun kv => value_wf (snd kv)) entries ->
  exists h, hash_of_map D entries = Done h /\ hash_of_map D entries' = Done h.
Proof. exact hash_of_map_perm. Qed.

Example C08_case : exists h,
  hash_of_map CD [(bs "a", VU64 300); (bs "b", VArray [VBytes [x01]; VString (bs "x")])] = Done h /\
  hash_of_map CD [(bs "b", VArray [VBytes [x01]; VString (bs "x")]); (bs "a", VU64 300)] = Done h.
Proof.
  apply C08_order_independent; [constructor|]. repeat constructor. vm_compute. discriminate.
Qed.

(** ** C09 The delegation hash is the IC's hash and binds every field *)

Theorem C09_is_ic_digest : forall D pubkey expiration targets, expiration <= u64_max ->
  exists h hashed, create_delegation_hash D (mkDelegation pubkey expiration targets) = Done h /\
    delegation_digest (d_sha256 D) pubkey expiration targets h hashed.
Proof. intros D pk e t He. exact (create_hash_digest D (mkDelegation pk e t) He). Qed.

(** The digest of the specification is unique, so the theorem above pins the hash down. *)
Theorem C09_digest_functional : forall H pk e t h1 q1 h2 q2,
  delegation_digest H pk e t h1 q1 -> delegation_digest H pk e t h2 q2 -> h1 = h2.
Proof.
  intros H pk e t h1 q1 h2 q2 (r1 & p1 & R1 & -> & _) (r2 & p2 & R2 & -> & _).
  f_equal. f_equal.
  destruct R1 as (hs1 & s1 & qs1 & F1 & P1 & S1 & -> & _).
  destruct R2 as (hs2 & s2 & qs2 & F2 & P2 & S2 & -> & _).
  apply delegation_fields_inv in F1 as (l1 & L1 & -> & _), F2 as (l2 & L2 & -> & _).
  rewrite (is_uleb_fun _ _ _ L1 L2) in P1. f_equal. f_equal.
  apply sorted_perm_eq; auto. etransitivity; [symmetry; exact P1|exact P2].
Qed.

Theorem C09_binds_every_field : forall D, deps_ok D -> forall pk1 e1 t1 pk2 e2 t2 h,
  e1 <= u64_max -> e2 <= u64_max ->
  create_delegation_hash D (mkDelegation pk1 e1 t1) = Done h ->
  create_delegation_hash D (mkDelegation pk2 e2 t2) = Done h ->
  (pk1 = pk2 /\ e1 = e2 /\ t1 = t2) \/
  exists hashed1 hashed2,
    delegation_digest (d_sha256 D) pk1 e1 t1 h hashed1 /\
    delegation_digest (d_sha256 D) pk2 e2 t2 h hashed2 /\
    cross_collision (d_sha256 D) hashed1 hashed2.
Proof.
  intros D HD pk1 e1 t1 pk2 e2 t2 h B1 B2 E1 E2.
  destruct (create_hash_binding D (mkDelegation pk1 e1 t1) (mkDelegation pk2 e2 t2) h HD B1 B2 E1 E2) as [E|H]; [left|right; exact H].
  injection E as -> -> ->. auto.
Qed.

(** Concrete: with and without targets, and with an empty target list, the hashes differ. *)
Example C09_case : exists h0 h1 h2,
  create_delegation_hash CD (mkDelegation [x30; x00] 1700000000000000000 None) = Done h0 /\
  create_delegation_hash CD (mkDelegation [x30; x00] 1700000000000000000 (Some [])) = Done h1 /\
  create_delegation_hash CD (mkDelegation [x30; x00] 1700000000000000000 (Some [[x01]; [x02; x03]])) = Done h2 /\
  NoDup [h0; h1; h2].
Proof.
  eexists _, _, _. split; [vm_compute; reflexivity|]. split; [vm_compute; reflexivity|].
  split; [vm_compute; reflexivity|]. apply (bool_decide_unpack _). vm_compute. exact I.
Qed.

(** ** C10 User seeds separate addresses and applications *)

(** The full claim, for any two accepted configurations and addresses. *)
Definition C10_claim (D : Deps) : Prop := forall s1 s2 x1 a1 x2 a2 seed,
  build D s1 = Done (Ok s1) -> build D s2 = Done (Ok s2) ->
  eth_address_new D x1 = Done (Ok a1) -> eth_address_new D x2 = Done (Ok a2) ->
  generate_seed D (Some s1) a1 = Done seed -> generate_seed D (Some s2) a2 = Done seed ->
  (s_salt s1 = s_salt s2 /\ x1 = x2 /\ seed_uri s1 = seed_uri s2) \/
  collision (d_sha256 D) (seed_input (s_salt s1) x1 (seed_uri s1)) (seed_input (s_salt s2) x2 (seed_uri s2)).

(** It holds whenever both salts are shorter than 256 bytes, or the URI is in
    neither seed, or the salts are equal.  Missing: long salts together with the URI feature. *)
Theorem C10_seed_binding_partial : forall D, deps_ok D -> forall s1 s2 x1 a1 x2 a2 seed,
  eth_address_new D x1 = Done (Ok a1) -> eth_address_new D x2 = Done (Ok a2) ->
  generate_seed D (Some s1) a1 = Done seed -> generate_seed D (Some s2) a2 = Done seed ->
  (length (s_salt s1) < 256 /\ length (s_salt s2) < 256)%nat \/
  (seed_uri s1 = None /\ seed_uri s2 = None) \/ s_salt s1 = s_salt s2 ->
  (s_salt s1 = s_salt s2 /\ x1 = x2 /\ seed_uri s1 = seed_uri s2) \/
  collision (d_sha256 D) (seed_input (s_salt s1) x1 (seed_uri s1)) (seed_input (s_salt s2) x2 (seed_uri s2)).
Proof.
  intros D HD s1 s2 x1 a1 x2 a2 seed A1 A2 G1 G2 Hc.
  apply eth_address_new_ok in A1 as (-> & b1 & Hb1 & E1); [|assumption].
  apply eth_address_new_ok in A2 as (-> & b2 & Hb2 & E2); [|assumption].
  rewrite generate_seed_input in G1, G2. cbn [addr_str] in *.
  assert (length x1 = length x2) as Hl.
  { subst x1 x2. rewrite !eip55_length by (auto; lia). lia. }
  set (i1 := seed_input _ x1 _) in *. set (i2 := seed_input _ x2 _) in *.
  destruct (decide (i1 = i2)) as [E|Hne].
  - left. now apply seed_input_inj in E.
  - right. split; [assumption|]. congruence.
Qed.

(** Under one configuration the claim holds in full: seeds separate addresses. *)
Theorem C10_one_configuration : forall D, deps_ok D -> forall s x1 a1 x2 a2 seed,
  eth_address_new D x1 = Done (Ok a1) -> eth_address_new D x2 = Done (Ok a2) ->
  generate_seed D (Some s) a1 = Done seed -> generate_seed D (Some s) a2 = Done seed ->
  x1 = x2 \/
  collision (d_sha256 D) (seed_input (s_salt s) x1 (seed_uri s)) (seed_input (s_salt s) x2 (seed_uri s)).
Proof.
  intros D HD s x1 a1 x2 a2 seed A1 A2 G1 G2.
  destruct (C10_seed_binding_partial D HD s s x1 a1 x2 a2 seed A1 A2 G1 G2) as [(_ & E & _)|C]; auto.
Qed.

(** The full claim is false: two accepted configurations with different salts and
    URIs, and two different addresses, hash the very same bytes. *)
Definition ref_addr1 : bytes := bs "0x0000000000000000000000000000000000000000".
Definition ref_addr2 : bytes := bs "0x0000000000000000000000000000000000000001".
Definition ref_uri2 : bytes := bs "https://example.com/" ++ repeat x61 20.
Definition ref_prefix : bytes := bs "https://example.com/" ++ repeat x62 192.
Definition ref_uri1 : bytes := ref_prefix ++ [x2a] ++ ref_addr2 ++ [x28] ++ ref_uri2.
Definition ref_salt1 : bytes := bs "salt".
Definition ref_salt2 : bytes := ref_salt1 ++ [x2a] ++ ref_addr1 ++ [x28] ++ ref_prefix.
Definition ref_settings1 : Settings :=
  set_features [IncludeUriInSeed] (builder_new (bs "example.com") ref_uri1 ref_salt1).
Definition ref_settings2 : Settings :=
  set_features [IncludeUriInSeed] (builder_new (bs "example.com") ref_uri2 ref_salt2).

(** What the refutation needs of Url::parse: it accepts https URLs on example.com with a printable path.
    The model of the parser in Url.v does (C10_url_refuted in PropertiesUrl.v). *)
Definition accepts_https (D : Deps) : Prop := forall path, forallb is_ascii_graphic path = true ->
  path = [] \/ hd_error path = Some x2f ->
  exists u, d_url_parse D (bs "https://example.com" ++ path) = Some u /\
    url_has_authority u = true /\ url_host u <> None.

Lemma digits_address D b : deps_ok D -> length b = 20%nat ->
  Forall (fun n => n < 10) (nibbles b) -> eip55 (d_keccak D) b = bs "0x" ++ hex_encode b.
Proof.
  intros HD Hb Hn. unfold eip55. f_equal. rewrite hex_encode_nibbles.
  assert (length (nibbles b) <= length (nibbles (d_keccak D (lower_hex b))))%nat as Hl.
  { rewrite !nibbles_length, (keccak_len _ HD). lia. }
  revert Hl. generalize (nibbles (d_keccak D (lower_hex b))). clear Hb.
  induction (nibbles b) as [|n ns IH]; intros hs Hl; [reflexivity|].
  destruct hs as [|h hs]; [simpl in Hl; lia|]. apply List.Forall_cons_iff in Hn as [H10 Hn].
  cbn [zip_with map]. f_equal; [|apply IH; auto; simpl in Hl; lia].
  assert (In n [0;1;2;3;4;5;6;7;8;9]) as Hin by (simpl; lia).
  simpl in Hin. destruct (8 <=? h);
  repeat (destruct Hin as [<-|Hin]; [reflexivity|]); contradiction.
Qed.

Lemma digits_accepted D b : deps_ok D -> length b = 20%nat ->
  Forall (fun n => n < 10) (nibbles b) ->
  eth_address_new D (bs "0x" ++ hex_encode b) = Done (Ok (mkEthAddress (bs "0x" ++ hex_encode b))).
Proof.
  intros HD Hb Hn. rewrite <- (digits_address D b HD Hb Hn). now apply eth_address_new_eip55.
Qed.

Theorem C10_seed_binding_refuted : forall D, deps_ok D -> accepts_https D ->
  exists s1 s2 x1 a1 x2 a2 seed,
    build D s1 = Done (Ok s1) /\ build D s2 = Done (Ok s2) /\
    eth_address_new D x1 = Done (Ok a1) /\ eth_address_new D x2 = Done (Ok a2) /\
    generate_seed D (Some s1) a1 = Done seed /\ generate_seed D (Some s2) a2 = Done seed /\
    s_salt s1 <> s_salt s2 /\ x1 <> x2 /\ seed_uri s1 <> seed_uri s2 /\
    seed_input (s_salt s1) x1 (seed_uri s1) = seed_input (s_salt s2) x2 (seed_uri s2).
Proof.
  intros D HD Hurl.
  exists ref_settings1, ref_settings2, ref_addr1, (mkEthAddress ref_addr1), ref_addr2, (mkEthAddress ref_addr2),
    (d_sha256 D (seed_input ref_salt1 ref_addr1 (Some ref_uri1))).
  assert (forall path, forallb is_ascii_graphic path = true -> path = [] \/ hd_error path = Some x2f ->
     validate_uri D (bs "https://example.com" ++ path) = Done (Ok tt)) as Hu.
  { intros path Hp Hs. destruct (Hurl path Hp Hs) as (u & E & _ & Hh). unfold validate_uri. rewrite E.
    destruct (url_host u); [reflexivity|contradiction]. }
  assert (validate_domain D (bs "https") (bs "example.com") = Done (Ok tt)) as Hd.
  { destruct (Hurl [] eq_refl (or_introl eq_refl)) as (u & E & Ha & Hh). unfold validate_domain.
    change (bs "https" ++ bs "://" ++ bs "example.com") with (bs "https://example.com" ++ []).
    rewrite E, Ha. destruct (url_host u); [reflexivity|contradiction]. }
  assert (forall uri salt path, uri = bs "https://example.com" ++ path -> forallb is_ascii_graphic path = true ->
    path = [] \/ hd_error path = Some x2f -> validate_salt salt = Done (Ok tt) ->
    build D (set_features [IncludeUriInSeed] (builder_new (bs "example.com") uri salt))
    = Done (Ok (set_features [IncludeUriInSeed] (builder_new (bs "example.com") uri salt)))) as Hbuild.
  { intros uri salt path -> Hp Hq Hs. unfold build, set_features, builder_new.
    cbn [s_scheme s_domain s_uri s_salt s_chain_id s_statement s_sign_in_expires_in s_session_expires_in s_targets].
    change DEFAULT_SCHEME with (bs "https"). rewrite Hd, (Hu path Hp Hq), Hs. reflexivity. }
  split; [apply (Hbuild ref_uri1 ref_salt1 (drop 19 ref_uri1)); vm_compute; auto|].
  split; [apply (Hbuild ref_uri2 ref_salt2 (drop 19 ref_uri2)); vm_compute; auto|].
  split; [|split].
  { apply (digits_accepted D (repeat x00 20) HD eq_refl). vm_compute. repeat constructor. }
  { apply (digits_accepted D (repeat x00 19 ++ [x01]) HD eq_refl). vm_compute. repeat constructor. }
  rewrite !generate_seed_input. split; [reflexivity|].
  assert (seed_input ref_salt1 ref_addr1 (Some ref_uri1) = seed_input ref_salt2 ref_addr2 (Some ref_uri2)) as E
    by (vm_compute; reflexivity).
  split; [rewrite E; reflexivity|].
  split; [vm_compute; discriminate|]. split; [vm_compute; discriminate|].
  split; [vm_compute; discriminate|]. exact E.
Qed.

Theorem C10_claim_refuted : forall D, deps_ok D -> accepts_https D -> ~ C10_claim D.
Proof.
  intros D HD Hu Hc. destruct (C10_seed_binding_refuted D HD Hu)
    as (s1 & s2 & x1 & a1 & x2 & a2 & seed & B1 & B2 & A1 & A2 & G1 & G2 & N1 & _ & _ & E).
  destruct (Hc s1 s2 x1 a1 x2 a2 seed B1 B2 A1 A2 G1 G2) as [(E1 & _)|[Hne _]]; contradiction.
Qed.

Example C10_case : deps_ok CD /\ accepts_https CD.
Proof.
  split; [apply CD_ok|]. intros path Hp _. cbn [CD d_url_parse]. unfold toy_url.
  change (strip_prefix (bs "https://") (bs "https://example.com" ++ path)) with (Some (bs "example.com" ++ path)).
  cbn [until_sep app bs String.list_byte_of_string]. eexists. split; [cbv -[until_sep]; reflexivity|]. split; [reflexivity|discriminate].
Qed.

(** ** C11 Pending sign-in messages are keyed injectively *)

Theorem C11_key_injective : forall D, deps_ok D -> forall x1 a1 b1 n1 x2 a2 b2 n2 k,
  eth_address_new D x1 = Done (Ok a1) -> eth_address_new D x2 = Done (Ok a2) ->
  addr_as_bytes a1 = Done b1 -> addr_as_bytes a2 = Done b2 ->
  siwe_message_map_hash D a1 n1 = Done k -> siwe_message_map_hash D a2 n2 = Done k ->
  (x1 = x2 /\ n1 = n2) \/
  collision (d_sha256 D) (message_key_input b1 n1) (message_key_input b2 n2).
Proof.
  intros D HD x1 a1 b1 n1 x2 a2 b2 n2 k A1 A2 B1 B2 K1 K2.
  destruct (as_bytes_ok D x1 a1 HD A1) as (c1 & L1 & E1 & B1' & _).
  destruct (as_bytes_ok D x2 a2 HD A2) as (c2 & L2 & E2 & B2' & _).
  rewrite B1 in B1'. injection B1' as <-. rewrite B2 in B2'. injection B2' as <-.
  unfold siwe_message_map_hash in K1, K2. rewrite B1 in K1. rewrite B2 in K2. cbn [obind] in *.
  injection K1 as <-. injection K2 as K2.
  change (message_key_preimage b1 n1) with (message_key_input b1 n1) in K2.
  change (message_key_preimage b2 n2) with (message_key_input b2 n2) in K2.
  destruct (decide (message_key_input b1 n1 = message_key_input b2 n2)) as [E|Hne].
  - left. apply message_key_input_inj in E as [-> ->]; [|congruence]. split; [congruence|reflexivity].
  - right. split; [assumption|]. symmetry. exact K2.
Qed.

(** Concrete: a nonce long enough to wrap the length byte. *)
Example C11_case : exists k1 k2,
  siwe_message_map_hash CD (mkEthAddress ref_addr1) (repeat x61 256) = Done k1 /\
  siwe_message_map_hash CD (mkEthAddress ref_addr1) [] = Done k2 /\ k1 <> k2.
Proof. eexists _, _. split; [vm_compute; reflexivity|]. split; [vm_compute; reflexivity|]. vm_compute. discriminate. Qed.

(** ** C12 User public keys are well-formed and bind canister and seed *)

Theorem C12_decodes : forall cid seed, (length cid <= 29)%nat -> length seed = 32%nat ->
  canister_pubkey_decode (create_user_canister_pubkey cid seed) = Some (cid, seed).
Proof.
  intros cid seed Hc Hs. apply pubkey_decodes; [lia|]. unfold blen. rewrite Hs. vm_compute. reflexivity.
Qed.

Theorem C12_injective : forall cid1 seed1 cid2 seed2,
  (length cid1 <= 29)%nat -> length seed1 = 32%nat -> (length cid2 <= 29)%nat -> length seed2 = 32%nat ->
  create_user_canister_pubkey cid1 seed1 = create_user_canister_pubkey cid2 seed2 ->
  cid1 = cid2 /\ seed1 = seed2.
Proof.
  intros cid1 seed1 cid2 seed2 H1 H2 H3 H4 E.
  pose proof (C12_decodes cid1 seed1 H1 H2) as D1. pose proof (C12_decodes cid2 seed2 H3 H4) as D2.
  rewrite E, D2 in D1. injection D1 as -> ->. auto.
Qed.

(** Concrete: the key has the fixed 17-byte header of canister-signature keys. *)
Example C12_case : exists tail,
  create_user_canister_pubkey [x00;x00;x00;x00;x00;x00;x00;x0a;x01;x01] (repeat x07 32)
  = [x30;x3c;x30;x0c;x06;x0a;x2b;x06;x01;x04;x01;x83;xb8;x43;x01;x02;x03;x2c;x00;x0a] ++ tail.
Proof. eexists. vm_compute. reflexivity. Qed.

(** ** C13 The delegation signature is decodable CBOR *)

Theorem C13_decodes : forall certificate tree,
  blen certificate < 2 ^ 64 -> tree_small tree ->
  canister_signature_decode (create_certified_signature certificate tree) = Some (certificate, tree).
Proof. exact cbor_signature_decodes. Qed.

Example C13_case :
  let tree := HFork (HPruned (repeat x11 32)) (HLabeled (bs "sig") (HFork (HLeaf []) HEmpty)) in
  canister_signature_decode (create_certified_signature (repeat x05 300) tree) = Some (repeat x05 300, tree).
Proof. vm_compute. reflexivity. Qed.

Print Assumptions C07_hashes_minimal_leb128.
Print Assumptions C07_decodes.
Print Assumptions C07_unique.
Print Assumptions C07_distinct.
Print Assumptions C08_order_independent.
Print Assumptions C09_is_ic_digest.
Print Assumptions C09_digest_functional.
Print Assumptions C09_binds_every_field.
Print Assumptions C10_seed_binding_partial.
Print Assumptions C10_one_configuration.
Print Assumptions C10_seed_binding_refuted.
Print Assumptions C11_key_injective.
Print Assumptions C12_decodes.
Print Assumptions C12_injective.
Print Assumptions C13_decodes.
