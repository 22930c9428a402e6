(** The unit tests of packages/ic_siwe/src, run on the model: each Example has the name of the
    test and says what the test asserts.  The instance of the external functions is [TD]: SHA-256,
    Keccak-256, secp256k1, the DER parser and the URL parser as modelled; idna lowers the case, which
    is enough for settings.rs 554-558. *)
From Coq Require Import Strings.String.
From Verif Require Import Base BaseLemmas Deps Hex Eth Settings Hash Encode HashTree RbTree SigMap Delegation PrincipalText Keccak Sha2
  SpecEth EthProofs SpecTrace Concrete Asn1 Url Secp SpecEcdsa EcdsaBytes EcdsaProofs LoginProofs PointCerts TestCerts PropertiesEcdsa.
Local Open Scope N_scope.

Definition test_idna : url_libs :=
  {| u_idna := fun d => Some (map to_lower d); u_drive := fun _ => false |}.
Definition TD : Deps := with_url test_idna (with_k256 CD).

Definition is_ok {A E} (x : outcome (result A E)) : bool := match x with Done (Ok _) => true | _ => false end.
Definition is_err {A E} (x : outcome (result A E)) : bool := match x with Done (Err _) => true | _ => false end.
Definition err_text {A E} (show : E -> bytes) (x : outcome (result A E)) : option bytes :=
  match x with Done (Err e) => Some (show e) | _ => None end.
Definition unwrap_ok {A E} (x : outcome (result A E)) : outcome A :=
  match x with Done (Ok a) => Done a | Done (Err _) => Trap "unwrap" | Trap t => Trap t end.

Definition hx (s : string) : bytes := match hex_decode (bs s) with Ok b => b | Err _ => [] end.
Definition nat_bytes (l : list N) : bytes := map u8 l.

(** ** hash.rs 108-262 *)

Example message_id_icf_key_val_reference_1 : hash_key_value TD (bs "request_type", VString (bs "call")) =
  Done (hx "769e6f87bdda39c859642b74ce9763cdd37cb1cd672733e8c54efaa33ab78af97edb360f06acaef2cc80dba16cf563f199d347db4443da04da0c8173e3f9e4ed").
Proof. vm_compute. reflexivity. Qed.
Example message_id_u64_id_reference :
  hash_u64 TD 0 = Done (hx "6e340b9cffb37a989ca544e6bb780a2c78901d3fb33738768511a30617afa01d") /\
  hash_u64 TD 1234 = Done (hx "8b37fd3ebbe6396a89ed8563dd0cc55927ac90138950460c77cffeb55cf63810") /\
  hash_u64 TD 0xffffffffffffffff = Done (hx "51672ea45f3539654bf9193f4ff763d90022eee7df5f5b76353d6f11a9eaccec").
Proof. vm_compute. repeat split. Qed.
Example message_id_string_reference_1 : hash_string TD (bs "request_type") =
  hx "769e6f87bdda39c859642b74ce9763cdd37cb1cd672733e8c54efaa33ab78af9".
Proof. vm_compute. reflexivity. Qed.
Example message_id_string_reference_2 : hash_string TD (bs "call") =
  hx "7edb360f06acaef2cc80dba16cf563f199d347db4443da04da0c8173e3f9e4ed".
Proof. vm_compute. reflexivity. Qed.
Example message_id_string_reference_3 : hash_string TD (bs "callee") =
  hx "92ca4c0ced628df1e7b9f336416ead190bd0348615b6f71a64b21d1b68d4e7e2".
Proof. vm_compute. reflexivity. Qed.
Example message_id_string_reference_4 : hash_string TD (bs "method_name") =
  hx "293536232cf9231c86002f4ee293176a0179c002daa9fc24be9bb51acdd642b6".
Proof. vm_compute. reflexivity. Qed.
Example message_id_string_reference_5 : hash_string TD (bs "hello") =
  hx "2cf24dba5fb0a30e26e83b2ac5b9e29e1b161e5c1fa7425e73043362938b9824".
Proof. vm_compute. reflexivity. Qed.
Example message_id_string_reference_6 : hash_string TD (bs "arg") =
  hx "b25f03dedd69be07f356a06fe35c1b0ddc0de77dcd9066c4be0c6bbde14b23ff".
Proof. vm_compute. reflexivity. Qed.
Example message_id_array_reference_1 : hash_value TD (VArray [VString (bs "a")]) =
  Done (hx "bf5d3affb73efd2ec6c36ad3112dd933efed63c4e1cbffcfa88e2759c144f2d8").
Proof. vm_compute. reflexivity. Qed.
Example message_id_array_reference_2 : hash_value TD (VArray [VString (bs "a"); VString (bs "b")]) =
  Done (hx "e5a01fee14e0ed5c48714f22180f25ad8365b53f9779f79dc4a3d7e93963f94a").
Proof. vm_compute. reflexivity. Qed.
Example message_id_array_reference_3 : hash_value TD (VArray [VBytes [x61]; VString (bs "b")]) =
  Done (hx "e5a01fee14e0ed5c48714f22180f25ad8365b53f9779f79dc4a3d7e93963f94a").
Proof. vm_compute. reflexivity. Qed.
Example message_id_array_reference_4 : hash_value TD (VArray [VArray [VString (bs "a")]]) =
  Done (hx "eb48bdfa15fc43dbea3aabb1ee847b6e69232c0f0d9705935e50d60cce77877f").
Proof. vm_compute. reflexivity. Qed.
Example message_id_array_reference_5 : hash_value TD (VArray [VArray [VString (bs "a"); VString (bs "b")]]) =
  Done (hx "029fd80ca2dd66e7c527428fc148e812a9d99a5e41483f28892ef9013eee4a19").
Proof. vm_compute. reflexivity. Qed.
Example message_id_array_reference_6 :
  hash_value TD (VArray [VArray [VString (bs "a"); VString (bs "b")]; VBytes [x61]]) =
  Done (hx "aec3805593d9ec6df50da070597f73507050ce098b5518d0456876701ada7bb7").
Proof. vm_compute. reflexivity. Qed.
Example message_id_bytes_reference : hash_bytes TD (nat_bytes [68; 73; 68; 76; 0; 253; 42]) =
  hx "6c0b2ae49718f6995c02ac5700c9c789d7b7862a0d53e6d40a73f1fcd2f70189".
Proof. vm_compute. reflexivity. Qed.

(** ** eth.rs 295-483 *)

Example test_eth_address_invalid_address :
  err_text show_eth_error (eth_address_new TD (bs "0xG" ++ repeat x31 39)) =
  Some (bs "Decoding error: Invalid character 'G' at position 0").
Proof. vm_compute. reflexivity. Qed.
Example test_eth_address_invalid_hex_encoding :
  err_text show_eth_error (eth_address_new TD (bs "0x" ++ repeat x47 40)) =
  Some (bs "Decoding error: Invalid character 'G' at position 0").
Proof. vm_compute. reflexivity. Qed.
Example test_eth_address_too_short :
  err_text show_eth_error (eth_address_new TD (bs "0x" ++ repeat x31 39)) =
  Some (bs "Address format error: Must start with '0x' and be 42 characters long").
Proof. vm_compute. reflexivity. Qed.
Example test_eth_address_too_long :
  err_text show_eth_error (eth_address_new TD (bs "0x" ++ repeat x31 41)) =
  Some (bs "Address format error: Must start with '0x' and be 42 characters long").
Proof. vm_compute. reflexivity. Qed.
Example test_eth_address_invalid_eip55 :
  err_text show_eth_error (eth_address_new TD (bs "0x5aaeb6053f3e94c9b9a09f33669435e7ef1beaed")) =
  Some (bs "EIP-55 error: Not EIP-55 encoded").
Proof. vm_compute. reflexivity. Qed.

Definition generate_valid_signature : bytes := bs "0x" ++ repeat x31 130.
Example test_eth_signature_new_valid : is_ok (eth_signature_new generate_valid_signature) = true.
Proof. vm_compute. reflexivity. Qed.
Example test_eth_signature_new_invalid_format : is_err (eth_signature_new (bs "0x1")) = true.
Proof. vm_compute. reflexivity. Qed.
Example test_eth_signature_new_invalid_length : is_err (eth_signature_new (bs "0x" ++ repeat x31 131)) = true.
Proof. vm_compute. reflexivity. Qed.
Example test_eth_signature_as_bytes :
  (olet s := unwrap_ok (eth_signature_new generate_valid_signature) in olet b := sig_as_bytes s in Done (length b)) = Done 65%nat.
Proof. vm_compute. reflexivity. Qed.
Example test_eth_signature_as_byte_array :
  (olet s := unwrap_ok (eth_signature_new generate_valid_signature) in olet b := sig_as_byte_array s in Done (length b)) = Done 65%nat.
Proof. vm_compute. reflexivity. Qed.

Example test_convert_to_eip55 : convert_to_eip55 TD (bs "0xfb6916095ca1df60bb79ce92ce3ea74c37c5d359") =
  Done (Ok (bs "0xfB6916095ca1df60bB79Ce92cE3Ea74c37c5d359")).
Proof. vm_compute. reflexivity. Qed.
Example test_convert_to_eip55_already_valid : convert_to_eip55 TD (bs "0xfB6916095ca1df60bB79Ce92cE3Ea74c37c5d359") =
  Done (Ok (bs "0xfB6916095ca1df60bB79Ce92cE3Ea74c37c5d359")).
Proof. vm_compute. reflexivity. Qed.

(** create_wallet, sign_hash: the wallet of private key 5 (EcdsaVector.v has a signature by a real
    wallet); the random key is replaced by a fixed one, and the ephemeral key is 1. *)
Definition wallet_sig (message : bytes) : bytes :=
  bs "0x" ++ hex_encode (one_sig 5 (os2ip (keccak256 (eip191_bytes message)))).
Definition marlene : bytes := bs "It's me, Marlene, do you miss me?!".
Definition marlene_sig : bytes := Eval vm_compute in wallet_sig marlene.

Definition wrong_key : Z := 0x849702eb53c9bfbd0fe71555fed67479cab8ca56fb269288235a7f25f1bb776a%Z.
Definition wrong_Q : Z * Z :=
  (0x23b28f1310dee72e1e7965a3b8289159ccf7f8fd64af902a021a84f607913dd1%Z,
   0x84c011fc003f1512e5e09067880bfcb601dcd879ddbbbe7999927b8a48539824%Z).
Definition wrong_addr : bytes := Eval vm_compute in drop 12 (keccak256 (be_bytes 32 (fst wrong_Q) ++ be_bytes 32 (snd wrong_Q))).

Lemma recovers_with_url L D message sg x : recovers D message sg x -> recovers (with_url L D) message sg x.
Proof. exact id. Qed.
Lemma wallet_recovers d Q addr message sg : key_pair d Q -> key_address keccak256 Q addr -> wallet_signature keccak256 d message sg ->
  exists s, eth_signature_new sg = Done (Ok s) /\ recover_eth_address TD message s = Done (Ok (eip55 keccak256 addr)).
Proof.
  intros Hk Ha Hw. pose proof Hw as (framed & b & _ & _ & Hb).
  assert (recovers (with_k256 CD) message sg (eip55 keccak256 addr)) as Hr.
  { apply (recovers_wallet CD); [exact CD_ok|]. exists d, Q, addr. split; [exact Hk|]. split; [exact Ha|]. split; [reflexivity|exact Hw]. }
  destruct (signature_cases sg) as [(e & _ & F)|(b' & Hb' & E & Eb)]; [now destruct (F b)|].
  exists (mkEthSignature sg). split; [exact E|]. apply (recovers_iff TD message sg b'); [|exact Hb'|exact Eb|].
  - apply with_url_ok, with_k256_ok, CD_ok.
  - unfold TD. apply recovers_with_url. exact Hr.
Qed.

Example test_recover_eth_address : wallet_signature keccak256 5 marlene marlene_sig /\
  exists s, eth_signature_new marlene_sig = Done (Ok s) /\ recover_eth_address TD marlene s = Done (Ok five_text).
Proof.
  assert (wallet_signature keccak256 5 marlene marlene_sig) as Hw.
  { replace marlene_sig with (wallet_sig marlene) by (vm_compute; reflexivity).
    apply one_sig_wallet; [vm_compute; split; reflexivity|vm_compute; discriminate]. }
  split; [exact Hw|]. replace five_text with (eip55 keccak256 five_addr) by (vm_compute; reflexivity).
  exact (wallet_recovers 5 _ _ _ _ five_key five_address Hw).
Qed.

(** "signature.pop(); signature.push('0')" *)
Example test_recover_eth_address_with_invalid_signature :
  err_text show_eth_error (olet s := unwrap_ok (eth_signature_new (take 131 marlene_sig ++ [x30])) in recover_eth_address TD marlene s) =
  Some (bs "Invalid recovery ID").
Proof. vm_compute. reflexivity. Qed.

(** The signature of one message recovers, for another message, to the address of another key. *)
Example test_recover_eth_address_with_wrong_message :
  wallet_signature keccak256 5 (bs "Message 1") (wallet_sig (bs "Message 1")) /\
  exists s x, eth_signature_new (wallet_sig (bs "Message 1")) = Done (Ok s) /\
    recover_eth_address TD (bs "Message 2") s = Done (Ok x) /\ x <> five_text.
Proof.
  split; [apply one_sig_wallet; [vm_compute; split; reflexivity|vm_compute; discriminate]|].
  assert (key_pair wrong_key (Aff (fst wrong_Q) (snd wrong_Q))) as Hk.
  { split; [vm_compute; split; reflexivity|]. apply (chain_point chain_wrong_message); vm_compute; reflexivity. }
  assert (key_address keccak256 (Aff (fst wrong_Q) (snd wrong_Q)) wrong_addr) as Ha.
  { replace wrong_addr with (drop 12 (keccak256 (be_bytes 32 (fst wrong_Q) ++ be_bytes 32 (snd wrong_Q)))) by (vm_compute; reflexivity).
    apply key_address_of; [apply (keccak_len _ CD_ok)|vm_compute; intuition discriminate|vm_compute; intuition discriminate]. }
  assert (wallet_signature keccak256 wrong_key (bs "Message 2") (wallet_sig (bs "Message 1"))) as Hw.
  { replace (wallet_sig (bs "Message 1"))
      with (bs "0x" ++ hex_encode (one_sig wrong_key (os2ip (keccak256 (eip191_bytes (bs "Message 2")))))) by (vm_compute; reflexivity).
    apply one_sig_wallet; [vm_compute; split; reflexivity|vm_compute; discriminate]. }
  destruct (wallet_recovers _ _ _ _ _ Hk Ha Hw) as (s & E1 & E2). exists s. eexists. split; [exact E1|]. split; [exact E2|].
  vm_compute. discriminate.
Qed.

(** ** settings.rs 274-559 *)

Definition example_builder : Settings := builder_new (bs "example.com") (bs "http://example.com") (bs "some_salt").
Definition anonymous : bytes := [x04].

Example test_successful_settings_creation_defaults : exists s, build TD example_builder = Done (Ok s) /\
  s_domain s = bs "example.com" /\ s_uri s = bs "http://example.com" /\ s_salt s = bs "some_salt" /\
  s_chain_id s = DEFAULT_CHAIN_ID /\ s_scheme s = DEFAULT_SCHEME /\ s_statement s = DEFAULT_STATEMENT /\
  s_sign_in_expires_in s = DEFAULT_SIGN_IN_EXPIRES_IN /\ s_session_expires_in s = DEFAULT_SESSION_EXPIRES_IN /\
  s_targets s = None.
Proof. eexists. split; [vm_compute; reflexivity|]. repeat split. Qed.
Example test_successful_settings_creation_custom : exists s,
  build TD (set_targets [anonymous] (set_session_expires_in 20000000000 (set_sign_in_expires_in 10000000000
    (set_statement (bs "Custom statement") (set_scheme (bs "http") (set_chain_id 3 example_builder)))))) = Done (Ok s) /\
  s_chain_id s = 3 /\ s_scheme s = bs "http" /\ s_statement s = bs "Custom statement" /\
  s_sign_in_expires_in s = 10000000000 /\ s_session_expires_in s = 20000000000 /\ s_targets s = Some [anonymous].
Proof. eexists. split; [vm_compute; reflexivity|]. repeat split. Qed.
Example test_empty_salt : is_err (build TD (builder_new (bs "example.com") (bs "http://example.com") (bs ""))) = true.
Proof. vm_compute. reflexivity. Qed.
Example test_invalid_chain_id : is_err (build TD (set_chain_id 0 example_builder)) = true.
Proof. vm_compute. reflexivity. Qed.
Example test_invalid_scheme : is_err (build TD (set_scheme (bs "ftp") example_builder)) = true.
Proof. vm_compute. reflexivity. Qed.
Example test_invalid_statement : is_err (build TD (set_statement (bs "Invalid" ++ [x0a] ++ bs "Statement") example_builder)) = true.
Proof. vm_compute. reflexivity. Qed.
Example test_sign_in_expires_in_zero : is_err (build TD (set_sign_in_expires_in 0 example_builder)) = true.
Proof. vm_compute. reflexivity. Qed.
Example test_session_expires_in_zero : is_err (build TD (set_session_expires_in 0 example_builder)) = true.
Proof. vm_compute. reflexivity. Qed.
Example test_empty_targets : is_err (build TD (set_targets [] example_builder)) = true.
Proof. vm_compute. reflexivity. Qed.
Example test_too_many_targets : is_err (build TD (set_targets (repeat anonymous 1001) example_builder)) = true.
Proof. vm_compute. reflexivity. Qed.
Example test_duplicate_targets : is_err (build TD (set_targets [anonymous; anonymous] example_builder)) = true.
Proof. vm_compute. reflexivity. Qed.
Example test_valid_domain_formats :
  forallb (fun d => is_ok (build TD (builder_new d (bs "http://example.com") (bs "some_salt"))))
    [bs "example.com"; bs "sub.domain.com"; bs "example.co.uk"] = true.
Proof. vm_compute. reflexivity. Qed.
Example test_invalid_domain_formats : is_err (build TD (builder_new (bs "") (bs "http://example.com") (bs "some_salt"))) = true.
Proof. vm_compute. reflexivity. Qed.
Example test_valid_uri_formats :
  forallb (fun u => is_ok (build TD (builder_new (bs "example.com") u (bs "some_salt"))))
    [bs "http://example.com"; bs "https://example.com:8080/path"] = true.
Proof. vm_compute. reflexivity. Qed.
Example test_invalid_uris :
  forallb (fun u => is_err (build TD (builder_new (bs "example.com") u (bs "some_salt")))) [bs ""; bs "just_string"] = true.
Proof. vm_compute. reflexivity. Qed.
Example test_chain_id_zero : is_err (build TD (set_chain_id 0 example_builder)) = true.
Proof. vm_compute. reflexivity. Qed.
Example test_uri_with_port_numbers :
  is_ok (build TD (builder_new (bs "example.com") (bs "http://example.com:8080") (bs "some_salt"))) = true.
Proof. vm_compute. reflexivity. Qed.
Example test_valid_salt_lengths :
  forallb (fun len => is_ok (build TD (builder_new (bs "example.com") (bs "http://example.com") (repeat x61 len))))
    [1; 10; 100]%nat = true.
Proof. vm_compute. reflexivity. Qed.
Example test_chain_id_boundary_values : is_ok (build TD (set_chain_id u32_max example_builder)) = true.
Proof. vm_compute. reflexivity. Qed.
Example test_scheme_case_sensitivity : is_err (build TD (set_scheme (bs "HTTP") example_builder)) = true.
Proof. vm_compute. reflexivity. Qed.
Example test_statement_length_and_content : is_ok (build TD (set_statement (repeat x61 1000) example_builder)) = true.
Proof. vm_compute. reflexivity. Qed.
Example test_extreme_expiration_values :
  is_ok (build TD (set_session_expires_in u64_max (set_sign_in_expires_in 1 example_builder))) = true.
Proof. vm_compute. reflexivity. Qed.
Example test_targets_with_various_principal_formats : exists mgmt, principal_from_text (bs "aaaaa-aa") = Some mgmt /\
  is_ok (build TD (set_targets [anonymous; mgmt] example_builder)) = true.
Proof. eexists. split; vm_compute; reflexivity. Qed.
Example test_multiple_valid_and_invalid_combinations :
  is_err (build TD (set_scheme (bs "ftp") (set_chain_id 0 (builder_new (bs "") (bs "invalid_uri") (bs ""))))) = true.
Proof. vm_compute. reflexivity. Qed.
Example test_partially_initialized_builder : is_ok (build TD (set_scheme (bs "http") example_builder)) = true.
Proof. vm_compute. reflexivity. Qed.
Example test_overwriting_default_values :
  is_ok (build TD (set_chain_id DEFAULT_CHAIN_ID (set_scheme DEFAULT_SCHEME example_builder))) = true.
Proof. vm_compute. reflexivity. Qed.
Example test_malformed_uris :
  is_err (build TD (builder_new (bs "example.com") (bs "://missing_protocol.com") (bs "some_salt"))) = true.
Proof. vm_compute. reflexivity. Qed.
Example test_invalid_salt_content :
  is_err (build TD (builder_new (bs "example.com") (bs "http://example.com") (x00 :: bs "invalid_salt"))) = true.
Proof. vm_compute. reflexivity. Qed.
Example test_invalid_statement_formats :
  is_err (build TD (set_statement (bs "Invalid" ++ [x0a] ++ bs "Statement") example_builder)) = true.
Proof. vm_compute. reflexivity. Qed.
Example test_validating_an_empty_settingsbuilder : is_err (build TD (builder_new [] [] [])) = true.
Proof. vm_compute. reflexivity. Qed.
Example test_domain_with_international_characters :
  is_ok (build TD (builder_new (bs "xn--exmple-cua.com") (bs "http://example.com") (bs "some_salt"))) = true.
Proof. vm_compute. reflexivity. Qed.

(** ** delegation.rs 258-460.  get_current_time is the time of the machine there; 0 stands for it. *)

Definition SESSION_KEY : bytes := nat_bytes
  [48; 42; 48; 5; 6; 3; 43; 101; 112; 3; 33; 0; 220; 227; 2; 129; 72; 36; 43; 220; 96; 102; 225; 92; 98; 163; 114; 182;
   117; 181; 51; 15; 219; 197; 104; 55; 123; 245; 74; 181; 35; 181; 171; 196].
Definition SESSION_KEY_2 : bytes := nat_bytes
  [48; 42; 48; 5; 6; 3; 43; 101; 112; 3; 33; 0; 228; 25; 195; 240; 251; 10; 105; 44; 189; 126; 49; 187; 62; 205; 22; 150;
   125; 41; 1; 32; 75; 200; 227; 140; 98; 246; 179; 10; 192; 228; 168; 111].
Definition mgmt_canister : bytes := match principal_from_text (bs "aaaaa-aa") with Some p => p | None => [x00] end.
Definition test_settings : outcome Settings := unwrap_ok (build TD (set_targets [mgmt_canister] example_builder)).
Definition test_address : outcome EthAddress :=
  unwrap_ok (eth_address_new TD (bs "0x1111111111111111111111111111111111111111")).
(** The settings and the seed of the tests. *)
Definition with_seed {A} (f : option Settings -> bytes -> outcome A) : outcome A :=
  olet s := test_settings in olet a := test_address in olet seed := generate_seed TD (Some s) a in f (Some s) seed.
Definition test_delegation (s : option Settings) (sk : bytes) : outcome Delegation :=
  unwrap_ok (create_delegation TD s sk 123456789).

Example test_generate_seed : exists seed, with_seed (fun _ seed => Done seed) = Done seed /\ seed <> [].
Proof. eexists. split; [vm_compute; reflexivity|discriminate]. Qed.
Example test_create_delegation :
  with_seed (fun s _ => test_delegation s SESSION_KEY) = Done (mkDelegation SESSION_KEY 123456789 (Some [mgmt_canister])).
Proof. vm_compute. reflexivity. Qed.
Example test_create_delegation_invalid_session_key :
  err_text show_delegation_error (with_seed (fun s _ => create_delegation TD s [] 123456789)) =
  Some (bs "Invalid session key: Session key is empty").
Proof. vm_compute. reflexivity. Qed.
Example test_create_delegation_invalid_expiration :
  err_text show_delegation_error (with_seed (fun s _ => create_delegation TD s SESSION_KEY 0)) =
  Some (bs "Invalid expiration: Expiration is 0").
Proof. vm_compute. reflexivity. Qed.
Definition witness_test (m : SignatureMap) (seed dh : bytes) : outcome bool :=
  match witness TD 0 m seed dh with
  | Ok tree => Done (bytes_eqb (reconstruct TD tree) (sm_root_hash TD m))
  | Err _ => Trap "unwrap"
  end.
Example test_witness_single_entry :
  with_seed (fun s seed => olet d := test_delegation s SESSION_KEY in olet dh := create_delegation_hash TD d in
    olet m := sm_put TD 0 (hash_bytes TD seed) dh sm_empty in witness_test m seed dh) = Done true.
Proof. vm_compute. reflexivity. Qed.
Example test_witness_multiple_entries :
  with_seed (fun s seed => olet d := test_delegation s SESSION_KEY in olet dh := create_delegation_hash TD d in
    olet m := sm_put TD 0 (hash_bytes TD seed) dh sm_empty in olet b := witness_test m seed dh in
    olet d2 := test_delegation s SESSION_KEY_2 in olet dh2 := create_delegation_hash TD d2 in
    olet m2 := sm_put TD 0 (hash_bytes TD seed) dh2 m in olet b2 := witness_test m2 seed dh2 in Done (b, b2)) = Done (true, true).
Proof. vm_compute. reflexivity. Qed.
Example test_witness_empty_signature_map :
  err_text show_delegation_error (with_seed (fun s seed =>
    olet d := test_delegation s SESSION_KEY in olet dh := create_delegation_hash TD d in Done (witness TD 0 sm_empty seed dh))) =
  Some (bs "Signature not found").
Proof. vm_compute. reflexivity. Qed.
Example test_witness_hash_not_found :
  err_text show_delegation_error (with_seed (fun s seed =>
    olet d := test_delegation s SESSION_KEY in olet dh := create_delegation_hash TD d in
    olet m := sm_put TD 0 (hash_bytes TD [x01; x02; x03]) dh sm_empty in Done (witness TD 0 m seed dh))) =
  Some (bs "Signature not found").
Proof. vm_compute. reflexivity. Qed.
Example test_create_certified_signature : exists signature,
  with_seed (fun s seed => olet d := test_delegation s SESSION_KEY in olet dh := create_delegation_hash TD d in
    olet m := sm_put TD 0 (hash_bytes TD seed) dh sm_empty in
    olet w := unwrap_ok (Done (witness TD 0 m seed dh)) in
    Done (create_certified_signature [x01; x02; x03] (HPruned (labeled_hash TD (bs "sig") (reconstruct TD w))))) = Done signature /\
  signature <> [].
Proof. eexists. split; [vm_compute; reflexivity|discriminate]. Qed.
Example test_create_user_canister_pubkey :
  with_seed (fun _ seed => Done (d_der_err TD (create_user_canister_pubkey mgmt_canister seed))) = Done None.
Proof. vm_compute. reflexivity. Qed.

(** ** signature_map.rs 127-234, with numbered instead of random hashes *)

Definition test_hash (n : N) : bytes := hash_bytes TD [u8 n].
Fixpoint put_all (seed : bytes) (l : list bytes) (m : SignatureMap) : outcome SignatureMap :=
  match l with [] => Done m | h :: l => olet m := sm_put TD 0 seed h m in put_all seed l m end.
Fixpoint delete_all (seed : bytes) (l : list bytes) (m : SignatureMap) : outcome SignatureMap :=
  match l with [] => Done m | h :: l => olet m := sm_delete TD seed h m in delete_all seed l m end.
Definition one_entry : outcome SignatureMap := sm_put TD 0 (test_hash 1) (test_hash 2) sm_empty.
Definition ten_hashes : list bytes := map test_hash [10; 11; 12; 13; 14; 15; 16; 17; 18; 19].
Definition has (seed : bytes) (m : SignatureMap) : bool := match rb_get seed (sm_map m) with Some _ => true | None => false end.
Definition count_pruned (x : outcome (SignatureMap * N)) : outcome N := olet r := x in Done (snd r).

Example test_put_signature : (olet m := one_entry in Done (has (test_hash 1) m)) = Done true.
Proof. vm_compute. reflexivity. Qed.
Example test_delete_signature :
  (olet m := one_entry in olet m := sm_delete TD (test_hash 1) (test_hash 2) m in Done (has (test_hash 1) m)) = Done false.
Proof. vm_compute. reflexivity. Qed.
Example test_prune_no_expired : (olet m := one_entry in count_pruned (sm_prune_expired TD 0 10 m)) = Done 0.
Proof. vm_compute. reflexivity. Qed.
Example test_prune_some_expired :
  (olet m := one_entry in count_pruned (sm_prune_expired TD (DELEGATION_SIGNATURE_EXPIRES_AT + 1) 10 m)) = Done 1.
Proof. vm_compute. reflexivity. Qed.
Example test_root_hash : (olet m := one_entry in Done (bytes_eqb (sm_root_hash TD m) (repeat x00 32))) = Done false.
Proof. vm_compute. reflexivity. Qed.
Example test_witness_existing :
  (olet m := one_entry in Done (bool_decide (is_Some (sm_witness TD (test_hash 1) (test_hash 2) m)))) = Done true.
Proof. vm_compute. reflexivity. Qed.
Example test_witness_non_existing : sm_witness TD (test_hash 1) (test_hash 2) sm_empty = None.
Proof. vm_compute. reflexivity. Qed.
Example test_delete_all_signatures :
  (olet m := put_all (test_hash 1) ten_hashes sm_empty in olet m' := delete_all (test_hash 1) ten_hashes m in
   Done (has (test_hash 1) m, has (test_hash 1) m')) = Done (true, false).
Proof. vm_compute. reflexivity. Qed.
Example test_prune_all_expired :
  (olet m := put_all (test_hash 1) ten_hashes sm_empty in
   count_pruned (sm_prune_expired TD (DELEGATION_SIGNATURE_EXPIRES_AT + 1) 100 m)) = Done 10.
Proof. vm_compute. reflexivity. Qed.
