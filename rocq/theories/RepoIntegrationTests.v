(** The integration tests of packages/ic_siwe_provider/tests/integration_tests.rs, run on the model:
    each Example has the name of the test, makes the same calls with the same bytes and says what
    the test asserts of the replies.  Wallets are the stand-ins of Scripts.v (a wallet is its public
    key), with the real hash functions, URL parser and Candid. *)
From Coq Require Import Strings.String.
From Verif Require Import Base Deps Hex Eth Settings Encode Keccak Siwe Delegation Login Provider SpecEth SpecSiwe Concrete Scripts Asn1 Url
  Candid Interface RepoUnitTests.
Local Open Scope N_scope.

Definition ID : Deps := with_url test_idna CD.
Definition canister_id : bytes := [x00; x00; x00; x00; x00; x00; x00; x00; x01; x01].

(** ** common.rs *)

Definition VALID_ADDRESS : bytes := bs "0x5aAeb6053F3E94C9b9A09f33669435E7Ef1BeAed".
Definition NONCE : bytes := bs "nonce123".
Definition secs (n : N) : N := n * 1000000000.

(** common.rs 33-44: the type that the tests encode; its targets are principals, not texts. *)
Definition test_settings_header : header :=
  mkHeader
    [ERecord [fld "uri" (Prim PText); fld "runtime_features" (Var 1); fld "domain" (Prim PText); fld "statement" (Var 4);
              fld "scheme" (Var 4); fld "salt" (Prim PText); fld "session_expires_in" (Var 5); fld "targets" (Var 6);
              fld "chain_id" (Var 8); fld "sign_in_expires_in" (Var 5)];
     EOpt (Var 2); EVec (Var 3);
     EVariant [fld "IncludeUriInSeed" (Prim PNull); fld "DisableEthToPrincipalMapping" (Prim PNull);
               fld "DisablePrincipalToEthMapping" (Prim PNull)];
     EOpt (Prim PText); EOpt (Prim PNat64); EOpt (Var 7); EVec (Prim PPrincipal); EOpt (Prim PNat32)]
    [Var 0].
Record test_input := mkTestInput {
  t_domain : bytes; t_uri : bytes; t_salt : bytes; t_chain_id : N; t_scheme : bytes; t_statement : bytes;
  t_sign_in : N; t_session : N; t_targets : option (list bytes); t_features : option (list N) }.
Definition put_opt {A} (f : A -> bytes) (o : option A) : bytes := match o with None => [x00] | Some a => x01 :: f a end.
Definition encode_settings (i : test_input) : bytes :=
  put_header test_settings_header ++
  put_bytes (t_uri i) ++ put_opt (put_list leb) (t_features i) ++ put_bytes (t_domain i) ++
  put_opt put_bytes (Some (t_statement i)) ++ put_opt put_bytes (Some (t_scheme i)) ++ put_bytes (t_salt i) ++
  put_opt (put_le 8) (Some (t_session i)) ++ put_opt (put_list put_principal) (t_targets i) ++
  put_opt (put_le 4) (Some (t_chain_id i)) ++ put_opt (put_le 8) (Some (t_sign_in i)).
(** common.rs 54-78 *)
Definition valid_settings : test_input :=
  mkTestInput (bs "127.0.0.1") (bs "http://127.0.0.1:5173") (bs "dummy-salt") 10 (bs "http") (bs "Login to the app")
    (secs 3) (secs (60 * 60 * 24 * 7)) None (Some [0]).
(** integration_tests.rs 656-687 *)
Definition settings_disable_mappings : test_input :=
  mkTestInput (bs "127.0.0.1") (bs "http://127.0.0.1:5173") (bs "dummy-salt") 10 (bs "http") (bs "Login to the app")
    (secs 3) (secs (60 * 60 * 24 * 7)) None (Some [1; 2]).

(** Calls; [encode_unit] is encode_one(()). *)
Definition encode_unit : bytes := put_header (mkHeader [] [Prim PNull]).
Definition encode_blob (b : bytes) : bytes := put_header (mkHeader [EVec (Prim PNat8)] [Var 0]) ++ put_bytes b.
Definition install (i : test_input) : call := Call MInit [] None (encode_settings i).
Definition upgrade (i : test_input) : call := Call MPostUpgrade [] None (encode_settings i).
Definition rand : call := RandReply (Some (repeat x2a 32)).
Definition prepare (a : bytes) : call := Call MPrepareLogin anonymous None (js_prepare_login a).
Definition login_call (sg a sk n : bytes) : call := Call MLogin anonymous None (js_login sg a sk n).
Definition get_delegation_call (a sk : bytes) (e : N) : call :=
  Call MGetDelegation anonymous (Some (bs "certificate")) (js_get_delegation a sk e).

(** A test: calls with their times, each made from the replies so far. *)
Definition script := list (N * (list reply -> call)).
Fixpoint run (l : script) (rs : list reply) (s : state) : list reply * state :=
  match l with
  | [] => (rs, s)
  | (now, f) :: l => let '(s', r) := call_step ID canister_id 6 now (f rs) s in run l (rs ++ [r]) s'
  end.
Definition start : N := secs 1620328630.
Definition replies (l : script) : list reply := fst (run l [] None).
Definition reply_at (k : nat) (rs : list reply) : reply := nth k rs (RTrap "no call").
(** The reply to the last call. *)
Definition final (l : script) : reply := reply_at (length l - 1) (replies l).

Definition init_with (i : test_input) : script := [(start, fun _ => install i); (start + 5, fun _ => rand)].
Definition init : script := init_with valid_settings.

Definition message_of (r : reply) : bytes := match r with RPrepare (Ok (text, _)) => text | _ => [] end.
Definition nonce_of (r : reply) : bytes := match r with RPrepare (Ok (_, n)) => n | _ => [] end.
Definition expiration_of (r : reply) : N := match r with RLogin (Ok d) => ld_expiration d | _ => 0 end.
Definition pubkey_of (r : reply) : bytes := match r with RLogin (Ok d) => ld_pubkey d | _ => [] end.

Definition wallet1 : bytes := repeat x11 64.
Definition wallet2 : bytes := repeat x22 64.
Definition address1 : bytes := Eval vm_compute in wallet_address ID wallet1.
Definition address2 : bytes := Eval vm_compute in wallet_address ID wallet2.
Definition sign (w message : bytes) : bytes := wallet_sign ID w message.

(** common.rs 200-255, after the two steps of [init]: prepare, login, get_delegation. *)
Definition full_login : script :=
  [(start + 6, fun _ => prepare address1);
   (start + 7, fun rs => login_call (sign wallet1 (message_of (reply_at 2 rs))) address1 SESSION_KEY (nonce_of (reply_at 2 rs)));
   (start + 8, fun rs => get_delegation_call address1 SESSION_KEY (expiration_of (reply_at 3 rs)))].
(** delegated_identity.sender(), read off the reply to the login *)
Definition sender (rs : list reply) : bytes := self_authenticating ID (pubkey_of (reply_at 3 rs)).

(** ** integration_tests.rs *)

Example test_init_with_no_settings : exists t, final [(start, fun _ => Call MInit [] None encode_unit)] = RTrap t.
Proof. eexists. vm_compute. reflexivity. Qed.
Example test_init_with_valid_settings : final [(start, fun _ => install valid_settings)] = RDone.
Proof. vm_compute. reflexivity. Qed.
Example test_init_with_invalid_settings : exists t,
  final [(start, fun _ => install (mkTestInput (bs "invalid domain") (bs "http://127.0.0.1:5173") (bs "dummy-salt") 10 (bs "http")
           (bs "Login to the app") (secs 3) (secs (60 * 60 * 24 * 7)) None (Some [0])))] = RTrap t.
Proof. eexists. vm_compute. reflexivity. Qed.

(** integration_tests.rs 61-72 *)
Definition changed_settings : test_input :=
  mkTestInput (bs "192.168.0.1") (bs "http://192.168.0.1:666") (bs "another-salt") 666 (bs "https") (bs "Some login statement")
    (secs 300) (secs (60 * 60 * 24 * 14)) (Some [canister_id]) None.
Example test_upgrade_with_changed_arguments :
  let rs := replies (init ++ [(start + 6, fun _ => upgrade changed_settings); (start + 11, fun _ => rand);
                              (start + 12, fun _ => prepare VALID_ADDRESS)]) in
  reply_at 2 rs = RDone /\
  exists m, read_erc4361 (message_of (reply_at 4 rs)) = Some m /\
    e_domain m = bs "192.168.0.1" /\ e_uri m = bs "http://192.168.0.1:666" /\ e_chain_id m = 666 /\
    e_statement m = bs "Some login statement".
Proof. split; [vm_compute; reflexivity|]. eexists. split; [vm_compute; reflexivity|]. repeat split. Qed.
Example test_upgrade_with_no_settings : exists t,
  final (init ++ [(start + 6, fun _ => Call MPostUpgrade [] None encode_unit)]) = RTrap t.
Proof. eexists. vm_compute. reflexivity. Qed.

Example test_siwe_prepare_login_invalid_address : final (init ++ [(start + 6, fun _ => prepare (bs "invalid address"))]) =
  RPrepare (Err (bs "Address format error: Must start with '0x' and be 42 characters long")).
Proof. vm_compute. reflexivity. Qed.
Example test_siwe_prepare_login_not_eip55_address :
  final (init ++ [(start + 6, fun _ => prepare (bs "0x5aaeb6053f3e94c9b9a09f33669435e7ef1beaed"))]) =
  RPrepare (Err (bs "EIP-55 error: Not EIP-55 encoded")).
Proof. vm_compute. reflexivity. Qed.
Example test_siwe_prepare_login_ok : exists text n m,
  final (init ++ [(start + 6, fun _ => prepare VALID_ADDRESS)]) = RPrepare (Ok (text, n)) /\
  read_erc4361 text = Some m /\ hex_decode (drop 2 (e_address m)) = hex_decode (drop 2 VALID_ADDRESS) /\ n <> [].
Proof. eexists _, _, _. split; [vm_compute; reflexivity|]. split; [vm_compute; reflexivity|]. split; [vm_compute; reflexivity|discriminate]. Qed.

Example test_login_signature_too_short :
  final (init ++ [(start + 6, fun _ => login_call (bs "0xTOO-SHORT") VALID_ADDRESS SESSION_KEY NONCE)]) =
  RLogin (Err (bs "Signature format error: Must start with '0x' and be 132 characters long")).
Proof. vm_compute. reflexivity. Qed.
Definition too_long : bytes :=
  bs "0xÖÖ809809809809809809809809809809809809809809809809809809809809809809809809809809809809809809809809809809809809809809809809800000-TOO-LONG".
Example test_login_signature_too_long :
  final (init ++ [(start + 6, fun _ => login_call too_long VALID_ADDRESS SESSION_KEY NONCE)]) =
  RLogin (Err (bs "Signature format error: Must start with '0x' and be 132 characters long")).
Proof. vm_compute. reflexivity. Qed.
Definition no_hex : bytes :=
  bs "0xÖÖ809809809809809809809809809809809809809809809809809809809809809809809809809809809809809809809809809809809809809809809809800000".
Example test_incorrect_signature_format :
  final (init ++ [(start + 6, fun _ => login_call no_hex VALID_ADDRESS SESSION_KEY NONCE)]) =
  RLogin (Err (bs "Decoding error: Invalid character 'Ã' at position 0")).
Proof. vm_compute. reflexivity. Qed.

Example test_sign_in_message_expired :
  final (init ++ [(start + 6, fun _ => prepare address1);
                  (start + secs 10, fun rs => login_call (sign wallet1 (message_of (reply_at 2 rs))) address1 SESSION_KEY NONCE)]) =
  RLogin (Err (bs "Message not found")).
Proof. vm_compute. reflexivity. Qed.
(** What the test means to show: the nonce of the message, after its time. *)
Example test_sign_in_message_expired_own_nonce :
  final (init ++ [(start + 6, fun _ => prepare address1);
                  (start + secs 10, fun rs => login_call (sign wallet1 (message_of (reply_at 2 rs))) address1 SESSION_KEY
                                                (nonce_of (reply_at 2 rs)))]) =
  RLogin (Err (bs "Message not found")).
Proof. vm_compute. reflexivity. Qed.
Example test_sign_in_address_mismatch :
  final (init ++ [(start + 6, fun _ => prepare address1);
                  (start + 7, fun rs => login_call (sign wallet1 (message_of (reply_at 2 rs))) VALID_ADDRESS SESSION_KEY NONCE)]) =
  RLogin (Err (bs "Message not found")).
Proof. vm_compute. reflexivity. Qed.
Example test_sign_in_signature_manipulated :
  final (init ++ [(start + 6, fun _ => prepare address1);
                  (start + 7, fun rs => login_call (take 122 (sign wallet1 (message_of (reply_at 2 rs))) ++ bs "0000000000")
                                          address1 SESSION_KEY (nonce_of (reply_at 2 rs)))]) =
  RLogin (Err (bs "Recovered address does not match")).
Proof. vm_compute. reflexivity. Qed.
Example test_sign_in_ok : exists exp pk,
  final (init ++ [(start + 6, fun _ => prepare address1);
                  (start + 7, fun rs => login_call (sign wallet1 (message_of (reply_at 2 rs))) address1 SESSION_KEY (nonce_of (reply_at 2 rs)))]) =
  RLogin (Ok (mkDetails exp pk)) /\ length pk = 62%nat.
Proof. eexists _, _. split; [vm_compute; reflexivity|vm_compute; reflexivity]. Qed.
Example test_sign_in_replay_attack :
  let again rs := login_call (sign wallet1 (message_of (reply_at 2 rs))) address1 SESSION_KEY (nonce_of (reply_at 2 rs)) in
  let rs := replies (init ++ [(start + 6, fun _ => prepare address1); (start + 7, again); (start + 8, again)]) in
  (exists d, reply_at 3 rs = RLogin (Ok d)) /\ reply_at 4 rs = RLogin (Err (bs "Message not found")).
Proof. split; [eexists|]; vm_compute; reflexivity. Qed.
Example test_sign_in_siwe_get_delegation : exists d, final (init ++ full_login) = RDelegation (Ok d).
Proof. eexists. vm_compute. reflexivity. Qed.

Example test_sign_in_siwe_get_delegation_timeout :
  let later := start + secs 100 in
  let rs := replies (init ++
    [(start + 6, fun _ => prepare address1);
     (start + 7, fun rs => login_call (sign wallet1 (message_of (reply_at 2 rs))) address1 SESSION_KEY (nonce_of (reply_at 2 rs)));
     (later, fun _ => prepare address2);
     (later + 1, fun rs => login_call (sign wallet2 (message_of (reply_at 4 rs))) address2 SESSION_KEY_2 (nonce_of (reply_at 4 rs)));
     (later + 2, fun rs => get_delegation_call address1 SESSION_KEY (expiration_of (reply_at 3 rs)))]) in
  (exists d, reply_at 3 rs = RLogin (Ok d)) /\ (exists d, reply_at 5 rs = RLogin (Ok d)) /\ exists e, reply_at 6 rs = RDelegation (Err e).
Proof. split; [|split]; eexists; vm_compute; reflexivity. Qed.
(** The expiration that the test computes from the clock of the machine, in milliseconds. *)
Example test_sign_in_siwe_get_delegation_invalid_expiration :
  let expiration := start / 1000000 + 1000 * 60 * 60 * 24 * 7 in
  final (init ++ take 2 full_login ++ [(start + 8, fun rs => get_delegation_call address1 SESSION_KEY expiration)]) =
  RDelegation (Err (bs "Signature not found")).
Proof. vm_compute. reflexivity. Qed.
Example test_sign_in_siwe_get_delegation_invalid_session_pubkey :
  final (init ++ take 2 full_login ++ [(start + 8, fun rs => get_delegation_call address1 SESSION_KEY_2 (expiration_of (reply_at 3 rs)))]) =
  RDelegation (Err (bs "Signature not found")).
Proof. vm_compute. reflexivity. Qed.

Example test_get_caller_address :
  final (init ++ full_login ++ [(start + 9, fun rs => Call MGetCallerAddress (sender rs) None encode_unit)]) = RText (Ok address1).
Proof. vm_compute. reflexivity. Qed.
Example test_get_caller_address_principal_not_logged_in :
  final (init ++ full_login ++ [(start + 9, fun rs => Call MGetCallerAddress anonymous None encode_unit)]) =
  RText (Err (bs "No address found for the given principal")).
Proof. vm_compute. reflexivity. Qed.
Example test_get_address :
  final (init ++ full_login ++ [(start + 9, fun rs => Call MGetAddress anonymous None (encode_blob (sender rs)))]) = RText (Ok address1).
Proof. vm_compute. reflexivity. Qed.
Example test_get_address_not_found :
  final (init ++ full_login ++ [(start + 9, fun rs => Call MGetAddress anonymous None (encode_blob anonymous))]) =
  RText (Err (bs "No address found for the given principal")).
Proof. vm_compute. reflexivity. Qed.
Example test_get_principal :
  let rs := replies (init ++ full_login ++ [(start + 9, fun rs => Call MGetPrincipal anonymous None (js_prepare_login address1))]) in
  reply_at 5 rs = RBlob (Ok (sender rs)).
Proof. vm_compute. reflexivity. Qed.
Example test_get_principal_not_found :
  final (init ++ full_login ++ [(start + 9, fun rs => Call MGetPrincipal anonymous None (js_prepare_login VALID_ADDRESS))]) =
  RBlob (Err (bs "No principal found for the given address")).
Proof. vm_compute. reflexivity. Qed.
Example test_eth_to_principal_mapping_disabled :
  final (init_with settings_disable_mappings ++ full_login ++
         [(start + 9, fun rs => Call MGetPrincipal anonymous None (js_prepare_login VALID_ADDRESS))]) =
  RBlob (Err (bs "Ethereum address to principal mapping is disabled")).
Proof. vm_compute. reflexivity. Qed.
Example test_principal_to_eth_mapping_disabled :
  final (init_with settings_disable_mappings ++ full_login ++
         [(start + 9, fun rs => Call MGetAddress (sender rs) None (encode_blob (sender rs)))]) =
  RText (Err (bs "Principal to Ethereum address mapping is disabled")).
Proof. vm_compute. reflexivity. Qed.
