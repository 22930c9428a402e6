(** Model of packages/ic_siwe/src/delegation.rs. *)
From Coq Require Import Strings.String.
From Verif Require Import Base Deps Hex Eth Hash HashTree SigMap Settings Encode.
Local Open Scope N_scope.

(** delegation.rs 20-27 *)
Inductive delegation_error :=
| SignatureNotFound
| WitnessHashMismatch (witness_hash root_hash : bytes)
| SerializationError (e : bytes)
| InvalidSessionKey (e : bytes)
| InvalidExpiration (e : bytes)
| SignatureExpired.

(** delegation.rs 29-45 *)
Definition show_delegation_error (e : delegation_error) : bytes :=
  match e with
  | SignatureNotFound => bs "Signature not found"
  | WitnessHashMismatch w r =>
      bs "Internal error: signature map computed an invalid hash tree, witness hash is "
      ++ hex_encode w ++ bs ", root hash is " ++ hex_encode r
  | SerializationError e => bs "Serialization error: " ++ e
  | InvalidSessionKey e => bs "Invalid session key: " ++ e
  | InvalidExpiration e => bs "Invalid expiration: " ++ e
  | SignatureExpired => bs "Signature expired"
  end.

(** delegation.rs 54-58 *)
Record Delegation := mkDelegation {
  dl_pubkey : bytes;
  dl_expiration : N;
  dl_targets : option (list bytes)
}.

(** delegation.rs 61-64 *)
Record SignedDelegation := mkSigned {
  sd_delegation : Delegation;
  sd_signature : bytes
}.

(** delegation.rs 92-93: the feature guard. *)
Definition uri_in_seed (s : Settings) : bool :=
  match s_features s with
  | Some l => existsb (fun f => match f with IncludeUriInSeed => true end) l
  | None => false
  end.

(** delegation.rs 81-99: the bytes that are hashed. *)
Definition seed_preimage (s : Settings) (address : bytes) : bytes :=
  len8 (s_salt s) :: s_salt s ++ len8 address :: address
  ++ (if uri_in_seed s then len8 (s_uri s) :: s_uri s else []).

(** delegation.rs 79-103 *)
Definition generate_seed (D : Deps) (settings : option Settings) (address : EthAddress)
  : outcome bytes :=
  with_settings settings (fun s => Done (hash_bytes D (seed_preimage s (addr_str address)))).

(** delegation.rs 110-138 *)
Definition create_delegation (D : Deps) (settings : option Settings) (session_key : bytes)
  (expiration : N) : outcome (result Delegation delegation_error) :=
  match session_key with
  | [] => Done (Err (InvalidSessionKey (bs "Session key is empty")))
  | _ =>
      match d_der_err D session_key with
      | Some e => Done (Err (InvalidSessionKey (bs "Session key should be DER-encoded: " ++ e)))
      | None =>
          if expiration =? 0 then Done (Err (InvalidExpiration (bs "Expiration is 0")))
          else with_settings settings (fun s =>
                 Done (Ok (mkDelegation session_key expiration (s_targets s))))
      end
  end.

(** delegation.rs 146-171 *)
Definition witness (D : Deps) (now : N) (m : SignatureMap) (seed delegation_hash : bytes)
  : result hash_tree delegation_error :=
  let seed_hash := hash_bytes D seed in
  if sm_is_expired now seed_hash delegation_hash m then Err SignatureExpired
  else match sm_witness D seed_hash delegation_hash m with
       | None => Err SignatureNotFound
       | Some w =>
           let witness_hash := reconstruct D w in
           let root_hash := sm_root_hash D m in
           if bytes_eqb witness_hash root_hash then Ok w
           else Err (WitnessHashMismatch witness_hash root_hash)
       end.

(** delegation.rs 181-191 and 245-256.  Serialising to a Vec cannot fail. *)
Definition create_certified_signature (certificate : bytes) (tree : hash_tree) : bytes :=
  cbor_certificate_signature certificate tree.

(** delegation.rs 194-205: the map of fields (in one possible iteration order). *)
Definition delegation_fields (d : Delegation) : list (bytes * value) :=
  [(bs "pubkey", VBytes (dl_pubkey d)); (bs "expiration", VU64 (dl_expiration d))]
  ++ match dl_targets d with
     | Some l => [(bs "targets", VArray (map VBytes l))]
     | None => []
     end.

(** delegation.rs 193-210 *)
Definition create_delegation_hash (D : Deps) (d : Delegation) : outcome bytes :=
  olet h := hash_of_map D (delegation_fields d) in
  Done (hash_with_domain D (bs "ic-request-auth-delegation") h).

(** delegation.rs 226-229: the raw canister-signature public key. *)
Definition raw_pubkey (canister_id seed : bytes) : bytes :=
  len8 canister_id :: canister_id ++ seed.

(** delegation.rs 220-236.  to_der does not fail on this structure. *)
Definition create_user_canister_pubkey (canister_id seed : bytes) : bytes :=
  der_sequence
    [ der_sequence [der_oid [1; 3; 6; 1; 4; 1; 56387; 1; 2]];
      der_bit_string (raw_pubkey canister_id seed) ].
