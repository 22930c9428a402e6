(** Model of packages/ic_siwe/src/login.rs and rand.rs. *)
From Coq Require Import Strings.String.
From Verif Require Import Base Deps Hex Eth Hash HashTree SigMap Settings Siwe Delegation.
Local Open Scope N_scope.

(** login.rs 23 *)
Definition MAX_SIGS_TO_PRUNE : nat := 10.

(** ChaCha20Rng state: the seed and how many 10-byte reads were made. *)
Record rng := mkRng { rng_seed : bytes; rng_pos : N }.

(** rand.rs 2-10.  [rng.as_mut().unwrap()] panics while the RNG is unseeded. *)
Definition generate_nonce (D : Deps) (r : option rng) : outcome (bytes * rng) :=
  match r with
  | None => Trap "called `Option::unwrap()` on a `None` value"
  | Some r => Done (hex_encode (d_chacha D (rng_seed r) (rng_pos r)),
                    mkRng (rng_seed r) (rng_pos r + 1))
  end.

(** The thread-local state of the library: lib.rs 189-201. *)
Record lib_state := mkLib {
  ls_rng : option rng;
  ls_settings : option Settings;
  ls_msgs : SiweMessageMap
}.

(** login.rs 46-56 *)
Definition prepare_login (D : Deps) (now : N) (ls : lib_state) (address : EthAddress)
  : outcome (lib_state * (SiweMessage * bytes)) :=
  olet (nonce, r) := generate_nonce D (ls_rng ls) in
  olet message := siwe_message_new (ls_settings ls) now address nonce in
  olet msgs := msgs_insert D message address nonce (ls_msgs ls) in
  Done (mkLib (Some r) (ls_settings ls) msgs, (message, nonce)).

(** login.rs 60-67 *)
Record LoginDetails := mkDetails {
  ld_expiration : N;
  ld_pubkey : bytes
}.

(** login.rs 69-75 (the ASN.1 variant cannot occur, see create_user_canister_pubkey) *)
Inductive login_error :=
| LEth (e : eth_error)
| LSiwe (e : siwe_error)
| LAddressMismatch
| LDelegation (e : delegation_error).

(** login.rs 101-111 *)
Definition show_login_error (e : login_error) : bytes :=
  match e with
  | LEth e => show_eth_error e
  | LSiwe e => show_siwe_error e
  | LAddressMismatch => bs "Recovered address does not match"
  | LDelegation e => show_delegation_error e
  end.

(** login.rs 149-158 *)
Definition verify_signature (D : Deps) (message_string : bytes) (signature : EthSignature)
  (address : EthAddress) : outcome (result unit login_error) :=
  olet r := recover_eth_address D message_string signature in
  Done (match r with
        | Ok recovered => if bytes_eqb recovered (addr_str address) then Ok tt else Err LAddressMismatch
        | Err e => Err (LEth e)
        end).

(** login.rs 128-194.  Returns the new messages and signature map together with
    the result: an [Err] keeps the changes made so far, a [Trap] does not. *)
Definition login (D : Deps) (now : N) (canister_id : bytes) (ls : lib_state) (sigs : SignatureMap)
  (signature : EthSignature) (address : EthAddress) (session_key nonce : bytes)
  : outcome (lib_state * SignatureMap * result LoginDetails login_error) :=
  let with_msgs m := mkLib (ls_rng ls) (ls_settings ls) m in
  (* 140 *)
  let msgs := msgs_prune now (ls_msgs ls) in
  (* 144 *)
  olet found := msgs_get D address nonce msgs in
  match found with
  | Err e => Done (with_msgs msgs, sigs, Err (LSiwe e))
  | Ok message =>
      (* 145-158 *)
      olet message_string := siwe_to_string message in
      olet verified := verify_signature D message_string signature address in
      (* 161 *)
      olet msgs := msgs_remove D address nonce msgs in
      match verified with
      | Err e => Done (with_msgs msgs, sigs, Err e)
      | Ok _ =>
          (* 167-171 *)
          olet expiration := with_settings (ls_settings ls) (fun s =>
              Done (sat_add (m_issued_at message) (s_session_expires_in s))) in
          (* 175 *)
          olet seed := generate_seed D (ls_settings ls) address in
          (* 178 *)
          olet (sigs, _) := sm_prune_expired D now MAX_SIGS_TO_PRUNE sigs in
          (* 181 *)
          olet created := create_delegation D (ls_settings ls) session_key expiration in
          match created with
          | Err e => Done (with_msgs msgs, sigs, Err (LDelegation e))
          | Ok delegation =>
              (* 182-183 *)
              olet delegation_hash := create_delegation_hash D delegation in
              olet sigs := sm_put D now (hash_bytes D seed) delegation_hash sigs in
              (* 187-192 *)
              Done (with_msgs msgs, sigs,
                    Ok (mkDetails expiration (create_user_canister_pubkey canister_id seed)))
          end
      end
  end.
