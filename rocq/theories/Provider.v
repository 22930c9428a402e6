(** Model of packages/ic_siwe_provider/src: the canister as a step function over
    calls, with the Internet Computer's execution rules (atomic messages, rollback
    on trap, commit on [Err], queries discard their changes, an upgrade keeps
    stable memory and certified data and replaces the heap). *)
From Coq Require Import Strings.String.
From Verif Require Import Base Deps Hex Eth Hash HashTree RbTree SigMap Settings Siwe Encode
  PrincipalText Delegation Login.
Local Open Scope N_scope.

(** init_upgrade.rs 9-18 *)
Inductive provider_feature :=
| PF_IncludeUriInSeed
| PF_DisableEthToPrincipalMapping
| PF_DisablePrincipalToEthMapping.

(** init_upgrade.rs 23-56 *)
Record SettingsInput := mkInput {
  in_domain : bytes;
  in_uri : bytes;
  in_salt : bytes;
  in_chain_id : option N;
  in_scheme : option bytes;
  in_statement : option bytes;
  in_sign_in_expires_in : option N;
  in_session_expires_in : option N;
  in_targets : option (list bytes);
  in_features : option (list provider_feature)
}.

(** lib.rs 76-79 *)
Record provider_settings := mkFlags {
  disable_eth_to_principal : bool;
  disable_principal_to_eth : bool
}.

(** The canister: Wasm heap (library thread-locals, lib.rs 61-64 State,
    lib.rs 87-90 SETTINGS), stable memory (lib.rs 92-102), certified data, and
    whether the timer-driven request for randomness is still outstanding.
    [asset_hashes] (lib.rs 63) is never written, so it stays the empty tree. *)
Record canister := mkCan {
  c_lib : lib_state;
  c_sigs : SignatureMap;
  c_flags : provider_settings;
  c_principal_address : gmap bytes bytes;
  c_address_principal : gmap bytes bytes;
  c_certified : bytes;
  c_seeding : bool
}.

(** [None]: no code installed. *)
Definition state := option canister.

(** lib.rs 56-57 *)
Definition LABEL_ASSETS : bytes := bs "http_assets".
Definition LABEL_SIG : bytes := bs "sig".

(** Root hash of the (always empty) asset tree. *)
Definition assets_root (D : Deps) : bytes := empty_hash D.

(** lib.rs 105-111: the certified data after update_root_hash. *)
Definition root_hash (D : Deps) (sigs : SignatureMap) : bytes :=
  fork_hash D (labeled_hash D LABEL_ASSETS (assets_root D))
              (labeled_hash D LABEL_SIG (sm_root_hash D sigs)).

(** ic_principal: Principal::self_authenticating(key).as_slice() *)
Definition self_authenticating (D : Deps) (public_key : bytes) : bytes :=
  d_sha224 D public_key ++ [x02].

(** Optional builder calls of init_upgrade.rs 73-87. *)
Definition opt_set {A} (o : option A) (f : A -> Settings -> Settings) (s : Settings) : Settings :=
  match o with Some x => f x s | None => s end.

(** init_upgrade.rs 106-120: one runtime feature. *)
Definition apply_feature (f : provider_feature) (p : Settings * provider_settings)
  : Settings * provider_settings :=
  let '(s, fl) := p in
  match f with
  | PF_IncludeUriInSeed => (set_features [IncludeUriInSeed] s, fl)
  | PF_DisableEthToPrincipalMapping => (s, mkFlags true (disable_principal_to_eth fl))
  | PF_DisablePrincipalToEthMapping => (s, mkFlags (disable_eth_to_principal fl) true)
  end.

(** init_upgrade.rs 88-93 *)
Fixpoint parse_principals (l : list bytes) : outcome (list bytes) :=
  match l with
  | [] => Done []
  | t :: r =>
      match principal_from_text t with
      | None => Trap "called `Result::unwrap()` on an `Err` value"
      | Some p => olet ps := parse_principals r in Done (p :: ps)
      end
  end.

(** init_upgrade.rs 65-126, on the fresh heap of a new Wasm instance: the flags
    start as false (lib.rs 87-90).  Also init.rs 25-31. *)
Definition siwe_init (D : Deps) (canister_id : bytes) (i : SettingsInput)
  : outcome (Settings * provider_settings) :=
  let s := builder_new (in_domain i) (in_uri i) (in_salt i) in
  let s := opt_set (in_chain_id i) set_chain_id s in
  let s := opt_set (in_scheme i) set_scheme s in
  let s := opt_set (in_statement i) set_statement s in
  let s := opt_set (in_sign_in_expires_in i) set_sign_in_expires_in s in
  let s := opt_set (in_session_expires_in i) set_session_expires_in s in
  olet s := match in_targets i with
            | None => Done s
            | Some l =>
                olet ps := parse_principals l in
                if existsb (bytes_eqb canister_id) ps then Done (set_targets ps s)
                else Trap "ic_siwe_provider canister id not in the list of targets"
            end in
  let '(s, fl) := match in_features i with
                  | None => (s, mkFlags false false)
                  | Some l => fold_left (fun p f => apply_feature f p) l (s, mkFlags false false)
                  end in
  olet r := build D s in
  olet s := unwrap r in
  Done (s, fl).

(** Calls and other events. *)
Inductive op :=
| Install (i : SettingsInput)                 (* install or reinstall, then init *)
| Upgrade (i : SettingsInput)                 (* upgrade, then post_upgrade *)
| RawRand (seed : option bytes)               (* reply (or failure) of raw_rand, init.rs 40-48 *)
| PrepareLogin (address : bytes)
| SiweLogin (signature address session_key nonce : bytes)
| GetDelegation (certificate : option bytes) (address session_key : bytes) (expiration : N)
| GetAddress (principal : bytes)
| GetCallerAddress (caller : bytes)
| GetPrincipal (address : bytes).

Inductive reply :=
| RTrap (why : string)
| RDone
| RPrepare (r : result (bytes * bytes) bytes)      (* siwe_message, nonce *)
| RLogin (r : result LoginDetails bytes)
| RDelegation (r : result SignedDelegation bytes)
| RText (r : result bytes bytes)
| RBlob (r : result bytes bytes).

(** Fresh heap after installing or upgrading. *)
Definition fresh (s : Settings) (fl : provider_settings)
  (pa ap : gmap bytes bytes) (certified : bytes) : canister :=
  mkCan (mkLib None (Some s) ∅) sm_empty fl pa ap certified true.

(** init_upgrade.rs 135-150 under the IC's rules. *)
Definition do_install (D : Deps) (cid : bytes) (i : SettingsInput) : outcome canister :=
  olet (s, fl) := siwe_init D cid i in Done (fresh s fl ∅ ∅ []).

Definition do_upgrade (D : Deps) (cid : bytes) (i : SettingsInput) (c : canister) : outcome canister :=
  olet (s, fl) := siwe_init D cid i in
  Done (fresh s fl (c_principal_address c) (c_address_principal c) (c_certified c)).

(** init.rs 40-48: the spawned task; a failed call panics in the callback. *)
Definition do_raw_rand (seed : option bytes) (c : canister) : canister :=
  if c_seeding c then
    let lib := match seed with
               | Some s => mkLib (Some (mkRng s 0)) (ls_settings (c_lib c)) (ls_msgs (c_lib c))
               | None => c_lib c
               end in
    mkCan lib (c_sigs c) (c_flags c) (c_principal_address c) (c_address_principal c)
      (c_certified c) false
  else c.

Definition with_lib (c : canister) (l : lib_state) : canister :=
  mkCan l (c_sigs c) (c_flags c) (c_principal_address c) (c_address_principal c)
    (c_certified c) (c_seeding c).

(** siwe_prepare_login.rs 20-31 *)
Definition siwe_prepare_login (D : Deps) (now : N) (address : bytes) (c : canister)
  : outcome (canister * result (bytes * bytes) bytes) :=
  olet a := eth_address_new D address in
  match a with
  | Err e => Done (c, Err (show_eth_error e))
  | Ok a =>
      olet (lib, (message, nonce)) := prepare_login D now (c_lib c) a in
      olet text := siwe_to_string message in
      Done (with_lib c lib, Ok (text, nonce))
  end.

(** siwe_login.rs 67-80 *)
Definition manage_mappings (principal address : bytes) (c : canister) : canister :=
  mkCan (c_lib c) (c_sigs c) (c_flags c)
    (if disable_principal_to_eth (c_flags c) then c_principal_address c
     else <[principal := address]> (c_principal_address c))
    (if disable_eth_to_principal (c_flags c) then c_address_principal c
     else <[address := principal]> (c_address_principal c))
    (c_certified c) (c_seeding c).

(** siwe_login.rs 25-65.  The principal has 29 bytes, so the conversion to
    [Blob<29>] of lines 55-58 cannot fail. *)
Definition siwe_login (D : Deps) (cid : bytes) (now : N)
  (signature address session_key nonce : bytes) (c : canister)
  : outcome (canister * result LoginDetails bytes) :=
  olet a := eth_address_new D address in
  match a with
  | Err e => Done (c, Err (show_eth_error e))
  | Ok a =>
      olet sg := eth_signature_new signature in
      match sg with
      | Err e => Done (c, Err (show_eth_error e))
      | Ok sg =>
          olet (lib, sigs, r) := login D now cid (c_lib c) (c_sigs c) sg a session_key nonce in
          let c' certified := mkCan lib sigs (c_flags c) (c_principal_address c)
                                (c_address_principal c) certified (c_seeding c) in
          match r with
          | Err e => Done (c' (c_certified c), Err (show_login_error e))
          | Ok details =>
              olet ab := addr_as_byte_array a in
              Done (manage_mappings (self_authenticating D (ld_pubkey details)) ab
                      (c' (root_hash D sigs)), Ok details)
          end
      end
  end.

(** siwe_get_delegation.rs 25-69.  [certificate] is data_certificate(). *)
Definition siwe_get_delegation (D : Deps) (now : N) (certificate : option bytes)
  (address session_key : bytes) (expiration : N) (c : canister)
  : outcome (result SignedDelegation bytes) :=
  match certificate with
  | None => Trap "siwe_get_delegation must be called using a query call"
  | Some certificate =>
      olet a := eth_address_new D address in
      match a with
      | Err e => Done (Err (show_eth_error e))
      | Ok a =>
          olet seed := generate_seed D (ls_settings (c_lib c)) a in
          olet created := create_delegation D (ls_settings (c_lib c)) session_key expiration in
          match created with
          | Err e => Done (Err (show_delegation_error e))
          | Ok delegation =>
              olet dh := create_delegation_hash D delegation in
              match witness D now (c_sigs c) seed dh with
              | Err e => Done (Err (show_delegation_error e))
              | Ok w =>
                  let tree := HFork (HPruned (labeled_hash D LABEL_ASSETS (assets_root D)))
                                    (HLabeled LABEL_SIG w) in
                  Done (Ok (mkSigned delegation (create_certified_signature certificate tree)))
              end
          end
      end
  end.

(** get_address.rs 17-40.  [Blob<29>] accepts at most 29 bytes. *)
Definition get_address (D : Deps) (principal : bytes) (c : canister) : outcome (result bytes bytes) :=
  if disable_principal_to_eth (c_flags c) then
    Done (Err (bs "Principal to Ethereum address mapping is disabled"))
  else if 29 <? blen principal then Done (Err (bs "Failed to convert ByteBuf to Blob<29>"))
  else match c_principal_address c !! principal with
       | None => Done (Err (bs "No address found for the given principal"))
       | Some a =>
           olet r := convert_to_eip55 D (bytes_to_eth_address a) in
           Done (map_err show_eth_error r)
       end.

(** get_caller_address.rs 16-26 *)
Definition get_caller_address (D : Deps) (caller : bytes) (c : canister)
  : outcome (result bytes bytes) :=
  if disable_principal_to_eth (c_flags c) then
    Done (Err (bs "Principal to Ethereum address mapping is disabled"))
  else get_address D caller c.

(** get_principal.rs 16-33 *)
Definition get_principal (D : Deps) (address : bytes) (c : canister) : outcome (result bytes bytes) :=
  if disable_eth_to_principal (c_flags c) then
    Done (Err (bs "Ethereum address to principal mapping is disabled"))
  else
    olet a := eth_address_new D address in
    match a with
    | Err e => Done (Err (show_eth_error e))
    | Ok a =>
        olet ab := addr_as_byte_array a in
        Done (match c_address_principal c !! ab with
              | None => Err (bs "No principal found for the given address")
              | Some p => Ok p
              end)
    end.

(** Runs an update: commit on [Done], roll back on [Trap]. *)
Definition run_update {A} (c : canister) (f : A -> reply) (x : outcome (canister * A)) : state * reply :=
  match x with
  | Done (c', a) => (Some c', f a)
  | Trap w => (Some c, RTrap w)
  end.

(** Runs a query: the state never changes. *)
Definition run_query {A} (c : canister) (f : A -> reply) (x : outcome A) : state * reply :=
  (Some c, match x with Done a => f a | Trap w => RTrap w end).

Definition step (D : Deps) (cid : bytes) (now : N) (o : op) (s : state) : state * reply :=
  match o, s with
  | Install i, _ =>
      match do_install D cid i with Done c => (Some c, RDone) | Trap w => (s, RTrap w) end
  | _, None => (None, RTrap "no code installed")
  | Upgrade i, Some c =>
      match do_upgrade D cid i c with Done c' => (Some c', RDone) | Trap w => (Some c, RTrap w) end
  | RawRand seed, Some c => (Some (do_raw_rand seed c), RDone)
  | PrepareLogin a, Some c => run_update c RPrepare (siwe_prepare_login D now a c)
  | SiweLogin sg a sk n, Some c => run_update c RLogin (siwe_login D cid now sg a sk n c)
  | GetDelegation cert a sk e, Some c =>
      run_query c RDelegation (siwe_get_delegation D now cert a sk e c)
  | GetAddress p, Some c => run_query c RText (get_address D p c)
  | GetCallerAddress p, Some c => run_query c RText (get_caller_address D p c)
  | GetPrincipal a, Some c => run_query c RBlob (get_principal D a c)
  end.

(** Argument ranges guaranteed by Candid decoding: u32, u64, and [u8; 32] for the reply to
    raw_rand (packages/ic_siwe/src/init.rs:42; another length panics in [unwrap] and leaves the
    generator unset, which is [RawRand None]). *)
Definition opt_le (o : option N) (m : N) : Prop :=
  match o with Some x => x <= m | None => True end.
Definition input_wf (i : SettingsInput) : Prop :=
  opt_le (in_chain_id i) u32_max /\ opt_le (in_sign_in_expires_in i) u64_max /\
  opt_le (in_session_expires_in i) u64_max.
Definition op_wf (o : op) : Prop :=
  match o with
  | Install i | Upgrade i => input_wf i
  | GetDelegation _ _ _ e => e <= u64_max
  | RawRand (Some seed) => length seed = 32%nat
  | _ => True
  end.

(** One event of a history: when, what was called, what it replied. *)
Record event := mkEvent { ev_time : N; ev_op : op; ev_reply : reply }.

(** Histories from before installation, calls at non-decreasing u64 times. *)
Inductive exec (D : Deps) (cid : bytes) : list event -> state -> Prop :=
| exec_nil : exec D cid [] None
| exec_snoc tr s now o s' r :
    exec D cid tr s ->
    Forall (fun e => ev_time e <= now) tr ->
    now <= u64_max ->
    op_wf o ->
    step D cid now o s = (s', r) ->
    exec D cid (tr ++ [mkEvent now o r]) s'.
