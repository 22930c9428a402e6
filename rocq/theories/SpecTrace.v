(** Vocabulary for statements about histories of calls: only the calls, their
    times and their replies are looked at, never the state of the model. *)
From Coq Require Import Strings.String.
From Verif Require Import Base Deps HashTree Login Provider SpecPrincipal SpecEth SpecHash SpecTree SpecWire.
Local Open Scope N_scope.

(** ** Arguments *)

(** The checksummed text of 20 address bytes. *)
Definition address_text (D : Deps) (x b : bytes) : Prop :=
  length b = 20%nat /\ x = eip55 (d_keccak D) b.

(** "0x" and the hexadecimal digits of 65 bytes. *)
Definition signature_text (sg b : bytes) : Prop :=
  exists t, length b = 65%nat /\ hex_denotes t b /\ sg = bs "0x" ++ t.

(** The signature recovers to the address over the EIP-191 framing of the text. *)
Definition recovers (D : Deps) (text sg x : bytes) : Prop :=
  exists rs v framed pk front last20,
    signature_text sg (rs ++ [v]) /\ eip191_framed text framed /\
    d_sig_ok D rs = true /\ nb v mod 27 <= 3 /\
    d_recover D (d_keccak D framed) rs (nb v mod 27) = Some pk /\
    d_keccak D pk = front ++ last20 /\ length last20 = 20%nat /\ x = eip55 (d_keccak D) last20.

(** The session key is rejected: empty or not DER. *)
Definition bad_key (D : Deps) (sk : bytes) : Prop := sk = [] \/ d_der_err D sk <> None.

(** ** Configuration, read off the argument of the last install or upgrade *)

Definition sign_in_window (i : SettingsInput) : N := default 300000000000 (in_sign_in_expires_in i).
Definition session_window (i : SettingsInput) : N := default 1800000000000 (in_session_expires_in i).
Definition wants (f : provider_feature -> bool) (i : SettingsInput) : bool :=
  match in_features i with Some l => existsb f l | None => false end.
Definition wants_uri := wants (fun f => match f with PF_IncludeUriInSeed => true | _ => false end).
Definition wants_no_principal := wants (fun f => match f with PF_DisableEthToPrincipalMapping => true | _ => false end).
Definition wants_no_address := wants (fun f => match f with PF_DisablePrincipalToEthMapping => true | _ => false end).
Definition uri_part (i : SettingsInput) : option bytes := if wants_uri i then Some (in_uri i) else None.

Definition targets_of (i : SettingsInput) (t : option (list bytes)) : Prop :=
  match in_targets i with
  | None => t = None
  | Some l => exists ps, t = Some ps /\ Forall2 denotes l ps
  end.

(** What determines the identity of a user. *)
Definition user_seed (D : Deps) (i : SettingsInput) (x : bytes) : bytes :=
  d_sha256 D (seed_input (in_salt i) x (uri_part i)).

(** The principal of a public key (IC interface specification: self-authenticating id). *)
Definition principal_of (D : Deps) (pk : bytes) : bytes := d_sha224 D pk ++ [x02].

(** ** Events *)

Definition boot (e : event) (i : SettingsInput) : Prop :=
  (ev_op e = Install i \/ ev_op e = Upgrade i) /\ ev_reply e = RDone.
Definition boots (e : event) : Prop := exists i, boot e i.
Definition reinstalls (e : event) : Prop := exists i, ev_op e = Install i /\ ev_reply e = RDone.

Definition prepared (e : event) (x text n : bytes) : Prop :=
  ev_op e = PrepareLogin x /\ ev_reply e = RPrepare (Ok (text, n)).

Definition logged_in (e : event) (sg x sk n : bytes) (exp : N) (pk : bytes) : Prop :=
  ev_op e = SiweLogin sg x sk n /\ ev_reply e = RLogin (Ok (mkDetails exp pk)).
Definition login_succeeds (e : event) : Prop :=
  exists sg x sk n exp pk, logged_in e sg x sk n exp pk.

(** A siwe_login whose address and signature arguments are well-formed. *)
Definition login_attempt (D : Deps) (e : event) (x n : bytes) : Prop :=
  exists sg sk b sb, ev_op e = SiweLogin sg x sk n /\ address_text D x b /\ signature_text sg sb.

(** A siwe_login that got as far as rejecting the session key. *)
Definition rejected_key (D : Deps) (e : event) : Prop :=
  exists sg x sk n t, ev_op e = SiweLogin sg x sk n /\ bad_key D sk /\
    ev_reply e = RLogin (Err (bs "Invalid session key: " ++ t)).

Definition delegated (e : event) (cert x sk : bytes) (exp : N) (r : Delegation.SignedDelegation) : Prop :=
  ev_op e = GetDelegation (Some cert) x sk exp /\ ev_reply e = RDelegation (Ok r).

(** [since] is what happened in [tr] after the last successful install or upgrade,
    whose argument was [i]. *)
Definition since_boot (tr : list event) (i : SettingsInput) (since : list event) : Prop :=
  exists before b, tr = before ++ b :: since /\ boot b i /\ Forall (fun e => ~ boots e) since.

(** Number of messages prepared. *)
Definition is_prepared (e : event) : bool :=
  match ev_op e, ev_reply e with PrepareLogin _, RPrepare (Ok _) => true | _, _ => false end.
Definition prepared_count (l : list event) : N := N.of_nat (length (List.filter is_prepared l)).

(** The key under which a pending message is stored. *)
Definition message_key (D : Deps) (b n : bytes) : bytes := d_sha256 D (message_key_input b n).

(** Why a session key is rejected. *)
Definition key_error (D : Deps) (sk : bytes) : option bytes :=
  match sk with
  | [] => Some (bs "Session key is empty")
  | _ => match d_der_err D sk with
         | Some e => Some (bs "Session key should be DER-encoded: " ++ e)
         | None => None
         end
  end.

(** An event that stores or uses up the pending message with key [k]: a prepared
    message, or a login with well-formed arguments. *)
Definition touches (D : Deps) (k : bytes) (e : event) : Prop :=
  (exists x text n b, prepared e x text n /\ address_text D x b /\ k = message_key D b n) \/
  (exists x n b, login_attempt D e x n /\ address_text D x b /\ k = message_key D b n).

(** The event uses address [x] and nonce [n] in one of the two ways above. *)
Definition touches_pair (D : Deps) (e : event) (x n : bytes) : Prop :=
  (exists text, prepared e x text n) \/ login_attempt D e x n.

(** At time [now] the sign-in message [text], issued at [t], waits under key [k]: it was
    prepared in [since], no later event touched the key, and it has not expired. *)
Definition awaiting (D : Deps) (i : SettingsInput) (since : list event) (now : N) (k text : bytes) (t : N) : Prop :=
  exists before p after x b n, since = before ++ p :: after /\ prepared p x text n /\
    address_text D x b /\ k = message_key D b n /\ Forall (fun e => ~ touches D k e) after /\
    t = ev_time p /\ now < N.min (t + sign_in_window i) u64_max.

(** What siwe_login replies, in the order in which the conditions are tried. *)
Inductive login_table (D : Deps) (cid : bytes) (i : SettingsInput) (since : list event) (now : N)
  (sg x sk n : bytes) : result LoginDetails bytes -> Prop :=
| row_address e :
    (forall b, ~ address_text D x b) -> Eth.eth_address_new D x = Done (Err e) ->
    login_table D cid i since now sg x sk n (Err (Eth.show_eth_error e))
| row_signature b e :
    address_text D x b -> (forall sb, ~ signature_text sg sb) -> Eth.eth_signature_new sg = Done (Err e) ->
    login_table D cid i since now sg x sk n (Err (Eth.show_eth_error e))
| row_missing b sb :
    address_text D x b -> signature_text sg sb ->
    (forall text t, ~ awaiting D i since now (message_key D b n) text t) ->
    login_table D cid i since now sg x sk n (Err (bs "Message not found"))
| row_unrecoverable b sb text t e :
    address_text D x b -> signature_text sg sb -> awaiting D i since now (message_key D b n) text t ->
    (forall y, ~ recovers D text sg y) ->
    Eth.recover_eth_address D text (Eth.mkEthSignature sg) = Done (Err e) ->
    login_table D cid i since now sg x sk n (Err (Eth.show_eth_error e))
| row_mismatch b sb text t y :
    address_text D x b -> signature_text sg sb -> awaiting D i since now (message_key D b n) text t ->
    recovers D text sg y -> y <> x ->
    login_table D cid i since now sg x sk n (Err (bs "Recovered address does not match"))
| row_bad_key b sb text t e :
    address_text D x b -> signature_text sg sb -> awaiting D i since now (message_key D b n) text t ->
    recovers D text sg x -> key_error D sk = Some e ->
    login_table D cid i since now sg x sk n (Err (bs "Invalid session key: " ++ e))
| row_ok b sb text t pk :
    address_text D x b -> signature_text sg sb -> awaiting D i since now (message_key D b n) text t ->
    recovers D text sg x -> key_error D sk = None ->
    pk = Delegation.create_user_canister_pubkey cid (user_seed D i x) ->
    login_table D cid i since now sg x sk n (Ok (mkDetails (N.min (t + session_window i) u64_max) pk)).

(** ** Delegations *)

(** The two hashes between an address and its place in the signature map. *)
Definition identity_collision (D : Deps) (i : SettingsInput) (x y : bytes) : Prop :=
  collision (d_sha256 D) (user_seed D i x) (user_seed D i y) \/
  collision (d_sha256 D) (seed_input (in_salt i) x (uri_part i)) (seed_input (in_salt i) y (uri_part i)).

(** A collision among the strings hashed for two delegations. *)
Definition delegation_collision (D : Deps) (t : option (list bytes)) (sk1 : bytes) (exp1 : N) (sk2 : bytes) (exp2 : N) : Prop :=
  exists h q1 q2, delegation_digest (d_sha256 D) sk1 exp1 t h q1 /\ delegation_digest (d_sha256 D) sk2 exp2 t h q2 /\
    cross_collision (d_sha256 D) q1 q2.

(** A login with a rejected session key, at least a minute after a successful login. *)
Definition desyncs (D : Deps) (before : list event) (e : event) : Prop :=
  rejected_key D e /\ exists l, In l before /\ login_succeeds l /\ N.min (ev_time l + one_minute) u64_max <= ev_time e.

(** Every such login in [since] was followed by a successful one. *)
Definition resynced (D : Deps) (since : list event) : Prop :=
  forall before e after, since = before ++ e :: after -> desyncs D before e -> exists l, In l after /\ login_succeeds l.

(** IC interface specification, "Canister signatures": [signature] is a signature of the
    canister [cid] on the message with hash [digest], given that [certificate] certifies
    [certified] as the canister's certified data. *)
Definition canister_signature_ok (H : bytes -> bytes) (cid certified certificate pk digest signature : bytes) : Prop :=
  exists seed tree, canister_pubkey_decode pk = Some (cid, seed) /\
    canister_signature_decode signature = Some (certificate, tree) /\ well_formed tree /\ digests32 tree /\
    tree_hash H tree = certified /\ lookup_found [bs "sig"; H seed; digest] tree [].

(** ** Address mappings *)

(** The login [e] after the history [pre] succeeds for address [x] and principal [p],
    while the mapping switched off by [off] is on. *)
Definition notes (D : Deps) (off : SettingsInput -> bool) (pre : list event) (e : event) (x p : bytes) : Prop :=
  exists i since sg sk n exp pk, since_boot pre i since /\ off i = false /\
    logged_in e sg x sk n exp pk /\ p = principal_of D pk.

(** [x] is the address of the last such login for the principal [p] since the canister
    was last (re)installed. *)
Definition last_address (D : Deps) (tr : list event) (p x : bytes) : Prop :=
  exists pre e post, tr = pre ++ e :: post /\ notes D wants_no_address pre e x p /\
    forall q1 f q2, post = q1 ++ f :: q2 ->
      ~ reinstalls f /\ forall x', ~ notes D wants_no_address (pre ++ e :: q1) f x' p.

(** [p] is the principal of the last such login for the address [x]. *)
Definition last_principal (D : Deps) (tr : list event) (x p : bytes) : Prop :=
  exists pre e post, tr = pre ++ e :: post /\ notes D wants_no_principal pre e x p /\
    forall q1 f q2, post = q1 ++ f :: q2 ->
      ~ reinstalls f /\ forall p', ~ notes D wants_no_principal (pre ++ e :: q1) f x p'.

(** What happened since the last successful (re)installation, and its argument. *)
Definition since_install (tr : list event) (i : SettingsInput) (since : list event) : Prop :=
  exists before b, tr = before ++ b :: since /\ ev_op b = Install i /\ ev_reply b = RDone /\
    Forall (fun e => ~ reinstalls e) since.

(** Both mappings on, and everything that determines identities as in [i]. *)
Definition same_identities (i j : SettingsInput) : Prop :=
  wants_no_address j = false /\ wants_no_principal j = false /\
  in_salt j = in_salt i /\ uri_part j = uri_part i.

(** Two addresses with the same principal. *)
Definition principal_collision (D : Deps) (cid : bytes) (i : SettingsInput) (x y : bytes) : Prop :=
  collision (d_sha224 D) (Delegation.create_user_canister_pubkey cid (user_seed D i x))
    (Delegation.create_user_canister_pubkey cid (user_seed D i y)) \/
  collision (d_sha256 D) (seed_input (in_salt i) x (uri_part i)) (seed_input (in_salt i) y (uri_part i)).
