(** What the canister answers, in terms of the calls made before. *)
From Coq Require Import Strings.String.
From Verif Require Import Base Deps Eth Delegation Login Provider SpecEth SpecSiwe SpecTree SpecTrace SpecFetch PropertiesTraps.
Local Open Scope N_scope.

(** The date and the time of day of an instant. *)
Definition clock_shows (t : N) (dt : date_time) : Prop :=
  nth_day (t / 86400000000000) = (dt_year dt, dt_month dt, dt_day dt) /\
  t mod 86400000000000 = (dt_hour dt * 3600 + dt_minute dt * 60 + dt_second dt) * 1000000000 + dt_nanos dt /\
  dt_minute dt < 60 /\ dt_second dt < 60 /\ dt_nanos dt < 1000000000.

(** The shortest RFC 3339 text of an instant. *)
Definition time_text (s : bytes) (t : N) : Prop :=
  exists dt, read_rfc3339 s = Some dt /\ clock_shows t dt /\
    forall s', read_rfc3339 s' = Some dt -> (length s <= length s')%nat.

Definition line (l : bytes) : bytes := l ++ [x0a].

(** The message for address [x] with nonce [n] issued at [now]. *)
Definition message_text (i : SettingsInput) (x n : bytes) (now : N) (text : bytes) : Prop :=
  exists chain issued expires, is_decimal chain (default 1 (in_chain_id i)) /\ time_text issued now /\
    time_text expires (N.min (now + sign_in_window i) u64_max) /\
    text = line (in_domain i ++ bs " wants you to sign in with your Ethereum account:") ++ line x ++ line []
           ++ line (default (bs "SIWE Fields:") (in_statement i)) ++ line []
           ++ line (bs "URI: " ++ in_uri i) ++ line (bs "Version: 1") ++ line (bs "Chain ID: " ++ chain)
           ++ line (bs "Nonce: " ++ n) ++ line (bs "Issued At: " ++ issued) ++ bs "Expiration Time: " ++ expires.

(** siwe_prepare_login *)
Inductive prepare_table (D : Deps) (i : SettingsInput) (since : list event) (now : N) (x : bytes) : result (bytes * bytes) bytes -> Prop :=
| prep_address e :
    (forall b, ~ address_text D x b) -> eth_address_new D x = Done (Err e) ->
    prepare_table D i since now x (Err (show_eth_error e))
| prep_message b before r after seed n text :
    address_text D x b -> since = before ++ r :: after -> ev_op r = RawRand (Some seed) ->
    Forall (fun e => forall o, ev_op e <> RawRand o) before ->
    n = lower_hex (d_chacha D seed (prepared_count since)) -> message_text i x n now text ->
    prepare_table D i since now x (Ok (text, n)).

(** get_address and get_caller_address *)
Inductive address_table (D : Deps) (tr : list event) (i : SettingsInput) (p : bytes) : result bytes bytes -> Prop :=
| addr_off : wants_no_address i = true ->
    address_table D tr i p (Err (bs "Principal to Ethereum address mapping is disabled"))
| addr_long : wants_no_address i = false -> (29 < length p)%nat ->
    address_table D tr i p (Err (bs "Failed to convert ByteBuf to Blob<29>"))
| addr_none : wants_no_address i = false -> (length p <= 29)%nat -> (forall x, ~ last_address D tr p x) ->
    address_table D tr i p (Err (bs "No address found for the given principal"))
| addr_found x : wants_no_address i = false -> last_address D tr p x ->
    address_table D tr i p (Ok x).

(** get_principal *)
Inductive principal_table (D : Deps) (tr : list event) (i : SettingsInput) (x : bytes) : result bytes bytes -> Prop :=
| prin_off : wants_no_principal i = true ->
    principal_table D tr i x (Err (bs "Ethereum address to principal mapping is disabled"))
| prin_address e : wants_no_principal i = false -> (forall b, ~ address_text D x b) -> eth_address_new D x = Done (Err e) ->
    principal_table D tr i x (Err (show_eth_error e))
| prin_none b : wants_no_principal i = false -> address_text D x b -> (forall p, ~ last_principal D tr x p) ->
    principal_table D tr i x (Err (bs "No principal found for the given address"))
| prin_found p : wants_no_principal i = false -> last_principal D tr x p ->
    principal_table D tr i x (Ok p).

(** A call that does not trap. *)
Definition answer (D : Deps) (cid : bytes) (tr : list event) (now : N) (o : op) (r : reply) : Prop :=
  match o with
  | Install _ | Upgrade _ | RawRand _ => r = RDone
  | PrepareLogin x => exists i since q, since_boot tr i since /\ prepare_table D i since now x q /\ r = RPrepare q
  | SiweLogin sg x sk n => exists i since q, since_boot tr i since /\ login_table D cid i since now sg x sk n q /\ r = RLogin q
  | GetDelegation _ x sk exp => exists i since q, since_boot tr i since /\
      (delegation_table D i since now x sk exp q \/ session_clash D i since x sk exp) /\ r = RDelegation q
  | GetAddress p | GetCallerAddress p => exists i since q, since_boot tr i since /\ address_table D tr i p q /\ r = Provider.RText q
  | GetPrincipal x => exists i since q, since_boot tr i since /\ principal_table D tr i x q /\ r = Provider.RBlob q
  end.

Definition answers (D : Deps) (cid : bytes) (tr : list event) (now : N) (o : op) (r : reply) : Prop :=
  (must_trap D cid tr o /\ exists w, r = RTrap w) \/ (~ must_trap D cid tr o /\ answer D cid tr now o r).
