(** Model of packages/ic_siwe/src/settings.rs. *)
From Coq Require Import Strings.String.
From Verif Require Import Base Deps.
Local Open Scope N_scope.

(** settings.rs 11-14 *)
Inductive runtime_feature := IncludeUriInSeed.

(** settings.rs 26-58.  A Principal is its bytes ([as_slice]). *)
Record Settings := mkSettings {
  s_domain : bytes;
  s_uri : bytes;
  s_salt : bytes;
  s_chain_id : N;
  s_scheme : bytes;
  s_statement : bytes;
  s_sign_in_expires_in : N;
  s_session_expires_in : N;
  s_targets : option (list bytes);
  s_features : option (list runtime_feature)
}.

(** settings.rs 4-8 *)
Definition DEFAULT_SCHEME : bytes := bs "https".
Definition DEFAULT_STATEMENT : bytes := bs "SIWE Fields:".
Definition DEFAULT_CHAIN_ID : N := 1.
Definition DEFAULT_SIGN_IN_EXPIRES_IN : N := 60 * 5 * 1000000000.
Definition DEFAULT_SESSION_EXPIRES_IN : N := 30 * 60 * 1000000000.

(** settings.rs 96-115 (SettingsBuilder::new) *)
Definition builder_new (domain uri salt : bytes) : Settings :=
  mkSettings domain uri salt DEFAULT_CHAIN_ID DEFAULT_SCHEME DEFAULT_STATEMENT
    DEFAULT_SIGN_IN_EXPIRES_IN DEFAULT_SESSION_EXPIRES_IN None None.

(** settings.rs 119-163: the builder's setters. *)
Definition set_chain_id (x : N) (s : Settings) : Settings :=
  mkSettings (s_domain s) (s_uri s) (s_salt s) x (s_scheme s) (s_statement s)
    (s_sign_in_expires_in s) (s_session_expires_in s) (s_targets s) (s_features s).
Definition set_scheme (x : bytes) (s : Settings) : Settings :=
  mkSettings (s_domain s) (s_uri s) (s_salt s) (s_chain_id s) x (s_statement s)
    (s_sign_in_expires_in s) (s_session_expires_in s) (s_targets s) (s_features s).
Definition set_statement (x : bytes) (s : Settings) : Settings :=
  mkSettings (s_domain s) (s_uri s) (s_salt s) (s_chain_id s) (s_scheme s) x
    (s_sign_in_expires_in s) (s_session_expires_in s) (s_targets s) (s_features s).
Definition set_sign_in_expires_in (x : N) (s : Settings) : Settings :=
  mkSettings (s_domain s) (s_uri s) (s_salt s) (s_chain_id s) (s_scheme s) (s_statement s)
    x (s_session_expires_in s) (s_targets s) (s_features s).
Definition set_session_expires_in (x : N) (s : Settings) : Settings :=
  mkSettings (s_domain s) (s_uri s) (s_salt s) (s_chain_id s) (s_scheme s) (s_statement s)
    (s_sign_in_expires_in s) x (s_targets s) (s_features s).
Definition set_targets (x : list bytes) (s : Settings) : Settings :=
  mkSettings (s_domain s) (s_uri s) (s_salt s) (s_chain_id s) (s_scheme s) (s_statement s)
    (s_sign_in_expires_in s) (s_session_expires_in s) (Some x) (s_features s).
Definition set_features (x : list runtime_feature) (s : Settings) : Settings :=
  mkSettings (s_domain s) (s_uri s) (s_salt s) (s_chain_id s) (s_scheme s) (s_statement s)
    (s_sign_in_expires_in s) (s_session_expires_in s) (s_targets s) (Some x).

(** A validator either accepts, returns an error string, or panics. *)
Notation verdict := (outcome (result unit bytes)).

Definition check (ok : bool) (e : bytes) : verdict :=
  if ok then Done (Ok tt) else Done (Err e).

(** settings.rs 180-188.  [host_str().unwrap()] panics when there is no host. *)
Definition validate_domain (D : Deps) (scheme domain : bytes) : verdict :=
  match d_url_parse D (scheme ++ bs "://" ++ domain) with
  | None => Done (Err (bs "Invalid domain"))
  | Some u =>
      if negb (url_has_authority u) then Done (Err (bs "Invalid domain"))
      else match url_host u with
           | None => Trap "called `Option::unwrap()` on a `None` value"
           | Some _ => Done (Ok tt)
           end
  end.

(** settings.rs 190-197 *)
Definition validate_uri (D : Deps) (uri : bytes) : verdict :=
  match d_url_parse D uri with
  | None => Done (Err (bs "Invalid URI"))
  | Some u => match url_host u with
              | None => Done (Err (bs "Invalid URI"))
              | Some _ => Done (Ok tt)
              end
  end.

(** char::is_ascii_graphic on one byte; a non-ASCII character has only bytes >= 128. *)
Definition is_ascii_graphic (c : byte) : bool := (33 <=? nb c) && (nb c <=? 126).

(** settings.rs 199-208 *)
Definition validate_salt (salt : bytes) : verdict :=
  match salt with
  | [] => Done (Err (bs "Salt cannot be empty"))
  | _ => check (forallb is_ascii_graphic salt) (bs "Invalid salt")
  end.

(** settings.rs 210-215 *)
Definition validate_chain_id (chain_id : N) : verdict :=
  check (negb (chain_id =? 0)) (bs "Chain ID must be greater than 0").

(** settings.rs 217-222 *)
Definition validate_scheme (scheme : bytes) : verdict :=
  check (bytes_eqb scheme (bs "http") || bytes_eqb scheme (bs "https")) (bs "Invalid scheme").

(** settings.rs 224-229 *)
Definition validate_statement (statement : bytes) : verdict :=
  check (negb (existsb (Byte.eqb x0a) statement)) (bs "Invalid statement").

(** settings.rs 231-236 *)
Definition validate_sign_in_expires_in (n : N) : verdict :=
  check (negb (n =? 0)) (bs "Sign in expires in must be greater than 0").

(** settings.rs 238-243 *)
Definition validate_session_expires_in (n : N) : verdict :=
  check (negb (n =? 0)) (bs "Session expires in must be greater than 0").

(** [sort] then [dedup] of settings.rs 257-259; any total order on principals
    gives the same length. *)
Fixpoint sort_insert (x : bytes) (l : list bytes) : list bytes :=
  match l with
  | [] => [x]
  | y :: r => match bytes_cmp x y with Gt => y :: sort_insert x r | _ => x :: l end
  end.
Fixpoint sort_principals (l : list bytes) : list bytes :=
  match l with [] => [] | x :: r => sort_insert x (sort_principals r) end.
Fixpoint dedup (l : list bytes) : list bytes :=
  match l with
  | [] => []
  | x :: r => match r with
              | [] => [x]
              | y :: _ => if bytes_eqb x y then dedup r else x :: dedup r
              end
  end.

(** settings.rs 245-265 *)
Definition validate_targets (targets : option (list bytes)) : verdict :=
  match targets with
  | None => Done (Ok tt)
  | Some [] => Done (Err (bs "Targets cannot be empty"))
  | Some l =>
      if 1000 <? N.of_nat (length l) then Done (Err (bs "Too many targets"))
      else check (Nat.eqb (length (dedup (sort_principals l))) (length l))
             (bs "Duplicate targets are not allowed")
  end.

Definition and_then (a b : verdict) : verdict :=
  olet r := a in match r with Ok _ => b | Err e => Done (Err e) end.

(** settings.rs 165-177 *)
Definition build (D : Deps) (s : Settings) : outcome (result Settings bytes) :=
  olet r :=
    and_then (validate_domain D (s_scheme s) (s_domain s))
   (and_then (validate_uri D (s_uri s))
   (and_then (validate_salt (s_salt s))
   (and_then (validate_chain_id (s_chain_id s))
   (and_then (validate_scheme (s_scheme s))
   (and_then (validate_statement (s_statement s))
   (and_then (validate_sign_in_expires_in (s_sign_in_expires_in s))
   (and_then (validate_session_expires_in (s_session_expires_in s))
             (validate_targets (s_targets s))))))))) in
  Done (match r with Ok _ => Ok s | Err e => Err e end).

(** macros.rs 19-28 (with_settings!) *)
Definition with_settings {A} (s : option Settings) (f : Settings -> outcome A) : outcome A :=
  match s with
  | None => Trap "Settings are not initialized."
  | Some s => f s
  end.
