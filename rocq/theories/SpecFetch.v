(** The answers of siwe_get_delegation in terms of the calls made before. *)
From Coq Require Import Strings.String.
From Verif Require Import Base Deps Eth Delegation Login Provider SpecTree SpecTrace.
Local Open Scope N_scope.

(** [l] is one of the calls [since]: a login of [x] with [sk] until [exp]. *)
Definition session_login (since : list event) (x sk : bytes) (exp : N) (l : event) : Prop :=
  In l since /\ exists sg n pk, logged_in l sg x sk n exp pk.

(** A login by another session that is taken for this one because hashes collide. *)
Definition session_clash (D : Deps) (i : SettingsInput) (since : list event) (x sk : bytes) (exp : N) : Prop :=
  exists l sg x' sk' n exp' pk t, In l since /\ logged_in l sg x' sk' n exp' pk /\ targets_of i t /\
    (x' = x \/ identity_collision D i x' x) /\
    ((sk' = sk /\ exp' = exp) \/ delegation_collision D t sk' exp' sk exp) /\
    ~ (x' = x /\ sk' = sk /\ exp' = exp).

Definition refused (r : result SignedDelegation bytes) : Prop :=
  r = Err (bs "Signature not found") \/ r = Err (bs "Signature expired").
Definition granted (i : SettingsInput) (sk : bytes) (exp : N) (r : result SignedDelegation bytes) : Prop :=
  exists t sg, targets_of i t /\ r = Ok (mkSigned (mkDelegation sk exp t) sg).

Inductive delegation_table (D : Deps) (i : SettingsInput) (since : list event) (now : N) (x sk : bytes) (exp : N)
  (r : result SignedDelegation bytes) : Prop :=
| fetch_address e :
    (forall b, ~ address_text D x b) -> eth_address_new D x = Done (Err e) -> r = Err (show_eth_error e) ->
    delegation_table D i since now x sk exp r
| fetch_key b e :
    address_text D x b -> key_error D sk = Some e -> r = Err (bs "Invalid session key: " ++ e) ->
    delegation_table D i since now x sk exp r
| fetch_never b :
    address_text D x b -> key_error D sk = None -> exp = 0 -> r = Err (bs "Invalid expiration: Expiration is 0") ->
    delegation_table D i since now x sk exp r
| fetch_stranger b :
    address_text D x b -> key_error D sk = None -> exp <> 0 -> (forall l, ~ session_login since x sk exp l) ->
    r = Err (bs "Signature not found") ->
    delegation_table D i since now x sk exp r
| fetch_fresh l :
    key_error D sk = None -> exp <> 0 -> session_login since x sk exp l ->
    (forall l, session_login since x sk exp l -> now < ev_time l + one_minute) ->
    granted i sk exp r ->
    delegation_table D i since now x sk exp r
| fetch_stale l :
    key_error D sk = None -> exp <> 0 -> session_login since x sk exp l ->
    (forall l, session_login since x sk exp l -> ev_time l + one_minute < now) ->
    refused r ->
    delegation_table D i since now x sk exp r
(** In the very nanosecond a minute after the login, and if the session logged in more than
    once: the store forgets it when its first entry runs out. *)
| fetch_between l1 l2 :
    key_error D sk = None -> exp <> 0 -> session_login since x sk exp l1 -> session_login since x sk exp l2 ->
    ev_time l1 + one_minute <= now <= ev_time l2 + one_minute ->
    refused r \/ granted i sk exp r ->
    delegation_table D i since now x sk exp r.

(** ** When the canister forgets a delegation *)

(** A call that makes the canister drop delegations that have run out: a login that succeeds
    or gets as far as having its session key refused. *)
Definition cleans (D : Deps) (e : event) : Prop := login_succeeds e \/ rejected_key D e.

(** The number of successful logins up to the time [t]. *)
Definition logins_until (t : N) (l : list event) : nat :=
  length (List.filter (fun e => match ev_op e, ev_reply e with
    | SiweLogin _ _ _ _, RLogin (Ok _) => ev_time e <=? t | _, _ => false end) l).
