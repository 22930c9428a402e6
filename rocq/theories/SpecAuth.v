(** What the canister certifies, and what a replica asks of a request that is signed
    with a session key (IC interface specification, "Authentication"). *)
From Coq Require Import Strings.String.
From Verif Require Import Base Deps HashTree RbTree SigMap Delegation Login Provider SpecHash SpecTree SpecWire SpecTrace.
Local Open Scope N_scope.

(** A tree of the map with nothing pruned (as_hash_tree of ic-certified-map). *)
Fixpoint full_tree {V} (tree : V -> hash_tree) (t : rbt V) : hash_tree :=
  match t with
  | Null => HEmpty
  | Node _ l k v _ r =>
      match l, r with
      | Null, Null => HLabeled k (tree v)
      | _, Null => HFork (full_tree tree l) (HLabeled k (tree v))
      | Null, _ => HFork (HLabeled k (tree v)) (full_tree tree r)
      | _, _ => HFork (full_tree tree l) (HFork (HLabeled k (tree v)) (full_tree tree r))
      end
  end.

(** The whole tree whose root the canister certifies: no assets, and the signatures. *)
Definition certified_tree (m : SignatureMap) : hash_tree :=
  HFork (HLabeled (bs "http_assets") HEmpty)
        (HLabeled (bs "sig") (full_tree (full_tree (fun _ : unit => HLeaf [])) (sm_map m))).

(** The last successful login of [tr] left the canister in the state [c]. *)
Definition after_last_login (D : Deps) (cid : bytes) (tr : list event) (c : canister) : Prop :=
  exists before l after, tr = before ++ l :: after /\ login_succeeds l /\
    Forall (fun e => ~ login_succeeds e) after /\ exec D cid (before ++ [l]) (Some c).

(** A replica at time [now] takes a call to [target] signed with the session key
    [dl_pubkey (sd_delegation d)] for one by the owner of [pk]: the delegation has not
    expired, it covers the target, and its signature is one of the canister [cid], whose
    certified data is [certified]. *)
Definition replica_accepts (D : Deps) (cid certified certificate : bytes) (now : N) (target pk : bytes)
  (d : SignedDelegation) : Prop :=
  now <= dl_expiration (sd_delegation d) /\
  match dl_targets (sd_delegation d) with None => True | Some l => In target l end /\
  exists digest q,
    delegation_digest (d_sha256 D) (dl_pubkey (sd_delegation d)) (dl_expiration (sd_delegation d))
      (dl_targets (sd_delegation d)) digest q /\
    canister_signature_ok (d_sha256 D) cid certified certificate pk digest (sd_signature d).

(** A login of [tr]: [x] signed in with the session key [sk] until [exp], under the
    settings [i], and got the identity [pk]. *)
Definition a_login (tr : list event) (x sk : bytes) (exp : N) (pk : bytes) (i : SettingsInput) : Prop :=
  exists before l after sg n since, tr = before ++ l :: after /\ logged_in l sg x sk n exp pk /\ since_boot before i since.

(** The hash collisions by which a request with the delegation [d] for [pk] could be
    taken for one by another user: two different inputs with the same digest, both of
    them read off the request and the logins of [tr]. *)
Inductive auth_collision (D : Deps) (cid : bytes) (tr : list event) (certificate pk : bytes) (d : SignedDelegation) : Prop :=
| ac_tree c1 tree :
    after_last_login D cid tr c1 -> canister_signature_decode (sd_signature d) = Some (certificate, tree) ->
    cross_collision (d_sha256 D) (tree_inputs (d_sha256 D) tree) (tree_inputs (d_sha256 D) (certified_tree (c_sigs c1))) ->
    auth_collision D cid tr certificate pk d
| ac_seed x sk exp pk' i seed :
    a_login tr x sk exp pk' i -> canister_pubkey_decode pk = Some (cid, seed) ->
    collision (d_sha256 D) seed (user_seed D i x) ->
    auth_collision D cid tr certificate pk d
| ac_digest x sk exp pk' i t digest q q' :
    a_login tr x sk exp pk' i -> targets_of i t ->
    delegation_digest (d_sha256 D) (dl_pubkey (sd_delegation d)) (dl_expiration (sd_delegation d))
      (dl_targets (sd_delegation d)) digest q ->
    delegation_digest (d_sha256 D) sk exp t digest q' -> cross_collision (d_sha256 D) q q' ->
    auth_collision D cid tr certificate pk d.

(** The same for the address the canister keeps for a principal. *)
Inductive address_collision (D : Deps) (tr : list event) (pk : bytes) : Prop :=
| dc_principal y sk exp pk' i : a_login tr y sk exp pk' i -> collision (d_sha224 D) pk pk' ->
    address_collision D tr pk
| dc_seed x sk exp pk1 i y sk' exp' pk2 j :
    a_login tr x sk exp pk1 i -> a_login tr y sk' exp' pk2 j ->
    collision (d_sha256 D) (seed_input (in_salt i) x (uri_part i)) (seed_input (in_salt j) y (uri_part j)) ->
    address_collision D tr pk.
