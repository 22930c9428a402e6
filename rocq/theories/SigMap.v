(** Model of packages/ic_siwe/src/signature_map.rs. *)
From Coq Require Import Strings.String.
From Verif Require Import Base Deps HashTree RbTree Heap.
Local Open Scope N_scope.

(** signature_map.rs 7 *)
Definition DELEGATION_SIGNATURE_EXPIRES_AT : N := 60 * 1000000000.

(** signature_map.rs 12-19: Unit is an empty leaf. *)
Definition unit_hash (D : Deps) (_ : unit) : bytes := leaf_hash D [].
Definition unit_tree (_ : unit) : option hash_tree := Some (HLeaf []).

Notation submap := (rbt unit).
Definition submap_hash (D : Deps) : submap -> bytes := rb_root_hash D.

(** signature_map.rs 22-26 *)
Record SigExpiration := mkExp {
  se_seed : bytes;
  se_dele : bytes;
  se_at : N
}.

(** signature_map.rs 28-34: the inverted [Ord]; [a <= b] iff b expires no later than a. *)
Definition exp_le (a b : SigExpiration) : bool := se_at b <=? se_at a.

(** signature_map.rs 44-47 *)
Record SignatureMap := mkSigMap {
  sm_map : rbt submap;
  sm_queue : list SigExpiration
}.

Definition sm_empty : SignatureMap := mkSigMap Null [].

(** signature_map.rs 50-67 *)
Definition sm_put (D : Deps) (now : N) (seed_hash delegation_hash : bytes) (m : SignatureMap)
  : outcome SignatureMap :=
  let at_ := sat_add now DELEGATION_SIGNATURE_EXPIRES_AT in
  olet map' :=
    match rb_get seed_hash (sm_map m) with
    | None =>
        olet sub := rb_insert D (unit_hash D) delegation_hash tt Null in
        rb_insert D (submap_hash D) seed_hash sub (sm_map m)
    | Some _ =>
        rb_modify D (submap_hash D) seed_hash
          (fun sub => rb_insert D (unit_hash D) delegation_hash tt sub) (sm_map m)
    end in
  Done (mkSigMap map' (heap_push exp_le (mkExp seed_hash delegation_hash at_) (sm_queue m))).

(** signature_map.rs 69-78.  [is_empty] is set by the closure, so it is true only
    if the seed was present and its submap became empty. *)
Definition sm_delete (D : Deps) (seed_hash delegation_hash : bytes) (m : SignatureMap)
  : outcome SignatureMap :=
  olet map' :=
    rb_modify D (submap_hash D) seed_hash
      (fun sub => rb_delete D (unit_hash D) delegation_hash sub) (sm_map m) in
  let is_empty := match rb_get seed_hash map' with
                  | Some sub => rb_is_empty sub
                  | None => false
                  end in
  olet map'' := (if is_empty then rb_delete D (submap_hash D) seed_hash map' else Done map') in
  Done (mkSigMap map'' (sm_queue m)).

(** signature_map.rs 86-98: the loop, [steps] iterations left, [n] pruned so far. *)
Fixpoint prune_loop (D : Deps) (now : N) (steps : nat) (n : N) (m : SignatureMap)
  : outcome (SignatureMap * N) :=
  match steps with
  | O => Done (m, n)
  | S k =>
      let stop := match heap_peek (sm_queue m) with
                  | Some e => now <? se_at e
                  | None => false
                  end in
      if stop then Done (m, n)
      else
        olet m' := match heap_pop exp_le (sm_queue m) with
                   | Some (e, q) => sm_delete D (se_seed e) (se_dele e) (mkSigMap (sm_map m) q)
                   | None => Done m
                   end in
        prune_loop D now k (n + 1) m'
  end.

(** signature_map.rs 80-99 *)
Definition sm_prune_expired (D : Deps) (now : N) (max_to_prune : nat) (m : SignatureMap)
  : outcome (SignatureMap * N) :=
  prune_loop D now (Nat.min max_to_prune (length (sm_queue m))) 0 m.

(** signature_map.rs 101-110: the first matching entry in the heap's storage order. *)
Definition sm_is_expired (now : N) (seed_hash delegation_hash : bytes) (m : SignatureMap) : bool :=
  match List.find (fun e => bytes_eqb (se_seed e) seed_hash && bytes_eqb (se_dele e) delegation_hash)
          (sm_queue m) with
  | Some e => se_at e <? now
  | None => false
  end.

(** signature_map.rs 112-114 *)
Definition sm_root_hash (D : Deps) (m : SignatureMap) : bytes := rb_root_hash D (sm_map m).

(** signature_map.rs 116-124 *)
Definition sm_witness (D : Deps) (seed_hash delegation_hash : bytes) (m : SignatureMap)
  : option hash_tree :=
  sub ← rb_get seed_hash (sm_map m);
  _ ← rb_get delegation_hash sub;
  rb_witness (submap_hash D) seed_hash
    (fun nested => rb_witness (unit_hash D) delegation_hash unit_tree nested) (sm_map m).
