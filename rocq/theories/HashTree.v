(** Hash trees of ic-certified-map 0.4.0 (Cargo.lock), written from its published
    source: [HashTree], [reconstruct], and the hash helpers used by
    signature_map.rs, delegation.rs 161 and ic_siwe_provider/src/lib.rs 105-111. *)
From Coq Require Import Strings.String.
From Verif Require Import Base Deps.
Local Open Scope N_scope.

Inductive hash_tree :=
| HEmpty
| HFork (l r : hash_tree)
| HLabeled (label : bytes) (t : hash_tree)
| HLeaf (b : bytes)
| HPruned (h : bytes).

(** ic_certified_map::domain_sep: SHA-256 fed with the length byte and the name. *)
Definition domain_sep (s b : bytes) : bytes := len8 s :: s ++ b.

Definition empty_hash (D : Deps) : bytes := d_sha256 D (domain_sep (bs "ic-hashtree-empty") []).
Definition fork_hash (D : Deps) (l r : bytes) : bytes :=
  d_sha256 D (domain_sep (bs "ic-hashtree-fork") (l ++ r)).
Definition leaf_hash (D : Deps) (b : bytes) : bytes :=
  d_sha256 D (domain_sep (bs "ic-hashtree-leaf") b).
Definition labeled_hash (D : Deps) (label h : bytes) : bytes :=
  d_sha256 D (domain_sep (bs "ic-hashtree-labeled") (label ++ h)).

(** HashTree::reconstruct *)
Fixpoint reconstruct (D : Deps) (t : hash_tree) : bytes :=
  match t with
  | HEmpty => empty_hash D
  | HFork l r => fork_hash D (reconstruct D l) (reconstruct D r)
  | HLabeled label t => labeled_hash D label (reconstruct D t)
  | HLeaf b => leaf_hash D b
  | HPruned h => h
  end.
