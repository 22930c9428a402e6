(** Hash trees as the IC interface specification defines them ("Certificates",
    "Lookup"), and the reference behaviour of the signature map. *)
From Coq Require Import Strings.String Sorting.Sorted.
From Verif Require Import Base HashTree SpecHash.
Local Open Scope N_scope.

(** ** Root hash of a tree: one-byte length prefixed domain separators *)

Section TreeHash.
  Variable H : bytes -> bytes.

  Fixpoint tree_hash (t : hash_tree) : bytes :=
    match t with
    | HEmpty => H (x11 :: bs "ic-hashtree-empty")
    | HFork l r => H (x10 :: bs "ic-hashtree-fork" ++ tree_hash l ++ tree_hash r)
    | HLabeled label t => H (x13 :: bs "ic-hashtree-labeled" ++ label ++ tree_hash t)
    | HLeaf b => H (x10 :: bs "ic-hashtree-leaf" ++ b)
    | HPruned h => h
    end.
End TreeHash.

(** The strings that are hashed on the way. *)
Fixpoint tree_inputs (H : bytes -> bytes) (t : hash_tree) : list bytes :=
  match t with
  | HEmpty => [x11 :: bs "ic-hashtree-empty"]
  | HFork l r =>
      (x10 :: bs "ic-hashtree-fork" ++ tree_hash H l ++ tree_hash H r) :: tree_inputs H l ++ tree_inputs H r
  | HLabeled label t => (x13 :: bs "ic-hashtree-labeled" ++ label ++ tree_hash H t) :: tree_inputs H t
  | HLeaf b => [x10 :: bs "ic-hashtree-leaf" ++ b]
  | HPruned _ => []
  end.

(** The wire format gives every pruned subtree 32 bytes. *)
Fixpoint digests32 (t : hash_tree) : Prop :=
  match t with
  | HFork l r => digests32 l /\ digests32 r
  | HLabeled _ t => digests32 t
  | HPruned h => length h = 32%nat
  | _ => True
  end.

(** Nothing has been pruned. *)
Fixpoint complete (t : hash_tree) : Prop :=
  match t with
  | HFork l r => complete l /\ complete r
  | HLabeled _ t => complete t
  | HPruned _ => False
  | _ => True
  end.

(** ** Lookup *)

Fixpoint flatten_forks (t : hash_tree) : list hash_tree :=
  match t with
  | HEmpty => []
  | HFork l r => flatten_forks l ++ flatten_forks r
  | t => [t]
  end.

Fixpoint labels (ts : list hash_tree) : list bytes :=
  match ts with
  | [] => []
  | HLabeled l _ :: ts => l :: labels ts
  | _ :: ts => labels ts
  end.

(** [find_label l ts = Found t] of the specification. *)
Inductive label_found (l : bytes) (t : hash_tree) : list hash_tree -> Prop :=
| found : forall before after, label_found l t (before ++ HLabeled l t :: after).

(** [lookup_path path tree = Found v]. *)
Inductive lookup_found : list bytes -> hash_tree -> bytes -> Prop :=
| lookup_leaf : forall v, lookup_found [] (HLeaf v) v
| lookup_label : forall l path t t' v,
    label_found l t' (flatten_forks t) -> lookup_found path t' v -> lookup_found (l :: path) t v.

(** The specification's [well_formed]: labels strictly increase and no leaf is a sibling of a label. *)
Inductive well_formed : hash_tree -> Prop :=
| wf_leaf : forall v, well_formed (HLeaf v)
| wf_forest : forall t,
    StronglySorted lex_lt (labels (flatten_forks t)) ->
    (forall l t', In (HLabeled l t') (flatten_forks t) -> well_formed t') ->
    (forall v, ~ In (HLeaf v) (flatten_forks t)) ->
    well_formed t.

(** ** Reference signature map: a set of pairs and a bag of expirations *)

Inductive map_op :=
| MPut (now : N) (seed delegation : bytes)
| MDelete (seed delegation : bytes)
| MPrune (now : N) (max : nat).

Record abs_entry := mkEntry { en_seed : bytes; en_delegation : bytes; en_expires : N }.

Record abs_map := mkAbs {
  abs_has : bytes -> bytes -> Prop;
  abs_entries : list abs_entry
}.

Definition one_minute : N := 60000000000.

(** [l] splits into the removed entries and the rest: as many expired entries as
    the budget allows, none unexpired, oldest first. *)
Definition prunes (now : N) (max : nat) (l removed rest : list abs_entry) : Prop :=
  Permutation l (removed ++ rest) /\
  length removed = Nat.min max (length (List.filter (fun e => en_expires e <=? now) l)) /\
  Forall (fun e => en_expires e <= now) removed /\
  Forall (fun e => Forall (fun e' => en_expires e <= en_expires e') rest) removed.

Inductive abs_step : map_op -> abs_map -> abs_map -> N -> Prop :=
| abs_put : forall now s d P l l' has',
    (forall s' d', has' s' d' <-> (s' = s /\ d' = d) \/ P s' d') ->
    Permutation l' (mkEntry s d (N.min (now + one_minute) 18446744073709551615) :: l) ->
    abs_step (MPut now s d) (mkAbs P l) (mkAbs has' l') 0
| abs_delete : forall s d P l l' has',
    (forall s' d', has' s' d' <-> P s' d' /\ ~ (s' = s /\ d' = d)) ->
    Permutation l' l ->
    abs_step (MDelete s d) (mkAbs P l) (mkAbs has' l') 0
| abs_prune : forall now max P l l' has' removed,
    prunes now max l removed l' ->
    (forall s' d', has' s' d' <->
       P s' d' /\ ~ (exists e, In e removed /\ en_seed e = s' /\ en_delegation e = d')) ->
    abs_step (MPrune now max) (mkAbs P l) (mkAbs has' l') (N.of_nat (length removed)).

Inductive abs_run : list map_op -> abs_map -> Prop :=
| run_nil : forall P, (forall s d, ~ P s d) -> abs_run [] (mkAbs P [])
| run_snoc : forall ops op a a' n, abs_run ops a -> abs_step op a a' n -> abs_run (ops ++ [op]) a'.
