(** [RbTree] of ic-certified-map 0.4.0 (Cargo.lock): a left-leaning red-black tree
    whose nodes cache the hash of their subtree.  Written from the crate's
    published source; raw pointers become an inductive type, and every
    dereference of a null pointer becomes [Trap]. *)
From Coq Require Import Strings.String.
From Verif Require Import Base Deps HashTree.
Local Open Scope N_scope.

Inductive color := Red | Black.

(** [Node.subtree_hash] is the field [h]. *)
Inductive rbt (V : Type) : Type :=
| Null
| Node (c : color) (l : rbt V) (k : bytes) (v : V) (h : bytes) (r : rbt V).
Arguments Null {V}.
Arguments Node {V} c l k v h r.

Definition flip (c : color) : color := match c with Red => Black | Black => Red end.

Section RbTree.
  Context {V : Type}.
  Variable D : Deps.
  (** AsHashTree::root_hash of the values. *)
  Variable vhash : V -> bytes.

  Fixpoint rb_get (key : bytes) (t : rbt V) : option V :=
    match t with
    | Null => None
    | Node _ l k v _ r =>
        match bytes_cmp key k with
        | Eq => Some v
        | Lt => rb_get key l
        | Gt => rb_get key r
        end
    end.

  Definition rb_is_empty (t : rbt V) : bool :=
    match t with Null => true | _ => false end.

  Definition is_red (t : rbt V) : bool :=
    match t with Node Red _ _ _ _ _ => true | _ => false end.

  (** Node::subtree_hash from the cached hashes of the children. *)
  Definition node_hash (l : rbt V) (k : bytes) (v : V) (r : rbt V) : bytes :=
    let h := labeled_hash D k (vhash v) in
    match l, r with
    | Null, Null => h
    | Node _ _ _ _ hl _, Null => fork_hash D hl h
    | Null, Node _ _ _ _ hr _ => fork_hash D h hr
    | Node _ _ _ _ hl _, Node _ _ _ _ hr _ => fork_hash D hl (fork_hash D h hr)
    end.

  (** A node whose cached hash has just been brought up to date
      (update_subtree_hash). *)
  Definition mk (c : color) (l : rbt V) (k : bytes) (v : V) (r : rbt V) : rbt V :=
    Node c l k v (node_hash l k v r) r.

  (** RbTree::root_hash *)
  Definition rb_root_hash (t : rbt V) : bytes :=
    match t with Null => empty_hash D | Node _ _ _ _ h _ => h end.

  Definition null_deref {A} : outcome A := Trap "null pointer dereference".

  (** rotate_left: make a right-leaning link lean to the left. *)
  Definition rotate_left (t : rbt V) : outcome (rbt V) :=
    match t with
    | Node c l k v _ (Node _ rl rk rv _ rr) => Done (mk c (mk Red l k v rl) rk rv rr)
    | _ => null_deref
    end.

  (** rotate_right *)
  Definition rotate_right (t : rbt V) : outcome (rbt V) :=
    match t with
    | Node c (Node _ ll lk lv _ lr) k v _ r => Done (mk c ll lk lv (mk Red lr k v r))
    | _ => null_deref
    end.

  (** flip_colors: inverts the colours of a node and its two children. *)
  Definition flip_colors (t : rbt V) : outcome (rbt V) :=
    match t with
    | Node c (Node lc ll lk lv lh lr) k v h (Node rc rl rk rv rh rr) =>
        Done (Node (flip c) (Node (flip lc) ll lk lv lh lr) k v h (Node (flip rc) rl rk rv rh rr))
    | _ => null_deref
    end.

  Definition left_of (t : rbt V) : rbt V :=
    match t with Node _ l _ _ _ _ => l | Null => Null end.
  Definition right_of (t : rbt V) : rbt V :=
    match t with Node _ _ _ _ _ r => r | Null => Null end.

  (** Reading [left] of [h.left] and friends: reading a field through a null pointer faults. *)
  Definition deref_left (t : rbt V) : outcome (rbt V) :=
    match t with Node _ l _ _ _ _ => Done l | Null => null_deref end.

  (** balance *)
  Definition balance (t : rbt V) : outcome (rbt V) :=
    olet t := (if is_red (right_of t) && negb (is_red (left_of t)) then rotate_left t else Done t) in
    olet t := (if is_red (left_of t) && is_red (left_of (left_of t)) then rotate_right t else Done t) in
    if is_red (left_of t) && is_red (right_of t) then flip_colors t else Done t.

  Definition blacken (t : rbt V) : rbt V :=
    match t with Null => Null | Node _ l k v h r => Node Black l k v h r end.

  (** RbTree::insert *)
  Fixpoint insert_go (key : bytes) (value : V) (t : rbt V) : outcome (rbt V) :=
    match t with
    | Null => Done (mk Red Null key value Null)
    | Node c l k v _ r =>
        match bytes_cmp key k with
        | Eq => balance (mk c l k value r)
        | Lt => olet l' := insert_go key value l in balance (mk c l' k v r)
        | Gt => olet r' := insert_go key value r in balance (mk c l k v r')
        end
    end.

  Definition rb_insert (key : bytes) (value : V) (t : rbt V) : outcome (rbt V) :=
    olet t' := insert_go key value t in Done (blacken t').

  (** RbTree::modify.  The closure mutates the value in place. *)
  Fixpoint rb_modify (key : bytes) (f : V -> outcome V) (t : rbt V) : outcome (rbt V) :=
    match t with
    | Null => Done Null
    | Node c l k v _ r =>
        match bytes_cmp key k with
        | Eq => olet v' := f v in Done (mk c l k v' r)
        | Lt => olet l' := rb_modify key f l in Done (mk c l' k v r)
        | Gt => olet r' := rb_modify key f r in Done (mk c l k v r')
        end
    end.

  (** move_red_left (inside RbTree::delete) *)
  Definition move_red_left (t : rbt V) : outcome (rbt V) :=
    olet t := flip_colors t in
    olet rl := deref_left (right_of t) in
    if is_red rl then
      match t with
      | Node c l k v h r =>
          olet r' := rotate_right r in
          olet t := rotate_left (Node c l k v h r') in
          flip_colors t
      | Null => null_deref
      end
    else Done t.

  (** move_red_right *)
  Definition move_red_right (t : rbt V) : outcome (rbt V) :=
    olet t := flip_colors t in
    olet ll := deref_left (left_of t) in
    if is_red ll then olet t := rotate_right t in flip_colors t
    else Done t.

  (** min: the left-most node's key and value. *)
  Fixpoint rb_min (t : rbt V) : outcome (bytes * V) :=
    match t with
    | Null => null_deref
    | Node _ Null k v _ _ => Done (k, v)
    | Node _ l _ _ _ _ => rb_min l
    end.

  Fixpoint rb_size (t : rbt V) : nat :=
    match t with Null => O | Node _ l _ _ _ r => S (rb_size l + rb_size r) end.

  Definition no_fuel {A} : outcome A := Trap "out of fuel".

  (** delete_min.  Rotations make the recursion non-structural; the fuel is the
      number of nodes (proved sufficient). *)
  Fixpoint delete_min (fuel : nat) (t : rbt V) : outcome (rbt V) :=
    match fuel with
    | O => no_fuel
    | S f =>
        match t with
        | Null => null_deref
        | Node _ Null _ _ _ _ => Done Null
        | Node _ l _ _ _ _ =>
            olet ll := deref_left l in
            olet t := (if negb (is_red l) && negb (is_red ll) then move_red_left t else Done t) in
            match t with
            | Null => null_deref
            | Node c l k v _ r =>
                olet l' := delete_min f l in
                balance (mk c l' k v r)
            end
        end
    end.

  (** [go] inside RbTree::delete *)
  Fixpoint delete_go (fuel : nat) (key : bytes) (t : rbt V) : outcome (rbt V) :=
    match fuel with
    | O => no_fuel
    | S f =>
        match t with
        | Null => null_deref
        | Node _ l k _ _ _ =>
            match bytes_cmp key k with
            | Lt =>
                olet t := (if is_red l then Done t
                           else olet ll := deref_left l in
                                if is_red ll then Done t else move_red_left t) in
                match t with
                | Null => null_deref
                | Node c l k v _ r =>
                    olet l' := delete_go f key l in
                    balance (mk c l' k v r)
                end
            | _ =>
                olet t := (if is_red l then rotate_right t else Done t) in
                match t with
                | Null => null_deref
                | Node _ _ k _ _ r =>
                    match bytes_cmp key k, r with
                    | Eq, Null => Done Null
                    | _, _ =>
                        olet t := (if is_red r then Done t
                                   else olet rl := deref_left r in
                                        if is_red rl then Done t else move_red_right t) in
                        match t with
                        | Null => null_deref
                        | Node c l k v _ r =>
                            match bytes_cmp key k with
                            | Eq =>
                                olet m := rb_min r in
                                olet r' := delete_min f r in
                                balance (mk c l (fst m) (snd m) r')
                            | _ =>
                                olet r' := delete_go f key r in
                                balance (mk c l k v r')
                            end
                        end
                    end
                end
            end
        end
    end.

  (** RbTree::delete *)
  Definition rb_delete (key : bytes) (t : rbt V) : outcome (rbt V) :=
    match rb_get key t with
    | None => Done t
    | Some _ =>
        let t0 := match t with
                  | Node _ l k v h r =>
                      if negb (is_red l) && negb (is_red r) then Node Red l k v h r else t
                  | Null => Null
                  end in
        olet t' := delete_go (S (rb_size t)) key t0 in
        Done (blacken t')
    end.

  (** three_way_fork *)
  Definition three_way_fork (l m r : hash_tree) : hash_tree :=
    match l, r with
    | HEmpty, HEmpty => m
    | _, HEmpty => HFork l m
    | HEmpty, _ => HFork m r
    | _, _ => HFork l (HFork m r)
    end.

  (** Node::left_hash_tree / right_hash_tree *)
  Definition pruned (t : rbt V) : hash_tree :=
    match t with Null => HEmpty | Node _ _ _ _ h _ => HPruned h end.

  (** RbTree::nested_witness through lookup_and_build_witness.  [None] stands for
      the proof-of-absence branch, which is not modelled; signature_map.rs 116-124
      only asks for keys that are present. *)
  Fixpoint rb_witness (key : bytes) (f : V -> option hash_tree) (t : rbt V) : option hash_tree :=
    match t with
    | Null => None
    | Node _ l k v _ r =>
        match bytes_cmp key k with
        | Eq => w ← f v; Some (three_way_fork (pruned l) (HLabeled k w) (pruned r))
        | Lt => w ← rb_witness key f l;
                Some (three_way_fork w (HLabeled k (HPruned (vhash v))) (pruned r))
        | Gt => w ← rb_witness key f r;
                Some (three_way_fork (pruned l) (HLabeled k (HPruned (vhash v))) w)
        end
    end.
End RbTree.
