(** std::collections::BinaryHeap (Rust 1.7x), as used by signature_map.rs: push,
    peek, pop and iteration in storage order.  Std moves a "hole" through the
    vector; the moves are written as swaps, which leave the same vector. *)
From Verif Require Import Base.

Section Heap.
  Context {E : Type}.
  (** [a <= b] in the element's [Ord]. *)
  Variable ole : E -> E -> bool.

  Definition swap (i j : nat) (l : list E) : list E :=
    match l !! i, l !! j with
    | Some a, Some b => <[i := b]> (<[j := a]> l)
    | _, _ => l
    end.

  Definition ole_at (l : list E) (i j : nat) : bool :=
    match l !! i, l !! j with
    | Some a, Some b => ole a b
    | _, _ => true
    end.

  (** BinaryHeap::sift_up(0, pos) *)
  Fixpoint sift_up (fuel : nat) (pos : nat) (l : list E) : list E :=
    match fuel with
    | O => l
    | S f =>
        if Nat.eqb pos 0 then l
        else
          let parent := ((pos - 1) / 2)%nat in
          if ole_at l pos parent then l else sift_up f parent (swap pos parent l)
    end.

  (** BinaryHeap::push *)
  Definition heap_push (x : E) (l : list E) : list E :=
    sift_up (S (length l)) (length l) (l ++ [x]).

  (** The loop of BinaryHeap::sift_down_to_bottom; returns the vector and the
      final position of the element. *)
  Fixpoint sift_down (fuel : nat) (pos : nat) (l : list E) : list E * nat :=
    match fuel with
    | O => (l, pos)
    | S f =>
        let child := (2 * pos + 1)%nat in
        if Nat.leb child (length l - 2) then
          let child := if ole_at l child (S child) then S child else child in
          sift_down f child (swap pos child l)
        else if Nat.eqb child (length l - 1) then (swap pos child l, child)
        else (l, pos)
    end.

  (** BinaryHeap::peek *)
  Definition heap_peek (l : list E) : option E := l !! 0%nat.

  (** BinaryHeap::pop: the last element replaces the first, then sifts down to
      the bottom and up again. *)
  Definition heap_pop (l : list E) : option (E * list E) :=
    match l with
    | [] => None
    | x :: _ =>
        let l' := take (length l - 1) l in
        match l !! (length l - 1)%nat, l' with
        | Some y, _ :: r =>
            let '(l2, pos) := sift_down (length l') 0 (y :: r) in
            Some (x, sift_up (S (length l')) pos l2)
        | _, _ => Some (x, [])
        end
    end.
End Heap.
