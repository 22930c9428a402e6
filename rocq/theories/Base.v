(** Bytes, results, outcomes and small list helpers shared by every file. *)
From Coq Require Export Strings.Byte NArith.NArith ZArith.ZArith Lia Lists.List.
From Coq Require Import Strings.String Strings.Ascii.
From stdpp Require Export base decidable list countable gmap option.
From stdpp Require Import numbers.

Local Open Scope N_scope.

(** ** Bytes *)

Global Instance byte_eq_dec : EqDecision byte.
Proof. intros a b. destruct (Byte.byte_eq_dec a b); [left|right]; assumption. Defined.

Global Program Instance byte_countable : Countable byte :=
  inj_countable Byte.to_N Byte.of_N _.
Next Obligation. intros x. apply Byte.of_to_N. Qed.

Notation bytes := (list byte).

(** [&str] literals: the bytes of an ASCII Coq string. *)
Definition bs (s : string) : bytes := list_byte_of_string s.
Arguments bs s%string_scope.

Notation nb := Byte.to_N.

(** [x as u8]: truncation of an integer to its low eight bits. *)
Definition u8 (n : N) : byte :=
  match Byte.of_N (n mod 256) with Some b => b | None => x00 end.

Definition blen (l : bytes) : N := N.of_nat (length l).

(** [len as u8], as used for length prefixes in the Rust code. *)
Definition len8 (l : bytes) : byte := u8 (blen l).

(** ** Machine integers *)

Definition u64_max : N := 18446744073709551615.
Definition u32_max : N := 4294967295.

(** [u64::saturating_add]. *)
Definition sat_add (a b : N) : N := N.min (a + b) u64_max.

(** ** Results and panics *)

(** Rust's [Result]. *)
Inductive result (A E : Type) : Type :=
| Ok (a : A)
| Err (e : E).
Arguments Ok {A E} a.
Arguments Err {A E} e.

(** The outcome of running Rust code: a value, or a panic / trap. *)
Inductive outcome (A : Type) : Type :=
| Done (a : A)
| Trap (why : string).
Arguments Done {A} a.
Arguments Trap {A} why%string_scope.

Definition obind {A B} (x : outcome A) (f : A -> outcome B) : outcome B :=
  match x with Done a => f a | Trap w => Trap w end.

Notation "'olet' p ':=' x 'in' f" :=
  (obind x (fun p => f)) (at level 200, p pattern, x at level 100, f at level 200).

(** [Result::unwrap]. *)
Definition unwrap {A E} (x : result A E) : outcome A :=
  match x with
  | Ok a => Done a
  | Err _ => Trap "called `Result::unwrap()` on an `Err` value"
  end.

Definition map_err {A E F} (f : E -> F) (x : result A E) : result A F :=
  match x with Ok a => Ok a | Err e => Err (f e) end.

(** ** Lexicographic order on byte strings ([Ord] for [[u8]]) *)

Fixpoint bytes_cmp (a b : bytes) : comparison :=
  match a, b with
  | [], [] => Eq
  | [], _ :: _ => Lt
  | _ :: _, [] => Gt
  | x :: a', y :: b' =>
      match nb x ?= nb y with
      | Eq => bytes_cmp a' b'
      | c => c
      end
  end.

Definition bytes_eqb (a b : bytes) : bool := bool_decide (a = b).

Fixpoint is_prefix (p l : bytes) : bool :=
  match p, l with
  | [], _ => true
  | _ :: _, [] => false
  | x :: p', y :: l' => Byte.eqb x y && is_prefix p' l'
  end.

(** [str::strip_prefix]. *)
Fixpoint strip_prefix (p l : bytes) : option bytes :=
  match p, l with
  | [], _ => Some l
  | _ :: _, [] => None
  | x :: p', y :: l' => if Byte.eqb x y then strip_prefix p' l' else None
  end.

(** ** Decimal rendering of integers ([Display] for unsigned integers) *)

Definition digit (n : N) : byte := u8 (48 + n mod 10).

(** [fuel] is an upper bound on the number of digits. *)
Fixpoint dec_aux (fuel : nat) (n : N) (acc : bytes) : bytes :=
  match fuel with
  | O => acc
  | S f =>
      let acc' := digit n :: acc in
      if n / 10 =? 0 then acc' else dec_aux f (n / 10) acc'
  end.

Definition dec (n : N) : bytes := dec_aux (S (N.to_nat (N.log2 n))) n [].

(** Zero-padded decimal of exactly [w] digits (low digits of [n]). *)
Fixpoint dec_pad (w : nat) (n : N) : bytes :=
  match w with
  | O => []
  | S w' => dec_pad w' (n / 10) ++ [digit n]
  end.
