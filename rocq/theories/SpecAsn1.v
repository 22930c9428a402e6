(** Which byte strings are sequences of BER elements with definite lengths of at most four
    octets (X.690 8.1), as a grammar. *)
From Verif Require Import Base.
Local Open Scope N_scope.

(** Base-128 digits, most significant first; all but the last have the top bit set.
    Leading zero digits are allowed. *)
Inductive digits128 : N -> bytes -> Prop :=
| d128_last b : nb b < 128 -> digits128 (nb b) [b]
| d128_more b v l : 128 <= nb b -> digits128 v l ->
    digits128 ((nb b - 128) * 128 ^ N.of_nat (length l) + v) (b :: l).

(** Big-endian number *)
Fixpoint be256 (l : bytes) : N :=
  match l with [] => 0 | b :: r => nb b * 256 ^ N.of_nat (length r) + be256 r end.

(** Identifier octets: class (0 is universal) and number. *)
Inductive identifier : N -> N -> bytes -> Prop :=
| id_low b class : class = nb b / 64 -> nb b mod 32 < 31 -> identifier class (nb b mod 32) [b]
| id_high b class v l : class = nb b / 64 -> nb b mod 32 = 31 -> digits128 v l -> identifier class v (b :: l).

(** Length octets: short form, or long form with at most four octets (none of them means zero). *)
Inductive length_octets : N -> bytes -> Prop :=
| len_short b : nb b < 128 -> length_octets (nb b) [b]
| len_long b l : nb b = 128 + blen l -> blen l <= 4 -> length_octets (be256 l) (b :: l).

Section grammar.
Variable leaf : N -> bytes -> Prop.   (* contents of the string and time types *)

(** Contents octets of a universal type, other than SEQUENCE (16) and SET (17). *)
Inductive contents : N -> bytes -> Prop :=
| c_boolean b : contents 1 [b]
| c_bits_empty : contents 3 []
| c_bits b l : nb b <= 8 * blen l -> contents 3 (b :: l)
| c_oid b arcs : Forall (fun a => exists v, digits128 v a) arcs -> contents 6 (b :: concat arcs)
| c_leaf tag l : In tag [12; 19; 20; 22; 23; 24; 28; 30] -> leaf tag l -> contents tag l
| c_other tag l : ~ In tag [1; 3; 6; 16; 17; 12; 19; 20; 22; 23; 24; 28; 30] -> contents tag l.

(** One or more elements. *)
Inductive elements : bytes -> Prop :=
| e_one x : element x -> elements x
| e_cons x l : element x -> elements l -> elements (x ++ l)
with element : bytes -> Prop :=
| e_private class tag t n c : class <> 0 -> identifier class tag t -> length_octets (blen c) n -> element (t ++ n ++ c)
| e_simple tag t n c : identifier 0 tag t -> length_octets (blen c) n -> contents tag c -> element (t ++ n ++ c)
| e_constructed tag t n c : tag = 16 \/ tag = 17 -> identifier 0 tag t -> length_octets (blen c) n -> elements c ->
    element (t ++ n ++ c).
End grammar.
