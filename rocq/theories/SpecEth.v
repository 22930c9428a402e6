(** Independent specifications for the Ethereum part: EIP-55 and EIP-191. *)
From Coq Require Import Strings.String.
From Verif Require Import Base.
Local Open Scope N_scope.

(** The two nibbles of each byte, high one first. *)
Definition nibbles (l : bytes) : list N := flat_map (fun b => [nb b / 16; nb b mod 16]) l.

(** Lower- and upper-case hexadecimal digit of a nibble. *)
Definition lower_digit (n : N) : byte := nth (N.to_nat n) (bs "0123456789abcdef") x00.
Definition upper_digit (n : N) : byte := nth (N.to_nat n) (bs "0123456789ABCDEF") x00.

Definition lower_hex (l : bytes) : bytes := map lower_digit (nibbles l).

(** EIP-55: "convert the address to hex, but if the i-th digit is a letter print
    it in uppercase if the 4*i-th bit of the hash of the lowercase hexadecimal
    address is 1". *)
Definition eip55 (keccak : bytes -> bytes) (addr : bytes) : bytes :=
  bs "0x" ++
  zip_with (fun n h => if 8 <=? h then upper_digit n else lower_digit n)
    (nibbles addr) (nibbles (keccak (lower_hex addr))).

(** A string of hexadecimal digits in any case denotes these bytes. *)
Definition hex_denotes (s b : bytes) : Prop :=
  Forall2 (fun c n => c = lower_digit n \/ c = upper_digit n) s (nibbles b).

(** EIP-191 version 0x45 (personal_sign): 0x19 "Ethereum Signed Message:\n" <decimal
    byte length> <message>.  The decimal is characterised by its value, having
    only digits and no leading zero. *)
Definition is_decimal (s : bytes) (n : N) : Prop :=
  s <> [] /\ Forall (fun c => 48 <= nb c <= 57) s /\
  fold_left (fun a c => 10 * a + (nb c - 48)) s 0 = n /\
  (hd x00 s = x30 -> s = [x30]).

Definition eip191_framed (message framed : bytes) : Prop :=
  exists digits, is_decimal digits (N.of_nat (length message)) /\
    framed = x19 :: bs "Ethereum Signed Message:" ++ [x0a] ++ digits ++ message.
