(** ChaCha20 after RFC 8439, section 2, with a 64-bit block counter and the nonce zero, and
    its keystream; without the functions of the model. *)
From Coq Require Import Strings.String.
From Verif Require Import Base.
Local Open Scope N_scope.

(** 2.1: the quarter round on 32-bit numbers. *)
Definition plus32 (x y : N) : N := (x + y) mod 2 ^ 32.
Definition rotl32 (x n : N) : N := x * 2 ^ n mod 2 ^ 32 + x / 2 ^ (32 - n).
Definition quarter (a b c d : N) : N * N * N * N :=
  let a := plus32 a b in let d := N.lxor d a in let d := rotl32 d 16 in
  let c := plus32 c d in let b := N.lxor b c in let b := rotl32 b 12 in
  let a := plus32 a b in let d := N.lxor d a in let d := rotl32 d 8 in
  let c := plus32 c d in let b := N.lxor b c in let b := rotl32 b 7 in
  (a, b, c, d).

(** 2.2: on four of the 16 words of the state. *)
Definition quarter_round (x y z w : nat) (s : list N) : list N :=
  match quarter (nth x s 0) (nth y s 0) (nth z s 0) (nth w s 0) with
  | (a, b, c, d) => <[w := d]> (<[z := c]> (<[y := b]> (<[x := a]> s)))
  end.

(** 2.3: four column rounds and four diagonal rounds, ten times; the initial state is
    added at the end. *)
Definition inner_block (s : list N) : list N :=
  let s := quarter_round 0 4 8 12 s in
  let s := quarter_round 1 5 9 13 s in
  let s := quarter_round 2 6 10 14 s in
  let s := quarter_round 3 7 11 15 s in
  let s := quarter_round 0 5 10 15 s in
  let s := quarter_round 1 6 11 12 s in
  let s := quarter_round 2 7 8 13 s in
  quarter_round 3 4 9 14 s.

(** Four bytes as a little-endian number, and back. *)
Definition word_at (l : bytes) (i : nat) : N :=
  let b k := nb (nth (4 * i + k) l x00) in b 0%nat + 2 ^ 8 * b 1%nat + 2 ^ 16 * b 2%nat + 2 ^ 24 * b 3%nat.
Definition byte_of (w : N) (k : nat) : byte := u8 (w / 2 ^ (8 * N.of_nat k)).

Definition initial (key : bytes) (ctr : N) : list N :=
  map (word_at (bs "expand 32-byte k")) (seq 0 4) ++ map (word_at key) (seq 0 8) ++
  [ctr mod 2 ^ 32; ctr / 2 ^ 32; 0; 0].
Definition key_block (key : bytes) (ctr : N) : list N :=
  zip_with plus32 (Nat.iter 10 inner_block (initial key ctr)) (initial key ctr).

(** The bytes of the blocks 0, 1, 2, ... one after another. *)
Definition keystream (key : bytes) (i : N) : byte :=
  byte_of (nth (N.to_nat (i / 4 mod 16)) (key_block key (i / 64)) 0) (N.to_nat (i mod 4)).
