(** Independent specification of the hash functions: SHA-256 and SHA-224 as in FIPS 180-4
    and Keccak-256 as in FIPS 202 with the padding of the original Keccak.  Words are
    natural numbers; nothing here is shared with Nib.v, Sha2.v or Keccak.v. *)
From Verif Require Import Base.
Local Open Scope N_scope.

(** ** Words of w bits *)

(** Bits below n go to the top, the others go down by n. *)
Definition rotr (w n x : N) : N := x / 2 ^ n + 2 ^ (w - n) * (x mod 2 ^ n).
(** The top n bits go to the bottom, the others go up by n. *)
Definition rotl (w n x : N) : N := 2 ^ n * (x mod 2 ^ (w - n)) + x / 2 ^ (w - n).

Definition be_value (l : bytes) : N := fold_left (fun n b => 256 * n + nb b) l 0.
Definition le_value (l : bytes) : N := be_value (rev l).

(** The i-th group of n bytes. *)
Definition group (n i : nat) (l : bytes) : bytes := firstn n (skipn (n * i) l).

(** ** SHA-256 and SHA-224 *)

Definition plus (x y : N) : N := (x + y) mod 2 ^ 32.

Definition Ch x y z := N.lxor (N.land x y) (N.land (N.lnot x 32) z).
Definition Maj x y z := N.lxor (N.lxor (N.land x y) (N.land x z)) (N.land y z).
Definition Sig0 x := N.lxor (N.lxor (rotr 32 2 x) (rotr 32 13 x)) (rotr 32 22 x).
Definition Sig1 x := N.lxor (N.lxor (rotr 32 6 x) (rotr 32 11 x)) (rotr 32 25 x).
Definition sig0 x := N.lxor (N.lxor (rotr 32 7 x) (rotr 32 18 x)) (N.shiftr x 3).
Definition sig1 x := N.lxor (N.lxor (rotr 32 17 x) (rotr 32 19 x)) (N.shiftr x 10).

(** The first n primes are among the numbers up to m. *)
Definition divides_none (p : nat) : bool := forallb (fun d => negb (Nat.eqb (p mod d) 0)) (seq 2 (p - 2)).
Definition primes (n m : nat) : list N := map N.of_nat (firstn n (filter divides_none (seq 2 (m - 1)))).

(** [k] is made of the bits [i+1] to [i+w] of the fraction of the e-th root of [p]. *)
Definition root_bits (e i w p k : N) : Prop :=
  exists r, r ^ e <= p * 2 ^ (e * (i + w)) < (r + 1) ^ e /\ k = r mod 2 ^ w.

Definition sha_K : list N :=
  [0x428a2f98; 0x71374491; 0xb5c0fbcf; 0xe9b5dba5; 0x3956c25b; 0x59f111f1; 0x923f82a4; 0xab1c5ed5;
   0xd807aa98; 0x12835b01; 0x243185be; 0x550c7dc3; 0x72be5d74; 0x80deb1fe; 0x9bdc06a7; 0xc19bf174;
   0xe49b69c1; 0xefbe4786; 0x0fc19dc6; 0x240ca1cc; 0x2de92c6f; 0x4a7484aa; 0x5cb0a9dc; 0x76f988da;
   0x983e5152; 0xa831c66d; 0xb00327c8; 0xbf597fc7; 0xc6e00bf3; 0xd5a79147; 0x06ca6351; 0x14292967;
   0x27b70a85; 0x2e1b2138; 0x4d2c6dfc; 0x53380d13; 0x650a7354; 0x766a0abb; 0x81c2c92e; 0x92722c85;
   0xa2bfe8a1; 0xa81a664b; 0xc24b8b70; 0xc76c51a3; 0xd192e819; 0xd6990624; 0xf40e3585; 0x106aa070;
   0x19a4c116; 0x1e376c08; 0x2748774c; 0x34b0bcb5; 0x391c0cb3; 0x4ed8aa4a; 0x5b9cca4f; 0x682e6ff3;
   0x748f82ee; 0x78a5636f; 0x84c87814; 0x8cc70208; 0x90befffa; 0xa4506ceb; 0xbef9a3f7; 0xc67178f2].
Definition sha256_H0 : list N :=
  [0x6a09e667; 0xbb67ae85; 0x3c6ef372; 0xa54ff53a; 0x510e527f; 0x9b05688c; 0x1f83d9ab; 0x5be0cd19].
Definition sha224_H0 : list N :=
  [0xc1059ed8; 0x367cd507; 0x3070dd17; 0xf70e5939; 0xffc00b31; 0x68581511; 0x64f98fa7; 0xbefa4fa4].

(** W_t = sig1 (W_{t-2}) + W_{t-7} + sig0 (W_{t-15}) + W_{t-16}, n times. *)
Fixpoint extend (n : nat) (w : list N) : list N :=
  match n with
  | O => w
  | S n' =>
      let back k := nth (length w - k) w 0 in
      extend n' (w ++ [plus (plus (plus (sig1 (back 2%nat)) (back 7%nat)) (sig0 (back 15%nat))) (back 16%nat)])
  end.

Definition sha_round (s : list N) (kw : N * N) : list N :=
  match s with
  | [a; b; c; d; e; f; g; h] =>
      let T1 := plus (plus (plus (plus h (Sig1 e)) (Ch e f g)) (fst kw)) (snd kw) in
      let T2 := plus (Sig0 a) (Maj a b c) in
      [plus T1 T2; a; b; c; plus d T1; e; f; g]
  | _ => s
  end.

Definition sha_block (H : list N) (block : bytes) : list N :=
  let M := map (fun i => be_value (group 4 i block)) (seq 0 16) in
  let s := fold_left sha_round (combine sha_K (extend 48 M)) H in
  map (fun xy => plus (fst xy) (snd xy)) (combine H s).

(** The message, a bit 1, the fewest bits 0 that fit, and its length in bits in 64 bits,
    cut into blocks of 512 bits; the digest is made of the first words of the state. *)
Definition is_sha2 (H0 : list N) (words : nat) (m d : bytes) : Prop :=
  exists z len blocks,
    (z < 64)%nat /\ length len = 8%nat /\ be_value len = (8 * N.of_nat (length m)) mod 2 ^ 64 /\
    m ++ [x80] ++ repeat x00 z ++ len = concat blocks /\
    Forall (fun b => length b = 64%nat) blocks /\
    length d = (4 * words)%nat /\
    map (fun i => be_value (group 4 i d)) (seq 0 words) = firstn words (fold_left sha_block blocks H0).

Definition is_sha256 : bytes -> bytes -> Prop := is_sha2 sha256_H0 8.
Definition is_sha224 : bytes -> bytes -> Prop := is_sha2 sha224_H0 7.

(** ** Keccak-256 *)

(** The state: the lane A[x,y] is the entry x + 5y; coordinates are modulo 5. *)
Definition lane (A : list N) (x y : nat) : N := nth (x mod 5 + 5 * (y mod 5)) A 0.
Definition state (f : nat -> nat -> N) : list N := map (fun i => f (i mod 5)%nat (i / 5)%nat) (seq 0 25).

Definition k_theta (A : list N) : list N :=
  let C x := N.lxor (N.lxor (N.lxor (N.lxor (lane A x 0) (lane A x 1)) (lane A x 2)) (lane A x 3)) (lane A x 4) in
  state (fun x y => N.lxor (lane A x y) (N.lxor (C (x + 4)%nat) (rotl 64 1 (C (x + 1)%nat)))).

(** The walk over the lanes other than [0,0], and the offset of the lane met at step t. *)
Fixpoint walk (t : nat) : nat * nat :=
  match t with
  | O => (1, 0)%nat
  | S t' => let '(x, y) := walk t' in (y, (2 * x + 3 * y) mod 5)%nat
  end.
Definition offset (x y : nat) : nat :=
  match List.find (fun t => Nat.eqb (fst (walk t)) x && Nat.eqb (snd (walk t)) y) (seq 0 24) with
  | Some t => ((t + 1) * (t + 2) / 2) mod 64
  | None => 0
  end%nat.
Definition k_rho (A : list N) : list N := state (fun x y => rotl 64 (N.of_nat (offset x y)) (lane A x y)).

Definition k_pi (A : list N) : list N := state (fun x y => lane A (x + 3 * y) x).

Definition k_chi (A : list N) : list N :=
  state (fun x y => N.lxor (lane A x y) (N.land (N.lnot (lane A (x + 1) y) 64) (lane A (x + 2) y))).

(** x^t modulo x^8 + x^6 + x^5 + x^4 + 1; its constant coefficient is rc(t). *)
Fixpoint power (t : nat) : N :=
  match t with
  | O => 1
  | S t' => let r := 2 * power t' in if N.testbit r 8 then N.lxor r 0x171 else r
  end.
Definition round_constant (i : nat) : N :=
  fold_left (fun n j => n + 2 ^ (2 ^ N.of_nat j - 1) * N.b2n (N.testbit (power (j + 7 * i)) 0)) (seq 0 7) 0.

Definition k_iota (r : N) (A : list N) : list N :=
  state (fun x y => if Nat.eqb x 0 && Nat.eqb y 0 then N.lxor (lane A x y) r else lane A x y).

Definition k_f (A : list N) : list N :=
  fold_left (fun A r => k_iota r (k_chi (k_pi (k_rho (k_theta A))))) (map round_constant (seq 0 24)) A.

(** A block of 17 lanes is added to the state. *)
Definition k_absorb (A : list N) (block : bytes) : list N :=
  k_f (state (fun x y => N.lxor (lane A x y) (le_value (group 8 (x + 5 * y) block)))).

(** The bits of a string of bytes, the least significant bit of each byte first. *)
Definition bits_of (l : bytes) : list bool :=
  flat_map (fun b => map (N.testbit_nat (nb b)) (seq 0 8)) l.

(** The message, a bit 1, the fewest bits 0 that fit and a bit 1, cut into blocks of
    1088 bits; the digest is made of the first four lanes. *)
Definition is_keccak256 (m d : bytes) : Prop :=
  exists j blocks,
    (j < 1088)%nat /\
    bits_of m ++ [true] ++ repeat false j ++ [true] = bits_of (concat blocks) /\
    Forall (fun b => length b = 136%nat) blocks /\
    length d = 32%nat /\
    map (fun i => le_value (group 8 i d)) (seq 0 4) = firstn 4 (fold_left k_absorb blocks (repeat 0 25)).
