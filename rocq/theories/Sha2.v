(** Executable SHA-256 and SHA-224 (FIPS 180-4), used to instantiate [Deps] with
    the real hash functions in examples.  Words are tuples of digits (Nib.v). *)
From Coq Require Import Strings.String.
From Verif Require Import Base Encode Nib.
Local Open Scope N_scope.

Definition bsig0 x := xor32 (rotr32_2 x) (xor32 (rotr32_13 x) (rotr32_22 x)).
Definition bsig1 x := xor32 (rotr32_6 x) (xor32 (rotr32_11 x) (rotr32_25 x)).
Definition ssig0 x := xor32 (rotr32_7 x) (xor32 (rotr32_18 x) (shr32_3 x)).
Definition ssig1 x := xor32 (rotr32_17 x) (xor32 (rotr32_19 x) (shr32_10 x)).
Definition ch x y z := xor32 (and32 x y) (andn32 x z).
Definition maj x y z := xor32 (and32 x y) (xor32 (and32 x z) (and32 y z)).

Definition K256 : list w32 := Eval vm_compute in map of32
  [0x428a2f98; 0x71374491; 0xb5c0fbcf; 0xe9b5dba5; 0x3956c25b; 0x59f111f1; 0x923f82a4; 0xab1c5ed5;
   0xd807aa98; 0x12835b01; 0x243185be; 0x550c7dc3; 0x72be5d74; 0x80deb1fe; 0x9bdc06a7; 0xc19bf174;
   0xe49b69c1; 0xefbe4786; 0x0fc19dc6; 0x240ca1cc; 0x2de92c6f; 0x4a7484aa; 0x5cb0a9dc; 0x76f988da;
   0x983e5152; 0xa831c66d; 0xb00327c8; 0xbf597fc7; 0xc6e00bf3; 0xd5a79147; 0x06ca6351; 0x14292967;
   0x27b70a85; 0x2e1b2138; 0x4d2c6dfc; 0x53380d13; 0x650a7354; 0x766a0abb; 0x81c2c92e; 0x92722c85;
   0xa2bfe8a1; 0xa81a664b; 0xc24b8b70; 0xc76c51a3; 0xd192e819; 0xd6990624; 0xf40e3585; 0x106aa070;
   0x19a4c116; 0x1e376c08; 0x2748774c; 0x34b0bcb5; 0x391c0cb3; 0x4ed8aa4a; 0x5b9cca4f; 0x682e6ff3;
   0x748f82ee; 0x78a5636f; 0x84c87814; 0x8cc70208; 0x90befffa; 0xa4506ceb; 0xbef9a3f7; 0xc67178f2].

Record st8 := St { sa : w32; sb : w32; sc : w32; sd : w32; se : w32; sf : w32; sg : w32; sh : w32 }.

Definition round (s : st8) (kw : w32) : st8 :=
  match s with St a b c d e f g h =>
    let t1 := add32 (add32 h (bsig1 e)) (add32 (ch e f g) kw) in
    let t2 := add32 (bsig0 a) (maj a b c) in
    St (add32 t1 t2) a b c (add32 d t1) e f g
  end.

(** Processes the rounds with a sliding window of the last 16 schedule words
    (oldest first). *)
Fixpoint rounds (ks : list w32) (w : list w32) (s : st8) : st8 :=
  match ks with
  | [] => s
  | k :: ks' =>
      match w with
      | [w0; w1; w2; w3; w4; w5; w6; w7; w8; w9; w10; w11; w12; w13; w14; w15] =>
          let w16 := add32 (add32 (ssig1 w14) w9) (add32 (ssig0 w1) w0) in
          rounds ks' [w1; w2; w3; w4; w5; w6; w7; w8; w9; w10; w11; w12; w13; w14; w15; w16]
            (round s (add32 k w0))
      | _ => s
      end
  end.

Definition compress (s : st8) (block : list w32) : st8 :=
  match s, rounds K256 block s with
  | St a b c d e f g h, St a' b' c' d' e' f' g' h' =>
      St (add32 a a') (add32 b b') (add32 c c') (add32 d d') (add32 e e') (add32 f f') (add32 g g') (add32 h h')
  end.

Fixpoint words32 (l : bytes) : list w32 :=
  match l with
  | a :: b :: c :: d :: r => be32 a b c d :: words32 r
  | _ => []
  end.

Definition pad (l : bytes) : bytes :=
  let n := length l in
  let z := ((119 - n mod 64) mod 64)%nat in
  l ++ x80 :: repeat x00 z ++ be_fixed 8 (8 * N.of_nat n).

Fixpoint blocks (fuel : nat) (s : st8) (w : list w32) : st8 :=
  match fuel with
  | O => s
  | S f => match w with
           | [] => s
           | _ => blocks f (compress s (firstn 16 w)) (skipn 16 w)
           end
  end.

Definition run (iv : st8) (l : bytes) : st8 :=
  let w := words32 (pad l) in blocks (S (length w)) iv w.

Definition iv256 : st8 := Eval vm_compute in
  St (of32 0x6a09e667) (of32 0xbb67ae85) (of32 0x3c6ef372) (of32 0xa54ff53a) (of32 0x510e527f) (of32 0x9b05688c) (of32 0x1f83d9ab) (of32 0x5be0cd19).
Definition iv224 : st8 := Eval vm_compute in
  St (of32 0xc1059ed8) (of32 0x367cd507) (of32 0x3070dd17) (of32 0xf70e5939) (of32 0xffc00b31) (of32 0x68581511) (of32 0x64f98fa7) (of32 0xbefa4fa4).

Definition sha256 (l : bytes) : bytes :=
  let s := run iv256 l in
  bytes32 (sa s) ++ bytes32 (sb s) ++ bytes32 (sc s) ++ bytes32 (sd s)
  ++ bytes32 (se s) ++ bytes32 (sf s) ++ bytes32 (sg s) ++ bytes32 (sh s).

Definition sha224 (l : bytes) : bytes :=
  let s := run iv224 l in
  bytes32 (sa s) ++ bytes32 (sb s) ++ bytes32 (sc s) ++ bytes32 (sd s)
  ++ bytes32 (se s) ++ bytes32 (sf s) ++ bytes32 (sg s).

Lemma bytes32_length x : length (bytes32 x) = 4%nat.
Proof. destruct x. reflexivity. Qed.

Lemma sha256_length l : length (sha256 l) = 32%nat.
Proof. unfold sha256. rewrite !app_length, !bytes32_length. reflexivity. Qed.

Lemma sha224_length l : length (sha224 l) = 28%nat.
Proof. unfold sha224. rewrite !app_length, !bytes32_length. reflexivity. Qed.
