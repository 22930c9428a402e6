(** Executable Keccak-256 (tiny_keccak's Keccak::v256: padding byte 0x01), used to
    instantiate [Deps] with the real hash function in examples.  Lanes are tuples of
    digits (Nib.v). *)
From Verif Require Import Base Nib.
Local Open Scope N_scope.

(** The state: the lane A[x,y] is the field x + 5y. *)
Inductive kst := KS (a0 a1 a2 a3 a4 a5 a6 a7 a8 a9 a10 a11 a12 a13 a14 a15 a16 a17 a18 a19 a20 a21 a22 a23 a24 : w64).

Definition rotl64_1 := rotr64_63.

(** C[x] = A[x,0] + ... + A[x,4], D[x] = C[x-1] + rot(C[x+1], 1), A'[x,y] = A[x,y] + D[x]. *)
Definition theta (s : kst) : kst :=
  match s with KS a0 a1 a2 a3 a4 a5 a6 a7 a8 a9 a10 a11 a12 a13 a14 a15 a16 a17 a18 a19 a20 a21 a22 a23 a24 =>
    let c0 := xor64 a0 (xor64 a5 (xor64 a10 (xor64 a15 a20))) in
    let c1 := xor64 a1 (xor64 a6 (xor64 a11 (xor64 a16 a21))) in
    let c2 := xor64 a2 (xor64 a7 (xor64 a12 (xor64 a17 a22))) in
    let c3 := xor64 a3 (xor64 a8 (xor64 a13 (xor64 a18 a23))) in
    let c4 := xor64 a4 (xor64 a9 (xor64 a14 (xor64 a19 a24))) in
    let d0 := xor64 c4 (rotl64_1 c1) in
    let d1 := xor64 c0 (rotl64_1 c2) in
    let d2 := xor64 c1 (rotl64_1 c3) in
    let d3 := xor64 c2 (rotl64_1 c4) in
    let d4 := xor64 c3 (rotl64_1 c0) in
    KS (xor64 a0 d0) (xor64 a1 d1) (xor64 a2 d2) (xor64 a3 d3) (xor64 a4 d4)
       (xor64 a5 d0) (xor64 a6 d1) (xor64 a7 d2) (xor64 a8 d3) (xor64 a9 d4)
       (xor64 a10 d0) (xor64 a11 d1) (xor64 a12 d2) (xor64 a13 d3) (xor64 a14 d4)
       (xor64 a15 d0) (xor64 a16 d1) (xor64 a17 d2) (xor64 a18 d3) (xor64 a19 d4)
       (xor64 a20 d0) (xor64 a21 d1) (xor64 a22 d2) (xor64 a23 d3) (xor64 a24 d4)
  end.

(** rho then pi: B[y, 2x+3y] = rot(A[x,y], r[x,y]); read backwards, B[X,Y] = rot(A[X+3Y, X]).
    A rotation to the left by r is one to the right by 64 - r. *)
Definition rho_pi (s : kst) : kst :=
  match s with KS a0 a1 a2 a3 a4 a5 a6 a7 a8 a9 a10 a11 a12 a13 a14 a15 a16 a17 a18 a19 a20 a21 a22 a23 a24 =>
    KS a0 (rotr64_20 a6) (rotr64_21 a12) (rotr64_43 a18) (rotr64_50 a24)
       (rotr64_36 a3) (rotr64_44 a9) (rotr64_61 a10) (rotr64_19 a16) (rotr64_3 a22)
       (rotr64_63 a1) (rotr64_58 a7) (rotr64_39 a13) (rotr64_56 a19) (rotr64_46 a20)
       (rotr64_37 a4) (rotr64_28 a5) (rotr64_54 a11) (rotr64_49 a17) (rotr64_8 a23)
       (rotr64_2 a2) (rotr64_9 a8) (rotr64_25 a14) (rotr64_23 a15) (rotr64_62 a21)
  end.

(** A[x,y] + (not A[x+1,y]) A[x+2,y] *)
Definition chi (s : kst) : kst :=
  match s with KS a0 a1 a2 a3 a4 a5 a6 a7 a8 a9 a10 a11 a12 a13 a14 a15 a16 a17 a18 a19 a20 a21 a22 a23 a24 =>
    KS (xor64 a0 (andn64 a1 a2)) (xor64 a1 (andn64 a2 a3)) (xor64 a2 (andn64 a3 a4)) (xor64 a3 (andn64 a4 a0)) (xor64 a4 (andn64 a0 a1))
       (xor64 a5 (andn64 a6 a7)) (xor64 a6 (andn64 a7 a8)) (xor64 a7 (andn64 a8 a9)) (xor64 a8 (andn64 a9 a5)) (xor64 a9 (andn64 a5 a6))
       (xor64 a10 (andn64 a11 a12)) (xor64 a11 (andn64 a12 a13)) (xor64 a12 (andn64 a13 a14)) (xor64 a13 (andn64 a14 a10)) (xor64 a14 (andn64 a10 a11))
       (xor64 a15 (andn64 a16 a17)) (xor64 a16 (andn64 a17 a18)) (xor64 a17 (andn64 a18 a19)) (xor64 a18 (andn64 a19 a15)) (xor64 a19 (andn64 a15 a16))
       (xor64 a20 (andn64 a21 a22)) (xor64 a21 (andn64 a22 a23)) (xor64 a22 (andn64 a23 a24)) (xor64 a23 (andn64 a24 a20)) (xor64 a24 (andn64 a20 a21))
  end.

Definition iota (rc : w64) (s : kst) : kst :=
  match s with KS a0 a1 a2 a3 a4 a5 a6 a7 a8 a9 a10 a11 a12 a13 a14 a15 a16 a17 a18 a19 a20 a21 a22 a23 a24 =>
    KS (xor64 a0 rc) a1 a2 a3 a4 a5 a6 a7 a8 a9 a10 a11 a12 a13 a14 a15 a16 a17 a18 a19 a20 a21 a22 a23 a24
  end.

Definition RC : list w64 := Eval vm_compute in map of64
  [0x0000000000000001; 0x0000000000008082; 0x800000000000808A; 0x8000000080008000;
   0x000000000000808B; 0x0000000080000001; 0x8000000080008081; 0x8000000000008009;
   0x000000000000008A; 0x0000000000000088; 0x0000000080008009; 0x000000008000000A;
   0x000000008000808B; 0x800000000000008B; 0x8000000000008089; 0x8000000000008003;
   0x8000000000008002; 0x8000000000000080; 0x000000000000800A; 0x800000008000000A;
   0x8000000080008081; 0x8000000000008080; 0x0000000080000001; 0x8000000080008008].

Definition keccak_f (s : kst) : kst :=
  fold_left (fun s rc => iota rc (chi (rho_pi (theta s)))) RC s.

Fixpoint lanes (l : bytes) : list w64 :=
  match l with
  | b0 :: b1 :: b2 :: b3 :: b4 :: b5 :: b6 :: b7 :: r => le64 b0 b1 b2 b3 b4 b5 b6 b7 :: lanes r
  | _ => []
  end.

Definition rate : nat := 136.

Definition kpad (l : bytes) : bytes :=
  let q := (rate - length l mod rate)%nat in
  if Nat.eqb q 1 then l ++ [x81]
  else l ++ x01 :: repeat x00 (q - 2) ++ [x80].

(** A block has 17 lanes. *)
Definition absorb (s : kst) (block : bytes) : kst :=
  match s, lanes block with
  | KS a0 a1 a2 a3 a4 a5 a6 a7 a8 a9 a10 a11 a12 a13 a14 a15 a16 a17 a18 a19 a20 a21 a22 a23 a24,
    [v0; v1; v2; v3; v4; v5; v6; v7; v8; v9; v10; v11; v12; v13; v14; v15; v16] =>
      keccak_f (KS (xor64 a0 v0) (xor64 a1 v1) (xor64 a2 v2) (xor64 a3 v3) (xor64 a4 v4) (xor64 a5 v5) (xor64 a6 v6) (xor64 a7 v7) (xor64 a8 v8) (xor64 a9 v9) (xor64 a10 v10) (xor64 a11 v11) (xor64 a12 v12) (xor64 a13 v13) (xor64 a14 v14) (xor64 a15 v15) (xor64 a16 v16)
        a17 a18 a19 a20 a21 a22 a23 a24)
  | _, _ => s
  end.

Fixpoint absorb_all (fuel : nat) (a : kst) (l : bytes) : kst :=
  match fuel with
  | O => a
  | S f => match l with
           | [] => a
           | _ => absorb_all f (absorb a (firstn rate l)) (skipn rate l)
           end
  end.

Definition keccak256 (l : bytes) : bytes :=
  let p := kpad l in
  match absorb_all (S (length p)) (KS zero64 zero64 zero64 zero64 zero64 zero64 zero64 zero64 zero64 zero64 zero64 zero64 zero64 zero64 zero64 zero64 zero64 zero64 zero64 zero64 zero64 zero64 zero64 zero64 zero64) p with
  | KS a0 a1 a2 a3 _ _ _ _ _ _ _ _ _ _ _ _ _ _ _ _ _ _ _ _ _ => bytes64 a0 ++ bytes64 a1 ++ bytes64 a2 ++ bytes64 a3
  end.

Lemma bytes64_length x : length (bytes64 x) = 8%nat.
Proof. destruct x. reflexivity. Qed.

Lemma keccak256_length l : length (keccak256 l) = 32%nat.
Proof. unfold keccak256. destruct (absorb_all _ _ _). rewrite !app_length, !bytes64_length. reflexivity. Qed.
