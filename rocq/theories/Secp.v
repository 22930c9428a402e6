(** Model of the part of k256 0.13.3 and ecdsa 0.16.9 (versions of Cargo.lock 812-814 and
    2233-2235; the crates are not part of /repo) that packages/ic_siwe/src/eth.rs 155-162
    uses: [Signature::from_slice] and [VerifyingKey::recover_from_prehash].

    Simplifications: field and scalar elements are reduced integers (the crate reduces
    lazily); inverses and square roots are powers computed by squaring (the crate uses
    fixed addition chains); a scalar multiple is computed by double-and-add (the crate
    splits scalars by the GLV endomorphism and uses tables). *)
From Verif Require Import Base Deps.
Local Open Scope Z_scope.

(** a^e mod m *)
Fixpoint powm_pos (a m : Z) (e : positive) : Z :=
  match e with
  | xH => a mod m
  | xO e' => let t := powm_pos a m e' in (t * t) mod m
  | xI e' => let t := powm_pos a m e' in ((t * t) mod m * a) mod m
  end.
Definition powm (a e m : Z) : Z :=
  match e with Zpos e' => powm_pos a m e' | _ => 1 mod m end.

(** k256 lib.rs / arithmetic: the field modulus, the order, the generator *)
Definition fp : Z := 0xFFFFFFFFFFFFFFFFFFFFFFFFFFFFFFFFFFFFFFFFFFFFFFFFFFFFFFFEFFFFFC2F.
Definition sorder : Z := 0xFFFFFFFFFFFFFFFFFFFFFFFFFFFFFFFEBAAEDCE6AF48A03BBFD25E8CD0364141.
Definition gen_x : Z := 0x79BE667EF9DCBBAC55A06295CE870B07029BFCDB2DCE28D959F2815B16F81798.
Definition gen_y : Z := 0x483ADA7726A3C4655DA4FBFC0E1108A8FD17B448A68554199C47D08FFB10D4B8.

(** FieldElement *)
Definition f_add (a b : Z) : Z := (a + b) mod fp.
Definition f_sub (a b : Z) : Z := (a - b) mod fp.
Definition f_mul (a b : Z) : Z := (a * b) mod fp.
Definition f_neg (a : Z) : Z := (- a) mod fp.
Definition f_inv (a : Z) : Z := powm a (fp - 2) fp.
(** sqrt: a^((p+1)/4), checked *)
Definition f_sqrt (a : Z) : option Z :=
  let b := powm a ((fp + 1) / 4) fp in if f_mul b b =? a then Some b else None.

(** ProjectivePoint *)
Record proj := mkProj { px : Z; py : Z; pz : Z }.
Definition pp_identity : proj := mkProj 0 1 0.
Definition pp_generator : proj := mkProj gen_x gen_y 1.

(** ProjectivePoint::add (Renes, Costello, Batina 2015, algorithm 7, b = 7) *)
Definition pp_add (P Q : proj) : proj :=
  let xx := f_mul (px P) (px Q) in
  let yy := f_mul (py P) (py Q) in
  let zz := f_mul (pz P) (pz Q) in
  let xy_pairs := f_sub (f_mul (f_add (px P) (py P)) (f_add (px Q) (py Q))) (f_add xx yy) in
  let yz_pairs := f_sub (f_mul (f_add (py P) (pz P)) (f_add (py Q) (pz Q))) (f_add yy zz) in
  let xz_pairs := f_sub (f_mul (f_add (px P) (pz P)) (f_add (px Q) (pz Q))) (f_add xx zz) in
  let bzz3 := f_mul 21 zz in
  let yy_m_bzz3 := f_sub yy bzz3 in
  let yy_p_bzz3 := f_add yy bzz3 in
  let byz3 := f_mul 21 yz_pairs in
  let xx3 := f_mul 3 xx in
  let bxx9 := f_mul 63 xx in
  mkProj (f_sub (f_mul xy_pairs yy_m_bzz3) (f_mul byz3 xz_pairs))
         (f_add (f_mul yy_p_bzz3 yy_m_bzz3) (f_mul bxx9 xz_pairs))
         (f_add (f_mul yz_pairs yy_p_bzz3) (f_mul xx3 xy_pairs)).

(** ProjectivePoint::double (algorithm 9) *)
Definition pp_double (P : proj) : proj :=
  let yy := f_mul (py P) (py P) in
  let zz := f_mul (pz P) (pz P) in
  let xy2 := f_mul 2 (f_mul (px P) (py P)) in
  let bzz3 := f_mul 21 zz in
  let bzz9 := f_mul 3 bzz3 in
  let yy_m_bzz9 := f_sub yy bzz9 in
  let yy_p_bzz3 := f_add yy bzz3 in
  let t := f_mul 168 (f_mul yy zz) in
  mkProj (f_mul xy2 yy_m_bzz9)
         (f_add (f_mul yy_m_bzz9 yy_p_bzz3) t)
         (f_mul 8 (f_mul (f_mul yy (py P)) (pz P))).

(** scalar multiple, by double-and-add *)
Fixpoint pp_mul_pos (k : positive) (P : proj) : proj :=
  match k with
  | xH => P
  | xO k' => pp_double (pp_mul_pos k' P)
  | xI k' => pp_add (pp_double (pp_mul_pos k' P)) P
  end.
Definition pp_mul (k : Z) (P : proj) : proj :=
  match k with Zpos k' => pp_mul_pos k' P | _ => pp_identity end.

(** ProjectivePoint::lincomb(x, k, y, l) *)
Definition lincomb (P : proj) (k : Z) (Q : proj) (l : Z) : proj := pp_add (pp_mul k P) (pp_mul l Q).

(** ProjectivePoint::to_affine; the identity is [None] *)
Definition to_affine (P : proj) : option (Z * Z) :=
  if pz P =? 0 then None else let i := f_inv (pz P) in Some (f_mul (px P) i, f_mul (py P) i).

(** AffinePoint::decompress: x below the modulus, y the square root of x^3 + 7 of the wanted parity *)
Definition decompress (x : Z) (y_is_odd : bool) : option (Z * Z) :=
  if fp <=? x then None
  else match f_sqrt (f_add (f_mul (f_mul x x) x) 7) with
       | None => None
       | Some beta => Some (x, if eqb (Z.odd beta) y_is_odd then beta else f_neg beta)
       end.

(** Big-endian integers of byte strings; [be_bytes n x] is the low n bytes of x. *)
Definition be_val (l : bytes) : Z := fold_left (fun a b => 256 * a + Z.of_N (nb b)) l 0.
Fixpoint be_bytes (n : nat) (x : Z) : bytes :=
  match n with
  | O => []
  | S n' => be_bytes n' (x / 256) ++ [u8 (Z.to_N (x mod 256))]
  end.

(** Scalars *)
Definition s_inv (a : Z) : Z := powm a (sorder - 2) sorder.
(** Scalar::is_high: above half the order *)
Definition is_high (s : Z) : bool := sorder / 2 <? s.

(** ecdsa hazmat::verify_prehashed behind k256's [VerifyPrimitive], which refuses high s *)
Definition verify_prehashed (Q : Z * Z) (z r s : Z) : bool :=
  if is_high s then false
  else
    let i := s_inv s in
    let u1 := (z * i) mod sorder in
    let u2 := (r * i) mod sorder in
    let x := match to_affine (lincomb pp_generator u1 (mkProj (fst Q) (snd Q) 1) u2) with
             | None => 0
             | Some (x, _) => x
             end in
    r =? x mod sorder.

(** Signature::from_slice: 64 bytes, both scalars nonzero and below the order *)
Definition scalar_ok (x : Z) : bool := (0 <? x) && (x <? sorder).
Definition sig_from_slice (sg : bytes) : option (Z * Z) :=
  if negb (Nat.eqb (length sg) 64) then None
  else let r := be_val (take 32 sg) in
       let s := be_val (drop 32 sg) in
       if scalar_ok r && scalar_ok s then Some (r, s) else None.

(** VerifyingKey::recover_from_prehash, and the 64 bytes of the uncompressed point after its
    tag.  Bit 0 of the recovery id: y is odd; bit 1: the x-coordinate was reduced. *)
Definition recover_key (z r s : Z) (v : N) : option (Z * Z) :=
  let x := if N.testbit v 1
           then (if r + sorder <? 2 ^ 256 then Some (r + sorder) else None)
           else Some r in
  match x with
  | None => None
  | Some x =>
      match decompress x (N.testbit v 0) with
      | None => None
      | Some R =>
          let i := s_inv r in
          let u1 := (- ((i * z) mod sorder)) mod sorder in
          let u2 := (i * s) mod sorder in
          match to_affine (lincomb pp_generator u1 (mkProj (fst R) (snd R) 1) u2) with
          | None => None
          | Some Q => if verify_prehashed Q z r s then Some Q else None
          end
      end
  end.

Definition recover_from_prehash (hash sg : bytes) (v : N) : option bytes :=
  match sig_from_slice sg with
  | None => None
  | Some (r, s) =>
      match recover_key (be_val hash mod sorder) r s v with
      | None => None
      | Some (x, y) => Some (be_bytes 32 x ++ be_bytes 32 y)
      end
  end.

(** Every [Deps], with its members for ECDSA replaced by the functions above. *)
Definition with_k256 (D : Deps) : Deps := {|
  d_sha256 := d_sha256 D; d_sha224 := d_sha224 D; d_keccak := d_keccak D;
  d_sig_ok := fun sg => match sig_from_slice sg with Some _ => true | None => false end;
  d_recover := recover_from_prehash;
  d_der_err := d_der_err D; d_url_parse := d_url_parse D; d_chacha := d_chacha D |}.
