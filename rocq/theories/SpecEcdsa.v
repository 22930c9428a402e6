(** Independent specification of secp256k1 and ECDSA, after SEC 1 version 2 (sections 2.2.1,
    4.1.3 and 4.1.4), SEC 2 version 2 (section 2.4.1) and, for the recovery id and the rule of
    low s, the Ethereum yellow paper (appendix F). *)
From Verif Require Import Base SpecEth SpecTrace.
Local Open Scope Z_scope.

(** SEC 2, 2.4.1 *)
Definition secp_p : Z := 2 ^ 256 - 2 ^ 32 - 2 ^ 9 - 2 ^ 8 - 2 ^ 7 - 2 ^ 6 - 2 ^ 4 - 1.
Definition secp_n : Z := 115792089237316195423570985008687907852837564279074904382605163141518161494337.
Definition secp_gx : Z := 55066263022277343669578718895168534326250603453777594175500187360389116729240.
Definition secp_gy : Z := 32670510020758816978083085130507043184471273380659243275938904335757337482424.

(** SEC 1, 2.2.1: the points of y^2 = x^3 + 7 and the point at infinity *)
Inductive point := Inf | Aff (x y : Z).

Definition congr (m a b : Z) : Prop := exists k, a = b + k * m.

Definition in_field (x : Z) : Prop := 0 <= x < secp_p.
Definition on_curve (P : point) : Prop :=
  match P with
  | Inf => True
  | Aff x y => in_field x /\ in_field y /\ congr secp_p (y * y) (x * x * x + 7)
  end.

(** The third point on the line with slope l through (x1, y1) and (x2, _), reflected. *)
Definition line_point (l x1 y1 x2 x3 y3 : Z) : Prop :=
  in_field x3 /\ in_field y3 /\
  congr secp_p x3 (l * l - x1 - x2) /\ congr secp_p y3 (l * (x1 - x3) - y1).

(** The rules of addition, in SEC 1's order. *)
Inductive point_add : point -> point -> point -> Prop :=
| add_inf_inf : point_add Inf Inf Inf
| add_inf_l x y : point_add Inf (Aff x y) (Aff x y)
| add_inf_r x y : point_add (Aff x y) Inf (Aff x y)
| add_opposite x y y' : congr secp_p (y + y') 0 -> point_add (Aff x y) (Aff x y') Inf
| add_chord l x1 y1 x2 y2 x3 y3 :
    x1 <> x2 -> congr secp_p (l * (x2 - x1)) (y2 - y1) -> line_point l x1 y1 x2 x3 y3 ->
    point_add (Aff x1 y1) (Aff x2 y2) (Aff x3 y3)
| add_tangent l x y x3 y3 :
    y <> 0 -> congr secp_p (l * (2 * y)) (3 * x * x) -> line_point l x y x x3 y3 ->
    point_add (Aff x y) (Aff x y) (Aff x3 y3).

(** k P is the sum of k copies of P. *)
Inductive multiple (P : point) : Z -> point -> Prop :=
| multiple_0 : multiple P 0 Inf
| multiple_succ k Q R : multiple P k Q -> point_add Q P R -> multiple P (k + 1) R.

Definition secp_G : point := Aff secp_gx secp_gy.

(** A private key and its public key (SEC 1, 3.2.1) *)
Definition key_pair (d : Z) (Q : point) : Prop := 0 < d < secp_n /\ multiple secp_G d Q.

(** The signature (r, s) that private key d makes for the digest z with the ephemeral key k,
    and the point R = k G (SEC 1, 4.1.3, steps 1-6). *)
Definition ecdsa_sign (d k z r s xR yR : Z) : Prop :=
  0 < k < secp_n /\ multiple secp_G k (Aff xR yR) /\
  0 < r < secp_n /\ congr secp_n r xR /\
  0 < s < secp_n /\ congr secp_n (k * s) (z + r * d).

(** SEC 1, 4.1.4: verification under public key Q *)
Definition ecdsa_verify (Q : point) (z r s : Z) : Prop :=
  0 < r < secp_n /\ 0 < s < secp_n /\
  exists u1 u2 P1 P2 xR yR, 0 <= u1 /\ 0 <= u2 /\
    congr secp_n (u1 * s) z /\ congr secp_n (u2 * s) r /\
    multiple secp_G u1 P1 /\ multiple Q u2 P2 /\
    point_add P1 P2 (Aff xR yR) /\ congr secp_n r xR.

(** What an Ethereum wallet returns for the digest z: s or n - s, whichever is below half the
    order, and the recovery id: bit 0 is the parity of yR, flipped if s was replaced; bit 1
    tells that xR was not below n. *)
Definition eth_sign (d k z r s : Z) (v : N) : Prop :=
  exists s0 xR yR, ecdsa_sign d k z r s0 xR yR /\ 2 * s < secp_n /\
    (s = s0 \/ s = secp_n - s0) /\
    v = ((if xorb (Z.odd yR) (negb (Z.eqb s s0)) then 1 else 0) +
         (if Z.leb secp_n xR then 2 else 0))%N.

(** The integer of an octet string (SEC 1, 2.3.8). *)
Fixpoint os2ip (l : bytes) : Z :=
  match l with [] => 0 | b :: r => Z.of_N (nb b) * 256 ^ Z.of_nat (length r) + os2ip r end.
Definition octets (n : nat) (x : Z) (l : bytes) : Prop := length l = n /\ os2ip l = x.

(** The address of a public key: the last 20 bytes of the hash of its coordinates. *)
Definition key_address (keccak : bytes -> bytes) (Q : point) (addr : bytes) : Prop :=
  exists x y bx by' front, Q = Aff x y /\ octets 32 x bx /\ octets 32 y by' /\
    keccak (bx ++ by') = front ++ addr /\ length addr = 20%nat.

(** The 65 bytes r, s, v of a signature of a message of these framed bytes by private key d;
    v counts modulo 27. *)
Definition signed_by (keccak : bytes -> bytes) (d : Z) (framed sig65 : bytes) : Prop :=
  exists k z r s v br bs' bv, octets 32 z (keccak framed) /\ eth_sign d k z r s v /\
    octets 32 r br /\ octets 32 s bs' /\ (nb bv mod 27 = v)%N /\ sig65 = br ++ bs' ++ [bv].

(** The signature text is one that a wallet with the private key [d] makes for the text. *)
Definition wallet_signature (keccak : bytes -> bytes) (d : Z) (text sg : bytes) : Prop :=
  exists framed sig65, eip191_framed text framed /\ signed_by keccak d framed sig65 /\ signature_text sg sig65.
