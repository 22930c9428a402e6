(** The textual form of principals as the IC interface specification and RFC 4648
    describe it, without the functions of the model. *)
From Coq Require Import Strings.String.
From Verif Require Import Base.
Local Open Scope N_scope.

(** The number written with the digits [l], most significant first. *)
Definition number (base : N) (l : list N) : N := fold_left (fun a d => a * base + d) l 0.

(** RFC 4648: the digits of the bytes as a number, filled up with zero bits on the right. *)
Definition alphabet : bytes := bs "abcdefghijklmnopqrstuvwxyz234567".
Definition base32_text (b s : bytes) : Prop :=
  exists ds, Forall (fun d => d < 32) ds /\ s = map (fun d => nth (N.to_nat d) alphabet x00) ds /\
    (8 * length b <= 5 * length ds < 8 * length b + 5)%nat /\
    number 32 ds = number 256 (map nb b) * 2 ^ N.of_nat (5 * length ds - 8 * length b).

(** Groups of five characters separated by dashes; the last group may be shorter. *)
Inductive grouped : bytes -> bytes -> Prop :=
| g_last s : (length s <= 5)%nat -> grouped s s
| g_more a s t : length a = 5%nat -> s <> [] -> grouped s t -> grouped (a ++ s) (a ++ bs "-" ++ t).

(** CRC-32 (ISO 3309): division by x^32 + x^26 + x^23 + x^22 + x^16 + x^12 + x^11 + x^10 +
    x^8 + x^7 + x^5 + x^4 + x^2 + x + 1 in a shift register that starts with ones; the
    coefficient of x^31 comes first.  Bytes go in with the lowest bit first. *)
Definition generator : list bool :=
  map (fun k => bool_decide (k ∈ [26; 23; 22; 16; 12; 11; 10; 8; 7; 5; 4; 2; 1; 0]%nat)) (reverse (seq 0 32)).
Definition shift_in (r : list bool) (b : bool) : list bool :=
  match r with
  | [] => []
  | h :: t => zip_with (fun x g => xorb x (xorb h b && g)) (t ++ [false]) generator
  end.
Definition crc_register (l : bytes) : list bool :=
  fold_left shift_in (flat_map (fun b => map (fun k => N.testbit (nb b) (N.of_nat k)) (seq 0 8)) l) (repeat true 32).
(** The checksum is the complement of the register, in four bytes, the lowest bit of
    each byte being the one that was shifted out first. *)
Definition crc_of (l c : bytes) : Prop :=
  length c = 4%nat /\
  forall k, (k < 32)%nat ->
    exists b r, nth_error c (3 - k / 8) = Some b /\ nth_error (crc_register l) k = Some r /\
      N.testbit (nb b) (N.of_nat (k mod 8)) = negb r.

Definition principal_text (p t : bytes) : Prop :=
  exists c s, crc_of p c /\ base32_text (c ++ p) s /\ grouped s t.

(** Two texts that differ only in the case of their letters. *)
Definition same_letter (a b : byte) : Prop :=
  a = b \/ exists k, k < 26 /\ ((nb a = 65 + k /\ nb b = 97 + k) \/ (nb a = 97 + k /\ nb b = 65 + k)).
Definition same_but_case (s t : bytes) : Prop := Forall2 same_letter s t.

(** The principal a text stands for: at most 29 bytes, in either case. *)
Definition denotes (t p : bytes) : Prop :=
  (length p <= 29)%nat /\ exists u, principal_text p u /\ same_but_case t u.

(** Texts that differ in at most two neighbouring characters: one of them may be wrong,
    both may be wrong, or they may be swapped. *)
Definition mistyped (s t : bytes) : Prop :=
  exists a x x' y y' b, s = a ++ x :: x' :: b /\ t = a ++ y :: y' :: b.
