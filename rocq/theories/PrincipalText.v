(** The textual form of principals: ic_principal 0.1.1 (Cargo.lock; used by
    init_upgrade.rs 88-93 for [targets] and by test_canister/src/lib.rs 45 and 54), with
    crc32fast 1.3.2 and data-encoding 2.5.0 (BASE32_NOPAD).  Their sources are not in
    /repo; the functions follow the published ones. *)
From Coq Require Import Strings.String.
From Verif Require Import Base Eth Encode.
Local Open Scope N_scope.

(** ** CRC-32 (crc32fast::hash): reflected polynomial 0xEDB88320 *)

Definition crc_step (c : N) : N :=
  let s := N.shiftr c 1 in if N.testbit c 0 then N.lxor s 0xEDB88320 else s.
Definition crc_byte (c : N) (b : byte) : N :=
  let c := N.lxor c (nb b) in
  crc_step (crc_step (crc_step (crc_step (crc_step (crc_step (crc_step (crc_step c))))))).
Definition crc32 (l : bytes) : N := N.lxor (fold_left crc_byte l 0xFFFFFFFF) 0xFFFFFFFF.

(** ** Base 32 without padding (RFC 4648) *)

(** The symbols for 0..31 in lower case: a..z, 2..7. *)
Definition b32_symbol (n : N) : byte := if n <? 26 then u8 (97 + n) else u8 (24 + n).
Definition b32_value (c : byte) : option N :=
  let n := nb c in
  if (65 <=? n) && (n <=? 90) then Some (n - 65)
  else if (50 <=? n) && (n <=? 55) then Some (n - 24)
  else None.

(** Most significant bit first. *)
Fixpoint bits_of (w : nat) (n : N) : list bool :=
  match w with
  | O => []
  | S w' => N.testbit n (N.of_nat w') :: bits_of w' n
  end.
Definition of_bits (l : list bool) : N := fold_left (fun a (b : bool) => 2 * a + (if b then 1 else 0)) l 0.

Definition byte_bits (l : bytes) : list bool := flat_map (fun b => bits_of 8 (nb b)) l.

(** Groups of [w] bits; the last one is filled up with zeros. *)
Fixpoint group_bits (fuel w : nat) (l : list bool) : list N :=
  match fuel, l with
  | S f, _ :: _ => of_bits (take w (l ++ repeat false w)) :: group_bits f w (drop w l)
  | _, _ => []
  end.

Definition b32_encode (l : bytes) : bytes :=
  map b32_symbol (group_bits (8 * length l) 5 (byte_bits l)).

Fixpoint b32_values (l : bytes) : option (list N) :=
  match l with
  | [] => Some []
  | c :: r => match b32_value c, b32_values r with Some v, Some vs => Some (v :: vs) | _, _ => None end
  end.

(** The symbol count must be one that encoding produces, and the bits left over must be
    zero (data-encoding checks both). *)
Definition b32_decode (l : bytes) : option bytes :=
  match b32_values l with
  | None => None
  | Some vs =>
      let bits := flat_map (bits_of 5) vs in
      let n := (length bits / 8)%nat in
      let rest := drop (8 * n) bits in
      if (length rest <? 5)%nat && forallb negb rest
      then Some (map u8 (group_bits (length bits) 8 (take (8 * n) bits)))
      else None
  end.

(** ** Principal::to_text (Display) and Principal::from_text *)

Fixpoint with_dashes (fuel : nat) (s : bytes) : bytes :=
  match fuel with
  | O => s
  | S f => if (5 <? length s)%nat then take 5 s ++ bs "-" ++ with_dashes f (drop 5 s) else s
  end.

Definition principal_to_text (p : bytes) : bytes :=
  let s := b32_encode (be_fixed 4 (crc32 p) ++ p) in with_dashes (length s) s.

Definition MAX_LENGTH_IN_BYTES : nat := 29.
Definition CRC_LENGTH_IN_BYTES : nat := 4.

(** The error variants of from_text are not distinguished: the code unwraps the result. *)
Definition principal_from_text (text : bytes) : option bytes :=
  match b32_decode (filter (fun c => c <> x2d) (map to_upper text)) with
  | None => None
  | Some b =>
      if (length b <? CRC_LENGTH_IN_BYTES)%nat then None
      else
        let data := drop CRC_LENGTH_IN_BYTES b in
        if (MAX_LENGTH_IN_BYTES <? length data)%nat then None
        else if negb (bytes_eqb (be_fixed 4 (crc32 data)) (take CRC_LENGTH_IN_BYTES b)) then None
        else if negb (bytes_eqb (map to_lower text) (principal_to_text data)) then None
        else Some data
  end.

Example crc_check : crc32 (bs "123456789") = 0xCBF43926.
Proof. vm_compute. reflexivity. Qed.
(** RFC 4648, section 10, in lower case. *)
Example b32_check : map b32_encode [bs ""; bs "f"; bs "fo"; bs "foo"; bs "foob"; bs "fooba"; bs "foobar"]
  = [bs ""; bs "my"; bs "mzxq"; bs "mzxw6"; bs "mzxw6yq"; bs "mzxw6ytb"; bs "mzxw6ytboi"].
Proof. vm_compute. reflexivity. Qed.
(** The management canister, the anonymous user, and the example of the IC interface
    specification (0xABCD01). *)
Example text_check : map principal_to_text [[]; [x04]; [xab; xcd; x01]]
  = [bs "aaaaa-aa"; bs "2vxsx-fae"; bs "em77e-bvlzu-aq"].
Proof. vm_compute. reflexivity. Qed.
Example from_text_check : map principal_from_text
  [bs "aaaaa-aa"; bs "2VXSX-fae"; bs "em77e-bvlzu-aq"; bs "em77ebvlzuaq"; bs "em77e-bvlzu-ar"; bs "fm77e-bvlzu-aq"; bs ""; bs "-"]
  = [Some []; Some [x04]; Some [xab; xcd; x01]; None; None; None; None; None].
Proof. vm_compute. reflexivity. Qed.
