(** The [hex] crate, version 0.4.3 (Cargo.lock), as used by eth.rs, rand.rs and
    delegation.rs: [hex::encode], [hex::decode], and the text of its errors. *)
From Coq Require Import Strings.String.
From Verif Require Import Base.
Local Open Scope N_scope.

(** hex::encode: lower-case digits, high nibble first. *)
Definition hex_digit (n : N) : byte :=
  if n <? 10 then u8 (48 + n) else u8 (87 + n).

Definition hex_encode (l : bytes) : bytes :=
  flat_map (fun b => [hex_digit (nb b / 16); hex_digit (nb b mod 16)]) l.

(** hex::FromHexError (the InvalidStringLength variant is never produced by decode). *)
Inductive hex_error :=
| InvalidHexCharacter (c : byte) (index : N)
| OddLength.

(** hex's private [val]. *)
Definition hex_val (c : byte) : option N :=
  let n := nb c in
  if (65 <=? n) && (n <=? 70) then Some (n - 55)
  else if (97 <=? n) && (n <=? 102) then Some (n - 87)
  else if (48 <=? n) && (n <=? 57) then Some (n - 48)
  else None.

Fixpoint hex_pairs (idx : N) (l : bytes) : result bytes hex_error :=
  match l with
  | a :: b :: r =>
      match hex_val a with
      | None => Err (InvalidHexCharacter a idx)
      | Some h =>
          match hex_val b with
          | None => Err (InvalidHexCharacter b (idx + 1))
          | Some lo =>
              match hex_pairs (idx + 2) r with
              | Ok t => Ok (u8 (16 * h + lo) :: t)
              | Err e => Err e
              end
          end
      end
  | _ => Ok []
  end.

(** hex::decode. *)
Definition hex_decode (l : bytes) : result bytes hex_error :=
  if Nat.odd (length l) then Err OddLength else hex_pairs 0 l.

(** UTF-8 of a code point below 256 (the error character is [byte as char]). *)
Definition latin1_utf8 (c : byte) : bytes :=
  if nb c <? 128 then [c] else [u8 (192 + nb c / 64); u8 (128 + nb c mod 64)].

(** Minimal lower-case hex of a code point below 256, for [\u{..}] escapes. *)
Definition short_hex (n : N) : bytes :=
  if n <? 16 then [hex_digit n] else [hex_digit (n / 16); hex_digit (n mod 16)].

(** [Debug] for [char], restricted to code points below 256. *)
Definition char_debug (c : byte) : bytes :=
  let n := nb c in
  let body :=
    if n =? 0 then bs "\0"
    else if n =? 9 then bs "\t"
    else if n =? 10 then bs "\n"
    else if n =? 13 then bs "\r"
    else if n =? 39 then bs "\'"
    else if n =? 92 then bs "\\"
    else if (n <? 32) || ((127 <=? n) && (n <=? 160)) || (n =? 173)
         then bs "\u{" ++ short_hex n ++ bs "}"
    else latin1_utf8 c in
  bs "'" ++ body ++ bs "'".

(** [Display] for FromHexError. *)
Definition show_hex_error (e : hex_error) : bytes :=
  match e with
  | InvalidHexCharacter c i => bs "Invalid character " ++ char_debug c ++ bs " at position " ++ dec i
  | OddLength => bs "Odd number of digits"
  end.
