(** Model of packages/ic_siwe/src/eth.rs. *)
From Coq Require Import Strings.String.
From Verif Require Import Base Deps Hex.
Local Open Scope N_scope.

(** eth.rs 6-14 *)
Inductive eth_error :=
| AddressFormatError (e : bytes)
| DecodingError (e : hex_error)
| SignatureFormatError (e : bytes)
| InvalidSignature
| InvalidRecoveryId
| PublicKeyRecoveryFailure
| Eip55Error (e : bytes).

(** eth.rs 22-36 (Display for EthError) *)
Definition show_eth_error (e : eth_error) : bytes :=
  match e with
  | AddressFormatError e => bs "Address format error: " ++ e
  | DecodingError e => bs "Decoding error: " ++ show_hex_error e
  | SignatureFormatError e => bs "Signature format error: " ++ e
  | InvalidSignature => bs "Invalid signature"
  | InvalidRecoveryId => bs "Invalid recovery ID"
  | PublicKeyRecoveryFailure => bs "Public key recovery failure"
  | Eip55Error e => bs "EIP-55 error: " ++ e
  end.

(** Character classes used by the [match c] of eth.rs 264-288. *)
Definition is_digit (c : byte) : bool := (48 <=? nb c) && (nb c <=? 57).
Definition is_hex_lower (c : byte) : bool := (97 <=? nb c) && (nb c <=? 102).
Definition is_hex_upper (c : byte) : bool := (65 <=? nb c) && (nb c <=? 70).

(** char::to_ascii_lowercase / to_ascii_uppercase *)
Definition to_lower (c : byte) : byte :=
  if (65 <=? nb c) && (nb c <=? 90) then u8 (nb c + 32) else c.
Definition to_upper (c : byte) : byte :=
  if (97 <=? nb c) && (nb c <=? 122) then u8 (nb c - 32) else c.

(** Number of bytes of the UTF-8 character that starts with this byte. *)
Definition utf8_width (c : byte) : nat :=
  if nb c <? 128 then 1 else if nb c <? 224 then 2 else if nb c <? 240 then 3 else 4.

(** eth.rs 268-272: the i-th nibble of the hash; [hash[i / 2]] is bounds-checked. *)
Definition hash_nibble (hash : bytes) (i : nat) : option N :=
  match hash !! (i / 2)%nat with
  | None => None
  | Some b => Some (if Nat.even i then nb b / 16 else nb b mod 16)
  end.

(** eth.rs 261-291: the loop over [char_indices] collected into a Result.  Bytes
    stand for characters: all characters before the first error are ASCII, so
    byte and character positions agree, and the offending character is the
    UTF-8 character starting at that byte. *)
Fixpoint checksum_chars (hash : bytes) (i : nat) (l : bytes) : outcome (result bytes eth_error) :=
  match l with
  | [] => Done (Ok [])
  | c :: r =>
      if is_digit c then
        olet t := checksum_chars hash (S i) r in
        Done (match t with Ok t => Ok (c :: t) | Err e => Err e end)
      else if is_hex_lower c || is_hex_upper c then
        match hash_nibble hash i with
        | None => Trap "index out of bounds"
        | Some n =>
            let c' := if 8 <=? n then to_upper c else to_lower c in
            olet t := checksum_chars hash (S i) r in
            Done (match t with Ok t => Ok (c' :: t) | Err e => Err e end)
        end
      else
        Done (Err (Eip55Error (bs "Unrecognized hex character '" ++ take (utf8_width c) l
                               ++ bs "' at position " ++ dec (N.of_nat i))))
  end.

(** eth.rs 245-294.  [to_lowercase] is modelled on ASCII only; for a string with
    a non-ASCII character the result is an error (or panic) that does not depend
    on the hash. *)
Definition convert_to_eip55 (D : Deps) (address : bytes) : outcome (result bytes eth_error) :=
  let trimmed := match strip_prefix (bs "0x") address with Some t => t | None => address end in
  let hash := d_keccak D (map to_lower trimmed) in
  olet t := checksum_chars hash 0 trimmed in
  Done (match t with Ok t => Ok (bs "0x" ++ t) | Err e => Err e end).

(** eth.rs 49: [EthAddress(String)].  A value is only ever built by [eth_address_new]. *)
Record EthAddress := mkEthAddress { addr_str : bytes }.

(** eth.rs 58-72 *)
Definition eth_address_new (D : Deps) (address : bytes) : outcome (result EthAddress eth_error) :=
  if negb (is_prefix (bs "0x") address) || negb (blen address =? 42) then
    Done (Err (AddressFormatError (bs "Must start with '0x' and be 42 characters long")))
  else
    match hex_decode (drop 2 address) with
    | Err e => Done (Err (DecodingError e))
    | Ok _ =>
        olet r := convert_to_eip55 D address in
        olet c := unwrap r in
        if bytes_eqb address c then Done (Ok (mkEthAddress address))
        else Done (Err (Eip55Error (bs "Not EIP-55 encoded")))
    end.

(** The body shared by eth.rs 80-83 and 126-129: strip "0x" and decode, both unwrapped. *)
Definition unwrap_hex (s : bytes) : outcome bytes :=
  match strip_prefix (bs "0x") s with
  | None => Trap "called `Option::unwrap()` on a `None` value"
  | Some t => unwrap (hex_decode t)
  end.

(** eth.rs 80-83 *)
Definition addr_as_bytes (a : EthAddress) : outcome bytes := unwrap_hex (addr_str a).

(** [array.copy_from_slice(&bytes)] panics on a length mismatch. *)
Definition copy_to_array (n : nat) (l : bytes) : outcome bytes :=
  if Nat.eqb (length l) n then Done l else Trap "source slice length does not match destination slice length".

(** eth.rs 86-92 *)
Definition addr_as_byte_array (a : EthAddress) : outcome bytes :=
  olet b := unwrap_hex (addr_str a) in copy_to_array 20 b.

(** eth.rs 100: [EthSignature(String)] *)
Record EthSignature := mkEthSignature { sig_str : bytes }.

(** eth.rs 109-118 *)
Definition eth_signature_new (s : bytes) : outcome (result EthSignature eth_error) :=
  if negb (is_prefix (bs "0x") s) || negb (blen s =? 132) then
    Done (Err (SignatureFormatError (bs "Must start with '0x' and be 132 characters long")))
  else
    match hex_decode (drop 2 s) with
    | Err e => Done (Err (DecodingError e))
    | Ok _ => Done (Ok (mkEthSignature s))
    end.

(** eth.rs 126-129 and 132-138 *)
Definition sig_as_bytes (s : EthSignature) : outcome bytes := unwrap_hex (sig_str s).
Definition sig_as_byte_array (s : EthSignature) : outcome bytes :=
  olet b := unwrap_hex (sig_str s) in copy_to_array 65 b.

(** eth.rs 198-200 *)
Definition eip191_bytes (message : bytes) : bytes :=
  x19 :: bs "Ethereum Signed Message:" ++ x0a :: dec (blen message) ++ message.

(** eth.rs 179-186 *)
Definition eip191_hash (D : Deps) (message : bytes) : bytes := d_keccak D (eip191_bytes message).

(** eth.rs 208-214 *)
Definition bytes_to_eth_address (b : bytes) : bytes := bs "0x" ++ hex_encode b.

(** eth.rs 225-233; [pubkey] is the uncompressed point without its tag byte, i.e.
    [to_encoded_point(false).as_bytes()[1..]].  The slice [keccak256_hex[24..]]
    is in range because the hash has 32 bytes. *)
Definition derive_eth_address (D : Deps) (pubkey : bytes) : outcome (result bytes eth_error) :=
  convert_to_eip55 D (drop 24 (hex_encode (d_keccak D pubkey))).

(** eth.rs 151-167.  [RecoveryId::try_from] accepts 0..=3. *)
Definition recover_eth_address (D : Deps) (message : bytes) (signature : EthSignature)
  : outcome (result bytes eth_error) :=
  let message_hash := eip191_hash D message in
  olet sb := sig_as_bytes signature in
  match sb !! 64%nat with
  | None => Trap "index out of bounds"
  | Some v =>
      let recovery_id := nb v mod 27 in
      if 3 <? recovery_id then Done (Err InvalidRecoveryId)
      else if negb (d_sig_ok D (take 64 sb)) then Done (Err InvalidSignature)
      else match d_recover D message_hash (take 64 sb) recovery_id with
           | None => Done (Err PublicKeyRecoveryFailure)
           | Some pk => derive_eth_address D pk
           end
  end.
