(** The two wire encoders used by delegation.rs: simple_asn1 0.6.2 [to_der] for the
    one structure that is built (delegation.rs 231-235) and serde_cbor for
    [CertificateSignature] (delegation.rs 66-70, 245-256) with ic-certified-map's
    Serialize for HashTree.  Written from the published sources. *)
From Coq Require Import Strings.String.
From Verif Require Import Base HashTree.
Local Open Scope N_scope.

(** Minimal big-endian bytes of a positive integer. *)
Fixpoint be_aux (fuel : nat) (n : N) (acc : bytes) : bytes :=
  match fuel with
  | O => acc
  | S f => if n =? 0 then acc else be_aux f (n / 256) (u8 n :: acc)
  end.
Definition be_min (n : N) : bytes := be_aux (S (N.to_nat (N.log2 n))) n [].

(** encode_len *)
Definition der_len (n : N) : bytes :=
  if n <? 128 then [u8 n] else let b := be_min n in u8 (128 + blen b) :: b.

Definition der_tlv (tag : byte) (content : bytes) : bytes :=
  tag :: der_len (blen content) ++ content.

(** Base-128 component of an object identifier. *)
Fixpoint base128_aux (fuel : nat) (n : N) (acc : bytes) : bytes :=
  match fuel with
  | O => acc
  | S f => let acc' := u8 (n mod 128 + (match acc with [] => 0 | _ => 128 end)) :: acc in
           if n / 128 =? 0 then acc' else base128_aux f (n / 128) acc'
  end.
Definition base128 (n : N) : bytes := base128_aux 10 n [].

Definition der_oid (components : list N) : bytes :=
  match components with
  | a :: b :: r => der_tlv x06 (u8 (40 * a + b) :: flat_map base128 r)
  | _ => []
  end.

(** ASN1Block::BitString with a whole number of bytes: zero unused bits. *)
Definition der_bit_string (b : bytes) : bytes := der_tlv x03 (x00 :: b).
Definition der_sequence (items : list bytes) : bytes := der_tlv x30 (concat items).

(** ** CBOR *)

(** Fixed-width big-endian. *)
Fixpoint be_fixed (w : nat) (n : N) : bytes :=
  match w with
  | O => []
  | S w' => be_fixed w' (n / 256) ++ [u8 n]
  end.

(** serde_cbor's write_u64(major, value): the shortest head. *)
Definition cbor_head (major : N) (n : N) : bytes :=
  if n <? 24 then [u8 (32 * major + n)]
  else if n <? 256 then u8 (32 * major + 24) :: be_fixed 1 n
  else if n <? 65536 then u8 (32 * major + 25) :: be_fixed 2 n
  else if n <? 4294967296 then u8 (32 * major + 26) :: be_fixed 4 n
  else u8 (32 * major + 27) :: be_fixed 8 n.

Definition cbor_uint (n : N) : bytes := cbor_head 0 n.
Definition cbor_bytes (b : bytes) : bytes := cbor_head 2 (blen b) ++ b.
Definition cbor_text (b : bytes) : bytes := cbor_head 3 (blen b) ++ b.

(** Serialize for HashTree *)
Fixpoint cbor_tree (t : hash_tree) : bytes :=
  match t with
  | HEmpty => cbor_head 4 1 ++ cbor_uint 0
  | HFork l r => cbor_head 4 3 ++ cbor_uint 1 ++ cbor_tree l ++ cbor_tree r
  | HLabeled label t => cbor_head 4 3 ++ cbor_uint 2 ++ cbor_bytes label ++ cbor_tree t
  | HLeaf b => cbor_head 4 2 ++ cbor_uint 3 ++ cbor_bytes b
  | HPruned h => cbor_head 4 2 ++ cbor_uint 4 ++ cbor_bytes h
  end.

(** self_describe followed by the two-field map. *)
Definition cbor_certificate_signature (certificate : bytes) (tree : hash_tree) : bytes :=
  [xd9; xd9; xf7] ++ cbor_head 5 2
  ++ cbor_text (bs "certificate") ++ cbor_bytes certificate
  ++ cbor_text (bs "tree") ++ cbor_tree tree.
