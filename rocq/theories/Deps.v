(** External functions whose source is not part of /repo.  Every theorem is
    universally quantified over this record (and, where needed, over [deps_ok]). *)
From Verif Require Import Base.
Local Open Scope N_scope.

(** What the code asks of a parsed [url::Url] (settings.rs 180-197). *)
Record url_info := {
  url_has_authority : bool;        (* Url::has_authority *)
  url_host : option bytes          (* Url::host_str; Url::has_host is [is_some] of it *)
}.

Record Deps := {
  (** sha2::Sha256, sha2::Sha224 (inside Principal::self_authenticating), tiny_keccak v256 *)
  d_sha256 : bytes -> bytes;
  d_sha224 : bytes -> bytes;
  d_keccak : bytes -> bytes;
  (** k256::ecdsa::Signature::from_slice succeeds on these 64 bytes *)
  d_sig_ok : bytes -> bool;
  (** VerifyingKey::recover_from_prehash(hash, signature, recovery id): the
      64 bytes of the uncompressed point after the tag byte *)
  d_recover : bytes -> bytes -> N -> option bytes;
  (** simple_asn1::from_der: [None] if it parses, otherwise the error text *)
  d_der_err : bytes -> option bytes;
  (** url::Url::parse *)
  d_url_parse : bytes -> option url_info;
  (** ChaCha20Rng::from_seed(seed): output of the k-th fill_bytes call with a
      10-byte buffer (the only way the code uses the generator) *)
  d_chacha : bytes -> N -> bytes
}.

(** The only facts about these functions that theorems rely on: output sizes. *)
Record deps_ok (D : Deps) : Prop := {
  sha256_len : forall x, length (d_sha256 D x) = 32%nat;
  sha224_len : forall x, length (d_sha224 D x) = 28%nat;
  keccak_len : forall x, length (d_keccak D x) = 32%nat;
  chacha_len : forall s k, length (d_chacha D s k) = 10%nat
}.

(** A pair of different byte strings with the same hash. *)
Definition collision (H : bytes -> bytes) (x y : bytes) : Prop :=
  x <> y /\ H x = H y.

(** One of the listed pairs is a collision. *)
Definition some_collision (H : bytes -> bytes) (l : list (bytes * bytes)) : Prop :=
  Exists (fun p => collision H (fst p) (snd p)) l.
