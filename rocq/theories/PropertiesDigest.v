(** C112: the hash functions are the standard ones. *)
From Coq Require Import Strings.String.
From Verif Require Import Base Deps Hex Eth Settings Delegation Provider SpecHash SpecEth EthProofs DelegationProofs Concrete
  SpecDigest DigestWords DigestSha DigestKeccak.
Local Open Scope N_scope.

(** The functions of the concrete dependencies, on every message. *)
Theorem C112_sha256 : forall m d, is_sha256 m d <-> d_sha256 CD m = d.
Proof. exact sha256_is. Qed.
Theorem C112_sha224 : forall m d, is_sha224 m d <-> d_sha224 CD m = d.
Proof. exact sha224_is. Qed.
Theorem C112_keccak256 : forall m d, is_keccak256 m d <-> d_keccak CD m = d.
Proof. exact keccak256_is. Qed.

(** The constants of SHA-2 are those that FIPS 180-4 describes: the first 32 bits of the
    fractions of the cube roots of the first 64 primes and of the square roots of the first
    8 primes, and the second 32 bits of the fractions of the square roots of the next 8. *)
Definition root_ok (e i w p k r : N) : bool :=
  (r ^ e <=? p * 2 ^ (e * (i + w))) && (p * 2 ^ (e * (i + w)) <? (r + 1) ^ e) && (k =? r mod 2 ^ w).

Lemma root_ok_sound e i w p k r : root_ok e i w p k r = true -> root_bits e i w p k.
Proof.
  unfold root_ok. rewrite !andb_true_iff, N.leb_le, N.ltb_lt, N.eqb_eq. intros [[H1 H2] H3].
  exists r. auto.
Qed.

Lemma all_roots e i w (root : N -> N -> N) : forall ps ks,
  length ps = length ks -> forallb (fun pk => root_ok e i w (fst pk) (snd pk) (root (fst pk) (snd pk))) (combine ps ks) = true ->
  Forall2 (root_bits e i w) ps ks.
Proof.
  induction ps as [|p ps IH]; intros [|k ks] HL H; try discriminate; constructor; cbn in H; apply andb_true_iff in H as [H1 H2].
  - exact (root_ok_sound _ _ _ _ _ _ H1).
  - apply IH; [now injection HL|exact H2].
Qed.

Theorem C112_constants :
  Forall2 (root_bits 3 0 32) (primes 64 311) sha_K /\
  Forall2 (root_bits 2 0 32) (primes 8 19) sha256_H0 /\
  Forall2 (root_bits 2 32 32) (skipn 8 (primes 16 53)) sha224_H0.
Proof.
  split; [|split].
  - apply all_roots with (root := fun p k => 2 ^ 32 *
      (if p <? 8 then 1 else if p <? 27 then 2 else if p <? 64 then 3 else if p <? 125 then 4 else if p <? 216 then 5 else 6) + k);
    vm_compute; reflexivity.
  - apply all_roots with (root := fun p _ => N.sqrt (p * 2 ^ 64)); vm_compute; reflexivity.
  - apply all_roots with (root := fun p _ => N.sqrt (p * 2 ^ 128)); vm_compute; reflexivity.
Qed.

(** So with the real dependencies the seed of a user, the hash that a wallet signs, the
    address of a key and the principal of a public key are made of standard digests. *)
Theorem C112_used : forall K, (forall m, is_keccak256 m (K m)) ->
  (forall s a h, generate_seed CD (Some s) a = Done h <->
     is_sha256 (seed_input (s_salt s) (addr_str a) (seed_uri s)) h) /\
  (forall m, eip191_hash CD m = K (x19 :: bs "Ethereum Signed Message:" ++ x0a :: dec (blen m) ++ m)) /\
  (forall pk, derive_eth_address CD pk = Done (Ok (eip55 K (drop 12 (K pk))))) /\
  (forall pk p, self_authenticating CD pk = p <-> exists h, is_sha224 pk h /\ p = h ++ [x02]).
Proof.
  intros K HK. assert (forall m, d_keccak CD m = K m) as E by (intros m; apply C112_keccak256, HK).
  split; [|split; [|split]].
  - intros s a h. rewrite generate_seed_input, C112_sha256. split; intros H; [congruence|rewrite H; reflexivity].
  - intros m. apply E.
  - intros pk. rewrite derive_spec by apply CD_ok. rewrite E. do 2 f_equal.
    unfold eip55. rewrite E. reflexivity.
  - intros pk p. unfold self_authenticating. split.
    + intros <-. eexists. split; [apply C112_sha224; reflexivity|reflexivity].
    + intros (h & H & ->). apply C112_sha224 in H. rewrite H. reflexivity.
Qed.

(** The digests that FIPS 180-2 gives for "abc", and the well-known Keccak-256 of the empty
    message. *)
Definition of_hex (s : string) : bytes := match hex_decode (bs s) with Ok b => b | Err _ => [] end.
Example C112_case :
  is_sha256 (bs "abc") (of_hex "ba7816bf8f01cfea414140de5dae2223b00361a396177a9cb410ff61f20015ad") /\
  is_sha224 (bs "abc") (of_hex "23097d223405d8228642a477bda255b32aadbce4bda0b3f7e36c9da7") /\
  is_keccak256 [] (of_hex "c5d2460186f7233c927e7db2dcc703c0e500b653ca82273b7bfad8045d85a470") /\
  ~ is_keccak256 [] (of_hex "a7ffc6f8bf1ed76651c14756a061d662f580ff4de43b49fa82d80a4b80f8434a").
Proof.
  split; [apply C112_sha256; vm_compute; reflexivity|]. split; [apply C112_sha224; vm_compute; reflexivity|].
  split; [apply C112_keccak256; vm_compute; reflexivity|]. intros H. apply C112_keccak256 in H. vm_compute in H. discriminate.
Qed.

Print Assumptions C112_sha256.
Print Assumptions C112_sha224.
Print Assumptions C112_keccak256.
Print Assumptions C112_constants.
Print Assumptions C112_used.
