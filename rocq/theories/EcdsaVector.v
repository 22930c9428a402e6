(** The example of the web3.js documentation (web3.eth.accounts.sign): a signature that a real
    wallet made.  The nonce was computed from the private key and the signature. *)
From Coq Require Import Strings.String.
From Verif Require Import Base Secp SpecEcdsa EcdsaBytes PointCerts.
Local Open Scope Z_scope.

Definition web3_key : Z := 0x4c0883a69102937d6231471b5dbb6204fe5129617082792ae468d01a3f362318.
Definition web3_nonce : Z := 0xb53f30e054e5cad783c165e762a24a13847abe2540677bcce837091eab458320.
Definition web3_sig : bytes :=
  bs "0xb91467e570a6466aa9e9876cbcd013baba02900b8979d43fe208a4a4f339f5fd6007e74cd82e037b800186422fc2da167c747ef045e5d18a5f5d4300f8e1a0291c".
Definition web3_Q : Z * Z :=
  (0x4e3b81af9c2234cad09d679ce6035ed1392347ce64ce405f5dcd36228a25de6e,
   0x47fd35c4215d1edf53e6f83de344615ce719bdb0fd878f6ed76f06dd277956de).
Definition web3_R : Z * Z :=
  (0xb91467e570a6466aa9e9876cbcd013baba02900b8979d43fe208a4a4f339f5fd,
   0xac67cbe7e9c2bdea0764b767b62f66c2210c22dfdbcb2fccc18a8a8a1668b73f).
Definition web3_s : Z := 0x6007e74cd82e037b800186422fc2da167c747ef045e5d18a5f5d4300f8e1a029.
Definition web3_z : Z := 0x1da44b586eb0729ff70a73c326926f6ed5a25f5b056e7f47fbc6e58d86871655.

Lemma web3_key_point : multiple secp_G web3_key (Aff (fst web3_Q) (snd web3_Q)).
Proof. apply (chain_point chain_web3_key); vm_compute; reflexivity. Qed.
Lemma web3_nonce_point : multiple secp_G web3_nonce (Aff (fst web3_R) (snd web3_R)).
Proof. apply (chain_point chain_web3_nonce); vm_compute; reflexivity. Qed.
