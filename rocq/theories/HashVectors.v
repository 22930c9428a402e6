(** Published test vectors of the hash functions: FIPS 180-2, appendices B and C and the
    empty message (SHA-256, SHA-224), and well-known digests of
    Keccak-256; the other lengths are those around the ends of blocks, with the digests of
    another implementation. *)
From Coq Require Import Strings.String.
From Verif Require Import Base Hex Sha2 Keccak.

Example sha256_empty : hex_encode (sha256 (bs "")) =
  bs "e3b0c44298fc1c149afbf4c8996fb92427ae41e4649b934ca495991b7852b855".
Proof. vm_compute. reflexivity. Qed.

Example sha224_empty : hex_encode (sha224 (bs "")) =
  bs "d14a028c2a3a2bc9476102bb288234c415a2b01f828ea62ac5b3e42f".
Proof. vm_compute. reflexivity. Qed.

Example sha256_abc : hex_encode (sha256 (bs "abc")) =
  bs "ba7816bf8f01cfea414140de5dae2223b00361a396177a9cb410ff61f20015ad".
Proof. vm_compute. reflexivity. Qed.

Example sha224_abc : hex_encode (sha224 (bs "abc")) =
  bs "23097d223405d8228642a477bda255b32aadbce4bda0b3f7e36c9da7".
Proof. vm_compute. reflexivity. Qed.

Example sha256_two_blocks : hex_encode (sha256 (bs "abcdbcdecdefdefgefghfghighijhijkijkljklmklmnlmnomnopnopq")) =
  bs "248d6a61d20638b8e5c026930c3e6039a33ce45964ff2167f6ecedd419db06c1".
Proof. vm_compute. reflexivity. Qed.

Example sha224_two_blocks : hex_encode (sha224 (bs "abcdbcdecdefdefgefghfghighijhijkijkljklmklmnlmnomnopnopq")) =
  bs "75388b16512776cc5dba5da1fd890150b0c6455cb4f58b1952522525".
Proof. vm_compute. reflexivity. Qed.

Example sha256_four : hex_encode (sha256 (bs "abcdefghbcdefghicdefghijdefghijkefghijklfghijklmghijklmnhijklmnoijklmnopjklmnopqklmnopqrlmnopqrsmnopqrstnopqrstu")) =
  bs "cf5b16a778af8380036ce59e7b0492370b249b11e8f07a51afac45037afee9d1".
Proof. vm_compute. reflexivity. Qed.

Example sha224_four : hex_encode (sha224 (bs "abcdefghbcdefghicdefghijdefghijkefghijklfghijklmghijklmnhijklmnoijklmnopjklmnopqklmnopqrlmnopqrsmnopqrstnopqrstu")) =
  bs "c97ca9a559850ce97a04a96def6d99a9e0e0e2ab14e6b8df265fc0b3".
Proof. vm_compute. reflexivity. Qed.

Example sha256_55 : hex_encode (sha256 (repeat x61 55)) =
  bs "9f4390f8d30c2dd92ec9f095b65e2b9ae9b0a925a5258e241c9f1e910f734318".
Proof. vm_compute. reflexivity. Qed.

Example sha256_56 : hex_encode (sha256 (repeat x61 56)) =
  bs "b35439a4ac6f0948b6d6f9e3c6af0f5f590ce20f1bde7090ef7970686ec6738a".
Proof. vm_compute. reflexivity. Qed.

Example sha256_63 : hex_encode (sha256 (repeat x61 63)) =
  bs "7d3e74a05d7db15bce4ad9ec0658ea98e3f06eeecf16b4c6fff2da457ddc2f34".
Proof. vm_compute. reflexivity. Qed.

Example sha256_64 : hex_encode (sha256 (repeat x61 64)) =
  bs "ffe054fe7ae0cb6dc65c3af9b61d5209f439851db43d0ba5997337df154668eb".
Proof. vm_compute. reflexivity. Qed.

Example sha256_119 : hex_encode (sha256 (repeat x61 119)) =
  bs "31eba51c313a5c08226adf18d4a359cfdfd8d2e816b13f4af952f7ea6584dcfb".
Proof. vm_compute. reflexivity. Qed.

Example sha256_120 : hex_encode (sha256 (repeat x61 120)) =
  bs "2f3d335432c70b580af0e8e1b3674a7c020d683aa5f73aaaedfdc55af904c21c".
Proof. vm_compute. reflexivity. Qed.

Example keccak256_empty : hex_encode (keccak256 []) =
  bs "c5d2460186f7233c927e7db2dcc703c0e500b653ca82273b7bfad8045d85a470".
Proof. vm_compute. reflexivity. Qed.

Example keccak256_abc : hex_encode (keccak256 (bs "abc")) =
  bs "4e03657aea45a94fc7d47ba826c8d667c0d1e6e33a64a036ec44f58fa12d6c45".
Proof. vm_compute. reflexivity. Qed.

Example keccak256_134 : hex_encode (keccak256 (repeat x61 134)) =
  bs "e5de5653994e2fa6729d329b65b5f332dee942a7ea54515e173824c232a4ff91".
Proof. vm_compute. reflexivity. Qed.

Example keccak256_135 : hex_encode (keccak256 (repeat x61 135)) =
  bs "34367dc248bbd832f4e3e69dfaac2f92638bd0bbd18f2912ba4ef454919cf446".
Proof. vm_compute. reflexivity. Qed.

Example keccak256_136 : hex_encode (keccak256 (repeat x61 136)) =
  bs "a6c4d403279fe3e0af03729caada8374b5ca54d8065329a3ebcaeb4b60aa386e".
Proof. vm_compute. reflexivity. Qed.

Example keccak256_137 : hex_encode (keccak256 (repeat x61 137)) =
  bs "d869f639c7046b4929fc92a4d988a8b22c55fbadb802c0c66ebcd484f1915f39".
Proof. vm_compute. reflexivity. Qed.

Example keccak256_271 : hex_encode (keccak256 (repeat x61 271)) =
  bs "132f47effd6c8b1b299efa53fe68aece77ec8ae4eb2e294f668eec94f76001e1".
Proof. vm_compute. reflexivity. Qed.

Example keccak256_272 : hex_encode (keccak256 (repeat x61 272)) =
  bs "cf7fcd4f705ee749930d19ca84561a9bf62516bd90a471545fa2f49fdc7e63c8".
Proof. vm_compute. reflexivity. Qed.
