(** The random generator behind the nonces (rand.rs 2-10, init.rs 33-48): ChaCha20Rng of
    rand_chacha 0.3.1 with ppv-lite86 0.2.17 and rand_core 0.6.4 (Cargo.lock).  Their
    sources are not in /repo; the functions follow the published ones. *)
From Coq Require Import Strings.String.
From Verif Require Import Base Encode.
Local Open Scope N_scope.

(** ** Vectors of four 32-bit words (ppv-lite86: u32x4) *)

Record v4 := V4 { w0 : N; w1 : N; w2 : N; w3 : N }.
Definition map2 (f : N -> N -> N) (x y : v4) : v4 := V4 (f (w0 x) (w0 y)) (f (w1 x) (w1 y)) (f (w2 x) (w2 y)) (f (w3 x) (w3 y)).
Definition map1 (f : N -> N) (x : v4) : v4 := V4 (f (w0 x)) (f (w1 x)) (f (w2 x)) (f (w3 x)).

Definition u32 (n : N) : N := N.land n 0xFFFFFFFF.
Definition vadd : v4 -> v4 -> v4 := map2 (fun a b => u32 (a + b)).
Definition vxor : v4 -> v4 -> v4 := map2 N.lxor.
(** rotate_each_word_rightK *)
Definition rotate_right (k n : N) : N := N.lor (N.shiftr n k) (u32 (N.shiftl n (32 - k))).
Definition vrotr (k : N) : v4 -> v4 := map1 (rotate_right k).

(** shuffle_lane_words1230, 2301 and 3012 *)
Definition shuffle1230 (x : v4) : v4 := V4 (w3 x) (w0 x) (w1 x) (w2 x).
Definition shuffle2301 (x : v4) : v4 := V4 (w2 x) (w3 x) (w0 x) (w1 x).
Definition shuffle3012 (x : v4) : v4 := V4 (w1 x) (w2 x) (w3 x) (w0 x).

(** ** rand_chacha: guts.rs *)

Record rows := Rows { ra : v4; rb : v4; rc : v4; rd : v4 }.

Definition half (r1 r2 : N) (x : rows) : rows :=
  let a := vadd (ra x) (rb x) in
  let d := vrotr r1 (vxor (rd x) a) in
  let c := vadd (rc x) d in
  let b := vrotr r2 (vxor (rb x) c) in
  Rows a b c d.
Definition round (x : rows) : rows := half 24 25 (half 16 20 x).
Definition diagonalize (x : rows) : rows :=
  Rows (ra x) (shuffle3012 (rb x)) (shuffle2301 (rc x)) (shuffle1230 (rd x)).
Definition undiagonalize (x : rows) : rows :=
  Rows (ra x) (shuffle1230 (rb x)) (shuffle2301 (rc x)) (shuffle3012 (rd x)).
Definition double_round (x : rows) : rows := undiagonalize (round (diagonalize (round x))).

Fixpoint drounds (n : nat) (x : rows) : rows :=
  match n with O => x | S n' => drounds n' (double_round x) end.

Definition words (v : v4) : list N := [w0 v; w1 v; w2 v; w3 v].
Definition CONSTANTS : v4 := V4 0x61707865 0x3320646e 0x79622d32 0x6b206574.

(** The 16 words of the block at [d]. *)
Definition block (b c d : v4) : list N :=
  let x := drounds 10 (Rows CONSTANTS b c d) in
  words (vadd (ra x) CONSTANTS) ++ words (vadd (rb x) b) ++ words (vadd (rc x) c) ++ words (vadd (rd x) d).

(** struct ChaCha: [d] holds the 64-bit block counter and the stream number. *)
Record chacha := ChaCha { cb : v4; cc : v4; cd : v4 }.

Definition pos64 (d : v4) : N := N.lor (N.shiftl (w1 d) 32) (w0 d).
Definition at_pos (pos : N) (d : v4) : v4 := V4 (u32 pos) (u32 (N.shiftr pos 32)) (w2 d) (w3 d).
Definition wrapping_add (a b : N) : N := (a + b) mod 2 ^ 64.

(** refill_wide: four blocks at once. *)
Definition refill (s : chacha) : list N * chacha :=
  let pos := pos64 (cd s) in
  let dn k := at_pos (wrapping_add pos k) (cd s) in
  (block (cb s) (cc s) (cd s) ++ block (cb s) (cc s) (dn 1) ++ block (cb s) (cc s) (dn 2) ++ block (cb s) (cc s) (dn 3),
   ChaCha (cb s) (cc s) (dn 4)).

(** from_seed: the key in little-endian words, counter and stream zero. *)
Fixpoint le_value (l : bytes) : N := match l with [] => 0 | b :: r => nb b + 256 * le_value r end.
Definition seed_word (seed : bytes) (i : nat) : N := le_value (take 4 (drop (4 * i) seed)).
Definition from_seed (seed : bytes) : chacha :=
  ChaCha (V4 (seed_word seed 0) (seed_word seed 1) (seed_word seed 2) (seed_word seed 3))
         (V4 (seed_word seed 4) (seed_word seed 5) (seed_word seed 6) (seed_word seed 7))
         (V4 0 0 0 0).

(** ** rand_core: block.rs and impls.rs *)

Record block_rng := BlockRng { br_core : chacha; br_results : list N; br_index : nat }.

(** BlockRng::new: the buffer counts as used up. *)
Definition block_rng_new (core : chacha) : block_rng := BlockRng core (repeat 0 64) 64.

Definition word_bytes (n : N) : bytes := [u8 n; u8 (N.shiftr n 8); u8 (N.shiftr n 16); u8 (N.shiftr n 24)].

(** fill_via_u32_chunks: words consumed, bytes written. *)
Definition fill_via_chunks (src : list N) (n : nat) : nat * bytes :=
  let byte_len := Nat.min (4 * length src) n in
  let num_chunks := ((byte_len + 3) / 4)%nat in
  (num_chunks, take byte_len (flat_map word_bytes (take num_chunks src))).

(** fill_bytes of a buffer of [n] bytes.  The fuel is the number of turns of the loop. *)
Fixpoint fill_loop (fuel n : nat) (s : block_rng) : bytes * block_rng :=
  match fuel, n with
  | S f, S _ =>
      let s := if (length (br_results s) <=? br_index s)%nat
               then let '(res, core) := refill (br_core s) in BlockRng core res 0 else s in
      let '(consumed, out) := fill_via_chunks (drop (br_index s) (br_results s)) n in
      let '(out', s') := fill_loop f (n - length out) (BlockRng (br_core s) (br_results s) (br_index s + consumed)) in
      (out ++ out', s')
  | _, _ => ([], s)
  end.
Definition fill_bytes (n : nat) (s : block_rng) : bytes * block_rng := fill_loop n n s.

(** The [k]-th call of generate_nonce (rand.rs 6-7) on a generator made from [seed]. *)
Fixpoint reads (k : nat) (s : block_rng) : block_rng :=
  match k with O => s | S k' => snd (fill_bytes 10 (reads k' s)) end.
Definition nonce_read (seed : bytes) (k : nat) : bytes := fst (fill_bytes 10 (reads k (block_rng_new (from_seed seed)))).

(** RFC 8439, A.1: the first 32 bytes of the test vectors 1 to 4 (nonce zero). *)
Definition key_n (n : N) : bytes := repeat x00 31 ++ [u8 n].
Definition first_bytes (seed : bytes) (ctr : N) : bytes :=
  take 32 (flat_map word_bytes (block (cb (from_seed seed)) (cc (from_seed seed)) (at_pos ctr (V4 0 0 0 0)))).
Example rfc_check : map (fun p => first_bytes (fst p) (snd p))
   [(key_n 0, 0); (key_n 0, 1); (key_n 1, 1); (x00 :: xff :: repeat x00 30, 2)] =
  [ [x76;xb8;xe0;xad;xa0;xf1;x3d;x90;x40;x5d;x6a;xe5;x53;x86;xbd;x28;xbd;xd2;x19;xb8;xa0;x8d;xed;x1a;xa8;x36;xef;xcc;x8b;x77;x0d;xc7];
    [x9f;x07;xe7;xbe;x55;x51;x38;x7a;x98;xba;x97;x7c;x73;x2d;x08;x0d;xcb;x0f;x29;xa0;x48;xe3;x65;x69;x12;xc6;x53;x3e;x32;xee;x7a;xed];
    [x3a;xeb;x52;x24;xec;xf8;x49;x92;x9b;x9d;x82;x8d;xb1;xce;xd4;xdd;x83;x20;x25;xe8;x01;x8b;x81;x60;xb8;x22;x84;xf3;xc9;x49;xaa;x5a];
    [x72;xd5;x4d;xfb;xf1;x2e;xc4;x4b;x36;x26;x92;xdf;x94;x13;x7f;x32;x8f;xea;x8d;xa7;x39;x90;x26;x5e;xc1;xbb;xbe;xa1;xae;x9a;xf0;xca] ].
Proof. vm_compute. reflexivity. Qed.
