(** The generator's bytes are those of the ChaCha20 keystream, one after another. *)
From Coq Require Import Strings.String ZifyBool ZifyN ZifyNat.
From Verif Require Import Base BaseLemmas Encode ChaCha SpecChaCha.
Local Open Scope N_scope.

(** ** Words *)

Definition small (n : N) : Prop := n < 2 ^ 32.

Lemma u32_mod n : u32 n = n mod 2 ^ 32.
Proof. unfold u32. change 0xFFFFFFFF with (N.ones 32). apply N.land_ones. Qed.

Lemma u32_small n : small (u32 n).
Proof. rewrite u32_mod. apply N.mod_lt. discriminate. Qed.

Lemma small_bits n : small n <-> forall k, 32 <= k -> N.testbit n k = false.
Proof.
  split.
  - intros H k Hk. destruct (N.eq_dec n 0) as [->|Hz]; [apply N.bits_0|]. apply N.bits_above_log2. apply N.log2_lt_pow2; [lia|].
    eapply N.lt_le_trans; [exact H|]. apply N.pow_le_mono_r; lia.
  - intros H. unfold small. destruct (N.eq_dec n 0) as [->|Hz]; [reflexivity|]. apply N.log2_lt_pow2; [lia|].
    destruct (N.lt_ge_cases (N.log2 n) 32) as [|Hge]; [assumption|]. apply H in Hge. rewrite N.bit_log2 in Hge by assumption. discriminate.
Qed.

Lemma lxor_small a b : small a -> small b -> small (N.lxor a b).
Proof. rewrite !small_bits. intros Ha Hb k Hk. now rewrite N.lxor_spec, Ha, Hb. Qed.

Lemma rotate_small k n : small n -> small (rotate_right k n).
Proof.
  intros Hn. unfold rotate_right. rewrite small_bits in Hn |- *. intros j Hj.
  pose proof (u32_small (N.shiftl n (32 - k))) as Hu. rewrite small_bits in Hu.
  rewrite N.lor_spec, Hu, N.shiftr_spec', Hn by lia. reflexivity.
Qed.

Lemma rotate_rotl k j n : k + j = 32 -> small n -> rotate_right k n = rotl32 n j.
Proof.
  intros Hk Hn. unfold rotate_right, rotl32. rewrite u32_mod, N.shiftl_mul_pow2, N.shiftr_div_pow2.
  assert (32 - k = j) as -> by lia. assert (32 - j = k) as -> by lia.
  rewrite N.lor_comm. symmetry.
  assert (N.land (n * 2 ^ j mod 2 ^ 32) (n / 2 ^ k) = 0) as E.
  { apply N.bits_inj. intros i. rewrite N.land_spec, N.bits_0.
    destruct (N.lt_ge_cases i j) as [Hi|Hi].
    - rewrite N.mod_pow2_bits_low by lia. rewrite <- N.shiftl_mul_pow2, N.shiftl_spec_low by assumption. reflexivity.
    - rewrite <- N.shiftr_div_pow2, N.shiftr_spec'. rewrite small_bits in Hn. rewrite (Hn (i + k)) by lia. apply andb_false_r. }
  rewrite <- (N.lxor_lor _ _ E). now apply N.add_nocarry_lxor.
Qed.

(** ** Quarter rounds *)

(** One lane of [round]. *)
Definition lane (a b c d : N) : N * N * N * N :=
  let a := u32 (a + b) in let d := rotate_right 16 (N.lxor d a) in
  let c := u32 (c + d) in let b := rotate_right 20 (N.lxor b c) in
  let a := u32 (a + b) in let d := rotate_right 24 (N.lxor d a) in
  let c := u32 (c + d) in let b := rotate_right 25 (N.lxor b c) in
  (a, b, c, d).

Lemma lane_quarter a b c d : small a -> small b -> small c -> small d -> lane a b c d = quarter a b c d.
Proof.
  intros Ha Hb Hc Hd. unfold lane, quarter, plus32. cbv zeta.
  repeat match goal with |- context [u32 ?n] => rewrite (u32_mod n) end.
  assert (forall n, small (n mod 2 ^ 32)) as Hm by (intros n; apply N.mod_lt; discriminate).
  assert (forall n, small n -> small (rotl32 n 16) /\ small (rotl32 n 12)) as Hr.
  { intros n Hn. rewrite <- (rotate_rotl 16 16 n), <- (rotate_rotl 20 12 n) by (lia || assumption). split; now apply rotate_small. }
  rewrite (rotate_rotl 16 16) by (reflexivity || (apply lxor_small; auto)).
  set (d1 := rotl32 _ 16). assert (small d1) as Hd1 by (apply Hr; apply lxor_small; auto). clearbody d1.
  rewrite (rotate_rotl 20 12) by (reflexivity || (apply lxor_small; auto)).
  set (b1 := rotl32 _ 12). assert (small b1) as Hb1 by (apply Hr; apply lxor_small; auto). clearbody b1.
  rewrite (rotate_rotl 24 8) by (reflexivity || (apply lxor_small; auto)).
  rewrite (rotate_rotl 25 7) by (reflexivity || (apply lxor_small; auto)). reflexivity.
Qed.

Definition small4 (v : v4) : Prop := small (w0 v) /\ small (w1 v) /\ small (w2 v) /\ small (w3 v).
Definition small_rows (x : rows) : Prop := small4 (ra x) /\ small4 (rb x) /\ small4 (rc x) /\ small4 (rd x).

Lemma vadd_small x y : small4 (vadd x y).
Proof. repeat split; apply u32_small. Qed.
Lemma vrot_small k x y : small4 x -> small4 y -> small4 (vrotr k (vxor x y)).
Proof. intros (? & ? & ? & ?) (? & ? & ? & ?). repeat split; apply rotate_small, lxor_small; assumption. Qed.

Lemma half_small r1 r2 x : small_rows x -> small_rows (half r1 r2 x).
Proof.
  intros (Ha & Hb & Hc & Hd). unfold half. cbv zeta.
  assert (small4 (vrotr r1 (vxor (rd x) (vadd (ra x) (rb x))))) as H1 by (apply vrot_small; [assumption|apply vadd_small]).
  split; [apply vadd_small|]. split; [apply vrot_small; [assumption|apply vadd_small]|]. split; [apply vadd_small|exact H1].
Qed.
Lemma round_small x : small_rows x -> small_rows (round x).
Proof. intros H. now do 2 apply half_small. Qed.
Lemma diag_small x : small_rows x -> small_rows (diagonalize x).
Proof. intros ((? & ? & ? & ?) & (? & ? & ? & ?) & (? & ? & ? & ?) & (? & ? & ? & ?)). repeat split; assumption. Qed.
Lemma undiag_small x : small_rows x -> small_rows (undiagonalize x).
Proof. intros ((? & ? & ? & ?) & (? & ? & ? & ?) & (? & ? & ? & ?) & (? & ? & ? & ?)). repeat split; assumption. Qed.
Lemma double_small x : small_rows x -> small_rows (double_round x).
Proof. intros H. now apply undiag_small, round_small, diag_small, round_small. Qed.

Definition flat (x : rows) : list N := words (ra x) ++ words (rb x) ++ words (rc x) ++ words (rd x).

(** The lanes of a round, as tuples. *)
Lemma round_lanes x : exists a0 b0 c0 d0 a1 b1 c1 d1 a2 b2 c2 d2 a3 b3 c3 d3,
  lane (w0 (ra x)) (w0 (rb x)) (w0 (rc x)) (w0 (rd x)) = (a0, b0, c0, d0) /\
  lane (w1 (ra x)) (w1 (rb x)) (w1 (rc x)) (w1 (rd x)) = (a1, b1, c1, d1) /\
  lane (w2 (ra x)) (w2 (rb x)) (w2 (rc x)) (w2 (rd x)) = (a2, b2, c2, d2) /\
  lane (w3 (ra x)) (w3 (rb x)) (w3 (rc x)) (w3 (rd x)) = (a3, b3, c3, d3) /\
  round x = Rows (V4 a0 a1 a2 a3) (V4 b0 b1 b2 b3) (V4 c0 c1 c2 c3) (V4 d0 d1 d2 d3).
Proof. do 16 eexists. split; [reflexivity|]. split; [reflexivity|]. split; [reflexivity|]. split; reflexivity. Qed.

Lemma qr_step x y z w s a b c d : quarter (nth x s 0) (nth y s 0) (nth z s 0) (nth w s 0) = (a, b, c, d) ->
  quarter_round x y z w s = <[w := d]> (<[z := c]> (<[y := b]> (<[x := a]> s))).
Proof. intros E. unfold quarter_round. now rewrite E. Qed.

Lemma double_inner x : small_rows x -> flat (double_round x) = inner_block (flat x).
Proof.
  intros H. unfold double_round. pose proof (round_small x H) as H1. pose proof (diag_small _ H1) as H2.
  destruct (round_lanes x) as (a0 & b0 & c0 & d0 & a1 & b1 & c1 & d1 & a2 & b2 & c2 & d2 & a3 & b3 & c3 & d3 & E0 & E1 & E2 & E3 & E).
  rewrite E in H1, H2 |- *. clear E.
  destruct (round_lanes (diagonalize (Rows (V4 a0 a1 a2 a3) (V4 b0 b1 b2 b3) (V4 c0 c1 c2 c3) (V4 d0 d1 d2 d3))))
    as (e0 & f0 & g0 & h0 & e1 & f1 & g1 & h1 & e2 & f2 & g2 & h2 & e3 & f3 & g3 & h3 & F0 & F1 & F2 & F3 & F).
  rewrite F. clear F. destruct H as ((? & ? & ? & ?) & (? & ? & ? & ?) & (? & ? & ? & ?) & (? & ? & ? & ?)).
  destruct H2 as ((? & ? & ? & ?) & (? & ? & ? & ?) & (? & ? & ? & ?) & (? & ? & ? & ?)).
  destruct x as [[x0 x1 x2 x3] [y0 y1 y2 y3] [z0 z1 z2 z3] [u0 u1 u2 u3]].
  cbn [ra rb rc rd w0 w1 w2 w3 diagonalize shuffle1230 shuffle2301 shuffle3012] in *.
  rewrite lane_quarter in E0, E1, E2, E3, F0, F1, F2, F3 by assumption.
  unfold flat, undiagonalize. cbn [words ra rb rc rd w0 w1 w2 w3 shuffle1230 shuffle2301 shuffle3012 app].
  unfold inner_block. cbv zeta.
  erewrite (qr_step 0 4 8 12) by exact E0. erewrite (qr_step 1 5 9 13) by exact E1.
  erewrite (qr_step 2 6 10 14) by exact E2. erewrite (qr_step 3 7 11 15) by exact E3.
  erewrite (qr_step 0 5 10 15) by exact F0. erewrite (qr_step 1 6 11 12) by exact F1.
  erewrite (qr_step 2 7 8 13) by exact F2. erewrite (qr_step 3 4 9 14) by exact F3. reflexivity.
Qed.

(** ** Blocks *)

Lemma iter_inner {A} (f : A -> A) n x : Nat.iter (S n) f x = Nat.iter n f (f x).
Proof. induction n as [|n IH]; [reflexivity|]. change (f (Nat.iter (S n) f x) = f (Nat.iter n f (f x))). now rewrite IH. Qed.

Lemma drounds_S n x : drounds (S n) x = drounds n (double_round x).
Proof. reflexivity. Qed.

Opaque inner_block double_round.

Lemma drounds_iter n x : small_rows x -> flat (drounds n x) = Nat.iter n inner_block (flat x) /\ small_rows (drounds n x).
Proof.
  revert x. induction n as [|n IH]; intros x H; [auto|]. rewrite iter_inner, drounds_S, <- double_inner by assumption.
  apply IH. now apply double_small.
Qed.

Lemma le_word l i : (4 * i + 4 <= length l)%nat -> le_value (take 4 (drop (4 * i) l)) = word_at l i.
Proof.
  intros H. unfold word_at.
  assert (forall k, (k < 4)%nat -> nth (4 * i + k) l x00 = nth k (drop (4 * i) l) x00) as E.
  { intros k Hk. rewrite <- (take_drop (4 * i) l) at 1. rewrite app_nth2 by (rewrite take_length; lia). f_equal. rewrite take_length. lia. }
  rewrite !E by lia. assert (4 <= length (drop (4 * i) l))%nat as HL by (rewrite drop_length; lia).
  destruct (drop (4 * i) l) as [|a [|b [|c [|d r]]]]; cbn [length] in HL; try lia. cbn [take le_value nth]. rewrite take_0. cbn [le_value].
  change (2 ^ 8) with 256. change (2 ^ 16) with 65536. change (2 ^ 24) with 16777216. lia.
Qed.

Lemma seed_word_small seed i : small (seed_word seed i).
Proof.
  unfold small, seed_word. assert (length (take 4 (drop (4 * i) seed)) <= 4)%nat as HL by (rewrite take_length; lia).
  assert (forall l, le_value l < 256 ^ N.of_nat (length l)) as H.
  { clear. induction l as [|b l IH]; cbn [le_value length]; [reflexivity|]. rewrite Nat2N.inj_succ, N.pow_succ_r'. pose proof (nb_lt b). lia. }
  eapply N.lt_le_trans; [apply H|]. change (2 ^ 32) with (256 ^ 4). apply N.pow_le_mono_r; lia.
Qed.

Definition key_lo (seed : bytes) : v4 := cb (from_seed seed).
Definition key_hi (seed : bytes) : v4 := cc (from_seed seed).
Definition zero4 : v4 := V4 0 0 0 0.
Definition sblock (seed : bytes) (ctr : N) : list N := block (key_lo seed) (key_hi seed) (at_pos ctr zero4).

Lemma pos_split p : p < 2 ^ 64 -> u32 (N.shiftr p 32) = p / 2 ^ 32.
Proof. intros H. rewrite u32_mod, N.shiftr_div_pow2, N.mod_small; [reflexivity|]. apply N.div_lt_upper_bound; [discriminate|exact H]. Qed.

Lemma start_flat seed ctr : length seed = 32%nat -> ctr < 2 ^ 64 ->
  flat (Rows CONSTANTS (key_lo seed) (key_hi seed) (at_pos ctr zero4)) = initial seed ctr.
Proof.
  intros HL Hc. unfold flat, initial, key_lo, key_hi, from_seed, at_pos, zero4, CONSTANTS.
  cbn [ra rb rc rd cb cc w0 w1 w2 w3 words app map seq]. unfold seed_word.
  rewrite !le_word by lia. rewrite pos_split by assumption. rewrite u32_mod. reflexivity.
Qed.

Lemma start_small seed ctr : small_rows (Rows CONSTANTS (key_lo seed) (key_hi seed) (at_pos ctr zero4)).
Proof.
  split; [repeat split; reflexivity|]. split; [repeat split; apply seed_word_small|]. split; [repeat split; apply seed_word_small|].
  split; [apply u32_small|]. split; [apply u32_small|]. split; reflexivity.
Qed.

Lemma sblock_key seed ctr : length seed = 32%nat -> ctr < 2 ^ 64 -> sblock seed ctr = key_block seed ctr.
Proof.
  intros HL Hc. unfold sblock, key_block, block. cbv zeta.
  set (r := Rows CONSTANTS (key_lo seed) (key_hi seed) (at_pos ctr zero4)).
  destruct (drounds_iter 10 r (start_small seed ctr)) as [E _]. rewrite <- (start_flat seed ctr HL Hc). fold r. rewrite <- E.
  generalize (drounds 10 r). intros x. unfold r, flat, vadd, map2, plus32.
  cbn [words ra rb rc rd w0 w1 w2 w3 app zip_with]. rewrite !u32_mod. reflexivity.
Qed.

Lemma block_length b c d : length (block b c d) = 16%nat.
Proof. reflexivity. Qed.

(** ** The generator *)

(** The words of the blocks one after another. *)
Definition sword (seed : bytes) (i : nat) : N := nth (i mod 16) (sblock seed (N.of_nat (i / 16) mod 2 ^ 64)) 0.

Lemma pos64_at p : p < 2 ^ 64 -> pos64 (at_pos p zero4) = p.
Proof.
  intros H. unfold pos64, at_pos. cbn [w0 w1]. rewrite pos_split by assumption. rewrite u32_mod.
  rewrite N.shiftl_mul_pow2. rewrite <- N.lxor_lor, <- N.add_nocarry_lxor.
  - rewrite N.mul_comm. symmetry. apply N.div_mod. discriminate.
  - rewrite <- N.shiftl_mul_pow2. apply N.bits_inj. intros i. rewrite N.land_spec, N.bits_0.
    destruct (N.lt_ge_cases i 32); [rewrite N.shiftl_spec_low by assumption; reflexivity|].
    rewrite N.mod_pow2_bits_high by assumption. apply andb_false_r.
  - rewrite <- N.shiftl_mul_pow2. apply N.bits_inj. intros i. rewrite N.land_spec, N.bits_0.
    destruct (N.lt_ge_cases i 32); [rewrite N.shiftl_spec_low by assumption; reflexivity|].
    rewrite N.mod_pow2_bits_high by assumption. apply andb_false_r.
Qed.

Record rng_inv (seed : bytes) (s : block_rng) (m W : nat) : Prop := {
  ri_core : br_core s = ChaCha (key_lo seed) (key_hi seed) (at_pos (N.of_nat (4 * m) mod 2 ^ 64) zero4);
  ri_len : length (br_results s) = 64%nat;
  ri_index : (br_index s <= 64)%nat;
  ri_pos : (W + 64 = 64 * m + br_index s)%nat;
  ri_words : drop (br_index s) (br_results s) = map (sword seed) (seq W (64 - br_index s))
}.

Lemma block_words seed j : sblock seed (N.of_nat j mod 2 ^ 64) = map (sword seed) (seq (16 * j) 16).
Proof.
  assert (forall i, (i < 16)%nat -> sword seed (16 * j + i) = nth i (sblock seed (N.of_nat j mod 2 ^ 64)) 0) as H.
  { intros i Hi. unfold sword. rewrite Nat.mul_comm, Nat.div_add_l, Nat.div_small, Nat.add_0_r by lia.
    rewrite Nat.add_comm, Nat.mod_add, Nat.mod_small by lia. reflexivity. }
  apply (nth_ext _ _ 0 0); [rewrite map_length, seq_length; reflexivity|].
  intros i Hi. change (length (sblock seed (N.of_nat j mod 2 ^ 64))) with 16%nat in Hi.
  rewrite (nth_indep (map (sword seed) (seq (16 * j) 16)) 0 (sword seed 0)) by (rewrite map_length, seq_length; lia).
  rewrite map_nth, seq_nth by lia. now rewrite H.
Qed.

Lemma refill_inv seed s m W : rng_inv seed s m W -> br_index s = 64%nat ->
  rng_inv seed (let '(res, core) := refill (br_core s) in BlockRng core res 0) (S m) W.
Proof.
  intros H Hi. unfold refill. rewrite (ri_core _ _ _ _ H). cbn [cb cc cd]. cbv zeta.
  set (p := N.of_nat (4 * m) mod 2 ^ 64). assert (p < 2 ^ 64) as Hp by (apply N.mod_lt; discriminate).
  rewrite pos64_at by assumption.
  assert (forall k, at_pos (wrapping_add p (N.of_nat k)) (at_pos p zero4) = at_pos (N.of_nat (4 * m + k) mod 2 ^ 64) zero4) as E.
  { intros k. unfold wrapping_add, p. rewrite N.add_mod_idemp_l by discriminate. rewrite <- Nat2N.inj_add. reflexivity. }
  pose proof (E 1%nat) as E1. pose proof (E 2%nat) as E2. pose proof (E 3%nat) as E3. pose proof (E 4%nat) as E4.
  change (N.of_nat 1) with 1 in E1. change (N.of_nat 2) with 2 in E2. change (N.of_nat 3) with 3 in E3. change (N.of_nat 4) with 4 in E4.
  rewrite E1, E2, E3, E4.
  pose proof (ri_pos _ _ _ _ H) as HP. rewrite Hi in HP.
  constructor; cbn [br_core br_results br_index].
  - f_equal. f_equal. f_equal. lia.
  - reflexivity.
  - lia.
  - lia.
  - rewrite drop_0. unfold p.
    replace (seq W (64 - 0)) with (seq (16 * (4 * m)) 16 ++ seq (16 * (4 * m + 1)) 16 ++ seq (16 * (4 * m + 2)) 16 ++ seq (16 * (4 * m + 3)) 16).
    2:{ assert (W = 16 * (4 * m))%nat as -> by lia. replace (64 - 0)%nat with (16 + (16 + (16 + 16)))%nat by lia.
        rewrite !seq_app. repeat f_equal; lia. }
    rewrite !map_app, <- !block_words. reflexivity.
Qed.

Lemma word_bytes_length l : length (flat_map word_bytes l) = (4 * length l)%nat.
Proof. induction l as [|a l IH]; [reflexivity|]. cbn [flat_map]. rewrite app_length, IH. cbn [length word_bytes]. lia. Qed.

Definition sbytes (seed : bytes) (W n : nat) : bytes := take n (flat_map word_bytes (map (sword seed) (seq W ((n + 3) / 4)))).

Lemma fill_spec seed fuel : forall n s m W, rng_inv seed s m W -> (n <= fuel)%nat ->
  exists s' m', fill_loop fuel n s = (sbytes seed W n, s') /\ rng_inv seed s' m' (W + (n + 3) / 4).
Proof.
  induction fuel as [|fuel IH]; intros n s m W H Hn.
  { assert (n = 0)%nat as -> by lia. exists s, m. split; [reflexivity|]. now rewrite Nat.add_0_r. }
  destruct n as [|n']. { exists s, m. split; [reflexivity|]. now rewrite Nat.add_0_r. }
  set (n := S n') in *. assert (1 <= n)%nat as Hn1 by (unfold n; lia). cbn [fill_loop]. fold n.
  change (match n with O => _ | S _ => ?x end) with x.
  set (s1 := if (length (br_results s) <=? br_index s)%nat then _ else s).
  assert (exists m1, rng_inv seed s1 m1 W /\ (br_index s1 < 64)%nat) as (m1 & H1 & Hi).
  { unfold s1. rewrite (ri_len _ _ _ _ H). destruct (64 <=? br_index s)%nat eqn:E.
    - apply Nat.leb_le in E. pose proof (ri_index _ _ _ _ H). exists (S m). split; [apply refill_inv; [assumption|lia]|].
      unfold refill. cbn [br_index]. lia.
    - apply Nat.leb_gt in E. eauto. }
  clearbody s1. clear H s m. unfold fill_via_chunks. rewrite (ri_words _ _ _ _ H1), map_length, seq_length.
  set (L := (64 - br_index s1)%nat). assert (1 <= L <= 64)%nat as HL by (unfold L; lia).
  destruct (Nat.le_gt_cases n (4 * L)) as [Hle|Hgt].
  - rewrite Nat.min_r by lia. set (q := ((n + 3) / 4)%nat).
    assert (q <= L /\ n <= 4 * q)%nat as [Hq Hq'].
    { unfold q. pose proof (Nat.div_mod (n + 3) 4 ltac:(lia)). pose proof (Nat.mod_upper_bound (n + 3) 4 ltac:(lia)). lia. }
    assert (take q (map (sword seed) (seq W L)) = map (sword seed) (seq W q)) as ->.
    { replace L with (q + (L - q))%nat by lia. rewrite seq_app, map_app, take_app_le, take_ge by (rewrite map_length, seq_length; lia). reflexivity. }
    fold q. unfold sbytes. fold q. set (out := take n _).
    assert (length out = n) as EL by (unfold out; rewrite take_length, word_bytes_length, map_length, seq_length; lia).
    rewrite EL, Nat.sub_diag. exists (BlockRng (br_core s1) (br_results s1) (br_index s1 + q)), m1. split.
    { destruct fuel; cbn [fill_loop]; now rewrite app_nil_r. }
    constructor; cbn [br_core br_results br_index]; try (destruct H1; unfold L in *; assumption || lia).
    + rewrite <- drop_drop, (ri_words _ _ _ _ H1). fold L. replace L with (q + (L - q))%nat by lia.
      rewrite seq_app, map_app, drop_app_ge by (rewrite map_length, seq_length; lia).
      rewrite map_length, seq_length, Nat.sub_diag, drop_0. do 2 f_equal. unfold L in *. lia.
  - rewrite Nat.min_l by lia. assert ((4 * L + 3) / 4 = L)%nat as EL.
    { rewrite Nat.mul_comm, Nat.div_add_l by lia. rewrite (Nat.div_small 3) by lia. lia. }
    rewrite EL. rewrite take_ge with (n := L) by (rewrite map_length, seq_length; lia).
    rewrite take_ge by (rewrite word_bytes_length, map_length, seq_length; lia).
    rewrite word_bytes_length, map_length, seq_length.
    assert (rng_inv seed (BlockRng (br_core s1) (br_results s1) (br_index s1 + L)) m1 (W + L)) as H2.
    { constructor; cbn [br_core br_results br_index]; try (destruct H1; unfold L; assumption || lia).
      - rewrite drop_ge by (rewrite (ri_len _ _ _ _ H1); unfold L; lia). replace (64 - (br_index s1 + L))%nat with 0%nat by (unfold L; lia). reflexivity. }
    destruct (IH (n - 4 * L)%nat _ _ _ H2 ltac:(lia)) as (s' & m' & E & H3). rewrite E. exists s', m'.
    assert ((n + 3) / 4 = L + (n - 4 * L + 3) / 4)%nat as Eq.
    { replace (n + 3)%nat with (L * 4 + (n - 4 * L + 3))%nat by lia. rewrite Nat.div_add_l by lia. reflexivity. }
    split.
    + f_equal. unfold sbytes. rewrite Eq, seq_app, map_app, flat_map_app.
      rewrite take_app_ge by (rewrite word_bytes_length, map_length, seq_length; lia).
      rewrite word_bytes_length, map_length, seq_length. reflexivity.
    + rewrite Eq, Nat.add_assoc. exact H3.
Qed.

Lemma reads_inv seed k : exists m, rng_inv seed (reads k (block_rng_new (from_seed seed))) m (3 * k).
Proof.
  induction k as [|k [m IH]].
  - exists 0%nat. constructor; reflexivity.
  - cbn [reads]. destruct (fill_spec seed 10 10 _ _ _ IH ltac:(lia)) as (s' & m' & E & H). unfold fill_bytes. rewrite E. cbn [snd].
    exists m'. replace (3 * S k)%nat with (3 * k + (10 + 3) / 4)%nat; [exact H|]. change ((10 + 3) / 4)%nat with 3%nat. lia.
Qed.

Lemma nonce_read_bytes seed k : nonce_read seed k = sbytes seed (3 * k) 10.
Proof.
  unfold nonce_read. destruct (reads_inv seed k) as [m H]. destruct (fill_spec seed 10 10 _ _ _ H ltac:(lia)) as (s' & m' & E & _).
  unfold fill_bytes. now rewrite E.
Qed.

Lemma word_bytes_of n : word_bytes n = [byte_of n 0; byte_of n 1; byte_of n 2; byte_of n 3].
Proof. unfold word_bytes, byte_of. rewrite !N.shiftr_div_pow2. change (2 ^ (8 * N.of_nat 0)) with 1. rewrite N.div_1_r. reflexivity. Qed.

Lemma sword_stream seed i j : length seed = 32%nat -> N.of_nat i < 2 ^ 68 -> (j < 4)%nat ->
  byte_of (sword seed i) j = keystream seed (4 * N.of_nat i + N.of_nat j).
Proof.
  intros HL Hi Hj. unfold sword, keystream.
  assert ((4 * N.of_nat i + N.of_nat j) / 4 = N.of_nat i) as E4.
  { rewrite N.mul_comm, N.div_add_l by discriminate. rewrite N.div_small by lia. lia. }
  assert ((4 * N.of_nat i + N.of_nat j) mod 4 = N.of_nat j) as ->.
  { rewrite N.add_comm, N.mul_comm, N.mod_add by discriminate. apply N.mod_small. lia. }
  assert ((4 * N.of_nat i + N.of_nat j) / 64 = N.of_nat i / 16) as ->.
  { change 64 with (4 * 16). rewrite <- N.div_div by discriminate. now rewrite E4. }
  rewrite E4, Nat2N.id. change 16 with (N.of_nat 16). rewrite <- (Nat2N.inj_div i 16), <- (Nat2N.inj_mod i 16), Nat2N.id.
  assert (N.of_nat (i / 16) < 2 ^ 64) as Hb.
  { rewrite Nat2N.inj_div. apply N.div_lt_upper_bound; [discriminate|]. exact Hi. }
  rewrite (N.mod_small (N.of_nat (i / 16))) by assumption. rewrite sblock_key by assumption. reflexivity.
Qed.

Lemma nonce_stream seed k : length seed = 32%nat -> N.of_nat k < 2 ^ 64 ->
  nonce_read seed k = map (fun j => keystream seed (12 * N.of_nat k + N.of_nat j)) (seq 0 10).
Proof.
  intros HL Hk. rewrite nonce_read_bytes. unfold sbytes. change ((10 + 3) / 4)%nat with 3%nat. cbn [seq map flat_map].
  assert (forall i j, (i < 3)%nat -> (j < 4)%nat ->
    byte_of (sword seed (3 * k + i)) j = keystream seed (12 * N.of_nat k + N.of_nat (4 * i + j))) as E.
  { intros i j Hi Hj. rewrite sword_stream by (assumption || lia). f_equal. lia. }
  rewrite !word_bytes_of. cbn [app take].
  replace (S (3 * k)) with (3 * k + 1)%nat by lia. replace (S (3 * k + 1)) with (3 * k + 2)%nat by lia.
  replace (3 * k)%nat with (3 * k + 0)%nat at 1 2 3 4 by lia. rewrite !E by lia. reflexivity.
Qed.

Lemma nonce_read_length seed k : length (nonce_read seed k) = 10%nat.
Proof. rewrite nonce_read_bytes. unfold sbytes. rewrite take_length, word_bytes_length, map_length, seq_length. reflexivity. Qed.
