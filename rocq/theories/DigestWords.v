(** The operations on words of digits (Nib.v) are those on numbers (SpecDigest.v): words
    are read as lists of bits, least significant first. *)
From Verif Require Import Base Nib SpecDigest.
Local Open Scope N_scope.

(** ** Lists of bits *)

Fixpoint val (l : list bool) : N := match l with [] => 0 | b :: r => N.b2n b + 2 * val r end.

Fixpoint zip (f : bool -> bool -> bool) (a b : list bool) : list bool :=
  match a, b with x :: a', y :: b' => f x y :: zip f a' b' | _, _ => [] end.

Lemma lxor_cons x y m n : N.lxor (N.b2n x + 2 * m) (N.b2n y + 2 * n) = N.b2n (xorb x y) + 2 * N.lxor m n.
Proof.
  apply N.bits_inj. intros i. rewrite N.lxor_spec.
  destruct (N.eq_dec i 0) as [->|Hi].
  - rewrite !(N.add_comm (N.b2n _) (2 * _)), !N.testbit_0_r. reflexivity.
  - assert (exists k, i = N.succ k) as [k ->] by (exists (N.pred i); lia).
    rewrite !(N.add_comm (N.b2n _) (2 * _)), !N.testbit_succ_r, N.lxor_spec. reflexivity.
Qed.

Lemma land_cons x y m n : N.land (N.b2n x + 2 * m) (N.b2n y + 2 * n) = N.b2n (x && y) + 2 * N.land m n.
Proof.
  apply N.bits_inj. intros i. rewrite N.land_spec.
  destruct (N.eq_dec i 0) as [->|Hi].
  - rewrite !(N.add_comm (N.b2n _) (2 * _)), !N.testbit_0_r. reflexivity.
  - assert (exists k, i = N.succ k) as [k ->] by (exists (N.pred i); lia).
    rewrite !(N.add_comm (N.b2n _) (2 * _)), !N.testbit_succ_r, N.land_spec. reflexivity.
Qed.

Lemma val_lxor a : forall b, length a = length b -> val (zip xorb a b) = N.lxor (val a) (val b).
Proof.
  induction a as [|x a IH]; intros [|y b] H; try discriminate; [reflexivity|].
  cbn [val zip]. rewrite lxor_cons, IH by (cbn in H; lia). reflexivity.
Qed.

Lemma val_land a : forall b, length a = length b -> val (zip andb a b) = N.land (val a) (val b).
Proof.
  induction a as [|x a IH]; intros [|y b] H; try discriminate; [reflexivity|].
  cbn [val zip]. rewrite land_cons, IH by (cbn in H; lia). reflexivity.
Qed.

Lemma val_lnot a : val (map negb a) = N.lnot (val a) (N.of_nat (length a)).
Proof.
  unfold N.lnot. induction a as [|x a IH]; [reflexivity|].
  cbn [val map length]. rewrite IH.
  assert (N.ones (N.of_nat (S (length a))) = N.b2n true + 2 * N.ones (N.of_nat (length a))) as ->.
  { rewrite Nat2N.inj_succ, <- N.add_1_l, N.ones_add. apply N.add_comm. }
  rewrite lxor_cons. destruct x; reflexivity.
Qed.

Lemma val_app a b : val (a ++ b) = val a + 2 ^ N.of_nat (length a) * val b.
Proof.
  induction a as [|x a IH]; [cbn [app length val]; rewrite N.pow_0_r; lia|].
  cbn [app val length]. rewrite IH, Nat2N.inj_succ, N.pow_succ_r'. lia.
Qed.

Lemma val_bound a : val a < 2 ^ N.of_nat (length a).
Proof.
  induction a as [|x a IH]; [reflexivity|].
  cbn [val length]. rewrite Nat2N.inj_succ, N.pow_succ_r'. destruct x; cbn [N.b2n]; lia.
Qed.

Lemma val_split n a : (n <= length a)%nat ->
  val a / 2 ^ N.of_nat n = val (skipn n a) /\ val a mod 2 ^ N.of_nat n = val (firstn n a).
Proof.
  intros Hn. pose proof (firstn_skipn n a) as E.
  assert (length (firstn n a) = n) as HL by (rewrite firstn_length; lia).
  pose proof (val_app (firstn n a) (skipn n a)) as HV. rewrite E, HL in HV.
  pose proof (val_bound (firstn n a)) as HB. rewrite HL in HB. split; symmetry.
  - apply N.div_unique with (r := val (firstn n a)); [exact HB|lia].
  - apply N.mod_unique with (q := val (skipn n a)); [exact HB|lia].
Qed.

Lemma val_rotr n a : (n <= length a)%nat ->
  val (skipn n a ++ firstn n a) = rotr (N.of_nat (length a)) (N.of_nat n) (val a).
Proof.
  intros Hn. destruct (val_split n a Hn) as [H1 H2]. unfold rotr. rewrite H1, H2, val_app.
  rewrite skipn_length, Nat2N.inj_sub. reflexivity.
Qed.

Lemma val_shiftr n a : (n <= length a)%nat ->
  val (skipn n a ++ repeat false n) = N.shiftr (val a) (N.of_nat n).
Proof.
  intros Hn. rewrite N.shiftr_div_pow2. destruct (val_split n a Hn) as [-> _].
  rewrite val_app. assert (val (repeat false n) = 0) as ->; [|lia].
  clear. induction n as [|n IH]; [reflexivity|]. cbn [repeat val]. rewrite IH. reflexivity.
Qed.

(** ** Digits *)

Definition q0 (a : nib) : bool := N.testbit (nv a) 0.
Definition q1 (a : nib) : bool := N.testbit (nv a) 1.
Definition q2 (a : nib) : bool := N.testbit (nv a) 2.
Definition q3 (a : nib) : bool := N.testbit (nv a) 3.

Definition bits32 (x : w32) : list bool :=
  match x with W a0 a1 a2 a3 a4 a5 a6 a7 =>
    [q0 a0; q1 a0; q2 a0; q3 a0; q0 a1; q1 a1; q2 a1; q3 a1; q0 a2; q1 a2; q2 a2; q3 a2; q0 a3; q1 a3; q2 a3; q3 a3;
     q0 a4; q1 a4; q2 a4; q3 a4; q0 a5; q1 a5; q2 a5; q3 a5; q0 a6; q1 a6; q2 a6; q3 a6; q0 a7; q1 a7; q2 a7; q3 a7] end.

Definition bits64 (x : w64) : list bool :=
  match x with L a0 a1 a2 a3 a4 a5 a6 a7 a8 a9 a10 a11 a12 a13 a14 a15 =>
    [q0 a0; q1 a0; q2 a0; q3 a0; q0 a1; q1 a1; q2 a1; q3 a1; q0 a2; q1 a2; q2 a2; q3 a2; q0 a3; q1 a3; q2 a3; q3 a3;
     q0 a4; q1 a4; q2 a4; q3 a4; q0 a5; q1 a5; q2 a5; q3 a5; q0 a6; q1 a6; q2 a6; q3 a6; q0 a7; q1 a7; q2 a7; q3 a7;
     q0 a8; q1 a8; q2 a8; q3 a8; q0 a9; q1 a9; q2 a9; q3 a9; q0 a10; q1 a10; q2 a10; q3 a10; q0 a11; q1 a11; q2 a11; q3 a11;
     q0 a12; q1 a12; q2 a12; q3 a12; q0 a13; q1 a13; q2 a13; q3 a13; q0 a14; q1 a14; q2 a14; q3 a14; q0 a15; q1 a15; q2 a15; q3 a15] end.

Lemma nv_bits a r : nv a + 16 * r = N.b2n (q0 a) + 2 * (N.b2n (q1 a) + 2 * (N.b2n (q2 a) + 2 * (N.b2n (q3 a) + 2 * r))).
Proof.
  assert (nv a = N.b2n (q0 a) + 2 * (N.b2n (q1 a) + 2 * (N.b2n (q2 a) + 2 * N.b2n (q3 a)))) as -> by (destruct a; reflexivity).
  lia.
Qed.

Lemma v32_bits x : v32 x = val (bits32 x).
Proof.
  destruct x as [a0 a1 a2 a3 a4 a5 a6 a7]. cbn [v32 bits32 val].
  rewrite <- (N.add_0_r (nv a7)). change (nv a7 + 0) with (nv a7 + 16 * 0).
  rewrite !nv_bits. reflexivity.
Qed.

Lemma v64_bits x : v64 x = val (bits64 x).
Proof.
  destruct x as [a0 a1 a2 a3 a4 a5 a6 a7 a8 a9 a10 a11 a12 a13 a14 a15]. cbn [v64 bits64 val].
  rewrite <- (N.add_0_r (nv a15)). change (nv a15 + 0) with (nv a15 + 16 * 0).
  rewrite !nv_bits. reflexivity.
Qed.

Lemma bits32_length x : length (bits32 x) = 32%nat.
Proof. destruct x. reflexivity. Qed.
Lemma bits64_length x : length (bits64 x) = 64%nat.
Proof. destruct x. reflexivity. Qed.

Lemma q_xor a b : q0 (nxor a b) = xorb (q0 a) (q0 b) /\ q1 (nxor a b) = xorb (q1 a) (q1 b) /\
  q2 (nxor a b) = xorb (q2 a) (q2 b) /\ q3 (nxor a b) = xorb (q3 a) (q3 b).
Proof. destruct a, b; repeat split; reflexivity. Qed.
Lemma q_and a b : q0 (nand a b) = andb (q0 a) (q0 b) /\ q1 (nand a b) = andb (q1 a) (q1 b) /\
  q2 (nand a b) = andb (q2 a) (q2 b) /\ q3 (nand a b) = andb (q3 a) (q3 b).
Proof. destruct a, b; repeat split; reflexivity. Qed.
Lemma q_andn a b : q0 (nandn a b) = andb (negb (q0 a)) (q0 b) /\ q1 (nandn a b) = andb (negb (q1 a)) (q1 b) /\
  q2 (nandn a b) = andb (negb (q2 a)) (q2 b) /\ q3 (nandn a b) = andb (negb (q3 a)) (q3 b).
Proof. destruct a, b; repeat split; reflexivity. Qed.
Lemma q_sh1 a b : q0 (nsh1 a b) = q1 a /\ q1 (nsh1 a b) = q2 a /\ q2 (nsh1 a b) = q3 a /\ q3 (nsh1 a b) = q0 b.
Proof. destruct a, b; repeat split; reflexivity. Qed.
Lemma q_sh2 a b : q0 (nsh2 a b) = q2 a /\ q1 (nsh2 a b) = q3 a /\ q2 (nsh2 a b) = q0 b /\ q3 (nsh2 a b) = q1 b.
Proof. destruct a, b; repeat split; reflexivity. Qed.
Lemma q_sh3 a b : q0 (nsh3 a b) = q3 a /\ q1 (nsh3 a b) = q0 b /\ q2 (nsh3 a b) = q1 b /\ q3 (nsh3 a b) = q2 b.
Proof. destruct a, b; repeat split; reflexivity. Qed.

Ltac split_q L := intros; apply L.
Lemma q0_xor a b : q0 (nxor a b) = xorb (q0 a) (q0 b). Proof. split_q (q_xor a b). Qed.
Lemma q1_xor a b : q1 (nxor a b) = xorb (q1 a) (q1 b). Proof. split_q (q_xor a b). Qed.
Lemma q2_xor a b : q2 (nxor a b) = xorb (q2 a) (q2 b). Proof. split_q (q_xor a b). Qed.
Lemma q3_xor a b : q3 (nxor a b) = xorb (q3 a) (q3 b). Proof. split_q (q_xor a b). Qed.
Lemma q0_and a b : q0 (nand a b) = andb (q0 a) (q0 b). Proof. split_q (q_and a b). Qed.
Lemma q1_and a b : q1 (nand a b) = andb (q1 a) (q1 b). Proof. split_q (q_and a b). Qed.
Lemma q2_and a b : q2 (nand a b) = andb (q2 a) (q2 b). Proof. split_q (q_and a b). Qed.
Lemma q3_and a b : q3 (nand a b) = andb (q3 a) (q3 b). Proof. split_q (q_and a b). Qed.
Lemma q0_andn a b : q0 (nandn a b) = andb (negb (q0 a)) (q0 b). Proof. split_q (q_andn a b). Qed.
Lemma q1_andn a b : q1 (nandn a b) = andb (negb (q1 a)) (q1 b). Proof. split_q (q_andn a b). Qed.
Lemma q2_andn a b : q2 (nandn a b) = andb (negb (q2 a)) (q2 b). Proof. split_q (q_andn a b). Qed.
Lemma q3_andn a b : q3 (nandn a b) = andb (negb (q3 a)) (q3 b). Proof. split_q (q_andn a b). Qed.
Lemma q0_sh1 a b : q0 (nsh1 a b) = q1 a. Proof. split_q (q_sh1 a b). Qed.
Lemma q1_sh1 a b : q1 (nsh1 a b) = q2 a. Proof. split_q (q_sh1 a b). Qed.
Lemma q2_sh1 a b : q2 (nsh1 a b) = q3 a. Proof. split_q (q_sh1 a b). Qed.
Lemma q3_sh1 a b : q3 (nsh1 a b) = q0 b. Proof. split_q (q_sh1 a b). Qed.
Lemma q0_sh2 a b : q0 (nsh2 a b) = q2 a. Proof. split_q (q_sh2 a b). Qed.
Lemma q1_sh2 a b : q1 (nsh2 a b) = q3 a. Proof. split_q (q_sh2 a b). Qed.
Lemma q2_sh2 a b : q2 (nsh2 a b) = q0 b. Proof. split_q (q_sh2 a b). Qed.
Lemma q3_sh2 a b : q3 (nsh2 a b) = q1 b. Proof. split_q (q_sh2 a b). Qed.
Lemma q0_sh3 a b : q0 (nsh3 a b) = q3 a. Proof. split_q (q_sh3 a b). Qed.
Lemma q1_sh3 a b : q1 (nsh3 a b) = q0 b. Proof. split_q (q_sh3 a b). Qed.
Lemma q2_sh3 a b : q2 (nsh3 a b) = q1 b. Proof. split_q (q_sh3 a b). Qed.
Lemma q3_sh3 a b : q3 (nsh3 a b) = q2 b. Proof. split_q (q_sh3 a b). Qed.

(** ** The operations on words *)

Lemma v32_xor x y : v32 (xor32 x y) = N.lxor (v32 x) (v32 y).
Proof.
  rewrite !v32_bits, <- val_lxor by (rewrite !bits32_length; reflexivity). f_equal.
  destruct x, y. cbn [xor32 bits32 zip]. rewrite !q0_xor, !q1_xor, !q2_xor, !q3_xor. reflexivity.
Qed.
Lemma v32_and x y : v32 (and32 x y) = N.land (v32 x) (v32 y).
Proof.
  rewrite !v32_bits, <- val_land by (rewrite !bits32_length; reflexivity). f_equal.
  destruct x, y. cbn [and32 bits32 zip]. rewrite !q0_and, !q1_and, !q2_and, !q3_and. reflexivity.
Qed.
Lemma v32_andn x y : v32 (andn32 x y) = N.land (N.lnot (v32 x) 32) (v32 y).
Proof.
  rewrite !v32_bits. change 32 with (N.of_nat 32). rewrite <- (bits32_length x).
  rewrite <- val_lnot, <- val_land by (rewrite map_length, !bits32_length; reflexivity). f_equal.
  destruct x, y. cbn [andn32 bits32 map zip]. rewrite !q0_andn, !q1_andn, !q2_andn, !q3_andn. reflexivity.
Qed.
Lemma v64_xor x y : v64 (xor64 x y) = N.lxor (v64 x) (v64 y).
Proof.
  rewrite !v64_bits, <- val_lxor by (rewrite !bits64_length; reflexivity). f_equal.
  destruct x, y. cbn [xor64 bits64 zip]. rewrite !q0_xor, !q1_xor, !q2_xor, !q3_xor. reflexivity.
Qed.
Lemma v64_andn x y : v64 (andn64 x y) = N.land (N.lnot (v64 x) 64) (v64 y).
Proof.
  rewrite !v64_bits. change 64 with (N.of_nat 64). rewrite <- (bits64_length x).
  rewrite <- val_lnot, <- val_land by (rewrite map_length, !bits64_length; reflexivity). f_equal.
  destruct x, y. cbn [andn64 bits64 map zip]. rewrite !q0_andn, !q1_andn, !q2_andn, !q3_andn. reflexivity.
Qed.

Ltac qs :=
  rewrite ?q0_sh1, ?q1_sh1, ?q2_sh1, ?q3_sh1, ?q0_sh2, ?q1_sh2, ?q2_sh2, ?q3_sh2, ?q0_sh3, ?q1_sh3, ?q2_sh3, ?q3_sh3.

Ltac rot32 f x n :=
  rewrite !v32_bits; change 32 with (N.of_nat 32); rewrite <- (bits32_length x);
  change (rotr (N.of_nat (length (bits32 x))) _ (val (bits32 x)))
    with (rotr (N.of_nat (length (bits32 x))) (N.of_nat n) (val (bits32 x)));
  rewrite <- (val_rotr n) by (rewrite bits32_length; lia); f_equal;
  destruct x; cbn [f bits32 skipn firstn app]; qs; reflexivity.

Lemma v32_rotr_2 x : v32 (rotr32_2 x) = rotr 32 2 (v32 x). Proof. rot32 rotr32_2 x 2%nat. Qed.
Lemma v32_rotr_6 x : v32 (rotr32_6 x) = rotr 32 6 (v32 x). Proof. rot32 rotr32_6 x 6%nat. Qed.
Lemma v32_rotr_7 x : v32 (rotr32_7 x) = rotr 32 7 (v32 x). Proof. rot32 rotr32_7 x 7%nat. Qed.
Lemma v32_rotr_11 x : v32 (rotr32_11 x) = rotr 32 11 (v32 x). Proof. rot32 rotr32_11 x 11%nat. Qed.
Lemma v32_rotr_13 x : v32 (rotr32_13 x) = rotr 32 13 (v32 x). Proof. rot32 rotr32_13 x 13%nat. Qed.
Lemma v32_rotr_17 x : v32 (rotr32_17 x) = rotr 32 17 (v32 x). Proof. rot32 rotr32_17 x 17%nat. Qed.
Lemma v32_rotr_18 x : v32 (rotr32_18 x) = rotr 32 18 (v32 x). Proof. rot32 rotr32_18 x 18%nat. Qed.
Lemma v32_rotr_19 x : v32 (rotr32_19 x) = rotr 32 19 (v32 x). Proof. rot32 rotr32_19 x 19%nat. Qed.
Lemma v32_rotr_22 x : v32 (rotr32_22 x) = rotr 32 22 (v32 x). Proof. rot32 rotr32_22 x 22%nat. Qed.
Lemma v32_rotr_25 x : v32 (rotr32_25 x) = rotr 32 25 (v32 x). Proof. rot32 rotr32_25 x 25%nat. Qed.

Lemma q_h0 : q0 h0 = false /\ q1 h0 = false /\ q2 h0 = false /\ q3 h0 = false.
Proof. repeat split. Qed.

Lemma v32_shr_3 x : v32 (shr32_3 x) = N.shiftr (v32 x) 3.
Proof.
  rewrite !v32_bits. change 3 with (N.of_nat 3). rewrite <- (val_shiftr 3) by (rewrite bits32_length; lia). f_equal.
  destruct x. cbn [shr32_3 bits32 skipn repeat app]. qs. reflexivity.
Qed.
Lemma v32_shr_10 x : v32 (shr32_10 x) = N.shiftr (v32 x) 10.
Proof.
  rewrite !v32_bits. change 10 with (N.of_nat 10). rewrite <- (val_shiftr 10) by (rewrite bits32_length; lia). f_equal.
  destruct x. cbn [shr32_10 bits32 skipn repeat app]. qs. reflexivity.
Qed.

(** A rotation to the left by 64 - n is one to the right by n. *)
Lemma rotl_rotr n x : n <= 64 -> x < 2 ^ 64 -> rotl 64 (64 - n) x = rotr 64 n x.
Proof.
  intros Hn Hx. unfold rotl, rotr. replace (64 - (64 - n)) with n by lia. lia.
Qed.

Lemma v64_bound x : v64 x < 2 ^ 64.
Proof. rewrite v64_bits. pose proof (val_bound (bits64 x)) as H. rewrite bits64_length in H. exact H. Qed.

Ltac rot64 f x n :=
  rewrite !v64_bits;
  transitivity (rotr (N.of_nat 64) (N.of_nat n) (val (bits64 x)));
  [ rewrite <- (bits64_length x) at 1;
    rewrite <- (val_rotr n) by (rewrite bits64_length; lia); f_equal;
    destruct x; cbn [f bits64 skipn firstn app]; qs; reflexivity
  | symmetry; rewrite <- v64_bits; change (N.of_nat 64) with 64;
    apply (rotl_rotr (N.of_nat n)); [lia|apply v64_bound] ].

Lemma v64_rotr_2 x : v64 (rotr64_2 x) = rotl 64 62 (v64 x). Proof. rot64 rotr64_2 x 2%nat. Qed.
Lemma v64_rotr_3 x : v64 (rotr64_3 x) = rotl 64 61 (v64 x). Proof. rot64 rotr64_3 x 3%nat. Qed.
Lemma v64_rotr_8 x : v64 (rotr64_8 x) = rotl 64 56 (v64 x). Proof. rot64 rotr64_8 x 8%nat. Qed.
Lemma v64_rotr_9 x : v64 (rotr64_9 x) = rotl 64 55 (v64 x). Proof. rot64 rotr64_9 x 9%nat. Qed.
Lemma v64_rotr_19 x : v64 (rotr64_19 x) = rotl 64 45 (v64 x). Proof. rot64 rotr64_19 x 19%nat. Qed.
Lemma v64_rotr_20 x : v64 (rotr64_20 x) = rotl 64 44 (v64 x). Proof. rot64 rotr64_20 x 20%nat. Qed.
Lemma v64_rotr_21 x : v64 (rotr64_21 x) = rotl 64 43 (v64 x). Proof. rot64 rotr64_21 x 21%nat. Qed.
Lemma v64_rotr_23 x : v64 (rotr64_23 x) = rotl 64 41 (v64 x). Proof. rot64 rotr64_23 x 23%nat. Qed.
Lemma v64_rotr_25 x : v64 (rotr64_25 x) = rotl 64 39 (v64 x). Proof. rot64 rotr64_25 x 25%nat. Qed.
Lemma v64_rotr_28 x : v64 (rotr64_28 x) = rotl 64 36 (v64 x). Proof. rot64 rotr64_28 x 28%nat. Qed.
Lemma v64_rotr_36 x : v64 (rotr64_36 x) = rotl 64 28 (v64 x). Proof. rot64 rotr64_36 x 36%nat. Qed.
Lemma v64_rotr_37 x : v64 (rotr64_37 x) = rotl 64 27 (v64 x). Proof. rot64 rotr64_37 x 37%nat. Qed.
Lemma v64_rotr_39 x : v64 (rotr64_39 x) = rotl 64 25 (v64 x). Proof. rot64 rotr64_39 x 39%nat. Qed.
Lemma v64_rotr_43 x : v64 (rotr64_43 x) = rotl 64 21 (v64 x). Proof. rot64 rotr64_43 x 43%nat. Qed.
Lemma v64_rotr_44 x : v64 (rotr64_44 x) = rotl 64 20 (v64 x). Proof. rot64 rotr64_44 x 44%nat. Qed.
Lemma v64_rotr_46 x : v64 (rotr64_46 x) = rotl 64 18 (v64 x). Proof. rot64 rotr64_46 x 46%nat. Qed.
Lemma v64_rotr_49 x : v64 (rotr64_49 x) = rotl 64 15 (v64 x). Proof. rot64 rotr64_49 x 49%nat. Qed.
Lemma v64_rotr_50 x : v64 (rotr64_50 x) = rotl 64 14 (v64 x). Proof. rot64 rotr64_50 x 50%nat. Qed.
Lemma v64_rotr_54 x : v64 (rotr64_54 x) = rotl 64 10 (v64 x). Proof. rot64 rotr64_54 x 54%nat. Qed.
Lemma v64_rotr_56 x : v64 (rotr64_56 x) = rotl 64 8 (v64 x). Proof. rot64 rotr64_56 x 56%nat. Qed.
Lemma v64_rotr_58 x : v64 (rotr64_58 x) = rotl 64 6 (v64 x). Proof. rot64 rotr64_58 x 58%nat. Qed.
Lemma v64_rotr_61 x : v64 (rotr64_61 x) = rotl 64 3 (v64 x). Proof. rot64 rotr64_61 x 61%nat. Qed.
Lemma v64_rotr_62 x : v64 (rotr64_62 x) = rotl 64 2 (v64 x). Proof. rot64 rotr64_62 x 62%nat. Qed.
Lemma v64_rotr_63 x : v64 (rotr64_63 x) = rotl 64 1 (v64 x). Proof. rot64 rotr64_63 x 63%nat. Qed.

(** ** Bytes *)

Lemma nb_digits b : nb b = 16 * nv (nhi b) + nv (nlo b).
Proof. destruct b; reflexivity. Qed.
Lemma nb_nbyte a b : nb (nbyte a b) = 16 * nv a + nv b.
Proof. apply nib_tables. Qed.

Lemma v32_be a b c d : v32 (be32 a b c d) = be_value [a; b; c; d].
Proof. unfold be32, v32, be_value. cbn [fold_left]. rewrite !nb_digits. lia. Qed.
Lemma v64_le a b c d e f g h : v64 (le64 a b c d e f g h) = le_value [a; b; c; d; e; f; g; h].
Proof. unfold le64, v64, le_value, be_value. cbn [rev app fold_left]. rewrite !nb_digits. lia. Qed.
Lemma be_bytes32 x : be_value (bytes32 x) = v32 x.
Proof. destruct x. unfold bytes32, v32, be_value. cbn [fold_left]. rewrite !nb_nbyte. lia. Qed.
Lemma le_bytes64 x : le_value (bytes64 x) = v64 x.
Proof. destruct x. unfold bytes64, v64, le_value, be_value. cbn [rev app fold_left]. rewrite !nb_nbyte. lia. Qed.
