(** The generator has prime order n, and every point of the curve is a multiple of it. *)
From Coq Require Import Ring Field Znumtheory.
From Verif Require Import Base Secp Pocklington Fp CurveTower CurveFormulas CurveGroup CurveMul.
From stdpp Require Import numbers.
Local Open Scope Z_scope.

Global Opaque sorder.

Lemma smul_order_mul k : smul (k * order_nat) gpt = None.
Proof. rewrite smul_mul by apply okp_gpt. rewrite order_gpt. apply smul_None. Qed.

Lemma smul_mod k : smul (k mod order_nat) gpt = smul k gpt.
Proof.
  pose proof order_gt. assert (order_nat <> 0)%nat by (pose proof order_nat_Z; lia).
  rewrite (Nat.div_mod k order_nat) at 2 by assumption.
  rewrite smul_add, Nat.mul_comm, smul_order_mul, gadd_None_l; auto using okp_gpt, okp_smul.
Qed.

(** k G = O only for multiples of n *)
Lemma smul_gpt_None k : smul k gpt = None -> (sorder | Z.of_nat k).
Proof.
  intros E. pose proof order_gt. destruct (Zdivide_dec sorder (Z.of_nat k)) as [Hd|Hd]; [assumption|exfalso].
  pose proof (prime_rel_prime sorder order_prime _ Hd) as Hc. apply rel_prime_bezout in Hc as [u v Huv].
  (* u n + v k = 1; reduce v modulo n to a natural number *)
  set (w := Z.to_nat (v mod sorder)).
  assert (exists c, (w * k = 1 + c * order_nat)%nat) as [c Hc].
  { pose proof (Z.mod_pos_bound v sorder ltac:(lia)).
    assert (Z.of_nat w * Z.of_nat k = 1 + sorder * (- u - (v / sorder) * Z.of_nat k)) as E1.
    { unfold w. rewrite Z2Nat.id by lia. rewrite Z.mod_eq by lia. nia. }
    exists (Z.to_nat (- u - (v / sorder) * Z.of_nat k)).
    assert (0 <= - u - v / sorder * Z.of_nat k) by nia. pose proof order_nat_Z. nia. }
  assert (smul (w * k) gpt = None) as E1 by (rewrite smul_mul by apply okp_gpt; rewrite E; apply smul_None).
  assert (smul (1 + c * order_nat) gpt = gpt) as E2.
  { rewrite (smul_add gpt okp_gpt 1 (c * order_nat)), (smul_order_mul c), (smul_1 gpt okp_gpt).
    apply gadd_None_r, okp_gpt. }
  rewrite <- Hc, E1 in E2. discriminate.
Qed.

Lemma smul_gpt_inj a b : (a < order_nat)%nat -> (b < order_nat)%nat -> smul a gpt = smul b gpt -> a = b.
Proof.
  pose proof order_gt.
  assert (forall a b, (a <= b)%nat -> (b < order_nat)%nat -> smul a gpt = smul b gpt -> a = b) as Hw.
  { clear a b. intros a b Hle Hb E. replace b with (a + (b - a))%nat in E by lia.
    rewrite smul_add in E by apply okp_gpt.
    assert (smul (b - a) gpt = None) as E0.
    { apply (gadd_cancel (smul a gpt)); auto using okp_smul, okp_gpt; [exact I|].
      rewrite gadd_None_r by auto using okp_smul, okp_gpt. congruence. }
    apply smul_gpt_None in E0. destruct (Nat.eq_dec a b) as [|Hne]; [assumption|].
    apply Z.divide_pos_le in E0; pose proof order_nat_Z; lia. }
  intros Ha Hb E. destruct (Nat.le_ge_cases a b); [now apply Hw|symmetry; now apply Hw].
Qed.

(** ** Every point is a multiple of the generator *)

(** A curve point as an integer in [0, 2p]. *)
Definition enc (p : pt) : Z := match p with None => 2 * fp | Some (x, y) => 2 * fv x + fv y mod 2 end.
Lemma enc_range p : 0 <= enc p <= 2 * fp.
Proof.
  destruct p as [[x y]|]; cbn [enc].
  - pose proof (fv_range x). pose proof (Z.mod_pos_bound (fv y) 2 ltac:(lia)). lia.
  - pose proof fp_pos. lia.
Qed.
Lemma fv_opp y : y <> F0 -> fv (Fopp y) = fp - fv y.
Proof.
  intros Hy. pose proof (fv_range y). assert (fv y <> 0) by (rewrite fv_0; exact Hy).
  unfold Fopp. rewrite fv_toF. symmetry. apply Z.mod_unique_pos with (q := -1); lia.
Qed.
Lemma enc_inj p q : okp p -> okp q -> enc p = enc q -> p = q.
Proof.
  intros Hp Hq E. destruct p as [[x1 y1]|], q as [[x2 y2]|]; cbn [enc] in E.
  - pose proof (fv_range x1). pose proof (fv_range x2).
    pose proof (Z.mod_pos_bound (fv y1) 2 ltac:(lia)). pose proof (Z.mod_pos_bound (fv y2) 2 ltac:(lia)).
    assert (x1 = x2) as <- by (apply F_ext; lia). f_equal. f_equal.
    destruct (same_x x1 y1 y2 Hp Hq) as [->| ->]; [reflexivity|exfalso].
    pose proof (okp_y _ _ Hp) as Hy. rewrite (fv_opp y1 Hy) in E.
    destruct fp_order as (_ & _ & _ & Ho & _). rewrite Zodd_mod in Ho. apply Zeq_bool_eq in Ho.
    pose proof (Z.mod_eq fp 2 ltac:(lia)). pose proof (Z.mod_eq (fv y1) 2 ltac:(lia)).
    pose proof (Z.mod_eq (fp - fv y1) 2 ltac:(lia)). lia.
  - pose proof (fv_range x1). pose proof (Z.mod_pos_bound (fv y1) 2 ltac:(lia)). lia.
  - pose proof (fv_range x2). pose proof (Z.mod_pos_bound (fv y2) 2 ltac:(lia)). lia.
  - reflexivity.
Qed.

(** 2 R = O only for R = O *)
Lemma no_two_torsion r : okp r -> gadd r r = None -> r = None.
Proof.
  intros Hr E. destruct r as [[x y]|]; [exfalso|reflexivity].
  apply gneg_unique in E; [|assumption|assumption]. cbn in E. injection E as E.
  pose proof (okp_y _ _ Hr) as Hy. apply Hy.
  apply (Fmul_cancel (toF 2)); [apply toF_nz; vm_compute; reflexivity|].
  transitivity (Fadd y y); [ring|]. rewrite E at 2. ring.
Qed.

Lemma pigeonhole (f : Z -> Z) (a b : Z) : 0 <= b ->
  (forall i, 0 <= i < a -> 0 <= f i < b) ->
  (forall i j, 0 <= i < a -> 0 <= j < a -> f i = f j -> i = j) -> a <= b.
Proof.
  intros Hb Hr Hi. destruct (Z_le_dec a b) as [|Hlt]; [assumption|exfalso].
  assert (length (f <$> seqZ 0 a) <= length (seqZ 0 b))%nat as Hl.
  { apply submseteq_length, NoDup_submseteq.
    - apply NoDup_fmap_2_strong; [|apply NoDup_seqZ]. intros i j Hi1 Hj1.
      rewrite elem_of_seqZ in Hi1, Hj1. apply Hi; lia.
    - intros x Hx. apply elem_of_list_fmap in Hx as (i & -> & Hx). rewrite elem_of_seqZ in Hx |- *.
      specialize (Hr i). lia. }
  rewrite fmap_length, !seqZ_length in Hl. lia.
Qed.

Definition in_group (r : pt) : Prop := exists k, (k < order_nat)%nat /\ r = smul k gpt.

Lemma in_group_smul k : in_group (smul k gpt).
Proof.
  pose proof order_gt. exists (k mod order_nat)%nat. split.
  - apply Nat.mod_upper_bound. pose proof order_nat_Z. lia.
  - symmetry. apply smul_mod.
Qed.
Lemma in_group_neg r : in_group r -> in_group (gneg r).
Proof.
  intros (k & Hk & ->). pose proof order_gt. 
  assert (gneg (smul k gpt) = smul (order_nat - k) gpt) as ->.
  { symmetry. apply gneg_unique; auto using okp_smul, okp_gpt. rewrite <- smul_add by apply okp_gpt.
    replace (k + (order_nat - k))%nat with order_nat by lia. apply order_gpt. }
  apply in_group_smul.
Qed.
Lemma in_group_add r q : in_group r -> in_group q -> in_group (gadd r q).
Proof. intros (k & _ & ->) (j & _ & ->). rewrite <- smul_add by apply okp_gpt. apply in_group_smul. Qed.
(** halving: n is odd *)
Lemma in_group_half r : okp r -> in_group (gadd r r) -> in_group r.
Proof.
  intros Hr (k & Hk & E). destruct fp_order as (_ & _ & _ & _ & Ho).
  rewrite Zodd_mod in Ho. apply Zeq_bool_eq in Ho. pose proof order_gt.
  set (h := Z.to_nat ((sorder + 1) / 2)).
  assert (h + h = S order_nat)%nat as Hh.
  { unfold h. pose proof order_nat_Z. pose proof (Z.mod_eq sorder 2 ltac:(lia)). 
    replace (sorder + 1) with ((sorder / 2 + 1) * 2) by lia. rewrite Z.div_mul by lia.
    pose proof (Z.div_pos sorder 2 ltac:(lia) ltac:(lia)). lia. }
  set (q := smul (h * k) gpt).
  assert (okp q) as Hq by (apply okp_smul, okp_gpt).
  assert (gadd q q = gadd r r) as E2.
  { rewrite E. unfold q. rewrite <- smul_add by apply okp_gpt.
    replace (h * k + h * k)%nat with (k + k * order_nat)%nat by nia.
    rewrite smul_add, smul_order_mul, gadd_None_r; auto using okp_smul, okp_gpt. }
  assert (gadd r (gneg q) = None) as E3.
  { apply no_two_torsion; [auto using okp_gadd, okp_gneg|].
    assert (gadd (gadd r (gneg q)) (gadd r (gneg q)) = gadd (gadd r r) (gadd (gneg q) (gneg q))) as ->.
    { rewrite !gadd_assoc; auto using okp_gadd, okp_gneg. f_equal. rewrite <- !gadd_assoc; auto using okp_gadd, okp_gneg.
      f_equal. apply gadd_comm. }
    rewrite <- E2. rewrite gadd_assoc, <- (gadd_assoc q (gneg q)), gadd_gneg, gadd_None_l, gadd_gneg;
      auto using okp_gadd, okp_gneg. }
  apply gneg_unique in E3; auto using okp_gneg. rewrite <- (gneg_gneg r), <- E3, gneg_gneg.
  unfold q. apply in_group_smul.
Qed.

Lemma in_group_dec r : okp r -> ~ ~ in_group r -> in_group r.
Proof.
  intros Hr Hn. assert (forall n, (exists k, (k < n)%nat /\ r = smul k gpt) \/ ~ exists k, (k < n)%nat /\ r = smul k gpt) as Hd.
  { induction n as [|n [IH|IH]].
    - right. intros (k & Hk & _). lia.
    - left. destruct IH as (k & Hk & E). exists k. split; [lia|assumption].
    - destruct (decide (r = smul n gpt)) as [E|E]; [left; exists n; split; [lia|assumption]|right].
      intros (k & Hk & Ek). destruct (Nat.eq_dec k n) as [->|]; [contradiction|]. apply IH. exists k. split; [lia|assumption]. }
  destruct (Hd order_nat) as [H|H]; [exact H|contradiction].
Qed.

Theorem whole_group r : okp r -> in_group r.
Proof.
  intros Hr. apply in_group_dec; [assumption|]. intros Hn.
  pose proof order_gt. destruct fp_order as (_ & _ & Hc & _).
  set (f := fun i : Z => enc (if i <? sorder then smul (Z.to_nat i) gpt
                     else if i <? 2 * sorder then gadd r (smul (Z.to_nat (i - sorder)) gpt)
                     else gadd (gneg r) (smul (Z.to_nat (i - 2 * sorder)) gpt))).
  assert (3 * sorder <= 2 * fp + 1) as Hle; [|lia].
  assert (forall k, okp (smul k gpt)) as Hk by (intros; apply okp_smul, okp_gpt).
  assert (okp (gneg r)) as Hr' by now apply okp_gneg.
  (* no point is in two of the cosets *)
  assert (forall a b, gadd r (smul a gpt) <> smul b gpt) as N1.
  { intros a b E. apply Hn. replace r with (gadd (smul b gpt) (gneg (smul a gpt))).
    - apply in_group_add; [apply in_group_smul|apply in_group_neg, in_group_smul].
    - rewrite <- E, gadd_assoc, gadd_gneg, gadd_None_r; auto using okp_gneg. }
  assert (forall a b, gadd (gneg r) (smul a gpt) <> smul b gpt) as N2.
  { intros a b E. apply Hn. rewrite <- (gneg_gneg r). apply in_group_neg.
    replace (gneg r) with (gadd (smul b gpt) (gneg (smul a gpt))).
    - apply in_group_add; [apply in_group_smul|apply in_group_neg, in_group_smul].
    - rewrite <- E, gadd_assoc, gadd_gneg, gadd_None_r; auto using okp_gneg. }
  assert (forall a b, gadd r (smul a gpt) <> gadd (gneg r) (smul b gpt)) as N3.
  { intros a b E. apply Hn. apply in_group_half; [assumption|].
    replace (gadd r r) with (gadd (smul b gpt) (gneg (smul a gpt))).
    - apply in_group_add; [apply in_group_smul|apply in_group_neg, in_group_smul].
    - assert (smul b gpt = gadd r (gadd r (smul a gpt))) as ->.
      { rewrite E, <- gadd_assoc, gadd_gneg, gadd_None_l; auto. }
      rewrite !gadd_assoc, gadd_gneg, gadd_None_r; auto using okp_gneg, okp_gadd. }
  apply (pigeonhole f).
  - pose proof fp_pos. lia.
  - intros i _. pose proof (enc_range (if i <? sorder then smul (Z.to_nat i) gpt
                     else if i <? 2 * sorder then gadd r (smul (Z.to_nat (i - sorder)) gpt)
                     else gadd (gneg r) (smul (Z.to_nat (i - 2 * sorder)) gpt))). unfold f. lia.
  - intros i j Hi Hj E. unfold f in E. apply enc_inj in E.
    + destruct (Z.ltb_spec i sorder), (Z.ltb_spec j sorder).
      1:{ apply smul_gpt_inj in E; pose proof order_nat_Z; lia. }
      1:{ exfalso. destruct (j <? 2 * sorder); symmetry in E; [now apply N1 in E|now apply N2 in E]. }
      1:{ exfalso. destruct (i <? 2 * sorder); [now apply N1 in E|now apply N2 in E]. }
      destruct (Z.ltb_spec i (2 * sorder)), (Z.ltb_spec j (2 * sorder)).
      * apply gadd_cancel in E; auto. apply smul_gpt_inj in E; pose proof order_nat_Z; lia.
      * exfalso. now apply N3 in E.
      * exfalso. symmetry in E. now apply N3 in E.
      * apply gadd_cancel in E; auto. apply smul_gpt_inj in E; pose proof order_nat_Z; lia.
    + destruct (i <? sorder), (i <? 2 * sorder); auto using okp_gadd.
    + destruct (j <? sorder), (j <? 2 * sorder); auto using okp_gadd.
Qed.

(** Integer multiples, modulo n *)
Definition zmul (k : Z) (p : pt) : pt := smul (Z.to_nat (k mod sorder)) p.

Lemma order_any p : okp p -> smul order_nat p = None.
Proof.
  intros Hp. destruct (whole_group p Hp) as (k & _ & ->).
  rewrite <- smul_mul by apply okp_gpt. rewrite Nat.mul_comm. apply smul_order_mul.
Qed.
Lemma smul_zmul p k : okp p -> smul k p = zmul (Z.of_nat k) p.
Proof.
  intros Hp. unfold zmul. pose proof order_gt. pose proof (Z.mod_pos_bound (Z.of_nat k) sorder ltac:(lia)).
  pose proof (Z.div_pos (Z.of_nat k) sorder ltac:(lia) ltac:(lia)).
  replace k with (Z.to_nat (Z.of_nat k mod sorder) + Z.to_nat (Z.of_nat k / sorder) * order_nat)%nat at 1.
  - rewrite smul_add, smul_mul, order_any, smul_None, gadd_None_r; auto using okp_smul.
  - replace order_nat with (Z.to_nat sorder) by (rewrite <- order_nat_Z; apply Nat2Z.id). rewrite <- Z2Nat.inj_mul, <- Z2Nat.inj_add by nia.
    rewrite <- (Nat2Z.id k) at 3. f_equal. rewrite (Z.div_mod (Z.of_nat k) sorder) at 3 by lia. lia.
Qed.
Lemma zmul_congr p a b : a mod sorder = b mod sorder -> zmul a p = zmul b p.
Proof. unfold zmul. now intros ->. Qed.
Lemma okp_zmul k p : okp p -> okp (zmul k p).
Proof. apply okp_smul. Qed.
Lemma zmul_add p a b : okp p -> zmul (a + b) p = gadd (zmul a p) (zmul b p).
Proof.
  intros Hp. pose proof order_gt. unfold zmul at 2 3. rewrite <- smul_add, smul_zmul by assumption.
  pose proof (Z.mod_pos_bound a sorder ltac:(lia)). pose proof (Z.mod_pos_bound b sorder ltac:(lia)).
  apply zmul_congr. rewrite Nat2Z.inj_add, !Z2Nat.id by lia. now rewrite <- Z.add_mod by lia.
Qed.
Lemma zmul_mul p a b : okp p -> zmul (a * b) p = zmul a (zmul b p).
Proof.
  intros Hp. pose proof order_gt. unfold zmul at 2 3. rewrite <- smul_mul, smul_zmul by assumption.
  pose proof (Z.mod_pos_bound a sorder ltac:(lia)). pose proof (Z.mod_pos_bound b sorder ltac:(lia)).
  apply zmul_congr. rewrite Nat2Z.inj_mul, !Z2Nat.id by lia. now rewrite <- Z.mul_mod by lia.
Qed.
Lemma zmul_0 p : zmul 0 p = None.
Proof. unfold zmul. now rewrite Z.mod_0_l by (pose proof order_gt; lia). Qed.
Lemma zmul_1 p : okp p -> zmul 1 p = p.
Proof. intros Hp. unfold zmul. rewrite Z.mod_small by (pose proof order_gt; lia). now apply smul_1. Qed.
Lemma zmul_opp p k : okp p -> zmul (- k) p = gneg (zmul k p).
Proof.
  intros Hp. apply gneg_unique; auto using okp_zmul. rewrite <- zmul_add by assumption.
  rewrite Z.add_opp_diag_r. apply zmul_0.
Qed.
Lemma zmul_gadd p q k : okp p -> okp q -> zmul k (gadd p q) = gadd (zmul k p) (zmul k q).
Proof. intros. unfold zmul. now apply smul_gadd. Qed.
Lemma zmul_gpt_inj a b : zmul a gpt = zmul b gpt -> a mod sorder = b mod sorder.
Proof.
  intros E. unfold zmul in E. pose proof order_gt.
  pose proof (Z.mod_pos_bound a sorder ltac:(lia)). pose proof (Z.mod_pos_bound b sorder ltac:(lia)).
  apply smul_gpt_inj in E; pose proof order_nat_Z; lia.
Qed.
Lemma zmul_surj p : okp p -> exists k, 0 <= k < sorder /\ p = zmul k gpt.
Proof.
  intros Hp. destruct (whole_group p Hp) as (k & Hk & E). pose proof order_gt. pose proof order_nat_Z.
  exists (Z.of_nat k). split; [lia|]. rewrite E. apply smul_zmul, okp_gpt.
Qed.
