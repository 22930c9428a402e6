(** The model of k256 recovers exactly the signatures that ECDSA signing makes. *)
From Coq Require Import Ring Field Znumtheory Zpow_facts ZifyBool.
From Verif Require Import Base Secp SpecEcdsa Pocklington PrimeCerts Fp CurveTower CurveFormulas CurveGroup CurveMul CurveOrder EcdsaProofs.
Local Open Scope Z_scope.

(** ** Scalars modulo the order *)

Lemma s_inv_range a : 0 <= s_inv a < sorder.
Proof.
  pose proof order_gt. unfold s_inv. rewrite powm_spec by lia. apply Z.mod_pos_bound. lia.
Qed.
Lemma s_inv_spec a : 0 < a < sorder -> exists c, a * s_inv a = 1 + c * sorder.
Proof.
  intros Ha. pose proof order_gt. pose proof (fermat sorder a order_prime) as Hf.
  rewrite Z.mod_small in Hf by lia. specialize (Hf ltac:(lia)).
  unfold s_inv. rewrite powm_spec by lia.
  assert ((a * (a ^ (sorder - 2) mod sorder)) mod sorder = 1 mod sorder) as E.
  { rewrite Z.mul_mod_idemp_r by lia. rewrite (Z.mod_small 1) by lia. rewrite <- Hf.
    replace (sorder - 1) with (Z.succ (sorder - 2)) by lia. rewrite Z.pow_succ_r by lia. reflexivity. }
  exists ((a * (a ^ (sorder - 2) mod sorder)) / sorder).
  rewrite (Z.div_mod (a * _) sorder) at 1 by lia. rewrite E, (Z.mod_small 1) by lia. lia.
Qed.
Lemma mod_ex a : exists c, a mod sorder = a + c * sorder.
Proof. exists (- (a / sorder)). pose proof order_gt. rewrite Z.mod_eq by lia. ring. Qed.
Lemma ex_mod a b c : a = b + c * sorder -> a mod sorder = b mod sorder.
Proof. intros ->. apply Z.mod_add. pose proof order_gt. lia. Qed.
Lemma cancel_n c a b : 0 < c < sorder -> (c * a) mod sorder = (c * b) mod sorder -> a mod sorder = b mod sorder.
Proof.
  intros Hc E. pose proof order_gt. destruct (s_inv_spec c Hc) as [e He].
  assert (forall t, t mod sorder = ((s_inv c) * (c * t)) mod sorder) as Ht.
  { intros t. replace (s_inv c * (c * t)) with (t + (e * t) * sorder).
    - now rewrite Z.mod_add by lia.
    - transitivity ((c * s_inv c) * t); [rewrite He|]; ring. }
  rewrite (Ht a), (Ht b). rewrite <- Z.mul_mod_idemp_r, E, Z.mul_mod_idemp_r by lia. reflexivity.
Qed.

(** ** Linear combinations, affine coordinates *)

Lemma prep_affine x y : red x -> red y -> prep (mkProj x y 1) (Some (toF x, toF y)).
Proof.
  intros Hx Hy. split; [assumption|]. split; [assumption|]. split.
  - unfold red. pose proof fp_order. pose proof order_gt. cbn [pz]. lia.
  - apply (rep_pj (Some (toF x, toF y))).
Qed.
Lemma lincomb_affine P p k Q q l : okp p -> okp q -> prep P p -> prep Q q ->
  0 <= k < sorder -> 0 <= l < sorder ->
  to_affine (lincomb P k Q l) = zpt (gadd (zmul k p) (zmul l q)).
Proof.
  intros Hp Hq HP HQ Hk Hl. apply to_affine_prep. unfold lincomb, zmul. rewrite !Z.mod_small by assumption.
  apply pp_add_prep; auto using okp_smul; apply pp_mul_prep; auto; lia.
Qed.
Lemma zpt_undn p x y : zpt p = Some (x, y) <-> undn p = Aff x y.
Proof. destruct p as [[a b]|]; cbn [zpt undn]; split; congruence. Qed.
Lemma red_fv a : red (fv a).
Proof. apply fv_range. Qed.

(** ** Square roots *)

Lemma odd_neg y : red y -> y <> 0 -> f_neg y = fp - y /\ Z.odd (f_neg y) = negb (Z.odd y).
Proof.
  intros Hy Hn. unfold red in Hy. destruct fp_order as (_ & _ & _ & Ho & _).
  assert (f_neg y = fp - y) as ->.
  { unfold f_neg. symmetry. apply Z.mod_unique_pos with (q := -1); lia. }
  split; [reflexivity|]. rewrite Z.odd_sub, Ho. now destruct (Z.odd y).
Qed.
Lemma f_sqrt_some a b : f_sqrt a = Some b -> red b /\ (toF b * toF b = toF a)%F.
Proof.
  unfold f_sqrt. set (c := powm a _ _). intros H. destruct (f_mul c c =? a) eqn:E; [|discriminate].
  assert (c = b) as <- by congruence. clear H. unfold c in *. clear c.
  pose proof fp_pos. split.
  - rewrite powm_spec; [apply red_mod| |lia]. apply Z.div_pos; lia.
  - apply Z.eqb_eq in E. rewrite <- toF_f_mul. now rewrite E.
Qed.
Lemma f_sqrt_total a y : red a -> red y -> y <> 0 -> (toF y * toF y = toF a)%F -> exists b, f_sqrt a = Some b.
Proof.
  intros Ha Hy Hn E. pose proof fp_pos. unfold f_sqrt. rewrite powm_spec; [|apply Z.div_pos; lia|lia].
  set (e := (fp + 1) / 4). assert (4 * e = fp + 1) as He by (vm_compute; reflexivity).
  rewrite (proj2 (Z.eqb_eq _ _)); [eauto|].
  apply toF_red_inj; [apply red_mod|assumption|]. rewrite toF_f_mul, toF_mod, <- E.
  assert (toF (a ^ e) = toF ((y * y) ^ e)) as ->.
  { apply toF_pow; [lia|]. now rewrite toF_mul. }
  rewrite <- !toF_mul. apply toF_eq.
  replace ((y * y) ^ e * (y * y) ^ e) with (y * y * y ^ (fp - 1)).
  - rewrite <- Z.mul_mod_idemp_r, fermat, Z.mul_1_r; [reflexivity| | |lia].
    + apply secp_p_prime.
    + unfold red in Hy. rewrite Z.mod_small by lia. assumption.
  - rewrite <- Z.pow_mul_l. replace (y * y * (y * y)) with (y ^ 4) by ring.
    rewrite <- Z.pow_mul_r by lia. rewrite He. replace (fp + 1) with ((fp - 1) + 2) by ring.
    rewrite Z.pow_add_r by lia. ring.
Qed.

Lemma decompress_spec x b x' y : 0 <= x ->
  decompress x b = Some (x', y) <-> x' = x /\ red x /\ red y /\ okp (Some (toF x, toF y)) /\ Z.odd y = b.
Proof.
  intros Hx. pose proof fp_pos. unfold decompress.
  set (a := f_add (f_mul (f_mul x x) x) 7).
  assert (red a) as Ra by apply red_mod.
  assert (toF a = toF x * toF x * toF x + toF 7)%F as Ea.
  { unfold a. now rewrite toF_f_add, !toF_f_mul. }
  destruct (Z.leb_spec fp x) as [Hle|Hlt].
  { split; [discriminate|]. unfold red. intros. lia. }
  split.
  - intros E. destruct (f_sqrt a) as [beta|] eqn:Es; [|discriminate]. injection E as <- <-.
    apply f_sqrt_some in Es as [Rb Eb].
    assert (okp (Some (toF x, toF beta))) as Hb by (cbn [okp]; congruence).
    pose proof (okp_y _ _ Hb) as Hnz. assert (beta <> 0) as Hn by (intros ->; now apply Hnz).
    destruct (odd_neg beta Rb Hn) as [_ Ho].
    split; [reflexivity|]. split; [unfold red; lia|].
    destruct (eqb (Z.odd beta) b) eqn:Eo.
    + split; [assumption|]. split; [assumption|]. now apply eqb_prop.
    + split; [apply red_mod|]. split.
      * rewrite toF_f_neg. exact (okp_gneg _ Hb).
      * rewrite Ho. destruct (Z.odd beta), b; cbn in Eo |- *; congruence.
  - intros (-> & Rx & Ry & Hok & Ho). pose proof (okp_y _ _ Hok) as Hnz.
    assert (y <> 0) as Hn by (intros ->; now apply Hnz).
    destruct (f_sqrt_total a y Ra Ry Hn) as [beta Es].
    { rewrite Ea. exact Hok. }
    rewrite Es. apply f_sqrt_some in Es as [Rb Eb].
    assert (okp (Some (toF x, toF beta))) as Hb by (cbn [okp]; congruence).
    do 2 f_equal. destruct (same_x _ _ _ Hok Hb) as [E|E].
    + apply toF_red_inj in E as ->; [|assumption|assumption]. rewrite Ho. now rewrite eqb_reflx.
    + rewrite <- toF_f_neg in E. apply toF_red_inj in E as ->; [|assumption|apply red_mod].
      destruct (odd_neg y Ry Hn) as [Ey Eo]. rewrite Eo, <- Ho.
      replace (eqb (negb (Z.odd y)) (Z.odd y)) with false by now destruct (Z.odd y).
      destruct (odd_neg (f_neg y)) as [-> _]; [apply red_mod| |]; unfold red in Ry; lia.
Qed.

(** ** Recovery *)

Definition xcand (r : Z) (v : N) : Z := r + (if N.testbit v 1 then sorder else 0).

Lemma recover_key_unfold z r s v : 0 < r ->
  recover_key z r s v =
  match decompress (xcand r v) (N.testbit v 0) with
  | None => None
  | Some R =>
      let i := s_inv r in
      let u1 := (- ((i * z) mod sorder)) mod sorder in
      let u2 := (i * s) mod sorder in
      match to_affine (lincomb pp_generator u1 (mkProj (fst R) (snd R) 1) u2) with
      | None => None
      | Some Q => if verify_prehashed Q z r s then Some Q else None
      end
  end.
Proof.
  intros Hr. unfold recover_key, xcand. destruct (N.testbit v 1).
  - destruct (Z.ltb_spec (r + sorder) (2 ^ 256)) as [H|H]; [reflexivity|].
    unfold decompress. assert (fp < 2 ^ 256) by (vm_compute; reflexivity).
    rewrite (proj2 (Z.leb_le _ _)) by lia. reflexivity.
  - now rewrite Z.add_0_r.
Qed.

Lemma v_bits v : (v < 4)%N -> v = ((if N.testbit v 0 then 1 else 0) + (if N.testbit v 1 then 2 else 0))%N.
Proof.
  intros H. assert (v = 0 \/ v = 1 \/ v = 2 \/ v = 3)%N as Hc by lia.
  destruct Hc as [->|Hc]; [reflexivity|]. destruct Hc as [->|Hc]; [reflexivity|].
  destruct Hc as [->|Hc]; [reflexivity|]. now subst v.
Qed.
Lemma bits_v (b0 b1 : bool) : let v := ((if b0 then 1 else 0) + (if b1 then 2 else 0))%N in
  (v < 4)%N /\ N.testbit v 0 = b0 /\ N.testbit v 1 = b1.
Proof. destruct b0, b1; cbn; repeat split; lia. Qed.

(** The point the recovery computes from R = k G, times r. *)
Lemma recovered_scalar z r s k : 0 < r < sorder ->
  let i := s_inv r in
  (r * ((- ((i * z) mod sorder)) mod sorder + (i * s) mod sorder * k)) mod sorder = (s * k - z) mod sorder.
Proof.
  intros Hr i. destruct (s_inv_spec r Hr) as [c Hc]. fold i in Hc.
  destruct (mod_ex (i * z)) as [c1 ->]. destruct (mod_ex (- (i * z + c1 * sorder))) as [c2 ->].
  destruct (mod_ex (i * s)) as [c3 ->].
  apply (ex_mod _ _ (- c * z - r * c1 + r * c2 + c * s * k + r * c3 * k)).
  transitivity (- (r * i) * z - r * c1 * sorder + r * c2 * sorder + (r * i) * s * k + r * c3 * sorder * k); [ring|].
  rewrite Hc. ring.
Qed.
Lemma verified_scalar z r s d k : 0 < s < sorder -> (k * s) mod sorder = (z + r * d) mod sorder ->
  let i := s_inv s in
  ((z * i) mod sorder + (r * i) mod sorder * d) mod sorder = k mod sorder.
Proof.
  intros Hs E i. destruct (s_inv_spec s Hs) as [c Hc]. fold i in Hc.
  apply (cancel_n s); [assumption|]. rewrite (Z.mul_comm s k), E.
  destruct (mod_ex (z * i)) as [c1 ->]. destruct (mod_ex (r * i)) as [c2 ->].
  apply (ex_mod _ _ (c * z + s * c1 + c * r * d + s * c2 * d)).
  transitivity ((s * i) * z + s * c1 * sorder + (s * i) * r * d + s * c2 * sorder * d); [ring|].
  rewrite Hc. ring.
Qed.

Lemma is_high_spec s : is_high s = false <-> 2 * s < sorder.
Proof.
  unfold is_high. destruct fp_order as (_ & _ & _ & _ & Ho). apply Z.odd_spec in Ho as [h Hh].
  assert (sorder / 2 = h) as ->. { rewrite Hh. symmetry. apply (Z.div_unique_pos _ 2 h 1); lia. }
  destruct (Z.ltb_spec h s); split; intros; try discriminate; try reflexivity; lia.
Qed.

Lemma zmul_nonzero k x y : zmul k gpt = Some (x, y) -> k mod sorder <> 0.
Proof.
  intros E H. assert (zmul k gpt = None) as E'; [|congruence].
  rewrite <- (zmul_0 gpt). apply zmul_congr. rewrite H. symmetry. apply Z.mod_0_l. pose proof order_gt. lia.
Qed.

Theorem recover_key_sound z r s v qx qy : 0 < r < sorder -> 0 < s < sorder -> (v < 4)%N ->
  recover_key (z mod sorder) r s v = Some (qx, qy) ->
  exists d k, key_pair d (Aff qx qy) /\ eth_sign d k z r s v.
Proof.
  intros Hr Hs Hv H. pose proof order_gt. rewrite recover_key_unfold in H by lia.
  destruct (decompress _ _) as [[x y]|] eqn:Ed; [|discriminate].
  apply decompress_spec in Ed as (-> & Rx & Ry & Hok & Hodd).
  2:{ unfold xcand. destruct (N.testbit v 1); lia. }
  cbn [fst snd] in H. set (x := xcand r v) in *.
  set (i := s_inv r) in *.
  set (u1 := (- ((i * (z mod sorder)) mod sorder)) mod sorder) in *.
  set (u2 := (i * s) mod sorder) in *.
  destruct (zmul_surj _ Hok) as (k & Hk & Ek).
  assert (0 < k) as Hk0.
  { destruct (Z.eq_dec k 0) as [->|]; [|lia]. rewrite zmul_0 in Ek. discriminate. }
  cbv zeta in H.
  rewrite (lincomb_affine pp_generator gpt u1 (mkProj x y 1) (Some (toF x, toF y)) u2 okp_gpt Hok prep_generator
             (prep_affine x y Rx Ry)) in H; [|apply Z.mod_pos_bound; lia|apply Z.mod_pos_bound; lia].
  rewrite Ek, <- zmul_mul, <- zmul_add in H by apply okp_gpt.
  set (w := u1 + u2 * k) in *.
  destruct (zpt (zmul w gpt)) as [[x' y']|] eqn:EQ; [|discriminate].
  destruct (verify_prehashed (x', y') (z mod sorder) r s) eqn:Ev; [|discriminate]. injection H as -> ->.
  apply zpt_undn in EQ.
  assert (is_high s = false) as Hh.
  { unfold verify_prehashed in Ev. destruct (is_high s); [discriminate|reflexivity]. }
  apply is_high_spec in Hh.
  pose proof (Z.mod_pos_bound w sorder ltac:(lia)) as Hw.
  assert (okp (zmul w gpt)) as HokQ by apply okp_zmul, okp_gpt.
  assert (on_curve (Aff qx qy)) as HQ. { rewrite <- EQ. now apply okp_on_curve. }
  assert (den (Aff qx qy) = zmul w gpt) as HdQ. { rewrite <- EQ. apply den_undn. }
  assert (w mod sorder <> 0) as Hw0. { eapply zmul_nonzero. symmetry. exact HdQ. }
  exists (w mod sorder), k. split.
  { split; [rewrite secp_n_order; lia|]. apply multiple_G. split; [lia|]. split; [assumption|].
    rewrite HdQ. apply zmul_congr. symmetry. apply Z.mod_mod. lia. }
  exists s, x, y. rewrite secp_n_order. split.
  { assert (on_curve (Aff x y)) as HR.
    { apply okp_on_curve in Hok. cbn [undn] in Hok. now rewrite !fv_toF_red in Hok. }
    split; [rewrite secp_n_order; lia|]. split; [apply multiple_G; split; [lia|]; split; [assumption|exact Ek]|].
    rewrite secp_n_order. split; [assumption|]. split.
    { apply congr_n. unfold x, xcand. destruct (N.testbit v 1); [|now rewrite Z.add_0_r].
      symmetry. apply (ex_mod _ _ 1). ring. }
    split; [assumption|]. apply congr_n.
    pose proof (recovered_scalar (z mod sorder) r s k Hr) as Es. cbv zeta in Es. fold i u1 u2 w in Es.
    rewrite Z.mul_comm. symmetry.
    rewrite Z.add_mod, Z.mul_mod_idemp_r, Es by lia.
    rewrite <- (Z.add_mod z) by lia. rewrite <- (Z.add_mod_idemp_l z) by lia. f_equal. ring. }
  split; [assumption|]. split; [now left|].
  rewrite Z.eqb_refl, Hodd. cbn [negb]. rewrite Bool.xorb_false_r.
  replace (sorder <=? x) with (N.testbit v 1); [now apply v_bits|].
  unfold x, xcand. destruct (N.testbit v 1); symmetry; [apply Z.leb_le|apply Z.leb_gt]; lia.
Qed.

Lemma eth_sign_v d k z r s v : eth_sign d k z r s v -> (v < 4)%N.
Proof. intros (s0 & xR & yR & _ & _ & _ & ->). apply (bits_v (xorb _ _) (secp_n <=? xR)). Qed.

(** A wallet's signature, seen as a plain ECDSA signature with the nonce whose point has the parity of [v]. *)
Lemma eth_sign_plain d k z r s v : eth_sign d k z r s v ->
  exists k' xR yR, 0 < k' < sorder /\ xR = xcand r v /\ red xR /\ red yR /\ Some (toF xR, toF yR) = zmul k' gpt /\
    Z.odd yR = N.testbit v 0 /\ 0 < r < sorder /\ 0 < s < sorder /\ 2 * s < sorder /\
    (k' * s) mod sorder = (z + r * d) mod sorder.
Proof.
  intros (s0 & xR & yR & (Hk & HR & Hr & Hrx & Hs0 & Hs) & Hlow & Hor & Hv). rewrite secp_n_order in *.
  pose proof order_gt. apply multiple_G in HR as (_ & HR & ER). apply congr_n in Hrx, Hs.
  pose proof (on_curve_okp _ HR) as OR. destruct HR as (RX & RY & _). apply in_field_red1 in RX, RY.
  destruct (bits_v (xorb (Z.odd yR) (negb (s =? s0))) (sorder <=? xR)) as (Hv4 & Hb0 & Hb1). rewrite <- Hv in Hv4, Hb0, Hb1.
  assert (xR = xcand r v) as Hx.
  { unfold xcand. rewrite Hb1. destruct fp_order as (Hf & _). unfold red in RX.
    rewrite (Z.mod_small r) in Hrx by lia.
    destruct (Z.leb_spec sorder xR).
    - rewrite Hrx. rewrite (Zmod_eq_full xR) by lia. replace (xR / sorder) with 1; [ring|].
      apply (Z.div_unique_pos _ _ 1 (xR - sorder)); [lia|ring].
    - rewrite Z.mod_small in Hrx by lia. lia. }
  destruct (Z.eqb_spec s s0) as [->|Hne].
  - exists k, xR, yR. rewrite Hb0. cbn [negb]. rewrite Bool.xorb_false_r. repeat (split; [assumption || reflexivity|]). assumption.
  - destruct Hor as [->|Es]; [congruence|].
    pose proof (okp_y _ _ OR) as Hnz. assert (yR <> 0) as Hn by (intros ->; now apply Hnz).
    destruct (odd_neg yR RY Hn) as [_ Ho].
    exists (sorder - k), xR, (f_neg yR). split; [lia|]. split; [assumption|]. split; [assumption|].
    split; [apply red_mod|]. split.
    { rewrite toF_f_neg. change (gneg (den (Aff xR yR)) = zmul (sorder - k) gpt). rewrite ER, <- zmul_opp by apply okp_gpt.
      apply zmul_congr. symmetry. apply (ex_mod _ _ 1). ring. }
    split. { rewrite Ho, Hb0. cbn [negb]. now destruct (Z.odd yR). }
    split; [assumption|]. split; [lia|]. split; [assumption|].
    rewrite <- Hs, Es. apply (ex_mod _ _ (sorder - k - s0)). ring.
Qed.

Theorem recover_key_complete z r s v qx qy d k : key_pair d (Aff qx qy) -> eth_sign d k z r s v ->
  recover_key (z mod sorder) r s v = Some (qx, qy).
Proof.
  intros [Hd HQ] Hsig. rewrite secp_n_order in Hd. pose proof order_gt.
  apply multiple_G in HQ as (_ & HQ & EQ). pose proof (on_curve_okp _ HQ) as OQ.
  pose proof HQ as (RQx & RQy & _). apply in_field_red1 in RQx, RQy.
  apply eth_sign_plain in Hsig as (k' & xR & yR & Hk & Hx & Rx & Ry & ER & Hodd & Hr & Hs & Hlow & Es).
  rewrite recover_key_unfold by lia.
  assert (okp (Some (toF xR, toF yR))) as OR by (rewrite ER; apply okp_zmul, okp_gpt).
  rewrite (proj2 (decompress_spec (xcand r v) (N.testbit v 0) xR yR ltac:(unfold xcand; destruct (N.testbit v 1); lia))).
  2:{ rewrite <- Hx. repeat (split; [assumption || reflexivity|]). assumption. }
  cbn [fst snd]. cbv zeta. set (i := s_inv r) in *.
  set (u1 := (- ((i * (z mod sorder)) mod sorder)) mod sorder) in *.
  set (u2 := (i * s) mod sorder) in *.
  rewrite (lincomb_affine pp_generator gpt u1 (mkProj xR yR 1) (Some (toF xR, toF yR)) u2 okp_gpt OR prep_generator
             (prep_affine xR yR Rx Ry)); [|apply Z.mod_pos_bound; lia|apply Z.mod_pos_bound; lia].
  rewrite ER, <- zmul_mul, <- zmul_add by apply okp_gpt.
  assert (zmul (u1 + u2 * k') gpt = zmul d gpt) as ->.
  { apply zmul_congr. apply (cancel_n r _ _ Hr).
    pose proof (recovered_scalar (z mod sorder) r s k' Hr) as E. cbv zeta in E. fold i u1 u2 in E. rewrite E.
    rewrite Zminus_mod_idemp_r, Zminus_mod, (Z.mul_comm s), Es, <- Zminus_mod. f_equal. ring. }
  rewrite <- EQ. cbn [den zpt]. rewrite !fv_toF_red by assumption.
  enough (verify_prehashed (qx, qy) (z mod sorder) r s = true) as -> by reflexivity.
  unfold verify_prehashed. rewrite (proj2 (is_high_spec s) Hlow). cbv zeta. cbn [fst snd].
  set (j := s_inv s). set (w1 := (z mod sorder * j) mod sorder). set (w2 := (r * j) mod sorder).
  cbn [den] in EQ, OQ.
  rewrite (lincomb_affine pp_generator gpt w1 (mkProj qx qy 1) (Some (toF qx, toF qy)) w2 okp_gpt OQ prep_generator
             (prep_affine qx qy RQx RQy)); [|apply Z.mod_pos_bound; lia|apply Z.mod_pos_bound; lia].
  rewrite EQ, <- zmul_mul, <- zmul_add by apply okp_gpt.
  assert (zmul (w1 + w2 * d) gpt = zmul k' gpt) as ->.
  { apply zmul_congr. unfold w1, w2, j. apply verified_scalar; [assumption|].
    rewrite Es. now rewrite Z.add_mod_idemp_l by lia. }
  rewrite <- ER. cbn [zpt]. rewrite fv_toF_red by assumption. apply Z.eqb_eq. rewrite Hx. unfold xcand.
  destruct (N.testbit v 1).
  - symmetry. rewrite <- (Z.mod_small r sorder) at 2 by lia. apply (ex_mod _ _ 1). ring.
  - rewrite Z.add_0_r. symmetry. apply Z.mod_small. lia.
Qed.
