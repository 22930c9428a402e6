(** Recovery on byte strings; consequences for signatures as texts. *)
From Coq Require Import Znumtheory Zpow_facts ZifyBool ZifyN ZifyNat.
From Verif Require Import Base BaseLemmas Deps SpecEth EthProofs SpecTrace LoginProofs
  Secp SpecEcdsa Pocklington Fp CurveFormulas CurveGroup CurveMul CurveOrder EcdsaProofs EcdsaRecover PointCerts.
Local Open Scope Z_scope.

(** ** Big-endian integers *)

Lemma os2ip_range l : 0 <= os2ip l < 256 ^ Z.of_nat (length l).
Proof.
  induction l as [|b l IH]; [cbn; lia|]. cbn [os2ip length].
  pose proof (nb_lt b). rewrite Nat2Z.inj_succ, Z.pow_succ_r by lia. nia.
Qed.
Lemma os2ip_inj l1 l2 : length l1 = length l2 -> os2ip l1 = os2ip l2 -> l1 = l2.
Proof.
  revert l2. induction l1 as [|a l1 IH]; intros [|b l2] L E; try discriminate; [reflexivity|].
  injection L as L. cbn [os2ip] in E. rewrite L in E.
  pose proof (os2ip_range l1) as R1. pose proof (os2ip_range l2) as R2. rewrite L in R1.
  set (M := 256 ^ Z.of_nat (length l2)) in *.
  assert (Z.of_N (nb a) = Z.of_N (nb b)) as Eab by nia.
  rewrite (nb_inj a b) by lia. f_equal. apply IH; [assumption|]. rewrite Eab in E. lia.
Qed.
Lemma os2ip_app l1 l2 : os2ip (l1 ++ l2) = os2ip l1 * 256 ^ Z.of_nat (length l2) + os2ip l2.
Proof.
  induction l1 as [|a l1 IH]; cbn [app os2ip]; [lia|].
  rewrite IH, app_length, Nat2Z.inj_add, Z.pow_add_r by lia. ring.
Qed.
Lemma be_val_os2ip l : be_val l = os2ip l.
Proof.
  unfold be_val. rewrite <- (rev_involutive l). induction (rev l) as [|b r IH]; [reflexivity|].
  cbn [rev]. rewrite fold_left_app, os2ip_app, IH. cbn [fold_left os2ip length]. change (256 ^ Z.of_nat 1) with 256.
  change (256 ^ Z.of_nat 0) with 1. ring.
Qed.
Lemma octets_fun n x l1 l2 : octets n x l1 -> octets n x l2 -> l1 = l2.
Proof. intros [L1 E1] [L2 E2]. apply os2ip_inj; congruence. Qed.
Lemma be_bytes_octets n x : 0 <= x < 256 ^ Z.of_nat n -> octets n x (be_bytes n x).
Proof.
  revert x. induction n as [|n IH]; intros x Hx; [split; [reflexivity|cbn in *; lia]|].
  rewrite Nat2Z.inj_succ, Z.pow_succ_r in Hx by lia. cbn [be_bytes].
  destruct (IH (x / 256)) as [L E]; [split; [apply Z.div_pos; lia|apply Z.div_lt_upper_bound; lia]|].
  split; [rewrite app_length, L; cbn; lia|]. rewrite os2ip_app, E. cbn [os2ip length].
  change (256 ^ Z.of_nat 1) with 256. change (256 ^ Z.of_nat 0) with 1.
  rewrite nb_u8. pose proof (Z.mod_pos_bound x 256 ltac:(lia)). rewrite N.mod_small by lia.
  rewrite Z2N.id by lia. pose proof (Z.div_mod x 256). lia.
Qed.
Lemma red_256 x : red x -> 0 <= x < 256 ^ Z.of_nat 32.
Proof.
  intros [H1 H2]. split; [assumption|]. eapply Z.lt_trans; [exact H2|]. vm_compute. reflexivity.
Qed.

(** ** Recovery *)

Lemma scalar_ok_spec x : scalar_ok x = true <-> 0 < x < sorder.
Proof. unfold scalar_ok. lia. Qed.

Lemma sig_from_slice_spec sg r s : sig_from_slice sg = Some (r, s) <->
  exists br bs', octets 32 r br /\ octets 32 s bs' /\ sg = br ++ bs' /\ 0 < r < sorder /\ 0 < s < sorder.
Proof.
  unfold sig_from_slice. split.
  - destruct (Nat.eqb_spec (length sg) 64) as [L|L]; cbn [negb]; [|discriminate]. cbv zeta.
    rewrite !be_val_os2ip. destruct (scalar_ok (os2ip (take 32 sg)) && _) eqn:E; [|discriminate].
    apply andb_prop in E as [E1 E2]. apply scalar_ok_spec in E1, E2. intros H. injection H as <- <-.
    exists (take 32 sg), (drop 32 sg). rewrite take_drop. repeat split; try lia; rewrite ?take_length, ?drop_length; lia.
  - intros (br & bs' & [L1 E1] & [L2 E2] & -> & Hr & Hs). rewrite app_length, L1, L2. cbn [Nat.eqb Nat.add negb]. cbv zeta.
    assert (take 32 (br ++ bs') = br /\ drop 32 (br ++ bs') = bs') as [-> ->].
    { rewrite <- L1. split; [apply take_app|apply drop_app]. }
    rewrite !be_val_os2ip, E1, E2.
    rewrite (proj2 (scalar_ok_spec r) Hr), (proj2 (scalar_ok_spec s) Hs). reflexivity.
Qed.

Lemma with_k256_ok D : deps_ok D -> deps_ok (with_k256 D).
Proof. intros [H1 H2 H3 H4]. split; assumption. Qed.

Lemma recover_from_prehash_spec h z rs v pk : octets 32 z h -> (v < 4)%N ->
  recover_from_prehash h rs v = Some pk <->
  exists d k r s x y br bs' bx by', eth_sign d k z r s v /\ key_pair d (Aff x y) /\
    octets 32 r br /\ octets 32 s bs' /\ rs = br ++ bs' /\
    octets 32 x bx /\ octets 32 y by' /\ pk = bx ++ by'.
Proof.
  intros [Lz Ez] Hv. unfold recover_from_prehash. rewrite be_val_os2ip, Ez. split.
  - destruct (sig_from_slice rs) as [[r s]|] eqn:Es; [|discriminate].
    apply sig_from_slice_spec in Es as (br & bs' & Or & Os & -> & Hr & Hs).
    destruct (recover_key _ _ _ _) as [[x y]|] eqn:Er; [|discriminate]. intros H. apply (inj Some) in H as <-.
    apply recover_key_sound in Er as (d & k & Hk & Hsig); [|assumption..].
    pose proof Hk as [_ Hm]. apply multiple_G in Hm as (_ & (Hx & Hy & _) & _). apply in_field_red1 in Hx, Hy.
    exists d, k, r, s, x, y, br, bs', (be_bytes 32 x), (be_bytes 32 y).
    pose proof (be_bytes_octets 32 x (red_256 x Hx)). pose proof (be_bytes_octets 32 y (red_256 y Hy)).
    repeat (split; [assumption || reflexivity|]). reflexivity.
  - intros (d & k & r & s & x & y & br & bs' & bx & by' & Hsig & Hk & Or & Os & -> & Ox & Oy & ->).
    pose proof (eth_sign_plain _ _ _ _ _ _ Hsig) as (_ & _ & _ & _ & _ & _ & _ & _ & _ & Hr & Hs & _).
    rewrite (proj2 (sig_from_slice_spec (br ++ bs') r s)) by eauto 10.
    rewrite (recover_key_complete z r s v x y d k Hk Hsig).
    pose proof Hk as [_ Hm]. apply multiple_G in Hm as (_ & (Hx & Hy & _) & _). apply in_field_red1 in Hx, Hy.
    rewrite (octets_fun 32 x (be_bytes 32 x) bx); [|now apply be_bytes_octets, red_256|assumption].
    rewrite (octets_fun 32 y (be_bytes 32 y) by'); [|now apply be_bytes_octets, red_256|assumption]. reflexivity.
Qed.

Theorem recovers_wallet D text sg x : deps_ok D ->
  recovers (with_k256 D) text sg x <->
  exists d Q addr, key_pair d Q /\ key_address (d_keccak D) Q addr /\ x = eip55 (d_keccak D) addr /\
    wallet_signature (d_keccak D) d text sg.
Proof.
  intros HD. split.
  - intros (rs & v & framed & pk & front & last20 & Hst & Hf & Hok & Hv & Hr & Hk & L & ->).
    cbn [with_k256 d_sig_ok d_recover d_keccak] in *.
    assert (octets 32 (os2ip (d_keccak D framed)) (d_keccak D framed)) as Oz by (split; [apply (keccak_len _ HD)|reflexivity]).
    apply (recover_from_prehash_spec _ _ rs _ pk Oz) in Hr
      as (d & k & r & s & x & y & br & bs' & bx & by' & Hsig & Hkp & Or & Os & -> & Ox & Oy & ->); [|lia].
    exists d, (Aff x y), last20. split; [assumption|]. split. { exists x, y, bx, by', front. auto 10. }
    split; [reflexivity|]. exists framed, ((br ++ bs') ++ [v]). split; [assumption|]. split; [|assumption].
    exists k, (os2ip (d_keccak D framed)), r, s, (nb v mod 27)%N, br, bs', v. rewrite <- app_assoc. auto 10.
  - intros (d & Q & addr & Hkp & (x' & y & bx & by' & front & -> & Ox & Oy & Hk & L) & -> &
      framed & sig65 & Hf & (k & z & r & s & v & br & bs' & bv & Oz & Hsig & Or & Os & Ev & ->) & Hst).
    rewrite app_assoc in Hst.
    exists (br ++ bs'), bv, framed, (bx ++ by'), front, addr. cbn [with_k256 d_sig_ok d_recover d_keccak].
    pose proof (eth_sign_v _ _ _ _ _ _ Hsig) as Hv4.
    pose proof (eth_sign_plain _ _ _ _ _ _ Hsig) as (_ & _ & _ & _ & _ & _ & _ & _ & _ & Hr & Hs & _).
    split; [assumption|]. split; [assumption|]. split.
    { rewrite (proj2 (sig_from_slice_spec (br ++ bs') r s)) by eauto 10. reflexivity. }
    split; [lia|]. split; [|auto]. rewrite Ev. apply (recover_from_prehash_spec _ _ (br ++ bs') _ (bx ++ by') Oz Hv4). eauto 20.
Qed.

(** ** Verification (SEC 1, 4.1.4) *)

Theorem eth_sign_verify d k z r s v Q : key_pair d Q -> eth_sign d k z r s v -> ecdsa_verify Q z r s.
Proof.
  intros [Hd HQ] Hsig. pose proof order_gt. rewrite secp_n_order in Hd.
  apply multiple_G in HQ as (_ & HQ & EQ). pose proof (on_curve_okp _ HQ) as OQ.
  apply eth_sign_plain in Hsig as (k' & xR & yR & Hk & Hx & Rx & Ry & ER & Hodd & Hr & Hs & Hlow & Es).
  rewrite <- secp_n_order in Hr, Hs at 1. unfold ecdsa_verify. split; [assumption|]. split; [assumption|].
  rewrite secp_n_order in Hr, Hs.
  set (i := s_inv s). destruct (s_inv_spec s Hs) as [c Hc]. fold i in Hc.
  set (u1 := (z * i) mod sorder). set (u2 := (r * i) mod sorder).
  assert (0 <= u1 /\ 0 <= u2) as [H1 H2] by (split; apply Z.mod_pos_bound; lia).
  exists u1, u2, (undn (zmul u1 gpt)), (undn (zmul u2 (den Q))), xR, yR.
  split; [assumption|]. split; [assumption|]. split.
  { apply congr_n. unfold u1. destruct (mod_ex (z * i)) as [e ->]. apply (ex_mod _ _ (c * z + e * s)).
    transitivity (z * (s * i) + e * s * sorder); [ring|]. rewrite Hc. ring. }
  split.
  { apply congr_n. unfold u2. destruct (mod_ex (r * i)) as [e ->]. apply (ex_mod _ _ (c * r + e * s)).
    transitivity (r * (s * i) + e * s * sorder); [ring|]. rewrite Hc. ring. }
  assert (okp (zmul u1 gpt)) as O1 by apply okp_zmul, okp_gpt.
  assert (okp (zmul u2 (den Q))) as O2 by now apply okp_zmul.
  split; [apply multiple_G; split; [assumption|]; split; [now apply okp_on_curve|apply den_undn]|].
  split; [apply multiple_complete; [assumption|assumption|now apply okp_on_curve|apply den_undn]|].
  assert (okp (Some (toF xR, toF yR))) as OR by (rewrite ER; apply okp_zmul, okp_gpt).
  split.
  - apply point_add_complete; [now apply okp_on_curve|now apply okp_on_curve| |].
    + apply okp_on_curve in OR. cbn [undn] in OR. now rewrite !fv_toF_red in OR.
    + rewrite !den_undn. cbn [den]. rewrite ER, EQ, <- zmul_mul, <- zmul_add by apply okp_gpt.
      apply zmul_congr. symmetry. unfold u1, u2, i. now apply verified_scalar.
  - apply congr_n. rewrite Hx. unfold xcand. destruct (N.testbit v 1); [|now rewrite Z.add_0_r].
    symmetry. apply (ex_mod _ _ 1). ring.
Qed.

(** Conversely, whoever passes verification with low s is recovered, for one recovery id. *)
Theorem verify_eth_sign d Q z r s : key_pair d Q -> ecdsa_verify Q z r s -> 2 * s < secp_n ->
  exists k v, eth_sign d k z r s v.
Proof.
  intros [Hd HQ] (Hr & Hs & u1 & u2 & P1 & P2 & xR & yR & H1 & H2 & E1 & E2 & M1 & M2 & Ha & Hx) Hlow.
  pose proof order_gt. rewrite secp_n_order in *.
  apply multiple_G in HQ as (_ & HQ & EQ). pose proof (on_curve_okp _ HQ) as OQ.
  apply multiple_G in M1 as (_ & O1 & D1). apply multiple_sound in M2 as (_ & O2 & D2); [|assumption].
  destruct (point_add_sound _ _ _ O1 O2 Ha) as [DR HR]. rewrite D1, D2, EQ, <- zmul_mul, <- zmul_add in DR by apply okp_gpt.
  apply congr_n in E1, E2.
  set (k := (u1 + u2 * d) mod sorder).
  assert (den (Aff xR yR) = zmul k gpt) as DR'. { rewrite DR. apply zmul_congr. unfold k. symmetry. apply Z.mod_mod. lia. }
  assert (0 < k < sorder) as Hk.
  { assert (0 <= k < sorder) as Hk by (apply Z.mod_pos_bound; lia).
    assert (k <> 0); [|lia]. intros E. rewrite E, zmul_0 in DR'. discriminate. }
  exists k. eexists. exists s, xR, yR. rewrite secp_n_order. split.
  - split; [rewrite secp_n_order; lia|]. split; [apply multiple_G; auto with lia|]. rewrite secp_n_order.
    split; [assumption|]. split; [assumption|]. split; [assumption|]. apply congr_n. unfold k.
    rewrite Z.mul_mod_idemp_l by lia.
    replace ((u1 + u2 * d) * s) with (u1 * s + (u2 * s) * d) by ring.
    rewrite Z.add_mod, E1, <- Z.add_mod by lia. rewrite <- Z.add_mod_idemp_r, <- Z.mul_mod_idemp_l, E2 by lia.
    now rewrite Z.mul_mod_idemp_l, Z.add_mod_idemp_r by lia.
  - split; [assumption|]. split; [now left|]. reflexivity.
Qed.

(** ** Uniqueness *)

Lemma key_unique d1 d2 Q : key_pair d1 Q -> key_pair d2 Q -> d1 = d2.
Proof.
  intros [H1 M1] [H2 M2]. rewrite secp_n_order in *. apply multiple_G in M1 as (_ & _ & E1), M2 as (_ & _ & E2).
  rewrite E1 in E2. apply zmul_gpt_inj in E2. rewrite !Z.mod_small in E2 by lia. assumption.
Qed.
Lemma key_determined d Q1 Q2 : key_pair d Q1 -> key_pair d Q2 -> Q1 = Q2.
Proof.
  intros [_ M1] [_ M2]. apply multiple_G in M1 as (_ & O1 & E1), M2 as (_ & O2 & E2). apply den_inj; congruence.
Qed.
Lemma key_affine d Q : key_pair d Q -> Q <> Inf.
Proof.
  intros [Hd M] ->. pose proof order_gt. rewrite secp_n_order in Hd. apply multiple_G in M as (_ & _ & E). cbn [den] in E.
  rewrite <- (zmul_0 gpt) in E. apply zmul_gpt_inj in E. rewrite Z.mod_0_l, Z.mod_small in E by lia. lia.
Qed.
Lemma key_exists d : 0 < d < secp_n -> exists x y, key_pair d (Aff x y).
Proof.
  intros Hd. assert (exists Q, key_pair d Q) as [Q HQ].
  { exists (undn (zmul d gpt)). split; [assumption|]. apply multiple_G. rewrite secp_n_order in Hd. split; [lia|].
    split; [apply okp_on_curve, okp_zmul, okp_gpt|apply den_undn]. }
  destruct Q as [|x y]; [now apply key_affine in HQ|eauto].
Qed.

(** Same key, digest, r and class of x-coordinate: same s and recovery id. *)
Theorem eth_sign_unique d k1 k2 z r s1 s2 v1 v2 :
  eth_sign d k1 z r s1 v1 -> eth_sign d k2 z r s2 v2 -> N.testbit v1 1 = N.testbit v2 1 -> s1 = s2 /\ v1 = v2.
Proof.
  intros H1 H2 Ev. pose proof order_gt.
  pose proof (eth_sign_v _ _ _ _ _ _ H1) as V1. pose proof (eth_sign_v _ _ _ _ _ _ H2) as V2.
  apply eth_sign_plain in H1 as (k1' & x1 & y1 & Hk1 & Hx1 & Rx1 & Ry1 & ER1 & Ho1 & Hr & Hs1 & L1 & E1).
  apply eth_sign_plain in H2 as (k2' & x2 & y2 & Hk2 & Hx2 & Rx2 & Ry2 & ER2 & Ho2 & _ & Hs2 & L2 & E2).
  assert (x1 = x2) as <-. { rewrite Hx1, Hx2. unfold xcand. now rewrite Ev. }
  assert (okp (Some (toF x1, toF y1))) as O1 by (rewrite ER1; apply okp_zmul, okp_gpt).
  assert (okp (Some (toF x1, toF y2))) as O2 by (rewrite ER2; apply okp_zmul, okp_gpt).
  assert (k1' = k2' \/ k1' = sorder - k2') as Hk.
  { destruct (same_x _ _ _ O1 O2) as [E|E].
    - left. rewrite E, ER1 in ER2. apply zmul_gpt_inj in ER2. rewrite !Z.mod_small in ER2 by lia. assumption.
    - right. rewrite E in ER2. change (Some (toF x1, Fopp (toF y1))) with (gneg (Some (toF x1, toF y1))) in ER2.
      rewrite ER1, <- zmul_opp in ER2 by apply okp_gpt. apply zmul_gpt_inj in ER2.
      rewrite (Z.mod_small k2') in ER2 by lia. rewrite <- ER2.
      replace (- k1' mod sorder) with (sorder - k1'); [ring|]. apply (Z.mod_unique_pos _ _ (-1)); lia. }
  rewrite <- E1 in E2.
  assert (k1' = k2' /\ s1 = s2) as [Ek Es].
  { destruct Hk as [<-|Hk].
    - split; [reflexivity|]. apply cancel_n in E2; [|assumption]. rewrite !Z.mod_small in E2 by lia. congruence.
    - exfalso. assert ((k2' * s2) mod sorder = (k2' * (- s1)) mod sorder) as E.
      { rewrite E2, Hk. apply (ex_mod _ _ s1). ring. }
      apply cancel_n in E; [|assumption]. rewrite Z.mod_small in E by lia.
      assert ((- s1) mod sorder = sorder - s1) as E'; [|lia]. symmetry. apply (Z.mod_unique_pos _ _ (-1)); lia. }
  split; [assumption|]. rewrite Ek, <- ER2 in ER1.
  assert (toF y1 = toF y2) as Ey by congruence. apply toF_red_inj in Ey; [|assumption|assumption].
  rewrite (v_bits v1 V1), (v_bits v2 V2). rewrite <- Ho1, <- Ho2, Ev, Ey. reflexivity.
Qed.

(** ** Existence *)

Lemma s_solve k w : 0 < k < sorder -> w mod sorder <> 0 ->
  exists s0, 0 < s0 < sorder /\ (k * s0) mod sorder = w mod sorder.
Proof.
  intros Hk Hw. pose proof order_gt. destruct (s_inv_spec k Hk) as [c Hc].
  set (s0 := (s_inv k * w) mod sorder). exists s0.
  assert ((k * s0) mod sorder = w mod sorder) as E.
  { unfold s0. destruct (mod_ex (s_inv k * w)) as [e ->]. apply (ex_mod _ _ (c * w + k * e)).
    transitivity ((k * s_inv k) * w + k * e * sorder); [ring|]. rewrite Hc. ring. }
  split; [|assumption]. assert (0 <= s0 < sorder) as Hs by (apply Z.mod_pos_bound; lia).
  assert (s0 <> 0); [|lia]. intros E0. rewrite E0, Z.mul_0_r, Z.mod_0_l in E by lia. congruence.
Qed.

(** Signing succeeds with every nonce but those for which r or s would be zero. *)
Theorem eth_sign_exists d k z xR yR : 0 < k < secp_n -> multiple secp_G k (Aff xR yR) ->
  ~ congr secp_n xR 0 -> ~ congr secp_n (z + xR * d) 0 ->
  exists s v, eth_sign d k z (xR mod secp_n) s v.
Proof.
  intros Hk HR Hx Hz. pose proof order_gt. rewrite congr_n in Hx, Hz. rewrite secp_n_order in *.
  rewrite Z.mod_0_l in Hx, Hz by lia. set (r := xR mod sorder).
  assert (0 <= r < sorder) as Hr by (apply Z.mod_pos_bound; lia).
  destruct (s_solve k (z + r * d) Hk) as (s0 & Hs0 & E).
  { unfold r. rewrite <- Z.add_mod_idemp_r, Z.mul_mod_idemp_l, Z.add_mod_idemp_r by lia. assumption. }
  assert (ecdsa_sign d k z r s0 xR yR) as Hsig.
  { split; [rewrite secp_n_order; lia|]. split; [assumption|]. rewrite secp_n_order.
    split; [unfold r in *; lia|]. split; [apply congr_n, Z.mod_mod; lia|]. split; [lia|]. now apply congr_n. }
  destruct (Z_lt_dec (2 * s0) sorder) as [Hl|Hl].
  - exists s0. eexists. exists s0, xR, yR. rewrite secp_n_order. auto.
  - exists (sorder - s0). eexists. exists s0, xR, yR. rewrite secp_n_order. split; [assumption|]. split; [|auto].
    destruct fp_order as (_ & _ & _ & _ & Ho). apply Z.odd_spec in Ho as [h Hh]. lia.
Qed.

Lemma undn_zpt p : undn p = match zpt p with Some (x, y) => Aff x y | None => Inf end.
Proof. now destruct p as [[x y]|]. Qed.

(** A chain of additions that was checked says which point a multiple of the generator is. *)
Lemma chain_point l k x y : chain 1 gen_x gen_y l = Some (k, x, y) -> (0 <=? x) && (x <? fp) && (0 <=? y) && (y <? fp) = true ->
  multiple secp_G k (Aff x y).
Proof.
  intros E Hb. apply chain_ok in E as (Hk & _ & Hs); [|exact at_chain_1].
  rewrite (smul_zmul gpt (Z.to_nat k) okp_gpt), Z2Nat.id in Hs by lia.
  apply multiple_G. split; [lia|].
  assert (Aff x y = undn (zmul k gpt)) as ->.
  { rewrite Hs, undn_zpt. cbn [zpt]. rewrite !fv_toF_red by (unfold red; lia). reflexivity. }
  split; [apply okp_on_curve, okp_zmul, okp_gpt|apply den_undn].
Qed.

Definition two_G : Z * Z :=
  (0xC6047F9441ED7D6D3045406E95C07CD85C778E4B8CEF3CA7ABAC09B95C709EE5,
   0x1AE168FEA63DC339A3C58419466CEAEEF7F632653266D0E1236431A950CFE52A).
Lemma point_2G : exists x2 y2, multiple secp_G 2 (Aff x2 y2) /\ ~ congr secp_n x2 0 /\ ~ congr secp_n x2 secp_gx.
Proof.
  exists (fst two_G), (snd two_G). split; [|split].
  - apply (chain_point chain_two); vm_compute; reflexivity.
  - rewrite congr_n. vm_compute. discriminate.
  - rewrite congr_n. vm_compute. discriminate.
Qed.

(** Every private key can sign every digest. *)
Theorem eth_sign_total d z : 0 < d < secp_n -> exists k r s v, eth_sign d k z r s v.
Proof.
  intros Hd. pose proof order_gt.
  assert (multiple secp_G 1 secp_G) as M1.
  { apply multiple_G. split; [lia|]. split; [apply on_curve_G|]. rewrite den_G. symmetry. apply zmul_1, okp_gpt. }
  destruct point_2G as (x2 & y2 & M2 & H0 & H12).
  assert (~ congr secp_n secp_gx 0) as G0 by (rewrite congr_n; vm_compute; discriminate).
  destruct (Z.eq_dec ((z + secp_gx * d) mod sorder) 0) as [E|E].
  - exists 2. eexists. apply (eth_sign_exists d 2 z x2 y2); [rewrite secp_n_order in *|assumption|assumption|].
    + split; [lia|]. vm_compute. reflexivity.
    + rewrite congr_n, Z.mod_0_l by lia. intros E2. apply H12. apply congr_n. rewrite secp_n_order in Hd.
      apply (cancel_n d); [assumption|]. rewrite (Z.mul_comm d x2), (Z.mul_comm d secp_gx).
      replace (x2 * d) with ((z + x2 * d) - z) by ring. replace (secp_gx * d) with ((z + secp_gx * d) - z) by ring.
      rewrite Zminus_mod, E2, (Zminus_mod (z + secp_gx * d)), E. reflexivity.
  - exists 1. eexists. apply (eth_sign_exists d 1 z secp_gx secp_gy); [rewrite secp_n_order; lia|assumption|assumption|].
    rewrite congr_n, Z.mod_0_l by lia. assumption.
Qed.

(** Multiples of the base point by computation. *)
(** The signature with nonce 1, as bytes. *)
Definition one_sig (d z : Z) : bytes :=
  let s0 := (z + secp_gx * d) mod secp_n in
  let low := 2 * s0 <? secp_n in
  be_bytes 32 secp_gx ++ be_bytes 32 (if low then s0 else secp_n - s0) ++ [if low then x1b else x1c].

Lemma multiple_1 : multiple secp_G 1 secp_G.
Proof. apply multiple_G. split; [lia|]. split; [apply on_curve_G|]. rewrite den_G. symmetry. apply zmul_1, okp_gpt. Qed.

Lemma one_sig_signed keccak d framed : (forall x, length (keccak x) = 32%nat) ->
  (os2ip (keccak framed) + secp_gx * d) mod secp_n <> 0 ->
  signed_by keccak d framed (one_sig d (os2ip (keccak framed))).
Proof.
  intros Hl Hn. set (z := os2ip (keccak framed)) in *. pose proof order_gt.
  set (s0 := (z + secp_gx * d) mod secp_n) in *.
  assert (0 < s0 < secp_n) as Hs0.
  { unfold s0 in *. rewrite secp_n_order in *. pose proof (Z.mod_pos_bound (z + secp_gx * d) sorder ltac:(lia)). lia. }
  assert (secp_n < 256 ^ Z.of_nat 32) as Hn256 by (vm_compute; reflexivity).
  assert (0 < secp_gx < secp_n) as Hg by (vm_compute; split; reflexivity).
  set (low := 2 * s0 <? secp_n). set (s := if low then s0 else secp_n - s0).
  assert (0 < s < secp_n /\ 2 * s < secp_n) as [Hs Hlow].
  { unfold s, low. rewrite secp_n_order in *. destruct fp_order as (_ & _ & _ & _ & Ho). apply Z.odd_spec in Ho as [h Hh].
    destruct (Z.ltb_spec (2 * s0) sorder); lia. }
  exists 1, z, secp_gx, s, (if low then 0 else 1)%N, (be_bytes 32 secp_gx), (be_bytes 32 s), (if low then x1b else x1c).
  split; [split; [apply Hl|reflexivity]|]. split.
  { exists s0, secp_gx, secp_gy. split.
    - split; [lia|]. split; [exact multiple_1|]. split; [assumption|]. split; [exists 0; ring|]. split; [assumption|].
      rewrite congr_n. unfold s0. rewrite secp_n_order, Z.mul_1_l. apply Z.mod_mod. lia.
    - split; [assumption|]. split; [unfold s; destruct low; auto|].
      assert (Z.odd secp_gy = false) as -> by (vm_compute; reflexivity).
      assert (secp_n <=? secp_gx = false) as -> by (vm_compute; reflexivity). rewrite N.add_0_r. cbn [xorb].
      unfold s. destruct low eqn:El; [now rewrite Z.eqb_refl|].
      destruct (Z.eqb_spec (secp_n - s0) s0) as [E|E]; [|reflexivity].
      exfalso. unfold s in Hlow. rewrite E in Hlow. unfold low in El. lia. }
  split; [apply be_bytes_octets; lia|]. split; [apply be_bytes_octets; lia|]. split; [now destruct low|reflexivity].
Qed.
