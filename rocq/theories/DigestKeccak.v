(** Keccak-256 of Keccak.v is that of SpecDigest.v. *)
From Verif Require Import Base Nib Keccak SpecDigest DigestWords DigestSha.
Local Open Scope N_scope.

Definition kvals (s : kst) : list N :=
  match s with KS a0 a1 a2 a3 a4 a5 a6 a7 a8 a9 a10 a11 a12 a13 a14 a15 a16 a17 a18 a19 a20 a21 a22 a23 a24 =>
    [v64 a0; v64 a1; v64 a2; v64 a3; v64 a4; v64 a5; v64 a6; v64 a7; v64 a8; v64 a9; v64 a10; v64 a11; v64 a12;
     v64 a13; v64 a14; v64 a15; v64 a16; v64 a17; v64 a18; v64 a19; v64 a20; v64 a21; v64 a22; v64 a23; v64 a24] end.

(** ** The permutation *)

Ltac lanes_of :=
  cbv [state lane map seq nth Nat.modulo Nat.div Nat.divmod Nat.add Nat.mul Nat.sub Nat.eqb andb fst snd].

Lemma theta_is s : kvals (theta s) = k_theta (kvals s).
Proof.
  destruct s. cbn [theta kvals]. unfold rotl64_1. rewrite !v64_xor, !v64_rotr_63, !v64_xor.
  unfold k_theta. lanes_of. rewrite !N.lxor_assoc. reflexivity.
Qed.

Lemma rotl_0 x : rotl 64 0 (v64 x) = v64 x.
Proof.
  unfold rotl. rewrite N.sub_0_r. pose proof (v64_bound x). rewrite N.mod_small, N.div_small by assumption.
  rewrite N.pow_0_r. lia.
Qed.

Lemma rho_pi_is s : kvals (rho_pi s) = k_pi (k_rho (kvals s)).
Proof.
  destruct s as [a0 a1 a2 a3 a4 a5 a6 a7 a8 a9 a10 a11 a12 a13 a14 a15 a16 a17 a18 a19 a20 a21 a22 a23 a24].
  cbn [rho_pi kvals].
  rewrite v64_rotr_20, v64_rotr_21, v64_rotr_43, v64_rotr_50, v64_rotr_36, v64_rotr_44, v64_rotr_61, v64_rotr_19,
    v64_rotr_3, v64_rotr_63, v64_rotr_58, v64_rotr_39, v64_rotr_56, v64_rotr_46, v64_rotr_37, v64_rotr_28,
    v64_rotr_54, v64_rotr_49, v64_rotr_8, v64_rotr_2, v64_rotr_9, v64_rotr_25, v64_rotr_23, v64_rotr_62.
  unfold k_pi, k_rho. cbv [offset List.find walk].
  lanes_of. change (N.of_nat 0) with 0. rewrite rotl_0. reflexivity.
Qed.

Lemma chi_is s : kvals (chi s) = k_chi (kvals s).
Proof. destruct s. cbn [chi kvals]. rewrite !v64_xor, !v64_andn. unfold k_chi. lanes_of. reflexivity. Qed.

Lemma iota_is r s : kvals (iota r s) = k_iota (v64 r) (kvals s).
Proof. destruct s. cbn [iota kvals]. rewrite !v64_xor. unfold k_iota. lanes_of. reflexivity. Qed.

Lemma RC_is : map v64 RC = map round_constant (seq 0 24).
Proof. vm_compute. reflexivity. Qed.

Lemma keccak_f_is s : kvals (keccak_f s) = k_f (kvals s).
Proof.
  unfold keccak_f, k_f. rewrite <- RC_is. generalize RC. intros rs. revert s.
  induction rs as [|r rs IH]; intros s; [reflexivity|].
  cbn [fold_left map]. rewrite IH. f_equal. rewrite iota_is, chi_is, rho_pi_is, theta_is. reflexivity.
Qed.

(** ** Blocks *)

Lemma lanes_app a b c d e f g h l : lanes (a :: b :: c :: d :: e :: f :: g :: h :: l) = le64 a b c d e f g h :: lanes l.
Proof. reflexivity. Qed.

Lemma absorb_is s b : length b = 136%nat -> kvals (absorb s b) = k_absorb (kvals s) b.
Proof.
  intros Hb. do 136 (destruct b as [|? b]; [discriminate|]). destruct b; [|discriminate].
  destruct s. unfold absorb. rewrite !lanes_app. change (lanes []) with (@nil w64). cbv iota.
  rewrite keccak_f_is. unfold k_absorb. f_equal. cbn [kvals]. rewrite !v64_xor, !v64_le.
  cbv [state lane map seq nth Nat.modulo Nat.div Nat.divmod Nat.add Nat.mul Nat.sub fst snd].
  cbv [group firstn skipn Nat.mul Nat.add].
  change (le_value []) with 0. rewrite !N.lxor_0_r. reflexivity.
Qed.

Lemma absorb_all_is bl : Forall (fun b => length b = 136%nat) bl -> forall fuel s, (length bl < fuel)%nat ->
  kvals (absorb_all fuel s (concat bl)) = fold_left k_absorb bl (kvals s).
Proof.
  induction 1 as [|b bl Hb _ IH]; intros fuel s Hf.
  - destruct fuel; reflexivity.
  - destruct fuel as [|fuel]; [cbn in Hf; lia|]. cbn [concat absorb_all].
    destruct (b ++ concat bl) as [|x r] eqn:E.
    { destruct b; discriminate. }
    rewrite <- E. clear E x r.
    assert (firstn rate (b ++ concat bl) = b) as ->.
    { unfold rate. rewrite <- Hb. rewrite firstn_app, Nat.sub_diag, firstn_all, firstn_O. apply app_nil_r. }
    assert (skipn rate (b ++ concat bl) = concat bl) as ->.
    { unfold rate. rewrite <- Hb. rewrite skipn_app, Nat.sub_diag, skipn_all. reflexivity. }
    rewrite IH by (cbn in Hf; lia). cbn [fold_left]. rewrite absorb_is by exact Hb. reflexivity.
Qed.

(** ** Padding *)

Definition byte_bits (b : byte) : list bool := map (N.testbit_nat (nb b)) (seq 0 8).

Lemma bits_of_cons b l : bits_of (b :: l) = byte_bits b ++ bits_of l.
Proof. reflexivity. Qed.

Lemma bits_of_app a b : bits_of (a ++ b) = bits_of a ++ bits_of b.
Proof. apply flat_map_app. Qed.

Lemma byte_bits_length b : length (byte_bits b) = 8%nat.
Proof. reflexivity. Qed.

Lemma bits_of_length l : length (bits_of l) = (8 * length l)%nat.
Proof. induction l as [|b l IH]; [reflexivity|]. rewrite bits_of_cons, app_length, IH, byte_bits_length. cbn [length]. lia. Qed.

Lemma byte_bits_inj a b : byte_bits a = byte_bits b -> a = b.
Proof.
  intros H. assert (forall c, val (byte_bits c) = nb c) as V by (intros []; reflexivity).
  assert (nb a = nb b) as E by (rewrite <- !V, H; reflexivity).
  assert (Some a = Some b) as E' by (rewrite <- !Byte.of_to_N, E; reflexivity). congruence.
Qed.

Lemma bits_of_inj a : forall b, bits_of a = bits_of b -> a = b.
Proof.
  induction a as [|x a IH]; intros [|y b] E; [reflexivity| | |];
    try (apply (f_equal length) in E; rewrite !bits_of_length in E; cbn in E; lia).
  rewrite !bits_of_cons in E. apply app_inj_1 in E; [|rewrite !byte_bits_length; reflexivity].
  destruct E as [E1 E2]. f_equal; [apply byte_bits_inj, E1|apply IH, E2].
Qed.

Lemma bits_of_zeros n : bits_of (repeat x00 n) = repeat false (8 * n).
Proof.
  induction n as [|n IH]; [reflexivity|]. cbn [repeat]. rewrite bits_of_cons, IH.
  replace (8 * S n)%nat with (8 + 8 * n)%nat by lia. rewrite repeat_app. reflexivity.
Qed.

Lemma kpad_is l : exists j, (j < 1088)%nat /\ bits_of (kpad l) = bits_of l ++ [true] ++ repeat false j ++ [true].
Proof.
  unfold kpad, rate. pose proof (Nat.mod_upper_bound (length l) 136) as Hr.
  set (q := (136 - length l mod 136)%nat). destruct (Nat.eqb_spec q 1) as [E|E].
  - exists 6%nat. split; [lia|]. rewrite bits_of_app. reflexivity.
  - exists (7 + 8 * (q - 2) + 7)%nat. split; [lia|].
    rewrite bits_of_app, bits_of_cons, bits_of_app, bits_of_zeros. f_equal.
    rewrite (repeat_app false (7 + 8 * (q - 2)) 7), (repeat_app false 7 (8 * (q - 2))), <- !app_assoc. reflexivity.
Qed.

Lemma kpad_length l : (length (kpad l) mod 136 = 0)%nat.
Proof.
  unfold kpad, rate. pose proof (Nat.mod_upper_bound (length l) 136) as Hr. pose proof (Nat.div_mod_eq (length l) 136) as Hd.
  set (r := (length l mod 136)%nat) in *. set (d := (length l / 136)%nat) in *.
  destruct (Nat.eqb_spec (136 - r) 1) as [E|E].
  - rewrite app_length. cbn [length]. replace (length l + 1)%nat with (0 + (d + 1) * 136)%nat by lia.
    rewrite Nat.mod_add by lia. reflexivity.
  - rewrite app_length. cbn [length]. rewrite app_length, repeat_length. cbn [length].
    replace (length l + S (136 - r - 2 + 1))%nat with (0 + (d + 1) * 136)%nat by lia.
    rewrite Nat.mod_add by lia. reflexivity.
Qed.

Lemma kpad_blocks l : exists bl, concat bl = kpad l /\ Forall (fun b => length b = 136%nat) bl.
Proof. exists (cut 136 (length (kpad l)) (kpad l)). apply cut_blocks; [lia|lia|apply kpad_length]. Qed.

(** ** The digest *)

Lemma le_value_inj a b : length a = length b -> le_value a = le_value b -> a = b.
Proof.
  intros HL HV. rewrite <- (rev_involutive a), <- (rev_involutive b). f_equal.
  apply be_value_inj; [rewrite !rev_length; exact HL|exact HV].
Qed.

Lemma group_lanes (d : bytes) n : length d = (8 * n)%nat -> forall d', length d' = (8 * n)%nat ->
  map (fun i => le_value (group 8 i d)) (seq 0 n) = map (fun i => le_value (group 8 i d')) (seq 0 n) -> d = d'.
Proof.
  revert d. induction n as [|n IH]; intros d Hd d' Hd' E.
  { destruct d, d'; try discriminate. reflexivity. }
  cbn [seq map] in E. injection E as E0 E.
  rewrite <- (firstn_skipn 8 d), <- (firstn_skipn 8 d'). f_equal.
  - apply le_value_inj; [rewrite !firstn_length; lia|exact E0].
  - apply IH; [rewrite skipn_length; lia..|].
    rewrite <- !seq_shift, !map_map in E.
    assert (forall x i, group 8 i (skipn 8 x) = group 8 (S i) x) as G.
    { intros x i. unfold group. rewrite drop_drop. do 2 f_equal. lia. }
    rewrite (map_ext (fun i => le_value (group 8 i (skipn 8 d))) (fun i => le_value (group 8 (S i) d)))
      by (intros i; rewrite G; reflexivity).
    rewrite E. apply map_ext. intros i. rewrite G. reflexivity.
Qed.

Lemma is_keccak256_unique m d d' : is_keccak256 m d -> is_keccak256 m d' -> d = d'.
Proof.
  intros (j & bl & Hj & E & F & Hd & HW) (j' & bl' & Hj' & E' & F' & Hd' & HW').
  assert (j = j') as <-.
  { apply (f_equal length) in E. apply (f_equal length) in E'.
    rewrite bits_of_length, (concat_length_eq 136 bl F) in E. rewrite bits_of_length, (concat_length_eq 136 bl' F') in E'.
    rewrite !app_length, !repeat_length in E, E'. cbn [length] in E, E'. lia. }
  assert (bl = bl') as <-.
  { apply (concat_eq 136); [lia|exact F|exact F'|]. apply bits_of_inj. congruence. }
  apply (group_lanes d 4 Hd d' Hd'). congruence.
Qed.

Theorem keccak256_is m d : is_keccak256 m d <-> keccak256 m = d.
Proof.
  assert (is_keccak256 m (keccak256 m)) as H.
  { destruct (kpad_is m) as (j & Hj & HP). destruct (kpad_blocks m) as (bl & E & F).
    exists j, bl. rewrite E. split; [exact Hj|]. split; [symmetry; exact HP|]. split; [exact F|].
    split; [apply keccak256_length|].
    unfold keccak256. rewrite <- E.
    pose proof (absorb_all_is bl F (S (length (concat bl)))
      (KS zero64 zero64 zero64 zero64 zero64 zero64 zero64 zero64 zero64 zero64 zero64 zero64 zero64 zero64 zero64
          zero64 zero64 zero64 zero64 zero64 zero64 zero64 zero64 zero64 zero64)) as HA.
    change (kvals (KS _ _ _ _ _ _ _ _ _ _ _ _ _ _ _ _ _ _ _ _ _ _ _ _ _)) with (repeat 0 25) in HA.
    rewrite <- HA by (rewrite (concat_length_eq 136 bl F); lia). clear HA.
    destruct (absorb_all _ _ _) as [a0 a1 a2 a3 a4 a5 a6 a7 a8 a9 a10 a11 a12 a13 a14 a15 a16 a17 a18 a19 a20 a21 a22 a23 a24].
    cbn [kvals firstn]. rewrite <- !le_bytes64. destruct a0, a1, a2, a3. reflexivity. }
  split; [intros H'; exact (is_keccak256_unique _ _ _ H H')|intros <-; exact H].
Qed.
