(** Lemmas about the textual form of principals. *)
From Coq Require Import Strings.String ZifyBool ZifyN ZifyNat.
From Verif Require Import Base BaseLemmas Eth Encode PrincipalText SpecPrincipal.
Local Open Scope N_scope.

(** ** Bits *)

Lemma bits_of_length w n : length (bits_of w n) = w.
Proof. induction w; cbn; auto. Qed.

Lemma of_bits_app l m : of_bits (l ++ m) = of_bits l * 2 ^ N.of_nat (length m) + of_bits m.
Proof.
  unfold of_bits. rewrite fold_left_app. generalize (fold_left (fun a (b : bool) => 2 * a + (if b then 1 else 0)) l 0).
  assert (forall m a, fold_left (fun a (b : bool) => 2 * a + (if b then 1 else 0)) m a
    = a * 2 ^ N.of_nat (length m) + fold_left (fun a (b : bool) => 2 * a + (if b then 1 else 0)) m 0) as H; [|intros; apply H].
  clear. induction m as [|b m IH]; intros a; cbn [fold_left length]; [cbn; lia|].
  rewrite (IH (2 * a + (if b then 1 else 0))), (IH (2 * 0 + (if b then 1 else 0))).
  rewrite Nat2N.inj_succ, N.pow_succ_r'. lia.
Qed.

Lemma of_bits_cons b l : of_bits (b :: l) = (if b then 1 else 0) * 2 ^ N.of_nat (length l) + of_bits l.
Proof. change (b :: l) with ([b] ++ l). rewrite of_bits_app. destruct b; reflexivity. Qed.

Lemma of_bits_lt l : of_bits l < 2 ^ N.of_nat (length l).
Proof.
  induction l as [|b l IH]; [vm_compute; reflexivity|]. rewrite of_bits_cons. cbn [length].
  rewrite Nat2N.inj_succ, N.pow_succ_r'. destruct b; lia.
Qed.

Lemma of_bits_of w n : of_bits (bits_of w n) = n mod 2 ^ N.of_nat w.
Proof.
  induction w as [|w IH]; [cbn; now rewrite N.mod_1_r|]. cbn [bits_of]. rewrite of_bits_cons, bits_of_length, IH.
  rewrite Nat2N.inj_succ, N.pow_succ_r', (N.mul_comm 2), N.mod_mul_r by (try apply N.pow_nonzero; lia).
  rewrite <- (N.testbit_spec' n). destruct (N.testbit n (N.of_nat w)); cbn [N.b2n]; lia.
Qed.

Lemma bits_of_of_bits l : bits_of (length l) (of_bits l) = l.
Proof.
  induction l as [|b l IH]; [reflexivity|]. cbn [length bits_of].
  assert (bits_of (length l) (of_bits (b :: l)) = bits_of (length l) (of_bits l)) as ->.
  { rewrite of_bits_cons. generalize (of_bits l), (if b then 1 else 0). clear. intros x y.
    assert (forall w, (w <= length l)%nat -> bits_of w (y * 2 ^ N.of_nat (length l) + x) = bits_of w x) as H; [|now apply H].
    induction w as [|w IH]; intros Hw; [reflexivity|]. cbn [bits_of]. rewrite IH by lia. f_equal.
    rewrite <- (N.mod_pow2_bits_low _ (N.of_nat (length l))) by lia.
    rewrite N.add_comm, N.mod_add by (apply N.pow_nonzero; lia). apply N.mod_pow2_bits_low. lia. }
  rewrite IH. f_equal. rewrite of_bits_cons. pose proof (of_bits_lt l) as Hl.
  rewrite N.testbit_eqb, N.div_add_l by (apply N.pow_nonzero; lia). rewrite N.div_small by assumption.
  destruct b; reflexivity.
Qed.

Lemma of_bits_inj l m : length l = length m -> of_bits l = of_bits m -> l = m.
Proof. intros HL E. rewrite <- (bits_of_of_bits l), <- (bits_of_of_bits m). congruence. Qed.

Lemma byte_bits_length l : length (byte_bits l) = (8 * length l)%nat.
Proof. induction l as [|b l IH]; [reflexivity|]. cbn [byte_bits flat_map]. fold (byte_bits l). rewrite app_length, bits_of_length, IH. cbn [length]. lia. Qed.

Lemma byte_bits_app l m : byte_bits (l ++ m) = byte_bits l ++ byte_bits m.
Proof. apply flat_map_app. Qed.

Lemma group_bits_nil fuel w : group_bits fuel w [] = [].
Proof. now destruct fuel. Qed.

(** Grouping and writing the groups out again adds less than a group of zeros. *)
Lemma group_bits_flat fuel w l : (0 < w)%nat -> (length l <= fuel)%nat ->
  exists k, (k < w)%nat /\ flat_map (bits_of w) (group_bits fuel w l) = l ++ repeat false k.
Proof.
  intros Hw. revert l. induction fuel as [|fuel IH]; intros l Hl.
  - destruct l; [|cbn in Hl; lia]. exists O. auto.
  - destruct l as [|b l]; [exists O; auto|]. cbn [group_bits flat_map].
    set (l0 := b :: l) in *.
    assert (bits_of w (of_bits (take w (l0 ++ repeat false w))) = take w (l0 ++ repeat false w)) as ->.
    { rewrite <- (bits_of_of_bits (take w (l0 ++ repeat false w))) at 2. f_equal.
      rewrite take_length, app_length, repeat_length. lia. }
    destruct (Nat.le_gt_cases w (length l0)) as [Hle|Hgt].
    + rewrite take_app_le by lia. destruct (IH (drop w l0)) as (k & Hk & E); [rewrite drop_length; lia|].
      exists k. split; [assumption|]. rewrite E, app_assoc, take_drop. reflexivity.
    + rewrite (drop_ge l0), group_bits_nil by lia. cbn [flat_map]. rewrite app_nil_r.
      exists (w - length l0)%nat. split; [subst l0; cbn [length] in *; lia|].
      rewrite take_app_ge by lia. f_equal. rewrite take_repeat || idtac.
      replace w with ((w - length l0) + length l0)%nat at 2 by lia.
      rewrite repeat_app, take_app_le by (rewrite repeat_length; lia).
      apply take_ge. rewrite repeat_length. lia.
Qed.

Lemma group_bits_lt fuel w l : Forall (fun n => n < 2 ^ N.of_nat w) (group_bits fuel w l).
Proof.
  revert l. induction fuel as [|fuel IH]; intros [|b l]; cbn [group_bits]; constructor; [|apply IH].
  eapply N.lt_le_trans; [apply of_bits_lt|]. apply N.pow_le_mono_r; [lia|]. rewrite take_length. lia.
Qed.

Lemma flat_bits_length w vs : length (flat_map (bits_of w) vs) = (w * length vs)%nat.
Proof. induction vs as [|v vs IH]; cbn [flat_map length]; [lia|]. rewrite app_length, bits_of_length, IH. lia. Qed.

Lemma flat_bits_inj w vs ws : Forall (fun n => n < 2 ^ N.of_nat w) vs -> Forall (fun n => n < 2 ^ N.of_nat w) ws ->
  flat_map (bits_of w) vs = flat_map (bits_of w) ws -> length vs = length ws -> vs = ws.
Proof.
  intros Hv. revert ws. induction Hv as [|v vs Hv Hvs IH]; intros [|u ws] Hw E HL; try discriminate; [reflexivity|].
  inversion Hw; subst. cbn [flat_map] in E. apply app_inj_len in E as [E1 E2]; [|now rewrite !bits_of_length].
  f_equal; [|apply IH; auto].
  assert (of_bits (bits_of w v) = of_bits (bits_of w u)) as E by congruence. rewrite !of_bits_of in E.
  now rewrite !N.mod_small in E by assumption.
Qed.

(** ** Base 32 *)

Lemma below_32 (P : N -> Prop) : Forall P (map N.of_nat (seq 0 32)) -> forall n, n < 32 -> P n.
Proof.
  intros H n Hn. rewrite List.Forall_forall in H. apply H. apply in_map_iff. exists (N.to_nat n).
  split; [lia|]. apply in_seq. lia.
Qed.

Lemma symbol_upper n : n < 32 -> b32_value (to_upper (b32_symbol n)) = Some n /\ b32_symbol n <> x2d /\
  to_upper (b32_symbol n) <> x2d /\ b32_symbol n = nth (N.to_nat n) alphabet x00.
Proof. revert n. apply below_32. repeat constructor; vm_compute; congruence. Qed.

Lemma b32_values_symbols vs : Forall (fun n => n < 32) vs -> b32_values (map to_upper (map b32_symbol vs)) = Some vs.
Proof.
  induction 1 as [|v vs Hv _ IH]; [reflexivity|]. cbn [map b32_values]. destruct (symbol_upper v Hv) as [-> _].
  now rewrite IH.
Qed.

Lemma group_bytes l fuel : (8 * length l <= fuel)%nat -> map u8 (group_bits fuel 8 (byte_bits l)) = l.
Proof.
  intros Hf. destruct (group_bits_flat fuel 8 (byte_bits l)) as (k & Hk & E); [lia|rewrite byte_bits_length; lia|].
  pose proof (f_equal (@length bool) E) as EL. rewrite flat_bits_length, app_length, repeat_length, byte_bits_length in EL.
  assert (k = O) as -> by lia. rewrite app_nil_r in E.
  assert (group_bits fuel 8 (byte_bits l) = map nb l) as ->.
  { eapply (flat_bits_inj 8); [apply group_bits_lt| | |rewrite map_length; lia].
    - apply List.Forall_forall. intros n Hn. apply in_map_iff in Hn as (b & <- & _). apply nb_lt.
    - rewrite E. unfold byte_bits. rewrite !flat_map_concat_map, map_map. reflexivity. }
  rewrite map_map. erewrite map_ext; [apply map_id|]. intros b. apply u8_nb.
Qed.

Lemma b32_encode_values l : exists vs k, b32_encode l = map b32_symbol vs /\ Forall (fun n => n < 32) vs /\ (k < 5)%nat /\
  flat_map (bits_of 5) vs = byte_bits l ++ repeat false k.
Proof.
  destruct (group_bits_flat (8 * length l) 5 (byte_bits l)) as (k & Hk & E); [lia|rewrite byte_bits_length; lia|].
  exists (group_bits (8 * length l) 5 (byte_bits l)), k. split; [reflexivity|]. split; [apply (group_bits_lt _ 5)|]. auto.
Qed.

Lemma b32_round l : b32_decode (map to_upper (b32_encode l)) = Some l.
Proof.
  destruct (b32_encode_values l) as (vs & k & -> & Hvs & Hk & E). unfold b32_decode. rewrite b32_values_symbols by assumption.
  rewrite E. rewrite app_length, repeat_length, byte_bits_length.
  assert ((8 * length l + k) / 8 = length l)%nat as ->.
  { rewrite Nat.mul_comm, Nat.div_add_l by lia. rewrite (Nat.div_small k) by lia. lia. }
  rewrite drop_app_ge, byte_bits_length, Nat.sub_diag, drop_0, repeat_length by (rewrite byte_bits_length; lia).
  assert (forallb negb (repeat false k) = true) as -> by (clear; induction k; auto).
  assert ((k <? 5)%nat = true) as -> by (apply Nat.ltb_lt; lia). cbn [andb].
  rewrite take_app_le, take_ge by (rewrite byte_bits_length; lia). rewrite group_bytes by lia. reflexivity.
Qed.

(** ** Grouping *)

Lemma dash_free vs : Forall (fun n => n < 32) vs -> Forall (fun c => c <> x2d) (map b32_symbol vs).
Proof.
  intros H. apply List.Forall_forall. intros c Hc. apply in_map_iff in Hc as (n & <- & Hn).
  rewrite List.Forall_forall in H. now destruct (symbol_upper n (H n Hn)) as (_ & ? & _).
Qed.

Lemma filter_dashes fuel s : Forall (fun c => c <> x2d) s ->
  filter (fun c => c <> x2d) (map to_upper (with_dashes fuel s)) = filter (fun c => c <> x2d) (map to_upper s).
Proof.
  revert s. induction fuel as [|fuel IH]; intros s Hs; [reflexivity|]. cbn [with_dashes].
  destruct (5 <? length s)%nat; [|reflexivity]. rewrite !map_app, !list.filter_app.
  rewrite IH by (eapply Forall_drop, Hs). rewrite app_assoc.
  replace (filter (fun c => c <> x2d) (map to_upper (bs "-"))) with (@nil byte) by (vm_compute; reflexivity).
  rewrite app_nil_r. rewrite <- list.filter_app, <- map_app, take_drop. reflexivity.
Qed.

Lemma filter_none (s : bytes) : Forall (fun c => c <> x2d) s -> filter (fun c => c <> x2d) s = s.
Proof.
  induction 1 as [|c s Hc _ IH]; [reflexivity|]. rewrite filter_cons_True by assumption. now rewrite IH.
Qed.

Lemma upper_lower c : to_upper (to_lower c) = to_upper c.
Proof. destruct c; vm_compute; reflexivity. Qed.

Lemma upper_lower_list (l m : bytes) : map to_lower l = m -> map to_upper l = map to_upper m.
Proof. intros <-. rewrite map_map. apply map_ext. intros c. now rewrite upper_lower. Qed.

Lemma be_fixed_length w n : length (be_fixed w n) = w.
Proof. revert n. induction w; intros n; cbn [be_fixed]; [reflexivity|]. rewrite app_length, IHw. cbn. lia. Qed.

Lemma from_text_iff t p : principal_from_text t = Some p <-> (length p <= 29)%nat /\ map to_lower t = principal_to_text p.
Proof.
  unfold principal_from_text. split.
  - destruct (b32_decode _) as [b|]; [|discriminate].
    destruct (length b <? CRC_LENGTH_IN_BYTES)%nat; [discriminate|].
    destruct (MAX_LENGTH_IN_BYTES <? length (drop CRC_LENGTH_IN_BYTES b))%nat eqn:EL; [discriminate|].
    destruct (negb (bytes_eqb (be_fixed 4 _) _)); [discriminate|].
    destruct (negb (bytes_eqb (map to_lower t) _)) eqn:Et; [discriminate|]. intros [= <-].
    apply Nat.ltb_ge in EL. apply negb_false_iff, bytes_eqb_spec in Et. auto.
  - intros [Hp Et]. rewrite (upper_lower_list _ _ Et). unfold principal_to_text at 1.
    set (b := be_fixed 4 (crc32 p) ++ p). destruct (b32_encode_values b) as (vs & k & E & Hvs & _).
    rewrite filter_dashes by (rewrite E; now apply dash_free).
    rewrite filter_none.
    2:{ rewrite E, map_map. apply List.Forall_forall. intros c Hc. apply in_map_iff in Hc as (n & <- & Hn).
        rewrite List.Forall_forall in Hvs. now destruct (symbol_upper n (Hvs n Hn)) as (_ & _ & ? & _). }
    rewrite b32_round. subst b. unfold CRC_LENGTH_IN_BYTES, MAX_LENGTH_IN_BYTES.
    rewrite app_length, be_fixed_length.
    assert ((4 + length p <? 4)%nat = false) as -> by (apply Nat.ltb_ge; lia).
    rewrite drop_app_ge, be_fixed_length, Nat.sub_diag, drop_0 by (rewrite be_fixed_length; lia).
    assert ((29 <? length p)%nat = false) as -> by (apply Nat.ltb_ge; lia).
    rewrite take_app_le, take_ge by (rewrite be_fixed_length; lia).
    rewrite bytes_eqb_refl, Et, bytes_eqb_refl. reflexivity.
Qed.

(** ** CRC-32 against the shift register *)

Lemma crc_step_bit c k : N.testbit (crc_step c) k = xorb (N.testbit c (k + 1)) (N.testbit c 0 && N.testbit 0xEDB88320 k).
Proof.
  unfold crc_step. destruct (N.testbit c 0) eqn:E; cbn [andb].
  - rewrite N.lxor_spec, N.shiftr_spec'. reflexivity.
  - rewrite N.shiftr_spec'. now rewrite xorb_false_r.
Qed.

Lemma crc_step_lxor a b : crc_step (N.lxor a b) = N.lxor (crc_step a) (crc_step b).
Proof.
  apply N.bits_inj. intros k. rewrite N.lxor_spec, !crc_step_bit, !N.lxor_spec.
  destruct (N.testbit a (k + 1)), (N.testbit b (k + 1)), (N.testbit a 0), (N.testbit b 0), (N.testbit 0xEDB88320 k); reflexivity.
Qed.

Definition step8 (c : N) : N := crc_step (crc_step (crc_step (crc_step (crc_step (crc_step (crc_step (crc_step c))))))).

Lemma step8_lxor a b : step8 (N.lxor a b) = N.lxor (step8 a) (step8 b).
Proof. unfold step8. now rewrite !crc_step_lxor. Qed.

Lemma crc_byte_step8 c b : crc_byte c b = step8 (N.lxor c (nb b)).
Proof. reflexivity. Qed.

Lemma lt_pow2_bits c n : c < 2 ^ n -> forall k, n <= k -> N.testbit c k = false.
Proof.
  intros Hc k Hk. destruct (N.eq_dec c 0) as [->|Hz]; [apply N.bits_0|].
  apply N.bits_above_log2. apply N.log2_lt_pow2 in Hc; lia.
Qed.

Lemma bits_lt_pow2 c n : (forall k, n <= k -> N.testbit c k = false) -> c < 2 ^ n.
Proof.
  intros H. destruct (N.eq_dec c 0) as [->|Hz]; [apply N.neq_0_lt_0, N.pow_nonzero; lia|].
  apply N.log2_lt_pow2; [lia|]. destruct (N.lt_ge_cases (N.log2 c) n) as [|Hge]; [assumption|].
  specialize (H _ Hge). rewrite N.bit_log2 in H by assumption. discriminate.
Qed.

Lemma crc_step_lt c : c < 2 ^ 32 -> crc_step c < 2 ^ 32.
Proof.
  intros Hc. apply bits_lt_pow2. intros k Hk. rewrite crc_step_bit, (lt_pow2_bits c 32 Hc) by lia.
  rewrite (lt_pow2_bits 0xEDB88320 32) by (try assumption; vm_compute; reflexivity). now rewrite andb_false_r.
Qed.

Lemma step8_lt c : c < 2 ^ 32 -> step8 c < 2 ^ 32.
Proof. intros H. unfold step8. now do 8 apply crc_step_lt. Qed.

Lemma lxor_lt a b n : a < 2 ^ n -> b < 2 ^ n -> N.lxor a b < 2 ^ n.
Proof.
  intros Ha Hb. apply bits_lt_pow2. intros k Hk. now rewrite N.lxor_spec, (lt_pow2_bits a n), (lt_pow2_bits b n).
Qed.

Lemma nb_lt32 b : nb b < 2 ^ 32.
Proof. pose proof (nb_lt b). assert (256 < 2 ^ 32) by (vm_compute; reflexivity). lia. Qed.

Lemma crc_byte_lt c b : c < 2 ^ 32 -> crc_byte c b < 2 ^ 32.
Proof. intros H. rewrite crc_byte_step8. apply step8_lt, lxor_lt; [assumption|apply nb_lt32]. Qed.

Lemma crc_fold_lt l c : c < 2 ^ 32 -> fold_left crc_byte l c < 2 ^ 32.
Proof. revert c. induction l as [|b l IH]; intros c H; [assumption|]. cbn [fold_left]. apply IH, crc_byte_lt, H. Qed.

Lemma crc32_lt l : crc32 l < 2 ^ 32.
Proof. apply lxor_lt; [apply crc_fold_lt|]; vm_compute; reflexivity. Qed.

Lemma crc_step_zero c : c < 2 ^ 32 -> crc_step c = 0 -> c = 0.
Proof.
  intros Hc E. pose proof (crc_step_bit c 31) as H31. rewrite E, N.bits_0 in H31.
  rewrite (lt_pow2_bits c 32 Hc) in H31 by lia.
  assert (N.testbit c 0 = false) as H0 by (destruct (N.testbit c 0); [discriminate|reflexivity]).
  apply N.bits_inj. intros k. rewrite N.bits_0. destruct (N.eq_dec k 0) as [->|Hk]; [assumption|].
  pose proof (crc_step_bit c (k - 1)) as Hk1. rewrite E, N.bits_0, H0 in Hk1. replace (k - 1 + 1) with k in Hk1 by lia.
  destruct (N.testbit c k); [discriminate|reflexivity].
Qed.

Lemma step8_zero c : c < 2 ^ 32 -> step8 c = 0 -> c = 0.
Proof. intros Hc E. unfold step8 in E. do 8 (apply crc_step_zero in E; [|repeat apply crc_step_lt; assumption]). exact E. Qed.

Lemma step8_inj a b : a < 2 ^ 32 -> b < 2 ^ 32 -> step8 a = step8 b -> a = b.
Proof.
  intros Ha Hb E. apply N.lxor_eq. apply step8_zero; [now apply lxor_lt|]. rewrite step8_lxor, E. apply N.lxor_nilpotent.
Qed.

Lemma crc_byte_inj c c' b b' : c < 2 ^ 32 -> c' < 2 ^ 32 -> crc_byte c b = crc_byte c' b' -> N.lxor c (nb b) = N.lxor c' (nb b').
Proof. intros H H' E. apply step8_inj; try (apply lxor_lt; [assumption|apply nb_lt32]). exact E. Qed.

Lemma crc_fold_inj l c c' : c < 2 ^ 32 -> c' < 2 ^ 32 -> fold_left crc_byte l c = fold_left crc_byte l c' -> c = c'.
Proof.
  revert c c'. induction l as [|b l IH]; intros c c' H H' E; [exact E|]. cbn [fold_left] in E.
  apply IH in E; try now apply crc_byte_lt. apply crc_byte_inj in E; [|assumption..].
  rewrite !(N.lxor_comm _ (nb b)) in E.
  assert (N.lxor (nb b) (N.lxor (nb b) c) = N.lxor (nb b) (N.lxor (nb b) c')) as E' by congruence.
  now rewrite <- !N.lxor_assoc, N.lxor_nilpotent, !N.lxor_0_l in E'.
Qed.

(** *** The register *)

Definition reg (c : N) : list bool := map (fun k => N.testbit c (N.of_nat k)) (seq 0 32).

Lemma seq_bits f : map f (seq 0 32) = [f 0; f 1; f 2; f 3; f 4; f 5; f 6; f 7; f 8; f 9; f 10; f 11; f 12; f 13; f 14; f 15;
  f 16; f 17; f 18; f 19; f 20; f 21; f 22; f 23; f 24; f 25; f 26; f 27; f 28; f 29; f 30; f 31]%nat :> list bool.
Proof. reflexivity. Qed.

Lemma reg_step c b : c < 2 ^ 32 -> reg (crc_step (N.lxor c (if b : bool then 1 else 0))) = shift_in (reg c) b.
Proof.
  intros Hc. unfold reg. rewrite !seq_bits. cbn [shift_in app].
  assert (forall k, (0 < k)%nat -> N.testbit (N.lxor c (if b then 1 else 0)) (N.of_nat k) = N.testbit c (N.of_nat k)) as Hk.
  { intros k Hk. rewrite N.lxor_spec. destruct b; [|now rewrite N.bits_0, xorb_false_r].
    rewrite (lt_pow2_bits 1 1) by lia. apply xorb_false_r. }
  assert (N.testbit (N.lxor c (if b then 1 else 0)) 0 = xorb (N.testbit c 0) b) as H0.
  { rewrite N.lxor_spec. now destruct b. }
  assert (forall k, (k < 31)%nat -> N.testbit (crc_step (N.lxor c (if b then 1 else 0))) (N.of_nat k) =
    xorb (N.testbit c (N.of_nat (S k))) (xorb (N.testbit c (N.of_nat 0)) b && N.testbit 0xEDB88320 (N.of_nat k))) as Hs.
  { intros k Hk'. rewrite crc_step_bit, H0. replace (N.of_nat k + 1) with (N.of_nat (S k)) by lia. now rewrite Hk by lia. }
  assert (N.testbit (crc_step (N.lxor c (if b then 1 else 0))) (N.of_nat 31) =
    xorb false (xorb (N.testbit c (N.of_nat 0)) b && true)) as H31.
  { rewrite crc_step_bit, H0. replace (N.of_nat 31 + 1) with (N.of_nat 32) by lia. rewrite Hk by lia.
    rewrite (lt_pow2_bits c 32 Hc) by lia. reflexivity. }
  rewrite H31. repeat rewrite Hs by lia.
  replace generator with (map (fun k => N.testbit 0xEDB88320 (N.of_nat k)) (seq 0 32)) by (vm_compute; reflexivity).
  rewrite seq_bits. reflexivity.
Qed.

Lemma crc_step_split c n : crc_step (N.lxor c n) = N.lxor (crc_step (N.lxor c (if N.testbit n 0 then 1 else 0))) (N.shiftr n 1).
Proof.
  apply N.bits_inj. intros k. rewrite N.lxor_spec, !crc_step_bit, !N.lxor_spec, N.shiftr_spec'.
  assert (N.testbit (if N.testbit n 0 then 1 else 0) 0 = N.testbit n 0) as -> by now destruct (N.testbit n 0).
  assert (N.testbit (if N.testbit n 0 then 1 else 0) (k + 1) = false) as ->.
  { destruct (N.testbit n 0); [apply (lt_pow2_bits 1 1); lia|apply N.bits_0]. }
  destruct (N.testbit c (k + 1)), (N.testbit n (k + 1)), (N.testbit c 0), (N.testbit n 0), (N.testbit 0xEDB88320 k); reflexivity.
Qed.

Definition feed (c : N) (bits : list bool) : N :=
  fold_left (fun c (b : bool) => crc_step (N.lxor c (if b then 1 else 0))) bits c.

Lemma feed_reg bits c : c < 2 ^ 32 -> reg (feed c bits) = fold_left shift_in bits (reg c) /\ feed c bits < 2 ^ 32.
Proof.
  revert c. induction bits as [|b bits IH]; intros c Hc; [auto|]. cbn [feed fold_left].
  fold (feed (crc_step (N.lxor c (if b then 1 else 0))) bits). rewrite <- reg_step by assumption. apply IH.
  apply crc_step_lt, lxor_lt; [assumption|]. destruct b; vm_compute; reflexivity.
Qed.

Lemma crc_byte_feed c b : crc_byte c b = feed c (map (fun k => N.testbit (nb b) (N.of_nat k)) (seq 0 8)).
Proof.
  rewrite crc_byte_step8. unfold step8. cbn [feed seq map fold_left].
  rewrite (crc_step_split c (nb b)).
  rewrite (crc_step_split _ (N.shiftr (nb b) 1)), N.shiftr_shiftr.
  rewrite (crc_step_split _ (N.shiftr (nb b) (1 + 1))), N.shiftr_shiftr.
  rewrite (crc_step_split _ (N.shiftr (nb b) (1 + 1 + 1))), N.shiftr_shiftr.
  rewrite (crc_step_split _ (N.shiftr (nb b) (1 + 1 + 1 + 1))), N.shiftr_shiftr.
  rewrite (crc_step_split _ (N.shiftr (nb b) (1 + 1 + 1 + 1 + 1))), N.shiftr_shiftr.
  rewrite (crc_step_split _ (N.shiftr (nb b) (1 + 1 + 1 + 1 + 1 + 1))), N.shiftr_shiftr.
  rewrite (crc_step_split _ (N.shiftr (nb b) (1 + 1 + 1 + 1 + 1 + 1 + 1))), N.shiftr_shiftr.
  rewrite !N.shiftr_spec'.
  assert (N.shiftr (nb b) (1 + 1 + 1 + 1 + 1 + 1 + 1 + 1) = 0) as ->.
  { rewrite N.shiftr_div_pow2. apply N.div_small, nb_lt. }
  rewrite N.lxor_0_r. reflexivity.
Qed.

Lemma crc_register_spec l : reg (fold_left crc_byte l 0xFFFFFFFF) = crc_register l.
Proof.
  unfold crc_register. replace (repeat true 32) with (reg 0xFFFFFFFF) by (vm_compute; reflexivity).
  assert (forall c, c < 2 ^ 32 -> reg (fold_left crc_byte l c) = fold_left shift_in
    (flat_map (fun b => map (fun k => N.testbit (nb b) (N.of_nat k)) (seq 0 8)) l) (reg c)) as H; [|apply H; vm_compute; reflexivity].
  induction l as [|b l IH]; intros c Hc; [reflexivity|]. cbn [fold_left flat_map].
  rewrite fold_left_app, IH by now apply crc_byte_lt. rewrite crc_byte_feed.
  destruct (feed_reg (map (fun k => N.testbit (nb b) (N.of_nat k)) (seq 0 8)) c Hc) as [-> _]. reflexivity.
Qed.

Lemma be_fixed_4 n : be_fixed 4 n = [u8 (n / 256 / 256 / 256); u8 (n / 256 / 256); u8 (n / 256); u8 n].
Proof. reflexivity. Qed.

Lemma u8_bit n k : k < 8 -> N.testbit (nb (u8 n)) k = N.testbit n k.
Proof. intros Hk. rewrite nb_u8. change 256 with (2 ^ 8). now rewrite N.mod_pow2_bits_low. Qed.

Lemma div_bit n k : N.testbit (n / 256) k = N.testbit n (k + 8).
Proof. change 256 with (2 ^ 8). rewrite <- N.shiftr_div_pow2. apply N.shiftr_spec'. Qed.

Lemma be_fixed_bit n k : (k < 32)%nat ->
  exists b, nth_error (be_fixed 4 n) (3 - k / 8) = Some b /\ N.testbit (nb b) (N.of_nat (k mod 8)) = N.testbit n (N.of_nat k).
Proof.
  intros Hk. rewrite be_fixed_4. pose proof (Nat.div_mod k 8). pose proof (Nat.mod_upper_bound k 8).
  assert (k / 8 = 0 \/ k / 8 = 1 \/ k / 8 = 2 \/ k / 8 = 3)%nat as [E|[E|[E|E]]] by lia; rewrite E; cbn [nth_error Nat.sub];
    eexists; (split; [reflexivity|]); rewrite u8_bit, ?div_bit by lia; f_equal; lia.
Qed.

Lemma nth_lookup {A} (l : list A) k : nth_error l k = l !! k.
Proof. revert k. induction l as [|a l IH]; intros [|k]; cbn; auto. Qed.

Lemma reg_nth c k : (k < 32)%nat -> nth_error (reg c) k = Some (N.testbit c (N.of_nat k)).
Proof.
  intros Hk. unfold reg. erewrite map_nth_error; [reflexivity|]. rewrite nth_lookup, lookup_seq. lia.
Qed.

Lemma ones_bit k : (k < 32)%nat -> N.testbit 0xFFFFFFFF (N.of_nat k) = true.
Proof. intros Hk. apply (N.ones_spec_low 32). lia. Qed.

Lemma crc_of_model p : crc_of p (be_fixed 4 (crc32 p)).
Proof.
  split; [apply be_fixed_length|]. intros k Hk. destruct (be_fixed_bit (crc32 p) k Hk) as (b & Eb & Et).
  exists b, (N.testbit (fold_left crc_byte p 0xFFFFFFFF) (N.of_nat k)). split; [exact Eb|].
  rewrite <- crc_register_spec, reg_nth by assumption. split; [reflexivity|]. rewrite Et. unfold crc32.
  rewrite N.lxor_spec, ones_bit by assumption. now rewrite xorb_true_r.
Qed.

Lemma byte_bits_eq a b : (forall j, (j < 8)%nat -> N.testbit (nb a) (N.of_nat j) = N.testbit (nb b) (N.of_nat j)) -> a = b.
Proof.
  intros H. apply nb_inj, N.bits_inj. intros k. destruct (N.lt_ge_cases k 8) as [Hk|Hk].
  - specialize (H (N.to_nat k) ltac:(lia)). now rewrite N2Nat.id in H.
  - rewrite !(lt_pow2_bits _ 8); auto; apply nb_lt.
Qed.

Lemma crc_of_fun p c c' : crc_of p c -> crc_of p c' -> c = c'.
Proof.
  intros [L H] [L' H']. apply list_eq_same_length with 4%nat; [exact L'|exact L|].
  intros i a b Hi Ea Eb. apply byte_bits_eq. intros j Hj.
  destruct (H (8 * (3 - i) + j)%nat ltac:(lia)) as (b1 & r1 & E1 & R1 & T1).
  destruct (H' (8 * (3 - i) + j)%nat ltac:(lia)) as (b2 & r2 & E2 & R2 & T2).
  assert ((8 * (3 - i) + j) / 8 = 3 - i)%nat as Ed by (rewrite Nat.mul_comm, Nat.div_add_l, Nat.div_small by lia; lia).
  assert ((8 * (3 - i) + j) mod 8 = j)%nat as Em by (rewrite Nat.add_comm, Nat.mul_comm, Nat.mod_add, Nat.mod_small by lia; lia).
  rewrite Ed, Em in *. replace (3 - (3 - i))%nat with i in * by lia. rewrite nth_lookup in E1, E2. congruence.
Qed.

(** *** Base 32 as a number *)

Lemma number_app base l m : number base (l ++ m) = number base l * base ^ N.of_nat (length m) + number base m.
Proof.
  unfold number. rewrite fold_left_app. generalize (fold_left (fun a d => a * base + d) l 0).
  assert (forall m a, fold_left (fun a d => a * base + d) m a
    = a * base ^ N.of_nat (length m) + fold_left (fun a d => a * base + d) m 0) as H; [|intros; apply H].
  clear. induction m as [|d m IH]; intros a; cbn [fold_left length]; [cbn; lia|].
  rewrite (IH (a * base + d)), (IH (0 * base + d)), Nat2N.inj_succ, N.pow_succ_r'. lia.
Qed.

Lemma number_cons base d l : number base (d :: l) = d * base ^ N.of_nat (length l) + number base l.
Proof. change (d :: l) with ([d] ++ l). rewrite number_app. unfold number at 1. cbn [fold_left]. lia. Qed.

Lemma number_bits w vs : Forall (fun n => n < 2 ^ N.of_nat w) vs -> number (2 ^ N.of_nat w) vs = of_bits (flat_map (bits_of w) vs).
Proof.
  induction 1 as [|v vs Hv _ IH]; [reflexivity|]. rewrite number_cons. cbn [flat_map].
  rewrite of_bits_app, IH, flat_bits_length, of_bits_of, N.mod_small by assumption. f_equal. f_equal.
  rewrite <- N.pow_mul_r. f_equal. lia.
Qed.

Lemma zeros_bits k : of_bits (repeat false k) = 0.
Proof. induction k as [|k IH]; [reflexivity|]. cbn [repeat]. rewrite of_bits_cons, IH. lia. Qed.

Lemma nb_small l : Forall (fun n => n < 2 ^ N.of_nat 8) (map nb l).
Proof. apply List.Forall_forall. intros n Hn. apply in_map_iff in Hn as (b & <- & _). apply nb_lt. Qed.

Lemma base32_model l : base32_text l (b32_encode l).
Proof.
  destruct (b32_encode_values l) as (vs & k & -> & Hvs & Hk & E). exists vs. split; [assumption|].
  pose proof (f_equal (@length bool) E) as EL. rewrite flat_bits_length, app_length, repeat_length, byte_bits_length in EL.
  split; [|split; [lia|]].
  - apply map_ext_in. intros n Hn. rewrite List.Forall_forall in Hvs. now destruct (symbol_upper n (Hvs n Hn)) as (_ & _ & _ & ?).
  - change 32 with (2 ^ N.of_nat 5). change 256 with (2 ^ N.of_nat 8). rewrite (number_bits 5), (number_bits 8) by (assumption || apply nb_small).
    rewrite E, of_bits_app, zeros_bits, repeat_length, N.add_0_r. f_equal.
    + f_equal. unfold byte_bits. rewrite !flat_map_concat_map, map_map. reflexivity.
    + f_equal. lia.
Qed.

Lemma number_inj w vs ws : Forall (fun n => n < 2 ^ N.of_nat w) vs -> Forall (fun n => n < 2 ^ N.of_nat w) ws ->
  length vs = length ws -> number (2 ^ N.of_nat w) vs = number (2 ^ N.of_nat w) ws -> vs = ws.
Proof.
  intros Hv Hw HL E. rewrite !number_bits in E by assumption. apply (flat_bits_inj w); try assumption.
  apply of_bits_inj; [|assumption]. rewrite !flat_bits_length. congruence.
Qed.

Lemma base32_fun b s s' : base32_text b s -> base32_text b s' -> s = s'.
Proof.
  intros (ds & Hd & -> & L & E) (ds' & Hd' & -> & L' & E'). f_equal.
  assert (length ds = length ds') as HL by lia. apply (number_inj 5); try assumption.
  change (2 ^ N.of_nat 5) with 32. rewrite E, E', HL. reflexivity.
Qed.

(** *** Grouping *)

Lemma grouped_model fuel s : (length s <= fuel)%nat -> grouped s (with_dashes fuel s).
Proof.
  revert s. induction fuel as [|fuel IH]; intros s Hs; [apply g_last; cbn; lia|]. cbn [with_dashes].
  destruct (5 <? length s)%nat eqn:E; [|apply g_last; apply Nat.ltb_ge in E; lia]. apply Nat.ltb_lt in E.
  rewrite <- (take_drop 5 s) at 1. apply g_more.
  - rewrite take_length. lia.
  - intros Hd. apply (f_equal (@length byte)) in Hd. rewrite drop_length in Hd. cbn in Hd. lia.
  - apply IH. rewrite drop_length. lia.
Qed.

Lemma grouped_fun s t t' : grouped s t -> grouped s t' -> t = t'.
Proof.
  intros H. revert t'. induction H as [s Hs|a s t La Hn Hg IH]; intros t' H'; inversion H' as [s' Hs' E1 E2|a' s' t'' La' Hn' Hg' E1 E2]; subst.
  - reflexivity.
  - rewrite app_length in Hs. destruct s'; [congruence|cbn in Hs; lia].
  - rewrite app_length in Hs'. destruct s; [congruence|cbn in Hs'; lia].
  - apply app_inj_len in E1 as [-> ->]; [|congruence]. now rewrite (IH _ Hg').
Qed.

Lemma text_model p : principal_text p (principal_to_text p).
Proof.
  exists (be_fixed 4 (crc32 p)), (b32_encode (be_fixed 4 (crc32 p) ++ p)).
  split; [apply crc_of_model|]. split; [apply base32_model|]. now apply grouped_model.
Qed.

Lemma text_fun p t t' : principal_text p t -> principal_text p t' -> t = t'.
Proof.
  intros (c & s & Hc & Hs & Hg) (c' & s' & Hc' & Hs' & Hg'). rewrite (crc_of_fun p c' c Hc' Hc) in Hs'.
  rewrite (base32_fun _ _ _ Hs' Hs) in Hg'. eapply grouped_fun; eassumption.
Qed.

(** *** Case *)

Lemma text_chars p c : In c (principal_to_text p) -> to_lower c = c.
Proof.
  unfold principal_to_text. destruct (b32_encode_values (be_fixed 4 (crc32 p) ++ p)) as (vs & k & -> & Hvs & _).
  assert (Forall (fun c => to_lower c = c) (map b32_symbol vs)) as H.
  { apply List.Forall_forall. intros d Hd. apply in_map_iff in Hd as (n & <- & Hn). rewrite List.Forall_forall in Hvs.
    specialize (Hvs n Hn). clear Hn. revert n Hvs. apply below_32. repeat constructor; vm_compute; reflexivity. }
  revert H. generalize (map b32_symbol vs). intros s. generalize (length s). intros fuel. revert s.
  induction fuel as [|fuel IH]; intros s H Hc; cbn [with_dashes] in Hc; [rewrite List.Forall_forall in H; auto|].
  destruct (5 <? length s)%nat; [|rewrite List.Forall_forall in H; auto].
  apply in_app_iff in Hc as [Hc|Hc].
  - apply (Forall_take _ 5) in H. rewrite List.Forall_forall in H. auto.
  - apply in_app_iff in Hc as [Hc|Hc]; [destruct Hc as [<-|[]]; reflexivity|]. eapply IH; [|exact Hc]. now apply Forall_drop.
Qed.

Lemma same_letter_lower c d : to_lower d = d -> same_letter c d <-> to_lower c = d.
Proof.
  intros Hd. split.
  - intros [->|(k & Hk & [[Ea Eb]|[Ea Eb]])]; [assumption| |].
    + apply nb_inj. rewrite Eb. unfold to_lower.
      assert ((65 <=? nb c) && (nb c <=? 90) = true) as -> by lia. rewrite nb_u8, Ea. rewrite N.mod_small; lia.
    + exfalso. unfold to_lower in Hd. assert ((65 <=? nb d) && (nb d <=? 90) = true) as E by lia. rewrite E in Hd.
      apply (f_equal nb) in Hd. rewrite nb_u8, N.mod_small in Hd; lia.
  - intros <-. unfold to_lower. destruct ((65 <=? nb c) && (nb c <=? 90)) eqn:E; [|now left]. right.
    exists (nb c - 65). split; [lia|]. left. split; [lia|]. rewrite nb_u8, N.mod_small; lia.
Qed.

Lemma same_but_case_lower s t : (forall c, In c t -> to_lower c = c) -> same_but_case s t <-> map to_lower s = t.
Proof.
  intros Ht. split.
  - intros H. induction H as [|a b s t Hab _ IH]; [reflexivity|]. cbn [map]. f_equal; [|apply IH; intros; apply Ht; now right].
    apply same_letter_lower; [apply Ht; now left|assumption].
  - intros <-. induction s as [|a s IH]; [constructor|]. cbn [map]. constructor; [|apply IH; intros; apply Ht; now right].
    apply same_letter_lower; [apply Ht; now left|reflexivity].
Qed.


Lemma from_text_denotes t p : principal_from_text t = Some p <-> denotes t p.
Proof.
  rewrite from_text_iff. split.
  - intros [Hp E]. split; [assumption|]. exists (principal_to_text p). split; [apply text_model|].
    apply same_but_case_lower; [apply text_chars|assumption].
  - intros (Hp & u & Hu & Hs). split; [assumption|]. rewrite (text_fun _ _ _ Hu (text_model p)) in Hs.
    apply same_but_case_lower in Hs; [assumption|apply text_chars].
Qed.
