(** Wrong characters in a principal's text are noticed. *)
From Coq Require Import Strings.String ZifyBool ZifyN ZifyNat.
From Verif Require Import Base BaseLemmas Eth Encode PrincipalText SpecPrincipal.
Local Open Scope N_scope.
From Verif Require Import PrincipalProofs.
(** ** Two wrong characters side by side *)

(** Lists of the same length that agree everywhere but at [j] and [j + 1]. *)
Definition near {A} (j : nat) (l m : list A) : Prop := length l = length m /\ forall i, i <> j -> i <> S j -> l !! i = m !! i.

Lemma dashes_length fuel s : (length s <= fuel)%nat -> length (with_dashes fuel s) = (length s + (length s - 1) / 5)%nat.
Proof.
  revert s. induction fuel as [|fuel IH]; intros s Hs; [assert (length s = 0)%nat as -> by lia; cbn; lia|]. cbn [with_dashes].
  destruct (5 <? length s)%nat eqn:E.
  - apply Nat.ltb_lt in E. rewrite !app_length, IH by (rewrite drop_length; lia). rewrite take_length, drop_length. cbn [length bs list_byte_of_string].
    replace (length s - 1)%nat with ((length s - 5 - 1) + 1 * 5)%nat by lia. rewrite Nat.div_add by lia.
    change (length (bs "-")) with 1%nat. lia.
  - apply Nat.ltb_ge in E. rewrite Nat.div_small by lia. lia.
Qed.

Lemma dashes_lookup fuel s i : (length s <= fuel)%nat -> (i < length s)%nat -> with_dashes fuel s !! (i + i / 5)%nat = s !! i.
Proof.
  revert s i. induction fuel as [|fuel IH]; intros s i Hs Hi; [lia|]. cbn [with_dashes].
  destruct (5 <? length s)%nat eqn:E.
  - apply Nat.ltb_lt in E. assert (length (take 5 s) = 5%nat) as L5 by (rewrite take_length; lia).
    destruct (Nat.lt_ge_cases i 5) as [Hlt|Hge].
    + rewrite Nat.div_small, Nat.add_0_r by lia. rewrite lookup_app_l by lia. rewrite lookup_take by lia. reflexivity.
    + rewrite app_assoc, lookup_app_r by (rewrite app_length, L5; change (length (bs "-")) with 1%nat; lia).
      rewrite app_length, L5. change (length (bs "-")) with 1%nat.
      assert (i = (i - 5) + 1 * 5)%nat as Ei by lia. rewrite Ei at 2. rewrite Nat.div_add by lia.
      replace (i + ((i - 5) / 5 + 1) - (5 + 1))%nat with ((i - 5) + (i - 5) / 5)%nat by lia.
      rewrite IH by (rewrite drop_length; lia). rewrite lookup_drop. f_equal. lia.
  - apply Nat.ltb_ge in E. rewrite Nat.div_small, Nat.add_0_r by lia. reflexivity.
Qed.

Lemma dashes_near j s s' : length s = length s' ->
  near j (with_dashes (length s) s) (with_dashes (length s') s') -> near (j - j / 6) s s'.
Proof.
  intros HL [_ H]. split; [assumption|]. intros i Hi Hi'. destruct (Nat.lt_ge_cases i (length s)) as [Hlt|Hge].
  - rewrite <- (dashes_lookup (length s) s i), <- (dashes_lookup (length s') s' i) by lia.
    pose proof (Nat.div_mod i 5 ltac:(lia)). pose proof (Nat.mod_upper_bound i 5 ltac:(lia)).
    pose proof (Nat.div_mod j 6 ltac:(lia)). pose proof (Nat.mod_upper_bound j 6 ltac:(lia)). apply H; lia.
  - rewrite !lookup_ge_None_2 by lia. reflexivity.
Qed.

Lemma symbols_near j vs ws : Forall (fun n => n < 32) vs -> Forall (fun n => n < 32) ws ->
  near j (map b32_symbol vs) (map b32_symbol ws) -> near j vs ws.
Proof.
  intros Hv Hw [HL H]. rewrite !map_length in HL. split; [assumption|]. intros i Hi Hi'. specialize (H i Hi Hi').
  rewrite !list_lookup_fmap in H || (change (map b32_symbol vs) with (b32_symbol <$> vs) in H;
    change (map b32_symbol ws) with (b32_symbol <$> ws) in H; rewrite !list_lookup_fmap in H).
  destruct (vs !! i) as [v|] eqn:Ev, (ws !! i) as [w|] eqn:Ew; try discriminate; [|reflexivity].
  cbn in H. injection H as H. f_equal. rewrite Forall_lookup in Hv, Hw.
  destruct (symbol_upper v (Hv _ _ Ev)) as [V _]. destruct (symbol_upper w (Hw _ _ Ew)) as [W _]. congruence.
Qed.

Lemma flat_lookup w vs n : (0 < w)%nat ->
  flat_map (bits_of w) vs !! n = match vs !! (n / w)%nat with Some v => bits_of w v !! (n mod w)%nat | None => None end.
Proof.
  intros Hw. revert n. induction vs as [|v vs IH]; intros n; cbn [flat_map]; [reflexivity|].
  destruct (Nat.lt_ge_cases n w) as [Hlt|Hge].
  - rewrite lookup_app_l by (rewrite bits_of_length; lia). rewrite Nat.div_small, Nat.mod_small by lia. reflexivity.
  - rewrite lookup_app_r, bits_of_length by (rewrite bits_of_length; lia). rewrite IH.
    assert (n / w = S ((n - w) / w))%nat as ->.
    { assert (n = (n - w) + 1 * w)%nat as E by lia. rewrite E at 1. rewrite Nat.div_add by lia. lia. }
    assert (n mod w = (n - w) mod w)%nat as ->; [|reflexivity].
    assert (n = (n - w) + 1 * w)%nat as E by lia. rewrite E at 1. rewrite Nat.mod_add by lia. reflexivity.
Qed.

(** Two symbols touch at most three neighbouring bytes. *)
Lemma bytes_near j vs ws k k' (x y : bytes) : near j vs ws -> length x = length y ->
  flat_map (bits_of 5) vs = byte_bits x ++ repeat false k -> flat_map (bits_of 5) ws = byte_bits y ++ repeat false k' ->
  forall i, (i < 5 * j / 8 \/ (5 * j + 9) / 8 < i)%nat -> x !! i = y !! i.
Proof.
  intros [_ H] HL Ex Ey i Hi. destruct (Nat.lt_ge_cases i (length x)) as [Hlt|Hge];
    [|rewrite !lookup_ge_None_2 by lia; reflexivity].
  assert (forall n, (8 * i <= n < 8 * i + 8)%nat -> byte_bits x !! n = byte_bits y !! n) as Hb.
  { intros n Hn. rewrite <- (lookup_app_l (byte_bits x) (repeat false k)) by (rewrite byte_bits_length; lia).
    rewrite <- (lookup_app_l (byte_bits y) (repeat false k')) by (rewrite byte_bits_length; lia).
    rewrite <- Ex, <- Ey, !flat_lookup by lia. 
    pose proof (Nat.div_mod n 5 ltac:(lia)). pose proof (Nat.mod_upper_bound n 5 ltac:(lia)).
    pose proof (Nat.div_mod (5 * j) 8 ltac:(lia)). pose proof (Nat.mod_upper_bound (5 * j) 8 ltac:(lia)).
    pose proof (Nat.div_mod (5 * j + 9) 8 ltac:(lia)). pose proof (Nat.mod_upper_bound (5 * j + 9) 8 ltac:(lia)).
    rewrite H; [reflexivity|lia..]. }
  destruct (lookup_lt_is_Some_2 x i) as [a Ea]; [lia|]. destruct (lookup_lt_is_Some_2 y i) as [b Eb]; [lia|].
  rewrite Ea, Eb. f_equal.
  assert (forall (l : bytes) c m, l !! i = Some c -> (m < 8)%nat -> byte_bits l !! (8 * i + m)%nat = bits_of 8 (nb c) !! m) as Hl.
  { intros l c m El Hm. unfold byte_bits. replace (flat_map (fun b => bits_of 8 (nb b)) l) with (flat_map (bits_of 8) (map nb l)).
    2:{ rewrite !flat_map_concat_map, map_map. reflexivity. }
    rewrite flat_lookup by lia. rewrite Nat.mul_comm, Nat.div_add_l, Nat.div_small, Nat.add_0_r by lia.
    rewrite Nat.add_comm, Nat.mod_add, Nat.mod_small by lia. change (map nb l) with (nb <$> l). rewrite list_lookup_fmap, El. reflexivity. }
  assert (bits_of 8 (nb a) = bits_of 8 (nb b)) as E.
  { apply list_eq. intros m. destruct (Nat.lt_ge_cases m 8) as [Hm|Hm].
    - rewrite <- (Hl x a m Ea Hm), <- (Hl y b m Eb Hm). apply Hb. lia.
    - rewrite !lookup_ge_None_2 by (rewrite bits_of_length; lia). reflexivity. }
  apply (f_equal of_bits) in E. rewrite !of_bits_of in E. pose proof (nb_lt a). pose proof (nb_lt b).
  change (2 ^ N.of_nat 8) with 256 in E. rewrite !N.mod_small in E by assumption. now apply nb_inj.
Qed.

(** The checksum notices any change in two neighbouring bytes. *)
Fixpoint steps (n : nat) (c : N) : N := match n with O => c | S n' => steps n' (step8 c) end.

Lemma steps_one c : steps 1 c = step8 c.
Proof. reflexivity. Qed.
Lemma steps_S n c : steps (S n) c = steps n (step8 c).
Proof. reflexivity. Qed.
Lemma fold_cons (x : byte) l c : fold_left crc_byte (x :: l) c = fold_left crc_byte l (crc_byte c x).
Proof. reflexivity. Qed.
Lemma fold_nil c : fold_left crc_byte [] c = c.
Proof. reflexivity. Qed.
Opaque crc_byte step8 crc32 steps.

Fixpoint far (n : nat) (c : N) : bool := match n with O => true | S n' => (256 <=? step8 c) && far n' (step8 c) end.

Lemma far_S n c : far (S n) c = (256 <=? step8 c) && far n (step8 c).
Proof. reflexivity. Qed.

Lemma far_all : forallb (far 29) (map N.of_nat (seq 1 255)) = true.
Proof. vm_compute. reflexivity. Qed.

Opaque far.

Lemma far_steps n c : far n c = true -> forall m, (1 <= m <= n)%nat -> 256 <= steps m c.
Proof.
  revert c. induction n as [|n IH]; intros c H m Hm; [lia|]. rewrite far_S in H. apply andb_true_iff in H as [H1 H2].
  destruct m as [|[|m]]; [lia|rewrite steps_one; lia|]. rewrite steps_S. apply (IH _ H2). lia.
Qed.

Lemma steps_spread n d : (1 <= n <= 29)%nat -> 0 < d < 256 -> 256 <= steps n d.
Proof.
  intros Hn Hd. apply (far_steps 29); [|assumption]. pose proof far_all as H. rewrite forallb_forall in H.
  apply H, in_map_iff. exists (N.to_nat d). split; [lia|apply in_seq; lia].
Qed.

Lemma fold_delta l c c' : N.lxor (fold_left crc_byte l c) (fold_left crc_byte l c') = steps (length l) (N.lxor c c').
Proof.
  revert c c'. induction l as [|b l IH]; intros c c'; [rewrite !fold_nil; reflexivity|]. rewrite !fold_cons, IH. cbn [length]. rewrite steps_S. f_equal.
  rewrite !crc_byte_step8, <- step8_lxor. f_equal.
  rewrite N.lxor_assoc, (N.lxor_comm (nb b)), N.lxor_assoc, N.lxor_nilpotent, N.lxor_0_r. reflexivity.
Qed.

Lemma byte_delta (c : N) x y : N.lxor (crc_byte c x) (crc_byte c y) = step8 (N.lxor (nb x) (nb y)).
Proof.
  rewrite !crc_byte_step8, <- step8_lxor. f_equal. rewrite (N.lxor_comm c (nb x)), N.lxor_assoc, <- (N.lxor_assoc c), N.lxor_nilpotent, N.lxor_0_l.
  reflexivity.
Qed.

Lemma lxor_bytes x y : N.lxor (nb x) (nb y) < 256 /\ (x <> y -> 0 < N.lxor (nb x) (nb y)).
Proof.
  split; [apply (lxor_lt _ _ 8); apply nb_lt|]. intros Hne. apply N.neq_0_lt_0. intros E. apply N.lxor_eq in E. now apply Hne, nb_inj.
Qed.

Definition CRC0 : N := 0xFFFFFFFF.
Lemma CRC0_lt : CRC0 < 2 ^ 32.
Proof. vm_compute. reflexivity. Qed.

Lemma crc32_delta p q : N.lxor (crc32 p) (crc32 q) = N.lxor (fold_left crc_byte p CRC0) (fold_left crc_byte q CRC0).
Proof.
  Transparent crc32. unfold crc32. Opaque crc32. fold CRC0. set (a := fold_left _ p _). set (b := fold_left _ q _).
  rewrite (N.lxor_comm b), N.lxor_assoc, <- (N.lxor_assoc CRC0), N.lxor_nilpotent, N.lxor_0_l. reflexivity.
Qed.

Lemma step8_small d : d < 2 ^ 24 -> step8 (256 * d) = d.
Proof.
  intros Hd. Transparent step8. unfold step8. Opaque step8.
  assert (forall e, crc_step (2 * e) = e) as E.
  { intros e. unfold crc_step. rewrite N.testbit_even_0. rewrite <- N.div2_spec. destruct e; reflexivity. }
  replace (256 * d) with (2 * (2 * (2 * (2 * (2 * (2 * (2 * (2 * d)))))))) by lia. now rewrite !E.
Qed.

(** The register after a difference has gone in. *)
Fixpoint run (ds : list N) (c : N) : N := match ds with [] => c | d :: r => run r (step8 (N.lxor c d)) end.

Lemma run_app a b c : run (a ++ b) c = run b (run a c).
Proof. revert c. induction a as [|d a IH]; intros c; [reflexivity|]. cbn [app run]. apply IH. Qed.

Lemma run_lt ds c : c < 2 ^ 32 -> Forall (fun d => d < 256) ds -> run ds c < 2 ^ 32.
Proof.
  intros Hc H. revert c Hc. induction H as [|d ds Hd _ IH]; intros c Hc; cbn [run]; [assumption|].
  apply IH, step8_lt, lxor_lt; [assumption|]. eapply N.lt_trans; [exact Hd|reflexivity].
Qed.

(** Four bytes fit into the register: none of their differences is lost. *)
Lemma run_zero ds k e : Forall (fun d => d < 256) ds -> (length ds + k <= 4)%nat -> e < 256 ^ N.of_nat k -> run ds 0 = e ->
  e = 0 /\ Forall (fun d => d = 0) ds.
Proof.
  revert k e. induction ds as [|d ds IH] using rev_ind; intros k e H HL He E; [cbn [run] in E; auto|].
  rewrite app_length in HL. cbn [length] in HL. apply List.Forall_app in H as [H Hd]. apply List.Forall_cons_iff in Hd as [Hd _].
  rewrite run_app in E. cbn [run] in E.
  assert (e < 2 ^ 24) as He'.
  { eapply N.lt_le_trans; [exact He|]. change (2 ^ 24) with (256 ^ 3). apply N.pow_le_mono_r; lia. }
  assert (d < 2 ^ 32) as Hd' by (eapply N.lt_trans; [exact Hd|reflexivity]).
  rewrite <- (step8_small e He') in E. apply step8_inj in E; [|apply lxor_lt; [now apply run_lt|assumption]|lia].
  assert (run ds 0 = N.lxor (256 * e) d) as Er.
  { rewrite <- E, N.lxor_assoc, N.lxor_nilpotent, N.lxor_0_r. reflexivity. }
  assert (N.lxor (256 * e) d = 256 * e + d) as Ex.
  { rewrite N.mul_comm. change 256 with (2 ^ 8). rewrite <- N.shiftl_mul_pow2. symmetry. apply N.add_nocarry_lxor.
    apply N.bits_inj. intros n. rewrite N.land_spec, N.bits_0. destruct (N.lt_ge_cases n 8) as [Hn|Hn].
    - rewrite N.shiftl_spec_low by assumption. reflexivity.
    - assert (N.testbit d n = false) as ->; [|apply andb_false_r].
      destruct (N.eq_dec d 0) as [->|Hz]; [apply N.bits_0|]. apply N.bits_above_log2.
      apply N.log2_lt_pow2; [lia|]. eapply N.lt_le_trans; [exact Hd|]. change 256 with (2 ^ 8). apply N.pow_le_mono_r; lia. }
  rewrite Ex in Er.
  assert (256 * e + d < 256 ^ N.of_nat (S k)) as Hb by (rewrite Nat2N.inj_succ, N.pow_succ_r'; nia).
  destruct (IH (S k) _ H ltac:(lia) Hb Er) as [E0 HF]. split; [lia|]. apply List.Forall_app. split; [assumption|].
  constructor; [lia|constructor].
Qed.

Lemma fold_run x y c c' : length x = length y ->
  N.lxor (fold_left crc_byte x c) (fold_left crc_byte y c') = run (zip_with (fun a b => N.lxor (nb a) (nb b)) x y) (N.lxor c c').
Proof.
  revert y c c'. induction x as [|a x IH]; intros [|b y] c c' HL; try discriminate HL; [reflexivity|].
  rewrite !fold_cons. cbn [zip_with run]. rewrite IH by (cbn in HL; lia). f_equal. rewrite !crc_byte_step8, <- step8_lxor. f_equal.
  apply N.bits_inj. intros k. rewrite !N.lxor_spec.
  destruct (N.testbit c k), (N.testbit c' k), (N.testbit (nb a) k), (N.testbit (nb b) k); reflexivity.
Qed.

Lemma window_eq a r x y : length x = length y -> (length x <= 4)%nat -> crc32 (a ++ x ++ r) = crc32 (a ++ y ++ r) -> x = y.
Proof.
  intros HL H4 E. assert (N.lxor (crc32 (a ++ x ++ r)) (crc32 (a ++ y ++ r)) = 0) as E0 by (rewrite E; apply N.lxor_nilpotent).
  rewrite crc32_delta in E0. apply N.lxor_eq in E0. rewrite !fold_left_app in E0.
  pose proof (crc_fold_lt a CRC0 CRC0_lt) as Hc. set (c := fold_left crc_byte a CRC0) in *.
  apply crc_fold_inj in E0; [|now apply crc_fold_lt..].
  assert (N.lxor (fold_left crc_byte x c) (fold_left crc_byte y c) = 0) as E1 by (rewrite E0; apply N.lxor_nilpotent).
  rewrite fold_run, N.lxor_nilpotent in E1 by assumption.
  apply (run_zero _ 0) in E1 as [_ E1]; [|clear; revert y; induction x as [|b x IH]; intros [|d y]; constructor; [apply lxor_bytes|apply IH]
                                        |rewrite zip_with_length; lia|reflexivity].
  clear -E1 HL. revert y HL E1. induction x as [|b x IH]; intros [|d y] HL E1; try discriminate HL; [reflexivity|].
  cbn [zip_with] in E1. apply List.Forall_cons_iff in E1 as [E1 E2]. apply N.lxor_eq in E1. f_equal; [now apply nb_inj|].
  apply IH; [now injection HL|assumption].
Qed.

Lemma first_far x y r : (length r < 29)%nat -> x <> y -> 256 <= N.lxor (crc32 (x :: r)) (crc32 (y :: r)).
Proof.
  intros Hr Ne. rewrite crc32_delta, !fold_cons, fold_delta, byte_delta, <- steps_S.
  destruct (lxor_bytes x y) as [L P]. specialize (P Ne). apply (steps_spread (S (length r))); lia.
Qed.

Lemma be_fixed_inj w a b : a < 256 ^ N.of_nat w -> b < 256 ^ N.of_nat w -> be_fixed w a = be_fixed w b -> a = b.
Proof.
  revert a b. induction w as [|w IH]; intros a b Ha Hb E; [change (256 ^ N.of_nat 0) with 1 in *; lia|].
  cbn [be_fixed] in E. apply app_inj_tail in E as [E1 E2]. rewrite Nat2N.inj_succ, N.pow_succ_r' in Ha, Hb.
  apply IH in E1; [|apply N.div_lt_upper_bound; lia..]. apply (f_equal nb) in E2. rewrite !nb_u8 in E2.
  rewrite (N.div_mod a 256), (N.div_mod b 256) by lia. congruence.
Qed.

Lemma crc_bytes_eq p q : be_fixed 4 (crc32 p) = be_fixed 4 (crc32 q) -> crc32 p = crc32 q.
Proof. apply be_fixed_inj; apply (crc32_lt _). Qed.

Lemma crc_bytes_close a b : a < 2 ^ 32 -> b < 2 ^ 32 -> be_fixed 3 (a / 256) = be_fixed 3 (b / 256) -> N.lxor a b < 256.
Proof.
  intros Ha Hb E. apply be_fixed_inj in E; [|change (256 ^ N.of_nat 3) with (2 ^ 24); apply N.div_lt_upper_bound; [lia|assumption]..].
  assert (N.shiftr (N.lxor a b) 8 = 0) as E0.
  { rewrite N.shiftr_lxor, !N.shiftr_div_pow2. change (2 ^ 8) with 256. rewrite E. apply N.lxor_nilpotent. }
  rewrite N.shiftr_div_pow2 in E0. change (2 ^ 8) with 256 in E0. apply N.div_small_iff in E0; lia.
Qed.

Lemma typo_model p q j : (length p <= 29)%nat -> (length q <= 29)%nat ->
  near j (principal_to_text p) (principal_to_text q) -> p = q.
Proof.
  intros Hp Hq Hn. unfold principal_to_text in Hn.
  destruct (b32_encode_values (be_fixed 4 (crc32 p) ++ p)) as (vs & k & Ev & Hvs & Hk & Eb).
  destruct (b32_encode_values (be_fixed 4 (crc32 q) ++ q)) as (ws & k' & Ew & Hws & Hk' & Ec).
  rewrite Ev, Ew in Hn. pose proof Hn as [HL _]. rewrite !dashes_length, !map_length in HL by lia.
  assert (length vs = length ws) as HLv.
  { destruct (Nat.lt_trichotomy (length vs) (length ws)) as [Hlt|[?|Hlt]]; [|assumption|];
      [pose proof (Nat.div_le_mono (length vs - 1) (length ws - 1) 5)|pose proof (Nat.div_le_mono (length ws - 1) (length vs - 1) 5)]; lia. }
  apply dashes_near in Hn; [|now rewrite !map_length]. apply symbols_near in Hn; [|assumption..].
  pose proof (f_equal (@length bool) Eb) as L1. pose proof (f_equal (@length bool) Ec) as L2.
  rewrite flat_bits_length, app_length, repeat_length, byte_bits_length, app_length, be_fixed_length in L1, L2.
  assert (length p = length q) as HLp by lia.
  assert (length (be_fixed 4 (crc32 p) ++ p) = length (be_fixed 4 (crc32 q) ++ q)) as HX by (rewrite !app_length, !be_fixed_length; lia).
  pose proof (bytes_near (j - j / 6) vs ws k k' _ _ Hn HX Eb Ec) as HB. clear HX.
  set (j' := (j - j / 6)%nat) in *. clearbody j'.
  pose proof (Nat.div_mod (5 * j') 8 ltac:(lia)). pose proof (Nat.mod_upper_bound (5 * j') 8 ltac:(lia)).
  pose proof (Nat.div_mod (5 * j' + 9) 8 ltac:(lia)). pose proof (Nat.mod_upper_bound (5 * j' + 9) 8 ltac:(lia)).
  set (m := (5 * j' / 8)%nat) in *. set (e := ((5 * j' + 9) / 8)%nat) in *.
  assert ((m <= 2 -> e <= 3) /\ (m = 3 -> e <= 4) /\ (m <= e <= m + 2))%nat as (He2 & He3 & He) by lia.
  clearbody m e. clear H H0 H1 H2. clear Ev Ew Hvs Hws Eb Ec L1 L2 HL HLv Hn Hk Hk' vs ws k k' j.
  assert (forall i, (4 + i < m \/ e < 4 + i)%nat -> p !! i = q !! i) as HD.
  { intros i H1. specialize (HB _ H1). rewrite !lookup_app_r, !be_fixed_length in HB by (rewrite be_fixed_length; lia).
    replace (4 + i - 4)%nat with i in HB by lia. assumption. }
  assert (forall i, (i < 4)%nat -> (i < m)%nat -> be_fixed 4 (crc32 p) !! i = be_fixed 4 (crc32 q) !! i) as HC.
  { intros i Hi H1. specialize (HB i (or_introl H1)). rewrite !lookup_app_l in HB by (rewrite be_fixed_length; lia). assumption. }
  clear HB. destruct (Nat.lt_ge_cases m 3) as [Hm|Hm]; [apply list_eq; intros i; apply HD; lia|].
  destruct (Nat.eq_dec m 3%nat) as [->|Hm3].
  - destruct p as [|x r], q as [|y r']; try discriminate HLp; [reflexivity|].
    assert (r = r') as <- by (apply list_eq; intros i; apply (HD (S i)); lia). f_equal.
    destruct (decide (x = y)) as [|Ne]; [assumption|exfalso]. cbn [length] in Hp. pose proof (first_far x y r ltac:(lia) Ne) as Hfar.
    assert (be_fixed 3 (crc32 (x :: r) / 256) = be_fixed 3 (crc32 (y :: r) / 256)) as E.
    { apply list_eq. intros i. destruct (Nat.lt_ge_cases i 3) as [Hi|Hi].
      - specialize (HC i ltac:(lia) ltac:(lia)).
        change (be_fixed 4 (crc32 (x :: r))) with (be_fixed 3 (crc32 (x :: r) / 256) ++ [u8 (crc32 (x :: r))]) in HC.
        change (be_fixed 4 (crc32 (y :: r))) with (be_fixed 3 (crc32 (y :: r) / 256) ++ [u8 (crc32 (y :: r))]) in HC.
        rewrite !lookup_app_l in HC by (rewrite be_fixed_length; lia). assumption.
      - rewrite !lookup_ge_None_2 by (rewrite be_fixed_length; lia). reflexivity. }
    apply crc_bytes_close in E; [lia|apply crc32_lt..].
  - assert (crc32 p = crc32 q) as E.
    { apply crc_bytes_eq, list_eq. intros i. destruct (Nat.lt_ge_cases i 4); [apply HC; lia|].
      rewrite !lookup_ge_None_2 by (rewrite be_fixed_length; lia). reflexivity. }
    set (a := (m - 4)%nat). assert (take a p = take a q) as E1.
    { apply list_eq. intros i. destruct (Nat.lt_ge_cases i a); [rewrite !lookup_take by lia; apply HD; lia|].
      rewrite !lookup_take_ge by lia. reflexivity. }
    assert (drop 3 (drop a p) = drop 3 (drop a q)) as E2.
    { apply list_eq. intros i. rewrite !lookup_drop. apply HD; lia. }
    assert (p = take a q ++ take 3 (drop a p) ++ drop 3 (drop a q)) as Ep by (rewrite <- E1, <- E2, !take_drop; reflexivity).
    assert (q = take a q ++ take 3 (drop a q) ++ drop 3 (drop a q)) as Eq by (rewrite !take_drop; reflexivity).
    assert (take 3 (drop a p) = take 3 (drop a q)) as E3.
    { apply (window_eq (take a q) (drop 3 (drop a q))); [rewrite !take_length, !drop_length; lia|rewrite take_length; lia|].
      rewrite <- Eq, <- Ep. exact E. }
    rewrite Ep, E3. symmetry. exact Eq.
Qed.

Lemma typo_near a x y x' y' b : near (length a) (map to_lower (a ++ x :: x' :: b)) (map to_lower (a ++ y :: y' :: b)).
Proof.
  split; [rewrite !map_length, !app_length; reflexivity|]. intros i Hi Hi'. rewrite !map_app. cbn [map].
  destruct (Nat.lt_ge_cases i (length a)) as [Hlt|Hge].
  - rewrite !lookup_app_l by (rewrite map_length; lia). reflexivity.
  - rewrite !lookup_app_r, map_length by (rewrite map_length; lia).
    destruct (i - length a)%nat as [|[|n]] eqn:E; [lia|lia|reflexivity].
Qed.
