(**  RFC 3339 lemmas. *)
From Coq Require Import Strings.String ZifyBool ZifyN ZifyNat.
From Verif Require Import Base BaseLemmas Time3339 SpecSiwe Calendar.
Local Open Scope N_scope.
Ltac Zify.zify_post_hook ::= Z.to_euclidean_division_equations.

Lemma month_days_le y m : month_days y m <= 31.
Proof. unfold month_days. destruct m as [|p]; [lia|]. repeat (destruct p; try lia); destruct (leapb y); lia. Qed.

(** ** Digits *)

Lemma digit_value_digit n : digit_value (digit n) = Some (n mod 10).
Proof.
  unfold digit_value. rewrite nb_digit.
  destruct ((48 <=? 48 + n mod 10) && (48 + n mod 10 <=? 57)) eqn:E; [f_equal; lia|lia].
Qed.

Lemma read_digits_app ds acc r : Forall is_dec_digit ds ->
  read_digits (length ds) acc (ds ++ r) = Some (acc * 10 ^ blen ds + undec ds, r).
Proof.
  revert acc. induction ds as [|c ds IH]; intros acc H.
  - cbn [length app read_digits]. unfold blen, undec; cbn [length fold_left].
    change (10 ^ N.of_nat 0) with 1. f_equal. f_equal. lia.
  - apply List.Forall_cons_iff in H as [Hc H]. cbn [length app read_digits].
    unfold digit_value. unfold is_dec_digit in Hc.
    destruct ((48 <=? nb c) && (nb c <=? 57)) eqn:E; [|lia].
    rewrite IH by assumption. f_equal. f_equal.
    change (c :: ds) with ([c] ++ ds). rewrite blen_app, undec_app, N.pow_add_r.
    change (blen [c]) with 1. rewrite N.pow_1_r.
    unfold undec at 2. cbn [fold_left]. ring.
Qed.

Lemma read_digits_pad w n r : n < 10 ^ N.of_nat w -> read_digits w 0 (dec_pad w n ++ r) = Some (n, r).
Proof.
  intros H. pose proof (read_digits_app (dec_pad w n) 0 r (dec_pad_digits w n)) as E.
  rewrite dec_pad_length in E. rewrite E, undec_dec_pad by assumption. f_equal.
Qed.

Definition not_digit_head (r : bytes) : Prop :=
  match r with [] => True | c :: _ => digit_value c = None end.

Lemma read_many_app ds acc k r : Forall is_dec_digit ds -> not_digit_head r ->
  read_many acc k (ds ++ r) = (acc * 10 ^ blen ds + undec ds, k + blen ds, r).
Proof.
  intros H Hr. revert acc k H. induction ds as [|c ds IH]; intros acc k H.
  - cbn [app]. change (blen []) with 0. change (undec []) with 0. rewrite !N.add_0_r.
    change (10 ^ 0) with 1. rewrite N.mul_1_r.
    destruct r as [|x r]; [reflexivity|]. cbn in Hr |- *. now rewrite Hr.
  - apply List.Forall_cons_iff in H as [Hc H]. cbn [app read_many].
    unfold digit_value. unfold is_dec_digit in Hc.
    destruct ((48 <=? nb c) && (nb c <=? 57)) eqn:E; [|lia].
    rewrite IH by assumption.
    change (c :: ds) with ([c] ++ ds). rewrite blen_app, undec_app, N.pow_add_r.
    change (blen [c]) with 1. rewrite N.pow_1_r.
    replace (undec [c]) with (nb c - 48) by (unfold undec; cbn [fold_left]; lia).
    f_equal. f_equal; ring.
Qed.

Lemma read_decimal_dec n : read_decimal (dec n) = Some n.
Proof.
  unfold read_decimal. pose proof (dec_nonempty n). pose proof (undec_dec n) as U.
  pose proof (read_many_app (dec n) 0 0 [] (dec_digits n) I) as E. rewrite app_nil_r in E.
  destruct (dec n) as [|c l] eqn:D; [simpl in *; lia|]. rewrite E, U. f_equal.
Qed.

(** ** The fraction *)

Lemma frac_digits_spec w n : 0 < n -> n < 10 ^ N.of_nat w ->
  exists k v, (1 <= k <= w)%nat /\ frac_digits w n = dec_pad k v /\ v < 10 ^ N.of_nat k /\
    n = v * 10 ^ (N.of_nat w - N.of_nat k).
Proof.
  revert n. induction w as [|w IH]; intros n H0 H.
  - change (10 ^ N.of_nat 0) with 1 in H. lia.
  - cbn [frac_digits]. destruct (n mod 10 =? 0) eqn:E.
    + rewrite Nat2N.inj_succ, N.pow_succ_r in H by lia.
      destruct (IH (n / 10)) as (k & v & Hk & Ef & Hv & En); [lia|lia|].
      exists k, v. split; [lia|]. split; [assumption|]. split; [assumption|].
      replace (N.of_nat (S w) - N.of_nat k) with (N.succ (N.of_nat w - N.of_nat k)) by lia.
      rewrite N.pow_succ_r by lia. 
      assert (n = 10 * (n / 10)) as -> by lia. rewrite En at 1. ring.
    + exists (S w), n. split; [lia|]. split; [reflexivity|]. split; [assumption|].
      rewrite N.sub_diag. change (10 ^ 0) with 1. lia.
Qed.

Lemma read_fraction_ok n r : n < 1000000000 ->
  read_fraction (format_nanos n ++ x5a :: r) = Some (n, x5a :: r).
Proof.
  intros H. unfold format_nanos. destruct (n =? 0) eqn:E.
  - apply N.eqb_eq in E. subst. reflexivity.
  - apply N.eqb_neq in E.
    destruct (frac_digits_spec 9 n) as (k & v & Hk & Ef & Hv & En); [lia|exact H|].
    rewrite Ef. unfold read_fraction. cbn [app bs list_byte_of_string].
    change (bs ".") with [x2e]. cbn [app expect Byte.eqb].
    change (Byte.eqb x2e x2e) with true. cbn iota.
    rewrite read_many_app; [|apply dec_pad_digits|reflexivity].
    unfold blen. rewrite dec_pad_length, undec_dec_pad by assumption.
    rewrite N.mul_0_l, !N.add_0_l.
    destruct ((1 <=? N.of_nat k) && (N.of_nat k <=? 9)) eqn:K; [|lia].
    rewrite En. reflexivity.
Qed.

(** ** The whole timestamp *)

Definition parts (t : N) : date_time :=
  let secs := t / 1000000000 in
  let sod := secs mod 86400 in
  let '(y, m, d) := civil_of_days (secs / 86400) in
  mkDT y m d (sod / 3600) (sod / 60 mod 60) (sod mod 60) (t mod 1000000000).

Lemma format_reads t : t <= u64_max ->
  exists s, format_rfc3339 t = Done s /\ read_rfc3339 s = Some (parts t) /\ instant (parts t) = t.
Proof.
  intros Ht. unfold format_rfc3339, parts, u64_max in *.
  assert (t / 1000000000 / 86400 <= last_day) as Hd by (unfold last_day; lia).
  destruct (MAX_TIMESTAMP <? t / 1000000000) eqn:E; [unfold MAX_TIMESTAMP in E; lia|].
  destruct (civil_of_days _) as [[y m] d] eqn:C.
  destruct (civil_bounds _ _ _ _ Hd C) as (Hn & Hy & Hm & Hdd).
  pose proof (month_days_le y m).
  destruct (9999 <? y) eqn:Y; [lia|].
  eexists. split; [reflexivity|]. split.
  - unfold read_rfc3339.
    change (bs "-") with [x2d]; change (bs "T") with [x54]; change (bs ":") with [x3a];
      change (bs "Z") with [x5a].
    rewrite read_digits_pad by (change (10 ^ N.of_nat 4) with 10000; lia). cbn [mbind option_bind app expect].
    change (Byte.eqb x2d x2d) with true; cbn iota; cbn [mbind option_bind].
    rewrite read_digits_pad by (change (10 ^ N.of_nat 2) with 100; lia). cbn [mbind option_bind app expect].
    change (Byte.eqb x2d x2d) with true; cbn iota; cbn [mbind option_bind].
    rewrite read_digits_pad by (change (10 ^ N.of_nat 2) with 100; lia). cbn [mbind option_bind app expect].
    change (Byte.eqb x54 x54) with true; cbn iota; cbn [mbind option_bind].
    rewrite read_digits_pad by (change (10 ^ N.of_nat 2) with 100; lia). cbn [mbind option_bind app expect].
    change (Byte.eqb x3a x3a) with true; cbn iota; cbn [mbind option_bind].
    rewrite read_digits_pad by (change (10 ^ N.of_nat 2) with 100; lia). cbn [mbind option_bind app expect].
    change (Byte.eqb x3a x3a) with true; cbn iota; cbn [mbind option_bind].
    rewrite read_digits_pad by (change (10 ^ N.of_nat 2) with 100; lia). cbn [mbind option_bind app expect].
    rewrite read_fraction_ok by lia. cbn [mbind option_bind app expect].
    change (Byte.eqb x5a x5a) with true; cbn iota; cbn [mbind option_bind].
    match goal with |- (if valid_dtb ?x then _ else _) = _ => destruct (valid_dtb x) eqn:V end; [reflexivity|].
    exfalso. revert V. unfold valid_dtb; cbn [dt_month dt_day dt_year dt_hour dt_minute dt_second].
    clear - Hm Hdd. lia.
  - unfold instant; cbn [dt_month dt_day dt_year dt_hour dt_minute dt_second dt_nanos].
    rewrite Hn. clear. lia.
Qed.

Lemma read_rfc3339_valid s t : read_rfc3339 s = Some t -> valid_dtb t = true.
Proof.
  unfold read_rfc3339. intros H.
  repeat match goal with
  | H : mbind _ ?x = Some _ |- _ => destruct x as [[]|] eqn:?; [|discriminate]; cbn [mbind option_bind] in H
  | H : mbind _ ?x = Some _ |- _ => destruct x as [|] eqn:?; [|discriminate]; cbn [mbind option_bind] in H
  end.
  all: repeat match goal with H : match ?l with _ => _ end = Some _ |- _ => destruct l eqn:?; try discriminate end.
  all: cbn in *; try discriminate.
  all: repeat match goal with H : Some _ = Some _ |- _ => injection H as <- end; assumption.
Qed.
