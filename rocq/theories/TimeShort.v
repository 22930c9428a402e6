(** Timestamps are written in the shortest way, and there is only one. *)
From Coq Require Import Strings.String ZifyBool ZifyN ZifyNat.
From Verif Require Import Base BaseLemmas Time3339 SpecSiwe Calendar TimeProofs.
Local Open Scope N_scope.

Lemma digit_value_some c v : digit_value c = Some v -> is_dec_digit c /\ v = nb c - 48.
Proof.
  unfold digit_value, is_dec_digit. destruct ((48 <=? nb c) && (nb c <=? 57)) eqn:E; [|discriminate]. intros [= <-]. split; [lia|reflexivity].
Qed.

Lemma read_digits_inv k : forall acc l v r, read_digits k acc l = Some (v, r) ->
  exists ds, l = ds ++ r /\ length ds = k /\ Forall is_dec_digit ds /\ v = acc * 10 ^ blen ds + undec ds.
Proof.
  induction k as [|k IH]; intros acc l v r H.
  - cbn in H. assert (acc = v /\ l = r) as [-> ->] by (destruct l; split; congruence). exists []. split; [reflexivity|].
    split; [reflexivity|]. split; [constructor|]. change (blen []) with 0. change (undec []) with 0. rewrite N.pow_0_r. lia.
  - destruct l as [|c l]; [discriminate|]. cbn [read_digits] in H. destruct (digit_value c) as [d|] eqn:E; [|discriminate].
    apply digit_value_some in E as [Hc ->]. apply IH in H as (ds & -> & L & F & ->). exists (c :: ds).
    split; [reflexivity|]. split; [cbn; lia|]. split; [now constructor|].
    change (c :: ds) with ([c] ++ ds). rewrite blen_app, undec_app, N.pow_add_r. change (blen [c]) with 1. rewrite N.pow_1_r.
    replace (undec [c]) with (nb c - 48) by (unfold undec; cbn [fold_left]; lia). ring.
Qed.

Lemma read_many_inv l : forall acc k v k' r, read_many acc k l = (v, k', r) ->
  exists ds, l = ds ++ r /\ k' = k + blen ds /\ Forall is_dec_digit ds /\ v = acc * 10 ^ blen ds + undec ds.
Proof.
  induction l as [|c l IH]; intros acc k v k' r H.
  - cbn in H. injection H as <- <- <-. exists []. split; [reflexivity|]. change (blen []) with 0. change (undec []) with 0.
    rewrite N.pow_0_r. split; [lia|]. split; [constructor|lia].
  - cbn [read_many] in H. destruct (digit_value c) as [d|] eqn:E.
    + apply digit_value_some in E as [Hc ->]. apply IH in H as (ds & -> & -> & F & ->). exists (c :: ds).
      split; [reflexivity|]. change (c :: ds) with ([c] ++ ds). rewrite blen_app, undec_app, N.pow_add_r. change (blen [c]) with 1. rewrite N.pow_1_r.
      split; [lia|]. split; [now constructor|].
      replace (undec [c]) with (nb c - 48) by (unfold undec; cbn [fold_left]; lia). ring.
    + injection H as <- <- <-. exists []. split; [reflexivity|]. change (blen []) with 0. change (undec []) with 0.
      rewrite N.pow_0_r. split; [lia|]. split; [constructor|lia].
Qed.

Lemma undec_lt ds : Forall is_dec_digit ds -> undec ds < 10 ^ blen ds.
Proof.
  induction ds as [|c ds IH] using rev_ind; intros F; [reflexivity|]. apply List.Forall_app in F as [F Fc].
  apply List.Forall_cons_iff in Fc as [Hc _]. rewrite blen_app, undec_app, N.pow_add_r. change (blen [c]) with 1. rewrite N.pow_1_r.
  replace (undec [c]) with (nb c - 48) by (unfold undec; cbn [fold_left]; lia). specialize (IH F). unfold is_dec_digit in Hc. lia.
Qed.

Lemma nb_eq a b : nb a = nb b -> a = b.
Proof. intros E. apply (f_equal Byte.of_N) in E. rewrite !Byte.of_to_N in E. congruence. Qed.

(** As many digits with the same value are the same. *)
Lemma undec_inj a : forall b, length a = length b -> Forall is_dec_digit a -> Forall is_dec_digit b -> undec a = undec b -> a = b.
Proof.
  induction a as [|c a IH] using rev_ind; intros b L Fa Fb E; [destruct b; [reflexivity|discriminate]|].
  destruct b as [|d b _] using rev_ind; [rewrite app_length in L; cbn in L; lia|].
  rewrite !app_length in L. cbn in L. apply List.Forall_app in Fa as [Fa Fc], Fb as [Fb Fd].
  apply List.Forall_cons_iff in Fc as [Hc _], Fd as [Hd _]. rewrite !undec_app in E. change (blen [c]) with 1 in E. change (blen [d]) with 1 in E.
  rewrite !N.pow_1_r in E.
  replace (undec [c]) with (nb c - 48) in E by (unfold undec; cbn [fold_left]; lia).
  replace (undec [d]) with (nb d - 48) in E by (unfold undec; cbn [fold_left]; lia).
  unfold is_dec_digit in Hc, Hd. assert (undec a = undec b /\ nb c = nb d) as [E1 E2] by lia.
  rewrite (IH b); [|lia|assumption..]. now rewrite (nb_eq c d).
Qed.

Definition fraction_of (f : bytes) (ns : N) : Prop :=
  (f = [] /\ ns = 0) \/
  exists ds, f = x2e :: ds /\ Forall is_dec_digit ds /\ 1 <= blen ds <= 9 /\ ns = undec ds * 10 ^ (9 - blen ds).

Lemma expect_some c l r : expect c l = Some r -> l = c :: r.
Proof. unfold expect. destruct l as [|x l]; [discriminate|]. destruct (Byte.eqb x c) eqn:E; [|discriminate]. apply byte_eqb_spec in E. congruence. Qed.

Lemma read_fraction_inv l ns r : read_fraction l = Some (ns, r) -> exists f, l = f ++ r /\ fraction_of f ns.
Proof.
  unfold read_fraction. destruct (expect x2e l) as [l'|] eqn:E.
  - apply expect_some in E as ->. destruct (read_many 0 0 l') as [[v k] r'] eqn:M.
    destruct ((1 <=? k) && (k <=? 9)) eqn:K; [|discriminate]. intros [= <- <-].
    apply read_many_inv in M as (ds & -> & -> & F & ->). exists (x2e :: ds). split; [reflexivity|].
    right. exists ds. split; [reflexivity|]. split; [exact F|]. split; [lia|]. now rewrite N.add_0_l.
  - intros [= <- <-]. exists []. split; [reflexivity|]. left. auto.
Qed.

(** The front of the text is given by the date and the time of day. *)
Lemma read_rfc3339_inv s dt : read_rfc3339 s = Some dt ->
  exists a b c d e g f, s = a ++ x2d :: b ++ x2d :: c ++ x54 :: d ++ x3a :: e ++ x3a :: g ++ f ++ [x5a] /\
    (length a = 4 /\ length b = 2 /\ length c = 2 /\ length d = 2 /\ length e = 2 /\ length g = 2)%nat /\
    Forall is_dec_digit a /\ Forall is_dec_digit b /\ Forall is_dec_digit c /\ Forall is_dec_digit d /\ Forall is_dec_digit e /\ Forall is_dec_digit g /\
    undec a = dt_year dt /\ undec b = dt_month dt /\ undec c = dt_day dt /\ undec d = dt_hour dt /\ undec e = dt_minute dt /\ undec g = dt_second dt /\
    fraction_of f (dt_nanos dt).
Proof.
  unfold read_rfc3339. intros H.
  repeat match goal with
  | H : mbind _ (read_digits ?k 0 ?l) = Some _ |- _ =>
      let v := fresh "v" in let r := fresh "r" in let E := fresh "E" in
      destruct (read_digits k 0 l) as [[v r]|] eqn:E; [|discriminate H]; cbn [mbind option_bind] in H
  | H : mbind _ (expect ?k ?l) = Some _ |- _ =>
      let r := fresh "r" in let E := fresh "E" in
      destruct (expect k l) as [r|] eqn:E; [|discriminate H]; cbn [mbind option_bind] in H
  | H : mbind _ (read_fraction ?l) = Some _ |- _ =>
      let v := fresh "v" in let r := fresh "r" in let E := fresh "E" in
      destruct (read_fraction l) as [[v r]|] eqn:E; [|discriminate H]; cbn [mbind option_bind] in H
  end.
  match type of H with match ?l with [] => _ | _ => _ end = _ => destruct l; [|discriminate H] end.
  cbn zeta in H. match type of H with (if ?c then _ else _) = _ => destruct c; [|discriminate H] end. injection H as <-.
  repeat match goal with
  | H : expect _ _ = Some _ |- _ => apply expect_some in H
  | H : read_fraction _ = Some _ |- _ => apply read_fraction_inv in H as (? & ? & ?)
  | H : read_digits _ 0 _ = Some _ |- _ => apply read_digits_inv in H as (? & ? & ? & ? & ?)
  end.
  subst. cbn [dt_year dt_month dt_day dt_hour dt_minute dt_second dt_nanos].
  repeat eexists; try eassumption; rewrite N.mul_0_l; reflexivity.
Qed.

Lemma fraction_same f f' ns : fraction_of f ns -> fraction_of f' ns -> length f = length f' -> f = f'.
Proof.
  intros [[-> _]|(ds & -> & F & B & E)] [[-> _]|(ds' & -> & F' & B' & E')] L; try discriminate; [reflexivity|].
  f_equal. cbn in L. injection L as L. apply undec_inj; try assumption. unfold blen in *. rewrite L in E. rewrite E in E'.
  apply N.mul_cancel_r in E'; [assumption|]. apply N.pow_nonzero. lia.
Qed.

Lemma read_rfc3339_same s s' dt : read_rfc3339 s = Some dt -> read_rfc3339 s' = Some dt -> length s = length s' -> s = s'.
Proof.
  intros H H' L.
  destruct (read_rfc3339_inv s dt H) as (a & b & c & d & e & g & f & -> & (L1 & L2 & L3 & L4 & L5 & L6) & F1 & F2 & F3 & F4 & F5 & F6 & V1 & V2 & V3 & V4 & V5 & V6 & Hf).
  destruct (read_rfc3339_inv s' dt H') as (a' & b' & c' & d' & e' & g' & f' & -> & (L1' & L2' & L3' & L4' & L5' & L6') & F1' & F2' & F3' & F4' & F5' & F6' & V1' & V2' & V3' & V4' & V5' & V6' & Hf').
  rewrite (undec_inj a a'), (undec_inj b b'), (undec_inj c c'), (undec_inj d d'), (undec_inj e e'), (undec_inj g g') by (assumption || congruence).
  rewrite (fraction_same f f' (dt_nanos dt)); [reflexivity|assumption..|].
  repeat (rewrite app_length in L; cbn [length] in L). lia.
Qed.

Lemma frac_digits_last w n : 0 < n -> n < 10 ^ N.of_nat w ->
  exists k v, (1 <= k <= w)%nat /\ frac_digits w n = dec_pad k v /\ v < 10 ^ N.of_nat k /\
    n = v * 10 ^ (N.of_nat w - N.of_nat k) /\ v mod 10 <> 0.
Proof.
  revert n. induction w as [|w IH]; intros n H0 H.
  - change (10 ^ N.of_nat 0) with 1 in H. lia.
  - cbn [frac_digits]. destruct (n mod 10 =? 0) eqn:E.
    + rewrite Nat2N.inj_succ, N.pow_succ_r in H by lia.
      destruct (IH (n / 10)) as (k & v & Hk & Ef & Hv & En & Hl); [lia|lia|].
      exists k, v. split; [lia|]. split; [assumption|]. split; [assumption|]. split; [|exact Hl].
      replace (N.of_nat (S w) - N.of_nat k) with (N.succ (N.of_nat w - N.of_nat k)) by lia.
      rewrite N.pow_succ_r by lia.
      assert (n = 10 * (n / 10)) as -> by lia. rewrite En at 1. ring.
    + exists (S w), n. split; [lia|]. split; [reflexivity|]. split; [assumption|].
      rewrite N.sub_diag. change (10 ^ 0) with 1. split; [lia|]. lia.
Qed.

Lemma format_nanos_short n f : n < 1000000000 -> fraction_of f n -> (length (format_nanos n) <= length f)%nat.
Proof.
  intros Hn Hf. unfold format_nanos. destruct (n =? 0) eqn:E; [cbn; lia|].
  destruct (frac_digits_last 9 n) as (k & v & Hk & -> & Hv & En & Hl); [lia|exact Hn|].
  change (bs ".") with [x2e]. cbn [app length]. rewrite dec_pad_length.
  destruct Hf as [[_ ->]|(ds & -> & F & B & E')]; [discriminate E|]. cbn [length]. unfold blen in *.
  destruct (Nat.le_gt_cases k (length ds)) as [|Hlt]; [lia|]. exfalso. apply Hl.
  assert (v * 10 ^ (9 - N.of_nat k) = undec ds * 10 ^ (9 - N.of_nat (length ds))) as E2 by (rewrite <- E'; symmetry; exact En).
  replace (9 - N.of_nat (length ds)) with (N.succ (N.of_nat k - N.of_nat (length ds) - 1) + (9 - N.of_nat k)) in E2 by lia.
  rewrite N.pow_add_r, N.mul_assoc in E2. apply N.mul_cancel_r in E2; [|apply N.pow_nonzero; lia].
  rewrite N.pow_succ_r' in E2. rewrite E2.
  replace (undec ds * (10 * 10 ^ (N.of_nat k - N.of_nat (length ds) - 1))) with (undec ds * 10 ^ (N.of_nat k - N.of_nat (length ds) - 1) * 10) by ring.
  apply N.mod_mul. lia.
Qed.

Lemma format_short t s s' : t <= u64_max -> format_rfc3339 t = Done s -> read_rfc3339 s' = Some (parts t) -> (length s <= length s')%nat.
Proof.
  intros Ht H H'.
  destruct (read_rfc3339_inv s' _ H') as (a' & b' & c' & d' & e' & g' & f' & -> & (L1' & L2' & L3' & L4' & L5' & L6') & _ & _ & _ & _ & _ & _ & _ & _ & _ & _ & _ & _ & Hf').
  unfold format_rfc3339 in H. unfold parts in Hf'. destruct (MAX_TIMESTAMP <? _); [discriminate|].
  destruct (civil_of_days (t / 1000000000 / 86400)) as [[y m] d]. destruct (9999 <? y); [discriminate|]. injection H as <-.
  cbn [dt_nanos] in Hf'. apply format_nanos_short in Hf'; [|apply N.mod_lt; lia].
  change (bs "-") with [x2d]; change (bs "T") with [x54]; change (bs ":") with [x3a]; change (bs "Z") with [x5a].
  repeat (rewrite ?app_length, ?dec_pad_length; cbn [length app]). lia.
Qed.
