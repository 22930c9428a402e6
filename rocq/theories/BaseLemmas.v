(** Lemmas about the definitions of Base. *)
From Coq Require Import Strings.String.
From Coq Require Import ZifyBool ZifyN ZifyNat.
From Verif Require Import Base.
Local Open Scope N_scope.

Ltac Zify.zify_post_hook ::= Z.to_euclidean_division_equations.

(** ** Bytes *)

Lemma nb_lt b : nb b < 256.
Proof. apply (Byte.to_N_bounded b) || (pose proof (Byte.to_N_bounded b); lia). Qed.

Lemma nb_u8 n : nb (u8 n) = n mod 256.
Proof.
  unfold u8. destruct (Byte.of_N (n mod 256)) as [b|] eqn:E.
  - now apply Byte.to_of_N.
  - apply Byte.of_N_None_iff in E. assert (n mod 256 < 256) by (apply N.mod_lt; lia). lia.
Qed.

Lemma u8_nb b : u8 (nb b) = b.
Proof.
  unfold u8. rewrite N.mod_small by apply nb_lt. now rewrite Byte.of_to_N.
Qed.

Lemma nb_inj a b : nb a = nb b -> a = b.
Proof. intros H. rewrite <- (u8_nb a), <- (u8_nb b). now rewrite H. Qed.

Lemma u8_inj n m : n < 256 -> m < 256 -> u8 n = u8 m -> n = m.
Proof.
  intros Hn Hm H. apply (f_equal nb) in H. rewrite !nb_u8 in H.
  now rewrite !N.mod_small in H by assumption.
Qed.

Lemma byte_eqb_spec a b : Byte.eqb a b = true <-> a = b.
Proof. split; [apply Byte.byte_dec_bl | apply Byte.byte_dec_lb]. Qed.

Lemma byte_eqb_refl a : Byte.eqb a a = true.
Proof. now apply byte_eqb_spec. Qed.

Lemma byte_eqb_neq a b : Byte.eqb a b = false <-> a <> b.
Proof.
  destruct (Byte.eqb a b) eqn:E.
  - apply byte_eqb_spec in E. split; [discriminate|congruence].
  - split; [|reflexivity]. intros _ ->. now rewrite byte_eqb_refl in E.
Qed.

Lemma bytes_eqb_spec a b : bytes_eqb a b = true <-> a = b.
Proof. unfold bytes_eqb. apply bool_decide_eq_true. Qed.

Lemma bytes_eqb_false a b : bytes_eqb a b = false <-> a <> b.
Proof. unfold bytes_eqb. apply bool_decide_eq_false. Qed.

Lemma bytes_eqb_refl a : bytes_eqb a a = true.
Proof. now apply bytes_eqb_spec. Qed.

(** ** Order *)

Lemma bytes_cmp_refl a : bytes_cmp a a = Eq.
Proof. induction a as [|x a IH]; simpl; [reflexivity|]. now rewrite N.compare_refl. Qed.

Lemma bytes_cmp_eq a b : bytes_cmp a b = Eq <-> a = b.
Proof.
  split; [|intros ->; apply bytes_cmp_refl].
  revert b; induction a as [|x a IH]; intros [|y b]; simpl; try discriminate; [reflexivity|].
  destruct (nb x ?= nb y) eqn:E; try discriminate.
  intros H. apply N.compare_eq in E. apply nb_inj in E. f_equal; auto.
Qed.

Lemma bytes_cmp_opp a b : bytes_cmp b a = CompOpp (bytes_cmp a b).
Proof.
  revert b; induction a as [|x a IH]; intros [|y b]; simpl; try reflexivity.
  rewrite (N.compare_antisym (nb x) (nb y)).
  destruct (nb x ?= nb y); simpl; auto.
Qed.

Lemma bytes_cmp_lt_gt a b : bytes_cmp a b = Lt <-> bytes_cmp b a = Gt.
Proof. rewrite (bytes_cmp_opp a b). destruct (bytes_cmp a b); simpl; split; congruence. Qed.

Lemma bytes_cmp_lt_trans a b c :
  bytes_cmp a b = Lt -> bytes_cmp b c = Lt -> bytes_cmp a c = Lt.
Proof.
  revert b c; induction a as [|x a IH]; intros [|y b] [|z c]; simpl; try congruence.
  destruct (nb x ?= nb y) eqn:E1; destruct (nb y ?= nb z) eqn:E2; try discriminate;
    intros H1 H2.
  - apply N.compare_eq in E1, E2. rewrite E1, E2, N.compare_refl. eauto.
  - apply N.compare_eq in E1. now rewrite E1, E2.
  - apply N.compare_eq in E2. now rewrite <- E2, E1.
  - rewrite N.compare_lt_iff in *. assert (nb x < nb z) as H by lia.
    apply N.compare_lt_iff in H. now rewrite H.
Qed.

Lemma bytes_cmp_gt_trans a b c :
  bytes_cmp a b = Gt -> bytes_cmp b c = Gt -> bytes_cmp a c = Gt.
Proof. rewrite <- !bytes_cmp_lt_gt. eauto using bytes_cmp_lt_trans. Qed.

Lemma bytes_cmp_lt_irrefl a : bytes_cmp a a <> Lt.
Proof. now rewrite bytes_cmp_refl. Qed.

(** ** Prefixes *)

Lemma is_prefix_spec p l : is_prefix p l = true <-> exists t, l = p ++ t.
Proof.
  revert l; induction p as [|x p IH]; intros l; simpl.
  - split; [intros _; now exists l | reflexivity].
  - destruct l as [|y l].
    + split; [discriminate|]. intros [t Ht]; discriminate.
    + rewrite andb_true_iff, byte_eqb_spec, IH. split.
      * intros [-> [t ->]]. now exists t.
      * intros [t Ht]. injection Ht as -> ->. eauto.
Qed.

Lemma strip_prefix_spec p l t : strip_prefix p l = Some t <-> l = p ++ t.
Proof.
  revert l; induction p as [|x p IH]; intros l; simpl.
  - split; congruence.
  - destruct l as [|y l]; [split; discriminate|].
    destruct (Byte.eqb x y) eqn:E.
    + apply byte_eqb_spec in E as ->. rewrite IH. split; congruence.
    + apply byte_eqb_neq in E. split; [discriminate|]. intros H. injection H. congruence.
Qed.

Lemma strip_prefix_app p t : strip_prefix p (p ++ t) = Some t.
Proof. now apply strip_prefix_spec. Qed.

Lemma strip_prefix_none p l : strip_prefix p l = None <-> is_prefix p l = false.
Proof.
  destruct (strip_prefix p l) eqn:E; destruct (is_prefix p l) eqn:F.
  - split; discriminate.
  - apply strip_prefix_spec in E. assert (is_prefix p l = true) by (apply is_prefix_spec; eauto).
    congruence.
  - apply is_prefix_spec in F as [t Ht]. apply strip_prefix_spec in Ht. congruence.
  - tauto.
Qed.

(** ** Decimal numbers *)

Definition is_dec_digit (c : byte) : Prop := 48 <= nb c <= 57.

(** The number denoted by a string of decimal digits. *)
Definition undec (l : bytes) : N := fold_left (fun a c => 10 * a + (nb c - 48)) l 0.

Lemma undec_app l m : undec (l ++ m) = undec l * 10 ^ blen m + undec m.
Proof.
  unfold undec. rewrite fold_left_app.
  set (f := fun a c => 10 * a + (nb c - 48)). generalize (fold_left f l 0).
  unfold blen. induction m as [|c m IH] using rev_ind; intros a.
  - cbn. lia.
  - rewrite !fold_left_app. cbn [fold_left]. rewrite IH, app_length. cbn [length].
    replace (N.of_nat (length m + 1)) with (N.succ (N.of_nat (length m))) by lia.
    rewrite N.pow_succ_r by lia. unfold f at 1 3. ring.
Qed.

Lemma nb_digit n : nb (digit n) = 48 + n mod 10.
Proof. unfold digit. rewrite nb_u8. lia. Qed.

Lemma digit_is_dec n : is_dec_digit (digit n).
Proof. unfold is_dec_digit. rewrite nb_digit. lia. Qed.

Lemma undec_digit n : undec [digit n] = n mod 10.
Proof. unfold undec. simpl. rewrite nb_digit. lia. Qed.

Lemma dec_aux_app fuel n acc : dec_aux fuel n acc = dec_aux fuel n [] ++ acc.
Proof.
  revert n acc; induction fuel as [|f IH]; intros n acc; simpl; [reflexivity|].
  destruct (n / 10 =? 0); [reflexivity|].
  rewrite IH, (IH _ [digit n]). rewrite <- app_assoc. reflexivity.
Qed.

Lemma dec_aux_spec fuel n :
  (0 < fuel)%nat -> n < 10 ^ N.of_nat fuel ->
  let ds := dec_aux fuel n [] in
  undec ds = n /\ Forall is_dec_digit ds /\ (0 < length ds)%nat /\
  n < 10 ^ blen ds /\ (1 < blen ds -> 10 ^ (blen ds - 1) <= n).
Proof.
  revert n; induction fuel as [|f IH]; intros n Hf Hn; [lia|].
  simpl. destruct (n / 10 =? 0) eqn:E.
  - apply N.eqb_eq in E. rewrite undec_digit. unfold blen; simpl.
    repeat split; try lia.
    constructor; [apply digit_is_dec|constructor].
  - apply N.eqb_neq in E. rewrite dec_aux_app.
    assert (0 < f)%nat as Hf'.
    { destruct f; [|lia]. change (10 ^ N.of_nat 1) with 10 in Hn. lia. }
    rewrite Nat2N.inj_succ, N.pow_succ_r in Hn by lia.
    destruct (IH (n / 10) Hf') as (H1 & H2 & H3 & H4 & H5); [lia|].
    set (ds := dec_aux f (n / 10) []) in *.
    assert (blen (ds ++ [digit n]) = N.succ (blen ds)) as Hl.
    { unfold blen. rewrite app_length. simpl. lia. }
    rewrite Hl, undec_app, H1, undec_digit. change (blen [digit n]) with 1.
    rewrite N.pow_1_r, N.pow_succ_r by lia.
    repeat split.
    + lia.
    + apply Forall_app. split; [assumption|]. constructor; [apply digit_is_dec|constructor].
    + rewrite app_length; simpl; lia.
    + lia.
    + intros _. replace (N.succ (blen ds) - 1) with (blen ds) by lia.
      destruct (N.eq_dec (blen ds) 1) as [H|H].
      * rewrite H in *. change (10 ^ 1) with 10. lia.
      * assert (1 < blen ds) as H' by (unfold blen in *; lia).
        specialize (H5 H'). replace (blen ds) with (N.succ (blen ds - 1)) by lia.
        rewrite N.pow_succ_r by lia. lia.
Qed.

Lemma dec_fuel n : n < 10 ^ N.of_nat (S (N.to_nat (N.log2 n))).
Proof.
  rewrite Nat2N.inj_succ, N2Nat.id.
  destruct (N.eq_dec n 0) as [->|Hn].
  - reflexivity.
  - destruct (N.log2_spec n) as [_ H]; [lia|].
    eapply N.lt_le_trans; [exact H|]. apply N.pow_le_mono_l. lia.
Qed.

Lemma undec_dec n : undec (dec n) = n.
Proof. apply dec_aux_spec; [lia|apply dec_fuel]. Qed.

Lemma dec_digits n : Forall is_dec_digit (dec n).
Proof. apply dec_aux_spec; [lia|apply dec_fuel]. Qed.

Lemma dec_nonempty n : (0 < length (dec n))%nat.
Proof. apply dec_aux_spec; [lia|apply dec_fuel]. Qed.

Lemma dec_upper n : n < 10 ^ blen (dec n).
Proof. apply dec_aux_spec; [lia|apply dec_fuel]. Qed.

Lemma dec_lower n : 1 < blen (dec n) -> 10 ^ (blen (dec n) - 1) <= n.
Proof. apply dec_aux_spec; [lia|apply dec_fuel]. Qed.

Lemma dec_inj n m : dec n = dec m -> n = m.
Proof. intros H. rewrite <- (undec_dec n), <- (undec_dec m). now rewrite H. Qed.

Lemma dec_length_mono n m : n <= m -> blen (dec n) <= blen (dec m).
Proof.
  intros H. destruct (N.le_gt_cases (blen (dec n)) (blen (dec m))) as [|Hgt]; [assumption|].
  pose proof (dec_nonempty m). pose proof (dec_upper m).
  assert (1 < blen (dec n)) as Hgt1 by (unfold blen in *; lia).
  pose proof (dec_lower n Hgt1).
  assert (10 ^ blen (dec m) <= 10 ^ (blen (dec n) - 1)) by (apply N.pow_le_mono_r; lia).
  lia.
Qed.

Lemma dec_pad_length w n : length (dec_pad w n) = w.
Proof.
  revert n; induction w as [|w IH]; intros n; simpl; [reflexivity|].
  rewrite app_length, IH. simpl. lia.
Qed.

Lemma undec_dec_pad w n : n < 10 ^ N.of_nat w -> undec (dec_pad w n) = n.
Proof.
  revert n; induction w as [|w IH]; intros n H.
  - simpl in *. unfold undec; simpl. lia.
  - simpl dec_pad. rewrite undec_app, undec_digit. change (blen [digit n]) with 1.
    rewrite Nat2N.inj_succ, N.pow_succ_r in H by lia.
    rewrite IH by lia. lia.
Qed.

Lemma dec_pad_digits w n : Forall is_dec_digit (dec_pad w n).
Proof.
  revert n; induction w as [|w IH]; intros n; simpl; [constructor|].
  apply Forall_app. split; [apply IH|]. constructor; [apply digit_is_dec|constructor].
Qed.

(** ** Lists *)

Lemma blen_app (a b : bytes) : blen (a ++ b) = blen a + blen b.
Proof. unfold blen. rewrite app_length. lia. Qed.

Lemma app_inj_len {A} (a b c d : list A) :
  length a = length c -> a ++ b = c ++ d -> a = c /\ b = d.
Proof.
  revert c; induction a as [|x a IH]; intros [|y c]; simpl; try discriminate; [auto|].
  intros Hl H. injection H as -> H. destruct (IH c) as [-> ->]; auto.
Qed.

Lemma app_inj_len_r {A} (a b c d : list A) :
  length b = length d -> a ++ b = c ++ d -> a = c /\ b = d.
Proof.
  intros Hl H. apply app_inj_len; [|assumption].
  apply (f_equal (@length A)) in H. rewrite !app_length in H. lia.
Qed.

Lemma obind_done {A B} (x : outcome A) (f : A -> outcome B) b :
  obind x f = Done b <-> exists a, x = Done a /\ f a = Done b.
Proof.
  destruct x as [a|w]; simpl; split.
  - eauto.
  - intros (a' & H & ?). now injection H as ->.
  - discriminate.
  - intros (a' & H & ?). discriminate.
Qed.

Lemma sat_add_le a b : sat_add a b <= u64_max.
Proof. unfold sat_add. lia. Qed.
