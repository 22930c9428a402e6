(** Numbers, labels and IPv4 addresses: the functions of Url.v against SpecUrl.v. *)
From Coq Require Import Strings.String.
From Verif Require Import Base BaseLemmas Deps Hex Eth SpecEth EthProofs Url SpecUrl.
Local Open Scope N_scope.

(** ** Digits *)

Lemma hex_val_digit c v : hex_val c = Some v <-> v < 16 /\ (c = lower_digit v \/ c = upper_digit v).
Proof.
  split.
  - destruct c; cbn; intros E; try discriminate; injection E as <-; (split; [lia|]);
      vm_compute; auto.
  - intros [Hv H].
    assert (In v [0;1;2;3;4;5;6;7;8;9;10;11;12;13;14;15]) as Hi.
    { rewrite <- (N2Nat.id v). assert (N.to_nat v < 16)%nat as Hn by lia. revert Hn.
      generalize (N.to_nat v). intros k Hk.
      do 16 (destruct k as [|k]; [cbn; tauto|]). lia. }
    cbn in Hi. repeat (destruct Hi as [<-|Hi]; [destruct H as [->| ->]; vm_compute; reflexivity|]).
    contradiction.
Qed.

Lemma digit_of_iff r c v : r <= 16 -> digit_of r c v <-> hex_val c = Some v /\ v < r.
Proof. intros Hr. rewrite hex_val_digit. unfold digit_of. intuition lia. Qed.

Lemma radix_digit_iff r c : r <= 16 -> radix_digit r c = true <-> exists v, digit_of r c v.
Proof.
  intros Hr. unfold radix_digit. setoid_rewrite (digit_of_iff r c); [|exact Hr].
  destruct (hex_val c) as [v|]; split.
  - intros H. apply N.ltb_lt in H. eauto.
  - intros (w & E & H). injection E as ->. now apply N.ltb_lt.
  - discriminate.
  - intros (w & E & _). discriminate.
Qed.

Lemma numeral_iff r q n : r <= 16 ->
  numeral r q n <-> forallb (radix_digit r) q = true /\ radix_val r q = n.
Proof.
  intros Hr. split.
  - induction 1 as [|q c n v Hq [IH1 IH2] Hd]; [split; reflexivity|]. split.
    + rewrite forallb_app, IH1. cbn. rewrite andb_true_r. apply radix_digit_iff; eauto.
    + unfold radix_val. rewrite fold_left_app. cbn. fold (radix_val r q). rewrite IH2.
      apply digit_of_iff in Hd as [-> _]; auto.
  - revert n. induction q as [|c q IH] using rev_ind; intros n [H1 H2].
    + subst n. constructor.
    + rewrite forallb_app in H1. apply andb_true_iff in H1 as [H1 Hc]. cbn in Hc.
      rewrite andb_true_r in Hc. apply radix_digit_iff in Hc as [v Hv]; [|exact Hr].
      unfold radix_val in H2. rewrite fold_left_app in H2. cbn in H2. fold (radix_val r q) in H2.
      pose proof Hv as Hv'. apply digit_of_iff in Hv' as [E _]; [|exact Hr]. rewrite E in H2. subst n.
      constructor; [|exact Hv]. now apply IH.
Qed.

Lemma is_digit_radix c : is_digit c = radix_digit 10 c.
Proof. now destruct c. Qed.

Lemma digits_iff q : forallb is_digit q = true <-> exists n, numeral 10 q n.
Proof.
  assert (forallb is_digit q = forallb (radix_digit 10) q) as ->.
  { induction q as [|c q IH]; [reflexivity|]. cbn. now rewrite is_digit_radix, IH. }
  split.
  - intros H. eexists. apply numeral_iff; [lia|]. split; [exact H|reflexivity].
  - intros [n H]. apply numeral_iff in H; [tauto|lia].
Qed.

(** ** Labels *)

Lemma split_dots_nonempty l : split_dots l <> [].
Proof.
  destruct l as [|c l]; [discriminate|]. cbn. destruct (Byte.eqb c x2e); [discriminate|].
  destruct (split_dots l); discriminate.
Qed.

Lemma labels_split l : labels l (split_dots l).
Proof.
  induction l as [|c l IH]; [constructor; intros []|]. cbn.
  destruct (Byte.eqb c x2e) eqn:E.
  - apply byte_eqb_spec in E as ->. apply (labels_cons [] l); [intros []|exact IH].
  - apply byte_eqb_neq in E. destruct (split_dots l) as [|p ps] eqn:S; [now apply split_dots_nonempty in S|].
    inversion IH as [p' Hp Hl|p' l' ps' Hp Hl He]; subst.
    + constructor. intros [H|H]; [congruence|contradiction].
    + apply (labels_cons (c :: p)); [|exact Hl]. intros [H|H]; [congruence|contradiction].
Qed.

Lemma split_dots_app p l : no_dot p -> split_dots (p ++ x2e :: l) = p :: split_dots l.
Proof.
  induction p as [|c p IH]; intros H; [reflexivity|]. cbn.
  assert (Byte.eqb c x2e = false) as -> by (apply byte_eqb_neq; intros ->; apply H; now left).
  rewrite IH; [reflexivity|]. intros Hi. apply H. now right.
Qed.
Lemma split_dots_one p : no_dot p -> split_dots p = [p].
Proof.
  induction p as [|c p IH]; intros H; [reflexivity|]. cbn.
  assert (Byte.eqb c x2e = false) as -> by (apply byte_eqb_neq; intros ->; apply H; now left).
  rewrite IH; [reflexivity|]. intros Hi. apply H. now right.
Qed.

Lemma labels_iff l ps : labels l ps <-> ps = split_dots l.
Proof.
  split; [|intros ->; apply labels_split].
  induction 1 as [p Hp|p l ps Hp Hl IH]; [now rewrite split_dots_one|].
  rewrite split_dots_app by exact Hp. now subst ps.
Qed.

(** The parts both IPv4 functions look at. *)
Definition proper_parts (l : bytes) : list bytes :=
  match rev (split_dots l) with
  | [] :: r => rev r
  | _ => split_dots l
  end.

Lemma proper_iff l ps : ps <> [] -> proper_labels l ps <-> ps = proper_parts l.
Proof.
  intros Hps. unfold proper_parts. split.
  - intros [l' ps' p Hl Hp|l' ps' Hn Hl]; apply labels_iff in Hl; rewrite <- Hl.
    + rewrite rev_app_distr. cbn. destruct p; [congruence|reflexivity].
    + rewrite rev_app_distr. cbn. now rewrite rev_involutive.
  - intros E. pose proof (rev_involutive (split_dots l)) as R.
    destruct (rev (split_dots l)) as [|[|c p] r] eqn:S.
    + symmetry in R. now apply split_dots_nonempty in R.
    + subst ps. cbn in R. apply proper_dot; [exact Hps|]. apply labels_iff. now rewrite R.
    + subst ps. cbn in R. rewrite <- R. apply proper_all; [|discriminate]. apply labels_iff. now rewrite R.
Qed.

(** ** IPv4 *)

Lemma v4_number_iff p n : parse_ipv4number p = Some (Some n) <-> v4_part p n /\ n <= u32_max.
Proof.
  assert (forall r q n, q <> [] -> r <= 16 ->
    (if forallb (radix_digit r) q then Some (if radix_val r q <=? u32_max then Some (radix_val r q) else None) else None)
      = Some (Some n) <-> numeral r q n /\ n <= u32_max) as Core.
  { intros r q m Hq Hr. rewrite (numeral_iff r q m Hr).
    destruct (forallb (radix_digit r) q); [|split; [discriminate|intros [[H _] _]; discriminate]].
    destruct (N.leb_spec (radix_val r q) u32_max) as [H|H].
    - split; [intros E; injection E as <-; auto|intros [[_ ->] _]; reflexivity].
    - split; [discriminate|]. intros [[_ <-] H']. lia. }
  destruct p as [|c [|d rest]].
  - split; [discriminate|]. intros [H _]. inversion H; congruence.
  - unfold parse_ipv4number. rewrite Core by (discriminate || lia). split.
    + intros [H Hn]. split; [|exact Hn]. destruct (decide (c = x30)) as [->|Hc].
      * apply numeral_iff in H as [_ <-]; [|lia]. exact v4_zero.
      * now apply v4_decimal.
    + intros [H Hn]. split; [|exact Hn]. inversion H; subst; try congruence; try assumption.
      apply numeral_iff; [lia|]. split; reflexivity.
  - unfold parse_ipv4number. destruct (Byte.eqb c x30) eqn:E0.
    + apply byte_eqb_spec in E0 as ->. destruct (Byte.eqb d x78 || Byte.eqb d x58) eqn:Ex.
      * assert (d = x78 \/ d = x58) as Hd
          by (apply orb_true_iff in Ex as [H|H]; apply byte_eqb_spec in H; auto).
        assert (v4_part (x30 :: d :: rest) n <-> numeral 16 rest n) as ->.
        { split; [|intros H; now constructor]. intros H. inversion H as [x q m Hx Hm|q m Hq Hm| |q m Hq Hh Hm]; subst.
          - exact Hm.
          - exfalso. apply numeral_iff in Hm as [Hm _]; [|lia]. destruct Hd as [->| ->]; discriminate.
          - exfalso. now apply Hh. }
        destruct rest as [|x rest]; [|apply Core; [discriminate|lia]]. split.
        -- intros E. injection E as <-. split; [constructor|unfold u32_max; lia].
        -- intros [H _]. apply numeral_iff in H as [_ <-]; [reflexivity|lia].
      * rewrite Core by (discriminate || lia). apply orb_false_iff in Ex as [E1 E2].
        apply byte_eqb_neq in E1, E2. split; intros [H Hn]; split; auto.
        -- constructor; [discriminate|exact H].
        -- inversion H as [x q m Hx Hm|q m Hq Hm| |q m Hq Hh Hm]; subst; auto.
           ++ destruct Hx; congruence.
           ++ exfalso. now apply Hh.
    + apply byte_eqb_neq in E0. rewrite Core by (discriminate || lia). split; intros [H Hn]; split; auto.
      * apply v4_decimal; [discriminate|exact E0|exact H].
      * inversion H; subst; (assumption || congruence).
Qed.

Lemma v4_number_some p : parse_ipv4number p <> None <-> exists n, v4_part p n.
Proof.
  assert (forall r q, r <= 16 -> ((if forallb (radix_digit r) q then
     Some (if radix_val r q <=? u32_max then Some (radix_val r q) else None) else None) <> None <->
     exists n, numeral r q n)) as Core.
  { intros r q Hr. split.
    - intros H. exists (radix_val r q). apply numeral_iff; [exact Hr|].
      destruct (forallb (radix_digit r) q); [auto|congruence].
    - intros [n H]. apply numeral_iff in H as [-> _]; [discriminate|exact Hr]. }
  destruct p as [|c [|d rest]].
  - split; [intros H; now destruct H|]. intros [n H]. inversion H; congruence.
  - unfold parse_ipv4number. rewrite Core by lia. split; intros [n H]; exists n.
    + destruct (decide (c = x30)) as [->|Hc].
      * apply numeral_iff in H as [_ <-]; [|lia]. exact v4_zero.
      * now apply v4_decimal.
    + inversion H; subst; try congruence. apply numeral_iff; [lia|]. split; reflexivity.
  - unfold parse_ipv4number. destruct (Byte.eqb c x30) eqn:E0.
    + apply byte_eqb_spec in E0 as ->. destruct (Byte.eqb d x78 || Byte.eqb d x58) eqn:Ex.
      * assert (d = x78 \/ d = x58) as Hd
          by (apply orb_true_iff in Ex as [H|H]; apply byte_eqb_spec in H; auto).
        assert ((exists n, v4_part (x30 :: d :: rest) n) <-> exists n, numeral 16 rest n) as ->.
        { split; intros [n H]; exists n; [|now constructor].
          inversion H as [x q m Hx Hm|q m Hq Hm| |q m Hq Hh Hm]; subst.
          - exact Hm.
          - exfalso. apply numeral_iff in Hm as [Hm _]; [|lia]. destruct Hd as [->| ->]; discriminate.
          - exfalso. now apply Hh. }
        destruct rest as [|x rest]; [|apply Core; lia]. split; [|discriminate].
        intros _. exists 0. constructor.
      * rewrite Core by lia. apply orb_false_iff in Ex as [E1 E2].
        apply byte_eqb_neq in E1, E2. split; intros [n H]; exists n.
        -- constructor; [discriminate|exact H].
        -- inversion H as [x q m Hx Hm|q m Hq Hm| |q m Hq Hh Hm]; subst; auto.
           ++ destruct Hx; congruence.
           ++ exfalso. now apply Hh.
    + apply byte_eqb_neq in E0. rewrite Core by lia. split; intros [n H]; exists n.
      * apply v4_decimal; [discriminate|exact E0|exact H].
      * inversion H; subst; (assumption || congruence).
Qed.

(** The last proper label, as [ends_in_a_number] finds it. *)
Lemma last_proper l :
  match rev (split_dots l) with
  | [] :: p :: _ => Some p
  | [] :: [] => None
  | p :: _ => Some p
  | [] => None
  end = match rev (proper_parts l) with p :: _ => Some p | [] => None end.
Proof.
  unfold proper_parts. destruct (rev (split_dots l)) as [|[|c p] r] eqn:S.
  - apply (f_equal (@rev bytes)) in S. rewrite rev_involutive in S. now apply split_dots_nonempty in S.
  - rewrite rev_involutive. destruct r; reflexivity.
  - now rewrite S.
Qed.

Lemma numeric_iff l : ends_in_a_number l = true <-> numeric_name l.
Proof.
  unfold ends_in_a_number. rewrite last_proper. unfold numeric_name.
  pose proof (rev_involutive (proper_parts l)) as R.
  destruct (rev (proper_parts l)) as [|p r].
  - cbn in R. split; [discriminate|]. intros (ps & p & H & _).
    apply proper_iff in H; [|now destruct ps]. rewrite <- R in H. now destruct ps.
  - cbn in R. split.
    + intros H. exists (rev r), p. split; [apply proper_iff; [now destruct (rev r)|exact R]|].
      apply orb_true_iff in H as [H|H].
      * left. apply andb_true_iff in H as [H1 H2]. apply negb_true_iff, bytes_eqb_false in H1.
        split; [exact H1|]. now apply digits_iff.
      * right. apply v4_number_some. destruct (parse_ipv4number p); [discriminate|discriminate].
    + intros (ps & p' & H & Hp). apply proper_iff in H; [|now destruct ps].
      rewrite <- R in H. apply app_inj_tail in H as [_ ->]. apply orb_true_iff.
      destruct Hp as [[Hne Hd]|Hp].
      * left. apply andb_true_iff. split; [now apply negb_true_iff, bytes_eqb_false|now apply digits_iff].
      * right. apply v4_number_some in Hp. now destruct (parse_ipv4number p).
Qed.

Lemma all_numbers_iff ps ns : all_numbers ps = Some ns <-> Forall2 (fun p n => v4_part p n /\ n <= u32_max) ps ns.
Proof.
  revert ns. induction ps as [|p ps IH]; intros ns; cbn.
  - split; [intros E; injection E as <-; constructor|intros H; inversion H; reflexivity].
  - split.
    + destruct (parse_ipv4number p) as [[n|]|] eqn:E; [|discriminate|discriminate].
      destruct (all_numbers ps) as [l|]; [|discriminate]. intros H. injection H as <-.
      constructor; [now apply v4_number_iff|now apply IH].
    + intros H. inversion H as [|p' n ps' l Hp Hl]; subst. apply v4_number_iff in Hp as ->.
      apply IH in Hl as ->. reflexivity.
Qed.

Lemma imap_app_sum (front : list N) : (length front <= 3)%nat ->
  fold_left (fun a p => a + N.shiftl (snd p) (8 * (3 - N.of_nat (fst p)))) (imap pair front) 0
  = fold_right (fun x acc => x + 256 * acc) 0 (rev front) * 256 ^ (4 - N.of_nat (length front)).
Proof.
  intros H. destruct front as [|a [|b [|c [|d r]]]]; cbn in H; try lia; cbn -[N.shiftl N.pow N.mul];
    rewrite ?N.shiftl_mul_pow2; cbn -[N.mul]; lia.
Qed.

Lemma shiftr_mask (k : nat) : (k <= 3)%nat ->
  N.shiftr u32_max (8 * N.of_nat k) = 256 ^ (4 - N.of_nat k) - 1.
Proof. intros H. do 4 (destruct k as [|k]; [reflexivity|]). lia. Qed.
Lemma pow_pos_256 n : 0 < 256 ^ n.
Proof. assert (256 ^ n <> 0) by (apply N.pow_nonzero; lia). lia. Qed.

Lemma v4_address_iff l a : numeric_name l -> parse_ipv4addr l = Some a <-> v4_address l a.
Proof.
  intros _. unfold parse_ipv4addr, v4_address. fold (proper_parts l). split.
  - destruct (Nat.ltb_spec 4 (length (proper_parts l))) as [|Hlen]; [discriminate|].
    destruct (all_numbers (proper_parts l)) as [ns|] eqn:EN; [|discriminate].
    apply all_numbers_iff in EN. pose proof (Forall2_length _ _ _ EN) as HL.
    pose proof (rev_involutive ns) as R. destruct (rev ns) as [|v front]; [discriminate|]. cbn in R. subst ns.
    destruct (N.ltb_spec (N.shiftr u32_max (8 * N.of_nat (length front))) v) as [|Hv]; [discriminate|].
    destruct (existsb (fun x => 255 <? x) front) eqn:EF; [discriminate|]. intros E.
    apply (inj Some) in E. subst a.
    apply Forall2_app_inv_r in EN as (ps & pl & HF & HL1 & EP). inversion HL1 as [|p v' t t' Hp Ht]; subst.
    inversion Ht; subst. pose proof (Forall2_length _ _ _ HF) as HL2. rewrite rev_length in HL2.
    rewrite EP, app_length in Hlen. cbn in Hlen.
    assert (length front <= 3)%nat as Hf by lia.
    exists ps, p, (rev front), v. split; [apply proper_iff; [now destruct ps|now rewrite EP]|].
    split; [lia|]. split; [eapply Forall2_impl; [exact HF|cbn; tauto]|]. split; [tauto|].
    split; [|split].
    + apply Forall_rev. apply Forall_forall. intros x Hx. destruct (N.lt_ge_cases x 256) as [|Hge]; [auto|].
      assert (existsb (fun x => 255 <? x) front = true) as C.
      { apply existsb_exists. exists x. split; [exact Hx|]. apply N.ltb_lt. lia. }
      congruence.
    + rewrite HL2. rewrite (shiftr_mask _ Hf) in Hv. pose proof (pow_pos_256 (4 - N.of_nat (length front))). lia.
    + rewrite imap_app_sum by (rewrite rev_length; exact Hf). rewrite rev_length, HL2, N.add_comm. reflexivity.
  - intros (ps & p & front & n & HP & Hlen & HF & Hp & H255 & Hn & ->).
    apply proper_iff in HP; [|now destruct ps]. rewrite <- HP.
    rewrite app_length. cbn [length]. replace (4 <? length ps + 1)%nat with false by (symmetry; apply Nat.ltb_ge; lia).
    pose proof (Forall2_length _ _ _ HF) as HL2.
    assert (256 ^ (4 - N.of_nat (length ps)) <= u32_max + 1) as Hpow.
    { destruct ps as [|? [|? [|? [|? ?]]]]; cbn in Hlen; try lia; vm_compute; discriminate. }
    assert (all_numbers (ps ++ [p]) = Some (front ++ [n])) as ->.
    { apply all_numbers_iff. apply Forall2_app.
      - clear -HF H255. induction HF as [|x y ps front Hxy HF IH]; [constructor|].
        inversion H255; subst. constructor; [|now apply IH]. split; [exact Hxy|unfold u32_max; lia].
      - constructor; [|constructor]. split; [exact Hp|lia]. }
    rewrite rev_app_distr. cbn [rev app]. rewrite rev_length, rev_involutive, <- HL2.
    replace (N.shiftr u32_max (8 * N.of_nat (length ps)) <? n) with false.
    2:{ symmetry. apply N.ltb_ge. rewrite shiftr_mask by lia. lia. }
    replace (existsb (fun x => 255 <? x) (rev front)) with false.
    2:{ symmetry. apply Bool.not_true_iff_false. intros C. apply existsb_exists in C as (x & Hx & C).
        apply in_rev in Hx. rewrite Forall_forall in H255.
        apply H255 in Hx. apply N.ltb_lt in C. lia. }
    f_equal. rewrite imap_app_sum by lia. rewrite HL2. apply N.add_comm.
Qed.

Lemma v4_address_bound l a : v4_address l a -> a < 4294967296.
Proof.
  intros (ps & p & front & n & _ & Hlen & HF & _ & H255 & Hn & ->).
  pose proof (Forall2_length _ _ _ HF) as HL. clear HF. rewrite HL in Hlen, Hn |- *. clear ps HL.
  destruct front as [|a [|b [|c [|d r]]]]; cbn in Hlen; try lia;
    repeat match goal with H : Forall _ (_ :: _) |- _ => inversion H; clear H; subst end;
    vm_compute (256 ^ _) in Hn; cbn -[N.mul]; lia.
Qed.

Lemma dotted_iff a s : a < 4294967296 -> dotted a s <-> s = show_ipv4 a.
Proof.
  intros Ha. split.
  - intros (a1 & a2 & a3 & a4 & s1 & s2 & s3 & s4 & H1 & H2 & H3 & H4 & -> & D1 & D2 & D3 & D4 & ->).
    unfold show_ipv4.
    replace ((256 * (256 * (256 * a1 + a2) + a3) + a4) / 16777216) with a1
      by (apply (N.div_unique _ _ _ (256 * (256 * a2 + a3) + a4)); lia).
    replace ((256 * (256 * (256 * a1 + a2) + a3) + a4) / 65536) with (256 * a1 + a2)
      by (apply (N.div_unique _ _ _ (256 * a3 + a4)); lia).
    replace ((256 * (256 * (256 * a1 + a2) + a3) + a4) / 256) with (256 * (256 * a1 + a2) + a3)
      by (apply (N.div_unique _ _ _ a4); lia).
    replace ((256 * a1 + a2) mod 256) with a2 by (apply (N.mod_unique _ _ a1); lia).
    replace ((256 * (256 * a1 + a2) + a3) mod 256) with a3 by (apply (N.mod_unique _ _ (256 * a1 + a2)); lia).
    replace ((256 * (256 * (256 * a1 + a2) + a3) + a4) mod 256) with a4
      by (apply (N.mod_unique _ _ (256 * (256 * a1 + a2) + a3)); lia).
    rewrite (is_decimal_unique _ _ _ D1 (dec_is_decimal a1)), (is_decimal_unique _ _ _ D2 (dec_is_decimal a2)),
      (is_decimal_unique _ _ _ D3 (dec_is_decimal a3)), (is_decimal_unique _ _ _ D4 (dec_is_decimal a4)).
    reflexivity.
  - intros ->. exists (a / 16777216), (a / 65536 mod 256), (a / 256 mod 256), (a mod 256),
      (dec (a / 16777216)), (dec (a / 65536 mod 256)), (dec (a / 256 mod 256)), (dec (a mod 256)).
    repeat split; try apply dec_is_decimal; try (apply N.mod_lt; lia).
    + apply N.div_lt_upper_bound; lia.
    + pose proof (N.div_mod a 256). pose proof (N.div_mod (a / 256) 256). pose proof (N.div_mod (a / 256 / 256) 256).
      rewrite !N.div_div in * by lia. lia.
Qed.
