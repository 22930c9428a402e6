(** IPv6 addresses: [ipv6_ok] of Url.v accepts exactly the texts of RFC 4291. *)
From Coq Require Import Strings.String.
From Verif Require Import Base BaseLemmas Deps Hex Eth SpecEth EthProofs Url SpecUrl UrlNumbers.
Local Open Scope N_scope.

Definition no_digit_next (rest : bytes) : Prop := forall c r, rest = c :: r -> is_digit c = false.
Definition no_hex_next (rest : bytes) : Prop := forall c r, rest = c :: r -> hex_val c = None.

(** ** The dotted part *)

Definition dval (s : bytes) (n : N) : N := fold_left (fun a c => 10 * a + (nb c - 48)) s n.

Lemma dval_mono s n : n <= dval s n.
Proof.
  revert n. induction s as [|c s IH]; intros n; [change (dval [] n) with n; lia|].
  change (dval (c :: s) n) with (dval s (10 * n + (nb c - 48))).
  etransitivity; [|apply IH]. lia.
Qed.

Lemma v4_digits_some l n m rest : v4_digits l (Some n) = Some (m, rest) ->
  exists s, l = s ++ rest /\ Forall (fun c => is_digit c = true) s /\ m = dval s n /\
    (s = [] \/ n <> 0) /\ (n <= 255 -> m <= 255) /\ no_digit_next rest.
Proof.
  revert n. induction l as [|c r IH]; intros n H; cbn [v4_digits option_map] in H.
  - apply (inj Some) in H. injection H as <- <-. exists []. split; [reflexivity|]. split; [constructor|]. split; [reflexivity|]. split; [auto|]. split; [auto|].
    intros c r E. discriminate.
  - destruct (is_digit c) eqn:Ec.
    + destruct (n =? 0) eqn:E0; [discriminate|]. apply N.eqb_neq in E0.
      destruct (255 <? 10 * n + (nb c - 48)) eqn:E; [discriminate|]. apply N.ltb_ge in E.
      apply IH in H as (s & -> & Hs & -> & Hz & Hb & Hn). exists (c :: s).
      split; [reflexivity|]. split; [now constructor|]. split; [reflexivity|]. split; [auto|]. split; [auto|exact Hn].
    + apply (inj Some) in H. injection H as <- <-. exists []. split; [reflexivity|]. split; [constructor|]. split; [reflexivity|]. split; [auto|]. split; [auto|].
      intros c' r' E. injection E as <- <-. exact Ec.
Qed.

Lemma digit_range c : is_digit c = true <-> 48 <= nb c <= 57.
Proof. unfold is_digit. rewrite andb_true_iff, !N.leb_le. tauto. Qed.

Lemma v4_digits_none l m rest : v4_digits l None = Some (m, rest) ->
  exists s, l = s ++ rest /\ is_decimal s m /\ m < 256 /\ no_digit_next rest.
Proof.
  destruct l as [|c r]; [discriminate|]. cbn. destruct (is_digit c) eqn:Ec; [|discriminate].
  intros H. apply v4_digits_some in H as (s & -> & Hs & -> & Hz & Hb & Hn).
  apply digit_range in Ec as Er. exists (c :: s). split; [reflexivity|]. split; [|split; [|exact Hn]].
  - unfold is_decimal. split; [discriminate|]. split; [|split].
    + constructor; [lia|]. eapply List.Forall_impl; [|exact Hs]. intros x. apply digit_range.
    + reflexivity.
    + cbn. intros ->. destruct Hz as [->|Hz]; [reflexivity|]. now destruct Hz.
  - assert (nb c - 48 <= 255) by lia. apply Hb in H. lia.
Qed.

Lemma v4_digits_some_back s n rest : Forall (fun c => 48 <= nb c <= 57) s -> (s = [] \/ n <> 0) ->
  dval s n <= 255 -> no_digit_next rest -> v4_digits (s ++ rest) (Some n) = Some (dval s n, rest).
Proof.
  revert n. induction s as [|c s IH]; intros n Hs Hz Hb Hn.
  - cbn [app dval fold_left]. destruct rest as [|c r]; [reflexivity|]. cbn. now rewrite (Hn c r eq_refl).
  - inversion Hs as [|? ? Hc Hs']; subst. cbn [app v4_digits].
    replace (is_digit c) with true by (symmetry; now apply digit_range).
    destruct Hz as [C|Hz]; [discriminate|]. replace (n =? 0) with false by (symmetry; now apply N.eqb_neq).
    change (dval (c :: s) n) with (dval s (10 * n + (nb c - 48))) in *.
    pose proof (dval_mono s (10 * n + (nb c - 48))).
    replace (255 <? 10 * n + (nb c - 48)) with false by (symmetry; apply N.ltb_ge; lia).
    apply IH; auto. right. lia.
Qed.

Lemma v4_digits_none_back s m rest : is_decimal s m -> m < 256 -> no_digit_next rest ->
  v4_digits (s ++ rest) None = Some (m, rest).
Proof.
  intros (Hne & Hs & Hv & Hz) Hm Hn. destruct s as [|c s]; [contradiction|].
  inversion Hs as [|? ? Hc Hs']; subst. cbn [app v4_digits].
  replace (is_digit c) with true by (symmetry; now apply digit_range).
  change (fold_left (fun a c0 => 10 * a + (nb c0 - 48)) (c :: s) 0) with (dval s (nb c - 48)) in *.
  apply v4_digits_some_back; auto; [|lia].
  destruct (N.eq_dec (nb c - 48) 0) as [E|E]; [|now right]. left.
  assert (c = x30) as -> by (apply nb_inj; cbn; lia). assert (x30 :: s = [x30]) as E' by now apply Hz.
  now injection E'.
Qed.

Lemma no_digit_dot r : no_digit_next (x2e :: r).
Proof. intros c r' E. injection E as <- <-. reflexivity. Qed.
Lemma no_digit_nil : no_digit_next [].
Proof. intros c r' E. discriminate. Qed.

Lemma v4_tail_iff l : v4_tail 3 l = true <-> exists a, dotted a l.
Proof.
  split.
  - cbn. destruct (v4_digits l None) as [[a1 r1]|] eqn:E1; [|discriminate].
    apply v4_digits_none in E1 as (s1 & -> & D1 & B1 & _).
    destruct r1 as [|c1 r1]; [discriminate|]. intros H. apply andb_true_iff in H as [C1 H].
    apply byte_eqb_spec in C1 as ->.
    destruct (v4_digits r1 None) as [[a2 r2]|] eqn:E2; [|discriminate].
    apply v4_digits_none in E2 as (s2 & -> & D2 & B2 & _).
    destruct r2 as [|c2 r2]; [discriminate|]. apply andb_true_iff in H as [C2 H].
    apply byte_eqb_spec in C2 as ->.
    destruct (v4_digits r2 None) as [[a3 r3]|] eqn:E3; [|discriminate].
    apply v4_digits_none in E3 as (s3 & -> & D3 & B3 & _).
    destruct r3 as [|c3 r3]; [discriminate|]. apply andb_true_iff in H as [C3 H].
    apply byte_eqb_spec in C3 as ->.
    destruct (v4_digits r3 None) as [[a4 r4]|] eqn:E4; [|discriminate].
    apply v4_digits_none in E4 as (s4 & -> & D4 & B4 & _).
    destruct r4; [|discriminate]. rewrite app_nil_r.
    eexists. exists a1, a2, a3, a4, s1, s2, s3, s4. repeat (split; [eassumption || reflexivity|]). reflexivity.
  - intros (a & a1 & a2 & a3 & a4 & s1 & s2 & s3 & s4 & B1 & B2 & B3 & B4 & _ & D1 & D2 & D3 & D4 & ->).
    cbn. rewrite (v4_digits_none_back s1 a1) by (auto using no_digit_dot). cbn.
    rewrite (v4_digits_none_back s2 a2) by (auto using no_digit_dot). cbn.
    rewrite (v4_digits_none_back s3 a3) by (auto using no_digit_dot). cbn.
    rewrite <- (app_nil_r s4). now rewrite (v4_digits_none_back s4 a4) by (auto using no_digit_nil).
Qed.

(** ** Groups *)

Lemma take_hex_spec k l h rest : take_hex k l = (h, rest) ->
  l = h ++ rest /\ (length h <= k)%nat /\ forallb (radix_digit 16) h = true.
Proof.
  revert l h rest. induction k as [|k IH]; intros l h rest; cbn.
  - intros E. injection E as <- <-. repeat split; cbn; lia.
  - destruct l as [|c r]; [intros E; injection E as <- <-; repeat split; cbn; lia|].
    destruct (hex_val c) as [v|] eqn:Ev; [|intros E; injection E as <- <-; repeat split; cbn; lia].
    destruct (take_hex k r) as [h' r'] eqn:Et. intros E. injection E as <- <-.
    apply IH in Et as (-> & Hk & Hh). repeat split; [cbn; lia|]. cbn. rewrite Hh, andb_true_r.
    unfold radix_digit. rewrite Ev. apply hex_val_digit in Ev as [Ev _]. now apply N.ltb_lt.
Qed.

Lemma take_hex_app k g rest : (length g <= k)%nat -> forallb (radix_digit 16) g = true ->
  no_hex_next rest -> take_hex k (g ++ rest) = (g, rest).
Proof.
  revert k. induction g as [|c g IH]; intros k Hk Hg Hn.
  - cbn. destruct k; [destruct rest; reflexivity|]. destruct rest as [|c r]; [reflexivity|].
    cbn. now rewrite (Hn c r eq_refl).
  - cbn in Hg. apply andb_true_iff in Hg as [Hc Hg]. destruct k as [|k]; [cbn in Hk; lia|]. cbn.
    unfold radix_digit in Hc. destruct (hex_val c); [|discriminate]. rewrite IH; auto. cbn in Hk. lia.
Qed.

Lemma group_iff g : v6_group g <-> (1 <= length g <= 4)%nat /\ forallb (radix_digit 16) g = true.
Proof.
  unfold v6_group. split; intros [H1 H2]; (split; [exact H1|]).
  - destruct H2 as [n Hn]. apply numeral_iff in Hn; [tauto|lia].
  - eexists. apply numeral_iff; [lia|]. split; [exact H2|reflexivity].
Qed.

Lemma no_hex_colon r : no_hex_next (x3a :: r).
Proof. intros c r' E. injection E as <- <-. reflexivity. Qed.
Lemma no_hex_dot r : no_hex_next (x2e :: r).
Proof. intros c r' E. injection E as <- <-. reflexivity. Qed.
Lemma no_hex_nil : no_hex_next [].
Proof. intros c r' E. discriminate. Qed.

Lemma group_head g : v6_group g -> exists c r, g = c :: r /\ c <> x3a /\ radix_digit 16 c = true.
Proof.
  intros Hg. apply group_iff in Hg as [H1 H2]. destruct g as [|c r]; [cbn in H1; lia|].
  cbn in H2. apply andb_true_iff in H2 as [Hc _]. exists c, r. split; [reflexivity|].
  split; [intros ->; discriminate|exact Hc].
Qed.

(** A decimal below 256 has at most three digits, all of them hexadecimal ones. *)
Lemma decimal_short s n : is_decimal s n -> n < 256 ->
  (1 <= length s <= 3)%nat /\ forallb (radix_digit 16) s = true.
Proof.
  intros D Hn. pose proof D as (Hne & Hs & _ & _).
  rewrite (is_decimal_unique _ _ _ D (dec_is_decimal n)) in *.
  split.
  - split; [apply dec_nonempty|]. assert (blen (dec n) <= blen (dec 255)) as H by (apply dec_length_mono; lia).
    unfold blen in H. change (length (dec 255)) with 3%nat in H. lia.
  - apply forallb_forall. intros c Hc. rewrite List.Forall_forall in Hs. apply Hs in Hc.
    assert (is_digit c = true) as Hd by now apply digit_range. revert Hd. clear. now destruct c.
Qed.

(** What [v6_pieces] sees of a dotted text. *)
Lemma dotted_head a l : dotted a l -> exists h r, l = h ++ x2e :: r /\ (1 <= length h <= 3)%nat /\
  forallb (radix_digit 16) h = true.
Proof.
  intros (a1 & a2 & a3 & a4 & s1 & s2 & s3 & s4 & B1 & _ & _ & _ & _ & D1 & _ & _ & _ & ->).
  destruct (decimal_short _ _ D1 B1) as [H1 H2]. eauto.
Qed.

Lemma right_head l n : v6_right l n -> exists c r, l = c :: r /\ c <> x3a.
Proof.
  intros [g Hg|s a Hd|g l' m Hg Hl].
  - apply group_head in Hg as (c & r & -> & Hc & _). eauto.
  - apply dotted_head in Hd as (h & r & -> & Hlen & Hh). destruct h as [|c h]; [cbn in Hlen; lia|].
    exists c, (h ++ x2e :: r). split; [reflexivity|]. intros ->. discriminate.
  - apply group_head in Hg as (c & r & -> & Hc & _). cbn. eauto.
Qed.
Lemma right_pos l n : v6_right l n -> (1 <= n)%nat.
Proof. destruct 1; lia. Qed.
Lemma left_head l n : v6_left l n -> exists c r, l = c :: r /\ c <> x3a.
Proof.
  intros [g Hg|g l' m Hg Hl]; apply group_head in Hg as (c & r & -> & Hc & _); cbn; eauto.
Qed.

(** ** One step of the loop on texts that start with a group *)

Lemma v6_step_group f g rest p z : v6_group g -> (p < 8)%nat ->
  v6_pieces (S f) (g ++ x3a :: rest) p z =
  match rest with [] => false | _ => v6_pieces f rest (S p) z end.
Proof.
  intros Hg Hp. destruct (group_head g Hg) as (c & r & E & Hc & _).
  apply group_iff in Hg as [Hlen Hh].
  assert (g ++ x3a :: rest = c :: (r ++ x3a :: rest)) as El by (now subst g).
  cbn [v6_pieces]. rewrite El. replace (p =? 8)%nat with false by (symmetry; apply Nat.eqb_neq; lia).
  replace (Byte.eqb c x3a) with false by (symmetry; now apply byte_eqb_neq).
  rewrite <- El. rewrite take_hex_app by (auto using no_hex_colon; lia). cbn. reflexivity.
Qed.
Lemma v6_step_last f g p z : v6_group g -> (p < 8)%nat ->
  v6_pieces (S f) g p z = v6_pieces f [] (S p) z.
Proof.
  intros Hg Hp. destruct (group_head g Hg) as (c & r & E & Hc & _).
  apply group_iff in Hg as [Hlen Hh]. cbn [v6_pieces]. rewrite E.
  replace (p =? 8)%nat with false by (symmetry; apply Nat.eqb_neq; lia).
  replace (Byte.eqb c x3a) with false by (symmetry; now apply byte_eqb_neq).
  rewrite <- E. rewrite <- (app_nil_r g). rewrite take_hex_app by (auto using no_hex_nil; lia). reflexivity.
Qed.
Lemma v6_step_dotted f l a p z : dotted a l -> (p < 8)%nat ->
  v6_pieces (S f) l p z = negb (6 <? p)%nat && (z || (p + 2 =? 8)%nat).
Proof.
  intros Hd Hp. pose proof (dotted_head a l Hd) as (h & r & E & Hlen & Hh).
  destruct h as [|c h]; [cbn in Hlen; lia|]. cbn [v6_pieces].
  assert (l = c :: (h ++ x2e :: r)) as El by exact E. rewrite El.
  replace (p =? 8)%nat with false by (symmetry; apply Nat.eqb_neq; lia).
  assert (c <> x3a) as Hc by (intros ->; discriminate).
  replace (Byte.eqb c x3a) with false by (symmetry; now apply byte_eqb_neq).
  rewrite <- El. rewrite E at 1. rewrite take_hex_app by (auto using no_hex_dot; lia).
  change (Byte.eqb x2e x2e) with true. cbv iota. destruct (6 <? p)%nat; [reflexivity|].
  replace (v4_tail 3 l) with true by (symmetry; apply v4_tail_iff; eauto). reflexivity.
Qed.

(** Any text the loop accepts has one of these forms. *)
Lemma v6_step_inv f c r p z : v6_pieces (S f) (c :: r) p z = true -> c <> x3a -> (p <= 8)%nat ->
  (p < 8)%nat /\
  (v6_group (c :: r) \/ (exists a, dotted a (c :: r)) \/
   exists g rest, c :: r = g ++ x3a :: rest /\ v6_group g /\ rest <> []).
Proof.
  intros H Hc Hp. cbn [v6_pieces] in H. destruct (Nat.eqb_spec p 8) as [|Ep]; [discriminate|].
  split; [lia|]. replace (Byte.eqb c x3a) with false in H by (symmetry; now apply byte_eqb_neq).
  destruct (take_hex 4 (c :: r)) as [h rest] eqn:Et. apply take_hex_spec in Et as (El & Hlen & Hh).
  destruct rest as [|d rest].
  - left. rewrite app_nil_r in El. subst h. apply group_iff. split; [cbn in Hlen |- *; lia|exact Hh].
  - destruct (Byte.eqb d x2e) eqn:Ed.
    + right. left. destruct h as [|x h]; [discriminate|]. destruct (6 <? p)%nat; [discriminate|].
      apply andb_true_iff in H as [H _]. now apply v4_tail_iff.
    + destruct (Byte.eqb d x3a) eqn:Ed'; [|discriminate]. apply byte_eqb_spec in Ed' as ->.
      destruct rest as [|e rest]; [discriminate|]. right. right. exists h, (e :: rest). split; [exact El|].
      split; [|discriminate]. apply group_iff. split; [|exact Hh]. destruct h as [|x h]; [|cbn in Hlen |- *; lia].
      cbn in El. congruence.
Qed.

Lemma v6_pieces_compressed f : forall l p, (length l < f)%nat -> (p <= 8)%nat ->
  v6_pieces f l p true = true <-> (l = [] \/ exists m, v6_right l m /\ (p + m <= 8)%nat).
Proof.
  induction f as [|f IH]; intros l p Hf Hp; [lia|]. split.
  - intros H. destruct l as [|c r]; [now left|]. right.
    destruct (decide (c = x3a)) as [->|Hc].
    { cbn in H. destruct (p =? 8)%nat; discriminate. }
    destruct (v6_step_inv f c r p true H Hc Hp) as [Hp8 [Hg|[[a Hd]|(g & rest & El & Hg & Hr)]]].
    + exists 1%nat. split; [now constructor|lia].
    + exists 2%nat. split; [econstructor; exact Hd|]. rewrite (v6_step_dotted f _ a p true Hd Hp8) in H.
      apply andb_true_iff in H as [H _]. apply negb_true_iff, Nat.ltb_ge in H. lia.
    + rewrite El in H, Hf |- *. rewrite v6_step_group in H by auto. destruct rest as [|e rest]; [contradiction|].
      apply IH in H; [| |lia].
      2:{ rewrite app_length in Hf. cbn in Hf |- *. lia. }
      destruct H as [H|(m & Hm & Hle)]; [discriminate|]. exists (S m). split; [now constructor|lia].
  - intros [->|(m & Hm & Hle)]; [reflexivity|]. pose proof (right_pos _ _ Hm).
    destruct Hm as [g Hg|s a Hd|g l' n Hg Hl].
    + rewrite v6_step_last by (auto; lia). destruct f; [|reflexivity].
      apply group_head in Hg as (c & r & -> & _). cbn in Hf. lia.
    + rewrite (v6_step_dotted f s a p true Hd) by lia. replace (6 <? p)%nat with false by (symmetry; apply Nat.ltb_ge; lia).
      reflexivity.
    + rewrite v6_step_group by (auto; lia). destruct (right_head _ _ Hl) as (c & r & -> & _).
      apply IH; [|lia|].
      * rewrite app_length in Hf. cbn in Hf |- *. lia.
      * right. exists n. split; [exact Hl|lia].
Qed.

Lemma v6_pieces_open f : forall l p, (length l < f)%nat -> (p <= 8)%nat ->
  v6_pieces f l p false = true <->
  (l = [] /\ p = 8%nat) \/ (exists m, v6_right l m /\ (p + m = 8)%nat) \/
  (exists l1 r n m, ((l1 = [] /\ n = 0%nat /\ l = x3a :: r) \/ (v6_left l1 n /\ l = l1 ++ x3a :: x3a :: r)) /\
     ((r = [] /\ m = 0%nat) \/ v6_right r m) /\ (p + n + m <= 7)%nat).
Proof.
  induction f as [|f IH]; intros l p Hf Hp; [lia|]. split.
  - intros H. destruct l as [|c r]; [left; split; [reflexivity|]; cbn in H; now apply Nat.eqb_eq in H|].
    destruct (decide (c = x3a)) as [->|Hc].
    { right. right. cbn in H. destruct (Nat.eqb_spec p 8) as [|Ep]; [discriminate|]. cbn in Hf.
      apply v6_pieces_compressed in H; [|lia|lia]. destruct H as [->|(m & Hm & Hle)].
      - exists [], [], 0%nat, 0%nat. split; [left; auto|]. split; [auto|lia].
      - exists [], r, 0%nat, m. split; [left; auto|]. split; [auto|lia]. }
    destruct (v6_step_inv f c r p false H Hc Hp) as [Hp8 [Hg|[[a Hd]|(g & rest & El & Hg & Hr)]]].
    + right. left. exists 1%nat. split; [now constructor|]. rewrite v6_step_last in H by auto.
      destruct f as [|f]; [discriminate|]. cbn in H. apply Nat.eqb_eq in H. lia.
    + right. left. exists 2%nat. split; [econstructor; exact Hd|]. rewrite (v6_step_dotted f _ a p false Hd Hp8) in H.
      apply andb_true_iff in H as [_ H]. cbn in H. apply Nat.eqb_eq in H. lia.
    + rewrite El in H, Hf |- *. rewrite v6_step_group in H by auto. destruct rest as [|e rest]; [contradiction|].
      apply IH in H; [| |lia].
      2:{ rewrite app_length in Hf. cbn in Hf |- *. lia. }
      destruct H as [[H _]|[(m & Hm & Hle)|(l1 & r' & n & m & H1 & H2 & H3)]]; [discriminate| |].
      * right. left. exists (S m). split; [now constructor|lia].
      * right. right. destruct H1 as [(-> & -> & E)|[H1 E]].
        -- injection E as -> ->. exists g, r', 1%nat, m. split; [right; split; [now constructor|reflexivity]|].
           split; [exact H2|lia].
        -- exists (g ++ x3a :: l1), r', (S n), m. split; [right; split; [now constructor|]|].
           ++ rewrite E, <- app_assoc. reflexivity.
           ++ split; [exact H2|lia].
  - intros [[-> ->]|[(m & Hm & Hle)|(l1 & r & n & m & H1 & H2 & H3)]].
    + reflexivity.
    + pose proof (right_pos _ _ Hm). destruct Hm as [g Hg|s a Hd|g l' n Hg Hl].
      * rewrite v6_step_last by (auto; lia). destruct f as [|f].
        -- apply group_head in Hg as (c & r & -> & _). cbn in Hf. lia.
        -- cbn. apply Nat.eqb_eq. lia.
      * rewrite (v6_step_dotted f s a p false Hd) by lia. replace (6 <? p)%nat with false by (symmetry; apply Nat.ltb_ge; lia).
        cbn. apply Nat.eqb_eq. lia.
      * rewrite v6_step_group by (auto; lia). destruct (right_head _ _ Hl) as (c & r & -> & _).
        apply IH; [|lia|].
        -- rewrite app_length in Hf. cbn in Hf |- *. lia.
        -- right. left. exists n. split; [exact Hl|lia].
    + destruct H1 as [(-> & -> & ->)|[H1 ->]].
      * cbn. replace (p =? 8)%nat with false by (symmetry; apply Nat.eqb_neq; lia). cbn in Hf.
        apply v6_pieces_compressed; [lia|lia|]. destruct H2 as [[-> _]|H2]; [now left|]. right. exists m. split; [exact H2|lia].
      * destruct H1 as [g Hg|g l' k Hg Hl].
        -- rewrite v6_step_group by (auto; lia). apply IH; [rewrite app_length in Hf; cbn in Hf |- *; lia|lia|].
           right. right. exists [], r, 0%nat, m. split; [left; auto|]. split; [exact H2|lia].
        -- rewrite <- app_assoc. cbn [app]. rewrite v6_step_group by (auto; lia).
           destruct (left_head _ _ Hl) as (c & x & Ec & _).
           assert (v6_pieces f (l' ++ x3a :: x3a :: r) (S p) false = true) as Hrec.
           { apply IH; [|lia|].
             - rewrite !app_length in Hf |- *. cbn in Hf |- *. rewrite ?app_length in Hf. cbn in Hf. lia.
             - right. right. exists l', r, k, m. split; [right; auto|]. split; [exact H2|lia]. }
           rewrite Ec in Hrec |- *. exact Hrec.
Qed.

Theorem ipv6_ok_iff s : ipv6_ok s = true <-> v6_text s.
Proof.
  unfold v6_text. destruct s as [|c [|d r]].
  - split; [discriminate|]. intros [H|(l & r & n & m & E & _)].
    + apply right_head in H as (c & r & E & _). discriminate.
    + now destruct l.
  - split; [discriminate|]. intros [H|(l & r & n & m & E & _)].
    + exfalso. assert (forall l n, v6_right l n -> (n <= S (length l))%nat) as Hlen.
      { clear. induction 1 as [g Hg|s a Hd|g l n Hg Hl IH]; [lia| |].
        - apply dotted_head in Hd as (h & r & -> & Hl & _). rewrite app_length. cbn. lia.
        - rewrite app_length. cbn. lia. }
      apply Hlen in H. cbn in H. lia.
    + destruct l as [|? [|? ?]]; discriminate.
  - unfold ipv6_ok. destruct (Byte.eqb c x3a) eqn:Ec.
    + apply byte_eqb_spec in Ec as ->. split.
      * intros H. apply andb_true_iff in H as [Hd H]. apply byte_eqb_spec in Hd as ->. right.
        apply v6_pieces_compressed in H; [|lia|lia]. destruct H as [->|(m & Hm & Hle)].
        -- exists [], [], 0%nat, 0%nat. split; [reflexivity|]. split; [auto|]. split; [auto|lia].
        -- exists [], r, 0%nat, m. split; [reflexivity|]. split; [auto|]. split; [auto|lia].
      * intros [H|(l & r' & n & m & E & Hl & Hr & Hle)].
        -- apply right_head in H as (c & r' & E & Hc). congruence.
        -- destruct Hl as [[-> ->]|Hl].
           ++ cbn in E. injection E as -> ->. apply andb_true_iff. split; [reflexivity|].
              apply v6_pieces_compressed; [lia|lia|]. destruct Hr as [[-> _]|Hr]; [now left|]. right. exists m. split; [exact Hr|lia].
           ++ apply left_head in Hl as (c & x & -> & Hc). cbn in E. congruence.
    + apply byte_eqb_neq in Ec. rewrite v6_pieces_open by lia. split.
      * intros [[H _]|[(m & Hm & Hle)|(l1 & r' & n & m & H1 & H2 & H3)]]; [discriminate| |].
        -- left. cbn in Hle. now subst m.
        -- right. destruct H1 as [(_ & _ & E)|[H1 E]]; [congruence|]. exists l1, r', n, m. auto.
      * intros [H|(l & r' & n & m & E & Hl & Hr & Hle)]; [right; left; eauto|].
        right. right. destruct Hl as [[-> ->]|Hl]; [cbn in E; congruence|]. exists l, r', n, m. auto.
Qed.
