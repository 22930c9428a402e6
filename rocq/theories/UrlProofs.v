(** [url_parse] on "http:" and "https:" texts against [site_text] of SpecUrl.v. *)
From Coq Require Import Strings.String.
From Verif Require Import Base BaseLemmas Deps Hex Eth SpecEth EthProofs Url SpecUrl UrlNumbers UrlHosts UrlV6.
Local Open Scope N_scope.

(** ** Trimming *)

Lemma drop_while_app p a b :
  drop_while p (a ++ b) = if forallb p a then drop_while p b else drop_while p a ++ b.
Proof.
  induction a as [|c a IH]; [reflexivity|]. cbn. destruct (p c); [exact IH|reflexivity].
Qed.
Lemma drop_while_all p a : forallb p a = true -> drop_while p a = [].
Proof. intros H. rewrite <- (app_nil_r a), drop_while_app, H. reflexivity. Qed.
Lemma forallb_rev {A} (p : A -> bool) l : forallb p (rev l) = forallb p l.
Proof. induction l as [|c l IH]; [reflexivity|]. cbn. rewrite forallb_app, IH. cbn. rewrite andb_true_r. apply andb_comm. Qed.

Definition not_break (c : byte) : bool := negb (tab_or_newline c).
Definition cleaned (d : bytes) : bytes := List.filter not_break (rev (drop_while c0_or_space (rev d))).

Lemma blank_iff l : forallb c0_or_space l = true <-> Forall blank l.
Proof.
  rewrite List.Forall_forall, forallb_forall. unfold c0_or_space, blank.
  split; intros H c Hc; apply H in Hc; now apply N.leb_le.
Qed.
Lemma break_iff c : tab_or_newline c = true <-> break_char c.
Proof.
  unfold tab_or_newline, break_char. rewrite !orb_true_iff, !N.eqb_eq. split.
  - intros [[H|H]|H]; [left|right; left|right; right]; now apply nb_inj.
  - intros [->|[->| ->]]; auto.
Qed.

Lemma cleaned_blank l : Forall blank l -> cleaned l = [].
Proof. intros H. apply blank_iff in H. unfold cleaned. rewrite drop_while_all; [reflexivity|]. now rewrite forallb_rev. Qed.
Lemma cleaned_cons c l : ~ Forall blank (c :: l) ->
  cleaned (c :: l) = (if not_break c then [c] else []) ++ cleaned l.
Proof.
  intros H. assert (forallb c0_or_space (c :: l) = false) as Hf.
  { apply not_true_iff_false. intros C. apply H. now apply blank_iff. }
  unfold cleaned. cbn [rev]. rewrite drop_while_app, forallb_rev.
  destruct (forallb c0_or_space l) eqn:El.
  - cbn in Hf. rewrite El, andb_true_r in Hf. cbn [drop_while]. rewrite Hf.
    rewrite (drop_while_all _ (rev l)) by (now rewrite forallb_rev). cbn. destruct (not_break c); reflexivity.
  - rewrite rev_app_distr. cbn. destruct (not_break c); reflexivity.
Qed.

Lemma reads_as_iff d t : reads_as d t <-> t = cleaned d.
Proof.
  split.
  - induction 1 as [l Hl|c l t Hl Hc Ht IH|c l t Hl Hc Ht IH].
    + now rewrite cleaned_blank.
    + rewrite cleaned_cons by exact Hl. apply break_iff in Hc. unfold not_break. rewrite Hc. exact IH.
    + rewrite cleaned_cons by exact Hl. unfold not_break.
      destruct (tab_or_newline c) eqn:E; [apply break_iff in E; contradiction|]. cbn. now f_equal.
  - intros ->. induction d as [|c d IH]; [constructor; constructor|].
    destruct (forallb c0_or_space (c :: d)) eqn:E.
    + apply blank_iff in E. rewrite cleaned_blank by exact E. now constructor.
    + assert (~ Forall blank (c :: d)) as Hn by (intros C; apply blank_iff in C; congruence).
      rewrite cleaned_cons by exact Hn. unfold not_break. destruct (tab_or_newline c) eqn:Eb.
      * apply reads_break; [exact Hn|now apply break_iff|exact IH].
      * apply reads_char; [exact Hn|intros C; apply break_iff in C; congruence|exact IH].
Qed.

(** A text with nothing blank in it reads as itself. *)
Lemma cleaned_solid d : Forall (fun c => ~ blank c) d -> cleaned d = d.
Proof.
  induction 1 as [|c d Hc Hd IH]; [reflexivity|].
  rewrite cleaned_cons by (intros C; inversion C; contradiction).
  assert (not_break c = true) as ->.
  { unfold not_break. apply negb_true_iff, not_true_iff_false. intros C. apply break_iff in C.
    apply Hc. destruct C as [->|[->| ->]]; vm_compute; discriminate. }
  cbn. now f_equal.
Qed.

Lemma url_input_app s d c0 s0 c1 : Forall (fun c => ~ blank c) s -> s = c0 :: s0 -> s = rev (c1 :: rev (removelast s)) ->
  url_input (s ++ d) = s ++ cleaned d.
Proof.
  intros Hs E0 E1. unfold url_input, trim.
  assert (c0_or_space c0 = false) as H0.
  { apply not_true_iff_false. intros C. apply N.leb_le in C. rewrite E0 in Hs. inversion Hs as [|? ? H]; now apply H. }
  assert (c0_or_space c1 = false) as H1.
  { apply not_true_iff_false. intros C. apply N.leb_le in C. rewrite List.Forall_forall in Hs. apply (Hs c1); [|exact C].
    rewrite E1. rewrite <- in_rev. now left. }
  assert (List.filter not_break s = s) as HF.
  { clear -Hs. induction Hs as [|c s Hc Hs IH]; [reflexivity|]. cbn. rewrite IH.
    assert (not_break c = true) as ->; [|reflexivity].
    unfold not_break. apply negb_true_iff, not_true_iff_false. intros C. apply break_iff in C.
    apply Hc. destruct C as [->|[->| ->]]; vm_compute; discriminate. }
  assert (drop_while c0_or_space (s ++ d) = s ++ d) as ->.
  { rewrite E0. cbn. now rewrite H0. }
  rewrite rev_app_distr, drop_while_app, forallb_rev.
  assert (drop_while c0_or_space (rev s) = rev s) as Hr.
  { rewrite E1. rewrite rev_involutive. cbn [drop_while]. now rewrite H1. }
  change (fun c => negb (tab_or_newline c)) with not_break.
  destruct (forallb c0_or_space d) eqn:Ed.
  - rewrite Hr, rev_involutive, HF. apply blank_iff in Ed. rewrite cleaned_blank by exact Ed. now rewrite app_nil_r.
  - rewrite rev_app_distr, rev_involutive, List.filter_app, HF. reflexivity.
Qed.

Lemma url_input_http d : url_input (bs "http:" ++ d) = bs "http:" ++ cleaned d.
Proof.
  apply (url_input_app (bs "http:") d x68 (bs "ttp:") x3a); [|reflexivity|reflexivity].
  repeat constructor; vm_compute; intros C; now apply C.
Qed.
Lemma url_input_https d : url_input (bs "https:" ++ d) = bs "https:" ++ cleaned d.
Proof.
  apply (url_input_app (bs "https:") d x68 (bs "ttps:") x3a); [|reflexivity|reflexivity].
  repeat constructor; vm_compute; intros C; now apply C.
Qed.

(** ** Characters *)

Notation Web := SpecialNotFile.

Lemma ender_iff c : ends_authority Web c = true <-> ender c.
Proof.
  unfold ends_authority, one_of, ender, slash. cbn. rewrite !orb_true_iff.
  repeat rewrite (byte_eqb_spec c). intuition congruence.
Qed.
Lemma slash_iff c : one_of (bs "/\") c = true <-> slash c.
Proof.
  unfold one_of, slash. cbn. rewrite !orb_true_iff. repeat rewrite (byte_eqb_spec c). intuition congruence.
Qed.
Lemma port_end_iff c : one_of (bs "/\?#") c = true <-> ender c.
Proof.
  unfold one_of, ender, slash. cbn. rewrite !orb_true_iff. repeat rewrite (byte_eqb_spec c). intuition congruence.
Qed.
Lemma not_ender_b c : ~ ender c -> ends_authority Web c = false.
Proof. intros H. apply not_true_iff_false. intros C. now apply H, ender_iff. Qed.

Definition free (c : byte) : Prop := ~ ender c.

(** ** Splitting a text *)

Lemma split_slashes t : exists s r, t = s ++ r /\ Forall slash s /\ drop_while (one_of (bs "/\")) t = r.
Proof.
  induction t as [|c t (s & r & -> & Hs & Hd)]; [exists [], []; auto|]. cbn [drop_while].
  destruct (one_of (bs "/\") c) eqn:E.
  - apply slash_iff in E. exists (c :: s), r. split; [reflexivity|]. split; [now constructor|exact Hd].
  - exists [], (c :: s ++ r). split; [reflexivity|]. split; [constructor|reflexivity].
Qed.
Lemma drop_slashes s c r : Forall slash s -> ~ slash c -> drop_while (one_of (bs "/\")) (s ++ c :: r) = c :: r.
Proof.
  intros Hs Hc. rewrite drop_while_app.
  assert (forallb (one_of (bs "/\")) s = true) as ->.
  { apply forallb_forall. intros x Hx. rewrite List.Forall_forall in Hs. now apply slash_iff, Hs. }
  cbn [drop_while]. destruct (one_of (bs "/\") c) eqn:E; [apply slash_iff in E; contradiction|reflexivity].
Qed.

Lemma split_authority l : exists a t, l = a ++ t /\ Forall free a /\ tail_part t.
Proof.
  induction l as [|c l (a & t & -> & Ha & Ht)]; [exists [], []; repeat split; auto; now left|].
  destruct (ends_authority Web c) eqn:E.
  - apply ender_iff in E. exists [], (c :: a ++ t). split; [reflexivity|]. split; [constructor|].
    right. exists c, (a ++ t). auto.
  - exists (c :: a), t. split; [reflexivity|]. split; [|exact Ht]. constructor; [|exact Ha].
    intros C. apply ender_iff in C. congruence.
Qed.

Lemma split_at_sign (a : bytes) : ~ In x40 a \/ exists w h, a = w ++ x40 :: h /\ ~ In x40 h.
Proof.
  induction a as [|c a [IH|(w & h & -> & Hh)]].
  - left. intros [].
  - destruct (decide (c = x40)) as [->|Hc]; [right; exists [], a; auto|].
    left. intros [C|C]; [congruence|contradiction].
  - right. exists (c :: w), h. auto.
Qed.

Lemma last_at_none a t seen best : Forall free a -> tail_part t -> ~ In x40 a ->
  last_at Web (a ++ t) seen best = best.
Proof.
  revert seen. induction a as [|c a IH]; intros seen Ha Ht Hn.
  - cbn. destruct Ht as [->|(c & r & -> & Hc)]; [reflexivity|]. cbn.
    apply ender_iff in Hc. rewrite Hc. destruct (Byte.eqb c x40) eqn:E; [|reflexivity].
    apply byte_eqb_spec in E as ->. vm_compute in Hc. discriminate.
  - inversion Ha; subst. cbn. destruct (Byte.eqb c x40) eqn:E.
    { apply byte_eqb_spec in E as ->. destruct Hn. now left. }
    rewrite not_ender_b by assumption. apply IH; auto. intros C. apply Hn. now right.
Qed.
Lemma last_at_some w h t seen best : Forall free w -> Forall free h -> tail_part t -> ~ In x40 h ->
  last_at Web (w ++ x40 :: h ++ t) seen best = Some (rev seen ++ w, h ++ t).
Proof.
  revert seen best. induction w as [|c w IH]; intros seen best Hw Hh Ht Hn.
  - cbn. rewrite last_at_none by assumption. now rewrite app_nil_r.
  - inversion Hw; subst. cbn. destruct (Byte.eqb c x40) eqn:E.
    + rewrite IH by assumption. cbn. now rewrite <- app_assoc.
    + rewrite not_ender_b by assumption. rewrite IH by assumption. cbn. now rewrite <- app_assoc.
Qed.

(** ** The host *)

Definition host_end (r : bytes) : Prop := r = [] \/ exists c r', r = c :: r' /\ (ender c \/ c = x3a).

Lemma host_span_app inside l h r : host_span Web inside l = (h, r) -> l = h ++ r.
Proof.
  revert inside h r. induction l as [|c l IH]; intros inside h r; cbn.
  - intros E. injection E as <- <-. reflexivity.
  - destruct ((Byte.eqb c x3a && negb inside) || ends_authority Web c) eqn:Ec.
    + intros E. injection E as <- <-. reflexivity.
    + destruct (host_span Web _ l) as [h' r'] eqn:Es. intros E. injection E as <- <-.
      apply IH in Es. now subst l.
Qed.
Lemma host_span_free inside l h r : host_span Web inside l = (h, r) -> Forall free h /\ host_end r.
Proof.
  revert inside h r. induction l as [|c l IH]; intros inside h r; cbn.
  - intros E. injection E as <- <-. split; [constructor|now left].
  - destruct ((Byte.eqb c x3a && negb inside) || ends_authority Web c) eqn:Ec.
    + intros E. injection E as <- <-. split; [constructor|]. right. exists c, l. split; [reflexivity|].
      apply orb_true_iff in Ec as [Ec|Ec]; [right|left; now apply ender_iff].
      apply andb_true_iff in Ec as [Ec _]. now apply byte_eqb_spec.
    + destruct (host_span Web _ l) as [h' r'] eqn:Es. intros E. injection E as <- <-.
      apply IH in Es as [H1 H2]. split; [|exact H2]. constructor; [|exact H1].
      apply orb_false_iff in Ec as [_ Ec]. intros C. apply ender_iff in C. congruence.
Qed.
Lemma host_span_colon l h r : host_span Web false l = (h, r) -> ~ In x5b h -> ~ In x3a h.
Proof.
  revert h r. induction l as [|c l IH]; intros h r; cbn.
  - intros E. injection E as <- <-. auto.
  - destruct ((Byte.eqb c x3a && true) || ends_authority Web c) eqn:Ec.
    + intros E. injection E as <- <-. auto.
    + destruct (Byte.eqb c x5b) eqn:Eb.
      * destruct (host_span Web true l) as [h' r']. intros E. injection E as <- <-. intros Hn. destruct Hn. left.
        now apply byte_eqb_spec.
      * assert ((if Byte.eqb c x5d then false else false) = false) as -> by (now destruct (Byte.eqb c x5d)).
        destruct (host_span Web false l) as [h' r'] eqn:Es. intros E. injection E as <- <-. intros Hn [C|C].
        -- subst c. discriminate.
        -- eapply IH; eauto. intros C'. apply Hn. now right.
Qed.

Lemma host_span_end inside r : (inside = false \/ r = [] \/ exists c r', r = c :: r' /\ ender c) -> host_end r ->
  host_span Web inside r = ([], r).
Proof.
  intros Hi [->|(c & r' & -> & Hc)]; [reflexivity|]. cbn.
  assert ((Byte.eqb c x3a && negb inside) || ends_authority Web c = true) as ->; [|reflexivity].
  apply orb_true_iff. destruct Hc as [Hc| ->]; [right; now apply ender_iff|].
  destruct Hi as [->|[C|(c' & r'' & E & Hc')]]; [now left|discriminate|]. injection E as <- <-.
  right. now apply ender_iff.
Qed.

Lemma host_span_name h r : Forall (fun c => ~ ender c /\ c <> x3a /\ c <> x40 /\ c <> x5b) h -> host_end r ->
  host_span Web false (h ++ r) = (h, r).
Proof.
  induction 1 as [|c h (H1 & H2 & H3 & H4) Hh IH]; intros Hr; [apply host_span_end; auto|]. cbn.
  replace (Byte.eqb c x3a) with false by (symmetry; now apply byte_eqb_neq).
  rewrite not_ender_b by exact H1. cbn. replace (Byte.eqb c x5b) with false by (symmetry; now apply byte_eqb_neq).
  destruct (Byte.eqb c x5d); now rewrite IH.
Qed.

Definition v6_char (c : byte) : Prop := c = x3a \/ c = x2e \/ radix_digit 16 c = true.

Lemma digits_v6 g : forallb (radix_digit 16) g = true -> Forall v6_char g.
Proof.
  intros H. apply List.Forall_forall. intros c Hc. rewrite forallb_forall in H. right. right. auto.
Qed.
Lemma group_v6 g : v6_group g -> Forall v6_char g.
Proof. intros H. apply group_iff in H as [_ H]. now apply digits_v6. Qed.
Lemma decimal_v6 s n : is_decimal s n -> n < 256 -> Forall v6_char s.
Proof. intros H1 H2. now apply digits_v6, (decimal_short s n). Qed.
Lemma dotted_v6 a s : dotted a s -> Forall v6_char s.
Proof.
  intros (a1 & a2 & a3 & a4 & s1 & s2 & s3 & s4 & B1 & B2 & B3 & B4 & _ & D1 & D2 & D3 & D4 & ->).
  apply Forall_app_2; [eapply decimal_v6; eauto|]. constructor; [right; now left|].
  apply Forall_app_2; [eapply decimal_v6; eauto|]. constructor; [right; now left|].
  apply Forall_app_2; [eapply decimal_v6; eauto|]. constructor; [right; now left|].
  eapply decimal_v6; eauto.
Qed.
Lemma left_v6 l n : v6_left l n -> Forall v6_char l.
Proof.
  induction 1 as [g Hg|g l n Hg Hl IH]; [now apply group_v6|].
  apply Forall_app_2; [now apply group_v6|]. constructor; [now left|exact IH].
Qed.
Lemma right_v6 l n : v6_right l n -> Forall v6_char l.
Proof.
  induction 1 as [g Hg|s a Hd|g l n Hg Hl IH]; [now apply group_v6|now apply (dotted_v6 a)|].
  apply Forall_app_2; [now apply group_v6|]. constructor; [now left|exact IH].
Qed.
Lemma text_v6 s : v6_text s -> Forall v6_char s.
Proof.
  intros [H|(l & r & n & m & -> & Hl & Hr & _)]; [now apply (right_v6 s 8)|].
  apply Forall_app_2; [destruct Hl as [[-> _]|Hl]; [constructor|now apply (left_v6 l n)]|].
  constructor; [now left|]. constructor; [now left|].
  destruct Hr as [[-> _]|Hr]; [constructor|now apply (right_v6 r m)].
Qed.
Lemma v6_char_free c : v6_char c -> ~ ender c /\ c <> x40 /\ c <> x5b /\ c <> x5d.
Proof.
  intros [->|[->|H]].
  - split; [intros C; apply ender_iff in C; discriminate|]. repeat split; discriminate.
  - split; [intros C; apply ender_iff in C; discriminate|]. repeat split; discriminate.
  - split; [intros C; apply ender_iff in C; revert H C; clear; now destruct c|].
    repeat split; intros ->; discriminate.
Qed.

Lemma host_span_inside a r : Forall v6_char a -> host_end r ->
  host_span Web true (a ++ x5d :: r) = (a ++ [x5d], r).
Proof.
  induction 1 as [|c a Hc Ha IH]; intros Hr.
  - cbn. now rewrite host_span_end by auto.
  - apply v6_char_free in Hc as (H1 & H2 & H3 & H4). cbn. rewrite andb_false_r.
    rewrite not_ender_b by exact H1. cbn. replace (Byte.eqb c x5b) with false by (symmetry; now apply byte_eqb_neq).
    replace (Byte.eqb c x5d) with false by (symmetry; now apply byte_eqb_neq). now rewrite IH.
Qed.
Lemma host_span_bracket a r : v6_text a -> host_end r ->
  host_span Web false (x5b :: a ++ x5d :: r) = (x5b :: a ++ [x5d], r).
Proof. intros Ha Hr. cbn. now rewrite host_span_inside by (auto using text_v6). Qed.

Lemma bracketed_iff h host : bracketed (x5b :: h) = Some host <->
  exists a, h = a ++ [x5d] /\ v6_text a /\ host = x5b :: h.
Proof.
  unfold bracketed. cbn [tl]. split.
  - destruct h as [|c h]; [discriminate|]. 
    destruct (rev (c :: h)) as [|e r] eqn:E; [now apply (f_equal (@length byte)) in E; rewrite rev_length in E|].
    assert (rev (x5b :: c :: h) = e :: r ++ [x5b]) as -> by (change (rev (x5b :: c :: h)) with (rev (c :: h) ++ [x5b]); now rewrite E).
    destruct (Byte.eqb e x5d && ipv6_ok (removelast (c :: h))) eqn:Eb; [|discriminate].
    intros H. apply (inj Some) in H. subst host. apply andb_true_iff in Eb as [He Hv].
    apply byte_eqb_spec in He as ->. apply ipv6_ok_iff in Hv.
    apply (f_equal (@rev byte)) in E. rewrite rev_involutive in E. cbn in E.
    exists (rev r). split; [exact E|]. rewrite E, removelast_last in Hv. auto.
  - intros (a & -> & Ha & ->).
    assert (rev (x5b :: a ++ [x5d]) = x5d :: rev a ++ [x5b]) as R
      by (change (rev (x5b :: a ++ [x5d])) with (rev (a ++ [x5d]) ++ [x5b]); now rewrite rev_app_distr).
    destruct (a ++ [x5d]) as [|c t] eqn:E; [now destruct a|]. rewrite R, <- E, removelast_last.
    apply ipv6_ok_iff in Ha. rewrite Ha. reflexivity.
Qed.

(** ** The port *)

Lemma parse_port_spec l p n : parse_port l p = Some n -> p <= 65535 ->
  exists q t, l = q ++ t /\ forallb is_digit q = true /\ dval q p <= 65535 /\ tail_part t.
Proof.
  revert p. induction l as [|c l IH]; intros p H Hp.
  - exists [], []. repeat split; [exact Hp|now left].
  - cbn [parse_port] in H. destruct (is_digit c) eqn:Ec.
    + destruct (N.ltb_spec 65535 (10 * p + (nb c - 48))) as [|Hle]; [discriminate|].
      apply IH in H as (q & t & -> & Hq & Hv & Ht); [|lia]. exists (c :: q), t.
      split; [reflexivity|]. split; [cbn; now rewrite Ec|]. split; [exact Hv|exact Ht].
    + destruct (one_of (bs "/\?#") c) eqn:Ee; [|discriminate]. apply port_end_iff in Ee.
      exists [], (c :: l). split; [reflexivity|]. split; [reflexivity|]. split; [exact Hp|]. right. eauto.
Qed.
Lemma parse_port_back q t p : forallb is_digit q = true -> dval q p <= 65535 -> tail_part t ->
  parse_port (q ++ t) p <> None.
Proof.
  revert p. induction q as [|c q IH]; intros p Hq Hv Ht.
  - cbn. destruct Ht as [->|(c & r & -> & Hc)]; [discriminate|]. cbn [parse_port].
    destruct (is_digit c) eqn:E.
    + exfalso. apply ender_iff in Hc. revert E Hc. clear. now destruct c.
    + apply port_end_iff in Hc. rewrite Hc. discriminate.
  - cbn in Hq. apply andb_true_iff in Hq as [Hc Hq]. cbn [app parse_port]. rewrite Hc.
    change (dval (c :: q) p) with (dval q (10 * p + (nb c - 48))) in Hv.
    pose proof (dval_mono q (10 * p + (nb c - 48))).
    replace (65535 <? 10 * p + (nb c - 48)) with false by (symmetry; apply N.ltb_ge; lia). now apply IH.
Qed.

Lemma numeral_dval q n : numeral 10 q n <-> forallb is_digit q = true /\ dval q 0 = n.
Proof.
  rewrite numeral_iff by lia.
  assert (forallb is_digit q = forallb (radix_digit 10) q) as ->.
  { induction q as [|c q IH]; [reflexivity|]. cbn. now rewrite is_digit_radix, IH. }
  assert (forallb (radix_digit 10) q = true -> radix_val 10 q = dval q 0) as Hd.
  { unfold radix_val, dval. generalize 0 at 2 3. induction q as [|c q IH]; intros k Hq; [reflexivity|].
    cbn in Hq. apply andb_true_iff in Hq as [Hc Hq]. cbn [fold_left].
    replace (match hex_val c with Some v => v | None => 0 end) with (nb c - 48); [now apply IH|].
    revert Hc. clear. now destruct c. }
  split; intros [H1 H2]; (split; [exact H1|]); rewrite <- H2; [symmetry|]; auto.
Qed.

Lemma port_ok_iff l : host_end l -> port_ok l = true <-> exists p t, l = p ++ t /\ port_part p /\ tail_part t.
Proof.
  intros Hl. split.
  - destruct Hl as [->|(c & r & -> & Hc)].
    + intros _. exists [], []. split; [reflexivity|]. split; now left.
    + unfold port_ok. destruct (Byte.eqb c x3a) eqn:E.
      * apply byte_eqb_spec in E as ->. destruct (parse_port r 0) as [n|] eqn:Ep; [|discriminate]. intros _.
        apply parse_port_spec in Ep as (q & t & -> & Hq & Hv & Ht); [|lia].
        exists (x3a :: q), t. split; [reflexivity|]. split; [|exact Ht]. right. exists q, (dval q 0).
        split; [reflexivity|]. split; [now apply numeral_dval|exact Hv].
      * intros _. apply byte_eqb_neq in E. destruct Hc as [Hc|Hc]; [|congruence].
        exists [], (c :: r). split; [reflexivity|]. split; [now left|]. right. eauto.
  - intros (p & t & -> & [->|(q & n & -> & Hq & Hn)] & Ht).
    + cbn. destruct Ht as [->|(c & r & -> & Hc)]; [reflexivity|]. cbn. destruct (Byte.eqb c x3a) eqn:E; [|reflexivity].
      apply byte_eqb_spec in E as ->. apply ender_iff in Hc. discriminate.
    + cbn. apply numeral_dval in Hq as [Hq <-]. pose proof (parse_port_back q t 0 Hq Hn Ht).
      now destruct (parse_port (q ++ t) 0).
Qed.

(** ** Whole addresses *)

Definition found (host : bytes) : option url_info := Some {| url_has_authority := true; url_host := Some host |}.

Lemma domain_host_nonempty L h host : parse_domain_host L h = Some host -> host <> [].
Proof.
  unfold parse_domain_host. destruct h as [|c h]; [discriminate|]. destruct (Byte.eqb c x5b).
  - unfold bracketed. destruct h; [discriminate|]. destruct (rev _); [discriminate|].
    destruct (_ && _); [|discriminate]. intros E. apply (inj Some) in E. now subst host.
  - destruct (domain_to_ascii L _) as [[|x d]|]; [discriminate| |discriminate].
    destruct (existsb _ _); [discriminate|]. destruct (ends_in_a_number _).
    + destruct (parse_ipv4addr _); [|discriminate]. intros E. apply (inj Some) in E. subst host.
      unfold show_ipv4. intros C. apply app_eq_nil in C as [_ C]. discriminate.
    + intros E. apply (inj Some) in E. now subst host.
Qed.

(** The result for an authority with the user taken off. *)
Lemma host_and_port L l1 u : (let (h, l2) := host_span Web false l1 in
     match parse_domain_host L h with
     | None => None
     | Some host => if port_ok l2 then found host else None
     end) = Some u ->
  keeps_bracket (u_idna L) ->
  exists h p t host, l1 = h ++ p ++ t /\ Some u = found host /\ Forall free h /\
    (host_part (u_idna L) h host \/ In x40 h) /\ port_part p /\ tail_part t.
Proof.
  intros H HK. destruct (host_span Web false l1) as [h l2] eqn:Es.
  destruct (parse_domain_host L h) as [host|] eqn:Eh; [|discriminate].
  destruct (port_ok l2) eqn:Ep; [|discriminate].
  pose proof (host_span_app _ _ _ _ Es) as ->. pose proof (host_span_free _ _ _ _ Es) as [Hf He].
  apply port_ok_iff in Ep as (p & t & -> & Hp & Ht); [|exact He].
  exists h, p, t, host. split; [reflexivity|]. split; [now rewrite H|]. split; [exact Hf|]. split; [|auto].
  destruct h as [|c h]; [discriminate|]. destruct (decide (c = x5b)) as [->|Hc].
  - left. left. cbn in Eh. apply bracketed_iff in Eh as (a & -> & Ha & ->). eauto.
  - assert (~ In x5b h) as Hb by (intros C; eapply bracket_refused; eauto).
    assert (~ In x3a (c :: h)) as Hcol.
    { eapply host_span_colon; [exact Es|]. intros [C|C]; [congruence|contradiction]. }
    destruct (in_dec Byte.byte_eq_dec x40 (c :: h)) as [Hat|Hat]; [now right|]. left. right.
    split; [discriminate|]. split; [|now apply host_name_iff].
    apply List.Forall_forall. intros x Hx. rewrite List.Forall_forall in Hf. split; [now apply Hf|].
    repeat split; intros ->; try contradiction. destruct Hx as [C|C]; [congruence|contradiction].
Qed.

Lemma host_and_port_back L h p t host : host_part (u_idna L) h host -> port_part p -> tail_part t ->
  (let (h, l2) := host_span Web false (h ++ p ++ t) in
     match parse_domain_host L h with
     | None => None
     | Some host => if port_ok l2 then found host else None
     end) = found host.
Proof.
  intros Hh Hp Ht.
  assert (host_end (p ++ t)) as He.
  { destruct Hp as [->|(q & n & -> & _)].
    - cbn. destruct Ht as [->|(c & r & -> & Hc)]; [now left|]. right. eauto.
    - right. exists x3a, (q ++ t). auto. }
  assert (port_ok (p ++ t) = true) as HP by (apply port_ok_iff; eauto).
  destruct Hh as [(a & -> & Ha & ->)|(Hne & Hn & Hh)].
  - cbn [app]. rewrite <- app_assoc. cbn [app]. rewrite host_span_bracket by assumption.
    assert (parse_domain_host L (x5b :: a ++ [x5d]) = Some (x5b :: a ++ [x5d])) as ->.
    { cbn. apply bracketed_iff. eauto. }
    now rewrite HP.
  - rewrite host_span_name by assumption. destruct h as [|c h]; [contradiction|].
    apply host_name_iff in Hh; [|inversion Hn; tauto]. rewrite Hh. now rewrite HP.
Qed.

Lemma after_special L l : after_double_slash L Web l =
  match parse_userinfo Web l with
  | None => None
  | Some (_, l1) =>
      let (h, l2) := host_span Web false l1 in
      match parse_domain_host L h with
      | None => None
      | Some host => if port_ok l2 then found host else None
      end
  end.
Proof.
  unfold after_double_slash. destruct (parse_userinfo Web l) as [[user l1]|]; [|reflexivity].
  destruct (host_span Web false l1) as [h l2]. cbn [is_special].
  destruct (parse_domain_host L h) as [host|] eqn:E; [|reflexivity].
  apply domain_host_nonempty in E. replace (bytes_eqb host []) with false by (symmetry; now apply bytes_eqb_false).
  reflexivity.
Qed.

Lemma tail_app_ender t : tail_part t -> t = [] \/ exists c r, t = c :: r /\ ends_authority Web c = true.
Proof. intros [->|(c & r & -> & Hc)]; [now left|]. right. exists c, r. split; [reflexivity|now apply ender_iff]. Qed.

Lemma free_app_inv (a t x y : bytes) : Forall free a -> tail_part t -> Forall free x -> tail_part y ->
  a ++ t = x ++ y -> a = x /\ t = y.
Proof.
  revert x. induction a as [|c a IH]; intros x Ha Ht Hx Hy E.
  - destruct x as [|d x]; [auto|]. exfalso. cbn in E. destruct Ht as [->|(c & r & -> & Hc)]; [discriminate|].
    injection E as -> _. inversion Hx. contradiction.
  - destruct x as [|d x].
    + exfalso. cbn in E. destruct Hy as [->|(e & r & -> & He)]; [discriminate|].
      injection E as -> _. inversion Ha. contradiction.
    + cbn in E. injection E as -> E. inversion Ha; inversion Hx; subst.
      destruct (IH x) as [-> ->]; auto.
Qed.

Lemma port_free p : port_part p -> Forall free p /\ ~ In x40 p.
Proof.
  intros [->|(q & n & -> & Hq & _)]; [split; [constructor|intros []]|].
  apply numeral_dval in Hq as [Hq _]. split.
  - constructor; [intros C; apply ender_iff in C; discriminate|].
    apply List.Forall_forall. intros c Hc C. apply ender_iff in C. rewrite forallb_forall in Hq.
    apply Hq in Hc. revert Hc C. clear. now destruct c.
  - intros [C|C]; [discriminate|]. rewrite forallb_forall in Hq. apply Hq in C. discriminate.
Qed.
Lemma host_free idna h host : host_part idna h host -> Forall free h /\ ~ In x40 h /\ h <> [].
Proof.
  intros [(a & -> & Ha & _)|(Hne & Hn & _)].
  - apply text_v6 in Ha. split; [|split; [|discriminate]].
    + constructor; [intros C; apply ender_iff in C; discriminate|]. apply Forall_app_2.
      * eapply List.Forall_impl; [|exact Ha]. intros c Hc. now apply v6_char_free.
      * constructor; [intros C; apply ender_iff in C; discriminate|constructor].
    + intros [C|C]; [discriminate|]. apply in_app_or in C as [C|[C|[]]]; [|discriminate].
      rewrite List.Forall_forall in Ha. apply Ha in C. now apply v6_char_free in C.
  - split; [|split; [|exact Hne]].
    + eapply List.Forall_impl; [|exact Hn]. intros c Hc. apply Hc.
    + intros C. rewrite List.Forall_forall in Hn. apply Hn in C. tauto.
Qed.

Theorem site_iff L t u : keeps_bracket (u_idna L) ->
  after_double_slash L Web (drop_while (one_of (bs "/\")) t) = Some u <->
  exists host, Some u = found host /\ site_text (u_idna L) t host.
Proof.
  intros HK. rewrite after_special. split.
  - destruct (split_slashes t) as (s & l & -> & Hs & ->). intros H.
    destruct (split_authority l) as (a & tl & -> & Ha & Htl).
    destruct (split_at_sign a) as [Hno|(w & h0 & -> & Hno)].
    + unfold parse_userinfo in H. rewrite (last_at_none a tl) in H by assumption.
      destruct (host_and_port L _ u H HK) as (h & p & t' & host & E & Eu & Hf & Hh & Hp & Ht).
      exists host. split; [exact Eu|].
      destruct (port_free p Hp) as [Hfp _].
      rewrite app_assoc in E. apply free_app_inv in E as [-> ->]; auto.
      2:{ now apply Forall_app_2. }
      destruct Hh as [Hh|C]; [|exfalso; apply Hno, in_or_app; now left].
      exists s, [], h, p, t'. split; [now rewrite <- app_assoc|]. split; [exact Hs|]. split; [now left|]. auto.
    + apply Forall_app in Ha as [Hw Ha]. inversion Ha as [|? ? _ Hh0]; subst.
      unfold parse_userinfo in H. rewrite <- app_assoc in H. cbn [app] in H. rewrite (last_at_some w h0 tl) in H by assumption.
      cbn [rev app] in H.
      assert ((let (h, l2) := host_span Web false (h0 ++ tl) in
        match parse_domain_host L h with Some host => if port_ok l2 then found host else None | None => None end) = Some u) as H'.
      { destruct w as [|cw w]; [|exact H]. destruct (h0 ++ tl) as [|c r]; [exact H|].
        destruct (ends_authority Web c); [discriminate|exact H]. }
      clear H. destruct (host_and_port L _ u H' HK) as (h & p & t' & host & E & Eu & Hf & Hh & Hp & Ht).
      exists host. split; [exact Eu|].
      destruct (port_free p Hp) as [Hfp _].
      rewrite app_assoc in E. apply free_app_inv in E as [-> ->]; auto.
      2:{ now apply Forall_app_2. }
      destruct Hh as [Hh|C]; [|exfalso; apply Hno, in_or_app; now left].
      exists s, (w ++ [x40]), h, p, t'. split; [rewrite <- !app_assoc; cbn [app]; rewrite <- ?app_assoc; reflexivity|]. split; [exact Hs|].
      split; [right; eauto|]. auto.
  - intros (host & -> & (s & user & h & p & t' & -> & Hs & Hu & Hh & Hp & Ht)).
    destruct (host_free _ _ _ Hh) as (Hfh & Hath & Hne). destruct (port_free p Hp) as [Hfp Hatp].
    assert (Forall free (h ++ p)) as Hfhp by now apply Forall_app_2.
    assert (~ In x40 (h ++ p)) as Hathp by (intros C; apply in_app_or in C as [C|C]; contradiction).
    assert (exists c r, user ++ h ++ p ++ t' = c :: r /\ ~ slash c) as (c & r & Ec & Hc).
    { assert (exists c r, h ++ p ++ t' = c :: r /\ ~ slash c) as (c & r & E & Hc).
      { destruct h as [|c h]; [contradiction|]. exists c, (h ++ p ++ t'). split; [reflexivity|].
        inversion Hfh as [|? ? Hcf]; subst. intros C. apply Hcf. now left. }
      destruct Hu as [->|(w & -> & Hw)]; [exists c, r; auto|]. destruct w as [|cw w].
      - exists x40, (h ++ p ++ t'). split; [reflexivity|]. intros [C|C]; discriminate.
      - exists cw, ((w ++ [x40]) ++ h ++ p ++ t'). split; [reflexivity|].
        inversion Hw as [|? ? Hcf]; subst. intros C. apply Hcf. now left. }
    rewrite Ec, (drop_slashes s c r Hs Hc), <- Ec.
    pose proof (host_and_port_back L h p t' host Hh Hp Ht) as HB.
    destruct Hu as [->|(w & -> & Hw)].
    + cbn [app]. unfold parse_userinfo. rewrite app_assoc, (last_at_none (h ++ p) t') by assumption.
      rewrite <- app_assoc. exact HB.
    + rewrite <- app_assoc. cbn [app]. unfold parse_userinfo.
      rewrite (app_assoc h), (last_at_some w (h ++ p) t') by assumption. cbn [rev app]. rewrite <- app_assoc.
      destruct w as [|cw w]; [|exact HB].
      destruct h as [|ch h]; [contradiction|]. cbn [app]. inversion Hfh as [|? ? Hcf]; subst.
      rewrite not_ender_b by exact Hcf. exact HB.
Qed.

(** "http:" and "https:" texts. *)
Definition web_scheme (s : bytes) : Prop := s = bs "http" \/ s = bs "https".

Lemma url_parse_web L s rest : web_scheme s ->
  url_parse L (s ++ bs ":" ++ rest) = after_double_slash L Web (drop_while (one_of (bs "/\")) (cleaned rest)).
Proof.
  intros [->| ->]; rewrite app_assoc.
  - change (bs "http" ++ bs ":") with (bs "http:"). unfold url_parse. rewrite url_input_http. reflexivity.
  - change (bs "https" ++ bs ":") with (bs "https:"). unfold url_parse. rewrite url_input_https. reflexivity.
Qed.

Theorem web_url_iff L s rest u : keeps_bracket (u_idna L) -> web_scheme s ->
  url_parse L (s ++ bs ":" ++ rest) = Some u <->
  exists host text, Some u = found host /\ reads_as rest text /\ site_text (u_idna L) text host.
Proof.
  intros HK Hs. rewrite url_parse_web by exact Hs. rewrite site_iff by exact HK. split.
  - intros (host & E & H). exists host, (cleaned rest). split; [exact E|]. split; [now apply reads_as_iff|exact H].
  - intros (host & text & E & Hr & H). apply reads_as_iff in Hr as ->. eauto.
Qed.

Lemma cleaned_slashes d : cleaned (bs "//" ++ d) = bs "//" ++ cleaned d.
Proof.
  cbn [app bs list_byte_of_string].
  change (cleaned (x2f :: x2f :: d) = x2f :: x2f :: cleaned d).
  rewrite cleaned_cons by (intros C; inversion C as [|? ? B]; subst; vm_compute in B; now apply B).
  rewrite cleaned_cons by (intros C; inversion C as [|? ? B]; subst; vm_compute in B; now apply B).
  reflexivity.
Qed.

Lemma url_parse_domain L s d : web_scheme s ->
  url_parse L (s ++ bs "://" ++ d) = after_double_slash L Web (drop_while (one_of (bs "/\")) (cleaned d)).
Proof.
  intros Hs. change (bs "://" ++ d) with (bs ":" ++ (bs "//" ++ d)). rewrite url_parse_web by exact Hs.
  rewrite cleaned_slashes. reflexivity.
Qed.

Theorem domain_url_iff L s d u : keeps_bracket (u_idna L) -> web_scheme s ->
  url_parse L (s ++ bs "://" ++ d) = Some u <->
  exists host, Some u = found host /\ web_domain (u_idna L) d host.
Proof.
  intros HK Hs. rewrite url_parse_domain by exact Hs. rewrite site_iff by exact HK. unfold web_domain. split.
  - intros (host & E & H). exists host. split; [exact E|]. exists (cleaned d). split; [now apply reads_as_iff|exact H].
  - intros (host & E & text & Hr & H). apply reads_as_iff in Hr as ->. eauto.
Qed.

Lemma web_url_authority L s rest u : web_scheme s -> url_parse L (s ++ bs ":" ++ rest) = Some u ->
  url_has_authority u = true /\ url_host u <> None.
Proof.
  intros Hs. rewrite url_parse_web by exact Hs. rewrite after_special.
  destruct (parse_userinfo Web _) as [[user l1]|]; [|discriminate].
  destruct (host_span Web false l1) as [h l2]. destruct (parse_domain_host L h); [|discriminate].
  destruct (port_ok l2); [|discriminate]. intros E. apply (inj Some) in E. subst u. split; [reflexivity|discriminate].
Qed.
