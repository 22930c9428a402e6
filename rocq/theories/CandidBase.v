(** Lemmas about the readers of Candid.v: LEB128 numbers, texts, type tables. *)
From Coq Require Import Strings.String.
From Verif Require Import Base BaseLemmas SpecHash HashProofs Candid SpecCandid.
Local Open Scope N_scope.

(** ** Bytes *)

Lemma nb_ch n : n < 256 -> nb (ch n) = n.
Proof.
  intros H. unfold ch. destruct (Byte.of_N n) eqn:E; [now apply Byte.to_of_N|].
  apply Byte.of_N_None_iff in E. lia.
Qed.
Lemma ch_nb c : ch (nb c) = c.
Proof. unfold ch. now rewrite Byte.of_to_N. Qed.
Lemma u8_ch n : u8 n = ch (n mod 256).
Proof. reflexivity. Qed.
Lemma ch_of c n : nb c = n -> c = ch n.
Proof. intros <-. symmetry. apply ch_nb. Qed.

(** ** UTF-8 *)

Ltac zdiv := Z.to_euclidean_division_equations; lia.

Lemma utf8_char_reads n c t : utf8_char n c -> utf8 (c ++ t) = utf8 t.
Proof.
  intros H. destruct H as [n H|n H|n H|n H]; cbn [app utf8].
  - rewrite nb_ch by lia. replace (n <? 128) with true by (symmetry; apply N.ltb_lt; lia). reflexivity.
  - unfold between, cont. rewrite !nb_ch by zdiv.
    replace (192 + n / 64 <? 128) with false by (symmetry; apply N.ltb_ge; zdiv).
    replace (194 <=? 192 + n / 64) with true by (symmetry; apply N.leb_le; zdiv).
    replace (192 + n / 64 <=? 223) with true by (symmetry; apply N.leb_le; zdiv).
    replace (128 <=? 128 + n mod 64) with true by (symmetry; apply N.leb_le; zdiv).
    replace (128 + n mod 64 <=? 191) with true by (symmetry; apply N.leb_le; zdiv). reflexivity.
  - unfold between, cont. rewrite !nb_ch by zdiv.
    replace (224 + n / 4096 <? 128) with false by (symmetry; apply N.ltb_ge; zdiv).
    replace (224 + n / 4096 <=? 223) with false by (symmetry; apply N.leb_gt; zdiv). rewrite andb_false_r.
    replace (224 <=? 224 + n / 4096) with true by (symmetry; apply N.leb_le; zdiv).
    replace (224 + n / 4096 <=? 239) with true by (symmetry; apply N.leb_le; zdiv). cbn [andb].
    replace (128 <=? 128 + n / 64 mod 64) with true by (symmetry; apply N.leb_le; zdiv).
    replace (128 + n / 64 mod 64 <=? 191) with true by (symmetry; apply N.leb_le; zdiv).
    replace (128 <=? 128 + n mod 64) with true by (symmetry; apply N.leb_le; zdiv).
    replace (128 + n mod 64 <=? 191) with true by (symmetry; apply N.leb_le; zdiv). cbn [andb].
    destruct (224 + n / 4096 =? 224) eqn:E1.
    + apply N.eqb_eq in E1. replace (160 <=? 128 + n / 64 mod 64) with true by (symmetry; apply N.leb_le; zdiv). reflexivity.
    + apply N.eqb_neq in E1. destruct (224 + n / 4096 =? 237) eqn:E2; [|reflexivity]. apply N.eqb_eq in E2.
      replace (128 + n / 64 mod 64 <=? 159) with true by (symmetry; apply N.leb_le; zdiv). reflexivity.
  - unfold between, cont. rewrite !nb_ch by zdiv.
    replace (240 + n / 262144 <? 128) with false by (symmetry; apply N.ltb_ge; zdiv).
    replace (240 + n / 262144 <=? 223) with false by (symmetry; apply N.leb_gt; zdiv). rewrite andb_false_r.
    replace (240 + n / 262144 <=? 239) with false by (symmetry; apply N.leb_gt; zdiv). rewrite andb_false_r.
    replace (240 <=? 240 + n / 262144) with true by (symmetry; apply N.leb_le; zdiv).
    replace (240 + n / 262144 <=? 244) with true by (symmetry; apply N.leb_le; zdiv). cbn [andb].
    replace (128 <=? 128 + n / 4096 mod 64) with true by (symmetry; apply N.leb_le; zdiv).
    replace (128 + n / 4096 mod 64 <=? 191) with true by (symmetry; apply N.leb_le; zdiv).
    replace (128 <=? 128 + n / 64 mod 64) with true by (symmetry; apply N.leb_le; zdiv).
    replace (128 + n / 64 mod 64 <=? 191) with true by (symmetry; apply N.leb_le; zdiv).
    replace (128 <=? 128 + n mod 64) with true by (symmetry; apply N.leb_le; zdiv).
    replace (128 + n mod 64 <=? 191) with true by (symmetry; apply N.leb_le; zdiv). cbn [andb].
    destruct (240 + n / 262144 =? 240) eqn:E1.
    + apply N.eqb_eq in E1. replace (144 <=? 128 + n / 4096 mod 64) with true by (symmetry; apply N.leb_le; zdiv). reflexivity.
    + apply N.eqb_neq in E1. destruct (240 + n / 262144 =? 244) eqn:E2; [|reflexivity]. apply N.eqb_eq in E2.
      replace (128 + n / 4096 mod 64 <=? 143) with true by (symmetry; apply N.leb_le; zdiv). reflexivity.
Qed.

Lemma utf8_complete t : utf8_text t -> utf8 t = true.
Proof. induction 1 as [|n c t Hc Ht IH]; [reflexivity|]. rewrite (utf8_char_reads n) by exact Hc. exact IH. Qed.

Lemma utf8_sound_len k : forall t, (length t <= k)%nat -> utf8 t = true -> utf8_text t.
Proof.
  induction k as [|k IH]; intros t Hk H.
  { destruct t; [constructor|cbn in Hk; lia]. }
  destruct t as [|c t]; [constructor|]. cbn [length] in Hk. cbn [utf8] in H. pose proof (nb_lt c) as Hc.
  destruct (nb c <? 128) eqn:E0.
  { apply N.ltb_lt in E0. apply (utf8_cons (nb c) [c] t); [|apply IH; [lia|exact H]].
    rewrite <- (ch_nb c) at 2. now constructor. }
  apply N.ltb_ge in E0. unfold between, cont in H.
  destruct ((194 <=? nb c) && (nb c <=? 223)) eqn:E1.
  { apply andb_true_iff in E1 as [E1 E2]. apply N.leb_le in E1, E2. destruct t as [|a t]; [discriminate|].
    rewrite !andb_true_iff, !N.leb_le in H. destruct H as [[H1 H2] H]. cbn [length] in Hk.
    set (n := (nb c - 192) * 64 + (nb a - 128)).
    apply (utf8_cons n [c; a] t); [|apply IH; [lia|exact H]].
    replace c with (ch (192 + n / 64)) by (symmetry; apply ch_of; subst n; zdiv).
    replace a with (ch (128 + n mod 64)) by (symmetry; apply ch_of; subst n; zdiv).
    constructor. subst n. zdiv. }
  destruct ((224 <=? nb c) && (nb c <=? 239)) eqn:E2.
  { apply andb_true_iff in E2 as [E2 E3]. apply N.leb_le in E2, E3. destruct t as [|a [|b t]]; try discriminate.
    rewrite !andb_true_iff, !N.leb_le in H. destruct H as [[H1 [H2 H3]] H]. cbn [length] in Hk.
    assert ((nb c = 224 /\ 160 <= nb a <= 191) \/ (nb c = 237 /\ 128 <= nb a <= 159) \/
            (nb c <> 224 /\ nb c <> 237 /\ 128 <= nb a <= 191)) as Ha.
    { destruct (nb c =? 224) eqn:F1; [apply N.eqb_eq in F1|apply N.eqb_neq in F1];
      [|destruct (nb c =? 237) eqn:F2; [apply N.eqb_eq in F2|apply N.eqb_neq in F2]];
      apply andb_true_iff in H1 as [H1 H1']; apply N.leb_le in H1, H1'; tauto. }
    clear H1. set (n := (nb c - 224) * 4096 + (nb a - 128) * 64 + (nb b - 128)).
    apply (utf8_cons n [c; a; b] t); [|apply IH; [lia|exact H]].
    replace c with (ch (224 + n / 4096)) by (symmetry; apply ch_of; subst n; zdiv).
    replace a with (ch (128 + n / 64 mod 64)) by (symmetry; apply ch_of; subst n; zdiv).
    replace b with (ch (128 + n mod 64)) by (symmetry; apply ch_of; subst n; zdiv).
    constructor. subst n. zdiv. }
  destruct ((240 <=? nb c) && (nb c <=? 244)) eqn:E3; [|discriminate].
  apply andb_true_iff in E3 as [E3 E4]. apply N.leb_le in E3, E4. destruct t as [|a [|b [|d t]]]; try discriminate.
  rewrite !andb_true_iff, !N.leb_le in H. destruct H as [[[H1 [H2 H3]] [H4 H5]] H]. cbn [length] in Hk.
  assert ((nb c = 240 /\ 144 <= nb a <= 191) \/ (nb c = 244 /\ 128 <= nb a <= 143) \/
          (nb c <> 240 /\ nb c <> 244 /\ 128 <= nb a <= 191)) as Ha.
  { destruct (nb c =? 240) eqn:F1; [apply N.eqb_eq in F1|apply N.eqb_neq in F1];
    [|destruct (nb c =? 244) eqn:F2; [apply N.eqb_eq in F2|apply N.eqb_neq in F2]];
    apply andb_true_iff in H1 as [H1 H1']; apply N.leb_le in H1, H1'; tauto. }
  clear H1. set (n := (nb c - 240) * 262144 + (nb a - 128) * 4096 + (nb b - 128) * 64 + (nb d - 128)).
  apply (utf8_cons n [c; a; b; d] t); [|apply IH; [lia|exact H]].
  replace c with (ch (240 + n / 262144)) by (symmetry; apply ch_of; subst n; zdiv).
  replace a with (ch (128 + n / 4096 mod 64)) by (symmetry; apply ch_of; subst n; zdiv).
  replace b with (ch (128 + n / 64 mod 64)) by (symmetry; apply ch_of; subst n; zdiv).
  replace d with (ch (128 + n mod 64)) by (symmetry; apply ch_of; subst n; zdiv).
  constructor. subst n. zdiv.
Qed.
Theorem utf8_iff t : utf8 t = true <-> utf8_text t.
Proof. split; [now apply (utf8_sound_len (length t))|apply utf8_complete]. Qed.

Lemma utf8_ascii t : Forall (fun c => nb c < 128) t -> utf8 t = true.
Proof.
  induction 1 as [|c t Hc Ht IH]; [reflexivity|]. cbn [utf8].
  replace (nb c <? 128) with true by (symmetry; now apply N.ltb_lt). exact IH.
Qed.

(** ** Numbers *)

Lemma leb_value_pos f x : nb x < 128 -> nb x <> 0 -> leb_value (f ++ [x]) <> 0.
Proof.
  intros H1 H2. induction f as [|d f IH]; cbn [app leb_value].
  - rewrite N.mod_small by lia. lia.
  - intros C. apply IH. lia.
Qed.

Lemma uint_ne l n : uint l n -> l <> [].
Proof. now destruct 1. Qed.
Lemma read_leb_from_iff k : forall l n r,
  read_leb_from (S k) l = Some (n, r) <-> exists b, l = b ++ r /\ uint b n /\ (length b <= S k)%nat /\ n < 2 * 128 ^ N.of_nat k.
Proof.
  assert (forall k c l, read_leb_from (S k) (c :: l) =
    if (k =? 0)%nat && (1 <? nb c) then None else if nb c <? 128 then Some (nb c, l)
    else match read_leb_from k l with Some (n, r') => Some (nb c - 128 + 128 * n, r') | None => None end) as Hs by reflexivity.
  assert (forall k, 1 <= 128 ^ N.of_nat k) as Hp by (intros j; pose proof (N.pow_nonzero 128 (N.of_nat j)); lia).
  induction k as [|k IH]; intros l n r; (destruct l as [|c l]; [split; [discriminate|]; intros ([|] & H & Hb & _); [now apply uint_ne in Hb|discriminate]|]);
    rewrite Hs; pose proof (nb_lt c) as Hc.
  - cbn [Nat.eqb andb N.of_nat]. rewrite N.pow_0_r. destruct (1 <? nb c) eqn:E1; [apply N.ltb_lt in E1|apply N.ltb_ge in E1].
    + split; [discriminate|]. intros (b & Hl & Hb & H1 & H2). destruct Hb as [d Hd|d b n Hd Hb]; injection Hl as -> _.
      * lia.
      * apply uint_ne in Hb. destruct b; [congruence|]. cbn [length] in H1. lia.
    + replace (nb c <? 128) with true by (symmetry; apply N.ltb_lt; lia). split.
      * intros H. apply (inj Some) in H. injection H as <- <-. exists [c]. repeat split; [constructor; lia|cbn; lia|lia].
      * intros (b & Hl & Hb & H1 & H2). destruct Hb as [d Hd|d b n Hd Hb]; injection Hl as -> ->; [reflexivity|lia].
  - cbn [Nat.eqb andb]. rewrite pow128_S. destruct (nb c <? 128) eqn:E1; [apply N.ltb_lt in E1|apply N.ltb_ge in E1].
    + split.
      * intros H. apply (inj Some) in H. injection H as <- <-. exists [c]. specialize (Hp k).
        repeat split; [constructor; lia|cbn; lia|lia].
      * intros (b & Hl & Hb & H1 & H2). destruct Hb as [d Hd|d b n Hd Hb]; injection Hl as -> ->; [reflexivity|lia].
    + split.
      * destruct (read_leb_from (S k) l) as [[m r']|] eqn:E; [|discriminate]. intros H.
        assert (nb c - 128 + 128 * m = n /\ r' = r) as [<- <-] by (split; congruence). apply IH in E as (b & -> & Hb & H1 & H2). exists (c :: b).
        repeat split; [now constructor|cbn; lia|lia].
      * intros (b & Hl & Hb & H1 & H2). destruct Hb as [d Hd|d b m Hd Hb]; injection Hl as <- ->; [lia|].
        assert (read_leb_from (S k) (b ++ r) = Some (m, r)) as ->; [|reflexivity].
        apply IH. exists b. cbn [length] in H1. repeat split; [exact Hb|lia|lia].
Qed.
Lemma read_leb_iff l n r : read_leb l = Some (n, r) <-> exists b, count b n /\ l = b ++ r.
Proof.
  unfold read_leb. rewrite read_leb_from_iff. unfold count. change (2 * 128 ^ N.of_nat 9) with two64.
  split; intros (b & H); exists b; tauto.
Qed.
Lemma read_leb_ok l n rest : count l n -> read_leb (l ++ rest) = Some (n, rest).
Proof. intros H. apply read_leb_iff. eauto. Qed.

Lemma uleb_uint l n : is_uleb128 l n -> uint l n.
Proof.
  intros (front & final & -> & H1 & H2 & _ & <-). induction H1 as [|c front Hc Hf IH]; cbn [app leb_value].
  - rewrite N.mod_small by exact H2. rewrite N.mul_0_r, N.add_0_r. now constructor.
  - pose proof (nb_lt c). replace (nb c mod 128) with (nb c - 128) by zdiv. now constructor.
Qed.
Lemma uint_last_byte l n : uint l n -> exists front final, l = front ++ [final] /\ Forall (fun b => 128 <= nb b) front /\ nb final < 128.
Proof.
  induction 1 as [c H|c l n Hc H (front & final & -> & H1 & H2)].
  - exists [], c. now repeat split.
  - exists (c :: front), final. repeat split; [|exact H2]. now constructor.
Qed.
Lemma last_byte_uint front final : Forall (fun b => 128 <= nb b) front -> nb final < 128 -> exists n, uint (front ++ [final]) n.
Proof.
  intros H Hx. induction H as [|c front Hc Hf [n IH]]; [exists (nb final); now constructor|].
  exists (nb c - 128 + 128 * n). now apply uint_more.
Qed.
(** The shortest form is short enough. *)
Lemma uleb_count l n : is_uleb128 l n -> n < two64 -> count l n.
Proof.
  intros H Hn. split; [now apply uleb_uint|]. split; [|exact Hn]. destruct H as (front & final & -> & H1 & H2 & H3 & <-).
  assert (forall k, leb_value (front ++ [final]) < 2 * 128 ^ N.of_nat k -> (length (front ++ [final]) <= S k)%nat) as K.
  { clear Hn. induction H1 as [|c front Hc Hf IH]; intros k Hk; [cbn; lia|]. destruct H3 as [C|H3]; [discriminate|].
    cbn [app leb_value length] in *. pose proof (leb_value_pos front final H2 H3) as Hp. pose proof (nb_lt c).
    destruct k as [|k]; [cbn [N.of_nat] in Hk; rewrite N.pow_0_r in Hk; lia|]. rewrite pow128_S in Hk.
    specialize (IH (or_intror H3) k). lia. }
  apply (K 9%nat). exact Hn.
Qed.

Lemma skip_leb_ok front final rest : Forall (fun b => 128 <= nb b) front -> nb final < 128 ->
  skip_leb (front ++ final :: rest) = Some rest.
Proof.
  induction 1 as [|c front Hc Hf IH]; intros Hx; cbn [app skip_leb].
  - replace (nb final <? 128) with true by (symmetry; now apply N.ltb_lt). reflexivity.
  - replace (nb c <? 128) with false by (symmetry; now apply N.ltb_ge). now apply IH.
Qed.

Lemma leb_from_uleb f n : leb_from f n = uleb f n.
Proof.
  revert n. induction f as [|f IH]; intros n; [reflexivity|]. cbn [leb_from uleb].
  destruct (n / 128 =? 0) eqn:E.
  - apply N.eqb_eq in E. replace (n <? 128) with true by (symmetry; apply N.ltb_lt; zdiv).
    rewrite N.mod_small by zdiv. reflexivity.
  - apply N.eqb_neq in E. replace (n <? 128) with false by (symmetry; apply N.ltb_ge; zdiv).
    rewrite IH. f_equal. f_equal. lia.
Qed.
Lemma leb_is n : is_uleb128 (leb n) n.
Proof.
  unfold leb. rewrite leb_from_uleb. apply uleb_is; [lia|]. rewrite pow128_S.
  rewrite N2Nat.id. destruct (N.eq_dec n 0) as [->|H]; [cbn; lia|].
  assert (n < 2 ^ N.succ (N.log2 n)) as H1 by (apply N.log2_spec; lia).
  rewrite N.pow_succ_r' in H1.
  assert (2 ^ N.log2 n <= 128 ^ N.log2 n) as H2 by (apply N.pow_le_mono_l; lia). lia.
Qed.
Lemma leb_count n : n < two64 -> count (leb n) n.
Proof. intros H. apply uleb_count; [apply leb_is|exact H]. Qed.
Lemma read_leb_put n rest : n < two64 -> read_leb (leb n ++ rest) = Some (n, rest).
Proof. intros H. now apply read_leb_ok, leb_count. Qed.

(** Bytes *)
Lemma take_ok b rest : take_bytes (blen b) (b ++ rest) = Some (b, rest).
Proof.
  unfold take_bytes. rewrite blen_app. replace (blen b + blen rest <? blen b) with false by (symmetry; apply N.ltb_ge; lia).
  unfold blen. rewrite Nat2N.id. rewrite firstn_app, firstn_all, Nat.sub_diag, skipn_app, skipn_all, Nat.sub_diag.
  cbn. now rewrite app_nil_r.
Qed.
Lemma take_some n l b r : take_bytes n l = Some (b, r) -> l = b ++ r /\ blen b = n.
Proof.
  unfold take_bytes. destruct (blen l <? n) eqn:E; [discriminate|]. apply N.ltb_ge in E. intros H.
  apply (inj Some) in H. injection H as <- <-. split; [now rewrite firstn_skipn|].
  unfold blen in *. rewrite firstn_length. lia.
Qed.
Lemma read_counted_iff l b r : read_counted l = Some (b, r) <-> exists x, w_blob b x /\ l = x ++ r.
Proof.
  unfold read_counted. split.
  - destruct (read_leb l) as [[n r1]|] eqn:E; [|discriminate]. apply read_leb_iff in E as (y & Hy & ->).
    intros H. apply take_some in H as [-> <-]. exists (y ++ b). split; [now exists y|apply app_assoc].
  - intros (x & (y & Hy & ->) & ->). rewrite <- app_assoc, (read_leb_ok y (blen b)) by exact Hy. apply take_ok.
Qed.
Lemma read_counted_ok b l rest : count l (blen b) -> read_counted (l ++ b ++ rest) = Some (b, rest).
Proof. intros H. apply read_counted_iff. exists (l ++ b). split; [now exists l|apply app_assoc]. Qed.
Lemma read_text_iff l b r : read_text l = Some (b, r) <-> exists x, w_blob b x /\ utf8_text b /\ l = x ++ r.
Proof.
  unfold read_text. split.
  - destruct (read_counted l) as [[t r1]|] eqn:E; [|discriminate]. destruct (utf8 t) eqn:Eu; [|discriminate].
    intros H. apply (inj Some) in H. injection H as -> ->. apply read_counted_iff in E as (x & Hx & ->).
    exists x. repeat split; [exact Hx|now apply utf8_iff].
  - intros (x & Hx & Hu & ->). assert (read_counted (x ++ r) = Some (b, r)) as -> by (apply read_counted_iff; eauto).
    now rewrite (utf8_complete b).
Qed.
Lemma read_text_ok b l rest : utf8_text b -> count l (blen b) -> read_text (l ++ b ++ rest) = Some (b, rest).
Proof. intros H1 H2. unfold read_text. rewrite read_counted_ok by assumption. now rewrite (utf8_complete b). Qed.
Lemma read_principal_ok b l rest : blen b <= 29 -> count l (blen b) ->
  read_principal (x01 :: l ++ b ++ rest) = Some (b, rest).
Proof.
  intros H1 H2. unfold read_principal. rewrite read_counted_ok by exact H2.
  replace (29 <? blen b) with false by (symmetry; now apply N.ltb_ge). reflexivity.
Qed.
Lemma read_principal_some l b r : read_principal l = Some (b, r) ->
  exists x, blen b <= 29 /\ count x (blen b) /\ l = x01 :: x ++ b ++ r.
Proof.
  unfold read_principal. destruct l as [|[] l]; try discriminate.
  destruct (read_counted l) as [[p r1]|] eqn:E; [|discriminate]. destruct (29 <? blen p) eqn:Eb; [discriminate|].
  apply N.ltb_ge in Eb. intros H. apply (inj Some) in H. injection H as -> ->.
  apply read_counted_iff in E as (x & (y & Hy & ->) & ->). exists y. repeat split; [exact Eb|exact (proj1 Hy)|apply Hy|apply Hy|].
  now rewrite <- app_assoc.
Qed.

(** Little-endian numbers *)
Lemma le_digits_length k n : length (le_digits k n) = k.
Proof. revert n. induction k as [|k IH]; intros n; [reflexivity|]. cbn. now rewrite IH. Qed.
Lemma le_value_digits k n : n < 256 ^ N.of_nat k -> le_value (le_digits k n) = n.
Proof.
  revert n. induction k as [|k IH]; intros n H.
  - cbn in *. lia.
  - cbn [le_digits le_value]. rewrite Nat2N.inj_succ, N.pow_succ_r' in H. rewrite nb_ch by zdiv.
    rewrite IH by zdiv. zdiv.
Qed.
Lemma le_value_bound l : le_value l < 256 ^ blen l.
Proof.
  induction l as [|c l IH]; [cbn; lia|]. cbn [le_value]. unfold blen in *. cbn [length].
  rewrite Nat2N.inj_succ, N.pow_succ_r'. pose proof (nb_lt c). lia.
Qed.
Lemma put_le_digits k n : put_le k n = le_digits k n.
Proof. revert n. induction k as [|k IH]; intros n; [reflexivity|]. cbn. now rewrite IH. Qed.
