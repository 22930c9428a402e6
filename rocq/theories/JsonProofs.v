(** JSON.parse reads exactly the texts of RFC 8259, and reads what was written. *)
From Coq Require Import Strings.String ZifyBool ZifyN ZifyNat.
From Verif Require Import Base BaseLemmas Hex Json SpecJson JsonStrings.
Local Open Scope N_scope.
Ltac Zify.zify_post_hook ::= Z.to_euclidean_division_equations.

(** ** Blanks *)

Lemma blank_spec c : json_blank c = true <-> blank c.
Proof. unfold blank. destruct c; cbn; split; intros H; try discriminate H; try reflexivity; try (destruct H as [H|[H|[H|H]]]; discriminate H); auto. Qed.

Lemma skip_blanks_split l : exists w, l = w ++ skip_blanks l /\ blanks w.
Proof.
  induction l as [|c l (w & E & B)]; [exists []; split; [reflexivity|constructor]|]. cbn [skip_blanks].
  destruct (json_blank c) eqn:Q; [|exists []; split; [reflexivity|constructor]].
  exists (c :: w). split; [cbn; now rewrite <- E|]. constructor; [now apply blank_spec|exact B].
Qed.
Lemma skip_blanks_app w l : blanks w -> skip_blanks (w ++ l) = skip_blanks l.
Proof. induction 1 as [|c w B _ IH]; [reflexivity|]. cbn [app skip_blanks]. apply blank_spec in B. now rewrite B. Qed.
Lemma skip_blanks_all w : blanks w -> skip_blanks w = [].
Proof. intros H. rewrite <- (app_nil_r w), skip_blanks_app by exact H. reflexivity. Qed.
Lemma skip_blanks_start c l : json_blank c = false -> skip_blanks (c :: l) = c :: l.
Proof. intros H. cbn [skip_blanks]. now rewrite H. Qed.
Lemma skip_blanks_idem l : skip_blanks (skip_blanks l) = skip_blanks l.
Proof. destruct (skip_blanks_split l) as (w & E & B). rewrite E at 2. now rewrite skip_blanks_app. Qed.

Lemma expect_spec c l r : expect c l = Some r <-> l = c :: r.
Proof.
  unfold expect. destruct l as [|x l]; [split; discriminate|]. destruct (Byte.eqb x c) eqn:E.
  - apply byte_eqb_spec in E as ->. split; [intros [= ->]; reflexivity|intros [= ->]; reflexivity].
  - split; [discriminate|]. intros [= -> ->]. now rewrite byte_eqb_refl in E.
Qed.

(** ** Numbers *)

Lemma digit_spec c : json_digit c = true <-> is_digit c.
Proof. unfold json_digit, is_digit. lia. Qed.

Definition stop (r : bytes) : Prop := match r with c :: _ => ~ is_digit c /\ nb c <> 46 /\ nb c <> 101 /\ nb c <> 69 | [] => True end.
Definition no_digit (r : bytes) : Prop := match r with c :: _ => ~ is_digit c | [] => True end.

Lemma digits_sound l d r : digits l = (d, r) -> l = d ++ r /\ Forall is_digit d.
Proof.
  revert d r. induction l as [|c l IH]; intros d r; cbn [digits]; [intros [= <- <-]; split; [reflexivity|constructor]|].
  destruct (json_digit c) eqn:E; [|intros [= <- <-]; split; [reflexivity|constructor]].
  destruct (digits l) as [a b] eqn:F. destruct (IH _ _ eq_refl) as [-> H]. intros [= <- <-]. split; [reflexivity|].
  constructor; [now apply digit_spec|exact H].
Qed.
Lemma digits_complete d r : Forall is_digit d -> no_digit r -> digits (d ++ r) = (d, r).
Proof.
  intros H Hr. induction H as [|c d Hc _ IH]; cbn [app digits].
  - destruct r as [|c r]; [reflexivity|]. cbn [digits]. destruct (json_digit c) eqn:E; [|reflexivity].
    apply digit_spec in E. now destruct Hr.
  - apply digit_spec in Hc. now rewrite Hc, IH.
Qed.
Lemma some_digits_sound l d r : some_digits l = Some (d, r) -> l = d ++ r /\ digit_row d.
Proof.
  unfold some_digits. destruct (digits l) as [[|c a] b] eqn:E; [discriminate|]. intros [= <- <-].
  apply digits_sound in E as [-> H]. split; [reflexivity|]. split; [discriminate|exact H].
Qed.
Lemma some_digits_complete d r : digit_row d -> no_digit r -> some_digits (d ++ r) = Some (d, r).
Proof.
  intros [N H] Hr. unfold some_digits. rewrite digits_complete by assumption. destruct d; [congruence|reflexivity].
Qed.

Lemma minus_not_digit : ~ is_digit x2d.
Proof. unfold is_digit. cbn. lia. Qed.

Lemma read_number_sound l t r : read_number l = Some (t, r) -> l = t ++ r /\ number t.
Proof.
  unfold read_number. destruct (read_minus l) as [m l1] eqn:M.
  assert (l = m ++ l1 /\ (m = [] \/ m = bs "-")) as [-> Hm].
  { unfold read_minus in M. destruct l as [|c l]; [injection M as <- <-; auto|].
    destruct (Byte.eqb c x2d) eqn:E; injection M as <- <-; [|auto]. apply byte_eqb_spec in E as ->. auto. }
  destruct (read_int l1) as [[i l2]|] eqn:I; [|discriminate].
  assert (l1 = i ++ l2 /\ integer_part i) as [-> Hi].
  { unfold read_int in I. destruct l1 as [|c l1]; [discriminate|]. destruct (Byte.eqb c x30) eqn:E.
    - apply byte_eqb_spec in E as ->. injection I as <- <-. split; [reflexivity|constructor].
    - apply some_digits_sound in I as [El [N D]]. destruct i as [|c' i]; [congruence|].
      injection El as -> ->. split; [reflexivity|]. inversion D; subst. constructor; [assumption| |assumption].
        intros E'. apply byte_eqb_neq in E. apply E, nb_inj, E'. }
  destruct (read_fraction l2) as [[f l3]|] eqn:F; [|discriminate].
  assert (l2 = f ++ l3 /\ fraction_part f) as [-> Hf].
  { unfold read_fraction in F. destruct l2 as [|c l2]; [injection F as <- <-; split; [reflexivity|constructor]|].
    destruct (Byte.eqb c x2e) eqn:E; [|injection F as <- <-; split; [reflexivity|constructor]].
    apply byte_eqb_spec in E as ->. apply prepend_inv in F as (d & F & ->). apply some_digits_sound in F as [-> D].
    split; [reflexivity|]. now apply (frac_some d). }
  intros H. apply prepend_inv in H as (e & H & ->).
  assert (l3 = e ++ r /\ exponent_part e) as [-> He].
  { unfold read_exponent in H. destruct l3 as [|c l3]; [injection H as <- <-; split; [reflexivity|constructor]|].
    destruct (Byte.eqb c x65 || Byte.eqb c x45) eqn:E; [|injection H as <- <-; split; [reflexivity|constructor]].
    assert ([c] = bs "e" \/ [c] = bs "E") as Hc.
    { apply orb_prop in E as [E|E]; apply byte_eqb_spec in E as ->; auto. }
    destruct l3 as [|s l3]; [discriminate|]. destruct (Byte.eqb s x2b || Byte.eqb s x2d) eqn:S.
    - apply prepend_inv in H as (d & H & ->). apply some_digits_sound in H as [-> D]. split; [reflexivity|].
      apply (exp_some [c] [s] d Hc); [|exact D]. apply orb_prop in S as [S|S]; apply byte_eqb_spec in S as ->; auto.
    - apply prepend_inv in H as (d & H & ->). apply some_digits_sound in H as [H D]. rewrite H. split; [reflexivity|].
      apply (exp_some [c] [] d Hc); [auto|exact D]. }
  split; [now rewrite <- !app_assoc|]. rewrite <- !app_assoc. now constructor.
Qed.

Lemma stop_no_digit r : stop r -> no_digit r.
Proof. destruct r; [auto|]. now intros [H _]. Qed.

Lemma read_number_complete t r : number t -> stop r -> read_number (t ++ r) = Some (t, r).
Proof.
  intros H Hr. destruct H as [m i f e Hm Hi Hf He]. unfold read_number. rewrite <- !app_assoc.
  assert (read_minus (m ++ i ++ f ++ e ++ r) = (m, i ++ f ++ e ++ r)) as ->.
  { destruct Hm as [-> | ->]; [|reflexivity]. cbn [app]. destruct Hi as [|c l Hc N0 Hl]; [reflexivity|]. cbn [app read_minus].
    destruct (Byte.eqb c x2d) eqn:E; [|reflexivity]. apply byte_eqb_spec in E as ->. now apply minus_not_digit in Hc. }
  assert (no_digit (e ++ r)) as Ne.
  { destruct He as [|e s l [-> | ->] Hs D]; [now apply stop_no_digit| |]; unfold no_digit, is_digit; cbn; lia. }
  assert (no_digit (f ++ e ++ r)) as Nf.
  { destruct Hf as [|l D]; [exact Ne|]. unfold no_digit, is_digit; cbn; lia. }
  assert (read_int (i ++ f ++ e ++ r) = Some (i, f ++ e ++ r)) as ->.
  { destruct Hi as [|c l Hc N0 Hl]; [reflexivity|]. unfold read_int. cbn [app].
    destruct (Byte.eqb c x30) eqn:E; [apply byte_eqb_spec in E as ->; now destruct N0|].
    apply (some_digits_complete (c :: l)); [|exact Nf]. split; [discriminate|now constructor]. }
  assert (read_fraction (f ++ e ++ r) = Some (f, e ++ r)) as ->.
  { destruct Hf as [|l D].
    - cbn [app]. destruct He as [|e s l [-> | ->] Hs D]; [|reflexivity|reflexivity]. cbn [app]. destruct r as [|c r]; [reflexivity|].
      unfold read_fraction. destruct (Byte.eqb c x2e) eqn:E; [|reflexivity]. apply byte_eqb_spec in E as ->.
      destruct Hr as (_ & H & _). now destruct H.
    - rewrite <- app_assoc. change (bs "." ++ l ++ e ++ r) with (x2e :: l ++ e ++ r).
      unfold read_fraction. rewrite byte_eqb_refl, some_digits_complete by assumption. reflexivity. }
  assert (read_exponent (e ++ r) = Some (e, r)) as ->.
  { destruct He as [|e s l He Hs D].
    - cbn [app]. destruct r as [|c r]; [reflexivity|]. unfold read_exponent.
      destruct (Byte.eqb c x65 || Byte.eqb c x45) eqn:E; [|reflexivity]. exfalso.
      destruct Hr as (_ & _ & H1 & H2). apply orb_prop in E as [E|E]; apply byte_eqb_spec in E as ->; [now destruct H1|now destruct H2].
    - assert (some_digits (l ++ r) = Some (l, r)) as S by (apply some_digits_complete; [exact D|now apply stop_no_digit]).
      rewrite <- !app_assoc.
      destruct Hs as [->|[->| ->]].
      + destruct D as [N D]. destruct l as [|d l]; [congruence|]. inversion D as [|? ? Hd _]; subst.
        assert (Byte.eqb d x2b || Byte.eqb d x2d = false) as Q.
        { destruct (Byte.eqb d x2b || Byte.eqb d x2d) eqn:Q; [|reflexivity]. exfalso. unfold is_digit in Hd.
          apply orb_prop in Q as [Q|Q]; apply byte_eqb_spec in Q as ->; cbn in Hd; lia. }
        destruct He as [-> | ->]; cbn [app] in *; unfold read_exponent; cbn [bs]; cbn -[some_digits]; rewrite Q, S; reflexivity.
      + destruct He as [-> | ->]; unfold read_exponent; cbn -[some_digits]; rewrite S; reflexivity.
      + destruct He as [-> | ->]; unfold read_exponent; cbn -[some_digits]; rewrite S; reflexivity. }
  cbn [prepend]. now rewrite <- !app_assoc.
Qed.

Lemma number_start t : number t -> exists c r, t = c :: r /\ (is_digit c \/ c = x2d).
Proof.
  intros [m i f e [-> | ->] Hi _ _]; [|cbn; eauto]. cbn [app].
  destruct Hi as [|c l Hc _ _]; [cbn|cbn; eauto]. do 2 eexists. split; [reflexivity|]. left. unfold is_digit. cbn. lia.
Qed.

(** ** Objects *)

Lemma names_once_in k l : In k (names_once l) <-> In k (map fst l).
Proof.
  induction l as [|[k0 v0] l IH]; [reflexivity|]. cbn [names_once map fst In].
  rewrite filter_In, IH. destruct (bytes_eqb k k0) eqn:E.
  - apply bytes_eqb_spec in E as ->. cbn. intuition congruence.
  - cbn. tauto.
Qed.
Lemma names_once_nodup l : List.NoDup (names_once l).
Proof.
  induction l as [|[k0 v0] l IH]; [constructor|]. cbn [names_once]. constructor; [|now apply List.NoDup_filter].
  rewrite filter_In, bytes_eqb_refl. now intros [_ H].
Qed.
Lemma names_once_snoc l k v : names_once (l ++ [(k, v)]) =
  if existsb (bytes_eqb k) (map fst l) then names_once l else names_once l ++ [k].
Proof.
  induction l as [|[k0 v0] l IH]; [reflexivity|]. cbn [app names_once map fst existsb]. rewrite IH.
  destruct (existsb (bytes_eqb k) (map fst l)); [now rewrite orb_true_r|]. rewrite orb_false_r, filter_app. cbn [List.filter].
  destruct (bytes_eqb k k0) eqn:E; cbn [negb]; [now rewrite app_nil_r|reflexivity].
Qed.
Lemma last_value_snoc l k v x : last_value (l ++ [(k, v)]) x = if bytes_eqb k x then Some v else last_value l x.
Proof. unfold last_value. rewrite fold_left_app. reflexivity. Qed.

Lemma put_member_map k v g ns : List.NoDup ns ->
  put_member k v (map (fun x => (x, g x)) ns) =
  if existsb (bytes_eqb k) ns then map (fun x => (x, if bytes_eqb k x then v else g x)) ns
  else map (fun x => (x, if bytes_eqb k x then v else g x)) (ns ++ [k]).
Proof.
  induction 1 as [|n ns N _ IH]; [cbn; now rewrite bytes_eqb_refl|]. cbn [map put_member existsb app].
  destruct (bytes_eqb k n) eqn:E; cbn [orb].
  - apply bytes_eqb_spec in E as ->. f_equal. apply map_ext_in. intros x Hx.
    destruct (bytes_eqb n x) eqn:E; [|reflexivity]. apply bytes_eqb_spec in E as ->. contradiction.
  - rewrite IH. destruct (existsb (bytes_eqb k) ns); reflexivity.
Qed.

Lemma existsb_names k l : existsb (bytes_eqb k) (names_once l) = existsb (bytes_eqb k) (map fst l).
Proof.
  apply eq_true_iff_eq. rewrite !existsb_exists. split; intros (x & H & E); exists x; (split; [|exact E]); now apply names_once_in in H || apply names_once_in.
Qed.

Lemma object_of_spec l : object_of l = members_value l.
Proof.
  induction l as [|[k v] l IH] using rev_ind; [reflexivity|].
  unfold object_of in *. rewrite fold_left_app. cbn [fold_left fst snd]. rewrite IH.
  unfold members_value. rewrite put_member_map by apply names_once_nodup. rewrite existsb_names, names_once_snoc.
  destruct (existsb (bytes_eqb k) (map fst l)); apply map_ext; intros x; rewrite last_value_snoc; now destruct (bytes_eqb k x).
Qed.

Lemma members_value_nodup l : List.NoDup (map fst l) -> members_value l = l.
Proof.
  intros H. rewrite <- object_of_spec. unfold object_of.
  assert (forall acc, List.NoDup (map fst (acc ++ l)) -> fold_left (fun o m => put_member (fst m) (snd m) o) l acc = acc ++ l) as F.
  { clear H. induction l as [|[k v] l IH]; intros acc H; [symmetry; apply app_nil_r|]. cbn [fold_left fst snd].
    assert (put_member k v acc = acc ++ [(k, v)]) as ->.
    { rewrite map_app in H. cbn [map fst] in H. apply List.NoDup_remove_2 in H. rewrite in_app_iff in H.
      assert (~ In k (map fst acc)) as N by tauto. clear H IH. induction acc as [|[k' v'] acc IH]; [reflexivity|].
      cbn [put_member app]. destruct (bytes_eqb k k') eqn:E; [apply bytes_eqb_spec in E as ->; cbn in N; tauto|].
      f_equal. apply IH. cbn in N. tauto. }
    rewrite IH; rewrite <- app_assoc; [reflexivity|exact H]. }
  apply (F []). exact H.
Qed.

Ltac flat := repeat first [progress (rewrite <- !app_assoc) | progress cbn]; reflexivity.

(** ** Values *)

Lemma value_start t v : value t v -> exists c r, t = c :: r /\ json_blank c = false /\ c <> x5d.
Proof.
  intros [| | |t' N|t' s S|w _|t' vs _|w _|t' ms _]; try (cbn; do 2 eexists; split; [reflexivity|split; [reflexivity|discriminate]]).
  - apply number_start in N as (c & r & -> & H). exists c, r. split; [reflexivity|].
    destruct H as [H| ->]; [|split; [reflexivity|discriminate]]. unfold is_digit in H.
    split; [|intros ->; cbn in H; lia]. destruct (json_blank c) eqn:E; [|reflexivity]. apply blank_spec in E. unfold blank in E. lia.
  - apply string_text_row in S as (items & l & _ & -> & _). do 2 eexists. split; [reflexivity|]. split; [reflexivity|discriminate].
Qed.

Scheme value_ind3 := Minimality for value Sort Prop
  with elements_ind3 := Minimality for elements Sort Prop
  with members_ind3 := Minimality for members Sort Prop.
Combined Scheme json_ind from value_ind3, elements_ind3, members_ind3.

Lemma read_sound q :
  (forall l v r, read_value q l = Some (v, r) -> exists w t, l = w ++ t ++ r /\ blanks w /\ value t v) /\
  (forall l vs r, read_elements q l = Some (vs, r) -> exists t, l = t ++ x5d :: r /\ elements t vs) /\
  (forall l ms r, read_members q l = Some (ms, r) -> exists t, l = t ++ x7d :: r /\ members t ms).
Proof.
  induction q as [|q (IHv & IHe & IHm)]; [repeat split; discriminate|]. split; [|split].
  - intros l v r H. cbn [read_value] in H. destruct (skip_blanks_split l) as (w & El & Bw).
    revert H El. generalize (skip_blanks l). intros l' H El.
    enough (exists t, l' = t ++ r /\ value t v) as (t & -> & V) by (exists w, t; auto). clear El Bw w l.
    destruct (expect x22 l') as [l1|] eqn:E1.
    { apply expect_spec in E1 as ->. destruct (read_string l1) as [[s r']|] eqn:S; [|discriminate].
      injection H as <- <-. apply read_string_sound in S as (items & t & R & -> & ->).
      exists (x22 :: t ++ [x22]). split; [cbn; now rewrite <- app_assoc|]. constructor. apply string_text_row. eauto. }
    destruct (expect x5b l') as [l1|] eqn:E2.
    { apply expect_spec in E2 as ->. destruct (expect x5d (skip_blanks l1)) as [l2|] eqn:E3.
      - apply expect_spec in E3. injection H as <- <-. destruct (skip_blanks_split l1) as (w & -> & B). rewrite E3.
        exists (bs "[" ++ w ++ bs "]"). split; [cbn; now rewrite <- app_assoc|]. now constructor.
      - destruct (read_elements q l1) as [[vs r']|] eqn:R; [|discriminate]. injection H as <- <-.
        apply IHe in R as (t & -> & R). exists (bs "[" ++ t ++ bs "]"). split; [cbn; now rewrite <- app_assoc|]. now constructor. }
    destruct (expect x7b l') as [l1|] eqn:E4.
    { apply expect_spec in E4 as ->. destruct (expect x7d (skip_blanks l1)) as [l2|] eqn:E3.
      - apply expect_spec in E3. injection H as <- <-. destruct (skip_blanks_split l1) as (w & -> & B). rewrite E3.
        exists (bs "{" ++ w ++ bs "}"). split; [cbn; now rewrite <- app_assoc|]. now constructor.
      - destruct (read_members q l1) as [[vs r']|] eqn:R; [|discriminate]. injection H as <- <-.
        apply IHm in R as (t & -> & R). exists (bs "{" ++ t ++ bs "}"). split; [cbn; now rewrite <- app_assoc|].
        rewrite object_of_spec. now constructor. }
    destruct (starts_number l').
    { destruct (read_number l') as [[t r']|] eqn:N; [|discriminate]. injection H as <- <-.
      apply read_number_sound in N as [-> N]. exists t. split; [reflexivity|now constructor]. }
    unfold read_word in H. destruct (strip_prefix (bs "null") l') as [r1|] eqn:P1.
    { apply strip_prefix_spec in P1 as ->. injection H as <- <-. eexists. split; [reflexivity|constructor]. }
    destruct (strip_prefix (bs "true") l') as [r2|] eqn:P2.
    { apply strip_prefix_spec in P2 as ->. injection H as <- <-. eexists. split; [reflexivity|constructor]. }
    destruct (strip_prefix (bs "false") l') as [r3|] eqn:P3; [|discriminate].
    apply strip_prefix_spec in P3 as ->. injection H as <- <-. eexists. split; [reflexivity|constructor].
  - intros l vs r H. cbn [read_elements] in H. destruct (read_value q l) as [[v r1]|] eqn:V; [|discriminate].
    apply IHv in V as (w1 & t & -> & B1 & V). destruct (skip_blanks_split r1) as (w2 & -> & B2).
    destruct (expect x2c (skip_blanks r1)) as [r2|] eqn:E1.
    + apply expect_spec in E1. destruct (read_elements q r2) as [[vs' r3]|] eqn:R; [|discriminate]. injection H as <- <-.
      apply IHe in R as (t' & -> & R). rewrite E1. exists (w1 ++ t ++ w2 ++ bs "," ++ t').
      split; [rewrite <- !app_assoc; reflexivity|]. now constructor.
    + destruct (expect x5d (skip_blanks r1)) as [r2|] eqn:E2; [|discriminate]. apply expect_spec in E2.
      injection H as <- <-. rewrite E2. exists (w1 ++ t ++ w2). split; [rewrite <- !app_assoc; reflexivity|]. now constructor.
  - intros l ms r H. cbn [read_members] in H. destruct (skip_blanks_split l) as (w1 & -> & B1).
    destruct (expect x22 (skip_blanks l)) as [l1|] eqn:E1; [|discriminate]. apply expect_spec in E1. rewrite E1. clear E1.
    destruct (read_string l1) as [[k l2]|] eqn:S; [|discriminate]. apply read_string_sound in S as (items & tk & R & -> & ->).
    destruct (skip_blanks_split l2) as (w2 & -> & B2).
    destruct (expect x3a (skip_blanks l2)) as [l3|] eqn:E1; [|discriminate]. apply expect_spec in E1. rewrite E1. clear E1.
    destruct (read_value q l3) as [[v r1]|] eqn:V; [|discriminate].
    apply IHv in V as (w3 & t & -> & B3 & V). destruct (skip_blanks_split r1) as (w4 & -> & B4).
    assert (string_text (x22 :: tk ++ [x22]) (items_value items)) as K by (apply string_text_row; eauto).
    destruct (expect x2c (skip_blanks r1)) as [r2|] eqn:E1.
    + apply expect_spec in E1. destruct (read_members q r2) as [[vs' r3]|] eqn:R2; [|discriminate]. injection H as <- <-.
      apply IHm in R2 as (t' & -> & R2). rewrite E1.
      exists (w1 ++ (x22 :: tk ++ [x22]) ++ w2 ++ bs ":" ++ w3 ++ t ++ w4 ++ bs "," ++ t').
      split; [flat|]. now apply members_more.
    + destruct (expect x7d (skip_blanks r1)) as [r2|] eqn:E2; [|discriminate]. apply expect_spec in E2.
      injection H as <- <-. rewrite E2. exists (w1 ++ (x22 :: tk ++ [x22]) ++ w2 ++ bs ":" ++ w3 ++ t ++ w4).
      split; [flat|]. now apply members_one.
Qed.

Lemma bracket_stop c r : c = x5d \/ c = x7d \/ c = x2c \/ blank c -> stop (c :: r).
Proof. unfold stop, is_digit, blank. intros [->|[->|[->|H]]]; cbn; lia. Qed.
Lemma blanks_stop w r : blanks w -> (w = [] -> stop r) -> stop (w ++ r).
Proof. intros [|c w' B _] H; [now apply H|]. cbn [app]. apply bracket_stop. auto. Qed.

Lemma read_elements_skip q l : read_elements q (skip_blanks l) = read_elements q l.
Proof.
  destruct q as [|q]; [reflexivity|]. cbn [read_elements].
  assert (read_value q (skip_blanks l) = read_value q l) as ->; [|reflexivity].
  destruct q as [|q]; [reflexivity|]. cbn [read_value]. now rewrite skip_blanks_idem.
Qed.

Lemma expect_other c x l : x <> c -> expect c (x :: l) = None.
Proof. intros H. unfold expect. apply byte_eqb_neq in H. now rewrite H. Qed.
Lemma expect_same c l : expect c (c :: l) = Some l.
Proof. now apply expect_spec. Qed.

Lemma read_complete :
  (forall t v, value t v -> forall w r q, blanks w -> stop r -> (2 * length t + 1 <= q)%nat ->
     read_value q (w ++ t ++ r) = Some (v, r)) /\
  (forall t vs, elements t vs -> forall r q, (2 * length t + 2 <= q)%nat ->
     read_elements q (t ++ x5d :: r) = Some (vs, r)) /\
  (forall t ms, members t ms -> forall r q, (2 * length t + 2 <= q)%nat ->
     read_members q (t ++ x7d :: r) = Some (ms, r)).
Proof.
  apply json_ind.
  1-3: intros w r q Bw _ Hq; destruct q as [|q]; [lia|]; cbn [read_value]; rewrite skip_blanks_app by exact Bw; reflexivity.
  - intros t N w r q Bw Hr Hq. destruct q as [|q]; [lia|]. cbn [read_value]. rewrite skip_blanks_app by exact Bw.
    pose proof (read_number_complete t r N Hr) as R. destruct (number_start t N) as (c & t' & -> & Hc). cbn [app] in *.
    assert (json_digit c || Byte.eqb c x2d = true) as S.
    { destruct Hc as [Hc| ->]; [|reflexivity]. apply digit_spec in Hc. now rewrite Hc. }
    assert (json_blank c = false) as B.
    { destruct (json_blank c) eqn:E; [|reflexivity]. apply blank_spec in E. unfold blank in E.
      destruct Hc as [Hc| ->]; [unfold is_digit in Hc; lia|]. cbn in E. lia. }
    rewrite skip_blanks_start by exact B.
    assert (forall x, ~ (48 <= nb x <= 57) -> x <> x2d -> c <> x) as Other.
    { intros x N1 N2 ->. destruct Hc as [Hc| ->]; [now apply N1|now apply N2]. }
    rewrite !expect_other by (apply Other; [cbn; lia|discriminate]). unfold starts_number. now rewrite S, R.
  - intros t s S w r q Bw _ Hq. destruct q as [|q]; [lia|]. cbn [read_value]. rewrite skip_blanks_app by exact Bw.
    apply string_text_row in S as (items & l & R & -> & ->).
    replace ((x22 :: l ++ [x22]) ++ r) with (x22 :: l ++ x22 :: r) by flat.
    rewrite skip_blanks_start by reflexivity. rewrite expect_same, (read_string_complete items) by exact R. reflexivity.
  - intros w' Bw' w r q Bw _ Hq. destruct q as [|q]; [lia|]. cbn [read_value]. rewrite skip_blanks_app by exact Bw.
    replace ((bs "[" ++ w' ++ bs "]") ++ r) with (x5b :: w' ++ x5d :: r) by flat.
    rewrite skip_blanks_start by reflexivity. rewrite expect_same. rewrite (expect_other x22) by discriminate.
    rewrite skip_blanks_app by exact Bw'. rewrite skip_blanks_start, expect_same by reflexivity. reflexivity.
  - intros t vs E IH w r q Bw _ Hq. destruct q as [|q]; [lia|]. cbn [read_value]. rewrite skip_blanks_app by exact Bw.
    replace ((bs "[" ++ t ++ bs "]") ++ r) with (x5b :: t ++ x5d :: r) by flat.
    rewrite skip_blanks_start by reflexivity. rewrite expect_same. rewrite (expect_other x22) by discriminate.
    assert (expect x5d (skip_blanks (t ++ x5d :: r)) = None) as ->.
    { assert (exists w1 c t1, t = w1 ++ c :: t1 /\ blanks w1 /\ json_blank c = false /\ c <> x5d) as (w1 & c & t1 & -> & B1 & Bc & Nc).
      { destruct E as [w1 t v w2 B1 V _|w1 t v w2 t' vs B1 V _ _]; apply value_start in V as (c & t1 & -> & H);
          (exists w1, c; eexists; split; [reflexivity|auto]). }
      rewrite <- app_assoc, skip_blanks_app by exact B1. cbn [app]. rewrite skip_blanks_start by exact Bc. now apply expect_other. }
    rewrite IH; [reflexivity|]. rewrite !app_length in Hq. cbn in Hq. lia.
  - intros w' Bw' w r q Bw _ Hq. destruct q as [|q]; [lia|]. cbn [read_value]. rewrite skip_blanks_app by exact Bw.
    replace ((bs "{" ++ w' ++ bs "}") ++ r) with (x7b :: w' ++ x7d :: r) by flat.
    rewrite skip_blanks_start by reflexivity. rewrite expect_same. rewrite (expect_other x22), (expect_other x5b) by discriminate.
    rewrite skip_blanks_app by exact Bw'. rewrite skip_blanks_start, expect_same by reflexivity. reflexivity.
  - intros t ms E IH w r q Bw _ Hq. destruct q as [|q]; [lia|]. cbn [read_value]. rewrite skip_blanks_app by exact Bw.
    replace ((bs "{" ++ t ++ bs "}") ++ r) with (x7b :: t ++ x7d :: r) by flat.
    rewrite skip_blanks_start by reflexivity. rewrite expect_same. rewrite (expect_other x22), (expect_other x5b) by discriminate.
    assert (expect x7d (skip_blanks (t ++ x7d :: r)) = None) as ->.
    { assert (exists w1 t1, t = w1 ++ x22 :: t1 /\ blanks w1) as (w1 & t1 & -> & B1).
      { destruct E as [w1 k s w2 w3 t w4 v B1 S|w1 k s w2 w3 t w4 v t' ms B1 S]; apply string_text_row in S as (its & l & _ & -> & _);
          (exists w1; eexists; split; [reflexivity|auto]). }
      rewrite <- app_assoc, skip_blanks_app by exact B1. cbn [app]. rewrite skip_blanks_start by reflexivity. now apply expect_other. }
    rewrite IH; [now rewrite object_of_spec|]. rewrite !app_length in Hq. cbn in Hq. lia.
  - intros w1 t w2 v B1 V IH B2 r q Hq. destruct q as [|q]; [lia|]. cbn [read_elements]. rewrite <- !app_assoc.
    rewrite !app_length in Hq. rewrite IH; [|exact B1| |lia].
    2: { apply blanks_stop; [exact B2|]. intros _. apply bracket_stop. auto. }
    rewrite skip_blanks_app by exact B2. rewrite skip_blanks_start by reflexivity. rewrite expect_same, (expect_other x2c) by discriminate. reflexivity.
  - intros w1 t w2 v t' vs B1 V IH B2 E IHe r q Hq. destruct q as [|q]; [lia|]. cbn [read_elements].
    replace ((w1 ++ t ++ w2 ++ bs "," ++ t') ++ x5d :: r) with (w1 ++ t ++ w2 ++ x2c :: t' ++ x5d :: r) by flat.
    rewrite !app_length in Hq. cbn in Hq. rewrite IH; [|exact B1| |lia].
    2: { apply blanks_stop; [exact B2|]. intros _. apply bracket_stop. auto. }
    rewrite skip_blanks_app by exact B2. rewrite skip_blanks_start by reflexivity. rewrite expect_same, IHe by lia. reflexivity.
  - intros w1 k s w2 w3 t w4 v B1 S B2 B3 V IH B4 r q Hq. destruct q as [|q]; [lia|]. cbn [read_members].
    apply string_text_row in S as (items & l & R & -> & ->).
    replace ((w1 ++ (x22 :: l ++ [x22]) ++ w2 ++ bs ":" ++ w3 ++ t ++ w4) ++ x7d :: r)
      with (w1 ++ x22 :: l ++ x22 :: w2 ++ x3a :: w3 ++ t ++ w4 ++ x7d :: r) by flat.
    rewrite skip_blanks_app by exact B1. rewrite skip_blanks_start by reflexivity.
    rewrite expect_same, (read_string_complete items) by exact R.
    rewrite skip_blanks_app by exact B2. rewrite skip_blanks_start by reflexivity. rewrite expect_same.
    rewrite !app_length in Hq. cbn in Hq. rewrite IH; [|exact B3| |lia].
    2: { apply blanks_stop; [exact B4|]. intros _. apply bracket_stop. auto. }
    rewrite skip_blanks_app by exact B4. rewrite skip_blanks_start by reflexivity. rewrite expect_same, (expect_other x2c) by discriminate. reflexivity.
  - intros w1 k s w2 w3 t w4 v t' ms B1 S B2 B3 V IH B4 M IHm r q Hq. destruct q as [|q]; [lia|]. cbn [read_members].
    apply string_text_row in S as (items & l & R & -> & ->).
    replace ((w1 ++ (x22 :: l ++ [x22]) ++ w2 ++ bs ":" ++ w3 ++ t ++ w4 ++ bs "," ++ t') ++ x7d :: r)
      with (w1 ++ x22 :: l ++ x22 :: w2 ++ x3a :: w3 ++ t ++ w4 ++ x2c :: t' ++ x7d :: r) by flat.
    rewrite skip_blanks_app by exact B1. rewrite skip_blanks_start by reflexivity.
    rewrite expect_same, (read_string_complete items) by exact R.
    rewrite skip_blanks_app by exact B2. rewrite skip_blanks_start by reflexivity. rewrite expect_same.
    rewrite !app_length in Hq. cbn in Hq. rewrite !app_length in Hq. cbn in Hq. rewrite IH; [|exact B3| |lia].
    2: { apply blanks_stop; [exact B4|]. intros _. apply bracket_stop. auto. }
    rewrite skip_blanks_app by exact B4. rewrite skip_blanks_start by reflexivity. rewrite expect_same, IHm by lia. reflexivity.
Qed.

Theorem parse_json_spec t v : parse_json t = Some v <-> json_doc t v.
Proof.
  unfold parse_json. split.
  - destruct (read_value _ t) as [[v' r]|] eqn:R; [|discriminate].
    destruct (skip_blanks r) eqn:S; [|discriminate]. intros [= <-]. apply read_sound in R as (w & t' & -> & B & V).
    destruct (skip_blanks_split r) as (w2 & Er & B2). rewrite S, app_nil_r in Er. subst w2. exists w, t', r. auto.
  - intros (w1 & t' & w2 & B1 & V & B2 & ->).
    rewrite (proj1 read_complete t' v V w1 w2); [|exact B1| |].
    + now rewrite skip_blanks_all.
    + rewrite <- (app_nil_r w2). apply blanks_stop; [exact B2|]. intros _. exact I.
    + rewrite !app_length. lia.
Qed.

(** ** Writing *)

Fixpoint json_fine (j : json) : Prop :=
  match j with
  | JNull | JBool _ | JStr _ => True
  | JNum t => number t
  | JArr l => (fix all l := match l with [] => True | j :: r => json_fine j /\ all r end) l
  | JObj l => List.NoDup (map fst l) /\ (fix all l := match l with [] => True | m :: r => json_fine (snd m) /\ all r end) l
  end.

Definition item_of (c : byte) : item := 
  match c with x08 | x09 | x0a | x0c | x0d => Byte_ c | _ => if nb c <? 32 then Unit_ (nb c) else Byte_ c end.

Lemma escape_item c : item_text (item_of c) (escape c).
Proof.
  assert (forall e v, In (e, v) [(34, 34); (92, 92); (47, 47); (98, 8); (102, 12); (110, 10); (114, 13); (116, 9)] ->
    item_text (Byte_ (u8 v)) [u8 92; u8 e]) as S by (intros; now constructor).
  assert (forall u a b, hex_val a = Some (u / 16) -> hex_val b = Some (u mod 16) -> u < 32 ->
    item_text (Unit_ u) [x5c; x75; x30; x30; a; b]) as U.
  { intros u a b Ha Hb Hu. apply unit_item. exists x30, x30, a, b. split; [reflexivity|]. unfold hex4. rewrite Ha, Hb.
    change (hex_val x30) with (Some 0). cbn iota. f_equal. lia. }
  assert (forall c, 32 <= nb c -> nb c <> 34 -> nb c <> 92 -> item_text (Byte_ c) [c]) as P by (intros; now constructor).
  destruct c;
    first [ apply P; [cbn; lia|discriminate|discriminate]
          | apply (S 98 8); cbn; tauto | apply (S 116 9); cbn; tauto | apply (S 110 10); cbn; tauto
          | apply (S 102 12); cbn; tauto | apply (S 114 13); cbn; tauto
          | apply (S 34 34); cbn; tauto | apply (S 92 92); cbn; tauto
          | apply U; reflexivity ].
Qed.

Lemma items_of s : items_value (map item_of s) = s.
Proof.
  induction s as [|c s IH]; [reflexivity|]. cbn [map].
  assert (item_of c = Byte_ c \/ (nb c < 32 /\ item_of c = Unit_ (nb c))) as [E|[L E]].
  { unfold item_of. destruct c; first [left; reflexivity | right; split; reflexivity]. }
  - rewrite E. cbn [items_value]. now rewrite IH.
  - rewrite E, unit_alone.
    + rewrite IH. unfold utf8_of. assert (nb c <? 128 = true) as -> by lia. now rewrite u8_nb.
    + intros v r _. assert (nb c / 1024 =? 54 = false) as -> by lia. reflexivity.
Qed.

Lemma quoted_text s : string_text (quoted s) s.
Proof.
  exists (map item_of s), (map escape s). split; [|split; [reflexivity|now rewrite items_of]].
  induction s as [|c s IH]; [constructor|]. constructor; [apply escape_item|exact IH].
Qed.

Section JsonInd.
  Variable P : json -> Prop.
  Hypothesis Hnull : P JNull.
  Hypothesis Hbool : forall b, P (JBool b).
  Hypothesis Hnum : forall t, P (JNum t).
  Hypothesis Hstr : forall s, P (JStr s).
  Hypothesis Harr : forall l, Forall P l -> P (JArr l).
  Hypothesis Hobj : forall l, Forall (fun m => P (snd m)) l -> P (JObj l).
  Fixpoint json_deep_ind (j : json) : P j :=
    match j with
    | JNull => Hnull | JBool b => Hbool b | JNum t => Hnum t | JStr s => Hstr s
    | JArr l => Harr l ((fix go l := match l return Forall P l with [] => List.Forall_nil _ | j :: r => List.Forall_cons _ _ _ (json_deep_ind j) (go r) end) l)
    | JObj l => Hobj l ((fix go l := match l return Forall (fun m => P (snd m)) l with [] => List.Forall_nil _ | m :: r => List.Forall_cons _ _ _ (json_deep_ind (snd m)) (go r) end) l)
    end.
End JsonInd.

Theorem json_text_value j : json_fine j -> value (json_text j) j.
Proof.
  induction j as [|b|t|s|l IH|l IH] using json_deep_ind; cbn [json_fine json_text]; intros F.
  - constructor.
  - destruct b; constructor.
  - now constructor.
  - constructor. apply quoted_text.
  - destruct l as [|j l]; [apply (value_no_elements []); constructor|].
    apply (value_elements (commas (map json_text (j :: l)))).
    revert j IH F. induction l as [|j' l IHl]; intros j IH F; inversion IH as [|? ? Hj Hl]; subst.
    + cbn [map commas]. rewrite <- (app_nil_r (json_text j)). apply (elements_one [] (json_text j) [] j); [constructor| |constructor]. now apply Hj.
    + change (commas (map json_text (j :: j' :: l))) with ([] ++ json_text j ++ [] ++ bs "," ++ commas (map json_text (j' :: l))).
      apply elements_more; [constructor|now apply Hj|constructor|]. apply IHl; [exact Hl|apply F].
  - destruct F as [N F]. destruct l as [|m l]; [apply (value_no_members []); constructor|].
    set (f := fun m : bytes * json => quoted (fst m) ++ x3a :: json_text (snd m)).
    rewrite <- (members_value_nodup (m :: l)) at 2 by exact N.
    apply (value_members (commas (map f (m :: l)))). clear N.
    revert m IH F. induction l as [|m' l IHl]; intros [k j] IH F; inversion IH as [|? ? Hj Hl]; subst.
    + cbn [map commas]. unfold f. cbn [fst snd].
      replace (quoted k ++ x3a :: json_text j) with ([] ++ quoted k ++ [] ++ bs ":" ++ [] ++ json_text j ++ []) by (cbn; now rewrite app_nil_r).
      apply members_one; try constructor; [apply quoted_text|now apply Hj].
    + replace (commas (map f ((k, j) :: m' :: l))) with ([] ++ quoted k ++ [] ++ bs ":" ++ [] ++ json_text j ++ [] ++ bs "," ++ commas (map f (m' :: l)))
        by (change (commas (map f ((k, j) :: m' :: l))) with (f (k, j) ++ x2c :: commas (map f (m' :: l)));
            generalize (commas (map f (m' :: l))); intros; unfold f; cbn [fst snd]; flat).
      apply members_more; try constructor; [apply quoted_text|now apply Hj|]. apply IHl; [exact Hl|apply F].
Qed.

Theorem parse_text j : json_fine j -> parse_json (json_text j) = Some j.
Proof.
  intros F. apply parse_json_spec. exists [], (json_text j), []. rewrite app_nil_r.
  repeat split; [constructor| |constructor]. now apply json_text_value.
Qed.
