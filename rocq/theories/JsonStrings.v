(** Strings and numbers of JSON. *)
From Coq Require Import Strings.String ZifyBool ZifyN ZifyNat.
From Verif Require Import Base BaseLemmas Hex Json SpecJson.
Local Open Scope N_scope.
Ltac Zify.zify_post_hook ::= Z.to_euclidean_division_equations.

Lemma hex_value c v : hex_val c = Some v <-> hex_digit_value c v.
Proof.
  unfold hex_val, hex_digit_value. pose proof (nb_lt c).
  destruct ((65 <=? nb c) && (nb c <=? 70)) eqn:A; [split; [intros [= <-]; lia|intros; f_equal; lia]|].
  destruct ((97 <=? nb c) && (nb c <=? 102)) eqn:B; [split; [intros [= <-]; lia|intros; f_equal; lia]|].
  destruct ((48 <=? nb c) && (nb c <=? 57)) eqn:C; [split; [intros [= <-]; lia|intros; f_equal; lia]|].
  split; [discriminate|lia].
Qed.
Lemma hex_small c v : hex_digit_value c v -> v < 16.
Proof. unfold hex_digit_value. lia. Qed.

Definition unit_text (u : N) (t : bytes) : Prop :=
  exists a b c d, t = [x5c; x75; a; b; c; d] /\ hex4 a b c d = Some u.

Lemma hex4_spec a b c d u : hex4 a b c d = Some u <->
  exists va vb vc vd, hex_digit_value a va /\ hex_digit_value b vb /\ hex_digit_value c vc /\ hex_digit_value d vd /\
    u = va * 16 ^ 3 + vb * 16 ^ 2 + vc * 16 + vd.
Proof.
  change (16 ^ 3) with 4096. change (16 ^ 2) with 256. unfold hex4. split.
  - destruct (hex_val a) as [va|] eqn:A; [|discriminate]. destruct (hex_val b) as [vb|] eqn:B; [|discriminate].
    destruct (hex_val c) as [vc|] eqn:C; [|discriminate]. destruct (hex_val d) as [vd|] eqn:E; [|discriminate].
    intros H. apply (inj Some) in H as <-. exists va, vb, vc, vd. rewrite <- !hex_value. repeat split; auto. lia.
  - intros (va & vb & vc & vd & A & B & C & E & ->). apply hex_value in A, B, C, E. rewrite A, B, C, E. f_equal. lia.
Qed.
Lemma hex4_small a b c d u : hex4 a b c d = Some u -> u < 65536.
Proof.
  intros H. apply hex4_spec in H as (va & vb & vc & vd & A & B & C & E & ->). apply hex_small in A, B, C, E.
  change (16 ^ 3) with 4096. change (16 ^ 2) with 256. lia.
Qed.

Lemma unit_item u t : item_text (Unit_ u) t <-> unit_text u t.
Proof.
  split.
  - intros H. inversion H; subst. exists a, b, c, d. split; [reflexivity|]. apply hex4_spec. eauto 10.
  - intros (a & b & c & d & -> & H). apply hex4_spec in H as (va & vb & vc & vd & A & B & C & E & ->).
    now constructor.
Qed.
Lemma unit_small u t : item_text (Unit_ u) t -> u < 65536.
Proof. intros H. apply unit_item in H as (a & b & c & d & _ & H). now apply hex4_small in H. Qed.

Lemma char_bytes_spec u : char_bytes u = utf8_of u.
Proof.
  unfold char_bytes, utf8_of. change (2 ^ 11) with 2048. change (2 ^ 6) with 64. change (2 ^ 16) with 65536.
  change (2 ^ 12) with 4096. change (2 ^ 18) with 262144. cbn [more_bytes app].
  repeat rewrite N.div_div by lia. reflexivity.
Qed.

Lemma halves u v : u < 65536 -> v < 65536 ->
  high_half u && low_half v = (u / 1024 =? 54) && (v / 1024 =? 55).
Proof. unfold high_half, low_half. lia. Qed.
Lemma pair_value u v : u < 65536 -> v < 65536 -> high_half u && low_half v = true ->
  65536 + 1024 * (u - 55296) + (v - 56320) = 65536 + 1024 * (u mod 1024) + v mod 1024.
Proof. unfold high_half, low_half. lia. Qed.

Lemma short_spec e v : short_escape e = Some v <->
  exists e' v', e = u8 e' /\ v = u8 v' /\
    In (e', v') [(34, 34); (92, 92); (47, 47); (98, 8); (102, 12); (110, 10); (114, 13); (116, 9)].
Proof.
  split.
  - intros H. exists (nb e), (nb v). rewrite !u8_nb. repeat split.
    destruct e; try discriminate H; injection H as <-; cbn; tauto.
  - intros (e' & v' & -> & -> & H). cbn [In] in H. repeat (destruct H as [[= <- <-]|H]; [reflexivity|]). destruct H.
Qed.

(** ** Strings *)

Lemma prepend_inv p x s r : prepend p x = Some (s, r) -> exists s', x = Some (s', r) /\ s = p ++ s'.
Proof. destruct x as [[s' r']|]; [|discriminate]. cbn [prepend]. intros H. apply (inj Some) in H. apply pair_equal_spec in H as [<- <-]. eauto. Qed.

Definition row (items : list item) (l : bytes) : Prop :=
  exists texts, Forall2 item_text items texts /\ l = concat texts.

Lemma row_nil : row [] [].
Proof. exists []. split; [constructor|reflexivity]. Qed.
Lemma row_cons i t items l : item_text i t -> row items l -> row (i :: items) (t ++ l).
Proof. intros H (ts & F & ->). exists (t :: ts). split; [now constructor|reflexivity]. Qed.
Lemma row_inv items l : row items l ->
  (items = [] /\ l = []) \/ exists i t items' l', items = i :: items' /\ l = t ++ l' /\ item_text i t /\ row items' l'.
Proof.
  intros (ts & F & ->). inversion F; subst; [now left|]. right. do 4 eexists. repeat split; eauto. eexists. eauto.
Qed.

(** A code unit not followed by its other half. *)
Lemma unit_alone u items : (forall v r, items = Unit_ v :: r -> (u / 1024 =? 54) && (v / 1024 =? 55) = false) ->
  items_value (Unit_ u :: items) = utf8_of u ++ items_value items.
Proof.
  intros H. cbn [items_value]. destruct items as [|[c|v] r]; [reflexivity|reflexivity|].
  now rewrite (H _ _ eq_refl).
Qed.

Lemma read_string_sound l : forall s r, read_string l = Some (s, r) ->
  exists items t, row items t /\ l = t ++ x22 :: r /\ s = items_value items.
Proof.
  remember (length l) as n eqn:En. revert l En. induction n as [n IH] using (well_founded_induction lt_wf).
  intros [|c l] En s r H; [discriminate|]. cbn [read_string] in H.
  destruct (Byte.eqb c x22) eqn:E1.
  { apply byte_eqb_spec in E1 as ->. injection H as <- <-. exists [], []. split; [apply row_nil|auto]. }
  destruct (Byte.eqb c x5c) eqn:E2.
  - apply byte_eqb_spec in E2 as ->. destruct l as [|e l]; [discriminate|].
    destruct (Byte.eqb e x75) eqn:E3.
    + apply byte_eqb_spec in E3 as ->. destruct l as [|a [|b [|c [|d l]]]]; try discriminate.
      destruct (hex4 a b c d) as [u|] eqn:Hu; [|discriminate].
      assert (item_text (Unit_ u) [x5c; x75; a; b; c; d]) as Iu by (apply unit_item; exists a, b, c, d; auto).
      pose proof (unit_small _ _ Iu) as Su.
      assert (forall s', read_string l = Some (s', r) ->
        (forall a' b' c' d' v l', l = x5c :: x75 :: a' :: b' :: c' :: d' :: l' -> hex4 a' b' c' d' = Some v ->
           (u / 1024 =? 54) && (v / 1024 =? 55) = false) ->
        exists items t, row items t /\ x5c :: x75 :: a :: b :: c :: d :: l = t ++ x22 :: r /\
          char_bytes u ++ s' = items_value items) as Alone.
      { intros s' Hs Hn. apply (IH (length l)) in Hs as (items & t & R & -> & ->); [|cbn in En; lia|reflexivity].
        exists (Unit_ u :: items), ([x5c; x75; a; b; c; d] ++ t). split; [now apply row_cons|]. split; [reflexivity|].
        rewrite unit_alone, char_bytes_spec; [reflexivity|]. intros v its ->.
        apply row_inv in R as [[? _]|(i & ti & its' & l' & [= <- <-] & -> & Ii & R)]; [discriminate|].
        apply unit_item in Ii as (a' & b' & c' & d' & -> & Hv). eapply Hn; [|exact Hv]. reflexivity. }
      destruct l as [|c1 [|e1 [|a' [|b' [|c' [|d' l']]]]]];
        try (apply prepend_inv in H as (s' & Hs & ->); apply Alone; [exact Hs|]; intros * El; discriminate El).
      destruct (hex4 a' b' c' d') as [v|] eqn:Hv.
      2: { apply prepend_inv in H as (s' & Hs & ->). apply Alone; [exact Hs|]. intros a0 b0 c0 d0 v0 l0 El Ev. injection El as ? ? ? ? ? ? ?. congruence. }
      destruct (Byte.eqb c1 x5c && Byte.eqb e1 x75 && high_half u && low_half v) eqn:Q.
      2: { apply prepend_inv in H as (s' & Hs & ->). apply Alone; [exact Hs|]. intros a0 b0 c0 d0 v0 l0 El Ev. injection El as ? ? ? ? ? ? ?. subst c1 e1 a0 b0 c0 d0 l0.
           assert (v0 = v) as -> by congruence. rewrite !byte_eqb_refl in Q. cbn [andb] in Q.
           rewrite <- halves; [exact Q|exact Su|]. now apply hex4_small in Hv. }
      apply andb_prop in Q as [Q Ql]. apply andb_prop in Q as [Q Qh]. apply andb_prop in Q as [Q1 Q2].
      apply byte_eqb_spec in Q1 as ->, Q2 as ->.
      apply prepend_inv in H as (s' & Hs & ->).
      apply (IH (length l')) in Hs as (items & t & R & -> & ->); [|cbn in En; lia|reflexivity].
      assert (item_text (Unit_ v) [x5c; x75; a'; b'; c'; d']) as Iv by (apply unit_item; exists a', b', c', d'; auto).
      pose proof (unit_small _ _ Iv) as Sv.
      exists (Unit_ u :: Unit_ v :: items), ([x5c; x75; a; b; c; d] ++ [x5c; x75; a'; b'; c'; d'] ++ t).
      split; [apply row_cons; [exact Iu|]; apply row_cons; [exact Iv|exact R]|]. split; [reflexivity|]. cbn [items_value].
      rewrite <- halves, pair_value, char_bytes_spec by (assumption || (rewrite Qh, Ql; reflexivity)).
      rewrite Qh, Ql. reflexivity.
    + destruct (short_escape e) as [c|] eqn:Hc; [|discriminate].
      apply prepend_inv in H as (s' & Hs & ->).
      apply (IH (length l)) in Hs as (items & t & R & -> & ->); [|cbn in En; lia|reflexivity].
      apply short_spec in Hc as (e' & v' & -> & -> & Hc).
      exists (Byte_ (u8 v') :: items), ([u8 92; u8 e'] ++ t). split; [apply row_cons; [now constructor|exact R]|].
      split; reflexivity.
  - destruct (nb c <? 32) eqn:E3; [discriminate|].
    apply prepend_inv in H as (s' & Hs & ->).
    apply (IH (length l)) in Hs as (items & t & R & -> & ->); [|cbn in En; lia|reflexivity].
    exists (Byte_ c :: items), ([c] ++ t). split; [|split; reflexivity]. apply row_cons; [|exact R].
    apply byte_eqb_neq in E1, E2. constructor; [lia| |].
    + intros E. apply E1, nb_inj, E.
    + intros E. apply E2, nb_inj, E.
Qed.

Lemma read_string_complete items : forall t r, row items t -> read_string (t ++ x22 :: r) = Some (items_value items, r).
Proof.
  remember (length items) as n eqn:En. revert items En. induction n as [n IH] using (well_founded_induction lt_wf).
  intros items En t r R. apply row_inv in R as [[-> ->]|(i & t1 & its & t2 & -> & -> & I & R)]; [reflexivity|].
  assert (read_string (t2 ++ x22 :: r) = Some (items_value its, r)) as Rest.
  { apply (IH (length its)); [cbn in En; lia|reflexivity|exact R]. }
  destruct i as [c|u].
  - inversion I as [c' H1 H2 H3|e v He|]; subst; cbn [app].
    + cbn [read_string].
      assert (Byte.eqb c x22 = false) as -> by (apply byte_eqb_neq; intros ->; now apply H2).
      assert (Byte.eqb c x5c = false) as -> by (apply byte_eqb_neq; intros ->; now apply H3).
      assert (nb c <? 32 = false) as -> by lia. rewrite Rest. reflexivity.
    + assert (short_escape (u8 e) = Some (u8 v)) as Hs by (apply short_spec; eauto).
      change (u8 92) with x5c. cbn [read_string].
      change (Byte.eqb x5c x22) with false. change (Byte.eqb x5c x5c) with true. cbn iota beta.
      assert (Byte.eqb (u8 e) x75 = false) as ->.
      { apply byte_eqb_neq. intros E. rewrite E in Hs. discriminate. }
      rewrite Hs, Rest. reflexivity.
  - pose proof (unit_small _ _ I) as Su. apply unit_item in I as (a & b & c & d & -> & Hu). cbn [app].
    cbn [read_string]. change (Byte.eqb x5c x22) with false. change (Byte.eqb x5c x5c) with true.
    change (Byte.eqb x75 x75) with true. cbn iota beta. rewrite Hu.
    remember (t2 ++ x22 :: r) as l eqn:Dl.
    assert (forall v its', its = Unit_ v :: its' -> exists a' b' c' d' t3, l = x5c :: x75 :: a' :: b' :: c' :: d' :: t3 ++ x22 :: r /\
       hex4 a' b' c' d' = Some v /\ row its' t3) as Next.
    { intros v its' ->. apply row_inv in R as [[? _]|(i & ti & its'' & l' & [= <- <-] & -> & Ii & R)]; [discriminate|].
      apply unit_item in Ii as (a' & b' & c' & d' & -> & Hv). exists a', b', c', d', l'. subst l. auto. }
    assert ((exists v its', its = Unit_ v :: its' /\ (u / 1024 =? 54) && (v / 1024 =? 55) = true) \/
            (forall v its', its = Unit_ v :: its' -> (u / 1024 =? 54) && (v / 1024 =? 55) = false)) as [(v & its' & -> & Q)|Q].
    { destruct its as [|[c'|v] its']; [right; discriminate|right; discriminate|].
      destruct ((u / 1024 =? 54) && (v / 1024 =? 55)) eqn:Q; [left; eauto|right; now intros ? ? [= <- <-]]. }
    + destruct (Next _ _ eq_refl) as (a' & b' & c' & d' & t3 & El & Hv & R3). rewrite El, Hv.
      change (Byte.eqb x5c x5c) with true. change (Byte.eqb x75 x75) with true. cbn [andb].
      assert (high_half u && low_half v = true) as Q' by (rewrite halves; [exact Q|exact Su|now apply hex4_small in Hv]).
      rewrite Q', pair_value, char_bytes_spec; [|exact Su|now apply hex4_small in Hv|exact Q'].
      rewrite (IH (length its') ltac:(cbn in En; lia) its' eq_refl t3 r R3). cbn [items_value prepend]. rewrite Q. reflexivity.
    + rewrite unit_alone by exact Q. rewrite <- char_bytes_spec.
      assert (prepend (char_bytes u) (read_string l) = Some (char_bytes u ++ items_value its, r)) as F by (rewrite Rest; reflexivity).
      destruct l as [|c1 [|e1 [|a' [|b' [|c' [|d' l']]]]]]; try exact F. symmetry in Dl. rename Dl into El.
      destruct (hex4 a' b' c' d') as [v|] eqn:Hv; [|exact F].
      destruct (Byte.eqb c1 x5c && Byte.eqb e1 x75 && high_half u && low_half v) eqn:Z; [|exact F].
      exfalso. apply andb_prop in Z as [Z Zl]. apply andb_prop in Z as [Z Zh]. apply andb_prop in Z as [Z1 Z2].
      apply byte_eqb_spec in Z1 as ->, Z2 as ->.
      apply row_inv in R as [[-> ->]|(i & ti & its' & l2 & -> & -> & Ii & R)]; [discriminate El|].
      assert (i = Unit_ v) as ->.
      { inversion Ii as [c2 ? ? N92|e v' He|]; subst; cbn [app] in El.
        - injection El as -> _. now destruct N92.
        - exfalso. injection El as E _.
          assert (short_escape (u8 e) = Some (u8 v')) as Hs by (apply short_spec; eauto). rewrite E in Hs. discriminate.
        - injection El as -> -> -> -> _. f_equal.
          assert (hex4 a' b' c' d' = Some (va * 16 ^ 3 + vb * 16 ^ 2 + vc * 16 + vd)) as Hv' by (apply hex4_spec; eauto 10).
          congruence. }
      specialize (Q _ _ eq_refl). rewrite <- halves in Q; [|exact Su|now apply hex4_small in Hv]. rewrite Zh, Zl in Q. discriminate.
Qed.

Lemma string_text_row t s : string_text t s <-> exists items l, row items l /\ t = x22 :: l ++ [x22] /\ s = items_value items.
Proof.
  split.
  - intros (items & ts & F & -> & ->). exists items, (concat ts). repeat split. exists ts. auto.
  - intros (items & l & (ts & F & ->) & -> & ->). exists items, ts. auto.
Qed.
