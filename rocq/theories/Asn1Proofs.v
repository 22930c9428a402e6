(** The parser of Asn1.v accepts exactly the grammar of SpecAsn1.v. *)
From Coq Require Import ZifyBool ZifyN ZifyNat.
From Verif Require Import Base BaseLemmas Asn1 SpecAsn1.
Local Open Scope N_scope.

Lemma nb_256 b : nb b < 256.
Proof. destruct b; vm_compute; reflexivity. Qed.

Lemma blen_cons (b : byte) l : blen (b :: l) = 1 + blen l.
Proof. unfold blen. cbn [length]. lia. Qed.
Lemma blen_nil : blen [] = 0.
Proof. reflexivity. Qed.

Lemma digits128_nonempty v l : digits128 v l -> l <> [].
Proof. intros []; discriminate. Qed.

(** ** The small decoders *)

Lemma base127_sound i : forall acc v r, decode_base127 acc i = Some (v, r) ->
  exists l w, i = l ++ r /\ digits128 w l /\ v = acc * 128 ^ N.of_nat (length l) + w.
Proof.
  induction i as [|b i IH]; intros acc v r; cbn [decode_base127]; [discriminate|].
  pose proof (nb_256 b) as Hb. destruct (nb b <? 128) eqn:E.
  - intros H. injection H as <- <-. exists [b], (nb b). split; [reflexivity|]. split; [constructor; lia|].
    cbn [length]. change (128 ^ N.of_nat 1) with 128. rewrite N.mod_small by lia. destruct acc; lia.
  - intros H. apply IH in H as (l & w & -> & Hl & ->).
    exists (b :: l), ((nb b - 128) * 128 ^ N.of_nat (length l) + w). split; [reflexivity|].
    split; [constructor; [lia|assumption]|]. cbn [length].
    assert (nb b mod 128 = nb b - 128) as ->.
    { replace (nb b) with (nb b - 128 + 1 * 128) at 1 by lia. rewrite N.mod_add by lia. apply N.mod_small. lia. }
    rewrite Nat2N.inj_succ, N.pow_succ_r'. lia.
Qed.

Lemma base127_complete w l : digits128 w l -> forall acc r,
  decode_base127 acc (l ++ r) = Some (acc * 128 ^ N.of_nat (length l) + w, r).
Proof.
  induction 1 as [b Hb|b w l Hb Hl IH]; intros acc r; cbn [app decode_base127].
  - assert (nb b <? 128 = true) as -> by lia. rewrite N.mod_small by lia. cbn [length].
    change (128 ^ N.of_nat 1) with 128. do 2 f_equal. lia.
  - pose proof (nb_256 b). assert (nb b <? 128 = false) as -> by lia. rewrite IH. cbn [length].
    assert (nb b mod 128 = nb b - 128) as ->.
    { replace (nb b) with (nb b - 128 + 1 * 128) at 1 by lia. rewrite N.mod_add by lia. apply N.mod_small. lia. }
    rewrite Nat2N.inj_succ, N.pow_succ_r'. do 2 f_equal. lia.
Qed.

Lemma class_universal b : (nb b <? 64) = true <-> nb b / 64 = 0.
Proof.
  split; intros H.
  - apply N.div_small. lia.
  - destruct (N.ltb_spec (nb b) 64) as [L|L]; [reflexivity|]. exfalso.
    assert (1 <= nb b / 64) by (apply N.div_le_lower_bound; lia). lia.
Qed.

Lemma tag_sound i u tag r : decode_tag i = Some (u, tag, r) ->
  exists t class, i = t ++ r /\ identifier class tag t /\ (u = true <-> class = 0).
Proof.
  destruct i as [|b i]; cbn [decode_tag]; [discriminate|].
  destruct (nb b mod 32 =? 31) eqn:E.
  - destruct (decode_base127 0 i) as [[v r']|] eqn:D; [|discriminate]. intros H. injection H as <- <- <-.
    apply base127_sound in D as (l & w & -> & Hl & ->). exists (b :: l), (nb b / 64). split; [reflexivity|].
    split; [|apply class_universal]. rewrite N.mul_0_l, N.add_0_l. constructor; [reflexivity|lia|assumption].
  - intros H. injection H as <- <- <-. exists [b], (nb b / 64). split; [reflexivity|].
    split; [|apply class_universal]. constructor; [reflexivity|].
    pose proof (N.mod_upper_bound (nb b) 32). lia.
Qed.

Lemma tag_complete class tag t : identifier class tag t -> forall r,
  decode_tag (t ++ r) = Some (class =? 0, tag, r).
Proof.
  assert (forall b, (nb b <? 64) = (nb b / 64 =? 0)) as Hc.
  { intros b. pose proof (class_universal b). destruct (nb b <? 64) eqn:E, (nb b / 64 =? 0) eqn:F; try reflexivity; exfalso.
    - destruct H as [H _]. specialize (H eq_refl). lia.
    - assert (nb b / 64 = 0) as Z by lia. apply H in Z. discriminate. }
  intros [b c -> Hb|b c v l -> Hb Hl] r; cbn [app decode_tag].
  - assert (nb b mod 32 =? 31 = false) as -> by lia. now rewrite Hc.
  - assert (nb b mod 32 =? 31 = true) as -> by lia. rewrite (base127_complete _ _ Hl), Hc.
    now rewrite N.mul_0_l, N.add_0_l.
Qed.

Lemma read_len_sound k : forall acc i v r, read_len k acc i = Some (v, r) ->
  exists l, i = l ++ r /\ length l = k /\ v = acc * 256 ^ N.of_nat k + be256 l.
Proof.
  induction k as [|k IH]; intros acc i v r; cbn [read_len].
  - intros H. injection H as <- <-. exists []. split; [reflexivity|]. split; [reflexivity|]. cbn. lia.
  - destruct i as [|b i]; [discriminate|]. intros H. apply IH in H as (l & -> & Hk & ->).
    exists (b :: l). split; [reflexivity|]. split; [cbn; lia|]. cbn [be256]. rewrite Hk, Nat2N.inj_succ, N.pow_succ_r'. lia.
Qed.

Lemma read_len_complete l : forall acc r, read_len (length l) acc (l ++ r) = Some (acc * 256 ^ N.of_nat (length l) + be256 l, r).
Proof.
  induction l as [|b l IH]; intros acc r; cbn [length app read_len be256].
  - f_equal. f_equal. cbn. lia.
  - rewrite IH, Nat2N.inj_succ, N.pow_succ_r'. do 2 f_equal. lia.
Qed.

Lemma length_sound i n r : decode_length i = Ok (n, r) -> exists l, i = l ++ r /\ length_octets n l.
Proof.
  destruct i as [|b i]; cbn [decode_length]; [discriminate|]. pose proof (nb_256 b) as Hb.
  destruct (128 <=? nb b) eqn:E.
  - destruct (4 <? nb b mod 128) eqn:F; [discriminate|].
    destruct (read_len _ 0 i) as [[v r']|] eqn:R; [|discriminate]. intros H. injection H as <- <-.
    apply read_len_sound in R as (l & -> & Hl & ->). exists (b :: l). split; [reflexivity|].
    rewrite N.mul_0_l, N.add_0_l.
    assert (nb b mod 128 = nb b - 128) as Em.
    { replace (nb b) with (nb b - 128 + 1 * 128) at 1 by lia. rewrite N.mod_add by lia. apply N.mod_small. lia. }
    constructor; unfold blen; lia.
  - intros H. injection H as <- <-. exists [b]. split; [reflexivity|]. constructor. lia.
Qed.

Lemma length_complete n l : length_octets n l -> forall r, decode_length (l ++ r) = Ok (n, r).
Proof.
  intros [b Hb|b l' Hb Hl] r; cbn [app decode_length].
  - now assert (128 <=? nb b = false) as -> by lia.
  - assert (128 <=? nb b = true) as -> by lia.
    assert (nb b mod 128 = blen l') as ->.
    { rewrite Hb. replace (128 + blen l') with (blen l' + 1 * 128) by lia. rewrite N.mod_add by lia. apply N.mod_small. lia. }
    assert (4 <? blen l' = false) as -> by lia. unfold blen. rewrite Nat2N.id, read_len_complete.
    now rewrite N.mul_0_l, N.add_0_l.
Qed.

Lemma oid_sound fuel : forall i, (length i <= fuel)%nat -> decode_oid_rest fuel i = None ->
  exists arcs, i = concat arcs /\ Forall (fun a => exists v, digits128 v a) arcs.
Proof.
  induction fuel as [|f IH]; intros i Hi; cbn [decode_oid_rest].
  - destruct i; [|cbn in Hi; lia]. intros _. exists []. split; [reflexivity|constructor].
  - destruct i as [|b i]; [intros _; exists []; split; [reflexivity|constructor]|].
    destruct (decode_base127 0 (b :: i)) as [[v r]|] eqn:D; [|discriminate].
    apply base127_sound in D as (l & w & E & Hl & _). intros H. pose proof (digits128_nonempty _ _ Hl) as Hn.
    assert (length r <= f)%nat as Hr.
    { apply (f_equal (@length byte)) in E. rewrite app_length in E. destruct l; [contradiction|]. cbn in E, Hi. lia. }
    apply (IH r Hr) in H as (arcs & Er & HF). exists (l :: arcs). split; [rewrite E, Er; reflexivity|].
    constructor; [eauto|assumption].
Qed.

Lemma oid_complete arcs : Forall (fun a => exists v, digits128 v a) arcs ->
  forall fuel, decode_oid_rest fuel (concat arcs) = None.
Proof.
  induction 1 as [|a arcs [v Ha] HF IH]; intros [|f]; try reflexivity. cbn [concat decode_oid_rest].
  rewrite (base127_complete _ _ Ha). rewrite IH. now destruct (a ++ concat arcs).
Qed.

Section parser.
Variable leaf : N -> bytes -> bool.
Notation ok := (fun tag l => leaf tag l = true).

Lemma leaf_tags_in tag : existsb (N.eqb tag) leaf_tags = true <-> In tag [12; 19; 20; 22; 23; 24; 28; 30].
Proof.
  rewrite existsb_exists. unfold leaf_tags. split.
  - intros (x & Hx & E). apply N.eqb_eq in E as ->. exact Hx.
  - intros H. exists tag. split; [exact H|apply N.eqb_refl].
Qed.

Lemma primitive_sound tag body : tag <> 16 -> tag <> 17 -> primitive_error leaf tag body = None -> contents ok tag body.
Proof.
  intros N16 N17. unfold primitive_error.
  destruct (tag =? 1) eqn:E1.
  { assert (tag = 1) as -> by lia. destruct (blen body =? 1) eqn:El; [|discriminate]. intros _.
    apply N.eqb_eq in El. unfold blen in El.
    destruct body as [|b [|]]; cbn [length] in El; try (exfalso; lia). constructor. }
  destruct (tag =? 3) eqn:E3.
  { assert (tag = 3) as -> by lia. destruct body as [|b l]; [constructor|]. destruct (8 * blen l <? nb b) eqn:El; [discriminate|].
    intros _. constructor. lia. }
  destruct (tag =? 6) eqn:E6.
  { assert (tag = 6) as -> by lia. destruct body as [|b l]; [discriminate|]. intros H.
    apply oid_sound in H as (arcs & -> & HF); [|lia]. now constructor. }
  destruct (existsb (N.eqb tag) leaf_tags) eqn:Ex.
  { destruct (leaf tag body) eqn:El; [|discriminate]. intros _. apply c_leaf; [now apply leaf_tags_in|exact El]. }
  intros _. apply c_other. intros Hin.
  assert (~ In tag [12; 19; 20; 22; 23; 24; 28; 30]) as Hn by (intros H; apply leaf_tags_in in H; congruence).
  cbn in Hin, Hn. intuition lia.
Qed.

Lemma primitive_complete tag body : contents ok tag body -> primitive_error leaf tag body = None.
Proof.
  unfold primitive_error. intros [b| |b l H|b arcs H|t l Hin H|t l Hin].
  - reflexivity.
  - reflexivity.
  - cbn [N.eqb]. change (3 =? 1) with false. change (3 =? 3) with true. cbn iota.
    now assert (8 * blen l <? nb b = false) as -> by lia.
  - change (6 =? 1) with false. change (6 =? 3) with false. change (6 =? 6) with true. cbn iota. now apply oid_complete.
  - apply leaf_tags_in in Hin as Ex. rewrite Ex, H. cbn in Hin.
    destruct (t =? 1) eqn:E1; [exfalso; lia|]. destruct (t =? 3) eqn:E3; [exfalso; lia|].
    destruct (t =? 6) eqn:E6; [exfalso; lia|]. reflexivity.
  - destruct (t =? 1) eqn:E1; [exfalso; apply Hin; cbn; lia|]. destruct (t =? 3) eqn:E3; [exfalso; apply Hin; cbn; lia|].
    destruct (t =? 6) eqn:E6; [exfalso; apply Hin; cbn; lia|].
    destruct (existsb (N.eqb t) leaf_tags) eqn:Ex; [|reflexivity].
    apply leaf_tags_in in Ex. exfalso. apply Hin. cbn in *. intuition auto.
Qed.

Lemma identifier_nonempty class tag t : identifier class tag t -> t <> [].
Proof. intros []; discriminate. Qed.

Lemma from_der_sound fuel : forall index i some, from_der_ leaf fuel index i some = None ->
  (i = [] /\ some = true) \/ elements ok i.
Proof.
  induction fuel as [|f IH]; intros index i some; cbn [from_der_]; [discriminate|].
  destruct i as [|b0 i0]; [destruct some; [now left|discriminate]|]. set (i := b0 :: i0).
  destruct (decode_tag i) as [[[u tag] r]|] eqn:Dt; [|discriminate].
  destruct (decode_length r) as [[n r']|e] eqn:Dl; [|discriminate].
  destruct (usize32 <=? _) eqn:Eu; [discriminate|]. destruct (blen r' <? n) eqn:En; [discriminate|].
  intros H. right.
  apply tag_sound in Dt as (t & class & Ei & Ht & Hu). apply length_sound in Dl as (l & Er & Hl).
  set (c := take (N.to_nat n) r') in *. set (rest := drop (N.to_nat n) r') in *.
  assert (r' = c ++ rest) as Ec by (symmetry; apply take_drop).
  assert (n = blen c) as Hn. { unfold c, blen in *. rewrite take_length. lia. }
  destruct (if negb u then None else _) as [e|] eqn:Eb; [discriminate|].
  assert (element ok (t ++ l ++ c)) as He.
  { destruct u; cbn [negb] in Eb.
    - assert (class = 0) as -> by now apply Hu. destruct ((tag =? 16) || (tag =? 17)) eqn:Es.
      + eapply e_constructed; [|exact Ht|now rewrite <- Hn|]; [lia|].
        apply IH in Eb as [[_ ?]|?]; [discriminate|assumption].
      + eapply e_simple; [exact Ht|now rewrite <- Hn|]. apply primitive_sound; [lia|lia|assumption].
    - eapply e_private; [|exact Ht|now rewrite <- Hn]. intros ->. destruct Hu as [_ Hu]. now specialize (Hu eq_refl). }
  apply IH in H. rewrite Ei, Er, Ec.
  destruct H as [[Hr _]|H].
  - rewrite Hr, app_nil_r. now apply e_one.
  - replace (t ++ l ++ c ++ rest) with ((t ++ l ++ c) ++ rest) by now rewrite <- !app_assoc. now apply e_cons.
Qed.

Lemma from_der_block f index t n c rest class tag some : identifier class tag t -> length_octets (blen c) n ->
  index + blen (t ++ n ++ c ++ rest) < usize32 ->
  from_der_ leaf (S f) index (t ++ n ++ c ++ rest) some =
  match (if negb (class =? 0) then None
         else if (tag =? 16) || (tag =? 17) then from_der_ leaf f 0 c false else primitive_error leaf tag c) with
  | Some e => Some e
  | None => from_der_ leaf f (index + blen (t ++ n ++ c)) rest true
  end.
Proof.
  intros Ht Hn Hs. pose proof (identifier_nonempty _ _ _ Ht) as Hne. cbn [from_der_].
  destruct (t ++ n ++ c ++ rest) as [|b0 i0] eqn:Ei.
  { destruct t; [contradiction|discriminate]. }
  rewrite <- Ei. rewrite (tag_complete _ _ _ Ht), (length_complete _ _ Hn).
  assert (index + (blen (t ++ n ++ c ++ rest) - blen (c ++ rest)) + blen c = index + blen (t ++ n ++ c)) as Ep.
  { unfold blen. rewrite !app_length. lia. }
  rewrite Ep. rewrite <- Ei in Hs.
  assert (usize32 <=? index + blen (t ++ n ++ c) = false) as -> by (unfold blen in *; rewrite !app_length in *; lia).
  assert (blen (c ++ rest) <? blen c = false) as -> by (unfold blen; rewrite app_length; lia).
  replace (N.to_nat (blen c)) with (length c) by (unfold blen; lia). now rewrite take_app, drop_app.
Qed.

Lemma from_der_complete fuel : forall index i some,
  elements ok i -> (length i < fuel)%nat -> index + blen i < usize32 -> from_der_ leaf fuel index i some = None.
Proof.
  induction fuel as [|f IH]; intros index i some Hi Hf Hs; [lia|].
  assert (exists x rest, i = x ++ rest /\ element ok x /\ (rest = [] \/ elements ok rest)) as (x & rest & -> & Hx & Hr).
  { destruct Hi as [x Hx|x l Hx Hl]; [exists x, []; rewrite app_nil_r; auto|exists x, l; auto]. }
  assert (exists class tag t n c, x = t ++ n ++ c /\ identifier class tag t /\ length_octets (blen c) n /\
    (class <> 0 \/ class = 0 /\ contents ok tag c \/ class = 0 /\ (tag = 16 \/ tag = 17) /\ elements ok c))
    as (class & tag & t & n & c & -> & Ht & Hn & Hc).
  { destruct Hx as [class tag t n c ? ? ?|tag t n c ? ? ?|tag t n c ? ? ? ?].
    - exists class, tag, t, n, c. auto.
    - exists 0, tag, t, n, c. do 3 (split; [first [reflexivity|assumption]|]). right. left. split; [reflexivity|assumption].
    - exists 0, tag, t, n, c. do 3 (split; [first [reflexivity|assumption]|]). right. right.
      split; [reflexivity|]. split; assumption. }
  rewrite <- !app_assoc in *. pose proof (identifier_nonempty _ _ _ Ht) as Hne.
  assert (length t <> 0)%nat as Hlt by (destruct t; [contradiction|cbn; lia]).
  rewrite (from_der_block f index t n c rest class tag some Ht Hn Hs).
  unfold blen in Hs. rewrite !app_length in Hf, Hs.
  assert ((if negb (class =? 0) then None
           else if (tag =? 16) || (tag =? 17) then from_der_ leaf f 0 c false else primitive_error leaf tag c) = None) as ->.
  { destruct Hc as [Hc|[[-> Hc]|[-> [Htag Hc]]]].
    - now assert (class =? 0 = false) as -> by lia.
    - cbn [N.eqb negb]. assert ((tag =? 16) || (tag =? 17) = false) as ->.
      { destruct ((tag =? 16) || (tag =? 17)) eqn:E; [|reflexivity]. exfalso.
        destruct Hc as [| | | |tg l Hin _|tg l Hin]; try discriminate; cbn in Hin; lia. }
      now apply primitive_complete.
    - cbn [N.eqb negb]. assert ((tag =? 16) || (tag =? 17) = true) as -> by lia.
      apply IH; [assumption|lia|unfold blen; lia]. }
  destruct Hr as [->|Hr].
  - destruct f; [lia|]. reflexivity.
  - apply IH; [assumption|lia|]. unfold blen. rewrite !app_length. lia.
Qed.

Lemma from_der_iff i : blen i < usize32 -> from_der leaf i = None <-> elements ok i.
Proof.
  intros Hs. unfold from_der. split; intros H.
  - apply from_der_sound in H as [[_ H]|H]; [discriminate|assumption].
  - apply from_der_complete; [assumption|lia|lia].
Qed.
End parser.
