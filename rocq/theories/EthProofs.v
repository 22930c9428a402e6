(** Lemmas about Hex and Eth. *)
From Coq Require Import Strings.String.
From Coq Require Import ZifyBool ZifyN ZifyNat.
From Verif Require Import Base BaseLemmas Deps Hex Eth SpecEth.
Local Open Scope N_scope.

Ltac Zify.zify_post_hook ::= Z.to_euclidean_division_equations.

(** ** Hex *)

Lemma nb_hex_digit h : h < 16 -> nb (hex_digit h) = if h <? 10 then 48 + h else 87 + h.
Proof. intros H. unfold hex_digit. destruct (h <? 10) eqn:E; rewrite nb_u8; lia. Qed.

Lemma nb_to_lower c :
  nb (to_lower c) = if (65 <=? nb c) && (nb c <=? 90) then nb c + 32 else nb c.
Proof.
  unfold to_lower. pose proof (nb_lt c).
  destruct ((65 <=? nb c) && (nb c <=? 90)) eqn:E; [|reflexivity].
  rewrite nb_u8. lia.
Qed.

Lemma nb_to_upper c :
  nb (to_upper c) = if (97 <=? nb c) && (nb c <=? 122) then nb c - 32 else nb c.
Proof.
  unfold to_upper. pose proof (nb_lt c).
  destruct ((97 <=? nb c) && (nb c <=? 122)) eqn:E; [|reflexivity].
  rewrite nb_u8. lia.
Qed.

Lemma hex_val_spec c h : hex_val c = Some h <-> h < 16 /\ to_lower c = hex_digit h.
Proof.
  unfold hex_val. split.
  - intros H. assert (h < 16) as Hh.
    { destruct ((65 <=? nb c) && (nb c <=? 70)) eqn:E1; [injection H; lia|].
      destruct ((97 <=? nb c) && (nb c <=? 102)) eqn:E2; [injection H; lia|].
      destruct ((48 <=? nb c) && (nb c <=? 57)) eqn:E3; [injection H; lia|discriminate]. }
    split; [assumption|]. apply nb_inj. rewrite nb_to_lower, nb_hex_digit by assumption.
    destruct ((65 <=? nb c) && (nb c <=? 70)) eqn:E1; [injection H as <-|].
    { destruct (_ <? 10) eqn:?; destruct ((65 <=? nb c) && (nb c <=? 90)) eqn:?; lia. }
    destruct ((97 <=? nb c) && (nb c <=? 102)) eqn:E2; [injection H as <-|].
    { destruct (_ <? 10) eqn:?; destruct ((65 <=? nb c) && (nb c <=? 90)) eqn:?; lia. }
    destruct ((48 <=? nb c) && (nb c <=? 57)) eqn:E3; [injection H as <-|discriminate].
    destruct (_ <? 10) eqn:?; destruct ((65 <=? nb c) && (nb c <=? 90)) eqn:?; lia.
  - intros [Hh H]. apply (f_equal nb) in H. rewrite nb_to_lower, nb_hex_digit in H by assumption.
    destruct ((65 <=? nb c) && (nb c <=? 70)) eqn:E1;
      [|destruct ((97 <=? nb c) && (nb c <=? 102)) eqn:E2;
        [|destruct ((48 <=? nb c) && (nb c <=? 57)) eqn:E3]].
    all: destruct (h <? 10) eqn:E; destruct ((65 <=? nb c) && (nb c <=? 90)) eqn:E0;
      first [exfalso; lia | f_equal; lia].
Qed.

Lemma hex_digit_inj a b : a < 16 -> b < 16 -> hex_digit a = hex_digit b -> a = b.
Proof.
  intros Ha Hb H. apply (f_equal nb) in H. rewrite !nb_hex_digit in H by assumption.
  destruct (a <? 10) eqn:?; destruct (b <? 10) eqn:?; lia.
Qed.

Lemma to_lower_hex_digit h : h < 16 -> to_lower (hex_digit h) = hex_digit h.
Proof.
  intros H. apply nb_inj. rewrite nb_to_lower, nb_hex_digit by assumption.
  destruct (h <? 10) eqn:?; destruct ((65 <=? _) && _) eqn:?; lia.
Qed.

Lemma hex_encode_cons b l :
  hex_encode (b :: l) = hex_digit (nb b / 16) :: hex_digit (nb b mod 16) :: hex_encode l.
Proof. reflexivity. Qed.

Lemma hex_encode_length l : length (hex_encode l) = (2 * length l)%nat.
Proof.
  induction l as [|b l IH]; [reflexivity|]. rewrite hex_encode_cons. cbn [length]. lia.
Qed.

Lemma hex_pairs_ok i t b :
  Nat.even (length t) = true ->
  (hex_pairs i t = Ok b <-> map to_lower t = hex_encode b).
Proof.
  remember (length t) as n eqn:Hn. revert i t b Hn.
  induction (lt_wf n) as [n _ IH]. intros i t b Hn He.
  destruct t as [|c1 [|c2 t]].
  - simpl. destruct b; simpl; split; congruence.
  - subst n. discriminate.
  - simpl in Hn. assert (Nat.even (length t) = true) as He' by (subst n; exact He).
    cbn [hex_pairs]. split.
    + destruct (hex_val c1) as [h|] eqn:E1; [|discriminate].
      destruct (hex_val c2) as [l|] eqn:E2; [|discriminate].
      destruct (hex_pairs (i + 2) t) as [r|] eqn:E3; [|discriminate].
      intros H. assert (b = u8 (16 * h + l) :: r) as -> by congruence. clear H.
      apply (IH (length t)) in E3; [|lia|reflexivity|assumption].
      apply hex_val_spec in E1 as [Hh E1], E2 as [Hl E2].
      rewrite hex_encode_cons. cbn [map]. rewrite E1, E2, E3, nb_u8.
      rewrite N.mod_small by lia.
      replace ((16 * h + l) / 16) with h by lia.
      replace ((16 * h + l) mod 16) with l by lia. reflexivity.
    + destruct b as [|x b]; [discriminate|]. rewrite hex_encode_cons. cbn [map].
      intros H. injection H as H1 H2 H3.
      pose proof (nb_lt x).
      assert (hex_val c1 = Some (nb x / 16)) as -> by (apply hex_val_spec; split; [lia|assumption]).
      assert (hex_val c2 = Some (nb x mod 16)) as -> by (apply hex_val_spec; split; [lia|assumption]).
      apply (IH (length t) ltac:(lia) (i + 2)) in H3; [|reflexivity|assumption].
      rewrite H3. f_equal. f_equal. replace (16 * (nb x / 16) + nb x mod 16) with (nb x) by lia.
      apply u8_nb.
Qed.

Lemma even_double n : Nat.even (2 * n) = true.
Proof. rewrite Nat.even_mul. reflexivity. Qed.

Lemma hex_decode_ok t b : hex_decode t = Ok b <-> map to_lower t = hex_encode b.
Proof.
  unfold hex_decode. rewrite <- Nat.negb_even. destruct (Nat.even (length t)) eqn:E; simpl.
  - now apply hex_pairs_ok.
  - split; [discriminate|]. intros H. apply (f_equal length) in H.
    rewrite map_length, hex_encode_length in H. rewrite H, even_double in E. discriminate.
Qed.

Lemma hex_encode_lower b : map to_lower (hex_encode b) = hex_encode b.
Proof.
  induction b as [|x b IH]; [reflexivity|]. rewrite hex_encode_cons. cbn [map].
  pose proof (nb_lt x). rewrite !to_lower_hex_digit by lia. now rewrite IH.
Qed.

Lemma hex_decode_encode b : hex_decode (hex_encode b) = Ok b.
Proof. apply hex_decode_ok. apply hex_encode_lower. Qed.

Lemma hex_encode_inj a b : hex_encode a = hex_encode b -> a = b.
Proof.
  intros H. assert (hex_decode (hex_encode a) = hex_decode (hex_encode b)) as E by now rewrite H.
  rewrite !hex_decode_encode in E. now injection E.
Qed.

(** ** Relation to the specification's digits *)

Lemma lower_digit_hex n : n < 16 -> lower_digit n = hex_digit n.
Proof.
  intros H. assert (In n [0;1;2;3;4;5;6;7;8;9;10;11;12;13;14;15]) as Hin.
  { simpl. lia. }
  simpl in Hin. repeat (destruct Hin as [<-|Hin]; [reflexivity|]). contradiction.
Qed.

Lemma upper_digit_hex n : n < 16 -> upper_digit n = to_upper (hex_digit n).
Proof.
  intros H. assert (In n [0;1;2;3;4;5;6;7;8;9;10;11;12;13;14;15]) as Hin.
  { simpl. lia. }
  simpl in Hin. repeat (destruct Hin as [<-|Hin]; [reflexivity|]). contradiction.
Qed.

Lemma nibbles_lt l : Forall (fun n => n < 16) (nibbles l).
Proof.
  induction l as [|b l IH]; [constructor|]. pose proof (nb_lt b).
  constructor; [lia|]. constructor; [lia|]. exact IH.
Qed.

Lemma nibbles_length l : length (nibbles l) = (2 * length l)%nat.
Proof.
  induction l as [|b l IH]; [reflexivity|].
  change (nibbles (b :: l)) with (nb b / 16 :: nb b mod 16 :: nibbles l). cbn [length]. lia.
Qed.

Lemma hex_encode_nibbles l : hex_encode l = map hex_digit (nibbles l).
Proof.
  induction l as [|b l IH]; [reflexivity|]. rewrite hex_encode_cons, IH. reflexivity.
Qed.

Lemma lower_hex_encode l : lower_hex l = hex_encode l.
Proof.
  rewrite hex_encode_nibbles. unfold lower_hex. apply map_ext_in.
  intros n Hn. apply lower_digit_hex. pose proof (nibbles_lt l) as H.
  rewrite List.Forall_forall in H. now apply H.
Qed.

(** ** The checksum loop *)

Definition hexchar (c : byte) : bool := is_digit c || (is_hex_lower c || is_hex_upper c).

Lemma hexchar_val c : hexchar c = true <-> exists h, hex_val c = Some h.
Proof.
  unfold hexchar, is_digit, is_hex_lower, is_hex_upper, hex_val. split.
  - intros H. destruct ((65 <=? nb c) && (nb c <=? 70)) eqn:E1; [eauto|].
    destruct ((97 <=? nb c) && (nb c <=? 102)) eqn:E2; [eauto|].
    destruct ((48 <=? nb c) && (nb c <=? 57)) eqn:E3; [eauto|]. simpl in H. congruence.
  - intros [h H]. destruct ((65 <=? nb c) && (nb c <=? 70)) eqn:E1; [now rewrite !orb_true_r|].
    destruct ((97 <=? nb c) && (nb c <=? 102)) eqn:E2; [now rewrite !orb_true_r|].
    destruct ((48 <=? nb c) && (nb c <=? 57)) eqn:E3; [reflexivity|discriminate].
Qed.

(** What the loop does to one hexadecimal character. *)
Definition cs_char (n : N) (c : byte) : byte :=
  if is_digit c then c else if 8 <=? n then to_upper c else to_lower c.

Lemma hash_nibble_nibbles h i :
  hash_nibble h i = nibbles h !! i.
Proof.
  unfold hash_nibble. revert i. induction h as [|b h IH]; intros i.
  - destruct i; reflexivity.
  - destruct i as [|[|i]]; [reflexivity|reflexivity|].
    change (nibbles (b :: h) !! S (S i)) with (nibbles h !! i).
    rewrite <- IH. change (Nat.even (S (S i))) with (Nat.even i).
    replace (S (S i) / 2)%nat with (S (i / 2)).
    + reflexivity.
    + change (S (S i)) with (1 * 2 + i)%nat. rewrite Nat.div_add_l by lia. reflexivity.
Qed.

Lemma checksum_hex h t i :
  (i + length t <= 2 * length h)%nat ->
  forallb hexchar t = true ->
  checksum_chars h i t = Done (Ok (zip_with cs_char (drop i (nibbles h)) t)).
Proof.
  revert i; induction t as [|c t IH]; intros i Hl Hh.
  - simpl. rewrite zip_with_nil_r. reflexivity.
  - simpl in Hl, Hh. apply andb_true_iff in Hh as [Hc Hh].
    destruct (lookup_lt_is_Some_2 (nibbles h) i) as [n Hn].
    { rewrite nibbles_length. lia. }
    rewrite (drop_S _ n i Hn). simpl. unfold cs_char at 1.
    rewrite (IH (S i)) by (auto; lia).
    unfold hexchar in Hc.
    destruct (is_digit c); [reflexivity|]. simpl in Hc. rewrite Hc.
    rewrite hash_nibble_nibbles, Hn. reflexivity.
Qed.

Lemma cs_char_lower n c : hexchar c = true -> cs_char n (to_lower c) = cs_char n c.
Proof. destruct c; intros H; try (vm_compute in H; discriminate H); unfold cs_char; reflexivity. Qed.

Lemma cs_char_spec n h : n < 16 ->
  cs_char h (hex_digit n) = if 8 <=? h then upper_digit n else lower_digit n.
Proof.
  intros H. assert (In n [0;1;2;3;4;5;6;7;8;9;10;11;12;13;14;15]) as Hin.
  { simpl. lia. }
  simpl in Hin. destruct (8 <=? h) eqn:E; unfold cs_char; rewrite E;
  repeat (destruct Hin as [<-|Hin]; [reflexivity|]); contradiction.
Qed.

Lemma hex_lower_hexchar t b : map to_lower t = hex_encode b -> forallb hexchar t = true.
Proof.
  rewrite hex_encode_nibbles. generalize (nibbles_lt b). generalize (nibbles b).
  induction t as [|c t IH]; intros ns Hn H; [reflexivity|].
  destruct ns as [|n ns]; [discriminate|]. injection H as H1 H2.
  apply List.Forall_cons_iff in Hn as [Hn Hns].
  simpl. rewrite (IH _ Hns H2), andb_true_r. apply hexchar_val.
  exists n. apply hex_val_spec. auto.
Qed.

Lemma zip_cs_spec t b ns :
  map to_lower t = hex_encode b ->
  zip_with cs_char ns t =
  zip_with (fun n h => if 8 <=? h then upper_digit n else lower_digit n) (nibbles b) ns.
Proof.
  intros H. assert (forallb hexchar t = true) as Hh by (eapply hex_lower_hexchar; eassumption).
  revert H Hh. rewrite hex_encode_nibbles. generalize (nibbles_lt b). generalize (nibbles b).
  intros l. revert t ns. induction l as [|n l IH]; intros t ns Hl H Hh.
  - destruct t; [|discriminate]. destruct ns; reflexivity.
  - destruct t as [|c t]; [discriminate|]. injection H as H1 H2.
    apply List.Forall_cons_iff in Hl as [Hn Hl]. simpl in Hh. apply andb_true_iff in Hh as [Hc Hh].
    destruct ns as [|m ns]; [reflexivity|]. simpl. f_equal.
    + rewrite <- cs_char_spec by assumption. rewrite <- H1. symmetry. now apply cs_char_lower.
    + now apply IH.
Qed.

Definition strip0x (s : bytes) : bytes :=
  match strip_prefix (bs "0x") s with Some t => t | None => s end.

(** convert_to_eip55 on the hex digits of [b], in any case, with or without 0x. *)
Lemma convert_hex D s b :
  deps_ok D -> (length b <= 32)%nat ->
  map to_lower (strip0x s) = hex_encode b ->
  convert_to_eip55 D s = Done (Ok (eip55 (d_keccak D) b)).
Proof.
  intros HD Hb H. unfold convert_to_eip55. fold (strip0x s).
  rewrite checksum_hex.
  - cbn [obind]. rewrite (zip_cs_spec _ b) by assumption. rewrite drop_0, H.
    unfold eip55. rewrite lower_hex_encode. reflexivity.
  - rewrite (keccak_len _ HD). apply (f_equal length) in H.
    rewrite map_length, hex_encode_length in H. lia.
  - eapply hex_lower_hexchar; eassumption.
Qed.

Lemma zip_digits_lower ns hs :
  Forall (fun n => n < 16) ns -> (length ns <= length hs)%nat ->
  map to_lower (zip_with (fun n h => if 8 <=? h then upper_digit n else lower_digit n) ns hs)
  = map hex_digit ns.
Proof.
  revert hs; induction ns as [|n ns IH]; intros [|h hs] Hn Hl; try reflexivity; [simpl in Hl; lia|].
  apply List.Forall_cons_iff in Hn as [Hn Hns]. cbn [zip_with map]. simpl in Hl.
  rewrite IH by (auto; lia). f_equal.
  rewrite (lower_digit_hex n Hn), (upper_digit_hex n Hn).
  destruct (8 <=? h).
  - assert (In n [0;1;2;3;4;5;6;7;8;9;10;11;12;13;14;15]) as Hin by (simpl; lia).
    simpl in Hin. repeat (destruct Hin as [<-|Hin]; [reflexivity|]). contradiction.
  - now apply to_lower_hex_digit.
Qed.

Lemma eip55_strip k b :
  (length b <= length (k (lower_hex b)))%nat ->
  strip0x (eip55 k b) =
    zip_with (fun n h => if 8 <=? h then upper_digit n else lower_digit n)
      (nibbles b) (nibbles (k (lower_hex b))) /\
  map to_lower (strip0x (eip55 k b)) = hex_encode b.
Proof.
  intros Hl. assert (strip0x (eip55 k b) =
    zip_with (fun n h => if 8 <=? h then upper_digit n else lower_digit n)
      (nibbles b) (nibbles (k (lower_hex b)))) as E.
  { unfold strip0x, eip55. now rewrite strip_prefix_app. }
  split; [exact E|]. rewrite E, zip_digits_lower, hex_encode_nibbles; [reflexivity| |].
  - apply nibbles_lt.
  - rewrite !nibbles_length. lia.
Qed.

Lemma eip55_length D b : deps_ok D -> (length b <= 32)%nat ->
  length (eip55 (d_keccak D) b) = (2 + 2 * length b)%nat.
Proof.
  intros HD Hb. unfold eip55. rewrite app_length, zip_with_length, !nibbles_length, (keccak_len _ HD).
  change (length (bs "0x")) with 2%nat. lia.
Qed.

Lemma eip55_inj D a b : deps_ok D -> (length a <= 32)%nat -> (length b <= 32)%nat ->
  eip55 (d_keccak D) a = eip55 (d_keccak D) b -> a = b.
Proof.
  intros HD Ha Hb E.
  destruct (eip55_strip (d_keccak D) a) as [_ Ea]; [rewrite (keccak_len _ HD); lia|].
  destruct (eip55_strip (d_keccak D) b) as [_ Eb]; [rewrite (keccak_len _ HD); lia|].
  rewrite E in Ea. apply hex_encode_inj. congruence.
Qed.

(** ** EthAddress *)

Lemma strip0x_spec s : is_prefix (bs "0x") s = true -> s = bs "0x" ++ strip0x s /\ drop 2 s = strip0x s.
Proof.
  intros H. apply is_prefix_spec in H as [t ->]. unfold strip0x. rewrite strip_prefix_app. split; reflexivity.
Qed.

Lemma eth_address_new_spec D s : deps_ok D ->
  (exists e, eth_address_new D s = Done (Err e) /\ forall b, length b = 20%nat -> s <> eip55 (d_keccak D) b) \/
  (exists b, length b = 20%nat /\ s = eip55 (d_keccak D) b /\ eth_address_new D s = Done (Ok (mkEthAddress s))).
Proof.
  intros HD. unfold eth_address_new.
  destruct (is_prefix (bs "0x") s) eqn:Hp; simpl.
  2:{ left. eexists. split; [reflexivity|]. intros b _ ->.
      assert (is_prefix (bs "0x") (eip55 (d_keccak D) b) = true) by (apply is_prefix_spec; eexists; reflexivity).
      congruence. }
  destruct (blen s =? 42) eqn:Hl; simpl.
  2:{ left. eexists. split; [reflexivity|]. intros b Hb ->.
      unfold blen in Hl. rewrite eip55_length in Hl by (auto; lia). lia. }
  destruct (strip0x_spec s Hp) as [Es Ed]. rewrite Ed.
  destruct (hex_decode (strip0x s)) as [b|e] eqn:E.
  - apply hex_decode_ok in E. assert (length b = 20%nat) as Hb.
    { apply (f_equal (@length byte)) in E, Es. rewrite map_length, hex_encode_length in E.
      rewrite app_length in Es. change (length (bs "0x")) with 2%nat in Es. unfold blen in Hl. lia. }
    rewrite (convert_hex D s b) by (auto; lia). cbn [obind unwrap].
    destruct (bytes_eqb s (eip55 (d_keccak D) b)) eqn:Eq.
    + apply bytes_eqb_spec in Eq. right. eauto.
    + apply bytes_eqb_false in Eq. left. eexists. split; [reflexivity|].
      intros b' Hb' ->. destruct (eip55_strip (d_keccak D) b') as [_ E']; [rewrite (keccak_len _ HD); lia|].
      rewrite E' in E. apply hex_encode_inj in E as ->. contradiction.
  - left. eexists. split; [reflexivity|]. intros b Hb ->.
    destruct (eip55_strip (d_keccak D) b) as [_ E']; [rewrite (keccak_len _ HD); lia|].
    apply hex_decode_ok in E'. congruence.
Qed.

Lemma eth_address_new_ok D s a : deps_ok D -> eth_address_new D s = Done (Ok a) ->
  a = mkEthAddress s /\ exists b, length b = 20%nat /\ s = eip55 (d_keccak D) b.
Proof.
  intros HD H. destruct (eth_address_new_spec D s HD) as [[e [He _]]|[b [Hb [Es He]]]].
  - congruence.
  - split; [congruence|eauto].
Qed.

Lemma eth_address_new_eip55 D b : deps_ok D -> length b = 20%nat ->
  eth_address_new D (eip55 (d_keccak D) b) = Done (Ok (mkEthAddress (eip55 (d_keccak D) b))).
Proof.
  intros HD Hb. destruct (eth_address_new_spec D (eip55 (d_keccak D) b) HD) as [[e [_ He]]|[b' [Hb' [Es He]]]].
  - now destruct (He b Hb).
  - exact He.
Qed.

Lemma unwrap_hex_eip55 D b : deps_ok D -> (length b <= 32)%nat ->
  unwrap_hex (eip55 (d_keccak D) b) = Done b.
Proof.
  intros HD Hb. unfold unwrap_hex.
  destruct (eip55_strip (d_keccak D) b) as [_ E]; [rewrite (keccak_len _ HD); lia|].
  unfold strip0x in E. unfold eip55 in *. rewrite strip_prefix_app in *.
  apply hex_decode_ok in E. rewrite E. reflexivity.
Qed.

Lemma as_bytes_ok D s a : deps_ok D -> eth_address_new D s = Done (Ok a) ->
  exists b, length b = 20%nat /\ s = eip55 (d_keccak D) b /\
    addr_as_bytes a = Done b /\ addr_as_byte_array a = Done b.
Proof.
  intros HD H. apply eth_address_new_ok in H as [-> [b [Hb ->]]]; [|assumption].
  exists b. split; [assumption|]. split; [reflexivity|].
  unfold addr_as_bytes, addr_as_byte_array. simpl addr_str.
  rewrite unwrap_hex_eip55 by (auto; lia). split; [reflexivity|].
  cbn [obind]. unfold copy_to_array. rewrite Hb. reflexivity.
Qed.

(** ** convert_to_eip55 on arbitrary strings *)

Definition is_letter (c : byte) : bool := is_hex_lower c || is_hex_upper c.

Lemma checksum_chars_trap h t i :
  (exists w, checksum_chars h i t = Trap w) <->
  exists k c, t !! k = Some c /\ is_letter c = true /\ (2 * length h <= i + k)%nat /\
    forallb hexchar (take k t) = true.
Proof.
  revert i; induction t as [|c t IH]; intros i.
  - split; [intros [w H]; discriminate|]. intros (k & c & H & _). discriminate.
  - cbn [checksum_chars]. destruct (is_digit c) eqn:Ed.
    + specialize (IH (S i)). split.
      * intros [w H]. destruct (checksum_chars h (S i) t) as [r|w'] eqn:E; [destruct r; discriminate|].
        destruct IH as [IH _]. destruct IH as (k & c' & Hk & Hc & Hi & Hh); [eauto|].
        exists (S k), c'. split; [exact Hk|]. split; [exact Hc|]. split; [lia|].
        cbn [take forallb]. unfold hexchar at 1. rewrite Ed. exact Hh.
      * intros (k & c' & Hk & Hc & Hi & Hh). destruct k as [|k].
        { injection Hk as ->. exfalso. unfold is_letter, is_hex_lower, is_hex_upper in Hc.
          unfold is_digit in Ed. lia. }
        destruct IH as [_ IH]. destruct IH as [w Hw].
        { exists k, c'. cbn [take forallb] in Hh. apply andb_true_iff in Hh as [_ Hh].
          repeat split; auto; lia. }
        rewrite Hw. exists w. reflexivity.
    + fold (is_letter c). destruct (is_letter c) eqn:El.
      * rewrite hash_nibble_nibbles. destruct (nibbles h !! i) as [n|] eqn:En.
        -- specialize (IH (S i)). split.
           ++ intros [w H]. destruct (checksum_chars h (S i) t) as [r|w'] eqn:E; [destruct r; discriminate|].
              destruct IH as [IH _]. destruct IH as (k & c' & Hk & Hc & Hi & Hh); [eauto|].
              exists (S k), c'. split; [exact Hk|]. split; [exact Hc|]. split; [lia|].
              cbn [take forallb]. unfold hexchar at 1. rewrite Ed. unfold is_letter in El. rewrite El. exact Hh.
           ++ intros (k & c' & Hk & Hc & Hi & Hh). destruct k as [|k].
              { apply lookup_lt_Some in En. rewrite nibbles_length in En. lia. }
              destruct IH as [_ IH]. destruct IH as [w Hw].
              { exists k, c'. cbn [take forallb] in Hh. apply andb_true_iff in Hh as [_ Hh].
                repeat split; auto; lia. }
              rewrite Hw. exists w. reflexivity.
        -- apply lookup_ge_None in En. rewrite nibbles_length in En. split; [|eauto].
           intros _. exists 0%nat, c. repeat split; auto. lia.
      * split; [intros [w H]; discriminate|].
        intros (k & c' & Hk & Hc & Hi & Hh). destruct k as [|k]; [injection Hk as ->; congruence|].
        cbn [take forallb] in Hh. unfold hexchar at 1 in Hh. rewrite Ed in Hh.
        unfold is_letter in El. rewrite El in Hh. discriminate.
Qed.

Lemma convert_trap D s : deps_ok D ->
  (exists w, convert_to_eip55 D s = Trap w) <->
  exists k c, strip0x s !! k = Some c /\ is_letter c = true /\ (64 <= k)%nat /\
    forallb hexchar (take k (strip0x s)) = true.
Proof.
  intros HD. unfold convert_to_eip55. fold (strip0x s).
  pose proof (checksum_chars_trap (d_keccak D (map to_lower (strip0x s))) (strip0x s) 0) as H.
  rewrite (keccak_len _ HD) in H.
  split.
  - intros [w Hw]. destruct H as [H _]. destruct H as (k & c & H1 & H2 & H3 & H4).
    + destruct (checksum_chars _ 0 (strip0x s)); [destruct a; discriminate|eauto].
    + exists k, c. repeat split; auto.
  - intros (k & c & H1 & H2 & H3 & H4). destruct H as [_ H]. destruct H as [w Hw].
    + exists k, c. repeat split; auto.
    + rewrite Hw. exists w. reflexivity.
Qed.

(** ** EthSignature *)

Lemma eth_signature_new_spec s :
  (exists e, eth_signature_new s = Done (Err e) /\
     forall t b, length b = 65%nat -> map to_lower t = hex_encode b -> s <> bs "0x" ++ t) \/
  (exists t b, length b = 65%nat /\ map to_lower t = hex_encode b /\ s = bs "0x" ++ t /\
     eth_signature_new s = Done (Ok (mkEthSignature s))).
Proof.
  unfold eth_signature_new.
  destruct (is_prefix (bs "0x") s) eqn:Hp; simpl.
  2:{ left. eexists. split; [reflexivity|]. intros t b _ _ ->.
      discriminate Hp. }
  destruct (blen s =? 132) eqn:Hl; simpl.
  2:{ left. eexists. split; [reflexivity|]. intros t b Hb E ->.
      apply (f_equal (@length byte)) in E. rewrite map_length, hex_encode_length in E.
      unfold blen in Hl. cbn [length] in Hl. lia. }
  destruct (strip0x_spec s Hp) as [Es Ed]. rewrite Ed.
  destruct (hex_decode (strip0x s)) as [b|e] eqn:E.
  - right. apply hex_decode_ok in E. exists (strip0x s), b.
    assert (length b = 65%nat) as Hb; [|now repeat split].
    apply (f_equal (@length byte)) in E, Es. rewrite map_length, hex_encode_length in E.
    rewrite app_length in Es. change (length (bs "0x")) with 2%nat in Es. unfold blen in Hl. lia.
  - left. eexists. split; [reflexivity|]. intros t b Hb E' ->.
    rewrite <- Ed in E. cbn [drop] in E. apply hex_decode_ok in E'. rewrite drop_0 in E. congruence.
Qed.

Lemma hex_denotes_lower t b : hex_denotes t b <-> map to_lower t = hex_encode b.
Proof.
  unfold hex_denotes. rewrite hex_encode_nibbles. generalize (nibbles_lt b). generalize (nibbles b).
  intros l. revert t. induction l as [|n l IH]; intros t Hl.
  - split.
    + intros H. inversion H. reflexivity.
    + destruct t; [constructor|discriminate].
  - apply List.Forall_cons_iff in Hl as [Hn Hl]. split.
    + intros H. inversion H as [|c n' t' l' Hc Ht]; subst. cbn [map].
      apply IH in Ht; [|assumption]. rewrite Ht. f_equal.
      destruct Hc as [->| ->].
      * rewrite lower_digit_hex by assumption. now apply to_lower_hex_digit.
      * assert (In n [0;1;2;3;4;5;6;7;8;9;10;11;12;13;14;15]) as Hin by (simpl; lia).
        simpl in Hin. repeat (destruct Hin as [<-|Hin]; [reflexivity|]). contradiction.
    + destruct t as [|c t]; [discriminate|]. intros H. injection H as H1 H2.
      constructor; [|now apply IH].
      assert (In n [0;1;2;3;4;5;6;7;8;9;10;11;12;13;14;15]) as Hin by (simpl; lia).
      simpl in Hin.
      repeat (destruct Hin as [<-|Hin]; [destruct c; vm_compute in H1; try discriminate H1; vm_compute; auto|]).
      contradiction.
Qed.

Lemma sig_bytes_ok s t b : s = bs "0x" ++ t -> map to_lower t = hex_encode b ->
  sig_as_bytes (mkEthSignature s) = Done b.
Proof.
  intros -> E. unfold sig_as_bytes, unwrap_hex. cbn [sig_str]. rewrite strip_prefix_app.
  apply hex_decode_ok in E. rewrite E. reflexivity.
Qed.

(** ** EIP-191 *)

Lemma eip191_bytes_inj m1 m2 : eip191_bytes m1 = eip191_bytes m2 -> m1 = m2.
Proof.
  unfold eip191_bytes. intros H. injection H as H.
  assert (blen (dec (blen m1)) + blen m1 = blen (dec (blen m2)) + blen m2) as Hl.
  { apply (f_equal blen) in H. rewrite !blen_app in H. exact H. }
  assert (blen m1 = blen m2) as E.
  { destruct (N.lt_total (blen m1) (blen m2)) as [Hlt|[|Hlt]]; [|assumption|].
    - pose proof (dec_length_mono (blen m1) (blen m2)). lia.
    - pose proof (dec_length_mono (blen m2) (blen m1)). lia. }
  rewrite E in H. now apply app_inv_head in H.
Qed.

Lemma undec_bound l : Forall is_dec_digit l -> undec l < 10 ^ blen l.
Proof.
  induction l as [|c l IH] using rev_ind; intros Hd.
  - vm_compute. reflexivity.
  - apply List.Forall_app in Hd as [Hl Hc]. inversion Hc as [|? ? Hc' _]; subst.
    rewrite undec_app, blen_app. change (blen [c]) with 1. rewrite N.pow_add_r. change (10 ^ 1) with 10.
    specialize (IH Hl). unfold undec at 2. cbn [fold_left]. unfold is_dec_digit in Hc'. nia.
Qed.

Lemma undec_lead c l : is_dec_digit c -> c <> x30 -> 10 ^ blen l <= undec (c :: l).
Proof.
  intros Hc Hne. change (c :: l) with ([c] ++ l). rewrite undec_app.
  assert (1 <= undec [c]).
  { unfold undec. cbn [fold_left]. unfold is_dec_digit in Hc.
    destruct (N.eq_dec (nb c) 48) as [E|]; [|lia]. exfalso. apply Hne. now apply nb_inj. }
  nia.
Qed.

Lemma undec_inj_len a b : Forall is_dec_digit a -> Forall is_dec_digit b ->
  length a = length b -> undec a = undec b -> a = b.
Proof.
  revert b. induction a as [|x a IH]; intros [|y b] Ha Hb Hl Hv; try discriminate; [reflexivity|].
  apply List.Forall_cons_iff in Ha as [Hx Ha], Hb as [Hy Hb]. injection Hl as Hl.
  change (x :: a) with ([x] ++ a) in Hv. change (y :: b) with ([y] ++ b) in Hv.
  rewrite !undec_app in Hv. pose proof (undec_bound a Ha) as Ba. pose proof (undec_bound b Hb) as Bb.
  assert (blen a = blen b) as El by (unfold blen; congruence). rewrite El in *.
  assert (undec [x] = undec [y]) as Exy by nia.
  assert (x = y) as ->.
  { unfold undec in Exy. cbn [fold_left] in Exy. unfold is_dec_digit in *. apply nb_inj. lia. }
  f_equal. apply IH; auto. nia.
Qed.

Lemma dec_leading n : hd x00 (dec n) = x30 -> dec n = [x30].
Proof.
  intros H. destruct (dec n) as [|c l] eqn:E; [discriminate|]. simpl in H. subst c.
  destruct l as [|c l]; [reflexivity|]. exfalso.
  pose proof (dec_lower n) as Hlow. rewrite E in Hlow.
  assert (undec (x30 :: c :: l) = n) as Hv by (rewrite <- E; apply undec_dec).
  pose proof (dec_digits n) as Hd. rewrite E in Hd. apply List.Forall_cons_iff in Hd as [_ Hd].
  change (x30 :: c :: l) with ([x30] ++ (c :: l)) in Hv. rewrite undec_app in Hv.
  change (undec [x30]) with 0 in Hv. pose proof (undec_bound _ Hd) as Hu.
  unfold blen in *. cbn [length] in *.
  replace (N.of_nat (S (S (length l))) - 1) with (N.of_nat (S (length l))) in Hlow by lia.
  specialize (Hlow ltac:(lia)). lia.
Qed.

Lemma is_decimal_unique a b n : is_decimal a n -> is_decimal b n -> a = b.
Proof.
  intros (Ha1 & Ha2 & Ha3 & Ha4) (Hb1 & Hb2 & Hb3 & Hb4).
  change (undec a = n) in Ha3. change (undec b = n) in Hb3.
  apply undec_inj_len; auto; [|congruence].
  destruct a as [|x a]; [contradiction|]. destruct b as [|y b]; [contradiction|].
  pose proof (undec_bound _ Ha2) as Ua. pose proof (undec_bound _ Hb2) as Ub.
  apply List.Forall_cons_iff in Ha2 as [Hx Ha2], Hb2 as [Hy Hb2].
  cbn [hd] in *. cbn [length]. f_equal.
  assert (forall (u v : bytes), 10 ^ blen u < 10 ^ blen v -> (length u < length v)%nat) as Hlt.
  { intros u v H. apply N.pow_lt_mono_r_iff in H; [|lia]. unfold blen in H. lia. }
  destruct (decide (x = x30)) as [->|Hnx]; destruct (decide (y = x30)) as [->|Hny].
  - specialize (Ha4 eq_refl). specialize (Hb4 eq_refl). congruence.
  - specialize (Ha4 eq_refl). injection Ha4 as ->.
    pose proof (undec_lead y b Hy Hny). change (undec [x30]) with 0 in Ha3.
    assert (10 ^ blen b <> 0) by (apply N.pow_nonzero; lia). lia.
  - specialize (Hb4 eq_refl). injection Hb4 as ->.
    pose proof (undec_lead x a Hx Hnx). change (undec [x30]) with 0 in Hb3.
    assert (10 ^ blen a <> 0) by (apply N.pow_nonzero; lia). lia.
  - pose proof (undec_lead y b Hy Hny). pose proof (undec_lead x a Hx Hnx).
    assert (length a < length (y :: b))%nat by (apply Hlt; lia).
    assert (length b < length (x :: a))%nat by (apply Hlt; lia).
    cbn [length] in *. lia.
Qed.

Lemma dec_is_decimal n : is_decimal (dec n) n.
Proof.
  unfold is_decimal. split; [|split; [|split]].
  - pose proof (dec_nonempty n). destruct (dec n); [simpl in *; lia|discriminate].
  - apply dec_digits.
  - apply undec_dec.
  - apply dec_leading.
Qed.

Lemma eip191_framed_ok m : eip191_framed m (eip191_bytes m).
Proof. exists (dec (blen m)). split; [apply dec_is_decimal|]. reflexivity. Qed.

Lemma eip191_framed_fun m f1 f2 : eip191_framed m f1 -> eip191_framed m f2 -> f1 = f2.
Proof.
  intros (d1 & H1 & ->) (d2 & H2 & ->). now rewrite (is_decimal_unique _ _ _ H1 H2).
Qed.

Lemma eip191_framed_inj m1 m2 f : eip191_framed m1 f -> eip191_framed m2 f -> m1 = m2.
Proof.
  intros H1 H2. apply eip191_bytes_inj.
  rewrite (eip191_framed_fun m1 _ f (eip191_framed_ok m1) H1).
  apply (eip191_framed_fun m2 f _ H2 (eip191_framed_ok m2)).
Qed.

(** ** Recovery *)

Lemma hexchar_strip t : forallb hexchar t = true -> strip0x t = t.
Proof.
  intros H. unfold strip0x. destruct (strip_prefix (bs "0x") t) as [u|] eqn:E; [|reflexivity].
  apply strip_prefix_spec in E as ->. cbn in H. discriminate.
Qed.

Lemma drop_hex_encode n l : drop (2 * n) (hex_encode l) = hex_encode (drop n l).
Proof.
  revert n; induction l as [|b l IH]; intros [|n]; try reflexivity.
  rewrite hex_encode_cons. replace (2 * S n)%nat with (S (S (2 * n))) by lia. cbn [drop]. apply IH.
Qed.

Lemma derive_spec D pk : deps_ok D ->
  derive_eth_address D pk = Done (Ok (eip55 (d_keccak D) (drop 12 (d_keccak D pk)))).
Proof.
  intros HD. unfold derive_eth_address. apply convert_hex; [assumption| |].
  - rewrite drop_length, (keccak_len _ HD). lia.
  - change 24%nat with (2 * 12)%nat. rewrite drop_hex_encode. rewrite hexchar_strip.
    + apply hex_encode_lower.
    + eapply hex_lower_hexchar. apply hex_encode_lower.
Qed.

(** What recovery computes from the 65 bytes of the signature. *)
Lemma recover_spec D m s b : deps_ok D -> length b = 65%nat -> sig_as_bytes s = Done b ->
  recover_eth_address D m s = Done (
    let v := match b !! 64%nat with Some v => nb v mod 27 | None => 0 end in
    if 3 <? v then Err InvalidRecoveryId
    else if d_sig_ok D (take 64 b) then
      match d_recover D (d_keccak D (eip191_bytes m)) (take 64 b) v with
      | None => Err PublicKeyRecoveryFailure
      | Some pk => Ok (eip55 (d_keccak D) (drop 12 (d_keccak D pk)))
      end
    else Err InvalidSignature).
Proof.
  intros HD Hb Hs. unfold recover_eth_address. rewrite Hs. cbn [obind].
  destruct (lookup_lt_is_Some_2 b 64) as [v Hv]; [lia|]. rewrite Hv. cbv zeta.
  destruct (3 <? nb v mod 27); [reflexivity|].
  destruct (d_sig_ok D (take 64 b)); [|reflexivity]. cbn [negb].
  unfold eip191_hash. destruct (d_recover _ _ _ _); [|reflexivity].
  now apply derive_spec.
Qed.
