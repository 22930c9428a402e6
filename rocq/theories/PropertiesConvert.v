(** What the conversion to EIP-55 complains of. *)
From Coq Require Import Strings.String ZifyBool ZifyN ZifyNat.
From Verif Require Import Base BaseLemmas Deps Hex Eth Keccak SpecEth EthProofs SpecCandid CandidBase Concrete PropertiesEth.
Local Open Scope N_scope.

Lemma utf8_width_char n c t : utf8_char n c -> c <> [] /\ take (utf8_width (hd x00 (c ++ t))) (c ++ t) = c.
Proof.
  intros H. split; [inversion H; discriminate|].
  assert (forall k, k < 256 -> nb (ch k) = k) as Hch by (intros k Hk; now apply nb_ch).
  inversion H as [m Hm|m Hm|m Hm|m Hm]; subst; cbn [app hd]; unfold utf8_width.
  - rewrite Hch by lia. destruct (N.ltb_spec n 128); [reflexivity|lia].
  - assert (2 <= n / 64 < 32) by (split; [apply N.div_le_lower_bound; lia|apply N.div_lt_upper_bound; lia]).
    rewrite Hch by lia. destruct (N.ltb_spec (192 + n / 64) 128); [lia|]. destruct (N.ltb_spec (192 + n / 64) 224); [reflexivity|lia].
  - assert (n / 4096 < 16) by (apply N.div_lt_upper_bound; lia).
    rewrite Hch by lia. destruct (N.ltb_spec (224 + n / 4096) 128); [lia|]. destruct (N.ltb_spec (224 + n / 4096) 224); [lia|].
    destruct (N.ltb_spec (224 + n / 4096) 240); [reflexivity|lia].
  - assert (n / 262144 < 8) by (apply N.div_lt_upper_bound; lia).
    rewrite Hch by lia. destruct (N.ltb_spec (240 + n / 262144) 128); [lia|]. destruct (N.ltb_spec (240 + n / 262144) 224); [lia|].
    destruct (N.ltb_spec (240 + n / 262144) 240); [lia|reflexivity].
Qed.

Lemma checksum_complains hash c after : hexchar c = false -> forall before i,
  forallb hexchar before = true -> (length hash = 32)%nat ->
  (forall k b, before !! k = Some b -> is_letter b = true -> (i + k < 64)%nat) ->
  checksum_chars hash i (before ++ c :: after) =
  Done (Err (Eip55Error (bs "Unrecognized hex character '" ++ take (utf8_width c) (c :: after) ++
    bs "' at position " ++ dec (N.of_nat (i + length before))))).
Proof.
  intros Hc. induction before as [|b before IH]; intros i Hb Hlen Hk.
  - cbn [app length]. rewrite Nat.add_0_r. cbn [checksum_chars]. unfold hexchar in Hc.
    destruct (is_digit c), (is_hex_lower c), (is_hex_upper c); try discriminate. reflexivity.
  - cbn [forallb] in Hb. apply andb_true_iff in Hb as [Hb1 Hb2]. cbn [app checksum_chars length].
    rewrite (IH (S i) Hb2 Hlen).
    + replace (S i + length before)%nat with (i + S (length before))%nat by lia.
      destruct (is_digit b) eqn:Ed; [reflexivity|]. unfold hexchar in Hb1. rewrite Ed in Hb1. cbn [orb] in Hb1.
      destruct (is_hex_lower b || is_hex_upper b) eqn:El; [|discriminate].
      assert (i < 64)%nat as Hi by (specialize (Hk 0%nat b eq_refl El); lia).
      destruct (hash_nibble hash i) as [n|] eqn:En; [reflexivity|]. exfalso. revert En. clear - Hlen Hi. unfold hash_nibble.
      destruct (hash !! (i / 2)%nat) eqn:E; [destruct (Nat.even i); discriminate|]. intros _. apply lookup_ge_None in E.
      assert (i / 2 < 32)%nat by (apply Nat.div_lt_upper_bound; lia). lia.
    + intros k b' Hl Hlt. specialize (Hk (S k) b' Hl Hlt). lia.
Qed.

(** The first character that is not a hexadecimal digit is named, with its position, unless the
    conversion has panicked before it gets there (C03_panics_exactly). *)
Theorem C03_complains : forall D, deps_ok D -> forall s digits before u c after p,
  s = bs "0x" ++ digits \/ (s = digits /\ forall r, s <> bs "0x" ++ r) ->
  digits = before ++ c ++ after -> Forall hex_digit_char before -> utf8_char u c ->
  (forall b, c = [b] -> ~ hex_digit_char b) ->
  (forall k b, before !! k = Some b -> hex_letter b -> (k < 64)%nat) ->
  is_decimal p (N.of_nat (length before)) ->
  convert_to_eip55 D s =
  Done (Err (Eip55Error (bs "Unrecognized hex character '" ++ c ++ bs "' at position " ++ p))).
Proof.
  intros D HD s digits before u c after p Hs -> Hb Hu Hc Hk Hp.
  assert (strip0x s = before ++ c ++ after) as E.
  { unfold strip0x. destruct Hs as [->|[-> Hn]]; [now rewrite strip_prefix_app|].
    destruct (strip_prefix (bs "0x") (before ++ c ++ after)) as [r|] eqn:E; [|reflexivity].
    apply strip_prefix_spec in E. now apply Hn in E. }
  assert (forall c, hexchar c = true <-> hex_digit_char c) as Hx.
  { intros d. unfold hexchar, hex_digit_char, is_digit, is_hex_lower, is_hex_upper. lia. }
  assert (forall c, is_letter c = true <-> hex_letter c) as Hlt.
  { intros d. unfold is_letter, hex_letter, is_hex_lower, is_hex_upper. lia. }
  destruct (utf8_width_char u c after Hu) as [Hne Hw]. destruct c as [|b c]; [contradiction|]. cbn [app hd] in Hw.
  assert (hexchar b = false) as Hbx.
  { destruct (hexchar b) eqn:Eb; [|reflexivity]. apply Hx in Eb. exfalso.
    assert (nb b < 128) as Hsmall by (unfold hex_digit_char in Eb; lia). clear Hw E.
    assert (forall k, 128 <= k < 256 -> nb (ch k) = k) as Hch by (intros k Hr; apply nb_ch; lia).
    inversion Hu as [m Hm|m Hm|m Hm|m Hm]; subst.
    - now apply (Hc (ch u)).
    - assert (2 <= u / 64 < 32) by (split; [apply N.div_le_lower_bound; lia|apply N.div_lt_upper_bound; lia]).
      rewrite Hch in Hsmall by lia. lia.
    - assert (u / 4096 < 16) by (apply N.div_lt_upper_bound; lia). rewrite Hch in Hsmall by lia. lia.
    - assert (u / 262144 < 8) by (apply N.div_lt_upper_bound; lia). rewrite Hch in Hsmall by lia. lia. }
  unfold convert_to_eip55. fold (strip0x s). rewrite E. cbn [app] in *.
  rewrite checksum_complains; [|exact Hbx| |apply (keccak_len _ HD)|].
  - cbn [obind Nat.add]. rewrite Hw, (is_decimal_unique _ _ _ (dec_is_decimal _) Hp). reflexivity.
  - apply forallb_forall. intros d Id. rewrite List.Forall_forall in Hb. now apply Hx, Hb.
  - intros k d Hd Hl. apply (Hk k d Hd). now apply Hlt.
Qed.

(** Concrete: the letter e with an acute accent, and a blank. *)
Example C03_complains_case :
  utf8_char 233 [xc3; xa9] /\
  convert_to_eip55 CD (bs "0x12" ++ [xc3; xa9] ++ bs "34") =
    Done (Err (Eip55Error (bs "Unrecognized hex character '" ++ [xc3; xa9] ++ bs "' at position 2"))) /\
  convert_to_eip55 CD (bs "ab cd") = Done (Err (Eip55Error (bs "Unrecognized hex character ' ' at position 2"))).
Proof. split; [apply (utf8_2 233); lia|]. split; vm_compute; reflexivity. Qed.

Print Assumptions C03_complains.
