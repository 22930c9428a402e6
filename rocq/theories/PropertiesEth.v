(** Theorems C01-C06: Ethereum addresses, signatures, message framing, recovery. *)
From Coq Require Import Strings.String.
From Verif Require Import Base BaseLemmas Deps Hex Eth SpecEth EthProofs Keccak Concrete.
Local Open Scope N_scope.

(** ** C01 Address validation is exactly EIP-55 *)

Theorem C01_accepts_exactly_eip55 : forall D, deps_ok D -> forall s : bytes,
  (exists a, eth_address_new D s = Done (Ok a)) <->
  (exists b, length b = 20%nat /\ s = eip55 (d_keccak D) b).
Proof.
  intros D HD s. split.
  - intros [a H]. now apply eth_address_new_ok in H as [_ H].
  - intros (b & Hb & ->). eexists. now apply eth_address_new_eip55.
Qed.

Theorem C01_never_panics_and_keeps_the_string : forall D, deps_ok D -> forall s : bytes,
  eth_address_new D s = Done (Ok (mkEthAddress s)) \/ exists e, eth_address_new D s = Done (Err e).
Proof.
  intros D HD s. destruct (eth_address_new_spec D s HD) as [[e [He _]]|[b [_ [_ He]]]]; eauto.
Qed.

(** An EIP-55 string is "0x" and 40 hexadecimal digits of the address. *)
Theorem C01_eip55_shape : forall D, deps_ok D -> forall b, length b = 20%nat ->
  exists t, eip55 (d_keccak D) b = bs "0x" ++ t /\ length t = 40%nat /\ hex_denotes t b.
Proof.
  intros D HD b Hb. exists (strip0x (eip55 (d_keccak D) b)).
  destruct (eip55_strip (d_keccak D) b) as [E1 E2]; [rewrite (keccak_len _ HD); lia|].
  split; [|split].
  - rewrite E1. reflexivity.
  - apply (f_equal (@length byte)) in E2. rewrite map_length, hex_encode_length in E2. lia.
  - now apply hex_denotes_lower.
Qed.

(** Concrete: the addresses of the repository's tests (eth.rs 301-362, 467-480) with the real Keccak. *)
Example C01_case :
  eth_address_new CD (bs "0xd8dA6BF26964aF9D7eEd9e03E53415D37aA96045")
    = Done (Ok (mkEthAddress (bs "0xd8dA6BF26964aF9D7eEd9e03E53415D37aA96045"))) /\
  eth_address_new CD (bs "0xD8Da6bf26964Af9d7EEd9e03e53415d37AA96045")
    = Done (Err (Eip55Error (bs "Not EIP-55 encoded"))).
Proof. vm_compute. split; reflexivity. Qed.

(** ** C02 Accepted strings and 20-byte addresses correspond one to one *)

Theorem C02_bytes_of_accepted : forall D, deps_ok D -> forall s a,
  eth_address_new D s = Done (Ok a) ->
  exists b, length b = 20%nat /\ addr_as_bytes a = Done b /\ addr_as_byte_array a = Done b /\
    exists t, s = bs "0x" ++ t /\ hex_denotes t b.
Proof.
  intros D HD s a H. destruct (as_bytes_ok D s a HD H) as (b & Hb & Es & H1 & H2).
  exists b. repeat (split; [assumption|]). destruct (C01_eip55_shape D HD b Hb) as (t & Et & _ & Ht).
  exists t. split; [congruence|assumption].
Qed.

Theorem C02_unique_string : forall D, deps_ok D -> forall b, length b = 20%nat ->
  exists s, (exists a, eth_address_new D s = Done (Ok a) /\ addr_as_bytes a = Done b) /\
    forall s' a', eth_address_new D s' = Done (Ok a') -> addr_as_bytes a' = Done b -> s' = s.
Proof.
  intros D HD b Hb. exists (eip55 (d_keccak D) b). split.
  - eexists. split; [now apply eth_address_new_eip55|]. apply unwrap_hex_eip55; [assumption|lia].
  - intros s' a' H1 H2. destruct (as_bytes_ok D s' a' HD H1) as (b' & Hb' & Es & H3 & _).
    rewrite H2 in H3. injection H3 as <-. exact Es.
Qed.

Theorem C02_injective : forall D, deps_ok D -> forall s1 a1 s2 a2,
  eth_address_new D s1 = Done (Ok a1) -> eth_address_new D s2 = Done (Ok a2) ->
  addr_as_bytes a1 = addr_as_bytes a2 -> s1 = s2.
Proof.
  intros D HD s1 a1 s2 a2 H1 H2 E.
  destruct (as_bytes_ok D s1 a1 HD H1) as (b1 & _ & Es1 & E1 & _).
  destruct (as_bytes_ok D s2 a2 HD H2) as (b2 & _ & Es2 & E2 & _). congruence.
Qed.

Example C02_case :
  addr_as_bytes (mkEthAddress (bs "0xd8dA6BF26964aF9D7eEd9e03E53415D37aA96045"))
  = Done [xd8;xda;x6b;xf2;x69;x64;xaf;x9d;x7e;xed;x9e;x03;xe5;x34;x15;xd3;x7a;xa9;x60;x45].
Proof. vm_compute. reflexivity. Qed.

(** ** C03 Conversion is case-insensitive and idempotent *)

Theorem C03_converts_any_casing : forall D, deps_ok D -> forall t b,
  length b = 20%nat -> hex_denotes t b ->
  convert_to_eip55 D t = Done (Ok (eip55 (d_keccak D) b)) /\
  convert_to_eip55 D (bs "0x" ++ t) = Done (Ok (eip55 (d_keccak D) b)).
Proof.
  intros D HD t b Hb Ht. apply hex_denotes_lower in Ht.
  split; (apply convert_hex; [assumption|lia|]).
  - rewrite hexchar_strip; [assumption|]. eapply hex_lower_hexchar; eassumption.
  - unfold strip0x. now rewrite strip_prefix_app.
Qed.

Theorem C03_idempotent : forall D, deps_ok D -> forall t b s,
  length b = 20%nat -> hex_denotes t b -> convert_to_eip55 D t = Done (Ok s) ->
  convert_to_eip55 D s = Done (Ok s).
Proof.
  intros D HD t b s Hb Ht H. destruct (C03_converts_any_casing D HD t b Hb Ht) as [E _].
  rewrite E in H. injection H as <-. apply convert_hex; [assumption|lia|].
  apply eip55_strip. rewrite (keccak_len _ HD). lia.
Qed.

(** "It never panics" is false: the 33rd byte of a 32-byte hash is read. *)
Theorem C03_never_panics_refuted : forall D, deps_ok D ->
  exists s w, convert_to_eip55 D s = Trap w.
Proof.
  intros D HD. exists (repeat x61 65). apply (convert_trap D _ HD).
  exists 64%nat, x61. repeat split; vm_compute; auto.
Qed.

(** Exactly when it panics: a letter a-f/A-F at digit position 64 or later, after hexadecimal digits only. *)
Definition hex_digit_char (c : byte) : Prop :=
  48 <= nb c <= 57 \/ 97 <= nb c <= 102 \/ 65 <= nb c <= 70.
Definition hex_letter (c : byte) : Prop := 97 <= nb c <= 102 \/ 65 <= nb c <= 70.

Theorem C03_panics_exactly : forall D, deps_ok D -> forall s digits,
  s = bs "0x" ++ digits \/ (s = digits /\ forall r, s <> bs "0x" ++ r) ->
  (exists w, convert_to_eip55 D s = Trap w) <->
  exists before c after, digits = before ++ c :: after /\ (64 <= length before)%nat /\
    hex_letter c /\ Forall hex_digit_char before.
Proof.
  intros D HD s digits Hs.
  assert (strip0x s = digits) as E.
  { unfold strip0x. destruct Hs as [->|[-> Hn]]; [now rewrite strip_prefix_app|].
    destruct (strip_prefix (bs "0x") digits) as [r|] eqn:E; [|reflexivity].
    apply strip_prefix_spec in E. now apply Hn in E. }
  rewrite (convert_trap D s HD), E.
  assert (forall c, hexchar c = true <-> hex_digit_char c) as Hx.
  { intros c. unfold hexchar, hex_digit_char, is_digit, is_hex_lower, is_hex_upper. lia. }
  assert (forall c, is_letter c = true <-> hex_letter c) as Hlt.
  { intros c. unfold is_letter, hex_letter, is_hex_lower, is_hex_upper. lia. }
  split.
  - intros (k & c & Hk & Hc & Hi & Hh). exists (take k digits), c, (drop (S k) digits).
    split; [symmetry; now apply take_drop_middle|].
    split; [rewrite take_length; apply lookup_lt_Some in Hk; lia|].
    split; [now apply Hlt|]. apply List.Forall_forall. intros x Hin. apply Hx.
    rewrite forallb_forall in Hh. now apply Hh.
  - intros (before & c & after & -> & Hl & Hc & Hh). exists (length before), c.
    split; [now rewrite list_lookup_middle|]. split; [now apply Hlt|]. split; [assumption|].
    rewrite take_app. apply forallb_forall. intros x Hin. apply Hx.
    rewrite List.Forall_forall in Hh. now apply Hh.
Qed.

Example C03_case :
  convert_to_eip55 CD (bs "d8da6bf26964af9d7eed9e03e53415d37aa96045")
    = Done (Ok (bs "0xd8dA6BF26964aF9D7eEd9e03E53415D37aA96045")).
Proof. vm_compute. reflexivity. Qed.

(** ** C04 Signature strings are validated exactly *)

Theorem C04_accepts_exactly : forall s,
  (exists sg, eth_signature_new s = Done (Ok sg)) <->
  (exists t b, length b = 65%nat /\ hex_denotes t b /\ s = bs "0x" ++ t).
Proof.
  intros s. split.
  - intros [sg H]. destruct (eth_signature_new_spec s) as [[e [He _]]|(t & b & Hb & Ht & Es & _)]; [congruence|].
    exists t, b. now rewrite hex_denotes_lower.
  - intros (t & b & Hb & Ht & Es). rewrite hex_denotes_lower in Ht.
    destruct (eth_signature_new_spec s) as [[e [_ He]]|(t' & b' & _ & _ & _ & H)]; [|eauto].
    now destruct (He t b Hb Ht).
Qed.

Theorem C04_never_panics : forall s,
  eth_signature_new s = Done (Ok (mkEthSignature s)) \/ exists e, eth_signature_new s = Done (Err e).
Proof.
  intros s. destruct (eth_signature_new_spec s) as [[e [He _]]|(t & b & _ & _ & _ & He)]; eauto.
Qed.

Theorem C04_bytes : forall s sg t b, eth_signature_new s = Done (Ok sg) ->
  s = bs "0x" ++ t -> hex_denotes t b ->
  length b = 65%nat /\ sig_as_bytes sg = Done b /\ sig_as_byte_array sg = Done b.
Proof.
  intros s sg t b H Es Ht. apply hex_denotes_lower in Ht.
  destruct (eth_signature_new_spec s) as [[e [He _]]|(t' & b' & Hb & Ht' & Es' & E)]; [congruence|].
  rewrite E in H. injection H as <-.
  assert (t = t') as <- by (rewrite Es in Es'; now apply app_inv_head in Es').
  rewrite Ht in Ht'. apply hex_encode_inj in Ht' as <-. split; [assumption|].
  pose proof (sig_bytes_ok s t b Es Ht) as E1. split; [exact E1|].
  unfold sig_as_byte_array. unfold sig_as_bytes in E1. rewrite E1. cbn [obind].
  unfold copy_to_array. rewrite Hb. reflexivity.
Qed.

Example C04_case : exists sg,
  eth_signature_new (bs "0x" ++ concat (repeat (bs "aB") 64) ++ bs "1b") = Done (Ok sg) /\
  sig_as_bytes sg = Done (repeat xab 64 ++ [x1b]).
Proof. eexists. split; vm_compute; reflexivity. Qed.

(** ** C05 EIP-191 framing is unambiguous *)

Theorem C05_hashes_the_framing : forall D m, exists framed,
  eip191_framed m framed /\ eip191_hash D m = d_keccak D framed.
Proof. intros D m. exists (eip191_bytes m). split; [apply eip191_framed_ok|reflexivity]. Qed.

(** The framing relation is functional and injective, so the hashed bytes determine the message. *)
Theorem C05_framing_functional : forall m f1 f2,
  eip191_framed m f1 -> eip191_framed m f2 -> f1 = f2.
Proof. exact eip191_framed_fun. Qed.

Theorem C05_framing_injective : forall m1 m2 f,
  eip191_framed m1 f -> eip191_framed m2 f -> m1 = m2.
Proof. exact eip191_framed_inj. Qed.

(** So equal hashes mean equal messages or a Keccak collision of the two framings. *)
Theorem C05_hash_binds_message : forall D m1 m2, eip191_hash D m1 = eip191_hash D m2 ->
  m1 = m2 \/ exists f1 f2, eip191_framed m1 f1 /\ eip191_framed m2 f2 /\ collision (d_keccak D) f1 f2.
Proof.
  intros D m1 m2 H. destruct (decide (m1 = m2)) as [|Hne]; [now left|]. right.
  exists (eip191_bytes m1), (eip191_bytes m2). split; [apply eip191_framed_ok|].
  split; [apply eip191_framed_ok|]. split; [|exact H].
  intros E. apply Hne. now apply eip191_bytes_inj.
Qed.

Example C05_case :
  eip191_framed (bs "hello world!") (x19 :: bs "Ethereum Signed Message:" ++ [x0a] ++ bs "12hello world!").
Proof. exists (bs "12"). split; [|reflexivity]. repeat split; try discriminate.
  repeat constructor; vm_compute; discriminate. Qed.

(** ** C06 Recovery is total and only depends on v modulo 27 *)

Theorem C06_never_panics : forall D, deps_ok D -> forall s sg m,
  eth_signature_new s = Done (Ok sg) -> exists r, recover_eth_address D m sg = Done r.
Proof.
  intros D HD s sg m H. destruct (C04_accepts_exactly s) as [Hs _].
  destruct Hs as (t & b & Hb & Ht & Es); [eauto|].
  destruct (C04_bytes s sg t b H Es Ht) as (_ & E & _).
  eexists. exact (recover_spec D m sg b HD Hb E).
Qed.

Theorem C06_rejects_bad_v : forall D, deps_ok D -> forall s sg m b v,
  eth_signature_new s = Done (Ok sg) -> sig_as_bytes sg = Done (b ++ [v]) ->
  3 < nb v mod 27 -> recover_eth_address D m sg = Done (Err InvalidRecoveryId).
Proof.
  intros D HD s sg m b v H Hsb Hv. destruct (C04_accepts_exactly s) as [Hs _].
  destruct Hs as (t & b' & Hb & Ht & Es); [eauto|].
  destruct (C04_bytes s sg t b' H Es Ht) as (_ & E & _).
  rewrite (recover_spec D m sg b' HD Hb E). rewrite E in Hsb. injection Hsb as ->.
  rewrite app_length in Hb. simpl in Hb. rewrite lookup_app_r by lia.
  replace (64 - length b)%nat with 0%nat by lia. cbn [lookup list_lookup].
  apply N.ltb_lt in Hv. cbv zeta. now rewrite Hv.
Qed.

(** Signatures that agree on r and s and whose v bytes agree modulo 27 are interchangeable. *)
Theorem C06_only_v_mod_27 : forall D, deps_ok D -> forall s1 s2 sg1 sg2 rs v1 v2 m,
  eth_signature_new s1 = Done (Ok sg1) -> eth_signature_new s2 = Done (Ok sg2) ->
  sig_as_bytes sg1 = Done (rs ++ [v1]) -> sig_as_bytes sg2 = Done (rs ++ [v2]) ->
  nb v1 mod 27 = nb v2 mod 27 ->
  recover_eth_address D m sg1 = recover_eth_address D m sg2.
Proof.
  intros D HD s1 s2 sg1 sg2 rs v1 v2 m H1 H2 E1 E2 Hv.
  destruct (C04_accepts_exactly s1) as [Hs1 _]. destruct Hs1 as (t & b & Hb & Ht & Es); [eauto|].
  destruct (C04_bytes s1 sg1 t b H1 Es Ht) as (_ & E & _). rewrite E1 in E. injection E as <-.
  rewrite app_length in Hb. simpl in Hb.
  rewrite (recover_spec D m sg1 (rs ++ [v1]) HD); [|rewrite app_length; simpl; lia|assumption].
  rewrite (recover_spec D m sg2 (rs ++ [v2]) HD); [|rewrite app_length; simpl; lia|assumption].
  rewrite !lookup_app_r by lia. replace (64 - length rs)%nat with 0%nat by lia. cbn [lookup list_lookup].
  rewrite !take_app_alt by lia. rewrite Hv. reflexivity.
Qed.

(** A recovered address is the checksummed form of the last 20 bytes of the hash
    of the recovered public key, hence a string EthAddress::new accepts. *)
Theorem C06_result_is_address : forall D, deps_ok D -> forall s sg m a,
  eth_signature_new s = Done (Ok sg) -> recover_eth_address D m sg = Done (Ok a) ->
  eth_address_new D a = Done (Ok (mkEthAddress a)) /\
  exists framed rs v pk, sig_as_bytes sg = Done (rs ++ [v]) /\ eip191_framed m framed /\
    d_recover D (d_keccak D framed) rs (nb v mod 27) = Some pk /\ nb v mod 27 <= 3 /\
    exists front last20, d_keccak D pk = front ++ last20 /\ length last20 = 20%nat /\
      a = eip55 (d_keccak D) last20.
Proof.
  intros D HD s sg m a H Hr. destruct (C04_accepts_exactly s) as [Hs _].
  destruct Hs as (t & b & Hb & Ht & Es); [eauto|].
  destruct (C04_bytes s sg t b H Es Ht) as (_ & E & _).
  rewrite (recover_spec D m sg b HD Hb E) in Hr. cbv zeta in Hr.
  destruct (lookup_lt_is_Some_2 b 64) as [v Hv]; [lia|]. rewrite Hv in Hr.
  destruct (3 <? nb v mod 27) eqn:Hlt; [discriminate|].
  destruct (d_sig_ok D (take 64 b)); [|discriminate].
  destruct (d_recover D _ _ _) as [pk|] eqn:Hpk; [|discriminate].
  assert (a = eip55 (d_keccak D) (drop 12 (d_keccak D pk))) as -> by congruence.
  assert (length (drop 12 (d_keccak D pk)) = 20%nat) as Hl by (rewrite drop_length, (keccak_len _ HD); lia).
  split; [now apply eth_address_new_eip55|].
  exists (eip191_bytes m), (take 64 b), v, pk.
  split.
  { rewrite E. f_equal. rewrite <- (take_drop_middle b 64 v Hv) at 1. f_equal. f_equal.
    apply nil_length_inv. rewrite drop_length. lia. }
  split; [apply eip191_framed_ok|]. split; [exact Hpk|].
  split; [apply N.ltb_ge in Hlt; exact Hlt|].
  exists (take 12 (d_keccak D pk)), (drop 12 (d_keccak D pk)).
  split; [symmetry; apply take_drop|]. split; [assumption|reflexivity].
Qed.

(** Concrete: a toy signature recovers to the address of the key that made it, with
    v = 27 and with v = 0; v = 4 is rejected. *)
Definition ex_pk : bytes := map u8 (map N.of_nat (seq 1 64)).
Definition ex_sig (m : bytes) (v : byte) : bytes :=
  bs "0x" ++ hex_encode (toy_sign (eip191_hash CD m) ex_pk ++ [v]).
Example C06_case :
  (olet sg := eth_signature_new (ex_sig (bs "hi") x1b) in
   olet sg := unwrap sg in recover_eth_address CD (bs "hi") sg)
  = Done (Ok (eip55 keccak256 (drop 12 (keccak256 ex_pk)))) /\
  (olet sg := eth_signature_new (ex_sig (bs "hi") x04) in
   olet sg := unwrap sg in recover_eth_address CD (bs "hi") sg) = Done (Err InvalidRecoveryId).
Proof. split; vm_compute; reflexivity. Qed.

Print Assumptions C01_accepts_exactly_eip55.
Print Assumptions C01_never_panics_and_keeps_the_string.
Print Assumptions C01_eip55_shape.
Print Assumptions C02_bytes_of_accepted.
Print Assumptions C02_unique_string.
Print Assumptions C02_injective.
Print Assumptions C03_converts_any_casing.
Print Assumptions C03_idempotent.
Print Assumptions C03_never_panics_refuted.
Print Assumptions C03_panics_exactly.
Print Assumptions C04_accepts_exactly.
Print Assumptions C04_never_panics.
Print Assumptions C04_bytes.
Print Assumptions C05_hashes_the_framing.
Print Assumptions C05_framing_functional.
Print Assumptions C05_framing_injective.
Print Assumptions C05_hash_binds_message.
Print Assumptions C06_never_panics.
Print Assumptions C06_rejects_bad_v.
Print Assumptions C06_only_v_mod_27.
Print Assumptions C06_result_is_address.
