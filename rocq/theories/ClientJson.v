(** The stored identity reads back as it was written. *)
From Coq Require Import Strings.String ZifyBool ZifyN ZifyNat.
From Verif Require Import Base BaseLemmas Deps Hex Eth EthProofs Json SpecJson JsonProofs Delegation Client.
Local Open Scope N_scope.

Lemma hex_val_digit n : n < 16 -> hex_val (hex_digit n) = Some n.
Proof.
  intros H. apply hex_val_spec. split; [assumption|].
  assert (n = 0 \/ n = 1 \/ n = 2 \/ n = 3 \/ n = 4 \/ n = 5 \/ n = 6 \/ n = 7 \/ n = 8 \/ n = 9 \/ n = 10 \/
          n = 11 \/ n = 12 \/ n = 13 \/ n = 14 \/ n = 15) as C by lia.
  repeat (destruct C as [->|C]; [reflexivity|]). subst n. reflexivity.
Qed.

Lemma hex_val_upper n : n < 16 -> hex_val (upper (hex_digit n)) = Some n.
Proof.
  intros H.
  assert (n = 0 \/ n = 1 \/ n = 2 \/ n = 3 \/ n = 4 \/ n = 5 \/ n = 6 \/ n = 7 \/ n = 8 \/ n = 9 \/ n = 10 \/
          n = 11 \/ n = 12 \/ n = 13 \/ n = 14 \/ n = 15) as C by lia.
  repeat (destruct C as [->|C]; [reflexivity|]). subst n. reflexivity.
Qed.

Lemma nibbles_byte b : u8 (16 * (nb b / 16) + nb b mod 16) = b.
Proof. rewrite <- N.div_mod by lia. destruct b; reflexivity. Qed.

Lemma js_hex_pair a b h lo t r : hex_val a = Some h -> hex_val b = Some lo -> js_hex_bytes r = Some t ->
  js_hex_bytes (a :: b :: r) = Some (u8 (16 * h + lo) :: t).
Proof. intros Ea Eb Er. cbn [js_hex_bytes]. now rewrite Ea, Eb, Er. Qed.

Lemma js_hex_encode l : js_hex_bytes (hex_encode l) = Some l.
Proof.
  induction l as [|b l IH]; [reflexivity|]. rewrite hex_encode_cons.
  pose proof (Byte.to_N_bounded b).
  rewrite <- (nibbles_byte b) at 3. apply js_hex_pair; [| |exact IH]; apply hex_val_digit; lia.
Qed.

Lemma js_hex_upper l : js_hex_bytes (map upper (hex_encode l)) = Some l.
Proof.
  induction l as [|b l IH]; [reflexivity|]. rewrite hex_encode_cons. cbn [map].
  pose proof (Byte.to_N_bounded b).
  rewrite <- (nibbles_byte b) at 3. apply js_hex_pair; [| |exact IH]; apply hex_val_upper; lia.
Qed.

Lemma js_from_hex_encode l : l <> [] -> js_from_hex (hex_encode l) = Some l.
Proof.
  intros H. unfold js_from_hex. destruct (hex_encode l) eqn:E; [|rewrite <- E; apply js_hex_encode].
  apply (f_equal (@length byte)) in E. rewrite hex_encode_length in E. destruct l; [congruence|]. cbn in E. lia.
Qed.

(** ** Numbers *)

Lemma N_of_hex_aux_app l1 : forall acc l2, N_of_hex_aux acc (l1 ++ l2) =
  match N_of_hex_aux acc l1 with Some a => N_of_hex_aux a l2 | None => None end.
Proof.
  induction l1 as [|c l1 IH]; intros acc l2; [reflexivity|]. cbn [app N_of_hex_aux].
  destruct (hex_val c); [apply IH|reflexivity].
Qed.

Lemma hex_aux_app fuel : forall n acc, hex_aux fuel n acc = hex_aux fuel n [] ++ acc.
Proof.
  induction fuel as [|f IH]; intros n acc; [reflexivity|]. cbn [hex_aux].
  destruct (n / 16 =? 0); [reflexivity|]. rewrite IH, (IH _ [_]), <- app_assoc. reflexivity.
Qed.

Lemma hex_aux_value fuel : forall n, n < 2 ^ N.of_nat fuel -> N_of_hex_aux 0 (hex_aux fuel n []) = Some n.
Proof.
  induction fuel as [|f IH]; intros n H.
  { change (2 ^ N.of_nat 0) with 1 in H. cbn. f_equal. lia. }
  cbn [hex_aux]. assert (n = 16 * (n / 16) + n mod 16) as E by (apply N.div_mod; lia).
  pose proof (N.mod_lt n 16 ltac:(lia)).
  destruct (n / 16 =? 0) eqn:Q.
  - cbn [N_of_hex_aux]. rewrite hex_val_digit by assumption. f_equal. lia.
  - rewrite hex_aux_app, N_of_hex_aux_app, IH.
    + cbn [N_of_hex_aux]. rewrite hex_val_digit by assumption. f_equal. lia.
    + rewrite Nat2N.inj_succ, N.pow_succ_r' in H. lia.
Qed.

Lemma hex_aux_not_nil fuel n : hex_aux (S fuel) n [] <> [].
Proof.
  cbn [hex_aux]. destruct (n / 16 =? 0); [discriminate|]. rewrite hex_aux_app. intros E.
  apply app_eq_nil in E as [_ E]. discriminate.
Qed.

Lemma N_of_hex_of_N n : N_of_hex (hex_of_N n) = Some n.
Proof.
  unfold N_of_hex, hex_of_N. destruct (hex_aux _ n []) eqn:E; [now apply hex_aux_not_nil in E|].
  rewrite <- E. apply hex_aux_value. rewrite Nat2N.inj_succ, N2Nat.id.
  destruct n as [|p]; [reflexivity|]. apply N.log2_spec. lia.
Qed.

(** ** Key pairs and chains *)

Definition key_ok (k : keypair) : Prop := length (kp_raw k) = 32%nat /\ length (kp_secret k) = 32%nat.
Definition signed_ok (d : SignedDelegation) : Prop :=
  (32 <= length (dl_pubkey (sd_delegation d)))%nat /\ (32 <= length (sd_signature d))%nat.
Definition chain_ok (c : chain) : Prop :=
  Forall signed_ok (ch_delegations c) /\ (32 <= length (ch_pubkey c))%nat.

Lemma keypair_json k : key_ok k -> keypair_from_json (keypair_to_json k) = Some k.
Proof.
  intros [H1 H2]. destruct k as [raw secret]. cbn [kp_raw kp_secret] in *. unfold keypair_to_json, keypair_from_json.
  cbn [kp_secret]. rewrite !js_from_hex_encode; [|destruct secret; [discriminate|discriminate]|discriminate].
  unfold ed25519_unwrap, kp_der. cbn [kp_raw].
  assert (strip_prefix ED25519_PREFIX (ED25519_PREFIX ++ raw) = Some raw) as -> by reflexivity.
  rewrite H1. reflexivity.
Qed.

Lemma parse_blob_encode l : (32 <= length l)%nat -> parse_blob (Some (JStr (hex_encode l))) = Some l.
Proof.
  intros H. cbn [parse_blob]. unfold blen. rewrite hex_encode_length.
  assert (N.of_nat (2 * length l) <? 64 = false) as -> by lia.
  apply js_from_hex_encode. intros ->. cbn in H. lia.
Qed.

Lemma all_some_map {A B} (f : B -> option A) (g : A -> B) l :
  Forall (fun x => f (g x) = Some x) l -> all_some f (map g l) = Some l.
Proof. induction 1 as [|x l E _ IH]; [reflexivity|]. cbn [map all_some]. now rewrite E, IH. Qed.

Lemma targets_json t :
  targets_from_json (match t with
                     | Some l => Some (JArr (map (fun t => JStr (map upper (hex_encode t))) l))
                     | None => None
                     end) = Some t.
Proof.
  destruct t as [l|]; [|reflexivity]. cbn [targets_from_json].
  rewrite (all_some_map target_from_json (fun t => JStr (map upper (hex_encode t)))); [reflexivity|].
  apply List.Forall_forall. intros x _. cbn [target_from_json]. apply js_hex_upper.
Qed.

Lemma signed_json d : signed_ok d -> signed_from_json (signed_to_json d) = Some d.
Proof.
  intros [H1 H2]. destruct d as [[pk e t] sg]. cbn [sd_delegation sd_signature dl_pubkey] in *.
  unfold signed_from_json, signed_to_json. cbn [sd_delegation sd_signature].
  change (json_field (bs "delegation") (JObj [(bs "delegation", delegation_to_json (mkDelegation pk e t));
    (bs "signature", JStr (hex_encode sg))])) with (Some (delegation_to_json (mkDelegation pk e t))).
  change (json_field (bs "signature") (JObj [(bs "delegation", delegation_to_json (mkDelegation pk e t));
    (bs "signature", JStr (hex_encode sg))])) with (Some (JStr (hex_encode sg))). cbn iota beta.
  assert (json_field (bs "pubkey") (delegation_to_json (mkDelegation pk e t)) = Some (JStr (hex_encode pk))) as -> by reflexivity.
  assert (json_field (bs "expiration") (delegation_to_json (mkDelegation pk e t)) = Some (JStr (hex_of_N e))) as -> by reflexivity.
  assert (json_field (bs "targets") (delegation_to_json (mkDelegation pk e t)) =
    match t with Some l => Some (JArr (map (fun t => JStr (map upper (hex_encode t))) l)) | None => None end) as ->
    by (destruct t; reflexivity).
  rewrite !parse_blob_encode, targets_json by assumption. cbn [expiration_from_json]. now rewrite N_of_hex_of_N.
Qed.

Lemma chain_json c : chain_ok c -> chain_from_json (chain_to_json c) = Some c.
Proof.
  intros [H1 H2]. destruct c as [ds pk]. cbn [ch_delegations ch_pubkey] in *. unfold chain_from_json, chain_to_json.
  cbn [ch_delegations ch_pubkey].
  change (json_field (bs "delegations") (JObj [(bs "delegations", JArr (map signed_to_json ds));
    (bs "publicKey", JStr (hex_encode pk))])) with (Some (JArr (map signed_to_json ds))).
  change (json_field (bs "publicKey") (JObj [(bs "delegations", JArr (map signed_to_json ds));
    (bs "publicKey", JStr (hex_encode pk))])) with (Some (JStr (hex_encode pk))).
  cbn iota beta. rewrite (all_some_map signed_from_json signed_to_json), parse_blob_encode; [reflexivity|assumption|].
  revert H1. apply List.Forall_impl. apply signed_json.
Qed.

(** ** The text *)

Lemma strings_fine l : (forall j, In j l -> json_fine j) -> json_fine (JArr l).
Proof.
  induction l as [|j l IH]; intros H; [exact I|]. split; [apply H; now left|]. apply IH. intros x Hx. apply H. now right.
Qed.
Lemma delegation_fine d : json_fine (delegation_to_json d).
Proof.
  destruct d as [pk e [l|]]; cbn [delegation_to_json dl_targets dl_expiration dl_pubkey app]; (split;
    [repeat (constructor; [cbn; intuition discriminate|]); constructor|]); [|repeat split].
  do 2 (split; [exact I|]). split; [|exact I]. apply strings_fine. intros j H. apply in_map_iff in H as (x & <- & _). exact I.
Qed.
Lemma chain_fine c : json_fine (chain_to_json c).
Proof.
  split; [repeat (constructor; [cbn; intuition discriminate|]); constructor|]. split; [|repeat split].
  apply strings_fine. intros j H. apply in_map_iff in H as (d & <- & _).
  split; [repeat (constructor; [cbn; intuition discriminate|]); constructor|]. split; [apply delegation_fine|repeat split].
Qed.
Lemma keypair_fine k : json_fine (keypair_to_json k).
Proof. repeat split. Qed.
Lemma identity_fine a k c : json_fine (identity_json a k c).
Proof.
  split; [repeat (constructor; [cbn; intuition discriminate|]); constructor|].
  split; [exact I|]. split; [apply keypair_fine|]. split; [apply chain_fine|exact I].
Qed.

Lemma load_save a k c : a <> [] -> key_ok k -> chain_ok c ->
  load_identity (Some (save_identity a k c)) = Some (JStr a, mkIdent k c, c).
Proof.
  intros Ha Hk Hc. unfold load_identity, save_identity.
  pose proof (parse_text _ (identity_fine a k c)) as P.
  destruct (json_text (identity_json a k c)) as [|b t]; [discriminate P|]. rewrite P. clear P b t.
  unfold identity_json. set (j := JObj _).
  change (json_field (bs "address") j) with (Some (JStr a)).
  change (json_field (bs "sessionIdentity") j) with (Some (keypair_to_json k)).
  change (json_field (bs "delegationChain") j) with (Some (chain_to_json c)). cbn iota beta.
  assert (truthy (JStr a) = true) as -> by (destruct a; [congruence|reflexivity]).
  change (truthy (keypair_to_json k)) with true. change (truthy (chain_to_json c)) with true.
  cbn [andb]. unfold chain_from_text, keypair_from_text.
  rewrite (parse_text _ (chain_fine c)), (parse_text _ (keypair_fine k)), chain_json, keypair_json by assumption. reflexivity.
Qed.
