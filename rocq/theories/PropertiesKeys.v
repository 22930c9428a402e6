(** Property C70: which session keys are accepted. *)
From Coq Require Import Strings.String ZifyBool ZifyN ZifyNat.
From Verif Require Import Base BaseLemmas Deps Hex Encode Delegation Provider Client SpecEth SpecHash SpecWire SpecTree SpecTrace
  SpecClient ProviderProofs LoginProofs Asn1 SpecAsn1 Asn1Proofs Concrete Scripts Demo PropertiesLogin PropertiesClient.
Local Open Scope N_scope.

(** ** C70  A session key is accepted exactly if it is a sequence of ASN.1 elements *)

(** [D] rejects session keys as simple_asn1 does, up to the texts of the errors and the
    contents of string and time types. *)
Definition checks_asn1 (D : Deps) (leaf : N -> bytes -> bool) : Prop :=
  exists show, forall sk, d_der_err D sk = option_map show (from_der leaf sk).
Definition reads (leaf : N -> bytes -> bool) (tag : N) (l : bytes) : Prop := leaf tag l = true.

Theorem C70_grammar : forall leaf sk, blen sk < 2 ^ 32 ->
  from_der leaf sk = None <-> elements (reads leaf) sk.
Proof. exact from_der_iff. Qed.

Lemma bad_key_elements D leaf sk : checks_asn1 D leaf -> blen sk < 2 ^ 32 -> ~ bad_key D sk <-> elements (reads leaf) sk.
Proof.
  intros [show HS] Hl. rewrite <- (C70_grammar leaf sk Hl). unfold bad_key. rewrite HS.
  destruct (from_der leaf sk) eqn:E; cbn [option_map].
  - split; [|discriminate]. intros H. exfalso. apply H. right. discriminate.
  - split; [reflexivity|]. intros _ [->|H]; [vm_compute in E; discriminate E|contradiction].
Qed.

(** In both directions for whole calls: a login never succeeds with another key, and
    a correct login with such a key succeeds (with the exceptions of C31). *)
Theorem C70_only : forall D leaf cid tr e s sg x sk n exp pk, deps_ok D -> checks_asn1 D leaf ->
  exec D cid (tr ++ [e]) s -> logged_in e sg x sk n exp pk -> blen sk < 2 ^ 32 -> elements (reads leaf) sk.
Proof.
  intros D leaf cid tr e s sg x sk n exp pk HD HA H Hl Hs.
  destruct (C27_authenticated D cid tr e s sg x sk n exp pk HD H Hl) as (i & since & bf & p & af & x' & n' & text & b & b' & R).
  apply (bad_key_elements D leaf sk HA Hs). tauto.
Qed.

Theorem C70_every : forall D leaf cid tr s i since before p after x text n b sg sk now, deps_ok D -> checks_asn1 D leaf ->
  exec D cid tr s -> since_boot tr i since -> since = before ++ p :: after ->
  prepared p x text n -> address_text D x b ->
  Forall (fun q => ~ login_attempt D q x n) after ->
  recovers D text sg x -> blen sk < 2 ^ 32 -> elements (reads leaf) sk ->
  Forall (fun e => ev_time e <= now) tr -> now < ev_time p + sign_in_window i -> now < u64_max ->
  (exists s' d, step D cid now (SiweLogin sg x sk n) s = (s', RLogin (Ok d))) \/
  (exists q text', In q after /\ prepared q x text' n) \/
  (exists q x' n' b', In q after /\ touches_pair D q x' n' /\ address_text D x' b' /\
     collision (d_sha256 D) (message_key_input b' n') (message_key_input b n)).
Proof.
  intros D leaf cid tr s i since bf p af x text n b sg sk now HD HA H Hb Es Hp Ha HF Hr Hs He Ht Hw Hu.
  apply (bad_key_elements D leaf sk HA Hs) in He.
  destruct (C31_succeeds D cid tr s i since bf p af x text n b sg sk now HD H Hb Es Hp Ha HF Hr He Ht Hw Hu) as [[s' E]|O]; [left|right; exact O].
  exists s'. eexists. exact E.
Qed.

(** *** Public keys are such sequences *)

Lemma short_length c : blen c < 128 -> length_octets (blen c) (der_len (blen c)).
Proof.
  intros H. unfold der_len. assert (blen c <? 128 = true) as -> by lia.
  assert (nb (u8 (blen c)) = blen c) as E by (rewrite nb_u8; apply N.mod_small; lia).
  rewrite <- E at 1. constructor. lia.
Qed.

(** Any SubjectPublicKeyInfo: a SEQUENCE of an algorithm identifier, itself a SEQUENCE of
    elements, and a BIT STRING. *)
Theorem C70_public_keys : forall leaf alg key, elements leaf alg -> blen alg + blen key < 120 ->
  elements leaf (der_sequence [der_sequence [alg]; der_bit_string key]).
Proof.
  intros leaf alg key Ha Hl. unfold der_sequence, der_bit_string, der_tlv.
  assert (blen (x00 :: key) < 128) as L1 by (unfold blen in *; cbn [length]; lia).
  assert (blen (concat [alg]) < 128) as L2 by (cbn [concat]; rewrite app_nil_r; lia).
  assert (forall n, n < 128 -> der_len n = [u8 n]) as DL.
  { intros n Hn. unfold der_len. now assert (n <? 128 = true) as -> by lia. }
  set (c := concat _). assert (blen c < 128) as L3.
  { unfold c. rewrite !DL by assumption. unfold blen in *. cbn [concat length app]. rewrite !app_nil_r in *.
    cbn [length app]. rewrite app_length. cbn [length]. lia. }
  apply e_one. change (x30 :: der_len (blen c) ++ c) with ([x30] ++ der_len (blen c) ++ c).
  eapply (e_constructed leaf 16); [now left|exact (id_low x30 0 eq_refl eq_refl)|now apply short_length|].
  unfold c. cbn [concat]. rewrite !app_nil_r. apply e_cons.
  - change (x30 :: der_len (blen alg) ++ alg) with ([x30] ++ der_len (blen alg) ++ alg).
    eapply (e_constructed leaf 16); [now left|exact (id_low x30 0 eq_refl eq_refl)|apply short_length|exact Ha].
    cbn [concat] in L2. now rewrite app_nil_r in L2.
  - apply e_one. change (x03 :: der_len (blen (x00 :: key)) ++ x00 :: key) with ([x03] ++ der_len (blen (x00 :: key)) ++ (x00 :: key)).
    eapply (e_simple leaf 3); [exact (id_low x03 0 eq_refl eq_refl)|now apply short_length|].
    constructor. change (nb x00) with 0. lia.
Qed.

(** So the keys of the browser client (Ed25519), P-256 and secp256k1 keys, and the
    canister-signature keys this canister makes itself. *)
Definition alg_ed25519 : bytes := [x06; x03; x2b; x65; x70].
Definition alg_p256 : bytes := [x06; x07; x2a; x86; x48; xce; x3d; x02; x01; x06; x08; x2a; x86; x48; xce; x3d; x03; x01; x07].
Definition alg_secp256k1 : bytes := [x06; x07; x2a; x86; x48; xce; x3d; x02; x01; x06; x05; x2b; x81; x04; x00; x0a].
Theorem C70_usual_keys : forall leaf,
  (forall k, length (kp_raw k) = 32%nat -> elements (reads leaf) (kp_der k)) /\
  (forall point, length point = 65%nat -> elements (reads leaf) (der_sequence [der_sequence [alg_p256]; der_bit_string point])) /\
  (forall point, length point = 65%nat -> elements (reads leaf) (der_sequence [der_sequence [alg_secp256k1]; der_bit_string point])) /\
  (forall cid seed, (length cid <= 29)%nat -> length seed = 32%nat -> elements (reads leaf) (create_user_canister_pubkey cid seed)).
Proof.
  intros leaf.
  assert (forall alg key, blen alg + blen key < 120 -> from_der leaf alg = None ->
    elements (reads leaf) (der_sequence [der_sequence [alg]; der_bit_string key])) as HK.
  { intros alg key Hl Ha. apply C70_public_keys; [|exact Hl]. apply C70_grammar; [|exact Ha]. change (2 ^ 32) with 4294967296. lia. }
  split; [|split; [|split]].
  - intros [raw sec] Hr. cbn [kp_raw] in Hr.
    assert (kp_der (mkPair raw sec) = der_sequence [der_sequence [alg_ed25519]; der_bit_string raw]) as ->.
    { unfold kp_der, der_sequence, der_bit_string, der_tlv, ED25519_PREFIX, alg_ed25519. cbn [kp_raw].
      assert (blen (x00 :: raw) = 33) as E33 by (unfold blen; cbn [length]; lia). rewrite E33.
      change (der_len 33) with [x21]. cbn [concat app].
      set (c := blen [x06; x03; x2b; x65; x70]). change c with 5. change (der_len 5) with [x05]. cbn [app].
      set (n := blen _). assert (n = 42) as -> by (unfold n, blen; cbn [length]; rewrite app_nil_r; lia).
      change (der_len 42) with [x2a]. cbn [app]. now rewrite app_nil_r. }
    apply HK; [unfold blen; cbn [length alg_ed25519]; lia|reflexivity].
  - intros point Hp. apply HK; [unfold blen, alg_p256; cbn [length]; lia|reflexivity].
  - intros point Hp. apply HK; [unfold blen, alg_secp256k1; cbn [length]; lia|reflexivity].
  - intros cid seed Hc Hs. unfold create_user_canister_pubkey. apply HK; [|reflexivity].
    change (blen (der_oid [1; 3; 6; 1; 4; 1; 56387; 1; 2])) with 12. unfold raw_pubkey, blen. cbn [length]. rewrite app_length. lia.
Qed.

(** C56 without its hypothesis on the session key: the browser client's keys are accepted. *)
Theorem C70_signs_in : forall D leaf cid acts w i since b r a seed x addr wallet k cert t1 t2 t3, deps_ok D -> checks_asn1 D leaf ->
  runs D cid acts w -> x_initializing (w_ctx w) = false ->
  (forall t, In t (w_tasks w) -> settled t) -> x_message (w_ctx w) = None ->
  since_boot (w_history w) i since -> since = b ++ r :: a -> ev_op r = RawRand (Some seed) ->
  Forall (fun e => forall o, ev_op e <> RawRand o) b ->
  address_text D x addr -> (forall text, recovers D text (wallet text) x) ->
  length (kp_raw k) = 32%nat -> length (kp_secret k) = 32%nat ->
  (forall l sg y n exp pk, In l since -> ~ logged_in l sg y (kp_der k) n exp pk) ->
  Forall (fun e => ev_time e <= t1) (w_history w) -> t1 <= t2 -> t2 < t1 + sign_in_window i ->
  t2 <= t3 -> t3 < t2 + one_minute -> t3 < u64_max ->
  (exists text w' id, runs D cid (acts ++ login_actions (length (w_tasks w)) x (wallet text) k cert t1 t2 t3) w' /\
     signed_in w' x id /\ id_key id = k /\ x_login (w_ctx w') = Success) \/
  (exists l sg y sk n exp pk exp' t, In l since /\ logged_in l sg y sk n exp pk /\ sk <> kp_der k /\ targets_of i t /\
     delegation_collision D t sk exp (kp_der k) exp').
Proof.
  intros D leaf cid acts w i since b r a seed x addr wallet k cert t1 t2 t3 HD HA H Hi Hs Hm Hb Es Er HF Ha Hw Hk1 Hk2.
  assert (d_der_err D (kp_der k) = None) as Hd.
  { destruct (C70_usual_keys leaf) as [He _]. specialize (He k Hk1).
    apply (bad_key_elements D leaf (kp_der k) HA) in He.
    - destruct (d_der_err D (kp_der k)) eqn:E; [|reflexivity]. exfalso. apply He. right. congruence.
    - unfold kp_der, blen. rewrite app_length, Hk1. reflexivity. }
  now apply (C56_signs_in D cid acts w i since b r a seed x addr wallet k cert t1 t2 t3).
Qed.

(** *** Not only public keys *)

(** "Only a public key gets a delegation" is false: the two bytes of an ASN.1 NULL will do,
    since nothing looks at what the elements are. *)
Definition C70_claim (D : Deps) : Prop := forall cid tr e s sg x sk n exp pk,
  exec D cid (tr ++ [e]) s -> logged_in e sg x sk n exp pk -> exists oid key, spki_decode sk = Some (oid, key).
Definition null_key : bytes := [x05; x00].
Definition null_script : list (N * op) := Eval vm_compute in
  stage CD demo_cid [(0, Do (Install demo_input)); (1 * sec, Do (RawRand (Some (repeat x07 32)))); (2 * sec, Prepare alice);
    (3 * sec, LoginWith 2 alice alice null_key)] [] None.
Definition null_tr : list event := Eval vm_compute in fst (play CD demo_cid null_script None).
Lemma null_exec : exists s, exec CD demo_cid null_tr s.
Proof.
  exists (snd (play CD demo_cid null_script None)). apply (play_exec _ _ null_script); [vm_compute; reflexivity|].
  assert (fst (play CD demo_cid null_script None) = null_tr) as <- by (vm_compute; reflexivity). apply surjective_pairing.
Qed.
Theorem C70_public_key_refuted : ~ C70_claim CD.
Proof.
  intros H. destruct null_exec as [s He].
  assert (null_tr = take 3 null_tr ++ [List.nth 3 null_tr (mkEvent 0 (RawRand None) RDone)]) as E by reflexivity. rewrite E in He.
  destruct (H demo_cid _ _ s _ _ null_key _ _ _ He (conj eq_refl eq_refl)) as (oid & key & K).
  vm_compute in K. discriminate K.
Qed.

(** Concrete: the demonstration uses this parser; two session keys of the demonstration,
    an Ed25519 key and some that are refused, among them the empty SEQUENCE. *)
Example C70_case : checks_asn1 CD asn1_leaf /\
  (exists s sg x n exp pk, exec CD demo_cid (take 4 demo_tr ++ [demo_at 4]) s /\ logged_in (demo_at 4) sg x key1 n exp pk) /\
  elements (reads asn1_leaf) key1 /\ elements (reads asn1_leaf) (key2 ++ key1) /\
  ~ elements (reads asn1_leaf) [x30; x00] /\ ~ elements (reads asn1_leaf) [x30; x05; x05; x00] /\
  ~ elements (reads asn1_leaf) [x03; x01; x01] /\ ~ elements (reads asn1_leaf) [x06; x02; x2b; x81] /\
  elements (reads asn1_leaf) (xbf :: x81 :: x01 :: x82 :: x01 :: x00 :: repeat xff 256).
Proof.
  split; [exists show_asn1; reflexivity|]. split.
  { destruct (demo_prefix 5) as [c H]; [lia|]. exists (Some c). repeat eexists. exact H. }
  repeat split; first [apply C70_grammar; [reflexivity|vm_compute; reflexivity]
    | intros H; apply C70_grammar in H; [vm_compute in H; discriminate H|reflexivity]].
Qed.

Print Assumptions C70_grammar.
Print Assumptions C70_only.
Print Assumptions C70_every.
Print Assumptions C70_public_keys.
Print Assumptions C70_usual_keys.
Print Assumptions C70_signs_in.
Print Assumptions C70_public_key_refuted.
