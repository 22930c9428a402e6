(** C71-C73: signatures, with the model of k256 in place of the parameter. *)
From Coq Require Import Strings.String Znumtheory ZifyBool ZifyN ZifyNat.
From Verif Require Import Base BaseLemmas Deps Hex Eth Encode Settings Siwe Delegation Login Provider SpecEth EthProofs SpecHash SpecTrace
  LoginProofs ProviderProofs TraceProofs LoginTheory Keccak Concrete Scripts Demo PropertiesLogin
  Secp SpecEcdsa EcdsaProofs EcdsaRecover EcdsaBytes PointCerts EcdsaVector.
Local Open Scope Z_scope.

(** ** C71  Recovery is exact *)

(** A signature text recovers to an address over a text exactly if it is one that the owner of
    a private key with that address makes for the text. *)
Theorem C71_exact : forall D text sg x, deps_ok D ->
  recovers (with_k256 D) text sg x <->
  exists d Q addr, key_pair d Q /\ key_address (d_keccak D) Q addr /\ x = eip55 (d_keccak D) addr /\
    wallet_signature (d_keccak D) d text sg.
Proof. exact recovers_wallet. Qed.

(** The same in terms of verification under the public key, which needs no secrets: r and s
    pass the verification of SEC 1, s is low, and there is just one recovery id for each
    signature that does. *)
Theorem C71_verified : forall D text sg x, deps_ok D -> recovers (with_k256 D) text sg x ->
  exists Q addr framed br bs' bv r s, eip191_framed text framed /\ signature_text sg (br ++ bs' ++ [bv]) /\
    octets 32 r br /\ octets 32 s bs' /\
    ecdsa_verify Q (os2ip (d_keccak D framed)) r s /\ 2 * s < secp_n /\
    key_address (d_keccak D) Q addr /\ x = eip55 (d_keccak D) addr.
Proof.
  intros D text sg x HD H. apply recovers_wallet in H as (d & Q & addr & Hk & Ha & Hx & framed & sig65 & Hf & Hs & Ht); [|assumption].
  destruct Hs as (k & z & r & s & v & br & bs' & bv & Oz & Hsig & Or & Os & Ev & ->).
  exists Q, addr, framed, br, bs', bv, r, s. destruct Oz as [_ ->].
  pose proof (eth_sign_verify _ _ _ _ _ _ _ Hk Hsig). destruct Hsig as (s0 & xR & yR & _ & Hlow & _). auto 10.
Qed.

Theorem C71_verified_conversely : forall D text framed d Q addr br bs' r s, deps_ok D ->
  key_pair d Q -> key_address (d_keccak D) Q addr -> eip191_framed text framed -> octets 32 r br -> octets 32 s bs' ->
  ecdsa_verify Q (os2ip (d_keccak D framed)) r s -> 2 * s < secp_n ->
  exists v, (v < 4)%N /\ forall bv sg, signature_text sg (br ++ bs' ++ [bv]) -> (nb bv mod 27 = v)%N ->
    recovers (with_k256 D) text sg (eip55 (d_keccak D) addr).
Proof.
  intros D text framed d Q addr br bs' r s HD Hk Ha Hf Or Os Hv Hlow.
  destruct (verify_eth_sign d Q _ r s Hk Hv Hlow) as (k & v & Hsig). exists v.
  split; [now apply eth_sign_v in Hsig|]. intros bv sg Hst Ev. apply recovers_wallet; [assumption|].
  exists d, Q, addr. split; [assumption|]. split; [assumption|]. split; [reflexivity|].
  exists framed, (br ++ bs' ++ [bv]). split; [assumption|]. split; [|assumption].
  exists k, (os2ip (d_keccak D framed)), r, s, v, br, bs', bv. split; [split; [apply (keccak_len _ HD)|reflexivity]|]. auto 10.
Qed.

(** No signature belongs to two keys. *)
Theorem C71_one_key : forall D text sg d1 d2, deps_ok D ->
  0 < d1 < secp_n -> 0 < d2 < secp_n ->
  wallet_signature (d_keccak D) d1 text sg -> wallet_signature (d_keccak D) d2 text sg -> d1 = d2.
Proof.
  intros D text sg d1 d2 HD H1 H2 (f1 & b1 & F1 & (k1 & z1 & r1 & s1 & v1 & br1 & bs1 & bv1 & Z1 & S1 & R1 & T1 & V1 & E1) & X1)
    (f2 & b2 & F2 & (k2 & z2 & r2 & s2 & v2 & br2 & bs2 & bv2 & Z2 & S2 & R2 & T2 & V2 & E2) & X2).
  assert (b1 = b2) as <- by (eapply signature_text_inj; eassumption).
  assert (f1 = f2) as <- by (eapply eip191_framed_fun; eassumption).
  destruct Z1 as [_ <-], Z2 as [_ <-]. rewrite E1 in E2.
  destruct R1 as [L1 <-], R2 as [L2 <-], T1 as [L3 <-], T2 as [L4 <-].
  apply app_inj_1 in E2 as [<- E2]; [|congruence]. apply app_inj_1 in E2 as [<- E2]; [|congruence].
  injection E2 as <-. rewrite <- V1 in S1. rewrite <- V2 in S2.
  destruct (key_exists d1 H1) as (x1 & y1 & K1), (key_exists d2 H2) as (x2 & y2 & K2).
  pose proof (recover_key_complete _ _ _ _ _ _ _ _ K1 S1) as Q1. pose proof (recover_key_complete _ _ _ _ _ _ _ _ K2 S2) as Q2.
  rewrite Q1 in Q2. apply (inj Some) in Q2. assert (x1 = x2 /\ y1 = y2) as [-> ->] by (split; congruence).
  eapply key_unique; eassumption.
Qed.

(** Concrete: the example of the web3.js documentation, a signature that a real wallet made. *)
Lemma web3_wallet : key_pair web3_key (Aff (fst web3_Q) (snd web3_Q)) /\
  wallet_signature keccak256 web3_key (bs "Some data") web3_sig.
Proof.
  split.
  { split; [vm_compute; split; reflexivity|]. exact web3_key_point. }
  destruct (signature_cases web3_sig) as [(e & E & _)|(sb & Hs & _ & Esb)]; [exfalso; vm_compute in E; discriminate|].
  exists (eip191_bytes (bs "Some data")), sb. split; [apply eip191_framed_ok|]. split; [|assumption].
  assert (sb = be_bytes 32 (fst web3_R) ++ be_bytes 32 web3_s ++ [x1c]) as ->.
  { vm_compute in Esb. vm_compute. congruence. }
  exists web3_nonce, web3_z, (fst web3_R), web3_s, 1%N, (be_bytes 32 (fst web3_R)), (be_bytes 32 web3_s), x1c.
  split; [split; vm_compute; reflexivity|]. split.
  { exists web3_s, (fst web3_R), (snd web3_R). split.
    - split; [vm_compute; split; reflexivity|]. split.
      { exact web3_nonce_point. }
      split; [vm_compute; split; reflexivity|]. split; [exists 0; ring|]. split; [vm_compute; split; reflexivity|].
      rewrite congr_n. vm_compute. reflexivity.
    - split; [vm_compute; reflexivity|]. split; [now left|]. vm_compute. reflexivity. }
  split; [split; vm_compute; reflexivity|]. split; [split; vm_compute; reflexivity|]. split; [reflexivity|reflexivity].
Qed.

Lemma key_address_of (keccak : bytes -> bytes) x y : (forall m, length (keccak m) = 32%nat) -> in_field x -> in_field y ->
  key_address keccak (Aff x y) (drop 12 (keccak (be_bytes 32 x ++ be_bytes 32 y))).
Proof.
  intros Hl Hx Hy. apply in_field_red1 in Hx, Hy.
  exists x, y, (be_bytes 32 x), (be_bytes 32 y), (take 12 (keccak (be_bytes 32 x ++ be_bytes 32 y))).
  split; [reflexivity|]. split; [now apply be_bytes_octets, red_256|]. split; [now apply be_bytes_octets, red_256|].
  rewrite take_drop. split; [reflexivity|]. rewrite drop_length, Hl. reflexivity.
Qed.

Example C71_case : recovers (with_k256 CD) (bs "Some data") web3_sig (bs "0x2c7536E3605D9C16a7a3D7b1898e529396a65c23").
Proof.
  destruct web3_wallet as [Hk Hw]. apply (C71_exact CD); [exact CD_ok|].
  exists web3_key, (Aff (fst web3_Q) (snd web3_Q)), (drop 12 (keccak256 (be_bytes 32 (fst web3_Q) ++ be_bytes 32 (snd web3_Q)))).
  split; [exact Hk|]. split; [|split; [vm_compute; reflexivity|exact Hw]].
  apply key_address_of; [apply (keccak_len _ CD_ok)|vm_compute; intuition discriminate|vm_compute; intuition discriminate].
Qed.

(** ** C72  Logging in takes the private key of the address, and nothing else *)

(** Behind every successful login is a signature of the canister's message by a private key
    whose public key has the address. *)
Theorem C72_login_signed : forall D cid tr e s sg x sk n exp pk, deps_ok D ->
  exec (with_k256 D) cid (tr ++ [e]) s -> logged_in e sg x sk n exp pk ->
  exists i since p x' n' text d Q addr,
    since_boot tr i since /\ In p since /\ prepared p x' text n' /\
    key_pair d Q /\ key_address (d_keccak D) Q addr /\ x = eip55 (d_keccak D) addr /\
    wallet_signature (d_keccak D) d text sg /\
    (ev_time p <= ev_time e)%N /\ (ev_time e < ev_time p + sign_in_window i)%N /\
    ((x' = x /\ n' = n) \/
     exists b', address_text D x' b' /\ collision (d_sha256 D) (message_key_input b' n') (message_key_input addr n)).
Proof.
  intros D cid tr e s sg x sk n exp pk HD H Hl. pose proof (with_k256_ok D HD) as HD'.
  destruct (C27_authenticated _ cid tr e s sg x sk n exp pk HD' H Hl)
    as (i & since & bef & p & aft & x' & n' & text & b & b' & Hs & Es & Hp & Hr & _ & T1 & T2 & Ab & Ab' & Hc).
  apply recovers_wallet in Hr as (d & Q & addr & Hk & Ha & Ex & Hw); [|assumption].
  exists i, since, p, x', n', text, d, Q, addr. split; [assumption|].
  split; [rewrite Es; apply in_app_iff; right; left; reflexivity|].
  assert (b = addr) as Eb.
  { apply (address_text_inj D x); [assumption|exact Ab|]. split; [|assumption].
    destruct Ha as (? & ? & ? & ? & ? & _ & _ & _ & _ & L). exact L. }
  rewrite Eb in Hc. do 7 (split; [assumption|]). destruct Hc as [Hc|Hc]; [now left|right]. exists b'. split; [exact Ab'|exact Hc].
Qed.

(** Whoever holds the private key logs in, with any signature the key makes. *)
Theorem C72_wallet_succeeds : forall D cid tr s i since before p after x text n d Q addr sg sk now, deps_ok D ->
  exec (with_k256 D) cid tr s -> since_boot tr i since -> since = before ++ p :: after ->
  prepared p x text n -> key_pair d Q -> key_address (d_keccak D) Q addr -> x = eip55 (d_keccak D) addr ->
  Forall (fun q => ~ login_attempt D q x n) after ->
  wallet_signature (d_keccak D) d text sg -> ~ bad_key D sk ->
  Forall (fun e => (ev_time e <= now)%N) tr -> (now < ev_time p + sign_in_window i)%N -> (now < u64_max)%N ->
  (exists s', step (with_k256 D) cid now (SiweLogin sg x sk n) s =
     (s', RLogin (Ok (mkDetails (N.min (ev_time p + session_window i) u64_max)
                        (create_user_canister_pubkey cid (user_seed D i x)))))) \/
  (exists q text', In q after /\ prepared q x text' n) \/
  (exists q x' n' b', In q after /\ touches_pair D q x' n' /\ address_text D x' b' /\
     collision (d_sha256 D) (message_key_input b' n') (message_key_input addr n)).
Proof.
  intros D cid tr s i since bef p aft x text n d Q addr sg sk now HD H Hb Es Hp Hk Ha Hx Hno Hw Hbk Hnow Ht Hu.
  pose proof (with_k256_ok D HD) as HD'.
  apply (C31_succeeds (with_k256 D) cid tr s i since bef p aft x text n addr sg sk now HD' H Hb Es Hp); try assumption.
  - split; [|assumption]. destruct Ha as (? & ? & ? & ? & ? & _ & _ & _ & _ & L). exact L.
  - apply recovers_wallet; [assumption|]. exists d, Q, addr. auto.
Qed.

(** Every private key has a public key, an address that the canister takes for an address, and
    a signature for every text. *)
Theorem C72_every_key : forall D d text, deps_ok D -> 0 < d < secp_n ->
  exists Q addr sg, key_pair d Q /\ key_address (d_keccak D) Q addr /\ length addr = 20%nat /\
    eth_address_new D (eip55 (d_keccak D) addr) = Done (Ok (mkEthAddress (eip55 (d_keccak D) addr))) /\
    wallet_signature (d_keccak D) d text sg.
Proof.
  intros D d text HD Hd. destruct (key_exists d Hd) as (x & y & HQ).
  assert (on_curve (Aff x y)) as (Hx & Hy & _). { destruct HQ as [_ HQ]. now apply multiple_G in HQ as (_ & HQ & _). }
  pose proof (key_address_of (d_keccak D) x y (keccak_len _ HD) Hx Hy) as Ha.
  set (addr := drop 12 _) in Ha. assert (length addr = 20%nat) as La by (destruct Ha as (? & ? & ? & ? & ? & _ & _ & _ & _ & L); exact L).
  set (z := os2ip (d_keccak D (eip191_bytes text))).
  destruct (eth_sign_total d z Hd) as (k & r & s & v & Hsig).
  pose proof (eth_sign_plain _ _ _ _ _ _ Hsig) as (_ & _ & _ & _ & _ & _ & _ & _ & _ & Hr & Hs & _).
  pose proof (eth_sign_v _ _ _ _ _ _ Hsig) as Hv.
  assert (sorder < 256 ^ Z.of_nat 32) as Hn256 by (vm_compute; reflexivity).
  set (sb := be_bytes 32 r ++ be_bytes 32 s ++ [u8 v]).
  pose proof (be_bytes_octets 32 r ltac:(lia)) as Or. pose proof (be_bytes_octets 32 s ltac:(lia)) as Os.
  exists (Aff x y), addr, (bs "0x" ++ hex_encode sb). split; [assumption|]. split; [assumption|]. split; [assumption|].
  split; [now apply eth_address_new_eip55|].
  exists (eip191_bytes text), sb. split; [apply eip191_framed_ok|]. split.
  - exists k, z, r, s, v, (be_bytes 32 r), (be_bytes 32 s), (u8 v). split; [split; [apply (keccak_len _ HD)|reflexivity]|].
    split; [assumption|]. split; [assumption|]. split; [assumption|]. split; [|reflexivity].
    rewrite nb_u8. rewrite (N.mod_small v 256) by lia. apply N.mod_small. lia.
  - exists (hex_encode sb). split; [unfold sb; rewrite !app_length, (proj1 Or), (proj1 Os); reflexivity|].
    split; [apply hex_denotes_lower, hex_encode_lower|reflexivity].
Qed.

(** Concrete: the owner of private key 5 asks for a message and signs it. *)
Definition ec_D : Deps := with_k256 CD.
Definition five_Q : Z * Z :=
  (0x2F8BDE4D1A07209355B4A7250A5C5128E88B84BDDC619AB7CBA8D569B240EFE4,
   0xD8AC222636E5E3D6D4DBA9DDA6C9C426F788271BAB0D6840DCA87D3AA6AC62D6).
Definition five_bytes : bytes := be_bytes 32 (fst five_Q) ++ be_bytes 32 (snd five_Q).
Definition five_addr : bytes := Eval vm_compute in drop 12 (keccak256 five_bytes).
Definition five_text : bytes := Eval vm_compute in eip55 keccak256 five_addr.
Definition ec_script : list (N * op) :=
  [(0%N, Install demo_input); ((1 * sec)%N, RawRand (Some (repeat x07 32))); ((2 * sec)%N, PrepareLogin five_text)].
Definition ec_tr : list event := Eval vm_compute in fst (play ec_D demo_cid ec_script None).
Definition ec_at (k : nat) : event := nth k ec_tr (mkEvent 0 (GetAddress []) RDone).
Definition ec_sig : bytes := Eval vm_compute in
  bs "0x" ++ hex_encode (one_sig 5 (os2ip (keccak256 (eip191_bytes (prepared_text (ec_at 2)))))).

Lemma five_key : key_pair 5 (Aff (fst five_Q) (snd five_Q)).
Proof. split; [vm_compute; split; reflexivity|]. apply (chain_point chain_five); vm_compute; reflexivity. Qed.
Lemma five_address : key_address keccak256 (Aff (fst five_Q) (snd five_Q)) five_addr.
Proof.
  replace five_addr with (drop 12 (keccak256 five_bytes)) by (vm_compute; reflexivity).
  apply key_address_of; [apply (keccak_len _ CD_ok)|vm_compute; intuition discriminate|vm_compute; intuition discriminate].
Qed.
Lemma one_sig_wallet d text : 0 < d < secp_n ->
  (os2ip (keccak256 (eip191_bytes text)) + secp_gx * d) mod secp_n <> 0 ->
  wallet_signature keccak256 d text (bs "0x" ++ hex_encode (one_sig d (os2ip (keccak256 (eip191_bytes text))))).
Proof.
  intros Hd Hn. exists (eip191_bytes text). eexists. split; [apply eip191_framed_ok|].
  split; [apply one_sig_signed; [apply (keccak_len _ CD_ok)|assumption]|].
  eexists. split; [|split; [apply hex_denotes_lower, hex_encode_lower|reflexivity]].
  destruct (one_sig_signed keccak256 d (eip191_bytes text) (keccak_len _ CD_ok) Hn)
    as (k & z & r & s & v & br & bs' & bv & _ & _ & [L1 _] & [L2 _] & _ & E).
  rewrite E, !app_length, L1, L2. reflexivity.
Qed.

Example C72_case : exists s sg x n text s' r, exec ec_D demo_cid ec_tr s /\ since_boot ec_tr demo_input [ec_at 1; ec_at 2] /\
  prepared (ec_at 2) x text n /\ key_pair 5 (Aff (fst five_Q) (snd five_Q)) /\ x = eip55 keccak256 five_addr /\
  wallet_signature keccak256 5 text sg /\
  step ec_D demo_cid (3 * sec)%N (SiweLogin sg x key1 n) s = (s', RLogin (Ok r)).
Proof.
  set (s := snd (play ec_D demo_cid ec_script None)).
  assert (exec ec_D demo_cid ec_tr s) as H.
  { apply (play_exec _ _ ec_script); [vm_compute; reflexivity|]. unfold s.
    replace ec_tr with (fst (play ec_D demo_cid ec_script None)) by (vm_compute; reflexivity). apply surjective_pairing. }
  assert (since_boot ec_tr demo_input [ec_at 1; ec_at 2]) as Hb.
  { exists [], (ec_at 0). split; [reflexivity|]. split; [split; [left; reflexivity|reflexivity]|].
    repeat constructor; intros (i & [E|E] & _); discriminate. }
  set (text := prepared_text (ec_at 2)). set (n := prepared_nonce (ec_at 2)).
  assert (prepared (ec_at 2) five_text text n) as Hp by (split; reflexivity).
  assert (five_text = eip55 keccak256 five_addr) as Hx by (vm_compute; reflexivity).
  assert (wallet_signature keccak256 5 text ec_sig) as Hw.
  { replace ec_sig with (bs "0x" ++ hex_encode (one_sig 5 (os2ip (keccak256 (eip191_bytes text))))) by (vm_compute; reflexivity).
    apply one_sig_wallet; [vm_compute; split; reflexivity|vm_compute; discriminate]. }
  destruct (C72_wallet_succeeds CD demo_cid ec_tr s demo_input [ec_at 1; ec_at 2] [ec_at 1] (ec_at 2) [] five_text text n 5
    (Aff (fst five_Q) (snd five_Q)) five_addr ec_sig key1 (3 * sec)%N CD_ok H Hb eq_refl Hp five_key five_address Hx
    (List.Forall_nil _) Hw) as [(s' & E)|[(q & t & I & _)|(q & ? & ? & ? & I & _)]].
  - intros [E|E]; [discriminate|apply E; vm_compute; reflexivity].
  - repeat constructor; vm_compute; discriminate.
  - vm_compute. reflexivity.
  - vm_compute. reflexivity.
  - exists s, ec_sig, five_text, n, text, s'. eexists. split; [exact H|]. split; [exact Hb|]. split; [exact Hp|].
    split; [exact five_key|]. split; [exact Hx|]. split; [exact Hw|]. exact E.
  - destruct I.
  - destruct I.
Qed.

(** ** C73  Accepted signatures cannot be altered *)

(** With s above half the order no recovery id helps: of (r, s) and (r, n - s) only one can be accepted. *)
Theorem C73_low_s : forall D text sg x br bs' bv s, deps_ok D ->
  signature_text sg (br ++ bs' ++ [bv]) -> octets 32 s bs' -> length br = 32%nat -> secp_n < 2 * s ->
  ~ recovers (with_k256 D) text sg x.
Proof.
  intros D text sg x br bs' bv s HD Ht [Ls Es] Lr Hh H.
  apply recovers_wallet in H as (d & Q & addr & _ & _ & _ & framed & sig65 & _ & Hs & Ht'); [|assumption].
  rewrite (signature_text_inj _ _ _ Ht' Ht) in Hs.
  destruct Hs as (k & z & r & s' & v & br' & bs2 & bv' & _ & Hsig & [Lr' _] & [Ls' Es'] & _ & E).
  apply app_inj_1 in E as [_ E]; [|congruence]. apply app_inj_1 in E as [<- _]; [|congruence].
  assert (s' = s) as -> by congruence. destruct Hsig as (_ & _ & _ & _ & Hlow & _). lia.
Qed.

(** Two accepted signatures of one key for one text, with the same r and made from points with
    the same x-coordinate, have the same s, and last bytes that agree modulo 27. *)
Theorem C73_unique_partial : forall D text sg1 sg2 d br bs1 bv1 bs2 bv2, deps_ok D ->
  length br = 32%nat -> length bs1 = 32%nat -> length bs2 = 32%nat ->
  signature_text sg1 (br ++ bs1 ++ [bv1]) -> signature_text sg2 (br ++ bs2 ++ [bv2]) ->
  wallet_signature (d_keccak D) d text sg1 -> wallet_signature (d_keccak D) d text sg2 ->
  N.testbit (nb bv1 mod 27) 1 = N.testbit (nb bv2 mod 27) 1 ->
  bs1 = bs2 /\ (nb bv1 mod 27 = nb bv2 mod 27)%N.
Proof.
  intros D text sg1 sg2 d br bs1 bv1 bs2 bv2 HD Lr L1 L2 T1 T2 (f1 & s1 & F1 & S1 & X1) (f2 & s2 & F2 & S2 & X2) Ev.
  rewrite (signature_text_inj _ _ _ X1 T1) in S1. rewrite (signature_text_inj _ _ _ X2 T2) in S2.
  assert (f1 = f2) as <- by (eapply eip191_framed_fun; eassumption).
  destruct S1 as (k1 & z1 & r1 & s1' & v1 & br1 & bs1' & bv1' & [_ <-] & H1 & [A1 B1] & [C1 D1] & V1 & E1).
  destruct S2 as (k2 & z2 & r2 & s2' & v2 & br2 & bs2' & bv2' & [_ <-] & H2 & [A2 B2] & [C2 D2] & V2 & E2).
  apply app_inj_1 in E1 as [<- E1]; [|congruence]. apply app_inj_1 in E1 as [<- E1]; [|congruence]. injection E1 as <-.
  apply app_inj_1 in E2 as [<- E2]; [|congruence]. apply app_inj_1 in E2 as [<- E2]; [|congruence]. injection E2 as <-.
  assert (r2 = r1) as -> by congruence.
  destruct (eth_sign_unique _ _ _ _ _ _ _ _ _ H1 H2) as [Es Ev']; [congruence|].
  split; [apply os2ip_inj; congruence|congruence].
Qed.

(** The full statement would have the two signatures be the same 65 bytes; but the last byte
    counts modulo 27, so each is accepted in up to ten variants. *)
Theorem C73_last_byte : forall D text sg sg' rs v v' x, deps_ok D ->
  signature_text sg (rs ++ [v]) -> signature_text sg' (rs ++ [v']) -> (nb v mod 27 = nb v' mod 27)%N ->
  recovers D text sg x -> recovers D text sg' x.
Proof.
  intros D text sg sg' rs v v' x HD T T' E (rs0 & v0 & framed & pk & front & last20 & T0 & Hf & Hok & Hv & Hr & Hk & L & Hx).
  pose proof (signature_text_inj _ _ _ T0 T) as E0. apply app_inj_2 in E0 as [-> E0]; [|reflexivity]. injection E0 as ->.
  exists rs, v', framed, pk, front, last20. rewrite <- E. auto 10.
Qed.
Theorem C73_same_bytes_refuted : exists text sg sg' x b b', signature_text sg b /\ signature_text sg' b' /\ b <> b' /\
  recovers (with_k256 CD) text sg x /\ recovers (with_k256 CD) text sg' x.
Proof.
  set (text := prepared_text (ec_at 2)).
  assert (wallet_signature keccak256 5 text ec_sig) as Hw.
  { replace ec_sig with (bs "0x" ++ hex_encode (one_sig 5 (os2ip (keccak256 (eip191_bytes text))))) by (vm_compute; reflexivity).
    apply one_sig_wallet; [vm_compute; split; reflexivity|vm_compute; discriminate]. }
  assert (recovers (with_k256 CD) text ec_sig five_text) as Hr.
  { apply (recovers_wallet CD); [exact CD_ok|]. exists 5, (Aff (fst five_Q) (snd five_Q)), five_addr.
    split; [exact five_key|]. split; [exact five_address|]. split; [vm_compute; reflexivity|exact Hw]. }
  destruct (signature_cases ec_sig) as [(e & E & _)|(sb & Hs & _ & Esb)]; [exfalso; vm_compute in E; discriminate|].
  set (b := one_sig 5 (os2ip (keccak256 (eip191_bytes text)))).
  assert (signature_text ec_sig b) as Hb.
  { assert (sb = b) as <-; [|assumption]. vm_compute in Esb. unfold b. vm_compute. congruence. }
  set (v := nth 64 b x00). set (v' := u8 (nb v - 27)). set (rs := take 64 b).
  assert (b = rs ++ [v]) as Eb by (vm_compute; reflexivity).
  set (sg' := bs "0x" ++ hex_encode (rs ++ [v'])).
  assert (signature_text sg' (rs ++ [v'])) as Hs'.
  { exists (hex_encode (rs ++ [v'])). split; [vm_compute; reflexivity|]. split; [apply hex_denotes_lower, hex_encode_lower|reflexivity]. }
  exists text, ec_sig, sg', five_text, b, (rs ++ [v']). split; [assumption|]. split; [assumption|].
  split; [vm_compute; discriminate|]. split; [assumption|]. rewrite Eb in Hb.
  apply (C73_last_byte (with_k256 CD) text ec_sig sg' rs v v' five_text); [apply with_k256_ok, CD_ok|assumption|assumption| |assumption].
  vm_compute. reflexivity.
Qed.

(** Concrete: that signature, and the same with n - s in place of s. *)
Example C73_case : exists br bs' bv s s', octets 32 s bs' /\ octets 32 (secp_n - s) s' /\ length br = 32%nat /\
  secp_n < 2 * (secp_n - s) /\ ec_sig = bs "0x" ++ hex_encode (br ++ bs' ++ [bv]) /\
  wallet_signature keccak256 5 (prepared_text (ec_at 2)) ec_sig /\
  forall v x, ~ recovers (with_k256 CD) (prepared_text (ec_at 2)) (bs "0x" ++ hex_encode (br ++ s' ++ [v])) x.
Proof.
  set (text := prepared_text (ec_at 2)). set (b := one_sig 5 (os2ip (keccak256 (eip191_bytes text)))).
  set (s := os2ip (take 32 (drop 32 b))).
  assert (octets 32 (secp_n - s) (be_bytes 32 (secp_n - s))) as Os' by (split; vm_compute; reflexivity).
  assert (secp_n < 2 * (secp_n - s)) as Hh by (vm_compute; reflexivity).
  assert (length (take 32 b) = 32%nat) as Lr by (vm_compute; reflexivity).
  exists (take 32 b), (take 32 (drop 32 b)), (nth 64 b x00), s, (be_bytes 32 (secp_n - s)).
  split; [split; [vm_compute; reflexivity|reflexivity]|]. split; [exact Os'|]. split; [exact Lr|]. split; [exact Hh|].
  split; [vm_compute; reflexivity|]. split.
  { replace ec_sig with (bs "0x" ++ hex_encode b) by (vm_compute; reflexivity).
    apply one_sig_wallet; [vm_compute; split; reflexivity|vm_compute; discriminate]. }
  intros v x. apply (C73_low_s CD text _ x (take 32 b) (be_bytes 32 (secp_n - s)) v (secp_n - s) CD_ok); [|exact Os'|exact Lr|exact Hh].
  eexists. split; [|split; [apply hex_denotes_lower, hex_encode_lower|reflexivity]].
  rewrite !app_length, Lr, (proj1 Os'). reflexivity.
Qed.

Print Assumptions C71_exact.
Print Assumptions C71_verified.
Print Assumptions C71_verified_conversely.
Print Assumptions C71_one_key.
Print Assumptions C71_case.
Print Assumptions C72_login_signed.
Print Assumptions C72_wallet_succeeds.
Print Assumptions C72_every_key.
Print Assumptions C72_case.
Print Assumptions C73_low_s.
Print Assumptions C73_unique_partial.
Print Assumptions C73_last_byte.
Print Assumptions C73_same_bytes_refuted.
Print Assumptions C73_case.
