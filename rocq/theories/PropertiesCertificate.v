(** C107: the check of a request with nothing but the root key of the Internet Computer. *)
From Coq Require Import Strings.String ZifyBool ZifyN ZifyNat Sorting.Sorted.
From Verif Require Import Base BaseLemmas Deps Hex Eth HashTree Settings Encode Delegation Login Provider SpecEth EthProofs SpecHash
  SpecWire SpecTree SpecSiwe SpecInit SpecTrace SpecAuth TraceProofs Concrete Scripts Demo Secp SpecEcdsa EcdsaProofs
  Interface SpecInterface InterfaceProofs SpecWhole PropertiesDelegation PropertiesAuth PropertiesWhole MerkleProofs DelegationTheory HashProofs Candid SpecCandid CandidBase EcdsaBytes SpecCertificate.
Local Open Scope N_scope.

Lemma certified_state bls root D cid q net tr certificate data : deps_ok D -> honest bls root D cid q net tr ->
  certifies bls root (d_sha256 D) cid certificate data ->
  (exists t, net_state net t /\ lookup_found [bs "canister"; cid; bs "certified_data"] t data) \/
  certificate_collision (d_sha256 D) net certificate.
Proof.
  intros HD Ho (tree & (ct & Ec & <- & Hs) & _ & Hd & Hl).
  assert (forall T t path v, net_state net T -> digests32 t -> state_root (d_sha256 D) t = state_root (d_sha256 D) T -> in_certificate certificate t ->
    lookup_found path t v -> lookup_found path T v \/ certificate_collision (d_sha256 D) net certificate) as Key.
  { intros T t path v Hn H32 E Hi Hf. unfold state_root in E. injection E as E.
    destruct (lookup_sound (d_sha256 D) (sha256_len D HD) path t v T (ho_complete _ _ _ _ _ _ _ Ho T Hn) H32 E Hf) as [L|C]; [now left|right].
    exists t, T. auto. }
  destruct (ct_delegation ct) as [[subnet upper]|] eqn:Ed.
  - destruct Hs as (ct' & key & ranges & Ec' & _ & _ & Hd' & Hr & Lk & Lr & Hin & Hb).
    destruct (ho_root _ _ _ _ _ _ _ Ho _ _ Hr) as (T & HT & ET).
    assert (in_certificate certificate (ct_tree ct')) as Hic by (exists ct; split; [exact Ec|right; exists subnet, upper, ct'; auto]).
    destruct (Key T _ _ _ (or_introl HT) Hd' ET Hic Lk) as [Lk'|C]; [|now right].
    destruct (Key T _ _ _ (or_introl HT) Hd' ET Hic Lr) as [Lr'|C]; [|now right].
    destruct (ho_subnet _ _ _ _ _ _ _ Ho T subnet key ranges _ _ HT Lk' Lr' Hin Hb) as (T' & HT' & ET').
    assert (net_state net T') as Hn' by (right; eauto).
    destruct (Key T' _ _ _ Hn' Hd ET' ltac:(exists ct; auto) Hl) as [L|C]; [left; eauto|now right].
  - destruct (ho_root _ _ _ _ _ _ _ Ho _ _ Hs) as (T & HT & ET).
    destruct (Key T _ _ _ (or_introl HT) Hd ET ltac:(exists ct; auto) Hl) as [L|C]; [left; exists T; split; [now left|exact L]|now right].
Qed.

(** However old the certificate in it is, behind a request that verifies is a login of the
    history, and behind the login the private key of the wallet. *)
Theorem C107_key_behind : forall bls root D cid q net tr now target pk d, deps_ok D -> (length cid <= 29)%nat ->
  honest bls root D cid q net tr -> verifies bls root D cid now target pk d ->
  (exists b p l i x' text n' sg x n pk' key,
     In b tr /\ In p tr /\ In l tr /\ configured q b i /\ asked_text q p x' text n' /\
     asked_login q l sg x (dl_pubkey (sd_delegation d)) n (dl_expiration (sd_delegation d)) pk' /\
     wallet_signature (d_keccak D) key text sg /\ address_of_key D key x /\
     canister_pubkey_decode pk = Some (cid, user_seed D i x) /\
     ce_time p <= ce_time l < ce_time p + sign_in_window i /\ now <= ce_time p + session_window i /\
     targets_of i (dl_targets (sd_delegation d)) /\
     ((x' = x /\ n' = n) \/
      exists a a', address_text D x a /\ address_text D x' a' /\
        collision (d_sha256 D) (message_key_input a' n') (message_key_input a n))) \/
  exists certificate tree, canister_signature_decode (sd_signature d) = Some (certificate, tree) /\
    (certificate_collision (d_sha256 D) net certificate \/
     exists before after, tr = before ++ after /\
       auth_collision (with_k256 D) cid (omap (decoded q) before) certificate pk d).
Proof.
  intros bls root D cid q net tr now target pk d HD Lc Ho (certificate & data & Hc & Ha).
  assert (exists tree, canister_signature_decode (sd_signature d) = Some (certificate, tree)) as [tree Esd].
  { destruct Ha as (_ & _ & digest & q0 & _ & seed & tree & _ & E & _). eauto. }
  destruct (certified_state bls root D cid q net tr certificate data HD Ho Hc) as [(t & Hn & Hl)|C]; [|right; exists certificate, tree; auto].
  destruct (ho_data _ _ _ _ _ _ _ Ho t data Hn Hl) as (before & after & c & -> & H & <-).
  destruct (C84_key_behind D cid q before c certificate now target pk d HD Lc H Ha)
    as [(b & p & l & i & x' & text & n' & sg & x & n & pk' & key & Ib & Ip & Il & H1 & H2 & H3 & H4 & H5 & H6 & H7 & H8 & H9 & _ & H10)|C].
  - left. exists b, p, l, i, x', text, n', sg, x, n, pk', key.
    do 3 (split; [apply in_app_iff; now left|]). auto 12.
  - right. exists certificate, tree. split; [exact Esd|]. right. exists before, after. auto.
Qed.
(** A delegation that was fetched with a good certificate verifies until it expires,
    whatever becomes of the canister. *)
Theorem C107_for_good : forall bls root D cid tr e s c cert x sk exp r i since l sg sk' n exp' pk now target, deps_ok D ->
  exec D cid tr (Some c) -> exec D cid (tr ++ [e]) s -> delegated e cert x sk exp r ->
  since_boot tr i since -> resynced D since -> In l since -> logged_in l sg x sk' n exp' pk ->
  (length cid <= 29)%nat -> blen cert < 2 ^ 64 -> certifies bls root (d_sha256 D) cid cert (c_certified c) ->
  now <= exp -> (forall t ts, targets_of i t -> t = Some ts -> In target ts) ->
  verifies bls root D cid now target pk r.
Proof.
  intros bls root D cid tr e s c cert x sk exp r i since l sg sk' n exp' pk now target HD Hc H Hd Hs Hr Il Hl Lc Lcert Hcert Hnow Ht.
  exists cert, (c_certified c). split; [exact Hcert|].
  exact (C62_accepted D cid tr e s c cert x sk exp r i since l sg sk' n exp' pk now target HD Hc H Hd Hs Hr Il Hl Lc Lcert Hnow Ht).
Qed.

(** ** A network of two subnets *)

Definition certificate_bytes (tree : hash_tree) (sg : bytes) (delegation : option (bytes * bytes)) : bytes :=
  [xd9; xd9; xf7] ++ cbor_head 5 (match delegation with None => 2 | Some _ => 3 end) ++
  cbor_text (bs "tree") ++ cbor_tree tree ++ cbor_text (bs "signature") ++ cbor_bytes sg ++
  match delegation with
  | None => []
  | Some (subnet, upper) =>
      cbor_text (bs "delegation") ++ cbor_head 5 2 ++
      cbor_text (bs "subnet_id") ++ cbor_bytes subnet ++ cbor_text (bs "certificate") ++ cbor_bytes upper
  end.

(** The root subnet says that the subnet "S" has the key "K" and the canisters 0 to 255. *)
Definition net_ranges : bytes :=
  [xd9; xd9; xf7] ++ cbor_head 4 1 ++ cbor_head 4 2 ++ cbor_bytes [x00; x00; x00; x00; x00; x00; x00; x00; x01; x01] ++
  cbor_bytes [x00; x00; x00; x00; x00; x00; x00; xff; x01; x01].
Definition subnets_state : hash_tree :=
  HLabeled (bs "subnet") (HLabeled (bs "S") (HFork (HLabeled (bs "canister_ranges") (HLeaf net_ranges)) (HLabeled (bs "public_key") (HLeaf (bs "K"))))).
Definition root_state : hash_tree := HFork subnets_state (HLabeled (bs "time") (HLeaf [x2a])).
Definition root_part : hash_tree := HFork subnets_state (HPruned (tree_hash (d_sha256 CD) (HLabeled (bs "time") (HLeaf [x2a])))).
Definition subnet_state (data : bytes) : hash_tree :=
  HLabeled (bs "canister") (HLabeled demo_cid (HLabeled (bs "certified_data") (HLeaf data))).
Definition net_certificate (data : bytes) : bytes :=
  certificate_bytes (subnet_state data) (bs "by K") (Some (bs "S", certificate_bytes root_part (bs "by R") None)).
Definition net_bls (data : bytes) (key m sg : bytes) : Prop :=
  (key = bs "R" /\ m = state_root (d_sha256 CD) root_state /\ sg = bs "by R") \/
  (key = bs "K" /\ m = state_root (d_sha256 CD) (subnet_state data) /\ sg = bs "by K").
Definition demo_net (data : bytes) : network :=
  mkNetwork (fun t => t = root_state) (fun key t => key = bs "K" /\ t = subnet_state data).

Ltac before := apply bytes_cmp_lex; vm_compute; reflexivity.
Lemma one_label l t : well_formed t -> well_formed (HLabeled l t).
Proof.
  intros H. apply wf_forest; [repeat constructor| |intros v [C|[]]; discriminate].
  intros l' t' [E|[]]. injection E as <- <-. exact H.
Qed.
Lemma subnet_well_formed data : well_formed (subnet_state data).
Proof. repeat apply one_label. constructor. Qed.
Lemma root_well_formed : well_formed root_part.
Proof.
  apply wf_forest; [repeat constructor| |intros v [C|[C|[]]]; discriminate].
  intros l t [E|[E|[]]]; [|discriminate]. injection E as <- <-. apply one_label. apply wf_forest.
  - apply SSorted_cons; [repeat constructor|]. apply List.Forall_cons; [before|apply List.Forall_nil].
  - intros l t [E|[E|[]]]; injection E as <- <-; constructor.
  - intros v [C|[C|[]]]; discriminate.
Qed.
Lemma at_label l path t t' v : In (HLabeled l t') (flatten_forks t) -> lookup_found path t' v -> lookup_found (l :: path) t v.
Proof. intros H. apply lookup_label. now apply label_found_in. Qed.

Lemma net_certificate_small data : (length data = 0 \/ length data = 32)%nat -> blen (net_certificate data) < two64 /\
  certificate_decode (net_certificate data) = Some (mkCert (subnet_state data) (bs "by K") (Some (bs "S", certificate_bytes root_part (bs "by R") None))).
Proof.
  intros [L|L].
  - destruct data; [|discriminate]. split; vm_compute; reflexivity.
  - do 32 (destruct data as [|? data]; [discriminate|]). destruct data; [|discriminate]. split; vm_compute; reflexivity.
Qed.
Lemma root_decodes : certificate_decode (certificate_bytes root_part (bs "by R") None) = Some (mkCert root_part (bs "by R") None).
Proof. vm_compute. reflexivity. Qed.

Lemma net_certifies data : (length data = 0 \/ length data = 32)%nat ->
  certifies (net_bls data) (bs "R") (d_sha256 CD) demo_cid (net_certificate data) data.
Proof.
  intros L. exists (subnet_state data). split; [|split; [apply subnet_well_formed|split; [exact I|]]].
  - eexists. split; [apply net_certificate_small, L|]. split; [reflexivity|]. cbn [ct_delegation ct_signature].
    exists (mkCert root_part (bs "by R") None), (bs "K"), net_ranges. split; [exact root_decodes|]. split; [reflexivity|].
    split; [exact root_well_formed|]. split; [split; [split; exact I|exact (sha256_len CD CD_ok _)]|].
    split; [left; split; [reflexivity|split; [vm_compute; reflexivity|reflexivity]]|].
    split; [do 2 (eapply at_label; [left; reflexivity|]); eapply at_label; [right; left; reflexivity|constructor]|].
    split; [do 3 (eapply at_label; [left; reflexivity|]); constructor|].
    split; [|right; auto].
    eexists _, _. split; [vm_compute; reflexivity|]. split; [now left|].
    eexists _, _. split; [reflexivity|]. split; right; before.
  - do 3 (eapply at_label; [left; reflexivity|]). constructor.
Qed.

Lemma found_inv l path t v : lookup_found (l :: path) t v -> exists t', In (HLabeled l t') (flatten_forks t) /\ lookup_found path t' v.
Proof. intros H. inversion H as [|? ? ? t' ? Hl Hp]; subst. exists t'. split; [now apply label_found_in|exact Hp]. Qed.

Lemma net_honest tr rest c : calls (with_k256 CD) demo_cid 6 tr (Some c) ->
  honest (net_bls (c_certified c)) (bs "R") CD demo_cid 6 (demo_net (c_certified c)) (tr ++ rest).
Proof.
  intros H. split.
  - intros t [->|(key & _ & ->)]; cbn; tauto.
  - intros m sg [(_ & E & _)|(C & _)]; [exists root_state; split; [reflexivity|exact E]|discriminate].
  - intros t subnet key ranges m sg -> Hk _ _ Hb.
    assert (key = bs "K") as ->.
    { apply found_inv in Hk as (t1 & I1 & Hk). destruct I1 as [E|[E|[]]]; [|discriminate]. injection E as <-.
      apply found_inv in Hk as (t2 & I2 & Hk). destruct I2 as [E|[]]. injection E as _ <-.
      apply found_inv in Hk as (t3 & I3 & Hk). destruct I3 as [E|[E|[]]]; [discriminate|]. injection E as <-.
      inversion Hk. reflexivity. }
    destruct Hb as [(C & _)|(_ & E & _)]; [discriminate|]. exists (subnet_state (c_certified c)). split; [split; reflexivity|exact E].
  - intros t data [->|(key & _ & ->)] Hl.
    + apply found_inv in Hl as (t1 & I1 & _). destruct I1 as [E|[E|[]]]; discriminate.
    + apply found_inv in Hl as (t1 & [E|[]] & Hl). injection E as <-.
      apply found_inv in Hl as (t2 & [E|[]] & Hl). injection E as <-.
      apply found_inv in Hl as (t3 & [E|[]] & Hl). injection E as <-. inversion Hl; subst.
      exists tr, rest, c. auto.
Qed.

(** The owner of the private key 5, with a certificate of the subnet "S" for the certified data: the
    request meets the hypotheses of C107_key_behind, also after the canister is reinstalled. *)
Example C107_case : exists tr c x text n sg exp pk d,
  let data := c_certified c in
  let signed_in := tr ++ sign_in_calls (2 * sec) (3 * sec) (4 * sec) [x04] (net_certificate data) x text n sg key1 exp pk d in
  calls (with_k256 CD) demo_cid 6 signed_in (Some c) /\
  (forall rest, honest (net_bls data) (bs "R") CD demo_cid 6 (demo_net data) (signed_in ++ rest)) /\
  verifies (net_bls data) (bs "R") CD demo_cid (1000 * sec) (bs "any") pk d.
Proof.
  destruct C85_case as (tr & c & x & text & n & sg & exp & pk & _ & _ & Hd).
  assert (length (c_certified c) = 0 \/ length (c_certified c) = 32)%nat as L.
  { destruct (Hd [] eq_refl) as (d & H & _). apply calls_exec in H.
    destruct (certified_origin _ _ _ _ (with_k256_ok CD CD_ok) H) as [->|(c1 & _ & ->)]; [now left|right].
    unfold root_hash, fork_hash. apply (sha256_len (with_k256 CD) (with_k256_ok CD CD_ok)). }
  destruct (Hd (net_certificate (c_certified c)) (proj1 (net_certificate_small _ L))) as (d & H & Ha).
  exists tr, c, x, text, n, sg, exp, pk, d. cbv zeta. split; [exact H|]. split; [intros rest; now apply net_honest|].
  exists (net_certificate (c_certified c)), (c_certified c). split; [now apply net_certifies|exact Ha].
Qed.

Print Assumptions C107_key_behind.
Print Assumptions C107_for_good.
