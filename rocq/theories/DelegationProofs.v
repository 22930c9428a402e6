(** Lemmas about Delegation: the delegation hash, the user seed, the public key. *)
From Coq Require Import Strings.String Sorting.Sorted.
From Coq Require Import ZifyBool ZifyN ZifyNat.
From Verif Require Import Base BaseLemmas Deps Hash SpecHash HashProofs HashTree SigMap Settings
  Encode Delegation Eth.
Local Open Scope N_scope.

Ltac Zify.zify_post_hook ::= Z.to_euclidean_division_equations.

(** ** The digest *)

Lemma concat_inj_len {A} n (l1 l2 : list (list A)) :
  (0 < n)%nat -> Forall (fun x => length x = n) l1 -> Forall (fun x => length x = n) l2 ->
  concat l1 = concat l2 -> l1 = l2.
Proof.
  intros Hn. revert l2. induction l1 as [|x l1 IH]; intros [|y l2] H1 H2 E.
  - reflexivity.
  - apply List.Forall_cons_iff in H2 as [Hy _]. destruct y; [simpl in Hy; lia|discriminate].
  - apply List.Forall_cons_iff in H1 as [Hx _]. destruct x; [simpl in Hx; lia|discriminate].
  - apply List.Forall_cons_iff in H1 as [Hx H1], H2 as [Hy H2]. cbn [concat] in E.
    apply app_inj_len in E as [-> E]; [|congruence]. f_equal. now apply IH.
Qed.

Lemma ri_hashes_blobs H l hs q : ri_hashes H (map RBlob l) hs q -> hs = map H l /\ q = l.
Proof.
  revert hs q; induction l as [|b l IH]; intros hs q Hr.
  - inversion Hr. split; reflexivity.
  - cbn [map] in Hr. inversion Hr as [|? ? h hs' q' qs Hv Hvs]; subst.
    inversion Hv; subst. apply IH in Hvs as [-> ->]. split; reflexivity.
Qed.

Lemma cross_dec H (q1 q2 : list bytes) x y :
  In x q1 -> In y q2 -> H x = H y -> x = y \/ cross_collision H q1 q2.
Proof.
  intros Hx Hy E. destruct (decide (x = y)) as [|Hne]; [now left|]. right. exists x, y. auto.
Qed.

(** What the field list of a delegation looks like. *)
Lemma delegation_fields_inv H pk e t hs q :
  ri_fields H (delegation_record pk e t) hs q ->
  exists leb, is_uleb128 leb e /\
    hs = [H (bs "pubkey") ++ H pk; H (bs "expiration") ++ H leb]
         ++ match t with Some l => [H (bs "targets") ++ H (concat (map H l))] | None => [] end /\
    q = [bs "pubkey"; pk; bs "expiration"; leb]
         ++ match t with Some l => bs "targets" :: concat (map H l) :: l | None => [] end.
Proof.
  intros Hf. unfold delegation_record in Hf.
  inversion Hf as [|? ? ? h1 hs1 q1 qs1 Hv1 Hf1]; subst. clear Hf.
  inversion Hf1 as [|? ? ? h2 hs2 q2 qs2 Hv2 Hf2]; subst. clear Hf1.
  inversion Hv1; subst. inversion Hv2; subst.
  exists l. split; [assumption|].
  destruct t as [t|].
  - inversion Hf2 as [|? ? ? h3 hs3 q3 qs3 Hv3 Hf3]; subst. inversion Hf3; subst.
    inversion Hv3 as [| | |? ths tq Ht]; subst. apply ri_hashes_blobs in Ht as [-> ->].
    split; [reflexivity|]. cbn. rewrite app_nil_r. reflexivity.
  - inversion Hf2; subst. split; reflexivity.
Qed.

Lemma digest_binding H pk1 e1 t1 pk2 e2 t2 h q1 q2 :
  (forall x, length (H x) = 32%nat) ->
  delegation_digest H pk1 e1 t1 h q1 -> delegation_digest H pk2 e2 t2 h q2 ->
  (pk1 = pk2 /\ e1 = e2 /\ t1 = t2) \/ cross_collision H q1 q2.
Proof.
  intros HL (rh1 & q1' & R1 & -> & ->) (rh2 & q2' & R2 & Eh & ->).
  destruct (cross_dec H (delegation_message rh1 :: q1') (delegation_message rh2 :: q2')
              (delegation_message rh1) (delegation_message rh2)) as [E|]; [now left|now left|exact Eh| |now right].
  unfold delegation_message in E. injection E as E.
  destruct R1 as (hs1 & s1 & qs1 & F1 & P1 & S1 & -> & ->).
  destruct R2 as (hs2 & s2 & qs2 & F2 & P2 & S2 & -> & ->).
  set (Q1 := delegation_message _ :: _ :: qs1) in *. set (Q2 := delegation_message _ :: _ :: qs2) in *.
  assert (Hsub1 : forall x, In x qs1 -> In x Q1) by (intros x Hx; subst Q1; simpl; auto).
  assert (Hsub2 : forall x, In x qs2 -> In x Q2) by (intros x Hx; subst Q2; simpl; auto).
  destruct (cross_dec H Q1 Q2 (concat s1) (concat s2)) as [Ec|]; [subst Q1; simpl; auto|subst Q2; simpl; auto|exact E| |now right].
  clearbody Q1 Q2.
  apply delegation_fields_inv in F1 as (leb1 & L1 & -> & ->), F2 as (leb2 & L2 & -> & ->).
  assert (Hlen : forall pk leb t, Forall (fun x : bytes => length x = 64%nat)
     ([H (bs "pubkey") ++ H pk; H (bs "expiration") ++ H leb]
         ++ match t with Some l => [H (bs "targets") ++ H (concat (map H l))] | None => [] end)).
  { intros pk leb t. apply List.Forall_app. split.
    - repeat constructor; rewrite app_length, !HL; reflexivity.
    - destruct t; repeat constructor. rewrite app_length, !HL; reflexivity. }
  assert (s1 = s2) as <-.
  { apply (concat_inj_len 64); [lia| | |assumption].
    - eapply Permutation_Forall; [exact P1|apply Hlen].
    - eapply Permutation_Forall; [exact P2|apply Hlen]. }
  assert (P : Permutation
     ([H (bs "pubkey") ++ H pk1; H (bs "expiration") ++ H leb1]
         ++ match t1 with Some l => [H (bs "targets") ++ H (concat (map H l))] | None => [] end)
     ([H (bs "pubkey") ++ H pk2; H (bs "expiration") ++ H leb2]
         ++ match t2 with Some l => [H (bs "targets") ++ H (concat (map H l))] | None => [] end)).
  { etransitivity; [exact P1|]. now symmetry. }
  assert (Hsplit : forall a b c d, H a ++ H b = H c ++ H d -> H a = H c /\ H b = H d).
  { intros a b c d E'. apply app_inj_len in E'; [assumption|]. now rewrite !HL. }
  (* the three key constants are different strings *)
  assert (K1 : bs "pubkey" <> bs "expiration") by discriminate.
  assert (K2 : bs "pubkey" <> bs "targets") by discriminate.
  assert (K3 : bs "expiration" <> bs "targets") by discriminate.
  assert (Hkey : forall k k' : bytes, In k Q1 -> In k' Q2 -> k <> k' -> H k = H k' -> cross_collision H Q1 Q2).
  { intros k k' Hk Hk' Hne E'. exists k, k'. auto. }
  assert (HQ1 : forall x, In x [bs "pubkey"; pk1; bs "expiration"; leb1] -> In x Q1)
    by (intros x Hx; apply Hsub1; apply in_or_app; now left).
  assert (HQ2 : forall x, In x [bs "pubkey"; pk2; bs "expiration"; leb2] -> In x Q2)
    by (intros x Hx; apply Hsub2; apply in_or_app; now left).
  (* pubkey *)
  assert (pk1 = pk2 \/ cross_collision H Q1 Q2) as [->|]; [| |now right].
  { assert (In (H (bs "pubkey") ++ H pk1) ([H (bs "pubkey") ++ H pk2; H (bs "expiration") ++ H leb2]
         ++ match t2 with Some l => [H (bs "targets") ++ H (concat (map H l))] | None => [] end)) as Hin.
    { eapply Permutation_in; [exact P|]. now left. }
    apply in_app_or in Hin as [[E1|[E1|[]]]|Hin].
    - symmetry in E1. apply Hsplit in E1 as [_ E1].
      apply (cross_dec H Q1 Q2); [apply HQ1; simpl; auto|apply HQ2; simpl; auto|assumption].
    - symmetry in E1. apply Hsplit in E1 as [E1 _]. right.
      apply (Hkey (bs "pubkey") (bs "expiration")); [apply HQ1; simpl; auto|apply HQ2; simpl; auto|assumption..].
    - destruct t2 as [t2|]; [|destruct Hin]. destruct Hin as [E1|[]].
      symmetry in E1. apply Hsplit in E1 as [E1 _]. right.
      apply (Hkey (bs "pubkey") (bs "targets")); [apply HQ1; simpl; auto| |assumption..].
      apply Hsub2. apply in_or_app. right. now left. }
  (* expiration *)
  assert (leb1 = leb2 \/ cross_collision H Q1 Q2) as [->|]; [| |now right].
  { assert (In (H (bs "expiration") ++ H leb1) ([H (bs "pubkey") ++ H pk2; H (bs "expiration") ++ H leb2]
         ++ match t2 with Some l => [H (bs "targets") ++ H (concat (map H l))] | None => [] end)) as Hin.
    { eapply Permutation_in; [exact P|]. right. now left. }
    apply in_app_or in Hin as [[E1|[E1|[]]]|Hin].
    - symmetry in E1. apply Hsplit in E1 as [E1 _]. right.
      apply (Hkey (bs "expiration") (bs "pubkey")); [apply HQ1; simpl; auto|apply HQ2; simpl; auto|congruence|assumption].
    - symmetry in E1. apply Hsplit in E1 as [_ E1].
      apply (cross_dec H Q1 Q2); [apply HQ1; simpl; auto|apply HQ2; simpl; auto|assumption].
    - destruct t2 as [t2|]; [|destruct Hin]. destruct Hin as [E1|[]].
      symmetry in E1. apply Hsplit in E1 as [E1 _]. right.
      apply (Hkey (bs "expiration") (bs "targets")); [apply HQ1; simpl; auto| |assumption..].
      apply Hsub2. apply in_or_app. right. now left. }
  assert (e1 = e2) as <- by (eapply is_uleb_inj; eassumption).
  (* targets *)
  pose proof (Permutation_length P) as Hl. rewrite !app_length in Hl.
  destruct t1 as [t1|]; destruct t2 as [t2|]; [|simpl in Hl; lia|simpl in Hl; lia|left; auto].
  apply Permutation_app_inv_l in P. apply Permutation_length_1 in P.
  apply Hsplit in P as [_ P].
  assert (HT1 : forall x, In x (concat (map H t1) :: t1) -> In x Q1).
  { intros x Hx. apply Hsub1. apply in_or_app. right. right. exact Hx. }
  assert (HT2 : forall x, In x (concat (map H t2) :: t2) -> In x Q2).
  { intros x Hx. apply Hsub2. apply in_or_app. right. right. exact Hx. }
  destruct (cross_dec H Q1 Q2 (concat (map H t1)) (concat (map H t2))) as [Et|];
    [apply HT1; now left|apply HT2; now left|exact P| |now right].
  apply (concat_inj_len 32) in Et; [|lia| |].
  2,3: apply List.Forall_forall; intros x Hx; apply in_map_iff in Hx as (y & <- & _); apply HL.
  assert (t1 = t2 \/ cross_collision H Q1 Q2) as [->|]; [|now left|now right].
  assert (HT1' : forall x, In x t1 -> In x Q1) by (intros; apply HT1; now right).
  assert (HT2' : forall x, In x t2 -> In x Q2) by (intros; apply HT2; now right).
  clear -Et HT1' HT2'. revert t2 Et HT2'. induction t1 as [|x t1 IH]; intros [|y t2] Et HT2'; try discriminate; [now left|].
  injection Et as Exy Et. destruct (cross_dec H Q1 Q2 x y) as [->|]; [apply HT1'; now left|apply HT2'; now left|exact Exy| |now right].
  destruct (IH ltac:(intros; apply HT1'; now right) t2 Et ltac:(intros; apply HT2'; now right)) as [->|]; auto.
Qed.

Lemma create_hash_digest D d : dl_expiration d <= u64_max ->
  exists h q, create_delegation_hash D d = Done h /\
    delegation_digest (d_sha256 D) (dl_pubkey d) (dl_expiration d) (dl_targets d) h q.
Proof.
  intros He. unfold create_delegation_hash.
  destruct (hash_of_map_ri D (delegation_fields d)) as (h & q & E & R).
  { unfold delegation_fields. apply List.Forall_app. split.
    - repeat constructor. exact He.
    - destruct (dl_targets d) as [l|]; repeat constructor. cbn.
      induction l as [|x l IH]; simpl; auto. }
  rewrite E. cbn [obind]. eexists _, _. split; [reflexivity|].
  exists h, q. split; [|split; reflexivity].
  replace (delegation_record _ _ _) with (map (fun kv => (fst kv, to_ri (snd kv))) (delegation_fields d)); [exact R|].
  unfold delegation_fields, delegation_record. destruct (dl_targets d) as [l|]; [|reflexivity].
  cbn. rewrite map_map. reflexivity.
Qed.

Lemma create_hash_done D d : dl_expiration d <= u64_max -> exists h, create_delegation_hash D d = Done h.
Proof. intros H. destruct (create_hash_digest D d H) as (h & _ & E & _). eauto. Qed.

Lemma create_hash_binding D d1 d2 h : deps_ok D ->
  dl_expiration d1 <= u64_max -> dl_expiration d2 <= u64_max ->
  create_delegation_hash D d1 = Done h -> create_delegation_hash D d2 = Done h ->
  d1 = d2 \/ exists q1 q2,
    delegation_digest (d_sha256 D) (dl_pubkey d1) (dl_expiration d1) (dl_targets d1) h q1 /\
    delegation_digest (d_sha256 D) (dl_pubkey d2) (dl_expiration d2) (dl_targets d2) h q2 /\
    cross_collision (d_sha256 D) q1 q2.
Proof.
  intros HD B1 B2 E1 E2.
  destruct (create_hash_digest D d1 B1) as (h1 & q1 & E1' & G1).
  destruct (create_hash_digest D d2 B2) as (h2 & q2 & E2' & G2).
  rewrite E1 in E1'. injection E1' as <-. rewrite E2 in E2'. injection E2' as <-.
  destruct (digest_binding _ _ _ _ _ _ _ _ _ _ (sha256_len _ HD) G1 G2) as [(A & B & C)|Hc].
  - left. destruct d1, d2; simpl in *; congruence.
  - right. eauto 10.
Qed.

Lemma create_hash_len D d h : deps_ok D -> create_delegation_hash D d = Done h -> length h = 32%nat.
Proof.
  intros HD. unfold create_delegation_hash. destruct (hash_of_map D _); cbn [obind]; [|discriminate].
  intros E. injection E as <-. apply (sha256_len _ HD).
Qed.

(** ** The user seed *)

(** The URI that goes into the seed. *)
Definition seed_uri (s : Settings) : option bytes := if uri_in_seed s then Some (s_uri s) else None.

Lemma generate_seed_input D s a :
  generate_seed D (Some s) a = Done (d_sha256 D (seed_input (s_salt s) (addr_str a) (seed_uri s))).
Proof.
  unfold generate_seed, with_settings, hash_bytes, seed_preimage, seed_input, seed_uri, len8, blen.
  destruct (uri_in_seed s); reflexivity.
Qed.

Lemma seed_input_inj salt1 a1 u1 salt2 a2 u2 :
  length a1 = length a2 ->
  ((length salt1 < 256 /\ length salt2 < 256)%nat \/ (u1 = None /\ u2 = None) \/ salt1 = salt2) ->
  seed_input salt1 a1 u1 = seed_input salt2 a2 u2 ->
  salt1 = salt2 /\ a1 = a2 /\ u1 = u2.
Proof.
  intros Ha Hc E. unfold seed_input in E. injection E as E0 E.
  assert (length salt1 = length salt2) as Hs.
  { destruct Hc as [[H1 H2]|[[-> ->]| ->]].
    - apply u8_inj in E0; lia.
    - apply (f_equal (@length byte)) in E. rewrite !app_length in E. cbn [length] in E.
      rewrite !app_length in E. simpl in E. lia.
    - reflexivity. }
  apply app_inj_len in E as [-> E]; [|assumption]. injection E as _ E.
  apply app_inj_len in E as [-> E]; [|assumption].
  split; [reflexivity|]. split; [reflexivity|].
  destruct u1 as [u1|]; destruct u2 as [u2|]; try discriminate; [|reflexivity].
  injection E as _ ->. reflexivity.
Qed.

Lemma message_key_input_inj a1 n1 a2 n2 : length a1 = length a2 ->
  message_key_input a1 n1 = message_key_input a2 n2 -> a1 = a2 /\ n1 = n2.
Proof.
  intros Ha E. unfold message_key_input in E. injection E as _ E.
  apply app_inj_len in E as [-> E]; [|assumption]. injection E as _ ->. split; reflexivity.
Qed.
