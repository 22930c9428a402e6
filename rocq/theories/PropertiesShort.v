(** How long the signature of a delegation is. *)
From Coq Require Import Strings.String Sorting.Sorted ZifyBool ZifyN ZifyNat.
From Verif Require Import Base BaseLemmas Deps Hash HashTree RbTree RbProofs Heap SigMap Settings Siwe Encode Delegation Login Provider
  SpecEth SpecHash SpecTree SigMapProofs MapRuns SpecSiwe SpecInit SpecTrace LoginProofs ProviderProofs TraceProofs LoginTheory
  DelegationTheory Concrete Scripts Demo PropertiesFetch PropertiesSize.
Local Open Scope N_scope.

(** ** The length of a witness *)

Lemma be_fixed_len w : forall n, length (be_fixed w n) = w.
Proof. induction w as [|w IH]; intros n; [reflexivity|]. cbn [be_fixed]. rewrite app_length, IH. cbn [length]. lia. Qed.

Lemma head_len major n : (length (cbor_head major n) <= 9)%nat.
Proof.
  unfold cbor_head. repeat match goal with |- context [if ?b then _ else _] => destruct b end;
    cbn [length]; rewrite ?be_fixed_len; lia.
Qed.

Lemma bytes32_len b : length b = 32%nat -> length (cbor_bytes b) = 34%nat.
Proof. intros H. unfold cbor_bytes, blen. rewrite app_length, H. reflexivity. Qed.

Lemma three_len a b c :
  (length (cbor_tree (three_way_fork a b c)) <= 4 + length (cbor_tree a) + length (cbor_tree b) + length (cbor_tree c))%nat.
Proof.
  assert (forall l r, length (cbor_tree (HFork l r)) = (2 + length (cbor_tree l) + length (cbor_tree r))%nat) as Hf.
  { intros l r. cbn [cbor_tree]. rewrite !app_length. reflexivity. }
  unfold three_way_fork. destruct a, c; rewrite ?Hf; lia.
Qed.

Section Witness.
  Context {V : Type} (D : Deps) (vhash : V -> bytes) (HD : deps_ok D).

  Lemma pruned_len (t : rbt V) : hok D vhash t -> (length (cbor_tree (pruned t)) <= 36)%nat.
  Proof.
    intros H. apply (root_hash_len D vhash HD) in H. destruct t as [|c l k v h r]; cbn [pruned cbor_tree rb_root_hash] in *;
      rewrite !app_length; [cbn; lia|]. rewrite (bytes32_len h H). cbn. lia.
  Qed.

  Lemma witness_len key f (t : rbt V) w B : hok D vhash t ->
    (forall k v, In (k, v) (elems t) -> length k = 32%nat /\ length (vhash v) = 32%nat) ->
    (forall w, (exists v, In (key, v) (elems t) /\ f v = Some w) -> (length (cbor_tree w) <= B)%nat) ->
    rb_witness vhash key f t = Some w -> (length (cbor_tree w) <= 112 * depth t + B)%nat.
  Proof.
    revert w. induction t as [|c l IHl k v h r IHr]; intros w Hh Hk Hf E; [discriminate|].
    cbn [hok elems rb_witness depth] in *. destruct Hh as (_ & Hhl & Hhr).
    pose proof (pruned_len l Hhl) as Pl. pose proof (pruned_len r Hhr) as Pr.
    destruct (Hk k v) as [Lk Lv]; [apply in_app_iff; right; left; reflexivity|].
    assert (forall u, length (cbor_tree (HLabeled k u)) = (36 + length (cbor_tree u))%nat) as Hl.
    { intros u. cbn [cbor_tree]. rewrite !app_length, (bytes32_len k Lk). reflexivity. }
    assert (length (cbor_tree (HPruned (vhash v))) = 36%nat) as Hv.
    { cbn [cbor_tree]. rewrite !app_length, (bytes32_len _ Lv). reflexivity. }
    destruct (bytes_cmp key k) eqn:Ec.
    - destruct (f v) as [w'|] eqn:Ef; [|discriminate]. cbn [mbind option_bind] in E. injection E as <-.
      apply bytes_cmp_eq in Ec. subst k.
      assert (length (cbor_tree w') <= B)%nat as Hw by (apply Hf; exists v; split; [apply in_app_iff; right; left; reflexivity|exact Ef]).
      etransitivity; [apply three_len|]. rewrite Hl. lia.
    - destruct (rb_witness vhash key f l) as [w'|] eqn:Ew; [|discriminate]. cbn [mbind option_bind] in E. injection E as <-.
      assert (length (cbor_tree w') <= 112 * depth l + B)%nat as Hw.
      { apply IHl; auto; [intros k' v' Hi; apply Hk, in_app_iff; now left|].
        intros u (v' & Hi & Eu). apply Hf. exists v'. split; [apply in_app_iff; now left|exact Eu]. }
      etransitivity; [apply three_len|]. rewrite Hl, Hv. lia.
    - destruct (rb_witness vhash key f r) as [w'|] eqn:Ew; [|discriminate]. cbn [mbind option_bind] in E. injection E as <-.
      assert (length (cbor_tree w') <= 112 * depth r + B)%nat as Hw.
      { apply IHr; auto; [intros k' v' Hi; apply Hk, in_app_iff; right; now right|].
        intros u (v' & Hi & Eu). apply Hf. exists v'. split; [apply in_app_iff; right; now right|exact Eu]. }
      etransitivity; [apply three_len|]. rewrite Hl, Hv. lia.
  Qed.

  Lemma depth_log (t : rbt V) n : rb_ok D vhash t -> (length (elems t) <= n)%nat -> (depth t <= 2 * Nat.log2 (S n))%nat.
  Proof.
    intros (_ & _ & (b & Hb) & Hr) Hn. apply bal_depth in Hb as [Hs Hd]. rewrite Hr in Hd.
    assert (b <= Nat.log2 (S n))%nat; [|lia]. apply Nat.log2_le_pow2; lia.
  Qed.

  Lemma sorted_nodup (t : rbt V) : bst t -> List.NoDup (map fst (elems t)).
  Proof.
    unfold bst, sorted. induction 1 as [|p l Hl IH HF]; cbn [map]; constructor; [|exact IH].
    intros Hi. apply in_map_iff in Hi as (q & E & Hq). rewrite List.Forall_forall in HF. apply HF in Hq. unfold klt in Hq.
    rewrite E in Hq. rewrite bytes_cmp_refl in Hq. discriminate.
  Qed.
End Witness.

Lemma nodup_map_inv {A B} (f : A -> B) l : List.NoDup (map f l) -> List.NoDup l.
Proof.
  induction l as [|x l IH]; cbn [map]; intros H; constructor; inversion_clear H as [|? ? H1 H2].
  - intros Hi. apply H1. now apply in_map.
  - auto.
Qed.

(** ** C106  The signature of a delegation is short *)

Theorem C106_short : forall D cid tr s i since now cert x sk exp sd, deps_ok D -> exec D cid tr s -> since_boot tr i since ->
  snd (step D cid now (GetDelegation (Some cert) x sk exp) s) = RDelegation (Ok sd) ->
  exists before minute after, since = before ++ minute ++ after /\ one_minutes minute /\
    (length (sd_signature sd) <= length cert + 77 + 448 * Nat.log2 (S (logins minute)))%nat.
Proof.
  intros D cid tr s i since now cert x sk exp sd HD H Hb Hr.
  destruct (exec_since D cid tr s i since HD H Hb) as (c & st & -> & Hi & _).
  destruct (C88_busiest_minute D cid tr c i since HD H Hb) as (before & minute & after & Es & Hm & _ & Hkept).
  exists before, minute, after. split; [exact Es|]. split; [exact Hm|]. set (n := logins minute) in *.
  pose proof (inv_settings _ _ _ _ _ _ _ Hi) as Hst. destruct (inv_sigs _ _ _ _ _ _ _ Hi) as (ops & Hh & Er).
  destruct (run_map_inv D ops _ Er) as (Hok & _ & _).
  pose proof (history_lengths D cid st since ops _ HD Hh Er) as Hlen.
  cbn [step] in Hr. unfold run_query in Hr.
  destruct (siwe_get_delegation D now (Some cert) x sk exp c) as [[r|e]|m] eqn:Eg; try discriminate Hr.
  assert (r = sd) as -> by (cbn in Hr; congruence). clear Hr.
  destruct (get_delegation_ok D now (Some cert) x sk exp c st sd HD Hst Eg) as (cert' & b & dh & w & Ec & _ & _ & _ & _ & Ew & ->).
  injection Ec as <-. cbn [sd_signature]. unfold create_certified_signature, cbor_certificate_signature, delegation_tree.
  unfold witness in Ew. destruct (sm_is_expired _ _ _ _); [discriminate|].
  destruct (sm_witness D (hash_bytes D (seed_of D st x)) dh (c_sigs c)) as [w'|] eqn:Esw; [|discriminate].
  assert (w' = w) as -> by (destruct (bytes_eqb _ _) in Ew; congruence). clear Ew.
  enough (length (cbor_tree w) <= 3 + 448 * Nat.log2 (S n))%nat as Hw.
  { cbn [cbor_tree]. rewrite !app_length. unfold cbor_bytes at 1. rewrite app_length.
    pose proof (head_len 2 (blen cert)) as Hc.
    assert (length (cbor_bytes (labeled_hash D LABEL_ASSETS (assets_root D))) = 34%nat) as -> by apply bytes32_len, (sha256_len D HD).
    change (length (cbor_head 5 2)) with 1%nat. change (length (cbor_text (bs "certificate"))) with 12%nat.
    change (length (cbor_text (bs "tree"))) with 5%nat. change (length (cbor_bytes LABEL_SIG)) with 4%nat.
    change (length (cbor_head 4 3)) with 1%nat. change (length (cbor_head 4 2)) with 1%nat.
    change (length (cbor_uint 1)) with 1%nat. change (length (cbor_uint 2)) with 1%nat. change (length (cbor_uint 4)) with 1%nat.
    cbn [length]. lia. }
  pose proof Hok as [Ho Hin _]. rewrite List.Forall_forall in Hin.
  assert (forall k d, sm_has (c_sigs c) k d -> is_Some (sm_witness D k d (c_sigs c))) as Hhas.
  { intros k d Hkd. destruct (sm_witness_ok D k d _ Hok Hkd) as (u & -> & _). eauto. }
  assert (length (elems (sm_map (c_sigs c))) <= n)%nat as Nout.
  { pose (first := fun p : bytes * submap => (fst p, match elems (snd p) with (d, _) :: _ => d | [] => [] end)).
    rewrite <- (map_length first). apply Hkept. split.
    - apply (nodup_map_inv fst). rewrite map_map. cbn [first fst]. apply (sorted_nodup (sm_map (c_sigs c))). apply Ho.
    - apply List.Forall_forall. intros p Hp. apply in_map_iff in Hp as ([k sub] & <- & Hp). cbn [first fst snd].
      apply Hhas. exists sub. split; [exact Hp|]. destruct (Hin _ Hp) as [_ Hne]. cbn [snd] in Hne.
      destruct (elems sub) as [|[d []] l] eqn:El; [|left; reflexivity].
      destruct sub as [|cc l k' u h r]; [contradiction|]. cbn [elems] in El. now destruct (elems l). }
  unfold sm_witness in Esw. destruct (rb_get (hash_bytes D (seed_of D st x)) (sm_map (c_sigs c))) as [sub|] eqn:G1; [|discriminate].
  cbn [mbind option_bind] in Esw. destruct (rb_get dh sub) as [[]|] eqn:G2; [|discriminate]. cbn [mbind option_bind] in Esw.
  set (sh := hash_bytes D (seed_of D st x)) in *.
  apply (rb_get_in _ _ _ (proj1 Ho)) in G1 as Isub. destruct (Hin _ Isub) as [Hsub _]. cbn [snd] in Hsub.
  assert (length (elems sub) <= n)%nat as Nin.
  { rewrite <- (map_length (fun p : bytes * unit => (sh, fst p))). apply Hkept. split.
    - apply (nodup_map_inv snd). rewrite map_map. cbn [snd]. apply (sorted_nodup sub). apply Hsub.
    - apply List.Forall_forall. intros p Hp. apply in_map_iff in Hp as ([d []] & <- & Hp). cbn [fst snd].
      apply Hhas. exists sub. split; assumption. }
  pose proof (depth_log D _ _ n Ho Nout) as D1. pose proof (depth_log D _ _ n Hsub Nin) as D2.
  apply (witness_len D (submap_hash D) HD sh _ _ w (112 * depth sub + 3)) in Esw; [lia|apply Ho| |].
  - intros k v Hkv. destruct (Hin _ Hkv) as [Hv Hne]. cbn [snd] in Hv, Hne. split.
    + destruct v as [|cc l k' [] h r]; [contradiction|]. apply (Hlen k k'). exists (Node cc l k' tt h r).
      split; [exact Hkv|]. cbn [elems]. apply in_app_iff. right. now left.
    + apply (root_hash_len D (unit_hash D) HD). apply Hv.
  - intros u (v & Hkv & Eu). pose proof (sorted_in_unique _ _ _ _ (proj1 Ho) Hkv Isub) as ->.
    apply (witness_len D (unit_hash D) HD dh _ _ u 3) in Eu; [exact Eu|apply Hsub| |].
    + intros k [] Hk. split; [|apply (sha256_len _ HD)]. apply (Hlen sh k). exists sub. split; assumption.
    + intros u' (v' & _ & [= <-]). vm_compute. lia.
Qed.

(** A million logins a minute: under ten thousand bytes more than the certificate. *)
Example C106_million : forall D cid tr s i since now cert x sk exp sd, deps_ok D -> exec D cid tr s -> since_boot tr i since ->
  snd (step D cid now (GetDelegation (Some cert) x sk exp) s) = RDelegation (Ok sd) ->
  (forall before minute after, since = before ++ minute ++ after -> one_minutes minute -> (Nat.log2 (S (logins minute)) <= 20)%nat) ->
  N.of_nat (length (sd_signature sd)) <= N.of_nat (length cert) + 9037.
Proof.
  intros D cid tr s i since now cert x sk exp sd HD H Hb Hr Hn.
  destruct (C106_short D cid tr s i since now cert x sk exp sd HD H Hb Hr) as (b & m & a & Es & Hm & Hl).
  specialize (Hn b m a Es Hm). lia.
Qed.

(** Concrete: the demo, with three logins within a minute. *)
Definition signature_length (r : reply) : option nat := match r with RDelegation (Ok sd) => Some (length (sd_signature sd)) | _ => None end.
Example C106_case : exists s, exec CD demo_cid demo_tr s /\ since_boot demo_tr demo_input (drop 1 demo_tr) /\
  logins demo_tr = 3%nat /\
  signature_length (snd (step CD demo_cid (12 * sec) (GetDelegation (Some (bs "cert")) (wallet_address CD alice) key1 (1802 * sec)) s)) = Some 221%nat.
Proof.
  exists (snd (play CD demo_cid demo_script None)).
  split; [apply (play_exec _ _ demo_script); [vm_compute; reflexivity|rewrite <- demo_play; apply surjective_pairing]|].
  split; [exact (demo_since 13 ltac:(lia))|]. split; [vm_compute; reflexivity|]. vm_compute. reflexivity.
Qed.

Print Assumptions C106_short.
