(** Fetching delegations: what a successful call says about the past, when it succeeds,
    and what the tree it returns looks like. *)
From Coq Require Import Strings.String ZifyBool ZifyN ZifyNat.
From Verif Require Import Base BaseLemmas Deps Hex Eth Hash HashTree RbTree RbProofs SigMap Time3339 Settings Siwe Encode
  Delegation Login Provider SpecEth EthProofs SpecHash DelegationProofs SpecWire WireProofs SpecTree SigMapProofs
  MapRuns SpecSiwe SiweProofs SpecInit SettingsProofs SpecTrace LoginProofs ProviderProofs TraceProofs LoginTheory.
Local Open Scope N_scope.

(** ** Naming what may collide *)

Lemma identity_or_collision D i x y : length x = length y ->
  d_sha256 D (user_seed D i x) = d_sha256 D (user_seed D i y) -> x = y \/ identity_collision D i x y.
Proof.
  intros Hl E. destruct (decide (user_seed D i x = user_seed D i y)) as [Es|Ns]; [|right; left; now split].
  destruct (decide (seed_input (in_salt i) x (uri_part i) = seed_input (in_salt i) y (uri_part i))) as [Ei|Ni];
    [|right; right; now split].
  left. apply seed_input_inj in Ei as (_ & -> & _); auto.
Qed.

Lemma delegation_or_collision D t sk1 exp1 sk2 exp2 h : deps_ok D -> exp1 <= u64_max -> exp2 <= u64_max ->
  create_delegation_hash D (mkDelegation sk1 exp1 t) = Done h ->
  create_delegation_hash D (mkDelegation sk2 exp2 t) = Done h ->
  (sk1 = sk2 /\ exp1 = exp2) \/ delegation_collision D t sk1 exp1 sk2 exp2.
Proof.
  intros HD B1 B2 E1 E2.
  destruct (create_hash_binding D (mkDelegation sk1 exp1 t) (mkDelegation sk2 exp2 t) h HD B1 B2 E1 E2) as [E|(q1 & q2 & G1 & G2 & Hc)].
  - left. split; congruence.
  - right. exists h, q1, q2. auto.
Qed.

Lemma targets_installed D cid i s fl : init_spec D cid i s fl -> targets_of i (s_targets s).
Proof.
  intros H. pose proof (init_targets _ _ _ _ _ H) as Ht. unfold targets_of.
  destruct (in_targets i) as [l|]; [|assumption]. destruct Ht as (ps & E & _ & HF). eauto.
Qed.

(** ** Where a witness comes from *)

Lemma witness_entry D ops m now seed dh w : run_map D ops sm_empty = Done m -> witness D now m seed dh = Ok w ->
  exists t, In (MPut t (d_sha256 D seed) dh) ops /\ now <= N.min (t + one_minute) u64_max.
Proof.
  intros E Hw. destruct (run_map_inv D ops m E) as (Hok & Hq & Hf).
  destruct (witness_ok D now m seed dh w Hok Hw) as (Hh & Hx & _).
  destruct (Hq _ _ Hh) as (e & He & Hs & Hd). unfold sm_is_expired in Hx.
  destruct (List.find _ (sm_queue m)) as [y|] eqn:Ef.
  - apply List.find_some in Ef as [Hy Hm]. apply andb_true_iff in Hm as [H1 H2]. apply bytes_eqb_spec in H1, H2.
    destruct (Hf y Hy) as (t & Ht & Hat). rewrite H1, H2 in Ht. exists t. split; [assumption|].
    rewrite Hat, <- put_expiry in Hx. unfold u64_max. lia.
  - apply (List.find_none _ _ Ef) in He. rewrite Hs, Hd, !bytes_eqb_refl in He. discriminate.
Qed.

(** Everything a successful fetch tells. *)
Lemma delegated_explained D cid tr e s' cert x sk exp r : deps_ok D -> exec D cid (tr ++ [e]) s' ->
  delegated e cert x sk exp r ->
  exists c i s since b dh w ops, exec D cid tr (Some c) /\ inv D cid tr c i s since /\ since_boot tr i since /\
    address_text D x b /\ key_error D sk = None /\ exp <= u64_max /\
    create_delegation_hash D (mkDelegation sk exp (s_targets s)) = Done dh /\
    map_history D cid s since ops /\ run_map D ops sm_empty = Done (c_sigs c) /\
    witness D (ev_time e) (c_sigs c) (user_seed D i x) dh = Ok w /\
    r = mkSigned (mkDelegation sk exp (s_targets s)) (create_certified_signature cert (delegation_tree D w)).
Proof.
  intros HD H [Ho Hr]. destruct (exec_event D cid tr e s' HD H) as (st & H0 & Hs & Ht & Hu & Hw & Htm).
  rewrite Ho in Hs, Hw. destruct st as [c|]; [|cbn in Hs; congruence].
  destruct (exec_inv D cid tr c HD H0) as (i & s & since & Hi). cbn [step run_query op_wf] in Hs, Hw. unfold run_query in Hs.
  destruct (siwe_get_delegation D (ev_time e) (Some cert) x sk exp c) as [r'|] eqn:E; [|congruence].
  assert (r' = Ok r) as -> by congruence.
  destruct (get_delegation_ok D _ _ x sk exp c s r HD (inv_settings _ _ _ _ _ _ _ Hi) E)
    as (certificate & b & dh & w & Ec & Ha & Hk & Hne & Edh & Ew & Er).
  assert (certificate = cert) as -> by congruence.
  destruct (inv_sigs _ _ _ _ _ _ _ Hi) as (ops & Hh & Hrun).
  rewrite (seed_of_user D cid i s (c_flags c) x (inv_init _ _ _ _ _ _ _ Hi)) in Ew.
  exists c, i, s, since, b, dh, w, ops. pose proof (inv_since _ _ _ _ _ _ _ Hi). auto 12.
Qed.

(** A put under the same two keys came from the same session, or something collides. *)
Lemma put_origin D cid i s fl since ops t x b sk exp dh : deps_ok D -> init_spec D cid i s fl ->
  map_history D cid s since ops -> address_text D x b -> exp <= u64_max ->
  create_delegation_hash D (mkDelegation sk exp (s_targets s)) = Done dh ->
  In (MPut t (d_sha256 D (user_seed D i x)) dh) ops ->
  exists before l after sg x' sk' n exp' pk, since = before ++ l :: after /\ logged_in l sg x' sk' n exp' pk /\
    ev_time l = t /\ (x' = x \/ identity_collision D i x' x) /\
    ((sk' = sk /\ exp' = exp) \/ delegation_collision D (s_targets s) sk' exp' sk exp).
Proof.
  intros HD Hin Hh Ha He Edh Hput.
  destruct (map_history_put D cid s since ops t _ dh Hh Hput)
    as (bef & l & aft & sg & x' & sk' & n & exp' & pk & Es & Hl & Ht & Ek & He' & (b' & Ha') & _ & Edh').
  exists bef, l, aft, sg, x', sk', n, exp', pk. do 3 (split; [assumption|]). split.
  - rewrite (seed_of_user D cid i s fl x' Hin) in Ek. apply identity_or_collision; [|congruence].
    now rewrite (address_text_length D x b HD Ha), (address_text_length D x' b' HD Ha').
  - eapply delegation_or_collision; eassumption.
Qed.

(** ** Availability *)

(** The operations of a history, split at one of its events. *)
Lemma map_history_split D cid s l1 e l2 ops : map_history D cid s (l1 ++ e :: l2) ops ->
  exists ops1 o ops2, ops = ops1 ++ o ++ ops2 /\ map_history D cid s l1 ops1 /\ event_ops D cid s e o /\
    (forall op t, In op ops2 -> op_time op = Some t -> exists e', In e' l2 /\ ev_time e' = t) /\
    (forall k dh, ~ In (MDelete k dh) ops2).
Proof.
  revert ops. induction l2 as [|a l2 IH] using rev_ind; intros ops H.
  - inversion H as [E|since ops' e' o Hh He E1 E2]; [destruct l1; discriminate|].
    apply app_inj_tail in E1 as [-> ->]. exists ops', o, []. rewrite app_nil_r.
    repeat (split; [assumption || reflexivity|]). split; [intros op t []|intros k dh []].
  - rewrite app_comm_cons, app_assoc in H. inversion H as [E|since ops' e' o Hh He E1 E2]; [destruct l1; discriminate|].
    apply app_inj_tail in E1 as [-> ->]. destruct (IH _ Hh) as (ops1 & oe & ops2 & -> & H1 & H2 & H3 & H4).
    exists ops1, oe, (ops2 ++ o). rewrite <- !app_assoc. do 3 (split; [assumption || reflexivity|]). split.
    + intros op t Hin Ht. apply in_app_iff in Hin as [Hin|Hin].
      * destruct (H3 op t Hin Ht) as (e' & I & E). exists e'. split; [apply in_app_iff; auto|assumption].
      * exists a. split; [apply in_app_iff; right; left; reflexivity|].
        inversion He; subst o; cbn [In] in Hin; repeat (destruct Hin as [Hin|Hin]; [subst op; cbn in Ht; congruence|]); contradiction.
    + intros k dh Hin. apply in_app_iff in Hin as [Hin|Hin]; [now apply (H4 k dh)|].
      inversion He; subst o; cbn [In] in Hin; intuition discriminate.
Qed.

(** A pair that is put for the first time stays available for a minute. *)
Lemma fresh_available D ops1 m1 t k dh ops2 now m : run_map D ops1 sm_empty = Done m1 ->
  (forall t', ~ In (MPut t' k dh) ops1) -> (forall k dh, ~ In (MDelete k dh) ops2) ->
  (forall op t', In op ops2 -> op_time op = Some t' -> t <= t' <= now) ->
  now < N.min (t + one_minute) u64_max ->
  run_map D (MPut t k dh :: ops2) m1 = Done m -> sm_has m k dh /\ sm_is_expired now k dh m = false.
Proof.
  intros E1 Hnew Hdel Htimes Hnow E. cbn [run_map] in E.
  destruct (run_map_inv D ops1 m1 E1) as (Hok1 & _ & Hf1).
  destruct (map_step_ok D (MPut t k dh) m1 Hok1) as (m2 & n & E2 & Hok2 & _). rewrite E2 in E. cbn [obind fst] in E.
  set (T := sat_add t DELEGATION_SIGNATURE_EXPIRES_AT).
  assert (now < T) as HT by (unfold T; rewrite <- put_expiry; unfold u64_max in Hnow; lia).
  assert (MapRuns.fresh T k dh m2) as Hfresh.
  { cbn [map_step] in E2. destruct (sm_put_ok D t k dh m1 Hok1) as (m2' & E2' & _ & Hhas & Hq).
    rewrite E2' in E2. cbn [obind] in E2. assert (m2' = m2) as -> by congruence. split; [apply Hhas; auto|].
    intros e He Hs Hd. rewrite Hq in He. destruct He as [<-|He]; [reflexivity|].
    destruct (Hf1 e He) as (t' & Ht & _). rewrite Hs, Hd in Ht. now apply Hnew in Ht. }
  clear E1 E2 Hok1 Hf1 Hnew m1 ops1. revert m2 Hok2 Hfresh E.
  induction ops2 as [|op ops2 IH]; intros m2 Hok2 Hfresh E; cbn [run_map] in E.
  - assert (m2 = m) as -> by congruence. split; [apply Hfresh|].
    apply (fresh_not_expired now T k dh m Hfresh). lia.
  - destruct (map_step_ok D op m2 Hok2) as (m3 & n3 & E3 & Hok3 & _). rewrite E3 in E. cbn [obind fst] in E.
    apply (IH ltac:(intros k' d' H; apply (Hdel k' d'); right; exact H)
              ltac:(intros op' t' H H'; eapply Htimes; [right; exact H|exact H']) m3 Hok3); [|assumption].
    apply (fresh_step D op m2 m3 n3 T k dh Hok2 E3); auto.
    + intros ->. apply (Hdel k dh). left. reflexivity.
    + intros t' Ht. destruct (Htimes op t' (or_introl eq_refl) Ht). lia.
    + intros t' ->. destruct (Htimes (MPut t' k dh) t' (or_introl eq_refl) eq_refl). unfold T, sat_add. lia.
Qed.

(** ** The returned tree is small enough for CBOR *)

Lemma len32_small (b : bytes) : length b = 32%nat -> blen b < 2 ^ 64.
Proof. intros H. unfold blen. rewrite H. vm_compute. reflexivity. Qed.

Section Small.
  Context {V : Type} (D : Deps) (vhash : V -> bytes) (HD : deps_ok D).

  Lemma root_hash_len (t : rbt V) : hok D vhash t -> length (rb_root_hash D t) = 32%nat.
  Proof.
    destruct t as [|c l k v h r]; cbn [hok rb_root_hash].
    - intros _. apply (sha256_len _ HD).
    - intros (-> & _). unfold node_hash.
      destruct l, r; apply (sha256_len _ HD).
  Qed.

  Lemma pruned_small (t : rbt V) : hok D vhash t -> tree_small (pruned t).
  Proof.
    intros H. apply root_hash_len in H. destruct t as [|c l k v h r]; cbn in *; [exact I|]. now apply len32_small.
  Qed.

  Lemma three_small a b c : tree_small a -> tree_small b -> tree_small c -> tree_small (three_way_fork a b c).
  Proof. intros Ha Hb Hc. destruct a, c; cbn in *; tauto. Qed.

  Lemma rb_witness_small key f (t : rbt V) w : hok D vhash t ->
    (forall k v, In (k, v) (elems t) -> length k = 32%nat /\ length (vhash v) = 32%nat) ->
    (forall k v w, In (k, v) (elems t) -> f v = Some w -> tree_small w) ->
    rb_witness vhash key f t = Some w -> tree_small w.
  Proof.
    revert w. induction t as [|c l IHl k v h r IHr]; intros w Hh Hk Hf E; [discriminate|].
    cbn [hok elems rb_witness] in *. destruct Hh as (_ & Hhl & Hhr).
    destruct (Hk k v) as [Lk Lv]; [apply in_app_iff; right; left; reflexivity|].
    destruct (bytes_cmp key k).
    - destruct (f v) as [w'|] eqn:Ef; [|discriminate]. cbn [mbind option_bind] in E. injection E as <-.
      apply three_small; [now apply pruned_small| |now apply pruned_small]. split; [now apply len32_small|].
      apply (Hf k v); [|assumption]. apply in_app_iff; right; left; reflexivity.
    - destruct (rb_witness vhash key f l) as [w'|] eqn:Ew; [|discriminate]. cbn [mbind option_bind] in E. injection E as <-.
      apply three_small; [|split; now apply len32_small|now apply pruned_small].
      apply IHl; auto; intros; [apply Hk|eapply Hf; [|eassumption]]; apply in_app_iff; left; eassumption.
    - destruct (rb_witness vhash key f r) as [w'|] eqn:Ew; [|discriminate]. cbn [mbind option_bind] in E. injection E as <-.
      apply three_small; [now apply pruned_small|split; now apply len32_small|].
      apply IHr; auto; intros; [apply Hk|eapply Hf; [|eassumption]]; apply in_app_iff; right; right; eassumption.
  Qed.
End Small.

Lemma sm_witness_small D m s d w : deps_ok D -> sm_ok D m ->
  (forall s d, sm_has m s d -> length s = 32%nat /\ length d = 32%nat) ->
  sm_witness D s d m = Some w -> tree_small w.
Proof.
  intros HD Hok Hlen. pose proof Hok as [Ho Hi _]. unfold sm_witness.
  destruct (rb_get s (sm_map m)) as [sub|] eqn:G1; [|discriminate]. cbn [mbind option_bind].
  destruct (rb_get d sub) as [[]|] eqn:G2; [|discriminate]. cbn [mbind option_bind]. intros E.
  rewrite List.Forall_forall in Hi.
  apply (rb_witness_small D (submap_hash D) HD s _ (sm_map m) w) in E; [assumption|apply Ho| |].
  - intros k v Hin. destruct (Hi _ Hin) as [Hsub Hne]. cbn [snd] in Hsub, Hne. split.
    + destruct v as [|c l k' u h r]; [contradiction|]. destruct u.
      apply (Hlen k k'). exists (Node c l k' tt h r). split; [assumption|]. cbn [elems]. apply in_app_iff; right; left; reflexivity.
    + apply (root_hash_len D (unit_hash D) HD). apply Hsub.
  - intros k v w' Hin Ew. destruct (Hi _ Hin) as [Hsub _]. cbn [snd] in Hsub.
    apply (rb_witness_small D (unit_hash D) HD d _ v w') in Ew; [assumption|apply Hsub| |].
    + intros k' [] Hin'. split; [|apply (sha256_len _ HD)]. apply (Hlen k k'). exists v. auto.
    + intros k' [] w'' _ [= <-]. vm_compute. reflexivity.
Qed.

Lemma history_lengths D cid s since ops m : deps_ok D -> map_history D cid s since ops ->
  run_map D ops sm_empty = Done m -> forall k d, sm_has m k d -> length k = 32%nat /\ length d = 32%nat.
Proof.
  intros HD Hh Hr k d Hhas. destruct (run_map_inv D ops m Hr) as (_ & Hq & Hf).
  destruct (Hq _ _ Hhas) as (e & He & <- & <-). destruct (Hf e He) as (t & Ht & _).
  destruct (map_history_put D cid s since ops t _ _ Hh Ht)
    as (bef & l & aft & sg & x' & sk' & n & exp' & pk & _ & _ & _ & -> & _ & _ & _ & Edh).
  split; [apply (sha256_len _ HD)|]. eapply create_hash_len; eassumption.
Qed.

Lemma delegation_tree_small D w : deps_ok D -> tree_small w -> tree_small (delegation_tree D w).
Proof.
  intros HD Hw. cbn. split; [apply len32_small, (sha256_len _ HD)|]. split; [vm_compute; reflexivity|assumption].
Qed.

(** ** The returned tree has proper digests *)

Section Digests.
  Context {V : Type} (D : Deps) (vhash : V -> bytes) (HD : deps_ok D).

  Lemma pruned_digests (t : rbt V) : hok D vhash t -> digests32 (pruned t).
  Proof. intros H. apply (root_hash_len D vhash HD) in H. destruct t as [|c l k v h r]; cbn in *; [exact I|assumption]. Qed.

  Lemma three_digests a b c : digests32 a -> digests32 b -> digests32 c -> digests32 (three_way_fork a b c).
  Proof. intros Ha Hb Hc. destruct a, c; cbn in *; tauto. Qed.

  Lemma rb_witness_digests key f (t : rbt V) w : hok D vhash t ->
    (forall k v, In (k, v) (elems t) -> length (vhash v) = 32%nat) ->
    (forall k v w, In (k, v) (elems t) -> f v = Some w -> digests32 w) ->
    rb_witness vhash key f t = Some w -> digests32 w.
  Proof.
    revert w. induction t as [|c l IHl k v h r IHr]; intros w Hh Hk Hf E; [discriminate|].
    cbn [hok elems rb_witness] in *. destruct Hh as (_ & Hhl & Hhr).
    pose proof (Hk k v ltac:(apply in_app_iff; right; left; reflexivity)) as Lv.
    destruct (bytes_cmp key k).
    - destruct (f v) as [w'|] eqn:Ef; [|discriminate]. cbn [mbind option_bind] in E. injection E as <-.
      apply three_digests; [now apply pruned_digests| |now apply pruned_digests]. cbn.
      apply (Hf k v); [|assumption]. apply in_app_iff; right; left; reflexivity.
    - destruct (rb_witness vhash key f l) as [w'|] eqn:Ew; [|discriminate]. cbn [mbind option_bind] in E. injection E as <-.
      apply three_digests; [|exact Lv|now apply pruned_digests].
      apply IHl; auto; intros; [eapply Hk|eapply Hf; [|eassumption]]; apply in_app_iff; left; eassumption.
    - destruct (rb_witness vhash key f r) as [w'|] eqn:Ew; [|discriminate]. cbn [mbind option_bind] in E. injection E as <-.
      apply three_digests; [now apply pruned_digests|exact Lv|].
      apply IHr; auto; intros; [eapply Hk|eapply Hf; [|eassumption]]; apply in_app_iff; right; right; eassumption.
  Qed.
End Digests.

Lemma sm_witness_digests D m s d w : deps_ok D -> sm_ok D m -> sm_witness D s d m = Some w -> digests32 w.
Proof.
  intros HD Hok. pose proof Hok as [Ho Hi _]. unfold sm_witness.
  destruct (rb_get s (sm_map m)) as [sub|] eqn:G1; [|discriminate]. cbn [mbind option_bind].
  destruct (rb_get d sub) as [[]|] eqn:G2; [|discriminate]. cbn [mbind option_bind]. intros E.
  rewrite List.Forall_forall in Hi.
  apply (rb_witness_digests D (submap_hash D) HD s _ (sm_map m) w) in E; [assumption|apply Ho| |].
  - intros k v Hin. destruct (Hi _ Hin) as [Hsub _]. apply (root_hash_len D (unit_hash D) HD). apply Hsub.
  - intros k v w' Hin Ew. destruct (Hi _ Hin) as [Hsub _]. cbn [snd] in Hsub.
    apply (rb_witness_digests D (unit_hash D) HD d _ v w') in Ew; [assumption|apply Hsub| |].
    + intros k' [] _. apply (sha256_len _ HD).
    + intros k' [] w'' _ [= <-]. exact I.
Qed.

(** ** The returned tree and the certified data *)

Lemma delegation_tree_hash D w m : reconstruct D w = sm_root_hash D m ->
  tree_hash (d_sha256 D) (delegation_tree D w) = root_hash D m.
Proof. intros E. rewrite <- reconstruct_hash. unfold delegation_tree. cbn [reconstruct]. rewrite E. reflexivity. Qed.

Lemma delegation_tree_lookup D w path v : lookup_found path w v ->
  lookup_found (LABEL_SIG :: path) (delegation_tree D w) v.
Proof.
  intros H. apply lookup_label with w; [|assumption].
  change (flatten_forks (delegation_tree D w)) with
    ([HPruned (labeled_hash D LABEL_ASSETS (assets_root D))] ++ HLabeled LABEL_SIG w :: []). constructor.
Qed.

Lemma delegation_tree_wf D w : well_formed w -> well_formed (delegation_tree D w).
Proof.
  intros H. apply wf_forest; cbn [delegation_tree flatten_forks app].
  - repeat constructor.
  - intros l t' [E|[E|[]]]; [discriminate|]. congruence.
  - intros v [E|[E|[]]]; discriminate.
Qed.

Definition login_okb (e : event) : bool :=
  match ev_op e, ev_reply e with SiweLogin _ _ _ _, RLogin (Ok _) => true | _, _ => false end.

Lemma login_okb_spec e : login_okb e = true <-> login_succeeds e.
Proof.
  unfold login_okb, login_succeeds, logged_in. split.
  - destruct (ev_op e), (ev_reply e) as [| | |[[exp pk]|]| | |]; try discriminate. intros _. eauto 10.
  - intros (sg & x & sk & n & exp & pk & -> & ->). reflexivity.
Qed.

Lemma last_login l e : In e l -> login_succeeds e ->
  exists before e' after, l = before ++ e' :: after /\ login_succeeds e' /\ Forall (fun e => ~ login_succeeds e) after.
Proof.
  intros Hin He. induction l as [|a l IH] using rev_ind; [contradiction|].
  destruct (login_okb a) eqn:Ea.
  - exists l, a, []. split; [reflexivity|]. split; [now apply login_okb_spec|constructor].
  - assert (~ login_succeeds a) as Na by (rewrite <- login_okb_spec; congruence).
    apply in_app_iff in Hin as [Hin|[<-|[]]]; [|contradiction].
    destruct (IH Hin) as (bef & e' & aft & -> & Hl & HF). exists bef, e', (aft ++ [a]). rewrite <- app_assoc.
    split; [reflexivity|]. split; [assumption|]. apply List.Forall_app. auto.
Qed.

Lemma resynced_certified D cid tr c i s since e : inv D cid tr c i s since -> resynced D since ->
  In e since -> login_succeeds e -> c_certified c = root_hash D (c_sigs c).
Proof.
  intros Hi Hr Hin He. destruct (last_login since e Hin He) as (bef & l & aft & Es & Hl & HF).
  apply (inv_sync _ _ _ _ _ _ _ Hi bef l aft Es Hl). intros a1 e' a2 -> Hd.
  destruct (Hr (bef ++ l :: a1) e' a2) as (l' & Hin' & Hl'); [rewrite Es, <- app_assoc; reflexivity|assumption|].
  rewrite List.Forall_forall in HF. apply (HF l'); [|assumption]. apply in_app_iff. right. right. assumption.
Qed.

(** ** After an upgrade *)

Lemma since_boot_suffix tr1 u tr2 i since : boots u -> since_boot (tr1 ++ u :: tr2) i since -> exists l, tr2 = l ++ since.
Proof.
  intros Hu (bef & b & E & Hb & HF). apply split_two in E as [(_ & _ & ->)|[(k & -> & ->)|(k & -> & ->)]].
  - now exists [].
  - exists (k ++ [b]). now rewrite <- app_assoc.
  - apply List.Forall_app in HF as [_ HF]. apply List.Forall_cons_iff in HF as [HF _]. contradiction.
Qed.
