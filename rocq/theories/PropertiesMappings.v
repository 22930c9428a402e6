(** C39-C43: the address mappings and upgrades. *)
From Coq Require Import Strings.String ZifyBool ZifyN ZifyNat.
From Verif Require Import Base BaseLemmas Deps Hex Eth Hash HashTree RbTree SigMap Time3339 Settings Siwe Encode
  Delegation Login Provider SpecEth EthProofs SpecHash DelegationProofs SpecWire WireProofs SpecTree SigMapProofs
  MapRuns SpecSiwe SiweProofs SpecInit SettingsProofs SpecTrace LoginProofs ProviderProofs TraceProofs LoginTheory
  DelegationTheory MappingProofs CallProofs Concrete Scripts Demo.
Local Open Scope N_scope.

(** What the three mapping queries reply in a state. *)
Definition says_address (D : Deps) (cid : bytes) (s : state) (p x : bytes) : Prop :=
  forall now, step D cid now (GetAddress p) s = (s, Provider.RText (Ok x)).
Definition says_own_address (D : Deps) (cid : bytes) (s : state) (p x : bytes) : Prop :=
  forall now, step D cid now (GetCallerAddress p) s = (s, Provider.RText (Ok x)).
Definition says_principal (D : Deps) (cid : bytes) (s : state) (x p : bytes) : Prop :=
  forall now, step D cid now (GetPrincipal x) s = (s, Provider.RBlob (Ok p)).

Lemma says_address_iff D cid tr c i since p x : deps_ok D -> exec D cid tr (Some c) -> since_boot tr i since ->
  wants_no_address i = false -> says_address D cid (Some c) p x <-> last_address D tr p x.
Proof.
  intros HD H Hs Hw. split.
  - intros Hq. now apply (get_address_reply D cid tr c i since 0 p x HD H Hs Hw).
  - intros Hl now. now apply (get_address_reply D cid tr c i since now p x HD H Hs Hw).
Qed.

Lemma says_principal_iff D cid tr c i since x p : deps_ok D -> exec D cid tr (Some c) -> since_boot tr i since ->
  wants_no_principal i = false -> says_principal D cid (Some c) x p <-> last_principal D tr x p.
Proof.
  intros HD H Hs Hw. split.
  - intros Hq. now apply (get_principal_reply D cid tr c i since 0 x p HD H Hs Hw).
  - intros Hl now. now apply (get_principal_reply D cid tr c i since now x p HD H Hs Hw).
Qed.

Lemma says_own D cid s p x : says_own_address D cid s p x <-> says_address D cid s p x.
Proof.
  assert (forall now, step D cid now (GetCallerAddress p) s = step D cid now (GetAddress p) s) as E.
  { intros now. destruct s as [c|]; [|reflexivity]. cbn [step]. unfold get_caller_address, get_address.
    destruct (disable_principal_to_eth (c_flags c)); reflexivity. }
  unfold says_own_address, says_address. split; intros Hq now; specialize (Hq now); congruence.
Qed.

(** ** C39  A login records the address and the principal *)

Theorem C39_recorded : forall D cid tr e s sg x sk n exp pk i since, deps_ok D ->
  exec D cid (tr ++ [e]) s -> logged_in e sg x sk n exp pk -> since_boot tr i since ->
  wants_no_address i = false -> wants_no_principal i = false ->
  says_address D cid s (principal_of D pk) x /\ says_own_address D cid s (principal_of D pk) x /\
  says_principal D cid s x (principal_of D pk).
Proof.
  intros D cid tr e s sg x sk n exp pk i since HD H Hl Hs Hna Hnp.
  assert (login_succeeds e) as Hls by (do 6 eexists; exact Hl).
  pose proof (since_boot_snoc tr i since e Hs (login_not_boot e Hls)) as Hs'.
  destruct (since_boot_installed D cid _ s _ _ H Hs') as [c ->].
  rewrite says_own, (says_address_iff D cid (tr ++ [e]) c i (since ++ [e]) _ _ HD H Hs' Hna).
  rewrite (says_principal_iff D cid (tr ++ [e]) c i (since ++ [e]) _ _ HD H Hs' Hnp).
  assert (forall off, off i = false -> notes D off tr e x (principal_of D pk)) as Hn.
  { intros off Ho. exists i, since, sg, sk, n, exp, pk. auto. }
  assert (last_address D (tr ++ [e]) (principal_of D pk) x) as HA.
  { exists tr, e, []. split; [reflexivity|]. split; [now apply Hn|]. intros [|? q1] f q2 E; discriminate. }
  split; [exact HA|]. split; [exact HA|].
  exists tr, e, []. split; [reflexivity|]. split; [now apply Hn|]. intros [|? q1] f q2 E; discriminate.
Qed.

(** Concrete: Alice's first login. *)
Example C39_case : exists s sg n exp pk, exec CD demo_cid (take 4 demo_tr ++ [demo_at 4]) (Some s) /\
  logged_in (demo_at 4) sg (wallet_address CD alice) key1 n exp pk /\
  since_boot (take 4 demo_tr) demo_input (take 3 (drop 1 demo_tr)) /\
  wants_no_address demo_input = false /\ wants_no_principal demo_input = false /\
  ev_reply (demo_at 8) = Provider.RBlob (Ok (principal_of CD pk)).
Proof.
  destruct (demo_snoc 4) as [s Hs]; [lia|]. do 5 eexists. split; [exact Hs|]. split; [split; vm_compute; reflexivity|].
  split; [apply (demo_since 4); lia|]. split; [reflexivity|]. split; [reflexivity|]. vm_compute. reflexivity.
Qed.

(** ** C40  The mappings are inverse to each other *)

Definition C40_claim (D : Deps) : Prop := forall cid tr c i since x p,
  exec D cid tr (Some c) -> since_boot tr i since -> wants_no_address i = false -> wants_no_principal i = false ->
  (length cid <= 29)%nat ->
  says_principal D cid (Some c) x p <-> says_address D cid (Some c) p x.

(** True as long as every configuration since the installation had both mappings on
    and the same salt and seed URI, up to two addresses sharing a principal, which
    takes a hash collision between explicitly known inputs.
    Missing: upgrades that change what the identities depend on. *)
Theorem C40_inverse_partial : forall D cid tr c i since x p, deps_ok D ->
  exec D cid tr (Some c) -> since_install tr i since ->
  same_identities i i -> (forall e j, In e since -> boot e j -> same_identities i j) ->
  (length cid <= 29)%nat ->
  (says_address D cid (Some c) p x -> says_principal D cid (Some c) x p) /\
  (says_principal D cid (Some c) x p -> says_address D cid (Some c) p x \/
     exists y, says_address D cid (Some c) p y /\ y <> x /\ principal_collision D cid i y x).
Proof.
  intros D cid tr c i since x p HD H Hinst Hi Hst Hc.
  destruct (steady_now tr i since Hinst (conj Hi Hst)) as (j & sj & Hs & Hj & Hj' & _).
  destruct (steady_inverse D cid tr c i since x p HD H Hinst (conj Hi Hst) Hc) as [H1 H2].
  pose proof (fun p y => says_address_iff D cid tr c j sj p y HD H Hs Hj) as EA.
  pose proof (fun y p => says_principal_iff D cid tr c j sj y p HD H Hs Hj') as EP.
  split.
  - intros Hq. apply EP, H1, EA, Hq.
  - intros Hq. apply EP, H2 in Hq as [Hq|(y & Hy & Hne)]; [left; now apply EA|right; exists y].
    split; [now apply EA|assumption].
Qed.

(** Concrete: Alice, after the whole history of logins. *)
Example C40_case : exists c p, exec CD demo_cid demo_tr (Some c) /\ since_install demo_tr demo_input (drop 1 demo_tr) /\
  same_identities demo_input demo_input /\
  (forall e j, In e (drop 1 demo_tr) -> boot e j -> same_identities demo_input j) /\
  (length demo_cid <= 29)%nat /\ says_principal CD demo_cid (Some c) (wallet_address CD alice) p /\
  says_address CD demo_cid (Some c) p (wallet_address CD alice).
Proof.
  destruct demo_exec as [c H].
  assert (exec CD demo_cid (take 12 demo_tr ++ [demo_at 12]) (Some c)) as H' by exact H.
  edestruct (C39_recorded CD demo_cid (take 12 demo_tr) (demo_at 12) (Some c) (login_sig (demo_at 12)) (wallet_address CD alice) key2)
    as (HA & _ & HP); [exact CD_ok|exact H'|split; [vm_compute; reflexivity|reflexivity]|apply (demo_since 12); lia|reflexivity|reflexivity|].
  eexists c, _. split; [exact H|]. split.
  { exists [], (demo_at 0). split; [reflexivity|]. split; [reflexivity|]. split; [reflexivity|].
    repeat constructor; intros (i & E & _); discriminate. }
  split; [split; [reflexivity|split; [reflexivity|split; reflexivity]]|]. split.
  { intros e j Hin Hb. exfalso. assert (Forall (fun e => ~ boots e) (drop 1 demo_tr)) as HF.
    { repeat constructor; intros (i & [E|E] & _); discriminate. }
    rewrite List.Forall_forall in HF. apply (HF e Hin). eexists; exact Hb. }
  split; [vm_compute; lia|]. split; [exact HP|exact HA].
Qed.

(** Alice logs in, the canister is upgraded with another salt, Alice logs in again. *)
Definition other_salt : SettingsInput :=
  mkInput (bs "example.com") (bs "https://example.com") (bs "pepper") None None None None None None None.
Definition salted_script : list (N * op) := Eval vm_compute in stage CD demo_cid
  [(0, Do (Install demo_input)); (1 * sec, Do (RawRand (Some (repeat x07 32))));
   (2 * sec, Prepare alice); (3 * sec, LoginWith 2 alice alice key1);
   (4 * sec, Do (Upgrade other_salt)); (5 * sec, Do (RawRand (Some (repeat x08 32))));
   (6 * sec, Prepare alice); (7 * sec, LoginWith 6 alice alice key1)] [] None.
Definition salted_tr : list event := Eval vm_compute in fst (play CD demo_cid salted_script None).

Lemma salted_exec : exists c, exec CD demo_cid salted_tr (Some c).
Proof.
  assert (fst (play CD demo_cid salted_script None) = salted_tr) as E by (vm_compute; reflexivity).
  assert (exec CD demo_cid salted_tr (snd (play CD demo_cid salted_script None))) as H.
  { rewrite <- E. apply (play_exec _ _ salted_script); [vm_compute; reflexivity|]. apply surjective_pairing. }
  destruct (exec_installed _ _ _ _ H) as [c Ec]; [|rewrite Ec in H; eauto].
  eexists. split; [left; reflexivity|]. exists demo_input. split; [left; reflexivity|reflexivity].
Qed.

Definition login_principal (e : event) : bytes :=
  match ev_reply e with RLogin (Ok d) => principal_of CD (ld_pubkey d) | _ => [] end.

(** False in general: the first login's principal still leads to Alice's address, which
    leads to the second login's principal. *)
Theorem C40_inverse_refuted : ~ C40_claim CD.
Proof.
  intros Hc. destruct salted_exec as [c H].
  set (e0 := nth 3 salted_tr (demo_at 0)). set (e1 := nth 7 salted_tr (demo_at 0)).
  assert (since_boot salted_tr other_salt (drop 5 salted_tr)) as Hs.
  { exists (take 4 salted_tr), (nth 4 salted_tr (demo_at 0)). split; [reflexivity|].
    split; [split; [right; reflexivity|reflexivity]|]. repeat constructor; intros (i & [E|E] & _); discriminate. }
  assert (since_boot (take 3 salted_tr) demo_input (take 2 (drop 1 salted_tr))) as Hs0.
  { exists [], (nth 0 salted_tr (demo_at 0)). split; [reflexivity|].
    split; [split; [left; reflexivity|reflexivity]|]. repeat constructor; intros (i & [E|E] & _); discriminate. }
  assert (since_boot (take 7 salted_tr) other_salt (take 2 (drop 5 salted_tr))) as Hs1.
  { exists (take 4 salted_tr), (nth 4 salted_tr (demo_at 0)). split; [reflexivity|].
    split; [split; [right; reflexivity|reflexivity]|]. repeat constructor; intros (i & [E|E] & _); discriminate. }
  assert (login_principal e0 <> login_principal e1) as Hne.
  { assert (bool_decide (login_principal e0 = login_principal e1) = false) as Hd by (vm_compute; reflexivity).
    exact (bool_decide_eq_false_1 _ Hd). }
  assert (says_address CD demo_cid (Some c) (login_principal e0) (wallet_address CD alice)) as HA.
  { apply (says_address_iff CD demo_cid salted_tr c other_salt _ _ _ CD_ok H Hs); [reflexivity|].
    exists (take 3 salted_tr), e0, (drop 4 salted_tr). split; [reflexivity|]. split.
    - exists demo_input, (take 2 (drop 1 salted_tr)). do 5 eexists. split; [exact Hs0|]. split; [reflexivity|].
      split; [split; [vm_compute; reflexivity|reflexivity]|]. reflexivity.
    - intros q1 f q2 E. assert (In f (drop 4 salted_tr)) as Hin by (rewrite E; apply in_app_iff; right; left; reflexivity).
      split.
      + intros (i & Ho & _). revert Ho. assert (Forall (fun e => forall i, ev_op e <> Install i) (drop 4 salted_tr)) as HF.
        { repeat constructor; discriminate. }
        rewrite List.Forall_forall in HF. apply (HF f Hin).
      + intros x' (i & si & sg & sk & n & exp & pk & _ & _ & [Lo Lr] & Ep).
        assert (Forall (fun e => match ev_reply e with RLogin (Ok _) => e = e1 | _ => True end) (drop 4 salted_tr)) as HF.
        { repeat constructor. }
        rewrite List.Forall_forall in HF. specialize (HF f Hin). rewrite Lr in HF. apply Hne. rewrite Ep, <- HF.
        unfold login_principal. rewrite Lr. reflexivity. }
  assert (says_principal CD demo_cid (Some c) (wallet_address CD alice) (login_principal e1)) as HP.
  { apply (says_principal_iff CD demo_cid salted_tr c other_salt _ _ _ CD_ok H Hs); [reflexivity|].
    exists (take 7 salted_tr), e1, []. split; [reflexivity|]. split.
    - exists other_salt, (take 2 (drop 5 salted_tr)). do 5 eexists. split; [exact Hs1|]. split; [reflexivity|].
      split; [split; [vm_compute; reflexivity|reflexivity]|]. reflexivity.
    - intros [|? q1] f q2 E; discriminate. }
  apply (Hc demo_cid salted_tr c other_salt (drop 5 salted_tr)) in HA; [|exact H|exact Hs|reflexivity|reflexivity|vm_compute; lia].
  apply Hne. specialize (HA 0). specialize (HP 0). congruence.
Qed.

(** What remains true when upgrades change the configuration: from an address to its principal
    and back leads to the address one started from.  The configurations since the installation may
    differ as long as both mappings are on and salts are shorter than 256 bytes, up to a
    collision between the inputs of two of them. *)
Definition since_install_uses (tr : list event) (j : SettingsInput) : Prop :=
  exists i since, since_install tr i since /\ (j = i \/ exists e, In e since /\ boot e j).
Definition two_principals_collision (D : Deps) (cid : bytes) (i : SettingsInput) (x : bytes) (j : SettingsInput) (y : bytes) : Prop :=
  collision (d_sha224 D) (create_user_canister_pubkey cid (user_seed D i x)) (create_user_canister_pubkey cid (user_seed D j y)) \/
  collision (d_sha256 D) (seed_input (in_salt i) x (uri_part i)) (seed_input (in_salt j) y (uri_part j)).

Lemma uses_config pre e post tr i since j sincej : tr = pre ++ e :: post -> since_install tr i since ->
  Forall (fun e => ~ reinstalls e) post -> ~ reinstalls e -> since_boot pre j sincej -> j = i \/ exists b, In b since /\ boot b j.
Proof.
  intros E (bef & b & Eb & Ho & Hr & HF) Hpost He (bef' & b' & E' & Hb' & HF').
  assert (reinstalls b) as Hb by (exists i; auto).
  rewrite E in Eb. apply split_two in Eb as [(_ & -> & _)|[(k & _ & Ek)|(k & Ek & Es)]].
  - contradiction.
  - rewrite Ek in Hpost. apply List.Forall_app in Hpost as [_ Hp]. apply List.Forall_cons_iff in Hp as [Hp _]. contradiction.
  - rewrite Ek in E'. apply split_two in E' as [(_ & -> & _)|[(k' & _ & Ek')|(k' & _ & Ek')]].
    + left. destruct Hb' as [[O|O] _]; congruence.
    + right. exists b'. split; [|assumption]. rewrite Es, Ek'. apply in_app_iff. left. apply in_app_iff. right. left. reflexivity.
    + rewrite Ek' in HF'. apply List.Forall_app in HF' as [_ HF']. apply List.Forall_cons_iff in HF' as [HF' _].
      contradiction HF'. now apply reinstalls_boots.
Qed.

Lemma uses_now tr i since : since_install tr i since ->
  exists j sincej, since_boot tr j sincej /\ (j = i \/ exists b, In b since /\ boot b j).
Proof.
  intros (bef & b & -> & Ho & Hr & HF). induction since as [|e since IH] using rev_ind.
  - exists i, []. split; [|now left]. exists bef, b. split; [reflexivity|]. split; [split; auto|constructor].
  - apply List.Forall_app in HF as [HF HFe]. destruct IH as (j & sj & Hs & Hj); [assumption|].
    assert ((exists i', boot e i') \/ ~ boots e) as [[i' Hb]|Nb].
    { destruct (ev_op e) as [i'|i'| | | | | | |] eqn:Eo; try (right; intros (i'' & [E|E] & _); congruence);
        (destruct (ev_reply e) eqn:Er; try (right; intros (i'' & _ & E); congruence); left; exists i'; split; auto). }
    + exists i', []. split.
      * exists (bef ++ b :: since), e. rewrite <- app_assoc. split; [reflexivity|]. split; [assumption|constructor].
      * right. exists e. split; [|assumption]. apply in_app_iff. right. left. reflexivity.
    + exists j, (sj ++ [e]). split; [rewrite app_comm_cons, app_assoc; now apply since_boot_snoc|].
      destruct Hj as [->|(e' & He' & Hb')]; [now left|right]. exists e'. split; [apply in_app_iff; now left|assumption].
Qed.

Theorem C40_there_and_back_partial : forall D cid tr c x p, deps_ok D ->
  exec D cid tr (Some c) ->
  (exists i, since_install_uses tr i) ->
  (forall j, since_install_uses tr j ->
     wants_no_address j = false /\ wants_no_principal j = false /\ (length (in_salt j) < 256)%nat) ->
  (length cid <= 29)%nat -> says_principal D cid (Some c) x p ->
  says_address D cid (Some c) p x \/
  exists i j y, since_install_uses tr i /\ since_install_uses tr j /\ y <> x /\
    says_address D cid (Some c) p y /\ two_principals_collision D cid i y j x.
Proof.
  intros D cid tr c x p HD H (i0 & i & since & Hinst & _) Hon Hc Hq.
  assert (forall j, (j = i \/ exists b, In b since /\ boot b j) -> since_install_uses tr j) as Huse.
  { intros j Hj. exists i, since. auto. }
  destruct (uses_now tr i since Hinst) as (k & sk & Hk & Hku). apply Huse in Hku. destruct (Hon k Hku) as (Hka & Hkp & _).
  assert (forall off pre e post y p', tr = pre ++ e :: post -> Forall (fun e => ~ reinstalls e) post -> notes D off pre e y p' ->
    exists j, since_install_uses tr j /\ p' = identity D cid j y /\ (exists b, address_text D y b) /\
      notes D wants_no_address pre e y p') as Hnotes.
  { intros off pre e post y p' E Hpost Hn. pose proof (notes_not_reinstall _ _ _ _ _ _ Hn) as He.
    destruct Hn as (j & sj & sg & sk' & n & exp & pk & Hs & _ & Hl & Ep).
    pose proof (uses_config pre e post tr i since j sj E Hinst Hpost He Hs) as Hj. apply Huse in Hj. exists j. split; [assumption|].
    pose proof H as H0. rewrite E in H0. apply exec_at in H0 as [s1 H1]. split; [|split].
    - rewrite Ep, (login_pk D cid pre e s1 sg y sk' n exp pk j sj HD H1 Hl Hs). reflexivity.
    - eapply login_address; eassumption.
    - destruct (Hon j Hj) as (Hw & _). exists j, sj, sg, sk', n, exp, pk. auto. }
  apply (says_principal_iff D cid tr c k sk x p HD H Hk Hkp) in Hq.
  pose proof Hq as (pre & e & post & E & Hn & HF). apply no_reinstall_after in HF.
  destruct (Hnotes _ pre e post x p E HF Hn) as (j & Hj & Ep & (b & Ha) & Hn').
  pose proof H as H0. rewrite E in H0. destruct (latest_exists D cid wants_no_address pre e post _ x p HD H0 Hn' HF) as [_ [y Hl']].
  rewrite <- E in Hl'. change (last_address D tr p y) in Hl'.
  destruct (decide (y = x)) as [->|Ny].
  { left. now apply (says_address_iff D cid tr c k sk p x HD H Hk Hka). }
  right. pose proof Hl' as (pre' & e' & post' & E' & Hne & HF'). apply no_reinstall_after in HF'.
  destruct (Hnotes _ pre' e' post' y p E' HF' Hne) as (j' & Hj' & Ep' & (b' & Ha') & _).
  exists j', j, y. split; [assumption|]. split; [assumption|]. split; [assumption|].
  split; [now apply (says_address_iff D cid tr c k sk p y HD H Hk Hka)|].
  rewrite Ep in Ep'. unfold identity, principal_of in Ep'. apply app_inj_tail in Ep' as [Ei _].
  unfold two_principals_collision.
  destruct (decide (create_user_canister_pubkey cid (user_seed D j' y) = create_user_canister_pubkey cid (user_seed D j x))) as [Ek|Nk];
    [|left; now split].
  right. split; [|apply pubkey_inj in Ek as [_ Ek]; auto; apply (sha256_len _ HD)].
  intros Es. apply Ny. assert (length y = length x) as Hlen.
  { now rewrite (address_text_length D y b' HD Ha'), (address_text_length D x b HD Ha). }
  destruct (Hon j Hj) as (_ & _ & S1). destruct (Hon j' Hj') as (_ & _ & S2).
  apply seed_input_inj in Es as (_ & Ex & _); auto.
Qed.

Lemma since_install_fun tr i j si sj : since_install tr i si -> since_install tr j sj -> i = j /\ si = sj.
Proof.
  intros (bef & b & E & Ho & Hr & HF) (bef' & b' & E' & Ho' & Hr' & HF').
  assert (reinstalls b) as Hb by (exists i; auto). assert (reinstalls b') as Hb' by (exists j; auto).
  rewrite E in E'. apply split_two in E' as [(_ & -> & ->)|[(k & _ & Ek)|(k & _ & Ek)]].
  - split; [congruence|reflexivity].
  - rewrite Ek in HF. apply List.Forall_app in HF as [_ HF]. apply List.Forall_cons_iff in HF as [HF _]. contradiction.
  - rewrite Ek in HF'. apply List.Forall_app in HF' as [_ HF']. apply List.Forall_cons_iff in HF' as [HF' _]. contradiction.
Qed.

(** Concrete: Alice, whose principal changed with the salt. *)
Lemma salted_install : since_install salted_tr demo_input (drop 1 salted_tr).
Proof.
  exists [], (nth 0 salted_tr (demo_at 0)). split; [reflexivity|]. split; [reflexivity|]. split; [reflexivity|].
  repeat constructor; intros (i & E & _); discriminate.
Qed.
Lemma salted_boots e j : In e (drop 1 salted_tr) -> boot e j -> j = other_salt.
Proof.
  intros Hin Hb. assert (Forall (fun e => forall j, boot e j -> j = other_salt) (drop 1 salted_tr)) as HF.
  { repeat constructor; intros j' [[E|E] Er]; try discriminate E; try discriminate Er; inversion E; reflexivity. }
  rewrite List.Forall_forall in HF. exact (HF e Hin j Hb).
Qed.
Example C40_there_and_back_case : exists c, exec CD demo_cid salted_tr (Some c) /\
  since_install_uses salted_tr demo_input /\ since_install_uses salted_tr other_salt /\ in_salt demo_input <> in_salt other_salt /\
  (forall j, since_install_uses salted_tr j ->
     wants_no_address j = false /\ wants_no_principal j = false /\ (length (in_salt j) < 256)%nat) /\
  (length demo_cid <= 29)%nat /\
  says_principal CD demo_cid (Some c) (wallet_address CD alice) (login_principal (nth 7 salted_tr (demo_at 0))) /\
  says_address CD demo_cid (Some c) (login_principal (nth 7 salted_tr (demo_at 0))) (wallet_address CD alice).
Proof.
  destruct salted_exec as [c H]. exists c. split; [exact H|].
  split; [exists demo_input, (drop 1 salted_tr); split; [exact salted_install|now left]|].
  split.
  { exists demo_input, (drop 1 salted_tr). split; [exact salted_install|right].
    exists (nth 4 salted_tr (demo_at 0)). split; [do 3 right; left; reflexivity|split; [right; reflexivity|reflexivity]]. }
  split; [discriminate|]. split.
  { intros j (i & since & Hi & Hj). destruct (since_install_fun _ _ _ _ _ Hi salted_install) as [-> ->].
    destruct Hj as [->|(e & He & Hb)]; [|rewrite (salted_boots e j He Hb)]; repeat split; vm_compute; lia. }
  split; [vm_compute; lia|].
  assert (exec CD demo_cid (take 7 salted_tr ++ [nth 7 salted_tr (demo_at 0)]) (Some c)) as H' by exact H.
  assert (since_boot (take 7 salted_tr) other_salt (take 2 (drop 5 salted_tr))) as Hs1.
  { exists (take 4 salted_tr), (nth 4 salted_tr (demo_at 0)). split; [reflexivity|].
    split; [split; [right; reflexivity|reflexivity]|]. repeat constructor; intros (i & [E|E] & _); discriminate. }
  edestruct (C39_recorded CD demo_cid (take 7 salted_tr) (nth 7 salted_tr (demo_at 0)) (Some c) (login_sig (nth 7 salted_tr (demo_at 0)))
    (wallet_address CD alice) key1) as (HA & _ & HP);
    [exact CD_ok|exact H'|split; [vm_compute; reflexivity|reflexivity]|exact Hs1|reflexivity|reflexivity|].
  split; [exact HP|exact HA].
Qed.

(** ** C41  The mappings are exactly what the last logins recorded *)

Theorem C41_address : forall D cid tr c i since p x, deps_ok D ->
  exec D cid tr (Some c) -> since_boot tr i since -> wants_no_address i = false ->
  says_address D cid (Some c) p x <-> last_address D tr p x.
Proof. exact says_address_iff. Qed.

Theorem C41_principal : forall D cid tr c i since x p, deps_ok D ->
  exec D cid tr (Some c) -> since_boot tr i since -> wants_no_principal i = false ->
  says_principal D cid (Some c) x p <-> last_principal D tr x p.
Proof. exact says_principal_iff. Qed.

(** So every answer goes back to a login. *)
Theorem C41_logged_in : forall D cid tr c x p, deps_ok D -> exec D cid tr (Some c) ->
  (exists now, snd (step D cid now (GetAddress p) (Some c)) = Provider.RText (Ok x)) \/
  (exists now, snd (step D cid now (GetCallerAddress p) (Some c)) = Provider.RText (Ok x)) \/
  (exists now, snd (step D cid now (GetPrincipal x) (Some c)) = Provider.RBlob (Ok p)) ->
  exists e sg sk n exp pk, In e tr /\ logged_in e sg x sk n exp pk /\ p = principal_of D pk.
Proof.
  intros D cid tr c x p HD H Hq. destruct (exec_booted D cid tr c HD H) as (i & since & Hs).
  destruct (flags_of D cid tr c i since HD H Hs) as [F1 F2].
  assert (forall off pre e post, tr = pre ++ e :: post -> notes D off pre e x p ->
    exists e sg sk n exp pk, In e tr /\ logged_in e sg x sk n exp pk /\ p = principal_of D pk) as Hgoal.
  { intros off pre e post -> (i' & si & sg & sk & n & exp & pk & _ & _ & Hl & Ep). exists e, sg, sk, n, exp, pk.
    split; [|auto]. apply in_app_iff. right. left. reflexivity. }
  assert (forall now, snd (step D cid now (GetAddress p) (Some c)) = Provider.RText (Ok x) ->
    exists e sg sk n exp pk, In e tr /\ logged_in e sg x sk n exp pk /\ p = principal_of D pk) as HA.
  { intros now E. destruct (wants_no_address i) eqn:Hw.
    - cbn [step] in E. unfold get_address in E. rewrite F2 in E. discriminate.
    - destruct (get_address_reply D cid tr c i since now p x HD H Hs Hw) as [Hl _].
      destruct Hl as (pre & e & post & Et & Hn & _); [|eapply Hgoal; eassumption].
      rewrite <- E. reflexivity. }
  destruct Hq as [[now E]|[[now E]|[now E]]].
  - now apply (HA now).
  - apply (HA now). rewrite <- E. cbn [step]. unfold get_caller_address, get_address.
    destruct (disable_principal_to_eth (c_flags c)); reflexivity.
  - destruct (wants_no_principal i) eqn:Hw.
    + cbn [step] in E. unfold get_principal in E. rewrite F1 in E. discriminate.
    + destruct (get_principal_reply D cid tr c i since now x p HD H Hs Hw) as [Hl _].
      destruct Hl as (pre & e & post & Et & Hn & _); [|eapply Hgoal; eassumption].
      rewrite <- E. reflexivity.
Qed.

(** Concrete: Bob's address at the end, two calls after his login. *)
Example C41_case : exists c, exec CD demo_cid demo_tr (Some c) /\
  since_boot demo_tr demo_input (drop 1 demo_tr) /\ wants_no_address demo_input = false /\
  last_address CD demo_tr (login_principal (demo_at 10)) (wallet_address CD bob) /\
  snd (step CD demo_cid 0 (GetAddress (login_principal (demo_at 10))) (Some c)) = Provider.RText (Ok (wallet_address CD bob)).
Proof.
  destruct demo_exec as [c H]. exists c. split; [exact H|].
  pose proof (demo_since 13 ltac:(lia)) as Hs. change (take 13 demo_tr) with demo_tr in Hs.
  change (take (13 - 1) (drop 1 demo_tr)) with (drop 1 demo_tr) in Hs.
  split; [exact Hs|]. split; [reflexivity|].
  assert (last_address CD demo_tr (login_principal (demo_at 10)) (wallet_address CD bob)) as HA.
  { exists (take 10 demo_tr), (demo_at 10), (drop 11 demo_tr). split; [reflexivity|]. split.
    - exists demo_input, (take 9 (drop 1 demo_tr)). do 5 eexists. split; [apply (demo_since 10); lia|]. split; [reflexivity|].
      split; [split; [vm_compute; reflexivity|reflexivity]|]. reflexivity.
    - intros q1 f q2 E. assert (In f (drop 11 demo_tr)) as Hin by (rewrite E; apply in_app_iff; right; left; reflexivity).
      split.
      + intros (i & Ho & _). revert Ho. assert (Forall (fun e => forall i, ev_op e <> Install i) (drop 11 demo_tr)) as HF.
        { repeat constructor; discriminate. }
        rewrite List.Forall_forall in HF. apply (HF f Hin).
      + intros x' (i & si & sg & sk & n & exp & pk & _ & _ & [Lo Lr] & Ep).
        assert (Forall (fun e => match ev_reply e with RLogin (Ok _) => e = demo_at 12 | _ => True end) (drop 11 demo_tr)) as HF.
        { repeat constructor. }
        rewrite List.Forall_forall in HF. specialize (HF f Hin). rewrite Lr in HF.
        assert (login_principal (demo_at 10) = login_principal (demo_at 12)) as E'.
        { rewrite Ep, <- HF. unfold login_principal. rewrite Lr. reflexivity. }
        assert (bool_decide (login_principal (demo_at 10) = login_principal (demo_at 12)) = false) as Hd by (vm_compute; reflexivity).
        exact (bool_decide_eq_false_1 _ Hd E'). }
  split; [exact HA|]. apply (C41_address CD demo_cid demo_tr c demo_input _ _ _ CD_ok H Hs) in HA; [|reflexivity].
  rewrite (HA 0). reflexivity.
Qed.

(** ** C42  A disabled mapping is neither served nor stored *)

Theorem C42_address_disabled : forall D cid tr c i since now p, deps_ok D ->
  exec D cid tr (Some c) -> since_boot tr i since -> wants_no_address i = true ->
  step D cid now (GetAddress p) (Some c) =
    (Some c, Provider.RText (Err (bs "Principal to Ethereum address mapping is disabled"))) /\
  step D cid now (GetCallerAddress p) (Some c) =
    (Some c, Provider.RText (Err (bs "Principal to Ethereum address mapping is disabled"))).
Proof.
  intros D cid tr c i since now p HD H Hs Hw. destruct (flags_of D cid tr c i since HD H Hs) as [_ F].
  cbn [step]. unfold get_caller_address, get_address. rewrite F, Hw. split; reflexivity.
Qed.

Theorem C42_principal_disabled : forall D cid tr c i since now x, deps_ok D ->
  exec D cid tr (Some c) -> since_boot tr i since -> wants_no_principal i = true ->
  step D cid now (GetPrincipal x) (Some c) =
    (Some c, Provider.RBlob (Err (bs "Ethereum address to principal mapping is disabled"))).
Proof.
  intros D cid tr c i since now x HD H Hs Hw. destruct (flags_of D cid tr c i since HD H Hs) as [F _].
  cbn [step]. unfold get_principal. rewrite F, Hw. reflexivity.
Qed.

(** No call but a reinstallation changes it, not even to remove something. *)
Theorem C42_not_written : forall D cid tr c i since now o c' r, deps_ok D ->
  exec D cid tr (Some c) -> since_boot tr i since -> step D cid now o (Some c) = (Some c', r) ->
  (forall i', o <> Install i') ->
  (wants_no_address i = true -> c_principal_address c' = c_principal_address c) /\
  (wants_no_principal i = true -> c_address_principal c' = c_address_principal c).
Proof.
  intros D cid tr c i since now o c' r HD H Hs Hst Hi. destruct (flags_of D cid tr c i since HD H Hs) as [F1 F2].
  rewrite <- F1, <- F2.
  destruct o as [i'|i'|seed|a|sg a sk n|cert a sk e|p|p|a]; cbn [step] in Hst.
  - now destruct (Hi i').
  - unfold do_upgrade in Hst. destruct (siwe_init D cid i') as [[st fl]|w]; cbn [obind] in Hst.
    + assert (c' = Provider.fresh st fl (c_principal_address c) (c_address_principal c) (c_certified c)) as -> by congruence.
      split; reflexivity.
    + assert (c' = c) as -> by congruence. split; reflexivity.
  - assert (c' = do_raw_rand seed c) as -> by congruence. unfold do_raw_rand. destruct (c_seeding c); split; reflexivity.
  - unfold siwe_prepare_login, run_update in Hst.
    destruct (eth_address_new D a) as [[a'|e]|w]; cbn [obind] in Hst;
      [|assert (c' = c) as -> by congruence; split; reflexivity..].
    destruct (prepare_login D now (c_lib c) a') as [[lib [m n]]|w]; cbn [obind] in Hst;
      [|assert (c' = c) as -> by congruence; split; reflexivity].
    destruct (siwe_to_string m); cbn [obind] in Hst.
    + match type of Hst with (Some ?y, _) = _ => assert (c' = y) as -> by congruence end. split; reflexivity.
    + assert (c' = c) as -> by congruence. split; reflexivity.
  - unfold siwe_login, run_update in Hst.
    destruct (eth_address_new D a) as [[a'|e]|w]; cbn [obind] in Hst;
      [|assert (c' = c) as -> by congruence; split; reflexivity..].
    destruct (eth_signature_new sg) as [[s'|e]|w]; cbn [obind] in Hst;
      [|assert (c' = c) as -> by congruence; split; reflexivity..].
    destruct (login D now cid (c_lib c) (c_sigs c) s' a' sk n) as [[[lib sigs] res]|w]; cbn [obind] in Hst;
      [|assert (c' = c) as -> by congruence; split; reflexivity].
    destruct res as [d|e]; cbn [obind] in Hst.
    + destruct (addr_as_byte_array a') as [ab|w]; cbn [obind] in Hst.
      * match type of Hst with (Some ?y, _) = _ => assert (c' = y) as -> by congruence end.
        unfold manage_mappings. cbn [c_flags c_principal_address c_address_principal].
        split; intros ->; reflexivity.
      * assert (c' = c) as -> by congruence. split; reflexivity.
    + match type of Hst with (Some ?y, _) = _ => assert (c' = y) as -> by congruence end. split; reflexivity.
  - unfold run_query in Hst. assert (c' = c) as -> by congruence. split; reflexivity.
  - unfold run_query in Hst. assert (c' = c) as -> by congruence. split; reflexivity.
  - unfold run_query in Hst. assert (c' = c) as -> by congruence. split; reflexivity.
  - unfold run_query in Hst. assert (c' = c) as -> by congruence. split; reflexivity.
Qed.

(** Concrete: Alice logs in with the address mapping on, then with it off, asks for her
    address, and asks again after it has been switched on for Bob. *)
Definition no_address_input : SettingsInput :=
  mkInput (bs "example.com") (bs "https://example.com") (bs "salt") None None None None None None
    (Some [PF_DisablePrincipalToEthMapping]).
Definition alice_principal : bytes := Eval vm_compute in login_principal (demo_at 4).
Definition bob_principal : bytes := Eval vm_compute in login_principal (demo_at 10).
Definition disabled_script : list (N * op) := Eval vm_compute in stage CD demo_cid
  [(0, Do (Install demo_input)); (1 * sec, Do (RawRand (Some (repeat x07 32))));
   (2 * sec, Prepare alice); (3 * sec, LoginWith 2 alice alice key1);
   (4 * sec, Do (Upgrade no_address_input)); (5 * sec, Do (RawRand (Some (repeat x08 32))));
   (6 * sec, Prepare bob); (7 * sec, LoginWith 6 bob bob key1);
   (8 * sec, Do (GetAddress alice_principal)); (8 * sec, Do (GetPrincipal (wallet_address CD bob)));
   (9 * sec, Do (Upgrade demo_input));
   (10 * sec, Do (GetAddress alice_principal)); (10 * sec, Do (GetAddress bob_principal))] [] None.
Definition disabled_tr : list event := Eval vm_compute in fst (play CD demo_cid disabled_script None).

Example C42_case : exists s, exec CD demo_cid disabled_tr s /\
  since_boot (take 8 disabled_tr) no_address_input (take 3 (drop 5 disabled_tr)) /\
  wants_no_address no_address_input = true /\ wants_no_principal no_address_input = false /\
  map ev_reply (drop 8 disabled_tr) =
    [Provider.RText (Err (bs "Principal to Ethereum address mapping is disabled"));
     Provider.RBlob (Ok bob_principal); RDone; Provider.RText (Ok (wallet_address CD alice));
     Provider.RText (Err (bs "No address found for the given principal"))].
Proof.
  assert (fst (play CD demo_cid disabled_script None) = disabled_tr) as E by (vm_compute; reflexivity).
  exists (snd (play CD demo_cid disabled_script None)). split.
  { rewrite <- E. apply (play_exec _ _ disabled_script); [vm_compute; reflexivity|]. apply surjective_pairing. }
  split.
  { exists (take 4 disabled_tr), (nth 4 disabled_tr (demo_at 0)). split; [reflexivity|].
    split; [split; [right; reflexivity|reflexivity]|]. repeat constructor; intros (i & [E'|E'] & _); discriminate. }
  split; [reflexivity|]. split; [reflexivity|]. vm_compute. reflexivity.
Qed.

(** ** C43  Upgrades keep the mappings and drop everything else *)

Theorem C43_upgrade : forall D cid now i c s' r,
  step D cid now (Upgrade i) (Some c) = (s', r) ->
  (exists c' st, r = RDone /\ s' = Some c' /\
     c_principal_address c' = c_principal_address c /\ c_address_principal c' = c_address_principal c /\
     c_certified c' = c_certified c /\
     ls_msgs (c_lib c') = ∅ /\ sm_empty = c_sigs c' /\ ls_rng (c_lib c') = None /\ c_seeding c' = true /\
     ls_settings (c_lib c') = Some st /\ init_spec D cid i st (c_flags c')) \/
  (exists w, r = RTrap w /\ s' = Some c).
Proof.
  intros D cid now i c s' r H. cbn [step] in H. unfold do_upgrade in H.
  destruct (siwe_init D cid i) as [[st fl]|w] eqn:E; cbn [obind] in H.
  - left. eexists _, st. split; [congruence|]. split; [symmetry; exact (f_equal fst H)|].
    repeat (split; [reflexivity|]). now apply siwe_init_spec.
  - right. exists w. split; congruence.
Qed.

(** As seen from outside: with the mapping on before and after, every principal and
    every address get the answer they got before the upgrade. *)
Theorem C43_same_answers : forall D cid tr c i since now u c', deps_ok D ->
  exec D cid tr (Some c) -> since_boot tr i since -> step D cid now (Upgrade u) (Some c) = (Some c', RDone) ->
  (wants_no_address i = wants_no_address u -> forall t p,
     snd (step D cid t (GetAddress p) (Some c')) = snd (step D cid t (GetAddress p) (Some c)) /\
     snd (step D cid t (GetCallerAddress p) (Some c')) = snd (step D cid t (GetCallerAddress p) (Some c))) /\
  (wants_no_principal i = wants_no_principal u -> forall t x,
     snd (step D cid t (GetPrincipal x) (Some c')) = snd (step D cid t (GetPrincipal x) (Some c))).
Proof.
  intros D cid tr c i since now u c' HD H Hs Hu. destruct (flags_of D cid tr c i since HD H Hs) as [F1 F2].
  destruct (C43_upgrade D cid now u c _ _ Hu) as [(c1 & st & _ & E & E1 & E2 & _ & _ & _ & _ & _ & _ & Hi)|(w & E & _)]; [|discriminate].
  assert (c1 = c') as -> by congruence. destruct (flags_wants _ _ _ _ _ Hi) as [G1 G2].
  split; intros Hw t q; cbn [step run_query snd]; unfold get_caller_address, get_address, get_principal.
  - rewrite F2, G2, E1, Hw. split; reflexivity.
  - rewrite F1, G1, E2, Hw. reflexivity.
Qed.

(** Nothing prepared before can be logged in with or fetched afterwards: C48_messages
    and C48_delegations.

    Concrete: after the demonstration history, an upgrade with an empty salt traps and
    an upgrade with another salt succeeds. *)
Definition no_salt_input : SettingsInput :=
  mkInput (bs "example.com") (bs "https://example.com") [] None None None None None None None.

Example C43_case : exists c c' w, exec CD demo_cid demo_tr (Some c) /\
  since_boot demo_tr demo_input (drop 1 demo_tr) /\ wants_no_address demo_input = wants_no_address other_salt /\
  step CD demo_cid 0 (Upgrade no_salt_input) (Some c) = (Some c, RTrap w) /\
  step CD demo_cid 0 (Upgrade other_salt) (Some c) = (Some c', RDone) /\
  snd (step CD demo_cid 0 (GetAddress bob_principal) (Some c')) = Provider.RText (Ok (wallet_address CD bob)).
Proof.
  destruct C41_case as (c & H & Hs & _ & _ & Hb).
  assert (exists w, siwe_init CD demo_cid no_salt_input = Trap w) as [w Ew] by (eexists; vm_compute; reflexivity).
  assert (exists x, siwe_init CD demo_cid other_salt = Done x) as [[st fl] Ed] by (eexists; vm_compute; reflexivity).
  assert (step CD demo_cid 0 (Upgrade other_salt) (Some c) =
    (Some (Provider.fresh st fl (c_principal_address c) (c_address_principal c) (c_certified c)), RDone)) as Hu.
  { cbn [step]. unfold do_upgrade. rewrite Ed. reflexivity. }
  eexists c, _, w. split; [exact H|]. split; [exact Hs|]. split; [reflexivity|].
  split; [cbn [step]; unfold do_upgrade; rewrite Ew; reflexivity|]. split; [exact Hu|].
  destruct (C43_same_answers CD demo_cid demo_tr c demo_input _ 0 other_salt _ CD_ok H Hs Hu) as [HA _].
  destruct (HA eq_refl 0 bob_principal) as [-> _]. exact Hb.
Qed.

Print Assumptions C39_recorded.
Print Assumptions C40_inverse_partial.
Print Assumptions C40_inverse_refuted.
Print Assumptions C40_there_and_back_partial.
Print Assumptions C41_address.
Print Assumptions C41_principal.
Print Assumptions C41_logged_in.
Print Assumptions C42_address_disabled.
Print Assumptions C42_principal_disabled.
Print Assumptions C42_not_written.
Print Assumptions C43_upgrade.
Print Assumptions C43_same_answers.
