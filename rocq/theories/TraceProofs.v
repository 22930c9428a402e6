(** Consequences of the invariant, phrased over histories. *)
From Coq Require Import Strings.String ZifyBool ZifyN ZifyNat.
From Verif Require Import Base BaseLemmas Deps Hex Eth Hash HashTree RbTree SigMap Time3339 Settings Siwe Encode
  Delegation Login Provider SpecEth EthProofs SpecHash DelegationProofs SpecWire WireProofs SpecTree SigMapProofs
  MapRuns SpecSiwe SiweProofs SpecInit SettingsProofs SpecTrace LoginProofs ProviderProofs.
Local Open Scope N_scope.

(** ** Configuration *)

Lemma wants_requested i f p : (forall g, p g = true <-> g = f) -> wants p i = true <-> requested i f.
Proof.
  intros H. unfold wants, requested. destruct (in_features i) as [l|].
  - rewrite (existsb_requested l p f H). split; [eauto|]. intros (l' & E & I). now injection E as <-.
  - split; [discriminate|]. intros (l' & E & _). discriminate.
Qed.

Lemma seed_uri_part D cid i s fl : init_spec D cid i s fl -> seed_uri s = uri_part i.
Proof.
  intros H. unfold seed_uri, uri_part, uri_in_seed.
  assert (wants_uri i = true <-> requested i PF_IncludeUriInSeed) as Hw.
  { apply wants_requested. intros []; split; congruence. }
  destruct (init_features _ _ _ _ _ H) as [[-> Hr]|[-> Hr]].
  - apply Hw in Hr. rewrite Hr. cbn. now rewrite (init_uri _ _ _ _ _ H).
  - destruct (wants_uri i); [|reflexivity]. destruct Hr. now apply Hw.
Qed.

Lemma seed_of_user D cid i s fl x : init_spec D cid i s fl -> seed_of D s x = user_seed D i x.
Proof.
  intros H. unfold seed_of, user_seed. now rewrite (init_salt _ _ _ _ _ H), (seed_uri_part _ _ _ _ _ H).
Qed.

Lemma flags_wants D cid i s fl : init_spec D cid i s fl ->
  disable_eth_to_principal fl = wants_no_principal i /\ disable_principal_to_eth fl = wants_no_address i.
Proof.
  intros H.
  assert (wants_no_principal i = true <-> requested i PF_DisableEthToPrincipalMapping) as H1.
  { apply wants_requested. intros []; split; congruence. }
  assert (wants_no_address i = true <-> requested i PF_DisablePrincipalToEthMapping) as H2.
  { apply wants_requested. intros []; split; congruence. }
  rewrite <- (init_eth_flag _ _ _ _ _ H) in H1. rewrite <- (init_principal_flag _ _ _ _ _ H) in H2.
  split; [destruct (disable_eth_to_principal fl), (wants_no_principal i)
         |destruct (disable_principal_to_eth fl), (wants_no_address i)]; intuition congruence.
Qed.

Lemma since_boot_fun tr i1 l1 i2 l2 : since_boot tr i1 l1 -> since_boot tr i2 l2 -> i1 = i2 /\ l1 = l2.
Proof.
  intros (bef1 & b1 & E1 & B1 & F1) (bef2 & b2 & E2 & B2 & F2).
  assert (forall (l l' : list event) bef bef' b b', bef ++ b :: l = bef' ++ b' :: l' -> boots b ->
    Forall (fun e => ~ boots e) l' -> exists m, l = m ++ l' /\ (m = [] -> b = b')) as Hs.
  { intros l l' bef bef' b b' E Hb HF. revert bef' E. induction bef as [|y bef IH]; intros [|y' bef'] E; cbn in E.
    - injection E as -> ->. exists []. auto.
    - injection E as -> ->. exists (bef' ++ [b']). rewrite <- app_assoc. split; [reflexivity|].
      intros E. destruct bef'; discriminate.
    - injection E as <- <-. rewrite List.Forall_forall in HF. destruct (HF b); [|assumption].
      apply in_app_iff. right. left. reflexivity.
    - injection E as -> E. eauto. }
  rewrite E1 in E2.
  destruct (Hs _ _ _ _ _ _ E2 (ex_intro _ i1 B1) F2) as (m & Em & Hm). symmetry in E2.
  destruct (Hs _ _ _ _ _ _ E2 (ex_intro _ i2 B2) F1) as (m' & Em' & _).
  assert (m = []) as ->.
  { rewrite Em' in Em. apply (f_equal (@length event)) in Em. rewrite !app_length in Em. destruct m; [reflexivity|].
    cbn [length] in Em. lia. }
  split; [|exact Em]. specialize (Hm eq_refl) as <-.
  destruct B1 as [[O1|O1] _], B2 as [[O2|O2] _]; congruence.
Qed.

(** ** One event of a history *)

(** What is known just before an event. *)
Lemma exec_event D cid tr e s' : deps_ok D -> exec D cid (tr ++ [e]) s' ->
  exists s, exec D cid tr s /\ step D cid (ev_time e) (ev_op e) s = (s', ev_reply e) /\
    Forall (fun e' => ev_time e' <= ev_time e) tr /\ ev_time e <= u64_max /\ op_wf (ev_op e) /\
    Forall (fun e => ev_time e <= u64_max) tr.
Proof.
  intros HD H. apply exec_last in H as (s & H & Ht & Hu & Hw & Hs). exists s.
  repeat (split; [assumption|]). eapply exec_times, H.
Qed.

Lemma login_state D cid tr e s' sg x sk n : deps_ok D -> exec D cid (tr ++ [e]) s' ->
  ev_op e = SiweLogin sg x sk n -> (forall w, ev_reply e <> RTrap w) ->
  exists c i s since c' r, exec D cid tr (Some c) /\ inv D cid tr c i s since /\ can_ok D c s /\
    s' = Some c' /\ ev_reply e = RLogin r /\ login_out D cid (ev_time e) sg x sk n c s c' r.
Proof.
  intros HD H Ho Hr. destruct (exec_event D cid tr e s' HD H) as (st & H0 & Hs & Ht & Hu & _ & Htm).
  rewrite Ho in Hs. destruct st as [c|]; [|cbn in Hs; exfalso; eapply Hr; symmetry; eapply f_equal with (f := snd) in Hs; exact Hs].
  destruct (exec_inv D cid tr c HD H0) as (i & s & since & Hi).
  pose proof (inv_can_ok D cid tr c i s since Hi Htm) as Hc.
  destruct (login_cases D cid (ev_time e) sg x sk n c s HD Hc) as (c' & r & E & Hout).
  cbn [step] in Hs. rewrite E in Hs. cbn [run_update] in Hs.
  exists c, i, s, since, c', r. repeat (split; [assumption || congruence|]). assumption.
Qed.

(** Everything a successful login tells about the past. *)
Lemma login_explained D cid tr e s' sg x sk n exp pk : deps_ok D -> exec D cid (tr ++ [e]) s' ->
  logged_in e sg x sk n exp pk ->
  exists i s fl since before p after x' b b' n' text,
    since_boot tr i since /\ init_spec D cid i s fl /\ since = before ++ p :: after /\ prepared p x' text n' /\
    address_text D x b /\ address_text D x' b' /\ message_key D b' n' = message_key D b n /\
    siwe_to_string (the_message s x' n' (ev_time p)) = Done text /\
    Forall (fun e => ~ touches D (message_key D b n) e) after /\
    recovers D text sg x /\ key_error D sk = None /\
    ev_time e < sat_add (ev_time p) (sign_in_window i) /\
    exp = sat_add (ev_time p) (session_window i) /\
    pk = create_user_canister_pubkey cid (user_seed D i x).
Proof.
  intros HD H [Ho Hr].
  destruct (login_state D cid tr e s' sg x sk n HD H Ho) as (c & i & s & since & c' & r & H0 & Hi & Hc & -> & Er & Hout);
    [congruence|].
  assert (r = Ok (mkDetails exp pk)) as -> by congruence.
  inversion Hout as [| | | | | |b sb m text sigs0 k sigs dh Ha Hs El Et Rx Ek Ep Edh Eput Ec E]; clear Hout.
  apply live_lookup in El as [El Hexp].
  destruct (inv_from _ _ _ _ _ _ _ Hi _ _ El) as (aft & bef & p & x' & b' & n' & text' & Es & Hp & Ha' & Ek' & Em & Et' & HF).
  assert (text' = text) as -> by congruence. rewrite Em in *.
  pose proof (inv_init _ _ _ _ _ _ _ Hi) as Hin.
  exists i, s, (c_flags c), since, bef, p, aft, x', b, b', n', text.
  split; [apply Hi|]. split; [assumption|]. repeat (split; [assumption || congruence|]).
  cbn [the_message m_expiration_time m_issued_at] in *.
  unfold sign_in_window, session_window. rewrite <- (init_sign_in _ _ _ _ _ Hin), <- (init_session _ _ _ _ _ Hin).
  split; [assumption|]. split; [congruence|]. rewrite <- (seed_of_user D cid i s (c_flags c) x Hin). unfold seed_of. congruence.
Qed.

Lemma key_or_collision D x b n x' b' n' : deps_ok D -> address_text D x b -> address_text D x' b' ->
  message_key D b' n' = message_key D b n ->
  (x' = x /\ n' = n) \/ collision (d_sha256 D) (message_key_input b' n') (message_key_input b n).
Proof.
  intros HD Ha Ha' E. destruct (decide (message_key_input b' n' = message_key_input b n)) as [Ei|Ni].
  - left. destruct Ha as [L Ex], Ha' as [L' Ex']. apply message_key_input_inj in Ei as [-> ->]; [|congruence].
    split; congruence.
  - right. split; assumption.
Qed.

(** ** The signature map behind a history *)

Lemma map_history_app D cid s l1 l2 ops : map_history D cid s (l1 ++ l2) ops ->
  exists ops1 ops2, ops = ops1 ++ ops2 /\ map_history D cid s l1 ops1.
Proof.
  revert ops. induction l2 as [|e l2 IH] using rev_ind; intros ops H.
  - rewrite app_nil_r in H. exists ops, []. now rewrite app_nil_r.
  - rewrite app_assoc in H. inversion H as [E|since ops' e' o Hh He E1 E2]; [destruct (l1 ++ l2); discriminate|].
    apply app_inj_tail in E1 as [-> ->]. destruct (IH _ Hh) as (ops1 & ops2 & -> & H1).
    exists ops1, (ops2 ++ o). rewrite app_assoc. auto.
Qed.

(** Where a put comes from. *)
Lemma map_history_put D cid s since ops t k dh : map_history D cid s since ops -> In (MPut t k dh) ops ->
  exists before e after sg x sk n exp pk, since = before ++ e :: after /\ logged_in e sg x sk n exp pk /\
    ev_time e = t /\ k = d_sha256 D (seed_of D s x) /\ exp <= u64_max /\ (exists b, address_text D x b) /\
    pk = create_user_canister_pubkey cid (seed_of D s x) /\
    create_delegation_hash D (mkDelegation sk exp (s_targets s)) = Done dh.
Proof.
  induction 1 as [|since ops e o Hh IH He]; intros Hin; [contradiction|]. apply in_app_iff in Hin as [Hin|Hin].
  - destruct (IH Hin) as (bef & e' & aft & sg & x & sk & n & exp & pk & -> & R).
    exists bef, e', (aft ++ [e]), sg, x, sk, n, exp, pk. rewrite <- app_assoc. split; [reflexivity|exact R].
  - inversion He as [sg x sk n exp pk dh' Hl Epk Hb Hexp Edh|Hrej|Hno]; subst o.
    + destruct Hin as [Hin|[Hin|[]]]; [discriminate|]. assert (ev_time e = t) by congruence.
      assert (d_sha256 D (seed_of D s x) = k) by congruence. assert (dh' = dh) as -> by congruence.
      exists since, e, [], sg, x, sk, n, exp, pk. auto 12.
    + destruct Hin as [Hin|[]]. discriminate.
    + contradiction.
Qed.

Lemma map_history_no_delete D cid s since ops k dh : map_history D cid s since ops -> ~ In (MDelete k dh) ops.
Proof.
  induction 1 as [|since ops e o Hh IH He]; [auto|]. intros Hin. apply in_app_iff in Hin as [Hin|Hin]; [auto|].
  inversion He; subst o; cbn in Hin; intuition discriminate.
Qed.

Lemma map_history_time D cid s since ops op t : map_history D cid s since ops -> In op ops -> op_time op = Some t ->
  exists e, In e since /\ ev_time e = t.
Proof.
  induction 1 as [|since ops e o Hh IH He]; intros Hin Ht; [contradiction|]. apply in_app_iff in Hin as [Hin|Hin].
  - destruct (IH Hin Ht) as (e' & I & E). exists e'. split; [apply in_app_iff; auto|assumption].
  - exists e. split; [apply in_app_iff; right; left; reflexivity|].
    inversion He; subst o; cbn [In] in Hin; repeat (destruct Hin as [Hin|Hin]; [subst op; cbn in Ht; congruence|]); contradiction.
Qed.

(** ** Fetching a delegation *)

Lemma witness_ok D now m seed dh w : sm_ok D m -> witness D now m seed dh = Ok w ->
  sm_has m (d_sha256 D seed) dh /\ sm_is_expired now (d_sha256 D seed) dh m = false /\
  sm_witness D (d_sha256 D seed) dh m = Some w /\
  reconstruct D w = sm_root_hash D m /\ lookup_found [d_sha256 D seed; dh] w [] /\ well_formed w.
Proof.
  intros Hok. unfold witness, hash_bytes. destruct (sm_is_expired _ _ _ _); [discriminate|].
  destruct (sm_witness D (d_sha256 D seed) dh m) as [w'|] eqn:Ew; [|discriminate].
  destruct (bytes_eqb _ _); [|discriminate]. intros E. assert (w' = w) as -> by congruence.
  assert (sm_has m (d_sha256 D seed) dh) as Hh.
  { apply (sm_get_has D m _ _ Hok). unfold sm_witness in Ew.
    destruct (rb_get (d_sha256 D seed) (sm_map m)) as [sub|] eqn:E1; [|discriminate]. cbn [mbind option_bind] in Ew.
    destruct (rb_get dh sub) as [[]|] eqn:E2; [|discriminate]. eauto. }
  destruct (sm_witness_ok D _ _ m Hok Hh) as (w' & Hw' & Hr & Hl & Hwf).
  assert (w' = w) as -> by congruence. auto 10.
Qed.

Lemma witness_has D now m seed dh : sm_ok D m -> sm_has m (d_sha256 D seed) dh ->
  sm_is_expired now (d_sha256 D seed) dh m = false -> exists w, witness D now m seed dh = Ok w.
Proof.
  intros Hok Hh Hx. unfold witness, hash_bytes. rewrite Hx.
  destruct (sm_witness_ok D _ _ m Hok Hh) as (w & -> & Hr & _). rewrite Hr, bytes_eqb_refl. eauto.
Qed.

Definition delegation_tree (D : Deps) (w : hash_tree) : hash_tree :=
  HFork (HPruned (labeled_hash D LABEL_ASSETS (assets_root D))) (HLabeled LABEL_SIG w).

Lemma get_delegation_ok D now cert x sk exp c s r : deps_ok D -> ls_settings (c_lib c) = Some s ->
  siwe_get_delegation D now cert x sk exp c = Done (Ok r) ->
  exists certificate b dh w, cert = Some certificate /\ address_text D x b /\ key_error D sk = None /\ exp <> 0 /\
    create_delegation_hash D (mkDelegation sk exp (s_targets s)) = Done dh /\
    witness D now (c_sigs c) (seed_of D s x) dh = Ok w /\
    r = mkSigned (mkDelegation sk exp (s_targets s)) (create_certified_signature certificate (delegation_tree D w)).
Proof.
  intros HD Hs. unfold siwe_get_delegation. destruct cert as [certificate|]; [|discriminate].
  destruct (address_cases D x HD) as [(e & E & Nx)|(b & Ax & E & Eb & Eb')]; rewrite E; cbn [obind]; [discriminate|].
  rewrite Hs, generate_seed_input. cbn [obind addr_str]. fold (seed_of D s x). intros H.
  destruct (N.eq_dec exp 0) as [-> |Hne].
  { unfold create_delegation in H. destruct sk as [|y sk]; [discriminate|]. destruct (d_der_err D (y :: sk)); discriminate. }
  rewrite (create_delegation_cases D s sk exp Hne) in H. cbn [obind] in H.
  destruct (key_error D sk) as [e|]; [discriminate|].
  apply obind_done in H as (dh & Edh & H). destruct (witness D now (c_sigs c) (seed_of D s x) dh) as [w|e] eqn:Ew; [|discriminate].
  exists certificate, b, dh, w. repeat (split; [assumption || reflexivity|]).
  unfold delegation_tree. congruence.
Qed.

Lemma get_delegation_succeeds D now certificate x b sk exp c s dh w : deps_ok D -> ls_settings (c_lib c) = Some s ->
  address_text D x b -> key_error D sk = None -> exp <> 0 ->
  create_delegation_hash D (mkDelegation sk exp (s_targets s)) = Done dh ->
  witness D now (c_sigs c) (seed_of D s x) dh = Ok w ->
  siwe_get_delegation D now (Some certificate) x sk exp c =
    Done (Ok (mkSigned (mkDelegation sk exp (s_targets s)) (create_certified_signature certificate (delegation_tree D w)))).
Proof.
  intros HD Hs Ax Hk Hne Edh Ew. unfold siwe_get_delegation.
  destruct (address_cases D x HD) as [(e & E & Nx)|(b' & Ax' & E & Eb & Eb')]; [now apply Nx in Ax|]. rewrite E. cbn [obind].
  rewrite Hs, generate_seed_input. cbn [obind addr_str]. fold (seed_of D s x).
  rewrite (create_delegation_cases D s sk exp Hne), Hk. cbn [obind]. rewrite Edh. cbn [obind]. rewrite Ew. reflexivity.
Qed.

(** ** Identities *)

Lemma login_pk D cid tr e s sg x sk n exp pk i since : deps_ok D -> exec D cid (tr ++ [e]) s ->
  logged_in e sg x sk n exp pk -> since_boot tr i since -> pk = create_user_canister_pubkey cid (user_seed D i x).
Proof.
  intros HD H Hl Hb.
  destruct (login_explained D cid tr e s sg x sk n exp pk HD H Hl)
    as (i' & st & fl & since' & bef & p & aft & x' & b & b' & n' & text & Hs & _ & _ & _ & _ & _ & _ & _ & _ & _ & _ & _ & _ & Epk).
  destruct (since_boot_fun _ _ _ _ _ Hb Hs) as [-> _]. exact Epk.
Qed.

Lemma login_address D cid tr e s sg x sk n exp pk : deps_ok D -> exec D cid (tr ++ [e]) s ->
  logged_in e sg x sk n exp pk -> exists b, address_text D x b.
Proof.
  intros HD H Hl.
  destruct (login_explained D cid tr e s sg x sk n exp pk HD H Hl)
    as (i' & st & fl & since' & bef & p & aft & x' & b & b' & n' & text & _ & _ & _ & _ & Ha & _). eauto.
Qed.

Lemma address_text_length D x b : deps_ok D -> address_text D x b -> length x = 42%nat.
Proof. intros HD [L ->]. rewrite eip55_length by (auto; lia). lia. Qed.

Lemma pubkey_inj cid1 seed1 cid2 seed2 :
  (length cid1 <= 29)%nat -> length seed1 = 32%nat -> (length cid2 <= 29)%nat -> length seed2 = 32%nat ->
  create_user_canister_pubkey cid1 seed1 = create_user_canister_pubkey cid2 seed2 ->
  cid1 = cid2 /\ seed1 = seed2.
Proof.
  assert (forall cid seed, (length cid <= 29)%nat -> length seed = 32%nat ->
    canister_pubkey_decode (create_user_canister_pubkey cid seed) = Some (cid, seed)) as Hd.
  { intros cid seed Hc Hs. apply pubkey_decodes; [lia|]. unfold blen. rewrite Hs. vm_compute. reflexivity. }
  intros H1 H2 H3 H4 E. pose proof (Hd cid1 seed1 H1 H2) as D1. rewrite E, (Hd cid2 seed2 H3 H4) in D1.
  split; congruence.
Qed.
