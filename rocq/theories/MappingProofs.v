(** The two address mappings in terms of the history of calls. *)
From Coq Require Import Strings.String ZifyBool ZifyN ZifyNat.
From Verif Require Import Base BaseLemmas Deps Hex Eth Hash HashTree RbTree SigMap Time3339 Settings Siwe Encode
  Delegation Login Provider SpecEth EthProofs SpecHash DelegationProofs SpecWire WireProofs SpecTree SigMapProofs
  MapRuns SpecSiwe SiweProofs SpecInit SettingsProofs SpecTrace LoginProofs ProviderProofs TraceProofs LoginTheory
  DelegationTheory.
Local Open Scope N_scope.

(** ** The last event of a kind *)

Section Latest.
  Context (note : list event -> event -> bytes -> bytes -> Prop).

  Definition latest (tr : list event) (k v : bytes) : Prop :=
    exists pre e post, tr = pre ++ e :: post /\ note pre e k v /\
      forall q1 f q2, post = q1 ++ f :: q2 -> ~ reinstalls f /\ forall v', ~ note (pre ++ e :: q1) f k v'.

  Lemma latest_nil k v : ~ latest [] k v.
  Proof. intros (pre & e & post & E & _). destruct pre; discriminate. Qed.

  Lemma latest_other tr e k : ~ reinstalls e -> (forall v, ~ note tr e k v) ->
    forall v, latest (tr ++ [e]) k v <-> latest tr k v.
  Proof.
    intros Hr Hn v. split.
    - intros (pre & e' & post & E & Hk & HF). apply snoc_split in E as [(<- & <- & ->)|(post' & -> & ->)].
      + now apply Hn in Hk.
      + exists pre, e', post'. split; [reflexivity|]. split; [assumption|]. intros q1 f q2 ->.
        apply (HF q1 f (q2 ++ [e])). now rewrite <- app_assoc.
    - intros (pre & e' & post & -> & Hk & HF). exists pre, e', (post ++ [e]). rewrite <- app_assoc.
      split; [reflexivity|]. split; [assumption|]. intros q1 f q2 E.
      apply snoc_split in E as [(<- & <- & ->)|(q2' & -> & ->)]; [auto|]. eapply HF. reflexivity.
  Qed.

  Lemma latest_note tr e k v : note tr e k v -> (forall v', note tr e k v' -> v' = v) ->
    ~ reinstalls e -> forall v', latest (tr ++ [e]) k v' <-> v' = v.
  Proof.
    intros Hk Hu Hr v'. split.
    - intros (pre & e' & post & E & Hk' & HF). apply snoc_split in E as [(<- & <- & ->)|(post' & -> & ->)].
      + now apply Hu.
      + destruct (HF post' e []) as [_ Hno]; [reflexivity|]. now apply Hno in Hk.
    - intros ->. exists tr, e, []. split; [reflexivity|]. split; [assumption|]. intros [|? q1] f q2 E; discriminate.
  Qed.

  Lemma latest_reinstall tr e k v : reinstalls e -> (forall v, ~ note tr e k v) -> ~ latest (tr ++ [e]) k v.
  Proof.
    intros Hr Hn (pre & e' & post & E & Hk & HF). apply snoc_split in E as [(<- & <- & ->)|(post' & -> & ->)].
    - now apply Hn in Hk.
    - destruct (HF post' e []) as [Hno _]; [reflexivity|]. contradiction.
  Qed.
End Latest.

(** ** The invariant *)

Record maps_inv (D : Deps) (tr : list event) (c : canister) : Prop := {
  mi_pa : forall p x, last_address D tr p x <-> exists b, address_text D x b /\ c_principal_address c !! p = Some b;
  mi_ap : forall x p, last_principal D tr x p <-> exists b, address_text D x b /\ c_address_principal c !! b = Some p;
  mi_pa_wf : forall p b, c_principal_address c !! p = Some b -> length b = 20%nat
}.

Definition note_a (D : Deps) (pre : list event) (e : event) (p x : bytes) := notes D wants_no_address pre e x p.
Definition note_p (D : Deps) (pre : list event) (e : event) (x p : bytes) := notes D wants_no_principal pre e x p.

Lemma last_address_latest D tr p x : last_address D tr p x <-> latest (note_a D) tr p x.
Proof. reflexivity. Qed.
Lemma last_principal_latest D tr x p : last_principal D tr x p <-> latest (note_p D) tr x p.
Proof. reflexivity. Qed.

Lemma notes_login D off pre e x p : notes D off pre e x p -> login_succeeds e.
Proof. intros (i & since & sg & sk & n & exp & pk & _ & _ & Hl & _). red. eauto 10. Qed.

Lemma login_not_boot e : login_succeeds e -> ~ boots e.
Proof. intros (sg & x & sk & n & exp & pk & Ho & _) (i & [E|E] & _); congruence. Qed.

Lemma reinstalls_boots e : reinstalls e -> boots e.
Proof. intros (i & Ho & Hr). exists i. split; auto. Qed.

(** An event that changes neither mapping. *)
Lemma maps_inert D tr e c c' : ~ reinstalls e -> ~ login_succeeds e ->
  c_principal_address c' = c_principal_address c -> c_address_principal c' = c_address_principal c ->
  maps_inv D tr c -> maps_inv D (tr ++ [e]) c'.
Proof.
  intros Hr Hl E1 E2 [H1 H2 H3]. split.
  - intros p x. rewrite E1, last_address_latest, latest_other; [apply H1|assumption|]. intros v Hn. now apply notes_login in Hn.
  - intros x p. rewrite E2, last_principal_latest, latest_other; [apply H2|assumption|]. intros v Hn. now apply notes_login in Hn.
  - now rewrite E1.
Qed.

Lemma maps_reinstall D tr e c : reinstalls e ->
  c_principal_address c = ∅ -> c_address_principal c = ∅ -> maps_inv D (tr ++ [e]) c.
Proof.
  intros Hr E1 E2. assert (~ login_succeeds e) as Hl.
  { intros Hl. apply login_not_boot in Hl. now apply Hl, reinstalls_boots. }
  split.
  - intros p x. rewrite E1, last_address_latest. split.
    + intros H. now apply latest_reinstall in H; [|assumption|intros v Hn; apply notes_login in Hn].
    + intros (b & _ & H). rewrite lookup_empty in H. discriminate.
  - intros p x. rewrite E2, last_principal_latest. split.
    + intros H. now apply latest_reinstall in H; [|assumption|intros v Hn; apply notes_login in Hn].
    + intros (b & _ & H). rewrite lookup_empty in H. discriminate.
  - intros p b H. rewrite E1, lookup_empty in H. discriminate.
Qed.

Lemma maps_login D tr e c c' i since sg x sk n exp pk b : deps_ok D -> since_boot tr i since ->
  logged_in e sg x sk n exp pk -> address_text D x b ->
  c_principal_address c' = (if wants_no_address i then c_principal_address c
                            else <[principal_of D pk := b]> (c_principal_address c)) ->
  c_address_principal c' = (if wants_no_principal i then c_address_principal c
                            else <[b := principal_of D pk]> (c_address_principal c)) ->
  maps_inv D tr c -> maps_inv D (tr ++ [e]) c'.
Proof.
  intros HD Hs Hl Ha E1 E2 [H1 H2 H3].
  assert (~ reinstalls e) as Hr.
  { intros Hr. apply reinstalls_boots in Hr. revert Hr. apply login_not_boot. red. eauto 10. }
  assert (forall off x' p', notes D off tr e x' p' <-> off i = false /\ x' = x /\ p' = principal_of D pk) as Hn.
  { intros off x' p'. split.
    - intros (i' & since' & sg' & sk' & n' & exp' & pk' & Hs' & Ho & [Lo Lr] & ->). destruct Hl as [Lo' Lr'].
      destruct (since_boot_fun _ _ _ _ _ Hs Hs') as [<- _]. rewrite Lo in Lo'. rewrite Lr in Lr'.
      split; [assumption|]. split; [congruence|]. assert (pk' = pk) as -> by congruence. reflexivity.
    - intros (Ho & -> & ->). exists i, since, sg, sk, n, exp, pk. auto. }
  split.
  - intros p x'. rewrite E1, last_address_latest.
    destruct (wants_no_address i) eqn:Ew.
    { rewrite latest_other; [apply H1|assumption|]. intros v Hv. apply Hn in Hv as [Hv _]. congruence. }
    destruct (decide (p = principal_of D pk)) as [->|Np].
    + rewrite (latest_note (note_a D) tr e _ x); [|now apply Hn|intros v' Hv; apply Hn in Hv; tauto|assumption].
      rewrite lookup_insert. split.
      * intros ->. eauto.
      * intros (b' & Ha' & E). assert (b' = b) as -> by congruence. eapply address_text_fun; eassumption.
    + rewrite lookup_insert_ne by congruence. rewrite latest_other; [apply H1|assumption|]. intros v Hv. apply Hn in Hv. tauto.
  - intros x' p. rewrite E2, last_principal_latest.
    destruct (wants_no_principal i) eqn:Ew.
    { rewrite latest_other; [apply H2|assumption|]. intros v Hv. apply Hn in Hv as [Hv _]. congruence. }
    destruct (decide (x' = x)) as [->|Nx].
    + rewrite (latest_note (note_p D) tr e _ (principal_of D pk)); [|now apply Hn|intros v' Hv; apply Hn in Hv; tauto|assumption].
      split.
      * intros ->. exists b. now rewrite lookup_insert.
      * intros (b' & Ha' & E). rewrite (address_text_inj D x b' b HD Ha' Ha), lookup_insert in E. congruence.
    + rewrite latest_other; [|assumption|intros v Hv; apply Hn in Hv; tauto].
      change (latest (note_p D) tr x' p) with (last_principal D tr x' p). rewrite (H2 x' p). split; intros (b' & Ha' & E); exists b'; (split; [assumption|]).
      * rewrite lookup_insert_ne; [assumption|]. intros <-. apply Nx. eapply address_text_fun; eassumption.
      * rewrite lookup_insert_ne in E; [assumption|]. intros <-. apply Nx. eapply address_text_fun; eassumption.
  - intros p b'. rewrite E1. destruct (wants_no_address i); [apply H3|]. intros E.
    apply lookup_insert_Some in E as [[_ <-]|[_ E]]; [apply Ha|eapply H3, E].
Qed.

Lemma exec_maps D cid tr s : deps_ok D -> exec D cid tr s -> match s with Some c => maps_inv D tr c | None => True end.
Proof.
  intros HD. induction 1 as [|tr st now o st' r H IH Ht Hn Hw Hs]; [exact I|].
  destruct st' as [c'|]; [|exact I]. set (e := mkEvent now o r).
  assert (forall c, st = Some c -> ~ reinstalls e -> ~ login_succeeds e ->
    c_principal_address c' = c_principal_address c -> c_address_principal c' = c_address_principal c ->
    maps_inv D (tr ++ [e]) c') as Hsame.
  { intros c -> H1 H2 H3 H4. now apply (maps_inert D tr e c c'). }
  destruct o as [i|i|seed|x|sg x sk n|cert x sk exp|p|p|x]; cbn [step] in Hs.
  - unfold do_install in Hs. destruct (siwe_init D cid i) as [[s fl]|w] eqn:E; cbn [obind] in Hs.
    + assert (c' = Provider.fresh s fl ∅ ∅ []) as -> by congruence.
      apply maps_reinstall; try reflexivity. exists i. split; [reflexivity|]. cbn. congruence.
    + apply (Hsame c'); auto; [congruence| |].
      * intros (i' & _ & Hr). cbn in Hr. congruence.
      * intros (? & ? & ? & ? & ? & ? & Ho & _). discriminate.
  - destruct st as [c|]; [|discriminate].
    assert (~ reinstalls e /\ ~ login_succeeds e) as [N1 N2].
    { split; [intros (i' & Ho & _); discriminate|intros (? & ? & ? & ? & ? & ? & Ho & _); discriminate]. }
    unfold do_upgrade in Hs. destruct (siwe_init D cid i) as [[s fl]|w] eqn:E; cbn [obind] in Hs.
    + assert (c' = Provider.fresh s fl (c_principal_address c) (c_address_principal c) (c_certified c)) as -> by congruence.
      apply (Hsame c); auto.
    + apply (Hsame c'); auto; congruence.
  - destruct st as [c|]; [|discriminate].
    assert (~ reinstalls e /\ ~ login_succeeds e) as [N1 N2].
    { split; [intros (i' & Ho & _); discriminate|intros (? & ? & ? & ? & ? & ? & Ho & _); discriminate]. }
    assert (c' = do_raw_rand seed c) as -> by congruence.
    unfold do_raw_rand in *. apply (Hsame c); auto; destruct (c_seeding c); reflexivity.
  - destruct st as [c|]; [|discriminate].
    assert (~ reinstalls e /\ ~ login_succeeds e) as [N1 N2].
    { split; [intros (i' & Ho & _); discriminate|intros (? & ? & ? & ? & ? & ? & Ho & _); discriminate]. }
    destruct (siwe_prepare_login D now x c) as [[c1 r1]|w] eqn:Ep; cbn [run_update] in Hs.
    + assert (c1 = c') as -> by congruence. unfold siwe_prepare_login in Ep.
      destruct (eth_address_new D x) as [[a|err]|]; cbn [obind] in Ep; [|apply (Hsame c); auto; congruence|discriminate].
      destruct (prepare_login D now (c_lib c) a) as [[lib [m nc]]|]; cbn [obind] in Ep; [|discriminate].
      destruct (siwe_to_string m) as [text|]; cbn [obind] in Ep; [|discriminate].
      assert (c' = with_lib c lib) as -> by congruence. apply (Hsame c); auto.
    + apply (Hsame c'); auto; congruence.
  - destruct st as [c|]; [|discriminate].
    destruct (exec_inv D cid tr c HD H) as (i & s & since & Hi).
    pose proof (inv_can_ok D cid tr c i s since Hi (exec_times _ _ _ _ H)) as Hc.
    destruct (login_cases D cid now sg x sk n c s HD Hc) as (c1 & r1 & E & Hout).
    rewrite E in Hs. cbn [run_update] in Hs. assert (c1 = c') as -> by congruence.
    assert (r = RLogin r1) as Er by congruence.
    assert (~ reinstalls e) as N1 by (intros (i' & Ho & _); discriminate).
    assert (forall err, r1 = Err err -> ~ login_succeeds e) as N2.
    { intros err -> (? & ? & ? & ? & ? & ? & _ & Hr). cbn in Hr. congruence. }
    destruct Hout; try (apply (Hsame c); auto; [eapply N2; reflexivity]).
    eapply (maps_login D tr e c _ i since sg x sk n); [exact HD|apply Hi|split; [reflexivity|cbn; rewrite Er; reflexivity]|eassumption| | |assumption].
    + cbn. pose proof (flags_wants D cid i s (c_flags c) (inv_init _ _ _ _ _ _ _ Hi)) as [_ ->]. reflexivity.
    + cbn. pose proof (flags_wants D cid i s (c_flags c) (inv_init _ _ _ _ _ _ _ Hi)) as [-> _]. reflexivity.
  - destruct st as [c|]; [|discriminate]. apply (Hsame c); auto; try (unfold run_query in Hs; congruence).
    + intros (i' & Ho & _); discriminate. + intros (? & ? & ? & ? & ? & ? & Ho & _); discriminate.
  - destruct st as [c|]; [|discriminate]. apply (Hsame c); auto; try (unfold run_query in Hs; congruence).
    + intros (i' & Ho & _); discriminate. + intros (? & ? & ? & ? & ? & ? & Ho & _); discriminate.
  - destruct st as [c|]; [|discriminate]. apply (Hsame c); auto; try (unfold run_query in Hs; congruence).
    + intros (i' & Ho & _); discriminate. + intros (? & ? & ? & ? & ? & ? & Ho & _); discriminate.
  - destruct st as [c|]; [|discriminate]. apply (Hsame c); auto; try (unfold run_query in Hs; congruence).
    + intros (i' & Ho & _); discriminate. + intros (? & ? & ? & ? & ? & ? & Ho & _); discriminate.
Qed.

(** ** What the query methods reply *)

Lemma flags_of D cid tr c i since : deps_ok D -> exec D cid tr (Some c) -> since_boot tr i since ->
  disable_eth_to_principal (c_flags c) = wants_no_principal i /\ disable_principal_to_eth (c_flags c) = wants_no_address i.
Proof.
  intros HD H Hs. destruct (exec_since D cid tr (Some c) i since HD H Hs) as (c' & st & E & Hi & _).
  assert (c' = c) as -> by congruence. eapply flags_wants, (inv_init _ _ _ _ _ _ _ Hi).
Qed.

Lemma principal_length D pk : deps_ok D -> length (principal_of D pk) = 29%nat.
Proof. intros HD. unfold principal_of. rewrite app_length, (sha224_len _ HD). reflexivity. Qed.

Lemma last_address_length D tr p x : deps_ok D -> last_address D tr p x -> length p = 29%nat.
Proof.
  intros HD (pre & e & post & _ & (i & since & sg & sk & n & exp & pk & _ & _ & _ & ->) & _). now apply principal_length.
Qed.

Lemma eip55_of_digits D b : deps_ok D -> (length b <= 32)%nat ->
  convert_to_eip55 D (bytes_to_eth_address b) = Done (Ok (eip55 (d_keccak D) b)).
Proof. intros HD Hb. apply convert_hex; [assumption|assumption|]. apply hex_encode_lower. Qed.

Lemma get_address_reply D cid tr c i since now p x : deps_ok D -> exec D cid tr (Some c) -> since_boot tr i since ->
  wants_no_address i = false ->
  step D cid now (GetAddress p) (Some c) = (Some c, Provider.RText (Ok x)) <-> last_address D tr p x.
Proof.
  intros HD H Hs Hw. pose proof (exec_maps D cid tr _ HD H) as [H1 _ H3].
  destruct (flags_of D cid tr c i since HD H Hs) as [_ Hf]. cbn [step]. unfold run_query, get_address. rewrite Hf, Hw.
  split.
  - destruct (29 <? blen p); [discriminate|]. destruct (c_principal_address c !! p) as [b|] eqn:E; [|discriminate].
    pose proof (H3 p b E) as Lb. rewrite (eip55_of_digits D b); auto; [|lia].
    intros Ex. apply H1. exists b. split; [|assumption]. split; [assumption|]. cbn [obind map_err] in Ex. congruence.
  - intros Hl. pose proof (last_address_length D tr p x HD Hl) as Lp. apply H1 in Hl as (b & [Lb ->] & E).
    assert (29 <? blen p = false) as -> by (unfold blen; lia). rewrite E.
    rewrite (eip55_of_digits D b) by (auto; lia). reflexivity.
Qed.

Lemma get_principal_reply D cid tr c i since now x p : deps_ok D -> exec D cid tr (Some c) -> since_boot tr i since ->
  wants_no_principal i = false ->
  step D cid now (GetPrincipal x) (Some c) = (Some c, Provider.RBlob (Ok p)) <-> last_principal D tr x p.
Proof.
  intros HD H Hs Hw. pose proof (exec_maps D cid tr _ HD H) as [_ H2 _].
  destruct (flags_of D cid tr c i since HD H Hs) as [Hf _]. cbn [step]. unfold run_query, get_principal. rewrite Hf, Hw.
  rewrite H2. destruct (address_cases D x HD) as [(err & E & Nx)|(b & Ax & E & Eb & Eb')]; rewrite E; cbn [obind].
  - split; [discriminate|]. intros (b & Ha & _). now apply Nx in Ha.
  - rewrite Eb'. cbn [obind]. split.
    + intros Ep. exists b. split; [assumption|]. destruct (c_address_principal c !! b); congruence.
    + intros (b' & Ha' & E'). rewrite (address_text_inj D x b' b HD Ha' Ax) in E'. rewrite E'. reflexivity.
Qed.

(** ** One configuration of identities *)

Lemma notes_dec D cid off tr c e : deps_ok D -> exec D cid tr (Some c) ->
  (exists x p, notes D off tr e x p /\ forall x' p', notes D off tr e x' p' -> x' = x /\ p' = p) \/
  (forall x p, ~ notes D off tr e x p).
Proof.
  intros HD H. destruct (exec_booted D cid tr c HD H) as (i & since & Hs).
  destruct (off i) eqn:Ho.
  { right. intros x p (i' & since' & sg & sk & n & exp & pk & Hs' & Ho' & _).
    destruct (since_boot_fun _ _ _ _ _ Hs Hs') as [<- _]. congruence. }
  destruct (login_okb e) eqn:El.
  - left. apply login_okb_spec in El as (sg & x & sk & n & exp & pk & Hl). exists x, (principal_of D pk). split.
    + exists i, since, sg, sk, n, exp, pk. auto.
    + intros x' p' (i' & since' & sg' & sk' & n' & exp' & pk' & _ & _ & [Lo Lr] & ->). destruct Hl as [Lo' Lr'].
      rewrite Lo in Lo'. rewrite Lr in Lr'. split; [congruence|]. assert (pk' = pk) as -> by congruence. reflexivity.
  - right. intros x p Hn. apply notes_login, login_okb_spec in Hn. congruence.
Qed.

Lemma notes_not_reinstall D off pre e x p : notes D off pre e x p -> ~ reinstalls e.
Proof. intros Hn Hr. apply notes_login, login_not_boot in Hn. now apply Hn, reinstalls_boots. Qed.

Lemma exec_some D cid tr1 tr2 s i since : exec D cid (tr1 ++ tr2) s -> since_boot tr1 i since -> exists c, exec D cid tr1 (Some c).
Proof.
  intros H Hs. apply exec_prefix in H as [s1 H1]. destruct (since_boot_installed _ _ _ _ _ _ H1 Hs) as [c ->]. eauto.
Qed.

Lemma since_boot_grows D cid tr1 tr2 s i since : deps_ok D -> exec D cid (tr1 ++ tr2) s -> since_boot tr1 i since ->
  exists i' since', since_boot (tr1 ++ tr2) i' since'.
Proof.
  intros HD H (bef & b & -> & Hb & _). destruct (exec_installed _ _ _ _ H) as [c ->].
  - exists b. split; [|eexists; exact Hb]. apply in_app_iff. left. apply in_app_iff. right. left. reflexivity.
  - eapply exec_booted; eassumption.
Qed.

Lemma latest_exists D cid off tr1 e post s x p : deps_ok D -> exec D cid (tr1 ++ e :: post) s ->
  notes D off tr1 e x p -> Forall (fun e => ~ reinstalls e) post ->
  (exists p', latest (fun pre e x p => notes D off pre e x p) (tr1 ++ e :: post) x p') /\
  (exists x', latest (fun pre e p x => notes D off pre e x p) (tr1 ++ e :: post) p x').
Proof.
  intros HD H Hn Hr. revert s H. induction post as [|f post IH] using rev_ind; intros s H.
  - split; [exists p|exists x]; exists tr1, e, []; (split; [reflexivity|]); (split; [assumption|]);
      intros [|? q1] f q2 E; discriminate.
  - apply List.Forall_app in Hr as [Hr Hf]. apply List.Forall_cons_iff in Hf as [Hf _].
    rewrite app_comm_cons, app_assoc in H |- *.
    assert (exists s', exec D cid (tr1 ++ e :: post) s') as [s' H'] by (eapply exec_prefix, H).
    destruct (IH Hr s' H') as [[p' H1] [x' H2]].
    assert (exists c, s' = Some c) as [c ->].
    { destruct Hn as (i & since & sg & sk & n & exp & pk & Hs & _).
      destruct (since_boot_grows D cid tr1 (e :: post) s' i since HD H' Hs) as (i' & since' & Hs').
      eapply since_boot_installed; eassumption. }
    destruct (notes_dec D cid off _ c f HD H') as [(xf & pf & Hnf & Hu)|Hno].
    + pose proof (notes_not_reinstall _ _ _ _ _ _ Hnf) as Hrf. split.
      * destruct (decide (x = xf)) as [->|Nx].
        -- exists pf. rewrite (latest_note (fun pre e x p => notes D off pre e x p) _ f xf pf); auto.
           intros v' Hv. apply Hu in Hv. tauto.
        -- exists p'. rewrite (latest_other (fun pre e x p => notes D off pre e x p)); auto.
           intros v Hv. apply Hu in Hv. tauto.
      * destruct (decide (p = pf)) as [->|Np].
        -- exists xf. rewrite (latest_note (fun pre e p x => notes D off pre e x p) _ f pf xf); auto.
           intros v' Hv. apply Hu in Hv. tauto.
        -- exists x'. rewrite (latest_other (fun pre e p x => notes D off pre e x p)); auto.
           intros v Hv. apply Hu in Hv. tauto.
    + split; [exists p'|exists x'].
      * rewrite (latest_other (fun pre e x p => notes D off pre e x p)); auto.
      * rewrite (latest_other (fun pre e p x => notes D off pre e x p)); auto.
Qed.

(** Since the last installation every configuration gives the identities of [i]. *)
Definition steady (i : SettingsInput) (since : list event) : Prop :=
  same_identities i i /\ forall e j, In e since -> boot e j -> same_identities i j.

Lemma steady_user_seed D i j x : same_identities i j -> user_seed D j x = user_seed D i x.
Proof. intros (_ & _ & E1 & E2). unfold user_seed. now rewrite E1, E2. Qed.

Lemma steady_config pre e post tr i since j sincej : tr = pre ++ e :: post -> since_install tr i since -> steady i since ->
  Forall (fun e => ~ reinstalls e) post -> ~ reinstalls e -> since_boot pre j sincej -> same_identities i j.
Proof.
  intros E (bef & b & Eb & Ho & Hr & HF) [Hi Hst] Hpost He (bef' & b' & E' & Hb' & HF').
  assert (reinstalls b) as Hb by (exists i; auto).
  rewrite E in Eb. apply split_two in Eb as [(_ & -> & _)|[(k & _ & Ek)|(k & Ek & Es)]].
  - contradiction.
  - rewrite Ek in Hpost. apply List.Forall_app in Hpost as [_ Hp]. apply List.Forall_cons_iff in Hp as [Hp _]. contradiction.
  - rewrite Ek in E'. apply split_two in E' as [(_ & -> & _)|[(k' & _ & Ek')|(k' & _ & Ek')]].
    + assert (j = i) as ->; [|assumption]. destruct Hb' as [[O|O] _]; congruence.
    + apply (Hst b' j); [|assumption]. rewrite Es, Ek'. apply in_app_iff. left. apply in_app_iff. right. left. reflexivity.
    + rewrite Ek' in HF'. apply List.Forall_app in HF' as [_ HF']. apply List.Forall_cons_iff in HF' as [HF' _].
      contradiction HF'. now apply reinstalls_boots.
Qed.

Lemma steady_now tr i since : since_install tr i since -> steady i since ->
  exists j sincej, since_boot tr j sincej /\ same_identities i j.
Proof.
  intros (bef & b & -> & Ho & Hr & HF) [Hi Hst].
  induction since as [|e since IH] using rev_ind.
  - exists i, []. split; [|assumption]. exists bef, b. split; [reflexivity|]. split; [split; auto|constructor].
  - apply List.Forall_app in HF as [HF HFe]. destruct IH as (j & sj & Hs & Hj); [assumption| |].
    { intros e' j He. apply Hst. apply in_app_iff. auto. }
    assert ((exists i', boot e i') \/ ~ boots e) as [[i' Hb]|Nb].
    { destruct (ev_op e) as [i'|i'| | | | | | |] eqn:Eo; try (right; intros (i'' & [E|E] & _); congruence);
        (destruct (ev_reply e) eqn:Er; try (right; intros (i'' & _ & E); congruence); left; exists i'; split; auto). }
    + exists i', []. split.
      * exists (bef ++ b :: since), e. rewrite <- app_assoc. split; [reflexivity|]. split; [assumption|constructor].
      * apply (Hst e i'); [|assumption]. apply in_app_iff. right. left. reflexivity.
    + exists j, (sj ++ [e]). split; [|assumption]. rewrite app_comm_cons, app_assoc. now apply since_boot_snoc.
Qed.

Definition identity (D : Deps) (cid : bytes) (i : SettingsInput) (x : bytes) : bytes :=
  principal_of D (create_user_canister_pubkey cid (user_seed D i x)).

Lemma steady_notes D cid off pre e post tr s i since x p : deps_ok D -> exec D cid tr s -> tr = pre ++ e :: post ->
  since_install tr i since -> steady i since -> Forall (fun e => ~ reinstalls e) post -> notes D off pre e x p ->
  p = identity D cid i x /\ (exists b, address_text D x b) /\
  notes D wants_no_address pre e x p /\ notes D wants_no_principal pre e x p.
Proof.
  intros HD H E Hinst Hst Hpost Hn. pose proof (notes_not_reinstall _ _ _ _ _ _ Hn) as He.
  destruct Hn as (j & sj & sg & sk & n & exp & pk & Hs & _ & Hl & Ep).
  pose proof (steady_config pre e post tr i since j sj E Hinst Hst Hpost He Hs) as Hj.
  rewrite E in H. apply exec_at in H as [s1 H1]. split; [|split; [|split]].
  - rewrite Ep, (login_pk D cid pre e s1 sg x sk n exp pk j sj HD H1 Hl Hs), (steady_user_seed D i j x Hj). reflexivity.
  - eapply login_address; eassumption.
  - destruct Hj as (Hj & _). exists j, sj, sg, sk, n, exp, pk. auto.
  - destruct Hj as (_ & Hj & _). exists j, sj, sg, sk, n, exp, pk. auto.
Qed.

Lemma no_reinstall_after (P : list event -> event -> Prop) (post : list event) :
  (forall q1 f q2, post = q1 ++ f :: q2 -> ~ reinstalls f /\ P q1 f) -> Forall (fun e => ~ reinstalls e) post.
Proof.
  intros H. rewrite List.Forall_forall. intros f Hf. apply in_split in Hf as (q1 & q2 & ->). eapply (H q1 f q2). reflexivity.
Qed.

Lemma identity_inj D cid i x y : deps_ok D -> (length cid <= 29)%nat -> length x = length y ->
  identity D cid i x = identity D cid i y -> x = y \/ principal_collision D cid i x y.
Proof.
  intros HD Hc Hl E. unfold identity, principal_of in E. apply app_inj_tail in E as [E _].
  destruct (decide (create_user_canister_pubkey cid (user_seed D i x) = create_user_canister_pubkey cid (user_seed D i y))) as [Ek|Nk];
    [|right; left; now split].
  apply pubkey_inj in Ek as [_ Ek]; auto; try apply (sha256_len _ HD).
  destruct (decide (seed_input (in_salt i) x (uri_part i) = seed_input (in_salt i) y (uri_part i))) as [Ei|Ni];
    [|right; right; now split].
  left. apply seed_input_inj in Ei as (_ & -> & _); auto.
Qed.

Lemma steady_inverse D cid tr c i since x p : deps_ok D -> exec D cid tr (Some c) -> since_install tr i since ->
  steady i since -> (length cid <= 29)%nat ->
  (last_address D tr p x -> last_principal D tr x p) /\
  (last_principal D tr x p -> last_address D tr p x \/
     exists y, last_address D tr p y /\ y <> x /\ principal_collision D cid i y x).
Proof.
  intros HD H Hinst Hst Hc.
  assert (forall y p, last_address D tr p y -> p = identity D cid i y /\ exists b, address_text D y b) as HA.
  { intros y p' (pre & e & post & E & Hn & HF). apply no_reinstall_after in HF.
    destruct (steady_notes D cid _ pre e post tr _ i since y p' HD H E Hinst Hst HF Hn) as (? & ? & _). auto. }
  assert (forall y p, last_principal D tr y p -> p = identity D cid i y /\ exists b, address_text D y b) as HP.
  { intros y p' (pre & e & post & E & Hn & HF). apply no_reinstall_after in HF.
    destruct (steady_notes D cid _ pre e post tr _ i since y p' HD H E Hinst Hst HF Hn) as (? & ? & _). auto. }
  split.
  - intros Hl. pose proof Hl as (pre & e & post & E & Hn & HF). apply no_reinstall_after in HF.
    destruct (steady_notes D cid _ pre e post tr _ i since x p HD H E Hinst Hst HF Hn) as (Ep & _ & _ & Hn').
    rewrite E in H. destruct (latest_exists D cid wants_no_principal pre e post _ x p HD H Hn' HF) as [[p' Hl'] _].
    rewrite <- E in Hl'. assert (p = p') as ->; [|exact Hl']. destruct (HP x p') as [-> _]; [exact Hl'|exact Ep].
  - intros Hl. pose proof Hl as (pre & e & post & E & Hn & HF). apply no_reinstall_after in HF.
    destruct (steady_notes D cid _ pre e post tr _ i since x p HD H E Hinst Hst HF Hn) as (Ep & (b & Ha) & Hn' & _).
    pose proof H as H0. rewrite E in H0. destruct (latest_exists D cid wants_no_address pre e post _ x p HD H0 Hn' HF) as [_ [y Hl']].
    rewrite <- E in Hl'. destruct (HA y p Hl') as [Ep' (b' & Ha')]. rewrite Ep in Ep'. symmetry in Ep'.
    destruct (decide (y = x)) as [->|Ny]; [left; exact Hl'|]. right. exists y. split; [exact Hl'|]. split; [assumption|].
    destruct (identity_inj D cid i y x HD Hc) as [->|Hcol]; [|assumption|contradiction|assumption].
    now rewrite (address_text_length D y b' HD Ha'), (address_text_length D x b HD Ha).
Qed.
