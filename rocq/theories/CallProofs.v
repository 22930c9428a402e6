(** Lemmas about single calls and about the store of sign-in messages. *)
From Coq Require Import Strings.String ZifyBool ZifyN ZifyNat.
From Verif Require Import Base BaseLemmas Deps Hex Eth Hash HashTree RbTree SigMap Time3339 Settings Siwe Encode
  Delegation Login Provider SpecEth EthProofs SpecHash DelegationProofs SpecWire WireProofs SpecTree SigMapProofs
  MapRuns SpecSiwe SiweProofs SpecInit SettingsProofs SpecTrace LoginProofs ProviderProofs TraceProofs LoginTheory.
Local Open Scope N_scope.

Lemma trap_rollback D cid now o s s' w : step D cid now o s = (s', RTrap w) -> s' = s.
Proof.
  destruct o, s as [c|]; cbn [step]; unfold run_update, run_query; intros H; try congruence;
    repeat match type of H with
           | context [match ?x with _ => _ end] => destruct x; try congruence
           end.
Qed.

(** Seeding since the last install or upgrade. *)
Lemma unseeded D cid tr c i s since : inv D cid tr c i s since ->
  (forall e seed, In e since -> ev_op e <> RawRand (Some seed)) -> ls_rng (c_lib c) = None.
Proof.
  intros Hi Hno. destruct (ls_rng (c_lib c)) as [r|] eqn:Er; [|reflexivity]. exfalso.
  pose proof (inv_seed _ _ _ _ _ _ _ Hi) as [_ H]. rewrite Er in H. destruct H as (bef & e & aft & Es & Ho & _).
  apply (Hno e (rng_seed r)); [|assumption]. rewrite Es. apply in_app_iff. right. left. reflexivity.
Qed.

Lemma prepared_seeded D cid tr c i s since before p after x text n : inv D cid tr c i s since ->
  since = before ++ p :: after -> prepared p x text n ->
  exists r, ls_rng (c_lib c) = Some r /\ n = hex_encode (d_chacha D (rng_seed r) (prepared_count before)).
Proof.
  intros Hi Es Hp. pose proof (inv_rng _ _ _ _ _ _ _ Hi) as Hr. destruct (ls_rng (c_lib c)) as [r|]; cbn [rng_inv] in Hr.
  - exists r. split; [reflexivity|]. destruct Hr as (_ & _ & Hr). eapply Hr; eassumption.
  - exfalso. rewrite Es in Hr. unfold prepared_count in Hr. rewrite List.filter_app in Hr. cbn [List.filter] in Hr.
    assert (is_prepared p = true) as E by (apply is_prepared_spec; eauto). rewrite E, app_length in Hr. cbn [length] in Hr. lia.
Qed.

Lemma prepared_count_lt l1 p l2 x text n : prepared p x text n -> prepared_count l1 < prepared_count (l1 ++ p :: l2).
Proof.
  intros Hp. unfold prepared_count. rewrite List.filter_app. cbn [List.filter].
  assert (is_prepared p = true) as E by (apply is_prepared_spec; eauto). rewrite E, app_length. cbn [length]. lia.
Qed.

(** ** The store of sign-in messages without logins *)

Lemma step_msgs_kept D cid tr c now o c' r : deps_ok D -> exec D cid tr (Some c) -> now <= u64_max ->
  (forall i, o <> Install i) -> (forall i, o <> Upgrade i) ->
  (forall x n, ~ login_attempt D (mkEvent now o r) x n) ->
  step D cid now o (Some c) = (Some c', r) ->
  (forall k, is_Some (ls_msgs (c_lib c) !! k) -> is_Some (ls_msgs (c_lib c') !! k)) /\
  (forall x text n b, prepared (mkEvent now o r) x text n -> address_text D x b ->
     is_Some (ls_msgs (c_lib c') !! message_key D b n)).
Proof.
  intros HD H Hn Hni Hnu Hno Hs. destruct (exec_inv D cid tr c HD H) as (i & s & since & Hi).
  destruct o as [i'|i'|seed|x|sg x sk n|cert x sk exp|p|p|x]; [now destruct (Hni i')|now destruct (Hnu i')|..]; cbn [step] in Hs.
  - assert (do_raw_rand seed c = c') as <- by congruence. split; [|intros ? ? ? ? [E _]; discriminate].
    intros k Hk. unfold do_raw_rand. destruct (c_seeding c); [|assumption]. destruct seed; assumption.
  - destruct (address_cases D x HD) as [(err & E & Nx)|(b & Ax & E & Eb & Eb')].
    { rewrite (prepare_bad_address D now x err c E) in Hs. cbn [run_update] in Hs. assert (c' = c) as -> by congruence.
      split; [auto|]. intros x' text n b [_ Er] _. cbn in Er. congruence. }
    destruct (ls_rng (c_lib c)) as [rn|] eqn:Ern.
    2:{ destruct (prepare_unseeded D now x c E Ern) as [w Ew]. rewrite Ew in Hs. cbn [run_update] in Hs.
        assert (c' = c) as -> by congruence. split; [auto|]. intros x' text n b' [_ Er] _. cbn in Er. congruence. }
    destruct (prepare_ok D now x b c s rn Ax E Eb (inv_settings _ _ _ _ _ _ _ Hi) Ern Hn) as (text & Et & Ep).
    rewrite Ep in Hs. cbn [run_update] in Hs.
    match type of Hs with (Some ?cc, RPrepare (Ok (_, ?nn))) = _ => assert (cc = c') as <- by congruence; set (n0 := nn) in * end.
    cbn [with_lib c_lib ls_msgs]. split.
    + intros k Hk. destruct (decide (message_key D b n0 = k)) as [<-|Nk]; [rewrite lookup_insert; eauto|now rewrite lookup_insert_ne].
    + intros x' text' n' b' [Eo Er] Ha. cbn in Eo, Er. assert (x' = x) as -> by congruence.
      assert (n' = n0) as -> by congruence. rewrite (address_text_inj D x b' b HD Ha Ax), lookup_insert. eauto.
  - assert (can_ok D c s) as Hc by (eapply inv_can_ok; [exact Hi|eapply exec_times, H]).
    destruct (login_cases D cid now sg x sk n c s HD Hc) as (c1 & r1 & E & Hout). rewrite E in Hs. cbn [run_update] in Hs.
    assert (c1 = c') as -> by congruence. split; [|intros ? ? ? ? [Eo _]; discriminate].
    assert (forall b sb, address_text D x b -> signature_text sg sb -> False) as Hf.
    { intros b sb Ha Hsb. apply (Hno x n). exists sg, sk, b, sb. auto. }
    inversion Hout; subst; auto; exfalso; eapply Hf; eassumption.
  - assert (c' = c) as -> by (unfold run_query in Hs; congruence). split; [auto|]. intros ? ? ? ? [Eo _]; discriminate.
  - assert (c' = c) as -> by (unfold run_query in Hs; congruence). split; [auto|]. intros ? ? ? ? [Eo _]; discriminate.
  - assert (c' = c) as -> by (unfold run_query in Hs; congruence). split; [auto|]. intros ? ? ? ? [Eo _]; discriminate.
  - assert (c' = c) as -> by (unfold run_query in Hs; congruence). split; [auto|]. intros ? ? ? ? [Eo _]; discriminate.
Qed.

Lemma since_boot_last tr e i since : since_boot (tr ++ [e]) i since ->
  (since = [] /\ boot e i) \/ (exists since', since = since' ++ [e] /\ since_boot tr i since' /\ ~ boots e).
Proof.
  intros (bef & b & E & Hb & HF). apply snoc_split in E as [(-> & <- & ->)|(since' & -> & ->)]; [auto|].
  right. exists since'. apply List.Forall_app in HF as [HF He]. apply List.Forall_cons_iff in He as [He _].
  split; [reflexivity|]. split; [|exact He]. exists bef, b. auto.
Qed.

Lemma all_prepared_kept D cid tr s : deps_ok D -> exec D cid tr s ->
  forall c i since, s = Some c -> since_boot tr i since ->
  Forall (fun e => forall x n, ~ login_attempt D e x n) since ->
  forall p x text n b, In p since -> prepared p x text n -> address_text D x b ->
    is_Some (ls_msgs (c_lib c) !! message_key D b n).
Proof.
  intros HD H. induction H as [|tr st now o st' r H IH Ht Hn Hw Hs]; intros c i since Est Hb HF p x text n b Hin Hp Ha;
    [discriminate|]. subst st'.
  apply since_boot_last in Hb as [(-> & _)|(since' & -> & Hb & Hnb)]; [contradiction|].
  destruct (since_boot_installed D cid tr st i since' H Hb) as [c0 ->].
  apply List.Forall_app in HF as [HF He]. apply List.Forall_cons_iff in He as [He _].
  assert (forall k, is_Some (ls_msgs (c_lib c0) !! k) -> is_Some (ls_msgs (c_lib c) !! k)) as Hkeep.
  { destruct o as [i'|i'|seed|x'|sg x' sk n'|cert x' sk exp|q|q|x'];
      try (refine (proj1 (step_msgs_kept D cid tr c0 now _ c r HD H Hn _ _ He Hs)); discriminate).
    - cbn [step] in Hs. destruct (do_install D cid i') eqn:E.
      + destruct Hnb. exists i'. split; [left; reflexivity|]. cbn. congruence.
      + assert (c = c0) as -> by congruence. auto.
    - cbn [step] in Hs. destruct (do_upgrade D cid i' c0) eqn:E.
      + destruct Hnb. exists i'. split; [right; reflexivity|]. cbn. congruence.
      + assert (c = c0) as -> by congruence. auto. }
  apply in_app_iff in Hin as [Hin|[<-|[]]].
  - apply Hkeep. eapply IH; eauto.
  - pose proof Hp as [Eo _]. cbn in Eo. subst o.
    eapply (step_msgs_kept D cid tr c0 now (PrepareLogin x) c r); eauto; discriminate.
Qed.

(** ** Asking for many messages *)

Section Flood.
  Context (D : Deps) (cid : bytes) (i : SettingsInput) (s : Settings) (fl : provider_settings) (seed x b : bytes).
  Hypothesis HD : deps_ok D.
  Hypothesis Hwf : input_wf i.
  Hypothesis Hinit : siwe_init D cid i = Done (s, fl).
  Hypothesis Hx : address_text D x b.
  Hypothesis Hseed : length seed = 32%nat.

  Definition flood_key (j : nat) : bytes := message_key D b (hex_encode (d_chacha D seed (N.of_nat j))).

  Lemma flood k : exists tr c,
    exec D cid tr (Some c) /\ length tr = (k + 2)%nat /\ since_boot tr i (drop 1 tr) /\
    Forall (fun e => ev_time e = 0 /\ forall sg x sk n, ev_op e <> SiweLogin sg x sk n) tr /\
    ls_settings (c_lib c) = Some s /\ ls_rng (c_lib c) = Some (mkRng seed (N.of_nat k)) /\
    (forall key, is_Some (ls_msgs (c_lib c) !! key) <-> exists j, (j < k)%nat /\ key = flood_key j) /\
    ((exists j1 j2, (j1 < j2 < k)%nat /\ flood_key j1 = flood_key j2) \/ size (ls_msgs (c_lib c)) = k).
  Proof.
    induction k as [|k (tr & c & H & Hl & Hb & HF & Hs & Hr & Hkeys & Hsize)].
    - set (e0 := mkEvent 0 (Install i) RDone). set (e1 := mkEvent 0 (RawRand (Some seed)) RDone).
      assert (exec D cid ([] ++ [e0]) (Some (Provider.fresh s fl ∅ ∅ []))) as H0.
      { apply (exec_snoc D cid [] None 0 (Install i)); [constructor|constructor|unfold u64_max; lia|exact Hwf|].
        cbn [step]. unfold do_install. rewrite Hinit. reflexivity. }
      exists [e0; e1], (do_raw_rand (Some seed) (Provider.fresh s fl ∅ ∅ [])).
      split.
      { apply (exec_snoc D cid [e0] (Some (Provider.fresh s fl ∅ ∅ [])) 0 (RawRand (Some seed)));
          [exact H0|repeat constructor; cbn; lia|unfold u64_max; lia|exact Hseed|reflexivity]. }
      split; [reflexivity|]. split.
      { exists [], e0. split; [reflexivity|]. split; [split; [left; reflexivity|reflexivity]|].
        repeat constructor. intros (i' & [E|E] & _); discriminate. }
      split; [repeat constructor; cbn; discriminate|]. cbn. split; [reflexivity|]. split; [reflexivity|].
      split; [|right; apply map_size_empty].
      intros key. rewrite lookup_empty. split; [intros [? ?]; discriminate|intros (j & Hj & _); lia].
    - set (n := hex_encode (d_chacha D seed (N.of_nat k))).
      destruct (address_cases D x HD) as [(err & E & Nx)|(b' & Ax & E & Eb & Eb')]; [now apply Nx in Hx|].
      rewrite (address_text_inj D x b' b HD Ax Hx) in *.
      destruct (prepare_ok D 0 x b c s (mkRng seed (N.of_nat k)) Hx E Eb Hs Hr) as (text & Et & Ep); [unfold u64_max; lia|].
      cbn [rng_seed rng_pos] in Et, Ep. fold n in Et, Ep.
      set (e := mkEvent 0 (PrepareLogin x) (RPrepare (Ok (text, n)))).
      exists (tr ++ [e]). eexists. split.
      { apply (exec_snoc D cid tr (Some c) 0 (PrepareLogin x)); [exact H| |unfold u64_max; lia|exact I|].
        - revert HF. apply List.Forall_impl. intros q [-> _]. lia.
        - cbn [step]. rewrite Ep. reflexivity. }
      split; [rewrite app_length, Hl; cbn; lia|]. split.
      { rewrite drop_app_le by (rewrite Hl; lia). apply since_boot_snoc; [exact Hb|]. intros (i' & [Ei|Ei] & _); discriminate. }
      split.
      { apply List.Forall_app. split; [exact HF|]. repeat constructor. cbn. discriminate. }
      cbn [with_lib c_lib ls_settings ls_rng ls_msgs]. split; [reflexivity|].
      split; [do 2 f_equal; lia|]. change (message_key D b n) with (flood_key k). split.
      + intros key. rewrite lookup_insert_is_Some. split.
        * intros [<-|[_ Hk]]; [exists k; split; [lia|reflexivity]|]. apply Hkeys in Hk as (j & Hj & ->). exists j. split; [lia|reflexivity].
        * intros (j & Hj & ->). destruct (decide (j = k)) as [->|Nj]; [auto|].
          destruct (decide (flood_key k = flood_key j)); [auto|]. right. split; [assumption|]. apply Hkeys. exists j. split; [lia|reflexivity].
      + destruct Hsize as [(j1 & j2 & Hj & Ej)|Hsize]; [left; exists j1, j2; split; [lia|assumption]|].
        destruct (ls_msgs (c_lib c) !! flood_key k) as [m|] eqn:Em.
        * left. destruct (Hkeys (flood_key k)) as [Hk _]. destruct Hk as (j & Hj & Ej); [rewrite Em; eauto|].
          exists j, k. split; [lia|]. symmetry. exact Ej.
        * right. rewrite map_size_insert_None by assumption. lia.
  Qed.
End Flood.

(** ** Seeding *)

Lemma step_seed D cid tr c now o c' r : deps_ok D -> exec D cid tr (Some c) -> now <= u64_max ->
  ~ boots (mkEvent now o r) -> (forall sd, o <> RawRand sd) -> step D cid now o (Some c) = (Some c', r) ->
  c_seeding c' = c_seeding c /\ (ls_rng (c_lib c) <> None -> ls_rng (c_lib c') <> None).
Proof.
  intros HD H Hn Hnb Hnr Hs. destruct (exec_inv D cid tr c HD H) as (i & s & since & Hi).
  destruct o as [i'|i'|seed|x|sg x sk n|cert x sk exp|p|p|x]; cbn [step] in Hs; [| |now destruct (Hnr seed)|..].
  - unfold do_install in Hs. destruct (siwe_init D cid i') as [[s1 fl]|w] eqn:E; cbn [obind] in Hs.
    + exfalso. apply Hnb. exists i'. split; [left; reflexivity|]. cbn. congruence.
    + assert (c' = c) as -> by congruence. auto.
  - unfold do_upgrade in Hs. destruct (siwe_init D cid i') as [[s1 fl]|w] eqn:E; cbn [obind] in Hs.
    + exfalso. apply Hnb. exists i'. split; [right; reflexivity|]. cbn. congruence.
    + assert (c' = c) as -> by congruence. auto.
  - destruct (address_cases D x HD) as [(err & E & Nx)|(b & Ax & E & Eb & Eb')].
    { rewrite (prepare_bad_address D now x err c E) in Hs. cbn [run_update] in Hs. assert (c' = c) as -> by congruence. auto. }
    destruct (ls_rng (c_lib c)) as [rn|] eqn:Ern.
    2:{ destruct (prepare_unseeded D now x c E Ern) as [w Ew]. rewrite Ew in Hs. cbn [run_update] in Hs.
        assert (c' = c) as -> by congruence. split; [reflexivity|]. now rewrite Ern. }
    destruct (prepare_ok D now x b c s rn Ax E Eb (inv_settings _ _ _ _ _ _ _ Hi) Ern Hn) as (text & Et & Ep).
    rewrite Ep in Hs. cbn [run_update] in Hs.
    match type of Hs with (Some ?cc, _) = _ => assert (cc = c') as <- by congruence end. split; [reflexivity|discriminate].
  - assert (can_ok D c s) as Hc by (eapply inv_can_ok; [exact Hi|eapply exec_times, H]).
    destruct (login_cases D cid now sg x sk n c s HD Hc) as (c1 & r1 & E & Hout). rewrite E in Hs. cbn [run_update] in Hs.
    assert (c1 = c') as -> by congruence. destruct Hout; auto.
  - assert (c' = c) as -> by (unfold run_query in Hs; congruence). auto.
  - assert (c' = c) as -> by (unfold run_query in Hs; congruence). auto.
  - assert (c' = c) as -> by (unfold run_query in Hs; congruence). auto.
  - assert (c' = c) as -> by (unfold run_query in Hs; congruence). auto.
Qed.

(** The reply to raw_rand seeds the generator if it is the first one. *)
Lemma seeded_at D cid bef b0 i since : deps_ok D -> boot b0 i -> forall c, Forall (fun e => ~ boots e) since ->
  exec D cid (bef ++ b0 :: since) (Some c) ->
  (Forall (fun e => is_raw_rand e = false) since -> c_seeding c = true) /\
  (forall b r a seed, since = b ++ r :: a -> ev_op r = RawRand (Some seed) ->
     Forall (fun e => is_raw_rand e = false) b -> ls_rng (c_lib c) <> None).
Proof.
  intros HD Hb. induction since as [|e since IH] using rev_ind; intros c HF H.
  - apply exec_last in H as (s & H & _ & _ & _ & Hs). split; [|intros [|? ?]; discriminate]. intros _.
    destruct Hb as [[Ho|Ho] Hr]; rewrite Ho, Hr in Hs; cbn [step] in Hs.
    + unfold do_install in Hs. destruct (siwe_init D cid i) as [[s1 fl]|w]; cbn [obind] in Hs; [|congruence].
      assert (c = Provider.fresh s1 fl ∅ ∅ []) as -> by congruence. reflexivity.
    + destruct s as [c0|]; [|congruence]. unfold do_upgrade in Hs.
      destruct (siwe_init D cid i) as [[s1 fl]|w]; cbn [obind] in Hs; [|congruence].
      match type of Hs with (Some ?cc, _) = _ => assert (cc = c) as <- by congruence end. reflexivity.
  - apply List.Forall_app in HF as [HF He]. apply List.Forall_cons_iff in He as [He _].
    rewrite app_comm_cons, app_assoc in H. apply exec_last in H as (s & H & _ & Hu & _ & Hs).
    assert (exists c0, s = Some c0) as [c0 ->].
    { apply (since_boot_installed D cid _ s i since H). exists bef, b0. auto. }
    destruct (IH c0 HF H) as [I1 I2]. destruct e as [now o r]. cbn in Hu, Hs.
    assert ((exists sd, o = RawRand sd) \/ forall sd, o <> RawRand sd) as [[sd ->]|Hno].
    { destruct o; try (right; intros; discriminate). left. eauto. }
    + cbn [step] in Hs. assert (c = do_raw_rand sd c0) as -> by congruence. split.
      * rewrite List.Forall_app, List.Forall_cons_iff. intros (_ & Hx & _). discriminate.
      * intros b r0 a seed E Er Fb. apply snoc_split in E as [(<- & <- & ->)|(a' & -> & ->)].
        -- cbn in Er. assert (sd = Some seed) as -> by congruence. unfold do_raw_rand. rewrite (I1 Fb). discriminate.
        -- pose proof (I2 b r0 a' seed eq_refl Er Fb) as Hr. unfold do_raw_rand.
           destruct (c_seeding c0); [|exact Hr]. destruct sd; [discriminate|exact Hr].
    + destruct (step_seed D cid _ c0 now o c r HD H Hu He Hno Hs) as [S1 S2]. split.
      * rewrite List.Forall_app. intros [F _]. rewrite S1. auto.
      * intros b r0 a seed E Er Fb. apply snoc_split in E as [(<- & <- & ->)|(a' & -> & ->)].
        -- cbn in Er. now destruct (Hno (Some seed)).
        -- apply S2. eapply I2; eauto.
Qed.

Lemma seeded D cid tr c i since b r a seed : deps_ok D -> exec D cid tr (Some c) -> since_boot tr i since ->
  since = b ++ r :: a -> ev_op r = RawRand (Some seed) -> Forall (fun e => forall o, ev_op e <> RawRand o) b ->
  ls_rng (c_lib c) <> None.
Proof.
  intros HD H (bef & b0 & -> & Hb & HF) E Er Fb. eapply (seeded_at D cid bef b0 i since HD Hb c HF H); eauto.
  revert Fb. apply List.Forall_impl. intros e Fe. unfold is_raw_rand. destruct (ev_op e) eqn:Eo; auto. now destruct (Fe seed0).
Qed.
