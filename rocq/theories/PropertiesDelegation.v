(** C35-C38 and C48: fetching delegations. *)
From Coq Require Import Strings.String ZifyBool ZifyN ZifyNat.
From Verif Require Import Base BaseLemmas Deps Hex Eth Hash HashTree RbTree SigMap Time3339 Settings Siwe Encode
  Delegation Login Provider SpecEth EthProofs SpecHash DelegationProofs SpecWire WireProofs SpecTree SigMapProofs
  MapRuns SpecSiwe SiweProofs SpecInit SettingsProofs SpecTrace LoginProofs ProviderProofs TraceProofs LoginTheory
  DelegationTheory Sha2 Concrete Scripts Demo.
Local Open Scope N_scope.

(** ** C35  Delegations are only issued to logged-in sessions *)

(** Behind every delegation handed out there is a successful login since the last install
    or upgrade, at most a minute ago, by the same address with the same session key and
    the same expiration (or named inputs collide); the delegation carries that key and
    expiration and the configured targets. *)
Theorem C35_logged_in : forall D cid tr e s cert x sk exp r, deps_ok D ->
  exec D cid (tr ++ [e]) s -> delegated e cert x sk exp r ->
  exists i since before l after sg x' sk' n exp' pk t,
    since_boot tr i since /\ since = before ++ l :: after /\ logged_in l sg x' sk' n exp' pk /\
    ev_time l <= ev_time e <= ev_time l + one_minute /\
    targets_of i t /\ sd_delegation r = mkDelegation sk exp t /\
    (x' = x \/ identity_collision D i x' x) /\
    ((sk' = sk /\ exp' = exp) \/ delegation_collision D t sk' exp' sk exp).
Proof.
  intros D cid tr e s cert x sk exp r HD H Hd.
  destruct (delegated_explained D cid tr e s cert x sk exp r HD H Hd)
    as (c & i & st & since & b & dh & w & ops & H0 & Hi & Hs & Ha & Hk & He & Edh & Hh & Hrun & Ew & Er).
  destruct (witness_entry D ops _ _ _ dh w Hrun Ew) as (t & Hput & Hnow).
  pose proof (inv_init _ _ _ _ _ _ _ Hi) as Hin.
  destruct (put_origin D cid i st _ since ops t x b sk exp dh HD Hin Hh Ha He Edh Hput)
    as (bef & l & aft & sg & x' & sk' & n & exp' & pk & Es & Hl & Ht & Hx & Hsk).
  exists i, since, bef, l, aft, sg, x', sk', n, exp', pk, (s_targets st).
  do 3 (split; [assumption|]). split; [|split; [eapply targets_installed, Hin|split; [now rewrite Er|auto]]].
  split; [|unfold u64_max in Hnow; lia].
  apply exec_last in H as (s0 & _ & Htm & _). apply since_boot_sub in Hs as [k ->]. rewrite List.Forall_forall in Htm.
  apply Htm. rewrite Es. apply in_app_iff. right. apply in_app_iff. right. left. reflexivity.
Qed.

(** Concrete: Alice fetches hers, three seconds after logging in. *)
Example C35_case : exists s r sg x n exp pk, exec CD demo_cid (take 7 demo_tr ++ [demo_at 7]) (Some s) /\
  delegated (demo_at 7) (bs "cert") x key1 exp r /\ logged_in (demo_at 4) sg x key1 n exp pk /\
  sd_delegation r = mkDelegation key1 (1802 * sec) None.
Proof.
  destruct (demo_snoc 7) as [s Hs]; [lia|]. do 7 eexists. split; [exact Hs|].
  split; [split; reflexivity|]. split; [split; reflexivity|]. reflexivity.
Qed.

(** ** C36  A successful login's delegation can be fetched for a minute *)

Definition C36_claim (D : Deps) : Prop := forall cid tr1 l tr2 e s sg x sk n exp pk cert,
  exec D cid (tr1 ++ l :: tr2 ++ [e]) s -> logged_in l sg x sk n exp pk ->
  Forall (fun e => ~ boots e) tr2 -> ev_op e = GetDelegation (Some cert) x sk exp ->
  ev_time e < ev_time l + one_minute -> exists r, delegated e cert x sk exp r.

(** It holds for the first login of a session since the last install or upgrade, that is,
    if no earlier login succeeded for the same address and session key with the same
    expiration (up to the last nanosecond of 64-bit time, and unless an earlier login
    collides with this one).  Missing: logins that repeat an earlier session. *)
Theorem C36_available_partial : forall D cid tr1 l tr2 e s sg x sk n exp pk cert i since, deps_ok D ->
  exec D cid (tr1 ++ l :: tr2 ++ [e]) s -> logged_in l sg x sk n exp pk ->
  Forall (fun e => ~ boots e) tr2 -> since_boot tr1 i since ->
  (forall l' sg' n' pk', In l' since -> ~ logged_in l' sg' x sk n' exp pk') ->
  ev_op e = GetDelegation (Some cert) x sk exp ->
  ev_time e < ev_time l + one_minute -> ev_time e < u64_max ->
  (exists r, delegated e cert x sk exp r) \/
  (exists l' sg' x' sk' n' exp' pk' t, In l' since /\ logged_in l' sg' x' sk' n' exp' pk' /\ targets_of i t /\
     (x' = x \/ identity_collision D i x' x) /\
     ((sk' = sk /\ exp' = exp) \/ delegation_collision D t sk' exp' sk exp) /\
     ~ (x' = x /\ sk' = sk /\ exp' = exp)).
Proof.
  intros D cid tr1 l tr2 e s sg x sk n exp pk cert i since HD H Hl Hnb Hs1 Hfirst Ho Hm Hmax.
  rewrite app_comm_cons, app_assoc in H.
  destruct (exec_event D cid _ e s HD H) as (s0 & H0 & Hst & Htimes & _).
  (* the login *)
  destruct (exec_at _ _ _ _ _ _ H0) as [sl Hlog].
  destruct (login_explained D cid tr1 l sl sg x sk n exp pk HD Hlog Hl)
    as (i' & st' & fl & since' & bef & p & aft & x' & b & b' & n' & text & Hs & Hin & _ & _ & Ha & _ & _ & _ & _ & _ & Hkey & _ & Eexp & _).
  destruct (since_boot_fun _ _ _ _ _ Hs1 Hs) as [<- <-].
  (* the state before the fetch *)
  assert (since_boot (tr1 ++ l :: tr2) i (since ++ l :: tr2)) as Hsb.
  { destruct Hs1 as (bf & bb & -> & Hb & HF). exists bf, bb. rewrite <- app_assoc. split; [reflexivity|].
    split; [assumption|]. apply List.Forall_app. split; [assumption|]. constructor; [|assumption].
    intros (i0 & [E|E] & _); destruct Hl; congruence. }
  destruct (exec_since D cid _ s0 i _ HD H0 Hsb) as (c & st & -> & Hi & Hc).
  destruct (inv_sigs _ _ _ _ _ _ _ Hi) as (ops & Hh & Hrun).
  destruct (map_history_split D cid st since l tr2 ops Hh) as (ops1 & o & ops2 & -> & Hh1 & Hev & Ht2 & Hdel).
  inversion Hev as [sg1 x1 sk1 n1 exp1 pk1 dh Hl1 Epk Hb Hexp Edh|Hrej|Hno]; subst o.
  2:{ destruct Hrej as (? & ? & ? & ? & ? & _ & _ & Hr). destruct Hl. congruence. }
  2:{ contradiction Hno. red. eauto 10. }
  assert (x1 = x /\ sk1 = sk /\ exp1 = exp) as (-> & -> & ->).
  { destruct Hl as [Lo Lr], Hl1 as [Lo1 Lr1]. rewrite Lo in Lo1. rewrite Lr in Lr1. split; [congruence|]. split; congruence. }
  pose proof (inv_init _ _ _ _ _ _ _ Hi) as Hin'.
  rewrite (seed_of_user D cid i st _ x Hin') in Hrun.
  set (k := d_sha256 D (user_seed D i x)) in *.
  assert ((exists t', In (MPut t' k dh) ops1) \/ forall t', ~ In (MPut t' k dh) ops1) as [[t' Hin1]|Hnew].
  { clear. induction ops1 as [|op ops1 IH]; [right; auto|]. destruct IH as [[t' IH]|IH]; [left; exists t'; now right|].
    destruct op as [t a d|a d|t m].
    - destruct (decide (a = k)) as [->|Na]; [destruct (decide (d = dh)) as [->|Nd]|].
      + left. exists t. now left.
      + right. intros t' [E|E]; [congruence|now apply (IH t')].
      + right. intros t' [E|E]; [congruence|now apply (IH t')].
    - right. intros t' [E|E]; [congruence|now apply (IH t')].
    - right. intros t' [E|E]; [congruence|now apply (IH t')]. }
  - (* an earlier login under the same keys *)
    right. destruct (put_origin D cid i st _ since ops1 t' x b sk exp dh HD Hin' Hh1 Ha Hexp Edh Hin1)
      as (bef' & l' & aft' & sg' & x1 & sk' & n1' & exp' & pk' & Es & Hl' & _ & Hx & Hsk).
    assert (In l' since) as Il by (rewrite Es; apply in_app_iff; right; left; reflexivity).
    exists l', sg', x1, sk', n1', exp', pk', (s_targets st). do 2 (split; [assumption|]).
    split; [eapply targets_installed, Hin'|]. do 2 (split; [assumption|]).
    intros (-> & -> & ->). now apply (Hfirst l' sg' n1' pk').
  - left. rewrite run_map_app in Hrun. destruct (run_map_abs D ops1) as (m1 & E1 & Hok1 & _). rewrite E1 in Hrun.
    cbn [obind app] in Hrun. change (MPrune (ev_time l) 10 :: MPut (ev_time l) k dh :: ops2)
      with ([MPrune (ev_time l) 10] ++ MPut (ev_time l) k dh :: ops2) in Hrun.
    rewrite run_map_app in Hrun.
    destruct (run_map_abs D (ops1 ++ [MPrune (ev_time l) 10])) as (m2 & E2 & Hok2 & _).
    pose proof E2 as E2'. rewrite run_map_app, E1 in E2'. cbn [obind] in E2'. rewrite E2' in Hrun. cbn [obind] in Hrun.
    destruct (fresh_available D (ops1 ++ [MPrune (ev_time l) 10]) m2 (ev_time l) k dh ops2 (ev_time e) (c_sigs c) E2)
      as [Hhas Hexpd]; [| |  | |assumption|].
    + intros t' Hin1. apply in_app_iff in Hin1 as [Hin1|[Hin1|[]]]; [now apply Hnew in Hin1|discriminate].
    + exact Hdel.
    + intros op t' Hop Ht'. destruct (Ht2 op t' Hop Ht') as (e' & Ie & <-).
      rewrite List.Forall_forall in Htimes. split.
      * apply in_split in Ie as (a1 & a2 & Ea). rewrite Ea in H0. eapply exec_mono, H0.
      * apply Htimes. apply in_app_iff. right. right. assumption.
    + lia.
    + destruct (witness_has D (ev_time e) (c_sigs c) (user_seed D i x) dh (ok_sigs _ _ _ Hc) Hhas Hexpd) as [w Ew].
      rewrite <- (seed_of_user D cid i st _ x Hin') in Ew.
      assert (exp <> 0) as Hne.
      { rewrite Eexp. pose proof (acc_session _ _ (init_acceptable _ _ _ _ _ Hin)) as Hses.
        rewrite (init_session _ _ _ _ _ Hin) in Hses. fold (session_window i) in Hses.
        unfold sat_add, u64_max. lia. }
      pose proof (get_delegation_succeeds D (ev_time e) cert x b sk exp c st dh w HD (inv_settings _ _ _ _ _ _ _ Hi) Ha Hkey Hne Edh Ew) as Eg.
      rewrite Ho in Hst. cbn [step] in Hst. rewrite Eg in Hst. unfold run_query in Hst. eexists. split; [assumption|].
      symmetry. eapply (f_equal snd) in Hst. exact Hst.
Qed.

(** Concrete: Alice's login, two failed attempts for Bob, then her fetch. *)
Example C36_case : exists s sg x n exp pk, exec CD demo_cid (take 4 demo_tr ++ demo_at 4 :: take 2 (drop 5 demo_tr) ++ [demo_at 7]) s /\
  logged_in (demo_at 4) sg x key1 n exp pk /\ Forall (fun e => ~ boots e) (take 2 (drop 5 demo_tr)) /\
  since_boot (take 4 demo_tr) demo_input (take 3 (drop 1 demo_tr)) /\
  (forall l' sg' n' pk', In l' (take 3 (drop 1 demo_tr)) -> ~ logged_in l' sg' x key1 n' exp pk') /\
  ev_op (demo_at 7) = GetDelegation (Some (bs "cert")) x key1 exp /\
  ev_time (demo_at 7) < ev_time (demo_at 4) + one_minute /\ ev_time (demo_at 7) < u64_max.
Proof.
  destruct (demo_snoc 7) as [s Hs]; [lia|]. do 6 eexists. split; [exact Hs|].
  split; [split; reflexivity|]. split.
  { repeat constructor; intros (i & [E|E] & _); discriminate. }
  split; [apply (demo_since 4); lia|]. split.
  { intros l' sg' n' pk' [<-|[<-|[<-|[]]]] [Ho _]; discriminate. }
  split; [reflexivity|]. split; vm_compute; reflexivity.
Qed.

(** Histories given by a script. *)
Lemma script_exec script : script_ok 0 script = true ->
  exec CD demo_cid (fst (play CD demo_cid script None)) (snd (play CD demo_cid script None)).
Proof. intros H. apply (play_exec _ _ script); [assumption|]. apply surjective_pairing. Qed.

(** Alice asks for two messages in the same instant and logs in with both, 30 seconds
    apart, for the same session key: the two delegations are the same. *)
Definition twice_script : list (N * op) := Eval vm_compute in stage CD demo_cid
  [(0, Do (Install demo_input)); (1 * sec, Do (RawRand (Some (repeat x07 32))));
   (2 * sec, Prepare alice); (2 * sec, Prepare alice);
   (3 * sec, LoginWith 2 alice alice key1);
   (33 * sec, LoginWith 3 alice alice key1);
   (64 * sec, Fetch alice key1 (1802 * sec))] [] None.
Definition twice_tr : list event := Eval vm_compute in fst (play CD demo_cid twice_script None).

Lemma twice_exec : exists s, exec CD demo_cid twice_tr s.
Proof.
  exists (snd (play CD demo_cid twice_script None)).
  assert (fst (play CD demo_cid twice_script None) = twice_tr) as <- by (vm_compute; reflexivity).
  apply script_exec. vm_compute. reflexivity.
Qed.

(** False in general: 31 seconds after the second login its delegation is reported
    expired, because the first login's entry for the same pair has expired. *)
Theorem C36_available_refuted : ~ C36_claim CD.
Proof.
  intros Hc. destruct twice_exec as [s H].
  edestruct (Hc demo_cid (take 5 twice_tr) (nth 5 twice_tr (demo_at 0)) [] (nth 6 twice_tr (demo_at 0)) s) as [r [_ Hr]].
  - exact H.
  - split; reflexivity.
  - constructor.
  - reflexivity.
  - vm_compute. reflexivity.
  - discriminate Hr.
Qed.

(** ** C37  The certified data always matches the signature map *)

Definition C37_claim (D : Deps) (hyp : list event -> Prop) : Prop :=
  forall cid tr e s c cert x sk exp r i since,
  exec D cid tr (Some c) -> exec D cid (tr ++ [e]) s -> delegated e cert x sk exp r -> since_boot tr i since ->
  blen cert < 2 ^ 64 -> hyp since ->
  exists tree, canister_signature_decode (sd_signature r) = Some (cert, tree) /\
    tree_hash (d_sha256 D) tree = c_certified c.

Lemma exec_fun D cid tr : forall s1 s2, exec D cid tr s1 -> exec D cid tr s2 -> s1 = s2.
Proof.
  induction tr as [|e tr IH] using rev_ind; intros s1 s2 H1 H2.
  - inversion H1 as [E1 E2|? ? ? ? ? ? ? ? ? ? ? E]; [|destruct tr; discriminate].
    inversion H2 as [E3 E4|? ? ? ? ? ? ? ? ? ? ? E]; [reflexivity|destruct tr; discriminate].
  - apply exec_last in H1 as (t1 & G1 & _ & _ & _ & S1), H2 as (t2 & G2 & _ & _ & _ & S2).
    rewrite (IH _ _ G1 G2) in S1. congruence.
Qed.

(** The decoded signature of a fetched delegation. *)
Lemma delegated_tree D cid tr e s c cert x sk exp r : deps_ok D ->
  exec D cid tr (Some c) -> exec D cid (tr ++ [e]) s -> delegated e cert x sk exp r -> blen cert < 2 ^ 64 ->
  exists i st since dh tree, inv D cid tr c i st since /\
    create_delegation_hash D (mkDelegation sk exp (s_targets st)) = Done dh /\ exp <= u64_max /\
    sd_delegation r = mkDelegation sk exp (s_targets st) /\
    canister_signature_decode (sd_signature r) = Some (cert, tree) /\ well_formed tree /\ digests32 tree /\
    tree_hash (d_sha256 D) tree = root_hash D (c_sigs c) /\
    lookup_found [LABEL_SIG; d_sha256 D (user_seed D i x); dh] tree [] /\
    (exists l, In l since /\ login_succeeds l).
Proof.
  intros HD Hc H Hd Hcert.
  destruct (delegated_explained D cid tr e s cert x sk exp r HD H Hd)
    as (c' & i & st & since & b & dh & w & ops & H0 & Hi & Hs & Ha & Hk & He & Edh & Hh & Hrun & Ew & ->).
  assert (c' = c) as -> by (pose proof (exec_fun _ _ _ _ _ Hc H0); congruence).
  destruct (witness_entry D ops _ _ _ dh w Hrun Ew) as (t & Hput & _).
  destruct (map_history_login D cid st since ops t _ _ Hh Hput) as (l & Il & Hl & _).
  destruct (run_map_inv D ops _ Hrun) as (Hok & _ & _).
  destruct (witness_ok D _ _ _ _ _ Hok Ew) as (_ & _ & Hsw & Hrec & Hlk & Hwf).
  exists i, st, since, dh, (delegation_tree D w).
  do 3 (split; [assumption|]). split; [reflexivity|]. cbn [sd_signature]. split.
  { apply cbor_signature_decodes; [assumption|]. apply (delegation_tree_small D w HD).
    eapply (sm_witness_small D); [assumption|exact Hok| |exact Hsw].
    eapply history_lengths; [exact HD|exact Hh|exact Hrun]. }
  split; [now apply delegation_tree_wf|].
  split; [split; [apply (sha256_len _ HD)|apply (sm_witness_digests D (c_sigs c) (d_sha256 D (user_seed D i x)) dh w); [assumption|exact Hok|exact Hsw]]|].
  split; [now apply delegation_tree_hash|].
  split; [now apply delegation_tree_lookup|]. eauto.
Qed.

(** It holds if every login that was refused for its session key, and that came a
    minute or more after some successful login, was followed by a successful login.
    Missing: the time between such a refused login and the next successful one. *)
Theorem C37_in_sync_partial : forall D, deps_ok D -> C37_claim D (resynced D).
Proof.
  intros D HD cid tr e s c cert x sk exp r i since Hc H Hd Hs Hcert Hr.
  destruct (delegated_tree D cid tr e s c cert x sk exp r HD Hc H Hd Hcert)
    as (i' & st & since' & dh & tree & Hi & _ & _ & _ & Ed & _ & _ & Eh & _ & l & Il & Hl).
  destruct (since_boot_fun _ _ _ _ _ Hs (inv_since _ _ _ _ _ _ _ Hi)) as [<- <-].
  exists tree. split; [assumption|]. rewrite Eh. symmetry. eapply resynced_certified; eassumption.
Qed.

(** Concrete: nobody was refused for a session key before Alice's fetch. *)
Example C37_case : exists s c x exp r, exec CD demo_cid (take 7 demo_tr) (Some c) /\
  exec CD demo_cid (take 7 demo_tr ++ [demo_at 7]) s /\ delegated (demo_at 7) (bs "cert") x key1 exp r /\
  since_boot (take 7 demo_tr) demo_input (take 6 (drop 1 demo_tr)) /\ resynced CD (take 6 (drop 1 demo_tr)).
Proof.
  destruct (demo_snoc 7) as [s Hs]; [lia|]. destruct (demo_prefix 7) as [c Hc]; [lia|]. do 5 eexists.
  split; [exact Hc|]. split; [exact Hs|]. split; [split; reflexivity|]. split; [apply (demo_since 7); lia|].
  intros bef e aft E [Hrej _]. exfalso.
  assert (In e (take 6 (drop 1 demo_tr))) as Hin by (rewrite E; apply in_app_iff; right; left; reflexivity).
  destruct Hrej as (sg & x & sk & n & t & _ & _ & Hr).
  assert (Forall (fun e => match ev_reply e with
    | RLogin (Err m) => bool_decide (take 9 m = bs "Invalid s") = false | _ => True end) (take 6 (drop 1 demo_tr))) as HF.
  { repeat constructor. }
  rewrite List.Forall_forall in HF. specialize (HF e Hin). rewrite Hr in HF. discriminate HF.
Qed.

(** Alice logs in, Bob logs in 30 seconds later, and a minute after her login Alice
    makes another attempt whose session key is refused: that attempt prunes her entry
    from the signature map but leaves the certified data as it was.  Then Bob fetches. *)
Definition stale_script : list (N * op) := Eval vm_compute in stage CD demo_cid
  [(0, Do (Install demo_input)); (1 * sec, Do (RawRand (Some (repeat x07 32))));
   (2 * sec, Prepare alice); (2 * sec, Prepare bob); (2 * sec, Prepare alice);
   (3 * sec, LoginWith 2 alice alice key1);
   (33 * sec, LoginWith 3 bob bob key2);
   (63 * sec, LoginWith 4 alice alice []);
   (64 * sec, Fetch bob key2 (1802 * sec))] [] None.
Definition stale_tr : list event := Eval vm_compute in fst (play CD demo_cid stale_script None).
Definition stale_certified : option bytes := Eval vm_compute in
  option_map c_certified (snd (play CD demo_cid (take 8 stale_script) None)).
Definition stale_reply : SignedDelegation := Eval vm_compute in
  match ev_reply (nth 8 stale_tr (demo_at 0)) with RDelegation (Ok r) => r | _ => mkSigned (mkDelegation [] 0 None) [] end.

Lemma stale_exec : exists c s, exec CD demo_cid (take 8 stale_tr) (Some c) /\ Some (c_certified c) = stale_certified /\
  exec CD demo_cid (take 8 stale_tr ++ [nth 8 stale_tr (demo_at 0)]) s.
Proof.
  assert (exec CD demo_cid (fst (play CD demo_cid (take 8 stale_script) None)) (snd (play CD demo_cid (take 8 stale_script) None))) as H.
  { apply script_exec. vm_compute. reflexivity. }
  assert (fst (play CD demo_cid (take 8 stale_script) None) = take 8 stale_tr) as E by (vm_compute; reflexivity).
  assert (option_map c_certified (snd (play CD demo_cid (take 8 stale_script) None)) = stale_certified) as Ec by (vm_compute; reflexivity).
  rewrite E in H. destruct (snd (play CD demo_cid (take 8 stale_script) None)) as [c|]; [|discriminate Ec].
  exists c, (snd (play CD demo_cid stale_script None)). split; [exact H|]. split; [exact Ec|].
  assert (fst (play CD demo_cid stale_script None) = take 8 stale_tr ++ [nth 8 stale_tr (demo_at 0)]) as <- by (vm_compute; reflexivity).
  apply script_exec. vm_compute. reflexivity.
Qed.

(** False in general: Bob's delegation does not match the certified data. *)
Theorem C37_in_sync_refuted : ~ C37_claim CD (fun _ => True).
Proof.
  intros Hc. destruct stale_exec as (c & s & H1 & Ec & H2).
  edestruct (Hc demo_cid (take 8 stale_tr) (nth 8 stale_tr (demo_at 0)) s c (bs "cert")) as (tree & Ed & Eh).
  - exact H1.
  - exact H2.
  - split; reflexivity.
  - exists [], (nth 0 stale_tr (demo_at 0)). split; [reflexivity|]. split; [split; [left; reflexivity|reflexivity]|].
    repeat constructor; intros (i & [E|E] & _); discriminate.
  - vm_compute. reflexivity.
  - exact I.
  - assert (match canister_signature_decode (sd_signature stale_reply), stale_certified with
      | Some (_, t), Some h => bytes_eqb (tree_hash sha256 t) h | _, _ => true end = false) as Hno by (vm_compute; reflexivity).
    change (sd_signature _) with (sd_signature stale_reply) in Ed. rewrite Ed, <- Ec in Hno. cbn [d_sha256 CD] in Eh.
    rewrite Eh, bytes_eqb_refl in Hno. discriminate.
Qed.

(** ** C38  A fetched delegation verifies as an IC canister signature *)

Theorem C38_verifies : forall D cid tr e s c cert x sk exp r i since l sg sk' n exp' pk, deps_ok D ->
  exec D cid tr (Some c) -> exec D cid (tr ++ [e]) s -> delegated e cert x sk exp r ->
  since_boot tr i since -> resynced D since -> In l since -> logged_in l sg x sk' n exp' pk ->
  (length cid <= 29)%nat -> blen cert < 2 ^ 64 ->
  exists digest q,
    delegation_digest (d_sha256 D) (dl_pubkey (sd_delegation r)) (dl_expiration (sd_delegation r))
      (dl_targets (sd_delegation r)) digest q /\
    canister_signature_ok (d_sha256 D) cid (c_certified c) cert pk digest (sd_signature r).
Proof.
  intros D cid tr e s c cert x sk exp r i since l sg sk' n exp' pk HD Hc H Hd Hs Hr Il Hl Lc Hcert.
  destruct (delegated_tree D cid tr e s c cert x sk exp r HD Hc H Hd Hcert)
    as (i' & st & since' & dh & tree & Hi & Edh & He & Esd & Ed & Hwf & Hdg & Eh & Hlk & _).
  destruct (since_boot_fun _ _ _ _ _ Hs (inv_since _ _ _ _ _ _ _ Hi)) as [<- <-].
  destruct (create_hash_digest D (mkDelegation sk exp (s_targets st)) He) as (h & q & Eh' & Hq).
  assert (h = dh) as -> by congruence. exists dh, q. rewrite Esd. split; [exact Hq|].
  assert (pk = create_user_canister_pubkey cid (user_seed D i x)) as ->.
  { apply in_split in Il as (bef & aft & Es). destruct Hs as (b0 & b & -> & Hb & HF). rewrite Es in Hc, HF.
    rewrite app_comm_cons, app_assoc in Hc. apply exec_at in Hc as [s1 H1].
    eapply (login_pk D cid (b0 ++ b :: bef) l); [exact HD|exact H1|exact Hl|]. exists b0, b.
    apply List.Forall_app in HF as [HF _]. auto. }
  exists (user_seed D i x), tree. split.
  { apply pubkey_decodes; [lia|]. unfold blen, user_seed. rewrite (sha256_len _ HD). vm_compute. reflexivity. }
  do 3 (split; [assumption|]). split; [|exact Hlk]. rewrite Eh. symmetry.
  eapply (resynced_certified D cid tr c i st since l); [exact Hi|exact Hr|exact Il|]. red. eauto 10.
Qed.

(** Concrete: Alice's delegation, checked against the hypotheses and computed. *)
Example C38_case : exists c s x exp r sg n pk,
  exec CD demo_cid (take 7 demo_tr) (Some c) /\ exec CD demo_cid (take 7 demo_tr ++ [demo_at 7]) s /\
  delegated (demo_at 7) (bs "cert") x key1 exp r /\ In (demo_at 4) (take 6 (drop 1 demo_tr)) /\
  logged_in (demo_at 4) sg x key1 n exp pk /\ (length demo_cid <= 29)%nat /\
  match canister_pubkey_decode pk, canister_signature_decode (sd_signature r) with
  | Some (id, seed), Some (certificate, HFork _ (HLabeled l1 (HLabeled l2 (HLabeled l3 (HLeaf v))))) =>
      id = demo_cid /\ certificate = bs "cert" /\ l1 = bs "sig" /\ l2 = sha256 seed /\ v = []
  | _, _ => False
  end.
Proof.
  destruct (demo_snoc 7) as [s Hs]; [lia|]. destruct (demo_prefix 7) as [c Hc]; [lia|]. do 8 eexists.
  split; [exact Hc|]. split; [exact Hs|]. split; [split; reflexivity|]. split; [right; right; right; left; reflexivity|].
  split; [split; reflexivity|]. split; [vm_compute; lia|]. vm_compute. auto 10.
Qed.

(** ** C48  Delegations never outlive their configuration *)

(** A delegation fetched after an install or upgrade [u] belongs to a login after [u]. *)
Theorem C48_delegations : forall D cid tr1 u tr2 e s cert x sk exp r, deps_ok D ->
  exec D cid (tr1 ++ u :: tr2 ++ [e]) s -> boots u -> delegated e cert x sk exp r ->
  exists i l sg x' sk' n exp' pk t, In l tr2 /\ logged_in l sg x' sk' n exp' pk /\
    (exists since, since_boot (tr1 ++ u :: tr2) i since) /\ targets_of i t /\
    (x' = x \/ identity_collision D i x' x) /\
    ((sk' = sk /\ exp' = exp) \/ delegation_collision D t sk' exp' sk exp).
Proof.
  intros D cid tr1 u tr2 e s cert x sk exp r HD H Hu Hd. rewrite app_comm_cons, app_assoc in H.
  destruct (C35_logged_in D cid _ e s cert x sk exp r HD H Hd)
    as (i & since & bef & l & aft & sg & x' & sk' & n & exp' & pk & t & Hs & Es & Hl & _ & Ht & _ & Hx & Hsk).
  exists i, l, sg, x', sk', n, exp', pk, t. destruct (since_boot_suffix _ _ _ _ _ Hu Hs) as [k Ek]. split.
  { rewrite Ek, Es. apply in_app_iff. right. apply in_app_iff. right. left. reflexivity. }
  split; [assumption|]. split; [eauto|]. auto.
Qed.

(** A login after [u] uses a message prepared after [u]. *)
Theorem C48_messages : forall D cid tr1 u tr2 e s sg x sk n exp pk, deps_ok D ->
  exec D cid (tr1 ++ u :: tr2 ++ [e]) s -> boots u -> logged_in e sg x sk n exp pk ->
  exists p x' n' text b b', In p tr2 /\ prepared p x' text n' /\ recovers D text sg x /\
    address_text D x b /\ address_text D x' b' /\
    ((x' = x /\ n' = n) \/ collision (d_sha256 D) (message_key_input b' n') (message_key_input b n)).
Proof.
  intros D cid tr1 u tr2 e s sg x sk n exp pk HD H Hu Hl. rewrite app_comm_cons, app_assoc in H.
  destruct (login_explained D cid _ e s sg x sk n exp pk HD H Hl)
    as (i & st & fl & since & bef & p & aft & x' & b & b' & n' & text & Hs & _ & Es & Hp & Ha & Ha' & Ek & _ & _ & Rx & _).
  exists p, x', n', text, b, b'. destruct (since_boot_suffix _ _ _ _ _ Hu Hs) as [k Ek']. split.
  { rewrite Ek', Es. apply in_app_iff. right. apply in_app_iff. right. left. reflexivity. }
  do 4 (split; [assumption|]). now apply key_or_collision.
Qed.

(** Concrete: two messages, a login and an upgrade; the delegation is gone, the other
    message is gone, and signing in again works. *)
Definition upgrade_script : list (N * op) := Eval vm_compute in stage CD demo_cid
  [(0, Do (Install demo_input)); (1 * sec, Do (RawRand (Some (repeat x07 32))));
   (2 * sec, Prepare alice); (2 * sec, Prepare bob);
   (3 * sec, LoginWith 2 alice alice key1);
   (4 * sec, Do (Upgrade demo_input)); (5 * sec, Do (RawRand (Some (repeat x08 32))));
   (6 * sec, Fetch alice key1 (1802 * sec));
   (7 * sec, LoginWith 3 bob bob key2);
   (8 * sec, Prepare alice);
   (9 * sec, LoginWith 9 alice alice key1);
   (10 * sec, Fetch alice key1 (1808 * sec))] [] None.
Definition upgrade_tr : list event := Eval vm_compute in fst (play CD demo_cid upgrade_script None).

Example C48_case : exists s u tr2 e x exp r, exec CD demo_cid upgrade_tr s /\
  upgrade_tr = take 5 upgrade_tr ++ u :: tr2 ++ [e] /\ ev_op u = Upgrade demo_input /\ ev_reply u = RDone /\
  delegated e (bs "cert") x key1 exp r /\
  ev_reply (nth 7 upgrade_tr (demo_at 0)) = RDelegation (Err (bs "Signature not found")) /\
  ev_reply (nth 8 upgrade_tr (demo_at 0)) = RLogin (Err (bs "Message not found")).
Proof.
  assert (fst (play CD demo_cid upgrade_script None) = upgrade_tr) as E by (vm_compute; reflexivity).
  eexists _, (nth 5 upgrade_tr (demo_at 0)), (take 5 (drop 6 upgrade_tr)), (nth 11 upgrade_tr (demo_at 0)), _, _, _.
  split; [rewrite <- E; apply script_exec; vm_compute; reflexivity|].
  split; [reflexivity|]. split; [reflexivity|]. split; [reflexivity|]. split; [split; reflexivity|].
  split; reflexivity.
Qed.

Print Assumptions C35_logged_in.
Print Assumptions C36_available_partial.
Print Assumptions C36_available_refuted.
Print Assumptions C37_in_sync_partial.
Print Assumptions C37_in_sync_refuted.
Print Assumptions C38_verifies.
Print Assumptions C48_delegations.
Print Assumptions C48_messages.
