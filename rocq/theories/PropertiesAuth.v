(** C61-C63: what a replica that accepts a request signed with a session key may conclude. *)
From Coq Require Import Strings.String ZifyBool ZifyN ZifyNat.
From Verif Require Import Base BaseLemmas Deps Hex Eth Hash HashTree RbTree SigMap Time3339 Settings Siwe Encode
  Delegation Login Provider SpecEth EthProofs SpecHash DelegationProofs SpecWire WireProofs SpecTree SigMapProofs
  MapRuns SpecSiwe SiweProofs SpecInit SettingsProofs SpecTrace LoginProofs ProviderProofs TraceProofs LoginTheory
  DelegationTheory MappingProofs CallProofs SpecAuth MerkleProofs Concrete Scripts Demo
  PropertiesLogin PropertiesDelegation PropertiesMappings.
Local Open Scope N_scope.

(** ** C61: every accepted delegation has a login behind it *)

Lemma sm_has_login D cid tr c a dh : deps_ok D -> exec D cid tr (Some c) -> sm_has (c_sigs c) a dh ->
  exists before l after sg x sk n exp pk i since t q,
    tr = before ++ l :: after /\ logged_in l sg x sk n exp pk /\ since_boot before i since /\ targets_of i t /\
    exp <= u64_max /\ (exists b, address_text D x b) /\
    a = d_sha256 D (user_seed D i x) /\ pk = create_user_canister_pubkey cid (user_seed D i x) /\
    delegation_digest (d_sha256 D) sk exp t dh q.
Proof.
  intros HD H Hh. destruct (exec_inv D cid tr c HD H) as (i & st & since & Hi).
  destruct (inv_sigs _ _ _ _ _ _ _ Hi) as (ops & Hops & Hrun).
  destruct (run_map_inv D ops _ Hrun) as (Hok & Hq & He). destruct (Hq _ _ Hh) as (e & Ie & Es & Ed).
  destruct (He e Ie) as (t & It & _). rewrite Es, Ed in It.
  destruct (map_history_put D cid st since ops t a dh Hops It)
    as (bef & l & aft & sg & x & sk & n & exp & pk & Esince & Hl & _ & Ea & Hexp & Hx & Epk & Edh).
  rewrite (seed_of_user D cid i st _ x (inv_init _ _ _ _ _ _ _ Hi)) in Ea, Epk.
  destruct (create_hash_digest D (mkDelegation sk exp (s_targets st)) Hexp) as (h & q & Eh & Hd).
  assert (h = dh) as -> by congruence.
  destruct (inv_since _ _ _ _ _ _ _ Hi) as (b0 & b & Etr & Hb & HF).
  exists (b0 ++ b :: bef), l, aft, sg, x, sk, n, exp, pk, i, bef, (s_targets st), q.
  split. { rewrite Etr, Esince, <- app_assoc. reflexivity. }
  split; [assumption|]. split.
  { exists b0, b. split; [reflexivity|]. split; [assumption|]. rewrite Esince in HF. now apply List.Forall_app in HF as [HF _]. }
  split; [exact (targets_installed _ _ _ _ _ (inv_init _ _ _ _ _ _ _ Hi))|]. auto 10.
Qed.

(** A replica accepts [d] for the owner of [pk] only if the canister performed a login:
    for the session key, the expiration and the targets of [d], and for the identity [pk]
    names, unless two different inputs of SHA-256 with the same digest are at hand. *)
Theorem C61_login_behind : forall D cid tr c certificate now target pk d, deps_ok D -> (length cid <= 29)%nat ->
  exec D cid tr (Some c) -> replica_accepts D cid (c_certified c) certificate now target pk d ->
  (exists x sk exp pk' i t, a_login tr x sk exp pk' i /\ targets_of i t /\
     canister_pubkey_decode pk = Some (cid, user_seed D i x) /\ canister_pubkey_decode pk' = Some (cid, user_seed D i x) /\
     sd_delegation d = mkDelegation sk exp t) \/
  auth_collision D cid tr certificate pk d.
Proof.
  intros D cid tr c certificate now target pk d HD Lc H (_ & _ & digest & q & Hd & seed & tree & Epk & Esg & _ & Hdg & Eh & Hlk).
  destruct (certified_origin D cid tr c HD H) as [E0|(c1 & Hlast & E1)].
  { exfalso. rewrite E0 in Eh. assert (length (tree_hash (d_sha256 D) tree) = 32%nat) as L; [|rewrite Eh in L; discriminate].
    destruct tree; cbn [tree_hash digests32] in *; try apply (sha256_len _ HD). exact Hdg. }
  pose proof Hlast as (b1 & l1 & a1 & Etr & _ & _ & Hc1).
  destruct (exec_inv D cid _ c1 HD Hc1) as (i1 & st1 & since1 & Hi1).
  destruct (inv_sigs _ _ _ _ _ _ _ Hi1) as (ops & _ & Hrun). destruct (run_map_inv D ops _ Hrun) as (Hok & _ & _).
  rewrite E1, <- (certified_tree_hash D _ Hok) in Eh.
  destruct (lookup_sound (d_sha256 D) (sha256_len _ HD) _ tree [] _ (certified_tree_complete (c_sigs c1)) Hdg Eh Hlk)
    as [Hl|C]; [|right; eapply ac_tree; eassumption].
  apply certified_tree_lookup in Hl.
  destruct (sm_has_login D cid _ c1 _ _ HD Hc1 Hl)
    as (bef & l & aft & sg & x & sk & n & exp & pk' & i & since & t & q' & El & Hlog & Hs & Ht & _ & _ & Ea & Epk' & Hd').
  assert (a_login tr x sk exp pk' i) as Hal.
  { exists bef, l, (aft ++ a1), sg, n, since. split; [|auto].
    rewrite Etr. change (l1 :: a1) with ([l1] ++ a1). rewrite app_assoc, El, <- app_assoc. reflexivity. }
  destruct (decide (seed = user_seed D i x)) as [->|Ne]; [|right; eapply ac_seed; [exact Hal|exact Epk|now split]].
  destruct (digest_binding (d_sha256 D) _ _ _ _ _ _ _ _ _ (sha256_len _ HD) Hd Hd') as [(E2 & E3 & E4)|C];
    [left|right; eapply ac_digest; eassumption].
  exists x, sk, exp, pk', i, t. do 3 (split; [assumption|]). split.
  { rewrite Epk'. apply pubkey_decodes; [lia|]. unfold blen, user_seed. rewrite (sha256_len _ HD). vm_compute. reflexivity. }
  destruct (sd_delegation d). cbn in *. congruence.
Qed.

(** In particular the wallet of the address signed a text the canister had prepared, no
    later than the login. *)
Theorem C61_wallet_signed : forall D cid tr c certificate now target pk d, deps_ok D -> (length cid <= 29)%nat ->
  exec D cid tr (Some c) -> replica_accepts D cid (c_certified c) certificate now target pk d ->
  (exists p l sg x x' sk n n' exp pk' text b b', In p tr /\ In l tr /\ prepared p x' text n' /\ ev_time p <= ev_time l /\
     logged_in l sg x sk n exp pk' /\ sk = dl_pubkey (sd_delegation d) /\ recovers D text sg x /\
     address_text D x b /\ address_text D x' b' /\
     ((x' = x /\ n' = n) \/ collision (d_sha256 D) (message_key_input b' n') (message_key_input b n))) \/
  auth_collision D cid tr certificate pk d.
Proof.
  intros D cid tr c certificate now target pk d HD Lc H Ha.
  destruct (C61_login_behind D cid tr c certificate now target pk d HD Lc H Ha)
    as [(x & sk & exp & pk' & i0 & t0 & (bef & l & aft & sg & n & _ & -> & Hl & _) & _ & _ & _ & Esd)|C]; [left|now right].
  destruct (exec_at D cid bef l aft _ H) as [s1 H1].
  destruct (C27_authenticated D cid bef l s1 sg x sk n exp pk' HD H1 Hl)
    as (i & since & b0 & p & a0 & x' & n' & text & b & b' & Hs & Es & Hp & Hr & _ & Ht & _ & Hb & Hb' & E).
  exists p, l, sg, x, x', sk, n, n', exp, pk', text, b, b'. split.
  { apply since_boot_sub in Hs as [pre ->]. rewrite Es. apply in_app_iff. left. apply in_app_iff. right.
    apply in_app_iff. right. left. reflexivity. }
  split; [apply in_app_iff; right; left; reflexivity|]. rewrite Esd. auto 12.
Qed.

(** ** C62: a fetched delegation is accepted *)

(** The delegation a logged-in user fetches is accepted until it expires, at every target
    the settings allow, and the canister then recognises the caller. *)
Theorem C62_accepted : forall D cid tr e s c cert x sk exp r i since l sg sk' n exp' pk now target, deps_ok D ->
  exec D cid tr (Some c) -> exec D cid (tr ++ [e]) s -> delegated e cert x sk exp r ->
  since_boot tr i since -> resynced D since -> In l since -> logged_in l sg x sk' n exp' pk ->
  (length cid <= 29)%nat -> blen cert < 2 ^ 64 ->
  now <= exp -> (forall t ts, targets_of i t -> t = Some ts -> In target ts) ->
  replica_accepts D cid (c_certified c) cert now target pk r.
Proof.
  intros D cid tr e s c cert x sk exp r i since l sg sk' n exp' pk now target HD Hc H Hd Hs Hr Il Hl Lc Lcert Hnow Ht.
  destruct (C38_verifies D cid tr e s c cert x sk exp r i since l sg sk' n exp' pk HD Hc H Hd Hs Hr Il Hl Lc Lcert)
    as (digest & q & Hq & Hok).
  destruct (delegated_tree D cid tr e s c cert x sk exp r HD Hc H Hd Lcert)
    as (i' & st & since' & dh & tree & Hi & _ & _ & Esd & _).
  destruct (since_boot_fun _ _ _ _ _ Hs (inv_since _ _ _ _ _ _ _ Hi)) as [<- <-].
  split; [rewrite Esd; exact Hnow|]. split.
  { rewrite Esd. cbn [dl_targets]. destruct (s_targets st) as [ts|] eqn:Ets; [|exact I].
    eapply (Ht (Some ts)); [|reflexivity]. rewrite <- Ets. exact (targets_installed _ _ _ _ _ (inv_init _ _ _ _ _ _ _ Hi)). }
  eauto.
Qed.

(** Concrete: Alice's fetched delegation, a while before it runs out. *)
Example C62_case : exists c s x exp r sg n pk,
  exec CD demo_cid (take 7 demo_tr) (Some c) /\ exec CD demo_cid (take 7 demo_tr ++ [demo_at 7]) s /\
  delegated (demo_at 7) (bs "cert") x key1 exp r /\ logged_in (demo_at 4) sg x key1 n exp pk /\
  replica_accepts CD demo_cid (c_certified c) (bs "cert") (20 * sec) (bs "any") pk r.
Proof.
  destruct C37_case as (s & c & x & exp & r & Hc & H & Hd & Hs & Hr).
  assert (exists sg n pk, logged_in (demo_at 4) sg x key1 n exp pk /\ 20 * sec <= exp) as (sg & n & pk & Hl & He).
  { destruct Hd as [Eo Er]. vm_compute in Eo. injection Eo as <- <-. do 3 eexists. split; [split; reflexivity|].
    vm_compute. discriminate. }
  exists c, s, x, exp, r, sg, n, pk. do 4 (split; [assumption|]).
  eapply (C62_accepted CD demo_cid (take 7 demo_tr) (demo_at 7) s c (bs "cert") x key1 exp r demo_input);
    [exact CD_ok|exact Hc|exact H|exact Hd|exact Hs|exact Hr| |exact Hl|vm_compute; lia|vm_compute; reflexivity|exact He|].
  - right. right. right. left. reflexivity.
  - intros t ts Ht ->. cbn in Ht. discriminate.
Qed.

(** The same request is a case of C61. *)
Example C61_case : exists tr c pk d, (length demo_cid <= 29)%nat /\ exec CD demo_cid tr (Some c) /\
  replica_accepts CD demo_cid (c_certified c) (bs "cert") (20 * sec) (bs "any") pk d.
Proof.
  destruct C62_case as (c & s & x & exp & r & sg & n & pk & Hc & _ & _ & _ & Ha).
  exists (take 7 demo_tr), c, pk, r. split; [vm_compute; lia|]. auto.
Qed.

(** ** C63: the caller's own address *)

Lemma a_login_pk D cid tr s x sk exp pk i : deps_ok D -> exec D cid tr s -> a_login tr x sk exp pk i ->
  pk = create_user_canister_pubkey cid (user_seed D i x) /\ (exists b, address_text D x b) /\
  exists e, In e tr /\ boot e i.
Proof.
  intros HD H (bef & l & aft & sg & n & since & -> & Hl & Hs). destruct (exec_at D cid bef l aft _ H) as [s1 H1].
  split; [exact (login_pk D cid bef l s1 sg x sk n exp pk i since HD H1 Hl Hs)|].
  destruct (C27_authenticated D cid bef l s1 sg x sk n exp pk HD H1 Hl)
    as (_ & _ & _ & _ & _ & _ & _ & _ & b & _ & _ & _ & _ & _ & _ & _ & _ & Hb & _).
  split; [eauto|]. destruct Hs as (b0 & e & -> & He & _). exists e. split; [|assumption].
  rewrite <- app_assoc. apply in_app_iff. right. left. reflexivity.
Qed.

Lemma a_login_more tr tr' x sk exp pk i : a_login tr x sk exp pk i -> a_login (tr ++ tr') x sk exp pk i.
Proof.
  intros (bef & l & aft & sg & n & since & -> & R). exists bef, l, (aft ++ tr'), sg, n, since.
  split; [now rewrite <- app_assoc|exact R].
Qed.

(** Whoever is let in with a delegation and asks for its own address hears the address
    of the wallet that approved the session key.  The request may reach the canister
    later than the delegation was checked. *)
Theorem C63_caller : forall D cid tr tr' c0 c certificate now target pk d now' y, deps_ok D -> (length cid <= 29)%nat ->
  exec D cid tr (Some c0) -> replica_accepts D cid (c_certified c0) certificate now target pk d ->
  exec D cid (tr ++ tr') (Some c) ->
  (forall e j, In e (tr ++ tr') -> boot e j -> (length (in_salt j) < 256)%nat) ->
  snd (step D cid now' (GetCallerAddress (principal_of D pk)) (Some c)) = Provider.RText (Ok y) ->
  (exists sk exp pk' i t, a_login tr y sk exp pk' i /\ targets_of i t /\ sd_delegation d = mkDelegation sk exp t) \/
  auth_collision D cid tr certificate pk d \/ address_collision D (tr ++ tr') pk.
Proof.
  intros D cid tr tr' c0 c certificate now target pk d now' y HD Lc H0 Ha H Hsalt Hq.
  destruct (C61_login_behind D cid tr c0 certificate now target pk d HD Lc H0 Ha)
    as [(x & sk & exp & pk1 & i & t & Hx & Ht & Epk & _ & Esd)|C]; [|auto].
  destruct (C41_logged_in D cid (tr ++ tr') c y _ HD H (or_intror (or_introl (ex_intro _ now' Hq))))
    as (l & sg & sk' & n & exp' & pk2 & Il & Hl & Ep).
  assert (exists j, a_login (tr ++ tr') y sk' exp' pk2 j) as [j Hy].
  { apply in_split in Il as (bef & aft & E). rewrite E in H. destruct (exec_at D cid bef l aft _ H) as [s1 H1].
    destruct (C27_authenticated D cid bef l s1 sg y sk' n exp' pk2 HD H1 Hl) as (j & since & _ & _ & _ & _ & _ & _ & _ & _ & Hs & _).
    exists j, bef, l, aft, sg, n, since. auto. }
  unfold principal_of in Ep. apply app_inj_tail in Ep as [Ep _].
  destruct (decide (pk = pk2)) as [->|Ne]; [|right; right; eapply dc_principal; [exact Hy|now split]].
  pose proof (a_login_more tr tr' _ _ _ _ _ Hx) as Hx'.
  destruct (a_login_pk D cid _ _ _ _ _ _ _ HD H Hx') as (_ & (b & Hb) & e & Ie & He).
  destruct (a_login_pk D cid _ _ _ _ _ _ _ HD H Hy) as (-> & (b' & Hb') & e' & Ie' & He').
  rewrite pubkey_decodes in Epk; [|lia|unfold blen, user_seed; rewrite (sha256_len _ HD); vm_compute; reflexivity].
  injection Epk as Es. unfold user_seed in Es.
  destruct (decide (seed_input (in_salt i) x (uri_part i) = seed_input (in_salt j) y (uri_part j))) as [Ei|Ne];
    [|right; right; eapply dc_seed; [exact Hx'|exact Hy|now split]].
  apply seed_input_inj in Ei as (_ & -> & _).
  - left. exists sk, exp, pk1, i, t. auto.
  - now rewrite (address_text_length D x b HD Hb), (address_text_length D y b' HD Hb').
  - left. eauto.
Qed.

(** Concrete: Alice asks for her address after the whole history. *)
Example C63_case : exists c0 c pk d y, exec CD demo_cid (take 7 demo_tr) (Some c0) /\
  replica_accepts CD demo_cid (c_certified c0) (bs "cert") (20 * sec) (bs "any") pk d /\
  exec CD demo_cid (take 7 demo_tr ++ drop 7 demo_tr) (Some c) /\
  (forall e j, In e (take 7 demo_tr ++ drop 7 demo_tr) -> boot e j -> (length (in_salt j) < 256)%nat) /\
  snd (step CD demo_cid (30 * sec) (GetCallerAddress (principal_of CD pk)) (Some c)) = Provider.RText (Ok y).
Proof.
  destruct C62_case as (c0 & s & x & exp & r & sg & n & pk & Hc & _ & _ & Hl & Ha). destruct demo_exec as [c H].
  exists c0, c, pk, r, x. split; [exact Hc|]. split; [exact Ha|]. rewrite take_drop. split; [exact H|]. split.
  - intros e j Ie [Eo _]. repeat (destruct Ie as [<-|Ie]; [destruct Eo as [Eo|Eo]; try discriminate|]);
      [|destruct Ie]. vm_compute in Eo. injection Eo as <-. vm_compute. lia.
  - assert (exists sg2 n2 exp2, logged_in (demo_at 12) sg2 x key2 n2 exp2 pk) as (sg2 & n2 & exp2 & Hl2).
    { destruct Hl as [Eo Er]. vm_compute in Eo, Er. injection Eo as _ <- _. injection Er as _ <-.
      do 3 eexists. split; [reflexivity|]. vm_compute. reflexivity. }
    change demo_tr with (take 12 demo_tr ++ [demo_at 12]) in H.
    destruct (C39_recorded CD demo_cid (take 12 demo_tr) (demo_at 12) _ sg2 x key2 n2 exp2 pk demo_input _ CD_ok H Hl2
                (demo_since 12 ltac:(lia)) eq_refl eq_refl) as (_ & Hown & _).
    now rewrite (Hown (30 * sec)).
Qed.

Print Assumptions C61_login_behind.
Print Assumptions C61_wallet_signed.
Print Assumptions C62_accepted.
Print Assumptions C63_caller.
