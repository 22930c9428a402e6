(** C27-C34: signing in. *)
From Coq Require Import Strings.String ZifyBool ZifyN ZifyNat.
From Verif Require Import Base BaseLemmas Deps Hex Eth Hash HashTree RbTree SigMap Time3339 Settings Siwe Encode
  Delegation Login Provider SpecEth EthProofs SpecHash DelegationProofs SpecWire WireProofs SpecTree SigMapProofs
  MapRuns SpecSiwe SiweProofs SpecInit SettingsProofs SpecTrace LoginProofs ProviderProofs TraceProofs LoginTheory
  Concrete Scripts Demo.
Local Open Scope N_scope.

(** ** C27  Login is authenticated *)

(** A successful login for [x] and [n] uses a message text prepared since the last
    install or upgrade; the signature recovers to [x] over exactly this text, the text
    is still fresh, and it was prepared for [x] and [n] themselves (or the two
    named inputs collide under SHA-256). *)
Theorem C27_authenticated : forall D cid tr e s sg x sk n exp pk, deps_ok D ->
  exec D cid (tr ++ [e]) s -> logged_in e sg x sk n exp pk ->
  exists i since before p after x' n' text b b',
    since_boot tr i since /\ since = before ++ p :: after /\ prepared p x' text n' /\
    recovers D text sg x /\ ~ bad_key D sk /\
    ev_time p <= ev_time e /\ ev_time e < ev_time p + sign_in_window i /\
    address_text D x b /\ address_text D x' b' /\
    ((x' = x /\ n' = n) \/ collision (d_sha256 D) (message_key_input b' n') (message_key_input b n)).
Proof.
  intros D cid tr e s sg x sk n exp pk HD H Hl.
  destruct (login_explained D cid tr e s sg x sk n exp pk HD H Hl)
    as (i & st & fl & since & bef & p & aft & x' & b & b' & n' & text & Hs & Hin & Es & Hp & Ha & Ha' & Ek & Et & HF & Rx & Hk & Hx & _).
  exists i, since, bef, p, aft, x', n', text, b, b'. do 4 (split; [assumption|]). split.
  { intros Hb. apply key_error_bad in Hb. congruence. }
  split; [|split; [|split; [assumption|split; [assumption|now apply key_or_collision]]]].
  - apply exec_last in H as (s0 & _ & Ht & _). apply since_boot_sub in Hs as [l ->]. rewrite List.Forall_forall in Ht.
    apply Ht. rewrite Es. apply in_app_iff. right. apply in_app_iff. right. left. reflexivity.
  - unfold sat_add in Hx. lia.
Qed.

(** With a configured domain and URI that are single lines, what the wallet signed
    reads, line by line, as a sign-in request of this domain for this address. *)
Theorem C27_signed_text : forall D cid tr e s sg x sk n exp pk i since, deps_ok D ->
  exec D cid (tr ++ [e]) s -> logged_in e sg x sk n exp pk -> since_boot tr i since ->
  one_line (in_domain i) -> one_line (in_uri i) ->
  exists p x' n' text b b', In p since /\ prepared p x' text n' /\ recovers D text sg x /\
    read_erc4361 text = Some
      {| e_domain := in_domain i; e_address := x'; e_statement := default (bs "SIWE Fields:") (in_statement i);
         e_uri := in_uri i; e_version := 1; e_chain_id := default 1 (in_chain_id i);
         e_nonce := n'; e_issued_at := ev_time p;
         e_expiration_time := N.min (ev_time p + sign_in_window i) u64_max |} /\
    address_text D x b /\ address_text D x' b' /\
    ((x' = x /\ n' = n) \/ collision (d_sha256 D) (message_key_input b' n') (message_key_input b n)).
Proof.
  intros D cid tr e s sg x sk n exp pk i since HD H Hl Hb Ld Lu.
  destruct (login_explained D cid tr e s sg x sk n exp pk HD H Hl)
    as (i' & st & fl & since' & bef & p & aft & x' & b & b' & n' & text & Hs & Hin & Es & Hp & Ha & Ha' & Ek & Et & HF & Rx & Hk & Hx & _).
  destruct (since_boot_fun _ _ _ _ _ Hb Hs) as [<- <-].
  assert (In p since) as Ip by (rewrite Es; apply in_app_iff; right; left; reflexivity).
  exists p, x', n', text, b, b'. do 3 (split; [assumption|]).
  split; [|split; [assumption|split; [assumption|now apply key_or_collision]]].
  apply exec_last in H as (s0 & H0 & _).
  destruct (exec_since D cid tr s0 i since HD H0 Hb) as (c & st' & -> & Hi & _).
  assert (ev_time p <= u64_max) as Hp64.
  { pose proof (exec_times _ _ _ _ H0) as Ht. rewrite List.Forall_forall in Ht. apply Ht.
    apply since_boot_sub in Hs as [l ->]. apply in_app_iff. auto. }
  assert (one_line n') as Ln.
  { pose proof (inv_rng _ _ _ _ _ _ _ Hi) as Hr. destruct (ls_rng (c_lib c)) as [r|]; cbn [rng_inv] in Hr.
    - destruct Hr as (_ & _ & Hr). rewrite (Hr bef p aft x' text n' Es Hp). apply hex_one_line.
    - exfalso. rewrite Es in Hr. unfold prepared_count in Hr. rewrite List.filter_app in Hr. cbn [List.filter] in Hr.
      assert (is_prepared p = true) as E by (apply is_prepared_spec; eauto). rewrite E, app_length in Hr. cbn [length] in Hr. lia. }
  destruct (siwe_text_reads (the_message st x' n' (ev_time p))) as (text' & Et' & Er).
  - unfold fields_one_line. cbn [the_message m_domain m_address m_statement m_uri m_nonce].
    rewrite (init_domain _ _ _ _ _ Hin), (init_uri _ _ _ _ _ Hin).
    split; [assumption|]. split; [destruct Ha' as [_ ->]; apply eip55_one_line|].
    split; [apply (acc_statement _ _ (init_acceptable _ _ _ _ _ Hin))|]. auto.
  - exact Hp64.
  - apply sat_add_le.
  - assert (text' = text) as -> by congruence. rewrite Er. cbn [the_message m_domain m_address m_statement m_uri m_version m_chain_id m_nonce m_issued_at m_expiration_time].
    rewrite (init_domain _ _ _ _ _ Hin), (init_uri _ _ _ _ _ Hin), (init_statement _ _ _ _ _ Hin),
      (init_chain_id _ _ _ _ _ Hin), (init_sign_in _ _ _ _ _ Hin). reflexivity.
Qed.

(** Concrete: Alice's login in the demonstration history. *)
Example C27_case : exists s sg x n exp pk text,
  exec CD demo_cid (take 4 demo_tr ++ [demo_at 4]) (Some s) /\ logged_in (demo_at 4) sg x key1 n exp pk /\
  since_boot (take 4 demo_tr) demo_input (take 3 (drop 1 demo_tr)) /\ one_line (in_domain demo_input) /\
  one_line (in_uri demo_input) /\ prepared (demo_at 2) x text n /\ x = wallet_address CD alice.
Proof.
  destruct (demo_snoc 4) as [s H]; [lia|]. eexists s, _, _, _, _, _, _. split; [exact H|].
  split; [split; reflexivity|]. split; [apply (demo_since 4); lia|].
  split; [apply plain_one_line; reflexivity|]. split; [apply plain_one_line; reflexivity|].
  split; [split; reflexivity|]. vm_compute. reflexivity.
Qed.

(** ** C28  Sign-in messages are single-use *)

(** After the message used by a successful login was prepared, no other login with
    that address and nonce came as far as the signature check. *)
Theorem C28_first_use : forall D cid tr e s sg x sk n exp pk, deps_ok D ->
  exec D cid (tr ++ [e]) s -> logged_in e sg x sk n exp pk ->
  exists i since before p after x' n' text b b',
    since_boot tr i since /\ since = before ++ p :: after /\ prepared p x' text n' /\ recovers D text sg x /\
    Forall (fun q => ~ login_attempt D q x n /\ ~ login_attempt D q x' n') after /\
    address_text D x b /\ address_text D x' b' /\
    ((x' = x /\ n' = n) \/ collision (d_sha256 D) (message_key_input b' n') (message_key_input b n)).
Proof.
  intros D cid tr e s sg x sk n exp pk HD H Hl.
  destruct (login_explained D cid tr e s sg x sk n exp pk HD H Hl)
    as (i & st & fl & since & bef & p & aft & x' & b & b' & n' & text & Hs & Hin & Es & Hp & Ha & Ha' & Ek & Et & HF & Rx & Hk & Hx & _).
  exists i, since, bef, p, aft, x', n', text, b, b'. do 4 (split; [assumption|]). split.
  { revert HF. apply List.Forall_impl. intros q Hq. split; intros Hatt; apply Hq; right.
    - exists x, n, b. auto.
    - exists x', n', b'. auto. }
  split; [assumption|]. split; [assumption|]. now apply key_or_collision.
Qed.

(** Between two successful logins with one address and nonce a new message was
    prepared for them (or the named inputs collide). *)
Theorem C28_once : forall D cid tr1 e1 tr2 e2 s sg1 sg2 x sk1 sk2 n exp1 exp2 pk1 pk2, deps_ok D ->
  exec D cid (tr1 ++ e1 :: tr2 ++ [e2]) s ->
  logged_in e1 sg1 x sk1 n exp1 pk1 -> logged_in e2 sg2 x sk2 n exp2 pk2 ->
  exists p x' text n' b b', In p tr2 /\ prepared p x' text n' /\ recovers D text sg2 x /\
    address_text D x b /\ address_text D x' b' /\
    ((x' = x /\ n' = n) \/ collision (d_sha256 D) (message_key_input b' n') (message_key_input b n)).
Proof.
  intros D cid tr1 e1 tr2 e2 s sg1 sg2 x sk1 sk2 n exp1 exp2 pk1 pk2 HD H H1 H2.
  assert (tr1 ++ e1 :: tr2 ++ [e2] = (tr1 ++ e1 :: tr2) ++ [e2]) as E by (now rewrite <- app_assoc).
  rewrite E in H.
  destruct (login_explained D cid _ e2 s sg2 x sk2 n exp2 pk2 HD H H2)
    as (i & st & fl & since & bef & p & aft & x' & b & b' & n' & text & Hs & Hin & Es & Hp & Ha & Ha' & Ek & Et & HF & Rx & Hk & Hx & _).
  assert (touches D (message_key D b n) e1) as Ht1.
  { right. exists x, n, b. split; [|auto].
    assert (exists s1, exec D cid (tr1 ++ [e1]) s1) as [s1 H1'].
    { rewrite <- E in H. eapply exec_at, H. }
    destruct (login_explained D cid tr1 e1 s1 sg1 x sk1 n exp1 pk1 HD H1' H1)
      as (i1 & st1 & fl1 & since1 & bef1 & p1 & aft1 & x1 & b1 & b1' & n1 & text1 & _ & _ & _ & _ & A1 & _ & _ & _ & _ & R1 & _).
    destruct (recovers_sig _ _ _ _ R1) as [sb Hsb].
    destruct H1 as [Ho _]. exists sg1, sk1, b1, sb. auto. }
  exists p, x', text, n', b, b'. split; [|split; [assumption|split; [assumption|split; [assumption|split; [assumption|now apply key_or_collision]]]]].
  apply since_boot_sub in Hs as [l El]. rewrite Es, app_assoc in El.
  apply split_two in El as [(-> & -> & ->)|[(k & _ & ->)|(k & -> & ->)]].
  - destruct H1 as [Ho _], Hp as [Hp _]. congruence.
  - apply in_app_iff. right. left. reflexivity.
  - rewrite List.Forall_forall in HF. destruct (HF e1); [|assumption]. apply in_app_iff. right. left. reflexivity.
Qed.

(** Concrete: the second attempt at Bob's burnt message is refused although its
    signature is right; a login for a burnt or used message is never repeated. *)
Example C28_case : exists s sg x n text, exec CD demo_cid (take 6 demo_tr ++ [demo_at 6]) (Some s) /\
  ev_op (demo_at 6) = SiweLogin sg x key2 n /\ prepared (demo_at 3) x text n /\ x = wallet_address CD bob /\
  sg = wallet_sign CD bob text /\ ev_reply (demo_at 6) = RLogin (Err (bs "Message not found")).
Proof.
  destruct (demo_snoc 6) as [s H]; [lia|]. eexists s, _, _, _, _. split; [exact H|]. split; [reflexivity|].
  split; [split; reflexivity|]. split; [vm_compute; reflexivity|]. split; vm_compute; reflexivity.
Qed.

(** ** C29  A failed signature check burns the message and has no other effect *)

Theorem C29_malformed : forall D cid tr c now sg x sk n, deps_ok D -> exec D cid tr (Some c) ->
  (forall b, ~ address_text D x b) \/ (forall sb, ~ signature_text sg sb) ->
  exists err, step D cid now (SiweLogin sg x sk n) (Some c) = (Some c, RLogin (Err err)).
Proof.
  intros D cid tr c now sg x sk n HD H Hbad.
  destruct (exec_inv D cid tr c HD H) as (i & s & since & Hi).
  assert (can_ok D c s) as Hc by (eapply inv_can_ok; [exact Hi|eapply exec_times, H]).
  destruct (login_cases D cid now sg x sk n c s HD Hc) as (c' & r & E & Hout). cbn [step]. rewrite E. cbn [run_update].
  inversion Hout; subst; try (eexists; reflexivity); exfalso; destruct Hbad as [Hb|Hb]; eapply Hb; eassumption.
Qed.

(** Well-formed arguments, but the signature does not recover to the address over any
    message waiting under the address and nonce. *)
Theorem C29_burns : forall D cid tr c i since now sg x sk n b sb, deps_ok D -> exec D cid tr (Some c) ->
  since_boot tr i since -> Forall (fun e => ev_time e <= now) tr ->
  address_text D x b -> signature_text sg sb ->
  (forall text t, awaiting D i since now (message_key D b n) text t -> ~ recovers D text sg x) ->
  exists c' err, step D cid now (SiweLogin sg x sk n) (Some c) = (Some c', RLogin (Err err)) /\
    ls_msgs (c_lib c') !! message_key D b n = None /\
    c_sigs c' = c_sigs c /\ c_certified c' = c_certified c /\ c_principal_address c' = c_principal_address c /\
    c_address_principal c' = c_address_principal c /\ c_flags c' = c_flags c /\ c_seeding c' = c_seeding c /\
    ls_rng (c_lib c') = ls_rng (c_lib c) /\ ls_settings (c_lib c') = ls_settings (c_lib c) /\
    (forall k, k <> message_key D b n -> now < default 0 (m_expiration_time <$> ls_msgs (c_lib c) !! k) ->
       ls_msgs (c_lib c') !! k = ls_msgs (c_lib c) !! k).
Proof.
  intros D cid tr c i since now sg x sk n b sb HD H Hb Hnow Ha Hs Hno.
  destruct (exec_since D cid tr _ i since HD H Hb) as (c0 & s & Ec & Hi & Hc). assert (c0 = c) as -> by congruence.
  destruct (login_cases D cid now sg x sk n c s HD Hc) as (c' & r & E & Hout). cbn [step]. rewrite E. cbn [run_update].
  assert (forall m, live now c !! message_key D b n = Some m -> forall text, siwe_to_string m = Done text -> ~ recovers D text sg x) as Hno'.
  { intros m Em text Et. eapply Hno, live_awaiting; eassumption. }
  assert (forall k, now < default 0 (m_expiration_time <$> ls_msgs (c_lib c) !! k) -> live now c !! k = ls_msgs (c_lib c) !! k) as Hlive.
  { intros k Hk. destruct (ls_msgs (c_lib c) !! k) as [m|] eqn:Ek.
    - apply live_lookup. auto.
    - cbn in Hk. lia. }
  inversion Hout as [e He Nx|b' e Ha' Hs' Ns|b' sb' Ha' Hs' El|b' sb' m text e Ha' Hs' El Et Er Nr|b' sb' m text y Ha' Hs' El Et Ry Ne Nr
           |b' sb' m text e sigs k Ha' Hs' El Et Rx Ek Ep|b' sb' m text sigs0 k sigs dh Ha' Hs' El Et Rx Ek Ep Edh Eput];
    subst; [now apply Nx in Ha|now apply Ns in Hs|..]; assert (b' = b) as -> by (eapply address_text_inj; eassumption);
    [| | |now apply (Hno' m El text Et) in Rx|now apply (Hno' m El text Et) in Rx].
  - eexists _, _. split; [reflexivity|]. cbn. repeat (split; [assumption || reflexivity|]). intros k _. apply Hlive.
  - eexists _, _. split; [reflexivity|]. cbn. split; [apply lookup_delete|]. repeat (split; [reflexivity|]).
    intros k Hk Hx. rewrite lookup_delete_ne by congruence. now apply Hlive.
  - eexists _, _. split; [reflexivity|]. cbn. split; [apply lookup_delete|]. repeat (split; [reflexivity|]).
    intros k Hk Hx. rewrite lookup_delete_ne by congruence. now apply Hlive.
Qed.

(** Any login attempt uses its message up: until a new one is prepared under the same
    key, every further attempt is told that there is none. *)
Theorem C29_burnt : forall D cid tr1 e1 tr2 e2 s sg x sk n b sb, deps_ok D ->
  exec D cid (tr1 ++ e1 :: tr2 ++ [e2]) s -> login_attempt D e1 x n ->
  (exists i since, since_boot (tr1 ++ e1 :: tr2) i since) ->
  (forall p x' text n' b', In p tr2 -> prepared p x' text n' -> address_text D x' b' ->
     message_key D b' n' <> message_key D b n) ->
  ev_op e2 = SiweLogin sg x sk n -> address_text D x b -> signature_text sg sb ->
  ev_reply e2 = RLogin (Err (bs "Message not found")).
Proof.
  intros D cid tr1 e1 tr2 e2 s sg x sk n b sb HD H H1 (i & since & Hb) Hno Ho Ha Hs.
  assert (tr1 ++ e1 :: tr2 ++ [e2] = (tr1 ++ e1 :: tr2) ++ [e2]) as E by (now rewrite <- app_assoc).
  rewrite E in H. apply exec_last in H as (s0 & H & Ht & _ & _ & Hst).
  destruct (exec_since D cid _ s0 i since HD H Hb) as (c & st & -> & Hi & Hc).
  destruct (login_cases D cid (ev_time e2) sg x sk n c st HD Hc) as (c' & r & Er & Hout). rewrite Ho in Hst.
  cbn [step] in Hst. rewrite Er in Hst. cbn [run_update] in Hst.
  assert (forall text t, ~ awaiting D i since (ev_time e2) (message_key D b n) text t) as Hna.
  { intros text t (bef & p & aft & x' & b' & n' & Es & Hp & Ha' & Ek & HF & _).
    pose proof Hb as Hb'. apply since_boot_sub in Hb' as [l El]. rewrite Es, app_assoc in El.
    apply split_two in El as [(-> & -> & ->)|[(k & _ & ->)|(k & -> & ->)]].
    - destruct H1 as (? & ? & ? & ? & Ho1 & _), Hp as [Hp _]. congruence.
    - apply (Hno p x' text n' b'); auto. apply in_app_iff. right. left. reflexivity.
    - rewrite List.Forall_forall in HF. apply (HF e1); [apply in_app_iff; right; left; reflexivity|].
      right. exists x, n, b. auto. }
  pose proof (login_out_table D cid _ c i st since (ev_time e2) Hi Ht _ _ _ _ _ _ Hout) as Htab.
  assert (r = Err (bs "Message not found")) as ->; [|congruence].
  eapply login_table_fun; [exact HD|exact Htab|]. now apply (row_missing _ _ _ _ _ _ _ _ _ b sb).
Qed.

(** Concrete: the wrong signature for Bob's message, which is waiting. *)
Example C29_case : exists c sg x n b sb text,
  exec CD demo_cid (take 5 demo_tr) (Some c) /\ since_boot (take 5 demo_tr) demo_input (take 4 (drop 1 demo_tr)) /\
  ev_op (demo_at 5) = SiweLogin sg x key2 n /\ address_text CD x b /\ signature_text sg sb /\
  awaiting CD demo_input (take 4 (drop 1 demo_tr)) (4 * sec) (message_key CD b n) text (2 * sec) /\
  (forall text t, awaiting CD demo_input (take 4 (drop 1 demo_tr)) (4 * sec) (message_key CD b n) text t ->
     ~ recovers CD text sg x) /\
  ev_reply (demo_at 5) = RLogin (Err (bs "Recovered address does not match")).
Proof.
  destruct (demo_prefix 5) as [c H]; [lia|].
  set (sg := login_sig (demo_at 5)). set (x := login_addr (demo_at 5)). set (n := login_nonce (demo_at 5)).
  set (b := drop 12 (d_keccak CD bob)). set (text := prepared_text (demo_at 3)).
  assert (address_text CD x b) as Ha by (split; vm_compute; reflexivity).
  destruct (signature_cases sg) as [(e & E & _)|(sb & Hs & _ & Esb)]; [exfalso; vm_compute in E; discriminate|].
  assert (awaiting CD demo_input (take 4 (drop 1 demo_tr)) (4 * sec) (message_key CD b n) text (2 * sec)) as Hw.
  { exists (take 2 (drop 1 demo_tr)), (demo_at 3), [demo_at 4], x, b, n. split; [reflexivity|].
    split; [split; vm_compute; reflexivity|]. split; [assumption|]. split; [reflexivity|].
    split; [|split; [reflexivity|vm_compute; reflexivity]].
    repeat constructor. apply (demo_untouched 4 (drop 12 (d_keccak CD alice))).
    - split; vm_compute; reflexivity.
    - vm_compute. reflexivity. }
  exists c, sg, x, n, b, sb, text. split; [exact H|]. split; [apply (demo_since 5); lia|]. split; [vm_compute; reflexivity|].
  split; [assumption|]. split; [assumption|]. split; [assumption|]. split; [|vm_compute; reflexivity].
  intros text' t Hw'. destruct (awaiting_fun _ _ _ _ _ _ _ _ _ Hw Hw') as [<- _].
  intros R. apply (recovers_iff CD text sg sb x CD_ok Hs Esb) in R. vm_compute in R. discriminate.
Qed.

(** ** C30  Concurrent sign-ins do not interfere *)

(** Preparing a message for [x1] leaves any other stored message alone, or it got the
    same address and nonce, or the named inputs collide. *)
Theorem C30_prepare : forall D cid tr c c' now x1 text1 n1 x2 b2 n2 m, deps_ok D ->
  exec D cid tr (Some c) -> now <= u64_max ->
  step D cid now (PrepareLogin x1) (Some c) = (Some c', RPrepare (Ok (text1, n1))) ->
  address_text D x2 b2 -> ls_msgs (c_lib c) !! message_key D b2 n2 = Some m ->
  ls_msgs (c_lib c') !! message_key D b2 n2 = Some m \/
  (x1 = x2 /\ n1 = n2) \/
  (exists b1, address_text D x1 b1 /\ collision (d_sha256 D) (message_key_input b1 n1) (message_key_input b2 n2)).
Proof.
  intros D cid tr c c' now x1 text1 n1 x2 b2 n2 m HD H Hn Hs Ha2 Hm.
  destruct (exec_inv D cid tr c HD H) as (i & s & since & Hi). cbn [step] in Hs.
  destruct (address_cases D x1 HD) as [(err & E & Nx)|(b1 & Ax & E & Eb & Eb')].
  { rewrite (prepare_bad_address D now x1 err c E) in Hs. cbn [run_update] in Hs. congruence. }
  destruct (ls_rng (c_lib c)) as [rn|] eqn:Ern.
  2:{ destruct (prepare_unseeded D now x1 c E Ern) as [w Ew]. rewrite Ew in Hs. cbn [run_update] in Hs. congruence. }
  destruct (prepare_ok D now x1 b1 c s rn Ax E Eb (inv_settings _ _ _ _ _ _ _ Hi) Ern Hn) as (text & Et & Ep).
  rewrite Ep in Hs. cbn [run_update] in Hs.
  match type of Hs with (Some ?cc, RPrepare (Ok (_, ?nn))) = _ => assert (cc = c') as <- by congruence; assert (nn = n1) as En by congruence end.
  cbn [with_lib c_lib ls_msgs]. rewrite En.
  destruct (decide (message_key D b1 n1 = message_key D b2 n2)) as [Ek|Nk].
  - right. destruct (key_or_collision D x2 b2 n2 x1 b1 n1 HD Ha2 Ax Ek) as [[-> ->]|C]; eauto.
  - left. now rewrite lookup_insert_ne.
Qed.

(** A login for [x1] and [n1], whatever its outcome, leaves any other stored message
    that has not expired alone, or the named inputs collide. *)
Theorem C30_login : forall D cid tr c c' now sg x1 sk n1 r x2 b2 n2 m, deps_ok D ->
  exec D cid tr (Some c) ->
  step D cid now (SiweLogin sg x1 sk n1) (Some c) = (Some c', r) ->
  address_text D x2 b2 -> ls_msgs (c_lib c) !! message_key D b2 n2 = Some m -> now < m_expiration_time m ->
  ls_msgs (c_lib c') !! message_key D b2 n2 = Some m \/
  (x1 = x2 /\ n1 = n2) \/
  (exists b1, address_text D x1 b1 /\ collision (d_sha256 D) (message_key_input b1 n1) (message_key_input b2 n2)).
Proof.
  intros D cid tr c c' now sg x1 sk n1 r x2 b2 n2 m HD H Hs Ha2 Hm Hx.
  destruct (exec_inv D cid tr c HD H) as (i & s & since & Hi).
  assert (can_ok D c s) as Hc by (eapply inv_can_ok; [exact Hi|eapply exec_times, H]).
  destruct (login_cases D cid now sg x1 sk n1 c s HD Hc) as (c1 & r1 & E & Hout).
  cbn [step] in Hs. rewrite E in Hs. cbn [run_update] in Hs. assert (c1 = c') as -> by congruence.
  assert (live now c !! message_key D b2 n2 = Some m) as Hl by (now apply live_lookup).
  assert (forall b1, address_text D x1 b1 ->
    delete (message_key D b1 n1) (live now c) !! message_key D b2 n2 = Some m \/ (x1 = x2 /\ n1 = n2) \/
    (exists b1, address_text D x1 b1 /\ collision (d_sha256 D) (message_key_input b1 n1) (message_key_input b2 n2))) as Hdel.
  { intros b1 Ha1. destruct (decide (message_key D b1 n1 = message_key D b2 n2)) as [Ek|Nk].
    - right. destruct (key_or_collision D x2 b2 n2 x1 b1 n1 HD Ha2 Ha1 Ek) as [[-> ->]|C]; eauto.
    - left. now rewrite lookup_delete_ne. }
  inversion Hout; subst; cbn; auto.
Qed.

(** Concrete: while Alice logs in, Bob's message is stored and unexpired. *)
Example C30_case : exists c sg x1 n1 x2 b2 n2 m, exec CD demo_cid (take 4 demo_tr) (Some c) /\
  ev_op (demo_at 4) = SiweLogin sg x1 key1 n1 /\ prepared (demo_at 3) x2 (prepared_text (demo_at 3)) n2 /\
  address_text CD x2 b2 /\ ls_msgs (c_lib c) !! message_key CD b2 n2 = Some m /\ 3 * sec < m_expiration_time m.
Proof.
  destruct (demo_prefix 4) as [c H]; [lia|].
  destruct (exec_since CD demo_cid (take 4 demo_tr) (Some c) demo_input (take 3 (drop 1 demo_tr)) CD_ok H) as (c0 & s & Ec & Hi & _);
    [apply (demo_since 4); lia|]. assert (c0 = c) as -> by congruence.
  set (b := drop 12 (d_keccak CD bob)).
  assert (address_text CD (used_addr (demo_at 3)) b) as Ha by (split; vm_compute; reflexivity).
  destruct (awaiting_live CD demo_cid (take 4 demo_tr) c demo_input s (take 3 (drop 1 demo_tr)) (3 * sec) Hi) with
    (k := message_key CD b (prepared_nonce (demo_at 3))) (text := prepared_text (demo_at 3)) (t := 2 * sec) as (m & Hm & _).
  - repeat constructor; vm_compute; discriminate.
  - exists (take 2 (drop 1 demo_tr)), (demo_at 3), [], (used_addr (demo_at 3)), b, (prepared_nonce (demo_at 3)).
    split; [reflexivity|]. split; [split; vm_compute; reflexivity|]. split; [exact Ha|]. split; [reflexivity|].
    split; [constructor|]. split; [reflexivity|vm_compute; reflexivity].
  - apply live_lookup in Hm as [Hm Hx].
    exists c, (login_sig (demo_at 4)), (login_addr (demo_at 4)), (login_nonce (demo_at 4)), (used_addr (demo_at 3)), b,
      (prepared_nonce (demo_at 3)), m.
    split; [exact H|]. split; [vm_compute; reflexivity|]. split; [split; vm_compute; reflexivity|]. auto.
Qed.

(** ** C31  A correct login succeeds *)

(** Unless some later event of the history stored or used a message under the same
    key, which means the same address and nonce or a named collision. *)
Theorem C31_succeeds : forall D cid tr s i since before p after x text n b sg sk now, deps_ok D ->
  exec D cid tr s -> since_boot tr i since -> since = before ++ p :: after ->
  prepared p x text n -> address_text D x b ->
  Forall (fun q => ~ login_attempt D q x n) after ->
  recovers D text sg x -> ~ bad_key D sk ->
  Forall (fun e => ev_time e <= now) tr -> now < ev_time p + sign_in_window i -> now < u64_max ->
  (exists s', step D cid now (SiweLogin sg x sk n) s =
     (s', RLogin (Ok (mkDetails (N.min (ev_time p + session_window i) u64_max)
                        (create_user_canister_pubkey cid (user_seed D i x)))))) \/
  (exists q text', In q after /\ prepared q x text' n) \/
  (exists q x' n' b', In q after /\ touches_pair D q x' n' /\ address_text D x' b' /\
     collision (d_sha256 D) (message_key_input b' n') (message_key_input b n)).
Proof.
  intros D cid tr s i since bef p aft x text n b sg sk now HD H Hb Es Hp Ha Hno Rx Hk Hnow Hx Hu.
  assert (Forall (fun q => ~ touches D (message_key D b n) q) aft \/ (exists q text', In q aft /\ prepared q x text' n) \/
    (exists q x' n' b', In q aft /\ touches_pair D q x' n' /\ address_text D x' b' /\
     collision (d_sha256 D) (message_key_input b' n') (message_key_input b n))) as [HF|Hd]; [| |right; exact Hd].
  { clear Es. induction aft as [|q aft IH]; [left; constructor|]. apply List.Forall_cons_iff in Hno as [Hq Hno].
    destruct (IH Hno) as [HF|[(q' & t & I & P)|(q' & x' & n' & b' & I & R)]].
    2:{ right. left. exists q', t. split; [right; exact I|exact P]. }
    2:{ right. right. exists q', x', n', b'. split; [right; exact I|exact R]. }
    assert (forall x' n' b', touches_pair D q x' n' -> address_text D x' b' -> message_key D b' n' = message_key D b n ->
      (exists q0 text', In q0 (q :: aft) /\ prepared q0 x text' n) \/
      (exists q0 x' n' b', In q0 (q :: aft) /\ touches_pair D q0 x' n' /\ address_text D x' b' /\
        collision (d_sha256 D) (message_key_input b' n') (message_key_input b n))) as Hc.
    { intros x' n' b' Tp Ha' Ek. destruct (key_or_collision D x b n x' b' n' HD Ha Ha' Ek) as [[-> ->]|C].
      - left. destruct Tp as [(t & P)|L]; [|contradiction]. exists q, t. split; [left; reflexivity|exact P].
      - right. exists q, x', n', b'. split; [left; reflexivity|]. auto. }
    (* decide whether [q] touches the key *)
    assert (touches D (message_key D b n) q \/ ~ touches D (message_key D b n) q) as [T|T].
    { destruct (touches_dec D (message_key D b n) q HD); auto. }
    - right. destruct T as [(x' & t & n' & b' & P & Ha' & Ek)|(x' & n' & b' & L & Ha' & Ek)];
        eapply Hc; eauto; [left; eauto|right; exact L].
    - left. constructor; assumption. }
  left. destruct (exec_since D cid tr s i _ HD H Hb) as (c & st & -> & Hi & Hc).
  destruct (login_cases D cid now sg x sk n c st HD Hc) as (c' & r & E & Hout). cbn [step]. rewrite E. cbn [run_update].
  pose proof (login_out_table D cid tr c i st _ now Hi Hnow _ _ _ _ _ _ Hout) as Htab.
  destruct (recovers_sig _ _ _ _ Rx) as [sb Hsb]. exists (Some c'). repeat f_equal.
  eapply login_table_fun; [exact HD|exact Htab|].
  apply (row_ok _ _ _ _ _ _ _ _ _ b sb text); auto.
  - exists bef, p, aft, x, b, n. repeat (split; [auto; fail|]). lia.
  - destruct (key_error D sk) as [e|] eqn:Ek; [|reflexivity]. destruct Hk. apply key_error_bad. congruence.
Qed.

(** Concrete: Alice's message just before she logs in, after Bob asked for his. *)
Example C31_case : exists c x text n b sg, exec CD demo_cid (take 4 demo_tr) (Some c) /\
  since_boot (take 4 demo_tr) demo_input (take 3 (drop 1 demo_tr)) /\
  take 3 (drop 1 demo_tr) = [demo_at 1] ++ demo_at 2 :: [demo_at 3] /\
  prepared (demo_at 2) x text n /\ address_text CD x b /\ Forall (fun q => ~ login_attempt CD q x n) [demo_at 3] /\
  recovers CD text sg x /\ ~ bad_key CD key1 /\ Forall (fun e => ev_time e <= 3 * sec) (take 4 demo_tr) /\
  3 * sec < ev_time (demo_at 2) + sign_in_window demo_input /\ 3 * sec < u64_max.
Proof.
  destruct (demo_prefix 4) as [c H]; [lia|].
  set (sg := login_sig (demo_at 4)). set (text := prepared_text (demo_at 2)). set (x := used_addr (demo_at 2)).
  destruct (signature_cases sg) as [(e & E & _)|(sb & Hs & _ & Esb)]; [exfalso; vm_compute in E; discriminate|].
  exists c, x, text, (prepared_nonce (demo_at 2)), (drop 12 (d_keccak CD alice)), sg. split; [exact H|].
  split; [apply (demo_since 4); lia|]. split; [reflexivity|]. split; [split; reflexivity|].
  split; [split; vm_compute; reflexivity|].
  split; [repeat constructor; intros (? & ? & ? & ? & E & _); discriminate|].
  split; [apply (recovers_iff CD text sg sb x CD_ok Hs Esb); vm_compute; reflexivity|].
  split; [intros [E|E]; [discriminate|apply E; vm_compute; reflexivity]|].
  split; [repeat constructor; vm_compute; discriminate|]. split; vm_compute; reflexivity.
Qed.

(** ** C32  Session lifetime is fixed at message issue *)

(** The expiration is computed from the time of the prepared message (the same message
    whose text was signed), not from the time of the login. *)
Theorem C32_expiration : forall D cid tr e s sg x sk n exp pk, deps_ok D ->
  exec D cid (tr ++ [e]) s -> logged_in e sg x sk n exp pk ->
  exists i since p x' n' text b b',
    since_boot tr i since /\ In p since /\ prepared p x' text n' /\ recovers D text sg x /\
    exp = N.min (ev_time p + session_window i) u64_max /\
    address_text D x b /\ address_text D x' b' /\
    ((x' = x /\ n' = n) \/ collision (d_sha256 D) (message_key_input b' n') (message_key_input b n)).
Proof.
  intros D cid tr e s sg x sk n exp pk HD H Hl.
  destruct (login_explained D cid tr e s sg x sk n exp pk HD H Hl)
    as (i & st & fl & since & bef & p & aft & x' & b & b' & n' & text & Hs & Hin & Es & Hp & Ha & Ha' & Ek & Et & HF & Rx & Hk & Hx & Eexp & _).
  exists i, since, p, x', n', text, b, b'. split; [assumption|].
  split; [rewrite Es; apply in_app_iff; right; left; reflexivity|]. do 2 (split; [assumption|]).
  split; [exact Eexp|]. do 2 (split; [assumption|]). now apply key_or_collision.
Qed.

(** Moving a successful login to another time before the message expires does not
    change its reply. *)
Theorem C32_time_independent : forall D cid tr c now1 now2 sg x sk n r1 r2, deps_ok D ->
  exec D cid tr (Some c) ->
  Forall (fun e => ev_time e <= now1) tr -> Forall (fun e => ev_time e <= now2) tr ->
  snd (step D cid now1 (SiweLogin sg x sk n) (Some c)) = RLogin (Ok r1) ->
  snd (step D cid now2 (SiweLogin sg x sk n) (Some c)) = RLogin (Ok r2) ->
  r1 = r2.
Proof.
  intros D cid tr c now1 now2 sg x sk n r1 r2 HD H F1 F2 S1 S2.
  destruct (exec_inv D cid tr c HD H) as (i & s & since & Hi).
  assert (can_ok D c s) as Hc by (eapply inv_can_ok; [exact Hi|eapply exec_times, H]).
  destruct (login_cases D cid now1 sg x sk n c s HD Hc) as (c1 & q1 & E1 & O1).
  destruct (login_cases D cid now2 sg x sk n c s HD Hc) as (c2 & q2 & E2 & O2).
  cbn [step] in S1, S2. rewrite E1 in S1. rewrite E2 in S2. cbn [run_update snd] in S1, S2.
  assert (q1 = Ok r1) as -> by congruence. assert (q2 = Ok r2) as -> by congruence.
  apply (login_out_table D cid tr c i s since now1 Hi F1) in O1.
  apply (login_out_table D cid tr c i s since now2 Hi F2) in O2.
  inversion O1 as [| | | | | |b1 sb1 t1 u1 pk1 A1 B1 W1 R1 K1 P1]. inversion O2 as [| | | | | |b2 sb2 t2 u2 pk2 A2 B2 W2 R2 K2 P2].
  rewrite <- (address_text_inj D x b1 b2 HD A1 A2) in W2.
  assert (u1 = u2) as ->; [|congruence].
  destruct W1 as (f1 & p1 & g1 & x1 & c1' & m1 & Q1 & Q2 & Q3 & Q4 & Q5 & Q6 & _).
  destruct W2 as (f2 & p2 & g2 & x2 & c2' & m2 & V1 & V2 & V3 & V4 & V5 & V6 & _).
  set (far := N.min (u1 + sign_in_window i) u64_max).
  assert (touches D (message_key D b1 n) p1) as U1 by (left; eauto 8).
  assert (touches D (message_key D b1 n) p2) as U2 by (left; eauto 8).
  rewrite List.Forall_forall in Q5, V5. rewrite Q1 in V1.
  apply split_two in V1 as [(-> & -> & ->)|[(l & -> & ->)|(l & -> & ->)]].
  - congruence.
  - destruct (Q5 p2); [|assumption]. apply in_app_iff. right. left. reflexivity.
  - destruct (V5 p1); [|assumption]. apply in_app_iff. right. left. reflexivity.
Qed.

(** Concrete: Alice's message was issued at 2 s, she logs in at 3 s, and the session
    lasts until 1802 s. *)
Example C32_case : exists c sg x n pk, exec CD demo_cid (take 4 demo_tr ++ [demo_at 4]) (Some c) /\
  logged_in (demo_at 4) sg x key1 n (1802 * sec) pk /\ ev_time (demo_at 2) = 2 * sec /\ ev_time (demo_at 4) = 3 * sec /\
  session_window demo_input = 1800 * sec.
Proof.
  destruct (demo_snoc 4) as [c H]; [lia|].
  exists c, (login_sig (demo_at 4)), (login_addr (demo_at 4)), (login_nonce (demo_at 4)),
    (match ev_reply (demo_at 4) with RLogin (Ok d) => ld_pubkey d | _ => [] end).
  split; [exact H|]. split; [split; vm_compute; reflexivity|]. split; [reflexivity|]. split; reflexivity.
Qed.

(** ** C33  A wallet always gets the same principal, and different wallets different ones *)

(** Two logins anywhere in a history, even across upgrades, with the same address,
    salt and URI setting give the same key. *)
Theorem C33_same : forall D cid tr1 e1 tr2 e2 s sg1 sg2 x sk1 sk2 n1 n2 exp1 exp2 pk1 pk2 i1 since1 i2 since2,
  deps_ok D -> exec D cid (tr1 ++ e1 :: tr2 ++ [e2]) s ->
  logged_in e1 sg1 x sk1 n1 exp1 pk1 -> logged_in e2 sg2 x sk2 n2 exp2 pk2 ->
  since_boot tr1 i1 since1 -> since_boot (tr1 ++ e1 :: tr2) i2 since2 ->
  in_salt i1 = in_salt i2 -> uri_part i1 = uri_part i2 ->
  pk1 = pk2 /\ principal_of D pk1 = principal_of D pk2.
Proof.
  intros D cid tr1 e1 tr2 e2 s sg1 sg2 x sk1 sk2 n1 n2 exp1 exp2 pk1 pk2 i1 since1 i2 since2 HD H L1 L2 B1 B2 Es Eu.
  assert (pk1 = pk2) as ->; [|auto].
  assert (exists s1, exec D cid (tr1 ++ [e1]) s1) as [s1 H1] by (eapply exec_at, H).
  assert (tr1 ++ e1 :: tr2 ++ [e2] = (tr1 ++ e1 :: tr2) ++ [e2]) as E by (now rewrite <- app_assoc). rewrite E in H.
  rewrite (login_pk D cid tr1 e1 s1 sg1 x sk1 n1 exp1 pk1 i1 since1 HD H1 L1 B1).
  rewrite (login_pk D cid _ e2 s sg2 x sk2 n2 exp2 pk2 i2 since2 HD H L2 B2).
  unfold user_seed. now rewrite Es, Eu.
Qed.

(** Logins with different addresses under one salt and URI setting give different
    keys and principals, or the named inputs collide. *)
Theorem C33_different : forall D cid tr1 e1 tr2 e2 s sg1 sg2 x1 x2 sk1 sk2 n1 n2 exp1 exp2 pk1 pk2 i1 since1 i2 since2,
  deps_ok D -> (length cid <= 29)%nat -> exec D cid (tr1 ++ e1 :: tr2 ++ [e2]) s ->
  logged_in e1 sg1 x1 sk1 n1 exp1 pk1 -> logged_in e2 sg2 x2 sk2 n2 exp2 pk2 ->
  since_boot tr1 i1 since1 -> since_boot (tr1 ++ e1 :: tr2) i2 since2 ->
  in_salt i1 = in_salt i2 -> uri_part i1 = uri_part i2 -> x1 <> x2 ->
  (pk1 <> pk2 \/
   collision (d_sha256 D) (seed_input (in_salt i1) x1 (uri_part i1)) (seed_input (in_salt i2) x2 (uri_part i2))) /\
  (principal_of D pk1 <> principal_of D pk2 \/ collision (d_sha224 D) pk1 pk2 \/
   collision (d_sha256 D) (seed_input (in_salt i1) x1 (uri_part i1)) (seed_input (in_salt i2) x2 (uri_part i2))).
Proof.
  intros D cid tr1 e1 tr2 e2 s sg1 sg2 x1 x2 sk1 sk2 n1 n2 exp1 exp2 pk1 pk2 i1 since1 i2 since2 HD Hcid H L1 L2 B1 B2 Es Eu Nx.
  assert (exists s1, exec D cid (tr1 ++ [e1]) s1) as [s1 H1] by (eapply exec_at, H).
  assert (tr1 ++ e1 :: tr2 ++ [e2] = (tr1 ++ e1 :: tr2) ++ [e2]) as E by (now rewrite <- app_assoc). rewrite E in H.
  assert (pk1 <> pk2 \/
   collision (d_sha256 D) (seed_input (in_salt i1) x1 (uri_part i1)) (seed_input (in_salt i2) x2 (uri_part i2))) as Hpk.
  { destruct (decide (pk1 = pk2)) as [Ep|Np]; [|auto]. right.
    rewrite (login_pk D cid tr1 e1 s1 sg1 x1 sk1 n1 exp1 pk1 i1 since1 HD H1 L1 B1) in Ep.
    rewrite (login_pk D cid _ e2 s sg2 x2 sk2 n2 exp2 pk2 i2 since2 HD H L2 B2) in Ep.
    apply pubkey_inj in Ep as [_ Ep]; [|lia|apply (sha256_len _ HD)|lia|apply (sha256_len _ HD)].
    split; [|exact Ep]. rewrite Es, Eu. intros Ei. apply Nx.
    destruct (login_address D cid tr1 e1 s1 sg1 x1 sk1 n1 exp1 pk1 HD H1 L1) as [b1 A1].
    destruct (login_address D cid _ e2 s sg2 x2 sk2 n2 exp2 pk2 HD H L2) as [b2 A2].
    apply seed_input_inj in Ei as (_ & Ei & _); [exact Ei| |auto].
    now rewrite (address_text_length D x1 b1 HD A1), (address_text_length D x2 b2 HD A2). }
  split; [exact Hpk|]. destruct Hpk as [Np|C]; [|auto].
  destruct (decide (principal_of D pk1 = principal_of D pk2)) as [Ep|Nq]; [|auto]. right. left.
  apply app_inj_tail in Ep as [Ep _]. split; assumption.
Qed.

(** Concrete: Alice's two logins and Bob's login in between. *)
Example C33_case : exists s sg1 sg2 sg3 n1 n2 n3 exp1 exp2 exp3 pka pkb,
  exec CD demo_cid (take 4 demo_tr ++ demo_at 4 :: take 7 (drop 5 demo_tr) ++ [demo_at 12]) (Some s) /\
  logged_in (demo_at 4) sg1 (wallet_address CD alice) key1 n1 exp1 pka /\
  logged_in (demo_at 10) sg2 (wallet_address CD bob) key2 n2 exp2 pkb /\
  logged_in (demo_at 12) sg3 (wallet_address CD alice) key2 n3 exp3 pka /\
  since_boot (take 4 demo_tr) demo_input (take 3 (drop 1 demo_tr)) /\
  since_boot (take 4 demo_tr ++ demo_at 4 :: take 7 (drop 5 demo_tr)) demo_input (take 11 (drop 1 demo_tr)) /\
  (length demo_cid <= 29)%nat /\ wallet_address CD alice <> wallet_address CD bob /\ pka <> pkb.
Proof.
  set (pk k := match ev_reply (demo_at k) with RLogin (Ok d) => ld_pubkey d | _ => [] end).
  set (ex k := match ev_reply (demo_at k) with RLogin (Ok d) => ld_expiration d | _ => 0 end).
  destruct demo_exec as [s H].
  exists s, (login_sig (demo_at 4)), (login_sig (demo_at 10)), (login_sig (demo_at 12)),
    (login_nonce (demo_at 4)), (login_nonce (demo_at 10)), (login_nonce (demo_at 12)), (ex 4%nat), (ex 10%nat), (ex 12%nat),
    (pk 4%nat), (pk 10%nat).
  split; [exact H|]. do 3 (split; [split; vm_compute; reflexivity|]).
  split; [apply (demo_since 4); lia|]. split; [apply (demo_since 12); lia|]. split; [vm_compute; lia|].
  split; apply bytes_eqb_false; vm_compute; reflexivity.
Qed.

(** ** C34  Login results are completely determined *)

Theorem C34_table : forall D cid tr s i since now sg x sk n, deps_ok D ->
  exec D cid tr s -> since_boot tr i since -> Forall (fun e => ev_time e <= now) tr ->
  exists s' r, step D cid now (SiweLogin sg x sk n) s = (s', RLogin r) /\
    login_table D cid i since now sg x sk n r.
Proof.
  intros D cid tr s i since now sg x sk n HD H Hb Hnow.
  destruct (exec_since D cid tr s i since HD H Hb) as (c & st & -> & Hi & Hc).
  destruct (login_cases D cid now sg x sk n c st HD Hc) as (c' & r & E & Hout). cbn [step]. rewrite E. cbn [run_update].
  exists (Some c'), r. split; [reflexivity|]. eapply login_out_table; eassumption.
Qed.

(** The table leaves no choice. *)
Theorem C34_deterministic : forall D cid i since now sg x sk n r1 r2, deps_ok D ->
  login_table D cid i since now sg x sk n r1 -> login_table D cid i since now sg x sk n r2 -> r1 = r2.
Proof. exact login_table_fun. Qed.

(** Concrete: three rows. *)
Example C34_case : exists s, exec CD demo_cid demo_tr (Some s) /\
  since_boot demo_tr demo_input (drop 1 demo_tr) /\
  (exists d, ev_reply (demo_at 4) = RLogin (Ok d)) /\
  ev_reply (demo_at 5) = RLogin (Err (bs "Recovered address does not match")) /\
  ev_reply (demo_at 6) = RLogin (Err (bs "Message not found")).
Proof.
  destruct demo_exec as [s H]. exists s. split; [exact H|]. split; [apply (demo_since 13); lia|].
  split; [eexists; reflexivity|]. split; reflexivity.
Qed.

Print Assumptions C27_authenticated.
Print Assumptions C27_signed_text.
Print Assumptions C28_first_use.
Print Assumptions C28_once.
Print Assumptions C29_malformed.
Print Assumptions C29_burns.
Print Assumptions C29_burnt.
Print Assumptions C30_prepare.
Print Assumptions C30_login.
Print Assumptions C31_succeeds.
Print Assumptions C32_expiration.
Print Assumptions C32_time_independent.
Print Assumptions C33_same.
Print Assumptions C33_different.
Print Assumptions C34_table.
Print Assumptions C34_deterministic.
