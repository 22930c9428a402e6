(** Which calls trap, and that outsiders cannot change it. *)
From Coq Require Import Strings.String ZifyBool ZifyN ZifyNat.
From Verif Require Import Base BaseLemmas Deps Hex Eth Encode Settings Siwe Delegation Login Provider SpecEth SpecInit SpecTrace
  EthProofs SettingsProofs DelegationProofs ProviderProofs LoginTheory LoginProofs DelegationTheory MappingProofs CallProofs
  Interface InterfaceProofs TraceProofs Concrete Scripts Demo.
Local Open Scope N_scope.

(** ** C92  Exactly which calls trap *)

Definition traps (D : Deps) (cid : bytes) (now : N) (o : op) (s : state) : Prop :=
  exists w, snd (step D cid now o s) = RTrap w.

(** A successful install or upgrade has happened; and the first reply to raw_rand after the
    last one brought a seed. *)
Definition booted (tr : list event) : Prop := exists e, In e tr /\ boots e.
Definition seed_arrived (tr : list event) : Prop :=
  exists i since b r a seed, since_boot tr i since /\ since = b ++ r :: a /\ ev_op r = RawRand (Some seed) /\
    Forall (fun e => forall o, ev_op e <> RawRand o) b.

(** The reasons: no canister; a configuration that is refused; an address given to
    siwe_prepare_login before the seed has arrived; siwe_get_delegation as an update call.
    What the texts, keys, nonces and signatures are does not matter otherwise. *)
Definition must_trap (D : Deps) (cid : bytes) (tr : list event) (o : op) : Prop :=
  match o with
  | Install i => ~ exists s fl, init_spec D cid i s fl
  | Upgrade i => ~ booted tr \/ ~ exists s fl, init_spec D cid i s fl
  | PrepareLogin x => ~ booted tr \/ ((exists b, address_text D x b) /\ ~ seed_arrived tr)
  | GetDelegation None _ _ _ => True
  | _ => ~ booted tr
  end.

Lemma exec_none_booted D cid tr s : deps_ok D -> exec D cid tr s -> (s = None <-> ~ booted tr).
Proof.
  intros HD H. split.
  - intros -> (e & I & i & Hb). assert (exists j since, since_boot tr j since) as (j & since & Hs).
    { apply in_split in I as (l1 & l2 & ->). clear H. revert l1 e i Hb.
      induction l2 as [|f l2 IH] using rev_ind; intros l1 e i Hb.
      - exists i, [], l1, e. auto.
      - destruct (IH l1 e i Hb) as (j & since & bef & b0 & E & B0 & F).
        assert ((exists k, boot f k) \/ ~ boots f) as [[k Hk]|Hn].
        { unfold boots, boot. destruct f as [t o r]. cbn. destruct r; try (right; intros (k & _ & Er); discriminate Er).
          destruct o; try (right; intros (k & [E'|E'] & _); discriminate E'); left; eauto. }
        + exists k, [], (l1 ++ e :: l2), f. split; [now rewrite <- app_assoc|]. auto.
        + exists j, (since ++ [f]), bef, b0. split; [|split; [exact B0|]].
          * change (l1 ++ e :: l2 ++ [f]) with (l1 ++ (e :: l2) ++ [f]). rewrite app_assoc, E, <- app_assoc. reflexivity.
          * apply List.Forall_app. split; [exact F|repeat constructor; exact Hn]. }
    destruct (exec_since D cid tr None j since HD H Hs) as (c & _ & E & _). discriminate E.
  - intros Hn. destruct s as [c|]; [|reflexivity]. exfalso. apply Hn.
    destruct (exec_booted D cid tr c HD H) as (i & since & bef & b0 & -> & Hb & _). exists b0.
    split; [apply in_app_iff; right; left; reflexivity|exists i; exact Hb].
Qed.

Lemma query_done {A} c (f : A -> reply) x a : x = Done a -> (forall a w, f a <> RTrap w) ->
  ~ exists w, snd (run_query c f x) = RTrap w.
Proof. intros -> Hf [w E]. exact (Hf a w E). Qed.

Lemma get_delegation_done D now cert x sk e c s : deps_ok D -> ls_settings (c_lib c) = Some s -> e <= u64_max ->
  exists r, siwe_get_delegation D now (Some cert) x sk e c = Done r.
Proof.
  intros HD Hs He. unfold siwe_get_delegation.
  destruct (address_cases D x HD) as [(err & E & _)|(b & Ax & E & _ & _)]; rewrite E; cbn [obind]; [eauto|].
  rewrite Hs, generate_seed_input. cbn [obind]. unfold create_delegation.
  destruct sk as [|k0 sk]; cbn [obind]; [eauto|]. destruct (d_der_err D (k0 :: sk)); cbn [obind]; [eauto|].
  destruct (e =? 0); cbn [obind]; [eauto|]. unfold with_settings. cbn [obind].
  destruct (create_hash_done D (mkDelegation (k0 :: sk) e (s_targets s)) He) as [h Eh]. rewrite Eh. cbn [obind].
  destruct (witness D now (c_sigs c) _ h); eauto.
Qed.

Lemma seeded_arrived D cid tr c : deps_ok D -> exec D cid tr (Some c) -> (ls_rng (c_lib c) <> None <-> seed_arrived tr).
Proof.
  intros HD H. split.
  - intros Hr. destruct (exec_inv D cid tr c HD H) as (i & st & since & Hi).
    pose proof (inv_seed _ _ _ _ _ _ _ Hi) as [_ Hsd]. destruct (ls_rng (c_lib c)) as [rn|]; [|congruence].
    destruct Hsd as (b & e & a & Es & Eo & F). exists i, since, b, e, a, (rng_seed rn). split; [apply Hi|]. split; [exact Es|].
    split; [exact Eo|]. revert F. apply List.Forall_impl. intros f Ff o E. unfold is_raw_rand in Ff. rewrite E in Ff. discriminate.
  - intros (i & since & b & r & a & seed & Hs & E & Er & F). exact (seeded D cid tr c i since b r a seed HD H Hs E Er F).
Qed.

Lemma init_or_trap D cid i : (exists s fl, init_spec D cid i s fl /\ siwe_init D cid i = Done (s, fl)) \/
  ((~ exists s fl, init_spec D cid i s fl) /\ exists w, siwe_init D cid i = Trap w).
Proof.
  destruct (siwe_init D cid i) as [[s fl]|w] eqn:E.
  - left. exists s, fl. split; [now apply siwe_init_spec|reflexivity].
  - right. split; [|eauto]. intros (s & fl & Hi). apply siwe_init_spec in Hi. congruence.
Qed.

Theorem C92_exactly : forall D cid tr s now o, deps_ok D -> exec D cid tr s ->
  Forall (fun e => ev_time e <= now) tr -> now <= u64_max -> op_wf o ->
  (traps D cid now o s <-> must_trap D cid tr o).
Proof.
  intros D cid tr s now o HD H Ht Hn Hw. pose proof (exec_none_booted D cid tr s HD H) as Hbt. unfold traps.
  destruct s as [c|].
  2: { assert (~ booted tr) as Hnb by (now apply Hbt).
       destruct o as [i|i|sd|x|sg x sk n|cert x sk e|p|p|x]; cbn [step snd must_trap].
       - unfold do_install. destruct (init_or_trap D cid i) as [(s & fl & Hi & ->)|[Hi [w ->]]]; cbn [obind snd].
         + split; [intros [w E]; discriminate E|]. intros Hc. destruct Hc. eauto.
         + split; [intros _; exact Hi|eauto].
       - split; [auto|eauto].
       - split; [auto|eauto].
       - split; [auto|eauto].
       - split; [auto|eauto].
       - destruct cert; (split; [auto|eauto]).
       - split; [auto|eauto].
       - split; [auto|eauto].
       - split; [auto|eauto]. }
  assert (booted tr) as Hb.
  { destruct (exec_booted D cid tr c HD H) as (i & since & bef & b0 & -> & Hb & _). exists b0.
    split; [apply in_app_iff; right; left; reflexivity|exists i; exact Hb]. }
  destruct (exec_booted D cid tr c HD H) as (i0 & since & Hs).
  destruct (exec_since D cid tr (Some c) i0 since HD H Hs) as (c' & st & Ec & Hi & Hc). injection Ec as <-.
  pose proof (inv_settings _ _ _ _ _ _ _ Hi) as Hset. pose proof (exec_maps D cid tr _ HD H) as [_ _ Hpa].
  assert (forall (A : Type) (f : A -> reply) (x : outcome A), (exists a, x = Done a) -> (forall a w, f a <> RTrap w) ->
    ((exists w, snd (run_query c f x) = RTrap w) <-> ~ booted tr)) as Q.
  { intros A f x [a Ea] Hf. split; [|contradiction]. intros Hq. destruct (query_done c f x a Ea Hf Hq). }
  assert (forall p, exists r, get_address D p c = Done r) as GA.
  { intros p. unfold get_address. destruct (disable_principal_to_eth (c_flags c)); [eauto|]. destruct (29 <? blen p); [eauto|].
    destruct (c_principal_address c !! p) as [b|] eqn:E; [|eauto]. pose proof (Hpa p b E) as Lb.
    rewrite (eip55_of_digits D b) by (auto; lia). cbn [obind]. eauto. }
  destruct o as [i|i|sd|x|sg x sk n|cert x sk e|p|p|x]; cbn [step must_trap].
  - unfold do_install. destruct (init_or_trap D cid i) as [(s & fl & Hii & ->)|[Hii [w ->]]]; cbn [obind snd].
    + split; [intros [w E]; discriminate E|]. intros Hx. destruct Hx. eauto.
    + split; [intros _; exact Hii|eauto].
  - unfold do_upgrade. destruct (init_or_trap D cid i) as [(s & fl & Hii & ->)|[Hii [w ->]]]; cbn [obind snd].
    + split; [intros [w E]; discriminate E|]. intros [Hx|Hx]; [contradiction|destruct Hx; eauto].
    + split; [intros _; right; exact Hii|eauto].
  - split; [intros [w E]; discriminate E|contradiction].
  - pose proof (seeded_arrived D cid tr c HD H) as Hsa.
    destruct (address_cases D x HD) as [(err & E & Nx)|(b & Ax & E & Eb & _)].
    + rewrite (prepare_bad_address D now x err c E). cbn [run_update snd].
      split; [intros [w Ew]; discriminate Ew|]. intros [Hx|[[b Ab] _]]; [contradiction|destruct (Nx b Ab)].
    + destruct (ls_rng (c_lib c)) as [rn|] eqn:Er.
      * destruct (prepare_ok D now x b c st rn Ax E Eb Hset Er Hn) as (text & _ & ->). cbn [run_update snd].
        split; [intros [w Ew]; discriminate Ew|]. intros [Hx|[_ Hx]]; [contradiction|]. destruct Hx. apply Hsa. discriminate.
      * destruct (prepare_unseeded D now x c E Er) as [w ->]. cbn [run_update snd]. split; [|eauto].
        intros _. right. split; [eauto|]. intros Ha. apply Hsa in Ha. congruence.
  - destruct (login_cases D cid now sg x sk n c st HD Hc) as (c' & r & -> & _). cbn [run_update snd].
    split; [intros [w E]; discriminate E|contradiction].
  - destruct cert as [cert|].
    + apply Q; [exact (get_delegation_done D now cert x sk e c st HD Hset Hw)|discriminate].
    + split; [auto|]. intros _. unfold run_query, siwe_get_delegation. cbn [snd]. eauto.
  - apply Q; [apply GA|discriminate].
  - apply Q; [|discriminate]. unfold get_caller_address. destruct (disable_principal_to_eth (c_flags c)); [eauto|apply GA].
  - apply Q; [|discriminate]. unfold get_principal. destruct (disable_eth_to_principal (c_flags c)); [eauto|].
    destruct (address_cases D x HD) as [(err & E & _)|(b & Ax & E & _ & Eb)]; rewrite E; cbn [obind]; [eauto|].
    rewrite Eb. cbn [obind]. eauto.
Qed.

(** Messages: those that do not decode, and those whose calls trap. *)
Theorem C92_messages : forall D cid q tr s now m caller cert msg, deps_ok D -> calls D cid q tr s ->
  Forall (fun e => ce_time e <= now) tr -> now <= u64_max ->
  ((exists w, snd (call_step D cid q now (Call m caller cert msg) s) = RTrap w) <->
   match op_of q m caller cert msg with
   | Some o => must_trap D cid (omap (decoded q) tr) o
   | None => True
   end).
Proof.
  intros D cid q tr s now m caller cert msg HD H Ht Hn. unfold call_step, call_op.
  destruct (op_of q m caller cert msg) as [o|] eqn:E; [|split; [auto|cbn; eauto]].
  apply op_of_sound in E as (_ & Hw & _). apply (C92_exactly D cid _ s now o HD (calls_exec D cid q tr s H)); auto.
  apply List.Forall_forall. intros e He. apply elem_of_list_In, elem_of_list_omap in He as (ce & Hce & Hd).
  rewrite List.Forall_forall in Ht. apply elem_of_list_In, Ht in Hce. unfold decoded in Hd.
  destruct (call_op q (ce_call ce)); [|discriminate]. apply (inj Some) in Hd as <-. exact Hce.
Qed.

(** What the operator of the canister does, and the system's seed; everything else is
    done by anybody. *)
Definition operators (e : event) : bool :=
  match ev_op e with Install _ | Upgrade _ | RawRand _ => true | _ => false end.

Lemma filter_split {A} (f : A -> bool) l : forall l1 x l2, List.filter f l = l1 ++ x :: l2 ->
  exists m1 m2, l = m1 ++ x :: m2 /\ List.filter f m1 = l1 /\ List.filter f m2 = l2.
Proof.
  induction l as [|a l IH]; intros l1 x l2 E; cbn in E; [destruct l1; discriminate E|].
  destruct (f a) eqn:Fa.
  - destruct l1 as [|b l1]; cbn in E; injection E as -> E.
    + exists [], l. auto.
    + destruct (IH l1 x l2 E) as (m1 & m2 & -> & E1 & E2). exists (b :: m1), m2. cbn. rewrite Fa, E1. auto.
  - destruct (IH l1 x l2 E) as (m1 & m2 & -> & E1 & E2). exists (a :: m1), m2. cbn. rewrite Fa. auto.
Qed.

Lemma boots_operators e : boots e -> operators e = true.
Proof. intros (i & [E|E] & _); unfold operators; rewrite E; reflexivity. Qed.

Lemma booted_filter tr : booted tr <-> booted (List.filter operators tr).
Proof.
  split; intros (e & I & B); exists e; (split; [|exact B]).
  - apply filter_In. split; [exact I|now apply boots_operators].
  - now apply filter_In in I as [I _].
Qed.

Lemma seed_filter tr : seed_arrived tr <-> seed_arrived (List.filter operators tr).
Proof.
  split; intros (i & since & b & r & a & seed & (bef & b0 & E & B0 & F) & Es & Er & Fb).
  - exists i, (List.filter operators since), (List.filter operators b), r, (List.filter operators a), seed.
    assert (operators r = true) as Hr by (unfold operators; rewrite Er; reflexivity).
    assert (operators b0 = true) as Hb0 by (apply boots_operators; exists i; exact B0).
    split; [|split; [|split; [exact Er|]]].
    + exists (List.filter operators bef), b0. split; [|split; [exact B0|]].
      * rewrite E, filter_app. cbn [List.filter]. rewrite Hb0. reflexivity.
      * apply List.Forall_forall. intros e I. apply filter_In in I as [I _]. rewrite List.Forall_forall in F. now apply F.
    + rewrite Es, filter_app. cbn [List.filter]. rewrite Hr. reflexivity.
    + apply List.Forall_forall. intros e I. apply filter_In in I as [I _]. rewrite List.Forall_forall in Fb. now apply Fb.
  - destruct (filter_split operators tr _ _ _ E) as (bef' & since' & -> & _ & E2). rewrite Es in E2.
    destruct (filter_split operators since' _ _ _ E2) as (b' & a' & -> & E3 & _).
    exists i, (b' ++ r :: a'), b', r, a', seed. split; [|split; [reflexivity|split; [exact Er|]]].
    + exists bef', b0. split; [reflexivity|]. split; [exact B0|]. apply List.Forall_forall. intros e I B.
      rewrite List.Forall_forall in F. apply (F e); [|exact B]. rewrite Es, <- E2. apply filter_In. split; [exact I|now apply boots_operators].
    + apply List.Forall_forall. intros e I o Eo. rewrite List.Forall_forall in Fb. apply (Fb e) with (o := o); [|exact Eo].
      rewrite <- E3. apply filter_In. split; [exact I|]. unfold operators. rewrite Eo. reflexivity.
Qed.

(** Outsiders, whatever they call, cannot make a call trap that would not trap without them,
    nor the other way round. *)
Theorem C92_outsiders : forall D cid tr1 s1 tr2 s2 now o, deps_ok D ->
  exec D cid tr1 s1 -> exec D cid tr2 s2 -> List.filter operators tr1 = List.filter operators tr2 ->
  Forall (fun e => ev_time e <= now) tr1 -> Forall (fun e => ev_time e <= now) tr2 -> now <= u64_max -> op_wf o ->
  (traps D cid now o s1 <-> traps D cid now o s2).
Proof.
  intros D cid tr1 s1 tr2 s2 now o HD H1 H2 E T1 T2 Hn Hw.
  rewrite (C92_exactly D cid tr1 s1 now o HD H1 T1 Hn Hw), (C92_exactly D cid tr2 s2 now o HD H2 T2 Hn Hw).
  assert (booted tr1 <-> booted tr2) as Hb by (rewrite (booted_filter tr1), E, <- booted_filter; reflexivity).
  assert (seed_arrived tr1 <-> seed_arrived tr2) as Hs by (rewrite (seed_filter tr1), E, <- seed_filter; reflexivity).
  destruct o as [i|i|sd|x|sg x sk n|[cert|] x sk e|p|p|x]; cbn [must_trap]; rewrite ?Hb, ?Hs; reflexivity.
Qed.

(** Concrete: the history of the examples, in which everything has happened, against one in
    which the operator is alone; nothing that can be called traps but a call of
    siwe_get_delegation outside a query. *)
Example C92_case : exists s1 s2, exec CD demo_cid demo_tr (Some s1) /\ exec CD demo_cid (take 2 demo_tr) (Some s2) /\
  List.filter operators demo_tr = List.filter operators (take 2 demo_tr) /\ length demo_tr = 13%nat /\
  ~ traps CD demo_cid (100 * sec) (PrepareLogin (wallet_address CD alice)) (Some s1) /\
  ~ traps CD demo_cid (100 * sec) (SiweLogin [] (wallet_address CD alice) [] []) (Some s2) /\
  traps CD demo_cid (100 * sec) (GetDelegation None (wallet_address CD alice) [] 0) (Some s2).
Proof.
  destruct demo_exec as [s1 H1]. destruct (demo_prefix 2) as [s2 H2]; [lia|]. exists s1, s2.
  assert (booted demo_tr) as B1.
  { exists (demo_at 0). split; [left; reflexivity|]. exists demo_input. split; [left; reflexivity|reflexivity]. }
  assert (booted (take 2 demo_tr)) as B2.
  { exists (demo_at 0). split; [left; reflexivity|]. exists demo_input. split; [left; reflexivity|reflexivity]. }
  assert (seed_arrived demo_tr) as S1.
  { exists demo_input, (drop 1 demo_tr), [], (demo_at 1), (drop 2 demo_tr), (match ev_op (demo_at 1) with RawRand (Some sd) => sd | _ => [] end).
    split; [apply (demo_since 13); lia|]. split; [reflexivity|]. split; [reflexivity|constructor]. }
  assert (Forall (fun e => ev_time e <= 100 * sec) demo_tr) as T1.
  { unfold demo_tr. repeat constructor; cbn [ev_time]; unfold sec; lia. }
  assert (Forall (fun e => ev_time e <= 100 * sec) (take 2 demo_tr)) as T2.
  { unfold demo_tr. cbn [take]. repeat constructor; cbn [ev_time]; unfold sec; lia. }
  assert (100 * sec <= u64_max) as Tn by (unfold sec, u64_max; lia).
  split; [exact H1|]. split; [exact H2|]. split; [reflexivity|]. split; [reflexivity|].
  split; [|split].
  - rewrite (C92_exactly CD demo_cid demo_tr _ _ (PrepareLogin _) CD_ok H1 T1 Tn I). cbn [must_trap]. intros [Hn|[_ Hn]]; contradiction.
  - rewrite (C92_exactly CD demo_cid _ _ _ (SiweLogin _ _ _ _) CD_ok H2 T2 Tn I). cbn [must_trap]. intros Hn. contradiction.
  - rewrite (C92_exactly CD demo_cid _ _ _ (GetDelegation None _ _ _) CD_ok H2 T2 Tn); [exact I|cbn; unfold u64_max; lia].
Qed.

(** and before the seed has come. *)
Example C92_early_case : exists s, exec CD demo_cid (take 1 demo_tr) (Some s) /\
  traps CD demo_cid sec (PrepareLogin (wallet_address CD alice)) (Some s) /\
  ~ traps CD demo_cid sec (PrepareLogin (bs "0x")) (Some s).
Proof.
  destruct (demo_prefix 1) as [s H]; [lia|]. exists s. split; [exact H|].
  assert (Forall (fun e => ev_time e <= sec) (take 1 demo_tr)) as T.
  { unfold demo_tr. cbn [take]. repeat constructor; cbn [ev_time]; unfold sec; lia. }
  assert (sec <= u64_max) as Tn by (unfold sec, u64_max; lia).
  split.
  - rewrite (C92_exactly CD demo_cid _ _ _ (PrepareLogin _) CD_ok H T Tn I). cbn [must_trap]. right. split.
    + destruct (address_cases CD (wallet_address CD alice) CD_ok) as [(e & E & _)|(b & A & _)]; [|eauto].
      exfalso. vm_compute in E. discriminate E.
    + intros (i & since & b & r & a & seed & Hs & Es & _).
      destruct (since_boot_fun _ _ _ _ _ Hs (demo_since 1 ltac:(lia))) as [_ E]. rewrite E in Es. destruct b; discriminate Es.
  - rewrite (C92_exactly CD demo_cid _ _ _ (PrepareLogin _) CD_ok H T Tn I). cbn [must_trap]. intros [Hn|[[b [L E]] _]].
    + apply Hn. exists (demo_at 0). split; [left; reflexivity|]. exists demo_input. split; [left; reflexivity|reflexivity].
    + destruct (address_cases CD (bs "0x") CD_ok) as [(e & _ & N)|(b' & _ & E' & _)].
      * exact (N b (conj L E)).
      * vm_compute in E'. discriminate E'.
Qed.

Print Assumptions C92_exactly.
Print Assumptions C92_messages.
Print Assumptions C92_outsiders.
