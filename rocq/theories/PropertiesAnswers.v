(** The history determines the answers. *)
From Coq Require Import Strings.String ZifyBool ZifyN ZifyNat.
From Verif Require Import Base BaseLemmas Deps Hex Eth Hash HashTree RbTree SigMap Time3339 Settings Siwe Encode
  Delegation Login Provider SpecEth EthProofs SpecHash DelegationProofs SpecWire WireProofs SpecTree SigMapProofs
  MapRuns SpecSiwe SiweProofs SpecInit SettingsProofs SpecTrace SpecFetch LoginProofs ProviderProofs TraceProofs LoginTheory MappingProofs
  TimeProofs TimeShort Sha2 Concrete Scripts Demo PropertiesSiwe PropertiesLogin PropertiesMappings PropertiesCalls PropertiesTraps PropertiesFetch SpecAnswers.
Local Open Scope N_scope.

(** Timestamps are written in the shortest way. *)
Theorem C20_shortest : forall t, t <= u64_max -> exists s, format_rfc3339 t = Done s /\ time_text s t.
Proof.
  intros t Ht. destruct (format_reads t Ht) as (s & F & R & I). exists s. split; [exact F|]. exists (parts t).
  split; [exact R|]. split.
  - destruct (C20_calendar t s (parts t) Ht F R) as (A & B & _ & _ & _ & E & G & K). unfold clock_shows. auto.
  - intros s'. exact (format_short t s s' Ht F).
Qed.

(** ... and there is only one such text. *)
Lemma time_text_fun s1 s2 t : time_text s1 t -> time_text s2 t -> s1 = s2.
Proof.
  intros (d1 & R1 & (A1 & B1 & C1 & D1 & E1) & L1) (d2 & R2 & (A2 & B2 & C2 & D2 & E2) & L2).
  assert (d1 = d2) as ->.
  { destruct d1 as [y1 m1 a1 h1 i1 c1 n1], d2 as [y2 m2 a2 h2 i2 c2 n2].
    cbn [dt_year dt_month dt_day dt_hour dt_minute dt_second dt_nanos] in *.
    rewrite A1 in A2. injection A2 as -> -> ->. rewrite B1 in B2. f_equal; lia. }
  apply (read_rfc3339_same s1 s2 d2 R1 R2). apply Nat.le_antisymm; auto.
Qed.

Lemma message_text_fun i x n now t1 t2 : message_text i x n now t1 -> message_text i x n now t2 -> t1 = t2.
Proof.
  intros (c1 & i1 & e1 & C1 & I1 & E1 & ->) (c2 & i2 & e2 & C2 & I2 & E2 & ->).
  rewrite (is_decimal_unique _ _ _ C1 C2), (time_text_fun _ _ _ I1 I2), (time_text_fun _ _ _ E1 E2). reflexivity.
Qed.

Lemma the_message_shows D cid i st fl x n now text : init_spec D cid i st fl -> now <= u64_max ->
  siwe_to_string (the_message st x n now) = Done text -> message_text i x n now text.
Proof.
  intros Hi Hn E. destruct (C20_shortest now Hn) as (s1 & F1 & T1).
  assert (sat_add now (s_sign_in_expires_in st) = N.min (now + sign_in_window i) u64_max) as Es.
  { unfold sat_add, sign_in_window. rewrite (init_sign_in _ _ _ _ _ Hi). reflexivity. }
  destruct (C20_shortest (N.min (now + sign_in_window i) u64_max) ltac:(lia)) as (s2 & F2 & T2).
  unfold siwe_to_string, the_message in E.
  cbn [m_issued_at m_expiration_time m_domain m_address m_statement m_uri m_version m_chain_id m_nonce] in E.
  rewrite F1, Es, F2 in E. cbn [obind] in E. injection E as <-.
  exists (dec (default 1 (in_chain_id i))), s1, s2. split; [apply dec_is_decimal|]. split; [exact T1|]. split; [exact T2|].
  rewrite (init_domain _ _ _ _ _ Hi), (init_statement _ _ _ _ _ Hi), (init_uri _ _ _ _ _ Hi), (init_chain_id _ _ _ _ _ Hi).
  unfold line, nl. change (bs "Version: 1") with (bs "Version: " ++ dec 1).
  rewrite <- ?app_assoc. reflexivity.
Qed.

Lemma address_given D cid tr c i since p q : deps_ok D -> exec D cid tr (Some c) -> since_boot tr i since ->
  get_address D p c = Done q -> address_table D tr i p q.
Proof.
  intros HD H Hs Eq. pose proof (flags_of D cid tr c i since HD H Hs) as [_ Hf].
  pose proof (get_address_reply D cid tr c i since 0 p) as HR. cbn [step] in HR. unfold run_query in HR. rewrite Eq in HR.
  assert (forall x, wants_no_address i = false -> (q = Ok x <-> last_address D tr p x)) as HL.
  { intros x Hw. rewrite <- (HR x HD H Hs Hw). split; [intros ->; reflexivity|]. intros E. congruence. }
  clear HR. unfold get_address in Eq. rewrite Hf in Eq. destruct (wants_no_address i) eqn:Ew.
  - injection Eq as <-. now apply addr_off.
  - destruct (29 <? blen p) eqn:El.
    + injection Eq as <-. apply addr_long; [exact Ew|]. unfold blen in El. lia.
    + destruct q as [x|e]; [apply addr_found; [exact Ew|now apply HL]|].
      assert (forall x, ~ last_address D tr p x) as Hno by (intros x Hl; apply HL in Hl; [discriminate Hl|reflexivity]).
      destruct (c_principal_address c !! p) as [b|] eqn:Eb.
      * destruct (exec_maps D cid tr _ HD H) as [_ _ H3]. rewrite (eip55_of_digits D b) in Eq; [discriminate Eq|auto|].
        rewrite (H3 p b Eb). lia.
      * injection Eq as <-. apply addr_none; [exact Ew| |exact Hno]. unfold blen in El. lia.
Qed.

Lemma principal_given D cid tr c i since x q : deps_ok D -> exec D cid tr (Some c) -> since_boot tr i since ->
  get_principal D x c = Done q -> principal_table D tr i x q.
Proof.
  intros HD H Hs Eq. pose proof (flags_of D cid tr c i since HD H Hs) as [Hf _].
  pose proof (get_principal_reply D cid tr c i since 0 x) as HR. cbn [step] in HR. unfold run_query in HR. rewrite Eq in HR.
  assert (forall p, wants_no_principal i = false -> (q = Ok p <-> last_principal D tr x p)) as HL.
  { intros p Hw. rewrite <- (HR p HD H Hs Hw). split; [intros ->; reflexivity|]. intros E. congruence. }
  clear HR. unfold get_principal in Eq. rewrite Hf in Eq. destruct (wants_no_principal i) eqn:Ew.
  - injection Eq as <-. now apply prin_off.
  - destruct q as [p|e]; [apply prin_found; [exact Ew|now apply HL]|].
    assert (forall p, ~ last_principal D tr x p) as Hno by (intros p Hl; apply HL in Hl; [discriminate Hl|reflexivity]).
    destruct (address_cases D x HD) as [(err & E & Nx)|(b & Ax & E & _ & Eb)]; rewrite E in Eq; cbn [obind] in Eq.
    + injection Eq as <-. now apply prin_address.
    + rewrite Eb in Eq. cbn [obind] in Eq. destruct (c_address_principal c !! b); [discriminate Eq|].
      injection Eq as <-. now apply (prin_none _ _ _ _ b).
Qed.

Lemma prepare_given D cid tr c i since now x c' q : deps_ok D -> exec D cid tr (Some c) -> since_boot tr i since ->
  now <= u64_max -> siwe_prepare_login D now x c = Done (c', q) -> prepare_table D i since now x q.
Proof.
  intros HD H Hs Hn Eq. destruct (exec_since D cid tr (Some c) i since HD H Hs) as (c0 & st & Ec & Hi & _). injection Ec as <-.
  pose proof (inv_settings _ _ _ _ _ _ _ Hi) as Hset. pose proof (inv_init _ _ _ _ _ _ _ Hi) as Hin.
  destruct (address_cases D x HD) as [(err & E & Nx)|(b & Ax & E & Eb & _)].
  - rewrite (prepare_bad_address D now x err c E) in Eq. injection Eq as <- <-. now apply prep_address.
  - pose proof (inv_rng _ _ _ _ _ _ _ Hi) as HR. destruct (inv_seed _ _ _ _ _ _ _ Hi) as [_ HS].
    destruct (ls_rng (c_lib c)) as [rn|] eqn:Er.
    2: { destruct (prepare_unseeded D now x c E Er) as [w Ew]. congruence. }
    destruct (prepare_ok D now x b c st rn Ax E Eb Hset Er Hn) as (text & Et & Ep). rewrite Ep in Eq. injection Eq as <- <-.
    destruct HS as (before & e & after & Es & Eo & HF). destruct HR as (_ & Hp & _).
    apply (prep_message _ _ _ _ _ b before e after (rng_seed rn)); auto.
    + revert HF. apply List.Forall_impl. intros f Ff o Ef. unfold is_raw_rand in Ff. rewrite Ef in Ff. discriminate Ff.
    + rewrite lower_hex_encode, <- Hp. reflexivity.
    + exact (the_message_shows D cid i st _ x _ now text Hin Hn Et).
Qed.

Lemma given D cid tr s now o : deps_ok D -> exec D cid tr s ->
  Forall (fun e => ev_time e <= now) tr -> now < u64_max -> op_wf o ->
  (~ exists w, snd (step D cid now o s) = RTrap w) -> answer D cid tr now o (snd (step D cid now o s)).
Proof.
  intros HD H Ht Hn Hw NT.
  assert (forall i, o = Install i -> answer D cid tr now o (snd (step D cid now o s))) as HI.
  { intros i ->. cbn [step snd answer] in *. destruct (do_install D cid i) as [c|w]; [reflexivity|]. destruct NT. cbn. eauto. }
  destruct s as [c|].
  2: { destruct o; try (destruct NT; cbn; eauto; fail). eapply HI. reflexivity. }
  destruct (exec_booted D cid tr c HD H) as (i & since & Hs).
  destruct o as [j|j|sd|x|sg x sk n|cert x sk e|p|p|x]; cbn [answer].
  - eapply HI. reflexivity.
  - cbn [step] in *. destruct (do_upgrade D cid j c) as [c'|w]; [reflexivity|]. destruct NT. cbn. eauto.
  - reflexivity.
  - cbn [step] in *. destruct (siwe_prepare_login D now x c) as [[c' q]|w] eqn:Eq; cbn [run_update snd] in *; [|destruct NT; eauto].
    exists i, since, q. split; [exact Hs|]. split; [|reflexivity].
    apply (prepare_given D cid tr c i since now x c' q HD H Hs); [lia|exact Eq].
  - destruct (C34_table D cid tr _ i since now sg x sk n HD H Hs Ht) as (s' & q & Es & Tb). rewrite Es. cbn [snd]. eauto 8.
  - destruct cert as [cert|]; [|destruct NT; cbn; eauto].
    destruct (C101_table D cid tr _ i since now cert x sk e HD H Hs Ht Hn Hw) as (q & Es & Tb). rewrite Es. cbn [snd]. eauto 8.
  - cbn [step] in *. destruct (get_address D p c) as [q|w] eqn:Eq; cbn [run_query snd] in *; [|destruct NT; eauto].
    exists i, since, q. split; [exact Hs|]. split; [|reflexivity]. exact (address_given D cid tr c i since p q HD H Hs Eq).
  - cbn [step] in *. destruct (get_caller_address D p c) as [q|w] eqn:Eq; cbn [run_query snd] in *; [|destruct NT; eauto].
    exists i, since, q. split; [exact Hs|]. split; [|reflexivity]. apply (address_given D cid tr c i since p q HD H Hs).
    unfold get_caller_address in Eq. unfold get_address in *. destruct (disable_principal_to_eth (c_flags c)); exact Eq.
  - cbn [step] in *. destruct (get_principal D x c) as [q|w] eqn:Eq; cbn [run_query snd] in *; [|destruct NT; eauto].
    exists i, since, q. split; [exact Hs|]. split; [|reflexivity]. exact (principal_given D cid tr c i since x q HD H Hs Eq).
Qed.

(** Every call, after any history and with any arguments, is answered as the tables of
    SpecAnswers say, and traps exactly when [must_trap] says. *)
Theorem C102_answers : forall D cid tr s now o, deps_ok D -> exec D cid tr s ->
  Forall (fun e => ev_time e <= now) tr -> now < u64_max -> op_wf o ->
  answers D cid tr now o (snd (step D cid now o s)).
Proof.
  intros D cid tr s now o HD H Ht Hn Hw.
  pose proof (C92_exactly D cid tr s now o HD H Ht ltac:(lia) Hw) as HT. unfold traps in HT.
  assert ((exists w, snd (step D cid now o s) = RTrap w) \/ ~ exists w, snd (step D cid now o s) = RTrap w) as [Hx|Hx].
  { destruct (snd (step D cid now o s)); [left; eauto|..]; right; intros [w E]; discriminate E. }
  - left. split; [now apply HT|exact Hx].
  - right. split; [rewrite <- HT; exact Hx|]. now apply given.
Qed.

Lemma latest_same note tr k v1 v2 : latest note tr k v1 -> latest note tr k v2 ->
  (forall pre e v v', note pre e k v -> note pre e k v' -> v = v') -> v1 = v2.
Proof.
  intros (p1 & e1 & q1 & E1 & N1 & F1) (p2 & e2 & q2 & E2 & N2 & F2) Hu. rewrite E1 in E2.
  apply app_eq_inv in E2 as [(k' & Ek & Eq)|(k' & Ek & Eq)].
  - destruct k' as [|a k']; cbn in Eq.
    + rewrite app_nil_r in Ek. subst p2. injection Eq as -> _. eapply Hu; eassumption.
    + exfalso. injection Eq as -> Eq. subst p1. destruct (F2 k' e1 q1 Eq) as [_ Hno]. apply (Hno v1).
      exact N1.
  - destruct k' as [|a k']; cbn in Eq.
    + rewrite app_nil_r in Ek. subst p2. injection Eq as -> _. eapply Hu; eassumption.
    + exfalso. injection Eq as -> Eq. subst p2. destruct (F1 k' e2 q2 Eq) as [_ Hno]. apply (Hno v2).
      exact N2.
Qed.

Lemma notes_fun D off pre e x p x' p' : notes D off pre e x p -> notes D off pre e x' p' -> x = x' /\ p = p'.
Proof.
  intros (i & since & sg & sk & n & exp & pk & _ & _ & [Lo Lr] & ->) (i' & since' & sg' & sk' & n' & exp' & pk' & _ & _ & [Lo' Lr'] & ->).
  rewrite Lo in Lo'. rewrite Lr in Lr'. injection Lo' as -> -> -> ->. split; [reflexivity|].
  assert (pk = pk') as -> by congruence. reflexivity.
Qed.

Lemma first_split {A} (P : A -> Prop) l1 a r1 l2 b r2 : l1 ++ a :: r1 = l2 ++ b :: r2 -> P a -> P b ->
  Forall (fun x => ~ P x) l1 -> Forall (fun x => ~ P x) l2 -> a = b.
Proof.
  revert l2. induction l1 as [|x l1 IH]; intros [|y l2] E Pa Pb F1 F2; cbn in E; injection E as -> E; auto.
  - destruct (Forall_inv F2 Pa).
  - destruct (Forall_inv F1 Pb).
  - apply (IH l2 E Pa Pb); eapply Forall_inv_tail; eassumption.
Qed.

Lemma prepare_table_fun D i since now x q1 q2 : deps_ok D ->
  prepare_table D i since now x q1 -> prepare_table D i since now x q2 -> q1 = q2.
Proof.
  intros HD [e N1 E1|b bef r aft seed n text Ab Es Er F En Tx] [e' N2 E2|b' bef' r' aft' seed' n' text' Ab' Es' Er' F' En' Tx'].
  - congruence.
  - now apply N1 in Ab'.
  - now apply N2 in Ab.
  - assert (r = r') as <-.
    { rewrite Es in Es'. apply (first_split (fun e => exists o, ev_op e = RawRand o) _ _ _ _ _ _ Es'); eauto.
      - revert F. apply List.Forall_impl. intros a Ha [o Eo]. now apply Ha in Eo.
      - revert F'. apply List.Forall_impl. intros a Ha [o Eo]. now apply Ha in Eo. }
    assert (seed' = seed) as -> by congruence. subst n n'. rewrite (message_text_fun _ _ _ _ _ _ Tx Tx'). reflexivity.
Qed.

Lemma address_table_fun D tr i p q1 q2 : deps_ok D -> address_table D tr i p q1 -> address_table D tr i p q2 -> q1 = q2.
Proof.
  intros HD H1 H2.
  assert (forall x, last_address D tr p x -> length p = 29%nat) as HL by (intros x; now apply last_address_length).
  destruct H1 as [?|? L1|? L1 N1|x1 ? A1], H2 as [?|? L2|? L2 N2|x2 ? A2]; try congruence; try lia.
  - apply HL in A2. lia.
  - now apply N1 in A2.
  - apply HL in A1. lia.
  - now apply N2 in A1.
  - f_equal. apply last_address_latest in A1, A2. apply (latest_same (note_a D) _ _ _ _ A1 A2).
    intros pre e v v' Hv Hv'. now apply (notes_fun _ _ _ _ _ _ _ _ Hv Hv').
Qed.

Lemma principal_table_fun D cid tr s i x q1 q2 : deps_ok D -> exec D cid tr s ->
  principal_table D tr i x q1 -> principal_table D tr i x q2 -> q1 = q2.
Proof.
  intros HD H H1 H2.
  assert (forall p, last_principal D tr x p -> exists b, address_text D x b) as HL.
  { intros p Hp. destruct s as [c|].
    - destruct (exec_maps D cid tr _ HD H) as [_ HM _]. apply HM in Hp as (b & Hb & _). eauto.
    - exfalso. destruct Hp as (pre & e & post & -> & (i' & since & _ & _ & _ & _ & _ & Hb & _) & _).
      destruct (exec_none_booted D cid _ _ HD H) as [Hno _]. apply (Hno eq_refl).
      destruct Hb as (bef & b0 & -> & B0 & _). exists b0. split; [|exists i'; exact B0].
      apply in_app_iff. left. apply in_app_iff. right. left. reflexivity. }
  destruct H1 as [?|e1 ? N1 E1|b1 ? A1 N1|p1 ? L1], H2 as [?|e2 ? N2 E2|b2 ? A2 N2|p2 ? L2]; try congruence.
  - now apply N1 in A2.
  - destruct (HL _ L2) as [b Hb]. now apply N1 in Hb.
  - now apply N2 in A1.
  - now apply N1 in L2.
  - destruct (HL _ L1) as [b Hb]. now apply N2 in Hb.
  - now apply N2 in L1.
  - f_equal. apply last_principal_latest in L1, L2. apply (latest_same (note_p D) _ _ _ _ L1 L2).
    intros pre e v v' Hv Hv'. now apply (notes_fun _ _ _ _ _ _ _ _ Hv Hv').
Qed.

(** The tables leave no choice except in the wording of a trap and in what
    siwe_get_delegation signs. *)
Theorem C102_one_answer : forall D cid tr s now o r1 r2, deps_ok D -> exec D cid tr s ->
  (forall cert x sk exp, o <> GetDelegation cert x sk exp) ->
  answers D cid tr now o r1 -> answers D cid tr now o r2 ->
  r1 = r2 \/ exists w1 w2, r1 = RTrap w1 /\ r2 = RTrap w2.
Proof.
  intros D cid tr s now o r1 r2 HD H Hg [[M1 [w1 ->]]|[M1 A1]] [[M2 [w2 ->]]|[M2 A2]]; try contradiction; [right; eauto|].
  left. destruct o as [j|j|sd|x|sg x sk n|cert x sk e|p|p|x]; cbn [answer] in A1, A2; try congruence.
  all: try (match goal with HG : forall cert x sk exp, GetDelegation ?a ?b ?c ?d <> _ |- _ => destruct (HG a b c d eq_refl) end).
  all: destruct A1 as (i & since & q1 & Hs & T1 & ->), A2 as (i' & since' & q2 & Hs' & T2 & ->);
    destruct (since_boot_fun _ _ _ _ _ Hs Hs') as [<- <-]; f_equal.
  - exact (prepare_table_fun _ _ _ _ _ _ _ HD T1 T2).
  - exact (login_table_fun _ _ _ _ _ _ _ _ _ _ _ HD T1 T2).
  - exact (address_table_fun _ _ _ _ _ _ HD T1 T2).
  - exact (address_table_fun _ _ _ _ _ _ HD T1 T2).
  - exact (principal_table_fun _ _ _ _ _ _ _ _ HD H T1 T2).
Qed.

(** After the history of Demo: Alice asks for a fifth message, at twelve and a half
    seconds; others look up who she is. *)
Definition demo_ask (o : op) (s : state) : reply := snd (step CD demo_cid (12 * sec + 500000000) o s).
Definition demo_fifth : bytes := lower_hex (d_chacha CD (repeat x07 32) 4).

Example C102_case : exists s, exec CD demo_cid demo_tr s /\ Forall (fun e => ev_time e <= 12 * sec + 500000000) demo_tr /\
  demo_ask (PrepareLogin (wallet_address CD alice)) s = RPrepare (Ok (
    line (bs "example.com wants you to sign in with your Ethereum account:") ++ line (wallet_address CD alice) ++ line []
    ++ line (bs "SIWE Fields:") ++ line [] ++ line (bs "URI: https://example.com") ++ line (bs "Version: 1")
    ++ line (bs "Chain ID: 1") ++ line (bs "Nonce: " ++ demo_fifth) ++ line (bs "Issued At: 1970-01-01T00:00:12.5Z")
    ++ bs "Expiration Time: 1970-01-01T00:05:12.5Z", demo_fifth)) /\
  demo_ask (PrepareLogin (bs "alice")) s = RPrepare (Err (bs "Address format error: Must start with '0x' and be 42 characters long")) /\
  (exists p, demo_ask (GetPrincipal (wallet_address CD alice)) s = Provider.RBlob (Ok p) /\
             demo_ask (GetAddress p) s = Provider.RText (Ok (wallet_address CD alice))) /\
  demo_ask (GetAddress demo_cid) s = Provider.RText (Err (bs "No address found for the given principal")) /\
  time_text (bs "1970-01-01T00:00:12.5Z") (12 * sec + 500000000).
Proof.
  exists (snd (play CD demo_cid demo_script None)).
  split; [apply (play_exec _ _ demo_script); [vm_compute; reflexivity|rewrite <- demo_play; apply surjective_pairing]|].
  split; [repeat constructor; vm_compute; discriminate|].
  split; [vm_compute; reflexivity|]. split; [vm_compute; reflexivity|].
  split; [eexists; split; [vm_compute; reflexivity|vm_compute; reflexivity]|]. split; [vm_compute; reflexivity|].
  destruct (C20_shortest (12 * sec + 500000000)) as (s & F & T); [vm_compute; discriminate|].
  assert (format_rfc3339 (12 * sec + 500000000) = Done (bs "1970-01-01T00:00:12.5Z")) as E by (vm_compute; reflexivity).
  rewrite E in F. injection F as <-. exact T.
Qed.

Print Assumptions C20_shortest.
Print Assumptions C102_answers.
Print Assumptions C102_one_answer.
