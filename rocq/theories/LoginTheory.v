(** The login theorems' lemmas: pending messages read off the history. *)
From Coq Require Import Strings.String ZifyBool ZifyN ZifyNat.
From Verif Require Import Base BaseLemmas Deps Hex Eth Hash HashTree RbTree SigMap Time3339 Settings Siwe Encode
  Delegation Login Provider SpecEth EthProofs SpecHash DelegationProofs SpecWire WireProofs SpecTree SigMapProofs
  MapRuns SpecSiwe SiweProofs SpecInit SettingsProofs SpecTrace LoginProofs ProviderProofs TraceProofs.
Local Open Scope N_scope.

(** ** Histories *)

Lemma boot_step D cid now i s s' : (exists o, (o = Install i \/ o = Upgrade i) /\ step D cid now o s = (s', RDone)) ->
  exists c, s' = Some c.
Proof.
  intros (o & [-> | ->] & H); cbn [step] in H.
  - destruct (do_install D cid i) as [c|]; [|discriminate]. exists c. congruence.
  - destruct s as [c|]; [|discriminate]. destruct (do_upgrade D cid i c) as [c'|]; [|discriminate]. exists c'. congruence.
Qed.

Lemma step_keeps D cid now o c s' r : step D cid now o (Some c) = (s', r) -> exists c', s' = Some c'.
Proof.
  intros H. destruct o; cbn [step] in H.
  - destruct (do_install D cid i); eexists; assert (fst (s', r) = fst (s', r)) by reflexivity; symmetry in H; injection H as -> ->; reflexivity.
  - destruct (do_upgrade D cid i c); symmetry in H; injection H as -> ->; eauto.
  - symmetry in H; injection H as -> ->; eauto.
  - unfold run_update in H. destruct (siwe_prepare_login D now address c) as [[]|]; symmetry in H; injection H as -> ->; eauto.
  - unfold run_update in H. destruct (siwe_login D cid now signature address session_key nonce c) as [[]|];
      symmetry in H; injection H as -> ->; eauto.
  - exists c. unfold run_query in H. congruence.
  - exists c. unfold run_query in H. congruence.
  - exists c. unfold run_query in H. congruence.
  - exists c. unfold run_query in H. congruence.
Qed.

(** Once code is installed it stays installed. *)
Lemma exec_installed D cid tr s : exec D cid tr s -> (exists e, In e tr /\ boots e) -> exists c, s = Some c.
Proof.
  induction 1 as [|tr st now o st' r H IH Ht Hn Hw Hs]; intros (e & Hin & Hb); [contradiction|].
  apply in_app_iff in Hin as [Hin|[<-|[]]].
  - destruct IH as [c ->]; [eauto|]. eapply step_keeps, Hs.
  - destruct Hb as (i & Ho & Hr). cbn in Ho, Hr. subst r. eapply (boot_step D cid now i st). eauto.
Qed.

Lemma since_boot_installed D cid tr s i since : exec D cid tr s -> since_boot tr i since -> exists c, s = Some c.
Proof.
  intros H (bef & b & -> & Hb & _). eapply exec_installed; [exact H|]. exists b. split; [apply in_app_iff; right; left; reflexivity|].
  exists i. exact Hb.
Qed.

(** The invariant with the history's own configuration. *)
Lemma exec_since D cid tr s i since : deps_ok D -> exec D cid tr s -> since_boot tr i since ->
  exists c st, s = Some c /\ inv D cid tr c i st since /\ can_ok D c st.
Proof.
  intros HD H Hb. destruct (since_boot_installed D cid tr s i since H Hb) as [c ->].
  destruct (exec_inv D cid tr c HD H) as (i' & st & since' & Hi).
  destruct (since_boot_fun tr i since i' since' Hb (inv_since _ _ _ _ _ _ _ Hi)) as [-> ->].
  exists c, st. split; [reflexivity|]. split; [assumption|]. eapply inv_can_ok; [exact Hi|]. eapply exec_times, H.
Qed.

Lemma exec_booted D cid tr c : deps_ok D -> exec D cid tr (Some c) -> exists i since, since_boot tr i since.
Proof.
  intros HD H. destruct (exec_inv D cid tr c HD H) as (i & st & since & Hi). exists i, since. apply Hi.
Qed.

(** Two ways to split one list. *)
Lemma split_two {A} (l1 l2 m1 m2 : list A) a b : l1 ++ a :: l2 = m1 ++ b :: m2 ->
  (l1 = m1 /\ a = b /\ l2 = m2) \/ (exists k, m1 = l1 ++ a :: k /\ l2 = k ++ b :: m2) \/
  (exists k, l1 = m1 ++ b :: k /\ m2 = k ++ a :: l2).
Proof.
  revert m1. induction l1 as [|y l1 IH]; intros [|y' m1] E; cbn in E.
  - injection E as -> ->. auto.
  - injection E as -> ->. right. left. exists m1. auto.
  - injection E as <- <-. right. right. exists l1. auto.
  - injection E as -> E. destruct (IH _ E) as [(-> & -> & ->)|[(k & -> & ->)|(k & -> & ->)]]; [auto| |].
    + right. left. exists k. auto.
    + right. right. exists k. auto.
Qed.

Lemma touches_dec D k e : deps_ok D -> touches D k e \/ ~ touches D k e.
Proof.
  intros HD.
  assert (forall x, (exists b, address_text D x b) \/ forall b, ~ address_text D x b) as Hx.
  { intros x. destruct (address_cases D x HD) as [(err & E & Nx)|(b & Ax & _)]; eauto. }
  destruct (ev_op e) as [| | |x|sg x sk n| | | |] eqn:Eo;
    try (right; intros [(x' & t & n' & b & [E _] & _)|(x' & n' & b & (sg' & sk' & b' & sb & E & _) & _)]; congruence).
  - destruct (Hx x) as [[b Ha]|Nx].
    2:{ right. intros [(x' & t & n' & b & [E _] & A & _)|(x' & n' & b & (sg' & sk' & b' & sb & E & _) & _)]; [|congruence].
        assert (x' = x) as -> by congruence. now apply Nx in A. }
    destruct (is_prepared e) eqn:Ep.
    + apply is_prepared_spec in Ep as (x' & t & n & Hp). assert (x' = x) as -> by (destruct Hp; congruence).
      rewrite (touches_prepared D k e x t n b HD Hp Ha). destruct (decide (k = message_key D b n)); auto.
    + right. intros [(x' & t & n' & b' & P & _)|(x' & n' & b' & (sg' & sk' & b'' & sb & E & _) & _)]; [|congruence].
      assert (is_prepared e = true) by (apply is_prepared_spec; eauto). congruence.
  - destruct (Hx x) as [[b Ha]|Nx].
    2:{ right. intros [(x' & t & n' & b & [E _] & A & _)|(x' & n' & b & (sg' & sk' & b' & sb & E & _) & A & _)]; [congruence|].
        assert (x' = x) as -> by congruence. now apply Nx in A. }
    destruct (signature_cases sg) as [(err & S & Ns)|(sb & Sx & _)].
    2:{ rewrite (touches_login D k e sg x sk n b sb HD Eo Ha Sx). destruct (decide (k = message_key D b n)); auto. }
    right. intros [(x' & t & n' & b' & [E _] & A & _)|(x' & n' & b' & (sg' & sk' & b'' & sb & E & _ & Hsb) & A & _)]; [congruence|].
    assert (sg' = sg) as -> by congruence. now apply Ns in Hsb.
Qed.

(** ** Waiting messages *)

Lemma awaiting_fun D i since now k t1 n1 t2 n2 :
  awaiting D i since now k t1 n1 -> awaiting D i since now k t2 n2 -> t1 = t2 /\ n1 = n2.
Proof.
  intros (bef1 & p1 & aft1 & x1 & b1 & m1 & E1 & P1 & A1 & K1 & F1 & T1 & _)
         (bef2 & p2 & aft2 & x2 & b2 & m2 & E2 & P2 & A2 & K2 & F2 & T2 & _).
  assert (touches D k p1) as U1 by (left; eauto 8). assert (touches D k p2) as U2 by (left; eauto 8).
  rewrite List.Forall_forall in F1, F2. rewrite E1 in E2.
  apply split_two in E2 as [(-> & -> & ->)|[(l & -> & ->)|(l & -> & ->)]].
  - destruct P1 as [_ R1], P2 as [_ R2]. rewrite R1 in R2. split; congruence.
  - destruct (F1 p2); [|assumption]. apply in_app_iff. right. left. reflexivity.
  - destruct (F2 p1); [|assumption]. apply in_app_iff. right. left. reflexivity.
Qed.

Section Waiting.
  Context (D : Deps) (cid : bytes) (tr : list event) (c : canister) (i : SettingsInput) (s : Settings)
    (since : list event) (now : N).
  Hypothesis Hi : inv D cid tr c i s since.
  Hypothesis Hnow : Forall (fun e => ev_time e <= now) tr.

  Lemma since_times : Forall (fun e => ev_time e <= now) since.
  Proof.
    destruct (since_boot_sub _ _ _ (inv_since _ _ _ _ _ _ _ Hi)) as [l ->]. now apply List.Forall_app in Hnow as [_ H].
  Qed.

  Lemma window_in : s_sign_in_expires_in s = sign_in_window i.
  Proof. exact (init_sign_in _ _ _ _ _ (inv_init _ _ _ _ _ _ _ Hi)). Qed.
  Lemma window_session : s_session_expires_in s = session_window i.
  Proof. exact (init_session _ _ _ _ _ (inv_init _ _ _ _ _ _ _ Hi)). Qed.

  Lemma live_awaiting k m text : live now c !! k = Some m -> siwe_to_string m = Done text ->
    awaiting D i since now k text (m_issued_at m).
  Proof.
    intros El Et. apply live_lookup in El as [El Hx].
    destruct (inv_from _ _ _ _ _ _ _ Hi _ _ El) as (aft & bef & p & x & b & n & text' & Es & Hp & Ha & Ek & Em & Et' & HF).
    exists bef, p, aft, x, b, n. rewrite <- window_in. subst m. cbn [the_message m_issued_at m_expiration_time] in *.
    assert (text' = text) as -> by congruence. auto 10.
  Qed.

  Lemma awaiting_live k text t : awaiting D i since now k text t ->
    exists m, live now c !! k = Some m /\ siwe_to_string m = Done text /\ m_issued_at m = t.
  Proof.
    intros (bef & p & aft & x & b & n & Es & Hp & Ha & Ek & HF & Et & Hx).
    exists (the_message s x n (ev_time p)). rewrite <- window_in, Et in Hx.
    destruct (inv_texts _ _ _ _ _ _ _ Hi p x text n) as [Etx _]; [|assumption|].
    { rewrite Es. apply in_app_iff. right. left. reflexivity. }
    split; [|split; [assumption|symmetry; assumption]]. apply live_lookup. split; [|exact Hx].
    apply (inv_kept _ _ _ _ _ _ _ Hi k _ aft).
    - exists bef, p, x, b, n, text. auto 10.
    - pose proof since_times as Hst. rewrite Es in Hst. apply List.Forall_app in Hst as [_ Hst].
      apply List.Forall_cons_iff in Hst as [_ Hst]. revert Hst. apply List.Forall_impl. intros e He.
      cbn [the_message m_expiration_time]. eapply N.le_lt_trans; [exact He|exact Hx].
  Qed.

  Lemma not_awaiting k : live now c !! k = None -> forall text t, ~ awaiting D i since now k text t.
  Proof. intros E text t H. apply awaiting_live in H as (m & Em & _). congruence. Qed.

  Lemma login_out_table sg x sk n c' r : login_out D cid now sg x sk n c s c' r ->
    login_table D cid i since now sg x sk n r.
  Proof.
    pose proof (inv_init _ _ _ _ _ _ _ Hi) as Hin.
    intros [e He Nx|b e Ha Hs Ns|b sb Ha Hs El|b sb m text e Ha Hs El Et Er Nr|b sb m text y Ha Hs El Et Ry Ne Nr
           |b sb m text e sigs k Ha Hs El Et Rx Ek Ep|b sb m text sigs0 k sigs dh Ha Hs El Et Rx Ek Ep Edh Eput].
    - now apply row_address.
    - now apply (row_signature _ _ _ _ _ _ _ _ _ b).
    - apply (row_missing _ _ _ _ _ _ _ _ _ b sb); auto. now apply not_awaiting.
    - eapply row_unrecoverable; eauto. eapply live_awaiting; eassumption.
    - eapply row_mismatch; eauto. eapply live_awaiting; eassumption.
    - eapply row_bad_key; eauto. eapply live_awaiting; eassumption.
    - unfold sat_add. rewrite window_session. eapply row_ok; eauto.
      + eapply live_awaiting; eassumption.
      + rewrite <- (seed_of_user D cid i s (c_flags c) x Hin). reflexivity.
  Qed.
End Waiting.

Lemma recovers_fun D text sg x y : deps_ok D -> recovers D text sg x -> recovers D text sg y -> x = y.
Proof.
  intros HD Hx Hy. destruct (recovers_sig D text sg x Hx) as [sb Hs].
  destruct (signature_cases sg) as [(e & S & Ns)|(sb' & Sx & S & Esb)]; [now apply Ns in Hs|].
  apply (recovers_iff D text sg sb' x HD Sx Esb) in Hx. apply (recovers_iff D text sg sb' y HD Sx Esb) in Hy. congruence.
Qed.

Lemma login_table_fun D cid i since now sg x sk n r1 r2 : deps_ok D ->
  login_table D cid i since now sg x sk n r1 -> login_table D cid i since now sg x sk n r2 -> r1 = r2.
Proof.
  intros HD H1 H2.
  assert (forall b b', address_text D x b -> address_text D x b' -> b = b') as Hf.
  { intros b b' A A'. eapply address_text_inj; eassumption. }
  inversion H1 as [e1 N1 E1|b1 e1 A1 N1 E1|b1 s1 A1 S1 W1|b1 s1 t1 u1 e1 A1 S1 W1 R1 E1|b1 s1 t1 u1 y1 A1 S1 W1 R1 E1
    |b1 s1 t1 u1 e1 A1 S1 W1 R1 K1|b1 s1 t1 u1 pk1 A1 S1 W1 R1 K1 P1]; clear H1; subst r1;
  inversion H2 as [e2 N2 E2|b2 e2 A2 N2 E2|b2 s2 A2 S2 W2|b2 s2 t2 u2 e2 A2 S2 W2 R2 E2|b2 s2 t2 u2 y2 A2 S2 W2 R2 E2
    |b2 s2 t2 u2 e2 A2 S2 W2 R2 K2|b2 s2 t2 u2 pk2 A2 S2 W2 R2 K2 P2]; clear H2; subst r2;
  try (exfalso; eapply N1; eassumption); try (exfalso; eapply N2; eassumption); try congruence;
  rewrite <- (Hf _ _ A1 A2) in *; try (exfalso; eapply W1; eassumption); try (exfalso; eapply W2; eassumption);
  destruct (awaiting_fun _ _ _ _ _ _ _ _ _ W1 W2) as [<- <-];
  try (exfalso; eapply R1; eassumption); try (exfalso; eapply R2; eassumption); try congruence;
  pose proof (recovers_fun _ _ _ _ _ HD R1 R2); congruence.
Qed.
