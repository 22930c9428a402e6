(** A login with a message that prepareLogin has fetched before. *)
From Coq Require Import Strings.String ZifyBool ZifyN ZifyNat.
From Verif Require Import Base BaseLemmas Deps Hex Eth Encode Delegation Login Provider Json SpecEth SpecTree SpecTrace
  ProviderProofs LoginTheory DelegationTheory TraceProofs LoginProofs CallProofs
  PropertiesLogin PropertiesCalls PropertiesDelegation
  Client ClientJson SpecClient ClientProofs ClientSeq ClientStatus ClientLive SpecLive LiveProofs.
Local Open Scope N_scope.

Inductive at_ready (j : nat) (x text n : bytes) (l : list action) : nat -> task -> ctx -> list event -> list event -> Prop :=
| rd_0 c new : others l new -> x_message c = Some (text, n) -> at_ready j x text n l 0 TAddresses c new []
| rd_1 c new : others l new -> at_ready j x text n l 1 (TSign x text n) c new []
| rd_2 c new sg k : others l new -> In (AContinue j (SSigned sg k)) l -> at_ready j x text n l 2 (TActor x n sg k) c new []
| rd_3 c new sg k : others l new -> In (AContinue j (SSigned sg k)) l -> at_ready j x text n l 3 (TLogin x n sg k None) c new []
| rd_4 c a g r sg k exp pk : others l a -> In (AContinue j (SSigned sg k)) l ->
    logged_in g sg x (kp_der k) n exp pk -> exp <= u64_max ->
    at_ready j x text n l 4 (TLogin x n sg k (Some (RLogin (Ok (mkDetails exp pk))))) c (a ++ g :: r) [g]
| rd_5 c a g r sg k exp pk : others l a -> In (AContinue j (SSigned sg k)) l ->
    logged_in g sg x (kp_der k) n exp pk -> exp <= u64_max ->
    at_ready j x text n l 5 (TDelegation x k (mkDetails exp pk) None) c (a ++ g :: r) [g]
| rd_6 c new g h cert exp pk sg k d sd : In (AContinue j (SSigned sg k)) l ->
    logged_in g sg x (kp_der k) n exp pk -> ev_op h = GetDelegation (Some cert) x (kp_der k) exp ->
    at_ready j x text n l 6 (TDelegation x k d (Some (RDelegation (Ok sd)))) c new [g; h]
| rd_7 c new g h cert exp pk sg id : In (AContinue j (SSigned sg (id_key id))) l ->
    logged_in g sg x (kp_der (id_key id)) n exp pk -> ev_op h = GetDelegation (Some cert) x (kp_der (id_key id)) exp ->
    x_identity c = Some id -> x_address c = Some (JStr x) -> x_chain c = Some (id_chain id) -> x_login c = Success ->
    at_ready j x text n l 7 (TReturned id) c new [g; h].

Lemma at_ready_mono j x text n l a m t c new own : at_ready j x text n l m t c new own -> at_ready j x text n (l ++ [a]) m t c new own.
Proof.
  assert (forall s, In (AContinue j s) l -> In (AContinue j s) (l ++ [a])) as Hin by (intros; apply in_app_iff; auto).
  destruct 1; econstructor; eauto using others_mono.
Qed.
Lemma at_ready_other j x text n l now o r m t c new own : at_ready j x text n l m t c new own ->
  at_ready j x text n (l ++ [ACanister now o]) m t c (new ++ [mkEvent now o r]) own.
Proof.
  assert (forall s, In (AContinue j s) l -> In (AContinue j s) (l ++ [ACanister now o])) as Hin by (intros; apply in_app_iff; auto).
  pose proof (fun evs => others_snoc l (mkEvent now o r) evs) as Ho. cbn [ev_time ev_op] in Ho.
  destruct 1; rewrite <- ?app_assoc, <- ?app_comm_cons; econstructor; eauto using others_mono.
Qed.

(** What one action adds to the histories. *)
Lemma histories_grow D cid acts w l a w1 w' new own : runs D cid acts w -> runs D cid (acts ++ ALogin :: l) w1 ->
  act_step D cid a w1 = Some w' -> w_history w' = w_history w ++ new -> w_own w' = w_own w ++ own ->
  exists new1 e own1 o, w_history w1 = w_history w ++ new1 /\ new = new1 ++ e /\ w_own w1 = w_own w ++ own1 /\ own = own1 ++ o.
Proof.
  intros H0 R1 Hs Eh Eo.
  assert (exists n1 o1, w_history w1 = w_history w ++ n1 /\ w_own w1 = w_own w ++ o1) as (n1 & o1 & E1 & E2).
  { clear - R1 H0. revert w1 R1. induction l as [|a l IH] using rev_ind; intros w1 R1.
    - apply runs_last in R1 as (w0 & R0 & _ & Hs). rewrite (runs_fun _ _ _ _ _ R0 H0) in Hs.
      cbn [act_step] in Hs. destruct (login_starts (w_ctx w)), (x_initializing (w_ctx w)); [discriminate|]. injection Hs as <-.
      exists [], []. cbn [w_history w_own]. now rewrite !app_nil_r.
    - rewrite app_comm_cons, app_assoc in R1. apply runs_last in R1 as (w2 & R2 & _ & Hs).
      destruct (IH w2 R2) as (n1 & o1 & E1 & E2). apply act_step_view in Hs.
      destruct Hs; cbn [w_history w_own]; rewrite ?E1, ?E2, <- ?app_assoc; eauto. }
  assert (exists e o, w_history w' = w_history w1 ++ e /\ w_own w' = w_own w1 ++ o) as (e & o & E3 & E4).
  { clear - Hs. apply act_step_view in Hs. destruct Hs; cbn [w_history w_own]; try (exists [], []; now rewrite !app_nil_r);
      [eexists _, _; split; reflexivity|eexists _, []; split; [reflexivity|now rewrite app_nil_r]]. }
  exists n1, e, o1, o. rewrite Eh, E1, <- app_assoc in E3. apply app_inv_head in E3.
  rewrite Eo, E2, <- app_assoc in E4. apply app_inv_head in E4. auto.
Qed.

Section Ready.
  Variables (D : Deps) (cid : bytes) (HD : deps_ok D).
  Variables (acts : list action) (w : world) (i : SettingsInput) (since sb sa : list event) (p : event) (x addr text n : bytes).
  Hypothesis (H0 : runs D cid acts w) (Hini : x_initializing (w_ctx w) = false) (Hset : Forall settled (w_tasks w))
    (Hmsg : x_message (w_ctx w) = Some (text, n)) (Hb : since_boot (w_history w) i since) (Es : since = sb ++ p :: sa)
    (Hp : prepared p x text n) (Hunused : Forall (fun q => ~ login_attempt D q x n) sa) (Ha : address_text D x addr).
  Let j := length (w_tasks w).

  Lemma ready_serve l m t c s new own now cert o s' r :
    no_fault D i j x (l ++ [AServe j now cert]) since (new ++ [mkEvent now o r]) ((p :: own) ++ [mkEvent now o r]) ->
    exec D cid (w_history w ++ new) s -> Forall (fun e => ev_time e <= now) (w_history w ++ new) -> now <= u64_max -> op_wf o ->
    at_ready j x text n l m t c new own -> task_request cert t = Some o -> step D cid now o s = (s', r) ->
    at_ready j x text n (l ++ [AServe j now cert]) (m + 1) (task_answered r t) c (new ++ [mkEvent now o r]) (own ++ [mkEvent now o r]) \/
    unlucky D i j x (l ++ [AServe j now cert]) sb ((p :: sa) ++ new ++ [mkEvent now o r]).
  Proof.
    intros NF He Ht Hn Hw S R E.
    assert (forall s, In (AContinue j s) l -> In (AContinue j s) (l ++ [AServe j now cert])) as Hin by (intros; apply in_app_iff; auto).
    pose proof (no_fault_prefix _ _ _ _ _ _ _ _ _ _ _ NF) as NF0.
    destruct S; cbn [task_request prep_request] in R; try discriminate R; injection R as <-.
    - (* the login *)
      rename H into Ho, H1 into Hk.
      pose proof (since_boot_app _ _ _ _ Hb (nf_boot _ _ _ _ _ _ _ _ NF0)) as Hb1.
      set (e := mkEvent now (SiweLogin sg x (kp_der k) n) r) in *.
      assert (In p ((p :: []) ++ [e])) as Ip by (left; reflexivity).
      assert (In e ((p :: []) ++ [e])) as Il by (right; left; reflexivity).
      destruct (nf_sign_in _ _ _ _ _ _ _ _ NF p _ text n sg (kp_der k) Ip Il Hp eq_refl) as [T1 T2]. cbn [ev_time e] in T1, T2.
      destruct (nf_wallet _ _ _ _ _ _ _ _ NF0 _ Hk) as [Kd Kr].
      pose proof (Kr p text n (or_introl eq_refl) Hp) as Rx.
      assert (~ bad_key D (kp_der k)) as Hgood by (intros [E1|E1]; [discriminate|congruence]).
      destruct (C31_succeeds D cid _ s i (since ++ new) sb p (sa ++ new) x text n addr sg (kp_der k) now HD He Hb1)
        as [[s2 El]|[(q & text' & Iq & Hq)|(q & x' & n' & b' & Iq & Tq & Aq & Cq)]];
        [rewrite Es, <- app_assoc; reflexivity|exact Hp|exact Ha| |exact Rx|exact Hgood|exact Ht|exact T1|exact T2| | |].
      + apply List.Forall_app. split; [exact Hunused|].
        apply List.Forall_forall. intros q Iq (sg' & sk' & b' & sb' & Eq & _). apply Ho in Iq. rewrite Eq in Iq.
        exact (nf_nonce _ _ _ _ _ _ _ _ NF0 _ _ _ _ p text Iq (or_introl eq_refl) Hp).
      + rewrite El in E. injection E as <- <-. left. cbn [task_answered app].
        eapply (rd_4 j x text n _ c new _ [] sg k _ _); eauto using others_mono; [split; reflexivity|lia].
      + right. left. apply in_split in Iq as (a1 & a2 & Eq).
        exists [], p, a1, q, (a2 ++ [e]), text, text', n. split; [|auto]. cbn [app]. f_equal.
        rewrite app_assoc, Eq, <- app_assoc, <- app_comm_cons. reflexivity.
      + right. right. left. exists p, text, n, q, x', n', addr, b'.
        split; [left; reflexivity|]. split; [exact Hp|]. split; [right; rewrite app_assoc; apply in_app_iff; now left|]. auto.
    - (* the delegation *)
      rename H into Ho, H1 into Hk, H2 into Hl, H3 into Hexp.
      set (og := GetDelegation (Some cert) x (kp_der k) exp) in *. cbn [ld_expiration] in E.
      assert (In g ((p :: [g]) ++ [mkEvent now og r])) as Ig by (right; left; reflexivity).
      assert (In (mkEvent now og r) ((p :: [g]) ++ [mkEvent now og r])) as Io by (right; right; left; reflexivity).
      destruct (nf_fetch _ _ _ _ _ _ _ _ NF g _ sg n (kp_der k) exp pk cert Ig Io Hl eq_refl) as [T1 T2]. cbn [ev_time] in T1, T2.
      assert (exec D cid ((w_history w ++ a) ++ g :: r0 ++ [mkEvent now og r]) s') as He3.
      { replace ((w_history w ++ a) ++ g :: r0 ++ [mkEvent now og r]) with ((w_history w ++ a ++ g :: r0) ++ [mkEvent now og r])
          by now rewrite <- ?app_assoc, <- ?app_comm_cons, <- ?app_assoc, <- ?app_comm_cons.
        apply (exec_snoc D cid _ s); auto. }
      assert (forall e, In e a -> ~ boots e) as Nb1.
      { intros e I. apply (nf_boot _ _ _ _ _ _ _ _ NF0). apply in_app_iff. now left. }
      assert (forall l' sg' y n' exp' pk', In l' (since ++ a) -> ~ logged_in l' sg' y (kp_der k) n' exp' pk') as Hfresh.
      { intros l' sg' y n' exp' pk' I' L'. apply in_app_iff in I' as [I'|I'].
        * eapply (nf_fresh _ _ _ _ _ _ _ _ NF0); eassumption.
        * apply Ho in I'. destruct L' as [L' _]. rewrite L' in I'. eapply (nf_key _ _ _ _ _ _ _ _ NF0); eassumption. }
      destruct (C36_available_partial D cid _ g r0 _ s' sg x (kp_der k) n exp pk cert i (since ++ a) HD He3 Hl)
        as [(rd & _ & Erd)|(l' & sg' & x' & sk' & n' & exp' & pk' & t & I' & L' & T' & Hx & Hsk & _)];
        [|exact (since_boot_app _ _ _ _ Hb Nb1)| |reflexivity|exact T1|exact T2| |].
      + apply List.Forall_forall. intros e I. apply (nf_boot _ _ _ _ _ _ _ _ NF0). apply in_app_iff. right. now right.
      + intros l' sg' n' pk' I'. now apply Hfresh.
      + left. cbn [ev_reply] in Erd. subst r. cbn [task_answered]. econstructor; eauto.
      + right. right. right.
        assert (sk' <> kp_der k) as Nk by (intros ->; eapply Hfresh; eassumption).
        destruct Hsk as [[-> _]|C]; [congruence|].
        exists l', sg', x', sk', n', exp', pk', sg, k, exp, t. split; [|auto 10].
        rewrite app_assoc, <- Es, <- app_assoc, app_assoc. apply in_app_iff. left. exact I'.
  Qed.

  Lemma ready_goes l m t c st new own s c' t' st' : no_fault D i j x (l ++ [AContinue j s]) since new (p :: own) ->
    at_ready j x text n l m t c new own -> login_goes t s c st = Some (c', t', st') ->
    at_ready j x text n (l ++ [AContinue j s]) (m + 1) t' c' new own.
  Proof.
    intros NF S G.
    assert (In (AContinue j s) (l ++ [AContinue j s])) as Is by (apply in_app_iff; right; now left).
    pose proof (nf_wallet _ _ _ _ _ _ _ _ NF s Is) as Hw.
    assert (forall s', In (AContinue j s') l -> In (AContinue j s') (l ++ [AContinue j s])) as Hin by (intros; apply in_app_iff; auto).
    destruct S; destruct s as [e|ac| |sg' k'|]; cbn [answers_well] in Hw; try contradiction; cbn [login_goes prep_goes] in G; try discriminate G.
    - rewrite Hw, H1 in G. injection G as <- <- <-. constructor. now apply others_mono.
    - destruct sg' as [|ch sg']; [exfalso|injection G as <- <- <-; econstructor; eauto using others_mono].
      destruct Hw as [_ Hw]. specialize (Hw p text n (or_introl eq_refl) Hp).
      destruct (signature_nonempty D text [] x Hw) as (? & ? & ?). discriminate.
    - injection G as <- <- <-. econstructor; eauto using others_mono.
    - cbn [login_answer] in G. injection G as <- <- <-. econstructor; eauto using others_mono.
    - cbn [delegation_answer] in G. injection G as <- <- <-. econstructor; eauto.
  Qed.

  Lemma ready l w' new own : runs D cid (acts ++ ALogin :: l) w' ->
    w_history w' = w_history w ++ new -> w_own w' = w_own w ++ own ->
    no_fault D i j x l since new (p :: own) ->
    (exists t, w_tasks w' = w_tasks w ++ [t] /\ at_ready j x text n l (own_steps j l) t (w_ctx w') new own) \/
    unlucky D i j x l sb ((p :: sa) ++ new).
  Proof.
    revert w' new own. induction l as [|a l IH] using rev_ind; intros w' new own H Eh Eo NF.
    - left. apply runs_last in H as (w0 & R0 & _ & Hs). rewrite (runs_fun _ _ _ _ _ R0 H0) in Hs. clear w0 R0.
      cbn [act_step] in Hs. rewrite Hini in Hs. cbn [negb] in Hs.
      assert (login_starts (w_ctx w) = (w_ctx w, TAddresses)) as El.
      { destruct (login_starts_cases (w_ctx w)) as [E|(e & _ & B)]; [exact E|exfalso].
        pose proof (runs_status _ _ _ _ H0) as [S1 S2 _ _]. rewrite List.Forall_forall in Hset. destruct B as [B|B].
        - destruct (S2 B) as (t & I & At). apply Hset in I. destruct t as [[]| |a' []|?|?|?|?|?|?]; cbn in *; contradiction.
        - destruct (S1 B) as (t & I & At & _). apply Hset in I. destruct t as [[]| |?|?|?|?|?|?|?]; cbn in *; contradiction. }
      rewrite El in Hs. injection Hs as <-. cbn [w_history w_own w_tasks w_ctx] in *.
      rewrite <- (app_nil_r (w_history w)) in Eh at 1. apply app_inv_head in Eh as <-.
      rewrite <- (app_nil_r (w_own w)) in Eo at 1. apply app_inv_head in Eo as <-.
      exists TAddresses. split; [reflexivity|]. constructor; [intros e []|exact Hmsg].
    - rewrite app_comm_cons, app_assoc in H. apply runs_last in H as (w1 & R1 & Hok & Hs).
      assert (meanwhile a) as Hm by (apply (nf_tab _ _ _ _ _ _ _ _ NF); apply in_app_iff; right; now left).
      destruct (histories_grow D cid acts w l a w1 w' new own H0 R1 Hs Eh Eo) as (new1 & e & own1 & o & Eh1 & -> & Eo1 & ->).
      rewrite app_comm_cons in NF. pose proof (no_fault_prefix _ _ _ _ _ _ _ _ _ _ _ NF) as NF1.
      destruct (IH w1 new1 own1 R1 Eh1 Eo1 NF1) as [(t & Et & S)|U]; [|right; rewrite app_assoc; now apply unlucky_mono].
      rewrite own_steps_snoc. pose proof (runs_cinv _ _ _ _ R1) as [He _ _]. rewrite Eh1 in He.
      apply act_step_view in Hs. destruct Hs as [| |R|R|R|k s t1 x' t' st' N G|k now cert t1 op s' r N R Sp|now op s' r Sp|j0]; try contradiction.
      + cbn [w_history w_own w_tasks w_ctx concerns] in *.
        rewrite Eh1 in Eh. apply app_same in Eh as ->. rewrite Eo1 in Eo. apply app_same in Eo as ->. rewrite !app_nil_r in *.
        rewrite Et in N. destruct (Nat.eqb_spec k j) as [ ->|Nk].
        * unfold j in N, G. rewrite nth_last in N. injection N as <-. left. exists t'. rewrite Et. unfold j. rewrite insert_last. split; [reflexivity|].
          eapply ready_goes; eassumption.
        * exfalso. destruct (Nat.lt_ge_cases k j) as [L|L].
          -- rewrite nth_error_app1 in N by exact L. rewrite settled_goes in G; [discriminate|]. eapply nth_error_Forall; eassumption.
          -- rewrite nth_error_app2 in N by exact L. fold j in N. destruct (k - j)%nat as [|q] eqn:Eq; [lia|destruct q; discriminate N].
      + cbn [w_history w_own w_tasks w_ctx concerns] in *.
        rewrite Eh1 in Eh. apply app_more in Eh as ->. rewrite Eo1 in Eo. apply app_more in Eo as ->.
        destruct (Hok t1 op N R) as (Hti & Hn & Hw). rewrite Eh1 in Hti.
        rewrite Et in N. destruct (Nat.eqb_spec k j) as [ ->|Nk].
        * unfold j in N. rewrite nth_last in N. injection N as <-.
          destruct (ready_serve l _ t (w_ctx w1) (w_canister w1) new1 own1 now cert op s' r NF He Hti Hn Hw S R Sp) as [S'|U];
            [left|right; exact U].
          eexists. rewrite Et. unfold j. rewrite insert_last. split; [reflexivity|exact S'].
        * exfalso. destruct (Nat.lt_ge_cases k j) as [L|L].
          -- rewrite nth_error_app1 in N by exact L. rewrite settled_request in R; [discriminate|]. eapply nth_error_Forall; eassumption.
          -- rewrite nth_error_app2 in N by exact L. fold j in N. destruct (k - j)%nat as [|q] eqn:Eq; [lia|destruct q; discriminate N].
      + cbn [w_history w_own w_tasks w_ctx concerns] in *. left. exists t. split; [exact Et|].
        rewrite Eh1 in Eh. apply app_more in Eh as ->. rewrite Eo1 in Eo. apply app_same in Eo as ->.
        rewrite app_nil_r, Nat.add_0_r. now apply at_ready_other.
      + cbn [w_history w_own w_tasks w_ctx concerns] in *. left. exists t. split; [exact Et|].
        rewrite Eh1 in Eh. apply app_same in Eh as ->. rewrite Eo1 in Eo. apply app_same in Eo as ->.
        rewrite !app_nil_r, Nat.add_0_r. now apply at_ready_mono.
  Qed.
End Ready.
