(** Several tabs of one browser (packages/ic_siwe_js), sharing localStorage and the canister. *)
From Coq Require Import Strings.String ZifyBool ZifyN ZifyNat.
From Verif Require Import Base BaseLemmas Deps Hex Eth Encode Delegation Login Provider Json SpecEth SpecTrace
  ProviderProofs LoginTheory LoginProofs Concrete Scripts Demo PropertiesLogin
  Client ClientJson SpecClient ClientProofs ClientSeq ClientStatus ClientDemo Tabs SpecTabs TabsProofs.
Local Open Scope N_scope.

(** ** Runs on the concrete instance *)

Definition bact_okb (last : N) (a : baction) (b : browser) : bool :=
  match a with
  | BOpen => true
  | BTab j a => match nth_error (b_tabs b) j with Some t => act_okb last a (tab_world b t) | None => true end
  | BCanister now o => serves_ok last now o
  end.
Definition bact_time (last : N) (a : baction) : N :=
  match a with BTab _ (AServe _ now _) | BCanister now _ => now | _ => last end.
Fixpoint bperform (D : Deps) (cid : bytes) (last : N) (acts : list baction) (b : browser) : option browser :=
  match acts with
  | [] => Some b
  | a :: acts =>
      if bact_okb last a b then
        match bstep D cid a b with Some b' => bperform D cid (bact_time last a) acts b' | None => None end
      else None
  end.

Lemma bact_okb_spec last a b : bact_okb last a b = true -> Forall (fun e => ev_time e <= last) (b_history b) -> bact_ok a b.
Proof.
  destruct a as [|j a|now o]; cbn; auto.
  - intros H HF t N. rewrite N in H. now apply (act_okb_spec last).
  - intros H HF. exact (serves_okb last now o (tab_world b new_tab) H HF).
Qed.

Lemma bact_time_history D cid last a b b' : bact_okb last a b = true -> bstep D cid a b = Some b' ->
  Forall (fun e => ev_time e <= last) (b_history b) -> Forall (fun e => ev_time e <= bact_time last a) (b_history b').
Proof.
  intros Hok Hs HF. destruct a as [|j a|now o]; cbn [bstep] in Hs.
  - injection Hs as <-. exact HF.
  - cbn [bact_okb] in Hok. destruct (nth_error (b_tabs b) j) as [t|]; [|discriminate]. destruct (tab_action a) eqn:A; [|discriminate].
    destruct (act_step D cid a (tab_world b t)) as [w|] eqn:S; [|discriminate]. injection Hs as <-.
    pose proof (act_time_history D cid last a _ w Hok S HF) as HT. destruct a; exact HT || discriminate A.
  - destruct (step D cid now o (b_canister b)) as [s' r]. injection Hs as <-. cbn [b_history bact_time].
    cbn [bact_okb] in Hok. unfold serves_ok in Hok. rewrite !Bool.andb_true_iff in Hok. apply List.Forall_app. split.
    + revert HF. apply List.Forall_impl. intros e. lia.
    + constructor; [cbn; lia|constructor].
Qed.

Lemma bperform_bruns D cid acts : forall before last b b', bruns D cid before b ->
  Forall (fun e => ev_time e <= last) (b_history b) -> bperform D cid last acts b = Some b' -> bruns D cid (before ++ acts) b'.
Proof.
  induction acts as [|a acts IH]; intros before last b b' H HF E; cbn [bperform] in E.
  - injection E as <-. now rewrite app_nil_r.
  - destruct (bact_okb last a b) eqn:Hok; [|discriminate]. destruct (bstep D cid a b) as [b1|] eqn:Hs; [|discriminate].
    change (a :: acts) with ([a] ++ acts). rewrite app_assoc. eapply (IH _ (bact_time last a) b1).
    + apply (bruns_snoc D cid before b); auto. now apply (bact_okb_spec last).
    + eapply bact_time_history; eassumption.
    + exact E.
Qed.

Definition bseen (b : browser) : list tab * option bytes * list event := (b_tabs b, b_storage b, b_history b).
Lemma bperform_seen D cid acts v : option_map bseen (bperform D cid 0 acts initial_browser) = Some v ->
  exists b, bruns D cid acts b /\ bseen b = v.
Proof.
  destruct (bperform D cid 0 acts initial_browser) as [b|] eqn:E; cbn; [|discriminate]. intros H. exists b.
  split; [|congruence]. apply (bperform_bruns D cid acts [] 0 initial_browser b); [constructor|constructor|exact E].
Qed.

(** Scripts with wallets. *)
Definition in_tab (j : nat) (l : list cact) : list (nat * cact) := map (pair j) l.
Fixpoint bstage (D : Deps) (cid : bytes) (l : list (nat * cact)) (b : browser) : list baction :=
  match l with
  | [] => []
  | (j, c) :: l =>
      match nth_error (b_tabs b) j with
      | Some t =>
          let a := BTab j (cact_action D c (tab_world b t)) in
          match bstep D cid a b with Some b' => a :: bstage D cid l b' | None => [a] end
      | None => []
      end
  end.
Definition two_tabs : list baction :=
  [BCanister 0 (Install demo_input); BCanister (1 * sec) (RawRand (Some (repeat x07 32))); BOpen; BOpen].
Definition after_opening (l : list (nat * cact)) : list baction :=
  match bperform CD demo_cid 0 two_tabs initial_browser with Some b => two_tabs ++ bstage CD demo_cid l b | None => [] end.
Definition bview (acts : list baction) :=
  match option_map bseen (bperform CD demo_cid 0 acts initial_browser) with Some v => v | None => bseen initial_browser end.

(** Alice signs in in one tab and Bob in the other, whose page was loaded before. *)
Definition both_acts : list baction := Eval vm_compute in after_opening
  (in_tab 0 [On AManager] ++ in_tab 1 [On AManager] ++
   in_tab 0 (whole_login 0 (2 * sec) alice alice_text pair1) ++ in_tab 1 (whole_login 0 (3 * sec) bob bob_text pair2)).
Definition both_view := Eval vm_compute in bview both_acts.
(** Alice signs in, opens the page in another tab, and signs out in the first. *)
Definition left_acts : list baction := Eval vm_compute in after_opening
  (in_tab 0 (On AManager :: whole_login 0 (2 * sec) alice alice_text pair1) ++ in_tab 1 [On AManager] ++ in_tab 0 [On AClear]).
Definition left_view := Eval vm_compute in bview left_acts.

Ltac brun_of acts view b H :=
  let E := fresh "E" in let Ht := fresh "Ht" in let Hst := fresh "Hst" in let Hh := fresh "Hh" in
  destruct (bperform_seen CD demo_cid acts view) as (b & H & E); [vm_compute; reflexivity|];
  unfold view, bseen in E; injection E as Ht Hst Hh.

(** ** C89  Every tab shows an identity that was issued to the address it shows *)

Theorem C89_issued : forall D cid acts b j t i, deps_ok D -> bruns D cid acts b ->
  nth_error (b_tabs b) j = Some t -> x_identity (t_ctx t) = Some i ->
  exists x, shows t (Some (x, i)) /\ issued (b_history b) x i.
Proof.
  intros D cid acts b j t i HD H N Hi. destruct (latest_total D cid acts b HD H) as [v L].
  destruct (latest_inv D cid acts b v HD L) as (T & _). destruct (T j t N) as ([[x i']|] & Hs & Hv).
  - destruct Hv as (_ & _ & Hv). pose proof Hs as (E & _). assert (i' = i) as -> by congruence. exists x. auto.
  - destruct Hs as (E & _). congruence.
Qed.

(** Whatever the other tabs do, a tab goes through states that a single tab goes through
    by the same actions: what is proved of one tab among others who write localStorage
    (C50 to C52, C55, C57, C58) holds of each of several. *)
Theorem C89_one_tab : forall D cid acts b j t, bruns D cid acts b -> nth_error (b_tabs b) j = Some t ->
  exists l, runs D cid l (tab_world b t) /\ List.filter tab_action l = tab_acts j acts.
Proof. intros D cid acts b j t H N. exact (tab_sim D cid acts b H j t N). Qed.

Example C89_case : exists b t0 t1 i0 i1, bruns CD demo_cid both_acts b /\ b_tabs b = [t0; t1] /\
  shows t0 (Some (alice_text, i0)) /\ id_key i0 = pair1 /\ shows t1 (Some (bob_text, i1)) /\ id_key i1 = pair2.
Proof.
  brun_of both_acts both_view b H. eexists b, _, _, _, _. split; [exact H|]. split; [exact Ht|].
  split; [split; [reflexivity|split; reflexivity]|]. split; [reflexivity|].
  split; [split; [reflexivity|split; reflexivity]|]. reflexivity.
Qed.

(** ** C90  A page that is loaded shows the last sign-in of any tab, or nobody after a sign-out *)

Theorem C90_total : forall D cid acts b, deps_ok D -> bruns D cid acts b ->
  exists v, latest D cid acts b v /\ forall v', latest D cid acts b v' -> v' = v.
Proof.
  intros D cid acts b HD H. destruct (latest_total D cid acts b HD H) as [v L]. exists v. split; [exact L|].
  intros v' L'. destruct (latest_fun D cid acts HD _ _ _ _ L L'). auto.
Qed.

Theorem C90_reload : forall D cid acts b v j t, deps_ok D -> latest D cid acts b v -> nth_error (b_tabs b) j = Some t ->
  exists b' t', bruns D cid (acts ++ [BTab j ALoad; BTab j AManager]) b' /\ nth_error (b_tabs b') j = Some t' /\
    shows t' v /\ b_storage b' = b_storage b.
Proof.
  intros D cid acts b v j t HD L N. destruct (latest_inv D cid acts b v HD L) as (_ & Hv & Hst).
  change [BTab j ALoad; BTab j AManager] with ([BTab j ALoad] ++ [BTab j AManager]). rewrite app_assoc.
  set (t1 := mkTab initial_ctx [] (t_own t)).
  set (b1 := mkBrowser (<[j := t1]> (b_tabs b)) (b_storage b) (b_canister b) (b_history b)).
  assert (nth_error (b_tabs b1) j = Some t1) as N1 by (apply (nth_insert_same _ _ _ _ N)).
  assert (bstep D cid (BTab j ALoad) b = Some b1) as S1 by (cbn [bstep]; rewrite N; reflexivity).
  set (t2 := mkTab (construct (b_storage b) initial_ctx) [] (t_own t)).
  set (b2 := mkBrowser (<[j := t2]> (b_tabs b1)) (b_storage b) (b_canister b) (b_history b)).
  assert (bstep D cid (BTab j AManager) b1 = Some b2) as S2 by (cbn [bstep]; rewrite N1; reflexivity).
  exists b2, t2. split; [|split; [apply (nth_insert_same _ _ _ _ N1)|split; [|reflexivity]]].
  - eapply bruns_snoc; [eapply bruns_snoc; [apply (latest_runs _ _ _ _ _ L)|intros u _; exact I|exact S1]|intros u _; exact I|exact S2].
  - pose proof (construct_stored D cid (b_history b) (b_canister b) v initial_ctx HD
      (browser_exec D cid acts b (latest_runs _ _ _ _ _ L)) Hv) as Hc.
    unfold shows, t2. cbn [t_ctx]. rewrite Hst. destruct v as [[x i]|]; [exact Hc|].
    destruct Hc as (E1 & E2 & E3). rewrite E1, E2, E3. repeat split.
Qed.

(** So does a tab that is opened. *)
Theorem C90_open : forall D cid acts b v, deps_ok D -> latest D cid acts b v ->
  exists b' t', bruns D cid (acts ++ [BOpen; BTab (length (b_tabs b)) AManager]) b' /\
    b_tabs b' = b_tabs b ++ [t'] /\ shows t' v /\ b_storage b' = b_storage b.
Proof.
  intros D cid acts b v HD L. destruct (latest_inv D cid acts b v HD L) as (_ & Hv & Hst).
  set (n := length (b_tabs b)). change [BOpen; BTab n AManager] with ([BOpen] ++ [BTab n AManager]). rewrite app_assoc.
  set (b1 := mkBrowser (b_tabs b ++ [new_tab]) (b_storage b) (b_canister b) (b_history b)).
  assert (nth_error (b_tabs b1) n = Some new_tab) as N1 by (cbn; rewrite nth_error_app2, Nat.sub_diag by (unfold n; lia); reflexivity).
  assert (bstep D cid BOpen b = Some b1) as S1 by reflexivity.
  set (t2 := mkTab (construct (b_storage b) initial_ctx) [] []).
  set (b2 := mkBrowser (<[n := t2]> (b_tabs b1)) (b_storage b) (b_canister b) (b_history b)).
  assert (bstep D cid (BTab n AManager) b1 = Some b2) as S2 by (cbn [bstep]; rewrite N1; reflexivity).
  exists b2, t2. split; [|split; [|split; [|reflexivity]]].
  - eapply bruns_snoc; [eapply bruns_snoc; [apply (latest_runs _ _ _ _ _ L)|exact I|exact S1]|intros u _; exact I|exact S2].
  - cbn [b2 b1 b_tabs]. unfold n. replace (length (b_tabs b)) with (length (b_tabs b) + 0)%nat by lia. rewrite insert_app_r. reflexivity.
  - pose proof (construct_stored D cid (b_history b) (b_canister b) v initial_ctx HD
      (browser_exec D cid acts b (latest_runs _ _ _ _ _ L)) Hv) as Hc.
    unfold shows, t2. cbn [t_ctx]. rewrite Hst. destruct v as [[x i]|]; [exact Hc|].
    destruct Hc as (E1 & E2 & E3). rewrite E1, E2, E3. repeat split.
Qed.

(** Concrete: Bob signed in last; and Alice signed out. *)
Lemma latest_stored b acts v w : bruns CD demo_cid acts b -> latest CD demo_cid acts b v -> b_storage b = stored w ->
  sound (b_history b) w -> v = w.
Proof.
  intros H L E Hw. destruct (latest_inv CD demo_cid acts b v CD_ok L) as (_ & Hv & Hs). rewrite Hs in E.
  pose proof (construct_stored CD demo_cid _ _ v initial_ctx CD_ok (browser_exec _ _ _ _ H) Hv) as C1.
  pose proof (construct_stored CD demo_cid _ _ w initial_ctx CD_ok (browser_exec _ _ _ _ H) Hw) as C2.
  rewrite E in C1. destruct v as [[x i]|], w as [[y k]|]; try discriminate E; [|reflexivity].
  destruct C1 as (A1 & A2 & _), C2 as (B1 & B2 & _). congruence.
Qed.

Example C90_case : exists b i t1, latest CD demo_cid both_acts b (Some (bob_text, i)) /\ id_key i = pair2 /\
  nth_error (b_tabs b) 0 = Some t1 /\ x_address (t_ctx t1) = Some (JStr alice_text).
Proof.
  brun_of both_acts both_view b H. destruct (C90_total _ _ _ _ CD_ok H) as (v & L & _).
  assert (exists t i, nth_error (b_tabs b) 1 = Some t /\ x_identity (t_ctx t) = Some i /\ x_address (t_ctx t) = Some (JStr bob_text) /\
    id_key i = pair2 /\ b_storage b = Some (save_identity bob_text (id_key i) (id_chain i))) as (t & i & N & Ei & Ex & Ek & Es).
  { rewrite Ht, Hst. eexists _, _. split; [reflexivity|]. split; [reflexivity|]. split; [reflexivity|]. split; [reflexivity|].
    vm_compute. reflexivity. }
  destruct (latest_inv CD demo_cid _ _ _ CD_ok L) as (T & _). destruct (T 1%nat t N) as ([[x i']|] & (S1 & S2 & _) & Hv); [|congruence].
  assert (i' = i) as -> by congruence. assert (x = bob_text) as -> by congruence.
  rewrite (latest_stored b _ v (Some (bob_text, i)) H L Es Hv) in L.
  eexists b, i, _. split; [exact L|]. split; [exact Ek|]. rewrite Ht. split; reflexivity.
Qed.
Example C90_out_case : exists b, latest CD demo_cid left_acts b None /\ length (b_tabs b) = 2%nat.
Proof.
  brun_of left_acts left_view b H. destruct (C90_total _ _ _ _ CD_ok H) as (v & L & _).
  rewrite (latest_stored b _ v None H L Hst I) in L. exists b. split; [exact L|]. rewrite Ht. reflexivity.
Qed.

(** ** C91  All tabs show the same *)

(** Nobody is shown in any tab after a sign-out, and the last sign-in in all of them. *)
Definition C91_out_claim (D : Deps) : Prop := forall cid acts b t, latest D cid acts b None -> In t (b_tabs b) -> shows t None.
Definition C91_in_claim (D : Deps) : Prop := forall cid acts b x i t, latest D cid acts b (Some (x, i)) -> In t (b_tabs b) ->
  x_initializing (t_ctx t) = false -> shows t (Some (x, i)).

Theorem C91_out_refuted : ~ C91_out_claim CD.
Proof.
  intros Hc. brun_of left_acts left_view b H. destruct (C90_total _ _ _ _ CD_ok H) as (v & L & _).
  rewrite (latest_stored b _ v None H L Hst I) in L.
  destruct (nth_error (b_tabs b) 1) as [t|] eqn:N; [|rewrite Ht in N; discriminate N].
  destruct (Hc demo_cid _ b t L (nth_error_In _ _ N)) as (E & _). rewrite Ht in N. injection N as <-. discriminate E.
Qed.

Theorem C91_in_refuted : ~ C91_in_claim CD.
Proof.
  intros Hc. destruct C90_case as (b & i & t & L & _ & N & E).
  assert (x_initializing (t_ctx t) = false) as Ei.
  { destruct (x_initializing (t_ctx t)) eqn:Ei; [|reflexivity]. exfalso.
    destruct (tab_sim _ _ _ _ (latest_runs _ _ _ _ _ L) 0%nat t N) as (l & R & _).
    destruct (runs_initializing _ _ _ _ R Ei) as [Ec _]. cbn [tab_world w_ctx] in Ec. rewrite Ec in E. discriminate E. }
  destruct (Hc demo_cid _ b _ _ t L (nth_error_In _ _ N) Ei) as (_ & Ex & _). rewrite E in Ex. discriminate Ex.
Qed.

(** A tab is up to date as long as nobody signs in or out elsewhere after it was loaded. *)
Theorem C91_alone_partial : forall D cid acts b j, deps_ok D -> alone D cid j acts b ->
  exists v t, latest D cid acts b v /\ nth_error (b_tabs b) j = Some t /\ shows t v.
Proof.
  intros D cid acts b j HD H.
  induction H as [acts b t b' H N Hi Hs|acts b a b' H (v & t & L & N & Hsh) Hok Hs Hload Hothers].
  - assert (bact_ok (BTab j AManager) b) as Hok by (intros u _; exact I).
    destruct (latest_total D cid acts b HD H) as [v L]. destruct (latest_inv D cid acts b v HD L) as (I1 & I2 & I3).
    destruct (tab_sim D cid acts b H j t N) as (l & R & _). destruct (runs_initializing _ _ _ _ R Hi) as [Ec Et].
    cbn [tab_world w_ctx w_tasks] in Ec, Et. cbn [bstep tab_action act_step] in Hs. rewrite N in Hs. injection Hs as <-.
    set (t' := mkTab (construct (b_storage b) (t_ctx t)) (t_tasks t) (t_own t)).
    set (b' := put_world _ _ b).
    assert (nth_error (b_tabs b') j = Some t') as N' by (apply (nth_insert_same _ _ _ _ N)).
    exists v, t'. split; [|split; [exact N'|]].
    + apply (latest_else D cid acts b v _ b'); auto.
      * cbn [bstep tab_action act_step]. rewrite N. reflexivity.
      * intros x i (q & k & t1 & t2 & N1 & N2 & (u & Nu & Hu) & R2 & _). destruct (Nat.eq_dec j q) as [<-|Ne].
        -- assert (t1 = t) as -> by congruence. rewrite Et in Nu. destruct k; discriminate Nu.
        -- cbn [b' put_world b_tabs] in N2. rewrite nth_error_insert_ne in N2 by exact Ne. assert (t2 = t1) as -> by congruence.
           exact (not_returned _ _ u i Nu Hu R2).
      * intros [q Hq]. discriminate Hq.
    + pose proof (construct_stored D cid (b_history b) (b_canister b) v (t_ctx t) HD (browser_exec D cid acts b H) I2) as Hc.
      unfold shows, t'. cbn [t_ctx]. rewrite I3. destruct v as [[x i]|]; [exact Hc|].
      destruct Hc as (E1 & E2 & E3). rewrite E1, E2, E3, Ec. repeat split.
  - destruct (latest_inv D cid acts b v HD L) as (I1 & I2 & I3).
    destruct (latest_step D cid acts b a b' v HD (latest_runs _ _ _ _ _ L) Hok Hs I1 I2 I3) as (_ & C).
    destruct a as [|k a|now o].
    + cbn [bstep] in Hs. injection Hs as <-. destruct C as [(x & i & Hin & _)|[(Ho & _)|(Hno & _ & Hn)]].
      * exfalso. destruct Hin as (q & k & t1 & t2 & N1 & N2 & (u & Nu & Hu) & R2 & _). cbn [b_tabs] in N2.
        rewrite nth_error_app1 in N2 by (apply nth_error_Some; congruence). assert (t2 = t1) as -> by congruence.
        exact (not_returned _ _ u i Nu Hu R2).
      * destruct Ho as [q Hq]. discriminate Hq.
      * exists v, t. split; [eapply latest_else; eauto|]. split; [|exact Hsh]. cbn [b_tabs].
        rewrite nth_error_app1 by (apply nth_error_Some; congruence). exact N.
    + pose proof Hs as Hs0. cbn [bstep] in Hs. destruct (nth_error (b_tabs b) k) as [u|] eqn:Nk; [|discriminate].
      destruct (tab_action a) eqn:A; [|discriminate].
      destruct (act_step D cid a (tab_world b u)) as [w|] eqn:S; [|discriminate]. injection Hs as <-.
      destruct (Nat.eq_dec k j) as [->|Ne].
      * assert (u = t) as -> by congruence. clear Hothers.
        pose proof (act_effect D cid a _ w (tab_cinv D cid acts b j t (latest_runs _ _ _ _ _ L) N) A (Hok t N) S) as E.
        set (t' := mkTab (w_ctx w) (w_tasks w) (w_own w)).
        assert (nth_error (b_tabs (put_world j w b)) j = Some t') as N' by (apply (nth_insert_same _ _ _ _ N)).
        destruct C as [(x & i & Hin & _)|[(Ho & _)|(Hno & _ & Hn)]].
        -- exists (Some (x, i)), t'. split; [eapply latest_in; eassumption|]. split; [exact N'|].
           destruct Hin as (q & k & t1 & t2 & N1 & N2 & (u & Nu & Hu) & R2 & Ex). destruct (Nat.eq_dec j q) as [<-|Nq].
           2: { cbn [put_world b_tabs] in N2. rewrite nth_error_insert_ne in N2 by exact Nq. assert (t2 = t1) as -> by congruence.
                destruct (not_returned _ _ u i Nu Hu R2). }
           assert (t1 = t) as -> by congruence. assert (t2 = t') as -> by congruence.
           destruct E as [a w Ha Si St Hno|w Ec St Et|w Ec St Et|w Ec St Et|k' s u' w y i' Hso Ec St Nu' Hu' Et Eh].
           ++ destruct (Hno k u i Nu Hu R2).
           ++ contradiction Hload. reflexivity.
           ++ cbn [t' t_tasks] in R2. rewrite Et in R2. destruct (not_returned _ _ u i Nu Hu R2).
           ++ cbn [t' t_tasks] in R2. rewrite Et in R2. destruct (not_returned _ _ u i Nu Hu R2).
           ++ cbn [t' t_tasks t_ctx] in R2, Ex. rewrite Et in R2. rewrite Ec in Ex. cbn in Ex. injection Ex as <-.
              assert (i' = i) as ->.
              { destruct (Nat.eq_dec k' k) as [->|Nk'].
                - rewrite (nth_insert_same _ _ _ _ Nu') in R2. congruence.
                - rewrite nth_error_insert_ne in R2 by exact Nk'. destruct (not_returned _ _ u i Nu Hu R2). }
              unfold shows, t'. cbn [t_ctx]. rewrite Ec. repeat split.
        -- exists None, t'. split; [eapply latest_out; eassumption|]. split; [exact N'|].
           destruct Ho as [q Hq]. injection Hq as <- ->.
           inversion E as [a' w' Ha _ _ _| | |w' Ec St Et|]; [destruct (Ha eq_refl)|]. subst.
           unfold shows, t'. cbn [t_ctx]. rewrite Ec. repeat split.
        -- exists v, t'. split; [eapply latest_else; eassumption|]. split; [exact N'|].
           destruct E as [a w Ha Si St Hno'|w Ec St Et|w Ec St Et|w Ec St Et|k' s u' w y i' Hso Ec St Nu' Hu' Et Eh].
           ++ exact (shows_same t t' v Si Hsh).
           ++ contradiction Hload. reflexivity.
           ++ pose proof (construct_stored D cid (b_history b) (b_canister b) v (t_ctx t) HD (browser_exec D cid acts b (latest_runs _ _ _ _ _ L)) I2) as Hc.
              cbn [tab_world w_storage w_ctx] in Ec. rewrite I3 in Ec. rewrite <- Ec in Hc.
              destruct v as [[x i]|]; [exact Hc|]. exact (shows_same t t' None Hc Hsh).
           ++ destruct (Hno (ex_intro _ j eq_refl)).
           ++ exfalso. apply (Hn y i'). exists j, k', t, t'. split; [exact N|]. split; [exact N'|]. split; [exists u'; auto|].
              split; [cbn [t' t_tasks]; rewrite Et; apply (nth_insert_same _ _ _ _ Nu')|]. cbn [t' t_ctx]. rewrite Ec. reflexivity.
      * destruct (Hothers k a eq_refl Ne) as [Hc Hn]. exists v, t. split; [|split; [|exact Hsh]].
        -- eapply latest_else; [exact L|exact Hok|exact Hs0|exact Hn|]. intros [q Hq]. apply Hc. congruence.
        -- cbn [put_world b_tabs]. rewrite nth_error_insert_ne by exact Ne. exact N.
    + pose proof Hs as Hs0. cbn [bstep] in Hs. destruct (step D cid now o (b_canister b)) as [s' r]. injection Hs as <-.
      destruct C as [(x & i & Hin & _)|[(Ho & _)|(Hno & _ & Hn)]].
      * exfalso. destruct Hin as (q & k & t1 & t2 & N1 & N2 & (u & Nu & Hu) & R2 & _). cbn [b_tabs] in N2. assert (t2 = t1) as -> by congruence.
        exact (not_returned _ _ u i Nu Hu R2).
      * destruct Ho as [q Hq]. discriminate Hq.
      * exists v, t. split; [eapply latest_else; eassumption|]. split; [exact N|exact Hsh].
Qed.

(** Concrete: the second tab, loaded after Alice has signed in in the first. *)
Definition alone_acts : list baction := Eval vm_compute in removelast (removelast left_acts).
Definition alone_view := Eval vm_compute in bview alone_acts.
Example C91_case : exists b t, alone CD demo_cid 1 (alone_acts ++ [BTab 1 AManager]) b /\
  nth_error (b_tabs b) 1 = Some t /\ x_address (t_ctx t) = Some (JStr alice_text).
Proof.
  brun_of alone_acts alone_view b H.
  assert (nth_error (b_tabs b) 1 = Some new_tab) as N by (rewrite Ht; reflexivity).
  eexists _, _. split; [eapply (alone_manager CD demo_cid 1 alone_acts b new_tab); [exact H|exact N|reflexivity|]|].
  - cbn [bstep]. rewrite N. cbn [tab_action act_step]. reflexivity.
  - split; [apply (nth_insert_same _ _ _ _ N)|]. cbn [t_ctx w_ctx tab_world w_storage]. rewrite Hst. vm_compute. reflexivity.
Qed.

Print Assumptions C89_issued.
Print Assumptions C89_one_tab.
Print Assumptions C90_total.
Print Assumptions C90_reload.
Print Assumptions C90_open.
Print Assumptions C91_out_refuted.
Print Assumptions C91_in_refuted.
Print Assumptions C91_alone_partial.
