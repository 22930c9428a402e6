(** Invariants of a browser with several tabs. *)
From Coq Require Import Strings.String ZifyBool ZifyN ZifyNat.
From Verif Require Import Base BaseLemmas Deps Hex Eth Encode Delegation Login Provider Json SpecEth SpecTrace
  ProviderProofs LoginTheory Client ClientJson SpecClient ClientProofs ClientSeq Tabs SpecTabs.
Local Open Scope N_scope.

(** ** Every tab is a tab of [Client] *)

Lemma tab_acts_snoc j acts a : tab_acts j (acts ++ [a]) = tab_acts j acts ++ tab_acts j [a].
Proof. unfold tab_acts. apply flat_map_app. Qed.

(** What an action leaves of the shared part of the world. *)
Lemma shared_step D cid a w w' : tab_action a = true -> act_ok a w -> act_step D cid a w = Some w' ->
  (w_canister w' = w_canister w /\ w_history w' = w_history w) \/
  (exists now o r, executes now o w /\ step D cid now o (w_canister w) = (w_canister w', r) /\
     w_history w' = w_history w ++ [mkEvent now o r] /\ w_storage w' = w_storage w).
Proof.
  intros Ha Hok Hs. apply act_step_view in Hs.
  destruct Hs as [| |R|R|R|k s t x' t' st' N G|k now cert t o s' r N R S|now o s' r S|j]; try discriminate Ha; auto.
  right. exists now, o, r. split; [exact (Hok t o N R)|]. auto.
Qed.

(** Others see it as a message of the canister and a write to localStorage. *)
Lemma bystander D cid l x ts own st can h now_ok a w w' :
  runs D cid l (mkWorld x st ts can h own) -> st = w_storage w -> can = w_canister w -> h = w_history w -> now_ok = tt ->
  tab_action a = true -> act_ok a w -> act_step D cid a w = Some w' ->
  exists l', runs D cid (l ++ l') (mkWorld x (w_storage w') ts (w_canister w') (w_history w') own) /\
    List.filter tab_action l' = [].
Proof.
  intros H -> -> -> _ Ha Hok Hs. destruct (shared_step D cid a w w' Ha Hok Hs) as [[-> ->]|(now & o & r & He & Hc & -> & ->)].
  - exists [AStorage (w_storage w')]. split; [|reflexivity]. eapply runs_snoc; [exact H|exact I|reflexivity].
  - exists [ACanister now o]. split; [|reflexivity]. eapply runs_snoc; [exact H|exact He|].
    cbn [act_step w_canister w_ctx w_storage w_tasks w_history w_own]. rewrite Hc. reflexivity.
Qed.

Lemma filter_filter_app (l l' : list action) : List.filter tab_action (l ++ l') = List.filter tab_action l ++ List.filter tab_action l'.
Proof. induction l as [|a l IH]; [reflexivity|]. cbn. destruct (tab_action a); cbn; now rewrite IH. Qed.

(** A page that is not opened yet. *)
Lemma nobody_sim D cid acts b : bruns D cid acts b ->
  exists l, runs D cid l (tab_world b new_tab) /\ List.filter tab_action l = [].
Proof.
  induction 1 as [|acts b a b' H (l & IH & F) Hok Hs]; [exists []; split; [constructor|reflexivity]|].
  destruct a as [|j a|now o]; cbn [bstep] in Hs.
  - injection Hs as <-. exists l. auto.
  - destruct (nth_error (b_tabs b) j) as [t|] eqn:N; [|discriminate]. destruct (tab_action a) eqn:A; [|discriminate].
    destruct (act_step D cid a (tab_world b t)) as [w|] eqn:S; [|discriminate]. injection Hs as <-.
    destruct (bystander D cid l initial_ctx [] [] _ _ _ tt a (tab_world b t) w IH eq_refl eq_refl eq_refl eq_refl A (Hok t N) S) as (l' & R & F').
    exists (l ++ l'). split; [exact R|]. now rewrite filter_filter_app, F, F'.
  - destruct (step D cid now o (b_canister b)) as [s' r] eqn:S. injection Hs as <-.
    exists (l ++ [ACanister now o]). split; [|now rewrite filter_filter_app, F].
    eapply runs_snoc; [exact IH|exact Hok|]. cbn [act_step tab_world w_canister w_ctx w_storage w_tasks w_history w_own].
    rewrite S. reflexivity.
Qed.

Lemma nth_error_insert_ne {A} (l : list A) i j x : i <> j -> nth_error (<[i := x]> l) j = nth_error l j.
Proof. intros H. rewrite <- !nth_error_lookup. now apply list_lookup_insert_ne. Qed.

Lemma tab_acts_unopened D cid acts b j : bruns D cid acts b -> (length (b_tabs b) <= j)%nat -> tab_acts j acts = [].
Proof.
  induction 1 as [|acts b a b' H IH Hok Hs]; intros L; [reflexivity|].
  rewrite tab_acts_snoc. destruct a as [|i a|now o]; cbn [bstep] in Hs.
  - injection Hs as <-. cbn [b_tabs] in L. rewrite app_length in L. cbn in L. rewrite IH by lia. reflexivity.
  - destruct (nth_error (b_tabs b) i) as [t|] eqn:N; [|discriminate]. destruct (tab_action a); [|discriminate].
    destruct (act_step D cid a (tab_world b t)) as [w|]; [|discriminate]. injection Hs as <-.
    cbn [put_world b_tabs] in L. rewrite insert_length in L. rewrite IH by lia. unfold tab_acts. cbn [flat_map].
    assert (i < length (b_tabs b))%nat by (apply nth_error_Some; congruence).
    destruct (Nat.eqb_spec i j); [lia|reflexivity].
  - destruct (step D cid now o (b_canister b)). injection Hs as <-. rewrite IH by exact L. reflexivity.
Qed.

Lemma tab_sim D cid acts b : bruns D cid acts b -> forall j t, nth_error (b_tabs b) j = Some t ->
  exists l, runs D cid l (tab_world b t) /\ List.filter tab_action l = tab_acts j acts.
Proof.
  induction 1 as [|acts b a b' H IH Hok Hs]; intros j t N; [destruct j; discriminate N|].
  rewrite tab_acts_snoc. destruct a as [|i a|now o]; cbn [bstep] in Hs.
  - injection Hs as <-. cbn [b_tabs] in N. unfold tab_acts at 2. cbn [flat_map]. rewrite app_nil_r.
    destruct (Nat.lt_ge_cases j (length (b_tabs b))) as [L|L].
    + rewrite nth_error_app1 in N by exact L. apply IH, N.
    + rewrite nth_error_app2 in N by exact L. rewrite (tab_acts_unopened D cid acts b j H L).
      assert (t = new_tab) as ->.
      { destruct (j - length (b_tabs b))%nat as [|q]; [cbn in N; congruence|destruct q; discriminate N]. }
      apply (nobody_sim D cid acts b H).
  - destruct (nth_error (b_tabs b) i) as [u|] eqn:Ni; [|discriminate]. destruct (tab_action a) eqn:A; [|discriminate].
    destruct (act_step D cid a (tab_world b u)) as [w|] eqn:S; [|discriminate]. injection Hs as <-.
    cbn [put_world b_tabs] in N. unfold tab_acts at 2. cbn [flat_map]. rewrite app_nil_r.
    destruct (Nat.eqb_spec i j) as [->|Ne].
    + rewrite (nth_insert_same _ _ _ _ Ni) in N. injection N as <-. destruct (IH j u Ni) as (l & R & F).
      exists (l ++ [a]). split; [|rewrite filter_filter_app, F; cbn; now rewrite A].
      assert (tab_world (put_world j w b) (mkTab (w_ctx w) (w_tasks w) (w_own w)) = w) as -> by (now destruct w).
      eapply runs_snoc; [exact R|exact (Hok u Ni)|exact S].
    + rewrite nth_error_insert_ne in N by exact Ne. destruct (IH j t N) as (l & R & F).
      destruct (bystander D cid l (t_ctx t) (t_tasks t) (t_own t) _ _ _ tt a (tab_world b u) w R eq_refl eq_refl eq_refl eq_refl A (Hok u Ni) S)
        as (l' & R' & F').
      exists (l ++ l'). split; [exact R'|]. rewrite filter_filter_app, F, F'. now rewrite !app_nil_r.
  - destruct (step D cid now o (b_canister b)) as [s' r] eqn:S. injection Hs as <-. destruct (IH j t N) as (l & R & F).
    exists (l ++ [ACanister now o]). split; [|now rewrite filter_filter_app, F].
    eapply runs_snoc; [exact R|exact Hok|]. cbn [act_step tab_world w_canister w_ctx w_storage w_tasks w_history w_own].
    rewrite S. reflexivity.
Qed.

Lemma tab_cinv D cid acts b j t : bruns D cid acts b -> nth_error (b_tabs b) j = Some t -> cinv D cid (tab_world b t).
Proof. intros H N. destruct (tab_sim D cid acts b H j t N) as (l & R & _). eapply runs_cinv, R. Qed.

Lemma browser_exec D cid acts b : bruns D cid acts b -> exec D cid (b_history b) (b_canister b).
Proof. intros H. destruct (nobody_sim D cid acts b H) as (l & R & _). exact (ci_exec _ _ _ (runs_cinv _ _ _ _ R)). Qed.

(** ** What tabs show and what is stored *)

Definition sound (tr : list event) (v : option (bytes * ident)) : Prop :=
  match v with Some (x, i) => x <> [] /\ key_ok (id_key i) /\ issued tr x i | None => True end.
Definition stored (v : option (bytes * ident)) : option bytes :=
  match v with Some (x, i) => Some (save_identity x (id_key i) (id_chain i)) | None => None end.

Lemma sound_mono tr e v : sound tr v -> sound (tr ++ [e]) v.
Proof. destruct v as [[x i]|]; [|auto]. intros (H1 & H2 & H3). repeat (split; [assumption|]). now apply issued_mono. Qed.

Lemma login_goes_returns t s x st x' i st' : login_goes t s x st = Some (x', TReturned i, st') ->
  exists a k d sd ans, t = TDelegation a k d (Some ans) /\ delegation_answer ans = Some (Ok sd) /\
    i = mkIdent k (mkChain [sd] (ld_pubkey d)) /\ x' = set_logged_in a i (id_chain i) x /\
    st' = Some (save_identity a k (id_chain i)) /\ forall st2, login_goes t s x st2 = Some (x', TReturned i, st').
Proof.
  intros E. destruct t as [p| |a p|a m n|a n sg k|a n sg k ans|a k d ans|j|err]; cbn [login_goes] in E.
  - destruct (prep_goes p s x) as [[y q]|]; congruence.
  - destruct s; try discriminate E; unfold login_fails in E; try congruence.
    destruct (first_account l); [|congruence]. destruct (x_message x) as [[m n]|]; congruence.
  - destruct p as [|b|b r|[[m n]|e]], s; cbn [login_goes] in E; unfold login_fails in E;
      repeat match type of E with context [match ?z with _ => _ end] => destruct z end; congruence.
  - destruct s as [e|l| |[|c sg] k|]; unfold sign_fails, login_fails in E; congruence.
  - destruct s; unfold login_fails in E; congruence.
  - destruct ans as [r|]; destruct s; unfold login_fails in E; try congruence.
    destruct (login_answer r) as [[d|e]|]; congruence.
  - destruct ans as [r|]; destruct s; unfold login_fails in E; try congruence.
    destruct (delegation_answer r) as [[sd|e]|] eqn:A; try congruence. unfold create_chain in E.
    exists a, k, d, sd, r. split; [reflexivity|]. split; [exact A|].
    assert (i = mkIdent k (mkChain [sd] (ld_pubkey d))) as -> by congruence. split; [reflexivity|].
    cbn [id_chain]. split; [congruence|]. split; [congruence|]. intros st2. cbn [login_goes]. rewrite A. exact E.
  - destruct s; discriminate E.
  - destruct s; discriminate E.
Qed.

(** What one action of a tab does to its store and to localStorage. *)
Inductive effect (D : Deps) (cid : bytes) (w : world) : action -> world -> Prop :=
| eff_same a w' : a <> AClear -> same_identity (w_ctx w) (w_ctx w') -> w_storage w' = w_storage w ->
    (forall k u i, nth_error (w_tasks w) k = Some u -> ~ settled u -> nth_error (w_tasks w') k <> Some (TReturned i)) ->
    effect D cid w a w'
| eff_load w' : w_ctx w' = initial_ctx -> w_storage w' = w_storage w -> w_tasks w' = [] -> effect D cid w ALoad w'
| eff_manager w' : w_ctx w' = construct (w_storage w) (w_ctx w) -> w_storage w' = w_storage w -> w_tasks w' = w_tasks w ->
    effect D cid w AManager w'
| eff_clear w' : w_ctx w' = set_cleared (w_ctx w) -> w_storage w' = None -> w_tasks w' = w_tasks w -> effect D cid w AClear w'
| eff_in k s t w' x i : sound (w_history w) (Some (x, i)) -> w_ctx w' = set_logged_in x i (id_chain i) (w_ctx w) ->
    w_storage w' = stored (Some (x, i)) -> nth_error (w_tasks w) k = Some t -> ~ settled t ->
    w_tasks w' = <[k := TReturned i]> (w_tasks w) -> w_history w' = w_history w ->
    effect D cid w (AContinue k s) w'.

Lemma same_identity_refl x : same_identity x x.
Proof. repeat split. Qed.

Lemma not_returned ts k u i : nth_error ts k = Some u -> ~ settled u -> nth_error ts k <> Some (TReturned i).
Proof. intros E H E'. assert (u = TReturned i) as -> by congruence. apply H. exact I. Qed.

Lemma act_effect D cid a w w' : cinv D cid w -> tab_action a = true -> act_ok a w -> act_step D cid a w = Some w' ->
  effect D cid w a w'.
Proof.
  intros Hc Ha Hok Hs. apply act_step_view in Hs.
  destruct Hs as [| |R|R|R|k s t x' t' st' N G|k now cert t o s' r N R S|now o s' r S|j]; try discriminate Ha.
  - now apply eff_load.
  - now apply eff_manager.
  - apply eff_same; [discriminate|apply same_identity_refl|reflexivity|]. intros k u i E Hu. cbn [w_tasks].
    rewrite nth_error_app1 by (apply nth_error_Some; congruence). now apply (not_returned _ _ u).
  - apply eff_same; [discriminate| |reflexivity|].
    + cbn [w_ctx]. destruct (login_starts_cases (w_ctx w)) as [->|(e & -> & _)]; repeat split.
    + intros k u i E Hu. cbn [w_tasks]. rewrite nth_error_app1 by (apply nth_error_Some; congruence). now apply (not_returned _ _ u).
  - now apply eff_clear.
  - assert (forall i, t' = TReturned i -> effect D cid w (AContinue k s) (mkWorld x' st' (<[k := t']> (w_tasks w)) (w_canister w) (w_history w) (w_own w))) as Hin.
    { intros i ->. destruct (login_goes_returns _ _ _ _ _ _ _ G) as (a & k0 & d & sd & ans & -> & _ & -> & -> & -> & G').
      specialize (G' None).
      destruct (login_goes_fact (w_history w) _ s _ None _ _ _ (nth_error_Forall _ _ _ _ (ci_tasks _ _ _ Hc) N) (ci_ctx _ _ _ Hc) Hok G')
        as (_ & _ & _ & [(a' & k' & d' & sd' & ans' & E1 & _ & _ & E2 & _ & Hx & Hk & His)|[_ E]]); [|discriminate E].
      injection E1 as <- <- <- <-. injection E2 as <-.
      eapply (eff_in D cid w k s _ _ a (mkIdent k0 (mkChain [sd] (ld_pubkey d)))); [split; [exact Hx|split; [exact Hk|exact His]]| | |exact N| | |]; try reflexivity. intros []. }
    assert ((exists i, t' = TReturned i) \/ (forall i, t' <> TReturned i)) as [[i ->]|Hno]; [|now apply (Hin i)|].
    { destruct t'; try (right; discriminate). left. eexists. reflexivity. }
    destruct (login_goes_fact (w_history w) t s _ (w_storage w) x' t' st' (nth_error_Forall _ _ _ _ (ci_tasks _ _ _ Hc) N) (ci_ctx _ _ _ Hc) Hok G)
      as (_ & _ & _ & [(a & k0 & d & sd & ans & _ & _ & _ & E & _)|[Sx ->]]); [destruct (Hno _ E)|].
    apply eff_same; [discriminate|exact Sx|reflexivity|]. intros q u i E Hu. cbn [w_tasks].
    destruct (Nat.eq_dec k q) as [->|Ne]; [|rewrite nth_error_insert_ne by exact Ne; now apply (not_returned _ _ u)].
    rewrite (nth_insert_same _ _ _ _ N). intros Er. apply (Hno i). congruence.
  - apply eff_same; [discriminate|apply same_identity_refl|reflexivity|]. intros q u i E Hu. cbn [w_tasks].
    destruct (Nat.eq_dec k q) as [->|Ne]; [|rewrite nth_error_insert_ne by exact Ne; now apply (not_returned _ _ u)].
    rewrite (nth_insert_same _ _ _ _ N). intros Er. apply (f_equal (fun z => match z with Some (TReturned _) => true | _ => false end)) in Er.
    destruct t as [p| |a p|a m n|a n sg k0|a n sg k0 [r'|]|a k0 d [r'|]|i'|err]; discriminate R || discriminate Er.
Qed.

(** What a manager finds. *)
Lemma construct_stored D cid tr s v x : deps_ok D -> exec D cid tr s -> sound tr v ->
  match v with
  | Some (a, i) => x_identity (construct (stored v) x) = Some i /\ x_address (construct (stored v) x) = Some (JStr a) /\
      x_chain (construct (stored v) x) = Some (id_chain i)
  | None => same_identity x (construct (stored v) x)
  end.
Proof.
  intros HD He Hv. destruct v as [[a i]|]; [|repeat split]. destruct Hv as (Ha & Hk & Hi).
  destruct (issued_facts D cid tr s a i HD He Hk Hi) as [Hc _]. unfold stored, construct.
  rewrite (load_save a (id_key i) (id_chain i) Ha Hk Hc). destruct i. repeat split.
Qed.

(** Every tab shows a sign-in of the canister or none. *)
Definition tabs_sound (b : browser) : Prop :=
  forall j t, nth_error (b_tabs b) j = Some t -> exists v, shows t v /\ sound (b_history b) v.

Lemma history_step D cid a b b' : bstep D cid a b = Some b' -> bact_ok a b ->
  b_history b' = b_history b \/ exists e, b_history b' = b_history b ++ [e].
Proof.
  intros Hs Hok. destruct a as [|j a|now o]; cbn [bstep] in Hs.
  - injection Hs as <-. auto.
  - destruct (nth_error (b_tabs b) j) as [t|] eqn:N; [|discriminate]. destruct (tab_action a) eqn:A; [|discriminate].
    destruct (act_step D cid a (tab_world b t)) as [w|] eqn:S; [|discriminate]. injection Hs as <-. cbn [put_world b_history].
    destruct (shared_step D cid a _ w A (Hok t N) S) as [[_ ->]|(now & o & r & _ & _ & -> & _)]; eauto.
  - destruct (step D cid now o (b_canister b)). injection Hs as <-. cbn. eauto.
Qed.

Lemma sound_step D cid a b b' v : bstep D cid a b = Some b' -> bact_ok a b -> sound (b_history b) v -> sound (b_history b') v.
Proof. intros Hs Hok Hv. destruct (history_step D cid a b b' Hs Hok) as [->|[e ->]]; [exact Hv|now apply sound_mono]. Qed.

Lemma shows_same t t' v : same_identity (t_ctx t) (t_ctx t') -> shows t v -> shows t' v.
Proof. intros (S1 & S2 & S3). unfold shows. rewrite S1, S2, S3. auto. Qed.

(** One action of the browser, with what it does about signing in or out. *)
Lemma latest_step D cid acts b a b' v : deps_ok D -> bruns D cid acts b -> bact_ok a b -> bstep D cid a b = Some b' ->
  tabs_sound b -> sound (b_history b) v -> b_storage b = stored v ->
  tabs_sound b' /\
  ((exists x i, signs_in b b' x i /\ sound (b_history b') (Some (x, i)) /\ b_storage b' = stored (Some (x, i)) /\
      (forall y i', signs_in b b' y i' -> y = x /\ i' = i)) \/
   (signs_out a /\ b_storage b' = None /\ (forall x i, ~ signs_in b b' x i)) \/
   (~ signs_out a /\ b_storage b' = b_storage b /\ (forall x i, ~ signs_in b b' x i))).
Proof.
  intros HD H Hok Hs Ht Hv Hst. pose proof (sound_step D cid a b b') as Hmono. specialize (fun v => Hmono v Hs Hok).
  destruct a as [|j a|now o]; cbn [bstep] in Hs.
  - injection Hs as <-. split.
    + intros j t N. cbn [b_tabs b_history] in *. destruct (Nat.lt_ge_cases j (length (b_tabs b))) as [L|L].
      * rewrite nth_error_app1 in N by exact L. apply (Ht j t N).
      * rewrite nth_error_app2 in N by exact L. exists None. split; [|exact I].
        destruct (j - length (b_tabs b))%nat as [|[|q]]; cbn in N; try discriminate N. injection N as <-. repeat split.
    + right. right. split; [intros [j Hj]; discriminate Hj|]. split; [reflexivity|].
      intros x i (j & k & t & t' & N & N' & (u & Nu & Hu) & R & _). cbn [b_tabs] in N'.
      rewrite nth_error_app1 in N' by (apply nth_error_Some; congruence). assert (t' = t) as -> by congruence.
      exact (not_returned _ _ u i Nu Hu R).
  - destruct (nth_error (b_tabs b) j) as [t|] eqn:N; [|discriminate]. destruct (tab_action a) eqn:A; [|discriminate].
    destruct (act_step D cid a (tab_world b t)) as [w|] eqn:S; [|discriminate]. injection Hs as <-.
    pose proof (act_effect D cid a _ w (tab_cinv D cid acts b j t H N) A (Hok t N) S) as E.
    set (b' := put_world j w b) in *. set (t' := mkTab (w_ctx w) (w_tasks w) (w_own w)).
    assert (nth_error (b_tabs b') j = Some t') as N' by (apply (nth_insert_same _ _ _ _ N)).
    assert ((exists v', shows t' v' /\ sound (b_history b') v') -> tabs_sound b') as Hts.
    { intros Hv' q u Nu. destruct (Nat.eq_dec j q) as [<-|Ne].
      - assert (u = t') as -> by congruence. exact Hv'.
      - cbn [b' put_world b_tabs] in Nu. rewrite nth_error_insert_ne in Nu by exact Ne.
        destruct (Ht q u Nu) as (v1 & H1 & H2). exists v1. split; [exact H1|now apply Hmono]. }
    assert (forall x i, signs_in b b' x i -> exists k u, nth_error (t_tasks t) k = Some u /\ ~ settled u /\
      nth_error (w_tasks w) k = Some (TReturned i) /\ x_address (w_ctx w) = Some (JStr x)) as Hwho.
    { intros x i (q & k & t1 & t2 & N1 & N2 & (u & Nu & Hu) & R & Rx). destruct (Nat.eq_dec j q) as [<-|Ne].
      - assert (t1 = t) as -> by congruence. assert (t2 = t') as -> by congruence. exists k, u. auto.
      - cbn [b' put_world b_tabs] in N2. rewrite nth_error_insert_ne in N2 by exact Ne. assert (t2 = t1) as -> by congruence.
        destruct (not_returned _ _ u i Nu Hu R). }
    destruct (Ht j t N) as (v1 & Hv1 & Hs1).
    destruct E as [a w Ha Si St Hno|w Ex St Et|w Ex St Et|w Ex St Et|k s u w x i Hso Ex St Nu Hu Et Eh].
    + split; [apply Hts; exists v1; split; [now apply (shows_same t)|now apply Hmono]|]. right. right.
      split; [intros [q Hq]; apply Ha; congruence|]. split; [exact St|]. intros x i Hsi.
      destruct (Hwho x i Hsi) as (k & u & Nu & Hu & R & _). exact (Hno k u i Nu Hu R).
    + split; [apply Hts; exists None; split; [|exact I]; unfold shows, t'; cbn [t_ctx]; rewrite Ex; repeat split|].
      right. right. split; [intros [q Hq]; discriminate Hq|]. split; [exact St|]. intros x i Hsi.
      destruct (Hwho x i Hsi) as (k & u & Nu & Hu & R & _). rewrite Et in R. destruct k; discriminate R.
    + split.
      * apply Hts. pose proof (construct_stored D cid (b_history b) (b_canister b) v (t_ctx t) HD (browser_exec D cid acts b H) Hv) as Hc.
        cbn [tab_world w_storage w_ctx] in Ex. rewrite Hst in Ex. rewrite <- Ex in Hc. destruct v as [[a i]|].
        -- exists (Some (a, i)). split; [exact Hc|now apply Hmono].
        -- exists v1. split; [now apply (shows_same t)|now apply Hmono].
      * right. right. split; [intros [q Hq]; discriminate Hq|]. split; [exact St|]. intros x i Hsi.
        destruct (Hwho x i Hsi) as (k & u & Nu & Hu & R & _). rewrite Et in R. exact (not_returned _ _ u i Nu Hu R).
    + split; [apply Hts; exists None; split; [|exact I]; unfold shows, t'; cbn [t_ctx]; rewrite Ex; repeat split|].
      right. left. split; [now exists j|]. split; [exact St|]. intros x i Hsi.
      destruct (Hwho x i Hsi) as (k & u & Nu & Hu & R & _). rewrite Et in R. exact (not_returned _ _ u i Nu Hu R).
    + assert (shows t' (Some (x, i))) as Hsh by (unfold shows, t'; cbn [t_ctx]; rewrite Ex; repeat split).
      assert (sound (b_history b') (Some (x, i))) as Hso' by (apply Hmono; exact Hso).
      split; [apply Hts; exists (Some (x, i)); auto|]. left. exists x, i.
      split; [|split; [exact Hso'|split; [exact St|]]].
      * exists j, k, t, t'. split; [exact N|]. split; [exact N'|]. split; [exists u; auto|].
        split; [|apply Hsh]. cbn [t' t_tasks]. rewrite Et. apply (nth_insert_same _ _ _ _ Nu).
      * intros y i' Hsi. destruct (Hwho y i' Hsi) as (q & u' & Nu' & Hu' & R & Rx). split; [rewrite Ex in Rx; cbn in Rx; congruence|].
        rewrite Et in R. destruct (Nat.eq_dec k q) as [<-|Ne].
        -- rewrite (nth_insert_same _ _ _ _ Nu) in R. congruence.
        -- rewrite nth_error_insert_ne in R by exact Ne. destruct (not_returned _ _ u' i' Nu' Hu' R).
  - destruct (step D cid now o (b_canister b)) as [s' r] eqn:S. injection Hs as <-. split.
    + intros j t N. cbn [b_tabs] in N. destruct (Ht j t N) as (v1 & H1 & H2). exists v1. split; [exact H1|now apply Hmono].
    + right. right. split; [intros [j Hj]; discriminate Hj|]. split; [reflexivity|].
      intros x i (j & k & t & t' & N & N' & (u & Nu & Hu) & R & _). cbn [b_tabs] in N'. assert (t' = t) as -> by congruence.
      exact (not_returned _ _ u i Nu Hu R).
Qed.

Lemma latest_runs D cid acts b v : latest D cid acts b v -> bruns D cid acts b.
Proof. induction 1; [constructor|eapply bruns_snoc; eassumption..]. Qed.

Lemma latest_inv D cid acts b v : deps_ok D -> latest D cid acts b v ->
  tabs_sound b /\ sound (b_history b) v /\ b_storage b = stored v.
Proof.
  intros HD H. induction H as [|acts b v a b' x i H IH Hok Hs Hin|acts b v a b' H IH Hok Hs Hout|acts b v a b' H IH Hok Hs Hno Hnout].
  - split; [intros j t N; destruct j; discriminate N|]. split; [exact I|reflexivity].
  - destruct IH as (I1 & I2 & I3).
    destruct (latest_step D cid acts b a b' v HD (latest_runs _ _ _ _ _ H) Hok Hs I1 I2 I3) as (T & [(y & i' & _ & Hso & Hst & Hu)|[(_ & _ & Hn)|(_ & _ & Hn)]]).
    + destruct (Hu x i Hin) as [-> ->]. auto.
    + destruct (Hn x i Hin).
    + destruct (Hn x i Hin).
  - destruct IH as (I1 & I2 & I3).
    destruct (latest_step D cid acts b a b' v HD (latest_runs _ _ _ _ _ H) Hok Hs I1 I2 I3) as (T & [(y & i' & Hin & _)|[(_ & Hst & _)|(Hn & _)]]).
    + exfalso. destruct Hout as [j ->]. cbn [bstep] in Hs.
      destruct (nth_error (b_tabs b) j) as [t|] eqn:N; [|discriminate]. cbn [tab_action] in Hs.
      destruct (act_step D cid AClear (tab_world b t)) as [w|] eqn:S; [|discriminate]. injection Hs as <-.
      cbn [act_step] in S. destruct (x_initializing _) eqn:R in S; [discriminate S|]. cbn [negb] in S. injection S as <-.
      destruct Hin as (q & k & t1 & t2 & N1 & N2 & (u & Nu & Hu) & R2 & _). cbn [put_world b_tabs w_tasks tab_world] in N2.
      destruct (nth_insert_cases _ _ _ _ _ N2) as [[-> ->]|[_ N3]].
      * assert (t1 = t) as -> by congruence. exact (not_returned _ _ u i' Nu Hu R2).
      * assert (t2 = t1) as -> by congruence. exact (not_returned _ _ u i' Nu Hu R2).
    + split; [exact T|]. split; [exact I|exact Hst].
    + destruct (Hn Hout).
  - destruct IH as (I1 & I2 & I3).
    destruct (latest_step D cid acts b a b' v HD (latest_runs _ _ _ _ _ H) Hok Hs I1 I2 I3) as (T & [(y & i' & Hin & _)|[(Hout & _)|(_ & Hst & _)]]).
    + destruct (Hno y i' Hin).
    + destruct (Hnout Hout).
    + split; [exact T|]. split; [now apply (sound_step D cid a b b')|congruence].
Qed.

Lemma latest_total D cid acts b : deps_ok D -> bruns D cid acts b -> exists v, latest D cid acts b v.
Proof.
  intros HD. induction 1 as [|acts b a b' H [v IH] Hok Hs]; [exists None; constructor|].
  destruct (latest_inv D cid acts b v HD IH) as (I1 & I2 & I3).
  destruct (latest_step D cid acts b a b' v HD H Hok Hs I1 I2 I3) as (_ & [(x & i & Hin & _)|[(Hout & _)|(Hno & _ & Hn)]]).
  - exists (Some (x, i)). eapply latest_in; eassumption.
  - exists None. eapply latest_out; eassumption.
  - exists v. eapply latest_else; eassumption.
Qed.

Lemma latest_fun D cid acts : deps_ok D -> forall b v b' v', latest D cid acts b v -> latest D cid acts b' v' -> b = b' /\ v = v'.
Proof.
  intros HD.
  assert (forall acts0 a b v, latest D cid (acts0 ++ [a]) b v -> exists b0 v0, latest D cid acts0 b0 v0 /\ bact_ok a b0 /\ bstep D cid a b0 = Some b /\
    ((exists x i, signs_in b0 b x i /\ v = Some (x, i)) \/ (signs_out a /\ v = None) \/
     ((forall x i, ~ signs_in b0 b x i) /\ ~ signs_out a /\ v = v0))) as Inv.
  { intros acts0 a b v H. inversion H as [E|acts1 b0 v0 a' b1 x i H0 Hok Hs Hin E|acts1 b0 v0 a' b1 H0 Hok Hs Hout E|acts1 b0 v0 a' b1 H0 Hok Hs Hno Hnout E].
    - destruct acts0; discriminate E.
    - apply app_inj_tail in E as [-> ->]. subst. exists b0, v0. repeat (split; [assumption|]). left. eauto.
    - apply app_inj_tail in E as [-> ->]. subst. exists b0, v0. repeat (split; [assumption|]). right. left. auto.
    - apply app_inj_tail in E as [-> ->]. subst. exists b0, v. repeat (split; [assumption|]). right. right. auto. }
  induction acts as [|a acts IH] using rev_ind; intros b v b' v' H H'.
  - inversion H as [E|? ? ? ? ? ? ? ? ? ? ? E|? ? ? ? ? ? ? ? ? E|? ? ? ? ? ? ? ? ? ? E]; try (destruct acts; discriminate E).
    inversion H' as [E'|? ? ? ? ? ? ? ? ? ? ? E'|? ? ? ? ? ? ? ? ? E'|? ? ? ? ? ? ? ? ? ? E']; try (destruct acts; discriminate E'). auto.
  - destruct (Inv _ _ _ _ H) as (b0 & v0 & L & Hok & Hs & C). destruct (Inv _ _ _ _ H') as (b1 & v1 & L' & _ & Hs' & C').
    destruct (IH _ _ _ _ L L') as [<- <-]. assert (b' = b) as -> by congruence. split; [reflexivity|].
    destruct (latest_inv D cid acts b0 v0 HD L) as (I1 & I2 & I3).
    destruct (latest_step D cid acts b0 a b v0 HD (latest_runs _ _ _ _ _ L) Hok Hs I1 I2 I3)
      as (_ & [(x & i & Hin & _ & _ & Hu)|[(Ho & _ & Hn)|(Ho & _ & Hn)]]).
    + assert (~ signs_out a) as Hno.
      { intros [j ->]. pose proof (latest_inv D cid _ _ _ HD (latest_out D cid acts b0 v0 _ b L Hok Hs (ex_intro _ j eq_refl))) as (_ & _ & E1).
        pose proof (latest_inv D cid _ _ _ HD (latest_in D cid acts b0 v0 _ b x i L Hok Hs Hin)) as (_ & _ & E2).
        rewrite E1 in E2. discriminate E2. }
      assert (forall w, (exists x i, signs_in b0 b x i /\ w = Some (x, i)) \/ (signs_out a /\ w = None) \/
        ((forall x i, ~ signs_in b0 b x i) /\ ~ signs_out a /\ w = v0) -> w = Some (x, i)) as Hw.
      { intros w [(y & i' & Hy & ->)|[[Ho _]|(Hn & _)]]; [destruct (Hu y i' Hy) as [-> ->]; reflexivity|contradiction|destruct (Hn x i Hin)]. }
      rewrite (Hw v C), (Hw v' C'). reflexivity.
    + assert (forall w, (exists x i, signs_in b0 b x i /\ w = Some (x, i)) \/ (signs_out a /\ w = None) \/
        ((forall x i, ~ signs_in b0 b x i) /\ ~ signs_out a /\ w = v0) -> w = None) as Hw.
      { intros w [(y & i' & Hy & ->)|[[_ E]|(_ & E & _)]]; [destruct (Hn y i' Hy)|exact E|contradiction]. }
      rewrite (Hw v C), (Hw v' C'). reflexivity.
    + assert (forall w, (exists x i, signs_in b0 b x i /\ w = Some (x, i)) \/ (signs_out a /\ w = None) \/
        ((forall x i, ~ signs_in b0 b x i) /\ ~ signs_out a /\ w = v0) -> w = v0) as Hw.
      { intros w [(y & i' & Hy & ->)|[[E _]|(_ & _ & E)]]; [destruct (Hn y i' Hy)|contradiction|exact E]. }
      rewrite (Hw v C), (Hw v' C'). reflexivity.
Qed.

(** ** A page before its manager *)

Lemma runs_initializing D cid acts w : runs D cid acts w ->
  x_initializing (w_ctx w) = true -> w_ctx w = initial_ctx /\ w_tasks w = [].
Proof.
  induction 1 as [|acts w a w' H IH Hok Hs]; [auto|]. apply act_step_view in Hs.
  destruct Hs as [| |R|R|R|k s t x' t' st' N G|k now cert t o s' r N R S|now o s' r S|j]; cbn [w_ctx w_tasks]; auto.
  - unfold construct. destruct (load_identity (w_storage w)) as [[[? ?] ?]|]; discriminate.
  - congruence.
  - intros E. destruct (login_starts_cases (w_ctx w)) as [Es|(e & Es & _)]; rewrite Es in E; cbn [fst] in E; [congruence|].
    change (x_initializing (w_ctx w) = true) in E. congruence.
  - intros E. change (x_initializing (w_ctx w) = true) in E. congruence.
  - intros E. pose proof (runs_cinv _ _ _ _ H) as Hc.
    destruct (login_goes_fact (w_history w) t s _ (w_storage w) x' t' st' (nth_error_Forall _ _ _ _ (ci_tasks _ _ _ Hc) N) (ci_ctx _ _ _ Hc) Hok G)
      as (_ & _ & Ei & _). rewrite Ei in E. destruct (IH E) as [_ Et]. rewrite Et in N. destruct k; discriminate N.
  - intros E. destruct (IH E) as [_ Et]. rewrite Et in N. destruct k; discriminate N.
Qed.
