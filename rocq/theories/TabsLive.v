(** A login in one of several tabs. *)
From Coq Require Import Strings.String ZifyBool ZifyN ZifyNat.
From Verif Require Import Base BaseLemmas Deps Delegation Login Provider SpecTrace Client SpecClient ClientProofs ClientSeq ClientStatus
  Tabs SpecTabs TabsProofs SpecLive LiveProofs.
Local Open Scope N_scope.

Lemma bruns_last D cid acts a b' : bruns D cid (acts ++ [a]) b' -> exists b, bruns D cid acts b /\ bact_ok a b /\ bstep D cid a b = Some b'.
Proof.
  intros H. inversion H as [E|acts0 b a0 b0 H0 Hok Hs E]; [destruct acts; discriminate|]. apply app_inj_tail in E as [-> ->]. eauto.
Qed.
Lemma bruns_fun D cid acts b b' : bruns D cid acts b -> bruns D cid acts b' -> b = b'.
Proof.
  intros H. revert b'. induction H as [|acts b a b1 H IH Hok Hs]; intros b' H'.
  - inversion H' as [E|acts0 b a b1 H0 _ _ E]; [reflexivity|destruct acts0; discriminate].
  - apply bruns_last in H' as (b2 & H2 & _ & Hs2). rewrite <- (IH _ H2) in Hs2. congruence.
Qed.

(** The own events of a tab are kept. *)
Lemma own_kept D cid a b b' k u e : bstep D cid a b = Some b' -> nth_error (b_tabs b) k = Some u -> In e (t_own u) ->
  exists u', nth_error (b_tabs b') k = Some u' /\ In e (t_own u').
Proof.
  intros Hs N I. destruct a as [|j a|now o]; cbn [bstep] in Hs.
  - injection Hs as <-. exists u. split; [|exact I]. cbn [b_tabs]. rewrite nth_error_app1 by (apply nth_error_Some; congruence). exact N.
  - destruct (nth_error (b_tabs b) j) as [t|] eqn:Nj; [|discriminate]. destruct (tab_action a) eqn:A; [|discriminate].
    destruct (act_step D cid a (tab_world b t)) as [w|] eqn:S; [|discriminate]. injection Hs as <-. cbn [put_world b_tabs].
    destruct (Nat.eq_dec j k) as [<-|Ne].
    + assert (t = u) as -> by congruence. eexists. split; [apply (nth_insert_same _ _ _ _ N)|]. cbn [t_own].
      apply act_step_view in S. destruct S; cbn [w_own tab_world]; auto. apply in_app_iff. now left.
    + exists u. split; [|exact I]. rewrite nth_error_insert_ne by exact Ne. exact N.
  - destruct (step D cid now o (b_canister b)) as [s' r]. injection Hs as <-. exists u. auto.
Qed.

Lemma foreign_step D cid j more a b b' now o : foreign j more b now o -> bstep D cid a b = Some b' -> foreign j (more ++ [a]) b' now o.
Proof.
  intros [I|(k & u & e & Ne & N & I & Ho & Ht)] Hs; [left; apply in_app_iff; now left|].
  destruct (own_kept D cid a b b' k u e Hs N I) as (u' & N' & I'). right. exists k, u', e. auto.
Qed.

Lemma tab_sim_from D cid acts b j t l0 : bruns D cid acts b -> nth_error (b_tabs b) j = Some t -> runs D cid l0 (tab_world b t) ->
  forall more b', bruns D cid (acts ++ more) b' ->
  exists t' l, nth_error (b_tabs b') j = Some t' /\ runs D cid (l0 ++ l) (tab_world b' t') /\
    List.filter tab_action l = tab_acts j more /\ (forall now o, In (ACanister now o) l -> foreign j more b' now o).
Proof.
  intros H N R0. induction more as [|a more IH] using rev_ind; intros b' H'.
  - rewrite app_nil_r in H'. rewrite <- (bruns_fun _ _ _ _ _ H H'). exists t, []. rewrite app_nil_r. repeat split; auto. intros now o [].
  - rewrite app_assoc in H'. apply bruns_last in H' as (b1 & H1 & Hok & Hs). destruct (IH b1 H1) as (t1 & l & N1 & R1 & F & Hf).
    assert (forall now o, In (ACanister now o) l -> foreign j (more ++ [a]) b' now o) as Hf'
      by (intros now o I; eapply foreign_step; [apply Hf, I|exact Hs]).
    rewrite tab_acts_snoc. destruct a as [|i a|now o]; pose proof Hs as Hs0; cbn [bstep] in Hs.
    + injection Hs as <-. exists t1, l. split; [cbn [b_tabs]; rewrite nth_error_app1 by (apply nth_error_Some; congruence); exact N1|].
      split; [exact R1|]. split; [|exact Hf']. unfold tab_acts at 2. cbn [flat_map]. now rewrite app_nil_r.
    + destruct (nth_error (b_tabs b1) i) as [u|] eqn:Ni; [|discriminate]. destruct (tab_action a) eqn:A; [|discriminate].
      destruct (act_step D cid a (tab_world b1 u)) as [w|] eqn:S; [|discriminate]. injection Hs as <-.
      unfold tab_acts at 2. cbn [flat_map]. destruct (Nat.eqb_spec i j) as [->|Ne].
      * assert (u = t1) as -> by congruence. eexists _, (l ++ [a]). split; [apply (nth_insert_same _ _ _ _ N1)|].
        split; [|split].
        -- rewrite app_assoc. eapply runs_snoc; [exact R1|exact (Hok t1 N1)|]. rewrite S. destruct w; reflexivity.
        -- rewrite filter_filter_app, F. cbn [List.filter]. rewrite A. now rewrite app_nil_r.
        -- intros now o I. apply in_app_iff in I as [I|[->|[]]]; [now apply Hf'|discriminate A].
      * pose proof (shared_step D cid a _ w A (Hok u Ni) S) as [[Ec Eh]|(now & o & r & He & Hc & Eh & Est)].
        -- exists t1, (l ++ [AStorage (w_storage w)]). split; [cbn [put_world b_tabs]; rewrite nth_error_insert_ne by exact Ne; exact N1|].
           split; [|split].
           ++ rewrite app_assoc. eapply runs_snoc; [exact R1|exact I|]. cbn [act_step tab_world w_ctx w_tasks w_canister w_history w_own].
              unfold tab_world, put_world. cbn [b_storage b_canister b_history]. rewrite Ec, Eh. reflexivity.
           ++ now rewrite filter_filter_app, F, !app_nil_r.
           ++ intros now o I. apply in_app_iff in I as [I|[I|[]]]; [now apply Hf'|discriminate I].
        -- exists t1, (l ++ [ACanister now o]). split; [cbn [put_world b_tabs]; rewrite nth_error_insert_ne by exact Ne; exact N1|].
           split; [|split].
           ++ rewrite app_assoc. eapply runs_snoc; [exact R1|exact He|]. cbn [act_step tab_world w_ctx w_tasks w_canister w_history w_own w_storage] in *.
              rewrite Hc. unfold tab_world, put_world. cbn [b_storage b_canister b_history]. rewrite Eh, Est. reflexivity.
           ++ now rewrite filter_filter_app, F, !app_nil_r.
           ++ intros now' o' I. apply in_app_iff in I as [I|[I|[]]]; [now apply Hf'|]. injection I as <- <-.
              right. exists i, (mkTab (w_ctx w) (w_tasks w) (w_own w)), (mkEvent now o r). split; [exact Ne|].
              split; [apply (nth_insert_same _ _ _ _ Ni)|]. split; [|split; reflexivity]. cbn [t_own].
              clear - S Hc Eh He A. apply act_step_view in S. destruct S as [| |R|R|R|k s t x' t' st' N G|k now' cert t o' s' r' N R S|now' o' s' r' S|q];
                cbn [w_history w_own tab_world w_canister] in *;
                try (exfalso; apply (f_equal (@length event)) in Eh; rewrite app_length in Eh; cbn in Eh; lia).
              ** apply app_inv_head in Eh. rewrite Eh. apply in_app_iff. right. now left.
              ** discriminate A.
    + destruct (step D cid now o (b_canister b1)) as [s' r] eqn:S. injection Hs as <-. exists t1, (l ++ [ACanister now o]).
      split; [exact N1|]. split; [|split].
      * rewrite app_assoc. eapply runs_snoc; [exact R1|exact Hok|]. cbn [act_step tab_world w_ctx w_tasks w_canister w_history w_own w_storage].
        rewrite S. reflexivity.
      * rewrite filter_filter_app, F. reflexivity.
      * intros now' o' I. apply in_app_iff in I as [I|[I|[]]]; [now apply Hf'|]. injection I as <- <-. left. apply in_app_iff. right. now left.
Qed.

Lemma in_tab_acts a l acts : tab_action a = true -> List.filter tab_action l = acts -> (In a l <-> In a acts).
Proof. intros A <-. rewrite filter_In. tauto. Qed.
Lemma own_steps_filter k l : own_steps k l = own_steps k (List.filter tab_action l).
Proof.
  unfold own_steps. induction l as [|a l IH]; [reflexivity|]. cbn [List.filter].
  destruct (tab_action a) eqn:A; cbn [List.filter]; [destruct (concerns k a); cbn [length]; now rewrite IH|].
  destruct a; try discriminate A; exact IH.
Qed.
