(** C68, C69: what the React and Vue bindings show and which wallet they use. *)
From Coq Require Import Strings.String ZifyBool ZifyN ZifyNat.
From Verif Require Import Base BaseLemmas Deps Provider Json Concrete Demo Client SpecClient ClientDemo View SpecView.
Local Open Scope N_scope.

(** ** C68  Components show the state of the store *)

Lemma compare_says s : says (compare_flags s) s.
Proof. destruct s; repeat split; intros H; try reflexivity; discriminate. Qed.
Lemma idle_says s : s = Idle -> says (mkFlags false false false true) s.
Proof. intros ->. apply (compare_says Idle). Qed.

Lemma assigned_shows x v : shows (vue_assigned x v) x.
Proof. repeat split; try reflexivity; apply compare_says. Qed.
Lemma created_shows x : x_prepare x = Idle -> x_login x = Idle -> shows (vue_created x) x.
Proof.
  intros Hp Hl. unfold shows, vue_created. cbn.
  pose proof (idle_says _ Hp). pose proof (idle_says _ Hl). auto 20.
Qed.

Lemma prep_silent p s x x' p' : prep_sends p s = false -> prep_goes p s x = Some (x', p') -> x' = x.
Proof. destruct p, s; cbn; try discriminate. congruence. Qed.

Lemma task_silent t s x st x' t' st' : task_sends t s = false -> login_goes t s x st = Some (x', t', st') -> x' = x.
Proof.
  intros Hs H. destruct t as [p| |a p|a m n|a n sg k|a n sg k r|a k d r|i|e]; try (destruct s; discriminate).
  - cbn in Hs, H. destruct (prep_goes p s x) as [[x1 p1]|] eqn:E; [|discriminate].
    apply prep_silent in E; [congruence|exact Hs].
  - cbn in Hs. destruct p as [|a'|a' o|r]; destruct s; try discriminate. cbn in H. congruence.
  - cbn in Hs, H. destruct s; try discriminate. congruence.
  - cbn in Hs, H. destruct s, r as [r|]; try discriminate. destruct (login_answer r) as [[d|e]|]; try discriminate. congruence.
Qed.

Lemma act_silent D cid a w w' : act_sends a w = false -> a <> ALoad -> act_step D cid a w = Some w' -> w_ctx w' = w_ctx w.
Proof.
  intros Hs Hl H. destruct a as [| | | | |k s|k now cert|now o|j]; cbn in Hs, H; try discriminate; try congruence.
  - destruct (x_initializing (w_ctx w)); cbn in H; [discriminate|]. injection H as <-. reflexivity.
  - unfold login_starts in H. destruct (x_initializing (w_ctx w)); cbn in H.
    + destruct (x_prepare (w_ctx w)), (x_login (w_ctx w)); discriminate.
    + destruct (x_prepare (w_ctx w)), (x_login (w_ctx w)); try discriminate; injection H as <-; reflexivity.
  - destruct (nth_error (w_tasks w) k) as [t|]; [|discriminate].
    destruct (login_goes t s (w_ctx w) (w_storage w)) as [[[x' t'] st']|] eqn:E; [|discriminate].
    injection H as <-. cbn. eapply task_silent; eassumption.
  - destruct (nth_error (w_tasks w) k) as [t|]; [|discriminate]. destruct (task_request cert t); [|discriminate].
    destruct (step D cid now o (w_canister w)). injection H as <-. reflexivity.
  - destruct (step D cid now o (w_canister w)). injection H as <-. reflexivity.
  - injection H as <-. reflexivity.
Qed.

Lemma vue_act D cid a w c : a <> ALoad -> vue_step D cid (VAct a) w c =
  match act_step D cid a w with
  | Some w' => Some (w', if act_sends a w then told c (w_ctx w') else c)
  | None => None
  end.
Proof. destruct a; try reflexivity; congruence. Qed.

Lemma silent_det D cid acts w c w1 c1 w2 c2 : silent D cid acts w c w1 c1 -> silent D cid acts w c w2 c2 -> w1 = w2 /\ c1 = c2.
Proof.
  intros H. revert w2 c2. induction H as [w c|acts w c w1 c1 a w2 c2 H IH Ha Hs Hl E]; intros w' c' H'.
  - inversion H' as [|acts ? ? ? ? ? ? ? ? ? ? ? ? E]; [auto|]. destruct acts; discriminate.
  - inversion H' as [w0 c0 E0|acts' ? ? w1' c1' a' ? ? H1 Ha' Hs' Hl' E' E0]; [destruct acts; discriminate|].
    subst. apply app_inj_tail in E0 as [-> E0]. injection E0 as ->. apply IH in H1 as [<- <-]. split; congruence.
Qed.

(** What is known of a component. *)
Definition seen_so_far (D : Deps) (cid : bytes) (acts : list vact) (w : world) (c : component) : Prop :=
  match c with
  | VAbsent => True
  | VSetup v => exists pre mid w1, acts = pre ++ [VCreate] ++ mid /\ vruns D cid (pre ++ [VCreate]) w1 (VSetup v) /\
      v = vue_created (w_ctx w1) /\
      ((silent D cid mid w1 (VSetup v) w (VSetup v) /\ w_ctx w = w_ctx w1) \/
       forall w', ~ silent D cid mid w1 (VSetup v) w' (VSetup v))
  | VMounted v => shows v (w_ctx w) \/
      exists pre mid post w1 w2, acts = pre ++ [VCreate] ++ mid ++ [VMount] ++ post /\
        vruns D cid (pre ++ [VCreate]) w1 (VSetup v) /\ vruns D cid (pre ++ [VCreate] ++ mid) w2 (VSetup v) /\
        silent D cid post w2 (VMounted v) w (VMounted v) /\
        (x_prepare (w_ctx w1) <> Idle \/ x_login (w_ctx w1) <> Idle \/ ~ silent D cid mid w1 (VSetup v) w2 (VSetup v))
  end.

Lemma shows_ctx v x y : x = y -> shows v x -> shows v y.
Proof. intros ->. auto. Qed.

Lemma seen_always D cid acts w c : vruns D cid acts w c -> seen_so_far D cid acts w c.
Proof.
  induction 1 as [|acts w c a w' c' H IH Ha E]; [exact I|].
  assert (forall a, a <> ALoad -> vact_ok (VAct a) w -> vue_step D cid (VAct a) w c = Some (w', c') ->
    seen_so_far D cid (acts ++ [VAct a]) w' c') as Hact.
  { clear a E Ha. intros a Hl Ha E0. pose proof E0 as E. rewrite (vue_act D cid a w c Hl) in E.
    destruct (act_step D cid a w) as [w0|] eqn:Es; [|discriminate].
    assert (w0 = w') as -> by congruence. assert (c' = if act_sends a w then told c (w_ctx w') else c) as Ec by congruence.
    destruct (act_sends a w) eqn:Hs.
    - destruct c as [|v|v]; cbn in Ec; subst c'; cbn [seen_so_far] in *; [exact I| |left; apply assigned_shows].
      destruct IH as (pre & mid & w1 & -> & H1 & Ev & Hm).
      exists pre, (mid ++ [VAct a]), w1. split; [now rewrite <- !app_assoc|]. split; [exact H1|]. split; [exact Ev|]. right.
      intros w2 Hx. inversion Hx as [|m ? ? w3 c3 a' ? ? Hm' _ Hs' _ _ E1]; [destruct mid; discriminate|].
      apply app_inj_tail in E1 as [-> E1]. injection E1 as ->. subst.
      destruct Hm as [[Hm _]|Hm].
      + destruct (silent_det _ _ _ _ _ _ _ _ _ Hm Hm') as [<- _]. congruence.
      + assert (c3 = VSetup (vue_created (w_ctx w1))) as ->; [|now apply (Hm w3)].
        clear -Hm'. remember (VSetup (vue_created (w_ctx w1))) as c0 eqn:E0. revert E0.
        induction Hm' as [|m w c w1' c1 a w2 c2 _ IH _ Hs Hl E]; intros E0; [reflexivity|].
        rewrite (vue_act _ _ _ _ _ Hl), Hs in E. destruct (act_step D cid a w1'); [|discriminate].
        assert (c2 = c1) as -> by congruence. apply IH, E0.
    - subst c'. pose proof (act_silent D cid a w w' Hs Hl Es) as Ex.
      destruct c as [|v|v]; cbn [seen_so_far] in *; [exact I| |].
      + destruct IH as (pre & mid & w1 & -> & H1 & Ev & Hm).
        exists pre, (mid ++ [VAct a]), w1. split; [now rewrite <- !app_assoc|]. split; [exact H1|]. split; [exact Ev|].
        destruct Hm as [[Hm Ew]|Hm].
        * left. split; [|congruence]. eapply silent_snoc; eassumption.
        * right. intros w2 Hx. inversion Hx as [|m ? ? w3 c3 a' ? ? Hm' _ Hs' Hl' E2 E1]; [destruct mid; discriminate|].
          apply app_inj_tail in E1 as [-> E1]. injection E1 as ->. subst.
          rewrite (vue_act _ _ _ _ _ Hl'), Hs' in E2. destruct (act_step D cid a w3); [|discriminate].
          assert (c3 = VSetup (vue_created (w_ctx w1))) as -> by congruence. now apply (Hm w3).
      + destruct IH as [IH|(pre & mid & post & w1 & w2 & -> & H1 & H2 & H3 & H4)].
        * left. eapply shows_ctx; [symmetry; exact Ex|exact IH].
        * right. exists pre, mid, (post ++ [VAct a]), w1, w2. split; [now rewrite <- !app_assoc|].
          split; [exact H1|]. split; [exact H2|]. split; [|exact H4]. eapply silent_snoc; eassumption. }
  destruct a as [a| | |].
  - destruct a; try (apply Hact; [discriminate|exact Ha|exact E]). cbn in E. injection E as <- <-. exact I.
  - destruct c; try discriminate. cbn in E. injection E as <- <-.
    exists acts, [], (mkWorld (construct (w_storage w) (w_ctx w)) (w_storage w) (w_tasks w) (w_canister w) (w_history w) (w_own w)).
    split; [reflexivity|]. split; [eapply vruns_snoc; eauto; reflexivity|]. split; [reflexivity|].
    left. split; [constructor|reflexivity].
  - destruct c as [|v|v]; try discriminate. cbn in E. injection E as <- <-. cbn [seen_so_far] in *.
    destruct IH as (pre & mid & w1 & -> & H1 & Ev & Hm).
    assert (x_prepare (w_ctx w1) <> Idle \/ x_login (w_ctx w1) <> Idle \/ ~ silent D cid mid w1 (VSetup v) w (VSetup v) ->
      exists pre0 mid0 post w2 w3, (pre ++ [VCreate] ++ mid) ++ [VMount] = pre0 ++ [VCreate] ++ mid0 ++ [VMount] ++ post /\
        vruns D cid (pre0 ++ [VCreate]) w2 (VSetup v) /\ vruns D cid (pre0 ++ [VCreate] ++ mid0) w3 (VSetup v) /\
        silent D cid post w3 (VMounted v) w (VMounted v) /\
        (x_prepare (w_ctx w2) <> Idle \/ x_login (w_ctx w2) <> Idle \/ ~ silent D cid mid0 w2 (VSetup v) w3 (VSetup v))) as Hbad.
    { intros Hb. exists pre, mid, [], w1, w. split; [now rewrite <- !app_assoc|]. split; [exact H1|]. split; [exact H|].
      split; [constructor|exact Hb]. }
    destruct Hm as [[Hm Ew]|Hm]; [|right; apply Hbad; right; right; apply Hm].
    destruct (x_prepare (w_ctx w1)) eqn:Ep; try (right; apply Hbad; left; discriminate).
    destruct (x_login (w_ctx w1)) eqn:El; try (right; apply Hbad; right; left; discriminate).
    left. rewrite Ev. eapply shows_ctx; [symmetry; exact Ew|]. now apply created_shows.
  - destruct c; try discriminate; cbn in E; injection E as <- <-; exact I.
Qed.

(** React: every rendering shows the store. *)
Theorem C68_react : forall x, shows (react_view x) x.
Proof. intros x. repeat split; try reflexivity; apply compare_says. Qed.

(** Vue: a mounted component shows the store, except when the store has not changed since
    the component was mounted and, at its setup, a status was not idle, or the store
    changed between setup and mounting. *)
Theorem C68_vue_partial : forall D cid acts w v, vruns D cid acts w (VMounted v) ->
  shows v (w_ctx w) \/
  exists pre mid post w1 w2, acts = pre ++ [VCreate] ++ mid ++ [VMount] ++ post /\
    vruns D cid (pre ++ [VCreate]) w1 (VSetup v) /\ vruns D cid (pre ++ [VCreate] ++ mid) w2 (VSetup v) /\
    silent D cid post w2 (VMounted v) w (VMounted v) /\
    (x_prepare (w_ctx w1) <> Idle \/ x_login (w_ctx w1) <> Idle \/ ~ silent D cid mid w1 (VSetup v) w2 (VSetup v)).
Proof. intros D cid acts w v H. exact (seen_always D cid acts w _ H). Qed.

(** ... so the next change of the store puts it right. *)
Theorem C68_vue_next : forall D cid w v a w' c, act_sends a w = true -> vue_step D cid (VAct a) w (VMounted v) = Some (w', c) ->
  exists v', c = VMounted v' /\ shows v' (w_ctx w').
Proof.
  intros D cid w v a w' c Hs E. assert (a <> ALoad) as Hl by (intros ->; discriminate).
  rewrite (vue_act D cid a w _ Hl), Hs in E. destruct (act_step D cid a w) as [w0|]; [|discriminate].
  assert (w0 = w') as -> by congruence. exists (vue_assigned (w_ctx w') v). split; [cbn in E; congruence|apply assigned_shows].
Qed.

(** The exception is real: after Alice has signed in, a component that is created anew (the
    user has moved to another part of the page) shows loginStatus "success" and at the same
    time isLoginSuccess = false and isLoginIdle = true. *)
Lemma lift_runs D cid acts w : runs D cid acts w -> vruns D cid (map VAct acts) w VAbsent.
Proof.
  induction 1 as [|acts w a w' H IH Ha E]; [constructor|]. rewrite map_app.
  apply (vruns_snoc D cid (map VAct acts) w VAbsent (VAct a)); [exact IH|exact Ha|].
  destruct a; cbn [vue_step]; rewrite E; try reflexivity; destruct (act_sends _ w); reflexivity.
Qed.

Definition signed_in_again (D : Deps) (cid : bytes) (acts : list action) (w : world) : world :=
  mkWorld (construct (w_storage w) (w_ctx w)) (w_storage w) (w_tasks w) (w_canister w) (w_history w) (w_own w).

Theorem C68_vue_refuted : exists acts w v, vruns CD demo_cid acts w (VMounted v) /\
  x_login (w_ctx w) = Success /\ v_login v = Success /\ f_success (v_login_flags v) = false /\
  f_idle (v_login_flags v) = true /\ ~ shows v (w_ctx w).
Proof.
  destruct (perform CD demo_cid 0 alice_acts initial_world) as [w|] eqn:E;
    [|apply (f_equal (option_map (fun w => x_login (w_ctx w)))) in E; vm_compute in E; discriminate].
  assert (x_login (w_ctx w) = Success) as Hl.
  { apply (f_equal (option_map (fun w => x_login (w_ctx w)))) in E. cbn [option_map] in E.
    assert (forall a b : status, Some a = Some b -> b = a) as Hinj by congruence. apply Hinj. rewrite <- E. vm_compute. reflexivity. }
  assert (runs CD demo_cid alice_acts w) as H.
  { apply (perform_runs CD demo_cid alice_acts [] 0 initial_world w); [constructor|constructor|exact E]. }
  clear E.
  set (w' := signed_in_again CD demo_cid alice_acts w).
  assert (x_login (w_ctx w') = Success) as Hl'.
  { unfold w', signed_in_again, construct. cbn [w_ctx]. destruct (load_identity (w_storage w)) as [[[a i] c]|]; exact Hl. }
  exists ((map VAct alice_acts ++ [VCreate]) ++ [VMount]), w', (vue_created (w_ctx w')). split.
  { eapply vruns_snoc; [eapply vruns_snoc; [apply lift_runs, H|exact I|reflexivity]|exact I|reflexivity]. }
  split; [exact Hl'|]. split; [exact Hl'|]. split; [reflexivity|]. split; [reflexivity|].
  intros (_ & _ & _ & _ & _ & (_ & _ & _ & Hi) & _). rewrite Hl' in Hi. cbn in Hi. destruct Hi as [Hi _].
  specialize (Hi eq_refl). discriminate.
Qed.

(** Concrete: a component present from the start follows Alice's login to its end. *)
Fixpoint vperform (D : Deps) (cid : bytes) (last : N) (acts : list action) (w : world) (c : component) : option (world * component) :=
  match acts with
  | [] => Some (w, c)
  | a :: acts =>
      if act_okb last a w then
        match vue_step D cid (VAct a) w c with
        | Some (w', c') => vperform D cid (act_time last a) acts w' c'
        | None => None
        end
      else None
  end.

Lemma vue_world D cid a w c w' c' : vue_step D cid (VAct a) w c = Some (w', c') -> act_step D cid a w = Some w'.
Proof. destruct a; cbn [vue_step]; destruct (act_step D cid _ w); intros H; try discriminate; injection H as <- _; reflexivity. Qed.

Lemma vperform_runs D cid acts : forall before last w c w' c', vruns D cid before w c ->
  Forall (fun e => ev_time e <= last) (w_history w) -> vperform D cid last acts w c = Some (w', c') ->
  vruns D cid (before ++ map VAct acts) w' c'.
Proof.
  induction acts as [|a acts IH]; intros before last w c w' c' H HF E; cbn [vperform] in E.
  - injection E as <- <-. now rewrite app_nil_r.
  - destruct (act_okb last a w) eqn:Hok; [|discriminate]. destruct (vue_step D cid (VAct a) w c) as [[w1 c1]|] eqn:Hs; [|discriminate].
    cbn [map]. change (VAct a :: map VAct acts) with ([VAct a] ++ map VAct acts). rewrite app_assoc. eapply (IH _ (act_time last a) w1 c1).
    + apply (vruns_snoc D cid before w c); auto. now apply (act_okb_spec last).
    + eapply act_time_history; [eassumption|eapply vue_world, Hs|exact HF].
    + exact E.
Qed.

Definition first_world : world := mkWorld (construct None initial_ctx) None [] None [] [].
Definition look (p : world * component) : option (status * option json * bool) :=
  match p with (w, VMounted v) => Some (x_login (w_ctx w), v_address v, f_success (v_login_flags v)) | _ => None end.

Example C68_case : exists acts w v, vruns CD demo_cid acts w (VMounted v) /\ x_login (w_ctx w) = Success /\
  v_address v = Some (JStr alice_text) /\ f_success (v_login_flags v) = true.
Proof.
  destruct (vperform CD demo_cid 0 alice_acts first_world (VMounted (vue_created (w_ctx first_world)))) as [p|] eqn:E.
  - assert (look p = Some (Success, Some (JStr alice_text), true)) as Hp.
    { assert (option_map look (Some p) = Some (Some (Success, Some (JStr alice_text), true))) as Hp; [|cbn [option_map] in Hp; injection Hp as Hp; exact Hp].
      rewrite <- E. vm_compute. reflexivity. }
    destruct p as [w [|v|v]]; cbn [look] in Hp; [discriminate Hp|discriminate Hp|].
    exists ([VCreate; VMount] ++ map VAct alice_acts), w, v. injection Hp as H1 H2 H3. split; [|auto].
    refine (vperform_runs CD demo_cid alice_acts [VCreate; VMount] 0 first_world _ w _ _ _ E); [|constructor].
    eapply (vruns_snoc _ _ [VCreate]); [eapply (vruns_snoc _ _ []); [constructor|exact I|reflexivity]|exact I|reflexivity].
  - apply (f_equal (option_map look)) in E. vm_compute in E. discriminate.
Qed.

(** ** C69  The page talks to the connected wallet *)

Lemma opt_eqb_bytes x y : opt_eqb bytes_eqb x y = true -> x = y.
Proof. destruct x, y; cbn; try discriminate; [|reflexivity]. intros E. apply bytes_eqb_spec in E. congruence. Qed.
Lemma opt_eqb_N x y : opt_eqb N.eqb x y = true -> x = y.
Proof. destruct x, y; cbn; try discriminate; [|reflexivity]. intros E. f_equal. lia. Qed.

Definition in_step (b : binding) : Prop :=
  forall a r c, b_account b = Some (a :: r) -> b_client b = Some c -> b_manager b = Some c.

Lemma effect_in_step b : in_step (effect b).
Proof.
  destruct b as [[[|a r]|] [c|] m]; intros a' r' c' Ha Hc; cbn in *; try discriminate; congruence.
Qed.

Lemma react_in_step injected account client acts : in_step (react_run injected account client acts).
Proof.
  unfold react_run. assert (in_step (effect (initial_binding account client))) as H by apply effect_in_step.
  revert H. generalize (effect (initial_binding account client)) as b. induction acts as [|x acts IH]; intros b H; cbn [fold_left]; [exact H|].
  apply IH. destruct x as [acc cl| |]; cbn [react_step].
  - destruct (opt_eqb bytes_eqb acc (b_account b) && opt_eqb N.eqb cl (b_client b)) eqn:E; [|apply effect_in_step].
    apply Bool.andb_true_iff in E as [E1 E2]. apply opt_eqb_bytes in E1. apply opt_eqb_N in E2. subst.
    intros a r c Ha Hc. cbn in *. eapply H; eassumption.
  - apply effect_in_step.
  - unfold setup_wallet. destruct (b_manager b) eqn:E; [exact H|]. intros a r c Ha Hc. cbn in *. rewrite (H a r c Ha Hc) in E. discriminate.
Qed.

(** Whenever wagmi reports a connected account and its client, calls ask that client's
    wallet, whatever was connected before and however often the manager was replaced. *)
Theorem C69_connected_partial : forall injected account client acts a r c,
  b_account (react_run injected account client acts) = Some (a :: r) ->
  b_client (react_run injected account client acts) = Some c ->
  asked_wallet injected (react_run injected account client acts) = Some c.
Proof.
  intros injected account client acts a r c Ha Hc. unfold asked_wallet, setup_wallet.
  rewrite (react_in_step injected account client acts a r c Ha Hc). cbn.
  now apply (react_in_step injected account client acts a r c).
Qed.

(** But after the user has disconnected, and before a client is there, calls go on asking
    the former wallet, or the browser's own one. *)
Theorem C69_disconnected_refuted : exists acts1 acts2,
  b_account (react_run (Some 1) None None acts1) = None /\ asked_wallet (Some 1) (react_run (Some 1) None None acts1) = Some 2 /\
  b_client (react_run (Some 1) None None acts2) = None /\ b_account (react_run (Some 1) None None acts2) <> None /\
  asked_wallet (Some 1) (react_run (Some 1) None None acts2) = Some 1.
Proof.
  exists [RWagmi (Some alice_text) (Some 2); RWagmi None None], [RWagmi (Some alice_text) None].
  split; [reflexivity|]. split; [reflexivity|]. split; [reflexivity|]. split; [discriminate|reflexivity].
Qed.

(** Concrete: another wallet is connected, then the options change, with calls in between. *)
Example C69_case :
  let b := react_run (Some 1) None None [RCall; RWagmi (Some alice_text) (Some 2); RCall; ROptions; RWagmi (Some bob_text) (Some 3)] in
  b_account b = Some bob_text /\ b_client b = Some 3 /\ asked_wallet (Some 1) b = Some 3.
Proof. split; [reflexivity|]. split; reflexivity. Qed.

Print Assumptions C68_react.
Print Assumptions C68_vue_partial.
Print Assumptions C68_vue_next.
Print Assumptions C68_vue_refuted.
Print Assumptions C69_connected_partial.
Print Assumptions C69_disconnected_refuted.
