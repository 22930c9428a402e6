(** The login button of the documentation. *)
From Coq Require Import Strings.String ZifyBool ZifyN ZifyNat.
From Verif Require Import Base BaseLemmas Deps Delegation Login Provider SpecTrace Concrete Scripts Demo
  Client SpecClient SpecButton ClientProofs ClientSeq ClientStatus ClientDemo PropertiesClient.
Local Open Scope N_scope.

Lemma runs_snoc_inv D cid acts a w' : runs D cid (acts ++ [a]) w' ->
  exists w, runs D cid acts w /\ act_ok a w /\ act_step D cid a w = Some w'.
Proof.
  intros H. inversion H as [E|acts0 w a0 w0 H0 Ha Hs E]; [destruct acts; discriminate|].
  apply app_inj_tail in E as [-> ->]. eauto.
Qed.

(** Where a call stands after it has gone on. *)
Lemma prep_goes_login p s x x' p' : prep_goes p s x = Some (x', p') -> x_login x' = x_login x.
Proof.
  unfold prep_goes, prep_fails. intros E.
  assert (forall (a b : ctx) (c d : prep), Some (a, c) = Some (b, d) -> a = b) as Hinj by (intros; congruence).
  destruct p as [|a|a [r|]|r], s as [e|l| |sg k|]; try discriminate E; try (now apply Hinj in E; subst x').
  - destruct (first_account l); apply Hinj in E; now subst x'.
  - destruct (prepare_answer r) as [[m|e]|]; try discriminate E; apply Hinj in E; now subst x'.
Qed.

Lemma goes_kind t s x st x' t' st' : login_goes t s x st = Some (x', t', st') ->
  (~ login_running t -> ~ login_running t' /\ x_login x' = x_login x) /\
  (login_running t -> ~ login_running t' \/
     (login_working t' /\ (t = TAddresses -> x_login x' = Busy) /\ (t <> TAddresses -> x_login x' = x_login x))).
Proof.
  intros E. assert (forall (a b : ctx) (c d : task) (e f : option bytes), Some (a, c, e) = Some (b, d, f) -> a = b /\ c = d) as Hinj
    by (intros; split; congruence).
  destruct t as [p| |a p|a m n|a n sg k|a n sg k o|a k d o|i|e]; cbn [login_goes] in E.
  - destruct (prep_goes p s x) as [[x1 p1]|] eqn:Ep; [|discriminate]. apply Hinj in E as [<- <-].
    split; [|intros []]. intros _. split; [intros []|]. now apply prep_goes_login in Ep.
  - split; [intros N; exfalso; apply N; exact I|]. intros _. destruct s as [e|l| |sg k|]; try discriminate E.
    + apply Hinj in E as [<- <-]. left. intros [].
    + destruct (first_account l) as [a|]; [|apply Hinj in E as [<- <-]; left; intros []].
      destruct (x_message x) as [[m n]|]; apply Hinj in E as [<- <-]; right; (split; [split; [exact I|discriminate]|]);
        (split; [reflexivity|]); intros N; now contradiction N.
  - split; [intros N; exfalso; apply N; exact I|]. intros _.
    assert (forall y, match prep_goes p s x with Some (x, p) => Some (x, TPreparing a p, st) | None => None end = Some y ->
      exists x1 p1, prep_goes p s x = Some (x1, p1) /\ y = (x1, TPreparing a p1, st)) as Hp.
    { intros y Ey. destruct (prep_goes p s x) as [[x1 p1]|]; [|discriminate]. exists x1, p1. split; congruence. }
    destruct p as [|b|b o|[[m n]|e]].
    1-3: apply Hp in E as (x1 & p1 & Ep & E); apply (f_equal Some) in E; apply Hinj in E as [-> ->]; right;
         (split; [split; [exact I|discriminate]|]); (split; [discriminate|]); intros _; now apply prep_goes_login in Ep.
    + destruct s; try discriminate E. apply Hinj in E as [<- <-]. right. split; [split; [exact I|discriminate]|]. split; [discriminate|reflexivity].
    + destruct s; try discriminate E. apply Hinj in E as [<- <-]. left. intros [].
  - split; [intros N; exfalso; apply N; exact I|]. intros _. destruct s as [e|l| |sg k|]; try discriminate E.
    + apply Hinj in E as [<- <-]. left. intros [].
    + destruct sg; apply Hinj in E as [<- <-]; [left; intros []|]. right. split; [split; [exact I|discriminate]|]. split; [discriminate|reflexivity].
  - split; [intros N; exfalso; apply N; exact I|]. intros _. destruct s; try discriminate E; apply Hinj in E as [<- <-]; [left; intros []|].
    right. split; [split; [exact I|discriminate]|]. split; [discriminate|reflexivity].
  - split; [intros N; exfalso; apply N; exact I|]. intros _. destruct s, o as [r|]; try discriminate E; try (apply Hinj in E as [<- <-]; left; intros []).
    destruct (login_answer r) as [[d|e]|]; try discriminate E; apply Hinj in E as [<- <-]; [|left; intros []].
    right. split; [split; [exact I|discriminate]|]. split; [discriminate|reflexivity].
  - split; [intros N; exfalso; apply N; exact I|]. intros _. left. destruct s, o as [r|]; try discriminate E; try (apply Hinj in E as [<- <-]; intros []).
    destruct (delegation_answer r) as [[sd|e]|]; try discriminate E; apply Hinj in E as [<- <-]; intros [].
  - destruct s; discriminate E.
  - destruct s; discriminate E.
Qed.

Lemma answered_kind r t : (login_running (task_answered r t) <-> login_running t) /\ (task_answered r t = TAddresses <-> t = TAddresses).
Proof. destruct t as [p| |a p|a m n|a n sg k|a n sg k [o|]|a k d [o|]|i|e]; split; try reflexivity; try (split; discriminate). Qed.

(** Looking at a script before each of its actions. *)
Fixpoint watch (D : Deps) (cid : bytes) (ok : action -> world -> bool) (acts : list action) (w : world) : bool :=
  match acts with
  | [] => true
  | a :: acts => ok a w && match act_step D cid a w with Some w' => watch D cid ok acts w' | None => true end
  end.
Lemma runs_prefix D cid acts1 : forall acts2 w, runs D cid (acts1 ++ acts2) w -> exists w0, runs D cid acts1 w0.
Proof.
  induction acts2 as [|a acts2 IH] using rev_ind; intros w H; [rewrite app_nil_r in H; eauto|].
  rewrite app_assoc in H. apply runs_snoc_inv in H as (w0 & H0 & _). eauto.
Qed.
Lemma watch_spec D cid ok acts : forall done w, runs D cid done w -> watch D cid ok acts w = true ->
  forall before a after v, acts = before ++ a :: after -> runs D cid (done ++ before) v -> ok a v = true.
Proof.
  induction acts as [|a0 acts IH]; intros done w H Hw before a after v E Hv; [destruct before; discriminate|].
  cbn [watch] in Hw. apply Bool.andb_true_iff in Hw as [Ho Hw].
  destruct before as [|a1 before]; cbn [app] in E; injection E as -> E.
  - rewrite app_nil_r in Hv. now rewrite (runs_fun _ _ _ _ _ Hv H).
  - change (a1 :: before) with ([a1] ++ before) in Hv. rewrite app_assoc in Hv.
    destruct (runs_prefix _ _ _ _ _ Hv) as [w1 H1]. pose proof H1 as H1'.
    apply runs_snoc_inv in H1 as (w0 & H0 & _ & Hs). rewrite (runs_fun _ _ _ _ _ H0 H) in Hs. rewrite Hs in Hw.
    eapply (IH _ w1 H1' Hw); eassumption.
Qed.

Definition is_busy (s : status) : bool := match s with Busy => true | _ => false end.
Definition is_success (s : status) : bool := match s with Success => true | _ => false end.
Definition pressable (a : action) (w : world) : bool :=
  match a with ALogin => negb (is_busy (x_login (w_ctx w))) && is_success (x_prepare (w_ctx w)) | _ => true end.
Definition runningb (t : task) : bool := match t with TPrepare _ | TReturned _ | TThrown _ => false | _ => true end.
Definition addressesb (t : task) : bool := match t with TAddresses => true | _ => false end.
Definition unhurried (a : action) (w : world) : bool :=
  match a with
  | ALogin => negb (existsb addressesb (w_tasks w))
  | AClear => negb (existsb runningb (w_tasks w))
  | _ => true
  end.

Lemma by_button_watch D cid acts : watch D cid pressable acts initial_world = true -> by_button D cid acts.
Proof.
  intros H before after w E R. pose proof (watch_spec D cid pressable acts [] initial_world (runs_nil D cid) H before ALogin after w E R) as P.
  cbn in P. apply Bool.andb_true_iff in P as [P1 P2]. split; [|now destruct (x_prepare (w_ctx w))].
  intros Eb. now rewrite Eb in P1.
Qed.
Lemma patient_watch D cid acts : watch D cid unhurried acts initial_world = true -> patient D cid acts.
Proof.
  intros H. split; intros before after w E R.
  - pose proof (watch_spec D cid unhurried acts [] initial_world (runs_nil D cid) H before ALogin after w E R) as P.
    cbn [unhurried] in P. apply Bool.negb_true_iff in P. intros I.
    enough (existsb addressesb (w_tasks w) = true) by congruence. apply existsb_exists. exists TAddresses. auto.
  - pose proof (watch_spec D cid unhurried acts [] initial_world (runs_nil D cid) H before AClear after w E R) as P.
    cbn [unhurried] in P. apply Bool.negb_true_iff in P. intros t I Hr.
    enough (existsb runningb (w_tasks w) = true) by congruence. apply existsb_exists. exists t. split; [exact I|]. now destruct t.
Qed.

(** ** C105  The login button of the documentation *)

(** A press of the button is never turned away for coming at a wrong time. *)
Theorem C105_taken : forall D cid acts w, runs D cid (acts ++ [ALogin]) w -> by_button D cid (acts ++ [ALogin]) ->
  exists w0, runs D cid acts w0 /\ w_tasks w = w_tasks w0 ++ [TAddresses] /\ w_ctx w = w_ctx w0.
Proof.
  intros D cid acts w H Hb. apply runs_snoc_inv in H as (w0 & H0 & _ & Hs). exists w0. split; [exact H0|].
  destruct (Hb acts [] w0 eq_refl H0) as [Hl Hp]. cbn [act_step] in Hs. unfold login_starts in Hs. rewrite Hp in Hs.
  destruct (x_initializing (w_ctx w0)); destruct (x_login (w_ctx w0)); try contradiction; cbn [negb] in Hs;
    try discriminate Hs; apply (inj Some) in Hs; subst w; split; reflexivity.
Qed.

Definition C105_claim (D : Deps) : Prop := forall cid acts w j k t u, runs D cid acts w -> by_button D cid acts ->
  nth_error (w_tasks w) j = Some t -> nth_error (w_tasks w) k = Some u -> login_working t -> login_working u -> j = k.

Theorem C105_one_partial : forall D cid acts w j k t u, runs D cid acts w -> by_button D cid acts -> patient D cid acts ->
  nth_error (w_tasks w) j = Some t -> nth_error (w_tasks w) k = Some u -> login_running t -> login_running u -> j = k.
Proof.
  intros D cid acts w j k t u H Hb Hp. revert j k t u.
  enough ((forall j k t u, nth_error (w_tasks w) j = Some t -> nth_error (w_tasks w) k = Some u ->
      login_running t -> login_running u -> j = k) /\
    (forall t, In t (w_tasks w) -> login_working t -> x_login (w_ctx w) = Busy)) by tauto.
  induction H as [|acts w a w' H IH Ha Hs].
  { split; [intros [] ? ? ? E; discriminate E|intros t []]. }
  assert (forall bef aft b, acts = bef ++ b :: aft -> acts ++ [a] = bef ++ b :: (aft ++ [a])) as Hext
    by (intros bef aft b ->; now rewrite <- app_assoc).
  destruct IH as [H1 H2].
  { intros bef aft w0 E. eapply Hb. apply Hext, E. }
  { split; intros bef aft w0 E; [eapply (proj1 Hp)|eapply (proj2 Hp)]; apply Hext, E. }
  assert (forall (l : list task) n x, nth_error (l ++ [x]) n = nth_error l n \/ (n = length l /\ nth_error (l ++ [x]) n = Some x)) as Hlast.
  { intros l n x. destruct (Nat.lt_ge_cases n (length l)) as [L|G]; [left; now apply nth_error_app1|].
    destruct (Nat.eq_dec n (length l)) as [->|Ne]; [right; split; [reflexivity|]; rewrite nth_error_app2, Nat.sub_diag by lia; reflexivity|].
    left. transitivity (@None task); [|symmetry]; apply nth_error_None; rewrite ?app_length; cbn [length]; lia. }
  destruct a as [| | | | |k0 s|k0 now cert|now o|st]; cbn [act_step] in Hs.
  - apply (inj Some) in Hs. subst w'. cbn [w_tasks w_ctx]. split; [intros [] ? ? ? E; discriminate E|intros t []].
  - apply (inj Some) in Hs. subst w'. cbn [w_tasks w_ctx]. split; [exact H1|]. intros t Ht Hw.
    unfold construct. destruct (load_identity (w_storage w)) as [[[? ?] ?]|]; cbn [x_login]; eauto.
  - destruct (negb (x_initializing (w_ctx w))); [|discriminate]. apply (inj Some) in Hs. subst w'. cbn [w_tasks w_ctx]. split.
    + intros j k t u Hj Hk Rt Ru. destruct (Hlast (w_tasks w) j (TPrepare PAddresses)) as [E1|[-> E1]], (Hlast (w_tasks w) k (TPrepare PAddresses)) as [E2|[-> E2]];
        rewrite E1 in Hj; rewrite E2 in Hk; try (injection Hj as <-; destruct Rt); try (injection Hk as <-; destruct Ru). eauto.
    + intros t Ht Hw. apply in_app_iff in Ht as [Ht|[<-|[]]]; [eauto|]. destruct Hw as [[] _].
  - (* the button *)
    destruct (Hb acts [] w eq_refl H) as [Hl Hpr]. pose proof (proj1 Hp acts [] w eq_refl H) as Hna.
    assert (forall t, In t (w_tasks w) -> ~ login_running t) as Hnone.
    { intros t Ht Hr. apply Hl. apply (H2 t Ht). split; [exact Hr|]. intros ->. now apply Hna. }
    assert (w_tasks w' = w_tasks w ++ [TAddresses]) as Et.
    { unfold login_starts in Hs. rewrite Hpr in Hs.
      destruct (x_initializing (w_ctx w)); destruct (x_login (w_ctx w)); try contradiction; cbn [negb] in Hs;
        try discriminate Hs; apply (inj Some) in Hs; now subst w'. }
    rewrite Et. split.
    + intros j k t u Hj Hk Rt Ru. destruct (Hlast (w_tasks w) j TAddresses) as [E1|[-> E1]], (Hlast (w_tasks w) k TAddresses) as [E2|[-> E2]];
        rewrite E1 in Hj; rewrite E2 in Hk; try reflexivity.
      * apply nth_error_In in Hj. now apply Hnone in Hj.
      * apply nth_error_In in Hj. now apply Hnone in Hj.
      * apply nth_error_In in Hk. now apply Hnone in Hk.
    + intros t Ht [Hr Hne]. apply in_app_iff in Ht as [Ht|[<-|[]]]; [now apply Hnone in Ht|contradiction].
  - destruct (negb (x_initializing (w_ctx w))); [|discriminate]. apply (inj Some) in Hs. subst w'. cbn [w_tasks w_ctx]. split; [exact H1|].
    intros t Ht [Hr _]. exfalso. exact (proj2 Hp acts [] w eq_refl H t Ht Hr).
  - destruct (nth_error (w_tasks w) k0) as [t0|] eqn:Ek; [|discriminate].
    destruct (login_goes t0 s (w_ctx w) (w_storage w)) as [[[x' t'] st']|] eqn:Eg; [|discriminate].
    apply (inj Some) in Hs. subst w'. cbn [w_tasks w_ctx].
    destruct (goes_kind _ _ _ _ _ _ _ Eg) as [G1 G2].
    assert (forall n y, nth_error (<[k0:=t']> (w_tasks w)) n = Some y -> (n = k0 /\ y = t') \/ (n <> k0 /\ nth_error (w_tasks w) n = Some y)) as Hins.
    { intros n y. apply nth_insert_cases. }
    assert (login_running t0 \/ ~ login_running t0) as [R0|N0] by (destruct t0; cbn; tauto).
    + split.
      * intros j k t u Hj Hk Rt Ru. destruct (Hins j t Hj) as [[-> ->]|[Nj Ej]], (Hins k u Hk) as [[-> ->]|[Nk Ek']]; [reflexivity| | |].
        -- exfalso. apply Nk. eapply (H1 k k0); eauto.
        -- exfalso. apply Nj. eapply (H1 j k0); eauto.
        -- eauto.
      * intros t Ht Hw. apply In_nth_error in Ht as [n Hn]. destruct (Hins n t Hn) as [[-> ->]|[Nn En]].
        -- destruct (G2 R0) as [N|(_ & Ga & Gb)]; [destruct Hw; contradiction|].
           assert (t0 = TAddresses \/ t0 <> TAddresses) as [E|E] by (destruct t0; (now left) || (right; discriminate)); [now apply Ga|].
           rewrite (Gb E). apply (H2 t0); [eapply nth_error_In, Ek|now split].
        -- exfalso. apply Nn. eapply (H1 n k0); eauto. now destruct Hw.
    + destruct (G1 N0) as [N1 El]. split.
      * intros j k t u Hj Hk Rt Ru. destruct (Hins j t Hj) as [[-> ->]|[Nj Ej]], (Hins k u Hk) as [[-> ->]|[Nk Ek']]; try contradiction. eauto.
      * intros t Ht Hw. apply In_nth_error in Ht as [n Hn]. destruct (Hins n t Hn) as [[-> ->]|[Nn En]]; [destruct Hw; contradiction|].
        rewrite El. apply (H2 t); [eapply nth_error_In, En|exact Hw].
  - destruct (nth_error (w_tasks w) k0) as [t0|] eqn:Ek; [|discriminate].
    destruct (task_request cert t0) as [o|]; [|discriminate]. destruct (step D cid now o (w_canister w)) as [s' r].
    apply (inj Some) in Hs. subst w'. cbn [w_tasks w_ctx]. destruct (answered_kind r t0) as [A1 A2].
    assert (forall n y, nth_error (<[k0:=task_answered r t0]> (w_tasks w)) n = Some y ->
      exists z, nth_error (w_tasks w) n = Some z /\ (login_running y -> login_running z) /\ (login_working y -> login_working z)) as Hins.
    { intros n y E. apply nth_insert_cases in E as [[-> ->]|[Ne E]].
      - exists t0. split; [exact Ek|]. split; [apply A1|]. intros [R N]. split; [now apply A1|]. intros E. apply N. now apply A2.
      - exists y. auto. }
    split.
    + intros j k t u Hj Hk Rt Ru. destruct (Hins j t Hj) as (t1 & Ej & R1 & _), (Hins k u Hk) as (u1 & Ek' & R2 & _). eauto.
    + intros t Ht Hw. apply In_nth_error in Ht as [n Hn]. destruct (Hins n t Hn) as (z & En & _ & W). apply (H2 z); [eapply nth_error_In, En|auto].
  - destruct (step D cid now o (w_canister w)) as [s' r]. apply (inj Some) in Hs. subst w'. cbn [w_tasks w_ctx]. split; assumption.
  - apply (inj Some) in Hs. subst w'. cbn [w_tasks w_ctx]. split; assumption.
Qed.

(** Two clicks before the wallet has told its accounts. *)
Definition twice_acts : list action := Eval vm_compute in
  acts_of (opening ++
    [On APrepare; On (AContinue 0 (SAccounts [alice_text])); On (AContinue 0 SActor); On (AServe 0 (2 * sec) (bs "cert"));
     On (AContinue 0 SReply); On ALogin; On ALogin; On (AContinue 1 (SAccounts [alice_text])); On (AContinue 2 (SAccounts [alice_text]))]).
Definition twice_view := Eval vm_compute in view_of (sees twice_acts).
Theorem C105_double_refuted : ~ C105_claim CD.
Proof.
  intros Hc. run_of twice_acts twice_view w H.
  enough (1 = 2)%nat by lia.
  eapply (Hc demo_cid twice_acts w 1%nat 2%nat _ _ H).
  - apply by_button_watch. vm_compute. reflexivity.
  - rewrite Hts. reflexivity.
  - rewrite Hts. reflexivity.
  - split; [exact I|discriminate].
  - split; [exact I|discriminate].
Qed.

(** One click after the tab was cleared during a login. *)
Definition clear_again_acts : list action := Eval vm_compute in
  acts_of (opening ++
    [On APrepare; On (AContinue 0 (SAccounts [alice_text])); On (AContinue 0 SActor); On (AServe 0 (2 * sec) (bs "cert"));
     On (AContinue 0 SReply); On ALogin; On (AContinue 1 (SAccounts [alice_text])); On AClear;
     On APrepare; On (AContinue 2 (SAccounts [alice_text])); On (AContinue 2 SActor); On (AServe 2 (3 * sec) (bs "cert"));
     On (AContinue 2 SReply); On ALogin; On (AContinue 3 (SAccounts [alice_text]))]).
Definition clear_again_view := Eval vm_compute in view_of (sees clear_again_acts).
Theorem C105_clear_refuted : exists acts w, runs CD demo_cid acts w /\ by_button CD demo_cid acts /\
  (forall before after v, acts = before ++ ALogin :: after -> runs CD demo_cid before v -> ~ In TAddresses (w_tasks v)) /\
  exists j k t u, j <> k /\ nth_error (w_tasks w) j = Some t /\ nth_error (w_tasks w) k = Some u /\ login_working t /\ login_working u.
Proof.
  run_of clear_again_acts clear_again_view w H. exists clear_again_acts, w. split; [exact H|].
  split; [apply by_button_watch; vm_compute; reflexivity|]. split.
  - intros before after v E R.
    assert (watch CD demo_cid (fun a w => match a with ALogin => negb (existsb addressesb (w_tasks w)) | _ => true end)
      clear_again_acts initial_world = true) as Hw by (vm_compute; reflexivity).
    pose proof (watch_spec CD demo_cid _ clear_again_acts [] initial_world (runs_nil CD demo_cid) Hw before ALogin after v E R) as P.
    cbn beta iota in P. apply Bool.negb_true_iff in P. intros Hi.
    enough (existsb addressesb (w_tasks v) = true) by congruence. apply existsb_exists. exists TAddresses. auto.
  - eexists 1%nat, 3%nat, _, _. split; [lia|]. rewrite Hts. split; [reflexivity|]. split; [reflexivity|].
    split; (split; [exact I|discriminate]).
Qed.

(** A run meeting the hypotheses of [C105_one_partial], with a login at work after an earlier one has ended. *)
Definition again_acts : list action := Eval vm_compute in
  acts_of (opening ++
    [On APrepare; On (AContinue 0 (SAccounts [alice_text])); On (AContinue 0 SActor); On (AServe 0 (2 * sec) (bs "cert"));
     On (AContinue 0 SReply); On ALogin; On (AContinue 1 (SAccounts [alice_text])); On (AContinue 1 (SThrow (bs "rejected")));
     On AClear; On APrepare; On (AContinue 2 (SAccounts [alice_text])); On (AContinue 2 SActor); On (AServe 2 (3 * sec) (bs "cert"));
     On (AContinue 2 SReply); On ALogin; On (AContinue 3 (SAccounts [alice_text]))]).
Definition again_view := Eval vm_compute in view_of (sees again_acts).
Example C105_case : exists w, runs CD demo_cid again_acts w /\ by_button CD demo_cid again_acts /\ patient CD demo_cid again_acts /\
  exists t, nth_error (w_tasks w) 3 = Some t /\ login_working t.
Proof.
  run_of again_acts again_view w H. exists w. split; [exact H|].
  split; [apply by_button_watch; vm_compute; reflexivity|]. split; [apply patient_watch; vm_compute; reflexivity|].
  eexists. rewrite Hts. split; [reflexivity|]. split; [exact I|discriminate].
Qed.

Print Assumptions C105_taken.
Print Assumptions C105_one_partial.
Print Assumptions C105_double_refuted.
Print Assumptions C105_clear_refuted.
