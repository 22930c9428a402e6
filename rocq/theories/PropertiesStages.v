(** C114: how the statuses and errors of the three stages change. *)
From Coq Require Import Strings.String ZifyBool ZifyN ZifyNat.
From Verif Require Import Base BaseLemmas Deps Hex Eth Encode Delegation Login Provider Json SpecEth SpecTree SpecTrace
  Concrete Scripts Demo Client ClientJson SpecClient SpecErrors SpecStages ClientProofs ClientSeq ClientStatus ClientDemo PropertiesClient PropertiesErrors.
Local Open Scope N_scope.

Definition at_stage (x : ctx) (g : stage) : status * option bytes :=
  match g with
  | Preparing => (x_prepare x, x_prepare_error x)
  | Signing => (x_sign x, x_sign_error x)
  | LoggingIn => (x_login x, x_login_error x)
  end.

Lemma prep_goes_shown p s x x' p' : prep_goes p s x = Some (x', p') ->
  at_stage x' Preparing = becomes (preparing_moves p p') (at_stage x Preparing) /\
  at_stage x' Signing = at_stage x Signing /\ at_stage x' LoggingIn = at_stage x LoggingIn.
Proof.
  intros E. destruct p as [|a|a ans|r]; destruct s as [e|l| |sg k|]; cbn in E;
    try (destruct ans; discriminate E); try discriminate E; try (injection E as <- <-; repeat split; fail).
  - destruct (first_account l); injection E as <- <-; repeat split.
  - destruct ans; injection E as <- <-; repeat split.
  - destruct ans as [r|]; [|discriminate]. destruct (prepare_answer r) as [[m|e]|]; [| |discriminate]; injection E as <- <-; repeat split.
Qed.

Lemma login_goes_shown t s x st x' t' st' g : login_goes t s x st = Some (x', t', st') ->
  at_stage x' g = becomes (moves t t' g) (at_stage x g).
Proof.
  intros E. destruct t as [p| |a p|a m n|a n sg k|a n sg k ans|a k d ans|i|err].
  - cbn [login_goes] in E. destruct (prep_goes p s x) as [[y q]|] eqn:P; [|discriminate].
    injection E as <- <- <-. destruct (prep_goes_shown _ _ _ _ _ P) as (H1 & H2 & H3). destruct g; [exact H1|exact H2|exact H3].
  - destruct s as [e|l| |sg k|]; try discriminate E; cbn in E.
    + injection E as <- <- <-. destruct g; reflexivity.
    + destruct (first_account l) as [b|].
      * destruct (x_message x) as [[m n]|]; injection E as <- <- <-; destruct g; reflexivity.
      * injection E as <- <- <-. destruct g; reflexivity.
  - destruct (preparing_goes _ _ _ _ _ _ _ _ E) as [(p' & P & ->)|[(m & n & -> & -> & ->)|(e & -> & -> & ->)]].
    + destruct (prep_goes_shown _ _ _ _ _ P) as (H1 & H2 & H3). destruct g; [exact H1|exact H2|exact H3].
    + destruct g; reflexivity.
    + destruct g; reflexivity.
  - destruct s as [e|l| |[|b sg] k|]; try discriminate E; cbn in E; injection E as <- <- <-; destruct g; reflexivity.
  - destruct s as [e|l| |sg' k'|]; try discriminate E; cbn in E; injection E as <- <- <-; destruct g; reflexivity.
  - destruct s as [e|l| |sg' k'|]; try (destruct ans; discriminate E); cbn in E.
    + destruct ans; injection E as <- <- <-; destruct g; reflexivity.
    + destruct ans as [r|]; [|discriminate]. destruct (login_answer r) as [[d|e]|]; [| |discriminate]; injection E as <- <- <-; destruct g; reflexivity.
  - destruct s as [e|l| |sg' k'|]; try (destruct ans; discriminate E); cbn in E.
    + destruct ans; injection E as <- <- <-; destruct g; reflexivity.
    + destruct ans as [r|]; [|discriminate]. destruct (delegation_answer r) as [[sd|e]|]; [| |discriminate]; injection E as <- <- <-; destruct g; reflexivity.
  - destruct s; discriminate E.
  - destruct s; discriminate E.
Qed.

(** ** C114  How the statuses and errors change *)

Theorem C114_changes : forall D cid a w w' g, act_step D cid a w = Some w' ->
  exists c, stage_change a w w' g c /\ shown w' g = becomes c (shown w g).
Proof.
  intros D cid a w w' g H. change (shown w' g) with (at_stage (w_ctx w') g). change (shown w g) with (at_stage (w_ctx w) g).
  destruct a as [| | | | |k s|k now cert|now o|t]; cbn [act_step stage_change] in *.
  - injection H as <-. exists Resets. split; [reflexivity|]. destruct g; reflexivity.
  - injection H as <-. exists Same. split; [reflexivity|]. cbn [w_ctx becomes]. unfold construct.
    destruct (load_identity (w_storage w)) as [[[? ?] ?]|]; destruct g; reflexivity.
  - destruct (negb _); [|discriminate]. injection H as <-. exists Same. split; reflexivity.
  - destruct (login_starts_cases (w_ctx w)) as [E|(e & E & _)]; rewrite E in H; destruct (negb _); try discriminate H; injection H as <-.
    + exists Same. split; [|reflexivity]. exists TAddresses. split; [reflexivity|]. now left.
    + eexists. split; [exists (TThrown e); split; [reflexivity|]; right; exists e; split; reflexivity|]. destruct g; reflexivity.
  - destruct (negb _); [|discriminate]. injection H as <-. eexists. split; [reflexivity|]. destruct g; reflexivity.
  - destruct (nth_error (w_tasks w) k) as [t|] eqn:N; [|discriminate].
    destruct (login_goes t s (w_ctx w) (w_storage w)) as [[[x t'] st]|] eqn:G; [|discriminate]. injection H as <-.
    exists (moves t t' g). split; [|exact (login_goes_shown _ _ _ _ _ _ _ g G)].
    exists t, t'. split; [reflexivity|]. split; [|reflexivity]. cbn [w_tasks]. eapply nth_insert_same, N.
  - destruct (nth_error (w_tasks w) k) as [t|] eqn:N; [|discriminate]. destruct (task_request cert t) as [o|]; [|discriminate].
    destruct (step D cid now o (w_canister w)) as [s' r]. injection H as <-. exists Same. split; reflexivity.
  - destruct (step D cid now o (w_canister w)) as [s' r]. injection H as <-. exists Same. split; reflexivity.
  - injection H as <-. exists Same. split; reflexivity.
Qed.

Lemma prep_goes_message p s x x' p' : prep_goes p s x = Some (x', p') ->
  x_message x' = match p' with PReturned (Ok m) => Some m | _ => x_message x end.
Proof.
  intros E. destruct p as [|a|a ans|r]; destruct s as [e|l| |sg k|]; cbn in E;
    try (destruct ans; discriminate E); try discriminate E; try (injection E as <- <-; repeat split; fail).
  - destruct (first_account l); injection E as <- <-; repeat split.
  - destruct ans; injection E as <- <-; repeat split.
  - destruct ans as [r|]; [|discriminate]. destruct (prepare_answer r) as [[m|e]|]; [| |discriminate]; injection E as <- <-; repeat split.
Qed.
Lemma login_goes_message t s x st x' t' st' : login_goes t s x st = Some (x', t', st') ->
  x_message x' = message_moves t t' (x_message x).
Proof.
  intros E. destruct t as [p| |a p|a m n|a n sg k|a n sg k ans|a k d ans|i|err].
  - cbn [login_goes] in E. destruct (prep_goes p s x) as [[y q]|] eqn:P; [|discriminate].
    injection E as <- <- <-. rewrite (prep_goes_message _ _ _ _ _ P). destruct q as [| | |[|]]; reflexivity.
  - destruct s as [e|l| |sg k|]; try discriminate E; cbn in E.
    + injection E as <- <- <-. reflexivity.
    + destruct (first_account l) as [b|].
      * destruct (x_message x) as [[m n]|] eqn:M; injection E as <- <- <-; exact M.
      * injection E as <- <- <-. reflexivity.
  - destruct (preparing_goes _ _ _ _ _ _ _ _ E) as [(p' & P & ->)|[(m & n & -> & -> & ->)|(e & -> & -> & ->)]].
    + rewrite (prep_goes_message _ _ _ _ _ P). destruct p' as [| | |[|]]; reflexivity.
    + reflexivity.
    + reflexivity.
  - destruct s as [e|l| |[|b sg] k|]; try discriminate E; cbn in E; injection E as <- <- <-; reflexivity.
  - destruct s as [e|l| |sg' k'|]; try discriminate E; cbn in E; injection E as <- <- <-; reflexivity.
  - destruct s as [e|l| |sg' k'|]; try (destruct ans; discriminate E); cbn in E.
    + destruct ans; injection E as <- <- <-; reflexivity.
    + destruct ans as [r|]; [|discriminate]. destruct (login_answer r) as [[d|e]|]; [| |discriminate]; injection E as <- <- <-; reflexivity.
  - destruct s as [e|l| |sg' k'|]; try (destruct ans; discriminate E); cbn in E.
    + destruct ans; injection E as <- <- <-; reflexivity.
    + destruct ans as [r|]; [|discriminate]. destruct (delegation_answer r) as [[sd|e]|]; [| |discriminate]; injection E as <- <- <-; reflexivity.
  - destruct s; discriminate E.
  - destruct s; discriminate E.
Qed.

(** The prepared message. *)
Theorem C114_message : forall D cid a w w', act_step D cid a w = Some w' -> message_change a w w'.
Proof.
  intros D cid a w w' H. unfold message_change.
  destruct a as [| | | | |k s|k now cert|now o|t]; cbn [act_step] in *.
  - injection H as <-. reflexivity.
  - injection H as <-. cbn [w_ctx]. unfold construct. destruct (load_identity (w_storage w)) as [[[? ?] ?]|]; reflexivity.
  - destruct (negb _); [|discriminate]. injection H as <-. reflexivity.
  - destruct (login_starts_cases (w_ctx w)) as [E|(e & E & _)]; rewrite E in H; destruct (negb _); try discriminate H; injection H as <-.
    + exists TAddresses. split; [reflexivity|]. left. split; reflexivity.
    + exists (TThrown e). split; [reflexivity|]. right. exists e. split; reflexivity.
  - destruct (negb _); [|discriminate]. injection H as <-. reflexivity.
  - destruct (nth_error (w_tasks w) k) as [t|] eqn:N; [|discriminate].
    destruct (login_goes t s (w_ctx w) (w_storage w)) as [[[x t'] st]|] eqn:G; [|discriminate]. injection H as <-.
    exists t, t'. split; [reflexivity|]. split; [cbn [w_tasks]; eapply nth_insert_same, N|]. exact (login_goes_message _ _ _ _ _ _ _ G).
  - destruct (nth_error (w_tasks w) k) as [t|] eqn:N; [|discriminate]. destruct (task_request cert t) as [o|]; [|discriminate].
    destruct (step D cid now o (w_canister w)) as [s' r]. injection H as <-. reflexivity.
  - destruct (step D cid now o (w_canister w)) as [s' r]. injection H as <-. reflexivity.
  - injection H as <-. reflexivity.
Qed.

(** So "success" for signing means that the wallet signed since the page was loaded. *)
Theorem C114_signed : forall D cid acts w, runs D cid acts w -> x_sign (w_ctx w) = Success ->
  exists before k sg p since, acts = before ++ AContinue k (SSigned sg p) :: since /\ sg <> [] /\ ~ In ALoad since.
Proof.
  intros D cid acts w H. induction H as [|acts w a w' H IH Ha S]; [discriminate|]. intros E.
  assert (a <> ALoad -> x_sign (w_ctx w) = Success -> exists before k sg p since,
    acts ++ [a] = before ++ AContinue k (SSigned sg p) :: since /\ sg <> [] /\ ~ In ALoad since) as IH'.
  { intros Hl F. destruct (IH F) as (before & k & sg & p & since & -> & N & L). exists before, k, sg, p, (since ++ [a]).
    split; [now rewrite <- app_assoc|]. split; [exact N|]. rewrite in_app_iff. intros [I|[I|[]]]; [now apply L|now apply Hl]. }
  destruct (C114_changes D cid a w w' Signing S) as (c & C & B). cbn [shown] in B. rewrite E in B.
  destruct a as [| | | | |k s|k now cert|now o|t]; cbn [stage_change] in C.
  - subst c. discriminate B.
  - subst c. cbn in B. apply IH'; [discriminate|congruence].
  - subst c. cbn in B. apply IH'; [discriminate|congruence].
  - destruct C as (t & _ & [[_ ->]|(e & _ & ->)]); cbn in B; (apply IH'; [discriminate|congruence]).
  - subst c. cbn in B. apply IH'; [discriminate|congruence].
  - destruct C as (t & t' & N & N' & ->). cbn [act_step] in S. rewrite N in S.
    destruct (login_goes t s (w_ctx w) (w_storage w)) as [[[x t1] st]|] eqn:G; [|discriminate]. injection S as <-.
    cbn [w_tasks] in N'. rewrite (nth_insert_same _ _ _ _ N) in N'. injection N' as <-.
    destruct t as [p| |a p|a m n|a n sg k0|a n sg k0 ans|a k0 d ans|i|err]; cbn [moves] in B;
      try (cbn in B; (apply IH'; [discriminate|congruence])).
    + destruct t1; cbn in B; try discriminate B; (apply IH'; [discriminate|congruence]).
    + destruct t1; cbn in B; try discriminate B; (apply IH'; [discriminate|congruence]).
    + destruct s as [e|l| |[|b sg] kp|]; try discriminate G; cbn in G; injection G as <- <- <-; try discriminate B.
      exists acts, k, (b :: sg), kp, []. split; [reflexivity|]. split; [discriminate|intros []].
  - subst c. cbn in B. apply IH'; [discriminate|congruence].
  - subst c. cbn in B. apply IH'; [discriminate|congruence].
  - subst c. cbn in B. apply IH'; [discriminate|congruence].
Qed.

(** The wallet is asked, then refuses, or signs and all goes well. *)
Example C114_case :
  (exists w, runs CD demo_cid asked_acts w /\ shown w Preparing = (Success, None) /\ shown w Signing = (Busy, None) /\
    shown w LoggingIn = (Busy, None)) /\
  (exists w, runs CD demo_cid rejecting_acts w /\ shown w Preparing = (Success, None) /\
    shown w Signing = (Failed, Some (bs "User rejected the request.")) /\ shown w LoggingIn = (Failed, Some (bs "User rejected the request."))) /\
  (exists w, runs CD demo_cid alice_acts w /\ forall g, shown w g = (Success, None)).
Proof.
  split; [|split].
  - run_of asked_acts asked_view w H. exists w. unfold shown. rewrite Hx. repeat split; exact H.
  - run_of rejecting_acts rejecting_view w H. exists w. unfold shown. rewrite Hx. repeat split; exact H.
  - run_of alice_acts alice_view w H. exists w. unfold shown. rewrite Hx. split; [exact H|]. intros []; reflexivity.
Qed.

Print Assumptions C114_changes.
Print Assumptions C114_message.
Print Assumptions C114_signed.
