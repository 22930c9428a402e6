(** C115: what a call waits for, and what it makes of the canister's answers. *)
From Coq Require Import Strings.String ZifyBool ZifyN ZifyNat.
From Verif Require Import Base BaseLemmas Deps Hex Eth Encode Delegation Login Provider Json SpecEth SpecTree SpecTrace TraceProofs
  Concrete Scripts Demo Client ClientJson SpecClient SpecErrors SpecAnswered ClientProofs ClientSeq ClientStatus ClientDemo
  PropertiesClient PropertiesErrors.
Local Open Scope N_scope.

(** The reply to each request has its own form, unless the canister trapped. *)
Definition fits (o : op) (r : reply) : Prop :=
  match o, r with
  | PrepareLogin _, RPrepare _ | SiweLogin _ _ _ _, RLogin _ | GetDelegation _ _ _ _, RDelegation _ => True
  | PrepareLogin _, RTrap _ | SiweLogin _ _ _ _, RTrap _ | GetDelegation _ _ _ _, RTrap _ => True
  | PrepareLogin _, _ | SiweLogin _ _ _ _, _ | GetDelegation _ _ _ _, _ => False
  | _, _ => True
  end.
Lemma step_fits D cid now o s s' r : step D cid now o s = (s', r) -> fits o r.
Proof.
  intros E. destruct o; try exact I; cbn [step] in E; (destruct s as [c|]; [|injection E as <- <-; exact I]).
  - unfold run_update in E. destruct (siwe_prepare_login _ _ _ _) as [[c' a]|why]; injection E as <- <-; exact I.
  - unfold run_update in E. destruct (siwe_login _ _ _ _ _ _ _ _) as [[c' a]|why]; injection E as <- <-; exact I.
  - unfold run_query in E. destruct (siwe_get_delegation _ _ _ _ _ _ _) as [a|why]; injection E as <- <-; exact I.
Qed.
Lemma exec_fits D cid tr s e : exec D cid tr s -> In e tr -> fits (ev_op e) (ev_reply e).
Proof.
  intros H. induction H as [|tr s now o s' r H IH _ _ _ S]; [intros []|]. rewrite in_app_iff. intros [I|[<-|[]]]; [auto|].
  exact (step_fits _ _ _ _ _ _ _ S).
Qed.

Definition prep_sound (p : prep) : Prop := forall a r, p = PReply a (Some r) -> prepare_answer r <> None.
Definition sound (t : task) : Prop :=
  match t with
  | TPrepare p | TPreparing _ p => prep_sound p
  | TLogin _ _ _ _ (Some r) => login_answer r <> None
  | TDelegation _ _ _ (Some r) => delegation_answer r <> None
  | _ => True
  end.
Lemma prep_fact_sound D cid tr s p : exec D cid tr s -> prep_fact tr p -> prep_sound p.
Proof.
  intros H F a r ->. destruct F as (e & I & Ho & <-). pose proof (exec_fits _ _ _ _ _ H I) as K. rewrite Ho in K.
  destruct (ev_reply e); cbn in *; try contradiction; discriminate.
Qed.
Lemma runs_sound D cid acts w t : runs D cid acts w -> In t (w_tasks w) -> sound t.
Proof.
  intros H I. destruct (runs_cinv _ _ _ _ H) as [X HT _]. rewrite List.Forall_forall in HT. specialize (HT _ I).
  destruct t as [p| |a p|a m n|a n sg k|a n sg k [r|]|a k d [r|]|i|err]; cbn [sound task_fact] in *; try exact Logic.I.
  - eapply prep_fact_sound; eassumption.
  - eapply prep_fact_sound; [eassumption|apply HT].
  - destruct HT as (_ & _ & e & Ie & Ho & <-). pose proof (exec_fits _ _ _ _ _ X Ie) as K. rewrite Ho in K.
    destruct (ev_reply e); cbn in *; try contradiction; discriminate.
  - destruct HT as (_ & _ & pre & l & post & sg & n & E & _ & q1 & g & q2 & cert & E2 & Ho & <-).
    assert (In g (w_history w)) as Ig by (rewrite E, E2; apply in_app_iff; right; right; apply in_app_iff; right; now left).
    pose proof (exec_fits _ _ _ _ _ X Ig) as K. rewrite Ho in K. destruct (ev_reply g); cbn in *; try contradiction; discriminate.
Qed.

Lemma prep_goes_waits p s x : prep_sound p -> (exists r, prep_goes p s x = Some r) <-> prep_waits p s.
Proof.
  intros H. unfold prep_waits, throws, accounts. split.
  - intros [r E]. destruct p as [|a|a ans|q], s as [e|l| |sg k|]; cbn in E; try discriminate E; eauto;
      try (destruct ans; discriminate E).
    destruct ans; [|discriminate E]. right. split; [reflexivity|discriminate].
  - destruct p as [|a|a ans|q]; [intros [[e ->]|[l ->]]|intros [[e ->]| ->]|intros [[e ->]|[-> N]]|intros []]; cbn; eauto.
    + destruct (first_account l); eauto.
    + destruct ans; eauto.
    + destruct ans as [r|]; [|congruence]. pose proof (H a r eq_refl) as A. destruct (prepare_answer r) as [[m|e]|]; [eauto|eauto|congruence].
Qed.
Lemma login_goes_waits t s x st : sound t -> (exists r, login_goes t s x st = Some r) <-> waits t s.
Proof.
  intros H. destruct t as [p| |a p|a m n|a n sg k|a n sg k ans|a k d ans|i|err]; cbn [sound waits login_goes] in *.
  - rewrite <- (prep_goes_waits p s x H). split.
    + intros [r E]. destruct (prep_goes p s x); [eauto|discriminate].
    + intros [[y q] ->]. eauto.
  - unfold throws, accounts. split.
    + intros [r E]. destruct s; try discriminate E; eauto.
    + intros [[e ->]|[l ->]]; [eauto|]. destruct (first_account l); [|eauto]. destruct (x_message x) as [[? ?]|]; eauto.
  - assert (forall q, p = q -> (forall r, q <> PReturned r) -> (exists r, match prep_goes q s x with
        | Some (x0, p0) => Some (x0, TPreparing a p0, st) | None => None end = Some r) <-> prep_waits q s) as K.
    { intros q <- _. rewrite <- (prep_goes_waits p s x H). split.
      - intros [r E]. destruct (prep_goes p s x); [eauto|discriminate].
      - intros [[y q] ->]. eauto. }
    destruct p as [|b|b ans|r].
    1-3: rewrite <- (K _ eq_refl) by discriminate; reflexivity.
    split.
    + intros [q E]. destruct r as [[m n]|e], s; cbn in E; try discriminate E; reflexivity.
    + intros ->. destruct r as [[m n]|e]; eauto.
  - unfold throws. split.
    + intros [r E]. destruct s; try discriminate E; eauto.
    + intros [[e ->]|(sg & q & ->)]; [eauto|]. destruct sg; eauto.
  - unfold throws. split.
    + intros [r E]. destruct s; try discriminate E; eauto.
    + intros [[e ->]| ->]; eauto.
  - unfold throws. split.
    + intros [r E]. destruct s; try (destruct ans; discriminate E); [eauto|]. destruct ans; [|discriminate E]. right. split; [reflexivity|discriminate].
    + intros [[e ->]|[-> N]]; [destruct ans; eauto|]. destruct ans as [r|]; [|congruence].
      destruct (login_answer r) as [[d|e]|]; [eauto|eauto|congruence].
  - unfold throws. split.
    + intros [r E]. destruct s; try (destruct ans; discriminate E); [eauto|]. destruct ans; [|discriminate E]. right. split; [reflexivity|discriminate].
    + intros [[e ->]|[-> N]]; [destruct ans; eauto|]. destruct ans as [r|]; [|congruence].
      destruct (delegation_answer r) as [[sd|e]|]; [eauto|eauto|congruence].
  - split; [intros [r E]; destruct s; discriminate E|intros []].
  - split; [intros [r E]; destruct s; discriminate E|intros []].
Qed.

(** ** C115  No call is left waiting, whatever the answer *)

(** Exactly what it waits for lets a call go on, in every state. *)
Theorem C115_goes_on : forall D cid acts w k t s, runs D cid acts w -> nth_error (w_tasks w) k = Some t ->
  (exists w', act_step D cid (AContinue k s) w = Some w') <-> waits t s.
Proof.
  intros D cid acts w k t s H N. pose proof (runs_sound _ _ _ _ _ H (nth_error_In _ _ N)) as S.
  rewrite <- (login_goes_waits t s (w_ctx w) (w_storage w) S). cbn [act_step]. rewrite N. split.
  - intros [w' E]. destruct (login_goes t s (w_ctx w) (w_storage w)); [eauto|discriminate].
  - intros [[[x t'] st] ->]. eauto.
Qed.

(** The canister can run a request at any time and answers it. *)
Theorem C115_served : forall D cid acts w k t now cert, runs D cid acts w -> nth_error (w_tasks w) k = Some t ->
  ((exists w', act_step D cid (AServe k now cert) w = Some w') <-> requests t) /\
  (forall w', act_step D cid (AServe k now cert) w = Some w' -> exists t' r, nth_error (w_tasks w') k = Some t' /\ answered t' r).
Proof.
  intros D cid acts w k t now cert H N. cbn [act_step]. rewrite N. split.
  - split.
    + intros [w' E]. destruct t as [[| |? [|]|]| |? [| |? [|]|]|?|?|? ? ? ? [|]|? ? ? [|]|?|?]; cbn in E; try discriminate E; exact I.
    + intros R. destruct t as [[| |? [|]|]| |? [| |? [|]|]|?|?|? ? ? ? [|]|? ? ? [|]|?|?]; cbn [requests] in R; try contradiction;
        cbn [task_request prep_request]; match goal with |- context [step ?a ?b ?c ?d ?e] => destruct (step a b c d e) as [s' r] end; eauto.
  - intros w' E. destruct (task_request cert t) as [o|] eqn:Q; [|discriminate]. destruct (step D cid now o (w_canister w)) as [s' r].
    injection E as <-. exists (task_answered r t), r. cbn [w_tasks]. split; [eapply nth_insert_same, N|].
    destruct t as [[| |? [|]|]| |? [| |? [|]|]|?|?|? ? ? ? [|]|? ? ? [|]|?|?]; cbn in Q; try discriminate Q; reflexivity.
Qed.

(** What comes of the answer: a trap or a refusal fails the call with its text, anything
    else is taken to the next request or returned. *)
Theorem C115_takes : forall D cid acts w k t r, runs D cid acts w -> nth_error (w_tasks w) k = Some t -> answered t r ->
  exists w' t', act_step D cid (AContinue k SReply) w = Some w' /\ nth_error (w_tasks w') k = Some t' /\ takes t r t'.
Proof.
  intros D cid acts w k t r H N A. pose proof (runs_sound _ _ _ _ _ H (nth_error_In _ _ N)) as S. cbn [act_step]. rewrite N.
  assert (exists x t' st, login_goes t SReply (w_ctx w) (w_storage w) = Some (x, t', st) /\ takes t r t') as (x & t' & st & -> & T).
  { destruct t as [[| |a ans|]| |a [| |b ans|]|?|?|a n sg kp ans|a kp d ans|?|?]; cbn [answered] in A; try contradiction; subst ans; cbn [sound] in S.
    - specialize (S a r eq_refl). cbn [login_goes prep_goes]. destruct r as [why| |[m|e]|[d|e]|[sd|e]|?|?]; cbn [prepare_answer] in *; try congruence;
        (eexists _, _, _; split; [reflexivity|]).
      + apply takes_trap.
      + apply takes_message.
      + apply (takes_refusal (TPrepare (PReply a (Some (RPrepare (Err e)))))). now left.
    - specialize (S b r eq_refl). cbn [login_goes prep_goes]. destruct r as [why| |[m|e]|[d|e]|[sd|e]|?|?]; cbn [prepare_answer] in *; try congruence;
        (eexists _, _, _; split; [reflexivity|]).
      + apply (takes_trap (TPreparing a _)).
      + apply takes_message_in_login.
      + apply (takes_refusal (TPreparing a (PReply b (Some (RPrepare (Err e)))))). now left.
    - cbn [login_goes]. destruct r as [why| |[m|e]|[d|e]|[sd|e]|?|?]; cbn [login_answer] in *; try congruence;
        (eexists _, _, _; split; [reflexivity|]).
      + apply (takes_trap (TLogin a n sg kp _)).
      + apply takes_details.
      + apply (takes_refusal (TLogin a n sg kp _)). right. now left.
    - cbn [login_goes]. destruct r as [why| |[m|e]|[d'|e]|[sd|e]|?|?]; cbn [delegation_answer] in *; try congruence;
        (eexists _, _, _; split; [reflexivity|]).
      + apply (takes_trap (TDelegation a kp d _)).
      + apply takes_delegation.
      + apply (takes_refusal (TDelegation a kp d _)). right. now right. }
  eexists _, t'. split; [reflexivity|]. split; [|exact T]. cbn [w_tasks]. eapply nth_insert_same, N.
Qed.

(** Where each call goes next, from wherever it waits. *)
Lemma accounts_cases l : (no_accounts l /\ first_account l = None) \/ exists a r, l = a :: r /\ a <> [] /\ first_account l = Some a.
Proof.
  unfold no_accounts. destruct l as [|[|c a] r]; [left; auto|left; split; [right; eauto|reflexivity]|right].
  exists (c :: a), r. split; [reflexivity|]. split; [discriminate|reflexivity].
Qed.
Theorem C115_next : forall D cid acts w k t s w', runs D cid acts w -> nth_error (w_tasks w) k = Some t ->
  act_step D cid (AContinue k s) w = Some w' ->
  exists t', nth_error (w_tasks w') k = Some t' /\ goes (x_message (w_ctx w)) t s t' /\
    (forall j, j <> k -> nth_error (w_tasks w') j = nth_error (w_tasks w) j).
Proof.
  intros D cid acts w k t s w' H N E. assert (waits t s) as W by (apply (C115_goes_on D cid acts w k t s H N); eauto).
  assert (forall r, answered t r -> s = SReply -> exists t', nth_error (w_tasks w') k = Some t' /\ takes t r t') as HA.
  { intros r A ->. destruct (C115_takes D cid acts w k t r H N A) as (w1 & t' & E1 & N1 & T). assert (w1 = w') as -> by congruence. eauto. }
  cbn [act_step] in E. rewrite N in E. destruct (login_goes t s (w_ctx w) (w_storage w)) as [[[x t'] st]|] eqn:G; [|discriminate].
  injection E as <-. cbn [w_tasks] in *. rewrite (nth_insert_same _ _ _ _ N) in HA. rewrite (nth_insert_same _ _ _ _ N).
  exists t'. split; [reflexivity|]. split.
  2:{ intros j Hj. rewrite <- !nth_error_lookup. apply list_lookup_insert_ne. auto. }
  assert (forall r, answered t r -> s = SReply -> goes (x_message (w_ctx w)) t s t') as HG.
  { intros r A ->. destruct (HA r A eq_refl) as (t1 & [= <-] & T). now apply goes_answered with r. }
  clear HA. destruct t as [p| |a p|a m n|a n sg kp|a n sg kp ans|a kp d ans|i|err]; cbn [waits] in W.
  - destruct p as [|a|a ans|q]; cbn [prep_waits] in W.
    + destruct W as [[e ->]|[l ->]]; cbn in G; [injection G as <- <- <-; apply (goes_threw _ (TPrepare _))|].
      destruct (accounts_cases l) as [[F F1]|(b & r & -> & F & F1)]; rewrite F1 in G; injection G as <- <- <-; [now apply goes_unconnected_prepare|now apply goes_asks].
    + destruct W as [[e ->]| ->]; cbn in G; injection G as <- <- <-; [apply (goes_threw _ (TPrepare _))|apply goes_requests].
    + destruct W as [[e ->]|[-> A]]; [cbn in G; destruct ans; injection G as <- <- <-; apply (goes_threw _ (TPrepare _))|].
      destruct ans as [r|]; [|congruence]. now apply HG with r.
    + contradiction.
  - destruct W as [[e ->]|[l ->]]; cbn in G; [injection G as <- <- <-; apply (goes_threw _ TAddresses)|].
    destruct (accounts_cases l) as [[F F1]|(b & r & -> & F & F1)]; rewrite F1 in G; [injection G as <- <- <-; now apply goes_unconnected|].
    destruct (x_message (w_ctx w)) as [[m n]|]; injection G as <- <- <-; [now apply goes_prepared|now apply goes_unprepared].
  - destruct p as [|b|b ans|[[m n]|e]]; cbn [prep_waits] in W.
    + destruct W as [[e ->]|[l ->]]; cbn in G; [injection G as <- <- <-; apply (goes_threw _ (TPreparing a _))|].
      destruct (accounts_cases l) as [[F F1]|(b & r & -> & F & F1)]; rewrite F1 in G; injection G as <- <- <-; [now apply goes_unconnected_preparing|now apply goes_asks_in_login].
    + destruct W as [[e ->]| ->]; cbn in G; injection G as <- <- <-; [apply (goes_threw _ (TPreparing a _))|apply goes_requests_in_login].
    + destruct W as [[e ->]|[-> A]]; [cbn in G; destruct ans; injection G as <- <- <-; apply (goes_threw _ (TPreparing a _))|].
      destruct ans as [r|]; [|congruence]. now apply HG with r.
    + subst s. cbn in G. injection G as <- <- <-. apply goes_signs.
    + subst s. cbn in G. injection G as <- <- <-. apply goes_fails.
  - destruct W as [[e ->]|(sg & q & ->)]; cbn in G; [injection G as <- <- <-; apply (goes_threw _ (TSign a m n))|].
    destruct sg; injection G as <- <- <-; [apply goes_unsigned|now apply goes_signed].
  - destruct W as [[e ->]| ->]; cbn in G; injection G as <- <- <-; [apply (goes_threw _ (TActor a n sg kp))|apply goes_login].
  - destruct W as [[e ->]|[-> A]]; [cbn in G; destruct ans; injection G as <- <- <-; apply (goes_threw _ (TLogin a n sg kp _))|].
    destruct ans as [r|]; [|congruence]. now apply HG with r.
  - destruct W as [[e ->]|[-> A]]; [cbn in G; destruct ans; injection G as <- <- <-; apply (goes_threw _ (TDelegation a kp d _))|].
    destruct ans as [r|]; [|congruence]. now apply HG with r.
  - contradiction.
  - contradiction.
Qed.

(** There is no canister: the request of a login comes back as a trap. *)
Definition nobody_acts : list action := Eval vm_compute in
  acts_of [On ALoad; On AManager; On ALogin; On (AContinue 0 (SAccounts [alice_text])); On (AContinue 0 (SAccounts [alice_text]));
    On (AContinue 0 SActor); On (AServe 0 (2 * sec) (bs "cert"))].
Definition nobody_view := Eval vm_compute in view_of (sees nobody_acts).
Example C115_case : exists w why t, runs CD demo_cid nobody_acts w /\ nth_error (w_tasks w) 0 = Some t /\ answered t (RTrap why) /\
  ~ requests t /\ waits t SReply /\
  exists w', act_step CD demo_cid (AContinue 0 SReply) w = Some w' /\
    nth_error (w_tasks w') 0 = Some (TPreparing alice_text (PReturned (Err (bs "Call failed: " ++ bs why)))).
Proof.
  run_of nobody_acts nobody_view w H. exists w. rewrite Hts. cbn [nth_error]. eexists _, _. split; [exact H|]. split; [reflexivity|].
  split; [reflexivity|]. split; [intros []|]. split; [right; split; [reflexivity|discriminate]|].
  eexists. split; [cbn [act_step]; rewrite Hts; reflexivity|]. reflexivity.
Qed.

Print Assumptions C115_goes_on.
Print Assumptions C115_served.
Print Assumptions C115_takes.
Print Assumptions C115_next.
