(** A login with a message that was prepared before, in the middle of everything else. *)
From Coq Require Import Strings.String ZifyBool ZifyN ZifyNat.
From Verif Require Import Base BaseLemmas Deps Hex Eth Encode Delegation Login Provider SpecEth SpecHash SpecTree SpecTrace
  ProviderProofs LoginTheory LoginProofs Concrete Scripts Demo PropertiesLogin
  Client ClientJson SpecClient ClientProofs ClientSeq ClientStatus ClientLive ClientDemo SpecLive LiveProofs ReadyProofs PropertiesLive.
Local Open Scope N_scope.

(** ** C95  A login with a prepared message goes through whatever others do *)

(** The store holds the message of [p], made for the account the wallet shows and not yet
    submitted.  After seven steps of login() the tab is signed in, with two calls of the canister. *)
Theorem C95_signs_in : forall D cid acts w i since sb p sa x addr text n l w' new own, deps_ok D ->
  runs D cid acts w -> x_initializing (w_ctx w) = false ->
  (forall t, In t (w_tasks w) -> settled t) -> x_message (w_ctx w) = Some (text, n) ->
  since_boot (w_history w) i since -> since = sb ++ p :: sa -> prepared p x text n ->
  (forall q, In q sa -> ~ login_attempt D q x n) -> address_text D x addr ->
  runs D cid (acts ++ ALogin :: l) w' -> w_history w' = w_history w ++ new -> w_own w' = w_own w ++ own ->
  no_fault D i (length (w_tasks w)) x l since new (p :: own) ->
  ((own_steps (length (w_tasks w)) l <= 7)%nat /\
   ((own_steps (length (w_tasks w)) l < 7)%nat -> exists t, w_tasks w' = w_tasks w ++ [t] /\ ~ settled t) /\
   (own_steps (length (w_tasks w)) l = 7%nat ->
      exists id sg, w_tasks w' = w_tasks w ++ [TReturned id] /\ signed_in w' x id /\ x_login (w_ctx w') = Success /\
        In (AContinue (length (w_tasks w)) (SSigned sg (id_key id))) l /\
        exists g h exp pk cert, own = [g; h] /\ logged_in g sg x (kp_der (id_key id)) n exp pk /\
          ev_op h = GetDelegation (Some cert) x (kp_der (id_key id)) exp)) \/
  unlucky D i (length (w_tasks w)) x l sb ((p :: sa) ++ new).
Proof.
  intros D cid acts w i since sb p sa x addr text n l w' new own HD H Hi Hs Hm Hb Es Hp Hu Ha H' Eh Eo NF.
  apply List.Forall_forall in Hs. apply List.Forall_forall in Hu.
  destruct (ready D cid HD acts w i since sb sa p x addr text n H Hi Hs Hm Hb Es Hp Hu Ha l w' new own H' Eh Eo NF) as [(t & Et & S)|U];
    [left|right; exact U].
  split; [inversion S; lia|]. split.
  - intros L. exists t. split; [exact Et|]. inversion S; subst; cbn [settled]; tauto || lia.
  - intros E. rewrite E in S. inversion S as [| | | | | | |c nw g h cert exp pk sg id Ik Eg Eh' E1 E2 E3 E4]; subst.
    exists id, sg. split; [exact Et|]. split; [split; auto|]. split; [exact E4|]. split; [exact Ik|]. exists g, h, exp, pk, cert. auto.
Qed.

(** Until then the next step can always be taken. *)
Definition awaits_ready (j : nat) (x : bytes) (n : nat) (a : action) : Prop :=
  awaits j x (match n with O => O | S _ => n + 5 end) a.
Theorem C95_goes_on : forall D cid acts w i since sb p sa x addr text n l w' new own y, deps_ok D ->
  runs D cid acts w -> x_initializing (w_ctx w) = false ->
  (forall t, In t (w_tasks w) -> settled t) -> x_message (w_ctx w) = Some (text, n) ->
  since_boot (w_history w) i since -> since = sb ++ p :: sa -> prepared p x text n ->
  (forall q, In q sa -> ~ login_attempt D q x n) -> address_text D x addr ->
  runs D cid (acts ++ ALogin :: l) w' -> w_history w' = w_history w ++ new -> w_own w' = w_own w ++ own ->
  no_fault D i (length (w_tasks w)) x l since new (p :: own) -> (own_steps (length (w_tasks w)) l < 7)%nat ->
  awaits_ready (length (w_tasks w)) x (own_steps (length (w_tasks w)) l) y -> timely (w_history w') y ->
  (act_ok y w' /\ exists w'', act_step D cid y w' = Some w'') \/
  unlucky D i (length (w_tasks w)) x l sb ((p :: sa) ++ new).
Proof.
  intros D cid acts w i since sb p sa x addr text n l w' new own y HD H Hi Hs Hm Hb Es Hp Hu Ha H' Eh Eo NF.
  apply List.Forall_forall in Hs. apply List.Forall_forall in Hu.
  destruct (ready D cid HD acts w i since sb sa p x addr text n H Hi Hs Hm Hb Es Hp Hu Ha l w' new own H' Eh Eo NF) as [(t & Et & S)|U];
    [|right; exact U].
  set (j := length (w_tasks w)) in *. intros L Hy Ht. left.
  assert (nth_error (w_tasks w') j = Some t) as N by (rewrite Et; apply nth_last).
  assert (forall s, y = AContinue j s -> act_ok y w' -> (exists x' t' st', login_goes t s (w_ctx w') (w_storage w') = Some (x', t', st')) ->
    act_ok y w' /\ exists w'', act_step D cid y w' = Some w'') as Hgo.
  { intros s -> Ho (x' & t' & st' & G). split; [exact Ho|]. cbn [act_step]. rewrite N, G. eauto. }
  assert (forall now cert o, y = AServe j now cert -> task_request cert t = Some o -> op_wf o ->
    act_ok y w' /\ exists w'', act_step D cid y w' = Some w'') as Hserve.
  { intros now cert o -> R W. split.
    - intros t' o' N' R'. assert (t' = t) as -> by congruence. assert (o' = o) as -> by congruence. destruct Ht. split; auto.
    - cbn [act_step]. rewrite N, R. destruct (step D cid now o (w_canister w')). eauto. }
  fold j in S. revert Hgo Hserve Hy. generalize (own_steps j l) S L. clear S L. intros m S L Hgo Hserve Hy. unfold awaits_ready in Hy.
  destruct S; cbn [awaits Nat.add] in Hy;
    destruct y as [| | | | |k' s|k' now' cert'|now' o'|q]; try contradiction;
    try (destruct s as [e|ac| |sg' kp|]; try contradiction);
    repeat match goal with Hx : _ /\ _ |- _ => destruct Hx end; try subst k'; try lia.
  - apply (Hgo _ eq_refl I). cbn [login_goes]. match goal with E : first_account _ = _ |- _ => rewrite E end.
    match goal with E : x_message _ = _ |- _ => rewrite E end. eauto.
  - apply (Hgo _ eq_refl); [split; assumption|]. cbn [login_goes]. destruct sg' as [|ch sg']; [tauto|]. eauto.
  - apply (Hgo _ eq_refl I). cbn [login_goes]. eauto.
  - eapply Hserve; [reflexivity|reflexivity|exact I].
  - apply (Hgo _ eq_refl I). cbn [login_goes login_answer]. eauto.
  - eapply Hserve; [reflexivity|reflexivity|cbn; assumption].
  - apply (Hgo _ eq_refl I). cbn [login_goes delegation_answer]. eauto.
Qed.

(** Concrete: Carol's page prepares a message when it is opened; she signs in later, while
    somebody else asks for messages for her address and tries to log in. *)
Definition early_script : list cact :=
  opening ++ [On APrepare; On (AContinue 0 (SAccounts [carol_text])); On (AContinue 0 SActor);
   On (AServe 0 (2 * sec) (bs "cert")); On (AContinue 0 SReply); On (ACanister (3 * sec) (PrepareLogin carol_text))].
Definition ready_script : list cact :=
  [On (AContinue 1 (SAccounts [carol_text])); On (ACanister (4 * sec) (PrepareLogin carol_text));
   Signs 1 carol pair1;
   On (ACanister (5 * sec) (SiweLogin (wallet_sign CD carol []) carol_text (repeat x30 44) (bs "00112233445566778899")));
   On (AContinue 1 SActor); On (AServe 1 (7 * sec) (bs "cert")); On (AStorage (Some (bs "{}")));
   On (AContinue 1 SReply); On (AServe 1 (9 * sec) (bs "cert")); On (ACanister (10 * sec) (GetPrincipal carol_text));
   On (AContinue 1 SReply)].
Definition early_acts : list action := Eval vm_compute in acts_of early_script.
Definition ready_acts : list action := Eval vm_compute in drop (S (length early_acts)) (acts_of (early_script ++ On ALogin :: ready_script)).
Definition early_view := Eval vm_compute in match sees early_acts with Some v => v | None => seen initial_world end.
Definition ready_view := Eval vm_compute in
  match sees (early_acts ++ ALogin :: ready_acts) with Some v => v | None => seen initial_world end.
Definition ready_new : list event := Eval vm_compute in drop 4 (snd (fst ready_view)).
Definition ready_own : list event := Eval vm_compute in drop 1 (snd ready_view).
Definition early_event : event := Eval vm_compute in
  match snd ready_view with e :: _ => e | [] => mkEvent 0 (RawRand None) RDone end.
Definition early_after : list event := Eval vm_compute in drop 3 (snd (fst early_view)).
Definition early_text : bytes := Eval vm_compute in
  match ev_reply early_event with RPrepare (Ok (t, _)) => t | _ => [] end.
Definition early_nonce : bytes := Eval vm_compute in
  match ev_reply early_event with RPrepare (Ok (_, n)) => n | _ => [] end.
Ltac each_ready_in H := unfold ready_acts, ready_new, ready_own, busy_since, early_event, early_after in H; cbn [In app] in H;
  repeat (destruct H as [H|H]); try contradiction.

Lemma ready_no_fault : no_fault CD demo_input 1 carol_text ready_acts (busy_since ++ early_event :: early_after) ready_new (early_event :: ready_own).
Proof.
  constructor.
  - intros a I. each_ready_in I; subst a; exact Logic.I.
  - intros s I. each_ready_in I; try discriminate I; injection I as <-; try exact Logic.I; try reflexivity.
    split; [reflexivity|]. intros e text n I P. each_ready_in I; subst e; destruct P as [P1 P2]; try discriminate P1.
    assert (text = early_text) as -> by (injection P2; intros; subst; vm_compute; reflexivity).
    match goal with |- recovers _ _ ?s _ => replace s with (wallet_sign CD carol early_text) by (vm_compute; reflexivity) end.
    replace carol_text with (wallet_address CD carol) by (vm_compute; reflexivity). apply carol_recovers.
  - intros e I (i & [E|E] & _); each_ready_in I; subst e; discriminate E.
  - intros now sg sk n e text I J P. each_ready_in I; try discriminate I. injection I as _ _ _ <-.
    each_ready_in J; subst e; destruct P as [P1 P2]; try discriminate P1; discriminate P2.
  - intros sg k now sg' y n I J. each_ready_in I; try discriminate I. injection I as _ <-. each_ready_in J; try discriminate J.
  - intros sg k e sg' y n exp pk I J [L _]. each_ready_in J; subst e; discriminate L.
  - intros p e text n sg sk I J P E. each_ready_in I; subst p; destruct P as [P _]; try discriminate P.
    each_ready_in J; subst e; try discriminate E; split; reflexivity.
  - intros e g sg n sk exp pk cert I J [L _] E. each_ready_in I; subst e; try discriminate L.
    each_ready_in J; subst g; try discriminate E; split; reflexivity.
Qed.

Example C95_case : exists w w' id, runs CD demo_cid early_acts w /\ length (w_tasks w) = 1%nat /\
  x_message (w_ctx w) = Some (early_text, early_nonce) /\ prepared early_event carol_text early_text early_nonce /\
  since_boot (w_history w) demo_input (busy_since ++ early_event :: early_after) /\
  (forall q, In q early_after -> ~ login_attempt CD q carol_text early_nonce) /\
  runs CD demo_cid (early_acts ++ ALogin :: ready_acts) w' /\ w_history w' = w_history w ++ ready_new /\ w_own w' = w_own w ++ ready_own /\
  no_fault CD demo_input 1 carol_text ready_acts (busy_since ++ early_event :: early_after) ready_new (early_event :: ready_own) /\
  own_steps 1 ready_acts = 7%nat /\ signed_in w' carol_text id /\ id_key id = pair1.
Proof.
  destruct (perform_seen CD demo_cid early_acts early_view) as (w & H & E); [vm_compute; reflexivity|].
  destruct (perform_seen CD demo_cid (early_acts ++ ALogin :: ready_acts) ready_view) as (w' & H' & E'); [vm_compute; reflexivity|].
  unfold early_view, seen in E. injection E as Hx Hst Hts Hh Ho.
  unfold ready_view, seen in E'. injection E' as Hx' Hst' Hts' Hh' Ho'.
  eexists w, w', _. split; [exact H|]. split; [rewrite Hts; reflexivity|]. split; [rewrite Hx; reflexivity|]. split; [split; reflexivity|]. split.
  { rewrite Hh. exists [], (mkEvent 0 (Install demo_input) RDone). split; [reflexivity|]. split.
    - split; [left; reflexivity|reflexivity].
    - apply List.Forall_forall. intros e I (i & [E|E] & _); each_ready_in I; subst e; discriminate E. }
  split; [intros q I (sg & sk & b & sb & E & _); each_ready_in I; subst q; discriminate E|].
  split; [exact H'|]. split; [rewrite Hh, Hh'; reflexivity|]. split; [rewrite Ho, Ho'; reflexivity|].
  split; [exact ready_no_fault|]. split; [reflexivity|]. split; [split; [rewrite Hx'; reflexivity|split; rewrite Hx'; reflexivity]|reflexivity].
Qed.

Print Assumptions C95_signs_in.
Print Assumptions C95_goes_on.
