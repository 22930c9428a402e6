(** An undisturbed login from start to end. *)
From Coq Require Import Strings.String ZifyBool ZifyN ZifyNat.
From Verif Require Import Base BaseLemmas Deps Hex Eth Encode Delegation Login Provider SpecEth SpecTree SpecTrace
  ProviderProofs LoginTheory DelegationTheory TraceProofs LoginProofs CallProofs
  PropertiesLogin PropertiesCalls PropertiesDelegation
  Client ClientJson SpecClient ClientProofs ClientSeq ClientStatus.
Local Open Scope N_scope.

Lemma insert_last {A} (l : list A) x y : <[length l := y]> (l ++ [x]) = l ++ [y].
Proof.
  rewrite <- (Nat.add_0_r (length l)) at 1. rewrite insert_app_r. reflexivity.
Qed.
Lemma nth_last {A} (l : list A) x : nth_error (l ++ [x]) (length l) = Some x.
Proof. rewrite nth_error_app2, Nat.sub_diag; [reflexivity|lia]. Qed.

(** The last call goes on, or is served. *)
Lemma last_goes D cid acts x st ts t s h o j sv x' t' st' : runs D cid acts (mkWorld x st (ts ++ [t]) s h o) ->
  j = length ts -> act_ok (AContinue j sv) (mkWorld x st (ts ++ [t]) s h o) ->
  login_goes t sv x st = Some (x', t', st') ->
  runs D cid (acts ++ [AContinue j sv]) (mkWorld x' st' (ts ++ [t']) s h o).
Proof.
  intros H -> Hok E. eapply runs_snoc; [exact H|exact Hok|]. cbn [act_step w_tasks w_ctx w_storage].
  rewrite nth_last, E, insert_last. reflexivity.
Qed.

Lemma last_served D cid acts x st ts t s h o j now cert op s' r :
  runs D cid acts (mkWorld x st (ts ++ [t]) s h o) -> j = length ts ->
  task_request cert t = Some op -> Forall (fun e => ev_time e <= now) h -> now <= u64_max -> op_wf op ->
  step D cid now op s = (s', r) ->
  runs D cid (acts ++ [AServe j now cert])
    (mkWorld x st (ts ++ [task_answered r t]) s' (h ++ [mkEvent now op r]) (o ++ [mkEvent now op r])).
Proof.
  intros H -> Hr Ht Hn Hw Hs. eapply runs_snoc; [exact H| |].
  - intros t' o' N R. cbn [w_tasks w_history] in *. rewrite nth_last in N. assert (t' = t) as -> by congruence.
    assert (o' = op) as -> by congruence. split; auto.
  - cbn [act_step w_tasks w_canister w_ctx w_storage w_history w_own]. rewrite nth_last, Hr, Hs, insert_last. reflexivity.
Qed.

Lemma address_nonempty D x b : address_text D x b -> first_account [x] = Some x.
Proof. intros [_ ->]. reflexivity. Qed.
Lemma signature_nonempty D text sg x : recovers D text sg x -> exists c u, sg = c :: u.
Proof. intros H. apply recovers_sig in H as (b & t & _ & _ & ->). cbn. eauto. Qed.

Lemma times_snoc h e t : Forall (fun e => ev_time e <= t) h -> ev_time e <= t -> Forall (fun e => ev_time e <= t) (h ++ [e]).
Proof. intros H He. apply List.Forall_app. split; [exact H|]. constructor; [exact He|constructor]. Qed.
Lemma times_later h t t' : Forall (fun e => ev_time e <= t) h -> t <= t' -> Forall (fun e => ev_time e <= t') h.
Proof. intros H Hl. revert H. apply List.Forall_impl. intros e. lia. Qed.

Lemma login_live D cid acts w i since b r a seed x addr wallet k cert t1 t2 t3 : deps_ok D ->
  runs D cid acts w -> x_initializing (w_ctx w) = false -> Forall settled (w_tasks w) -> x_message (w_ctx w) = None ->
  since_boot (w_history w) i since -> since = b ++ r :: a -> ev_op r = RawRand (Some seed) ->
  Forall (fun e => forall o, ev_op e <> RawRand o) b ->
  address_text D x addr -> (forall text, recovers D text (wallet text) x) ->
  length (kp_raw k) = 32%nat -> length (kp_secret k) = 32%nat -> d_der_err D (kp_der k) = None ->
  (forall l sg y n exp pk, In l since -> ~ logged_in l sg y (kp_der k) n exp pk) ->
  Forall (fun e => ev_time e <= t1) (w_history w) -> t1 <= t2 -> t2 < t1 + sign_in_window i ->
  t2 <= t3 -> t3 < t2 + one_minute -> t3 < u64_max ->
  (exists text w' id, runs D cid (acts ++ login_actions (length (w_tasks w)) x (wallet text) k cert t1 t2 t3) w' /\
     signed_in w' x id /\ id_key id = k /\ x_login (w_ctx w') = Success) \/
  (exists l sg y sk n exp pk exp' t, In l since /\ logged_in l sg y sk n exp pk /\ sk <> kp_der k /\ targets_of i t /\
     delegation_collision D t sk exp (kp_der k) exp').
Proof.
  intros HD H Hini Hset Hmsg Hb Es Er Fb Ha Hw Hk1 Hk2 Hder Hfresh Ht1 H12 H2w H23 H3m H3u.
  pose proof (runs_cinv _ _ _ _ H) as [He _ _].
  assert (x_prepare (w_ctx w) <> Busy /\ x_login (w_ctx w) <> Busy) as [Np Nl].
  { pose proof (runs_status _ _ _ _ H) as [S1 S2 _ _]. rewrite List.Forall_forall in Hset. split; intros B.
    - destruct (S2 B) as (t & I & At). apply Hset in I. destruct t as [[]| |a' []|?|?|?|?|?|?]; cbn in *; contradiction.
    - destruct (S1 B) as (t & I & At & _). apply Hset in I. destruct t as [[]| |?|?|?|?|?|?|?]; cbn in *; contradiction. }
  set (j := length (w_tasks w)).
  (* the calls up to the request for a message *)
  assert (runs D cid (acts ++ [ALogin]) (mkWorld (w_ctx w) (w_storage w) (w_tasks w ++ [TAddresses]) (w_canister w) (w_history w) (w_own w))) as R1.
  { eapply runs_snoc; [exact H|exact I|]. cbn [act_step].
    destruct (login_starts_cases (w_ctx w)) as [->|(e & _ & [B|B])]; [|contradiction..]. rewrite Hini. reflexivity. }
  eapply (last_goes D cid _ _ _ _ _ _ _ _ j (SAccounts [x])) in R1; [|reflexivity|exact I|].
  2:{ cbn [login_goes]. rewrite (address_nonempty D x addr Ha), Hmsg. reflexivity. }
  eapply (last_goes D cid _ _ _ _ _ _ _ _ j (SAccounts [x])) in R1; [|reflexivity|exact I|].
  2:{ cbn [login_goes prep_goes]. rewrite (address_nonempty D x addr Ha). reflexivity. }
  eapply (last_goes D cid _ _ _ _ _ _ _ _ j SActor) in R1; [|reflexivity|exact I|reflexivity].
  (* the message *)
  assert (t1 <= u64_max) as U1 by lia.
  destruct (C59_prepares D cid _ _ i since b r a seed t1 x addr HD He Hb Es Er Fb Ha U1) as (s1 & text & n & Ep).
  eapply (last_served D cid _ _ _ _ _ _ _ _ j t1 cert (PrepareLogin x)) in R1;
    [|reflexivity|reflexivity|exact Ht1|exact U1|exact I|exact Ep]. cbn [task_answered prep_answered] in R1.
  eapply (last_goes D cid _ _ _ _ _ _ _ _ j SReply) in R1; [|reflexivity|exact I|reflexivity].
  eapply (last_goes D cid _ _ _ _ _ _ _ _ j SReply) in R1; [|reflexivity|exact I|reflexivity].
  set (p := mkEvent t1 (PrepareLogin x) (RPrepare (Ok (text, n)))) in *.
  (* the signature *)
  destruct (signature_nonempty D text (wallet text) x (Hw text)) as (ch & rest & Ewt).
  eapply (last_goes D cid _ _ _ _ _ _ _ _ j (SSigned (wallet text) k)) in R1; [|reflexivity|split; assumption|].
  2:{ cbn [login_goes]. rewrite Ewt. reflexivity. }
  rewrite <- Ewt in R1.
  eapply (last_goes D cid _ _ _ _ _ _ _ _ j SActor) in R1; [|reflexivity|exact I|reflexivity].
  (* the login *)
  assert (exec D cid (w_history w ++ [p]) s1) as He1.
  { apply (exec_snoc D cid _ (w_canister w)); auto. exact I. }
  assert (~ boots p) as Nbp by (intros (i' & [E|E] & _); discriminate).
  pose proof (since_boot_snoc _ _ _ p Hb Nbp) as Hb1.
  assert (~ bad_key D (kp_der k)) as Hgood by (intros [E|E]; [discriminate|congruence]).
  assert (Forall (fun e => ev_time e <= t2) (w_history w ++ [p])) as Ht2.
  { apply times_snoc; [eapply times_later; eassumption|exact H12]. }
  destruct (C31_succeeds D cid _ s1 i (since ++ [p]) since p [] x text n addr (wallet text) (kp_der k) t2 HD He1 Hb1 eq_refl)
    as [[s2 El]|[(q & ? & [] & _)|(q & ? & ? & ? & [] & _)]];
    [split; reflexivity|exact Ha|constructor|apply Hw|exact Hgood|exact Ht2|exact H2w|lia|].
  set (exp := N.min (t1 + session_window i) u64_max) in *. cbn [ev_time p] in El.
  set (pk := create_user_canister_pubkey cid (user_seed D i x)) in *.
  eapply (last_served D cid _ _ _ _ _ _ _ _ j t2 cert (SiweLogin (wallet text) x (kp_der k) n)) in R1;
    [|reflexivity|reflexivity|exact Ht2|lia|exact I|exact El]. cbn [task_answered] in R1.
  eapply (last_goes D cid _ _ _ _ _ _ _ _ j SReply) in R1; [|reflexivity|exact I|reflexivity].
  set (l := mkEvent t2 (SiweLogin (wallet text) x (kp_der k) n) (RLogin (Ok (mkDetails exp pk)))) in *.
  (* the delegation *)
  assert (exec D cid ((w_history w ++ [p]) ++ [l]) s2) as He2.
  { apply (exec_snoc D cid _ s1); auto; [lia|exact I]. }
  set (og := GetDelegation (Some cert) x (kp_der k) exp).
  destruct (step D cid t3 og s2) as [s3 rg] eqn:Eg.
  set (g := mkEvent t3 og rg).
  assert (Forall (fun e => ev_time e <= t3) ((w_history w ++ [p]) ++ [l])) as Ht3.
  { apply times_snoc; [eapply times_later; eassumption|exact H23]. }
  assert (op_wf og) as Wg by (unfold og, exp; cbn; lia).
  assert (exec D cid ((w_history w ++ [p]) ++ l :: [] ++ [g]) s3) as He3.
  { cbn [app]. rewrite cons_middle, app_assoc. apply (exec_snoc D cid _ s2); auto. lia. }
  destruct (C36_available_partial D cid _ l [] g s3 (wallet text) x (kp_der k) n exp pk cert i (since ++ [p]) HD He3)
    as [(rd & _ & Erd)|(l' & sg' & x' & sk' & n' & exp' & pk' & t & I' & L' & T' & Hx & Hsk & _)];
    [split; reflexivity|constructor|exact Hb1| |reflexivity|exact H3m|exact H3u| |].
  { intros l' sg' n' pk' I' L'. apply in_app_iff in I' as [I'|[<-|[]]]; [eapply Hfresh; eassumption|destruct L'; discriminate]. }
  - left. cbn [ev_reply g] in Erd. rewrite Erd in Eg.
    eapply (last_served D cid _ _ _ _ _ _ _ _ j t3 cert og) in R1;
      [|reflexivity|reflexivity|exact Ht3|lia|exact Wg|exact Eg]. cbn [task_answered] in R1.
    eapply (last_goes D cid _ _ _ _ _ _ _ _ j SReply) in R1; [|reflexivity|exact I|reflexivity].
    rewrite <- !app_assoc in R1. cbn [app] in R1.
    eexists text, _, _. split; [exact R1|]. repeat split.
  - right. apply in_app_iff in I' as [I'|[<-|[]]]; [|destruct L'; discriminate].
    destruct Hsk as [[-> ->]|C]; [exfalso; eapply Hfresh; eassumption|].
    exists l', sg', x', sk', n', exp', pk', exp, t. split; [exact I'|]. split; [exact L'|]. split; [|auto].
    intros ->. eapply Hfresh; eassumption.
Qed.
