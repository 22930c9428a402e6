(** A login goes through in the middle of everything else: the calls of other users, other
    tabs and other pages. *)
From Coq Require Import Strings.String ZifyBool ZifyN ZifyNat.
From Verif Require Import Base BaseLemmas Deps Hex Eth Encode Delegation Login Provider SpecEth SpecHash SpecTree SpecTrace
  ProviderProofs LoginTheory LoginProofs Concrete Scripts Demo PropertiesLogin
  Client ClientJson SpecClient ClientProofs ClientSeq ClientStatus ClientLive ClientDemo Tabs SpecTabs TabsProofs
  PropertiesTabs SpecLive LiveProofs TabsLive TabsOwn.
Local Open Scope N_scope.

(** ** C93  A login goes through whatever others do *)

(** After its twelve steps the tab is signed in, with the session key made on the way. *)
Theorem C93_signs_in : forall D cid acts w i since b r a seed x addr l w' new own, deps_ok D ->
  runs D cid acts w -> x_initializing (w_ctx w) = false ->
  (forall t, In t (w_tasks w) -> settled t) -> x_message (w_ctx w) = None ->
  since_boot (w_history w) i since -> since = b ++ r :: a -> ev_op r = RawRand (Some seed) ->
  Forall (fun e => forall o, ev_op e <> RawRand o) b -> address_text D x addr ->
  runs D cid (acts ++ ALogin :: l) w' -> w_history w' = w_history w ++ new -> w_own w' = w_own w ++ own ->
  no_fault D i (length (w_tasks w)) x l since new own ->
  own_steps (length (w_tasks w)) l = 12%nat ->
  (exists id sg, w_tasks w' = w_tasks w ++ [TReturned id] /\ signed_in w' x id /\ x_login (w_ctx w') = Success /\
     In (AContinue (length (w_tasks w)) (SSigned sg (id_key id))) l) \/
  unlucky D i (length (w_tasks w)) x l since new.
Proof.
  intros D cid acts w i since b r a seed x addr l w' new own HD H Hi Hs Hm Hb Es Er Fb Ha H' Eh Eo NF E.
  apply List.Forall_forall in Hs.
  destruct (live D cid HD acts w i since b a r seed x addr H Hi Hs Hm Hb Es Er Fb Ha l w' new own H' Eh Eo NF) as [(t & Et & S)|U];
    [left|right; exact U].
  rewrite E in S. inversion S as [| | | | | | | | | | | |c nw ow sg id Ik E1 E2 E3 E4]; subst. exists id, sg. split; [exact Et|]. repeat split; auto.
Qed.

(** It does not fail before, it takes no more than these steps, and until then the next
    one can always be taken. *)
Theorem C93_goes_on : forall D cid acts w i since b r a seed x addr l w' new own, deps_ok D ->
  runs D cid acts w -> x_initializing (w_ctx w) = false ->
  (forall t, In t (w_tasks w) -> settled t) -> x_message (w_ctx w) = None ->
  since_boot (w_history w) i since -> since = b ++ r :: a -> ev_op r = RawRand (Some seed) ->
  Forall (fun e => forall o, ev_op e <> RawRand o) b -> address_text D x addr ->
  runs D cid (acts ++ ALogin :: l) w' -> w_history w' = w_history w ++ new -> w_own w' = w_own w ++ own ->
  no_fault D i (length (w_tasks w)) x l since new own ->
  ((own_steps (length (w_tasks w)) l <= 12)%nat /\
   ((own_steps (length (w_tasks w)) l < 12)%nat ->
      (exists t, w_tasks w' = w_tasks w ++ [t] /\ ~ settled t) /\
      (forall y, awaits (length (w_tasks w)) x (own_steps (length (w_tasks w)) l) y -> timely (w_history w') y ->
         act_ok y w' /\ exists w'', act_step D cid y w' = Some w''))) \/
  unlucky D i (length (w_tasks w)) x l since new.
Proof.
  intros D cid acts w i since b r a seed x addr l w' new own HD H Hi Hs Hm Hb Es Er Fb Ha H' Eh Eo NF.
  apply List.Forall_forall in Hs. set (j := length (w_tasks w)) in *.
  destruct (live D cid HD acts w i since b a r seed x addr H Hi Hs Hm Hb Es Er Fb Ha l w' new own H' Eh Eo NF) as [(t & Et & S)|U];
    [left|right; exact U].
  fold j in S. split; [inversion S; lia|]. intros L. split.
  { exists t. split; [exact Et|]. inversion S; subst; cbn [settled]; tauto || lia. }
  assert (nth_error (w_tasks w') j = Some t) as N by (rewrite Et; apply nth_last).
  intros y Hy Ht.
  assert (forall s, y = AContinue j s -> (exists x' t' st', login_goes t s (w_ctx w') (w_storage w') = Some (x', t', st')) ->
    exists w'', act_step D cid y w' = Some w'') as Hgo.
  { intros s -> (x' & t' & st' & G). cbn [act_step]. rewrite N, G. eauto. }
  assert (forall now cert o, y = AServe j now cert -> task_request cert t = Some o -> op_wf o ->
    act_ok y w' /\ exists w'', act_step D cid y w' = Some w'') as Hserve.
  { intros now cert o -> R W. split.
    - intros t' o' N' R'. assert (t' = t) as -> by congruence. assert (o' = o) as -> by congruence. destruct Ht. split; auto.
    - cbn [act_step]. rewrite N, R. destruct (step D cid now o (w_canister w')). eauto. }
  revert Hgo Hserve Hy. generalize (own_steps j l) S L. clear S L. intros n S L Hgo Hserve Hy.
  assert (forall s, y = AContinue j s -> act_ok y w' -> (exists x' t' st', login_goes t s (w_ctx w') (w_storage w') = Some (x', t', st')) ->
    act_ok y w' /\ exists w'', act_step D cid y w' = Some w'') as Hgo' by eauto. clear Hgo. rename Hgo' into Hgo.
  destruct S; cbn [awaits] in Hy;
    destruct y as [| | | | |k' s|k' now' cert'|now' o'|q]; try contradiction;
    try (destruct s as [e|ac| |sg' kp|]; try contradiction);
    repeat match goal with Hx : _ /\ _ |- _ => destruct Hx end; try subst k'; try lia.
  - apply (Hgo _ eq_refl I). cbn [login_goes]. match goal with E : first_account _ = _ |- _ => rewrite E end.
    match goal with E : x_message _ = _ |- _ => rewrite E end. eauto.
  - apply (Hgo _ eq_refl I). cbn [login_goes prep_goes]. match goal with E : first_account _ = _ |- _ => rewrite E end. eauto.
  - apply (Hgo _ eq_refl I). cbn [login_goes prep_goes]. eauto.
  - eapply Hserve; [reflexivity|reflexivity|exact I].
  - apply (Hgo _ eq_refl I). cbn [login_goes prep_goes prepare_answer]. eauto.
  - apply (Hgo _ eq_refl I). cbn [login_goes]. eauto.
  - apply (Hgo _ eq_refl); [split; assumption|]. cbn [login_goes]. destruct sg' as [|ch sg']; [tauto|]. eauto.
  - apply (Hgo _ eq_refl I). cbn [login_goes]. eauto.
  - eapply Hserve; [reflexivity|reflexivity|exact I].
  - apply (Hgo _ eq_refl I). cbn [login_goes login_answer]. eauto.
  - eapply Hserve; [reflexivity|reflexivity|cbn; assumption].
  - apply (Hgo _ eq_refl I). cbn [login_goes delegation_answer]. eauto.
Qed.

(** Concrete: while Carol signs in, somebody else asks for a message for her address, tries to
    log in with it, and writes localStorage; and Bob logs in. *)
Definition carol_text : bytes := Eval vm_compute in wallet_address CD carol.
Definition busy_script : list cact :=
  opening ++ On ALogin ::
  [On (AContinue 0 (SAccounts [carol_text])); On (ACanister (2 * sec) (PrepareLogin carol_text));
   On (AContinue 0 (SAccounts [carol_text])); On (AStorage (Some (bs "{}"))); On (AContinue 0 SActor);
   On (ACanister (3 * sec) (PrepareLogin bob_text));
   On (AServe 0 (4 * sec) (bs "cert")); On (AContinue 0 SReply); On (AStorage None); On (AContinue 0 SReply);
   On (ACanister (5 * sec) (SiweLogin (wallet_sign CD carol []) carol_text (repeat x30 44) (bs "00112233445566778899")));
   Signs 0 carol pair1; On (ACanister (6 * sec) (PrepareLogin carol_text)); On (AContinue 0 SActor);
   On (AServe 0 (7 * sec) (bs "cert")); On (ACanister (8 * sec) (SiweLogin [] bob_text (repeat x30 44) []));
   On (AContinue 0 SReply); On (AServe 0 (9 * sec) (bs "cert")); On (ACanister (10 * sec) (GetPrincipal carol_text));
   On (AContinue 0 SReply)].
Definition busy_acts : list action := Eval vm_compute in drop 4 (acts_of busy_script).
Definition open_acts : list action := Eval vm_compute in acts_of opening.
Definition open_view := Eval vm_compute in match sees open_acts with Some v => v | None => seen initial_world end.
Definition busy_view := Eval vm_compute in
  match sees (open_acts ++ ALogin :: busy_acts) with Some v => v | None => seen initial_world end.
Definition busy_new : list event := Eval vm_compute in drop 2 (snd (fst busy_view)).
Definition busy_own : list event := Eval vm_compute in snd busy_view.
Definition busy_since : list event := [mkEvent (1 * sec) (RawRand (Some (repeat x07 32))) RDone].
Definition busy_text : bytes := Eval vm_compute in
  match busy_own with e :: _ => match ev_reply e with RPrepare (Ok (t, _)) => t | _ => [] end | [] => [] end.

Ltac each_in H := cbn [In busy_acts busy_new busy_own busy_since] in H; unfold busy_acts, busy_new, busy_own, busy_since in H;
  cbn [In] in H; repeat (destruct H as [H|H]); try contradiction.

Lemma busy_no_fault : no_fault CD demo_input 0 carol_text busy_acts busy_since busy_new busy_own.
Proof.
  constructor.
  - intros a I. each_in I; subst a; exact Logic.I.
  - intros s I. each_in I; try discriminate I; injection I as <-; try exact Logic.I; try reflexivity.
    split; [reflexivity|]. intros e text n I P. each_in I; subst e; destruct P as [P1 P2]; try discriminate P1.
    assert (text = busy_text) as -> by (injection P2; intros; subst; vm_compute; reflexivity).
    match goal with |- recovers _ _ ?s _ => replace s with (wallet_sign CD carol busy_text) by (vm_compute; reflexivity) end.
    replace carol_text with (wallet_address CD carol) by (vm_compute; reflexivity). apply carol_recovers.
  - intros e I (i & [E|E] & _); each_in I; subst e; discriminate E.
  - intros now sg sk n e text I J P. each_in I; try discriminate I. injection I as _ _ _ <-.
    each_in J; subst e; destruct P as [P1 P2]; try discriminate P1; discriminate P2.
  - intros sg k now sg' y n I J. each_in I; try discriminate I. injection I as _ <-. each_in J; try discriminate J.
  - intros sg k e sg' y n exp pk I J [L _]. each_in J. subst e. discriminate L.
  - intros p e text n sg sk I J P E. each_in I; subst p; destruct P as [P _]; try discriminate P.
    each_in J; subst e; try discriminate E; split; reflexivity.
  - intros e g sg n sk exp pk cert I J [L _] E. each_in I; subst e; try discriminate L.
    each_in J; subst g; try discriminate E; split; reflexivity.
Qed.

Example C93_case : exists w w' id, runs CD demo_cid open_acts w /\ w_tasks w = [] /\ since_boot (w_history w) demo_input busy_since /\
  runs CD demo_cid (open_acts ++ ALogin :: busy_acts) w' /\ w_history w' = w_history w ++ busy_new /\ w_own w' = w_own w ++ busy_own /\
  no_fault CD demo_input 0 carol_text busy_acts busy_since busy_new busy_own /\
  own_steps 0 busy_acts = 12%nat /\ signed_in w' carol_text id /\ id_key id = pair1.
Proof.
  destruct (perform_seen CD demo_cid open_acts open_view) as (w & H & E); [vm_compute; reflexivity|].
  destruct (perform_seen CD demo_cid (open_acts ++ ALogin :: busy_acts) busy_view) as (w' & H' & E'); [vm_compute; reflexivity|].
  unfold open_view, seen in E. injection E as Hx Hst Hts Hh Ho.
  unfold busy_view, seen in E'. injection E' as Hx' Hst' Hts' Hh' Ho'.
  eexists w, w', _. split; [exact H|]. split; [exact Hts|]. split.
  { rewrite Hh. exists [], (mkEvent 0 (Install demo_input) RDone). split; [reflexivity|]. split.
    - split; [left; reflexivity|reflexivity].
    - constructor; [|constructor]. intros (i & [E|E] & _); discriminate. }
  split; [exact H'|]. split; [rewrite Hh, Hh'; reflexivity|]. split; [rewrite Ho, Ho'; reflexivity|].
  split; [exact busy_no_fault|]. split; [reflexivity|]. split; [split; [rewrite Hx'; reflexivity|split; rewrite Hx'; reflexivity]|reflexivity].
Qed.

(** ** C94  A login goes through whatever other tabs do *)

Theorem C94_tab_signs_in : forall D cid acts b j t i since sb r sa seed x addr more b' t' new own, deps_ok D ->
  bruns D cid acts b -> nth_error (b_tabs b) j = Some t -> x_initializing (t_ctx t) = false ->
  (forall u, In u (t_tasks t) -> settled u) -> x_message (t_ctx t) = None ->
  since_boot (b_history b) i since -> since = sb ++ r :: sa -> ev_op r = RawRand (Some seed) ->
  Forall (fun e => forall o, ev_op e <> RawRand o) sb -> address_text D x addr ->
  bruns D cid (acts ++ BTab j ALogin :: more) b' -> nth_error (b_tabs b') j = Some t' ->
  b_history b' = b_history b ++ new -> t_own t' = t_own t ++ own ->
  no_fault D i (length (t_tasks t)) x (tab_acts j more) since new own ->
  (forall now sg sk n e text, foreign j more b' now (SiweLogin sg x sk n) -> In e own -> ~ prepared e x text n) ->
  (forall now sg k sg' y n, In (BTab j (AContinue (length (t_tasks t)) (SSigned sg k))) more ->
     ~ foreign j more b' now (SiweLogin sg' y (kp_der k) n)) ->
  own_steps (length (t_tasks t)) (tab_acts j more) = 12%nat ->
  (exists id sg, t_tasks t' = t_tasks t ++ [TReturned id] /\ shows t' (Some (x, id)) /\
     In (BTab j (AContinue (length (t_tasks t)) (SSigned sg (id_key id)))) more) \/
  unlucky D i (length (t_tasks t)) x (tab_acts j more) since new.
Proof.
  intros D cid acts b j t i since sb r sa seed x addr more b' t' new own HD H N Hi Hs Hm Hb Es Er Fb Ha H' N' Eh Eo NF Hn Hk E.
  destruct (tab_sim D cid acts b H j t N) as (l0 & R0 & _).
  rewrite cons_middle, app_assoc in H'.
  assert (exists b1, bruns D cid (acts ++ [BTab j ALogin]) b1) as [b1 H1].
  { clear - H'. revert b' H'. induction more as [|a more IH] using rev_ind; intros b' H'; [rewrite app_nil_r in H'; eauto|].
    rewrite app_assoc in H'. apply bruns_last in H' as (b2 & H2 & _). eauto. }
  pose proof (bruns_last _ _ _ _ _ H1) as (b0 & H0 & Hok & Hs1). rewrite (bruns_fun _ _ _ _ _ H0 H) in Hs1, Hok. clear b0 H0.
  cbn [bstep tab_action] in Hs1. rewrite N in Hs1.
  destruct (act_step D cid ALogin (tab_world b t)) as [w1|] eqn:S1; [|discriminate]. injection Hs1 as <-.
  pose proof (nth_insert_same (b_tabs b) j (mkTab (w_ctx w1) (w_tasks w1) (w_own w1)) t N) as N1.
  assert (runs D cid (l0 ++ [ALogin]) (tab_world (put_world j w1 b) (mkTab (w_ctx w1) (w_tasks w1) (w_own w1)))) as R1.
  { eapply runs_snoc; [exact R0|exact I|]. rewrite S1. destruct w1; reflexivity. }
  destruct (tab_sim_from D cid _ _ j _ _ H1 N1 R1 more b' H') as (t2 & l & N2 & R2 & F & Hf).
  assert (t2 = t') as -> by congruence. rewrite <- app_assoc in R2. cbn [app] in R2.
  assert (forall s, In (AContinue (length (t_tasks t)) s) l <-> In (AContinue (length (t_tasks t)) s) (tab_acts j more)) as HI
    by (intros s; apply in_tab_acts; [reflexivity|exact F]).
  assert (forall a, In a (tab_acts j more) <-> In (BTab j a) more) as HT.
  { intros a. unfold tab_acts. rewrite in_flat_map. split.
    - intros ([|k c|now o] & I & J); try contradiction. destruct (Nat.eqb_spec k j) as [->|]; [destruct J as [->|[]]; exact I|contradiction].
    - intros I. exists (BTab j a). split; [exact I|]. cbn beta iota. rewrite Nat.eqb_refl. now left. }
  rewrite <- F, <- own_steps_filter in E.
  assert (no_fault D i (length (t_tasks t)) x l since new own) as NF'.
  { destruct NF as [F1 F2 F3 F4 F5 F6 F7 F8]. constructor; auto.
    - intros a I. destruct (tab_action a) eqn:A; [apply F1; apply (in_tab_acts a l _ A F); exact I|]. destruct a; try discriminate A; exact Logic.I.
    - intros s I. now apply F2, HI.
    - intros now sg sk n e text I. apply (Hn now sg sk n). now apply Hf.
    - intros sg k now sg' y n I J. apply HI, HT in I. apply (Hk now sg k sg' y n I). now apply Hf.
    - intros sg k e sg' y n exp pk I. apply HI in I. eauto. }
  destruct (C93_signs_in D cid l0 (tab_world b t) i since sb r sa seed x addr l (tab_world b' t') new own HD R0 Hi Hs Hm Hb Es Er Fb Ha R2 Eh Eo NF' E)
    as [(id & sg & Et & (S2 & S3 & S4) & _ & Ik)|U].
  - left. exists id, sg. split; [exact Et|]. split; [split; [exact S2|split; assumption]|]. now apply HT, HI.
  - right. destruct U as [U|[U|(e & sg & y & sk & n & exp & pk & sg' & k & exp' & t0 & I & L & K & U)]]; [left; exact U|right; left; exact U|].
    right. right. exists e, sg, y, sk, n, exp, pk, sg', k, exp', t0. apply HI in K. auto.
Qed.

(** Of the other tabs it is enough that they make their own session keys and that the
    canister gives no nonce twice; of outsiders, that they do not know nonce and key. *)
Theorem C94_only_outsiders : forall D cid acts b j t i since sb r sa seed x addr more b' t' new own, deps_ok D ->
  bruns D cid acts b -> nth_error (b_tabs b) j = Some t -> x_initializing (t_ctx t) = false ->
  (forall u, In u (t_tasks t) -> settled u) -> x_message (t_ctx t) = None ->
  since_boot (b_history b) i since -> since = sb ++ r :: sa -> ev_op r = RawRand (Some seed) ->
  Forall (fun e => forall o, ev_op e <> RawRand o) sb -> address_text D x addr ->
  bruns D cid (acts ++ BTab j ALogin :: more) b' -> nth_error (b_tabs b') j = Some t' ->
  b_history b' = b_history b ++ new -> t_own t' = t_own t ++ own ->
  no_fault D i (length (t_tasks t)) x (tab_acts j more) since new own ->
  (forall now sg sk n e text, In (BCanister now (SiweLogin sg x sk n)) more -> In e own -> ~ prepared e x text n) ->
  (forall now sg k sg' y n, In (BTab j (AContinue (length (t_tasks t)) (SSigned sg k))) more ->
     ~ In (BCanister now (SiweLogin sg' y (kp_der k) n)) more) ->
  (forall sg k j' c sg' k', In (BTab j (AContinue (length (t_tasks t)) (SSigned sg k))) more -> j' <> j ->
     In (BTab j' (AContinue c (SSigned sg' k'))) (acts ++ more) -> kp_der k' <> kp_der k) ->
  (forall h1 p h2 q h3 y text z text' n, b_history b' = h1 ++ p :: h2 ++ q :: h3 -> prepared p y text n -> ~ prepared q z text' n) ->
  own_steps (length (t_tasks t)) (tab_acts j more) = 12%nat ->
  (exists id sg, t_tasks t' = t_tasks t ++ [TReturned id] /\ shows t' (Some (x, id)) /\
     In (BTab j (AContinue (length (t_tasks t)) (SSigned sg (id_key id)))) more) \/
  unlucky D i (length (t_tasks t)) x (tab_acts j more) since new.
Proof.
  intros D cid acts b j t i since sb r sa seed x addr more b' t' new own HD H N Hi Hs Hm Hb Es Er Fb Ha H' N' Eh Eo NF Hn Hk Hkeys Htwice E.
  eapply (C94_tab_signs_in D cid acts b j t i since sb r sa seed x addr more b' t' new own); eauto.
  - intros now sg sk n e text [I|(k & u & f & Ne & Nk & If & Ef & _)] J P; [eapply Hn; eassumption|].
    destruct (tab_submits D cid _ b' k u f sg x sk n H' Nk If Ef) as [(p & y & text' & Ip & Pp) _].
    assert (In e (t_own t')) as Je by (rewrite Eo; apply in_app_iff; now right).
    destruct (two_owners D cid _ b' j k t' u e p H' (not_eq_sym Ne) N' Nk Je Ip) as (h1 & h2 & h3 & [W|W]);
      eapply Htwice; eassumption.
  - intros now sg k sg' y n Ik [I|(k' & u & f & Ne & Nk & If & Ef & _)]; [eapply Hk; eassumption|].
    destruct (tab_submits D cid _ b' k' u f sg' y (kp_der k) n H' Nk If Ef) as [_ (c & kp & Ic & Ek)].
    apply (Hkeys sg k k' c sg' kp Ik Ne); [|exact Ek].
    unfold tab_acts in Ic. apply in_flat_map in Ic as (a & Ia & Ja). destruct a as [|q a|]; try contradiction.
    destruct (Nat.eqb_spec q k') as [->|]; [|contradiction]. destruct Ja as [->|[]].
    apply in_app_iff in Ia as [Ia|[Ia|Ia]]; [apply in_app_iff; now left|discriminate Ia|apply in_app_iff; now right].
Qed.

(** Concrete: Carol signs in in one tab while Alice signs in in the other, step by step. *)
Fixpoint alternate {A} (l l' : list A) : list A :=
  match l, l' with a :: l, b :: l' => a :: b :: alternate l l' | _, _ => l ++ l' end.
Definition tabs_open : list baction := Eval vm_compute in after_opening (in_tab 0 [On AManager] ++ in_tab 1 [On AManager]).
Definition tabs_more : list baction := Eval vm_compute in
  drop 7 (after_opening (in_tab 0 [On AManager] ++ in_tab 1 [On AManager] ++
    alternate (in_tab 0 (whole_login 0 (2 * sec) carol carol_text pair1)) (in_tab 1 (whole_login 0 (2 * sec) alice alice_text pair2)))).
Definition tabs_open_view := Eval vm_compute in bview tabs_open.
Definition tabs_view := Eval vm_compute in bview (tabs_open ++ BTab 0 ALogin :: tabs_more).
Definition tabs_new : list event := Eval vm_compute in drop 2 (snd tabs_view).
Definition tabs_own : list event := Eval vm_compute in match fst (fst tabs_view) with t :: _ => t_own t | [] => [] end.
Definition tabs_text : bytes := Eval vm_compute in
  match tabs_own with e :: _ => match ev_reply e with RPrepare (Ok (t, _)) => t | _ => [] end | [] => [] end.
Ltac each_tab_in H := unfold tabs_more, tabs_new, tabs_own, busy_since, tab_acts in H; cbn [In flat_map app Nat.eqb] in H;
  repeat (destruct H as [H|H]); try contradiction.

Lemma tabs_no_fault : no_fault CD demo_input 0 carol_text (tab_acts 0 tabs_more) busy_since tabs_new tabs_own.
Proof.
  constructor.
  - intros a I. each_tab_in I; subst a; exact Logic.I.
  - intros s I. each_tab_in I; try discriminate I; injection I as <-; try exact Logic.I; try reflexivity.
    split; [reflexivity|]. intros e text n I P. each_tab_in I; subst e; destruct P as [P1 P2]; try discriminate P1.
    assert (text = tabs_text) as -> by (injection P2; intros; subst; vm_compute; reflexivity).
    match goal with |- recovers _ _ ?s _ => replace s with (wallet_sign CD carol tabs_text) by (vm_compute; reflexivity) end.
    replace carol_text with (wallet_address CD carol) by (vm_compute; reflexivity). apply carol_recovers.
  - intros e I (i & [E|E] & _); each_tab_in I; subst e; discriminate E.
  - intros now sg sk n e text I J P. each_tab_in I; discriminate I.
  - intros sg k now sg' y n I J. each_tab_in J; discriminate J.
  - intros sg k e sg' y n exp pk I J [L _]. each_tab_in J. subst e. discriminate L.
  - intros p e text n sg sk I J P E. each_tab_in I; subst p; destruct P as [P _]; try discriminate P.
    each_tab_in J; subst e; try discriminate E; split; reflexivity.
  - intros e g sg n sk exp pk cert I J [L _] E. each_tab_in I; subst e; try discriminate L.
    each_tab_in J; subst g; try discriminate E; split; reflexivity.
Qed.

Definition nonces (h : list event) : list bytes :=
  flat_map (fun e => match ev_op e, ev_reply e with PrepareLogin _, RPrepare (Ok (_, n)) => [n] | _, _ => [] end) h.
Lemma nonces_once h : base.NoDup (nonces h) ->
  forall h1 p h2 q h3 y text z text' n, h = h1 ++ p :: h2 ++ q :: h3 -> prepared p y text n -> ~ prepared q z text' n.
Proof.
  intros Hd h1 p h2 q h3 y text z text' n -> [P1 P2] [Q1 Q2]. unfold nonces in Hd.
  rewrite flat_map_app in Hd. cbn [flat_map] in Hd. rewrite P1, P2, flat_map_app in Hd. cbn [flat_map] in Hd. rewrite Q1, Q2 in Hd.
  apply NoDup_app in Hd as (_ & _ & Hd). cbn [app] in Hd. apply list.NoDup_cons in Hd as [Hd _]. apply Hd.
  apply elem_of_app. right. apply elem_of_list_here.
Qed.

Example C94_case : exists b t b' t' id, bruns CD demo_cid tabs_open b /\ nth_error (b_tabs b) 0 = Some t /\ t_tasks t = [] /\
  bruns CD demo_cid (tabs_open ++ BTab 0 ALogin :: tabs_more) b' /\ nth_error (b_tabs b') 0 = Some t' /\
  b_history b' = b_history b ++ tabs_new /\ t_own t' = t_own t ++ tabs_own /\
  no_fault CD demo_input 0 carol_text (tab_acts 0 tabs_more) busy_since tabs_new tabs_own /\
  (forall now sg y sk n, foreign 0 tabs_more b' now (SiweLogin sg y sk n) -> y = alice_text /\ sk = kp_der pair2) /\
  (forall now o, ~ In (BCanister now o) tabs_more) /\
  (forall sg k j' c sg' k', In (BTab 0 (AContinue 0 (SSigned sg k))) tabs_more -> j' <> 0%nat ->
     In (BTab j' (AContinue c (SSigned sg' k'))) (tabs_open ++ tabs_more) -> kp_der k' <> kp_der k) /\
  (forall h1 p h2 q h3 y text z text' n, b_history b' = h1 ++ p :: h2 ++ q :: h3 -> prepared p y text n -> ~ prepared q z text' n) /\
  own_steps 0 (tab_acts 0 tabs_more) = 12%nat /\ shows t' (Some (carol_text, id)) /\ id_key id = pair1.
Proof.
  brun_of tabs_open tabs_open_view b H. destruct (bperform_seen CD demo_cid (tabs_open ++ BTab 0 ALogin :: tabs_more) tabs_view)
    as (b' & H' & E'); [vm_compute; reflexivity|]. unfold tabs_view, bseen in E'. injection E' as Ht' Hst' Hh'.
  eexists b, _, b', _, _. split; [exact H|]. split; [rewrite Ht; reflexivity|]. split; [reflexivity|]. split; [exact H'|].
  split; [rewrite Ht'; reflexivity|]. split; [rewrite Hh, Hh'; reflexivity|]. split; [reflexivity|]. split; [exact tabs_no_fault|]. split.
  - intros now sg y sk n [I|(k & t & e & Nk & N & I & Eo & _)]; [each_tab_in I; discriminate I|].
    rewrite Ht' in N. destruct k as [|[|k]]; [contradiction| |destruct k; discriminate N]. injection N as <-.
    cbn [t_own In] in I. repeat (destruct I as [I|I]); try contradiction; subst e; try discriminate Eo.
    injection Eo as <- <- <- <-. split; reflexivity.
  - split; [intros now o I; each_tab_in I; discriminate I|]. split.
    { intros sg k j' c sg' k' I Nj J. each_tab_in I; try discriminate I. injection I as <- <-.
      apply in_app_iff in J as [J|J]; [unfold tabs_open in J; cbn [In] in J; repeat (destruct J as [J|J]); try contradiction; discriminate J|].
      each_tab_in J; try discriminate J; injection J as <- <- <- <-; [now destruct Nj|vm_compute; discriminate]. }
    split.
    { apply nonces_once. rewrite Hh'. apply (bool_decide_unpack _). vm_compute. exact Logic.I. }
    split; [reflexivity|]. split; [split; [reflexivity|split; reflexivity]|reflexivity].
Qed.

Print Assumptions C93_signs_in.
Print Assumptions C93_goes_on.
Print Assumptions C94_tab_signs_in.
Print Assumptions C94_only_outsiders.
