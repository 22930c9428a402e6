(** Theorem C88: how much the canister keeps. *)
From Coq Require Import Strings.String ZifyBool ZifyN ZifyNat.
From Verif Require Import Base BaseLemmas Deps Hash HashTree RbTree Heap SigMap Settings Siwe Encode Delegation Login Provider
  SpecEth SpecHash SpecTree SigMapProofs MapRuns SpecSiwe SpecInit SpecTrace LoginProofs ProviderProofs LoginTheory Concrete Scripts Demo
  PropertiesCalls.
Local Open Scope N_scope.

(** ** C88 The canister keeps no more delegations than fell into the busiest minute *)

Definition login_ok (e : event) : bool :=
  match ev_op e, ev_reply e with SiweLogin _ _ _ _, RLogin (Ok _) => true | _, _ => false end.
(** The number of successful logins. *)
Definition logins (l : list event) : nat := length (List.filter login_ok l).
(** All within less than a minute. *)
Definition one_minutes (l : list event) : Prop :=
  forall e1 e2, In e1 l -> In e2 l -> ev_time e2 < ev_time e1 + one_minute.

(** What the canister keeps: the entries of the expiration queue, and the pairs for which it
    has a witness. *)
Definition kept_entries (c : canister) : nat := length (sm_queue (c_sigs c)).
Definition kept_pairs (D : Deps) (c : canister) (l : list (bytes * bytes)) : Prop :=
  List.NoDup l /\ Forall (fun p => is_Some (sm_witness D (fst p) (snd p) (c_sigs c))) l.

(** *** Proof *)

Lemma login_ok_spec e : login_ok e = true <-> login_succeeds e.
Proof.
  unfold login_ok, login_succeeds, logged_in. split.
  - destruct (ev_op e) as [| | | |sg x sk n| | | |]; try discriminate.
    destruct (ev_reply e) as [| | |[[exp pk]|]| | |]; try discriminate. intros _. now exists sg, x, sk, n, exp, pk.
  - intros (sg & x & sk & n & exp & pk & -> & ->). reflexivity.
Qed.

Lemma rejected_not_ok D e : rejected_key D e -> login_ok e = false.
Proof. intros (sg & x & sk & n & t & Ho & _ & Hr). unfold login_ok. rewrite Ho, Hr. reflexivity. Qed.

Lemma logins_app l1 l2 : logins (l1 ++ l2) = (logins l1 + logins l2)%nat.
Proof. unfold logins. now rewrite List.filter_app, app_length. Qed.

Lemma logins_one e : logins [e] = if login_ok e then 1%nat else 0%nat.
Proof. unfold logins. cbn [List.filter]. now destruct (login_ok e). Qed.

Definition unexpired (now : N) (e : SigExpiration) : bool := now <? se_at e.
Definition recent (now : N) (e : event) : bool := now <? ev_time e + one_minute.

Lemma filter_perm {A} (f : A -> bool) l1 l2 : Permutation l1 l2 -> length (List.filter f l1) = length (List.filter f l2).
Proof.
  induction 1; cbn [List.filter]; try congruence.
  - destruct (f x); cbn [length]; congruence.
  - destruct (f x), (f y); reflexivity.
Qed.

Lemma filter_none {A} (f : A -> bool) l : length (List.filter f l) = 0%nat -> Forall (fun x => f x = false) l.
Proof.
  induction l as [|x l IH]; cbn [List.filter]; [constructor|]. destruct (f x) eqn:E; [discriminate|]. constructor; auto.
Qed.

Lemma filter_all {A} (f : A -> bool) l : Forall (fun x => f x = true) l -> List.filter f l = l.
Proof. induction 1 as [|x l H HF IH]; cbn [List.filter]; [reflexivity|]. now rewrite H, IH. Qed.

(** Pruning at [now]: either every entry is kept and none has expired, or one at least goes. *)
Lemma prune_size D now m m' n : sm_ok D m -> sm_prune_expired D now 10 m = Done (m', n) ->
  (forall t, (length (List.filter (unexpired t) (sm_queue m')) <= length (List.filter (unexpired t) (sm_queue m)))%nat) /\
  (length (sm_queue m') <= length (sm_queue m))%nat /\
  (length (sm_queue m') < length (sm_queue m) \/
   length (sm_queue m') = length (sm_queue m) /\ length (sm_queue m) = length (List.filter (unexpired now) (sm_queue m)))%nat.
Proof.
  intros Hok E. destruct (sm_prune_ok D now 10 m Hok) as (m1 & removed & E1 & _ & G2 & G3 & _).
  assert (m1 = m') as -> by congruence. pose proof (Permutation_length G2) as HL. rewrite app_length in HL. split.
  - intros t. rewrite (filter_perm _ _ _ G2), List.filter_app, app_length. lia.
  - split; [lia|]. destruct removed as [|r removed]; [|left; cbn [length] in HL; lia]. right. cbn [length] in HL, G3.
    split; [lia|].
    assert (length (List.filter (fun e => se_at e <=? now) (sm_queue m)) = 0%nat) as H0.
    { unfold expired_count in G3. lia. }
    apply filter_none in H0. rewrite filter_all; [reflexivity|]. revert H0. apply List.Forall_impl. intros e He.
    unfold unexpired. cbn beta in He. lia.
Qed.

(** Events at non-decreasing times: the recent ones are at the end. *)
Fixpoint in_order (l : list event) : Prop :=
  match l with [] => True | e :: r => Forall (fun e' => ev_time e <= ev_time e') r /\ in_order r end.

Lemma in_order_snoc l e : in_order (l ++ [e]) -> in_order l /\ Forall (fun e' => ev_time e' <= ev_time e) l.
Proof.
  induction l as [|x l IH]; cbn [app in_order]; [split; [exact I|constructor]|].
  intros [HF H]. apply IH in H as [H1 H2]. apply List.Forall_app in HF as [HF1 HF2].
  apply List.Forall_cons_iff in HF2 as [HF2 _]. repeat split; auto.
Qed.

Lemma recent_suffix now l : in_order l -> exists before minute, l = before ++ minute /\
  Forall (fun e => recent now e = true) minute /\
  length (List.filter (fun e => login_ok e && recent now e) l) = logins minute.
Proof.
  induction l as [|e l IH]; cbn [in_order]; [exists [], []; repeat split; constructor|]. intros [HF H].
  destruct (recent now e) eqn:Er.
  - exists [], (e :: l). assert (Forall (fun x => recent now x = true) (e :: l)) as HR.
    { constructor; [exact Er|]. revert HF. apply List.Forall_impl. intros x Hx. unfold recent in *. lia. }
    split; [reflexivity|]. split; [exact HR|]. unfold logins. f_equal. revert HR. clear. induction (e :: l) as [|x r IH].
    + reflexivity.
    + intros HR. apply List.Forall_cons_iff in HR as [Hx HR]. cbn [List.filter]. rewrite Hx, andb_true_r, (IH HR). reflexivity.
  - destruct (IH H) as (before & minute & -> & H1 & H2). exists (e :: before), minute.
    split; [reflexivity|]. split; [exact H1|]. cbn [List.filter]. now rewrite Er, andb_false_r.
Qed.

Lemma put_size D now s d m m' : sm_ok D m -> sm_put D now s d m = Done m' ->
  length (sm_queue m') = S (length (sm_queue m)) /\
  forall t, (length (List.filter (unexpired t) (sm_queue m')) <=
    length (List.filter (unexpired t) (sm_queue m)) + (if (t <? now + one_minute)%N then 1 else 0))%nat.
Proof.
  intros Hok E. destruct (sm_put_ok D now s d m Hok) as (m1 & E1 & _ & _ & G). assert (m1 = m') as -> by congruence.
  split; [now rewrite (Permutation_length G)|]. intros t. rewrite (filter_perm _ _ _ G). cbn [List.filter].
  unfold unexpired at 1. cbn [se_at]. unfold sat_add. change DELEGATION_SIGNATURE_EXPIRES_AT with one_minute.
  destruct (t <? N.min (now + one_minute) u64_max) eqn:Et; destruct (t <? now + one_minute) eqn:Et'; cbn [length]; lia.
Qed.

Lemma kept_bound D cid s since ops : map_history D cid s since ops -> in_order since -> forall m,
  run_map D ops sm_empty = Done m ->
  (forall t, (length (List.filter (unexpired t) (sm_queue m)) <=
     length (List.filter (fun e => login_ok e && recent t e) since))%nat) /\
  exists before minute after, since = before ++ minute ++ after /\ one_minutes minute /\
    (length (sm_queue m) <= logins minute)%nat.
Proof.
  induction 1 as [|since ops e o Hh IH Ho]; intros Hord m E.
  { cbn in E. assert (m = sm_empty) as -> by congruence. split; [cbn; lia|]. exists [], [], []. cbn.
    split; [reflexivity|]. split; [intros ? ? []|lia]. }
  apply in_order_snoc in Hord as [Hord Hlast]. rewrite run_map_app in E.
  destruct (run_map D ops sm_empty) as [m0|] eqn:E0; [|discriminate]. cbn [obind] in E.
  destruct (run_map_inv D ops m0 E0) as (Hok & _ & _).
  destruct (IH Hord m0 eq_refl) as (Hun & before & minute & after & Es & Hmin & Hlen).
  assert (forall t, length (List.filter (fun e => login_ok e && recent t e) (since ++ [e])) =
    (length (List.filter (fun e => login_ok e && recent t e) since) + (if login_ok e && recent t e then 1 else 0))%nat) as Hsn.
  { intros t. rewrite List.filter_app, app_length. cbn [List.filter]. now destruct (login_ok e && recent t e). }
  assert (forall k, (k <= length (sm_queue m0))%nat -> exists before minute after, since ++ [e] = before ++ minute ++ after /\
    one_minutes minute /\ (k <= logins minute)%nat) as Hkeep.
  { intros k Hk. exists before, minute, (after ++ [e]). split; [rewrite Es, <- !app_assoc; reflexivity|]. split; [exact Hmin|lia]. }
  inversion Ho as [sg x sk n exp pk dh Hl _ _ _ _|Hr|Hn]; subst o.
  - (* a login *)
    assert (login_ok e = true) as Hok1 by (apply login_ok_spec; exists sg, x, sk, n, exp, pk; exact Hl).
    cbn [run_map map_step] in E. destruct (sm_prune_expired D (ev_time e) 10 m0) as [[m1 k]|] eqn:E1; [|discriminate].
    cbn [obind fst] in E. destruct (sm_put D (ev_time e) (d_sha256 D (ProviderProofs.seed_of D s x)) dh m1) as [m2|] eqn:E2; [|discriminate].
    cbn [obind fst] in E. assert (m2 = m) as -> by congruence.
    destruct (prune_size D _ m0 m1 k Hok E1) as (P1 & P2 & P3).
    assert (sm_ok D m1) as Hok'.
    { destruct (map_step_ok D (MPrune (ev_time e) 10) m0 Hok) as (m1' & k' & E1' & Hok1' & _). cbn [map_step] in E1'.
      assert (m1' = m1) as <- by congruence. exact Hok1'. }
    destruct (put_size D _ _ _ m1 m Hok' E2) as (Q1 & Q2). split.
    + intros t. rewrite Hsn, Hok1. specialize (P1 t). specialize (Q2 t). specialize (Hun t). cbn [andb]. unfold recent at 2. lia.
    + destruct P3 as [P3|[P3 P4]]; [apply Hkeep; lia|].
      destruct (recent_suffix (ev_time e) since Hord) as (bef & mi & Es' & HR & Hc). specialize (Hun (ev_time e)).
      exists bef, (mi ++ [e]), []. split; [rewrite Es', app_nil_r, app_assoc; reflexivity|]. split.
      * intros e1 e2 H1 H2. rewrite List.Forall_forall in HR, Hlast.
        assert (ev_time e < ev_time e1 + one_minute) as G1.
        { apply in_app_iff in H1 as [H1|[<-|[]]]; [|unfold one_minute; lia]. specialize (HR _ H1). unfold recent in HR. lia. }
        assert (ev_time e2 <= ev_time e) as G2.
        { apply in_app_iff in H2 as [H2|[<-|[]]]; [|lia]. apply Hlast. rewrite Es'. apply in_app_iff. auto. }
        lia.
      * rewrite logins_app, logins_one, Hok1. lia.
  - (* a rejected session key *)
    pose proof (rejected_not_ok D e Hr) as Hok1.
    cbn [run_map map_step] in E. destruct (sm_prune_expired D (ev_time e) 10 m0) as [[m1 k]|] eqn:E1; [|discriminate].
    cbn [obind fst] in E. assert (m1 = m) as -> by congruence.
    destruct (prune_size D _ m0 m k Hok E1) as (P1 & P2 & _). split; [|apply Hkeep, P2].
    intros t. rewrite Hsn, Hok1. specialize (P1 t). specialize (Hun t). cbn [andb]. lia.
  - cbn [run_map] in E. assert (m0 = m) as -> by congruence. split; [|apply Hkeep; lia].
    intros t. rewrite Hsn. specialize (Hun t). lia.
Qed.

Lemma exec_in_order D cid tr s : exec D cid tr s -> in_order tr.
Proof.
  induction 1 as [|tr s now o s' r H IH Ht _ _ _]; [exact I|].
  revert IH Ht. clear. induction tr as [|x l IH]; cbn [app in_order]; [repeat constructor|].
  intros [HF Ho] Ht. apply List.Forall_cons_iff in Ht as [Hx Ht]. split; [|auto].
  apply List.Forall_app. split; [exact HF|]. repeat constructor. exact Hx.
Qed.

Lemma in_order_app l1 l2 : in_order (l1 ++ l2) -> in_order l2.
Proof. induction l1 as [|x l1 IH]; cbn [app in_order]; [auto|]. intros [_ H]. auto. Qed.

Theorem C88_busiest_minute : forall D cid tr c i since, deps_ok D ->
  exec D cid tr (Some c) -> since_boot tr i since ->
  exists before minute after, since = before ++ minute ++ after /\ one_minutes minute /\
    (kept_entries c <= logins minute)%nat /\
    forall l, kept_pairs D c l -> (length l <= logins minute)%nat.
Proof.
  intros D cid tr c i since HD H Hb. destruct (exec_since D cid tr (Some c) i since HD H Hb) as (c' & st & Ec & Hi & _).
  assert (c' = c) as -> by congruence. destruct (inv_sigs _ _ _ _ _ _ _ Hi) as (ops & Hh & Er).
  assert (in_order since) as Hord.
  { apply exec_in_order in H. destruct (since_boot_sub tr i since Hb) as [l ->]. now apply in_order_app in H. }
  destruct (kept_bound D cid st since ops Hh Hord _ Er) as (_ & before & minute & after & Es & Hm & Hk).
  exists before, minute, after. split; [exact Es|]. split; [exact Hm|]. split; [exact Hk|].
  intros l [Hnd HF]. etransitivity; [|exact Hk].
  destruct (run_map_inv D ops _ Er) as (Hok & Hq & _).
  rewrite <- (map_length (fun e => (se_seed e, se_dele e)) (sm_queue (c_sigs c))).
  apply List.NoDup_incl_length; [exact Hnd|]. intros [s d] Hin. rewrite List.Forall_forall in HF.
  specialize (HF _ Hin). cbn [fst snd] in HF. destruct HF as [w Hw].
  assert (sm_has (c_sigs c) s d) as Hs.
  { unfold sm_witness in Hw. apply (sm_get_has D (c_sigs c) s d Hok).
    destruct (rb_get s (sm_map (c_sigs c))) as [sub|] eqn:E1; [|discriminate]. cbn [mbind option_bind] in Hw.
    destruct (rb_get d sub) as [[]|] eqn:E2; [|discriminate]. eauto. }
  destruct (Hq s d Hs) as (e & He & <- & <-). apply in_map_iff. exists e. auto.
Qed.

(** *** Messages: right after a login no more are kept than were made within the sign-in window. *)

Definition made_within (i : SettingsInput) (now : N) (e : event) : bool :=
  is_prepared e && (now <? ev_time e + sign_in_window i).

Theorem C88_messages : forall D cid tr e c i since x n, deps_ok D ->
  exec D cid (tr ++ [e]) (Some c) -> since_boot tr i since -> login_attempt D e x n ->
  (size (ls_msgs (c_lib c)) <= length (List.filter (made_within i (ev_time e)) since))%nat.
Proof.
  intros D cid tr e c i since x n HD H Hb Ha.
  assert (~ boots e) as Hnb.
  { intros (i' & [Ho|Ho] & _); destruct Ha as (sg & sk & b & sb & Ho' & _); congruence. }
  pose proof (since_boot_snoc tr i since e Hb Hnb) as Hb'.
  destruct (exec_since D cid _ (Some c) i _ HD H Hb') as (c' & st & Ec & Hi & _).
  assert (c' = c) as -> by congruence.
  pose proof (C46_pruned D cid tr e c x n HD H Ha (ex_intro _ i (ex_intro _ since Hb))) as Hlive.
  assert (exists ks, length ks = length (List.filter (made_within i (ev_time e)) since) /\
    forall p x text n b, In p since -> made_within i (ev_time e) p = true -> prepared p x text n -> address_text D x b ->
      In (message_key D b n) ks) as (ks & Hl & Hks).
  { clear -HD. induction since as [|p l IH]; [exists []; split; [reflexivity|intros ? ? ? ? ? []]|].
    destruct IH as (ks & Hl & Hks). cbn [List.filter]. destruct (made_within i (ev_time e) p) eqn:Em.
    - assert (is_prepared p = true) as Hp by (unfold made_within in Em; now apply andb_true_iff in Em as [-> _]).
      apply is_prepared_spec in Hp as (x & text & n & Hp).
      destruct (address_cases D x HD) as [(err & E & Nx)|(b & Ax & E & Eb & Eb')].
      + exists ([] :: ks). cbn [length]. split; [congruence|]. intros p' x' t' n' b' [<-|Hin] Hm Hp' Hx'; [|right; eauto].
        destruct Hp as [Ho Hr], Hp' as [Ho' Hr']. assert (x' = x) as -> by congruence. now apply Nx in Hx'.
      + exists (message_key D b n :: ks). cbn [length]. split; [congruence|]. intros p' x' t' n' b' [<-|Hin] Hm Hp' Hx'; [|right; eauto].
        left. destruct Hp as [Ho Hr], Hp' as [Ho' Hr']. assert (x' = x) as -> by congruence. assert (n' = n) as -> by congruence.
        rewrite (address_text_inj D x b' b HD Hx' Ax). reflexivity.
    - exists ks. split; [exact Hl|]. intros p' x' t' n' b' [<-|Hin] Hm Hp' Hx'; [congruence|eauto]. }
  rewrite <- Hl. unfold size, map_size. rewrite <- (map_length fst (map_to_list (ls_msgs (c_lib c)))).
  apply List.NoDup_incl_length; [apply NoDup_ListNoDup, NoDup_fst_map_to_list|]. intros k Hk.
  apply in_map_iff in Hk as ([k' m] & Hkk & Hm). cbn [fst] in Hkk. subst k'.
  apply elem_of_list_In, elem_of_map_to_list in Hm.
  destruct (inv_from _ _ _ _ _ _ _ Hi k m Hm) as (after & before & p & x' & b' & n' & text & Es & Hp & Hx & -> & Em & _ & Hnt).
  assert (In p since) as Hin.
  { symmetry in Es. assert (In p (since ++ [e])) as G by (rewrite <- Es; apply in_app_iff; right; left; reflexivity).
    apply in_app_iff in G as [G|[<-|[]]]; [exact G|]. destruct Hp as [Ho _], Ha as (sg & sk & b & sb & Ho' & _). congruence. }
  apply (Hks p x' text n' b' Hin); [|exact Hp|exact Hx].
  specialize (Hlive _ _ Hm). unfold made_within. apply andb_true_iff. split; [apply is_prepared_spec; eauto|].
  rewrite Em in Hlive. cbn [the_message m_expiration_time] in Hlive.
  pose proof (init_sign_in _ _ _ _ _ (inv_init _ _ _ _ _ _ _ Hi)) as Hw. unfold sat_add in Hlive. unfold sign_in_window.
  rewrite Hw in Hlive. lia.
Qed.

(** Concrete: three logins within three seconds, and one two minutes later, which removes them. *)
Definition busy_acts : list (N * act) :=
  [(0, Do (Install demo_input)); (1 * sec, Do (RawRand (Some (repeat x07 32))))] ++
  flat_map (fun k : nat => [(N.of_nat (k + 2) * sec, Prepare alice);
                            (N.of_nat (k + 2) * sec, LoginWith (2 * k + 2) alice alice key1)]) (seq 0 3) ++
  [(130 * sec, Prepare bob); (131 * sec, LoginWith 8 bob bob key2)].
Definition busy_script : list (N * op) := Eval vm_compute in stage CD demo_cid busy_acts [] None.
Definition busy_tr : list event := Eval vm_compute in fst (play CD demo_cid busy_script None).
Lemma busy_play : fst (play CD demo_cid busy_script None) = busy_tr.
Proof. vm_compute. reflexivity. Qed.

Definition entries_after (k : nat) : option nat := option_map kept_entries (snd (play CD demo_cid (take k busy_script) None)).

Example C88_case : exec CD demo_cid busy_tr (snd (play CD demo_cid busy_script None)) /\
  since_boot busy_tr demo_input (drop 1 busy_tr) /\ logins busy_tr = 4%nat /\
  entries_after 8 = Some 3%nat /\ entries_after 10 = Some 1%nat /\ length busy_script = 10%nat.
Proof.
  split.
  { apply (play_exec _ _ busy_script); [vm_compute; reflexivity|].
    rewrite <- busy_play. apply surjective_pairing. }
  split.
  { exists [], (hd (demo_at 0) busy_tr). split; [reflexivity|]. split; [split; [left; reflexivity|reflexivity]|].
    repeat (apply List.Forall_cons; [intros (i & [Ho|Ho] & Hr); discriminate|]). constructor. }
  split; [vm_compute; reflexivity|]. split; [vm_compute; reflexivity|]. split; [vm_compute; reflexivity|].
  vm_compute. reflexivity.
Qed.

(** The two messages made before the last login of the demonstration history within the sign-in window. *)
Example C88_messages_case : exists c x n, exec CD demo_cid (take 5 demo_tr ++ [demo_at 5]) (Some c) /\
  since_boot (take 5 demo_tr) demo_input (take 4 (drop 1 demo_tr)) /\ login_attempt CD (demo_at 5) x n /\
  length (List.filter (made_within demo_input (ev_time (demo_at 5))) (take 4 (drop 1 demo_tr))) = 2%nat.
Proof.
  destruct C46_case as (c & x & n & H & Ha & _). exists c, x, n. split; [exact H|]. split; [apply (demo_since 5); lia|].
  split; [exact Ha|]. vm_compute. reflexivity.
Qed.

Print Assumptions C88_busiest_minute.
Print Assumptions C88_messages.
