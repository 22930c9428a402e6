(** When the canister forgets a delegation. *)
From Coq Require Import Strings.String ZifyBool ZifyN ZifyNat.
From Verif Require Import Base BaseLemmas Deps Hex Eth Hash HashTree RbTree SigMap Time3339 Settings Siwe Encode
  Delegation Login Provider SpecEth EthProofs SpecHash DelegationProofs SpecWire WireProofs SpecTree SigMapProofs
  MapRuns SpecSiwe SiweProofs SpecInit SettingsProofs SpecTrace SpecFetch LoginProofs ProviderProofs TraceProofs LoginTheory
  DelegationTheory Sha2 Concrete Scripts Demo PropertiesDelegation PropertiesFetch PropertiesSize.
Local Open Scope N_scope.

(** ** The queue *)

Lemma map_history_app D cid s l1 : forall l2 ops, map_history D cid s (l1 ++ l2) ops ->
  exists ops1 ops2, ops = ops1 ++ ops2 /\ map_history D cid s l1 ops1 /\ map_history D cid s l2 ops2.
Proof.
  induction l2 as [|a l2 IH] using rev_ind; intros ops H.
  - rewrite app_nil_r in H. exists ops, []. rewrite app_nil_r. split; [reflexivity|]. split; [exact H|constructor].
  - rewrite app_assoc in H. inversion H as [E|since ops' e' o Hh He E1 E2]; [destruct (l1 ++ l2); discriminate|].
    apply app_inj_tail in E1 as [-> ->]. destruct (IH _ Hh) as (o1 & o2 & -> & H1 & H2).
    exists o1, (o2 ++ o). rewrite <- app_assoc. split; [reflexivity|]. split; [exact H1|]. now constructor.
Qed.

Lemma map_history_cons D cid s e l ops : map_history D cid s (e :: l) ops ->
  exists o ops', ops = o ++ ops' /\ event_ops D cid s e o /\ map_history D cid s l ops'.
Proof.
  intros H. change (e :: l) with ([e] ++ l) in H. destruct (map_history_app D cid s [e] l ops H) as (o & ops' & -> & H1 & H2).
  exists o, ops'. split; [reflexivity|]. split; [|exact H2].
  inversion H1 as [E|since o0 e' o' Hh He E1 E2]. change [e] with ([] ++ [e]) in E1. apply app_inj_tail in E1 as [-> ->].
  inversion Hh as [E|? ? ? ? ? ? E]; [exact He|]. destruct since; discriminate.
Qed.

(** An entry stays in the queue as long as nothing is pruned at its time or later. *)
Lemma entry_stays D e : forall ops m m', sm_ok D m -> run_map D ops m = Done m' -> In e (sm_queue m) ->
  (forall t k, In (MPrune t k) ops -> t < se_at e) -> In e (sm_queue m').
Proof.
  induction ops as [|op ops IH]; intros m m' Hok E He Hp; cbn [run_map] in E; [now assert (m = m') as <- by congruence|].
  destruct (map_step_ok D op m Hok) as (m1 & n & E1 & Hok1 & _). rewrite E1 in E. cbn [obind fst] in E.
  apply (IH m1 m' Hok1 E); [|intros t k H; apply (Hp t k); now right].
  destruct op as [now s d|s d|now max]; cbn [map_step] in E1.
  - destruct (sm_put_ok D now s d m Hok) as (m2 & E2 & _ & _ & G). rewrite E2 in E1. cbn [obind] in E1.
    assert (m2 = m1) as -> by congruence. rewrite G. now right.
  - destruct (sm_delete_ok D s d m Hok) as (m2 & E2 & _ & _ & G). rewrite E2 in E1. cbn [obind] in E1.
    assert (m2 = m1) as -> by congruence. now rewrite G.
  - destruct (sm_prune_ok D now max m Hok) as (m2 & removed & E2 & _ & G & _ & G4 & _). rewrite E2 in E1.
    assert (m2 = m1) as -> by congruence. rewrite G in He. apply in_app_iff in He as [He|He]; [|exact He].
    rewrite List.Forall_forall in G4. specialize (G4 e He). specialize (Hp now max (or_introl eq_refl)). lia.
Qed.

Definition due (T : N) (m : SignatureMap) : nat := expired_count T (sm_queue m).

Lemma count_app T l1 l2 : expired_count T (l1 ++ l2) = (expired_count T l1 + expired_count T l2)%nat.
Proof. unfold expired_count. now rewrite List.filter_app, app_length. Qed.
Lemma count_perm T l1 l2 : l1 ≡ₚ l2 -> expired_count T l1 = expired_count T l2.
Proof. intros H. unfold expired_count. apply Permutation_length, SigMapProofs.filter_perm, H. Qed.
Lemma count_all T l : Forall (fun e => se_at e <= T) l -> expired_count T l = length l.
Proof.
  unfold expired_count. induction 1 as [|e l H _ IH]; [reflexivity|]. cbn [List.filter].
  destruct (N.leb_spec (se_at e) T); [cbn [length]; now rewrite IH|lia].
Qed.
Lemma count_le T l : (expired_count T l <= length l)%nat.
Proof. unfold expired_count. induction l as [|x l IH]; cbn [List.filter length]; [lia|]. destruct (_ <=? _); cbn [length]; lia. Qed.
Lemma count_mono T T' l : T <= T' -> (expired_count T l <= expired_count T' l)%nat.
Proof.
  intros H. unfold expired_count. induction l as [|x l IH]; cbn [List.filter]; [lia|].
  destruct (N.leb_spec (se_at x) T), (N.leb_spec (se_at x) T'); cbn [length]; lia.
Qed.

Lemma due_prune D T now m m' n : sm_ok D m -> sm_prune_expired D now 10 m = Done (m', n) ->
  (due T m' <= due T m)%nat /\ (T <= now -> (due T m' <= due T m - 10)%nat).
Proof.
  intros Hok E. destruct (sm_prune_ok D now 10 m Hok) as (m1 & removed & E1 & _ & G2 & G3 & G4 & G5 & _).
  assert (m1 = m') as -> by congruence. clear E E1. unfold due. rewrite (count_perm T _ _ G2), count_app.
  split; [lia|]. intros HT.
  destruct (expired_count T (sm_queue m')) as [|q] eqn:Eq; [lia|].
  assert (exists e', In e' (sm_queue m') /\ se_at e' <= T) as (e' & He' & Hle).
  { unfold expired_count in Eq. destruct (List.filter (fun e => se_at e <=? T) (sm_queue m')) as [|e' r] eqn:Ef; [discriminate|].
    exists e'. assert (In e' (List.filter (fun e => se_at e <=? T) (sm_queue m'))) as I by (rewrite Ef; now left).
    apply List.filter_In in I as [I1 I2]. split; [exact I1|]. lia. }
  assert (expired_count T removed = length removed) as Er.
  { apply count_all. revert G5. apply List.Forall_impl. intros e He. rewrite List.Forall_forall in He. specialize (He e' He'). lia. }
  rewrite (count_perm now _ _ G2), count_app, (count_all now removed G4) in G3.
  assert (S q <= expired_count now (sm_queue m'))%nat as Hq by (rewrite <- Eq; now apply count_mono).
  lia.
Qed.

Lemma due_put D T now s d m m' : sm_ok D m -> sm_put D now s d m = Done m' -> T < u64_max ->
  due T m' = (due T m + (if (now + one_minute <=? T)%N then 1 else 0))%nat.
Proof.
  intros Hok E HT. destruct (sm_put_ok D now s d m Hok) as (m1 & E1 & _ & _ & G). assert (m1 = m') as -> by congruence.
  unfold due. rewrite (count_perm T _ _ G). unfold expired_count. cbn [List.filter se_at]. unfold sat_add.
  change DELEGATION_SIGNATURE_EXPIRES_AT with one_minute.
  destruct (N.leb_spec (N.min (now + one_minute) u64_max) T), (N.leb_spec (now + one_minute) T); cbn [length]; lia.
Qed.

Lemma logins_until_app t l1 l2 : logins_until t (l1 ++ l2) = (logins_until t l1 + logins_until t l2)%nat.
Proof. unfold logins_until. now rewrite List.filter_app, app_length. Qed.
Lemma logins_until_one t e : login_succeeds e -> logins_until t [e] = if ev_time e <=? t then 1%nat else 0%nat.
Proof. intros (? & ? & ? & ? & ? & ? & Ho & Hr). unfold logins_until. cbn [List.filter]. rewrite Ho, Hr. now destruct (_ <=? _). Qed.
Lemma logins_until_cons t e l : logins_until t (e :: l) = (logins_until t [e] + logins_until t l)%nat.
Proof. apply (logins_until_app t [e] l). Qed.

(** Running the operations of one event. *)
Lemma due_event D cid s e o T m m' : event_ops D cid s e o -> sm_ok D m -> run_map D o m = Done m' -> T < u64_max ->
  one_minute <= T ->
  (due T m' <= due T m + logins_until (T - one_minute) [e])%nat /\
  (login_succeeds e -> T <= ev_time e -> (due T m' <= due T m - 10)%nat).
Proof.
  intros Ho Hok E HT H1. inversion Ho as [sg x sk n exp pk dh Hl _ _ _ _|Hr|Hn]; subst o.
  - assert (login_succeeds e) as Hs by (red; eauto 10). cbn [run_map map_step] in E.
    destruct (sm_prune_expired D (ev_time e) 10 m) as [[m1 k]|] eqn:E1; [|discriminate]. cbn [obind fst] in E.
    destruct (sm_put D (ev_time e) _ dh m1) as [m2|] eqn:E2; [|discriminate]. cbn [obind fst] in E.
    assert (m2 = m') as -> by congruence.
    assert (sm_ok D m1) as Hok1.
    { destruct (map_step_ok D (MPrune (ev_time e) 10) m Hok) as (m1' & k' & E1' & Hok1' & _). cbn [map_step] in E1'.
      assert (m1' = m1) as <- by congruence. exact Hok1'. }
    destruct (due_prune D T _ m m1 k Hok E1) as [P1 P2]. rewrite (due_put D T _ _ _ m1 m' Hok1 E2 HT), (logins_until_one _ e Hs).
    split.
    + destruct (N.leb_spec (ev_time e + one_minute) T), (N.leb_spec (ev_time e) (T - one_minute)); lia.
    + intros _ Hle. specialize (P2 Hle). destruct (N.leb_spec (ev_time e + one_minute) T); [unfold one_minute in *; lia|lia].
  - cbn [run_map map_step] in E. destruct (sm_prune_expired D (ev_time e) 10 m) as [[m1 k]|] eqn:E1; [|discriminate].
    cbn [obind fst] in E. assert (m1 = m') as -> by congruence. destruct (due_prune D T _ m m' k Hok E1) as [P1 P2]. split; [lia|auto].
  - cbn [run_map] in E. assert (m = m') as -> by congruence. split; [lia|]. intros Hs. contradiction.
Qed.

Lemma due_grow D cid s T : T < u64_max -> one_minute <= T -> forall l ops m m', map_history D cid s l ops -> sm_ok D m ->
  run_map D ops m = Done m' -> (due T m' <= due T m + logins_until (T - one_minute) l)%nat.
Proof.
  intros HT H1. induction l as [|e l IH]; intros ops m m' Hh Hok E.
  - inversion Hh as [E0|since ? ? ? ? ? E0]; [subst ops|destruct since; discriminate].
    cbn [run_map] in E. assert (m = m') as -> by congruence. lia.
  - destruct (map_history_cons D cid s e l ops Hh) as (o & ops' & -> & Ho & Hl). rewrite run_map_app in E.
    destruct (run_map_ok D o m Hok) as (m1 & E1 & Hok1). rewrite E1 in E. cbn [obind] in E.
    destruct (due_event D cid s e o T m m1 Ho Hok E1 HT H1) as [P _]. pose proof (IH ops' m1 m' Hl Hok1 E).
    rewrite logins_until_cons. lia.
Qed.

Lemma due_shrink D cid s T : T < u64_max -> one_minute <= T -> forall l late ops m m', map_history D cid s l ops -> sm_ok D m ->
  run_map D ops m = Done m' -> Forall (fun e => T <= ev_time e) l -> late `sublist_of` l -> Forall login_succeeds late ->
  (due T m' <= due T m - 10 * length late)%nat.
Proof.
  intros HT H1. induction l as [|e l IH]; intros late ops m m' Hh Hok E Ht Hsub Hlate.
  - inversion Hh as [E0|since ? ? ? ? ? E0]; [subst ops|destruct since; discriminate].
    cbn [run_map] in E. assert (m = m') as -> by congruence. apply sublist_nil_r in Hsub as ->. cbn [length]. lia.
  - destruct (map_history_cons D cid s e l ops Hh) as (o & ops' & -> & Ho & Hl). rewrite run_map_app in E.
    destruct (run_map_ok D o m Hok) as (m1 & E1 & Hok1). rewrite E1 in E. cbn [obind] in E.
    destruct (due_event D cid s e o T m m1 Ho Hok E1 HT H1) as [P1 P2]. apply List.Forall_cons_iff in Ht as [He Ht].
    assert (logins_until (T - one_minute) [e] = 0%nat) as H0.
    { unfold logins_until. cbn [List.filter]. destruct (N.leb_spec (ev_time e) (T - one_minute)); [unfold one_minute in *; lia|].
      destruct (ev_op e); try reflexivity. destruct (ev_reply e) as [| | |[|]| | |]; reflexivity. }
    apply sublist_cons_r in Hsub as [Hsub|(late' & -> & Hsub)].
    + pose proof (IH late ops' m1 m' Hl Hok1 E Ht Hsub Hlate). lia.
    + apply List.Forall_cons_iff in Hlate as [Hs Hlate]. specialize (P2 Hs He).
      pose proof (IH late' ops' m1 m' Hl Hok1 E Ht Hsub Hlate). cbn [length]. lia.
Qed.

(** ** C104  When a delegation is forgotten *)

Theorem C104_forgotten : forall D cid tr s i before l after now cert sg x sk n exp pk, deps_ok D -> exec D cid tr s ->
  since_boot tr i (before ++ l :: after) -> Forall (fun e => ev_time e <= now) tr -> now < u64_max ->
  logged_in l sg x sk n exp pk -> (forall l', ~ session_login (before ++ after) x sk exp l') ->
  exists r, step D cid now (GetDelegation (Some cert) x sk exp) s = (s, RDelegation r) /\
    (((Forall (fun e => cleans D e -> ev_time e < ev_time l + one_minute) after ->
       (now <= ev_time l + one_minute -> granted i sk exp r) /\
       (ev_time l + one_minute < now -> r = Err (bs "Signature expired"))) /\
      (forall late, late `sublist_of` after -> Forall (fun e => login_succeeds e /\ ev_time l + one_minute <= ev_time e) late ->
       (logins_until (ev_time l) (before ++ l :: after) <= 10 * length late)%nat -> r = Err (bs "Signature not found"))) \/
     session_clash D i (before ++ l :: after) x sk exp).
Proof.
  intros D cid tr s i before l after now cert sg x sk n exp pk HD H Hb Hnow Hmax Hl Honly.
  destruct (exec_since D cid tr s i _ HD H Hb) as (c & st & -> & Hi & Hc).
  pose proof (inv_settings _ _ _ _ _ _ _ Hi) as Hst. pose proof (inv_init _ _ _ _ _ _ _ Hi) as Hin.
  destruct (inv_sigs _ _ _ _ _ _ _ Hi) as (ops & Hh & Hrun).
  (* the login *)
  destruct Hb as (bf & bb & Et & Hbb & HF).
  assert (exists s1, exec D cid ((bf ++ bb :: before) ++ [l]) s1) as [s1 Hlog].
  { rewrite Et in H. replace (bf ++ bb :: before ++ l :: after) with ((bf ++ bb :: before) ++ l :: after) in H
      by (now rewrite <- app_assoc). eapply exec_at, H. }
  destruct (login_explained D cid _ l s1 sg x sk n exp pk HD Hlog Hl)
    as (i' & st' & fl & since' & bef & p & aft & x' & b & b' & n' & text & Hs & Hin' & _ & _ & Ha & _ & _ & _ & _ & _ & Hkey & _ & Eexp & _).
  assert (exp <> 0) as Hne.
  { rewrite Eexp. pose proof (acc_session _ _ (init_acceptable _ _ _ _ _ Hin')) as Hses.
    rewrite (init_session _ _ _ _ _ Hin') in Hses. fold (session_window i') in Hses. unfold sat_add, u64_max. lia. }
  (* its operations *)
  destruct (map_history_app D cid st before (l :: after) ops Hh) as (ops1 & ops' & -> & Hh1 & Hh').
  destruct (map_history_cons D cid st l after ops' Hh') as (o & ops2 & -> & Hev & Hh2).
  inversion Hev as [sg1 x1 sk1 n1 exp1 pk1 dh Hl1 Epk Hbx Hexp Edh|Hrej|Hno]; subst o.
  2:{ destruct Hrej as (? & ? & ? & ? & ? & _ & _ & Hr). destruct Hl. congruence. }
  2:{ contradiction Hno. red. eauto 10. }
  assert (x1 = x /\ sk1 = sk /\ exp1 = exp) as (-> & -> & ->).
  { destruct Hl as [Lo Lr], Hl1 as [Lo1 Lr1]. rewrite Lo in Lo1. rewrite Lr in Lr1. split; [congruence|]. split; congruence. }
  destruct (fetch_shape D cid c i st _ now cert x sk exp HD Hin Hst Hexp) as (r & Er & Hr).
  exists r. cbn [step]. rewrite Er. split; [reflexivity|].
  destruct Hr as [(e & Nx & _)|(b1 & _ & [(e & Ek & _)|[(_ & Ez & _)|(_ & _ & dh' & Edh' & Hw)]])];
    [now apply Nx in Ha|congruence|contradiction|].
  assert (dh' = dh) as -> by congruence. clear Edh'.
  rewrite (seed_of_user D cid i st _ x Hin) in *.
  set (k := d_sha256 D (user_seed D i x)) in *.
  set (o := [MPrune (ev_time l) 10; MPut (ev_time l) k dh]) in *.
  assert (forall bf' af' ops0 t, map_history D cid st (bf' ++ af') ops0 -> (forall e, In e (bf' ++ af') -> In e (before ++ after)) ->
    In (MPut t k dh) ops0 -> session_clash D i (before ++ l :: after) x sk exp) as Hclash.
  { intros bf' af' ops0 t H0 Hsub Hp.
    destruct (put_origin D cid i st _ _ ops0 t x b sk exp dh HD Hin H0 Ha Hexp Edh Hp)
      as (be & l' & af & sg' & x'' & sk' & n'' & exp' & pk' & Es & Hl' & Ht & Hx & Hk).
    assert (In l' (before ++ after)) as Il by (apply Hsub; rewrite Es; apply in_app_iff; right; left; reflexivity).
    exists l', sg', x'', sk', n'', exp', pk', (s_targets st).
    split; [apply in_app_iff in Il as [Il|Il]; apply in_app_iff; [now left|right; now right]|].
    split; [exact Hl'|]. split; [eapply targets_installed, Hin|]. do 2 (split; [assumption|]). intros (-> & -> & ->).
    apply (Honly l'). split; [exact Il|eauto]. }
  assert (forall ops0, (exists t, In (MPut t k dh) ops0) \/ forall t, ~ In (MPut t k dh) ops0) as Hdec.
  { clear. induction ops0 as [|op ops0 IH]; [right; auto|]. destruct IH as [[t' IH]|IH]; [left; exists t'; now right|].
    destruct op as [t a d|a d|t m].
    - destruct (decide (a = k)) as [->|Na]; [destruct (decide (d = dh)) as [->|Nd]|].
      + left. exists t. now left.
      + right. intros t' [E|E]; [congruence|now apply (IH t')].
      + right. intros t' [E|E]; [congruence|now apply (IH t')].
    - right. intros t' [E|E]; [congruence|now apply (IH t')].
    - right. intros t' [E|E]; [congruence|now apply (IH t')]. }
  destruct (Hdec ops1) as [[t1 Hp1]|Hnew1].
  { right. apply (Hclash before [] ops1 t1); [now rewrite app_nil_r|rewrite app_nil_r; intros e He; apply in_app_iff; now left|exact Hp1]. }
  destruct (Hdec ops2) as [[t2 Hp2]|Hnew2].
  { right. apply (Hclash [] after ops2 t2); [exact Hh2|intros e He; apply in_app_iff; now right|exact Hp2]. }
  left.
  (* the maps before and after the login *)
  rewrite run_map_app in Hrun. destruct (run_map_ok D ops1 sm_empty (sm_ok_empty D)) as (m1 & E1 & Hok1).
  rewrite E1 in Hrun. cbn [obind] in Hrun. rewrite run_map_app in Hrun.
  destruct (run_map_ok D o m1 Hok1) as (m2 & E2 & Hok2). rewrite E2 in Hrun. cbn [obind] in Hrun.
  assert (run_map D (ops1 ++ o) sm_empty = Done m2) as E12 by (rewrite run_map_app, E1; exact E2).
  set (T := sat_add (ev_time l) DELEGATION_SIGNATURE_EXPIRES_AT).
  assert (T = N.min (ev_time l + one_minute) u64_max) as ET by reflexivity.
  assert (forall e, In e after -> ev_time l <= ev_time e) as Hafter.
  { intros e Ie. apply in_split in Ie as (a1 & a2 & ->). rewrite Et in H.
    replace (bf ++ bb :: before ++ l :: a1 ++ e :: a2) with ((bf ++ bb :: before) ++ l :: a1 ++ e :: a2) in H
      by (now rewrite <- app_assoc). eapply exec_mono, H. }
  destruct (run_map_inv D (ops1 ++ o) m2 E12) as (_ & _ & Hf2).
  assert (In (mkExp k dh T) (sm_queue m2) /\ sm_has m2 k dh) as [He2 Hh2'].
  { unfold o in E2. cbn [run_map map_step] in E2.
    destruct (sm_prune_ok D (ev_time l) 10 m1 Hok1) as (m1' & rem & Ep & Hok1' & _). rewrite Ep in E2. cbn [obind fst] in E2.
    destruct (sm_put_ok D (ev_time l) k dh m1' Hok1') as (m2' & Eput & _ & Hhas & G). rewrite Eput in E2. cbn [obind fst] in E2.
    assert (m2' = m2) as -> by congruence. split; [rewrite G; now left|apply Hhas; auto]. }
  assert (run_map D (ops1 ++ o ++ ops2) sm_empty = Done (c_sigs c)) as Eall.
  { rewrite run_map_app, E1. cbn [obind]. rewrite run_map_app, E2. exact Hrun. }
  destruct (run_map_inv D _ _ Eall) as (Hok & Hq & Hf).
  assert (forall e, In e (sm_queue (c_sigs c)) -> se_seed e = k -> se_dele e = dh -> se_at e = T) as Honly'.
  { intros e He Es Ed. destruct (Hf e He) as (t & Ht & Ea). rewrite Es, Ed in Ht.
    apply in_app_iff in Ht as [Ht|Ht]; [now apply Hnew1 in Ht|]. apply in_app_iff in Ht as [Ht|Ht]; [|now apply Hnew2 in Ht].
    destruct Ht as [Ht|[Ht|[]]]; [discriminate|]. assert (t = ev_time l) as -> by congruence. exact Ea. }
  split.
  - (* nothing has been cleaned up since *)
    intros Hquiet.
    assert (forall t j, In (MPrune t j) ops2 -> t < T) as Hprunes.
    { intros t j Hp. destruct (N.lt_ge_cases t T) as [L|G]; [exact L|exfalso].
      assert (forall l0 ops0, map_history D cid st l0 ops0 -> In (MPrune t j) ops0 -> exists e, In e l0 /\ ev_time e = t /\ cleans D e) as Hfrom.
      { clear. induction 1 as [|since ops0 e o' Hh IH Ho]; [intros []|]. intros Hp. apply in_app_iff in Hp as [Hp|Hp].
        - destruct (IH Hp) as (e' & Ie & R). exists e'. split; [apply in_app_iff; now left|exact R].
        - exists e. split; [apply in_app_iff; right; now left|]. inversion Ho as [? ? ? ? ? ? ? Hl _ _ _ _|Hr|Hn]; subst o'.
          + destruct Hp as [Hp|[Hp|[]]]; [|discriminate]. split; [congruence|]. left. red. eauto 10.
          + destruct Hp as [Hp|[]]. split; [congruence|]. now right.
          + destruct Hp. }
      destruct (Hfrom after ops2 Hh2 Hp) as (e & Ie & <- & Hcl). rewrite List.Forall_forall in Hquiet. specialize (Hquiet e Ie Hcl).
      rewrite List.Forall_forall in Hnow. assert (In e tr) as Itr.
      { rewrite Et. apply in_app_iff. right. right. apply in_app_iff. right. now right. }
      specialize (Hnow e Itr). lia. }
    assert (In (mkExp k dh T) (sm_queue (c_sigs c))) as Hent.
    { eapply (entry_stays D (mkExp k dh T) ops2 m2); eauto. }
    assert (exists e, List.find (fun e => bytes_eqb (se_seed e) k && bytes_eqb (se_dele e) dh) (sm_queue (c_sigs c)) = Some e /\ se_at e = T)
      as (e & Ef & Eat).
    { destruct (List.find _ (sm_queue (c_sigs c))) as [e|] eqn:Ef.
      - exists e. split; [reflexivity|]. apply List.find_some in Ef as [Ie Hm]. apply andb_true_iff in Hm as [M1 M2].
        apply bytes_eqb_spec in M1, M2. now apply Honly'.
      - apply (List.find_none _ _ Ef) in Hent. cbn [se_seed se_dele] in Hent. rewrite !bytes_eqb_refl in Hent. discriminate. }
    split; intros Hcmp.
    + assert (MapRuns.fresh T k dh m2) as Hfresh.
      { split; [exact Hh2'|]. intros e' He' Es Ed. destruct (Hf2 e' He') as (t & Ht & Ea). rewrite Es, Ed in Ht.
        apply in_app_iff in Ht as [Ht|Ht]; [now apply Hnew1 in Ht|]. destruct Ht as [Ht|[Ht|[]]]; [discriminate|].
        assert (t = ev_time l) as -> by congruence. rewrite Ea. unfold T. lia. }
      assert (sm_has (c_sigs c) k dh) as Hhas.
      { clear - Hfresh Hok2 Hrun Hprunes Hnew2 Hh2. 
        assert (forall a d, ~ In (MDelete a d) ops2) as Hdel.
        { clear - Hh2. induction Hh2 as [|since ops0 e o' Hh IH Ho]; [intros ? ? []|]. intros a d Hp.
          apply in_app_iff in Hp as [Hp|Hp]; [now apply IH in Hp|]. inversion Ho; subst o'; cbn [In] in Hp; intuition discriminate. }
        clear Hh2. revert m2 Hok2 Hfresh Hrun. induction ops2 as [|op ops2 IH]; intros m2 Hok2 Hfresh Hrun; cbn [run_map] in Hrun.
        - assert (m2 = c_sigs c) as -> by congruence. apply Hfresh.
        - destruct (map_step_ok D op m2 Hok2) as (m3 & n3 & E3 & Hok3 & _). rewrite E3 in Hrun. cbn [obind fst] in Hrun.
          apply (IH ltac:(intros t Hp; apply (Hnew2 t); now right) ltac:(intros t j Hp; apply (Hprunes t j); now right)
                    ltac:(intros a d Hp; apply (Hdel a d); now right) m3 Hok3); [|exact Hrun].
          destruct op as [t a d|a d|t j].
          + split.
            * cbn [map_step] in E3. destruct (sm_put_ok D t a d m2 Hok2) as (m3' & Eput & _ & Hhas & G). rewrite Eput in E3.
              cbn [obind] in E3. assert (m3' = m3) as -> by congruence. apply Hhas. right. apply Hfresh.
            * intros e He Es Ed. apply (step_queue D _ m2 m3 n3 Hok2 E3) in He as [He|(t' & s' & d' & Eop & ->)]; [now apply Hfresh|].
              cbn [se_seed se_dele] in Es, Ed. subst s' d'. exfalso. apply (Hnew2 t'). left. exact Eop.
          + exfalso. apply (Hdel a d). now left.
          + apply (fresh_step D _ m2 m3 n3 T k dh Hok2 E3); [discriminate| |discriminate|exact Hfresh].
            intros t' Et'. cbn [op_time] in Et'. assert (t' = t) as -> by congruence. apply (Hprunes t j). now left. }
      destruct (witness_has D now (c_sigs c) (user_seed D i x) dh Hok Hhas) as [w Ew]; [|now rewrite Ew in Hw].
      unfold sm_is_expired. fold k. rewrite Ef, Eat. lia.
    + assert (sm_is_expired now k dh (c_sigs c) = true) as Hx by (unfold sm_is_expired; rewrite Ef, Eat; lia).
      unfold witness, hash_bytes in Hw. fold k in Hw. rewrite Hx in Hw. exact Hw.
  - (* cleaned up *)
    intros late Hsub Hlate Hcount. destruct late as [|e late].
    { exfalso. cbn [length] in Hcount. rewrite logins_until_app, logins_until_cons, (logins_until_one _ l) in Hcount by (red; eauto 10).
      rewrite N.leb_refl in Hcount. lia. }
    pose proof Hlate as Hlate'. apply List.Forall_cons_iff in Hlate' as [[He Hle] _].
    assert (Forall login_succeeds (e :: late)) as Hls by (revert Hlate; apply List.Forall_impl; tauto).
    pose proof Hsub as Hsub'. apply sublist_cons_l in Hsub' as (a1 & a2 & Ea & Hsub2).
    assert (ev_time l + one_minute < u64_max) as Hsmall.
    { rewrite List.Forall_forall in Hnow. assert (In e tr) as Itr.
      { rewrite Et. apply in_app_iff. right. right. apply in_app_iff. right. right. rewrite Ea. apply in_app_iff. right. now left. }
      specialize (Hnow e Itr). lia. }
    assert (T = ev_time l + one_minute) as ET' by lia.
    assert (due T (c_sigs c) = 0%nat) as Hdue.
    { rewrite Ea in Hh2. destruct (map_history_app D cid st a1 (e :: a2) ops2 Hh2) as (o1 & o2 & -> & Ho1 & Ho2).
      rewrite run_map_app in Hrun. destruct (run_map_ok D o1 m2 Hok2) as (m3 & E3 & Hok3). rewrite E3 in Hrun. cbn [obind] in Hrun.
      assert (map_history D cid st (before ++ l :: a1) (ops1 ++ o ++ o1)) as Hh3.
      { clear - Hh1 Hev Ho1. assert (forall l1 l2 p1 p2, map_history D cid st l1 p1 -> map_history D cid st l2 p2 ->
          map_history D cid st (l1 ++ l2) (p1 ++ p2)) as Happ.
        { intros l1 l2 p1 p2 H1 H2. induction H2 as [|since ops0 e0 o' Hh IH Ho]; [now rewrite !app_nil_r|].
          rewrite !app_assoc. now constructor. }
        apply Happ; [exact Hh1|]. change (l :: a1) with ([l] ++ a1). apply Happ; [|exact Ho1].
        change [l] with ([] ++ [l]). rewrite <- (app_nil_l o). constructor; [constructor|exact Hev]. }
      assert (run_map D (ops1 ++ o ++ o1) sm_empty = Done m3) as E30.
      { rewrite app_assoc, run_map_app, E12. exact E3. }
      assert (one_minute <= T) as H1m by lia. assert (T < u64_max) as HTm by lia.
      pose proof (due_grow D cid st T HTm H1m _ _ _ _ Hh3 (sm_ok_empty D) E30) as G1.
      assert (Forall (fun e' => T <= ev_time e') (e :: a2)) as Hts.
      { constructor; [lia|]. apply List.Forall_forall. intros e' Ie. rewrite ET'. apply (N.le_trans _ _ _ Hle).
        apply in_split in Ie as (u1 & u2 & Eu). rewrite Et, Ea, Eu in H.
        replace (bf ++ bb :: before ++ l :: a1 ++ e :: u1 ++ e' :: u2) with ((bf ++ bb :: before ++ l :: a1) ++ e :: u1 ++ e' :: u2) in H
          by (rewrite <- !app_assoc; cbn [app]; now rewrite <- app_assoc). eapply exec_mono, H. }
      assert (e :: late `sublist_of` e :: a2) as Hsub3 by (now apply sublist_skip).
      pose proof (due_shrink D cid st T HTm H1m _ _ _ _ _ Ho2 Hok3 Hrun Hts Hsub3 Hls) as G2.
      replace (T - one_minute) with (ev_time l) in G1 by lia.
      change (due T sm_empty) with 0%nat in G1. rewrite Ea in Hcount.
      assert (logins_until (ev_time l) (before ++ l :: a1) <= logins_until (ev_time l) (before ++ l :: a1 ++ e :: a2))%nat as G3.
      { replace (before ++ l :: a1 ++ e :: a2) with ((before ++ l :: a1) ++ e :: a2) by (rewrite <- app_assoc; reflexivity).
        rewrite (logins_until_app _ (before ++ l :: a1)). lia. }
      lia. }
    assert (forall e', In e' (sm_queue (c_sigs c)) -> ~ (se_seed e' = k /\ se_dele e' = dh)) as Hnone.
    { intros e' He' [Es Ed]. pose proof (Honly' e' He' Es Ed) as Ea'. unfold due, expired_count in Hdue.
      assert (In e' (List.filter (fun e => se_at e <=? T) (sm_queue (c_sigs c)))) as I by (apply List.filter_In; split; [exact He'|lia]).
      destruct (List.filter _ (sm_queue (c_sigs c))); [destruct I|discriminate]. }
    assert (~ sm_has (c_sigs c) k dh) as Hnh.
    { intros Hh0. destruct (Hq _ _ Hh0) as (e' & He' & Es & Ed). now apply (Hnone e'). }
    assert (sm_is_expired now k dh (c_sigs c) = false) as Hx.
    { unfold sm_is_expired. destruct (List.find _ _) as [e'|] eqn:Ef; [|reflexivity].
      apply List.find_some in Ef as [Ie Hm]. apply andb_true_iff in Hm as [M1 M2]. apply bytes_eqb_spec in M1, M2.
      exfalso. now apply (Hnone e' Ie). }
    unfold witness, hash_bytes in Hw. fold k in Hw. rewrite Hx, (sm_witness_none D k dh (c_sigs c) Hok Hnh) in Hw. exact Hw.
Qed.

(** Concrete: a minute after the login of Alice at 2 s, a nanosecond later, and after the login of
    Bob at 131 s, which alone makes room for ten. *)
Definition busy_at (k : nat) : event := nth k busy_tr (demo_at 0).
Definition busy_asks (k : nat) (now : N) : reply :=
  asks_at now alice key1 (1802 * sec) (snd (play CD demo_cid (take k busy_script) None)).
Example C104_case :
  exec CD demo_cid busy_tr (snd (play CD demo_cid busy_script None)) /\
  since_boot busy_tr demo_input (take 2 (drop 1 busy_tr) ++ busy_at 3 :: drop 4 busy_tr) /\
  ev_time (busy_at 3) = 2 * sec /\
  (exists sg n pk, logged_in (busy_at 3) sg (wallet_address CD alice) key1 n (1802 * sec) pk) /\
  (forall l, ~ session_login (take 2 (drop 1 busy_tr) ++ drop 4 busy_tr) (wallet_address CD alice) key1 (1802 * sec) l) /\
  ev_time (busy_at 9) = 131 * sec /\ login_succeeds (busy_at 9) /\ [busy_at 9] `sublist_of` drop 4 busy_tr /\
  logins_until (2 * sec) (drop 1 busy_tr) = 1%nat /\
  (exists d, busy_asks 8 (62 * sec) = RDelegation (Ok d)) /\
  busy_asks 8 (62 * sec + 1) = RDelegation (Err (bs "Signature expired")) /\
  busy_asks 9 (131 * sec) = RDelegation (Err (bs "Signature expired")) /\
  busy_asks 10 (131 * sec) = RDelegation (Err (bs "Signature not found")).
Proof.
  destruct C88_case as (H1 & H2 & _). split; [exact H1|]. split; [exact H2|]. split; [vm_compute; reflexivity|].
  split; [do 3 eexists; split; vm_compute; reflexivity|]. split.
  { intros l [Hin (sg & n & pk & Ho & Hr)]. repeat (destruct Hin as [<-|Hin]; [vm_compute in Ho, Hr; congruence|]). destruct Hin. }
  split; [vm_compute; reflexivity|]. split; [do 6 eexists; split; vm_compute; reflexivity|].
  split; [repeat constructor|]. split; [vm_compute; reflexivity|]. split; [eexists; vm_compute; reflexivity|].
  split; [vm_compute; reflexivity|]. split; vm_compute; reflexivity.
Qed.

Print Assumptions C104_forgotten.
