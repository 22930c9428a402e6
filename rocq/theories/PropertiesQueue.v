(** Exactly which delegations the canister still has. *)
From Coq Require Import Strings.String ZifyBool ZifyN ZifyNat Sorting.Sorted.
From Verif Require Import Base BaseLemmas Deps Hex Eth Hash HashTree RbTree SigMap Time3339 Settings Siwe Encode
  Delegation Login Provider SpecEth EthProofs SpecHash DelegationProofs SpecWire WireProofs SpecTree SigMapProofs
  MapRuns SpecSiwe SiweProofs SpecInit SettingsProofs SpecTrace SpecFetch LoginProofs ProviderProofs TraceProofs LoginTheory
  DelegationTheory Sha2 Concrete Scripts Demo PropertiesDelegation PropertiesFetch PropertiesSize PropertiesForget SpecQueue.
Local Open Scope N_scope.

(** ** Lists *)

(** The smaller part of a sorted list is its beginning. *)
Lemma smaller_part : forall n (l r s : list N), length r = n -> StronglySorted N.le l -> r ++ s ≡ₚ l ->
  Forall (fun a => Forall (fun b => a <= b) s) r -> s ≡ₚ drop n l.
Proof.
  induction n as [|n IH]; intros l r s Hn Hs Hp Hf.
  - destruct r; [|discriminate]. rewrite drop_0. exact Hp.
  - destruct l as [|a l]; [apply Permutation_nil_r in Hp; destruct r; discriminate|].
    apply StronglySorted_inv in Hs as [Hs Ha].
    assert (In a r) as Ir.
    { assert (In a (r ++ s)) as I by (apply (Permutation_in a (Permutation_sym Hp)); now left).
      apply in_app_iff in I as [I|I]; [exact I|]. destruct r as [|b r]; [discriminate|].
      apply List.Forall_cons_iff in Hf as [Hb _]. rewrite List.Forall_forall in Hb. specialize (Hb a I).
      assert (In b (a :: l)) as Ib by (apply (Permutation_in b Hp); now left).
      destruct Ib as [->|Ib]; [now left|]. rewrite List.Forall_forall in Ha. specialize (Ha b Ib).
      assert (a = b) as -> by lia. now left. }
    apply in_split in Ir as (r1 & r2 & ->). change (drop (S n) (a :: l)) with (drop n l). apply (IH l (r1 ++ r2) s).
    + rewrite app_length in *. cbn [length] in Hn. lia.
    + exact Hs.
    + apply (Permutation_cons_inv (a := a)). rewrite <- Hp, <- !app_assoc. cbn [app]. apply Permutation_middle.
    + apply List.Forall_app in Hf as [H1 H2]. apply List.Forall_cons_iff in H2 as [_ H2]. apply List.Forall_app. auto.
Qed.

Lemma let_go_drop now : forall k l, StronglySorted N.le l ->
  let_go now k l = drop (Nat.min k (length (List.filter (fun t => t + one_minute <=? now) l))) l.
Proof.
  induction k as [|k IH]; intros [|t l] Hs; try reflexivity. cbn [let_go List.filter].
  apply StronglySorted_inv in Hs as [Hs Ht]. destruct (N.leb_spec (t + one_minute) now) as [L|G].
  - cbn [length]. rewrite (IH l Hs). reflexivity.
  - replace (List.filter (fun t => t + one_minute <=? now) l) with (@nil N); [reflexivity|].
    symmetry. rewrite List.Forall_forall in Ht. clear IH Hs. induction l as [|u l IH]; [reflexivity|]. cbn [List.filter].
    assert (t <= u) by (apply Ht; now left). destruct (N.leb_spec (u + one_minute) now); [lia|]. apply IH. intros v Hv. apply Ht. now right.
Qed.

Lemma sorted_drop : forall n l, StronglySorted N.le l -> StronglySorted N.le (drop n l).
Proof.
  induction n as [|n IH]; intros [|a l] H; try exact H; try constructor. cbn. apply IH. now apply StronglySorted_inv in H.
Qed.
Lemma sorted_snoc l a : StronglySorted N.le l -> Forall (fun b => b <= a) l -> StronglySorted N.le (l ++ [a]).
Proof.
  induction l as [|b l IH]; intros Hs Hf; [repeat constructor|]. apply StronglySorted_inv in Hs as [Hs Hb].
  apply List.Forall_cons_iff in Hf as [Hba Hf]. cbn [app]. constructor; [now apply IH|].
  apply List.Forall_app. split; [exact Hb|]. constructor; [exact Hba|constructor].
Qed.

Definition expiry (t : N) : N := sat_add t DELEGATION_SIGNATURE_EXPIRES_AT.
Lemma expiry_min t : expiry t = N.min (t + one_minute) u64_max.
Proof. reflexivity. Qed.

Lemma sorted_expiry l : StronglySorted N.le l -> StronglySorted N.le (map expiry l).
Proof.
  induction 1 as [|a l _ IH Ha]; cbn [map]; constructor; [exact IH|]. rewrite List.Forall_map.
  revert Ha. apply List.Forall_impl. intros b Hb. rewrite !expiry_min. lia.
Qed.

(** ** The line of a history *)

Lemma snoc_eq {A} (l1 l2 : list A) a b : l1 ++ [a] = l2 ++ [b] -> l1 = l2 /\ a = b.
Proof. apply app_inj_tail. Qed.

Lemma rejected_no_login D e : rejected_key D e -> ~ login_succeeds e.
Proof. intros (? & ? & ? & ? & ? & _ & _ & E) (? & ? & ? & ? & ? & ? & _ & E'). congruence. Qed.

Lemma waiting_fun D since line1 line2 : waiting D since line1 -> waiting D since line2 -> line1 = line2.
Proof.
  intros H1. revert line2. induction H1 as [|since line e H IH Hc|since line e H IH Hc|since line e H IH Hc]; intros line2 H2.
  - inversion H2 as [E|since ? ? ? ? E|since ? ? ? ? E|since ? ? ? ? E]; [reflexivity|destruct since; discriminate..].
  - inversion H2 as [E|s' l' e' H' Hc' E|s' l' e' H' Hc' E|s' l' e' H' Hc' E]; [destruct since; discriminate| | |];
      apply snoc_eq in E as [-> ->].
    + now rewrite (IH _ H').
    + now apply rejected_no_login in Hc'.
    + destruct Hc'. now left.
  - inversion H2 as [E|s' l' e' H' Hc' E|s' l' e' H' Hc' E|s' l' e' H' Hc' E]; [destruct since; discriminate| | |];
      apply snoc_eq in E as [-> ->].
    + now apply rejected_no_login in Hc.
    + now rewrite (IH _ H').
    + destruct Hc'. now right.
  - inversion H2 as [E|s' l' e' H' Hc' E|s' l' e' H' Hc' E|s' l' e' H' Hc' E]; [destruct since; discriminate| | |];
      apply snoc_eq in E as [-> ->].
    + destruct Hc. now left.
    + destruct Hc. now right.
    + now apply IH.
Qed.

Definition login_times (l : list event) : list N := map ev_time (List.filter login_ok l).
Lemma login_times_snoc l e : login_times (l ++ [e]) = login_times l ++ (if login_ok e then [ev_time e] else []).
Proof. unfold login_times. rewrite List.filter_app, map_app. cbn [List.filter]. now destruct (login_ok e). Qed.
Lemma login_ok_no e : ~ login_succeeds e -> login_ok e = false.
Proof. intros H. destruct (login_ok e) eqn:E; [|reflexivity]. now apply login_ok_spec in E. Qed.

Lemma let_go_sub now : forall k l t, In t (let_go now k l) -> In t l.
Proof.
  induction k as [|k IH]; intros [|u l] t H; try exact H. cbn [let_go] in H.
  destruct (_ <=? _); [right; now apply (IH l t)|exact H].
Qed.
Lemma let_go_keeps now t : now < t + one_minute -> forall k l, In t l -> In t (let_go now k l).
Proof.
  intros Ht. induction k as [|k IH]; intros [|u l] H; try exact H. cbn [let_go].
  destruct (N.leb_spec (u + one_minute) now); [|exact H]. destruct H as [->|H]; [lia|auto].
Qed.

Lemma waiting_in D since line : waiting D since line -> forall t, In t line -> In t (login_times since).
Proof.
  induction 1 as [|since line e H IH Hc|since line e H IH Hc|since line e H IH Hc]; intros t Ht; [destruct Ht| | |];
    rewrite login_times_snoc; apply in_app_iff.
  - apply login_ok_spec in Hc. rewrite Hc. apply in_app_iff in Ht as [Ht|Ht]; [|now right]. left. eapply IH, let_go_sub, Ht.
  - left. eapply IH, let_go_sub, Ht.
  - left. now apply IH.
Qed.

Lemma waiting_recent D now since line : waiting D since line -> Forall (fun e => ev_time e <= now) since ->
  forall t, In t (login_times since) -> now < t + one_minute -> In t line.
Proof.
  induction 1 as [|since line e H IH Hc|since line e H IH Hc|since line e H IH Hc]; intros HF t Ht Hnow; [destruct Ht| | |];
    apply List.Forall_app in HF as [HF He]; apply List.Forall_cons_iff in He as [He _];
    rewrite login_times_snoc in Ht; apply in_app_iff in Ht as [Ht|Ht].
  - apply in_app_iff. left. apply let_go_keeps; [lia|]. now apply IH.
  - apply in_app_iff. right. apply login_ok_spec in Hc. now rewrite Hc in Ht.
  - apply let_go_keeps; [lia|]. now apply IH.
  - rewrite login_ok_no in Ht by (now apply (rejected_no_login D)). destruct Ht.
  - now apply IH.
  - rewrite login_ok_no in Ht; [destruct Ht|]. intros Hl. apply Hc. now left.
Qed.

(** ** The line and the queue *)

Definition puts (ops : list map_op) : list SigExpiration :=
  flat_map (fun op => match op with MPut t s d => [mkExp s d (expiry t)] | _ => [] end) ops.
Lemma puts_app a b : puts (a ++ b) = puts a ++ puts b.
Proof. unfold puts. apply flat_map_app. Qed.

Record in_line (now : N) (ops : list map_op) (since : list event) (line : list N) (m : SignatureMap) (gone : list SigExpiration) : Prop := {
  il_sorted : StronglySorted N.le line;
  il_times : Forall (fun t => exists e, In e since /\ ev_time e = t) line;
  il_queue : map se_at (sm_queue m) ≡ₚ map expiry line;
  il_puts : sm_queue m ++ gone ≡ₚ puts ops;
  il_all : map se_at (puts ops) = map expiry (login_times since);
  il_gone : Forall (fun e => se_at e <= now) gone;
  il_has : forall e, In e (sm_queue m) ->
    (forall g, In g gone -> ~ (se_seed g = se_seed e /\ se_dele g = se_dele e)) -> sm_has m (se_seed e) (se_dele e)
}.

Lemma expired_line now line q : now < u64_max -> map se_at q ≡ₚ map expiry line ->
  expired_count now q = length (List.filter (fun t => t + one_minute <=? now) line).
Proof.
  intros Hmax Hp. unfold expired_count.
  assert (length (List.filter (fun e => se_at e <=? now) q) = length (List.filter (fun t => t <=? now) (map se_at q))) as ->.
  { rewrite filter_map, map_length. reflexivity. }
  rewrite (SigMapProofs.filter_perm _ _ _ Hp) || rewrite (Permutation_length (SigMapProofs.filter_perm _ _ _ Hp)).
  rewrite filter_map, map_length. f_equal. apply filter_ext. intros t. rewrite expiry_min. lia.
Qed.

Lemma prune_line D top now ops since line m m' n gone : sm_ok D m -> in_line top ops since line m gone -> now <= top -> now < u64_max ->
  sm_prune_expired D now 10 m = Done (m', n) ->
  sm_ok D m' /\ exists gone', in_line top ops since (let_go now 10 line) m' gone'.
Proof.
  intros Hok [H1 H2 H3 H4 H5 H6 H7] Htop Hmax E.
  destruct (sm_prune_ok D now 10 m Hok) as (m1 & removed & E1 & Hok1 & G2 & G3 & G4 & G5 & G6).
  assert (m1 = m') as -> by congruence. split; [exact Hok1|]. exists (removed ++ gone).
  rewrite (expired_line now line _ Hmax H3) in G3. rewrite (let_go_drop now 10 line H1).
  set (k := Nat.min 10 _) in *. split.
  - now apply sorted_drop.
  - rewrite <- (take_drop k line) in H2. now apply List.Forall_app in H2.
  - assert (map expiry (drop k line) = drop k (map expiry line)) as ->.
    { clearbody k. clear. revert k. induction line as [|t l IH]; intros [|k]; try reflexivity. apply (IH k). }
    apply (smaller_part k (map expiry line) (map se_at removed) (map se_at (sm_queue m'))).
    + now rewrite map_length.
    + now apply sorted_expiry.
    + rewrite <- map_app, <- H3. now apply Permutation_map, Permutation_sym.
    + rewrite List.Forall_map. revert G5. apply List.Forall_impl. intros e He. now rewrite List.Forall_map.
  - rewrite <- H4, G2, !app_assoc. apply Permutation_app_tail, Permutation_app_comm.
  - exact H5.
  - apply List.Forall_app. split; [|exact H6]. revert G4. apply List.Forall_impl. intros e He. lia.
  - intros e He Hg. apply G6. split.
    + apply H7; [rewrite G2; apply in_app_iff; now right|]. intros g Ig. apply Hg. apply in_app_iff. now right.
    + intros (g & Ig & Hgs). apply (Hg g); [apply in_app_iff; now left|exact Hgs].
Qed.

Lemma put_line D top ops since line m m' gone t s d : sm_ok D m -> in_line top ops since line m gone ->
  Forall (fun u => u <= t) line -> sm_put D t s d m = Done m' -> forall e, ev_time e = t -> login_ok e = true ->
  sm_ok D m' /\ in_line top (ops ++ [MPut t s d]) (since ++ [e]) (line ++ [t]) m' gone.
Proof.
  intros Hok [H1 H2 H3 H4 H5 H6 H7] Ht E e Ee Hl.
  destruct (sm_put_ok D t s d m Hok) as (m1 & E1 & Hok1 & Hhas & G). assert (m1 = m') as -> by congruence.
  split; [exact Hok1|]. split.
  - now apply sorted_snoc.
  - apply List.Forall_app. split.
    + revert H2. apply List.Forall_impl. intros u (e' & Ie & Et). exists e'. split; [apply in_app_iff; now left|exact Et].
    + constructor; [|constructor]. exists e. split; [apply in_app_iff; right; now left|exact Ee].
  - rewrite (Permutation_map se_at G), map_app. cbn [map se_at]. fold (expiry t). rewrite H3. apply Permutation_cons_append.
  - rewrite puts_app, <- H4, G. cbn [app puts flat_map]. fold (expiry t). rewrite Permutation_cons_append. reflexivity.
  - rewrite puts_app, login_times_snoc, Hl, !map_app, H5, Ee. reflexivity.
  - exact H6.
  - intros e' He' Hg. apply Hhas. rewrite G in He'. destruct He' as [<-|He']; [now left|]. right. now apply H7.
Qed.

Lemma line_holds D cid st now : now < u64_max -> forall since ops, map_history D cid st since ops -> in_order since ->
  Forall (fun e => ev_time e <= now) since -> forall line, waiting D since line -> forall m, run_map D ops sm_empty = Done m ->
  sm_ok D m /\ exists gone, in_line now ops since line m gone.
Proof.
  intros Hmax. induction 1 as [|since ops e o Hh IH Ho]; intros Hord HF line Hw m E.
  - cbn [run_map] in E. assert (m = sm_empty) as -> by congruence. split; [apply sm_ok_empty|]. exists [].
    inversion Hw as [E0|s' ? ? ? ? E0|s' ? ? ? ? E0|s' ? ? ? ? E0]; [|destruct s'; discriminate..].
    split; try constructor. intros e [].
  - apply in_order_snoc in Hord as [Hord Hlast]. apply List.Forall_app in HF as [HF He]. apply List.Forall_cons_iff in He as [He _].
    rewrite run_map_app in E. destruct (run_map D ops sm_empty) as [m0|] eqn:E0; [|discriminate]. cbn [obind] in E.
    assert (exists line0, waiting D since line0 /\
      ((login_succeeds e /\ line = let_go (ev_time e) 10 line0 ++ [ev_time e]) \/
       (rejected_key D e /\ line = let_go (ev_time e) 10 line0) \/ (~ cleans D e /\ line = line0))) as (line0 & Hw0 & Hcase).
    { inversion Hw as [E1|s' l' e' H' Hc' E1|s' l' e' H' Hc' E1|s' l' e' H' Hc' E1]; [destruct since; discriminate| | |];
        apply snoc_eq in E1 as [-> ->]; eexists; (split; [exact H'|]); auto. }
    destruct (IH Hord HF line0 Hw0 m0 eq_refl) as (Hok & gone & Hil).
    inversion Ho as [sg x sk n exp pk dh Hl _ _ _ _|Hr|Hn Hnr]; subst o.
    + assert (login_succeeds e) as Hs by (red; eauto 10).
      destruct Hcase as [[_ ->]|[[Hr _]|[Hc _]]]; [|now apply rejected_no_login in Hr|destruct Hc; now left].
      cbn [run_map map_step] in E. destruct (sm_prune_expired D (ev_time e) 10 m0) as [[m1 k]|] eqn:E1; [|discriminate].
      cbn [obind fst] in E. destruct (sm_put D (ev_time e) _ dh m1) as [m2|] eqn:E2; [|discriminate]. cbn [obind fst] in E.
      assert (m2 = m) as -> by congruence.
      destruct (prune_line D now (ev_time e) ops since line0 m0 m1 k gone Hok Hil He ltac:(lia) E1) as (Hok1 & gone1 & Hil1).
      assert (Forall (fun u => u <= ev_time e) (let_go (ev_time e) 10 line0)) as Hlate.
      { pose proof (il_times _ _ _ _ _ _ Hil1) as Ht. revert Ht. apply List.Forall_impl. intros u (e' & Ie & <-).
        rewrite List.Forall_forall in Hlast. now apply Hlast. }
      destruct (put_line D now ops since _ m1 m gone1 _ _ _ Hok1 Hil1 Hlate E2 e eq_refl (proj2 (login_ok_spec e) Hs)) as [Hok2 Hil2].
      split; [exact Hok2|]. exists gone1. destruct Hil2 as [A1 A2 A3 A4 A5 A6 A7].
      assert (puts (ops ++ [MPrune (ev_time e) 10; MPut (ev_time e) (d_sha256 D (seed_of D st x)) dh]) =
              puts (ops ++ [MPut (ev_time e) (d_sha256 D (seed_of D st x)) dh])) as Ep by (rewrite !puts_app; reflexivity).
      split; try rewrite Ep; assumption.
    + destruct Hcase as [[Hs _]|[[_ ->]|[Hc _]]]; [now apply rejected_no_login in Hr| |destruct Hc; now right].
      cbn [run_map map_step] in E. destruct (sm_prune_expired D (ev_time e) 10 m0) as [[m1 k]|] eqn:E1; [|discriminate].
      cbn [obind fst] in E. assert (m1 = m) as -> by congruence.
      destruct (prune_line D now (ev_time e) ops since line0 m0 m k gone Hok Hil He ltac:(lia) E1) as (Hok1 & gone1 & [A1 A2 A3 A4 A5 A6 A7]).
      split; [exact Hok1|]. exists gone1.
      assert (puts (ops ++ [MPrune (ev_time e) 10]) = puts ops) as Ep by (rewrite puts_app; apply app_nil_r).
      split; try rewrite Ep; try assumption.
      * revert A2. apply List.Forall_impl. intros u (e' & Ie & Et). exists e'. split; [apply in_app_iff; now left|exact Et].
      * rewrite login_times_snoc, login_ok_no by (now apply (rejected_no_login D)). now rewrite app_nil_r.
    + destruct Hcase as [[Hs _]|[[Hr _]|[_ ->]]]; [contradiction|contradiction|].
      cbn [run_map] in E. assert (m0 = m) as -> by congruence. split; [exact Hok|]. exists gone.
      destruct Hil as [A1 A2 A3 A4 A5 A6 A7]. rewrite app_nil_r. split; try assumption.
      * revert A2. apply List.Forall_impl. intros u (e' & Ie & Et). exists e'. split; [apply in_app_iff; now left|exact Et].
      * rewrite login_times_snoc, login_ok_no by assumption. now rewrite app_nil_r.
Qed.

Lemma waiting_exists D cid st since ops : map_history D cid st since ops -> exists line, waiting D since line.
Proof.
  induction 1 as [|since ops e o Hh [line IH] Ho]; [exists []; constructor|].
  inversion Ho as [sg x sk n exp pk dh Hl _ _ _ _|Hr|Hn Hnr].
  - eexists. apply waiting_login; [exact IH|red; eauto 10].
  - eexists. apply waiting_refused; [exact IH|exact Hr].
  - eexists. apply waiting_other; [exact IH|]. intros [Hc|Hc]; contradiction.
Qed.

(** ** C113  Exactly which delegations are still there *)

(** Every history has one line. *)
Theorem C113_line : forall D cid tr s i since, deps_ok D -> exec D cid tr s -> since_boot tr i since ->
  exists line, waiting D since line /\ forall line', waiting D since line' -> line' = line.
Proof.
  intros D cid tr s i since HD H Hb. destruct (exec_since D cid tr s i _ HD H Hb) as (c & st & -> & Hi & Hc).
  destruct (inv_sigs _ _ _ _ _ _ _ Hi) as (ops & Hh & _). destruct (waiting_exists D cid st since ops Hh) as [line Hw].
  exists line. split; [exact Hw|]. intros line' Hw'. now apply (waiting_fun D since).
Qed.

Lemma in_puts e ops : In e (puts ops) <-> exists t, In (MPut t (se_seed e) (se_dele e)) ops /\ se_at e = expiry t.
Proof.
  unfold puts. rewrite in_flat_map. split.
  - intros ([t s d|s d|t k] & Ho & He); [|destruct He|destruct He]. destruct He as [<-|[]]. exists t. auto.
  - intros (t & Ho & Ea). eexists. split; [exact Ho|]. left. destruct e as [s d a]. cbn in *. now rewrite Ea.
Qed.

(** What is known of a session that has logged in: the answer of the query in terms of the map. *)
Lemma session_map D cid tr s i since now cert x sk exp l : deps_ok D -> exec D cid tr s -> since_boot tr i since ->
  session_login since x sk exp l ->
  exists c st fl b dh ops r, s = Some c /\ init_spec D cid i st fl /\ address_text D x b /\ exp <= u64_max /\
    create_delegation_hash D (mkDelegation sk exp (s_targets st)) = Done dh /\
    map_history D cid st since ops /\ run_map D ops sm_empty = Done (c_sigs c) /\
    step D cid now (GetDelegation (Some cert) x sk exp) s = (s, RDelegation r) /\
    match witness D now (c_sigs c) (user_seed D i x) dh with
    | Ok w => granted i sk exp r
    | Err e => r = Err (show_delegation_error e)
    end.
Proof.
  intros HD H Hb [Il (sg & n & pk & Hl)].
  destruct (exec_since D cid tr s i _ HD H Hb) as (c & st & -> & Hi & Hc).
  pose proof (inv_settings _ _ _ _ _ _ _ Hi) as Hst. pose proof (inv_init _ _ _ _ _ _ _ Hi) as Hin.
  destruct (inv_sigs _ _ _ _ _ _ _ Hi) as (ops & Hh & Hrun).
  apply in_split in Il as (before & after & ->). destruct Hb as (bf & bb & Et & Hbb & HF).
  assert (exists s1, exec D cid ((bf ++ bb :: before) ++ [l]) s1) as [s1 Hlog].
  { rewrite Et in H. replace (bf ++ bb :: before ++ l :: after) with ((bf ++ bb :: before) ++ l :: after) in H
      by (now rewrite <- app_assoc). eapply exec_at, H. }
  destruct (login_explained D cid _ l s1 sg x sk n exp pk HD Hlog Hl)
    as (i' & st' & fl & since' & bef & p & aft & x' & b & b' & n' & text & Hs & Hin' & _ & _ & Ha & _ & _ & _ & _ & _ & Hkey & _ & Eexp & _).
  assert (exp <> 0) as Hne.
  { rewrite Eexp. pose proof (acc_session _ _ (init_acceptable _ _ _ _ _ Hin')) as Hses.
    rewrite (init_session _ _ _ _ _ Hin') in Hses. fold (session_window i') in Hses. unfold sat_add, u64_max. lia. }
  destruct (map_history_app D cid st before (l :: after) ops Hh) as (ops1 & ops' & -> & Hh1 & Hh').
  destruct (map_history_cons D cid st l after ops' Hh') as (o & ops2 & -> & Hev & Hh2).
  inversion Hev as [sg1 x1 sk1 n1 exp1 pk1 dh Hl1 Epk Hbx Hexp Edh|Hrej|Hno Hnr].
  2:{ apply rejected_no_login in Hrej. destruct Hrej. red. eauto 10. }
  2:{ destruct Hno. red. eauto 10. }
  assert (x1 = x /\ sk1 = sk /\ exp1 = exp) as (-> & -> & ->).
  { destruct Hl as [Lo Lr], Hl1 as [Lo1 Lr1]. rewrite Lo in Lo1. rewrite Lr in Lr1. split; [congruence|]. split; congruence. }
  destruct (fetch_shape D cid c i st _ now cert x sk exp HD Hin Hst Hexp) as (r & Er & Hr).
  destruct Hr as [(e & Nx & _)|(b1 & _ & [(e & Ek & _)|[(_ & Ez & _)|(_ & _ & dh' & Edh' & Hwit)]])];
    [now apply Nx in Ha|congruence|contradiction|].
  assert (dh' = dh) as -> by congruence.
  exists c, st, (c_flags c), b, dh. eexists. exists r. split; [reflexivity|]. split; [exact Hin|]. split; [exact Ha|]. split; [exact Hexp|].
  split; [exact Edh|]. split; [exact Hh|]. split; [exact Hrun|]. cbn [step]. rewrite Er. split; [reflexivity|exact Hwit].
Qed.

Lemma put_logged D cid st since ops t k dh : map_history D cid st since ops -> In (MPut t k dh) ops ->
  exists l, In l since /\ login_succeeds l /\ ev_time l = t.
Proof.
  induction 1 as [|since ops e o Hh IH Ho]; [intros []|]. intros Hp. apply in_app_iff in Hp as [Hp|Hp].
  - destruct (IH Hp) as (l & Il & R). exists l. split; [apply in_app_iff; now left|exact R].
  - inversion Ho as [? ? ? ? ? ? ? Hl _ _ _ _|Hr|Hn]; subst o; cbn [In] in Hp.
    + destruct Hp as [Hp|[Hp|[]]]; [discriminate|]. exists e. split; [apply in_app_iff; right; now left|].
      split; [red; eauto 10|congruence].
    + destruct Hp as [Hp|[]]. discriminate.
    + destruct Hp.
Qed.

Lemma no_entry_not_found D now m s dh : sm_ok D m -> queued m ->
  (forall e, In e (sm_queue m) -> ~ (se_seed e = d_sha256 D s /\ se_dele e = dh)) ->
  exists e, witness D now m s dh = Err e /\ show_delegation_error e = bs "Signature not found".
Proof.
  intros Hok Hq Hnone.
  assert (~ sm_has m (d_sha256 D s) dh) as Hnh.
  { intros Hh0. destruct (Hq _ _ Hh0) as (e' & He' & Es & Ed). now apply (Hnone e'). }
  assert (sm_is_expired now (d_sha256 D s) dh m = false) as Hx.
  { unfold sm_is_expired. destruct (List.find _ _) as [e'|] eqn:Ef; [|reflexivity].
    apply List.find_some in Ef as [Ie Hm]. apply andb_true_iff in Hm as [M1 M2]. apply bytes_eqb_spec in M1, M2.
    exfalso. now apply (Hnone e' Ie). }
  unfold witness, hash_bytes. rewrite Hx, (sm_witness_none D _ dh m Hok Hnh). eexists. split; reflexivity.
Qed.

(** A session none of whose logins is in the line is unknown. *)
Theorem C113_gone : forall D cid tr s i since now cert x sk exp l line, deps_ok D -> exec D cid tr s -> since_boot tr i since ->
  Forall (fun e => ev_time e <= now) tr -> now < u64_max -> session_login since x sk exp l -> waiting D since line ->
  (forall l', session_login since x sk exp l' -> ~ In (ev_time l') line) ->
  step D cid now (GetDelegation (Some cert) x sk exp) s = (s, RDelegation (Err (bs "Signature not found"))) \/
  session_clash D i since x sk exp.
Proof.
  intros D cid tr s i since now cert x sk exp l line HD H Hb Hnow Hmax Hl Hw Hgone.
  destruct (session_map D cid tr s i since now cert x sk exp l HD H Hb Hl)
    as (c & st & fl & b & dh & ops & r & -> & Hin & Ha & Hexp & Edh & Hh & Hrun & Estep & Hwit).
  destruct Hb as (bf & bb & Et & Hbb & HF).
  assert (in_order since) as Hord by (pose proof (exec_in_order _ _ _ _ H) as Ho; rewrite Et in Ho; apply in_order_app in Ho; apply Ho).
  assert (Forall (fun e => ev_time e <= now) since) as HFs.
  { rewrite Et in Hnow. apply List.Forall_app in Hnow as [_ Hnow]. now apply List.Forall_cons_iff in Hnow. }
  destruct (line_holds D cid st now Hmax since ops Hh Hord HFs line Hw _ Hrun) as (Hok & gone & Hil).
  destruct (run_map_inv D ops _ Hrun) as (_ & Hq & Hf).
  set (k := d_sha256 D (user_seed D i x)) in *.
  destruct (List.existsb (fun e => bytes_eqb (se_seed e) k && bytes_eqb (se_dele e) dh) (sm_queue (c_sigs c))) eqn:Ex.
  - right. apply List.existsb_exists in Ex as (e & Ie & Hm). apply andb_true_iff in Hm as [M1 M2]. apply bytes_eqb_spec in M1, M2.
    destruct (Hf e Ie) as (t & Hp & Eat). rewrite M1, M2 in Hp. unfold k in Hp.
    destruct (put_origin D cid i st _ _ ops t x b sk exp dh HD Hin Hh Ha Hexp Edh Hp)
      as (be & l' & af & sg' & x'' & sk' & n'' & exp' & pk' & Es & Hl' & Ht & Hx & Hk).
    assert (In l' since) as Il by (rewrite Es; apply in_app_iff; right; now left).
    exists l', sg', x'', sk', n'', exp', pk', (s_targets st).
    split; [exact Il|]. split; [exact Hl'|]. split; [eapply targets_installed, Hin|]. do 2 (split; [assumption|]). intros (-> & -> & ->).
    apply (Hgone l'); [split; [exact Il|eauto]|]. rewrite Ht.
    assert (In (se_at e) (map expiry line)) as Iat.
    { apply (Permutation_in _ (il_queue _ _ _ _ _ _ Hil)). now apply in_map. }
    apply in_map_iff in Iat as (u & Eu & Iu). fold (expiry t) in Eat. rewrite Eat, !expiry_min in Eu.
    destruct (N.lt_ge_cases now (t + one_minute)) as [L|G].
    + apply (waiting_recent D now since line Hw HFs); [|exact L]. unfold login_times. apply in_map_iff. exists l'.
      split; [exact Ht|]. apply List.filter_In. split; [exact Il|]. apply login_ok_spec. red. eauto 10.
    + assert (u = t) as <- by lia. exact Iu.
  - left. rewrite Estep. f_equal. f_equal.
    assert (forall e, In e (sm_queue (c_sigs c)) -> ~ (se_seed e = k /\ se_dele e = dh)) as Hnone.
    { intros e Ie [Es Ed]. assert (false = true); [|discriminate]. rewrite <- Ex. apply List.existsb_exists. exists e. split; [exact Ie|].
      rewrite Es, Ed, !bytes_eqb_refl. reflexivity. }
    destruct (no_entry_not_found D now _ (user_seed D i x) dh Hok Hq Hnone) as (e & Ee & Es). rewrite Ee, Es in Hwit. exact Hwit.
Qed.

Lemma logins_at_times t l : logins_at t l = length (List.filter (N.eqb t) (login_times l)).
Proof.
  unfold logins_at, login_times. rewrite filter_map, map_length. induction l as [|e l IH]; [reflexivity|]. cbn [List.filter].
  unfold login_ok at 1. destruct (ev_op e); try exact IH. destruct (ev_reply e) as [| | |[d|er]| | |]; try exact IH.
  cbn [List.filter]. rewrite (N.eqb_sym t). destruct (ev_time e =? t); cbn [length]; now rewrite IH.
Qed.

(** The expiry times of the logins at [t] are those that leave the queue at [t] plus a minute. *)
Lemma count_expiry t l : t + one_minute < u64_max ->
  length (List.filter (N.eqb (expiry t)) (map expiry l)) = length (List.filter (N.eqb t) l).
Proof.
  intros Ht. rewrite filter_map, map_length. f_equal. apply filter_ext. intros u. rewrite !expiry_min. lia.
Qed.

(** A session with one login, all the logins of that time still in the line: its delegation is handed
    out for a minute, and is known to have run out after that. *)
Theorem C113_kept : forall D cid tr s i before l after now cert sg x sk n exp pk line, deps_ok D -> exec D cid tr s ->
  since_boot tr i (before ++ l :: after) -> Forall (fun e => ev_time e <= now) tr -> now < u64_max ->
  logged_in l sg x sk n exp pk -> (forall l', ~ session_login (before ++ after) x sk exp l') ->
  waiting D (before ++ l :: after) line ->
  waiting_at (ev_time l) line = logins_at (ev_time l) (before ++ l :: after) ->
  (exists r, step D cid now (GetDelegation (Some cert) x sk exp) s = (s, RDelegation r) /\
     (now <= ev_time l + one_minute -> granted i sk exp r) /\
     (ev_time l + one_minute < now -> r = Err (bs "Signature expired"))) \/
  session_clash D i (before ++ l :: after) x sk exp.
Proof.
  intros D cid tr s i before l after now cert sg x sk n exp pk line HD H Hb Hnow Hmax Hl Honly Hw Hcount.
  assert (session_login (before ++ l :: after) x sk exp l) as Hsl by (split; [apply in_app_iff; right; now left|eauto]).
  destruct (session_map D cid tr s i _ now cert x sk exp l HD H Hb Hsl)
    as (c & st & fl & b & dh & ops & r & -> & Hin & Ha & Hexp & Edh & Hh & Hrun & Estep & Hwit).
  destruct Hb as (bf & bb & Et & Hbb & HF).
  assert (in_order (before ++ l :: after)) as Hord
    by (pose proof (exec_in_order _ _ _ _ H) as Ho; rewrite Et in Ho; apply in_order_app in Ho; apply Ho).
  assert (Forall (fun e => ev_time e <= now) (before ++ l :: after)) as HFs.
  { rewrite Et in Hnow. apply List.Forall_app in Hnow as [_ Hnow]. now apply List.Forall_cons_iff in Hnow. }
  destruct (line_holds D cid st now Hmax _ ops Hh Hord HFs line Hw _ Hrun) as (Hok & gone & Hil).
  destruct (run_map_inv D ops _ Hrun) as (_ & Hq & Hf).
  set (k := d_sha256 D (user_seed D i x)) in *.
  (* its operations *)
  destruct (map_history_app D cid st before (l :: after) ops Hh) as (ops1 & ops' & -> & Hh1 & Hh').
  destruct (map_history_cons D cid st l after ops' Hh') as (o & ops2 & -> & Hev & Hh2).
  inversion Hev as [sg1 x1 sk1 n1 exp1 pk1 dh1 Hl1 Epk Hbx Hexp1 Edh1|Hrej|Hno Hnr]; subst o.
  2:{ apply rejected_no_login in Hrej. destruct Hrej. red. eauto 10. }
  2:{ destruct Hno. red. eauto 10. }
  assert (x1 = x /\ sk1 = sk /\ exp1 = exp) as (-> & -> & ->).
  { destruct Hl as [Lo Lr], Hl1 as [Lo1 Lr1]. rewrite Lo in Lo1. rewrite Lr in Lr1. split; [congruence|]. split; congruence. }
  assert (dh1 = dh) as -> by congruence. rewrite (seed_of_user D cid i st _ x Hin) in *. fold k in Hev, Hh', Hh, Hrun, Hil, Hf |- *.
  assert (forall since' ops0, map_history D cid st since' ops0 -> (forall e, In e since' -> In e (before ++ after)) ->
    (exists t, In (MPut t k dh) ops0) -> session_clash D i (before ++ l :: after) x sk exp) as Hclash.
  { intros since' ops0 H0 Hsub [t Hp].
    destruct (put_origin D cid i st _ _ ops0 t x b sk exp dh HD Hin H0 Ha Hexp Edh Hp)
      as (be & l' & af & sg' & x'' & sk' & n'' & exp' & pk' & Es & Hl' & Ht & Hx & Hk).
    assert (In l' (before ++ after)) as Il by (apply Hsub; rewrite Es; apply in_app_iff; right; left; reflexivity).
    exists l', sg', x'', sk', n'', exp', pk', (s_targets st).
    split; [apply in_app_iff in Il as [Il|Il]; apply in_app_iff; [now left|right; now right]|].
    split; [exact Hl'|]. split; [eapply targets_installed, Hin|]. do 2 (split; [assumption|]). intros (-> & -> & ->).
    apply (Honly l'). split; [exact Il|eauto]. }
  assert (forall ops0, (exists t, In (MPut t k dh) ops0) \/ forall e, In e (puts ops0) -> ~ (se_seed e = k /\ se_dele e = dh)) as Hdec.
  { intros ops0. destruct (List.existsb (fun e => bytes_eqb (se_seed e) k && bytes_eqb (se_dele e) dh) (puts ops0)) eqn:Ex.
    - left. apply List.existsb_exists in Ex as (e & Ie & Hm). apply andb_true_iff in Hm as [M1 M2]. apply bytes_eqb_spec in M1, M2.
      apply in_puts in Ie as (t & Ho & _). rewrite M1, M2 in Ho. eauto.
    - right. intros e Ie [Es Ed]. assert (false = true); [|discriminate]. rewrite <- Ex. apply List.existsb_exists. exists e.
      split; [exact Ie|]. rewrite Es, Ed, !bytes_eqb_refl. reflexivity. }
  destruct (Hdec ops1) as [Hp1|Hnew1].
  { right. apply (Hclash before ops1 Hh1); [intros e He; apply in_app_iff; now left|exact Hp1]. }
  destruct (Hdec ops2) as [Hp2|Hnew2].
  { right. apply (Hclash after ops2 Hh2); [intros e He; apply in_app_iff; now right|exact Hp2]. }
  left. exists r. split; [exact Estep|].
  (* the entry of the session *)
  set (t := ev_time l) in *. set (e0 := mkExp k dh (expiry t)).
  destruct Hil as [A1 A2 A3 A4 A5 A6 A7].
  assert (puts (ops1 ++ [MPrune t 10; MPut t k dh] ++ ops2) = puts ops1 ++ e0 :: puts ops2) as Ep by (rewrite !puts_app; reflexivity).
  rewrite Ep in A4, A5. 
  assert (In e0 (sm_queue (c_sigs c))) as Iq.
  { assert (In e0 (sm_queue (c_sigs c) ++ gone)) as I.
    { apply (Permutation_in _ (Permutation_sym A4)). apply in_app_iff. right. now left. }
    apply in_app_iff in I as [I|I]; [exact I|exfalso].
    pose proof A6 as A6'. rewrite List.Forall_forall in A6'. specialize (A6' e0 I). unfold e0 in A6'. cbn [se_at] in A6'. rewrite expiry_min in A6'.
    assert (t + one_minute < u64_max) as Hsmall by lia.
    assert (length (List.filter (N.eqb (expiry t)) (map se_at (sm_queue (c_sigs c)))) +
            length (List.filter (N.eqb (expiry t)) (map se_at gone)) =
            length (List.filter (N.eqb (expiry t)) (map expiry (login_times (before ++ l :: after)))))%nat as Hsum.
    { rewrite <- A5, <- app_length, <- List.filter_app, <- map_app.
      apply PropertiesSize.filter_perm. now apply Permutation_map. }
    rewrite (PropertiesSize.filter_perm _ _ _ A3), !count_expiry, <- logins_at_times in Hsum by exact Hsmall.
    unfold waiting_at in Hcount.
    assert (In (expiry t) (List.filter (N.eqb (expiry t)) (map se_at gone))) as Ig.
    { apply List.filter_In. split; [|apply N.eqb_refl]. apply in_map_iff. exists e0. auto. }
    destruct (List.filter (N.eqb (expiry t)) (map se_at gone)); [destruct Ig|]. cbn [length] in Hsum. lia. }
  assert (forall g, In g gone -> ~ (se_seed g = se_seed e0 /\ se_dele g = se_dele e0)) as Hgone.
  { apply in_split in Iq as (q1 & q2 & Eq). rewrite Eq in A4.
    assert ((q1 ++ q2) ++ gone ≡ₚ puts ops1 ++ puts ops2) as A4'.
    { apply (Permutation_cons_inv (a := e0)).
      etransitivity; [|etransitivity; [exact A4|symmetry; apply Permutation_middle]].
      rewrite <- !app_assoc. cbn [app]. apply Permutation_middle. }
    intros g Ig. assert (In g (puts ops1 ++ puts ops2)) as I by (apply (Permutation_in _ A4'), in_app_iff; now right).
    apply in_app_iff in I as [I|I]; [now apply Hnew1|now apply Hnew2]. }
  assert (sm_has (c_sigs c) k dh) as Hhas by (apply (A7 e0 Iq Hgone)).
  assert (forall e, In e (sm_queue (c_sigs c)) -> se_seed e = k -> se_dele e = dh -> se_at e = expiry t) as Honly'.
  { intros e He Es Ed. assert (In e (puts ops1 ++ e0 :: puts ops2)) as I by (apply (Permutation_in _ A4), in_app_iff; now left).
    apply in_app_iff in I as [I|[<-|I]]; [|reflexivity|]; [destruct (Hnew1 e I)|destruct (Hnew2 e I)]; auto. }
  assert (exists e, List.find (fun e => bytes_eqb (se_seed e) k && bytes_eqb (se_dele e) dh) (sm_queue (c_sigs c)) = Some e /\ se_at e = expiry t)
    as (e & Ef & Eat).
  { destruct (List.find _ (sm_queue (c_sigs c))) as [e|] eqn:Ef.
    - exists e. split; [reflexivity|]. apply List.find_some in Ef as [Ie Hm]. apply andb_true_iff in Hm as [M1 M2].
      apply bytes_eqb_spec in M1, M2. now apply Honly'.
    - apply (List.find_none _ _ Ef) in Iq. unfold e0 in Iq. cbn [se_seed se_dele] in Iq. rewrite !bytes_eqb_refl in Iq. discriminate. }
  rewrite expiry_min in Eat. split; intros Hcmp.
  - destruct (witness_has D now (c_sigs c) (user_seed D i x) dh Hok Hhas) as [w Ew]; [|now rewrite Ew in Hwit].
    unfold sm_is_expired. fold k. rewrite Ef, Eat. lia.
  - assert (sm_is_expired now k dh (c_sigs c) = true) as Hx by (unfold sm_is_expired; rewrite Ef, Eat; lia).
    unfold witness, hash_bytes in Hwit. fold k in Hwit. rewrite Hx in Hwit. exact Hwit.
Qed.

(** Put together for a session with one login at a time when nobody else logged in: every answer. *)
Theorem C113_answer : forall D cid tr s i before l after now cert sg x sk n exp pk line, deps_ok D -> exec D cid tr s ->
  since_boot tr i (before ++ l :: after) -> Forall (fun e => ev_time e <= now) tr -> now < u64_max ->
  logged_in l sg x sk n exp pk ->
  (forall e, In e (before ++ after) -> login_succeeds e -> ev_time e <> ev_time l) ->
  (forall l', ~ session_login (before ++ after) x sk exp l') ->
  waiting D (before ++ l :: after) line ->
  (exists r, step D cid now (GetDelegation (Some cert) x sk exp) s = (s, RDelegation r) /\
     (~ In (ev_time l) line -> r = Err (bs "Signature not found")) /\
     (In (ev_time l) line -> ev_time l + one_minute < now -> r = Err (bs "Signature expired")) /\
     (In (ev_time l) line -> now <= ev_time l + one_minute -> granted i sk exp r)) \/
  session_clash D i (before ++ l :: after) x sk exp.
Proof.
  intros D cid tr s i before l after now cert sg x sk n exp pk line HD H Hb Hnow Hmax Hl Halone Honly Hw.
  assert (login_succeeds l) as Hls by (red; eauto 10).
  destruct (in_dec N.eq_dec (ev_time l) line) as [I|NI].
  - assert (logins_at (ev_time l) (before ++ l :: after) = 1%nat) as E1.
    { unfold logins_at. rewrite List.filter_app, app_length. cbn [List.filter].
      assert (forall es, (forall e, In e es -> In e (before ++ after)) -> logins_at (ev_time l) es = 0%nat) as H0.
      { clear -Halone. induction es as [|e es IH]; intros Hsub; [reflexivity|]. unfold logins_at. cbn [List.filter].
        destruct (ev_op e) as [| | | |sg x sk n| | | |] eqn:Eo; try (apply IH; intros; apply Hsub; now right).
        destruct (ev_reply e) as [| | |[[ex p]|]| | |] eqn:Er; try (apply IH; intros; apply Hsub; now right).
        destruct (N.eqb_spec (ev_time e) (ev_time l)) as [E|NE]; [|apply IH; intros; apply Hsub; now right].
        exfalso. apply (Halone e); [apply Hsub; now left| |exact E]. exists sg, x, sk, n, ex, p. split; assumption. }
      pose proof (H0 before ltac:(intros; apply in_app_iff; now left)) as H1. pose proof (H0 after ltac:(intros; apply in_app_iff; now right)) as H2.
      unfold logins_at in H1, H2. destruct Hl as [Lo Lr]. rewrite Lo, Lr, N.eqb_refl. cbn [length]. rewrite H1, H2. reflexivity. }
    assert (waiting_at (ev_time l) line = 1%nat) as E2.
    { assert (forall t since line, waiting D since line -> (waiting_at t line <= logins_at t since)%nat) as Hle.
      { clear. intros t since line Hw. rewrite logins_at_times. unfold waiting_at.
        assert (forall now k l, (length (List.filter (N.eqb t) (let_go now k l)) <= length (List.filter (N.eqb t) l))%nat) as Hg.
        { intros now. induction k as [|k IH]; intros [|u l]; try (cbn; lia). cbn [let_go]. destruct (_ <=? _); [|lia].
          cbn [List.filter]. specialize (IH l). destruct (t =? u); cbn [length]; lia. }
        induction Hw as [|since line e Hw IH Hc|since line e Hw IH Hc|since line e Hw IH Hc]; [cbn; lia| | |];
          rewrite login_times_snoc, !List.filter_app, !app_length.
        - apply login_ok_spec in Hc. rewrite Hc. specialize (Hg (ev_time e) 10%nat line). lia.
        - specialize (Hg (ev_time e) 10%nat line). lia.
        - lia. }
      specialize (Hle (ev_time l) _ _ Hw). rewrite E1 in Hle.
      assert (In (ev_time l) (List.filter (N.eqb (ev_time l)) line)) as If by (apply List.filter_In; split; [exact I|apply N.eqb_refl]).
      unfold waiting_at in *. destruct (List.filter (N.eqb (ev_time l)) line); [destruct If|]. cbn [length] in *. lia. }
    destruct (C113_kept D cid tr s i before l after now cert sg x sk n exp pk line HD H Hb Hnow Hmax Hl Honly Hw ltac:(congruence))
      as [(r & Er & R1 & R2)|Hc]; [|now right]. left. exists r. split; [exact Er|]. split; [contradiction|]. auto.
  - assert (session_login (before ++ l :: after) x sk exp l) as Hsl by (split; [apply in_app_iff; right; now left|eauto]).
    destruct (C113_gone D cid tr s i _ now cert x sk exp l line HD H Hb Hnow Hmax Hsl Hw) as [Er|Hc]; [|left|now right].
    + intros l' [Il' Hl'] It. apply NI. apply in_app_iff in Il' as [Il'|[<-|Il']]; [|exact It|];
        (exfalso; apply (Honly l'); split; [apply in_app_iff; auto|exact Hl']).
    + eexists. split; [exact Er|]. split; [reflexivity|]. split; intros; contradiction.
Qed.

(** Concrete: three logins of Alice within three seconds wait until Bob logs in two minutes later;
    had there been eleven, one of them would still wait. *)
Lemma waiting_compute D : forall events, Forall (fun e => ~ rejected_key D e) events ->
  waiting D events (fold_left (fun line e => if login_ok e then let_go (ev_time e) 10 line ++ [ev_time e] else line) events []).
Proof.
  induction events as [|e events IH] using rev_ind; intros HF; [constructor|]. apply List.Forall_app in HF as [HF He].
  apply List.Forall_cons_iff in He as [He _]. rewrite fold_left_app. cbn [fold_left]. destruct (login_ok e) eqn:El.
  - apply waiting_login; [now apply IH|now apply login_ok_spec].
  - apply waiting_other; [now apply IH|]. intros [Hc|Hc]; [apply login_ok_spec in Hc; congruence|contradiction].
Qed.

Definition busy_since (k : nat) : list event := take k (drop 1 busy_tr).
Example C113_case :
  exec CD demo_cid busy_tr (snd (play CD demo_cid busy_script None)) /\
  since_boot busy_tr demo_input (busy_since 2 ++ busy_at 3 :: drop 4 busy_tr) /\
  ev_time (busy_at 3) = 2 * sec /\
  (exists sg n pk, logged_in (busy_at 3) sg (wallet_address CD alice) key1 n (1802 * sec) pk) /\
  (forall e, In e (busy_since 2 ++ drop 4 busy_tr) -> login_succeeds e -> ev_time e <> 2 * sec) /\
  (forall l, ~ session_login (busy_since 2 ++ drop 4 busy_tr) (wallet_address CD alice) key1 (1802 * sec) l) /\
  waiting CD (busy_since 7) [2 * sec; 3 * sec; 4 * sec] /\ waiting CD (busy_since 9) [131 * sec] /\
  let_go (131 * sec) 10 (map (fun k => N.of_nat k * sec) (seq 2 11)) = [12 * sec] /\
  (exists d, busy_asks 8 (62 * sec) = RDelegation (Ok d)) /\
  busy_asks 8 (62 * sec + 1) = RDelegation (Err (bs "Signature expired")) /\
  busy_asks 10 (131 * sec) = RDelegation (Err (bs "Signature not found")).
Proof.
  destruct C104_case as (H1 & H2 & H3 & H4 & H5 & _ & _ & _ & _ & H6 & H7 & _ & H8).
  split; [exact H1|]. split; [exact H2|]. split; [exact H3|]. split; [exact H4|]. split.
  { intros e Hin Hs. apply login_ok_spec in Hs.
    repeat (destruct Hin as [<-|Hin]; [vm_compute in Hs |- *; congruence|]). destruct Hin. }
  split; [exact H5|].
  assert (Forall (fun e => ~ rejected_key CD e) (drop 1 busy_tr)) as HF.
  { repeat (apply List.Forall_cons; [intros (? & ? & ? & ? & ? & Ho & _ & Hr); discriminate|]). constructor. }
  split; [exact (waiting_compute CD (busy_since 7) (Forall_take _ 7 _ HF))|].
  split; [exact (waiting_compute CD (busy_since 9) (Forall_take _ 9 _ HF))|].
  split; [vm_compute; reflexivity|]. split; [exact H6|]. split; [exact H7|exact H8].
Qed.

Print Assumptions C113_line.
Print Assumptions C113_gone.
Print Assumptions C113_kept.
Print Assumptions C113_answer.
