(** Theorems C14-C19: the signature map over all histories of operations. *)
From Coq Require Import Strings.String ZifyBool ZifyN ZifyNat Sorting.Sorted.
From Verif Require Import Base BaseLemmas Deps Hash HashTree SpecHash RbTree RbProofs Heap HeapProofs SigMap
  Settings Encode Delegation SpecTree SigMapProofs MapRuns Concrete.
Local Open Scope N_scope.

(** ** C14 The signature map behaves as a set of (seed, delegation) pairs *)

Theorem C14_refines_set : forall D ops,
  exists m a, run_map D ops sm_empty = Done m /\ abs_run ops a /\
    forall s d, (exists w, sm_witness D s d m = Some w) <-> abs_has a s d.
Proof.
  intros D ops. destruct (run_map_abs D ops) as (m & E & Hok & Hrun). exists m, (abs_of m).
  split; [assumption|]. split; [assumption|]. intros s d. cbn [abs_of abs_has]. split.
  - intros [w Hw]. unfold sm_witness in Hw. apply (sm_get_has D m s d Hok).
    destruct (rb_get s (sm_map m)) as [sub|] eqn:E1; [|discriminate]. cbn [mbind option_bind] in Hw.
    destruct (rb_get d sub) as [[]|] eqn:E2; [|discriminate]. eauto.
  - intros H. destruct (sm_witness_ok D s d m Hok H) as (w & Hw & _). eauto.
Qed.

(** A history with an overwrite, a tie in the queue, a partial prune and an explicit deletion. *)
Definition s1 : bytes := repeat x01 32.
Definition s2 : bytes := repeat x02 32.
Definition d1 : bytes := repeat x0a 32.
Definition d2 : bytes := repeat x0b 32.
Definition sec : N := 1000000000.
Definition sample_ops : list map_op :=
  [MPut 0 s1 d1; MPut 0 s2 d1; MPut (5 * sec) s1 d2; MPrune (60 * sec) 1; MPut (61 * sec) s2 d2; MDelete s1 d2].

(** The two first entries tie; the heap pops the first one pushed. *)
Example C14_case : exists m, run_map CD sample_ops sm_empty = Done m /\
  sm_witness CD s1 d1 m = None /\ sm_witness CD s1 d2 m = None /\
  is_Some (sm_witness CD s2 d1 m) /\ is_Some (sm_witness CD s2 d2 m).
Proof.
  eexists. split; [vm_compute; reflexivity|]. split; [vm_compute; reflexivity|].
  split; [vm_compute; reflexivity|]. split; eexists; vm_compute; reflexivity.
Qed.

(** ** C15 Every witness reconstructs to the map's root hash *)

Theorem C15_witness_sound : forall D ops m s d w,
  run_map D ops sm_empty = Done m -> sm_witness D s d m = Some w ->
  tree_hash (d_sha256 D) w = sm_root_hash D m /\ lookup_found [s; d] w [] /\ well_formed w.
Proof.
  intros D ops m s d w E Hw. destruct (run_map_inv D ops m E) as (Hok & _ & _).
  assert (sm_has m s d) as Hh.
  { unfold sm_witness in Hw. apply (sm_get_has D m s d Hok).
    destruct (rb_get s (sm_map m)) as [sub|] eqn:E1; [|discriminate]. cbn [mbind option_bind] in Hw.
    destruct (rb_get d sub) as [[]|] eqn:E2; [|discriminate]. eauto. }
  destruct (sm_witness_ok D s d m Hok Hh) as (w' & Hw' & Hr & Hl & Hwf).
  assert (w' = w) as -> by congruence. rewrite <- reconstruct_hash. auto.
Qed.

Theorem C15_internal_error_unreachable : forall D ops m now seed dh h1 h2,
  run_map D ops sm_empty = Done m -> witness D now m seed dh <> Err (WitnessHashMismatch h1 h2).
Proof.
  intros D ops m now seed dh h1 h2 E. unfold witness. destruct (sm_is_expired _ _ _ _); [discriminate|].
  destruct (sm_witness D (hash_bytes D seed) dh m) as [w|] eqn:Ew; [|discriminate].
  destruct (C15_witness_sound D ops m _ _ w E Ew) as (H & _). rewrite <- reconstruct_hash in H.
  rewrite H, bytes_eqb_refl. discriminate.
Qed.

(** Conversely, each pair of the abstract set has a witness: C14. *)
Example C15_case : exists m w, run_map CD sample_ops sm_empty = Done m /\ sm_witness CD s2 d1 m = Some w /\
  w = HLabeled s2 (HFork (HLabeled d1 (HLeaf [])) (HLabeled d2 (HPruned (leaf_hash CD [])))).
Proof. eexists _, _. split; [vm_compute; reflexivity|]. split; vm_compute; reflexivity. Qed.

(** ** C16 Tree operations never fault *)

Theorem C16_no_fault : forall D ops, exists m, run_map D ops sm_empty = Done m.
Proof. intros D ops. destruct (run_map_abs D ops) as (m & E & _). eauto. Qed.

(** Order and balance in every reachable map, for the outer tree and each inner one. *)
Theorem C16_ordered_and_balanced : forall D ops m, run_map D ops sm_empty = Done m ->
  StronglySorted (fun p q => lex_lt (fst p) (fst q)) (elems (sm_map m)) /\
  (2 ^ depth (sm_map m) <= S (length (elems (sm_map m))) ^ 2)%nat /\
  forall s sub, In (s, sub) (elems (sm_map m)) ->
    sub <> Null /\ StronglySorted (fun p q => lex_lt (fst p) (fst q)) (elems sub) /\
    (2 ^ depth sub <= S (length (elems sub)) ^ 2)%nat.
Proof.
  intros D ops m E. destruct (run_map_inv D ops m E) as ([Ho Hi _] & _ & _).
  assert (forall V (l : list (bytes * V)), sorted l -> StronglySorted (fun p q => lex_lt (fst p) (fst q)) l) as Hs.
  { intros V l Hl. unfold sorted in Hl. induction Hl as [|p l Hl IH HF]; constructor; [assumption|].
    revert HF. apply List.Forall_impl. intros q Hq. now apply HashProofs.bytes_cmp_lex. }
  split; [apply Hs, Ho|]. split; [eapply rb_ok_depth, Ho|]. intros s sub Hin.
  rewrite List.Forall_forall in Hi. destruct (Hi _ Hin) as [Hsub Hn]. cbn in *.
  split; [assumption|]. split; [apply Hs, Hsub|]. eapply rb_ok_depth, Hsub.
Qed.

(** Twelve seeds inserted in order, then deleted from both ends. *)
Definition seed_of (n : N) : bytes := repeat (u8 n) 32.
Definition many_ops : list map_op :=
  map (fun n => MPut n (seed_of n) d1) [1;2;3;4;5;6;7;8;9;10;11;12] ++
  map (fun n => MDelete (seed_of n) d1) [12;1;11;2;6].
Example C16_case : exists m, run_map CD many_ops sm_empty = Done m /\
  map fst (elems (sm_map m)) = map seed_of [3;4;5;7;8;9;10] /\ depth (sm_map m) = 3%nat.
Proof. eexists. split; [vm_compute; reflexivity|]. split; vm_compute; reflexivity. Qed.

(** ** C17 Pruning removes exactly the oldest expired entries *)

Theorem C17_prune_exact : forall D ops m now max, run_map D ops sm_empty = Done m ->
  exists m' removed,
    sm_prune_expired D now max m = Done (m', N.of_nat (length removed)) /\
    prunes now max (map entry (sm_queue m)) removed (map entry (sm_queue m')) /\
    (forall s d, (exists w, sm_witness D s d m' = Some w) <->
       (exists w, sm_witness D s d m = Some w) /\
       ~ (exists e, In e removed /\ en_seed e = s /\ en_delegation e = d)).
Proof.
  intros D ops m now max E. destruct (run_map_inv D ops m E) as (Hok & _ & _).
  destruct (prune_abs D now max m Hok) as (m' & removed & E' & Hok' & Hp & Hh).
  exists m', removed. split; [assumption|]. split; [assumption|]. intros s d.
  assert (forall m0, sm_ok D m0 -> (exists w, sm_witness D s d m0 = Some w) <-> sm_has m0 s d) as Hw.
  { intros m0 Hok0. split; intros H.
    - destruct H as [w Hw]. unfold sm_witness in Hw. apply (sm_get_has D m0 s d Hok0).
      destruct (rb_get s (sm_map m0)) as [sub|] eqn:E1; [|discriminate]. cbn [mbind option_bind] in Hw.
      destruct (rb_get d sub) as [[]|] eqn:E2; [|discriminate]. eauto.
    - destruct (sm_witness_ok D s d m0 Hok0 H) as (w & Hw & _). eauto. }
  rewrite (Hw m' Hok'), (Hw m Hok). apply Hh.
Qed.

(** The queue lists every put that has not been pruned. *)
Theorem C17_queue_is_unpruned_puts : forall D ops m, run_map D ops sm_empty = Done m ->
  exists a, abs_run ops a /\ Permutation (map entry (sm_queue m)) (abs_entries a).
Proof.
  intros D ops m E. destruct (run_map_abs D ops) as (m' & E' & _ & Hrun).
  assert (m' = m) as -> by congruence. exists (abs_of m). split; [assumption|]. reflexivity.
Qed.

Example C17_case : exists m m', 
  run_map CD [MPut 3 s1 d1; MPut 1 s2 d1; MPut 2 s1 d2; MPut (90 * sec) s2 d2] sm_empty = Done m /\
  sm_prune_expired CD (61 * sec) 2 m = Done (m', 2) /\
  map se_at (sm_queue m') = [60 * sec + 3; 150 * sec].
Proof. eexists _, _. split; [vm_compute; reflexivity|]. split; vm_compute; reflexivity. Qed.

(** ** C18 A stored delegation is available for one minute *)

Fixpoint nondecreasing (from : N) (ops : list map_op) : Prop :=
  match ops with
  | [] => True
  | op :: ops => match op_time op with
                 | Some t => from <= t /\ nondecreasing t ops
                 | None => nondecreasing from ops
                 end
  end.
Definition all_before (now : N) (ops : list map_op) : Prop :=
  forall op t, In op ops -> op_time op = Some t -> t <= now.

Definition C18_claim (D : Deps) : Prop := forall ops1 t s d ops2 now m,
  nondecreasing 0 (ops1 ++ MPut t s d :: ops2) -> all_before now ops2 -> ~ In (MDelete s d) ops2 ->
  t <= now -> now < t + one_minute -> now <= 18446744073709551615 ->
  run_map D (ops1 ++ MPut t s d :: ops2) sm_empty = Done m ->
  sm_is_expired now s d m = false /\ exists w, sm_witness D s d m = Some w.

Lemma nondecreasing_ge from ops : nondecreasing from ops ->
  forall op t, In op ops -> op_time op = Some t -> from <= t.
Proof.
  revert from. induction ops as [|op ops IH]; intros from Hn op' t Hin Ht; [destruct Hin|].
  cbn in Hn. destruct (op_time op) as [t0|] eqn:E.
  - destruct Hn as [H1 H2]. destruct Hin as [<-|Hin]; [congruence|]. specialize (IH _ H2 _ _ Hin Ht). lia.
  - destruct Hin as [<-|Hin]; [congruence|]. eauto.
Qed.

Lemma nondecreasing_after from ops1 t s d ops2 : nondecreasing from (ops1 ++ MPut t s d :: ops2) ->
  nondecreasing t ops2.
Proof.
  revert from. induction ops1 as [|op ops1 IH]; intros from H; cbn in H.
  - tauto.
  - destruct (op_time op); [destruct H as [_ H]|]; eauto.
Qed.

(** It holds if no earlier entry for the pair is left in the queue when it is put
    (in particular if it was never put before), up to the end of representable
    time.  Missing: pairs put again while an older entry is still queued. *)
Theorem C18_available_partial : forall D ops1 m1 t s d ops2 now m,
  nondecreasing 0 (ops1 ++ MPut t s d :: ops2) -> all_before now ops2 -> ~ In (MDelete s d) ops2 ->
  run_map D ops1 sm_empty = Done m1 ->
  (forall e, In e (map entry (sm_queue m1)) -> ~ (en_seed e = s /\ en_delegation e = d)) ->
  now < t + one_minute -> now < 18446744073709551615 ->
  run_map D (ops1 ++ MPut t s d :: ops2) sm_empty = Done m ->
  sm_is_expired now s d m = false /\ exists w, sm_witness D s d m = Some w.
Proof.
  intros D ops1 m1 t s d ops2 now m Hnd Hall Hdel E1 Hnew Hnow Hmax E.
  rewrite run_map_app, E1 in E. cbn [obind run_map] in E.
  destruct (run_map_inv D ops1 m1 E1) as (Hok1 & _ & _).
  destruct (map_step_ok D (MPut t s d) m1 Hok1) as (m2 & n & E2 & Hok2 & _). rewrite E2 in E. cbn [obind fst] in E.
  set (T := sat_add t DELEGATION_SIGNATURE_EXPIRES_AT).
  assert (now < T) as HT by (unfold T; rewrite <- put_expiry; lia).
  assert (fresh T s d m2) as Hfresh.
  { cbn [map_step] in E2. destruct (sm_put_ok D t s d m1 Hok1) as (m2' & E2' & _ & Hhas & Hq).
    rewrite E2' in E2. cbn [obind] in E2. assert (m2' = m2) as -> by congruence. split; [apply Hhas; auto|].
    intros e He Hs Hd. rewrite Hq in He. destruct He as [<-|He]; [reflexivity|].
    contradiction (Hnew (entry e)); [now apply in_map|auto]. }
  apply nondecreasing_after in Hnd.
  assert (forall t', t <= t' -> T <= sat_add t' DELEGATION_SIGNATURE_EXPIRES_AT) as Hmono.
  { intros t' Ht. unfold T, sat_add. lia. }
  clear E1 E2 Hok1 Hnew m1 ops1. revert m2 Hok2 Hfresh E.
  assert (forall op t', In op ops2 -> op_time op = Some t' -> t <= t' /\ t' <= now) as Htimes.
  { intros op t' Hin Ht. split; [eapply nondecreasing_ge; eauto|eapply Hall; eauto]. }
  clear Hnd Hall. induction ops2 as [|op ops2 IH]; intros m2 Hok2 Hfresh E; cbn [run_map] in E.
  - assert (m2 = m) as -> by congruence. split.
    + apply (fresh_not_expired now T s d m Hfresh). lia.
    + destruct Hfresh as [Hh _]. destruct (sm_witness_ok D s d m Hok2 Hh) as (w & Hw & _). eauto.
  - destruct (map_step_ok D op m2 Hok2) as (m3 & n3 & E3 & Hok3 & _). rewrite E3 in E. cbn [obind fst] in E.
    apply (IH ltac:(intros H; apply Hdel; right; exact H) ltac:(intros; eapply Htimes; [right; eassumption|assumption]) m3 Hok3); [|assumption].
    apply (fresh_step D op m2 m3 n3 T s d Hok2 E3); auto.
    + intros ->. apply Hdel. left. reflexivity.
    + intros t' Ht. destruct (Htimes op t' (or_introl eq_refl) Ht). lia.
    + intros t' ->. apply Hmono. destruct (Htimes (MPut t' s d) t' (or_introl eq_refl) eq_refl). lia.
Qed.

Theorem C18_never_put_before : forall D ops1 t s d ops2 now m,
  nondecreasing 0 (ops1 ++ MPut t s d :: ops2) -> all_before now ops2 -> ~ In (MDelete s d) ops2 ->
  (forall t', ~ In (MPut t' s d) ops1) ->
  now < t + one_minute -> now < 18446744073709551615 ->
  run_map D (ops1 ++ MPut t s d :: ops2) sm_empty = Done m ->
  sm_is_expired now s d m = false /\ exists w, sm_witness D s d m = Some w.
Proof.
  intros D ops1 t s d ops2 now m Hnd Hall Hdel Hnew. destruct (C16_no_fault D ops1) as [m1 E1].
  apply (C18_available_partial D ops1 m1); auto. intros e He [Hs Hd].
  apply in_map_iff in He as (x & <- & Hx). destruct (run_map_inv D ops1 m1 E1) as (_ & _ & Hf).
  destruct (Hf x Hx) as (t' & Ht & _). cbn in Hs, Hd. rewrite Hs, Hd in Ht. now apply (Hnew t').
Qed.

(** False in general: put twice, 30 seconds apart; the older entry prunes the newer
    one after 60 seconds, and even without pruning it reports it expired. *)
Theorem C18_available_refuted : forall D, ~ C18_claim D.
Proof.
  intros D Hc. set (ops2 := [MPrune (60 * sec) 10]).
  destruct (C16_no_fault D ([MPut 0 s1 d1] ++ MPut (30 * sec) s1 d1 :: ops2)) as [m E].
  destruct (Hc [MPut 0 s1 d1] (30 * sec) s1 d1 ops2 (60 * sec) m) as [_ [w Hw]].
  - vm_compute. repeat split; discriminate.
  - intros op t [<-|[]] [= <-]. reflexivity.
  - intros [H|[]]. discriminate.
  - vm_compute. discriminate.
  - reflexivity.
  - vm_compute. discriminate.
  - assumption.
  - (* the prune removed the pair *)
    rewrite (run_map_app D [MPut 0 s1 d1; MPut (30 * sec) s1 d1] ops2) in E.
    destruct (C16_no_fault D [MPut 0 s1 d1; MPut (30 * sec) s1 d1]) as [m0 E0]. rewrite E0 in E. cbn [obind] in E.
    destruct (run_map_inv D _ m0 E0) as (Hok0 & _ & _).
    unfold ops2 in E. cbn [run_map map_step] in E.
    destruct (prune_abs D (60 * sec) 10 m0 Hok0) as (m1 & removed & E1 & Hok1 & (P1 & P2 & P3 & P4) & Hh).
    rewrite E1 in E. cbn [obind fst] in E. assert (m1 = m) as -> by congruence.
    assert (Permutation (map entry (sm_queue m0)) [mkEntry s1 d1 (90 * sec); mkEntry s1 d1 (60 * sec)]) as Q.
    { cbn [run_map map_step] in E0. destruct (sm_put_ok D 0 s1 d1 sm_empty (sm_ok_empty D)) as (ma & Ea & Hoka & _ & Qa).
      rewrite Ea in E0. cbn [obind fst] in E0.
      destruct (sm_put_ok D (30 * sec) s1 d1 ma Hoka) as (mb & Eb & _ & _ & Qb). rewrite Eb in E0. cbn [obind fst] in E0.
      assert (mb = m0) as -> by congruence. rewrite Qb, Qa. reflexivity. }
    assert (length removed = 1%nat) as Hlen.
    { rewrite P2. rewrite (Permutation_length (filter_perm _ _ _ Q)). reflexivity. }
    destruct removed as [|e [|]]; try discriminate.
    assert (In e [mkEntry s1 d1 (90 * sec); mkEntry s1 d1 (60 * sec)]) as Hin.
    { rewrite <- Q, P1. left. reflexivity. }
    assert (sm_has m s1 d1) as Hhas.
    { unfold sm_witness in Hw. apply (sm_get_has D m s1 d1 Hok1).
      destruct (rb_get s1 (sm_map m)) as [sub|] eqn:F1; [|discriminate]. cbn [mbind option_bind] in Hw.
      destruct (rb_get d1 sub) as [[]|] eqn:F2; [|discriminate]. eauto. }
    apply Hh in Hhas as [_ Hnot]. apply Hnot. exists e. split; [left; reflexivity|].
    destruct Hin as [<-|[<-|[]]]; auto.
Qed.

(** Also without any pruning: the older entry makes is_expired answer true. *)
Example C18_refuted_by_query : exists m,
  run_map CD [MPut 0 s1 d1; MPut (30 * sec) s1 d1] sm_empty = Done m /\
  sm_is_expired (60 * sec + 1) s1 d1 m = true /\ 60 * sec + 1 < 30 * sec + one_minute.
Proof. eexists. split; [vm_compute; reflexivity|]. split; vm_compute; reflexivity. Qed.

(** ** C19 An expired delegation is never handed out *)

Theorem C19_expired_never_handed_out : forall D ops m now seed dh,
  run_map D ops sm_empty = Done m ->
  (forall t, In (MPut t (d_sha256 D seed) dh) ops -> t + one_minute < now) ->
  witness D now m seed dh = Err SignatureExpired \/ witness D now m seed dh = Err SignatureNotFound.
Proof.
  intros D ops m now seed dh E Hold. destruct (run_map_inv D ops m E) as (Hok & Hq & Hf).
  unfold witness, hash_bytes. destruct (sm_is_expired now (d_sha256 D seed) dh m) eqn:Ex; [auto|]. right.
  destruct (sm_witness D (d_sha256 D seed) dh m) as [w|] eqn:Ew; [|reflexivity]. exfalso.
  assert (sm_has m (d_sha256 D seed) dh) as Hh.
  { unfold sm_witness in Ew. apply (sm_get_has D m _ _ Hok).
    destruct (rb_get (d_sha256 D seed) (sm_map m)) as [sub|] eqn:F1; [|discriminate]. cbn [mbind option_bind] in Ew.
    destruct (rb_get dh sub) as [[]|] eqn:F2; [|discriminate]. eauto. }
  destruct (Hq _ _ Hh) as (e & He & Hs & Hd). unfold sm_is_expired in Ex.
  destruct (List.find _ (sm_queue m)) as [x|] eqn:Efind.
  - apply List.find_some in Efind as [Hx Hm]. apply andb_true_iff in Hm as [H1 H2].
    apply bytes_eqb_spec in H1, H2. destruct (Hf x Hx) as (t & Ht & Hat). rewrite H1, H2 in Ht.
    specialize (Hold t Ht). rewrite Hat, <- put_expiry in Ex. lia.
  - apply (List.find_none _ _ Efind) in He. rewrite Hs, Hd, !bytes_eqb_refl in He. discriminate.
Qed.

(** Not pruned yet, still refused; one nanosecond earlier it is handed out. *)
Example C19_case : exists m w, run_map CD [MPut 7 (d_sha256 CD s1) d1] sm_empty = Done m /\
  witness CD (7 + one_minute + 1) m s1 d1 = Err SignatureExpired /\
  witness CD (7 + one_minute) m s1 d1 = Ok w.
Proof. eexists _, _. split; [vm_compute; reflexivity|]. split; vm_compute; reflexivity. Qed.

Print Assumptions C14_refines_set.
Print Assumptions C15_witness_sound.
Print Assumptions C15_internal_error_unreachable.
Print Assumptions C16_no_fault.
Print Assumptions C16_ordered_and_balanced.
Print Assumptions C17_prune_exact.
Print Assumptions C17_queue_is_unpruned_puts.
Print Assumptions C18_available_partial.
Print Assumptions C18_never_put_before.
Print Assumptions C18_available_refuted.
Print Assumptions C19_expired_never_handed_out.
