(** Histories of operations on a signature map. *)
From Coq Require Import Strings.String ZifyBool ZifyN ZifyNat Sorting.Sorted.
From Verif Require Import Base BaseLemmas Deps HashTree RbTree RbProofs Heap HeapProofs SigMap SpecTree SigMapProofs.
Local Open Scope N_scope.

(** Running one operation; the number is what prune_expired returns. *)
Definition map_step (D : Deps) (op : map_op) (m : SignatureMap) : outcome (SignatureMap * N) :=
  match op with
  | MPut now s d => olet m' := sm_put D now s d m in Done (m', 0)
  | MDelete s d => olet m' := sm_delete D s d m in Done (m', 0)
  | MPrune now max => sm_prune_expired D now max m
  end.

Fixpoint run_map (D : Deps) (ops : list map_op) (m : SignatureMap) : outcome SignatureMap :=
  match ops with
  | [] => Done m
  | op :: ops => olet r := map_step D op m in run_map D ops (fst r)
  end.

Lemma run_map_app D ops1 ops2 m : run_map D (ops1 ++ ops2) m = olet m1 := run_map D ops1 m in run_map D ops2 m1.
Proof.
  revert m. induction ops1 as [|op ops1 IH]; intros m; [reflexivity|]. cbn [run_map app].
  destruct (map_step D op m) as [r|]; cbn [obind]; [apply IH|reflexivity].
Qed.

(** The abstraction of a concrete map. *)
Definition abs_of (m : SignatureMap) : abs_map := mkAbs (sm_has m) (map entry (sm_queue m)).

Lemma filter_map {A B} (f : A -> B) p l : List.filter p (map f l) = map f (List.filter (fun x => p (f x)) l).
Proof. induction l as [|x l IH]; cbn; [reflexivity|]. destruct (p (f x)); cbn; now rewrite IH. Qed.

Lemma prune_abs D now max m : sm_ok D m -> exists m' removed,
  sm_prune_expired D now max m = Done (m', N.of_nat (length removed)) /\ sm_ok D m' /\
  prunes now max (map entry (sm_queue m)) removed (map entry (sm_queue m')) /\
  (forall s d, sm_has m' s d <-> sm_has m s d /\
     ~ (exists e, In e removed /\ en_seed e = s /\ en_delegation e = d)).
Proof.
  intros Hok. destruct (sm_prune_ok D now max m Hok) as (m' & removed & E & G1 & G2 & G3 & G4 & G5 & G6).
  exists m', (map entry removed). rewrite map_length. split; [assumption|]. split; [assumption|]. split.
  - split; [rewrite <- map_app; now apply Permutation_map|]. split.
    + rewrite map_length, filter_map, map_length. exact G3.
    + rewrite !List.Forall_map. split; [exact G4|]. revert G5. apply List.Forall_impl. intros e He.
      rewrite List.Forall_map. exact He.
  - intros s d. rewrite G6. split; intros [H1 H2]; (split; [assumption|]); intros (e & He & <- & <-); apply H2.
    + apply in_map_iff in He as (x & <- & Hx). exists x. auto.
    + exists (entry e). split; [now apply in_map|auto].
Qed.

Lemma put_expiry now : N.min (now + one_minute) 18446744073709551615 = sat_add now DELEGATION_SIGNATURE_EXPIRES_AT.
Proof.
  unfold sat_add, u64_max. reflexivity.
Qed.

Lemma map_step_ok D op m : sm_ok D m -> exists m' n,
  map_step D op m = Done (m', n) /\ sm_ok D m' /\ abs_step op (abs_of m) (abs_of m') n.
Proof.
  intros Hok. destruct op as [now s d|s d|now max]; cbn [map_step].
  - destruct (sm_put_ok D now s d m Hok) as (m' & E & G1 & G2 & G3). exists m', 0. rewrite E. cbn [obind].
    split; [reflexivity|]. split; [assumption|]. constructor; [assumption|].
    apply (Permutation_map entry) in G3. rewrite put_expiry. exact G3.
  - destruct (sm_delete_ok D s d m Hok) as (m' & E & G1 & G2 & G3). exists m', 0. rewrite E. cbn [obind].
    split; [reflexivity|]. split; [assumption|]. constructor; [assumption|]. now rewrite G3.
  - destruct (prune_abs D now max m Hok) as (m' & removed & E & G1 & G2 & G3).
    exists m', (N.of_nat (length removed)). split; [assumption|]. split; [assumption|]. now apply (abs_prune _ _ _ _ _ _ removed).
Qed.

Lemma run_map_ok D ops : forall m, sm_ok D m -> exists m', run_map D ops m = Done m' /\ sm_ok D m'.
Proof.
  induction ops as [|op ops IH]; intros m Hok; cbn [run_map]; [eauto|].
  destruct (map_step_ok D op m Hok) as (m' & n & -> & Hok' & _). cbn [obind fst]. auto.
Qed.

Lemma run_map_abs D ops : exists m, run_map D ops sm_empty = Done m /\ sm_ok D m /\
  abs_run ops (abs_of m).
Proof.
  induction ops as [|op ops IH] using rev_ind.
  - exists sm_empty. split; [reflexivity|]. split; [apply sm_ok_empty|].
    apply run_nil. intros s d (sub & [] & _).
  - destruct IH as (m & E & Hok & Hrun). destruct (map_step_ok D op m Hok) as (m' & n & E' & Hok' & Hstep).
    exists m'. rewrite run_map_app, E. cbn [obind run_map]. rewrite E'. cbn [obind fst].
    split; [reflexivity|]. split; [assumption|]. econstructor; eassumption.
Qed.

(** ** Where queue entries come from, and what keeps a pair alive *)

Definition is_put_of (s d : bytes) (t : N) (op : map_op) : Prop := op = MPut t s d.

Lemma step_queue D op m m' n : sm_ok D m -> map_step D op m = Done (m', n) ->
  forall e, In e (sm_queue m') -> In e (sm_queue m) \/
    (exists t s d, op = MPut t s d /\ e = mkExp s d (sat_add t DELEGATION_SIGNATURE_EXPIRES_AT)).
Proof.
  intros Hok E e He. destruct op as [now s d|s d|now max]; cbn [map_step] in E.
  - destruct (sm_put_ok D now s d m Hok) as (m1 & E1 & _ & _ & G). rewrite E1 in E. cbn [obind] in E.
    assert (m1 = m') as -> by congruence. rewrite G in He. destruct He as [<-|He]; [|auto]. right. eauto.
  - destruct (sm_delete_ok D s d m Hok) as (m1 & E1 & _ & _ & G). rewrite E1 in E. cbn [obind] in E.
    assert (m1 = m') as -> by congruence. rewrite G in He. auto.
  - destruct (sm_prune_ok D now max m Hok) as (m1 & removed & E1 & _ & G & _). rewrite E1 in E.
    assert (m1 = m') as -> by congruence. left. rewrite G. apply in_app_iff. auto.
Qed.

(** Every pair in the map has a queue entry. *)
Definition queued (m : SignatureMap) : Prop := forall s d, sm_has m s d ->
  exists e, In e (sm_queue m) /\ se_seed e = s /\ se_dele e = d.

Lemma step_queued D op m m' n : sm_ok D m -> queued m -> map_step D op m = Done (m', n) -> queued m'.
Proof.
  intros Hok Hq E s' d' Hh. destruct op as [now s d|s d|now max]; cbn [map_step] in E.
  - destruct (sm_put_ok D now s d m Hok) as (m1 & E1 & _ & Hhas & G). rewrite E1 in E. cbn [obind] in E.
    assert (m1 = m') as -> by congruence. apply Hhas in Hh as [[-> ->]|Hh].
    + exists (mkExp s d (sat_add now DELEGATION_SIGNATURE_EXPIRES_AT)). split; [|auto]. rewrite G. left. reflexivity.
    + destruct (Hq _ _ Hh) as (e & He & H). exists e. split; [|assumption]. rewrite G. right. assumption.
  - destruct (sm_delete_ok D s d m Hok) as (m1 & E1 & _ & Hhas & G). rewrite E1 in E. cbn [obind] in E.
    assert (m1 = m') as -> by congruence. apply Hhas in Hh as [Hh _]. rewrite G. auto.
  - destruct (sm_prune_ok D now max m Hok) as (m1 & removed & E1 & _ & G & _ & _ & _ & Hhas). rewrite E1 in E.
    assert (m1 = m') as -> by congruence. apply Hhas in Hh as [Hh Hnot].
    destruct (Hq _ _ Hh) as (e & He & Hs & Hd). exists e. split; [|auto]. rewrite G in He.
    apply in_app_iff in He as [He|He]; [|assumption]. contradiction Hnot. eauto.
Qed.

(** Queue entries come from the puts of the history. *)
Definition entries_from (ops : list map_op) (m : SignatureMap) : Prop := forall e, In e (sm_queue m) ->
  exists t, In (MPut t (se_seed e) (se_dele e)) ops /\ se_at e = sat_add t DELEGATION_SIGNATURE_EXPIRES_AT.

Lemma run_map_inv D ops m : run_map D ops sm_empty = Done m ->
  sm_ok D m /\ queued m /\ entries_from ops m.
Proof.
  revert m. induction ops as [|op ops IH] using rev_ind; intros m E.
  - assert (m = sm_empty) as -> by (cbn in E; congruence). split; [apply sm_ok_empty|]. split.
    + intros s d (sub & [] & _).
    + intros e [].
  - rewrite run_map_app in E. destruct (run_map D ops sm_empty) as [m0|] eqn:E0; [|discriminate].
    destruct (IH m0 eq_refl) as (Hok & Hq & He). cbn [obind run_map] in E.
    destruct (map_step_ok D op m0 Hok) as (m1 & n & E1 & Hok1 & _). rewrite E1 in E. cbn [obind fst] in E.
    assert (m1 = m) as -> by congruence. split; [assumption|]. split; [exact (step_queued D op m0 m n Hok Hq E1)|].
    intros e Hin. apply (step_queue D op m0 m n Hok E1) in Hin as [Hin|(t & s & d & -> & ->)].
    + destruct (He e Hin) as (t & Ht & Hat). exists t. split; [|assumption]. apply in_app_iff. auto.
    + exists t. split; [|reflexivity]. apply in_app_iff. right. left. reflexivity.
Qed.

(** ** Availability *)

Definition op_time (op : map_op) : option N :=
  match op with MPut t _ _ => Some t | MDelete _ _ => None | MPrune t _ => Some t end.

(** The pair is in the map and every queue entry for it expires at [T] or later. *)
Definition fresh (T : N) (s d : bytes) (m : SignatureMap) : Prop :=
  sm_has m s d /\ forall e, In e (sm_queue m) -> se_seed e = s -> se_dele e = d -> T <= se_at e.

Lemma fresh_step D op m m' n T s d : sm_ok D m -> map_step D op m = Done (m', n) ->
  op <> MDelete s d ->
  (forall t, op_time op = Some t -> t < T) ->
  (forall t, op = MPut t s d -> T <= sat_add t DELEGATION_SIGNATURE_EXPIRES_AT) ->
  fresh T s d m -> fresh T s d m'.
Proof.
  intros Hok E Hnd Ht Hput [Hh Hf]. split.
  - destruct op as [now s' d'|s' d'|now max]; cbn [map_step] in E.
    + destruct (sm_put_ok D now s' d' m Hok) as (m1 & E1 & _ & Hhas & G). rewrite E1 in E. cbn [obind] in E.
      assert (m1 = m') as -> by congruence. apply Hhas. auto.
    + destruct (sm_delete_ok D s' d' m Hok) as (m1 & E1 & _ & Hhas & G). rewrite E1 in E. cbn [obind] in E.
      assert (m1 = m') as -> by congruence. apply Hhas. split; [assumption|]. intros [-> ->]. now apply Hnd.
    + destruct (sm_prune_ok D now max m Hok) as (m1 & removed & E1 & _ & G & _ & Hexp & _ & Hhas). rewrite E1 in E.
      assert (m1 = m') as -> by congruence. apply Hhas. split; [assumption|]. intros (e & He & Hs & Hd).
      rewrite List.Forall_forall in Hexp. pose proof (Hexp e He) as Hle. specialize (Ht now eq_refl).
      assert (In e (sm_queue m)) as Hin by (rewrite G; apply in_app_iff; auto).
      specialize (Hf e Hin Hs Hd). lia.
  - intros e He Hs Hd. apply (step_queue D op m m' n Hok E) in He as [He|(t & s' & d' & -> & ->)]; [auto|].
    cbn in *. subst s' d'. now apply Hput.
Qed.

Lemma fresh_not_expired now T s d m : fresh T s d m -> now <= T -> sm_is_expired now s d m = false.
Proof.
  intros [_ Hf] Hlt. unfold sm_is_expired. destruct (List.find _ _) as [e|] eqn:E; [|reflexivity].
  apply List.find_some in E as [He Hm]. apply andb_true_iff in Hm as [H1 H2].
  apply bytes_eqb_spec in H1, H2. specialize (Hf e He H1 H2). lia.
Qed.
