(** Invariants of the signature map and its witnesses. *)
From Coq Require Import Strings.String ZifyBool ZifyN ZifyNat Sorting.Sorted.
From Verif Require Import Base BaseLemmas Deps HashTree SpecHash HashProofs RbTree RbProofs Heap HeapProofs SigMap SpecTree.
Local Open Scope N_scope.

Lemma reconstruct_hash D t : reconstruct D t = tree_hash (d_sha256 D) t.
Proof.
  induction t as [|l IHl r IHr|label t IH|b|h]; cbn [reconstruct tree_hash]; try reflexivity.
  - unfold fork_hash. now rewrite IHl, IHr.
  - unfold labeled_hash. now rewrite IH.
Qed.

(** ** Witnesses of one tree *)

Section Witness.
  Context {V : Type}.
  Variable D : Deps.
  Variable vhash : V -> bytes.

  Definition forest_ok (t : rbt V) (w : hash_tree) : Prop :=
    StronglySorted lex_lt (labels (flatten_forks w)) /\
    Forall (fun l => exists v, In (l, v) (elems t)) (labels (flatten_forks w)).

  Lemma labels_app a b : labels (a ++ b) = labels a ++ labels b.
  Proof. induction a as [|[] a IH]; cbn; rewrite ?IH; reflexivity. Qed.

  Lemma flatten_three l m r : flatten_forks (three_way_fork l m r) =
    flatten_forks l ++ flatten_forks m ++ flatten_forks r.
  Proof. destruct l, r; cbn; rewrite ?app_nil_r, <- ?app_assoc; reflexivity. Qed.

  Lemma flatten_pruned (t : rbt V) : labels (flatten_forks (pruned t)) = [].
  Proof. destruct t; reflexivity. Qed.

  Lemma pruned_in (t : rbt V) x : In x (flatten_forks (pruned t)) -> exists h, x = HPruned h.
  Proof. destruct t; cbn; [intros []|]. intros [<-|[]]. eauto. Qed.

  Lemma sl_app (a b : list bytes) x : StronglySorted lex_lt a -> StronglySorted lex_lt b ->
    Forall (fun y => bytes_cmp y x = Lt) a -> Forall (fun y => bytes_cmp x y = Lt) b ->
    StronglySorted lex_lt (a ++ x :: b).
  Proof.
    intros Ha Hb HA HB. induction Ha as [|y a Ha IH HF]; cbn [app].
    - constructor; [assumption|]. revert HB. apply List.Forall_impl. intros z. apply bytes_cmp_lex.
    - apply List.Forall_cons_iff in HA as [Hy HA]. constructor; [auto|].
      apply List.Forall_app. split; [assumption|]. constructor; [now apply bytes_cmp_lex|].
      revert HB. apply List.Forall_impl. intros z Hz. apply bytes_cmp_lex. eapply bytes_cmp_lt_trans; eassumption.
  Qed.

  Lemma label_found_inv l t ts : label_found l t ts -> exists bef aft, ts = bef ++ HLabeled l t :: aft.
  Proof. intros [bef aft]. eauto. Qed.

  Lemma rb_witness_ok key f t v w : bst t -> hok D vhash t -> In (key, v) (elems t) ->
    f v = Some w -> reconstruct D w = vhash v ->
    exists w', rb_witness vhash key f t = Some w' /\ w' <> HEmpty /\
      reconstruct D w' = rb_root_hash D t /\
      forest_ok t w' /\ label_found key w (flatten_forks w') /\
      (forall x, In x (flatten_forks w') ->
         x = HLabeled key w \/ (exists h, x = HPruned h) \/ (exists l h, x = HLabeled l (HPruned h))).
  Proof.
    unfold bst, forest_ok. intros Hs Hh Hin Hf Hw.
    induction t as [|c l IHl k u h r IHr]; [destruct Hin|].
    cbn [elems hok rb_witness] in *. destruct Hh as (-> & Hhl & Hhr).
    pose proof Hs as Hs0. apply sorted_mid in Hs as (Hsl & Hsr & HL & HR).
    destruct (bytes_cmp key k) eqn:Ek.
    - apply bytes_cmp_eq in Ek. subst key.
      assert (u = v) as -> by (eapply sorted_in_unique; [exact Hs0| |exact Hin]; apply in_app_iff; right; left; reflexivity).
      rewrite Hf. cbn [mbind option_bind]. eexists. split; [reflexivity|].
      split; [destruct l, r; discriminate|].
      split.
      { destruct l, r; cbn; rewrite ?Hw; reflexivity. }
      rewrite flatten_three, !labels_app, !flatten_pruned. cbn.
      split; [split; [repeat constructor|]|].
      { repeat constructor. exists v. assumption. }
      split; [constructor|].
      intros x. rewrite in_app_iff. cbn [In]. intros [H|[H|H]]; eauto using pruned_in.
    - assert (In (key, v) (elems l)) as Hin'.
      { apply in_app_iff in Hin as [H|[H|H]]; [assumption| |].
        - injection H as -> _. now rewrite bytes_cmp_refl in Ek.
        - apply above_weaken with (k' := key) in HR; [|assumption]. now apply above_in in H. }
      destruct (IHl Hsl Hhl Hin') as (w' & -> & Hne & Hrec & (HS & HK) & Hfound & Hx); apply label_found_inv in Hfound as (bef & aft & E).
      cbn [mbind option_bind]. eexists. split; [reflexivity|].
      split; [destruct w', r; try discriminate; congruence|].
      split.
      { destruct l as [|? ? ? ? ? ?]; [destruct Hin'|]. destruct w'; [contradiction| | | |]; destruct r; cbn [three_way_fork pruned reconstruct node_hash rb_root_hash] in *; rewrite Hrec; reflexivity. }
      rewrite flatten_three, !labels_app, flatten_pruned. cbn [flatten_forks labels app].
      assert (Forall (fun y => bytes_cmp y k = Lt) (labels (flatten_forks w'))) as Hlt.
      { revert HK. apply List.Forall_impl. intros y [z Hz]. unfold below in HL. rewrite List.Forall_forall in HL. exact (HL _ Hz). }
      split; [split|].
      + apply sl_app; auto; constructor.
      + apply List.Forall_app. split.
        * revert HK. apply List.Forall_impl. intros y [z Hz]. exists z. apply in_app_iff. auto.
        * repeat constructor. exists u. apply in_app_iff. right. left. reflexivity.
      + split; [rewrite E, <- app_assoc; cbn [app]; constructor|].
        intros x. rewrite in_app_iff. cbn [In]. intros [H|[H|H]]; [auto| |eauto using pruned_in].
        right. right. subst x. eauto.
    - assert (In (key, v) (elems r)) as Hin'.
      { apply bytes_cmp_lt_gt in Ek. apply in_app_iff in Hin as [H|[H|H]]; [| |assumption].
        - apply below_weaken with (k' := key) in HL; [|assumption]. now apply below_in in H.
        - injection H as -> _. now rewrite bytes_cmp_refl in Ek. }
      destruct (IHr Hsr Hhr Hin') as (w' & -> & Hne & Hrec & (HS & HK) & Hfound & Hx); apply label_found_inv in Hfound as (bef & aft & E).
      cbn [mbind option_bind]. eexists. split; [reflexivity|].
      split; [destruct w', l; try discriminate; congruence|].
      split.
      { destruct r as [|? ? ? ? ? ?]; [destruct Hin'|]. destruct w'; [contradiction| | | |]; destruct l; cbn [three_way_fork pruned reconstruct node_hash rb_root_hash] in *; rewrite Hrec; reflexivity. }
      rewrite flatten_three, !labels_app, flatten_pruned. cbn [flatten_forks labels app].
      assert (Forall (fun y => bytes_cmp k y = Lt) (labels (flatten_forks w'))) as Hlt.
      { revert HK. apply List.Forall_impl. intros y [z Hz]. unfold above in HR. rewrite List.Forall_forall in HR. exact (HR _ Hz). }
      split; [split|].
      + apply (sl_app [] _ k); auto; constructor.
      + constructor; [exists u; apply in_app_iff; right; left; reflexivity|].
        revert HK. apply List.Forall_impl. intros y [z Hz]. exists z. apply in_app_iff. right. right. assumption.
      + split.
        * rewrite E. rewrite app_comm_cons, app_assoc. constructor.
        * intros x. rewrite in_app_iff. cbn [In]. intros [H|[H|H]]; [eauto using pruned_in| |auto].
          right. right. subst x. eauto.
  Qed.

  Lemma forest_wf (t : rbt V) key w w' : forest_ok t w' -> well_formed w ->
    (forall x, In x (flatten_forks w') ->
         x = HLabeled key w \/ (exists h, x = HPruned h) \/ (exists l h, x = HLabeled l (HPruned h))) ->
    well_formed w'.
  Proof.
    intros [HS _] Hw Hx. apply wf_forest; [assumption| |].
    - intros l t' Hin. apply Hx in Hin as [E|[[h E]|[l' [h E]]]]; [congruence|discriminate|].
      injection E as _ ->. apply wf_forest; cbn; [constructor| |].
      + intros ? ? [H|[]]. discriminate.
      + intros ? [H|[]]. discriminate.
    - intros v Hin. apply Hx in Hin as [E|[[h E]|[l' [h E]]]]; discriminate.
  Qed.
End Witness.

(** ** The signature map *)

Lemma exp_le_trans a b c : exp_le a b = true -> exp_le b c = true -> exp_le a c = true.
Proof. unfold exp_le. lia. Qed.
Lemma exp_le_total a b : exp_le a b = true \/ exp_le b a = true.
Proof. unfold exp_le. lia. Qed.

Section SigMap.
  Variable D : Deps.
  Notation sub_ok := (rb_ok D (unit_hash D)).

  Record sm_ok (m : SignatureMap) : Prop := {
    ok_outer : rb_ok D (submap_hash D) (sm_map m);
    ok_inner : Forall (fun p => sub_ok (snd p) /\ snd p <> Null) (elems (sm_map m));
    ok_heap : heap_ok exp_le (sm_queue m)
  }.

  Definition sm_has (m : SignatureMap) (s d : bytes) : Prop :=
    exists sub, In (s, sub) (elems (sm_map m)) /\ In (d, tt) (elems sub).

  Lemma sm_ok_empty : sm_ok sm_empty.
  Proof. split; [apply rb_ok_null|constructor|]. intros i a b _ H. cbn in H. now rewrite lookup_nil in H. Qed.

  Lemma lins_inner (P : bytes * submap -> Prop) k v l : Forall P l -> P (k, v) -> Forall P (lins k v l).
  Proof.
    rewrite !List.Forall_forall. intros H Hv p Hp. apply lins_in in Hp as [-> |[Hp _]]; auto.
  Qed.

  Lemma sm_get_has m s d : sm_ok m -> sm_has m s d <->
    exists sub, rb_get s (sm_map m) = Some sub /\ rb_get d sub = Some tt.
  Proof.
    intros [Ho Hi _]. rewrite List.Forall_forall in Hi. unfold sm_has. split.
    - intros (sub & H1 & H2). exists sub. pose proof (Hi _ H1) as [Hsub _].
      split; (apply rb_get_in; [first [apply Ho|apply Hsub]|assumption]).
    - intros (sub & H1 & H2). apply rb_get_in in H1; [|apply Ho]. pose proof (Hi _ H1) as [Hsub _].
      apply rb_get_in in H2; [|apply Hsub]. eauto.
  Qed.

  (** Storing a new submap under [s]. *)
  Lemma has_lins m t' q s sub : elems t' = lins s sub (elems (sm_map m)) -> forall s' d',
    sm_has (mkSigMap t' q) s' d' <-> (s' = s /\ In (d', tt) (elems sub)) \/ (s' <> s /\ sm_has m s' d').
  Proof.
    intros E s' d'. unfold sm_has. cbn [sm_map]. rewrite E. split.
    - intros (sub' & H1 & H2). apply lins_in in H1 as [H1|[H1 H3]].
      + injection H1 as -> ->. auto.
      + right. eauto.
    - intros [[-> H]|[H1 (sub' & H2 & H3)]].
      + exists sub. split; [|assumption]. apply lins_in. auto.
      + exists sub'. split; [|assumption]. apply lins_in. auto.
  Qed.

  Lemma sm_put_ok now s d m : sm_ok m ->
    exists m', sm_put D now s d m = Done m' /\ sm_ok m' /\
      (forall s' d', sm_has m' s' d' <-> (s' = s /\ d' = d) \/ sm_has m s' d') /\
      sm_queue m' ≡ₚ mkExp s d (sat_add now DELEGATION_SIGNATURE_EXPIRES_AT) :: sm_queue m.
  Proof.
    intros [Ho Hi Hq]. set (e := mkExp s d _).
    destruct (heap_push_ok exp_le exp_le_trans exp_le_total e (sm_queue m) Hq) as [Q1 Q2].
    unfold sm_put. fold e. destruct (rb_get s (sm_map m)) as [sub|] eqn:Eg.
    - pose proof Eg as Hin. apply rb_get_in in Hin; [|apply Ho].
      pose proof Hi as Hi0. rewrite List.Forall_forall in Hi0. destruct (Hi0 _ Hin) as [Hsub _]. cbn [snd] in Hsub.
      destruct (rb_insert_ok D (unit_hash D) d tt sub Hsub) as (sub' & E1 & S1 & S2 & S3).
      destruct (rb_modify_ok D (submap_hash D) s (fun sub => rb_insert D (unit_hash D) d tt sub) _ sub sub' Ho Eg E1)
        as (t' & E2 & T1 & T2).
      rewrite E2. cbn [obind]. eexists. split; [reflexivity|]. split.
      { split; cbn [sm_map sm_queue]; auto. rewrite T2. apply lins_inner; auto. }
      split; [|exact Q2].
      intros s' d'. rewrite (has_lins m t' _ s sub' T2). rewrite S3. split.
      + intros [[-> H]|[H1 H2]]; [|auto]. apply lins_in in H as [[= ->]|[H _]]; [auto|].
        right. exists sub. auto.
      + intros [[-> ->]|H]; [left; split; [reflexivity|]; apply lins_in; auto|].
        destruct (decide (s' = s)) as [->|Hne]; [|auto]. left. split; [reflexivity|].
        destruct (decide (d' = d)) as [->|Hd]; apply lins_in; [now left|]. right. split; [|assumption].
        destruct H as (sub2 & G1 & G2). assert (sub2 = sub) as ->; [|assumption].
        eapply sorted_in_unique; [apply Ho|eassumption|eassumption].
    - destruct (rb_insert_ok D (unit_hash D) d tt Null) as (sub' & E1 & S1 & S2 & S3); [apply rb_ok_null|].
      rewrite E1. cbn [obind].
      destruct (rb_insert_ok D (submap_hash D) s sub' _ Ho) as (t' & E2 & T1 & _ & T2). rewrite E2. cbn [obind].
      eexists. split; [reflexivity|]. split.
      { split; cbn [sm_map sm_queue]; auto. rewrite T2. apply lins_inner; auto. }
      split; [|exact Q2].
      intros s' d'. rewrite (has_lins m t' _ s sub' T2). rewrite S3. cbn. split.
      + intros [[-> [[= ->]|[]]]|[H1 H2]]; auto.
      + intros [[-> ->]|H]; [auto|]. right. split; [|assumption]. intros ->. destruct H as (sub2 & G1 & _).
        apply rb_get_in in G1; [congruence|apply Ho].
  Qed.

  Lemma sm_delete_ok s d m : sm_ok m ->
    exists m', sm_delete D s d m = Done m' /\ sm_ok m' /\
      (forall s' d', sm_has m' s' d' <-> sm_has m s' d' /\ ~ (s' = s /\ d' = d)) /\
      sm_queue m' = sm_queue m.
  Proof.
    intros Hok. pose proof Hok as [Ho Hi Hq]. unfold sm_delete.
    destruct (rb_get s (sm_map m)) as [sub|] eqn:Eg.
    - pose proof Eg as Hin. apply rb_get_in in Hin; [|apply Ho].
      pose proof Hi as Hi0. rewrite List.Forall_forall in Hi0. destruct (Hi0 _ Hin) as [Hsub _]. cbn [snd] in Hsub.
      destruct (rb_delete_ok D (unit_hash D) d sub Hsub) as (sub' & E1 & S1 & S2).
      destruct (rb_modify_ok D (submap_hash D) s (fun sub => rb_delete D (unit_hash D) d sub) _ sub sub' Ho Eg E1)
        as (t' & E2 & T1 & T2).
      rewrite E2. cbn [obind].
      assert (rb_get s t' = Some sub') as Eg'.
      { apply rb_get_in; [apply T1|]. rewrite T2. apply lins_in. auto. }
      rewrite Eg'.
      assert (forall s' d', (s' = s /\ In (d', tt) (elems sub')) \/ (s' <> s /\ sm_has m s' d') <->
                sm_has m s' d' /\ ~ (s' = s /\ d' = d)) as Hhas.
      { intros s' d'. rewrite S2. split.
        - intros [[-> H]|[H1 H2]].
          + apply ldel_in in H as [H H']. cbn in H'. split; [exists sub; auto|]. intros [_ H2]. congruence.
          + split; [assumption|]. intros [? _]. congruence.
        - intros [H1 H2]. destruct (decide (s' = s)) as [->|Hne]; [|auto]. left. split; [reflexivity|].
          destruct H1 as (sub2 & G1 & G2). assert (sub2 = sub) as -> by (eapply sorted_in_unique; [apply Ho|eassumption|eassumption]).
          apply ldel_in. split; [assumption|]. cbn. intros ->. apply H2. auto. }
      destruct (rb_is_empty sub') eqn:Ee.
      + destruct (rb_delete_ok D (submap_hash D) s t' T1) as (t2 & E3 & U1 & U2). rewrite E3. cbn [obind].
        assert (elems sub' = []) as Es by (destruct sub'; [reflexivity|discriminate]).
        eexists. split; [reflexivity|]. split; [split|split; [|reflexivity]]; cbn [sm_map sm_queue]; auto.
        * rewrite U2, T2. apply List.Forall_forall. intros p Hp. apply ldel_in in Hp as [Hp Hne].
          apply lins_in in Hp as [-> |[Hp _]]; [contradiction Hne; reflexivity|auto].
        * intros s' d'. rewrite <- Hhas, Es. unfold sm_has at 1. cbn [sm_map]. rewrite U2, T2. split.
          -- intros (sub2 & G1 & G2). apply ldel_in in G1 as [G1 Hne]. cbn in Hne.
             apply lins_in in G1 as [[= -> ->]|[G1 _]]; [contradiction|]. right. split; [assumption|]. exists sub2. auto.
          -- intros [[_ []]|[Hne (sub2 & G1 & G2)]]. exists sub2. split; [|assumption].
             apply ldel_in. split; [|assumption]. apply lins_in. auto.
      + cbn [obind]. eexists. split; [reflexivity|]. split; [split|split; [|reflexivity]]; cbn [sm_map sm_queue]; auto.
        * rewrite T2. apply lins_inner; auto. split; [assumption|]. cbn. destruct sub'; discriminate.
        * intros s' d'. rewrite <- Hhas. now rewrite (has_lins m t' _ s sub' T2).
    - rewrite rb_modify_absent; [|apply Ho|assumption]. cbn [obind]. rewrite Eg. cbn [obind].
      exists m. split; [destruct m; reflexivity|]. split; [assumption|]. split; [|reflexivity].
      intros s' d'. split; [|tauto]. intros H. split; [assumption|]. intros [-> ->].
      destruct H as (sub2 & G1 & _). apply rb_get_in in G1; [congruence|apply Ho].
  Qed.

  Lemma sm_witness_ok s d m : sm_ok m -> sm_has m s d ->
    exists w, sm_witness D s d m = Some w /\ reconstruct D w = sm_root_hash D m /\
      lookup_found [s; d] w [] /\ well_formed w.
  Proof.
    intros Hok Hhas. pose proof Hok as [Ho Hi _]. apply sm_get_has in Hhas as (sub & G1 & G2); [|assumption].
    pose proof G1 as Hin. apply rb_get_in in Hin; [|apply Ho]. rewrite List.Forall_forall in Hi.
    destruct (Hi _ Hin) as [Hsub _]. cbn [snd] in Hsub.
    pose proof G2 as Hin2. apply rb_get_in in Hin2; [|apply Hsub].
    destruct (rb_witness_ok D (unit_hash D) d unit_tree sub tt (HLeaf [])) as (w1 & E1 & N1 & R1 & F1 & L1 & X1);
      [apply Hsub|apply Hsub|assumption|reflexivity|reflexivity|].
    destruct (rb_witness_ok D (submap_hash D) s (fun nested => rb_witness (unit_hash D) d unit_tree nested) (sm_map m) sub w1)
      as (w2 & E2 & N2 & R2 & F2 & L2 & X2); [apply Ho|apply Ho|assumption|assumption|assumption|].
    exists w2. unfold sm_witness. rewrite G1. cbn [mbind option_bind]. rewrite G2. cbn [mbind option_bind].
    split; [assumption|]. split; [assumption|]. split.
    - eapply lookup_label; [exact L2|]. eapply lookup_label; [exact L1|]. constructor.
    - eapply forest_wf; [exact F2| |exact X2]. eapply forest_wf; [exact F1|constructor|exact X1].
  Qed.

  Lemma sm_witness_none s d m : sm_ok m -> ~ sm_has m s d -> sm_witness D s d m = None.
  Proof.
    intros Hok Hn. unfold sm_witness. destruct (rb_get s (sm_map m)) as [sub|] eqn:G1; [|reflexivity].
    cbn [mbind option_bind]. destruct (rb_get d sub) as [[]|] eqn:G2; [|reflexivity].
    contradiction Hn. apply sm_get_has; eauto.
  Qed.

  (** ** Pruning *)

  Definition entry (e : SigExpiration) : abs_entry := mkEntry (se_seed e) (se_dele e) (se_at e).

  Definition expired_count (now : N) (q : list SigExpiration) : nat :=
    length (List.filter (fun e => se_at e <=? now) q).

  Lemma filter_perm {A} (f : A -> bool) l l' : Permutation l l' -> Permutation (List.filter f l) (List.filter f l').
  Proof.
    induction 1 as [|x l l' H IH|x y l|l l' l'' H1 IH1 H2 IH2]; cbn; [reflexivity| | |etransitivity; eassumption].
    - destruct (f x); [now constructor|assumption].
    - destruct (f x), (f y); try reflexivity. constructor.
  Qed.

  Lemma prune_loop_ok now : forall steps n m, sm_ok m -> (steps <= length (sm_queue m))%nat ->
    exists m' removed, prune_loop D now steps n m = Done (m', n + N.of_nat (length removed)) /\
      sm_ok m' /\ sm_queue m ≡ₚ removed ++ sm_queue m' /\
      length removed = Nat.min steps (expired_count now (sm_queue m)) /\
      Forall (fun e => se_at e <= now) removed /\
      Forall (fun e => Forall (fun e' => se_at e <= se_at e') (sm_queue m')) removed /\
      (forall s d, sm_has m' s d <->
         sm_has m s d /\ ~ (exists e, In e removed /\ se_seed e = s /\ se_dele e = d)).
  Proof.
    induction steps as [|k IH]; intros n m Hok Hle; cbn [prune_loop].
    { exists m, []. cbn [length app]. rewrite N.add_0_r. split; [reflexivity|]. split; [assumption|]. split; [reflexivity|].
      split; [reflexivity|]. split; [constructor|]. split; [constructor|]. intros s d. split; [|tauto].
      intros H. split; [assumption|]. intros (e & [] & _). }
    pose proof (heap_pop_ok exp_le exp_le_trans exp_le_total (sm_queue m) (ok_heap _ Hok)) as Hpop.
    destruct (heap_pop exp_le (sm_queue m)) as [[e q]|] eqn:Epop.
    2:{ rewrite Hpop in Hle. cbn in Hle. lia. }
    destruct Hpop as (Hpeek & Hq & Hperm & Hmin). rewrite Hpeek.
    destruct (N.ltb_spec now (se_at e)) as [Hstop|Hgo].
    - exists m, []. cbn [length app]. rewrite N.add_0_r. split; [reflexivity|]. split; [assumption|].
      split; [reflexivity|]. split.
      { unfold expired_count. rewrite filter_none; [reflexivity|]. apply List.Forall_forall. intros x Hx.
        apply Hmin in Hx. unfold exp_le in Hx. lia. }
      split; [constructor|]. split; [constructor|]. intros s d. split; [|tauto].
      intros H. split; [assumption|]. intros (e' & [] & _).
    - assert (sm_ok (mkSigMap (sm_map m) q)) as Hok1.
      { destruct Hok. split; assumption. }
      destruct (sm_delete_ok (se_seed e) (se_dele e) _ Hok1) as (m1 & E1 & Hok2 & Hhas & Hqueue).
      cbn [sm_queue] in Hqueue. rewrite E1. cbn [obind].
      assert (k <= length (sm_queue m1))%nat as Hle'.
      { rewrite Hqueue. apply Permutation_length in Hperm. cbn in Hperm. lia. }
      destruct (IH (n + 1) m1 Hok2 Hle') as (m' & removed & E & G1 & G2 & G3 & G4 & G5 & G6).
      exists m', (e :: removed). split; [rewrite E; do 2 f_equal; cbn [length]; lia|].
      split; [assumption|]. rewrite Hqueue in *. split; [rewrite Hperm, G2; reflexivity|].
      split.
      { cbn [length]. rewrite G3. unfold expired_count.
        rewrite (Permutation_length (filter_perm _ _ _ Hperm)). cbn [List.filter].
        destruct (N.leb_spec (se_at e) now); [cbn [length]; lia|lia]. }
      split; [constructor; assumption|]. split.
      { constructor; [|assumption]. apply List.Forall_forall. intros x Hx.
        assert (In x (sm_queue m)) as Hin.
        { rewrite Hperm, G2. right. apply in_app_iff. auto. }
        apply Hmin in Hin. unfold exp_le in Hin. lia. }
      intros s d. rewrite G6, Hhas. split.
      + intros ((H1 & H2) & H3). split; [assumption|]. intros (x & [<-|Hx] & <- & <-); [apply H2; auto|].
        apply H3. exists x. auto.
      + intros (H1 & H2). split; [split; [assumption|]|].
        * intros [-> ->]. apply H2. exists e. cbn. auto.
        * intros (x & Hx & <- & <-). apply H2. exists x. cbn. auto.
  Qed.

  Lemma sm_prune_ok now max m : sm_ok m ->
    exists m' removed, sm_prune_expired D now max m = Done (m', N.of_nat (length removed)) /\
      sm_ok m' /\ sm_queue m ≡ₚ removed ++ sm_queue m' /\
      length removed = Nat.min max (expired_count now (sm_queue m)) /\
      Forall (fun e => se_at e <= now) removed /\
      Forall (fun e => Forall (fun e' => se_at e <= se_at e') (sm_queue m')) removed /\
      (forall s d, sm_has m' s d <->
         sm_has m s d /\ ~ (exists e, In e removed /\ se_seed e = s /\ se_dele e = d)).
  Proof.
    intros Hok. destruct (prune_loop_ok now (Nat.min max (length (sm_queue m))) 0 m Hok) as (m' & removed & E & G1 & G2 & G3 & G); [lia|].
    exists m', removed. unfold sm_prune_expired. rewrite E. split; [reflexivity|].
    split; [assumption|]. split; [assumption|]. split; [|assumption].
    rewrite G3. assert (expired_count now (sm_queue m) <= length (sm_queue m))%nat; [|lia].
    unfold expired_count. clear. induction (sm_queue m) as [|x l IH]; cbn; [lia|]. destruct (_ <=? _); cbn; lia.
  Qed.
End SigMap.
