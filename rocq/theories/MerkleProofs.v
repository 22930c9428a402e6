(** Soundness of hash trees: a tree with the certified root shows nothing but what the
    certified tree contains. *)
From Coq Require Import Strings.String ZifyBool ZifyN ZifyNat.
From Verif Require Import Base BaseLemmas Deps Hex Eth Hash HashTree RbTree RbProofs SigMap Time3339 Settings Siwe Encode
  Delegation Login Provider SpecEth EthProofs SpecHash DelegationProofs SpecWire WireProofs SpecTree SigMapProofs
  MapRuns SpecSiwe SiweProofs SpecInit SettingsProofs SpecTrace LoginProofs ProviderProofs TraceProofs LoginTheory
  DelegationTheory SpecAuth.
Local Open Scope N_scope.

(** ** One tree is a pruning of another *)

Inductive agrees (H : bytes -> bytes) : hash_tree -> hash_tree -> Prop :=
| ag_pruned T : agrees H (HPruned (tree_hash H T)) T
| ag_empty : agrees H HEmpty HEmpty
| ag_fork l r L R : agrees H l L -> agrees H r R -> agrees H (HFork l r) (HFork L R)
| ag_labeled k t T : agrees H t T -> agrees H (HLabeled k t) (HLabeled k T)
| ag_leaf b : agrees H (HLeaf b) (HLeaf b).

(** The string hashed last. *)
Definition top_input (H : bytes -> bytes) (t : hash_tree) : bytes :=
  match t with
  | HEmpty => x11 :: bs "ic-hashtree-empty"
  | HFork l r => x10 :: bs "ic-hashtree-fork" ++ tree_hash H l ++ tree_hash H r
  | HLabeled label t => x13 :: bs "ic-hashtree-labeled" ++ label ++ tree_hash H t
  | HLeaf b => x10 :: bs "ic-hashtree-leaf" ++ b
  | HPruned h => h
  end.

Lemma cross_more H (p q p' q' : list bytes) : (forall x, In x p -> In x p') -> (forall x, In x q -> In x q') ->
  cross_collision H p q -> cross_collision H p' q'.
Proof. intros Hp Hq (x & y & I1 & I2 & R). exists x, y. auto. Qed.

Section Merkle.
  Variable H : bytes -> bytes.
  Hypothesis HL : forall x, length (H x) = 32%nat.

  Lemma tree_hash_length t : digests32 t -> length (tree_hash H t) = 32%nat.
  Proof. destruct t; cbn; auto. Qed.

  Lemma complete_digests t : complete t -> digests32 t.
  Proof. induction t; cbn; tauto. Qed.

  Lemma pruned_or t : (exists h, t = HPruned h) \/ forall h, t <> HPruned h.
  Proof. destruct t; [right; discriminate..|eauto]. Qed.

  Lemma ag_pruned' h T : tree_hash H (HPruned h) = tree_hash H T -> agrees H (HPruned h) T.
  Proof. intros E. cbn [tree_hash] in E. rewrite E. constructor. Qed.

  Lemma pruning_or_collision T : forall t, complete T -> digests32 t -> tree_hash H t = tree_hash H T ->
    agrees H t T \/ cross_collision H (tree_inputs H t) (tree_inputs H T).
  Proof.
    assert (forall t T, (forall h, t <> HPruned h) -> complete T -> tree_hash H t = tree_hash H T ->
      top_input H t = top_input H T \/ cross_collision H (tree_inputs H t) (tree_inputs H T)) as Htop.
    { intros t T0 Nt HC E. assert (forall h, T0 <> HPruned h) as NT by (intros h ->; exact HC).
      destruct (decide (top_input H t = top_input H T0)) as [|N]; [auto|]. right.
      exists (top_input H t), (top_input H T0).
      assert (forall t, (forall h, t <> HPruned h) -> In (top_input H t) (tree_inputs H t) /\ H (top_input H t) = tree_hash H t) as Hi.
      { intros [| | | |h] N'; cbn; auto. now destruct (N' h). }
      destruct (Hi t Nt), (Hi T0 NT). split; [assumption|]. split; [assumption|]. split; [assumption|congruence]. }
    induction T as [|L IHL R IHR|K T IH|B|h]; intros t HC Hd E; [| | | |destruct HC];
      (destruct (pruned_or t) as [[h ->]|Nt]; [left; now apply ag_pruned'|]);
      (destruct (Htop t _ Nt HC E) as [Et|]; [|now right]);
      destruct t as [|l r|k t|b|h]; try (now destruct (Nt h)); try discriminate Et;
      cbn [complete digests32 top_input] in *.
    - left. constructor.
    - injection Et as Et.
      apply app_inj_len in Et as [El Er]; [|destruct HC, Hd; rewrite !tree_hash_length; auto using complete_digests].
      destruct (IHL l ltac:(tauto) ltac:(tauto) El) as [A1|C]; [destruct (IHR r ltac:(tauto) ltac:(tauto) Er) as [A2|C]|].
      + left. now constructor.
      + right. revert C. apply cross_more; intros x Hx; cbn; right; apply in_app_iff; auto.
      + right. revert C. apply cross_more; intros x Hx; cbn; right; apply in_app_iff; auto.
    - injection Et as Et.
      assert (k = K /\ tree_hash H t = tree_hash H T) as [-> Eh].
      { pose proof (f_equal (@length byte) Et) as Len. rewrite !app_length, !tree_hash_length in Len; auto using complete_digests.
        apply app_inj_len in Et; [assumption|lia]. }
      destruct (IH t HC Hd Eh) as [A|C]; [left; now constructor|]. right. revert C.
      apply cross_more; intros x Hx; cbn; auto.
    - injection Et as ->. left. constructor.
  Qed.

  Lemma label_found_in l t ts : label_found l t ts <-> In (HLabeled l t) ts.
  Proof.
    split; [intros [bef aft]; apply in_app_iff; right; left; reflexivity|].
    intros (bef & aft & ->)%in_split. constructor.
  Qed.

  Lemma agrees_flatten t T l t' : agrees H t T -> In (HLabeled l t') (flatten_forks t) ->
    exists T', In (HLabeled l T') (flatten_forks T) /\ agrees H t' T'.
  Proof.
    intros A. induction A as [T|  |tl tr L R A1 IH1 A2 IH2|k t T A IH|b]; cbn [flatten_forks]; intros Hin.
    - destruct Hin as [Hin|[]]. discriminate.
    - destruct Hin.
    - apply in_app_iff in Hin as [Hin|Hin]; [destruct (IH1 Hin) as (T' & I & A)|destruct (IH2 Hin) as (T' & I & A)];
        exists T'; (split; [apply in_app_iff; auto|assumption]).
    - destruct Hin as [Hin|[]]. injection Hin as -> ->. exists T. split; [left; reflexivity|assumption].
    - destruct Hin as [Hin|[]]. discriminate.
  Qed.

  Lemma agrees_lookup path t v : lookup_found path t v -> forall T, agrees H t T -> lookup_found path T v.
  Proof.
    induction 1 as [v|l path t t' v Hl Hp IH]; intros T A.
    - inversion A; subst. constructor.
    - apply label_found_in in Hl. destruct (agrees_flatten t T l t' A Hl) as (T' & I & A').
      apply lookup_label with T'; [now apply label_found_in|auto].
  Qed.

  Theorem lookup_sound path t v T : complete T -> digests32 t -> tree_hash H t = tree_hash H T ->
    lookup_found path t v -> lookup_found path T v \/ cross_collision H (tree_inputs H t) (tree_inputs H T).
  Proof.
    intros HC Hd E Hf. destruct (pruning_or_collision T t HC Hd E) as [A|C]; [left|now right].
    eapply agrees_lookup; eassumption.
  Qed.
End Merkle.

(** ** The certified tree *)

Section Full.
  Context {V : Type} (D : Deps) (vhash : V -> bytes) (tree : V -> hash_tree).

  Lemma full_tree_hash (t : rbt V) : hok D vhash t ->
    Forall (fun p => tree_hash (d_sha256 D) (tree (snd p)) = vhash (snd p)) (elems t) ->
    tree_hash (d_sha256 D) (full_tree tree t) = rb_root_hash D t.
  Proof.
    induction t as [|c l IHl k v h r IHr]; cbn [hok elems]; intros Hh HF; [reflexivity|].
    destruct Hh as (-> & Hl & Hr). apply List.Forall_app in HF as [F1 F2]. apply List.Forall_cons_iff in F2 as [Fv F2].
    specialize (IHl Hl F1). specialize (IHr Hr F2). cbn [snd] in Fv. unfold rb_root_hash, node_hash.
    destruct l as [|lc ll lk lv lh lr], r as [|rc rl rk rv rh rr]; cbn [full_tree];
      cbn [tree_hash] in *; change (rb_root_hash D (Node lc ll lk lv lh lr)) with lh in IHl || idtac;
      change (rb_root_hash D (Node rc rl rk rv rh rr)) with rh in IHr || idtac;
      rewrite ?Fv; try (rewrite <- IHl); try (rewrite <- IHr); reflexivity.
  Qed.

  Lemma full_tree_complete (t : rbt V) : (forall v, complete (tree v)) -> complete (full_tree tree t).
  Proof.
    intros HC. induction t as [|c l IHl k v h r IHr]; [exact I|]. cbn [full_tree].
    destruct l, r; cbn [complete]; auto.
  Qed.

  Lemma full_tree_flatten (t : rbt V) : flatten_forks (full_tree tree t) = map (fun p => HLabeled (fst p) (tree (snd p))) (elems t).
  Proof.
    induction t as [|c l IHl k v h r IHr]; [reflexivity|].
    cbn [full_tree elems]. rewrite map_app. cbn [map fst snd].
    destruct l as [|lc ll lk lv lh lr], r as [|rc rl rk rv rh rr]; cbn [flatten_forks];
      rewrite <- ?IHl, <- ?IHr; reflexivity.
  Qed.

  Lemma full_tree_found (t : rbt V) l t' : label_found l t' (flatten_forks (full_tree tree t)) ->
    exists v, In (l, v) (elems t) /\ t' = tree v.
  Proof.
    rewrite label_found_in, full_tree_flatten. intros ([k v] & E & Hin)%in_map_iff. cbn in E. injection E as -> <-. eauto.
  Qed.
End Full.

Lemma certified_tree_hash D m : sm_ok D m -> tree_hash (d_sha256 D) (certified_tree m) = root_hash D m.
Proof.
  intros [Ho Hi _]. unfold certified_tree, root_hash, sm_root_hash.
  rewrite <- (full_tree_hash D (submap_hash D) (full_tree (fun _ : unit => HLeaf [])) (sm_map m)); [reflexivity|apply Ho|].
  revert Hi. apply List.Forall_impl. intros [k sub] [Hsub _]. cbn [snd] in *. unfold submap_hash.
  apply (full_tree_hash D (unit_hash D)); [apply Hsub|]. apply List.Forall_forall. intros [k' []] _. reflexivity.
Qed.

Lemma certified_tree_complete m : complete (certified_tree m).
Proof.
  cbn [certified_tree complete]. split; [exact I|]. apply full_tree_complete. intros sub. apply full_tree_complete.
  intros _. exact I.
Qed.

Lemma certified_tree_lookup m a b v : lookup_found [bs "sig"; a; b] (certified_tree m) v -> sm_has m a b.
Proof.
  intros Hl. inversion Hl as [|l path t t1 v' F1 L1]; subst. apply label_found_in in F1.
  cbn [certified_tree flatten_forks app] in F1. destruct F1 as [F1|[F1|[]]]; [discriminate|]. injection F1 as <-.
  inversion L1 as [|l path t t2 v' F2 L2]; subst. apply full_tree_found in F2 as (sub & I1 & ->).
  inversion L2 as [|l path t t3 v' F3 L3]; subst. apply full_tree_found in F3 as ([] & I2 & ->). exists sub. auto.
Qed.

(** ** Certified data goes back to the last successful login *)

Lemma certified_origin D cid tr c : deps_ok D -> exec D cid tr (Some c) ->
  c_certified c = [] \/ exists c1, after_last_login D cid tr c1 /\ c_certified c = root_hash D (c_sigs c1).
Proof.
  intros HD H. remember (Some c) as st eqn:Est. revert c Est.
  induction H as [|tr st now o st' r H IH Ht Hn Hw Hs]; intros c' Est; [discriminate|]. subst st'.
  set (e := mkEvent now o r).
  assert (forall c, st = Some c -> c_certified c' = c_certified c -> ~ login_succeeds e ->
    c_certified c' = [] \/ exists c1, after_last_login D cid (tr ++ [e]) c1 /\ c_certified c' = root_hash D (c_sigs c1)) as Hkeep.
  { intros c -> Ec Nl. destruct (IH c eq_refl) as [E|(c1 & (bef & l & aft & -> & Hl & HF & Hx) & E)]; [left; congruence|].
    right. exists c1. split; [|congruence]. exists bef, l, (aft ++ [e]). rewrite <- app_assoc. split; [reflexivity|].
    split; [assumption|]. split; [|assumption]. apply List.Forall_app. auto. }
  assert ((forall sg x sk n, o <> SiweLogin sg x sk n) -> ~ login_succeeds e) as Hnl.
  { intros No (sg' & x' & sk' & n' & exp & pk & Eo & _). now apply (No sg' x' sk' n'). }
  destruct o as [i|i|seed|x|sg x sk n|cert x sk exp|p|p|x]; cbn [step] in Hs.
  - unfold do_install in Hs. destruct (siwe_init D cid i) as [[s fl]|w] eqn:E; cbn [obind] in Hs.
    + left. assert (c' = Provider.fresh s fl ∅ ∅ []) as -> by congruence. reflexivity.
    + apply (Hkeep c'); [congruence|reflexivity|now apply Hnl].
  - destruct st as [c|]; [|discriminate]. apply (Hkeep c); [reflexivity| |now apply Hnl]. unfold do_upgrade in Hs.
    destruct (siwe_init D cid i) as [[s fl]|w] eqn:E; cbn [obind] in Hs.
    + assert (c' = Provider.fresh s fl (c_principal_address c) (c_address_principal c) (c_certified c)) as -> by congruence. reflexivity.
    + congruence.
  - destruct st as [c|]; [|discriminate]. apply (Hkeep c); [reflexivity| |now apply Hnl].
    assert (do_raw_rand seed c = c') as <- by congruence. unfold do_raw_rand. destruct (c_seeding c); reflexivity.
  - destruct st as [c|]; [|discriminate]. apply (Hkeep c); [reflexivity| |now apply Hnl].
    unfold siwe_prepare_login in Hs. destruct (eth_address_new D x) as [[a|err]|w]; cbn [obind run_update] in Hs; [|congruence|congruence].
    destruct (prepare_login D now (c_lib c) a) as [[lib [m n]]|w]; cbn [obind run_update] in Hs; [|congruence].
    destruct (siwe_to_string m) as [text|w]; cbn [obind run_update] in Hs; [|congruence].
    assert (with_lib c lib = c') as <- by congruence. reflexivity.
  - destruct st as [c|]; [|discriminate].
    destruct (exec_inv D cid tr c HD H) as (i & s & since & Hi).
    destruct (login_cases D cid now sg x sk n c s HD (inv_can_ok D cid tr c i s since Hi (exec_times _ _ _ _ H))) as (c1 & r1 & E & Hout).
    rewrite E in Hs. cbn [run_update] in Hs. assert (c1 = c') as -> by congruence. assert (r = RLogin r1) as Er by congruence.
    destruct r1 as [d|err].
    + right. exists c'. split.
      * exists tr, e, []. split; [reflexivity|]. split; [|split; [constructor|]].
        -- destruct d as [exp pk]. exists sg, x, sk, n, exp, pk. split; [reflexivity|exact Er].
        -- unfold e. eapply exec_snoc; try eassumption. cbn [step]. rewrite E. cbn [run_update]. congruence.
      * inversion Hout; reflexivity.
    + apply (Hkeep c); [reflexivity|inversion Hout; reflexivity|].
      intros (sg' & x' & sk' & n' & exp & pk & _ & Er'). cbn in Er'. congruence.
  - destruct st as [c|]; [|discriminate]. unfold run_query in Hs. apply (Hkeep c); [reflexivity|congruence|now apply Hnl].
  - destruct st as [c|]; [|discriminate]. unfold run_query in Hs. apply (Hkeep c); [reflexivity|congruence|now apply Hnl].
  - destruct st as [c|]; [|discriminate]. unfold run_query in Hs. apply (Hkeep c); [reflexivity|congruence|now apply Hnl].
  - destruct st as [c|]; [|discriminate]. unfold run_query in Hs. apply (Hkeep c); [reflexivity|congruence|now apply Hnl].
Qed.
