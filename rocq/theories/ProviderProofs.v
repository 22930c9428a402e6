(** Invariants of every reachable state, relating it to the history of calls. *)
From Coq Require Import Strings.String ZifyBool ZifyN ZifyNat.
From Verif Require Import Base BaseLemmas Deps Hex Eth Hash HashTree RbTree Heap SigMap Time3339 Settings Siwe Encode
  Delegation Login Provider SpecEth EthProofs SpecHash DelegationProofs SpecTree SigMapProofs MapRuns SpecSiwe
  SiweProofs SpecInit SettingsProofs SpecTrace LoginProofs.
Local Open Scope N_scope.

(** ** Histories *)

Lemma exec_last D cid tr e s' : exec D cid (tr ++ [e]) s' ->
  exists s, exec D cid tr s /\ Forall (fun e' => ev_time e' <= ev_time e) tr /\ ev_time e <= u64_max /\
    op_wf (ev_op e) /\ step D cid (ev_time e) (ev_op e) s = (s', ev_reply e).
Proof.
  intros H. inversion H as [E|tr0 s now o s'' r H0 Ht Hn Hw Hs E]; [destruct tr; discriminate|].
  apply app_inj_tail in E as [-> <-]. subst s''. exists s. auto.
Qed.

Lemma exec_prefix D cid tr1 tr2 s : exec D cid (tr1 ++ tr2) s -> exists s1, exec D cid tr1 s1.
Proof.
  revert s. induction tr2 as [|e tr2 IH] using rev_ind; intros s H.
  - rewrite app_nil_r in H. eauto.
  - rewrite app_assoc in H. apply exec_last in H as (s0 & H & _). eauto.
Qed.

Lemma exec_at D cid tr1 e tr2 s : exec D cid (tr1 ++ e :: tr2) s -> exists s1, exec D cid (tr1 ++ [e]) s1.
Proof. intros H. change (e :: tr2) with ([e] ++ tr2) in H. rewrite app_assoc in H. eapply exec_prefix, H. Qed.

Lemma exec_times D cid tr s : exec D cid tr s -> Forall (fun e => ev_time e <= u64_max) tr.
Proof.
  induction 1; [constructor|]. apply List.Forall_app. split; [assumption|]. repeat constructor. assumption.
Qed.

Lemma exec_mono D cid tr1 e1 tr2 e2 tr3 s : exec D cid (tr1 ++ e1 :: tr2 ++ e2 :: tr3) s -> ev_time e1 <= ev_time e2.
Proof.
  intros H. assert (tr1 ++ e1 :: tr2 ++ e2 :: tr3 = (tr1 ++ e1 :: tr2) ++ e2 :: tr3) as E
    by (now rewrite <- app_assoc).
  rewrite E in H. apply exec_at in H as [s1 H]. apply exec_last in H as (_ & _ & Ht & _).
  rewrite List.Forall_forall in Ht. apply Ht. apply in_app_iff. right. left. reflexivity.
Qed.

(** Splitting an extended list at an element. *)
Lemma snoc_split {A} (l : list A) e before p after : l ++ [e] = before ++ p :: after ->
  (l = before /\ e = p /\ after = []) \/ (exists after', after = after' ++ [e] /\ l = before ++ p :: after').
Proof.
  destruct after as [|a after] using rev_ind.
  - intros E. apply app_inj_tail in E as [-> ->]. auto.
  - clear IHafter. intros E. right. exists after.
    change (p :: after ++ [a]) with ((p :: after) ++ [a]) in E. rewrite app_assoc in E.
    apply app_inj_tail in E as [-> ->]. auto.
Qed.

(** ** The invariant *)

(** A message was prepared under key [k] and, of the later events [after], none touched the key. *)
Definition pending (D : Deps) (s : Settings) (since : list event) (k : bytes) (m : SiweMessage)
  (after : list event) : Prop :=
  exists before p x b n text, since = before ++ p :: after /\ prepared p x text n /\ address_text D x b /\
    k = message_key D b n /\ m = the_message s x n (ev_time p) /\ siwe_to_string m = Done text /\
    Forall (fun e => ~ touches D k e) after.

Definition msgs_from (D : Deps) (s : Settings) (since : list event) (msgs : SiweMessageMap) : Prop :=
  forall k m, msgs !! k = Some m -> exists after, pending D s since k m after.
Definition msgs_kept (D : Deps) (s : Settings) (since : list event) (msgs : SiweMessageMap) : Prop :=
  forall k m after, pending D s since k m after ->
    Forall (fun e => ev_time e < m_expiration_time m) after -> msgs !! k = Some m.

Definition rng_inv (D : Deps) (since : list event) (r : option rng) (seeding : bool) : Prop :=
  match r with
  | None => prepared_count since = 0
  | Some r => seeding = false /\ rng_pos r = prepared_count since /\
      forall before p after x text n, since = before ++ p :: after -> prepared p x text n ->
        n = hex_encode (d_chacha D (rng_seed r) (prepared_count before))
  end.

Definition is_raw_rand (e : event) : bool := match ev_op e with RawRand _ => true | _ => false end.

(** The generator was seeded by the first reply to raw_rand. *)
Definition seed_inv (since : list event) (r : option rng) (seeding : bool) : Prop :=
  (seeding = true -> Forall (fun e => is_raw_rand e = false) since) /\
  match r with
  | None => True
  | Some r => exists before e after, since = before ++ e :: after /\ ev_op e = RawRand (Some (rng_seed r)) /\
      Forall (fun e => is_raw_rand e = false) before
  end.

(** The reply of a prepared message shows that message. *)
Definition texts_inv (D : Deps) (s : Settings) (since : list event) : Prop :=
  forall p x text n, In p since -> prepared p x text n ->
    siwe_to_string (the_message s x n (ev_time p)) = Done text /\ exists b, address_text D x b.

Definition seed_of (D : Deps) (s : Settings) (x : bytes) : bytes :=
  d_sha256 D (seed_input (s_salt s) x (seed_uri s)).

Inductive event_ops (D : Deps) (cid : bytes) (s : Settings) (e : event) : list map_op -> Prop :=
| eo_login sg x sk n exp pk dh :
    logged_in e sg x sk n exp pk -> pk = create_user_canister_pubkey cid (seed_of D s x) ->
    (exists b, address_text D x b) -> exp <= u64_max ->
    create_delegation_hash D (mkDelegation sk exp (s_targets s)) = Done dh ->
    event_ops D cid s e [MPrune (ev_time e) 10; MPut (ev_time e) (d_sha256 D (seed_of D s x)) dh]
| eo_badkey : rejected_key D e -> event_ops D cid s e [MPrune (ev_time e) 10]
| eo_other : ~ login_succeeds e -> ~ rejected_key D e -> event_ops D cid s e [].

Inductive map_history (D : Deps) (cid : bytes) (s : Settings) : list event -> list map_op -> Prop :=
| mh_nil : map_history D cid s [] []
| mh_snoc since ops e o : map_history D cid s since ops -> event_ops D cid s e o ->
    map_history D cid s (since ++ [e]) (ops ++ o).

Definition sigs_inv (D : Deps) (cid : bytes) (s : Settings) (since : list event) (m : SignatureMap) : Prop :=
  exists ops, map_history D cid s since ops /\ run_map D ops sm_empty = Done m.

Definition sync_inv (D : Deps) (since : list event) (c : canister) : Prop :=
  forall before e after, since = before ++ e :: after -> login_succeeds e ->
    (forall a1 e' a2, after = a1 ++ e' :: a2 -> ~ desyncs D (before ++ e :: a1) e') ->
    c_certified c = root_hash D (c_sigs c).

Record inv (D : Deps) (cid : bytes) (tr : list event) (c : canister)
  (i : SettingsInput) (s : Settings) (since : list event) : Prop := {
  inv_since : since_boot tr i since;
  inv_wf : input_wf i;
  inv_init : init_spec D cid i s (c_flags c);
  inv_settings : ls_settings (c_lib c) = Some s;
  inv_rng : rng_inv D since (ls_rng (c_lib c)) (c_seeding c);
  inv_seed : seed_inv since (ls_rng (c_lib c)) (c_seeding c);
  inv_texts : texts_inv D s since;
  inv_from : msgs_from D s since (ls_msgs (c_lib c));
  inv_kept : msgs_kept D s since (ls_msgs (c_lib c));
  inv_sigs : sigs_inv D cid s since (c_sigs c);
  inv_sync : sync_inv D since c
}.

(** ** Extending each part by one event *)

Lemma since_boot_snoc tr i since e : since_boot tr i since -> ~ boots e -> since_boot (tr ++ [e]) i (since ++ [e]).
Proof.
  intros (bef & b & -> & Hb & HF) He. exists bef, b. rewrite <- app_assoc. cbn [app].
  split; [reflexivity|]. split; [assumption|]. apply List.Forall_app. split; [assumption|]. repeat constructor. assumption.
Qed.

Lemma since_boot_sub tr i since : since_boot tr i since -> exists l, tr = l ++ since.
Proof. intros (bef & b & -> & _). exists (bef ++ [b]). now rewrite <- app_assoc. Qed.

Lemma is_prepared_spec e : is_prepared e = true <-> exists x text n, prepared e x text n.
Proof.
  unfold is_prepared, prepared. split.
  - destruct (ev_op e), (ev_reply e) as [| |[[]|]| | | |]; try discriminate. eauto.
  - intros (x & text & n & -> & ->). reflexivity.
Qed.

Lemma prepared_count_snoc l e : prepared_count (l ++ [e]) = prepared_count l + (if is_prepared e then 1 else 0).
Proof.
  unfold prepared_count. rewrite List.filter_app, app_length. cbn [List.filter].
  destruct (is_prepared e); cbn [length]; lia.
Qed.

Lemma rng_same D since r sd sd' e : is_prepared e = false -> (r <> None -> sd' = sd) ->
  rng_inv D since r sd -> rng_inv D (since ++ [e]) r sd'.
Proof.
  intros He Hsd. unfold rng_inv. rewrite prepared_count_snoc, He, N.add_0_r. destruct r as [r|]; [|auto].
  intros (H1 & H2 & H3). split; [rewrite Hsd; [assumption|discriminate]|]. split; [assumption|].
  intros bef p aft x text n E Hp. apply snoc_split in E as [(-> & <- & ->)|(aft' & -> & ->)].
  - assert (is_prepared e = true) as Ht by (apply is_prepared_spec; eauto). congruence.
  - eapply H3; [reflexivity|eassumption].
Qed.

Lemma rng_prepared D since r sd e x text n : prepared e x text n ->
  n = hex_encode (d_chacha D (rng_seed r) (rng_pos r)) ->
  rng_inv D since (Some r) sd -> rng_inv D (since ++ [e]) (Some (mkRng (rng_seed r) (rng_pos r + 1))) sd.
Proof.
  intros Hp Hn (H1 & H2 & H3). split; [assumption|]. cbn [rng_pos rng_seed].
  assert (is_prepared e = true) as Ht by (apply is_prepared_spec; eauto).
  split; [rewrite prepared_count_snoc, Ht, H2; reflexivity|].
  intros bef p aft x' text' n' E Hp'. apply snoc_split in E as [(-> & <- & ->)|(aft' & -> & ->)].
  - destruct Hp as [_ Hr], Hp' as [_ Hr']. rewrite <- H2. congruence.
  - eapply H3; [reflexivity|eassumption].
Qed.

Lemma seed_same since r r' sd e : sd = false \/ is_raw_rand e = false ->
  match r, r' with Some r, Some r' => rng_seed r' = rng_seed r | None, None => True | _, _ => False end ->
  seed_inv since r sd -> seed_inv (since ++ [e]) r' sd.
Proof.
  intros He Hr [H1 H2]. split.
  - intros E. apply List.Forall_app. split; [auto|]. repeat constructor. destruct He; congruence.
  - destruct r as [r|], r' as [r'|]; try contradiction; [|exact I].
    destruct H2 as (bef & e0 & aft & -> & Ho & HF). exists bef, e0, (aft ++ [e]). rewrite <- app_assoc.
    rewrite Hr. auto.
Qed.

Lemma texts_same D s since e : is_prepared e = false -> texts_inv D s since -> texts_inv D s (since ++ [e]).
Proof.
  intros He H p x text n Hin Hp. apply in_app_iff in Hin as [Hin|[<-|[]]]; [now apply (H p x text n)|].
  assert (is_prepared e = true) by (apply is_prepared_spec; eauto). congruence.
Qed.

Lemma msgs_from_same D s since msgs e : (forall k, ~ touches D k e) ->
  msgs_from D s since msgs -> msgs_from D s (since ++ [e]) msgs.
Proof.
  intros He H k m Hk. destruct (H k m Hk) as (aft & bef & p & x & b & n & text & -> & Hp & Ha & Ek & Em & Et & HF).
  exists (aft ++ [e]), bef, p, x, b, n, text. rewrite <- app_assoc. cbn [app].
  repeat (split; [assumption || reflexivity|]). apply List.Forall_app. split; [assumption|]. repeat constructor. apply He.
Qed.

Lemma msgs_kept_same D s since msgs e : is_prepared e = false ->
  msgs_kept D s since msgs -> msgs_kept D s (since ++ [e]) msgs.
Proof.
  intros He H k m aft (bef & p & x & b & n & text & E & Hp & Ha & Ek & Em & Et & HF) Ht.
  apply snoc_split in E as [(-> & <- & ->)|(aft' & -> & ->)].
  - assert (is_prepared e = true) by (apply is_prepared_spec; eauto). congruence.
  - apply List.Forall_app in HF as [HF _], Ht as [Ht _]. apply (H k m aft'); [|assumption].
    exists bef, p, x, b, n, text. auto 10.
Qed.

Lemma touches_prepared D k e x text n b : deps_ok D -> prepared e x text n -> address_text D x b ->
  touches D k e <-> k = message_key D b n.
Proof.
  intros HD [Ho Hr] Ha. split.
  - intros [(x' & t' & n' & b' & [Ho' Hr'] & Ha' & ->)|(x' & n' & b' & (sg & sk & b1 & sb & Ho' & _) & _)].
    + assert (x' = x) as -> by congruence. assert (n' = n) as -> by congruence.
      now rewrite (address_text_inj D x b' b HD Ha' Ha).
    + congruence.
  - intros ->. left. exists x, text, n, b. unfold prepared. auto.
Qed.

Lemma touches_login D k e sg x sk n b sb : deps_ok D -> ev_op e = SiweLogin sg x sk n ->
  address_text D x b -> signature_text sg sb -> touches D k e <-> k = message_key D b n.
Proof.
  intros HD Ho Ha Hs. split.
  - intros [(x' & t' & n' & b' & [Ho' Hr'] & Ha' & ->)|(x' & n' & b' & (sg' & sk' & b1 & sb' & Ho' & _) & Ha' & ->)].
    + congruence.
    + assert (x' = x) as -> by congruence. assert (n' = n) as -> by congruence.
      now rewrite (address_text_inj D x b' b HD Ha' Ha).
  - intros ->. right. exists x, n, b. split; [|auto]. exists sg, sk, b, sb. auto.
Qed.

Lemma msgs_from_prepared D s since msgs e x text n b : deps_ok D -> prepared e x text n -> address_text D x b ->
  siwe_to_string (the_message s x n (ev_time e)) = Done text ->
  msgs_from D s since msgs ->
  msgs_from D s (since ++ [e]) (<[message_key D b n := the_message s x n (ev_time e)]> msgs).
Proof.
  intros HD Hp Ha Et H k m Hk. apply lookup_insert_Some in Hk as [[<- <-]|[Hne Hk]].
  - exists [], since, e, x, b, n, text. repeat (split; [assumption || reflexivity|]). constructor.
  - destruct (H k m Hk) as (aft & bef & p & x' & b' & n' & text' & -> & Hp' & Ha' & Ek & Em & Et' & HF).
    exists (aft ++ [e]), bef, p, x', b', n', text'. rewrite <- app_assoc. cbn [app].
    repeat (split; [assumption || reflexivity|]). apply List.Forall_app. split; [assumption|]. repeat constructor.
    rewrite (touches_prepared D k e x text n b HD Hp Ha). congruence.
Qed.

Lemma msgs_kept_prepared D s since msgs e x text n b : deps_ok D -> prepared e x text n -> address_text D x b ->
  msgs_kept D s since msgs ->
  msgs_kept D s (since ++ [e]) (<[message_key D b n := the_message s x n (ev_time e)]> msgs).
Proof.
  intros HD Hp Ha H k m aft (bef & p & x' & b' & n' & text' & E & Hp' & Ha' & Ek & Em & Et & HF) Ht.
  apply snoc_split in E as [(-> & <- & ->)|(aft' & -> & ->)].
  - destruct Hp as [Ho Hr], Hp' as [Ho' Hr']. assert (x' = x) as -> by congruence. assert (n' = n) as -> by congruence.
    rewrite (address_text_inj D x b' b HD Ha' Ha) in Ek. rewrite Ek, Em. apply lookup_insert.
  - apply List.Forall_app in HF as [HF HF1], Ht as [Ht _]. apply List.Forall_cons_iff in HF1 as [Hno _].
    rewrite (touches_prepared D k e x text n b HD Hp Ha) in Hno. rewrite lookup_insert_ne by congruence.
    apply (H k m aft'); [|assumption]. exists bef, p, x', b', n', text'. auto 10.
Qed.

Lemma msgs_from_login D s since msgs msgs' e sg x sk n b sb : deps_ok D -> ev_op e = SiweLogin sg x sk n ->
  address_text D x b -> signature_text sg sb ->
  (forall k m, msgs' !! k = Some m -> msgs !! k = Some m /\ k <> message_key D b n) ->
  msgs_from D s since msgs -> msgs_from D s (since ++ [e]) msgs'.
Proof.
  intros HD Ho Ha Hs Hsub H k m Hk. apply Hsub in Hk as [Hk Hne].
  destruct (H k m Hk) as (aft & bef & p & x' & b' & n' & text' & -> & Hp' & Ha' & Ek & Em & Et' & HF).
  exists (aft ++ [e]), bef, p, x', b', n', text'. rewrite <- app_assoc. cbn [app].
  repeat (split; [assumption || reflexivity|]). apply List.Forall_app. split; [assumption|]. repeat constructor.
  now rewrite (touches_login D k e sg x sk n b sb HD Ho Ha Hs).
Qed.

Lemma msgs_kept_login D s since msgs msgs' e sg x sk n b sb : deps_ok D -> ev_op e = SiweLogin sg x sk n ->
  address_text D x b -> signature_text sg sb ->
  (forall k m, msgs !! k = Some m -> ev_time e < m_expiration_time m -> k <> message_key D b n -> msgs' !! k = Some m) ->
  msgs_kept D s since msgs -> msgs_kept D s (since ++ [e]) msgs'.
Proof.
  intros HD Ho Ha Hs Hsub H k m aft (bef & p & x' & b' & n' & text' & E & Hp' & Ha' & Ek & Em & Et & HF) Ht.
  apply snoc_split in E as [(-> & <- & ->)|(aft' & -> & ->)].
  - destruct Hp' as [Ho' _]. congruence.
  - apply List.Forall_app in HF as [HF HF1], Ht as [Ht Ht1]. apply List.Forall_cons_iff in HF1 as [Hno _], Ht1 as [Ht1 _].
    rewrite (touches_login D k e sg x sk n b sb HD Ho Ha Hs) in Hno.
    apply Hsub; [|assumption|assumption]. apply (H k m aft'); [|assumption]. exists bef, p, x', b', n', text'. auto 10.
Qed.

Lemma sigs_same D cid s since m e : ~ login_succeeds e -> ~ rejected_key D e -> sigs_inv D cid s since m -> sigs_inv D cid s (since ++ [e]) m.
Proof.
  intros He Hk (ops & Hh & Hr). exists (ops ++ []). split; [|now rewrite app_nil_r].
  apply mh_snoc; [assumption|]. now apply eo_other.
Qed.

Lemma sigs_more D cid s since m m' e o : event_ops D cid s e o -> run_map D o m = Done m' ->
  sigs_inv D cid s since m -> sigs_inv D cid s (since ++ [e]) m'.
Proof.
  intros He Hr' (ops & Hh & Hr). exists (ops ++ o). split; [now apply mh_snoc|].
  rewrite run_map_app, Hr. exact Hr'.
Qed.

Lemma sync_same D since c c' e : c_certified c' = c_certified c -> c_sigs c' = c_sigs c ->
  ~ login_succeeds e -> sync_inv D since c -> sync_inv D (since ++ [e]) c'.
Proof.
  intros E1 E2 He H bef e0 aft E Hl HF. rewrite E1, E2.
  apply snoc_split in E as [(-> & <- & ->)|(aft' & -> & ->)]; [contradiction|].
  eapply H; [reflexivity|assumption|]. intros a1 e' a2 ->. apply (HF a1 e' (a2 ++ [e])). now rewrite <- app_assoc.
Qed.

(** Pruning when nothing has expired does nothing. *)
Lemma prune_nothing D now max m : (forall x, In x (sm_queue m) -> now < se_at x) ->
  sm_prune_expired D now max m = Done (m, 0).
Proof.
  intros H. unfold sm_prune_expired. destruct (sm_queue m) as [|x q] eqn:E; [now rewrite Nat.min_0_r|].
  destruct max as [|max]; [reflexivity|]. cbn [Nat.min length prune_loop]. rewrite E.
  change (heap_peek (x :: q)) with (Some x). cbv iota. specialize (H x (or_introl eq_refl)).
  replace (now <? se_at x) with true by lia. reflexivity.
Qed.

Lemma map_history_login D cid s since ops t k dh : map_history D cid s since ops -> In (MPut t k dh) ops ->
  exists l, In l since /\ login_succeeds l /\ ev_time l = t.
Proof.
  induction 1 as [|since ops e o Hh IH He]; intros Hin; [contradiction|]. apply in_app_iff in Hin as [Hin|Hin].
  - destruct (IH Hin) as (l & Hl & R). exists l. split; [apply in_app_iff; auto|assumption].
  - exists e. split; [apply in_app_iff; right; left; reflexivity|].
    inversion He as [sg x sk n exp pk dh' Hl Epk Hb Hexp Edh|Hrej|Hno]; subst o.
    + destruct Hin as [Hin|[Hin|[]]]; [discriminate|]. split; [red; eauto 10|congruence].
    + destruct Hin as [Hin|[]]. discriminate.
    + contradiction.
Qed.

Lemma sync_rejected D cid s since c c' e k : rejected_key D e -> sigs_inv D cid s since (c_sigs c) ->
  c_certified c' = c_certified c -> sm_prune_expired D (ev_time e) 10 (c_sigs c) = Done (c_sigs c', k) ->
  sync_inv D since c -> sync_inv D (since ++ [e]) c'.
Proof.
  intros He (ops & Hh & Hr) Ec Ep H bef e0 aft E Hl HF. apply snoc_split in E as [(-> & <- & ->)|(aft' & -> & ->)].
  - destruct He as (? & ? & ? & ? & ? & _ & _ & Hr'). destruct Hl as (? & ? & ? & ? & ? & ? & _ & Hr''). congruence.
  - rewrite (prune_nothing D (ev_time e) 10 (c_sigs c)) in Ep.
    + assert (c_sigs c' = c_sigs c) as -> by congruence. rewrite Ec.
      eapply H; [reflexivity|assumption|]. intros a1 e' a2 ->. apply (HF a1 e' (a2 ++ [e])). now rewrite <- app_assoc.
    + intros x Hx. destruct (run_map_inv D ops _ Hr) as (_ & _ & Hq). destruct (Hq x Hx) as (t & Ht & Hat).
      destruct (map_history_login D cid s _ ops t _ _ Hh Ht) as (l & Hin & Hlog & <-).
      destruct (N.lt_ge_cases (ev_time e) (se_at x)) as [Hlt|Hge]; [assumption|].
      contradiction (HF aft' e []); [reflexivity|]. split; [assumption|]. exists l. split; [assumption|].
      split; [assumption|]. rewrite Hat, <- put_expiry in Hge. exact Hge.
Qed.

(** ** The invariant holds *)

Lemma inv_can_ok D cid tr c i s since : inv D cid tr c i s since ->
  Forall (fun e => ev_time e <= u64_max) tr -> can_ok D c s.
Proof.
  intros [Hsince _ Hinit Hset _ _ _ Hfrom _ (ops & _ & Hrun) _] Ht. split.
  - assumption.
  - apply (acc_session _ _ (init_acceptable _ _ _ _ _ Hinit)).
  - apply (run_map_inv D ops _ Hrun).
  - intros k m Hk. destruct (Hfrom k m Hk) as (aft & bef & p & x & b & n & text & E & _ & _ & _ & -> & _).
    cbn [the_message m_issued_at m_expiration_time]. split; [|apply sat_add_le].
    apply since_boot_sub in Hsince as [l ->]. rewrite List.Forall_forall in Ht. apply Ht.
    rewrite E. apply in_app_iff. right. apply in_app_iff. right. left. reflexivity.
Qed.

(** Events that do not concern the library state at all. *)
Lemma inv_inert D cid tr c i s since e :
  ~ boots e -> is_prepared e = false -> c_seeding c = false \/ is_raw_rand e = false -> (forall k, ~ touches D k e) -> ~ login_succeeds e ->
  ~ rejected_key D e -> inv D cid tr c i s since -> inv D cid (tr ++ [e]) c i s (since ++ [e]).
Proof.
  intros Hb Hp Hrr Ht Hl Hk [H1 H2 H3 H4 H5 Hsd Htx H6 H7 H8 H9]. split; try assumption.
  - now apply since_boot_snoc.
  - now apply (rng_same _ _ _ (c_seeding c)).
  - apply (seed_same since (ls_rng (c_lib c))); [assumption|now destruct (ls_rng (c_lib c))|assumption].
  - now apply texts_same.
  - now apply msgs_from_same.
  - now apply msgs_kept_same.
  - now apply sigs_same.
  - now apply (sync_same D since c).
Qed.

Lemma inv_boot D cid tr e i s fl pa ap cert : boot e i -> input_wf i -> init_spec D cid i s fl ->
  inv D cid (tr ++ [e]) (Provider.fresh s fl pa ap cert) i s [].
Proof.
  intros Hb Hw Hi. split; try assumption; cbn.
  - exists tr, e. auto.
  - reflexivity.
  - reflexivity.
  - split; [constructor|exact I].
  - intros ? ? ? ? [].
  - intros k m H. rewrite lookup_empty in H. discriminate.
  - intros k m aft (bef & p & x & b & n & text & E & _). destruct bef; discriminate.
  - exists []. split; [constructor|reflexivity].
  - intros bef e0 aft E. destruct bef; discriminate.
Qed.

Lemma inv_prepared D cid tr c i s since e x text n b r : deps_ok D ->
  prepared e x text n -> address_text D x b -> ls_rng (c_lib c) = Some r ->
  n = hex_encode (d_chacha D (rng_seed r) (rng_pos r)) ->
  siwe_to_string (the_message s x n (ev_time e)) = Done text ->
  inv D cid tr c i s since ->
  inv D cid (tr ++ [e])
    (with_lib c (mkLib (Some (mkRng (rng_seed r) (rng_pos r + 1))) (Some s)
       (<[message_key D b n := the_message s x n (ev_time e)]> (ls_msgs (c_lib c))))) i s (since ++ [e]).
Proof.
  intros HD Hp Ha Hr Hn Ht [H1 H2 H3 H4 H5 Hsd Htx H6 H7 H8 H9].
  assert (~ login_succeeds e) as Hl.
  { intros (? & ? & ? & ? & ? & ? & Ho & _). destruct Hp. congruence. }
  assert (~ rejected_key D e) as Hk.
  { intros (? & ? & ? & ? & ? & Ho & _). destruct Hp. congruence. }
  split; cbn [with_lib c_lib c_flags ls_settings ls_rng ls_msgs c_seeding c_sigs]; try assumption.
  - apply since_boot_snoc; [assumption|]. intros (i' & [Ho|Ho] & _); destruct Hp; congruence.
  - reflexivity.
  - rewrite Hr in H5. eapply rng_prepared; eassumption.
  - apply (seed_same since (ls_rng (c_lib c))); [right; unfold is_raw_rand; destruct Hp as [-> _]; reflexivity|now rewrite Hr|assumption].
  - intros p x' text' n' Hin [Po Pr]. apply in_app_iff in Hin as [Hin|[<-|[]]]; [now apply (Htx p x' text' n')|].
    destruct Hp as [Eo Er]. rewrite Eo in Po. rewrite Er in Pr. assert (x' = x) as -> by congruence.
    assert (text' = text) as -> by congruence. assert (n' = n) as -> by congruence. eauto.
  - now apply (msgs_from_prepared D s since _ e x text n b).
  - now apply (msgs_kept_prepared D s since _ e x text n b).
  - now apply sigs_same.
  - now apply (sync_same D since c).
Qed.

Lemma inv_login D cid tr c i s since e sg x sk n c' r : deps_ok D ->
  ev_op e = SiweLogin sg x sk n -> ev_reply e = RLogin r -> Forall (fun e => ev_time e <= u64_max) tr ->
  login_out D cid (ev_time e) sg x sk n c s c' r ->
  inv D cid tr c i s since -> inv D cid (tr ++ [e]) c' i s (since ++ [e]).
Proof.
  intros HD Ho Hr Htimes Hout Hinv.
  assert (~ boots e) as Hb by (intros (i' & [E|E] & _); congruence).
  assert (is_prepared e = false) as Hp by (unfold is_prepared; now rewrite Ho).
  assert (forall err, r = Err err -> ~ login_succeeds e) as Hnl.
  { intros err -> (? & ? & ? & ? & ? & ? & _ & H). congruence. }
  assert (forall err, r = Err err -> (forall t, err <> bs "Invalid session key: " ++ t) -> ~ rejected_key D e) as Hnr.
  { intros err -> H (? & ? & ? & ? & t & _ & _ & H'). apply (H t). congruence. }
  assert (forall err t, show_eth_error err <> bs "Invalid session key: " ++ t) as Hetx by (intros [] t; discriminate).
  assert (forall k m b, ls_msgs (c_lib c) !! k = Some m -> ev_time e < m_expiration_time m ->
    k <> message_key D b n -> delete (message_key D b n) (live (ev_time e) c) !! k = Some m) as Hkeep.
  { intros k m b Hk Hm Hne. rewrite lookup_delete_ne by congruence. apply live_lookup. auto. }
  assert (forall k m b, delete (message_key D b n) (live (ev_time e) c) !! k = Some m ->
    ls_msgs (c_lib c) !! k = Some m /\ k <> message_key D b n) as Hsub.
  { intros k m b Hk. apply lookup_delete_Some in Hk as [Hne Hk]. apply live_lookup in Hk as [Hk _]. auto. }
  destruct Hout as [err E Nx|b err Ha E Ns|b sb Ha Hs El|b sb m text err Ha Hs El Et Er Nr|b sb m text y Ha Hs El Et Ry Ny Nr
    |b sb m text err sigs k Ha Hs El Et Rx Ek Ep|b sb m text sigs0 k sigs dh Ha Hs El Et Rx Ek Ep Edh Eput].
  - apply inv_inert; auto; [right; unfold is_raw_rand; now rewrite Ho| |now eapply Hnl|eapply Hnr; [reflexivity|apply Hetx]].
    intros k [(x' & t & n' & b & [Ho' _] & _)|(x' & n' & b & (sg' & sk' & b' & sb & Ho' & Ha & _) & _)]; [congruence|].
    assert (x' = x) as -> by congruence. now apply (Nx b').
  - apply inv_inert; auto; [right; unfold is_raw_rand; now rewrite Ho| |now eapply Hnl|eapply Hnr; [reflexivity|apply Hetx]].
    intros k [(x' & t & n' & b' & [Ho' _] & _)|(x' & n' & b' & (sg' & sk' & b'' & sb & Ho' & _ & Hs) & _)]; [congruence|].
    assert (sg' = sg) as -> by congruence. now apply (Ns sb).
  - destruct Hinv as [H1 H2 H3 H4 H5 Hsd Htx H6 H7 H8 H9]. split; try assumption.
    + now apply since_boot_snoc.
    + now apply (rng_same _ _ _ (c_seeding c)).
    + apply (seed_same since (ls_rng (c_lib c))); [right; unfold is_raw_rand; now rewrite Ho|cbn; now destruct (ls_rng (c_lib c))|assumption].
    + now apply texts_same.
    + eapply (msgs_from_login D s since (ls_msgs (c_lib c)) _ e sg x sk n b sb); eauto.
      intros k m Hk. cbn in Hk. pose proof Hk as Hk'. apply live_lookup in Hk as [Hk _]. split; [assumption|]. congruence.
    + eapply (msgs_kept_login D s since (ls_msgs (c_lib c)) _ e sg x sk n b sb); eauto.
      intros k m Hk Hm _. cbn. apply live_lookup. auto.
    + apply sigs_same; [now eapply Hnl|eapply Hnr; [reflexivity|first [apply Hetx|discriminate]]|assumption].
    + apply (sync_same D since c); try reflexivity; [now eapply Hnl|assumption].
  - destruct Hinv as [H1 H2 H3 H4 H5 Hsd Htx H6 H7 H8 H9]. split; try assumption.
    + now apply since_boot_snoc.
    + now apply (rng_same _ _ _ (c_seeding c)).
    + apply (seed_same since (ls_rng (c_lib c))); [right; unfold is_raw_rand; now rewrite Ho|cbn; now destruct (ls_rng (c_lib c))|assumption].
    + now apply texts_same.
    + eapply (msgs_from_login D s since (ls_msgs (c_lib c)) _ e sg x sk n b sb); eauto.
    + eapply (msgs_kept_login D s since (ls_msgs (c_lib c)) _ e sg x sk n b sb); eauto; cbn; eauto.
    + apply sigs_same; [now eapply Hnl|eapply Hnr; [reflexivity|first [apply Hetx|discriminate]]|assumption].
    + apply (sync_same D since c); try reflexivity; [now eapply Hnl|assumption].
  - destruct Hinv as [H1 H2 H3 H4 H5 Hsd Htx H6 H7 H8 H9]. split; try assumption.
    + now apply since_boot_snoc.
    + now apply (rng_same _ _ _ (c_seeding c)).
    + apply (seed_same since (ls_rng (c_lib c))); [right; unfold is_raw_rand; now rewrite Ho|cbn; now destruct (ls_rng (c_lib c))|assumption].
    + now apply texts_same.
    + eapply (msgs_from_login D s since (ls_msgs (c_lib c)) _ e sg x sk n b sb); eauto.
    + eapply (msgs_kept_login D s since (ls_msgs (c_lib c)) _ e sg x sk n b sb); eauto; cbn; eauto.
    + apply sigs_same; [now eapply Hnl|eapply Hnr; [reflexivity|first [apply Hetx|discriminate]]|assumption].
    + apply (sync_same D since c); try reflexivity; [now eapply Hnl|assumption].
  - assert (rejected_key D e) as Hrej.
    { exists sg, x, sk, n, err. split; [assumption|]. split; [|assumption]. apply key_error_bad. congruence. }
    destruct Hinv as [H1 H2 H3 H4 H5 Hsd Htx H6 H7 H8 H9]. split; try assumption.
    + now apply since_boot_snoc.
    + now apply (rng_same _ _ _ (c_seeding c)).
    + apply (seed_same since (ls_rng (c_lib c))); [right; unfold is_raw_rand; now rewrite Ho|cbn; now destruct (ls_rng (c_lib c))|assumption].
    + now apply texts_same.
    + eapply (msgs_from_login D s since (ls_msgs (c_lib c)) _ e sg x sk n b sb); eauto.
    + eapply (msgs_kept_login D s since (ls_msgs (c_lib c)) _ e sg x sk n b sb); eauto; cbn; eauto.
    + apply (sigs_more D cid s since (c_sigs c) _ e [MPrune (ev_time e) 10]); [now apply eo_badkey| |assumption].
      cbn [run_map map_step]. rewrite Ep. reflexivity.
    + eapply (sync_rejected D cid s since c); eauto.
  - destruct Hinv as [H1 H2 H3 H4 H5 Hsd Htx H6 H7 H8 H9]. split; try assumption.
    + now apply since_boot_snoc.
    + now apply (rng_same _ _ _ (c_seeding c)).
    + apply (seed_same since (ls_rng (c_lib c))); [right; unfold is_raw_rand; now rewrite Ho|cbn; now destruct (ls_rng (c_lib c))|assumption].
    + now apply texts_same.
    + eapply (msgs_from_login D s since (ls_msgs (c_lib c)) _ e sg x sk n b sb); eauto.
    + eapply (msgs_kept_login D s since (ls_msgs (c_lib c)) _ e sg x sk n b sb); eauto; cbn; eauto.
    + eapply (sigs_more D cid s since (c_sigs c) _ e); [| |exact H8].
      * eapply eo_login; [split; eassumption|reflexivity|eauto|apply sat_add_le|exact Edh].
      * cbn [run_map map_step]. rewrite Ep. cbn [obind fst]. fold (seed_of D s x) in Eput. rewrite Eput. reflexivity.
    + intros bef e0 aft _ _ _. reflexivity.
Qed.

Lemma query_inert D e : match ev_op e with
    | RawRand _ | GetDelegation _ _ _ _ | GetAddress _ | GetCallerAddress _ | GetPrincipal _ => True | _ => False end ->
  ~ boots e /\ is_prepared e = false /\ (forall k, ~ touches D k e) /\ ~ login_succeeds e /\ ~ rejected_key D e.
Proof.
  intros Ho. split; [|split; [|split; [|split]]].
  - intros (i & [E|E] & _); rewrite E in Ho; contradiction.
  - unfold is_prepared. destruct (ev_op e); try contradiction; reflexivity.
  - intros k [(x & t & n & b & [E _] & _)|(x & n & b & (sg & sk & b' & sb & E & _) & _)]; rewrite E in Ho; contradiction.
  - intros (sg & x & sk & n & exp & pk & E & _). rewrite E in Ho. contradiction.
  - intros (sg & x & sk & n & t & E & _). rewrite E in Ho. contradiction.
Qed.

(** A trap (other than of a login with well-formed arguments) leaves no trace. *)
Lemma trap_inert D e w : ev_reply e = RTrap w -> (forall sg x sk n, ev_op e <> SiweLogin sg x sk n) ->
  ~ boots e /\ is_prepared e = false /\ (forall k, ~ touches D k e) /\ ~ login_succeeds e /\ ~ rejected_key D e.
Proof.
  intros Hr Hnl. split; [|split; [|split; [|split]]].
  - intros (i & _ & E). congruence.
  - unfold is_prepared. rewrite Hr. destruct (ev_op e); reflexivity.
  - intros k [(x & t & n & b & [_ E] & _)|(x & n & b & (sg & sk & b' & sb & E & _) & _)]; [congruence|]. now apply Hnl in E.
  - intros (sg & x & sk & n & exp & pk & E & _). now apply Hnl in E.
  - intros (sg & x & sk & n & t & E & _). now apply Hnl in E.
Qed.

Lemma exec_inv D cid tr c : deps_ok D -> exec D cid tr (Some c) -> exists i s since, inv D cid tr c i s since.
Proof.
  intros HD H. remember (Some c) as st eqn:Est. revert c Est. induction H as [|tr st now o st' r H IH Ht Hn Hw Hs];
    intros c' Est; [discriminate|]. subst st'.
  set (e := mkEvent now o r).
  assert (Forall (fun e => ev_time e <= u64_max) tr) as Htimes by (eapply exec_times, H).
  assert (forall i, o = Install i \/ o = Upgrade i -> forall s fl pa ap cert,
    siwe_init D cid i = Done (s, fl) -> r = RDone ->
    exists i s0 since, inv D cid (tr ++ [e]) (Provider.fresh s fl pa ap cert) i s0 since) as Hboot.
  { intros i Ho s fl pa ap cert E ->. exists i, s, []. apply inv_boot.
    - split; [exact Ho|reflexivity].
    - destruct Ho as [-> | ->]; exact Hw.
    - now apply siwe_init_spec. }
  assert (forall c, st = Some c -> c' = c ->
    is_raw_rand e = false ->
    ~ boots e -> is_prepared e = false -> (forall k, ~ touches D k e) -> ~ login_succeeds e ->
    ~ rejected_key D e -> exists i s since, inv D cid (tr ++ [e]) c' i s since) as Hsame.
  { intros c -> -> Hrr H1 H2 H3 H4 H5. destruct (IH c eq_refl) as (i & s & since & Hi). exists i, s, (since ++ [e]).
    apply inv_inert; auto. }
  destruct o as [i|i|seed|x|sg x sk n|cert x sk exp|p|p|x]; cbn [step] in Hs.
  - unfold do_install in Hs. destruct (siwe_init D cid i) as [[s fl]|w] eqn:E; cbn [obind] in Hs.
    + assert (c' = Provider.fresh s fl ∅ ∅ []) as -> by congruence. apply (Hboot i); auto. congruence.
    + destruct (trap_inert D e w) as (A1 & A2 & A3 & A4 & A5); [cbn; congruence|discriminate|].
      apply (Hsame c'); auto. congruence.
  - destruct st as [c|]; [|discriminate]. unfold do_upgrade in Hs.
    destruct (siwe_init D cid i) as [[s fl]|w] eqn:E; cbn [obind] in Hs.
    + assert (c' = Provider.fresh s fl (c_principal_address c) (c_address_principal c) (c_certified c)) as -> by congruence.
      apply (Hboot i); auto. congruence.
    + destruct (trap_inert D e w) as (A1 & A2 & A3 & A4 & A5); [cbn; congruence|discriminate|].
      apply (Hsame c); auto. congruence.
  - destruct st as [c|]; [|discriminate].
    assert (do_raw_rand seed c = c') as <- by congruence. destruct (query_inert D e I) as (A1 & A2 & A3 & A4 & A5).
    destruct (IH c eq_refl) as (i & s & since & [H1 H2 H3 H4 H5 Hsd Htx H6 H7 H8 H9]). exists i, s, (since ++ [e]).
    unfold do_raw_rand. destruct (c_seeding c) eqn:Esd.
    + assert (ls_rng (c_lib c) = None) as Ern.
      { destruct (ls_rng (c_lib c)) as [r0|]; [|reflexivity]. destruct H5 as (H5 & _). congruence. }
      split; try assumption; cbn [c_lib c_flags c_sigs c_certified c_seeding].
      * now apply since_boot_snoc.
      * destruct seed; assumption.
      * rewrite Ern in H5. cbn in H5. destruct seed as [sd|]; cbn [ls_rng].
        -- split; [reflexivity|]. cbn [rng_pos]. rewrite prepared_count_snoc, A2, H5. split; [reflexivity|].
           intros bef p aft x text n E Hp. exfalso.
           assert (is_prepared p = true) as Hpp by (apply is_prepared_spec; eauto).
           apply snoc_split in E as [(_ & E & _)|(aft' & _ & E)]; [congruence|].
           rewrite E in H5. unfold prepared_count in H5. rewrite List.filter_app in H5. cbn [List.filter] in H5.
           rewrite Hpp, app_length in H5. cbn [length] in H5. lia.
        -- rewrite Ern. cbn. rewrite prepared_count_snoc, A2, H5. reflexivity.
      * split; [discriminate|]. destruct seed as [sd|]; cbn [ls_rng rng_seed]; [|now rewrite Ern].
        exists since, e, []. split; [reflexivity|]. split; [reflexivity|]. now apply (proj1 Hsd).
      * now apply texts_same.
      * destruct seed; now apply msgs_from_same.
      * destruct seed; now apply msgs_kept_same.
      * now apply sigs_same.
      * now apply (sync_same D since c).
    + apply inv_inert; auto. split; try assumption; now rewrite Esd.
  - destruct st as [c|]; [|discriminate]. destruct (IH c eq_refl) as (i & s & since & Hi).
    destruct (address_cases D x HD) as [(err & E & Nx)|(b & Ax & E & Eb & Eb')].
    + rewrite (prepare_bad_address D now x err c E) in Hs. cbn [run_update] in Hs.
      assert (r = RPrepare (Err (show_eth_error err))) as Er by congruence.
      apply (Hsame c); auto; [congruence| | | | |].
      * intros (i' & [E'|E'] & _); discriminate.
      * unfold is_prepared. cbn. now rewrite Er.
      * intros k [(x' & t & n & b & [_ E'] & _)|(x' & n & b & (sg & sk & b' & sb & E' & _) & _)]; [cbn in E'; congruence|discriminate].
      * intros (sg & x' & sk & n & exp & pk & E' & _). discriminate.
      * intros (sg & x' & sk & n & t & E' & _). discriminate.
    + destruct (ls_rng (c_lib c)) as [rn|] eqn:Ern.
      * destruct (prepare_ok D now x b c s rn Ax E Eb (inv_settings _ _ _ _ _ _ _ Hi) Ern Hn) as (text & Et & Ep).
        rewrite Ep in Hs. cbn [run_update] in Hs.
        exists i, s, (since ++ [e]).
        match type of Hs with (Some ?cc, ?rr) = _ => assert (cc = c') as <- by congruence; assert (rr = r) as Er by congruence end.
        eapply (inv_prepared D cid tr c i s since e); eauto. split; [reflexivity|]. cbn. now rewrite <- Er.
      * destruct (prepare_unseeded D now x c E Ern) as [w Ew]. rewrite Ew in Hs. cbn [run_update] in Hs.
        destruct (trap_inert D e w) as (A1 & A2 & A3 & A4 & A5); [cbn; congruence|discriminate|].
        apply (Hsame c); auto. congruence.
  - destruct st as [c|]; [|discriminate]. destruct (IH c eq_refl) as (i & s & since & Hi).
    destruct (login_cases D cid now sg x sk n c s HD (inv_can_ok D cid tr c i s since Hi Htimes)) as (c1 & r1 & E & Hout).
    rewrite E in Hs. cbn [run_update] in Hs. assert (c1 = c') as -> by congruence.
    exists i, s, (since ++ [e]). apply (inv_login D cid tr c i s since e sg x sk n c' r1); auto. cbn. congruence.
  - destruct st as [c|]; [|discriminate]. destruct (query_inert D e I) as (A1 & A2 & A3 & A4 & A5).
    apply (Hsame c); auto. unfold run_query in Hs. congruence.
  - destruct st as [c|]; [|discriminate]. destruct (query_inert D e I) as (A1 & A2 & A3 & A4 & A5).
    apply (Hsame c); auto. unfold run_query in Hs. congruence.
  - destruct st as [c|]; [|discriminate]. destruct (query_inert D e I) as (A1 & A2 & A3 & A4 & A5).
    apply (Hsame c); auto. unfold run_query in Hs. congruence.
  - destruct st as [c|]; [|discriminate]. destruct (query_inert D e I) as (A1 & A2 & A3 & A4 & A5).
    apply (Hsame c); auto. unfold run_query in Hs. congruence.
Qed.
