(** Invariants of the browser client. *)
From Coq Require Import Strings.String ZifyBool ZifyN ZifyNat.
From Verif Require Import Base BaseLemmas Deps Hex Eth Encode Delegation Login Provider SpecEth SpecTrace
  ProviderProofs LoginTheory DelegationTheory TraceProofs Client ClientJson SpecClient.
Local Open Scope N_scope.

(** ** Facts about calls in progress *)

Definition msg_fact (tr : list event) (m : bytes * bytes) : Prop :=
  exists e x, In e tr /\ prepared e x (fst m) (snd m).

Definition prep_fact (tr : list event) (p : prep) : Prop :=
  match p with
  | PReply a (Some r) => exists e, In e tr /\ ev_op e = PrepareLogin a /\ ev_reply e = r
  | PReturned (Ok m) => msg_fact tr m
  | _ => True
  end.

Definition login_fact (tr : list event) (a : bytes) (k : keypair) (d : LoginDetails) (ans : option reply) : Prop :=
  exists pre l post sg n, tr = pre ++ l :: post /\
    logged_in l sg a (kp_der k) n (ld_expiration d) (ld_pubkey d) /\
    match ans with
    | Some r => exists q1 g q2 cert, post = q1 ++ g :: q2 /\
        ev_op g = GetDelegation (Some cert) a (kp_der k) (ld_expiration d) /\ ev_reply g = r
    | None => True
    end.

Definition task_fact (tr : list event) (t : task) : Prop :=
  match t with
  | TPrepare p => prep_fact tr p
  | TAddresses => True
  | TPreparing a p => a <> [] /\ prep_fact tr p
  | TSign a m n => a <> [] /\ msg_fact tr (m, n)
  | TActor a n sg k => a <> [] /\ key_ok k
  | TLogin a n sg k ans => a <> [] /\ key_ok k /\
      match ans with
      | Some r => exists e, In e tr /\ ev_op e = SiweLogin sg a (kp_der k) n /\ ev_reply e = r
      | None => True
      end
  | TDelegation a k d ans => a <> [] /\ key_ok k /\ login_fact tr a k d ans
  | TReturned i => key_ok (id_key i) /\ exists x, x <> [] /\ issued tr x i
  | TThrown _ => True
  end.

Definition ctx_fact (tr : list event) (x : ctx) : Prop :=
  forall m, x_message x = Some m -> msg_fact tr m.

(** Facts survive longer histories. *)
Lemma msg_fact_mono tr e m : msg_fact tr m -> msg_fact (tr ++ [e]) m.
Proof. intros (f & x & I & P). exists f, x. split; [apply in_app_iff; auto|assumption]. Qed.

Lemma prep_fact_mono tr e p : prep_fact tr p -> prep_fact (tr ++ [e]) p.
Proof.
  destruct p as [|a|a [r|]|[m|err]]; cbn; auto.
  - intros (f & I & H). exists f. split; [apply in_app_iff; auto|assumption].
  - apply msg_fact_mono.
Qed.

Lemma issued_mono tr e x i : issued tr x i -> issued (tr ++ [e]) x i.
Proof.
  intros (pre & l & mid & g & post & sg & n & exp & pk & cert & r & -> & H).
  exists pre, l, mid, g, (post ++ [e]), sg, n, exp, pk, cert, r. split; [|exact H].
  now rewrite <- app_assoc, <- app_comm_cons, <- app_assoc, <- app_comm_cons.
Qed.

Lemma login_fact_mono tr e a k d ans : login_fact tr a k d ans -> login_fact (tr ++ [e]) a k d ans.
Proof.
  intros (pre & l & post & sg & n & -> & H & Hr). exists pre, l, (post ++ [e]), sg, n.
  split; [now rewrite <- app_assoc, <- app_comm_cons|]. split; [assumption|]. destruct ans as [r|]; [|exact I].
  destruct Hr as (q1 & g & q2 & cert & -> & H1 & H2). exists q1, g, (q2 ++ [e]), cert.
  split; [now rewrite <- app_assoc, <- app_comm_cons|auto].
Qed.

Lemma task_fact_mono tr e t : task_fact tr t -> task_fact (tr ++ [e]) t.
Proof.
  destruct t as [p| |a p|a m n|a n sg k|a n sg k ans|a k d ans|i|err]; cbn [task_fact]; auto.
  - apply prep_fact_mono.
  - intros [H1 H2]. split; [assumption|now apply prep_fact_mono].
  - intros [H1 H2]. split; [assumption|now apply msg_fact_mono].
  - intros (H1 & H2 & H3). do 2 (split; [assumption|]). destruct ans as [r|]; [|exact I].
    destruct H3 as (f & I & H). exists f. split; [apply in_app_iff; auto|assumption].
  - intros (H1 & H2 & H3). do 2 (split; [assumption|]). now apply login_fact_mono.
  - intros (H1 & x & H2 & H3). split; [assumption|]. exists x. split; [assumption|now apply issued_mono].
Qed.

Lemma first_account_some l a : first_account l = Some a -> a <> [].
Proof. destruct l as [|[|c r] l]; cbn; intros H; congruence. Qed.

Lemma prep_goes_fact tr p s x x' p' : prep_fact tr p -> ctx_fact tr x ->
  prep_goes p s x = Some (x', p') -> prep_fact tr p' /\ ctx_fact tr x'.
Proof.
  intros Hp Hx E. unfold prep_goes in E.
  destruct p as [|a|a [r|]|m]; destruct s as [e|l| |sg k|]; try discriminate E;
    try (unfold prep_fails in E; assert (x' = set_prepare_failed e x /\ p' = PReturned (Err e)) as [-> ->] by (split; congruence); split; [exact I|exact Hx]).
  - destruct (first_account l) as [b|]; unfold prep_fails in E.
    + assert (x' = set_preparing x /\ p' = PActor b) as [-> ->] by (split; congruence). split; [exact I|exact Hx].
    + assert (x' = set_prepare_failed no_account x /\ p' = PReturned (Err no_account)) as [-> ->] by (split; congruence).
      split; [exact I|exact Hx].
  - assert (x' = x /\ p' = PReply a None) as [-> ->] by (split; congruence). split; [exact I|exact Hx].
  - destruct Hp as (e & Ie & Ho & Hr). destruct (prepare_answer r) as [[m|err]|] eqn:A; [| |discriminate].
    + assert (x' = set_prepared m x /\ p' = PReturned (Ok m)) as [-> ->] by (split; congruence).
      assert (msg_fact tr m) as Hm.
      { exists e, a. split; [assumption|]. split; [assumption|]. rewrite Hr.
        destruct r; cbn in A; try discriminate. destruct m. cbn. congruence. }
      split; [exact Hm|]. intros m' Em. cbn in Em. now assert (m' = m) as -> by congruence.
    + unfold prep_fails in E. assert (x' = set_prepare_failed err x /\ p' = PReturned (Err err)) as [-> ->] by (split; congruence).
      split; [exact I|exact Hx].
Qed.

(** What a successful login leaves: everything else about storage and identity stays. *)
Definition finishes (tr : list event) (t : task) (x x' : ctx) (t' : task) (st' : option bytes) : Prop :=
  exists a k d sd ans, t = TDelegation a k d (Some ans) /\ delegation_answer ans = Some (Ok sd) /\
    let c := mkChain [sd] (ld_pubkey d) in
    x' = set_logged_in a (mkIdent k c) c x /\ t' = TReturned (mkIdent k c) /\ st' = Some (save_identity a k c) /\
    a <> [] /\ key_ok k /\ issued tr a (mkIdent k c).

Definition same_identity (x x' : ctx) : Prop :=
  x_identity x' = x_identity x /\ x_address x' = x_address x /\ x_chain x' = x_chain x.

Lemma prep_goes_identity p s x x' p' : prep_goes p s x = Some (x', p') ->
  same_identity x x' /\ x_initializing x' = x_initializing x.
Proof.
  intros E. unfold prep_goes in E.
  destruct p as [|a|a [r|]|m]; destruct s as [e|l| |sg k|]; try discriminate E;
    try destruct (first_account l); try destruct (prepare_answer r) as [[m|err]|]; try discriminate E;
    unfold prep_fails in E; injection E as <- <-; repeat split.
Qed.

Lemma login_goes_fact tr t s x st x' t' st' : task_fact tr t -> ctx_fact tr x ->
  match s with SSigned _ p => key_ok p | _ => True end ->
  login_goes t s x st = Some (x', t', st') ->
  task_fact tr t' /\ ctx_fact tr x' /\ x_initializing x' = x_initializing x /\
  (finishes tr t x x' t' st' \/ (same_identity x x' /\ st' = st)).
Proof.
  intros Ht Hx Hk E.
  assert (forall e y, x' = set_login_failed e y -> t' = TThrown e -> st' = st -> same_identity x y -> x_initializing y = x_initializing x ->
    task_fact tr t' /\ ctx_fact tr x' /\ x_initializing x' = x_initializing x /\
    (finishes tr t x x' t' st' \/ (same_identity x x' /\ st' = st))) as Fail.
  { intros e y -> -> -> (S1 & S2 & S3) Si. split; [exact I|]. split; [intros m Em; discriminate Em|].
    split; [exact Si|]. right. split; [repeat split; assumption|reflexivity]. }
  assert (same_identity x x) as Sx by (repeat split).
  destruct t as [p| |a p|a m n|a n sg k|a n sg k ans|a k d ans|i|err]; cbn [login_goes] in E.
  - destruct (prep_goes p s x) as [[y q]|] eqn:P; [|discriminate].
    assert (x' = y /\ t' = TPrepare q /\ st' = st) as (-> & -> & ->) by (repeat split; congruence).
    destruct (prep_goes_fact tr p s x y q Ht Hx P) as [H1 H2]. destruct (prep_goes_identity p s x y q P) as [H3 H4].
    repeat (split; [assumption|]). right. auto.
  - destruct s as [e|l| |sg k|]; try discriminate E.
    + unfold login_fails in E. eapply (Fail e x); congruence || auto.
    + destruct (first_account l) as [a|] eqn:F; [|unfold login_fails in E; eapply (Fail no_account x); congruence || auto].
      destruct (x_message x) as [[m n]|] eqn:M.
      * assert (x' = set_signing (set_logging_in x) /\ t' = TSign a m n /\ st' = st) as (-> & -> & ->) by (repeat split; congruence).
        split; [split; [eapply first_account_some, F|now apply Hx]|]. split; [exact Hx|]. split; [reflexivity|]. right. auto.
      * assert (x' = set_logging_in x /\ t' = TPreparing a PAddresses /\ st' = st) as (-> & -> & ->) by (repeat split; congruence).
        split; [split; [eapply first_account_some, F|exact I]|]. split; [exact Hx|]. split; [reflexivity|]. right. auto.
  - destruct Ht as [Ha Hp].
    assert (match prep_goes p s x with Some (x, p) => Some (x, TPreparing a p, st) | None => None end = Some (x', t', st') ->
      task_fact tr t' /\ ctx_fact tr x' /\ x_initializing x' = x_initializing x /\
      (finishes tr (TPreparing a p) x x' t' st' \/ (same_identity x x' /\ st' = st))) as Hgo.
    { clear E. intros E. destruct (prep_goes p s x) as [[y q]|] eqn:P; [|discriminate].
      assert (x' = y /\ t' = TPreparing a q /\ st' = st) as (-> & -> & ->) by (repeat split; congruence).
      destruct (prep_goes_fact tr p s x y q Hp Hx P) as [H1 H2]. destruct (prep_goes_identity p s x y q P) as [H3 H4].
      split; [split; assumption|]. repeat (split; [assumption|]). right. auto. }
    destruct p as [|acc|acc ans|[[m n]|e]]; [destruct s; apply Hgo, E| | | |].
    + destruct s; apply Hgo, E.
    + destruct s; apply Hgo, E.
    + destruct s; try (apply Hgo, E).
      assert (x' = set_signing x /\ t' = TSign a m n /\ st' = st) as (-> & -> & ->) by (repeat split; congruence).
      split; [split; assumption|]. split; [exact Hx|]. split; [reflexivity|]. right. auto.
    + destruct s; try (apply Hgo, E). unfold login_fails in E. eapply (Fail e x); congruence || auto.
  - destruct Ht as [Ha Hm]. destruct s as [e|l| |[|c sg] k|]; try discriminate E; unfold sign_fails, login_fails in E.
    + eapply (Fail e (set_sign_failed e x)); congruence || auto.
    + eapply (Fail (bs "signMessage returned no data.") (set_sign_failed (bs "signMessage returned no data.") x)); congruence || auto.
    + assert (x' = set_signed x /\ t' = TActor a n (c :: sg) k /\ st' = st) as (-> & -> & ->) by (repeat split; congruence).
      split; [split; assumption|]. split; [exact Hx|]. split; [reflexivity|]. right. auto.
  - destruct Ht as [Ha Hp]. destruct s as [e|l| |sg' k'|]; try discriminate E; unfold login_fails in E.
    + eapply (Fail e x); congruence || auto.
    + assert (x' = x /\ t' = TLogin a n sg k None /\ st' = st) as (-> & -> & ->) by (repeat split; congruence).
      split; [repeat split; auto; apply Hp|]. split; [exact Hx|]. split; [reflexivity|]. right. auto.
  - destruct Ht as (Ha & Hp & Hr). destruct s as [e|l| |sg' k'|]; try (destruct ans; discriminate E).
    + assert (Some (login_fails e x, st) = Some (x', t', st')) as E' by (destruct ans; exact E).
      unfold login_fails in E'. eapply (Fail e x); congruence || auto.
    + destruct ans as [r|]; [|discriminate E]. destruct (login_answer r) as [[d|e]|] eqn:A; [| |discriminate E].
      * assert (x' = x /\ t' = TDelegation a k d None /\ st' = st) as (-> & -> & ->) by (repeat split; congruence).
        split; [|split; [exact Hx|split; [reflexivity|right; auto]]].
        destruct Hr as (l & Il & Ho & Er). split; [assumption|]. split; [assumption|].
        apply in_split in Il as (pre & post & ->). exists pre, l, post, sg, n. split; [reflexivity|]. split; [|exact I].
        split; [assumption|]. rewrite Er. destruct r; cbn in A; try discriminate. destruct d. cbn. congruence.
      * unfold login_fails in E. eapply (Fail e x); congruence || auto.
  - destruct Ht as (Ha & Hp & Hl). destruct s as [e|l| |sg' k'|]; try (destruct ans; discriminate E).
    + assert (Some (login_fails e x, st) = Some (x', t', st')) as E' by (destruct ans; exact E).
      unfold login_fails in E'. eapply (Fail e x); congruence || auto.
    + destruct ans as [r|]; [|discriminate E]. destruct (delegation_answer r) as [[sd|e]|] eqn:A; [| |discriminate E].
      * unfold create_chain in E.
        assert (x' = set_logged_in a (mkIdent k (mkChain [sd] (ld_pubkey d))) (mkChain [sd] (ld_pubkey d)) x /\
          t' = TReturned (mkIdent k (mkChain [sd] (ld_pubkey d))) /\ st' = Some (save_identity a k (mkChain [sd] (ld_pubkey d))))
          as (-> & -> & ->) by (repeat split; congruence).
        assert (issued tr a (mkIdent k (mkChain [sd] (ld_pubkey d)))) as Hi.
        { destruct Hl as (pre & l & post & sg & n & -> & Hlog & q1 & g & q2 & cert & -> & Ho & Er).
          exists pre, l, q1, g, q2, sg, n, (ld_expiration d), (ld_pubkey d), cert, sd.
          split; [reflexivity|]. split; [exact Hlog|]. split; [|reflexivity]. split; [exact Ho|]. rewrite Er.
          destruct r; cbn in A; try discriminate. congruence. }
        split; [split; [exact Hp|exists a; auto]|]. split; [exact Hx|]. split; [reflexivity|]. left.
        exists a, k, d, sd, r. repeat (split; [reflexivity || assumption|]). exact Hi.
      * unfold login_fails in E. eapply (Fail e x); congruence || auto.
  - destruct s; discriminate E.
  - destruct s; discriminate E.
Qed.

Lemma task_answered_fact cert tr t o now r : task_fact tr t -> task_request cert t = Some o ->
  task_fact (tr ++ [mkEvent now o r]) (task_answered r t).
Proof.
  intros Ht E. assert (In (mkEvent now o r) (tr ++ [mkEvent now o r])) as Ie by (apply in_app_iff; right; left; reflexivity).
  assert (forall p, prep_fact tr p -> prep_request p = Some o -> prep_fact (tr ++ [mkEvent now o r]) (prep_answered r p)) as Hp.
  { intros p Hp Ep. destruct p as [|a|a [r'|]|m]; try discriminate Ep. cbn. eexists. split; [exact Ie|].
    cbn in Ep. split; [cbn; congruence|reflexivity]. }
  destruct t as [p| |a p|a m n|a n sg k|a n sg k [r'|]|a k d [r'|]|i|err]; try discriminate E; cbn [task_answered].
  - now apply Hp.
  - destruct Ht as [Ha Hf]. split; [assumption|now apply Hp].
  - destruct Ht as (Ha & Hk & _). repeat (split; [assumption|]). eexists. split; [exact Ie|]. cbn in E.
    split; [cbn; congruence|reflexivity].
  - destruct Ht as (Ha & Hk & pre & l & post & sg & n & -> & Hl & _). repeat (split; [assumption|]).
    exists pre, l, (post ++ [mkEvent now o r]), sg, n. split; [now rewrite <- app_assoc|]. split; [assumption|].
    exists post, (mkEvent now o r), [], cert. split; [reflexivity|]. cbn in E. split; [cbn; congruence|reflexivity].
Qed.

(** ** Every run *)

Lemma Forall_insert_task (P : task -> Prop) l k t : Forall P l -> P t -> Forall P (<[k := t]> l).
Proof. intros Hl Ht. now apply Forall_insert. Qed.

Lemma nth_error_Forall {A} (P : A -> Prop) l k x : Forall P l -> nth_error l k = Some x -> P x.
Proof. intros H E. apply nth_error_In in E. rewrite List.Forall_forall in H. auto. Qed.

Record cinv (D : Deps) (cid : bytes) (w : world) : Prop := {
  ci_exec : exec D cid (w_history w) (w_canister w);
  ci_tasks : Forall (task_fact (w_history w)) (w_tasks w);
  ci_ctx : ctx_fact (w_history w) (w_ctx w)
}.

Lemma ctx_fact_mono tr e x : ctx_fact tr x -> ctx_fact (tr ++ [e]) x.
Proof. intros H m E. apply msg_fact_mono, H, E. Qed.

(** The actions, one by one. *)
Inductive act_view (D : Deps) (cid : bytes) (w : world) : action -> world -> Prop :=
| v_load : act_view D cid w ALoad
    (mkWorld initial_ctx (w_storage w) [] (w_canister w) (w_history w) (w_own w))
| v_manager : act_view D cid w AManager
    (mkWorld (construct (w_storage w) (w_ctx w)) (w_storage w) (w_tasks w) (w_canister w) (w_history w) (w_own w))
| v_prepare : x_initializing (w_ctx w) = false -> act_view D cid w APrepare
    (mkWorld (w_ctx w) (w_storage w) (w_tasks w ++ [TPrepare PAddresses]) (w_canister w) (w_history w) (w_own w))
| v_login : x_initializing (w_ctx w) = false -> act_view D cid w ALogin
    (mkWorld (fst (login_starts (w_ctx w))) (w_storage w) (w_tasks w ++ [snd (login_starts (w_ctx w))])
       (w_canister w) (w_history w) (w_own w))
| v_clear : x_initializing (w_ctx w) = false -> act_view D cid w AClear
    (mkWorld (set_cleared (w_ctx w)) None (w_tasks w) (w_canister w) (w_history w) (w_own w))
| v_continue k s t x' t' st' : nth_error (w_tasks w) k = Some t ->
    login_goes t s (w_ctx w) (w_storage w) = Some (x', t', st') -> act_view D cid w (AContinue k s)
    (mkWorld x' st' (<[k := t']> (w_tasks w)) (w_canister w) (w_history w) (w_own w))
| v_serve k now cert t o s' r : nth_error (w_tasks w) k = Some t -> task_request cert t = Some o ->
    step D cid now o (w_canister w) = (s', r) -> act_view D cid w (AServe k now cert)
    (mkWorld (w_ctx w) (w_storage w) (<[k := task_answered r t]> (w_tasks w)) s'
       (w_history w ++ [mkEvent now o r]) (w_own w ++ [mkEvent now o r]))
| v_canister now o s' r : step D cid now o (w_canister w) = (s', r) -> act_view D cid w (ACanister now o)
    (mkWorld (w_ctx w) (w_storage w) (w_tasks w) s' (w_history w ++ [mkEvent now o r]) (w_own w))
| v_storage j : act_view D cid w (AStorage j)
    (mkWorld (w_ctx w) j (w_tasks w) (w_canister w) (w_history w) (w_own w)).

Lemma act_step_view D cid a w w' : act_step D cid a w = Some w' -> act_view D cid w a w'.
Proof.
  intros E. unfold act_step in E. destruct a as [| | | | |k s|k now cert|now o|j].
  - injection E as <-. constructor.
  - injection E as <-. constructor.
  - destruct (x_initializing (w_ctx w)) eqn:R; cbn in E; [discriminate|]. injection E as <-. now constructor.
  - pose proof (v_login D cid w) as V. destruct (login_starts (w_ctx w)) as [x t]. cbn [fst snd] in V.
    destruct (x_initializing (w_ctx w)) eqn:R; cbn in E; [discriminate|]. injection E as <-. now apply V.
  - destruct (x_initializing (w_ctx w)) eqn:R; cbn in E; [discriminate|]. injection E as <-. now constructor.
  - destruct (nth_error (w_tasks w) k) as [t|] eqn:N; [|discriminate].
    destruct (login_goes t s (w_ctx w) (w_storage w)) as [[[x' t'] st']|] eqn:G; [|discriminate].
    injection E as <-. econstructor; eassumption.
  - destruct (nth_error (w_tasks w) k) as [t|] eqn:N; [|discriminate].
    destruct (task_request cert t) as [o|] eqn:R; [|discriminate].
    destruct (step D cid now o (w_canister w)) as [s' r] eqn:S. injection E as <-. econstructor; eassumption.
  - destruct (step D cid now o (w_canister w)) as [s' r] eqn:S. injection E as <-. econstructor; eassumption.
  - injection E as <-. constructor.
Qed.

Lemma act_view_step D cid a w w' : act_view D cid w a w' -> act_step D cid a w = Some w'.
Proof.
  intros V. unfold act_step. destruct V; try reflexivity.
  - now rewrite H.
  - destruct (login_starts (w_ctx w)). now rewrite H.
  - now rewrite H.
  - now rewrite H, H0.
  - now rewrite H, H0, H1.
  - now rewrite H.
Qed.

(** A call of login either throws at once or waits for the accounts. *)
Lemma login_starts_cases x : login_starts x = (x, TAddresses) \/
  exists e, login_starts x = (set_login_failed e x, TThrown e) /\ (x_prepare x = Busy \/ x_login x = Busy).
Proof. unfold login_starts, login_fails. destruct (x_prepare x) eqn:P, (x_login x) eqn:L; eauto 10. Qed.

Lemma step_cinv D cid a w w' : cinv D cid w -> act_ok a w -> act_step D cid a w = Some w' -> cinv D cid w'.
Proof.
  intros [He Ht Hx] Hok E. apply act_step_view in E.
  destruct E as [| |R|R|R|k s t x' t' st' N G|k now cert t o s' r N R S|now o s' r S|j].
  - constructor; cbn; [assumption|constructor|]. intros m Em. discriminate Em.
  - constructor; cbn; auto. unfold construct. destruct (load_identity (w_storage w)) as [[[a i] c]|]; exact Hx.
  - constructor; cbn; auto. apply List.Forall_app. split; [assumption|repeat constructor].
  - destruct (login_starts_cases (w_ctx w)) as [->|(e & -> & _)]; cbn [fst snd]; constructor; cbn; auto;
      try (apply List.Forall_app; split; [assumption|repeat constructor]).
    intros m Em. discriminate Em.
  - constructor; cbn; auto. intros m Em. discriminate Em.
  - destruct (login_goes_fact (w_history w) t s _ (w_storage w) x' t' st' (nth_error_Forall _ _ _ _ Ht N) Hx) as (H1 & H2 & _); auto.
    constructor; cbn; auto. now apply Forall_insert_task.
  - destruct (Hok t o N R) as (T1 & T2 & T3).
    constructor; cbn.
    + now apply (exec_snoc D cid _ (w_canister w)).
    + apply Forall_insert_task.
      * revert Ht. apply List.Forall_impl. intros u. apply task_fact_mono.
      * eapply task_answered_fact; [|exact R]. exact (nth_error_Forall _ _ _ _ Ht N).
    + now apply ctx_fact_mono.
  - destruct Hok as (T1 & T2 & T3). constructor; cbn.
    + now apply (exec_snoc D cid _ (w_canister w)).
    + revert Ht. apply List.Forall_impl. intros u. apply task_fact_mono.
    + now apply ctx_fact_mono.
  - constructor; cbn; auto.
Qed.

Lemma runs_cinv D cid acts w : runs D cid acts w -> cinv D cid w.
Proof.
  induction 1 as [|acts w a w' _ IH Hok Hs]; [|eapply step_cinv; eassumption].
  constructor; cbn; [constructor|constructor|]. intros m Em. discriminate Em.
Qed.

Lemma runs_app_inv D cid acts1 : forall acts2 w, runs D cid (acts1 ++ acts2) w -> exists w1, runs D cid acts1 w1.
Proof.
  intros acts2. induction acts2 as [|a acts2 IH] using rev_ind; intros w H; [rewrite app_nil_r in H; eauto|].
  rewrite app_assoc in H. inversion H as [E|acts w1 a' w' H1 _ _ E].
  - destruct (acts1 ++ acts2); discriminate E.
  - apply app_inj_tail in E as [-> _]. eauto.
Qed.

Lemma runs_snoc_inv D cid acts a w : runs D cid (acts ++ [a]) w ->
  exists w0, runs D cid acts w0 /\ act_ok a w0 /\ act_view D cid w0 a w.
Proof.
  intros H. inversion H as [E|acts' w1 a' w' H1 Hok Hs E].
  - destruct acts; discriminate E.
  - apply app_inj_tail in E as [-> ->]. exists w1. split; [assumption|]. split; [assumption|]. now apply act_step_view.
Qed.

(** ** Storage and store *)

Definition held (w : world) (a : bytes) (k : keypair) (c : chain) : Prop :=
  w_storage w = Some (save_identity a k c) /\ a <> [] /\ key_ok k /\ issued (w_history w) a (mkIdent k c).

Definition store_inv (w : world) : Prop :=
  (w_storage w = None /\ signed_out w) \/
  (exists a k c, held w a k c /\
     (signed_in w a (mkIdent k c) \/ (x_initializing (w_ctx w) = true /\ signed_out w))).

Lemma delegated_signed_ok D cid tr e s cert x sk exp r : deps_ok D -> exec D cid (tr ++ [e]) s ->
  delegated e cert x sk exp r -> (32 <= length sk)%nat -> signed_ok r /\ sd_delegation r = mkDelegation sk exp (dl_targets (sd_delegation r)).
Proof.
  intros HD H Hd Hsk. destruct (delegated_explained D cid tr e s cert x sk exp r HD H Hd)
    as (c & i & st & since & b & dh & w & ops & _ & _ & _ & _ & _ & _ & _ & _ & _ & _ & ->).
  split; [|reflexivity]. split; [exact Hsk|]. cbn [sd_signature].
  unfold create_certified_signature, cbor_certificate_signature. rewrite !app_length.
  assert (32 <= length (cbor_tree (delegation_tree D w)))%nat as L; [|lia].
  unfold delegation_tree. cbn [cbor_tree]. rewrite !app_length. unfold cbor_bytes at 1. rewrite app_length.
  unfold HashTree.labeled_hash at 2. rewrite (sha256_len D HD). lia.
Qed.

Lemma user_seed_len D i x : deps_ok D -> length (user_seed D i x) = 32%nat.
Proof. intros HD. unfold user_seed. apply sha256_len, HD. Qed.

Lemma der_tlv_len tag c : (length c <= length (der_tlv tag c))%nat.
Proof. unfold der_tlv. cbn [length]. rewrite app_length. lia. Qed.

Lemma pubkey_len cid seed : (length seed <= length (create_user_canister_pubkey cid seed))%nat.
Proof.
  unfold create_user_canister_pubkey. etransitivity; [|apply der_tlv_len]. cbn [concat].
  rewrite !app_length. unfold der_bit_string at 1. pose proof (der_tlv_len x03 (x00 :: raw_pubkey cid seed)) as H.
  unfold raw_pubkey in *. cbn [length] in *. rewrite app_length in *. lia.
Qed.

Lemma issued_facts D cid tr s x i : deps_ok D -> exec D cid tr s -> key_ok (id_key i) -> issued tr x i ->
  chain_ok (id_chain i) /\ (exists r, ch_delegations (id_chain i) = [r] /\ dl_pubkey (sd_delegation r) = kp_der (id_key i)).
Proof.
  intros HD H [Hraw _] (pre & l & mid & g & post & sg & n & exp & pk & cert & r & -> & Hl & Hd & ->).
  assert (32 <= length (kp_der (id_key i)))%nat as Lk by (unfold kp_der; rewrite app_length; lia).
  destruct (exec_at _ _ _ _ _ _ H) as [s1 H1].
  assert (pre ++ l :: mid ++ g :: post = (pre ++ l :: mid) ++ g :: post) as E by (now rewrite <- app_assoc). rewrite E in H.
  destruct (exec_at _ _ _ _ _ _ H) as [s2 H2].
  destruct (delegated_signed_ok D cid _ g s2 cert x _ exp r HD H2 Hd Lk) as [Hs Er].
  destruct (login_explained D cid pre l s1 sg x _ n exp pk HD H1 Hl)
    as (i' & st & fl & since & bef & p & aft & x' & b & b' & n' & text & _ & _ & _ & _ & _ & _ & _ & _ & _ & _ & _ & _ & _ & ->).
  cbn [ch_delegations id_chain]. split.
  - split; [repeat constructor; apply Hs|]. cbn [ch_pubkey]. rewrite <- (user_seed_len D i' x HD) at 1. apply pubkey_len.
  - exists r. split; [reflexivity|]. now rewrite Er.
Qed.

Lemma held_mono w x st ts s' e own a k c : w_storage w = st -> held w a k c ->
  held (mkWorld x st ts s' (w_history w ++ [e]) own) a k c.
Proof. intros <- (H1 & H2 & H3 & H4). repeat (split; [assumption|]). now apply issued_mono. Qed.

Lemma store_step D cid a w w' : deps_ok D -> cinv D cid w -> act_ok a w -> (forall j, a <> AStorage j) ->
  act_view D cid w a w' -> store_inv w -> store_inv w'.
Proof.
  intros HD Hc Hok Hq V Hi. pose proof (ci_exec _ _ _ Hc) as He.
  destruct V as [| |R|R|R|k s t x' t' st' N G|k now cert t o s' r N R S|now o s' r S|j].
  - destruct Hi as [[H1 H2]|(a & k & c & H & _)]; [left; split; [exact H1|repeat split]|].
    right. exists a, k, c. split; [exact H|]. right. repeat split.
  - destruct Hi as [[H1 H2]|(a & k & c & H & Hs)].
    + left. split; [exact H1|]. unfold signed_out, construct. cbn [w_ctx]. rewrite H1. exact H2.
    + right. exists a, k, c. split; [exact H|]. left. pose proof H as (E & Ha & Hk & His).
      destruct (issued_facts D cid _ _ a (mkIdent k c) HD He Hk His) as [Hch _].
      unfold signed_in, construct. cbn [w_ctx]. rewrite E, load_save by assumption. repeat split.
  - destruct Hi as [[H1 H2]|(a & k & c & H & Hs)]; [left; auto|right; exists a, k, c; auto].
  - assert (same_identity (w_ctx w) (fst (login_starts (w_ctx w))) /\
      x_initializing (fst (login_starts (w_ctx w))) = x_initializing (w_ctx w)) as [Sx Si].
    { destruct (login_starts_cases (w_ctx w)) as [->|(e & -> & _)]; repeat split. }
    destruct Sx as (S1 & S2 & S3). unfold store_inv, signed_in, signed_out in *. cbn [w_ctx w_storage]. rewrite S1, S2, S3, Si.
    destruct Hi as [Hi|(a & k & c & H & Hs)]; [left; exact Hi|right; exists a, k, c; auto].
  - left. repeat split.
  - destruct (login_goes_fact (w_history w) t s _ (w_storage w) x' t' st' (nth_error_Forall _ _ _ _ (ci_tasks _ _ _ Hc) N) (ci_ctx _ _ _ Hc))
      as (_ & _ & Hini & [(a & k0 & d & sd & ans & -> & A & -> & -> & -> & Ha & Hk & His)|[(S1 & S2 & S3) ->]]); auto.
    + right. exists a, k0, (mkChain [sd] (ld_pubkey d)). split; [repeat (split; [assumption || reflexivity|]); exact His|].
      left. repeat split.
    + unfold store_inv, signed_in, signed_out in *. cbn [w_ctx w_storage]. rewrite S1, S2, S3, Hini.
      destruct Hi as [Hi|(a & k0 & c & H & Hs)]; [left; exact Hi|right; exists a, k0, c; auto].
  - destruct Hi as [Hi|(a & k0 & c & H & Hs)]; [left; exact Hi|right; exists a, k0, c].
    split; [now apply held_mono|exact Hs].
  - destruct Hi as [Hi|(a & k0 & c & H & Hs)]; [left; exact Hi|right; exists a, k0, c].
    split; [now apply held_mono|exact Hs].
  - now destruct (Hq j).
Qed.

Lemma undisturbed_snoc acts a : undisturbed (acts ++ [a]) -> undisturbed acts /\ forall j, a <> AStorage j.
Proof.
  intros H. split; intros j.
  - intros I. apply (H j), in_app_iff. auto.
  - intros ->. apply (H j), in_app_iff. right. left. reflexivity.
Qed.

Lemma runs_store D cid acts w : deps_ok D -> runs D cid acts w -> undisturbed acts -> store_inv w.
Proof.
  intros HD. induction 1 as [|acts w a w' H IH Hok Hs]; intros Hu.
  - left. repeat split.
  - apply undisturbed_snoc in Hu as [Hu Ha]. apply act_step_view in Hs.
    apply (store_step D cid a w); auto. eapply runs_cinv, H.
Qed.

(** ** After clear *)

Lemma prep_not_login a p : ~ login_running (TPrepare p) /\ login_running (TPreparing a p).
Proof. split; cbn; auto. Qed.

Lemma quiet_step D cid a w w' : quiet a -> act_view D cid w a w' ->
  w_storage w = None -> signed_out w -> Forall (fun t => ~ login_running t) (w_tasks w) ->
  w_storage w' = None /\ signed_out w' /\ Forall (fun t => ~ login_running t) (w_tasks w').
Proof.
  intros [Q1 Q2] V H1 H2 H3.
  destruct V as [| |R|R|R|k s t x' t' st' N G|k now cert t o s' r N R S|now o s' r S|j]; try congruence.
  - repeat split; auto; constructor.
  - split; [exact H1|]. split; [|exact H3]. unfold signed_out, construct. cbn [w_ctx]. rewrite H1. exact H2.
  - split; [exact H1|]. split; [exact H2|]. apply List.Forall_app. split; [exact H3|repeat constructor; intros []].
  - split; [reflexivity|]. split; [repeat split|exact H3].
  - pose proof (nth_error_Forall _ _ _ _ H3 N) as Ht.
    destruct t as [p| |a p|a m n|a n sg k0|a n sg k0 ans|a k0 d ans|i|err]; try (exfalso; apply Ht; exact I);
      cbn [login_goes] in G; [|destruct s; discriminate G|destruct s; discriminate G].
    destruct (prep_goes p s (w_ctx w)) as [[y q]|] eqn:P; [|discriminate G].
    assert (x' = y /\ t' = TPrepare q /\ st' = w_storage w) as (-> & -> & ->) by (repeat split; congruence).
    destruct (prep_goes_identity _ _ _ _ _ P) as [(S1 & S2 & S3) _].
    split; [exact H1|]. split; [unfold signed_out in *; cbn [w_ctx]; rewrite S1, S2, S3; exact H2|].
    apply Forall_insert_task; [exact H3|intros []].
  - pose proof (nth_error_Forall _ _ _ _ H3 N) as Ht. split; [exact H1|]. split; [exact H2|].
    apply Forall_insert_task; [exact H3|].
    destruct t as [p| |a p|a m n|a n sg k0|a n sg k0 ans|a k0 d ans|i|err]; try discriminate R; try (exfalso; apply Ht; exact I).
    intros [].
  - auto.
Qed.

(** ** Secrets *)

Section Secrets.
Variable f : bytes -> bytes.

Definition with_secret (p : keypair) : keypair := mkPair (kp_raw p) (f (kp_secret p)).

(** Equal up to session secrets. *)
Definition task_like (t u : task) : Prop :=
  match t, u with
  | TActor a n sg k, TActor a' n' sg' k' => a = a' /\ n = n' /\ sg = sg' /\ kp_raw k = kp_raw k'
  | TLogin a n sg k r, TLogin a' n' sg' k' r' => a = a' /\ n = n' /\ sg = sg' /\ kp_raw k = kp_raw k' /\ r = r'
  | TDelegation a k d r, TDelegation a' k' d' r' => a = a' /\ kp_raw k = kp_raw k' /\ d = d' /\ r = r'
  | TReturned i, TReturned j => kp_raw (id_key i) = kp_raw (id_key j) /\ id_chain i = id_chain j
  | _, _ => t = u
  end.

(** Everything of the store but the identity. *)
Definition ctx_like (x y : ctx) : Prop :=
  x_initializing x = x_initializing y /\ x_prepare x = x_prepare y /\ x_prepare_error x = x_prepare_error y /\
  x_message x = x_message y /\ x_login x = x_login y /\ x_login_error x = x_login_error y /\
  x_sign x = x_sign y /\ x_sign_error x = x_sign_error y.

Definition world_like (w v : world) : Prop :=
  ctx_like (w_ctx w) (w_ctx v) /\ Forall2 task_like (w_tasks w) (w_tasks v) /\
  w_canister w = w_canister v /\ w_history w = w_history v /\ w_own w = w_own v.

Definition settle_like (s u : settle) : Prop :=
  match s, u with
  | SSigned sg p, SSigned sg' p' => sg = sg' /\ kp_raw p = kp_raw p'
  | _, _ => s = u
  end.

Lemma task_like_refl t : task_like t t.
Proof. destruct t; cbn; auto. Qed.

Ltac likes :=
  unfold ctx_like in *; cbn [x_initializing x_prepare x_prepare_error x_message x_login x_login_error x_sign x_sign_error
    set_preparing set_prepared set_prepare_failed set_logging_in set_signing set_sign_failed set_signed set_logged_in set_login_failed set_cleared];
  intuition (congruence || auto).

Lemma prep_goes_like p s u x y : settle_like s u -> ctx_like x y ->
  match prep_goes p s x, prep_goes p u y with
  | Some (x', p'), Some (y', q') => ctx_like x' y' /\ p' = q'
  | None, None => True
  | _, _ => False
  end.
Proof.
  intros Hs Hx. unfold prep_goes, prep_fails.
  destruct p as [|a|a [r|]|m]; destruct s as [e|l| |sg k|], u as [e'|l'| |sg' k'|]; cbn in Hs; try congruence; auto;
    try (assert (e' = e) as -> by congruence); try (assert (l' = l) as -> by congruence);
    try destruct (first_account l); try destruct (prepare_answer r) as [[m|err]|]; auto; split; auto; likes.
Qed.

Lemma login_goes_like t u s v x y st st' : task_like t u -> settle_like s v -> ctx_like x y ->
  match login_goes t s x st, login_goes u v y st' with
  | Some (x', t', _), Some (y', u', _) => ctx_like x' y' /\ task_like t' u'
  | None, None => True
  | _, _ => False
  end.
Proof.
  intros Ht Hs Hx. pose proof (fun p => prep_goes_like p s v x y Hs Hx) as Hp.
  assert (x_message x = x_message y) as Em by apply Hx.
  destruct t as [p| |a p|a m n|a n sg k|a n sg k ans|a k d ans|i|err];
    destruct u as [p'| |a' p'|a' m' n'|a' n' sg' k'|a' n' sg' k' ans'|a' k' d' ans'|i'|err']; cbn in Ht; try discriminate Ht;
    cbn [login_goes]; unfold login_fails, sign_fails, login_fails.
  - assert (p' = p) as -> by congruence. specialize (Hp p).
    destruct (prep_goes p s x) as [[x' q]|], (prep_goes p v y) as [[y' q']|]; try contradiction; auto.
    destruct Hp as [H1 ->]. split; [assumption|reflexivity].
  - destruct s, v; cbn in Hs; try discriminate Hs; auto.
    + assert (e0 = e) as -> by congruence. split; [likes|reflexivity].
    + assert (l0 = l) as -> by congruence. rewrite <- Em.
      destruct (first_account l); [|split; [likes|reflexivity]].
      destruct (x_message x) as [[m n]|]; (split; [likes|reflexivity]).
  - assert (a' = a /\ p' = p) as [-> ->] by (split; congruence). specialize (Hp p).
    assert (match match prep_goes p s x with Some (x, p) => Some (x, TPreparing a p, st) | None => None end,
                  match prep_goes p v y with Some (x, p) => Some (x, TPreparing a p, st') | None => None end with
            | Some (x', t', _), Some (y', u', _) => ctx_like x' y' /\ task_like t' u'
            | None, None => True
            | _, _ => False
            end) as Hgo.
    { destruct (prep_goes p s x) as [[x' q]|], (prep_goes p v y) as [[y' q']|]; try contradiction; auto.
      destruct Hp as [H1 ->]. split; [assumption|reflexivity]. }
    destruct p as [|acc|acc ans|[[m n]|e]]; try exact Hgo.
    + destruct s, v; cbn in Hs; try discriminate Hs; try exact Hgo. split; [likes|reflexivity].
    + destruct s, v; cbn in Hs; try discriminate Hs; try exact Hgo. split; [likes|reflexivity].
  - assert (a' = a /\ m' = m /\ n' = n) as (-> & -> & ->) by (repeat split; congruence).
    destruct s as [e|l| |[|c sg] k|], v as [e'|l'| |[|c' sg'] k'|]; cbn in Hs; try discriminate Hs; auto;
      try (destruct Hs; discriminate).
    + assert (e' = e) as -> by congruence. split; [likes|reflexivity].
    + split; [likes|reflexivity].
    + destruct Hs as [E Ek]. split; [likes|]. cbn. auto.
  - destruct Ht as (-> & -> & -> & Ek). destruct s, v; cbn in Hs; try discriminate Hs; auto.
    + assert (e0 = e) as -> by congruence. split; [likes|reflexivity].
    + split; [likes|]. cbn. auto.
  - destruct Ht as (-> & -> & -> & Ek & ->). destruct ans' as [r|]; destruct s, v; cbn in Hs; try discriminate Hs; auto;
      try (assert (e0 = e) as -> by congruence; split; [likes|reflexivity]).
    destruct (login_answer r) as [[d|err]|]; auto; (split; [likes|]); cbn; auto.
  - destruct Ht as (-> & Ek & -> & ->). destruct ans' as [r|]; destruct s, v; cbn in Hs; try discriminate Hs; auto;
      try (assert (e0 = e) as -> by congruence; split; [likes|reflexivity]).
    destruct (delegation_answer r) as [[d|err]|]; auto; (split; [likes|]); cbn; auto.
  - destruct s, v; auto.
  - destruct s, v; auto.
Qed.

Lemma task_request_like cert t u : task_like t u -> task_request cert t = task_request cert u.
Proof.
  destruct t as [p| |a p|a m n|a n sg k|a n sg k ans|a k d ans|i|err], u as [p'| |a' p'|a' m' n'|a' n' sg' k'|a' n' sg' k' ans'|a' k' d' ans'|i'|err'];
    cbn; intros H; try congruence; unfold kp_der.
  - destruct H as (-> & -> & -> & -> & ->). reflexivity.
  - destruct H as (-> & -> & -> & ->). reflexivity.
Qed.

Lemma task_answered_like r t u : task_like t u -> task_like (task_answered r t) (task_answered r u).
Proof.
  destruct t as [p| |a p|a m n|a n sg k|a n sg k ans|a k d ans|i|err], u as [p'| |a' p'|a' m' n'|a' n' sg' k'|a' n' sg' k' ans'|a' k' d' ans'|i'|err'];
    cbn; intros H; try congruence; auto.
  - destruct H as (-> & -> & -> & E & ->). destruct ans'; cbn; auto.
  - destruct H as (-> & E & -> & ->). destruct ans'; cbn; auto.
Qed.

Lemma Forall2_nth_error {A B} (R : A -> B -> Prop) l m k x : Forall2 R l m -> nth_error l k = Some x ->
  exists y, nth_error m k = Some y /\ R x y.
Proof.
  intros H. revert k. induction H as [|a b l m Hab _ IH]; intros [|k] E; try discriminate E.
  - exists b. cbn in E. split; [reflexivity|]. now assert (x = a) as -> by congruence.
  - apply IH, E.
Qed.

Lemma construct_like st st' x y : ctx_like x y -> ctx_like (construct st x) (construct st' y).
Proof.
  intros H. unfold construct. destruct (load_identity st) as [[[? ?] ?]|], (load_identity st') as [[[? ?] ?]|]; likes.
Qed.

Hypothesis flen : forall s, length s = 32%nat -> length (f s) = 32%nat.

Lemma resecret_step D cid a w v w' : world_like w v -> act_ok a w -> act_view D cid w a w' ->
  exists v', act_ok (resecret f a) v /\ act_step D cid (resecret f a) v = Some v' /\ world_like w' v'.
Proof.
  intros (Hx & Ht & Hc & Hh & Ho) Hok V.
  assert (forall w' a', act_ok a' v -> act_view D cid v a' w' -> exists v', act_ok a' v /\ act_step D cid a' v = Some v' /\ v' = w') as Mk.
  { intros w2 a' H1 H2. exists w2. split; [assumption|]. split; [now apply act_view_step|reflexivity]. }
  destruct V as [| |R|R|R|k s t x' t' st' N G|k now cert t o s' r N R S|now o s' r S|j]; cbn [resecret].
  - eexists. split; [exact I|]. split; [reflexivity|]. repeat (split; [assumption || (cbn; likes) || constructor|]). auto.
  - eexists. split; [exact I|]. split; [reflexivity|]. split; [now apply construct_like|auto].
  - assert (x_initializing (w_ctx v) = false) as R' by (destruct Hx as [<- _]; exact R).
    eexists. split; [exact I|]. split; [now apply act_view_step, v_prepare|]. split; [exact Hx|]. split; [|auto].
    apply Forall2_app; [assumption|repeat constructor].
  - assert (x_initializing (w_ctx v) = false) as R' by (destruct Hx as [<- _]; exact R).
    eexists. split; [exact I|]. split; [now apply act_view_step, v_login|].
    assert (ctx_like (fst (login_starts (w_ctx w))) (fst (login_starts (w_ctx v))) /\
            snd (login_starts (w_ctx w)) = snd (login_starts (w_ctx v))) as [H1 H2].
    { assert (x_prepare (w_ctx w) = x_prepare (w_ctx v) /\ x_login (w_ctx w) = x_login (w_ctx v)) as [E1 E2] by (split; apply Hx).
      unfold login_starts, login_fails. rewrite <- E1, <- E2. destruct (x_prepare (w_ctx w)), (x_login (w_ctx w)); cbn [fst snd]; (split; [likes|reflexivity]). }
    split; [exact H1|]. split; [|auto]. cbn [w_tasks]. rewrite H2. apply Forall2_app; [assumption|]. constructor; [apply task_like_refl|constructor].
  - assert (x_initializing (w_ctx v) = false) as R' by (destruct Hx as [<- _]; exact R).
    eexists. split; [exact I|]. split; [now apply act_view_step, v_clear|]. split; [|auto]. cbn [w_ctx]. likes.
  - destruct (Forall2_nth_error _ _ _ _ _ Ht N) as (u & Nu & Hu).
    set (sv := match s with SSigned sg p => SSigned sg (mkPair (kp_raw p) (f (kp_secret p))) | _ => s end).
    assert (settle_like s sv) as Hs by (unfold sv; destruct s; cbn; auto).
    pose proof (login_goes_like t u s sv (w_ctx w) (w_ctx v) (w_storage w) (w_storage v) Hu Hs Hx) as Hg. rewrite G in Hg.
    destruct (login_goes u sv (w_ctx v) (w_storage v)) as [[[y' u'] sty]|] eqn:Gv; [|contradiction].
    assert (match s with SSigned sg p => AContinue k (SSigned sg (mkPair (kp_raw p) (f (kp_secret p)))) | _ => AContinue k s end = AContinue k sv) as -> by (unfold sv; destruct s; reflexivity).
    eexists. split.
    { unfold sv. destruct s; try exact I. cbn in Hok |- *. destruct Hok. split; [assumption|now apply flen]. }
    split; [eapply act_view_step, v_continue; eassumption|]. destruct Hg as [H1 H2].
    split; [exact H1|]. split; [|auto]. cbn [w_tasks]. now apply Forall2_insert.
  - destruct (Forall2_nth_error _ _ _ _ _ Ht N) as (u & Nu & Hu).
    rewrite (task_request_like cert t u Hu) in R. rewrite Hc in S.
    eexists. split.
    { intros t0 o0 N0 R0. assert (t0 = u) as -> by congruence. assert (o0 = o) as -> by congruence.
      destruct (Hok t o N) as (T1 & T2 & T3); [now rewrite (task_request_like cert t u Hu)|]. unfold executes. now rewrite <- Hh. }
    split; [eapply act_view_step, v_serve; eassumption|]. split; [exact Hx|].
    split; [apply Forall2_insert; [assumption|now apply task_answered_like]|]. cbn. rewrite Hh, Ho. auto.
  - rewrite Hc in S. eexists. split; [unfold act_ok, executes in *; rewrite <- Hh; exact Hok|].
    split; [eapply act_view_step, v_canister; eassumption|]. split; [exact Hx|]. split; [assumption|]. cbn. rewrite Hh, Ho. auto.
  - eexists. split; [exact I|]. split; [reflexivity|]. split; [exact Hx|]. auto.
Qed.

Lemma resecret_runs D cid acts w : runs D cid acts w -> exists v, runs D cid (map (resecret f) acts) v /\ world_like w v.
Proof.
  induction 1 as [|acts w a w' H IH Hok Hs].
  - exists initial_world. split; [constructor|]. split; [likes|]. repeat split; constructor.
  - destruct IH as (v & Hv & Hl). apply act_step_view in Hs. destruct (resecret_step D cid a w v w' Hl Hok Hs) as (v' & H1 & H2 & H3).
    exists v'. split; [|assumption]. rewrite map_app. cbn [map]. now apply (runs_snoc D cid _ v).
Qed.
End Secrets.
