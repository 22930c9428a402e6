(** Where the errors of the browser client come from. *)
From Coq Require Import Strings.String ZifyBool ZifyN ZifyNat.
From Verif Require Import Base BaseLemmas Deps Delegation Login Provider SpecTrace Client SpecClient SpecErrors
  ClientProofs ClientSeq ClientStatus.
Local Open Scope N_scope.

Lemma reason_mono acts own a evs e : reason acts own e -> reason (acts ++ [a]) (own ++ evs) e.
Proof.
  intros []; [eapply canister_refused|eapply canister_trapped|eapply something_threw|eapply no_account_there|eapply nothing_signed
    |apply called_while_preparing|apply called_while_logging_in]; try apply in_app_iff; eauto.
Qed.

Lemma first_account_none l : first_account l = None <-> no_accounts l.
Proof.
  unfold no_accounts. destruct l as [|[|b x] l]; cbn.
  - tauto.
  - split; [intros _; right; now exists l|reflexivity].
  - split; [discriminate|]. intros [H|[r H]]; discriminate.
Qed.

(** Answers on their way come from the canister; failed preparations have a reason. *)
Definition prep_why acts own (p : prep) : Prop :=
  match p with
  | PReply _ (Some r) => exists v, In v own /\ ev_reply v = r
  | PReturned (Err e) => reason acts own e
  | _ => True
  end.
Definition task_why acts own (t : task) : Prop :=
  match t with
  | TPrepare p | TPreparing _ p => prep_why acts own p
  | TLogin _ _ _ _ (Some r) | TDelegation _ _ _ (Some r) => exists v, In v own /\ ev_reply v = r
  | TThrown e => reason acts own e
  | _ => True
  end.
Definition ctx_why acts own (x : ctx) : Prop :=
  (forall e, x_login_error x = Some e -> reason acts own e) /\
  (forall e, x_prepare_error x = Some e -> reason acts own e) /\
  (forall e, x_sign_error x = Some e -> reason acts own e).

Lemma prep_why_mono acts own a evs p : prep_why acts own p -> prep_why (acts ++ [a]) (own ++ evs) p.
Proof.
  destruct p as [|b|b [r|]|[m|e]]; cbn; auto using reason_mono.
  intros (v & I & H). exists v. split; [apply in_app_iff; auto|exact H].
Qed.
Lemma task_why_mono acts own a evs t : task_why acts own t -> task_why (acts ++ [a]) (own ++ evs) t.
Proof.
  destruct t as [p| |b p|b m n|b n sg k|b n sg k [r|]|b k d [r|]|i|e]; cbn; auto using reason_mono, prep_why_mono;
    intros (v & I & H); exists v; (split; [apply in_app_iff; auto|exact H]).
Qed.
Lemma ctx_why_mono acts own a evs x : ctx_why acts own x -> ctx_why (acts ++ [a]) (own ++ evs) x.
Proof. intros (H1 & H2 & H3). repeat split; intros e E; apply reason_mono; auto. Qed.

Lemma prepare_refusal r e : prepare_answer r = Some (Err e) -> refusal r e \/ exists w, r = RTrap w /\ e = rejected w.
Proof. unfold refusal. destruct r; cbn; intros E; try discriminate E;
  (left; left; congruence) || (right; eexists; split; [reflexivity|congruence]). Qed.
Lemma login_refusal r e : login_answer r = Some (Err e) -> refusal r e \/ exists w, r = RTrap w /\ e = rejected w.
Proof. unfold refusal. destruct r; cbn; intros E; try discriminate E;
  (left; right; left; congruence) || (right; eexists; split; [reflexivity|congruence]). Qed.
Lemma delegation_refusal r e : delegation_answer r = Some (Err e) -> refusal r e \/ exists w, r = RTrap w /\ e = rejected w.
Proof. unfold refusal. destruct r; cbn; intros E; try discriminate E;
  (left; right; right; congruence) || (right; eexists; split; [reflexivity|congruence]). Qed.

Section Goes.
Context (acts : list action) (own : list event) (k : nat).

Lemma prep_goes_why p s x x' p' : In (AContinue k s) acts -> prep_why acts own p -> ctx_why acts own x ->
  prep_goes p s x = Some (x', p') -> prep_why acts own p' /\ ctx_why acts own x'.
Proof.
  intros Hin Hp (H1 & H2 & H3) E.
  assert (forall e, reason acts own e -> prep_why acts own (PReturned (Err e)) /\ ctx_why acts own (set_prepare_failed e x)) as F.
  { intros e R. split; [exact R|]. repeat split; cbn; auto. intros e' Ee. now assert (e' = e) as -> by congruence. }
  destruct p as [|a|a [r|]|m]; destruct s as [e|l| |sg q|]; try discriminate E; cbn [prep_goes] in E; unfold prep_fails in E;
    try (injection E as <- <-; apply F; eapply something_threw; exact Hin).
  - destruct (first_account l) as [b|] eqn:A; injection E as <- <-.
    + split; [exact I|]. repeat split; cbn; auto; discriminate.
    + apply F. eapply no_account_there; [exact Hin|]. now apply first_account_none.
  - injection E as <- <-. split; [exact I|]. repeat split; assumption.
  - destruct (prepare_answer r) as [[m|e]|] eqn:A; [| |discriminate]; injection E as <- <-.
    + split; [exact I|]. repeat split; cbn; auto.
    + apply F. destruct Hp as (v & Iv & Er). destruct (prepare_refusal r e A) as [R|(why & -> & ->)].
      * eapply canister_refused; [exact Iv|]. now rewrite Er.
      * eapply canister_trapped; eassumption.
Qed.

Lemma login_goes_why t s x st x' t' st' : In (AContinue k s) acts -> task_why acts own t -> ctx_why acts own x ->
  login_goes t s x st = Some (x', t', st') -> task_why acts own t' /\ ctx_why acts own x'.
Proof.
  intros Hin Ht Hx E. pose proof Hx as (H1 & H2 & H3).
  assert (forall e, reason acts own e -> task_why acts own (TThrown e) /\ ctx_why acts own (set_login_failed e x)) as F.
  { intros e R. split; [exact R|]. repeat split; cbn; auto. intros e' Ee. now assert (e' = e) as -> by congruence. }
  assert (forall e, reason acts own e -> task_why acts own (TThrown e) /\ ctx_why acts own (set_login_failed e (set_sign_failed e x))) as F2.
  { intros e R. split; [exact R|]. repeat split; cbn; auto; intros e' Ee; now assert (e' = e) as -> by congruence. }
  destruct t as [p| |a p|a m n|a n sg q|a n sg q ans|a q d ans|i|err].
  - cbn in E. destruct (prep_goes p s x) as [[y p']|] eqn:P; [|discriminate]. injection E as <- <- <-.
    eapply prep_goes_why; eassumption.
  - destruct s as [e|l| |sg q|]; try discriminate E; cbn in E; unfold login_fails in E.
    + injection E as <- <- <-. apply F. eapply something_threw, Hin.
    + destruct (first_account l) as [b|] eqn:A.
      * destruct (x_message x) as [[m n]|]; injection E as <- <- <-; (split; [exact I|]); repeat split; cbn; auto; discriminate.
      * injection E as <- <- <-. apply F. eapply no_account_there; [exact Hin|]. now apply first_account_none.
  - destruct (preparing_goes _ _ _ _ _ _ _ _ E) as [(q & P & ->)|[(m & n & -> & -> & ->)|(e & -> & -> & ->)]].
    + eapply prep_goes_why; eassumption.
    + split; [exact I|]. exact Hx.
    + apply F. exact Ht.
  - destruct s as [e|l| |[|c sg] q|]; try discriminate E; cbn in E; unfold sign_fails, login_fails in E; injection E as <- <- <-.
    + apply F2. eapply something_threw, Hin.
    + apply F2. eapply nothing_signed, Hin.
    + split; [exact I|]. exact Hx.
  - destruct s as [e|l| |sg' q'|]; try discriminate E; cbn in E; unfold login_fails in E; injection E as <- <- <-.
    + apply F. eapply something_threw, Hin.
    + split; [exact I|]. exact Hx.
  - destruct s as [e|l| |sg' q'|]; try (destruct ans; discriminate E).
    + assert (x' = set_login_failed e x /\ t' = TThrown e) as [-> ->] by (destruct ans; cbn in E; unfold login_fails in E; split; congruence).
      apply F. eapply something_threw, Hin.
    + destruct ans as [r|]; [|discriminate E]. cbn in E. destruct (login_answer r) as [[d|e]|] eqn:A; [| |discriminate E];
        unfold login_fails in E; injection E as <- <- <-.
      * split; [exact I|]. exact Hx.
      * apply F. destruct Ht as (v & Iv & Er). destruct (login_refusal r e A) as [R|(why & -> & ->)].
        -- eapply canister_refused; [exact Iv|]. now rewrite Er.
        -- eapply canister_trapped; eassumption.
  - destruct s as [e|l| |sg' q'|]; try (destruct ans; discriminate E).
    + assert (x' = set_login_failed e x /\ t' = TThrown e) as [-> ->] by (destruct ans; cbn in E; unfold login_fails in E; split; congruence).
      apply F. eapply something_threw, Hin.
    + destruct ans as [r|]; [|discriminate E]. cbn [login_goes] in E. destruct (delegation_answer r) as [[sd|e]|] eqn:A; [| |discriminate E].
      * assert (t' = TReturned (mkIdent q (create_chain sd (ld_pubkey d))) /\
          x' = set_logged_in a (mkIdent q (create_chain sd (ld_pubkey d))) (create_chain sd (ld_pubkey d)) x) as [-> ->] by (split; congruence).
        split; [exact I|]. exact Hx.
      * unfold login_fails in E. injection E as <- <- <-.
        apply F. destruct Ht as (v & Iv & Er). destruct (delegation_refusal r e A) as [R|(why & -> & ->)].
        -- eapply canister_refused; [exact Iv|]. now rewrite Er.
        -- eapply canister_trapped; eassumption.
  - destruct s; discriminate E.
  - destruct s; discriminate E.
Qed.
End Goes.

Lemma answered_why acts own cert t o now r : task_request cert t = Some o ->
  task_why acts (own ++ [mkEvent now o r]) (task_answered r t).
Proof.
  assert (exists v, In v (own ++ [mkEvent now o r]) /\ ev_reply v = r) as V.
  { exists (mkEvent now o r). split; [apply in_app_iff; right; left; reflexivity|reflexivity]. }
  intros E. destruct t as [[|b|b [r'|]|m]| |b [|c|c [r'|]|m]|b m n|b n sg k|b n sg k [r'|]|b k d [r'|]|i|e]; cbn in E; try discriminate E; exact V.
Qed.

Record why_inv (acts : list action) (w : world) : Prop := {
  why_tasks : Forall (task_why acts (w_own w)) (w_tasks w);
  why_ctx : ctx_why acts (w_own w) (w_ctx w)
}.

Lemma why_step D cid acts a w w' : why_inv acts w -> act_view D cid w a w' -> why_inv (acts ++ [a]) w'.
Proof.
  intros [Ht Hx] V.
  assert (forall evs, Forall (task_why (acts ++ [a]) (w_own w ++ evs)) (w_tasks w)) as Ht'.
  { intros evs. revert Ht. apply List.Forall_impl. intros t. apply task_why_mono. }
  assert (forall evs, ctx_why (acts ++ [a]) (w_own w ++ evs) (w_ctx w)) as Hx' by (intros evs; now apply ctx_why_mono).
  pose proof (Ht' []) as Ht0. pose proof (Hx' []) as Hx0. rewrite app_nil_r in Ht0, Hx0.
  assert (In a (acts ++ [a])) as Ia by (apply in_app_iff; right; left; reflexivity).
  destruct V as [| |R|R|R|k s t x' t' st' N G|k now cert t o s' r N R S|now o s' r S|j]; constructor; cbn; auto.
  - repeat split; cbn; discriminate.
  - unfold construct. destruct (load_identity (w_storage w)) as [[[? ?] ?]|]; exact Hx0.
  - apply List.Forall_app. split; [exact Ht0|repeat constructor].
  - apply List.Forall_app. split; [exact Ht0|]. constructor; [|constructor].
    unfold login_starts, login_fails. destruct (x_prepare (w_ctx w)); destruct (x_login (w_ctx w)); cbn; trivial;
      try (now apply called_while_preparing); now apply called_while_logging_in.
  - destruct Hx0 as (H1 & H2 & H3).
    unfold login_starts, login_fails. destruct (x_prepare (w_ctx w)); destruct (x_login (w_ctx w)); repeat split; cbn; auto;
      intros e Ee; match type of Ee with Some ?x = _ => assert (e = x) as -> by congruence end;
      try (now apply called_while_preparing); now apply called_while_logging_in.
  - destruct Hx0 as (H1 & H2 & H3). repeat split; cbn; auto; discriminate.
  - eapply Forall_insert_task; [exact Ht0|]. eapply login_goes_why; [exact Ia| |exact Hx0|exact G].
    exact (nth_error_Forall _ _ _ _ Ht0 N).
  - eapply login_goes_why; [exact Ia| |exact Hx0|exact G]. exact (nth_error_Forall _ _ _ _ Ht0 N).
  - apply Forall_insert_task; [apply Ht'|]. eapply answered_why, R.
Qed.

Lemma runs_why D cid acts w : runs D cid acts w -> why_inv acts w.
Proof.
  induction 1 as [|acts w a w' H IH Hok Hs].
  - constructor; [constructor|]. repeat split; cbn; discriminate.
  - apply act_step_view in Hs. eapply why_step; eassumption.
Qed.

(** ** Errors and statuses *)

(** A failed status comes with an error. *)
Record failed_inv (x : ctx) : Prop := {
  fi_login : x_login x = Failed -> exists e, x_login_error x = Some e;
  fi_prepare : x_prepare x = Failed -> exists e, x_prepare_error x = Some e
}.

Lemma prep_goes_failed p s x x' p' : failed_inv x -> prep_goes p s x = Some (x', p') -> failed_inv x'.
Proof.
  intros [H1 H2] E. destruct p as [|a|a [r|]|m]; destruct s as [e|l| |sg q|]; try discriminate E; cbn in E; unfold prep_fails in E.
  all: try (destruct (first_account l)); try (destruct (prepare_answer r) as [[m|e]|]); try discriminate E.
  all: injection E as <- <-; constructor; cbn; eauto; discriminate.
Qed.

Lemma login_goes_failed t s x st x' t' st' : failed_inv x -> login_goes t s x st = Some (x', t', st') -> failed_inv x'.
Proof.
  intros Hx E. pose proof Hx as [H1 H2].
  destruct t as [p| |a p|a m n|a n sg q|a n sg q ans|a q d ans|i|err].
  - cbn in E. destruct (prep_goes p s x) as [[y p']|] eqn:P; [|discriminate]. injection E as <- <- <-. eapply prep_goes_failed; eassumption.
  - destruct s as [e|l| |sg q|]; try discriminate E; cbn in E; unfold login_fails in E.
    + injection E as <- <- <-. constructor; cbn; eauto.
    + destruct (first_account l) as [b|]; [destruct (x_message x) as [[m n]|]|]; injection E as <- <- <-; constructor; cbn; eauto; discriminate.
  - destruct (preparing_goes _ _ _ _ _ _ _ _ E) as [(q & P & ->)|[(m & n & -> & -> & ->)|(e & -> & -> & ->)]].
    + eapply prep_goes_failed; eassumption.
    + constructor; cbn; auto.
    + constructor; cbn; eauto.
  - destruct s as [e|l| |[|c sg] q|]; try discriminate E; cbn in E; unfold sign_fails, login_fails in E; injection E as <- <- <-; constructor; cbn; eauto.
  - destruct s as [e|l| |sg' q'|]; try discriminate E; cbn in E; unfold login_fails in E; injection E as <- <- <-; constructor; cbn; eauto.
  - destruct s as [e|l| |sg' q'|]; try (destruct ans; discriminate E).
    + assert (x' = set_login_failed e x) as -> by (destruct ans; cbn in E; unfold login_fails in E; congruence). constructor; cbn; eauto.
    + destruct ans as [r|]; [|discriminate E]. cbn in E. destruct (login_answer r) as [[d|e]|]; [| |discriminate E];
        unfold login_fails in E; injection E as <- <- <-; constructor; cbn; eauto.
  - destruct s as [e|l| |sg' q'|]; try (destruct ans; discriminate E).
    + assert (x' = set_login_failed e x) as -> by (destruct ans; cbn in E; unfold login_fails in E; congruence). constructor; cbn; eauto.
    + destruct ans as [r|]; [|discriminate E]. cbn [login_goes] in E. destruct (delegation_answer r) as [[sd|e]|]; [| |discriminate E].
      * match type of E with Some (?y, _, _) = _ => assert (x' = y) as -> by congruence end. constructor; cbn; eauto; discriminate.
      * unfold login_fails in E. injection E as <- <- <-. constructor; cbn; eauto.
  - destruct s; discriminate E.
  - destruct s; discriminate E.
Qed.

Lemma runs_failed D cid acts w : runs D cid acts w -> failed_inv (w_ctx w).
Proof.
  induction 1 as [|acts w a w' H IH Hok Hs]; [constructor; cbn; discriminate|].
  apply act_step_view in Hs. pose proof IH as [H1 H2].
  destruct Hs as [| |R|R|R|k s t x' t' st' N G|k now cert t o s' r N R S|now o s' r S|j]; cbn; auto.
  - constructor; cbn; discriminate.
  - unfold construct. destruct (load_identity (w_storage w)) as [[[? ?] ?]|]; constructor; auto.
  - destruct (login_starts_cases (w_ctx w)) as [->|(e & -> & _)]; constructor; cbn; eauto.
  - constructor; cbn; discriminate.
  - eapply login_goes_failed; eassumption.
Qed.

(** When calls do not overlap, an error only goes with a failed status. *)
Definition errors_fit (x : ctx) : Prop :=
  (x_login_error x <> None -> x_login x = Failed) /\
  (x_prepare_error x <> None -> x_prepare x = Failed) /\
  (x_sign_error x <> None -> x_sign x = Failed).
Definition task_clean (x : ctx) (t : task) : Prop :=
  match t with
  | TPrepare p => prep_asking p -> x_prepare_error x = None
  | TPreparing _ p => x_login_error x = None /\ x_sign_error x = None /\ (prep_asking p -> x_prepare_error x = None)
  | TSign _ _ _ | TActor _ _ _ _ | TLogin _ _ _ _ _ | TDelegation _ _ _ _ => x_login_error x = None /\ x_sign_error x = None
  | _ => True
  end.

Lemma prep_goes_fit p s x x' p' : errors_fit x -> (prep_asking p -> x_prepare_error x = None) ->
  prep_goes p s x = Some (x', p') ->
  errors_fit x' /\ (prep_asking p' -> x_prepare_error x' = None) /\
  x_login_error x' = x_login_error x /\ x_sign_error x' = x_sign_error x.
Proof.
  intros (H1 & H2 & H3) Hp E. destruct p as [|a|a [r|]|m]; destruct s as [e|l| |sg q|]; try discriminate E; cbn in E, Hp; unfold prep_fails in E.
  all: try (destruct (first_account l)); try (destruct (prepare_answer r) as [[m|e]|]); try discriminate E.
  all: injection E as <- <-; repeat split; cbn; auto; try contradiction.
  rewrite (Hp I). contradiction.
Qed.

Lemma login_goes_fit t s x st x' t' st' : errors_fit x -> task_clean x t ->
  login_goes t s x st = Some (x', t', st') -> errors_fit x' /\ task_clean x' t'.
Proof.
  intros Hf Ht E. pose proof Hf as (H1 & H2 & H3).
  destruct t as [p| |a p|a m n|a n sg q|a n sg q ans|a q d ans|i|err].
  - cbn in E. destruct (prep_goes p s x) as [[y p']|] eqn:P; [|discriminate]. injection E as <- <- <-.
    destruct (prep_goes_fit _ _ _ _ _ Hf Ht P) as (F & C & _). auto.
  - destruct s as [e|l| |sg q|]; try discriminate E; cbn in E; unfold login_fails in E.
    + injection E as <- <- <-. repeat split; cbn; auto.
    + destruct (first_account l) as [b|]; [destruct (x_message x) as [[m n]|]|]; injection E as <- <- <-;
        repeat split; cbn; auto; contradiction.
  - destruct Ht as (C1 & C2 & C3).
    destruct (preparing_goes _ _ _ _ _ _ _ _ E) as [(q & P & ->)|[(m & n & -> & -> & ->)|(e & -> & -> & ->)]].
    + destruct (prep_goes_fit _ _ _ _ _ Hf C3 P) as (F & C & Q1 & Q2). split; [exact F|]. cbn. rewrite Q1, Q2. auto.
    + repeat split; cbn; auto. rewrite C2. contradiction.
    + repeat split; cbn; auto.
  - destruct Ht as (C1 & C2).
    destruct s as [e|l| |[|c sg] q|]; try discriminate E; cbn in E; unfold sign_fails, login_fails in E; injection E as <- <- <-;
      repeat split; cbn; auto. rewrite C2. contradiction.
  - destruct s as [e|l| |sg' q'|]; try discriminate E; cbn in E; unfold login_fails in E; injection E as <- <- <-; [repeat split; cbn; auto|].
    split; [exact Hf|exact Ht].
  - destruct s as [e|l| |sg' q'|]; try (destruct ans; discriminate E).
    + assert (x' = set_login_failed e x /\ t' = TThrown e) as [-> ->] by (destruct ans; cbn in E; unfold login_fails in E; split; congruence).
      repeat split; cbn; auto.
    + destruct ans as [r|]; [|discriminate E]. cbn in E. destruct (login_answer r) as [[d|e]|]; [| |discriminate E];
        unfold login_fails in E; injection E as <- <- <-; [split; [exact Hf|exact Ht]|repeat split; cbn; auto].
  - destruct s as [e|l| |sg' q'|]; try (destruct ans; discriminate E).
    + assert (x' = set_login_failed e x /\ t' = TThrown e) as [-> ->] by (destruct ans; cbn in E; unfold login_fails in E; split; congruence).
      repeat split; cbn; auto.
    + destruct ans as [r|]; [|discriminate E]. cbn [login_goes] in E. destruct (delegation_answer r) as [[sd|e]|]; [| |discriminate E].
      * match type of E with Some (?y, ?u, _) = _ => assert (x' = y /\ t' = u) as [-> ->] by (split; congruence) end.
        destruct Ht as (C1 & C2). repeat split; cbn; auto. rewrite C1. contradiction.
      * unfold login_fails in E. injection E as <- <- <-. repeat split; cbn; auto.
  - destruct s; discriminate E.
  - destruct s; discriminate E.
Qed.

Record fit_inv (w : world) : Prop := {
  fit_ctx : errors_fit (w_ctx w);
  fit_tasks : forall k t, nth_error (w_tasks w) k = Some t -> ~ settled t -> task_clean (w_ctx w) t
}.

Lemma sequential_fit D cid acts w : sequential D cid acts w -> fit_inv w.
Proof.
  induction 1 as [|acts w a w' H IH Hok Hq Hs].
  - constructor; [repeat split; cbn; contradiction|]. intros [|k] t E; discriminate E.
  - apply act_step_view in Hs. pose proof (sequential_inv D cid acts w H) as Hi. destruct IH as [Hf Ht].
    pose proof Hf as (H1 & H2 & H3).
    destruct Hs as [| |R|R|R|k s t x' t' st' N G|k now cert t o s' r N R S|now o s' r S|j].
    + constructor; [repeat split; cbn; contradiction|]. intros [|k] t E; discriminate E.
    + assert (forall st x, x_login (construct st x) = x_login x /\ x_prepare (construct st x) = x_prepare x /\
        x_sign (construct st x) = x_sign x /\ x_login_error (construct st x) = x_login_error x /\
        x_prepare_error (construct st x) = x_prepare_error x /\ x_sign_error (construct st x) = x_sign_error x) as C.
      { intros st x. unfold construct. destruct (load_identity st) as [[[? ?] ?]|]; repeat split. }
      destruct (C (w_storage w) (w_ctx w)) as (C1 & C2 & C3 & C4 & C5 & C6).
      constructor; cbn.
      * unfold errors_fit. now rewrite C1, C2, C3, C4, C5, C6.
      * intros k t E Nt. specialize (Ht k t E Nt). destruct t; cbn in Ht |- *; now rewrite ?C4, ?C5, ?C6.
    + specialize (Hq (or_introl eq_refl)). constructor; cbn; [exact Hf|].
      intros k t E Nt. apply nth_snoc_cases in E as [[_ ->]|E]; [intros []|destruct Nt; eapply all_settled; eassumption].
    + specialize (Hq (or_intror eq_refl)). destruct (login_starts_cases (w_ctx w)) as [->|(e & -> & _)]; constructor; cbn.
      * exact Hf.
      * intros k t E Nt. apply nth_snoc_cases in E as [[_ ->]|E]; [exact I|destruct Nt; eapply all_settled; eassumption].
      * repeat split; cbn; auto.
      * intros k t E Nt. apply nth_snoc_cases in E as [[_ ->]|E]; [exact I|destruct Nt; eapply all_settled; eassumption].
    + constructor; cbn; [repeat split; cbn; contradiction|].
      intros k t E Nt. destruct t; cbn; auto.
    + assert (~ settled t) as Nt by (intros St; rewrite (settled_goes t s _ _ St) in G; discriminate).
      destruct (login_goes_fit _ _ _ _ _ _ _ Hf (Ht k t N Nt) G) as [F C]. constructor; cbn; [exact F|].
      intros j u E Nu. apply nth_insert_cases in E as [[-> ->]|[Hj E]]; [exact C|].
      exfalso. apply Hj. destruct Hi as [I1 _ _ _]. exact (I1 _ _ _ _ E N Nu Nt).
    + assert (~ settled t) as Nt by (intros St; rewrite (settled_request cert t St) in R; discriminate).
      pose proof (Ht k t N Nt) as Hc. constructor; cbn; [exact Hf|].
      intros j u E Nu. apply nth_insert_cases in E as [[-> ->]|[Hj E]]; [|eapply Ht; eassumption].
      destruct t as [[|b|b [r'|]|m]| |b [|c|c [r'|]|m]|b m n|b n sg q|b n sg q [r'|]|b q d [r'|]|i|e]; cbn in R; try discriminate R; exact Hc.
    + constructor; cbn; auto.
    + constructor; cbn; auto.
Qed.

(** ** A call that fails leaves its error in the store *)

Lemma login_goes_thrown t s x st x' e st' : login_goes t s x st = Some (x', TThrown e, st') ->
  (exists y, x' = set_login_failed e y /\ same_identity x y) /\ st' = st.
Proof.
  intros E. assert (same_identity x x) as Sx by (repeat split).
  destruct t as [p| |a p|a m n|a n sg q|a n sg q ans|a q d ans|i|err].
  - cbn in E. destruct (prep_goes p s x) as [[y p']|]; discriminate E.
  - destruct s as [e'|l| |sg q|]; try discriminate E; cbn in E; unfold login_fails in E.
    + injection E as <- <- <-. eauto.
    + destruct (first_account l) as [b|]; [destruct (x_message x) as [[m n]|]; discriminate E|]. injection E as <- <- <-. eauto.
  - assert (st' = st) as ->.
    { cbn in E. destruct p as [|b|b ans|[[m n]|e']]; destruct s; cbn in E; try discriminate E;
        repeat match type of E with context [match ?c with _ => _ end] => destruct c; try discriminate E end; congruence. }
    destruct (preparing_goes _ _ _ _ _ _ _ _ E) as [(q & P & F)|[(m & n & -> & -> & F)|(e' & -> & -> & F)]]; try discriminate F.
    assert (e' = e) as -> by congruence. eauto.
  - destruct s as [e'|l| |[|c sg] q|]; try discriminate E; cbn in E; unfold sign_fails, login_fails in E; injection E as <- <- <-;
      (split; [|reflexivity]); eexists; (split; [reflexivity|]); repeat split.
  - destruct s as [e'|l| |sg' q'|]; try discriminate E; cbn in E; unfold login_fails in E; injection E as <- <- <-; eauto.
  - destruct s as [e'|l| |sg' q'|]; try (destruct ans; discriminate E).
    + assert (x' = set_login_failed e x /\ st' = st) as [-> ->] by (destruct ans; cbn in E; unfold login_fails in E; split; congruence). eauto.
    + destruct ans as [r|]; [|discriminate E]. cbn in E. destruct (login_answer r) as [[d|e']|]; [discriminate E| |discriminate E].
      unfold login_fails in E. injection E as <- <- <-. eauto.
  - destruct s as [e'|l| |sg' q'|]; try (destruct ans; discriminate E).
    + assert (x' = set_login_failed e x /\ st' = st) as [-> ->] by (destruct ans; cbn in E; unfold login_fails in E; split; congruence). eauto.
    + destruct ans as [r|]; [|discriminate E]. cbn [login_goes] in E. destruct (delegation_answer r) as [[sd|e']|]; [congruence| |discriminate E].
      unfold login_fails in E. injection E as <- <- <-. eauto.
  - destruct s; discriminate E.
  - destruct s; discriminate E.
Qed.

Lemma step_thrown D cid a w w' k e : act_view D cid w a w' -> nth_error (w_tasks w') k = Some (TThrown e) ->
  nth_error (w_tasks w) k <> Some (TThrown e) ->
  exists y, w_ctx w' = set_login_failed e y /\ same_identity (w_ctx w) y /\ w_storage w' = w_storage w.
Proof.
  intros V E Hn. destruct V as [| |R|R|R|i s t x' t' st' N G|i now cert t o s' r N R S|now o s' r S|j]; cbn in E |- *;
    try (destruct (Hn E)).
  - destruct k; discriminate E.
  - apply nth_snoc_cases in E as [[_ E]|E]; [discriminate E|destruct (Hn E)].
  - apply nth_snoc_cases in E as [[_ E]|E]; [|destruct (Hn E)].
    destruct (login_starts_cases (w_ctx w)) as [Es|(e' & Es & _)]; rewrite Es in E |- *; cbn in E |- *; [discriminate E|].
    assert (e' = e) as -> by congruence. exists (w_ctx w). repeat split.
  - apply nth_insert_cases in E as [[_ <-]|[_ E]]; [|destruct (Hn E)].
    destruct (login_goes_thrown _ _ _ _ _ _ _ G) as [(y & -> & Sy) ->]. eauto.
  - apply nth_insert_cases in E as [[_ E]|[_ E]]; [|destruct (Hn E)].
    destruct t as [[|b|b [r'|]|m]| |b [|c|c [r'|]|m]|b m n|b n sg q|b n sg q [r'|]|b q d [r'|]|u|e']; cbn in R; try discriminate R; discriminate E.
Qed.
