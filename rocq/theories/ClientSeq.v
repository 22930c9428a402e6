(** The messages a tab submits when its calls do not overlap. *)
From Coq Require Import Strings.String ZifyBool ZifyN ZifyNat.
From Verif Require Import Base BaseLemmas Deps Delegation Login Provider SpecTrace
  ProviderProofs LoginTheory DelegationTheory Client ClientJson SpecClient ClientProofs.
Local Open Scope N_scope.

Lemma sequential_runs D cid acts w : sequential D cid acts w -> runs D cid acts w.
Proof. induction 1; [constructor|econstructor; eassumption]. Qed.

(** Every earlier submission of [n] succeeded or was before [n] was handed out again. *)
Definition usable (own : list event) (n : bytes) : Prop :=
  forall s1 e s2, own = s1 ++ e :: s2 -> submits e n ->
    login_succeeds e \/ exists p x text, In p s2 /\ prepared p x text n.

Definition prep_usable (own : list event) (p : prep) : Prop :=
  match p with
  | PReply _ (Some r) => forall m n, prepare_answer r = Some (Ok (m, n)) -> usable own n
  | PReturned (Ok (m, n)) => usable own n
  | _ => True
  end.

Definition task_usable (own : list event) (t : task) : Prop :=
  match t with
  | TPrepare p | TPreparing _ p => prep_usable own p
  | TSign _ _ n | TActor _ n _ _ | TLogin _ n _ _ None => usable own n
  | _ => True
  end.

(** The login at [k] has been refused and is about to notice. *)
Definition refused (ts : list task) (n : bytes) : Prop :=
  exists k a sg p r, nth_error ts k = Some (TLogin a n sg p (Some r)) /\ forall d, login_answer r <> Some (Ok d).

Record seq_inv (w : world) : Prop := {
  si_one : forall j k t u, nth_error (w_tasks w) j = Some t -> nth_error (w_tasks w) k = Some u ->
    ~ settled t -> ~ settled u -> j = k;
  si_msg : forall m n, x_message (w_ctx w) = Some (m, n) -> usable (w_own w) n \/ refused (w_tasks w) n;
  si_tasks : forall k t, nth_error (w_tasks w) k = Some t -> ~ settled t -> task_usable (w_own w) t;
  si_own : forall s1 e1 s2 e2 s3 n, w_own w = s1 ++ e1 :: s2 ++ e2 :: s3 -> submits e1 n -> submits e2 n ->
    login_succeeds e1 \/ exists p x text, In p s2 /\ prepared p x text n
}.

Lemma usable_snoc own e n : usable own n -> (submits e n -> login_succeeds e) -> usable (own ++ [e]) n.
Proof.
  intros H He s1 e1 s2 E S. apply snoc_split in E as [(-> & -> & ->)|(s2' & -> & ->)]; [left; auto|].
  destruct (H s1 e1 s2' eq_refl S) as [L|(p & x & text & I & P)]; [auto|]. right. exists p, x, text.
  split; [apply in_app_iff; auto|assumption].
Qed.

Lemma usable_prepared own e x text n : prepared e x text n -> usable (own ++ [e]) n.
Proof.
  intros P s1 e1 s2 E S. apply snoc_split in E as [(-> & -> & ->)|(s2' & -> & ->)].
  - destruct S as (sg & y & sk & So), P as [Po _]. congruence.
  - right. exists e, x, text. split; [apply in_app_iff; right; left; reflexivity|assumption].
Qed.

Lemma nth_error_lookup {A} (l : list A) k : l !! k = nth_error l k.
Proof. revert k. induction l as [|x l IH]; intros [|k]; cbn; auto. Qed.

Lemma nth_insert_cases {A} (l : list A) k x j y : nth_error (<[k := x]> l) j = Some y ->
  (j = k /\ y = x) \/ (j <> k /\ nth_error l j = Some y).
Proof.
  rewrite <- !nth_error_lookup. intros E. destruct (decide (j = k)) as [->|Nj].
  - left. split; [reflexivity|]. apply list_lookup_insert_Some in E as [(_ & -> & _)|[]]; [reflexivity|congruence].
  - right. split; [assumption|]. now rewrite list_lookup_insert_ne in E by congruence.
Qed.

Lemma nth_insert_same {A} (l : list A) k x y : nth_error l k = Some y -> nth_error (<[k := x]> l) k = Some x.
Proof. rewrite <- !nth_error_lookup. intros E. apply list_lookup_insert. apply lookup_lt_Some in E. exact E. Qed.

Lemma nth_snoc_cases {A} (l : list A) x j y : nth_error (l ++ [x]) j = Some y ->
  (j = length l /\ y = x) \/ nth_error l j = Some y.
Proof.
  intros E. destruct (Nat.lt_ge_cases j (length l)) as [H|H].
  - right. now rewrite nth_error_app1 in E.
  - rewrite nth_error_app2 in E by assumption. left. destruct (j - length l)%nat as [|i] eqn:D0; cbn in E.
    + split; [lia|congruence].
    + destruct i; discriminate E.
Qed.

Lemma settled_goes t s x st : settled t -> login_goes t s x st = None.
Proof.
  destruct t as [[|a|a ans|r]| |a p|a m n|a n sg k|a n sg k ans|a k d ans|i|err]; cbn; intros []; destruct s; reflexivity.
Qed.

Lemma settled_request cert t : settled t -> task_request cert t = None.
Proof. destruct t as [[|a|a ans|r]| |a p|a m n|a n sg k|a n sg k ans|a k d ans|i|err]; cbn; intros []; reflexivity. Qed.

Lemma prep_goes_usable own p s x x' p' : prep_usable own p -> prep_goes p s x = Some (x', p') ->
  prep_usable own p' /\ (forall m n, x_message x' = Some (m, n) -> x_message x = Some (m, n) \/ usable own n).
Proof.
  intros Hp E. unfold prep_goes, prep_fails in E.
  destruct p as [|a|a [r|]|m]; destruct s as [e|l| |sg k|]; try discriminate E;
    try destruct (first_account l); try destruct (prepare_answer r) as [[[m n]|err]|] eqn:A; try discriminate E;
    injection E as <- <-; cbn; auto.
  cbn in Hp. split; [eapply Hp, A|]. intros m' n' E'. right. assert (n' = n) as -> by congruence. eapply Hp, A.
Qed.

(** One step of a call: the rest of its way is usable, and so is the message it leaves,
    unless the call was refused and the message is dropped. *)
Lemma login_goes_usable own t s x st x' t' st' : task_usable own t -> login_goes t s x st = Some (x', t', st') ->
  (t = TAddresses -> forall m n, x_message x = Some (m, n) -> usable own n) ->
  task_usable own t' /\
  (forall m n, x_message x' = Some (m, n) ->
     (x_message x = Some (m, n) /\ forall a n' sg p r, t = TLogin a n' sg p (Some r) -> exists d, login_answer r = Some (Ok d)) \/
     usable own n).
Proof.
  intros Ht E Hm.
  destruct t as [p| |a p|a m n|a n sg k|a n sg k ans|a k d ans|i|err]; cbn [login_goes] in E.
  - destruct (prep_goes p s x) as [[y q]|] eqn:P; [|discriminate]. injection E as <- <- <-.
    destruct (prep_goes_usable own p s x y q Ht P) as [H1 H2]. split; [exact H1|]. intros m n Em.
    destruct (H2 m n Em) as [H|H]; [left; split; [assumption|congruence]|auto].
  - destruct s as [e|l| |sg k|]; try discriminate E.
    + injection E as <- <- <-. split; [exact I|discriminate].
    + destruct (first_account l) as [a|]; [|injection E as <- <- <-; split; [exact I|discriminate]].
      destruct (x_message x) as [[m n]|] eqn:M; injection E as <- <- <-.
      * split; [now apply (Hm eq_refl m)|]. intros m' n' E'. cbn in E'. left. split; [congruence|discriminate].
      * split; [exact I|]. intros m' n' E'. cbn in E'. congruence.
  - assert (match prep_goes p s x with Some (x, p) => Some (x, TPreparing a p, st) | None => None end = Some (x', t', st') ->
      task_usable own t' /\
      (forall m n, x_message x' = Some (m, n) ->
         (x_message x = Some (m, n) /\ forall a' n' sg q r, TPreparing a p = TLogin a' n' sg q (Some r) -> exists d, login_answer r = Some (Ok d)) \/
         usable own n)) as Hgo.
    { clear E. intros E. destruct (prep_goes p s x) as [[y q]|] eqn:P; [|discriminate]. injection E as <- <- <-.
      destruct (prep_goes_usable own p s x y q Ht P) as [H1 H2]. split; [exact H1|]. intros m n Em.
      destruct (H2 m n Em) as [H|H]; [left; split; [assumption|congruence]|auto]. }
    destruct p as [|acc|acc ans|[[m n]|e]]; try (destruct s; apply Hgo, E).
    + destruct s; try (apply Hgo, E). injection E as <- <- <-. split; [exact Ht|]. intros m' n' E'. cbn in E'.
      left. split; [congruence|discriminate].
    + destruct s; try (apply Hgo, E). injection E as <- <- <-. split; [exact I|discriminate].
  - destruct s as [e|l| |[|c sg] k|]; try discriminate E; injection E as <- <- <-.
    + split; [exact I|discriminate].
    + split; [exact I|discriminate].
    + split; [exact Ht|]. intros m' n' E'. left. split; [exact E'|discriminate].
  - destruct s as [e|l| |sg' k'|]; try discriminate E; injection E as <- <- <-.
    + split; [exact I|discriminate].
    + split; [exact Ht|]. intros m' n' E'. left. split; [exact E'|discriminate].
  - destruct s as [e|l| |sg' k'|]; try (destruct ans; discriminate E).
    + assert (Some (login_fails e x, st) = Some (x', t', st')) as E' by (destruct ans; exact E).
      injection E' as <- <- <-. split; [exact I|discriminate].
    + destruct ans as [r|]; [|discriminate E]. destruct (login_answer r) as [[d|e]|] eqn:A; [| |discriminate E];
        injection E as <- <- <-; (split; [exact I|]); [|discriminate].
      intros m' n' E'. left. split; [exact E'|]. intros a0 n0 sg0 p0 r0 E0. exists d. congruence.
  - destruct s as [e|l| |sg' k'|]; try (destruct ans; discriminate E).
    + assert (Some (login_fails e x, st) = Some (x', t', st')) as E' by (destruct ans; exact E).
      injection E' as <- <- <-. split; [exact I|discriminate].
    + destruct ans as [r|]; [|discriminate E]. destruct (delegation_answer r) as [[d'|e]|] eqn:A; [| |discriminate E];
        injection E as <- <- <-; (split; [exact I|]); [|discriminate].
      intros m' n' E'. left. split; [exact E'|discriminate].
  - destruct s; discriminate E.
  - destruct s; discriminate E.
Qed.

Lemma all_settled (l : list task) k t : Forall settled l -> nth_error l k = Some t -> settled t.
Proof. apply nth_error_Forall. Qed.

Lemma snoc_split_two {A} (l : list A) e s1 e1 s2 e2 s3 : l ++ [e] = s1 ++ e1 :: s2 ++ e2 :: s3 ->
  (s3 = [] /\ e2 = e /\ l = s1 ++ e1 :: s2) \/ (exists s3', s3 = s3' ++ [e] /\ l = s1 ++ e1 :: s2 ++ e2 :: s3').
Proof.
  intros E. destruct s3 as [|y s3] using rev_ind.
  - left. assert (l ++ [e] = (s1 ++ e1 :: s2) ++ [e2]) as E' by (rewrite E; now rewrite <- app_assoc).
    apply app_inj_tail in E' as [-> ->]. auto.
  - right. exists s3. assert (l ++ [e] = (s1 ++ e1 :: s2 ++ e2 :: s3) ++ [y]) as E'
      by (rewrite E; rewrite <- !app_assoc, <- !app_comm_cons, <- app_assoc; reflexivity).
    apply app_inj_tail in E' as [-> ->]. auto.
Qed.

Lemma request_usable cert t o own n now r : task_request cert t = Some o -> task_usable own t ->
  submits (mkEvent now o r) n -> usable own n.
Proof.
  intros R Hu (sg & x & sk & So). cbn in So. subst o.
  destruct t as [p| |a p|a m n'|a n' sg' k|a n' sg' k [r'|]|a k d [r'|]|i|err]; cbn in R; try discriminate R.
  - destruct p as [|acc|acc [|]|]; discriminate R.
  - destruct p as [|acc|acc [|]|]; discriminate R.
  - cbn in Hu. now assert (n = n') as -> by congruence.
Qed.

(** What the canister's answer does to the call that asked. *)
Lemma answered_usable cert t o own now r : task_request cert t = Some o -> task_usable own t ->
  task_usable (own ++ [mkEvent now o r]) (task_answered r t).
Proof.
  intros R Hu.
  assert (forall p, prep_request p = Some o -> prep_usable (own ++ [mkEvent now o r]) (prep_answered r p)) as Hp.
  { intros p Rp. destruct p as [|acc|acc [|]|]; try discriminate Rp. cbn. intros m n A.
    apply (usable_prepared own _ acc m). cbn in Rp. split; cbn; [congruence|]. destruct r; cbn in A; congruence. }
  destruct t as [p| |a p|a m n'|a n' sg' k|a n' sg' k [r'|]|a k d [r'|]|i|err]; cbn in R; try discriminate R; cbn; auto.
Qed.

Lemma refused_answer cert t o own now r m : task_request cert t = Some o -> usable own m ->
  usable (own ++ [mkEvent now o r]) m \/
  (exists a sg p, task_answered r t = TLogin a m sg p (Some r) /\ forall d, login_answer r <> Some (Ok d)).
Proof.
  intros R Hu. destruct t as [p| |a p|a m0 n'|a n' sg' k|a n' sg' k [r'|]|a k d [r'|]|i|err]; cbn in R; try discriminate R.
  - left. apply usable_snoc; [assumption|]. intros (sg & x & sk & So). cbn in So. destruct p as [|acc|acc [|]|]; cbn in R; congruence.
  - left. apply usable_snoc; [assumption|]. intros (sg & x & sk & So). cbn in So. destruct p as [|acc|acc [|]|]; cbn in R; congruence.
  - destruct (decide (m = n')) as [->|Nm].
    + destruct (login_answer r) as [[d|e]|] eqn:A.
      * left. apply usable_snoc; [assumption|]. intros _. exists sg', a, (kp_der k), n', (ld_expiration d), (ld_pubkey d).
        split; cbn; [congruence|]. destruct r; cbn in A; try discriminate A. destruct d. cbn. congruence.
      * right. exists a, sg', k. split; [reflexivity|]. congruence.
      * right. exists a, sg', k. split; [reflexivity|]. congruence.
    + left. apply usable_snoc; [assumption|]. intros (sg & x & sk & So). cbn in So. congruence.
  - left. apply usable_snoc; [assumption|]. intros (sg & x & sk & So). cbn in So. congruence.
Qed.

Lemma seq_step D cid a w w' : seq_inv w -> (a = APrepare \/ a = ALogin -> Forall settled (w_tasks w)) ->
  act_view D cid w a w' -> seq_inv w'.
Proof.
  intros [I1 I2 I3 I4] Hq V.
  destruct V as [| |R|R|R|k s t x' t' st' N G|k now cert t o s' r N R S|now o s' r S|j].
  - constructor; cbn; auto.
    + intros [|j] k t u E; discriminate E.
    + discriminate.
    + intros [|k] t E; discriminate E.
  - constructor; cbn; auto. intros m n E. apply (I2 m n). unfold construct in E.
    destruct (load_identity (w_storage w)) as [[[? ?] ?]|]; exact E.
  - specialize (Hq (or_introl eq_refl)). constructor; cbn; auto.
    + intros j k t u Ej Ek Nj Nk. apply nth_snoc_cases in Ej as [[-> _]|Ej]; [|destruct Nj; eapply all_settled; eassumption].
      apply nth_snoc_cases in Ek as [[-> _]|Ek]; [reflexivity|destruct Nk; eapply all_settled; eassumption].
    + intros m n E. destruct (I2 m n E) as [H|(k & a & sg & p & r & E' & _)]; [auto|].
      exfalso. apply (all_settled _ _ _ Hq E').
    + intros k t E Nt. apply nth_snoc_cases in E as [[_ ->]|E]; [exact I|destruct Nt; eapply all_settled; eassumption].
  - specialize (Hq (or_intror eq_refl)).
    assert (forall m n, x_message (fst (login_starts (w_ctx w))) = Some (m, n) -> usable (w_own w) n) as Hm.
    { intros m n E. assert (x_message (w_ctx w) = Some (m, n)) as E0.
      { destruct (login_starts_cases (w_ctx w)) as [Es|(e & Es & _)]; rewrite Es in E; [exact E|discriminate E]. }
      destruct (I2 m n E0) as [H|(k & a & sg & p & r & E' & _)]; [exact H|]. exfalso. apply (all_settled _ _ _ Hq E'). }
    constructor; cbn; auto.
    + intros j k t u Ej Ek Nj Nk. apply nth_snoc_cases in Ej as [[-> _]|Ej]; [|destruct Nj; eapply all_settled; eassumption].
      apply nth_snoc_cases in Ek as [[-> _]|Ek]; [reflexivity|destruct Nk; eapply all_settled; eassumption].
    + intros m n E. left. eapply Hm, E.
    + intros k t E Nt. apply nth_snoc_cases in E as [[_ ->]|E]; [|destruct Nt; eapply all_settled; eassumption].
      destruct (login_starts_cases (w_ctx w)) as [->|(e & -> & _)]; exact I.
  - constructor; cbn; auto. discriminate.
  - assert (~ settled t) as Nt by (intros St; rewrite (settled_goes t s _ _ St) in G; discriminate).
    destruct (login_goes_usable (w_own w) t s _ _ x' t' st' (I3 k t N Nt) G) as [H1 H2].
    { intros -> m n E. destruct (I2 m n E) as [H|(j & a & sg & p & r & E' & _)]; [exact H|]. exfalso.
      assert (k = j) as -> by (eapply I1; [exact N|exact E'|exact Nt|intros []]). congruence. }
    constructor; cbn; auto.
    + intros i j u v Ei Ej Ni Nj. apply nth_insert_cases in Ei as [[-> _]|[Hi Ei]]; apply nth_insert_cases in Ej as [[-> _]|[Hj Ej]]; auto.
      * symmetry. exact (I1 _ _ _ _ Ej N Nj Nt).
      * exact (I1 _ _ _ _ Ei N Ni Nt).
      * exact (I1 _ _ _ _ Ei Ej Ni Nj).
    + intros m n E. destruct (H2 m n E) as [[E0 Hok]|H]; [|auto].
      destruct (I2 m n E0) as [H|(j & a & sg & p & r & E' & Hno)]; [auto|]. exfalso.
      assert (k = j) as -> by (eapply I1; [exact N|exact E'|exact Nt|intros []]).
      assert (t = TLogin a n sg p (Some r)) as -> by congruence.
      destruct (Hok a n sg p r eq_refl) as [d Ed]. exact (Hno d Ed).
    + intros j u E Nu. apply nth_insert_cases in E as [[-> ->]|[Hj E]]; [exact H1|]. eapply I3; eassumption.
  - assert (~ settled t) as Nt by (intros St; rewrite (settled_request cert t St) in R; discriminate).
    pose proof (I3 k t N Nt) as Hu.
    constructor; cbn.
    + intros i j u v Ei Ej Ni Nj. apply nth_insert_cases in Ei as [[-> _]|[Hi Ei]]; apply nth_insert_cases in Ej as [[-> _]|[Hj Ej]]; auto.
      * symmetry. exact (I1 _ _ _ _ Ej N Nj Nt).
      * exact (I1 _ _ _ _ Ei N Ni Nt).
      * exact (I1 _ _ _ _ Ei Ej Ni Nj).
    + intros m n E. destruct (I2 m n E) as [H|(j & a & sg & p & r' & E' & Hno)].
      * destruct (refused_answer cert t o (w_own w) now r n R H) as [H'|(a & sg & p & Et & Hno)]; [auto|].
        right. exists k, a, sg, p, r. split; [|exact Hno]. rewrite <- Et. eapply nth_insert_same, N.
      * exfalso. assert (k = j) as -> by (eapply I1; [exact N|exact E'|exact Nt|intros []]).
        assert (t = TLogin a n sg p (Some r')) as -> by congruence. discriminate R.
    + intros j u E Nu. apply nth_insert_cases in E as [[-> ->]|[Hj E]]; [now apply answered_usable with cert|].
      exfalso. apply Hj. exact (I1 _ _ _ _ E N Nu Nt).
    + intros s1 e1 s2 e2 s3 n E S1 S2. apply snoc_split_two in E as [(-> & -> & E)|(s3' & -> & E)].
      * apply (request_usable cert t o (w_own w) n now r R Hu S2 s1 e1 s2 E S1).
      * eapply I4; eassumption.
  - constructor; cbn; auto.
  - constructor; cbn; auto.
Qed.

Lemma sequential_inv D cid acts w : sequential D cid acts w -> seq_inv w.
Proof.
  induction 1 as [|acts w a w' H IH Hok Hq Hs].
  - constructor; cbn.
    + intros [|j] k t u E; discriminate E.
    + discriminate.
    + intros [|k] t E; discriminate E.
    + intros [|? ?]; discriminate.
  - apply act_step_view in Hs. eapply seq_step; eassumption.
Qed.
