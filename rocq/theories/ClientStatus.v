(** Statuses, and the account messages are made for. *)
From Coq Require Import Strings.String ZifyBool ZifyN ZifyNat.
From Verif Require Import Base BaseLemmas Deps Delegation Login Provider SpecTrace
  ProviderProofs Json Client ClientJson SpecClient ClientProofs ClientSeq.
Local Open Scope N_scope.

Lemma runs_fun D cid acts : forall w v, runs D cid acts w -> runs D cid acts v -> w = v.
Proof.
  induction acts as [|a acts IH] using rev_ind; intros w v H1 H2.
  - inversion H1 as [E1 E2|? ? ? ? ? ? ? E]; [|destruct acts; discriminate].
    inversion H2 as [E3 E4|? ? ? ? ? ? ? E]; [reflexivity|destruct acts; discriminate].
  - apply runs_snoc_inv in H1 as (w1 & R1 & _ & S1). apply runs_snoc_inv in H2 as (w2 & R2 & _ & S2).
    assert (w1 = w2) as <- by (apply IH; assumption).
    apply act_view_step in S1, S2. congruence.
Qed.

(** ** A busy status belongs to a call in progress *)

Record status_inv (w : world) : Prop := {
  st_login : x_login (w_ctx w) = Busy -> exists t, In t (w_tasks w) /\ login_working t;
  st_prepare : x_prepare (w_ctx w) = Busy -> exists t, In t (w_tasks w) /\ asking t;
  st_sign : x_sign (w_ctx w) = Busy -> exists t, In t (w_tasks w) /\ signing t;
  st_success : x_login (w_ctx w) = Success -> exists a i, signed_in_as w a i
}.

Lemma prep_goes_status p s x x' p' : prep_goes p s x = Some (x', p') ->
  x_login x' = x_login x /\ x_sign x' = x_sign x /\
  (x_prepare x' = Busy -> prep_asking p' \/ (x_prepare x = Busy /\ ~ prep_asking p)).
Proof.
  intros E. destruct p as [|a|a [r|]|r]; destruct s as [e|l| |sg k|]; try discriminate E; cbn in E.
  all: try (injection E as <- <-; cbn; repeat split; auto; discriminate).
  - destruct (first_account l) as [b|]; injection E as <- <-; cbn; repeat split; auto; discriminate.
  - destruct (prepare_answer r) as [[m|e]|]; [| |discriminate]; injection E as <- <-; cbn; repeat split; auto; discriminate.
Qed.

Ltac goes_done E :=
  unfold login_fails, sign_fails, login_fails in E;
  match type of E with Some (?x, ?t, ?s) = Some (?x', ?t', ?s') =>
    let Ex := fresh in let Et := fresh in
    assert (x' = x) as Ex by congruence; assert (t' = t) as Et by congruence; rewrite Ex, Et; clear Ex Et
  end.

Lemma preparing_goes a p s x st x' t' st' : login_goes (TPreparing a p) s x st = Some (x', t', st') ->
  (exists q, prep_goes p s x = Some (x', q) /\ t' = TPreparing a q) \/
  (exists m n, p = PReturned (Ok (m, n)) /\ x' = set_signing x /\ t' = TSign a m n) \/
  (exists e, p = PReturned (Err e) /\ x' = set_login_failed e x /\ t' = TThrown e).
Proof.
  intros E. cbn [login_goes] in E. destruct p as [|b|b ans|[[m n]|e]].
  1-3: match type of E with context [prep_goes ?q ?u ?y] => destruct (prep_goes q u y) as [[y' q']|] eqn:P end;
       [|discriminate E]; left; exists q'; split; congruence.
  - destruct s; cbn in E; try discriminate E. right. left. exists m, n. repeat split; congruence.
  - destruct s; cbn in E; try discriminate E. right. right. exists e. unfold login_fails in E. repeat split; congruence.
Qed.

Lemma login_goes_status t s x st x' t' st' : login_goes t s x st = Some (x', t', st') ->
  (x_login x' = Busy -> login_working t' \/ (x_login x = Busy /\ ~ login_working t)) /\
  (x_prepare x' = Busy -> asking t' \/ (x_prepare x = Busy /\ ~ asking t)) /\
  (x_sign x' = Busy -> signing t' \/ (x_sign x = Busy /\ ~ signing t)) /\
  (x_login x' = Success ->
     (x_login x = Success /\ x_identity x' = x_identity x /\ x_address x' = x_address x /\ x_chain x' = x_chain x) \/
     (exists a i, x_identity x' = Some i /\ x_address x' = Some a /\ x_chain x' = Some (id_chain i))).
Proof.
  intros E. destruct t as [p| |a p|a m n|a n sg k|a n sg k ans|a k d ans|i|err].
  - cbn [login_goes] in E. destruct (prep_goes p s x) as [[y q]|] eqn:P; [|discriminate].
    destruct (prep_goes_status _ _ _ _ _ P) as (S1 & S2 & S3). destruct (prep_goes_identity _ _ _ _ _ P) as [(I1 & I2 & I3) _].
    goes_done E. split; [|split; [|split]]; cbn.
    + intros B. right. split; [congruence|]. intros [[] _].
    + intros B. destruct (S3 B) as [A|[A B']]; auto.
    + intros B. right. split; [congruence|auto].
    + intros B. left. repeat split; congruence.
  - destruct s as [e|l| |sg k|]; try discriminate E; cbn in E.
    + goes_done E. cbn. repeat split; try discriminate; auto.
    + destruct (first_account l) as [b|].
      * destruct (x_message x) as [[m n]|]; goes_done E; cbn; repeat split; auto; try discriminate.
        -- intros _. left. split; [exact I|discriminate].
        -- intros _. left. split; [exact I|discriminate].
      * goes_done E. cbn. repeat split; try discriminate; auto.
  - destruct (preparing_goes _ _ _ _ _ _ _ _ E) as [(q' & P & ->)|[(m & n & -> & -> & ->)|(e & -> & -> & ->)]].
    2:{ cbn. repeat split; auto; try (intros; left; repeat split; auto; discriminate). }
    2:{ cbn. repeat split; auto; discriminate. }
    destruct (prep_goes_status _ _ _ _ _ P) as (S1 & S2 & S3).
    destruct (prep_goes_identity _ _ _ _ _ P) as [(I1 & I2 & I3) _].
    split; [|split; [|split]]; cbn.
    + intros _. left. split; [exact I|discriminate].
    + intros B. destruct (S3 B) as [A|[A B']]; auto.
    + intros B. right. split; [congruence|auto].
    + intros B. left. repeat split; congruence.
  - destruct s as [e|l| |[|c sg] k|]; try discriminate E; cbn in E; goes_done E; cbn; repeat split; auto; try discriminate.
    intros _. left. split; [exact I|discriminate].
  - destruct s as [e|l| |sg' k'|]; try discriminate E; cbn in E; goes_done E; cbn; repeat split; auto; try discriminate.
    intros _. left. split; [exact I|discriminate].
  - destruct s as [e|l| |sg' k'|]; try (destruct ans; discriminate E); cbn in E.
    + destruct ans; goes_done E; cbn; repeat split; auto; discriminate.
    + destruct ans as [r|]; [|discriminate]. destruct (login_answer r) as [[d|e]|]; [| |discriminate]; goes_done E; cbn; repeat split; auto; try discriminate.
      intros _. left. split; [exact I|discriminate].
  - destruct s as [e|l| |sg' k'|]; try (destruct ans; discriminate E); cbn in E.
    + destruct ans; goes_done E; cbn; repeat split; auto; discriminate.
    + destruct ans as [r|]; [|discriminate]. destruct (delegation_answer r) as [[sd|e]|]; [| |discriminate]; goes_done E; cbn; repeat split; auto; try discriminate.
      intros _. right. eexists _, (mkIdent _ _). repeat split.
  - destruct s; discriminate E.
  - destruct s; discriminate E.
Qed.

Lemma In_insert_other (l : list task) k x t u : nth_error l k = Some t -> In u l -> u = t \/ In u (<[k := x]> l).
Proof.
  intros N I. apply In_nth_error in I as [j J]. destruct (decide (j = k)) as [->|Nj]; [left; congruence|].
  right. apply (nth_error_In _ j). rewrite <- nth_error_lookup in J |- *. rewrite list_lookup_insert_ne by auto. exact J.
Qed.

Lemma witness_insert (P : task -> Prop) (l : list task) k t t' : nth_error l k = Some t ->
  (P t' \/ ((exists u, In u l /\ P u) /\ ~ P t)) -> exists u, In u (<[k := t']> l) /\ P u.
Proof.
  intros N [H|[(u & I & H) Ht]].
  - exists t'. split; [|exact H]. eapply nth_error_In, nth_insert_same, N.
  - destruct (In_insert_other l k t' t u N I) as [->|I']; [contradiction|]. eauto.
Qed.

Lemma login_starts_status x : let x' := fst (login_starts x) in
  x_login x' <> Success \/ x' = x.
Proof. destruct (login_starts_cases x) as [->|(e & -> & _)]; cbn; [auto|left; discriminate]. Qed.

Lemma status_step D cid a w w' : status_inv w -> act_view D cid w a w' -> status_inv w'.
Proof.
  intros [I1 I2 I3 I4] V.
  destruct V as [| |R|R|R|k s t x' t' st' N G|k now cert t o s' r N R S|now o s' r S|j].
  - constructor; cbn; discriminate.
  - assert (forall st x, x_login (construct st x) = x_login x /\ x_prepare (construct st x) = x_prepare x /\
      x_sign (construct st x) = x_sign x) as C.
    { intros st x. unfold construct. destruct (load_identity st) as [[[? ?] ?]|]; auto. }
    destruct (C (w_storage w) (w_ctx w)) as (C1 & C2 & C3).
    constructor; cbn; rewrite ?C1, ?C2, ?C3; auto. intros B. destruct (I4 B) as (x & i & H). unfold signed_in_as, construct. cbn.
    destruct (load_identity (w_storage w)) as [[[x0 i0] c0]|] eqn:L; cbn; [|exists x, i; exact H].
    exists x0, i0. repeat split. unfold load_identity in L. destruct (w_storage w) as [[|b t]|]; try discriminate.
    destruct (parse_json (b :: t)) as [st|]; [|discriminate].
    destruct (json_field (bs "address") st), (json_field (bs "sessionIdentity") st), (json_field (bs "delegationChain") st); try discriminate.
    destruct (truthy j && truthy j0 && truthy j1); [|discriminate]. destruct (chain_from_text (json_text j1)); [|discriminate].
    destruct (keypair_from_text (json_text j0)); [|discriminate]. injection L as <- <- <-. reflexivity.
  - constructor; cbn; auto; intros B.
    + destruct (I1 B) as (t & I & H). exists t. split; [apply in_app_iff; auto|exact H].
    + destruct (I2 B) as (t & I & H). exists t. split; [apply in_app_iff; auto|exact H].
    + destruct (I3 B) as (t & I & H). exists t. split; [apply in_app_iff; auto|exact H].
  - destruct (login_starts_cases (w_ctx w)) as [->|(e & -> & _)]; constructor; cbn; try discriminate; intros B; auto.
    + destruct (I1 B) as (t & I & H). exists t. split; [apply in_app_iff; auto|exact H].
    + destruct (I2 B) as (t & I & H). exists t. split; [apply in_app_iff; auto|exact H].
    + destruct (I3 B) as (t & I & H). exists t. split; [apply in_app_iff; auto|exact H].
    + destruct (I2 B) as (t & I & H). exists t. split; [apply in_app_iff; auto|exact H].
    + destruct (I3 B) as (t & I & H). exists t. split; [apply in_app_iff; auto|exact H].
  - constructor; cbn; try discriminate. exact I3.
  - destruct (login_goes_status _ _ _ _ _ _ _ G) as (G1 & G2 & G3 & G4). constructor; cbn.
    + intros B. apply (witness_insert _ _ _ t); [exact N|]. destruct (G1 B) as [H|[H Hn]]; auto.
    + intros B. apply (witness_insert _ _ _ t); [exact N|]. destruct (G2 B) as [H|[H Hn]]; auto.
    + intros B. apply (witness_insert _ _ _ t); [exact N|]. destruct (G3 B) as [H|[H Hn]]; auto.
    + intros B. destruct (G4 B) as [(H & E1 & E2 & E3)|(a & i & H)]; [|exists a, i; exact H].
      destruct (I4 H) as (x & i & S1 & S2 & S3). exists x, i. unfold signed_in_as. cbn. rewrite E1, E2, E3. auto.
  - assert (forall P : task -> Prop, (P t -> P (task_answered r t)) -> (exists u, In u (w_tasks w) /\ P u) ->
      exists u, In u (<[k := task_answered r t]> (w_tasks w)) /\ P u) as Hw.
    { intros P Ht (u & I & H). destruct (In_insert_other _ k (task_answered r t) t u N I) as [->|I']; [|eauto].
      exists (task_answered r t). split; [|auto]. eapply nth_error_In, nth_insert_same, N. }
    constructor; cbn; auto; intros B; apply Hw; auto;
      destruct t as [[]| |a []|a m n|a n sg k0|a n sg k0 [ans|]|a k0 d [ans|]|i|err]; cbn in R |- *; try discriminate R; auto;
      try (destruct answer; cbn; auto); intros [H1 H2]; split; auto; discriminate.
  - constructor; cbn; auto.
  - constructor; cbn; auto.
Qed.

Lemma runs_status D cid acts w : runs D cid acts w -> status_inv w.
Proof.
  induction 1 as [|acts w a w' H IH Hok Hs]; [constructor; cbn; discriminate|].
  apply act_step_view in Hs. eapply status_step; eassumption.
Qed.

(** ** One account *)

Section OneAccount.
Variable a : bytes.

Definition prep_for (tr : list event) (p : prep) : Prop :=
  match p with
  | PActor b => b = a
  | PReply b ans => b = a /\ match ans with
      | Some r => exists e, In e tr /\ ev_op e = PrepareLogin a /\ ev_reply e = r | None => True end
  | PReturned (Ok (m, n)) => prepared_for tr a m n
  | _ => True
  end.
Definition task_for (tr : list event) (t : task) : Prop :=
  match t with
  | TPrepare p => prep_for tr p
  | TPreparing b p => b = a /\ prep_for tr p
  | TSign b m n => b = a /\ prepared_for tr a m n
  | _ => True
  end.
Definition ctx_for (tr : list event) (x : ctx) : Prop :=
  forall m n, x_message x = Some (m, n) -> prepared_for tr a m n.

Lemma prep_for_mono tr e p : prep_for tr p -> prep_for (tr ++ [e]) p.
Proof.
  destruct p as [|b|b [r|]|[[m n]|err]]; cbn; auto.
  - intros (H1 & f & I & H). split; [exact H1|]. exists f. split; [apply in_app_iff; auto|exact H].
  - intros (f & I & H). exists f. split; [apply in_app_iff; auto|exact H].
Qed.

Lemma task_for_mono tr e t : task_for tr t -> task_for (tr ++ [e]) t.
Proof.
  destruct t; cbn; auto using prep_for_mono; intros [H1 H2]; split; auto using prep_for_mono.
  destruct H2 as (f & I & H). exists f. split; [apply in_app_iff; auto|exact H].
Qed.

Lemma first_only l b : only_account a l -> first_account l = Some b -> b = a.
Proof. destruct l as [|[|c u] l]; cbn; try discriminate. intros -> E. congruence. Qed.

Lemma prep_goes_for tr p s x x' p' : prep_for tr p -> ctx_for tr x -> settles_for a s ->
  prep_goes p s x = Some (x', p') -> prep_for tr p' /\ ctx_for tr x'.
Proof.
  intros Hp Hx Hs E. destruct p as [|b|b [r|]|r]; destruct s as [e|l| |sg k|]; try discriminate E; cbn in E, Hp.
  all: try (injection E as <- <-; cbn; auto).
  - destruct (first_account l) as [c|] eqn:F; injection E as <- <-; cbn; split; auto. eapply first_only; eassumption.
  - destruct (prepare_answer r) as [[[m n]|e]|] eqn:A; [| |discriminate]; injection E as <- <-; cbn; split; auto.
    + destruct Hp as (-> & f & I & Eo & Er). exists f. split; [exact I|]. split; [exact Eo|].
      rewrite Er. destruct r; cbn in A; try discriminate; congruence.
    + intros m' n' Em. cbn in Em. injection Em as <- <-.
      destruct Hp as (-> & f & I & Eo & Er). exists f. split; [exact I|]. split; [exact Eo|].
      rewrite Er. destruct r; cbn in A; try discriminate; congruence.
Qed.

Lemma login_goes_for tr t s x st x' t' st' : task_for tr t -> ctx_for tr x -> settles_for a s ->
  login_goes t s x st = Some (x', t', st') -> task_for tr t' /\ ctx_for tr x'.
Proof.
  intros Ht Hx Hs E. destruct t as [p| |b p|b m n|b n sg k|b n sg k ans|b k d ans|i|err].
  - cbn [login_goes] in E. destruct (prep_goes p s x) as [[y q]|] eqn:P; [|discriminate].
    destruct (prep_goes_for _ _ _ _ _ _ Ht Hx Hs P). goes_done E. auto.
  - destruct s as [e|l| |sg k|]; try discriminate E; cbn in E.
    + goes_done E. split; [exact I|]. intros m n Em. discriminate.
    + destruct (first_account l) as [b|] eqn:F.
      * pose proof (first_only _ _ Hs F) as ->. destruct (x_message x) as [[m n]|] eqn:Em; goes_done E; cbn; auto.
      * goes_done E. split; [exact I|]. intros m n Em. discriminate.
  - destruct Ht as [-> Hp]. destruct (preparing_goes _ _ _ _ _ _ _ _ E) as [(q' & P & ->)|[(m & n & -> & -> & ->)|(e & -> & -> & ->)]].
    + destruct (prep_goes_for _ _ _ _ _ _ Hp Hx Hs P). cbn. auto.
    + cbn. auto.
    + split; [exact I|]. intros m n Em. discriminate.
  - destruct s as [e|l| |[|c sg] k|]; try discriminate E; cbn in E; goes_done E; cbn; split; auto; intros m' n' Em; discriminate.
  - destruct s as [e|l| |sg' k'|]; try discriminate E; cbn in E; goes_done E; cbn; split; auto; intros m' n' Em; discriminate.
  - destruct s as [e|l| |sg' k'|]; try (destruct ans; discriminate E); cbn in E.
    + destruct ans; goes_done E; (split; [exact I|]; intros m n' Em; discriminate).
    + destruct ans as [r|]; [|discriminate]. destruct (login_answer r) as [[d|e]|]; [| |discriminate]; goes_done E; cbn; split; auto.
      intros m n' Em. discriminate.
  - destruct s as [e|l| |sg' k'|]; try (destruct ans; discriminate E); cbn in E.
    + destruct ans; goes_done E; (split; [exact I|]; intros m n Em; discriminate).
    + destruct ans as [r|]; [|discriminate]. destruct (delegation_answer r) as [[sd|e]|]; [| |discriminate]; goes_done E; cbn; split; auto.
      intros m n Em. discriminate.
  - destruct s; discriminate E.
  - destruct s; discriminate E.
Qed.

Lemma for_step D cid act w w' : act_view D cid w act w' -> (forall k s, act = AContinue k s -> settles_for a s) ->
  Forall (task_for (w_history w)) (w_tasks w) /\ ctx_for (w_history w) (w_ctx w) ->
  Forall (task_for (w_history w')) (w_tasks w') /\ ctx_for (w_history w') (w_ctx w').
Proof.
  intros V Hs [HT HC].
  assert (forall e, Forall (task_for (w_history w ++ [e])) (w_tasks w) /\ ctx_for (w_history w ++ [e]) (w_ctx w)) as Hm.
  { intros e. split.
    - revert HT. apply List.Forall_impl. intros t. apply task_for_mono.
    - intros m n E. destruct (HC m n E) as (f & I & H). exists f. split; [apply in_app_iff; auto|exact H]. }
  destruct V as [| |R|R|R|k s t x' t' st' N G|k now cert t o s' r N R S|now o s' r S|j]; cbn.
  - split; [constructor|]. intros m n E. discriminate.
  - split; [exact HT|]. unfold construct. destruct (load_identity (w_storage w)) as [[[? ?] ?]|]; exact HC.
  - split; [|exact HC]. apply List.Forall_app. split; [exact HT|repeat constructor].
  - destruct (login_starts_cases (w_ctx w)) as [->|(e & -> & _)]; cbn; (split; [apply List.Forall_app; split; [exact HT|repeat constructor]|]).
    + exact HC. + intros m n E. discriminate.
  - split; [exact HT|]. intros m n E. discriminate.
  - destruct (login_goes_for _ _ _ _ _ _ _ _ (nth_error_Forall _ _ _ _ HT N) HC (Hs _ _ eq_refl) G) as [H1 H2].
    split; [|exact H2]. now apply Forall_insert_task.
  - destruct (Hm (mkEvent now o r)) as [M1 M2]. split; [|exact M2]. apply Forall_insert_task; [exact M1|].
    pose proof (nth_error_Forall _ _ _ _ HT N) as Ht.
    assert (forall p, prep_for (w_history w) p -> prep_request p = Some o ->
      prep_for (w_history w ++ [mkEvent now o r]) (prep_answered r p)) as Hp.
    { intros p Hp E. destruct p as [|b|b [r'|]|r']; try discriminate E. cbn in E, Hp |- *. destruct Hp as [-> _].
      split; [reflexivity|]. exists (mkEvent now o r). split; [apply in_app_iff; right; left; reflexivity|]. cbn. split; [congruence|reflexivity]. }
    destruct t as [p| |b p|b m n|b n sg k0|b n sg k0 [ans|]|b k0 d [ans|]|i|err]; cbn in R, Ht |- *; try discriminate R; auto.
    destruct Ht as [-> Ht]. auto.
  - apply Hm.
  - auto.
Qed.

Lemma runs_for D cid acts w : runs D cid acts w -> (forall k s, In (AContinue k s) acts -> settles_for a s) ->
  Forall (task_for (w_history w)) (w_tasks w) /\ ctx_for (w_history w) (w_ctx w).
Proof.
  induction 1 as [|acts w act w' H IH Hok Hs]; intros Ha.
  - split; [constructor|]. intros m n E. discriminate.
  - apply act_step_view in Hs. eapply for_step; [exact Hs| |apply IH].
    + intros k s ->. apply (Ha k s), in_app_iff. right. left. reflexivity.
    + intros k s I. apply (Ha k s), in_app_iff. auto.
Qed.
End OneAccount.
