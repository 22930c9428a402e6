(** What the tabs of one browser submit: nonces they were given and keys they made. *)
From Coq Require Import Strings.String ZifyBool ZifyN ZifyNat.
From Verif Require Import Base BaseLemmas Deps Delegation Login Provider SpecTrace Client SpecClient ClientProofs ClientSeq
  Tabs SpecTabs TabsProofs TabsLive.
Local Open Scope N_scope.

Definition known (own : list event) (n : bytes) : Prop := exists p x text, In p own /\ prepared p x text n.
Definition keyed (acts : list action) (sg : bytes) (k : keypair) : Prop := exists c, In (AContinue c (SSigned sg k)) acts.
Definition prep_known (own : list event) (p : prep) : Prop :=
  match p with
  | PReply _ (Some r) => forall m n, prepare_answer r = Some (Ok (m, n)) -> known own n
  | PReturned (Ok (m, n)) => known own n
  | _ => True
  end.
Definition task_known (own : list event) (acts : list action) (t : task) : Prop :=
  match t with
  | TPrepare p | TPreparing _ p => prep_known own p
  | TSign _ _ n => known own n
  | TActor _ n sg k | TLogin _ n sg k None => known own n /\ keyed acts sg k
  | _ => True
  end.
Record own_inv (acts : list action) (w : world) : Prop := {
  oi_msg : forall m n, x_message (w_ctx w) = Some (m, n) -> known (w_own w) n;
  oi_tasks : Forall (task_known (w_own w) acts) (w_tasks w);
  oi_own : forall e sg x sk n, In e (w_own w) -> ev_op e = SiweLogin sg x sk n ->
    known (w_own w) n /\ exists k, keyed acts sg k /\ kp_der k = sk
}.

Lemma known_mono own l n : known own n -> known (own ++ l) n.
Proof. intros (p & x & text & I & P). exists p, x, text. split; [apply in_app_iff; auto|exact P]. Qed.
Lemma keyed_mono acts l sg k : keyed acts sg k -> keyed (acts ++ l) sg k.
Proof. intros [c I]. exists c. apply in_app_iff. now left. Qed.
Lemma prep_known_mono own l p : prep_known own p -> prep_known (own ++ l) p.
Proof. destruct p as [|a|a [r|]|[[m n]|e]]; cbn; eauto using known_mono. Qed.
Lemma task_known_mono own l acts l' t : task_known own acts t -> task_known (own ++ l) (acts ++ l') t.
Proof.
  destruct t as [p| |a p|a m n|a n sg k|a n sg k [r|]|a k d ans|i|err]; cbn; auto using prep_known_mono, known_mono;
    intros [H1 H2]; auto using known_mono, keyed_mono.
Qed.

Lemma prep_goes_known own p s x x' p' : prep_known own p -> prep_goes p s x = Some (x', p') ->
  prep_known own p' /\ (forall m n, x_message x' = Some (m, n) -> x_message x = Some (m, n) \/ known own n).
Proof.
  intros Hp E. unfold prep_goes, prep_fails in E.
  destruct p as [|a|a [r|]|m]; destruct s as [e|l| |sg k|]; try discriminate E;
    try destruct (first_account l); try destruct (prepare_answer r) as [[[m n]|err]|] eqn:A; try discriminate E;
    injection E as <- <-; cbn; auto.
  cbn in Hp. split; [eapply Hp, A|]. intros m' n' E'. right. assert (n' = n) as -> by congruence. eapply Hp, A.
Qed.

Lemma login_goes_known own acts c t s x st x' t' st' : task_known own acts t -> login_goes t s x st = Some (x', t', st') ->
  (forall m n, x_message x = Some (m, n) -> known own n) ->
  task_known own (acts ++ [AContinue c s]) t' /\ (forall m n, x_message x' = Some (m, n) -> known own n).
Proof.
  intros Ht E Hm.
  destruct t as [p| |a p|a m n|a n sg k|a n sg k ans|a k d ans|i|err]; cbn [login_goes] in E.
  - destruct (prep_goes p s x) as [[y q]|] eqn:P; [|discriminate]. injection E as <- <- <-.
    destruct (prep_goes_known own p s x y q Ht P) as [H1 H2]. split; [exact H1|]. intros m n Em.
    destruct (H2 m n Em) as [H|H]; eauto.
  - destruct s as [e|l| |sg k|]; try discriminate E.
    + injection E as <- <- <-. split; [exact I|discriminate].
    + destruct (first_account l) as [a|]; [|injection E as <- <- <-; split; [exact I|discriminate]].
      destruct (x_message x) as [[m n]|] eqn:M; injection E as <- <- <-.
      * split; [now apply (Hm m)|]. intros m' n' E'. cbn in E'. apply (Hm m' n'). congruence.
      * split; [exact I|]. intros m' n' E'. cbn in E'. congruence.
  - assert (match prep_goes p s x with Some (x, p) => Some (x, TPreparing a p, st) | None => None end = Some (x', t', st') ->
      task_known own (acts ++ [AContinue c s]) t' /\ (forall m n, x_message x' = Some (m, n) -> known own n)) as Hgo.
    { clear E. intros E. destruct (prep_goes p s x) as [[y q]|] eqn:P; [|discriminate]. injection E as <- <- <-.
      destruct (prep_goes_known own p s x y q Ht P) as [H1 H2]. split; [exact H1|]. intros m n Em.
      destruct (H2 m n Em) as [H|H]; eauto. }
    destruct p as [|acc|acc ans|[[m n]|e]]; try (destruct s; apply Hgo, E).
    + destruct s; try (apply Hgo, E). injection E as <- <- <-. split; [exact Ht|]. intros m' n' E'. cbn in E'. eauto.
    + destruct s; try (apply Hgo, E). injection E as <- <- <-. split; [exact I|discriminate].
  - destruct s as [e|l| |[|ch sg] k|]; try discriminate E; injection E as <- <- <-.
    + split; [exact I|discriminate].
    + split; [exact I|discriminate].
    + split; [|exact Hm]. split; [exact Ht|]. exists c. apply in_app_iff. right. now left.
  - destruct s as [e|l| |sg' k'|]; try discriminate E; injection E as <- <- <-.
    + split; [exact I|discriminate].
    + split; [|exact Hm]. destruct Ht as [H1 H2]. split; auto using keyed_mono.
  - destruct s as [e|l| |sg' k'|]; try (destruct ans; discriminate E).
    + assert (Some (login_fails e x, st) = Some (x', t', st')) as E' by (destruct ans; exact E).
      injection E' as <- <- <-. split; [exact I|discriminate].
    + destruct ans as [r|]; [|discriminate E]. destruct (login_answer r) as [[d|e]|] eqn:A; [| |discriminate E];
        injection E as <- <- <-; (split; [exact I|]); [exact Hm|discriminate].
  - destruct s as [e|l| |sg' k'|]; try (destruct ans; discriminate E).
    + assert (Some (login_fails e x, st) = Some (x', t', st')) as E' by (destruct ans; exact E).
      injection E' as <- <- <-. split; [exact I|discriminate].
    + destruct ans as [r|]; [|discriminate E]. destruct (delegation_answer r) as [[d'|e]|] eqn:A; [| |discriminate E];
        injection E as <- <- <-; (split; [exact I|]); [exact Hm|discriminate].
  - destruct s; discriminate E.
  - destruct s; discriminate E.
Qed.

Lemma own_step D cid acts a w w' : own_inv acts w -> act_view D cid w a w' -> own_inv (acts ++ [a]) w'.
Proof.
  intros [I1 I2 I3] V.
  assert (Forall (task_known (w_own w) (acts ++ [a])) (w_tasks w)) as J2.
  { revert I2. apply List.Forall_impl. intros t Ht. rewrite <- (app_nil_r (w_own w)). now apply task_known_mono. }
  assert (forall e sg x sk n, In e (w_own w) -> ev_op e = SiweLogin sg x sk n ->
    known (w_own w) n /\ exists k, keyed (acts ++ [a]) sg k /\ kp_der k = sk) as J3.
  { intros e sg x sk n Ie Eo. destruct (I3 e sg x sk n Ie Eo) as (H1 & k & H2 & H3). eauto using keyed_mono. }
  destruct V as [| |R|R|R|k s t x' t' st' N G|k now cert t o s' r N R S|now o s' r S|j]; constructor; cbn [w_own w_ctx w_tasks]; auto.
  - discriminate.
  - intros m n E. apply (I1 m n). unfold construct in E. destruct (load_identity (w_storage w)) as [[[? ?] ?]|]; exact E.
  - apply List.Forall_app. split; [exact J2|repeat constructor].
  - intros m n E. apply (I1 m n). destruct (login_starts_cases (w_ctx w)) as [Es|(e & Es & _)]; rewrite Es in E; [exact E|discriminate E].
  - apply List.Forall_app. split; [exact J2|]. constructor; [|constructor]. destruct (login_starts_cases (w_ctx w)) as [->|(e & -> & _)]; exact I.
  - discriminate.
  - exact (proj2 (login_goes_known _ acts k _ _ _ _ _ _ _ (nth_error_Forall _ _ _ _ I2 N) G I1)).
  - apply Forall_insert_task; [exact J2|]. exact (proj1 (login_goes_known _ acts k _ _ _ _ _ _ _ (nth_error_Forall _ _ _ _ I2 N) G I1)).
  - intros m n E. apply known_mono. eapply I1, E.
  - apply Forall_insert_task.
    + revert I2. apply List.Forall_impl. intros u. apply task_known_mono.
    + pose proof (nth_error_Forall _ _ _ _ I2 N) as Ht.
      assert (forall p, prep_request p = Some o -> prep_known (w_own w ++ [mkEvent now o r]) (prep_answered r p)) as Hp.
      { intros p Rp. destruct p as [|acc|acc [|]|]; try discriminate Rp. cbn. intros m n A.
        exists (mkEvent now o r), acc, m. split; [apply in_app_iff; right; now left|]. cbn in Rp. split; cbn; [congruence|].
        destruct r; cbn in A; congruence. }
      destruct t as [p| |a p|a m n'|a n' sg' k'|a n' sg' k' [r'|]|a k' d [r'|]|i|err]; cbn in R; try discriminate R; cbn; auto.
  - intros e sg x sk n Ie Eo. apply in_app_iff in Ie as [Ie|[<-|[]]].
    + destruct (J3 e sg x sk n Ie Eo) as [H1 H2]. split; [now apply known_mono|exact H2].
    + cbn [ev_op] in Eo. subst o. pose proof (nth_error_Forall _ _ _ _ J2 N) as Ht.
      destruct t as [p| |a p|a m n'|a n' sg' k'|a n' sg' k' [r'|]|a k' d [r'|]|i|err]; cbn in R; try discriminate R.
      * destruct p as [|acc|acc [|]|]; discriminate R.
      * destruct p as [|acc|acc [|]|]; discriminate R.
      * injection R as <- <- <- <-. destruct Ht as [H1 H2]. split; [now apply known_mono|]. eauto.
Qed.
Lemma runs_own D cid acts w : runs D cid acts w -> own_inv acts w.
Proof.
  induction 1 as [|acts w a w' _ IH Hok Hs].
  - constructor; cbn; [discriminate|constructor|intros ? ? ? ? ? []].
  - apply act_step_view in Hs. eapply own_step; eassumption.
Qed.

(** Whose calls the canister executed. *)
Definition mine (k : nat) (q : option nat * event) : bool := match fst q with Some j => Nat.eqb j k | None => false end.
Lemma owners D cid acts b : bruns D cid acts b -> exists lab : list (option nat * event), map snd lab = b_history b /\
  (forall k t, nth_error (b_tabs b) k = Some t -> t_own t = map snd (List.filter (mine k) lab)) /\
  (forall q k, In q lab -> mine k q = true -> (k < length (b_tabs b))%nat).
Proof.
  induction 1 as [|acts b a b' H IH Hok Hs].
  - exists []. split; [reflexivity|]. split; [intros [|k] t E; discriminate E|intros q k []].
  - destruct IH as (lab & E1 & E2 & E3). destruct a as [|j a|now o]; cbn [bstep] in Hs.
    + injection Hs as <-. exists lab. cbn [b_history b_tabs]. split; [exact E1|]. split.
      * intros k t N. apply nth_snoc_cases in N as [[-> ->]|N]; [|now apply E2]. cbn [new_tab t_own].
        assert (List.filter (mine (length (b_tabs b))) lab = []) as ->; [|reflexivity].
        destruct (List.filter (mine (length (b_tabs b))) lab) as [|q r] eqn:F; [reflexivity|].
        assert (In q (List.filter (mine (length (b_tabs b))) lab)) as I by (rewrite F; now left).
        apply filter_In in I as [I M]. specialize (E3 q _ I M). lia.
      * intros q k I M. rewrite app_length. specialize (E3 q k I M). lia.
    + destruct (nth_error (b_tabs b) j) as [t|] eqn:N; [|discriminate]. destruct (tab_action a) eqn:A; [|discriminate].
      destruct (act_step D cid a (tab_world b t)) as [w|] eqn:S; [|discriminate]. injection Hs as <-.
      assert (exists new, w_history w = b_history b ++ new /\ w_own w = t_own t ++ new) as (new & Eh & Eo).
      { apply act_step_view in S. destruct S; cbn [w_history w_own tab_world]; try (exists []; now rewrite !app_nil_r). eexists; split; reflexivity. }
      exists (lab ++ map (pair (Some j)) new). cbn [put_world b_history b_tabs].
      assert (forall l : list event, map snd (map (pair (Some j)) l) = l) as Em by (intros l; rewrite map_map; cbn; apply map_id).
      assert (forall k (l : list event), List.filter (mine k) (map (pair (Some j)) l) = if Nat.eqb j k then map (pair (Some j)) l else []) as Ef.
      { intros k l. induction l as [|e l IHl]; cbn [map List.filter]; [now destruct (Nat.eqb j k)|].
        unfold mine at 1. cbn [fst]. destruct (Nat.eqb j k); rewrite IHl; reflexivity. }
      split; [rewrite map_app, E1, Eh; now rewrite Em|]. split.
      * intros k u Nk. rewrite List.filter_app, map_app, Ef. apply nth_insert_cases in Nk as [[-> ->]|[Hk Nk]].
        -- rewrite Nat.eqb_refl, Em, <- (E2 _ _ N). exact Eo.
        -- destruct (Nat.eqb_spec j k) as [->|_]; [now destruct Hk|]. cbn [map]. rewrite app_nil_r. now apply E2.
      * intros q k I M. rewrite insert_length. apply in_app_iff in I as [I|I]; [exact (E3 q k I M)|].
        apply in_map_iff in I as (e & <- & _). unfold mine in M. cbn in M. apply Nat.eqb_eq in M as <-. apply nth_error_Some. congruence.
    + destruct (step D cid now o (b_canister b)) as [s' r] eqn:S. injection Hs as <-.
      exists (lab ++ [(None, mkEvent now o r)]). cbn [b_history b_tabs]. split; [now rewrite map_app, E1|]. split.
      * intros k t N. rewrite List.filter_app. cbn. rewrite app_nil_r. now apply E2.
      * intros q k I M. apply in_app_iff in I as [I|[<-|[]]]; [exact (E3 q k I M)|discriminate M].
Qed.

(** Calls of two tabs are two calls. *)
Lemma two_owners D cid acts b j k t u e f : bruns D cid acts b -> j <> k ->
  nth_error (b_tabs b) j = Some t -> nth_error (b_tabs b) k = Some u -> In e (t_own t) -> In f (t_own u) ->
  exists h1 h2 h3, b_history b = h1 ++ e :: h2 ++ f :: h3 \/ b_history b = h1 ++ f :: h2 ++ e :: h3.
Proof.
  intros H Ne N M I J. destruct (owners D cid acts b H) as (lab & E1 & E2 & _).
  rewrite (E2 _ _ N) in I. rewrite (E2 _ _ M) in J.
  apply in_map_iff in I as (q & <- & I). apply in_map_iff in J as (p & <- & J).
  apply filter_In in I as [I Mq]. apply filter_In in J as [J Mp].
  assert (p <> q) as Npq.
  { intros ->. unfold mine in *. destruct (fst q) as [i|]; [|discriminate]. apply Nat.eqb_eq in Mp, Mq. congruence. }
  apply in_split in I as (l1 & l2 & ->). apply in_app_iff in J as [J|[J|J]]; [|congruence|].
  - apply in_split in J as (a1 & a2 & ->). exists (map snd a1), (map snd a2), (map snd l2). right.
    rewrite <- E1, <- app_assoc, <- app_comm_cons, !map_app. cbn [map]. now rewrite map_app.
  - apply in_split in J as (a1 & a2 & ->). exists (map snd l1), (map snd a1), (map snd a2). left.
    rewrite <- E1, !map_app. cbn [map]. now rewrite map_app.
Qed.

Lemma tab_submits D cid acts b k t e sg x sk n : bruns D cid acts b -> nth_error (b_tabs b) k = Some t -> In e (t_own t) ->
  ev_op e = SiweLogin sg x sk n ->
  (exists p y text, In p (t_own t) /\ prepared p y text n) /\
  exists c kp, In (AContinue c (SSigned sg kp)) (tab_acts k acts) /\ kp_der kp = sk.
Proof.
  intros H N I Eo. destruct (tab_sim D cid acts b H k t N) as (l & R & F).
  destruct (runs_own _ _ _ _ R) as [_ _ I3]. destruct (I3 e sg x sk n I Eo) as (H1 & kp & [c Ic] & Ek).
  split; [exact H1|]. exists c, kp. split; [|exact Ek]. apply (in_tab_acts (AContinue c (SSigned sg kp)) l _ eq_refl F). exact Ic.
Qed.
