(** Runs of the browser client on the concrete instance, used by examples and
    counterexamples. *)
From Coq Require Import Strings.String ZifyBool ZifyN ZifyNat.
From Verif Require Import Base BaseLemmas Deps Hex Eth Encode Siwe Delegation Login Provider SpecTrace
  SpecEth EthProofs Concrete Scripts Demo Client SpecClient.
Local Open Scope N_scope.

(** ** Performing a list of actions *)

(** [last]: no event so far is later. *)
Definition serves_ok (last now : N) (o : op) : bool := (last <=? now) && (now <=? u64_max) && op_wfb o.
Definition act_okb (last : N) (a : action) (w : world) : bool :=
  match a with
  | AContinue k (SSigned _ p) => Nat.eqb (length (kp_raw p)) 32 && Nat.eqb (length (kp_secret p)) 32
  | AServe k now certificate =>
      match nth_error (w_tasks w) k with
      | Some t => match task_request certificate t with Some o => serves_ok last now o | None => true end
      | None => true
      end
  | ACanister now o => serves_ok last now o
  | _ => true
  end.
Definition act_time (last : N) (a : action) : N :=
  match a with AServe _ now _ | ACanister now _ => now | _ => last end.

Fixpoint perform (D : Deps) (cid : bytes) (last : N) (acts : list action) (w : world) : option world :=
  match acts with
  | [] => Some w
  | a :: acts =>
      if act_okb last a w then
        match act_step D cid a w with
        | Some w' => perform D cid (act_time last a) acts w'
        | None => None
        end
      else None
  end.

Lemma serves_okb last now o w : serves_ok last now o = true ->
  Forall (fun e => ev_time e <= last) (w_history w) -> executes now o w.
Proof.
  unfold serves_ok. rewrite !Bool.andb_true_iff. intros [[H1 H2] H3] HF. split; [|split; [lia|now apply op_wfb_spec]].
  revert HF. apply List.Forall_impl. intros e. lia.
Qed.

Lemma act_okb_spec last a w : act_okb last a w = true -> Forall (fun e => ev_time e <= last) (w_history w) -> act_ok a w.
Proof.
  destruct a as [| | | | |k s|k now cert|now o|j]; cbn; auto.
  - destruct s; auto. rewrite Bool.andb_true_iff, !Nat.eqb_eq. auto.
  - intros H HF t o E R. rewrite E, R in H. now apply (serves_okb last).
  - intros H HF. now apply (serves_okb last).
Qed.

Lemma act_time_history D cid last a w w' : act_okb last a w = true -> act_step D cid a w = Some w' ->
  Forall (fun e => ev_time e <= last) (w_history w) -> Forall (fun e => ev_time e <= act_time last a) (w_history w').
Proof.
  intros Hok Hs HF.
  assert (forall now o r, serves_ok last now o = true ->
    Forall (fun e => ev_time e <= now) (w_history w ++ [mkEvent now o r])) as Hsnoc.
  { intros now o r E. unfold serves_ok in E. rewrite !Bool.andb_true_iff in E. apply List.Forall_app. split.
    - revert HF. apply List.Forall_impl. intros e. lia.
    - constructor; [cbn; lia|constructor]. }
  destruct a as [| | | | |k s|k now cert|now o|j]; cbn in Hs, Hok |- *.
  - injection Hs as <-. exact HF.
  - injection Hs as <-. exact HF.
  - destruct (x_initializing (w_ctx w)); [discriminate|]. injection Hs as <-. exact HF.
  - destruct (login_starts (w_ctx w)) as [x t]. destruct (x_initializing (w_ctx w)); [discriminate|]. injection Hs as <-. exact HF.
  - destruct (x_initializing (w_ctx w)); [discriminate|]. injection Hs as <-. exact HF.
  - destruct (nth_error (w_tasks w) k); [|discriminate].
    destruct (login_goes t s (w_ctx w) (w_storage w)) as [[[x' t'] st']|]; [|discriminate]. injection Hs as <-. exact HF.
  - destruct (nth_error (w_tasks w) k) as [t|]; [|discriminate]. destruct (task_request cert t) as [o|]; [|discriminate].
    destruct (step D cid now o (w_canister w)) as [s' r]. injection Hs as <-. cbn. auto.
  - destruct (step D cid now o (w_canister w)) as [s' r]. injection Hs as <-. cbn. auto.
  - injection Hs as <-. exact HF.
Qed.

Lemma perform_runs D cid acts : forall before last w w', runs D cid before w ->
  Forall (fun e => ev_time e <= last) (w_history w) -> perform D cid last acts w = Some w' -> runs D cid (before ++ acts) w'.
Proof.
  induction acts as [|a acts IH]; intros before last w w' H HF E; cbn [perform] in E.
  - injection E as <-. now rewrite app_nil_r.
  - destruct (act_okb last a w) eqn:Hok; [|discriminate]. destruct (act_step D cid a w) as [w1|] eqn:Hs; [|discriminate].
    change (a :: acts) with ([a] ++ acts). rewrite app_assoc. eapply (IH _ (act_time last a) w1).
    + apply (runs_snoc D cid before w); auto. now apply (act_okb_spec last).
    + eapply act_time_history; eassumption.
    + exact E.
Qed.

(** What can be seen of a world without looking into the canister. *)
Definition seen (w : world) : ctx * option bytes * list task * list event * list event :=
  (w_ctx w, w_storage w, w_tasks w, w_history w, w_own w).

Lemma perform_seen D cid acts v : option_map seen (perform D cid 0 acts initial_world) = Some v ->
  exists w, runs D cid acts w /\ seen w = v.
Proof.
  destruct (perform D cid 0 acts initial_world) as [w|] eqn:E; cbn; [|discriminate]. intros H. exists w.
  split; [|congruence]. apply (perform_runs D cid acts [] 0 initial_world w); [constructor|constructor|exact E].
Qed.

(** The same for calls that do not overlap. *)
Definition settledb (t : task) : bool :=
  match t with TPrepare (PReturned _) | TReturned _ | TThrown _ => true | _ => false end.
Fixpoint perform_seq (D : Deps) (cid : bytes) (last : N) (acts : list action) (w : world) : option world :=
  match acts with
  | [] => Some w
  | a :: acts =>
      if act_okb last a w && match a with APrepare | ALogin => forallb settledb (w_tasks w) | _ => true end then
        match act_step D cid a w with
        | Some w' => perform_seq D cid (act_time last a) acts w'
        | None => None
        end
      else None
  end.

Lemma settledb_spec t : settledb t = true -> settled t.
Proof. destruct t as [[]| | | | | | | |]; cbn; auto; discriminate. Qed.

Lemma perform_sequential D cid acts : forall before last w w', sequential D cid before w ->
  Forall (fun e => ev_time e <= last) (w_history w) -> perform_seq D cid last acts w = Some w' ->
  sequential D cid (before ++ acts) w'.
Proof.
  induction acts as [|a acts IH]; intros before last w w' H HF E; cbn [perform_seq] in E.
  - injection E as <-. now rewrite app_nil_r.
  - match type of E with (if ?c && ?d then _ else _) = _ => destruct c eqn:Hok; [|discriminate]; destruct d eqn:Hq; [|discriminate] end.
    cbn [andb] in E. destruct (act_step D cid a w) as [w1|] eqn:Hs; [|discriminate].
    change (a :: acts) with ([a] ++ acts). rewrite app_assoc. eapply (IH _ (act_time last a) w1).
    + apply (seq_snoc D cid before w); auto; [now apply (act_okb_spec last)|].
      intros Ha. apply List.Forall_forall. intros t Ht. apply settledb_spec.
      destruct Ha as [-> | ->]; rewrite forallb_forall in Hq; apply Hq, Ht.
    + eapply act_time_history; eassumption.
    + exact E.
Qed.

Lemma perform_seq_seen D cid acts v : option_map seen (perform_seq D cid 0 acts initial_world) = Some v ->
  exists w, sequential D cid acts w /\ seen w = v.
Proof.
  destruct (perform_seq D cid 0 acts initial_world) as [w|] eqn:E; cbn; [|discriminate]. intros H. exists w.
  split; [|congruence]. apply (perform_sequential D cid acts [] 0 initial_world w); [constructor|constructor|exact E].
Qed.

(** ** Scripts with a wallet *)

Inductive cact :=
| On (a : action)
| Signs (k : nat) (pk : bytes) (p : keypair).     (* the wallet [pk] signs what call [k] asks for *)

Definition cact_action (D : Deps) (c : cact) (w : world) : action :=
  match c with
  | On a => a
  | Signs k pk p =>
      match nth_error (w_tasks w) k with
      | Some (TSign _ m _) => AContinue k (SSigned (wallet_sign D pk m) p)
      | _ => AContinue k (SThrow [])
      end
  end.
Fixpoint stage_acts (D : Deps) (cid : bytes) (l : list cact) (w : world) : list action :=
  match l with
  | [] => []
  | c :: l =>
      let a := cact_action D c w in
      match act_step D cid a w with Some w' => a :: stage_acts D cid l w' | None => [a] end
  end.

Definition pair1 : keypair := mkPair (repeat x51 32) (repeat x61 32).
Definition pair2 : keypair := mkPair (repeat x52 32) (repeat x62 32).
Definition alice_text : bytes := Eval vm_compute in wallet_address CD alice.
Definition bob_text : bytes := Eval vm_compute in wallet_address CD bob.

(** A canister with a seeded generator, and a page with a manager. *)
Definition opening : list cact :=
  [On (ACanister 0 (Install demo_input)); On (ACanister (1 * sec) (RawRand (Some (repeat x07 32)))); On AManager].

(** Call [k] is a login; its prepareLogin and its signature; the two requests after it. *)
Definition asks (k : nat) (t : N) (who : bytes) : list cact :=
  [On (AContinue k (SAccounts [who])); On (AContinue k (SAccounts [who])); On (AContinue k SActor);
   On (AServe k t (bs "cert")); On (AContinue k SReply); On (AContinue k SReply)].
Definition logs_in (k : nat) (t : N) : list cact :=
  [On (AContinue k SActor); On (AServe k t (bs "cert")); On (AContinue k SReply); On (AServe k t (bs "cert"))].
Definition whole_login (k : nat) (t : N) (pk who : bytes) (p : keypair) : list cact :=
  On ALogin :: asks k t who ++ [Signs k pk p] ++ logs_in k t ++ [On (AContinue k SReply)].

Definition acts_of (l : list cact) : list action := stage_acts CD demo_cid l initial_world.
Definition sees (acts : list action) := option_map seen (perform CD demo_cid 0 acts initial_world).

(** Alice signs in. *)
Definition alice_acts : list action := Eval vm_compute in acts_of (opening ++ whole_login 0 (2 * sec) alice alice_text pair1).

(** ** A wallet that can sign every text *)

Definition carol : bytes := x01 :: repeat x22 63.

Lemma bxor_twice a b : bxor (bxor a b) b = a.
Proof. revert b. destruct a; intros b; destruct b; reflexivity. Qed.
Lemma bxor_zero a b : nb (bxor a b) = 0 -> a = b.
Proof. revert b. destruct a; intros b; destruct b; vm_compute; congruence. Qed.

Lemma unmask pk h : (length pk <= length h)%nat -> zip_with bxor (zip_with bxor pk h) h = pk.
Proof.
  revert h. induction pk as [|a pk IH]; intros [|b h] L; cbn in L |- *; try reflexivity; [lia|].
  rewrite bxor_twice, IH by lia. reflexivity.
Qed.
Lemma masked_zero pk h : existsb (fun b => negb (nb b =? 0)) (zip_with bxor pk h) = false -> length pk = length h -> pk = h.
Proof.
  revert h. induction pk as [|a pk IH]; intros [|b h] E L; try discriminate; [reflexivity|].
  cbn [zip_with existsb] in E. apply Bool.orb_false_iff in E as [E1 E2]. f_equal.
  - apply bxor_zero. lia.
  - apply IH; [exact E2|]. cbn in L. lia.
Qed.

Lemma carol_recovers text : recovers CD text (wallet_sign CD carol text) (wallet_address CD carol).
Proof.
  pose proof (keccak_len CD CD_ok (eip191_bytes text)) as L. set (h := d_keccak CD (eip191_bytes text)) in *.
  assert (length carol = length (h ++ h)) as Lc by (rewrite app_length, L; reflexivity).
  exists (toy_sign h carol), x1b, (eip191_bytes text), carol, (take 12 (d_keccak CD carol)), (drop 12 (d_keccak CD carol)).
  split; [|split; [|split; [|split; [|split; [|split; [|split]]]]]].
  - exists (hex_encode (toy_sign h carol ++ [x1b])). split; [|split].
    + rewrite app_length. unfold toy_sign. rewrite zip_with_length, <- Lc. reflexivity.
    + apply hex_denotes_lower, hex_encode_lower.
    + reflexivity.
  - apply eip191_framed_ok.
  - destruct (d_sig_ok CD (toy_sign h carol)) eqn:E; [reflexivity|]. exfalso. cbn [d_sig_ok CD] in E.
    apply masked_zero in E; [|exact Lc]. destruct h as [|a h]; [discriminate|].
    apply (f_equal (fun l => (nth 0 l x00, nth 32 l x00))) in E. cbn [app nth] in E.
    assert (nth 31 (h ++ a :: h) x00 = a) as Ea.
    { rewrite app_nth2 by (cbn in L; lia). replace (31 - length h)%nat with 0%nat by (cbn in L; lia). reflexivity. }
    change (nth 31 (h ++ a :: h) x00) with (nth 32 (a :: h ++ a :: h) x00) in Ea. cbn [nth] in Ea.
    assert (nth 32 (a :: h ++ a :: h) x00 = a) as Eb.
    { change (a :: h ++ a :: h) with ((a :: h) ++ a :: h). rewrite app_nth2 by lia. rewrite L. reflexivity. }
    change (a :: h ++ a :: h) with ((a :: h) ++ a :: h) in E, Eb. injection E as E1 E2. subst a. cbn in E2, Eb. rewrite Eb in E2. discriminate.
  - vm_compute. discriminate.
  - cbn [d_recover CD]. unfold toy_recover. change (nb x1b mod 27 <? 2) with true. cbn [negb].
    unfold toy_sign. fold h. rewrite unmask by lia. reflexivity.
  - symmetry. apply take_drop.
  - rewrite drop_length, (keccak_len CD CD_ok). reflexivity.
  - reflexivity.
Qed.
