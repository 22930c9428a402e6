(** The browser client (packages/ic_siwe_js) together with the canister. *)
From Coq Require Import Strings.String ZifyBool ZifyN ZifyNat.
From Verif Require Import Base BaseLemmas Deps Hex Eth Encode Delegation Login Provider SpecEth SpecTree SpecTrace
  ProviderProofs LoginTheory LoginProofs Concrete Scripts Demo PropertiesLogin
  Client ClientJson SpecClient ClientProofs ClientSeq ClientStatus ClientLive ClientDemo.
Local Open Scope N_scope.

(** Reads the components of a run on the concrete instance. *)
Ltac seen_parts H :=
  unfold seen in H;
  match type of H with (?x, ?st, ?ts, ?h, ?o) = _ =>
    let Hx := fresh "Hx" in let Hst := fresh "Hst" in let Hts := fresh "Hts" in let Hh := fresh "Hh" in let Ho := fresh "Ho" in
    injection H as Hx Hst Hts Hh Ho
  end.

Definition view_of (o : option (ctx * option bytes * list task * list event * list event)) :=
  match o with Some v => v | None => seen initial_world end.
Ltac run_of acts view w H :=
  let E := fresh "E" in
  destruct (perform_seen CD demo_cid acts view) as (w & H & E); [vm_compute; reflexivity|];
  unfold view in E; seen_parts E.

(** ** C49  The identity shown was issued by the canister to the address shown *)

Theorem C49_issued : forall D cid acts w i, deps_ok D ->
  runs D cid acts w -> undisturbed acts -> x_identity (w_ctx w) = Some i ->
  exists x, signed_in w x i /\ issued (w_history w) x i.
Proof.
  intros D cid acts w i HD H Hu Hi.
  destruct (runs_store D cid acts w HD H Hu) as [[_ (E & _)]|(x & k & c & (_ & _ & _ & Hiss) & [(E1 & E2 & E3)|[_ (E & _)]])];
    [congruence| |congruence].
  assert (i = mkIdent k c) as -> by congruence. exists x. split; [repeat split; assumption|exact Hiss].
Qed.

(** Its delegation names the identity's own session key and nothing else. *)
Theorem C49_key : forall D cid acts w i, deps_ok D ->
  runs D cid acts w -> undisturbed acts -> x_identity (w_ctx w) = Some i ->
  exists r, ch_delegations (id_chain i) = [r] /\ dl_pubkey (sd_delegation r) = kp_der (id_key i).
Proof.
  intros D cid acts w i HD H Hu Hi.
  destruct (runs_store D cid acts w HD H Hu) as [[_ (E & _)]|(x & k & c & (_ & _ & Hk & Hiss) & [(E1 & E2 & E3)|[_ (E & _)]])];
    [congruence| |congruence].
  assert (i = mkIdent k c) as -> by congruence.
  eapply issued_facts; [exact HD|apply (ci_exec _ _ _ (runs_cinv _ _ _ _ H))|exact Hk|exact Hiss].
Qed.

(** The address shown signed a message of this canister. *)
Theorem C49_authenticated : forall D cid acts w i, deps_ok D ->
  runs D cid acts w -> undisturbed acts -> x_identity (w_ctx w) = Some i ->
  exists x x' p text n sg, signed_in w x i /\ In p (w_history w) /\ prepared p x' text n /\ recovers D text sg x.
Proof.
  intros D cid acts w i HD H Hu Hi. destruct (C49_issued D cid acts w i HD H Hu Hi)
    as (x & Hs & pre & l & mid & g & post & sg & n & exp & pk & cert & r & Eh & Hl & _).
  pose proof (ci_exec _ _ _ (runs_cinv _ _ _ _ H)) as He. rewrite Eh in He. apply exec_at in He as [s He].
  destruct (C27_authenticated D cid pre l s sg x _ n exp pk HD He Hl)
    as (i' & since & before & p & after & x' & n' & text & b & b' & Hb & Es & Hp & Hr & _).
  exists x, x', p, text, n', sg. split; [exact Hs|]. split; [|auto]. rewrite Eh. apply in_app_iff. left.
  destruct Hb as (bef & b0 & -> & _). apply in_app_iff. right. right. rewrite Es. apply in_app_iff. right. left. reflexivity.
Qed.

(** Concrete: Alice signs in. *)
Definition alice_view := Eval vm_compute in view_of (sees alice_acts).
Lemma alice_undisturbed : undisturbed alice_acts.
Proof. intros j. unfold alice_acts. cbn [In]. intuition discriminate. Qed.

Example C49_case : exists w i, runs CD demo_cid alice_acts w /\ undisturbed alice_acts /\
  signed_in w alice_text i /\ id_key i = pair1.
Proof.
  run_of alice_acts alice_view w H.
  eexists w, _. split; [exact H|]. split; [exact alice_undisturbed|]. unfold signed_in. rewrite Hx. cbn [x_identity x_address x_chain].
  split; [split; [reflexivity|split; reflexivity]|reflexivity].
Qed.

(** Without the condition on localStorage anything goes: what another script of the same
    origin has written there is taken for a login. *)
Definition planted_identity : bytes := save_identity alice_text pair1
  (mkChain [mkSigned (mkDelegation (kp_der pair1) 0 None) (repeat x00 32)] (repeat x00 32)).
Definition planted_acts : list action := [AStorage (Some planted_identity); AManager].
Definition planted_view := Eval vm_compute in view_of (sees planted_acts).
Theorem C49_storage_trusted_refuted :
  ~ (forall cid acts w i, runs CD cid acts w -> x_identity (w_ctx w) = Some i ->
       exists x, signed_in w x i /\ issued (w_history w) x i).
Proof.
  intros Hc. run_of planted_acts planted_view w H.
  destruct (Hc demo_cid _ w (mkIdent pair1 (mkChain [mkSigned (mkDelegation (kp_der pair1) 0 None) (repeat x00 32)] (repeat x00 32))) H)
    as (x & _ & pre & l & mid & g & post & sg & n & exp & pk & cert & r & Eh & _).
  { rewrite Hx. reflexivity. }
  rewrite Hh in Eh. destruct pre; discriminate Eh.
Qed.

(** ** C50  At most one login runs at a time *)

Definition C50_claim (D : Deps) : Prop := forall cid acts w j k t u, runs D cid acts w ->
  nth_error (w_tasks w) j = Some t -> nth_error (w_tasks w) k = Some u -> login_working t -> login_working u -> j = k.

(** Two calls made before the wallet has told its accounts to either. *)
Definition overlap_acts : list action :=
  [AManager; ALogin; ALogin; AContinue 0 (SAccounts [alice_text]); AContinue 1 (SAccounts [alice_text])].
Definition overlap_view := Eval vm_compute in view_of (sees overlap_acts).
Theorem C50_overlap_refuted : ~ C50_claim CD.
Proof.
  intros Hc. run_of overlap_acts overlap_view w H.
  enough (0%nat = 1%nat) by discriminate.
  eapply (Hc demo_cid _ w _ _ (TPreparing alice_text PAddresses) (TPreparing alice_text PAddresses) H).
  - rewrite Hts. reflexivity.
  - rewrite Hts. reflexivity.
  - split; [exact I|discriminate].
  - split; [exact I|discriminate].
Qed.

(** Refusing a second call resets the status, so that a third one is not refused. *)
Definition C50_guard_claim (D : Deps) : Prop := forall cid acts w t w', runs D cid acts w ->
  In t (w_tasks w) -> login_working t -> act_step D cid ALogin w = Some w' ->
  exists e, w_tasks w' = w_tasks w ++ [TThrown e].
Definition third_acts : list action := [AManager; ALogin; AContinue 0 (SAccounts [alice_text]); ALogin].
Definition third_view := Eval vm_compute in view_of (sees third_acts).
Theorem C50_guard_refuted : ~ C50_guard_claim CD.
Proof.
  intros Hc. run_of third_acts third_view w H.
  destruct (Hc demo_cid _ w (TPreparing alice_text PAddresses)
    (mkWorld (w_ctx w) (w_storage w) (w_tasks w ++ [TAddresses]) (w_canister w) (w_history w) (w_own w)) H) as [e Ee].
  - rewrite Hts. left. reflexivity.
  - split; [exact I|discriminate].
  - cbn [act_step]. rewrite Hx. reflexivity.
  - cbn [w_tasks] in Ee. apply app_inj_tail in Ee as [_ Ee]. discriminate.
Qed.

(** A call made while the status says so is refused at once: it sends nothing. *)
Theorem C50_refused_partial : forall D cid w w', act_step D cid ALogin w = Some w' ->
  x_prepare (w_ctx w) = Busy \/ x_login (w_ctx w) = Busy ->
  exists e, w_tasks w' = w_tasks w ++ [TThrown e] /\ w_history w' = w_history w /\ w_own w' = w_own w /\
    w_storage w' = w_storage w /\ x_identity (w_ctx w') = x_identity (w_ctx w).
Proof.
  intros D cid w w' Hs HB. cbn [act_step] in Hs.
  destruct (login_starts (w_ctx w)) as [x t] eqn:E. destruct (x_initializing (w_ctx w)); [discriminate|]. cbn [negb] in Hs.
  injection Hs as <-. unfold login_starts, login_fails in E.
  destruct HB as [B|B]; rewrite B in E.
  - injection E as <- <-. eexists. repeat split.
  - destruct (x_prepare (w_ctx w)); injection E as <- <-; eexists; repeat split.
Qed.

Definition second_acts : list action := removelast third_acts.
Definition second_view := Eval vm_compute in view_of (sees second_acts).
Example C50_case : exists w w', runs CD demo_cid second_acts w /\ x_login (w_ctx w) = Busy /\
  act_step CD demo_cid ALogin w = Some w'.
Proof.
  run_of second_acts second_view w H.
  exists w. eexists. split; [exact H|]. split; [rewrite Hx; reflexivity|]. cbn [act_step]. rewrite Hx. reflexivity.
Qed.

(** ** C51  A tab submits a sign-in message once *)

Definition C51_claim (D : Deps) : Prop := forall cid acts w s1 e1 s2 e2 s3 n, sequential D cid acts w ->
  w_own w = s1 ++ e1 :: s2 ++ e2 :: s3 -> submits e1 n -> submits e2 n ->
  exists p x text, In p s2 /\ prepared p x text n.

(** A second call of login after a successful one signs and submits the used message
    again, and fails. *)
Definition again_acts : list action := Eval vm_compute in
  acts_of (opening ++ whole_login 0 (2 * sec) alice alice_text pair1 ++
    [On ALogin; On (AContinue 1 (SAccounts [alice_text])); Signs 1 alice pair2; On (AContinue 1 SActor);
     On (AServe 1 (3 * sec) (bs "cert")); On (AContinue 1 SReply)]).
Definition again_view := Eval vm_compute in view_of (option_map seen (perform_seq CD demo_cid 0 again_acts initial_world)).
Ltac again_run w H :=
  let E := fresh "E" in
  destruct (perform_seq_seen CD demo_cid again_acts again_view) as (w & H & E); [vm_compute; reflexivity|];
  unfold again_view in E; seen_parts E.

Lemma split_third {A} (a b c : A) (l : list A) d : l = [a; b; c; d] -> l = [a] ++ b :: [c] ++ d :: [].
Proof. intros ->. reflexivity. Qed.

Theorem C51_once_refuted : ~ C51_claim CD.
Proof.
  intros Hc. again_run w H. apply split_third in Ho.
  pose proof (fun n => Hc demo_cid _ w _ _ _ _ _ n H Ho) as Hn. edestruct Hn as (p & x & text & I & P).
  - eexists _, _, _. reflexivity.
  - eexists _, _, _. reflexivity.
  - destruct I as [<-|[]]. destruct P as [P _]. discriminate P.
Qed.
Example C51_again : exists w, sequential CD demo_cid again_acts w /\
  nth_error (w_tasks w) 1 = Some (TThrown (bs "Message not found")) /\ x_login (w_ctx w) = Failed.
Proof.
  again_run w H. exists w. split; [exact H|]. rewrite Hx, Hts. split; reflexivity.
Qed.

(** A refused message is not submitted again unless the canister has handed it out anew. *)
Theorem C51_refused_partial : forall D cid acts w s1 e1 s2 e2 s3 n, sequential D cid acts w ->
  w_own w = s1 ++ e1 :: s2 ++ e2 :: s3 -> submits e1 n -> submits e2 n ->
  login_succeeds e1 \/ exists p x text, In p s2 /\ prepared p x text n.
Proof. intros D cid acts w s1 e1 s2 e2 s3 n H E S1 S2. eapply (si_own w (sequential_inv D cid acts w H)); eassumption. Qed.

Example C51_case : exists w s1 e1 s2 e2 n, sequential CD demo_cid again_acts w /\
  w_own w = s1 ++ e1 :: s2 ++ e2 :: [] /\ submits e1 n /\ submits e2 n /\ login_succeeds e1.
Proof.
  again_run w H. apply split_third in Ho.
  eexists w, _, _, _, _, _. split; [exact H|]. split; [exact Ho|]. split; [eexists _, _, _; reflexivity|].
  split; [eexists _, _, _; reflexivity|]. eexists _, _, _, _, _, _. split; reflexivity.
Qed.

(** ** C52  clear() signs out for good *)

Definition C52_claim (D : Deps) : Prop := forall cid acts1 acts2 w, runs D cid (acts1 ++ [AClear] ++ acts2) w ->
  Forall quiet acts2 -> signed_out w /\ w_storage w = None.

(** A login that is still running signs in after clear(). *)
Definition late_acts : list action := Eval vm_compute in removelast alice_acts ++ [AClear; AContinue 0 SReply].
Definition late_view := Eval vm_compute in view_of (sees late_acts).
Theorem C52_clear_refuted : ~ C52_claim CD.
Proof.
  intros Hc.
  run_of late_acts late_view w H.
  destruct (Hc demo_cid (removelast alice_acts) [AContinue 0 SReply] w H) as [(Hi & _) _].
  - constructor; [split; discriminate|constructor].
  - rewrite Hx in Hi. discriminate.
Qed.

(** It does if no login is running. *)
Theorem C52_clear_partial : forall D cid acts1 acts2 w1 w, runs D cid acts1 w1 ->
  (forall t, In t (w_tasks w1) -> ~ login_running t) ->
  runs D cid (acts1 ++ [AClear] ++ acts2) w -> Forall quiet acts2 -> signed_out w /\ w_storage w = None.
Proof.
  intros D cid acts1 acts2 w1 w H1 Hno H HQ.
  enough (w_storage w = None /\ signed_out w /\ Forall (fun t => ~ login_running t) (w_tasks w)) as (A & B & _) by auto.
  revert w H HQ. induction acts2 as [|a acts2 IH] using rev_ind; intros w H HQ.
  - rewrite app_nil_r in H. apply runs_snoc_inv in H as (w0 & R0 & _ & V).
    assert (w0 = w1) as -> by (eapply runs_fun; eassumption). inversion V; subst. split; [reflexivity|].
    split; [repeat split|]. cbn. now apply List.Forall_forall.
  - rewrite !app_assoc in H. apply runs_snoc_inv in H as (w0 & R0 & _ & V). rewrite <- !app_assoc in R0.
    apply List.Forall_app in HQ as [HQ Ha]. apply List.Forall_cons_iff in Ha as [Ha _].
    destruct (IH w0 R0 HQ) as (A & B & C). eapply quiet_step; eassumption.
Qed.

Example C52_case : exists w1 w, runs CD demo_cid alice_acts w1 /\ (forall t, In t (w_tasks w1) -> ~ login_running t) /\
  x_identity (w_ctx w1) <> None /\ runs CD demo_cid (alice_acts ++ [AClear] ++ [ALoad; AManager]) w.
Proof.
  run_of alice_acts alice_view w H.
  exists w. eexists. split; [exact H|]. split; [rewrite Hts; intros t [<-|[]] []|]. split; [rewrite Hx; discriminate|].
  change (alice_acts ++ [AClear] ++ [ALoad; AManager]) with (alice_acts ++ ([AClear] ++ [ALoad]) ++ [AManager]).
  rewrite !app_assoc. eapply runs_snoc; [eapply runs_snoc; [eapply runs_snoc; [exact H|exact I|]|exact I|]|exact I|].
  - cbn [act_step]. rewrite Hx. reflexivity.
  - reflexivity.
  - reflexivity.
Qed.

(** ** C53  The store and localStorage agree *)

Theorem C53_agree : forall D cid acts w, deps_ok D -> runs D cid acts w -> undisturbed acts ->
  x_initializing (w_ctx w) = false ->
  (w_storage w = None /\ signed_out w) \/
  (exists x i, signed_in w x i /\ w_storage w = Some (save_identity x (id_key i) (id_chain i))).
Proof.
  intros D cid acts w HD H Hu Hi.
  destruct (runs_store D cid acts w HD H Hu) as [?|(x & k & c & (Hst & _) & [Hs|[E _]])]; [auto| |congruence].
  right. exists x, (mkIdent k c). split; [exact Hs|exact Hst].
Qed.

Example C53_case : exists w i, runs CD demo_cid alice_acts w /\ x_initializing (w_ctx w) = false /\
  w_storage w = Some (save_identity alice_text pair1 (id_chain i)).
Proof.
  run_of alice_acts alice_view w H.
  assert (x_initializing (w_ctx w) = false) as Hi by (rewrite Hx; reflexivity).
  destruct (C53_agree CD demo_cid alice_acts w CD_ok H alice_undisturbed Hi) as [[Hs _]|(x & i & (S1 & S2 & S3) & Hs)].
  - rewrite Hst in Hs. discriminate.
  - exists w, i. split; [exact H|]. split; [exact Hi|]. rewrite Hs. rewrite Hx in S1, S2. cbn [x_identity x_address] in S1, S2.
    injection S2 as <-. injection S1 as <-. reflexivity.
Qed.

(** ** C54  Reloading the page restores the same identity *)

Theorem C54_reload : forall D cid acts w, deps_ok D -> runs D cid acts w -> undisturbed acts ->
  x_initializing (w_ctx w) = false ->
  exists w', runs D cid (acts ++ [ALoad; AManager]) w' /\
    x_identity (w_ctx w') = x_identity (w_ctx w) /\ x_address (w_ctx w') = x_address (w_ctx w) /\
    x_chain (w_ctx w') = x_chain (w_ctx w) /\ w_storage w' = w_storage w.
Proof.
  intros D cid acts w HD H Hu Hi.
  change (acts ++ [ALoad; AManager]) with (acts ++ [ALoad] ++ [AManager]). rewrite app_assoc.
  eexists. split; [eapply runs_snoc; [eapply runs_snoc; [exact H|exact I|reflexivity]|exact I|reflexivity]|]. cbn [w_ctx w_storage].
  destruct (runs_store D cid acts w HD H Hu) as [[E1 (E2 & E3 & E4)]|(x & k & c & (Hst & Hx & Hk & Hiss) & [(E2 & E3 & E4)|[E _]])]; [| |congruence].
  - rewrite E1, E2, E3, E4. repeat split.
  - destruct (issued_facts D cid (w_history w) (w_canister w) x (mkIdent k c) HD (ci_exec _ _ _ (runs_cinv _ _ _ _ H)) Hk Hiss) as [Hc _].
    rewrite Hst, E2, E3, E4. unfold construct. rewrite (load_save x k c Hx Hk Hc). repeat split.
Qed.

Example C54_case : exists w w', runs CD demo_cid alice_acts w /\ runs CD demo_cid (alice_acts ++ [ALoad; AManager]) w' /\
  x_identity (w_ctx w') = x_identity (w_ctx w) /\ x_identity (w_ctx w) <> None.
Proof.
  run_of alice_acts alice_view w H.
  assert (x_initializing (w_ctx w) = false) as Hi by (rewrite Hx; reflexivity).
  destruct (C54_reload CD demo_cid alice_acts w CD_ok H alice_undisturbed Hi) as (w' & H' & E1 & _).
  exists w, w'. split; [exact H|]. split; [exact H'|]. split; [exact E1|]. rewrite Hx. discriminate.
Qed.

(** ** C60  An expired identity is not restored *)

Definition C60_claim (D : Deps) : Prop := forall cid acts w x i r, runs D cid (acts ++ [ALoad; AManager]) w ->
  undisturbed acts -> signed_in w x i -> In r (ch_delegations (id_chain i)) ->
  Forall (fun e => ev_time e < dl_expiration (sd_delegation r)) (w_history w).

Definition expired_acts : list action := Eval vm_compute in
  alice_acts ++ [ACanister (2000 * sec) (GetPrincipal alice_text); ALoad; AManager].
Definition expired_view := Eval vm_compute in view_of (sees expired_acts).
Theorem C60_expired_refuted : ~ C60_claim CD.
Proof.
  intros Hc.
  run_of expired_acts expired_view w H.
  assert (exists i, x_identity (w_ctx w) = Some i) as [i Ei] by (rewrite Hx; eexists; reflexivity).
  assert (signed_in w alice_text i) as Hs.
  { unfold signed_in. rewrite Ei, Hx in *. cbn [x_identity x_address x_chain] in *. injection Ei as <-. repeat split. }
  assert (exists r, In r (ch_delegations (id_chain i)) /\ dl_expiration (sd_delegation r) = 1802 * sec) as (r & Ir & Er).
  { rewrite Hx in Ei. cbn [x_identity] in Ei. injection Ei as <-. eexists. split; [left; reflexivity|reflexivity]. }
  pose proof (Hc demo_cid (removelast (removelast expired_acts)) w alice_text i r H) as HF.
  rewrite Hh in HF. apply List.Forall_forall with (x := mkEvent (2000 * sec) (GetPrincipal alice_text)
      (match nth_error (w_history w) 5 with Some e => ev_reply e | None => RDone end)) in HF; auto.
  - cbn [ev_time] in HF. rewrite Er in HF. unfold sec in HF. lia.
  - intros j. unfold expired_acts. cbn [removelast In]. intuition discriminate.
  - rewrite Hh. do 5 right. left. reflexivity.
Qed.

(** ** C55  Session secrets stay in the browser *)

(** The same actions with other secrets make the same requests and the same replies. *)
Theorem C55_secret : forall D cid acts w f, (forall b, length b = 32%nat -> length (f b) = 32%nat) ->
  runs D cid acts w ->
  exists v, runs D cid (map (resecret f) acts) v /\ w_history v = w_history w /\ w_own v = w_own w /\
    x_message (w_ctx v) = x_message (w_ctx w) /\ x_login (w_ctx v) = x_login (w_ctx w).
Proof.
  intros D cid acts w f Hf H. destruct (resecret_runs f Hf D cid acts w H) as (v & Hv & Hl).
  exists v. split; [exact Hv|]. destruct Hl as ((_ & _ & _ & Em & El & _) & _ & _ & Eh & Eo). auto.
Qed.

Example C55_case : exists w v, runs CD demo_cid alice_acts w /\ w_own w <> [] /\
  runs CD demo_cid (map (resecret (fun _ => repeat x63 32)) alice_acts) v /\ w_own v = w_own w /\
  (exists i, x_identity (w_ctx w) = Some i /\ kp_secret (id_key i) = repeat x61 32).
Proof.
  run_of alice_acts alice_view w H.
  destruct (C55_secret CD demo_cid alice_acts w (fun _ => repeat x63 32) (fun _ _ => eq_refl) H) as (v & Hv & _ & Eo & _).
  exists w, v. split; [exact H|]. split; [rewrite Ho; discriminate|]. split; [exact Hv|]. split; [exact Eo|].
  rewrite Hx. eexists. split; reflexivity.
Qed.

(** ** C56  A login with a willing wallet and canister signs in *)

(** Unless the session key's delegation collides with that of an earlier login. *)
Theorem C56_signs_in : forall D cid acts w i since b r a seed x addr wallet k cert t1 t2 t3, deps_ok D ->
  runs D cid acts w -> x_initializing (w_ctx w) = false ->
  (forall t, In t (w_tasks w) -> settled t) -> x_message (w_ctx w) = None ->
  since_boot (w_history w) i since -> since = b ++ r :: a -> ev_op r = RawRand (Some seed) ->
  Forall (fun e => forall o, ev_op e <> RawRand o) b ->
  address_text D x addr -> (forall text, recovers D text (wallet text) x) ->
  length (kp_raw k) = 32%nat -> length (kp_secret k) = 32%nat -> d_der_err D (kp_der k) = None ->
  (forall l sg y n exp pk, In l since -> ~ logged_in l sg y (kp_der k) n exp pk) ->
  Forall (fun e => ev_time e <= t1) (w_history w) -> t1 <= t2 -> t2 < t1 + sign_in_window i ->
  t2 <= t3 -> t3 < t2 + one_minute -> t3 < u64_max ->
  (exists text w' id, runs D cid (acts ++ login_actions (length (w_tasks w)) x (wallet text) k cert t1 t2 t3) w' /\
     signed_in w' x id /\ id_key id = k /\ x_login (w_ctx w') = Success) \/
  (exists l sg y sk n exp pk exp' t, In l since /\ logged_in l sg y sk n exp pk /\ sk <> kp_der k /\ targets_of i t /\
     delegation_collision D t sk exp (kp_der k) exp').
Proof.
  intros D cid acts w i since b r a seed x addr wallet k cert t1 t2 t3 HD H Hi Hs. apply List.Forall_forall in Hs.
  now apply login_live.
Qed.

(** Concrete: Carol's wallet on a fresh page; there is no earlier login. *)
Definition fresh_acts : list action := Eval vm_compute in acts_of opening.
Definition fresh_view := Eval vm_compute in view_of (sees fresh_acts).
Example C56_case : exists text w id,
  runs CD demo_cid (fresh_acts ++ login_actions 0 (wallet_address CD carol) (wallet_sign CD carol text) pair1 (bs "cert")
    (2 * sec) (30 * sec) (40 * sec)) w /\ signed_in w (wallet_address CD carol) id /\ id_key id = pair1.
Proof.
  run_of fresh_acts fresh_view w H.
  destruct (C56_signs_in CD demo_cid fresh_acts w demo_input [mkEvent (1 * sec) (RawRand (Some (repeat x07 32))) RDone] []
    (mkEvent (1 * sec) (RawRand (Some (repeat x07 32))) RDone) [] (repeat x07 32) (wallet_address CD carol)
    (drop 12 (d_keccak CD carol)) (wallet_sign CD carol) pair1 (bs "cert") (2 * sec) (30 * sec) (40 * sec) CD_ok H)
    as [(text & w' & id & H' & Hs & Hk & _)|(l & sg & y & sk & n & exp & pk & exp' & t & [<-|[]] & L & _)].
  - rewrite Hx. reflexivity.
  - rewrite Hts. intros t [].
  - rewrite Hx. reflexivity.
  - rewrite Hh. exists [], (mkEvent 0 (Install demo_input) RDone). split; [reflexivity|]. split.
    + split; [left; reflexivity|reflexivity].
    + constructor; [|constructor]. intros (i & [E|E] & _); discriminate.
  - reflexivity.
  - reflexivity.
  - constructor.
  - split; [vm_compute; reflexivity|reflexivity].
  - exact carol_recovers.
  - reflexivity.
  - reflexivity.
  - reflexivity.
  - intros l sg y n exp pk [<-|[]] [L _]. discriminate.
  - rewrite Hh. repeat constructor; vm_compute; discriminate.
  - vm_compute. discriminate.
  - reflexivity.
  - vm_compute. discriminate.
  - reflexivity.
  - reflexivity.
  - rewrite Hts in H'. exists text, w', id. auto.
  - destruct L as [L _]. discriminate.
Qed.

(** ** C57  Statuses tell the truth *)

(** A busy status belongs to a call that is doing just that. *)
Theorem C57_busy : forall D cid acts w, runs D cid acts w ->
  (x_login (w_ctx w) = Busy -> exists t, In t (w_tasks w) /\ login_working t) /\
  (x_prepare (w_ctx w) = Busy -> exists t, In t (w_tasks w) /\ asking t) /\
  (x_sign (w_ctx w) = Busy -> exists t, In t (w_tasks w) /\ signing t).
Proof. intros D cid acts w H. destruct (runs_status D cid acts w H) as [H1 H2 H3 _]. auto. Qed.

(** So the client is never stuck: when all calls have settled, login is not refused. *)
Theorem C57_accepts : forall D cid acts w, runs D cid acts w -> x_initializing (w_ctx w) = false ->
  (forall t, In t (w_tasks w) -> settled t) ->
  exists w', act_step D cid ALogin w = Some w' /\ w_tasks w' = w_tasks w ++ [TAddresses] /\ w_ctx w' = w_ctx w.
Proof.
  intros D cid acts w H Hi Hs. destruct (runs_status D cid acts w H) as [H1 H2 _ _].
  eexists. cbn [act_step]. destruct (login_starts_cases (w_ctx w)) as [->|(e & _ & [B|B])].
  - rewrite Hi. cbn [negb]. split; [reflexivity|]. split; reflexivity.
  - exfalso. destruct (H2 B) as (t & I & At). apply Hs in I. destruct t as [[]| |a []|?|?|?|?|?|?]; cbn in *; contradiction.
  - exfalso. destruct (H1 B) as (t & I & At & _). apply Hs in I. destruct t as [[]| |?|?|?|?|?|?|?]; cbn in *; contradiction.
Qed.

(** Success means signed in. *)
Theorem C57_success : forall D cid acts w, runs D cid acts w -> x_login (w_ctx w) = Success -> exists a i, signed_in_as w a i.
Proof. intros D cid acts w H. exact (st_success w (runs_status D cid acts w H)). Qed.

Definition asked_acts : list action := Eval vm_compute in
  acts_of (opening ++ On ALogin :: asks 0 (2 * sec) alice_text).
Definition asked_view := Eval vm_compute in view_of (sees asked_acts).
Example C57_case : (exists w, runs CD demo_cid asked_acts w /\ x_login (w_ctx w) = Busy /\ x_sign (w_ctx w) = Busy /\
    x_prepare (w_ctx w) = Success) /\
  (exists w, runs CD demo_cid alice_acts w /\ x_login (w_ctx w) = Success /\ (forall t, In t (w_tasks w) -> settled t)).
Proof.
  split.
  - run_of asked_acts asked_view w H.
    exists w. rewrite Hx. split; [exact H|]. split; [reflexivity|]. split; reflexivity.
  - run_of alice_acts alice_view w H.
    exists w. split; [exact H|]. split; [rewrite Hx; reflexivity|]. rewrite Hts. intros t [<-|[]]. exact I.
Qed.

(** ** C58  The wallet is asked to sign a message made for its account *)

Definition C58_claim (D : Deps) : Prop := forall cid acts w a m n, runs D cid acts w ->
  In (TSign a m n) (w_tasks w) -> prepared_for (w_history w) a m n.

(** The user switches accounts between prepareLogin and login. *)
Definition switch_acts : list action := Eval vm_compute in
  acts_of (opening ++
    [On APrepare; On (AContinue 0 (SAccounts [alice_text])); On (AContinue 0 SActor); On (AServe 0 (2 * sec) (bs "cert"));
     On (AContinue 0 SReply); On ALogin; On (AContinue 1 (SAccounts [bob_text]))]).
Definition switch_view := Eval vm_compute in view_of (sees switch_acts).
Theorem C58_switch_refuted : ~ C58_claim CD.
Proof.
  intros Hc.
  run_of switch_acts switch_view w H.
  destruct (Hc demo_cid _ w bob_text
    (match nth_error (w_tasks w) 1 with Some (TSign _ m _) => m | _ => [] end)
    (match nth_error (w_tasks w) 1 with Some (TSign _ _ n) => n | _ => [] end) H) as (e & I & P & _).
  - rewrite Hts. right. left. reflexivity.
  - rewrite Hh in I. destruct I as [<-|[<-|[<-|[]]]]; discriminate P.
Qed.

(** It is made by the canister for some account, *)
Theorem C58_made_partial : forall D cid acts w a m n, runs D cid acts w ->
  In (TSign a m n) (w_tasks w) -> exists x, prepared_for (w_history w) x m n.
Proof.
  intros D cid acts w a m n H I. destruct (runs_cinv _ _ _ _ H) as [_ HT _]. rewrite List.Forall_forall in HT.
  destruct (HT _ I) as [_ (e & x & Ie & P)]. exists x, e. auto.
Qed.

(** and for the one that is asked, as long as the wallet keeps its first account. *)
Theorem C58_account_partial : forall D cid acts w x a m n, runs D cid acts w ->
  (forall k s, In (AContinue k s) acts -> settles_for x s) ->
  In (TSign a m n) (w_tasks w) -> a = x /\ prepared_for (w_history w) x m n.
Proof.
  intros D cid acts w x a m n H Hx I. destruct (runs_for x D cid acts w H Hx) as [HT _]. rewrite List.Forall_forall in HT.
  exact (HT _ I).
Qed.

Example C58_case : exists w m n, runs CD demo_cid asked_acts w /\
  (forall k s, In (AContinue k s) asked_acts -> settles_for alice_text s) /\ In (TSign alice_text m n) (w_tasks w).
Proof.
  run_of asked_acts asked_view w H.
  eexists w, _, _. split; [exact H|]. split.
  - intros k s I. unfold asked_acts in I. cbn [In] in I.
    repeat (destruct I as [I|I]; [first [discriminate I|injection I as <- <-; vm_compute; reflexivity|injection I as <- <-; exact Logic.I]|]).
    destruct I.
  - rewrite Hts. left. reflexivity.
Qed.

Print Assumptions C49_issued.
Print Assumptions C49_key.
Print Assumptions C49_authenticated.
Print Assumptions C49_storage_trusted_refuted.
Print Assumptions C50_overlap_refuted.
Print Assumptions C50_guard_refuted.
Print Assumptions C50_refused_partial.
Print Assumptions C51_once_refuted.
Print Assumptions C51_refused_partial.
Print Assumptions C52_clear_refuted.
Print Assumptions C52_clear_partial.
Print Assumptions C53_agree.
Print Assumptions C54_reload.
Print Assumptions C55_secret.
Print Assumptions C56_signs_in.
Print Assumptions C57_busy.
Print Assumptions C57_accepts.
Print Assumptions C57_success.
Print Assumptions C58_switch_refuted.
Print Assumptions C58_made_partial.
Print Assumptions C58_account_partial.
Print Assumptions C60_expired_refuted.
