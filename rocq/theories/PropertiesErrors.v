(** The errors the browser client shows (packages/ic_siwe_js/src/index.ts). *)
From Coq Require Import Strings.String.
From Verif Require Import Base BaseLemmas Deps Delegation Login Provider SpecTrace Concrete Demo
  Client SpecClient SpecErrors ClientProofs ClientSeq ClientStatus ClientErrors ClientDemo PropertiesClient.
Local Open Scope N_scope.

(** ** C110  Every error has its reason *)

(** Whatever error a caller catches or a component shows, something happened that
    explains just this text. *)
Theorem C110_reason : forall D cid acts w e, runs D cid acts w -> rejected_with w e \/ shows_error w e ->
  reason acts (w_own w) e.
Proof.
  intros D cid acts w e H He. destruct (runs_why D cid acts w H) as [Ht (H1 & H2 & H3)].
  rewrite List.Forall_forall in Ht.
  destruct He as [[I|I]|[E|[E|E]]]; [exact (Ht _ I)|exact (Ht _ I)|auto|auto|auto].
Qed.

(** A login that fails leaves its error in the store at once, drops the prepared message,
    and changes neither who is signed in nor what is stored. *)
Theorem C110_told : forall D cid acts a w w' k e, runs D cid acts w -> act_step D cid a w = Some w' ->
  nth_error (w_tasks w') k = Some (TThrown e) -> nth_error (w_tasks w) k <> Some (TThrown e) ->
  x_login (w_ctx w') = Failed /\ x_login_error (w_ctx w') = Some e /\ x_message (w_ctx w') = None /\
  (forall x i, signed_in w x i -> signed_in w' x i) /\ (signed_out w -> signed_out w') /\ w_storage w' = w_storage w.
Proof.
  intros D cid acts a w w' k e H Hs E Hn. apply act_step_view in Hs.
  destruct (step_thrown D cid a w w' k e Hs E Hn) as (y & Hy & (S1 & S2 & S3) & St).
  unfold signed_in, signed_out. rewrite Hy. cbn. rewrite S1, S2, S3. auto 10.
Qed.

(** What the wallet and the canister say reaches the caller unchanged. *)
Definition broken (e : bytes) (w : world) : Prop := In (TThrown e) (w_tasks w) /\ x_login_error (w_ctx w) = Some e.

Definition rejecting_acts : list action := Eval vm_compute in
  acts_of (opening ++ On ALogin :: asks 0 (2 * sec) alice_text ++ [On (AContinue 0 (SThrow (bs "User rejected the request.")))]).
Definition rejecting_view := Eval vm_compute in view_of (sees rejecting_acts).
Definition unconnected_acts : list action := Eval vm_compute in
  acts_of (opening ++ [On ALogin; On (AContinue 0 (SAccounts []))]).
Definition unconnected_view := Eval vm_compute in view_of (sees unconnected_acts).
Definition unsigned_acts : list action := Eval vm_compute in
  acts_of (opening ++ On ALogin :: asks 0 (2 * sec) alice_text ++ [On (AContinue 0 (SSigned [] pair1))]).
Definition unsigned_view := Eval vm_compute in view_of (sees unsigned_acts).
(** Bob signs the message for Alice. *)
Definition wrong_acts : list action := Eval vm_compute in
  acts_of (opening ++ On ALogin :: asks 0 (2 * sec) alice_text ++ [Signs 0 bob pair1; On (AContinue 0 SActor);
    On (AServe 0 (2 * sec) (bs "cert")); On (AContinue 0 SReply)]).
Definition wrong_view := Eval vm_compute in view_of (sees wrong_acts).
(** Two calls of login at a time; the first one goes through. *)
Definition twice_acts : list action := Eval vm_compute in
  acts_of (opening ++ On ALogin :: asks 0 (2 * sec) alice_text ++ [On ALogin; Signs 0 alice pair1] ++
    logs_in 0 (2 * sec) ++ [On (AContinue 0 SReply)]).
Definition twice_view := Eval vm_compute in view_of (sees twice_acts).
(** login during prepareLogin. *)
Definition hasty_acts : list action := Eval vm_compute in
  acts_of (opening ++ [On APrepare; On (AContinue 0 (SAccounts [alice_text])); On ALogin]).
Definition hasty_view := Eval vm_compute in view_of (sees hasty_acts).
(** A canister that is not installed. *)
Definition deserted_acts : list action := Eval vm_compute in
  acts_of (On AManager :: [On APrepare; On (AContinue 0 (SAccounts [alice_text])); On (AContinue 0 SActor); On (AServe 0 sec (bs "cert"));
    On (AContinue 0 SReply)]).
Definition deserted_view := Eval vm_compute in view_of (sees deserted_acts).

Ltac broken_run acts view :=
  let w := fresh "w" in let H := fresh "H" in run_of acts view w H; exists w; (split; [exact H|]); unfold broken;
  repeat match goal with E : _ w = _ |- _ => rewrite E; clear E end; cbn [In x_login_error]; split; [auto|reflexivity].

Example C110_case :
  (exists w, runs CD demo_cid rejecting_acts w /\ broken (bs "User rejected the request.") w) /\
  (exists w, runs CD demo_cid unconnected_acts w /\
     broken (bs "No Ethereum address available. Call login after the user has connected their wallet.") w) /\
  (exists w, runs CD demo_cid unsigned_acts w /\ broken (bs "signMessage returned no data.") w) /\
  (exists w, runs CD demo_cid hasty_acts w /\ broken (bs "Don't call login while prepareLogin is in progress") w) /\
  (exists w, runs CD demo_cid twice_acts w /\ broken (bs "Don't call login while login is in progress") w) /\
  (exists w, runs CD demo_cid wrong_acts w /\ broken (bs "Recovered address does not match") w) /\
  (exists w, runs CD demo_cid deserted_acts w /\ rejected_with w (bs "Call failed: no code installed")).
Proof.
  split; [broken_run rejecting_acts rejecting_view|]. split; [broken_run unconnected_acts unconnected_view|].
  split; [broken_run unsigned_acts unsigned_view|]. split; [broken_run hasty_acts hasty_view|].
  split; [broken_run twice_acts twice_view|]. split; [broken_run wrong_acts wrong_view|].
  run_of deserted_acts deserted_view w H. exists w. split; [exact H|]. right. rewrite Hts. left. reflexivity.
Qed.

(** ** C111  A status is "error" exactly when there is an error to show *)

(** "error" always comes with an error. *)
Theorem C111_failed : forall D cid acts w, runs D cid acts w ->
  (x_login (w_ctx w) = Failed -> exists e, x_login_error (w_ctx w) = Some e) /\
  (x_prepare (w_ctx w) = Failed -> exists e, x_prepare_error (w_ctx w) = Some e).
Proof. intros D cid acts w H. destruct (runs_failed D cid acts w H). auto. Qed.

(** The full claim. *)
Definition C111_claim (D : Deps) : Prop := forall cid acts w, runs D cid acts w ->
  (x_login_error (w_ctx w) <> None <-> x_login (w_ctx w) = Failed) /\
  (x_prepare_error (w_ctx w) <> None <-> x_prepare (w_ctx w) = Failed) /\
  (x_sign_error (w_ctx w) <> None <-> x_sign (w_ctx w) = Failed).

(** The user presses the button twice.  The second call is turned away, the first goes
    through: loginStatus is "success", and loginError says that login was called at the
    wrong time. *)
Theorem C111_refuted : ~ C111_claim CD.
Proof.
  intros C. run_of twice_acts twice_view w H. destruct (C _ _ _ H) as ((C1 & _) & _).
  rewrite Hx in C1. cbn in C1. assert (Success = Failed) as E by (apply C1; discriminate). discriminate E.
Qed.

(** Even without overlapping calls: clear() takes signMessageError away but leaves
    signMessageStatus. *)
Definition cleared_acts : list action := Eval vm_compute in rejecting_acts ++ [AClear].
Definition cleared_view := Eval vm_compute in view_of (sees cleared_acts).
Definition C111_sequential_claim (D : Deps) : Prop := forall cid acts w, sequential D cid acts w ->
  x_sign (w_ctx w) = Failed -> x_sign_error (w_ctx w) <> None.
Theorem C111_cleared_refuted : ~ C111_sequential_claim CD.
Proof.
  intros C. destruct (perform_seq_seen CD demo_cid cleared_acts cleared_view) as (w & H & E); [vm_compute; reflexivity|].
  unfold cleared_view in E. seen_parts E. apply (C _ _ _ H); rewrite Hx; reflexivity.
Qed.

(** When no call is made before the earlier ones have settled, an error is shown only
    together with the status "error". *)
Theorem C111_sequential_partial : forall D cid acts w, sequential D cid acts w ->
  (x_login_error (w_ctx w) <> None <-> x_login (w_ctx w) = Failed) /\
  (x_prepare_error (w_ctx w) <> None <-> x_prepare (w_ctx w) = Failed) /\
  (x_sign_error (w_ctx w) <> None -> x_sign (w_ctx w) = Failed).
Proof.
  intros D cid acts w H. destruct (fit_ctx w (sequential_fit D cid acts w H)) as (F1 & F2 & F3).
  destruct (C111_failed D cid acts w (sequential_runs _ _ _ _ H)) as [G1 G2].
  split; [|split; [|exact F3]]; (split; [assumption|]).
  - intros E. destruct (G1 E) as [e ->]. discriminate.
  - intros E. destruct (G2 E) as [e ->]. discriminate.
Qed.

Example C111_case : exists w, sequential CD demo_cid rejecting_acts w /\
  x_login (w_ctx w) = Failed /\ x_sign (w_ctx w) = Failed /\ x_prepare (w_ctx w) = Success /\
  x_sign_error (w_ctx w) = Some (bs "User rejected the request.").
Proof.
  destruct (perform_seq_seen CD demo_cid rejecting_acts rejecting_view) as (w & H & E); [vm_compute; reflexivity|].
  unfold rejecting_view in E. seen_parts E. exists w. split; [exact H|]. rewrite Hx. repeat split.
Qed.

Print Assumptions C110_reason.
Print Assumptions C110_told.
Print Assumptions C111_failed.
Print Assumptions C111_refuted.
Print Assumptions C111_cleared_refuted.
Print Assumptions C111_sequential_partial.
