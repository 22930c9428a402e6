(** Properties C64 to C66: the texts of principals, mistyped targets, and the application
    canister that asks the provider for the address of its caller. *)
From Coq Require Import Strings.String ZifyBool ZifyN ZifyNat.
From Verif Require Import Base BaseLemmas Deps Encode Eth PrincipalText Settings Delegation Provider TestCanister
  SpecHash SpecTrace SpecTree SpecWire SpecInit SpecPrincipal SpecAuth PrincipalProofs PrincipalTypo SettingsProofs
  Concrete Scripts Demo PropertiesMappings PropertiesAuth.
Local Open Scope N_scope.

(** ** C64: what a text stands for *)

Theorem C64_parses : forall t p, principal_from_text t = Some p <-> denotes t p.
Proof. exact from_text_denotes. Qed.

Theorem C64_prints : forall p t, principal_text p t <-> principal_to_text p = t.
Proof.
  intros p t. split; [intros H; eapply text_fun; [apply text_model|assumption]|intros <-; apply text_model].
Qed.

Theorem C64_round : forall p t, (length p <= 29)%nat -> principal_to_text p = t ->
  principal_from_text t = Some p /\ forall q, denotes t q -> q = p.
Proof.
  intros p t Hp <-. assert (principal_from_text (principal_to_text p) = Some p) as E.
  { apply from_text_iff. split; [assumption|]. rewrite <- (map_id (principal_to_text p)) at 2.
    apply map_ext_in. intros c Hc. now apply text_chars in Hc. }
  split; [assumption|]. intros q Hq. apply from_text_denotes in Hq. congruence.
Qed.

(** Concrete: the example of the interface specification in mixed case, and texts that
    stand for nothing: without dashes, with a wrong checksum, with bits left over, too long. *)
Example C64_case : denotes (bs "Em77E-bvlzU-aq") [xab; xcd; x01] /\
  (forall t p, In t [bs "em77ebvlzuaq"; bs "em77e-bvlzu-aa"; bs "em77e-bvlzu-ar"; bs "em77e--bvlzu-aq"; bs " em77e-bvlzu-aq"; [];
     principal_to_text (repeat x01 30)] -> ~ denotes t p) /\
  denotes (principal_to_text (repeat x01 29)) (repeat x01 29).
Proof.
  split; [apply from_text_denotes; vm_compute; reflexivity|]. split.
  - intros t p Ht Hd. apply from_text_denotes in Hd. cbn [In] in Ht.
    repeat (destruct Ht as [<-|Ht]; [vm_compute in Hd; discriminate|]). destruct Ht.
  - apply from_text_denotes. vm_compute. reflexivity.
Qed.

(** ** C65: mistyped texts *)

Theorem C65_typo : forall s t p q, mistyped s t -> denotes s p -> denotes t q -> p = q.
Proof.
  intros s t p q (a & x & x' & y & y' & b & -> & ->) Hp Hq. apply from_text_denotes, from_text_iff in Hp as [Lp Ep].
  apply from_text_denotes, from_text_iff in Hq as [Lq Eq]. apply (typo_model p q (length a)); [assumption..|].
  rewrite <- Ep, <- Eq. apply typo_near.
Qed.

(** An argument with other targets. *)
Definition with_targets (i : SettingsInput) (l : list bytes) : SettingsInput :=
  mkInput (in_domain i) (in_uri i) (in_salt i) (in_chain_id i) (in_scheme i) (in_statement i)
    (in_sign_in_expires_in i) (in_session_expires_in i) (Some l) (in_features i).

Lemma init_typo D cid i l1 l2 s t x : mistyped s t -> siwe_init D cid (with_targets i (l1 ++ s :: l2)) = Done x ->
  siwe_init D cid (with_targets i (l1 ++ t :: l2)) = Done x \/ exists w, siwe_init D cid (with_targets i (l1 ++ t :: l2)) = Trap w.
Proof.
  intros Hm H.
  assert (forall l, parse_principals (l1 ++ l) = (olet ps := parse_principals l1 in olet qs := parse_principals l in Done (ps ++ qs))) as Happ.
  { clear. induction l1 as [|u l1 IH]; intros l; cbn [app parse_principals obind].
    - destruct (parse_principals l); reflexivity.
    - destruct (principal_from_text u); [|reflexivity]. rewrite IH. destruct (parse_principals l1); [|reflexivity].
      cbn [obind]. destruct (parse_principals l); reflexivity. }
  unfold siwe_init, with_targets in *. cbn [in_domain in_uri in_salt in_chain_id in_scheme in_statement in_sign_in_expires_in
    in_session_expires_in in_targets in_features] in *. rewrite Happ in *. cbn [parse_principals] in *.
  destruct (parse_principals l1) as [ps|]; cbn [obind] in *; [|discriminate].
  destruct (principal_from_text s) as [p|] eqn:Es; cbn [obind] in *; [|discriminate].
  destruct (principal_from_text t) as [q|] eqn:Et; cbn [obind].
  - left. rewrite <- (C65_typo s t p q Hm); [exact H|now apply from_text_denotes..].
  - right. eexists. reflexivity.
Qed.

(** A slip in one of the targets cannot change the configuration unnoticed: the
    installation or upgrade fails, or the canister becomes the one that was meant. *)
Theorem C65_install : forall D cid now o i l1 l2 s t st c, mistyped s t -> o = Install \/ o = Upgrade ->
  step D cid now (o (with_targets i (l1 ++ s :: l2))) st = (Some c, RDone) ->
  step D cid now (o (with_targets i (l1 ++ t :: l2))) st = (Some c, RDone) \/
  exists w, step D cid now (o (with_targets i (l1 ++ t :: l2))) st = (st, RTrap w).
Proof.
  intros D cid now o i l1 l2 s t st c Hm [-> | ->] H.
  - cbn [step] in *. unfold do_install in *.
    destruct (siwe_init D cid (with_targets i (l1 ++ s :: l2))) as [x|] eqn:E; [|discriminate].
    destruct (init_typo _ _ _ _ _ _ _ _ Hm E) as [->|[w ->]]; [now left|]. right. eexists. reflexivity.
  - destruct st as [c0|]; [|discriminate]. cbn [step] in *. unfold do_upgrade in *.
    destruct (siwe_init D cid (with_targets i (l1 ++ s :: l2))) as [x|] eqn:E; [|discriminate].
    destruct (init_typo _ _ _ _ _ _ _ _ Hm E) as [->|[w ->]]; [now left|]. right. eexists. reflexivity.
Qed.

(** Concrete: swapping two characters or mistyping one makes the installation fail;
    capital letters do not matter. *)
Definition two_targets : SettingsInput :=
  mkInput (bs "a.com") (bs "https://a.com") (bs "s") None None None None None (Some [bs "qaa6y-5yaaa-aaaaa-aaafa-cai"; bs "3o2kh-jqm"]) None.
Example C65_case :
  with_targets two_targets ([bs "qaa6y-5yaaa-aaaaa-aaafa-cai"] ++ bs "3o2kh-jqm" :: []) = two_targets /\
  mistyped (bs "3o2kh-jqm") (bs "3o2hk-jqm") /\ mistyped (bs "3o2kh-jqm") (bs "3o2kh-jqn") /\ mistyped (bs "3o2kh-jqm") (bs "3o2KH-jqm") /\
  (exists c, step CD demo_cid 5 (Install two_targets) None = (Some c, RDone) /\
     step CD demo_cid 5 (Install (with_targets two_targets [bs "qaa6y-5yaaa-aaaaa-aaafa-cai"; bs "3o2KH-jqm"])) None = (Some c, RDone)) /\
  (exists w, step CD demo_cid 5 (Install (with_targets two_targets [bs "qaa6y-5yaaa-aaaaa-aaafa-cai"; bs "3o2hk-jqm"])) None = (None, RTrap w)) /\
  (exists w, step CD demo_cid 5 (Install (with_targets two_targets [bs "qaa6y-5yaaa-aaaaa-aaafa-cai"; bs "3o2kh-jqn"])) None = (None, RTrap w)).
Proof.
  split; [reflexivity|]. split; [exists (bs "3o2"), x6b, x68, x68, x6b, (bs "-jqm"); split; reflexivity|].
  split; [exists (bs "3o2kh-j"), x71, x6d, x71, x6e, []; split; reflexivity|].
  split; [exists (bs "3o2"), x6b, x68, x4b, x48, (bs "-jqm"); split; reflexivity|].
  split; [eexists; split; vm_compute; reflexivity|]. split; eexists; vm_compute; reflexivity.
Qed.

(** ** C66: the application canister *)

(** A call to the provider either fails or brings back what get_address answers. *)
Definition brings (D : Deps) (cid : bytes) (now : N) (c : canister) (call : bytes -> bytes -> option (result bytes bytes)) : Prop :=
  forall p r, call cid p = Some r -> snd (step D cid now (GetAddress p) (Some c)) = Provider.RText r.

(** Whatever pair whoami gives to a caller that was let in with a delegation: the first
    part is the text of the caller's principal, the second the address of the wallet that
    approved the session key. *)
Theorem C66_pair : forall D cid tr tr' c0 c certificate now target pk d now' call text e t y, deps_ok D -> (length cid <= 29)%nat ->
  exec D cid tr (Some c0) -> replica_accepts D cid (c_certified c0) certificate now target pk d ->
  exec D cid (tr ++ tr') (Some c) ->
  (forall e j, In e (tr ++ tr') -> boot e j -> (length (in_salt j) < 256)%nat) ->
  denotes text cid -> dapp_init text = Done e -> brings D cid now' c call ->
  whoami call (principal_of D pk) e = Done (Ok (t, y)) ->
  principal_text (principal_of D pk) t /\
  ((exists sk exp pk' i ts, a_login tr y sk exp pk' i /\ targets_of i ts /\ sd_delegation d = mkDelegation sk exp ts) \/
   auth_collision D cid tr certificate pk d \/ address_collision D (tr ++ tr') pk).
Proof.
  intros D cid tr tr' c0 c certificate now target pk d now' call text e t y HD Lc H0 Ha H Hsalt Ht He Hb Hw.
  apply from_text_denotes in Ht. unfold dapp_init in He. rewrite Ht in He. injection He as <-.
  unfold whoami in Hw. destruct (call cid (principal_of D pk)) as [[y'|]|] eqn:E; [|discriminate..]. injection Hw as <- <-.
  split; [apply text_model|]. apply Hb in E.
  apply (C63_caller D cid tr tr' c0 c certificate now target pk d now' y' HD Lc H0 Ha H Hsalt).
  cbn [step] in *. unfold get_caller_address. destruct (disable_principal_to_eth (c_flags c)) eqn:F; [|exact E].
  unfold get_address in E. rewrite F in E. discriminate.
Qed.

(** After a login, with the mapping enabled, whoami answers with the two. *)
Theorem C66_answers : forall D cid tr e c sg x sk n exp pk i since call text a, deps_ok D ->
  exec D cid (tr ++ [e]) (Some c) -> logged_in e sg x sk n exp pk -> since_boot tr i since ->
  wants_no_address i = false -> wants_no_principal i = false ->
  denotes text cid -> dapp_init text = Done a ->
  (exists now, brings D cid now c call) -> call cid (principal_of D pk) <> None ->
  exists t, principal_text (principal_of D pk) t /\ whoami call (principal_of D pk) a = Done (Ok (t, x)).
Proof.
  intros D cid tr e c sg x sk n exp pk i since call text a HD H Hl Hs Hna Hnp Ht Ha [now Hb] Hc.
  apply from_text_denotes in Ht. unfold dapp_init in Ha. rewrite Ht in Ha. injection Ha as <-.
  destruct (C39_recorded D cid tr e _ sg x sk n exp pk i since HD H Hl Hs Hna Hnp) as (Hx & _).
  exists (principal_to_text (principal_of D pk)). split; [apply text_model|]. unfold whoami.
  destruct (call cid (principal_of D pk)) as [r|] eqn:E; [|congruence]. apply Hb in E. rewrite (Hx now) in E. injection E as <-. reflexivity.
Qed.

(** The application can be installed with the texts of principals and with nothing else. *)
Theorem C66_installed : forall text,
  (forall p, denotes text p -> dapp_init text = Done (Some p)) /\
  ((forall p, ~ denotes text p) -> exists w, dapp_init text = Trap w).
Proof.
  intros text. split.
  - intros p H. apply from_text_denotes in H. unfold dapp_init. now rewrite H.
  - intros N. unfold dapp_init. destruct (principal_from_text text) as [p|] eqn:E; [|eauto]. apply from_text_denotes in E. now apply N in E.
Qed.

(** It asks the provider it was installed with about its caller and nobody else, and passes
    the answer on; without one it says that there is none. *)
Theorem C66_asks : forall call text p a caller, denotes text p -> dapp_init text = Done a ->
  exists r, whoami call caller a = Done r /\
    (forall y, call p caller = Some (Ok y) -> exists t, principal_text caller t /\ r = Ok (t, y)) /\
    (forall e, call p caller = Some (Err e) -> r = Err e) /\
    (call p caller = None -> r = Err (bs "Failed to get the caller address")).
Proof.
  intros call text p a caller Ht Ha. apply from_text_denotes in Ht. unfold dapp_init in Ha. rewrite Ht in Ha. injection Ha as <-.
  eexists. split; [reflexivity|]. repeat split.
  - intros y ->. exists (principal_to_text caller). split; [apply text_model|reflexivity].
  - intros e ->. reflexivity.
  - intros ->. reflexivity.
Qed.

(** The reference to the provider is gone after an upgrade of the application. *)
Theorem C66_upgraded : forall call caller d, exists w, whoami call caller (dapp_upgrade d) = Trap w.
Proof. intros. eexists. reflexivity. Qed.

Example C66_installed_case : denotes (bs "qaa6y-5yaaa-aaaaa-aaafa-cai") demo_cid /\ (forall p, ~ denotes (bs "qaa6y-5yaaa-aaaaa-aaafa-caj") p).
Proof.
  split; [apply from_text_denotes; vm_compute; reflexivity|]. intros p H. apply from_text_denotes in H. vm_compute in H. discriminate H.
Qed.

(** Concrete: Alice after the whole history of the demonstration. *)
Definition ask (D : Deps) (cid : bytes) (now : N) (s : state) (to p : bytes) : option (result bytes bytes) :=
  if bytes_eqb to cid then match snd (step D cid now (GetAddress p) s) with Provider.RText r => Some r | _ => None end else None.

Lemma ask_brings D cid now c : brings D cid now c (ask D cid now (Some c)).
Proof.
  intros p r H. unfold ask in H. rewrite bytes_eqb_refl in H. destruct (snd (step D cid now (GetAddress p) (Some c))); congruence.
Qed.

Example C66_case : exists c0 c pk d y e t, exec CD demo_cid (take 7 demo_tr) (Some c0) /\
  replica_accepts CD demo_cid (c_certified c0) (bs "cert") (20 * sec) (bs "any") pk d /\
  exec CD demo_cid (take 7 demo_tr ++ drop 7 demo_tr) (Some c) /\
  (forall e j, In e (take 7 demo_tr ++ drop 7 demo_tr) -> boot e j -> (length (in_salt j) < 256)%nat) /\
  denotes (bs "qaa6y-5yaaa-aaaaa-aaafa-cai") demo_cid /\ dapp_init (bs "qaa6y-5yaaa-aaaaa-aaafa-cai") = Done e /\
  brings CD demo_cid (30 * sec) c (ask CD demo_cid (30 * sec) (Some c)) /\
  whoami (ask CD demo_cid (30 * sec) (Some c)) (principal_of CD pk) e = Done (Ok (t, y)).
Proof.
  destruct C63_case as (c0 & c & pk & d & y & H0 & Ha & H & Hs & Hq).
  exists c0, c, pk, d, y, (Some demo_cid), (principal_to_text (principal_of CD pk)).
  split; [exact H0|]. split; [exact Ha|]. split; [exact H|]. split; [exact Hs|].
  split; [apply from_text_denotes; vm_compute; reflexivity|]. split; [vm_compute; reflexivity|]. split; [apply ask_brings|].
  unfold whoami, ask. rewrite bytes_eqb_refl. cbn [step] in Hq |- *. unfold get_caller_address in Hq.
  destruct (disable_principal_to_eth (c_flags c)); [discriminate|].
  rewrite Hq. reflexivity.
Qed.

Example C66_answers_case : exists c sg n exp pk i since a, exec CD demo_cid (take 12 demo_tr ++ [demo_at 12]) (Some c) /\
  logged_in (demo_at 12) sg (wallet_address CD alice) key2 n exp pk /\ since_boot (take 12 demo_tr) i since /\
  wants_no_address i = false /\ wants_no_principal i = false /\
  denotes (bs "qaa6y-5yaaa-aaaaa-aaafa-cai") demo_cid /\ dapp_init (bs "qaa6y-5yaaa-aaaaa-aaafa-cai") = Done a /\
  brings CD demo_cid (30 * sec) c (ask CD demo_cid (30 * sec) (Some c)) /\
  ask CD demo_cid (30 * sec) (Some c) demo_cid (principal_of CD pk) <> None.
Proof.
  destruct demo_exec as [c H]. change demo_tr with (take 12 demo_tr ++ [demo_at 12]) in H.
  assert (exists n exp pk, logged_in (demo_at 12) (login_sig (demo_at 12)) (wallet_address CD alice) key2 n exp pk) as (n & exp & pk & Hl).
  { do 3 eexists. split; vm_compute; reflexivity. }
  destruct (C39_recorded CD demo_cid (take 12 demo_tr) (demo_at 12) _ _ _ _ _ _ _ demo_input _ CD_ok H Hl
              (demo_since 12 ltac:(lia)) eq_refl eq_refl) as (Hx & _).
  do 8 eexists. split; [exact H|]. split; [exact Hl|]. split; [exact (demo_since 12 ltac:(lia))|]. split; [reflexivity|]. split; [reflexivity|].
  split; [apply from_text_denotes; vm_compute; reflexivity|]. split; [vm_compute; reflexivity|]. split; [apply ask_brings|].
  unfold ask. rewrite bytes_eqb_refl, (Hx (30 * sec)). discriminate.
Qed.

Print Assumptions C64_parses.
Print Assumptions C64_prints.
Print Assumptions C64_round.
Print Assumptions C65_typo.
Print Assumptions C65_install.
Print Assumptions C66_pair.
Print Assumptions C66_answers.
Print Assumptions C66_installed.
Print Assumptions C66_asks.
Print Assumptions C66_upgraded.
