(** C77-C81: the canister as the network sees it, with arguments and replies as bytes. *)
From Coq Require Import Strings.String.
From Verif Require Import Base BaseLemmas Deps Hex Eth Settings Siwe Delegation Login Provider SpecHash SpecEth SpecSiwe SpecTrace
  SettingsProofs SiweProofs ProviderProofs TraceProofs LoginTheory PropertiesLogin Concrete Scripts Demo
  Candid SpecCandid CandidBase CandidHeader CandidProofs CandidMessages Interface SpecInterface InterfaceProofs InterfaceReplies.
Local Open Scope N_scope.

(** ** Histories of messages and histories of calls *)

(** Texts are UTF-8, lengths have 64 bits. *)
Definition op_fine (o : op) : Prop :=
  match o with
  | Install i | Upgrade i => input_fine i
  | PrepareLogin a | GetPrincipal a => text_fine a
  | SiweLogin sg a sk n => text_fine sg /\ text_fine a /\ blen sk < two64 /\ text_fine n
  | GetDelegation _ a sk _ => text_fine a /\ blen sk < two64
  | GetAddress p => blen p < two64
  | RawRand _ | GetCallerAddress _ => True
  end.

Lemma small64 n : n <= u64_max -> n < two64.
Proof. unfold u64_max, two64. lia. Qed.

Lemma given_nat32 o : given as_nat32 (Some (COpt (CPrim PNat32), uopt UNat o)) = o.
Proof. now destruct o. Qed.

Lemma op_has_message q o : op_fine o -> op_wf o -> (6 <= q)%nat -> exists c, call_op q c = Some o /\
  match c with RandReply (Some seed) => length seed = 32%nat | _ => True end.
Proof.
  intros Hf Hw Hq. destruct o as [i|i|seed|a|sg a sk n|cert a sk e|p|p|a]; cbn [op_fine op_wf] in *.
  - exists (Call MInit [] None (settings_message PNat32 i)). split; [|exact I]. cbn [call_op].
    destruct (config_arrives q _ _ _ _ _ [] None (settings_carries q PNat32 i (or_intror eq_refl) Hf Hq)) as [-> _].
    rewrite configuration_is, given_nat32. now destruct i.
  - exists (Call MPostUpgrade [] None (settings_message PNat32 i)). split; [|exact I]. cbn [call_op].
    destruct (config_arrives q _ _ _ _ _ [] None (settings_carries q PNat32 i (or_intror eq_refl) Hf Hq)) as [_ ->].
    rewrite configuration_is, given_nat32. now destruct i.
  - exists (RandReply seed). split; [reflexivity|]. now destruct seed.
  - exists (Call MPrepareLogin [] None (js_prepare_login a)). split; [|exact I].
    apply request_arrives; [exact I|discriminate|discriminate|]. apply js_prepare_carries; [exact Hf|lia].
  - exists (Call MLogin [] None (js_login sg a sk n)). split; [|exact I]. destruct Hf as (H1 & H2 & H3 & H4).
    apply request_arrives; [exact I|discriminate|discriminate|]. apply js_login_carries; auto; lia.
  - exists (Call MGetDelegation [] cert (js_get_delegation a sk e)). split; [|exact I]. destruct Hf as (H1 & H2).
    apply request_arrives; [reflexivity|discriminate|discriminate|]. apply js_get_delegation_carries; auto; [now apply small64|lia].
  - exists (Call MGetAddress [] None (put_header (mkHeader [EVec (Prim PNat8)] [Var 0]) ++ put_bytes p)). split; [|exact I].
    apply request_arrives; [exact I|discriminate|discriminate|]. eexists (mkHeader [EVec (Prim PNat8)] [Var 0]), _, (put_bytes p).
    split; [apply put_header_w; header_fine|]. split; [constructor; [stand|constructor]|].
    split; [|split; [constructor; [cbn; lia|constructor]|reflexivity]]. apply enc_args_1. now apply enc_put_blob.
  - exists (Call MGetCallerAddress p None (put_header (mkHeader [] []))). split; [|exact I].
    apply request_arrives; [reflexivity|discriminate|discriminate|]. eexists (mkHeader [] []), _, [].
    split; [apply put_header_w; header_fine|]. split; [constructor|]. split; [constructor|]. split; [constructor|]. now rewrite app_nil_r.
  - exists (Call MGetPrincipal [] None (js_prepare_login a)). split; [|exact I].
    apply request_arrives; [exact I|discriminate|discriminate|]. apply (js_prepare_carries q a Hf). lia.
Qed.

(** Any bytes at all: either they are a call with arguments in range whose texts are UTF-8,
    and the canister does what that call does; or the canister traps and nothing changes. *)
Theorem C80_any_bytes : forall D cid q now m caller cert msg s,
  (exists o, is_call o m caller cert /\ op_wf o /\ Forall utf8_text (op_texts o) /\
     call_step D cid q now (Call m caller cert msg) s = step D cid now o s) \/
  (exists w, call_step D cid q now (Call m caller cert msg) s = (s, RTrap w)).
Proof.
  intros D cid q now m caller cert msg s. unfold call_step, call_op.
  destruct (op_of q m caller cert msg) as [o|] eqn:E; [left|right; eauto].
  exists o. apply op_of_sound in E as (H1 & H2 & H3). auto.
Qed.

Lemma exec_ops_wf D cid tr s : exec D cid tr s -> Forall (fun e => op_wf (ev_op e)) tr.
Proof. induction 1; [constructor|]. apply List.Forall_app. split; [assumption|]. now repeat constructor. Qed.

(** So everything proved of histories of calls holds of histories of messages, *)
Theorem C80_histories : forall D cid q tr s, calls D cid q tr s -> exec D cid (omap (decoded q) tr) s.
Proof. exact calls_exec. Qed.

(** and every history of calls is one of messages. *)
Definition seed_fine (c : call) : Prop := match c with RandReply (Some seed) => length seed = 32%nat | _ => True end.
Lemma exec_calls D cid q tr s (P : call -> Prop) : exec D cid tr s ->
  Forall (fun e => exists c, call_op q c = Some (ev_op e) /\ seed_fine c /\ P c) tr ->
  exists msgs, calls D cid q msgs s /\ omap (decoded q) msgs = tr /\ map ce_time msgs = map ev_time tr /\
    map ce_reply msgs = map ev_reply tr /\ Forall (fun e => P (ce_call e)) msgs.
Proof.
  intros H. induction H as [|tr s now o s' r H IH Ht Hn Ho Hs]; intros Hf.
  - exists []. repeat split; constructor.
  - apply List.Forall_app in Hf as [Hf Hfo]. inversion Hfo as [|? ? (c & Ec & Hc & Pc) _]; subst. cbn [ev_op] in Ec.
    destruct (IH Hf) as (msgs & Hm & Ed & Et & Er & HP).
    exists (msgs ++ [mkCallEvent now c r]). split; [|split; [|split; [|split]]].
    + econstructor; [exact Hm| |exact Hn|exact Hc|].
      * apply List.Forall_forall. intros e He. assert (In (ce_time e) (map ce_time msgs)) as Hin by (now apply in_map).
        rewrite Et in Hin. apply in_map_iff in Hin as (e' & <- & Hin). rewrite List.Forall_forall in Ht. now apply Ht.
      * unfold call_step. now rewrite Ec.
    + rewrite omap_app, Ed. f_equal. unfold decoded, omap, list_omap. cbn [ce_call]. now rewrite Ec.
    + rewrite !map_app, Et. reflexivity.
    + rewrite !map_app, Er. reflexivity.
    + apply List.Forall_app. split; [exact HP|]. constructor; [exact Pc|constructor].
Qed.
Theorem C80_every_history : forall D cid q tr s, (6 <= q)%nat ->
  exec D cid tr s -> Forall (fun e => op_fine (ev_op e)) tr ->
  exists msgs, calls D cid q msgs s /\ omap (decoded q) msgs = tr /\
    map ce_time msgs = map ev_time tr /\ map ce_reply msgs = map ev_reply tr.
Proof.
  intros D cid q tr s Hq H Hf. destruct (exec_calls D cid q tr s (fun _ => True) H) as (msgs & H1 & H2 & H3 & H4 & _); [|eauto 6].
  pose proof (exec_ops_wf _ _ _ _ H) as Hw. rewrite List.Forall_forall in *. intros e He.
  destruct (op_has_message q (ev_op e) (Hf e He) (Hw e He) Hq) as (c & Ec & Hc). eauto.
Qed.

(** What does not start with "DIDL" is refused. *)
Theorem C80_magic : forall D cid q now m caller cert msg s,
  (forall r, msg <> bs "DIDL" ++ r) ->
  exists w, call_step D cid q now (Call m caller cert msg) s = (s, RTrap w).
Proof.
  intros D cid q now m caller cert msg s H. unfold call_step, call_op, op_of.
  assert (decode_args q (arg_types m) msg = None) as E.
  { unfold decode_args, read_header. destruct (strip_prefix MAGIC msg) as [r|] eqn:E; [|reflexivity].
    apply strip_prefix_spec in E. now destruct (H r). }
  destruct m; rewrite E; eauto.
Qed.

(** Nobody logs in by sending bytes without a signature of the address over a message that
    the canister made. *)
Theorem C80_authenticated : forall D cid q tr now c s sg x sk n exp pk, deps_ok D ->
  calls D cid q (tr ++ [mkCallEvent now c (RLogin (Ok (mkDetails exp pk)))]) s ->
  call_op q c = Some (SiweLogin sg x sk n) ->
  exists e x' n' text b b', In e tr /\ call_op q (ce_call e) = Some (PrepareLogin x') /\
    ce_reply e = RPrepare (Ok (text, n')) /\ recovers D text sg x /\ ~ bad_key D sk /\ ce_time e <= now /\
    address_text D x b /\ address_text D x' b' /\
    ((x' = x /\ n' = n) \/ collision (d_sha256 D) (message_key_input b' n') (message_key_input b n)).
Proof.
  intros D cid q tr now c s sg x sk n exp pk HD H Ec. apply calls_exec in H. rewrite omap_app in H.
  cbn [omap list_omap] in H. unfold decoded at 2 in H. cbn [ce_call ce_time ce_reply] in H. rewrite Ec in H.
  destruct (C27_authenticated D cid _ _ s sg x sk n exp pk HD H) as
    (i & since & bef & p & aft & x' & n' & text & b & b' & Hs & -> & Hp & Hr & Hk & Ht & _ & Ha & Ha' & Hc); [split; reflexivity|].
  apply since_boot_sub in Hs as [l Hl].
  assert (In p (omap (decoded q) tr)) as Hin.
  { rewrite Hl. apply in_app_iff. right. apply in_app_iff. right. left. reflexivity. }
  apply elem_of_list_In, elem_of_list_omap in Hin as (e & He & Ed). apply elem_of_list_In in He.
  unfold decoded in Ed. destruct (call_op q (ce_call e)) as [o|] eqn:Eo; [|discriminate]. apply (inj Some) in Ed as <-.
  destruct Hp as [Hp1 Hp2]. cbn [ev_op ev_reply ev_time] in *. subst o.
  exists e, x', n', text, b, b'. auto 12.
Qed.

(** Concrete: the demonstration history, as messages. *)
Lemma ascii_utf8 b : forallb (fun c => nb c <? 128) b = true -> utf8_text b.
Proof.
  induction b as [|c b IH]; intros H; [constructor|]. cbn [forallb] in H. apply Bool.andb_true_iff in H as [H1 H2].
  change (c :: b) with ([c] ++ b). rewrite <- (ch_nb c). apply (utf8_cons (nb c)); [|now apply IH].
  apply utf8_1. now apply N.ltb_lt.
Qed.
Lemma ascii_fine b : forallb (fun c => nb c <? 128) b = true -> (blen b <? 1000) = true -> text_fine b.
Proof. intros H1 H2. split; [now apply ascii_utf8|]. apply N.ltb_lt in H2. unfold two64. lia. Qed.
Ltac plain_fine := apply ascii_fine; vm_compute; reflexivity.

Example C80_case : exists msgs c, calls CD demo_cid 6 msgs (Some c) /\ omap (decoded 6) msgs = demo_tr.
Proof.
  destruct demo_exec as [c H]. destruct (C80_every_history CD demo_cid 6 demo_tr (Some c)) as (msgs & Hm & Ed & _); [lia|exact H| |eauto].
  unfold demo_tr. repeat first [apply List.Forall_nil | apply List.Forall_cons]; cbn [ev_op op_fine]; try exact I;
    repeat first [split | plain_fine | exact I | (vm_compute; reflexivity)].
Qed.

(** ** C77  The configuration that is given is the configuration that is used *)

(** A deployer writes a value of the type that the interface declares. *)
Definition C77_claim : Prop := forall q msg i caller cert, input_wf i ->
  carries q msg (did_args MInit) (op_args (Install i)) ->
  op_of q MInit caller cert msg = Some (Install i).

(** Everything arrives but the chain id: the interface declares it [opt nat], the canister
    reads an [opt nat32], and an optional value of another type is read as null. *)
Theorem C77_taken_partial : forall q msg i caller cert,
  (carries q msg (did_args MInit) (op_args (Install i)) -> op_of q MInit caller cert msg = Some (Install (without_chain i))) /\
  (carries q msg (did_args MPostUpgrade) (op_args (Upgrade i)) -> op_of q MPostUpgrade caller cert msg = Some (Upgrade (without_chain i))).
Proof.
  intros q msg i caller cert. split; intros H; apply (config_arrives _ _ _ _ _ _ caller cert) in H as [H1 H2].
  - rewrite H1. unfold did_settings. rewrite configuration_is. unfold without_chain. now destruct (in_chain_id i).
  - rewrite H2. unfold did_settings. rewrite configuration_is. unfold without_chain. now destruct (in_chain_id i).
Qed.

Theorem C77_no_chain_given : forall q msg i caller cert, in_chain_id i = None ->
  carries q msg (did_args MInit) (op_args (Install i)) -> op_of q MInit caller cert msg = Some (Install i).
Proof.
  intros q msg i caller cert Hi H. destruct (C77_taken_partial q msg i caller cert) as [Ht _]. rewrite (Ht H).
  unfold without_chain. destruct i; cbn in *. now subst.
Qed.

(** With the type that the canister reads, all of it would arrive. *)
Theorem C77_nat32_arrives : forall q msg i caller cert,
  carries q msg [settings_of PNat32] [usettings i] -> op_of q MInit caller cert msg = Some (Install i).
Proof.
  intros q msg i caller cert H. apply (config_arrives _ _ _ _ _ _ caller cert) in H as [-> _].
  rewrite configuration_is, given_nat32. now destruct i.
Qed.

(** Chain 10 asked for, in the words of README.md 70-80. *)
Definition optimism : SettingsInput :=
  mkInput (bs "example.com") (bs "https://example.com") (bs "salt") (Some 10) None (Some (bs "Sign in")) None None None None.
Lemma optimism_fine : input_fine optimism.
Proof. unfold input_fine, optimism, opt_fine. cbn. repeat first [split | plain_fine | exact I | (vm_compute; reflexivity)]. Qed.

Theorem C77_claim_refuted : ~ C77_claim.
Proof.
  intros H. assert (carries 6 (settings_message PNat optimism) [did_settings] [usettings optimism]) as Hc
    by (apply settings_carries; [now left|exact optimism_fine|lia]).
  assert (input_wf optimism) as Hw by (vm_compute; repeat split; discriminate).
  pose proof (H 6%nat _ optimism [] None Hw Hc) as H1. destruct (C77_taken_partial 6 (settings_message PNat optimism) optimism [] None) as [H2 _].
  rewrite (H2 Hc) in H1. apply (inj Some) in H1. discriminate (f_equal (fun o => match o with Install i => in_chain_id i | _ => None end) H1).
Qed.

(** So whatever chain a deployer gives through the declared interface, what wallets sign
    to log in is a message for chain 1. *)
Definition declared (q : nat) (e : call_event) : Prop :=
  match ce_call e with
  | Call (MInit | MPostUpgrade) _ _ msg => exists i, carries q msg [did_settings] [usettings i] /\ one_line (in_domain i) /\ one_line (in_uri i)
  | _ => True
  end.
Theorem C77_always_chain_one_refuted : forall D cid q tr now c s sg x sk n exp pk, deps_ok D ->
  calls D cid q (tr ++ [mkCallEvent now c (RLogin (Ok (mkDetails exp pk)))]) s ->
  call_op q c = Some (SiweLogin sg x sk n) -> Forall (declared q) tr ->
  exists text r, recovers D text sg x /\ read_erc4361 text = Some r /\ e_chain_id r = 1.
Proof.
  intros D cid q tr now c s sg x sk n exp pk HD H Ec Hd. apply calls_exec in H. rewrite omap_app in H.
  cbn [omap list_omap] in H. unfold decoded at 2 in H. cbn [ce_call ce_time ce_reply] in H. rewrite Ec in H.
  destruct (C27_authenticated D cid _ _ s sg x sk n exp pk HD H) as (i & since & _ & _ & _ & _ & _ & _ & _ & _ & Hs & _); [split; reflexivity|].
  assert (in_chain_id i = None /\ one_line (in_domain i) /\ one_line (in_uri i)) as (Hi & Ld & Lu).
  { destruct Hs as (before & b & Ht & [Hb _] & _).
    assert (In b (omap (decoded q) tr)) as Hin by (rewrite Ht; apply in_app_iff; right; left; reflexivity).
    apply elem_of_list_In, elem_of_list_omap in Hin as (e & He & Ed). apply elem_of_list_In in He.
    rewrite List.Forall_forall in Hd. apply Hd in He. unfold decoded in Ed. unfold declared in He.
    destruct (ce_call e) as [m caller cert msg|seed] eqn:Ee; cbn [call_op] in Ed.
    - destruct (op_of q m caller cert msg) as [o|] eqn:Eo; [|discriminate]. apply (inj Some) in Ed as <-. cbn [ev_op] in Hb.
      pose proof (op_of_sound _ _ _ _ _ _ Eo) as (Hm & _).
      destruct Hb as [-> | ->]; destruct m; cbn [is_call] in Hm; try contradiction; destruct He as (j & Hj & Ld & Lu).
      + destruct (C77_taken_partial q msg j caller cert) as [Ht1 _]. rewrite (Ht1 Hj) in Eo.
        apply (inj Some) in Eo. injection Eo as <-. auto.
      + destruct (C77_taken_partial q msg j caller cert) as [_ Ht1]. rewrite (Ht1 Hj) in Eo.
        apply (inj Some) in Eo. injection Eo as <-. auto.
    - apply (inj Some) in Ed as <-. destruct Hb as [Hb|Hb]; discriminate Hb. }
  destruct (C27_signed_text D cid _ _ s sg x sk n exp pk i since HD H (conj eq_refl eq_refl) Hs Ld Lu)
    as (p & x' & n' & text & b & b' & _ & _ & Hr & Ht & _).
  exists text. eexists. split; [exact Hr|]. split; [exact Ht|]. cbn [e_chain_id]. now rewrite Hi.
Qed.

(** Concrete: chain 10 is given, and the demonstration history is what happens. *)
Definition with_chain (n : N) (i : SettingsInput) : SettingsInput :=
  mkInput (in_domain i) (in_uri i) (in_salt i) (Some n) (in_scheme i) (in_statement i) (in_sign_in_expires_in i)
    (in_session_expires_in i) (in_targets i) (in_features i).
Example C77_case : exists msgs c, calls CD demo_cid 6 msgs (Some c) /\ omap (decoded 6) msgs = demo_tr /\
  Forall (declared 6) msgs /\
  Forall (fun e => match ce_call e with
                   | Call MInit _ _ msg => carries 6 msg (did_args MInit) (op_args (Install (with_chain 10 demo_input)))
                   | _ => True end) msgs.
Proof.
  destruct demo_exec as [c H].
  assert (carries 6 (settings_message PNat (with_chain 10 demo_input)) [did_settings] [usettings (with_chain 10 demo_input)]) as Hc.
  { apply settings_carries; [now left| |lia]. unfold input_fine, with_chain, demo_input, opt_fine. cbn.
    repeat first [split | plain_fine | exact I | (vm_compute; reflexivity)]. }
  destruct (exec_calls CD demo_cid 6 demo_tr (Some c)
    (fun c => match c with
              | Call MInit _ _ msg => carries 6 msg [did_settings] [usettings (with_chain 10 demo_input)]
              | Call MPostUpgrade _ _ _ => False
              | _ => True end) H) as (msgs & H1 & H2 & _ & _ & H3).
  - pose proof (exec_ops_wf _ _ _ _ H) as Hw.
    assert (Forall (fun e => match ev_op e with Install i => i = demo_input | Upgrade _ => False | o => op_fine o end) demo_tr) as Hf.
    { unfold demo_tr. repeat first [apply List.Forall_nil | apply List.Forall_cons]; cbn [ev_op op_fine]; try exact I; try reflexivity;
        repeat first [split | plain_fine | exact I | (vm_compute; reflexivity)]. }
    rewrite List.Forall_forall in *. intros e He. pose proof (Hf e He) as Fe. pose proof (Hw e He) as We.
    destruct (ev_op e) as [i|i|seed|a|sg a sk n|cert a sk e'|p|p|a] eqn:Eo; try contradiction.
    { subst i. exists (Call MInit [] None (settings_message PNat (with_chain 10 demo_input))). split; [|split; [exact I|exact Hc]].
      cbn [call_op]. destruct (C77_taken_partial 6 (settings_message PNat (with_chain 10 demo_input)) (with_chain 10 demo_input) [] None) as [Ht _].
      now rewrite (Ht Hc). }
    all: destruct (op_has_message 6 _ Fe We) as (c' & Ec & Hs); [lia|]; exists c'; split; [exact Ec|]; split; [exact Hs|];
      destruct c' as [m caller cert' msg|]; [|exact I]; apply op_of_sound in Ec as (Hm & _); destruct m; try exact I; contradiction.
  - exists msgs, c. split; [exact H1|]. split; [exact H2|]. split; (revert H3; apply List.Forall_impl; intros e He).
    + unfold declared. destruct (ce_call e) as [m caller cert msg|]; [|exact I]. destruct m; try exact I; [|contradiction].
      exists (with_chain 10 demo_input). split; [exact He|]. split; apply plain_one_line; reflexivity.
    + destruct (ce_call e) as [m caller cert msg|]; [|exact I]. now destruct m.
Qed.

(** ** C78  Requests arrive as they were sent *)

Theorem C78_request_arrives : forall q msg o m caller cert, is_call o m caller cert -> m <> MInit -> m <> MPostUpgrade ->
  carries q msg (did_args m) (op_args o) -> op_of q m caller cert msg = Some o.
Proof. exact request_arrives. Qed.

(** What the client library sends is what the canister gets. *)
Theorem C78_client_requests : forall q caller cert sg a sk n e,
  text_fine sg -> text_fine a -> text_fine n -> blen sk < two64 -> e <= u64_max -> (2 <= q)%nat ->
  op_of q MPrepareLogin caller cert (js_prepare_login a) = Some (PrepareLogin a) /\
  op_of q MLogin caller cert (js_login sg a sk n) = Some (SiweLogin sg a sk n) /\
  op_of q MGetDelegation caller cert (js_get_delegation a sk e) = Some (GetDelegation cert a sk e).
Proof.
  intros q caller cert sg a sk n e Hsg Ha Hn Hsk He Hq. repeat split; (apply request_arrives; [now cbn|discriminate|discriminate|]).
  - now apply js_prepare_carries.
  - now apply js_login_carries.
  - apply js_get_delegation_carries; auto. now apply small64.
Qed.

(** One message, one request. *)
Theorem C78_unambiguous : forall q msg o1 o2 m caller cert, is_call o1 m caller cert -> is_call o2 m caller cert ->
  m <> MInit -> m <> MPostUpgrade ->
  carries q msg (did_args m) (op_args o1) -> carries q msg (did_args m) (op_args o2) -> o1 = o2.
Proof.
  intros q msg o1 o2 m caller cert H1 H2 N1 N2 C1 C2.
  pose proof (request_arrives _ _ _ _ _ _ H1 N1 N2 C1) as E1. pose proof (request_arrives _ _ _ _ _ _ H2 N1 N2 C2) as E2. congruence.
Qed.

(** Concrete: Alice's login, byte for byte. *)
Definition bytes_0_to_9 : bytes := bs "0123456789".
Example C78_case : text_fine (bs "0xab") /\ text_fine bytes_0_to_9 /\ blen key1 < two64 /\
  js_login (bs "0xab") (bs "0x1") key1 bytes_0_to_9 =
    bs "DIDL" ++ [x01; x6d; x7b; x04; x71; x71; x00; x71] ++
    [x04] ++ bs "0xab" ++ [x03] ++ bs "0x1" ++ [x04] ++ key1 ++ [x0a] ++ bytes_0_to_9 /\
  op_of 2 MLogin [] None (js_login (bs "0xab") (bs "0x1") key1 bytes_0_to_9) = Some (SiweLogin (bs "0xab") (bs "0x1") key1 bytes_0_to_9).
Proof. repeat split; try (apply ascii_utf8); vm_compute; reflexivity. Qed.

(** ** C79  Replies arrive as they were given *)

Theorem C79_reply_declared : forall q m r msg, reply_for m r -> reply_fine r -> (6 <= q)%nat ->
  put_reply r = Some msg -> carries q msg (did_results m) (reply_vals r).
Proof. exact reply_carries. Qed.

Theorem C79_reply_read : forall q m r msg, reply_for m r -> reply_fine r -> (6 <= q)%nat ->
  put_reply r = Some msg -> js_read q m msg = Some r.
Proof. exact reply_read. Qed.

Lemma step_reply_for D cid now o m caller cert s s' r : is_call o m caller cert -> m <> MInit -> m <> MPostUpgrade ->
  step D cid now o s = (s', r) -> reply_for m r \/ exists w, r = RTrap w.
Proof.
  intros Ho H1 H2 E. assert (forall {A} c f (x : outcome (canister * A)), (forall a, reply_for m (f a)) ->
    run_update c f x = (s', r) -> reply_for m r \/ exists w, r = RTrap w) as HU.
  { intros A c f x Hf Hx. unfold run_update in Hx. destruct x as [[c' a]|w]; injection Hx as <- <-; eauto. }
  assert (forall {A} c f (x : outcome A), (forall a, reply_for m (f a)) ->
    run_query c f x = (s', r) -> reply_for m r \/ exists w, r = RTrap w) as HQ.
  { intros A c f x Hf Hx. unfold run_query in Hx. destruct x as [a|w]; injection Hx as <- <-; eauto. }
  destruct o, m; cbn [is_call] in Ho; try contradiction; try congruence; cbn [step] in E;
    (destruct s as [c|]; [first [eapply HU; [|exact E] | eapply HQ; [|exact E]]; intros; exact I | injection E as <- <-; eauto]).
Qed.

(** The client's three calls, to the canister and back: the canister runs the call that the
    client asked for, and the client reads the reply that the canister gave. *)
Definition client_request (m : method) (msg : bytes) (cert : option bytes) (o : op) : Prop :=
  match o with
  | PrepareLogin a => m = MPrepareLogin /\ msg = js_prepare_login a
  | SiweLogin sg a sk n => m = MLogin /\ msg = js_login sg a sk n
  | GetDelegation cert' a sk e => m = MGetDelegation /\ cert' = cert /\ msg = js_get_delegation a sk e
  | _ => False
  end.
Theorem C79_round_trip : forall D cid q now m caller cert msg o s s' r,
  client_request m msg cert o -> op_fine o -> op_wf o -> (6 <= q)%nat ->
  call_step D cid q now (Call m caller cert msg) s = (s', r) ->
  step D cid now o s = (s', r) /\
  ((exists w, r = RTrap w) \/
   exists out, put_reply r = Some out /\ (reply_fine r -> js_read q m out = Some r)).
Proof.
  intros D cid q now m caller cert msg o s s' r Hc Hf Hw Hq E.
  assert (op_of q m caller cert msg = Some o /\ is_call o m caller cert /\ m <> MInit /\ m <> MPostUpgrade) as (Eo & Ho & N1 & N2).
  { destruct o; cbn [client_request op_fine op_wf] in *; try contradiction.
    - destruct Hc as [-> ->]. split; [|now repeat split]. apply request_arrives; [exact I|discriminate|discriminate|].
      apply js_prepare_carries; [assumption|lia].
    - destruct Hc as [-> ->]. destruct Hf as (H1 & H2 & H3 & H4). split; [|now repeat split].
      apply request_arrives; [exact I|discriminate|discriminate|]. apply js_login_carries; auto; lia.
    - destruct Hc as (-> & -> & ->). destruct Hf as (H1 & H2). split; [|now repeat split].
      apply request_arrives; [reflexivity|discriminate|discriminate|]. apply js_get_delegation_carries; auto; [now apply small64|lia]. }
  unfold call_step, call_op in E. rewrite Eo in E. split; [exact E|].
  destruct (step_reply_for _ _ _ _ _ _ _ _ _ _ Ho N1 N2 E) as [Hr|Hr]; [right|now left].
  assert (exists out, put_reply r = Some out) as [out Ep] by (destruct r, m; cbn [reply_for] in Hr; try contradiction; eexists; reflexivity).
  exists out. split; [exact Ep|]. intros Hfr. now apply reply_read.
Qed.

(** Different replies are different bytes. *)
Theorem C79_unambiguous : forall m r1 r2 msg, reply_for m r1 -> reply_for m r2 -> reply_fine r1 -> reply_fine r2 ->
  put_reply r1 = Some msg -> put_reply r2 = Some msg -> r1 = r2.
Proof.
  intros m r1 r2 msg H1 H2 F1 F2 E1 E2. pose proof (reply_read 6 m r1 msg H1 F1 (le_n _) E1) as A1.
  pose proof (reply_read 6 m r2 msg H2 F2 (le_n _) E2) as A2. congruence.
Qed.

(** Concrete: a delegation with a target. *)
Definition some_reply : reply :=
  RDelegation (Ok (mkSigned (mkDelegation key1 (1802 * sec) (Some [demo_cid])) (bs "sig"))).
Example C79_case : exists out, reply_for MGetDelegation some_reply /\ reply_fine some_reply /\
  put_reply some_reply = Some out /\ js_read 6 MGetDelegation out = Some some_reply.
Proof.
  assert (reply_fine some_reply) as Hf.
  { cbn. split; [reflexivity|]. split; [reflexivity|]. split; [reflexivity|]. split; [reflexivity|].
    repeat constructor. vm_compute. discriminate. }
  eexists. split; [exact I|]. split; [exact Hf|]. split; [reflexivity|]. now apply C79_reply_read; [| |lia|reflexivity].
Qed.

(** ** C81  Which configuration a message gives *)

Theorem C81_configuration : forall D cid q now msg c cs v vs caller cert s, carries q msg (c :: cs) (v :: vs) ->
  (call_step D cid q now (Call MInit caller cert msg) s =
     match configuration c v with Some i => step D cid now (Install i) s | None => (s, RTrap "failed to decode call arguments") end) /\
  (call_step D cid q now (Call MPostUpgrade caller cert msg) s =
     match configuration c v with Some i => step D cid now (Upgrade i) s | None => (s, RTrap "failed to decode call arguments") end).
Proof.
  intros D cid q now msg c cs v vs caller cert s H. apply (config_arrives _ _ _ _ _ _ caller cert) in H as [H1 H2].
  unfold call_step, call_op. rewrite H1, H2. now destruct (configuration c v).
Qed.

(** A configuration without a text for the domain, the URI or the salt is refused, and the
    canister stays as it was. *)
Theorem C81_required : forall D cid q now msg fs vs cs us caller cert s n,
  carries q msg (CRecord fs :: cs) (URecord vs :: us) -> In n ["domain"; "uri"; "salt"]%string ->
  (forall b, field (name_id n) fs vs <> Some (CPrim PText, UText b)) ->
  exists w, call_step D cid q now (Call MInit caller cert msg) s = (s, RTrap w) /\
            call_step D cid q now (Call MPostUpgrade caller cert msg) s = (s, RTrap w).
Proof.
  intros D cid q now msg fs vs cs us caller cert s n H Hn Hf. eexists.
  destruct (C81_configuration D cid q now _ _ _ _ _ caller cert s H) as [-> ->].
  assert (as_text (field (name_id n) fs vs) = None) as E.
  { destruct (field (name_id n) fs vs) as [[[[]| | | |] []]|] eqn:Ef; try reflexivity. now destruct (Hf b). }
  assert (configuration (CRecord fs) (URecord vs) = None) as ->; [|split; reflexivity].
  unfold configuration. destruct Hn as [<-|[<-|[<-|[]]]]; rewrite E.
  - reflexivity.
  - destruct (as_text (field (name_id "domain") fs vs)); reflexivity.
  - destruct (as_text (field (name_id "domain") fs vs)), (as_text (field (name_id "uri") fs vs)); reflexivity.
Qed.

(** Only the ten named fields matter. *)
Definition setting_names : list string :=
  ["uri"; "runtime_features"; "domain"; "statement"; "scheme"; "salt"; "session_expires_in"; "targets"; "chain_id"; "sign_in_expires_in"]%string.
Theorem C81_others_ignored : forall fs vs fs' vs',
  (forall n, In n setting_names -> field (name_id n) fs vs = field (name_id n) fs' vs') ->
  configuration (CRecord fs) (URecord vs) = configuration (CRecord fs') (URecord vs').
Proof.
  intros fs vs fs' vs' H. unfold configuration. cbv zeta.
  rewrite (H "domain"%string), (H "uri"%string), (H "salt"%string), (H "chain_id"%string), (H "scheme"%string),
    (H "statement"%string), (H "sign_in_expires_in"%string), (H "session_expires_in"%string), (H "targets"%string),
    (H "runtime_features"%string) by (unfold setting_names; cbn [In]; tauto). reflexivity.
Qed.

(** A field that is left out is as one that is null. *)
Theorem C81_left_out : forall fs vs i, configuration (CRecord fs) (URecord vs) = Some i ->
  (field (name_id "chain_id") fs vs = None -> in_chain_id i = None) /\
  (field (name_id "scheme") fs vs = None -> in_scheme i = None) /\
  (field (name_id "statement") fs vs = None -> in_statement i = None) /\
  (field (name_id "sign_in_expires_in") fs vs = None -> in_sign_in_expires_in i = None) /\
  (field (name_id "session_expires_in") fs vs = None -> in_session_expires_in i = None) /\
  (field (name_id "targets") fs vs = None -> in_targets i = None) /\
  (field (name_id "runtime_features") fs vs = None -> in_features i = None).
Proof.
  intros fs vs i H. unfold configuration in H. cbv zeta in H.
  destruct (as_text _) as [domain|]; [|discriminate]. destruct (as_text _) as [uri|]; [|discriminate].
  destruct (as_text _) as [salt|]; [|discriminate]. apply (inj Some) in H as <-.
  cbn [in_chain_id in_scheme in_statement in_sign_in_expires_in in_session_expires_in in_targets in_features].
  repeat split; intros ->; reflexivity.
Qed.

(** One feature that the canister does not know, and none of the listed ones is switched on:
    no error tells. *)
Theorem C81_unknown_feature : forall fs vs i ws l k w,
  configuration (CRecord fs) (URecord vs) = Some i ->
  field (name_id "runtime_features") fs vs = Some (COpt (CVec (CVariant ws)), UOpt (Some (UVec l))) ->
  In (UVariant k w) l ->
  (forall n, In n ["IncludeUriInSeed"; "DisableEthToPrincipalMapping"; "DisablePrincipalToEthMapping"]%string ->
     nth_error ws k <> Some (name_id n, CPrim PNull)) ->
  in_features i = None.
Proof.
  intros fs vs i ws l k w H Hf Hin Hk. unfold configuration in H. cbv zeta in H.
  destruct (as_text _) as [domain|]; [|discriminate]. destruct (as_text _) as [uri|]; [|discriminate].
  destruct (as_text _) as [salt|]; [|discriminate]. apply (inj Some) in H as <-. cbn [in_features]. rewrite Hf.
  cbn [given as_vec].
  assert (as_feature (Some (CVariant ws, UVariant k w)) = None) as E.
  { cbn [as_feature]. destruct (nth_error ws k) as [[id c]|] eqn:En; [|reflexivity]. destruct c as [[]| | | |]; try reflexivity.
    destruct (id =? name_id "IncludeUriInSeed") eqn:E1; [apply N.eqb_eq in E1; subst; exfalso; eapply Hk; [now left|reflexivity]|].
    destruct (id =? name_id "DisableEthToPrincipalMapping") eqn:E2; [apply N.eqb_eq in E2; subst; exfalso; eapply Hk; [now right; left|reflexivity]|].
    destruct (id =? name_id "DisablePrincipalToEthMapping") eqn:E3; [apply N.eqb_eq in E3; subst; exfalso; eapply Hk; [now right; right; left|reflexivity]|].
    reflexivity. }
  clear Hf Hk. induction l as [|v l IH]; [destruct Hin|]. cbn [mapM].
  destruct Hin as [->|Hin]; [now rewrite E|]. rewrite (IH Hin). destruct (as_feature (Some (CVariant ws, v))); reflexivity.
Qed.

(** Concrete: the URI is to be part of the seed, and so is something that this version does
    not know; the canister is installed with neither. *)
Definition new_feature : ctype := CVariant [nf "IncludeUriInSeed" (CPrim PNull); nf "NewerFeature" (CPrim PNull)].
Definition newer_fields : list (N * ctype) :=
  [nf "uri" did_text; nf "runtime_features" (COpt (CVec new_feature)); nf "domain" did_text; nf "salt" did_text].
Definition newer_value : cval :=
  URecord [UText (bs "https://example.com"); UOpt (Some (UVec [UVariant 0 UNull; UVariant 1 UNull])); UText (bs "example.com"); UText (bs "salt")].
Definition newer_header : header :=
  mkHeader [ERecord [fld "uri" (Prim PText); fld "runtime_features" (Var 1); fld "domain" (Prim PText); fld "salt" (Prim PText)];
            EOpt (Var 2); EVec (Var 3); EVariant [fld "IncludeUriInSeed" (Prim PNull); fld "NewerFeature" (Prim PNull)]] [Var 0].
Definition newer_message : bytes :=
  put_header newer_header ++ put_bytes (bs "https://example.com") ++ [x01; x02; x00; x01] ++ put_bytes (bs "example.com") ++ put_bytes (bs "salt").
Example C81_case :
  carries 6 newer_message [CRecord newer_fields] [newer_value] /\
  configuration (CRecord newer_fields) newer_value = Some demo_input /\
  call_step CD demo_cid 6 0 (Call MInit [] None newer_message) None = step CD demo_cid 0 (Install demo_input) None /\
  snd (step CD demo_cid 0 (Install demo_input) None) = RDone.
Proof.
  assert (carries 6 newer_message [CRecord newer_fields] [newer_value]) as H.
  { exists newer_header. eexists _, _. split; [apply put_header_w; header_fine|]. split; [constructor; [stand|constructor]|].
    split; [|split; [constructor; [vm_compute; lia|constructor]|reflexivity]]. apply enc_args_1, enc_record.
    constructor; [apply enc_put_text; plain_fine|].
    constructor; [|constructor; [apply enc_put_text; plain_fine|apply enc_fields_1, enc_put_text; plain_fine]].
    apply enc_some. apply (enc_vec _ _ [x02] [x00; x01]); [now apply (leb_count 2)|].
    change [x00; x01] with (([x00] ++ []) ++ (([x01] ++ []) ++ [])).
    constructor; [|constructor; [|constructor]]; (eapply enc_variant; [reflexivity| |constructor]).
    - now apply (leb_count 0).
    - now apply (leb_count 1). }
  split; [exact H|]. assert (configuration (CRecord newer_fields) newer_value = Some demo_input) as E by (vm_compute; reflexivity).
  split; [exact E|]. split; [|vm_compute; reflexivity].
  destruct (C81_configuration CD demo_cid 6 0 _ _ _ _ _ [] None None H) as [-> _]. now rewrite E.
Qed.

Print Assumptions C77_taken_partial.
Print Assumptions C77_no_chain_given.
Print Assumptions C77_nat32_arrives.
Print Assumptions C77_claim_refuted.
Print Assumptions C77_always_chain_one_refuted.
Print Assumptions C78_request_arrives.
Print Assumptions C78_client_requests.
Print Assumptions C78_unambiguous.
Print Assumptions C79_reply_declared.
Print Assumptions C79_reply_read.
Print Assumptions C79_round_trip.
Print Assumptions C79_unambiguous.
Print Assumptions C80_any_bytes.
Print Assumptions C80_histories.
Print Assumptions C80_every_history.
Print Assumptions C80_magic.
Print Assumptions C80_authenticated.
Print Assumptions C81_configuration.
Print Assumptions C81_required.
Print Assumptions C81_others_ignored.
Print Assumptions C81_left_out.
Print Assumptions C81_unknown_feature.
