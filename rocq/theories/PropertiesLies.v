(** The browser client when a replica lies in its answers to queries. *)
From Coq Require Import Strings.String ZifyBool ZifyN ZifyNat.
From Verif Require Import Base BaseLemmas Deps Hex Eth Encode Delegation Login Provider Json SpecJson JsonProofs EthProofs SpecEth SpecHash SpecTree SpecTrace SpecWire SpecAuth
  ProviderProofs DelegationTheory LoginTheory LoginProofs TraceProofs WireProofs Concrete Scripts Demo PropertiesLogin PropertiesAuth
  Client ClientJson SpecClient ClientProofs ClientSeq ClientDemo Tabs SpecTabs TabsProofs PropertiesTabs Lies.
Local Open Scope N_scope.

(** ** What is loaded of what was saved *)

Lemma parse_blob_hex l m : parse_blob (Some (JStr (hex_encode l))) = Some m -> (32 <= length l)%nat.
Proof.
  cbn [parse_blob]. unfold blen. rewrite hex_encode_length. destruct (N.of_nat (2 * length l) <? 64) eqn:E; [discriminate|]. lia.
Qed.

Lemma signed_json_ok d d' : signed_from_json (signed_to_json d) = Some d' -> signed_ok d.
Proof.
  destruct d as [[pk e t] sg]. unfold signed_from_json, signed_to_json. cbn [sd_delegation sd_signature].
  change (json_field (bs "delegation") (JObj [(bs "delegation", delegation_to_json (mkDelegation pk e t));
    (bs "signature", JStr (hex_encode sg))])) with (Some (delegation_to_json (mkDelegation pk e t))).
  change (json_field (bs "signature") (JObj [(bs "delegation", delegation_to_json (mkDelegation pk e t));
    (bs "signature", JStr (hex_encode sg))])) with (Some (JStr (hex_encode sg))). cbn iota beta.
  assert (json_field (bs "pubkey") (delegation_to_json (mkDelegation pk e t)) = Some (JStr (hex_encode pk))) as -> by reflexivity.
  destruct (parse_blob (Some (JStr (hex_encode pk)))) as [pk'|] eqn:E1; [|discriminate].
  destruct (expiration_from_json _) as [e'|]; [|discriminate]. destruct (targets_from_json _) as [t'|]; [|discriminate].
  destruct (parse_blob (Some (JStr (hex_encode sg)))) as [sg'|] eqn:E2; [|discriminate]. intros _.
  split; cbn [sd_delegation sd_signature dl_pubkey]; eapply parse_blob_hex; eassumption.
Qed.

Lemma chain_json_ok c c' : chain_from_json (chain_to_json c) = Some c' -> chain_ok c.
Proof.
  destruct c as [ds pk]. unfold chain_from_json, chain_to_json. cbn [ch_delegations ch_pubkey].
  change (json_field (bs "delegations") (JObj [(bs "delegations", JArr (map signed_to_json ds));
    (bs "publicKey", JStr (hex_encode pk))])) with (Some (JArr (map signed_to_json ds))).
  change (json_field (bs "publicKey") (JObj [(bs "delegations", JArr (map signed_to_json ds));
    (bs "publicKey", JStr (hex_encode pk))])) with (Some (JStr (hex_encode pk))). cbn iota beta.
  destruct (all_some signed_from_json (map signed_to_json ds)) as [ds'|] eqn:E1; [|discriminate].
  destruct (parse_blob (Some (JStr (hex_encode pk)))) as [pk'|] eqn:E2; [|discriminate]. intros _.
  split; cbn [ch_delegations ch_pubkey]; [|eapply parse_blob_hex; eassumption].
  revert ds' E1. induction ds as [|d ds IH]; intros ds' E1; [constructor|]. cbn [map all_some] in E1.
  destruct (signed_from_json (signed_to_json d)) as [d'|] eqn:E; [|discriminate].
  destruct (all_some signed_from_json (map signed_to_json ds)) as [l|]; [|discriminate].
  constructor; [eapply signed_json_ok, E|eapply IH; reflexivity].
Qed.

(** Whatever was saved, it is loaded unchanged or not at all. *)
Lemma load_saved a k c r : a <> [] -> key_ok k -> load_identity (Some (save_identity a k c)) = Some r -> r = (JStr a, mkIdent k c, c).
Proof.
  intros Ha Hk E. assert (chain_ok c) as Hc; [|rewrite (load_save a k c Ha Hk Hc) in E; congruence].
  unfold load_identity, save_identity in E.
  pose proof (parse_text _ (identity_fine a k c)) as P.
  destruct (json_text (identity_json a k c)) as [|b t]; [discriminate P|]. rewrite P in E. clear P b t.
  unfold identity_json in E. set (j := JObj _) in E.
  change (json_field (bs "address") j) with (Some (JStr a)) in E.
  change (json_field (bs "sessionIdentity") j) with (Some (keypair_to_json k)) in E.
  change (json_field (bs "delegationChain") j) with (Some (chain_to_json c)) in E. cbn iota beta in E.
  destruct (_ && _ && _) in E; [|discriminate E]. unfold chain_from_text in E. rewrite (parse_text _ (chain_fine c)) in E.
  destruct (chain_from_json (chain_to_json c)) as [c'|] eqn:Ec; [|discriminate E]. eapply chain_json_ok, Ec.
Qed.

(** ** The invariant *)

(** The canister told a login of [x] with the key [k] the public key [pk]. *)
Definition behind (tr : list event) (x : bytes) (k : keypair) (pk : bytes) : Prop :=
  x <> [] /\ key_ok k /\ exists l sg n exp, In l tr /\ logged_in l sg x (kp_der k) n exp pk.

Definition ltask (tr : list event) (t : task) : Prop :=
  match t with
  | TPreparing a _ | TSign a _ _ => a <> []
  | TActor a n sg k => a <> [] /\ key_ok k
  | TLogin a n sg k ans => a <> [] /\ key_ok k /\
      match ans with
      | Some r => exists e, In e tr /\ ev_op e = SiweLogin sg a (kp_der k) n /\ ev_reply e = r
      | None => True
      end
  | TDelegation a k d _ => behind tr a k (ld_pubkey d)
  | TReturned i => exists x r pk, id_chain i = mkChain [r] pk /\ behind tr x (id_key i) pk
  | _ => True
  end.

Definition lview (tr : list event) (v : option (bytes * ident)) : Prop :=
  match v with Some (x, i) => exists r pk, id_chain i = mkChain [r] pk /\ behind tr x (id_key i) pk | None => True end.

Lemma behind_mono tr e x k pk : behind tr x k pk -> behind (tr ++ [e]) x k pk.
Proof.
  intros (Hx & Hk & l & sg & n & exp & Il & H). split; [exact Hx|]. split; [exact Hk|]. exists l, sg, n, exp.
  split; [apply in_app_iff; auto|exact H].
Qed.
Lemma lview_mono tr e v : lview tr v -> lview (tr ++ [e]) v.
Proof. destruct v as [[x i]|]; [|auto]. intros (r & pk & E & H). exists r, pk. split; [exact E|now apply behind_mono]. Qed.
Lemma ltask_mono tr e t : ltask tr t -> ltask (tr ++ [e]) t.
Proof.
  destruct t as [p| |a p|a m n|a n sg k|a n sg k [r|]|a k d ans|i|err]; cbn [ltask]; auto.
  - intros (H1 & H2 & f & I & H). do 2 (split; [assumption|]). exists f. split; [apply in_app_iff; auto|assumption].
  - apply behind_mono.
  - intros (x & r & pk & E & H). exists x, r, pk. split; [exact E|now apply behind_mono].
Qed.

Lemma login_goes_ltask tr t s x st x' t' st' : ltask tr t -> match s with SSigned _ p => key_ok p | _ => True end ->
  login_goes t s x st = Some (x', t', st') ->
  ltask tr t' /\ ((same_identity x x' /\ st' = st) \/
    exists a i, lview tr (Some (a, i)) /\ x' = set_logged_in a i (id_chain i) x /\ st' = stored (Some (a, i))).
Proof.
  intros Ht Hk E. assert (same_identity x x) as Sx by (repeat split).
  destruct t as [p| |a p|a m n|a n sg k|a n sg k ans|a k d ans|i|err]; cbn [login_goes] in E.
  - destruct (prep_goes p s x) as [[y q]|] eqn:P; [|discriminate]. injection E as <- <- <-.
    split; [exact I|]. left. split; [eapply prep_goes_identity, P|reflexivity].
  - destruct s as [e|l| |sg k|]; try discriminate E; unfold login_fails in E.
    + injection E as <- <- <-. split; [exact I|]. left. auto.
    + destruct (first_account l) as [a|] eqn:F; [|injection E as <- <- <-; split; [exact I|left; auto]].
      apply first_account_some in F. destruct (x_message x) as [[m n]|]; injection E as <- <- <-; (split; [exact F|left; auto]).
  - assert (match prep_goes p s x with Some (x, p) => Some (x, TPreparing a p, st) | None => None end = Some (x', t', st') ->
      ltask tr t' /\ ((same_identity x x' /\ st' = st) \/
        exists a i, lview tr (Some (a, i)) /\ x' = set_logged_in a i (id_chain i) x /\ st' = stored (Some (a, i)))) as Hgo.
    { clear E. intros E. destruct (prep_goes p s x) as [[y q]|] eqn:P; [|discriminate]. injection E as <- <- <-.
      split; [exact Ht|]. left. split; [eapply prep_goes_identity, P|reflexivity]. }
    destruct p as [|acc|acc ans|[[m n]|e]]; destruct s; try (apply Hgo, E);
      unfold login_fails in E; injection E as <- <- <-; (split; [exact Ht || exact I|left; auto]).
  - destruct s as [e|l| |[|c sg] k|]; try discriminate E; unfold sign_fails, login_fails in E; injection E as <- <- <-;
      (split; [exact I || (split; assumption)|left; auto]).
  - destruct Ht as [Ha Hp]. destruct s as [e|l| |sg' k'|]; try discriminate E; unfold login_fails in E; injection E as <- <- <-;
      (split; [exact I || (repeat split; auto; apply Hp)|left; auto]).
  - destruct Ht as (Ha & Hp & Hr). destruct s as [e|l| |sg' k'|]; try (destruct ans; discriminate E).
    + assert (Some (login_fails e x, st) = Some (x', t', st')) as E' by (destruct ans; exact E). unfold login_fails in E'.
      injection E' as <- <- <-. split; [exact I|left; auto].
    + destruct ans as [r|]; [|discriminate E]. destruct (login_answer r) as [[d|e]|] eqn:A; [| |discriminate E].
      * injection E as <- <- <-. split; [|left; auto]. destruct Hr as (l & Il & Ho & Er).
        split; [exact Ha|]. split; [exact Hp|]. exists l, sg, n, (ld_expiration d). split; [exact Il|]. split; [exact Ho|].
        rewrite Er. destruct r; cbn in A; try discriminate A. destruct d. cbn. congruence.
      * unfold login_fails in E. injection E as <- <- <-. split; [exact I|left; auto].
  - destruct s as [e|l| |sg' k'|]; try (destruct ans; discriminate E).
    + assert (Some (login_fails e x, st) = Some (x', t', st')) as E' by (destruct ans; exact E). unfold login_fails in E'.
      injection E' as <- <- <-. split; [exact I|left; auto].
    + destruct ans as [r|]; [|discriminate E]. destruct (delegation_answer r) as [[sd|e]|]; [| |discriminate E].
      * unfold create_chain in E. injection E as <- <- <-. cbn [ltask id_chain id_key].
        split; [exists a, sd, (ld_pubkey d); auto|]. right. exists a, (mkIdent k (mkChain [sd] (ld_pubkey d))).
        split; [exists sd, (ld_pubkey d); auto|]. split; reflexivity.
      * unfold login_fails in E. injection E as <- <- <-. split; [exact I|left; auto].
  - destruct s; discriminate E.
  - destruct s; discriminate E.
Qed.

Lemma task_answered_ltask cert tr t o now r : ltask tr t -> task_request cert t = Some o ->
  ltask (tr ++ [mkEvent now o r]) (task_answered r t).
Proof.
  intros Ht R. destruct t as [p| |a p|a m n|a n sg k|a n sg k [r'|]|a k d [r'|]|i|err]; try discriminate R; cbn [task_answered ltask] in *; auto.
  - destruct Ht as (H1 & H2 & _). do 2 (split; [assumption|]). cbn [task_request] in R. injection R as <-.
    exists (mkEvent now (SiweLogin sg a (kp_der k) n) r). split; [apply in_app_iff; right; now left|]. split; reflexivity.
  - now apply behind_mono.
Qed.

Definition ltab (tr : list event) (t : tab) : Prop :=
  (exists v, shows t v /\ lview tr v) /\ Forall (ltask tr) (t_tasks t).

Record linv (D : Deps) (cid : bytes) (b : browser) : Prop := {
  li_exec : exec D cid (b_history b) (b_canister b);
  li_tabs : Forall (ltab (b_history b)) (b_tabs b);
  li_storage : exists v, b_storage b = stored v /\ lview (b_history b) v
}.

Lemma ltab_mono tr e t : ltab tr t -> ltab (tr ++ [e]) t.
Proof.
  intros [(v & H1 & H2) H3]. split; [exists v; split; [exact H1|now apply lview_mono]|].
  revert H3. apply List.Forall_impl. intros u. apply ltask_mono.
Qed.

Lemma construct_lview tr v x : lview tr v ->
  same_identity x (construct (stored v) x) \/
  exists a i, v = Some (a, i) /\ x_identity (construct (stored v) x) = Some i /\ x_address (construct (stored v) x) = Some (JStr a) /\
    x_chain (construct (stored v) x) = Some (id_chain i).
Proof.
  intros Hv. unfold construct. destruct (load_identity (stored v)) as [[[a i] c]|] eqn:E; [|left; repeat split].
  destruct v as [[y i']|]; [|discriminate E]. destruct Hv as (r & pk & Ec & Hx & Hk & _). cbn [stored] in E.
  apply (load_saved y (id_key i') (id_chain i')) in E; [|assumption..]. injection E as -> -> ->.
  right. exists y, i'. destruct i'. repeat split.
Qed.

Lemma Forall_insert_any {A} (P : A -> Prop) (l : list A) k x : Forall P l -> P x -> Forall P (<[k := x]> l).
Proof. intros H1 H2. apply Forall_insert; assumption. Qed.

Lemma lstep_inv D cid a b b' : linv D cid b -> lact_ok a b -> lstep D cid a b = Some b' -> linv D cid b'.
Proof.
  intros [He Ht (v & Hst & Hv)] Hok Hs. destruct a as [[|j a|now o]|j k r]; cbn [lstep bstep lact_ok bact_ok] in Hs, Hok.
  - injection Hs as <-. constructor; [exact He| |exists v; auto]. apply List.Forall_app. split; [exact Ht|].
    constructor; [|constructor]. split; [exists None; repeat split|constructor].
  - destruct (nth_error (b_tabs b) j) as [t|] eqn:N; [|discriminate]. destruct (tab_action a) eqn:A; [|discriminate].
    destruct (act_step D cid a (tab_world b t)) as [w|] eqn:S; [|discriminate]. injection Hs as <-.
    specialize (Hok t eq_refl). pose proof (nth_error_Forall _ _ _ _ Ht N) as [(vt & Hsh & Hvt) Htt].
    assert (forall w, w_history w = b_history b -> w_canister w = b_canister b ->
      ltab (b_history b) (mkTab (w_ctx w) (w_tasks w) (w_own w)) ->
      (exists v, w_storage w = stored v /\ lview (b_history b) v) -> linv D cid (put_world j w b)) as Same.
    { intros w0 E1 E2 H1 H2. constructor; cbn [put_world b_history b_canister b_tabs b_storage]; rewrite ?E1, ?E2;
        [exact He|now apply Forall_insert_any|exact H2]. }
    apply act_step_view in S.
    destruct S as [| |R|R|R|k s u x' u' st' Nu G|k now cert u o s' r Nu R S|now o s' r S|q]; try discriminate A;
      cbn [tab_world w_ctx w_storage w_tasks w_canister w_history w_own] in *.
    + apply Same; [reflexivity|reflexivity| |exists v; auto]. split; [exists None; repeat split|constructor].
    + apply Same; [reflexivity|reflexivity| |exists v; auto]. split; [|exact Htt]. cbn [w_ctx]. rewrite Hst.
      destruct (construct_lview _ v (t_ctx t) Hv) as [Si|(a & i & -> & H1 & H2 & H3)].
      * exists vt. split; [|exact Hvt]. eapply shows_same; [|exact Hsh]. exact Si.
      * exists (Some (a, i)). split; [|exact Hv]. repeat split; assumption.
    + apply Same; [reflexivity|reflexivity| |exists v; auto]. split; [exists vt; auto|]. apply List.Forall_app. split; [exact Htt|].
      repeat constructor.
    + apply Same; [reflexivity|reflexivity| |exists v; auto]. split.
      * exists vt. split; [|exact Hvt]. eapply shows_same; [|exact Hsh]. cbn [w_ctx t_ctx].
        destruct (login_starts_cases (t_ctx t)) as [->|(e & -> & _)]; repeat split.
      * apply List.Forall_app. split; [exact Htt|]. constructor; [|constructor].
        destruct (login_starts_cases (t_ctx t)) as [->|(e & -> & _)]; exact I.
    + apply Same; [reflexivity|reflexivity| |exists None; split; [reflexivity|exact I]]. split; [exists None; repeat split|exact Htt].
    + assert (match s with SSigned _ p => key_ok p | _ => True end) as Hk by (destruct s; try exact I; exact Hok).
      destruct (login_goes_ltask _ _ _ _ _ _ _ _ (nth_error_Forall _ _ _ _ Htt Nu) Hk G) as (Hu & [[Si ->]|(a & i & Hv' & -> & ->)]).
      * apply Same; [reflexivity|reflexivity| |exists v; auto]. split; [|now apply Forall_insert_any].
        exists vt. split; [|exact Hvt]. eapply shows_same; [|exact Hsh]. exact Si.
      * apply Same; [reflexivity|reflexivity| |exists (Some (a, i)); auto]. split; [|now apply Forall_insert_any].
        exists (Some (a, i)). split; [repeat split|exact Hv'].
    + destruct (Hok u o Nu R) as (H1 & H2 & H3). constructor; cbn [put_world b_history b_canister b_tabs b_storage w_history w_canister w_storage w_ctx w_tasks w_own].
      * now apply (exec_snoc D cid _ (b_canister b)).
      * apply Forall_insert_any; [revert Ht; apply List.Forall_impl; intros z; apply ltab_mono|].
        split; [exists vt; split; [exact Hsh|now apply lview_mono]|]. cbn [t_tasks]. apply Forall_insert_any.
        -- revert Htt. apply List.Forall_impl. intros z. apply ltask_mono.
        -- eapply task_answered_ltask; [|exact R]. exact (nth_error_Forall _ _ _ _ Htt Nu).
      * exists v. split; [exact Hst|now apply lview_mono].
  - destruct (step D cid now o (b_canister b)) as [s' r] eqn:S. injection Hs as <-. destruct Hok as (H1 & H2 & H3).
    constructor; cbn [b_history b_canister b_tabs b_storage].
    + now apply (exec_snoc D cid _ (b_canister b)).
    + revert Ht. apply List.Forall_impl. intros z. apply ltab_mono.
    + exists v. split; [exact Hst|now apply lview_mono].
  - destruct (nth_error (b_tabs b) j) as [t|] eqn:N; [|discriminate]. destruct (nth_error (t_tasks t) k) as [u|] eqn:Nu; [|discriminate].
    destruct (lied_to r u) as [u'|] eqn:Eu; [|discriminate]. injection Hs as <-.
    pose proof (nth_error_Forall _ _ _ _ Ht N) as [Hvt Htt]. pose proof (nth_error_Forall _ _ _ _ Htt Nu) as Hu.
    constructor; cbn [b_history b_canister b_tabs b_storage]; [exact He| |exists v; auto].
    apply Forall_insert_any; [exact Ht|]. split; [exact Hvt|]. apply Forall_insert_any; [exact Htt|].
    destruct u as [p| |a p|a m n|a n sg p|a n sg p ans|a p d [r'|]|i|err]; try discriminate Eu. cbn [lied_to] in Eu. injection Eu as <-. exact Hu.
Qed.

Lemma lruns_inv D cid acts b : lruns D cid acts b -> linv D cid b.
Proof.
  induction 1 as [|acts b a b' H IH Hok Hs]; [|eapply lstep_inv; eassumption].
  constructor; [constructor|constructor|]. exists None. split; [reflexivity|exact I].
Qed.

(** ** C97  A replica that lies in a query cannot change who a tab is signed in as *)

(** The identity shown has the session key and the public key - hence the principal - of a
    successful login of the address shown; only its one delegation may be anything. *)
Theorem C97_principal : forall D cid acts b j t id, lruns D cid acts b -> nth_error (b_tabs b) j = Some t ->
  x_identity (t_ctx t) = Some id ->
  exists x l sg n exp pk r, shows t (Some (x, id)) /\ In l (b_history b) /\ logged_in l sg x (kp_der (id_key id)) n exp pk /\
    id_chain id = mkChain [r] pk.
Proof.
  intros D cid acts b j t id H N Hi. destruct (nth_error_Forall _ _ _ _ (li_tabs _ _ _ (lruns_inv _ _ _ _ H)) N) as [(v & Hsh & Hv) _].
  destruct v as [[x i]|]; [|destruct Hsh; congruence]. assert (i = id) as -> by (destruct Hsh; congruence).
  destruct Hv as (r & pk & Ec & _ & _ & l & sg & n & exp & Il & Hl). exists x, l, sg, n, exp, pk, r. auto.
Qed.

(** A lie is of no use: if requests signed with the identity shown are accepted, the
    delegation has the key, the expiration and the targets of a login that the canister
    answered with this public key. *)
Theorem C97_useless : forall D cid acts b j t id r c certificate now target, deps_ok D -> (length cid <= 29)%nat ->
  lruns D cid acts b -> nth_error (b_tabs b) j = Some t -> x_identity (t_ctx t) = Some id ->
  ch_delegations (id_chain id) = [r] -> dl_pubkey (sd_delegation r) = kp_der (id_key id) ->
  b_canister b = Some c -> replica_accepts D cid (c_certified c) certificate now target (ch_pubkey (id_chain id)) r ->
  (exists x exp i ts, a_login (b_history b) x (kp_der (id_key id)) exp (ch_pubkey (id_chain id)) i /\ targets_of i ts /\
     sd_delegation r = mkDelegation (kp_der (id_key id)) exp ts) \/
  auth_collision D cid (b_history b) certificate (ch_pubkey (id_chain id)) r.
Proof.
  intros D cid acts b j t id r c certificate now target HD Lc H N Hi Er Ek Eb Ha. pose proof (lruns_inv _ _ _ _ H) as [He _ _].
  rewrite Eb in He. destruct (C61_login_behind D cid _ c certificate now target _ r HD Lc He Ha)
    as [(x & sk & exp & pk' & i & ts & Hl & Hts & E1 & E2 & Esd)|C]; [left|now right].
  assert (sk = kp_der (id_key id)) as -> by (rewrite <- Ek, Esd; reflexivity).
  destruct (C97_principal D cid acts b j t id H N Hi) as (x0 & l & sg & n & exp0 & pk & r0 & _ & Il & Hl0 & Ec).
  apply in_split in Il as (pre & post & Eh). rewrite Eh in He. destruct (exec_at D cid pre l post _ He) as [s1 H1]. rewrite <- Eh in He.
  destruct (C27_authenticated D cid pre l s1 sg x0 _ n exp0 pk HD H1 Hl0) as (i0 & since & _ & _ & _ & _ & _ & _ & _ & _ & Hs & _).
  assert (a_login (b_history b) x0 (kp_der (id_key id)) exp0 pk i0) as Lx by (exists pre, l, post, sg, n, since; auto).
  destruct (a_login_pk D cid _ _ _ _ _ _ _ HD He Lx) as (Ex & _). destruct (a_login_pk D cid _ _ _ _ _ _ _ HD He Hl) as (Ep & _).
  rewrite Ec in E1 |- *. cbn [ch_pubkey] in E1 |- *. rewrite Ex in E1.
  rewrite pubkey_decodes in E1 by (lia || (unfold blen, user_seed; rewrite (sha256_len _ HD); vm_compute; reflexivity)).
  injection E1 as Es. rewrite Es in Ex. rewrite <- Ep in Ex. subst pk'. exists x, exp, i, ts. auto.
Qed.

(** Reloading the page does not help a lie either: what is loaded is what was stored, or
    nothing. *)
Theorem C97_reload : forall D cid acts b j t b' t' id, lruns D cid acts b -> nth_error (b_tabs b) j = Some t ->
  x_identity (t_ctx t) = None -> lstep D cid (Told (BTab j AManager)) b = Some b' -> nth_error (b_tabs b') j = Some t' ->
  x_identity (t_ctx t') = Some id ->
  exists x, shows t' (Some (x, id)) /\ b_storage b = Some (save_identity x (id_key id) (id_chain id)).
Proof.
  intros D cid acts b j t b' t' id H N Hn Hs N' Hi. destruct (lruns_inv _ _ _ _ H) as [_ _ (v & Hst & Hv)].
  cbn [lstep bstep] in Hs. rewrite N in Hs. cbn [tab_action act_step] in Hs. injection Hs as <-.
  cbn [put_world b_tabs tab_world w_ctx w_tasks w_own w_storage] in N'. rewrite (nth_insert_same _ _ _ _ N) in N'. injection N' as <-.
  cbn [t_ctx] in Hi. rewrite Hst in Hi |- *.
  destruct (construct_lview _ v (t_ctx t) Hv) as [(S1 & _)|(a & i & -> & H1 & H2 & H3)]; [congruence|].
  assert (i = id) as -> by congruence. exists a. split; [repeat split; assumption|reflexivity].
Qed.

(** Concrete: Alice signs in in the first tab, and the replica answers the query with a
    delegation that never expires and a signature of its own. *)
Definition lie_prefix : list baction := Eval vm_compute in take (length left_acts - 4) left_acts.
Definition lie_view := Eval vm_compute in bview lie_prefix.
Definition a_lie : SignedDelegation := mkSigned (mkDelegation (kp_der pair1) u64_max None) (repeat x00 32).

Lemma truthful D cid acts b : bruns D cid acts b -> lruns D cid (map Told acts) b.
Proof.
  induction 1 as [|acts b a b' H IH Hok Hs]; [constructor|]. rewrite map_app. now apply (lruns_snoc D cid _ b).
Qed.

Example C97_case : exists acts b t t' id, lruns CD demo_cid acts b /\ b_tabs b = [t; t'] /\
  shows t (Some (alice_text, id)) /\ shows t' (Some (alice_text, id)) /\ id_key id = pair1 /\
  ch_delegations (id_chain id) = [a_lie] /\ ~ issued (b_history b) alice_text id.
Proof.
  brun_of lie_prefix lie_view b H. apply truthful in H.
  destruct (lstep CD demo_cid (Lie 0 0 (Ok a_lie)) b) as [b1|] eqn:S1;
    [|exfalso; cbn [lstep] in S1; rewrite Ht in S1; discriminate S1].
  pose proof (lruns_snoc CD demo_cid _ b (Lie 0 0 (Ok a_lie)) b1 H I S1) as H1. cbn [lstep] in S1. rewrite Ht in S1.
  cbn [nth_error t_tasks lied_to insert list_insert t_ctx t_own] in S1. injection S1 as E1.
  assert (lact_ok (Told (BTab 0 (AContinue 0 SReply))) b1) as O1 by (intros u _; exact I).
  destruct (lstep CD demo_cid (Told (BTab 0 (AContinue 0 SReply))) b1) as [b2|] eqn:S2;
    [|exfalso; rewrite <- E1 in S2; vm_compute in S2; discriminate S2].
  pose proof (lruns_snoc CD demo_cid _ b1 _ b2 H1 O1 S2) as H2.
  rewrite <- E1 in S2. cbn [lstep bstep b_tabs nth_error tab_action act_step tab_world w_tasks t_tasks login_goes delegation_answer w_ctx w_storage
    w_canister w_history w_own t_ctx t_own b_storage b_canister b_history insert list_insert put_world create_chain] in S2. injection S2 as E2.
  assert (lact_ok (Told (BTab 1 AManager)) b2) as O2 by (intros u _; exact I).
  destruct (lstep CD demo_cid (Told (BTab 1 AManager)) b2) as [b3|] eqn:S3;
    [|exfalso; rewrite <- E2 in S3; discriminate S3].
  pose proof (lruns_snoc CD demo_cid _ b2 _ b3 H2 O2 S3) as H3.
  rewrite <- E2 in S3. cbn [lstep bstep b_tabs nth_error tab_action act_step tab_world w_tasks t_tasks w_ctx w_storage
    w_canister w_history w_own t_ctx t_own b_storage b_canister b_history insert list_insert put_world] in S3. injection S3 as E3.
  eexists _, b3, _, _, (mkIdent pair1 (mkChain [a_lie] _)). split; [exact H3|]. split; [rewrite <- E3; reflexivity|].
  split; [split; [reflexivity|split; reflexivity]|]. split; [split; [vm_compute; reflexivity|split; vm_compute; reflexivity]|].
  split; [reflexivity|]. split; [reflexivity|].
  intros (pre & l & mid & g & post & sg & n & exp & pk & cert & r & Eh & _ & [Ho _] & _).
  rewrite <- E3 in Eh. cbn [b_history] in Eh. rewrite Hh in Eh.
  assert (In g (pre ++ l :: mid ++ g :: post)) as Ig by (apply in_app_iff; right; right; apply in_app_iff; right; now left).
  rewrite <- Eh in Ig. cbn [In] in Ig. repeat (destruct Ig as [Ig|Ig]; [subst g; discriminate Ho|]). exact Ig.
Qed.

Print Assumptions C97_principal.
Print Assumptions C97_useless.
Print Assumptions C97_reload.
