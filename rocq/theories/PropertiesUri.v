(** C103: which URIs and which configurations are accepted, with nothing left to a parser. *)
From Coq Require Import Strings.String ZifyBool ZifyN ZifyNat.
From Verif Require Import Base BaseLemmas Deps Hex Eth Hash Settings Siwe Delegation Login Provider SpecEth EthProofs SpecSiwe SpecPrincipal SpecInit
  SettingsProofs SpecTrace LoginProofs ProviderProofs TraceProofs PropertiesSiwe Url SpecUrl UrlNumbers UrlHosts UrlV6 UrlProofs Concrete PropertiesUrl SpecUri UrlOther.
Local Open Scope N_scope.

Theorem C103_uri : forall L D uri, keeps_bracket (u_idna L) ->
  (uri_text (u_idna L) (u_drive L) uri /\ validate_uri (with_url L D) uri = Done (Ok tt)) \/
  (~ uri_text (u_idna L) (u_drive L) uri /\ validate_uri (with_url L D) uri = Done (Err (bs "Invalid URI"))).
Proof.
  intros L D uri HK. rewrite <- uri_iff by exact HK. unfold hosted, validate_uri. cbn [with_url d_url_parse].
  destruct (url_parse L uri) as [u|] eqn:E.
  - destruct (url_host u) as [h|] eqn:Eh; [left; eauto|]. right. split; [|reflexivity]. intros (i & h & Ei & Ehh). congruence.
  - right. split; [|reflexivity]. intros (i & h & Ei & _). discriminate Ei.
Qed.

Lemma acceptable_iff L D s : keeps_bracket (u_idna L) ->
  acceptable (with_url L D) s <->
  (s_scheme s = bs "http" \/ s_scheme s = bs "https") /\
  (exists host, web_domain (u_idna L) (s_domain s) host) /\ uri_text (u_idna L) (u_drive L) (s_uri s) /\
  (s_salt s <> [] /\ Forall (fun c => 33 <= nb c <= 126) (s_salt s)) /\
  s_chain_id s <> 0 /\ one_line (s_statement s) /\ s_sign_in_expires_in s <> 0 /\ s_session_expires_in s <> 0 /\
  (forall l, s_targets s = Some l -> (1 <= length l <= 1000)%nat /\ NoDup l).
Proof.
  intros HK. pose proof (uri_iff L (s_uri s) HK) as HU. unfold hosted in HU. split.
  - intros [(u & h & Eu & A & H) U S C Sc St T1 T2 Ta]. split; [exact Sc|]. split.
    + cbn [with_url d_url_parse] in Eu. apply domain_url_iff in Eu as (host & _ & Hw); [eauto|exact HK|exact Sc].
    + split; [now apply HU|]. auto 10.
  - intros (Sc & (host & Hw) & U & S & C & St & T1 & T2 & Ta). constructor; auto.
    + assert (url_parse L (s_scheme s ++ bs "://" ++ s_domain s) = found host) as E by (apply domain_url_iff; eauto).
      eexists _, host. split; [exact E|]. split; reflexivity.
    + now apply HU.
Qed.

Lemma default_ok (o : option N) d : d <> 0 -> (default d o <> 0 <-> o <> Some 0).
Proof. intros Hd. destruct o as [n|]; cbn; [split; congruence|]. split; [discriminate|auto]. Qed.

Lemma config_iff L D cid i : keeps_bracket (u_idna L) ->
  ((exists s fl, init_spec (with_url L D) cid i s fl) <-> config_ok (u_idna L) (u_drive L) cid i).
Proof.
  intros HK. split.
  - intros (s & fl & [E1 E2 E3 E4 E5 E6 E7 E8 Et _ _ _ Ha]). apply (acceptable_iff L D s HK) in Ha as (Sc & Hw & U & S & C & St & T1 & T2 & Ta).
    rewrite E1 in Hw. rewrite E2 in U. rewrite E3 in S. rewrite E4 in C. rewrite E5 in Sc. rewrite E6 in St. rewrite E7 in T1. rewrite E8 in T2.
    constructor; auto.
    + now apply (default_ok _ 1).
    + intros t Est. now rewrite Est in St.
    + now apply (default_ok _ 300000000000).
    + now apply (default_ok _ 1800000000000).
    + intros l El. rewrite El in Et. destruct Et as (ps & Eps & Ic & F). exists ps. split; [exact F|]. split; [exact Ic|].
      destruct (Ta ps Eps) as [[_ T] Nd]. auto.
  - intros [Sc Hw U S C St T1 T2 Ta].
    assert (exists tg : option (list bytes), match in_targets i with
      | None => tg = None
      | Some l => exists ps, tg = Some ps /\ In cid ps /\ Forall2 denotes l ps /\ (length ps <= 1000)%nat /\ NoDup ps end) as (tg & Htg).
    { destruct (in_targets i) as [l|]; [|eauto]. destruct (Ta l eq_refl) as (ps & F & I & Ln & Nd). exists (Some ps), ps. auto. }
    assert (exists rf, (rf = Some [IncludeUriInSeed] /\ requested i PF_IncludeUriInSeed) \/ (rf = None /\ ~ requested i PF_IncludeUriInSeed)) as (rf & Hrf).
    { assert (wants_uri i = true <-> requested i PF_IncludeUriInSeed) as Hq by (apply wants_requested; intros []; split; congruence).
      destruct (wants_uri i); [exists (Some [IncludeUriInSeed]); left; split; [reflexivity|now apply Hq]|].
      exists None. right. split; [reflexivity|]. intros Hr. apply Hq in Hr. discriminate. }
    set (s := mkSettings (in_domain i) (in_uri i) (in_salt i) (default 1 (in_chain_id i)) (default (bs "https") (in_scheme i))
      (default (bs "SIWE Fields:") (in_statement i)) (default 300000000000 (in_sign_in_expires_in i))
      (default 1800000000000 (in_session_expires_in i)) tg rf).
    exists s, (mkFlags (wants_no_principal i) (wants_no_address i)). constructor; try reflexivity.
    + cbn [s s_targets]. destruct (in_targets i); [|exact Htg]. destruct Htg as (ps & A & B & F & _). eauto.
    + exact Hrf.
    + cbn [disable_eth_to_principal]. apply wants_requested. intros []; split; congruence.
    + cbn [disable_principal_to_eth]. apply wants_requested. intros []; split; congruence.
    + apply acceptable_iff; [exact HK|]. cbn [s s_scheme s_domain s_uri s_salt s_chain_id s_statement s_sign_in_expires_in s_session_expires_in s_targets].
      split; [exact Sc|]. split; [exact Hw|]. split; [exact U|]. split; [exact S|].
      split; [apply default_ok; [discriminate|exact C]|]. split.
      { destruct (in_statement i) as [t|]; cbn [default from_option]; [now apply St|]. vm_compute. intuition discriminate. }
      split; [apply default_ok; [discriminate|exact T1]|]. split; [apply default_ok; [discriminate|exact T2]|].
      intros l El. destruct (in_targets i) as [ti|]; [|congruence]. destruct Htg as (ps & Eps & I & _ & Ln & Nd).
      assert (ps = l) as -> by congruence. split; [|exact Nd]. destruct l; [destruct I|]. cbn [length] in *. lia.
Qed.

(** The canister is installed or upgraded exactly by these arguments; the others trap and
    change nothing. *)
Theorem C103_install : forall L D cid now i s, keeps_bracket (u_idna L) ->
  (config_ok (u_idna L) (u_drive L) cid i /\ exists c, step (with_url L D) cid now (Install i) s = (Some c, RDone)) \/
  (~ config_ok (u_idna L) (u_drive L) cid i /\ exists w, step (with_url L D) cid now (Install i) s = (s, RTrap w)).
Proof.
  intros L D cid now i s HK. rewrite <- (config_iff L D cid i HK). cbn [step]. unfold do_install.
  destruct (siwe_init (with_url L D) cid i) as [[st fl]|w] eqn:E; cbn [obind].
  - left. split; [|eauto]. exists st, fl. now apply siwe_init_spec.
  - right. split; [|eauto]. intros (st & fl & Hi). apply siwe_init_spec in Hi. congruence.
Qed.

Theorem C103_upgrade : forall L D cid now i c, keeps_bracket (u_idna L) ->
  (config_ok (u_idna L) (u_drive L) cid i /\ exists c', step (with_url L D) cid now (Upgrade i) (Some c) = (Some c', RDone)) \/
  (~ config_ok (u_idna L) (u_drive L) cid i /\ exists w, step (with_url L D) cid now (Upgrade i) (Some c) = (Some c, RTrap w)).
Proof.
  intros L D cid now i c HK. rewrite <- (config_iff L D cid i HK). cbn [step]. unfold do_upgrade.
  destruct (siwe_init (with_url L D) cid i) as [[st fl]|w] eqn:E; cbn [obind].
  - left. split; [|eauto]. exists st, fl. now apply siwe_init_spec.
  - right. split; [|eauto]. intros (st & fl & Hi). apply siwe_init_spec in Hi. congruence.
Qed.

Definition accepted_uris : list bytes :=
  [bs "  HTTPS:example.com"; bs "wss:/\a@b:9/x"; bs "did://u@x:80\junk"; bs "x-y.z+1://%zz!?q"; bs "FILE:/\host/x"; bs "ipfs://[::1]:2#f"].
Definition refused_uris : list bytes :=
  [bs "example.com"; bs "mailto:a@b.c"; bs "did:///x"; bs "did://a\b"; bs "did://x:80\a@"; bs "file:///x"; bs "file://localhost/x";
   bs "file://C|/x"; bs "wss://"; bs "1a://x"; bs "did://x:65536"; bs "did:/\x"; bs "did://a[b"].

Example C103_case : Forall (uri_text (u_idna L0) (u_drive L0)) accepted_uris /\
  Forall (fun u => ~ uri_text (u_idna L0) (u_drive L0) u) refused_uris.
Proof.
  assert (forall u, (validate_uri (with_url L0 CD) u = Done (Ok tt) <-> uri_text (u_idna L0) (u_drive L0) u)) as HV.
  { intros u. destruct (C103_uri L0 CD u L0_keeps) as [[A B]|[A B]]; rewrite B; [tauto|]. split; [discriminate|contradiction]. }
  split.
  - unfold accepted_uris. repeat constructor; apply HV; vm_compute; reflexivity.
  - unfold refused_uris. repeat constructor; intros H; apply HV in H; vm_compute in H; discriminate H.
Qed.

(** Domain, URI and salt given, everything else left out; and the same with an empty list
    of targets. *)
Example C103_config_case : forall cid,
  config_ok (u_idna L0) (u_drive L0) cid
    (mkInput (bs "example.com:8080") (bs "did://x") (bs "salt") None None None None None None None) /\
  ~ config_ok (u_idna L0) (u_drive L0) cid
    (mkInput (bs "example.com:8080") (bs "did://x") (bs "salt") None None None None None (Some []) None).
Proof.
  intros cid. split.
  - destruct (C103_install L0 CD cid 0 (mkInput (bs "example.com:8080") (bs "did://x") (bs "salt") None None None None None None None) None L0_keeps)
      as [[H _]|[_ [w E]]]; [exact H|]. vm_compute in E. discriminate E.
  - intros [_ _ _ _ _ _ _ _ Ht]. destruct (Ht [] eq_refl) as (ps & F & I & _). inversion F; subst. destruct I.
Qed.

Print Assumptions C103_uri.
Print Assumptions C103_install.
Print Assumptions C103_upgrade.
