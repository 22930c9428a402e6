(** C87: what a wallet that checks the domain of sign-in messages is good for. *)
From Coq Require Import Strings.String ZifyBool ZifyN ZifyNat.
From Verif Require Import Base BaseLemmas Deps Hex Eth Settings Encode Delegation Login Provider SpecEth EthProofs SpecHash
  SpecWire WireProofs SpecTree SpecSiwe SpecInit SettingsProofs Siwe SiweProofs SpecTrace SpecAuth ProviderProofs TraceProofs LoginTheory LoginProofs DelegationTheory
  CallProofs Concrete Scripts Demo Url Secp SpecEcdsa EcdsaBytes EcdsaProofs EcdsaVector
  Candid SpecCandid CandidBase Interface SpecInterface InterfaceProofs InterfaceReplies RepliesFine
  PropertiesUrl PropertiesAuth PropertiesEcdsa PropertiesCandid SpecWhole PropertiesWhole SpecGrammar GrammarProofs PropertiesGrammar.
Local Open Scope N_scope.

(** ** C87  With a wallet that checks domains, only pages of the configured domain sign users in *)

(** Behind an accepted request is a login with a signature [sg] by the user's key.  Suppose that all
    texts for which [sg] is a signature by this key were signed in the wallet, each for some page, and that the
    wallet signs sign-in messages only for pages of their own domain.  Then, if the configured texts
    conform to ERC-4361, it was a page of the configured domain for which the wallet signed. *)
Theorem C87_page_behind : forall D cid q tr c certificate now target pk d, deps_ok D -> (length cid <= 29)%nat ->
  calls (with_k256 D) cid q tr (Some c) -> replica_accepts D cid (c_certified c) certificate now target pk d ->
  (exists b l i sg x n pk' key, In b tr /\ In l tr /\ configured q b i /\
     asked_login q l sg x (dl_pubkey (sd_delegation d)) n (dl_expiration (sd_delegation d)) pk' /\
     address_of_key D key x /\ canister_pubkey_decode pk = Some (cid, user_seed D i x) /\
     forall signed, conforming_input i -> binds_pages (d_keccak D) signed ->
     (forall text, wallet_signature (d_keccak D) key text sg -> exists origin, signed origin text) ->
     exists p x' text n' origin, In p tr /\ asked_text q p x' text n' /\ wallet_signature (d_keccak D) key text sg /\
       signed origin text /\ for_page origin (in_domain i)) \/
  auth_collision (with_k256 D) cid (omap (decoded q) tr) certificate pk d.
Proof.
  intros D cid q tr c certificate now target pk d HD Lc H Ha. pose proof (with_k256_ok D HD) as HD'.
  apply calls_exec in H. pose proof Ha as (Hnow & _).
  destruct (C61_login_behind (with_k256 D) cid _ c certificate now target pk d HD' Lc H Ha)
    as [(x & sk & exp & pk' & i & t & (bef & l & aft & sg & n & since & Etr & Hl & Hb) & Ht & Epk & _ & Esd)|C]; [left|now right].
  rewrite Esd in *. cbn [dl_pubkey dl_expiration dl_targets] in *.
  assert (exists s1, exec (with_k256 D) cid (bef ++ [l]) s1) as [s1 H1] by (rewrite Etr in H; eapply exec_at, H).
  destruct (login_explained (with_k256 D) cid bef l s1 sg x sk n exp pk' HD' H1 Hl)
    as (i' & st & fl & since' & b0 & p & a0 & x' & a & a' & n' & text & Hs & Hin & Es & Hp & Aa & Aa' & Ek & Et & _ & Rx & _ & Hw & Eexp & _).
  destruct (since_boot_fun _ _ _ _ _ Hb Hs) as [<- <-].
  apply recovers_wallet in Rx as (key & Q & addr & Hk & Hka & Ex & Hsig); [|assumption].
  assert (In p since) as Ip by (rewrite Es; apply in_app_iff; right; left; reflexivity).
  assert (In p bef) as Ipb by (apply since_boot_sub in Hb as [pre ->]; apply in_app_iff; now right).
  destruct (decoded_in q tr p) as (p0 & Ip0 & Op0 & Rp0 & Tp0).
  { rewrite Etr. apply in_app_iff. now left. }
  destruct (decoded_in q tr l) as (l0 & Il0 & Ol0 & Rl0 & Tl0).
  { rewrite Etr. apply in_app_iff. right. now left. }
  pose proof Hb as (pre & bt & Ebef & [Hbo Hbr] & _).
  destruct (decoded_in q tr bt) as (b1 & Ib1 & Ob1 & Rb1 & _).
  { rewrite Etr, Ebef. apply in_app_iff. left. apply in_app_iff. right. now left. }
  exists b1, l0, i, sg, x, n, pk', key. split; [exact Ib1|]. split; [exact Il0|].
  split. { split; [rewrite Ob1; destruct Hbo as [->| ->]; auto|congruence]. }
  pose proof Hp as [Hpo Hpr]. destruct Hl as [Hlo Hlr].
  split. { split; congruence. } split; [exists Q, addr; auto|]. split; [exact Epk|].
  intros signed Hc Hbind Hall. destruct (Hall text Hsig) as [origin Ho].
  exists p0, x', text, n', origin. split; [exact Ip0|]. split; [split; congruence|]. split; [exact Hsig|]. split; [exact Ho|].
  apply exec_last in H1 as (s0 & H0 & _).
  destruct (prepared_message (with_k256 D) cid bef s0 i since p x' text n' HD' H0 Hb Ip Hp) as (m & Em & Hv & Hma & Hn & Hi & He & Ls & Ed & Est & Eu).
  destruct Hc as (Cd & Cs & Cu). rewrite <- Est in Cs. rewrite <- Eu in Cu.
  assert (sign_in_message (d_keccak D) text) as Hmsg.
  { apply (conforming (d_keccak D) m text Em Hv Hma Hn Hi He shown_domain); [rewrite Ed|..]; assumption. }
  assert (sign_in_message_for (fun l => l = in_domain i) (d_keccak D) text) as Hthis.
  { apply (conforming (d_keccak D) m text Em Hv Hma Hn Hi He); assumption. }
  destruct (same_domain _ _ _ _ (clean_for_page origin) (fun l (E : l = in_domain i) => eq_ind_r one_line (clean_shown_domain _ Cd) E)
    (Hbind origin text Ho Hmsg) Hthis) as (d0 & Hd0 & -> & _). exact Hd0.
Qed.

(** A wallet that keeps the rule, over a signature made for the example of C85: the configuration conforms and
    the wallet's only page is that of the configured domain. *)
Example C87_case : exists tr c pk d, (length demo_cid <= 29)%nat /\ calls (with_k256 CD) demo_cid 6 tr (Some c) /\
  replica_accepts CD demo_cid (c_certified c) (bs "cert") (1000 * sec) (bs "any") pk d /\ conforming_input demo_input /\
  binds_pages (d_keccak CD) (fun origin text => sign_in_message_for (for_page origin) (d_keccak CD) text /\ origin = bs "example.com") /\
  for_page (bs "example.com") (in_domain demo_input) /\ ~ for_page (bs "evil.org") (in_domain demo_input).
Proof.
  destruct C85_case as (tr & c & x & text & n & sg & exp & pk & _ & _ & Hd). destruct (Hd (bs "cert") eq_refl) as (d & H & Ha).
  eexists _, c, pk, d. split; [vm_compute; lia|]. split; [exact H|]. split; [exact Ha|].
  assert (Forall (fun c => unreserved [c]) (bs "example.com")) as Hf.
  { repeat (constructor; [apply unreserved_char; reflexivity|]). constructor. }
  split; [split; [now apply domain_plain|split; [exact default_statement|exact (https_uri _ (authority_plain _ Hf))]]|].
  split; [intros o t [Ho _] _; exact Ho|]. split.
  - exists [], (bs "example.com"). split; [reflexivity|]. split; [now left|]. split; [reflexivity|now apply authority_plain].
  - intros (a & b & E & _ & -> & _). apply (f_equal (@rev _)) in E. rewrite rev_app_distr in E. discriminate E.
Qed.

Lemma with_k256_keccak D : d_keccak (with_k256 D) = d_keccak D.
Proof. reflexivity. Qed.

(** Without the condition on the configuration it is false: a wallet that keeps the rule and has signed nothing but one
    text, for a page of evil.org, and a replica that accepts a request as by the wallet's user.  The text
    is no sign-in message, because of the statement "Get 10% off". *)
Theorem C87_refuted : exists tr c x text n sg exp pk d, let D := with_url L0 CD in
  calls (with_k256 D) demo_cid 6 (tr ++ sign_in_calls (2 * sec) (3 * sec) (4 * sec) [x04] (bs "cert") x text n sg key1 exp pk d) (Some c) /\
  (exists b, In b tr /\ configured 6 b odd1) /\ address_of_key D key5 x /\ wallet_signature (d_keccak D) key5 text sg /\
  binds_pages (d_keccak D) (fun origin t => origin = bs "evil.org" /\ t = text) /\
  replica_accepts D demo_cid (c_certified c) (bs "cert") (1000 * sec) (bs "any") pk d /\
  canister_pubkey_decode pk = Some (demo_cid, user_seed D odd1 x).
Proof.
  set (D := with_url L0 CD). pose proof (with_url_ok L0 CD CD_ok : deps_ok D) as HD.
  set (script := [(0, Install odd1); (1 * sec, RawRand (Some (repeat x07 32)))]).
  set (tr := [mkEvent 0 (Install odd1) RDone; mkEvent (1 * sec) (RawRand (Some (repeat x07 32))) RDone]).
  assert (exec (with_k256 D) demo_cid tr (snd (play (with_k256 D) demo_cid script None))) as H.
  { apply (play_exec _ _ script); [vm_compute; reflexivity|].
    replace tr with (fst (play (with_k256 D) demo_cid script None)) by (vm_compute; reflexivity). apply surjective_pairing. }
  destruct (C80_every_history (with_k256 D) demo_cid 6 tr _ (le_n 6) H) as (msgs & Hm & Ed & Et & _).
  { unfold tr. repeat first [apply List.Forall_nil | apply List.Forall_cons]; cbn [ev_op op_fine]; try exact I;
      repeat first [split | plain_fine | exact I | (vm_compute; reflexivity)]. }
  assert (since_boot (omap (decoded 6) msgs) odd1 [mkEvent (1 * sec) (RawRand (Some (repeat x07 32))) RDone]) as Hb.
  { rewrite Ed. exists [], (mkEvent 0 (Install odd1) RDone). split; [reflexivity|]. split; [split; [left; reflexivity|reflexivity]|].
    repeat constructor; intros (i & [E|E] & _); discriminate. }
  assert (address_of_key D key5 five_text) as Hkey.
  { exists (Aff (fst five_Q) (snd five_Q)), five_addr. split; [exact five_key|]. split; [exact five_address|vm_compute; reflexivity]. }
  destruct (C85_key_suffices D demo_cid 6 msgs (snd (play (with_k256 D) demo_cid script None)) odd1 [mkEvent (1 * sec) (RawRand (Some (repeat x07 32))) RDone]
    [] (mkEvent (1 * sec) (RawRand (Some (repeat x07 32))) RDone) [] (repeat x07 32) key5 five_text key1 [x04]
    (2 * sec) (3 * sec) (4 * sec) (1000 * sec) (bs "any"))
    as (text & n & [sg Hsg] & Hall);
    [exact HD|vm_compute; lia|lia|exact Hm|exact Hb|reflexivity|reflexivity|constructor|exact Hkey| |vm_compute; reflexivity| |
     |vm_compute; discriminate|vm_compute; reflexivity|vm_compute; discriminate|vm_compute; reflexivity|vm_compute; reflexivity
     |vm_compute; discriminate|vm_compute; discriminate| |].
  - intros [E|E]; [discriminate|apply E; vm_compute; reflexivity].
  - intros l sg y n exp pk [<-|[]] [E _]. discriminate.
  - apply List.Forall_forall. intros e He. assert (In (ce_time e) (map ev_time tr)) as I0 by (rewrite <- Et; now apply in_map).
    destruct I0 as [<-|[<-|[]]]; vm_compute; discriminate.
  - intros t ts Ht ->. cbn in Ht. discriminate.
  - destruct (Hall sg Hsg) as (exp & pk & c & _ & Epk & _ & Hd).
    destruct (Hd (bs "cert") eq_refl) as [(d & Hc & _ & Ha)|(l & ? & ? & ? & ? & ? & ? & ? & ? & [<-|[]] & [E _] & _)];
      [|discriminate].
    exists msgs, c, five_text, text, n, sg, exp, pk, d. split; [exact Hc|]. split; [|split; [exact Hkey|split; [exact Hsg|]]].
    { destruct (decoded_in 6 msgs (mkEvent 0 (Install odd1) RDone)) as (b & Ib & Ob & Rb & _); [rewrite Ed; now left|].
      exists b. split; [exact Ib|]. split; [left; exact Ob|exact Rb]. }
    split; [|split; [exact Ha|rewrite Epk; apply pubkey_decodes; [vm_compute; lia|vm_compute; reflexivity]]].
    intros o t [_ ->] Hmsg. exfalso.
    apply calls_exec in Hc. unfold sign_in_calls in Hc.
    match type of Hc with exec _ _ (omap _ (_ ++ ?e :: ?r)) _ => change (e :: r) with ([e] ++ r) in Hc end.
    rewrite app_assoc, omap_app in Hc. rewrite (decoded_snoc 6 msgs _ _ _ _ _ (PrepareLogin five_text)) in Hc.
    + apply exec_prefix in Hc as [s1 Hc].
      rewrite <- (with_k256_keccak D) in Hmsg.
      eapply (C86_exactly (with_k256 D) demo_cid _ _ odd1 _ _ five_text text n (with_k256_ok D HD) Hc) in Hmsg.
      * destruct Hmsg as (_ & Hs & _). now apply percent_statement in Hs.
      * apply since_boot_snoc; [exact Hb|]. intros (i & [E|E] & _); discriminate.
      * apply in_app_iff. right. now left.
      * split; reflexivity.
    + apply request_arrives; [exact I|discriminate|discriminate|]. apply js_prepare_carries; [plain_fine|lia].
Qed.

Print Assumptions C87_page_behind.
Print Assumptions C87_refuted.
