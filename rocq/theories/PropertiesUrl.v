(** C74-C76: which domains and URIs a configuration may have, with the URL parser of
    Url.v in place of the parameter; and the refutations of C10, C21 and C24 without
    their assumptions about that parser. *)
From Coq Require Import Strings.String.
From Verif Require Import Base BaseLemmas Deps Hex Eth SpecEth EthProofs Hash SpecHash Settings Siwe Delegation
  SpecSiwe SettingsProofs SiweProofs Provider SpecInit PropertiesHash PropertiesSiwe
  Url SpecUrl UrlNumbers UrlHosts UrlV6 UrlProofs Concrete.
Local Open Scope N_scope.

(** A library that refuses every name outside ASCII, for the concrete cases. *)
Definition L0 : url_libs := {| u_idna := fun _ => None; u_drive := fun _ => false |}.
Lemma L0_keeps : keeps_bracket (u_idna L0).
Proof. intros d host H. discriminate. Qed.

(** ** C74 Accepted domains *)

Lemma found_host u host : Some u = found host -> url_has_authority u = true /\ url_host u = Some host.
Proof. intros E. apply (inj Some) in E. now subst u. Qed.

Lemma validate_domain_exact L D s d : keeps_bracket (u_idna L) -> web_scheme s ->
  (validate_domain (with_url L D) s d = Done (Ok tt) /\ exists host, web_domain (u_idna L) d host) \/
  (validate_domain (with_url L D) s d = Done (Err (bs "Invalid domain")) /\ ~ exists host, web_domain (u_idna L) d host).
Proof.
  intros HK Hs. unfold validate_domain. cbn [with_url d_url_parse].
  destruct (url_parse L (s ++ bs "://" ++ d)) as [u|] eqn:E.
  - left. apply domain_url_iff in E as (host & Eu & Hw); [|exact HK|exact Hs].
    apply found_host in Eu as [-> ->]. split; [reflexivity|eauto].
  - right. split; [reflexivity|]. intros [host Hw].
    assert (url_parse L (s ++ bs "://" ++ d) = found host) as C; [|rewrite E in C; discriminate].
    apply domain_url_iff; eauto.
Qed.

(** The builder accepts exactly these settings; [C76_uri_exact] says which URIs pass. *)
Theorem C74_build_exact : forall L D s s', keeps_bracket (u_idna L) ->
  build (with_url L D) s = Done (Ok s') <->
  s' = s /\ (s_scheme s = bs "http" \/ s_scheme s = bs "https") /\
  (exists host, web_domain (u_idna L) (s_domain s) host) /\
  validate_uri (with_url L D) (s_uri s) = Done (Ok tt) /\
  s_salt s <> [] /\ Forall (fun c => 33 <= nb c <= 126) (s_salt s) /\
  s_chain_id s <> 0 /\ one_line (s_statement s) /\ s_sign_in_expires_in s <> 0 /\ s_session_expires_in s <> 0 /\
  (forall l, s_targets s = Some l -> (1 <= length l <= 1000)%nat /\ NoDup l).
Proof.
  intros L D s s' HK. rewrite build_ok. split.
  - intros [[(u & h & Eu & A & H) U [S1 S2] C Sc St T1 T2 Ta] ->]. split; [reflexivity|]. split; [exact Sc|]. split.
    + cbn [with_url d_url_parse] in Eu. apply domain_url_iff in Eu as (host & _ & Hw); [eauto|exact HK|exact Sc].
    + split; [now apply validate_uri_ok|]. auto 10.
  - intros (-> & Sc & (host & Hw) & U & S1 & S2 & C & St & T1 & T2 & Ta). split; [|reflexivity]. constructor; auto.
    + assert (url_parse L (s_scheme s ++ bs "://" ++ s_domain s) = found host) as E by (apply domain_url_iff; eauto).
      eexists _, host. split; [exact E|]. split; reflexivity.
    + now apply validate_uri_ok.
Qed.

(** A domain that is refused is refused with an error, never with a panic, when the
    scheme is one of the two. *)
Theorem C74_refused : forall L D s, keeps_bracket (u_idna L) ->
  s_scheme s = bs "http" \/ s_scheme s = bs "https" ->
  ~ (exists host, web_domain (u_idna L) (s_domain s) host) ->
  build (with_url L D) s = Done (Err (bs "Invalid domain")).
Proof.
  intros L D s HK Hs Hn. destruct (validate_domain_exact L D (s_scheme s) (s_domain s) HK Hs) as [[_ H]|[H _]]; [contradiction|].
  unfold build. rewrite H. reflexivity.
Qed.

(** Whatever is installed has such a domain. *)
Theorem C74_installed : forall L D cid now i st c o, keeps_bracket (u_idna L) ->
  o = Install i \/ o = Upgrade i -> step (with_url L D) cid now o st = (Some c, RDone) ->
  exists host, web_domain (u_idna L) (in_domain i) host.
Proof.
  intros L D cid now i st c o HK Ho H.
  destruct (C26_install_or_trap _ _ _ _ _ _ _ _ Ho H) as [(c' & s & _ & _ & _ & Hi)|[_ [w Hw]]]; [|discriminate].
  destruct Hi as [Hd _ _ _ _ _ _ _ _ _ _ _ [(u & h & Eu & _ & _) _ _ _ Sc _ _ _ _]].
  cbn [with_url d_url_parse] in Eu. apply domain_url_iff in Eu as (host & _ & Hw); [|exact HK|exact Sc].
  rewrite Hd in Hw. eauto.
Qed.

(** The domain names one host. *)
Theorem C74_one_host : forall idna d h1 h2, keeps_bracket idna ->
  web_domain idna d h1 -> web_domain idna d h2 -> h1 = h2.
Proof.
  intros idna d h1 h2 HK H1 H2. set (L := {| u_idna := idna; u_drive := fun _ => false |}).
  assert (url_parse L (bs "https" ++ bs "://" ++ d) = found h1) as E1
    by (apply domain_url_iff; [exact HK|now right|eauto]).
  assert (url_parse L (bs "https" ++ bs "://" ++ d) = found h2) as E2
    by (apply domain_url_iff; [exact HK|now right|eauto]).
  rewrite E1 in E2. unfold found in E2. congruence.
Qed.

(** Ordinary host names, with or without a port, are accepted: letters, digits, '-',
    '_' and dots, the last label starting with a letter. *)
Definition ordinary (h low : bytes) : Prop :=
  Forall name_char h /\ ascii_name h low /\
  exists ps c p, labels low (ps ++ [c :: p]) /\ 97 <= nb c <= 122.

Lemma decode_plain h : ~ In x25 h -> percent_decode h = h.
Proof.
  induction h as [|c h IH]; intros Hn; [reflexivity|]. rewrite percent_decode_unfold.
  rewrite IH by (intros C; apply Hn; now right).
  destruct h as [|a [|b r]]; try reflexivity. unfold pct_pair.
  replace (Byte.eqb c x25) with false; [reflexivity|]. symmetry. apply byte_eqb_neq. intros ->. apply Hn. now left.
Qed.

Definition name_char_b (c : byte) : bool :=
  ((48 <=? nb c) && (nb c <=? 57)) || ((65 <=? nb c) && (nb c <=? 90)) || ((97 <=? nb c) && (nb c <=? 122)) ||
  Byte.eqb c x2d || Byte.eqb c x2e || Byte.eqb c x5f.
Lemma name_char_iff c : name_char_b c = true <-> name_char c.
Proof.
  unfold name_char_b, name_char. rewrite !orb_true_iff, !andb_true_iff, !N.leb_le.
  rewrite (byte_eqb_spec c x2d), (byte_eqb_spec c x2e), (byte_eqb_spec c x5f). tauto.
Qed.
Lemma name_char_facts c : name_char c ->
  ~ ender c /\ c <> x3a /\ c <> x40 /\ c <> x5b /\ c <> x25 /\ ~ blank c /\ ~ forbidden (to_lower c).
Proof.
  intros H. apply name_char_iff in H.
  assert (ends_authority SpecialNotFile c = false /\ c0_or_space c = false /\ invalid_domain_char (to_lower c) = false) as (H1 & H2 & H3).
  { revert H. clear. destruct c; vm_compute; intros H; try discriminate; auto. }
  split; [intros C; apply ender_iff in C; congruence|].
  split; [intros ->; discriminate|]. split; [intros ->; discriminate|]. split; [intros ->; discriminate|].
  split; [intros ->; discriminate|]. split.
  - intros C. assert (c0_or_space c = true) by now apply N.leb_le. congruence.
  - intros C. apply forbidden_iff in C. congruence.
Qed.

Lemma letter_not_numeric low ps c p : labels low (ps ++ [c :: p]) -> 97 <= nb c <= 122 -> ~ numeric_name low.
Proof.
  intros Hl Hc (ps' & p' & Hp & Hn).
  assert (proper_labels low (ps ++ [c :: p])) as Hp' by (constructor; [exact Hl|discriminate]).
  apply proper_iff in Hp, Hp'; try (now destruct ps'); try (now destruct ps).
  rewrite <- Hp' in Hp. apply app_inj_tail in Hp as [_ ->].
  assert (radix_digit 10 c = false) as Hd.
  { revert Hc. clear. destruct c; vm_compute; intros [H1 H2]; try reflexivity; exfalso; try (now apply H1); now apply H2. }
  destruct Hn as [[_ [n Hn]]|[n Hn]].
  - apply numeral_iff in Hn as [Hn _]; [|lia]. cbn in Hn. now rewrite Hd in Hn.
  - inversion Hn as [x q m Hx Hm Eq|q m Hq Hm Eq|Eq|q m Hq Hh Hm Eq]; subst; try (cbn in Hc; lia).
    apply numeral_iff in Hm as [Hm _]; [|lia]. cbn in Hm. now rewrite Hd in Hm.
Qed.

Lemma ordinary_host_part idna h low : ordinary h low -> host_part idna h low.
Proof.
  intros (Hn & Ha & ps & c & p & Hl & Hc). right.
  assert (h <> []) as Hne.
  { intros ->. destruct Ha as (_ & F & _). inversion F; subst. apply labels_iff in Hl. cbn in Hl.
    destruct ps; [discriminate|destruct ps; discriminate]. }
  split; [exact Hne|]. split.
  - eapply List.Forall_impl; [|exact Hn]. intros x Hx. apply name_char_facts in Hx. tauto.
  - exists h, low. split; [|split; [now left|split; [|split; [|left; split; [|reflexivity]]]]].
    + apply unescapes_iff. symmetry. apply decode_plain. intros C. rewrite List.Forall_forall in Hn.
      apply Hn in C. apply name_char_facts in C. tauto.
    + destruct Ha as (_ & F & _). intros ->. inversion F; subst. contradiction.
    + destruct Ha as (_ & F & _). apply lowered_list_iff in F as ->. apply List.Forall_forall. intros x Hx.
      apply in_map_iff in Hx as (y & <- & Hy). rewrite List.Forall_forall in Hn. apply Hn in Hy.
      apply name_char_facts in Hy. tauto.
    + eapply letter_not_numeric; eauto.
Qed.

Theorem C74_ordinary : forall idna h low port n tail, ordinary h low ->
  (port = [] \/ (port = bs ":" ++ dec n /\ n <= 65535)) ->
  (tail = [] \/ hd_error tail = Some x2f /\ Forall (fun c => 33 <= nb c <= 126) tail) ->
  web_domain idna (h ++ port ++ tail) low.
Proof.
  intros idna h low port n tail Ho Hp Ht. exists (h ++ port ++ tail). split.
  - apply reads_as_iff. symmetry. apply cleaned_solid.
    apply Forall_app_2; [|apply Forall_app_2].
    + destruct Ho as (Hn & _). eapply List.Forall_impl; [|exact Hn]. intros x Hx. apply name_char_facts in Hx. tauto.
    + destruct Hp as [->|[-> _]]; [constructor|]. constructor; [intros C; vm_compute in C; now apply C|].
      eapply List.Forall_impl; [|apply dec_digits]. intros x Hx C. unfold is_dec_digit in Hx. unfold blank in C. lia.
    + destruct Ht as [->|[_ Ht]]; [constructor|]. eapply List.Forall_impl; [|exact Ht]. intros x Hx C. cbv beta in Hx. unfold blank in C. lia.
  - exists [], [], h, port, tail. split; [reflexivity|]. split; [constructor|]. split; [now left|].
    split; [now apply ordinary_host_part|]. split.
    + destruct Hp as [->|[-> Hn]]; [now left|]. right. exists (dec n), n. split; [reflexivity|]. split; [|exact Hn].
      apply numeral_dval. split; [|apply (undec_dec n)]. apply forallb_forall. intros x Hx.
      pose proof (dec_digits n) as Hd. rewrite List.Forall_forall in Hd. apply Hd in Hx. now apply digit_range.
    + destruct Ht as [->|[Ht _]]; [now left|]. right. destruct tail as [|c r]; [discriminate|].
      injection Ht as ->. exists x2f, r. split; [reflexivity|]. left. now left.
Qed.

Example C74_case :
  ordinary (bs "App.Example.com") (bs "app.example.com") /\ keeps_bracket (u_idna L0) /\
  (exists s, build (with_url L0 CD) s = Done (Ok s) /\ s_domain s = bs "App.Example.com:8080") /\
  web_domain (u_idna L0) (bs "127.1") (bs "127.0.0.1") /\
  web_domain (u_idna L0) (bs "[::ffff:1.2.3.4]:80") (bs "[::ffff:1.2.3.4]") /\
  Forall (fun d => build (with_url L0 CD) (builder_new d (bs "https://example.com") (bs "salt"))
                     = Done (Err (bs "Invalid domain")))
    [[]; bs ":80"; bs "exa mple.com"; bs "example.com:65536"; bs "example.com:80a"; bs "a@"; bs "1.2.3.4.5"; bs "[::1";
     bs "a%20b"; bs "1.2.3.256"].
Proof.
  split; [|split; [exact L0_keeps|split; [|split; [|split]]]].
  - split; [repeat (constructor; [apply name_char_iff; reflexivity|]); constructor|].
    split; [apply ascii_name_iff; split; reflexivity|].
    exists [bs "app"; bs "example"], x63, (bs "om"). split; [apply labels_iff; reflexivity|vm_compute; split; discriminate].
  - exists (builder_new (bs "App.Example.com:8080") (bs "https://example.com") (bs "salt")). split; vm_compute; reflexivity.
  - assert (url_parse L0 (bs "https" ++ bs "://" ++ bs "127.1") = found (bs "127.0.0.1")) as E by (vm_compute; reflexivity).
    apply domain_url_iff in E as (host & E & H); [|exact L0_keeps|now right]. apply found_host in E as [_ E].
    vm_compute in E. apply (inj Some) in E. now subst host.
  - assert (url_parse L0 (bs "https" ++ bs "://" ++ bs "[::ffff:1.2.3.4]:80") = found (bs "[::ffff:1.2.3.4]")) as E
      by (vm_compute; reflexivity).
    apply domain_url_iff in E as (host & E & H); [|exact L0_keeps|now right]. apply found_host in E as [_ E].
    vm_compute in E. apply (inj Some) in E. now subst host.
  - repeat (constructor; [vm_compute; reflexivity|]). constructor.
Qed.

(** ** C75 The domain shown to the user is the site the configuration names *)

(** ERC-4361: the domain is the RFC 3986 authority asking for the signature.  For the
    host named by an accepted domain: *)
Definition C75_claim (idna : bytes -> option bytes) : Prop := forall d host, web_domain idna d host ->
  exists h port, d = h ++ port /\ host_part idna h host /\ port_part port.

(** True of domains without blanks, slashes, '?', '#' and '@'. *)
Theorem C75_shown_partial : forall idna d host, web_domain idna d host ->
  Forall (fun c => ~ blank c /\ ~ ender c /\ c <> x40) d ->
  exists h port, d = h ++ port /\ host_part idna h host /\ port_part port.
Proof.
  intros idna d host (text & Hr & s & user & h & p & t & -> & Hs & Hu & Hh & Hp & Ht) Hd.
  apply reads_as_iff in Hr. rewrite cleaned_solid in Hr by (eapply List.Forall_impl; [|exact Hd]; cbn; tauto).
  subst d. rewrite !Forall_app in Hd. destruct Hd as (D1 & D2 & D3 & D4 & D5).
  assert (s = []) as ->.
  { destruct s as [|c s]; [reflexivity|]. exfalso. inversion Hs as [|? ? Hc]; subst. inversion D1 as [|? ? (_ & C & _)]; subst.
    apply C. now left. }
  assert (user = []) as ->.
  { destruct Hu as [->|(w & -> & _)]; [reflexivity|]. exfalso. rewrite Forall_app in D2. destruct D2 as [_ D2].
    inversion D2 as [|? ? (_ & _ & C)]; subst. now apply C. }
  assert (t = []) as ->.
  { destruct Ht as [->|(c & r & -> & Hc)]; [reflexivity|]. exfalso. inversion D5 as [|? ? (_ & C & _)]; subst. now apply C. }
  exists h, p. rewrite app_nil_r. auto.
Qed.

(** With ordinary characters only, the host is the domain up to the port, in lower case. *)
Theorem C75_plain_partial : forall idna h p low d host, ordinary h low -> port_part p -> d = h ++ p ->
  keeps_bracket idna -> web_domain idna d host -> host = low.
Proof.
  intros idna h p low d host Ho Hp -> HK Hw. eapply C74_one_host; [exact HK|exact Hw|].
  exists (h ++ p). split.
  - apply reads_as_iff. symmetry. apply cleaned_solid. apply Forall_app_2.
    + destruct Ho as (Hn & _). eapply List.Forall_impl; [|exact Hn]. intros x Hx. apply name_char_facts in Hx. tauto.
    + destruct Hp as [->|(q & n & -> & Hq & _)]; [constructor|]. constructor; [intros C; vm_compute in C; now apply C|].
      apply numeral_dval in Hq as [Hq _]. apply List.Forall_forall. intros x Hx C. rewrite forallb_forall in Hq.
      apply Hq in Hx. apply digit_range in Hx. unfold blank in C. lia.
  - exists [], [], h, p, []. rewrite app_nil_r. split; [reflexivity|]. split; [constructor|]. split; [now left|].
    split; [now apply ordinary_host_part|]. split; [exact Hp|now left].
Qed.

(** False in general, and the difference reaches the user: a configuration for the site
    evil.org is accepted whose messages open with "example.com@evil.org wants you to
    sign in", and one whose domain has a path. *)
Lemma web_domain_of idna d host :
  url_parse {| u_idna := idna; u_drive := fun _ => false |} (bs "https" ++ bs "://" ++ d) = found host ->
  keeps_bracket idna -> web_domain idna d host.
Proof.
  intros E HK. apply domain_url_iff in E as (h & E & H); [|exact HK|now right].
  unfold found in E. apply (inj Some) in E. injection E as ->. exact H.
Qed.

Theorem C75_claim_refuted : forall idna, keeps_bracket idna -> ~ C75_claim idna.
Proof.
  intros idna HK HC. destruct (HC (bs "example.com@evil.org") (bs "evil.org")) as (h & p & E & Hh & Hp).
  { apply web_domain_of; [vm_compute; reflexivity|exact HK]. }
  destruct (host_free _ _ _ Hh) as (_ & H1 & _). destruct (port_free p Hp) as [_ H2].
  assert (In x40 (h ++ p)) as C by (rewrite <- E; vm_compute; tauto).
  apply in_app_or in C as [C|C]; contradiction.
Qed.

Theorem C75_other_site_refuted : forall L D now a nonce, keeps_bracket (u_idna L) ->
  now <= u64_max -> exists s m text rest,
  build (with_url L D) s = Done (Ok s) /\ web_domain (u_idna L) (s_domain s) (bs "evil.org") /\
  siwe_message_new (Some s) now a nonce = Done m /\ siwe_to_string m = Done text /\
  text = bs "example.com@evil.org wants you to sign in with your Ethereum account:" ++ rest.
Proof.
  intros L D now a nonce HK Hn.
  set (s := builder_new (bs "example.com@evil.org") (bs "https://example.com") (bs "salt")).
  assert (exists m, siwe_message_new (Some s) now a nonce = Done m /\ m_domain m = bs "example.com@evil.org" /\
    m_issued_at m <= u64_max /\ m_expiration_time m <= u64_max) as (m & M & Md & M1 & M2).
  { eexists. split; [reflexivity|]. split; [reflexivity|]. split; [exact Hn|apply sat_add_le]. }
  destruct (siwe_to_string_done m M1 M2) as [text T].
  assert (exists rest, text = bs "example.com@evil.org wants you to sign in with your Ethereum account:" ++ rest) as [rest R].
  { revert T. unfold siwe_to_string. rewrite Md. intros T.
    apply obind_done in T as (i & _ & T). apply obind_done in T as (e & _ & T).
    assert (forall x y : bytes, Done x = Done y -> x = y) as Inj by congruence.
    apply Inj in T. rewrite <- T. rewrite app_assoc. eexists. reflexivity. }
  exists s, m, text, rest. split; [|split; [|split; [exact M|split; [exact T|exact R]]]].
  - destruct L. vm_compute. reflexivity.
  - apply web_domain_of; [vm_compute; reflexivity|exact HK].
Qed.

(** Characters around and inside the host that are not shown by the address bar: each of
    these domains is accepted and names the host example.com. *)
Theorem C75_shapes_refuted : forall idna d, keeps_bracket idna ->
  In d [bs "example.com/login"; bs "example.com?x"; bs "example.com#x"; bs "///example.com"; bs "\\example.com";
        bs "user:secret@example.com"; bs "example.com "; [x0a] ++ bs "example.com"; bs "exam" ++ [x09; x0d; x0a] ++ bs "ple.com";
        bs "example.com/" ++ nl ++ bs "is safe"; bs "ex%61mple.com"; bs "EXAMPLE.com:"] ->
  web_domain idna d (bs "example.com").
Proof.
  intros idna d HK H. apply web_domain_of; [|exact HK]. cbn [In] in H.
  repeat (destruct H as [<-|H]; [vm_compute; reflexivity|]). contradiction.
Qed.

Example C75_case : keeps_bracket (u_idna L0) /\
  (exists h p, bs "Example.com:443" = h ++ p /\ host_part (u_idna L0) h (bs "example.com") /\ port_part p) /\
  Forall (fun c => ~ blank c /\ ~ ender c /\ c <> x40) (bs "Example.com:443").
Proof.
  assert (Forall (fun c => ~ blank c /\ ~ ender c /\ c <> x40) (bs "Example.com:443")) as HF.
  { assert (forallb (fun c => negb (c0_or_space c) && negb (ends_authority SpecialNotFile c) && negb (Byte.eqb c x40))
      (bs "Example.com:443") = true) as E by reflexivity.
    apply List.Forall_forall. intros c Hc. rewrite forallb_forall in E. apply E in Hc.
    rewrite !andb_true_iff, !negb_true_iff in Hc. destruct Hc as [[H1 H2] H3]. split; [|split].
    - intros C. assert (c0_or_space c = true) by now apply N.leb_le. congruence.
    - intros C. apply ender_iff in C. congruence.
    - now apply byte_eqb_neq. }
  split; [exact L0_keeps|]. split; [|exact HF].
  apply (C75_shown_partial _ _ (bs "example.com")); [|exact HF].
  apply web_domain_of; [vm_compute; reflexivity|exact L0_keeps].
Qed.

(** ** C76 Accepted URIs *)

Theorem C76_uri_exact : forall L D s rest, keeps_bracket (u_idna L) -> s = bs "http" \/ s = bs "https" ->
  (validate_uri (with_url L D) (s ++ bs ":" ++ rest) = Done (Ok tt) <->
   exists text host, reads_as rest text /\ site_text (u_idna L) text host) /\
  (validate_uri (with_url L D) (s ++ bs ":" ++ rest) = Done (Ok tt) \/
   validate_uri (with_url L D) (s ++ bs ":" ++ rest) = Done (Err (bs "Invalid URI"))).
Proof.
  intros L D s rest HK Hs. split.
  - rewrite validate_uri_ok. cbn [with_url d_url_parse]. split.
    + intros (u & h & E & _). apply web_url_iff in E as (host & text & _ & H1 & H2); [|exact HK|exact Hs]. eauto.
    + intros (text & host & H1 & H2).
      assert (url_parse L (s ++ bs ":" ++ rest) = found host) as E.
      { apply web_url_iff; [exact HK|exact Hs|]. eauto. }
      eexists _, host. split; [exact E|reflexivity].
  - unfold validate_uri. destruct (d_url_parse _ _) as [u|]; [|now right]. destruct (url_host u); [now left|now right].
Qed.

(** Whatever the scheme, there is one, made of the characters of RFC 3986. *)
Definition scheme_text (s : bytes) : Prop :=
  exists c r, s = c :: r /\ (65 <= nb c <= 90 \/ 97 <= nb c <= 122) /\
    Forall (fun x => 48 <= nb x <= 57 \/ 65 <= nb x <= 90 \/ 97 <= nb x <= 122 \/ x = x2b \/ x = x2d \/ x = x2e) r.

Lemma scheme_chars_spec l acc s r : scheme_chars l acc = Some (s, r) ->
  exists w, l = w ++ x3a :: r /\
    Forall (fun x => 48 <= nb x <= 57 \/ 65 <= nb x <= 90 \/ 97 <= nb x <= 122 \/ x = x2b \/ x = x2d \/ x = x2e) w.
Proof.
  revert acc. induction l as [|c l IH]; intros acc H; [discriminate|]. cbn [scheme_chars] in H.
  destruct (Byte.eqb c x3a) eqn:E.
  - apply byte_eqb_spec in E as ->. injection H as _ <-. exists []. split; [reflexivity|constructor].
  - destruct (is_alpha c || is_digit c || one_of (bs "+-.") c) eqn:Ec; [|discriminate].
    apply IH in H as (w & -> & Hw). exists (c :: w). split; [reflexivity|]. constructor; [|exact Hw].
    unfold is_alpha, is_digit, one_of in Ec. cbn [existsb bs list_byte_of_string] in Ec.
    rewrite !orb_true_iff, !andb_true_iff, !N.leb_le in Ec.
    destruct Ec as [[[Ec|Ec]|Ec]|Ec]; auto. do 3 right. cbn in Ec. rewrite !orb_true_iff in Ec.
    repeat rewrite (byte_eqb_spec c) in Ec. intuition congruence.
Qed.

Lemma drop_while_split p l : exists a, l = a ++ drop_while p l /\ forallb p a = true.
Proof.
  induction l as [|c l IH]; [now exists []|]. cbn [drop_while]. destruct (p c) eqn:E.
  - destruct IH as (a & E1 & E2). exists (c :: a). cbn. rewrite E, E2. split; [now f_equal|reflexivity].
  - exists []. now split.
Qed.

Theorem C76_has_scheme : forall L D uri, validate_uri (with_url L D) uri = Done (Ok tt) ->
  exists a rest s t, uri = a ++ rest /\ Forall blank a /\ reads_as rest (s ++ bs ":" ++ t) /\ scheme_text s.
Proof.
  intros L D uri H. apply validate_uri_ok in H as (u & h & E & _). cbn [with_url d_url_parse] in E.
  unfold url_parse in E. destruct (parse_scheme (url_input uri)) as [[s r]|] eqn:P; [|discriminate]. clear E.
  destruct (drop_while_split c0_or_space uri) as (a & Ea & Ha).
  assert (url_input uri = cleaned (drop_while c0_or_space uri)) as Ec by reflexivity. rewrite Ec in P.
  unfold parse_scheme in P. destruct (cleaned (drop_while c0_or_space uri)) as [|c l] eqn:El; [discriminate|].
  destruct (is_alpha c) eqn:Eal; [|discriminate].
  apply scheme_chars_spec in P as (w & Ew & Hw). destruct w as [|x w].
  { cbn in Ew. injection Ew as -> _. discriminate. }
  cbn in Ew. injection Ew as -> ->. inversion Hw; subst.
  exists a, (drop_while c0_or_space uri), (x :: w), r. split; [exact Ea|]. split; [now apply blank_iff|].
  split; [apply reads_as_iff; now rewrite El|].
  exists x, w. split; [reflexivity|]. split; [|assumption].
  unfold is_alpha in Eal. rewrite orb_true_iff, !andb_true_iff, !N.leb_le in Eal. exact Eal.
Qed.

(** "An accepted URI is an http or https address" is false, and so is "the URI is on the
    site of the domain": the library checks neither. *)
Definition C76_claim (L : url_libs) (D : Deps) : Prop := forall s,
  build (with_url L D) s = Done (Ok s) ->
  exists scheme rest text host, s_uri s = scheme ++ bs ":" ++ rest /\ (scheme = bs "http" \/ scheme = bs "https") /\
    reads_as rest text /\ site_text (u_idna L) text host /\ web_domain (u_idna L) (s_domain s) host.

Definition odd_uri (uri : bytes) : Settings := builder_new (bs "example.com") uri (bs "salt").

Theorem C76_other_scheme_refuted : forall L D uri,
  In uri [bs "javascript://example.com/%0Aalert(1)"; bs "did://x"; bs "https:evil.org"] ->
  build (with_url L D) (odd_uri uri) = Done (Ok (odd_uri uri)).
Proof.
  intros L D uri H. cbn [In] in H.
  repeat (destruct H as [<-|H]; [destruct L; vm_compute; reflexivity|]). contradiction.
Qed.

Theorem C76_same_site_refuted : forall L D, keeps_bracket (u_idna L) -> exists s,
  build (with_url L D) s = Done (Ok s) /\ web_domain (u_idna L) (s_domain s) (bs "example.com") /\
  s_uri s = bs "https://evil.org" /\ site_text (u_idna L) (bs "//evil.org") (bs "evil.org").
Proof.
  intros L D HK. exists (odd_uri (bs "https://evil.org")).
  split; [destruct L; vm_compute; reflexivity|].
  split; [apply web_domain_of; [vm_compute; reflexivity|exact HK]|]. split; [reflexivity|].
  assert (url_parse L (bs "https" ++ bs ":" ++ bs "//evil.org") = found (bs "evil.org")) as E
    by (destruct L; vm_compute; reflexivity).
  apply web_url_iff in E as (host & text & E & H1 & H2); [|exact HK|now right].
  unfold found in E. apply (inj Some) in E. injection E as <-.
  apply reads_as_iff in H1. rewrite H1 in H2. exact H2.
Qed.

Theorem C76_claim_refuted : forall L D, keeps_bracket (u_idna L) -> ~ C76_claim L D.
Proof.
  intros L D HK C. destruct (C (odd_uri (bs "did://x"))) as (s & rest & _ & _ & E & Hs & _).
  { apply C76_other_scheme_refuted. right. now left. }
  destruct Hs as [-> | ->]; discriminate E.
Qed.

Example C76_case : validate_uri (with_url L0 CD) (bs "https" ++ bs ":" ++ bs "//[::FFFF:1.2.3.4]:8080/a?b#c") = Done (Ok tt) /\
  validate_uri (with_url L0 CD) (bs "https" ++ bs ":" ++ bs "//1.2.3.256") = Done (Err (bs "Invalid URI")).
Proof. split; vm_compute; reflexivity. Qed.

Lemma ordinary_example : ordinary (bs "example.com") (bs "example.com").
Proof.
  split; [repeat (constructor; [apply name_char_iff; reflexivity|]); constructor|].
  split; [apply ascii_name_iff; split; reflexivity|].
  exists [bs "example"], x63, (bs "om"). split; [apply labels_iff; reflexivity|vm_compute; split; discriminate].
Qed.

(** ** Earlier refutations, with nothing assumed of the URL parser *)

Theorem C10_url_refuted : forall L D, keeps_bracket (u_idna L) -> deps_ok D -> ~ C10_claim (with_url L D).
Proof.
  intros L D HK HD. apply C10_claim_refuted; [now apply with_url_ok|].
  intros path Hg Hp. exists {| url_has_authority := true; url_host := Some (bs "example.com") |}.
  split; [|split; [reflexivity|discriminate]]. cbn [with_url d_url_parse].
  change (bs "https://example.com" ++ path) with (bs "https" ++ bs "://" ++ (bs "example.com" ++ path)).
  apply domain_url_iff; [exact HK|now right|]. exists (bs "example.com"). split; [reflexivity|].
  exists (bs "example.com" ++ path). split.
  - apply reads_as_iff. symmetry. apply cleaned_solid. apply List.Forall_forall. intros c Hc C.
    assert (is_ascii_graphic c = true) as G.
    { apply in_app_or in Hc as [Hc|Hc].
      - assert (forallb is_ascii_graphic (bs "example.com") = true) as G by reflexivity.
        rewrite forallb_forall in G. now apply G.
      - rewrite forallb_forall in Hg. now apply Hg. }
    unfold is_ascii_graphic in G. rewrite andb_true_iff, !N.leb_le in G. unfold blank in C. lia.
  - exists [], [], (bs "example.com"), [], path. split; [reflexivity|]. split; [constructor|]. split; [now left|].
    split; [|split; [now left|]].
    + apply (ordinary_host_part _ _ (bs "example.com")). exact ordinary_example.
    + destruct Hp as [->|Hp]; [now left|]. destruct path as [|c r]; [discriminate|]. cbn in Hp. injection Hp as ->.
      right. exists x2f, r. split; [reflexivity|]. apply ender_iff. reflexivity.
Qed.

Theorem C21_line_break_url_refuted : forall L D,
  exists s, build (with_url L D) s = Done (Ok s) /\
    forall now a nonce m, now <= u64_max -> one_line (addr_str a) -> one_line nonce ->
    siwe_message_new (Some s) now a nonce = Done m ->
    exists text, siwe_to_string m = Done text /\ read_erc4361 text = None.
Proof.
  intros L D. apply C21_line_break_refuted; eexists; (split; [destruct L; vm_compute; reflexivity|]);
    (split; [reflexivity|discriminate]).
Qed.

Theorem C24_never_panics_url_refuted : forall L D,
  exists domain uri salt calls w, build (with_url L D) (run_builder domain uri salt calls) = Trap w.
Proof. intros L D. apply C24_never_panics_refuted. destruct L. vm_compute. reflexivity. Qed.

Theorem C24_no_panic_url : forall L D s, s_scheme s = bs "http" \/ s_scheme s = bs "https" ->
  exists r, build (with_url L D) s = Done r.
Proof.
  intros L D s. apply C24_no_panic_http. intros scheme rest u Hs E. cbn [with_url d_url_parse] in E.
  change (bs "://" ++ rest) with (bs ":" ++ (bs "//" ++ rest)) in E. now apply (web_url_authority L) in E as [_ E].
Qed.

Print Assumptions C74_build_exact.
Print Assumptions C74_refused.
Print Assumptions C74_installed.
Print Assumptions C74_one_host.
Print Assumptions C74_ordinary.
Print Assumptions C75_shown_partial.
Print Assumptions C75_plain_partial.
Print Assumptions C75_claim_refuted.
Print Assumptions C75_other_site_refuted.
Print Assumptions C75_shapes_refuted.
Print Assumptions C76_uri_exact.
Print Assumptions C76_has_scheme.
Print Assumptions C76_other_scheme_refuted.
Print Assumptions C76_same_site_refuted.
Print Assumptions C76_claim_refuted.
Print Assumptions C10_url_refuted.
Print Assumptions C21_line_break_url_refuted.
Print Assumptions C24_never_panics_url_refuted.
Print Assumptions C24_no_panic_url.
