(** C86: messages and the grammar of ERC-4361. *)
From Coq Require Import Strings.String ZifyBool ZifyN ZifyNat.
From Verif Require Import Base BaseLemmas Deps Hex Eth Settings Siwe Delegation Login Provider SpecEth EthProofs SpecSiwe SiweProofs
  SpecInit SettingsProofs SpecTrace LoginProofs ProviderProofs TraceProofs LoginTheory Concrete Scripts Demo
  Url SpecUrl UrlNumbers UrlProofs PropertiesUrl SpecGrammar GrammarProofs.
Local Open Scope N_scope.

(** ** C86  Messages conform to ERC-4361 exactly when the configured texts do *)

Definition conforming_input (i : SettingsInput) : Prop :=
  shown_domain (in_domain i) /\ statement (default (bs "SIWE Fields:") (in_statement i)) /\ URI (in_uri i).

Lemma prepared_message D cid tr s i since p x text n : deps_ok D ->
  exec D cid tr s -> since_boot tr i since -> In p since -> prepared p x text n ->
  exists m, siwe_to_string m = Done text /\ m_version m = 1 /\ address (d_keccak D) (m_address m) /\ nonce (m_nonce m) /\
    m_issued_at m <= u64_max /\ m_expiration_time m <= u64_max /\ one_line (m_statement m) /\
    m_domain m = in_domain i /\ m_statement m = default (bs "SIWE Fields:") (in_statement i) /\ m_uri m = in_uri i.
Proof.
  intros HD H Hb Ip Hp.
  destruct (exec_since D cid tr s i since HD H Hb) as (c & st & -> & Hi & _).
  pose proof (inv_init _ _ _ _ _ _ _ Hi) as Hin.
  apply in_split in Ip as (bef & aft & Es).
  assert (ev_time p <= u64_max) as Hp64.
  { pose proof (exec_times _ _ _ _ H) as Ht. rewrite List.Forall_forall in Ht. apply Ht.
    apply since_boot_sub in Hb as [l ->]. rewrite Es. apply in_app_iff. right. apply in_app_iff. right. now left. }
  assert (nonce n) as Hn.
  { pose proof (inv_rng _ _ _ _ _ _ _ Hi) as Hr. destruct (ls_rng (c_lib c)) as [r|]; cbn [rng_inv] in Hr.
    - destruct Hr as (_ & _ & Hr). rewrite (Hr bef p aft x text n Es Hp). apply hex_nonce. rewrite (chacha_len _ HD). lia.
    - exfalso. rewrite Es in Hr. unfold prepared_count in Hr. rewrite List.filter_app in Hr. cbn [List.filter] in Hr.
      assert (is_prepared p = true) as E by (apply is_prepared_spec; eauto). rewrite E, app_length in Hr. cbn [length] in Hr. lia. }
  assert (In p since) as Ip by (rewrite Es; apply in_app_iff; right; now left).
  destruct (inv_texts _ _ _ _ _ _ _ Hi p x text n Ip Hp) as (Et & b & Hlb & Hx).
  exists (the_message st x n (ev_time p)). split; [exact Et|].
  cbn [the_message m_domain m_address m_statement m_uri m_version m_nonce m_issued_at m_expiration_time].
  split; [reflexivity|]. split; [rewrite Hx; apply eip55_address; [apply (keccak_len _ HD)|exact Hlb]|].
  split; [exact Hn|]. split; [exact Hp64|]. split; [apply sat_add_le|].
  split; [apply (acc_statement _ _ (init_acceptable _ _ _ _ _ Hin))|].
  split; [apply (init_domain _ _ _ _ _ Hin)|]. split; [apply (init_statement _ _ _ _ _ Hin)|apply (init_uri _ _ _ _ _ Hin)].
Qed.

(** What the code itself writes into a message (address, version, chain identifier, nonce, dates, the
    lines and their order) always conforms; the operator's domain, statement and URI have to. *)
Theorem C86_exactly : forall D cid tr s i since p x text n, deps_ok D ->
  exec D cid tr s -> since_boot tr i since -> In p since -> prepared p x text n ->
  sign_in_message (d_keccak D) text <-> conforming_input i.
Proof.
  intros D cid tr s i since p x text n HD H Hb Ip Hp.
  destruct (prepared_message D cid tr s i since p x text n HD H Hb Ip Hp) as (m & Et & Hv & Ha & Hn & Hi & He & Ls & Ed & Es & Eu).
  rewrite (conforms_iff (d_keccak D) m text Et); try assumption. rewrite Ed, Es, Eu. reflexivity.
Qed.

(** Ordinary configurations: a domain of letters, digits, '-', '.', '_' and '~', the same site over
    https as the URI, and no statement configured. *)
Lemma unreserved_char c : is_alpha c || is_digit c || existsb (Byte.eqb c) (bs "-._~") = true -> unreserved [c].
Proof.
  rewrite !orb_true_iff. intros [[H|H]|H].
  - left. left. exists c. split; [reflexivity|]. unfold is_alpha in H. lia.
  - left. right. exists c. split; [reflexivity|]. unfold is_digit in H. lia.
  - right. exists c. split; [reflexivity|]. apply existsb_exists in H as (d & Hd & E). apply Byte.byte_dec_bl in E. now subst.
Qed.
Lemma authority_plain d : Forall (fun c => unreserved [c]) d -> authority d.
Proof.
  intros H. exists [], d. split; [reflexivity|]. split; [now left|]. exists d, []. split; [now rewrite app_nil_r|]. split; [|now left].
  right. apply many_chars. intros c Hc. rewrite List.Forall_forall in H. left. left. now apply H.
Qed.
Lemma domain_plain d : Forall (fun c => unreserved [c]) d -> shown_domain d.
Proof. intros H. exists [], d. split; [reflexivity|]. split; [now left|now apply authority_plain]. Qed.
Lemma https_uri d : authority d -> URI (bs "https://" ++ d).
Proof.
  intros Hd. exists (bs "https"), (bs "://" ++ d). split; [reflexivity|]. split.
  { exists (bs "h"), (bs "ttps"). split; [reflexivity|].
    assert (forall c, In c (bs "https") -> ALPHA [c]) as A.
    { intros c Hc. exists c. split; [reflexivity|]. right. cbn in Hc. repeat destruct Hc as [<-|Hc]; try (split; vm_compute; discriminate). contradiction. }
    split; [apply A; now left|]. apply many_chars. intros c Hc. left. left. apply A. now right. }
  exists (bs ":"), (bs "//" ++ d). split; [reflexivity|]. split; [reflexivity|].
  exists (bs "//" ++ d), []. split; [now rewrite app_nil_r|]. split.
  { left. left. left. exists (bs "//"), d. split; [reflexivity|]. split; [reflexivity|].
    exists d, []. split; [now rewrite app_nil_r|]. split; [assumption|constructor]. }
  exists [], []. split; [reflexivity|]. split; now left.
Qed.
Lemma default_statement : statement (bs "SIWE Fields:").
Proof.
  apply at_least_chars; [cbn; lia|]. intros c Hc.
  assert (is_alpha c || is_digit c || existsb (Byte.eqb c) (bs "-._~") = true \/ c = x20 \/ c = x3a) as [H|[->| ->]].
  { cbn in Hc. repeat destruct Hc as [<-|Hc]; try (now left); try tauto. }
  - left. right. now apply unreserved_char.
  - right. reflexivity.
  - left. left. left. exists x3a. split; [reflexivity|]. now left.
Qed.

Theorem C86_ordinary : forall D cid tr s i since p x text n, deps_ok D ->
  exec D cid tr s -> since_boot tr i since -> In p since -> prepared p x text n ->
  Forall (fun c => unreserved [c]) (in_domain i) -> in_uri i = bs "https://" ++ in_domain i -> in_statement i = None ->
  sign_in_message (d_keccak D) text.
Proof.
  intros D cid tr s i since p x text n HD H Hb Ip Hp Hd Hu Hs.
  apply (C86_exactly D cid tr s i since p x text n HD H Hb Ip Hp). unfold conforming_input. rewrite Hs, Hu. split; [now apply domain_plain|].
  split; [exact default_statement|]. now apply https_uri, authority_plain.
Qed.

(** Concrete: the two messages prepared at the beginning of the demonstration history. *)
Example C86_case : exists s x y text text' n n', exec CD demo_cid (take 4 demo_tr) (Some s) /\
  since_boot (take 4 demo_tr) demo_input (take 3 (drop 1 demo_tr)) /\
  prepared (demo_at 2) x text n /\ prepared (demo_at 3) y text' n' /\ text <> text' /\
  sign_in_message (d_keccak CD) text /\ sign_in_message (d_keccak CD) text'.
Proof.
  destruct (demo_prefix 4) as [s H]; [lia|].
  assert (since_boot (take 4 demo_tr) demo_input (take 3 (drop 1 demo_tr))) as Hb by (apply (demo_since 4); lia).
  assert (forall p x text n, In p (take 3 (drop 1 demo_tr)) -> prepared p x text n -> sign_in_message (d_keccak CD) text) as Hc.
  { intros p x text n Ip Hp. apply (C86_ordinary CD demo_cid _ _ demo_input _ p x text n CD_ok H Hb Ip Hp); [|reflexivity|reflexivity].
    cbn [in_domain demo_input]. repeat (constructor; [apply unreserved_char; reflexivity|]). constructor. }
  eexists s, _, _, _, _, _, _. split; [exact H|]. split; [exact Hb|].
  split; [split; reflexivity|]. split; [split; reflexivity|]. split; [vm_compute; discriminate|].
  split; [eapply (Hc (demo_at 2))|eapply (Hc (demo_at 3))]; try (split; reflexivity).
  - right. left. reflexivity.
  - right. right. left. reflexivity.
Qed.

(** The full claim: every message conforms, under every configuration that is accepted. *)
Definition C86_claim (D : Deps) : Prop := forall cid tr s p x text n,
  exec D cid tr s -> In p tr -> prepared p x text n -> sign_in_message (d_keccak D) text.

(** Three configurations that are accepted: a statement with a percent sign, an empty one, and a domain
    with a path. *)
Definition odd1 : SettingsInput :=
  mkInput (bs "example.com") (bs "https://example.com") (bs "salt") None None (Some (bs "Get 10% off")) None None None None.
Definition odd2 : SettingsInput :=
  mkInput (bs "example.com") (bs "https://example.com") (bs "salt") None None (Some []) None None None None.
Definition odd3 : SettingsInput :=
  mkInput (bs "example.com/login") (bs "https://example.com") (bs "salt") None None None None None None None.

Definition avoids (b : byte) (a : lang) : Prop := forall l, a l -> ~ In b l.
Lemma avoids_cat b a a' : avoids b a -> avoids b a' -> avoids b (cat a a').
Proof. intros H H' l (x & y & -> & Hx & Hy) I. apply in_app_iff in I as [I|I]; [now apply (H x)|now apply (H' y)]. Qed.
Lemma avoids_alt b a a' : avoids b a -> avoids b a' -> avoids b (alt a a').
Proof. intros H H' l [Hl|Hl]; auto. Qed.
Lemma avoids_opt b a : avoids b a -> avoids b (opt a).
Proof. intros H l [->|Hl]; [intros []|auto]. Qed.
Lemma avoids_many b a : avoids b a -> avoids b (many a).
Proof. intros H l Hl. induction Hl as [|x y Hx _ IH]; [intros []|]. intros I. apply in_app_iff in I as [I|I]; [now apply (H x)|auto]. Qed.
Lemma avoids_char b P : ~ P b -> avoids b (char P).
Proof. intros H l (c & -> & Hc) [->|[]]. auto. Qed.
Lemma avoids_lit b s : ~ In b (bs s) -> avoids b (lit s).
Proof. intros H l ->. exact H. Qed.
Lemma avoids_nil b : avoids b (fun l => l = []).
Proof. intros l ->. intros []. Qed.
Ltac avoid := repeat first
  [ apply avoids_nil | apply avoids_cat | apply avoids_alt | apply avoids_opt | apply avoids_many
  | apply avoids_char; vm_compute; intuition congruence | apply avoids_lit; vm_compute; intuition congruence ].

Lemma percent_statement : ~ statement (bs "Get 10% off").
Proof.
  intros H. assert (avoids x25 statement) as A.
  { unfold statement, at_least, times, reserved, gen_delims, sub_delims, unreserved, ALPHA, DIGIT, one_of. avoid. }
  apply A in H. apply H. vm_compute. tauto.
Qed.
Lemma empty_statement : ~ statement [].
Proof.
  intros (x & y & E & (x1 & x2 & -> & H & _) & _).
  destruct x1 as [|]; [|discriminate E].
  destruct H as [[[H|H]|[[H|H]|H]]|H]; try (destruct H as (c & E' & _); discriminate E'). discriminate H.
Qed.
Lemma path_domain : ~ shown_domain (bs "example.com/login").
Proof.
  intros (x & y & E & Hx & Hy).
  assert (x = []) as ->.
  { destruct Hx as [->|(a & b & -> & _ & ->)]; [reflexivity|]. exfalso.
    assert (In x3a (bs "example.com/login")) as C.
    { rewrite E. apply in_app_iff. left. apply in_app_iff. right. vm_compute. tauto. }
    vm_compute in C. intuition discriminate. }
  cbn [app] in E. subst y. destruct Hy as (u & r & E & Hu & h & q & -> & Hh & Hq).
  assert (In x2f (u ++ h ++ q)) as C by (rewrite <- E; vm_compute; tauto).
  assert (avoids x2f (opt (cat userinfo (lit "@")))) as A1.
  { unfold userinfo, unreserved, sub_delims, pct_encoded, HEXDIG, ALPHA, DIGIT, one_of. avoid. }
  assert (avoids x2f reg_name) as A2.
  { unfold reg_name, unreserved, sub_delims, pct_encoded, HEXDIG, ALPHA, DIGIT, one_of. avoid. }
  assert (avoids x2f (opt (cat (lit ":") port))) as A3 by (unfold port, DIGIT; avoid).
  rewrite !in_app_iff in C. destruct C as [C|[C|C]]; [now apply (A1 u)| |now apply (A3 q)].
  destruct Hh as [(z & w & -> & -> & _)|Hh]; [|now apply (A2 h)].
  assert (In x5b (bs "example.com/login")) as C'.
  { rewrite E. apply in_app_iff. right. apply in_app_iff. left. left. reflexivity. }
  vm_compute in C'. intuition discriminate.
Qed.

Definition odd_script (i : SettingsInput) : list (N * op) :=
  [(0, Install i); (1 * sec, RawRand (Some (repeat x07 32))); (2 * sec, PrepareLogin (wallet_address CD alice))].
Definition odd_trace (i : SettingsInput) : list event := fst (play (with_url L0 CD) demo_cid (odd_script i) None).

Definition odd1_trace : list event := Eval vm_compute in odd_trace odd1.
Definition odd2_trace : list event := Eval vm_compute in odd_trace odd2.
Definition odd3_trace : list event := Eval vm_compute in odd_trace odd3.
Lemma odd1_eq : odd_trace odd1 = odd1_trace.
Proof. vm_compute. reflexivity. Qed.
Lemma odd2_eq : odd_trace odd2 = odd2_trace.
Proof. vm_compute. reflexivity. Qed.
Lemma odd3_eq : odd_trace odd3 = odd3_trace.
Proof. vm_compute. reflexivity. Qed.

Lemma odd_witness i : In i [odd1; odd2; odd3] -> exists tr p x text n, odd_trace i = tr /\
  since_boot tr i (drop 1 tr) /\ In p (drop 1 tr) /\ prepared p x text n.
Proof.
  intros Hi. cbn [In] in Hi.
  assert (forall b since, boot b i -> Forall (fun e => ~ boots e) since -> since_boot (b :: since) i since) as HB.
  { intros b since H1 H2. exists [], b. auto. }
  assert (forall now o r, (forall j, o <> Install j /\ o <> Upgrade j) -> ~ boots (mkEvent now o r)) as HN.
  { intros now o r H [j [[Eo|Eo] _]]; now apply H in Eo. }
  destruct Hi as [<-|[<-|[<-|[]]]].
  - eexists _, _, _, _, _. split; [exact odd1_eq|]. split; [|split; [right; left; reflexivity|split; reflexivity]].
    apply HB; [split; [now left|reflexivity]|]. repeat (constructor; [apply HN; intros j; split; discriminate|]). constructor.
  - eexists _, _, _, _, _. split; [exact odd2_eq|]. split; [|split; [right; left; reflexivity|split; reflexivity]].
    apply HB; [split; [now left|reflexivity]|]. repeat (constructor; [apply HN; intros j; split; discriminate|]). constructor.
  - eexists _, _, _, _, _. split; [exact odd3_eq|]. split; [|split; [right; left; reflexivity|split; reflexivity]].
    apply HB; [split; [now left|reflexivity]|]. repeat (constructor; [apply HN; intros j; split; discriminate|]). constructor.
Qed.

Theorem C86_refuted : forall i, In i [odd1; odd2; odd3] ->
  exists cid tr s since p x text n, exec (with_url L0 CD) cid tr s /\
    since_boot tr i since /\ In p since /\ prepared p x text n /\ ~ sign_in_message (d_keccak (with_url L0 CD)) text.
Proof.
  intros i Hi. destruct (odd_witness i Hi) as (tr & p & x & text & n & Et & Hb & Ip & Hp).
  assert (exists s, exec (with_url L0 CD) demo_cid tr s) as [s H].
  { exists (snd (play (with_url L0 CD) demo_cid (odd_script i) None)).
    apply (play_exec _ _ (odd_script i));
      [cbn [In] in Hi; destruct Hi as [<-|[<-|[<-|[]]]]; vm_compute; reflexivity|]. rewrite <- Et. apply surjective_pairing. }
  exists demo_cid, tr, s, (drop 1 tr), p, x, text, n. do 4 (split; [assumption|]).
  rewrite (C86_exactly _ _ _ _ _ _ _ _ _ _ (with_url_ok L0 _ CD_ok) H Hb Ip Hp).
  intros (Hd & Hs & _). cbn [In] in Hi. destruct Hi as [<-|[<-|[<-|[]]]].
  - now apply percent_statement.
  - now apply empty_statement.
  - now apply path_domain.
Qed.

Theorem C86_claim_refuted : ~ C86_claim (with_url L0 CD).
Proof.
  intros HC. destruct (C86_refuted _ (or_introl eq_refl)) as (cid & tr & s & since & p & x & text & n & H & Hb & Ip & Hp & Hn).
  apply Hn, (HC cid tr s p x text n H); [|exact Hp]. apply since_boot_sub in Hb as [l ->]. apply in_app_iff. now right.
Qed.

Print Assumptions C86_exactly.
Print Assumptions C86_ordinary.
Print Assumptions C86_refuted.
Print Assumptions C86_claim_refuted.
