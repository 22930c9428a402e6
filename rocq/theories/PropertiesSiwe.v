(** Theorems C20-C26: timestamps, the sign-in text, settings and initialisation. *)
From Coq Require Import Strings.String ZifyBool ZifyN ZifyNat.
From Verif Require Import Base BaseLemmas Deps Hex Eth SpecEth EthProofs Time3339 Settings Siwe Delegation Login
  Provider SpecSiwe SpecInit Calendar TimeProofs SiweProofs SettingsProofs Concrete.
Local Open Scope N_scope.
Ltac Zify.zify_post_hook ::= Z.to_euclidean_division_equations.

(** ** C20 Timestamps never panic and denote the exact instant *)

Theorem C20_reads_back : forall t, t <= 18446744073709551615 ->
  exists s dt, format_rfc3339 t = Done s /\ read_rfc3339 s = Some dt /\ instant dt = t.
Proof.
  intros t H. destruct (format_reads t H) as (s & F & R & I). eauto.
Qed.

(** The date is the one found by counting days in the calendar, and the time of
    day splits the rest; both are in the ranges of the calendar. *)
Theorem C20_calendar : forall t s dt, t <= 18446744073709551615 ->
  format_rfc3339 t = Done s -> read_rfc3339 s = Some dt ->
  nth_day (t / 86400000000000) = (dt_year dt, dt_month dt, dt_day dt) /\
  t mod 86400000000000 =
    (dt_hour dt * 3600 + dt_minute dt * 60 + dt_second dt) * 1000000000 + dt_nanos dt /\
  1 <= dt_month dt <= 12 /\ 1 <= dt_day dt <= month_days (dt_year dt) (dt_month dt) /\
  dt_hour dt < 24 /\ dt_minute dt < 60 /\ dt_second dt < 60 /\ dt_nanos dt < 1000000000.
Proof.
  intros t s dt H F R. destruct (format_reads t H) as (s' & F' & R' & I).
  assert (s' = s) as -> by congruence. assert (dt = parts t) as -> by congruence.
  pose proof (read_rfc3339_valid _ _ R) as V. clear F F' R R' I.
  assert (t / 1000000000 / 86400 = t / 86400000000000) as Ed by (rewrite N.div_div by lia; reflexivity).
  assert (t / 86400000000000 <= last_day) as Hd by (unfold last_day; lia).
  unfold parts in *. rewrite Ed in *. rewrite <- (civil_nth_day _ Hd).
  destruct (civil_of_days _) as [[y m] d]. unfold valid_dtb in V. 
  cbn [dt_month dt_day dt_year dt_hour dt_minute dt_second dt_nanos] in *.
  split; [reflexivity|]. split; [|lia].
  clear V. lia.
Qed.

(** The day counts of the two specifications agree: a leap day, a century and the last day. *)
Example C20_case :
  read_rfc3339 (bs "2000-02-29T23:59:59.999999999Z") = Some (mkDT 2000 2 29 23 59 59 999999999) /\
  format_rfc3339 951868799999999999 = Done (bs "2000-02-29T23:59:59.999999999Z") /\
  instant (mkDT 2000 2 29 23 59 59 999999999) = 951868799999999999 /\
  format_rfc3339 18446744073709551615 = Done (bs "2554-07-21T23:34:33.709551615Z") /\
  format_rfc3339 1700000000120000000 = Done (bs "2023-11-14T22:13:20.12Z") /\
  read_rfc3339 (bs "2100-02-29T00:00:00Z") = None.
Proof. repeat match goal with |- _ /\ _ => split end; vm_compute; reflexivity. Qed.

(** ** C21 The sign-in text is a faithful ERC-4361 message *)

Theorem C21_reads_back : forall m,
  one_line (m_domain m) -> one_line (m_address m) -> one_line (m_statement m) ->
  one_line (m_uri m) -> one_line (m_nonce m) ->
  m_issued_at m <= u64_max -> m_expiration_time m <= u64_max ->
  exists text, siwe_to_string m = Done text /\
    read_erc4361 text = Some
      {| e_domain := m_domain m; e_address := m_address m; e_statement := m_statement m;
         e_uri := m_uri m; e_version := m_version m; e_chain_id := m_chain_id m;
         e_nonce := m_nonce m; e_issued_at := m_issued_at m; e_expiration_time := m_expiration_time m |}.
Proof. intros m H1 H2 H3 H4 H5 Hi He. apply siwe_text_reads; unfold fields_one_line; auto. Qed.

(** Two messages with one text agree on everything the text shows. *)
Theorem C21_text_injective_partial : forall m1 m2 text,
  fields_one_line m1 -> fields_one_line m2 ->
  m_issued_at m1 <= u64_max -> m_expiration_time m1 <= u64_max ->
  m_issued_at m2 <= u64_max -> m_expiration_time m2 <= u64_max ->
  siwe_to_string m1 = Done text -> siwe_to_string m2 = Done text ->
  m1 = mkMsg (m_scheme m1) (m_domain m2) (m_address m2) (m_statement m2) (m_uri m2) (m_version m2)
         (m_chain_id m2) (m_nonce m2) (m_issued_at m2) (m_expiration_time m2).
Proof.
  intros m1 m2 text F1 F2 I1 E1 I2 E2 T1 T2.
  destruct (siwe_text_reads m1 F1 I1 E1) as (t1 & T1' & R1).
  destruct (siwe_text_reads m2 F2 I2 E2) as (t2 & T2' & R2).
  assert (t1 = text) as -> by congruence. assert (t2 = text) as -> by congruence.
  rewrite R1 in R2. destruct m1, m2; cbn in *. injection R2 as -> -> -> -> -> -> -> -> ->. reflexivity.
Qed.

(** The claim of C21 that different messages have different texts, as written. *)
Definition C21_claim : Prop := forall m1 m2 text,
  fields_one_line m1 -> fields_one_line m2 ->
  siwe_to_string m1 = Done text -> siwe_to_string m2 = Done text -> m1 = m2.

(** It is false: the scheme is stored in the message but never shown. *)
Theorem C21_distinct_texts_refuted : forall m, fields_one_line m ->
  m_issued_at m <= u64_max -> m_expiration_time m <= u64_max ->
  exists m' text, m' <> m /\ fields_one_line m' /\ siwe_to_string m = Done text /\ siwe_to_string m' = Done text.
Proof.
  intros m F I E. destruct (siwe_to_string_done m I E) as [text T].
  exists (mkMsg (x61 :: m_scheme m) (m_domain m) (m_address m) (m_statement m) (m_uri m) (m_version m)
    (m_chain_id m) (m_nonce m) (m_issued_at m) (m_expiration_time m)), text.
  split; [|split; [exact F|split; [exact T|exact T]]].
  intros H. apply (f_equal m_scheme) in H. cbn in H. apply (f_equal (@length byte)) in H. cbn [length] in H. lia.
Qed.

Theorem C21_claim_refuted : ~ C21_claim.
Proof.
  intros C. set (m := mkMsg [] [] [] [] [] 1 1 [] 0 0).
  assert (fields_one_line m) as F by (repeat split; intros []).
  destruct (C21_distinct_texts_refuted m F) as (m' & text & N & F' & T & T'); [cbn; lia..|].
  apply N. eapply C; eassumption.
Qed.

(** Every message the library makes from accepted settings reads back, provided
    the configured domain and URI are single lines. *)
Theorem C21_prepared : forall D s now x a nonce m, deps_ok D ->
  build D s = Done (Ok s) -> one_line (s_domain s) -> one_line (s_uri s) ->
  now <= u64_max -> eth_address_new D x = Done (Ok a) -> (exists r, nonce = hex_encode r) ->
  siwe_message_new (Some s) now a nonce = Done m ->
  exists text, siwe_to_string m = Done text /\
    read_erc4361 text = Some
      {| e_domain := s_domain s; e_address := x; e_statement := s_statement s;
         e_uri := s_uri s; e_version := 1; e_chain_id := s_chain_id s;
         e_nonce := nonce; e_issued_at := now;
         e_expiration_time := N.min (now + s_sign_in_expires_in s) 18446744073709551615 |}.
Proof.
  intros D s now x a nonce m HD B Ld Lu Hn A [r ->] M.
  apply build_ok in B as [[_ _ _ _ _ Ls _ _ _] _].
  destruct (eth_address_new_ok D x a HD A) as [-> (b & Hb & Ex)].
  assert (m = mkMsg (s_scheme s) (s_domain s) x (s_statement s) (s_uri s) 1
            (s_chain_id s) (hex_encode r) now (sat_add now (s_sign_in_expires_in s))) as ->.
  { unfold siwe_message_new, with_settings in M. cbn [addr_str] in M. congruence. }
  assert (one_line x) as Lx by (subst x; now apply eip55_one_line).
  pose proof (sat_add_le now (s_sign_in_expires_in s)).
  set (m := mkMsg _ _ _ _ _ _ _ _ _ _).
  destruct (siwe_text_reads m) as (text & T & R).
  - unfold fields_one_line, m; cbn [m_domain m_address m_statement m_uri m_nonce]. auto using hex_one_line.
  - exact Hn.
  - assumption.
  - exists text. split; [exact T|]. rewrite R. unfold m, sat_add, u64_max.
    cbn [m_domain m_address m_statement m_uri m_nonce m_issued_at m_expiration_time m_version m_chain_id].
    reflexivity.
Qed.

Definition sample_message : SiweMessage :=
  mkMsg (bs "https") (bs "example.com") (bs "0x5aAeb6053F3E94C9b9A09f33669435E7Ef1BeAed")
    (bs "SIWE Fields:") (bs "https://example.com/login") 1 10 (bs "ee1ee5ead5b55fe8c8e9")
    1700000000000000000 1700000300000000000.

Example C21_case : fields_one_line sample_message /\
  siwe_to_string sample_message = Done (
    bs "example.com wants you to sign in with your Ethereum account:" ++ nl ++
    bs "0x5aAeb6053F3E94C9b9A09f33669435E7Ef1BeAed" ++ nl ++ nl ++
    bs "SIWE Fields:" ++ nl ++ nl ++
    bs "URI: https://example.com/login" ++ nl ++
    bs "Version: 1" ++ nl ++
    bs "Chain ID: 10" ++ nl ++
    bs "Nonce: ee1ee5ead5b55fe8c8e9" ++ nl ++
    bs "Issued At: 2023-11-14T22:13:20Z" ++ nl ++
    bs "Expiration Time: 2023-11-14T22:18:20Z").
Proof. split; [repeat split; apply plain_one_line; vm_compute; reflexivity|vm_compute; reflexivity]. Qed.

(** The side condition of C21_prepared is not implied by the validation: a URL
    parser that drops line breaks (the WHATWG rule the [url] crate follows)
    accepts a URI with one, and the text then does not read back. *)
Definition accepts_host (D : Deps) (u : bytes) : Prop :=
  exists i, d_url_parse D u = Some i /\ url_has_authority i = true /\ url_host i <> None.

Theorem C21_line_break_refuted : forall D,
  accepts_host D (bs "https://example.com") -> accepts_host D (bs "https://example.com/" ++ nl) ->
  exists s, build D s = Done (Ok s) /\
    forall now a nonce m, now <= u64_max -> one_line (addr_str a) -> one_line nonce ->
    siwe_message_new (Some s) now a nonce = Done m ->
    exists text, siwe_to_string m = Done text /\ read_erc4361 text = None.
Proof.
  intros D (u1 & P1 & A1 & H1) (u2 & P2 & A2 & H2).
  destruct (url_host u1) as [h1|] eqn:E1; [clear H1|congruence].
  destruct (url_host u2) as [h2|] eqn:E2; [clear H2|congruence].
  exists (builder_new (bs "example.com") (bs "https://example.com/" ++ nl) (bs "salt")). split.
  - apply build_ok. split; [|reflexivity]. constructor; try (cbn; discriminate).
    + exists u1, h1. auto.
    + exists u2, h2. auto.
    + split; [discriminate|]. repeat constructor; cbn; lia.
    + now right.
    + apply plain_one_line. reflexivity.
  - intros now a nonce m Hn Ha Hx M. unfold siwe_message_new, with_settings in M.
    unfold builder_new in M. cbn [s_scheme s_domain s_statement s_uri s_chain_id s_sign_in_expires_in] in M.
    assert (m = mkMsg DEFAULT_SCHEME (bs "example.com") (addr_str a) DEFAULT_STATEMENT
      (bs "https://example.com/" ++ nl) 1 DEFAULT_CHAIN_ID nonce now (sat_add now DEFAULT_SIGN_IN_EXPIRES_IN)) as ->
      by congruence.
    pose proof (sat_add_le now DEFAULT_SIGN_IN_EXPIRES_IN).
    apply (siwe_text_broken _ (bs "https://example.com/") []);
      cbn [m_domain m_address m_statement m_uri m_nonce m_issued_at m_expiration_time]; auto;
      try (apply plain_one_line; reflexivity).
Qed.

(** ** C22 Sign-in messages carry the configured fields and lifetime *)

Theorem C22_prepared_message : forall D now x c c' text nonce, deps_ok D ->
  siwe_prepare_login D now x c = Done (c', Ok (text, nonce)) ->
  exists s m key, ls_settings (c_lib c) = Some s /\
    siwe_to_string m = Done text /\
    siwe_message_map_hash D (mkEthAddress x) nonce = Done key /\
    ls_msgs (c_lib c') = <[key := m]> (ls_msgs (c_lib c)) /\
    m_scheme m = s_scheme s /\ m_domain m = s_domain s /\ m_statement m = s_statement s /\
    m_uri m = s_uri s /\ m_chain_id m = s_chain_id s /\ m_version m = 1 /\
    m_address m = x /\ m_nonce m = nonce /\ m_issued_at m = now /\
    m_expiration_time m = N.min (now + s_sign_in_expires_in s) 18446744073709551615.
Proof.
  intros D now x c c' text nonce HD H. unfold siwe_prepare_login in H.
  apply obind_done in H as ([a|e] & A & H); [|discriminate].
  destruct (eth_address_new_ok D x a HD A) as [-> _].
  apply obind_done in H as ([lib [m n]] & P & H).
  apply obind_done in H as (t & T & H).
  assert (c' = with_lib c lib /\ t = text /\ n = nonce) as (-> & -> & ->) by (repeat split; congruence). clear H.
  unfold prepare_login in P. apply obind_done in P as ([n r] & G & P).
  apply obind_done in P as (m' & M & P). apply obind_done in P as (msgs & I & P).
  assert (lib = mkLib (Some r) (ls_settings (c_lib c)) msgs /\ m' = m /\ n = nonce) as (-> & -> & ->)
    by (repeat split; congruence). clear P.
  unfold siwe_message_new, with_settings in M. destruct (ls_settings (c_lib c)) as [s|]; [|discriminate].
  unfold msgs_insert in I. apply obind_done in I as (key & K & I).
  exists s, m, key. split; [reflexivity|]. split; [exact T|]. split; [exact K|].
  split; [cbn [c_lib with_lib ls_msgs]; congruence|].
  cbn [addr_str] in M.
  assert (m = mkMsg (s_scheme s) (s_domain s) x (s_statement s) (s_uri s) 1 (s_chain_id s) nonce now
     (sat_add now (s_sign_in_expires_in s))) as -> by congruence.
  repeat split; reflexivity.
Qed.

(** ** C23 is_expired reports validity correctly *)

Definition C23_claim : Prop := forall now m,
  siwe_is_expired now m = false <-> m_issued_at m <= now <= m_expiration_time m.

(** The code compares [issued_at < now] where [now < issued_at] was meant: every
    message is reported as expired at every valid instant after the first ... *)
Theorem C23_valid_is_reported_expired_refuted : forall m now,
  m_issued_at m < now -> now <= m_expiration_time m -> siwe_is_expired now m = true.
Proof. intros m now H1 H2. unfold siwe_is_expired. apply N.ltb_lt in H1. now rewrite H1. Qed.

(** ... and as valid before it was issued. *)
Theorem C23_future_is_reported_valid_refuted : forall m now,
  now < m_issued_at m -> m_issued_at m <= m_expiration_time m -> siwe_is_expired now m = false.
Proof. intros m now H1 H2. unfold siwe_is_expired. lia. Qed.

Theorem C23_claim_refuted : ~ C23_claim.
Proof.
  intros H. destruct (H 1700000060000000000 sample_message) as [_ H2].
  assert (siwe_is_expired 1700000060000000000 sample_message = false) as E by (apply H2; vm_compute; split; discriminate).
  vm_compute in E. discriminate.
Qed.

(** What it does report, exactly; in particular expired messages are reported. *)
Theorem C23_is_expired_partial : forall now m,
  (siwe_is_expired now m = false <-> now <= m_issued_at m /\ now <= m_expiration_time m) /\
  (m_expiration_time m < now -> siwe_is_expired now m = true).
Proof. intros now m. unfold siwe_is_expired. lia. Qed.

Example C23_case : m_issued_at sample_message < 1700000060000000000 <= m_expiration_time sample_message /\
  siwe_is_expired 1700000060000000000 sample_message = true /\
  siwe_is_expired 1600000000000000000 sample_message = false.
Proof. vm_compute. repeat split; congruence. Qed.

(** ** C24 Only valid settings are accepted *)

Theorem C24_accepts_exactly : forall D s s', build D s = Done (Ok s') <-> acceptable D s /\ s' = s.
Proof. apply build_ok. Qed.

(** For whole builder chains. *)
Theorem C24_chain_accepts_exactly : forall D domain uri salt calls s',
  build D (run_builder domain uri salt calls) = Done (Ok s') <->
  acceptable D s' /\ s' = chain_spec domain uri salt calls.
Proof.
  intros D domain uri salt calls s'. rewrite build_ok, run_builder_spec. split; intros [H1 ->]; auto.
Qed.

(** "It never panics" is false: [host_str().unwrap()] runs before the scheme is
    checked.  For a [file] URL the [url] crate reports an authority but no host. *)
Theorem C24_never_panics_refuted : forall D,
  d_url_parse D (bs "file:///index.html") = Some {| url_has_authority := true; url_host := None |} ->
  exists domain uri salt calls w, build D (run_builder domain uri salt calls) = Trap w.
Proof.
  intros D H. exists (bs "/index.html"), (bs "https://example.com"), (bs "salt"), [CallScheme (bs "file")].
  apply build_trap_iff. eexists. split; [exact H|]. split; reflexivity.
Qed.

Theorem C24_panics_exactly : forall D s, (exists w, build D s = Trap w) <->
  exists u, d_url_parse D (s_scheme s ++ bs "://" ++ s_domain s) = Some u /\
    url_has_authority u = true /\ url_host u = None.
Proof. apply build_trap_iff. Qed.

(** With a scheme that can be accepted there is no panic, if the URL parser gives
    http and https URLs a host (the WHATWG rule for special schemes). *)
Theorem C24_no_panic_http : forall D s,
  (forall scheme rest u, scheme = bs "http" \/ scheme = bs "https" ->
     d_url_parse D (scheme ++ bs "://" ++ rest) = Some u -> url_host u <> None) ->
  s_scheme s = bs "http" \/ s_scheme s = bs "https" ->
  exists r, build D s = Done r.
Proof.
  intros D s Hu Hs. destruct (build D s) as [r|w] eqn:E; [eauto|].
  apply build_trap in E as (u & P & _ & H). now destruct (Hu _ _ _ Hs P).
Qed.

(** The documented example configuration, with targets, is acceptable to the executable instance. *)
Definition sample_chain : list builder_call :=
  [CallScheme (bs "http"); CallChainId 10; CallTargets [[x01]; [x02]; [x01; x02]]; CallSession 1; CallScheme (bs "https")].
Definition sample_settings : Settings :=
  run_builder (bs "example.com") (bs "https://example.com/login") (bs "my-secret-salt") sample_chain.

Example C24_case : build CD sample_settings = Done (Ok sample_settings) /\
  d_url_parse CD (bs "file:///index.html") = Some {| url_has_authority := true; url_host := None |} /\
  build CD (set_targets [[x01]; [x02]; [x01]] sample_settings) = Done (Err (bs "Duplicate targets are not allowed")) /\
  build CD (set_scheme (bs "file") (builder_new (bs "/index.html") (bs "https://example.com/login") (bs "salt")))
    = Trap "called `Option::unwrap()` on a `None` value".
Proof. repeat match goal with |- _ /\ _ => split end; vm_compute; reflexivity. Qed.

(** ** C25 Builder calls override defaults and each other in order *)

Theorem C25_builder_chain : forall domain uri salt calls,
  run_builder domain uri salt calls = chain_spec domain uri salt calls.
Proof. apply run_builder_spec. Qed.

(** One more call changes the field it names and nothing else. *)
Theorem C25_one_call : forall domain uri salt calls c,
  let s := run_builder domain uri salt calls in
  let s' := run_builder domain uri salt (calls ++ [c]) in
  s_domain s' = domain /\ s_uri s' = uri /\ s_salt s' = salt /\
  s_chain_id s' = match c with CallChainId x => x | _ => s_chain_id s end /\
  s_scheme s' = match c with CallScheme x => x | _ => s_scheme s end /\
  s_statement s' = match c with CallStatement x => x | _ => s_statement s end /\
  s_sign_in_expires_in s' = match c with CallSignIn x => x | _ => s_sign_in_expires_in s end /\
  s_session_expires_in s' = match c with CallSession x => x | _ => s_session_expires_in s end /\
  s_targets s' = match c with CallTargets x => Some x | _ => s_targets s end /\
  s_features s' = match c with CallFeatures x => Some x | _ => s_features s end.
Proof.
  intros domain uri salt calls c s s'.
  assert (s_domain s = domain /\ s_uri s = uri /\ s_salt s = salt) as (E1 & E2 & E3).
  { unfold s. rewrite run_builder_spec. auto. }
  assert (s' = builder_step s c) as ->.
  { unfold s', s, run_builder. now rewrite fold_left_app. }
  rewrite <- E1, <- E2, <- E3. destruct c; repeat split; reflexivity.
Qed.

Example C25_case :
  s_scheme sample_settings = bs "https" /\ s_chain_id sample_settings = 10 /\
  s_session_expires_in sample_settings = 1 /\ s_sign_in_expires_in sample_settings = 300000000000 /\
  s_statement sample_settings = bs "SIWE Fields:" /\ s_targets sample_settings = Some [[x01]; [x02]; [x01; x02]].
Proof. repeat match goal with |- _ /\ _ => split end; vm_compute; reflexivity. Qed.

(** ** C26 Initialisation installs exactly the requested configuration *)

(** In any prior state [st], in particular with other flags before the upgrade. *)
Theorem C26_install_or_trap : forall D cid now i st st' r o,
  o = Install i \/ o = Upgrade i -> step D cid now o st = (st', r) ->
  (exists c s, st' = Some c /\ r = RDone /\ ls_settings (c_lib c) = Some s /\ init_spec D cid i s (c_flags c)) \/
  (st' = st /\ exists w, r = RTrap w).
Proof.
  intros D cid now i st st' r o [->| ->] H; cbn [step] in H.
  - unfold do_install in H. destruct (siwe_init D cid i) as [[s fl]|w] eqn:E; cbn [obind] in H.
    + left. assert (st' = Some (fresh s fl ∅ ∅ []) /\ r = RDone) as [-> ->] by (split; congruence).
      eexists _, s. split; [reflexivity|]. split; [reflexivity|]. split; [reflexivity|]. now apply siwe_init_spec.
    + right. split; [congruence|]. exists w. congruence.
  - destruct st as [c|]; [|right; split; [congruence|eexists; symmetry; exact (f_equal snd H)]].
    unfold do_upgrade in H. destruct (siwe_init D cid i) as [[s fl]|w] eqn:E; cbn [obind] in H.
    + left. assert (st' = Some (fresh s fl (c_principal_address c) (c_address_principal c) (c_certified c)) /\ r = RDone)
        as [-> ->] by (split; congruence).
      eexists _, s. split; [reflexivity|]. split; [reflexivity|]. split; [reflexivity|]. now apply siwe_init_spec.
    + right. split; [congruence|]. exists w. congruence.
Qed.

(** Conversely every argument with an acceptable configuration is installed. *)
Theorem C26_installs : forall D cid now i st s fl,
  init_spec D cid i s fl ->
  (exists c, step D cid now (Install i) st = (Some c, RDone) /\
     ls_settings (c_lib c) = Some s /\ c_flags c = fl) /\
  (st <> None -> exists c, step D cid now (Upgrade i) st = (Some c, RDone) /\
     ls_settings (c_lib c) = Some s /\ c_flags c = fl).
Proof.
  intros D cid now i st s fl H. apply siwe_init_spec in H. split.
  - cbn [step]. unfold do_install. rewrite H. cbn [obind]. eexists. repeat split.
  - intros N. destruct st as [c|]; [|congruence]. cbn [step]. unfold do_upgrade. rewrite H. cbn [obind].
    eexists. repeat split.
Qed.

(** Both are exhaustive: the settings and flags an argument asks for are unique. *)
Theorem C26_deterministic : forall D cid i s1 fl1 s2 fl2,
  init_spec D cid i s1 fl1 -> init_spec D cid i s2 fl2 -> s1 = s2 /\ fl1 = fl2.
Proof.
  intros D cid i s1 fl1 s2 fl2 H1 H2. apply siwe_init_spec in H1, H2. rewrite H1 in H2.
  split; congruence.
Qed.

Definition sample_input : SettingsInput :=
  mkInput (bs "example.com") (bs "https://example.com/login") (bs "my-secret-salt") (Some 10) None None
    (Some 60000000000) None (Some [bs "ftsch-7ikbm"; bs "3o2kh-jqm"])
    (Some [PF_DisablePrincipalToEthMapping; PF_IncludeUriInSeed]).
Definition sample_cid : bytes := [x0a; x0b].

Example C26_case : exists c,
  step CD sample_cid 5 (Install sample_input) None = (Some c, RDone) /\
  c_flags c = mkFlags false true /\
  (exists c', step CD sample_cid 6
     (Upgrade (mkInput (bs "b.com") (bs "https://b.com") (bs "s") None None None None None None None)) (Some c)
     = (Some c', RDone) /\ c_flags c' = mkFlags false false) /\
  (exists w, step CD [x0c; x0c] 5 (Install sample_input) None = (None, RTrap w)).
Proof.
  eexists. split; [vm_compute; reflexivity|]. split; [reflexivity|]. split.
  - eexists. split; vm_compute; reflexivity.
  - eexists. vm_compute; reflexivity.
Qed.

(** C22 on this canister, also at the end of time, where the lifetime is cut short. *)
Example C22_case : exists c c' text nonce c2 text2 nonce2,
  step CD sample_cid 5 (Install sample_input) None = (Some c, RDone) /\
  siwe_prepare_login CD 1700000000000000000 (bs "0x5aAeb6053F3E94C9b9A09f33669435E7Ef1BeAed")
    (do_raw_rand (Some (repeat x07 32)) c) = Done (c', Ok (text, nonce)) /\
  siwe_prepare_login CD 18446744073709551000 (bs "0x5aAeb6053F3E94C9b9A09f33669435E7Ef1BeAed") c'
    = Done (c2, Ok (text2, nonce2)) /\ nonce2 <> nonce /\
  m_expiration_time <$> (snd <$> map_to_list (ls_msgs (c_lib c2))) = [1700000060000000000; 18446744073709551615].
Proof.
  do 7 eexists. split; [vm_compute; reflexivity|]. split; [vm_compute; reflexivity|].
  split; [vm_compute; reflexivity|]. split; [discriminate|]. vm_compute. reflexivity.
Qed.

Print Assumptions C20_reads_back.
Print Assumptions C20_calendar.
Print Assumptions C21_reads_back.
Print Assumptions C21_text_injective_partial.
Print Assumptions C21_distinct_texts_refuted.
Print Assumptions C21_claim_refuted.
Print Assumptions C21_prepared.
Print Assumptions C21_line_break_refuted.
Print Assumptions C22_prepared_message.
Print Assumptions C23_valid_is_reported_expired_refuted.
Print Assumptions C23_future_is_reported_valid_refuted.
Print Assumptions C23_claim_refuted.
Print Assumptions C23_is_expired_partial.
Print Assumptions C24_accepts_exactly.
Print Assumptions C24_chain_accepts_exactly.
Print Assumptions C24_never_panics_refuted.
Print Assumptions C24_panics_exactly.
Print Assumptions C24_no_panic_http.
Print Assumptions C25_builder_chain.
Print Assumptions C25_one_call.
Print Assumptions C26_install_or_trap.
Print Assumptions C26_installs.
Print Assumptions C26_deterministic.
