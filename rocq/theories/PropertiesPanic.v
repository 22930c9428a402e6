(** C108: exactly when building the settings panics. *)
From Coq Require Import Strings.String ZifyBool ZifyN ZifyNat.
From Verif Require Import Base BaseLemmas Deps Hex Eth Settings Siwe SpecEth EthProofs SpecSiwe SpecPrincipal SpecInit
  SettingsProofs PropertiesSiwe Url SpecUrl UrlNumbers UrlHosts UrlV6 UrlProofs Concrete PropertiesUrl SpecUri UrlOther SpecPanic.
Local Open Scope N_scope.

Definition hostless (u : option url_info) : Prop := exists i, u = Some i /\ url_has_authority i = true /\ url_host i = None.

Lemma opaque_nil h host : parse_opaque_host h = Some host -> (host = [] <-> h = []).
Proof.
  destruct h as [|c h]; cbn [parse_opaque_host].
  - intros E. apply (inj Some) in E. subst host. tauto.
  - destruct (Byte.eqb c x5b) eqn:Ec.
    + apply byte_eqb_spec in Ec as ->. intros E. apply bracketed_iff in E as (a & _ & _ & ->). split; discriminate.
    + destruct (existsb _ _); [discriminate|]. intros E. apply (inj Some) in E. subst host.
      split; [intros C; now apply encode_controls_nil in C|discriminate].
Qed.

Lemma nameless_span user l :
  hostless (let (h, l2) := host_span Other false l in
    match parse_opaque_host h with
    | None => None
    | Some host =>
        if bytes_eqb host [] && (false || is_prefix (bs ":") l2 || user) then None
        else if port_ok l2
        then Some {| url_has_authority := true; url_host := if bytes_eqb host [] then None else Some host |}
        else None
    end) <-> user = false /\ otail l.
Proof.
  split.
  - destruct (host_span Other false l) as [h l2] eqn:Es. intros (i & E & _ & Ei).
    destruct (parse_opaque_host h) as [host|] eqn:Eh; [|discriminate].
    destruct (bytes_eqb host []) eqn:Eb; cbn [andb] in E.
    + apply bytes_eqb_spec in Eb. apply (opaque_nil _ _ Eh) in Eb. subst h.
      pose proof (ospan_app _ _ _ _ Es) as ->. pose proof (ospan_free _ _ _ _ Es) as [_ He]. cbn [app].
      destruct (false || is_prefix (bs ":") l2 || user) eqn:Eo; [discriminate|]. cbn [orb] in Eo. apply orb_false_iff in Eo as [Ep ->].
      split; [reflexivity|]. destruct He as [->|(c & r & -> & [Hc| ->])]; [now left|right; eauto|discriminate Ep].
    + destruct (port_ok l2); [|discriminate]. apply (inj Some) in E. subst i. discriminate Ei.
  - intros [-> Hl]. assert (host_span Other false l = ([], l)) as ->.
    { apply ospan_end. destruct Hl as [->|(c & r & -> & Hc)]; [now left|right; eauto]. }
    cbn [parse_opaque_host]. change (bytes_eqb [] []) with true. cbn [andb orb].
    assert (is_prefix (bs ":") l = false) as -> by (destruct Hl as [->|(c & r & -> & [->|[->| ->]])]; reflexivity).
    assert (port_ok l = true) as -> by (destruct Hl as [->|(c & r & -> & [->|[->| ->]])]; reflexivity).
    cbn [orb]. eexists. split; [reflexivity|]. split; reflexivity.
Qed.

Lemma other_nameless_iff L r : hostless (after_double_slash L Other r) <-> other_nameless (bs "//" ++ r).
Proof.
  unfold after_double_slash. cbn [is_special].
  assert (hostless match parse_userinfo Other r with
     | Some (u, l1) => let (h, l2) := host_span Other false l1 in
        match parse_opaque_host h with
        | Some host => if bytes_eqb host [] && (false || is_prefix (bs ":") l2 || u) then None
            else if port_ok l2 then Some {| url_has_authority := true; url_host := if bytes_eqb host [] then None else Some host |} else None
        | None => None
        end
     | None => None
     end <-> exists l1, parse_userinfo Other r = Some (false, l1) /\ otail l1) as ->.
  { destruct (parse_userinfo Other r) as [[u l1]|].
    - rewrite nameless_span. split; [intros [-> H]; eauto|]. intros (l & E & H). injection E as -> ->. auto.
    - split; [intros (i & E & _); discriminate E|intros (l & E & _); discriminate E]. }
  unfold parse_userinfo. split.
  - intros (l1 & E & Hl). destruct (osplit r) as (a & tl & -> & Ha & Htl).
    destruct (split_at_sign a) as [Hno|(w & h0 & -> & Hno)].
    + rewrite (olast_none a tl) in E by assumption. injection E as <-. exists [], (a ++ tl). auto.
    + apply Forall_app in Ha as [Hw Ha]. inversion Ha as [|? ? _ Hh0]; subst.
      rewrite <- app_assoc in E. cbn [app] in E. rewrite (olast_some w h0 tl) in E by assumption. cbn [rev app] in E.
      rewrite <- app_assoc. cbn [app]. destruct w as [|c w].
      * destruct (h0 ++ tl) as [|c l] eqn:El.
        -- exists (bs "@"), []. split; [reflexivity|]. auto.
        -- destruct (ends_authority Other c) eqn:Ec; [discriminate|]. injection E as <-.
           destruct Hl as [C|(c' & r & C & Hc)]; [discriminate C|]. injection C as -> _. apply plain_ender_iff in Hc. congruence.
      * injection E as E <-. apply negb_false_iff, bytes_eqb_spec in E. rewrite E.
        exists (bs ":@"), (h0 ++ tl). auto.
  - intros (user & rest & E & Hr & Hu). apply app_inv_head in E as ->. exists rest. split; [|exact Hr].
    assert (forall best seen, last_at Other rest seen best = best) as Hlast.
    { intros best seen. apply (olast_none [] rest); auto. }
    destruct Hu as [->|[[-> ->]| ->]].
    + cbn [app]. now rewrite Hlast.
    + reflexivity.
    + change (last_at Other (bs ":@" ++ rest) [] None) with (last_at Other rest [x40; x3a] (Some (bs ":", rest))). now rewrite Hlast.
Qed.

Lemma file_nameless_iff L t : hostless (parse_file L t) <-> file_nameless (u_idna L) (u_drive L) t.
Proof.
  pose proof (file_host_iff L) as HH.
  assert (hostless (Some {| url_has_authority := true; url_host := None |})) as Hyes.
  { eexists. split; [reflexivity|]. split; reflexivity. }
  assert (forall h, is_drive_letter h = true <-> exists c d, h = [c; d] /\ (65 <= nb c <= 90 \/ 97 <= nb c <= 122) /\ (d = x3a \/ d = x7c)) as HD.
  { intros h. split.
    - unfold is_drive_letter. destruct h as [|a [|b [|]]]; try discriminate. intros H. apply andb_true_iff in H as [Ha Hb].
      exists a, b. split; [reflexivity|]. split.
      + unfold is_alpha in Ha. rewrite orb_true_iff, !andb_true_iff, !N.leb_le in Ha. exact Ha.
      + unfold one_of in Hb. cbn in Hb. rewrite !orb_true_iff in Hb. repeat rewrite (byte_eqb_spec b) in Hb. intuition congruence.
    - intros (c & d & -> & Hc & Hd). cbn [is_drive_letter]. apply andb_true_iff. split.
      + unfold is_alpha. rewrite orb_true_iff, !andb_true_iff, !N.leb_le. exact Hc.
      + destruct Hd as [->| ->]; reflexivity. }
  destruct t as [|a [|b t]]; cbn [parse_file].
  - split; [|auto]. intros _. left. intros. discriminate.
  - split; [|auto]. intros _. left. intros. discriminate.
  - destruct (one_of (bs "/\") a && one_of (bs "/\") b) eqn:Es.
    + apply andb_true_iff in Es as [Sa Sb]. apply slash_iff in Sa, Sb.
      destruct (until_end_spec t) as (h & r & Eu & -> & Hh & Hr). rewrite Eu. split.
      * intros H. right. exists a, b, h, r. split; [reflexivity|]. split; [exact Sa|]. split; [exact Sb|]. split; [exact Hh|]. split; [exact Hr|].
        destruct (is_drive_letter h || bytes_eqb h []) eqn:Ed.
        { apply orb_true_iff in Ed as [Ed|Ed]; [right; left; now apply HD|left; now apply bytes_eqb_spec]. }
        apply orb_false_iff in Ed as [_ Ed]. apply bytes_eqb_false in Ed.
        destruct (parse_domain_host L h) as [host|] eqn:Eh; [|destruct H as (i & C & _); discriminate C].
        destruct (bytes_eqb host (bs "localhost") || u_drive L r) eqn:El.
        -- right. right. exists host. split; [now apply HH|]. apply orb_true_iff in El as [El|El]; [left; now apply bytes_eqb_spec|now right].
        -- destruct H as (i & C & _ & N). apply (inj Some) in C. subst i. discriminate N.
      * intros [C|(a' & b' & h' & r' & E & _ & _ & Hh' & Hr' & Hk)]; [exfalso; now apply (C a b (h ++ r))|].
        injection E as <- <- E. apply free_app_inv in E as [<- <-]; auto.
        destruct (is_drive_letter h) eqn:Ed; [exact Hyes|]. destruct (bytes_eqb h []) eqn:Eh0; [exact Hyes|]. cbn [orb].
        apply bytes_eqb_false in Eh0. destruct Hk as [C|[C|(host & Hho & Hd)]]; [contradiction|apply HD in C; congruence|].
        apply HH in Hho; [|exact Eh0]. rewrite Hho.
        assert (bytes_eqb host (bs "localhost") || u_drive L r = true) as ->; [|exact Hyes].
        apply orb_true_iff. destruct Hd as [->|Hd]; [left; apply bytes_eqb_spec; reflexivity|now right].
    + split; [|auto]. intros _. left. intros a' b' r E [Sa Sb]. injection E as <- <- _. apply slash_iff in Sa, Sb.
      rewrite Sa, Sb in Es. discriminate Es.
Qed.

Theorem nameless_iff L address : hostless (url_parse L address) <-> nameless (u_idna L) (u_drive L) address.
Proof.
  assert (forall low t, parse_scheme (url_input address) = Some (low, t) ->
    (hostless (url_parse L address) <->
     ((low = bs "file" /\ file_nameless (u_idna L) (u_drive L) t) \/
      (~ special_name low /\ low <> bs "file" /\ other_nameless t)))) as Key.
  { intros low t E. unfold url_parse. rewrite E. unfold scheme_type_of.
    destruct (bytes_eqb low (bs "file")) eqn:Ef.
    - apply bytes_eqb_spec in Ef as ->. rewrite file_nameless_iff. split; [auto|].
      intros [[_ H]|(_ & C & _)]; [exact H|congruence].
    - apply bytes_eqb_false in Ef. destruct (existsb (bytes_eqb low) _) eqn:Es.
      + assert (special_name low) as Hsp.
        { apply existsb_exists in Es as (x & I & Ex). apply bytes_eqb_spec in Ex as ->. exact I. }
        split; [|intros [[C _]|[C _]]; contradiction].
        intros (i & Ei & _ & Eh). exfalso. revert Ei. unfold after_double_slash. cbn [is_special].
        destruct (parse_userinfo _ _) as [[u l1]|]; [|discriminate]. destruct (host_span _ _ _) as [h l2].
        destruct (parse_domain_host L h) as [host|]; [|discriminate]. cbn [orb]. rewrite andb_true_r.
        destruct (bytes_eqb host []); [discriminate|]. destruct (port_ok l2); [|discriminate].
        intros Ei. apply (inj Some) in Ei. subst i. discriminate Eh.
      + assert (~ special_name low) as Hsp.
        { intros I. apply not_true_iff_false in Es. apply Es, existsb_exists. exists low. split; [exact I|apply bytes_eqb_spec; reflexivity]. }
        split.
        * intros H. right. split; [exact Hsp|]. split; [exact Ef|].
          destruct (strip_prefix (bs "//") t) as [r|] eqn:Ep; [|destruct H as (i & Ei & Ea & _); apply (inj Some) in Ei; subst i; discriminate Ea].
          apply strip_prefix_spec in Ep as ->. now apply other_nameless_iff in H.
        * intros [[C _]|(_ & _ & H)]; [congruence|].
          pose proof H as (user & rest & -> & _).
          assert (strip_prefix (bs "//") (bs "//" ++ user ++ rest) = Some (user ++ rest)) as -> by reflexivity.
          now apply other_nameless_iff. }
  split.
  - intros H. destruct (parse_scheme (url_input address)) as [[low t]|] eqn:E.
    + apply (Key low t eq_refl) in H. apply scheme_of_input in E as (a & rest & s & Eu & Ha & Hr & Hs & Hl).
      exists a, rest, s, t, low. do 5 (split; [assumption|]). exact H.
    + unfold url_parse in H. rewrite E in H. destruct H as (i & C & _). discriminate C.
  - intros (a & rest & s & t & low & Eu & Ha & Hr & Hs & Hl & Hk). apply (Key low t); [|exact Hk].
    apply scheme_of_input. exists a, rest, s. auto.
Qed.

(** Building the settings panics exactly if the scheme and the domain, put together, are an
    address without a host; whatever the other settings are. *)
Theorem C108_panics : forall L D s,
  (exists w, build (with_url L D) s = Trap w) <-> nameless (u_idna L) (u_drive L) (s_scheme s ++ bs "://" ++ s_domain s).
Proof.
  intros L D s. rewrite build_trap_iff, <- nameless_iff. cbn [with_url d_url_parse]. reflexivity.
Qed.

Definition panicking : list (bytes * bytes) :=
  [(bs "file", []); (bs "FILE", bs "/index.html"); (bs "file", bs "localhost"); (bs "file", bs "C|/x"); (bs "file:x", bs "y");
   (bs "did", []); (bs " ipfs", bs "/x"); (bs "did", bs "?q"); (bs "did", bs "@"); (bs "did", bs ":@/x")].
Definition calm : list (bytes * bytes) :=
  [(bs "https", []); (bs "wss", bs "/"); (bs "mailto:a", bs "b"); (bs "did", bs "@/x"); (bs "did", bs "a:@"); (bs "", bs "x"); (bs "file", bs "host/x");
   (bs "did:", bs "x"); (bs "did", bs ":80")].
Definition with_pair (p : bytes * bytes) : Settings := set_scheme (fst p) (builder_new (snd p) (bs "https://example.com") (bs "salt")).
Example C108_case : forall D,
  Forall (fun p => exists w, build (with_url L0 D) (with_pair p) = Trap w) panicking /\
  Forall (fun p => exists r, build (with_url L0 D) (with_pair p) = Done r) calm.
Proof. intros D. split; unfold panicking, calm; repeat constructor; eexists; vm_compute; reflexivity. Qed.

Print Assumptions C108_panics.
