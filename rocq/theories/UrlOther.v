(** The URL parser on schemes other than "http" and "https". *)
From Coq Require Import Strings.String ZifyBool ZifyN ZifyNat.
From Verif Require Import Base BaseLemmas Deps Hex Eth Settings Url SpecEth EthProofs SpecUrl UrlNumbers UrlHosts UrlV6 UrlProofs PropertiesUrl SpecUri.
Local Open Scope N_scope.

Notation Other := NotSpecial.

Lemma plain_ender_iff c : ends_authority Other c = true <-> plain_ender c.
Proof.
  unfold ends_authority, one_of, plain_ender. cbn. rewrite !orb_true_iff.
  repeat rewrite (byte_eqb_spec c). intuition congruence.
Qed.
Lemma not_plain_b c : ~ plain_ender c -> ends_authority Other c = false.
Proof. intros H. apply not_true_iff_false. intros C. now apply H, plain_ender_iff. Qed.

Definition ofree (c : byte) : Prop := ~ plain_ender c.
Definition otail (t : bytes) : Prop := t = [] \/ exists c r, t = c :: r /\ plain_ender c.

Lemma otail_tail t : otail t -> tail_part t.
Proof.
  intros [->|(c & r & -> & H)]; [now left|]. right. exists c, r. split; [reflexivity|].
  destruct H as [->|[->| ->]]; [left; now left|right; now left|right; now right].
Qed.
Lemma ender_other c : ender c -> plain_ender c \/ c = x5c.
Proof. intros [[->| ->]|[->| ->]]; unfold plain_ender; auto. Qed.

Lemma osplit l : exists a t, l = a ++ t /\ Forall ofree a /\ otail t.
Proof.
  induction l as [|c l (a & t & -> & Ha & Ht)]; [exists [], []; repeat split; auto; now left|].
  destruct (ends_authority Other c) eqn:E.
  - apply plain_ender_iff in E. exists [], (c :: a ++ t). split; [reflexivity|]. split; [constructor|].
    right. exists c, (a ++ t). auto.
  - exists (c :: a), t. split; [reflexivity|]. split; [|exact Ht]. constructor; [|exact Ha].
    intros C. apply plain_ender_iff in C. congruence.
Qed.
Lemma ofree_app_inv (a t x y : bytes) : Forall ofree a -> otail t -> Forall ofree x -> otail y ->
  a ++ t = x ++ y -> a = x /\ t = y.
Proof.
  revert x. induction a as [|c a IH]; intros x Ha Ht Hx Hy E.
  - destruct x as [|d x]; [auto|]. exfalso. cbn in E. destruct Ht as [->|(c & r & -> & Hc)]; [discriminate|].
    injection E as -> _. inversion Hx. contradiction.
  - destruct x as [|d x].
    + exfalso. cbn in E. destruct Hy as [->|(e & r & -> & He)]; [discriminate|].
      injection E as -> _. inversion Ha. contradiction.
    + cbn in E. injection E as -> E. inversion Ha; inversion Hx; subst.
      destruct (IH x) as [-> ->]; auto.
Qed.

Lemma olast_none a t seen best : Forall ofree a -> otail t -> ~ In x40 a ->
  last_at Other (a ++ t) seen best = best.
Proof.
  revert seen. induction a as [|c a IH]; intros seen Ha Ht Hn.
  - cbn [app]. destruct Ht as [->|(c & r & -> & Hc)]; [reflexivity|]. cbn [last_at].
    apply plain_ender_iff in Hc. rewrite Hc. destruct (Byte.eqb c x40) eqn:E; [|reflexivity].
    apply byte_eqb_spec in E as ->. vm_compute in Hc. discriminate.
  - inversion Ha; subst. cbn [app last_at]. destruct (Byte.eqb c x40) eqn:E.
    { apply byte_eqb_spec in E as ->. destruct Hn. now left. }
    rewrite not_plain_b by assumption. apply IH; auto. intros C. apply Hn. now right.
Qed.
Lemma olast_some w h t seen best : Forall ofree w -> Forall ofree h -> otail t -> ~ In x40 h ->
  last_at Other (w ++ x40 :: h ++ t) seen best = Some (rev seen ++ w, h ++ t).
Proof.
  revert seen best. induction w as [|c w IH]; intros seen best Hw Hh Ht Hn.
  - cbn [app last_at]. change (Byte.eqb x40 x40) with true. cbn iota. rewrite olast_none by assumption. now rewrite app_nil_r.
  - inversion Hw; subst. cbn [app last_at]. destruct (Byte.eqb c x40) eqn:E.
    + rewrite IH by assumption. cbn [rev]. now rewrite <- app_assoc.
    + rewrite not_plain_b by assumption. rewrite IH by assumption. cbn [rev]. now rewrite <- app_assoc.
Qed.

Definition ohost_end (r : bytes) : Prop := r = [] \/ exists c r', r = c :: r' /\ (plain_ender c \/ c = x3a).

Lemma ospan_app inside l h r : host_span Other inside l = (h, r) -> l = h ++ r.
Proof.
  revert inside h r. induction l as [|c l IH]; intros inside h r; cbn [host_span].
  - intros E. injection E as <- <-. reflexivity.
  - destruct ((Byte.eqb c x3a && negb inside) || ends_authority Other c) eqn:Ec.
    + intros E. injection E as <- <-. reflexivity.
    + destruct (host_span Other _ l) as [h' r'] eqn:Es. intros E. injection E as <- <-.
      apply IH in Es. now subst l.
Qed.
Lemma ospan_free inside l h r : host_span Other inside l = (h, r) -> Forall ofree h /\ ohost_end r.
Proof.
  revert inside h r. induction l as [|c l IH]; intros inside h r; cbn [host_span].
  - intros E. injection E as <- <-. split; [constructor|now left].
  - destruct ((Byte.eqb c x3a && negb inside) || ends_authority Other c) eqn:Ec.
    + intros E. injection E as <- <-. split; [constructor|]. right. exists c, l. split; [reflexivity|].
      apply orb_true_iff in Ec as [Ec|Ec]; [right|left; now apply plain_ender_iff].
      apply andb_true_iff in Ec as [Ec _]. now apply byte_eqb_spec.
    + destruct (host_span Other _ l) as [h' r'] eqn:Es. intros E. injection E as <- <-.
      apply IH in Es as [H1 H2]. split; [|exact H2]. constructor; [|exact H1].
      apply orb_false_iff in Ec as [_ Ec]. intros C. apply plain_ender_iff in C. congruence.
Qed.
Lemma ospan_end r : ohost_end r -> host_span Other false r = ([], r).
Proof.
  intros [->|(c & r' & -> & Hc)]; [reflexivity|]. cbn [host_span].
  assert ((Byte.eqb c x3a && negb false) || ends_authority Other c = true) as ->; [|reflexivity].
  apply orb_true_iff. destruct Hc as [Hc| ->]; [right; now apply plain_ender_iff|now left].
Qed.

Lemma opaque_char_iff c : invalid_host_char c = false <-> opaque_char c.
Proof.
  assert (invalid_host_char c = true <-> (c = x00 \/ break_char c \/ In c (bs " #/:<>?@[\]^|"))) as H.
  { unfold invalid_host_char. rewrite orb_true_iff. unfold one_of. rewrite !existsb_exists. unfold break_char. split.
    - intros [(x & I & E)|(x & I & E)]; apply byte_eqb_spec in E as <-.
      + cbn in I. intuition congruence.
      + now right; right.
    - intros [->|[H|I]].
      + left. exists x00. split; [left; reflexivity|reflexivity].
      + left. exists c. split; [cbn; intuition congruence|now apply byte_eqb_spec].
      + right. exists c. split; [exact I|now apply byte_eqb_spec]. }
  unfold opaque_char. rewrite <- H. destruct (invalid_host_char c); intuition congruence.
Qed.
Lemma opaque_chars_iff l : existsb invalid_host_char l = false <-> Forall opaque_char l.
Proof.
  induction l as [|c l IH]; [split; [constructor|reflexivity]|]. cbn [existsb]. rewrite orb_false_iff, IH, opaque_char_iff.
  split; [intros [A B]; now constructor|intros H; inversion H; auto].
Qed.
Lemma opaque_facts c : opaque_char c -> ~ plain_ender c /\ c <> x3a /\ c <> x40 /\ c <> x5b.
Proof.
  intros H. repeat split; [intros [->|[->| ->]]|intros ->|intros ->|intros ->];
    apply H; right; right; cbn; intuition.
Qed.

Lemma encode_controls_nil l : encode_controls l = [] -> l = [].
Proof. destruct l as [|c l]; [reflexivity|]. unfold encode_controls. cbn [flat_map]. destruct (_ || _); discriminate. Qed.

Lemma opaque_host_iff h : opaque_host h <-> exists host, parse_opaque_host h = Some host /\ host <> [].
Proof.
  split.
  - intros [(v & -> & Hv)|[Hne Ho]].
    + exists (x5b :: v ++ [x5d]). split; [|discriminate]. cbn [parse_opaque_host]. change (Byte.eqb x5b x5b) with true. cbn iota.
      apply bracketed_iff. eauto.
    + destruct h as [|c h]; [contradiction|]. cbn [parse_opaque_host].
      replace (Byte.eqb c x5b) with false by (symmetry; apply byte_eqb_neq; inversion Ho; now apply opaque_facts).
      apply opaque_chars_iff in Ho. rewrite Ho. eexists. split; [reflexivity|]. intros C. now apply encode_controls_nil in C.
  - intros (host & E & Hne). destruct h as [|c h]; [cbn in E; congruence|]. cbn [parse_opaque_host] in E.
    destruct (Byte.eqb c x5b) eqn:Ec.
    + apply byte_eqb_spec in Ec as ->. apply bracketed_iff in E as (a & -> & Ha & _). left. eauto.
    + destruct (existsb invalid_host_char (c :: h)) eqn:Eo; [discriminate|]. right. split; [discriminate|].
      now apply opaque_chars_iff.
Qed.

Lemma ospan_name h r : Forall opaque_char h -> ohost_end r -> host_span Other false (h ++ r) = (h, r).
Proof.
  induction 1 as [|c h Hc Hh IH]; intros Hr; [now apply ospan_end|]. apply opaque_facts in Hc as (H1 & H2 & H3 & H4).
  cbn [app host_span]. replace (Byte.eqb c x3a) with false by (symmetry; now apply byte_eqb_neq).
  rewrite not_plain_b by exact H1. cbn [andb orb]. replace (Byte.eqb c x5b) with false by (symmetry; now apply byte_eqb_neq).
  destruct (Byte.eqb c x5d); now rewrite IH.
Qed.
Lemma ender_plain c : plain_ender c -> ender c.
Proof. intros [->|[->| ->]]; [left; now left|right; now left|right; now right]. Qed.
Lemma ospan_inside a r : Forall v6_char a -> ohost_end r -> host_span Other true (a ++ x5d :: r) = (a ++ [x5d], r).
Proof.
  induction 1 as [|c a Hc Ha IH]; intros Hr.
  - cbn [app host_span]. change (Byte.eqb x5d x3a) with false. change (ends_authority Other x5d) with false. cbn [andb orb].
    change (Byte.eqb x5d x5b) with false. change (Byte.eqb x5d x5d) with true. cbn iota. now rewrite ospan_end.
  - apply v6_char_free in Hc as (H1 & H2 & H3 & H4). cbn [app host_span negb]. rewrite andb_false_r.
    rewrite not_plain_b by (intros C; now apply H1, ender_plain). cbn [orb].
    replace (Byte.eqb c x5b) with false by (symmetry; now apply byte_eqb_neq).
    replace (Byte.eqb c x5d) with false by (symmetry; now apply byte_eqb_neq). now rewrite IH.
Qed.
Lemma ospan_host h r : opaque_host h -> ohost_end r -> host_span Other false (h ++ r) = (h, r).
Proof.
  intros [(v & -> & Hv)|[_ Ho]] Hr; [|now apply ospan_name].
  cbn [app host_span]. change (Byte.eqb x5b x3a) with false. change (ends_authority Other x5b) with false. cbn [andb orb].
  change (Byte.eqb x5b x5b) with true. cbn iota. rewrite <- app_assoc. cbn [app].
  now rewrite (ospan_inside v r) by (auto using text_v6).
Qed.

Definition hosted (u : option url_info) : Prop := exists i h, u = Some i /\ url_host i = Some h.

(** The authority with the user taken off. *)
Lemma authority_iff user a tl : Forall ofree a -> ~ In x40 a -> otail tl ->
  hosted (let (h, l2) := host_span Other false (a ++ tl) in
    match parse_opaque_host h with
    | None => None
    | Some host =>
        if bytes_eqb host [] && (false || is_prefix (bs ":") l2 || user) then None
        else if port_ok l2
        then Some {| url_has_authority := true; url_host := if bytes_eqb host [] then None else Some host |}
        else None
    end) <-> opaque_authority a.
Proof.
  intros Ha Hat Htl. split.
  - destruct (host_span Other false (a ++ tl)) as [h l2] eqn:Es. intros (i & hh & E & Ei).
    destruct (parse_opaque_host h) as [host|] eqn:Eh; [|discriminate].
    assert (host <> []) as Hne.
    { intros ->. cbn [bytes_eqb andb] in E. destruct (false || is_prefix (bs ":") l2 || user); [discriminate E|].
      destruct (port_ok l2); [|discriminate]. apply (inj Some) in E. subst i. discriminate Ei. }
    replace (bytes_eqb host []) with false in E by (symmetry; now apply bytes_eqb_false). cbn [andb] in E.
    destruct (port_ok l2) eqn:Ep; [|discriminate]. clear E Ei.
    assert (opaque_host h) as Ho by (apply opaque_host_iff; eauto).
    pose proof (ospan_app _ _ _ _ Es) as Eq. pose proof (ospan_free _ _ _ _ Es) as [Hf He].
    split.
    { apply List.Forall_forall. intros c Hc. split; [rewrite List.Forall_forall in Ha; now apply Ha|]. intros ->. contradiction. }
    destruct He as [->|(c & r & -> & Hc)].
    + rewrite <- (app_nil_r h) in Eq. rewrite app_nil_r in Eq at 1.
      exists h, [], []. rewrite !app_nil_r. rewrite app_nil_r in Eq. split; [|split; [exact Ho|split; now left]].
      assert (a ++ tl = h ++ []) as Eq' by (now rewrite app_nil_r).
      apply ofree_app_inv in Eq' as [-> _]; auto. now left.
    + unfold port_ok in Ep. destruct (Byte.eqb c x3a) eqn:Ec.
      * apply byte_eqb_spec in Ec as ->. destruct (parse_port r 0) as [n|] eqn:En; [|discriminate].
        apply parse_port_spec in En as (q & t & -> & Hq & Hv & Ht); [|lia].
        assert (port_part (x3a :: q)) as Hp.
        { right. exists q, (dval q 0). split; [reflexivity|]. split; [now apply numeral_dval|exact Hv]. }
        destruct (osplit t) as (j & tl' & -> & Hj & Htl').
        destruct (port_free _ Hp) as [Hfp _].
        assert (Forall ofree (h ++ (x3a :: q) ++ j)) as Hall.
        { apply Forall_app_2; [exact Hf|]. apply Forall_app_2; [|exact Hj]. eapply List.Forall_impl; [|exact Hfp].
          intros c Hc' C. now apply Hc', ender_plain. }
        assert (a ++ tl = (h ++ (x3a :: q) ++ j) ++ tl') as Eq' by (rewrite Eq, <- !app_assoc; reflexivity).
        apply ofree_app_inv in Eq' as [-> ->]; auto.
        exists h, (x3a :: q), j. split; [reflexivity|]. split; [exact Ho|]. split; [exact Hp|].
        destruct j as [|d j]; [now left|]. right. split; [discriminate|]. exists j. f_equal.
        inversion Hj as [|? ? Hd]; subst. destruct Ht as [Ht|(d' & r' & Ht & Hd')]; [discriminate Ht|].
        cbn in Ht. injection Ht as <- _. apply ender_other in Hd' as [Hd'|Hd']; [contradiction|exact Hd'].
      * apply byte_eqb_neq in Ec. destruct Hc as [Hc|Hc]; [|congruence].
        apply ofree_app_inv in Eq as [-> _]; auto; [|right; eauto].
        exists h, [], []. rewrite !app_nil_r. split; [reflexivity|]. split; [exact Ho|]. split; now left.
  - intros [_ (h & p & j & -> & Ho & Hp & Hj)]. rewrite <- !app_assoc.
    assert (ohost_end (p ++ j ++ tl) /\ port_ok (p ++ j ++ tl) = true) as [He Hok].
    { destruct Hp as [->|(q & n & -> & Hq & Hn)].
      - destruct Hj as [->|[C _]]; [|congruence]. cbn [app]. split.
        + destruct Htl as [->|(c & r & -> & Hc)]; [now left|right; eauto].
        + destruct Htl as [->|(c & r & -> & Hc)]; [reflexivity|]. cbn [port_ok].
          destruct (Byte.eqb c x3a) eqn:E; [|reflexivity]. apply byte_eqb_spec in E as ->.
          destruct Hc as [C|[C|C]]; discriminate.
      - split; [right; exists x3a, (q ++ j ++ tl); auto|]. cbn [app port_ok]. change (Byte.eqb x3a x3a) with true. cbn iota.
        apply numeral_dval in Hq as [Hq <-]. 
        assert (tail_part (j ++ tl)) as Ht.
        { destruct Hj as [->|(_ & r & ->)]; [now apply otail_tail|]. right. exists x5c, (r ++ tl). split; [reflexivity|]. left. now right. }
        pose proof (parse_port_back q (j ++ tl) 0 Hq Hn Ht). now destruct (parse_port (q ++ j ++ tl) 0). }
    rewrite (ospan_host h (p ++ j ++ tl) Ho He). apply opaque_host_iff in Ho as (host & -> & Hne).
    replace (bytes_eqb host []) with false by (symmetry; now apply bytes_eqb_false). cbn [andb]. rewrite Hok.
    eexists _, host. split; reflexivity.
Qed.

Lemma other_iff L r : hosted (after_double_slash L Other r) <-> other_text (bs "//" ++ r).
Proof.
  unfold after_double_slash. cbn [is_special].
  assert (forall user auth tail, r = user ++ auth ++ tail ->
    (user = [] \/ exists w, user = w ++ [x40] /\ Forall ofree w) -> Forall ofree auth -> ~ In x40 auth -> otail tail ->
    (hosted match parse_userinfo Other r with
     | Some (u, l1) => let (h, l2) := host_span Other false l1 in
        match parse_opaque_host h with
        | Some host => if bytes_eqb host [] && (false || is_prefix (bs ":") l2 || u) then None
            else if port_ok l2 then Some {| url_has_authority := true; url_host := if bytes_eqb host [] then None else Some host |} else None
        | None => None
        end
     | None => None
     end <-> opaque_authority auth)) as Key.
  { intros user auth tail -> [->|(w & -> & Hw)] Ha Hat Ht; cbn [app]; unfold parse_userinfo.
    - rewrite (olast_none auth tail) by assumption. now apply authority_iff.
    - rewrite <- app_assoc. cbn [app]. rewrite (olast_some w auth tail) by assumption. cbn [rev app].
      destruct w as [|cw w]; [|now apply authority_iff].
      destruct (auth ++ tail) as [|c l] eqn:E.
      { apply app_eq_nil in E as [-> ->]. apply (authority_iff false [] []); auto. }
      destruct (ends_authority Other c) eqn:Ec; [|rewrite <- E; now apply authority_iff].
      apply plain_ender_iff in Ec. destruct auth as [|c' auth].
      + split; [intros (i & h & C & _); discriminate C|]. intros [_ (h & p & j & C & Ho & _)].
        destruct h; [|discriminate C]. destruct Ho as [(v & C' & _)|[C' _]]; congruence.
      + cbn in E. injection E as -> _. inversion Ha. contradiction. }
  split.
  - intros H. destruct (osplit r) as (a & tl & -> & Ha & Htl).
    destruct (split_at_sign a) as [Hno|(w & h0 & -> & Hno)].
    + apply (Key [] a tl) in H; auto. exists [], a, tl. auto.
    + apply Forall_app in Ha as [Hw Ha]. inversion Ha as [|? ? _ Hh0]; subst.
      assert ((w ++ x40 :: h0) ++ tl = (w ++ [x40]) ++ h0 ++ tl) as E by (rewrite <- !app_assoc; reflexivity).
      apply (Key (w ++ [x40]) h0 tl E) in H; auto; [|right; eauto].
      exists (w ++ [x40]), h0, tl. split; [now rewrite E|]. split; [right; eauto|]. auto.
  - intros (user & auth & tail & E & Hu & Ho & Ht). apply app_inv_head in E.
    apply (Key user auth tail E Hu); auto.
    + destruct Ho as [Hf _]. eapply List.Forall_impl; [|exact Hf]. intros c [A _]. exact A.
    + destruct Ho as [Hf _]. intros C. rewrite List.Forall_forall in Hf. apply Hf in C. tauto.
Qed.

(** ** "file" *)

Lemma until_end_spec l : exists h r, until_authority_end l = (h, r) /\ l = h ++ r /\ Forall free h /\ tail_part r.
Proof.
  induction l as [|c l (h & r & E & -> & Hh & Hr)].
  - exists [], []. repeat split; [constructor|now left].
  - cbn [until_authority_end]. rewrite E. destruct (one_of (bs "/\?#") c) eqn:Ec.
    + apply port_end_iff in Ec. exists [], (c :: h ++ r). split; [reflexivity|]. split; [reflexivity|]. split; [constructor|].
      right. eauto.
    + exists (c :: h), r. split; [reflexivity|]. split; [reflexivity|]. split; [|exact Hr]. constructor; [|exact Hh].
      intros C. apply port_end_iff in C. congruence.
Qed.

Lemma drive_letter_refused L h : is_drive_letter h = true -> parse_domain_host L h = None.
Proof.
  unfold is_drive_letter. destruct h as [|a [|b [|]]]; try discriminate. intros H. apply andb_true_iff in H as [Ha Hb].
  assert (b = x3a \/ b = x7c) as Hb'.
  { unfold one_of in Hb. cbn in Hb. rewrite !orb_true_iff in Hb. repeat rewrite (byte_eqb_spec b) in Hb. intuition congruence. }
  unfold parse_domain_host. destruct (Byte.eqb a x5b) eqn:E; [apply byte_eqb_spec in E as ->; discriminate Ha|].
  destruct (parse_domain_host L [a; b]) eqn:P; [|];
  assert (percent_decode [a; b] = [a; b]) as -> by reflexivity; clear P;
  unfold domain_to_ascii;
  assert (plain_name [a; b] = true) as -> by (destruct Hb' as [->| ->]; revert Ha; clear; destruct a; try discriminate; reflexivity);
  cbn [List.map]; destruct Hb' as [->| ->];
  assert (existsb invalid_domain_char [to_lower a; _] = true) as -> by (cbn [existsb]; rewrite orb_true_iff; right; reflexivity); reflexivity.
Qed.

Lemma file_host_iff L h host : h <> [] -> parse_domain_host L h = Some host <->
  ((exists v, h = x5b :: v ++ [x5d] /\ v6_text v /\ host = h) \/ (hd x00 h <> x5b /\ host_name (u_idna L) h host)).
Proof.
  intros Hne. destruct h as [|c h]; [contradiction|]. cbn [hd]. destruct (decide (c = x5b)) as [->|Hc].
  - cbn [parse_domain_host]. change (Byte.eqb x5b x5b) with true. cbn iota. rewrite bracketed_iff. split.
    + intros (a & -> & Ha & ->). left. eauto.
    + intros [(v & E & Hv & ->)|[C _]]; [|congruence]. injection E as ->. eauto.
  - rewrite <- host_name_iff by exact Hc. split; [auto|]. intros [(v & E & _)|[_ H]]; [congruence|exact H].
Qed.

Lemma file_iff L t : hosted (parse_file L t) <-> file_text (u_idna L) (u_drive L) t.
Proof.
  pose proof (file_host_iff L) as HH.
  split.
  - intros (i & hh & E & Ei). destruct t as [|a [|b t]]; cbn [parse_file] in E;
      try (apply (inj Some) in E; subst i; discriminate Ei).
    destruct (one_of (bs "/\") a && one_of (bs "/\") b) eqn:Es; [|apply (inj Some) in E; subst i; discriminate Ei].
    apply andb_true_iff in Es as [Sa Sb]. apply slash_iff in Sa, Sb.
    destruct (until_end_spec t) as (h & r & Eu & -> & Hh & Hr). rewrite Eu in E.
    destruct (is_drive_letter h || bytes_eqb h []) eqn:Ed; [apply (inj Some) in E; subst i; discriminate Ei|].
    apply orb_false_iff in Ed as [_ Ed]. apply bytes_eqb_false in Ed.
    destruct (parse_domain_host L h) as [host|] eqn:Eh; [|discriminate].
    destruct (bytes_eqb host (bs "localhost") || u_drive L r) eqn:El; [apply (inj Some) in E; subst i; discriminate Ei|].
    apply orb_false_iff in El as [El Edr]. apply bytes_eqb_false in El.
    exists a, b, h, r, host. split; [reflexivity|]. split; [exact Sa|]. split; [exact Sb|]. split; [exact Hh|]. split; [exact Hr|].
    split; [now apply HH|auto].
  - intros (a & b & h & r & host & -> & Sa & Sb & Hh & Hr & Hho & Hl & Hd).
    assert (h <> []) as Hne.
    { intros ->. destruct Hho as [(v & C & _)|[_ (d & low & Hu & Ha & Hlow & _)]]; [discriminate C|].
      apply unescapes_iff in Hu. subst d. apply ascii_form_iff in Ha. cbn in Ha. congruence. }
    apply HH in Hho; [|exact Hne]. cbn [parse_file]. apply slash_iff in Sa, Sb. rewrite Sa, Sb. cbn [andb].
    destruct (until_end_spec (h ++ r)) as (h' & r' & Eu & Eq & Hh' & Hr').
    apply free_app_inv in Eq as [<- <-]; auto. rewrite Eu.
    destruct (is_drive_letter h) eqn:Ed; [apply (drive_letter_refused L) in Ed; congruence|].
    replace (bytes_eqb h []) with false by (symmetry; now apply bytes_eqb_false). cbn [orb].
    rewrite Hho. replace (bytes_eqb host (bs "localhost")) with false by (symmetry; now apply bytes_eqb_false).
    rewrite Hd. cbn [orb]. eexists _, host. split; reflexivity.
Qed.

(** ** Schemes *)

Definition scheme_char (x : byte) : Prop :=
  48 <= nb x <= 57 \/ 65 <= nb x <= 90 \/ 97 <= nb x <= 122 \/ x = x2b \/ x = x2d \/ x = x2e.

Lemma scheme_char_iff c : is_alpha c || is_digit c || one_of (bs "+-.") c = true <-> scheme_char c.
Proof.
  unfold is_alpha, is_digit, one_of, scheme_char. cbn [existsb bs list_byte_of_string].
  rewrite !orb_true_iff, !andb_true_iff, !N.leb_le. cbn. rewrite !orb_true_iff. repeat rewrite (byte_eqb_spec c).
  intuition congruence.
Qed.

Lemma scheme_chars_iff l acc s r : scheme_chars l acc = Some (s, r) <->
  exists w, l = w ++ x3a :: r /\ Forall scheme_char w /\ s = rev acc ++ List.map to_lower w.
Proof.
  split.
  - revert acc. induction l as [|c l IH]; intros acc H; [discriminate|]. cbn [scheme_chars] in H.
    destruct (Byte.eqb c x3a) eqn:E.
    + apply byte_eqb_spec in E as ->. injection H as <- <-. exists []. split; [reflexivity|]. split; [constructor|].
      now rewrite app_nil_r.
    + destruct (is_alpha c || is_digit c || one_of (bs "+-.") c) eqn:Ec; [|discriminate].
      apply IH in H as (w & -> & Hw & ->). exists (c :: w). split; [reflexivity|].
      split; [constructor; [now apply scheme_char_iff|exact Hw]|]. cbn [rev List.map]. now rewrite <- app_assoc.
  - intros (w & -> & Hw & ->). revert acc. induction Hw as [|c w Hc Hw IH]; intros acc.
    + cbn [app scheme_chars]. change (Byte.eqb x3a x3a) with true. cbn iota. now rewrite app_nil_r.
    + cbn [app scheme_chars]. destruct (Byte.eqb c x3a) eqn:E.
      { apply byte_eqb_spec in E as ->. exfalso. vm_compute in Hc. intuition congruence. }
      apply scheme_char_iff in Hc. rewrite Hc, IH. cbn [rev List.map]. now rewrite <- app_assoc.
Qed.

Lemma parse_scheme_iff l low t : parse_scheme l = Some (low, t) <->
  exists s, l = s ++ bs ":" ++ t /\ scheme_text s /\ Forall2 lowered s low.
Proof.
  split.
  - unfold parse_scheme. destruct l as [|c l]; [discriminate|]. destruct (is_alpha c) eqn:Ea; [|discriminate].
    intros H. apply scheme_chars_iff in H as (w & Ew & Hw & ->). destruct w as [|x w].
    { cbn in Ew. injection Ew as -> _. discriminate. }
    cbn in Ew. injection Ew as -> ->. exists (x :: w). split; [reflexivity|]. split; [|apply lowered_list_iff; reflexivity].
    inversion Hw; subst. exists x, w. split; [reflexivity|]. split; [|assumption].
    unfold is_alpha in Ea. rewrite orb_true_iff, !andb_true_iff, !N.leb_le in Ea. exact Ea.
  - intros (s & -> & (c & r & -> & Hc & Hr) & Hl). apply lowered_list_iff in Hl as ->. unfold parse_scheme. cbn [app].
    assert (is_alpha c = true) as -> by (unfold is_alpha; rewrite orb_true_iff, !andb_true_iff, !N.leb_le; exact Hc).
    change (c :: r ++ bs ":" ++ t) with ((c :: r) ++ x3a :: t). apply scheme_chars_iff. exists (c :: r). split; [reflexivity|].
    split; [|reflexivity]. constructor; [|exact Hr]. unfold scheme_char. tauto.
Qed.

Lemma cleaned_dropped l c r : cleaned l = c :: r -> ~ blank c -> cleaned (drop_while c0_or_space l) = c :: r.
Proof.
  induction l as [|x l IH]; intros E Hc; [discriminate E|]. cbn [drop_while]. destruct (c0_or_space x) eqn:Ex; [|exact E].
  assert (~ Forall blank (x :: l)) as Hb by (intros C; apply cleaned_blank in C; congruence).
  rewrite cleaned_cons in E by exact Hb. destruct (not_break x); cbn [app] in E; [|exact (IH E Hc)].
  injection E as -> _. exfalso. apply Hc. unfold blank. unfold c0_or_space in Ex. lia.
Qed.

Lemma scheme_of_input uri low t : parse_scheme (url_input uri) = Some (low, t) <->
  exists a rest s, uri = a ++ rest /\ Forall blank a /\ reads_as rest (s ++ bs ":" ++ t) /\ scheme_text s /\ Forall2 lowered s low.
Proof.
  assert (url_input uri = cleaned (drop_while c0_or_space uri)) as Ec by reflexivity.
  rewrite parse_scheme_iff, Ec. split.
  - intros (s & E & Hs & Hl). destruct (drop_while_split c0_or_space uri) as (a & Ea & Ha).
    exists a, (drop_while c0_or_space uri), s. split; [exact Ea|]. split; [now apply blank_iff|].
    split; [now apply reads_as_iff|auto].
  - intros (a & rest & s & -> & Ha & Hr & Hs & Hl). exists s. split; [|auto]. apply reads_as_iff in Hr.
    rewrite drop_while_app. apply blank_iff in Ha. rewrite Ha.
    destruct Hs as (c & r & -> & Hc & _). symmetry in Hr. cbn [app] in *. apply cleaned_dropped; [exact Hr|].
    unfold blank. lia.
Qed.

Theorem uri_iff L uri : keeps_bracket (u_idna L) ->
  (hosted (url_parse L uri) <-> uri_text (u_idna L) (u_drive L) uri).
Proof.
  intros HK.
  assert (forall low t, parse_scheme (url_input uri) = Some (low, t) ->
    (hosted (url_parse L uri) <->
     ((special_name low /\ exists host, site_text (u_idna L) t host) \/ (low = bs "file" /\ file_text (u_idna L) (u_drive L) t) \/
      (~ special_name low /\ low <> bs "file" /\ other_text t)))) as Key.
  { intros low t E. unfold url_parse. rewrite E. unfold scheme_type_of.
    destruct (bytes_eqb low (bs "file")) eqn:Ef.
    - apply bytes_eqb_spec in Ef as ->. rewrite file_iff. split; [auto|].
      intros [[C _]|[[_ H]|(_ & C & _)]]; [|exact H|congruence]. exfalso. vm_compute in C. intuition discriminate.
    - apply bytes_eqb_false in Ef. destruct (existsb (bytes_eqb low) _) eqn:Es.
      + assert (special_name low) as Hsp.
        { apply existsb_exists in Es as (x & I & Ex). apply bytes_eqb_spec in Ex as ->. exact I. }
        split.
        * intros (i & h & Ei & _). apply site_iff in Ei as (host & _ & Hs); [|exact HK]. left. eauto.
        * intros [[_ (host & Hs)]|[[C _]|(C & _)]]; [|congruence|contradiction].
          eexists _, host. split; [apply site_iff; [exact HK|]; exists host; split; [reflexivity|exact Hs]|reflexivity].
      + assert (~ special_name low) as Hsp.
        { intros I. apply not_true_iff_false in Es. apply Es, existsb_exists. exists low. split; [exact I|apply bytes_eqb_spec; reflexivity]. }
        split.
        * intros H. right. right. split; [exact Hsp|]. split; [exact Ef|].
          destruct (strip_prefix (bs "//") t) as [r|] eqn:Ep; [|destruct H as (i & h & Ei & Eh); apply (inj Some) in Ei; subst i; discriminate Eh].
          apply strip_prefix_spec in Ep as ->. now apply other_iff in H.
        * intros [[C _]|[[C _]|(_ & _ & H)]]; [contradiction|congruence|].
          pose proof H as (user & auth & tail & -> & _).
          assert (strip_prefix (bs "//") (bs "//" ++ user ++ auth ++ tail) = Some (user ++ auth ++ tail)) as -> by reflexivity.
          now apply other_iff. }
  split.
  - intros H. destruct (parse_scheme (url_input uri)) as [[low t]|] eqn:E.
    + apply (Key low t eq_refl) in H. apply scheme_of_input in E as (a & rest & s & Eu & Ha & Hr & Hs & Hl).
      exists a, rest, s, t, low. do 5 (split; [assumption|]). exact H.
    + unfold url_parse in H. rewrite E in H. destruct H as (i & h & C & _). discriminate C.
  - intros (a & rest & s & t & low & Eu & Ha & Hr & Hs & Hl & Hk). apply (Key low t); [|exact Hk].
    apply scheme_of_input. exists a, rest, s. auto.
Qed.
