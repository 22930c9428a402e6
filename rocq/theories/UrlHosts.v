(** Host names and IPv6 addresses: the functions of Url.v against SpecUrl.v. *)
From Coq Require Import Strings.String.
From Verif Require Import Base BaseLemmas Deps Hex Eth SpecEth EthProofs Url SpecUrl UrlNumbers.
Local Open Scope N_scope.

(** ** Percent signs *)

Lemma pct_pair_iff c a b d r :
  pct_pair c a b = Some d <-> escape (c :: a :: b :: r) (nb d) r.
Proof.
  unfold pct_pair, escape. split.
  - destruct (Byte.eqb c x25) eqn:E; [|discriminate]. apply byte_eqb_spec in E as ->.
    destruct (hex_val a) as [h|] eqn:Ha; [|discriminate]. destruct (hex_val b) as [lo|] eqn:Hb; [|discriminate].
    intros H. apply (inj Some) in H. subst d.
    pose proof (proj1 (hex_val_digit _ _) Ha) as [La _]. pose proof (proj1 (hex_val_digit _ _) Hb) as [Lb _].
    exists a, b, h, lo. split; [reflexivity|]. split; [apply digit_of_iff; [lia|auto]|].
    split; [apply digit_of_iff; [lia|auto]|]. rewrite nb_u8. apply N.mod_small. lia.
  - intros (a' & b' & h & lo & E & Ha & Hb & Hd). injection E as -> <- <-.
    apply digit_of_iff in Ha as [Ha _]; [|lia]. apply digit_of_iff in Hb as [Hb _]; [|lia].
    change (Byte.eqb x25 x25) with true. cbv iota. rewrite Ha, Hb. f_equal. rewrite <- Hd. apply u8_nb.
Qed.

Lemma percent_decode_unfold c r : percent_decode (c :: r) =
  match r with
  | a :: b :: r' => match pct_pair c a b with
                    | Some d => d :: percent_decode r'
                    | None => c :: percent_decode r
                    end
  | _ => c :: percent_decode r
  end.
Proof. destruct r as [|a [|b r']]; reflexivity. Qed.

Lemma unescapes_decode l t : unescapes l t -> t = percent_decode l.
Proof.
  induction 1 as [|l v r t c He Hv Hu IH|c r t Hn Hu IH].
  - reflexivity.
  - destruct He as (a & b & h & lo & -> & Ha & Hb & ->). rewrite percent_decode_unfold.
    assert (pct_pair x25 a b = Some c) as ->; [|now subst t].
    apply (pct_pair_iff _ _ _ _ r). rewrite Hv. exists a, b, h, lo. auto.
  - rewrite percent_decode_unfold. subst t. destruct r as [|a [|b r']]; try reflexivity.
    destruct (pct_pair c a b) as [d|] eqn:E; [|reflexivity]. exfalso. apply Hn.
    apply (pct_pair_iff _ _ _ _ r') in E. eauto.
Qed.

Lemma unescapes_total l : unescapes l (percent_decode l).
Proof.
  remember (length l) as n eqn:Hn. revert l Hn. induction n as [n IH] using (well_founded_induction lt_wf).
  intros l ->. destruct l as [|c r]; [constructor|]. rewrite percent_decode_unfold.
  assert (forall r, (length r < length (c :: r))%nat) as Hlt by (intros; cbn; lia).
  destruct r as [|a [|b r']].
  - apply un_char; [|constructor]. intros (v & r' & (a & b & h & lo & E & _)). discriminate.
  - apply un_char; [|now apply (IH 1%nat); [cbn; lia|]]. intros (v & r' & (a' & b & h & lo & E & _)). discriminate.
  - destruct (pct_pair c a b) as [d|] eqn:E.
    + apply (un_escape _ (nb d) r'); [now apply pct_pair_iff|reflexivity|].
      eapply IH; [|reflexivity]. cbn. lia.
    + apply un_char.
      * intros (v & r'' & He). pose proof He as (a' & b' & h & lo & E' & Ha & Hb & Hv). injection E' as -> <- <- <-.
        assert (nb (u8 v) = v) as Hu.
        { rewrite nb_u8. apply N.mod_small. destruct Ha as [? _], Hb as [? _]. lia. }
        rewrite <- Hu in He. apply pct_pair_iff in He. congruence.
      * eapply IH; [|reflexivity]. cbn. lia.
Qed.

Lemma unescapes_iff l t : unescapes l t <-> t = percent_decode l.
Proof. split; [apply unescapes_decode|intros ->; apply unescapes_total]. Qed.

Lemma decode_keeps c l : In c l -> c <> x25 -> hex_val c = None -> In c (percent_decode l).
Proof.
  intros Hi Hc Hh. remember (length l) as n eqn:Hn. revert l Hi Hn.
  induction n as [n IH] using (well_founded_induction lt_wf). intros l Hi ->.
  destruct l as [|x r]; [contradiction|]. rewrite percent_decode_unfold.
  assert (In c r -> In c (percent_decode r)) as IHr.
  { intros H. eapply IH; [|exact H|reflexivity]. cbn. lia. }
  assert (In c (x :: percent_decode r)) as Plain by (destruct Hi as [->|Hi]; [now left|right; auto]).
  destruct r as [|a [|b r']]; try exact Plain.
  destruct (pct_pair x a b) as [d|] eqn:E; [|exact Plain]. unfold pct_pair in E.
  destruct (Byte.eqb x x25) eqn:Ex; [|discriminate]. apply byte_eqb_spec in Ex as ->.
  destruct (hex_val a) eqn:Ha; [|discriminate]. destruct (hex_val b) eqn:Hb; [|discriminate].
  destruct Hi as [Hi|[Hi|[Hi|Hi]]]; try congruence.
  right. eapply IH; [|exact Hi|reflexivity]. cbn. lia.
Qed.

(** ** Names in ASCII *)

Lemma lowered_iff c d : lowered c d <-> d = to_lower c.
Proof.
  unfold lowered, to_lower. destruct ((65 <=? nb c) && (nb c <=? 90)) eqn:E.
  - apply andb_true_iff in E as [E1 E2]. apply N.leb_le in E1, E2. split.
    + intros [[_ H]|[H _]]; [|lia]. apply nb_inj. rewrite H, nb_u8. symmetry. apply N.mod_small. lia.
    + intros ->. left. split; [lia|]. rewrite nb_u8. apply N.mod_small. lia.
  - apply andb_false_iff in E. split.
    + intros [[H _]|[_ H]]; [|exact H]. destruct E as [E|E]; apply N.leb_gt in E; lia.
    + intros ->. right. split; [|reflexivity]. destruct E as [E|E]; apply N.leb_gt in E; lia.
Qed.
Lemma lowered_list_iff d low : Forall2 lowered d low <-> low = List.map to_lower d.
Proof.
  revert low. induction d as [|c d IH]; intros low; cbn.
  - split; [intros H; now inversion H|intros ->; constructor].
  - split.
    + intros H. inversion H; subst. f_equal; [now apply lowered_iff|now apply IH].
    + intros ->. constructor; [now apply lowered_iff|now apply IH].
Qed.

Lemma ascii_name_iff d low : ascii_name d low <-> plain_name d = true /\ low = List.map to_lower d.
Proof.
  unfold ascii_name, plain_name. rewrite lowered_list_iff, andb_true_iff. split.
  - intros (H1 & -> & H2). repeat split.
    + apply forallb_forall. intros c Hc. rewrite List.Forall_forall in H1. apply H1 in Hc. now apply N.ltb_lt.
    + apply forallb_forall. intros p Hp. apply negb_true_iff, not_true_iff_false. intros C.
      apply is_prefix_spec in C as [q Hq]. eapply H2; [apply labels_split|]. eauto.
  - intros [[H1 H2] ->]. repeat split.
    + apply List.Forall_forall. intros c Hc. rewrite forallb_forall in H1. apply H1 in Hc. now apply N.ltb_lt.
    + intros ps Hps (p & q & Hp & Hq). apply labels_iff in Hps as ->. rewrite forallb_forall in H2.
      apply H2 in Hp. apply negb_true_iff in Hp. assert (is_prefix (bs "xn--") p = true); [|congruence].
      apply is_prefix_spec. eauto.
Qed.

Lemma ascii_form_iff L d host : ascii_form (u_idna L) d host <-> domain_to_ascii L d = Some host.
Proof.
  unfold ascii_form, domain_to_ascii. rewrite ascii_name_iff. setoid_rewrite (ascii_name_iff d).
  destruct (plain_name d).
  - split; [intros [[_ ->]|[H _]]; [reflexivity|]|intros E; left; split; congruence].
    exfalso. apply H. eauto.
  - split; [intros [[H _]|[_ H]]; [discriminate|exact H]|]. intros H. right. split; [|exact H].
    intros (low & C & _). discriminate.
Qed.

Lemma forbidden_iff c : invalid_domain_char c = true <-> forbidden c.
Proof.
  unfold invalid_domain_char, forbidden, one_of. rewrite !orb_true_iff, existsb_exists, N.leb_le, N.eqb_eq. split.
  - intros [[H|(x & Hx & E)]|H]; [left; lia| |auto]. apply byte_eqb_spec in E as ->.
    destruct Hx as [<-|Hx]; [left; cbn; lia|]. right. left. exact Hx.
  - intros [H|[H|H]]; [|left; right; exists c; split; [now right|apply byte_eqb_refl]|auto].
    destruct (N.eq_dec (nb c) 32) as [E|E]; [|left; left; lia]. left. right. exists c.
    split; [|apply byte_eqb_refl]. left. now apply nb_inj.
Qed.
Lemma all_allowed_iff l : existsb invalid_domain_char l = false <-> Forall (fun c => ~ forbidden c) l.
Proof.
  rewrite List.Forall_forall. split.
  - intros H c Hc F. apply forbidden_iff in F.
    assert (existsb invalid_domain_char l = true) by (apply existsb_exists; eauto). congruence.
  - intros H. apply not_true_iff_false. intros C. apply existsb_exists in C as (c & Hc & F).
    apply forbidden_iff in F. eapply H; eauto.
Qed.

Lemma host_name_iff L c h host : c <> x5b ->
  parse_domain_host L (c :: h) = Some host <-> host_name (u_idna L) (c :: h) host.
Proof.
  intros Hc. unfold parse_domain_host. replace (Byte.eqb c x5b) with false by (symmetry; now apply byte_eqb_neq).
  unfold host_name. split.
  - destruct (domain_to_ascii L (percent_decode (c :: h))) as [[|x d]|] eqn:E; [discriminate| |discriminate].
    destruct (existsb invalid_domain_char (x :: d)) eqn:Ei; [discriminate|]. intros H.
    exists (percent_decode (c :: h)), (x :: d). split; [apply unescapes_total|].
    split; [now apply ascii_form_iff|]. split; [discriminate|]. split; [now apply all_allowed_iff|].
    destruct (ends_in_a_number (x :: d)) eqn:En.
    + right. apply numeric_iff in En. split; [exact En|].
      destruct (parse_ipv4addr (x :: d)) as [a|] eqn:Ea; [|discriminate]. apply (inj Some) in H. subst host.
      apply v4_address_iff in Ea; [|exact En]. exists a. split; [exact Ea|].
      apply dotted_iff; [|reflexivity]. eapply v4_address_bound. exact Ea.
    + left. apply (inj Some) in H. subst host. split; [|reflexivity]. intros C. apply numeric_iff in C. congruence.
  - intros (d & low & Hu & Hf & Hn & Ha & Hh). apply unescapes_iff in Hu as ->. apply ascii_form_iff in Hf. rewrite Hf.
    destruct low as [|x low]; [contradiction|]. apply all_allowed_iff in Ha. rewrite Ha.
    destruct Hh as [[Hno ->]|(Hnum & a & Hv & Hd)].
    + destruct (ends_in_a_number (x :: low)) eqn:En; [|reflexivity]. apply numeric_iff in En. contradiction.
    + pose proof Hnum as Hnum'. apply numeric_iff in Hnum'. rewrite Hnum'.
      pose proof (v4_address_bound _ _ Hv) as Hb. apply v4_address_iff in Hv; [|exact Hnum]. rewrite Hv.
      apply dotted_iff in Hd; [|exact Hb]. now subst host.
Qed.

(** A name with an opening bracket in it stands for no host. *)
Lemma bracket_refused L c h host : keeps_bracket (u_idna L) -> c <> x5b -> In x5b h ->
  parse_domain_host L (c :: h) = Some host -> False.
Proof.
  intros HK Hc Hi H. unfold parse_domain_host in H.
  replace (Byte.eqb c x5b) with false in H by (symmetry; now apply byte_eqb_neq).
  assert (In x5b (percent_decode (c :: h))) as Hd by (apply decode_keeps; [now right|discriminate|reflexivity]).
  destruct (domain_to_ascii L (percent_decode (c :: h))) as [low|] eqn:E; [|discriminate].
  assert (In x5b low) as Hl.
  { unfold domain_to_ascii in E. destruct (plain_name _).
    - apply (inj Some) in E. subst low. change x5b with (to_lower x5b). now apply in_map.
    - eapply HK; eauto. }
  destruct low as [|x low]; [contradiction|].
  assert (existsb invalid_domain_char (x :: low) = true) as C by (apply existsb_exists; exists x5b; auto).
  rewrite C in H. discriminate.
Qed.
