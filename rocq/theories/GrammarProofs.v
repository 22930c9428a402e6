(** Lemmas about the grammar of sign-in messages. *)
From Coq Require Import Strings.String ZifyBool ZifyN ZifyNat.
From Verif Require Import Base BaseLemmas Deps Hex Eth SpecEth EthProofs Time3339 Settings Siwe SpecSiwe TimeProofs SiweProofs
  SpecUrl UrlNumbers UrlV6 UrlProofs SpecGrammar.
Local Open Scope N_scope.

(** ** Everything but line feeds is on one line *)

Definition clean (a : lang) : Prop := forall l, a l -> one_line l.

Lemma clean_lit s : plain (bs s) = true -> clean (lit s).
Proof. intros H l ->. now apply plain_one_line. Qed.
Lemma clean_char (P : byte -> Prop) : ~ P x0a -> clean (char P).
Proof. intros H l (c & -> & Hc) [E|[]]. congruence. Qed.
Lemma clean_one_of s : plain (bs s) = true -> clean (one_of s).
Proof. intros H. apply clean_char. now apply plain_one_line. Qed.
Lemma clean_cat a b : clean a -> clean b -> clean (cat a b).
Proof. intros Ha Hb l (x & y & -> & Hx & Hy). apply one_line_app. split; auto. Qed.
Lemma clean_alt a b : clean a -> clean b -> clean (alt a b).
Proof. intros Ha Hb l [H|H]; auto. Qed.
Lemma clean_opt a : clean a -> clean (opt a).
Proof. intros Ha l [->|H]; [intros []|auto]. Qed.
Lemma clean_many a : clean a -> clean (many a).
Proof. intros Ha l H. induction H as [|x y Hx _ IH]; [intros []|apply one_line_app; auto]. Qed.
Lemma clean_times n a : clean a -> clean (times n a).
Proof. intros Ha. induction n as [|n IH]; [intros l ->; intros []|]. now apply clean_cat. Qed.
Lemma clean_at_least n a : clean a -> clean (at_least n a).
Proof. intros Ha. apply clean_cat; [now apply clean_times|now apply clean_many]. Qed.

Lemma numeral_one_line r q n : numeral r q n -> one_line q.
Proof.
  induction 1 as [|q c n v Hq IH (_ & _ & Hc)]; [intros []|]. apply one_line_app. split; [assumption|].
  intros [E|[]]. destruct Hc as [Hc|Hc]; rewrite Hc in E; [now apply lower_digit_nl in E|now apply upper_digit_nl in E].
Qed.
Lemma is_decimal_one_line s n : is_decimal s n -> one_line s.
Proof.
  intros H I. unfold is_decimal in H. destruct H as (_ & H & _). rewrite List.Forall_forall in H. apply H in I. revert I.
  change (nb x0a) with 10. lia.
Qed.
Lemma one_line_cons c l : c <> x0a -> one_line l -> one_line (c :: l).
Proof. intros Hc Hl [E|E]; [congruence|now apply Hl]. Qed.
Lemma v6_group_one_line g : v6_group g -> one_line g.
Proof. intros (_ & n & H). now apply numeral_one_line in H. Qed.
Lemma clean_v6 : clean v6_text.
Proof.
  assert (forall l n, v6_left l n -> one_line l) as HL.
  { intros l n H. induction H as [g Hg|g l n Hg _ IH]; [now apply v6_group_one_line|].
    apply one_line_app. split; [now apply v6_group_one_line|]. apply one_line_cons; [discriminate|assumption]. }
  assert (forall l n, v6_right l n -> one_line l) as HR.
  { intros l n H. induction H as [g Hg|s a Hd|g l n Hg _ IH]; [now apply v6_group_one_line| |].
    - destruct Hd as (a1 & a2 & a3 & a4 & s1 & s2 & s3 & s4 & _ & _ & _ & _ & _ & D1 & D2 & D3 & D4 & ->).
      apply is_decimal_one_line in D1, D2, D3, D4.
      repeat (apply one_line_app; split; [assumption|]; apply one_line_cons; [discriminate|]). assumption.
    - apply one_line_app. split; [now apply v6_group_one_line|]. apply one_line_cons; [discriminate|assumption]. }
  intros s [H|(l & r & n & m & -> & Hl & Hr & _)]; [eauto|].
  apply one_line_app. split; [destruct Hl as [[-> _]|Hl]; [intros []|eauto]|].
  do 2 (apply one_line_cons; [discriminate|]). destruct Hr as [[-> _]|Hr]; [intros []|eauto].
Qed.
Lemma clean_number k lo hi : clean (number k lo hi).
Proof. intros l (_ & v & H & _). now apply numeral_one_line in H. Qed.
Lemma clean_full_date : clean full_date.
Proof.
  intros l (ys & y & ms & m & ds & d & -> & _ & _ & _ & H1 & H2 & H3 & _). apply numeral_one_line in H1, H2, H3.
  repeat (apply one_line_app; split; [assumption || (apply plain_one_line; reflexivity)|]). assumption.
Qed.

Lemma clean_nil : clean (fun l => l = []).
Proof. intros l ->. intros []. Qed.
Ltac clean := repeat first
  [ apply clean_nil | apply clean_full_date | apply clean_number | apply clean_v6
  | apply clean_lit; reflexivity | apply clean_one_of; reflexivity | apply clean_char; cbv beta; change (nb x0a) with 10; lia
  | apply clean_cat | apply clean_alt | apply clean_opt | apply clean_many | apply clean_at_least | apply clean_times ].

Lemma clean_authority : clean authority.
Proof.
  unfold authority, userinfo, host, ip_literal, ip_future, reg_name, port, unreserved, sub_delims, pct_encoded, HEXDIG, ALPHA, DIGIT. clean.
Qed.
Lemma clean_scheme : clean scheme.
Proof. unfold scheme, ALPHA, DIGIT. clean. Qed.
Lemma clean_shown_domain : clean shown_domain.
Proof. unfold shown_domain. apply clean_cat; [|apply clean_authority]. apply clean_opt, clean_cat; [apply clean_scheme|clean]. Qed.
Lemma clean_pchar : clean pchar.
Proof. unfold pchar, unreserved, pct_encoded, sub_delims, HEXDIG, ALPHA, DIGIT. clean. Qed.
Lemma clean_URI : clean URI.
Proof.
  unfold URI, hier_part, path_abempty, path_absolute, path_rootless, segment_nz, segment, query.
  pose proof clean_authority. pose proof clean_scheme. pose proof clean_pchar.
  repeat first [assumption | apply clean_nil | apply clean_lit; reflexivity | apply clean_one_of; reflexivity
    | apply clean_cat | apply clean_alt | apply clean_opt | apply clean_many | apply clean_at_least].
Qed.
Lemma clean_date_time : clean date_time.
Proof. unfold date_time, partial_time, time_offset, DIGIT. clean. Qed.
Lemma clean_statement : clean statement.
Proof. unfold statement, reserved, gen_delims, sub_delims, unreserved, ALPHA, DIGIT. clean. Qed.
Lemma clean_nonce : clean nonce.
Proof. unfold nonce, ALPHA, DIGIT. clean. Qed.
Lemma clean_digits : clean (at_least 1 DIGIT).
Proof. unfold DIGIT. clean. Qed.
Lemma clean_address H : clean (address H).
Proof. intros l (_ & b & _ & ->). apply eip55_one_line. Qed.

(** ** Lines *)

Lemma lines_app_any a b : lines (a ++ nl ++ b) = lines a ++ lines b.
Proof.
  unfold nl. induction a as [|c a IH]; [reflexivity|]. cbn [lines app]. cbn [app] in IH. rewrite IH.
  destruct (Byte.eqb c x0a); [reflexivity|].
  destruct (lines a) as [|x xs] eqn:E; [|reflexivity].
  exfalso. destruct a as [|d a]; [discriminate|]. cbn [lines] in E. destruct (Byte.eqb d x0a); [discriminate|].
  destruct (lines a); discriminate.
Qed.

Lemma lines_nonempty a : (1 <= length (lines a))%nat.
Proof.
  destruct a as [|c a]; [cbn; lia|]. cbn [lines]. destruct (Byte.eqb c x0a); [cbn; lia|]. destruct (lines a); cbn; lia.
Qed.

Lemma lines_single a x : lines a = [x] -> a = x.
Proof.
  revert x. induction a as [|c a IH]; intros x E; [cbn in E; congruence|]. cbn [lines] in E.
  pose proof (lines_nonempty a) as Hn.
  destruct (Byte.eqb c x0a).
  - exfalso. destruct (lines a); [cbn in Hn; lia|discriminate].
  - destruct (lines a) as [|y ys]; [cbn in Hn; lia|]. destruct ys; [|discriminate].
    rewrite (IH y eq_refl). congruence.
Qed.

(** Text that continues the current line with further lines. *)
Definition adds (e : bytes) (ls : list bytes) : Prop := forall a, one_line a -> lines (a ++ e) = a :: ls.

Lemma adds_nil : adds [] [].
Proof. intros a H. rewrite app_nil_r. now apply lines_line. Qed.
Lemma adds_line x e ls : one_line x -> adds e ls -> adds ([x0a] ++ x ++ e) (x :: ls).
Proof. intros Hx He a Ha. change [x0a] with nl. rewrite lines_app by assumption. now rewrite He. Qed.

(** ** A sign-in message by lines *)

Definition wants_suffix : bytes := bs " wants you to sign in with your Ethereum account:".
Definition later_line (l : bytes) : Prop :=
  exists p r, In p [bs "Expiration Time: "; bs "Not Before: "; bs "Request ID: "; bs "Resources:"; bs "- "] /\ l = p ++ r.

Lemma adds_opt (p : string) a e ls o : In (bs p) [bs "Expiration Time: "; bs "Not Before: "; bs "Request ID: "] ->
  plain (bs p) = true -> clean a -> opt (cat LF (cat (lit p) a)) o -> adds e ls -> Forall later_line ls ->
  exists ls', adds (o ++ e) ls' /\ Forall later_line ls'.
Proof.
  intros Hp Hpl Ha [->|(x & y & -> & -> & z & w & -> & -> & Hw)] He HF; [exists ls; auto|].
  exists ((bs p ++ w) :: ls). split.
  - rewrite <- !app_assoc. rewrite (app_assoc (bs p) w e). apply adds_line; [|assumption].
    apply one_line_app. split; [now apply plain_one_line|auto].
  - constructor; [|assumption]. exists (bs p), w. split; [|reflexivity]. cbn [In] in Hp |- *. tauto.
Qed.

Lemma message_lines dom H text : clean dom -> sign_in_message_for dom H text -> exists d ad st u c n t ls,
  lines text = [d ++ wants_suffix; ad; []] ++ st ++
    [[]; bs "URI: " ++ u; bs "Version: 1"; bs "Chain ID: " ++ c; bs "Nonce: " ++ n; bs "Issued At: " ++ t] ++ ls /\
  dom d /\ (st = [] \/ exists s, st = [s] /\ statement s) /\ URI u /\ Forall later_line ls.
Proof.
  intros Hdom Hm. unfold sign_in_message_for in Hm.
  destruct Hm as (d & r0 & -> & Hd & r1 & r2 & -> & -> & r3 & r4 & -> & -> & Hm).
  destruct Hm as (ad & r5 & -> & Had & r6 & r7 & -> & -> & r8 & r9 & -> & -> & Hm).
  destruct Hm as (st & r10 & -> & Hst & r11 & r12 & -> & -> & r13 & r14 & -> & -> & Hm).
  destruct Hm as (u & r15 & -> & Hu & r16 & r17 & -> & -> & r18 & r19 & -> & -> & r20 & r21 & -> & -> & r22 & r23 & -> & -> & Hm).
  destruct Hm as (r24 & r25 & -> & -> & c & r26 & -> & Hc & r27 & r28 & -> & -> & Hm).
  destruct Hm as (r29 & r30 & -> & -> & n & r31 & -> & Hn & r32 & r33 & -> & -> & Hm).
  destruct Hm as (r34 & r35 & -> & -> & t & r36 & -> & Ht & e1 & r37 & -> & He1 & e2 & r38 & -> & He2 & e3 & e4 & -> & He3 & He4).
  assert (exists ls4, adds e4 ls4 /\ Forall later_line ls4) as (ls4 & A4 & F4).
  { destruct He4 as [->|(x & y & -> & -> & z & w & -> & -> & Hw)]; [exists []; split; [apply adds_nil|constructor]|].
    assert (exists ls, adds w ls /\ Forall later_line ls) as (ls & Hl & HF).
    { induction Hw as [|x y (x0 & x1 & -> & -> & x2 & x3 & -> & -> & Hx) _ (ls & Hl & HF)]; [exists []; split; [apply adds_nil|constructor]|].
      exists ((bs "- " ++ x3) :: ls). split.
      - rewrite <- !app_assoc. rewrite (app_assoc (bs "- ") x3 y). apply adds_line; [|assumption].
        apply one_line_app. split; [apply plain_one_line; reflexivity|now apply clean_URI].
      - constructor; [|assumption]. exists (bs "- "), x3. split; [cbn [In]; tauto|reflexivity]. }
    exists (bs "Resources:" :: ls). split; [apply adds_line; [apply plain_one_line; reflexivity|assumption]|].
    constructor; [|assumption]. exists (bs "Resources:"), []. split; [cbn [In]; tauto|now rewrite app_nil_r]. }
  destruct (adds_opt "Request ID: " (many pchar) e4 ls4 e3) as (ls3 & A3 & F3);
    [cbn [In]; tauto|reflexivity|apply clean_many, clean_pchar|assumption..|].
  destruct (adds_opt "Not Before: " date_time (e3 ++ e4) ls3 e2) as (ls2 & A2 & F2);
    [cbn [In]; tauto|reflexivity|apply clean_date_time|assumption..|].
  destruct (adds_opt "Expiration Time: " date_time (e2 ++ e3 ++ e4) ls2 e1) as (ls1 & A1 & F1);
    [cbn [In]; tauto|reflexivity|apply clean_date_time|assumption..|].
  exists d, ad, (match st with [] => [] | _ => [removelast st] end), u, c, n, t, ls1.
  assert (st = [] \/ exists s, st = s ++ [x0a] /\ statement s) as Hst'.
  { destruct Hst as [->|(s & z & -> & Hs & ->)]; [now left|right; eauto]. }
  assert (match st with [] => [] | _ => [removelast st] end = [] \/
          exists s, match st with [] => [] | _ => [removelast st] end = [s] /\ statement s /\ st = s ++ [x0a]) as Hst2.
  { destruct Hst' as [->|(s & -> & Hs)]; [now left|right]. exists s.
    assert (removelast (s ++ [x0a]) = s) as Er by apply removelast_last.
    destruct (s ++ [x0a]) as [|y ys] eqn:E; [now destruct s|]. rewrite <- E in *. rewrite Er. auto. }
  split; [|split; [assumption|split; [|auto]]].
  2: { destruct Hst2 as [E|(s & E & Hs & _)]; [left; exact E|right; exists s; auto]. }
  fold wants_suffix. change [x0a] with nl in *.
  assert (one_line wants_suffix) as Hw by (apply plain_one_line; reflexivity).
  pose proof (Hdom d Hd) as Ld. pose proof (clean_address H ad Had) as La. pose proof (clean_URI u Hu) as Lu.
  pose proof (clean_digits c Hc) as Lc. pose proof (clean_nonce n Hn) as Ln. pose proof (clean_date_time t Ht) as Lt.
  assert (forall p x, plain p = true -> one_line x -> one_line (p ++ x)) as Hpl.
  { intros p x Hp Hx. apply one_line_app. split; [now apply plain_one_line|assumption]. }
  assert (forall X, lines (nl ++ bs "URI: " ++ u ++ nl ++ bs "Version: " ++ bs "1" ++ nl ++ bs "Chain ID: " ++ c ++ nl ++
      bs "Nonce: " ++ n ++ nl ++ bs "Issued At: " ++ t ++ X) =
    [[]; bs "URI: " ++ u; bs "Version: 1"; bs "Chain ID: " ++ c; bs "Nonce: " ++ n] ++ lines (bs "Issued At: " ++ t ++ X)) as Etail.
  { intros X. rewrite lines_break. rewrite (app_assoc (bs "URI: ") u), lines_app by auto.
    rewrite (app_assoc (bs "Version: ") (bs "1")), lines_app by (apply plain_one_line; reflexivity).
    rewrite (app_assoc (bs "Chain ID: ") c), lines_app by auto.
    rewrite (app_assoc (bs "Nonce: ") n), lines_app by auto. reflexivity. }
  rewrite (app_assoc d wants_suffix), lines_app by (apply one_line_app; auto).
  rewrite lines_app by assumption. rewrite lines_break.
  destruct Hst2 as [E|(s & E & Hs & Est)].
  - rewrite E. assert (st = []) as -> by (destruct st; [reflexivity|discriminate]). rewrite app_nil_l.
    rewrite Etail. rewrite (app_assoc (bs "Issued At: ") t), A1 by auto. reflexivity.
  - rewrite E, Est. rewrite <- app_assoc. change ([x0a]) with nl. rewrite lines_app by (now apply clean_statement).
    rewrite Etail. rewrite (app_assoc (bs "Issued At: ") t), A1 by auto. reflexivity.
Qed.

(** ** What the code writes *)

Lemma many_chars (a : lang) l : (forall c, In c l -> a [c]) -> many a l.
Proof.
  induction l as [|c l IH]; intros H; [constructor|]. change (c :: l) with ([c] ++ l). constructor; [apply H; now left|].
  apply IH. intros d Hd. apply H. now right.
Qed.
Lemma times_chars (a : lang) n l : length l = n -> (forall c, In c l -> a [c]) -> times n a l.
Proof.
  revert l. induction n as [|n IH]; intros [|c l] E H; try discriminate; [reflexivity|].
  exists [c], l. split; [reflexivity|]. split; [apply H; now left|]. apply IH; [cbn in E; lia|]. intros d Hd. apply H. now right.
Qed.
Lemma at_least_chars (a : lang) n l : (n <= length l)%nat -> (forall c, In c l -> a [c]) -> at_least n a l.
Proof.
  intros Hn H. exists (take n l), (drop n l). split; [now rewrite take_drop|]. split.
  - apply times_chars; [rewrite take_length; lia|]. intros c Hc. apply H. rewrite <- (take_drop n l). apply in_app_iff. now left.
  - apply many_chars. intros c Hc. apply H. rewrite <- (take_drop n l). apply in_app_iff. now right.
Qed.

Lemma digit_chars l : forallb is_digit l = true -> forall c, In c l -> DIGIT [c].
Proof.
  rewrite forallb_forall. intros H c Hc. apply H in Hc. exists c. split; [reflexivity|]. unfold is_digit in Hc. lia.
Qed.
Lemma dec_chain_id n : at_least 1 DIGIT (dec n).
Proof.
  apply at_least_chars; [pose proof (dec_nonempty n); lia|]. intros c Hc. pose proof (dec_digits n) as H.
  rewrite List.Forall_forall in H. apply H in Hc. exists c. split; [reflexivity|exact Hc].
Qed.
Lemma lower_digit_char n : n < 16 -> 48 <= nb (lower_digit n) <= 57 \/ 97 <= nb (lower_digit n) <= 102.
Proof.
  intros H. assert (n = N.of_nat (N.to_nat n)) as E by lia. rewrite E. assert (N.to_nat n < 16)%nat as L by lia.
  generalize dependent (N.to_nat n). intros k _ Hk. do 16 (destruct k as [|k]; [(left; split; vm_compute; discriminate) || (right; split; vm_compute; discriminate)|]). lia.
Qed.
Lemma upper_digit_char n : n < 16 -> 48 <= nb (upper_digit n) <= 57 \/ 65 <= nb (upper_digit n) <= 70.
Proof.
  intros H. assert (n = N.of_nat (N.to_nat n)) as E by lia. rewrite E. assert (N.to_nat n < 16)%nat as L by lia.
  generalize dependent (N.to_nat n). intros k _ Hk. do 16 (destruct k as [|k]; [(left; split; vm_compute; discriminate) || (right; split; vm_compute; discriminate)|]). lia.
Qed.

Lemma hex_encode_chars l : forall c, In c (hex_encode l) -> alt ALPHA DIGIT [c].
Proof.
  intros c Hc. rewrite <- lower_hex_encode in Hc. unfold lower_hex in Hc. apply in_map_iff in Hc as (n & <- & Hn).
  pose proof (nibbles_lt l) as H. rewrite List.Forall_forall in H. apply H in Hn. destruct (lower_digit_char n Hn).
  - right. eexists. split; [reflexivity|]. lia.
  - left. eexists. split; [reflexivity|]. lia.
Qed.
Lemma hex_nonce l : (4 <= length l)%nat -> nonce (hex_encode l).
Proof. intros H. apply at_least_chars; [rewrite hex_encode_length; lia|]. apply hex_encode_chars. Qed.

Lemma eip55_address H b : (forall l, length (H l) = 32%nat) -> length b = 20%nat -> address H (eip55 H b).
Proof.
  intros HH Hb. split; [|exists b; auto]. exists (bs "0x"). eexists. split; [reflexivity|]. split; [reflexivity|].
  apply times_chars.
  - rewrite zip_with_length, !nibbles_length, HH, Hb. reflexivity.
  - intros c Hc. apply elem_of_list_In, elem_of_zip_with in Hc as (n & h & -> & Hn & _).
    apply elem_of_list_In in Hn. pose proof (nibbles_lt b) as L. rewrite List.Forall_forall in L. apply L in Hn.
    eexists. split; [reflexivity|]. destruct (lower_digit_char n Hn), (upper_digit_char n Hn); destruct (8 <=? h); lia.
Qed.

Lemma read_digits_split k acc l v r : read_digits k acc l = Some (v, r) ->
  exists p, l = p ++ r /\ length p = k /\ forallb is_digit p = true /\ dval p acc = v.
Proof.
  revert acc l. induction k as [|k IH]; intros acc l H.
  - cbn in H. injection H as -> ->. exists []. auto.
  - destruct l as [|c l]; [discriminate|]. cbn [read_digits] in H. unfold digit_value in H.
    destruct ((48 <=? nb c) && (nb c <=? 57)) eqn:E; [|discriminate].
    apply IH in H as (p & -> & Hp & Hd & Hv). exists (c :: p). split; [reflexivity|]. split; [cbn; lia|].
    split; [|exact Hv]. cbn [forallb]. apply andb_true_intro. split; [exact E|exact Hd].
Qed.
Lemma read_number k l v r : read_digits k 0 l = Some (v, r) ->
  exists p, l = p ++ r /\ length p = k /\ numeral 10 p v.
Proof.
  intros H. apply read_digits_split in H as (p & E & Hp & Hd & Hv). exists p. do 2 (split; [assumption|]).
  apply numeral_dval. auto.
Qed.
Lemma read_many_split l : forall acc k v k' r, read_many acc k l = (v, k', r) ->
  exists p, l = p ++ r /\ k' = k + blen p /\ forallb is_digit p = true.
Proof.
  induction l as [|c l IH]; intros acc k v k' r H.
  - cbn in H. injection H as <- <- <-. exists []. split; [reflexivity|]. split; [unfold blen; cbn [length]; lia|reflexivity].
  - cbn [read_many] in H. unfold digit_value in H. destruct ((48 <=? nb c) && (nb c <=? 57)) eqn:E.
    + apply IH in H as (p & -> & -> & Hd). exists (c :: p). split; [reflexivity|].
      split; [unfold blen; cbn [length]; lia|]. cbn [forallb]. apply andb_true_intro. split; [exact E|exact Hd].
    + injection H as <- <- <-. exists []. split; [reflexivity|]. split; [unfold blen; cbn [length]; lia|reflexivity].
Qed.
Lemma expect_split c l r : expect c l = Some r -> l = [c] ++ r.
Proof.
  destruct l as [|x l]; [discriminate|]. cbn. destruct (Byte.eqb x c) eqn:E; [|discriminate].
  apply Byte.byte_dec_bl in E. congruence.
Qed.
Lemma read_fraction_split l v r : read_fraction l = Some (v, r) -> exists p, l = p ++ r /\ opt (cat (lit ".") (at_least 1 DIGIT)) p.
Proof.
  unfold read_fraction. destruct (expect x2e l) as [l'|] eqn:E.
  - apply expect_split in E as ->. destruct (read_many 0 0 l') as [[w k] r'] eqn:R.
    destruct ((1 <=? k) && (k <=? 9)) eqn:K; [|discriminate]. intros H.
    assert (r' = r) as -> by congruence.
    apply read_many_split in R as (p & -> & Ek & Hd). exists ([x2e] ++ p). split; [now rewrite app_assoc|].
    right. exists [x2e], p. split; [reflexivity|]. split; [reflexivity|].
    apply at_least_chars; [unfold blen in Ek; lia|]. now apply digit_chars.
  - intros H. assert (l = r) as -> by congruence. exists []. split; [reflexivity|now left].
Qed.

Lemma bind_some {A B} (f : A -> option B) o b : (o ≫= f) = Some b -> exists a, o = Some a /\ f a = Some b.
Proof. destruct o; [eauto|discriminate]. Qed.

Lemma read_date_time s t : read_rfc3339 s = Some t -> date_time s.
Proof.
  intros H. unfold read_rfc3339 in H.
  apply bind_some in H as ([y l1] & R1 & H). apply bind_some in H as (l2 & X1 & H).
  apply bind_some in H as ([m l3] & R2 & H). apply bind_some in H as (l4 & X2 & H).
  apply bind_some in H as ([d l5] & R3 & H). apply bind_some in H as (l6 & X3 & H).
  apply bind_some in H as ([h l7] & R4 & H). apply bind_some in H as (l8 & X4 & H).
  apply bind_some in H as ([mi l9] & R5 & H). apply bind_some in H as (l10 & X5 & H).
  apply bind_some in H as ([sec l11] & R6 & H). apply bind_some in H as ([ns l12] & R7 & H).
  apply bind_some in H as (l13 & X6 & H).
  destruct l13 as [|]; [|discriminate]. cbn zeta in H.
  destruct (valid_dtb _) eqn:V in H; [|discriminate]. clear H. unfold valid_dtb in V. cbn [dt_month dt_day dt_year dt_hour dt_minute dt_second] in V.
  apply expect_split in X1, X2, X3, X4, X5, X6.
  apply read_number in R1 as (p1 & -> & L1 & N1), R2 as (p2 & -> & L2 & N2), R3 as (p3 & -> & L3 & N3),
    R4 as (p4 & -> & L4 & N4), R5 as (p5 & -> & L5 & N5), R6 as (p6 & -> & L6 & N6).
  apply read_fraction_split in R7 as (p7 & -> & F). subst.
  exists (p1 ++ [x2d] ++ p2 ++ [x2d] ++ p3). eexists. split; [rewrite <- !app_assoc; reflexivity|]. split.
  { exists p1, y, p2, m, p3, d. split; [reflexivity|]. do 6 (split; [assumption|]). lia. }
  exists [x54]. eexists. split; [reflexivity|]. split; [now left|].
  exists (p4 ++ [x3a] ++ p5 ++ [x3a] ++ p6 ++ p7), [x5a]. split; [rewrite <- !app_assoc; reflexivity|]. split; [|left; now left].
  exists p4. eexists. split; [reflexivity|]. split; [split; [assumption|]; exists h; split; [assumption|lia]|].
  exists [x3a]. eexists. split; [reflexivity|]. split; [reflexivity|].
  exists p5. eexists. split; [reflexivity|]. split; [split; [assumption|]; exists mi; split; [assumption|lia]|].
  exists [x3a]. eexists. split; [reflexivity|]. split; [reflexivity|].
  exists p6, p7. split; [reflexivity|]. split; [split; [assumption|]; exists sec; split; [assumption|lia]|assumption].
Qed.

Lemma format_date_time t s : t <= u64_max -> format_rfc3339 t = Done s -> date_time s.
Proof.
  intros Ht E. destruct (format_reads t Ht) as (s' & E' & R & _). assert (s' = s) as -> by congruence.
  now apply read_date_time in R.
Qed.

(** ** Messages whose other fields are as the code makes them *)

Section Message.
Context (H : bytes -> bytes) (m : SiweMessage) (text : bytes).
Hypothesis (Htext : siwe_to_string m = Done text) (Hv : m_version m = 1) (Ha : address H (m_address m)) (Hn : nonce (m_nonce m))
  (Hi : m_issued_at m <= u64_max) (He : m_expiration_time m <= u64_max).

Lemma conforming (dom : lang) : dom (m_domain m) -> statement (m_statement m) -> URI (m_uri m) -> sign_in_message_for dom H text.
Proof.
  intros Hd Hs Hu. unfold siwe_to_string in Htext.
  destruct (format_rfc3339 (m_issued_at m)) as [ti|] eqn:Ei; [|discriminate]. cbn [obind] in Htext.
  destruct (format_rfc3339 (m_expiration_time m)) as [te|] eqn:Ee; [|discriminate]. cbn [obind] in Htext.
  assert (text = m_domain m ++ bs " wants you to sign in with your Ethereum account:" ++ nl
        ++ m_address m ++ nl ++ nl ++ m_statement m ++ nl ++ nl ++ bs "URI: " ++ m_uri m ++ nl
        ++ bs "Version: " ++ dec (m_version m) ++ nl ++ bs "Chain ID: " ++ dec (m_chain_id m) ++ nl
        ++ bs "Nonce: " ++ m_nonce m ++ nl ++ bs "Issued At: " ++ ti ++ nl ++ bs "Expiration Time: " ++ te) as ->.
  { clear - Htext. congruence. }
  apply format_date_time in Ei; [|assumption]. apply format_date_time in Ee; [|assumption].
  unfold sign_in_message_for.
  exists (m_domain m). eexists. split; [reflexivity|]. split; [assumption|].
  eexists _, _. split; [reflexivity|]. split; [reflexivity|]. exists nl. eexists. split; [reflexivity|]. split; [reflexivity|].
  exists (m_address m). eexists. split; [reflexivity|]. split; [assumption|]. exists nl. eexists. split; [reflexivity|]. split; [reflexivity|].
  exists nl. eexists. split; [reflexivity|]. split; [reflexivity|].
  exists (m_statement m ++ nl). eexists. split; [rewrite <- app_assoc; reflexivity|].
  split; [right; exists (m_statement m), nl; split; [reflexivity|split; [assumption|reflexivity]]|].
  exists nl. eexists. split; [reflexivity|]. split; [reflexivity|].
  eexists _, _. split; [reflexivity|]. split; [reflexivity|]. exists (m_uri m). eexists. split; [reflexivity|]. split; [assumption|].
  exists nl. eexists. split; [reflexivity|]. split; [reflexivity|].
  eexists _, _. split; [reflexivity|]. split; [reflexivity|]. exists (dec (m_version m)). eexists. split; [reflexivity|].
  split; [rewrite Hv; reflexivity|].
  exists nl. eexists. split; [reflexivity|]. split; [reflexivity|].
  eexists _, _. split; [reflexivity|]. split; [reflexivity|]. exists (dec (m_chain_id m)). eexists. split; [reflexivity|].
  split; [apply dec_chain_id|].
  exists nl. eexists. split; [reflexivity|]. split; [reflexivity|].
  eexists _, _. split; [reflexivity|]. split; [reflexivity|]. exists (m_nonce m). eexists. split; [reflexivity|]. split; [assumption|].
  exists nl. eexists. split; [reflexivity|]. split; [reflexivity|].
  eexists _, _. split; [reflexivity|]. split; [reflexivity|]. exists ti. eexists. split; [reflexivity|]. split; [assumption|].
  exists (nl ++ bs "Expiration Time: " ++ te), []. split; [now rewrite app_nil_r|]. split.
  { right. exists nl. eexists. split; [reflexivity|]. split; [reflexivity|]. exists (bs "Expiration Time: "), te.
    split; [reflexivity|]. split; [reflexivity|assumption]. }
  exists [], []. split; [reflexivity|]. split; [now left|]. exists [], []. split; [reflexivity|]. split; now left.
Qed.

Lemma fields_of_conforming : one_line (m_statement m) -> sign_in_message H text ->
  shown_domain (m_domain m) /\ statement (m_statement m) /\ URI (m_uri m).
Proof.
  intros Ls Hm. apply (message_lines _ _ _ clean_shown_domain) in Hm as (d & ad & st & u & c & n & t & ls & E & Hd & Hst & Hu & HF).
  unfold siwe_to_string in Htext.
  destruct (format_rfc3339 (m_issued_at m)) as [ti|] eqn:Ei; [|discriminate]. cbn [obind] in Htext.
  destruct (format_rfc3339 (m_expiration_time m)) as [te|] eqn:Ee; [|discriminate]. cbn [obind] in Htext.
  apply format_date_time in Ei; [|assumption]. apply format_date_time in Ee; [|assumption].
  pose proof (clean_date_time _ Ei) as Li. pose proof (clean_date_time _ Ee) as Le. pose proof (clean_nonce _ Hn) as Ln.
  pose proof (clean_address H _ Ha) as La.
  assert (forall p x, plain p = true -> one_line x -> lines (p ++ x) = [p ++ x]) as Hpl.
  { intros p x Hp Hx. apply lines_line, one_line_app. split; [now apply plain_one_line|assumption]. }
  assert (lines text = lines (m_domain m ++ wants_suffix) ++ [m_address m; []] ++ lines (m_statement m) ++ [[]] ++
    lines (bs "URI: " ++ m_uri m) ++ [bs "Version: 1"; bs "Chain ID: " ++ dec (m_chain_id m); bs "Nonce: " ++ m_nonce m; bs "Issued At: " ++ ti;
      bs "Expiration Time: " ++ te]) as E2.
  { assert (text = (m_domain m ++ wants_suffix) ++ nl ++ m_address m ++ nl ++ [] ++ nl ++ m_statement m ++ nl ++ [] ++ nl
      ++ (bs "URI: " ++ m_uri m) ++ nl ++ (bs "Version: " ++ dec (m_version m)) ++ nl ++ (bs "Chain ID: " ++ dec (m_chain_id m)) ++ nl
      ++ (bs "Nonce: " ++ m_nonce m) ++ nl ++ (bs "Issued At: " ++ ti) ++ nl ++ bs "Expiration Time: " ++ te) as ->.
    { unfold wants_suffix. rewrite <- !app_assoc. rewrite !app_nil_l. clear - Htext. congruence. }
    rewrite Hv. do 10 rewrite lines_app_any.
    rewrite (lines_line (m_address m)), (Hpl _ te), (Hpl _ ti), (Hpl _ (m_nonce m)), (Hpl _ (dec (m_chain_id m)))
      by (reflexivity || assumption || apply clean_digits, dec_chain_id).
    change (lines (bs "Version: " ++ dec 1)) with [bs "Version: 1"]. change (lines []) with [@nil byte].
    reflexivity. }
  rewrite E2 in E. clear E2 Htext Hpl. rewrite (lines_line (m_statement m)) in E by assumption.
  pose proof (lines_nonempty (m_domain m ++ wants_suffix)) as L1. pose proof (lines_nonempty (bs "URI: " ++ m_uri m)) as L2.
  assert (exists a, ls = [a]) as [a ->].
  { destruct ls as [|b ls _] using rev_ind.
    - exfalso. apply (f_equal (fun l => hd [] (rev l))) in E. rewrite !rev_app_distr in E. cbn [rev app hd] in E. discriminate E.
    - destruct ls as [|b' ls _] using rev_ind; [eauto|]. exfalso.
      apply (f_equal (fun l => hd [] (tl (rev l)))) in E. rewrite !rev_app_distr in E. cbn [rev app hd tl] in E. subst b'.
      apply List.Forall_app in HF as [HF _]. apply List.Forall_app in HF as [_ HF]. apply List.Forall_inv in HF as (p & r & Hp & Er).
      cbn [In] in Hp. repeat destruct Hp as [<-|Hp]; try discriminate Er. contradiction. }
  assert (lines (m_domain m ++ wants_suffix) ++ [m_address m; []; m_statement m; []] ++ lines (bs "URI: " ++ m_uri m) =
    [d ++ wants_suffix; ad; []] ++ st ++ [[]; bs "URI: " ++ u]) as E'.
  { match type of E with ?x = ?y =>
      assert (x = (lines (m_domain m ++ wants_suffix) ++ [m_address m; []; m_statement m; []] ++ lines (bs "URI: " ++ m_uri m)) ++
        [bs "Version: 1"; bs "Chain ID: " ++ dec (m_chain_id m); bs "Nonce: " ++ m_nonce m; bs "Issued At: " ++ ti; bs "Expiration Time: " ++ te]) as E1
        by (rewrite <- !app_assoc; reflexivity);
      assert (y = ([d ++ wants_suffix; ad; []] ++ st ++ [[]; bs "URI: " ++ u]) ++
        [bs "Version: 1"; bs "Chain ID: " ++ c; bs "Nonce: " ++ n; bs "Issued At: " ++ t; a]) as E3
        by (rewrite <- !app_assoc; reflexivity)
    end.
    rewrite E1, E3 in E. apply app_inj_2 in E as [E _]; [exact E|reflexivity]. }
  assert (exists s, st = [s] /\ statement s) as (s & -> & Hs).
  { destruct Hst as [->|Hst]; [|exact Hst]. exfalso. apply (f_equal (@length _)) in E'. rewrite !app_length in E'. cbn [length] in E'. lia. }
  assert (length (lines (m_domain m ++ wants_suffix)) = 1%nat /\ length (lines (bs "URI: " ++ m_uri m)) = 1%nat) as [K1 K2].
  { apply (f_equal (@length _)) in E'. rewrite !app_length in E'. cbn [length] in E'. lia. }
  destruct (lines (m_domain m ++ wants_suffix)) as [|z []] eqn:Z; try discriminate K1. apply lines_single in Z.
  destruct (lines (bs "URI: " ++ m_uri m)) as [|z' []] eqn:Z'; try discriminate K2. apply lines_single in Z'.
  subst z z'.
  assert (m_domain m ++ wants_suffix = d ++ wants_suffix /\ m_statement m = s /\ bs "URI: " ++ m_uri m = bs "URI: " ++ u) as (Q1 & -> & Q3).
  { revert E'. clear. generalize (m_domain m ++ wants_suffix) (d ++ wants_suffix) (bs "URI: " ++ m_uri m) (bs "URI: " ++ u).
    intros ? ? ? ? E. injection E. auto. }
  apply app_inv_tail in Q1. apply app_inv_head in Q3. rewrite Q1, Q3. auto.
Qed.

Lemma conforms_iff : one_line (m_statement m) ->
  sign_in_message H text <-> shown_domain (m_domain m) /\ statement (m_statement m) /\ URI (m_uri m).
Proof. intros Ls. split; [now apply fields_of_conforming|]. intros (Hd & Hs & Hu). now apply conforming. Qed.
End Message.

(** ** Messages for a page *)

Lemma clean_for_page o : clean (for_page o).
Proof.
  apply clean_cat; [apply clean_opt, clean_cat; [apply clean_scheme|clean]|]. intros l [_ H]. now apply clean_authority in H.
Qed.

Lemma same_domain dom dom' H text : clean dom -> clean dom' -> sign_in_message_for dom H text -> sign_in_message_for dom' H text ->
  exists d, dom d /\ dom' d /\ hd [] (lines text) = d ++ wants_suffix.
Proof.
  intros C C' H1 H2. apply message_lines in H1 as (d & ad & st & u & c & n & t & ls & E & Hd & _); [|assumption].
  apply message_lines in H2 as (d' & ad' & st' & u' & c' & n' & t' & ls' & E' & Hd' & _); [|assumption].
  exists d. split; [assumption|]. rewrite E in E'. rewrite E. split; [|reflexivity].
  apply (f_equal (hd [])) in E'. cbn [hd app] in E'. apply app_inv_tail in E' as ->. assumption.
Qed.
