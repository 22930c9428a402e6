(** Lemmas about the sign-in text and the store of pending messages. *)
From Coq Require Import Strings.String ZifyBool ZifyN ZifyNat.
From Verif Require Import Base BaseLemmas Deps Hex Eth SpecEth EthProofs Time3339 Settings Siwe SpecSiwe TimeProofs.
Local Open Scope N_scope.

(** ** Lines *)

Lemma one_line_app a b : one_line (a ++ b) <-> one_line a /\ one_line b.
Proof. unfold one_line. rewrite in_app_iff. tauto. Qed.

Lemma one_line_digits l : Forall is_dec_digit l -> one_line l.
Proof.
  intros H I. rewrite List.Forall_forall in H. apply H in I. revert I. unfold is_dec_digit.
  change (nb x0a) with 10. lia.
Qed.

Lemma lines_line a : one_line a -> lines a = [a].
Proof.
  induction a as [|c a IH]; intros H; [reflexivity|]. cbn [lines].
  destruct (Byte.eqb c x0a) eqn:E.
  - apply Byte.byte_dec_bl in E. exfalso. apply H. left. exact E.
  - rewrite IH by (intros I; apply H; now right). reflexivity.
Qed.

Lemma lines_break b : lines (nl ++ b) = [] :: lines b.
Proof. reflexivity. Qed.

Lemma lines_app a b : one_line a -> lines (a ++ nl ++ b) = a :: lines b.
Proof.
  unfold nl. induction a as [|c a IH]; intros H; [reflexivity|]. cbn [lines app].
  destruct (Byte.eqb c x0a) eqn:E.
  - apply Byte.byte_dec_bl in E. exfalso. apply H. left. exact E.
  - cbn [app] in IH. rewrite IH by (intros I; apply H; now right). reflexivity.
Qed.

Lemma after_app p l : after p (p ++ l) = Some l.
Proof.
  unfold after. rewrite take_app, drop_app. now rewrite decide_True.
Qed.

Lemma before_app p l : before p (l ++ p) = Some l.
Proof.
  unfold before. rewrite app_length.
  replace (length l + length p - length p)%nat with (length l) by lia.
  rewrite take_app, drop_app. now rewrite decide_True.
Qed.

Definition plain (l : bytes) : bool := forallb (fun c => negb (Byte.eqb c x0a)) l.

Lemma plain_one_line l : plain l = true -> one_line l.
Proof.
  unfold plain, one_line. rewrite forallb_forall. intros H I. specialize (H _ I). discriminate.
Qed.

Lemma format_one_line t s : t <= u64_max -> format_rfc3339 t = Done s -> one_line s.
Proof.
  intros Ht. unfold format_rfc3339.
  destruct (MAX_TIMESTAMP <? _); [discriminate|].
  destruct (civil_of_days _) as [[y m] d]. destruct (9999 <? y); [discriminate|].
  intros H. match type of H with Done ?x = _ => assert (x = s) as <- by congruence end. clear H.
  rewrite !one_line_app.
  repeat match goal with
  | |- _ /\ _ => split
  | |- one_line (dec_pad _ _) => apply one_line_digits, dec_pad_digits
  | |- one_line (bs _) => apply plain_one_line; reflexivity
  end.
  unfold format_nanos. destruct (_ =? 0) eqn:E; [intros []|].
  destruct (frac_digits_spec 9 (t mod 1000000000)) as (k & v & _ & Ef & _).
  - apply N.eqb_neq in E. lia.
  - change (10 ^ N.of_nat 9) with 1000000000. apply N.mod_lt. lia.
  - rewrite Ef, one_line_app. split; [apply plain_one_line; reflexivity|].
    apply one_line_digits, dec_pad_digits.
Qed.

(** The fields of a message that go on a line of their own. *)
Definition fields_one_line (m : SiweMessage) : Prop :=
  one_line (m_domain m) /\ one_line (m_address m) /\ one_line (m_statement m) /\
  one_line (m_uri m) /\ one_line (m_nonce m).

Lemma siwe_text_reads m :
  fields_one_line m -> m_issued_at m <= u64_max -> m_expiration_time m <= u64_max ->
  exists text, siwe_to_string m = Done text /\
    read_erc4361 text = Some (mkErc (m_domain m) (m_address m) (m_statement m) (m_uri m)
      (m_version m) (m_chain_id m) (m_nonce m) (m_issued_at m) (m_expiration_time m)).
Proof.
  intros (Hd & Ha & Hs & Hu & Hn) Hi He.
  destruct (format_reads _ Hi) as (si & Fi & Ri & Ii).
  destruct (format_reads _ He) as (se & Fe & Re & Ie).
  pose proof (format_one_line _ _ Hi Fi) as Li. pose proof (format_one_line _ _ He Fe) as Le.
  unfold siwe_to_string. rewrite Fi, Fe. cbn [obind]. eexists. split; [reflexivity|].
  unfold read_erc4361.
  assert (forall p q, plain p = true -> one_line q -> one_line (p ++ q)) as P.
  { intros p q Hp Hq. apply one_line_app. split; [apply plain_one_line; exact Hp|exact Hq]. }
  assert (forall n, one_line (dec n)) as Pd by (intros n; apply one_line_digits, dec_digits).
  rewrite (app_assoc (m_domain m)).
  rewrite lines_app by (apply one_line_app; split; [exact Hd|apply plain_one_line; reflexivity]).
  rewrite lines_app by exact Ha.
  rewrite lines_break.
  rewrite lines_app by exact Hs.
  rewrite lines_break.
  rewrite (app_assoc (bs "URI: ")), (app_assoc (bs "Version: ")), (app_assoc (bs "Chain ID: ")),
    (app_assoc (bs "Nonce: ")), (app_assoc (bs "Issued At: ")).
  do 5 (rewrite lines_app by (apply P; [reflexivity|first [assumption|apply Pd]])).
  rewrite lines_line by (apply P; [reflexivity|assumption]).
  rewrite before_app. cbn [mbind option_bind].
  repeat (rewrite after_app; cbn [mbind option_bind]; rewrite ?read_decimal_dec; cbn [mbind option_bind]).
  unfold read_instant. rewrite Ri, Re. cbn [fmap option_fmap option_map mbind option_bind].
  rewrite Ii. cbn [mbind option_bind]. rewrite Ie. reflexivity.
Qed.

(** [to_string] never panics on u64 times, line breaks or not. *)
Lemma siwe_to_string_done m :
  m_issued_at m <= u64_max -> m_expiration_time m <= u64_max ->
  exists text, siwe_to_string m = Done text.
Proof.
  intros Hi He. destruct (format_reads _ Hi) as (si & Fi & _). destruct (format_reads _ He) as (se & Fe & _).
  unfold siwe_to_string. rewrite Fi, Fe. cbn [obind]. eauto.
Qed.

(** ** Addresses and nonces are single lines *)

Lemma nth_one_line (l : bytes) n : one_line l -> nth n l x00 <> x0a.
Proof.
  intros H E. destruct (Nat.lt_ge_cases n (length l)) as [L|L].
  - apply H. rewrite <- E. now apply nth_In.
  - rewrite nth_overflow in E by assumption. discriminate.
Qed.

Lemma lower_digit_nl n : lower_digit n <> x0a.
Proof. apply nth_one_line, plain_one_line. reflexivity. Qed.
Lemma upper_digit_nl n : upper_digit n <> x0a.
Proof. apply nth_one_line, plain_one_line. reflexivity. Qed.

Lemma eip55_one_line k b : one_line (eip55 k b).
Proof.
  unfold eip55. apply one_line_app. split; [apply plain_one_line; reflexivity|].
  generalize (nibbles (k (lower_hex b))). induction (nibbles b) as [|n ns IH]; intros [|h hs]; try (intros []).
  - destruct (8 <=? h); [now apply upper_digit_nl in H|now apply lower_digit_nl in H].
  - now apply IH in H.
Qed.

Lemma hex_one_line l : one_line (hex_encode l).
Proof.
  rewrite <- lower_hex_encode. unfold lower_hex. intros H. apply in_map_iff in H as (n & E & _).
  now apply lower_digit_nl in E.
Qed.

(** ** A URI with a line break *)

Lemma siwe_text_broken m u v :
  one_line (m_domain m) -> one_line (m_address m) -> one_line (m_statement m) ->
  one_line u -> one_line v -> m_uri m = u ++ nl ++ v -> one_line (m_nonce m) ->
  m_issued_at m <= u64_max -> m_expiration_time m <= u64_max ->
  exists text, siwe_to_string m = Done text /\ read_erc4361 text = None.
Proof.
  intros Hd Ha Hs Hu Hv Em Hn Hi He.
  destruct (format_reads _ Hi) as (si & Fi & _). destruct (format_reads _ He) as (se & Fe & _).
  pose proof (format_one_line _ _ Hi Fi) as Li. pose proof (format_one_line _ _ He Fe) as Le.
  unfold siwe_to_string. rewrite Fi, Fe, Em. cbn [obind]. eexists. split; [reflexivity|].
  unfold read_erc4361.
  assert (forall p q, plain p = true -> one_line q -> one_line (p ++ q)) as P.
  { intros p q Hp Hq. apply one_line_app. split; [apply plain_one_line; exact Hp|exact Hq]. }
  assert (forall n, one_line (dec n)) as Pd by (intros n; apply one_line_digits, dec_digits).
  rewrite (app_assoc (m_domain m)), <- !app_assoc, (app_assoc (m_domain m)).
  rewrite lines_app by (apply one_line_app; split; [exact Hd|apply plain_one_line; reflexivity]).
  rewrite lines_app by exact Ha.
  rewrite lines_break.
  rewrite lines_app by exact Hs.
  rewrite lines_break.
  rewrite (app_assoc (bs "URI: ")).
  rewrite lines_app by (apply P; [reflexivity|assumption]).
  rewrite lines_app by assumption.
  rewrite (app_assoc (bs "Version: ")), (app_assoc (bs "Chain ID: ")),
    (app_assoc (bs "Nonce: ")), (app_assoc (bs "Issued At: ")).
  do 4 (rewrite lines_app by (apply P; [reflexivity|first [assumption|apply Pd]])).
  rewrite lines_line by (apply P; [reflexivity|assumption]).
  reflexivity.
Qed.
