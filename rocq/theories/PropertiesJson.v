(** C82-C83: messages and saved sign-ins as JSON text. *)
From Coq Require Import Strings.String ZifyBool ZifyN ZifyNat.
From Verif Require Import Base BaseLemmas Deps Hex Eth Siwe Json SpecJson JsonStrings JsonProofs SiweDisplay
  Delegation Login Provider SpecTrace Client ClientJson SpecClient ClientProofs SpecStored StoredProofs
  Concrete ClientDemo PropertiesClient.
Local Open Scope N_scope.

(** ** C82  The Display form of a message *)

Lemma dec_number n : number (dec n).
Proof.
  assert (forall l, Forall is_dec_digit l -> Forall is_digit l) as F.
  { intros l. apply List.Forall_impl. intros c. unfold is_dec_digit, is_digit. lia. }
  pose proof (dec_digits n) as D. pose proof (dec_nonempty n) as L. pose proof (dec_lower n) as Lo.
  pose proof (undec_dec n) as U.
  assert (integer_part (dec n)) as I.
  { destruct (dec n) as [|c l] eqn:E; [cbn in L; lia|]. pose proof (List.Forall_inv D) as Dc. pose proof (List.Forall_inv_tail D) as Dl.
    destruct (N.eq_dec (nb c) 48) as [Z|NZ].
    - assert (c = x30) as -> by now apply nb_inj. destruct l as [|c' l]; [constructor|]. exfalso.
      assert (1 < blen (x30 :: c' :: l)) as B by (unfold blen; cbn [length]; lia). specialize (Lo B).
      change (x30 :: c' :: l) with ([x30] ++ c' :: l) in U. rewrite undec_app in U. change (undec [x30]) with 0 in U.
      rewrite N.mul_0_l, N.add_0_l in U.
      assert (undec (c' :: l) < 10 ^ blen (c' :: l)) as Hi.
      { clear - Dl. induction (c' :: l) as [|d r IH] using rev_ind; [cbn; lia|]. apply Forall_app in Dl as [Dl Dd].
        rewrite undec_app, blen_app. change (blen [d]) with 1. rewrite N.pow_add_r. change (10 ^ 1) with 10.
        specialize (IH Dl). inversion Dd as [|? ? Hd _]; subst.
        assert (undec [d] < 10) by (unfold undec, is_dec_digit in *; cbn; lia). nia. }
      replace (blen (x30 :: c' :: l) - 1) with (blen (c' :: l)) in Lo by (unfold blen; cbn [length]; lia). lia.
    - constructor; [unfold is_dec_digit, is_digit in *; lia|exact NZ|now apply F]. }
  rewrite <- (app_nil_r (dec n)). apply (number_parts [] (dec n) [] []); [auto|exact I|constructor|constructor].
Qed.

Lemma message_fine m : json_fine (message_json m).
Proof.
  split.
  - repeat (constructor; [cbn; intuition discriminate|]). constructor.
  - repeat (split; [first [exact I|apply dec_number]|]). exact I.
Qed.

Theorem C82_display_fields : forall m v, json_doc (siwe_display m) v <->
  v = JObj [(bs "scheme", JStr (m_scheme m)); (bs "domain", JStr (m_domain m)); (bs "address", JStr (m_address m));
            (bs "statement", JStr (m_statement m)); (bs "uri", JStr (m_uri m)); (bs "version", JNum (dec (m_version m)));
            (bs "chain_id", JNum (dec (m_chain_id m))); (bs "nonce", JStr (m_nonce m));
            (bs "issued_at", JNum (dec (m_issued_at m))); (bs "expiration_time", JNum (dec (m_expiration_time m)))].
Proof.
  intros m v. unfold siwe_display. rewrite <- parse_json_spec, (parse_text _ (message_fine m)). split; [now intros [= <-]|now intros ->].
Qed.

Theorem C82_injective : forall m1 m2, siwe_display m1 = siwe_display m2 -> m1 = m2.
Proof.
  intros m1 m2 E. assert (json_doc (siwe_display m2) (message_json m1)) as H by (rewrite <- E; now apply C82_display_fields).
  apply C82_display_fields in H. unfold message_json in H. destruct m1, m2. cbn in H. injection H as -> -> -> -> -> Hv Hc -> Hi He.
  apply dec_inj in Hv as ->, Hc as ->, Hi as ->, He as ->. reflexivity.
Qed.

(** One line, whatever the settings and the statement contain. *)
Theorem C82_one_line : forall m, Forall (fun c => 32 <= nb c) (siwe_display m).
Proof.
  assert (forall c, Forall (fun c => 32 <= nb c) (escape c)) as E.
  { intros c. assert (forallb (fun c => 32 <=? nb c) (escape c) = true) as F by (destruct c; reflexivity).
    rewrite forallb_forall in F. apply List.Forall_forall. intros d Hd. apply F in Hd. lia. }
  assert (forall s, Forall (fun c => 32 <= nb c) (concat (map escape s))) as Q.
  { intros s. induction s as [|c s IH]; [constructor|]. cbn [map concat]. apply Forall_app. auto. }
  assert (forall n, Forall (fun c => 32 <= nb c) (dec n)) as N.
  { intros n. eapply List.Forall_impl; [|apply dec_digits]. intros c. unfold is_dec_digit. lia. }
  intros m. unfold siwe_display, message_json. cbn [json_text map commas fst snd].
  repeat first [apply Q | apply N | constructor; [cbn; lia|] | apply Forall_app; split | constructor].
Qed.

(** A statement with quotation marks and a line break does not break out of its member. *)
Example C82_case :
  let m := mkMsg (bs "https") (bs "example.com") (bs "0x5aAeb6053F3E94C9b9A09f33669435E7Ef1BeAed")
             (bs "Hi"",""uri"":""evil" ++ [x0a]) (bs "https://example.com") 1 1 (bs "abc") 5 10 in
  siwe_display m = bs "{""scheme"":""https"",""domain"":""example.com"",""address"":""0x5aAeb6053F3E94C9b9A09f33669435E7Ef1BeAed"",""statement"":""Hi\"",\""uri\"":\""evil\n"",""uri"":""https://example.com"",""version"":1,""chain_id"":1,""nonce"":""abc"",""issued_at"":5,""expiration_time"":10}".
Proof. vm_compute. reflexivity. Qed.

(** ** C83  Which texts in localStorage sign a tab in *)

Theorem C83_loads_exactly : forall D cid acts w t, runs D cid acts w ->
  exists w', runs D cid (acts ++ [AStorage (Some t); ALoad; AManager]) w' /\ x_initializing (w_ctx w') = false /\
    (forall a i, signed_in_as w' a i <-> stored_sign_in t a i) /\
    ((forall a i, ~ stored_sign_in t a i) -> signed_out w').
Proof.
  intros D cid acts w t H.
  change (acts ++ [AStorage (Some t); ALoad; AManager]) with (acts ++ [AStorage (Some t)] ++ [ALoad] ++ [AManager]). rewrite !app_assoc.
  eexists. split.
  { eapply runs_snoc; [eapply runs_snoc; [eapply runs_snoc; [exact H|exact I|reflexivity]|exact I|reflexivity]|exact I|reflexivity]. }
  unfold signed_in_as, signed_out. cbn [w_ctx w_storage]. unfold construct.
  destruct (load_identity (Some t)) as [[[a0 i0] c0]|] eqn:L.
  - split; [reflexivity|]. cbn. apply load_spec in L as [-> S]. split.
    + intros a i. split; [intros (E1 & E2 & _); congruence|].
      intros S'. assert (load_identity (Some t) = Some (a, i, id_chain i)) as L1 by (apply load_spec; auto).
      assert (load_identity (Some t) = Some (a0, i0, id_chain i0)) as L2 by (apply load_spec; auto).
      assert (a = a0 /\ i = i0) as [-> ->] by (split; congruence). auto.
    + intros N. now apply N in S.
  - split; [reflexivity|]. split; [|repeat split]. intros a i. split; [intros (E & _); discriminate E|].
    intros S. exfalso. assert (load_identity (Some t) = Some (a, i, id_chain i)) as L1 by (apply load_spec; auto). congruence.
Qed.

(** What a tab stores is such a text, and says what the tab shows. *)
Theorem C83_saved : forall D cid acts w a i, deps_ok D -> runs D cid acts w -> undisturbed acts ->
  x_initializing (w_ctx w) = false -> signed_in w a i ->
  exists t, w_storage w = Some t /\ forall a' i', stored_sign_in t a' i' <-> a' = JStr a /\ i' = i.
Proof.
  intros D cid acts w a i HD H Hu Hi (S1 & S2 & S3).
  destruct (runs_store D cid acts w HD H Hu) as [[_ (E & _)]|(x & k & c & (Hst & Hx & Hk & Hiss) & [(E2 & E3 & E4)|[E _]])]; [congruence| |congruence].
  assert (i = mkIdent k c) as -> by congruence. assert (a = x) as -> by congruence.
  destruct (issued_facts D cid (w_history w) (w_canister w) x (mkIdent k c) HD (ci_exec _ _ _ (runs_cinv _ _ _ _ H)) Hk Hiss) as [Hc _].
  exists (save_identity x k c). split; [exact Hst|]. intros a' i'.
  pose proof (load_save x k c Hx Hk Hc) as L. split.
  - intros S. assert (load_identity (Some (save_identity x k c)) = Some (a', i', id_chain i')) as L' by (apply load_spec; auto).
    rewrite L in L'. split; congruence.
  - intros [-> ->]. now apply load_spec in L.
Qed.

(** Blanks, another order, escapes, further members and an earlier member of the same name make no
    difference; a comma too many does. *)
Definition odd_text (more : bytes) : bytes :=
  let q := [x22] in
  bs " { ""x"" : [1.5e3, null, {}], ""delegationChain"": {""publicKey"":""" ++ repeat x30 64 ++ q ++ bs ",""delegations"":[]},"
  ++ [x0a] ++ bs """address"":""no"" , ""address"":""0xAé😀"",""sessionIdentity"":[""302a300506032b6570032100"
  ++ repeat x31 64 ++ q ++ bs ",""" ++ repeat x32 64 ++ q ++ bs ",3]" ++ more ++ bs "}" ++ [x09].
Example C83_case :
  stored_sign_in (odd_text []) (JStr (bs "0xA" ++ [xc3; xa9; xf0; x9f; x98; x80]))
    (mkIdent (mkPair (repeat x11 32) (repeat x22 32)) (mkChain [] (repeat x00 32))) /\
  (forall a i, ~ stored_sign_in (odd_text (bs ",")) a i).
Proof.
  split.
  - assert (load_identity (Some (odd_text [])) = Some (JStr (bs "0xA" ++ [xc3; xa9; xf0; x9f; x98; x80]),
      mkIdent (mkPair (repeat x11 32) (repeat x22 32)) (mkChain [] (repeat x00 32)), mkChain [] (repeat x00 32))) as L
      by (vm_compute; reflexivity).
    now apply load_spec in L.
  - intros a i S. assert (load_identity (Some (odd_text (bs ","))) = Some (a, i, id_chain i)) as L by (apply load_spec; auto).
    assert (load_identity (Some (odd_text (bs ","))) = None) as N by (vm_compute; reflexivity). congruence.
Qed.

(** The address is not looked at: a number or a list will do, only 0 will not. *)
Definition address_text_of (a : bytes) : bytes :=
  bs "{""address"":" ++ a ++ bs ",""delegationChain"":{""publicKey"":""" ++ repeat x30 64 ++ bs """,""delegations"":[]},"
  ++ bs """sessionIdentity"":[""302a300506032b6570032100" ++ repeat x31 64 ++ bs """,""" ++ repeat x32 64 ++ bs """]}".
Example C83_any_address :
  let i := mkIdent (mkPair (repeat x11 32) (repeat x22 32)) (mkChain [] (repeat x00 32)) in
  stored_sign_in (address_text_of (bs "-0.07e2")) (JNum (bs "-0.07e2")) i /\
  stored_sign_in (address_text_of (bs "[]")) (JArr []) i /\
  (forall a i, ~ stored_sign_in (address_text_of (bs "-0.00e2")) a i) /\
  (forall a i, ~ stored_sign_in (address_text_of (bs "false")) a i).
Proof.
  intros i. split; [|split; [|split]].
  - assert (load_identity (Some (address_text_of (bs "-0.07e2"))) = Some (JNum (bs "-0.07e2"), i, id_chain i)) as L by (vm_compute; reflexivity).
    now apply load_spec in L.
  - assert (load_identity (Some (address_text_of (bs "[]"))) = Some (JArr [], i, id_chain i)) as L by (vm_compute; reflexivity).
    now apply load_spec in L.
  - intros a j S. assert (load_identity (Some (address_text_of (bs "-0.00e2"))) = Some (a, j, id_chain j)) as L by (apply load_spec; auto).
    assert (load_identity (Some (address_text_of (bs "-0.00e2"))) = None) as N by (vm_compute; reflexivity). congruence.
  - intros a j S. assert (load_identity (Some (address_text_of (bs "false"))) = Some (a, j, id_chain j)) as L by (apply load_spec; auto).
    assert (load_identity (Some (address_text_of (bs "false"))) = None) as N by (vm_compute; reflexivity). congruence.
Qed.

Print Assumptions C82_display_fields.
Print Assumptions C82_injective.
Print Assumptions C82_one_line.
Print Assumptions C83_loads_exactly.
Print Assumptions C83_saved.
