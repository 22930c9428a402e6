(** The texts in replies are UTF-8, the numbers and principals in range. *)
From Coq Require Import Strings.String ZifyBool ZifyN ZifyNat.
From Verif Require Import Base BaseLemmas Deps Hex Eth SpecEth EthProofs Time3339 Settings SpecInit SettingsProofs Siwe
  SigMap Delegation PrincipalText SpecPrincipal PrincipalProofs Login Provider
  Candid SpecCandid CandidBase Interface SpecInterface InterfaceProofs.
Local Open Scope N_scope.

Lemma done_inj {A} (a b : A) : Done a = Done b -> a = b.
Proof. now inversion 1. Qed.

Notation plain := (Forall (fun c => nb c < 128)).

Lemma plain_utf8 b : plain b -> utf8_text b.
Proof. intros H. apply utf8_iff. now apply utf8_ascii. Qed.
Lemma utf8_app a b : utf8_text a -> utf8_text b -> utf8_text (a ++ b).
Proof. induction 1 as [|n c t Hc _ IH]; intros Hb; [exact Hb|]. rewrite <- app_assoc. econstructor; eauto. Qed.

Lemma plain_app a b : plain a -> plain b -> plain (a ++ b).
Proof. intros. apply List.Forall_app. auto. Qed.
Lemma plain_digits l : Forall is_dec_digit l -> plain l.
Proof. apply List.Forall_impl. unfold is_dec_digit. intros c. lia. Qed.
Lemma plain_dec n : plain (dec n).
Proof. apply plain_digits, dec_digits. Qed.
Lemma hexchar_plain c : hexchar c = true -> nb c < 128.
Proof. unfold hexchar, Eth.is_digit, is_hex_lower, is_hex_upper. lia. Qed.
Lemma plain_hexchars l : forallb hexchar l = true -> plain l.
Proof. rewrite forallb_forall. intros H. apply List.Forall_forall. intros c Hc. now apply hexchar_plain, H. Qed.
Lemma plain_hex b : plain (hex_encode b).
Proof. apply plain_hexchars. eapply hex_lower_hexchar. apply hex_encode_lower. Qed.
Lemma plain_bs s : forallb (fun c => nb c <? 128) (bs s) = true -> plain (bs s).
Proof. rewrite forallb_forall. intros H. apply List.Forall_forall. intros c Hc. apply H in Hc. lia. Qed.

Ltac plainly := repeat first [apply plain_dec | apply plain_hex | (apply plain_bs; vm_compute; reflexivity) | apply plain_app
  | (apply List.Forall_nil) | (apply List.Forall_cons; [vm_compute; reflexivity|])].

Lemma frac_plain w n : plain (frac_digits w n).
Proof.
  revert n. induction w as [|w IH]; intros n; cbn [frac_digits]; [constructor|].
  destruct (n mod 10 =? 0); [apply IH|]. apply plain_digits, dec_pad_digits.
Qed.
Lemma nanos_plain n : plain (format_nanos n).
Proof. unfold format_nanos. destruct (n =? 0); [constructor|]. apply plain_app; [apply plain_bs; reflexivity|apply frac_plain]. Qed.
Lemma format_plain t s : format_rfc3339 t = Done s -> plain s.
Proof.
  unfold format_rfc3339. destruct (MAX_TIMESTAMP <? _); [discriminate|].
  destruct (civil_of_days _) as [[y m] d]. destruct (9999 <? y); [discriminate|]. intros E.
  apply done_inj in E as <-.
  repeat first [apply nanos_plain | (apply plain_digits, dec_pad_digits) | (apply plain_bs; vm_compute; reflexivity) | apply plain_app].
Qed.

(** ** Error texts *)

Lemma hex_error_utf8 e : utf8_text (show_hex_error e).
Proof.
  destruct e as [c i|]; cbn [show_hex_error].
  - apply utf8_app; [apply plain_utf8; plainly|]. apply utf8_app; [|apply plain_utf8; plainly].
    apply utf8_iff. destruct c; vm_compute; reflexivity.
  - apply plain_utf8. plainly.
Qed.

Definition eth_error_fine (e : eth_error) : Prop := utf8_text (show_eth_error e).

Lemma checksum_plain h l : forall i r, plain l -> checksum_chars h i l = Done r ->
  match r with Ok t => plain t | Err e => eth_error_fine e end.
Proof.
  induction l as [|c l IH]; intros i r Hl E; cbn [checksum_chars] in E.
  - injection E as <-. constructor.
  - pose proof (List.Forall_inv Hl) as Hc. pose proof (List.Forall_inv_tail Hl) as Ht. cbn beta in Hc.
    assert (forall c' r0, nb c' < 128 ->
      (olet t := checksum_chars h (S i) l in Done (match t with Ok t => Ok (c' :: t) | Err e => Err e end)) = Done r0 ->
      match r0 with Ok t => plain t | Err e => eth_error_fine e end) as K.
    { intros c' r0 Hc' E0. destruct (checksum_chars h (S i) l) as [[t|e]|w] eqn:Ec; cbn [obind] in E0; [| |discriminate].
      - injection E0 as <-. constructor; [exact Hc'|]. exact (IH _ _ Ht Ec).
      - injection E0 as <-. exact (IH _ _ Ht Ec). }
    destruct (Eth.is_digit c); [now apply (K c r)|].
    destruct (is_hex_lower c || is_hex_upper c) eqn:Eh.
    + destruct (hash_nibble h i) as [n|]; [|discriminate]. revert E. apply K.
      unfold is_hex_lower, is_hex_upper in Eh. pose proof (nb_lt c).
      assert (nb (to_lower c) < 128 /\ nb (to_upper c) < 128) as [? ?] by (rewrite nb_to_lower, nb_to_upper; destruct (_ && (nb c <=? 90)) eqn:?, (_ && (nb c <=? 122)) eqn:?; lia).
      now destruct (8 <=? n).
    + injection E as <-. unfold eth_error_fine. cbn [show_eth_error]. apply plain_utf8.
      repeat apply plain_app; try plainly. unfold utf8_width. assert (nb c <? 128 = true) as -> by lia. now constructor; [|constructor].
Qed.
Lemma convert_plain D a r : plain a -> convert_to_eip55 D a = Done r ->
  match r with Ok t => plain t | Err e => eth_error_fine e end.
Proof.
  intros Ha E. unfold convert_to_eip55 in E.
  set (t := match strip_prefix (bs "0x") a with Some t => t | None => a end) in *.
  assert (plain t) as Ht.
  { unfold t. destruct (strip_prefix (bs "0x") a) as [u|] eqn:Es; [|exact Ha]. apply strip_prefix_spec in Es as ->.
    now apply List.Forall_app in Ha as [_ Ha]. }
  destruct (checksum_chars _ 0 t) as [[u|e]|w] eqn:Ec; cbn [obind] in E; [| |discriminate]; injection E as <-;
    pose proof (checksum_plain _ _ _ _ Ht Ec) as H; cbn in H.
  - apply (plain_app (bs "0x")); [plainly|exact H].
  - exact H.
Qed.

Lemma address_new_fine D s r : deps_ok D -> eth_address_new D s = Done r ->
  match r with Ok a => plain (addr_str a) | Err e => eth_error_fine e end.
Proof.
  intros HD E. unfold eth_address_new in E. destruct (negb _ || negb _) eqn:Eg.
  { injection E as <-. apply plain_utf8. cbn [show_eth_error]. plainly. }
  apply orb_false_iff in Eg as [Ep _]. apply negb_false_iff in Ep.
  destruct (hex_decode (drop 2 s)) as [b|e] eqn:Eh.
  - destruct (convert_to_eip55 D s) as [cr|w]; cbn [obind] in E; [|discriminate].
    destruct (unwrap cr) as [c|w]; cbn [obind] in E; [|discriminate].
    apply hex_decode_ok in Eh. apply hex_lower_hexchar in Eh. apply plain_hexchars in Eh.
    destruct (bytes_eqb s c); injection E as <-.
    + cbn [addr_str]. apply is_prefix_spec in Ep as [t ->]. apply plain_app; [plainly|exact Eh].
    + apply plain_utf8. cbn [show_eth_error]. plainly.
  - injection E as <-. unfold eth_error_fine. cbn [show_eth_error]. apply utf8_app; [apply plain_utf8; plainly|apply hex_error_utf8].
Qed.
Lemma signature_new_fine s r : eth_signature_new s = Done r ->
  match r with Ok _ => True | Err e => eth_error_fine e end.
Proof.
  unfold eth_signature_new. destruct (negb _ || negb _).
  { intros [= <-]. apply plain_utf8. cbn [show_eth_error]. plainly. }
  destruct (hex_decode (drop 2 s)) as [b|e]; intros [= <-]; [exact I|].
  unfold eth_error_fine. cbn [show_eth_error]. apply utf8_app; [apply plain_utf8; plainly|apply hex_error_utf8].
Qed.
Lemma recover_fine D m s r : recover_eth_address D m s = Done r ->
  match r with Ok _ => True | Err e => eth_error_fine e end.
Proof.
  unfold recover_eth_address. destruct (sig_as_bytes s) as [sb|w]; cbn [obind]; [|discriminate].
  destruct (sb !! 64%nat) as [v|]; [|discriminate].
  destruct (3 <? _); [intros [= <-]; apply plain_utf8; cbn [show_eth_error]; plainly|].
  destruct (negb _); [intros [= <-]; apply plain_utf8; cbn [show_eth_error]; plainly|].
  destruct (d_recover _ _ _ _) as [pk|]; [|intros [= <-]; apply plain_utf8; cbn [show_eth_error]; plainly].
  intros E. apply convert_plain in E; [destruct r; [exact I|exact E]|].
  apply List.Forall_forall. intros c Hc. pose proof (plain_hex (d_keccak D pk)) as P. rewrite List.Forall_forall in P. apply P.
  rewrite <- (take_drop 24 (hex_encode (d_keccak D pk))). apply in_app_iff. now right.
Qed.

(** What simple_asn1 says about a session key it refuses is a text. *)
Definition der_texts (D : Deps) : Prop := forall k e, d_der_err D k = Some e -> utf8_text e.

Lemma create_fine D st sk e r : der_texts D -> create_delegation D st sk e = Done r ->
  match r with
  | Ok d => dl_expiration d = e /\ exists s, st = Some s /\ dl_targets d = s_targets s
  | Err e => utf8_text (show_delegation_error e)
  end.
Proof.
  intros HD. unfold create_delegation. destruct sk as [|c sk].
  { intros [= <-]. apply plain_utf8. cbn [show_delegation_error]. plainly. }
  destruct (d_der_err D (c :: sk)) as [t|] eqn:E.
  { intros Er. apply done_inj in Er as <-. cbn [show_delegation_error]. apply HD in E. apply utf8_app; [apply plain_utf8; plainly|]. apply utf8_app; [apply plain_utf8; plainly|exact E]. }
  destruct (e =? 0).
  { intros [= <-]. apply plain_utf8. cbn [show_delegation_error]. plainly. }
  unfold with_settings. destruct st as [s|]; [|discriminate]. intros [= <-]. eauto.
Qed.
Lemma witness_fine D now m seed dh : match witness D now m seed dh with Ok _ => True | Err e => utf8_text (show_delegation_error e) end.
Proof.
  unfold witness. destruct (sm_is_expired _ _ _ _); [apply plain_utf8; cbn [show_delegation_error]; plainly|].
  destruct (sm_witness _ _ _ _); [|apply plain_utf8; cbn [show_delegation_error]; plainly].
  destruct (bytes_eqb _ _); [exact I|]. apply plain_utf8. cbn [show_delegation_error]. plainly.
Qed.

(** ** States *)

Record settings_fine (s : Settings) : Prop := {
  sf_domain : utf8_text (s_domain s);
  sf_uri : utf8_text (s_uri s);
  sf_statement : utf8_text (s_statement s);
  sf_targets : match s_targets s with None => True | Some l => Forall (fun p => blen p <= 29) l end
}.
Definition state_fine (st : state) : Prop :=
  match st with Some c => match ls_settings (c_lib c) with Some s => settings_fine s | None => True end | None => True end.

Lemma init_fine D cid i s fl : siwe_init D cid i = Done (s, fl) -> Forall utf8_text (op_texts (Install i)) -> settings_fine s.
Proof.
  intros E H. apply siwe_init_spec in E. cbn [op_texts] in H. apply List.Forall_app in H as [H H2].
  apply List.Forall_app in H2 as [_ H2]. apply List.Forall_app in H2 as [Hst _].
  pose proof (List.Forall_inv H) as Hd. pose proof (List.Forall_inv (List.Forall_inv_tail H)) as Hu. destruct E. constructor.
  - congruence.
  - congruence.
  - rewrite init_statement. destruct (in_statement i) as [t|]; cbn.
    + exact (List.Forall_inv Hst).
    + apply plain_utf8. plainly.
  - destruct (in_targets i) as [l|]; [|now rewrite init_targets]. destruct init_targets as (ps & -> & _ & Hp).
    clear - Hp. induction Hp as [|t p l ps H _ IH]; constructor; [|exact IH].
    apply from_text_denotes, from_text_iff in H as [H _]. unfold blen. lia.
Qed.

(** ** Replies *)

(** [reply_fine] up to lengths. *)
Definition result_texts {A} (ok : A -> Prop) (r : result A bytes) : Prop :=
  match r with Ok a => ok a | Err e => utf8_text e end.
Definition reply_texts (r : reply) : Prop :=
  match r with
  | RTrap _ | RDone => True
  | RPrepare r => result_texts (fun x => utf8_text (fst x) /\ utf8_text (snd x)) r
  | RLogin r => result_texts (fun d => ld_expiration d <= u64_max) r
  | RDelegation r =>
      result_texts (fun s => dl_expiration (sd_delegation s) <= u64_max /\
                             match dl_targets (sd_delegation s) with None => True | Some l => Forall (fun p => blen p <= 29) l end) r
  | RText r => result_texts utf8_text r
  | RBlob r => result_texts (fun _ => True) r
  end.

Lemma message_fine s now a n m t : settings_fine s -> plain (addr_str a) -> plain n ->
  siwe_message_new (Some s) now a n = Done m -> siwe_to_string m = Done t -> utf8_text t.
Proof.
  intros Hs Ha Hn Em Et. cbn [siwe_message_new with_settings] in Em.
  apply done_inj in Em as <-.
  unfold siwe_to_string in Et. cbn [m_issued_at m_expiration_time m_domain m_address m_statement m_uri m_version m_chain_id m_nonce] in Et.
  destruct (format_rfc3339 now) as [i|w] eqn:Ei; cbn [obind] in Et; [|discriminate].
  destruct (format_rfc3339 (sat_add _ _)) as [e|w] eqn:Ee; cbn [obind] in Et; [|discriminate]. apply done_inj in Et as <-.
  apply format_plain in Ei, Ee. destruct Hs. unfold nl.
  repeat apply utf8_app; try assumption; apply plain_utf8; first [assumption|plainly].
Qed.

Lemma convert_stored_fine D a r : convert_to_eip55 D (bytes_to_eth_address a) = Done r ->
  result_texts utf8_text (map_err show_eth_error r).
Proof.
  intros E. apply convert_plain in E; [|unfold bytes_to_eth_address; plainly].
  destruct r; cbn; [now apply plain_utf8|exact E].
Qed.
Lemma get_address_fine D p c r : get_address D p c = Done r -> result_texts utf8_text r.
Proof.
  unfold get_address. destruct (disable_principal_to_eth _); [intros [= <-]; apply plain_utf8; plainly|].
  destruct (29 <? _); [intros [= <-]; apply plain_utf8; plainly|].
  destruct (c_principal_address c !! p) as [a|]; [|intros [= <-]; apply plain_utf8; plainly].
  destruct (convert_to_eip55 D _) as [cr|w] eqn:E; cbn [obind]; [|discriminate]. intros [= <-]. now apply convert_stored_fine in E.
Qed.

Lemma step_fine D cid now o s s' r : deps_ok D -> der_texts D -> now <= u64_max -> op_wf o -> Forall utf8_text (op_texts o) ->
  state_fine s -> step D cid now o s = (s', r) -> state_fine s' /\ reply_texts r.
Proof.
  intros HD HE Hn Ho Ht Hs E.
  assert (forall {A} c (f : A -> reply) (x : outcome (canister * A)), state_fine (Some c) ->
    (forall c' a, x = Done (c', a) -> state_fine (Some c') /\ reply_texts (f a)) -> run_update c f x = (s', r) ->
    state_fine s' /\ reply_texts r) as HU.
  { intros A c f x Hc Hx Er. unfold run_update in Er. destruct x as [[c' a]|w]; injection Er as <- <-; [now apply Hx|now split]. }
  assert (forall {A} c (f : A -> reply) (x : outcome A), state_fine (Some c) ->
    (forall a, x = Done a -> reply_texts (f a)) -> run_query c f x = (s', r) ->
    state_fine s' /\ reply_texts r) as HQ.
  { intros A c f x Hc Hx Er. unfold run_query in Er. destruct x as [a|w]; injection Er as <- <-; split; [exact Hc|now apply Hx|exact Hc|exact I]. }
  destruct o as [i|i|seed|a|sg a sk n|cert a sk e|p|p|a]; cbn [step] in E.
  - unfold do_install in E. destruct (siwe_init D cid i) as [[st fl]|w] eqn:Ei; cbn [obind] in E; injection E as <- <-; [|now split].
    split; [|exact I]. cbn. now apply init_fine in Ei.
  - destruct s as [c|]; [|injection E as <- <-; now split]. unfold do_upgrade in E.
    destruct (siwe_init D cid i) as [[st fl]|w] eqn:Ei; cbn [obind] in E; injection E as <- <-; [|now split].
    split; [|exact I]. cbn. now apply init_fine in Ei.
  - destruct s as [c|]; [|injection E as <- <-; now split]. injection E as <- <-. split; [|exact I].
    unfold do_raw_rand. destruct (c_seeding c); [|exact Hs]. destruct seed; exact Hs.
  - destruct s as [c|]; [|injection E as <- <-; now split]. apply HU in E; [exact E|exact Hs|]. clear E. intros c' x E.
    unfold siwe_prepare_login in E. destruct (eth_address_new D a) as [[ad|er]|w] eqn:Ea; cbn [obind] in E; [| |discriminate].
    + pose proof (address_new_fine _ _ _ HD Ea) as Pa. cbn in Pa. unfold prepare_login in E.
      destruct (generate_nonce D (ls_rng (c_lib c))) as [[n rg]|w] eqn:En; cbn [obind] in E; [|discriminate].
      destruct (siwe_message_new _ _ _ _) as [m|w] eqn:Em; cbn [obind] in E; [|discriminate].
      destruct (msgs_insert _ _ _ _ _) as [ms|w]; cbn [obind] in E; [|discriminate].
      destruct (siwe_to_string m) as [t|w] eqn:Et; cbn [obind] in E; [|discriminate]. injection E as <- <-.
      split; [exact Hs|]. cbn. cbn [state_fine] in Hs. destruct (ls_settings (c_lib c)) as [st|]; [|discriminate].
      assert (plain n) as Pn.
      { unfold generate_nonce in En. destruct (ls_rng (c_lib c)); [|discriminate]. injection En as <- _. plainly. }
      split; [eapply message_fine; eauto|now apply plain_utf8].
    + injection E as <- <-. split; [exact Hs|]. now apply (address_new_fine _ _ _ HD) in Ea.
  - destruct s as [c|]; [|injection E as <- <-; now split]. apply HU in E; [exact E|exact Hs|]. clear E. intros c' x E.
    unfold siwe_login in E. destruct (eth_address_new D a) as [[ad|er]|w] eqn:Ea; cbn [obind] in E; [| |discriminate].
    2: { injection E as <- <-. split; [exact Hs|]. now apply (address_new_fine _ _ _ HD) in Ea. }
    destruct (eth_signature_new sg) as [[sgn|er]|w] eqn:Es; cbn [obind] in E; [| |discriminate].
    2: { injection E as <- <-. split; [exact Hs|]. now apply signature_new_fine in Es. }
    destruct (login D now cid (c_lib c) (c_sigs c) sgn ad sk n) as [[[lib sigs] lr]|w] eqn:El; cbn [obind] in E; [|discriminate].
    assert (ls_settings lib = ls_settings (c_lib c) /\
            match lr with Ok d => ld_expiration d <= u64_max | Err er => utf8_text (show_login_error er) end) as [Hl Hr].
    { clear - El HE. unfold login in El.
      destruct (msgs_get _ _ _ _) as [[m|er]|w]; cbn [obind] in El; [| |discriminate].
      2: { injection El as <- <- <-. split; [reflexivity|]. apply plain_utf8. unfold show_login_error, show_siwe_error. plainly. }
      destruct (siwe_to_string m) as [t|w]; cbn [obind] in El; [|discriminate].
      destruct (verify_signature D t sgn ad) as [v|w] eqn:Ev; cbn [obind] in El; [|discriminate].
      destruct (msgs_remove _ _ _ _) as [ms|w]; cbn [obind] in El; [|discriminate].
      destruct v as [u|er].
      2: { injection El as <- <- <-. split; [reflexivity|]. unfold verify_signature in Ev.
           destruct (recover_eth_address D t sgn) as [[x|e2]|w] eqn:Er; cbn [obind] in Ev; [| |discriminate].
           - destruct (bytes_eqb _ _); [discriminate|]. injection Ev as <-. apply plain_utf8. cbn [show_login_error]. plainly.
           - injection Ev as <-. now apply recover_fine in Er. }
      destruct (with_settings _ _) as [x|w] eqn:Ex; cbn [obind] in El; [|discriminate].
      destruct (generate_seed _ _ _) as [sd|w]; cbn [obind] in El; [|discriminate].
      destruct (sm_prune_expired _ _ _ _) as [[sm k]|w]; cbn [obind] in El; [|discriminate].
      destruct (create_delegation D _ sk x) as [cr|w] eqn:Ec; cbn [obind] in El; [|discriminate].
      pose proof (create_fine _ _ _ _ _ HE Ec) as Hc. destruct cr as [d|er].
      - destruct (create_delegation_hash _ _) as [dh|w]; cbn [obind] in El; [|discriminate].
        destruct (sm_put _ _ _ _ _) as [sm'|w]; cbn [obind] in El; [|discriminate]. injection El as <- <- <-.
        split; [reflexivity|]. cbn [ld_expiration]. unfold with_settings in Ex. destruct (ls_settings (c_lib c)); [|discriminate].
        injection Ex as <-. apply sat_add_le.
      - injection El as <- <- <-. split; [reflexivity|exact Hc]. }
    destruct lr as [d|er]; cbn [obind] in E.
    + destruct (addr_as_byte_array ad) as [ab|w]; cbn [obind] in E; [|discriminate]. injection E as <- <-.
      split; [|exact Hr]. cbn [state_fine manage_mappings c_lib]. rewrite Hl. exact Hs.
    + injection E as <- <-. split; [|exact Hr]. cbn [state_fine c_lib]. rewrite Hl. exact Hs.
  - destruct s as [c|]; [|injection E as <- <-; now split]. apply HQ in E; [exact E|exact Hs|]. clear E. intros x E.
    unfold siwe_get_delegation in E. destruct cert as [cert|]; [|discriminate].
    destruct (eth_address_new D a) as [[ad|er]|w] eqn:Ea; cbn [obind] in E; [| |discriminate].
    2: { injection E as <-. now apply (address_new_fine _ _ _ HD) in Ea. }
    destruct (generate_seed _ _ _) as [sd|w]; cbn [obind] in E; [|discriminate].
    destruct (create_delegation D _ sk e) as [cr|w] eqn:Ec; cbn [obind] in E; [|discriminate].
    pose proof (create_fine _ _ _ _ _ HE Ec) as Hc. destruct cr as [d|er]; [|injection E as <-; exact Hc].
    destruct (create_delegation_hash _ _) as [dh|w]; cbn [obind] in E; [|discriminate].
    pose proof (witness_fine D now (c_sigs c) sd dh) as Hw. destruct (witness D now (c_sigs c) sd dh) as [h|er]; injection E as <-; [|exact Hw].
    cbn. destruct Hc as (-> & st & Est & ->). split; [exact Ho|]. cbn [state_fine] in Hs. rewrite Est in Hs. exact (sf_targets _ Hs).
  - destruct s as [c|]; [|injection E as <- <-; now split]. apply HQ in E; [exact E|exact Hs|]. intros x Ex. now apply get_address_fine in Ex.
  - destruct s as [c|]; [|injection E as <- <-; now split]. apply HQ in E; [exact E|exact Hs|]. intros x Ex. unfold get_caller_address in Ex.
    destruct (disable_principal_to_eth _); [injection Ex as <-; apply plain_utf8; plainly|]. now apply get_address_fine in Ex.
  - destruct s as [c|]; [|injection E as <- <-; now split]. apply HQ in E; [exact E|exact Hs|]. intros x Ex. unfold get_principal in Ex.
    destruct (disable_eth_to_principal _); [injection Ex as <-; apply plain_utf8; plainly|].
    destruct (eth_address_new D a) as [[ad|er]|w] eqn:Ea; cbn [obind] in Ex; [| |discriminate].
    + destruct (addr_as_byte_array ad) as [ab|w]; cbn [obind] in Ex; [|discriminate]. injection Ex as <-.
      destruct (c_address_principal c !! ab); [exact I|]. apply plain_utf8. plainly.
    + injection Ex as <-. now apply (address_new_fine _ _ _ HD) in Ea.
Qed.

Theorem calls_fine D cid q tr s : deps_ok D -> der_texts D -> calls D cid q tr s ->
  state_fine s /\ Forall (fun e => reply_texts (ce_reply e)) tr.
Proof.
  intros HD HE H. induction H as [|tr s now c s' r H [IH1 IH2] Ht Hn Hseed Hs]; [repeat constructor|].
  assert (state_fine s' /\ reply_texts r) as [H1 H2].
  { unfold call_step in Hs. destruct (call_op q c) as [o|] eqn:Eo; [|injection Hs as <- <-; now split].
    assert (op_wf o /\ Forall utf8_text (op_texts o)) as [Ho Hu].
    { destruct c as [m caller cert msg|seed]; cbn [call_op] in Eo.
      - now apply op_of_sound in Eo as (_ & ? & ?).
      - apply (inj Some) in Eo as <-. split; [destruct seed; exact Hseed|constructor]. }
    eapply step_fine; eauto. }
  split; [exact H1|]. apply List.Forall_app. split; [exact IH2|]. now repeat constructor.
Qed.

(** ** Lengths: a reply of less than 2^64 bytes has no part that is longer *)

Lemma put_bytes_len b : blen b <= blen (put_bytes b).
Proof. unfold put_bytes. rewrite blen_app. lia. Qed.
Lemma put_list_count {A} (f : A -> bytes) l : (forall a, 1 <= blen (f a)) -> N.of_nat (length l) <= blen (put_list f l).
Proof.
  intros Hf. unfold put_list. rewrite blen_app. enough (N.of_nat (length l) <= blen (concat (map f l))) by lia.
  induction l as [|a l IH]; cbn [map concat length]; [cbn; lia|]. rewrite blen_app. specialize (Hf a). lia.
Qed.

Theorem reply_fine_of r out : reply_texts r -> put_reply r = Some out -> blen out < two64 -> reply_fine r.
Proof.
  intros H E L. destruct r as [w| |r|r|r|r|r]; cbn [put_reply] in E; try discriminate; apply (inj Some) in E as <-;
    rewrite blen_app in L; destruct r as [a|e]; cbn [put_result reply_fine reply_texts result_fine result_texts] in *;
    rewrite !blen_app in L; unfold text_fine; try (split; [exact H|pose proof (put_bytes_len e); lia]).
  - destruct H. pose proof (put_bytes_len (fst a)). pose proof (put_bytes_len (snd a)). repeat split; try assumption; lia.
  - pose proof (put_bytes_len (ld_pubkey a)). split; [lia|]. unfold u64_max, two64 in *. lia.
  - destruct H as [H1 H2]. pose proof (put_bytes_len (sd_signature a)). pose proof (put_bytes_len (dl_pubkey (sd_delegation a))).
    split; [lia|]. split; [lia|]. split; [unfold u64_max, two64 in *; lia|].
    destruct (dl_targets (sd_delegation a)) as [l|]; [|exact I]. split; [|exact H2].
    cbn [put_targets] in L. pose proof (put_list_count put_principal l) as Hc.
    assert (N.of_nat (length l) <= blen (put_list put_principal l)) as Hl.
    { apply Hc. intros p. unfold put_principal, blen. cbn [length]. lia. }
    change (x01 :: put_list put_principal l) with ([x01] ++ put_list put_principal l) in L. rewrite blen_app in L. lia.
  - pose proof (put_bytes_len a). split; [exact H|]. lia.
  - pose proof (put_bytes_len a). lia.
Qed.
