(** Arguments, configurations and replies at the interface. *)
From Coq Require Import Strings.String.
From Verif Require Import Base BaseLemmas Deps Eth Settings Delegation Login Provider SpecHash HashProofs
  Candid SpecCandid CandidBase CandidHeader CandidProofs CandidMessages Interface SpecInterface.
Local Open Scope N_scope.

(** ** Names *)

Lemma idl_hash_from l : forall h, fold_left (fun h c => (h * 223 + nb c) mod 4294967296) l h =
  match l with [] => h | _ => (h * 223 ^ N.of_nat (length l) + name_sum l) mod two32 end.
Proof.
  induction l as [|c l IH]; intros h; [reflexivity|]. cbn [fold_left name_sum length]. rewrite IH.
  rewrite Nat2N.inj_succ, N.pow_succ_r'. change 4294967296 with two32. destruct l as [|d l].
  - cbn [length N.of_nat name_sum]. rewrite N.pow_0_r. f_equal. lia.
  - set (p := 223 ^ N.of_nat (length (d :: l))). set (s := name_sum (d :: l)).
    rewrite <- N.add_mod_idemp_l by easy. rewrite N.mul_mod_idemp_l by easy. rewrite N.add_mod_idemp_l by easy.
    f_equal. lia.
Qed.
Lemma idl_hash_is s : idl_hash (bs s) = name_id s.
Proof.
  unfold idl_hash, name_id. rewrite idl_hash_from. destruct (bs s); [reflexivity|]. now rewrite N.mul_0_l, N.add_0_l.
Qed.

Lemma settings_ordered : ordered settings_type.
Proof. vm_compute. repeat split. Qed.

(** ** Configurations *)

Lemma part_text p : match p with Some (c, v) => coerce XText c v | None => absent_val XText end = option_map VText (as_text p).
Proof. destruct p as [[[[]| | | |] []]|]; reflexivity. Qed.

Definition good_part {A} (t : xty) (g : A -> xval) (f : part -> option A) : Prop :=
  nullable t = false /\ f None = None /\ (forall c v, coerce t c v = option_map g (f (Some (c, v)))) /\
  (forall c v, f (Some (COpt c, v)) = None) /\ (forall v, f (Some (CPrim PNull, v)) = None) /\
  (forall v, f (Some (CPrim PReserved, v)) = None).

Lemma part_opt {A} t (g : A -> xval) f p : good_part t g f ->
  match p with Some (c, v) => coerce (XOpt t) c v | None => absent_val (XOpt t) end =
  Some (VOpt (option_map g (given f p))).
Proof.
  intros (Hn & H0 & H1 & H2 & H3 & H4). destruct p as [[c v]|]; [|cbn; now rewrite H0].
  cbn [coerce]. rewrite Hn. destruct c as [p|c|c|fs|fs]; cbn [given]; try now rewrite H1.
  - destruct p; rewrite ?H3, ?H4; try reflexivity; now rewrite H1.
  - destruct v as [ | | | | | |[v|]| | |]; try reflexivity; rewrite H1, ?H2; reflexivity.
Qed.

Lemma good_text : good_part XText VText as_text.
Proof. repeat split; intros; try reflexivity. destruct c as [[]| | | |], v; reflexivity. Qed.
Lemma good_nat32 : good_part XNat32 VNat as_nat32.
Proof. repeat split; intros; try reflexivity. destruct c as [[]| | | |], v; reflexivity. Qed.
Lemma good_nat64 : good_part XNat64 VNat as_nat64.
Proof. repeat split; intros; try reflexivity. destruct c as [[]| | | |], v; reflexivity. Qed.
Lemma good_vec {A} t (g : A -> xval) f : (forall c v, coerce t c v = option_map g (f (Some (c, v)))) ->
  good_part (XVec t) (fun l => VVec (map g l)) (as_vec f).
Proof.
  intros H. repeat split; intros; try reflexivity. destruct c as [p|c|c|fs|fs]; try reflexivity.
  destruct v as [ | | | | | | |l| |]; try reflexivity. rewrite coerce_vec. cbn [as_vec].
  assert (coerce_all t c l = option_map (map g) (mapM (fun v => f (Some (c, v))) l)) as ->.
  { induction l as [|v l IH]; [reflexivity|]. cbn [coerce_all mapM]. rewrite H, IH.
    destruct (f (Some (c, v))); [|reflexivity]. cbn. now destruct (mapM _ l). }
  now destruct (mapM _ l).
Qed.

Definition feature_val (f : provider_feature) : xval :=
  VVariant (match f with
            | PF_IncludeUriInSeed => name_id "IncludeUriInSeed"
            | PF_DisableEthToPrincipalMapping => name_id "DisableEthToPrincipalMapping"
            | PF_DisablePrincipalToEthMapping => name_id "DisablePrincipalToEthMapping"
            end) VNull.
Lemma coerce_feature c v : coerce feature_type c v = option_map feature_val (as_feature (Some (c, v))).
Proof.
  destruct c as [p|c|c|fs|fs]; try reflexivity. destruct v as [ | | | | | | | | |k v]; try reflexivity.
  cbn [as_feature]. destruct (nth_error fs k) as [[id c]|] eqn:E; [|cbn [coerce feature_type]; now rewrite E].
  unfold feature_type. rewrite (coerce_variant _ fs k v id c) by exact E.
  unfold fld. cbn [coerce_pick]. rewrite !idl_hash_is, !(N.eqb_sym _ id).
  destruct (id =? name_id "IncludeUriInSeed") eqn:E1; [apply N.eqb_eq in E1 as ->; now destruct c as [[]| | | |]|].
  destruct (id =? name_id "DisableEthToPrincipalMapping") eqn:E2; [apply N.eqb_eq in E2 as ->; now destruct c as [[]| | | |]|].
  destruct (id =? name_id "DisablePrincipalToEthMapping") eqn:E3; [apply N.eqb_eq in E3 as ->; now destruct c as [[]| | | |]|].
  now destruct c as [[]| | | |].
Qed.
Lemma feature_of_val f : feature_of (feature_val f) = Some f.
Proof. destruct f; reflexivity. Qed.

Lemma opt_of_map {A} (g : A -> xval) (h : xval -> option A) o : (forall a, h (g a) = Some a) ->
  opt_of h (VOpt (option_map g o)) = Some o.
Proof. intros H. destruct o; cbn; [now rewrite H|reflexivity]. Qed.
Lemma vec_of_map {A} (g : A -> xval) (h : xval -> option A) l : (forall a, h (g a) = Some a) ->
  vec_of h (VVec (map g l)) = Some l.
Proof. intros H. cbn. induction l as [|a l IH]; [reflexivity|]. cbn. now rewrite H, IH. Qed.

Theorem settings_delivered c v :
  coerce settings_type c v ≫= input_of = configuration c v.
Proof.
  destruct c as [p|c|c|fs|fs]; try reflexivity. destruct v as [ | | | | | | | |vs|]; try reflexivity.
  unfold settings_type. rewrite coerce_record. unfold configuration, fld. rewrite !idl_hash_is.
  cbn [coerce_fields]. cbv zeta.
  rewrite !part_text. rewrite !(part_opt _ _ _ _ good_text), !(part_opt _ _ _ _ good_nat64), (part_opt _ _ _ _ good_nat32).
  rewrite (part_opt _ _ _ _ (good_vec _ _ _ coerce_feature)).
  rewrite (part_opt _ _ _ _ (good_vec XText VText as_text (proj1 (proj2 (proj2 good_text))))).
  destruct (as_text (field (name_id "uri") fs vs)) as [uri|]; [|cbn [option_map]; now destruct (as_text _)].
  destruct (as_text (field (name_id "domain") fs vs)) as [domain|]; [|reflexivity].
  destruct (as_text (field (name_id "salt") fs vs)) as [salt|]; [|reflexivity].
  cbn [option_map]. unfold mbind, option_bind, input_of. cbn [text_of].
  rewrite !(opt_of_map VText text_of) by reflexivity. rewrite !(opt_of_map VNat nat_of) by reflexivity.
  rewrite (opt_of_map _ (vec_of text_of)) by (intros l; now apply vec_of_map).
  rewrite (opt_of_map _ (vec_of feature_of)) by (intros l; apply vec_of_map, feature_of_val). reflexivity.
Qed.

Theorem config_arrives q msg c cs v vs caller cert : carries q msg (c :: cs) (v :: vs) ->
  op_of q MInit caller cert msg = option_map Install (configuration c v) /\
  op_of q MPostUpgrade caller cert msg = option_map Upgrade (configuration c v).
Proof.
  intros H. unfold op_of, arg_types. rewrite (message_delivers _ _ _ _ _ H) by (repeat constructor; apply settings_ordered).
  cbn [coerce_args]. rewrite <- settings_delivered. destruct (coerce settings_type c v) as [x|]; split; reflexivity.
Qed.

Definition without_chain (i : SettingsInput) : SettingsInput :=
  mkInput (in_domain i) (in_uri i) (in_salt i) None (in_scheme i) (in_statement i) (in_sign_in_expires_in i)
    (in_session_expires_in i) (in_targets i) (in_features i).

Section lookups.
  Context (p : prim) (uri features domain statement scheme salt session targets chain sign_in : cval).
  Let fs := match settings_of p with CRecord fs => fs | _ => [] end.
  Let vs := [uri; features; domain; statement; scheme; salt; session; targets; chain; sign_in].
  Lemma get_uri : field (name_id "uri") fs vs = Some (did_text, uri).
  Proof. reflexivity. Qed.
  Lemma get_features : field (name_id "runtime_features") fs vs = Some (COpt (CVec did_feature), features).
  Proof. reflexivity. Qed.
  Lemma get_domain : field (name_id "domain") fs vs = Some (did_text, domain).
  Proof. reflexivity. Qed.
  Lemma get_statement : field (name_id "statement") fs vs = Some (COpt did_text, statement).
  Proof. reflexivity. Qed.
  Lemma get_scheme : field (name_id "scheme") fs vs = Some (COpt did_text, scheme).
  Proof. reflexivity. Qed.
  Lemma get_salt : field (name_id "salt") fs vs = Some (did_text, salt).
  Proof. reflexivity. Qed.
  Lemma get_session : field (name_id "session_expires_in") fs vs = Some (COpt (CPrim PNat64), session).
  Proof. reflexivity. Qed.
  Lemma get_targets : field (name_id "targets") fs vs = Some (COpt (CVec did_text), targets).
  Proof. reflexivity. Qed.
  Lemma get_chain : field (name_id "chain_id") fs vs = Some (COpt (CPrim p), chain).
  Proof. reflexivity. Qed.
  Lemma get_sign_in : field (name_id "sign_in_expires_in") fs vs = Some (COpt (CPrim PNat64), sign_in).
  Proof. reflexivity. Qed.
End lookups.

Lemma mapM_back {A} (u : A -> cval) (f : cval -> option A) l : (forall a, f (u a) = Some a) -> mapM f (map u l) = Some l.
Proof. intros H. induction l as [|a l IH]; [reflexivity|]. cbn [map mapM]. rewrite H. cbn. now rewrite IH. Qed.

Lemma configuration_is p i : configuration (settings_of p) (usettings i) =
  Some (mkInput (in_domain i) (in_uri i) (in_salt i) (given as_nat32 (Some (COpt (CPrim p), uopt UNat (in_chain_id i))))
    (in_scheme i) (in_statement i) (in_sign_in_expires_in i)
    (in_session_expires_in i) (in_targets i) (in_features i)).
Proof.
  unfold usettings, configuration, settings_of. cbv zeta beta.
  pose proof (get_uri p) as G1. pose proof (get_features p) as G2. pose proof (get_domain p) as G3.
  pose proof (get_statement p) as G4. pose proof (get_scheme p) as G5. pose proof (get_salt p) as G6.
  pose proof (get_session p) as G7. pose proof (get_targets p) as G8. pose proof (get_chain p) as G9. pose proof (get_sign_in p) as G10.
  unfold settings_of in *. cbv beta iota zeta in *.
  rewrite G1, G2, G3, G4, G5, G6, G7, G8, G9, G10. unfold did_text, uopt. cbn [as_text]. f_equal. f_equal.
  - now destruct (in_scheme i).
  - now destruct (in_statement i).
  - now destruct (in_sign_in_expires_in i).
  - now destruct (in_session_expires_in i).
  - destruct (in_targets i) as [l|]; [|reflexivity]. cbn [option_map given as_vec]. now rewrite (mapM_back UText).
  - destruct (in_features i) as [l|]; [|reflexivity]. cbn [option_map given as_vec].
    rewrite (mapM_back ufeature); [reflexivity|]. intros []; reflexivity.
Qed.

(** ** Requests *)

Lemma map_ublob b : map byte_val (map (fun c => UNat (nb c)) b) = b.
Proof. induction b as [|c b IH]; [reflexivity|]. cbn [map byte_val]. now rewrite ch_nb, IH. Qed.

Theorem request_arrives q msg o m caller cert : is_call o m caller cert -> m <> MInit -> m <> MPostUpgrade ->
  carries q msg (did_args m) (op_args o) -> op_of q m caller cert msg = Some o.
Proof.
  intros Ho H1 H2 H. unfold op_of.
  destruct o, m; cbn [is_call] in Ho; try contradiction; try congruence; cbn [arg_types];
    (erewrite message_delivers; [|exact H|repeat constructor]);
    cbn [did_args op_args coerce_args coerce did_text did_blob ublob]; rewrite ?map_ublob; subst; reflexivity.
Qed.

(** Whatever is accepted is in range. *)
Lemma fits_opt_le t v n m : fits (XOpt t) v -> (forall x k, fits t x -> nat_of x = Some k -> k <= m) ->
  opt_of nat_of v = Some n -> opt_le n m.
Proof.
  intros Hf Ht H. inversion Hf; subst; cbn [opt_of] in H.
  - apply (inj Some) in H as <-. exact I.
  - match type of H with context [nat_of ?x] => destruct (nat_of x) eqn:E end; [|discriminate].
    apply (inj Some) in H as <-. cbn. eauto.
Qed.
Lemma fits_opt_text v o : fits (XOpt XText) v -> opt_of text_of v = Some o -> Forall utf8_text (option_list o).
Proof.
  intros Hf H. inversion Hf as [| | | | | | |t v' Hv| | |]; subst; cbn [opt_of] in H.
  - apply (inj Some) in H as <-. constructor.
  - inversion Hv; subst. cbn in H. apply (inj Some) in H as <-. repeat constructor. assumption.
Qed.
Lemma fits_opt_texts v o : fits (XOpt (XVec XText)) v -> opt_of (vec_of text_of) v = Some o -> Forall utf8_text (default [] o).
Proof.
  intros Hf H. inversion Hf as [| | | | | | |t v' Hv| | |]; subst; cbn [opt_of] in H.
  - apply (inj Some) in H as <-. constructor.
  - inversion Hv as [| | | | | | | |t vs Hvs| |]; subst. cbn [vec_of] in H.
    destruct (all_of text_of vs) as [l|] eqn:E; [|discriminate]. apply (inj Some) in H as <-. cbn [default].
    clear Hf Hv. revert l E. induction Hvs as [|x vs Hx Hvs IH]; intros l E; cbn [all_of] in E.
    + apply (inj Some) in E as <-. constructor.
    + inversion Hx; subst. cbn [text_of] in E. destruct (all_of text_of vs) as [l'|]; [|discriminate].
      apply (inj Some) in E as <-. constructor; [assumption|]. now apply IH.
Qed.

Lemma input_fits v i : fits settings_type v -> input_of v = Some i ->
  input_wf i /\ Forall utf8_text (op_texts (Install i)).
Proof.
  intros Hf H. inversion Hf as [| | | | | | | | |fs vs Hvs|]; subst. unfold settings_type in *.
  repeat match goal with H : Forall2 _ (_ :: _) _ |- _ => inversion H; clear H; subst
                       | H : Forall2 _ [] _ |- _ => inversion H; clear H; subst end.
  cbn [fld snd] in *. cbn [input_of] in H.
  repeat match type of H with match ?e with Some _ => _ | None => _ end = _ => let E := fresh "E" in destruct e eqn:E; [|discriminate] end.
  apply (inj Some) in H as <-. cbn [input_wf op_texts in_chain_id in_sign_in_expires_in in_session_expires_in in_domain in_uri in_salt in_scheme in_statement in_targets].
  assert (forall m x k, fits XNat32 x -> nat_of x = Some k -> u32_max <= m -> k <= m) as H32.
  { intros m x k Hx Hk Hm. inversion Hx; subst. cbn in Hk. apply (inj Some) in Hk as <-. unfold two32, u32_max in *. lia. }
  assert (forall x k, fits XNat64 x -> nat_of x = Some k -> k <= u64_max) as H64.
  { intros x k Hx Hk. inversion Hx; subst. cbn in Hk. apply (inj Some) in Hk as <-. unfold two64, u64_max in *. lia. }
  assert (forall x b, fits XText x -> text_of x = Some b -> utf8_text b) as HT.
  { intros x b Hx Hb. inversion Hx; subst. cbn in Hb. now apply (inj Some) in Hb as <-. }
  split.
  - repeat split.
    + eapply fits_opt_le; cycle 2; [exact E2|eassumption|]. intros x k Hx Hk. eapply H32; [eassumption|eassumption|lia].
    + eapply fits_opt_le; cycle 2; [exact E5|eassumption|exact H64].
    + eapply fits_opt_le; cycle 2; [exact E6|eassumption|exact H64].
  - rewrite !List.Forall_app. split; [|split; [|split]].
    + apply List.Forall_cons; [|apply List.Forall_cons; [|apply List.Forall_cons; [|apply List.Forall_nil]]].
      * eapply HT; [|exact E]; assumption.
      * eapply HT; [|exact E0]; assumption.
      * eapply HT; [|exact E1]; assumption.
    + eapply fits_opt_text; [|exact E3]; assumption.
    + eapply fits_opt_text; [|exact E4]; assumption.
    + eapply fits_opt_texts; [|exact E7]; assumption.
Qed.

Theorem op_of_sound q m caller cert msg o : op_of q m caller cert msg = Some o ->
  is_call o m caller cert /\ op_wf o /\ Forall utf8_text (op_texts o).
Proof.
  unfold op_of. intros H. assert (exists xs, decode_args q (arg_types m) msg = Some xs) as [xs E].
  { destruct m; match type of H with context [decode_args ?a ?b ?c] => destruct (decode_args a b c) end; eauto; discriminate. }
  destruct m; rewrite E in H; apply message_sound in E; cbn [arg_types] in E;
    repeat match goal with H : Forall2 _ (_ :: _) _ |- _ => inversion H; clear H; subst
                         | H : Forall2 _ [] _ |- _ => inversion H; clear H; subst end.
  - destruct (input_of y) as [i|] eqn:Ei; [|discriminate]. cbn in H. apply (inj Some) in H as <-.
    destruct (input_fits y i) as [Hw Ht]; try assumption. split; [exact I|]. split; assumption.
  - destruct (input_of y) as [i|] eqn:Ei; [|discriminate]. cbn in H. apply (inj Some) in H as <-.
    destruct (input_fits y i) as [Hw Ht]; try assumption. split; [exact I|]. split; assumption.
  - inversion H2; subst. apply (inj Some) in H as <-. cbn; auto 10.
  - repeat match goal with H : fits _ _ |- _ => inversion H; clear H; subst end.
    apply (inj Some) in H as <-. cbn; auto 10.
  - repeat match goal with H : fits _ _ |- _ => inversion H; clear H; subst end.
    apply (inj Some) in H as <-. cbn. unfold two64, u64_max in *. split; [reflexivity|]. split; [lia|auto 10].
  - repeat match goal with H : fits _ _ |- _ => inversion H; clear H; subst end.
    apply (inj Some) in H as <-. cbn; auto 10.
  - apply (inj Some) in H as <-. cbn; auto 10.
  - repeat match goal with H : fits _ _ |- _ => inversion H; clear H; subst end.
    apply (inj Some) in H as <-. cbn; auto 10.
Qed.

(** Histories of messages are histories of calls. *)
Definition decoded (q : nat) (e : call_event) : option event :=
  match call_op q (ce_call e) with Some o => Some (mkEvent (ce_time e) o (ce_reply e)) | None => None end.

Theorem calls_exec D cid q tr s : calls D cid q tr s -> exec D cid (omap (decoded q) tr) s.
Proof.
  induction 1 as [|tr s now c s' r H IH Ht Hn Hc Hs]; [constructor|].
  rewrite omap_app. cbn [omap list_omap]. unfold decoded at 2. cbn [ce_call ce_time ce_reply].
  unfold call_step in Hs. destruct (call_op q c) as [o|] eqn:E.
  - cbn. econstructor; [exact IH| |exact Hn| |exact Hs].
    + apply List.Forall_forall. intros e He. apply elem_of_list_In, elem_of_list_omap in He as (ce & Hce & Hd).
      rewrite List.Forall_forall in Ht. apply elem_of_list_In, Ht in Hce. unfold decoded in Hd.
      destruct (call_op q (ce_call ce)); [|discriminate]. apply (inj Some) in Hd as <-. exact Hce.
    + destruct c as [m caller cert msg|seed]; cbn [call_op] in E.
      * now apply op_of_sound in E.
      * apply (inj Some) in E as <-. exact Hc.
  - injection Hs as <- _. cbn. rewrite app_nil_r. exact IH.
Qed.
