(** Replies and the client's messages: they carry what the interface declares, and the client
    reads back what the canister replied. *)
From Coq Require Import Strings.String.
From Verif Require Import Base BaseLemmas Deps Eth Settings Delegation Login Provider SpecHash HashProofs
  Candid SpecCandid CandidBase CandidHeader CandidProofs CandidMessages Interface SpecInterface InterfaceProofs.
Local Open Scope N_scope.

(** ** Encoders *)

Lemma enc_put_text b : text_fine b -> enc did_text (UText b) (put_bytes b).
Proof. intros [H1 H2]. unfold put_bytes. now apply enc_text, leb_count. Qed.
Lemma enc_nat8s b : enc_all (CPrim PNat8) (map (fun c => UNat (nb c)) b) b.
Proof.
  induction b as [|c b IH]; cbn [map]; [constructor|]. change (c :: b) with ([c] ++ b). constructor; [|exact IH].
  replace [c] with (le_digits (N.to_nat 1) (nb c)).
  - now apply enc_word; [|apply nb_lt].
  - change (N.to_nat 1) with 1%nat. cbn [le_digits]. rewrite N.mod_small by apply nb_lt. now rewrite ch_nb.
Qed.
Lemma enc_put_blob b : blen b < two64 -> enc did_blob (ublob b) (put_bytes b).
Proof.
  intros H. unfold put_bytes, did_blob, ublob. apply enc_vec; rewrite ?map_length; [now apply leb_count|apply enc_nat8s].
Qed.
Lemma enc_put_nat64 n : n < two64 -> enc (CPrim PNat64) (UNat n) (put_le 8 n).
Proof. intros H. rewrite put_le_digits. now apply (enc_word PNat64 8). Qed.
Lemma enc_put_targets o :
  match o with None => True | Some l => N.of_nat (length l) < two64 /\ Forall (fun p => blen p <= 29) l end ->
  enc (COpt (CVec (CPrim PPrincipal))) (uopt (fun l => UVec (map UPrincipal l)) o) (put_targets o).
Proof.
  destruct o as [l|]; cbn [put_targets uopt option_map]; [|intros _; apply enc_none].
  intros [Hl Hp]. apply enc_some. unfold put_list. apply enc_vec; rewrite ?map_length; [now apply leb_count|].
  clear Hl. induction Hp as [|p l Hp _ IH]; cbn [map concat]; [constructor|]. constructor; [|exact IH].
  unfold put_principal, put_bytes. apply enc_principal; [assumption|apply leb_count; unfold two64; lia].
Qed.
Lemma enc_response {A} c (u : A -> cval) (put : A -> bytes) (fine : A -> Prop) r :
  (forall a, fine a -> enc c (u a) (put a)) -> result_fine fine r ->
  enc (did_response c) (uresult u r) (put_result put r).
Proof.
  intros H Hr. destruct r as [a|e]; cbn [uresult put_result result_fine] in *.
  - change 0%nat with 0%nat. eapply enc_variant; [reflexivity|now apply leb_count|now apply H].
  - eapply enc_variant; [reflexivity|now apply leb_count|now apply enc_put_text].
Qed.
Lemma enc_fields_1 id c v b : enc c v b -> enc_fields [(id, c)] [v] b.
Proof. intros H. rewrite <- (app_nil_r b). repeat constructor; assumption. Qed.
Lemma enc_args_1 c v b : enc c v b -> enc_args [c] [v] b.
Proof. intros H. rewrite <- (app_nil_r b). repeat constructor; assumption. Qed.

Ltac entry_fine := cbn [entry_in ref_in fst snd fld];
  first [exact I | reflexivity
        | split; [cbn [rising fld]; repeat split; vm_compute; reflexivity|split; [reflexivity|]];
          repeat first [apply List.Forall_nil | apply List.Forall_cons; [split; cbn [fst snd ref_in]; first [exact I|vm_compute; reflexivity]|]]].
Ltac header_fine := split; [reflexivity|split; [reflexivity|]];
  split; repeat first [apply List.Forall_nil | apply List.Forall_cons; [entry_fine|]].
Ltac stand := vm_compute; repeat first [apply stands_prim | eapply stands_opt; [reflexivity|] | eapply stands_vec; [reflexivity|]
  | eapply stands_record; [reflexivity|] | eapply stands_variant; [reflexivity|] | apply stands_nil | apply stands_cons].

Theorem reply_carries q m r msg : reply_for m r -> reply_fine r -> (6 <= q)%nat -> put_reply r = Some msg ->
  carries q msg (did_results m) (reply_vals r).
Proof.
  intros Hm Hf Hq E.
  assert (forall h c v b, header_ok h -> stands (h_table h) (Var 0) c -> h_args h = [Var 0] -> enc c v b -> (depth c <= 6)%nat ->
    msg = put_header h ++ b -> carries q msg [c] [v]) as K.
  { intros h c v b Hh Hs Ha Hb Hd ->. exists h, (put_header h), b. split; [now apply put_header_w|]. rewrite Ha. split; [now constructor|].
    split; [now apply enc_args_1|]. split; [constructor; [lia|constructor]|reflexivity]. }
  destruct r as [w| |r|r|r|r|r], m; cbn [reply_for] in Hm; try contradiction;
    cbn [put_reply] in E; apply (inj Some) in E; cbn [did_results reply_vals].
  - apply (K prepare_header _ _ _) with (6 := eq_sym E); [header_fine|stand|reflexivity| |vm_compute; lia].
    eapply enc_response; [|exact Hf]. intros [t n] [H1 H2]. cbn [fst snd] in *. apply enc_record.
    constructor; [now apply enc_put_text|apply enc_fields_1; now apply enc_put_text].
  - apply (K login_header _ _ _) with (6 := eq_sym E); [header_fine|stand|reflexivity| |vm_compute; lia].
    eapply enc_response; [|exact Hf]. intros d [H1 H2]. apply enc_record.
    constructor; [now apply enc_put_blob|apply enc_fields_1; now apply enc_put_nat64].
  - apply (K delegation_header _ _ _) with (6 := eq_sym E); [header_fine|stand|reflexivity| |vm_compute; lia].
    eapply enc_response; [|exact Hf]. intros d (H1 & H2 & H3 & H4). apply enc_record.
    constructor; [now apply enc_put_blob|apply enc_fields_1]. apply enc_record.
    constructor; [now apply enc_put_blob|]. constructor; [now apply enc_put_targets|]. apply enc_fields_1. now apply enc_put_nat64.
  - apply (K address_header _ _ _) with (6 := eq_sym E); [header_fine|stand|reflexivity| |vm_compute; lia].
    eapply enc_response; [|exact Hf]. intros a Ha. now apply enc_put_text.
  - apply (K address_header _ _ _) with (6 := eq_sym E); [header_fine|stand|reflexivity| |vm_compute; lia].
    eapply enc_response; [|exact Hf]. intros a Ha. now apply enc_put_text.
  - apply (K principal_header _ _ _) with (6 := eq_sym E); [header_fine|stand|reflexivity| |vm_compute; lia].
    eapply enc_response; [|exact Hf]. intros a Ha. now apply enc_put_blob.
Qed.

(** ** Reading replies *)

Lemma coerce_response ok c {A} (u : A -> cval) (f : xval -> option A) (g : A -> xval) r :
  (forall a, coerce ok c (u a) = Some (g a)) -> (forall a, f (g a) = Some a) ->
  coerce (js_result ok) (did_response c) (uresult u r) ≫= result_of f = Some r.
Proof.
  intros H1 H2. unfold js_result, did_response. destruct r as [a|e]; cbn [uresult].
  - rewrite (coerce_variant _ _ 0 (u a) (name_id "Ok") c) by reflexivity.
    unfold fld. cbn [coerce_pick]. rewrite idl_hash_is, N.eqb_refl, H1. unfold mbind, option_bind. cbn [result_of].
    now rewrite idl_hash_is, N.eqb_refl, H2.
  - rewrite (coerce_variant _ _ 1 (UText e) (name_id "Err") did_text) by reflexivity.
    unfold fld. cbn [coerce_pick]. rewrite !idl_hash_is, N.eqb_refl.
    replace (name_id "Ok" =? name_id "Err") with false by reflexivity. unfold mbind, option_bind. cbn [coerce did_text result_of].
    rewrite !idl_hash_is, N.eqb_refl. replace (name_id "Err" =? name_id "Ok") with false by reflexivity. reflexivity.
Qed.

Lemma coerce_principals l : coerce_all XPrincipal (CPrim PPrincipal) (map UPrincipal l) = Some (map VPrincipal l).
Proof. induction l as [|p l IH]; [reflexivity|]. cbn [map coerce_all coerce]. now rewrite IH. Qed.

Lemma coerce_targets (t : option (list bytes)) :
  coerce (XOpt (XVec XPrincipal)) (COpt (CVec (CPrim PPrincipal))) (uopt (fun l => UVec (map UPrincipal l)) t) =
  Some (VOpt (option_map (fun l => VVec (map VPrincipal l)) t)).
Proof.
  destruct t as [l|]; [|reflexivity]. cbn [uopt option_map].
  transitivity (Some (VOpt (coerce (XVec XPrincipal) (CVec (CPrim PPrincipal)) (UVec (map UPrincipal l))))); [reflexivity|].
  rewrite coerce_vec, coerce_principals. reflexivity.
Qed.

Lemma decode_one q t msg c v : carries q msg [c] [v] -> ordered t ->
  decode_args q [t] msg = option_map (fun x => [x]) (coerce t c v).
Proof.
  intros H Ht. rewrite (message_delivers _ _ _ _ _ H) by (now constructor). cbn [coerce_args].
  now destruct (coerce t c v).
Qed.

Theorem reply_read q m r msg : reply_for m r -> reply_fine r -> (6 <= q)%nat -> put_reply r = Some msg ->
  js_read q m msg = Some r.
Proof.
  intros Hm Hf Hq E. pose proof (reply_carries q m r msg Hm Hf Hq E) as H.
  assert (forall {A} t f (R : result A bytes -> reply) c v x, carries q msg [c] [v] -> ordered t -> coerce t c v ≫= result_of f = Some x ->
    match decode_args q [t] msg with Some [v] => option_map R (result_of f v) | _ => None end = Some (R x)) as K.
  { intros A t f R c v x Hc Ht Hx. rewrite (decode_one _ _ _ _ _ Hc Ht). destruct (coerce t c v) as [y|]; [|discriminate].
    cbn [option_map]. unfold mbind, option_bind in Hx. now rewrite Hx. }
  destruct r as [w| |r|r|r|r|r], m; cbn [reply_for] in Hm; try contradiction; cbn [js_read did_results reply_vals] in *.
  - apply (K _ _ _ RPrepare _ _ _ H); [vm_compute; repeat split|].
    apply (coerce_response _ _ _ _ (fun x => VRecord [VText (snd x); VText (fst x)])); [|now intros []].
    intros [t n]. rewrite coerce_record. unfold fld. rewrite !idl_hash_is. reflexivity.
  - apply (K _ _ _ RLogin _ _ _ H); [vm_compute; repeat split|].
    apply (coerce_response _ _ _ _ (fun d => VRecord [VBlob (ld_pubkey d); VNat (ld_expiration d)])); [|now intros []].
    intros [e k]. rewrite coerce_record. unfold fld. rewrite !idl_hash_is. cbn -[name_id]. 
    replace (name_id "user_canister_pubkey" =? name_id "expiration") with false by reflexivity.
    rewrite !N.eqb_refl. cbn. now rewrite map_ublob.
  - apply (K _ _ _ RDelegation _ _ _ H); [vm_compute; repeat split|].
    apply (coerce_response _ _ _ _ (fun s => VRecord [VBlob (sd_signature s);
      VRecord [VBlob (dl_pubkey (sd_delegation s)); VOpt (option_map (fun l => VVec (map VPrincipal l)) (dl_targets (sd_delegation s)));
               VNat (dl_expiration (sd_delegation s))]])).
    + intros [[k e t] s]. rewrite coerce_record. unfold fld. rewrite !idl_hash_is.
      cbn [sd_signature sd_delegation dl_pubkey dl_targets dl_expiration]. unfold did_blob, ublob.
      cbn -[name_id coerce]. replace (name_id "signature" =? name_id "delegation") with false by reflexivity.
      rewrite !N.eqb_refl, coerce_record. cbn -[name_id coerce].
      replace (name_id "pubkey" =? name_id "targets") with false by reflexivity.
      replace (name_id "pubkey" =? name_id "expiration") with false by reflexivity.
      replace (name_id "targets" =? name_id "expiration") with false by reflexivity. rewrite !N.eqb_refl.
      rewrite coerce_targets. cbn [coerce]. now rewrite !map_ublob.
    + intros [[k e t] s]. cbn [signed_of sd_signature sd_delegation dl_pubkey dl_targets dl_expiration].
      destruct t as [l|]; [|reflexivity]. cbn [option_map opt_of vec_of].
      assert (all_of principal_of_val (map VPrincipal l) = Some l) as ->; [|reflexivity].
      induction l as [|p l IH]; [reflexivity|]. cbn [map all_of principal_of_val]. now rewrite IH.
  - apply (K _ _ _ Provider.RText _ _ _ H); [vm_compute; repeat split|]. now apply (coerce_response _ _ _ _ VText).
  - apply (K _ _ _ Provider.RText _ _ _ H); [vm_compute; repeat split|]. now apply (coerce_response _ _ _ _ VText).
  - apply (K _ _ _ Provider.RBlob _ _ _ H); [vm_compute; repeat split|]. apply (coerce_response _ _ _ _ VBlob); [|reflexivity].
    intros b. cbn [coerce did_blob ublob]. now rewrite map_ublob.
Qed.

(** ** The client's messages *)

Theorem js_prepare_carries q a : text_fine a -> (2 <= q)%nat ->
  carries q (js_prepare_login a) (did_args MPrepareLogin) (op_args (PrepareLogin a)).
Proof.
  intros Ha Hq. eexists (mkHeader [] [Prim PText]), _, (put_bytes a). split; [apply put_header_w; header_fine|]. split; [repeat constructor|].
  split; [|split; [repeat constructor; cbn; lia|reflexivity]]. apply enc_args_1. now apply enc_put_text.
Qed.

Theorem js_login_carries q sg a sk n : text_fine sg -> text_fine a -> blen sk < two64 -> text_fine n -> (2 <= q)%nat ->
  carries q (js_login sg a sk n) (did_args MLogin) (op_args (SiweLogin sg a sk n)).
Proof.
  intros H1 H2 H3 H4 Hq. eexists (mkHeader [EVec (Prim PNat8)] [Prim PText; Prim PText; Var 0; Prim PText]), _, (put_bytes sg ++ put_bytes a ++ put_bytes sk ++ put_bytes n).
  split; [apply put_header_w; header_fine|]. split; [cbn [h_args h_table did_args]; repeat (apply List.Forall2_cons; [now stand|]); constructor|].
  split; [|split; [repeat constructor; cbn; lia|reflexivity]].
  cbn [did_args op_args]. constructor; [now apply enc_put_text|]. constructor; [now apply enc_put_text|].
  constructor; [now apply enc_put_blob|]. apply enc_args_1. now apply enc_put_text.
Qed.

Theorem js_get_delegation_carries q cert a sk e : text_fine a -> blen sk < two64 -> e < two64 -> (2 <= q)%nat ->
  carries q (js_get_delegation a sk e) (did_args MGetDelegation) (op_args (GetDelegation cert a sk e)).
Proof.
  intros H1 H2 H3 Hq. eexists (mkHeader [EVec (Prim PNat8)] [Prim PText; Var 0; Prim PNat64]), _, (put_bytes a ++ put_bytes sk ++ put_le 8 e).
  split; [apply put_header_w; header_fine|]. split; [cbn [h_args h_table did_args]; repeat (apply List.Forall2_cons; [now stand|]); constructor|].
  split; [|split; [repeat constructor; cbn; lia|reflexivity]].
  cbn [did_args op_args]. constructor; [now apply enc_put_text|].
  constructor; [now apply enc_put_blob|]. apply enc_args_1. now apply enc_put_nat64.
Qed.

(** ** A message for every configuration *)

Definition put_opt {A} (f : A -> bytes) (o : option A) : bytes := match o with None => [x00] | Some a => x01 :: f a end.
Definition put_feature (f : provider_feature) : bytes :=
  leb match f with PF_IncludeUriInSeed => 0 | PF_DisableEthToPrincipalMapping => 1 | PF_DisablePrincipalToEthMapping => 2 end.
Definition put_chain (p : prim) (n : N) : bytes := match p with PNat32 => put_le 4 n | _ => leb n end.
Definition settings_header (p : prim) : header :=
  mkHeader [ERecord [fld "uri" (Prim PText); fld "runtime_features" (Var 1); fld "domain" (Prim PText);
                     fld "statement" (Var 4); fld "scheme" (Var 4); fld "salt" (Prim PText);
                     fld "session_expires_in" (Var 5); fld "targets" (Var 6); fld "chain_id" (Var 8);
                     fld "sign_in_expires_in" (Var 5)];
            EOpt (Var 2); EVec (Var 3);
            EVariant [fld "IncludeUriInSeed" (Prim PNull); fld "DisableEthToPrincipalMapping" (Prim PNull);
                      fld "DisablePrincipalToEthMapping" (Prim PNull)];
            EOpt (Prim PText); EOpt (Prim PNat64); EOpt (Var 7); EVec (Prim PText); EOpt (Prim p)] [Var 0].
Definition settings_message (p : prim) (i : SettingsInput) : bytes :=
  put_header (settings_header p) ++
  put_bytes (in_uri i) ++ put_opt (put_list put_feature) (in_features i) ++ put_bytes (in_domain i) ++
  put_opt put_bytes (in_statement i) ++ put_opt put_bytes (in_scheme i) ++ put_bytes (in_salt i) ++
  put_opt (put_le 8) (in_session_expires_in i) ++ put_opt (put_list put_bytes) (in_targets i) ++
  put_opt (put_chain p) (in_chain_id i) ++ put_opt (put_le 8) (in_sign_in_expires_in i).

(** Texts are UTF-8, lengths and times have 64 bits. *)
Definition opt_fine {A} (P : A -> Prop) (o : option A) : Prop := match o with None => True | Some a => P a end.
Definition list_fine {A} (P : A -> Prop) (l : list A) : Prop := N.of_nat (length l) < two64 /\ Forall P l.
Definition input_fine (i : SettingsInput) : Prop :=
  text_fine (in_domain i) /\ text_fine (in_uri i) /\ text_fine (in_salt i) /\ opt_fine (fun n => n < two32) (in_chain_id i) /\
  opt_fine text_fine (in_scheme i) /\ opt_fine text_fine (in_statement i) /\
  opt_fine (fun n => n < two64) (in_sign_in_expires_in i) /\ opt_fine (fun n => n < two64) (in_session_expires_in i) /\
  opt_fine (list_fine text_fine) (in_targets i) /\ opt_fine (list_fine (fun _ => True)) (in_features i).

Lemma enc_put_opt {A} c (u : A -> cval) (put : A -> bytes) (fine : A -> Prop) o :
  (forall a, fine a -> enc c (u a) (put a)) -> opt_fine fine o -> enc (COpt c) (uopt u o) (put_opt put o).
Proof. intros H Ho. destruct o as [a|]; [apply enc_some; now apply H|apply enc_none]. Qed.
Lemma enc_put_list {A} c (u : A -> cval) (put : A -> bytes) (fine : A -> Prop) l :
  (forall a, fine a -> enc c (u a) (put a)) -> list_fine fine l -> enc (CVec c) (UVec (map u l)) (put_list put l).
Proof.
  intros H [Hl Hf]. unfold put_list. apply enc_vec; rewrite ?map_length; [now apply leb_count|]. clear Hl.
  induction Hf as [|a l Ha _ IH]; cbn [map concat]; [constructor|]. constructor; [now apply H|exact IH].
Qed.
Lemma enc_put_feature f : True -> enc did_feature (ufeature f) (put_feature f).
Proof.
  intros _. unfold put_feature. rewrite <- (app_nil_r (leb _)).
  destruct f; (eapply enc_variant; [reflexivity|now apply leb_count|constructor]).
Qed.
Lemma enc_put_chain p n : p = PNat \/ p = PNat32 -> n < two32 -> enc (CPrim p) (UNat n) (put_chain p n).
Proof.
  intros [->| ->] H; cbn [put_chain].
  - apply enc_nat, uleb_uint, leb_is.
  - rewrite put_le_digits. now apply (enc_word PNat32 4).
Qed.

Theorem settings_carries q p i : p = PNat \/ p = PNat32 -> input_fine i -> (6 <= q)%nat ->
  carries q (settings_message p i) [settings_of p] [usettings i].
Proof.
  intros Hp (F1 & F2 & F3 & F4 & F5 & F6 & F7 & F8 & F9 & F10) Hq. eexists (settings_header p), _, _.
  split; [apply put_header_w; destruct Hp as [->| ->]; header_fine|].
  split; [cbn [h_args settings_header]; constructor; [destruct Hp as [->| ->]; stand|constructor]|].
  split; [|split; [constructor; [|constructor]; destruct Hp as [->| ->]; vm_compute; lia|reflexivity]].
  apply enc_args_1. unfold settings_of, usettings. apply enc_record.
  pose proof (fun a H => enc_put_text a H) as HT. pose proof (fun a H => enc_put_nat64 a H) as HN.
  constructor; [now apply HT|].
  constructor; [eapply enc_put_opt; [|exact F10]; intros l Hl; eapply enc_put_list; [exact enc_put_feature|exact Hl]|].
  constructor; [now apply HT|]. constructor; [eapply enc_put_opt; [exact HT|exact F6]|]. constructor; [eapply enc_put_opt; [exact HT|exact F5]|].
  constructor; [now apply HT|]. constructor; [eapply enc_put_opt; [exact HN|exact F8]|].
  constructor; [eapply enc_put_opt; [|exact F9]; intros l Hl; eapply enc_put_list; [exact HT|exact Hl]|].
  constructor; [eapply enc_put_opt; [|exact F4]; intros n Hn; now apply enc_put_chain|].
  apply enc_fields_1. eapply enc_put_opt; [exact HN|exact F7].
Qed.
