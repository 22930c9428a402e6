(** What one call of each update method does. *)
From Coq Require Import Strings.String ZifyBool ZifyN ZifyNat.
From Verif Require Import Base BaseLemmas Deps Hex Eth Hash HashTree RbTree SigMap Time3339 Settings Siwe Encode
  Delegation Login Provider SpecEth EthProofs SpecHash DelegationProofs SpecTree SigMapProofs SpecSiwe
  SiweProofs SpecInit SettingsProofs SpecTrace.
Local Open Scope N_scope.

(** ** Arguments *)

Lemma address_cases D x : deps_ok D ->
  (exists e, eth_address_new D x = Done (Err e) /\ forall b, ~ address_text D x b) \/
  (exists b, address_text D x b /\ eth_address_new D x = Done (Ok (mkEthAddress x)) /\
     addr_as_bytes (mkEthAddress x) = Done b /\ addr_as_byte_array (mkEthAddress x) = Done b).
Proof.
  intros HD. destruct (eth_address_new_spec D x HD) as [(e & E & N)|(b & L & E & A)].
  - left. exists e. split; [assumption|]. intros b [L Ex]. now apply (N b).
  - right. exists b. split; [split; assumption|]. split; [assumption|].
    destruct (as_bytes_ok D x _ HD A) as (b' & L' & E' & A1 & A2).
    assert (b' = b) as ->; [|auto]. apply (eip55_inj D); auto; [lia|lia|congruence].
Qed.

Lemma address_text_inj D x b b' : deps_ok D -> address_text D x b -> address_text D x b' -> b = b'.
Proof. intros HD [L E] [L' E']. apply (eip55_inj D); auto; [lia|lia|congruence]. Qed.

Lemma address_text_fun D x x' b : address_text D x b -> address_text D x' b -> x = x'.
Proof. intros [_ ->] [_ ->]. reflexivity. Qed.

Lemma signature_cases sg :
  (exists e, eth_signature_new sg = Done (Err e) /\ forall b, ~ signature_text sg b) \/
  (exists b, signature_text sg b /\ eth_signature_new sg = Done (Ok (mkEthSignature sg)) /\
     sig_as_bytes (mkEthSignature sg) = Done b).
Proof.
  destruct (eth_signature_new_spec sg) as [(e & E & N)|(t & b & L & Ht & E & S)].
  - left. exists e. split; [assumption|]. intros b (t & L & Ht & Es). apply hex_denotes_lower in Ht.
    now apply (N t b).
  - right. exists b. split; [exists t; rewrite hex_denotes_lower; auto|]. split; [assumption|].
    now apply (sig_bytes_ok sg t).
Qed.

Lemma signature_text_inj sg b b' : signature_text sg b -> signature_text sg b' -> b = b'.
Proof.
  intros (t & _ & H & ->) (t' & _ & H' & E). apply app_inv_head in E as <-.
  apply hex_denotes_lower in H, H'. apply hex_encode_inj. congruence.
Qed.

Lemma recovers_iff D text sg b x : deps_ok D -> signature_text sg b ->
  sig_as_bytes (mkEthSignature sg) = Done b ->
  (recover_eth_address D text (mkEthSignature sg) = Done (Ok x) <-> recovers D text sg x).
Proof.
  intros HD Hs Hb. pose proof Hs as (t & L & _ & _). rewrite (recover_spec D text _ b HD L Hb). cbv zeta.
  destruct (lookup_lt_is_Some_2 b 64) as [v Hv]; [lia|]. rewrite Hv.
  assert (b = take 64 b ++ [v]) as Eb.
  { rewrite <- (take_drop 64 b) at 1. f_equal. 
    apply (drop_S _ _ _) in Hv. rewrite Hv. f_equal. rewrite drop_ge; [reflexivity|lia]. }
  split.
  - destruct (3 <? nb v mod 27) eqn:Hlt; [discriminate|]. destruct (d_sig_ok D (take 64 b)) eqn:Hok; [|discriminate].
    destruct (d_recover D _ _ _) as [pk|] eqn:Hr; [|discriminate]. intros E.
    exists (take 64 b), v, (eip191_bytes text), pk, (take 12 (d_keccak D pk)), (drop 12 (d_keccak D pk)).
    rewrite <- Eb. split; [assumption|]. split; [apply eip191_framed_ok|]. split; [assumption|].
    split; [lia|]. split; [assumption|]. rewrite take_drop. split; [reflexivity|].
    rewrite drop_length, (keccak_len _ HD). split; [reflexivity|congruence].
  - intros (rs & v' & framed & pk & front & last20 & S' & F & Hok & Hv' & Hr & K & L20 & ->).
    pose proof (signature_text_inj _ _ _ Hs S') as Eb'. rewrite Eb' in Eb.
    assert (length rs = 64%nat) as Lrs.
    { rewrite Eb', app_length in L. simpl in L. lia. }
    assert (take 64 b = rs) as Et by (rewrite Eb'; apply take_app_alt; lia).
    rewrite <- Eb', Et, Eb' in Eb. apply app_inj_len in Eb as [_ Ev]; [|reflexivity].
    assert (v' = v) as -> by congruence. rewrite Et, Hok.
    assert (3 <? nb v mod 27 = false) as -> by lia.
    rewrite <- (eip191_framed_fun text framed _ F (eip191_framed_ok text)), Hr.
    assert (drop 12 (d_keccak D pk) = last20) as ->; [|reflexivity].
    pose proof (keccak_len _ HD pk) as LK. rewrite K in *. rewrite app_length in LK.
    apply drop_app_alt. lia.
Qed.

Lemma recover_done D text sg b : deps_ok D -> signature_text sg b ->
  sig_as_bytes (mkEthSignature sg) = Done b ->
  exists r, recover_eth_address D text (mkEthSignature sg) = Done r.
Proof. intros HD (t & L & _) Hb. eexists. exact (recover_spec D text _ b HD L Hb). Qed.

Lemma recovers_sig D text sg x : recovers D text sg x -> exists b, signature_text sg b.
Proof. intros (rs & v & _ & _ & _ & _ & H & _). eauto. Qed.

Lemma bad_key_dec D sk : {bad_key D sk} + {~ bad_key D sk}.
Proof.
  unfold bad_key. destruct sk as [|c sk]; [left; now left|]. destruct (d_der_err D (c :: sk)) eqn:E.
  - left. right. discriminate.
  - right. intros [H|H]; [discriminate|]. now apply H.
Qed.

Lemma key_error_bad D sk : key_error D sk <> None <-> bad_key D sk.
Proof.
  unfold bad_key, key_error. destruct sk as [|c sk]; [split; [now left|discriminate]|].
  destruct (d_der_err D (c :: sk)) eqn:E; split; try discriminate.
  - intros _. right. discriminate.
  - intros H. now contradiction H.
  - intros [H|H]; [discriminate|]. now contradiction H.
Qed.

Lemma create_delegation_cases D s sk exp : exp <> 0 ->
  create_delegation D (Some s) sk exp =
  Done (match key_error D sk with
        | Some e => Err (InvalidSessionKey e)
        | None => Ok (mkDelegation sk exp (s_targets s))
        end).
Proof.
  intros H. unfold create_delegation, key_error. destruct sk as [|c sk]; [reflexivity|].
  destruct (d_der_err D (c :: sk)); [reflexivity|].
  apply N.eqb_neq in H. rewrite H. reflexivity.
Qed.

Lemma message_map_hash D x b n : addr_as_bytes (mkEthAddress x) = Done b ->
  siwe_message_map_hash D (mkEthAddress x) n = Done (message_key D b n).
Proof. intros E. unfold siwe_message_map_hash. rewrite E. reflexivity. Qed.

(** ** Preparing a login *)

Definition the_message (s : Settings) (x n : bytes) (t : N) : SiweMessage :=
  mkMsg (s_scheme s) (s_domain s) x (s_statement s) (s_uri s) 1 (s_chain_id s) n t
    (sat_add t (s_sign_in_expires_in s)).

Lemma sat_add_le a b : sat_add a b <= u64_max.
Proof. unfold sat_add. lia. Qed.

Lemma the_message_text s x n t : t <= u64_max -> exists text, siwe_to_string (the_message s x n t) = Done text.
Proof. intros H. apply siwe_to_string_done; [exact H|]. apply sat_add_le. Qed.

Lemma prepare_bad_address D now x e c : eth_address_new D x = Done (Err e) ->
  siwe_prepare_login D now x c = Done (c, Err (show_eth_error e)).
Proof. intros E. unfold siwe_prepare_login. rewrite E. reflexivity. Qed.

Lemma prepare_unseeded D now x c : eth_address_new D x = Done (Ok (mkEthAddress x)) -> ls_rng (c_lib c) = None ->
  exists w, siwe_prepare_login D now x c = Trap w.
Proof. intros E R. unfold siwe_prepare_login, prepare_login. rewrite E, R. cbn. eauto. Qed.

Lemma prepare_ok D now x b c s r : address_text D x b ->
  eth_address_new D x = Done (Ok (mkEthAddress x)) -> addr_as_bytes (mkEthAddress x) = Done b ->
  ls_settings (c_lib c) = Some s -> ls_rng (c_lib c) = Some r -> now <= u64_max ->
  let n := hex_encode (d_chacha D (rng_seed r) (rng_pos r)) in
  exists text, siwe_to_string (the_message s x n now) = Done text /\
    siwe_prepare_login D now x c =
      Done (with_lib c (mkLib (Some (mkRng (rng_seed r) (rng_pos r + 1))) (Some s)
              (<[message_key D b n := the_message s x n now]> (ls_msgs (c_lib c)))), Ok (text, n)).
Proof.
  intros _ E Eb Es Er Hnow n. destruct (the_message_text s x n now Hnow) as [text Et]. exists text.
  split; [assumption|]. unfold siwe_prepare_login, prepare_login, generate_nonce. rewrite E, Er, Es.
  cbn [obind]. fold n. unfold siwe_message_new. cbn [with_settings obind addr_str].
  fold (the_message s x n now). unfold msgs_insert. rewrite (message_map_hash D x b n Eb). cbn [obind].
  rewrite Et. reflexivity.
Qed.

(** ** Login *)

(** What login needs of the state; every reachable state has it. *)
Record can_ok (D : Deps) (c : canister) (s : Settings) : Prop := {
  ok_settings : ls_settings (c_lib c) = Some s;
  ok_session : s_session_expires_in s <> 0;
  ok_sigs : sm_ok D (c_sigs c);
  ok_msgs : forall k m, ls_msgs (c_lib c) !! k = Some m ->
    m_issued_at m <= u64_max /\ m_expiration_time m <= u64_max
}.

Definition set_msgs (c : canister) (m : SiweMessageMap) : canister :=
  with_lib c (mkLib (ls_rng (c_lib c)) (ls_settings (c_lib c)) m).

Definition set_sigs (c : canister) (m : SiweMessageMap) (sigs : SignatureMap) (certified : bytes) : canister :=
  mkCan (mkLib (ls_rng (c_lib c)) (ls_settings (c_lib c)) m) sigs (c_flags c) (c_principal_address c)
    (c_address_principal c) certified (c_seeding c).

Definition live (now : N) (c : canister) : SiweMessageMap := msgs_prune now (ls_msgs (c_lib c)).

Inductive login_out (D : Deps) (cid : bytes) (now : N) (sg x sk n : bytes) (c : canister) (s : Settings)
  : canister -> result LoginDetails bytes -> Prop :=
| lo_address e :
    eth_address_new D x = Done (Err e) -> (forall b, ~ address_text D x b) ->
    login_out D cid now sg x sk n c s c (Err (show_eth_error e))
| lo_signature b e :
    address_text D x b -> eth_signature_new sg = Done (Err e) -> (forall sb, ~ signature_text sg sb) ->
    login_out D cid now sg x sk n c s c (Err (show_eth_error e))
| lo_missing b sb :
    address_text D x b -> signature_text sg sb -> live now c !! message_key D b n = None ->
    login_out D cid now sg x sk n c s (set_msgs c (live now c)) (Err (bs "Message not found"))
| lo_recover b sb m text e :
    address_text D x b -> signature_text sg sb -> live now c !! message_key D b n = Some m ->
    siwe_to_string m = Done text ->
    recover_eth_address D text (mkEthSignature sg) = Done (Err e) -> (forall y, ~ recovers D text sg y) ->
    login_out D cid now sg x sk n c s (set_msgs c (delete (message_key D b n) (live now c)))
      (Err (show_eth_error e))
| lo_mismatch b sb m text y :
    address_text D x b -> signature_text sg sb -> live now c !! message_key D b n = Some m ->
    siwe_to_string m = Done text -> recovers D text sg y -> y <> x -> ~ recovers D text sg x ->
    login_out D cid now sg x sk n c s (set_msgs c (delete (message_key D b n) (live now c)))
      (Err (bs "Recovered address does not match"))
| lo_badkey b sb m text e sigs k :
    address_text D x b -> signature_text sg sb -> live now c !! message_key D b n = Some m ->
    siwe_to_string m = Done text -> recovers D text sg x -> key_error D sk = Some e ->
    sm_prune_expired D now 10 (c_sigs c) = Done (sigs, k) ->
    login_out D cid now sg x sk n c s
      (set_sigs c (delete (message_key D b n) (live now c)) sigs (c_certified c))
      (Err (bs "Invalid session key: " ++ e))
| lo_ok b sb m text sigs0 k sigs dh :
    address_text D x b -> signature_text sg sb -> live now c !! message_key D b n = Some m ->
    siwe_to_string m = Done text -> recovers D text sg x -> key_error D sk = None ->
    sm_prune_expired D now 10 (c_sigs c) = Done (sigs0, k) ->
    create_delegation_hash D (mkDelegation sk (sat_add (m_issued_at m) (s_session_expires_in s)) (s_targets s)) = Done dh ->
    sm_put D now (d_sha256 D (d_sha256 D (seed_input (s_salt s) x (seed_uri s)))) dh sigs0 = Done sigs ->
    login_out D cid now sg x sk n c s
      (manage_mappings
         (self_authenticating D (create_user_canister_pubkey cid (d_sha256 D (seed_input (s_salt s) x (seed_uri s)))))
         b (set_sigs c (delete (message_key D b n) (live now c)) sigs (root_hash D sigs)))
      (Ok (mkDetails (sat_add (m_issued_at m) (s_session_expires_in s))
             (create_user_canister_pubkey cid (d_sha256 D (seed_input (s_salt s) x (seed_uri s)))))).

Lemma live_lookup now c k m : live now c !! k = Some m <->
  ls_msgs (c_lib c) !! k = Some m /\ now < m_expiration_time m.
Proof. unfold live, msgs_prune. rewrite map_filter_lookup_Some. reflexivity. Qed.

Lemma login_cases D cid now sg x sk n c s : deps_ok D -> can_ok D c s ->
  exists c' r, siwe_login D cid now sg x sk n c = Done (c', r) /\ login_out D cid now sg x sk n c s c' r.
Proof.
  intros HD [Hs Hsess Hsm Hm]. unfold siwe_login.
  destruct (address_cases D x HD) as [(e & E & Nx)|(b & Ax & E & Eb & Eb')]; rewrite E; cbn [obind].
  { eexists _, _. split; [reflexivity|]. now apply lo_address. }
  destruct (signature_cases sg) as [(e & S & Ns)|(sb & Sx & S & Esb)]; rewrite S; cbn [obind].
  { eexists _, _. split; [reflexivity|]. now apply (lo_signature _ _ _ _ _ _ _ _ _ b). }
  unfold login. fold (live now c). unfold msgs_get. rewrite (message_map_hash D x b n Eb). cbn [obind].
  destruct (live now c !! message_key D b n) as [m|] eqn:El; cbn [obind].
  2:{ eexists _, _. split; [reflexivity|]. now apply (lo_missing _ _ _ _ _ _ _ _ _ b sb). }
  pose proof El as Em. apply live_lookup in Em as [Em Hexp]. apply Hm in Em as [Hi He].
  destruct (siwe_to_string_done m Hi He) as [text Et]. rewrite Et. cbn [obind].
  unfold verify_signature. destruct (recover_done D text sg sb HD Sx Esb) as [rec Erec]. rewrite Erec. cbn [obind].
  pose proof (fun y => recovers_iff D text sg sb y HD Sx Esb) as Hrec. rewrite Erec in Hrec.
  unfold msgs_remove. rewrite (message_map_hash D x b n Eb). cbn [obind addr_str].
  destruct rec as [y|e].
  2:{ eexists _, _. split; [reflexivity|]. apply (lo_recover _ _ _ _ _ _ _ _ _ b sb m text); auto.
      intros y Hy. apply Hrec in Hy. discriminate. }
  destruct (bytes_eqb y x) eqn:Ey.
  2:{ apply bytes_eqb_false in Ey. eexists _, _. split; [reflexivity|].
      apply (lo_mismatch _ _ _ _ _ _ _ _ _ b sb m text y); auto; [now apply Hrec|].
      intros Hx. apply Hrec in Hx. congruence. }
  apply bytes_eqb_spec in Ey as ->. assert (recovers D text sg x) as Rx by now apply Hrec.
  rewrite Hs. cbn [with_settings obind].
  set (exp := sat_add (m_issued_at m) (s_session_expires_in s)).
  assert (exp <> 0) as Hexp0. { subst exp. unfold sat_add, u64_max. lia. }
  rewrite generate_seed_input. cbn [obind addr_str].
  destruct (sm_prune_ok D now 10 (c_sigs c) Hsm) as (sigs0 & removed & Ep & Hok0 & _).
  change MAX_SIGS_TO_PRUNE with 10%nat. rewrite Ep. cbn [obind].
  rewrite (create_delegation_cases D s sk exp Hexp0). cbn [obind].
  destruct (key_error D sk) as [e|] eqn:Ek.
  { eexists _, _. split; [rewrite <- Hs; reflexivity|].
    change (show_login_error (LDelegation (InvalidSessionKey e))) with (bs "Invalid session key: " ++ e).
    now apply (lo_badkey _ _ _ _ _ _ _ _ _ b sb m text e sigs0 (N.of_nat (length removed))). }
  destruct (create_hash_done D (mkDelegation sk exp (s_targets s))) as [dh Edh]; [apply sat_add_le|].
  rewrite Edh. cbn [obind]. unfold hash_bytes.
  destruct (sm_put_ok D now (d_sha256 D (d_sha256 D (seed_input (s_salt s) x (seed_uri s)))) dh sigs0 Hok0)
    as (sigs & Eput & _). rewrite Eput. cbn [obind]. rewrite Eb'. cbn [obind ld_pubkey].
  eexists _, _. split; [rewrite <- Hs; reflexivity|].
  now apply (lo_ok _ _ _ _ _ _ _ _ _ b sb m text sigs0 (N.of_nat (length removed)) sigs dh).
Qed.
