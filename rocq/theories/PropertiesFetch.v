(** What siwe_get_delegation answers. *)
From Coq Require Import Strings.String ZifyBool ZifyN ZifyNat.
From Verif Require Import Base BaseLemmas Deps Hex Eth Hash HashTree RbTree SigMap Time3339 Settings Siwe Encode
  Delegation Login Provider SpecEth EthProofs SpecHash DelegationProofs SpecWire WireProofs SpecTree SigMapProofs
  MapRuns SpecSiwe SiweProofs SpecInit SettingsProofs SpecTrace SpecFetch LoginProofs ProviderProofs TraceProofs LoginTheory
  DelegationTheory Sha2 Concrete Scripts Demo PropertiesDelegation.
Local Open Scope N_scope.

Lemma session_login_dec x sk exp l : {exists sg n pk, logged_in l sg x sk n exp pk} + {~ exists sg n pk, logged_in l sg x sk n exp pk}.
Proof.
  destruct l as [t o r]. unfold logged_in. cbn [ev_op ev_reply].
  destruct o as [| | | |sg y k n| | | |]; try (right; intros (? & ? & ? & E & _); discriminate E).
  destruct r as [| | |[[e pk]|m]| | |]; try (right; intros (? & ? & ? & _ & E); discriminate E).
  destruct (decide (y = x)) as [->|N1]; [|right; intros (? & ? & ? & E & _); congruence].
  destruct (decide (k = sk)) as [->|N2]; [|right; intros (? & ? & ? & E & _); congruence].
  destruct (decide (e = exp)) as [->|N3]; [|right; intros (? & ? & ? & _ & E); congruence].
  left. eauto.
Qed.

(** The first of them. *)
Lemma first_login since x sk exp : (forall l, ~ session_login since x sk exp l) \/
  exists before l after, since = before ++ l :: after /\ (exists sg n pk, logged_in l sg x sk n exp pk) /\
    forall l', ~ session_login before x sk exp l'.
Proof.
  induction since as [|e since IH]; [left; intros l [[] _]|].
  destruct (session_login_dec x sk exp e) as [Y|N].
  - right. exists [], e, since. split; [reflexivity|]. split; [exact Y|]. intros l [[] _].
  - destruct IH as [IH|(bef & l & aft & -> & Hl & Hf)].
    + left. intros l [[<-|Hi] Hl]; [now apply N|]. apply (IH l). now split.
    + right. exists (e :: bef), l, aft. split; [reflexivity|]. split; [exact Hl|].
      intros l' [[<-|Hi] Hl']; [now apply N|]. apply (Hf l'). now split.
Qed.

Lemma witness_err D now m seed dh e : sm_ok D m -> witness D now m seed dh = Err e ->
  (e = SignatureExpired /\ sm_is_expired now (d_sha256 D seed) dh m = true) \/ e = SignatureNotFound.
Proof.
  intros Hok. unfold witness, hash_bytes. destruct (sm_is_expired _ _ _ _); [intros E; left; split; congruence|].
  destruct (sm_witness D (d_sha256 D seed) dh m) as [w'|] eqn:Ew; [|intros E; right; congruence].
  assert (sm_has m (d_sha256 D seed) dh) as Hh.
  { apply (sm_get_has D m _ _ Hok). unfold sm_witness in Ew.
    destruct (rb_get (d_sha256 D seed) (sm_map m)) as [sub|] eqn:E1; [|discriminate]. cbn [mbind option_bind] in Ew.
    destruct (rb_get dh sub) as [[]|] eqn:E2; [|discriminate]. eauto. }
  destruct (sm_witness_ok D _ _ m Hok Hh) as (w2 & Hw2 & Hr & _). rewrite Ew in Hw2. injection Hw2 as <-.
  rewrite Hr, bytes_eqb_refl. discriminate.
Qed.

Lemma expired_entry D ops m now seed dh : run_map D ops sm_empty = Done m -> sm_is_expired now (d_sha256 D seed) dh m = true ->
  exists t, In (MPut t (d_sha256 D seed) dh) ops.
Proof.
  intros E Hx. destruct (run_map_inv D ops m E) as (_ & _ & Hf). unfold sm_is_expired in Hx.
  destruct (List.find _ (sm_queue m)) as [y|] eqn:Ef; [|discriminate].
  apply List.find_some in Ef as [Hy Hm]. apply andb_true_iff in Hm as [H1 H2]. apply bytes_eqb_spec in H1, H2.
  destruct (Hf y Hy) as (t & Ht & _). rewrite H1, H2 in Ht. eauto.
Qed.

(** What the call does with the signature map. *)
Lemma fetch_shape D cid c i st fl now cert x sk exp : deps_ok D -> init_spec D cid i st fl ->
  ls_settings (c_lib c) = Some st -> exp <= u64_max ->
  exists r, siwe_get_delegation D now (Some cert) x sk exp c = Done r /\
    ((exists e, (forall b, ~ address_text D x b) /\ eth_address_new D x = Done (Err e) /\ r = Err (show_eth_error e)) \/
     (exists b, address_text D x b /\
       ((exists e, key_error D sk = Some e /\ r = Err (bs "Invalid session key: " ++ e)) \/
        (key_error D sk = None /\ exp = 0 /\ r = Err (bs "Invalid expiration: Expiration is 0")) \/
        (key_error D sk = None /\ exp <> 0 /\ exists dh, create_delegation_hash D (mkDelegation sk exp (s_targets st)) = Done dh /\
           match witness D now (c_sigs c) (user_seed D i x) dh with
           | Ok w => granted i sk exp r
           | Err e => r = Err (show_delegation_error e)
           end)))).
Proof.
  intros HD Hin Hst Hexp.
  unfold siwe_get_delegation.
    destruct (address_cases D x HD) as [(err & E & Nx)|(b & Ax & E & _ & _)]; rewrite E; cbn [obind]; [eexists; split; [reflexivity|eauto 10]|].
    rewrite Hst, generate_seed_input. cbn [obind addr_str]. fold (seed_of D st x).
    unfold create_delegation, key_error.
    destruct sk as [|k0 sk]; cbn [obind]; [eexists; split; [reflexivity|]; right; exists b; split; [exact Ax|]; left; eauto|].
    destruct (d_der_err D (k0 :: sk)) as [e|]; cbn [obind]; [eexists; split; [reflexivity|]; right; exists b; split; [exact Ax|]; left; eauto|].
    destruct (exp =? 0) eqn:Ez; cbn [obind].
    { eexists; split; [reflexivity|]; right; exists b; split; [exact Ax|]; right; left. split; [reflexivity|]. split; [lia|reflexivity]. }
    unfold with_settings. cbn [obind].
    destruct (create_hash_done D (mkDelegation (k0 :: sk) exp (s_targets st)) Hexp) as [h Eh]. rewrite Eh. cbn [obind].
    rewrite (seed_of_user D cid i st _ x Hin).
    destruct (witness D now (c_sigs c) (user_seed D i x) h) as [w|e] eqn:Ew; eexists; (split; [reflexivity|]); right; exists b; (split; [exact Ax|]);
      right; right; (split; [reflexivity|]); (split; [lia|]); exists h; (split; [reflexivity|]); rewrite ?Ew; [|reflexivity].
    exists (s_targets st). eexists. split; [eapply targets_installed, Hin|reflexivity].
Qed.

(** ** C101  What siwe_get_delegation answers *)

Theorem C101_table : forall D cid tr s i since now cert x sk exp, deps_ok D -> exec D cid tr s -> since_boot tr i since ->
  Forall (fun e => ev_time e <= now) tr -> now < u64_max -> exp <= u64_max ->
  exists r, step D cid now (GetDelegation (Some cert) x sk exp) s = (s, RDelegation r) /\
    (delegation_table D i since now x sk exp r \/ session_clash D i since x sk exp).
Proof.
  intros D cid tr s i since now cert x sk exp HD H Hb Hnow Hmax Hexp.
  destruct (exec_since D cid tr s i since HD H Hb) as (c & st & -> & Hi & Hc).
  pose proof (inv_settings _ _ _ _ _ _ _ Hi) as Hst. pose proof (inv_init _ _ _ _ _ _ _ Hi) as Hin.
  destruct (inv_sigs _ _ _ _ _ _ _ Hi) as (ops & Hh & Hrun).
  destruct (fetch_shape D cid c i st _ now cert x sk exp HD Hin Hst Hexp) as (r & Er & Hr).
  exists r. cbn [step]. rewrite Er. split; [reflexivity|].
  destruct Hr as [(e & Nx & Ee & ->)|(b & Ax & [(e & Ek & ->)|[(Ek & Ez & ->)|(Ek & Ez & dh & Edh & Hw)]])].
  - left. eapply fetch_address; eauto.
  - left. eapply fetch_key; eauto.
  - left. eapply fetch_never; eauto.
  - assert (forall t, In (MPut t (d_sha256 D (user_seed D i x)) dh) ops ->
      (exists l, session_login since x sk exp l /\ ev_time l = t) \/ session_clash D i since x sk exp) as Hput.
    { intros t Hp. destruct (put_origin D cid i st _ since ops t x b sk exp dh HD Hin Hh Ax Hexp Edh Hp)
        as (bef & l & aft & sg & x' & sk' & n & exp' & pk & Es & Hl & Ht & Hx & Hk).
      assert (In l since) as Il by (rewrite Es; apply in_app_iff; right; left; reflexivity).
      destruct (decide (x' = x /\ sk' = sk /\ exp' = exp)) as [(-> & -> & ->)|Ne].
      - left. exists l. split; [split; [exact Il|eauto]|exact Ht].
      - right. exists l, sg, x', sk', n, exp', pk, (s_targets st). repeat (split; [assumption || (eapply targets_installed, Hin)|]). exact Ne. }
    pose proof (proj1 (run_map_inv D ops _ Hrun)) as Hok.
    assert (refused r \/ granted i sk exp r) as Hrg.
    { destruct (witness D now (c_sigs c) (user_seed D i x) dh) as [w|e] eqn:Ew; [now right|left].
      destruct (witness_err D now _ _ dh e Hok Ew) as [[-> _]| ->]; subst r; [right|left]; reflexivity. }
    assert (refused r -> granted i sk exp r -> False) as Hx.
    { intros [->| ->] (? & ? & _ & E); discriminate E. }
    destruct (first_login since x sk exp) as [Hno|(bef & l & aft & Es & (sg & n & pk & Hl) & Hfirst)].
    + destruct (witness D now (c_sigs c) (user_seed D i x) dh) as [w|e] eqn:Ew.
      * destruct (witness_entry D ops _ now _ dh w Hrun Ew) as (t & Hp & _).
        destruct (Hput t Hp) as [(l & Hl & _)|Cl]; [now apply Hno in Hl|now right].
      * destruct (witness_err D now _ _ dh e Hok Ew) as [[-> Hx']| ->].
        -- destruct (expired_entry D ops _ now _ dh Hrun Hx') as (t & Hp).
           destruct (Hput t Hp) as [(l & Hl & _)|Cl]; [now apply Hno in Hl|now right].
        -- left. eapply fetch_stranger; eauto.
    + assert (session_login since x sk exp l) as Hsl.
      { split; [rewrite Es; apply in_app_iff; right; left; reflexivity|eauto]. }
      assert (forall l', session_login since x sk exp l' -> ev_time l <= ev_time l') as Hmono.
      { intros l' [Hi' Hl']. rewrite Es in Hi'. apply in_app_iff in Hi' as [Hi'|[<-|Hi']]; [|lia|].
        - exfalso. apply (Hfirst l'). now split.
        - destruct Hb as (bf & bb & Et & _ & _). apply in_split in Hi' as (a1 & a2 & ->).
          rewrite Et, Es in H. assert (bf ++ bb :: bef ++ l :: a1 ++ l' :: a2 = (bf ++ bb :: bef) ++ l :: a1 ++ l' :: a2) as E2 by (now rewrite <- app_assoc).
          rewrite E2 in H. eapply exec_mono, H. }
      destruct (N.lt_ge_cases now (ev_time l + one_minute)) as [Hlt|Hge].
      * assert (granted i sk exp r \/ session_clash D i since x sk exp) as [Hg|Cl]; [| |now right].
        2:{ left. apply (fetch_fresh D i since now x sk exp r l); auto. intros l' Hl'. apply Hmono in Hl'. lia. }
        destruct Hb as (bf & bb & Et & Hbb & HF). pose proof HF as HF'. rewrite Es in HF'. apply List.Forall_app in HF' as [HFb HFl].
        apply List.Forall_cons_iff in HFl as [_ HFa].
        assert (exec D cid (tr ++ [mkEvent now (GetDelegation (Some cert) x sk exp) (RDelegation r)]) (Some c)) as H'.
        { eapply exec_snoc; [exact H|exact Hnow|lia|exact Hexp|]. cbn [step]. rewrite Er. reflexivity. }
        rewrite Et, Es in H'.
        replace ((bf ++ bb :: bef ++ l :: aft) ++ [mkEvent now (GetDelegation (Some cert) x sk exp) (RDelegation r)])
          with ((bf ++ bb :: bef) ++ l :: aft ++ [mkEvent now (GetDelegation (Some cert) x sk exp) (RDelegation r)]) in H'
          by (rewrite <- !app_assoc; reflexivity || (cbn [app]; rewrite <- !app_assoc; reflexivity)).
        destruct (C36_available_partial D cid (bf ++ bb :: bef) l aft _ _ sg x sk n exp pk cert i bef HD H' Hl HFa) as [(d & Ho & Hd)|Cl].
        -- exists bf, bb. auto.
        -- intros l' sg' n' pk' Il Hl'. apply (Hfirst l'). split; eauto.
        -- reflexivity.
        -- exact Hlt.
        -- exact Hmax.
        -- left. cbn [ev_reply] in Hd. injection Hd as ->. destruct Hrg as [[E|E]|G]; [discriminate E|discriminate E|exact G].
        -- right. destruct Cl as (l' & sg' & x' & sk' & n' & exp' & pk' & t & Il & R). exists l', sg', x', sk', n', exp', pk', t.
           split; [rewrite Es; apply in_app_iff; now left|exact R].
      * destruct Hrg as [Hr|Hg].
        -- (* refused *)
           assert ((forall l', session_login since x sk exp l' -> ev_time l' + one_minute < now) \/
             exists l', session_login since x sk exp l' /\ now <= ev_time l' + one_minute) as [Hall|(l' & Hl' & Hle)].
           { clear - since. induction since as [|e since IH]; [left; intros l' [[] _]|].
             destruct IH as [IH|(l' & [Il' Hl'] & Hle)]; [|right; exists l'; split; [split; [now right|exact Hl']|exact Hle]].
             destruct (session_login_dec x sk exp e) as [Y|N].
             - destruct (N.lt_ge_cases (ev_time e + one_minute) now) as [L|G].
               + left. intros l' [[<-|Il] Hl']; [exact L|]. apply IH. now split.
               + right. exists e. split; [split; [now left|exact Y]|exact G].
             - left. intros l' [[<-|Il] Hl']; [now apply N in Hl'|]. apply IH. now split. }
           ++ left. eapply fetch_stale; eauto.
           ++ left. apply (fetch_between D i since now x sk exp r l l'); auto.
        -- destruct (witness D now (c_sigs c) (user_seed D i x) dh) as [w|e] eqn:Ew.
           2:{ exfalso. apply Hx; [|exact Hg]. destruct (witness_err D now _ _ dh e Hok Ew) as [[-> _]| ->]; subst r; [right|left]; reflexivity. }
           destruct (witness_entry D ops _ now _ dh w Hrun Ew) as (t & Hp & Hle).
           destruct (Hput t Hp) as [(l' & Hl' & <-)|Cl]; [|now right].
           left. apply (fetch_between D i since now x sk exp r l l'); auto. lia.
Qed.

(** Concrete: rows of the table after the demo; Alice's key1 logged in at 3 s, key2 at 11 s,
    Bob's key2 at 9 s. *)
Definition asks_at (now : N) (who sk : bytes) (exp : N) (s : state) : reply :=
  snd (step CD demo_cid now (GetDelegation (Some (bs "cert")) (wallet_address CD who) sk exp) s).
Example C101_case : exists s, exec CD demo_cid demo_tr s /\ since_boot demo_tr demo_input (drop 1 demo_tr) /\
  Forall (fun e => ev_time e <= 12 * sec) demo_tr /\
  (exists d, asks_at (12 * sec) alice key1 (1802 * sec) s = RDelegation (Ok d)) /\
  asks_at (64 * sec) alice key1 (1802 * sec) s = RDelegation (Err (bs "Signature expired")) /\
  asks_at (12 * sec) bob key1 (1802 * sec) s = RDelegation (Err (bs "Signature not found")) /\
  asks_at (12 * sec) alice key1 (1803 * sec) s = RDelegation (Err (bs "Signature not found")) /\
  asks_at (12 * sec) alice key1 0 s = RDelegation (Err (bs "Invalid expiration: Expiration is 0")) /\
  asks_at (12 * sec) alice [] (1802 * sec) s = RDelegation (Err (bs "Invalid session key: Session key is empty")).
Proof.
  exists (snd (play CD demo_cid demo_script None)).
  split; [apply (play_exec _ _ demo_script); [vm_compute; reflexivity|rewrite <- demo_play; apply surjective_pairing]|].
  split; [exact (demo_since 13 ltac:(lia))|].
  split; [repeat constructor; vm_compute; discriminate|].
  split; [eexists; vm_compute; reflexivity|]. do 4 (split; [vm_compute; reflexivity|]). vm_compute. reflexivity.
Qed.

Print Assumptions C101_table.
