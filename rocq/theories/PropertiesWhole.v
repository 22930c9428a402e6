(** C84, C85: a request that the IC takes for one by a user, from the private key of the wallet to
    the bytes of the calls. *)
From Coq Require Import Strings.String ZifyBool ZifyN ZifyNat.
From Verif Require Import Base BaseLemmas Deps Hex Eth Settings Encode Delegation Login Provider SpecEth EthProofs SpecHash
  SpecWire SpecTree SpecSiwe SpecInit SettingsProofs Siwe SiweProofs SpecTrace SpecAuth ProviderProofs TraceProofs LoginTheory LoginProofs DelegationTheory
  CallProofs Concrete Scripts Demo Secp SpecEcdsa EcdsaBytes EcdsaProofs EcdsaVector
  Candid SpecCandid CandidBase Interface SpecInterface InterfaceProofs InterfaceReplies RepliesFine
  PropertiesLogin PropertiesCalls PropertiesDelegation PropertiesAuth PropertiesEcdsa PropertiesCandid SpecWhole.
Local Open Scope N_scope.

Lemma decoded_in q tr ev : In ev (omap (decoded q) tr) ->
  exists e, In e tr /\ call_op q (ce_call e) = Some (ev_op ev) /\ ce_reply e = ev_reply ev /\ ce_time e = ev_time ev.
Proof.
  intros H. apply elem_of_list_In, elem_of_list_omap in H as (e & He & Ed). apply elem_of_list_In in He.
  exists e. split; [exact He|]. unfold decoded in Ed. destruct (call_op q (ce_call e)) as [o|]; [|discriminate].
  apply (inj Some) in Ed as <-. auto.
Qed.

Lemma sat_add_min a b : sat_add a b = N.min (a + b) u64_max.
Proof. reflexivity. Qed.

(** What a prepared text says to whoever reads it. *)
Lemma text_reads D cid tr i st fl p x n text : deps_ok D -> (exists s, exec D cid tr s /\ In p tr /\ prepared p x text n) ->
  init_spec D cid i st fl -> siwe_to_string (the_message st x n (ev_time p)) = Done text -> (exists a, address_text D x a) ->
  one_line (in_domain i) -> one_line (in_uri i) -> read_erc4361 text = Some
    {| e_domain := in_domain i; e_address := x; e_statement := default (bs "SIWE Fields:") (in_statement i);
       e_uri := in_uri i; e_version := 1; e_chain_id := default 1 (in_chain_id i);
       e_nonce := n; e_issued_at := ev_time p;
       e_expiration_time := N.min (ev_time p + sign_in_window i) u64_max |}.
Proof.
  intros HD (s & H & Ip & Hp) Hin Et [a Aa] Ld Lu.
  assert (ev_time p <= u64_max) as Hp64.
  { pose proof (exec_times _ _ _ _ H) as Ht. rewrite List.Forall_forall in Ht. now apply Ht. }
  assert (one_line n) as Ln.
  { destruct (C45_shape D cid tr s p x text n HD H Ip Hp) as [_ Hn]. intros I0. rewrite List.Forall_forall in Hn. apply Hn in I0.
    vm_compute in I0. intuition discriminate. }
  destruct (siwe_text_reads (the_message st x n (ev_time p))) as (text' & Et' & Er).
  - unfold fields_one_line. cbn [the_message m_domain m_address m_statement m_uri m_nonce].
    rewrite (init_domain _ _ _ _ _ Hin), (init_uri _ _ _ _ _ Hin).
    split; [assumption|]. split; [destruct Aa as [_ ->]; apply eip55_one_line|].
    split; [apply (acc_statement _ _ (init_acceptable _ _ _ _ _ Hin))|]. auto.
  - exact Hp64.
  - apply sat_add_le.
  - assert (text' = text) as -> by congruence. rewrite Er. cbn [the_message m_domain m_address m_statement m_uri m_version m_chain_id m_nonce m_issued_at m_expiration_time].
    rewrite (init_domain _ _ _ _ _ Hin), (init_uri _ _ _ _ _ Hin), (init_statement _ _ _ _ _ Hin),
      (init_chain_id _ _ _ _ _ Hin), (init_sign_in _ _ _ _ _ Hin). reflexivity.
Qed.

(** ** C84  Behind every accepted request is the private key of the user's wallet *)

Theorem C84_key_behind : forall D cid q tr c certificate now target pk d, deps_ok D -> (length cid <= 29)%nat ->
  calls (with_k256 D) cid q tr (Some c) -> replica_accepts D cid (c_certified c) certificate now target pk d ->
  (exists b p l i x' text n' sg x n pk' key,
     In b tr /\ In p tr /\ In l tr /\ configured q b i /\ asked_text q p x' text n' /\
     asked_login q l sg x (dl_pubkey (sd_delegation d)) n (dl_expiration (sd_delegation d)) pk' /\
     wallet_signature (d_keccak D) key text sg /\ address_of_key D key x /\
     canister_pubkey_decode pk = Some (cid, user_seed D i x) /\
     ce_time p <= ce_time l < ce_time p + sign_in_window i /\ now <= ce_time p + session_window i /\
     targets_of i (dl_targets (sd_delegation d)) /\
     (one_line (in_domain i) -> one_line (in_uri i) -> read_erc4361 text = Some
        {| e_domain := in_domain i; e_address := x'; e_statement := default (bs "SIWE Fields:") (in_statement i);
           e_uri := in_uri i; e_version := 1; e_chain_id := default 1 (in_chain_id i);
           e_nonce := n'; e_issued_at := ce_time p;
           e_expiration_time := N.min (ce_time p + sign_in_window i) u64_max |}) /\
     ((x' = x /\ n' = n) \/
      exists a a', address_text D x a /\ address_text D x' a' /\
        collision (d_sha256 D) (message_key_input a' n') (message_key_input a n))) \/
  auth_collision (with_k256 D) cid (omap (decoded q) tr) certificate pk d.
Proof.
  intros D cid q tr c certificate now target pk d HD Lc H Ha. pose proof (with_k256_ok D HD) as HD'.
  apply calls_exec in H. pose proof Ha as (Hnow & _).
  destruct (C61_login_behind (with_k256 D) cid _ c certificate now target pk d HD' Lc H Ha)
    as [(x & sk & exp & pk' & i & t & (bef & l & aft & sg & n & since & Etr & Hl & Hb) & Ht & Epk & _ & Esd)|C]; [left|now right].
  rewrite Esd in *. cbn [dl_pubkey dl_expiration dl_targets] in *.
  assert (exists s1, exec (with_k256 D) cid (bef ++ [l]) s1) as [s1 H1] by (rewrite Etr in H; eapply exec_at, H).
  destruct (login_explained (with_k256 D) cid bef l s1 sg x sk n exp pk' HD' H1 Hl)
    as (i' & st & fl & since' & b0 & p & a0 & x' & a & a' & n' & text & Hs & Hin & Es & Hp & Aa & Aa' & Ek & Et & _ & Rx & _ & Hw & Eexp & _).
  destruct (since_boot_fun _ _ _ _ _ Hb Hs) as [<- <-].
  apply recovers_wallet in Rx as (key & Q & addr & Hk & Hka & Ex & Hsig); [|assumption].
  assert (In p bef) as Ip.
  { apply since_boot_sub in Hb as [pre ->]. rewrite Es. apply in_app_iff. right. apply in_app_iff. right. left. reflexivity. }
  assert (ev_time p <= ev_time l) as Tpl.
  { apply exec_last in H1 as (s0 & _ & HF & _). rewrite List.Forall_forall in HF. now apply HF. }
  destruct (decoded_in q tr p) as (p0 & Ip0 & Op0 & Rp0 & Tp0).
  { rewrite Etr. apply in_app_iff. now left. }
  destruct (decoded_in q tr l) as (l0 & Il0 & Ol0 & Rl0 & Tl0).
  { rewrite Etr. apply in_app_iff. right. now left. }
  pose proof Hb as (pre & bt & Ebef & [Hbo Hbr] & _).
  destruct (decoded_in q tr bt) as (b1 & Ib1 & Ob1 & Rb1 & _).
  { rewrite Etr, Ebef. apply in_app_iff. left. apply in_app_iff. right. now left. }
  exists b1, p0, l0, i, x', text, n', sg, x, n, pk', key. rewrite Tp0, Tl0.
  split; [exact Ib1|]. split; [exact Ip0|]. split; [exact Il0|].
  split. { split; [rewrite Ob1; destruct Hbo as [->| ->]; auto|congruence]. }
  destruct Hp as [Hpo Hpr], Hl as [Hlo Hlr].
  split. { split; congruence. } split. { split; congruence. }
  split; [exact Hsig|]. split; [exists Q, addr; auto|]. split; [exact Epk|].
  rewrite sat_add_min in Hw, Eexp. split; [lia|]. split; [lia|]. split; [exact Ht|].
  split.
  - intros Ld Lu. apply (text_reads (with_k256 D) cid bef i st fl p x' n' text); auto; [|now exists a'].
    apply exec_last in H1 as (s0 & H0 & _). exists s0. split; [exact H0|]. split; [exact Ip|now split].
  - destruct (key_or_collision (with_k256 D) x a n x' a' n' HD' Aa Aa' Ek) as [E|E]; [now left|right]. exists a, a'. auto.
Qed.

(** ** C85  The private key of a wallet is enough to act as its user *)

Lemma calls_times D cid q tr s : calls D cid q tr s -> forall t,
  Forall (fun e => ce_time e <= t) tr -> Forall (fun e => ev_time e <= t) (omap (decoded q) tr).
Proof.
  intros _ t Ht. apply List.Forall_forall. intros e He. destruct (decoded_in q tr e He) as (e0 & I0 & _ & _ & <-).
  rewrite List.Forall_forall in Ht. now apply Ht.
Qed.

Lemma short_fine b k : plain b -> length b = k -> N.of_nat k < two64 -> text_fine b.
Proof. intros Hp Hl Hk. split; [now apply plain_utf8|]. unfold blen. rewrite Hl. exact Hk. Qed.
Lemma hex_denotes_plain t b : hex_denotes t b -> plain t /\ length t = (2 * length b)%nat.
Proof.
  intros H. apply hex_denotes_lower in H. split; [eapply plain_hexchars, hex_lower_hexchar, H|].
  rewrite <- (map_length to_lower), H. apply hex_encode_length.
Qed.

Lemma decoded_snoc q tr now m caller cert msg o r : call_op q (Call m caller cert msg) = Some o ->
  omap (decoded q) (tr ++ [mkCallEvent now (Call m caller cert msg) r]) = omap (decoded q) tr ++ [mkEvent now o r].
Proof. intros E. rewrite omap_app. cbn [omap list_omap]. unfold decoded at 2. cbn [ce_call ce_time ce_reply]. now rewrite E. Qed.

Theorem C85_key_suffices : forall D cid q tr s i since b r a seed key x sk caller t1 t2 t3 now target,
  deps_ok D -> (length cid <= 29)%nat -> (6 <= q)%nat -> calls (with_k256 D) cid q tr s ->
  since_boot (omap (decoded q) tr) i since ->
  since = b ++ r :: a -> ev_op r = RawRand (Some seed) -> Forall (fun e => forall o, ev_op e <> RawRand o) b ->
  address_of_key D key x ->
  ~ bad_key D sk -> blen sk < two64 -> (forall l sg y n exp pk, In l since -> ~ logged_in l sg y sk n exp pk) ->
  Forall (fun e => ce_time e <= t1) tr -> t1 <= t2 -> t2 < t1 + sign_in_window i ->
  t2 <= t3 -> t3 < t2 + one_minute -> t3 < u64_max ->
  now <= t1 + session_window i -> now <= u64_max -> (forall t ts, targets_of i t -> t = Some ts -> In target ts) ->
  exists text n, (exists sg, wallet_signature (d_keccak D) key text sg) /\
    forall sg, wallet_signature (d_keccak D) key text sg -> exists exp pk c,
    exp = N.min (t1 + session_window i) u64_max /\ pk = create_user_canister_pubkey cid (user_seed D i x) /\
    (forall certificate d, calls (with_k256 D) cid q (tr ++ take 2 (sign_in_calls t1 t2 t3 caller certificate x text n sg sk exp pk d)) (Some c)) /\
    forall certificate, blen certificate < two64 ->
    (exists d, calls (with_k256 D) cid q (tr ++ sign_in_calls t1 t2 t3 caller certificate x text n sg sk exp pk d) (Some c) /\
       dl_pubkey (sd_delegation d) = sk /\ replica_accepts D cid (c_certified c) certificate now target pk d) \/
    (exists l sg' y sk' n' exp pk exp' t, In l since /\ logged_in l sg' y sk' n' exp pk /\ sk' <> sk /\ targets_of i t /\
       delegation_collision D t sk' exp sk exp').
Proof.
  intros D cid q tr s i since b r a seed key x sk caller t1 t2 t3 now target HD Lc Hq H Hb Es Er Fb
    (Q & addr & Hk & Hka & Ex) Hgood Lsk Hfresh Ht1 H12 H2w H23 H3m H3u Hnow Hnow64 Htg.
  pose proof (with_k256_ok D HD) as HD'. pose proof (calls_exec _ _ _ _ _ H) as He.
  assert (address_text (with_k256 D) x addr) as Ha.
  { split; [|exact Ex]. destruct Hka as (? & ? & ? & ? & ? & _ & _ & _ & _ & L). exact L. }
  assert (text_fine x) as Fx.
  { apply (short_fine x 42).
    - pose proof (eth_address_new_eip55 D addr HD (proj1 Ha)) as En. apply address_new_fine in En; [|exact HD]. rewrite Ex. exact En.
    - eapply address_text_length; eassumption.
    - vm_compute. reflexivity. }
  assert (t1 <= u64_max) as U1 by lia.
  (* the message *)
  destruct (C59_prepares (with_k256 D) cid _ _ i since b r a seed t1 x addr HD' He Hb Es Er Fb Ha U1) as (s1 & text & n & Ep).
  set (c1 := Call MPrepareLogin caller None (js_prepare_login x)).
  assert (call_op q c1 = Some (PrepareLogin x)) as Oc1.
  { apply request_arrives; [exact I|discriminate|discriminate|]. apply js_prepare_carries; [exact Fx|lia]. }
  set (p := mkEvent t1 (PrepareLogin x) (RPrepare (Ok (text, n)))).
  assert (calls (with_k256 D) cid q (tr ++ [mkCallEvent t1 c1 (RPrepare (Ok (text, n)))]) s1) as H1.
  { apply (calls_snoc _ _ _ _ s); [exact H|exact Ht1|exact U1|exact I|]. unfold call_step. rewrite Oc1. exact Ep. }
  pose proof (calls_exec _ _ _ _ _ H1) as He1. unfold c1 in He1. rewrite (decoded_snoc _ _ _ _ _ _ _ _ _ Oc1) in He1. fold p in He1.
  assert (~ boots p) as Nbp by (intros (i' & [E|E] & _); discriminate).
  pose proof (since_boot_snoc _ _ _ p Hb Nbp) as Hb1.
  assert (length n = 20%nat /\ Forall (fun c => In c (bs "0123456789abcdef")) n) as [Ln Cn].
  { eapply (C45_shape (with_k256 D) cid _ s1 p x text n HD' He1); [apply in_app_iff; right; now left|split; reflexivity]. }
  assert (text_fine n) as Fn.
  { apply (short_fine n 20 ); [|exact Ln|vm_compute; reflexivity]. revert Cn. apply List.Forall_impl. intros ch Hch.
    assert (forallb (fun c => nb c <? 128) (bs "0123456789abcdef") = true) as Hall by (vm_compute; reflexivity).
    rewrite forallb_forall in Hall. apply Hall in Hch. lia. }
  exists text, n. split.
  { destruct (C72_every_key D key text HD) as (_ & _ & sg & _ & _ & _ & _ & Hsg); [exact (proj1 Hk)|]. now exists sg. }
  intros sg Hw.
  (* the login *)
  assert (recovers (with_k256 D) text sg x) as Rx.
  { apply recovers_wallet; [exact HD|]. exists key, Q, addr. auto. }
  assert (text_fine sg) as Fsg.
  { destruct Hw as (framed & sb & _ & _ & u & Lb & Hd & Eu). apply hex_denotes_plain in Hd as [Hpl Hlen].
    apply (short_fine _ 132); [rewrite Eu; apply plain_app; [plainly|exact Hpl]|rewrite Eu, app_length, Hlen, Lb; reflexivity|vm_compute; reflexivity]. }
  assert (Forall (fun e => ce_time e <= t2) (tr ++ [mkCallEvent t1 c1 (RPrepare (Ok (text, n)))])) as Ht2.
  { apply List.Forall_app. split; [revert Ht1; apply List.Forall_impl; intros e; lia|constructor; [exact H12|constructor]]. }
  pose proof (calls_times _ _ _ _ _ H1 t2 Ht2) as Ht2'. unfold c1 in Ht2'. rewrite (decoded_snoc _ _ _ _ _ _ _ _ _ Oc1) in Ht2'. fold p in Ht2'.
  destruct (C31_succeeds (with_k256 D) cid _ s1 i (since ++ [p]) since p [] x text n addr sg sk t2 HD' He1 Hb1 eq_refl)
    as [[s2 El]|[(q0 & ? & [] & _)|(q0 & ? & ? & ? & [] & _)]];
    [split; reflexivity|exact Ha|constructor|exact Rx|exact Hgood|exact Ht2'|exact H2w|lia|].
  cbn [ev_time p] in El. set (exp := N.min (t1 + session_window i) u64_max) in *.
  change (user_seed (with_k256 D) i x) with (user_seed D i x) in El.
  set (pk := create_user_canister_pubkey cid (user_seed D i x)) in *.
  set (c2 := Call MLogin caller None (js_login sg x sk n)).
  assert (call_op q c2 = Some (SiweLogin sg x sk n)) as Oc2.
  { apply request_arrives; [exact I|discriminate|discriminate|]. apply js_login_carries; auto; lia. }
  set (l := mkEvent t2 (SiweLogin sg x sk n) (RLogin (Ok (mkDetails exp pk)))).
  assert (calls (with_k256 D) cid q ((tr ++ [mkCallEvent t1 c1 (RPrepare (Ok (text, n)))]) ++ [mkCallEvent t2 c2 (RLogin (Ok (mkDetails exp pk)))]) s2) as H2.
  { apply (calls_snoc _ _ _ _ s1); [exact H1|exact Ht2|lia|exact I|]. unfold call_step. rewrite Oc2. exact El. }
  assert (exec (with_k256 D) cid ((omap (decoded q) tr ++ [p]) ++ [l]) s2) as He2.
  { pose proof (calls_exec _ _ _ _ _ H2) as E. unfold c2, c1 in E. rewrite (decoded_snoc _ _ _ _ _ _ _ _ _ Oc2), (decoded_snoc _ _ _ _ _ _ _ _ _ Oc1) in E. exact E. }
  assert (exists ca, s2 = Some ca) as [ca ->].
  { assert (~ boots l) as Nbl by (intros (i' & [E|E] & _); discriminate).
    destruct (exec_since (with_k256 D) cid _ s2 i _ HD' He2 (since_boot_snoc _ _ _ l Hb1 Nbl)) as (ca & _ & -> & _). eauto. }
  exists exp, pk, ca. split; [reflexivity|]. split; [reflexivity|].
  split. { intros certificate d. rewrite <- app_assoc in H2. exact H2. }
  (* the delegation *)
  intros certificate Lcert.
  set (og := GetDelegation (Some certificate) x sk exp).
  set (c3 := Call MGetDelegation caller (Some certificate) (js_get_delegation x sk exp)).
  assert (exp <= u64_max) as Ue by (unfold exp; lia).
  assert (call_op q c3 = Some og) as Oc3.
  { apply request_arrives; [reflexivity|discriminate|discriminate|].
    apply js_get_delegation_carries; auto; [now apply small64|lia]. }
  destruct (step (with_k256 D) cid t3 og (Some ca)) as [s3 rg] eqn:Eg. set (g := mkEvent t3 og rg).
  assert (calls (with_k256 D) cid q (((tr ++ [mkCallEvent t1 c1 (RPrepare (Ok (text, n)))]) ++
    [mkCallEvent t2 c2 (RLogin (Ok (mkDetails exp pk)))]) ++ [mkCallEvent t3 c3 rg]) s3) as H3.
  { apply (calls_snoc _ _ _ _ (Some ca)); [exact H2| |lia|exact I|unfold call_step; rewrite Oc3; exact Eg].
    apply List.Forall_app. split; [revert Ht2; apply List.Forall_impl; intros e; lia|constructor; [exact H23|constructor]]. }
  assert (exec (with_k256 D) cid ((omap (decoded q) tr ++ [p]) ++ l :: [] ++ [g]) s3) as He3.
  { pose proof (calls_exec _ _ _ _ _ H3) as E. unfold c3, c2, c1 in E. rewrite (decoded_snoc _ _ _ _ _ _ _ _ _ Oc3), (decoded_snoc _ _ _ _ _ _ _ _ _ Oc2), (decoded_snoc _ _ _ _ _ _ _ _ _ Oc1) in E.
    cbn [app]. rewrite cons_middle, app_assoc. exact E. }
  destruct (C36_available_partial (with_k256 D) cid _ l [] g s3 sg x sk n exp pk certificate i (since ++ [p]) HD' He3)
    as [(rd & Hd)|(l' & sg' & x' & sk' & n' & exp' & pk' & t & I' & L' & T' & _ & Hsk & _)];
    [split; reflexivity|constructor|exact Hb1| |reflexivity|exact H3m|exact H3u| |].
  { intros l' sg' n' pk' I' L'. apply in_app_iff in I' as [I'|[<-|[]]]; [eapply Hfresh; eassumption|destruct L'; discriminate]. }
  - left. pose proof Hd as [_ Erd]. cbn [ev_reply g] in Erd.
    assert (~ boots l) as Nbl by (intros (i' & [E|E] & _); discriminate).
    pose proof (since_boot_snoc _ _ _ l Hb1 Nbl) as Hb2.
    assert (s3 = Some ca) as ->.
    { unfold og in Eg. cbn [step] in Eg. unfold run_query in Eg. destruct (siwe_get_delegation _ _ _ _ _ _ _); congruence. }
    exists rd.
    split. { rewrite Erd in H3. rewrite <- !app_assoc in H3. exact H3. }
    assert (exec (with_k256 D) cid (((omap (decoded q) tr ++ [p]) ++ [l]) ++ [g]) (Some ca)) as He3'.
    { cbn [app] in He3. rewrite cons_middle, app_assoc in He3. exact He3. }
    assert (resynced (with_k256 D) ((since ++ [p]) ++ [l])) as Hres.
    { intros before e after E [(? & ? & ? & ? & ? & _ & _ & Erj) _]. exists l. destruct after as [|z after] using rev_ind; [exfalso|].
      - apply app_inj_tail in E as [_ <-]. discriminate.
      - clear IHafter. rewrite app_comm_cons, app_assoc in E. apply app_inj_tail in E as [_ <-].
        split; [apply in_app_iff; right; now left|]. repeat eexists. }
    split.
    + destruct (C35_logged_in (with_k256 D) cid _ g _ certificate x sk exp rd HD' He3' Hd)
        as (? & ? & ? & ? & ? & ? & ? & ? & ? & ? & ? & ? & _ & _ & _ & _ & _ & -> & _). reflexivity.
    + eapply (C62_accepted (with_k256 D) cid _ g (Some ca) ca certificate x sk exp rd i _ l sg sk n exp pk now target);
        [exact HD'|exact He2|exact He3'|exact Hd|exact Hb2|exact Hres|apply in_app_iff; right; now left|split; reflexivity|exact Lc|exact Lcert|lia|exact Htg].
  - right. apply in_app_iff in I' as [I'|[<-|[]]]; [|destruct L'; discriminate].
    destruct Hsk as [[-> ->]|C]; [exfalso; eapply Hfresh; eassumption|].
    exists l', sg', x', sk', n', exp', pk', exp, t. split; [exact I'|]. split; [exact L'|]. split; [|auto].
    intros ->. eapply Hfresh; eassumption.
Qed.

(** Concrete: the owner of the private key 5, from the installation of the canister on. *)
Definition key5 : Z := 5.
Example C85_case : exists tr c x text n sg exp pk, address_of_key CD key5 x /\ wallet_signature (d_keccak CD) key5 text sg /\
  forall certificate, blen certificate < two64 -> exists d,
  calls (with_k256 CD) demo_cid 6 (tr ++ sign_in_calls (2 * sec) (3 * sec) (4 * sec) [x04] certificate x text n sg key1 exp pk d) (Some c) /\
  replica_accepts CD demo_cid (c_certified c) certificate (1000 * sec) (bs "any") pk d.
Proof.
  set (script := [(0, Install demo_input); (1 * sec, RawRand (Some (repeat x07 32)))]).
  set (tr := [mkEvent 0 (Install demo_input) RDone; mkEvent (1 * sec) (RawRand (Some (repeat x07 32))) RDone]).
  assert (exec (with_k256 CD) demo_cid tr (snd (play (with_k256 CD) demo_cid script None))) as H.
  { apply (play_exec _ _ script); [vm_compute; reflexivity|].
    replace tr with (fst (play (with_k256 CD) demo_cid script None)) by (vm_compute; reflexivity). apply surjective_pairing. }
  destruct (C80_every_history (with_k256 CD) demo_cid 6 tr _ (le_n 6) H) as (msgs & Hm & Ed & Et & _).
  { unfold tr. repeat first [apply List.Forall_nil | apply List.Forall_cons]; cbn [ev_op op_fine]; try exact I;
      repeat first [split | plain_fine | exact I | (vm_compute; reflexivity)]. }
  destruct (C85_key_suffices CD demo_cid 6 msgs (snd (play (with_k256 CD) demo_cid script None)) demo_input [mkEvent (1 * sec) (RawRand (Some (repeat x07 32))) RDone]
    [] (mkEvent (1 * sec) (RawRand (Some (repeat x07 32))) RDone) [] (repeat x07 32) key5 five_text key1 [x04]
    (2 * sec) (3 * sec) (4 * sec) (1000 * sec) (bs "any"))
    as (text & n & [sg Hsg] & Hall);
    [exact CD_ok|vm_compute; lia|lia|exact Hm| |reflexivity|reflexivity|constructor| | |vm_compute; reflexivity| |
     |vm_compute; discriminate|vm_compute; reflexivity|vm_compute; discriminate|vm_compute; reflexivity|vm_compute; reflexivity
     |vm_compute; discriminate|vm_compute; discriminate| |].
  - rewrite Ed. exists [], (mkEvent 0 (Install demo_input) RDone). split; [reflexivity|]. split; [split; [left; reflexivity|reflexivity]|].
    repeat constructor; intros (i & [E|E] & _); discriminate.
  - exists (Aff (fst five_Q) (snd five_Q)), five_addr. split; [exact five_key|]. split; [exact five_address|vm_compute; reflexivity].
  - intros [E|E]; [discriminate|apply E; vm_compute; reflexivity].
  - intros l sg y n exp pk [<-|[]] [E _]. discriminate.
  - apply List.Forall_forall. intros e He. assert (In (ce_time e) (map ev_time tr)) as I0 by (rewrite <- Et; now apply in_map).
    destruct I0 as [<-|[<-|[]]]; vm_compute; discriminate.
  - intros t ts Ht ->. cbn in Ht. discriminate.
  - destruct (Hall sg Hsg) as (exp & pk & c & _ & _ & _ & Hd).
    exists msgs, c, five_text, text, n, sg, exp, pk. split; [|split; [exact Hsg|]].
    { exists (Aff (fst five_Q) (snd five_Q)), five_addr. split; [exact five_key|]. split; [exact five_address|vm_compute; reflexivity]. }
    intros certificate Lcert.
    destruct (Hd certificate Lcert) as [(d & Hc & _ & Ha)|(l & ? & ? & ? & ? & ? & ? & ? & ? & [<-|[]] & [E _] & _)];
      [exists d; auto|discriminate].
Qed.

(** The same request is a case of C84. *)
Example C84_case : exists tr c pk d, (length demo_cid <= 29)%nat /\ calls (with_k256 CD) demo_cid 6 tr (Some c) /\
  replica_accepts CD demo_cid (c_certified c) (bs "cert") (1000 * sec) (bs "any") pk d.
Proof.
  destruct C85_case as (tr & c & x & text & n & sg & exp & pk & _ & _ & Hd). destruct (Hd (bs "cert") eq_refl) as (d & H & Ha).
  eexists _, c, pk, d. split; [vm_compute; lia|]. split; [exact H|exact Ha].
Qed.

Print Assumptions C84_key_behind.
Print Assumptions C85_key_suffices.
Print Assumptions C85_case.
