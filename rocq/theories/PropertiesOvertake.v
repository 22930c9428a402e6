(** Which session key a wallet's signature is good for. *)
From Coq Require Import Strings.String ZifyBool ZifyN ZifyNat.
From Verif Require Import Base BaseLemmas Deps Hex Eth Encode Delegation Login Provider SpecEth SpecHash SpecTree SpecTrace SpecWire SpecAuth
  ProviderProofs DelegationTheory LoginTheory LoginProofs TraceProofs DelegationProofs Concrete Scripts Demo PropertiesLogin PropertiesDelegation PropertiesAuth
  Client SpecClient ClientProofs ClientDemo PropertiesClient.
Local Open Scope N_scope.

(** ** C98  A wallet's signature is good for one session key only *)

Definition C98_claim (D : Deps) : Prop :=
  forall cid tr1 l1 s1 tr2 l2 s2 sg x sk1 sk2 n exp1 exp2 pk1 pk2,
    exec D cid (tr1 ++ [l1]) s1 -> exec D cid (tr2 ++ [l2]) s2 ->
    logged_in l1 sg x sk1 n exp1 pk1 -> logged_in l2 sg x sk2 n exp2 pk2 -> sk1 = sk2.

(** It is false: the message that is signed does not mention the session key.  Where a
    login succeeds, one with the same signature and any other acceptable key would have
    succeeded, for the same user and as long. *)
Theorem C98_any_key : forall D cid tr l s sg x sk n exp pk sk', deps_ok D -> exec D cid (tr ++ [l]) s ->
  logged_in l sg x sk n exp pk -> ~ bad_key D sk' ->
  exists s', exec D cid (tr ++ [mkEvent (ev_time l) (SiweLogin sg x sk' n) (RLogin (Ok (mkDetails exp pk)))]) s'.
Proof.
  intros D cid tr l s sg x sk n exp pk sk' HD H [Ho Hr] Hk.
  destruct (login_explained D cid tr l s sg x sk n exp pk HD H (conj Ho Hr)) as (i & st & fl & since & _ & _ & _ & _ & _ & _ & _ & _ & Hs & _).
  apply exec_last in H as (s0 & H0 & Ht & Hu & Hw & Hst). rewrite Ho, Hr in Hst.
  destruct (C34_table D cid tr s0 i since (ev_time l) sg x sk n HD H0 Hs Ht) as (s1 & r1 & E1 & T1).
  rewrite E1 in Hst. injection Hst as _ Er. subst r1.
  destruct (C34_table D cid tr s0 i since (ev_time l) sg x sk' n HD H0 Hs Ht) as (s2 & r2 & E2 & T2).
  assert (r2 = Ok (mkDetails exp pk)) as ->.
  { inversion T1 as [| | | | | |b sb text t pk' Ha Hsg Haw Hrec _ Epk Ed]. subst.
    eapply (login_table_fun D cid i since (ev_time l) sg x sk' n); [exact HD|exact T2|].
    eapply row_ok; eauto. destruct (key_error D sk') eqn:E; [|reflexivity]. exfalso. apply Hk, key_error_bad. congruence. }
  exists s2. apply (exec_snoc D cid tr s0); auto. exact I.
Qed.

(** So whoever sees the request before the canister executes it - nothing of it is secret
    from boundary nodes and replicas - can get ahead of it with a key of their own.  They act
    as the user, and the user's own login fails. *)
Theorem C98_overtaken : forall D cid tr l s sg x sk n exp pk sk' i since t1 t2 cert now target,
  deps_ok D -> (length cid <= 29)%nat -> exec D cid (tr ++ [l]) s -> logged_in l sg x sk n exp pk ->
  since_boot tr i since -> ~ bad_key D sk' -> (forall e sg y n exp pk, In e since -> ~ logged_in e sg y sk' n exp pk) ->
  ev_time l <= t1 <= t2 -> t2 < ev_time l + one_minute -> t2 < u64_max -> blen cert < 2 ^ 64 ->
  now <= exp -> (forall t ts, targets_of i t -> t = Some ts -> In target ts) ->
  (exists d c, exec D cid (tr ++ [mkEvent (ev_time l) (SiweLogin sg x sk' n) (RLogin (Ok (mkDetails exp pk)));
       mkEvent t1 (SiweLogin sg x sk n) (RLogin (Err (bs "Message not found")));
       mkEvent t2 (GetDelegation (Some cert) x sk' exp) (RDelegation (Ok d))]) (Some c) /\
     dl_pubkey (sd_delegation d) = sk' /\ replica_accepts D cid (c_certified c) cert now target pk d) \/
  (exists e sg' y sk2 n' exp2 pk' t, In e since /\ logged_in e sg' y sk2 n' exp2 pk' /\ sk2 <> sk' /\ targets_of i t /\
     delegation_collision D t sk2 exp2 sk' exp).
Proof.
  intros D cid tr l s sg x sk n exp pk sk' i since t1 t2 cert now target HD Lc H Hl Hs Hk Hfresh H12 H2 H2u Lcert Hnow Htg.
  destruct (C98_any_key D cid tr l s sg x sk n exp pk sk' HD H Hl Hk) as [s1 H1].
  set (th := mkEvent (ev_time l) (SiweLogin sg x sk' n) (RLogin (Ok (mkDetails exp pk)))) in *.
  assert (logged_in th sg x sk' n exp pk) as Lth by (split; reflexivity).
  assert (forall e, ev_op e = SiweLogin sg x sk' n \/ ev_op e = SiweLogin sg x sk n -> ~ boots e) as Nb
    by (intros e [E|E] (k & [E'|E'] & _); congruence).
  pose proof (since_boot_snoc _ _ _ th Hs (Nb th (or_introl eq_refl))) as Hs1.
  destruct (login_explained D cid tr th s1 sg x sk' n exp pk HD H1 Lth)
    as (i' & st & fl & since' & bef & p & aft & x' & b & b' & n' & text & _ & _ & _ & _ & Ha & _ & _ & _ & _ & Rx & _ & _ & Eexp & _).
  assert (exists sb, signature_text sg sb) as [sb Hsb] by (destruct Rx as (rs & v & ? & ? & ? & ? & Hsb & _); eauto).
  (* the user's own login *)
  pose proof H1 as H1'. apply exec_last in H1' as (s0 & H0 & Ht & Hu & _ & _).
  assert (Forall (fun e => ev_time e <= ev_time l) (tr ++ [th])) as Ht1.
  { apply List.Forall_app. split; [exact Ht|]. constructor; [cbn; lia|constructor]. }
  set (oo := SiweLogin sg x sk n). destruct (step D cid t1 oo s1) as [s2 ro] eqn:Eo.
  assert (exec D cid ((tr ++ [th]) ++ [mkEvent t1 oo ro]) s2) as H2'.
  { apply (exec_snoc D cid _ s1); auto; [|lia|exact I]. revert Ht1. apply List.Forall_impl. intros e. lia. }
  assert (ro = RLogin (Err (bs "Message not found"))) as Ero.
  { change ro with (ev_reply (mkEvent t1 oo ro)). eapply (C29_burnt D cid tr th [] (mkEvent t1 oo ro) s2 sg x sk n b sb HD);
      [|exists sg, sk', b, sb; auto|exists i, (since ++ [th]); exact Hs1|intros q ? ? ? ? []|reflexivity|exact Ha|exact Hsb].
    rewrite <- app_assoc in H2'. exact H2'. }
  subst ro. set (ow := mkEvent t1 oo (RLogin (Err (bs "Message not found")))) in *.
  pose proof (since_boot_snoc _ _ _ ow Hs1 (Nb ow (or_intror eq_refl))) as Hs2.
  (* the delegation *)
  set (og := GetDelegation (Some cert) x sk' exp). destruct (step D cid t2 og s2) as [s3 rg] eqn:Eg. set (g := mkEvent t2 og rg).
  assert (exp <= u64_max) as Ue by (rewrite Eexp; unfold sat_add; lia).
  assert (exec D cid (((tr ++ [th]) ++ [ow]) ++ [g]) s3) as H3.
  { apply (exec_snoc D cid _ s2); auto; [|lia]. apply List.Forall_app. split.
    - revert Ht1. apply List.Forall_impl. intros e. lia.
    - constructor; [cbn; lia|constructor]. }
  assert (exec D cid (tr ++ th :: [ow] ++ [g]) s3) as H3' by (rewrite <- !app_assoc in H3; exact H3).
  destruct (C36_available_partial D cid tr th [ow] g s3 sg x sk' n exp pk cert i since HD H3' Lth)
    as [(rd & Hd)|(e & sg' & y & sk2 & n2 & exp2 & pk2 & t & I2 & L2 & T2 & _ & Hsk & _)];
    [constructor; [apply Nb; now right|constructor]|exact Hs| |reflexivity|exact H2|exact H2u| |].
  { intros e sg' n2 pk2 Ie. now apply Hfresh. }
  - left. pose proof Hd as [_ Erd]. cbn [ev_reply g] in Erd.
    destruct (exec_since D cid _ s2 i _ HD H2' Hs2) as (ca & _ & Es2 & _). subst s2.
    assert (exists cb, s3 = Some cb /\ c_certified cb = c_certified ca) as (cb & -> & Ecb).
    { unfold og in Eg. cbn [step] in Eg. unfold run_query in Eg. destruct (siwe_get_delegation _ _ _ _ _ _ _); [|congruence].
      exists ca. split; [congruence|reflexivity]. }
    exists rd, cb. split. { unfold g in H3'. rewrite Erd in H3'. exact H3'. }
    assert (resynced D ((since ++ [th]) ++ [ow])) as Hres.
    { intros before e after E [(? & ? & ? & ? & t & _ & _ & Erj) _]. exists th. destruct after as [|z after] using rev_ind; [exfalso|].
      - apply app_inj_tail in E as [_ <-]. discriminate.
      - clear IHafter. rewrite app_comm_cons, app_assoc in E. apply app_inj_tail in E as [E _].
        destruct after as [|z' after] using rev_ind; [apply app_inj_tail in E as [_ <-]; discriminate|clear IHafter].
        rewrite app_comm_cons, app_assoc in E. apply app_inj_tail in E as [_ <-].
        split; [apply in_app_iff; left; apply in_app_iff; right; now left|]. repeat eexists. }
    split.
    + destruct (C35_logged_in D cid _ g _ cert x sk' exp rd HD H3 Hd)
        as (? & ? & ? & ? & ? & ? & ? & ? & ? & ? & ? & ? & _ & _ & _ & _ & _ & -> & _). reflexivity.
    + rewrite Ecb. eapply (C62_accepted D cid _ g (Some cb) ca cert x sk' exp rd i _ th sg sk' n exp pk now target);
        [exact HD|exact H2'|exact H3|exact Hd|exact Hs2|exact Hres|apply in_app_iff; left; apply in_app_iff; right; now left|exact Lth|exact Lc|exact Lcert|exact Hnow|exact Htg].
  - right. destruct Hsk as [[-> ->]|C]; [exfalso; eapply Hfresh; eassumption|].
    exists e, sg', y, sk2, n2, exp2, pk2, t. split; [exact I2|]. split; [exact L2|]. split; [|auto].
    intros ->. eapply Hfresh; eassumption.
Qed.

(** In one history it holds: a further login with the address and nonce takes a further
    message with them. *)
Theorem C98_one_history_partial : forall D cid tr1 l1 tr2 l2 s sg1 sg2 x sk1 sk2 n exp1 exp2 pk1 pk2, deps_ok D ->
  exec D cid (tr1 ++ l1 :: tr2 ++ [l2]) s -> logged_in l1 sg1 x sk1 n exp1 pk1 -> logged_in l2 sg2 x sk2 n exp2 pk2 ->
  (exists p text, In p tr2 /\ prepared p x text n) \/
  (exists p x' text n' b b', In p tr2 /\ prepared p x' text n' /\ address_text D x b /\ address_text D x' b' /\
     collision (d_sha256 D) (message_key_input b' n') (message_key_input b n)).
Proof.
  intros D cid tr1 l1 tr2 l2 s sg1 sg2 x sk1 sk2 n exp1 exp2 pk1 pk2 HD H H1 H2.
  destruct (C28_once D cid tr1 l1 tr2 l2 s sg1 sg2 x sk1 sk2 n exp1 exp2 pk1 pk2 HD H H1 H2)
    as (p & x' & text & n' & b & b' & Ip & Hp & _ & Ha & Ha' & [[-> ->]|C]); [left; eauto|right].
  exists p, x', text, n', b, b'. auto.
Qed.

Lemma key2_fine : ~ bad_key CD key2.
Proof. intros [E|E]; [discriminate E|]. apply E. vm_compute. reflexivity. Qed.

Theorem C98_claim_refuted : ~ C98_claim CD.
Proof.
  intros Hc. destruct (demo_snoc 4) as [s H]; [lia|].
  assert (exists sg n exp pk, logged_in (demo_at 4) sg alice_text key1 n exp pk) as (sg & n & exp & pk & Hl) by (do 4 eexists; split; reflexivity).
  destruct (C98_any_key CD demo_cid _ _ _ sg _ key1 n exp pk key2 CD_ok H Hl key2_fine) as [s' H'].
  assert (key1 = key2) as E; [|discriminate E].
  eapply (Hc demo_cid _ _ _ _ _ _ sg alice_text key1 key2 n); [exact H|exact H'|exact Hl|split; reflexivity].
Qed.

(** Concrete: Alice's login in the demo, overtaken by somebody with another key. *)
Example C98_case : exists s sg n exp pk, exec CD demo_cid (take 4 demo_tr ++ [demo_at 4]) (Some s) /\
  logged_in (demo_at 4) sg alice_text key1 n exp pk /\ since_boot (take 4 demo_tr) demo_input (drop 1 (take 4 demo_tr)) /\
  ~ bad_key CD key2 /\ (forall e sg y n exp pk, In e (drop 1 (take 4 demo_tr)) -> ~ logged_in e sg y key2 n exp pk) /\
  ev_time (demo_at 4) = 3 * sec /\ 4 * sec <= exp /\ targets_of demo_input None.
Proof.
  destruct (demo_snoc 4) as [s H]; [lia|]. exists s. do 4 eexists. split; [exact H|]. split; [split; reflexivity|].
  split; [apply (demo_since 4); lia|]. split; [exact key2_fine|]. split.
  { intros e sg y n exp pk I [Ho _]. unfold demo_tr in I. cbn [take drop In] in I.
    repeat (destruct I as [I|I]; [subst e; discriminate Ho|]). exact I. }
  split; [reflexivity|]. split; [vm_compute; discriminate|reflexivity].
Qed.

(** And seen from Alice's tab: her login() fails although she did everything right, and the
    other one is given a delegation for the public key that is hers. *)
Definition until_submitted : list cact := opening ++ On ALogin :: asks 0 (2 * sec) alice_text ++ [Signs 0 alice pair1; On (AContinue 0 SActor)].
Definition submitted_acts : list action := Eval vm_compute in acts_of until_submitted.
Definition overtaken_acts : list action := Eval vm_compute in
  match perform CD demo_cid 0 submitted_acts initial_world with
  | Some w =>
      match w_tasks w with
      | [TLogin a n sg k None] =>
          submitted_acts ++ [ACanister (3 * sec) (SiweLogin sg a (kp_der pair2) n); AServe 0 (3 * sec) (bs "cert"); AContinue 0 SReply;
                             ACanister (4 * sec) (GetDelegation (Some (bs "cert")) a (kp_der pair2) (1802 * sec))]
      | _ => []
      end
  | None => []
  end.
Definition overtaken_view := Eval vm_compute in view_of (sees overtaken_acts).
Example C98_tab_case : exists w l g sg n exp pk r, runs CD demo_cid overtaken_acts w /\
  w_tasks w = [TThrown (bs "Message not found")] /\ x_identity (w_ctx w) = None /\
  In l (w_history w) /\ logged_in l sg alice_text (kp_der pair2) n exp pk /\
  In g (w_history w) /\ delegated g (bs "cert") alice_text (kp_der pair2) exp r.
Proof.
  run_of overtaken_acts overtaken_view w H.
  exists w, (nth 3 (w_history w) (demo_at 0)), (nth 5 (w_history w) (demo_at 0)). rewrite Hh, Hts, Hx.
  do 5 eexists. split; [exact H|]. split; [reflexivity|]. split; [reflexivity|].
  split; [cbn; tauto|]. split; [split; reflexivity|]. split; [cbn; tauto|]. split; reflexivity.
Qed.

Print Assumptions C98_any_key.
Print Assumptions C98_overtaken.
Print Assumptions C98_one_history_partial.
Print Assumptions C98_claim_refuted.
