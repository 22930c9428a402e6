(** C44-C47: calls that leave no trace, nonces, and the store of sign-in messages. *)
From Coq Require Import Strings.String ZifyBool ZifyN ZifyNat.
From Verif Require Import Base BaseLemmas Deps Hex Eth Hash HashTree RbTree SigMap Time3339 Settings Siwe Encode
  Delegation Login Provider SpecEth EthProofs SpecHash DelegationProofs SpecWire WireProofs SpecTree SigMapProofs
  MapRuns SpecSiwe SiweProofs SpecInit SettingsProofs SpecTrace LoginProofs ProviderProofs TraceProofs LoginTheory
  CallProofs Concrete Scripts Demo.
Local Open Scope N_scope.

(** ** C44  Trapping and query calls leave no trace *)

Theorem C44_trap : forall D cid now o s s' w, step D cid now o s = (s', RTrap w) -> s' = s.
Proof. exact trap_rollback. Qed.

Theorem C44_query : forall D cid now o s,
  match o with GetDelegation _ _ _ _ | GetAddress _ | GetCallerAddress _ | GetPrincipal _ => True | _ => False end ->
  fst (step D cid now o s) = s.
Proof. intros D cid now o s Ho. destruct o; try contradiction; destruct s; reflexivity. Qed.

(** Before the random seed has arrived siwe_prepare_login traps. *)
Theorem C44_unseeded : forall D cid tr s i since now x b, deps_ok D ->
  exec D cid tr s -> since_boot tr i since ->
  (forall e seed, In e since -> ev_op e <> RawRand (Some seed)) -> address_text D x b ->
  exists w, step D cid now (PrepareLogin x) s = (s, RTrap w).
Proof.
  intros D cid tr s i since now x b HD H Hb Hno Ha.
  destruct (exec_since D cid tr s i since HD H Hb) as (c & st & -> & Hi & _).
  destruct (address_cases D x HD) as [(err & E & Nx)|(b' & Ax & E & _)]; [now apply Nx in Ha|].
  destruct (prepare_unseeded D now x c E (unseeded _ _ _ _ _ _ _ Hi Hno)) as [w Ew].
  exists w. cbn [step]. rewrite Ew. reflexivity.
Qed.

(** An Err reply of siwe_prepare_login leaves no trace either. *)
Theorem C44_prepare_error : forall D cid now x s s' err,
  step D cid now (PrepareLogin x) s = (s', RPrepare (Err err)) -> s' = s.
Proof.
  intros D cid now x [c|] s' err H; [|discriminate]. cbn [step] in H. unfold siwe_prepare_login in H.
  destruct (eth_address_new D x) as [[a|e]|w]; cbn [obind run_update] in H; [|congruence|congruence].
  destruct (prepare_login D now (c_lib c) a) as [[lib [m n]]|w]; cbn [obind run_update] in H; [|congruence].
  destruct (siwe_to_string m); cbn [obind run_update] in H; congruence.
Qed.

(** Concrete: right after installation. *)
Example C44_case : exists s b w, exec CD demo_cid (take 1 demo_tr) (Some s) /\
  since_boot (take 1 demo_tr) demo_input [] /\ address_text CD (wallet_address CD alice) b /\
  step CD demo_cid 1 (PrepareLogin (wallet_address CD alice)) (Some s) = (Some s, RTrap w).
Proof.
  destruct (demo_prefix 1) as [s H]; [lia|]. pose proof (demo_since 1 ltac:(lia)) as Hb.
  assert (address_text CD (wallet_address CD alice) (drop 12 (d_keccak CD alice))) as Ha by (split; vm_compute; reflexivity).
  assert (forall e seed, In e (take (1 - 1) (drop 1 demo_tr)) -> ev_op e <> RawRand (Some seed)) as Hno by intros ? ? [].
  destruct (C44_unseeded CD demo_cid _ _ _ _ 1 _ _ CD_ok H Hb Hno Ha) as [w Hw].
  eexists s, _, w. split; [exact H|]. split; [exact Hb|]. split; [exact Ha|exact Hw].
Qed.

(** ** C45  Nonces come from disjoint parts of the random stream *)

(** Every nonce is the hexadecimal text of the block of the random stream whose number
    is the count of messages prepared before it, and the stream's seed was the first
    reply to raw_rand after the last install or upgrade. *)
Theorem C45_position : forall D cid tr s i since p0 x0 text0 n0, deps_ok D ->
  exec D cid tr s -> since_boot tr i since -> In p0 since -> prepared p0 x0 text0 n0 ->
  exists seed b r a, since = b ++ r :: a /\ ev_op r = RawRand (Some seed) /\
    Forall (fun e => forall o, ev_op e <> RawRand o) b /\
    forall before p after x text n, since = before ++ p :: after -> prepared p x text n ->
      n = lower_hex (d_chacha D seed (prepared_count before)).
Proof.
  intros D cid tr s i since p0 x0 text0 n0 HD H Hb Hin Hp0.
  destruct (exec_since D cid tr s i since HD H Hb) as (c & st & -> & Hi & _).
  apply in_split in Hin as (l1 & l2 & Es).
  destruct (prepared_seeded _ _ _ _ _ _ _ _ _ _ _ _ _ Hi Es Hp0) as (r & Er & _).
  pose proof (inv_seed _ _ _ _ _ _ _ Hi) as [_ Hsd]. rewrite Er in Hsd. destruct Hsd as (bb & e & aa & Es' & Ho & HF).
  exists (rng_seed r), bb, e, aa. split; [exact Es'|]. split; [exact Ho|]. split.
  { revert HF. apply List.Forall_impl. intros q Hq o Eo. unfold is_raw_rand in Hq. rewrite Eo in Hq. discriminate. }
  intros bef p aft x text n E Hp. destruct (prepared_seeded _ _ _ _ _ _ _ _ _ _ _ _ _ Hi E Hp) as (r' & Er' & ->).
  rewrite lower_hex_encode. congruence.
Qed.

(** So two messages never use the same position. *)
Theorem C45_disjoint : forall D cid tr s i since l1 p1 l2 p2 l3 x1 x2 text1 text2 n1 n2, deps_ok D ->
  exec D cid tr s -> since_boot tr i since -> since = l1 ++ p1 :: l2 ++ p2 :: l3 ->
  prepared p1 x1 text1 n1 -> prepared p2 x2 text2 n2 ->
  exists seed k1 k2, k1 < k2 /\ n1 = lower_hex (d_chacha D seed k1) /\ n2 = lower_hex (d_chacha D seed k2).
Proof.
  intros D cid tr s i since l1 p1 l2 p2 l3 x1 x2 text1 text2 n1 n2 HD H Hb Es P1 P2.
  destruct (C45_position D cid tr s i since p1 x1 text1 n1 HD H Hb) as (seed & _ & _ & _ & _ & _ & _ & Hn); [|assumption|].
  { rewrite Es. apply in_app_iff. right. left. reflexivity. }
  exists seed, (prepared_count l1), (prepared_count (l1 ++ p1 :: l2)). split; [eapply prepared_count_lt, P1|].
  split; [eapply Hn; eassumption|]. eapply (Hn (l1 ++ p1 :: l2) p2 l3); [|exact P2]. rewrite Es, <- app_assoc. reflexivity.
Qed.

Theorem C45_shape : forall D cid tr s p x text n, deps_ok D -> exec D cid tr s -> In p tr -> prepared p x text n ->
  length n = 20%nat /\ Forall (fun c => In c (bs "0123456789abcdef")) n.
Proof.
  intros D cid tr s p x text n HD H Hin Hp. apply in_split in Hin as (t1 & t2 & ->). apply exec_at in H as [s1 H].
  apply exec_last in H as (s0 & H & _ & Hu & _ & Hs). destruct Hp as [Ho Hr]. rewrite Ho, Hr in Hs.
  destruct s0 as [c|]; [|discriminate]. cbn [step] in Hs. destruct (exec_inv D cid t1 c HD H) as (i & st & since & Hi).
  destruct (address_cases D x HD) as [(err & E & Nx)|(b & Ax & E & Eb & Eb')].
  { rewrite (prepare_bad_address D _ x err c E) in Hs. cbn [run_update] in Hs. congruence. }
  destruct (ls_rng (c_lib c)) as [rn|] eqn:Ern.
  2:{ destruct (prepare_unseeded D (ev_time p) x c E Ern) as [w Ew]. rewrite Ew in Hs. cbn [run_update] in Hs. congruence. }
  destruct (prepare_ok D (ev_time p) x b c st rn Ax E Eb (inv_settings _ _ _ _ _ _ _ Hi) Ern Hu) as (t & Et & Ep).
  rewrite Ep in Hs. cbn [run_update] in Hs.
  match type of Hs with (_, RPrepare (Ok (_, ?nn))) = _ => assert (n = nn) as -> by congruence end.
  split; [rewrite hex_encode_length, (chacha_len _ HD); reflexivity|].
  rewrite <- lower_hex_encode. unfold lower_hex. apply List.Forall_forall. intros ch Hch.
  apply in_map_iff in Hch as (k & <- & Hk). unfold lower_digit. apply nth_In.
  pose proof (nibbles_lt (d_chacha D (rng_seed rn) (rng_pos rn))) as Hlt. rewrite List.Forall_forall in Hlt.
  specialize (Hlt k Hk). change (length (bs "0123456789abcdef")) with 16%nat. lia.
Qed.

(** Concrete: the first two nonces of the demonstration history. *)
Example C45_case : exists s x1 x2 text1 text2 n1 n2, exec CD demo_cid demo_tr (Some s) /\
  since_boot demo_tr demo_input (drop 1 demo_tr) /\
  drop 1 demo_tr = [demo_at 1] ++ demo_at 2 :: [] ++ demo_at 3 :: drop 4 demo_tr /\
  prepared (demo_at 2) x1 text1 n1 /\ prepared (demo_at 3) x2 text2 n2 /\ n1 <> n2.
Proof.
  destruct demo_exec as [s H].
  exists s, (used_addr (demo_at 2)), (used_addr (demo_at 3)), (prepared_text (demo_at 2)), (prepared_text (demo_at 3)),
    (prepared_nonce (demo_at 2)), (prepared_nonce (demo_at 3)).
  split; [exact H|]. split; [apply (demo_since 13); lia|]. split; [reflexivity|].
  split; [split; reflexivity|]. split; [split; reflexivity|]. apply bytes_eqb_false. vm_compute. reflexivity.
Qed.

(** ** C46  Expired sign-in messages are removed at every login *)

Theorem C46_pruned : forall D cid tr e c' x n, deps_ok D ->
  exec D cid (tr ++ [e]) (Some c') -> login_attempt D e x n -> (exists i since, since_boot tr i since) ->
  forall k m, ls_msgs (c_lib c') !! k = Some m -> ev_time e < m_expiration_time m.
Proof.
  intros D cid tr e c' x n HD H (sg & sk & b & sb & Ho & Ha & Hs) (i & since & Hb) k m Hk.
  apply exec_last in H as (s0 & H & Ht & _ & _ & Hst).
  destruct (exec_since D cid tr s0 i since HD H Hb) as (c & st & -> & Hi & Hc).
  destruct (login_cases D cid (ev_time e) sg x sk n c st HD Hc) as (c1 & r & Er & Hout). rewrite Ho in Hst.
  cbn [step] in Hst. rewrite Er in Hst. cbn [run_update] in Hst. assert (c1 = c') as -> by congruence.
  assert (forall k' m', live (ev_time e) c !! k' = Some m' -> ev_time e < m_expiration_time m') as Hl.
  { intros k' m' Hm. now apply live_lookup in Hm. }
  assert (forall k' m' j, delete j (live (ev_time e) c) !! k' = Some m' -> ev_time e < m_expiration_time m') as Hd.
  { intros k' m' j Hm. apply lookup_delete_Some in Hm as [_ Hm]. eauto. }
  inversion Hout; subst; cbn in Hk; eauto; exfalso;
    match goal with Hn : forall b, ~ _ |- _ => eapply Hn; eassumption end.
Qed.

(** Concrete: the wrong login of the demonstration history, with Bob's message stored
    before and nothing expired after. *)
Example C46_case : exists c x n, exec CD demo_cid (take 5 demo_tr ++ [demo_at 5]) (Some c) /\
  login_attempt CD (demo_at 5) x n /\ (exists i since, since_boot (take 5 demo_tr) i since).
Proof.
  destruct (demo_snoc 5) as [c H]; [lia|].
  destruct (signature_cases (login_sig (demo_at 5))) as [(e & E & _)|(sb & Hs & _ & Esb)]; [exfalso; vm_compute in E; discriminate|].
  exists c, (login_addr (demo_at 5)), (login_nonce (demo_at 5)). split; [exact H|]. split.
  - exists (login_sig (demo_at 5)), key2, (drop 12 (d_keccak CD bob)), sb. split; [vm_compute; reflexivity|].
    split; [split; vm_compute; reflexivity|exact Hs].
  - exists demo_input, (take 4 (drop 1 demo_tr)). apply (demo_since 5). lia.
Qed.

(** ** C47  The number of stored sign-in messages stays bounded *)

(** Refuted.  Only siwe_login with well-formed arguments prunes: as long as there is
    none, every message prepared since the last install or upgrade stays stored,
    expired or not. *)
Theorem C47_never_pruned : forall D cid tr c i since p x text n b, deps_ok D ->
  exec D cid tr (Some c) -> since_boot tr i since ->
  Forall (fun e => forall x n, ~ login_attempt D e x n) since ->
  In p since -> prepared p x text n -> address_text D x b ->
  is_Some (ls_msgs (c_lib c) !! message_key D b n).
Proof.
  intros D cid tr c i since p x text n b HD H Hb HF Hin Hp Ha. eapply all_prepared_kept; eauto.
Qed.

(** So [k] calls of siwe_prepare_login for one address store [k] messages, and all of
    them are still there when they have long expired, unless two of the nonces have
    equal keys. *)
Theorem C47_grows : forall D cid i s fl seed x b k, deps_ok D -> input_wf i -> siwe_init D cid i = Done (s, fl) ->
  address_text D x b -> length seed = 32%nat ->
  exists tr e c, exec D cid (tr ++ [e]) (Some c) /\ length tr = (k + 2)%nat /\
    Forall (fun e => forall sg x sk n, ev_op e <> SiweLogin sg x sk n) (tr ++ [e]) /\
    (forall key m, ls_msgs (c_lib c) !! key = Some m -> m_expiration_time m <= ev_time e) /\
    (size (ls_msgs (c_lib c)) = k \/
     exists j1 j2, (j1 < j2 < k)%nat /\
       message_key D b (lower_hex (d_chacha D seed (N.of_nat j1))) = message_key D b (lower_hex (d_chacha D seed (N.of_nat j2)))).
Proof.
  intros D cid i s fl seed x b k HD Hwf Hinit Ha Hsd.
  destruct (flood D cid i s fl seed x b HD Hwf Hinit Ha Hsd k) as (tr & c & H & Hl & Hb & HF & _ & _ & Hkeys & Hsize).
  destruct (step D cid u64_max (GetAddress []) (Some c)) as [s' r] eqn:Es.
  assert (s' = Some c) as -> by (cbn [step] in Es; unfold run_query in Es; congruence).
  exists tr, (mkEvent u64_max (GetAddress []) r), c. split.
  { apply (exec_snoc D cid tr (Some c) u64_max (GetAddress [])); [exact H| |lia|exact I|exact Es].
    revert HF. apply List.Forall_impl. intros q [-> _]. unfold u64_max. lia. }
  split; [exact Hl|]. split.
  { apply List.Forall_app. split; [|repeat constructor; discriminate]. revert HF. apply List.Forall_impl. intros q [_ Hq]. exact Hq. }
  split.
  - intros key m Hm. cbn [ev_time].
    destruct (exec_inv D cid tr c HD H) as (i' & st & since & Hi).
    destruct (inv_from _ _ _ _ _ _ _ Hi _ _ Hm) as (aft & bef & p & x' & b' & n & text & _ & _ & _ & _ & -> & _).
    apply sat_add_le.
  - destruct Hsize as [(j1 & j2 & Hj & Ej)|Hsize]; [|auto]. right. exists j1, j2. split; [exact Hj|].
    unfold flood_key in Ej. rewrite !lower_hex_encode. exact Ej.
Qed.

(** A concrete generator and hash for which no two keys are equal: the generator
    counts, the hash keeps the last 32 bytes. *)
Fixpoint count_bytes (w : nat) (k : N) : bytes :=
  match w with O => [] | S w => u8 k :: count_bytes w (k / 256) end.
Definition last32 (l : bytes) : bytes := drop (length (l ++ repeat x00 32) - 32) (repeat x00 32 ++ l).
Definition FD : Deps := {|
  d_sha256 := last32; d_sha224 := d_sha224 CD; d_keccak := d_keccak CD; d_sig_ok := d_sig_ok CD;
  d_recover := d_recover CD; d_der_err := d_der_err CD; d_url_parse := d_url_parse CD;
  d_chacha := fun _ k => count_bytes 10 k |}.

Lemma count_bytes_length w k : length (count_bytes w k) = w.
Proof. revert k. induction w as [|w IH]; intros k; cbn [count_bytes length]; [reflexivity|]. now rewrite IH. Qed.

Lemma count_bytes_inj w : forall j k, j < 256 ^ N.of_nat w -> k < 256 ^ N.of_nat w -> count_bytes w j = count_bytes w k -> j = k.
Proof.
  induction w as [|w IH]; intros j k Hj Hk E.
  - change (256 ^ N.of_nat 0) with 1 in *. lia.
  - assert (256 ^ N.of_nat (S w) = 256 * 256 ^ N.of_nat w) as Ep by (rewrite Nat2N.inj_succ; apply N.pow_succ_r').
    rewrite Ep in Hj, Hk. cbn [count_bytes] in E.
    assert (u8 j = u8 k) as E1 by congruence. assert (count_bytes w (j / 256) = count_bytes w (k / 256)) as E2 by congruence.
    apply (f_equal nb) in E1. rewrite !nb_u8 in E1. apply IH in E2.
    + rewrite (N.div_mod j 256), (N.div_mod k 256) by lia. congruence.
    + apply N.div_lt_upper_bound; lia.
    + apply N.div_lt_upper_bound; lia.
Qed.

Lemma last32_length l : length (last32 l) = 32%nat.
Proof. unfold last32. rewrite drop_length, !app_length, !repeat_length. lia. Qed.

Lemma last32_app l t : (32 <= length t)%nat -> last32 (l ++ t) = drop (length t - 32) t.
Proof.
  intros Ht. unfold last32. rewrite !app_length, repeat_length.
  replace (length l + length t + 32 - 32)%nat with (length (repeat x00 32 ++ l) + (length t - 32))%nat
    by (rewrite app_length, repeat_length; lia).
  rewrite app_assoc, <- drop_drop, drop_app. reflexivity.
Qed.

Lemma FD_ok : deps_ok FD.
Proof.
  constructor; intros.
  - apply last32_length.
  - apply (sha224_len _ CD_ok).
  - apply (keccak_len _ CD_ok).
  - apply count_bytes_length.
Qed.

Definition C47_claim (bound : nat) : Prop :=
  forall D cid tr c, deps_ok D -> exec D cid tr (Some c) -> (size (ls_msgs (c_lib c)) <= bound)%nat.

(** No bound below 2^80 holds. *)
Theorem C47_bounded_refuted : forall bound, N.of_nat bound < 2 ^ 80 -> ~ C47_claim bound.
Proof.
  intros bound Hb C.
  assert (exists s fl, siwe_init FD demo_cid demo_input = Done (s, fl)) as (s & fl & Hinit).
  { eexists _, _. vm_compute. reflexivity. }
  set (b := repeat x00 20).
  assert (address_text FD (eip55 (d_keccak FD) b) b) as Ha by (split; reflexivity).
  assert (input_wf demo_input) as Hwf by (repeat split; exact I).
  destruct (C47_grows FD demo_cid demo_input s fl (repeat x07 32) _ b (S bound) FD_ok Hwf Hinit Ha eq_refl)
    as (tr & e & c & H & _ & _ & _ & [Hs|(j1 & j2 & Hj & E)]).
  - specialize (C FD demo_cid _ c FD_ok H). lia.
  - unfold message_key, message_key_input in E. cbn [FD d_sha256 d_chacha] in E.
    assert (forall k, length (lower_hex (count_bytes 10 k)) = 20%nat) as Hlen.
    { intros k. rewrite lower_hex_encode, hex_encode_length, count_bytes_length. reflexivity. }
    assert (forall k, last32 (u8 (N.of_nat (length b)) :: b ++ u8 (N.of_nat (length (lower_hex (count_bytes 10 k)))) :: lower_hex (count_bytes 10 k)) =
      repeat x00 11 ++ u8 20 :: lower_hex (count_bytes 10 k)) as Hl.
    { intros k. rewrite Hlen. set (n := lower_hex (count_bytes 10 k)).
      change (u8 (N.of_nat (length b)) :: b ++ u8 (N.of_nat 20) :: n) with
        (([u8 20] ++ repeat x00 9) ++ (repeat x00 11 ++ u8 20 :: n)).
      rewrite last32_app; rewrite app_length; cbn [length]; rewrite repeat_length; subst n; rewrite Hlen; [reflexivity|lia]. }
    rewrite !Hl in E. apply app_inv_head in E. assert (lower_hex (count_bytes 10 (N.of_nat j1)) = lower_hex (count_bytes 10 (N.of_nat j2))) as E' by congruence.
    rewrite !lower_hex_encode in E'. apply hex_encode_inj in E'. apply count_bytes_inj in E'; [lia| |].
    + change (256 ^ N.of_nat 10) with (2 ^ 80). lia.
    + change (256 ^ N.of_nat 10) with (2 ^ 80). lia.
Qed.

(** Concrete: three calls, three stored messages. *)
Example C47_case : exists tr c, exec FD demo_cid tr (Some c) /\ size (ls_msgs (c_lib c)) = 3%nat /\ length tr = 6%nat.
Proof.
  assert (exists s fl, siwe_init FD demo_cid demo_input = Done (s, fl)) as (s & fl & Hinit).
  { eexists _, _. vm_compute. reflexivity. }
  set (b := repeat x00 20).
  assert (address_text FD (eip55 (d_keccak FD) b) b) as Ha by (split; reflexivity).
  assert (input_wf demo_input) as Hwf by (repeat split; exact I).
  destruct (C47_grows FD demo_cid demo_input s fl (repeat x07 32) _ b 3 FD_ok Hwf Hinit Ha eq_refl)
    as (tr & e & c & H & Hl & _ & _ & [Hs|(j1 & j2 & Hj & E)]).
  - exists (tr ++ [e]), c. split; [exact H|]. split; [exact Hs|]. rewrite app_length, Hl. reflexivity.
  - exfalso. apply bytes_eqb_spec in E. revert E.
    destruct j1 as [|[|[|]]]; try lia; destruct j2 as [|[|[|]]]; try lia; vm_compute; discriminate.
Qed.

(** ** C59  Once seeded, siwe_prepare_login succeeds *)

Theorem C59_prepares : forall D cid tr s i since b r a seed now x addr, deps_ok D ->
  exec D cid tr s -> since_boot tr i since ->
  since = b ++ r :: a -> ev_op r = RawRand (Some seed) -> Forall (fun e => forall o, ev_op e <> RawRand o) b ->
  address_text D x addr -> now <= u64_max ->
  exists s' text n, step D cid now (PrepareLogin x) s = (s', RPrepare (Ok (text, n))).
Proof.
  intros D cid tr s i since b r a seed now x addr HD H Hb Es Er Fb Ha Hn.
  destruct (exec_since D cid tr s i since HD H Hb) as (c & st & -> & Hi & _).
  pose proof (seeded D cid tr c i since b r a seed HD H Hb Es Er Fb) as Hr.
  destruct (ls_rng (c_lib c)) as [rn|] eqn:Ern; [|congruence].
  destruct (address_cases D x HD) as [(err & E & Nx)|(b' & Ax & E & Eb & _)]; [now apply Nx in Ha|].
  destruct (prepare_ok D now x b' c st rn Ax E Eb (inv_settings _ _ _ _ _ _ _ Hi) Ern Hn) as (text & _ & Ep).
  eexists _, text, _. cbn [step]. rewrite Ep. reflexivity.
Qed.

(** If raw_rand has failed, the canister never makes a message again until it is
    upgraded or reinstalled. *)
Theorem C59_failed_seed : forall D cid tr s i since b r a now x, deps_ok D ->
  exec D cid tr s -> since_boot tr i since ->
  since = b ++ r :: a -> ev_op r = RawRand None -> Forall (fun e => forall o, ev_op e <> RawRand o) b ->
  forall text n, snd (step D cid now (PrepareLogin x) s) <> RPrepare (Ok (text, n)).
Proof.
  intros D cid tr s i since b r a now x HD H Hb Es Er Fb text n.
  destruct (exec_since D cid tr s i since HD H Hb) as (c & st & -> & Hi & _).
  pose proof (inv_seed _ _ _ _ _ _ _ Hi) as [_ Hsd].
  destruct (address_cases D x HD) as [(err & E & Nx)|(b' & Ax & E & _)]; cbn [step].
  { rewrite (prepare_bad_address D now x err c E). discriminate. }
  destruct (ls_rng (c_lib c)) as [rn|] eqn:Ern.
  2:{ destruct (prepare_unseeded D now x c E Ern) as [w Ew]. rewrite Ew. discriminate. }
  exfalso. destruct Hsd as (b2 & e2 & a2 & E2 & Eo & F2). rewrite Es in E2.
  assert (Forall (fun e => is_raw_rand e = false) b) as Fb'.
  { revert Fb. apply List.Forall_impl. intros e Fe. unfold is_raw_rand. destruct (ev_op e) eqn:Eop; auto. now destruct (Fe seed). }
  assert (is_raw_rand r = true /\ is_raw_rand e2 = true) as [R1 R2] by (unfold is_raw_rand; rewrite Er, Eo; auto).
  clear -E2 Fb' F2 R1 R2 Er Eo. revert b2 E2 F2. induction b as [|z b IH]; intros [|y b2] E2 F2.
  - cbn in E2. assert (r = e2) as -> by congruence. congruence.
  - cbn in E2. apply List.Forall_cons_iff in F2 as [F2 _]. congruence.
  - cbn in E2. apply List.Forall_cons_iff in Fb' as [Fb' _]. congruence.
  - cbn in E2. apply List.Forall_cons_iff in F2 as [_ F2]. apply List.Forall_cons_iff in Fb' as [_ Fb'].
    apply (IH Fb' b2); [congruence|exact F2].
Qed.

(** Concrete: the demonstration history after its second event; and the same with a
    failed raw_rand. *)
Example C59_case : exists s s' text n, exec CD demo_cid (take 2 demo_tr) (Some s) /\
  since_boot (take 2 demo_tr) demo_input [demo_at 1] /\ ev_op (demo_at 1) = RawRand (Some (repeat x07 32)) /\
  step CD demo_cid (2 * sec) (PrepareLogin (wallet_address CD alice)) (Some s) = (s', RPrepare (Ok (text, n))).
Proof.
  destruct (demo_prefix 2) as [s H]; [lia|]. pose proof (demo_since 2 ltac:(lia)) as Hb.
  assert (address_text CD (wallet_address CD alice) (drop 12 (d_keccak CD alice))) as Ha by (split; vm_compute; reflexivity).
  destruct (C59_prepares CD demo_cid _ _ _ _ [] (demo_at 1) [] (repeat x07 32) (2 * sec)
    (wallet_address CD alice) (drop 12 (d_keccak CD alice)) CD_ok H Hb) as (s' & text & n & E);
    [reflexivity|reflexivity|constructor|exact Ha|vm_compute; discriminate|].
  exists s, s', text, n. split; [exact H|]. split; [exact Hb|]. split; [reflexivity|exact E].
Qed.
Example C59_failed_case : exists tr s, exec CD demo_cid tr s /\ since_boot tr demo_input [mkEvent 1 (RawRand None) RDone] /\
  exists w, snd (step CD demo_cid 2 (PrepareLogin (wallet_address CD alice)) s) = RTrap w.
Proof.
  set (script := [(0, Install demo_input); (1, RawRand None)]).
  exists (fst (play CD demo_cid script None)), (snd (play CD demo_cid script None)). split; [|split].
  - apply (play_exec _ _ script); [reflexivity|]. apply surjective_pairing.
  - exists [], (mkEvent 0 (Install demo_input) RDone). split; [vm_compute; reflexivity|]. split.
    + split; [left; reflexivity|reflexivity].
    + repeat constructor. intros (i & [E|E] & _); discriminate.
  - eexists. vm_compute. reflexivity.
Qed.

Print Assumptions C44_trap.
Print Assumptions C44_query.
Print Assumptions C44_unseeded.
Print Assumptions C44_prepare_error.
Print Assumptions C45_position.
Print Assumptions C45_disjoint.
Print Assumptions C45_shape.
Print Assumptions C46_pruned.
Print Assumptions C47_never_pruned.
Print Assumptions C47_grows.
Print Assumptions C47_bounded_refuted.
Print Assumptions C59_prepares.
Print Assumptions C59_failed_seed.
