(** When two logins are given the same principal. *)
From Coq Require Import Strings.String ZifyBool ZifyN ZifyNat.
From Verif Require Import Base BaseLemmas Deps Hex Eth Encode Delegation Login Provider SpecEth SpecHash SpecTree SpecTrace SpecWire SpecAuth
  ProviderProofs DelegationTheory LoginTheory LoginProofs TraceProofs HashProofs WireProofs DelegationProofs Concrete Scripts Demo PropertiesLogin PropertiesAuth.
Local Open Scope N_scope.

(** ** C99  A principal stands for one wallet, one salt and one URI at one canister *)

Definition seed_of (i : SettingsInput) (x : bytes) : bytes := seed_input (in_salt i) x (uri_part i).

(** The two logins may be in histories of different canisters, or before and after upgrades
    of one. *)
Theorem C99_iff : forall D cid tr s x sk exp pk i cid' tr' s' y sk' exp' pk' j, deps_ok D ->
  (length cid <= 29)%nat -> (length cid' <= 29)%nat -> exec D cid tr s -> exec D cid' tr' s' ->
  a_login tr x sk exp pk i -> a_login tr' y sk' exp' pk' j ->
  (length (in_salt i) < 256)%nat -> (length (in_salt j) < 256)%nat ->
  (principal_of D pk = principal_of D pk' <-> cid = cid' /\ x = y /\ in_salt i = in_salt j /\ uri_part i = uri_part j) \/
  collision (d_sha224 D) pk pk' \/ collision (d_sha256 D) (seed_of i x) (seed_of j y).
Proof.
  intros D cid tr s x sk exp pk i cid' tr' s' y sk' exp' pk' j HD Lc Lc' H H' Lx Ly Si Sj.
  destruct (a_login_pk D cid tr s x sk exp pk i HD H Lx) as (Ex & (bx & Hbx) & _).
  destruct (a_login_pk D cid' tr' s' y sk' exp' pk' j HD H' Ly) as (Ey & (b' & Hb') & _).
  destruct (decide (pk = pk')) as [E|Ne].
  - destruct (decide (seed_of i x = seed_of j y)) as [Es|Nes].
    + left. split; [|intros _; now rewrite E]. intros _. rewrite Ex, Ey in E. apply (f_equal canister_pubkey_decode) in E.
      rewrite !pubkey_decodes in E by (lia || (unfold blen, user_seed; rewrite (sha256_len _ HD); vm_compute; reflexivity)).
      injection E as Ec _. split; [exact Ec|].
      apply seed_input_inj in Es as (-> & -> & ->); [auto| |left; auto].
      now rewrite (address_text_length D x bx HD Hbx), (address_text_length D y b' HD Hb').
    + right. right. split; [exact Nes|]. rewrite Ex, Ey in E. apply (f_equal canister_pubkey_decode) in E.
      rewrite !pubkey_decodes in E by (lia || (unfold blen, user_seed; rewrite (sha256_len _ HD); vm_compute; reflexivity)).
      injection E as _ E. exact E.
  - destruct (decide (d_sha224 D pk = d_sha224 D pk')) as [E|Nh]; [right; left; now split|]. left. split.
    + intros E. exfalso. unfold principal_of in E. apply app_inj_tail in E as [E _]. now apply Nh.
    + intros (-> & -> & E1 & E2). exfalso. apply Ne. rewrite Ex, Ey. unfold user_seed. now rewrite E1, E2.
Qed.

(** In particular an upgrade keeps the principals of all users, or of none. *)
Theorem C99_upgrade : forall D cid tr s x sk exp pk i sk' exp' pk' j, deps_ok D -> (length cid <= 29)%nat -> exec D cid tr s ->
  a_login tr x sk exp pk i -> a_login tr x sk' exp' pk' j ->
  (in_salt i = in_salt j -> uri_part i = uri_part j -> pk = pk') /\
  ((length (in_salt i) < 256)%nat -> (length (in_salt j) < 256)%nat -> in_salt i <> in_salt j \/ uri_part i <> uri_part j ->
   principal_of D pk <> principal_of D pk' \/
   collision (d_sha224 D) pk pk' \/ collision (d_sha256 D) (seed_of i x) (seed_of j x)).
Proof.
  intros D cid tr s x sk exp pk i sk' exp' pk' j HD Lc H Lx Ly. split.
  - intros E1 E2. destruct (a_login_pk D cid tr s x sk exp pk i HD H Lx) as (-> & _).
    destruct (a_login_pk D cid tr s x sk' exp' pk' j HD H Ly) as (-> & _). unfold user_seed. now rewrite E1, E2.
  - intros Si Sj Hd. destruct (C99_iff D cid tr s x sk exp pk i cid tr s x sk' exp' pk' j HD Lc Lc H H Lx Ly Si Sj) as [[I _]|C]; [left|now right].
    intros E. destruct (I E) as (_ & _ & E1 & E2). destruct Hd; congruence.
Qed.

(** Concrete: Alice signs in before and after an upgrade that changes domain, URI and
    session length, and once more after one that changes the salt. *)
Definition salt_input (domain uri salt : bytes) : SettingsInput := mkInput domain uri salt None None None (Some (60 * sec)) None None None.
Definition salts_acts : list (N * act) :=
  [(0, Do (Install demo_input)); (1 * sec, Do (RawRand (Some (repeat x07 32))));
   (2 * sec, Prepare alice); (3 * sec, LoginWith 2 alice alice key1);
   (4 * sec, Do (Upgrade (salt_input (bs "example.org") (bs "https://example.org") (bs "salt")))); (5 * sec, Do (RawRand (Some (repeat x08 32))));
   (6 * sec, Prepare alice); (7 * sec, LoginWith 6 alice alice key1);
   (8 * sec, Do (Upgrade (salt_input (bs "example.com") (bs "https://example.com") (bs "pepper")))); (9 * sec, Do (RawRand (Some (repeat x09 32))));
   (10 * sec, Prepare alice); (11 * sec, LoginWith 10 alice alice key1)].
Definition salts_script : list (N * op) := Eval vm_compute in stage CD demo_cid salts_acts [] None.
Definition salts_tr : list event := Eval vm_compute in fst (play CD demo_cid salts_script None).
Definition salts_at (k : nat) : event := nth k salts_tr (mkEvent 0 (GetAddress []) RDone).
Lemma salts_play : fst (play CD demo_cid salts_script None) = salts_tr.
Proof. vm_compute. reflexivity. Qed.
Lemma salts_exec : exists s, exec CD demo_cid salts_tr s.
Proof.
  exists (snd (play CD demo_cid salts_script None)). apply (play_exec _ _ salts_script); [vm_compute; reflexivity|].
  rewrite <- salts_play. apply surjective_pairing.
Qed.
Definition salts_exp (k : nat) : N := match ev_reply (salts_at k) with RLogin (Ok d) => ld_expiration d | _ => 0 end.
Definition salts_pk (k : nat) : bytes := match ev_reply (salts_at k) with RLogin (Ok d) => ld_pubkey d | _ => [] end.
Lemma salts_login k i : In (k, i) [(3%nat, demo_input); (7%nat, salt_input (bs "example.org") (bs "https://example.org") (bs "salt"));
    (11%nat, salt_input (bs "example.com") (bs "https://example.com") (bs "pepper"))] ->
  a_login salts_tr (login_addr (salts_at 3)) key1 (salts_exp k) (salts_pk k) i.
Proof.
  intros H. exists (take k salts_tr), (salts_at k), (drop (S k) salts_tr), (login_sig (salts_at k)), (login_nonce (salts_at k)),
    (drop (k - 2) (take k salts_tr)).
  split; [|split].
  - destruct H as [E|[E|[E|[]]]]; injection E as <- <-; reflexivity.
  - destruct H as [E|[E|[E|[]]]]; injection E as <- <-; split; reflexivity.
  - exists (take (k - 3) salts_tr), (salts_at (k - 3)). 
    destruct H as [E|[E|[E|[]]]]; injection E as <- <-; (split; [reflexivity|split; [split; [auto|reflexivity]|]]);
    repeat constructor; intros (q & [E|E] & _); discriminate.
Qed.
Example C99_case : exists s x pk1 pk2 pk3 exp1 exp2 exp3,
  let i2 := salt_input (bs "example.org") (bs "https://example.org") (bs "salt") in
  let i3 := salt_input (bs "example.com") (bs "https://example.com") (bs "pepper") in
  exec CD demo_cid salts_tr s /\
  a_login salts_tr x key1 exp1 pk1 demo_input /\ a_login salts_tr x key1 exp2 pk2 i2 /\ a_login salts_tr x key1 exp3 pk3 i3 /\
  in_salt demo_input = in_salt i2 /\ uri_part demo_input = uri_part i2 /\ in_uri demo_input <> in_uri i2 /\
  in_salt i2 <> in_salt i3 /\ principal_of CD pk1 = principal_of CD pk2 /\ principal_of CD pk2 <> principal_of CD pk3.
Proof.
  destruct salts_exec as [s H]. exists s, (login_addr (salts_at 3)), (salts_pk 3), (salts_pk 7), (salts_pk 11), (salts_exp 3), (salts_exp 7), (salts_exp 11).
  cbn zeta. split; [exact H|].
  split; [apply salts_login; left; reflexivity|]. split; [apply salts_login; right; left; reflexivity|].
  split; [apply salts_login; right; right; left; reflexivity|].
  split; [reflexivity|]. split; [reflexivity|]. split; [discriminate|]. split; [discriminate|].
  split; vm_compute; [reflexivity|discriminate].
Qed.

Print Assumptions C99_iff.
Print Assumptions C99_upgrade.
