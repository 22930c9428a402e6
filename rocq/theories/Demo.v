(** A history of calls on the concrete instance, used by the examples. *)
From Coq Require Import Strings.String ZifyBool ZifyN ZifyNat.
From Verif Require Import Base BaseLemmas Deps Hex Eth Encode Siwe Delegation Login Provider SpecEth SpecTrace
  ProviderProofs LoginTheory Concrete Scripts.
Local Open Scope N_scope.

Definition sec : N := 1000000000.
Definition demo_cid : bytes := [x00; x00; x00; x00; x00; x00; x00; x0a; x01; x01].
Definition demo_input : SettingsInput :=
  mkInput (bs "example.com") (bs "https://example.com") (bs "salt") None None None None None None None.
Definition alice : bytes := repeat x11 64.
Definition bob : bytes := repeat x22 64.
Definition key1 : bytes := [x30; x02; x05; x00].
Definition key2 : bytes := [x30; x03; x02; x01; x07].

(** Alice and Bob both ask for a message; Alice logs in; somebody tries Bob's message
    with Alice's signature, which burns it; Bob's own attempt then fails; Alice fetches
    her delegation and her address; Bob starts again and logs in; so does Alice with
    another session key. *)
Definition demo_acts : list (N * act) :=
  [(0, Do (Install demo_input)); (1 * sec, Do (RawRand (Some (repeat x07 32))));
   (2 * sec, Prepare alice); (2 * sec, Prepare bob);
   (3 * sec, LoginWith 2 alice alice key1);
   (4 * sec, LoginWith 3 alice bob key2);
   (5 * sec, LoginWith 3 bob bob key2);
   (6 * sec, Fetch alice key1 (1802 * sec));
   (7 * sec, Do (GetPrincipal (wallet_address CD alice)));
   (8 * sec, Prepare bob);
   (9 * sec, LoginWith 9 bob bob key2);
   (10 * sec, Prepare alice);
   (11 * sec, LoginWith 11 alice alice key2)].

Definition demo_script : list (N * op) := Eval vm_compute in stage CD demo_cid demo_acts [] None.
Definition demo_tr : list event := Eval vm_compute in fst (play CD demo_cid demo_script None).

Lemma demo_play : fst (play CD demo_cid demo_script None) = demo_tr.
Proof. vm_compute. reflexivity. Qed.

Lemma demo_exec : exists c, exec CD demo_cid demo_tr (Some c).
Proof.
  assert (exists s, exec CD demo_cid demo_tr s) as [s H].
  { exists (snd (play CD demo_cid demo_script None)). apply (play_exec _ _ demo_script); [vm_compute; reflexivity|].
    rewrite <- demo_play. apply surjective_pairing. }
  destruct (exec_installed _ _ _ _ H) as [c ->]; [|eauto].
  eexists. split; [left; reflexivity|]. exists demo_input. split; [left; reflexivity|reflexivity].
Qed.

(** Its beginnings. *)
Lemma demo_prefix k : (0 < k)%nat -> exists c, exec CD demo_cid (take k demo_tr) (Some c).
Proof.
  intros Hk. destruct demo_exec as [c H]. rewrite <- (take_drop k demo_tr) in H.
  apply exec_prefix in H as [s H]. destruct (exec_installed _ _ _ _ H) as [c' ->]; [|eauto].
  eexists. split; [destruct k; [lia|]; left; reflexivity|]. exists demo_input. split; [left; reflexivity|reflexivity].
Qed.

Definition demo_at (k : nat) : event := nth k demo_tr (mkEvent 0 (GetAddress []) RDone).

Lemma demo_snoc k : (k < 13)%nat -> exists s, exec CD demo_cid (take k demo_tr ++ [demo_at k]) (Some s).
Proof.
  intros Hk. destruct (demo_prefix (S k)) as [c H]; [lia|]. exists c.
  assert (take (S k) demo_tr = take k demo_tr ++ [demo_at k]) as <-; [|exact H].
  apply take_S_r. unfold demo_at.
  do 13 (destruct k; [reflexivity|]). lia.
Qed.

Lemma demo_since k : (0 < k)%nat -> since_boot (take k demo_tr) demo_input (take (k - 1) (drop 1 demo_tr)).
Proof.
  intros Hk. exists [], (demo_at 0). split; [|split].
  - destruct k; [lia|]. cbn [app]. rewrite Nat.sub_succ, Nat.sub_0_r. reflexivity.
  - split; [left; reflexivity|reflexivity].
  - apply Forall_take. repeat constructor; intros (i & [E|E] & _); discriminate.
Qed.

(** Reading the events of the history. *)
Definition login_sig (e : event) : bytes := match ev_op e with SiweLogin sg _ _ _ => sg | _ => [] end.
Definition login_addr (e : event) : bytes := match ev_op e with SiweLogin _ x _ _ => x | _ => [] end.
Definition login_nonce (e : event) : bytes := match ev_op e with SiweLogin _ _ _ n => n | _ => [] end.
Definition prepared_text (e : event) : bytes := match ev_reply e with RPrepare (Ok (t, _)) => t | _ => [] end.
Definition prepared_nonce (e : event) : bytes := match ev_reply e with RPrepare (Ok (_, n)) => n | _ => [] end.
Definition used_addr (e : event) : bytes :=
  match ev_op e with PrepareLogin x => x | SiweLogin _ x _ _ => x | _ => [] end.
Definition used_nonce (e : event) : bytes :=
  match ev_op e with SiweLogin _ _ _ n => n | _ => prepared_nonce e end.

Lemma touches_used D k e : touches D k e -> exists b, address_text D (used_addr e) b /\ k = message_key D b (used_nonce e).
Proof.
  intros [(x & text & n & b & [Ho Hr] & Ha & Ek)|(x & n & b & (sg & sk & b' & sb & Ho & _) & Ha & Ek)];
    exists b; unfold used_addr, used_nonce, prepared_nonce; rewrite Ho; [rewrite Hr|]; auto.
Qed.

Lemma untouched D k e b : deps_ok D -> address_text D (used_addr e) b ->
  bytes_eqb k (message_key D b (used_nonce e)) = false -> ~ touches D k e.
Proof.
  intros HD Ha Hk Ht. apply bytes_eqb_false in Hk. apply touches_used in Ht as (b' & Ha' & ->). apply Hk.
  now rewrite (LoginProofs.address_text_inj D _ b' b HD Ha' Ha).
Qed.

Lemma demo_untouched j b k : address_text CD (used_addr (demo_at j)) b ->
  bytes_eqb k (message_key CD b (used_nonce (demo_at j))) = false -> ~ touches CD k (demo_at j).
Proof. apply untouched, CD_ok. Qed.
