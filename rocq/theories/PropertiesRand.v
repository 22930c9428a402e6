(** Property C67: where the nonces come from. *)
From Coq Require Import Strings.String ZifyBool ZifyN ZifyNat.
From Verif Require Import Base BaseLemmas Deps Hex Provider ChaCha SpecEth SpecHash SpecTrace ProviderProofs SpecChaCha ChaChaProofs
  Concrete Scripts Demo PropertiesCalls.
Local Open Scope N_scope.

(** ** C67  Nonces are pieces of the ChaCha20 keystream *)

(** The [k]-th call of fill_bytes on a fresh generator gives ten bytes of the keystream of
    its seed, from byte 12 k on, also where it runs over the end of the buffer. *)
Theorem C67_stream : forall seed k, length seed = 32%nat -> N.of_nat k < 2 ^ 64 ->
  nonce_read seed k = map (fun j => keystream seed (12 * N.of_nat k + N.of_nat j)) (seq 0 10).
Proof. exact nonce_stream. Qed.

(** So the nonces of a canister between two upgrades are the texts of such pieces, one
    after another, and the seed was the first reply to raw_rand. *)
Theorem C67_nonces : forall D cid tr s i since p0 x0 text0 n0, deps_ok D ->
  (forall seed k, d_chacha D seed k = nonce_read seed (N.to_nat k)) ->
  exec D cid tr s -> since_boot tr i since -> In p0 since -> prepared p0 x0 text0 n0 ->
  exists seed b r a, since = b ++ r :: a /\ ev_op r = RawRand (Some seed) /\
    Forall (fun e => forall o, ev_op e <> RawRand o) b /\
    forall before p after x text n, since = before ++ p :: after -> prepared p x text n ->
      prepared_count before < 2 ^ 64 ->
      n = lower_hex (map (fun j => keystream seed (12 * prepared_count before + N.of_nat j)) (seq 0 10)).
Proof.
  intros D cid tr s i since p0 x0 text0 n0 HD HC H Hb Hin Hp.
  destruct (C45_position D cid tr s i since p0 x0 text0 n0 HD H Hb Hin Hp) as (seed & b & r & a & E & Er & HF & Hn).
  exists seed, b, r, a. split; [exact E|]. split; [exact Er|]. split; [exact HF|].
  intros before p after x text n E' Hp' Hc. rewrite (Hn before p after x text n E' Hp'), HC.
  assert (length seed = 32%nat) as HL.
  { destruct Hb as (tr0 & e0 & -> & _).
    assert (exec_in : In r (tr0 ++ e0 :: since)) by (rewrite E; apply in_app_iff; right; right; apply in_app_iff; right; left; reflexivity).
    apply in_split in exec_in as (l1 & l2 & El). rewrite El in H.
    apply exec_at in H as [s1 H]. apply exec_last in H as (_ & _ & _ & _ & Hw & _). now rewrite Er in Hw. }
  rewrite C67_stream by (rewrite ?N2Nat.id; assumption). now rewrite N2Nat.id.
Qed.

(** Concrete: the demonstration history uses the real generator; the first three nonces.
    The 22nd read runs over the end of the buffer of 64 words. *)
Example C67_case : (forall seed k, d_chacha CD seed k = nonce_read seed (N.to_nat k)) /\
  (exists s x text n, exec CD demo_cid demo_tr (Some s) /\ since_boot demo_tr demo_input (drop 1 demo_tr) /\
     In (demo_at 2) (drop 1 demo_tr) /\ prepared (demo_at 2) x text n) /\
  map prepared_nonce [demo_at 2; demo_at 3] = map (fun k => lower_hex (nonce_read (repeat x07 32) k)) [0%nat; 1%nat] /\
  prepared_nonce (demo_at 2) = bs "f400927857aaf64114f5" /\
  nonce_read (repeat x07 32) 21 = map (fun j => keystream (repeat x07 32) (252 + N.of_nat j)) (seq 0 10).
Proof.
  split; [reflexivity|]. split.
  - destruct demo_exec as [s H]. exists s, (used_addr (demo_at 2)), (prepared_text (demo_at 2)), (prepared_nonce (demo_at 2)).
    split; [exact H|]. split; [apply (demo_since 13); lia|]. split; [right; left; reflexivity|]. split; reflexivity.
  - split; [vm_compute; reflexivity|]. split; vm_compute; reflexivity.
Qed.

Print Assumptions C67_stream.
Print Assumptions C67_nonces.
