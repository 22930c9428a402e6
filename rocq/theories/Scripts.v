(** Playing a script of calls against the model; used by examples and counterexamples. *)
From Coq Require Import Strings.String ZifyBool ZifyN ZifyNat.
From Verif Require Import Base BaseLemmas Deps Hex Eth Encode Siwe Login Provider SpecEth Concrete.
Local Open Scope N_scope.

(** ** Scripts *)

Fixpoint play (D : Deps) (cid : bytes) (script : list (N * op)) (s : state) : list event * state :=
  match script with
  | [] => ([], s)
  | (now, o) :: script =>
      let '(s', r) := step D cid now o s in
      let '(tr, s'') := play D cid script s' in
      (mkEvent now o r :: tr, s'')
  end.

Definition opt_leb (o : option N) (m : N) : bool := match o with Some x => x <=? m | None => true end.
Definition input_wfb (i : SettingsInput) : bool :=
  opt_leb (in_chain_id i) u32_max && opt_leb (in_sign_in_expires_in i) u64_max &&
  opt_leb (in_session_expires_in i) u64_max.
Definition op_wfb (o : op) : bool :=
  match o with
  | Install i | Upgrade i => input_wfb i
  | GetDelegation _ _ _ e => e <=? u64_max
  | RawRand (Some seed) => (length seed =? 32)%nat
  | _ => true
  end.

(** Times from [last] on do not decrease and arguments are in range. *)
Fixpoint script_ok (last : N) (script : list (N * op)) : bool :=
  match script with
  | [] => true
  | (now, o) :: script => (last <=? now) && (now <=? u64_max) && op_wfb o && script_ok now script
  end.

Lemma op_wfb_spec o : op_wfb o = true -> op_wf o.
Proof.
  assert (forall a m, opt_leb a m = true -> opt_le a m) as H.
  { intros [a|] m; cbn; [|auto]. lia. }
  destruct o as [| | [seed|] | | | | | |]; cbn; auto; unfold input_wfb, input_wf; intros E; try lia;
    rewrite !Bool.andb_true_iff in E; destruct E as [[E1 E2] E3]; auto.
Qed.

Lemma play_exec_from D cid script : forall tr s last tr' s', exec D cid tr s ->
  Forall (fun e => ev_time e <= last) tr -> script_ok last script = true ->
  play D cid script s = (tr', s') -> exec D cid (tr ++ tr') s'.
Proof.
  induction script as [|[now o] script IH]; intros tr s last tr' s' H Ht Hok E; cbn [play] in E.
  - injection E as <- <-. now rewrite app_nil_r.
  - cbn [script_ok] in Hok. rewrite !Bool.andb_true_iff in Hok. destruct Hok as [[[H1 H2] H3] H4].
    destruct (step D cid now o s) as [s1 r] eqn:Es. destruct (play D cid script s1) as [tr1 s2] eqn:Ep.
    injection E as <- <-. change (mkEvent now o r :: tr1) with ([mkEvent now o r] ++ tr1). rewrite app_assoc.
    apply (IH _ s1 now); auto.
    + apply (exec_snoc D cid tr s now o s1 r); auto; [|lia|now apply op_wfb_spec].
      revert Ht. apply List.Forall_impl. intros e. lia.
    + apply List.Forall_app. split; [|repeat constructor; cbn; lia].
      revert Ht. apply List.Forall_impl. intros e. lia.
Qed.

Lemma play_exec D cid script tr s : script_ok 0 script = true -> play D cid script None = (tr, s) ->
  exec D cid tr s.
Proof. intros H E. apply (play_exec_from D cid script [] None 0); auto; constructor. Qed.

(** ** Sign-in sessions *)

(** A wallet is its 64-byte public key. *)
Definition wallet_address (D : Deps) (pk : bytes) : bytes := eip55 (d_keccak D) (drop 12 (d_keccak D pk)).
Definition wallet_sign (D : Deps) (pk text : bytes) : bytes :=
  bs "0x" ++ hex_encode (toy_sign (d_keccak D (eip191_bytes text)) pk ++ [x1b]).

(** A step of a sign-in session, from which the script is generated: the nonce and
    text of each login come from the reply to an earlier call. *)
Inductive act :=
| Do (o : op)
| Prepare (pk : bytes)
| LoginWith (k : nat) (signer pk : bytes) (sk : bytes)   (* uses the reply of the k-th call; [pk] claims, [signer] signs *)
| Fetch (pk sk : bytes) (exp : N).

Definition act_op (D : Deps) (tr : list event) (a : act) : op :=
  match a with
  | Do o => o
  | Prepare pk => PrepareLogin (wallet_address D pk)
  | LoginWith k signer pk sk =>
      match nth_error tr k with
      | Some {| ev_reply := RPrepare (Ok (text, n)) |} =>
          SiweLogin (wallet_sign D signer text) (wallet_address D pk) sk n
      | _ => SiweLogin [] [] [] []
      end
  | Fetch pk sk exp => GetDelegation (Some (bs "cert")) (wallet_address D pk) sk exp
  end.

Fixpoint stage (D : Deps) (cid : bytes) (l : list (N * act)) (tr : list event) (s : state) : list (N * op) :=
  match l with
  | [] => []
  | (now, a) :: l =>
      let o := act_op D tr a in
      let '(s', r) := step D cid now o s in
      (now, o) :: stage D cid l (tr ++ [mkEvent now o r]) s'
  end.
