(** What a sign in leaves behind in the browser. *)
From Coq Require Import Strings.String ZifyBool ZifyN ZifyNat.
From Verif Require Import Base BaseLemmas Deps Hex Eth EthProofs Json Encode Delegation Login Provider SpecEth SpecTree SpecTrace SpecStorage
  ProviderProofs LoginTheory LoginProofs Concrete Scripts Demo PropertiesLogin
  Client ClientJson SpecClient ClientProofs ClientSeq ClientStatus ClientLive ClientDemo PropertiesClient.
Local Open Scope N_scope.

Definition plain (c : byte) : Prop := escape c = [c].

Lemma quoted_plain s : Forall plain s -> quoted s = bs """" ++ s ++ bs """".
Proof.
  intros H. unfold quoted. assert (concat (map escape s) = s) as ->; [|reflexivity].
  induction H as [|c s Hc H IH]; [reflexivity|]. cbn [map concat]. rewrite Hc, IH. reflexivity.
Qed.

Lemma sixteen (P : N -> Prop) : P 0 -> P 1 -> P 2 -> P 3 -> P 4 -> P 5 -> P 6 -> P 7 -> P 8 -> P 9 -> P 10 -> P 11 -> P 12 -> P 13 -> P 14 -> P 15 ->
  forall n, n < 16 -> P n.
Proof.
  intros. assert (n = 0 \/ n = 1 \/ n = 2 \/ n = 3 \/ n = 4 \/ n = 5 \/ n = 6 \/ n = 7 \/ n = 8 \/ n = 9 \/ n = 10 \/
          n = 11 \/ n = 12 \/ n = 13 \/ n = 14 \/ n = 15) as C by lia.
  repeat (destruct C as [->|C]; [assumption|]). now subst.
Qed.
Lemma plain_lower n : n < 16 -> plain (lower_digit n).
Proof. apply (sixteen (fun n => plain (lower_digit n))); reflexivity. Qed.
Lemma plain_upper n : n < 16 -> plain (upper_digit n).
Proof. apply (sixteen (fun n => plain (upper_digit n))); reflexivity. Qed.
Lemma upper_lower n : n < 16 -> upper (hex_digit n) = upper_digit n.
Proof. apply (sixteen (fun n => upper (hex_digit n) = upper_digit n)); reflexivity. Qed.

Lemma plain_digits f l : (forall n, n < 16 -> plain (f n)) -> Forall (fun n => n < 16) l -> Forall plain (map f l).
Proof. intros Hf H. induction H; constructor; auto. Qed.

Lemma quoted_hex l : quoted (hex_encode l) = bs """" ++ lower_hex l ++ bs """".
Proof. rewrite <- lower_hex_encode. apply quoted_plain, plain_digits; [exact plain_lower|apply nibbles_lt]. Qed.

Lemma upper_hex_encode l : map upper (hex_encode l) = upper_hex l.
Proof.
  rewrite hex_encode_nibbles. unfold upper_hex. rewrite map_map. apply map_ext_in. intros n Hn. apply upper_lower.
  pose proof (nibbles_lt l) as H. rewrite List.Forall_forall in H. now apply H.
Qed.
Lemma quoted_upper l : quoted (map upper (hex_encode l)) = bs """" ++ upper_hex l ++ bs """".
Proof. rewrite upper_hex_encode. apply quoted_plain, plain_digits; [exact plain_upper|apply nibbles_lt]. Qed.

Lemma quoted_address D x b : address_text D x b -> quoted x = bs """" ++ x ++ bs """".
Proof.
  intros [_ ->]. apply quoted_plain. unfold eip55. apply List.Forall_app. split; [repeat constructor|].
  pose proof (nibbles_lt b) as H. revert H. generalize (nibbles b) (nibbles (d_keccak D (lower_hex b))).
  induction l as [|n l IH]; intros [|h hs] H; try constructor; apply List.Forall_cons_iff in H as [Hn H].
  - destruct (8 <=? h); [now apply plain_upper|now apply plain_lower].
  - now apply IH.
Qed.

Lemma hex_digit_lower n : n < 16 -> hex_digit n = lower_digit n.
Proof. intros H. symmetry. now apply lower_digit_hex. Qed.

Lemma hex_aux_number fuel : forall n, 0 < n -> n < 2 ^ N.of_nat fuel ->
  exists d ds, hex_aux fuel n [] = map lower_digit (d :: ds) /\ Forall (fun d => d < 16) (d :: ds) /\
    fold_left (fun a d => 16 * a + d) (d :: ds) 0 = n /\ d <> 0.
Proof.
  induction fuel as [|f IH]; intros n Hp H.
  { change (2 ^ N.of_nat 0) with 1 in H. lia. }
  cbn [hex_aux]. assert (n = 16 * (n / 16) + n mod 16) as E by (apply N.div_mod; lia).
  pose proof (N.mod_lt n 16 ltac:(lia)).
  destruct (n / 16 =? 0) eqn:Q.
  - exists (n mod 16), []. cbn [map fold_left]. rewrite hex_digit_lower by assumption. split; [reflexivity|].
    split; [repeat constructor; assumption|]. split; lia.
  - destruct (IH (n / 16)) as (d & ds & E1 & F & V & Nz); [lia| |].
    { rewrite Nat2N.inj_succ, N.pow_succ_r' in H. lia. }
    exists d, (ds ++ [n mod 16]). rewrite hex_aux_app, E1, hex_digit_lower by assumption. cbn [map app]. rewrite map_app.
    split; [reflexivity|]. split; [|split; [|exact Nz]].
    + apply List.Forall_cons_iff in F as [Fd F]. constructor; [exact Fd|]. apply List.Forall_app. split; [exact F|repeat constructor; assumption].
    + cbn [fold_left] in V |- *. rewrite fold_left_app. cbn [fold_left]. rewrite V. lia.
Qed.

Lemma hex_of_N_number n : hex_number (hex_of_N n) n.
Proof.
  destruct (N.eq_dec n 0) as [->|Hn].
  - exists [0]. repeat split. repeat constructor.
  - unfold hex_of_N. destruct (hex_aux_number (S (N.to_nat (N.log2 n))) n) as (d & ds & E & F & V & Nz); [lia| |].
    { rewrite Nat2N.inj_succ, N2Nat.id. apply N.log2_spec. lia. }
    exists (d :: ds). split; [exact E|]. split; [exact F|]. split; [exact V|]. destruct ds; [exact I|exact Nz].
Qed.
Lemma quoted_number n : quoted (hex_of_N n) = bs """" ++ hex_of_N n ++ bs """".
Proof. destruct (hex_of_N_number n) as (ds & -> & F & _). apply quoted_plain, plain_digits; [exact plain_lower|exact F]. Qed.

Lemma commas_listed l : commas l = listed l.
Proof.
  induction l as [|a [|b l] IH]; [reflexivity|cbn; now rewrite app_nil_r|].
  change (commas (a :: b :: l)) with (a ++ x2c :: commas (b :: l)). rewrite IH. reflexivity.
Qed.

Lemma save_identity_text D x b k e t sg pk : address_text D x b ->
  save_identity x k (mkChain [mkSigned (mkDelegation (kp_der k) e t) sg] pk) =
  stored_text x (kp_der k) (kp_secret k) (hex_of_N e) t sg pk.
Proof.
  intros Hx. unfold save_identity, identity_json, stored_text, keypair_to_json, chain_to_json, signed_to_json, delegation_to_json.
  destruct t as [l|]; cbn [ch_delegations ch_pubkey sd_delegation sd_signature dl_expiration dl_pubkey dl_targets map json_text fst snd commas app].
  - rewrite map_map. cbn [json_text]. rewrite (map_ext _ _ (fun t => quoted_upper t)), commas_listed.
    rewrite (quoted_address D x b Hx), !quoted_hex, quoted_number.
    generalize (listed (map (fun t => bs """" ++ upper_hex t ++ bs """") l)); intros m.
    generalize (hex_of_N e) (lower_hex sg) (lower_hex pk) (lower_hex (kp_der k)) (lower_hex (kp_secret k)); intros h a1 a2 a3 a4.
    clear. cbn. repeat (rewrite <- ?app_assoc; cbn [app]). reflexivity.
  - rewrite (quoted_address D x b Hx), !quoted_hex, quoted_number.
    generalize (hex_of_N e) (lower_hex sg) (lower_hex pk) (lower_hex (kp_der k)) (lower_hex (kp_secret k)); intros h a1 a2 a3 a4.
    clear. cbn. repeat (rewrite <- ?app_assoc; cbn [app]). reflexivity.
Qed.

(** ** C100  A sign in leaves this text in localStorage, and nothing else *)

Theorem C100_text : forall D cid acts w t, deps_ok D -> runs D cid acts w -> undisturbed acts -> w_storage w = Some t ->
  exists x k exp targets sg pk h,
    issued (w_history w) x (mkIdent k (mkChain [mkSigned (mkDelegation (kp_der k) exp targets) sg] pk)) /\
    hex_number h exp /\ t = stored_text x (kp_der k) (kp_secret k) h targets sg pk.
Proof.
  intros D cid acts w t HD H Hu Ht. pose proof (ci_exec _ _ _ (runs_cinv D cid acts w H)) as He.
  destruct (runs_store D cid acts w HD H Hu) as [[E _]|(x & k & c & (Hst & _ & Hk & His) & _)]; [congruence|].
  rewrite Hst in Ht. injection Ht as <-. pose proof His as (pre & l & mid & g & post & sg & n & exp & pk & cert & r & E & Hl & Hd & Ec).
  cbn [id_chain id_key] in *. subst c. rewrite E in He. destruct (exec_at _ _ _ _ _ _ He) as [s1 H1].
  assert (exists b, address_text D x b) as [b Hb].
  { destruct (C27_authenticated D cid pre l s1 sg x _ n exp pk HD H1 Hl)
      as (_ & _ & _ & _ & _ & _ & _ & _ & b & _ & _ & _ & _ & _ & _ & _ & _ & Hb & _). eauto. }
  assert (pre ++ l :: mid ++ g :: post = (pre ++ l :: mid) ++ g :: post) as E2 by (now rewrite <- app_assoc). rewrite E2 in He.
  destruct (exec_at _ _ _ _ _ _ He) as [s2 H2].
  destruct (delegated_signed_ok D cid _ g s2 cert x _ exp r HD H2 Hd) as [_ Er].
  { unfold kp_der. rewrite app_length. destruct Hk. lia. }
  destruct r as [d sgn]. cbn [sd_delegation] in *. rewrite Er in His |- *.
  exists x, k, exp, (dl_targets d), sgn, pk, (hex_of_N exp). split; [exact His|]. split; [apply hex_of_N_number|].
  now apply (save_identity_text D x b).
Qed.

Example C100_case : exists w t r, runs CD demo_cid alice_acts w /\ undisturbed alice_acts /\ w_storage w = Some t /\
  t = bs "{""address"":""" ++ alice_text ++ bs """,""sessionIdentity"":[""" ++ lower_hex (kp_der pair1) ++ bs """,""" ++ lower_hex (kp_secret pair1) ++ r.
Proof.
  run_of alice_acts alice_view w H. exists w.
  destruct (C53_agree CD demo_cid alice_acts w CD_ok H alice_undisturbed) as [[Hs _]|(x & i & (S1 & S2 & S3) & Hs)].
  - rewrite Hx. reflexivity.
  - rewrite Hst in Hs. discriminate Hs.
  - rewrite Hst. eexists _, _. split; [exact H|]. split; [exact alice_undisturbed|]. split; [reflexivity|]. vm_compute. reflexivity.
Qed.

(** With a target. *)
Example C100_targets : stored_text (bs "0xAb") [x01] [x02] (bs "1f") (Some [[xab; xc1]; [x0d]]) [x03] [x04] =
  bs "{""address"":""0xAb"",""sessionIdentity"":[""01"",""02""],""delegationChain"":{""delegations"":[{""delegation"":{""expiration"":""1f"",""pubkey"":""01"",""targets"":[""ABC1"",""0D""]},""signature"":""03""}],""publicKey"":""04""}}".
Proof. reflexivity. Qed.

Print Assumptions C100_text.
