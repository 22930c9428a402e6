(** loadIdentity takes exactly the texts of SpecStored. *)
From Coq Require Import Strings.String ZifyBool ZifyN ZifyNat.
From Verif Require Import Base BaseLemmas Hex Json SpecJson JsonStrings JsonProofs Delegation Client SpecStored.
Local Open Scope N_scope.

(** ** Values that were read *)

Lemma members_value_names l : map fst (members_value l) = names_once l.
Proof. unfold members_value. rewrite map_map. cbn. apply map_id. Qed.

Lemma last_value_in l k v : last_value l k = Some v -> In v (map snd l).
Proof.
  induction l as [|[k' v'] l IH] using rev_ind; [discriminate|]. rewrite last_value_snoc, map_app, in_app_iff. cbn [map snd In].
  destruct (bytes_eqb k' k); [intros [= ->]; auto|]. intros H. left. now apply IH.
Qed.
Lemma last_value_some l k : In k (map fst l) -> exists v, last_value l k = Some v.
Proof.
  induction l as [|[k' v'] l IH] using rev_ind; [intros []|]. rewrite last_value_snoc, map_app, in_app_iff. cbn [map fst In].
  destruct (bytes_eqb k' k) eqn:E; [eauto|]. intros [H|[->|[]]]; [now apply IH|]. now rewrite bytes_eqb_refl in E.
Qed.

Lemma arr_fine l : json_fine (JArr l) <-> forall j, In j l -> json_fine j.
Proof.
  cbn [json_fine]. induction l as [|j l IH]; [split; [intros _ ? []|auto]|]. rewrite IH. split.
  - intros [H1 H2] x [<-|Hx]; auto.
  - intros H. split; [apply H; now left|intros x Hx; apply H; now right].
Qed.
Lemma obj_fine l : json_fine (JObj l) <-> List.NoDup (map fst l) /\ forall k j, In (k, j) l -> json_fine j.
Proof.
  cbn [json_fine].
  assert ((fix all (l : list (bytes * json)) := match l with [] => True | m :: r => json_fine (snd m) /\ all r end) l <->
    forall k j, In (k, j) l -> json_fine j) as ->; [|reflexivity].
  induction l as [|[k j] l IH]; [split; [intros _ ? ? []|auto]|]. cbn [snd]. rewrite IH. split.
  - intros [H1 H2] k' x [[= <- <-]|Hx]; eauto.
  - intros H. split; [apply (H k); now left|intros k' x Hx; apply (H k'); now right].
Qed.

Lemma value_fine :
  (forall t v, value t v -> json_fine v) /\
  (forall t vs, elements t vs -> forall j, In j vs -> json_fine j) /\
  (forall t ms, members t ms -> forall j, In j (map snd ms) -> json_fine j).
Proof.
  apply json_ind; try (intros; exact I).
  - auto.
  - intros t vs _ IH. now apply arr_fine.
  - intros. split; [constructor|exact I].
  - intros t ms _ IH. apply obj_fine. rewrite members_value_names. split; [apply names_once_nodup|].
    intros k j H. unfold members_value in H. apply in_map_iff in H as (k' & [= -> <-] & H). apply names_once_in, last_value_some in H as (v & E).
    rewrite E. cbn. apply IH. now apply last_value_in in E.
  - intros w1 t w2 v _ V IH _ j [<-|[]]. exact IH.
  - intros w1 t w2 v t' vs _ V IH _ _ IHe j [<-|H]; auto.
  - intros w1 k s w2 w3 t w4 v _ _ _ _ _ IH _ j [<-|[]]. exact IH.
  - intros w1 k s w2 w3 t w4 v t' ms _ _ _ _ _ IH _ _ IHm j [<-|H]; auto.
Qed.
Lemma doc_fine t v : json_doc t v -> json_fine v.
Proof. intros (w1 & t' & w2 & _ & V & _). now apply value_fine in V. Qed.

Lemma assoc_in k l v : List.NoDup (map fst l) -> assoc k l = Some v <-> In (k, v) l.
Proof.
  induction l as [|[k' v'] l IH]; intros N; [split; [discriminate|intros []]|]. cbn [assoc map fst] in *.
  apply List.NoDup_cons_iff in N as [N1 N2]. destruct (bytes_eqb k k') eqn:E.
  - apply bytes_eqb_spec in E as ->. split; [intros [= ->]; now left|]. intros [[= ->]|H]; [reflexivity|].
    destruct N1. now apply (in_map fst) in H.
  - apply bytes_eqb_false in E. rewrite (IH N2). split; [now right|]. intros [[= -> ->]|H]; [congruence|exact H].
Qed.
Lemma field_member k v x : json_fine v -> json_field (bs k) v = Some x <-> member v k x.
Proof.
  intros F. unfold json_field, member. destruct v as [|b|t|s|l|l]; try (split; [discriminate|intros (l' & E & _); discriminate E]).
  apply obj_fine in F as [N _]. rewrite assoc_in by exact N. split; [eauto|]. intros (l' & [= <-] & H). exact H.
Qed.
Lemma member_fine v k x : json_fine v -> member v k x -> json_fine x.
Proof. intros F (l & -> & H). apply obj_fine in F as [_ F]. eauto. Qed.

(** ** Digits *)

Lemma hex_bytes_spec t : forall b, js_hex_bytes t = Some b <-> hex_text t b.
Proof.
  remember (length t) as n eqn:En. revert t En. induction n as [n IH] using (well_founded_induction lt_wf). intros t En b.
  destruct t as [|x [|y t]].
  - split; [intros [= <-]; constructor|intros H; now inversion H].
  - cbn [js_hex_bytes]. destruct (hex_val x) as [h|] eqn:E.
    + split; [intros [= <-]; constructor; now apply hex_value|]. intros H. inversion H as [|a va Ha|]; subst.
      apply hex_value in Ha. congruence.
    + split; [discriminate|]. intros H. inversion H as [|a va Ha|]; subst. apply hex_value in Ha. congruence.
  - cbn [js_hex_bytes]. split.
    + destruct (hex_val x) as [h|] eqn:E1; [|discriminate]. destruct (hex_val y) as [lo|] eqn:E2; [|discriminate].
      destruct (js_hex_bytes t) as [r|] eqn:E3; [|discriminate]. intros H. apply (inj Some) in H as <-.
      constructor; [now apply hex_value|now apply hex_value|]. apply (IH (length t)); [cbn in En; lia|reflexivity|exact E3].
    + intros H. inversion H as [| |a b' va vb t' l Ha Hb Ht]; subst. apply hex_value in Ha, Hb. rewrite Ha, Hb.
      apply (IH (length t)) in Ht; [|cbn; lia|reflexivity]. now rewrite Ht.
Qed.
Lemma from_hex_spec t b : js_from_hex t = Some b <-> t <> [] /\ hex_text t b.
Proof.
  unfold js_from_hex. destruct t as [|c t]; [split; [discriminate|now intros [? _]]|].
  rewrite hex_bytes_spec. split; [intros; split; [discriminate|assumption]|now intros [_ ?]].
Qed.

Lemma hex_aux_snoc l : forall acc a, N_of_hex_aux acc (l ++ [a]) =
  match N_of_hex_aux acc l, hex_val a with Some n, Some h => Some (16 * n + h) | _, _ => None end.
Proof.
  induction l as [|c l IH]; intros acc a; cbn [app N_of_hex_aux]; [destruct (hex_val a); reflexivity|].
  destruct (hex_val c); [apply IH|reflexivity].
Qed.
Lemma hex_number_spec t n : N_of_hex t = Some n <-> hex_number t n.
Proof.
  split.
  - revert n. induction t as [|a t IH] using rev_ind; intros n H; [discriminate|].
    assert (N_of_hex_aux 0 (t ++ [a]) = Some n) as H'.
    { unfold N_of_hex in H. destruct (t ++ [a]) eqn:E; [discriminate|exact H]. }
    rewrite hex_aux_snoc in H'. destruct (N_of_hex_aux 0 t) as [m|] eqn:E; [|discriminate].
    destruct (hex_val a) as [h|] eqn:Ha; [|discriminate]. apply (inj Some) in H' as <-. apply hex_value in Ha.
    destruct t as [|c t].
    + injection E as <-. cbn [app]. replace (16 * 0 + h) with h by lia. now constructor.
    + constructor; [|exact Ha]. now apply IH.
  - intros H. assert (t <> [] /\ N_of_hex_aux 0 t = Some n) as [N E].
    { induction H as [a va Ha|t n a va H [IH1 IH2] Ha].
      - apply hex_value in Ha. split; [discriminate|]. cbn [N_of_hex_aux]. rewrite Ha. reflexivity.
      - apply hex_value in Ha. split; [now destruct t|]. now rewrite hex_aux_snoc, IH2, Ha. }
    unfold N_of_hex. now destruct t.
Qed.

(** ** The parts *)

Lemma blob_spec k v b : json_fine v -> parse_blob (json_field (bs k) v) = Some b <-> blob_member v k b.
Proof.
  intros F. unfold blob_member. split.
  - destruct (json_field (bs k) v) as [x|] eqn:E; [|discriminate]. apply field_member in E; [|exact F].
    destruct x as [| | |t| |]; try discriminate. cbn [parse_blob]. destruct (blen t <? 64) eqn:L; [discriminate|].
    intros H. apply from_hex_spec in H as [_ H]. exists t. split; [exact E|]. split; [lia|exact H].
  - intros (t & M & L & H). apply field_member in M; [|exact F]. rewrite M. cbn [parse_blob].
    assert (blen t <? 64 = false) as -> by lia. apply from_hex_spec. split; [|exact H]. intros ->. cbn in L. lia.
Qed.

Lemma all_some_spec {A B} (f : A -> option B) (R : A -> B -> Prop) l : forall r,
  (forall x y, In x l -> f x = Some y <-> R x y) -> all_some f l = Some r <-> Forall2 R l r.
Proof.
  induction l as [|x l IH]; intros r H; cbn [all_some].
  - split; [intros [= <-]; constructor|intros F; now inversion F].
  - assert (forall x' y, In x' l -> f x' = Some y <-> R x' y) as H' by (intros; apply H; now right). split.
    + destruct (f x) as [y|] eqn:E; [|discriminate]. destruct (all_some f l) as [ys|] eqn:E2; [|discriminate].
      intros [= <-]. constructor; [apply H; [now left|exact E]|]. now apply (IH ys H').
    + intros F. inversion F as [|? y ? ys Hx Hl]; subst. apply H in Hx; [|now left]. apply (IH ys H') in Hl. now rewrite Hx, Hl.
Qed.

Lemma targets_spec v ts : json_fine v -> targets_from_json (json_field (bs "targets") v) = Some ts <-> stored_targets v ts.
Proof.
  intros F. unfold stored_targets. split.
  - destruct (json_field (bs "targets") v) as [x|] eqn:E.
    + destruct x as [| | | |l|]; try discriminate. cbn [targets_from_json].
      destruct (all_some target_from_json l) as [r|] eqn:A; [|discriminate]. intros [= <-].
      exists l. apply field_member in E; [|exact F]. split; [exact E|]. revert A. apply all_some_spec.
      intros [| | |s| |] y _; cbn [target_from_json]; try (split; [discriminate|intros (s' & [=] & _)]).
      rewrite hex_bytes_spec. split; [eauto|]. intros (s' & [= <-] & H). exact H.
    + intros [= <-] x M. apply field_member in M; [|exact F]. congruence.
  - destruct ts as [ts|].
    + intros (l & M & H). apply field_member in M; [|exact F]. rewrite M. cbn [targets_from_json].
      assert (all_some target_from_json l = Some ts) as ->; [|reflexivity]. revert H. apply all_some_spec.
      intros [| | |s| |] y _; cbn [target_from_json]; try (split; [discriminate|intros (s' & [=] & _)]).
      rewrite hex_bytes_spec. split; [eauto|]. intros (s' & [= <-] & H). exact H.
    + intros H. destruct (json_field (bs "targets") v) as [x|] eqn:E; [|reflexivity]. apply field_member in E; [|exact F]. now apply H in E.
Qed.

Lemma delegation_spec v d : json_fine v -> signed_from_json v = Some d <-> stored_delegation v d.
Proof.
  intros F. unfold signed_from_json, stored_delegation. split.
  - destruct (json_field (bs "delegation") v) as [dv|] eqn:E; [|discriminate]. apply field_member in E; [|exact F].
    pose proof (member_fine _ _ _ F E) as Fd.
    destruct (parse_blob (json_field (bs "pubkey") dv)) as [pk|] eqn:E1; [|discriminate]. apply blob_spec in E1; [|exact Fd].
    destruct (expiration_from_json (json_field (bs "expiration") dv)) as [e|] eqn:E2; [|discriminate].
    destruct (targets_from_json (json_field (bs "targets") dv)) as [ts|] eqn:E3; [|discriminate]. apply targets_spec in E3; [|exact Fd].
    destruct (parse_blob (json_field (bs "signature") v)) as [sg|] eqn:E4; [|discriminate]. apply blob_spec in E4; [|exact F].
    intros [= <-]. unfold expiration_from_json in E2. destruct (json_field (bs "expiration") dv) as [[| | |t| |]|] eqn:E5; try discriminate.
    apply field_member in E5; [|exact Fd]. apply hex_number_spec in E2. exists dv, t. auto 10.
  - intros (dv & t & M & M1 & M2 & Ht & M3 & M4). pose proof (member_fine _ _ _ F M) as Fd.
    apply field_member in M; [|exact F]. rewrite M. apply blob_spec in M1; [|exact Fd]. rewrite M1.
    apply field_member in M2; [|exact Fd]. rewrite M2. cbn [expiration_from_json]. apply hex_number_spec in Ht. rewrite Ht.
    apply targets_spec in M3; [|exact Fd]. rewrite M3. apply blob_spec in M4; [|exact F]. rewrite M4. destruct d as [[? ? ?] ?]. reflexivity.
Qed.

Lemma chain_spec v c : json_fine v -> chain_from_json v = Some c <-> stored_chain v c.
Proof.
  intros F. unfold chain_from_json, stored_chain. split.
  - destruct (json_field (bs "delegations") v) as [[| | | |l|]|] eqn:E; try discriminate. apply field_member in E; [|exact F].
    pose proof (proj1 (arr_fine l) (member_fine _ _ _ F E)) as Fl.
    destruct (all_some signed_from_json l) as [ds|] eqn:A; [|discriminate].
    destruct (parse_blob (json_field (bs "publicKey") v)) as [pk|] eqn:E4; [|discriminate]. apply blob_spec in E4; [|exact F].
    intros [= <-]. exists l. split; [exact E|]. split; [|exact E4]. revert A. apply all_some_spec. intros x y Hx. apply delegation_spec. auto.
  - intros (l & M & H & B). pose proof (proj1 (arr_fine l) (member_fine _ _ _ F M)) as Fl.
    apply field_member in M; [|exact F]. rewrite M. apply blob_spec in B; [|exact F]. rewrite B.
    assert (all_some signed_from_json l = Some (ch_delegations c)) as ->; [|now destruct c].
    revert H. apply all_some_spec. intros x y Hx. apply delegation_spec. auto.
Qed.

Lemma key_spec v k : keypair_from_json v = Some k <-> stored_key v k.
Proof.
  unfold stored_key. change (map u8 [48; 42; 48; 5; 6; 3; 43; 101; 112; 3; 33; 0]) with ED25519_PREFIX. split.
  - destruct v as [| | | |[|[| | |p| |] [|[| | |s| |] more]]|]; try discriminate. cbn [keypair_from_json].
    destruct (js_from_hex p) as [d|] eqn:E1; [|discriminate]. destruct (js_from_hex s) as [sec|] eqn:E2; [|discriminate].
    destruct (ed25519_unwrap d) as [raw|] eqn:E3; [|discriminate]. intros [= <-]. cbn [kp_raw kp_secret].
    apply from_hex_spec in E1 as [_ E1], E2 as [N E2]. unfold ed25519_unwrap in E3.
    destruct (strip_prefix ED25519_PREFIX d) as [r|] eqn:P; [|discriminate]. apply strip_prefix_spec in P as ->.
    destruct (Nat.eqb (length r) 32) eqn:L; [|discriminate]. injection E3 as ->. apply Nat.eqb_eq in L. exists p, s, more. auto.
  - intros (p & s & more & -> & L & N & H1 & H2). cbn [keypair_from_json].
    assert (js_from_hex p = Some (ED25519_PREFIX ++ kp_raw k)) as ->.
    { apply from_hex_spec. split; [|exact H1]. intros ->. inversion H1. }
    assert (js_from_hex s = Some (kp_secret k)) as -> by (apply from_hex_spec; auto).
    unfold ed25519_unwrap. rewrite strip_prefix_app, L. cbn. now destruct k.
Qed.

Lemma zero_number_spec t : zero_number t = true <-> zero t.
Proof.
  split.
  - induction t as [|c t IH]; intros H; [exists [], []; repeat split; [constructor|now left]|]. cbn [zero_number] in H.
    destruct ((nb c =? 101) || (nb c =? 69)) eqn:E.
    + exists [], (c :: t). repeat split; [constructor|]. right. exists t. apply orb_true_iff in E as [E|E]; apply N.eqb_eq in E.
      * left. f_equal. now apply nb_inj.
      * right. f_equal. now apply nb_inj.
    + destruct ((49 <=? nb c) && (nb c <=? 57)) eqn:Z; [discriminate|]. destruct (IH H) as (m & e & -> & F & He).
      exists (c :: m), e. split; [reflexivity|]. split; [|exact He]. constructor; [lia|exact F].
  - intros (m & e & -> & F & He). induction F as [|c m Hc F IH].
    + destruct He as [->|(r & [->| ->])]; reflexivity.
    + cbn [app zero_number]. destruct ((nb c =? 101) || (nb c =? 69)); [reflexivity|].
      assert ((49 <=? nb c) && (nb c <=? 57) = false) as -> by lia. exact IH.
Qed.
Lemma truthy_spec j : truthy j = true <-> ~ falsy j.
Proof.
  unfold falsy. destruct j as [|[|]|t|[|c s]|l|l]; cbn [truthy]; split; try reflexivity; try discriminate; try (now intros H; destruct H; auto);
    try (intros _ [H|[H|[H|(t' & H & _)]]]; discriminate H).
  - intros H [E|[E|[E|(t' & [= <-] & Z)]]]; try discriminate E. apply zero_number_spec in Z. rewrite Z in H. discriminate H.
  - intros H. destruct (zero_number t) eqn:Z; [|reflexivity]. destruct H. right. right. right. exists t. split; [reflexivity|]. now apply zero_number_spec.
Qed.

Lemma load_spec t a i c : load_identity (Some t) = Some (a, i, c) <-> c = id_chain i /\ stored_sign_in t a i.
Proof.
  unfold stored_sign_in. split.
  - intros H. assert (exists v, parse_json t = Some v) as [v P].
    { destruct t; [discriminate H|]. cbn [load_identity] in H. destruct (parse_json _) as [v|]; [eauto|discriminate]. }
    assert (load_identity (Some t) = match json_field (bs "address") v, json_field (bs "sessionIdentity") v,
                json_field (bs "delegationChain") v with
          | Some a, Some k, Some d =>
              if truthy a && truthy k && truthy d then
                match chain_from_text (json_text d), keypair_from_text (json_text k) with
                | Some c, Some k => Some (a, mkIdent k c, c)
                | _, _ => None
                end
              else None
          | _, _, _ => None end) as E.
    { unfold load_identity. destruct t as [|b t]; [discriminate H|]. now rewrite P. }
    rewrite E in H. clear E. apply parse_json_spec in P. pose proof (doc_fine _ _ P) as F.
    destruct (json_field (bs "address") v) as [av|] eqn:E1; [|discriminate]. apply field_member in E1; [|exact F].
    destruct (json_field (bs "sessionIdentity") v) as [kv|] eqn:E2; [|discriminate]. apply field_member in E2; [|exact F].
    destruct (json_field (bs "delegationChain") v) as [cv|] eqn:E3; [|discriminate]. apply field_member in E3; [|exact F].
    destruct (truthy av && truthy kv && truthy cv) eqn:T; [|discriminate].
    pose proof (member_fine _ _ _ F E2) as Fk. pose proof (member_fine _ _ _ F E3) as Fc.
    unfold chain_from_text, keypair_from_text in H. rewrite (parse_text cv Fc), (parse_text kv Fk) in H.
    destruct (chain_from_json cv) as [c'|] eqn:C; [|discriminate]. destruct (keypair_from_json kv) as [k'|] eqn:K; [|discriminate].
    injection H as <- <- <-. split; [reflexivity|].
    exists v, kv, cv. cbn [id_chain id_key]. apply key_spec in K. apply chain_spec in C; [|exact Fc].
    repeat split; auto. apply truthy_spec. now destruct (truthy av).
  - intros (-> & v & kv & cv & P & N & M1 & M2 & K & M3 & C). pose proof (doc_fine _ _ P) as F.
    pose proof (member_fine _ _ _ F M2) as Fk. pose proof (member_fine _ _ _ F M3) as Fc.
    apply parse_json_spec in P. apply field_member in M1; [|exact F]. apply field_member in M2; [|exact F]. apply field_member in M3; [|exact F].
    unfold load_identity. destruct t as [|b t]; [discriminate P|]. rewrite P, M1, M2, M3.
    assert (truthy a = true) as -> by now apply truthy_spec.
    assert (truthy kv = true) as -> by (destruct K as (p & s & more & -> & _); reflexivity).
    assert (truthy cv = true) as -> by (destruct C as (l & (l' & -> & _) & _); reflexivity).
    cbn [andb]. unfold chain_from_text, keypair_from_text. rewrite (parse_text cv Fc), (parse_text kv Fk).
    apply key_spec in K. apply chain_spec in C; [|exact Fc]. rewrite K, C. now destruct i.
Qed.
