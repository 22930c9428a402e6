(** Lemmas about Hash, and the seed and message-key preimages. *)
From Coq Require Import Strings.String Sorting.Sorted.
From Coq Require Import ZifyBool ZifyN ZifyNat.
From Verif Require Import Base BaseLemmas Deps Hash SpecHash.
Local Open Scope N_scope.

Ltac Zify.zify_post_hook ::= Z.to_euclidean_division_equations.

(** ** LEB128 *)

(** The encoding as a list function. *)
Fixpoint uleb (fuel : nat) (n : N) : bytes :=
  match fuel with
  | O => []
  | S f => if n / 128 =? 0 then [u8 (n mod 128)] else u8 (n mod 128 + 128) :: uleb f (n / 128)
  end.

Definition uleb128 (n : N) : bytes := uleb 10 n.

Lemma uleb_length fuel n : (length (uleb fuel n) <= fuel)%nat.
Proof.
  revert n; induction fuel as [|f IH]; intros n; [simpl; lia|].
  cbn [uleb]. destruct (n / 128 =? 0); cbn [length]; [lia|]. specialize (IH (n / 128)). lia.
Qed.

Lemma pow128_S f : 128 ^ N.of_nat (S f) = 128 * 128 ^ N.of_nat f.
Proof. rewrite Nat2N.inj_succ, N.pow_succ_r'. reflexivity. Qed.

Lemma leb_loop_spec f buf n i k :
  (f <= k)%nat -> (i + f <= length buf)%nat -> n < 128 ^ N.of_nat f ->
  (0 < f)%nat ->
  leb_loop k buf n i = Done (take i buf ++ uleb f n).
Proof.
  revert buf n i k; induction f as [|f IH]; intros buf n i k Hk Hl Hn Hf; [lia|].
  destruct k as [|k]; [lia|]. cbn [leb_loop uleb].
  assert (Nat.ltb i (length buf) = true) as -> by (apply Nat.ltb_lt; lia).
  destruct (n / 128 =? 0) eqn:E.
  - f_equal. rewrite (take_S_r _ i (u8 (n mod 128))).
    + rewrite take_insert by lia. reflexivity.
    + apply list_lookup_insert. lia.
  - rewrite pow128_S in Hn.
    destruct f as [|f]; [change (128 ^ N.of_nat 0) with 1 in Hn; lia|].
    rewrite IH.
    + rewrite (take_S_r _ i (u8 (n mod 128 + 128))).
      * rewrite take_insert by lia. rewrite <- app_assoc. reflexivity.
      * apply list_lookup_insert. lia.
    + lia.
    + rewrite insert_length. lia.
    + lia.
    + lia.
Qed.

Lemma leb_buffer_spec n : n <= u64_max -> leb_buffer n = Done (uleb128 n).
Proof.
  intros H. unfold leb_buffer. rewrite (leb_loop_spec 10); [reflexivity|lia| | |lia].
  - rewrite repeat_length. lia.
  - change (128 ^ N.of_nat 10) with 1180591620717411303424. unfold u64_max in H. lia.
Qed.

Lemma uleb_is f n : (0 < f)%nat -> n < 128 ^ N.of_nat f -> is_uleb128 (uleb f n) n.
Proof.
  revert n; induction f as [|f IH]; intros n Hf Hn; [lia|]. cbn [uleb].
  destruct (n / 128 =? 0) eqn:E.
  - exists [], (u8 (n mod 128)). split; [reflexivity|]. split; [constructor|].
    rewrite nb_u8. split; [lia|]. split; [now left|]. unfold leb_value. rewrite nb_u8. lia.
  - rewrite pow128_S in Hn. destruct f as [|f]; [change (128 ^ N.of_nat 0) with 1 in Hn; lia|].
    destruct (IH (n / 128)) as (front & final & El & Hfr & Hfin & Hmin & Hv); [lia|lia|].
    exists (u8 (n mod 128 + 128) :: front), final. rewrite El.
    split; [reflexivity|]. split; [constructor; [rewrite nb_u8; lia|assumption]|].
    split; [assumption|]. split.
    + right. destruct Hmin as [->|]; [|assumption]. cbn [app] in El. rewrite El in Hv.
      unfold leb_value in Hv. lia.
    + cbn [leb_value]. rewrite <- El, Hv, nb_u8. lia.
Qed.

Lemma uleb128_is n : n <= u64_max -> is_uleb128 (uleb128 n) n.
Proof.
  intros H. apply uleb_is; [lia|].
  change (128 ^ N.of_nat 10) with 1180591620717411303424. unfold u64_max in H. lia.
Qed.

Lemma is_uleb_read l n rest : is_uleb128 l n -> leb_read (l ++ rest) = Some (n, rest).
Proof.
  intros (front & final & -> & Hf & Hfin & _ & <-).
  induction front as [|b front IH].
  - simpl. assert (nb final <? 128 = true) as -> by lia. rewrite N.mod_small by lia. repeat f_equal. lia.
  - apply List.Forall_cons_iff in Hf as [Hb Hf]. cbn [app leb_read leb_value].
    assert (nb b <? 128 = false) as -> by lia. rewrite IH by assumption. reflexivity.
Qed.

Lemma is_uleb_fun l1 l2 n : is_uleb128 l1 n -> is_uleb128 l2 n -> l1 = l2.
Proof.
  intros (f1 & x1 & -> & Hf1 & Hx1 & Hm1 & Hv1) (f2 & x2 & -> & Hf2 & Hx2 & Hm2 & Hv2).
  revert f2 n Hf2 Hm2 Hv1 Hv2. induction f1 as [|b f1 IH]; intros [|c f2] n Hf2 Hm2 Hv1 Hv2.
  - simpl in *. f_equal. apply nb_inj. lia.
  - exfalso. apply List.Forall_cons_iff in Hf2 as [Hc Hf2]. cbn [app leb_value] in Hv1, Hv2.
    destruct Hm2 as [|Hm2]; [discriminate|].
    assert (leb_value (f2 ++ [x2]) <> 0).
    { clear -Hm2 Hx2. induction f2 as [|d f2 IH]; cbn [app leb_value]; [lia|]. lia. }
    lia.
  - exfalso. apply List.Forall_cons_iff in Hf1 as [Hc Hf1]. cbn [app leb_value] in Hv1, Hv2.
    destruct Hm1 as [|Hm1]; [discriminate|].
    assert (leb_value (f1 ++ [x1]) <> 0).
    { clear -Hm1 Hx1. induction f1 as [|d f1 IH]; cbn [app leb_value]; [lia|]. lia. }
    lia.
  - apply List.Forall_cons_iff in Hf1 as [Hb Hf1], Hf2 as [Hc Hf2].
    destruct Hm1 as [|Hm1]; [discriminate|]. destruct Hm2 as [|Hm2]; [discriminate|].
    cbn [app leb_value] in Hv1, Hv2. pose proof (nb_lt b). pose proof (nb_lt c).
    assert (b = c) as -> by (apply nb_inj; lia). cbn [app]. f_equal.
    apply (IH Hf1 ltac:(right; assumption) f2 (leb_value (f2 ++ [x2]))); auto. lia.
Qed.

Lemma is_uleb_inj l n1 n2 : is_uleb128 l n1 -> is_uleb128 l n2 -> n1 = n2.
Proof. intros (? & ? & _ & _ & _ & _ & <-) (? & ? & _ & _ & _ & _ & <-). reflexivity. Qed.

(** ** Sorting *)

Lemma bytes_cmp_lex a b : bytes_cmp a b = Lt <-> lex_lt a b.
Proof.
  revert b; induction a as [|x a IH]; intros b.
  - destruct b as [|y b]; simpl.
    + split; [discriminate|]. intros [(t & Ht & E)|(p & x & y & a' & b' & E & _)].
      * destruct t; [contradiction|discriminate].
      * destruct p; discriminate.
    + split; [|reflexivity]. intros _. left. exists (y :: b). split; [discriminate|reflexivity].
  - destruct b as [|y b]; simpl.
    + split; [discriminate|]. intros [(t & Ht & E)|(p & x' & y & a' & b' & E & E' & _)].
      * discriminate.
      * destruct p; discriminate.
    + destruct (N.compare_spec (nb x) (nb y)) as [E|Hlt|Hgt].
      * apply nb_inj in E as ->. rewrite IH. split.
        -- intros [(t & Ht & ->)|(p & x & z & a' & b' & -> & -> & Hxy)].
           ++ left. exists t. auto.
           ++ right. exists (y :: p), x, z, a', b'. auto.
        -- intros [(t & Ht & E)|(p & x & z & a' & b' & E & E' & Hxy)].
           ++ injection E as E. left. exists t. auto.
           ++ destruct p as [|w p].
              ** injection E as -> ->. injection E' as -> ->. lia.
              ** injection E as -> ->. injection E' as ->. right. exists p, x, z, a', b'. auto.
      * split; [|reflexivity]. intros _. right. exists [], x, y, a, b. auto.
      * split; [discriminate|]. intros [(t & Ht & E)|(p & x' & y' & a' & b' & E & E' & Hxy)].
        -- injection E as E _. subst y. lia.
        -- destruct p as [|w p].
           ++ injection E as -> ->. injection E' as -> ->. lia.
           ++ injection E as -> ->. injection E' as -> ->. lia.
Qed.

Lemma lex_le_cmp a b : lex_le a b <-> bytes_cmp a b <> Gt.
Proof.
  unfold lex_le. rewrite <- bytes_cmp_lex. rewrite <- bytes_cmp_eq.
  destruct (bytes_cmp a b); split; intuition congruence.
Qed.

Lemma lex_le_trans a b c : lex_le a b -> lex_le b c -> lex_le a c.
Proof.
  unfold lex_le. rewrite <- !bytes_cmp_lex. intros [->|H1] [->|H2]; auto.
  right. eapply bytes_cmp_lt_trans; eassumption.
Qed.

Lemma lex_le_antisym a b : lex_le a b -> lex_le b a -> a = b.
Proof.
  intros H1 H2. apply lex_le_cmp in H1, H2. rewrite bytes_cmp_opp in H2.
  destruct (bytes_cmp a b) eqn:E; simpl in H2; [now apply bytes_cmp_eq|congruence|congruence].
Qed.

Lemma insert_sorted_perm x l : Permutation (x :: l) (insert_sorted x l).
Proof.
  induction l as [|y l IH]; simpl; [reflexivity|].
  destruct (bytes_cmp x y); [reflexivity|reflexivity|].
  etransitivity; [apply perm_swap|]. now constructor.
Qed.

Lemma sort_bytes_perm l : Permutation l (sort_bytes l).
Proof.
  induction l as [|x l IH]; simpl; [reflexivity|].
  etransitivity; [|apply insert_sorted_perm]. now constructor.
Qed.

Lemma insert_sorted_sorted x l : StronglySorted lex_le l -> StronglySorted lex_le (insert_sorted x l).
Proof.
  induction l as [|y l IH]; intros Hs; simpl.
  - repeat constructor.
  - inversion Hs as [|? ? Hs' Hall]; subst.
    destruct (bytes_cmp x y) eqn:E.
    + apply bytes_cmp_eq in E as ->. constructor; [assumption|]. constructor; [now left|assumption].
    + assert (lex_le x y) as Hxy by (apply lex_le_cmp; congruence).
      constructor; [assumption|]. constructor; [assumption|].
      rewrite List.Forall_forall in *. intros z Hz. apply (lex_le_trans _ y); auto.
    + constructor; [now apply IH|].
      assert (lex_le y x) as Hyx by (apply lex_le_cmp; apply bytes_cmp_lt_gt in E; congruence).
      assert (Forall (lex_le y) (x :: l)) as Hf by (constructor; assumption).
      rewrite List.Forall_forall in *. intros z Hz. apply Hf.
      eapply Permutation_in; [symmetry; apply insert_sorted_perm|assumption].
Qed.

Lemma sort_bytes_sorted l : StronglySorted lex_le (sort_bytes l).
Proof. induction l as [|x l IH]; simpl; [constructor|now apply insert_sorted_sorted]. Qed.

Lemma sorted_perm_eq l1 l2 : StronglySorted lex_le l1 -> StronglySorted lex_le l2 ->
  Permutation l1 l2 -> l1 = l2.
Proof.
  revert l2; induction l1 as [|x l1 IH]; intros l2 H1 H2 Hp.
  - apply Permutation_nil in Hp. congruence.
  - destruct l2 as [|y l2]; [symmetry in Hp; now apply Permutation_nil in Hp|].
    inversion H1 as [|? ? H1' F1]; subst. inversion H2 as [|? ? H2' F2]; subst.
    assert (x = y) as ->.
    { apply lex_le_antisym.
      - assert (In y (x :: l1)) as [->|Hin] by (eapply Permutation_in; [symmetry; eassumption|now left]).
        + now left.
        + rewrite List.Forall_forall in F1. now apply F1.
      - assert (In x (y :: l2)) as [->|Hin] by (eapply Permutation_in; [eassumption|now left]).
        + now left.
        + rewrite List.Forall_forall in F2. now apply F2. }
    f_equal. apply IH; auto. eapply Permutation_cons_inv; eassumption.
Qed.

Lemma sort_bytes_canonical l1 l2 : Permutation l1 l2 -> sort_bytes l1 = sort_bytes l2.
Proof.
  intros H. apply sorted_perm_eq; [apply sort_bytes_sorted..|].
  rewrite <- !sort_bytes_perm. exact H.
Qed.

(** ** Values *)

(** Every integer inside fits u64. *)
Fixpoint value_wf (v : value) : Prop :=
  match v with
  | VU64 n => n <= u64_max
  | VArray l => (fix go l := match l with [] => True | x :: r => value_wf x /\ go r end) l
  | _ => True
  end.

Fixpoint to_ri (v : value) : ri_value :=
  match v with
  | VBytes b => RBlob b
  | VString b => RText b
  | VU64 n => RNat n
  | VArray l => RArray (map to_ri l)
  end.

Fixpoint value_ind' (P : value -> Prop)
  (Hb : forall b, P (VBytes b)) (Hs : forall s, P (VString s)) (Hn : forall n, P (VU64 n))
  (Ha : forall l, Forall P l -> P (VArray l)) (v : value) : P v :=
  match v with
  | VBytes b => Hb b
  | VString s => Hs s
  | VU64 n => Hn n
  | VArray l => Ha l ((fix go l : Forall P l :=
                         match l with
                         | [] => Forall_nil _
                         | x :: r => @List.Forall_cons _ P x r (value_ind' P Hb Hs Hn Ha x) (go r)
                         end) l)
  end.

Lemma hash_value_ri D v : value_wf v ->
  exists h q, hash_value D v = Done h /\ ri_hash (d_sha256 D) (to_ri v) h q.
Proof.
  induction v as [b|s|n|l IH] using value_ind'; intros Hwf.
  - eexists _, _. split; [reflexivity|constructor].
  - eexists _, _. split; [reflexivity|constructor].
  - cbn [hash_value]. unfold hash_u64. rewrite leb_buffer_spec by exact Hwf. cbn [obind].
    eexists _, _. split; [reflexivity|]. constructor. now apply uleb128_is.
  - cbn [hash_value to_ri].
    assert (exists hs q,
      (fix go (l : list value) : outcome bytes :=
         match l with
         | [] => Done []
         | e :: r => olet h := hash_value D e in olet t := go r in Done (h ++ t)
         end) l = Done (concat hs) /\ ri_hashes (d_sha256 D) (map to_ri l) hs q) as (hs & q & E & Hr).
    { induction l as [|v l IHl].
      - exists [], []. split; [reflexivity|constructor].
      - inversion IH as [|? ? IHv IHr]; subst. destruct Hwf as [Hv Hwf].
        destruct (IHv Hv) as (h & q & E & Hr). destruct (IHl IHr Hwf) as (hs & qs & Es & Hrs).
        exists (h :: hs), (q ++ qs). rewrite E. cbn [obind]. rewrite Es. cbn [obind].
        split; [reflexivity|]. cbn [map]. now constructor. }
    rewrite E. cbn [obind]. eexists _, _. split; [reflexivity|]. constructor. exact Hr.
Qed.

Lemma hash_fields_ri D l : Forall (fun kv => value_wf (snd kv)) l ->
  exists hs q, omap_list (hash_key_value D) l = Done hs /\
    ri_fields (d_sha256 D) (map (fun kv => (fst kv, to_ri (snd kv))) l) hs q.
Proof.
  induction l as [|[k v] l IH]; intros H.
  - exists [], []. split; [reflexivity|constructor].
  - apply List.Forall_cons_iff in H as [Hv H]. destruct (IH H) as (hs & q & E & Hr).
    destruct (hash_value_ri D v Hv) as (h & q' & Ev & Hrv).
    exists ((d_sha256 D k ++ h) :: hs), ((k :: q') ++ q).
    cbn [omap_list]. unfold hash_key_value at 1. cbn [snd fst] in *. rewrite Ev. cbn [obind].
    rewrite E. cbn [obind]. split; [reflexivity|]. cbn [map fst snd]. now constructor.
Qed.

Lemma hash_of_map_ri D l : Forall (fun kv => value_wf (snd kv)) l ->
  exists h q, hash_of_map D l = Done h /\
    ri_record (d_sha256 D) (map (fun kv => (fst kv, to_ri (snd kv))) l) h q.
Proof.
  intros H. destruct (hash_fields_ri D l H) as (hs & q & E & Hr).
  unfold hash_of_map. rewrite E. cbn [obind]. eexists _, _. split; [reflexivity|].
  exists hs, (sort_bytes hs), q. split; [assumption|]. split; [apply sort_bytes_perm|].
  split; [apply sort_bytes_sorted|]. split; reflexivity.
Qed.

Lemma omap_list_perm {A B} (f : A -> outcome B) l1 l2 r1 :
  Permutation l1 l2 -> omap_list f l1 = Done r1 ->
  exists r2, omap_list f l2 = Done r2 /\ Permutation r1 r2.
Proof.
  intros Hp. revert r1. induction Hp as [|x l1 l2 Hp IH|x y l|l1 l2 l3 H1 IH1 H2 IH2]; intros r1 E.
  - exists r1. split; [assumption|reflexivity].
  - cbn [omap_list] in *. destruct (f x) as [y|]; [|discriminate]. cbn [obind] in *.
    destruct (omap_list f l1) as [t|]; [|discriminate]. injection E as <-.
    destruct (IH t eq_refl) as (t2 & -> & Hp2). exists (y :: t2). split; [reflexivity|now constructor].
  - cbn [omap_list] in *. destruct (f y) as [y'|]; [|discriminate]. cbn [obind] in *.
    destruct (f x) as [x'|]; [|discriminate]. cbn [obind] in *.
    destruct (omap_list f l) as [t|]; [|discriminate]. cbn [obind] in *. injection E as <-.
    eexists. split; [reflexivity|]. constructor.
  - destruct (IH1 r1 E) as (r2 & E2 & P2). destruct (IH2 r2 E2) as (r3 & E3 & P3).
    exists r3. split; [assumption|]. etransitivity; eassumption.
Qed.

Lemma hash_of_map_perm D l1 l2 : Permutation l1 l2 ->
  Forall (fun kv => value_wf (snd kv)) l1 ->
  exists h, hash_of_map D l1 = Done h /\ hash_of_map D l2 = Done h.
Proof.
  intros Hp H. destruct (hash_fields_ri D l1 H) as (hs & q & E & _).
  destruct (omap_list_perm _ _ _ _ Hp E) as (hs2 & E2 & Hp2).
  unfold hash_of_map. rewrite E, E2. cbn [obind]. rewrite (sort_bytes_canonical _ _ Hp2). eauto.
Qed.
