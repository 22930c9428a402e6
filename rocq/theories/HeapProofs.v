(** BinaryHeap: push and pop keep the heap order and the contents, and pop
    returns a greatest element. *)
From Coq Require Import ZifyBool ZifyNat.
From Verif Require Import Base Heap.
Ltac Zify.zify_post_hook ::= Z.to_euclidean_division_equations.

Section Heap.
  Context {E : Type}.
  Variable ole : E -> E -> bool.
  Hypothesis ole_trans : forall a b c, ole a b = true -> ole b c = true -> ole a c = true.
  Hypothesis ole_total : forall a b, ole a b = true \/ ole b a = true.

  Definition parent (i : nat) : nat := (i - 1) / 2.

  (** No element is greater than its parent. *)
  Definition heap_ok (l : list E) : Prop := forall i a b,
    (0 < i)%nat -> l !! i = Some a -> l !! parent i = Some b -> ole a b = true.

  Lemma ole_refl a : ole a a = true.
  Proof. destruct (ole_total a a); assumption. Qed.

  Lemma swap_length i j (l : list E) : length (swap i j l) = length l.
  Proof. unfold swap. destruct (l !! i), (l !! j); rewrite ?insert_length; reflexivity. Qed.

  Lemma swap_lookup i j (l : list E) a b n : l !! i = Some a -> l !! j = Some b -> i <> j ->
    swap i j l !! n = if decide (n = i) then Some b else if decide (n = j) then Some a else l !! n.
  Proof.
    intros Ha Hb Hij. unfold swap. rewrite Ha, Hb. pose proof (lookup_lt_Some _ _ _ Ha). pose proof (lookup_lt_Some _ _ _ Hb).
    destruct (decide (n = i)) as [->|Hi].
    - apply list_lookup_insert. now rewrite insert_length.
    - rewrite list_lookup_insert_ne by congruence. destruct (decide (n = j)) as [->|Hj].
      + now apply list_lookup_insert.
      + now rewrite list_lookup_insert_ne by congruence.
  Qed.

  Lemma swap_perm i j (l : list E) : swap i j l ≡ₚ l.
  Proof.
    destruct (l !! i) as [a|] eqn:Ha; [|unfold swap; now rewrite Ha].
    destruct (l !! j) as [b|] eqn:Hb; [|unfold swap; now rewrite Ha, Hb].
    destruct (decide (i = j)) as [->|Hij].
    { unfold swap. rewrite Ha. rewrite list_insert_insert. rewrite list_insert_id by assumption. reflexivity. }
    apply Permutation_inj. split; [apply swap_length|].
    exists (fun n => if decide (n = i) then j else if decide (n = j) then i else n). split.
    - intros x y H. repeat case_decide; congruence.
    - intros n. rewrite (swap_lookup i j l a b) by assumption. repeat case_decide; congruence.
  Qed.

  (** Heap order except between [p] and its parent; the children of [p] are below [p]'s parent. *)
  Definition up_ok (p : nat) (l : list E) : Prop :=
    (forall i a b, (0 < i)%nat -> i <> p -> l !! i = Some a -> l !! parent i = Some b -> ole a b = true) /\
    (forall i a b, (0 < i)%nat -> parent i = p -> (0 < p)%nat -> l !! i = Some a -> l !! parent p = Some b -> ole a b = true).

  Lemma sift_up_ok f : forall p l, (p < f)%nat -> (p < length l)%nat -> up_ok p l ->
    heap_ok (sift_up ole f p l) /\ sift_up ole f p l ≡ₚ l.
  Proof.
    induction f as [|f IH]; intros p l Hf Hp [H1 H2]; [lia|].
    cbn [sift_up]. fold (parent p). destruct (Nat.eqb_spec p 0) as [->|Hp0].
    { split; [|reflexivity]. intros i a b Hi. apply H1; lia. }
    assert (parent p < p)%nat as Hpp by (unfold parent; lia).
    destruct (lookup_lt_is_Some_2 l p Hp) as [x Hx].
    destruct (lookup_lt_is_Some_2 l (parent p) ltac:(lia)) as [y Hy].
    unfold ole_at. rewrite Hx, Hy. destruct (ole x y) eqn:Hxy.
    { split; [|reflexivity]. intros i a b Hi Ha Hb. destruct (decide (i = p)) as [->|Hip]; [congruence|eauto]. }
    assert (ole y x = true) as Hyx by (destruct (ole_total x y); [congruence|assumption]).
    destruct (IH (parent p) (swap p (parent p) l)) as [G1 G2].
    - lia.
    - rewrite swap_length. lia.
    - assert (forall n, swap p (parent p) l !! n = if decide (n = p) then Some y else if decide (n = parent p) then Some x else l !! n) as Hs
        by (intros n; apply swap_lookup; auto; lia).
      split.
      + intros i a b Hi Hip. rewrite !Hs. intros Ha Hb.
        destruct (decide (i = p)) as [->|Hi2].
        * rewrite decide_False in Hb by lia. rewrite decide_True in Hb by reflexivity. congruence.
        * rewrite decide_False in Ha by assumption. destruct (decide (parent i = p)) as [Hpi|Hpi].
          -- injection Hb as <-. apply (H2 i a y); auto. lia.
          -- destruct (decide (parent i = parent p)) as [Hpi2|Hpi2].
             ++ injection Hb as <-. apply ole_trans with y; [|assumption]. apply (H1 i a y); auto. now rewrite Hpi2.
             ++ eauto.
      + intros i a b Hi Hpi H0. rewrite !Hs. assert (parent (parent p) < parent p)%nat by (unfold parent in *; lia).
        rewrite (decide_False (P := parent (parent p) = p)) by lia.
        rewrite (decide_False (P := parent (parent p) = parent p)) by lia.
        intros Ha Hb. assert (ole y b = true) as Hyb by (apply (H1 (parent p) y b); auto; lia).
        destruct (decide (i = p)) as [->|Hi2]; [congruence|].
        destruct (decide (i = parent p)) as [->|Hi3]; [unfold parent in *; lia|].
        apply ole_trans with y; [|assumption]. apply (H1 i a y); auto. now rewrite Hpi.
    - split; [assumption|]. rewrite G2. apply swap_perm.
  Qed.

  Lemma heap_push_ok x l : heap_ok l -> heap_ok (heap_push ole x l) /\ heap_push ole x l ≡ₚ x :: l.
  Proof.
    intros H. unfold heap_push.
    destruct (sift_up_ok (S (length l)) (length l) (l ++ [x])) as [G1 G2].
    - lia.
    - rewrite app_length. simpl. lia.
    - split.
      + intros i a b Hi Hil Ha Hb. pose proof (lookup_lt_Some _ _ _ Ha) as Hl. rewrite app_length in Hl. simpl in Hl.
        rewrite lookup_app_l in Ha by lia. rewrite lookup_app_l in Hb by (unfold parent; lia). eauto.
      + intros i a b Hi Hpi H0 Ha. pose proof (lookup_lt_Some _ _ _ Ha) as Hl. rewrite app_length in Hl. simpl in Hl.
        unfold parent in Hpi. lia.
    - split; [assumption|]. rewrite G2. apply Permutation_app_comm.
  Qed.

  (** Heap order except around [p]. *)
  Definition hole_ok (p : nat) (l : list E) : Prop :=
    (forall i a b, (0 < i)%nat -> i <> p -> parent i <> p -> l !! i = Some a -> l !! parent i = Some b -> ole a b = true) /\
    (forall i a b, (0 < i)%nat -> parent i = p -> (0 < p)%nat -> l !! i = Some a -> l !! parent p = Some b -> ole a b = true).

  Lemma sift_down_ok f : forall p l, (length l - p <= f)%nat -> (p < length l)%nat -> hole_ok p l ->
    let '(l', p') := sift_down ole f p l in
    (p' < length l')%nat /\ l' ≡ₚ l /\ up_ok p' l'.
  Proof.
    induction f as [|f IH]; intros p l Hf Hp [H1 H2]; [lia|].
    cbn [sift_down]. destruct (lookup_lt_is_Some_2 l p Hp) as [x Hx].
    assert (forall c, (0 < c)%nat -> parent c = p -> (c < length l)%nat ->
      (forall d a b, (0 < d)%nat -> parent d = p -> l !! d = Some a -> l !! c = Some b -> ole a b = true) ->
      hole_ok c (swap p c l)) as Hstep.
    { intros c Hc Hpc Hcl Hmax. destruct (lookup_lt_is_Some_2 l c Hcl) as [y Hy].
      assert (p <> c) by (unfold parent in Hpc; lia).
      assert (forall n, swap p c l !! n = if decide (n = p) then Some y else if decide (n = c) then Some x else l !! n) as Hs
        by (intros n; apply swap_lookup; auto).
      split.
      - intros i a b Hi Hic Hpic. rewrite !Hs. destruct (decide (i = p)) as [->|Hip].
        + rewrite decide_False by (unfold parent; lia). rewrite decide_False by assumption.
          intros [= <-] Hb. apply (H2 c y b); auto.
        + rewrite (decide_False (P := i = c)) by assumption. destruct (decide (parent i = p)) as [Hpi|Hpi].
          * intros Ha [= <-]. apply (Hmax i a y); auto.
          * rewrite decide_False by assumption. eauto.
      - intros i a b Hi Hpi _. rewrite !Hs. rewrite Hpc. rewrite (decide_True (P := p = p)) by reflexivity.
        rewrite (decide_False (P := i = p)) by (unfold parent in *; lia).
        rewrite (decide_False (P := i = c)) by (unfold parent in *; lia).
        intros Ha [= <-]. apply (H1 i a y); auto; [unfold parent in *; lia|congruence|now rewrite Hpi]. }
    destruct (Nat.leb_spec (2 * p + 1) (length l - 2)) as [Hle|Hgt].
    - set (c1 := (2 * p + 1)%nat) in *.
      destruct (lookup_lt_is_Some_2 l c1 ltac:(lia)) as [y1 Hy1].
      destruct (lookup_lt_is_Some_2 l (S c1) ltac:(lia)) as [y2 Hy2].
      assert (parent c1 = p /\ parent (S c1) = p) as [P1 P2] by (unfold parent, c1; lia).
      assert (forall d, (0 < d)%nat -> parent d = p -> d = c1 \/ d = S c1) as Hch by (unfold parent, c1; lia).
      set (c := if ole_at ole l c1 (S c1) then S c1 else c1).
      assert (hole_ok c (swap p c l)) as Hok.
      { apply Hstep.
        - unfold c. destruct (ole_at _ _ _ _); lia.
        - unfold c. destruct (ole_at _ _ _ _); assumption.
        - unfold c. destruct (ole_at _ _ _ _); lia.
        - intros d a b Hd Hpd Ha Hb. unfold c, ole_at in Hb. rewrite Hy1, Hy2 in Hb.
          destruct (ole y1 y2) eqn:Ho; destruct (Hch d Hd Hpd) as [-> | ->];
            simplify_eq; auto using ole_refl.
          destruct (ole_total y2 y1); [assumption|congruence]. }
      specialize (IH c (swap p c l)). rewrite swap_length in IH.
      assert (p < c < length l)%nat as Hcb by (unfold c; destruct (ole_at _ _ _ _); unfold c1 in *; lia).
      specialize (IH ltac:(lia) ltac:(lia) Hok). destruct (sift_down ole f c (swap p c l)) as [l' p'].
      destruct IH as (G1 & G2 & G3). split; [assumption|]. split; [|assumption]. rewrite G2. apply swap_perm.
    - destruct (Nat.eqb_spec (2 * p + 1) (length l - 1)) as [Heq|Hne].
      + set (c := (2 * p + 1)%nat) in *. assert (hole_ok c (swap p c l)) as [K1 K2].
        { apply Hstep; [lia|unfold parent, c; lia|unfold c in *; lia|].
          intros d a b Hd Hpd Ha Hb. pose proof (lookup_lt_Some _ _ _ Ha). unfold parent in Hpd.
          assert (d = c) as -> by (unfold c in *; lia). assert (a = b) as -> by congruence. apply ole_refl. }
        split; [rewrite swap_length; lia|]. split; [apply swap_perm|]. split.
        * intros i a b Hi Hic Ha. pose proof (lookup_lt_Some _ _ _ Ha) as Hl. rewrite swap_length in Hl.
          intros Hb. apply (K1 i a b); auto. unfold parent, c in *; lia.
        * assumption.
      + split; [assumption|]. split; [reflexivity|]. split; [|assumption].
        intros i a b Hi Hip Ha Hb. pose proof (lookup_lt_Some _ _ _ Ha) as Hl.
        apply (H1 i a b); auto. unfold parent; lia.
  Qed.

  Lemma heap_top l x : heap_ok l -> l !! 0%nat = Some x -> forall y, In y l -> ole y x = true.
  Proof.
    intros H Hx y Hin. apply elem_of_list_In, elem_of_list_lookup in Hin as [i Hi]. revert y Hi.
    induction i as [i IH] using lt_wf_ind. intros y Hy. destruct (decide (i = 0)%nat) as [->|Hi].
    - assert (y = x) as -> by congruence. apply ole_refl.
    - assert (parent i < i)%nat as Hp by (unfold parent; lia).
      destruct (lookup_lt_is_Some_2 l (parent i)) as [z Hz]; [apply lookup_lt_Some in Hy; lia|].
      apply ole_trans with z; [|eapply IH; eauto]. apply (H i y z); auto. lia.
  Qed.

  Lemma heap_pop_ok l : heap_ok l ->
    match heap_pop ole l with
    | None => l = []
    | Some (x, l') => heap_peek l = Some x /\ heap_ok l' /\ l ≡ₚ x :: l' /\ (forall y, In y l -> ole y x = true)
    end.
  Proof.
    intros H. unfold heap_pop, heap_peek. destruct l as [|x l0]; [reflexivity|].
    pose proof (heap_top _ _ H (eq_refl : (x :: l0) !! 0%nat = Some x)) as Htop.
    cbn [length]. replace (S (length l0) - 1)%nat with (length l0) by lia.
    destruct l0 as [|y0 l1] using rev_ind.
    { cbn. split; [reflexivity|]. split; [|split; [reflexivity|exact Htop]]. intros i a b _ Ha. now rewrite lookup_nil in Ha. }
    clear IHl1. rename y0 into y. rewrite app_length. cbn [length]. rewrite Nat.add_1_r.
    change (x :: l1 ++ [y]) with ((x :: l1) ++ [y]).
    rewrite (lookup_app_r (x :: l1) [y] (S (length l1))) by (simpl; lia).
    replace (S (length l1) - length (x :: l1))%nat with 0%nat by (simpl; lia). cbn [lookup list_lookup].
    rewrite take_app_alt by (simpl; lia).
    assert (heap_ok (x :: l1)) as Hxl.
    { intros i a b Hi Ha Hb. apply (H i a b); [assumption| |].
      - change (x :: l1 ++ [y]) with ((x :: l1) ++ [y]). now apply lookup_app_l_Some.
      - change (x :: l1 ++ [y]) with ((x :: l1) ++ [y]). now apply lookup_app_l_Some. }
    assert (hole_ok 0 (y :: l1)) as Hhole.
    { split; [|intros; lia]. intros i a b Hi _ Hpi Ha Hb. apply (Hxl i a b); auto.
      - destruct i; [lia|exact Ha].
      - destruct (parent i); [congruence|exact Hb]. }
    pose proof (sift_down_ok (length (x :: l1)) 0 (y :: l1) ltac:(simpl; lia) ltac:(simpl; lia) Hhole) as Hd.
    destruct (sift_down ole (length (x :: l1)) 0 (y :: l1)) as [l2 p]. destruct Hd as (D1 & D2 & D3).
    pose proof (Permutation_length D2) as Hlen. cbn [length] in Hlen, D1.
    destruct (sift_up_ok (S (length (x :: l1))) p l2) as [G1 G2]; [cbn [length]; lia|assumption|assumption|].
    split; [reflexivity|]. split; [assumption|]. split; [|exact Htop].
    rewrite G2, D2. cbn [app]. constructor. apply Permutation_app_comm.
  Qed.
End Heap.
