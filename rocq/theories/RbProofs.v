(** The left-leaning red-black tree: every operation succeeds, keeps the colour,
    order and cached-hash invariants, and acts on the in-order list of bindings
    as insertion or removal. *)
From Coq Require Import ZifyBool ZifyN ZifyNat Sorting.Sorted.
From Verif Require Import Base BaseLemmas Deps HashTree RbTree.

(** ** Sorted association lists *)

Section Assoc.
  Context {V : Type}.
  Implicit Types (l L R : list (bytes * V)) (k key : bytes).

  Definition klt (p q : bytes * V) : Prop := bytes_cmp (fst p) (fst q) = Lt.
  Definition sorted l : Prop := StronglySorted klt l.
  Definition below key l : Prop := Forall (fun p => bytes_cmp (fst p) key = Lt) l.
  Definition above key l : Prop := Forall (fun p => bytes_cmp key (fst p) = Lt) l.

  Definition keep_lt key (p : bytes * V) : bool := match bytes_cmp (fst p) key with Lt => true | _ => false end.
  Definition keep_gt key (p : bytes * V) : bool := match bytes_cmp (fst p) key with Gt => true | _ => false end.
  Definition keep_ne key (p : bytes * V) : bool := match bytes_cmp (fst p) key with Eq => false | _ => true end.

  Definition lins key (v : V) l : list (bytes * V) :=
    List.filter (keep_lt key) l ++ (key, v) :: List.filter (keep_gt key) l.
  Definition ldel key l : list (bytes * V) := List.filter (keep_ne key) l.

  Lemma sorted_app L R : sorted (L ++ R) <-> sorted L /\ sorted R /\ Forall (fun p => Forall (klt p) R) L.
  Proof.
    unfold sorted. induction L as [|p L IH]; simpl.
    - split; [intros H; split; [constructor|split; [exact H|constructor]]|tauto].
    - split.
      + intros H. apply StronglySorted_inv in H as [H1 H2]. apply IH in H1 as (H3 & H4 & H5).
        apply List.Forall_app in H2 as [H6 H7]. split; [constructor; assumption|].
        split; [assumption|]. constructor; assumption.
      + intros (H1 & H2 & H3). apply StronglySorted_inv in H1 as [H4 H5].
        apply List.Forall_cons_iff in H3 as [H6 H7]. constructor; [apply IH; auto|].
        apply List.Forall_app; auto.
  Qed.

  Lemma sorted_mid L k v R : sorted (L ++ (k, v) :: R) <->
    sorted L /\ sorted R /\ below k L /\ above k R.
  Proof.
    rewrite sorted_app. unfold sorted, below, above. split.
    - intros (H1 & H2 & H3). apply StronglySorted_inv in H2 as [H4 H5].
      repeat (split; [assumption|]). split.
      + rewrite List.Forall_forall in H3 |- *. intros p Hp. apply H3 in Hp.
        apply List.Forall_cons_iff in Hp as [Hp _]. exact Hp.
      + exact H5.
    - intros (H1 & H2 & H3 & H4). split; [assumption|]. split; [constructor; assumption|].
      rewrite List.Forall_forall in H3 |- *. intros p Hp. apply H3 in Hp. constructor; [exact Hp|].
      rewrite List.Forall_forall in H4 |- *. intros q Hq. apply H4 in Hq.
      unfold klt. eapply bytes_cmp_lt_trans; eassumption.
  Qed.

  Lemma below_weaken k k' L : below k L -> bytes_cmp k k' = Lt -> below k' L.
  Proof. unfold below. rewrite !List.Forall_forall. intros H Hk p Hp. eapply bytes_cmp_lt_trans; eauto. Qed.
  Lemma above_weaken k k' L : above k L -> bytes_cmp k' k = Lt -> above k' L.
  Proof. unfold above. rewrite !List.Forall_forall. intros H Hk p Hp. eapply bytes_cmp_lt_trans; eauto. Qed.

  Lemma filter_all {A} (f : A -> bool) (l : list A) : Forall (fun x => f x = true) l -> List.filter f l = l.
  Proof. induction 1 as [|x l Hx _ IH]; simpl; [reflexivity|]. now rewrite Hx, IH. Qed.
  Lemma filter_none {A} (f : A -> bool) (l : list A) : Forall (fun x => f x = false) l -> List.filter f l = [].
  Proof. induction 1 as [|x l Hx _ IH]; simpl; [reflexivity|]. now rewrite Hx. Qed.

  Lemma below_lt key L : below key L -> List.filter (keep_lt key) L = L.
  Proof. intros H. apply filter_all. revert H. apply List.Forall_impl. intros p Hp. unfold keep_lt. now rewrite Hp. Qed.
  Lemma below_gt key L : below key L -> List.filter (keep_gt key) L = [].
  Proof. intros H. apply filter_none. revert H. apply List.Forall_impl. intros p Hp. unfold keep_gt. now rewrite Hp. Qed.
  Lemma below_ne key L : below key L -> List.filter (keep_ne key) L = L.
  Proof. intros H. apply filter_all. revert H. apply List.Forall_impl. intros p Hp. unfold keep_ne. now rewrite Hp. Qed.
  Lemma above_cmp key (p : bytes * V) : bytes_cmp key (fst p) = Lt -> bytes_cmp (fst p) key = Gt.
  Proof. intros H. now apply bytes_cmp_lt_gt. Qed.
  Lemma above_lt key L : above key L -> List.filter (keep_lt key) L = [].
  Proof. intros H. apply filter_none. revert H. apply List.Forall_impl. intros p Hp%above_cmp. unfold keep_lt. now rewrite Hp. Qed.
  Lemma above_gt key L : above key L -> List.filter (keep_gt key) L = L.
  Proof. intros H. apply filter_all. revert H. apply List.Forall_impl. intros p Hp%above_cmp. unfold keep_gt. now rewrite Hp. Qed.
  Lemma above_ne key L : above key L -> List.filter (keep_ne key) L = L.
  Proof. intros H. apply filter_all. revert H. apply List.Forall_impl. intros p Hp%above_cmp. unfold keep_ne. now rewrite Hp. Qed.

  (** Insertion and removal around a middle binding. *)
  Lemma lins_lt key v L k w R : sorted (L ++ (k, w) :: R) -> bytes_cmp key k = Lt ->
    lins key v (L ++ (k, w) :: R) = lins key v L ++ (k, w) :: R.
  Proof.
    intros (_ & _ & _ & HR)%sorted_mid Hk. apply above_weaken with (k' := key) in HR; [|assumption].
    unfold lins. rewrite !List.filter_app. cbn [List.filter]. unfold keep_lt at 2, keep_gt at 2. cbn [fst].
    rewrite (proj1 (bytes_cmp_lt_gt _ _) Hk). rewrite (above_lt _ _ HR), (above_gt _ _ HR), app_nil_r.
    now rewrite <- app_assoc.
  Qed.

  Lemma lins_gt key v L k w R : sorted (L ++ (k, w) :: R) -> bytes_cmp key k = Gt ->
    lins key v (L ++ (k, w) :: R) = L ++ (k, w) :: lins key v R.
  Proof.
    intros (_ & _ & HL & _)%sorted_mid Hk. apply bytes_cmp_lt_gt in Hk.
    apply below_weaken with (k' := key) in HL; [|assumption].
    unfold lins. rewrite !List.filter_app. cbn [List.filter]. unfold keep_lt at 2, keep_gt at 2. cbn [fst].
    rewrite Hk. rewrite (below_lt _ _ HL), (below_gt _ _ HL). simpl. now rewrite <- app_assoc.
  Qed.

  Lemma lins_eq v L k w R : sorted (L ++ (k, w) :: R) ->
    lins k v (L ++ (k, w) :: R) = L ++ (k, v) :: R.
  Proof.
    intros (_ & _ & HL & HR)%sorted_mid.
    unfold lins. rewrite !List.filter_app. cbn [List.filter]. unfold keep_lt at 2, keep_gt at 2. cbn [fst].
    rewrite bytes_cmp_refl, (below_lt _ _ HL), (below_gt _ _ HL), (above_lt _ _ HR), (above_gt _ _ HR).
    simpl. now rewrite app_nil_r.
  Qed.

  Lemma ldel_app key L R : ldel key (L ++ R) = ldel key L ++ ldel key R.
  Proof. apply List.filter_app. Qed.

  Lemma ldel_lt key L k w R : sorted (L ++ (k, w) :: R) -> bytes_cmp key k = Lt ->
    ldel key (L ++ (k, w) :: R) = ldel key L ++ (k, w) :: R.
  Proof.
    intros (_ & _ & _ & HR)%sorted_mid Hk. apply above_weaken with (k' := key) in HR; [|assumption].
    rewrite ldel_app. f_equal. unfold ldel. cbn [List.filter]. unfold keep_ne at 1. cbn [fst].
    rewrite (proj1 (bytes_cmp_lt_gt _ _) Hk). now rewrite (above_ne _ _ HR).
  Qed.

  Lemma ldel_gt key L k w R : sorted (L ++ (k, w) :: R) -> bytes_cmp key k = Gt ->
    ldel key (L ++ (k, w) :: R) = L ++ (k, w) :: ldel key R.
  Proof.
    intros (_ & _ & HL & _)%sorted_mid Hk. apply bytes_cmp_lt_gt in Hk.
    apply below_weaken with (k' := key) in HL; [|assumption].
    rewrite ldel_app. unfold ldel at 1. rewrite (below_ne _ _ HL). f_equal.
    unfold ldel. cbn [List.filter]. unfold keep_ne at 1. cbn [fst]. now rewrite Hk.
  Qed.

  Lemma ldel_eq L k w R : sorted (L ++ (k, w) :: R) -> ldel k (L ++ (k, w) :: R) = L ++ R.
  Proof.
    intros (_ & _ & HL & HR)%sorted_mid. unfold ldel. rewrite List.filter_app, (below_ne _ _ HL). f_equal.
    cbn [List.filter]. unfold keep_ne at 1. cbn [fst]. now rewrite bytes_cmp_refl, (above_ne _ _ HR).
  Qed.

  Lemma filter_forall {A} (P : A -> Prop) f (l : list A) : Forall P l -> Forall P (List.filter f l).
  Proof. induction 1; simpl; [constructor|]. destruct (f x); [constructor|]; assumption. Qed.

  Lemma sorted_filter f l : sorted l -> sorted (List.filter f l).
  Proof.
    unfold sorted. induction 1 as [|p l H IH HF]; simpl; [constructor|].
    destruct (f p); [|assumption]. constructor; [assumption|]. now apply filter_forall.
  Qed.

  Lemma ldel_sorted key l : sorted l -> sorted (ldel key l).
  Proof. apply sorted_filter. Qed.

  Lemma lins_sorted key v l : sorted l -> sorted (lins key v l).
  Proof.
    intros H. unfold lins. apply sorted_mid. split; [now apply sorted_filter|].
    split; [now apply sorted_filter|]. split; apply List.Forall_forall; intros p [_ Hp]%List.filter_In;
      unfold keep_lt, keep_gt in Hp; destruct (bytes_cmp (fst p) key) eqn:E; try discriminate;
      [reflexivity|]. now apply bytes_cmp_lt_gt.
  Qed.

  Lemma ldel_in key l p : In p (ldel key l) <-> In p l /\ fst p <> key.
  Proof.
    unfold ldel. rewrite List.filter_In. unfold keep_ne.
    destruct (bytes_cmp (fst p) key) eqn:E.
    - apply bytes_cmp_eq in E. intuition congruence.
    - split; intros [H _]; (split; [exact H|]); [|reflexivity]. intros E'. rewrite E', bytes_cmp_refl in E. discriminate.
    - split; intros [H _]; (split; [exact H|]); [|reflexivity]. intros E'. rewrite E', bytes_cmp_refl in E. discriminate.
  Qed.

  Lemma lins_in key v l p : In p (lins key v l) <-> p = (key, v) \/ (In p l /\ fst p <> key).
  Proof.
    unfold lins. rewrite in_app_iff. cbn [In]. rewrite !List.filter_In. unfold keep_lt, keep_gt.
    destruct (bytes_cmp (fst p) key) eqn:E.
    - apply bytes_cmp_eq in E. intuition congruence.
    - assert (fst p <> key) by (intros E'; rewrite E', bytes_cmp_refl in E; discriminate). intuition congruence.
    - assert (fst p <> key) by (intros E'; rewrite E', bytes_cmp_refl in E; discriminate). intuition congruence.
  Qed.

  Lemma sorted_in_unique l k v w : sorted l -> In (k, v) l -> In (k, w) l -> v = w.
  Proof.
    unfold sorted. induction 1 as [|p l H IH HF]; [intros []|].
    rewrite List.Forall_forall in HF. intros [->|H1] [E|H2].
    - congruence.
    - apply HF in H2. unfold klt in H2. cbn in H2. now rewrite bytes_cmp_refl in H2.
    - subst p. apply HF in H1. unfold klt in H1. cbn in H1. now rewrite bytes_cmp_refl in H1.
    - auto.
  Qed.

  Lemma below_in key l v : below key l -> ~ In (key, v) l.
  Proof. unfold below. rewrite List.Forall_forall. intros H Hi. apply H in Hi. cbn in Hi. now rewrite bytes_cmp_refl in Hi. Qed.
  Lemma above_in key l v : above key l -> ~ In (key, v) l.
  Proof. unfold above. rewrite List.Forall_forall. intros H Hi. apply H in Hi. cbn in Hi. now rewrite bytes_cmp_refl in Hi. Qed.
End Assoc.

(** ** Trees *)

Section Tree.
  Context {V : Type}.
  Variable D : Deps.
  Variable vhash : V -> bytes.
  Notation tree := (rbt V).
  Notation mk := (@mk V D vhash).
  Notation balance := (@balance V D vhash).

  Fixpoint elems (t : tree) : list (bytes * V) :=
    match t with
    | Null => []
    | Node _ l k v _ r => elems l ++ (k, v) :: elems r
    end.

  (** Colour invariant: no right-leaning red link, no two red links in a row,
      and [n] black links on every path. *)
  Fixpoint bal (n : nat) (t : tree) : Prop :=
    match t with
    | Null => n = O
    | Node Black l _ _ _ r => is_red r = false /\ match n with S m => bal m l /\ bal m r | O => False end
    | Node Red l _ _ _ r => is_red l = false /\ is_red r = false /\ bal n l /\ bal n r
    end.

  (** Cached hashes are up to date. *)
  Fixpoint hok (t : tree) : Prop :=
    match t with
    | Null => True
    | Node _ l k v h r => h = node_hash D vhash l k v r /\ hok l /\ hok r
    end.

  Definition bst (t : tree) : Prop := sorted (elems t).

  (** The invariant of a whole map. *)
  Definition rb_ok (t : tree) : Prop := bst t /\ hok t /\ (exists n, bal n t) /\ is_red t = false.

  Lemma rb_ok_null : rb_ok Null.
  Proof. split; [constructor|]. split; [exact I|]. split; [exists O; reflexivity|reflexivity]. Qed.

  Lemma rb_size_elems (t : tree) : rb_size t = length (elems t).
  Proof. induction t as [|c l IHl k v h r IHr]; simpl; [reflexivity|]. rewrite app_length. simpl. lia. Qed.

  (** *** Lookup *)

  Lemma rb_get_in t key v : bst t -> rb_get key t = Some v <-> In (key, v) (elems t).
  Proof.
    unfold bst. induction t as [|c l IHl k w h r IHr]; simpl; intros Hs.
    - split; [discriminate|contradiction].
    - apply sorted_mid in Hs as (Hl & Hr & HL & HR). specialize (IHl Hl). specialize (IHr Hr).
      rewrite in_app_iff. cbn [In]. destruct (bytes_cmp key k) eqn:E.
      + apply bytes_cmp_eq in E. subst key. split; [intros [= ->]; auto|].
        intros [H|[H|H]]; [now apply below_in in H|congruence|now apply above_in in H].
      + rewrite IHl. split; [auto|]. intros [H|[H|H]]; [assumption| |].
        * injection H as -> _. now rewrite bytes_cmp_refl in E.
        * apply above_weaken with (k' := key) in HR; [|assumption]. now apply above_in in H.
      + rewrite IHr. apply bytes_cmp_lt_gt in E. split; [auto|]. intros [H|[H|H]]; [| |assumption].
        * apply below_weaken with (k' := key) in HL; [|assumption]. now apply below_in in H.
        * injection H as -> _. now rewrite bytes_cmp_refl in E.
  Qed.

  Lemma rb_get_none t key : bst t -> rb_get key t = None <-> forall v, ~ In (key, v) (elems t).
  Proof.
    intros Hs. split.
    - intros H v Hi. apply rb_get_in in Hi; [congruence|assumption].
    - intros H. destruct (rb_get key t) as [v|] eqn:E; [|reflexivity].
      apply rb_get_in in E; [|assumption]. now apply H in E.
  Qed.

  (** *** Insertion *)

  (** A red root that may have a red left child. *)
  Definition nearly (n : nat) (t : tree) : Prop :=
    match t with
    | Node Red l _ _ _ r => is_red r = false /\ bal n l /\ bal n r
    | _ => False
    end.

  Ltac lassoc := repeat (rewrite <- app_assoc; cbn [app]); reflexivity.

  (** Restoring the invariant at a node whose children are balanced. *)
  Lemma balance_black m l k v r : hok l -> hok r ->
    bal m l \/ (nearly m l /\ is_red r = false) -> bal m r ->
    exists t', balance (mk Black l k v r) = Done t' /\ hok t' /\
      elems t' = elems l ++ (k, v) :: elems r /\ t' <> Null /\ bal (S m) t' /\
      (bal m l -> is_red l && is_red r = false -> is_red t' = false).
  Proof.
    intros Hl Hr Bl Br.
    destruct r as [|[] rl rk rv rh rr].
    - destruct l as [|[] ll lk lv lh lr].
      + eexists. split; [reflexivity|]. cbn in *. intuition (try discriminate).
      + destruct ll as [|[] lll llk llv llh llr];
          (eexists; split; [reflexivity|]; cbn in *; intuition (try discriminate); subst; auto;
           try lassoc).
      + eexists. split; [reflexivity|]. cbn in *. intuition (try discriminate).
    - assert (is_red rr = false /\ is_red rl = false) as [Rrr Rrl] by (cbn in Br; tauto).
      destruct l as [|[] ll lk lv lh lr].
      + unfold RbTree.balance. cbn [RbTree.mk right_of left_of is_red andb negb rotate_left obind]. rewrite Rrr.
        eexists. split; [reflexivity|]. cbn in *. intuition (try discriminate).
      + destruct Bl as [Bl|[_ Bl]]; [|discriminate].
        assert (is_red ll = false) as Rll by (cbn in Bl; tauto).
        unfold RbTree.balance. cbn [RbTree.mk right_of left_of is_red andb negb obind]. rewrite Rll.
        cbn [obind left_of right_of is_red andb flip_colors flip].
        eexists. split; [reflexivity|]. cbn in *. intuition (try discriminate).
      + unfold RbTree.balance. cbn [RbTree.mk right_of left_of is_red andb negb rotate_left obind]. rewrite Rrr.
        eexists. split; [reflexivity|]. cbn in *. intuition (try discriminate); try lassoc.
    - destruct l as [|[] ll lk lv lh lr].
      + eexists. split; [reflexivity|]. cbn in *. intuition (try discriminate).
      + destruct ll as [|[] lll llk llv llh llr];
          (eexists; split; [reflexivity|]; cbn in *; intuition (try discriminate); subst; auto;
           try lassoc).
      + eexists. split; [reflexivity|]. cbn in *. intuition (try discriminate).
  Qed.

  Lemma balance_red m l k v r : hok l -> hok r ->
    bal m l -> bal m r -> is_red l && is_red r = false ->
    exists t', balance (mk Red l k v r) = Done t' /\ hok t' /\
      elems t' = elems l ++ (k, v) :: elems r /\ t' <> Null /\ nearly m t' /\
      (is_red l = false -> is_red r = false -> bal m t').
  Proof.
    intros Hl Hr Bl Br Hlr.
    destruct r as [|[] rl rk rv rh rr].
    - destruct l as [|[] ll lk lv lh lr].
      + eexists. split; [reflexivity|]. cbn in *. intuition (try discriminate).
      + assert (is_red ll = false) as Rll by (cbn in Bl; tauto).
        unfold RbTree.balance. cbn [RbTree.mk right_of left_of is_red andb negb obind]. rewrite Rll.
        eexists. split; [reflexivity|]. cbn in *. intuition (try discriminate).
      + eexists. split; [reflexivity|]. cbn in *. intuition (try discriminate).
    - assert (is_red rr = false /\ is_red rl = false) as [Rrr Rrl] by (cbn in Br; tauto).
      destruct l as [|[] ll lk lv lh lr]; [|discriminate|].
      + unfold RbTree.balance. cbn [RbTree.mk right_of left_of is_red andb negb rotate_left obind]. rewrite Rrr.
        eexists. split; [reflexivity|]. cbn in *. intuition (try discriminate).
      + unfold RbTree.balance. cbn [RbTree.mk right_of left_of is_red andb negb rotate_left obind]. rewrite Rrr.
        eexists. split; [reflexivity|]. cbn in *. intuition (try discriminate); try lassoc.
    - destruct l as [|[] ll lk lv lh lr].
      + eexists. split; [reflexivity|]. cbn in *. intuition (try discriminate).
      + assert (is_red ll = false) as Rll by (cbn in Bl; tauto).
        unfold RbTree.balance. cbn [RbTree.mk right_of left_of is_red andb negb obind]. rewrite Rll.
        eexists. split; [reflexivity|]. cbn in *. intuition (try discriminate).
      + eexists. split; [reflexivity|]. cbn in *. intuition (try discriminate).
  Qed.

  Lemma nearly_bal n t : bal n t -> is_red t = true -> nearly n t.
  Proof. destruct t as [|[]]; cbn; try discriminate. tauto. Qed.

  Lemma insert_go_ok key value t : bst t -> hok t -> forall n, bal n t ->
    exists t', insert_go D vhash key value t = Done t' /\ hok t' /\
      elems t' = lins key value (elems t) /\ t' <> Null /\
      (if is_red t then nearly n t' else bal n t').
  Proof.
    induction t as [|c l IHl k v h r IHr]; intros Hs Hh n Hb.
    - eexists. split; [reflexivity|]. cbn in *. subst. repeat split; auto.
    - unfold bst in Hs. cbn [elems] in *. pose proof Hs as Hs0.
      apply sorted_mid in Hs as (Hsl & Hsr & _ & _).
      cbn [insert_go]. cbn [hok] in Hh. destruct Hh as (Hh & Hhl & Hhr).
      assert (forall l' r', hok l' -> hok r' ->
        (c = Red -> is_red l = false /\ is_red r = false /\ bal n l /\ bal n r) ->
        (forall m, bal m l -> if is_red l then l' = l \/ nearly m l' else bal m l') ->
        (forall m, bal m r -> is_red r = false -> bal m r') ->
        l' = l \/ r' = r ->
        exists t', balance (mk c l' k v r') = Done t' /\ hok t' /\
          elems t' = elems l' ++ (k, v) :: elems r' /\ t' <> Null /\
          (if is_red (Node c l k v h r) then nearly n t' else bal n t')) as Hgo.
      { intros l' r' Hl' Hr' Hred Bl' Br' Hone. destruct c.
        - destruct (Hred eq_refl) as (Rl & Rr & Bl & Br).
          pose proof (Bl' n Bl) as Bl2. rewrite Rl in Bl2. pose proof (Br' n Br Rr) as Br2.
          destruct (balance_red n l' k v r' Hl' Hr' Bl2 Br2) as (t' & E & H1 & H2 & H3 & H4 & _).
          + destruct Hone as [-> | ->]; [now rewrite Rl|]. rewrite Rr. apply andb_false_r.
          + exists t'. cbn [is_red]. auto.
        - cbn [bal] in Hb. destruct Hb as (Rr & Hb). destruct n as [|n]; [contradiction|]. destruct Hb as (Bl & Br).
          specialize (Bl' n Bl). specialize (Br' n Br Rr).
          destruct (balance_black n l' k v r' Hl' Hr') as (t' & E & H1 & H2 & H3 & H4 & _); [|assumption|].
          + destruct (is_red l) eqn:Rl; [|now left]. destruct Hone as [-> | ->]; [now left|].
            destruct Bl' as [-> |Bl']; [now left|]. now right.
          + exists t'. cbn [is_red]. auto. }
      assert (c = Red -> is_red l = false /\ is_red r = false /\ bal n l /\ bal n r) as Hred.
      { intros ->. exact Hb. }
      destruct (bytes_cmp key k) eqn:Ek.
      + apply bytes_cmp_eq in Ek. subst key. rewrite (lins_eq value _ _ _ _ Hs0).
        clear Hgo Hs0 IHl IHr.
        destruct c.
        * destruct (Hred eq_refl) as (Rl & Rr & Bl & Br).
          destruct (balance_red n l k value r Hhl Hhr Bl Br) as (t' & E & H1 & H2 & H3 & H4 & _); [now rewrite Rl|].
          exists t'. auto.
        * cbn [bal] in Hb. destruct Hb as (Rr & Hb). destruct n as [|n]; [contradiction|]. destruct Hb as (Bl & Br).
          destruct (balance_black n l k value r Hhl Hhr) as (t' & E & H1 & H2 & H3 & H4 & _); auto.
          exists t'. auto.
      + rewrite (lins_lt key value _ _ _ _ Hs0 Ek).
        assert (exists m, bal m l) as (m & Hm).
        { destruct c; cbn [bal] in Hb; [exists n; tauto|]. destruct n; [tauto|]. exists n. tauto. }
        destruct (IHl Hsl Hhl m Hm) as (l' & E & Hh' & He & _). rewrite E, <- He. cbn [obind].
        apply Hgo; auto. intros m' Hm'. destruct (IHl Hsl Hhl m' Hm') as (l2 & E2 & _ & _ & _ & Hb2).
        rewrite E in E2. injection E2 as <-. destruct (is_red l); auto.
      + rewrite (lins_gt key value _ _ _ _ Hs0 Ek).
        assert (exists m, bal m r) as (m & Hm).
        { destruct c; cbn [bal] in Hb; [exists n; tauto|]. destruct n; [tauto|]. exists n. tauto. }
        destruct (IHr Hsr Hhr m Hm) as (r' & E & Hh' & He & _). rewrite E, <- He. cbn [obind].
        apply Hgo; auto.
        * intros m' Hm'. destruct (is_red l); auto.
        * intros m' Hm' Rr. destruct (IHr Hsr Hhr m' Hm') as (r2 & E2 & _ & _ & _ & Hb2).
          rewrite E in E2. injection E2 as <-. now rewrite Rr in Hb2.
  Qed.

  Lemma blacken_elems (t : tree) : elems (blacken t) = elems t.
  Proof. destruct t; reflexivity. Qed.
  Lemma blacken_hok (t : tree) : hok (blacken t) <-> hok t.
  Proof. destruct t; reflexivity. Qed.
  Lemma blacken_red (t : tree) : is_red (blacken t) = false.
  Proof. destruct t as [|[]]; reflexivity. Qed.
  Lemma blacken_bal t n : bal n t -> exists m, bal m (blacken t).
  Proof.
    destruct t as [|[] l k v h r]; cbn; [eauto| |].
    - intros (H1 & H2 & H3 & H4). exists (S n). auto.
    - intros (H1 & H2). exists n. auto.
  Qed.

  Theorem rb_insert_ok key value t : rb_ok t ->
    exists t', rb_insert D vhash key value t = Done t' /\ rb_ok t' /\ t' <> Null /\
      elems t' = lins key value (elems t).
  Proof.
    intros (Hs & Hh & (n & Hb) & Hr). destruct (insert_go_ok key value t Hs Hh n Hb) as (t' & E & Hh' & He & Hn & Hb').
    rewrite Hr in Hb'. unfold rb_insert. rewrite E. cbn [obind]. exists (blacken t'). split; [reflexivity|].
    split; [split; [|split; [|split]]|].
    - unfold bst. rewrite blacken_elems, He. now apply lins_sorted.
    - now apply blacken_hok.
    - now apply (blacken_bal t' n).
    - apply blacken_red.
    - split; [destruct t'; [now contradiction Hn|discriminate]|]. now rewrite blacken_elems.
  Qed.

  (** *** In-place modification *)

  Lemma rb_modify_present key f t v v' : bst t -> rb_get key t = Some v -> f v = Done v' ->
    exists t', rb_modify D vhash key f t = Done t' /\ elems t' = lins key v' (elems t) /\
      is_red t' = is_red t /\ (hok t -> hok t') /\ (forall n, bal n t -> bal n t') /\ t' <> Null.
  Proof.
    unfold bst. induction t as [|c l IHl k w h r IHr]; intros Hs Hg Hf; [discriminate|].
    cbn [elems rb_get rb_modify hok] in *. pose proof Hs as Hs0.
    apply sorted_mid in Hs as (Hsl & Hsr & _ & _).
    destruct (bytes_cmp key k) eqn:Ek.
    - apply bytes_cmp_eq in Ek. subst key. injection Hg as ->. rewrite Hf. cbn [obind].
      eexists. split; [reflexivity|]. rewrite (lins_eq v' _ _ _ _ Hs0). cbn [RbTree.mk elems hok is_red bal].
      split; [reflexivity|]. split; [reflexivity|]. split; [tauto|]. split; [auto|discriminate].
    - destruct (IHl Hsl Hg Hf) as (l' & -> & He & Hr & Hh & Hb & _). cbn [obind].
      eexists. split; [reflexivity|]. rewrite (lins_lt key v' _ _ _ _ Hs0 Ek).
      cbn [RbTree.mk elems hok is_red bal]. rewrite He, Hr.
      split; [reflexivity|]. split; [reflexivity|]. split; [tauto|]. split; [|discriminate].
      intros n. destruct c; [intuition auto|]. destruct n; [tauto|]. intuition auto.
    - destruct (IHr Hsr Hg Hf) as (r' & -> & He & Hr & Hh & Hb & _). cbn [obind].
      eexists. split; [reflexivity|]. rewrite (lins_gt key v' _ _ _ _ Hs0 Ek).
      cbn [RbTree.mk elems hok is_red bal]. rewrite He, Hr.
      split; [reflexivity|]. split; [reflexivity|]. split; [tauto|]. split; [|discriminate].
      intros n. destruct c; [intuition auto|]. destruct n; [tauto|]. intuition auto.
  Qed.

  Lemma rb_modify_absent key f t : hok t -> rb_get key t = None -> rb_modify D vhash key f t = Done t.
  Proof.
    induction t as [|c l IHl k w h r IHr]; intros Hh Hg; [reflexivity|].
    cbn [rb_get rb_modify hok] in *. destruct Hh as (-> & Hl & Hr).
    destruct (bytes_cmp key k); [discriminate| |].
    - now rewrite (IHl Hl Hg).
    - now rewrite (IHr Hr Hg).
  Qed.

  (** *** Deletion *)

  Lemma bal_black_left n c l k v h r : bal n (Node c l k v h r) -> l <> Null -> is_red l = false ->
    c = Red -> exists m ll lk lv lh lr rl rk rv rh rr, n = S m /\
      l = Node Black ll lk lv lh lr /\ r = Node Black rl rk rv rh rr /\
      is_red lr = false /\ bal m ll /\ bal m lr /\ is_red rr = false /\ bal m rl /\ bal m rr.
  Proof.
    intros Hb Hl Rl ->. cbn [bal] in Hb. destruct Hb as (_ & Rr & Bl & Br).
    destruct l as [|[] ll lk lv lh lr]; [contradiction|discriminate|].
    cbn [bal] in Bl. destruct Bl as (Rlr & Bl). destruct n as [|m]; [contradiction|].
    destruct r as [|[] rl rk rv rh rr]; [discriminate|discriminate|]. cbn [bal] in Br.
    eexists m, _, _, _, _, _, _, _, _, _, _. intuition reflexivity.
  Qed.

  Lemma bal_black_right n c l k v h r : bal n (Node c l k v h r) -> r <> Null ->
    c = Red -> exists m ll lk lv lh lr rl rk rv rh rr, n = S m /\
      l = Node Black ll lk lv lh lr /\ r = Node Black rl rk rv rh rr /\
      is_red lr = false /\ bal m ll /\ bal m lr /\ is_red rr = false /\ bal m rl /\ bal m rr.
  Proof.
    intros Hb Hr ->. pose proof Hb as Hb0. cbn [bal] in Hb. destruct Hb as (Rl & Rr & Bl & Br).
    destruct r as [|[] rl rk rv rh rr]; [contradiction|discriminate|].
    cbn [bal] in Br. destruct Br as (Rrr & Br). destruct n as [|m]; [contradiction|].
    destruct l as [|[] ll lk lv lh lr]; [discriminate|discriminate|]. cbn [bal] in Bl.
    eexists m, _, _, _, _, _, _, _, _, _, _. intuition reflexivity.
  Qed.

  (** What move_red_left leaves: something to descend into on the left. *)
  Lemma move_red_left_ok n l k v h r : hok (Node Red l k v h r) -> bal n (Node Red l k v h r) ->
    l <> Null -> is_red (left_of l) = false ->
    exists c l' k' v' h' r' X, move_red_left D vhash (Node Red l k v h r) = Done (Node c l' k' v' h' r') /\
      hok l' /\ hok r' /\ elems l' ++ (k', v') :: elems r' = elems l ++ (k, v) :: elems r /\
      elems l' = elems l ++ X /\ l' <> Null /\
      ((c = Red /\ is_red l' = false /\ is_red (left_of l') = true /\ bal n l' /\ is_red r' = false /\ bal n r') \/
       (c = Black /\ exists m, n = S m /\ is_red l' = true /\ bal m l' /\ bal m r')).
  Proof.
    intros Hh Hb Hl Rll. assert (is_red l = false) as Rl by (cbn in Hb; tauto).
    destruct (bal_black_left _ _ _ _ _ _ _ Hb Hl Rl eq_refl)
      as (m & ll & lk & lv & lh & lr & rl & rk & rv & rh & rr & -> & -> & -> & Rlr & Bll & Blr & Rrr & Brl & Brr).
    cbn [left_of] in Rll. unfold move_red_left. cbn [flip_colors flip obind deref_left right_of].
    destruct (is_red rl) eqn:Rrl.
    - destruct rl as [|[] rll rlk rlv rlh rlr]; try discriminate.
      cbn [rotate_right obind RbTree.mk rotate_left flip_colors flip].
      cbn [bal] in Brl. destruct Brl as (R1 & R2 & B1 & B2).
      cbn [hok] in Hh.
      eexists _, _, _, _, _, _, _. split; [reflexivity|].
      cbn [hok elems left_of is_red bal RbTree.mk]. split; [cbn [node_hash]; tauto|]. split; [cbn [node_hash]; tauto|].
      split; [repeat (rewrite <- app_assoc; cbn [app]); reflexivity|].
      split; [reflexivity|]. split; [discriminate|]. left. cbn in *. intuition auto.
    - eexists _, _, _, _, _, _, []. split; [reflexivity|]. cbn [hok elems] in *.
      rewrite app_nil_r. split; [tauto|]. split; [tauto|]. split; [reflexivity|]. split; [reflexivity|].
      split; [discriminate|]. right. split; [reflexivity|]. exists m. cbn. auto 10.
  Qed.

  Lemma app_cons_inv {A} (p q : A) l1 l2 l3 : p :: l1 ++ q :: l2 = l3 ++ q :: l2 -> l3 = p :: l1.
  Proof. intros H. change (p :: l1 ++ q :: l2) with ((p :: l1) ++ q :: l2) in H. now apply app_inv_tail in H. Qed.

  Lemma delete_min_ok fuel : forall t n, (length (elems t) <= fuel)%nat -> t <> Null -> hok t -> bal n t ->
    is_red t = true \/ is_red (left_of t) = true ->
    exists t' p, delete_min D vhash fuel t = Done t' /\ rb_min t = Done p /\ elems t = p :: elems t' /\
      hok t' /\ bal n t' /\ (is_red t = false -> is_red t' = false).
  Proof.
    induction fuel as [|f IH]; intros t n Hf Hn Hh Hb Hp.
    { destruct t; [contradiction|]. cbn [elems] in Hf. rewrite app_length in Hf. simpl in Hf. lia. }
    destruct t as [|c l k v h r]; [contradiction|].
    cbn [elems] in Hf. rewrite app_length in Hf. cbn [length] in Hf.
    assert (l = Null \/ l <> Null) as [-> |Hl] by (destruct l; [now left|right; discriminate]).
    { cbn [is_red left_of] in Hp. destruct c; [|intuition discriminate].
      cbn [bal is_red] in Hb. destruct Hb as (_ & Rr & -> & Br).
      destruct r as [|[] ? ? ? ? ?]; [|discriminate|cbn in Br; tauto].
      exists Null, (k, v). cbn. auto 10. }
    assert (rb_min (Node c l k v h r) = rb_min l) as Hmin by (destruct l; [contradiction|reflexivity]).
    assert (delete_min D vhash (S f) (Node c l k v h r) =
      (olet ll := deref_left l in
       olet t := (if negb (is_red l) && negb (is_red ll) then move_red_left D vhash (Node c l k v h r)
                  else Done (Node c l k v h r)) in
       match t with
       | Null => null_deref
       | Node c l k v _ r => olet l' := delete_min D vhash f l in balance (mk c l' k v r)
       end)) as E by (destruct l; [contradiction|reflexivity]).
    rewrite Hmin, E. clear Hmin E.
    assert (deref_left l = Done (left_of l)) as -> by (destruct l; [contradiction|reflexivity]).
    cbn [obind]. destruct c.
    - (* red *)
      assert (is_red l = false) as Rl by (cbn in Hb; tauto). rewrite Rl. cbn [negb andb].
      destruct (is_red (left_of l)) eqn:Rll.
      + cbn [negb obind]. cbn [bal hok] in Hb, Hh. destruct Hb as (_ & Rr & Bl & Br). destruct Hh as (_ & Hhl & Hhr).
        destruct (IH l n ltac:(lia) Hl Hhl Bl (or_intror Rll)) as (l' & p & -> & -> & He & Hh' & Hb' & Rl').
        cbn [obind]. specialize (Rl' Rl).
        destruct (balance_red n l' k v r Hh' Hhr Hb' Br) as (t' & -> & H1 & H2 & _ & _ & H3); [now rewrite Rl'|].
        exists t', p. split; [reflexivity|]. split; [reflexivity|]. cbn [elems]. rewrite He, H2.
        split; [reflexivity|]. split; [assumption|]. split; [auto|discriminate].
      + cbn [negb obind].
        assert (exists p, rb_min l = Done p /\ exists L, elems l = p :: L) as (p & Hp1 & L & HL).
        { clear -Hl. induction l as [|c l IHl k v h r _]; [contradiction|]. destruct l as [|c' l' k' v' h' r'].
          - exists (k, v). cbn. eauto.
          - destruct (IHl ltac:(discriminate)) as (p & E & L & HL). exists p. split; [exact E|].
            cbn [elems] in *. rewrite HL. cbn [app]. eauto. }
        destruct (move_red_left_ok n l k v h r Hh Hb Hl Rll)
          as (c & l2 & k2 & v2 & h2 & r2 & X & -> & Hh1 & Hh2 & He & HX & Hn2 & Hc).
        cbn [obind].
        assert (length (elems l2) <= f)%nat as Hf2.
        { apply (f_equal (@length (bytes * V))) in He. rewrite !app_length in He. simpl in He. lia. }
        destruct Hc as [(-> & Rl2 & Rll2 & Bl2 & Rr2 & Br2)|(-> & m & -> & Rl2 & Bl2 & Br2)].
        * destruct (IH l2 n Hf2 Hn2 Hh1 Bl2 (or_intror Rll2)) as (l' & q & -> & Hq & He' & Hh' & Hb' & Rl').
          cbn [obind]. specialize (Rl' Rl2).
          destruct (balance_red n l' k2 v2 r2 Hh' Hh2 Hb' Br2) as (t' & -> & H1 & H2 & _ & _ & H3); [now rewrite Rl'|].
          rewrite HX, HL in He'. injection He' as Hpq He'. subst q. exists t', p. split; [reflexivity|]. split; [assumption|].
          cbn [elems]. rewrite <- He, HX, HL, H2. cbn [app].
          split; [rewrite He'; reflexivity|]. split; [assumption|]. split; [auto|discriminate].
        * destruct (IH l2 m Hf2 Hn2 Hh1 Bl2 (or_introl Rl2)) as (l' & q & -> & Hq & He' & Hh' & Hb' & _).
          cbn [obind].
          destruct (balance_black m l' k2 v2 r2 Hh' Hh2 (or_introl Hb') Br2) as (t' & -> & H1 & H2 & _ & H3 & _).
          rewrite HX, HL in He'. injection He' as Hpq He'. subst q. exists t', p. split; [reflexivity|]. split; [assumption|].
          cbn [elems]. rewrite <- He, HX, HL, H2. cbn [app].
          split; [rewrite He'; reflexivity|]. split; [assumption|]. split; [auto|discriminate].
    - (* black *)
      cbn [is_red left_of] in Hp. destruct Hp as [Hp|Rl]; [discriminate|]. rewrite Rl. cbn [negb andb obind].
      cbn [bal hok] in Hb, Hh. destruct Hb as (Rr & Hb). destruct n as [|m]; [contradiction|].
      destruct Hb as (Bl & Br). destruct Hh as (_ & Hhl & Hhr).
      destruct (IH l m ltac:(lia) Hl Hhl Bl (or_introl Rl)) as (l' & p & -> & -> & He & Hh' & Hb' & _).
      cbn [obind].
      destruct (balance_black m l' k v r Hh' Hhr (or_introl Hb') Br) as (t' & -> & H1 & H2 & _ & H3 & H4).
      exists t', p. split; [reflexivity|]. split; [reflexivity|]. cbn [elems]. rewrite He, H2.
      split; [reflexivity|]. split; [assumption|]. split; [assumption|]. intros _. apply H4; [assumption|].
      rewrite Rr. apply andb_false_r.
  Qed.

  (** What a deletion may be applied to: a node that is red or has a red left child,
      or (after move_red_right) a black node whose right child is red and whose key
      is not above the searched one. *)
  Definition del_pre (n : nat) (key : bytes) (t : tree) : Prop :=
    (bal n t /\ (is_red t = true \/ is_red (left_of t) = true)) \/
    (exists l k v h r m, t = Node Black l k v h r /\ n = S m /\ is_red l = false /\ is_red r = true /\
       bal m l /\ bal m r /\ bytes_cmp key k <> Lt).

  Definition right_step (f : nat) (key : bytes) (t : tree) : outcome tree :=
    match t with
    | Null => null_deref
    | Node c l k v _ r =>
        match bytes_cmp key k with
        | Eq => olet m := rb_min r in
                olet r' := delete_min D vhash f r in
                balance (mk c l (fst m) (snd m) r')
        | _ => olet r' := delete_go D vhash f key r in balance (mk c l k v r')
        end
    end.

  Lemma right_step_gt f key c l k v r : bytes_cmp key k = Gt ->
    right_step f key (mk c l k v r) = olet r' := delete_go D vhash f key r in balance (mk c l k v r').
  Proof. intros H. unfold right_step, RbTree.mk. now rewrite H. Qed.

  Definition delete_ih (f : nat) (key : bytes) : Prop := forall t n v,
    (length (elems t) <= f)%nat -> bst t -> hok t -> In (key, v) (elems t) -> del_pre n key t ->
    exists t', delete_go D vhash f key t = Done t' /\ hok t' /\ elems t' = ldel key (elems t) /\
      bal n t' /\ (is_red t = false -> is_red t' = false).

  Lemma right_step_ok f key c l k v h r n w : delete_ih f key ->
    (length (elems r) <= f)%nat -> sorted (elems l ++ (k, v) :: elems r) -> hok r -> r <> Null ->
    bytes_cmp key k <> Lt -> In (key, w) (elems l ++ (k, v) :: elems r) ->
    (bytes_cmp key k = Gt -> del_pre n key r) ->
    (bytes_cmp key k = Eq -> bal n r /\ (is_red r = true \/ is_red (left_of r) = true)) ->
    exists k2 v2 r2, right_step f key (Node c l k v h r) = balance (mk c l k2 v2 r2) /\
      hok r2 /\ bal n r2 /\ (is_red r = false -> is_red r2 = false) /\
      elems l ++ (k2, v2) :: elems r2 = ldel key (elems l ++ (k, v) :: elems r).
  Proof.
    intros IH Hf Hs Hh Hn Hk Hin HG HE. unfold right_step. destruct (bytes_cmp key k) eqn:Ek; [|contradiction|].
    - destruct (HE eq_refl) as [Hb Hp]. destruct (delete_min_ok f r n Hf Hn Hh Hb Hp) as (r2 & [k2 v2] & -> & -> & He & H1 & H2 & H3).
      cbn [obind fst snd]. apply bytes_cmp_eq in Ek. subst key.
      exists k2, v2, r2. split; [reflexivity|]. split; [assumption|]. split; [assumption|]. split; [assumption|].
      now rewrite (ldel_eq _ _ _ _ Hs), He.
    - pose proof Hs as Hs0. apply sorted_mid in Hs as (_ & Hsr & HL & _).
      assert (In (key, w) (elems r)) as Hin'.
      { apply in_app_iff in Hin as [H|[H|H]]; [| |assumption].
        - apply bytes_cmp_lt_gt in Ek. apply below_weaken with (k' := key) in HL; [|assumption]. now apply below_in in H.
        - injection H as -> _. now rewrite bytes_cmp_refl in Ek. }
      destruct (IH r n w Hf Hsr Hh Hin' (HG eq_refl)) as (r2 & -> & H1 & H2 & H3 & H4).
      cbn [obind]. exists k, v, r2. split; [reflexivity|]. split; [assumption|]. split; [assumption|]. split; [assumption|].
      now rewrite (ldel_gt _ _ _ _ _ Hs0 Ek), H2.
  Qed.

  Lemma delete_go_not_lt f key c l k v h r : bytes_cmp key k <> Lt -> is_red l = false -> r <> Null ->
    delete_go D vhash (S f) key (Node c l k v h r) =
      olet t := (if is_red r then Done (Node c l k v h r)
                 else olet rl := deref_left r in
                      if is_red rl then Done (Node c l k v h r) else move_red_right D vhash (Node c l k v h r)) in
      right_step f key t.
  Proof.
    intros Hk Rl Hr. cbn [delete_go]. rewrite Rl. cbn [obind].
    destruct (bytes_cmp key k) eqn:Ek; [|contradiction|]; destruct r; try contradiction; reflexivity.
  Qed.

  Lemma delete_go_ok f key : delete_ih f key.
  Proof.
    induction f as [|f IH]; intros t n w Hf Hs Hh Hin Hp.
    { destruct t; [destruct Hin|]. cbn [elems] in Hf. rewrite app_length in Hf. simpl in Hf. lia. }
    destruct t as [|c l k v h r]; [destruct Hin|].
    unfold bst in Hs. cbn [elems] in *. rewrite app_length in Hf. cbn [length] in Hf.
    pose proof Hs as Hs0. apply sorted_mid in Hs as (Hsl & Hsr & HL & HR).
    destruct Hp as [(Hb & Hp)|(l0 & k0 & v0 & h0 & r0 & m & E & -> & Rl & Rr & Bl & Br & Hk)].
    2:{ injection E as -> <- <- <- <- <-. cbn [hok] in Hh. destruct Hh as (_ & Hhl & Hhr).
        rewrite delete_go_not_lt; auto; [|destruct r; [discriminate|discriminate]].
        rewrite Rr. cbn [obind].
        destruct (right_step_ok f key Black l k v h r m w IH ltac:(lia) Hs0 Hhr
                    ltac:(destruct r; discriminate) Hk Hin) as (k2 & v2 & r2 & -> & H1 & H2 & _ & H3).
        { intros _. left. auto. }
        { auto. }
        destruct (balance_black m l k2 v2 r2 Hhl H1 (or_introl Bl) H2) as (t' & -> & G1 & G2 & _ & G3 & G4).
        exists t'. rewrite G2, H3. split; [reflexivity|]. split; [assumption|]. split; [reflexivity|].
        split; [assumption|]. intros _. apply G4; [assumption|]. now rewrite Rl. }
    assert (bytes_cmp key k = Lt \/ bytes_cmp key k <> Lt) as [Ek|Hk]
      by (destruct (bytes_cmp key k); [right; discriminate|left; reflexivity|right; discriminate]).
    { (* left *)
      cbn [delete_go]. rewrite Ek. rewrite (ldel_lt _ _ _ _ _ Hs0 Ek).
      assert (In (key, w) (elems l)) as Hinl.
      { apply in_app_iff in Hin as [H|[H|H]]; [assumption| |].
        - injection H as -> _. now rewrite bytes_cmp_refl in Ek.
        - apply above_weaken with (k' := key) in HR; [|assumption]. now apply above_in in H. }
      assert (l <> Null) as Hl by (intros ->; destruct Hinl).
      destruct c.
      - assert (is_red l = false) as Rl by (cbn in Hb; tauto). rewrite Rl.
        assert (deref_left l = Done (left_of l)) as -> by (destruct l; [contradiction|reflexivity]).
        cbn [obind]. destruct (is_red (left_of l)) eqn:Rll.
        + cbn [obind]. cbn [bal hok] in Hb, Hh. destruct Hb as (_ & Rr & Bl & Br). destruct Hh as (_ & Hhl & Hhr).
          destruct (IH l n w ltac:(lia) Hsl Hhl Hinl) as (l' & -> & H1 & H2 & H3 & H4); [left; auto|].
          cbn [obind]. specialize (H4 Rl).
          destruct (balance_red n l' k v r H1 Hhr H3 Br) as (t' & -> & G1 & G2 & _ & _ & G3); [now rewrite H4|].
          exists t'. rewrite G2, H2. split; [reflexivity|]. split; [assumption|]. split; [reflexivity|].
          split; [auto|discriminate].
        + destruct (move_red_left_ok n l k v h r Hh Hb Hl Rll)
            as (c & l2 & k2 & v2 & h2 & r2 & X & -> & Hh1 & Hh2 & He & HX & Hn2 & Hc).
          cbn [obind].
          assert (length (elems l2) <= f)%nat as Hf2.
          { apply (f_equal (@length (bytes * V))) in He. rewrite !app_length in He. simpl in He. lia. }
          assert (In (key, w) (elems l2)) as Hin2 by (rewrite HX; apply in_app_iff; auto).
          rewrite <- He in Hs0. pose proof Hs0 as Hs2. apply sorted_mid in Hs2 as (Hsl2 & _ & HL2 & _).
          assert (bytes_cmp key k2 = Lt) as Ek2.
          { unfold below in HL2. rewrite List.Forall_forall in HL2. apply HL2 in Hin2. exact Hin2. }
          assert (ldel key (elems l2) ++ (k2, v2) :: elems r2 = ldel key (elems l) ++ (k, v) :: elems r) as Hd.
          { rewrite <- (ldel_lt _ _ _ _ _ Hs0 Ek2), He. apply ldel_lt; [now rewrite <- He|assumption]. }
          destruct Hc as [(-> & Rl2 & Rll2 & Bl2 & Rr2 & Br2)|(-> & m & -> & Rl2 & Bl2 & Br2)].
          * destruct (IH l2 n w Hf2 Hsl2 Hh1 Hin2) as (l' & -> & H1 & H2 & H3 & H4); [left; auto|].
            cbn [obind]. specialize (H4 Rl2).
            destruct (balance_red n l' k2 v2 r2 H1 Hh2 H3 Br2) as (t' & -> & G1 & G2 & _ & _ & G3); [now rewrite H4|].
            exists t'. rewrite G2, H2. split; [reflexivity|]. split; [assumption|]. split; [exact Hd|].
            split; [auto|discriminate].
          * destruct (IH l2 m w Hf2 Hsl2 Hh1 Hin2) as (l' & -> & H1 & H2 & H3 & H4); [left; auto|].
            cbn [obind].
            destruct (balance_black m l' k2 v2 r2 H1 Hh2 (or_introl H3) Br2) as (t' & -> & G1 & G2 & _ & G3 & _).
            exists t'. rewrite G2, H2. split; [reflexivity|]. split; [assumption|]. split; [exact Hd|].
            split; [auto|discriminate].
      - cbn [is_red left_of] in Hp. destruct Hp as [Hp|Rl]; [discriminate|]. rewrite Rl. cbn [obind].
        cbn [bal hok] in Hb, Hh. destruct Hb as (Rr & Hb). destruct n as [|m]; [contradiction|].
        destruct Hb as (Bl & Br). destruct Hh as (_ & Hhl & Hhr).
        destruct (IH l m w ltac:(lia) Hsl Hhl Hinl) as (l' & -> & H1 & H2 & H3 & H4); [left; auto|].
        cbn [obind].
        destruct (balance_black m l' k v r H1 Hhr (or_introl H3) Br) as (t' & -> & G1 & G2 & _ & G3 & G4).
        exists t'. rewrite G2, H2. split; [reflexivity|]. split; [assumption|]. split; [reflexivity|].
        split; [assumption|]. intros _. apply G4; [assumption|]. rewrite Rr. apply andb_false_r. }
    (* right or here *)
    destruct c.
    - assert (is_red l = false) as Rl by (cbn in Hb; tauto).
      assert (r = Null \/ r <> Null) as [-> |Hr] by (destruct r; [now left|right; discriminate]).
      + cbn [bal] in Hb. destruct Hb as (_ & _ & Bl & ->).
        destruct l as [|[] ? ? ? ? ?]; [|discriminate|cbn in Bl; tauto].
        assert (key = k) as -> by (destruct Hin as [H|[]]; congruence).
        exists Null. cbn [delete_go]. rewrite bytes_cmp_refl. cbn [is_red obind].
        rewrite ?bytes_cmp_refl. split; [reflexivity|]. split; [exact I|]. split; [|cbn; auto].
        cbn [elems app]. unfold ldel. cbn [List.filter]. unfold keep_ne. cbn [fst]. now rewrite bytes_cmp_refl.
      + rewrite delete_go_not_lt by auto.
        assert (is_red r = false) as Rr by (cbn in Hb; tauto). rewrite Rr.
        assert (deref_left r = Done (left_of r)) as -> by (destruct r; [contradiction|reflexivity]).
        cbn [obind]. destruct (is_red (left_of r)) eqn:Rrl; cbn [obind].
        * cbn [bal hok] in Hb, Hh. destruct Hb as (_ & _ & Bl & Br). destruct Hh as (_ & Hhl & Hhr).
          destruct (right_step_ok f key Red l k v h r n w IH ltac:(lia) Hs0 Hhr Hr Hk Hin)
            as (k2 & v2 & r2 & -> & H1 & H2 & H3 & H4); [intros _; left; auto|auto|].
          specialize (H3 Rr).
          destruct (balance_red n l k2 v2 r2 Hhl H1 Bl H2) as (t' & -> & G1 & G2 & _ & _ & G3); [now rewrite Rl|].
          exists t'. rewrite G2, H4. split; [reflexivity|]. split; [assumption|]. split; [reflexivity|].
          split; [auto|discriminate].
        * destruct (bal_black_right _ _ _ _ _ _ _ Hb Hr eq_refl)
            as (m & ll & lk & lv & lh & lr & rl & rk & rv & rh & rr & -> & -> & -> & Rlr & Bll & Blr & Rrr & Brl & Brr).
          cbn [left_of] in Rrl. cbn [hok] in Hh. unfold move_red_right.
          cbn [flip_colors flip obind deref_left left_of].
          destruct (is_red ll) eqn:Rll.
          -- destruct ll as [|[] lll llk llv llh llr]; try discriminate.
             cbn [rotate_right obind RbTree.mk flip_colors flip].
             cbn [bal] in Bll. destruct Bll as (R1 & R2 & B1 & B2).
             set (R0 := Node Black lr k v (node_hash D vhash lr k v (Node Red rl rk rv rh rr)) (Node Red rl rk rv rh rr)).
             assert (elems (Node Black (Node Red lll llk llv llh llr) lk lv lh lr) ++ (k, v) :: elems (Node Black rl rk rv rh rr)
                     = elems (Node Black lll llk llv llh llr) ++ (lk, lv) :: elems R0) as He
               by (cbn [elems R0]; repeat (rewrite <- app_assoc; cbn [app]); reflexivity).
             assert (length (elems R0) <= f)%nat as HfR.
             { apply (f_equal (@length (bytes * V))) in He. rewrite !app_length in He. cbn [length] in He.
               cbn [elems] in Hf, He. repeat (rewrite app_length in *; cbn [length] in * ). lia. }
             rewrite He in Hs0, Hin |- *.
             assert (bytes_cmp key lk = Gt) as Ek2.
             { assert (bytes_cmp lk k = Lt) as Hlk.
               { unfold below in HL. rewrite List.Forall_forall in HL. apply (HL (lk, lv)).
                 cbn [elems]. apply in_app_iff. right. left. reflexivity. }
               apply bytes_cmp_lt_gt. destruct (bytes_cmp key k) eqn:Ek.
               - apply bytes_cmp_eq in Ek. now subst key.
               - contradiction.
               - apply bytes_cmp_lt_gt in Ek. eapply bytes_cmp_lt_trans; eassumption. }
             destruct (right_step_ok f key Red (Node Black lll llk llv llh llr) lk lv
                 (node_hash D vhash (Node Red lll llk llv llh llr) lk lv
                    (Node Red lr k v (node_hash D vhash lr k v (Node Red rl rk rv rh rr)) (Node Red rl rk rv rh rr)))
                 R0 (S m) w IH HfR Hs0)
               as (k2 & v2 & r2 & E & H1 & H2 & H3 & H4).
             { cbn [hok R0 node_hash]. tauto. }
             { discriminate. }
             { congruence. }
             { assumption. }
             { intros _. right. eexists lr, k, v, _, _, m. split; [reflexivity|]. cbn [is_red bal]. auto 12. }
             { congruence. }
             unfold RbTree.mk at 1. rewrite E. specialize (H3 eq_refl).
             destruct (balance_red (S m) (Node Black lll llk llv llh llr) k2 v2 r2) as (t' & -> & G1 & G2 & _ & _ & G3).
             { cbn [hok] in *. tauto. }
             { assumption. }
             { cbn [bal]. auto. }
             { assumption. }
             { reflexivity. }
             exists t'. rewrite G2, H4. split; [reflexivity|]. split; [assumption|]. split; [reflexivity|].
             split; [auto|discriminate].
          -- cbn [obind].
             destruct (right_step_ok f key Black (Node Red ll lk lv lh lr) k v h (Node Red rl rk rv rh rr) m w IH)
               as (k2 & v2 & r2 & -> & H1 & H2 & H3 & H4); auto.
             { cbn [elems] in *. lia. }
             { cbn [hok] in *. tauto. }
             { intros _. left. cbn [bal is_red]. auto 10. }
             { intros _. cbn [bal is_red]. auto 10. }
             destruct (balance_black m (Node Red ll lk lv lh lr) k2 v2 r2) as (t' & -> & G1 & G2 & _ & G3 & G4).
             { cbn [hok] in *. tauto. }
             { assumption. }
             { left. cbn [bal]. auto. }
             { assumption. }
             exists t'. rewrite G2. cbn [elems] in *. rewrite H4. split; [reflexivity|]. split; [assumption|].
             split; [reflexivity|]. split; [auto|discriminate].
    - cbn [is_red left_of] in Hp. destruct Hp as [Hp|Rl]; [discriminate|].
      destruct l as [|[] ll lk lv lh lr]; try discriminate.
      cbn [bal hok] in Hb, Hh. destruct Hb as (Rr & Hb). destruct n as [|m]; [contradiction|].
      destruct Hb as ((Rll & Rlr & Bll & Blr) & Br). destruct Hh as (_ & (_ & Hhll & Hhlr) & Hhr).
      set (R0 := mk Red lr k v r).
      assert (elems (Node Red ll lk lv lh lr) ++ (k, v) :: elems r = elems ll ++ (lk, lv) :: elems R0) as He
        by (cbn [elems R0 RbTree.mk]; repeat (rewrite <- app_assoc; cbn [app]); reflexivity).
      assert (length (elems R0) <= f)%nat as HfR.
      { apply (f_equal (@length (bytes * V))) in He. rewrite !app_length in He. cbn [length] in He.
        cbn [elems] in Hf, He. repeat (rewrite app_length in *; cbn [length] in * ). lia. }
      rewrite He in Hs0, Hin |- *.
      assert (bytes_cmp key lk = Gt) as Ek2.
      { assert (bytes_cmp lk k = Lt) as Hlk.
        { unfold below in HL. rewrite List.Forall_forall in HL. apply (HL (lk, lv)).
          cbn [elems]. apply in_app_iff. right. left. reflexivity. }
        apply bytes_cmp_lt_gt. destruct (bytes_cmp key k) eqn:Ek.
        - apply bytes_cmp_eq in Ek. now subst key.
        - contradiction.
        - apply bytes_cmp_lt_gt in Ek. eapply bytes_cmp_lt_trans; eassumption. }
      assert (delete_go D vhash (S f) key (Node Black (Node Red ll lk lv lh lr) k v h r)
              = right_step f key (mk Black ll lk lv R0)) as ->.
      { cbn [delete_go is_red rotate_right obind RbTree.mk R0]. 
        destruct (bytes_cmp key k) eqn:Ek; [|contradiction|];
          rewrite (right_step_gt f key Black ll lk lv R0 Ek2); rewrite Ek2; reflexivity. }
      destruct (right_step_ok f key Black ll lk lv (node_hash D vhash ll lk lv R0) R0 m w IH HfR Hs0)
        as (k2 & v2 & r2 & E & H1 & H2 & H3 & H4).
      { cbn [hok R0 RbTree.mk]. tauto. }
      { discriminate. }
      { congruence. }
      { assumption. }
      { intros _. left. split; [|left; reflexivity]. cbn [R0 RbTree.mk bal]. auto. }
      { congruence. }
      change (mk Black ll lk lv R0) with (Node Black ll lk lv (node_hash D vhash ll lk lv R0) R0). rewrite E.
      destruct (balance_black m ll k2 v2 r2 Hhll H1 (or_introl Bll) H2) as (t' & -> & G1 & G2 & _ & G3 & G4).
      exists t'. rewrite G2, H4. split; [reflexivity|]. split; [assumption|]. split; [reflexivity|].
      split; [assumption|]. intros _. apply G4; [assumption|]. now rewrite Rll.
  Qed.

  Theorem rb_delete_ok key t : rb_ok t ->
    exists t', rb_delete D vhash key t = Done t' /\ rb_ok t' /\ elems t' = ldel key (elems t).
  Proof.
    intros Hok. pose proof Hok as (Hs & Hh & (n & Hb) & Hr). unfold rb_delete.
    destruct (rb_get key t) as [w|] eqn:Eg.
    2:{ exists t. split; [reflexivity|]. split; [assumption|]. symmetry. apply filter_all.
        apply List.Forall_forall. intros [k v] Hin. unfold keep_ne. cbn [fst].
        destruct (bytes_cmp k key) eqn:E; try reflexivity. apply bytes_cmp_eq in E. subst k.
        apply rb_get_in in Hin; [congruence|assumption]. }
    pose proof Eg as Hin. apply rb_get_in in Hin; [|assumption].
    destruct t as [|c l k v h r]; [discriminate|].
    set (t0 := if negb (is_red l) && negb (is_red r) then Node Red l k v h r else Node c l k v h r).
    assert (hok t0 /\ elems t0 = elems (Node c l k v h r)) as [Hh0 He0].
    { unfold t0. destruct (negb (is_red l) && negb (is_red r)); auto. }
    destruct c; [discriminate|]. cbn [bal] in Hb. destruct Hb as (Rr & Hb). destruct n as [|n]; [contradiction|].
    destruct Hb as (Bl & Br).
    assert (exists m, bal m t0 /\ (is_red t0 = true \/ is_red (left_of t0) = true)) as (m & Hm & Hp).
    { unfold t0. rewrite Rr. destruct (is_red l) eqn:Rl; cbn [negb andb].
      - exists (S n). cbn [bal left_of]. auto.
      - exists n. cbn [bal is_red]. auto. }
    destruct (delete_go_ok (S (rb_size (Node Black l k v h r))) key t0 m w) as (t' & -> & H1 & H2 & H3 & _).
    - rewrite He0, rb_size_elems. lia.
    - unfold bst. now rewrite He0.
    - assumption.
    - now rewrite He0.
    - left. auto.
    - cbn [obind]. exists (blacken t'). split; [reflexivity|]. rewrite blacken_elems, H2, He0. split; [|reflexivity].
      split; [|split; [|split]].
      + unfold bst. rewrite blacken_elems, H2, He0. now apply ldel_sorted.
      + now apply blacken_hok.
      + now apply (blacken_bal t' m).
      + apply blacken_red.
  Qed.

  Theorem rb_modify_ok key f t v v' : rb_ok t -> rb_get key t = Some v -> f v = Done v' ->
    exists t', rb_modify D vhash key f t = Done t' /\ rb_ok t' /\ elems t' = lins key v' (elems t).
  Proof.
    intros (Hs & Hh & (n & Hb) & Hr) Hg Hf.
    destruct (rb_modify_present key f t v v' Hs Hg Hf) as (t' & E & He & Hr' & Hh' & Hb' & _).
    exists t'. split; [assumption|]. split; [|assumption]. split; [|split; [auto|split; [eauto|congruence]]].
    unfold bst. rewrite He. now apply lins_sorted.
  Qed.
End Tree.

(** ** Depth *)

Section Depth.
  Context {V : Type}.

  Fixpoint depth (t : rbt V) : nat :=
    match t with Null => O | Node _ l _ _ _ r => S (Nat.max (depth l) (depth r)) end.

  Lemma bal_depth (t : rbt V) : forall n, bal n t ->
    (2 ^ n <= S (length (elems t)))%nat /\ (depth t <= 2 * n + (if is_red t then 1 else 0))%nat.
  Proof.
    induction t as [|c l IHl k v h r IHr]; intros n Hb; cbn [bal elems depth] in *.
    - subst. cbn. lia.
    - rewrite app_length. cbn [length]. destruct c.
      + destruct Hb as (Rl & Rr & Bl & Br). apply IHl in Bl as [Sl Dl]. apply IHr in Br as [Sr Dr].
        rewrite Rl in Dl. rewrite Rr in Dr. cbn [is_red]. lia.
      + destruct Hb as (Rr & Hb). destruct n as [|m]; [contradiction|]. destruct Hb as [Bl Br].
        apply IHl in Bl as [Sl Dl]. apply IHr in Br as [Sr Dr]. rewrite Rr in Dr. cbn [is_red].
        rewrite Nat.pow_succ_r'. destruct (is_red l); lia.
  Qed.

  Lemma rb_ok_depth D (vhash : V -> bytes) (t : rbt V) : rb_ok D vhash t ->
    (2 ^ (depth t) <= (S (length (elems t))) ^ 2)%nat.
  Proof.
    intros (_ & _ & (n & Hb) & Hr). apply bal_depth in Hb as [Hs Hd]. rewrite Hr in Hd.
    transitivity (2 ^ (2 * n))%nat; [apply Nat.pow_le_mono_r; lia|].
    rewrite Nat.mul_comm, Nat.pow_mul_r. now apply Nat.pow_le_mono_l.
  Qed.
End Depth.
