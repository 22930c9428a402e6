(** The reader of headers takes exactly the headers of the specification. *)
From Coq Require Import Strings.String Sorting.Sorted.
From Verif Require Import Base BaseLemmas SpecHash HashProofs Candid SpecCandid CandidBase.
Local Open Scope N_scope.

(** ** Signed numbers *)

Lemma sint_ne l z : sint l z -> l <> [].
Proof. now destruct 1. Qed.
Lemma zpow128_S k : (128 ^ Z.of_nat (S k) = 128 * 128 ^ Z.of_nat k)%Z.
Proof. rewrite Nat2Z.inj_succ, Z.pow_succ_r; lia. Qed.
Lemma read_sleb_from_iff k : forall l z r, read_sleb_from (S k) l = Some (z, r) <->
  exists b, l = b ++ r /\ sint b z /\ (length b <= S k)%nat /\ (- 128 ^ Z.of_nat k <= z < 128 ^ Z.of_nat k)%Z.
Proof.
  assert (forall k c l, read_sleb_from (S k) (c :: l) =
    if (k =? 0)%nat && negb ((nb c =? 0) || (nb c =? 127)) then None
    else if nb c <? 64 then Some (Z.of_N (nb c), l)
    else if nb c <? 128 then Some ((Z.of_N (nb c) - 128)%Z, l)
    else match read_sleb_from k l with Some (n, r') => Some ((Z.of_N (nb c) - 128 + 128 * n)%Z, r') | None => None end) as Hs
    by reflexivity.
  assert (forall k, 1 <= 128 ^ Z.of_nat k)%Z as Hp by (intros j; pose proof (Z.pow_pos_nonneg 128 (Z.of_nat j)); lia).
  assert (forall l c r z, l = [c] ++ r -> nb c < 64 -> z = Z.of_N (nb c) -> forall k, (z < 128 ^ Z.of_nat k)%Z -> 
    exists b, l = b ++ r /\ sint b z /\ (length b <= S k)%nat /\ (- 128 ^ Z.of_nat k <= z < 128 ^ Z.of_nat k)%Z) as K1.
  { intros l c r z -> H -> j Hz. exists [c]. specialize (Hp j). repeat split; [now constructor|cbn; lia|lia|lia]. }
  assert (forall l c r z, l = [c] ++ r -> 64 <= nb c < 128 -> z = (Z.of_N (nb c) - 128)%Z -> forall k, (- 128 ^ Z.of_nat k <= z)%Z -> 
    exists b, l = b ++ r /\ sint b z /\ (length b <= S k)%nat /\ (- 128 ^ Z.of_nat k <= z < 128 ^ Z.of_nat k)%Z) as K2.
  { intros l c r z -> H -> j Hz. exists [c]. specialize (Hp j). repeat split; [now apply sint_minus|cbn; lia|lia|lia]. }
  induction k as [|k IH]; intros l z r; (destruct l as [|c l]; [split; [discriminate|]; intros ([|] & H & Hb & _); [now apply sint_ne in Hb|discriminate]|]);
    rewrite Hs; pose proof (nb_lt c) as Hc.
  - cbn [Nat.eqb andb]. destruct ((nb c =? 0) || (nb c =? 127)) eqn:E1; cbn [negb].
    + apply orb_true_iff in E1. rewrite !N.eqb_eq in E1.
      destruct (nb c <? 64) eqn:E2; [apply N.ltb_lt in E2|apply N.ltb_ge in E2; replace (nb c <? 128) with true by (symmetry; apply N.ltb_lt; lia)].
      * split.
        -- intros H. apply (K1 _ c); [cbn [app]; congruence|exact E2|congruence|]. change (128 ^ Z.of_nat 0)%Z with 1%Z.
           assert (z = Z.of_N (nb c)) by congruence. lia.
        -- intros (b & Hl & Hb & H1 & H2). destruct Hb as [d Hd|d Hd|d b n Hd Hb]; injection Hl as -> ->; [reflexivity|lia|lia].
      * split.
        -- intros H. apply (K2 _ c); [cbn [app]; congruence|lia|congruence|]. change (128 ^ Z.of_nat 0)%Z with 1%Z.
           assert (z = Z.of_N (nb c) - 128)%Z by congruence. lia.
        -- intros (b & Hl & Hb & H1 & H2). destruct Hb as [d Hd|d Hd|d b n Hd Hb]; injection Hl as -> ->; [lia|reflexivity|lia].
    + apply orb_false_iff in E1. rewrite !N.eqb_neq in E1. split; [discriminate|].
      intros (b & Hl & Hb & H1 & H2). change (128 ^ Z.of_nat 0)%Z with 1%Z in H2.
      destruct Hb as [d Hd|d Hd|d b n Hd Hb]; injection Hl as -> _; [lia|lia|].
      apply sint_ne in Hb. destruct b; [congruence|]. cbn [length] in H1. lia.
  - cbn [Nat.eqb andb]. specialize (Hp k). pose proof (zpow128_S k) as Hz.
    destruct (nb c <? 64) eqn:E1; [apply N.ltb_lt in E1|apply N.ltb_ge in E1].
    { split.
      - intros H. apply (K1 _ c); [cbn [app]; congruence|lia|congruence|].
        assert (z = Z.of_N (nb c))%Z by congruence. lia.
      - intros (b & Hl & Hb & H1 & H2). destruct Hb as [d Hd|d Hd|d b n Hd Hb]; injection Hl as -> ->; [reflexivity|lia|lia]. }
    destruct (nb c <? 128) eqn:E2; [apply N.ltb_lt in E2|apply N.ltb_ge in E2].
    { split.
      - intros H. apply (K2 _ c); [cbn [app]; congruence|lia|congruence|].
        assert (z = Z.of_N (nb c) - 128)%Z by congruence. lia.
      - intros (b & Hl & Hb & H1 & H2). destruct Hb as [d Hd|d Hd|d b n Hd Hb]; injection Hl as -> ->; [lia|reflexivity|lia]. }
    split.
    + destruct (read_sleb_from (S k) l) as [[m r']|] eqn:E; [|discriminate]. intros H.
      assert ((Z.of_N (nb c) - 128 + 128 * m)%Z = z /\ r' = r) as [<- <-] by (split; congruence).
      apply IH in E as (b & -> & Hb & H1 & H2). exists (c :: b). repeat split; [now apply sint_more|cbn; lia|lia|lia].
    + intros (b & Hl & Hb & H1 & H2). destruct Hb as [d Hd|d Hd|d b m Hd Hb]; injection Hl as <- ->; [lia|lia|].
      assert (read_sleb_from (S k) (b ++ r) = Some (m, r)) as ->; [|reflexivity].
      apply IH. exists b. cbn [length] in H1. repeat split; [exact Hb|lia|lia|lia].
Qed.
Lemma read_sleb_iff l z r : read_sleb l = Some (z, r) <-> exists b, int64 b z /\ l = b ++ r.
Proof.
  unfold read_sleb. rewrite read_sleb_from_iff. unfold int64. change (128 ^ Z.of_nat 9)%Z with 9223372036854775808%Z.
  split; intros (b & H); exists b; tauto.
Qed.

(** ** The parts of a table *)

(** [f] reads exactly what [R] says. *)
Definition reads {A} (f : bytes -> option (A * bytes)) (R : A -> bytes -> Prop) : Prop :=
  forall l x r, f l = Some (x, r) <-> exists b, R x b /\ l = b ++ r.

Lemma prim_of_iff z p : prim_of z = Some p <-> z = opcode p.
Proof.
  split; [|intros ->; now destruct p]. unfold prim_of. intros H.
  destruct z as [|q|q]; try discriminate.
  repeat (destruct q as [q|q|]; try discriminate; try (apply (inj Some) in H; subst p; reflexivity)).
Qed.
Lemma read_tref_reads : reads read_tref w_ref.
Proof.
  intros l t r. unfold read_tref, w_ref. split.
  - destruct (read_sleb l) as [[z r1]|] eqn:E; [|discriminate]. apply read_sleb_iff in E as (b & Hb & ->).
    destruct (0 <=? z)%Z eqn:Ez; [apply Z.leb_le in Ez|].
    + intros H. apply (inj Some) in H. injection H as <- <-. exists b. split; [|reflexivity]. now rewrite Z2N.id.
    + destruct (prim_of z) as [p|] eqn:Ep; [|discriminate]. intros H. apply (inj Some) in H. injection H as <- <-.
      apply prim_of_iff in Ep as ->. eauto.
  - intros (b & Hb & ->). assert (forall z, int64 b z -> read_sleb (b ++ r) = Some (z, r)) as K by (intros z Hz; apply read_sleb_iff; eauto).
    destruct t as [p|i]; rewrite (K _ Hb).
    + replace (0 <=? opcode p)%Z with false by now destruct p.
      now rewrite (proj2 (prim_of_iff _ p) eq_refl).
    + replace (0 <=? Z.of_N i)%Z with true by (symmetry; apply Z.leb_le; lia). now rewrite N2Z.id.
Qed.

Lemma w_seq_length {A} (R : A -> bytes -> Prop) xs b : (forall x b, R x b -> b <> []) -> w_seq R xs b -> (length xs <= length b)%nat.
Proof.
  intros Hn. induction 1 as [|x xs b bs H1 H2 IH]; [reflexivity|]. rewrite app_length. cbn [length].
  apply Hn in H1. destruct b; [congruence|]. cbn [length]. lia.
Qed.
Lemma read_n_iff {A} (f : bytes -> option (A * bytes)) R : reads f R -> forall n l xs r,
  read_n f n l = Some (xs, r) <-> exists b, w_seq R xs b /\ length xs = n /\ l = b ++ r.
Proof.
  intros Hf. induction n as [|n IH]; intros l xs r; cbn [read_n].
  - split.
    + intros H. apply (inj Some) in H. injection H as <- <-. exists []. repeat split. constructor.
    + intros (b & Hb & Hn & ->). destruct xs; [|discriminate]. inversion Hb. reflexivity.
  - split.
    + destruct (f l) as [[a r1]|] eqn:E; [|discriminate]. apply Hf in E as (b & Hb & ->).
      destruct (read_n f n r1) as [[ys r2]|] eqn:E; [|discriminate]. apply IH in E as (bs & Hbs & <- & ->).
      intros H. apply (inj Some) in H. injection H as <- <-. exists (b ++ bs). repeat split; [now constructor|apply app_assoc].
    + intros (b & Hb & Hn & ->). destruct Hb as [|x xs b bs H1 H2]; [discriminate|]. cbn [length] in Hn. injection Hn as Hn.
      rewrite <- app_assoc. assert (f (b ++ bs ++ r) = Some (x, bs ++ r)) as -> by (apply Hf; eauto).
      assert (read_n f n (bs ++ r) = Some (xs, r)) as -> by (apply IH; eauto). reflexivity.
Qed.
Lemma read_list_reads {A} (f : bytes -> option (A * bytes)) R : reads f R -> (forall x b, R x b -> b <> []) ->
  reads (read_list f) (w_list R).
Proof.
  intros Hf Hn l xs r. unfold read_list, w_list. split.
  - destruct (read_leb l) as [[n r1]|] eqn:E; [|discriminate]. apply read_leb_iff in E as (b & Hb & ->).
    destruct (blen r1 <? n); [discriminate|]. intros H. apply (read_n_iff f R Hf) in H as (bs & H1 & H2 & ->).
    exists (b ++ bs). split; [|apply app_assoc]. exists b, bs. split; [|now split]. now rewrite H2, N2Nat.id.
  - intros (b & (x & bs & Hx & Hs & ->) & ->). rewrite <- app_assoc, (read_leb_ok _ _ _ Hx).
    pose proof (w_seq_length R xs bs Hn Hs) as Hl.
    replace (blen (bs ++ r) <? N.of_nat (length xs)) with false
      by (symmetry; apply N.ltb_ge; rewrite blen_app; unfold blen; lia).
    rewrite Nat2N.id. apply (read_n_iff f R Hf). eauto.
Qed.

Lemma int64_ne b z : int64 b z -> b <> [].
Proof. intros [H _]. now apply sint_ne in H. Qed.
Lemma w_ref_ne t b : w_ref t b -> b <> [].
Proof. apply int64_ne. Qed.
Lemma count_ne l n : count l n -> l <> [].
Proof. intros [H _]. now apply uint_ne in H. Qed.
Lemma app_ne {A} (a b : list A) : a <> [] -> a ++ b <> [].
Proof. now destruct a. Qed.
Lemma w_field_ne f b : w_field f b -> b <> [].
Proof. intros (x & y & Hx & _ & _ & ->). now apply app_ne, (count_ne _ _ Hx). Qed.
Lemma w_method_ne m b : w_method m b -> b <> [].
Proof. intros (x & y & (l & Hx & ->) & _ & _ & ->). apply app_ne, app_ne. now apply count_ne in Hx. Qed.
Lemma w_entry_ne e b : w_entry e b -> b <> [].
Proof. destruct 1; try discriminate. apply app_ne. now apply int64_ne in H. Qed.

Lemma read_field_reads : reads read_field w_field.
Proof.
  intros l [id t] r. unfold read_field, w_field. cbn [fst snd]. split.
  - destruct (read_leb l) as [[n r1]|] eqn:E; [|discriminate]. apply read_leb_iff in E as (x & Hx & ->).
    destruct (u32_max <? n) eqn:En; [discriminate|]. apply N.ltb_ge in En.
    destruct (read_tref r1) as [[t1 r2]|] eqn:E; [|discriminate]. apply read_tref_reads in E as (y & Hy & ->).
    intros H. assert (n = id /\ t1 = t /\ r2 = r) as (-> & -> & ->) by (repeat split; congruence). clear H.
    exists (x ++ y). split; [|apply app_assoc]. exists x, y. split; [exact Hx|]. unfold u32_max, two32 in *. split; [lia|]. now split.
  - intros (b & (x & y & Hx & Hi & Hy & ->) & ->). rewrite <- app_assoc, (read_leb_ok _ _ _ Hx).
    replace (u32_max <? id) with false by (symmetry; apply N.ltb_ge; unfold u32_max, two32 in *; lia).
    assert (read_tref (y ++ r) = Some (t, r)) as -> by (apply read_tref_reads; eauto). reflexivity.
Qed.
Lemma read_method_reads : reads read_method w_method.
Proof.
  intros l [name t] r. unfold read_method, w_method. cbn [fst snd]. split.
  - destruct (read_text l) as [[n r1]|] eqn:E; [|discriminate]. apply read_text_iff in E as (x & Hx & Hu & ->).
    destruct (read_tref r1) as [[t1 r2]|] eqn:E; [|discriminate]. apply read_tref_reads in E as (y & Hy & ->).
    intros H. assert (n = name /\ t1 = t /\ r2 = r) as (-> & -> & ->) by (repeat split; congruence). clear H.
    exists (x ++ y). split; [|apply app_assoc]. eauto 10.
  - intros (b & (x & y & Hx & Hu & Hy & ->) & ->). rewrite <- app_assoc.
    assert (read_text (x ++ y ++ r) = Some (name, y ++ r)) as -> by (apply read_text_iff; eauto).
    assert (read_tref (y ++ r) = Some (t, r)) as -> by (apply read_tref_reads; eauto). reflexivity.
Qed.

Definition fields_reads := read_list_reads _ _ read_field_reads w_field_ne.
Definition refs_reads := read_list_reads _ _ read_tref_reads w_ref_ne.
Definition methods_reads := read_list_reads _ _ read_method_reads w_method_ne.

Lemma mode_iff r2 (a b : list tref) e r :
  match r2 with
  | x00 :: r3 => Some (EFunc a b, r3)
  | x01 :: m :: r3 => if between 1 3 m then Some (EFunc a b, r3) else None
  | _ => None
  end = Some (e, r) <-> e = EFunc a b /\ exists m, w_mode m /\ r2 = m ++ r.
Proof.
  unfold w_mode. split.
  - destruct r2 as [|c r2]; [discriminate|]. destruct c; try discriminate.
    + intros H. apply (inj Some) in H. injection H as <- <-. split; [reflexivity|]. exists [x00]. split; [now left|reflexivity].
    + destruct r2 as [|m r2]; [discriminate|]. destruct m; try discriminate; change (between 1 3 _) with true;
        intros H; apply (inj Some) in H; injection H as <- <-; (split; [reflexivity|]);
        match goal with |- exists x, _ /\ x01 :: ?m :: _ = _ => exists [x01; m] end; (split; [|reflexivity]); cbn; tauto.
  - intros (-> & m & Hm & ->). cbn [In] in Hm. destruct Hm as [<-|[<-|[<-|[<-|[]]]]]; reflexivity.
Qed.

Definition read_future (l : bytes) : option (entry * bytes) :=
  match read_sleb l with
  | Some (z, r) => if (z <? -24)%Z then match read_counted r with Some (_, r') => Some (EFuture, r') | None => None end
                   else None
  | None => None
  end.
Definition coded (c : byte) : bool := match c with x6e | x6d | x6c | x6b | x6a | x69 => true | _ => false end.
Lemma read_entry_future c l : coded c = false -> read_entry (c :: l) = read_future (c :: l).
Proof. destruct c; cbn [coded]; try discriminate; reflexivity. Qed.
Lemma read_future_reads : reads read_future (fun e b => e = EFuture /\ w_entry e b).
Proof.
  intros l e r. unfold read_future. split.
  - destruct (read_sleb l) as [[z r1]|] eqn:E; [|discriminate]. apply read_sleb_iff in E as (b & Hb & ->).
    destruct (z <? -24)%Z eqn:Ez; [|discriminate]. apply Z.ltb_lt in Ez.
    destruct (read_counted r1) as [[t r2]|] eqn:E; [|discriminate]. apply read_counted_iff in E as (x & Hx & ->).
    intros H. apply (inj Some) in H. injection H as <- <-. exists (b ++ x). split; [|apply app_assoc]. split; [reflexivity|].
    econstructor; eassumption.
  - intros (b & [-> Hb] & ->). inversion Hb as [| | | | | |y z t b' Hy Hz Ht]; subst. rewrite <- app_assoc.
    assert (read_sleb (y ++ b' ++ r) = Some (z, b' ++ r)) as -> by (apply read_sleb_iff; eauto).
    replace (z <? -24)%Z with true by (symmetry; now apply Z.ltb_lt).
    assert (read_counted (b' ++ r) = Some (t, r)) as -> by (apply read_counted_iff; eauto). reflexivity.
Qed.

Lemma one_reads {A} f R (g : A -> entry) l e r c : reads f R -> (forall x b, R x b -> w_entry (g x) (c :: b)) ->
  match f l with Some (x, r') => Some (g x, r') | None => None end = Some (e, r) -> exists b, w_entry e b /\ c :: l = b ++ r.
Proof.
  intros Hf Hg. destruct (f l) as [[x r1]|] eqn:E; [|discriminate]. apply Hf in E as (b & Hb & ->).
  intros H. apply (inj Some) in H. injection H as <- <-. exists (c :: b). split; [now apply Hg|reflexivity].
Qed.
Theorem read_entry_reads : reads read_entry w_entry.
Proof.
  intros l e r. split.
  - destruct l as [|c l]; [discriminate|]. destruct (coded c) eqn:Ec.
    + destruct c; cbn [coded] in Ec; try discriminate; cbn [read_entry].
      * apply (one_reads _ _ EService _ _ _ _ methods_reads). apply w_service.
      * destruct (read_list read_tref l) as [[a r1]|] eqn:E; [|discriminate]. apply refs_reads in E as (x & Hx & ->).
        destruct (read_list read_tref r1) as [[b r2]|] eqn:E; [|discriminate]. apply refs_reads in E as (y & Hy & ->).
        rewrite mode_iff. intros (-> & m & Hm & ->). exists (x6a :: x ++ y ++ m). split; [now constructor|].
        cbn [app]. now rewrite <- !app_assoc.
      * apply (one_reads _ _ EVariant _ _ _ _ fields_reads). apply w_variant.
      * apply (one_reads _ _ ERecord _ _ _ _ fields_reads). apply w_record.
      * apply (one_reads _ _ EVec _ _ _ _ read_tref_reads). apply w_vec.
      * apply (one_reads _ _ EOpt _ _ _ _ read_tref_reads). apply w_opt.
    + rewrite read_entry_future by exact Ec. intros H. apply read_future_reads in H as (b & [_ Hb] & H). eauto.
  - intros (b & Hb & ->). destruct Hb as [t b H|t b H|fs b H|fs b H|a b x y m H1 H2 H3|ms b H|y z t b Hy Hz Ht]; cbn [app read_entry].
    + assert (read_tref (b ++ r) = Some (t, r)) as -> by (apply read_tref_reads; eauto). reflexivity.
    + assert (read_tref (b ++ r) = Some (t, r)) as -> by (apply read_tref_reads; eauto). reflexivity.
    + assert (read_list read_field (b ++ r) = Some (fs, r)) as -> by (apply fields_reads; eauto). reflexivity.
    + assert (read_list read_field (b ++ r) = Some (fs, r)) as -> by (apply fields_reads; eauto). reflexivity.
    + rewrite <- !app_assoc.
      assert (read_list read_tref (x ++ y ++ m ++ r) = Some (a, y ++ m ++ r)) as -> by (apply refs_reads; eauto).
      assert (read_list read_tref (y ++ m ++ r) = Some (b, m ++ r)) as -> by (apply refs_reads; eauto).
      apply mode_iff. eauto.
    + assert (read_list read_method (b ++ r) = Some (ms, r)) as -> by (apply methods_reads; eauto). reflexivity.
    + assert (exists c y', y = c :: y' /\ coded c = false) as (c & y' & E & Hc).
      { destruct Hy as [Hy _]. destruct Hy as [c Hc|c Hc|c l z Hc Hl].
        - lia.
        - eexists c, []. split; [reflexivity|]. destruct c; try reflexivity; cbn in Hz; lia.
        - exists c, l. split; [reflexivity|]. destruct c; try reflexivity; cbn in Hc; lia. }
      assert (read_future ((y ++ b) ++ r) = Some (EFuture, r)) as K.
      { apply read_future_reads. exists (y ++ b). split; [|reflexivity]. split; [reflexivity|]. econstructor; eassumption. }
      subst y. cbn [app] in *. now rewrite read_entry_future.
Qed.

(** ** The rules of a table *)

Lemma increasing_iff {A} (fs : list (N * A)) : increasing N.ltb (map fst fs) = true <-> rising fs.
Proof.
  induction fs as [|[a x] fs IH]; [easy|]. destruct fs as [|[b y] fs]; [easy|].
  cbn [map fst increasing rising] in *. rewrite andb_true_iff, N.ltb_lt. now rewrite IH.
Qed.
Lemma names_iff l : increasing (fun a b => match bytes_cmp a b with Lt => true | _ => false end) l = true <-> StronglySorted lex_lt l.
Proof.
  assert (forall a b, match bytes_cmp a b with Lt => true | _ => false end = true <-> lex_lt a b) as K.
  { intros a b. rewrite <- bytes_cmp_lex. destruct (bytes_cmp a b); split; congruence. }
  assert (forall a b c, lex_lt a b -> lex_lt b c -> lex_lt a c) as Ht.
  { intros a b c. rewrite <- !bytes_cmp_lex. apply bytes_cmp_lt_trans. }
  induction l as [|a l IH]; [split; [constructor|reflexivity]|]. destruct l as [|b l].
  - split; [|reflexivity]. intros _. repeat constructor.
  - change (increasing _ (a :: b :: l)) with
      ((match bytes_cmp a b with Lt => true | _ => false end) && increasing (fun a b => match bytes_cmp a b with Lt => true | _ => false end) (b :: l)).
    rewrite andb_true_iff, K, IH. split.
    + intros [H1 H2]. apply SSorted_cons; [exact H2|]. apply List.Forall_cons; [exact H1|].
      apply StronglySorted_inv in H2 as [_ H2]. eapply List.Forall_impl; [|exact H2]. intros c Hc. cbn beta in *. eauto.
    + intros H. apply StronglySorted_inv in H as [H1 H2]. split; [|exact H1]. now inversion H2.
Qed.
Lemma ref_ok_iff n t : ref_ok n t = true <-> ref_in n t.
Proof. destruct t; cbn; [easy|apply N.ltb_lt]. Qed.
Lemma forallb_Forall {A} (f : A -> bool) (P : A -> Prop) l : (forall x, f x = true <-> P x) -> forallb f l = true <-> Forall P l.
Proof. intros H. rewrite forallb_forall, List.Forall_forall. now setoid_rewrite H. Qed.
Lemma fields_ok_iff n fs : fields_ok n fs = true <-> rising fs /\ Forall (fun f => ref_in n (snd f)) fs.
Proof.
  unfold fields_ok. rewrite andb_true_iff, increasing_iff. rewrite (forallb_Forall _ (fun f => ref_in n (snd f))); [reflexivity|].
  intros f. apply ref_ok_iff.
Qed.
Lemma entry_ok_iff tbl e : entry_ok tbl e = true <-> entry_fine tbl e.
Proof.
  destruct e as [t|t|fs|fs|a b|ms|]; cbn [entry_ok entry_fine]; try apply ref_ok_iff; try apply fields_ok_iff; [| |easy].
  - rewrite andb_true_iff, !(forallb_Forall _ (ref_in (N.of_nat (length tbl)))) by apply ref_ok_iff. reflexivity.
  - rewrite andb_true_iff, names_iff.
    rewrite (forallb_Forall _ (fun m => exists i a b, snd m = Var i /\ nth_error tbl (N.to_nat i) = Some (EFunc a b))); [reflexivity|].
    intros m. destruct (snd m) as [p|i]; [split; [discriminate|intros (i & a & b & H & _); discriminate]|].
    split.
    + destruct (nth_error tbl (N.to_nat i)) as [[]|] eqn:E; try discriminate. eauto 10.
    + intros (j & a & b & H & E). injection H as <-. now rewrite E.
Qed.

(** ** Headers *)

Theorem read_header_iff msg h r : read_header msg = Some (h, r) <-> exists a, w_header h a /\ msg = a ++ r.
Proof.
  unfold read_header, w_header. split.
  - destruct (strip_prefix MAGIC msg) as [l|] eqn:Em; [|discriminate]. apply strip_prefix_spec in Em as ->.
    destruct (read_list read_entry l) as [[tbl r1]|] eqn:E; [|discriminate].
    apply (read_list_reads _ _ read_entry_reads w_entry_ne) in E as (x & Hx & ->).
    destruct (read_list read_tref r1) as [[args r2]|] eqn:E; [|discriminate]. apply refs_reads in E as (y & Hy & ->).
    destruct (forallb (entry_ok tbl) tbl && forallb (ref_ok (N.of_nat (length tbl))) args) eqn:E; [|discriminate].
    apply andb_true_iff in E as [E1 E2]. apply (forallb_Forall _ _ _ (entry_ok_iff tbl)) in E1.
    apply (forallb_Forall _ _ _ (ref_ok_iff _)) in E2. intros H. apply (inj Some) in H. injection H as <- <-.
    exists (MAGIC ++ x ++ y). split; [|now rewrite <- !app_assoc]. exists x, y. cbn [h_table h_args]. eauto 10.
  - destruct h as [tbl args]. cbn [h_table h_args]. intros (a & (x & y & Hx & Hy & -> & H1 & H2) & ->).
    change (bs "DIDL") with MAGIC. rewrite <- !app_assoc, strip_prefix_app.
    assert (read_list read_entry (x ++ y ++ r) = Some (tbl, y ++ r)) as -> by
      (apply (read_list_reads _ _ read_entry_reads w_entry_ne); eauto).
    assert (read_list read_tref (y ++ r) = Some (args, r)) as -> by (apply refs_reads; eauto).
    rewrite (proj2 (forallb_Forall _ _ _ (entry_ok_iff tbl)) H1), (proj2 (forallb_Forall _ _ _ (ref_ok_iff _)) H2). reflexivity.
Qed.

(** ** What encoders write *)

Definition fields_in (n : N) (fs : list (N * tref)) : Prop :=
  rising fs /\ N.of_nat (length fs) < two32 /\ Forall (fun f => fst f < two32 /\ ref_in n (snd f)) fs.
Definition entry_in (n : N) (e : entry) : Prop :=
  match e with
  | EOpt t | EVec t => ref_in n t
  | ERecord fs | EVariant fs => fields_in n fs
  | _ => False
  end.
(** Tables of data types. *)
Definition header_ok (h : header) : Prop :=
  let n := N.of_nat (length (h_table h)) in
  n < two32 /\ N.of_nat (length (h_args h)) < two32 /\
  Forall (entry_in n) (h_table h) /\ Forall (ref_in n) (h_args h).

Lemma sleb_sint j : forall f n, n < 64 * 128 ^ N.of_nat j -> (j < f)%nat ->
  sint (sleb_from f n) (Z.of_N n) /\ (length (sleb_from f n) <= S j)%nat.
Proof.
  induction j as [|j IH]; intros f n Hn Hf; (destruct f as [|f]; [lia|]); cbn [sleb_from].
  - cbn [N.of_nat] in Hn. rewrite N.pow_0_r in Hn. replace (n <? 64) with true by (symmetry; apply N.ltb_lt; lia).
    split; [|reflexivity]. assert (nb (u8 n) = n) as E by (rewrite nb_u8, N.mod_small; lia). rewrite <- E at 2. apply sint_last. lia.
  - rewrite pow128_S in Hn. destruct (n <? 64) eqn:E.
    + apply N.ltb_lt in E. split; [|cbn; lia]. assert (nb (u8 n) = n) as E' by (rewrite nb_u8, N.mod_small; lia).
      rewrite <- E' at 2. apply sint_last. lia.
    + apply N.ltb_ge in E. destruct (IH f (n / 128)) as [H1 H2]; [zdiv|lia|]. split; [|cbn [length]; lia].
      assert (nb (u8 (128 + n mod 128)) = 128 + n mod 128) as E' by (rewrite nb_u8, N.mod_small; zdiv).
      replace (Z.of_N n) with (Z.of_N (nb (u8 (128 + n mod 128))) - 128 + 128 * Z.of_N (n / 128))%Z by (rewrite E'; zdiv).
      apply sint_more; [lia|exact H1].
Qed.
Lemma put_tref_w n t : ref_in n t -> n <= two32 -> w_ref t (put_tref t).
Proof.
  unfold w_ref. destruct t as [p|i]; intros Hi Hn; cbn [put_tref ref_in] in *.
  - destruct p; (split; [|split; [cbn; lia|cbn; lia]]); match goal with |- sint [prim_code ?p] _ => apply (sint_minus (prim_code p)) end; cbn; lia.
  - destruct (sleb_sint 4 10 i) as [H1 H2]; [|lia|].
    + unfold two32 in Hn. change (64 * 128 ^ N.of_nat 4) with 17179869184. lia.
    + split; [exact H1|]. unfold two32 in Hn. lia.
Qed.
Lemma put_seq_w {A} (R : A -> bytes -> Prop) g l : Forall (fun x => R x (g x)) l -> w_seq R l (concat (map g l)).
Proof. induction 1; cbn [map concat]; now constructor. Qed.
Lemma put_list_w {A} (R : A -> bytes -> Prop) g l : N.of_nat (length l) < two32 -> Forall (fun x => R x (g x)) l ->
  w_list R l (put_list g l).
Proof.
  intros Hl H. exists (leb (N.of_nat (length l))), (concat (map g l)). repeat split; try apply leb_count; unfold two32, two64 in *; try lia.
  now apply put_seq_w.
Qed.
Lemma put_field_w n f : fst f < two32 /\ ref_in n (snd f) -> n <= two32 -> w_field f (put_field f).
Proof.
  intros [H1 H2] Hn. exists (leb (fst f)), (put_tref (snd f)). split; [apply leb_count; unfold two32, two64 in *; lia|].
  split; [exact H1|]. split; [|reflexivity]. now apply (put_tref_w n).
Qed.
Lemma put_entry_w n e : entry_in n e -> n <= two32 -> w_entry e (put_entry e).
Proof.
  destruct e as [t|t|fs|fs|a b|ms|]; intros He Hn; cbn [entry_in] in He; try contradiction; cbn [put_entry].
  - apply w_opt. now apply (put_tref_w n).
  - apply w_vec. now apply (put_tref_w n).
  - apply w_record. destruct He as (_ & H1 & H2). apply put_list_w; [exact H1|]. eapply List.Forall_impl; [|exact H2].
    intros f Hf. now apply (put_field_w n).
  - apply w_variant. destruct He as (_ & H1 & H2). apply put_list_w; [exact H1|]. eapply List.Forall_impl; [|exact H2].
    intros f Hf. now apply (put_field_w n).
Qed.
Theorem put_header_w h : header_ok h -> w_header h (put_header h).
Proof.
  destruct h as [tbl args]. intros (H1 & H2 & H3 & H4). cbn [h_table h_args] in *.
  exists (put_list put_entry tbl), (put_list put_tref args). cbn [h_table h_args].
  assert (N.of_nat (length tbl) <= two32) as H5 by lia. split; [|split; [|split; [reflexivity|split]]].
  - apply put_list_w; [exact H1|]. eapply List.Forall_impl; [|exact H3]. intros e He. now apply (put_entry_w (N.of_nat (length tbl))).
  - apply put_list_w; [exact H2|]. eapply List.Forall_impl; [|exact H4]. intros e He. now apply (put_tref_w (N.of_nat (length tbl))).
  - eapply List.Forall_impl; [|exact H3]. intros e He. destruct e; cbn [entry_in entry_fine] in *; try contradiction; try exact He;
      destruct He as (K1 & _ & K2); (split; [exact K1|]); (eapply List.Forall_impl; [|exact K2]); now intros f [_ Hf].
  - exact H4.
Qed.
