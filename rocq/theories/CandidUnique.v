(** A message has one reading: the types and the values are determined by the bytes. *)
From Coq Require Import Strings.String.
From Verif Require Import Base BaseLemmas SpecHash HashProofs Candid SpecCandid CandidBase CandidHeader CandidProofs.
Local Open Scope N_scope.

Lemma count_unique l n r l' n' r' : count l n -> count l' n' -> l ++ r = l' ++ r' -> n = n' /\ l = l' /\ r = r'.
Proof.
  intros H H' E. pose proof (read_leb_ok l n r H) as K. rewrite E, (read_leb_ok l' n' r' H') in K.
  assert (n = n' /\ r = r') as [-> ->] by (split; congruence). repeat split. now apply app_inv_tail in E.
Qed.
Lemma digits_unique front final r front' final' r' :
  Forall (fun b => 128 <= nb b) front -> nb final < 128 -> Forall (fun b => 128 <= nb b) front' -> nb final' < 128 ->
  (front ++ [final]) ++ r = (front' ++ [final']) ++ r' -> front = front' /\ final = final' /\ r = r'.
Proof.
  intros H Hx H' Hx'. revert front' H'. induction H as [|c front Hc Hf IH]; intros front' H' E; destruct H' as [|c' front' Hc' Hf'];
    cbn [app] in E; injection E as -> E.
  - auto.
  - lia.
  - lia.
  - destruct (IH front' Hf' E) as (-> & -> & ->). auto.
Qed.
Lemma uint_value l n n' : uint l n -> uint l n' -> n = n'.
Proof.
  intros H. revert n'. induction H as [c Hc|c l n Hc Hl IH]; intros n' H'.
  - inversion H'; subst; [reflexivity|lia].
  - inversion H'; subst; [lia|]. f_equal. f_equal. now apply IH.
Qed.
Lemma uint_unique l n r l' n' r' : uint l n -> uint l' n' -> l ++ r = l' ++ r' -> n = n' /\ r = r'.
Proof.
  intros H H' E. destruct (uint_last_byte _ _ H) as (f & x & -> & H1 & H2). destruct (uint_last_byte _ _ H') as (f' & x' & -> & H1' & H2').
  destruct (digits_unique _ _ _ _ _ _ H1 H2 H1' H2' E) as (-> & -> & ->). split; [|reflexivity]. eapply uint_value; eassumption.
Qed.
Lemma app_same {A} (a b x y : list A) : length a = length b -> a ++ x = b ++ y -> a = b /\ x = y.
Proof.
  revert b. induction a as [|c a IH]; intros [|d b] Hl E; try discriminate; [auto|]. cbn [app] in E. injection E as -> E.
  cbn [length] in Hl. injection Hl as Hl. destruct (IH b Hl E) as [-> ->]. auto.
Qed.
Lemma blen_same (a b x y : bytes) : blen a = blen b -> a ++ x = b ++ y -> a = b /\ x = y.
Proof. intros H. apply app_same. unfold blen in H. lia. Qed.
Lemma le_digits_inj k n n' : n < 256 ^ N.of_nat k -> n' < 256 ^ N.of_nat k -> le_digits k n = le_digits k n' -> n = n'.
Proof. intros H H' E. rewrite <- (le_value_digits k n H), <- (le_value_digits k n' H'). now rewrite E. Qed.

Theorem enc_unique_all :
  (forall c v b, enc c v b -> forall v' b' r r', enc c v' b' -> b ++ r = b' ++ r' -> v = v' /\ r = r') /\
  (forall c vs b, enc_all c vs b -> forall vs' b' r r', enc_all c vs' b' -> length vs = length vs' -> b ++ r = b' ++ r' -> vs = vs' /\ r = r') /\
  (forall fs vs b, enc_fields fs vs b -> forall vs' b' r r', enc_fields fs vs' b' -> b ++ r = b' ++ r' -> vs = vs' /\ r = r').
Proof.
  apply enc_mutind.
  - intros v' b' r r' H E. inversion H; subst; [now split|discriminate].
  - intros v' b' r r' H E. inversion H; subst; [now split|discriminate].
  - intros b v' b' r r' H E. inversion H; subst; [|discriminate]. cbn [app] in E. injection E as E ->. destruct b, b0; try discriminate; now split.
  - intros n l Hl v' b' r r' H E. inversion H; subst; [|discriminate].
    edestruct (uint_unique l n r) as [-> ->]; [exact Hl|eassumption|exact E|]. now split.
  - intros front final H1 H2 v' b' r r' H E. inversion H; subst; [|discriminate].
    edestruct (digits_unique front final r) as (-> & -> & ->); [exact H1|exact H2| | |exact E|]; try eassumption. now split.
  - intros p k n Hp Hn v' b' r r' H E.
    assert (exists n', n' < 256 ^ k /\ v' = UNat n' /\ b' = le_digits (N.to_nat k) n') as (n' & Hn' & -> & ->).
    { inversion H; subst; try discriminate. exists n0. assert (k0 = k) as -> by congruence. auto. }
    apply app_same in E as [E ->]; [|now rewrite !le_digits_length]. split; [|reflexivity]. f_equal.
    apply (le_digits_inj (N.to_nat k)); rewrite ?N2Nat.id; assumption.
  - intros t l Hu Hl v' b' r r' H E. inversion H; subst; [discriminate|]. rewrite <- !app_assoc in E.
    edestruct (count_unique l) as (E1 & _ & E2); [exact Hl|eassumption|exact E|]. apply blen_same in E2 as [-> ->]; [|exact E1]. now split.
  - intros p l Hp Hl v' b' r r' H E. inversion H; subst; [discriminate|]. cbn [app] in E. injection E as E. rewrite <- !app_assoc in E.
    edestruct (count_unique l) as (E1 & _ & E2); [exact Hl|eassumption|exact E|]. apply blen_same in E2 as [-> ->]; [|exact E1]. now split.
  - intros c v' b' r r' H E. inversion H; subst; cbn [app] in E; [injection E as ->; now split|discriminate].
  - intros c v b Hv IH v' b' r r' H E. inversion H; subst; cbn [app] in E; [discriminate|]. injection E as E.
    edestruct IH as [-> ->]; [eassumption|exact E|]. now split.
  - intros c vs l b Hl Hv IH v' b' r r' H E. inversion H; subst. rewrite <- !app_assoc in E.
    edestruct (count_unique l) as (E1 & _ & E2); [exact Hl|eassumption|exact E|].
    edestruct IH as [-> ->]; [eassumption|lia|exact E2|]. now split.
  - intros fs vs b Hv IH v' b' r r' H E. inversion H; subst. edestruct IH as [-> ->]; [eassumption|exact E|]. now split.
  - intros fs k id c v l b Hk Hl Hv IH v' b' r r' H E. inversion H; subst. rewrite <- !app_assoc in E.
    edestruct (count_unique l) as (E1 & _ & E2); [exact Hl|eassumption|exact E|]. apply Nat2N.inj in E1. subst.
    match goal with H1 : nth_error fs ?k = Some (?i, ?d), H2 : enc ?d _ _ |- _ => rewrite Hk in H1; injection H1 as <- <- end.
    edestruct IH as [-> ->]; [eassumption|exact E2|]. now split.
  - intros c vs' b' r r' H Hl E. destruct vs'; [|discriminate]. inversion H; subst. now split.
  - intros c v vs b bs Hv IH Hvs IHs vs' b' r r' H Hl E. inversion H; subst; [discriminate|]. rewrite <- !app_assoc in E.
    edestruct IH as [-> E2]; [eassumption|exact E|]. cbn [length] in Hl. injection Hl as Hl.
    edestruct IHs as [-> ->]; [eassumption|exact Hl|exact E2|]. now split.
  - intros vs' b' r r' H E. inversion H; subst. now split.
  - intros id c fs v vs b bs Hv IH Hvs IHs vs' b' r r' H E. inversion H; subst. rewrite <- !app_assoc in E.
    edestruct IH as [-> E2]; [eassumption|exact E|]. edestruct IHs as [-> ->]; [eassumption|exact E2|]. now split.
Qed.
Lemma enc_args_unique cs vs b : enc_args cs vs b -> forall vs', enc_args cs vs' b -> vs = vs'.
Proof.
  intros H. assert (forall vs' b' r r', enc_args cs vs' b' -> b ++ r = b' ++ r' -> vs = vs' /\ r = r') as K.
  { induction H as [|c cs v vs b bs H1 H2 IH]; intros vs' b' r r' H' E; inversion H'; subst; [now split|].
    rewrite <- !app_assoc in E. edestruct (proj1 enc_unique_all) as [-> E2]; [exact H1|eassumption|exact E|].
    edestruct IH as [-> ->]; [eassumption|exact E2|]. now split. }
  intros vs' H'. now destruct (K vs' b [] [] H' eq_refl).
Qed.

Scheme stands_ind2 := Induction for stands Sort Prop
  with stands_fields_ind2 := Induction for stands_fields Sort Prop.
Combined Scheme stands_mutind from stands_ind2, stands_fields_ind2.
Lemma stands_unique_all tbl :
  (forall w c, stands tbl w c -> forall c', stands tbl w c' -> c = c') /\
  (forall ws fs, stands_fields tbl ws fs -> forall fs', stands_fields tbl ws fs' -> fs = fs').
Proof.
  apply stands_mutind.
  - intros p c' H. now inversion H.
  - intros i w c Hi Hw IH c' H. inversion H; subst; try congruence. f_equal. apply IH. congruence.
  - intros i w c Hi Hw IH c' H. inversion H; subst; try congruence. f_equal. apply IH. congruence.
  - intros i ws fs Hi Hw IH c' H. inversion H; subst; try congruence. f_equal. apply IH. congruence.
  - intros i ws fs Hi Hw IH c' H. inversion H; subst; try congruence. f_equal. apply IH. congruence.
  - intros fs' H. now inversion H.
  - intros id w c ws fs Hw IH Hf IHf fs' H. inversion H; subst. f_equal; [f_equal; now apply IH|now apply IHf].
Qed.
Lemma stands_all_unique tbl ws cs cs' : Forall2 (stands tbl) ws cs -> Forall2 (stands tbl) ws cs' -> cs = cs'.
Proof.
  intros H. revert cs'. induction H as [|w c ws cs Hw Hs IH]; intros cs' H'; inversion H'; subst; [reflexivity|].
  f_equal; [eapply (proj1 (stands_unique_all tbl)); eassumption|now apply IH].
Qed.
Lemma w_header_unique h a r h' a' r' : w_header h a -> w_header h' a' -> a ++ r = a' ++ r' -> h = h' /\ a = a' /\ r = r'.
Proof.
  intros H H' E. assert (read_header (a ++ r) = Some (h, r)) as K by (apply read_header_iff; eauto).
  assert (read_header (a' ++ r') = Some (h', r')) as K' by (apply read_header_iff; eauto).
  rewrite E, K' in K. assert (h = h' /\ r = r') as [-> ->] by (split; congruence). repeat split. now apply app_inv_tail in E.
Qed.
Theorem carries_unique q q' msg cs vs cs' vs' : carries q msg cs vs -> carries q' msg cs' vs' -> cs = cs' /\ vs = vs'.
Proof.
  intros (h & a & b & Hh & Hs & He & _ & ->) (h' & a' & b' & Hh' & Hs' & He' & _ & E).
  destruct (w_header_unique _ _ _ _ _ _ Hh Hh' E) as (<- & _ & <-).
  pose proof (stands_all_unique _ _ _ _ Hs Hs') as <-. split; [reflexivity|]. eapply enc_args_unique; eassumption.
Qed.
