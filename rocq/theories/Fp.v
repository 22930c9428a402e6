(** The field of secp256k1 as a type with Leibniz equality. *)
From Coq Require Import Znumtheory Eqdep_dec Ring Field.
From Verif Require Import Base.
From Verif Require Import Secp Pocklington PrimeCerts.
Local Open Scope Z_scope.

Record F := mkF { fv : Z; fv_ok : (fv mod fp =? fv) = true }.

Lemma fp_pos : 0 < fp.
Proof. reflexivity. Qed.
Lemma fp_prime : prime fp.
Proof. exact secp_p_prime. Qed.

Lemma F_ext a b : fv a = fv b -> a = b.
Proof.
  destruct a as [a Ha], b as [b Hb]. cbn. intros ->. f_equal. apply UIP_dec. apply Bool.bool_dec.
Qed.

Lemma toF_ok z : ((z mod fp) mod fp =? z mod fp) = true.
Proof. rewrite Z.mod_mod by (pose proof fp_pos; lia). apply Z.eqb_refl. Qed.
Definition toF (z : Z) : F := mkF (z mod fp) (toF_ok z).

Definition F0 := toF 0.
Definition F1 := toF 1.
Definition Fadd a b := toF (fv a + fv b).
Definition Fmul a b := toF (fv a * fv b).
Definition Fsub a b := toF (fv a - fv b).
Definition Fopp a := toF (- fv a).
Definition Finv a := toF (powm (fv a) (fp - 2) fp).
Definition Fdiv a b := Fmul a (Finv b).

Lemma fv_mod a : fv a mod fp = fv a.
Proof. destruct a as [a Ha]. cbn. now apply Z.eqb_eq. Qed.
Lemma fv_range a : 0 <= fv a < fp.
Proof. rewrite <- fv_mod. apply Z.mod_pos_bound. exact fp_pos. Qed.
Lemma fv_toF z : fv (toF z) = z mod fp.
Proof. reflexivity. Qed.
Lemma toF_fv a : toF (fv a) = a.
Proof. apply F_ext. apply fv_mod. Qed.

Global Opaque fp.

Lemma toF_eq a b : toF a = toF b <-> a mod fp = b mod fp.
Proof. split; [now intros [= H]|intros H; now apply F_ext]. Qed.

Local Ltac fsolve := pose proof fp_pos; apply F_ext; cbn [fv toF];
  repeat (rewrite ?Zplus_mod_idemp_l, ?Zplus_mod_idemp_r, ?Zmult_mod_idemp_l, ?Zmult_mod_idemp_r,
    ?Zminus_mod_idemp_l, ?Zminus_mod_idemp_r); try (f_equal; ring).

Lemma toF_add a b : toF (a + b) = Fadd (toF a) (toF b).
Proof. unfold Fadd. fsolve. Qed.
Lemma toF_mul a b : toF (a * b) = Fmul (toF a) (toF b).
Proof. unfold Fmul. fsolve. Qed.
Lemma toF_sub a b : toF (a - b) = Fsub (toF a) (toF b).
Proof. unfold Fsub. fsolve. Qed.
Lemma toF_opp a : toF (- a) = Fopp (toF a).
Proof. unfold Fopp. apply F_ext. cbn [fv toF]. rewrite <- (Z.sub_0_l a), <- (Z.sub_0_l (a mod fp)).
  now rewrite Zminus_mod_idemp_r. Qed.
Lemma toF_mod a : toF (a mod fp) = toF a.
Proof. apply toF_eq. apply Z.mod_mod. pose proof fp_pos. lia. Qed.

Lemma F_ring : ring_theory F0 F1 Fadd Fmul Fsub Fopp eq.
Proof.
  assert (forall a, exists z, a = toF z) as Hs by (intros a; exists (fv a); now rewrite toF_fv).
  constructor; unfold F0, F1; intros;
    repeat match goal with a : F |- _ => destruct (Hs a) as [? ->]; clear a end;
    rewrite <- ?toF_mul, <- ?toF_opp, <- ?toF_sub, <- ?toF_add, <- ?toF_mul, <- ?toF_add; f_equal; ring.
Qed.

Lemma fv_0 a : fv a = 0 <-> a = F0.
Proof.
  assert (fv F0 = 0) as E0 by (unfold F0; rewrite fv_toF; apply Z.mod_0_l; pose proof fp_pos; lia).
  split; [intros E; apply F_ext; congruence|intros ->; exact E0].
Qed.

Lemma F1_neq_F0 : F1 <> F0.
Proof. intros H. apply (f_equal fv) in H. vm_compute in H. discriminate. Qed.

Lemma Finv_l a : a <> F0 -> Fmul (Finv a) a = F1.
Proof.
  intros Ha. assert (fv a mod fp <> 0) as Hm by (rewrite fv_mod; now rewrite fv_0).
  pose proof (fermat fp (fv a) fp_prime Hm) as E.
  unfold Finv, F1. rewrite <- (toF_fv a) at 2. rewrite <- toF_mul. apply toF_eq.
  pose proof fp_pos. assert (2 < fp) by reflexivity.
  rewrite powm_spec by lia. rewrite Zmult_mod_idemp_l.
  replace (fv a ^ (fp - 2) * fv a) with (fv a ^ (fp - 1)); [now rewrite E, Z.mod_small by lia|].
  replace (fp - 1) with (Z.succ (fp - 2)) by lia. rewrite Z.pow_succ_r by lia. lia.
Qed.

Lemma F_field : field_theory F0 F1 Fadd Fmul Fsub Fopp Fdiv Finv eq.
Proof.
  constructor.
  - exact F_ring.
  - exact F1_neq_F0.
  - reflexivity.
  - exact Finv_l.
Qed.

Lemma F_morph : ring_morph F0 F1 Fadd Fmul Fsub Fopp eq 0 1 Z.add Z.mul Z.sub Z.opp Z.eqb toF.
Proof.
  constructor; try reflexivity; intros.
  - apply toF_add.
  - apply toF_sub.
  - apply toF_mul.
  - apply toF_opp.
  - apply Z.eqb_eq in H. now subst.
Qed.

Ltac Fcst t := match t with
  | F0 => constr:(0%Z) | F1 => constr:(1%Z)
  | toF ?z => match isZcst z with true => z | _ => constr:(NotConstant) end
  | _ => constr:(NotConstant) end.
Add Field F_field_inst : F_field (morphism F_morph, constants [Fcst]).

Declare Scope F_scope.
Delimit Scope F_scope with F.
Bind Scope F_scope with F.
Infix "+" := Fadd : F_scope.
Infix "*" := Fmul : F_scope.
Infix "-" := Fsub : F_scope.
Infix "/" := Fdiv : F_scope.
Notation "- x" := (Fopp x) : F_scope.

Local Open Scope F_scope.
Lemma Fmul_0 a b : a * b = F0 -> a = F0 \/ b = F0.
Proof.
  intros H. assert ({a = F0} + {a <> F0}) as [|Ha] by
    (destruct (Z.eq_dec (fv a) 0) as [E|E]; [left|right]; rewrite <- fv_0; assumption); [now left|].
  right. replace b with (Finv a * (a * b)); [rewrite H; ring|]. field. exact Ha.
Qed.

Global Instance F_eq_dec : EqDecision F.
Proof.
  intros a b. destruct (Z.eq_dec (fv a) (fv b)) as [E|E]; [left; now apply F_ext|right; congruence].
Defined.
