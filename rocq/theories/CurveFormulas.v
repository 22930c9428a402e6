(** Identities of the complete addition formulas on secp256k1, and their completeness. *)
From Coq Require Import Ring Field Znumtheory Zpow_facts.
From Verif Require Import Base Secp Pocklington PrimeCerts Fp CurveTower.
Local Open Scope F_scope.

Definition pt : Type := option (F * F).
Definition okp (p : pt) : Prop :=
  match p with None => True | Some (x, y) => y * y = x * x * x + toF 7 end.
Definition proj3 : Type := F * F * F.
Definition pj (p : pt) : proj3 := match p with None => (F0, F1, F0) | Some (x, y) => (x, y, F1) end.
Definition to_pt (P : proj3) : pt :=
  let '(x, y, z) := P in if decide (z = F0) then None else Some (x / z, y / z).
Definition scale (l : F) (P : proj3) : proj3 := let '(x, y, z) := P in (l * x, l * y, l * z).
Definition rep (P : proj3) (p : pt) : Prop := exists l, l <> F0 /\ P = scale l (pj p).
Notation "P ⊞ Q" := (rcb opsF P Q) (at level 50, left associativity).
Definition gadd (p q : pt) : pt := to_pt (pj p ⊞ pj q).
Definition gneg (p : pt) : pt := match p with None => None | Some (x, y) => Some (x, - y) end.

(** ** Facts about the field *)

Lemma Fmul_nz a b : a <> F0 -> b <> F0 -> a * b <> F0.
Proof. intros Ha Hb H. now apply Fmul_0 in H as [|]. Qed.
Lemma Fmul_cancel c a b : c <> F0 -> c * a = c * b -> a = b.
Proof. intros Hc E. replace a with (Finv c * (c * a)) by (field; exact Hc). rewrite E. field. exact Hc. Qed.
Lemma Fsub_0 a b : a - b = F0 -> a = b.
Proof. intros H. replace a with (a - b + b) by ring. rewrite H. ring. Qed.
Lemma toF_nz z : (z mod fp =? 0)%Z = false -> toF z <> F0.
Proof. intros H E. apply fv_0 in E. rewrite fv_toF in E. lia. Qed.

Lemma toF_pow a e : (0 <= e)%Z -> forall b, toF a = toF b -> toF (a ^ e) = toF (b ^ e).
Proof.
  intros He b E. apply toF_eq in E. apply toF_eq. pose proof fp_pos.
  rewrite Zpower_mod, E, <- Zpower_mod by lia. reflexivity.
Qed.

(** x^3 + 7 has no root: -7 is not a cube. *)
Lemma no_root x : x * x * x + toF 7 <> F0.
Proof.
  intros E. assert (E7 : x * x * x = toF (-7)).
  { apply Fsub_0. rewrite <- E. ring. }
  destruct (decide (x = F0)) as [->|Hx].
  { apply (f_equal fv) in E7. vm_compute in E7. discriminate. }
  rewrite <- (toF_fv x), <- !toF_mul in E7.
  apply (toF_pow _ ((fp - 1) / 3)) in E7; [|vm_compute; discriminate].
  replace (fv x * fv x * fv x)%Z with (fv x ^ 3)%Z in E7 by ring.
  rewrite <- Z.pow_mul_r in E7; [|lia|vm_compute; discriminate].
  replace (3 * ((fp - 1) / 3))%Z with (fp - 1)%Z in E7 by (vm_compute; reflexivity).
  apply toF_eq in E7. rewrite fermat in E7.
  - exact (cube_cert (eq_sym E7)).
  - exact fp_prime.
  - rewrite fv_mod, fv_0. exact Hx.
Qed.

Lemma okp_y x y : okp (Some (x, y)) -> y <> F0.
Proof. cbn. intros E ->. apply (no_root x). rewrite <- E. ring. Qed.

(** ** The formulas are complete *)

Local Ltac unrcb := cbn [rcb opsF oadd omul oopp ocst oC pj] in *.

Lemma triple_eq (a b c a' b' c' : F) : a = a' -> b = b' -> c = c' -> (a, b, c) = (a', b', c').
Proof. now intros -> -> ->. Qed.

Lemma rcb_scale l m P Q : scale l P ⊞ scale m Q = scale (l * l * (m * m)) (P ⊞ Q).
Proof.
  destruct P as [[x1 y1] z1], Q as [[x2 y2] z2]. cbn [scale]. unrcb. cbn [scale].
  apply triple_eq; ring.
Qed.
Lemma rcb_comm P Q : P ⊞ Q = Q ⊞ P.
Proof.
  destruct P as [[x1 y1] z1], Q as [[x2 y2] z2]. unrcb. apply triple_eq; ring.
Qed.

Definition z3 x1 y1 x2 y2 : F := snd ((x1, y1, F1) ⊞ (x2, y2, F1)).
Definition y3 x1 y1 x2 y2 : F := snd (fst ((x1, y1, F1) ⊞ (x2, y2, F1))).
Definition x3 x1 y1 x2 y2 : F := fst (fst ((x1, y1, F1) ⊞ (x2, y2, F1))).
Local Ltac uncoord := unfold z3, y3, x3; cbn [rcb opsF oadd omul oopp ocst oC pj fst snd].

Section pair.
  Context (x1 y1 x2 y2 : F) (H1 : y1 * y1 = x1 * x1 * x1 + toF 7) (H2 : y2 * y2 = x2 * x2 * x2 + toF 7).

  (* the numerators of x(P - Q) over dx^2 and of y(P - Q) over dx^3 *)
  Let dx := x2 - x1.
  Let s := - y2 - y1.
  Let ex := s * s - (x1 + x2) * (dx * dx).
  Let ny := s * (x1 * (dx * dx) - ex) - y1 * (dx * dx * dx).

  Lemma z3_is_ny : z3 x1 y1 x2 y2 = ny.
  Proof. unfold ny, ex, s, dx. uncoord. curve2 x1 y1 x2 y2. Qed.
  Lemma diff_on_curve : ny * ny = ex * ex * ex + toF 7 * (dx * dx * dx * (dx * dx * dx)).
  Proof. unfold ny, ex, s, dx. curve2 x1 y1 x2 y2. Qed.

  Lemma z3_nz_chord : x1 <> x2 -> z3 x1 y1 x2 y2 <> F0.
  Proof.
    intros Hne E. rewrite z3_is_ny in E. pose proof diff_on_curve as D. rewrite E in D.
    assert (dx <> F0) as Hd.
    { unfold dx. intros Hd. apply Hne. symmetry. now apply Fsub_0. }
    apply (no_root (ex / (dx * dx))).
    replace (ex / (dx * dx) * (ex / (dx * dx)) * (ex / (dx * dx)) + toF 7) with
      ((ex * ex * ex + toF 7 * (dx * dx * dx * (dx * dx * dx))) / (dx * dx * dx * (dx * dx * dx))).
    - rewrite <- D. field. exact Hd.
    - field. exact Hd.
  Qed.

  Lemma rcb_curve :
    y3 x1 y1 x2 y2 * y3 x1 y1 x2 y2 * z3 x1 y1 x2 y2 =
    x3 x1 y1 x2 y2 * x3 x1 y1 x2 y2 * x3 x1 y1 x2 y2 + toF 7 * (z3 x1 y1 x2 y2 * z3 x1 y1 x2 y2 * z3 x1 y1 x2 y2).
  Proof. uncoord. curve2 x1 y1 x2 y2. Qed.

  (* the chord *)
  Lemma chord_x : x3 x1 y1 x2 y2 * (dx * dx) = ((y2 - y1) * (y2 - y1) - (x1 + x2) * (dx * dx)) * z3 x1 y1 x2 y2.
  Proof. unfold dx. uncoord. curve2 x1 y1 x2 y2. Qed.
  Lemma chord_y : y3 x1 y1 x2 y2 * (dx * dx * dx) =
    ((y2 - y1) * (x1 * (dx * dx) - ((y2 - y1) * (y2 - y1) - (x1 + x2) * (dx * dx))) - y1 * (dx * dx * dx)) * z3 x1 y1 x2 y2.
  Proof. unfold dx. uncoord. curve2 x1 y1 x2 y2. Qed.
End pair.

Section double.
  Context (x y : F) (H : y * y = x * x * x + toF 7).
  Lemma z3_double : z3 x y x y = toF 8 * (y * y * y).
  Proof. uncoord. curve2 x y x y. Qed.
  Lemma double_x : x3 x y x y * (toF 4 * (y * y)) = (toF 9 * (x * x * x * x) - toF 8 * x * (y * y)) * z3 x y x y.
  Proof. uncoord. curve2 x y x y. Qed.
  Lemma double_y : y3 x y x y * (toF 8 * (y * y * y)) =
    (toF 3 * (x * x) * (x * (toF 4 * (y * y)) - (toF 9 * (x * x * x * x) - toF 8 * x * (y * y))) - toF 8 * (y * y * y * y)) * z3 x y x y.
  Proof. uncoord. curve2 x y x y. Qed.
  (* the sum of a point and its opposite *)
  Lemma opp_y : y3 x y x (- y) * y3 x y x (- y) =
    (toF 9 * (x * x * x * x) - toF 8 * x * (y * y)) * (toF 9 * (x * x * x * x) - toF 8 * x * (y * y)) *
    (toF 9 * (x * x * x * x) - toF 8 * x * (y * y)) + toF 448 * (y * y * y * (y * y * y)).
  Proof. uncoord. curve2 x y x y. Qed.
  Lemma opp_xz : x3 x y x (- y) = F0 /\ z3 x y x (- y) = F0.
  Proof. uncoord. split; curve2 x y x y. Qed.
  Lemma opp_y_nz : y3 x y x (- y) <> F0.
  Proof.
    intros E. pose proof opp_y as D. rewrite E in D. pose proof (okp_y x y H) as Hy.
    assert (toF 2 <> F0) as H2 by (apply toF_nz; vm_compute; reflexivity).
    set (ex := toF 9 * (x * x * x * x) - toF 8 * x * (y * y)) in *.
    assert (toF 4 * (y * y) <> F0) as H4.
    { apply Fmul_nz; [apply toF_nz; vm_compute; reflexivity|now apply Fmul_nz]. }
    apply (no_root (ex / (toF 4 * (y * y)))).
    replace (ex / (toF 4 * (y * y)) * (ex / (toF 4 * (y * y))) * (ex / (toF 4 * (y * y))) + toF 7) with
      ((ex * ex * ex + toF 448 * (y * y * y * (y * y * y))) /
       (toF 4 * (y * y) * (toF 4 * (y * y)) * (toF 4 * (y * y)))).
    - rewrite <- D. field. repeat split; try assumption. apply toF_nz; vm_compute; reflexivity.
    - field. repeat split; try assumption. apply toF_nz; vm_compute; reflexivity.
  Qed.
End double.

