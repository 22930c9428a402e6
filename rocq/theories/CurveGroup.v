(** The points of secp256k1 over the type F form a commutative group under the complete
    addition formulas, and those formulas compute the chord-and-tangent sum. *)
From Coq Require Import Ring Field.
From Verif Require Import Base Secp Fp CurveTower CurveFormulas.
Local Open Scope F_scope.

Local Ltac unrcb := cbn [rcb opsF oadd omul oopp ocst oC pj] in *.

(** ** The group *)

Lemma rcb_affine x1 y1 x2 y2 :
  (x1, y1, F1) ⊞ (x2, y2, F1) = (x3 x1 y1 x2 y2, y3 x1 y1 x2 y2, z3 x1 y1 x2 y2).
Proof. unfold x3, y3, z3. now destruct (_ ⊞ _) as [[a b] c]. Qed.

Lemma same_x x y1 y2 : okp (Some (x, y1)) -> okp (Some (x, y2)) -> y2 = y1 \/ y2 = - y1.
Proof.
  cbn. intros E1 E2. assert ((y2 - y1) * (y2 + y1) = F0) as E.
  { replace ((y2 - y1) * (y2 + y1)) with (y2 * y2 - y1 * y1) by ring. rewrite E1, E2. ring. }
  apply Fmul_0 in E as [E|E].
  - left. now apply Fsub_0.
  - right. apply Fsub_0. rewrite <- E. ring.
Qed.

Lemma scale_eq l a b c : l <> F0 -> (a, b, c) = (l * (a / l), l * (b / l), l * (c / l)).
Proof. intros Hl. apply triple_eq; field; exact Hl. Qed.

Lemma to_pt_rep P p : rep P p -> to_pt P = p.
Proof.
  intros (l & Hl & ->). destruct p as [[x y]|]; cbn [pj scale to_pt].
  - rewrite decide_False.
    + f_equal. f_equal; field; exact Hl.
    + intros E. apply Hl. rewrite <- E. ring.
  - rewrite decide_True; [reflexivity|ring].
Qed.

Lemma rep_pj p : rep (pj p) p.
Proof.
  exists F1. split; [apply F1_neq_F0|]. destruct p as [[x y]|]; cbn [pj scale]; apply triple_eq; ring.
Qed.

Lemma add_rep p q : okp p -> okp q -> rep (pj p ⊞ pj q) (gadd p q) /\ okp (gadd p q).
Proof.
  intros Hp Hq.
  assert (exists r, rep (pj p ⊞ pj q) r /\ okp r) as (r & Hr & Ho).
  { destruct p as [[x1 y1]|], q as [[x2 y2]|].
    - cbn [pj]. rewrite rcb_affine. destruct (decide (z3 x1 y1 x2 y2 = F0)) as [Ez|Ez].
      + destruct (decide (x1 = x2)) as [<-|Hne].
        2:{ exfalso. revert Ez. apply z3_nz_chord; assumption. }
        destruct (same_x x1 y1 y2 Hp Hq) as [->| ->].
        * exfalso. rewrite z3_double in Ez by exact Hp. pose proof (okp_y _ _ Hp) as Hy. revert Ez.
          apply Fmul_nz; [apply toF_nz; vm_compute; reflexivity|]. now repeat apply Fmul_nz.
        * exists None. split; [|exact I]. destruct (opp_xz x1 y1 Hp) as [Ex _].
          exists (y3 x1 y1 x1 (- y1)). split; [now apply opp_y_nz|]. cbn [pj scale].
          rewrite Ex, Ez. apply triple_eq; ring.
      + exists (Some (x3 x1 y1 x2 y2 / z3 x1 y1 x2 y2, y3 x1 y1 x2 y2 / z3 x1 y1 x2 y2)). split.
        * exists (z3 x1 y1 x2 y2). split; [assumption|]. cbn [pj scale]. apply triple_eq; field; assumption.
        * cbn [okp]. pose proof (rcb_curve x1 y1 x2 y2 Hp Hq) as Ec.
          apply (Fmul_cancel (z3 x1 y1 x2 y2 * z3 x1 y1 x2 y2 * z3 x1 y1 x2 y2)); [now repeat apply Fmul_nz|].
          transitivity (y3 x1 y1 x2 y2 * y3 x1 y1 x2 y2 * z3 x1 y1 x2 y2); [field; assumption|].
          rewrite Ec. field. assumption.
    - exists (Some (x1, y1)). split; [|assumption]. exists y1. split; [now apply okp_y in Hp|].
      unrcb. cbn [scale]. apply triple_eq; ring.
    - exists (Some (x2, y2)). split; [|assumption]. exists y2. split; [now apply okp_y in Hq|].
      unrcb. cbn [scale]. apply triple_eq; ring.
    - exists None. split; [|exact I]. exists F1. split; [apply F1_neq_F0|].
      unrcb. cbn [scale]. apply triple_eq; ring. }
  unfold gadd. rewrite (to_pt_rep _ _ Hr). split; assumption.
Qed.

Lemma rcb_rep P Q p q : okp p -> okp q -> rep P p -> rep Q q -> rep (P ⊞ Q) (gadd p q).
Proof.
  intros Hp Hq (l & Hl & ->) (m & Hm & ->). rewrite rcb_scale.
  destruct (add_rep p q Hp Hq) as [(k & Hk & ->) _].
  exists (l * l * (m * m) * k). split; [now repeat apply Fmul_nz|].
  destruct (pj (gadd p q)) as [[a b] c]. cbn [scale]. apply triple_eq; ring.
Qed.

Lemma okp_gadd p q : okp p -> okp q -> okp (gadd p q).
Proof. intros. now apply add_rep. Qed.
Lemma okp_gneg p : okp p -> okp (gneg p).
Proof. destruct p as [[x y]|]; cbn; [|auto]. intros <-. ring. Qed.

Lemma gadd_comm p q : gadd p q = gadd q p.
Proof. unfold gadd. now rewrite rcb_comm. Qed.
Lemma gadd_None_l q : okp q -> gadd None q = q.
Proof.
  intros Hq. apply to_pt_rep. destruct q as [[x y]|].
  - exists y. split; [now apply okp_y in Hq|]. unrcb. cbn [scale]. apply triple_eq; ring.
  - exists F1. split; [apply F1_neq_F0|]. unrcb. cbn [scale]. apply triple_eq; ring.
Qed.
Lemma gadd_None_r q : okp q -> gadd q None = q.
Proof. intros Hq. rewrite gadd_comm. now apply gadd_None_l. Qed.
Lemma gadd_gneg p : okp p -> gadd p (gneg p) = None.
Proof.
  intros Hp. destruct p as [[x y]|]; cbn [gneg]; [|now apply gadd_None_l].
  unfold gadd. cbn [pj]. rewrite rcb_affine. cbn [to_pt]. rewrite decide_True; [reflexivity|].
  now apply opp_xz.
Qed.

(** ** Chord and tangent *)

Lemma gadd_chord l x1 y1 x2 y2 : okp (Some (x1, y1)) -> okp (Some (x2, y2)) -> x1 <> x2 ->
  l * (x2 - x1) = y2 - y1 ->
  gadd (Some (x1, y1)) (Some (x2, y2)) =
  Some (l * l - x1 - x2, l * (x1 - (l * l - x1 - x2)) - y1).
Proof.
  intros H1 H2 Hne El. apply to_pt_rep. pose proof (z3_nz_chord x1 y1 x2 y2 H1 H2 Hne) as Hz.
  assert (x2 - x1 <> F0) as Hd by (intros E; apply Hne; symmetry; now apply Fsub_0).
  exists (z3 x1 y1 x2 y2). split; [assumption|]. cbn [pj]. rewrite rcb_affine. cbn [scale].
  pose proof (chord_x x1 y1 x2 y2 H1 H2) as Ex. pose proof (chord_y x1 y1 x2 y2 H1 H2) as Ey.
  rewrite <- !El in Ex, Ey. apply triple_eq; [| |ring].
  - apply (Fmul_cancel ((x2 - x1) * (x2 - x1))); [now apply Fmul_nz|].
    etransitivity; [|etransitivity; [exact Ex|]]; ring.
  - apply (Fmul_cancel ((x2 - x1) * (x2 - x1) * (x2 - x1))); [now repeat apply Fmul_nz|].
    etransitivity; [|etransitivity; [exact Ey|]]; ring.
Qed.

Lemma gadd_tangent l x y : okp (Some (x, y)) -> l * (toF 2 * y) = toF 3 * x * x ->
  gadd (Some (x, y)) (Some (x, y)) = Some (l * l - x - x, l * (x - (l * l - x - x)) - y).
Proof.
  intros H El. apply to_pt_rep. pose proof (okp_y x y H) as Hy.
  assert (toF 4 <> F0) as H4 by (apply toF_nz; vm_compute; reflexivity).
  assert (toF 8 <> F0) as H8 by (apply toF_nz; vm_compute; reflexivity).
  exists (z3 x y x y). split.
  { rewrite z3_double by exact H. now repeat apply Fmul_nz. }
  cbn [pj]. rewrite rcb_affine. cbn [scale].
  pose proof (double_x x y H) as Ex. pose proof (double_y x y H) as Ey.
  assert (toF 9 * (x * x * x * x) = toF 4 * (l * l) * (y * y)) as E9.
  { transitivity ((toF 3 * x * x) * (toF 3 * x * x)); [ring|]. rewrite <- El. ring. }
  apply triple_eq; [| |ring].
  - apply (Fmul_cancel (toF 4 * (y * y))); [now repeat apply Fmul_nz|].
    transitivity (x3 x y x y * (toF 4 * (y * y))); [ring|]. rewrite Ex, E9. ring.
  - apply (Fmul_cancel (toF 8 * (y * y * y))); [now repeat apply Fmul_nz|].
    transitivity (y3 x y x y * (toF 8 * (y * y * y))); [ring|]. rewrite Ey, E9.
    replace (toF 3 * (x * x)) with (l * (toF 2 * y)) by (rewrite El; ring). ring.
Qed.

(** ** Slopes *)

(** The slope of the line through two points, the tangent when they coincide. *)
Definition slope (x1 y1 x2 y2 l : F) : Prop :=
  l * (x1 - x2) = y1 - y2 /\ l * (y1 + y2) = x1 * x1 + x1 * x2 + x2 * x2.

Lemma slope_sym x1 y1 x2 y2 l : slope x1 y1 x2 y2 l -> slope x2 y2 x1 y1 l.
Proof.
  intros [H1 H2]. split.
  - replace (l * (x2 - x1)) with (- (l * (x1 - x2))) by ring. rewrite H1. ring.
  - replace (l * (y2 + y1)) with (l * (y1 + y2)) by ring. rewrite H2. ring.
Qed.

Lemma toF2_nz : toF 2 <> F0.
Proof. apply toF_nz. reflexivity. Qed.
Lemma Fdouble a : a + a = toF 2 * a.
Proof. ring. Qed.

Lemma slope_exists x1 y1 x2 y2 : okp (Some (x1, y1)) -> okp (Some (x2, y2)) ->
  (exists l, slope x1 y1 x2 y2 l) \/ (x1 = x2 /\ y2 = - y1).
Proof.
  intros H1 H2. destruct (decide (x1 = x2)) as [<-|Hne].
  - destruct (same_x x1 y1 y2 H1 H2) as [->| ->]; [left|right; auto].
    pose proof (okp_y _ _ H1) as Hy. pose proof toF2_nz as H2'.
    exists (toF 3 * x1 * x1 / (toF 2 * y1)). split; [ring|]. rewrite Fdouble. field. auto.
  - left. assert (x1 - x2 <> F0) as Hd by (intros E; apply Hne; now apply Fsub_0).
    exists ((y1 - y2) / (x1 - x2)). split; [field; exact Hd|].
    apply (Fmul_cancel (x1 - x2)); [exact Hd|].
    transitivity (y1 * y1 - y2 * y2); [field; exact Hd|]. cbn [okp] in *. rewrite H1, H2. ring.
Qed.

Lemma slope_not_opp x1 y1 l : okp (Some (x1, y1)) -> ~ slope x1 y1 x1 (- y1) l.
Proof.
  intros H [E _]. apply (okp_y _ _ H). apply (Fmul_cancel (toF 2)); [exact toF2_nz|].
  transitivity (y1 - - y1); [ring|]. rewrite <- E. ring.
Qed.

Lemma slope_unique x1 y1 x2 y2 l l' : okp (Some (x1, y1)) -> okp (Some (x2, y2)) ->
  slope x1 y1 x2 y2 l -> slope x1 y1 x2 y2 l' -> l = l'.
Proof.
  intros H1 H2 [A B] [A' B']. destruct (decide (x1 = x2)) as [<-|Hne].
  - destruct (same_x x1 y1 y2 H1 H2) as [->| ->].
    + apply (Fmul_cancel (y1 + y1)).
      * rewrite Fdouble. apply Fmul_nz; [exact toF2_nz|exact (okp_y _ _ H1)].
      * transitivity (l * (y1 + y1)); [ring|]. rewrite B, <- B'. ring.
    + destruct (slope_not_opp x1 y1 l H1). now split.
  - apply (Fmul_cancel (x1 - x2)); [intros E; apply Hne; now apply Fsub_0|].
    transitivity (l * (x1 - x2)); [ring|]. rewrite A, <- A'. ring.
Qed.

Lemma gadd_slope x1 y1 x2 y2 l : okp (Some (x1, y1)) -> okp (Some (x2, y2)) -> slope x1 y1 x2 y2 l ->
  gadd (Some (x1, y1)) (Some (x2, y2)) = Some (l * l - x1 - x2, l * (x1 - (l * l - x1 - x2)) - y1).
Proof.
  intros H1 H2 [A B]. destruct (decide (x1 = x2)) as [<-|Hne].
  - destruct (same_x x1 y1 y2 H1 H2) as [->| ->].
    + apply gadd_tangent; [exact H1|]. rewrite <- Fdouble, B. ring.
    + destruct (slope_not_opp x1 y1 l H1). now split.
  - apply gadd_chord; try assumption.
    transitivity (- (l * (x1 - x2))); [ring|]. rewrite A. ring.
Qed.

(** The three points of a line: if P + Q = R then Q + (-R) = -P, with the same slope. *)
Lemma slope_line x1 y1 x2 y2 l : okp (Some (x1, y1)) -> okp (Some (x2, y2)) -> slope x1 y1 x2 y2 l ->
  slope x2 y2 (l * l - x1 - x2) (- (l * (x1 - (l * l - x1 - x2)) - y1)) l.
Proof.
  intros H1 H2 [A B]. assert (y2 = y1 - l * (x1 - x2)) as -> by (rewrite A; ring).
  split; [ring|].
  transitivity (l * (y1 + (y1 - l * (x1 - x2))) - l * l * (x1 - (l * l - x1 - x2))); [ring|]. rewrite B. ring.
Qed.

Lemma gadd_line x1 y1 x2 y2 r : okp (Some (x1, y1)) -> okp (Some (x2, y2)) ->
  gadd (Some (x1, y1)) (Some (x2, y2)) = Some r -> gadd (Some (x2, y2)) (gneg (Some r)) = gneg (Some (x1, y1)).
Proof.
  intros H1 H2 E. destruct (slope_exists x1 y1 x2 y2 H1 H2) as [[l Hl]|[<- ->]].
  - pose proof (okp_gadd _ _ H1 H2) as H3. rewrite (gadd_slope _ _ _ _ l H1 H2 Hl) in E, H3.
    apply (inj Some) in E. subst r. cbn [gneg].
    rewrite (gadd_slope _ _ _ _ l H2); [|exact (okp_gneg _ H3)|apply (slope_line _ _ _ _ l H1 H2 Hl)].
    destruct Hl as [A _]. f_equal. f_equal; [ring|].
    assert (y2 = y1 - l * (x1 - x2)) as -> by (rewrite A; ring). ring.
  - pose proof (gadd_gneg _ H1) as E'. cbn [gneg] in E'. rewrite E' in E. discriminate.
Qed.

Lemma gneg_gneg p : gneg (gneg p) = p.
Proof. destruct p as [[x y]|]; cbn [gneg]; [|reflexivity]. f_equal. f_equal. ring. Qed.

Lemma gneg_gadd p q : okp p -> okp q -> gneg (gadd p q) = gadd (gneg p) (gneg q).
Proof.
  intros Hp Hq. destruct p as [[x1 y1]|].
  2:{ cbn [gneg]. rewrite !gadd_None_l; auto using okp_gneg. }
  destruct q as [[x2 y2]|].
  2:{ cbn [gneg]. rewrite !gadd_None_r; auto. exact (okp_gneg _ Hp). }
  destruct (slope_exists x1 y1 x2 y2 Hp Hq) as [[l Hl]|[<- ->]].
  - rewrite (gadd_slope _ _ _ _ l Hp Hq Hl). cbn [gneg].
    rewrite (gadd_slope _ _ _ _ (- l) (okp_gneg _ Hp) (okp_gneg _ Hq)).
    + f_equal. f_equal; ring.
    + destruct Hl as [A B]. split.
      * transitivity (- (l * (x1 - x2))); [ring|]. rewrite A. ring.
      * transitivity (l * (y1 + y2)); [ring|]. rewrite B. ring.
  - rewrite (gadd_gneg _ Hp : gadd (Some (x1, y1)) (Some (x1, - y1)) = None).
    rewrite (gadd_gneg _ (okp_gneg _ Hp) : gadd (gneg (Some (x1, y1))) (gneg (Some (x1, - y1))) = None).
    reflexivity.
Qed.

Lemma gadd_None_iff p q : okp p -> okp q -> gadd p q = None -> q = gneg p.
Proof.
  intros Hp Hq E. destruct p as [[x1 y1]|].
  2:{ rewrite gadd_None_l in E by assumption. now subst. }
  destruct q as [[x2 y2]|].
  2:{ rewrite gadd_None_r in E by assumption. discriminate. }
  destruct (slope_exists x1 y1 x2 y2 Hp Hq) as [[l Hl]|[<- ->]]; [|reflexivity].
  rewrite (gadd_slope _ _ _ _ l Hp Hq Hl) in E. discriminate.
Qed.

(** -p + (p + q) = q *)
Lemma gadd_undo p q : okp p -> okp q -> gadd (gneg p) (gadd p q) = q.
Proof.
  intros Hp Hq. destruct p as [[x1 y1]|].
  2:{ cbn [gneg]. rewrite !gadd_None_l; auto. now rewrite gadd_None_l. }
  destruct q as [[x2 y2]|].
  2:{ rewrite (gadd_None_r (Some (x1, y1))) by assumption. rewrite gadd_comm. now apply gadd_gneg. }
  destruct (gadd (Some (x1, y1)) (Some (x2, y2))) as [r|] eqn:E.
  - pose proof (okp_gadd _ _ Hp Hq) as Hr. rewrite E in Hr. rewrite gadd_comm in E.
    apply (gadd_line _ _ _ _ _ Hq Hp) in E. apply (f_equal gneg) in E.
    rewrite gneg_gneg, gneg_gadd, gneg_gneg in E; [exact E|exact Hp|now apply okp_gneg].
  - apply (gadd_None_iff _ _ Hp Hq) in E. rewrite E. apply gadd_None_r. now apply okp_gneg.
Qed.

(** ** Associativity *)

Section assoc.
  (* the middle point (X, y), the two others by their distance from it and the slopes *)
  Context (X y a c l k : F).
  Let s := l + k.
  Let u := l * l - toF 3 * X - a - c.
  Let w := k * k - toF 3 * X - a - c.
  Context (E1 : toF 3 * X * X = a * (u + c) + toF 2 * l * y)
    (E2 : toF 3 * X * X = c * (w + a) + toF 2 * k * y).

  Lemma assoc_rel : a * u - c * w = - (toF 2 * (l - k) * y).
  Proof.
    transitivity ((a * (u + c) + toF 2 * l * y) - (c * (w + a) + toF 2 * k * y) - toF 2 * (l - k) * y); [ring|].
    rewrite <- E1, <- E2. ring.
  Qed.
  Lemma assoc_uw : u - w = (l - k) * s.
  Proof. unfold u, w, s. ring. Qed.
  (* M + slope relations *)
  Lemma assoc_MJ M J : M * u = - (toF 2 * y + s * c) -> J * w = - (toF 2 * y + s * a) -> u <> F0 -> w <> F0 -> M = J.
  Proof.
    intros HM HJ Hu Hw. apply (Fmul_cancel (u * w)); [now apply Fmul_nz|].
    transitivity (w * (M * u)); [ring|]. rewrite HM. transitivity (u * (J * w)); [|ring]. rewrite HJ.
    apply Fsub_0. transitivity (- (toF 2 * y) * (w - u) + s * (a * u - c * w)); [ring|].
    rewrite assoc_rel. transitivity (toF 2 * y * ((u - w) - (l - k) * s)); [ring|]. rewrite assoc_uw. ring.
  Qed.
  Lemma assoc_M M : M * u = - (toF 2 * y + s * c) -> u <> F0 -> (l - k) * M = a - c.
  Proof.
    intros HM Hu. apply (Fmul_cancel u); [exact Hu|].
    transitivity ((l - k) * (M * u)); [ring|]. rewrite HM.
    transitivity (- (toF 2 * (l - k) * y) - c * ((l - k) * s)); [ring|]. rewrite <- assoc_rel, <- assoc_uw. ring.
  Qed.
End assoc.

(** Both sums, when the third slopes m and j fit. *)
Section fits.
  Context (X y a c l k m j : F).
  Notation x1 := (X + a). Notation y1 := (y + l * a).
  Notation x3 := (X + c). Notation y3 := (y + k * c).
  Notation x4 := (l * l - x1 - X). Notation y4 := (l * (x1 - x4) - y1).
  Notation x5 := (k * k - X - x3). Notation y5 := (k * (X - x5) - y).
  Notation x6 := (m * m - x4 - x3). Notation x7 := (j * j - x1 - x5).

  Lemma fits_sums : m + l = j + k -> (l - k) * (m + l) = a - c ->
    m * (x4 - x3) = y4 - y3 -> x6 = x7 /\ m * (x4 - x6) - y4 = j * (x1 - x7) - y1.
  Proof.
    intros Em Ea Es. replace (m * (x4 - x6) - y4) with (m * (x4 - x3) + m * (x3 - x6) - y4) by ring. rewrite Es. clear Es. assert (j = m + l - k) as -> by (rewrite Em; ring).
    assert (a = (l - k) * (m + l) + c) as -> by (rewrite Ea; ring). split; ring.
  Qed.

  Context (H1 : okp (Some (x1, y1))) (H2 : okp (Some (X, y))) (H3 : okp (Some (x3, y3)))
    (Hl : slope x1 y1 X y l) (Hk : slope X y x3 y3 k)
    (Hm : slope x4 y4 x3 y3 m) (Hj : slope x1 y1 x5 y5 j).
  Notation u := (l * l - toF 3 * X - a - c).
  Notation w := (k * k - toF 3 * X - a - c).

  Lemma fits_E1 : toF 3 * X * X = a * (u + c) + toF 2 * l * y.
  Proof.
    destruct Hl as [_ B]. apply Fsub_0.
    transitivity (x1 * x1 + x1 * X + X * X - l * (y1 + y)); [ring|]. rewrite B. ring.
  Qed.
  Lemma fits_E2 : toF 3 * X * X = c * (w + a) + toF 2 * k * y.
  Proof.
    destruct Hk as [_ B]. apply Fsub_0.
    transitivity (X * X + X * x3 + x3 * x3 - k * (y + y3)); [ring|]. rewrite B. ring.
  Qed.
  Lemma fits_M : (m + l) * u = - (toF 2 * y + (l + k) * c).
  Proof.
    destruct Hm as [A _]. transitivity (m * (x4 - x3) + l * u); [ring|]. rewrite A. ring.
  Qed.
  Lemma fits_J : (j + k) * w = - (toF 2 * y + (l + k) * a).
  Proof.
    destruct Hj as [A _]. transitivity (- (j * (x1 - x5)) + k * w); [ring|]. rewrite A. ring.
  Qed.
  Lemma fits_Ja : w <> F0 -> (l - k) * (j + k) = a - c.
  Proof.
    intros Hw. apply (Fmul_cancel w); [exact Hw|].
    transitivity ((l - k) * ((j + k) * w)); [ring|]. rewrite fits_J.
    transitivity (- (toF 2 * (l - k) * y) - a * ((l - k) * (l + k))); [ring|].
    rewrite <- (assoc_rel X y a c l k fits_E1 fits_E2), <- (assoc_uw X a c l k). ring.
  Qed.
  Lemma fits_MJ : w <> F0 -> okp (Some (x4, y4)) -> m + l = j + k.
  Proof.
    intros Hw H4. destruct (decide (u = F0)) as [Hu|Hu].
    - assert (m = j + k - l) as ->; [|ring].
      apply (slope_unique x4 y4 x3 y3); try assumption.
      assert (x4 = x3) as Ex by (apply Fsub_0; rewrite <- Hu; ring).
      assert (y4 = y3) as Ey.
      { apply Fsub_0. destruct Hm as [A _]. rewrite <- A, Ex. ring. }
      assert (toF 2 * y = - ((l + k) * c)) as Y.
      { apply Fsub_0. transitivity (- ((m + l) * u)); [rewrite fits_M; ring|]. rewrite Hu. ring. }
      pose proof (fits_Ja Hw) as Ja. pose proof fits_E1 as E1. rewrite Ey, Ex. split; [ring|].
      assert (a = l * l - toF 3 * X - c) as Ea by (apply Fsub_0; transitivity (- u); [ring|rewrite Hu; ring]).
      apply Fsub_0.
      transitivity (((j + k) - l) * (toF 2 * y + toF 2 * k * c) - toF 3 * X * X - toF 6 * X * c - toF 3 * c * c); [ring|].
      rewrite E1, Hu.
      transitivity (((j + k) - l) * (toF 2 * y + toF 2 * k * c) - a * c - l * (toF 2 * y) - toF 6 * X * c - toF 3 * c * c); [ring|].
      rewrite Y.
      transitivity (- c * ((l - k) * (j + k)) + l * c * (l - k) - a * c + l * (l + k) * c - toF 6 * X * c - toF 3 * c * c); [ring|].
      rewrite Ja, Ea. ring.
    - apply (assoc_MJ X y a c l k fits_E1 fits_E2); [exact fits_M|exact fits_J|exact Hu|exact Hw].
  Qed.
End fits.

Lemma assoc_some x1 y1 x2 y2 x3 y3 l k m j x4 y4 x5 y5 :
  okp (Some (x1, y1)) -> okp (Some (x2, y2)) -> okp (Some (x3, y3)) ->
  slope x1 y1 x2 y2 l -> slope x2 y2 x3 y3 k ->
  gadd (Some (x1, y1)) (Some (x2, y2)) = Some (x4, y4) -> gadd (Some (x2, y2)) (Some (x3, y3)) = Some (x5, y5) ->
  slope x4 y4 x3 y3 m -> slope x1 y1 x5 y5 j -> x1 <> x5 ->
  gadd (Some (x4, y4)) (Some (x3, y3)) = gadd (Some (x1, y1)) (Some (x5, y5)).
Proof.
  intros H1 H2 H3 Hl Hk G4 G5 Hm Hj Hw.
  pose proof (okp_gadd _ _ H1 H2) as H4. rewrite G4 in H4. pose proof (okp_gadd _ _ H2 H3) as H5. rewrite G5 in H5.
  rewrite (gadd_slope _ _ _ _ m H4 H3 Hm), (gadd_slope _ _ _ _ j H1 H5 Hj).
  rewrite (gadd_slope _ _ _ _ l H1 H2 Hl) in G4. rewrite (gadd_slope _ _ _ _ k H2 H3 Hk) in G5.
  apply (inj Some) in G4, G5. injection G4 as <- <-. injection G5 as <- <-.
  assert (exists a, x1 = x2 + a) as [a ->] by (exists (x1 - x2); ring).
  assert (exists c, x3 = x2 + c) as [c ->] by (exists (x3 - x2); ring).
  assert (y1 = y2 + l * a) as ->.
  { destruct Hl as [A _]. apply Fsub_0. transitivity ((y1 - y2) - l * a); [ring|]. rewrite <- A. ring. }
  assert (y3 = y2 + k * c) as ->.
  { destruct Hk as [A _]. apply Fsub_0. transitivity (- (y2 - y3) - k * c); [ring|]. rewrite <- A. ring. }
  assert (k * k - toF 3 * x2 - a - c <> F0) as Hw'.
  { intros E. apply Hw. apply Fsub_0. transitivity (- (k * k - toF 3 * x2 - a - c)); [ring|]. rewrite E. ring. }
  pose proof (fits_MJ x2 y2 a c l k m j H3 Hl Hk Hm Hj Hw' H4) as E.
  destruct (fits_sums x2 y2 a c l k m j E) as [Ex Ey].
  - rewrite E. apply (fits_Ja x2 y2 a c l k j Hl Hk Hj Hw').
  - apply Hm.
  - rewrite Ey. now rewrite Ex.
Qed.

Lemma gadd_assoc p q r : okp p -> okp q -> okp r -> gadd (gadd p q) r = gadd p (gadd q r).
Proof.
  intros Hp Hq Hr. destruct p as [[x1 y1]|].
  2:{ rewrite !gadd_None_l; auto using okp_gadd. }
  destruct q as [[x2 y2]|].
  2:{ rewrite gadd_None_r, gadd_None_l; auto. }
  destruct r as [[x3 y3]|].
  2:{ rewrite !gadd_None_r; auto using okp_gadd. }
  destruct (slope_exists _ _ _ _ Hp Hq) as [[l Hl]|[<- ->]].
  2:{ (* q = - p *)
    pose proof (gadd_gneg _ Hp) as E. cbn [gneg] in E. rewrite E, gadd_None_l by assumption.
    pose proof (gadd_undo _ (Some (x3, y3)) Hq Hr) as E'. cbn [gneg] in E'.
    replace (- - y1) with y1 in E' by ring. now rewrite E'. }
  destruct (slope_exists _ _ _ _ Hq Hr) as [[k Hk]|[<- ->]].
  2:{ (* r = - q *)
    pose proof (gadd_gneg _ Hq) as E. cbn [gneg] in E. rewrite E, gadd_None_r by assumption.
    rewrite (gadd_comm (gadd _ _)), (gadd_comm (Some (x1, y1))). exact (gadd_undo _ _ Hq Hp). }
  pose proof (okp_gadd _ _ Hp Hq) as H4. pose proof (okp_gadd _ _ Hq Hr) as H5.
  destruct (gadd (Some (x1, y1)) (Some (x2, y2))) as [[x4 y4]|] eqn:G4.
  2:{ rewrite (gadd_slope _ _ _ _ l Hp Hq Hl) in G4. discriminate. }
  destruct (gadd (Some (x2, y2)) (Some (x3, y3))) as [[x5 y5]|] eqn:G5.
  2:{ rewrite (gadd_slope _ _ _ _ k Hq Hr Hk) in G5. discriminate. }
  destruct (slope_exists _ _ _ _ H4 Hr) as [[m Hm]|[<- ->]].
  2:{ (* (p + q) + r = 0 *)
    rewrite (gadd_gneg _ H4 : gadd (Some (x4, y4)) (Some (x4, - y4)) = None).
    apply (gadd_line _ _ _ _ _ Hp Hq) in G4. cbn [gneg] in G4. rewrite G4 in G5.
    apply (inj Some) in G5. injection G5 as <- <-. symmetry. exact (gadd_gneg _ Hp). }
  destruct (slope_exists _ _ _ _ Hp H5) as [[j Hj]|[<- ->]].
  2:{ (* p + (q + r) = 0 *)
    rewrite (gadd_gneg _ Hp : gadd (Some (x1, y1)) (Some (x1, - y1)) = None).
    rewrite gadd_comm in G5. apply (gadd_line _ _ _ _ _ Hr Hq) in G5. cbn [gneg] in G5.
    replace (- - y1) with y1 in G5 by ring. rewrite gadd_comm, G4 in G5.
    apply (inj Some) in G5. injection G5 as -> ->.
    rewrite gadd_comm. exact (gadd_gneg _ Hr). }
  destruct (decide (x1 = x5)) as [<-|Hw]; [|exact (assoc_some _ _ _ _ _ _ _ _ _ _ _ _ _ _ Hp Hq Hr Hl Hk G4 G5 Hm Hj Hw)].
  destruct (decide (x3 = x4)) as [<-|Hu].
  2:{ rewrite (gadd_comm (Some (x4, y4))), (gadd_comm (Some (x1, y1))). symmetry.
    rewrite gadd_comm in G4, G5.
    exact (assoc_some _ _ _ _ _ _ _ _ _ _ _ _ _ _ Hr Hq Hp (slope_sym _ _ _ _ _ Hk) (slope_sym _ _ _ _ _ Hl) G5 G4
      (slope_sym _ _ _ _ _ Hj) (slope_sym _ _ _ _ _ Hm) Hu). }
  (* p + q = r and q + r = p *)
  assert (y4 = y3) as ->.
  { apply Fsub_0. destruct Hm as [A _]. rewrite <- A. ring. }
  assert (y5 = y1) as ->.
  { symmetry. apply Fsub_0. destruct Hj as [A _]. rewrite <- A. ring. }
  rewrite (gadd_slope _ _ _ _ l Hp Hq Hl) in G4. rewrite (gadd_slope _ _ _ _ k Hq Hr Hk) in G5.
  apply (inj Some) in G4, G5. injection G4 as G4x G4y. injection G5 as G5x G5y.
  assert (y2 * toF 2 = - ((l + k) * (x3 - x2))) as Y3.
  { destruct Hl as [A _]. destruct Hk as [B _]. apply Fsub_0.
    transitivity ((y2 - y3 - k * (x2 - x3)) - (l * (x1 - (l * l - x1 - x2)) - y1 - y3)
      + (l * (x1 - x2) - (y1 - y2)) + l * (x3 - (l * l - x1 - x2))); [ring|].
    rewrite G4y, G4x, A, B. ring. }
  assert (y2 * toF 2 = - ((l + k) * (x1 - x2))) as Y1.
  { destruct Hl as [A _]. destruct Hk as [B _]. apply Fsub_0.
    transitivity (- (k * (x2 - (k * k - x2 - x3)) - y2 - y1) - (y1 - y2 - l * (x1 - x2))
      + k * (x1 - (k * k - x2 - x3))); [ring|].
    rewrite G5y, G5x, A. ring. }
  assert (l + k <> F0) as Hs.
  { intros E. rewrite E in Y1. apply (okp_y _ _ Hq). apply (Fmul_cancel (toF 2)); [exact toF2_nz|].
    transitivity (y2 * toF 2); [ring|]. rewrite Y1. ring. }
  assert (x1 = x3) as <-.
  { apply Fsub_0. apply (Fmul_cancel (l + k)); [exact Hs|].
    transitivity ((l + k) * (x1 - x2) - (l + k) * (x3 - x2)); [ring|].
    transitivity (y2 * toF 2 - y2 * toF 2); [|ring]. rewrite Y3 at 1. rewrite Y1. ring. }
  assert (l = k) as <-.
  { apply Fsub_0. apply (Fmul_cancel (l + k)); [exact Hs|].
    transitivity ((l * l - x1 - x2) - (k * k - x2 - x1)); [ring|]. rewrite G4x, G5x. ring. }
  assert (y1 = y3) as <-; [|reflexivity].
  destruct Hl as [A _], Hk as [B _]. apply Fsub_0.
  transitivity ((y1 - y2) + (y2 - y3)); [ring|]. rewrite <- A, <- B. ring.
Qed.
