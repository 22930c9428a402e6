(** Polynomial identities between points of the curve, checked by computation: elements of
    C[x, y] / (y^2 - x^3 - 7), for C an already built ring, are pairs of dense polynomials in
    x; two layers give polynomials in the coordinates of two points. *)
From Coq Require Import Ring.
From Verif Require Import Base Secp Fp.
Local Open Scope F_scope.

Record ops := {
  oC : Type; oadd : oC -> oC -> oC; omul : oC -> oC -> oC; oopp : oC -> oC;
  ocst : Z -> oC; oisz : oC -> bool; oev : oC -> F
}.
Record ops_ok (o : ops) : Prop := {
  ev_add : forall a b, oev o (oadd o a b) = oev o a + oev o b;
  ev_mul : forall a b, oev o (omul o a b) = oev o a * oev o b;
  ev_opp : forall a, oev o (oopp o a) = - oev o a;
  ev_cst : forall z, oev o (ocst o z) = toF z;
  ev_isz : forall a, oisz o a = true -> oev o a = F0
}.

Definition ops0 : ops := {|
  oC := Z; oadd := Z.add; omul := Z.mul; oopp := Z.opp; ocst := fun z => z;
  oisz := Z.eqb 0; oev := toF |}.
Lemma ops0_ok : ops_ok ops0.
Proof.
  constructor; cbn; intros.
  - apply toF_add.
  - apply toF_mul.
  - apply toF_opp.
  - reflexivity.
  - destruct a; [reflexivity|discriminate|discriminate].
Qed.

(** The operations on F itself. *)
Definition opsF : ops := {|
  oC := F; oadd := Fadd; omul := Fmul; oopp := Fopp; ocst := toF;
  oisz := fun a => bool_decide (a = F0); oev := fun a => a |}.

Section layer.
  Context (o : ops) (Ho : ops_ok o) (x y : F) (Hxy : y * y = x * x * x + toF 7).
  Notation C := (oC o).

  Fixpoint ladd (l m : list C) : list C :=
    match l, m with
    | [], _ => m
    | _, [] => l
    | a :: l', b :: m' => oadd o a b :: ladd l' m'
    end.
  Definition lscale (c : C) (l : list C) : list C := map (omul o c) l.
  Fixpoint lmul (l m : list C) : list C :=
    match l with
    | [] => []
    | c :: l' => ladd (lscale c m) (ocst o 0 :: lmul l' m)
    end.
  Definition lev (l : list C) : F := foldr (fun c a => oev o c + x * a) F0 l.
  (** times x^3 + 7 *)
  Definition lcurve (l : list C) : list C :=
    match l with
    | [] => []
    | _ => ladd (lscale (ocst o 7) l) (ocst o 0 :: ocst o 0 :: ocst o 0 :: l)
    end.

  Definition cadd (p q : list C * list C) := (ladd (fst p) (fst q), ladd (snd p) (snd q)).
  Definition cmul (p q : list C * list C) :=
    (ladd (lmul (fst p) (fst q)) (lcurve (lmul (snd p) (snd q))),
     ladd (lmul (fst p) (snd q)) (lmul (snd p) (fst q))).
  Definition copp (p : list C * list C) := (map (oopp o) (fst p), map (oopp o) (snd p)).
  Definition cev (p : list C * list C) : F := lev (fst p) + y * lev (snd p).

  Definition opsS : ops := {|
    oC := list C * list C; oadd := cadd; omul := cmul; oopp := copp;
    ocst := fun z => ([ocst o z], []);
    oisz := fun p => forallb (oisz o) (fst p) && forallb (oisz o) (snd p);
    oev := cev |}.
  Definition var_x : oC opsS := ([ocst o 0; ocst o 1], []).
  Definition var_y : oC opsS := ([], [ocst o 1]).
  Definition lift (c : C) : oC opsS := ([c], []).

  Lemma lev_add l : forall m, lev (ladd l m) = lev l + lev m.
  Proof.
    induction l as [|a l IH]; intros [|b m]; cbn [ladd lev foldr]; try ring.
    fold (lev (ladd l m)) (lev l) (lev m). rewrite IH, (ev_add o Ho). ring.
  Qed.
  Lemma lev_scale c l : lev (lscale c l) = oev o c * lev l.
  Proof.
    induction l as [|a l IH]; cbn [lscale map lev foldr]; [ring|].
    fold (lscale c l). fold (lev (lscale c l)) (lev l). rewrite IH, (ev_mul o Ho). ring.
  Qed.
  Lemma lev_cons c l : lev (c :: l) = oev o c + x * lev l.
  Proof. reflexivity. Qed.
  Lemma lev_mul l m : lev (lmul l m) = lev l * lev m.
  Proof.
    induction l as [|a l IH]; cbn [lmul]; [unfold lev; cbn [foldr]; ring|].
    rewrite lev_add, lev_scale, !lev_cons, IH, (ev_cst o Ho). ring.
  Qed.
  Lemma lev_curve l : lev (lcurve l) = (x * x * x + toF 7) * lev l.
  Proof.
    unfold lcurve. destruct l as [|a l]; [unfold lev; cbn [foldr]; ring|].
    rewrite lev_add, lev_scale, !lev_cons, !(ev_cst o Ho). ring.
  Qed.
  Lemma lev_opp l : lev (map (oopp o) l) = - lev l.
  Proof.
    induction l as [|a l IH]; cbn [map]; [unfold lev; cbn [foldr]; ring|].
    rewrite !lev_cons, IH, (ev_opp o Ho). ring.
  Qed.
  Lemma lev_isz l : forallb (oisz o) l = true -> lev l = F0.
  Proof.
    induction l as [|a l IH]; cbn [forallb]; [reflexivity|]. intros H. apply andb_prop in H as [H1 H2].
    rewrite lev_cons, IH, (ev_isz o Ho) by assumption. ring.
  Qed.

  Lemma opsS_ok : ops_ok opsS.
  Proof.
    constructor; cbn [opsS oev oadd omul oopp ocst oisz oC]; unfold cev.
    - intros [a b] [c d]. cbn [cadd fst snd]. rewrite !lev_add. ring.
    - intros [a b] [c d]. cbn [cmul fst snd]. rewrite !lev_add, lev_curve, !lev_mul, <- Hxy. ring.
    - intros [a b]. cbn [copp fst snd]. rewrite !lev_opp. ring.
    - intros z. cbn [fst snd]. rewrite lev_cons, (ev_cst o Ho). unfold lev. cbn [foldr]. ring.
    - intros [a b] H. cbn [fst snd] in *. apply andb_prop in H as [H1 H2].
      rewrite !lev_isz by assumption. ring.
  Qed.
  Lemma ev_var_x : oev opsS var_x = x.
  Proof. cbn. unfold cev. cbn [var_x fst snd]. rewrite !lev_cons, !(ev_cst o Ho). unfold lev. cbn [foldr]. ring. Qed.
  Lemma ev_var_y : oev opsS var_y = y.
  Proof. cbn. unfold cev. cbn [var_y fst snd]. rewrite !lev_cons, !(ev_cst o Ho). unfold lev. cbn [foldr]. ring. Qed.
  Lemma ev_lift c : oev opsS (lift c) = oev o c.
  Proof. cbn. unfold cev. cbn [lift fst snd]. rewrite !lev_cons. unfold lev. cbn [foldr]. ring. Qed.
End layer.

(** Renes-Costello-Batina addition over any operations *)
Section rcb.
  Context (o : ops).
  Notation C := (oC o).
  Notation "a +' b" := (oadd o a b) (at level 50, left associativity).
  Notation "a *' b" := (omul o a b) (at level 40, left associativity).
  Notation "a -' b" := (oadd o a (oopp o b)) (at level 50, left associativity).
  Notation "# z" := (ocst o z%Z) (at level 1, format "# z").

  Definition rcb (P Q : C * C * C) : C * C * C :=
    let '(x1, y1, z1) := P in let '(x2, y2, z2) := Q in
    let a := x1 *' y2 +' x2 *' y1 in
    let m := y1 *' y2 -' # 21 *' (z1 *' z2) in
    let n := y1 *' y2 +' # 21 *' (z1 *' z2) in
    let c := y1 *' z2 +' y2 *' z1 in
    let d := x1 *' z2 +' x2 *' z1 in
    let e := # 3 *' (x1 *' x2) in
    (a *' m -' # 21 *' (c *' d), n *' m +' # 21 *' (e *' d), c *' n +' e *' a).
End rcb.

(** *** Two points *)
(* x, y of the layers only matter for evaluation *)
Definition T1 x1 y1 := opsS ops0 x1 y1.
Definition T2 x1 y1 x2 y2 := opsS (T1 x1 y1) x2 y2.

(** *** Expressions, to use the towers as a decision procedure *)
Inductive pexpr := PV (i : nat) | PC (z : Z) | PAdd (a b : pexpr) | PSub (a b : pexpr) | PMul (a b : pexpr) | POpp (a : pexpr).
Fixpoint peval (o : ops) (env : list (oC o)) (e : pexpr) : oC o :=
  match e with
  | PV i => nth i env (ocst o 0)
  | PC z => ocst o z
  | PAdd a b => oadd o (peval o env a) (peval o env b)
  | PSub a b => oadd o (peval o env a) (oopp o (peval o env b))
  | PMul a b => omul o (peval o env a) (peval o env b)
  | POpp a => oopp o (peval o env a)
  end.
Fixpoint fval (env : list F) (e : pexpr) : F :=
  match e with
  | PV i => nth i env F0
  | PC z => toF z
  | PAdd a b => fval env a + fval env b
  | PSub a b => fval env a - fval env b
  | PMul a b => fval env a * fval env b
  | POpp a => - fval env a
  end.
Lemma ev_peval o : ops_ok o -> forall env e, oev o (peval o env e) = fval (map (oev o) env) e.
Proof.
  intros Ho env. induction e as [i|z|a IHa b IHb|a IHa b IHb|a IHa b IHb|a IHa]; cbn [peval fval];
    rewrite ?(ev_add o Ho), ?(ev_mul o Ho), ?(ev_opp o Ho), ?(ev_cst o Ho); try congruence; try (rewrite IHa, ?IHb; ring).
  replace F0 with (oev o (ocst o 0)) by apply (ev_cst o Ho). now rewrite map_nth.
Qed.

Section two.
  Context (x1 y1 x2 y2 : F) (H1 : y1 * y1 = x1 * x1 * x1 + toF 7) (H2 : y2 * y2 = x2 * x2 * x2 + toF 7).
  Definition env2 : list (oC (T2 x1 y1 x2 y2)) :=
    [lift (T1 x1 y1) x2 y2 (var_x ops0 x1 y1); lift (T1 x1 y1) x2 y2 (var_y ops0 x1 y1);
     var_x (T1 x1 y1) x2 y2; var_y (T1 x1 y1) x2 y2].
  Lemma T2_ok : ops_ok (T2 x1 y1 x2 y2).
  Proof. apply opsS_ok; [apply opsS_ok; [apply ops0_ok|assumption]|assumption]. Qed.
  Lemma ev_env2 : map (oev (T2 x1 y1 x2 y2)) env2 = [x1; y1; x2; y2].
  Proof.
    assert (ops_ok (T1 x1 y1)) by (apply opsS_ok; [apply ops0_ok|assumption]).
    unfold env2. cbn [map]. unfold T2. rewrite !ev_lift, ev_var_x, ev_var_y by assumption.
    unfold T1. rewrite ev_var_x, ev_var_y by apply ops0_ok. reflexivity.
  Qed.
  Lemma check2 a b : oisz (T2 x1 y1 x2 y2) (peval (T2 x1 y1 x2 y2) env2 (PSub a b)) = true ->
    fval [x1; y1; x2; y2] a = fval [x1; y1; x2; y2] b.
  Proof.
    intros H. apply (ev_isz _ T2_ok) in H. rewrite (ev_peval _ T2_ok), ev_env2 in H. cbn [fval] in H.
    replace (fval [x1; y1; x2; y2] b) with (fval [x1; y1; x2; y2] b + F0) by ring. rewrite <- H. ring.
  Qed.
End two.

Ltac preify x1 y1 x2 y2 t :=
  lazymatch t with
  | Fadd ?a ?b => let a' := preify x1 y1 x2 y2 a in let b' := preify x1 y1 x2 y2 b in constr:(PAdd a' b')
  | Fsub ?a ?b => let a' := preify x1 y1 x2 y2 a in let b' := preify x1 y1 x2 y2 b in constr:(PSub a' b')
  | Fmul ?a ?b => let a' := preify x1 y1 x2 y2 a in let b' := preify x1 y1 x2 y2 b in constr:(PMul a' b')
  | Fopp ?a => let a' := preify x1 y1 x2 y2 a in constr:(POpp a')
  | toF ?z => constr:(PC z)
  | F0 => constr:(PC 0)
  | F1 => constr:(PC 1)
  | x1 => constr:(PV 0)
  | y1 => constr:(PV 1)
  | x2 => constr:(PV 2)
  | y2 => constr:(PV 3)
  end.
(** Proves an identity between polynomials in the coordinates of two points of the curve. *)
Ltac curve2 x1 y1 x2 y2 :=
  lazymatch goal with
  | |- ?a = ?b =>
      let a' := preify x1 y1 x2 y2 a in
      let b' := preify x1 y1 x2 y2 b in
      change (fval [x1; y1; x2; y2] a' = fval [x1; y1; x2; y2] b');
      apply check2; [assumption|assumption|vm_compute; reflexivity]
  end.
