(** Multiples of points, and the model's arithmetic computes them. *)
From Coq Require Import Ring Field Znumtheory.
From Verif Require Import Base Secp Pocklington PrimeCerts Fp CurveTower CurveFormulas CurveGroup CurveCert.
From stdpp Require Import numbers.
Local Open Scope Z_scope.

Fixpoint smul (k : nat) (p : pt) : pt := match k with O => None | S k' => gadd (smul k' p) p end.

Lemma okp_smul k p : okp p -> okp (smul k p).
Proof. intros Hp. induction k; cbn; [exact I|now apply okp_gadd]. Qed.
Lemma smul_add p : okp p -> forall a b, smul (a + b) p = gadd (smul a p) (smul b p).
Proof.
  intros Hp a. induction b as [|b IH]; cbn [smul].
  - rewrite Nat.add_0_r, gadd_None_r; auto using okp_smul.
  - rewrite <- plus_n_Sm. cbn [smul]. rewrite IH, gadd_assoc; auto using okp_smul.
Qed.
Lemma smul_1 p : okp p -> smul 1 p = p.
Proof. intros Hp. cbn. now apply gadd_None_l. Qed.
Lemma smul_None k : smul k None = None.
Proof. induction k as [|k IH]; cbn; [reflexivity|]. now rewrite IH, gadd_None_l. Qed.
Lemma smul_gadd p q : okp p -> okp q -> forall k, smul k (gadd p q) = gadd (smul k p) (smul k q).
Proof.
  intros Hp Hq. induction k as [|k IH]; cbn [smul]; [now rewrite gadd_None_l|].
  rewrite IH. rewrite !gadd_assoc; auto using okp_smul, okp_gadd. f_equal.
  rewrite <- !gadd_assoc; auto using okp_smul, okp_gadd. f_equal. apply gadd_comm.
Qed.
Lemma smul_mul p : okp p -> forall a b, smul (a * b) p = smul a (smul b p).
Proof.
  intros Hp a b. induction a as [|a IH]; cbn [Nat.mul smul]; [reflexivity|].
  rewrite smul_add, IH by assumption. apply gadd_comm.
Qed.
Lemma gadd_cancel p q r : okp p -> okp q -> okp r -> gadd p q = gadd p r -> q = r.
Proof.
  intros Hp Hq Hr E. apply (f_equal (gadd (gneg p))) in E.
  rewrite <- !gadd_assoc, (gadd_comm (gneg p) p), gadd_gneg, !gadd_None_l in E; auto using okp_gneg.
Qed.
Lemma gneg_unique p q : okp p -> okp q -> gadd p q = None -> q = gneg p.
Proof.
  intros Hp Hq E. apply (gadd_cancel p); auto using okp_gneg. now rewrite gadd_gneg.
Qed.

(** ** The model's arithmetic *)

Definition red (a : Z) : Prop := 0 <= a < fp.
Definition lift3 (P : proj) : proj3 := (toF (px P), toF (py P), toF (pz P)).
Definition prep (P : proj) (p : pt) : Prop := red (px P) /\ red (py P) /\ red (pz P) /\ rep (lift3 P) p.

Lemma toF_f_add a b : toF (f_add a b) = Fadd (toF a) (toF b).
Proof. unfold f_add. now rewrite toF_mod, toF_add. Qed.
Lemma toF_f_sub a b : toF (f_sub a b) = Fsub (toF a) (toF b).
Proof. unfold f_sub. now rewrite toF_mod, toF_sub. Qed.
Lemma toF_f_mul a b : toF (f_mul a b) = Fmul (toF a) (toF b).
Proof. unfold f_mul. now rewrite toF_mod, toF_mul. Qed.
Lemma toF_f_neg a : toF (f_neg a) = Fopp (toF a).
Proof. unfold f_neg. now rewrite toF_mod, toF_opp. Qed.
Lemma red_mod a : red (a mod fp).
Proof. unfold red. apply Z.mod_pos_bound. exact fp_pos. Qed.
Lemma fv_toF_red a : red a -> fv (toF a) = a.
Proof. intros H. rewrite fv_toF. apply Z.mod_small. exact H. Qed.
Lemma toF_red_inj a b : red a -> red b -> toF a = toF b -> a = b.
Proof. intros Ha Hb E. apply (f_equal fv) in E. now rewrite !fv_toF_red in E. Qed.
Lemma toF_f_inv a : toF (f_inv a) = Finv (toF a).
Proof.
  unfold f_inv, Finv. rewrite fv_toF. assert (0 <= fp - 2) by (vm_compute; discriminate). pose proof fp_pos.
  rewrite !powm_spec by lia. rewrite !toF_mod. apply toF_pow; [lia|]. now rewrite toF_mod.
Qed.

Lemma lift3_add P Q : lift3 (pp_add P Q) = rcb opsF (lift3 P) (lift3 Q).
Proof.
  unfold lift3, pp_add. cbn [px py pz rcb opsF oadd omul oopp ocst oC].
  repeat (rewrite ?toF_f_add, ?toF_f_sub, ?toF_f_mul).
  apply triple_eq; ring.
Qed.
Lemma pp_add_prep P Q p q : okp p -> okp q -> prep P p -> prep Q q -> prep (pp_add P Q) (gadd p q).
Proof.
  intros Hp Hq (_ & _ & _ & H1) (_ & _ & _ & H2).
  split; [apply red_mod|]. split; [apply red_mod|]. split; [apply red_mod|].
  rewrite lift3_add. now apply rcb_rep.
Qed.
Lemma rep_curve P p : okp p -> rep P p -> let '(x, y, z) := P in
  (y * y * z = x * x * x + toF 7 * (z * z * z))%F.
Proof.
  intros Hp (l & Hl & ->). destruct p as [[x y]|]; cbn [pj scale].
  - cbn in Hp. transitivity (l * l * l * (y * y))%F; [ring|]. rewrite Hp. ring.
  - ring.
Qed.
Lemma lift3_double P p : okp p -> rep (lift3 P) p -> lift3 (pp_double P) = rcb opsF (lift3 P) (lift3 P).
Proof.
  intros Hp Hr. pose proof (rep_curve _ _ Hp Hr) as E. unfold lift3 in *. unfold pp_double.
  cbn [px py pz rcb opsF oadd omul oopp ocst oC].
  repeat (rewrite ?toF_f_add, ?toF_f_sub, ?toF_f_mul).
  set (x := toF (px P)) in *. set (y := toF (py P)) in *. set (z := toF (pz P)) in *.
  apply triple_eq.
  - ring.
  - transitivity ((y * y + toF 21 * (z * z)) * (y * y - toF 21 * (z * z)) + toF 126 * z * (y * y * z - toF 7 * (z * z * z)))%F; [ring|].
    rewrite E. ring.
  - transitivity (toF 2 * y * (y * y * z + toF 3 * (y * y * z - toF 7 * (z * z * z)) + toF 21 * (z * z * z)))%F; [ring|].
    rewrite E. transitivity (toF 2 * y * ((x * x * x + toF 7 * (z * z * z)) + toF 3 * (x * x * x) + toF 21 * (z * z * z)))%F; [ring|].
    rewrite <- E. ring_simplify. 
    transitivity (toF 2 * y * (y * y * z + toF 3 * (x * x * x) + toF 21 * (z * z * z)))%F; [ring|]. ring.
Qed.
Lemma pp_double_prep P p : okp p -> prep P p -> prep (pp_double P) (gadd p p).
Proof.
  intros Hp (_ & _ & _ & H1).
  split; [apply red_mod|]. split; [apply red_mod|]. split; [apply red_mod|].
  rewrite (lift3_double P p) by assumption. now apply rcb_rep.
Qed.
Lemma pp_mul_pos_prep P p : okp p -> prep P p -> forall k, prep (pp_mul_pos k P) (smul (Pos.to_nat k) p).
Proof.
  intros Hp H. induction k as [k IH|k IH|]; cbn [pp_mul_pos].
  - rewrite Pos2Nat.inj_xI. replace (S (2 * Pos.to_nat k)) with ((Pos.to_nat k + Pos.to_nat k) + 1)%nat by lia.
    rewrite !smul_add, smul_1 by assumption. apply pp_add_prep; auto using okp_gadd, okp_smul.
    apply pp_double_prep; auto using okp_smul.
  - rewrite Pos2Nat.inj_xO. replace (2 * Pos.to_nat k)%nat with (Pos.to_nat k + Pos.to_nat k)%nat by lia.
    rewrite !smul_add by assumption. apply pp_double_prep; auto using okp_smul.
  - now rewrite Pos2Nat.inj_1, smul_1.
Qed.
Lemma prep_identity : prep pp_identity None.
Proof.
  assert (red 0 /\ red 1) as [] by (unfold red; vm_compute; intuition discriminate).
  repeat (split; [assumption|]). exists F1. split; [apply F1_neq_F0|]. cbn [pj scale].
  unfold lift3. cbn [px py pz pp_identity]. fold F0 F1. apply triple_eq; ring.
Qed.
Lemma pp_mul_prep P p k : okp p -> prep P p -> 0 <= k -> prep (pp_mul k P) (smul (Z.to_nat k) p).
Proof.
  intros Hp H Hk. destruct k as [|k|k]; [apply prep_identity| |lia].
  cbn [pp_mul]. rewrite Z2Nat.inj_pos. now apply pp_mul_pos_prep.
Qed.

(** Affine results: the point as integers *)
Definition zpt (p : pt) : option (Z * Z) := match p with None => None | Some (x, y) => Some (fv x, fv y) end.

Lemma to_affine_prep P p : prep P p -> to_affine P = zpt p.
Proof.
  intros (_ & _ & Hz & Hr). apply to_pt_rep in Hr. rewrite <- Hr. unfold lift3, to_affine. cbn [to_pt].
  destruct (Z.eqb_spec (pz P) 0) as [E|E].
  - rewrite decide_True; [reflexivity|]. now rewrite E.
  - rewrite decide_False.
    + cbn [zpt]. unfold Fdiv. rewrite <- toF_f_inv, <- !toF_f_mul.
      unfold f_mul at 3 4. rewrite <- (fv_toF_red (f_mul (px P) _)), <- (fv_toF_red (f_mul (py P) _)) by apply red_mod.
      reflexivity.
    + intros E'. apply E. apply fv_0 in E'. now rewrite fv_toF_red in E'.
Qed.

(** ** The generator's order *)

Definition gpt : pt := Some (toF gen_x, toF gen_y).
Lemma okp_gpt : okp gpt.
Proof. cbn [okp gpt]. rewrite <- !toF_mul, <- toF_add. apply toF_eq. vm_compute. reflexivity. Qed.
Lemma prep_generator : prep pp_generator gpt.
Proof.
  assert (red gen_x /\ red gen_y /\ red 1) as (? & ? & ?) by (unfold red; vm_compute; intuition discriminate).
  repeat (split; [assumption|]). apply (rep_pj gpt).
Qed.

Lemma order_prime : prime sorder.
Proof. exact secp_n_prime. Qed.
(* sealed, so that nothing tries to compute this unary number *)
Lemma order_nat_ex : { k : nat | Z.of_nat k = sorder }.
Proof. exists (Z.to_nat sorder). apply Z2Nat.id. discriminate. Qed.
Definition order_nat : nat := proj1_sig order_nat_ex.
Lemma order_nat_Z : Z.of_nat order_nat = sorder.
Proof. exact (proj2_sig order_nat_ex). Qed.
Lemma order_gt : 1 < sorder.
Proof. reflexivity. Qed.
Lemma fp_order : fp < 2 * sorder /\ sorder < fp /\ 2 * fp + 1 < 3 * sorder /\ Z.odd fp = true /\ Z.odd sorder = true.
Proof. vm_compute. intuition. Qed.

(** ** The chain of CurveCert *)

(* q times p *)
Definition mulp (q : Z) : Z := Z.shiftl q 256 - 4294968273 * q.
Definition chain_step (k x y : Z) (st : Z * (Z * Z) * (Z * Z) * (Z * Z)) : option (Z * Z * Z) :=
  let '(d, (l, q1), (x3, q2), (y3, q3)) := st in
  let x2 := if d =? 0 then x else gen_x in
  if (if d =? 0 then l * (2 * y) - 3 * Z.square x =? mulp q1
      else negb (x =? gen_x) && ((d =? 1) || (d =? -1)) && (l * (gen_x - x) - (d * gen_y - y) =? mulp q1)) &&
     (Z.square l - x - x2 - x3 =? mulp q2) && (l * (x - x3) - y - y3 =? mulp q3) &&
     (0 <=? x3) && (x3 <? fp) && (1 <=? k + d)
  then Some (if d =? 0 then 2 * k else k + d, x3, y3) else None.
Fixpoint chain (k x y : Z) (l : list (Z * (Z * Z) * (Z * Z) * (Z * Z))) : option (Z * Z * Z) :=
  match l with
  | [] => Some (k, x, y)
  | st :: l' => match chain_step k x y st with None => None | Some (k', x', y') => chain k' x' y' l' end
  end.

Lemma mulp_is q : mulp q = q * fp.
Proof. unfold mulp. rewrite Z.shiftl_mul_pow2 by discriminate. replace fp with (2 ^ 256 - 4294968273) by (vm_compute; reflexivity). ring. Qed.
Lemma toF_mulp a q : a = mulp q -> toF a = F0.
Proof. intros ->. rewrite mulp_is. apply toF_eq. rewrite Z.mod_mul, Z.mod_0_l; [reflexivity| |]; pose proof fp_pos; lia. Qed.

Definition at_chain (k x y : Z) : Prop := 0 < k /\ red x /\ smul (Z.to_nat k) gpt = Some (toF x, toF y).

Lemma chain_step_ok k x y st k' x' y' : at_chain k x y -> chain_step k x y st = Some (k', x', y') -> at_chain k' x' y'.
Proof.
  destruct st as [[[d [l q1]] [x3 q2]] [y3 q3]]. intros (Hk & Hx & Hs) H. unfold chain_step in H.
  match type of H with (if ?b then _ else _) = _ => destruct b eqn:Hb; [|discriminate] end.
  apply (inj Some) in H. injection H as Ek <- <-.
  apply andb_prop in Hb as [Hb Hk2]. apply andb_prop in Hb as [Hb Hx2]. apply andb_prop in Hb as [Hb Hx1].
  apply andb_prop in Hb as [Hb Hy3]. apply andb_prop in Hb as [Hb Hx3].
  apply Z.eqb_eq, toF_mulp in Hx3, Hy3. rewrite Z.square_spec in Hx3.
  rewrite !toF_sub, toF_mul in Hx3. rewrite !toF_sub, toF_mul, toF_sub in Hy3.
  assert (okp (Some (toF x, toF y))) as Ho by (rewrite <- Hs; apply okp_smul, okp_gpt).
  assert (red x3) as Hr by (unfold red; lia).
  destruct (Z.eqb_spec d 0) as [->|Hd].
  - subst k'. split; [lia|]. split; [exact Hr|].
    replace (Z.to_nat (2 * k)) with (Z.to_nat k + Z.to_nat k)%nat by lia.
    rewrite smul_add, Hs by apply okp_gpt.
    apply Z.eqb_eq, toF_mulp in Hb. rewrite Z.square_spec, toF_sub, !toF_mul in Hb.
    rewrite (gadd_tangent (toF l)); [|exact Ho|apply Fsub_0; rewrite <- Hb; ring].
    apply Fsub_0 in Hx3, Hy3. rewrite Hx3, Hy3. reflexivity.
  - apply andb_prop in Hb as [Hb Hq]. apply andb_prop in Hb as [Hne Hd1].
    apply Z.eqb_eq, toF_mulp in Hq. rewrite !toF_sub, !toF_mul, toF_sub in Hq.
    assert (toF x <> toF gen_x) as Hneq.
    { intros E. apply toF_eq in E. unfold red in Hx. assert (red gen_x) as Hg by (unfold red; vm_compute; intuition discriminate).
      unfold red in Hg. rewrite !Z.mod_small in E by lia. lia. }
    assert (exists s, s = toF (d * gen_y) /\ okp (Some (toF gen_x, s)) /\
       gadd (Some (toF x, toF y)) (Some (toF gen_x, s)) = smul (Z.to_nat k') gpt) as (s & Es & Hos & Hsum).
    { eexists. split; [reflexivity|]. assert (d = 1 \/ d = -1) as [-> | ->] by lia.
      - rewrite Z.mul_1_l. split; [apply okp_gpt|]. subst k'.
        replace (Z.to_nat (k + 1)) with (Z.to_nat k + 1)%nat by lia.
        rewrite smul_add, smul_1, Hs by apply okp_gpt. reflexivity.
      - assert (Some (toF gen_x, toF (-1 * gen_y)) = gneg gpt) as Eg.
        { cbn [gneg gpt]. rewrite <- toF_opp. repeat f_equal. }
        rewrite Eg. split; [apply okp_gneg, okp_gpt|]. subst k'. rewrite <- Hs.
        replace (Z.to_nat k) with (Z.to_nat (k + -1) + 1)%nat by lia.
        rewrite smul_add, smul_1 by apply okp_gpt.
        rewrite gadd_assoc, gadd_gneg, gadd_None_r; auto using okp_smul, okp_gpt, okp_gneg. }
    split; [lia|]. split; [exact Hr|]. rewrite <- Hsum.
    rewrite (gadd_chord (toF l)); [|exact Ho|exact Hos|exact Hneq|apply Fsub_0; rewrite Es, <- Hq, toF_mul; ring].
    apply Fsub_0 in Hx3, Hy3. rewrite Hx3, Hy3. reflexivity.
Qed.
Lemma chain_ok l : forall k x y k' x' y', at_chain k x y -> chain k x y l = Some (k', x', y') -> at_chain k' x' y'.
Proof.
  induction l as [|st l IH]; intros k x y k' x' y' H; cbn [chain].
  - intros E. apply (inj Some) in E. now injection E as <- <- <-.
  - destruct (chain_step k x y st) as [[[k1 x1] y1]|] eqn:E; [|discriminate].
    apply IH. eapply chain_step_ok; eassumption.
Qed.

Lemma at_chain_1 : at_chain 1 gen_x gen_y.
Proof.
  split; [reflexivity|]. split.
  - unfold red; vm_compute; intuition discriminate.
  - rewrite smul_1; [reflexivity|apply okp_gpt].
Qed.
Lemma chain_is : chain 1 gen_x gen_y chain_cert = Some (sorder - 1, gen_x, fp - gen_y).
Proof. vm_compute. reflexivity. Qed.

Lemma order_gpt : smul order_nat gpt = None.
Proof.
  assert (at_chain (sorder - 1) gen_x (fp - gen_y)) as (_ & _ & H).
  { eapply chain_ok; [exact at_chain_1|exact chain_is]. }
  assert (Z.to_nat (sorder - 1) + 1 = order_nat)%nat as <-.
  { pose proof order_nat_Z. pose proof order_gt. lia. }
  rewrite smul_add, smul_1, H by apply okp_gpt. rewrite gadd_comm.
  replace (toF (fp - gen_y)) with (Fopp (toF gen_y)); [exact (gadd_gneg _ okp_gpt)|].
  rewrite <- toF_opp. apply toF_eq. replace (fp - gen_y) with (- gen_y + 1 * fp) by ring.
  now rewrite Z_mod_plus_full.
Qed.
