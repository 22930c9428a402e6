(** The model of k256 recovers exactly the signatures that ECDSA signing makes. *)
From Coq Require Import Ring Field Znumtheory Zpow_facts ZifyBool.
From Verif Require Import Base Secp SpecEcdsa Pocklington Fp CurveTower CurveFormulas CurveGroup CurveMul CurveOrder.
Local Open Scope Z_scope.

(** ** Specification points and [pt] *)

Lemma secp_p_fp : secp_p = fp.
Proof. vm_compute. reflexivity. Qed.
Lemma secp_n_order : secp_n = sorder.
Proof. vm_compute. reflexivity. Qed.

Lemma congr_p a b : congr secp_p a b <-> toF a = toF b.
Proof.
  rewrite secp_p_fp. pose proof fp_pos. rewrite toF_eq. split.
  - intros [k ->]. apply Z.mod_add. lia.
  - intros E. exists (a / fp - b / fp). rewrite (Z.div_mod a fp), (Z.div_mod b fp) at 1 by lia. rewrite E.
    lia.
Qed.
Lemma congr_n a b : congr secp_n a b <-> a mod sorder = b mod sorder.
Proof.
  rewrite secp_n_order. pose proof order_gt. split.
  - intros [k ->]. apply Z.mod_add. lia.
  - intros E. exists (a / sorder - b / sorder). rewrite (Z.div_mod a sorder), (Z.div_mod b sorder) at 1 by lia.
    rewrite E. lia.
Qed.

Definition den (P : point) : pt := match P with Inf => None | Aff x y => Some (toF x, toF y) end.
Definition undn (p : pt) : point := match p with None => Inf | Some (x, y) => Aff (fv x) (fv y) end.

Lemma in_field_red x : in_field x <-> red x.
Proof. unfold in_field, red. rewrite secp_p_fp. reflexivity. Qed.
Lemma in_field_red1 x : in_field x -> red x.
Proof. apply in_field_red. Qed.
Lemma in_field_fv a : in_field (fv a).
Proof. apply in_field_red. apply fv_range. Qed.
Lemma den_undn p : den (undn p) = p.
Proof. destruct p as [[x y]|]; cbn; [|reflexivity]. now rewrite !toF_fv. Qed.
Lemma on_curve_okp P : on_curve P -> okp (den P).
Proof.
  destruct P as [|x y]; cbn; [auto|]. intros (_ & _ & E). apply congr_p in E.
  now rewrite toF_add, !toF_mul in E.
Qed.
Lemma okp_on_curve p : okp p -> on_curve (undn p).
Proof.
  destruct p as [[x y]|]; cbn [undn on_curve okp]; [|auto]. intros E. split; [apply in_field_fv|]. split; [apply in_field_fv|].
  apply congr_p. now rewrite toF_add, !toF_mul, !toF_fv.
Qed.
Lemma undn_den P : on_curve P -> undn (den P) = P.
Proof.
  destruct P as [|x y]; cbn [undn den on_curve]; [reflexivity|]. intros (Hx & Hy & _).
  apply in_field_red1 in Hx, Hy. now rewrite !fv_toF_red.
Qed.
Lemma den_inj P Q : on_curve P -> on_curve Q -> den P = den Q -> P = Q.
Proof. intros HP HQ E. rewrite <- (undn_den P HP), <- (undn_den Q HQ). now rewrite E. Qed.

Lemma point_add_sound P Q R : on_curve P -> on_curve Q -> point_add P Q R ->
  den R = gadd (den P) (den Q) /\ on_curve R.
Proof.
  intros HP HQ H.
  assert (den R = gadd (den P) (den Q) /\ (okp (den R) -> on_curve R)) as [E Ho].
  2:{ split; [assumption|]. apply Ho. rewrite E. apply okp_gadd; now apply on_curve_okp. }
  pose proof (on_curve_okp _ HP) as OP. pose proof (on_curve_okp _ HQ) as OQ.
  assert (forall l x1 y1 x2 x3 y3, line_point l x1 y1 x2 x3 y3 -> okp (den (Aff x3 y3)) -> on_curve (Aff x3 y3)) as Hl.
  { intros l x1 y1 x2 x3 y3 (H3 & H4 & _) Hok. apply okp_on_curve in Hok. cbn [undn den on_curve] in Hok |- *.
    apply in_field_red1 in H3, H4. now rewrite !fv_toF_red in Hok. }
  destruct H as [|x y|x y|x y y' E|l x1 y1 x2 y2 x3 y3 Hne El Hln|l x y x3 y3 Hy El Hln].
  - split; [|intros _; exact I]. symmetry. now apply gadd_None_l.
  - split; [|intros _; exact HQ]. symmetry. now apply gadd_None_l.
  - split; [|intros _; exact HP]. symmetry. now apply gadd_None_r.
  - split; [|intros _; exact I]. cbn [den]. apply congr_p in E. rewrite toF_add in E.
    replace (toF y') with (Fopp (toF y)).
    + symmetry. apply (gadd_gneg (Some (toF x, toF y))). exact OP.
    + apply Fsub_0. transitivity (Fopp (Fadd (toF y) (toF y'))); [ring|]. rewrite E. fold F0. ring.
  - split; [|exact (Hl _ _ _ _ _ _ Hln)]. destruct Hln as (H3 & H4 & E3 & E4). apply congr_p in El, E3, E4.
    cbn [den]. rewrite toF_mul, !toF_sub in El. rewrite !toF_sub, toF_mul in E3.
    rewrite toF_sub, toF_mul, toF_sub in E4. symmetry.
    rewrite (gadd_chord (toF l)); [|exact OP|exact OQ| |exact El].
    + rewrite E4, E3. reflexivity.
    + intros E. apply Hne. destruct HP as [HP _], HQ as [HQ _]. apply in_field_red1 in HP, HQ. now apply toF_red_inj.
  - split; [|exact (Hl _ _ _ _ _ _ Hln)]. destruct Hln as (H3 & H4 & E3 & E4). apply congr_p in El, E3, E4.
    cbn [den]. rewrite !toF_mul in El. rewrite !toF_sub, toF_mul in E3.
    rewrite toF_sub, toF_mul, toF_sub in E4. symmetry.
    rewrite (gadd_tangent (toF l)); [|exact OP|exact El]. rewrite E4, E3. reflexivity.
Qed.

Lemma point_add_total P Q : on_curve P -> on_curve Q -> exists R, point_add P Q R.
Proof.
  intros HP HQ. pose proof (on_curve_okp _ HP) as OP. pose proof (on_curve_okp _ HQ) as OQ.
  assert (forall l x1 y1 x2, exists x3 y3, line_point l x1 y1 x2 x3 y3) as Hl.
  { intros l x1 y1 x2. pose proof fp_pos.
    set (x3 := (l * l - x1 - x2) mod fp). exists x3, ((l * (x1 - x3) - y1) mod fp).
    split; [apply in_field_red, red_mod|]. split; [apply in_field_red, red_mod|].
    split; apply congr_p; apply toF_mod. }
  destruct P as [|x1 y1], Q as [|x2 y2]; try (eexists; constructor; fail).
  destruct (Z.eq_dec x1 x2) as [<-|Hne].
  - destruct (same_x _ _ _ OP OQ) as [E|E].
    + destruct HP as (_ & Hy1 & _), HQ as (_ & Hy2 & _). apply in_field_red1 in Hy1, Hy2.
      apply toF_red_inj in E as ->; [|assumption|assumption].
      pose proof (okp_y _ _ OP) as Hnz.
      set (l := fv (Fdiv (toF (3 * x1 * x1)) (toF (2 * y1)))).
      destruct (Hl l x1 y1 x1) as (x3 & y3 & H3). exists (Aff x3 y3). apply (add_tangent l); [| |exact H3].
      * intros ->. now apply Hnz.
      * apply congr_p. rewrite toF_mul. unfold l. rewrite toF_fv. field.
        rewrite toF_mul. apply Fmul_nz; [apply toF_nz; vm_compute; reflexivity|exact Hnz].
    + exists Inf. apply add_opposite. apply congr_p. rewrite toF_add, E. fold F0. ring.
  - set (l := fv (Fdiv (toF (y2 - y1)) (toF (x2 - x1)))).
    destruct (Hl l x1 y1 x2) as (x3 & y3 & H3). exists (Aff x3 y3). apply (add_chord l); [exact Hne| |exact H3].
    apply congr_p. rewrite toF_mul. unfold l. rewrite toF_fv. field.
    intros E. apply Hne. destruct HP as [HP _], HQ as [HQ _]. apply in_field_red1 in HP, HQ.
    symmetry. apply toF_red_inj; [assumption|assumption|]. apply Fsub_0. now rewrite <- toF_sub.
Qed.

Lemma point_add_complete P Q R : on_curve P -> on_curve Q -> on_curve R ->
  den R = gadd (den P) (den Q) -> point_add P Q R.
Proof.
  intros HP HQ HR E. destruct (point_add_total P Q HP HQ) as [R' H].
  destruct (point_add_sound P Q R' HP HQ H) as [E' HR']. now rewrite (den_inj R R') by congruence.
Qed.

Lemma multiple_sound P k Q : on_curve P -> multiple P k Q ->
  0 <= k /\ on_curve Q /\ den Q = zmul k (den P).
Proof.
  intros HP. pose proof (on_curve_okp _ HP) as OP.
  induction 1 as [|k Q R _ (Hk & HQ & EQ) Ha].
  - split; [lia|]. split; [exact I|]. symmetry. apply zmul_0.
  - destruct (point_add_sound Q P R HQ HP Ha) as [ER HR]. split; [lia|]. split; [assumption|].
    rewrite ER, EQ, zmul_add, (zmul_1 _ OP) by assumption. reflexivity.
Qed.
Lemma multiple_complete P k Q : on_curve P -> 0 <= k -> on_curve Q -> den Q = zmul k (den P) -> multiple P k Q.
Proof.
  intros HP Hk. pose proof (on_curve_okp _ HP) as OP. revert Q. pattern k. apply natlike_ind; [| |assumption].
  - intros Q HQ E. rewrite zmul_0 in E. rewrite (den_inj Q Inf HQ I E). constructor.
  - intros j Hj IH Q HQ E. unfold Z.succ in *. rewrite zmul_add, (zmul_1 _ OP) in E by assumption.
    assert (okp (zmul j (den P))) as Ho by now apply okp_zmul.
    apply multiple_succ with (Q := undn (zmul j (den P))).
    + apply IH; [now apply okp_on_curve|apply den_undn].
    + apply point_add_complete; auto using okp_on_curve. now rewrite den_undn.
Qed.

Lemma den_G : den secp_G = gpt.
Proof. unfold secp_G, gpt. cbn [den]. reflexivity. Qed.
Lemma on_curve_G : on_curve secp_G.
Proof.
  cbn. split; [|split].
  - unfold in_field. vm_compute. intuition discriminate.
  - unfold in_field. vm_compute. intuition discriminate.
  - apply congr_p. apply toF_eq. vm_compute. reflexivity.
Qed.

Lemma multiple_G k Q : multiple secp_G k Q <-> 0 <= k /\ on_curve Q /\ den Q = zmul k gpt.
Proof.
  rewrite <- den_G. split.
  - apply multiple_sound, on_curve_G.
  - intros (H1 & H2 & H3). now apply multiple_complete; [apply on_curve_G|..].
Qed.
