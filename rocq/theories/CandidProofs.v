(** The decoder delivers what the specification of Candid says. *)
From Coq Require Import Strings.String.
From Verif Require Import Base BaseLemmas SpecHash HashProofs Candid SpecCandid CandidBase CandidHeader.
Local Open Scope N_scope.

Scheme enc_ind2 := Induction for enc Sort Prop
  with enc_all_ind2 := Induction for enc_all Sort Prop
  with enc_fields_ind2 := Induction for enc_fields Sort Prop.
Combined Scheme enc_mutind from enc_ind2, enc_all_ind2, enc_fields_ind2.

(** ** Skipped values *)

Definition max_depth (fs : list (N * ctype)) : nat := fold_right (fun f m => Nat.max (depth (snd f)) m) 0%nat fs.

Lemma depth_pos c : (1 <= depth c)%nat.
Proof. destruct c; cbn [depth]; lia. Qed.
Lemma max_depth_nth fs k id c : nth_error fs k = Some (id, c) -> (depth c <= max_depth fs)%nat.
Proof.
  revert k. induction fs as [|[i d] fs IH]; intros [|k] H; cbn [nth_error] in H; try discriminate; cbn [max_depth fold_right snd].
  - apply (inj Some) in H. injection H as -> ->. lia.
  - apply IH in H. fold (max_depth fs). lia.
Qed.
Lemma stands_nth tbl ws fs k id c : stands_fields tbl ws fs -> nth_error fs k = Some (id, c) ->
  exists w, nth_error ws k = Some (id, w) /\ stands tbl w c.
Proof.
  intros H. revert k. induction H as [|i w d ws fs Hw Hf IH]; intros [|k] Hk; cbn [nth_error] in *; try discriminate.
  - apply (inj Some) in Hk. injection Hk as -> ->. eauto.
  - auto.
Qed.
Lemma stands_length tbl ws fs : stands_fields tbl ws fs -> length ws = length fs.
Proof. induction 1; cbn; congruence. Qed.

Lemma skip_fields_bad q tbl (ws : list (N * tref)) (x : dres bytes) : x = DSub \/ x = DErr ->
  fold_left (fun x f => dlet r := x in skip q tbl (snd f) r) ws x = x.
Proof. intros H. induction ws as [|f ws IH]; [reflexivity|]. cbn [fold_left]. destruct H as [-> | ->]; exact IH. Qed.
Lemma skip_fields_cons q tbl f ws l :
  skip_fields q tbl (f :: ws) l = dlet r := skip q tbl (snd f) l in skip_fields q tbl ws r.
Proof.
  unfold skip_fields. cbn [fold_left dbind].
  destruct (skip q tbl (snd f) l); [reflexivity| |]; cbn [dbind]; now apply skip_fields_bad; auto.
Qed.

Lemma word_take p k n rest : word_size p = Some k -> n < 256 ^ k ->
  take_bytes k (le_digits (N.to_nat k) n ++ rest) = Some (le_digits (N.to_nat k) n, rest).
Proof.
  intros _ _. pose proof (take_ok (le_digits (N.to_nat k) n) rest) as H. unfold blen in H.
  rewrite le_digits_length, N2Nat.id in H. exact H.
Qed.

Theorem skip_ok_all :
  (forall c v b, enc c v b -> forall q tbl w rest, stands tbl w c -> (depth c <= q)%nat ->
     skip q tbl w (b ++ rest) = DOk rest) /\
  (forall c vs b, enc_all c vs b -> forall q tbl w rest, stands tbl w c -> (depth c <= q)%nat ->
     exists xs, many (fun l => dlet r := skip q tbl w l in DOk (tt, r)) (length vs) (b ++ rest) = DOk (xs, rest)) /\
  (forall fs vs b, enc_fields fs vs b -> forall q tbl ws rest, stands_fields tbl ws fs -> (max_depth fs <= q)%nat ->
     skip_fields q tbl ws (b ++ rest) = DOk rest).
Proof.
  apply enc_mutind.
  - intros q tbl w rest Hw Hq. inversion Hw; subst. destruct q; [cbn in Hq; lia|]. reflexivity.
  - intros q tbl w rest Hw Hq. inversion Hw; subst. destruct q; [cbn in Hq; lia|]. reflexivity.
  - intros b q tbl w rest Hw Hq. inversion Hw; subst. destruct q; [cbn in Hq; lia|]. now destruct b.
  - intros n l Hl q tbl w rest Hw Hq. inversion Hw; subst. destruct q; [cbn in Hq; lia|].
    apply uint_last_byte in Hl as (front & final & -> & H1 & H2).
    cbn [skip skip_prim]. rewrite <- app_assoc. cbn [app]. now rewrite skip_leb_ok.
  - intros front final H1 H2 q tbl w rest Hw Hq. inversion Hw; subst. destruct q; [cbn in Hq; lia|].
    cbn [skip skip_prim]. rewrite <- app_assoc. cbn [app]. now rewrite skip_leb_ok.
  - intros p k n Hp Hn q tbl w rest Hw Hq. inversion Hw; subst. destruct q; [cbn in Hq; lia|].
    cbn [skip]. pose proof (word_take p k n rest Hp Hn) as Ht.
    destruct p; cbn [word_size] in Hp; try discriminate; cbn [skip_prim word_size];
      apply (inj Some) in Hp; subst k; rewrite Ht; reflexivity.
  - intros t l H1 H2 q tbl w rest Hw Hq. inversion Hw; subst. destruct q; [cbn in Hq; lia|].
    cbn [skip skip_prim]. rewrite <- app_assoc, read_text_ok by assumption. reflexivity.
  - intros p l H1 H2 q tbl w rest Hw Hq. inversion Hw; subst. destruct q; [cbn in Hq; lia|].
    cbn [skip skip_prim app]. rewrite <- app_assoc, read_principal_ok by assumption. reflexivity.
  - intros c q tbl w rest Hw Hq. inversion Hw; subst. destruct q; [cbn in Hq; lia|].
    cbn [skip app]. unfold lookup_type. rewrite H0. reflexivity.
  - intros c v b _ IH q tbl w rest Hw Hq. inversion Hw; subst. destruct q; [cbn in Hq; lia|]. cbn [depth] in Hq.
    cbn [skip app]. unfold lookup_type. rewrite H0. cbn [hard dbind read_bool]. apply IH; [assumption|lia].
  - intros c vs l b H2 _ IH q tbl w rest Hw Hq. inversion Hw; subst. destruct q; [cbn in Hq; lia|]. cbn [depth] in Hq.
    cbn [skip]. unfold lookup_type. rewrite H0. cbn [hard dbind]. rewrite <- app_assoc, (read_leb_ok _ _ _ H2).
    cbn [hard dbind]. rewrite Nat2N.id. edestruct (IH q tbl) as [xs ->]; [eassumption|lia|]. reflexivity.
  - intros fs vs b _ IH q tbl w rest Hw Hq. inversion Hw; subst. destruct q; [cbn in Hq; lia|]. cbn [depth] in Hq.
    cbn [skip]. unfold lookup_type. rewrite H0. cbn [hard dbind]. apply IH; [assumption|]. unfold max_depth. lia.
  - intros fs k id c v l b H2 H3 _ IH q tbl w rest Hw Hq. inversion Hw; subst. destruct q; [cbn in Hq; lia|]. cbn [depth] in Hq.
    cbn [skip]. unfold lookup_type. rewrite H0. cbn [hard dbind]. rewrite <- app_assoc, (read_leb_ok _ _ _ H3).
    cbn [hard dbind]. edestruct stands_nth as (w' & Hk & Hs); [eassumption|eassumption|].
    assert (k < length ws)%nat as Hlt by (apply nth_error_Some; congruence).
    replace (N.of_nat (length ws) <=? N.of_nat k) with false by (symmetry; apply N.leb_gt; lia).
    rewrite Nat2N.id, Hk. cbn [hard dbind snd]. apply IH; [assumption|].
    apply max_depth_nth in H2. unfold max_depth in *. lia.
  - intros c q tbl w rest _ _. exists []. reflexivity.
  - intros c v vs b bs _ IH1 _ IH2 q tbl w rest Hw Hq. cbn [length many]. rewrite <- app_assoc.
    rewrite (IH1 q tbl w) by assumption. cbn [dbind]. destruct (IH2 q tbl w rest Hw Hq) as [xs ->]. cbn [dbind]. eauto.
  - intros q tbl ws rest Hw _. inversion Hw; subst. reflexivity.
  - intros id c fs v vs b bs _ IH1 _ IH2 q tbl ws rest Hw Hq. inversion Hw; subst. cbn [max_depth fold_right snd] in Hq.
    fold (max_depth fs) in Hq. rewrite skip_fields_cons. cbn [snd]. rewrite <- app_assoc, IH1; [|assumption|lia].
    cbn [dbind]. apply IH2; [assumption|lia].
Qed.
Definition skip_ok := proj1 skip_ok_all.

(** ** Expected types *)

Section xty_ind.
  Context (P : xty -> Prop).
  Context (Hnull : P XNull) (H32 : P XNat32) (H64 : P XNat64) (Htext : P XText) (Hblob : P XBlob) (Hpr : P XPrincipal).
  Context (Hopt : forall t, P t -> P (XOpt t)) (Hvec : forall t, P t -> P (XVec t)).
  Context (Hrec : forall fs, Forall (fun f => P (snd f)) fs -> P (XRecord fs)).
  Context (Hvar : forall fs, Forall (fun f => P (snd f)) fs -> P (XVariant fs)).
  Fixpoint xty_ind2 (t : xty) : P t.
  Proof.
    destruct t as [ | | | | | |t|t|fs|fs].
    - exact Hnull. - exact H32. - exact H64. - exact Htext. - exact Hblob. - exact Hpr.
    - apply Hopt, xty_ind2.
    - apply Hvec, xty_ind2.
    - apply Hrec. induction fs as [|f fs IH]; constructor; [apply xty_ind2|exact IH].
    - apply Hvar. induction fs as [|f fs IH]; constructor; [apply xty_ind2|exact IH].
  Defined.
End xty_ind.

Fixpoint decode_fields (q : nat) (tbl : list entry) (fs : list (N * xty)) (ws : list (N * tref)) (l : bytes)
  : dres (list xval * bytes) :=
  match fs with
  | [] => dlet r := skip_fields q tbl ws l in DOk ([], r)
  | (id, t') :: fs' =>
      let '(others, ws') := span (fun w => fst w <? id) ws in
      dlet r := skip_fields q tbl others l in
      let missing := dlet v := absent t' in dlet (vs, r') := decode_fields q tbl fs' ws' r in DOk (v :: vs, r') in
      match ws' with
      | (id', w') :: ws'' =>
          if id' =? id then
            dlet (v, r1) := decode q tbl t' w' r in
            dlet (vs, r2) := decode_fields q tbl fs' ws'' r1 in DOk (v :: vs, r2)
          else missing
      | [] => missing
      end
  end.
Lemma decode_record q tbl fs i ws l : lookup_type tbl i = Some (ERecord ws) ->
  decode q tbl (XRecord fs) (Var i) l = dlet (vs, r) := decode_fields q tbl fs ws l in DOk (VRecord vs, r).
Proof.
  intros H. cbn [decode]. rewrite H. f_equal. clear H. revert ws l.
  induction fs as [|[id t'] fs IH]; intros ws l; [reflexivity|]. cbn [decode_fields].
  destruct (span (fun w => fst w <? id) ws) as [others ws'].
  destruct (skip_fields q tbl others l) as [r| |]; [|reflexivity|reflexivity]. cbn [dbind].
  destruct ws' as [|[id' w'] ws'']; [rewrite IH; reflexivity|].
  destruct (id' =? id); [|rewrite IH; reflexivity].
  destruct (decode q tbl t' w' r) as [[v r1]| |]; [|reflexivity|reflexivity]. cbn [dbind]. rewrite IH. reflexivity.
Qed.

Fixpoint pick_field (q : nat) (tbl : list entry) (fs : list (N * xty)) (id : N) (w' : tref) (r : bytes) : dres (xval * bytes) :=
  match fs with
  | [] => DSub
  | (id', t') :: fs' =>
      if id' =? id then dlet (v, r') := decode q tbl t' w' r in DOk (VVariant id v, r')
      else pick_field q tbl fs' id w' r
  end.
Lemma decode_variant q tbl fs i ws l : lookup_type tbl i = Some (EVariant ws) ->
  decode q tbl (XVariant fs) (Var i) l =
    dlet (k, r) := hard (read_leb l) in
    dlet f := hard (if N.of_nat (length ws) <=? k then None else nth_error ws (N.to_nat k)) in
    pick_field q tbl fs (fst f) (snd f) r.
Proof.
  intros H. cbn [decode]. rewrite H. destruct (read_leb l) as [[k r]|]; [|reflexivity]. cbn [hard dbind].
  destruct (N.of_nat (length ws) <=? k); [reflexivity|].
  destruct (nth_error ws (N.to_nat k)) as [[id w']|]; [|reflexivity]. cbn [hard dbind fst snd].
  induction fs as [|[id' t'] fs IH]; [reflexivity|]. cbn [pick_field]. destruct (id' =? id); [reflexivity|]. exact IH.
Qed.

Definition absent_val (t : xty) : option xval :=
  match t with XOpt _ => Some (VOpt None) | XNull => Some VNull | _ => None end.
Fixpoint coerce_fields (fs : list (N * xty)) (ws : list (N * ctype)) (vs : list cval) : option (list xval) :=
  match fs with
  | [] => Some []
  | (id, t') :: r =>
      let x := match field id ws vs with
               | Some (c', v') => coerce t' c' v'
               | None => absent_val t'
               end in
      match x, coerce_fields r ws vs with Some x, Some xs => Some (x :: xs) | _, _ => None end
  end.
Lemma coerce_record fs ws vs : coerce (XRecord fs) (CRecord ws) (URecord vs) =
  coerce_fields fs ws vs ≫= (fun xs => Some (VRecord xs)).
Proof.
  cbn [coerce]. f_equal. induction fs as [|[id t'] fs IH]; [reflexivity|]. cbn [coerce_fields]. rewrite IH. reflexivity.
Qed.
Fixpoint coerce_all (t : xty) (c : ctype) (l : list cval) : option (list xval) :=
  match l with
  | [] => Some []
  | v :: r => match coerce t c v, coerce_all t c r with Some x, Some xs => Some (x :: xs) | _, _ => None end
  end.
Lemma coerce_vec t c l : coerce (XVec t) (CVec c) (UVec l) = coerce_all t c l ≫= (fun xs => Some (VVec xs)).
Proof. cbn [coerce]. f_equal. induction l as [|v l IH]; [reflexivity|]. cbn [coerce_all]. rewrite IH. reflexivity. Qed.
Fixpoint coerce_pick (fs : list (N * xty)) (id : N) (c' : ctype) (v' : cval) : option xval :=
  match fs with
  | [] => None
  | (id', t') :: r => if id' =? id then coerce t' c' v' ≫= (fun x => Some (VVariant id x)) else coerce_pick r id c' v'
  end.
Lemma coerce_variant fs ws k v id c : nth_error ws k = Some (id, c) ->
  coerce (XVariant fs) (CVariant ws) (UVariant k v) = coerce_pick fs id c v.
Proof.
  intros H. cbn [coerce]. rewrite H. induction fs as [|[id' t'] fs IH]; [reflexivity|]. cbn [coerce_pick]. rewrite IH. reflexivity.
Qed.

(** ** Order of fields *)

Lemma rising_cons {A} a (x : A) r : rising ((a, x) :: r) -> Forall (fun f => a < fst f) r /\ rising r.
Proof.
  revert a x. induction r as [|[b y] r IH]; intros a x H; [split; constructor|].
  cbn [rising] in H. destruct H as [H1 H2]. split; [|exact H2]. constructor; [exact H1|].
  destruct (IH b y H2) as [H3 _]. clear H2. rename H3 into H2. eapply List.Forall_impl; [|exact H2]. intros f Hf. cbn beta in *. lia.
Qed.
Lemma field_none id fs vs : Forall (fun f => id < fst f) fs -> field id fs vs = None.
Proof.
  intros H. revert vs. induction H as [|[i c] fs Hi Hf IH]; intros [|v vs]; try reflexivity.
  cbn [field]. cbn [fst] in Hi. replace (i =? id) with false by (symmetry; apply N.eqb_neq; lia). apply IH.
Qed.
Lemma coerce_fields_drop fs i c ws v vs : Forall (fun f => i < fst f) fs ->
  coerce_fields fs ((i, c) :: ws) (v :: vs) = coerce_fields fs ws vs.
Proof.
  induction 1 as [|[id t] fs Hi Hf IH]; [reflexivity|]. cbn [coerce_fields field]. cbn [fst] in Hi.
  replace (i =? id) with false by (symmetry; apply N.eqb_neq; lia). now rewrite IH.
Qed.
Lemma stands_rising tbl ws fs : stands_fields tbl ws fs -> rising ws -> rising fs.
Proof.
  induction 1 as [|id w c ws fs Hw Hf IH]; [easy|]. intros H. destruct Hf as [|id' w' c' ws fs Hw' Hf]; [exact I|].
  cbn [rising] in *. destruct H as [H1 H2]. split; [exact H1|]. apply IH, H2.
Qed.

(** The steps of the loop over the fields of a record. *)
Lemma decode_fields_skip q tbl id t fs i w ws l : i < id ->
  decode_fields q tbl ((id, t) :: fs) ((i, w) :: ws) l =
  dlet r := skip q tbl w l in decode_fields q tbl ((id, t) :: fs) ws r.
Proof.
  intros H. cbn [decode_fields span fst]. replace (i <? id) with true by (symmetry; now apply N.ltb_lt).
  destruct (span (fun w => fst w <? id) ws) as [others ws'].
  rewrite skip_fields_cons. cbn [snd]. destruct (skip q tbl w l); reflexivity.
Qed.
Lemma decode_fields_hit q tbl id t fs w ws l :
  decode_fields q tbl ((id, t) :: fs) ((id, w) :: ws) l =
  dlet (v, r1) := decode q tbl t w l in dlet (vs, r2) := decode_fields q tbl fs ws r1 in DOk (v :: vs, r2).
Proof. cbn [decode_fields span fst]. rewrite N.ltb_irrefl, N.eqb_refl. reflexivity. Qed.
Lemma decode_fields_miss q tbl id t fs ws l : match ws with [] => True | (i, _) :: _ => id < i end ->
  decode_fields q tbl ((id, t) :: fs) ws l =
  dlet v := absent t in dlet (vs, r') := decode_fields q tbl fs ws l in DOk (v :: vs, r').
Proof.
  destruct ws as [|[i w] ws]; [reflexivity|]. intros H. cbn [decode_fields span fst].
  replace (i <? id) with false by (symmetry; apply N.ltb_ge; lia).
  replace (i =? id) with false by (symmetry; apply N.eqb_neq; lia). reflexivity.
Qed.

Definition table_ok (tbl : list entry) : Prop :=
  Forall (fun e => match e with ERecord fs | EVariant fs => rising fs | _ => True end) tbl.
Lemma table_rising tbl i ws : table_ok tbl -> nth_error tbl i = Some (ERecord ws) -> rising ws.
Proof.
  intros H Hi. apply nth_error_In in Hi. unfold table_ok in H. rewrite List.Forall_forall in H. now apply H in Hi.
Qed.

Lemma absent_ok t : absent t = match absent_val t with Some x => DOk x | None => DSub end.
Proof. now destruct t. Qed.

(** What is decoded is what the receiver should get. *)
Definition delivers (t : xty) : Prop := forall c v b q tbl w rest,
  enc c v b -> stands tbl w c -> (depth c <= q)%nat -> table_ok tbl -> ordered t ->
  decode q tbl t w (b ++ rest) = match coerce t c v with Some x => DOk (x, rest) | None => DSub end.

Lemma enc_bytes vs b : enc_all (CPrim PNat8) vs b -> b = map byte_val vs.
Proof.
  intros H. remember (CPrim PNat8) as c eqn:Ec. induction H as [|c v vs b bs H1 H2 IH]; [reflexivity|]. subst c.
  cbn [map]. rewrite <- IH by reflexivity. inversion H1; subst. cbn [word_size] in *.
  match goal with H : Some _ = Some _ |- _ => apply (inj Some) in H; subst end.
  change (N.to_nat 1) with 1%nat. cbn [le_digits app byte_val]. rewrite N.mod_small by lia. reflexivity.
Qed.

Lemma many_delivers t c vs b q tbl w rest : delivers t ->
  enc_all c vs b -> stands tbl w c -> (depth c <= q)%nat -> table_ok tbl -> ordered t ->
  many (decode q tbl t w) (length vs) (b ++ rest) =
    match coerce_all t c vs with Some xs => DOk (xs, rest) | None => DSub end.
Proof.
  intros Ht H. revert rest. induction H as [|c v vs b bs H1 H2 IH]; intros rest Hw Hq Htb Ho; [reflexivity|].
  cbn [length many coerce_all]. rewrite <- app_assoc, (Ht c v b) by assumption.
  destruct (coerce t c v) as [x|]; [|reflexivity]. cbn [dbind]. rewrite IH by assumption.
  destruct (coerce_all t c vs); reflexivity.
Qed.

Lemma fields_deliver fs : Forall (fun f => delivers (snd f)) fs -> rising fs ->
  fold_right (fun f P => ordered (snd f) /\ P) True fs ->
  forall cs vs b, enc_fields cs vs b -> forall ws q tbl rest, stands_fields tbl ws cs -> rising ws ->
  (max_depth cs <= q)%nat -> table_ok tbl ->
  decode_fields q tbl fs ws (b ++ rest) = match coerce_fields fs cs vs with Some xs => DOk (xs, rest) | None => DSub end.
Proof.
  induction 1 as [|[id t] fs Ht Hfs IHfs]; intros Hr Ho.
  - intros cs vs b H ws q tbl rest Hw _ Hq _. cbn [decode_fields coerce_fields].
    rewrite (proj2 (proj2 skip_ok_all) cs vs b H q tbl ws rest Hw Hq). reflexivity.
  - apply rising_cons in Hr as [Hid Hr]. cbn [fold_right snd] in Ho, Ht. destruct Ho as [Ho1 Ho2].
    specialize (IHfs Hr Ho2).
    intros cs vs b H. induction H as [|i c cs v vs b bs H1 H2 IH]; intros ws q tbl rest Hw Hrw Hq Htb.
    + inversion Hw; subst. rewrite decode_fields_miss by exact I. rewrite absent_ok. cbn [coerce_fields field].
      destruct (absent_val t) as [x|]; [|reflexivity]. cbn [dbind].
      rewrite (IHfs [] [] []) by (first [constructor|assumption]).
      destruct (coerce_fields fs [] []); reflexivity.
    + inversion Hw as [|? w ? ws' ? Hw1 Hw2]; subst.
      destruct (rising_cons _ _ _ Hrw) as [Hi Hrw']. destruct (rising_cons _ _ _ (stands_rising _ _ _ Hw Hrw)) as [Hi' _].
      assert (depth c <= q /\ max_depth cs <= q)%nat as [Hq1 Hq2] by (cbn [max_depth fold_right snd] in Hq; fold (max_depth cs) in Hq; lia).
      destruct (N.lt_trichotomy i id) as [L|[-> | G]].
      * rewrite decode_fields_skip by exact L. rewrite <- app_assoc, (skip_ok c v b H1 q tbl w) by assumption.
        cbn [dbind]. rewrite IH by assumption. rewrite coerce_fields_drop; [reflexivity|].
        constructor; [exact L|]. eapply List.Forall_impl; [|exact Hid]. intros f Hf. cbn beta in *. lia.
      * rewrite decode_fields_hit. rewrite <- app_assoc, (Ht c v b) by assumption. cbn [coerce_fields field].
        rewrite N.eqb_refl. destruct (coerce t c v) as [x|]; [|reflexivity]. cbn [dbind].
        rewrite (IHfs cs vs bs) by assumption. rewrite coerce_fields_drop by exact Hid.
        destruct (coerce_fields fs cs vs); reflexivity.
      * rewrite decode_fields_miss by exact G. rewrite absent_ok. cbn [coerce_fields field].
        replace (i =? id) with false by (symmetry; apply N.eqb_neq; lia).
        rewrite field_none by (eapply List.Forall_impl; [|exact Hi']; intros f Hf; cbn beta in *; lia).
        destruct (absent_val t) as [x|]; [|reflexivity]. cbn [dbind].
        rewrite (IHfs ((i, c) :: cs) (v :: vs) (b ++ bs)) by (first [constructor; assumption|assumption]).
        destruct (coerce_fields fs ((i, c) :: cs) (v :: vs)); reflexivity.
Qed.

Theorem decode_delivers t : delivers t.
Proof.
  induction t as [ | | | | | |t IHt|t IHt|fs IHfs|fs IHfs] using xty_ind2; intros c v b q tbl w rest He Hw Hq Htb Ho.
  - inversion He; subst; inversion Hw; subst; try reflexivity. now destruct p.
  - inversion He; subst; inversion Hw; subst; try reflexivity.
    destruct p; cbn [word_size] in *; try discriminate; try reflexivity.
    assert (k = 4) as -> by congruence. cbn [decode coerce]. rewrite (word_take PNat32) by (assumption || reflexivity).
    cbn [hard dbind]. rewrite le_value_digits by assumption. reflexivity.
  - inversion He; subst; inversion Hw; subst; try reflexivity.
    destruct p; cbn [word_size] in *; try discriminate; try reflexivity.
    assert (k = 8) as -> by congruence. cbn [decode coerce]. rewrite (word_take PNat64) by (assumption || reflexivity).
    cbn [hard dbind]. rewrite le_value_digits by assumption. reflexivity.
  - inversion He; subst; inversion Hw; subst; try reflexivity; [now destruct p|].
    cbn [decode coerce]. rewrite <- app_assoc, read_text_ok by assumption. reflexivity.
  - inversion He; subst; inversion Hw; subst; try reflexivity; cbn [decode coerce]; unfold lookup_type;
      try match goal with H : nth_error tbl _ = _ |- _ => rewrite H end; try reflexivity.
    match goal with H : stands tbl ?w0 _ |- match ?w0 with _ => _ end = _ => inversion H; subst; try reflexivity end.
    destruct p; try reflexivity. unfold read_counted.
    rewrite <- app_assoc, (read_leb_ok l (N.of_nat (length vs))) by assumption.
    match goal with H : enc_all _ _ _ |- _ => apply enc_bytes in H as -> end.
    pose proof (take_ok (map byte_val vs) rest) as Hk. unfold blen in Hk. rewrite map_length in Hk. rewrite Hk. reflexivity.
  - inversion He; subst; inversion Hw; subst; try reflexivity; [now destruct p|].
    cbn [decode coerce app]. rewrite <- app_assoc, read_principal_ok by assumption. reflexivity.
  - (* options *)
    pose proof (skip_ok c v b He q tbl w rest Hw Hq) as Hs.
    pose proof (IHt c v b q tbl w rest He Hw Hq Htb Ho) as Hd.
    assert (forall k, recover (decode q tbl t w (b ++ rest)) (skip q tbl w (b ++ rest)) = k ->
            match t with XNull | XOpt _ => dlet r := skip q tbl w (b ++ rest) in DOk (VOpt None, r)
                       | _ => recover (decode q tbl t w (b ++ rest)) (skip q tbl w (b ++ rest)) end =
            match Some (VOpt (if nullable t then None else coerce t c v)) with Some x => DOk (x, rest) | None => DSub end) as Hg.
    { intros _ _. rewrite Hs, Hd. destruct t; cbn [nullable dbind]; try reflexivity;
        match goal with |- context [coerce ?t c v] => destruct (coerce t c v) end; reflexivity. }
    specialize (Hg _ eq_refl).
    inversion He; subst; inversion Hw; subst; try reflexivity; cbn [decode coerce]; unfold lookup_type;
      try match goal with H : nth_error tbl _ = _ |- _ => rewrite H end; try exact Hg; try reflexivity.
    + destruct p; first [exact Hg|discriminate].
    + cbn [app read_bool hard dbind].
      match goal with H1 : enc ?c0 ?v0 ?b0, H2 : stands tbl ?w0 ?c0 |- _ =>
        cbn [depth] in Hq; rewrite (IHt c0 v0 b0) by (assumption || lia); rewrite (skip_ok c0 v0 b0 H1) by (assumption || lia);
        destruct (coerce t c0 v0); reflexivity end.
  - (* vectors *)
    inversion He; subst; inversion Hw; subst; try reflexivity; cbn [decode]; unfold lookup_type;
      try match goal with H : nth_error tbl _ = _ |- _ => rewrite H end; try reflexivity.
    rewrite <- app_assoc, (read_leb_ok l (N.of_nat (length vs))) by assumption. cbn [hard dbind]. rewrite Nat2N.id.
    cbn [depth] in Hq. erewrite many_delivers; [|exact IHt|eassumption|eassumption|lia|assumption|assumption].
    rewrite coerce_vec. destruct (coerce_all t c0 vs); reflexivity.
  - (* records *)
    inversion He; subst; inversion Hw; subst; try reflexivity;
      try (cbn [decode coerce]; unfold lookup_type; match goal with H : nth_error tbl _ = _ |- _ => rewrite H end; reflexivity).
    rewrite (decode_record _ _ _ _ ws) by assumption. cbn [ordered] in Ho. destruct Ho as [Ho1 Ho2].
    cbn [depth] in Hq. erewrite fields_deliver; try eassumption.
    + rewrite coerce_record. match goal with |- context [coerce_fields ?a ?b ?c] => destruct (coerce_fields a b c) end; reflexivity.
    + eapply table_rising; eassumption.
    + unfold max_depth. lia.
  - (* variants *)
    inversion He; subst; inversion Hw; subst; try reflexivity;
      try (cbn [decode coerce]; unfold lookup_type; match goal with H : nth_error tbl _ = _ |- _ => rewrite H end; reflexivity).
    rewrite (decode_variant _ _ _ _ ws) by assumption.
    rewrite <- app_assoc, (read_leb_ok l (N.of_nat k)) by assumption. cbn [hard dbind].
    edestruct stands_nth as (w' & Hk & Hs); [eassumption|eassumption|].
    assert (k < length ws)%nat as Hlt by (apply nth_error_Some; congruence).
    replace (N.of_nat (length ws) <=? N.of_nat k) with false by (symmetry; apply N.leb_gt; lia).
    rewrite Nat2N.id, Hk. cbn [hard dbind fst snd]. erewrite coerce_variant by eassumption.
    assert (depth c0 <= q)%nat as Hq' by (match goal with H : nth_error fs0 k = _ |- _ => apply max_depth_nth in H; cbn [depth] in Hq; unfold max_depth in H; lia end).
    cbn [ordered] in Ho. induction IHfs as [|[id' t'] fs Ht Hfs IH]; [reflexivity|].
    cbn [pick_field coerce_pick]. cbn [fold_right snd] in Ho, Ht. destruct Ho as [Ho1 Ho2]. destruct (id' =? id).
    + match goal with H1 : enc c0 v0 ?b0 |- _ => rewrite (Ht c0 v0 b0) by assumption end.
      destruct (coerce t' c0 v0); reflexivity.
    + apply IH. exact Ho2.
Qed.
