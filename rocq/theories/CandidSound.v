(** What the decoder takes is written as the specification says: the bytes behind the header
    are values of the types that the header lists. *)
From Coq Require Import Strings.String.
From Verif Require Import Base BaseLemmas SpecHash HashProofs Candid SpecCandid CandidBase CandidHeader CandidProofs CandidMessages.
Local Open Scope N_scope.

(** [l] starts with a value of type [c], then comes [r]. *)
Definition value_then (c : ctype) (l r : bytes) : Prop := exists v b, enc c v b /\ l = b ++ r.
Definition values_then (c : ctype) (n : nat) (l r : bytes) : Prop :=
  exists vs b, enc_all c vs b /\ length vs = n /\ l = b ++ r.
Definition fields_then (fs : list (N * ctype)) (l r : bytes) : Prop := exists vs b, enc_fields fs vs b /\ l = b ++ r.

Lemma fields_then_nil l : fields_then [] l l.
Proof. exists [], []. split; [constructor|reflexivity]. Qed.
Lemma fields_then_cons id c fs l m r : value_then c l m -> fields_then fs m r -> fields_then ((id, c) :: fs) l r.
Proof.
  intros (v & b & H1 & ->) (vs & bs & H2 & ->). exists (v :: vs), (b ++ bs). split; [now constructor|apply app_assoc].
Qed.
Lemma fields_then_app fs gs l m r : fields_then fs l m -> fields_then gs m r -> fields_then (fs ++ gs) l r.
Proof.
  intros (vs & b & H1 & ->) H2. revert r H2. induction H1 as [|id c fs v vs b bs H1 H3 IH]; intros r H2; [exact H2|].
  cbn [app]. rewrite <- app_assoc. eapply fields_then_cons; [|apply IH; exact H2]. exists v, b. eauto.
Qed.

Lemma le_digits_value l : le_digits (length l) (le_value l) = l.
Proof.
  induction l as [|c l IH]; [reflexivity|]. cbn [length le_digits le_value]. pose proof (nb_lt c).
  replace ((nb c + 256 * le_value l) mod 256) with (nb c) by zdiv.
  replace ((nb c + 256 * le_value l) / 256) with (le_value l) by zdiv. now rewrite ch_nb, IH.
Qed.
Lemma word_then p k b l r : word_size p = Some k -> take_bytes k l = Some (b, r) -> value_then (CPrim p) l r.
Proof.
  intros Hp H. apply take_some in H as [-> <-]. exists (UNat (le_value b)), b. split; [|reflexivity].
  pose proof (enc_word p (blen b) (le_value b) Hp (le_value_bound b)) as He. unfold blen in He.
  now rewrite Nat2N.id, le_digits_value in He.
Qed.
Lemma text_then l b r : read_text l = Some (b, r) -> value_then (CPrim PText) l r.
Proof.
  intros H. apply read_text_iff in H as (x & (y & Hy & ->) & Hu & ->). exists (UText b), (y ++ b).
  split; [now constructor|reflexivity].
Qed.
Lemma principal_then l b r : read_principal l = Some (b, r) -> value_then (CPrim PPrincipal) l r.
Proof.
  intros H. apply read_principal_some in H as (x & H1 & H2 & ->). exists (UPrincipal b), (x01 :: x ++ b).
  split; [now constructor|]. cbn [app]. now rewrite <- app_assoc.
Qed.
Lemma skip_leb_some l r : skip_leb l = Some r ->
  exists front final, l = front ++ final :: r /\ Forall (fun b => 128 <= nb b) front /\ nb final < 128.
Proof.
  induction l as [|c l IH]; [discriminate|]. cbn [skip_leb]. destruct (nb c <? 128) eqn:E.
  - apply N.ltb_lt in E. intros H. apply (inj Some) in H as ->. exists [], c. now repeat split.
  - apply N.ltb_ge in E. intros H. destruct (IH H) as (front & final & -> & H1 & H2). exists (c :: front), final.
    repeat split; [now constructor|exact H2].
Qed.
Lemma bool_then l b r : read_bool l = Some (b, r) -> l = (if b then x01 else x00) :: r.
Proof. destruct l as [|[] l]; cbn; try discriminate; intros H; apply (inj Some) in H; now injection H as <- <-. Qed.

Lemma skip_prim_then p l r : skip_prim p l = DOk r -> value_then (CPrim p) l r.
Proof.
  destruct p; cbn [skip_prim word_size]; intros H;
    try (match type of H with (dlet _ := hard (take_bytes ?k l) in _) = _ => destruct (take_bytes k l) as [[b r']|] eqn:E; [|discriminate];
           cbn [hard dbind] in H; injection H as ->; eapply word_then; [reflexivity|exact E] end).
  - injection H as ->. exists UNull, []. split; [constructor|reflexivity].
  - destruct (read_bool l) as [[b r']|] eqn:E; [|discriminate]. cbn [hard dbind] in H. injection H as ->.
    apply bool_then in E as ->. exists (UBool b), [if b then x01 else x00]. split; [constructor|reflexivity].
  - destruct (skip_leb l) as [r'|] eqn:E; [|discriminate]. cbn [hard] in H. injection H as ->.
    apply skip_leb_some in E as (front & final & -> & H1 & H2). destruct (last_byte_uint front final H1 H2) as [n Hn].
    exists (UNat n), (front ++ [final]). split; [now constructor|now rewrite <- app_assoc].
  - destruct (skip_leb l) as [r'|] eqn:E; [|discriminate]. cbn [hard] in H. injection H as ->.
    apply skip_leb_some in E as (front & final & -> & H1 & H2).
    exists (UInt front final), (front ++ [final]). split; [now constructor|now rewrite <- app_assoc].
  - destruct (read_text l) as [[b r']|] eqn:E; [|discriminate]. cbn [hard dbind] in H. injection H as ->. now apply text_then in E.
  - injection H as ->. exists UNull, []. split; [constructor|reflexivity].
  - discriminate.
  - destruct (read_principal l) as [[b r']|] eqn:E; [|discriminate]. cbn [hard dbind] in H. injection H as ->. now apply principal_then in E.
Qed.

Lemma many_then {A} (f : bytes -> dres (A * bytes)) c n :
  (forall l a r, f l = DOk (a, r) -> value_then c l r) -> forall l xs r, many f n l = DOk (xs, r) -> values_then c n l r.
Proof.
  intros Hf. induction n as [|n IH]; intros l xs r H; cbn [many] in H.
  - injection H as _ <-. exists [], []. repeat split. constructor.
  - destruct (f l) as [[a r1]| |] eqn:E; cbn [dbind] in H; try discriminate.
    destruct (many f n r1) as [[ys r2]| |] eqn:E2; cbn [dbind] in H; try discriminate.
    injection H as _ <-. apply Hf in E as (v & b & H1 & ->). apply IH in E2 as (vs & bs & H2 & <- & ->).
    exists (v :: vs), (b ++ bs). repeat split; [now constructor|apply app_assoc].
Qed.
Lemma vec_then c l n m r : read_leb l = Some (n, m) -> values_then c (N.to_nat n) m r -> value_then (CVec c) l r.
Proof.
  intros H (vs & b & H1 & H2 & ->). apply read_leb_iff in H as (x & Hx & ->). exists (UVec vs), (x ++ b).
  split; [|apply app_assoc]. constructor; [|exact H1]. now rewrite H2, N2Nat.id.
Qed.
Lemma stands_nth2 tbl ws fs k id w : stands_fields tbl ws fs -> nth_error ws k = Some (id, w) ->
  exists c, nth_error fs k = Some (id, c) /\ stands tbl w c.
Proof.
  intros H. revert k. induction H as [|i w' d ws fs Hw Hf IH]; intros [|k] Hk; cbn [nth_error] in *; try discriminate.
  - apply (inj Some) in Hk. injection Hk as -> ->. eauto.
  - auto.
Qed.
Lemma variant_then fs k id c l m r : read_leb l = Some (k, m) -> nth_error fs (N.to_nat k) = Some (id, c) ->
  value_then c m r -> value_then (CVariant fs) l r.
Proof.
  intros H Hk (v & b & H1 & ->). apply read_leb_iff in H as (x & Hx & ->). exists (UVariant (N.to_nat k) v), (x ++ b).
  split; [|apply app_assoc]. econstructor; [exact Hk| |exact H1]. now rewrite N2Nat.id.
Qed.
Lemma some_then c l r : value_then c l r -> value_then (COpt c) (x01 :: l) r.
Proof. intros (v & b & H & ->). exists (UOpt (Some v)), (x01 :: b). split; [now constructor|reflexivity]. Qed.
Lemma none_then c l : value_then (COpt c) (x00 :: l) l.
Proof. exists (UOpt None), [x00]. split; [constructor|reflexivity]. Qed.

Lemma skip_fields_then q tbl (Hs : forall w l r c, skip q tbl w l = DOk r -> stands tbl w c -> value_then c l r) ws fs :
  stands_fields tbl ws fs -> forall l r, skip_fields q tbl ws l = DOk r -> fields_then fs l r.
Proof.
  induction 1 as [|id w c ws fs Hw Hf IH]; intros l r H.
  - injection H as <-. apply fields_then_nil.
  - rewrite skip_fields_cons in H. cbn [snd] in H. destruct (skip q tbl w l) as [m| |] eqn:E; cbn [dbind] in H; try discriminate.
    eapply fields_then_cons; [eapply Hs; eassumption|now apply IH].
Qed.
Theorem skip_then q : forall tbl w l r c, skip q tbl w l = DOk r -> stands tbl w c -> value_then c l r.
Proof.
  induction q as [|q IH]; intros tbl w l r c H Hw; [discriminate|]. cbn [skip] in H.
  destruct Hw as [p|i w c Hi Hw|i w c Hi Hw|i ws fs Hi Hw|i ws fs Hi Hw].
  - now apply skip_prim_then.
  - unfold lookup_type in H. rewrite Hi in H. cbn [hard dbind] in H.
    destruct (read_bool l) as [[b m]|] eqn:E; cbn [hard dbind] in H; [|discriminate]. apply bool_then in E as ->. destruct b.
    + apply some_then. eapply IH; eassumption.
    + injection H as ->. apply none_then.
  - unfold lookup_type in H. rewrite Hi in H. cbn [hard dbind] in H.
    destruct (read_leb l) as [[n m]|] eqn:E; cbn [hard dbind] in H; [|discriminate].
    match type of H with (dlet _ := ?x in _) = _ => destruct x as [[xs m']| |] eqn:E2; cbn [dbind] in H; try discriminate end.
    injection H as ->. eapply vec_then; [exact E|]. eapply many_then; [|exact E2].
    intros l' a r' H. cbn beta in H. destruct (skip q tbl w l') as [r2| |] eqn:E3; cbn [dbind] in H; try discriminate.
    injection H as _ ->. eapply IH; eassumption.
  - unfold lookup_type in H. rewrite Hi in H. cbn [hard dbind] in H.
    change (skip_fields q tbl ws l = DOk r) in H.
    destruct (skip_fields_then q tbl (IH tbl) ws fs Hw l r H) as (vs & b & H1 & ->). exists (URecord vs), b. split; [now constructor|reflexivity].
  - unfold lookup_type in H. rewrite Hi in H. cbn [hard dbind] in H.
    destruct (read_leb l) as [[k m]|] eqn:E; cbn [hard dbind] in H; [|discriminate].
    destruct (N.of_nat (length ws) <=? k); cbn [hard dbind] in H; [discriminate|].
    destruct (nth_error ws (N.to_nat k)) as [[id w']|] eqn:Ek; cbn [hard dbind snd] in H; [|discriminate].
    destruct (stands_nth2 _ _ _ _ _ _ Hw Ek) as (c & Hc & Hs). eapply variant_then; [exact E|exact Hc|]. eapply IH; eassumption.
Qed.

(** ** Expected values *)

Definition taken (t : xty) : Prop := forall q tbl w l x r c, decode q tbl t w l = DOk (x, r) -> stands tbl w c -> value_then c l r.

Lemma recover_then c l r x s v : (forall v r, x = DOk (v, r) -> value_then c l r) -> (forall r, s = DOk r -> value_then c l r) ->
  recover x s = DOk (v, r) -> value_then c l r.
Proof.
  intros Hx Hs. destruct x as [[v1 r1]| |]; cbn [recover]; [| |discriminate].
  - intros H. injection H as _ <-. eauto.
  - destruct s as [r1| |]; cbn [dbind]; try discriminate. intros H. injection H as _ <-. eauto.
Qed.

Lemma stands_span tbl (p : N -> bool) ws fs : stands_fields tbl ws fs ->
  exists fs1 fs2, fs = fs1 ++ fs2 /\ stands_fields tbl (fst (span (fun w => p (fst w)) ws)) fs1 /\
    stands_fields tbl (snd (span (fun w => p (fst w)) ws)) fs2.
Proof.
  induction 1 as [|id w c ws fs Hw Hf (fs1 & fs2 & -> & H1 & H2)].
  - exists [], []. repeat split; constructor.
  - cbn [span fst]. destruct (p id).
    + destruct (span (fun w => p (fst w)) ws) as [x y]. cbn [fst snd] in *. exists ((id, c) :: fs1), fs2.
      repeat split; [now constructor|exact H2].
    + exists [], ((id, c) :: fs1 ++ fs2). repeat split; [constructor|]. now constructor.
Qed.
Lemma fields_taken fs : Forall (fun f => taken (snd f)) fs -> forall q tbl ws cs l xs r,
  decode_fields q tbl fs ws l = DOk (xs, r) -> stands_fields tbl ws cs -> fields_then cs l r.
Proof.
  induction 1 as [|[id t] fs Ht Hfs IH]; intros q tbl ws cs l xs r H Hw; cbn [decode_fields] in H.
  - destruct (skip_fields q tbl ws l) as [r'| |] eqn:E; cbn [dbind] in H; try discriminate. injection H as _ <-.
    eapply skip_fields_then; [apply skip_then|exact Hw|exact E].
  - cbn [snd] in Ht. destruct (stands_span tbl (fun i => i <? id) ws cs Hw) as (cs1 & cs2 & -> & H1 & H2).
    destruct (span (fun w => fst w <? id) ws) as [others ws']. cbn [fst snd] in H1, H2.
    destruct (skip_fields q tbl others l) as [r0| |] eqn:E0; cbn [dbind] in H; try discriminate.
    apply (fields_then_app _ _ _ r0); [eapply skip_fields_then; [apply skip_then|exact H1|exact E0]|].
    assert ((dlet v := absent t in dlet (vs, r') := decode_fields q tbl fs ws' r0 in DOk (v :: vs, r')) = DOk (xs, r) ->
            fields_then cs2 r0 r) as Hm.
    { intros Hm. destruct (absent t) as [v| |] eqn:E; cbn [dbind] in Hm; try discriminate.
      destruct (decode_fields q tbl fs ws' r0) as [[vs r']| |] eqn:E2; cbn [dbind] in Hm; try discriminate.
      injection Hm as _ <-. eauto. }
    destruct ws' as [|[id' w'] ws'']; [auto|]. destruct (id' =? id); [|auto]. clear Hm.
    destruct (decode q tbl t w' r0) as [[v r1]| |] eqn:E; cbn [dbind] in H; try discriminate.
    destruct (decode_fields q tbl fs ws'' r1) as [[vs r']| |] eqn:E2; cbn [dbind] in H; try discriminate.
    injection H as _ <-. inversion H2; subst. eapply fields_then_cons; [eapply Ht; eassumption|eauto].
Qed.

Lemma bytes_then b : enc_all (CPrim PNat8) (map (fun c => UNat (nb c)) b) b.
Proof.
  induction b as [|c b IH]; [constructor|]. cbn [map]. change (c :: b) with ([c] ++ b). constructor; [|exact IH].
  pose proof (enc_word PNat8 1 (nb c) eq_refl (nb_lt c)) as H. cbn [N.to_nat Pos.to_nat Pos.iter_op] in H.
  change (le_digits (Pos.to_nat 1) (nb c)) with [ch (nb c mod 256)] in H.
  rewrite N.mod_small, ch_nb in H by apply nb_lt. exact H.
Qed.

Theorem decode_taken t : taken t.
Proof.
  induction t as [ | | | | | |t IHt|t IHt|fs IHfs|fs IHfs] using xty_ind2; intros q tbl w l x r c H Hw.
  - cbn [decode] in H. destruct w as [[]|]; try discriminate. injection H as _ <-. inversion Hw; subst.
    exists UNull, []. split; [constructor|reflexivity].
  - cbn [decode] in H. destruct w as [[]|]; try discriminate. destruct (take_bytes 4 l) as [[b r']|] eqn:E; cbn [hard dbind] in H; try discriminate.
    injection H as _ <-. inversion Hw; subst. eapply word_then; [reflexivity|exact E].
  - cbn [decode] in H. destruct w as [[]|]; try discriminate. destruct (take_bytes 8 l) as [[b r']|] eqn:E; cbn [hard dbind] in H; try discriminate.
    injection H as _ <-. inversion Hw; subst. eapply word_then; [reflexivity|exact E].
  - cbn [decode] in H. destruct w as [[]|]; try discriminate. destruct (read_text l) as [[b r']|] eqn:E; cbn [hard dbind] in H; try discriminate.
    injection H as _ <-. inversion Hw; subst. now apply text_then in E.
  - cbn [decode] in H. destruct w as [|i]; try discriminate. destruct (lookup_type tbl i) as [[|[[]|]| | | | |]|] eqn:Ei; try discriminate.
    destruct (read_counted l) as [[b r']|] eqn:E; cbn [hard dbind] in H; try discriminate. injection H as _ <-.
    unfold lookup_type in Ei. inversion Hw; subst; try congruence.
    match goal with H1 : nth_error tbl _ = Some (EVec ?w0), H2 : stands tbl ?w0 _ |- _ =>
      rewrite H1 in Ei; injection Ei as ->; inversion H2; subst end.
    apply read_counted_iff in E as (y & (z & Hz & ->) & ->). exists (UVec (map (fun c => UNat (nb c)) b)), (z ++ b).
    split; [|reflexivity]. constructor; [|apply bytes_then]. now rewrite map_length.
  - cbn [decode] in H. destruct w as [[]|]; try discriminate. destruct (read_principal l) as [[b r']|] eqn:E; cbn [hard dbind] in H; try discriminate.
    injection H as _ <-. inversion Hw; subst. now apply principal_then in E.
  - (* options *)
    cbn [decode] in H.
    assert (forall w c l, stands tbl w c -> recover (decode q tbl t w l) (skip q tbl w l) = DOk (x, r) -> value_then c l r) as Hr.
    { intros w' c' l' Hw'. apply recover_then.
      - intros v1 r1 E. eapply IHt; eassumption.
      - intros r1 E. eapply skip_then; eassumption. }
    assert (forall w c l, stands tbl w c -> (match t with XNull | XOpt _ => dlet r := skip q tbl w l in DOk (VOpt None, r)
                       | _ => recover (decode q tbl t w l) (skip q tbl w l) end) = DOk (x, r) -> value_then c l r) as Hg.
    { intros w' c' l' Hw'. destruct t; try (now apply Hr); destruct (skip q tbl w' l') as [r'| |] eqn:E; cbn [dbind]; intros Hn; try discriminate;
        injection Hn as _ <-; eapply skip_then; eassumption. }
    destruct w as [[]|i]; try (eapply Hg; eassumption);
      try (injection H as _ <-; inversion Hw; subst; exists UNull, []; split; [constructor|reflexivity]).
    destruct (lookup_type tbl i) as [[w'| | | | | |]|] eqn:Ei; try (eapply Hg; eassumption).
    destruct (read_bool l) as [[b r']|] eqn:E; cbn [hard dbind] in H; try discriminate. apply bool_then in E as ->.
    unfold lookup_type in Ei. inversion Hw; subst; try congruence.
    match goal with H1 : nth_error tbl _ = Some (EOpt ?w0), H2 : stands tbl ?w0 _ |- _ => rewrite H1 in Ei; injection Ei as -> end.
    destruct b.
    + apply some_then. eapply Hr; eassumption.
    + injection H as _ <-. apply none_then.
  - cbn [decode] in H. destruct w as [|i]; try discriminate. destruct (lookup_type tbl i) as [[|w'| | | | |]|] eqn:Ei; try discriminate.
    destruct (read_leb l) as [[n r']|] eqn:E; cbn [hard dbind] in H; try discriminate.
    destruct (many (decode q tbl t w') (N.to_nat n) r') as [[vs r2]| |] eqn:E2; cbn [dbind] in H; try discriminate.
    injection H as _ <-. unfold lookup_type in Ei. inversion Hw; subst; try congruence.
    match goal with H1 : nth_error tbl _ = Some (EVec ?w0), H2 : stands tbl ?w0 _ |- _ => rewrite H1 in Ei; injection Ei as -> end.
    eapply vec_then; [exact E|]. eapply many_then; [|exact E2]. intros l' a r3 H. eapply IHt; eassumption.
  - destruct w as [|i]; [discriminate|]. destruct (lookup_type tbl i) as [[| |ws| | | |]|] eqn:Ei;
      try (cbn [decode] in H; rewrite Ei in H; discriminate).
    rewrite (decode_record q tbl fs i ws l Ei) in H.
    destruct (decode_fields q tbl fs ws l) as [[vs r2]| |] eqn:E2; cbn [dbind] in H; try discriminate.
    injection H as _ <-. unfold lookup_type in Ei. inversion Hw; subst; try congruence.
    match goal with H1 : nth_error tbl _ = Some (ERecord ?w0), H2 : stands_fields tbl ?w0 _ |- _ => rewrite H1 in Ei; injection Ei as -> end.
    eapply fields_taken in E2 as (us & b & He & ->); [|exact IHfs|eassumption]. exists (URecord us), b.
    split; [now constructor|reflexivity].
  - destruct w as [|i]; [discriminate|]. destruct (lookup_type tbl i) as [[| | |ws| | |]|] eqn:Ei;
      try (cbn [decode] in H; rewrite Ei in H; discriminate).
    rewrite (decode_variant q tbl fs i ws l Ei) in H.
    destruct (read_leb l) as [[k r']|] eqn:E; cbn [hard dbind] in H; try discriminate.
    destruct (N.of_nat (length ws) <=? k); cbn [hard dbind] in H; try discriminate.
    destruct (nth_error ws (N.to_nat k)) as [[id w']|] eqn:Ek; cbn [hard dbind fst snd] in H; try discriminate.
    unfold lookup_type in Ei. inversion Hw; subst; try congruence.
    match goal with H1 : nth_error tbl _ = Some (EVariant ?w0), H2 : stands_fields tbl ?w0 _ |- _ =>
      rewrite H1 in Ei; injection Ei as ->; destruct (stands_nth2 _ _ _ _ _ _ H2 Ek) as (c & Hc & Hs) end.
    eapply variant_then; [exact E|exact Hc|].
    clear - IHfs H Hs. induction IHfs as [|[id' t'] fs Ht Hfs IH]; [discriminate|]. cbn [pick_field] in H. destruct (id' =? id).
    + destruct (decode q tbl t' w' r') as [[v r2]| |] eqn:E2; cbn [dbind] in H; try discriminate.
      injection H as _ <-. eapply Ht; eassumption.
    + apply IH. exact H.
Qed.

(** ** Messages *)

Definition args_then (cs : list ctype) (l r : bytes) : Prop := exists vs b, enc_args cs vs b /\ l = b ++ r.
Lemma args_then_cons c cs l m r : value_then c l m -> args_then cs m r -> args_then (c :: cs) l r.
Proof.
  intros (v & b & H1 & ->) (vs & bs & H2 & ->). exists (v :: vs), (b ++ bs). split; [now constructor|apply app_assoc].
Qed.
Lemma skip_args_then q tbl ws cs : Forall2 (stands tbl) ws cs -> forall l r,
  fold_left (fun x w => dlet r := x in skip q tbl w r) ws (DOk l) = DOk r -> args_then cs l r.
Proof.
  induction 1 as [|w c ws cs Hw Hf IH]; intros l r H.
  - injection H as <-. exists [], []. split; [constructor|reflexivity].
  - rewrite skip_args_cons in H. destruct (skip q tbl w l) as [m| |] eqn:E; cbn [dbind] in H; try discriminate.
    eapply args_then_cons; [eapply skip_then; eassumption|now apply IH].
Qed.
Lemma decode_each_taken ts : forall q tbl ws cs l xs r, decode_each q tbl ts ws l = DOk (xs, r) ->
  Forall2 (stands tbl) ws cs -> args_then cs l r.
Proof.
  induction ts as [|t ts IH]; intros q tbl ws cs l xs r H Hw.
  - assert (decode_each q tbl [] ws l = dlet r := fold_left (fun x w => dlet r := x in skip q tbl w r) ws (DOk l) in DOk ([], r)) as E
      by (now destruct ws). rewrite E in H.
    match type of H with (dlet _ := ?e in _) = _ => destruct e eqn:E2; cbn [dbind] in H; try discriminate end.
    injection H as _ <-. eapply skip_args_then; eassumption.
  - cbn [decode_each] in H. destruct Hw as [|w c ws cs Hw1 Hw2].
    + destruct (absent t) as [v| |] eqn:E; cbn [dbind] in H; try discriminate.
      destruct (decode_each q tbl ts [] l) as [[vs r']| |] eqn:E2; cbn [dbind] in H; try discriminate.
      injection H as _ <-. eapply IH; [exact E2|constructor].
    + destruct (decode q tbl t w l) as [[v r1]| |] eqn:E; cbn [dbind] in H; try discriminate.
      destruct (decode_each q tbl ts ws r1) as [[vs r']| |] eqn:E2; cbn [dbind] in H; try discriminate.
      injection H as _ <-. eapply args_then_cons; [eapply decode_taken; eassumption|eauto].
Qed.

(** Nothing is taken from a message without a header. *)
Theorem message_header q ts msg xs : decode_args q ts msg = Some xs -> exists h a r, w_header h a /\ msg = a ++ r.
Proof.
  unfold decode_args. destruct (read_header msg) as [[h l]|] eqn:E; [|discriminate]. intros _.
  apply read_header_iff in E as (a & Ha & ->). eauto.
Qed.
(** With a header that lists data types, the values decide. *)
Theorem message_exact q ts h a l cs xs : w_header h a -> Forall2 (stands (h_table h)) (h_args h) cs ->
  Forall (fun c => (depth c <= q)%nat) cs -> Forall ordered ts ->
  decode_args q ts (a ++ l) = Some xs <-> exists vs, enc_args cs vs l /\ coerce_args ts cs vs = Some xs.
Proof.
  intros Hh Hs Hq Ho. split.
  - intros H. assert (exists vs, enc_args cs vs l) as [vs Hv].
    { unfold decode_args in H. assert (read_header (a ++ l) = Some (h, l)) as E by (apply read_header_iff; eauto).
      rewrite E in H. destruct (decode_each q (h_table h) ts (h_args h) l) as [[ys [|]]| |] eqn:Ed; try discriminate.
      destruct (decode_each_taken _ _ _ _ _ _ _ _ Ed Hs) as (vs & b & Hb & ->). rewrite app_nil_r. eauto. }
    exists vs. split; [exact Hv|]. rewrite <- H. symmetry. apply message_delivers; [|exact Ho]. exists h, a, l. eauto 10.
  - intros (vs & Hv & <-). apply message_delivers; [|exact Ho]. exists h, a, l. eauto 10.
Qed.
