(** Messages: the arguments arrive as the specification says, and whatever is accepted is of
    the expected type. *)
From Coq Require Import Strings.String.
From Verif Require Import Base BaseLemmas SpecHash HashProofs Candid SpecCandid CandidBase CandidHeader CandidProofs.
Local Open Scope N_scope.

Lemma skip_args_cons q tbl w ws l :
  fold_left (fun x w => dlet r := x in skip q tbl w r) (w :: ws) (DOk l) =
  dlet r := skip q tbl w l in fold_left (fun x w => dlet r := x in skip q tbl w r) ws (DOk r).
Proof.
  cbn [fold_left dbind]. assert (forall x : dres bytes, x = DSub \/ x = DErr ->
    fold_left (fun x w => dlet r := x in skip q tbl w r) ws x = x) as H.
  { intros x Hx. induction ws as [|f ws IH]; [reflexivity|]. cbn [fold_left]. destruct Hx as [-> | ->]; exact IH. }
  destruct (skip q tbl w l); [reflexivity| |]; cbn [dbind]; now apply H; auto.
Qed.

Lemma enc_args_skip cs vs b : enc_args cs vs b -> forall q tbl ws rest, Forall2 (stands tbl) ws cs ->
  Forall (fun c => (depth c <= q)%nat) cs ->
  fold_left (fun x w => dlet r := x in skip q tbl w r) ws (DOk (b ++ rest)) = DOk rest.
Proof.
  induction 1 as [|c cs v vs b bs H1 H2 IH]; intros q tbl ws rest Hw Hq.
  - inversion Hw; subst. reflexivity.
  - inversion Hw as [|w ? ws' ? Hw1 Hw2]; subst. inversion Hq as [|? ? Hq1 Hq2]; subst.
    rewrite skip_args_cons, <- app_assoc, (skip_ok c v b) by assumption. cbn [dbind]. now apply IH.
Qed.

Lemma decode_each_nil q tbl ts l : exists o, decode_each q tbl ts [] l = match o with Some xs => DOk (xs, l) | None => DSub end
  /\ coerce_args ts [] [] = o.
Proof.
  induction ts as [|t ts IH]; [exists (Some []); split; reflexivity|]. destruct IH as (o & H1 & H2).
  cbn [decode_each coerce_args]. rewrite H1, H2, absent_ok. unfold absent_val. eexists. split; [|reflexivity].
  destruct t; cbn [dbind]; try reflexivity; destruct o; reflexivity.
Qed.

Lemma decode_each_ok ts : forall cs vs b, enc_args cs vs b -> forall q tbl ws rest, Forall2 (stands tbl) ws cs ->
  Forall (fun c => (depth c <= q)%nat) cs -> table_ok tbl -> Forall ordered ts ->
  decode_each q tbl ts ws (b ++ rest) = match coerce_args ts cs vs with Some xs => DOk (xs, rest) | None => DSub end.
Proof.
  induction ts as [|t ts IH]; intros cs vs b H q tbl ws rest Hw Hq Htb Ho.
  - assert (decode_each q tbl [] ws (b ++ rest) =
      dlet r := fold_left (fun x w => dlet r := x in skip q tbl w r) ws (DOk (b ++ rest)) in DOk ([], r)) as -> by (now destruct ws).
    erewrite enc_args_skip by eassumption. reflexivity.
  - inversion Ho as [|? ? Ho1 Ho2]; subst. destruct H as [|c cs v vs b bs H1 H2].
    + inversion Hw; subst. destruct (decode_each_nil q tbl (t :: ts) ([] ++ rest)) as (o & -> & ->). reflexivity.
    + inversion Hw as [|w ? ws' ? Hw1 Hw2]; subst. inversion Hq as [|? ? Hq1 Hq2]; subst. cbn [decode_each coerce_args].
      rewrite <- app_assoc, (decode_delivers t c v b) by assumption.
      destruct (coerce t c v) as [x|]; [|reflexivity]. cbn [dbind]. rewrite (IH cs vs bs) by assumption.
      destruct (coerce_args ts cs vs); reflexivity.
Qed.

Lemma header_table_ok h a : w_header h a -> table_ok (h_table h).
Proof.
  intros (x & y & _ & _ & _ & H & _). unfold table_ok. eapply List.Forall_impl; [|exact H].
  intros e He. destruct e; trivial; apply He.
Qed.

Theorem message_delivers q ts msg cs vs : carries q msg cs vs -> Forall ordered ts ->
  decode_args q ts msg = coerce_args ts cs vs.
Proof.
  intros (h & a & b & Hh & Hs & He & Hq & ->) Ho. unfold decode_args.
  assert (read_header (a ++ b) = Some (h, b)) as -> by (apply read_header_iff; eauto).
  rewrite <- (app_nil_r b). erewrite decode_each_ok; try eassumption; [|now apply header_table_ok in Hh].
  destruct (coerce_args ts cs vs); reflexivity.
Qed.

(** ** Accepted values *)

Lemma many_fits {A} (f : bytes -> dres (A * bytes)) (P : A -> Prop) n :
  (forall l a r, f l = DOk (a, r) -> P a) -> forall l xs r, many f n l = DOk (xs, r) -> Forall P xs.
Proof.
  intros Hf. induction n as [|n IH]; intros l xs r H; cbn [many] in H.
  - injection H as <- _. constructor.
  - destruct (f l) as [[a r1]| |] eqn:E; cbn [dbind] in H; try discriminate.
    destruct (many f n r1) as [[ys r2]| |] eqn:E2; cbn [dbind] in H; try discriminate.
    injection H as <- _. constructor; eauto.
Qed.

Definition sound (t : xty) : Prop := forall q tbl w l x r, decode q tbl t w l = DOk (x, r) -> fits t x.

Lemma absent_fits t v : absent t = DOk v -> fits t v.
Proof. destruct t; cbn; intros H; try discriminate; injection H as <-; constructor. Qed.

Lemma recover_fits t x s v r : (forall v r, x = DOk (v, r) -> fits t v) -> recover x s = DOk (v, r) -> fits (XOpt t) v.
Proof.
  intros Hx. destruct x as [[v1 r1]| |]; cbn [recover].
  - intros H. injection H as <- _. constructor. eauto.
  - destruct s; cbn [dbind]; intros H; try discriminate. injection H as <- _. constructor.
  - discriminate.
Qed.

Lemma fields_sound fs : Forall (fun f => sound (snd f)) fs -> forall q tbl ws l xs r,
  decode_fields q tbl fs ws l = DOk (xs, r) -> Forall2 (fun f v => fits (snd f) v) fs xs.
Proof.
  induction 1 as [|[id t] fs Ht Hfs IH]; intros q tbl ws l xs r H; cbn [decode_fields] in H.
  - destruct (skip_fields q tbl ws l); cbn [dbind] in H; try discriminate. injection H as <- _. constructor.
  - cbn [snd] in Ht. destruct (span (fun w => fst w <? id) ws) as [others ws'].
    destruct (skip_fields q tbl others l) as [r0| |]; cbn [dbind] in H; try discriminate.
    assert ((dlet v := absent t in dlet (vs, r') := decode_fields q tbl fs ws' r0 in DOk (v :: vs, r')) = DOk (xs, r) ->
            Forall2 (fun f v => fits (snd f) v) ((id, t) :: fs) xs) as Hm.
    { intros Hm. destruct (absent t) as [v| |] eqn:E; cbn [dbind] in Hm; try discriminate.
      destruct (decode_fields q tbl fs ws' r0) as [[vs r']| |] eqn:E2; cbn [dbind] in Hm; try discriminate.
      injection Hm as <- _. constructor; [now apply absent_fits|eauto]. }
    destruct ws' as [|[id' w'] ws'']; [auto|]. destruct (id' =? id); [|auto]. clear Hm.
    destruct (decode q tbl t w' r0) as [[v r1]| |] eqn:E; cbn [dbind] in H; try discriminate.
    destruct (decode_fields q tbl fs ws'' r1) as [[vs r']| |] eqn:E2; cbn [dbind] in H; try discriminate.
    injection H as <- _. constructor; [eapply Ht; exact E|eauto].
Qed.

Lemma read_text_utf8 l b r : read_text l = Some (b, r) -> utf8_text b.
Proof.
  unfold read_text. destruct (read_counted l) as [[t r']|]; [|discriminate]. destruct (utf8 t) eqn:E; [|discriminate].
  intros H. apply (inj Some) in H. injection H as <- _. now apply utf8_iff.
Qed.

Theorem decode_sound t : sound t.
Proof.
  induction t as [ | | | | | |t IHt|t IHt|fs IHfs|fs IHfs] using xty_ind2; intros q tbl w l x r H; cbn [decode] in H.
  - destruct w as [[]|]; try discriminate. injection H as <- _. constructor.
  - destruct w as [[]|]; try discriminate. destruct (take_bytes 4 l) as [[b r']|] eqn:E; cbn [hard dbind] in H; try discriminate.
    injection H as <- _. apply take_some in E as [_ E]. constructor. pose proof (le_value_bound b) as Hb. rewrite E in Hb. exact Hb.
  - destruct w as [[]|]; try discriminate. destruct (take_bytes 8 l) as [[b r']|] eqn:E; cbn [hard dbind] in H; try discriminate.
    injection H as <- _. apply take_some in E as [_ E]. constructor. pose proof (le_value_bound b) as Hb. rewrite E in Hb. exact Hb.
  - destruct w as [[]|]; try discriminate. destruct (read_text l) as [[b r']|] eqn:E; cbn [hard dbind] in H; try discriminate.
    injection H as <- _. constructor. now apply read_text_utf8 in E.
  - destruct w as [|i]; try discriminate. destruct (lookup_type tbl i) as [[|[[]|]| | | | |]|]; try discriminate.
    destruct (read_counted l) as [[b r']|]; cbn [hard dbind] in H; try discriminate. injection H as <- _. constructor.
  - destruct w as [[]|]; try discriminate. destruct (read_principal l) as [[b r']|] eqn:E; cbn [hard dbind] in H; try discriminate.
    injection H as <- _. constructor. unfold read_principal in E. destruct l as [|[] l]; try discriminate.
    destruct (read_counted l) as [[p r2]|]; [|discriminate]. destruct (29 <? blen p) eqn:E2; [discriminate|].
    apply N.ltb_ge in E2. apply (inj Some) in E. injection E as <- _. exact E2.
  - (* options *)
    assert (forall w, recover (decode q tbl t w l) (skip q tbl w l) = DOk (x, r) -> fits (XOpt t) x) as Hr.
    { intros w'. apply recover_fits. intros v1 r1. apply IHt. }
    assert (forall w, (match t with XNull | XOpt _ => dlet r := skip q tbl w l in DOk (VOpt None, r)
                       | _ => recover (decode q tbl t w l) (skip q tbl w l) end) = DOk (x, r) -> fits (XOpt t) x) as Hg.
    { intros w'. destruct t; try apply Hr; destruct (skip q tbl w' l); cbn [dbind]; intros Hn; try discriminate;
        injection Hn as <- _; constructor. }
    destruct w as [[]|i]; try (apply Hg in H; exact H); try (injection H as <- _; constructor).
    destruct (lookup_type tbl i) as [[w'| | | | | |]|]; try (apply Hg in H; exact H).
    destruct (read_bool l) as [[[] r']|]; cbn [hard dbind] in H; try discriminate.
    + revert H. apply recover_fits. intros v1 r1. apply IHt.
    + injection H as <- _. constructor.
  - destruct w as [|i]; try discriminate. destruct (lookup_type tbl i) as [[|w'| | | | |]|]; try discriminate.
    destruct (read_leb l) as [[n r']|]; cbn [hard dbind] in H; try discriminate.
    destruct (many (decode q tbl t w') (N.to_nat n) r') as [[vs r2]| |] eqn:E; cbn [dbind] in H; try discriminate.
    injection H as <- _. constructor. eapply many_fits; [|exact E]. intros l' a r3. apply IHt.
  - destruct w as [|i]; [discriminate|]. destruct (lookup_type tbl i) as [[| |ws| | | |]|] eqn:E; try discriminate.
    change (decode q tbl (XRecord fs) (Var i) l = DOk (x, r)) in H || idtac.
    pose proof (decode_record q tbl fs i ws l E) as Hd. cbn [decode] in Hd. rewrite E in Hd. rewrite Hd in H. clear Hd.
    destruct (decode_fields q tbl fs ws l) as [[vs r2]| |] eqn:E2; cbn [dbind] in H; try discriminate.
    injection H as <- _. constructor. eapply fields_sound; eassumption.
  - destruct w as [|i]; [discriminate|]. destruct (lookup_type tbl i) as [[| | |ws| | |]|] eqn:E; try discriminate.
    pose proof (decode_variant q tbl fs i ws l E) as Hd. cbn [decode] in Hd. rewrite E in Hd. rewrite Hd in H. clear Hd.
    destruct (read_leb l) as [[k r']|]; cbn [hard dbind] in H; try discriminate.
    destruct (N.of_nat (length ws) <=? k); cbn [hard dbind] in H; try discriminate.
    destruct (nth_error ws (N.to_nat k)) as [[id w']|]; cbn [hard dbind fst snd] in H; try discriminate.
    assert (exists t v, In (id, t) fs /\ fits t v /\ x = VVariant id v) as (t & v & H1 & H2 & ->).
    { induction IHfs as [|[id' t'] fs Ht Hfs IH]; [discriminate|]. cbn [pick_field] in H. destruct (id' =? id) eqn:Ei.
      - apply N.eqb_eq in Ei as ->. destruct (decode q tbl t' w' r') as [[v r2]| |] eqn:E2; cbn [dbind] in H; try discriminate.
        injection H as <- _. exists t', v. split; [now left|]. split; [eapply Ht; exact E2|reflexivity].
      - destruct (IH H) as (t & v & H1 & H2). exists t, v. split; [now right|exact H2]. }
    now apply (fits_variant _ _ t).
Qed.

Lemma decode_each_sound ts : forall q tbl ws l xs r, decode_each q tbl ts ws l = DOk (xs, r) -> Forall2 fits ts xs.
Proof.
  induction ts as [|t ts IH]; intros q tbl ws l xs r H; cbn [decode_each] in H.
  - destruct ws; cbn [decode_each] in H;
      match type of H with (dlet _ := ?e in _) = _ => destruct e; cbn [dbind] in H; try discriminate end;
      injection H as <- _; constructor.
  - destruct ws as [|w ws].
    + destruct (absent t) as [v| |] eqn:E; cbn [dbind] in H; try discriminate.
      destruct (decode_each q tbl ts [] l) as [[vs r']| |] eqn:E2; cbn [dbind] in H; try discriminate.
      injection H as <- _. constructor; [now apply absent_fits|eauto].
    + destruct (decode q tbl t w l) as [[v r1]| |] eqn:E; cbn [dbind] in H; try discriminate.
      destruct (decode_each q tbl ts ws r1) as [[vs r']| |] eqn:E2; cbn [dbind] in H; try discriminate.
      injection H as <- _. constructor; [now apply decode_sound in E|eauto].
Qed.
Theorem message_sound q ts msg xs : decode_args q ts msg = Some xs -> Forall2 fits ts xs.
Proof.
  unfold decode_args. destruct (read_header msg) as [[h l]|]; [|discriminate].
  destruct (decode_each q (h_table h) ts (h_args h) l) as [[vs [|]]| |] eqn:E; try discriminate.
  intros H. apply (inj Some) in H as <-. now apply decode_each_sound in E.
Qed.
