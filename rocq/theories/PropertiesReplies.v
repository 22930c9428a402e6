(** C79, for whole histories of messages. *)
From Coq Require Import Strings.String.
From Verif Require Import Base BaseLemmas Deps Asn1 Provider Candid SpecCandid CandidBase Interface SpecInterface InterfaceProofs
  InterfaceReplies RepliesFine Concrete Demo PropertiesCandid.
Local Open Scope N_scope.

(** Whatever messages the canister has received: the bytes of each of its replies carry values of
    the types that the interface declares for the method, and the client reads the reply from them. *)
Theorem C79_every_history : forall D cid q tr s e m caller cert msg out, deps_ok D -> der_texts D -> (6 <= q)%nat ->
  calls D cid q tr s -> In e tr -> ce_call e = Call m caller cert msg ->
  put_reply (ce_reply e) = Some out -> blen out < two64 ->
  carries q out (did_results m) (reply_vals (ce_reply e)) /\ js_read q m out = Some (ce_reply e).
Proof.
  intros D cid q tr s e m caller cert msg out HD HE Hq H Hin Ec Ep Hl.
  destruct (calls_fine D cid q tr s HD HE H) as [_ Hf]. rewrite List.Forall_forall in Hf. apply Hf in Hin as Ht.
  pose proof (reply_fine_of _ _ Ht Ep Hl) as Fine.
  assert (reply_for m (ce_reply e)) as Hm.
  { clear - H Hin Ec Ep. induction H as [|tr s now c s' r H IH Ht Hn Hseed Hs]; [destruct Hin|].
    apply in_app_iff in Hin as [Hin|[<-|[]]]; [now apply IH|]. cbn [ce_call ce_reply] in *. subst c.
    unfold call_step in Hs. destruct (call_op q (Call m caller cert msg)) as [o|] eqn:Eo; [|injection Hs as <- <-; discriminate].
    apply op_of_sound in Eo as (Ho & _ & _).
    assert (m <> MInit /\ m <> MPostUpgrade) as [N1 N2].
    { split; intros ->; destruct o; cbn [is_call] in Ho; try contradiction; cbn [step] in Hs.
      - destruct (do_install D cid i); injection Hs as <- <-; discriminate.
      - destruct s; [destruct (do_upgrade D cid i c)|]; injection Hs as <- <-; discriminate. }
    destruct (step_reply_for _ _ _ _ _ _ _ _ _ _ Ho N1 N2 Hs) as [Hr|[w ->]]; [exact Hr|]. discriminate. }
  split; [now apply reply_carries|now apply reply_read].
Qed.

Lemma CD_texts : der_texts CD.
Proof.
  intros k e H. unfold CD in H. cbn [d_der_err] in H. destruct (from_der asn1_leaf k) as [x|]; [|discriminate]. apply (inj Some) in H as <-.
  apply plain_utf8. destruct x; cbn [show_asn1]; plainly.
Qed.

(** Concrete: the demonstration history, every reply of it. *)
Example C79_history_case : exists msgs s, calls CD demo_cid 6 msgs s /\ omap (decoded 6) msgs = demo_tr /\
  Forall (fun e => forall m caller cert msg out, ce_call e = Call m caller cert msg -> put_reply (ce_reply e) = Some out ->
            js_read 6 m out = Some (ce_reply e)) msgs /\
  exists e out sd, In e msgs /\ ce_reply e = RDelegation (Ok sd) /\ put_reply (ce_reply e) = Some out.
Proof.
  destruct C80_case as (msgs & c & H & Ed). exists msgs, (Some c). split; [exact H|]. split; [exact Ed|].
  assert (forall e, In e msgs -> forall out, put_reply (ce_reply e) = Some out -> blen out < two64) as Hlen.
  { intros e He out Ep. destruct (call_op 6 (ce_call e)) as [o|] eqn:Eo.
    - assert (In (mkEvent (ce_time e) o (ce_reply e)) demo_tr) as Hd.
      { rewrite <- Ed. apply elem_of_list_In, elem_of_list_omap. exists e. split; [now apply elem_of_list_In|]. unfold decoded. now rewrite Eo. }
      assert (forallb (fun ev => match put_reply (ev_reply ev) with Some b => blen b <? two64 | None => true end) demo_tr = true) as Hall
        by (vm_compute; reflexivity).
      rewrite forallb_forall in Hall. apply Hall in Hd. cbn [ev_reply] in Hd. rewrite Ep in Hd. now apply N.ltb_lt.
    - clear Ed. induction H as [|tr s now c0 s' r H IH Ht Hn Hseed Hs]; [destruct He|].
      apply in_app_iff in He as [He|[<-|[]]]; [now apply IH|]. cbn [ce_call ce_reply] in *. unfold call_step in Hs.
      rewrite Eo in Hs. injection Hs as <- <-. discriminate. }
  split.
  - apply List.Forall_forall. intros e He m caller cert msg out Ec Ep.
    eapply (C79_every_history CD demo_cid 6 msgs (Some c) e); eauto using CD_ok, CD_texts.
  - assert (existsb (fun ev => match ev_reply ev with RDelegation (Ok _) => true | _ => false end) demo_tr = true) as Hx by (vm_compute; reflexivity).
    apply existsb_exists in Hx as (ev & Hin & Hev). rewrite <- Ed in Hin.
    apply elem_of_list_In, elem_of_list_omap in Hin as (e & He & Ee). unfold decoded in Ee.
    destruct (call_op 6 (ce_call e)); [|discriminate]. apply (inj Some) in Ee as <-. cbn [ev_reply] in Hev.
    destruct (ce_reply e) as [| | | |[sd|]| |] eqn:Er; try discriminate. exists e. eexists. exists sd.
    split; [now apply elem_of_list_In|]. split; [exact Er|]. rewrite Er. reflexivity.
Qed.

Print Assumptions C79_every_history.
