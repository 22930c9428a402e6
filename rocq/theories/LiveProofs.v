(** A login in the middle of everything else. *)
From Coq Require Import Strings.String ZifyBool ZifyN ZifyNat.
From Verif Require Import Base BaseLemmas Deps Hex Eth Encode Delegation Login Provider Json SpecEth SpecTree SpecTrace
  ProviderProofs LoginTheory DelegationTheory TraceProofs LoginProofs CallProofs
  PropertiesLogin PropertiesCalls PropertiesDelegation
  Client ClientJson SpecClient ClientProofs ClientSeq ClientStatus ClientLive SpecLive.
Local Open Scope N_scope.

(** Events of others. *)
Definition others (l : list action) (evs : list event) : Prop := forall e, In e evs -> In (ACanister (ev_time e) (ev_op e)) l.

Inductive at_stage (j : nat) (x : bytes) (l : list action) : nat -> task -> ctx -> list event -> list event -> Prop :=
| st_0 c new : others l new -> x_message c = None -> at_stage j x l 0 TAddresses c new []
| st_1 c new : others l new -> at_stage j x l 1 (TPreparing x PAddresses) c new []
| st_2 c new : others l new -> at_stage j x l 2 (TPreparing x (PActor x)) c new []
| st_3 c new : others l new -> at_stage j x l 3 (TPreparing x (PReply x None)) c new []
| st_4 c b p a text n : others l b -> others l a -> prepared p x text n ->
    at_stage j x l 4 (TPreparing x (PReply x (Some (RPrepare (Ok (text, n)))))) c (b ++ p :: a) [p]
| st_5 c b p a text n : others l b -> others l a -> prepared p x text n ->
    at_stage j x l 5 (TPreparing x (PReturned (Ok (text, n)))) c (b ++ p :: a) [p]
| st_6 c b p a text n : others l b -> others l a -> prepared p x text n ->
    at_stage j x l 6 (TSign x text n) c (b ++ p :: a) [p]
| st_7 c b p a text n sg k : others l b -> others l a -> prepared p x text n -> In (AContinue j (SSigned sg k)) l ->
    at_stage j x l 7 (TActor x n sg k) c (b ++ p :: a) [p]
| st_8 c b p a text n sg k : others l b -> others l a -> prepared p x text n -> In (AContinue j (SSigned sg k)) l ->
    at_stage j x l 8 (TLogin x n sg k None) c (b ++ p :: a) [p]
| st_9 c b p a g r text n sg k exp pk : others l b -> others l a -> prepared p x text n -> In (AContinue j (SSigned sg k)) l ->
    logged_in g sg x (kp_der k) n exp pk -> exp <= u64_max ->
    at_stage j x l 9 (TLogin x n sg k (Some (RLogin (Ok (mkDetails exp pk))))) c (b ++ p :: a ++ g :: r) [p; g]
| st_10 c b p a g r text n sg k exp pk : others l b -> others l a -> prepared p x text n -> In (AContinue j (SSigned sg k)) l ->
    logged_in g sg x (kp_der k) n exp pk -> exp <= u64_max ->
    at_stage j x l 10 (TDelegation x k (mkDetails exp pk) None) c (b ++ p :: a ++ g :: r) [p; g]
| st_11 c new own sg k d sd : In (AContinue j (SSigned sg k)) l ->
    at_stage j x l 11 (TDelegation x k d (Some (RDelegation (Ok sd)))) c new own
| st_12 c new own sg id : In (AContinue j (SSigned sg (id_key id))) l ->
    x_identity c = Some id -> x_address c = Some (JStr x) -> x_chain c = Some (id_chain id) -> x_login c = Success ->
    at_stage j x l 12 (TReturned id) c new own.

Lemma others_mono l a evs : others l evs -> others (l ++ [a]) evs.
Proof. intros H e I. apply in_app_iff. left. now apply H. Qed.
Lemma others_snoc l e evs : others l evs -> others (l ++ [ACanister (ev_time e) (ev_op e)]) (evs ++ [e]).
Proof.
  intros H q I. apply in_app_iff in I as [I|[<-|[]]]; [exact (others_mono l _ evs H q I)|]. apply in_app_iff. right. now left.
Qed.

Lemma at_stage_mono j x l a n t c new own : at_stage j x l n t c new own -> at_stage j x (l ++ [a]) n t c new own.
Proof.
  assert (forall s, In (AContinue j s) l -> In (AContinue j s) (l ++ [a])) as Hin by (intros; apply in_app_iff; auto).
  destruct 1; econstructor; eauto using others_mono.
Qed.

(** Somebody else's call. *)
Lemma at_stage_other j x l now o r n t c new own : at_stage j x l n t c new own ->
  at_stage j x (l ++ [ACanister now o]) n t c (new ++ [mkEvent now o r]) own.
Proof.
  assert (forall s, In (AContinue j s) l -> In (AContinue j s) (l ++ [ACanister now o])) as Hin by (intros; apply in_app_iff; auto).
  pose proof (fun evs => others_snoc l (mkEvent now o r) evs) as Ho. cbn [ev_time ev_op] in Ho.
  destruct 1; rewrite <- ?app_assoc, <- ?app_comm_cons, <- ?app_assoc, <- ?app_comm_cons;
    econstructor; eauto using others_mono.
Qed.

Lemma no_fault_prefix D i j x l a since new e own o : no_fault D i j x (l ++ [a]) since (new ++ e) (own ++ o) ->
  no_fault D i j x l since new own.
Proof.
  assert (forall b, In b l -> In b (l ++ [a])) as Hl by (intros; apply in_app_iff; auto).
  assert (forall b, In b new -> In b (new ++ e)) as Hn by (intros; apply in_app_iff; auto).
  assert (forall b, In b own -> In b (own ++ o)) as Hw by (intros; apply in_app_iff; auto).
  intros [H1 H2 H3 H4 H5 H6 H7 H8]. constructor; eauto.
  - intros s Is. apply Hl, H2 in Is. destruct s; auto. destruct Is as [? Is]. split; eauto.
  - intros sg k now sg' y n Is Iy. eapply H5; eauto.
Qed.

Lemma unlucky_mono D i j x l a since new e : unlucky D i j x l since new -> unlucky D i j x (l ++ [a]) since (new ++ e).
Proof.
  assert (forall b, In b l -> In b (l ++ [a])) as Hl by (intros; apply in_app_iff; auto).
  assert (forall b, In b new -> In b (new ++ e)) as Hn by (intros; apply in_app_iff; auto).
  intros [(a' & p & b & q & c & text & text' & n & -> & P & Q)|[(p & text & n & q & x' & n' & b & b' & I & P & Iq & Q)|
    (g & sg & y & sk & n & exp & pk & sg' & k & exp' & t & I & L & K & Q)]].
  - left. exists a', p, b, q, (c ++ e), text, text', n. split; [|auto]. now rewrite <- ?app_assoc, <- ?app_comm_cons, <- ?app_assoc, <- ?app_comm_cons.
  - right. left. exists p, text, n, q, x', n', b, b'. auto.
  - right. right. exists g, sg, y, sk, n, exp, pk, sg', k, exp', t. split; [|auto].
    apply in_app_iff. apply in_app_iff in I as [I|I]; auto.
Qed.

Lemma since_boot_app tr i since new : since_boot tr i since -> (forall e, In e new -> ~ boots e) -> since_boot (tr ++ new) i (since ++ new).
Proof.
  intros (bef & b & -> & Hb & HF) Hn. exists bef, b. rewrite <- app_assoc. split; [reflexivity|]. split; [exact Hb|].
  apply List.Forall_app. split; [exact HF|]. now apply List.Forall_forall.
Qed.

Lemma own_steps_snoc j l a : own_steps j (l ++ [a]) = (own_steps j l + if concerns j a then 1 else 0)%nat.
Proof. unfold own_steps. rewrite List.filter_app, app_length. cbn [List.filter]. now destruct (concerns j a). Qed.

Lemma settled_goes t s x st : settled t -> login_goes t s x st = None.
Proof. destruct t as [[]| | | | | | | |]; cbn [settled]; try contradiction; intros _; destruct s; reflexivity. Qed.
Lemma settled_request t cert : settled t -> task_request cert t = None.
Proof. destruct t as [[]| | | | | | | |]; cbn [settled]; try contradiction; reflexivity. Qed.

Lemma runs_app_inv D cid acts l w' : runs D cid (acts ++ l) w' -> exists w, runs D cid acts w.
Proof.
  revert w'. induction l as [|a l IH] using rev_ind; intros w' H; [rewrite app_nil_r in H; eauto|].
  rewrite app_assoc in H. inversion H as [E|acts0 w a0 w0 H0 Hok Hs E]; [destruct (acts ++ l); discriminate|].
  apply app_inj_tail in E as [-> _]. eauto.
Qed.
Lemma runs_last D cid acts a w' : runs D cid (acts ++ [a]) w' -> exists w, runs D cid acts w /\ act_ok a w /\ act_step D cid a w = Some w'.
Proof.
  intros H. inversion H as [E|acts0 w a0 w0 H0 Hok Hs E]; [destruct acts; discriminate|]. apply app_inj_tail in E as [-> ->]. eauto.
Qed.
Lemma runs_fun D cid acts w w' : runs D cid acts w -> runs D cid acts w' -> w = w'.
Proof.
  intros H. revert w'. induction H as [|acts w a w1 H IH Hok Hs]; intros w' H'.
  - inversion H' as [E|acts0 w a w1 H0 _ _ E]; [reflexivity|destruct acts0; discriminate].
  - apply runs_last in H' as (w2 & H2 & _ & Hs2). rewrite <- (IH _ H2) in Hs2. congruence.
Qed.

Lemma app_same {A} (h n e : list A) : h ++ n = h ++ n ++ e -> e = [].
Proof. intros E. rewrite app_assoc in E. rewrite <- (app_nil_r (h ++ n)) in E at 1. now apply app_inv_head in E. Qed.
Lemma app_more {A} (h n e d : list A) : (h ++ n) ++ d = h ++ n ++ e -> e = d.
Proof. intros E. rewrite app_assoc in E. now apply app_inv_head in E. Qed.

Section Live.
  Variables (D : Deps) (cid : bytes) (HD : deps_ok D).
  Variables (acts : list action) (w : world) (i : SettingsInput) (since sb sa : list event) (sr : event) (seed x addr : bytes).
  Hypothesis (H0 : runs D cid acts w) (Hini : x_initializing (w_ctx w) = false) (Hset : Forall settled (w_tasks w))
    (Hmsg : x_message (w_ctx w) = None) (Hb : since_boot (w_history w) i since) (Es : since = sb ++ sr :: sa)
    (Er : ev_op sr = RawRand (Some seed)) (Fb : Forall (fun e => forall o, ev_op e <> RawRand o) sb) (Ha : address_text D x addr).
  Let j := length (w_tasks w).

  (** One more action. *)
  Lemma stage_serve l n t c st s h0 new own a now cert o s' r :
    no_fault D i j x (l ++ [a]) since (new ++ [mkEvent now o r]) (own ++ [mkEvent now o r]) ->
    a = AServe j now cert -> h0 = w_history w ->
    exec D cid (h0 ++ new) s -> Forall (fun e => ev_time e <= now) (h0 ++ new) -> now <= u64_max -> op_wf o ->
    at_stage j x l n t c new own -> task_request cert t = Some o -> step D cid now o s = (s', r) -> st = tt ->
    at_stage j x (l ++ [a]) (n + 1) (task_answered r t) c (new ++ [mkEvent now o r]) (own ++ [mkEvent now o r]) \/
    unlucky D i j x (l ++ [a]) since (new ++ [mkEvent now o r]).
  Proof.
    intros NF -> -> He Ht Hn Hw S R E _.
    assert (forall s, In (AContinue j s) l -> In (AContinue j s) (l ++ [AServe j now cert])) as Hin by (intros; apply in_app_iff; auto).
    pose proof (no_fault_prefix _ _ _ _ _ _ _ _ _ _ _ NF) as NF0.
    destruct S; cbn [task_request prep_request] in R; try discriminate R; injection R as <-.
    - (* the message *)
      pose proof (since_boot_app _ _ _ _ Hb (nf_boot _ _ _ _ _ _ _ _ NF0)) as Hb1.
      destruct (C59_prepares D cid _ _ i (since ++ new) sb sr (sa ++ new) seed now x addr HD He Hb1) as (s1 & text & n & Ep);
        [rewrite Es, <- app_assoc; reflexivity|exact Er|exact Fb|exact Ha|exact Hn|].
      rewrite Ep in E. injection E as <- <-. left. cbn [task_answered prep_answered app].
      apply (st_4 j x _ c new (mkEvent now (PrepareLogin x) (RPrepare (Ok (text, n)))) [] text n); [now apply others_mono|intros e []|split; reflexivity].
    - (* the login *)
      rename H into Hob, H1 into Hoa, H2 into Hp, H3 into Hk.
      pose proof (since_boot_app _ _ _ _ Hb (nf_boot _ _ _ _ _ _ _ _ NF0)) as Hb1.
      assert (In p (([p] : list event) ++ [mkEvent now (SiweLogin sg x (kp_der k) n) r])) as Ip by (left; reflexivity).
      assert (In (mkEvent now (SiweLogin sg x (kp_der k) n) r) ([p] ++ [mkEvent now (SiweLogin sg x (kp_der k) n) r])) as Il
        by (right; left; reflexivity).
      destruct (nf_sign_in _ _ _ _ _ _ _ _ NF p _ text n sg (kp_der k) Ip Il Hp eq_refl) as [T1 T2]. cbn [ev_time] in T1, T2.
      destruct (nf_wallet _ _ _ _ _ _ _ _ NF0 _ Hk) as [Kd Kr].
      pose proof (Kr p text n (or_introl eq_refl) Hp) as Rx.
      assert (~ bad_key D (kp_der k)) as Hgood by (intros [E1|E1]; [discriminate|congruence]).
      destruct (C31_succeeds D cid _ s i (since ++ b ++ p :: a) (since ++ b) p a x text n addr sg (kp_der k) now HD He Hb1)
        as [[s2 El]|[(q & text' & Iq & Hq)|(q & x' & n' & b' & Iq & Tq & Aq & Cq)]];
        [rewrite <- app_assoc; reflexivity|exact Hp|exact Ha| |exact Rx|exact Hgood|exact Ht|exact T1|exact T2| | |].
      + apply List.Forall_forall. intros q Iq (sg' & sk' & b' & sb' & Eq & _). apply Hoa in Iq. rewrite Eq in Iq.
        exact (nf_nonce _ _ _ _ _ _ _ _ NF0 _ _ _ _ p text Iq (or_introl eq_refl) Hp).
      + rewrite El in E. injection E as <- <-. left. cbn [task_answered app].
        rewrite <- app_assoc, <- app_comm_cons.
        eapply (st_9 j x _ c b p a _ [] text n sg k _ _); eauto using others_mono; [split; reflexivity|lia].
      + right. left. apply in_split in Iq as (a1 & a2 & ->).
        exists b, p, a1, q, (a2 ++ [mkEvent now (SiweLogin sg x (kp_der k) n) r]), text, text', n. split; [|auto].
        now rewrite <- ?app_assoc, <- ?app_comm_cons, <- ?app_assoc, <- ?app_comm_cons.
      + right. right. left. exists p, text, n, q, x', n', addr, b'.
        assert (forall e, In e (p :: a) -> In e ((b ++ p :: a) ++ [mkEvent now (SiweLogin sg x (kp_der k) n) r])) as Hi
          by (intros e I; apply in_app_iff; left; apply in_app_iff; auto).
        split; [apply Hi; left; reflexivity|]. split; [exact Hp|]. split; [apply Hi; right; exact Iq|]. auto.
    - (* the delegation *)
      rename H into Hob, H1 into Hoa, H2 into Hp, H3 into Hk, H4 into Hl, H5 into Hexp.
      set (og := GetDelegation (Some cert) x (kp_der k) exp) in *. cbn [ld_expiration] in E.
      assert (In g ([p; g] ++ [mkEvent now og r])) as Ig by (right; left; reflexivity).
      assert (In (mkEvent now og r) ([p; g] ++ [mkEvent now og r])) as Io by (right; right; left; reflexivity).
      destruct (nf_fetch _ _ _ _ _ _ _ _ NF g _ sg n (kp_der k) exp pk cert Ig Io Hl eq_refl) as [T1 T2]. cbn [ev_time] in T1, T2.
      assert (exec D cid ((w_history w ++ b ++ p :: a) ++ g :: r0 ++ [mkEvent now og r]) s') as He3.
      { replace ((w_history w ++ b ++ p :: a) ++ g :: r0 ++ [mkEvent now og r]) with ((w_history w ++ b ++ p :: a ++ g :: r0) ++ [mkEvent now og r])
          by now rewrite <- ?app_assoc, <- ?app_comm_cons, <- ?app_assoc, <- ?app_comm_cons.
        apply (exec_snoc D cid _ s); auto. }
      assert (forall e, In e (b ++ p :: a) -> ~ boots e) as Nb1.
      { intros e I. apply (nf_boot _ _ _ _ _ _ _ _ NF0). apply in_app_iff. apply in_app_iff in I as [I|[I|I]]; auto; right; [now left|].
        right. apply in_app_iff. now left. }
      destruct (C36_available_partial D cid _ g r0 _ s' sg x (kp_der k) n exp pk cert i (since ++ b ++ p :: a) HD He3 Hl)
        as [(rd & _ & Erd)|(l' & sg' & x' & sk' & n' & exp' & pk' & t & I' & L' & T' & Hx & Hsk & _)];
        [|exact (since_boot_app _ _ _ _ Hb Nb1)| |reflexivity|exact T1|exact T2| |].
      + apply List.Forall_forall. intros e I. apply (nf_boot _ _ _ _ _ _ _ _ NF0). apply in_app_iff. right. right.
        apply in_app_iff. right. now right.
      + intros l' sg' n' pk' I' L'. apply in_app_iff in I' as [I'|I'].
        * eapply (nf_fresh _ _ _ _ _ _ _ _ NF0); eassumption.
        * assert (In (ACanister (ev_time l') (ev_op l')) l \/ l' = p) as [Io'| ->].
          { apply in_app_iff in I' as [I'|[I'|I']]; auto. }
          -- destruct L' as [L' _]. rewrite L' in Io'. eapply (nf_key _ _ _ _ _ _ _ _ NF0); eassumption.
          -- destruct L' as [L' _], Hp as [Hp _]. congruence.
      + left. cbn [ev_reply] in Erd. subst r. cbn [task_answered]. econstructor; eauto.
      + right. right. right.
        assert (sk' <> kp_der k) as Nk.
        { intros ->. apply in_app_iff in I' as [I'|I'].
          * eapply (nf_fresh _ _ _ _ _ _ _ _ NF0); eassumption.
          * assert (In (ACanister (ev_time l') (ev_op l')) l \/ l' = p) as [Io'| ->].
            { apply in_app_iff in I' as [I'|[I'|I']]; auto. }
            -- destruct L' as [L' _]. rewrite L' in Io'. eapply (nf_key _ _ _ _ _ _ _ _ NF0); eassumption.
            -- destruct L' as [L' _], Hp as [Hp _]. congruence. }
        destruct Hsk as [[-> _]|C]; [congruence|].
        exists l', sg', x', sk', n', exp', pk', sg, k, exp, t. split; [|auto 10].
        apply in_app_iff. apply in_app_iff in I' as [I'|I']; [now left|right]. apply in_app_iff. left.
        apply in_app_iff. apply in_app_iff in I' as [I'|[I'|I']]; auto; right; [now left|]. right. apply in_app_iff. now left.
  Qed.

  (** A step of the call itself. *)
  Lemma stage_goes l n t c st new own s c' t' st' : no_fault D i j x (l ++ [AContinue j s]) since new own ->
    at_stage j x l n t c new own -> login_goes t s c st = Some (c', t', st') ->
    at_stage j x (l ++ [AContinue j s]) (n + 1) t' c' new own.
  Proof.
    intros NF S G.
    assert (In (AContinue j s) (l ++ [AContinue j s])) as Is by (apply in_app_iff; right; now left).
    pose proof (nf_wallet _ _ _ _ _ _ _ _ NF s Is) as Hw.
    assert (forall s', In (AContinue j s') l -> In (AContinue j s') (l ++ [AContinue j s])) as Hin by (intros; apply in_app_iff; auto).
    destruct S; destruct s as [e|ac| |sg' k'|]; cbn [answers_well] in Hw; try contradiction; cbn [login_goes prep_goes] in G; try discriminate G.
    - rewrite Hw, H1 in G. injection G as <- <- <-. constructor. now apply others_mono.
    - rewrite Hw in G. injection G as <- <- <-. constructor. now apply others_mono.
    - injection G as <- <- <-. constructor. now apply others_mono.
    - cbn [prepare_answer] in G. injection G as <- <- <-. econstructor; eauto using others_mono.
    - injection G as <- <- <-. econstructor; eauto using others_mono.
    - destruct sg' as [|ch sg']; [exfalso|injection G as <- <- <-; econstructor; eauto using others_mono].
      destruct Hw as [_ Hw]. specialize (Hw p text n (or_introl eq_refl) H2).
      destruct (signature_nonempty D text [] x Hw) as (? & ? & ?). discriminate.
    - injection G as <- <- <-. econstructor; eauto using others_mono.
    - cbn [login_answer] in G. injection G as <- <- <-. econstructor; eauto using others_mono.
    - cbn [delegation_answer] in G. injection G as <- <- <-. econstructor; eauto.
  Qed.

  Lemma live l w' new own : runs D cid (acts ++ ALogin :: l) w' ->
    w_history w' = w_history w ++ new -> w_own w' = w_own w ++ own ->
    no_fault D i j x l since new own ->
    (exists t, w_tasks w' = w_tasks w ++ [t] /\ at_stage j x l (own_steps j l) t (w_ctx w') new own) \/
    unlucky D i j x l since new.
  Proof.
    revert w' new own. induction l as [|a l IH] using rev_ind; intros w' new own H Eh Eo NF.
    - left. apply runs_last in H as (w0 & R0 & _ & Hs). rewrite (runs_fun _ _ _ _ _ R0 H0) in Hs. clear w0 R0.
      cbn [act_step] in Hs. rewrite Hini in Hs. cbn [negb] in Hs.
      assert (login_starts (w_ctx w) = (w_ctx w, TAddresses)) as El.
      { destruct (login_starts_cases (w_ctx w)) as [E|(e & _ & B)]; [exact E|exfalso].
        pose proof (runs_status _ _ _ _ H0) as [S1 S2 _ _]. rewrite List.Forall_forall in Hset. destruct B as [B|B].
        - destruct (S2 B) as (t & I & At). apply Hset in I. destruct t as [[]| |a' []|?|?|?|?|?|?]; cbn in *; contradiction.
        - destruct (S1 B) as (t & I & At & _). apply Hset in I. destruct t as [[]| |?|?|?|?|?|?|?]; cbn in *; contradiction. }
      rewrite El in Hs. injection Hs as <-. cbn [w_history w_own w_tasks w_ctx] in *.
      rewrite <- (app_nil_r (w_history w)) in Eh at 1. apply app_inv_head in Eh as <-.
      rewrite <- (app_nil_r (w_own w)) in Eo at 1. apply app_inv_head in Eo as <-.
      exists TAddresses. split; [reflexivity|]. constructor; [intros e []|exact Hmsg].
    - rewrite app_comm_cons, app_assoc in H. apply runs_last in H as (w1 & R1 & Hok & Hs).
      assert (meanwhile a) as Hm by (apply (nf_tab _ _ _ _ _ _ _ _ NF); apply in_app_iff; right; now left).
      assert (exists new1 e own1 o, w_history w1 = w_history w ++ new1 /\ new = new1 ++ e /\ w_own w1 = w_own w ++ own1 /\ own = own1 ++ o)
        as (new1 & e & own1 & o & Eh1 & -> & Eo1 & ->).
      { assert (exists n1 o1, w_history w1 = w_history w ++ n1 /\ w_own w1 = w_own w ++ o1) as (n1 & o1 & E1 & E2).
        { clear - R1 H0. revert w1 R1. induction l as [|a l IH] using rev_ind; intros w1 R1.
          - apply runs_last in R1 as (w0 & R0 & _ & Hs). rewrite (runs_fun _ _ _ _ _ R0 H0) in Hs.
            cbn [act_step] in Hs. destruct (login_starts (w_ctx w)), (x_initializing (w_ctx w)); [discriminate|]. injection Hs as <-.
            exists [], []. cbn [w_history w_own]. now rewrite !app_nil_r.
          - rewrite app_comm_cons, app_assoc in R1. apply runs_last in R1 as (w2 & R2 & _ & Hs).
            destruct (IH w2 R2) as (n1 & o1 & E1 & E2). apply act_step_view in Hs.
            destruct Hs; cbn [w_history w_own]; rewrite ?E1, ?E2, <- ?app_assoc; eauto. }
        assert (exists e o, w_history w' = w_history w1 ++ e /\ w_own w' = w_own w1 ++ o) as (e & o & E3 & E4).
        { clear - Hs. apply act_step_view in Hs. destruct Hs; cbn [w_history w_own]; try (exists [], []; now rewrite !app_nil_r);
            [eexists _, _; split; reflexivity|eexists _, []; split; [reflexivity|now rewrite app_nil_r]]. }
        exists n1, e, o1, o. rewrite Eh, E1, <- app_assoc in E3. apply app_inv_head in E3.
        rewrite Eo, E2, <- app_assoc in E4. apply app_inv_head in E4. auto. }
      pose proof (no_fault_prefix _ _ _ _ _ _ _ _ _ _ _ NF) as NF1.
      destruct (IH w1 new1 own1 R1 Eh1 Eo1 NF1) as [(t & Et & S)|U]; [|right; now apply unlucky_mono].
      rewrite own_steps_snoc. pose proof (runs_cinv _ _ _ _ R1) as [He _ _]. rewrite Eh1 in He.
      apply act_step_view in Hs. destruct Hs as [| |R|R|R|k s t1 x' t' st' N G|k now cert t1 op s' r N R Sp|now op s' r Sp|j0]; try contradiction.
      + cbn [w_history w_own w_tasks w_ctx concerns] in *.
        rewrite Eh1 in Eh. apply app_same in Eh as ->.
        rewrite Eo1 in Eo. apply app_same in Eo as ->.
        rewrite !app_nil_r in *.
        rewrite Et in N. destruct (Nat.eqb_spec k j) as [ ->|Nk].
        * unfold j in N, G. rewrite nth_last in N. injection N as <-. left. exists t'. rewrite Et. unfold j. rewrite insert_last. split; [reflexivity|].
          eapply stage_goes; eassumption.
        * exfalso. destruct (Nat.lt_ge_cases k j) as [L|L].
          -- rewrite nth_error_app1 in N by exact L. rewrite settled_goes in G; [discriminate|]. eapply nth_error_Forall; eassumption.
          -- rewrite nth_error_app2 in N by exact L. fold j in N. destruct (k - j)%nat as [|q] eqn:Eq; [lia|destruct q; discriminate N].
      + cbn [w_history w_own w_tasks w_ctx concerns] in *.
        rewrite Eh1 in Eh. apply app_more in Eh as ->.
        rewrite Eo1 in Eo. apply app_more in Eo as ->.
        destruct (Hok t1 op N R) as (Hti & Hn & Hw). rewrite Eh1 in Hti.
        rewrite Et in N. destruct (Nat.eqb_spec k j) as [ ->|Nk].
        * unfold j in N. rewrite nth_last in N. injection N as <-.
          destruct (stage_serve l _ t (w_ctx w1) tt (w_canister w1) _ new1 own1 _ now cert op s' r NF eq_refl eq_refl He Hti Hn Hw S R Sp eq_refl) as [S'|U];
            [left|right; exact U].
          eexists. rewrite Et. unfold j. rewrite insert_last. split; [reflexivity|exact S'].
        * exfalso. destruct (Nat.lt_ge_cases k j) as [L|L].
          -- rewrite nth_error_app1 in N by exact L. rewrite settled_request in R; [discriminate|]. eapply nth_error_Forall; eassumption.
          -- rewrite nth_error_app2 in N by exact L. fold j in N. destruct (k - j)%nat as [|q] eqn:Eq; [lia|destruct q; discriminate N].
      + cbn [w_history w_own w_tasks w_ctx concerns] in *. left. exists t. split; [exact Et|].
        rewrite Eh1 in Eh. apply app_more in Eh as ->.
        rewrite Eo1 in Eo. apply app_same in Eo as ->.
        rewrite app_nil_r, Nat.add_0_r. now apply at_stage_other.
      + cbn [w_history w_own w_tasks w_ctx concerns] in *. left. exists t. split; [exact Et|].
        rewrite Eh1 in Eh. apply app_same in Eh as ->.
        rewrite Eo1 in Eo. apply app_same in Eo as ->.
        rewrite !app_nil_r, Nat.add_0_r. now apply at_stage_mono.
  Qed.
End Live.
