(** Lemmas about the settings builder and the canister's initialisation. *)
From Coq Require Import Strings.String Sorting.Sorted ZifyBool ZifyN ZifyNat.
From Verif Require Import Base BaseLemmas Deps Settings Provider SpecSiwe SpecInit PrincipalText SpecPrincipal PrincipalProofs.
Local Open Scope N_scope.

(** ** Sorting and removing duplicates *)

Definition ple (a b : bytes) : Prop := bytes_cmp a b <> Gt.

Lemma ple_trans a b c : ple a b -> ple b c -> ple a c.
Proof.
  unfold ple. intros H1 H2.
  destruct (bytes_cmp a b) eqn:E1; [|clear H1|congruence].
  - apply bytes_cmp_eq in E1. now subst.
  - destruct (bytes_cmp b c) eqn:E2; [| |congruence].
    + apply bytes_cmp_eq in E2. subst. congruence.
    + now rewrite (bytes_cmp_lt_trans _ _ _ E1 E2).
Qed.

Lemma ple_antisym a b : ple a b -> ple b a -> a = b.
Proof.
  unfold ple. intros H1 H2. rewrite bytes_cmp_opp in H2.
  destruct (bytes_cmp a b) eqn:E; simpl in H2; try congruence. now apply bytes_cmp_eq.
Qed.

Lemma sort_insert_perm x l : Permutation (x :: l) (sort_insert x l).
Proof.
  induction l as [|y l IH]; simpl; [reflexivity|].
  destruct (bytes_cmp x y); try reflexivity.
  rewrite Permutation_swap. now constructor.
Qed.

Lemma sort_principals_perm l : Permutation l (sort_principals l).
Proof.
  induction l as [|x l IH]; simpl; [reflexivity|].
  etransitivity; [|apply sort_insert_perm]. now constructor.
Qed.

Lemma sort_insert_sorted x l : StronglySorted ple l -> StronglySorted ple (sort_insert x l).
Proof.
  induction l as [|y l IH]; intros H; simpl; [repeat constructor|].
  inversion H as [|? ? Hl Hy]; subst.
  destruct (bytes_cmp x y) eqn:E.
  1,2: constructor; [assumption|]; constructor; [unfold ple; congruence|];
    eapply List.Forall_impl; [|exact Hy]; intros z Hz; eapply ple_trans; [|exact Hz]; unfold ple; congruence.
  constructor; [now apply IH|].
  rewrite List.Forall_forall in *. intros z Hz.
  apply (Permutation_in _ (Permutation_sym (sort_insert_perm x l))) in Hz as [->|Hz]; [|now apply Hy].
  unfold ple. apply bytes_cmp_lt_gt in E. congruence.
Qed.

Lemma sort_principals_sorted l : StronglySorted ple (sort_principals l).
Proof. induction l; simpl; [constructor|now apply sort_insert_sorted]. Qed.

Lemma dedup_cons x y r : dedup (x :: y :: r) = if bytes_eqb x y then dedup (y :: r) else x :: dedup (y :: r).
Proof. reflexivity. Qed.

Lemma dedup_length l : (length (dedup l) <= length l)%nat.
Proof.
  induction l as [|x l IH]; [simpl; lia|]. destruct l as [|y r]; [simpl; lia|].
  rewrite dedup_cons. destruct (bytes_eqb x y); cbn [length] in *; lia.
Qed.

Lemma dedup_full l : StronglySorted ple l -> (length (dedup l) = length l <-> NoDup l).
Proof.
  induction l as [|x l IH]; intros H; [split; [constructor|reflexivity]|].
  inversion H as [|? ? Hl Hx]; subst. specialize (IH Hl). destruct l as [|y r].
  - split; intros _; [|reflexivity]. constructor; [intros I; inversion I|constructor].
  - rewrite dedup_cons. pose proof (dedup_length (y :: r)) as L.
    destruct (bytes_eqb x y) eqn:E.
    + apply bytes_eqb_spec in E. subst y. split; [cbn [length] in *; lia|].
      intros N. exfalso. apply list.NoDup_cons in N as [N _]. apply N. left.
    + apply bytes_eqb_false in E. cbn [length] in *.
      rewrite list.NoDup_cons. split.
      * intros HH. split; [|apply IH; lia]. intros I. apply elem_of_list_In in I as [->|I]; [congruence|].
        inversion Hl as [|? ? _ Hy]; subst. apply E.
        apply List.Forall_cons_iff in Hx as [Hxy _].
        apply ple_antisym; [assumption|]. rewrite List.Forall_forall in Hy. now apply Hy.
      * intros [_ N]. f_equal. now apply IH.
Qed.

Lemma dedup_sort l : length (dedup (sort_principals l)) = length l <-> NoDup l.
Proof.
  pose proof (dedup_full _ (sort_principals_sorted l)) as H.
  rewrite <- (Permutation_length (sort_principals_perm l)) in H. rewrite H.
  rewrite <- (sort_principals_perm l). reflexivity.
Qed.

(** ** The validators *)

Lemma and_then_ok a b : and_then a b = Done (Ok tt) <-> a = Done (Ok tt) /\ b = Done (Ok tt).
Proof.
  unfold and_then. destruct a as [[[]|e]|w]; cbn [obind]; intuition congruence.
Qed.

Lemma check_ok b e : check b e = Done (Ok tt) <-> b = true.
Proof. unfold check. destruct b; intuition congruence. Qed.

Definition domain_ok D scheme domain :=
  exists u h, d_url_parse D (scheme ++ bs "://" ++ domain) = Some u /\
    url_has_authority u = true /\ url_host u = Some h.

Lemma validate_domain_ok D scheme domain :
  validate_domain D scheme domain = Done (Ok tt) <-> domain_ok D scheme domain.
Proof.
  unfold validate_domain, domain_ok. destruct (d_url_parse _ _) as [u|].
  - split.
    + destruct (url_has_authority u) eqn:A; cbn [negb]; [|congruence].
      destruct (url_host u) as [h|] eqn:H; [|congruence]. eauto.
    + intros (u' & h & E & A & H). injection E as <-. now rewrite A, H.
  - split; [congruence|]. intros (? & ? & ? & _). congruence.
Qed.

Lemma validate_uri_ok D uri : validate_uri D uri = Done (Ok tt) <->
  exists u h, d_url_parse D uri = Some u /\ url_host u = Some h.
Proof.
  unfold validate_uri. destruct (d_url_parse _ _) as [u|].
  - split.
    + destruct (url_host u) as [h|] eqn:H; [|congruence]. eauto.
    + intros (u' & h & E & H). injection E as <-. now rewrite H.
  - split; [congruence|]. intros (? & ? & ? & _). congruence.
Qed.

Lemma validate_salt_ok salt : validate_salt salt = Done (Ok tt) <->
  salt <> [] /\ Forall (fun c => 33 <= nb c <= 126) salt.
Proof.
  destruct salt as [|c r]; unfold validate_salt; [intuition congruence|].
  rewrite check_ok, forallb_forall, List.Forall_forall.
  split; [intros H; split; [congruence|]|intros [_ H]]; intros x Hx; specialize (H x Hx);
    revert H; unfold is_ascii_graphic; lia.
Qed.

Lemma validate_targets_ok t : validate_targets t = Done (Ok tt) <->
  forall l, t = Some l -> (1 <= length l <= 1000)%nat /\ NoDup l.
Proof.
  destruct t as [l|]; [|split; [congruence|reflexivity]].
  split.
  - intros H l' E. injection E as <-. unfold validate_targets in H.
    destruct l as [|x r]; [congruence|].
    destruct (1000 <? N.of_nat (length (x :: r))) eqn:B; [congruence|].
    apply check_ok in H. apply Nat.eqb_eq, dedup_sort in H.
    split; [cbn [length] in *; lia|assumption].
  - intros H. destruct (H l eq_refl) as [L N]. destruct l as [|x r]; [cbn [length] in L; lia|].
    unfold validate_targets. destruct (1000 <? N.of_nat (length (x :: r))) eqn:B; [lia|].
    apply check_ok, Nat.eqb_eq, dedup_sort, N.
Qed.

Lemma in_existsb_newline l : negb (existsb (Byte.eqb x0a) l) = true <-> one_line l.
Proof.
  unfold one_line. rewrite Bool.negb_true_iff, <- Bool.not_true_iff_false, existsb_exists.
  split; intros H I; apply H.
  - exists x0a. split; [assumption|reflexivity].
  - destruct I as (x & I & E). apply Byte.byte_dec_bl in E. now subst.
Qed.

Lemma build_ok D s s' : build D s = Done (Ok s') <-> acceptable D s /\ s' = s.
Proof.
  transitivity ((and_then (validate_domain D (s_scheme s) (s_domain s))
   (and_then (validate_uri D (s_uri s))
   (and_then (validate_salt (s_salt s))
   (and_then (validate_chain_id (s_chain_id s))
   (and_then (validate_scheme (s_scheme s))
   (and_then (validate_statement (s_statement s))
   (and_then (validate_sign_in_expires_in (s_sign_in_expires_in s))
   (and_then (validate_session_expires_in (s_session_expires_in s))
             (validate_targets (s_targets s))))))))) = Done (Ok tt)) /\ s' = s).
  - unfold build. destruct (and_then _ _) as [[[]|e]|w]; cbn [obind]; intuition congruence.
  - rewrite !and_then_ok, validate_domain_ok, validate_uri_ok, validate_salt_ok, validate_targets_ok.
    unfold validate_chain_id, validate_scheme, validate_statement, validate_sign_in_expires_in,
      validate_session_expires_in. rewrite !check_ok, in_existsb_newline.
    rewrite Bool.orb_true_iff, !bytes_eqb_spec, !Bool.negb_true_iff, !N.eqb_neq.
    split; intros (H & E); (split; [|exact E]).
    + destruct H as (? & ? & ? & ? & ? & ? & ? & ? & ?). constructor; assumption.
    + destruct H. tauto.
Qed.

(** The one way [build] can panic. *)
Lemma build_trap D s w : build D s = Trap w ->
  exists u, d_url_parse D (s_scheme s ++ bs "://" ++ s_domain s) = Some u /\
    url_has_authority u = true /\ url_host u = None.
Proof.
  unfold build, and_then. intros H.
  unfold validate_domain in H. destruct (d_url_parse D (s_scheme s ++ bs "://" ++ s_domain s)) as [u|]; [|discriminate].
  exists u. split; [reflexivity|].
  destruct (url_has_authority u); [|discriminate]. split; [reflexivity|].
  destruct (url_host u) as [h|]; [exfalso|reflexivity]. cbn [negb obind] in H.
  revert H. unfold validate_uri. destruct (d_url_parse D (s_uri s)) as [u'|]; [|discriminate].
  destruct (url_host u'); [|discriminate]. cbn [obind].
  unfold validate_salt. destruct (s_salt s); [discriminate|]. 
  unfold validate_chain_id, validate_scheme, validate_statement, validate_sign_in_expires_in,
      validate_session_expires_in, validate_targets, check.
  repeat match goal with |- context [if ?b then _ else _] => destruct b; cbn [obind]; try discriminate end;
  destruct (s_targets s) as [[|]|]; try discriminate;
  repeat match goal with |- context [if ?b then _ else _] => destruct b; cbn [obind]; try discriminate end.
Qed.

Lemma build_trap_iff D s : (exists w, build D s = Trap w) <->
  exists u, d_url_parse D (s_scheme s ++ bs "://" ++ s_domain s) = Some u /\
    url_has_authority u = true /\ url_host u = None.
Proof.
  split.
  - intros [w H]. eapply build_trap, H.
  - intros (u & E & A & H). unfold build, and_then, validate_domain. rewrite E, A, H. cbn. eauto.
Qed.

(** ** Builder chains *)

Definition builder_step (s : Settings) (c : builder_call) : Settings :=
  match c with
  | CallChainId x => set_chain_id x s
  | CallScheme x => set_scheme x s
  | CallStatement x => set_statement x s
  | CallSignIn x => set_sign_in_expires_in x s
  | CallSession x => set_session_expires_in x s
  | CallTargets x => set_targets x s
  | CallFeatures x => set_features x s
  end.

Definition run_builder (domain uri salt : bytes) (l : list builder_call) : Settings :=
  fold_left builder_step l (builder_new domain uri salt).

Lemma run_builder_spec domain uri salt l : run_builder domain uri salt l = chain_spec domain uri salt l.
Proof.
  unfold run_builder, chain_spec, builder_new.
  change DEFAULT_CHAIN_ID with 1. change DEFAULT_SCHEME with (bs "https").
  change DEFAULT_STATEMENT with (bs "SIWE Fields:").
  change DEFAULT_SIGN_IN_EXPIRES_IN with 300000000000. change DEFAULT_SESSION_EXPIRES_IN with 1800000000000.
  generalize 1 (bs "https") (bs "SIWE Fields:") 300000000000 1800000000000 (@None (list bytes))
    (@None (list runtime_feature)).
  induction l as [|c l IH]; intros; [reflexivity|]. cbn [fold_left last_call].
  destruct c; (etransitivity; [apply IH|reflexivity]).
Qed.

(** ** Initialisation *)

Lemma parse_principals_done l ps : parse_principals l = Done ps <->
  Forall2 denotes l ps.
Proof.
  revert ps. induction l as [|t l IH]; intros ps; cbn [parse_principals].
  - split; [intros H; injection H as <-; constructor|]. intros H. inversion H. reflexivity.
  - split.
    + destruct (principal_from_text t) as [p|] eqn:E; [|discriminate].
      intros (qs & H & F)%obind_done. injection F as <-. constructor; [now apply from_text_denotes|]. now apply IH.
    + intros H. inversion H as [|? p ? qs Hp Hq]; subst. apply from_text_denotes in Hp. rewrite Hp. apply IH in Hq. now rewrite Hq.
Qed.

Lemma fold_features l s fl :
  fold_left (fun p f => apply_feature f p) l (s, fl) =
  (mkSettings (s_domain s) (s_uri s) (s_salt s) (s_chain_id s) (s_scheme s) (s_statement s)
     (s_sign_in_expires_in s) (s_session_expires_in s) (s_targets s)
     (if existsb (fun f => match f with PF_IncludeUriInSeed => true | _ => false end) l
      then Some [IncludeUriInSeed] else s_features s),
   mkFlags (existsb (fun f => match f with PF_DisableEthToPrincipalMapping => true | _ => false end) l
              || disable_eth_to_principal fl)
           (existsb (fun f => match f with PF_DisablePrincipalToEthMapping => true | _ => false end) l
              || disable_principal_to_eth fl)).
Proof.
  revert s fl. induction l as [|f l IH]; intros s fl.
  - destruct s, fl; reflexivity.
  - cbn [fold_left existsb]. destruct f; cbn [apply_feature]; rewrite IH;
      cbn [set_features s_domain s_uri s_salt s_chain_id s_scheme s_statement s_sign_in_expires_in
           s_session_expires_in s_targets s_features disable_eth_to_principal disable_principal_to_eth orb].
    + destruct (existsb _ l); reflexivity.
    + destruct (existsb _ l); rewrite ?Bool.orb_true_r; reflexivity.
    + do 2 f_equal. destruct (existsb (fun f => match f with PF_DisablePrincipalToEthMapping => true | _ => false end) l);
      rewrite ?Bool.orb_true_r; reflexivity.
Qed.


Lemma existsb_requested l (p : provider_feature -> bool) f :
  (forall g, p g = true <-> g = f) -> (existsb p l = true <-> In f l).
Proof.
  intros H. rewrite existsb_exists. split.
  - intros (g & I & E). apply H in E. now subst.
  - intros I. exists f. split; [assumption|]. now apply H.
Qed.

Lemma siwe_init_spec D cid i s fl : siwe_init D cid i = Done (s, fl) <-> init_spec D cid i s fl.
Proof.
  unfold siwe_init.
  set (base := opt_set (in_session_expires_in i) _ _).
  assert (forall tg, set_targets tg base =
    mkSettings (in_domain i) (in_uri i) (in_salt i) (default 1 (in_chain_id i))
      (default (bs "https") (in_scheme i)) (default (bs "SIWE Fields:") (in_statement i))
      (default 300000000000 (in_sign_in_expires_in i)) (default 1800000000000 (in_session_expires_in i))
      (Some tg) None) as Bt.
  { intros tg. unfold base. destruct i; destruct in_chain_id, in_scheme, in_statement, in_sign_in_expires_in,
      in_session_expires_in; reflexivity. }
  assert (base =
    mkSettings (in_domain i) (in_uri i) (in_salt i) (default 1 (in_chain_id i))
      (default (bs "https") (in_scheme i)) (default (bs "SIWE Fields:") (in_statement i))
      (default 300000000000 (in_sign_in_expires_in i)) (default 1800000000000 (in_session_expires_in i))
      None None) as Bn.
  { unfold base. destruct i; destruct in_chain_id, in_scheme, in_statement, in_sign_in_expires_in,
      in_session_expires_in; reflexivity. }
  set (uri := existsb (fun f => match f with PF_IncludeUriInSeed => true | _ => false end) (default [] (in_features i))).
  set (d1 := existsb (fun f => match f with PF_DisableEthToPrincipalMapping => true | _ => false end) (default [] (in_features i))).
  set (d2 := existsb (fun f => match f with PF_DisablePrincipalToEthMapping => true | _ => false end) (default [] (in_features i))).
  assert (forall f, requested i f <-> In f (default [] (in_features i))) as RQ.
  { intros f. unfold requested. destruct (in_features i) as [l|]; cbn [default from_option].
    - split; [intros (l' & E & I); now injection E as ->|eauto].
    - split; [intros (l' & E & I); discriminate|intros []]. }
  assert (uri = true <-> requested i PF_IncludeUriInSeed) as Ru.
  { rewrite RQ. apply existsb_requested. intros []; split; congruence. }
  assert (d1 = true <-> requested i PF_DisableEthToPrincipalMapping) as R1.
  { rewrite RQ. apply existsb_requested. intros []; split; congruence. }
  assert (d2 = true <-> requested i PF_DisablePrincipalToEthMapping) as R2.
  { rewrite RQ. apply existsb_requested. intros []; split; congruence. }
  assert (forall s0, s_features s0 = None ->
    match in_features i with
    | None => (s0, mkFlags false false)
    | Some l => fold_left (fun p f => apply_feature f p) l (s0, mkFlags false false)
    end = (mkSettings (s_domain s0) (s_uri s0) (s_salt s0) (s_chain_id s0) (s_scheme s0) (s_statement s0)
     (s_sign_in_expires_in s0) (s_session_expires_in s0) (s_targets s0)
     (if uri then Some [IncludeUriInSeed] else None), mkFlags d1 d2)) as FF.
  { intros s0 E0. unfold uri, d1, d2. destruct (in_features i) as [l|]; cbn [default from_option].
    - rewrite fold_features, E0. cbn [disable_eth_to_principal disable_principal_to_eth].
      now rewrite !Bool.orb_false_r.
    - destruct s0; cbn in *. now subst. }
  set (mk := fun tg => mkSettings (in_domain i) (in_uri i) (in_salt i) (default 1 (in_chain_id i))
      (default (bs "https") (in_scheme i)) (default (bs "SIWE Fields:") (in_statement i))
      (default 300000000000 (in_sign_in_expires_in i)) (default 1800000000000 (in_session_expires_in i))
      tg (if uri then Some [IncludeUriInSeed] else None)).
  transitivity (exists tg, match in_targets i with
                 | None => tg = None
                 | Some l => exists ps, tg = Some ps /\ In cid ps /\
                     Forall2 denotes l ps
                 end /\ acceptable D (mk tg) /\ s = mk tg /\ fl = mkFlags d1 d2).
  - assert (forall s0 tg, s_features s0 = None -> mkSettings (s_domain s0) (s_uri s0) (s_salt s0) (s_chain_id s0) (s_scheme s0) (s_statement s0)
     (s_sign_in_expires_in s0) (s_session_expires_in s0) (s_targets s0)
     (if uri then Some [IncludeUriInSeed] else None) = mk tg ->
     ((let '(s, fl) := match in_features i with
                  | None => (s0, mkFlags false false)
                  | Some l => fold_left (fun p f => apply_feature f p) l (s0, mkFlags false false)
                  end in
        olet r := build D s in olet s := unwrap r in Done (s, fl)) = Done (s, fl) <->
        acceptable D (mk tg) /\ s = mk tg /\ fl = mkFlags d1 d2)) as K.
    { intros s0 tg E0 Em. rewrite FF by assumption. cbv zeta beta iota. rewrite Em. split.
      - intros (r & Hb & H)%obind_done. destruct r as [s1|e]; cbn [unwrap obind] in H; [|discriminate].
        apply build_ok in Hb as [Ha ->]. injection H as <- <-. auto.
      - intros (Ha & -> & ->). assert (build D (mk tg) = Done (Ok (mk tg))) as -> by now apply build_ok.
        reflexivity. }
    destruct (in_targets i) as [l|].
    + split.
      * intros (s0 & H & HK)%obind_done. apply obind_done in H as (ps & Hp & H).
        destruct (existsb (bytes_eqb cid) ps) eqn:Ex; [|discriminate].
        injection H as <-. apply (K _ (Some ps)) in HK; [|rewrite Bt; reflexivity..].
        exists (Some ps). split; [|exact HK]. exists ps. split; [reflexivity|]. split.
        -- apply existsb_exists in Ex as (p & I & E). apply bytes_eqb_spec in E. now subst.
        -- now apply parse_principals_done.
      * intros (tg & (ps & -> & I & F) & HK). apply parse_principals_done in F. rewrite F. cbn [obind].
        assert (existsb (bytes_eqb cid) ps = true) as ->.
        { apply existsb_exists. exists cid. split; [assumption|apply bytes_eqb_refl]. }
        cbn [obind]. apply (K _ (Some ps)); [rewrite Bt; reflexivity..|exact HK].
    + split.
      * intros HK. cbn [obind] in HK. exists None. split; [reflexivity|].
        apply (K _ None) in HK; [exact HK|rewrite Bn; reflexivity..].
      * intros (tg & -> & HK). cbn [obind]. apply (K _ None); [rewrite Bn; reflexivity..|exact HK].
  - split.
    + intros (tg & Ht & Ha & -> & ->). constructor; try reflexivity; try assumption.
      cbn [mk s_features]. destruct uri; [left; split; [reflexivity|now apply Ru]|right; split; [reflexivity|]].
        intros Hr. apply Ru in Hr. discriminate.
    + intros [I1 I2 I3 I4 I5 I6 I7 I8 It If Ie Ip Ia]. exists (s_targets s).
      split; [destruct (in_targets i); assumption|].
      assert (s = mk (s_targets s)) as E.
      { destruct s; cbn in *; subst. unfold mk. f_equal.
        destruct If as [[-> Hu]|[-> Hu]].
        - apply Ru in Hu. now rewrite Hu.
        - destruct uri; [exfalso; apply Hu; now apply Ru|reflexivity]. }
      split; [now rewrite <- E|]. split; [assumption|].
      destruct fl as [f1 f2]; cbn in *. f_equal.
      * destruct f1, d1; intuition congruence.
      * destruct f2, d2; intuition congruence.
Qed.
