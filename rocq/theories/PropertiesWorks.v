(** What the identity that a tab shows is good for. *)
From Coq Require Import Strings.String ZifyBool ZifyN ZifyNat.
From Verif Require Import Base BaseLemmas Deps Hex Eth Encode Delegation Login Provider SpecEth SpecHash SpecTree SpecTrace SpecWire SpecAuth
  ProviderProofs DelegationTheory LoginTheory LoginProofs TraceProofs MappingProofs HashProofs WireProofs DelegationProofs Concrete Scripts Demo PropertiesLogin PropertiesMappings PropertiesAuth
  Client ClientJson SpecClient ClientProofs ClientDemo Tabs SpecTabs TabsProofs PropertiesTabs.
Local Open Scope N_scope.

(** ** C96  The identity a tab shows works *)

(** It is accepted until it expires, by every canister among its targets, if the canister was
    not upgraded between the login and the fetching of the delegation. *)
Theorem C96_accepted : forall D cid acts b j t x id, deps_ok D -> (length cid <= 29)%nat -> bruns D cid acts b ->
  nth_error (b_tabs b) j = Some t -> shows t (Some (x, id)) ->
  exists pre l mid g post sg n exp pk cert r, b_history b = pre ++ l :: mid ++ g :: post /\
    logged_in l sg x (kp_der (id_key id)) n exp pk /\ delegated g cert x (kp_der (id_key id)) exp r /\
    id_chain id = mkChain [r] pk /\
    forall c i since now target, exec D cid (pre ++ l :: mid) (Some c) -> since_boot pre i since ->
      (forall e, In e mid -> ~ boots e) -> resynced D (since ++ l :: mid) -> blen cert < 2 ^ 64 ->
      now <= exp -> (forall ts u, targets_of i u -> u = Some ts -> In target ts) ->
      replica_accepts D cid (c_certified c) cert now target pk r.
Proof.
  intros D cid acts b j t x id HD Lc H N (Hi & Hx & _).
  destruct (C89_issued D cid acts b j t id HD H N Hi) as (x' & (_ & Hx' & _) & Hiss).
  assert (x' = x) as -> by congruence.
  destruct Hiss as (pre & l & mid & g & post & sg & n & exp & pk & cert & r & Eh & Hl & Hd & Ec).
  exists pre, l, mid, g, post, sg, n, exp, pk, cert, r. do 4 (split; [assumption|]).
  intros c i since now target He Hs Hm Hr Hlen Hnow Ht.
  pose proof (browser_exec D cid acts b H) as Hb. rewrite Eh in Hb.
  assert (pre ++ l :: mid ++ g :: post = (pre ++ l :: mid) ++ g :: post) as E by now rewrite <- app_assoc.
  rewrite E in Hb. destruct (exec_at D cid _ g post _ Hb) as [s Hg].
  eapply (C62_accepted D cid (pre ++ l :: mid) g s c cert x _ exp r i (since ++ l :: mid) l sg _ n exp pk);
    [exact HD|exact He|exact Hg|exact Hd| |exact Hr| |exact Hl|exact Lc|exact Hlen|exact Hnow|].
  - destruct Hs as (bef & e0 & -> & Hb0 & HF). exists bef, e0. split; [now rewrite <- app_assoc|]. split; [exact Hb0|].
    apply List.Forall_app. split; [exact HF|]. constructor; [|now apply List.Forall_forall].
    intros Hbl. eapply login_not_boot; [|exact Hbl]. do 6 eexists. exact Hl.
  - apply in_app_iff. right. now left.
  - intros u ts Hu Hts. exact (Ht ts u Hu Hts).
Qed.

(** Asked by it, the canister tells it the address that the tab shows, from the login on
    until it is installed anew - also after upgrades, and whoever else signs in. *)
Theorem C96_address : forall D cid acts b j t x id, deps_ok D -> (length cid <= 29)%nat -> bruns D cid acts b ->
  nth_error (b_tabs b) j = Some t -> shows t (Some (x, id)) ->
  (forall e k, In e (b_history b) -> boot e k -> (length (in_salt k) < 256)%nat) ->
  exists pre l post sg n exp, b_history b = pre ++ l :: post /\
    logged_in l sg x (kp_der (id_key id)) n exp (ch_pubkey (id_chain id)) /\
    ((forall e, In e post -> ~ reinstalls e) ->
     (forall k since, since_boot pre k since \/ since_boot (b_history b) k since -> wants_no_address k = false) ->
     says_own_address D cid (b_canister b) (principal_of D (ch_pubkey (id_chain id))) x \/
     address_collision D (b_history b) (ch_pubkey (id_chain id))).
Proof.
  intros D cid acts b j t x id HD Lc H N (Hi & Hx & _) Hcfg.
  destruct (C89_issued D cid acts b j t id HD H N Hi) as (x' & (_ & Hx' & _) & Hiss).
  assert (x' = x) as -> by congruence.
  destruct Hiss as (pre & l & mid & g & post & sg & n & exp & pk & cert & r & Eh & Hl & _ & Ec).
  rewrite Ec. cbn [ch_pubkey]. exists pre, l, (mid ++ g :: post), sg, n, exp. do 2 (split; [assumption|]). intros Hno Hon.
  pose proof (browser_exec D cid acts b H) as Hb.
  assert (exec D cid (pre ++ l :: mid ++ g :: post) (b_canister b)) as Hb1 by now rewrite <- Eh.
  destruct (exec_at D cid pre l _ _ Hb1) as [s1 H1].
  destruct (C27_authenticated D cid pre l s1 sg x _ n exp pk HD H1 Hl) as (i & since & _ & _ & _ & _ & _ & _ & _ & _ & Hs & _).
  assert (length (in_salt i) < 256)%nat as Hsi.
  { destruct Hs as (bef & e0 & -> & B & _). apply (Hcfg e0 i); [|exact B].
    rewrite Eh, <- app_assoc. apply in_app_iff. right. now left. }
  pose proof (Hon i since (or_introl Hs)) as Hw.
  assert (notes D wants_no_address pre l x (principal_of D pk)) as Hn by (exists i, since, sg, (kp_der (id_key id)), n, exp, pk; auto).
  assert (Forall (fun e => ~ reinstalls e) (mid ++ g :: post)) as Hno' by now apply List.Forall_forall.
  destruct (latest_exists D cid wants_no_address pre l _ _ x (principal_of D pk) HD Hb1 Hn Hno') as [_ (y & Hy)].
  rewrite <- Eh in Hy. change (last_address D (b_history b) (principal_of D pk) y) in Hy.
  destruct (since_boot_grows D cid pre (l :: mid ++ g :: post) _ i since HD Hb1 Hs) as (k & sk & Hk). rewrite <- Eh in Hk.
  destruct (since_boot_installed D cid _ _ _ _ Hb Hk) as [c Ecan]. rewrite Ecan in *.
  pose proof (proj2 (says_address_iff D cid (b_history b) c k sk (principal_of D pk) y HD Hb Hk (Hon _ _ (or_intror Hk))) Hy) as Hsay.
  apply says_own in Hsay.
  assert (a_login (b_history b) x (kp_der (id_key id)) exp pk i) as Lx by (exists pre, l, (mid ++ g :: post), sg, n, since; auto).
  destruct Hy as (pre' & l' & post' & Eh' & (i' & since' & sg' & sk' & n' & exp' & pk' & Hs' & _ & Hl' & Ep) & _).
  assert (a_login (b_history b) y sk' exp' pk' i') as Ly by (exists pre', l', post', sg', n', since'; auto).
  unfold principal_of in Ep. apply app_inj_tail in Ep as [Ep _].
  destruct (decide (pk = pk')) as [->|Ne]; [|right; eapply dc_principal; [exact Ly|now split]].
  destruct (a_login_pk D cid _ _ _ _ _ _ _ HD Hb Lx) as (Ex & (bx & Hbx) & e & Ie & He).
  destruct (a_login_pk D cid _ _ _ _ _ _ _ HD Hb Ly) as (Ey & (b' & Hb') & e' & Ie' & He').
  rewrite Ex in Ey. apply (f_equal canister_pubkey_decode) in Ey.
  rewrite !pubkey_decodes in Ey by (lia || (unfold blen, user_seed; rewrite (sha256_len _ HD); vm_compute; reflexivity)).
  injection Ey as Es. unfold user_seed in Es.
  destruct (decide (seed_input (in_salt i) x (uri_part i) = seed_input (in_salt i') y (uri_part i'))) as [Ei|Ne];
    [|right; eapply dc_seed; [exact Lx|exact Ly|now split]].
  left. apply seed_input_inj in Ei as (_ & -> & _); [exact Hsay| |].
  - now rewrite (address_text_length D x bx HD Hbx), (address_text_length D y b' HD Hb').
  - left. split; [exact Hsi|]. apply (Hcfg e' i' Ie' He').
Qed.

(** Concrete: Alice and Bob are signed in in two tabs; Alice's identity. *)
Definition works_pre : list event := Eval vm_compute in take 3 (snd both_view).
Definition works_login : event := Eval vm_compute in nth 3 (snd both_view) (mkEvent 0 (RawRand None) RDone).
Definition works_fetch : event := Eval vm_compute in nth 4 (snd both_view) (mkEvent 0 (RawRand None) RDone).
Definition works_post : list event := Eval vm_compute in drop 5 (snd both_view).
Ltac each_works_in H := unfold works_pre, works_login, works_fetch, works_post in H; cbn [In app] in H;
  repeat (destruct H as [H|H]); try contradiction.
Example C96_case : exists b t t' id id' sg n exp r c, bruns CD demo_cid both_acts b /\ b_tabs b = [t; t'] /\
  shows t (Some (alice_text, id)) /\ shows t' (Some (bob_text, id')) /\
  b_history b = works_pre ++ works_login :: [] ++ works_fetch :: works_post /\
  logged_in works_login sg alice_text (kp_der (id_key id)) n exp (ch_pubkey (id_chain id)) /\
  delegated works_fetch (bs "cert") alice_text (kp_der (id_key id)) exp r /\ 100 * sec <= exp /\
  (forall e k, In e (b_history b) -> boot e k -> k = demo_input) /\ (length (in_salt demo_input) < 256)%nat /\
  wants_no_address demo_input = false /\ (forall e, In e works_post -> ~ reinstalls e) /\
  exec CD demo_cid (works_pre ++ [works_login]) (Some c) /\ since_boot works_pre demo_input (drop 1 works_pre) /\
  resynced CD (drop 1 works_pre ++ [works_login]).
Proof.
  brun_of both_acts both_view b H. pose proof (browser_exec _ _ _ _ H) as He.
  assert (b_history b = works_pre ++ works_login :: [] ++ works_fetch :: works_post) as Eh by (rewrite Hh; reflexivity).
  rewrite Eh in He. destruct (exec_at _ _ _ _ _ _ He) as [s Hs].
  assert (forall e, In e works_post -> ~ boots e) as Hp
    by (intros e I (k & [E|E] & _); each_works_in I; subst e; discriminate E).
  assert (since_boot works_pre demo_input (drop 1 works_pre)) as Hb.
  { exists [], (nth 0 works_pre works_login). split; [reflexivity|]. split; [split; [left; reflexivity|reflexivity]|].
    apply List.Forall_forall. intros e I (k & [E|E] & _); unfold works_pre in I; cbn [drop In] in I;
      repeat (destruct I as [I|I]); try contradiction; subst e; discriminate E. }
  assert (since_boot (works_pre ++ [works_login]) demo_input (drop 1 works_pre ++ [works_login])) as Hb'.
  { apply since_boot_snoc; [exact Hb|]. intros (k & [E|E] & _); discriminate E. }
  destruct (since_boot_installed CD demo_cid _ _ _ _ Hs Hb') as [c Ec]. rewrite Ec in Hs.
  eexists b, _, _, _, _, _, _, _, _, c. split; [exact H|]. split; [exact Ht|].
  split; [split; [reflexivity|split; reflexivity]|]. split; [split; [reflexivity|split; reflexivity]|].
  split; [exact Eh|]. split; [split; reflexivity|]. split; [split; reflexivity|]. split; [vm_compute; discriminate|]. split.
  { intros e k I [[E|E] _]; rewrite Eh in I; each_works_in I; subst e; try discriminate E. injection E as <-. reflexivity. }
  split; [vm_compute; lia|]. split; [reflexivity|]. split; [intros e I R; eapply Hp; [exact I|now apply reinstalls_boots]|].
  split; [exact Hs|]. split; [exact Hb|].
  intros bef e aft E [(sg & x & sk & n & t & _ & _ & Hr) _]. exfalso.
  assert (In e (drop 1 works_pre ++ [works_login])) as Hin by (rewrite E; apply in_app_iff; right; left; reflexivity).
  unfold works_pre, works_login in Hin. cbn [drop app In] in Hin. repeat (destruct Hin as [Hin|Hin]); try contradiction; subst e; discriminate Hr.
Qed.

Print Assumptions C96_accepted.
Print Assumptions C96_address.
