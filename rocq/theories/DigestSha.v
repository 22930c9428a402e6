(** SHA-256 and SHA-224 of Sha2.v are those of SpecDigest.v. *)
From Verif Require Import Base Encode Nib Sha2 SpecDigest DigestWords.
Local Open Scope N_scope.

(** ** Rounds *)

Lemma v32_add x y : v32 (add32 x y) = plus (v32 x) (v32 y).
Proof. apply add32_is. Qed.

Lemma plus_assoc x y z : plus x (plus y z) = plus (plus x y) z.
Proof.
  unfold plus. rewrite N.add_mod_idemp_r, N.add_mod_idemp_l by discriminate. f_equal. lia.
Qed.

Lemma v32_bsig0 x : v32 (bsig0 x) = Sig0 (v32 x).
Proof. unfold bsig0, Sig0. rewrite !v32_xor, v32_rotr_2, v32_rotr_13, v32_rotr_22. apply eq_sym, N.lxor_assoc. Qed.
Lemma v32_bsig1 x : v32 (bsig1 x) = Sig1 (v32 x).
Proof. unfold bsig1, Sig1. rewrite !v32_xor, v32_rotr_6, v32_rotr_11, v32_rotr_25. apply eq_sym, N.lxor_assoc. Qed.
Lemma v32_ssig0 x : v32 (ssig0 x) = sig0 (v32 x).
Proof. unfold ssig0, sig0. rewrite !v32_xor, v32_rotr_7, v32_rotr_18, v32_shr_3. apply eq_sym, N.lxor_assoc. Qed.
Lemma v32_ssig1 x : v32 (ssig1 x) = sig1 (v32 x).
Proof. unfold ssig1, sig1. rewrite !v32_xor, v32_rotr_17, v32_rotr_19, v32_shr_10. apply eq_sym, N.lxor_assoc. Qed.
Lemma v32_ch x y z : v32 (ch x y z) = Ch (v32 x) (v32 y) (v32 z).
Proof. unfold ch, Ch. rewrite v32_xor, v32_and, v32_andn. reflexivity. Qed.
Lemma v32_maj x y z : v32 (maj x y z) = Maj (v32 x) (v32 y) (v32 z).
Proof. unfold maj, Maj. rewrite !v32_xor, !v32_and. apply eq_sym, N.lxor_assoc. Qed.

Definition vals (s : st8) : list N :=
  match s with St a b c d e f g h => [v32 a; v32 b; v32 c; v32 d; v32 e; v32 f; v32 g; v32 h] end.

Lemma round_is s k w : vals (round s (add32 k w)) = sha_round (vals s) (v32 k, v32 w).
Proof.
  destruct s as [a b c d e f g h]. cbn [round vals sha_round fst snd].
  rewrite !v32_add, v32_bsig0, v32_bsig1, v32_ch, v32_maj, !plus_assoc. reflexivity.
Qed.

(** ** The schedule *)

Lemma extend_cons n : forall x w, (16 <= length w)%nat -> extend n (x :: w) = x :: extend n w.
Proof.
  induction n as [|n IH]; intros x w Hw; [reflexivity|].
  cbn [extend]. rewrite <- IH by (rewrite app_length; lia).
  change (length (x :: w)) with (S (length w)).
  rewrite !Nat.sub_succ_l by lia. cbn [nth app]. reflexivity.
Qed.

Lemma extend_add a : forall b w, extend (a + b) w = extend b (extend a w).
Proof. induction a as [|a IH]; intros b w; [reflexivity|]. cbn [extend Nat.add]. apply IH. Qed.

Lemma extend_more n : forall w, exists t, extend n w = w ++ t /\ length t = n.
Proof.
  induction n as [|n IH]; intros w; [exists []; rewrite app_nil_r; split; reflexivity|].
  cbn [extend]. destruct (IH (w ++ [plus (plus (plus (sig1 (nth (length w - 2) w 0)) (nth (length w - 7) w 0))
    (sig0 (nth (length w - 15) w 0))) (nth (length w - 16) w 0)])) as (t & -> & Ht).
  exists (plus (plus (plus (sig1 (nth (length w - 2) w 0)) (nth (length w - 7) w 0))
    (sig0 (nth (length w - 15) w 0))) (nth (length w - 16) w 0) :: t).
  rewrite <- app_assoc. split; [reflexivity|]. cbn [length]. lia.
Qed.

Lemma combine_more {A B} (a : list A) (b t : list B) : length a = length b -> combine a (b ++ t) = combine a b.
Proof.
  revert b. induction a as [|x a IH]; intros [|y b] H; try discriminate; [destruct t; reflexivity|].
  cbn [combine app]. rewrite IH by (cbn in H; lia). reflexivity.
Qed.

Lemma rounds_is ks : forall w s, length w = 16%nat ->
  vals (rounds ks w s) = fold_left sha_round (combine (map v32 ks) (extend (length ks) (map v32 w))) (vals s).
Proof.
  induction ks as [|k ks IH]; intros w s Hw; [reflexivity|].
  destruct w as [|w0 w]; [discriminate|].
  do 15 (destruct w as [|? w]; [discriminate|]). destruct w; [|discriminate].
  cbn [rounds]. rewrite IH by reflexivity. clear IH. rewrite round_is.
  cbn [map length]. cbn [extend].
  change (length [_; _; _; _; _; _; _; _; _; _; _; _; _; _; _; _]) with 16%nat.
  cbn [Nat.sub nth app]. rewrite (extend_cons _ (v32 w0)) by (cbn [length]; lia). cbn [combine fold_left].
  rewrite !v32_add, v32_ssig0, v32_ssig1, !plus_assoc. reflexivity.
Qed.

Lemma K_is : map v32 K256 = sha_K.
Proof. reflexivity. Qed.

Lemma full_schedule (ks : list N) M s : length ks = 64%nat -> length M = 16%nat ->
  fold_left sha_round (combine ks (extend 64 M)) s = fold_left sha_round (combine ks (extend 48 M)) s.
Proof.
  intros HK HM. change 64%nat with (48 + 16)%nat. rewrite extend_add.
  destruct (extend_more 16 (extend 48 M)) as (t & -> & _).
  destruct (extend_more 48 M) as (u & Hu & Hl). rewrite combine_more; [reflexivity|].
  rewrite Hu, app_length. lia.
Qed.

Lemma compress_is s ws : length ws = 16%nat ->
  vals (compress s ws) =
  map (fun xy => plus (fst xy) (snd xy)) (combine (vals s) (fold_left sha_round (combine sha_K (extend 48 (map v32 ws))) (vals s))).
Proof.
  intros Hw. rewrite <- full_schedule by (rewrite ?map_length; trivial).
  rewrite <- K_is. change 64%nat with (length K256) at 1. rewrite <- rounds_is by exact Hw.
  unfold compress. destruct s as [a b c d e f g h]. destruct (rounds K256 ws _) as [a' b' c' d' e' f' g' h'].
  cbn [vals combine map fst snd]. rewrite !v32_add. reflexivity.
Qed.

(** ** Blocks *)

Lemma words32_app a b c d l : words32 (a :: b :: c :: d :: l) = be32 a b c d :: words32 l.
Proof. reflexivity. Qed.

Lemma words32_block b : length b = 64%nat -> forall t,
  words32 (b ++ t) = words32 b ++ words32 t /\ length (words32 b) = 16%nat /\
  map v32 (words32 b) = map (fun i => be_value (group 4 i b)) (seq 0 16).
Proof.
  intros Hb t. do 64 (destruct b as [|? b]; [discriminate|]). destruct b; [|discriminate].
  cbn [app]. rewrite !words32_app. change (words32 []) with (@nil w32).
  split; [reflexivity|]. split; [reflexivity|]. cbn [map]. rewrite !v32_be. reflexivity.
Qed.

Lemma blocks_is bl : Forall (fun b => length b = 64%nat) bl -> forall fuel s, (length bl < fuel)%nat ->
  vals (blocks fuel s (words32 (concat bl))) = fold_left sha_block bl (vals s).
Proof.
  induction 1 as [|b bl Hb _ IH]; intros fuel s Hf.
  - destruct fuel; reflexivity.
  - destruct fuel as [|fuel]; [cbn in Hf; lia|].
    destruct (words32_block b Hb (concat bl)) as (E & HL & EV).
    cbn [concat blocks]. destruct (words32 (b ++ concat bl)) as [|x r].
    { destruct (words32 b); discriminate. }
    rewrite E. clear E x r.
    rewrite firstn_app, skipn_app, HL, Nat.sub_diag. cbn [firstn skipn].
    rewrite <- HL at 1 2. rewrite firstn_all, skipn_all, app_nil_r. cbn [app].
    rewrite IH by (cbn in Hf; lia). cbn [fold_left]. f_equal.
    rewrite compress_is by exact HL. rewrite EV. reflexivity.
Qed.

Lemma words32_length l : (length l = 4 * length (words32 l) + length l mod 4)%nat.
Proof.
  assert (forall n l, (length l < 4 * n)%nat -> length (words32 l) = (length l / 4)%nat) as H.
  { induction n as [|n IH]; intros k Hk; [lia|].
    destruct k as [|a [|b [|c [|d k]]]]; try reflexivity.
    rewrite words32_app. cbn [length]. rewrite IH by (cbn in Hk; lia).
    replace (S (S (S (S (length k))))) with (length k + 1 * 4)%nat by lia.
    rewrite Nat.div_add by lia. lia. }
  rewrite (H (S (length l))) by lia. apply Nat.div_mod_eq.
Qed.

(** ** Padding *)

Fixpoint cut (n fuel : nat) (l : bytes) : list bytes :=
  match fuel with O => [] | S f => match l with [] => [] | _ => firstn n l :: cut n f (skipn n l) end end.

Lemma cut_blocks n : (0 < n)%nat -> forall fuel l, (length l <= fuel)%nat -> (length l mod n = 0)%nat ->
  concat (cut n fuel l) = l /\ Forall (fun b => length b = n) (cut n fuel l).
Proof.
  intros Hn. induction fuel as [|fuel IH]; intros l Hl Hm.
  - destruct l; [split; [reflexivity|constructor]|cbn in Hl; lia].
  - destruct l as [|x l]; [split; [reflexivity|constructor]|]. cbn [cut].
    assert (n <= length (x :: l))%nat as Hle.
    { destruct (Nat.le_gt_cases n (length (x :: l))); [trivial|]. rewrite Nat.mod_small in Hm by trivial. discriminate. }
    destruct (IH (skipn n (x :: l))) as [E F].
    + rewrite skipn_length. lia.
    + rewrite skipn_length. replace (length (x :: l)) with (length (x :: l) - n + 1 * n)%nat in Hm by lia.
      rewrite Nat.mod_add in Hm by lia. exact Hm.
    + split; [cbn [concat]; rewrite E; apply firstn_skipn|].
      constructor; [rewrite firstn_length; lia|exact F].
Qed.

Lemma be_value_from l : forall a, fold_left (fun n b => 256 * n + nb b) l a = a * 256 ^ N.of_nat (length l) + be_value l.
Proof.
  unfold be_value. induction l as [|b l IH]; intros a; [cbn [fold_left length]; rewrite N.pow_0_r; lia|].
  cbn [fold_left length]. rewrite IH, (IH (256 * 0 + nb b)). rewrite Nat2N.inj_succ, N.pow_succ_r'. lia.
Qed.

Lemma be_value_cons b l : be_value (b :: l) = nb b * 256 ^ N.of_nat (length l) + be_value l.
Proof. unfold be_value at 1. cbn [fold_left]. rewrite be_value_from. lia. Qed.

Lemma be_value_app a b : be_value (a ++ b) = be_value a * 256 ^ N.of_nat (length b) + be_value b.
Proof. unfold be_value at 1. rewrite fold_left_app. apply be_value_from. Qed.

Lemma be_value_bound l : be_value l < 256 ^ N.of_nat (length l).
Proof.
  induction l as [|b l IH]; [reflexivity|].
  rewrite be_value_cons. cbn [length]. rewrite Nat2N.inj_succ, N.pow_succ_r'.
  pose proof (Byte.to_N_bounded b). nia.
Qed.

Lemma be_value_inj l : forall l', length l = length l' -> be_value l = be_value l' -> l = l'.
Proof.
  induction l as [|b l IH]; intros [|b' l'] HL HV; try discriminate; [reflexivity|].
  cbn [length] in HL. injection HL as HL. rewrite !be_value_cons, <- HL in HV.
  pose proof (be_value_bound l) as H1. pose proof (be_value_bound l') as H2. rewrite <- HL in H2.
  assert (nb b = nb b') as Hb by nia.
  assert (be_value l = be_value l') as Hv by nia.
  rewrite (IH l' HL Hv). f_equal.
  assert (Some b = Some b') as E by (rewrite <- !Byte.of_to_N, Hb; reflexivity). congruence.
Qed.

Lemma be_fixed_value w : forall n, length (be_fixed w n) = w /\ be_value (be_fixed w n) = n mod 256 ^ N.of_nat w.
Proof.
  induction w as [|w IH]; intros n.
  - split; [reflexivity|]. cbn [be_fixed]. change (be_value []) with 0. rewrite N.pow_0_r, N.mod_1_r. reflexivity.
  - cbn [be_fixed]. destruct (IH (n / 256)) as [HL HV]. rewrite app_length, HL. split; [cbn [length]; lia|].
    rewrite be_value_app, HV. cbn [length]. rewrite N.pow_1_r.
    assert (be_value [u8 n] = n mod 256) as ->.
    { unfold be_value. cbn [fold_left]. unfold u8. destruct (Byte.of_N (n mod 256)) as [b|] eqn:E.
      - apply Byte.to_of_N in E. rewrite E. lia.
      - exfalso. rewrite Byte.of_N_None_iff in E. pose proof (N.mod_upper_bound n 256). lia. }
    rewrite Nat2N.inj_succ, N.pow_succ_r', N.mod_mul_r by (try apply N.pow_nonzero; discriminate). lia.
Qed.

Lemma pad_length l : (length (pad l) mod 64 = 0)%nat.
Proof.
  unfold pad. rewrite app_length. cbn [length]. rewrite app_length, repeat_length.
  rewrite (proj1 (be_fixed_value 8 (8 * N.of_nat (length l)))).
  set (n := length l). pose proof (Nat.div_mod_eq n 64) as H1. pose proof (Nat.mod_upper_bound n 64) as H2.
  set (r := (n mod 64)%nat) in *. set (q := (n / 64)%nat) in *.
  assert ((119 - r) mod 64 = if Nat.leb r 55 then 55 - r else 119 - r)%nat as ->.
  { destruct (Nat.leb_spec r 55).
    - replace (119 - r)%nat with (55 - r + 1 * 64)%nat by lia. rewrite Nat.mod_add by lia. apply Nat.mod_small. lia.
    - apply Nat.mod_small. lia. }
  destruct (Nat.leb_spec r 55).
  - replace (n + S (55 - r + 8))%nat with (0 + (q + 1) * 64)%nat by lia. rewrite Nat.mod_add by lia. reflexivity.
  - replace (n + S (119 - r + 8))%nat with (0 + (q + 2) * 64)%nat by lia. rewrite Nat.mod_add by lia. reflexivity.
Qed.

Lemma concat_length_eq n (bl : list bytes) : Forall (fun b => length b = n) bl -> length (concat bl) = (length bl * n)%nat.
Proof. induction 1 as [|b bl Hb _ IH]; [reflexivity|]. cbn [concat length]. rewrite app_length, IH, Hb. lia. Qed.

Lemma concat_eq n (a b : list bytes) : (0 < n)%nat -> Forall (fun x => length x = n) a -> Forall (fun x => length x = n) b ->
  concat a = concat b -> a = b.
Proof.
  intros Hn Ha. revert b. induction Ha as [|x a Hx Ha IH]; intros b Hb E.
  - destruct Hb as [|y b Hy Hb]; [reflexivity|]. cbn [concat] in E. apply (f_equal length) in E.
    rewrite app_length in E. cbn in E. lia.
  - destruct Hb as [|y b Hy Hb]; cbn [concat] in E.
    + apply (f_equal length) in E. rewrite app_length in E. cbn in E. lia.
    + apply app_inj_1 in E; [|lia]. destruct E as [-> E]. f_equal. apply IH; assumption.
Qed.

Lemma pad_blocks l : exists bl, concat bl = pad l /\ Forall (fun b => length b = 64%nat) bl.
Proof. exists (cut 64 (length (pad l)) (pad l)). apply cut_blocks; [lia|lia|apply pad_length]. Qed.

Lemma run_is iv l bl : concat bl = pad l -> Forall (fun b => length b = 64%nat) bl ->
  vals (run iv l) = fold_left sha_block bl (vals iv).
Proof.
  intros E F. unfold run. rewrite <- E. apply blocks_is; [exact F|].
  pose proof (words32_length (concat bl)) as H. rewrite (concat_length_eq 64 bl F) in H.
  pose proof (Nat.mod_upper_bound (length bl * 64) 4). lia.
Qed.

(** ** The digest *)

Lemma group_words (d : bytes) n : length d = (4 * n)%nat -> forall d', length d' = (4 * n)%nat ->
  map (fun i => be_value (group 4 i d)) (seq 0 n) = map (fun i => be_value (group 4 i d')) (seq 0 n) -> d = d'.
Proof.
  revert d. induction n as [|n IH]; intros d Hd d' Hd' E.
  { destruct d, d'; try discriminate. reflexivity. }
  cbn [seq map] in E. injection E as E0 E.
  rewrite <- (firstn_skipn 4 d), <- (firstn_skipn 4 d'). f_equal.
  - apply be_value_inj; [rewrite !firstn_length; lia|exact E0].
  - apply IH; [rewrite skipn_length; lia..|].
    rewrite <- !seq_shift, !map_map in E.
    assert (forall x i, group 4 i (skipn 4 x) = group 4 (S i) x) as G.
    { intros x i. unfold group. rewrite drop_drop. do 2 f_equal. lia. }
    rewrite (map_ext (fun i => be_value (group 4 i (skipn 4 d))) (fun i => be_value (group 4 (S i) d)))
      by (intros i; rewrite G; reflexivity).
    rewrite E. apply map_ext. intros i. rewrite G. reflexivity.
Qed.

Lemma is_sha2_unique H0 n m d d' : is_sha2 H0 n m d -> is_sha2 H0 n m d' -> d = d'.
Proof.
  intros (z & len & bl & Hz & HL & HV & E & F & Hd & HW) (z' & len' & bl' & Hz' & HL' & HV' & E' & F' & Hd' & HW').
  assert (len = len') as <- by (apply be_value_inj; congruence).
  assert (z = z') as <-.
  { apply (f_equal length) in E. apply (f_equal length) in E'.
    rewrite (concat_length_eq 64 bl F) in E. rewrite (concat_length_eq 64 bl' F') in E'.
    rewrite !app_length, !repeat_length in E, E'. cbn [length] in E, E'. lia. }
  assert (bl = bl') as <- by (apply (concat_eq 64); [lia|exact F|exact F'|congruence]).
  apply (group_words d n Hd d' Hd'). congruence.
Qed.

Lemma pad_is l : exists z len, (z < 64)%nat /\ length len = 8%nat /\
  be_value len = (8 * N.of_nat (length l)) mod 2 ^ 64 /\ pad l = l ++ [x80] ++ repeat x00 z ++ len.
Proof.
  exists ((119 - length l mod 64) mod 64)%nat, (be_fixed 8 (8 * N.of_nat (length l))).
  split; [apply Nat.mod_upper_bound; lia|]. destruct (be_fixed_value 8 (8 * N.of_nat (length l))) as [H1 H2].
  split; [exact H1|]. split; [exact H2|reflexivity].
Qed.

Lemma groups_of_words (ws : list w32) :
  length (concat (map bytes32 ws)) = (4 * length ws)%nat /\
  map (fun i => be_value (group 4 i (concat (map bytes32 ws)))) (seq 0 (length ws)) = map v32 ws.
Proof.
  induction ws as [|w ws [IL IH]]; [split; reflexivity|].
  cbn [map concat length]. rewrite app_length, IL, bytes32_length. split; [lia|].
  cbn [seq map]. f_equal.
  - unfold group. rewrite Nat.mul_0_r, drop_0, firstn_app, bytes32_length. cbn [Nat.sub firstn].
    rewrite app_nil_r, firstn_all2 by (rewrite bytes32_length; lia). apply be_bytes32.
  - rewrite <- IH, <- seq_shift, map_map. apply map_ext. intros i. unfold group. f_equal. f_equal.
    replace (4 * S i)%nat with (4 + 4 * i)%nat by lia. rewrite <- drop_drop.
    f_equal. rewrite skipn_app, bytes32_length. cbn [Nat.sub skipn].
    rewrite skipn_all2 by (rewrite bytes32_length; lia). reflexivity.
Qed.

Theorem sha256_is m d : is_sha256 m d <-> sha256 m = d.
Proof.
  assert (is_sha256 m (sha256 m)) as H.
  { destruct (pad_is m) as (z & len & Hz & HL & HV & HP). destruct (pad_blocks m) as (bl & E & F).
    exists z, len, bl. rewrite E, HP. split; [exact Hz|]. split; [exact HL|]. split; [exact HV|].
    split; [reflexivity|]. split; [exact F|]. split; [apply sha256_length|].
    pose proof (run_is iv256 m bl E F) as HR. change (vals iv256) with sha256_H0 in HR. rewrite <- HR.
    unfold sha256. destruct (run iv256 m) as [a b c e f g h i]. cbn [sa sb sc sd se sf sg sh].
    destruct (groups_of_words [a; b; c; e; f; g; h; i]) as [_ G]. cbn [map concat] in G.
    rewrite app_nil_r in G. exact G. }
  split; [intros H'; exact (is_sha2_unique _ _ _ _ _ H H')|intros <-; exact H].
Qed.

Theorem sha224_is m d : is_sha224 m d <-> sha224 m = d.
Proof.
  assert (is_sha224 m (sha224 m)) as H.
  { destruct (pad_is m) as (z & len & Hz & HL & HV & HP). destruct (pad_blocks m) as (bl & E & F).
    exists z, len, bl. rewrite E, HP. split; [exact Hz|]. split; [exact HL|]. split; [exact HV|].
    split; [reflexivity|]. split; [exact F|]. split; [apply sha224_length|].
    pose proof (run_is iv224 m bl E F) as HR. change (vals iv224) with sha224_H0 in HR. rewrite <- HR.
    unfold sha224. destruct (run iv224 m) as [a b c e f g h i]. cbn [sa sb sc sd se sf sg sh].
    destruct (groups_of_words [a; b; c; e; f; g; h]) as [_ G]. cbn [map concat] in G.
    rewrite app_nil_r in G. exact G. }
  split; [intros H'; exact (is_sha2_unique _ _ _ _ _ H H')|intros <-; exact H].
Qed.
