(** Lemmas about Encode: the decoders of SpecWire invert the encoders. *)
From Coq Require Import Strings.String.
From Coq Require Import ZifyBool ZifyN ZifyNat.
From Verif Require Import Base BaseLemmas HashTree Encode SpecWire Delegation.
Local Open Scope N_scope.

Ltac Zify.zify_post_hook ::= Z.to_euclidean_division_equations.

Lemma be_value_app acc a b : be_value acc (a ++ b) = be_value (be_value acc a) b.
Proof. revert acc; induction a as [|x a IH]; intros acc; [reflexivity|]. cbn [app be_value]. apply IH. Qed.

Lemma take_exact_app n (l rest : bytes) : n = blen l -> take_exact n (l ++ rest) = Some (l, rest).
Proof.
  intros ->. unfold take_exact. rewrite blen_app.
  assert (blen l <=? blen l + blen rest = true) as -> by lia.
  unfold blen. rewrite Nat2N.id, take_app, drop_app. reflexivity.
Qed.

Lemma be_fixed_length w n : length (be_fixed w n) = w.
Proof. revert n; induction w as [|w IH]; intros n; [reflexivity|]. cbn [be_fixed]. rewrite app_length, IH. simpl. lia. Qed.

Lemma be_value_fixed w n : n < 256 ^ N.of_nat w -> be_value 0 (be_fixed w n) = n.
Proof.
  revert n; induction w as [|w IH]; intros n H.
  - change (256 ^ N.of_nat 0) with 1 in H. cbn. lia.
  - cbn [be_fixed]. rewrite Nat2N.inj_succ, N.pow_succ_r' in H.
    rewrite be_value_app, IH by lia. cbn [be_value]. rewrite nb_u8. lia.
Qed.

Lemma be_aux_spec fuel n acc k :
  n < 256 ^ N.of_nat fuel -> be_value k (be_aux fuel n acc) = be_value (k * 256 ^ (blen (be_aux fuel n acc) - blen acc) + n) acc /\
  blen acc <= blen (be_aux fuel n acc) /\ blen (be_aux fuel n acc) <= N.of_nat fuel + blen acc.
Proof.
  revert n acc; induction fuel as [|f IH]; intros n acc H; cbn [be_aux].
  - change (256 ^ N.of_nat 0) with 1 in H. assert (n = 0) as -> by lia.
    replace (blen acc - blen acc) with 0 by lia. rewrite N.pow_0_r. split; [f_equal; lia|]. lia.
  - rewrite Nat2N.inj_succ, N.pow_succ_r' in H. destruct (n =? 0) eqn:E.
    + replace (blen acc - blen acc) with 0 by lia. rewrite N.pow_0_r. split; [f_equal; lia|]. lia.
    + destruct (IH (n / 256) (u8 n :: acc)) as (E1 & L1 & L2); [lia|].
      assert (blen (u8 n :: acc) = 1 + blen acc) as El by (unfold blen; cbn [length]; lia).
      rewrite El in *. split; [|lia].
      rewrite E1. cbn [be_value]. f_equal. rewrite nb_u8.
      set (L := blen (be_aux f (n / 256) (u8 n :: acc))) in *.
      replace (L - blen acc) with (1 + (L - (1 + blen acc))) by lia.
      rewrite N.pow_add_r. change (256 ^ 1) with 256. lia.
Qed.

Lemma be_min_fuel n : n < 256 ^ N.of_nat (S (N.to_nat (N.log2 n))).
Proof.
  destruct (N.eq_dec n 0) as [->|Hn]; [vm_compute; reflexivity|].
  pose proof (N.log2_spec n ltac:(lia)) as [_ H].
  rewrite Nat2N.inj_succ, N2Nat.id.
  eapply N.lt_le_trans; [exact H|]. apply N.pow_le_mono_l. lia.
Qed.

Lemma be_value_min n : be_value 0 (be_min n) = n.
Proof.
  destruct (be_aux_spec (S (N.to_nat (N.log2 n))) n [] 0 (be_min_fuel n)) as (E & _ & _).
  unfold be_min. rewrite E. cbn. lia.
Qed.

Lemma be_min_len n : blen (be_min n) <= 1 + N.log2 n.
Proof.
  destruct (be_aux_spec (S (N.to_nat (N.log2 n))) n [] 0 (be_min_fuel n)) as (_ & _ & L).
  unfold be_min. change (blen []) with 0 in L. lia.
Qed.

(** ** DER *)

Lemma tlv_read_tlv tag content rest : N.log2 (blen content) <= 100 ->
  tlv_read (der_tlv tag content ++ rest) = Some (tag, content, rest).
Proof.
  intros H. unfold der_tlv, der_len. destruct (blen content <? 128) eqn:E.
  - cbn [app tlv_read]. rewrite nb_u8. rewrite N.mod_small by lia. rewrite E.
    rewrite take_exact_app by reflexivity. reflexivity.
  - pose proof (be_min_len (blen content)) as L. set (b := be_min (blen content)) in *.
    cbn [app tlv_read]. rewrite nb_u8. rewrite N.mod_small by lia.
    assert (128 + blen b <? 128 = false) as -> by lia.
    replace (128 + blen b - 128) with (blen b) by lia.
    rewrite <- app_assoc, take_exact_app by reflexivity.
    unfold b at 1. rewrite be_value_min, take_exact_app by reflexivity. reflexivity.
Qed.

Lemma tlv_read_tlv_end tag content : N.log2 (blen content) <= 100 ->
  tlv_read (der_tlv tag content) = Some (tag, content, []).
Proof. intros H. rewrite <- (app_nil_r (der_tlv tag content)). now apply tlv_read_tlv. Qed.

Lemma log2_small n : n < 2 ^ 64 -> N.log2 n <= 100.
Proof.
  intros H. destruct (N.eq_dec n 0) as [->|Hn]; [vm_compute; discriminate|].
  assert (N.log2 n < 64) by (apply N.log2_lt_pow2; lia). lia.
Qed.

Definition alg_der : bytes := Eval vm_compute in der_sequence [der_oid [1; 3; 6; 1; 4; 1; 56387; 1; 2]].
Definition oid_der : bytes := Eval vm_compute in drop 2 (der_oid [1; 3; 6; 1; 4; 1; 56387; 1; 2]).

Lemma pubkey_decodes cid seed : (length cid < 256)%nat -> blen seed < 2 ^ 62 ->
  canister_pubkey_decode (create_user_canister_pubkey cid seed) = Some (cid, seed).
Proof.
  intros Hc Hs. unfold canister_pubkey_decode, spki_decode, create_user_canister_pubkey.
  change (der_sequence [der_oid [1; 3; 6; 1; 4; 1; 56387; 1; 2]]) with alg_der.
  set (bits := der_bit_string (raw_pubkey cid seed)).
  assert (blen (raw_pubkey cid seed) = 1 + blen cid + blen seed) as Lraw.
  { unfold raw_pubkey, blen. cbn [length]. rewrite app_length. lia. }
  assert (blen (x00 :: raw_pubkey cid seed) < 2 ^ 63) as Lb.
  { unfold blen in *. cbn [length] in *. change (2 ^ 63) with (2 * 2 ^ 62). lia. }
  assert (blen bits <= 110 + blen (x00 :: raw_pubkey cid seed)) as Lbits.
  { unfold bits, der_bit_string, der_tlv, der_len. set (c := x00 :: _) in *.
    pose proof (be_min_len (blen c)) as L. pose proof (log2_small (blen c)).
    destruct (blen c <? 128); unfold blen in *; cbn [length]; rewrite ?app_length; cbn [length];
      change (2 ^ 64) with (2 * 2 ^ 63) in *; lia. }
  unfold der_sequence at 1. cbn [concat]. rewrite app_nil_r.
  assert (blen (alg_der ++ bits) < 2 ^ 64) as Lseq.
  { rewrite blen_app. change (blen alg_der) with 14. change (2 ^ 64) with (2 * 2 ^ 63).
    assert (2 ^ 63 > 1000) by (vm_compute; reflexivity). lia. }
  rewrite tlv_read_tlv_end by now apply log2_small.
  assert (tlv_read (alg_der ++ bits) = Some (x30, drop 2 alg_der, bits)) as ->.
  { change alg_der with (der_tlv x30 (drop 2 alg_der)). apply tlv_read_tlv. vm_compute. discriminate. }
  change (tlv_read (drop 2 alg_der)) with (Some (x06, oid_der, @nil byte)).
  unfold bits, der_bit_string. rewrite tlv_read_tlv_end.
  2:{ apply log2_small. change (2 ^ 64) with (2 * 2 ^ 63). lia. }
  change (bool_decide (oid_decode oid_der = _)) with true. cbv iota beta.
  unfold canister_key_decode, raw_pubkey. apply take_exact_app.
  unfold len8. rewrite nb_u8. unfold blen. apply N.mod_small. lia.
Qed.

(** ** CBOR *)

Lemma head_byte major k : major < 8 -> k < 32 ->
  nb (u8 (32 * major + k)) / 32 = major /\ nb (u8 (32 * major + k)) mod 32 = k.
Proof. intros Hm Hk. rewrite nb_u8. lia. Qed.

Lemma cbor_read_head_ok major n rest : major < 8 -> n < 2 ^ 64 ->
  cbor_read_head (cbor_head major n ++ rest) = Some (major, n, rest).
Proof.
  intros Hm Hn. unfold cbor_head.
  destruct (n <? 24) eqn:E0.
  { cbn [app cbor_read_head]. destruct (head_byte major n Hm ltac:(lia)) as [-> ->].
    cbv zeta. rewrite E0. reflexivity. }
  destruct (n <? 256) eqn:E1; [|destruct (n <? 65536) eqn:E2; [|destruct (n <? 4294967296) eqn:E3]].
  all: rewrite <- app_comm_cons; unfold cbor_read_head.
  - destruct (head_byte major 24 Hm ltac:(lia)) as [-> ->]. cbv zeta. change (24 <? 24) with false. change (24 =? 24) with true. cbv iota.
    rewrite take_exact_app by reflexivity. rewrite be_value_fixed; [reflexivity|].
    change (256 ^ N.of_nat 1) with 256. lia.
  - destruct (head_byte major 25 Hm ltac:(lia)) as [-> ->]. cbv zeta. change (25 <? 24) with false. change (25 =? 24) with false. change (25 =? 25) with true. cbv iota.
    rewrite take_exact_app by reflexivity. rewrite be_value_fixed; [reflexivity|].
    change (256 ^ N.of_nat 2) with 65536. lia.
  - destruct (head_byte major 26 Hm ltac:(lia)) as [-> ->]. cbv zeta. change (26 <? 24) with false. change (26 =? 24) with false. change (26 =? 25) with false. change (26 =? 26) with true. cbv iota.
    rewrite take_exact_app by reflexivity. rewrite be_value_fixed; [reflexivity|].
    change (256 ^ N.of_nat 4) with 4294967296. lia.
  - destruct (head_byte major 27 Hm ltac:(lia)) as [-> ->]. cbv zeta. change (27 <? 24) with false. change (27 =? 24) with false. change (27 =? 25) with false. change (27 =? 26) with false. change (27 =? 27) with true. cbv iota.
    rewrite take_exact_app by reflexivity. rewrite be_value_fixed; [reflexivity|].
    change (256 ^ N.of_nat 8) with (2 ^ 64). lia.
Qed.

Lemma take_exact_len n l a b : take_exact n l = Some (a, b) -> (length b <= length l)%nat.
Proof.
  unfold take_exact. destruct (n <=? blen l); [|discriminate]. intros H. injection H as <- <-.
  rewrite drop_length. lia.
Qed.

Lemma cbor_read_head_len l m a r : cbor_read_head l = Some (m, a, r) -> (length r < length l)%nat.
Proof.
  unfold cbor_read_head. destruct l as [|b l]; [discriminate|]. cbv zeta.
  assert (forall w, match take_exact w l with Some (a, r') => Some (nb b / 32, be_value 0 a, r') | None => None end
    = Some (m, a, r) -> (length r < length (b :: l))%nat) as Harg.
  { intros w. destruct (take_exact w l) as [[x y]|] eqn:E; [|discriminate]. intros H. injection H as _ _ <-.
    apply take_exact_len in E. cbn [length]. lia. }
  destruct (_ <? 24). { intros H. injection H as _ _ <-. cbn [length]. lia. }
  repeat (destruct (_ =? _); [apply Harg|]). discriminate.
Qed.

Ltac on_major m H :=
  destruct m as [|[[[p|p|]|[p|p|]|]|[[p|p|]|[p|p|]|]|]]; try discriminate H.

Lemma cbor_items_len f n l vs r : cbor_items f n l = Some (vs, r) -> (length r <= length l)%nat.
Proof.
  revert n l vs r; induction f as [|f IH]; intros n l vs r H; [discriminate|].
  cbn [cbor_items] in H. destruct (n =? 0). { injection H as _ <-. lia. }
  destruct (cbor_read_head l) as [[[m a] l']|] eqn:Eh; [|discriminate].
  apply cbor_read_head_len in Eh. cbv zeta in H.
  assert (forall v r', match cbor_items f (n - 1) r' with Some (vs, rest) => Some (v :: vs, rest) | None => None end = Some (vs, r)
    -> (length r <= length r')%nat) as Hc.
  { intros v r' Hx. destruct (cbor_items f (n - 1) r') as [[vs' r'']|] eqn:E; [|discriminate].
    injection Hx as _ <-. now apply IH in E. }
  on_major m H.
  - apply Hc in H. lia.
  - destruct (cbor_items f (2 * a) l') as [[ws l2]|] eqn:E; [|discriminate]. apply Hc in H. apply IH in E. lia.
  - destruct (take_exact a l') as [[b l2]|] eqn:E; [|discriminate]. apply Hc in H. apply take_exact_len in E. lia.
  - destruct (cbor_items f 1 l') as [[ws l2]|] eqn:E; [|discriminate]. apply Hc in H. apply IH in E. lia.
  - destruct (cbor_items f a l') as [[ws l2]|] eqn:E; [|discriminate]. apply Hc in H. apply IH in E. lia.
  - destruct (take_exact a l') as [[b l2]|] eqn:E; [|discriminate]. apply Hc in H. apply take_exact_len in E. lia.
Qed.

(** Enough fuel is one more than the length of the input. *)
Lemma cbor_items_fuel f n l r : cbor_items f n l = Some r ->
  forall g, (length l < g)%nat -> cbor_items g n l = Some r.
Proof.
  revert n l r; induction f as [|f IH]; intros n l r H g Hg; [discriminate|].
  destruct g as [|g]; [lia|]. cbn [cbor_items] in *. destruct (n =? 0); [assumption|].
  destruct (cbor_read_head l) as [[[m a] l']|] eqn:Eh; [|discriminate].
  apply cbor_read_head_len in Eh. cbv zeta in *.
  assert (forall v r', (length r' < g)%nat ->
    match cbor_items f (n - 1) r' with Some (vs, rest) => Some (v :: vs, rest) | None => None end = Some r ->
    match cbor_items g (n - 1) r' with Some (vs, rest) => Some (v :: vs, rest) | None => None end = Some r) as Hc.
  { intros v r' Hl Hx. destruct (cbor_items f (n - 1) r') as [p|] eqn:E; [|discriminate].
    now rewrite (IH _ _ _ E g Hl). }
  on_major m H.
  - apply Hc; [lia|assumption].
  - destruct (cbor_items f (2 * a) l') as [[ws l2]|] eqn:E; [|discriminate].
    rewrite (IH _ _ _ E) by lia. apply cbor_items_len in E. apply Hc; [lia|assumption].
  - destruct (take_exact a l') as [[b l2]|] eqn:E; [|discriminate]. apply take_exact_len in E. apply Hc; [lia|assumption].
  - destruct (cbor_items f 1 l') as [[ws l2]|] eqn:E; [|discriminate].
    rewrite (IH _ _ _ E) by lia. apply cbor_items_len in E. apply Hc; [lia|assumption].
  - destruct (cbor_items f a l') as [[ws l2]|] eqn:E; [|discriminate].
    rewrite (IH _ _ _ E) by lia. apply cbor_items_len in E. apply Hc; [lia|assumption].
  - destruct (take_exact a l') as [[b l2]|] eqn:E; [|discriminate]. apply take_exact_len in E. apply Hc; [lia|assumption].
Qed.

(** [reads l vs]: the bytes [l] are the encodings of the items [vs]. *)
Definition reads (l : bytes) (vs : list cval) : Prop :=
  forall rest, exists f, cbor_items f (N.of_nat (length vs)) (l ++ rest) = Some (vs, rest).

Lemma reads_nil : reads [] [].
Proof. intros rest. exists 1%nat. reflexivity. Qed.

Lemma items_mono f g n l r : (f <= g)%nat -> cbor_items f n l = Some r -> cbor_items g n l = Some r.
Proof.
  revert g n l r; induction f as [|f IH]; intros g n l r Hg H; [discriminate|].
  destruct g as [|g]; [lia|]. cbn [cbor_items] in *. destruct (n =? 0); [assumption|].
  destruct (cbor_read_head l) as [[[m a] l']|] eqn:Eh; [|discriminate]. cbv zeta in *.
  assert (forall v r',
    match cbor_items f (n - 1) r' with Some (vs, rest) => Some (v :: vs, rest) | None => None end = Some r ->
    match cbor_items g (n - 1) r' with Some (vs, rest) => Some (v :: vs, rest) | None => None end = Some r) as Hc.
  { intros v r' Hx. destruct (cbor_items f (n - 1) r') as [p|] eqn:E; [|discriminate].
    now rewrite (IH g _ _ _ ltac:(lia) E). }
  on_major m H.
  - now apply Hc.
  - destruct (cbor_items f (2 * a) l') as [[ws l2]|] eqn:E; [|discriminate].
    rewrite (IH g _ _ _ ltac:(lia) E). now apply Hc.
  - destruct (take_exact a l') as [[b l2]|] eqn:E; [|discriminate]. now apply Hc.
  - destruct (cbor_items f 1 l') as [[ws l2]|] eqn:E; [|discriminate].
    rewrite (IH g _ _ _ ltac:(lia) E). now apply Hc.
  - destruct (cbor_items f a l') as [[ws l2]|] eqn:E; [|discriminate].
    rewrite (IH g _ _ _ ltac:(lia) E). now apply Hc.
  - destruct (take_exact a l') as [[b l2]|] eqn:E; [|discriminate]. now apply Hc.
Qed.

Ltac open_items n :=
  replace (N.of_nat (length n) =? 0) with false by (symmetry; cbn [length]; lia);
  replace (N.of_nat (length n) - 1) with (N.of_nat (length (tl n))) by (cbn [length tl]; lia).

Lemma reads_leaf major arg body v l vs :
  major < 8 -> arg < 2 ^ 64 ->
  (forall rest f n, cbor_items (S f) n (cbor_head major arg ++ body ++ rest) =
     if n =? 0 then Some ([], cbor_head major arg ++ body ++ rest) else
     match cbor_items f (n - 1) rest with Some (vs, r) => Some (v :: vs, r) | None => None end) ->
  reads l vs -> reads (cbor_head major arg ++ body ++ l) (v :: vs).
Proof.
  intros Hm Ha Hs Hr rest. destruct (Hr rest) as [f E]. exists (S f).
  rewrite <- !app_assoc. rewrite Hs. cbn [length].
  replace (N.of_nat (S (length vs)) =? 0) with false by (symmetry; lia).
  replace (N.of_nat (S (length vs)) - 1) with (N.of_nat (length vs)) by lia. now rewrite E.
Qed.

Lemma reads_uint n l vs : n < 2 ^ 64 -> reads l vs -> reads (cbor_uint n ++ l) (CUint n :: vs).
Proof.
  intros Hn Hr. apply (reads_leaf 0 n [] (CUint n)); [lia|assumption| |assumption].
  intros rest f k. cbn [cbor_items app]. rewrite cbor_read_head_ok by (auto; lia). reflexivity.
Qed.

Lemma reads_bytes b l vs : blen b < 2 ^ 64 -> reads l vs -> reads (cbor_bytes b ++ l) (CBytes b :: vs).
Proof.
  intros Hn Hr. unfold cbor_bytes. rewrite <- app_assoc.
  apply (reads_leaf 2 (blen b) b (CBytes b)); [lia|assumption| |assumption].
  intros rest f k. cbn [cbor_items]. rewrite cbor_read_head_ok by (auto; lia).
  rewrite take_exact_app by reflexivity. reflexivity.
Qed.

Lemma reads_text b l vs : blen b < 2 ^ 64 -> reads l vs -> reads (cbor_text b ++ l) (CText b :: vs).
Proof.
  intros Hn Hr. unfold cbor_text. rewrite <- app_assoc.
  apply (reads_leaf 3 (blen b) b (CText b)); [lia|assumption| |assumption].
  intros rest f k. cbn [cbor_items]. rewrite cbor_read_head_ok by (auto; lia).
  rewrite take_exact_app by reflexivity. reflexivity.
Qed.

Lemma reads_nested major arg k mk body ws l vs :
  major < 8 -> arg < 2 ^ 64 -> k = N.of_nat (length ws) ->
  (forall rest f n, cbor_items (S f) n (cbor_head major arg ++ rest) =
     if n =? 0 then Some ([], cbor_head major arg ++ rest) else
     match cbor_items f k rest with
     | Some (ws, r) => match cbor_items f (n - 1) r with Some (vs, r') => Some (mk ws :: vs, r') | None => None end
     | None => None end) ->
  reads body ws -> reads l vs -> reads (cbor_head major arg ++ body ++ l) (mk ws :: vs).
Proof.
  intros Hm Ha -> Hs Hb Hl rest.
  destruct (Hl rest) as [f1 E1]. destruct (Hb (l ++ rest)) as [f2 E2].
  exists (S (f1 + f2)). rewrite <- !app_assoc. rewrite Hs. cbn [length].
  replace (N.of_nat (S (length vs)) =? 0) with false by (symmetry; lia).
  replace (N.of_nat (S (length vs)) - 1) with (N.of_nat (length vs)) by lia.
  rewrite (items_mono f2 (f1 + f2) _ _ _ ltac:(lia) E2).
  rewrite (items_mono f1 (f1 + f2) _ _ _ ltac:(lia) E1). reflexivity.
Qed.

Lemma reads_array body ws l vs : N.of_nat (length ws) < 2 ^ 64 ->
  reads body ws -> reads l vs -> reads (cbor_head 4 (N.of_nat (length ws)) ++ body ++ l) (CArray ws :: vs).
Proof.
  intros Hn Hb Hl. apply (reads_nested 4 _ (N.of_nat (length ws))); auto; [lia|].
  intros rest f n. cbn [cbor_items]. rewrite cbor_read_head_ok by (auto; lia). reflexivity.
Qed.

Lemma reads_map k body ws l vs : k < 2 ^ 63 -> 2 * k = N.of_nat (length ws) ->
  reads body ws -> reads l vs -> reads (cbor_head 5 k ++ body ++ l) (CMap ws :: vs).
Proof.
  intros Hk Hn Hb Hl.
  assert (k < 2 ^ 64) by (change (2 ^ 64) with (2 * 2 ^ 63); lia).
  apply (reads_nested 5 _ (2 * k)); auto; [lia|].
  intros rest f n. cbn [cbor_items]. rewrite cbor_read_head_ok by (auto; lia). reflexivity.
Qed.

Lemma reads_tag k body w l vs : k < 2 ^ 64 ->
  reads body [w] -> reads l vs -> reads (cbor_head 6 k ++ body ++ l) (CTag k [w] :: vs).
Proof.
  intros Hk Hb Hl. apply (reads_nested 6 _ 1 (CTag k)); auto; [lia|].
  intros rest f n. cbn [cbor_items]. rewrite cbor_read_head_ok by (auto; lia). reflexivity.
Qed.

(** Trees whose byte strings fit CBOR's 64-bit lengths. *)
Fixpoint tree_small (t : hash_tree) : Prop :=
  match t with
  | HEmpty => True
  | HFork l r => tree_small l /\ tree_small r
  | HLabeled b t => blen b < 2 ^ 64 /\ tree_small t
  | HLeaf b | HPruned b => blen b < 2 ^ 64
  end.

Fixpoint tree_cval (t : hash_tree) : cval :=
  match t with
  | HEmpty => CArray [CUint 0]
  | HFork l r => CArray [CUint 1; tree_cval l; tree_cval r]
  | HLabeled b t => CArray [CUint 2; CBytes b; tree_cval t]
  | HLeaf b => CArray [CUint 3; CBytes b]
  | HPruned b => CArray [CUint 4; CBytes b]
  end.

Lemma tree_cval_tree t : cval_tree (tree_cval t) = Some t.
Proof.
  induction t as [|l IHl r IHr|b t IH|b|b]; cbn; try reflexivity.
  - now rewrite IHl, IHr.
  - now rewrite IH.
Qed.

Lemma reads_tree t : tree_small t -> forall l vs, reads l vs -> reads (cbor_tree t ++ l) (tree_cval t :: vs).
Proof.
  assert (forall k : N, k < 24 -> k < 2 ^ 64) as Hs.
  { intros k Hk. eapply N.lt_trans; [exact Hk|]. vm_compute. reflexivity. }
  assert (forall k : nat, (k < 24)%nat -> N.of_nat k < 2 ^ 64) as Hs'.
  { intros k Hk. apply Hs. lia. }
  induction t as [|a IHa b IHb|b t IH|b|b]; intros Ht l vs Hl; cbn [cbor_tree tree_cval].
  - rewrite <- app_assoc. apply (reads_array _ [CUint 0]); [now apply Hs'; cbn; lia| |assumption].
    rewrite <- (app_nil_r (cbor_uint 0)). apply reads_uint; [now apply Hs|apply reads_nil].
  - destruct Ht as [Ha Hb]. rewrite <- !app_assoc.
    rewrite (app_assoc (cbor_uint 1)), (app_assoc (cbor_uint 1 ++ cbor_tree a)).
    apply (reads_array _ [CUint 1; tree_cval a; tree_cval b]); [apply Hs'; cbn; lia| |assumption].
    rewrite <- app_assoc. apply reads_uint; [now apply Hs|]. apply IHa; [assumption|].
    rewrite <- (app_nil_r (cbor_tree b)). apply IHb; [assumption|apply reads_nil].
  - destruct Ht as [Hb Ht]. rewrite <- !app_assoc.
    rewrite (app_assoc (cbor_uint 2)), (app_assoc (cbor_uint 2 ++ cbor_bytes b)).
    apply (reads_array _ [CUint 2; CBytes b; tree_cval t]); [apply Hs'; cbn; lia| |assumption].
    rewrite <- app_assoc. apply reads_uint; [now apply Hs|]. apply reads_bytes; [assumption|].
    rewrite <- (app_nil_r (cbor_tree t)). apply IH; [assumption|apply reads_nil].
  - rewrite <- !app_assoc. rewrite (app_assoc (cbor_uint 3)).
    apply (reads_array _ [CUint 3; CBytes b]); [apply Hs'; cbn; lia| |assumption].
    apply reads_uint; [now apply Hs|]. rewrite <- (app_nil_r (cbor_bytes b)).
    apply reads_bytes; [assumption|apply reads_nil].
  - rewrite <- !app_assoc. rewrite (app_assoc (cbor_uint 4)).
    apply (reads_array _ [CUint 4; CBytes b]); [apply Hs'; cbn; lia| |assumption].
    apply reads_uint; [now apply Hs|]. rewrite <- (app_nil_r (cbor_bytes b)).
    apply reads_bytes; [assumption|apply reads_nil].
Qed.

Lemma cbor_signature_decodes cert t : blen cert < 2 ^ 64 -> tree_small t ->
  canister_signature_decode (cbor_certificate_signature cert t) = Some (cert, t).
Proof.
  intros Hc Ht.
  assert (reads (cbor_certificate_signature cert t)
    [CTag 55799 [CMap [CText (bs "certificate"); CBytes cert; CText (bs "tree"); tree_cval t]]]) as Hr.
  { unfold cbor_certificate_signature. change ([xd9; xd9; xf7]) with (cbor_head 6 55799).
    rewrite <- (app_nil_r (cbor_head 6 55799 ++ _)). rewrite <- app_assoc.
    apply reads_tag; [vm_compute; reflexivity| |apply reads_nil].
    rewrite <- (app_nil_r (cbor_head 5 2 ++ _)). rewrite <- app_assoc.
    apply reads_map; [vm_compute; reflexivity|reflexivity| |apply reads_nil].
    apply reads_text; [vm_compute; reflexivity|]. apply reads_bytes; [assumption|].
    apply reads_text; [vm_compute; reflexivity|].
    rewrite <- (app_nil_r (cbor_tree t)). apply reads_tree; [assumption|apply reads_nil]. }
  destruct (Hr []) as [f E]. rewrite app_nil_r in E. cbn [length] in E.
  unfold canister_signature_decode, cbor_decode.
  rewrite (cbor_items_fuel _ _ _ _ E) by lia. rewrite tree_cval_tree. reflexivity.
Qed.
