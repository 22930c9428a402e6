(** Fermat's little theorem and Pocklington's criterion over Z, with a checker for
    certificates; used for the two primes of secp256k1. *)
From Coq Require Import Znumtheory Zpow_facts.
From Verif Require Import Base Secp.
From stdpp Require Import numbers.
Local Open Scope Z_scope.


Lemma powm_spec a e m : 0 <= e -> 0 < m -> powm a e m = a ^ e mod m.
Proof.
  intros He Hm. destruct e as [|e|e]; [reflexivity| |lia]. simpl powm. clear He.
  induction e as [e IH|e IH|]; simpl powm_pos.
  - rewrite IH, <- Z.mul_mod by lia. rewrite Z.mul_mod_idemp_l by lia.
    f_equal. rewrite Pos2Z.inj_xI, Z.pow_add_r, Z.pow_mul_r, Z.pow_1_r by lia.
    rewrite Z.pow_2_r, Z.pow_mul_l. reflexivity.
  - rewrite IH, <- Z.mul_mod by lia. f_equal.
    rewrite Pos2Z.inj_xO, Z.pow_mul_r by lia. rewrite Z.pow_2_r, Z.pow_mul_l. reflexivity.
  - now rewrite Z.pow_1_r.
Qed.

(** ** Fermat *)

Definition prodZ (l : list Z) : Z := foldr Z.mul 1 l.

Lemma prodZ_perm l1 l2 : l1 ≡ₚ l2 -> prodZ l1 = prodZ l2.
Proof. induction 1; cbn [prodZ foldr] in *; unfold prodZ in *; nia. Qed.

Lemma prodZ_scale a p l : 0 < p ->
  prodZ (map (fun i => (a * i) mod p) l) mod p = (a ^ Z.of_nat (length l) * prodZ l) mod p.
Proof.
  intros Hp. induction l as [|i l IH]; [cbn; f_equal; lia|].
  cbn [map prodZ foldr length]. fold (prodZ l) (prodZ (map (fun i => (a * i) mod p) l)).
  rewrite Z.mul_mod, IH, Z.mod_mod by lia. rewrite <- Z.mul_mod by lia.
  rewrite Nat2Z.inj_succ, Z.pow_succ_r by lia. f_equal. lia.
Qed.

Lemma prodZ_coprime p l : prime p -> Forall (fun i => 0 < i < p) l -> rel_prime p (prodZ l).
Proof.
  intros Hp. induction 1 as [|i l Hi _ IH]; cbn [prodZ foldr].
  - apply rel_prime_1_r || (apply rel_prime_sym, rel_prime_1).
  - apply rel_prime_mult; [|exact IH]. apply rel_prime_le_prime; [assumption|lia] ||
      (apply rel_prime_sym, rel_prime_le_prime; [assumption|lia]).
Qed.

Lemma prime_mul_mod p a b : prime p -> (a * b) mod p = 0 -> a mod p = 0 \/ b mod p = 0.
Proof.
  intros Hp H. pose proof (prime_ge_2 p Hp).
  apply Z.mod_divide in H; [|lia]. apply prime_mult in H; [|assumption].
  destruct H; [left|right]; apply Z.mod_divide; (lia || assumption).
Qed.

Theorem fermat p a : prime p -> a mod p <> 0 -> a ^ (p - 1) mod p = 1.
Proof.
  intros Hp Ha. pose proof (prime_ge_2 p Hp) as Hp2.
  set (L := seqZ 1 (p - 1)). set (f := fun i => (a * i) mod p).
  assert (HL : forall i, i ∈ L <-> 1 <= i < p) by (intros i; unfold L; rewrite elem_of_seqZ; lia).
  assert (Hinj : forall i j, 1 <= i < p -> 1 <= j < p -> f i = f j -> i = j).
  { intros i j Hi Hj E. unfold f in E.
    assert ((a * (i - j)) mod p = 0) as E0.
    { rewrite Z.mul_sub_distr_l, Zminus_mod, E, Z.sub_diag. apply Z.mod_0_l. lia. }
    apply prime_mul_mod in E0 as [E0|E0]; [contradiction| |assumption].
    apply Z.mod_divide in E0 as [k Hk]; [|lia]. assert (k < 1) by nia. assert (-1 < k) by nia. nia. }
  assert (HND : NoDup (map f L)).
  { apply NoDup_fmap_2_strong; [|apply NoDup_seqZ]. intros i j Hi Hj. rewrite HL in Hi, Hj. now apply Hinj. }
  assert (Hsub : forall x, x ∈ map f L -> x ∈ L).
  { intros x Hx. apply elem_of_list_fmap in Hx as (i & -> & Hi). rewrite HL in Hi. apply HL. unfold f.
    pose proof (Z.mod_pos_bound (a * i) p). enough ((a * i) mod p <> 0) by lia.
    intros E. apply prime_mul_mod in E as [E|E]; [contradiction| |assumption].
    rewrite Z.mod_small in E; lia. }
  assert (HP : map f L ≡ₚ L).
  { apply submseteq_Permutation_length_eq; [now rewrite map_length|].
    apply NoDup_submseteq; [assumption|exact Hsub]. }
  pose proof (prodZ_scale a p L ltac:(lia)) as E. fold f in E. rewrite (prodZ_perm _ _ HP) in E.
  assert (Z.of_nat (length L) = p - 1) as EL by (unfold L; rewrite seqZ_length; lia).
  rewrite EL in E.
  assert (((a ^ (p - 1) - 1) * prodZ L) mod p = 0) as E1.
  { rewrite Z.mul_sub_distr_r, Zminus_mod, <- E, Z.mul_1_l, Z.sub_diag. apply Z.mod_0_l. lia. }
  apply prime_mul_mod in E1 as [E1|E1]; [| |assumption].
  - apply Z.mod_divide in E1 as [k Hk]; [|lia].
    replace (a ^ (p - 1)) with (1 + k * p) by lia. rewrite Z.mod_add by lia. apply Z.mod_small. lia.
  - exfalso. assert (rel_prime p (prodZ L)) as Hc.
    { apply prodZ_coprime; [assumption|]. apply Forall_forall. intros i Hi. apply elem_of_list_In, HL in Hi. lia. }
    apply Z.mod_divide in E1; [|lia]. destruct Hc as [_ _ Hc].
    specialize (Hc p ltac:(apply Z.divide_refl) E1). apply Z.divide_1_r_nonneg in Hc; lia.
Qed.

(** ** Pocklington *)

Lemma pow_mod_gcd b r : 1 < r -> forall m, 0 <= m -> forall k, 0 <= k ->
  b ^ m mod r = 1 -> b ^ k mod r = 1 -> b ^ (Z.gcd m k) mod r = 1.
Proof.
  intros Hr m Hm. pattern m. apply Zlt_0_ind; [|assumption]. clear m Hm.
  intros m IH Hm k Hk E1 E2. destruct (Z.eq_dec m 0) as [->|Hm0].
  - now rewrite Z.gcd_0_l, Z.abs_eq by lia.
  - rewrite <- Z.gcd_mod by lia.
    pose proof (Z.mod_pos_bound k m ltac:(lia)).
    apply IH; [lia|lia| |assumption].
    rewrite (Z.div_mod k m) in E2 by lia.
    pose proof (Z.div_pos k m Hk ltac:(lia)) as Hq.
    rewrite Z.pow_add_r, Z.pow_mul_r in E2 by lia.
    rewrite Z.mul_mod, Zpower_mod, E1 in E2 by lia.
    rewrite Z.pow_1_l in E2 by lia. rewrite (Z.mod_small 1 r), Z.mul_1_l, Z.mod_mod in E2 by lia. exact E2.
Qed.

(** a composite number has a prime factor not above its square root *)
Lemma prime_factor m : 1 < m -> exists r, prime r /\ (r | m) /\ r <= m.
Proof.
  intros Hm1. assert (Hm : 2 <= m) by lia. revert Hm1. pattern m. revert m Hm.
  apply Zlt_lower_bound_ind. intros m IH Hm Hm1. destruct (prime_dec m) as [Hp|Hp].
  - exists m. split; [assumption|split; [apply Z.divide_refl|lia]].
  - destruct (not_prime_divide m Hm1 Hp) as (x & Hx & Hdx).
    destruct (IH x ltac:(lia) ltac:(lia)) as (r & Hr & Hrd & Hle).
    exists r. split; [assumption|split; [eapply Z.divide_trans; eassumption|lia]].
Qed.

Lemma small_prime_factor N : 1 < N -> ~ prime N -> exists r, prime r /\ (r | N) /\ r * r <= N.
Proof.
  intros HN Hc. destruct (not_prime_divide N HN Hc) as (d & Hd & [e He]).
  assert (1 < e < N) by nia.
  destruct (Z_le_dec d e) as [Hle|Hle].
  - destruct (prime_factor d ltac:(lia)) as (r & Hr & Hrd & Hrle). exists r.
    split; [assumption|split; [|pose proof (prime_ge_2 r Hr); nia]].
    eapply Z.divide_trans; [exact Hrd|]. exists e. lia.
  - destruct (prime_factor e ltac:(lia)) as (r & Hr & Hrd & Hrle). exists r.
    split; [assumption|split; [|pose proof (prime_ge_2 r Hr); nia]].
    eapply Z.divide_trans; [exact Hrd|]. exists d. lia.
Qed.

Lemma pow_mod_divide a e N r : 0 < r -> (r | N) -> 1 < N -> 1 < r ->
  a ^ e mod N = 1 -> a ^ e mod r = 1.
Proof.
  intros Hr [k Hk] HN Hr1 E. assert (0 < k) by nia.
  rewrite (Z.div_mod (a ^ e) N), E, Hk by lia.
  replace (k * r * (a ^ e / (k * r)) + 1) with (1 + k * (a ^ e / (k * r)) * r) by lia.
  rewrite Z.mod_add by lia. apply Z.mod_small. lia.
Qed.

Lemma pocklington_factor a N q r : 1 < N -> prime q -> (q | N - 1) -> prime r -> (r | N) ->
  a ^ (N - 1) mod N = 1 -> Z.gcd (a ^ ((N - 1) / q) - 1) N = 1 -> (q | r - 1).
Proof.
  intros HN Hq [m Hm] Hr HrN E G. pose proof (prime_ge_2 q Hq). pose proof (prime_ge_2 r Hr).
  assert (0 < m) by nia.
  rewrite Hm, Z.div_mul in G by lia.
  apply (pow_mod_divide _ _ _ r) in E; [|lia|assumption|lia|lia].
  set (b := a ^ m) in *.
  assert (Eb : b ^ q mod r = 1) by (unfold b; rewrite <- Z.pow_mul_r, <- Hm by lia; exact E).
  assert (Hb0 : b mod r <> 0).
  { intros Z0. rewrite Zpower_mod, Z0, Z.pow_0_l, Z.mod_0_l in Eb by lia. lia. }
  pose proof (fermat r b Hr Hb0) as Ef.
  destruct (Zdivide_dec q (r - 1)) as [Hd|Hd]; [assumption|exfalso].
  assert (Z.gcd q (r - 1) = 1) as Hg.
  { apply Zgcd_1_rel_prime. apply prime_rel_prime; assumption. }
  pose proof (pow_mod_gcd b r ltac:(lia) q ltac:(lia) (r - 1) ltac:(lia) Eb Ef) as E1.
  rewrite Hg, Z.pow_1_r in E1.
  assert (r | b - 1) as Hrb.
  { apply Z.mod_divide; [lia|]. rewrite Zminus_mod, E1, (Z.mod_small 1 r) by lia. apply Z.mod_0_l. lia. }
  pose proof (Z.gcd_greatest _ _ _ Hrb HrN) as Hd1. rewrite G in Hd1.
  apply Z.divide_1_r_nonneg in Hd1; lia.
Qed.

(** [qs]: distinct primes dividing N - 1 whose product exceeds the square root of N. *)
Lemma prod_primes_divide qs m : Forall prime qs -> NoDup qs -> Forall (fun q => (q | m)) qs -> (prodZ qs | m).
Proof.
  induction qs as [|q qs IH]; intros Hp Hn Hd; cbn [prodZ foldr]; [apply Z.divide_1_l|].
  apply Forall_cons_1 in Hp as [Hq Hp]. apply stdpp.list.NoDup_cons in Hn as [Hnq Hn]. apply Forall_cons_1 in Hd as [Hqd Hd].
  specialize (IH Hp Hn Hd). fold (prodZ qs) in *.
  assert (rel_prime q (prodZ qs)) as Hc.
  { clear IH Hd Hn. induction qs as [|q' qs IH]; cbn [prodZ foldr]; [apply rel_prime_sym, rel_prime_1|].
    apply Forall_cons_1 in Hp as [Hq' Hp]. apply not_elem_of_cons in Hnq as [Hne Hnq].
    apply rel_prime_mult; [|now apply IH]. apply prime_rel_prime; [assumption|].
    intros Hdv. apply Hne. apply prime_div_prime; assumption. }
  destruct IH as [k Hk]. rewrite Hk in Hqd |- *. rewrite Z.mul_comm in Hqd.
  apply Gauss in Hqd; [|assumption]. destruct Hqd as [k' Hk']. exists k'. lia.
Qed.

Theorem pocklington a N qs : 1 < N -> Forall prime qs -> NoDup qs -> Forall (fun q => (q | N - 1)) qs ->
  N < prodZ qs * prodZ qs -> a ^ (N - 1) mod N = 1 ->
  Forall (fun q => Z.gcd (a ^ ((N - 1) / q) - 1) N = 1) qs -> prime N.
Proof.
  intros HN Hp Hn Hd HF E HG. destruct (prime_dec N) as [|Hc]; [assumption|exfalso].
  destruct (small_prime_factor N HN Hc) as (r & Hr & HrN & Hle). pose proof (prime_ge_2 r Hr).
  assert (prodZ qs | r - 1) as HFr.
  { apply prod_primes_divide; [assumption|assumption|]. apply Forall_forall. intros q Hq.
    rewrite Forall_forall in Hp, Hd, HG. apply (pocklington_factor a N q r); auto. }
  assert (0 <= prodZ qs).
  { clear - Hp. induction Hp as [|q qs Hq _ IH]; cbn [prodZ foldr]; [lia|]. fold (prodZ qs).
    pose proof (prime_ge_2 q Hq). nia. }
  apply Z.divide_pos_le in HFr; nia.
Qed.

(** ** Certificates *)

(** A power by repeated squaring, in which each reduction subtracts a multiple of the modulus
    2^k - c that is given beforehand, so that nothing has to be divided. *)
Fixpoint powc (k c a : Z) (e : positive) (qs : list Z) : Z :=
  match e with
  | xH => a
  | xO e' => let t := powc k c a e' (tail qs) in
      let q := hd 0 qs in Z.square t - (Z.shiftl q k - c * q)
  | xI e' => let t := powc k c a e' (tail qs) in
      let q := hd 0 qs in a * Z.square t - (Z.shiftl q k - c * q)
  end.
Lemma mod_sub_mult a q N : (a - q * N) mod N = a mod N.
Proof. replace (a - q * N) with (a + (- q) * N) by ring. apply Z_mod_plus_full. Qed.
Lemma powc_spec k c a e N : 0 <= k -> N = 2 ^ k - c -> forall qs, powc k c a e qs mod N = a ^ Zpos e mod N.
Proof.
  intros Hk HN. induction e as [e IH|e IH|]; intros qs; cbn [powc].
  - rewrite Z.square_spec, Z.shiftl_mul_pow2 by exact Hk.
    replace (hd 0 qs * 2 ^ k - c * hd 0 qs) with (hd 0 qs * N) by (rewrite HN; ring).
    rewrite mod_sub_mult. rewrite <- Zmult_mod_idemp_r, (Zmult_mod (powc _ _ _ _ _)), IH, <- Zmult_mod, Zmult_mod_idemp_r.
    f_equal. rewrite Pos2Z.inj_xI, Z.pow_add_r, Z.pow_mul_r, Z.pow_1_r by lia.
    rewrite Z.pow_2_r, Z.pow_mul_l. ring.
  - rewrite Z.square_spec, Z.shiftl_mul_pow2 by exact Hk.
    replace (hd 0 qs * 2 ^ k - c * hd 0 qs) with (hd 0 qs * N) by (rewrite HN; ring).
    rewrite mod_sub_mult, Zmult_mod, IH, <- Zmult_mod.
    f_equal. rewrite Pos2Z.inj_xO, Z.pow_mul_r by lia. rewrite Z.pow_2_r, Z.pow_mul_l. reflexivity.
  - now rewrite Z.pow_1_r.
Qed.

Definition powcz (k c a e : Z) (qs : list Z) : Z := match e with Zpos e' => powc k c a e' qs | _ => 0 end.
Lemma powcz_spec k c a e N qs : 0 <= k -> N = 2 ^ k - c -> 0 < e -> powcz k c a e qs mod N = a ^ e mod N.
Proof. intros Hk HN He. destruct e as [|e|e]; [lia| |lia]. now apply powc_spec. Qed.

(** The certificate of N = 2^k - c: a base, the quotients for a^(N-1) = 1, and for each of some
    primes q dividing N - 1 the quotients for b = a^((N-1)/q), and i, j with i (b - 1) + j N = 1. *)
Record factor_cert := { fc_q : Z; fc_e : Z; fc_qs : list Z; fc_i : Z; fc_j : Z }.
Definition pock_ok (k c a : Z) (qs : list Z) (fs : list factor_cert) : bool :=
  let N := 2 ^ k - c in
  (0 <=? k) && (1 <? N) && (N <? prodZ (map fc_q fs) * prodZ (map fc_q fs)) &&
  (powcz k c a (N - 1) qs =? 1) &&
  forallb (fun f => (fc_q f * fc_e f =? N - 1) && (0 <? fc_e f) &&
    (fc_i f * (powcz k c a (fc_e f) (fc_qs f) - 1) + fc_j f * N =? 1)) fs &&
  (fix nd (l : list Z) := match l with [] => true | x :: r => negb (existsb (Z.eqb x) r) && nd r end) (map fc_q fs).

Lemma gcd_congr x y N : N <> 0 -> x mod N = y mod N -> Z.gcd x N = Z.gcd y N.
Proof. intros HN E. rewrite (Z.gcd_comm x), (Z.gcd_comm y).
  rewrite <- (Z.gcd_mod x N), <- (Z.gcd_mod y N) by assumption. now rewrite E. Qed.

Lemma pock_prime N k c a qs fs : N = 2 ^ k - c -> pock_ok k c a qs fs = true -> Forall prime (map fc_q fs) -> prime N.
Proof.
  intros EN H Hp. unfold pock_ok in H. rewrite <- EN in H. repeat (apply andb_prop in H as [H ?]).
  rewrite forallb_forall in H1.
  assert (0 <= k) as Hk by lia.
  apply (pocklington a N (map fc_q fs)); try assumption.
  - lia.
  - clear - H0. induction (map fc_q fs) as [|x r IH]; [constructor|]. apply andb_prop in H0 as [H1 H2].
    constructor; [|now apply IH]. intros Hin. apply negb_true_iff in H1. apply elem_of_list_In in Hin.
    assert (existsb (Z.eqb x) r = true) as Hx; [|congruence]. apply existsb_exists. exists x. split; [assumption|lia].
  - apply Forall_forall. intros q Hq. apply in_map_iff in Hq as (f & <- & Hf).
    specialize (H1 f Hf). apply andb_prop in H1 as [H1 _]. apply andb_prop in H1 as [H1 _].
    exists (fc_e f). lia.
  - lia.
  - rewrite <- (powcz_spec k c a (N - 1) N qs) by (assumption || lia).
    replace (powcz k c a (N - 1) qs) with 1 by lia. apply Z.mod_1_l. lia.
  - apply Forall_forall. intros q Hq. apply in_map_iff in Hq as (f & <- & Hf).
    specialize (H1 f Hf). apply andb_prop in H1 as [H1 Hb]. apply andb_prop in H1 as [H1 He].
    rewrite Forall_forall in Hp.
    assert (prime (fc_q f)) as Hpf by (apply Hp, in_map, Hf).
    pose proof (prime_ge_2 _ Hpf).
    replace ((N - 1) / fc_q f) with (fc_e f) by (apply Z.div_unique_exact; lia).
    set (b := powcz k c a (fc_e f) (fc_qs f)) in *.
    transitivity (Z.gcd (b - 1) N).
    + apply gcd_congr; [lia|]. unfold b. rewrite Zminus_mod, <- (powcz_spec k c a (fc_e f) N (fc_qs f)), <- Zminus_mod by (assumption || lia).
      reflexivity.
    + apply Z.bezout_1_gcd. exists (fc_i f), (fc_j f). lia.
Qed.

Definition small_prime_ok (q : Z) : bool :=
  (1 <? q) && forallb (fun d => negb (q mod d =? 0)) (seqZ 2 (q - 2)).
Lemma small_prime q : small_prime_ok q = true -> prime q.
Proof.
  intros H. apply andb_prop in H as [H1 H2]. apply prime_alt. split; [lia|].
  intros d Hd Hdiv. rewrite forallb_forall in H2. specialize (H2 d).
  rewrite <- elem_of_list_In, elem_of_seqZ in H2. specialize (H2 ltac:(lia)).
  apply Z.mod_divide in Hdiv; lia.
Qed.
