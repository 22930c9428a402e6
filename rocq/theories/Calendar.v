(** The calendar of the [time] crate is the Gregorian one, for every day a u64
    of nanoseconds can reach.  A finite check: two stretches per year and one
    table per kind of year, lifted to all days. *)
From Coq Require Import Strings.String ZifyBool ZifyN ZifyNat.
From Verif Require Import Base Time3339 SpecSiwe.
Local Open Scope N_scope.
Ltac Zify.zify_post_hook ::= Z.to_euclidean_division_equations.

Definition last_day : N := 213503.

(** ** Stretches on which the algorithm counts up by one *)

(** The intermediate values of [from_julian_day], [z] days after its origin. *)
Definition jd_b (z : N) : N := let a := (100 * z - 25) / 3652425 in a - a / 4.
Definition jd_y (z : N) : N := (100 * jd_b z + (100 * z - 25)) / 36525.

Definition jd_date (z : N) : N * N :=
  let year := jd_y z in
  let ordinal := jd_b z + z - (36525 * year) / 100 in
  if is_leap_year year then
    let o := ordinal + 60 in
    if 367 <=? o then (year + 1, o - 366) else (year, o)
  else
    let o := ordinal + 59 in
    if 366 <=? o then (year + 1, o - 365) else (year, o).

Lemma from_julian_date n : from_julian_day (2440588 + n) = jd_date (719469 + n).
Proof.
  unfold from_julian_day, jd_date, jd_y, jd_b.
  replace (2440588 + n - 1721119) with (719469 + n) by lia. reflexivity.
Qed.

Lemma jd_b_mono z z' : z <= z' -> jd_b z <= jd_b z'.
Proof.
  intros H. unfold jd_b. cbv zeta.
  assert ((100 * z - 25) / 3652425 <= (100 * z' - 25) / 3652425) as Ha by (apply N.div_le_mono; lia).
  clear H. revert Ha. generalize ((100 * z - 25) / 3652425) ((100 * z' - 25) / 3652425). intros. lia.
Qed.

Lemma jd_y_mono z z' : z <= z' -> jd_y z <= jd_y z'.
Proof.
  intros H. unfold jd_y. pose proof (jd_b_mono _ _ H). apply N.div_le_mono; lia.
Qed.

(** Day [s] has date [(y, o)] and the days up to [e] follow it in the same year. *)
Definition stretch_check (s e y o : N) : bool :=
  (s <=? e) && (jd_b s =? jd_b e) && (jd_y s =? jd_y e) && (36525 * jd_y s / 100 <=? jd_b s + s)
  && (let '(y1, o1) := jd_date s in (y1 =? y) && (o1 =? o))
  && (let '(y2, o2) := jd_date e in (y2 =? y) && (o2 =? o + (e - s))).

Lemma stretch s e y o z : stretch_check s e y o = true -> s <= z <= e ->
  jd_date z = (y, o + (z - s)).
Proof.
  unfold stretch_check. intros H [Hs He].
  pose proof (jd_b_mono _ _ Hs) as B1. pose proof (jd_b_mono _ _ He) as B2.
  pose proof (jd_y_mono _ _ Hs) as Y1. pose proof (jd_y_mono _ _ He) as Y2.
  assert (jd_b s = jd_b z) as Bs by lia. assert (jd_b e = jd_b z) as Be by lia.
  assert (jd_y s = jd_y z) as Ys by lia. assert (jd_y e = jd_y z) as Ye by lia.
  clear B1 B2 Y1 Y2. unfold jd_date in *. rewrite Bs, Be, Ys, Ye in H.
  revert H. generalize (36525 * jd_y z / 100) as k. intros k.
  generalize (jd_b z) (jd_y z). clear - Hs He. intros b w.
  destruct (is_leap_year w); cbv zeta.
  - destruct (367 <=? b + s - k + 60) eqn:E1; destruct (367 <=? b + e - k + 60) eqn:E2;
      destruct (367 <=? b + z - k + 60) eqn:E3; intros; first [exfalso; lia|f_equal; lia].
  - destruct (366 <=? b + s - k + 59) eqn:E1; destruct (366 <=? b + e - k + 59) eqn:E2;
      destruct (366 <=? b + z - k + 59) eqn:E3; intros; first [exfalso; lia|f_equal; lia].
Qed.

(** ** Years *)

Definition year_len (y : N) : N := if leapb y then 366 else 365.

Lemma leap_eq y : is_leap_year y = leapb y.
Proof.
  unfold is_leap_year, leapb.
  destruct (y mod 400 =? 0) eqn:E1, (y mod 100 =? 0) eqn:E2, (y mod 4 =? 0) eqn:E3; try reflexivity; exfalso; lia.
Qed.

(** Checks of the year [y] whose first day is [n]: January and February, then the rest. *)
Definition year_check (y n : N) : bool :=
  let march := if leapb y then 60 else 59 in
  stretch_check (719469 + n) (719469 + n + march - 1) y 1
  && stretch_check (719469 + n + march) (719469 + n + year_len y - 1) y (march + 1)
  && (day_number y 1 1 =? n) && (1970 <=? y) && (y <=? 9999).

Definition years_step (p : bool * N * N) : bool * N * N :=
  let '(ok, y, n) := p in (ok && year_check y n, y + 1, n + year_len y).
Definition years (k : N) : bool * N * N := N.iter k years_step (true, 1970, 0).
Definition year_start (k : N) : N := snd (years k).

Lemma years_spec k : exists ok, years k = (ok, 1970 + k, year_start k) /\
  (ok = true -> forall j, j < k ->
     year_check (1970 + j) (year_start j) = true /\ year_start (j + 1) = year_start j + year_len (1970 + j)).
Proof.
  unfold year_start, years. induction k as [|k (ok & E & IH)] using N.peano_ind.
  - exists true. split; [reflexivity|lia].
  - rewrite !N.iter_succ, E. cbn [years_step snd]. eexists.
    replace (1970 + k + 1) with (1970 + N.succ k) by lia. split; [reflexivity|].
    intros H j Hj. apply andb_prop in H as [Hb Hk].
    destruct (N.eq_dec j k) as [->|]; [|apply IH; [assumption|lia]].
    split; [assumption|]. rewrite N.add_1_r, N.iter_succ, E. reflexivity.
Qed.

Definition year_count : N := 585.

Lemma all_years_checked :
  fst (fst (years year_count)) = true /\ last_day < year_start year_count /\ year_start 0 = 0.
Proof. split; [vm_compute; reflexivity|]. split; vm_compute; reflexivity. Qed.

Lemma year_checked j : j < year_count ->
  year_check (1970 + j) (year_start j) = true /\ year_start (j + 1) = year_start j + year_len (1970 + j).
Proof.
  intros H. destruct (years_spec year_count) as (ok & E & S).
  destruct all_years_checked as (C & _). rewrite E in C. now apply S.
Qed.

Local Opaque year_start.

Lemma find_year n : n <= last_day ->
  exists j k, j < year_count /\ n = year_start j + k /\ k < year_len (1970 + j).
Proof.
  intros H. assert (year_start 0 = 0) as Z by apply all_years_checked.
  assert (forall c, c <= year_count -> n < year_start c ->
    exists j k, j < year_count /\ n = year_start j + k /\ k < year_len (1970 + j)) as G.
  { induction c as [|c IH] using N.peano_ind; intros Hc Hn; [lia|].
    destruct (N.lt_ge_cases n (year_start c)) as [Hl|Hg]; [apply IH; [lia|assumption]|].
    destruct (year_checked c) as [_ S]; [lia|]. rewrite <- N.add_1_r, S in Hn.
    exists c, (n - year_start c). lia. }
  apply (G year_count); [reflexivity|].
  eapply N.le_lt_trans; [exact H|]. apply all_years_checked.
Qed.

Lemma ordinal_of_day j k : j < year_count -> k < year_len (1970 + j) ->
  from_julian_day (2440588 + (year_start j + k)) = (1970 + j, k + 1).
Proof.
  intros Hj Hk. destruct (year_checked j Hj) as [C _]. rewrite from_julian_date.
  unfold year_check in C. cbv zeta in C. set (march := if leapb (1970 + j) then 60 else 59) in *.
  assert (0 < march /\ march < year_len (1970 + j)) as Hm
    by (unfold march, year_len; destruct (leapb (1970 + j)); lia).
  rewrite !Bool.andb_true_iff in C. destruct C as ((((C1 & C2) & _) & _) & _).
  destruct (N.lt_ge_cases k march) as [H|H].
  - rewrite (stretch (719469 + year_start j) (719469 + year_start j + march - 1) (1970 + j) 1); [|exact C1|lia].
    f_equal. lia.
  - rewrite (stretch (719469 + year_start j + march) (719469 + year_start j + year_len (1970 + j) - 1)
      (1970 + j) (march + 1)); [|exact C2|lia].
    f_equal. lia.
Qed.

(** ** Months *)

Definition like (leap : bool) : N := if leap then 2000 else 2001.

Lemma month_days_like y m : month_days y m = month_days (like (leapb y)) m.
Proof.
  unfold month_days, like. destruct m as [|p]; [reflexivity|].
  destruct (leapb y); repeat (destruct p; try reflexivity).
Qed.

Lemma month_sum_like y k : month_sum y k = month_sum (like (leapb y)) k.
Proof. induction k; cbn [month_sum]; [reflexivity|]. now rewrite IHk, month_days_like. Qed.

Definition md (leap : bool) (o : N) : N * N := month_day_from (cumulative_days leap) 12 o.

Definition ordinal_check (leap : bool) (k : N) : bool :=
  let '(m, d) := md leap (k + 1) in
  (month_sum (like leap) (N.to_nat (m - 1)) + (d - 1) =? k)
  && (1 <=? m) && (m <=? 12) && (1 <=? d) && (d <=? month_days (like leap) m)
  && (let '(m', d') := md leap (k + 2) in
      if d <? month_days (like leap) m then (m' =? m) && (d' =? d + 1)
      else if m <? 12 then (m' =? m + 1) && (d' =? 1) else k + 1 =? year_len (like leap)).

Lemma ordinals_checked leap k : k < year_len (like leap) -> ordinal_check leap k = true.
Proof.
  intros H.
  assert (forallb (fun i => ordinal_check leap (N.of_nat i)) (List.seq 0 (N.to_nat (year_len (like leap)))) = true) as A.
  { destruct leap; vm_compute; reflexivity. }
  rewrite forallb_forall in A. specialize (A (N.to_nat k)). rewrite N2Nat.id in A. apply A.
  apply in_seq. lia.
Qed.

Lemma year_len_like y : year_len y = year_len (like (leapb y)).
Proof. unfold year_len. destruct (leapb y); reflexivity. Qed.

Lemma civil_of_day j k : j < year_count -> k < year_len (1970 + j) ->
  civil_of_days (year_start j + k) =
    let '(m, d) := md (leapb (1970 + j)) (k + 1) in (1970 + j, m, d).
Proof.
  intros Hj Hk. unfold civil_of_days. rewrite ordinal_of_day by assumption.
  unfold month_day, md. rewrite leap_eq. reflexivity.
Qed.

Lemma civil_bounds n y m d : n <= last_day -> civil_of_days n = (y, m, d) ->
  day_number y m d = n /\ 1970 <= y <= 9999 /\ 1 <= m <= 12 /\ 1 <= d <= month_days y m.
Proof.
  intros H E. destruct (find_year n H) as (j & k & Hj & -> & Hk).
  rewrite (civil_of_day j k Hj Hk) in E.
  destruct (year_checked j Hj) as [C _]. unfold year_check in C. cbv zeta in C.
  pose proof Hk as O. rewrite year_len_like in O. apply ordinals_checked in O.
  unfold ordinal_check in O. destruct (md (leapb (1970 + j)) (k + 1)) as [m' d'].
  assert (y = 1970 + j /\ m' = m /\ d' = d) as (-> & -> & ->) by (repeat split; congruence).
  rewrite (month_days_like (1970 + j)).
  assert (day_number (1970 + j) m d = day_number (1970 + j) 1 1 + k) as ->.
  { unfold day_number. rewrite (month_sum_like (1970 + j) (N.to_nat (m - 1))).
    change (month_sum (1970 + j) (N.to_nat (1 - 1))) with 0. 
    destruct (md (leapb (1970 + j)) (k + 2)). lia. }
  destruct (md (leapb (1970 + j)) (k + 2)). lia.
Qed.

Lemma civil_next n : n < last_day -> civil_of_days (n + 1) = next_day (civil_of_days n).
Proof.
  intros H. destruct (find_year n) as (j & k & Hj & -> & Hk); [lia|].
  rewrite (civil_of_day j k Hj Hk).
  destruct (year_checked j Hj) as [_ S].
  pose proof Hk as O. rewrite year_len_like in O. apply ordinals_checked in O.
  unfold ordinal_check in O. destruct (md (leapb (1970 + j)) (k + 1)) as [m d].
  cbn [next_day]. rewrite (month_days_like (1970 + j)).
  destruct (N.lt_ge_cases (k + 1) (year_len (1970 + j))) as [Hk1|Hk1].
  - rewrite <- N.add_assoc, (civil_of_day j (k + 1) Hj Hk1).
    replace (k + 1 + 1) with (k + 2) by lia.
    rewrite year_len_like in Hk1.
    destruct (md (leapb (1970 + j)) (k + 2)) as [m' d'].
    destruct (d <? month_days (like (leapb (1970 + j))) m); [|destruct (m <? 12)].
    + assert (m' = m /\ d' = d + 1) as [-> ->] by lia. reflexivity.
    + assert (m' = m + 1 /\ d' = 1) as [-> ->] by lia. reflexivity.
    + exfalso. lia.
  - replace (year_start j + k + 1) with (year_start (j + 1) + 0) by lia.
    assert (j + 1 < year_count) as Hj1.
    { destruct (N.lt_ge_cases (j + 1) year_count) as [|Hge]; [assumption|exfalso].
      destruct all_years_checked as (_ & L & _). replace (j + 1) with year_count in S by lia. lia. }
    rewrite civil_of_day; [|assumption|unfold year_len; destruct (leapb (1970 + (j + 1))); reflexivity].
    assert (md (leapb (1970 + (j + 1))) (0 + 1) = (1, 1)) as -> by (destruct (leapb (1970 + (j + 1))); reflexivity).
    rewrite year_len_like in Hk1.
    assert (month_sum (like (leapb (1970 + j))) (N.to_nat (m - 1)) + (d - 1) = k) as Ek.
    { destruct (md (leapb (1970 + j)) (k + 2)). lia. }
    assert (m = 12 /\ d = 31) as [-> ->].
    { assert (In m [1;2;3;4;5;6;7;8;9;10;11;12]) as I.
      { destruct (md (leapb (1970 + j)) (k + 2)). simpl. lia. }
      assert (d <= month_days (like (leapb (1970 + j))) m) as D.
      { destruct (md (leapb (1970 + j)) (k + 2)). lia. }
      clear - Ek Hk1 I D.
      destruct (leapb (1970 + j)); simpl in I; repeat destruct I as [<-|I]; try contradiction; revert Ek D;
        match type of Hk1 with year_len ?a <= _ =>
          let v := eval vm_compute in (year_len a) in change (year_len a) with v in Hk1 end;
        match goal with |- context [month_sum ?a ?b] => let v := eval vm_compute in (month_sum a b) in change (month_sum a b) with v end;
        match goal with |- context [month_days ?a ?b] => let v := eval vm_compute in (month_days a b) in change (month_days a b) with v end;
        intros; lia. }
    assert (month_days (like (leapb (1970 + j))) 12 = 31) as -> by (destruct (leapb _); reflexivity).
    change (31 <? 31) with false. change (12 <? 12) with false. cbv iota.
    f_equal. f_equal. lia.
Qed.

Lemma civil_nth_day n : n <= last_day -> civil_of_days n = nth_day n.
Proof.
  induction n as [|n IH] using N.peano_ind; intros H; [reflexivity|].
  unfold nth_day. rewrite N.iter_succ. fold (nth_day n). rewrite <- IH by lia.
  rewrite <- N.add_1_r. apply civil_next. lia.
Qed.
