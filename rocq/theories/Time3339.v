(** [time] 0.3.36 (Cargo.lock): OffsetDateTime::from_unix_timestamp_nanos and
    formatting with the well-known Rfc3339 description, as used in siwe.rs 119-125.
    Written from the crate's published source, for non-negative timestamps. *)
From Coq Require Import Strings.String.
From Verif Require Import Base.
Local Open Scope N_scope.

Definition is_leap_year (y : N) : bool :=
  (y mod 4 =? 0) && (negb (y mod 100 =? 0) || (y mod 400 =? 0)).

(** Date::from_julian_day_unchecked (year, ordinal day), for days after 1970. *)
Definition from_julian_day (julian_day : N) : N * N :=
  let z := julian_day - 1721119 in
  let g := 100 * z - 25 in
  let a := g / 3652425 in
  let b := a - a / 4 in
  let year := (100 * b + g) / 36525 in
  let ordinal := b + z - (36525 * year) / 100 in
  if is_leap_year year then
    let o := ordinal + 60 in
    if 367 <=? o then (year + 1, o - 366) else (year, o)
  else
    let o := ordinal + 59 in
    if 366 <=? o then (year + 1, o - 365) else (year, o).

(** Date::month_day: the table of cumulative days before each month. *)
Definition cumulative_days (leap : bool) : list N :=
  if leap then [335; 305; 274; 244; 213; 182; 152; 121; 91; 60; 31]
  else [334; 304; 273; 243; 212; 181; 151; 120; 90; 59; 31].

Fixpoint month_day_from (table : list N) (month : N) (ordinal : N) : N * N :=
  match table with
  | [] => (1, ordinal)
  | d :: r => if d <? ordinal then (month, ordinal - d) else month_day_from r (month - 1) ordinal
  end.

Definition month_day (year ordinal : N) : N * N :=
  month_day_from (cumulative_days (is_leap_year year)) 12 ordinal.

Definition civil_of_days (days : N) : N * N * N :=
  let '(y, o) := from_julian_day (2440588 + days) in
  let '(m, d) := month_day y o in
  (y, m, d).

(** The largest timestamp in seconds that OffsetDateTime can hold (year 9999). *)
Definition MAX_TIMESTAMP : N := 253402300799.

(** The optional fraction: no trailing zeros, nothing at all when zero.  The crate
    writes this as a chain of nine tests, one per number of digits. *)
Fixpoint frac_digits (w : nat) (n : N) : bytes :=
  match w with
  | O => []
  | S w' => if n mod 10 =? 0 then frac_digits w' (n / 10) else dec_pad w n
  end.

Definition format_nanos (nanos : N) : bytes :=
  if nanos =? 0 then [] else bs "." ++ frac_digits 9 nanos.

(** [OffsetDateTime::from_unix_timestamp_nanos(t).unwrap().format(&Rfc3339).unwrap()] *)
Definition format_rfc3339 (t : N) : outcome bytes :=
  let secs := t / 1000000000 in
  let nanos := t mod 1000000000 in
  if MAX_TIMESTAMP <? secs then Trap "timestamp out of range"
  else
    let days := secs / 86400 in
    let sod := secs mod 86400 in
    let '(y, m, d) := civil_of_days days in
    if 9999 <? y then Trap "year out of range"
    else Done (dec_pad 4 y ++ bs "-" ++ dec_pad 2 m ++ bs "-" ++ dec_pad 2 d ++ bs "T"
               ++ dec_pad 2 (sod / 3600) ++ bs ":" ++ dec_pad 2 (sod / 60 mod 60) ++ bs ":"
               ++ dec_pad 2 (sod mod 60) ++ format_nanos nanos ++ bs "Z").
