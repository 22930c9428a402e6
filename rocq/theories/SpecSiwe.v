(** Independent specifications: the calendar, an RFC 3339 reader, an ERC-4361
    reader, and what the documentation asks of settings.  Nothing here uses the
    functions of the model (only its data types). *)
From Coq Require Import Strings.String.
From Verif Require Import Base Deps Settings.
Local Open Scope N_scope.

(** ** The Gregorian calendar, one day after the other *)

Definition leapb (y : N) : bool :=
  if y mod 400 =? 0 then true else if y mod 100 =? 0 then false else y mod 4 =? 0.

Definition month_days (y m : N) : N :=
  match m with
  | 2 => if leapb y then 29 else 28
  | 4 | 6 | 9 | 11 => 30
  | _ => 31
  end.

Definition next_day (date : N * N * N) : N * N * N :=
  let '(y, m, d) := date in
  if d <? month_days y m then (y, m, d + 1)
  else if m <? 12 then (y, m + 1, 1)
  else (y + 1, 1, 1).

(** The date [n] days after 1 January 1970. *)
Definition nth_day (n : N) : N * N * N := N.iter n next_day (1970, 1, 1).

(** The number of days from 1 January 1970 to a date. *)
Definition leaps_until (y : N) : N := y / 4 - y / 100 + y / 400.
Fixpoint month_sum (y : N) (k : nat) : N :=
  match k with O => 0 | S k' => month_sum y k' + month_days y (N.of_nat k) end.
Definition day_number (y m d : N) : N :=
  365 * (y - 1970) + (leaps_until (y - 1) - leaps_until 1969)
  + month_sum y (N.to_nat (m - 1)) + (d - 1).

(** ** RFC 3339, section 5.6, with offset Z *)

Record date_time := mkDT {
  dt_year : N; dt_month : N; dt_day : N;
  dt_hour : N; dt_minute : N; dt_second : N; dt_nanos : N
}.

Definition digit_value (c : byte) : option N :=
  if (48 <=? nb c) && (nb c <=? 57) then Some (nb c - 48) else None.

(** Exactly [k] digits, continuing the number [acc]. *)
Fixpoint read_digits (k : nat) (acc : N) (l : bytes) : option (N * bytes) :=
  match k, l with
  | O, _ => Some (acc, l)
  | S k', c :: r => match digit_value c with
                    | Some v => read_digits k' (10 * acc + v) r
                    | None => None
                    end
  | S _, [] => None
  end.

(** The digits at the front: value, how many, and what follows. *)
Fixpoint read_many (acc : N) (count : N) (l : bytes) : N * N * bytes :=
  match l with
  | c :: r => match digit_value c with
              | Some v => read_many (10 * acc + v) (count + 1) r
              | None => (acc, count, l)
              end
  | [] => (acc, count, [])
  end.

Definition expect (c : byte) (l : bytes) : option bytes :=
  match l with
  | x :: r => if Byte.eqb x c then Some r else None
  | [] => None
  end.

(** An optional fraction of a second: a point and one to nine digits. *)
Definition read_fraction (l : bytes) : option (N * bytes) :=
  match expect x2e l with
  | None => Some (0, l)
  | Some r =>
      let '(v, k, r) := read_many 0 0 r in
      if (1 <=? k) && (k <=? 9) then Some (v * 10 ^ (9 - k), r) else None
  end.

Definition valid_dtb (t : date_time) : bool :=
  (1 <=? dt_month t) && (dt_month t <=? 12) &&
  (1 <=? dt_day t) && (dt_day t <=? month_days (dt_year t) (dt_month t)) &&
  (dt_hour t <? 24) && (dt_minute t <? 60) && (dt_second t <? 60).

Definition read_rfc3339 (l : bytes) : option date_time :=
  '(y, l) ← read_digits 4 0 l; l ← expect x2d l;
  '(m, l) ← read_digits 2 0 l; l ← expect x2d l;
  '(d, l) ← read_digits 2 0 l; l ← expect x54 l;
  '(h, l) ← read_digits 2 0 l; l ← expect x3a l;
  '(mi, l) ← read_digits 2 0 l; l ← expect x3a l;
  '(s, l) ← read_digits 2 0 l;
  '(ns, l) ← read_fraction l; l ← expect x5a l;
  match l with
  | [] => let t := mkDT y m d h mi s ns in if valid_dtb t then Some t else None
  | _ :: _ => None
  end.

(** Nanoseconds since the epoch. *)
Definition instant (t : date_time) : N :=
  (day_number (dt_year t) (dt_month t) (dt_day t) * 86400
   + dt_hour t * 3600 + dt_minute t * 60 + dt_second t) * 1000000000 + dt_nanos t.

Definition read_instant (l : bytes) : option N := instant <$> read_rfc3339 l.

(** ** ERC-4361, for messages with a statement and without a scheme prefix,
    not-before, request id and resources *)

(** The lines of a text. *)
Fixpoint lines (l : bytes) : list bytes :=
  match l with
  | [] => [[]]
  | c :: r => if Byte.eqb c x0a then [] :: lines r
              else match lines r with
                   | x :: xs => (c :: x) :: xs
                   | [] => [[c]]
                   end
  end.

(** What follows (precedes) a given beginning (end). *)
Definition after (p l : bytes) : option bytes :=
  if decide (take (length p) l = p) then Some (drop (length p) l) else None.
Definition before (p l : bytes) : option bytes :=
  let k := (length l - length p)%nat in
  if decide (drop k l = p) then Some (take k l) else None.

Definition read_decimal (l : bytes) : option N :=
  match l, read_many 0 0 l with
  | _ :: _, (v, _, []) => Some v
  | _, _ => None
  end.

Record erc4361 := mkErc {
  e_domain : bytes;
  e_address : bytes;
  e_statement : bytes;
  e_uri : bytes;
  e_version : N;
  e_chain_id : N;
  e_nonce : bytes;
  e_issued_at : N;
  e_expiration_time : N
}.

Definition read_erc4361 (text : bytes) : option erc4361 :=
  match lines text with
  | [l0; address; []; statement; []; luri; lversion; lchain; lnonce; lissued; lexpires] =>
      domain ← before (bs " wants you to sign in with your Ethereum account:") l0;
      uri ← after (bs "URI: ") luri;
      version ← after (bs "Version: ") lversion ≫= read_decimal;
      chain ← after (bs "Chain ID: ") lchain ≫= read_decimal;
      nonce ← after (bs "Nonce: ") lnonce;
      issued ← after (bs "Issued At: ") lissued ≫= read_instant;
      expires ← after (bs "Expiration Time: ") lexpires ≫= read_instant;
      Some (mkErc domain address statement uri version chain nonce issued expires)
  | _ => None
  end.

Definition one_line (l : bytes) : Prop := ~ In x0a l.

(** ** Settings *)

(** The documented constraints (comments and validators of settings.rs; the
    README of ic_siwe). *)
Record acceptable (D : Deps) (s : Settings) : Prop := {
  acc_domain : exists u h, d_url_parse D (s_scheme s ++ bs "://" ++ s_domain s) = Some u /\
                 url_has_authority u = true /\ url_host u = Some h;
  acc_uri : exists u h, d_url_parse D (s_uri s) = Some u /\ url_host u = Some h;
  acc_salt : s_salt s <> [] /\ Forall (fun c => 33 <= nb c <= 126) (s_salt s);
  acc_chain_id : s_chain_id s <> 0;
  acc_scheme : s_scheme s = bs "http" \/ s_scheme s = bs "https";
  acc_statement : one_line (s_statement s);
  acc_sign_in : s_sign_in_expires_in s <> 0;
  acc_session : s_session_expires_in s <> 0;
  acc_targets : forall l, s_targets s = Some l -> (1 <= length l <= 1000)%nat /\ NoDup l
}.

(** The calls of a builder chain. *)
Inductive builder_call :=
| CallChainId (x : N)
| CallScheme (x : bytes)
| CallStatement (x : bytes)
| CallSignIn (x : N)
| CallSession (x : N)
| CallTargets (x : list bytes)
| CallFeatures (x : list runtime_feature).

(** The value of the last call that [pick]s a value, or [otherwise]. *)
Fixpoint last_call {A} (pick : builder_call -> option A) (otherwise : A) (l : list builder_call) : A :=
  match l with
  | [] => otherwise
  | c :: r => last_call pick (default otherwise (pick c)) r
  end.

(** What a chain of calls on [new domain uri salt] should produce. *)
Definition chain_spec (domain uri salt : bytes) (l : list builder_call) : Settings :=
  mkSettings domain uri salt
    (last_call (fun c => match c with CallChainId x => Some x | _ => None end) 1 l)
    (last_call (fun c => match c with CallScheme x => Some x | _ => None end) (bs "https") l)
    (last_call (fun c => match c with CallStatement x => Some x | _ => None end) (bs "SIWE Fields:") l)
    (last_call (fun c => match c with CallSignIn x => Some x | _ => None end) 300000000000 l)
    (last_call (fun c => match c with CallSession x => Some x | _ => None end) 1800000000000 l)
    (last_call (fun c => match c with CallTargets x => Some (Some x) | _ => None end) None l)
    (last_call (fun c => match c with CallFeatures x => Some (Some x) | _ => None end) None l).
