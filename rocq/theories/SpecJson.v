(** JSON texts and their values after RFC 8259. *)
From Coq Require Import Strings.String.
From Verif Require Import Base Json.
Local Open Scope N_scope.

(** RFC 8259, section 2: blanks. *)
Definition blank (c : byte) : Prop := nb c = 32 \/ nb c = 9 \/ nb c = 10 \/ nb c = 13.
Definition blanks (l : bytes) : Prop := Forall blank l.

(** Section 6: numbers. *)
Definition is_digit (c : byte) : Prop := 48 <= nb c <= 57.
Definition digit_row (l : bytes) : Prop := l <> [] /\ Forall is_digit l.
Inductive integer_part : bytes -> Prop :=
| int_zero : integer_part (bs "0")
| int_other c l : is_digit c -> nb c <> 48 -> Forall is_digit l -> integer_part (c :: l).
Inductive fraction_part : bytes -> Prop :=
| frac_none : fraction_part []
| frac_some l : digit_row l -> fraction_part (bs "." ++ l).
Inductive exponent_part : bytes -> Prop :=
| exp_none : exponent_part []
| exp_some e s l : e = bs "e" \/ e = bs "E" -> s = [] \/ s = bs "+" \/ s = bs "-" -> digit_row l -> exponent_part (e ++ s ++ l).
Inductive number : bytes -> Prop :=
| number_parts m i f e : m = [] \/ m = bs "-" -> integer_part i -> fraction_part f -> exponent_part e ->
    number (m ++ i ++ f ++ e).

(** Section 7: strings.  What is between the quotation marks is a row of bytes and of
    UTF-16 code units, the latter written as \uXXXX. *)
Inductive item := Byte_ (c : byte) | Unit_ (u : N).

Definition hex_digit_value (c : byte) (v : N) : Prop :=
  (48 <= nb c <= 57 /\ v = nb c - 48) \/ (65 <= nb c <= 70 /\ v = nb c - 55) \/ (97 <= nb c <= 102 /\ v = nb c - 87).
Inductive item_text : item -> bytes -> Prop :=
| item_plain c : 32 <= nb c -> nb c <> 34 -> nb c <> 92 -> item_text (Byte_ c) [c]
| item_short e v : In (e, v) [(34, 34); (92, 92); (47, 47); (98, 8); (102, 12); (110, 10); (114, 13); (116, 9)] ->
    item_text (Byte_ (u8 v)) [u8 92; u8 e]
| item_unit a b c d va vb vc vd :
    hex_digit_value a va -> hex_digit_value b vb -> hex_digit_value c vc -> hex_digit_value d vd ->
    item_text (Unit_ (va * 16 ^ 3 + vb * 16 ^ 2 + vc * 16 + vd)) (u8 92 :: bs "u" ++ [a; b; c; d]).

(** RFC 3629: the bytes of a character; [k] more bytes hold six bits each. *)
Fixpoint more_bytes (k : nat) (u : N) : bytes :=
  match k with O => [] | S k' => more_bytes k' (u / 64) ++ [u8 (128 + u mod 64)] end.
Definition utf8_of (u : N) : bytes :=
  if u <? 128 then [u8 u]
  else if u <? 2 ^ 11 then u8 (192 + u / 2 ^ 6) :: more_bytes 1 u
  else if u <? 2 ^ 16 then u8 (224 + u / 2 ^ 12) :: more_bytes 2 u
  else u8 (240 + u / 2 ^ 18) :: more_bytes 3 u.

(** A high surrogate followed by a low one is a character beyond U+FFFF. *)
Fixpoint items_value (l : list item) : bytes :=
  match l with
  | [] => []
  | Byte_ c :: r => c :: items_value r
  | Unit_ u :: r =>
      match r with
      | Unit_ v :: r' =>
          if (u / 1024 =? 54) && (v / 1024 =? 55) then utf8_of (65536 + 1024 * (u mod 1024) + v mod 1024) ++ items_value r'
          else utf8_of u ++ items_value r
      | _ => utf8_of u ++ items_value r
      end
  end.
Definition string_text (t s : bytes) : Prop :=
  exists items texts, Forall2 item_text items texts /\ t = bs """" ++ concat texts ++ bs """" /\ s = items_value items.

(** Section 4: of members with one name the last counts; it stands where the first stood. *)
Definition last_value (l : list (bytes * json)) (k : bytes) : option json :=
  fold_left (fun o m => if bytes_eqb (fst m) k then Some (snd m) else o) l None.
Fixpoint names_once (l : list (bytes * json)) : list bytes :=
  match l with
  | [] => []
  | (k, _) :: r => k :: List.filter (fun k' => negb (bytes_eqb k' k)) (names_once r)
  end.
Definition members_value (l : list (bytes * json)) : list (bytes * json) :=
  map (fun k => (k, default JNull (last_value l k))) (names_once l).

(** Sections 3 to 5. *)
Inductive value : bytes -> json -> Prop :=
| value_null : value (bs "null") JNull
| value_true : value (bs "true") (JBool true)
| value_false : value (bs "false") (JBool false)
| value_number t : number t -> value t (JNum t)
| value_string t s : string_text t s -> value t (JStr s)
| value_no_elements w : blanks w -> value (bs "[" ++ w ++ bs "]") (JArr [])
| value_elements t vs : elements t vs -> value (bs "[" ++ t ++ bs "]") (JArr vs)
| value_no_members w : blanks w -> value (bs "{" ++ w ++ bs "}") (JObj [])
| value_members t ms : members t ms -> value (bs "{" ++ t ++ bs "}") (JObj (members_value ms))
with elements : bytes -> list json -> Prop :=
| elements_one w1 t w2 v : blanks w1 -> value t v -> blanks w2 -> elements (w1 ++ t ++ w2) [v]
| elements_more w1 t w2 v t' vs : blanks w1 -> value t v -> blanks w2 -> elements t' vs ->
    elements (w1 ++ t ++ w2 ++ bs "," ++ t') (v :: vs)
with members : bytes -> list (bytes * json) -> Prop :=
| members_one w1 k s w2 w3 t w4 v : blanks w1 -> string_text k s -> blanks w2 -> blanks w3 -> value t v -> blanks w4 ->
    members (w1 ++ k ++ w2 ++ bs ":" ++ w3 ++ t ++ w4) [(s, v)]
| members_more w1 k s w2 w3 t w4 v t' ms :
    blanks w1 -> string_text k s -> blanks w2 -> blanks w3 -> value t v -> blanks w4 -> members t' ms ->
    members (w1 ++ k ++ w2 ++ bs ":" ++ w3 ++ t ++ w4 ++ bs "," ++ t') ((s, v) :: ms).

Definition json_doc (t : bytes) (v : json) : Prop :=
  exists w1 t' w2, blanks w1 /\ value t' v /\ blanks w2 /\ t = w1 ++ t' ++ w2.
