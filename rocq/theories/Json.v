(** JSON: the text that serde_json::to_string (serde_json 1.0.125, Cargo.lock 3694-3695) and JSON.stringify write and
    JSON.parse reads.  Both writers put no blanks and escape the same characters in the
    same way.  A string of JavaScript is its UTF-8 bytes; half of a surrogate pair is the three bytes that
    UTF-8 would use for it.  A number is its digits as written. *)
From Coq Require Import Strings.String.
From Verif Require Import Base Hex.
Local Open Scope N_scope.

Inductive json :=
| JNull
| JBool (b : bool)
| JNum (t : bytes)
| JStr (s : bytes)
| JArr (l : list json)
| JObj (l : list (bytes * json)).

(** ** Writing *)

(** serde_json's ESCAPE table; QuoteJSONString of ECMA-262. *)
Definition escape (c : byte) : bytes :=
  match c with
  | x08 => bs "\b" | x09 => bs "\t" | x0a => bs "\n" | x0c => bs "\f" | x0d => bs "\r"
  | x22 => x5c :: [x22] | x5c => [x5c; x5c]
  | c => if nb c <? 32 then bs "\u00" ++ [hex_digit (nb c / 16); hex_digit (nb c mod 16)] else [c]
  end.
Definition quoted (s : bytes) : bytes := x22 :: concat (map escape s) ++ [x22].

Fixpoint commas (l : list bytes) : bytes :=
  match l with [] => [] | [a] => a | a :: r => a ++ x2c :: commas r end.

Fixpoint json_text (j : json) : bytes :=
  match j with
  | JNull => bs "null"
  | JBool b => if b then bs "true" else bs "false"
  | JNum t => t
  | JStr s => quoted s
  | JArr l => x5b :: commas (map json_text l) ++ [x5d]
  | JObj l => x7b :: commas (map (fun m => quoted (fst m) ++ x3a :: json_text (snd m)) l) ++ [x7d]
  end.

(** ** Reading *)

Definition json_blank (c : byte) : bool :=
  match c with x09 | x0a | x0d | x20 => true | _ => false end.
Fixpoint skip_blanks (l : bytes) : bytes :=
  match l with c :: r => if json_blank c then skip_blanks r else l | [] => [] end.

Definition hex4 (a b c d : byte) : option N :=
  match hex_val a, hex_val b, hex_val c, hex_val d with
  | Some a, Some b, Some c, Some d => Some (4096 * a + 256 * b + 16 * c + d)
  | _, _, _, _ => None
  end.
Definition high_half (u : N) : bool := (55296 <=? u) && (u <? 56320).
Definition low_half (u : N) : bool := (56320 <=? u) && (u <? 57344).
(** The UTF-8 bytes of a character. *)
Definition char_bytes (u : N) : bytes :=
  if u <? 128 then [u8 u]
  else if u <? 2048 then [u8 (192 + u / 64); u8 (128 + u mod 64)]
  else if u <? 65536 then [u8 (224 + u / 4096); u8 (128 + u / 64 mod 64); u8 (128 + u mod 64)]
  else [u8 (240 + u / 262144); u8 (128 + u / 4096 mod 64); u8 (128 + u / 64 mod 64); u8 (128 + u mod 64)].

Definition short_escape (c : byte) : option byte :=
  match c with
  | x22 => Some x22 | x5c => Some x5c | x2f => Some x2f
  | x62 => Some x08 | x66 => Some x0c | x6e => Some x0a | x72 => Some x0d | x74 => Some x09
  | _ => None
  end.

Definition prepend (p : bytes) (o : option (bytes * bytes)) : option (bytes * bytes) :=
  match o with Some (s, r) => Some (p ++ s, r) | None => None end.

(** A string after its first quotation mark. *)
Fixpoint read_string (l : bytes) : option (bytes * bytes) :=
  match l with
  | [] => None
  | c :: r =>
      if Byte.eqb c x22 then Some ([], r)
      else if Byte.eqb c x5c then
        match r with
        | [] => None
        | e :: r1 =>
            if Byte.eqb e x75 then
              match r1 with
              | a :: b :: c :: d :: r2 =>
                  match hex4 a b c d with
                  | None => None
                  | Some u =>
                      match r2 with
                      | c' :: e' :: a' :: b' :: c'' :: d' :: r3 =>
                          match hex4 a' b' c'' d' with
                          | Some v =>
                              if Byte.eqb c' x5c && Byte.eqb e' x75 && high_half u && low_half v
                              then prepend (char_bytes (65536 + 1024 * (u - 55296) + (v - 56320))) (read_string r3)
                              else prepend (char_bytes u) (read_string r2)
                          | None => prepend (char_bytes u) (read_string r2)
                          end
                      | _ => prepend (char_bytes u) (read_string r2)
                      end
                  end
              | _ => None
              end
            else match short_escape e with Some c => prepend [c] (read_string r1) | None => None end
        end
      else if nb c <? 32 then None
      else prepend [c] (read_string r)
  end.

Definition json_digit (c : byte) : bool := (48 <=? nb c) && (nb c <=? 57).
Fixpoint digits (l : bytes) : bytes * bytes :=
  match l with
  | c :: r => if json_digit c then let '(a, b) := digits r in (c :: a, b) else ([], l)
  | [] => ([], [])
  end.
(** [None]: no digit *)
Definition some_digits (l : bytes) : option (bytes * bytes) :=
  match digits l with ([], _) => None | (d, r) => Some (d, r) end.
Definition read_int (l : bytes) : option (bytes * bytes) :=
  match l with c :: r => if Byte.eqb c x30 then Some ([x30], r) else some_digits l | [] => None end.
Definition read_minus (l : bytes) : bytes * bytes :=
  match l with c :: r => if Byte.eqb c x2d then ([x2d], r) else ([], l) | [] => ([], []) end.
Definition read_fraction (l : bytes) : option (bytes * bytes) :=
  match l with
  | c :: r => if Byte.eqb c x2e then prepend [x2e] (some_digits r) else Some ([], l)
  | [] => Some ([], [])
  end.
Definition read_exponent (l : bytes) : option (bytes * bytes) :=
  match l with
  | e :: r =>
      if Byte.eqb e x65 || Byte.eqb e x45 then
        match r with
        | s :: r' => if Byte.eqb s x2b || Byte.eqb s x2d then prepend [e; s] (some_digits r') else prepend [e] (some_digits r)
        | [] => None
        end
      else Some ([], l)
  | [] => Some ([], [])
  end.
Definition read_number (l : bytes) : option (bytes * bytes) :=
  let '(m, l) := read_minus l in
  match read_int l with
  | Some (i, l) =>
      match read_fraction l with
      | Some (f, l) => prepend (m ++ i ++ f) (read_exponent l)
      | None => None
      end
  | None => None
  end.

(** A name that comes again takes the place and has the later value. *)
Fixpoint put_member (k : bytes) (v : json) (l : list (bytes * json)) : list (bytes * json) :=
  match l with
  | [] => [(k, v)]
  | (k', v') :: r => if bytes_eqb k k' then (k, v) :: r else (k', v') :: put_member k v r
  end.
Definition object_of (l : list (bytes * json)) : list (bytes * json) :=
  fold_left (fun o m => put_member (fst m) (snd m) o) l [].

Definition expect (c : byte) (l : bytes) : option bytes :=
  match l with x :: r => if Byte.eqb x c then Some r else None | [] => None end.
Definition starts_number (l : bytes) : bool :=
  match l with c :: _ => json_digit c || Byte.eqb c x2d | [] => false end.
Definition read_word (l : bytes) : option (json * bytes) :=
  match strip_prefix (bs "null") l, strip_prefix (bs "true") l, strip_prefix (bs "false") l with
  | Some r, _, _ => Some (JNull, r)
  | _, Some r, _ => Some (JBool true, r)
  | _, _, Some r => Some (JBool false, r)
  | _, _, _ => None
  end.

Fixpoint read_value (q : nat) (l : bytes) : option (json * bytes) :=
  match q with
  | O => None
  | S q =>
      let l := skip_blanks l in
      match expect x22 l, expect x5b l, expect x7b l with
      | Some r, _, _ => match read_string r with Some (s, r) => Some (JStr s, r) | None => None end
      | _, Some r, _ =>
          match expect x5d (skip_blanks r) with
          | Some r => Some (JArr [], r)
          | None => match read_elements q r with Some (vs, r) => Some (JArr vs, r) | None => None end
          end
      | _, _, Some r =>
          match expect x7d (skip_blanks r) with
          | Some r => Some (JObj [], r)
          | None => match read_members q r with Some (ms, r) => Some (JObj (object_of ms), r) | None => None end
          end
      | _, _, _ =>
          if starts_number l then match read_number l with Some (t, r) => Some (JNum t, r) | None => None end
          else read_word l
      end
  end
with read_elements (q : nat) (l : bytes) : option (list json * bytes) :=
  match q with
  | O => None
  | S q =>
      match read_value q l with
      | Some (v, r) =>
          match expect x2c (skip_blanks r), expect x5d (skip_blanks r) with
          | Some r, _ => match read_elements q r with Some (vs, r) => Some (v :: vs, r) | None => None end
          | _, Some r => Some ([v], r)
          | _, _ => None
          end
      | None => None
      end
  end
with read_members (q : nat) (l : bytes) : option (list (bytes * json) * bytes) :=
  match q with
  | O => None
  | S q =>
      match expect x22 (skip_blanks l) with
      | Some r =>
          match read_string r with
          | Some (k, r) =>
              match expect x3a (skip_blanks r) with
              | Some r =>
                  match read_value q r with
                  | Some (v, r) =>
                      match expect x2c (skip_blanks r), expect x7d (skip_blanks r) with
                      | Some r, _ => match read_members q r with Some (ms, r) => Some ((k, v) :: ms, r) | None => None end
                      | _, Some r => Some ([(k, v)], r)
                      | _, _ => None
                      end
                  | None => None
                  end
              | None => None
              end
          | None => None
          end
      | None => None
      end
  end.

(** JSON.parse; [None]: it throws. *)
Definition parse_json (t : bytes) : option json :=
  match read_value (2 * length t + 2) t with
  | Some (v, r) => match skip_blanks r with [] => Some v | _ => None end
  | None => None
  end.
