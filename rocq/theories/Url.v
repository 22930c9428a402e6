(** Url::parse of the [url] crate, version 2.5.0 (Cargo.lock 4557-4560), as far as
    settings.rs 180-197 looks at the result: whether the text is accepted, whether
    the address has an authority, and its host.  The path, query and fragment of an
    address never make it fail and are not asked for.

    Written after src/parser.rs and src/host.rs of the crate.  Two pieces are
    parameters: what idna 0.5.0 (Cargo.lock 2068-2071) does with a name that is not
    ASCII or has an "xn--" label, and whether the path of a [file] address starts
    with a Windows drive letter once its dot segments are resolved. *)
From Coq Require Import Strings.String.
From Verif Require Import Base Deps Hex Eth.
Local Open Scope N_scope.

Record url_libs := {
  u_idna : bytes -> option bytes;
  u_drive : bytes -> bool
}.

Definition one_of (s : bytes) (c : byte) : bool := existsb (Byte.eqb c) s.

(** Parser input: [Input::new] trims C0 controls and spaces from both ends, and its
    iterator leaves out tabs and line breaks. *)
Definition c0_or_space (c : byte) : bool := nb c <=? 32.
Definition tab_or_newline (c : byte) : bool := (nb c =? 9) || (nb c =? 10) || (nb c =? 13).

Fixpoint drop_while (p : byte -> bool) (l : bytes) : bytes :=
  match l with
  | c :: r => if p c then drop_while p r else l
  | [] => []
  end.
Definition trim (p : byte -> bool) (l : bytes) : bytes :=
  rev (drop_while p (rev (drop_while p l))).
Definition url_input (s : bytes) : bytes :=
  List.filter (fun c => negb (tab_or_newline c)) (trim c0_or_space s).

Definition is_alpha (c : byte) : bool :=
  ((65 <=? nb c) && (nb c <=? 90)) || ((97 <=? nb c) && (nb c <=? 122)).

(** Parser::parse_scheme: letters, digits, '+', '-' and '.' up to the first ':',
    starting with a letter; lower-cased. *)
Fixpoint scheme_chars (l acc : bytes) : option (bytes * bytes) :=
  match l with
  | [] => None
  | c :: r =>
      if Byte.eqb c x3a then Some (rev acc, r)
      else if is_alpha c || is_digit c || one_of (bs "+-.") c then scheme_chars r (to_lower c :: acc)
      else None
  end.
Definition parse_scheme (l : bytes) : option (bytes * bytes) :=
  match l with
  | c :: _ => if is_alpha c then scheme_chars l [] else None
  | [] => None
  end.

Inductive scheme_type := FileScheme | SpecialNotFile | NotSpecial.
Definition scheme_type_of (s : bytes) : scheme_type :=
  if bytes_eqb s (bs "file") then FileScheme
  else if existsb (bytes_eqb s) [bs "http"; bs "https"; bs "ws"; bs "wss"; bs "ftp"] then SpecialNotFile
  else NotSpecial.
Definition is_special (t : scheme_type) : bool :=
  match t with NotSpecial => false | _ => true end.

(** The characters that end an authority. *)
Definition ends_authority (t : scheme_type) (c : byte) : bool :=
  one_of (bs "/?#") c || (is_special t && Byte.eqb c x5c).

(** Parser::parse_userinfo, its first loop: the text before the last '@' of the
    authority, and what follows that '@'. *)
Fixpoint last_at (t : scheme_type) (l seen : bytes) (best : option (bytes * bytes)) : option (bytes * bytes) :=
  match l with
  | [] => best
  | c :: r =>
      if Byte.eqb c x40 then last_at t r (c :: seen) (Some (rev seen, r))
      else if ends_authority t c then best
      else last_at t r (c :: seen) best
  end.

(** Parser::parse_userinfo: whether anything was written for the user, and the rest.
    A lone ':' is not written. *)
Definition parse_userinfo (t : scheme_type) (l : bytes) : option (bool * bytes) :=
  match last_at t l [] None with
  | None => Some (false, l)
  | Some ([], r) =>
      match r with
      | c :: _ => if ends_authority t c then None else Some (false, r)
      | [] => Some (false, r)
      end
  | Some (user, r) => Some (negb (bytes_eqb user (bs ":")), r)
  end.

(** Parser::parse_host, its loop: the host ends at ':' outside square brackets. *)
Fixpoint host_span (t : scheme_type) (inside : bool) (l : bytes) : bytes * bytes :=
  match l with
  | [] => ([], [])
  | c :: r =>
      if (Byte.eqb c x3a && negb inside) || ends_authority t c then ([], l)
      else
        let inside' := if Byte.eqb c x5b then true else if Byte.eqb c x5d then false else inside in
        let (h, r') := host_span t inside' r in (c :: h, r')
  end.

(** percent_encoding::percent_decode *)
Definition pct_pair (c a b : byte) : option byte :=
  if Byte.eqb c x25 then
    match hex_val a, hex_val b with
    | Some h, Some lo => Some (u8 (16 * h + lo))
    | _, _ => None
    end
  else None.
Fixpoint percent_decode (l : bytes) : bytes :=
  match l with
  | c :: ((a :: b :: r') as r) =>
      match pct_pair c a b with
      | Some d => d :: percent_decode r'
      | None => c :: percent_decode r
      end
  | c :: r => c :: percent_decode r
  | [] => []
  end.

(** str::split('.') *)
Fixpoint split_dots (l : bytes) : list bytes :=
  match l with
  | [] => [[]]
  | c :: r =>
      if Byte.eqb c x2e then [] :: split_dots r
      else match split_dots r with
           | p :: ps => (c :: p) :: ps
           | [] => [[c]]
           end
  end.

(** idna::domain_to_ascii: an ASCII name without "xn--" labels is lower-cased; the
    default configuration refuses no ASCII character and no length. *)
Definition plain_name (d : bytes) : bool :=
  forallb (fun c => nb c <? 128) d &&
  forallb (fun p => negb (is_prefix (bs "xn--") p)) (split_dots (List.map to_lower d)).
Definition domain_to_ascii (L : url_libs) (d : bytes) : option bytes :=
  if plain_name d then Some (List.map to_lower d) else u_idna L d.

(** Host::parse, is_invalid_domain_char *)
Definition invalid_domain_char (c : byte) : bool :=
  (nb c <=? 31) || one_of (bs " #%/:<>?@[\]^|") c || (nb c =? 127).

(** u32::from_str_radix on digits already checked *)
Definition radix_val (r : N) (l : bytes) : N :=
  fold_left (fun a c => r * a + match hex_val c with Some v => v | None => 0 end) l 0.
Definition radix_digit (r : N) (c : byte) : bool :=
  match hex_val c with Some v => v <? r | None => false end.

(** parse_ipv4number: [None] is an error, [Some None] a number above 32 bits. *)
Definition parse_ipv4number (p : bytes) : option (option N) :=
  let '(r, q) :=
    match p with
    | c :: d :: rest =>
        if Byte.eqb c x30 then
          if Byte.eqb d x78 || Byte.eqb d x58 then (16, rest) else (8, d :: rest)
        else (10, p)
    | _ => (10, p)
    end in
  match p, q with
  | [], _ => None
  | _, [] => Some (Some 0)
  | _, _ => if forallb (radix_digit r) q
            then Some (if radix_val r q <=? u32_max then Some (radix_val r q) else None)
            else None
  end.

(** ends_in_a_number *)
Definition ends_in_a_number (d : bytes) : bool :=
  let last := match rev (split_dots d) with
              | [] :: p :: _ => Some p
              | [] :: [] => None
              | p :: _ => Some p
              | [] => None
              end in
  match last with
  | None => false
  | Some p => (negb (bytes_eqb p []) && forallb is_digit p) ||
              match parse_ipv4number p with Some _ => true | None => false end
  end.

(** parse_ipv4addr *)
Fixpoint all_numbers (ps : list bytes) : option (list N) :=
  match ps with
  | [] => Some []
  | p :: r => match parse_ipv4number p, all_numbers r with
              | Some (Some n), Some l => Some (n :: l)
              | _, _ => None
              end
  end.
Definition parse_ipv4addr (d : bytes) : option N :=
  let parts := match rev (split_dots d) with
               | [] :: r => rev r
               | _ => split_dots d
               end in
  if (4 <? length parts)%nat then None
  else match all_numbers parts with
       | None => None
       | Some ns =>
           match rev ns with
           | [] => None
           | v :: front =>
               if N.shiftr u32_max (8 * N.of_nat (length front)) <? v then None
               else if existsb (fun x => 255 <? x) front then None
               else Some (v + fold_left (fun a p => a + N.shiftl (snd p) (8 * (3 - N.of_nat (fst p))))
                                (imap pair (rev front)) 0)
           end
       end.

(** parse_ipv6addr, as far as success goes *)
Fixpoint take_hex (n : nat) (l : bytes) : bytes * bytes :=
  match n, l with
  | S k, c :: r => match hex_val c with
                   | Some _ => let (h, r') := take_hex k r in (c :: h, r')
                   | None => ([], l)
                   end
  | _, _ => ([], l)
  end.
Fixpoint v4_digits (l : bytes) (v : option N) : option (N * bytes) :=
  match l with
  | c :: r =>
      if is_digit c then
        let d := nb c - 48 in
        match v with
        | None => v4_digits r (Some d)
        | Some n => if n =? 0 then None
                    else if 255 <? 10 * n + d then None else v4_digits r (Some (10 * n + d))
        end
      else option_map (fun n => (n, l)) v
  | [] => option_map (fun n => (n, l)) v
  end.
Fixpoint v4_tail (more : nat) (l : bytes) : bool :=
  match v4_digits l None with
  | None => false
  | Some (_, rest) =>
      match more, rest with
      | O, [] => true
      | S k, c :: r => Byte.eqb c x2e && v4_tail k r
      | _, _ => false
      end
  end.
Fixpoint v6_pieces (fuel : nat) (l : bytes) (pieces : nat) (compressed : bool) : bool :=
  match fuel with
  | O => false
  | S f =>
      match l with
      | [] => compressed || (pieces =? 8)%nat
      | c :: r =>
          if (pieces =? 8)%nat then false
          else if Byte.eqb c x3a then
            if compressed then false else v6_pieces f r (S pieces) true
          else
            let (h, rest) := take_hex 4 l in
            match rest with
            | [] => v6_pieces f [] (S pieces) compressed
            | d :: rest' =>
                if Byte.eqb d x2e then
                  match h with
                  | [] => false
                  | _ => if (6 <? pieces)%nat then false
                         else v4_tail 3 l && (compressed || (pieces + 2 =? 8)%nat)
                  end
                else if Byte.eqb d x3a then
                  match rest' with
                  | [] => false
                  | _ => v6_pieces f rest' (S pieces) compressed
                  end
                else false
            end
      end
  end.
Definition ipv6_ok (l : bytes) : bool :=
  match l with
  | c :: d :: r =>
      if Byte.eqb c x3a then Byte.eqb d x3a && v6_pieces (S (length r)) r 1 true
      else v6_pieces (S (length l)) l 0 false
  | _ => false
  end.

(** Display for Host.  The text of an IPv6 host is left as it was written; nothing
    looks at it. *)
Definition show_ipv4 (n : N) : bytes :=
  dec (n / 16777216) ++ bs "." ++ dec (n / 65536 mod 256) ++ bs "." ++
  dec (n / 256 mod 256) ++ bs "." ++ dec (n mod 256).

(** The bracketed form, shared by Host::parse and Host::parse_opaque. *)
Definition bracketed (h : bytes) : option bytes :=
  match h, rev h with
  | _ :: _ :: _, e :: _ => if Byte.eqb e x5d && ipv6_ok (removelast (tl h)) then Some h else None
  | _, _ => None
  end.

(** Host::parse *)
Definition parse_domain_host (L : url_libs) (h : bytes) : option bytes :=
  match h with
  | [] => None
  | c :: _ =>
      if Byte.eqb c x5b then bracketed h
      else match domain_to_ascii L (percent_decode h) with
           | None | Some [] => None
           | Some d =>
               if existsb invalid_domain_char d then None
               else if ends_in_a_number d then option_map show_ipv4 (parse_ipv4addr d)
               else Some d
           end
  end.

(** Host::parse_opaque; the result may be empty. *)
Definition invalid_host_char (c : byte) : bool :=
  one_of [x00; x09; x0a; x0d] c || one_of (bs " #/:<>?@[\]^|") c.
Definition encode_controls (l : bytes) : bytes :=
  flat_map (fun c => if (nb c <=? 31) || (127 <=? nb c)
                     then x25 :: List.map to_upper (hex_encode [c]) else [c]) l.
Definition parse_opaque_host (h : bytes) : option bytes :=
  match h with
  | c :: _ =>
      if Byte.eqb c x5b then bracketed h
      else if existsb invalid_host_char h then None
      else Some (encode_controls h)
  | [] => Some []
  end.

(** Parser::parse_port *)
Fixpoint parse_port (l : bytes) (port : N) : option N :=
  match l with
  | [] => Some port
  | c :: r =>
      if is_digit c then
        let p := 10 * port + (nb c - 48) in
        if 65535 <? p then None else parse_port r p
      else if one_of (bs "/\?#") c then Some port
      else None
  end.
Definition port_ok (l : bytes) : bool :=
  match l with
  | c :: r => if Byte.eqb c x3a then match parse_port r 0 with Some _ => true | None => false end else true
  | [] => true
  end.

(** Parser::after_double_slash with parse_host_and_port; not for [file]. *)
Definition after_double_slash (L : url_libs) (t : scheme_type) (l : bytes) : option url_info :=
  match parse_userinfo t l with
  | None => None
  | Some (user, l1) =>
      let (h, l2) := host_span t false l1 in
      match (if is_special t then parse_domain_host L h else parse_opaque_host h) with
      | None => None
      | Some host =>
          if bytes_eqb host [] && (is_special t || is_prefix (bs ":") l2 || user) then None
          else if port_ok l2
          then Some {| url_has_authority := true;
                       url_host := if bytes_eqb host [] then None else Some host |}
          else None
      end
  end.

(** Parser::parse_file with file_host and parse_file_host *)
Fixpoint until_authority_end (l : bytes) : bytes * bytes :=
  match l with
  | [] => ([], [])
  | c :: r => if one_of (bs "/\?#") c then ([], l)
              else let (h, r') := until_authority_end r in (c :: h, r')
  end.
Definition is_drive_letter (h : bytes) : bool :=
  match h with
  | [a; b] => is_alpha a && one_of (bs ":|") b
  | _ => false
  end.
Definition parse_file (L : url_libs) (l : bytes) : option url_info :=
  let no_host := Some {| url_has_authority := true; url_host := None |} in
  match l with
  | a :: b :: r =>
      if one_of (bs "/\") a && one_of (bs "/\") b then
        let (h, rest) := until_authority_end r in
        if is_drive_letter h || bytes_eqb h [] then no_host
        else match parse_domain_host L h with
             | None => None
             | Some host =>
                 if bytes_eqb host (bs "localhost") || u_drive L rest then no_host
                 else Some {| url_has_authority := true; url_host := Some host |}
             end
      else no_host
  | _ => no_host
  end.

(** Url::parse *)
Definition url_parse (L : url_libs) (s : bytes) : option url_info :=
  match parse_scheme (url_input s) with
  | None => None
  | Some (scheme, l) =>
      match scheme_type_of scheme with
      | FileScheme => parse_file L l
      | SpecialNotFile => after_double_slash L SpecialNotFile (drop_while (one_of (bs "/\")) l)
      | NotSpecial =>
          match strip_prefix (bs "//") l with
          | Some r => after_double_slash L NotSpecial r
          | None => Some {| url_has_authority := false; url_host := None |}
          end
      end
  end.

(** Every [Deps], with its URL parser replaced by the function above. *)
Definition with_url (L : url_libs) (D : Deps) : Deps := {|
  d_sha256 := d_sha256 D; d_sha224 := d_sha224 D; d_keccak := d_keccak D;
  d_sig_ok := d_sig_ok D; d_recover := d_recover D;
  d_der_err := d_der_err D; d_url_parse := url_parse L; d_chacha := d_chacha D |}.

Lemma with_url_ok L D : deps_ok D -> deps_ok (with_url L D).
Proof. intros [A B C E]. constructor; assumption. Qed.
