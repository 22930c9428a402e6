(** The grammar of sign-in messages: the ABNF of ERC-4361, with authorities and URIs after RFC 3986
    and dates after RFC 3339.  Nothing here refers to the code that writes messages. *)
From Coq Require Import Strings.String.
From Verif Require Import Base Deps SpecEth SpecUrl SpecSiwe.
Local Open Scope N_scope.

(** ** RFC 5234 *)

Definition lang : Type := bytes -> Prop.
Definition lit (s : string) : lang := fun l => l = bs s.
Definition char (P : byte -> Prop) : lang := fun l => exists c, l = [c] /\ P c.
Definition one_of (s : string) : lang := char (fun c => In c (bs s)).
Definition cat (a b : lang) : lang := fun l => exists x y, l = x ++ y /\ a x /\ b y.
Definition alt (a b : lang) : lang := fun l => a l \/ b l.
Definition opt (a : lang) : lang := fun l => l = [] \/ a l.
Inductive many (a : lang) : lang :=
| many_nil : many a []
| many_cons x y : a x -> many a y -> many a (x ++ y).
Fixpoint times (n : nat) (a : lang) : lang :=
  match n with O => fun l => l = [] | S n => cat a (times n a) end.
Definition at_least (n : nat) (a : lang) : lang := cat (times n a) (many a).

Declare Scope abnf_scope.
Infix "&" := cat (at level 60, right associativity) : abnf_scope.
Infix "/" := alt : abnf_scope.
Local Open Scope abnf_scope.

Definition ALPHA : lang := char (fun c => 65 <= nb c <= 90 \/ 97 <= nb c <= 122).
Definition DIGIT : lang := char (fun c => 48 <= nb c <= 57).
Definition HEXDIG : lang := char (fun c => 48 <= nb c <= 57 \/ 65 <= nb c <= 70 \/ 97 <= nb c <= 102).
Definition LF : lang := fun l => l = [x0a].

(** ** RFC 3986, appendix A *)

Definition unreserved : lang := ALPHA / DIGIT / one_of "-._~".
Definition gen_delims : lang := one_of ":/?#[]@".
Definition sub_delims : lang := one_of "!$&'()*+,;=".
Definition reserved : lang := gen_delims / sub_delims.
Definition pct_encoded : lang := lit "%" & HEXDIG & HEXDIG.
Definition pchar : lang := unreserved / pct_encoded / sub_delims / one_of ":@".
Definition segment : lang := many pchar.
Definition segment_nz : lang := at_least 1 pchar.
Definition path_abempty : lang := many (lit "/" & segment).
Definition path_absolute : lang := lit "/" & opt (segment_nz & many (lit "/" & segment)).
Definition path_rootless : lang := segment_nz & many (lit "/" & segment).
Definition userinfo : lang := many (unreserved / pct_encoded / sub_delims / lit ":").
Definition ip_future : lang :=
  (lit "v" / lit "V") & at_least 1 HEXDIG & lit "." & at_least 1 (unreserved / sub_delims / lit ":").
Definition ip_literal : lang := lit "[" & (v6_text / ip_future) & lit "]".
Definition reg_name : lang := many (unreserved / pct_encoded / sub_delims).
(** IPv4 addresses are registered names as well. *)
Definition host : lang := ip_literal / reg_name.
Definition port : lang := many DIGIT.
Definition authority : lang := opt (userinfo & lit "@") & host & opt (lit ":" & port).
Definition scheme : lang := ALPHA & many (ALPHA / DIGIT / one_of "+-.").
Definition hier_part : lang := (lit "//" & authority & path_abempty) / path_absolute / path_rootless / lit "".
Definition query : lang := many (pchar / one_of "/?").
Definition URI : lang := scheme & lit ":" & hier_part & opt (lit "?" & query) & opt (lit "#" & query).

(** ** RFC 3339, section 5.6 and 5.7 *)

Definition number (k : nat) (lo hi : N) : lang :=
  fun l => length l = k /\ exists v, numeral 10 l v /\ lo <= v <= hi.
Definition full_date : lang := fun l => exists ys y ms m ds d,
  l = ys ++ bs "-" ++ ms ++ bs "-" ++ ds /\ length ys = 4%nat /\ length ms = 2%nat /\ length ds = 2%nat /\
  numeral 10 ys y /\ numeral 10 ms m /\ numeral 10 ds d /\ 1 <= m <= 12 /\ 1 <= d <= month_days y m.
Definition partial_time : lang :=
  number 2 0 23 & lit ":" & number 2 0 59 & lit ":" & number 2 0 60 & opt (lit "." & at_least 1 DIGIT).
Definition time_offset : lang :=
  lit "Z" / lit "z" / ((lit "+" / lit "-") & number 2 0 23 & lit ":" & number 2 0 59).
Definition date_time : lang := full_date & (lit "T" / lit "t") & partial_time & time_offset.

(** ** ERC-4361 *)

(** The keccak hash is for the checksum in the letters of the address. *)
Definition address (H : bytes -> bytes) : lang :=
  fun l => (lit "0x" & times 40 HEXDIG) l /\ exists b, length b = 20%nat /\ l = eip55 H b.
Definition statement : lang := at_least 1 (reserved / unreserved / lit " ").
Definition nonce : lang := at_least 8 (ALPHA / DIGIT).
Definition shown_domain : lang := opt (scheme & lit "://") & authority.
(** A message whose domain is in the given language. *)
Definition sign_in_message_for (domain : lang) (H : bytes -> bytes) : lang :=
  domain & lit " wants you to sign in with your Ethereum account:" & LF &
  address H & LF &
  LF &
  opt (statement & LF) &
  LF &
  lit "URI: " & URI & LF &
  lit "Version: " & lit "1" & LF &
  lit "Chain ID: " & at_least 1 DIGIT & LF &
  lit "Nonce: " & nonce & LF &
  lit "Issued At: " & date_time &
  opt (LF & lit "Expiration Time: " & date_time) &
  opt (LF & lit "Not Before: " & date_time) &
  opt (LF & lit "Request ID: " & many pchar) &
  opt (LF & lit "Resources:" & many (LF & lit "- " & URI)).
Definition sign_in_message : (bytes -> bytes) -> lang := sign_in_message_for shown_domain.

(** ERC-4361, "Verifying domain binding": the domain of a message that a page asks to have signed has
    to be the authority of the page. *)
Definition for_page (origin : bytes) : lang := opt (scheme & lit "://") & (fun l => l = origin /\ authority l).
(** What a wallet has signed, each text with the authority of the page that asked: the wallet keeps the
    rule for all texts that are sign-in messages. *)
Definition binds_pages (H : bytes -> bytes) (signed : bytes -> bytes -> Prop) : Prop :=
  forall origin text, signed origin text -> sign_in_message H text -> sign_in_message_for (for_page origin) H text.
