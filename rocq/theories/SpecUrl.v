(** Which texts are addresses of web sites: the rules of the WHATWG URL standard for
    "http" and "https", and RFC 4291 for IPv6.  Nothing here refers to the parser. *)
From Coq Require Import Strings.String.
From Verif Require Import Base Deps SpecEth.
Local Open Scope N_scope.

(** ** What is read of a text *)

Definition blank (c : byte) : Prop := nb c <= 32.
Definition break_char (c : byte) : Prop := c = x09 \/ c = x0a \/ c = x0d.

(** Blanks and control characters at the end do not count, nor do tabs and line
    breaks anywhere. *)
Inductive reads_as : bytes -> bytes -> Prop :=
| reads_end l : Forall blank l -> reads_as l []
| reads_break c l t : ~ Forall blank (c :: l) -> break_char c -> reads_as l t -> reads_as (c :: l) t
| reads_char c l t : ~ Forall blank (c :: l) -> ~ break_char c -> reads_as l t -> reads_as (c :: l) (c :: t).

(** ** Numbers *)

Definition digit_of (r : N) (c : byte) (v : N) : Prop :=
  v < r /\ v < 16 /\ (c = lower_digit v \/ c = upper_digit v).

(** A row of digits in base [r] and its value. *)
Inductive numeral (r : N) : bytes -> N -> Prop :=
| numeral_nil : numeral r [] 0
| numeral_snoc q c n v : numeral r q n -> digit_of r c v -> numeral r (q ++ [c]) (r * n + v).

(** ** Hosts *)

Definition no_dot (p : bytes) : Prop := ~ In x2e p.
Inductive labels : bytes -> list bytes -> Prop :=
| labels_one p : no_dot p -> labels p [p]
| labels_cons p l ps : no_dot p -> labels l ps -> labels (p ++ x2e :: l) (p :: ps).

(** A part of an IPv4 address: decimal, octal with "0" in front, or hexadecimal with
    "0x"; "0x" alone counts as zero. *)
Inductive v4_part : bytes -> N -> Prop :=
| v4_hex x q n : x = x78 \/ x = x58 -> numeral 16 q n -> v4_part (x30 :: x :: q) n
| v4_octal q n : q <> [] -> numeral 8 q n -> v4_part (x30 :: q) n
| v4_zero : v4_part [x30] 0
| v4_decimal q n : q <> [] -> hd x00 q <> x30 -> numeral 10 q n -> v4_part q n.

(** The labels of a name without the empty one after a final dot. *)
Inductive proper_labels : bytes -> list bytes -> Prop :=
| proper_all l ps p : labels l (ps ++ [p]) -> p <> [] -> proper_labels l (ps ++ [p])
| proper_dot l ps : ps <> [] -> labels l (ps ++ [[]]) -> proper_labels l ps.

(** The last label of the name is a number. *)
Definition numeric_name (l : bytes) : Prop :=
  exists ps p, proper_labels l (ps ++ [p]) /\
    ((p <> [] /\ exists n, numeral 10 p n) \/ exists n, v4_part p n).

(** The IPv4 address written by a name: at most four numbers, all but the last below
    256, the last filling the remaining bytes. *)
Definition v4_address (l : bytes) (a : N) : Prop :=
  exists ps p front n, proper_labels l (ps ++ [p]) /\ (length ps <= 3)%nat /\
    Forall2 v4_part ps front /\ v4_part p n /\ Forall (fun x => x < 256) front /\
    n < 256 ^ (4 - N.of_nat (length ps)) /\
    a = fold_right (fun x acc => x + 256 * acc) 0 (rev front) * 256 ^ (4 - N.of_nat (length ps)) + n.

(** Dotted decimal. *)
Definition dotted (a : N) (s : bytes) : Prop :=
  exists a1 a2 a3 a4 s1 s2 s3 s4,
    a1 < 256 /\ a2 < 256 /\ a3 < 256 /\ a4 < 256 /\
    a = 256 * (256 * (256 * a1 + a2) + a3) + a4 /\
    is_decimal s1 a1 /\ is_decimal s2 a2 /\ is_decimal s3 a3 /\ is_decimal s4 a4 /\
    s = s1 ++ x2e :: s2 ++ x2e :: s3 ++ x2e :: s4.

(** RFC 4291, section 2.2: eight groups of one to four hexadecimal digits, one run of
    zero groups may be left out, the last two may be written as an IPv4 address. *)
Definition v6_group (g : bytes) : Prop :=
  (1 <= length g <= 4)%nat /\ exists n, numeral 16 g n.
Inductive v6_left : bytes -> nat -> Prop :=
| left_one g : v6_group g -> v6_left g 1
| left_cons g l n : v6_group g -> v6_left l n -> v6_left (g ++ x3a :: l) (S n).
Inductive v6_right : bytes -> nat -> Prop :=
| right_one g : v6_group g -> v6_right g 1
| right_v4 s a : dotted a s -> v6_right s 2
| right_cons g l n : v6_group g -> v6_right l n -> v6_right (g ++ x3a :: l) (S n).
Definition v6_text (s : bytes) : Prop :=
  v6_right s 8 \/
  exists l r n m, s = l ++ x3a :: x3a :: r /\
    ((l = [] /\ n = 0%nat) \/ v6_left l n) /\ ((r = [] /\ m = 0%nat) \/ v6_right r m) /\
    (n + m <= 7)%nat.

(** Percent signs with two hexadecimal digits stand for a byte. *)
Definition escape (l : bytes) (v : N) (r : bytes) : Prop :=
  exists a b h lo, l = x25 :: a :: b :: r /\ digit_of 16 a h /\ digit_of 16 b lo /\ v = 16 * h + lo.
Inductive unescapes : bytes -> bytes -> Prop :=
| un_nil : unescapes [] []
| un_escape l v r t c : escape l v r -> nb c = v -> unescapes r t -> unescapes l (c :: t)
| un_char c r t : ~ (exists v r', escape (c :: r) v r') -> unescapes r t -> unescapes (c :: r) (c :: t).

(** Lower-casing of ASCII letters. *)
Definition lowered (c d : byte) : Prop :=
  (65 <= nb c <= 90 /\ nb d = nb c + 32) \/ (~ 65 <= nb c <= 90 /\ d = c).

(** Names made of ASCII characters, none of whose labels is in the encoding for
    other characters. *)
Definition ascii_name (d low : bytes) : Prop :=
  Forall (fun c => nb c < 128) d /\ Forall2 lowered d low /\
  forall ps, labels low ps -> ~ exists p q, In p ps /\ p = bs "xn--" ++ q.

(** The ASCII form of a name: for other names it is what the IDNA library answers. *)
Definition ascii_form (idna : bytes -> option bytes) (d host : bytes) : Prop :=
  ascii_name d host \/ ((~ exists low, ascii_name d low) /\ idna d = Some host).

(** WHATWG "forbidden domain code points". *)
Definition forbidden (c : byte) : Prop :=
  nb c <= 32 \/ In c (bs "#%/:<>?@[\]^|") \/ nb c = 127.

(** A host name as written and the host it stands for. *)
Definition host_name (idna : bytes -> option bytes) (h host : bytes) : Prop :=
  exists d low, unescapes h d /\ ascii_form idna d low /\ low <> [] /\ Forall (fun c => ~ forbidden c) low /\
    ((~ numeric_name low /\ host = low) \/
     (numeric_name low /\ exists a, v4_address low a /\ dotted a host)).

(** ** Web addresses *)

Definition slash (c : byte) : Prop := c = x2f \/ c = x5c.
Definition ender (c : byte) : Prop := slash c \/ c = x3f \/ c = x23.

Definition user_part (u : bytes) : Prop :=
  u = [] \/ exists w, u = w ++ [x40] /\ Forall (fun c => ~ ender c) w.
Definition host_part (idna : bytes -> option bytes) (h host : bytes) : Prop :=
  (exists a, h = x5b :: a ++ [x5d] /\ v6_text a /\ host = h) \/
  (h <> [] /\ Forall (fun c => ~ ender c /\ c <> x3a /\ c <> x40 /\ c <> x5b) h /\ host_name idna h host).
Definition port_part (p : bytes) : Prop :=
  p = [] \/ exists q n, p = x3a :: q /\ numeral 10 q n /\ n <= 65535.
Definition tail_part (t : bytes) : Prop :=
  t = [] \/ exists c r, t = c :: r /\ ender c.

(** What may follow "https:": any number of slashes, a user, a host, a port, and the
    rest of an address. *)
Definition site_text (idna : bytes -> option bytes) (text host : bytes) : Prop :=
  exists slashes user h port tail, text = slashes ++ user ++ h ++ port ++ tail /\
    Forall slash slashes /\ user_part user /\ host_part idna h host /\ port_part port /\ tail_part tail.

Definition web_domain (idna : bytes -> option bytes) (domain host : bytes) : Prop :=
  exists text, reads_as domain text /\ site_text idna text host.

(** What the IDNA library is relied on for: it does not make an opening bracket go away. *)
Definition keeps_bracket (idna : bytes -> option bytes) : Prop :=
  forall d host, idna d = Some host -> In x5b d -> In x5b host.

(** ** Ordinary names *)

Definition name_char (c : byte) : Prop :=
  48 <= nb c <= 57 \/ 65 <= nb c <= 90 \/ 97 <= nb c <= 122 \/ c = x2d \/ c = x2e \/ c = x5f.
