(** Addresses that name no host although they could, by the WHATWG URL standard. *)
From Coq Require Import Strings.String.
From Verif Require Import Base SpecEth SpecSiwe SpecPrincipal SpecUrl PropertiesUrl SpecUri.
Local Open Scope N_scope.

(** "file": fewer than two slashes, or nothing or a drive letter after them, or a host
    that is "localhost" or is dropped because of a drive letter after it. *)
Definition file_nameless (idna : bytes -> option bytes) (drive : bytes -> bool) (t : bytes) : Prop :=
  (forall a b r, t = a :: b :: r -> ~ (slash a /\ slash b)) \/
  exists a b h rest, t = a :: b :: h ++ rest /\ slash a /\ slash b /\ Forall (fun c => ~ ender c) h /\ tail_part rest /\
    (h = [] \/ (exists c d, h = [c; d] /\ (65 <= nb c <= 90 \/ 97 <= nb c <= 122) /\ (d = x3a \/ d = x7c)) \/
     exists host,
       ((exists v, h = x5b :: v ++ [x5d] /\ v6_text v /\ host = h) \/ (hd x00 h <> x5b /\ host_name idna h host)) /\
       (host = bs "localhost" \/ drive rest = true)).

(** A scheme of no special kind: "//" and at once the path, the query or the end.  The user
    may be written as nothing or as a lone colon. *)
Definition other_nameless (t : bytes) : Prop :=
  exists user rest, t = bs "//" ++ user ++ rest /\ (rest = [] \/ exists c r, rest = c :: r /\ plain_ender c) /\
    (user = [] \/ (user = bs "@" /\ rest = []) \/ user = bs ":@").

Definition nameless (idna : bytes -> option bytes) (drive : bytes -> bool) (address : bytes) : Prop :=
  exists a rest s t low, address = a ++ rest /\ Forall blank a /\ reads_as rest (s ++ bs ":" ++ t) /\
    scheme_text s /\ Forall2 lowered s low /\
    ((low = bs "file" /\ file_nameless idna drive t) \/
     (~ special_name low /\ low <> bs "file" /\ other_nameless t)).
