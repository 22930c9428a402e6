(** Which texts are accepted as the URI of the canister, whatever their scheme: the
    WHATWG URL standard, with the deviation of the url crate noted below. *)
From Coq Require Import Strings.String.
From Verif Require Import Base Provider SpecEth SpecSiwe SpecPrincipal SpecUrl PropertiesUrl.
Local Open Scope N_scope.

(** "http", "https" and three more; the text after the colon is that of a web address. *)
Definition special_name (low : bytes) : Prop :=
  In low [bs "http"; bs "https"; bs "ws"; bs "wss"; bs "ftp"].

(** "file": exactly two slashes, and a host that is neither "localhost" nor dropped
    because of a drive letter. *)
Definition file_text (idna : bytes -> option bytes) (drive : bytes -> bool) (t : bytes) : Prop :=
  exists a b h rest host, t = a :: b :: h ++ rest /\ slash a /\ slash b /\
    Forall (fun c => ~ ender c) h /\ tail_part rest /\
    ((exists v, h = x5b :: v ++ [x5d] /\ v6_text v /\ host = h) \/
     (hd x00 h <> x5b /\ host_name idna h host)) /\
    host <> bs "localhost" /\ drive rest = false.

(** Any other scheme: "//", a user, a host of any characters but a few, a port.  A backslash
    is an ordinary character, except that anything may follow one after a port (the url crate
    ends a port there). *)
Definition plain_ender (c : byte) : Prop := c = x2f \/ c = x3f \/ c = x23.
Definition opaque_char (c : byte) : Prop :=
  ~ (c = x00 \/ break_char c \/ In c (bs " #/:<>?@[\]^|")).
Definition opaque_host (h : bytes) : Prop :=
  (exists v, h = x5b :: v ++ [x5d] /\ v6_text v) \/ (h <> [] /\ Forall opaque_char h).
Definition opaque_authority (auth : bytes) : Prop :=
  Forall (fun c => ~ plain_ender c /\ c <> x40) auth /\
  exists h port junk, auth = h ++ port ++ junk /\ opaque_host h /\ port_part port /\
    (junk = [] \/ (port <> [] /\ exists r, junk = x5c :: r)).
Definition other_text (t : bytes) : Prop :=
  exists user auth tail, t = bs "//" ++ user ++ auth ++ tail /\
    (user = [] \/ exists w, user = w ++ [x40] /\ Forall (fun c => ~ plain_ender c) w) /\
    opaque_authority auth /\ (tail = [] \/ exists c r, tail = c :: r /\ plain_ender c).

(** Blanks in front do not count; then a scheme in any casing. *)
Definition uri_text (idna : bytes -> option bytes) (drive : bytes -> bool) (uri : bytes) : Prop :=
  exists a rest s t low, uri = a ++ rest /\ Forall blank a /\ reads_as rest (s ++ bs ":" ++ t) /\
    scheme_text s /\ Forall2 lowered s low /\
    ((special_name low /\ exists host, site_text idna t host) \/
     (low = bs "file" /\ file_text idna drive t) \/
     (~ special_name low /\ low <> bs "file" /\ other_text t)).

(** An argument of the canister's initialisation that is accepted by the canister [cid]. *)
Record config_ok (idna : bytes -> option bytes) (drive : bytes -> bool) (cid : bytes) (i : SettingsInput) : Prop := {
  cfg_scheme : default (bs "https") (in_scheme i) = bs "http" \/ default (bs "https") (in_scheme i) = bs "https";
  cfg_domain : exists host, web_domain idna (in_domain i) host;
  cfg_uri : uri_text idna drive (in_uri i);
  cfg_salt : in_salt i <> [] /\ Forall (fun c => 33 <= nb c <= 126) (in_salt i);
  cfg_chain : in_chain_id i <> Some 0;
  cfg_statement : forall t, in_statement i = Some t -> one_line t;
  cfg_sign_in : in_sign_in_expires_in i <> Some 0;
  cfg_session : in_session_expires_in i <> Some 0;
  cfg_targets : forall l, in_targets i = Some l ->
    exists ps, Forall2 denotes l ps /\ In cid ps /\ (length ps <= 1000)%nat /\ NoDup ps
}.
