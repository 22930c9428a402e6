(** A concrete instance of [Deps], used for tests and for showing that the
    hypotheses of theorems can be met.  SHA-256, SHA-224, Keccak-256, the random
    generator and the parser of session keys are the real functions.  The other members are small computable stand-ins, described
    one by one; no theorem of the Properties files is restricted to them. *)
From Coq Require Import Strings.String.
From Verif Require Import Base Deps Hex Encode Sha2 Keccak ChaCha ChaChaProofs Asn1.
Local Open Scope N_scope.

(** Stand-in for ECDSA: the "signature" is the public key masked with the hash. *)
Definition bxor (a b : byte) : byte := u8 (N.lxor (nb a) (nb b)).
Definition toy_sign (h pk : bytes) : bytes := zip_with bxor pk (h ++ h).
Definition toy_recover (h sg : bytes) (v : N) : option bytes :=
  if v <? 2 then Some (zip_with bxor sg (h ++ h)) else None.

(** simple_asn1's parser.  Stand-ins: the texts of the errors, and string and time types
    always parse. *)
Definition show_asn1 (e : asn1_error) : bytes :=
  match e with
  | EmptyBuffer => bs "Encountered an empty buffer decoding ASN1 block."
  | BadBooleanLength n => bs "Bad length field in boolean block: " ++ dec n
  | LengthTooLarge n => bs "Length field too large for object type: " ++ dec n
  | InvalidBitStringLength n => bs "Invalid length of bit string: " ++ dec n
  | Asn1Incomplete => bs "Incomplete data or invalid ASN1"
  | LeafError tag => bs "Invalid string or time: " ++ dec tag
  end.
Definition asn1_leaf (tag : N) (body : bytes) : bool := true.

(** Stand-in for Url::parse: "scheme://host..." with a non-empty host up to '/', ':' or
    the end; the file scheme may have an empty host. *)
Fixpoint until_sep (l : bytes) : bytes :=
  match l with
  | [] => []
  | c :: r => if Byte.eqb c x2f || Byte.eqb c x3a then [] else c :: until_sep r
  end.
Definition toy_url (u : bytes) : option url_info :=
  let authority r := match until_sep r with
                     | [] => None
                     | h => Some {| url_has_authority := true; url_host := Some h |}
                     end in
  match strip_prefix (bs "https://") u, strip_prefix (bs "http://") u, strip_prefix (bs "file://") u with
  | Some r, _, _ => authority r
  | _, Some r, _ => authority r
  | _, _, Some r => Some {| url_has_authority := true;
                            url_host := match until_sep r with [] => None | h => Some h end |}
  | _, _, _ => None
  end.

Definition CD : Deps := {|
  d_sha256 := sha256;
  d_sha224 := sha224;
  d_keccak := keccak256;
  d_sig_ok := fun sg => existsb (fun b => negb (nb b =? 0)) sg;
  d_recover := toy_recover;
  d_der_err := fun k => option_map show_asn1 (from_der asn1_leaf k);
  d_url_parse := toy_url;
  d_chacha := fun seed k => nonce_read seed (N.to_nat k)
|}.

Lemma CD_ok : deps_ok CD.
Proof.
  constructor; intros.
  - apply sha256_length.
  - apply sha224_length.
  - apply keccak256_length.
  - apply nonce_read_length.
Qed.
