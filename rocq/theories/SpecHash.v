(** Independent specifications: unsigned LEB128 and the IC's representation-independent
    hash of a delegation (IC interface specification, "Authentication" and
    "Representation-independent hashing of structured data"). *)
From Coq Require Import Strings.String Sorting.Sorted.
From Verif Require Import Base.
Local Open Scope N_scope.

(** ** LEB128 *)

(** [l] is the minimal unsigned LEB128 encoding of [n]: seven bits per byte, least
    significant first, the high bit set on all bytes but the last, and no
    superfluous zero byte at the end. *)
Fixpoint leb_value (l : bytes) : N :=
  match l with [] => 0 | b :: r => nb b mod 128 + 128 * leb_value r end.

Definition is_uleb128 (l : bytes) (n : N) : Prop :=
  exists front final, l = front ++ [final] /\
    Forall (fun b => 128 <= nb b) front /\ nb final < 128 /\
    (front = [] \/ nb final <> 0) /\ leb_value l = n.

(** A reader that takes one integer off a byte stream. *)
Fixpoint leb_read (l : bytes) : option (N * bytes) :=
  match l with
  | [] => None
  | b :: r => if nb b <? 128 then Some (nb b, r)
              else match leb_read r with
                   | None => None
                   | Some (n, r') => Some (nb b mod 128 + 128 * n, r')
                   end
  end.

(** ** Lexicographic order of byte strings *)
Definition lex_lt (a b : bytes) : Prop :=
  (exists t, t <> [] /\ b = a ++ t) \/
  (exists p x y a' b', a = p ++ x :: a' /\ b = p ++ y :: b' /\ nb x < nb y).
Definition lex_le (a b : bytes) : Prop := a = b \/ lex_lt a b.

(** ** The representation-independent hash *)

(** Values that occur: blobs, texts, naturals, arrays. *)
Inductive ri_value := RBlob (b : bytes) | RText (b : bytes) | RNat (n : N) | RArray (l : list ri_value).

(** [ri_hash H v h q]: the value [v] has hash [h]; [q] lists the strings that are
    hashed along the way. *)
Inductive ri_hash (H : bytes -> bytes) : ri_value -> bytes -> list bytes -> Prop :=
| ri_blob b : ri_hash H (RBlob b) (H b) [b]
| ri_text b : ri_hash H (RText b) (H b) [b]
| ri_nat n l : is_uleb128 l n -> ri_hash H (RNat n) (H l) [l]
| ri_array l hs q : ri_hashes H l hs q -> ri_hash H (RArray l) (H (concat hs)) (concat hs :: q)
with ri_hashes (H : bytes -> bytes) : list ri_value -> list bytes -> list bytes -> Prop :=
| ri_nil : ri_hashes H [] [] []
| ri_cons v vs h hs q qs : ri_hash H v h q -> ri_hashes H vs hs qs ->
    ri_hashes H (v :: vs) (h :: hs) (q ++ qs).

(** The concatenations H(key) . H(value) of the fields of a record. *)
Inductive ri_fields (H : bytes -> bytes) : list (bytes * ri_value) -> list bytes -> list bytes -> Prop :=
| rf_nil : ri_fields H [] [] []
| rf_cons k v r h hs q qs : ri_hash H v h q -> ri_fields H r hs qs ->
    ri_fields H ((k, v) :: r) ((H k ++ h) :: hs) ((k :: q) ++ qs).

(** Hash of a record: sort the field hashes, concatenate, hash. *)
Definition ri_record (H : bytes -> bytes) (r : list (bytes * ri_value)) (h : bytes) (q : list bytes) : Prop :=
  exists hs sorted qs, ri_fields H r hs qs /\ Permutation hs sorted /\ StronglySorted lex_le sorted /\
    h = H (concat sorted) /\ q = concat sorted :: qs.

(** The message a delegation's signature is made over: domain separator
    "\x1Aic-request-auth-delegation", then the hash of the record. *)
Definition delegation_record (pubkey : bytes) (expiration : N) (targets : option (list bytes)) :=
  [(bs "pubkey", RBlob pubkey); (bs "expiration", RNat expiration)]
  ++ match targets with Some l => [(bs "targets", RArray (map RBlob l))] | None => [] end.

Definition delegation_message (record_hash : bytes) : bytes :=
  x1a :: bs "ic-request-auth-delegation" ++ record_hash.

Definition delegation_digest (H : bytes -> bytes) (pubkey : bytes) (expiration : N)
  (targets : option (list bytes)) (h : bytes) (q : list bytes) : Prop :=
  exists rh q', ri_record H (delegation_record pubkey expiration targets) rh q' /\
    h = H (delegation_message rh) /\ q = delegation_message rh :: q'.

(** A string of the first list collides with a string of the second. *)
Definition cross_collision (H : bytes -> bytes) (q1 q2 : list bytes) : Prop :=
  exists x y, In x q1 /\ In y q2 /\ x <> y /\ H x = H y.

(** ** Identity seeds and pending-message keys *)

(** delegation.rs hashes length-prefixed salt, address and, optionally, URI.  Lengths are single bytes. *)
Definition seed_input (salt address : bytes) (uri : option bytes) : bytes :=
  u8 (N.of_nat (length salt)) :: salt ++ u8 (N.of_nat (length address)) :: address
  ++ match uri with Some u => u8 (N.of_nat (length u)) :: u | None => [] end.

(** siwe.rs hashes length-prefixed address bytes and nonce. *)
Definition message_key_input (address nonce : bytes) : bytes :=
  u8 (N.of_nat (length address)) :: address ++ u8 (N.of_nat (length nonce)) :: nonce.
