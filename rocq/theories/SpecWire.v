(** Independent decoders: DER SubjectPublicKeyInfo (X.690, RFC 5280) with the IC's
    canister-signature key format, and CBOR (RFC 8949) with the IC's certificate
    tree encoding. *)
From Coq Require Import Strings.String.
From Verif Require Import Base HashTree.
Local Open Scope N_scope.

Fixpoint be_value (acc : N) (l : bytes) : N :=
  match l with [] => acc | b :: r => be_value (256 * acc + nb b) r end.

(** ** DER *)

Definition take_exact (n : N) (l : bytes) : option (bytes * bytes) :=
  if n <=? blen l then Some (take (N.to_nat n) l, drop (N.to_nat n) l) else None.

(** Tag, definite length (short or long form), content, rest. *)
Definition tlv_read (l : bytes) : option (byte * bytes * bytes) :=
  match l with
  | tag :: len :: r =>
      if nb len <? 128 then
        match take_exact (nb len) r with
        | Some (content, rest) => Some (tag, content, rest)
        | None => None
        end
      else
        match take_exact (nb len - 128) r with
        | Some (lenbytes, r') =>
            match take_exact (be_value 0 lenbytes) r' with
            | Some (content, rest) => Some (tag, content, rest)
            | None => None
            end
        | None => None
        end
  | _ => None
  end.

(** SEQUENCE { SEQUENCE { OBJECT IDENTIFIER }, BIT STRING with no unused bits } *)
Definition spki_decode (der : bytes) : option (bytes * bytes) :=
  match tlv_read der with
  | Some (x30, body, []) =>
      match tlv_read body with
      | Some (x30, alg, rest) =>
          match tlv_read alg, tlv_read rest with
          | Some (x06, oid, []), Some (x03, x00 :: key, []) => Some (oid, key)
          | _, _ => None
          end
      | _ => None
      end
  | _ => None
  end.

(** OID content octets read back as arcs. *)
Fixpoint oid_arcs (acc : N) (l : bytes) : list N :=
  match l with
  | [] => []
  | b :: r => let v := 128 * acc + nb b mod 128 in
              if nb b <? 128 then v :: oid_arcs 0 r else oid_arcs v r
  end.
Definition oid_decode (l : bytes) : list N :=
  match oid_arcs 0 l with
  | [] => []
  | a :: r => if a <? 40 then 0 :: a :: r else if a <? 80 then 1 :: (a - 40) :: r else 2 :: (a - 80) :: r
  end.

(** IC interface specification: the key is |id| . id . seed. *)
Definition canister_key_decode (key : bytes) : option (bytes * bytes) :=
  match key with [] => None | n :: r => take_exact (nb n) r end.

(** Everything together: canister id and seed of a canister-signature public key. *)
Definition canister_pubkey_decode (der : bytes) : option (bytes * bytes) :=
  match spki_decode der with
  | Some (oid, key) =>
      if bool_decide (oid_decode oid = [1; 3; 6; 1; 4; 1; 56387; 1; 2]) then canister_key_decode key else None
  | None => None
  end.

(** ** CBOR *)

Inductive cval :=
| CUint (n : N)
| CBytes (b : bytes)
| CText (b : bytes)
| CArray (l : list cval)
| CMap (l : list cval)          (* keys and values alternate *)
| CTag (n : N) (l : list cval). (* one item *)

(** Initial byte and argument. *)
Definition cbor_read_head (l : bytes) : option (N * N * bytes) :=
  match l with
  | [] => None
  | b :: r =>
      let major := nb b / 32 in
      let info := nb b mod 32 in
      let arg w := match take_exact w r with Some (a, r') => Some (major, be_value 0 a, r') | None => None end in
      if info <? 24 then Some (major, info, r)
      else if info =? 24 then arg 1
      else if info =? 25 then arg 2
      else if info =? 26 then arg 4
      else if info =? 27 then arg 8
      else None
  end.

(** Reads [n] items. *)
Fixpoint cbor_items (fuel : nat) (n : N) (l : bytes) : option (list cval * bytes) :=
  match fuel with
  | O => None
  | S f =>
      if n =? 0 then Some ([], l)
      else
        match cbor_read_head l with
        | None => None
        | Some (major, arg, r) =>
            let cont v r' := match cbor_items f (n - 1) r' with
                             | Some (vs, rest) => Some (v :: vs, rest)
                             | None => None
                             end in
            let nested k mk := match cbor_items f k r with
                               | Some (vs, r') => cont (mk vs) r'
                               | None => None
                               end in
            match major with
            | 0 => cont (CUint arg) r
            | 2 => match take_exact arg r with Some (b, r') => cont (CBytes b) r' | None => None end
            | 3 => match take_exact arg r with Some (b, r') => cont (CText b) r' | None => None end
            | 4 => nested arg CArray
            | 5 => nested (2 * arg) CMap
            | 6 => nested 1 (CTag arg)
            | _ => None
            end
        end
  end.

(** One item that takes up the whole input. *)
Definition cbor_decode (l : bytes) : option cval :=
  match cbor_items (S (length l)) 1 l with
  | Some ([v], []) => Some v
  | _ => None
  end.

(** Hash trees as CBOR values (IC interface specification, "Certificates"). *)
Fixpoint cval_tree (v : cval) : option hash_tree :=
  match v with
  | CArray [CUint 0] => Some HEmpty
  | CArray [CUint 1; l; r] =>
      match cval_tree l, cval_tree r with Some l, Some r => Some (HFork l r) | _, _ => None end
  | CArray [CUint 2; CBytes label; t] =>
      match cval_tree t with Some t => Some (HLabeled label t) | None => None end
  | CArray [CUint 3; CBytes b] => Some (HLeaf b)
  | CArray [CUint 4; CBytes h] => Some (HPruned h)
  | _ => None
  end.

(** The self-describe tag, then { certificate: blob, tree: hash-tree }. *)
Definition canister_signature_decode (l : bytes) : option (bytes * hash_tree) :=
  match cbor_decode l with
  | Some (CTag 55799 [CMap [CText k1; CBytes certificate; CText k2; tree]]) =>
      if bool_decide (k1 = bs "certificate") && bool_decide (k2 = bs "tree") then
        match cval_tree tree with Some t => Some (certificate, t) | None => None end
      else None
  | _ => None
  end.
