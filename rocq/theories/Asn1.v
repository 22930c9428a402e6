(** simple_asn1 0.6.2 [from_der], which delegation.rs 119-121 calls on the session key.
    Written from the published source.  Only whether it succeeds, and the error, is
    modelled: the blocks it returns are dropped by the caller.

    Not modelled: exhausting the stack (the parser recurses into SEQUENCE and SET), and the
    contents of the string and time types (tags 12, 19, 20, 22, 23, 24, 28, 30): whether
    these parse is the parameter [leaf]. *)
From Verif Require Import Base.
Local Open Scope N_scope.

Inductive asn1_error :=
| EmptyBuffer
| BadBooleanLength (n : N)
| LengthTooLarge (n : N)
| InvalidBitStringLength (n : N)   (* the unused-bits octet; the crate reports a difference *)
| Asn1Incomplete
| LeafError (tag : N).             (* one of the errors of the string and time types *)

Definition usize32 : N := 4294967296.

(** decode_base127 *)
Fixpoint decode_base127 (acc : N) (i : bytes) : option (N * bytes) :=
  match i with
  | [] => None
  | b :: r => let v := 128 * acc + nb b mod 128 in
              if nb b <? 128 then Some (v, r) else decode_base127 v r
  end.

(** decode_tag: is the class universal, and the tag number.  The constructed bit only
    decides how blocks of the other classes are returned. *)
Definition decode_tag (i : bytes) : option (bool * N * bytes) :=
  match i with
  | [] => None
  | b :: r =>
      let universal := nb b <? 64 in
      let basetag := nb b mod 32 in
      if basetag =? 31 then
        match decode_base127 0 r with Some (t, r') => Some (universal, t, r') | None => None end
      else Some (universal, basetag, r)
  end.

(** The loop of decode_length *)
Fixpoint read_len (lenlen : nat) (res : N) (i : bytes) : option (N * bytes) :=
  match lenlen with
  | O => Some (res, i)
  | S k => match i with [] => None | b :: r => read_len k (256 * res + nb b) r end
  end.

(** decode_length; usize has four bytes in the canister. *)
Definition decode_length (i : bytes) : result (N * bytes) asn1_error :=
  match i with
  | [] => Err Asn1Incomplete
  | b :: r =>
      if 128 <=? nb b then
        let lenlen := nb b mod 128 in
        if 4 <? lenlen then Err (LengthTooLarge lenlen)
        else match read_len (N.to_nat lenlen) 0 r with Some x => Ok x | None => Err Asn1Incomplete end
      else Ok (nb b, r)
  end.

(** The components of an object identifier after the first octet. *)
Fixpoint decode_oid_rest (fuel : nat) (i : bytes) : option asn1_error :=
  match fuel with
  | O => None
  | S f =>
      match i with
      | [] => None
      | _ => match decode_base127 0 i with
             | Some (_, r) => decode_oid_rest f r
             | None => Some Asn1Incomplete
             end
      end
  end.

Definition leaf_tags : list N := [12; 19; 20; 22; 23; 24; 28; 30].

Section parser.
Variable leaf : N -> bytes -> bool.

(** The contents of a universal block that is not a SEQUENCE or SET. *)
Definition primitive_error (tag : N) (body : bytes) : option asn1_error :=
  if tag =? 1 then if blen body =? 1 then None else Some (BadBooleanLength (blen body))
  else if tag =? 3 then
    match body with
    | [] => None
    | b :: rest => if 8 * blen rest <? nb b then Some (InvalidBitStringLength (nb b)) else None
    end
  else if tag =? 6 then
    match body with
    | [] => Some Asn1Incomplete
    | _ :: rest => decode_oid_rest (length rest) rest
    end
  else if existsb (N.eqb tag) leaf_tags then if leaf tag body then None else Some (LeafError tag)
  else None.

(** from_der_: [index] is the position in the slice, [i] what is left of it, [some] whether
    a block was read.  The result is the error. *)
Fixpoint from_der_ (fuel : nat) (index : N) (i : bytes) (some : bool) : option asn1_error :=
  match fuel with
  | O => Some Asn1Incomplete
  | S f =>
      match i with
      | [] => if some then None else Some EmptyBuffer
      | _ =>
          match decode_tag i with
          | None => Some Asn1Incomplete
          | Some (universal, tag, r) =>
              match decode_length r with
              | Err e => Some e
              | Ok (len, r') =>
                  let index' := index + (blen i - blen r') in
                  if usize32 <=? index' + len then Some (LengthTooLarge len)
                  else if blen r' <? len then Some Asn1Incomplete
                  else
                    let body := take (N.to_nat len) r' in
                    let block :=
                      if negb universal then None
                      else if (tag =? 16) || (tag =? 17) then from_der_ f 0 body false
                      else primitive_error tag body in
                    match block with
                    | Some e => Some e
                    | None => from_der_ f (index' + len) (drop (N.to_nat len) r') true
                    end
              end
          end
      end
  end.

Definition from_der (i : bytes) : option asn1_error := from_der_ (S (length i)) 0 i false.
End parser.
