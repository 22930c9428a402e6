(** Candid after its specification (dfinity/candid, spec/Candid.md): UTF-8 texts, types,
    values, their encoding, and which value a receiver gets that expects another type.
    Only the syntax of wire types ([prim], [tref], [entry]) and the types and values of the
    receiver ([xty], [xval]) are shared with the model of the decoder. *)
From Coq Require Import Strings.String Sorting.Sorted.
From Verif Require Import Base SpecHash Candid.
Local Open Scope N_scope.

(** ** UTF-8 (RFC 3629) *)

Definition ch (n : N) : byte := match Byte.of_N n with Some b => b | None => x00 end.

Inductive utf8_char : N -> bytes -> Prop :=
| utf8_1 n : n < 128 -> utf8_char n [ch n]
| utf8_2 n : 128 <= n < 2048 -> utf8_char n [ch (192 + n / 64); ch (128 + n mod 64)]
| utf8_3 n : 2048 <= n < 55296 \/ 57344 <= n < 65536 ->
    utf8_char n [ch (224 + n / 4096); ch (128 + n / 64 mod 64); ch (128 + n mod 64)]
| utf8_4 n : 65536 <= n < 1114112 ->
    utf8_char n [ch (240 + n / 262144); ch (128 + n / 4096 mod 64); ch (128 + n / 64 mod 64); ch (128 + n mod 64)].

Inductive utf8_text : bytes -> Prop :=
| utf8_nil : utf8_text []
| utf8_cons n c t : utf8_char n c -> utf8_text t -> utf8_text (c ++ t).

(** ** Types and values *)

Inductive ctype :=
| CPrim (p : prim)
| COpt (t : ctype)
| CVec (t : ctype)
| CRecord (fs : list (N * ctype))
| CVariant (fs : list (N * ctype)).

Inductive cval :=
| UNull
| UBool (b : bool)
| UNat (n : N)                       (* natural numbers, and all numbers of fixed size by their bits *)
| UInt (front : bytes) (final : byte) (* an integer, by its digits *)
| UText (b : bytes)
| UPrincipal (b : bytes)
| UOpt (o : option cval)
| UVec (l : list cval)
| URecord (l : list cval)
| UVariant (k : nat) (v : cval).

Fixpoint le_digits (k : nat) (n : N) : bytes :=
  match k with O => [] | S k' => ch (n mod 256) :: le_digits k' (n / 256) end.
Definition two64 : N := 18446744073709551616.

(** LEB128 numbers, seven bits to a byte, the lowest first; the last byte is below 128.  They
    need not be as short as possible. *)
Inductive uint : bytes -> N -> Prop :=
| uint_last c : nb c < 128 -> uint [c] (nb c)
| uint_more c l n : 128 <= nb c -> uint l n -> uint (c :: l) (nb c - 128 + 128 * n).
(** Signed ones: the last byte is in two's complement. *)
Inductive sint : bytes -> Z -> Prop :=
| sint_last c : nb c < 64 -> sint [c] (Z.of_N (nb c))
| sint_minus c : 64 <= nb c < 128 -> sint [c] (Z.of_N (nb c) - 128)
| sint_more c l z : 128 <= nb c -> sint l z -> sint (c :: l) (Z.of_N (nb c) - 128 + 128 * z).
(** Counts, lengths and indices have 64 bits and take ten bytes at most. *)
Definition count (l : bytes) (n : N) : Prop := uint l n /\ (length l <= 10)%nat /\ n < two64.

(** [enc c v b]: the value [v] of type [c] is written [b]. *)
Inductive enc : ctype -> cval -> bytes -> Prop :=
| enc_null : enc (CPrim PNull) UNull []
| enc_reserved : enc (CPrim PReserved) UNull []
| enc_bool (b : bool) : enc (CPrim PBool) (UBool b) [if b then x01 else x00]
| enc_nat n l : uint l n -> enc (CPrim PNat) (UNat n) l
| enc_int front final : Forall (fun c => 128 <= nb c) front -> nb final < 128 ->
    enc (CPrim PInt) (UInt front final) (front ++ [final])
| enc_word p k n : word_size p = Some k -> n < 256 ^ k -> enc (CPrim p) (UNat n) (le_digits (N.to_nat k) n)
| enc_text t l : utf8_text t -> count l (blen t) -> enc (CPrim PText) (UText t) (l ++ t)
| enc_principal p l : blen p <= 29 -> count l (blen p) -> enc (CPrim PPrincipal) (UPrincipal p) (x01 :: l ++ p)
| enc_none c : enc (COpt c) (UOpt None) [x00]
| enc_some c v b : enc c v b -> enc (COpt c) (UOpt (Some v)) (x01 :: b)
| enc_vec c vs l b : count l (N.of_nat (length vs)) -> enc_all c vs b ->
    enc (CVec c) (UVec vs) (l ++ b)
| enc_record fs vs b : enc_fields fs vs b -> enc (CRecord fs) (URecord vs) b
| enc_variant fs k id c v l b : nth_error fs k = Some (id, c) -> count l (N.of_nat k) ->
    enc c v b -> enc (CVariant fs) (UVariant k v) (l ++ b)
with enc_all : ctype -> list cval -> bytes -> Prop :=
| enc_all_nil c : enc_all c [] []
| enc_all_cons c v vs b bs : enc c v b -> enc_all c vs bs -> enc_all c (v :: vs) (b ++ bs)
with enc_fields : list (N * ctype) -> list cval -> bytes -> Prop :=
| enc_fields_nil : enc_fields [] [] []
| enc_fields_cons id c fs v vs b bs : enc c v b -> enc_fields fs vs bs -> enc_fields ((id, c) :: fs) (v :: vs) (b ++ bs).

(** How deep a type is. *)
Fixpoint depth (c : ctype) : nat :=
  match c with
  | CPrim _ => 1%nat
  | COpt c | CVec c => S (depth c)
  | CRecord fs | CVariant fs => S (fold_right (fun f m => Nat.max (depth (snd f)) m) 0%nat fs)
  end.

(** A reference into a type table stands for a type. *)
Inductive stands (tbl : list entry) : tref -> ctype -> Prop :=
| stands_prim p : stands tbl (Prim p) (CPrim p)
| stands_opt i w c : nth_error tbl (N.to_nat i) = Some (EOpt w) -> stands tbl w c -> stands tbl (Var i) (COpt c)
| stands_vec i w c : nth_error tbl (N.to_nat i) = Some (EVec w) -> stands tbl w c -> stands tbl (Var i) (CVec c)
| stands_record i ws fs : nth_error tbl (N.to_nat i) = Some (ERecord ws) -> stands_fields tbl ws fs ->
    stands tbl (Var i) (CRecord fs)
| stands_variant i ws fs : nth_error tbl (N.to_nat i) = Some (EVariant ws) -> stands_fields tbl ws fs ->
    stands tbl (Var i) (CVariant fs)
with stands_fields (tbl : list entry) : list (N * tref) -> list (N * ctype) -> Prop :=
| stands_nil : stands_fields tbl [] []
| stands_cons id w c ws fs : stands tbl w c -> stands_fields tbl ws fs -> stands_fields tbl ((id, w) :: ws) ((id, c) :: fs).

(** ** What a receiver gets *)

(** The field [id] of a record. *)
Fixpoint field (id : N) (fs : list (N * ctype)) (vs : list cval) : option (ctype * cval) :=
  match fs, vs with
  | (i, c) :: fs', v :: vs' => if i =? id then Some (c, v) else field id fs' vs'
  | _, _ => None
  end.
Definition byte_val (v : cval) : byte := match v with UNat n => ch n | _ => x00 end.
Definition nullable (t : xty) : bool := match t with XNull | XOpt _ => true | _ => false end.

(** The value that a receiver gets who expects the type [t]; [None] if the types do not
    fit.  An optional expectation always fits: what cannot be had becomes null. *)
Fixpoint coerce (t : xty) (c : ctype) (v : cval) {struct t} : option xval :=
  match t with
  | XNull => match c with CPrim PNull => Some VNull | _ => None end
  | XNat32 => match c, v with CPrim PNat32, UNat n => Some (VNat n) | _, _ => None end
  | XNat64 => match c, v with CPrim PNat64, UNat n => Some (VNat n) | _, _ => None end
  | XText => match c, v with CPrim PText, UText b => Some (VText b) | _, _ => None end
  | XPrincipal => match c, v with CPrim PPrincipal, UPrincipal b => Some (VPrincipal b) | _, _ => None end
  | XBlob => match c, v with CVec (CPrim PNat8), UVec l => Some (VBlob (map byte_val l)) | _, _ => None end
  | XOpt t' =>
      match c, v with
      | CPrim PNull, _ | CPrim PReserved, _ | COpt _, UOpt None => Some (VOpt None)
      | COpt c', UOpt (Some v') => Some (VOpt (coerce t' c' v'))
      | _, _ => Some (VOpt (if nullable t' then None else coerce t' c v))
      end
  | XVec t' =>
      match c, v with
      | CVec c', UVec l =>
          (fix all (l : list cval) : option (list xval) :=
             match l with
             | [] => Some []
             | v :: r => match coerce t' c' v, all r with Some x, Some xs => Some (x :: xs) | _, _ => None end
             end) l ≫= (fun xs => Some (VVec xs))
      | _, _ => None
      end
  | XRecord fs =>
      match c, v with
      | CRecord ws, URecord vs =>
          (fix all (fs : list (N * xty)) : option (list xval) :=
             match fs with
             | [] => Some []
             | (id, t') :: r =>
                 let x := match field id ws vs with
                          | Some (c', v') => coerce t' c' v'
                          | None => match t' with XOpt _ => Some (VOpt None) | XNull => Some VNull | _ => None end
                          end in
                 match x, all r with Some x, Some xs => Some (x :: xs) | _, _ => None end
             end) fs ≫= (fun xs => Some (VRecord xs))
      | _, _ => None
      end
  | XVariant fs =>
      match c, v with
      | CVariant ws, UVariant k v' =>
          match nth_error ws k with
          | Some (id, c') =>
              (fix pick (fs : list (N * xty)) : option xval :=
                 match fs with
                 | [] => None
                 | (id', t') :: r => if id' =? id then coerce t' c' v' ≫= (fun x => Some (VVariant id x)) else pick r
                 end) fs
          | None => None
          end
      | _, _ => None
      end
  end.

(** ** Type tables *)

Definition two32 : N := 4294967296.

(** Fields are listed by increasing identifier. *)
Fixpoint rising {A} (fs : list (N * A)) : Prop :=
  match fs with
  | (a, _) :: (((b, _) :: _) as r) => a < b /\ rising r
  | _ => True
  end.
Definition ref_in (n : N) (t : tref) : Prop := match t with Prim _ => True | Var i => i < n end.
(** The rules for an entry of the table [tbl]. *)
Definition entry_fine (tbl : list entry) (e : entry) : Prop :=
  let n := N.of_nat (length tbl) in
  match e with
  | EOpt t | EVec t => ref_in n t
  | ERecord fs | EVariant fs => rising fs /\ Forall (fun f => ref_in n (snd f)) fs
  | EFunc a b => Forall (ref_in n) a /\ Forall (ref_in n) b
  | EService ms =>
      StronglySorted lex_lt (map fst ms) /\
      Forall (fun m => exists i a b, snd m = Var i /\ nth_error tbl (N.to_nat i) = Some (EFunc a b)) ms
  | EFuture => True
  end.

(** *** How a table is written *)

(** The codes of primitive types. *)
Definition opcode (p : prim) : Z :=
  (match p with
   | PNull => -1 | PBool => -2 | PNat => -3 | PInt => -4 | PNat8 => -5 | PNat16 => -6 | PNat32 => -7 | PNat64 => -8
   | PInt8 => -9 | PInt16 => -10 | PInt32 => -11 | PInt64 => -12 | PFloat32 => -13 | PFloat64 => -14
   | PText => -15 | PReserved => -16 | PEmpty => -17 | PPrincipal => -24
   end)%Z.
Definition int64 (l : bytes) (z : Z) : Prop :=
  sint l z /\ (length l <= 10)%nat /\ (-9223372036854775808 <= z < 9223372036854775808)%Z.
Definition w_ref (t : tref) (b : bytes) : Prop := int64 b (match t with Prim p => opcode p | Var i => Z.of_N i end).

Inductive w_seq {A} (R : A -> bytes -> Prop) : list A -> bytes -> Prop :=
| w_nil : w_seq R [] []
| w_cons x xs b bs : R x b -> w_seq R xs bs -> w_seq R (x :: xs) (b ++ bs).
Definition w_list {A} (R : A -> bytes -> Prop) (xs : list A) (b : bytes) : Prop :=
  exists l bs, count l (N.of_nat (length xs)) /\ w_seq R xs bs /\ b = l ++ bs.
Definition w_blob (t b : bytes) : Prop := exists l, count l (blen t) /\ b = l ++ t.

Definition w_field (f : N * tref) (b : bytes) : Prop :=
  exists x y, count x (fst f) /\ fst f < two32 /\ w_ref (snd f) y /\ b = x ++ y.
Definition w_method (m : bytes * tref) (b : bytes) : Prop :=
  exists x y, w_blob (fst m) x /\ utf8_text (fst m) /\ w_ref (snd m) y /\ b = x ++ y.
(** The annotation of a function: none, or one of query, oneway and composite query. *)
Definition w_mode (b : bytes) : Prop := In b [[x00]; [x01; x01]; [x01; x02]; [x01; x03]].

Inductive w_entry : entry -> bytes -> Prop :=
| w_opt t b : w_ref t b -> w_entry (EOpt t) (x6e :: b)
| w_vec t b : w_ref t b -> w_entry (EVec t) (x6d :: b)
| w_record fs b : w_list w_field fs b -> w_entry (ERecord fs) (x6c :: b)
| w_variant fs b : w_list w_field fs b -> w_entry (EVariant fs) (x6b :: b)
| w_func args results x y m : w_list w_ref args x -> w_list w_ref results y -> w_mode m ->
    w_entry (EFunc args results) (x6a :: x ++ y ++ m)
| w_service ms b : w_list w_method ms b -> w_entry (EService ms) (x69 :: b)
| w_future l z t b : int64 l z -> (z < -24)%Z -> w_blob t b -> w_entry EFuture (l ++ b).

(** [b] is the header [h]. *)
Definition w_header (h : header) (b : bytes) : Prop :=
  exists x y, w_list w_entry (h_table h) x /\ w_list w_ref (h_args h) y /\ b = bs "DIDL" ++ x ++ y /\
    Forall (entry_fine (h_table h)) (h_table h) /\ Forall (ref_in (N.of_nat (length (h_table h)))) (h_args h).

(** Expected records list their fields in order too. *)
Fixpoint ordered (t : xty) : Prop :=
  match t with
  | XOpt t' | XVec t' => ordered t'
  | XRecord fs => rising fs /\ fold_right (fun f P => ordered (snd f) /\ P) True fs
  | XVariant fs => fold_right (fun f P => ordered (snd f) /\ P) True fs
  | _ => True
  end.

(** ** Messages *)

(** Values of the listed types one after the other. *)
Inductive enc_args : list ctype -> list cval -> bytes -> Prop :=
| enc_args_nil : enc_args [] [] []
| enc_args_cons c cs v vs b bs : enc c v b -> enc_args cs vs bs -> enc_args (c :: cs) (v :: vs) (b ++ bs).

(** [msg] carries the values [vs] of types [cs], nested not deeper than [q]. *)
Definition carries (q : nat) (msg : bytes) (cs : list ctype) (vs : list cval) : Prop :=
  exists h a b, w_header h a /\ Forall2 (stands (h_table h)) (h_args h) cs /\ enc_args cs vs b /\
    Forall (fun c => (depth c <= q)%nat) cs /\ msg = a ++ b.

(** Extra arguments are ignored, missing optional ones are null. *)
Fixpoint coerce_args (ts : list xty) (cs : list ctype) (vs : list cval) : option (list xval) :=
  match ts with
  | [] => Some []
  | t :: ts' =>
      let '(x, cs', vs') := match cs, vs with
                            | c :: cs', v :: vs' => (coerce t c v, cs', vs')
                            | _, _ => (match t with XOpt _ => Some (VOpt None) | XNull => Some VNull | _ => None end, [], [])
                            end in
      match x, coerce_args ts' cs' vs' with Some x, Some xs => Some (x :: xs) | _, _ => None end
  end.

(** Values of the receiver's types. *)
Inductive fits : xty -> xval -> Prop :=
| fits_null : fits XNull VNull
| fits_nat32 n : n < two32 -> fits XNat32 (VNat n)
| fits_nat64 n : n < two64 -> fits XNat64 (VNat n)
| fits_text b : utf8_text b -> fits XText (VText b)
| fits_blob b : fits XBlob (VBlob b)
| fits_principal b : blen b <= 29 -> fits XPrincipal (VPrincipal b)
| fits_none t : fits (XOpt t) (VOpt None)
| fits_some t v : fits t v -> fits (XOpt t) (VOpt (Some v))
| fits_vec t vs : Forall (fits t) vs -> fits (XVec t) (VVec vs)
| fits_record fs vs : Forall2 (fun f v => fits (snd f) v) fs vs -> fits (XRecord fs) (VRecord vs)
| fits_variant fs id t v : In (id, t) fs -> fits t v -> fits (XVariant fs) (VVariant id v).
