(** Candid messages: what the ic_cdk macros do with the bytes of a call before and after the
    functions of packages/ic_siwe_provider/src/service run.  Written from the published source of
    candid 0.10.9 (Cargo.lock 389-391), leb128 0.2.5 and ic-cdk 0.15.1.

    Simplified: errors are not described further than whether an enclosing option recovers
    from them ([DSub]) or not ([DErr]); lengths are not limited to 32 bits; instead of the
    crate's limits on nesting and on skipped values there is one limit [q] on the nesting
    of skipped values. *)
From Coq Require Import Strings.String.
From Verif Require Import Base.
Local Open Scope N_scope.

(** ** Types on the wire *)

Inductive prim :=
| PNull | PBool | PNat | PInt | PNat8 | PNat16 | PNat32 | PNat64 | PInt8 | PInt16 | PInt32 | PInt64
| PFloat32 | PFloat64 | PText | PReserved | PEmpty | PPrincipal.

(** A primitive type or an entry of the type table. *)
Inductive tref := Prim (p : prim) | Var (i : N).

Inductive entry :=
| EOpt (t : tref)
| EVec (t : tref)
| ERecord (fs : list (N * tref))
| EVariant (fs : list (N * tref))
| EFunc (args results : list tref)
| EService (methods : list (bytes * tref))
| EFuture.

Record header := mkHeader { h_table : list entry; h_args : list tref }.

(** ** Reading *)

(** leb128::read::unsigned: ten bytes at most, the tenth being 0 or 1. *)
Fixpoint read_leb_from (k : nat) (l : bytes) : option (N * bytes) :=
  match k, l with
  | S k', c :: r =>
      if (k' =? 0)%nat && (1 <? nb c) then None
      else if nb c <? 128 then Some (nb c, r)
      else match read_leb_from k' r with
           | Some (n, r') => Some (nb c - 128 + 128 * n, r')
           | None => None
           end
  | _, _ => None
  end.
Definition read_leb (l : bytes) : option (N * bytes) := read_leb_from 10 l.

(** leb128::read::signed *)
Fixpoint read_sleb_from (k : nat) (l : bytes) : option (Z * bytes) :=
  match k, l with
  | S k', c :: r =>
      if (k' =? 0)%nat && negb ((nb c =? 0) || (nb c =? 127)) then None
      else if nb c <? 64 then Some (Z.of_N (nb c), r)
      else if nb c <? 128 then Some ((Z.of_N (nb c) - 128)%Z, r)
      else match read_sleb_from k' r with
           | Some (n, r') => Some ((Z.of_N (nb c) - 128 + 128 * n)%Z, r')
           | None => None
           end
  | _, _ => None
  end.
Definition read_sleb (l : bytes) : option (Z * bytes) := read_sleb_from 10 l.

(** The opcodes of binary_parser.rs. *)
Definition prim_of (z : Z) : option prim :=
  match z with
  | (-1)%Z => Some PNull | (-2)%Z => Some PBool | (-3)%Z => Some PNat | (-4)%Z => Some PInt
  | (-5)%Z => Some PNat8 | (-6)%Z => Some PNat16 | (-7)%Z => Some PNat32 | (-8)%Z => Some PNat64
  | (-9)%Z => Some PInt8 | (-10)%Z => Some PInt16 | (-11)%Z => Some PInt32 | (-12)%Z => Some PInt64
  | (-13)%Z => Some PFloat32 | (-14)%Z => Some PFloat64 | (-15)%Z => Some PText
  | (-16)%Z => Some PReserved | (-17)%Z => Some PEmpty | (-24)%Z => Some PPrincipal
  | _ => None
  end.

Definition read_tref (l : bytes) : option (tref * bytes) :=
  match read_sleb l with
  | Some (z, r) =>
      if (0 <=? z)%Z then Some (Var (Z.to_N z), r)
      else match prim_of z with Some p => Some (Prim p, r) | None => None end
  | None => None
  end.

(** [n] items one after the other. *)
Fixpoint read_n {A} (f : bytes -> option (A * bytes)) (n : nat) (l : bytes) : option (list A * bytes) :=
  match n with
  | O => Some ([], l)
  | S n' => match f l with
            | Some (a, r) => match read_n f n' r with Some (xs, r') => Some (a :: xs, r') | None => None end
            | None => None
            end
  end.
(** A count and that many items.  An item takes at least one byte, so more items than
    bytes cannot be read. *)
Definition read_list {A} (f : bytes -> option (A * bytes)) (l : bytes) : option (list A * bytes) :=
  match read_leb l with
  | Some (n, r) => if blen r <? n then None else read_n f (N.to_nat n) r
  | None => None
  end.

Definition take_bytes (n : N) (l : bytes) : option (bytes * bytes) :=
  if blen l <? n then None else Some (firstn (N.to_nat n) l, skipn (N.to_nat n) l).
Definition read_counted (l : bytes) : option (bytes * bytes) :=
  match read_leb l with Some (n, r) => take_bytes n r | None => None end.

(** std::str::from_utf8 *)
Definition cont (c : byte) : bool := (128 <=? nb c) && (nb c <=? 191).
Definition between (a b : N) (c : byte) : bool := (a <=? nb c) && (nb c <=? b).
Fixpoint utf8 (l : bytes) : bool :=
  match l with
  | [] => true
  | c :: r =>
      if nb c <? 128 then utf8 r
      else if between 194 223 c then
        match r with a :: r' => cont a && utf8 r' | _ => false end
      else if between 224 239 c then
        match r with
        | a :: b :: r' =>
            (if nb c =? 224 then between 160 191 a else if nb c =? 237 then between 128 159 a else cont a)
            && cont b && utf8 r'
        | _ => false
        end
      else if between 240 244 c then
        match r with
        | a :: b :: d :: r' =>
            (if nb c =? 240 then between 144 191 a else if nb c =? 244 then between 128 143 a else cont a)
            && cont b && cont d && utf8 r'
        | _ => false
        end
      else false
  end.

Definition read_text (l : bytes) : option (bytes * bytes) :=
  match read_counted l with
  | Some (t, r) => if utf8 t then Some (t, r) else None
  | None => None
  end.

(** Field identifiers have 32 bits. *)
Definition read_field (l : bytes) : option (N * tref * bytes) :=
  match read_leb l with
  | Some (id, r) => if u32_max <? id then None
                    else match read_tref r with Some (t, r') => Some ((id, t), r') | None => None end
  | None => None
  end.
Definition read_method (l : bytes) : option (bytes * tref * bytes) :=
  match read_text l with
  | Some (name, r) => match read_tref r with Some (t, r') => Some ((name, t), r') | None => None end
  | None => None
  end.

(** An entry of the type table. *)
Definition read_entry (l : bytes) : option (entry * bytes) :=
  match l with
  | x6e :: r => match read_tref r with Some (t, r') => Some (EOpt t, r') | None => None end
  | x6d :: r => match read_tref r with Some (t, r') => Some (EVec t, r') | None => None end
  | x6c :: r => match read_list read_field r with Some (fs, r') => Some (ERecord fs, r') | None => None end
  | x6b :: r => match read_list read_field r with Some (fs, r') => Some (EVariant fs, r') | None => None end
  | x6a :: r =>
      match read_list read_tref r with
      | Some (a, r1) =>
          match read_list read_tref r1 with
          | Some (b, r2) =>
              match r2 with
              | x00 :: r3 => Some (EFunc a b, r3)
              | x01 :: m :: r3 => if between 1 3 m then Some (EFunc a b, r3) else None
              | _ => None
              end
          | None => None
          end
      | None => None
      end
  | x69 :: r => match read_list read_method r with Some (ms, r') => Some (EService ms, r') | None => None end
  | _ =>
      match read_sleb l with
      | Some (z, r) => if (z <? -24)%Z then match read_counted r with Some (_, r') => Some (EFuture, r') | None => None end
                       else None
      | None => None
      end
  end.

(** Checks of [ConsType::to_type]: references inside the table, identifiers of fields and names
    of methods in strictly increasing order, methods of function type. *)
Definition ref_ok (n : N) (t : tref) : bool := match t with Prim _ => true | Var i => i <? n end.
Fixpoint increasing {A} (lt : A -> A -> bool) (l : list A) : bool :=
  match l with
  | a :: ((b :: _) as r) => lt a b && increasing lt r
  | _ => true
  end.
Definition fields_ok (n : N) (fs : list (N * tref)) : bool :=
  increasing N.ltb (map fst fs) && forallb (fun f => ref_ok n (snd f)) fs.
Definition entry_ok (tbl : list entry) (e : entry) : bool :=
  let n := N.of_nat (length tbl) in
  match e with
  | EOpt t | EVec t => ref_ok n t
  | ERecord fs | EVariant fs => fields_ok n fs
  | EFunc a b => forallb (ref_ok n) a && forallb (ref_ok n) b
  | EService ms =>
      increasing (fun a b => match bytes_cmp a b with Lt => true | _ => false end) (map fst ms) &&
      forallb (fun m => match snd m with
                        | Var i => match nth_error tbl (N.to_nat i) with Some (EFunc _ _) => true | _ => false end
                        | Prim _ => false
                        end) ms
  | EFuture => true
  end.

Definition MAGIC : bytes := bs "DIDL".
Definition read_header (l : bytes) : option (header * bytes) :=
  match strip_prefix MAGIC l with
  | None => None
  | Some r =>
      match read_list read_entry r with
      | None => None
      | Some (tbl, r1) =>
          match read_list read_tref r1 with
          | None => None
          | Some (args, r2) =>
              if forallb (entry_ok tbl) tbl && forallb (ref_ok (N.of_nat (length tbl))) args
              then Some (mkHeader tbl args, r2) else None
          end
      end
  end.

(** ** Values *)

(** [DSub]: an [Error::Subtype], from which deserialize_option recovers. *)
Inductive dres (A : Type) := DOk (a : A) | DSub | DErr.
Arguments DOk {A} a.
Arguments DSub {A}.
Arguments DErr {A}.
Definition dbind {A B} (x : dres A) (f : A -> dres B) : dres B :=
  match x with DOk a => f a | DSub => DSub | DErr => DErr end.
Notation "'dlet' p ':=' x 'in' f" :=
  (dbind x (fun p => f)) (at level 200, p pattern, x at level 100, f at level 200).
Definition hard {A} (x : option A) : dres A := match x with Some a => DOk a | None => DErr end.

Fixpoint many {A} (f : bytes -> dres (A * bytes)) (n : nat) (l : bytes) : dres (list A * bytes) :=
  match n with
  | O => DOk ([], l)
  | S n' => dlet (a, r) := f l in dlet (xs, r') := many f n' r in DOk (a :: xs, r')
  end.

Definition word_size (p : prim) : option N :=
  match p with
  | PNat8 | PInt8 => Some 1 | PNat16 | PInt16 => Some 2
  | PNat32 | PInt32 | PFloat32 => Some 4 | PNat64 | PInt64 | PFloat64 => Some 8
  | _ => None
  end.

(** An unbounded LEB128 number. *)
Fixpoint skip_leb (l : bytes) : option bytes :=
  match l with c :: r => if nb c <? 128 then Some r else skip_leb r | [] => None end.

Definition read_bool (l : bytes) : option (bool * bytes) :=
  match l with x00 :: r => Some (false, r) | x01 :: r => Some (true, r) | _ => None end.

(** A principal: the byte 1 (not an opaque reference) and at most 29 bytes. *)
Definition read_principal (l : bytes) : option (bytes * bytes) :=
  match l with
  | x01 :: r => match read_counted r with
                | Some (p, r') => if 29 <? blen p then None else Some (p, r')
                | None => None
                end
  | _ => None
  end.

Definition skip_prim (p : prim) (l : bytes) : dres bytes :=
  match p with
  | PNull | PReserved => DOk l
  | PBool => dlet (_, r) := hard (read_bool l) in DOk r
  | PNat | PInt => hard (skip_leb l)
  | PText => dlet (_, r) := hard (read_text l) in DOk r
  | PPrincipal => dlet (_, r) := hard (read_principal l) in DOk r
  | PEmpty => DSub
  | p => match word_size p with
         | Some k => dlet (_, r) := hard (take_bytes k l) in DOk r
         | None => DErr
         end
  end.

Definition lookup_type (tbl : list entry) (i : N) : option entry := nth_error tbl (N.to_nat i).

(** deserialize_ignored_any *)
Fixpoint skip (q : nat) (tbl : list entry) (w : tref) (l : bytes) : dres bytes :=
  match q with
  | O => DErr
  | S q' =>
      match w with
      | Prim p => skip_prim p l
      | Var i =>
          dlet e := hard (lookup_type tbl i) in
          match e with
          | EOpt t => dlet (b, r) := hard (read_bool l) in if (b : bool) then skip q' tbl t r else DOk r
          | EVec t =>
              dlet (n, r) := hard (read_leb l) in
              dlet (_, r') := many (fun l => dlet r := skip q' tbl t l in DOk (tt, r)) (N.to_nat n) r in DOk r'
          | ERecord fs => fold_left (fun x f => dlet r := x in skip q' tbl (snd f) r) fs (DOk l)
          | EVariant fs =>
              dlet (k, r) := hard (read_leb l) in
              dlet f := hard (if N.of_nat (length fs) <=? k then None else nth_error fs (N.to_nat k)) in
              skip q' tbl (snd f) r
          | EFunc _ _ =>
              match l with
              | x01 :: r => dlet (_, r1) := hard (read_principal r) in
                            dlet (_, r2) := hard (read_text r1) in DOk r2
              | _ => DErr
              end
          | EService _ => dlet (_, r) := hard (read_principal l) in DOk r
          | EFuture =>
              dlet (n, r) := hard (read_leb l) in dlet (_, r1) := hard (read_leb r) in
              dlet (_, r2) := hard (take_bytes n r1) in DOk r2
          end
      end
  end.

Definition skip_fields (q : nat) (tbl : list entry) (fs : list (N * tref)) (l : bytes) : dres bytes :=
  fold_left (fun x f => dlet r := x in skip q tbl (snd f) r) fs (DOk l).

(** The Rust types of arguments.  [XBlob] is serde_bytes::ByteBuf, [XNull] the content of a
    variant without one. *)
Inductive xty :=
| XNull | XNat32 | XNat64 | XText | XBlob | XPrincipal
| XOpt (t : xty)
| XVec (t : xty)
| XRecord (fs : list (N * xty))
| XVariant (fs : list (N * xty)).

Inductive xval :=
| VNull | VNat (n : N) | VText (b : bytes) | VBlob (b : bytes) | VPrincipal (b : bytes)
| VOpt (o : option xval)
| VVec (l : list xval)
| VRecord (l : list xval)
| VVariant (id : N) (v : xval).

(** Little-endian numbers *)
Fixpoint le_value (l : bytes) : N := match l with [] => 0 | c :: r => nb c + 256 * le_value r end.

(** recoverable_visit_some *)
Definition recover (x : dres (xval * bytes)) (skipped : dres bytes) : dres (xval * bytes) :=
  match x with
  | DOk (v, r) => DOk (VOpt (Some v), r)
  | DSub => dlet r := skipped in DOk (VOpt None, r)
  | DErr => DErr
  end.

Fixpoint span {A} (p : A -> bool) (l : list A) : list A * list A :=
  match l with
  | a :: r => if p a then let '(x, y) := span p r in (a :: x, y) else ([], l)
  | [] => ([], [])
  end.

(** A field that is not on the wire. *)
Definition absent (t : xty) : dres xval :=
  match t with XOpt _ => DOk (VOpt None) | XNull => DOk VNull | _ => DSub end.

(** The methods of [Deserializer], by expected type. *)
Fixpoint decode (q : nat) (tbl : list entry) (t : xty) (w : tref) (l : bytes) {struct t} : dres (xval * bytes) :=
  let entry_of := match w with Var i => lookup_type tbl i | Prim _ => None end in
  match t with
  | XNull => match w with Prim PNull => DOk (VNull, l) | _ => DSub end
  | XNat32 => match w with
              | Prim PNat32 => dlet (b, r) := hard (take_bytes 4 l) in DOk (VNat (le_value b), r)
              | _ => DSub
              end
  | XNat64 => match w with
              | Prim PNat64 => dlet (b, r) := hard (take_bytes 8 l) in DOk (VNat (le_value b), r)
              | _ => DSub
              end
  | XText => match w with
             | Prim PText => dlet (b, r) := hard (read_text l) in DOk (VText b, r)
             | _ => DSub
             end
  | XPrincipal => match w with
             | Prim PPrincipal => dlet (b, r) := hard (read_principal l) in DOk (VPrincipal b, r)
             | _ => DSub
             end
  | XBlob => match entry_of with
             | Some (EVec (Prim PNat8)) => dlet (b, r) := hard (read_counted l) in DOk (VBlob b, r)
             | _ => DSub
             end
  | XOpt t' =>
      match w, entry_of with
      | Prim PNull, _ | Prim PReserved, _ => DOk (VOpt None, l)
      | _, Some (EOpt w') =>
          dlet (b, r) := hard (read_bool l) in
          if (b : bool) then recover (decode q tbl t' w' r) (skip q tbl w' r) else DOk (VOpt None, r)
      | _, _ =>
          match t' with
          | XNull | XOpt _ => dlet r := skip q tbl w l in DOk (VOpt None, r)
          | _ => recover (decode q tbl t' w l) (skip q tbl w l)
          end
      end
  | XVec t' =>
      match entry_of with
      | Some (EVec w') =>
          dlet (n, r) := hard (read_leb l) in
          dlet (vs, r') := many (decode q tbl t' w') (N.to_nat n) r in DOk (VVec vs, r')
      | _ => DSub
      end
  | XRecord fs =>
      match entry_of with
      | Some (ERecord ws) =>
          dlet (vs, r) := (fix fields (fs : list (N * xty)) (ws : list (N * tref)) (l : bytes) : dres (list xval * bytes) :=
             match fs with
             | [] => dlet r := skip_fields q tbl ws l in DOk ([], r)
             | (id, t') :: fs' =>
                 let '(others, ws') := span (fun w => fst w <? id) ws in
                 dlet r := skip_fields q tbl others l in
                 let missing := dlet v := absent t' in dlet (vs, r') := fields fs' ws' r in DOk (v :: vs, r') in
                 match ws' with
                 | (id', w') :: ws'' =>
                     if id' =? id then
                       dlet (v, r1) := decode q tbl t' w' r in
                       dlet (vs, r2) := fields fs' ws'' r1 in DOk (v :: vs, r2)
                     else missing
                 | [] => missing
                 end
             end) fs ws l in
          DOk (VRecord vs, r)
      | _ => DSub
      end
  | XVariant fs =>
      match entry_of with
      | Some (EVariant ws) =>
          dlet (k, r) := hard (read_leb l) in
          dlet f := hard (if N.of_nat (length ws) <=? k then None else nth_error ws (N.to_nat k)) in
          let '(id, w') := f in
          (fix pick (fs : list (N * xty)) : dres (xval * bytes) :=
             match fs with
             | [] => DSub
             | (id', t') :: fs' =>
                 if id' =? id then dlet (v, r') := decode q tbl t' w' r in DOk (VVariant id v, r')
                 else pick fs'
             end) fs
      | _ => DSub
      end
  end.

(** IDLDeserialize: get_value for each expected argument, then done(). *)
Fixpoint decode_each (q : nat) (tbl : list entry) (ts : list xty) (ws : list tref) (l : bytes)
  : dres (list xval * bytes) :=
  match ts, ws with
  | [], _ => dlet r := fold_left (fun x w => dlet r := x in skip q tbl w r) ws (DOk l) in DOk ([], r)
  | t :: ts', w :: ws' =>
      dlet (v, r) := decode q tbl t w l in
      dlet (vs, r') := decode_each q tbl ts' ws' r in DOk (v :: vs, r')
  | t :: ts', [] =>
      dlet v := absent t in
      dlet (vs, r') := decode_each q tbl ts' [] l in DOk (v :: vs, r')
  end.

Definition decode_args (q : nat) (ts : list xty) (msg : bytes) : option (list xval) :=
  match read_header msg with
  | None => None
  | Some (h, l) =>
      match decode_each q (h_table h) ts (h_args h) l with
      | DOk (vs, []) => Some vs
      | _ => None
      end
  end.

(** ** Writing *)

Fixpoint leb_from (fuel : nat) (n : N) : bytes :=
  match fuel with
  | O => []
  | S f => if n <? 128 then [u8 n] else u8 (128 + n mod 128) :: leb_from f (n / 128)
  end.
Definition leb (n : N) : bytes := leb_from (S (N.to_nat (N.log2 n))) n.

Definition prim_code (p : prim) : byte :=
  match p with
  | PNull => x7f | PBool => x7e | PNat => x7d | PInt => x7c | PNat8 => x7b | PNat16 => x7a | PNat32 => x79
  | PNat64 => x78 | PInt8 => x77 | PInt16 => x76 | PInt32 => x75 | PInt64 => x74 | PFloat32 => x73
  | PFloat64 => x72 | PText => x71 | PReserved => x70 | PEmpty => x6f | PPrincipal => x68
  end.
(** Indices below 64 fit one byte; larger ones need the sign bit clear. *)
Fixpoint sleb_from (fuel : nat) (n : N) : bytes :=
  match fuel with
  | O => []
  | S f => if n <? 64 then [u8 n] else u8 (128 + n mod 128) :: sleb_from f (n / 128)
  end.
Definition put_tref (t : tref) : bytes :=
  match t with Prim p => [prim_code p] | Var i => sleb_from 10 i end.
Definition put_list {A} (f : A -> bytes) (l : list A) : bytes := leb (N.of_nat (length l)) ++ concat (map f l).
Definition put_field (f : N * tref) : bytes := leb (fst f) ++ put_tref (snd f).
Definition put_entry (e : entry) : bytes :=
  match e with
  | EOpt t => x6e :: put_tref t
  | EVec t => x6d :: put_tref t
  | ERecord fs => x6c :: put_list put_field fs
  | EVariant fs => x6b :: put_list put_field fs
  | _ => []
  end.
Definition put_header (h : header) : bytes :=
  MAGIC ++ put_list put_entry (h_table h) ++ put_list put_tref (h_args h).

Fixpoint put_le (k : nat) (n : N) : bytes :=
  match k with O => [] | S k' => u8 n :: put_le k' (n / 256) end.
Definition put_bytes (b : bytes) : bytes := leb (blen b) ++ b.

(** Field names: the identifier is a hash of the name. *)
Definition idl_hash (name : bytes) : N :=
  fold_left (fun h c => (h * 223 + nb c) mod 4294967296) name 0.
