(** Model of packages/ic_siwe/src/hash.rs. *)
From Coq Require Import Strings.String.
From Verif Require Import Base Deps.
Local Open Scope N_scope.

(** hash.rs 10-15 *)
Inductive value :=
| VBytes (b : bytes)
| VString (s : bytes)
| VU64 (n : N)
| VArray (l : list value).

(** hash.rs 51-60 (hash_string, hash_bytes) *)
Definition hash_bytes (D : Deps) (b : bytes) : bytes := d_sha256 D b.
Definition hash_string (D : Deps) (s : bytes) : bytes := hash_bytes D s.

(** hash.rs 63-80: the encoding loop.  [buf] is the 10-byte buffer, [i] the index;
    writing outside the buffer panics.  The fuel bounds the loop: index 10 is
    out of bounds, so 11 iterations are always enough. *)
Fixpoint leb_loop (fuel : nat) (buf : bytes) (n : N) (i : nat) : outcome bytes :=
  match fuel with
  | O => Trap "out of fuel"
  | S f =>
      let byte := n mod 128 in
      let n' := n / 128 in
      if Nat.ltb i (length buf) then
        let buf' := <[i := u8 (if n' =? 0 then byte else byte + 128)]> buf in
        if n' =? 0 then Done (take (S i) buf') else leb_loop f buf' n' (S i)
      else Trap "index out of bounds"
  end.

Definition leb_buffer (n : N) : outcome bytes := leb_loop 11 (repeat x00 10) n 0.

Definition hash_u64 (D : Deps) (n : N) : outcome bytes :=
  olet b := leb_buffer n in Done (hash_bytes D b).

(** hash.rs 83-100 (hash_array, hash_value) *)
Fixpoint hash_value (D : Deps) (v : value) : outcome bytes :=
  match v with
  | VString s => Done (hash_string D s)
  | VBytes b => Done (hash_bytes D b)
  | VU64 n => hash_u64 D n
  | VArray l =>
      olet c :=
        (fix go (l : list value) : outcome bytes :=
           match l with
           | [] => Done []
           | e :: r => olet h := hash_value D e in olet t := go r in Done (h ++ t)
           end) l in
      Done (d_sha256 D c)
  end.

(** hash.rs 43-48 *)
Definition hash_key_value (D : Deps) (kv : bytes * value) : outcome bytes :=
  olet v := hash_value D (snd kv) in Done (hash_string D (fst kv) ++ v).

(** [Vec::sort_unstable] on byte vectors: the sorted list is unique, so a simple
    insertion sort gives the same result. *)
Fixpoint insert_sorted (x : bytes) (l : list bytes) : list bytes :=
  match l with
  | [] => [x]
  | y :: r => match bytes_cmp x y with Gt => y :: insert_sorted x r | _ => x :: l end
  end.

Fixpoint sort_bytes (l : list bytes) : list bytes :=
  match l with [] => [] | x :: r => insert_sorted x (sort_bytes r) end.

Fixpoint omap_list {A B} (f : A -> outcome B) (l : list A) : outcome (list B) :=
  match l with
  | [] => Done []
  | x :: r => olet y := f x in olet t := omap_list f r in Done (y :: t)
  end.

(** hash.rs 18-31.  The argument lists the entries of the HashMap in the order in
    which it happens to iterate. *)
Definition hash_of_map (D : Deps) (entries : list (bytes * value)) : outcome bytes :=
  olet hashes := omap_list (hash_key_value D) entries in
  Done (d_sha256 D (concat (sort_bytes hashes))).

(** hash.rs 34-40 *)
Definition hash_with_domain (D : Deps) (sep b : bytes) : bytes :=
  d_sha256 D (len8 sep :: sep ++ b).
