(** Words of 32 and 64 bits as tuples of four-bit digits, least significant first, with the
    operations of SHA-2 and Keccak as tables.  Written by tools/gen_nib.py: only the hash
    functions of Sha2.v and Keccak.v use it.  The lemmas at the end say what the tables are. *)
From Verif Require Import Base.
Local Open Scope N_scope.

Inductive nib := h0 | h1 | h2 | h3 | h4 | h5 | h6 | h7 | h8 | h9 | ha | hb | hc | hd | he | hf.

(** a xor b *)
Definition nxor (a b : nib) : nib :=
  match a with
  | h0 => match b with h0 => h0 | h1 => h1 | h2 => h2 | h3 => h3 | h4 => h4 | h5 => h5 | h6 => h6 | h7 => h7 | h8 => h8 | h9 => h9 | ha => ha | hb => hb | hc => hc | hd => hd | he => he | hf => hf end
  | h1 => match b with h0 => h1 | h1 => h0 | h2 => h3 | h3 => h2 | h4 => h5 | h5 => h4 | h6 => h7 | h7 => h6 | h8 => h9 | h9 => h8 | ha => hb | hb => ha | hc => hd | hd => hc | he => hf | hf => he end
  | h2 => match b with h0 => h2 | h1 => h3 | h2 => h0 | h3 => h1 | h4 => h6 | h5 => h7 | h6 => h4 | h7 => h5 | h8 => ha | h9 => hb | ha => h8 | hb => h9 | hc => he | hd => hf | he => hc | hf => hd end
  | h3 => match b with h0 => h3 | h1 => h2 | h2 => h1 | h3 => h0 | h4 => h7 | h5 => h6 | h6 => h5 | h7 => h4 | h8 => hb | h9 => ha | ha => h9 | hb => h8 | hc => hf | hd => he | he => hd | hf => hc end
  | h4 => match b with h0 => h4 | h1 => h5 | h2 => h6 | h3 => h7 | h4 => h0 | h5 => h1 | h6 => h2 | h7 => h3 | h8 => hc | h9 => hd | ha => he | hb => hf | hc => h8 | hd => h9 | he => ha | hf => hb end
  | h5 => match b with h0 => h5 | h1 => h4 | h2 => h7 | h3 => h6 | h4 => h1 | h5 => h0 | h6 => h3 | h7 => h2 | h8 => hd | h9 => hc | ha => hf | hb => he | hc => h9 | hd => h8 | he => hb | hf => ha end
  | h6 => match b with h0 => h6 | h1 => h7 | h2 => h4 | h3 => h5 | h4 => h2 | h5 => h3 | h6 => h0 | h7 => h1 | h8 => he | h9 => hf | ha => hc | hb => hd | hc => ha | hd => hb | he => h8 | hf => h9 end
  | h7 => match b with h0 => h7 | h1 => h6 | h2 => h5 | h3 => h4 | h4 => h3 | h5 => h2 | h6 => h1 | h7 => h0 | h8 => hf | h9 => he | ha => hd | hb => hc | hc => hb | hd => ha | he => h9 | hf => h8 end
  | h8 => match b with h0 => h8 | h1 => h9 | h2 => ha | h3 => hb | h4 => hc | h5 => hd | h6 => he | h7 => hf | h8 => h0 | h9 => h1 | ha => h2 | hb => h3 | hc => h4 | hd => h5 | he => h6 | hf => h7 end
  | h9 => match b with h0 => h9 | h1 => h8 | h2 => hb | h3 => ha | h4 => hd | h5 => hc | h6 => hf | h7 => he | h8 => h1 | h9 => h0 | ha => h3 | hb => h2 | hc => h5 | hd => h4 | he => h7 | hf => h6 end
  | ha => match b with h0 => ha | h1 => hb | h2 => h8 | h3 => h9 | h4 => he | h5 => hf | h6 => hc | h7 => hd | h8 => h2 | h9 => h3 | ha => h0 | hb => h1 | hc => h6 | hd => h7 | he => h4 | hf => h5 end
  | hb => match b with h0 => hb | h1 => ha | h2 => h9 | h3 => h8 | h4 => hf | h5 => he | h6 => hd | h7 => hc | h8 => h3 | h9 => h2 | ha => h1 | hb => h0 | hc => h7 | hd => h6 | he => h5 | hf => h4 end
  | hc => match b with h0 => hc | h1 => hd | h2 => he | h3 => hf | h4 => h8 | h5 => h9 | h6 => ha | h7 => hb | h8 => h4 | h9 => h5 | ha => h6 | hb => h7 | hc => h0 | hd => h1 | he => h2 | hf => h3 end
  | hd => match b with h0 => hd | h1 => hc | h2 => hf | h3 => he | h4 => h9 | h5 => h8 | h6 => hb | h7 => ha | h8 => h5 | h9 => h4 | ha => h7 | hb => h6 | hc => h1 | hd => h0 | he => h3 | hf => h2 end
  | he => match b with h0 => he | h1 => hf | h2 => hc | h3 => hd | h4 => ha | h5 => hb | h6 => h8 | h7 => h9 | h8 => h6 | h9 => h7 | ha => h4 | hb => h5 | hc => h2 | hd => h3 | he => h0 | hf => h1 end
  | hf => match b with h0 => hf | h1 => he | h2 => hd | h3 => hc | h4 => hb | h5 => ha | h6 => h9 | h7 => h8 | h8 => h7 | h9 => h6 | ha => h5 | hb => h4 | hc => h3 | hd => h2 | he => h1 | hf => h0 end
  end.

(** a and b *)
Definition nand (a b : nib) : nib :=
  match a with
  | h0 => match b with h0 => h0 | h1 => h0 | h2 => h0 | h3 => h0 | h4 => h0 | h5 => h0 | h6 => h0 | h7 => h0 | h8 => h0 | h9 => h0 | ha => h0 | hb => h0 | hc => h0 | hd => h0 | he => h0 | hf => h0 end
  | h1 => match b with h0 => h0 | h1 => h1 | h2 => h0 | h3 => h1 | h4 => h0 | h5 => h1 | h6 => h0 | h7 => h1 | h8 => h0 | h9 => h1 | ha => h0 | hb => h1 | hc => h0 | hd => h1 | he => h0 | hf => h1 end
  | h2 => match b with h0 => h0 | h1 => h0 | h2 => h2 | h3 => h2 | h4 => h0 | h5 => h0 | h6 => h2 | h7 => h2 | h8 => h0 | h9 => h0 | ha => h2 | hb => h2 | hc => h0 | hd => h0 | he => h2 | hf => h2 end
  | h3 => match b with h0 => h0 | h1 => h1 | h2 => h2 | h3 => h3 | h4 => h0 | h5 => h1 | h6 => h2 | h7 => h3 | h8 => h0 | h9 => h1 | ha => h2 | hb => h3 | hc => h0 | hd => h1 | he => h2 | hf => h3 end
  | h4 => match b with h0 => h0 | h1 => h0 | h2 => h0 | h3 => h0 | h4 => h4 | h5 => h4 | h6 => h4 | h7 => h4 | h8 => h0 | h9 => h0 | ha => h0 | hb => h0 | hc => h4 | hd => h4 | he => h4 | hf => h4 end
  | h5 => match b with h0 => h0 | h1 => h1 | h2 => h0 | h3 => h1 | h4 => h4 | h5 => h5 | h6 => h4 | h7 => h5 | h8 => h0 | h9 => h1 | ha => h0 | hb => h1 | hc => h4 | hd => h5 | he => h4 | hf => h5 end
  | h6 => match b with h0 => h0 | h1 => h0 | h2 => h2 | h3 => h2 | h4 => h4 | h5 => h4 | h6 => h6 | h7 => h6 | h8 => h0 | h9 => h0 | ha => h2 | hb => h2 | hc => h4 | hd => h4 | he => h6 | hf => h6 end
  | h7 => match b with h0 => h0 | h1 => h1 | h2 => h2 | h3 => h3 | h4 => h4 | h5 => h5 | h6 => h6 | h7 => h7 | h8 => h0 | h9 => h1 | ha => h2 | hb => h3 | hc => h4 | hd => h5 | he => h6 | hf => h7 end
  | h8 => match b with h0 => h0 | h1 => h0 | h2 => h0 | h3 => h0 | h4 => h0 | h5 => h0 | h6 => h0 | h7 => h0 | h8 => h8 | h9 => h8 | ha => h8 | hb => h8 | hc => h8 | hd => h8 | he => h8 | hf => h8 end
  | h9 => match b with h0 => h0 | h1 => h1 | h2 => h0 | h3 => h1 | h4 => h0 | h5 => h1 | h6 => h0 | h7 => h1 | h8 => h8 | h9 => h9 | ha => h8 | hb => h9 | hc => h8 | hd => h9 | he => h8 | hf => h9 end
  | ha => match b with h0 => h0 | h1 => h0 | h2 => h2 | h3 => h2 | h4 => h0 | h5 => h0 | h6 => h2 | h7 => h2 | h8 => h8 | h9 => h8 | ha => ha | hb => ha | hc => h8 | hd => h8 | he => ha | hf => ha end
  | hb => match b with h0 => h0 | h1 => h1 | h2 => h2 | h3 => h3 | h4 => h0 | h5 => h1 | h6 => h2 | h7 => h3 | h8 => h8 | h9 => h9 | ha => ha | hb => hb | hc => h8 | hd => h9 | he => ha | hf => hb end
  | hc => match b with h0 => h0 | h1 => h0 | h2 => h0 | h3 => h0 | h4 => h4 | h5 => h4 | h6 => h4 | h7 => h4 | h8 => h8 | h9 => h8 | ha => h8 | hb => h8 | hc => hc | hd => hc | he => hc | hf => hc end
  | hd => match b with h0 => h0 | h1 => h1 | h2 => h0 | h3 => h1 | h4 => h4 | h5 => h5 | h6 => h4 | h7 => h5 | h8 => h8 | h9 => h9 | ha => h8 | hb => h9 | hc => hc | hd => hd | he => hc | hf => hd end
  | he => match b with h0 => h0 | h1 => h0 | h2 => h2 | h3 => h2 | h4 => h4 | h5 => h4 | h6 => h6 | h7 => h6 | h8 => h8 | h9 => h8 | ha => ha | hb => ha | hc => hc | hd => hc | he => he | hf => he end
  | hf => match b with h0 => h0 | h1 => h1 | h2 => h2 | h3 => h3 | h4 => h4 | h5 => h5 | h6 => h6 | h7 => h7 | h8 => h8 | h9 => h9 | ha => ha | hb => hb | hc => hc | hd => hd | he => he | hf => hf end
  end.

(** (not a) and b *)
Definition nandn (a b : nib) : nib :=
  match a with
  | h0 => match b with h0 => h0 | h1 => h1 | h2 => h2 | h3 => h3 | h4 => h4 | h5 => h5 | h6 => h6 | h7 => h7 | h8 => h8 | h9 => h9 | ha => ha | hb => hb | hc => hc | hd => hd | he => he | hf => hf end
  | h1 => match b with h0 => h0 | h1 => h0 | h2 => h2 | h3 => h2 | h4 => h4 | h5 => h4 | h6 => h6 | h7 => h6 | h8 => h8 | h9 => h8 | ha => ha | hb => ha | hc => hc | hd => hc | he => he | hf => he end
  | h2 => match b with h0 => h0 | h1 => h1 | h2 => h0 | h3 => h1 | h4 => h4 | h5 => h5 | h6 => h4 | h7 => h5 | h8 => h8 | h9 => h9 | ha => h8 | hb => h9 | hc => hc | hd => hd | he => hc | hf => hd end
  | h3 => match b with h0 => h0 | h1 => h0 | h2 => h0 | h3 => h0 | h4 => h4 | h5 => h4 | h6 => h4 | h7 => h4 | h8 => h8 | h9 => h8 | ha => h8 | hb => h8 | hc => hc | hd => hc | he => hc | hf => hc end
  | h4 => match b with h0 => h0 | h1 => h1 | h2 => h2 | h3 => h3 | h4 => h0 | h5 => h1 | h6 => h2 | h7 => h3 | h8 => h8 | h9 => h9 | ha => ha | hb => hb | hc => h8 | hd => h9 | he => ha | hf => hb end
  | h5 => match b with h0 => h0 | h1 => h0 | h2 => h2 | h3 => h2 | h4 => h0 | h5 => h0 | h6 => h2 | h7 => h2 | h8 => h8 | h9 => h8 | ha => ha | hb => ha | hc => h8 | hd => h8 | he => ha | hf => ha end
  | h6 => match b with h0 => h0 | h1 => h1 | h2 => h0 | h3 => h1 | h4 => h0 | h5 => h1 | h6 => h0 | h7 => h1 | h8 => h8 | h9 => h9 | ha => h8 | hb => h9 | hc => h8 | hd => h9 | he => h8 | hf => h9 end
  | h7 => match b with h0 => h0 | h1 => h0 | h2 => h0 | h3 => h0 | h4 => h0 | h5 => h0 | h6 => h0 | h7 => h0 | h8 => h8 | h9 => h8 | ha => h8 | hb => h8 | hc => h8 | hd => h8 | he => h8 | hf => h8 end
  | h8 => match b with h0 => h0 | h1 => h1 | h2 => h2 | h3 => h3 | h4 => h4 | h5 => h5 | h6 => h6 | h7 => h7 | h8 => h0 | h9 => h1 | ha => h2 | hb => h3 | hc => h4 | hd => h5 | he => h6 | hf => h7 end
  | h9 => match b with h0 => h0 | h1 => h0 | h2 => h2 | h3 => h2 | h4 => h4 | h5 => h4 | h6 => h6 | h7 => h6 | h8 => h0 | h9 => h0 | ha => h2 | hb => h2 | hc => h4 | hd => h4 | he => h6 | hf => h6 end
  | ha => match b with h0 => h0 | h1 => h1 | h2 => h0 | h3 => h1 | h4 => h4 | h5 => h5 | h6 => h4 | h7 => h5 | h8 => h0 | h9 => h1 | ha => h0 | hb => h1 | hc => h4 | hd => h5 | he => h4 | hf => h5 end
  | hb => match b with h0 => h0 | h1 => h0 | h2 => h0 | h3 => h0 | h4 => h4 | h5 => h4 | h6 => h4 | h7 => h4 | h8 => h0 | h9 => h0 | ha => h0 | hb => h0 | hc => h4 | hd => h4 | he => h4 | hf => h4 end
  | hc => match b with h0 => h0 | h1 => h1 | h2 => h2 | h3 => h3 | h4 => h0 | h5 => h1 | h6 => h2 | h7 => h3 | h8 => h0 | h9 => h1 | ha => h2 | hb => h3 | hc => h0 | hd => h1 | he => h2 | hf => h3 end
  | hd => match b with h0 => h0 | h1 => h0 | h2 => h2 | h3 => h2 | h4 => h0 | h5 => h0 | h6 => h2 | h7 => h2 | h8 => h0 | h9 => h0 | ha => h2 | hb => h2 | hc => h0 | hd => h0 | he => h2 | hf => h2 end
  | he => match b with h0 => h0 | h1 => h1 | h2 => h0 | h3 => h1 | h4 => h0 | h5 => h1 | h6 => h0 | h7 => h1 | h8 => h0 | h9 => h1 | ha => h0 | hb => h1 | hc => h0 | hd => h1 | he => h0 | hf => h1 end
  | hf => match b with h0 => h0 | h1 => h0 | h2 => h0 | h3 => h0 | h4 => h0 | h5 => h0 | h6 => h0 | h7 => h0 | h8 => h0 | h9 => h0 | ha => h0 | hb => h0 | hc => h0 | hd => h0 | he => h0 | hf => h0 end
  end.

(** the low digit of (a + 16 b) shifted right by 1 *)
Definition nsh1 (a b : nib) : nib :=
  match a with
  | h0 => match b with h0 => h0 | h1 => h8 | h2 => h0 | h3 => h8 | h4 => h0 | h5 => h8 | h6 => h0 | h7 => h8 | h8 => h0 | h9 => h8 | ha => h0 | hb => h8 | hc => h0 | hd => h8 | he => h0 | hf => h8 end
  | h1 => match b with h0 => h0 | h1 => h8 | h2 => h0 | h3 => h8 | h4 => h0 | h5 => h8 | h6 => h0 | h7 => h8 | h8 => h0 | h9 => h8 | ha => h0 | hb => h8 | hc => h0 | hd => h8 | he => h0 | hf => h8 end
  | h2 => match b with h0 => h1 | h1 => h9 | h2 => h1 | h3 => h9 | h4 => h1 | h5 => h9 | h6 => h1 | h7 => h9 | h8 => h1 | h9 => h9 | ha => h1 | hb => h9 | hc => h1 | hd => h9 | he => h1 | hf => h9 end
  | h3 => match b with h0 => h1 | h1 => h9 | h2 => h1 | h3 => h9 | h4 => h1 | h5 => h9 | h6 => h1 | h7 => h9 | h8 => h1 | h9 => h9 | ha => h1 | hb => h9 | hc => h1 | hd => h9 | he => h1 | hf => h9 end
  | h4 => match b with h0 => h2 | h1 => ha | h2 => h2 | h3 => ha | h4 => h2 | h5 => ha | h6 => h2 | h7 => ha | h8 => h2 | h9 => ha | ha => h2 | hb => ha | hc => h2 | hd => ha | he => h2 | hf => ha end
  | h5 => match b with h0 => h2 | h1 => ha | h2 => h2 | h3 => ha | h4 => h2 | h5 => ha | h6 => h2 | h7 => ha | h8 => h2 | h9 => ha | ha => h2 | hb => ha | hc => h2 | hd => ha | he => h2 | hf => ha end
  | h6 => match b with h0 => h3 | h1 => hb | h2 => h3 | h3 => hb | h4 => h3 | h5 => hb | h6 => h3 | h7 => hb | h8 => h3 | h9 => hb | ha => h3 | hb => hb | hc => h3 | hd => hb | he => h3 | hf => hb end
  | h7 => match b with h0 => h3 | h1 => hb | h2 => h3 | h3 => hb | h4 => h3 | h5 => hb | h6 => h3 | h7 => hb | h8 => h3 | h9 => hb | ha => h3 | hb => hb | hc => h3 | hd => hb | he => h3 | hf => hb end
  | h8 => match b with h0 => h4 | h1 => hc | h2 => h4 | h3 => hc | h4 => h4 | h5 => hc | h6 => h4 | h7 => hc | h8 => h4 | h9 => hc | ha => h4 | hb => hc | hc => h4 | hd => hc | he => h4 | hf => hc end
  | h9 => match b with h0 => h4 | h1 => hc | h2 => h4 | h3 => hc | h4 => h4 | h5 => hc | h6 => h4 | h7 => hc | h8 => h4 | h9 => hc | ha => h4 | hb => hc | hc => h4 | hd => hc | he => h4 | hf => hc end
  | ha => match b with h0 => h5 | h1 => hd | h2 => h5 | h3 => hd | h4 => h5 | h5 => hd | h6 => h5 | h7 => hd | h8 => h5 | h9 => hd | ha => h5 | hb => hd | hc => h5 | hd => hd | he => h5 | hf => hd end
  | hb => match b with h0 => h5 | h1 => hd | h2 => h5 | h3 => hd | h4 => h5 | h5 => hd | h6 => h5 | h7 => hd | h8 => h5 | h9 => hd | ha => h5 | hb => hd | hc => h5 | hd => hd | he => h5 | hf => hd end
  | hc => match b with h0 => h6 | h1 => he | h2 => h6 | h3 => he | h4 => h6 | h5 => he | h6 => h6 | h7 => he | h8 => h6 | h9 => he | ha => h6 | hb => he | hc => h6 | hd => he | he => h6 | hf => he end
  | hd => match b with h0 => h6 | h1 => he | h2 => h6 | h3 => he | h4 => h6 | h5 => he | h6 => h6 | h7 => he | h8 => h6 | h9 => he | ha => h6 | hb => he | hc => h6 | hd => he | he => h6 | hf => he end
  | he => match b with h0 => h7 | h1 => hf | h2 => h7 | h3 => hf | h4 => h7 | h5 => hf | h6 => h7 | h7 => hf | h8 => h7 | h9 => hf | ha => h7 | hb => hf | hc => h7 | hd => hf | he => h7 | hf => hf end
  | hf => match b with h0 => h7 | h1 => hf | h2 => h7 | h3 => hf | h4 => h7 | h5 => hf | h6 => h7 | h7 => hf | h8 => h7 | h9 => hf | ha => h7 | hb => hf | hc => h7 | hd => hf | he => h7 | hf => hf end
  end.

(** the low digit of (a + 16 b) shifted right by 2 *)
Definition nsh2 (a b : nib) : nib :=
  match a with
  | h0 => match b with h0 => h0 | h1 => h4 | h2 => h8 | h3 => hc | h4 => h0 | h5 => h4 | h6 => h8 | h7 => hc | h8 => h0 | h9 => h4 | ha => h8 | hb => hc | hc => h0 | hd => h4 | he => h8 | hf => hc end
  | h1 => match b with h0 => h0 | h1 => h4 | h2 => h8 | h3 => hc | h4 => h0 | h5 => h4 | h6 => h8 | h7 => hc | h8 => h0 | h9 => h4 | ha => h8 | hb => hc | hc => h0 | hd => h4 | he => h8 | hf => hc end
  | h2 => match b with h0 => h0 | h1 => h4 | h2 => h8 | h3 => hc | h4 => h0 | h5 => h4 | h6 => h8 | h7 => hc | h8 => h0 | h9 => h4 | ha => h8 | hb => hc | hc => h0 | hd => h4 | he => h8 | hf => hc end
  | h3 => match b with h0 => h0 | h1 => h4 | h2 => h8 | h3 => hc | h4 => h0 | h5 => h4 | h6 => h8 | h7 => hc | h8 => h0 | h9 => h4 | ha => h8 | hb => hc | hc => h0 | hd => h4 | he => h8 | hf => hc end
  | h4 => match b with h0 => h1 | h1 => h5 | h2 => h9 | h3 => hd | h4 => h1 | h5 => h5 | h6 => h9 | h7 => hd | h8 => h1 | h9 => h5 | ha => h9 | hb => hd | hc => h1 | hd => h5 | he => h9 | hf => hd end
  | h5 => match b with h0 => h1 | h1 => h5 | h2 => h9 | h3 => hd | h4 => h1 | h5 => h5 | h6 => h9 | h7 => hd | h8 => h1 | h9 => h5 | ha => h9 | hb => hd | hc => h1 | hd => h5 | he => h9 | hf => hd end
  | h6 => match b with h0 => h1 | h1 => h5 | h2 => h9 | h3 => hd | h4 => h1 | h5 => h5 | h6 => h9 | h7 => hd | h8 => h1 | h9 => h5 | ha => h9 | hb => hd | hc => h1 | hd => h5 | he => h9 | hf => hd end
  | h7 => match b with h0 => h1 | h1 => h5 | h2 => h9 | h3 => hd | h4 => h1 | h5 => h5 | h6 => h9 | h7 => hd | h8 => h1 | h9 => h5 | ha => h9 | hb => hd | hc => h1 | hd => h5 | he => h9 | hf => hd end
  | h8 => match b with h0 => h2 | h1 => h6 | h2 => ha | h3 => he | h4 => h2 | h5 => h6 | h6 => ha | h7 => he | h8 => h2 | h9 => h6 | ha => ha | hb => he | hc => h2 | hd => h6 | he => ha | hf => he end
  | h9 => match b with h0 => h2 | h1 => h6 | h2 => ha | h3 => he | h4 => h2 | h5 => h6 | h6 => ha | h7 => he | h8 => h2 | h9 => h6 | ha => ha | hb => he | hc => h2 | hd => h6 | he => ha | hf => he end
  | ha => match b with h0 => h2 | h1 => h6 | h2 => ha | h3 => he | h4 => h2 | h5 => h6 | h6 => ha | h7 => he | h8 => h2 | h9 => h6 | ha => ha | hb => he | hc => h2 | hd => h6 | he => ha | hf => he end
  | hb => match b with h0 => h2 | h1 => h6 | h2 => ha | h3 => he | h4 => h2 | h5 => h6 | h6 => ha | h7 => he | h8 => h2 | h9 => h6 | ha => ha | hb => he | hc => h2 | hd => h6 | he => ha | hf => he end
  | hc => match b with h0 => h3 | h1 => h7 | h2 => hb | h3 => hf | h4 => h3 | h5 => h7 | h6 => hb | h7 => hf | h8 => h3 | h9 => h7 | ha => hb | hb => hf | hc => h3 | hd => h7 | he => hb | hf => hf end
  | hd => match b with h0 => h3 | h1 => h7 | h2 => hb | h3 => hf | h4 => h3 | h5 => h7 | h6 => hb | h7 => hf | h8 => h3 | h9 => h7 | ha => hb | hb => hf | hc => h3 | hd => h7 | he => hb | hf => hf end
  | he => match b with h0 => h3 | h1 => h7 | h2 => hb | h3 => hf | h4 => h3 | h5 => h7 | h6 => hb | h7 => hf | h8 => h3 | h9 => h7 | ha => hb | hb => hf | hc => h3 | hd => h7 | he => hb | hf => hf end
  | hf => match b with h0 => h3 | h1 => h7 | h2 => hb | h3 => hf | h4 => h3 | h5 => h7 | h6 => hb | h7 => hf | h8 => h3 | h9 => h7 | ha => hb | hb => hf | hc => h3 | hd => h7 | he => hb | hf => hf end
  end.

(** the low digit of (a + 16 b) shifted right by 3 *)
Definition nsh3 (a b : nib) : nib :=
  match a with
  | h0 => match b with h0 => h0 | h1 => h2 | h2 => h4 | h3 => h6 | h4 => h8 | h5 => ha | h6 => hc | h7 => he | h8 => h0 | h9 => h2 | ha => h4 | hb => h6 | hc => h8 | hd => ha | he => hc | hf => he end
  | h1 => match b with h0 => h0 | h1 => h2 | h2 => h4 | h3 => h6 | h4 => h8 | h5 => ha | h6 => hc | h7 => he | h8 => h0 | h9 => h2 | ha => h4 | hb => h6 | hc => h8 | hd => ha | he => hc | hf => he end
  | h2 => match b with h0 => h0 | h1 => h2 | h2 => h4 | h3 => h6 | h4 => h8 | h5 => ha | h6 => hc | h7 => he | h8 => h0 | h9 => h2 | ha => h4 | hb => h6 | hc => h8 | hd => ha | he => hc | hf => he end
  | h3 => match b with h0 => h0 | h1 => h2 | h2 => h4 | h3 => h6 | h4 => h8 | h5 => ha | h6 => hc | h7 => he | h8 => h0 | h9 => h2 | ha => h4 | hb => h6 | hc => h8 | hd => ha | he => hc | hf => he end
  | h4 => match b with h0 => h0 | h1 => h2 | h2 => h4 | h3 => h6 | h4 => h8 | h5 => ha | h6 => hc | h7 => he | h8 => h0 | h9 => h2 | ha => h4 | hb => h6 | hc => h8 | hd => ha | he => hc | hf => he end
  | h5 => match b with h0 => h0 | h1 => h2 | h2 => h4 | h3 => h6 | h4 => h8 | h5 => ha | h6 => hc | h7 => he | h8 => h0 | h9 => h2 | ha => h4 | hb => h6 | hc => h8 | hd => ha | he => hc | hf => he end
  | h6 => match b with h0 => h0 | h1 => h2 | h2 => h4 | h3 => h6 | h4 => h8 | h5 => ha | h6 => hc | h7 => he | h8 => h0 | h9 => h2 | ha => h4 | hb => h6 | hc => h8 | hd => ha | he => hc | hf => he end
  | h7 => match b with h0 => h0 | h1 => h2 | h2 => h4 | h3 => h6 | h4 => h8 | h5 => ha | h6 => hc | h7 => he | h8 => h0 | h9 => h2 | ha => h4 | hb => h6 | hc => h8 | hd => ha | he => hc | hf => he end
  | h8 => match b with h0 => h1 | h1 => h3 | h2 => h5 | h3 => h7 | h4 => h9 | h5 => hb | h6 => hd | h7 => hf | h8 => h1 | h9 => h3 | ha => h5 | hb => h7 | hc => h9 | hd => hb | he => hd | hf => hf end
  | h9 => match b with h0 => h1 | h1 => h3 | h2 => h5 | h3 => h7 | h4 => h9 | h5 => hb | h6 => hd | h7 => hf | h8 => h1 | h9 => h3 | ha => h5 | hb => h7 | hc => h9 | hd => hb | he => hd | hf => hf end
  | ha => match b with h0 => h1 | h1 => h3 | h2 => h5 | h3 => h7 | h4 => h9 | h5 => hb | h6 => hd | h7 => hf | h8 => h1 | h9 => h3 | ha => h5 | hb => h7 | hc => h9 | hd => hb | he => hd | hf => hf end
  | hb => match b with h0 => h1 | h1 => h3 | h2 => h5 | h3 => h7 | h4 => h9 | h5 => hb | h6 => hd | h7 => hf | h8 => h1 | h9 => h3 | ha => h5 | hb => h7 | hc => h9 | hd => hb | he => hd | hf => hf end
  | hc => match b with h0 => h1 | h1 => h3 | h2 => h5 | h3 => h7 | h4 => h9 | h5 => hb | h6 => hd | h7 => hf | h8 => h1 | h9 => h3 | ha => h5 | hb => h7 | hc => h9 | hd => hb | he => hd | hf => hf end
  | hd => match b with h0 => h1 | h1 => h3 | h2 => h5 | h3 => h7 | h4 => h9 | h5 => hb | h6 => hd | h7 => hf | h8 => h1 | h9 => h3 | ha => h5 | hb => h7 | hc => h9 | hd => hb | he => hd | hf => hf end
  | he => match b with h0 => h1 | h1 => h3 | h2 => h5 | h3 => h7 | h4 => h9 | h5 => hb | h6 => hd | h7 => hf | h8 => h1 | h9 => h3 | ha => h5 | hb => h7 | hc => h9 | hd => hb | he => hd | hf => hf end
  | hf => match b with h0 => h1 | h1 => h3 | h2 => h5 | h3 => h7 | h4 => h9 | h5 => hb | h6 => hd | h7 => hf | h8 => h1 | h9 => h3 | ha => h5 | hb => h7 | hc => h9 | hd => hb | he => hd | hf => hf end
  end.

(** a + b + 0 and its carry *)
Definition nadd0 (a b : nib) : (nib * bool) :=
  match a with
  | h0 => match b with h0 => (h0, false) | h1 => (h1, false) | h2 => (h2, false) | h3 => (h3, false) | h4 => (h4, false) | h5 => (h5, false) | h6 => (h6, false) | h7 => (h7, false) | h8 => (h8, false) | h9 => (h9, false) | ha => (ha, false) | hb => (hb, false) | hc => (hc, false) | hd => (hd, false) | he => (he, false) | hf => (hf, false) end
  | h1 => match b with h0 => (h1, false) | h1 => (h2, false) | h2 => (h3, false) | h3 => (h4, false) | h4 => (h5, false) | h5 => (h6, false) | h6 => (h7, false) | h7 => (h8, false) | h8 => (h9, false) | h9 => (ha, false) | ha => (hb, false) | hb => (hc, false) | hc => (hd, false) | hd => (he, false) | he => (hf, false) | hf => (h0, true) end
  | h2 => match b with h0 => (h2, false) | h1 => (h3, false) | h2 => (h4, false) | h3 => (h5, false) | h4 => (h6, false) | h5 => (h7, false) | h6 => (h8, false) | h7 => (h9, false) | h8 => (ha, false) | h9 => (hb, false) | ha => (hc, false) | hb => (hd, false) | hc => (he, false) | hd => (hf, false) | he => (h0, true) | hf => (h1, true) end
  | h3 => match b with h0 => (h3, false) | h1 => (h4, false) | h2 => (h5, false) | h3 => (h6, false) | h4 => (h7, false) | h5 => (h8, false) | h6 => (h9, false) | h7 => (ha, false) | h8 => (hb, false) | h9 => (hc, false) | ha => (hd, false) | hb => (he, false) | hc => (hf, false) | hd => (h0, true) | he => (h1, true) | hf => (h2, true) end
  | h4 => match b with h0 => (h4, false) | h1 => (h5, false) | h2 => (h6, false) | h3 => (h7, false) | h4 => (h8, false) | h5 => (h9, false) | h6 => (ha, false) | h7 => (hb, false) | h8 => (hc, false) | h9 => (hd, false) | ha => (he, false) | hb => (hf, false) | hc => (h0, true) | hd => (h1, true) | he => (h2, true) | hf => (h3, true) end
  | h5 => match b with h0 => (h5, false) | h1 => (h6, false) | h2 => (h7, false) | h3 => (h8, false) | h4 => (h9, false) | h5 => (ha, false) | h6 => (hb, false) | h7 => (hc, false) | h8 => (hd, false) | h9 => (he, false) | ha => (hf, false) | hb => (h0, true) | hc => (h1, true) | hd => (h2, true) | he => (h3, true) | hf => (h4, true) end
  | h6 => match b with h0 => (h6, false) | h1 => (h7, false) | h2 => (h8, false) | h3 => (h9, false) | h4 => (ha, false) | h5 => (hb, false) | h6 => (hc, false) | h7 => (hd, false) | h8 => (he, false) | h9 => (hf, false) | ha => (h0, true) | hb => (h1, true) | hc => (h2, true) | hd => (h3, true) | he => (h4, true) | hf => (h5, true) end
  | h7 => match b with h0 => (h7, false) | h1 => (h8, false) | h2 => (h9, false) | h3 => (ha, false) | h4 => (hb, false) | h5 => (hc, false) | h6 => (hd, false) | h7 => (he, false) | h8 => (hf, false) | h9 => (h0, true) | ha => (h1, true) | hb => (h2, true) | hc => (h3, true) | hd => (h4, true) | he => (h5, true) | hf => (h6, true) end
  | h8 => match b with h0 => (h8, false) | h1 => (h9, false) | h2 => (ha, false) | h3 => (hb, false) | h4 => (hc, false) | h5 => (hd, false) | h6 => (he, false) | h7 => (hf, false) | h8 => (h0, true) | h9 => (h1, true) | ha => (h2, true) | hb => (h3, true) | hc => (h4, true) | hd => (h5, true) | he => (h6, true) | hf => (h7, true) end
  | h9 => match b with h0 => (h9, false) | h1 => (ha, false) | h2 => (hb, false) | h3 => (hc, false) | h4 => (hd, false) | h5 => (he, false) | h6 => (hf, false) | h7 => (h0, true) | h8 => (h1, true) | h9 => (h2, true) | ha => (h3, true) | hb => (h4, true) | hc => (h5, true) | hd => (h6, true) | he => (h7, true) | hf => (h8, true) end
  | ha => match b with h0 => (ha, false) | h1 => (hb, false) | h2 => (hc, false) | h3 => (hd, false) | h4 => (he, false) | h5 => (hf, false) | h6 => (h0, true) | h7 => (h1, true) | h8 => (h2, true) | h9 => (h3, true) | ha => (h4, true) | hb => (h5, true) | hc => (h6, true) | hd => (h7, true) | he => (h8, true) | hf => (h9, true) end
  | hb => match b with h0 => (hb, false) | h1 => (hc, false) | h2 => (hd, false) | h3 => (he, false) | h4 => (hf, false) | h5 => (h0, true) | h6 => (h1, true) | h7 => (h2, true) | h8 => (h3, true) | h9 => (h4, true) | ha => (h5, true) | hb => (h6, true) | hc => (h7, true) | hd => (h8, true) | he => (h9, true) | hf => (ha, true) end
  | hc => match b with h0 => (hc, false) | h1 => (hd, false) | h2 => (he, false) | h3 => (hf, false) | h4 => (h0, true) | h5 => (h1, true) | h6 => (h2, true) | h7 => (h3, true) | h8 => (h4, true) | h9 => (h5, true) | ha => (h6, true) | hb => (h7, true) | hc => (h8, true) | hd => (h9, true) | he => (ha, true) | hf => (hb, true) end
  | hd => match b with h0 => (hd, false) | h1 => (he, false) | h2 => (hf, false) | h3 => (h0, true) | h4 => (h1, true) | h5 => (h2, true) | h6 => (h3, true) | h7 => (h4, true) | h8 => (h5, true) | h9 => (h6, true) | ha => (h7, true) | hb => (h8, true) | hc => (h9, true) | hd => (ha, true) | he => (hb, true) | hf => (hc, true) end
  | he => match b with h0 => (he, false) | h1 => (hf, false) | h2 => (h0, true) | h3 => (h1, true) | h4 => (h2, true) | h5 => (h3, true) | h6 => (h4, true) | h7 => (h5, true) | h8 => (h6, true) | h9 => (h7, true) | ha => (h8, true) | hb => (h9, true) | hc => (ha, true) | hd => (hb, true) | he => (hc, true) | hf => (hd, true) end
  | hf => match b with h0 => (hf, false) | h1 => (h0, true) | h2 => (h1, true) | h3 => (h2, true) | h4 => (h3, true) | h5 => (h4, true) | h6 => (h5, true) | h7 => (h6, true) | h8 => (h7, true) | h9 => (h8, true) | ha => (h9, true) | hb => (ha, true) | hc => (hb, true) | hd => (hc, true) | he => (hd, true) | hf => (he, true) end
  end.

(** a + b + 1 and its carry *)
Definition nadd1 (a b : nib) : (nib * bool) :=
  match a with
  | h0 => match b with h0 => (h1, false) | h1 => (h2, false) | h2 => (h3, false) | h3 => (h4, false) | h4 => (h5, false) | h5 => (h6, false) | h6 => (h7, false) | h7 => (h8, false) | h8 => (h9, false) | h9 => (ha, false) | ha => (hb, false) | hb => (hc, false) | hc => (hd, false) | hd => (he, false) | he => (hf, false) | hf => (h0, true) end
  | h1 => match b with h0 => (h2, false) | h1 => (h3, false) | h2 => (h4, false) | h3 => (h5, false) | h4 => (h6, false) | h5 => (h7, false) | h6 => (h8, false) | h7 => (h9, false) | h8 => (ha, false) | h9 => (hb, false) | ha => (hc, false) | hb => (hd, false) | hc => (he, false) | hd => (hf, false) | he => (h0, true) | hf => (h1, true) end
  | h2 => match b with h0 => (h3, false) | h1 => (h4, false) | h2 => (h5, false) | h3 => (h6, false) | h4 => (h7, false) | h5 => (h8, false) | h6 => (h9, false) | h7 => (ha, false) | h8 => (hb, false) | h9 => (hc, false) | ha => (hd, false) | hb => (he, false) | hc => (hf, false) | hd => (h0, true) | he => (h1, true) | hf => (h2, true) end
  | h3 => match b with h0 => (h4, false) | h1 => (h5, false) | h2 => (h6, false) | h3 => (h7, false) | h4 => (h8, false) | h5 => (h9, false) | h6 => (ha, false) | h7 => (hb, false) | h8 => (hc, false) | h9 => (hd, false) | ha => (he, false) | hb => (hf, false) | hc => (h0, true) | hd => (h1, true) | he => (h2, true) | hf => (h3, true) end
  | h4 => match b with h0 => (h5, false) | h1 => (h6, false) | h2 => (h7, false) | h3 => (h8, false) | h4 => (h9, false) | h5 => (ha, false) | h6 => (hb, false) | h7 => (hc, false) | h8 => (hd, false) | h9 => (he, false) | ha => (hf, false) | hb => (h0, true) | hc => (h1, true) | hd => (h2, true) | he => (h3, true) | hf => (h4, true) end
  | h5 => match b with h0 => (h6, false) | h1 => (h7, false) | h2 => (h8, false) | h3 => (h9, false) | h4 => (ha, false) | h5 => (hb, false) | h6 => (hc, false) | h7 => (hd, false) | h8 => (he, false) | h9 => (hf, false) | ha => (h0, true) | hb => (h1, true) | hc => (h2, true) | hd => (h3, true) | he => (h4, true) | hf => (h5, true) end
  | h6 => match b with h0 => (h7, false) | h1 => (h8, false) | h2 => (h9, false) | h3 => (ha, false) | h4 => (hb, false) | h5 => (hc, false) | h6 => (hd, false) | h7 => (he, false) | h8 => (hf, false) | h9 => (h0, true) | ha => (h1, true) | hb => (h2, true) | hc => (h3, true) | hd => (h4, true) | he => (h5, true) | hf => (h6, true) end
  | h7 => match b with h0 => (h8, false) | h1 => (h9, false) | h2 => (ha, false) | h3 => (hb, false) | h4 => (hc, false) | h5 => (hd, false) | h6 => (he, false) | h7 => (hf, false) | h8 => (h0, true) | h9 => (h1, true) | ha => (h2, true) | hb => (h3, true) | hc => (h4, true) | hd => (h5, true) | he => (h6, true) | hf => (h7, true) end
  | h8 => match b with h0 => (h9, false) | h1 => (ha, false) | h2 => (hb, false) | h3 => (hc, false) | h4 => (hd, false) | h5 => (he, false) | h6 => (hf, false) | h7 => (h0, true) | h8 => (h1, true) | h9 => (h2, true) | ha => (h3, true) | hb => (h4, true) | hc => (h5, true) | hd => (h6, true) | he => (h7, true) | hf => (h8, true) end
  | h9 => match b with h0 => (ha, false) | h1 => (hb, false) | h2 => (hc, false) | h3 => (hd, false) | h4 => (he, false) | h5 => (hf, false) | h6 => (h0, true) | h7 => (h1, true) | h8 => (h2, true) | h9 => (h3, true) | ha => (h4, true) | hb => (h5, true) | hc => (h6, true) | hd => (h7, true) | he => (h8, true) | hf => (h9, true) end
  | ha => match b with h0 => (hb, false) | h1 => (hc, false) | h2 => (hd, false) | h3 => (he, false) | h4 => (hf, false) | h5 => (h0, true) | h6 => (h1, true) | h7 => (h2, true) | h8 => (h3, true) | h9 => (h4, true) | ha => (h5, true) | hb => (h6, true) | hc => (h7, true) | hd => (h8, true) | he => (h9, true) | hf => (ha, true) end
  | hb => match b with h0 => (hc, false) | h1 => (hd, false) | h2 => (he, false) | h3 => (hf, false) | h4 => (h0, true) | h5 => (h1, true) | h6 => (h2, true) | h7 => (h3, true) | h8 => (h4, true) | h9 => (h5, true) | ha => (h6, true) | hb => (h7, true) | hc => (h8, true) | hd => (h9, true) | he => (ha, true) | hf => (hb, true) end
  | hc => match b with h0 => (hd, false) | h1 => (he, false) | h2 => (hf, false) | h3 => (h0, true) | h4 => (h1, true) | h5 => (h2, true) | h6 => (h3, true) | h7 => (h4, true) | h8 => (h5, true) | h9 => (h6, true) | ha => (h7, true) | hb => (h8, true) | hc => (h9, true) | hd => (ha, true) | he => (hb, true) | hf => (hc, true) end
  | hd => match b with h0 => (he, false) | h1 => (hf, false) | h2 => (h0, true) | h3 => (h1, true) | h4 => (h2, true) | h5 => (h3, true) | h6 => (h4, true) | h7 => (h5, true) | h8 => (h6, true) | h9 => (h7, true) | ha => (h8, true) | hb => (h9, true) | hc => (ha, true) | hd => (hb, true) | he => (hc, true) | hf => (hd, true) end
  | he => match b with h0 => (hf, false) | h1 => (h0, true) | h2 => (h1, true) | h3 => (h2, true) | h4 => (h3, true) | h5 => (h4, true) | h6 => (h5, true) | h7 => (h6, true) | h8 => (h7, true) | h9 => (h8, true) | ha => (h9, true) | hb => (ha, true) | hc => (hb, true) | hd => (hc, true) | he => (hd, true) | hf => (he, true) end
  | hf => match b with h0 => (h0, true) | h1 => (h1, true) | h2 => (h2, true) | h3 => (h3, true) | h4 => (h4, true) | h5 => (h5, true) | h6 => (h6, true) | h7 => (h7, true) | h8 => (h8, true) | h9 => (h9, true) | ha => (ha, true) | hb => (hb, true) | hc => (hc, true) | hd => (hd, true) | he => (he, true) | hf => (hf, true) end
  end.

Definition nadd (c : bool) (a b : nib) : nib * bool := if c then nadd1 a b else nadd0 a b.

(** The low digit of a byte. *)
Definition nlo (b : byte) : nib :=
  match b with
  | x00 => h0 | x01 => h1 | x02 => h2 | x03 => h3 | x04 => h4 | x05 => h5 | x06 => h6 | x07 => h7 | x08 => h8 | x09 => h9 | x0a => ha | x0b => hb | x0c => hc | x0d => hd | x0e => he | x0f => hf
  | x10 => h0 | x11 => h1 | x12 => h2 | x13 => h3 | x14 => h4 | x15 => h5 | x16 => h6 | x17 => h7 | x18 => h8 | x19 => h9 | x1a => ha | x1b => hb | x1c => hc | x1d => hd | x1e => he | x1f => hf
  | x20 => h0 | x21 => h1 | x22 => h2 | x23 => h3 | x24 => h4 | x25 => h5 | x26 => h6 | x27 => h7 | x28 => h8 | x29 => h9 | x2a => ha | x2b => hb | x2c => hc | x2d => hd | x2e => he | x2f => hf
  | x30 => h0 | x31 => h1 | x32 => h2 | x33 => h3 | x34 => h4 | x35 => h5 | x36 => h6 | x37 => h7 | x38 => h8 | x39 => h9 | x3a => ha | x3b => hb | x3c => hc | x3d => hd | x3e => he | x3f => hf
  | x40 => h0 | x41 => h1 | x42 => h2 | x43 => h3 | x44 => h4 | x45 => h5 | x46 => h6 | x47 => h7 | x48 => h8 | x49 => h9 | x4a => ha | x4b => hb | x4c => hc | x4d => hd | x4e => he | x4f => hf
  | x50 => h0 | x51 => h1 | x52 => h2 | x53 => h3 | x54 => h4 | x55 => h5 | x56 => h6 | x57 => h7 | x58 => h8 | x59 => h9 | x5a => ha | x5b => hb | x5c => hc | x5d => hd | x5e => he | x5f => hf
  | x60 => h0 | x61 => h1 | x62 => h2 | x63 => h3 | x64 => h4 | x65 => h5 | x66 => h6 | x67 => h7 | x68 => h8 | x69 => h9 | x6a => ha | x6b => hb | x6c => hc | x6d => hd | x6e => he | x6f => hf
  | x70 => h0 | x71 => h1 | x72 => h2 | x73 => h3 | x74 => h4 | x75 => h5 | x76 => h6 | x77 => h7 | x78 => h8 | x79 => h9 | x7a => ha | x7b => hb | x7c => hc | x7d => hd | x7e => he | x7f => hf
  | x80 => h0 | x81 => h1 | x82 => h2 | x83 => h3 | x84 => h4 | x85 => h5 | x86 => h6 | x87 => h7 | x88 => h8 | x89 => h9 | x8a => ha | x8b => hb | x8c => hc | x8d => hd | x8e => he | x8f => hf
  | x90 => h0 | x91 => h1 | x92 => h2 | x93 => h3 | x94 => h4 | x95 => h5 | x96 => h6 | x97 => h7 | x98 => h8 | x99 => h9 | x9a => ha | x9b => hb | x9c => hc | x9d => hd | x9e => he | x9f => hf
  | xa0 => h0 | xa1 => h1 | xa2 => h2 | xa3 => h3 | xa4 => h4 | xa5 => h5 | xa6 => h6 | xa7 => h7 | xa8 => h8 | xa9 => h9 | xaa => ha | xab => hb | xac => hc | xad => hd | xae => he | xaf => hf
  | xb0 => h0 | xb1 => h1 | xb2 => h2 | xb3 => h3 | xb4 => h4 | xb5 => h5 | xb6 => h6 | xb7 => h7 | xb8 => h8 | xb9 => h9 | xba => ha | xbb => hb | xbc => hc | xbd => hd | xbe => he | xbf => hf
  | xc0 => h0 | xc1 => h1 | xc2 => h2 | xc3 => h3 | xc4 => h4 | xc5 => h5 | xc6 => h6 | xc7 => h7 | xc8 => h8 | xc9 => h9 | xca => ha | xcb => hb | xcc => hc | xcd => hd | xce => he | xcf => hf
  | xd0 => h0 | xd1 => h1 | xd2 => h2 | xd3 => h3 | xd4 => h4 | xd5 => h5 | xd6 => h6 | xd7 => h7 | xd8 => h8 | xd9 => h9 | xda => ha | xdb => hb | xdc => hc | xdd => hd | xde => he | xdf => hf
  | xe0 => h0 | xe1 => h1 | xe2 => h2 | xe3 => h3 | xe4 => h4 | xe5 => h5 | xe6 => h6 | xe7 => h7 | xe8 => h8 | xe9 => h9 | xea => ha | xeb => hb | xec => hc | xed => hd | xee => he | xef => hf
  | xf0 => h0 | xf1 => h1 | xf2 => h2 | xf3 => h3 | xf4 => h4 | xf5 => h5 | xf6 => h6 | xf7 => h7 | xf8 => h8 | xf9 => h9 | xfa => ha | xfb => hb | xfc => hc | xfd => hd | xfe => he | xff => hf
  end.

(** The high digit of a byte. *)
Definition nhi (b : byte) : nib :=
  match b with
  | x00 => h0 | x01 => h0 | x02 => h0 | x03 => h0 | x04 => h0 | x05 => h0 | x06 => h0 | x07 => h0 | x08 => h0 | x09 => h0 | x0a => h0 | x0b => h0 | x0c => h0 | x0d => h0 | x0e => h0 | x0f => h0
  | x10 => h1 | x11 => h1 | x12 => h1 | x13 => h1 | x14 => h1 | x15 => h1 | x16 => h1 | x17 => h1 | x18 => h1 | x19 => h1 | x1a => h1 | x1b => h1 | x1c => h1 | x1d => h1 | x1e => h1 | x1f => h1
  | x20 => h2 | x21 => h2 | x22 => h2 | x23 => h2 | x24 => h2 | x25 => h2 | x26 => h2 | x27 => h2 | x28 => h2 | x29 => h2 | x2a => h2 | x2b => h2 | x2c => h2 | x2d => h2 | x2e => h2 | x2f => h2
  | x30 => h3 | x31 => h3 | x32 => h3 | x33 => h3 | x34 => h3 | x35 => h3 | x36 => h3 | x37 => h3 | x38 => h3 | x39 => h3 | x3a => h3 | x3b => h3 | x3c => h3 | x3d => h3 | x3e => h3 | x3f => h3
  | x40 => h4 | x41 => h4 | x42 => h4 | x43 => h4 | x44 => h4 | x45 => h4 | x46 => h4 | x47 => h4 | x48 => h4 | x49 => h4 | x4a => h4 | x4b => h4 | x4c => h4 | x4d => h4 | x4e => h4 | x4f => h4
  | x50 => h5 | x51 => h5 | x52 => h5 | x53 => h5 | x54 => h5 | x55 => h5 | x56 => h5 | x57 => h5 | x58 => h5 | x59 => h5 | x5a => h5 | x5b => h5 | x5c => h5 | x5d => h5 | x5e => h5 | x5f => h5
  | x60 => h6 | x61 => h6 | x62 => h6 | x63 => h6 | x64 => h6 | x65 => h6 | x66 => h6 | x67 => h6 | x68 => h6 | x69 => h6 | x6a => h6 | x6b => h6 | x6c => h6 | x6d => h6 | x6e => h6 | x6f => h6
  | x70 => h7 | x71 => h7 | x72 => h7 | x73 => h7 | x74 => h7 | x75 => h7 | x76 => h7 | x77 => h7 | x78 => h7 | x79 => h7 | x7a => h7 | x7b => h7 | x7c => h7 | x7d => h7 | x7e => h7 | x7f => h7
  | x80 => h8 | x81 => h8 | x82 => h8 | x83 => h8 | x84 => h8 | x85 => h8 | x86 => h8 | x87 => h8 | x88 => h8 | x89 => h8 | x8a => h8 | x8b => h8 | x8c => h8 | x8d => h8 | x8e => h8 | x8f => h8
  | x90 => h9 | x91 => h9 | x92 => h9 | x93 => h9 | x94 => h9 | x95 => h9 | x96 => h9 | x97 => h9 | x98 => h9 | x99 => h9 | x9a => h9 | x9b => h9 | x9c => h9 | x9d => h9 | x9e => h9 | x9f => h9
  | xa0 => ha | xa1 => ha | xa2 => ha | xa3 => ha | xa4 => ha | xa5 => ha | xa6 => ha | xa7 => ha | xa8 => ha | xa9 => ha | xaa => ha | xab => ha | xac => ha | xad => ha | xae => ha | xaf => ha
  | xb0 => hb | xb1 => hb | xb2 => hb | xb3 => hb | xb4 => hb | xb5 => hb | xb6 => hb | xb7 => hb | xb8 => hb | xb9 => hb | xba => hb | xbb => hb | xbc => hb | xbd => hb | xbe => hb | xbf => hb
  | xc0 => hc | xc1 => hc | xc2 => hc | xc3 => hc | xc4 => hc | xc5 => hc | xc6 => hc | xc7 => hc | xc8 => hc | xc9 => hc | xca => hc | xcb => hc | xcc => hc | xcd => hc | xce => hc | xcf => hc
  | xd0 => hd | xd1 => hd | xd2 => hd | xd3 => hd | xd4 => hd | xd5 => hd | xd6 => hd | xd7 => hd | xd8 => hd | xd9 => hd | xda => hd | xdb => hd | xdc => hd | xdd => hd | xde => hd | xdf => hd
  | xe0 => he | xe1 => he | xe2 => he | xe3 => he | xe4 => he | xe5 => he | xe6 => he | xe7 => he | xe8 => he | xe9 => he | xea => he | xeb => he | xec => he | xed => he | xee => he | xef => he
  | xf0 => hf | xf1 => hf | xf2 => hf | xf3 => hf | xf4 => hf | xf5 => hf | xf6 => hf | xf7 => hf | xf8 => hf | xf9 => hf | xfa => hf | xfb => hf | xfc => hf | xfd => hf | xfe => hf | xff => hf
  end.

(** The byte with the high digit a and the low digit b. *)
Definition nbyte (a b : nib) : byte :=
  match a with
  | h0 => match b with h0 => x00 | h1 => x01 | h2 => x02 | h3 => x03 | h4 => x04 | h5 => x05 | h6 => x06 | h7 => x07 | h8 => x08 | h9 => x09 | ha => x0a | hb => x0b | hc => x0c | hd => x0d | he => x0e | hf => x0f end
  | h1 => match b with h0 => x10 | h1 => x11 | h2 => x12 | h3 => x13 | h4 => x14 | h5 => x15 | h6 => x16 | h7 => x17 | h8 => x18 | h9 => x19 | ha => x1a | hb => x1b | hc => x1c | hd => x1d | he => x1e | hf => x1f end
  | h2 => match b with h0 => x20 | h1 => x21 | h2 => x22 | h3 => x23 | h4 => x24 | h5 => x25 | h6 => x26 | h7 => x27 | h8 => x28 | h9 => x29 | ha => x2a | hb => x2b | hc => x2c | hd => x2d | he => x2e | hf => x2f end
  | h3 => match b with h0 => x30 | h1 => x31 | h2 => x32 | h3 => x33 | h4 => x34 | h5 => x35 | h6 => x36 | h7 => x37 | h8 => x38 | h9 => x39 | ha => x3a | hb => x3b | hc => x3c | hd => x3d | he => x3e | hf => x3f end
  | h4 => match b with h0 => x40 | h1 => x41 | h2 => x42 | h3 => x43 | h4 => x44 | h5 => x45 | h6 => x46 | h7 => x47 | h8 => x48 | h9 => x49 | ha => x4a | hb => x4b | hc => x4c | hd => x4d | he => x4e | hf => x4f end
  | h5 => match b with h0 => x50 | h1 => x51 | h2 => x52 | h3 => x53 | h4 => x54 | h5 => x55 | h6 => x56 | h7 => x57 | h8 => x58 | h9 => x59 | ha => x5a | hb => x5b | hc => x5c | hd => x5d | he => x5e | hf => x5f end
  | h6 => match b with h0 => x60 | h1 => x61 | h2 => x62 | h3 => x63 | h4 => x64 | h5 => x65 | h6 => x66 | h7 => x67 | h8 => x68 | h9 => x69 | ha => x6a | hb => x6b | hc => x6c | hd => x6d | he => x6e | hf => x6f end
  | h7 => match b with h0 => x70 | h1 => x71 | h2 => x72 | h3 => x73 | h4 => x74 | h5 => x75 | h6 => x76 | h7 => x77 | h8 => x78 | h9 => x79 | ha => x7a | hb => x7b | hc => x7c | hd => x7d | he => x7e | hf => x7f end
  | h8 => match b with h0 => x80 | h1 => x81 | h2 => x82 | h3 => x83 | h4 => x84 | h5 => x85 | h6 => x86 | h7 => x87 | h8 => x88 | h9 => x89 | ha => x8a | hb => x8b | hc => x8c | hd => x8d | he => x8e | hf => x8f end
  | h9 => match b with h0 => x90 | h1 => x91 | h2 => x92 | h3 => x93 | h4 => x94 | h5 => x95 | h6 => x96 | h7 => x97 | h8 => x98 | h9 => x99 | ha => x9a | hb => x9b | hc => x9c | hd => x9d | he => x9e | hf => x9f end
  | ha => match b with h0 => xa0 | h1 => xa1 | h2 => xa2 | h3 => xa3 | h4 => xa4 | h5 => xa5 | h6 => xa6 | h7 => xa7 | h8 => xa8 | h9 => xa9 | ha => xaa | hb => xab | hc => xac | hd => xad | he => xae | hf => xaf end
  | hb => match b with h0 => xb0 | h1 => xb1 | h2 => xb2 | h3 => xb3 | h4 => xb4 | h5 => xb5 | h6 => xb6 | h7 => xb7 | h8 => xb8 | h9 => xb9 | ha => xba | hb => xbb | hc => xbc | hd => xbd | he => xbe | hf => xbf end
  | hc => match b with h0 => xc0 | h1 => xc1 | h2 => xc2 | h3 => xc3 | h4 => xc4 | h5 => xc5 | h6 => xc6 | h7 => xc7 | h8 => xc8 | h9 => xc9 | ha => xca | hb => xcb | hc => xcc | hd => xcd | he => xce | hf => xcf end
  | hd => match b with h0 => xd0 | h1 => xd1 | h2 => xd2 | h3 => xd3 | h4 => xd4 | h5 => xd5 | h6 => xd6 | h7 => xd7 | h8 => xd8 | h9 => xd9 | ha => xda | hb => xdb | hc => xdc | hd => xdd | he => xde | hf => xdf end
  | he => match b with h0 => xe0 | h1 => xe1 | h2 => xe2 | h3 => xe3 | h4 => xe4 | h5 => xe5 | h6 => xe6 | h7 => xe7 | h8 => xe8 | h9 => xe9 | ha => xea | hb => xeb | hc => xec | hd => xed | he => xee | hf => xef end
  | hf => match b with h0 => xf0 | h1 => xf1 | h2 => xf2 | h3 => xf3 | h4 => xf4 | h5 => xf5 | h6 => xf6 | h7 => xf7 | h8 => xf8 | h9 => xf9 | ha => xfa | hb => xfb | hc => xfc | hd => xfd | he => xfe | hf => xff end
  end.

(** ** Words of 32 bits *)

Inductive w32 := W (a0 a1 a2 a3 a4 a5 a6 a7 : nib).

Definition xor32 (x y : w32) : w32 :=
  match x, y with W a0 a1 a2 a3 a4 a5 a6 a7, W b0 b1 b2 b3 b4 b5 b6 b7 =>
    W (nxor a0 b0) (nxor a1 b1) (nxor a2 b2) (nxor a3 b3) (nxor a4 b4) (nxor a5 b5) (nxor a6 b6) (nxor a7 b7) end.
Definition and32 (x y : w32) : w32 :=
  match x, y with W a0 a1 a2 a3 a4 a5 a6 a7, W b0 b1 b2 b3 b4 b5 b6 b7 =>
    W (nand a0 b0) (nand a1 b1) (nand a2 b2) (nand a3 b3) (nand a4 b4) (nand a5 b5) (nand a6 b6) (nand a7 b7) end.
Definition andn32 (x y : w32) : w32 :=
  match x, y with W a0 a1 a2 a3 a4 a5 a6 a7, W b0 b1 b2 b3 b4 b5 b6 b7 =>
    W (nandn a0 b0) (nandn a1 b1) (nandn a2 b2) (nandn a3 b3) (nandn a4 b4) (nandn a5 b5) (nandn a6 b6) (nandn a7 b7) end.
(** Addition modulo 2^32. *)
Definition add32 (x y : w32) : w32 :=
  match x, y with W a0 a1 a2 a3 a4 a5 a6 a7, W b0 b1 b2 b3 b4 b5 b6 b7 =>
    let '(s0, c0) := nadd0 a0 b0 in
    let '(s1, c1) := nadd c0 a1 b1 in
    let '(s2, c2) := nadd c1 a2 b2 in
    let '(s3, c3) := nadd c2 a3 b3 in
    let '(s4, c4) := nadd c3 a4 b4 in
    let '(s5, c5) := nadd c4 a5 b5 in
    let '(s6, c6) := nadd c5 a6 b6 in
    let '(s7, c7) := nadd c6 a7 b7 in
    W s0 s1 s2 s3 s4 s5 s6 s7 end.
(** rotated right by 2 bits *)
Definition rotr32_2 (x : w32) : w32 :=
  match x with W a0 a1 a2 a3 a4 a5 a6 a7 =>
    W (nsh2 a0 a1) (nsh2 a1 a2) (nsh2 a2 a3) (nsh2 a3 a4) (nsh2 a4 a5) (nsh2 a5 a6) (nsh2 a6 a7) (nsh2 a7 a0) end.
(** rotated right by 6 bits *)
Definition rotr32_6 (x : w32) : w32 :=
  match x with W a0 a1 a2 a3 a4 a5 a6 a7 =>
    W (nsh2 a1 a2) (nsh2 a2 a3) (nsh2 a3 a4) (nsh2 a4 a5) (nsh2 a5 a6) (nsh2 a6 a7) (nsh2 a7 a0) (nsh2 a0 a1) end.
(** rotated right by 7 bits *)
Definition rotr32_7 (x : w32) : w32 :=
  match x with W a0 a1 a2 a3 a4 a5 a6 a7 =>
    W (nsh3 a1 a2) (nsh3 a2 a3) (nsh3 a3 a4) (nsh3 a4 a5) (nsh3 a5 a6) (nsh3 a6 a7) (nsh3 a7 a0) (nsh3 a0 a1) end.
(** rotated right by 11 bits *)
Definition rotr32_11 (x : w32) : w32 :=
  match x with W a0 a1 a2 a3 a4 a5 a6 a7 =>
    W (nsh3 a2 a3) (nsh3 a3 a4) (nsh3 a4 a5) (nsh3 a5 a6) (nsh3 a6 a7) (nsh3 a7 a0) (nsh3 a0 a1) (nsh3 a1 a2) end.
(** rotated right by 13 bits *)
Definition rotr32_13 (x : w32) : w32 :=
  match x with W a0 a1 a2 a3 a4 a5 a6 a7 =>
    W (nsh1 a3 a4) (nsh1 a4 a5) (nsh1 a5 a6) (nsh1 a6 a7) (nsh1 a7 a0) (nsh1 a0 a1) (nsh1 a1 a2) (nsh1 a2 a3) end.
(** rotated right by 17 bits *)
Definition rotr32_17 (x : w32) : w32 :=
  match x with W a0 a1 a2 a3 a4 a5 a6 a7 =>
    W (nsh1 a4 a5) (nsh1 a5 a6) (nsh1 a6 a7) (nsh1 a7 a0) (nsh1 a0 a1) (nsh1 a1 a2) (nsh1 a2 a3) (nsh1 a3 a4) end.
(** rotated right by 18 bits *)
Definition rotr32_18 (x : w32) : w32 :=
  match x with W a0 a1 a2 a3 a4 a5 a6 a7 =>
    W (nsh2 a4 a5) (nsh2 a5 a6) (nsh2 a6 a7) (nsh2 a7 a0) (nsh2 a0 a1) (nsh2 a1 a2) (nsh2 a2 a3) (nsh2 a3 a4) end.
(** rotated right by 19 bits *)
Definition rotr32_19 (x : w32) : w32 :=
  match x with W a0 a1 a2 a3 a4 a5 a6 a7 =>
    W (nsh3 a4 a5) (nsh3 a5 a6) (nsh3 a6 a7) (nsh3 a7 a0) (nsh3 a0 a1) (nsh3 a1 a2) (nsh3 a2 a3) (nsh3 a3 a4) end.
(** rotated right by 22 bits *)
Definition rotr32_22 (x : w32) : w32 :=
  match x with W a0 a1 a2 a3 a4 a5 a6 a7 =>
    W (nsh2 a5 a6) (nsh2 a6 a7) (nsh2 a7 a0) (nsh2 a0 a1) (nsh2 a1 a2) (nsh2 a2 a3) (nsh2 a3 a4) (nsh2 a4 a5) end.
(** rotated right by 25 bits *)
Definition rotr32_25 (x : w32) : w32 :=
  match x with W a0 a1 a2 a3 a4 a5 a6 a7 =>
    W (nsh1 a6 a7) (nsh1 a7 a0) (nsh1 a0 a1) (nsh1 a1 a2) (nsh1 a2 a3) (nsh1 a3 a4) (nsh1 a4 a5) (nsh1 a5 a6) end.
(** shifted right by 3 bits *)
Definition shr32_3 (x : w32) : w32 :=
  match x with W a0 a1 a2 a3 a4 a5 a6 a7 =>
    W (nsh3 a0 a1) (nsh3 a1 a2) (nsh3 a2 a3) (nsh3 a3 a4) (nsh3 a4 a5) (nsh3 a5 a6) (nsh3 a6 a7) (nsh3 a7 h0) end.
(** shifted right by 10 bits *)
Definition shr32_10 (x : w32) : w32 :=
  match x with W a0 a1 a2 a3 a4 a5 a6 a7 =>
    W (nsh2 a2 a3) (nsh2 a3 a4) (nsh2 a4 a5) (nsh2 a5 a6) (nsh2 a6 a7) (nsh2 a7 h0) (nsh2 h0 h0) (nsh2 h0 h0) end.

(** ** Words of 64 bits *)

Inductive w64 := L (a0 a1 a2 a3 a4 a5 a6 a7 a8 a9 a10 a11 a12 a13 a14 a15 : nib).

Definition xor64 (x y : w64) : w64 :=
  match x, y with L a0 a1 a2 a3 a4 a5 a6 a7 a8 a9 a10 a11 a12 a13 a14 a15, L b0 b1 b2 b3 b4 b5 b6 b7 b8 b9 b10 b11 b12 b13 b14 b15 =>
    L (nxor a0 b0) (nxor a1 b1) (nxor a2 b2) (nxor a3 b3) (nxor a4 b4) (nxor a5 b5) (nxor a6 b6) (nxor a7 b7) (nxor a8 b8) (nxor a9 b9) (nxor a10 b10) (nxor a11 b11) (nxor a12 b12) (nxor a13 b13) (nxor a14 b14) (nxor a15 b15) end.
Definition and64 (x y : w64) : w64 :=
  match x, y with L a0 a1 a2 a3 a4 a5 a6 a7 a8 a9 a10 a11 a12 a13 a14 a15, L b0 b1 b2 b3 b4 b5 b6 b7 b8 b9 b10 b11 b12 b13 b14 b15 =>
    L (nand a0 b0) (nand a1 b1) (nand a2 b2) (nand a3 b3) (nand a4 b4) (nand a5 b5) (nand a6 b6) (nand a7 b7) (nand a8 b8) (nand a9 b9) (nand a10 b10) (nand a11 b11) (nand a12 b12) (nand a13 b13) (nand a14 b14) (nand a15 b15) end.
Definition andn64 (x y : w64) : w64 :=
  match x, y with L a0 a1 a2 a3 a4 a5 a6 a7 a8 a9 a10 a11 a12 a13 a14 a15, L b0 b1 b2 b3 b4 b5 b6 b7 b8 b9 b10 b11 b12 b13 b14 b15 =>
    L (nandn a0 b0) (nandn a1 b1) (nandn a2 b2) (nandn a3 b3) (nandn a4 b4) (nandn a5 b5) (nandn a6 b6) (nandn a7 b7) (nandn a8 b8) (nandn a9 b9) (nandn a10 b10) (nandn a11 b11) (nandn a12 b12) (nandn a13 b13) (nandn a14 b14) (nandn a15 b15) end.
(** rotated right by 2 bits *)
Definition rotr64_2 (x : w64) : w64 :=
  match x with L a0 a1 a2 a3 a4 a5 a6 a7 a8 a9 a10 a11 a12 a13 a14 a15 =>
    L (nsh2 a0 a1) (nsh2 a1 a2) (nsh2 a2 a3) (nsh2 a3 a4) (nsh2 a4 a5) (nsh2 a5 a6) (nsh2 a6 a7) (nsh2 a7 a8) (nsh2 a8 a9) (nsh2 a9 a10) (nsh2 a10 a11) (nsh2 a11 a12) (nsh2 a12 a13) (nsh2 a13 a14) (nsh2 a14 a15) (nsh2 a15 a0) end.
(** rotated right by 3 bits *)
Definition rotr64_3 (x : w64) : w64 :=
  match x with L a0 a1 a2 a3 a4 a5 a6 a7 a8 a9 a10 a11 a12 a13 a14 a15 =>
    L (nsh3 a0 a1) (nsh3 a1 a2) (nsh3 a2 a3) (nsh3 a3 a4) (nsh3 a4 a5) (nsh3 a5 a6) (nsh3 a6 a7) (nsh3 a7 a8) (nsh3 a8 a9) (nsh3 a9 a10) (nsh3 a10 a11) (nsh3 a11 a12) (nsh3 a12 a13) (nsh3 a13 a14) (nsh3 a14 a15) (nsh3 a15 a0) end.
(** rotated right by 8 bits *)
Definition rotr64_8 (x : w64) : w64 :=
  match x with L a0 a1 a2 a3 a4 a5 a6 a7 a8 a9 a10 a11 a12 a13 a14 a15 =>
    L a2 a3 a4 a5 a6 a7 a8 a9 a10 a11 a12 a13 a14 a15 a0 a1 end.
(** rotated right by 9 bits *)
Definition rotr64_9 (x : w64) : w64 :=
  match x with L a0 a1 a2 a3 a4 a5 a6 a7 a8 a9 a10 a11 a12 a13 a14 a15 =>
    L (nsh1 a2 a3) (nsh1 a3 a4) (nsh1 a4 a5) (nsh1 a5 a6) (nsh1 a6 a7) (nsh1 a7 a8) (nsh1 a8 a9) (nsh1 a9 a10) (nsh1 a10 a11) (nsh1 a11 a12) (nsh1 a12 a13) (nsh1 a13 a14) (nsh1 a14 a15) (nsh1 a15 a0) (nsh1 a0 a1) (nsh1 a1 a2) end.
(** rotated right by 19 bits *)
Definition rotr64_19 (x : w64) : w64 :=
  match x with L a0 a1 a2 a3 a4 a5 a6 a7 a8 a9 a10 a11 a12 a13 a14 a15 =>
    L (nsh3 a4 a5) (nsh3 a5 a6) (nsh3 a6 a7) (nsh3 a7 a8) (nsh3 a8 a9) (nsh3 a9 a10) (nsh3 a10 a11) (nsh3 a11 a12) (nsh3 a12 a13) (nsh3 a13 a14) (nsh3 a14 a15) (nsh3 a15 a0) (nsh3 a0 a1) (nsh3 a1 a2) (nsh3 a2 a3) (nsh3 a3 a4) end.
(** rotated right by 20 bits *)
Definition rotr64_20 (x : w64) : w64 :=
  match x with L a0 a1 a2 a3 a4 a5 a6 a7 a8 a9 a10 a11 a12 a13 a14 a15 =>
    L a5 a6 a7 a8 a9 a10 a11 a12 a13 a14 a15 a0 a1 a2 a3 a4 end.
(** rotated right by 21 bits *)
Definition rotr64_21 (x : w64) : w64 :=
  match x with L a0 a1 a2 a3 a4 a5 a6 a7 a8 a9 a10 a11 a12 a13 a14 a15 =>
    L (nsh1 a5 a6) (nsh1 a6 a7) (nsh1 a7 a8) (nsh1 a8 a9) (nsh1 a9 a10) (nsh1 a10 a11) (nsh1 a11 a12) (nsh1 a12 a13) (nsh1 a13 a14) (nsh1 a14 a15) (nsh1 a15 a0) (nsh1 a0 a1) (nsh1 a1 a2) (nsh1 a2 a3) (nsh1 a3 a4) (nsh1 a4 a5) end.
(** rotated right by 23 bits *)
Definition rotr64_23 (x : w64) : w64 :=
  match x with L a0 a1 a2 a3 a4 a5 a6 a7 a8 a9 a10 a11 a12 a13 a14 a15 =>
    L (nsh3 a5 a6) (nsh3 a6 a7) (nsh3 a7 a8) (nsh3 a8 a9) (nsh3 a9 a10) (nsh3 a10 a11) (nsh3 a11 a12) (nsh3 a12 a13) (nsh3 a13 a14) (nsh3 a14 a15) (nsh3 a15 a0) (nsh3 a0 a1) (nsh3 a1 a2) (nsh3 a2 a3) (nsh3 a3 a4) (nsh3 a4 a5) end.
(** rotated right by 25 bits *)
Definition rotr64_25 (x : w64) : w64 :=
  match x with L a0 a1 a2 a3 a4 a5 a6 a7 a8 a9 a10 a11 a12 a13 a14 a15 =>
    L (nsh1 a6 a7) (nsh1 a7 a8) (nsh1 a8 a9) (nsh1 a9 a10) (nsh1 a10 a11) (nsh1 a11 a12) (nsh1 a12 a13) (nsh1 a13 a14) (nsh1 a14 a15) (nsh1 a15 a0) (nsh1 a0 a1) (nsh1 a1 a2) (nsh1 a2 a3) (nsh1 a3 a4) (nsh1 a4 a5) (nsh1 a5 a6) end.
(** rotated right by 28 bits *)
Definition rotr64_28 (x : w64) : w64 :=
  match x with L a0 a1 a2 a3 a4 a5 a6 a7 a8 a9 a10 a11 a12 a13 a14 a15 =>
    L a7 a8 a9 a10 a11 a12 a13 a14 a15 a0 a1 a2 a3 a4 a5 a6 end.
(** rotated right by 36 bits *)
Definition rotr64_36 (x : w64) : w64 :=
  match x with L a0 a1 a2 a3 a4 a5 a6 a7 a8 a9 a10 a11 a12 a13 a14 a15 =>
    L a9 a10 a11 a12 a13 a14 a15 a0 a1 a2 a3 a4 a5 a6 a7 a8 end.
(** rotated right by 37 bits *)
Definition rotr64_37 (x : w64) : w64 :=
  match x with L a0 a1 a2 a3 a4 a5 a6 a7 a8 a9 a10 a11 a12 a13 a14 a15 =>
    L (nsh1 a9 a10) (nsh1 a10 a11) (nsh1 a11 a12) (nsh1 a12 a13) (nsh1 a13 a14) (nsh1 a14 a15) (nsh1 a15 a0) (nsh1 a0 a1) (nsh1 a1 a2) (nsh1 a2 a3) (nsh1 a3 a4) (nsh1 a4 a5) (nsh1 a5 a6) (nsh1 a6 a7) (nsh1 a7 a8) (nsh1 a8 a9) end.
(** rotated right by 39 bits *)
Definition rotr64_39 (x : w64) : w64 :=
  match x with L a0 a1 a2 a3 a4 a5 a6 a7 a8 a9 a10 a11 a12 a13 a14 a15 =>
    L (nsh3 a9 a10) (nsh3 a10 a11) (nsh3 a11 a12) (nsh3 a12 a13) (nsh3 a13 a14) (nsh3 a14 a15) (nsh3 a15 a0) (nsh3 a0 a1) (nsh3 a1 a2) (nsh3 a2 a3) (nsh3 a3 a4) (nsh3 a4 a5) (nsh3 a5 a6) (nsh3 a6 a7) (nsh3 a7 a8) (nsh3 a8 a9) end.
(** rotated right by 43 bits *)
Definition rotr64_43 (x : w64) : w64 :=
  match x with L a0 a1 a2 a3 a4 a5 a6 a7 a8 a9 a10 a11 a12 a13 a14 a15 =>
    L (nsh3 a10 a11) (nsh3 a11 a12) (nsh3 a12 a13) (nsh3 a13 a14) (nsh3 a14 a15) (nsh3 a15 a0) (nsh3 a0 a1) (nsh3 a1 a2) (nsh3 a2 a3) (nsh3 a3 a4) (nsh3 a4 a5) (nsh3 a5 a6) (nsh3 a6 a7) (nsh3 a7 a8) (nsh3 a8 a9) (nsh3 a9 a10) end.
(** rotated right by 44 bits *)
Definition rotr64_44 (x : w64) : w64 :=
  match x with L a0 a1 a2 a3 a4 a5 a6 a7 a8 a9 a10 a11 a12 a13 a14 a15 =>
    L a11 a12 a13 a14 a15 a0 a1 a2 a3 a4 a5 a6 a7 a8 a9 a10 end.
(** rotated right by 46 bits *)
Definition rotr64_46 (x : w64) : w64 :=
  match x with L a0 a1 a2 a3 a4 a5 a6 a7 a8 a9 a10 a11 a12 a13 a14 a15 =>
    L (nsh2 a11 a12) (nsh2 a12 a13) (nsh2 a13 a14) (nsh2 a14 a15) (nsh2 a15 a0) (nsh2 a0 a1) (nsh2 a1 a2) (nsh2 a2 a3) (nsh2 a3 a4) (nsh2 a4 a5) (nsh2 a5 a6) (nsh2 a6 a7) (nsh2 a7 a8) (nsh2 a8 a9) (nsh2 a9 a10) (nsh2 a10 a11) end.
(** rotated right by 49 bits *)
Definition rotr64_49 (x : w64) : w64 :=
  match x with L a0 a1 a2 a3 a4 a5 a6 a7 a8 a9 a10 a11 a12 a13 a14 a15 =>
    L (nsh1 a12 a13) (nsh1 a13 a14) (nsh1 a14 a15) (nsh1 a15 a0) (nsh1 a0 a1) (nsh1 a1 a2) (nsh1 a2 a3) (nsh1 a3 a4) (nsh1 a4 a5) (nsh1 a5 a6) (nsh1 a6 a7) (nsh1 a7 a8) (nsh1 a8 a9) (nsh1 a9 a10) (nsh1 a10 a11) (nsh1 a11 a12) end.
(** rotated right by 50 bits *)
Definition rotr64_50 (x : w64) : w64 :=
  match x with L a0 a1 a2 a3 a4 a5 a6 a7 a8 a9 a10 a11 a12 a13 a14 a15 =>
    L (nsh2 a12 a13) (nsh2 a13 a14) (nsh2 a14 a15) (nsh2 a15 a0) (nsh2 a0 a1) (nsh2 a1 a2) (nsh2 a2 a3) (nsh2 a3 a4) (nsh2 a4 a5) (nsh2 a5 a6) (nsh2 a6 a7) (nsh2 a7 a8) (nsh2 a8 a9) (nsh2 a9 a10) (nsh2 a10 a11) (nsh2 a11 a12) end.
(** rotated right by 54 bits *)
Definition rotr64_54 (x : w64) : w64 :=
  match x with L a0 a1 a2 a3 a4 a5 a6 a7 a8 a9 a10 a11 a12 a13 a14 a15 =>
    L (nsh2 a13 a14) (nsh2 a14 a15) (nsh2 a15 a0) (nsh2 a0 a1) (nsh2 a1 a2) (nsh2 a2 a3) (nsh2 a3 a4) (nsh2 a4 a5) (nsh2 a5 a6) (nsh2 a6 a7) (nsh2 a7 a8) (nsh2 a8 a9) (nsh2 a9 a10) (nsh2 a10 a11) (nsh2 a11 a12) (nsh2 a12 a13) end.
(** rotated right by 56 bits *)
Definition rotr64_56 (x : w64) : w64 :=
  match x with L a0 a1 a2 a3 a4 a5 a6 a7 a8 a9 a10 a11 a12 a13 a14 a15 =>
    L a14 a15 a0 a1 a2 a3 a4 a5 a6 a7 a8 a9 a10 a11 a12 a13 end.
(** rotated right by 58 bits *)
Definition rotr64_58 (x : w64) : w64 :=
  match x with L a0 a1 a2 a3 a4 a5 a6 a7 a8 a9 a10 a11 a12 a13 a14 a15 =>
    L (nsh2 a14 a15) (nsh2 a15 a0) (nsh2 a0 a1) (nsh2 a1 a2) (nsh2 a2 a3) (nsh2 a3 a4) (nsh2 a4 a5) (nsh2 a5 a6) (nsh2 a6 a7) (nsh2 a7 a8) (nsh2 a8 a9) (nsh2 a9 a10) (nsh2 a10 a11) (nsh2 a11 a12) (nsh2 a12 a13) (nsh2 a13 a14) end.
(** rotated right by 61 bits *)
Definition rotr64_61 (x : w64) : w64 :=
  match x with L a0 a1 a2 a3 a4 a5 a6 a7 a8 a9 a10 a11 a12 a13 a14 a15 =>
    L (nsh1 a15 a0) (nsh1 a0 a1) (nsh1 a1 a2) (nsh1 a2 a3) (nsh1 a3 a4) (nsh1 a4 a5) (nsh1 a5 a6) (nsh1 a6 a7) (nsh1 a7 a8) (nsh1 a8 a9) (nsh1 a9 a10) (nsh1 a10 a11) (nsh1 a11 a12) (nsh1 a12 a13) (nsh1 a13 a14) (nsh1 a14 a15) end.
(** rotated right by 62 bits *)
Definition rotr64_62 (x : w64) : w64 :=
  match x with L a0 a1 a2 a3 a4 a5 a6 a7 a8 a9 a10 a11 a12 a13 a14 a15 =>
    L (nsh2 a15 a0) (nsh2 a0 a1) (nsh2 a1 a2) (nsh2 a2 a3) (nsh2 a3 a4) (nsh2 a4 a5) (nsh2 a5 a6) (nsh2 a6 a7) (nsh2 a7 a8) (nsh2 a8 a9) (nsh2 a9 a10) (nsh2 a10 a11) (nsh2 a11 a12) (nsh2 a12 a13) (nsh2 a13 a14) (nsh2 a14 a15) end.
(** rotated right by 63 bits *)
Definition rotr64_63 (x : w64) : w64 :=
  match x with L a0 a1 a2 a3 a4 a5 a6 a7 a8 a9 a10 a11 a12 a13 a14 a15 =>
    L (nsh3 a15 a0) (nsh3 a0 a1) (nsh3 a1 a2) (nsh3 a2 a3) (nsh3 a3 a4) (nsh3 a4 a5) (nsh3 a5 a6) (nsh3 a6 a7) (nsh3 a7 a8) (nsh3 a8 a9) (nsh3 a9 a10) (nsh3 a10 a11) (nsh3 a11 a12) (nsh3 a12 a13) (nsh3 a13 a14) (nsh3 a14 a15) end.

(** Big-endian reading and writing of a word of 32 bits, little-endian of one of 64 bits. *)
Definition be32 (b0 b1 b2 b3 : byte) : w32 :=
  W (nlo b3) (nhi b3) (nlo b2) (nhi b2) (nlo b1) (nhi b1) (nlo b0) (nhi b0).
Definition bytes32 (x : w32) : bytes :=
  match x with W a0 a1 a2 a3 a4 a5 a6 a7 => [nbyte a7 a6; nbyte a5 a4; nbyte a3 a2; nbyte a1 a0] end.
Definition le64 (b0 b1 b2 b3 b4 b5 b6 b7 : byte) : w64 :=
  L (nlo b0) (nhi b0) (nlo b1) (nhi b1) (nlo b2) (nhi b2) (nlo b3) (nhi b3) (nlo b4) (nhi b4) (nlo b5) (nhi b5) (nlo b6) (nhi b6) (nlo b7) (nhi b7).
Definition bytes64 (x : w64) : bytes :=
  match x with L a0 a1 a2 a3 a4 a5 a6 a7 a8 a9 a10 a11 a12 a13 a14 a15 =>
    [nbyte a1 a0; nbyte a3 a2; nbyte a5 a4; nbyte a7 a6; nbyte a9 a8; nbyte a11 a10; nbyte a13 a12; nbyte a15 a14] end.
(** The word of a number. *)
Definition dig (n : N) : nib :=
  match n mod 16 with 0 => h0 | 1 => h1 | 2 => h2 | 3 => h3 | 4 => h4 | 5 => h5 | 6 => h6 | 7 => h7 | 8 => h8 | 9 => h9 | 10 => ha | 11 => hb | 12 => hc | 13 => hd | 14 => he | _ => hf end.
Definition of32 (n : N) : w32 :=
  W (dig (n / 16 ^ 0)) (dig (n / 16 ^ 1)) (dig (n / 16 ^ 2)) (dig (n / 16 ^ 3)) (dig (n / 16 ^ 4)) (dig (n / 16 ^ 5)) (dig (n / 16 ^ 6)) (dig (n / 16 ^ 7)).
Definition of64 (n : N) : w64 :=
  L (dig (n / 16 ^ 0)) (dig (n / 16 ^ 1)) (dig (n / 16 ^ 2)) (dig (n / 16 ^ 3)) (dig (n / 16 ^ 4)) (dig (n / 16 ^ 5)) (dig (n / 16 ^ 6)) (dig (n / 16 ^ 7)) (dig (n / 16 ^ 8)) (dig (n / 16 ^ 9)) (dig (n / 16 ^ 10)) (dig (n / 16 ^ 11)) (dig (n / 16 ^ 12)) (dig (n / 16 ^ 13)) (dig (n / 16 ^ 14)) (dig (n / 16 ^ 15)).
Definition zero64 : w64 := L h0 h0 h0 h0 h0 h0 h0 h0 h0 h0 h0 h0 h0 h0 h0 h0.

(** ** What the tables are *)

Definition nv (a : nib) : N :=
  match a with h0 => 0 | h1 => 1 | h2 => 2 | h3 => 3 | h4 => 4 | h5 => 5 | h6 => 6 | h7 => 7 | h8 => 8 | h9 => 9 | ha => 10 | hb => 11 | hc => 12 | hd => 13 | he => 14 | hf => 15 end.
Definition v32 (x : w32) : N :=
  match x with W a0 a1 a2 a3 a4 a5 a6 a7 => 
    nv a0 + 16 * (nv a1 + 16 * (nv a2 + 16 * (nv a3 + 16 * (nv a4 + 16 * (nv a5 + 16 * (nv a6 + 16 * (nv a7))))))) end.
Definition v64 (x : w64) : N :=
  match x with L a0 a1 a2 a3 a4 a5 a6 a7 a8 a9 a10 a11 a12 a13 a14 a15 =>
    nv a0 + 16 * (nv a1 + 16 * (nv a2 + 16 * (nv a3 + 16 * (nv a4 + 16 * (nv a5 + 16 * (nv a6 + 16 * (nv a7 + 16 * (nv a8 + 16 * (nv a9 + 16 * (nv a10 + 16 * (nv a11 + 16 * (nv a12 + 16 * (nv a13 + 16 * (nv a14 + 16 * (nv a15))))))))))))))) end.

Lemma nib_tables a b :
  nv (nxor a b) = N.lxor (nv a) (nv b) /\
  nv (nand a b) = N.land (nv a) (nv b) /\
  nv (nandn a b) = N.land (15 - nv a) (nv b) /\
  nv (nsh1 a b) = N.shiftr (nv a + 16 * nv b) 1 mod 16 /\
  nv (nsh2 a b) = N.shiftr (nv a + 16 * nv b) 2 mod 16 /\
  nv (nsh3 a b) = N.shiftr (nv a + 16 * nv b) 3 mod 16 /\
  nv a + nv b = nv (fst (nadd0 a b)) + (if snd (nadd0 a b) then 16 else 0) /\
  nv a + nv b + 1 = nv (fst (nadd1 a b)) + (if snd (nadd1 a b) then 16 else 0) /\
  nb (nbyte a b) = 16 * nv a + nv b.
Proof. destruct a, b; repeat split; reflexivity. Qed.

Lemma byte_digits b : nbyte (nhi b) (nlo b) = b.
Proof. destruct b; reflexivity. Qed.

Lemma add32_is x y : v32 (add32 x y) = (v32 x + v32 y) mod 2 ^ 32.
Proof.
  assert (forall c a b, nv a + nv b + N.b2n c = nv (fst (nadd c a b)) + 16 * N.b2n (snd (nadd c a b))) as H.
  { intros c a b. destruct (nib_tables a b) as (_ & _ & _ & _ & _ & _ & H0 & H1 & _).
    destruct c; cbn [nadd]; [destruct (snd (nadd1 a b))|destruct (snd (nadd0 a b))]; cbn [N.b2n]; lia. }
  assert (forall a, nv a < 16) as HB by (intros []; reflexivity).
  destruct x as [a0 a1 a2 a3 a4 a5 a6 a7], y as [b0 b1 b2 b3 b4 b5 b6 b7]. unfold add32, v32.
  pose proof (H false a0 b0) as H0. change (nadd false a0 b0) with (nadd0 a0 b0) in H0. destruct (nadd0 a0 b0) as [s0 c0].
  pose proof (H c0 a1 b1) as H1. destruct (nadd c0 a1 b1) as [s1 c1].
  pose proof (H c1 a2 b2) as H2. destruct (nadd c1 a2 b2) as [s2 c2].
  pose proof (H c2 a3 b3) as H3. destruct (nadd c2 a3 b3) as [s3 c3].
  pose proof (H c3 a4 b4) as H4. destruct (nadd c3 a4 b4) as [s4 c4].
  pose proof (H c4 a5 b5) as H5. destruct (nadd c4 a5 b5) as [s5 c5].
  pose proof (H c5 a6 b6) as H6. destruct (nadd c5 a6 b6) as [s6 c6].
  pose proof (H c6 a7 b7) as H7. destruct (nadd c6 a7 b7) as [s7 c7].
  cbn [fst snd] in *. change (2 ^ 32) with 4294967296.
  apply N.mod_unique with (q := N.b2n c7).
  - pose proof (HB s0). pose proof (HB s1). pose proof (HB s2). pose proof (HB s3).
    pose proof (HB s4). pose proof (HB s5). pose proof (HB s6). pose proof (HB s7). lia.
  - change (N.b2n false) with 0 in H0. lia.
Qed.
