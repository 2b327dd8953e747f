(** Specification of the variable length integers.  An encoding is a string of 7-bit
    digits, most significant first; bit 7 of a byte says that more bytes
    follow.  Strings are numbered in length-then-lexicographic order, so a string
    of k digits denotes its base 128 value plus the number of shorter strings. *)
From Verif Require Import Base.

Definition continues (b : Z) : Prop := 128 <= b < 256.
Definition ends (b : Z) : Prop := 0 <= b < 128.

(** A complete encoding: continuation bytes followed by one end byte. *)
Definition varint_string (l : list Z) : Prop :=
  exists p b, l = p ++ [b] /\ Forall continues p /\ ends b.

(** Number of non-empty digit strings of length at most [k]: 128 + 128^2 + ... + 128^k. *)
Fixpoint strings_upto (k : nat) : Z :=
  match k with O => 0 | S k' => strings_upto k' + 128 ^ Z.of_nat k end.

(** Base 128 value of the digits. *)
Definition digits_value (l : list Z) : Z := fold_left (fun a b => 128 * a + b mod 128) l 0.

Definition varint_value (l : list Z) : Z :=
  digits_value l + strings_upto (length l - 1).
