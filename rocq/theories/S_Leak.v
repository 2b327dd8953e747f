(** Specification for C136, C137: what an observer learns from a run. *)
From Verif Require Import Base S_Base58 M_Leak.

(** The observations of a run, without its result. *)
Definition trace {A} (x : lk A) : list obs := fst x.
(** Its outcome. *)
Definition outcome {A} (x : lk A) : res A := snd x.

(** What a spy writes down who knows the Base58 alphabet and sees which entries of the
    encoding table are read: one character per read, at the position that was read. *)
Definition spy_base58 (t : list obs) : list Z :=
  flat_map (fun o => match o with Read Base58Table d 1 => [b58_char (Z.of_nat d)] | _ => [] end) t.

(** The same for hex: the positions are the half bytes. *)
Definition spy_hex (t : list obs) : list Z :=
  flat_map (fun o => match o with Read HexTable d 1 => [Z.of_nat d] | _ => [] end) t.
(** Half bytes, high one first. *)
Fixpoint nibbles (buf : list Z) : list Z :=
  match buf with [] => [] | b :: r => b / 16 :: b mod 16 :: nibbles r end.
