(** Specification vocabulary: bit strings.  Big-endian, most significant first. *)
From Verif Require Import Base.

(** The [k] low bits of [x], most significant first. *)
Fixpoint bits (k : nat) (x : Z) : list bool :=
  match k with
  | O => []
  | S k' => Z.testbit x (Z.of_nat k') :: bits k' x
  end.

(** The integer a bit string denotes. *)
Fixpoint bits_val (l : list bool) : Z :=
  match l with
  | [] => 0
  | b :: t => Z.b2z b * 2 ^ Z.of_nat (length t) + bits_val t
  end.

(** The bit string of a list of [k]-bit values. *)
Definition bit_string (k : nat) (l : list Z) : list bool := concat (map (bits k) l).

(** Cut a bit string into groups of [k] bits (k > 0); a last, shorter group is
    completed with zero bits. [fuel] is any bound on the number of groups. *)
Fixpoint groups_pad (fuel k : nat) (l : list bool) : list (list bool) :=
  match fuel with
  | O => []
  | S f =>
      match l with
      | [] => []
      | _ => firstn k (l ++ repeat false k) :: groups_pad f k (skipn k l)
      end
  end.

(** Cut into groups of exactly [k] bits; a last, shorter group is dropped. *)
Fixpoint groups_full (fuel k : nat) (l : list bool) : list (list bool) :=
  match fuel with
  | O => []
  | S f => if (k <=? length l)%nat then firstn k l :: groups_full f k (skipn k l) else []
  end.

(** Regroup the bits of a buffer of bytes into [k]-bit values, zero padding the last. *)
Definition regroup_pad (k : nat) (buf : list Z) : list Z :=
  let b := bit_string 8 buf in map bits_val (groups_pad (length b) k b).

(** Regroup the bits of [k]-bit values into bytes, dropping an incomplete last byte. *)
Definition regroup_bytes (k : nat) (vals : list Z) : list Z :=
  let b := bit_string k vals in map bits_val (groups_full (length b) 8 b).

(** The bits of the values that do not fill a byte. *)
Definition spare_bits (k : nat) (vs : list Z) : list bool :=
  skipn (8 * (k * length vs / 8)) (bit_string k vs).
