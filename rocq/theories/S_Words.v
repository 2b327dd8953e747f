(** Specification vocabulary: words of [w] bits, byte order, Merkle-Damgard
    padding and the fold over blocks.  No reference to the models. *)
From Verif Require Import Base.

(** The integer denoted by bytes, most significant first / least significant first. *)
Definition be_val (l : list Z) : Z := fold_left (fun a b => a * 256 + b) l 0.
Definition le_val (l : list Z) : Z := be_val (rev l).

(** The [n] bytes of an integer, least significant first / most significant first. *)
Fixpoint le_bytes (n : nat) (v : Z) : list Z :=
  match n with O => [] | S n' => v mod 256 :: le_bytes n' (v / 256) end.
Definition be_bytes (n : nat) (v : Z) : list Z := rev (le_bytes n v).

(** Cut a list into consecutive pieces of [k] elements (all full when [k] divides the length). *)
Fixpoint chunks_fuel {A} (fuel k : nat) (l : list A) : list (list A) :=
  match fuel with
  | O => []
  | S f => match l with [] => [] | _ => firstn k l :: chunks_fuel f k (skipn k l) end
  end.
Definition chunks {A} (k : nat) (l : list A) : list (list A) := chunks_fuel (length l) k l.

(** Bitwise rotations and shift of a [w]-bit word. *)
Definition rotr (w n x : Z) : Z := Z.lor (Z.shiftr x n) (Z.shiftl x (w - n) mod 2 ^ w).
Definition rotl (w n x : Z) : Z := Z.lor (Z.shiftl x n mod 2 ^ w) (Z.shiftr x (w - n)).
Definition shr (n x : Z) : Z := Z.shiftr x n.
(** Complement of a [w]-bit word. *)
Definition compl (w x : Z) : Z := Z.lxor x (2 ^ w - 1).

(** Padding with a one bit, the least number of zero bits, and the message
    length, so that the total is a multiple of [blk] bytes: [lenf] is the byte
    string of the length field. *)
Definition md_pad (blk : nat) (lenf : list Z) (n : nat) : list Z :=
  [128] ++ repeat 0 (Z.to_nat ((- (Z.of_nat n + 1 + Z.of_nat (length lenf))) mod Z.of_nat blk)) ++ lenf.

(** The integer part of the [k]-th root of [n], for roots below 2^100. *)
Definition iroot (k n : Z) : Z :=
  fold_left (fun r i => if (r + 2 ^ i) ^ k <=? n then r + 2 ^ i else r)
            (rev (map Z.of_nat (seq 0 100))) 0.

(** The first [n] primes. *)
Definition primeb (p : Z) : bool :=
  (2 <=? p) && forallb (fun d => negb (p mod d =? 0)) (map Z.of_nat (seq 2 (Z.to_nat p - 2))).
Definition first_primes (n : nat) : list Z := firstn n (filter primeb (map Z.of_nat (seq 0 420))).

(** The first [w] bits of the fractional part of the [k]-th root of [p]. *)
Definition frac_root (w k p : Z) : Z := iroot k (p * 2 ^ (k * w)) mod 2 ^ w.
