(** Memory after the bytes [bs] were written at address [a]. *)
From Verif Require Import Base.

Definition written (mem : list Z) (a : nat) (bs : list Z) : list Z :=
  firstn a mem ++ bs ++ skipn (a + length bs) mem.

(** The bytes [a, a+n) of a memory. *)
Definition region (mem : list Z) (a n : nat) : list Z := firstn n (skipn a mem).

(** The regions [a, a+n) and [b, b+m) do not overlap. *)
Definition disjoint (a n b m : nat) : Prop := (a + n <= b \/ b + m <= a)%nat.
