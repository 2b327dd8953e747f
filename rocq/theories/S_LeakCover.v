(** Specification for C141: which bytes a run reads and writes. *)
From Verif Require Import Base M_Leak.

(** Byte number [i] of the buffer at [p] is read resp. written somewhere in the run. *)
Definition reads (t : list obs) (p : ptr) (i : nat) : Prop :=
  Exists (fun e => match e with Read o off k => o = fst p /\ (off <= snd p + i < off + k)%nat | _ => False end) t.
Definition writes (t : list obs) (p : ptr) (i : nat) : Prop :=
  Exists (fun e => match e with Write o off k => o = fst p /\ (off <= snd p + i < off + k)%nat | _ => False end) t.

(** Of the object [o], exactly the [n] bytes from [a] on are read resp. written. *)
Definition exact_reads (t : list obs) (o : object) (a n : nat) : Prop := forall k, reads t (o, 0%nat) k <-> (a <= k < a + n)%nat.
Definition exact_writes (t : list obs) (o : object) (a n : nat) : Prop := forall k, writes t (o, 0%nat) k <-> (a <= k < a + n)%nat.
