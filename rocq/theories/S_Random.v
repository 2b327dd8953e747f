(** What POSIX promises about read() on /dev/urandom. *)
From Verif Require Import Base M_Random.

(** A successful read delivers between 1 and the requested number of bytes (and
    never more than an [int] can count: Linux stops at 0x7ffff000). *)
Definition read_contract (o : os) : Prop :=
  forall i n data, os_read o i n = Some data ->
    (1 <= length data <= n)%nat /\ Z.of_nat (length data) <= INT_MAX.

(** The sequence of reads a caller that wants [n] bytes performs from call [i]
    on, each time asking for what is still missing. *)
Inductive reads (o : os) : nat -> nat -> list (list Z) -> Prop :=
| reads_done i : reads o i 0 []
| reads_step i n data more : (0 < n)%nat -> os_read o i n = Some data ->
    reads o (S i) (n - length data) more -> reads o i n (data :: more).

(** Some read of that sequence fails. *)
Inductive read_fails (o : os) : nat -> nat -> Prop :=
| fails_now i n : (0 < n)%nat -> os_read o i n = None -> read_fails o i n
| fails_later i n data : (0 < n)%nat -> os_read o i n = Some data ->
    read_fails o (S i) (n - length data) -> read_fails o i n.
