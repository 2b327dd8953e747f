(** Model of src/random.c (the Unix branch, lines 51-67), of src/cleanse.c and
    of the part of src/error.c a caller can observe (it never returns). *)
From Verif Require Import Base M_Endian.

(** The operating system as random.c sees it.  [os_open]: open("/dev/urandom")
    returns a descriptor (random.c:55).  [os_read i n]: what the [i]-th read()
    for [n] bytes does: [Some data] when it stored [data] and returned its
    length, [None] when it returned 0 or less.  A call's answer may depend on
    anything in its past, so an arbitrary function of the call number covers
    every schedule. *)
Record os := { os_open : bool; os_read : nat -> nat -> option (list Z) }.

(** How a call that may not return can end.  [Fatal]: fingera_fatal was
    called, which prints a message and calls exit(-1) (error.c:15-47), so the caller
    does not continue.  [Running]: the fuel of the model ran out. *)
Inductive outcome (A : Type) : Type := Returned (a : A) | Fatal | Running.
Arguments Returned {A} a.
Arguments Fatal {A}.
Arguments Running {A}.

(** Conversion of the ssize_t result of read to [int] (random.c:60); gcc and
    clang keep the low 32 bits. *)
Definition ssize_to_int (x : Z) : Z := (x + 2 ^ 31) mod 2 ^ 32 - 2 ^ 31.

(** random.c:59-65.  [mem] is the memory [buf] points to; [buf] itself is never
    advanced by the loop.  [i] counts the calls of read. *)
Fixpoint rand_loop (fuel : nat) (o : os) (i : nat) (mem : list Z) (buf_size : nat) : res (outcome (list Z)) :=
  if (buf_size =? 0)%nat then Ok (Returned mem) else
  match fuel with
  | O => Ok Running
  | S fuel' =>
      match os_read o i buf_size with
      | None => Ok Fatal
      | Some data =>
          mem <- store mem 0 data ;;
          let r := ssize_to_int (Z.of_nat (length data)) in
          if r <=? 0 then Ok Fatal
          else rand_loop fuel' o (S i) mem (Z.to_nat (u64 (Z.of_nat buf_size - r)))
      end
  end.

(** random.c:54-67 [fingera_os_rand_bytes(buf, buf_size)]; close() is not modelled. *)
Definition os_rand_bytes (fuel : nat) (o : os) (mem : list Z) (buf_size : nat) : res (outcome (list Z)) :=
  if negb (os_open o) then Ok Fatal else rand_loop fuel o 0 mem buf_size.

(** cleanse.c:8-14 [fingera_cleanse(mem + off, size)] with a non-MSVC compiler:
    memset(…, 0xCC, size); the empty asm statement only keeps the compiler from
    dropping the memset. *)
Definition cleanse (mem : list Z) (off size : nat) : res (list Z) :=
  store mem off (repeat 204 size).
