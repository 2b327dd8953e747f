(** Model of src/error.c (the process' last words) and of src/random.c with what
    it prints, in place of the bare [Fatal] of M_Random. *)
From Verif Require Import Base M_Endian M_Random.
From Coq Require Import String Ascii.
Open Scope Z_scope.
Open Scope list_scope.

(** The bytes of a C string literal, without the final NUL. *)
Definition lit (s : string) : list Z := map (fun c => Z.of_nat (nat_of_ascii c)) (list_ascii_of_string s).

(** An argument of a printf call, with the type it is passed as. *)
Inductive c_arg := AInt (n : Z) | AUInt (n : Z) | ALong (n : Z) | AULong (n : Z) | AStr (s : list Z).

(** Decimal digits of [n >= 0], most significant first, in front of [acc];
    [fuel] bounds their number.  Part of printf. *)
Fixpoint dec_digits (fuel : nat) (n : Z) (acc : list Z) : list Z :=
  match fuel with
  | O => acc
  | S fuel' => let acc := (48 + n mod 10) :: acc in if n / 10 =? 0 then acc else dec_digits fuel' (n / 10) acc
  end.

(** printf of an integer of at most 64 bits in decimal. *)
Definition print_dec (n : Z) : list Z :=
  if n <? 0 then 45 :: dec_digits 20 (- n) [] else dec_digits 20 n [].

(** printf / vfprintf for the conversions the library uses: %d %ld %lu %s %%.  An
    argument that is missing or has another type than the conversion asks for is
    undefined behaviour (C11 7.21.6.1p9); arguments left over are ignored (p2);
    any other conversion is outside the model and counts as undefined too. *)
Fixpoint c_printf (fmt : list Z) (args : list c_arg) : res (list Z) :=
  match fmt with
  | [] => Ok []
  | 37 :: 37 :: rest => t <- c_printf rest args ;; Ok (37 :: t)                                  (* %% *)
  | 37 :: 100 :: rest => match args with AInt n :: args => t <- c_printf rest args ;; Ok (print_dec n ++ t) | _ => UB end       (* %d *)
  | 37 :: 115 :: rest => match args with AStr s :: args => t <- c_printf rest args ;; Ok (s ++ t) | _ => UB end                 (* %s *)
  | 37 :: 108 :: 100 :: rest => match args with ALong n :: args => t <- c_printf rest args ;; Ok (print_dec n ++ t) | _ => UB end  (* %ld *)
  | 37 :: 108 :: 117 :: rest => match args with AULong n :: args => t <- c_printf rest args ;; Ok (print_dec n ++ t) | _ => UB end (* %lu *)
  | 37 :: _ => UB
  | c :: rest => t <- c_printf rest args ;; Ok (c :: t)
  end.

(** How a call can end when it may take the process down: it returns, or the
    process is over, with what was written to stderr and the exit status the
    parent sees.  [Goes_on]: the fuel of the model ran out. *)
Inductive ending (A : Type) : Type := Back (a : A) | Dead (stderr : list Z) (status : Z) | Goes_on.
Arguments Back {A} a.
Arguments Dead {A} stderr status.
Arguments Goes_on {A}.

(** exit(status): the parent sees the low 8 bits. *)
Definition exit_status (status : Z) : Z := status mod 256.

(** error.c:15-47 [fingera_fatal(func, file, line, msg, ...)] without the WIN32
    parts (those: M_ErrorWin.fatal_win); [errno] is the value on entry (error.c:17), [strerror] the libc's table of
    messages.  Writes to stderr are taken to succeed. *)
Definition fatal {A} (strerror : Z -> list Z) (errno : Z) (func file : list Z) (line : Z) (msg : list Z) (args : list c_arg) : res (ending A) :=
  let err := errno in
  t1 <- c_printf (lit "FATAL ") [] ;;
  t2 <- c_printf msg args ;;
  t3 <- c_printf (lit " (%s)(%s:%ld)" ++ [10]) [AStr func; AStr file; ALong line] ;;
  t4 <- (if negb (err =? 0) then c_printf (9 :: lit "%s(%d)" ++ [10]) [AStr (strerror err); AInt err] else Ok []) ;;
  Ok (Dead (t1 ++ t2 ++ t3 ++ t4) (exit_status (-1))).

(** What a system call read() does: stores data and returns its length, returns 0,
    or returns -1 and sets errno. *)
Inductive read_result := RData (data : list Z) | REof | RErr (errno : Z).

(** The operating system as random.c sees it, with the reasons for failures.
    [s_open]: the errno with which open() fails, if it does. *)
Record sys := { s_open : option Z; s_read : nat -> nat -> read_result }.

Section Rand.
Variable strerror : Z -> list Z.
Variable file : list Z. (* __FILE__ *)

(** random.c:59-65; [errno] is the value errno has so far (a call that succeeds,
    or returns 0, leaves it alone, as glibc's do; POSIX lets a successful call change it). *)
Fixpoint rand_loop_x (fuel : nat) (o : sys) (i : nat) (errno : Z) (mem : list Z) (buf_size : nat) : res (ending (list Z)) :=
  if (buf_size =? 0)%nat then Ok (Back mem) else
  match fuel with
  | O => Ok Goes_on
  | S fuel' =>
      '(mem, errno, r) <- match s_read o i buf_size with
                          | RData data => mem <- store mem 0 data ;; Ok (mem, errno, ssize_to_int (Z.of_nat (List.length data)))
                          | REof => Ok (mem, errno, ssize_to_int 0)
                          | RErr e => Ok (mem, e, ssize_to_int (-1))
                          end ;;
      if r <=? 0 then fatal strerror errno (lit "fingera_os_rand_bytes") file 62 (lit "read /dev/urandom %d") [AInt r]
      else rand_loop_x fuel' o (S i) errno mem (Z.to_nat (u64 (Z.of_nat buf_size - r)))
  end.

(** random.c:54-67 [fingera_os_rand_bytes(buf, buf_size)]; [fds] is the number of
    descriptors the process has open, which open() raises and close() lowers. *)
Definition os_rand_bytes_x (fuel : nat) (o : sys) (errno : Z) (fds : nat) (mem : list Z) (buf_size : nat) : res (ending (list Z * nat)) :=
  match s_open o with
  | Some e => fatal strerror e (lit "fingera_os_rand_bytes") file 57 (lit "open /dev/urandom") []
  | None =>
      let fds := S fds in
      x <- rand_loop_x fuel o 0 errno mem buf_size ;;
      match x with
      | Back mem => Ok (Back (mem, pred fds))
      | Dead t s => Ok (Dead t s)
      | Goes_on => Ok Goes_on
      end
  end.
End Rand.

(** random.c:20-22 and 24-26, Windows: the error exits when the provider does not
    open and when it delivers nothing.  [ret] is passed as an unsigned int.  (With
    the WIN32 part of error.c: M_ErrorWin.) *)
Definition win_open_failed (strerror : Z -> list Z) (errno : Z) (file : list Z) (ret : Z) : res (ending unit) :=
  fatal strerror errno (lit "fingera_os_rand_bytes") file 21 (lit "BCryptOpenAlgorithmProvider %lu") [AUInt (u32 ret)].
Definition win_gen_failed (strerror : Z -> list Z) (errno : Z) (file : list Z) (ret : Z) : res (ending unit) :=
  fatal strerror errno (lit "fingera_os_rand_bytes") file 25 (lit "BCryptGenRandom %lu") [AUInt (u32 ret)].
