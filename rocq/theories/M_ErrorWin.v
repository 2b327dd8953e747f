(** Model of src/error.c with its WIN32 parts, and of the Windows branches of src/random.c with what they print,
    in place of the bare [Fatal] of M_Sys. *)
From Verif Require Import Base M_Endian M_Random M_Sys M_Error.
From Coq Require Import String.
Open Scope Z_scope.
Open Scope list_scope.

(** What error.c asks Windows and its C library for.  [w_errno i], [w_last i]: what errno and GetLastError() are at
    moment [i]; every call into the C library may change both.  [w_message]: the text FormatMessageA allocates for an
    error code, [None] when it has none (it then returns 0 and leaves the pointer alone). *)
Record win_env := { w_strerror : Z -> list Z; w_message : Z -> option (list Z); w_errno : nat -> Z; w_last : nat -> Z }.

(** The digits of [n >= 0] to base 16 in lower case, most significant first, in front of [acc].  Part of printf. *)
Fixpoint hex_digits (fuel : nat) (n : Z) (acc : list Z) : list Z :=
  match fuel with
  | O => acc
  | S fuel' =>
      let d := n mod 16 in
      let acc := (if d <? 10 then 48 + d else 87 + d) :: acc in
      if n / 16 =? 0 then acc else hex_digits fuel' (n / 16) acc
  end.

(** printf("%08lx", n) for a 32-bit unsigned long: filled up with zeros on the left to 8 characters. *)
Definition print_08lx (n : Z) : list Z :=
  let ds := hex_digits 8 n [] in repeat 48 (8 - List.length ds) ++ ds.

(** exit(status) on Windows: the parent sees all 32 bits. *)
Definition exit_code (status : Z) : Z := u32 status.

(** error.c:15-47 [fingera_fatal(func, file, line, msg, ...)] with WIN32 defined.  errno and the last error are read
    at moments 0 and 1 (error.c:17,19), before anything else is called.  error.c:40 prints through the pointer
    FormatMessageA was to set: undefined when it did not set it.  The text of that call is written out (its format is
    outside [c_printf]).  Writes to stderr are taken to succeed. *)
Definition fatal_win {A} (w : win_env) (func file : list Z) (line : Z) (msg : list Z) (args : list c_arg) : res (ending A) :=
  let err := w_errno w 0 in
  let win_err := w_last w 1 in
  t1 <- c_printf (lit "FATAL ") [] ;;
  t2 <- c_printf msg args ;;
  t3 <- c_printf (lit " (%s)(%s:%ld)" ++ [10]) [AStr func; AStr file; ALong line] ;;
  t4 <- (if negb (err =? 0) then c_printf (9 :: lit "%s(%d)" ++ [10]) [AStr (w_strerror w err); AInt err] else Ok []) ;;
  t5 <- (if negb (win_err =? 0) then
           msg_buffer <- match w_message w win_err with Some m => Ok m | None => UB end ;;
           Ok (9 :: msg_buffer ++ lit " ErrorCode(" ++ print_08lx win_err ++ lit ")" ++ [10])
         else Ok []) ;;
  Ok (Dead (t1 ++ t2 ++ t3 ++ t4 ++ t5) (exit_code (-1))).

(** random.c:18-26,37-43: errno, the last error and the returned status when the first and when the second call has failed. *)
Record win_fail := { open_env : win_env; gen_env : win_env; open_ret : Z; gen_ret : Z }.

(** random.c:21,25: the [(unsigned int)ret] passed for %lu.  [alike]: an unsigned int is passed the way an unsigned long is
    (both have 32 bits with Microsoft's compiler); the C standard promises nothing of the kind. *)
Definition ulong_arg (alike : bool) (n : Z) : c_arg := if alike then AULong n else AUInt n.

(** random.c:16-28 (Windows Vista and later) *)
Definition os_rand_bcrypt_x (alike : bool) (file : list Z) (f : win_fail) (w : win) (h : held) (mem : list Z) (buf_size : nat) : res (ending (list Z * held)) :=
  match win_open w with
  | None => fatal_win (open_env f) (lit "fingera_os_rand_bytes") file 21 (lit "BCryptOpenAlgorithmProvider %lu") [ulong_arg alike (u32 (open_ret f))]
  | Some hProvider =>
      let h := hProvider :: h in
      _ <- use h hProvider ;;
      match win_gen w hProvider (to_ulong buf_size) with
      | None => fatal_win (gen_env f) (lit "fingera_os_rand_bytes") file 25 (lit "BCryptGenRandom %lu") [ulong_arg alike (u32 (gen_ret f))]
      | Some data =>
          mem <- store mem 0 data ;;
          h <- release h hProvider ;;
          Ok (Back (mem, h))
      end
  end.

(** random.c:35-45 (before Windows Vista, and MinGW) *)
Definition os_rand_wincrypt_x (file : list Z) (f : win_fail) (w : win) (h : held) (mem : list Z) (buf_size : nat) : res (ending (list Z * held)) :=
  match win_open w with
  | None => fatal_win (open_env f) (lit "fingera_os_rand_bytes") file 39 (lit "CryptAcquireContextW") []
  | Some hProvider =>
      let h := hProvider :: h in
      _ <- use h hProvider ;;
      match win_gen w hProvider (to_ulong buf_size) with
      | None => fatal_win (gen_env f) (lit "fingera_os_rand_bytes") file 42 (lit "CryptGenRandom") []
      | Some data =>
          mem <- store mem 0 data ;;
          h <- release h hProvider ;;
          Ok (Back (mem, h))
      end
  end.
