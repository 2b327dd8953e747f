(** src/random.c with the descriptors and handles a process holds, and its two Windows branches; src/cleanse.c with MSVC. *)
From Verif Require Import Base M_Endian M_Random.

(** What a process holds: open descriptors, or handles of cryptographic providers. *)
(** random.c:17,36,55 *)
Definition held := list Z.

(** Using a descriptor or handle that is not open is an error in the program. *)
(** random.c:23,27,41,44,60,66 *)
Definition use (h : held) (fd : Z) : res unit := c_defined (existsb (Z.eqb fd) h).
(** close(fd), BCryptCloseAlgorithmProvider, CryptReleaseContext (random.c:27,44,66) *)
Definition release (h : held) (fd : Z) : res held :=
  _ <- use h fd ;; Ok (filter (fun x => negb (x =? fd)) h).

(** random.c:59-65: M_Random.rand_loop with the descriptor that is read *)
Fixpoint rand_loop_fd (fuel : nat) (o : os) (h : held) (fd : Z) (i : nat) (mem : list Z) (buf_size : nat) : res (outcome (list Z)) :=
  if (buf_size =? 0)%nat then Ok (Returned mem) else
  match fuel with
  | O => Ok Running
  | S fuel' =>
      _ <- use h fd ;;
      match os_read o i buf_size with
      | None => Ok Fatal
      | Some data =>
          mem <- store mem 0 data ;;
          let r := ssize_to_int (Z.of_nat (length data)) in
          if r <=? 0 then Ok Fatal
          else rand_loop_fd fuel' o h fd (S i) mem (Z.to_nat (u64 (Z.of_nat buf_size - r)))
      end
  end.

(** random.c:54-67; [fd] is the descriptor open() returns when it succeeds *)
Definition os_rand_unix (fuel : nat) (o : os) (fd : Z) (h : held) (mem : list Z) (buf_size : nat) : res (outcome (list Z * held)) :=
  if negb (os_open o) then Ok Fatal
  else
    let h := fd :: h in
    r <- rand_loop_fd fuel o h fd 0 mem buf_size ;;
    match r with
    | Returned mem => h <- release h fd ;; Ok (Returned (mem, h))
    | Fatal => Ok Fatal
    | Running => Ok Running
    end.

(** Windows.  [win_open]: the handle BCryptOpenAlgorithmProvider or CryptAcquireContextW delivers, [None] when it fails;
    [win_gen h n]: what BCryptGenRandom or CryptGenRandom for [n] bytes stores, [None] when it fails. *)
(** random.c:18-23,37-41 *)
Record win := { win_open : option Z; win_gen : Z -> nat -> option (list Z) }.

(** Conversion of a size_t to ULONG, DWORD (32 bits): random.c:23 implicitly, random.c:41 by a cast *)
Definition to_ulong (n : nat) : nat := Z.to_nat (Z.of_nat n mod 2 ^ 32).

(** random.c:16-28 (Windows Vista and later) *)
Definition os_rand_bcrypt (w : win) (h : held) (mem : list Z) (buf_size : nat) : res (outcome (list Z * held)) :=
  match win_open w with
  | None => Ok Fatal
  | Some hProvider =>
      let h := hProvider :: h in
      _ <- use h hProvider ;;
      match win_gen w hProvider (to_ulong buf_size) with
      | None => Ok Fatal
      | Some data =>
          mem <- store mem 0 data ;;
          h <- release h hProvider ;;
          Ok (Returned (mem, h))
      end
  end.

(** random.c:35-45 (before Windows Vista, and MinGW) *)
Definition os_rand_wincrypt (w : win) (h : held) (mem : list Z) (buf_size : nat) : res (outcome (list Z * held)) :=
  match win_open w with
  | None => Ok Fatal
  | Some hProvider =>
      let h := hProvider :: h in
      _ <- use h hProvider ;;
      match win_gen w hProvider (to_ulong buf_size) with
      | None => Ok Fatal
      | Some data =>
          mem <- store mem 0 data ;;
          h <- release h hProvider ;;
          Ok (Returned (mem, h))
      end
  end.

(** cleanse.c:8-11 with MSVC: memset, then SecureZeroMemory *)
Definition cleanse_msvc (mem : list Z) (off size : nat) : res (list Z) :=
  mem <- store mem off (repeat 204 size) ;;
  store mem off (repeat 0 size).
