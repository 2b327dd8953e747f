(** Model of src/btc/base58_check.c and include/fingera_libc/btc/base58_check.h. *)
From Verif Require Import Base M_Endian M_Base58 M_Hash.

(** btc/base58_check.h:25-29 [fingera_to_base58_check_length] *)
Definition to_base58_check_length (buf_size prefix_size : nat) : nat :=
  to_base58_length (buf_size + 4 + prefix_size).
(** btc/base58_check.h:38-41 [fingera_from_base58_check_length] *)
Definition from_base58_check_length (str_len : nat) : nat := from_base58_length str_len.

(** btc/base58_check.c:10-31: return value and characters written.  [buf] and
    [prefix] are exactly the bytes passed (so buf_size and prefix_size are their
    lengths); malloc (sl/buffer.h:21) is assumed to succeed; the sizes are assumed not to wrap. *)
Definition to_base58_check (buf prefix : list Z) : res (nat * list Z) :=
  let size_of_data := (length buf + length prefix)%nat in
  let size_of_all := (size_of_data + 4)%nat in
  let buffer := uninit size_of_all in
  buffer <- store buffer 0 prefix ;;
  buffer <- store buffer (length prefix) buf ;;
  window <- slice buffer 0 size_of_data ;;   (* the bytes the callee may read *)
  hash <- btc_hash256 window size_of_data ;;
  h4 <- slice hash 0 4 ;;
  buffer <- store buffer size_of_data h4 ;;
  to_base58 buffer.

(** [memcmp(a, b, n) == 0] for lists of equal length *)
(** src/btc/base58_check.c:38 (also address.c:106,151,157, exkey.c:112,150, key.c:395) *)
Fixpoint bytes_eqb (a b : list Z) : bool :=
  match a, b with
  | [], [] => true
  | x :: a', y :: b' => (x =? y) && bytes_eqb a' b'
  | _, _ => false
  end.

(** btc/base58_check.c:33-40: return value and the bytes written to [buf]
    (which, as in [from_base58], are written whatever the capacity of [buf]). *)
Definition from_base58_check (str : list Z) (str_len : nat) : res (nat * list Z) :=
  '(buf_size, buf) <- from_base58 str str_len ;;
  if (buf_size <? 4)%nat then Ok (O, buf)
  else
    window <- slice buf 0 (buf_size - 4) ;;
    hash <- btc_hash256 window (buf_size - 4) ;;
    h4 <- slice hash 0 4 ;;
    c4 <- slice buf (buf_size - 4) 4 ;;
    if negb (bytes_eqb h4 c4) then Ok (O, buf)
    else Ok ((buf_size - 4)%nat, buf).
