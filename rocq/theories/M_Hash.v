(** Model of src/btc/hash.c. *)
From Verif Require Import Base M_Endian M_Sha2 M_Ripemd.

(** An uninitialised automatic array of [n] bytes: its contents are the
    non-byte -1000, so nothing can be proved about a byte that was not written. *)
(** e.g. src/btc/hash.c:9,15,44, base58_check.c:18 *)
Definition uninit (n : nat) : list Z := repeat (-1000) n.

(** btc/hash.c:8-12 *)
Definition btc_hash160 (msg : list Z) (msg_len : nat) : res (list Z) :=
  sha2_digest <- sha2_256 msg msg_len ;;
  ripemd160 sha2_digest 32.

(** btc/hash.c:14-18 *)
Definition btc_hash256 (msg : list Z) (msg_len : nat) : res (list Z) :=
  sha2_digest <- sha2_256 msg msg_len ;;
  sha2_256 sha2_digest 32.

(** btc/hash.c:23-31.  [mem] is the memory that holds both buffers, [out] and
    [inp] are the addresses of the two pointers in it (they may be equal). *)
Fixpoint btc_hash256_d64 (mem : list Z) (out inp blocks : nat) : res (list Z) :=
  match blocks with
  | O => Ok mem
  | S blocks' =>
      d <- hash256_d64_transform (skipn inp mem) ;;
      mem <- store mem out d ;;
      btc_hash256_d64 mem (out + 32) (inp + 64) blocks'
  end.

(** btc/hash.c:42-53.  The cleansing of the local buffer (line 52) is not modelled here. *)
Definition btc_bip32_hash (chain_code : list Z) (child header : Z) (data32 : list Z) : res (list Z) :=
  let buffer := uninit (1 + 32 + 4) in
  buffer <- store buffer 0 [u8 header] ;;
  d <- slice data32 0 32 ;;
  buffer <- store buffer 1 d ;;
  tl <- write_big_32 (skipn 33 buffer) child ;;
  let buffer := firstn 33 buffer ++ tl in
  hmac_sha512 chain_code 32 buffer 37.
