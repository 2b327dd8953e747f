(** Memory level models of the rest of src/btc/exkey.c (structures in memory, layout of M_Overlap) and of src/btc/key.c (DER, public
    keys, signatures): input and output live in one memory, loads and stores happen at their addresses and in program order, so that
    overlapping buffers are covered.  (M_Exkey and M_Key describe the same functions by values.) *)
From Verif Require Import Base M_Endian M_Sha2 M_Hash M_Base58 M_Base58Check M_Address M_Mem M_Scratch M_Random M_Secp M_Key M_Exkey M_Overlap M_MemBtc.

(* ---------------------------------------------------------------- *)
(** ** Extended keys *)

(** A uint32_t member of a structure, little endian host (exkey.c:63,64) *)
Definition get32 (mem : list Z) (a : nat) : res Z := bs <- slice mem a 4 ;; Ok (host_val bs).

(** exkey.c:10-22; the members are written in the order of the source *)
Definition exkey_init_at (mem : list Z) (key seed len : nat) : res (list Z) :=
  out <- hmac_sha512 hashkey 12 (skipn seed mem) len ;;
  mem <- store mem (key + o_depth) [0] ;;
  mem <- put32 mem (key + o_child) 0 ;;
  mem <- put32 mem (key + o_fingerprint) 0 ;;
  k <- slice out 0 32 ;;
  mem <- store mem (key + o_key) k ;;
  c <- slice out 32 32 ;;
  store mem (key + o_chain) c.

(** exkey.c:59-66 *)
Definition write_key_extension_at (rule : copy_rule) (mem : list Z) (ext code : nat) : res (list Z) :=
  d <- rd mem (ext + o_depth) ;;
  mem <- store mem code [u8 d] ;;
  f <- get32 mem (ext + o_fingerprint) ;;
  mem <- store mem (code + 1) (host_bytes 4 (htole32 f)) ;;
  c <- get32 mem (ext + o_child) ;;
  mem <- store mem (code + 5) (host_bytes 4 (htobe32 c)) ;;
  memcpy_at rule mem (code + 9) (ext + o_chain) 32.

(** exkey.c:68-75 *)
Definition read_key_extension_at (rule : copy_rule) (mem : list Z) (code ext : nat) : res (list Z) :=
  d <- rd mem code ;;
  mem <- store mem (ext + o_depth) [d] ;;
  f <- read_little_32 (skipn (code + 1) mem) ;;
  mem <- put32 mem (ext + o_fingerprint) f ;;
  c <- read_big_32 (skipn (code + 5) mem) ;;
  mem <- put32 mem (ext + o_child) c ;;
  memcpy_at rule mem (ext + o_chain) (code + 9) 32.

(** exkey.c:77-82 *)
Definition exkey_encode_at (rule : copy_rule) (mem : list Z) (key code : nat) : res (list Z) :=
  mem <- write_key_extension_at rule mem key code ;;
  mem <- store mem (code + 41) [0] ;;
  memcpy_at rule mem (code + 42) (key + o_key) 32.
(** exkey.c:84-88 *)
Definition exkey_decode_at (rule : copy_rule) (mem : list Z) (code key : nat) : res (list Z) :=
  mem <- read_key_extension_at rule mem code key ;;
  memcpy_at rule mem (key + o_key) (code + 42) 32.
(** exkey.c:118-122 *)
Definition expubkey_encode_at (rule : copy_rule) (mem : list Z) (pubkey code : nat) : res (list Z) :=
  mem <- write_key_extension_at rule mem pubkey code ;;
  memcpy_at rule mem (code + 41) (pubkey + o_key) 33.
(** exkey.c:124-128 *)
Definition expubkey_decode_at (rule : copy_rule) (mem : list Z) (code pubkey : nat) : res (list Z) :=
  mem <- read_key_extension_at rule mem code pubkey ;;
  memcpy_at rule mem (pubkey + o_key) (code + 41) 33.

(** The memory of a world replaced *)
(** src/btc/exkey.c:93,113,133,151 (the calls that write memory) *)
Definition with_mem (w : world) (mem : list Z) : world := mkWorld mem (w_blocks w) (w_next w) (w_dead w).

(** exkey.c:90-99 (wipe) and 130-138 (no wipe): the structure is encoded into the local array [extkey] behind the caller's memory, which becomes
    the text; a text that does not fit into the caller's memory is undefined *)
Definition struct_to_string_at (encode : copy_rule -> list Z -> nat -> nat -> res (list Z)) (wipe : bool)
  (e : env) (key prefix prefix_size str : nat) (w : world) : res (nat * world) :=
  let size := length (w_mem w) in
  let w := push_local (uninit BIP32_EXTKEY_SIZE) w in
  mem <- encode Standard (w_mem w) key size ;;
  '(r, w) <- to_base58_check_w e size BIP32_EXTKEY_SIZE prefix prefix_size str (with_mem w mem) ;;
  _ <- c_defined (str + r <=? size)%nat ;;
  w <- (if wipe then p_write size (repeat 204 BIP32_EXTKEY_SIZE) w else Ok w) ;;
  Ok (r, pop_local size w).
(** exkey.c:90-99 *)
Definition exkey_to_string_at := struct_to_string_at exkey_encode_at true.
(** exkey.c:130-138 *)
Definition expubkey_to_string_at := struct_to_string_at expubkey_encode_at false.

(** exkey.c:101-116 (wipe) and 139-153 (no wipe): [extkey] lies behind the caller's memory; [struct_size] bytes at [key] are the structure;
    return value and the memory *)
Definition struct_from_string_at (decode : copy_rule -> list Z -> nat -> nat -> res (list Z)) (wipe : bool)
  (e : env) (str str_len key : nat) (prefix : list Z) (struct_size : nat) (w : world) : res (Z * world) :=
  _ <- c_assert (length prefix <=? 8)%nat ;;
  let size0 := length (w_mem w) in
  '(size, w) <- from_base58_check_w e str str_len size0 (push_local (uninit (BIP32_EXTKEY_SIZE + 8)) w) ;;
  _ <- c_assert (size <=? BIP32_EXTKEY_SIZE + 8)%nat ;;
  if (size <=? BIP32_EXTKEY_SIZE)%nat || (BIP32_EXTKEY_SIZE + 8 <? size)%nat then Ok (0, pop_local size0 w) else
  let prefix_size := (size - BIP32_EXTKEY_SIZE)%nat in
  if negb (prefix_size =? length prefix)%nat then Ok (0, pop_local size0 w) else
  p <- slice (w_mem w) size0 prefix_size ;;
  if negb (bytes_eqb p prefix) then Ok (0, pop_local size0 w) else
  _ <- c_defined (key + struct_size <=? size0)%nat ;;
  mem <- decode Standard (w_mem w) (size0 + prefix_size)%nat key ;;
  w <- (if wipe then p_write size0 (repeat 204 (BIP32_EXTKEY_SIZE + 8)) (with_mem w mem) else Ok (with_mem w mem)) ;;
  Ok (1, pop_local size0 w).
(** exkey.c:101-116 *)
Definition exkey_from_string_at (e : env) (str str_len key : nat) (param : chain_parameters) (w : world) : res (Z * world) :=
  struct_from_string_at exkey_decode_at true e str str_len key (cp_ext_sec param) 76 w.
(** exkey.c:139-153 *)
Definition expubkey_from_string_at (e : env) (str str_len pub : nat) (param : chain_parameters) (w : world) : res (Z * world) :=
  struct_from_string_at expubkey_decode_at false e str str_len pub (cp_ext_pub param) 80 w.
