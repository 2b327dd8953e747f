(** Memory level models of src/btc/bech32.c, of the address encoders of src/btc/address.c and of the functions that turn keys into
    strings and back: input and output live in one memory, loads and stores happen at their addresses and in program order, so that
    overlapping buffers are covered.  (M_Bech32, M_Address, M_Key and M_Exkey describe the same functions by the bytes written.)
    A local array of a function that passes it on is put behind the caller's memory for the time of the call. *)
From Verif Require Import Base M_Endian M_Base58 M_Base58Check M_Hash M_Base32 M_Bech32 M_Address M_Mem M_Scratch M_Secp M_Key M_Exkey.

(** memcpy(dst, src, n): undefined if the regions overlap (src/btc/bech32.c:88, key.c:365,397) *)
Definition memcpy_mem (mem : list Z) (dst src n : nat) : res (list Z) :=
  _ <- c_defined ((n =? 0) || (dst + n <=? src) || (src + n <=? dst))%nat ;;
  bs <- slice mem src n ;;
  store mem dst bs.

(** src/btc/bech32.c:90-93, the loop over the data: each value is read when its turn comes *)
Fixpoint encode_chars_mem (n : nat) (mem : list Z) (b32 result : nat) : res (list Z) :=
  match n with
  | O => Ok mem
  | S n' =>
      v <- rd mem b32 ;;
      _ <- c_assert (v <? 32) ;;
      c <- tget_ub BECH32_ENCODE v ;;
      mem <- put mem result c ;;
      encode_chars_mem n' mem (b32 + 1) (result + 1)
  end.

(** src/btc/bech32.c:82-97 [fingera_bech32_encode]; the checksum (line 86) is computed before anything is stored *)
Definition bech32_encode_mem (mem : list Z) (hrp hrp_len b32 b32_size result : nat) : res (list Z) :=
  h <- slice mem hrp hrp_len ;;
  d <- slice mem b32 b32_size ;;
  checksum <- create_checksum h d ;;
  mem <- memcpy_mem mem result hrp hrp_len ;;
  mem <- put mem (result + hrp_len) 49 ;;
  mem <- encode_chars_mem b32_size mem b32 (result + hrp_len + 1) ;;
  c <- encode_checksum checksum ;;
  puts mem (result + hrp_len + 1 + b32_size) c.

(** src/btc/bech32.c:122-124, the loop that copies the human readable part *)
Fixpoint lower_chars_mem (n : nat) (mem : list Z) (str hrp : nat) : res (list Z) :=
  match n with
  | O => Ok mem
  | S n' =>
      c <- rd mem str ;;
      x <- lower_char c ;;
      mem <- put mem hrp x ;;
      lower_chars_mem n' mem (str + 1) (hrp + 1)
  end.

(** src/btc/bech32.c:127-131, the loop over the data characters: false if one is not in the alphabet; the final [out]; the memory *)
Fixpoint decode_chars_mem (n : nat) (mem : list Z) (pos out : nat) : res (bool * nat * list Z) :=
  match n with
  | O => Ok (true, out, mem)
  | S n' =>
      c <- rd mem pos ;;
      let rev := tget BECH32_DECODE c in
      if rev =? -1 then Ok (false, out, mem)
      else
        mem <- put mem out rev ;;
        decode_chars_mem n' mem (pos + 1) (out + 1)
  end.

(** src/btc/bech32.c:111-140 [fingera_bech32_decode]: the return value, [*hrp_size] and the memory.  [*hrp_size] is a variable of
    the caller that overlaps neither buffer. *)
Definition bech32_decode_mem (mem : list Z) (str str_len hrp hrp_size b32 : nat) : res (Z * nat * list Z) :=
  bad <- is_illegal (skipn str mem) str_len ;;
  if bad then Ok (-1, hrp_size, mem)
  else
    o <- strrchr (skipn str mem) 49 ;;
    match o with
    | None => Ok (-2, hrp_size, mem)
    | Some pos =>
        if (90 <? str_len)%nat || (pos =? 0)%nat || (str_len <? pos + 7)%nat || (str_len <=? 7)%nat
        then Ok (-2, hrp_size, mem)
        else if (hrp_size <? pos)%nat then Ok (-3, hrp_size, mem)
        else
          mem <- lower_chars_mem pos mem str hrp ;;
          '(ok, out, mem) <- decode_chars_mem (str_len - 6 - (pos + 1)) mem (str + pos + 1) b32 ;;
          if negb ok then Ok (-4, pos, mem)
          else
            '(checksum, ok) <- decode_chars (skipn (str + (str_len - 6)) mem) 6 ;;
            if negb ok then Ok (-4, pos, mem)
            else
              let r := (out - b32)%nat in
              h <- slice mem hrp pos ;;
              d <- slice mem b32 r ;;
              v <- verify_checksum h d checksum ;;
              if negb v then Ok (-5, pos, mem) else Ok (Z.of_nat r, pos, mem)
    end.

(** The common part of the witness encoders (address.c:41-50, 60-69, 80-92) on memory: the local [buffer] of [buf_cap] bytes lies behind
    the caller's memory; [hrp] is the address of param->bech32_hrp.  A result that does not fit into the caller's memory is undefined. *)
Definition encode_witness_mem (mem : list Z) (buf_cap : nat) (version : Z) (program size out out_size hrp hrp_len : nat) : res (nat * list Z) :=
  let buffer := length mem in
  frame <- put (mem ++ uninit buf_cap) buffer version ;;
  '(n, frame) <- to_base32_raw_mem frame program size (buffer + 1) ;;
  let buf_size := (n + 1)%nat in
  let result_size := bech32_encode_length hrp_len buf_size in
  if (out_size <? result_size)%nat then Ok (O, firstn (length mem) frame)
  else
    _ <- c_defined (out + result_size <=? length mem)%nat ;;
    frame <- bech32_encode_mem frame hrp hrp_len buffer buf_size out ;;
    Ok (result_size, firstn (length mem) frame).

(** src/btc/address.c:34-51 *)
Definition to_address_witnessv0_keyhash_mem (mem : list Z) (key_hash size out out_size hrp hrp_len : nat) : res (nat * list Z) :=
  _ <- c_assert (size =? WITNESSV0_KEYID_SIZE)%nat ;;
  encode_witness_mem mem 64 0 key_hash size out out_size hrp hrp_len.
(** src/btc/address.c:53-70 *)
Definition to_address_witnessv0_scripthash_mem (mem : list Z) (script_hash size out out_size hrp hrp_len : nat) : res (nat * list Z) :=
  _ <- c_assert (size =? WITNESSV0_SCRIPTID_SIZE)%nat ;;
  encode_witness_mem mem 64 0 script_hash size out out_size hrp hrp_len.
(** src/btc/address.c:72-93 *)
Definition to_address_witness_unknown_mem (mem : list Z) (arg size out out_size hrp hrp_len : nat) : res (nat * list Z) :=
  if (size <? 3)%nat || (41 <? size)%nat then Ok (O, mem)
  else
    version <- rd mem arg ;;
    if (version <? 1) || (16 <? version) then Ok (O, mem)
    else encode_witness_mem mem 128 version (arg + 1) (size - 1) out out_size hrp hrp_len.

(** src/btc/address.c:10-20 and 22-32: the two Base58 encoders differ in the prefix, which lies at [prefix] *)
Definition to_address_base58_w (e : env) (id size prefix prefix_size out out_size : nat) (w : world) : res (nat * world) :=
  if (out_size <? to_base58_check_length size prefix_size)%nat then Ok (O, w)
  else to_base58_check_w e id size prefix prefix_size out w.

(** A local array behind the caller's memory, and its end *)
(** src/btc/key.c:364,379, exkey.c:92,104 *)
Definition push_local (local : list Z) (w : world) : world :=
  mkWorld (w_mem w ++ local) (w_blocks w) (w_next w) (w_dead w).
(** src/btc/key.c:371,398, exkey.c:98,115 (leaving the function) *)
Definition pop_local (size : nat) (w : world) : world :=
  mkWorld (firstn size (w_mem w)) (w_blocks w) (w_next w) (w_dead w).

(** src/btc/key.c:360-375 [fingera_btc_key_to_string].  The size returned is an int made from a size_t (line 367).
    A text that does not fit into the caller's memory is undefined. *)
Definition key_to_string_w (e : env) (key32 str : nat) (is_compressed : bool) (prefix prefix_size : nat) (w : world) : res (nat * world) :=
  if is_compressed then
    let size := length (w_mem w) in
    let w := push_local (uninit 33) w in
    mem <- memcpy_mem (w_mem w) size key32 32 ;;
    mem <- put mem (size + 32) 1 ;;
    let w := mkWorld mem (w_blocks w) (w_next w) (w_dead w) in
    '(r, w) <- to_base58_check_w e size 33 prefix prefix_size str w ;;
    _ <- c_defined (str + r <=? size)%nat ;;
    w <- p_write size (repeat 204 33) w ;;
    Ok (r, pop_local size w)
  else to_base58_check_w e key32 32 prefix prefix_size str w.

(** src/btc/key.c:376-399 [fingera_btc_key_from_string]: return value, [*is_compressed] (a variable of the caller that overlaps no
    buffer) and the memory *)
Definition key_from_string_w (e : env) (str str_len key32 : nat) (is_compressed : Z) (param : chain_parameters) (w : world)
  : res (Z * Z * world) :=
  let psize := length (cp_secret param) in
  _ <- c_assert (psize <=? 8)%nat ;;
  let size0 := length (w_mem w) in
  '(size, w) <- from_base58_check_w e str str_len size0 (push_local (uninit (32 + 8)) w) ;;
  if (size <=? 32)%nat then Ok (0, is_compressed, pop_local size0 w) else
  let pre_size := (size - 32)%nat in
  c <- (if negb (psize =? pre_size)%nat then
          if negb (psize =? pre_size - 1)%nat then Ok None
          else
            b <- rd (w_mem w) (size0 + (size - 1)) ;;
            if negb (b =? 1) then Ok None else Ok (Some 1)
        else Ok (Some 0)) ;;
  match c with
  | None => Ok (0, is_compressed, pop_local size0 w)
  | Some is_compressed =>
      p <- slice (w_mem w) size0 psize ;;
      if negb (bytes_eqb p (cp_secret param)) then Ok (0, is_compressed, pop_local size0 w) else
      _ <- c_defined (key32 + 32 <=? size0)%nat ;;
      mem <- memcpy_mem (w_mem w) key32 (size0 + psize) 32 ;;
      Ok (1, is_compressed, pop_local size0 (mkWorld mem (w_blocks w) (w_next w) (w_dead w)))
  end.

(** src/btc/exkey.c:90-99 [fingera_exkey_to_string] and 130-138 [fingera_expubkey_to_string]: [extkey] is the local array after line 93 or 133
    (M_Exkey.exkey_encode, expubkey_encode); [wipe] tells whether it is overwritten at the end (line 97); a text that does not fit into
    the caller's memory is undefined *)
Definition ext_to_string_w (e : env) (extkey : list Z) (wipe : bool) (prefix prefix_size str : nat) (w : world) : res (nat * world) :=
  let size := length (w_mem w) in
  '(r, w) <- to_base58_check_w e size BIP32_EXTKEY_SIZE prefix prefix_size str (push_local extkey w) ;;
  _ <- c_defined (str + r <=? size)%nat ;;
  w <- (if wipe then p_write size (repeat 204 BIP32_EXTKEY_SIZE) w else Ok w) ;;
  Ok (r, pop_local size w).
(** src/btc/exkey.c:90-99; the structure is a value: it overlaps no buffer *)
Definition exkey_to_string_w (e : env) (key : ex_key) (prefix prefix_size str : nat) (w : world) : res (nat * world) :=
  extkey <- exkey_encode key (uninit BIP32_EXTKEY_SIZE) ;;
  ext_to_string_w e extkey true prefix prefix_size str w.
(** src/btc/exkey.c:130-138 *)
Definition expubkey_to_string_w (e : env) (pub : ex_pubkey) (prefix prefix_size str : nat) (w : world) : res (nat * world) :=
  extkey <- expubkey_encode pub (uninit BIP32_EXTKEY_SIZE) ;;
  ext_to_string_w e extkey false prefix prefix_size str w.
