(** Arithmetic in size_t with its width as a parameter: 32 on the 32-bit builds of .travis.yml (BUILD_32_BITS), 64 otherwise.
    The other models compute lengths without bound. *)
From Verif Require Import Base M_Endian M_Hex M_Base64 M_Base32 M_Base58 M_Base58Check M_Bech32 M_Sha2 M_Hash M_Address.

(** The value of a size_t expression: modulo 2^w. *)
(** include/fingera_libc/hex.h:23-46 and the other length helpers (every arithmetic operation on size_t) *)
Definition sz (w : Z) (x : Z) : Z := x mod 2 ^ w.

(** include/fingera_libc/hex.h:23-25 *)
Definition to_hex_length_w (w : Z) (buf_size : Z) : Z := sz w (buf_size * 2).
(** include/fingera_libc/hex.h:44-46 *)
Definition from_hex_length_w (w : Z) (str_len : Z) : Z := sz w (str_len + 1) / 2.

(** include/fingera_libc/base64.h:24-26 *)
Definition to_base64_length_w (w : Z) (buf_size : Z) : Z := sz w (sz w (buf_size + 2) / 3 * 4).
(** include/fingera_libc/base64.h:35-43 *)
Definition to_base64_urlsafe_length_w (w : Z) (buf_size : Z) : Z :=
  let tail := buf_size mod 3 in
  let len := sz w (buf_size / 3 * 4) in
  if tail =? 1 then sz w (len + 2) else if tail =? 2 then sz w (len + 3) else len.
(** include/fingera_libc/base64.h:75-83 *)
Definition from_base64_urlsafe_length_w (w : Z) (str_len : Z) : Z :=
  let tail := str_len mod 4 in
  let len := sz w (str_len / 4 * 3) in
  if tail =? 2 then sz w (len + 1) else if tail =? 3 then sz w (len + 2) else len.

(** include/fingera_libc/base32.h:23-25 *)
Definition to_base32_length_w (w : Z) (buf_size : Z) : Z := sz w (sz w (buf_size + 4) / 5 * 8).
(** src/base32.c:199-202 *)
Definition from_base32_raw_length_w (w : Z) (new_len : Z) : Z :=
  let size := sz w (new_len / 8 * 5) in
  sz w (size + tget TAIL_TO_BYTES (new_len mod 8)).

(** include/fingera_libc/base58.h:24-26 *)
Definition to_base58_length_w (w : Z) (buf_size : Z) : Z := sz w (sz w (buf_size * 138) / 100 + 2).
(** include/fingera_libc/base58.h:35-37 *)
Definition from_base58_length_w (w : Z) (str_len : Z) : Z := sz w (sz w (str_len * 733) / 1000 + 2).
(** include/fingera_libc/btc/base58_check.h:25-29 *)
Definition to_base58_check_length_w (w : Z) (buf_size prefix_size : Z) : Z :=
  to_base58_length_w w (sz w (sz w (buf_size + 4) + prefix_size)).
(** include/fingera_libc/btc/base58_check.h:38-41 *)
Definition from_base58_check_length_w (w : Z) (str_len : Z) : Z := from_base58_length_w w str_len.

(** include/fingera_libc/btc/bech32.h:25-28 *)
Definition bech32_encode_length_w (w : Z) (hrp_len b32_size : Z) : Z := sz w (sz w (hrp_len + b32_size) + 7).

(** src/base58.c:29-71 [fingera_to_base58]: [(end - begin) * 138] is computed in ptrdiff_t, where an overflow is undefined (line 39). *)
Definition to_base58_w (w : Z) (buf : list Z) : res (nat * list Z) :=
  let '(zeroes, rest) := skip_zeroes buf in
  _ <- c_defined (Z.of_nat (length rest) * 138 <? 2 ^ (w - 1)) ;;
  let size := (length rest * 138 / 100 + 1)%nat in
  _ <- c_defined (Z.of_nat size <=? INT_MAX) ;;
  '(len, b58) <- to_base58_loop rest 0 (repeat 0 size) ;;
  let iter := result_digits len b58 in
  let out := repeat 49 zeroes ++ map (tget BASE58_ENCODE) iter in
  Ok (length out, out).

(** src/btc/address.c:142-165 [fingera_btc_address_decode], with the capacity test of line 145 in size_t. *)
Definition address_decode_w (w : Z) (str : list Z) (str_len : nat) (out_size : nat) (param : chain_parameters)
    (stack : list Z) : res address_result :=
  if Z.of_nat out_size <? from_base58_check_length_w w (Z.of_nat str_len) then Ok (mkAddr BAD_ADDRESS out_size [])
  else
    '(size, out) <- from_base58_check str str_len ;;
    let np := length (cp_pubkey param) in
    let ns := length (cp_script param) in
    if negb (size =? 0)%nat && (np <=? size)%nat && bytes_eqb (firstn np out) (cp_pubkey param)
    then Ok (mkAddr PUBKEY_ADDRESS (size - np) (overlay (firstn (size - np) (skipn np out)) out))
    else if negb (size =? 0)%nat && (ns <=? size)%nat && bytes_eqb (firstn ns out) (cp_script param)
    then Ok (mkAddr SCRIPT_ADDRESS (size - ns) (overlay (firstn (size - ns) (skipn ns out)) out))
    else decode_bech32 str str_len out out_size param stack.

(** src/hash/sha2.c:671-694 [sha256_final]; the sum of line 675 is of type size_t. *)
Definition sha256_final_w (w : Z) (digest msg : list Z) (msg_len append_size : nat) : res (list Z) :=
  let chunk_end := htobe64 (u64 (Z.shiftl (sz w (Z.of_nat msg_len + Z.of_nat append_size)) 3)) in
  '(digest, msg_buf, msg_len) <- block_loop msg_len 64 sha256_transform digest msg msg_len ;;
  let last_chunk := repeat 0 64 in
  tail <- slice msg_buf 0 msg_len ;;
  last_chunk <- store last_chunk 0 tail ;;
  last_chunk <- store last_chunk msg_len [0x80] ;;
  '(digest, last_chunk) <-
     (if (55 <? msg_len)%nat
      then digest <- sha256_transform digest last_chunk ;; Ok (digest, repeat 0 64)
      else Ok (digest, last_chunk)) ;;
  last_chunk <- store last_chunk 56 (host_bytes 8 chunk_end) ;;
  sha256_transform digest last_chunk.

(** src/hash/sha2.c:696-713 *)
Definition sha2_256_w (w : Z) (msg : list Z) (msg_len : nat) : res (list Z) :=
  digest <- sha256_final_w w IV256 msg msg_len 0 ;; Ok (out32 digest).

(** src/hash/sha2.c:715-738 [sha512_final]; the sum of line 719 is of type size_t. *)
Definition sha512_final_w (w : Z) (digest msg : list Z) (msg_len append_size : nat) : res (list Z) :=
  let chunk_end := htobe64 (u64 (Z.shiftl (sz w (Z.of_nat msg_len + Z.of_nat append_size)) 3)) in
  '(digest, msg_buf, msg_len) <- block_loop msg_len 128 sha512_transform digest msg msg_len ;;
  let last_chunk := repeat 0 128 in
  tail <- slice msg_buf 0 msg_len ;;
  last_chunk <- store last_chunk 0 tail ;;
  last_chunk <- store last_chunk msg_len [0x80] ;;
  '(digest, last_chunk) <-
     (if (111 <? msg_len)%nat
      then digest <- sha512_transform digest last_chunk ;; Ok (digest, repeat 0 128)
      else Ok (digest, last_chunk)) ;;
  last_chunk <- store last_chunk 120 (host_bytes 8 chunk_end) ;;
  sha512_transform digest last_chunk.

(** src/hash/sha2.c:740-758 *)
Definition sha2_512_w (w : Z) (msg : list Z) (msg_len : nat) : res (list Z) :=
  digest <- sha512_final_w w IV512 msg msg_len 0 ;; Ok (out64 digest).

(** src/hash/sha2.c:760-803 *)
Definition hmac_sha256_w (w : Z) (key : list Z) (key_len : nat) (msg : list Z) (msg_len : nat) : res (list Z) :=
  buffer <-
    (if (key_len <=? 64)%nat
     then k <- slice key 0 key_len ;; Ok (k ++ repeat 0 (64 - key_len))
     else k <- sha2_256_w w key key_len ;; Ok (k ++ repeat 0 32)) ;;
  let key_inner := xor_words 0x3636363636363636 buffer in
  let key_outter := xor_words 0x5C5C5C5C5C5C5C5C buffer in
  digest_inner <- sha256_transform IV256 key_inner ;;
  digest_inner <- sha256_final_w w digest_inner msg msg_len 64 ;;
  let digest_inner := out32 digest_inner in
  digest_outter <- sha256_transform IV256 key_outter ;;
  digest_outter <- sha256_final_w w digest_outter digest_inner 32 64 ;;
  Ok (out32 digest_outter).

(** src/hash/sha2.c:805-849 *)
Definition hmac_sha512_w (w : Z) (key : list Z) (key_len : nat) (msg : list Z) (msg_len : nat) : res (list Z) :=
  buffer <-
    (if (key_len <=? 128)%nat
     then k <- slice key 0 key_len ;; Ok (k ++ repeat 0 (128 - key_len))
     else k <- sha2_512_w w key key_len ;; Ok (k ++ repeat 0 64)) ;;
  let key_inner := xor_words 0x3636363636363636 buffer in
  let key_outter := xor_words 0x5C5C5C5C5C5C5C5C buffer in
  digest_inner <- sha512_transform IV512 key_inner ;;
  digest_inner <- sha512_final_w w digest_inner msg msg_len 128 ;;
  let digest_inner := out64 digest_inner in
  digest_outter <- sha512_transform IV512 key_outter ;;
  digest_outter <- sha512_final_w w digest_outter digest_inner 64 128 ;;
  Ok (out64 digest_outter).
