(** What the local arrays of the functions that handle secrets contain when those functions return: the fingera_cleanse calls
    of src/hash/*.c, src/btc/hash.c, src/btc/key.c and src/btc/exkey.c.  Each function here is the function of the same name
    (without [_r]) in M_Sha1, M_Sha2, M_Ripemd, M_Hash, M_Key, M_Exkey with one more result: its local arrays and those
    of the functions of this library it calls, by their C names, with their contents at the moment the array goes out
    of scope.  Not covered: scalar locals (such as w0..w15 of the transforms), registers, and what libsecp256k1 does. *)
From Coq Require Import String.
From Verif Require Import Base M_Endian M_Sha1 M_Sha2 M_Ripemd M_Hash M_Base58 M_Base58Check M_Address M_Random M_Secp M_Key M_Exkey.
Open Scope Z_scope.
Open Scope list_scope.

(** Local arrays that went out of scope, the last one first. *)
(** automatic storage, e.g. src/hash/sha2.c:673,698 *)
Definition arrays : Type := list (string * list Z).

(** The memory of an array of words of [n] bytes each. *)
(** src/hash/sha2.c:698-699,741-744 (the argument of fingera_cleanse) *)
Definition words_mem (n : nat) (ws : list Z) : list Z := concat (map (host_bytes n) ws).

(** src/hash/sha1.c:120-152 *)
Definition sha1_r (msg : list Z) (msg_len : nat) : res (list Z * arrays) :=
  let chunk_end := htobe64 (u64 (Z.shiftl (u64 (Z.of_nat msg_len)) 3)) in
  '(digest, msg_buf, msg_len) <- block_loop msg_len 64 sha1_transform IV1 msg msg_len ;;
  let last_chunk := repeat 0 64 in
  tail <- slice msg_buf 0 msg_len ;;
  last_chunk <- store last_chunk 0 tail ;;
  last_chunk <- store last_chunk msg_len [0x80] ;;
  '(digest, last_chunk) <-
     (if (55 <? msg_len)%nat
      then digest <- sha1_transform digest last_chunk ;; Ok (digest, repeat 0 64)
      else Ok (digest, last_chunk)) ;;
  last_chunk <- store last_chunk 56 (host_bytes 8 chunk_end) ;;
  digest <- sha1_transform digest last_chunk ;;
  let out := out32 digest in
  digest <- cleanse (words_mem 4 digest) 0 20 ;;
  last_chunk <- cleanse last_chunk 0 64 ;;
  Ok (out, [("digest"%string, digest); ("last_chunk"%string, last_chunk)]).

(** src/hash/ripemd160.c:286-318 *)
Definition ripemd160_r (msg : list Z) (msg_len : nat) : res (list Z * arrays) :=
  let chunk_end := htole64 (u64 (Z.shiftl (u64 (Z.of_nat msg_len)) 3)) in
  '(digest, msg_buf, msg_len) <- block_loop msg_len 64 ripemd160_transform IVr msg msg_len ;;
  let last_chunk := repeat 0 64 in
  tail <- slice msg_buf 0 msg_len ;;
  last_chunk <- store last_chunk 0 tail ;;
  last_chunk <- store last_chunk msg_len [0x80] ;;
  '(digest, last_chunk) <-
     (if (55 <? msg_len)%nat
      then digest <- ripemd160_transform digest last_chunk ;; Ok (digest, repeat 0 64)
      else Ok (digest, last_chunk)) ;;
  last_chunk <- store last_chunk 56 (host_bytes 8 chunk_end) ;;
  digest <- ripemd160_transform digest last_chunk ;;
  let out := out32le digest in
  digest <- cleanse (words_mem 4 digest) 0 20 ;;
  last_chunk <- cleanse last_chunk 0 64 ;;
  Ok (out, [("digest"%string, digest); ("last_chunk"%string, last_chunk)]).

(** src/hash/sha2.c:671-694 *)
Definition sha256_final_r (digest msg : list Z) (msg_len append_size : nat) : res (list Z * arrays) :=
  let chunk_end := htobe64 (u64 (Z.shiftl (u64 (Z.of_nat msg_len + Z.of_nat append_size)) 3)) in
  '(digest, msg_buf, msg_len) <- block_loop msg_len 64 sha256_transform digest msg msg_len ;;
  let last_chunk := repeat 0 64 in
  tail <- slice msg_buf 0 msg_len ;;
  last_chunk <- store last_chunk 0 tail ;;
  last_chunk <- store last_chunk msg_len [0x80] ;;
  '(digest, last_chunk) <-
     (if (55 <? msg_len)%nat
      then digest <- sha256_transform digest last_chunk ;; Ok (digest, repeat 0 64)
      else Ok (digest, last_chunk)) ;;
  last_chunk <- store last_chunk 56 (host_bytes 8 chunk_end) ;;
  digest <- sha256_transform digest last_chunk ;;
  last_chunk <- cleanse last_chunk 0 64 ;;
  Ok (digest, [("last_chunk"%string, last_chunk)]).

(** src/hash/sha2.c:696-713 *)
Definition sha2_256_r (msg : list Z) (msg_len : nat) : res (list Z * arrays) :=
  '(digest, a) <- sha256_final_r IV256 msg msg_len 0 ;;
  let out := out32 digest in
  digest <- cleanse (words_mem 4 digest) 0 32 ;;
  Ok (out, ("digest"%string, digest) :: a).

(** src/hash/sha2.c:715-738 *)
Definition sha512_final_r (digest msg : list Z) (msg_len append_size : nat) : res (list Z * arrays) :=
  let chunk_end := htobe64 (u64 (Z.shiftl (u64 (Z.of_nat msg_len + Z.of_nat append_size)) 3)) in
  '(digest, msg_buf, msg_len) <- block_loop msg_len 128 sha512_transform digest msg msg_len ;;
  let last_chunk := repeat 0 128 in
  tail <- slice msg_buf 0 msg_len ;;
  last_chunk <- store last_chunk 0 tail ;;
  last_chunk <- store last_chunk msg_len [0x80] ;;
  '(digest, last_chunk) <-
     (if (111 <? msg_len)%nat
      then digest <- sha512_transform digest last_chunk ;; Ok (digest, repeat 0 128)
      else Ok (digest, last_chunk)) ;;
  last_chunk <- store last_chunk 120 (host_bytes 8 chunk_end) ;;
  digest <- sha512_transform digest last_chunk ;;
  last_chunk <- cleanse last_chunk 0 128 ;;
  Ok (digest, [("last_chunk"%string, last_chunk)]).

(** src/hash/sha2.c:740-758 *)
Definition sha2_512_r (msg : list Z) (msg_len : nat) : res (list Z * arrays) :=
  '(digest, a) <- sha512_final_r IV512 msg msg_len 0 ;;
  let out := out64 digest in
  digest <- cleanse (words_mem 8 digest) 0 64 ;;
  Ok (out, ("digest"%string, digest) :: a).

(** src/hash/sha2.c:760-803 *)
Definition hmac_sha256_r (key : list Z) (key_len : nat) (msg : list Z) (msg_len : nat) : res (list Z * arrays) :=
  '(buffer, a0) <-
    (if (key_len <=? 64)%nat
     then k <- slice key 0 key_len ;; Ok (k ++ repeat 0 (64 - key_len), [])
     else '(k, a) <- sha2_256_r key key_len ;; Ok (k ++ repeat 0 32, a)) ;;
  let key_inner := xor_words 0x3636363636363636 buffer in
  let key_outter := xor_words 0x5C5C5C5C5C5C5C5C buffer in
  digest_inner <- sha256_transform IV256 key_inner ;;
  '(digest_inner, a1) <- sha256_final_r digest_inner msg msg_len 64 ;;
  let digest_inner := out32 digest_inner in
  digest_outter <- sha256_transform IV256 key_outter ;;
  '(digest_outter, a2) <- sha256_final_r digest_outter digest_inner 32 64 ;;
  let out := out32 digest_outter in
  digest_outter <- cleanse (words_mem 4 digest_outter) 0 32 ;;
  digest_inner <- cleanse digest_inner 0 32 ;;
  Ok (out, [("digest_inner"%string, digest_inner); ("digest_outter"%string, digest_outter);
            ("buffer"%string, buffer); ("key_inner"%string, key_inner); ("key_outter"%string, key_outter)] ++ a2 ++ a1 ++ a0).

(** src/hash/sha2.c:805-849 *)
Definition hmac_sha512_r (key : list Z) (key_len : nat) (msg : list Z) (msg_len : nat) : res (list Z * arrays) :=
  '(buffer, a0) <-
    (if (key_len <=? 128)%nat
     then k <- slice key 0 key_len ;; Ok (k ++ repeat 0 (128 - key_len), [])
     else '(k, a) <- sha2_512_r key key_len ;; Ok (k ++ repeat 0 64, a)) ;;
  let key_inner := xor_words 0x3636363636363636 buffer in
  let key_outter := xor_words 0x5C5C5C5C5C5C5C5C buffer in
  digest_inner <- sha512_transform IV512 key_inner ;;
  '(digest_inner, a1) <- sha512_final_r digest_inner msg msg_len 128 ;;
  let digest_inner := out64 digest_inner in
  digest_outter <- sha512_transform IV512 key_outter ;;
  '(digest_outter, a2) <- sha512_final_r digest_outter digest_inner 64 128 ;;
  let out := out64 digest_outter in
  digest_outter <- cleanse (words_mem 8 digest_outter) 0 64 ;;
  digest_inner <- cleanse digest_inner 0 64 ;;
  Ok (out, [("digest_inner"%string, digest_inner); ("digest_outter"%string, digest_outter);
            ("buffer"%string, buffer); ("key_inner"%string, key_inner); ("key_outter"%string, key_outter)] ++ a2 ++ a1 ++ a0).

(** src/btc/hash.c:8-12 *)
Definition btc_hash160_r (msg : list Z) (msg_len : nat) : res (list Z * arrays) :=
  '(sha2_digest, a1) <- sha2_256_r msg msg_len ;;
  '(out, a2) <- ripemd160_r sha2_digest 32 ;;
  Ok (out, ("sha2_digest"%string, sha2_digest) :: a2 ++ a1).

(** src/btc/hash.c:14-18 *)
Definition btc_hash256_r (msg : list Z) (msg_len : nat) : res (list Z * arrays) :=
  '(sha2_digest, a1) <- sha2_256_r msg msg_len ;;
  '(out, a2) <- sha2_256_r sha2_digest 32 ;;
  Ok (out, ("sha2_digest"%string, sha2_digest) :: a2 ++ a1).

(** src/btc/hash.c:42-53 *)
Definition btc_bip32_hash_r (chain_code : list Z) (child header : Z) (data32 : list Z) : res (list Z * arrays) :=
  let buffer := uninit (1 + 32 + 4) in
  buffer <- store buffer 0 [u8 header] ;;
  d <- slice data32 0 32 ;;
  buffer <- store buffer 1 d ;;
  tl <- write_big_32 (skipn 33 buffer) child ;;
  let buffer := firstn 33 buffer ++ tl in
  '(out, a) <- hmac_sha512_r chain_code 32 buffer 37 ;;
  buffer <- cleanse buffer 0 37 ;;
  Ok (out, ("buffer"%string, buffer) :: a).

(** src/btc/exkey.c:10-22 *)
Definition exkey_init_r (key : ex_key) (seed : list Z) (len : nat) : res (ex_key * arrays) :=
  '(out, a) <- hmac_sha512_r hashkey 12 seed len ;;
  k <- slice out 0 32 ;;
  nk <- store (xk_key key) 0 k ;;
  c <- slice out 32 32 ;;
  nc <- store (x_chain_code (xk_ext key)) 0 c ;;
  out <- cleanse out 0 64 ;;
  Ok (mkExKey (mkExt 0 0 0 nc) nk, ("out"%string, out) :: a).

(** src/btc/key.c:401-426.  [pubkey64] is a libsecp256k1 point object of 64 bytes whose representation ([rep]) is not this library's
    business.  It is a local of the inner block, as [encoded_pubkey]. *)
Definition key_derive_r (E : secp) (rep : pt E -> list Z) (g : globals) (key32 chain32 out_key32 out_chain32 : list Z) (child : Z)
  : res (bool * list Z * list Z * arrays) :=
  '(ret, out, a) <- (if Z.shiftr child 31 =? 0 then
       pubkey64 <- key_get_pub E g key32 ;;
       '(ret, encoded_pubkey) <- pubkey_encode E g pubkey64 (uninit BTC_COMPRESSED_PUBLIC_KEY_SIZE) BTC_COMPRESSED_PUBLIC_KEY_SIZE ;;
       header <- rd encoded_pubkey 0 ;;
       '(out, a) <- btc_bip32_hash_r chain32 child header (skipn 1 encoded_pubkey) ;;
       pubkey64 <- cleanse (rep pubkey64) 0 64 ;;
       encoded_pubkey <- cleanse encoded_pubkey 0 BTC_COMPRESSED_PUBLIC_KEY_SIZE ;;
       Ok (ret, out, ("encoded_pubkey"%string, encoded_pubkey) :: ("pubkey64"%string, pubkey64) :: a)
     else
       '(out, a) <- btc_bip32_hash_r chain32 child 0 key32 ;;
       Ok (true, out, a)) ;;
  '(ret, out_key32, out_chain32) <-
    (if negb ret then Ok (ret, out_key32, out_chain32)
     else
       k <- slice key32 0 32 ;;
       out_key32 <- store out_key32 0 k ;;
       c <- slice out 32 32 ;;
       out_chain32 <- store out_chain32 0 c ;;
       '(ret, k) <- secp_privkey_tweak_add (g_sign g) out_key32 out ;;
       out_key32 <- store out_key32 0 k ;;
       Ok (ret, out_key32, out_chain32)) ;;
  out <- cleanse out 0 64 ;;
  Ok (ret, out_key32, out_chain32, ("out"%string, out) :: a).

(** src/btc/key.c:463-481.  [pubkey] is a libsecp256k1 point object. *)
Definition pubkey_derive_r (E : secp) (g : globals) (encoded_pubkey33 chain32 out_pubkey33 out_chain32 : list Z) (child : Z)
  : res (bool * list Z * list Z * arrays) :=
  _ <- c_assert (Z.shiftr child 31 =? 0) ;;
  header <- rd encoded_pubkey33 0 ;;
  _ <- c_assert ((header =? 2) || (header =? 3)) ;;
  let out := uninit 64 in
  p <- pubkey_decode E g encoded_pubkey33 33 ;;
  match p with
  | None => Ok (false, out_pubkey33, out_chain32, [("out"%string, out)])
  | Some _ =>
      '(out, a) <- btc_bip32_hash_r chain32 child header (skipn 1 encoded_pubkey33) ;;
      c <- slice out 32 32 ;;
      out_chain32 <- store out_chain32 0 c ;;
      let a := ("out"%string, out) :: a in
      p <- secp_pubkey_parse E (g_verify g) encoded_pubkey33 33 ;;
      match p with
      | None => Ok (false, out_pubkey33, out_chain32, a)
      | Some P =>
          q <- secp_pubkey_tweak_add E (g_verify g) P out ;;
          match q with
          | None => Ok (false, out_pubkey33, out_chain32, a)
          | Some Q =>
              '(r, out_pubkey33) <- pubkey_encode E g Q out_pubkey33 33 ;;
              Ok (r, out_pubkey33, out_chain32, a)
          end
      end
  end.

(** src/btc/key.c:332-343 *)
Definition key_init_r (fuel : nat) (o : os) (st : globals * ctx_heap) : res (outcome (globals * ctx_heap * arrays)) :=
  let '(g, h) := st in
  let rand_buffer := uninit 32 in
  _ <- c_assert (is_null (g_verify g)) ;;
  let '(cv, h) := context_create h false true in
  let g := mkGlobals (g_sign g) (Some cv) in
  _ <- c_assert (is_null (g_sign g)) ;;
  let '(cs, h) := context_create h true false in
  let g := mkGlobals (Some cs) (g_verify g) in
  r <- os_rand_bytes fuel o rand_buffer 32 ;;
  match r with
  | Returned rand_buffer =>
      _ <- sign_ctx (g_sign g) ;;
      rand_buffer <- cleanse rand_buffer 0 32 ;;
      Ok (Returned (g, h, [("rand_buffer"%string, rand_buffer)]))
  | Fatal => Ok Fatal
  | Running => Ok Running
  end.


(** src/btc/base58_check.c:10-31, without the scratch buffers, whose contents are the business of M_Scratch *)
Definition to_base58_check_r (buf prefix : list Z) : res (nat * list Z * arrays) :=
  let size_of_data := (length buf + length prefix)%nat in
  let size_of_all := (size_of_data + 4)%nat in
  let buffer := uninit size_of_all in
  buffer <- store buffer 0 prefix ;;
  buffer <- store buffer (length prefix) buf ;;
  window <- slice buffer 0 size_of_data ;;
  '(hash, a) <- btc_hash256_r window size_of_data ;;
  h4 <- slice hash 0 4 ;;
  buffer <- store buffer size_of_data h4 ;;
  '(r, text) <- to_base58 buffer ;;
  Ok (r, text, ("hash"%string, hash) :: a).

(** src/btc/base58_check.c:33-40, without the scratch buffer of fingera_from_base58 *)
Definition from_base58_check_r (str : list Z) (str_len : nat) : res (nat * list Z * arrays) :=
  '(buf_size, buf) <- from_base58 str str_len ;;
  if (buf_size <? 4)%nat then Ok (O, buf, [("hash"%string, uninit 32)])
  else
    window <- slice buf 0 (buf_size - 4) ;;
    '(hash, a) <- btc_hash256_r window (buf_size - 4) ;;
    h4 <- slice hash 0 4 ;;
    c4 <- slice buf (buf_size - 4) 4 ;;
    let a := ("hash"%string, hash) :: a in
    if negb (bytes_eqb h4 c4) then Ok (O, buf, a)
    else Ok ((buf_size - 4)%nat, buf, a).

(** src/btc/key.c:360-375 *)
Definition key_to_string_r (key32 : list Z) (is_compressed : bool) (param : chain_parameters) : res (nat * list Z * arrays) :=
  if is_compressed then
    let buf33 := uninit 33 in
    k <- slice key32 0 32 ;;
    buf33 <- store buf33 0 k ;;
    buf33 <- store buf33 32 [1] ;;
    '(r, text, a) <- to_base58_check_r buf33 (cp_secret param) ;;
    buf33 <- cleanse buf33 0 33 ;;
    Ok (r, text, ("buf33"%string, buf33) :: a)
  else
    k <- slice key32 0 32 ;;
    to_base58_check_r k (cp_secret param).

(** src/btc/key.c:376-399 *)
Definition key_from_string_r (key_str : list Z) (str_len : nat) (key32 : list Z) (is_compressed : Z) (param : chain_parameters)
  : res (Z * list Z * Z * arrays) :=
  let buf := uninit (32 + 8) in
  let psize := length (cp_secret param) in
  _ <- c_assert (psize <=? 8)%nat ;;
  '(size, out, a) <- from_base58_check_r key_str str_len ;;
  buf <- store buf 0 out ;;
  if (size <=? 32)%nat then Ok (0, key32, is_compressed, ("buf"%string, buf) :: a) else
  let pre_size := (size - 32)%nat in
  c <- (if negb (psize =? pre_size)%nat then
          if negb (psize =? pre_size - 1)%nat then Ok None
          else
            b <- rd buf (size - 1) ;;
            if negb (b =? 1) then Ok None else Ok (Some 1)
        else Ok (Some 0)) ;;
  match c with
  | None => Ok (0, key32, is_compressed, ("buf"%string, buf) :: a)
  | Some is_compressed =>
      p <- slice buf 0 psize ;;
      if negb (bytes_eqb p (cp_secret param)) then Ok (0, key32, is_compressed, ("buf"%string, buf) :: a) else
      k <- slice buf psize 32 ;;
      key32 <- store key32 0 k ;;
      Ok (1, key32, is_compressed, ("buf"%string, buf) :: a)
  end.

(** src/btc/exkey.c:90-99 *)
Definition exkey_to_string_r (key : ex_key) (param : chain_parameters) : res (nat * list Z * arrays) :=
  extkey <- exkey_encode key (uninit BIP32_EXTKEY_SIZE) ;;
  '(r, text, a) <- to_base58_check_r extkey (cp_ext_sec param) ;;
  extkey <- cleanse extkey 0 BIP32_EXTKEY_SIZE ;;
  Ok (r, text, ("extkey"%string, extkey) :: a).

(** src/btc/exkey.c:101-116 *)
Definition exkey_from_string_r (str : list Z) (str_len : nat) (key : ex_key) (param : chain_parameters) : res (Z * ex_key * arrays) :=
  let extkey := uninit (BIP32_EXTKEY_SIZE + 8) in
  _ <- c_assert (length (cp_ext_sec param) <=? 8)%nat ;;
  '(size, out, a) <- from_base58_check_r str str_len ;;
  extkey <- store extkey 0 out ;;
  _ <- c_assert (size <=? BIP32_EXTKEY_SIZE + 8)%nat ;;
  if (size <=? BIP32_EXTKEY_SIZE)%nat || (BIP32_EXTKEY_SIZE + 8 <? size)%nat then Ok (0, key, ("extkey"%string, extkey) :: a) else
  let prefix_size := (size - BIP32_EXTKEY_SIZE)%nat in
  if negb (prefix_size =? length (cp_ext_sec param))%nat then Ok (0, key, ("extkey"%string, extkey) :: a) else
  p <- slice extkey 0 prefix_size ;;
  if negb (bytes_eqb p (cp_ext_sec param)) then Ok (0, key, ("extkey"%string, extkey) :: a) else
  key <- exkey_decode (skipn prefix_size extkey) key ;;
  extkey <- cleanse extkey 0 (BIP32_EXTKEY_SIZE + 8) ;;
  Ok (1, key, ("extkey"%string, extkey) :: a).
