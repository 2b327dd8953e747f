(** The library on a host of either byte order.  Everything in which the order of the bytes of an integer object matters
    is here, with the byte order as a parameter: the macros and inline functions of endian.h, the block functions, the hash
    functions (which keep digests, lengths and HMAC keys in integer arrays and hand them on as bytes), and what is built
    from them.  The other models are for a little-endian host. *)
From Verif Require Import Base M_Endian M_Sha2 M_Sha1 M_Ripemd M_Hash M_Base58 M_Base58Check M_Address M_Random M_Secp M_Key M_Exkey.

(** BYTE_ORDER: endian.h:60,77 and the system headers included at 13, 17, 41, 45 (other orders are rejected, line 97) *)
Inductive host := Little | Big.
(** The bytes of an unsigned integer object of [n] bytes in memory. *)
(** object representation used by endian.h:137-145 *)
Definition h_bytes (h : host) (n : nat) (v : Z) : list Z := match h with Little => host_bytes n v | Big => rev (host_bytes n v) end.
(** object representation used by endian.h:116-135 *)
Definition h_val (h : host) (bs : list Z) : Z := match h with Little => host_val bs | Big => host_val (rev bs) end.
(** The value with its bytes in the opposite order (_byteswap_ulong, _byteswap_uint64). *)
(** endian.h:67,72,86,91 *)
Definition bswap (n : nat) (v : Z) : Z := host_val (rev (host_bytes n v)).
(** endian.h:13,24,29,41,45,67,72,85,90: htobe32 ([n] = 4), htobe64 ([n] = 8) *)
Definition h_htobe (h : host) (n : nat) (v : Z) : Z := match h with Little => bswap n v | Big => v end.
(** endian.h:13,25,30,41,45,68,73,86,91: htole32, htole64 *)
Definition h_htole (h : host) (n : nat) (v : Z) : Z := match h with Little => v | Big => bswap n v end.

(** endian.h:116-125: read_little_32, read_little_64 *)
Definition h_read_little (h : host) (n : nat) (buf : list Z) : res Z := bs <- slice buf 0 n ;; Ok (h_htole h n (h_val h bs)).
(** endian.h:126-135: read_big_32, read_big_64 *)
Definition h_read_big (h : host) (n : nat) (buf : list Z) : res Z := bs <- slice buf 0 n ;; Ok (h_htobe h n (h_val h bs)).
(** endian.h:137-140 *)
Definition h_write_little_32 (h : host) (buf : list Z) (value : Z) : res (list Z) := store buf 0 (h_bytes h 4 (h_htole h 4 value)).
(** endian.h:142-145 *)
Definition h_write_big_32 (h : host) (buf : list Z) (value : Z) : res (list Z) := store buf 0 (h_bytes h 4 (h_htobe h 4 value)).
(** endian.h:147-149 *)
Definition h_le32 (h : host) (mem : list Z) (offset : nat) : res Z := h_read_little h 4 (at_off mem offset).
(** endian.h:150-152 *)
Definition h_le64 (h : host) (mem : list Z) (offset : nat) : res Z := h_read_little h 8 (at_off mem offset).
(** endian.h:153-155 *)
Definition h_be32 (h : host) (mem : list Z) (offset : nat) : res Z := h_read_big h 4 (at_off mem offset).
(** endian.h:156-158 *)
Definition h_be64 (h : host) (mem : list Z) (offset : nat) : res Z := h_read_big h 8 (at_off mem offset).

(* ---------------------------------------------------------------- *)
(** ** SHA-2 *)

(** sha2.c:13-16,22-28 *)
Definition h_ops32 (h : host) : ops :=
  {| o_wrap := u32; o_S0 := Sigma032; o_S1 := Sigma132; o_s0 := sigma032; o_s1 := sigma132; o_load := h_be32 h |}.
(** sha2.c:17-20,29-35 *)
Definition h_ops64 (h : host) : ops :=
  {| o_wrap := u64; o_S0 := Sigma064; o_S1 := Sigma164; o_s0 := sigma064; o_s1 := sigma164; o_load := h_be64 h |}.
(** sha2.c:380-506 *)
Definition h_sha256_transform (h : host) (s chunk : list Z) : res (list Z) :=
  '(rs, _) <- exec_lines (h_ops32 h) chunk (s, w_uninit) sha256_lines ;; Ok (add_regs u32 s rs).
(** sha2.c:508-669 *)
Definition h_sha512_transform (h : host) (s chunk : list Z) : res (list Z) :=
  '(rs, _) <- exec_lines (h_ops64 h) chunk (s, w_uninit) sha512_lines ;; Ok (add_regs u64 s rs).
(** sha2.c:703-710, 791, 798 (and sha1.c:144-148): the bytes of the array after [out[i] = htobe32(d[i])] *)
Definition h_out32 (h : host) (d : list Z) : list Z := concat (map (fun v => h_bytes h 4 (h_htobe h 4 v)) d).
(** sha2.c:748-755, 838, 845 *)
Definition h_out64 (h : host) (d : list Z) : list Z := concat (map (fun v => h_bytes h 8 (h_htobe h 8 v)) d).
(** sha2.c:39-378 *)
Definition h_d64_transform (h : host) (inp : list Z) : res (list Z) :=
  '(rs, w) <- exec_lines (h_ops32 h) inp (IV256, w_uninit) d64_transform1 ;;
  let t := add_regs u32 IV256 rs in
  '(rs, w) <- exec_lines (h_ops32 h) inp (t, w) d64_transform2 ;;
  let w := map Some (add_regs u32 t rs) ++ skipn 8 w in
  '(rs, _) <- exec_lines (h_ops32 h) inp (IV256, w) d64_transform3 ;;
  Ok (h_out32 h (add_regs u32 IV256 rs)).
(** sha2.c:671-694 *)
Definition h_sha256_final (h : host) (digest msg : list Z) (msg_len append_size : nat) : res (list Z) :=
  let chunk_end := h_htobe h 8 (u64 (Z.shiftl (u64 (Z.of_nat msg_len + Z.of_nat append_size)) 3)) in
  '(digest, msg_buf, msg_len) <- block_loop msg_len 64 (h_sha256_transform h) digest msg msg_len ;;
  let last_chunk := repeat 0 64 in
  tail <- slice msg_buf 0 msg_len ;;
  last_chunk <- store last_chunk 0 tail ;;
  last_chunk <- store last_chunk msg_len [0x80] ;;
  '(digest, last_chunk) <-
     (if (55 <? msg_len)%nat
      then digest <- h_sha256_transform h digest last_chunk ;; Ok (digest, repeat 0 64)
      else Ok (digest, last_chunk)) ;;
  last_chunk <- store last_chunk 56 (h_bytes h 8 chunk_end) ;;
  h_sha256_transform h digest last_chunk.
(** sha2.c:696-713 *)
Definition h_sha2_256 (h : host) (msg : list Z) (msg_len : nat) : res (list Z) :=
  digest <- h_sha256_final h IV256 msg msg_len 0 ;; Ok (h_out32 h digest).
(** sha2.c:715-738 *)
Definition h_sha512_final (h : host) (digest msg : list Z) (msg_len append_size : nat) : res (list Z) :=
  let chunk_end := h_htobe h 8 (u64 (Z.shiftl (u64 (Z.of_nat msg_len + Z.of_nat append_size)) 3)) in
  '(digest, msg_buf, msg_len) <- block_loop msg_len 128 (h_sha512_transform h) digest msg msg_len ;;
  let last_chunk := repeat 0 128 in
  tail <- slice msg_buf 0 msg_len ;;
  last_chunk <- store last_chunk 0 tail ;;
  last_chunk <- store last_chunk msg_len [0x80] ;;
  '(digest, last_chunk) <-
     (if (111 <? msg_len)%nat
      then digest <- h_sha512_transform h digest last_chunk ;; Ok (digest, repeat 0 128)
      else Ok (digest, last_chunk)) ;;
  last_chunk <- store last_chunk 120 (h_bytes h 8 chunk_end) ;;
  h_sha512_transform h digest last_chunk.
(** sha2.c:740-758 *)
Definition h_sha2_512 (h : host) (msg : list Z) (msg_len : nat) : res (list Z) :=
  digest <- h_sha512_final h IV512 msg msg_len 0 ;; Ok (h_out64 h digest).
(** [buffer[i] ^ c] over an array of 64-bit words (sha2.c:782-785, 829-832) *)
Definition h_xor_words (h : host) (c : Z) (buffer : list Z) : list Z :=
  (fix go (n : nat) (b : list Z) : list Z :=
     match n with
     | O => []
     | S n' => h_bytes h 8 (Z.lxor (h_val h (firstn 8 b)) c) ++ go n' (skipn 8 b)
     end) (length buffer / 8)%nat buffer.
(** sha2.c:760-803 *)
Definition h_hmac_sha256 (h : host) (key : list Z) (key_len : nat) (msg : list Z) (msg_len : nat) : res (list Z) :=
  buffer <-
    (if (key_len <=? 64)%nat
     then k <- slice key 0 key_len ;; Ok (k ++ repeat 0 (64 - key_len))
     else k <- h_sha2_256 h key key_len ;; Ok (k ++ repeat 0 32)) ;;
  let key_inner := h_xor_words h 0x3636363636363636 buffer in
  let key_outter := h_xor_words h 0x5C5C5C5C5C5C5C5C buffer in
  digest_inner <- h_sha256_transform h IV256 key_inner ;;
  digest_inner <- h_sha256_final h digest_inner msg msg_len 64 ;;
  let digest_inner := h_out32 h digest_inner in
  digest_outter <- h_sha256_transform h IV256 key_outter ;;
  digest_outter <- h_sha256_final h digest_outter digest_inner 32 64 ;;
  Ok (h_out32 h digest_outter).
(** sha2.c:805-849 *)
Definition h_hmac_sha512 (h : host) (key : list Z) (key_len : nat) (msg : list Z) (msg_len : nat) : res (list Z) :=
  buffer <-
    (if (key_len <=? 128)%nat
     then k <- slice key 0 key_len ;; Ok (k ++ repeat 0 (128 - key_len))
     else k <- h_sha2_512 h key key_len ;; Ok (k ++ repeat 0 64)) ;;
  let key_inner := h_xor_words h 0x3636363636363636 buffer in
  let key_outter := h_xor_words h 0x5C5C5C5C5C5C5C5C buffer in
  digest_inner <- h_sha512_transform h IV512 key_inner ;;
  digest_inner <- h_sha512_final h digest_inner msg msg_len 128 ;;
  let digest_inner := h_out64 h digest_inner in
  digest_outter <- h_sha512_transform h IV512 key_outter ;;
  digest_outter <- h_sha512_final h digest_outter digest_inner 64 128 ;;
  Ok (h_out64 h digest_outter).

(* ---------------------------------------------------------------- *)
(** ** SHA-1 and RIPEMD-160 *)

(** sha1.c:32-111 *)
Definition h_eval_wexp1 (h : host) (chunk : list Z) (w : list (option Z)) (e : wexp1) : res (Z * list (option Z)) :=
  match e with
  | WLoad1 i off => v <- h_be32 h chunk off ;; Ok (v, upd w i (Some v))
  | WSet1 i vs => x <- xor_vars w vs ;; let v := left1 x in Ok (v, upd w i (Some v))
  | WVal1 vs => x <- xor_vars w vs ;; Ok (left1 x, w)
  end.
(** sha1.c:16-18 *)
Definition h_exec_line1 (h : host) (chunk : list Z) (st : list Z * list (option Z)) (l : line1) : res (list Z * list (option Z)) :=
  let '(rs, w) := st in
  let '(R1 regs f k e) := l in
  '(wv, w') <- h_eval_wexp1 h chunk w e ;;
  match regs with
  | [a; b; c; d; e'] =>
      let r i := nth i rs (-1000) in
      let rs1 := upd rs e' (u32 (r e' + (ROL (r a) 5 + eval_f rs f + k + wv))) in
      Ok (upd rs1 b (ROL (nth b rs1 (-1000)) 30), w')
  | _ => UB
  end.
(** sha1.c:32-111, in order *)
Fixpoint h_exec_lines1 (h : host) (chunk : list Z) (st : list Z * list (option Z)) (ls : list line1) : res (list Z * list (option Z)) :=
  match ls with
  | [] => Ok st
  | l :: ls' => st' <- h_exec_line1 h chunk st l ;; h_exec_lines1 h chunk st' ls'
  end.
(** sha1.c:23-118 *)
Definition h_sha1_transform (h : host) (s chunk : list Z) : res (list Z) :=
  '(rs, _) <- h_exec_lines1 h chunk (s, w_uninit) sha1_lines ;; Ok (add_regs u32 s rs).
(** sha1.c:120-152 *)
Definition h_sha1 (h : host) (msg : list Z) (msg_len : nat) : res (list Z) :=
  let chunk_end := h_htobe h 8 (u64 (Z.shiftl (u64 (Z.of_nat msg_len)) 3)) in
  '(digest, msg_buf, msg_len) <- block_loop msg_len 64 (h_sha1_transform h) IV1 msg msg_len ;;
  let last_chunk := repeat 0 64 in
  tail <- slice msg_buf 0 msg_len ;;
  last_chunk <- store last_chunk 0 tail ;;
  last_chunk <- store last_chunk msg_len [0x80] ;;
  '(digest, last_chunk) <-
     (if (55 <? msg_len)%nat
      then digest <- h_sha1_transform h digest last_chunk ;; Ok (digest, repeat 0 64)
      else Ok (digest, last_chunk)) ;;
  last_chunk <- store last_chunk 56 (h_bytes h 8 chunk_end) ;;
  digest <- h_sha1_transform h digest last_chunk ;;
  Ok (h_out32 h digest).

(** ripemd160.c:88-95 *)
Fixpoint h_load_X (h : host) (chunk : list Z) (is : list nat) : res (list Z) :=
  match is with
  | [] => Ok []
  | i :: is' => x <- h_le32 h chunk (i * 4) ;; xs <- h_load_X h chunk is' ;; Ok (x :: xs)
  end.
(** ripemd160.c:84-284 *)
Definition h_ripemd160_transform (h : host) (s chunk : list Z) : res (list Z) :=
  X <- h_load_X h chunk (seq 0 16) ;;
  rs <- exec_rlines X (s ++ s) rmd_lines ;;
  match s, rs with
  | [s0; s1; s2; s3; s4], [aa; bb; cc; dd; ee; aaa; bbb; ccc; ddd; eee] =>
      let ddd := u32 (ddd + (cc + s1)) in
      let s1 := u32 (s2 + dd + eee) in
      let s2 := u32 (s3 + ee + aaa) in
      let s3 := u32 (s4 + aa + bbb) in
      let s4 := u32 (s0 + bb + ccc) in
      let s0 := ddd in
      Ok [s0; s1; s2; s3; s4]
  | _, _ => UB
  end.
(** ripemd160.c:310-314 *)
Definition h_out32le (h : host) (d : list Z) : list Z := concat (map (fun v => h_bytes h 4 (h_htole h 4 v)) d).
(** ripemd160.c:286-317 *)
Definition h_ripemd160 (h : host) (msg : list Z) (msg_len : nat) : res (list Z) :=
  let chunk_end := h_htole h 8 (u64 (Z.shiftl (u64 (Z.of_nat msg_len)) 3)) in
  '(digest, msg_buf, msg_len) <- block_loop msg_len 64 (h_ripemd160_transform h) IVr msg msg_len ;;
  let last_chunk := repeat 0 64 in
  tail <- slice msg_buf 0 msg_len ;;
  last_chunk <- store last_chunk 0 tail ;;
  last_chunk <- store last_chunk msg_len [0x80] ;;
  '(digest, last_chunk) <-
     (if (55 <? msg_len)%nat
      then digest <- h_ripemd160_transform h digest last_chunk ;; Ok (digest, repeat 0 64)
      else Ok (digest, last_chunk)) ;;
  last_chunk <- store last_chunk 56 (h_bytes h 8 chunk_end) ;;
  digest <- h_ripemd160_transform h digest last_chunk ;;
  Ok (h_out32le h digest).

(* ---------------------------------------------------------------- *)
(** ** src/btc *)

(** btc/hash.c:8-12 *)
Definition h_btc_hash160 (h : host) (msg : list Z) (msg_len : nat) : res (list Z) :=
  sha2_digest <- h_sha2_256 h msg msg_len ;; h_ripemd160 h sha2_digest 32.
(** btc/hash.c:14-18 *)
Definition h_btc_hash256 (h : host) (msg : list Z) (msg_len : nat) : res (list Z) :=
  sha2_digest <- h_sha2_256 h msg msg_len ;; h_sha2_256 h sha2_digest 32.
(** btc/hash.c:23-31 *)
Fixpoint h_btc_hash256_d64 (h : host) (mem : list Z) (out inp blocks : nat) : res (list Z) :=
  match blocks with
  | O => Ok mem
  | S blocks' =>
      d <- h_d64_transform h (skipn inp mem) ;;
      mem <- store mem out d ;;
      h_btc_hash256_d64 h mem (out + 32) (inp + 64) blocks'
  end.
(** btc/hash.c:42-53 *)
Definition h_btc_bip32_hash (h : host) (chain_code : list Z) (child header : Z) (data32 : list Z) : res (list Z) :=
  let buffer := uninit (1 + 32 + 4) in
  buffer <- store buffer 0 [u8 header] ;;
  d <- slice data32 0 32 ;;
  buffer <- store buffer 1 d ;;
  tl <- h_write_big_32 h (skipn 33 buffer) child ;;
  let buffer := firstn 33 buffer ++ tl in
  h_hmac_sha512 h chain_code 32 buffer 37.

(** btc/base58_check.c:10-31 *)
Definition h_to_base58_check (h : host) (buf prefix : list Z) : res (nat * list Z) :=
  let size_of_data := (length buf + length prefix)%nat in
  let size_of_all := (size_of_data + 4)%nat in
  let buffer := uninit size_of_all in
  buffer <- store buffer 0 prefix ;;
  buffer <- store buffer (length prefix) buf ;;
  window <- slice buffer 0 size_of_data ;;
  hash <- h_btc_hash256 h window size_of_data ;;
  h4 <- slice hash 0 4 ;;
  buffer <- store buffer size_of_data h4 ;;
  to_base58 buffer.
(** btc/base58_check.c:33-40 *)
Definition h_from_base58_check (h : host) (str : list Z) (str_len : nat) : res (nat * list Z) :=
  '(buf_size, buf) <- from_base58 str str_len ;;
  if (buf_size <? 4)%nat then Ok (O, buf)
  else
    window <- slice buf 0 (buf_size - 4) ;;
    hash <- h_btc_hash256 h window (buf_size - 4) ;;
    h4 <- slice hash 0 4 ;;
    c4 <- slice buf (buf_size - 4) 4 ;;
    if negb (bytes_eqb h4 c4) then Ok (O, buf)
    else Ok ((buf_size - 4)%nat, buf).

(** key.c:401-426 *)
Definition h_key_derive (h : host) (E : secp) (g : globals) (key32 chain32 out_key32 out_chain32 : list Z) (child : Z)
  : res (bool * list Z * list Z) :=
  '(ret, out) <- (if Z.shiftr child 31 =? 0 then
       pubkey64 <- key_get_pub E g key32 ;;
       '(ret, encoded_pubkey) <- pubkey_encode E g pubkey64 (uninit BTC_COMPRESSED_PUBLIC_KEY_SIZE) BTC_COMPRESSED_PUBLIC_KEY_SIZE ;;
       header <- rd encoded_pubkey 0 ;;
       out <- h_btc_bip32_hash h chain32 child header (skipn 1 encoded_pubkey) ;;
       _ <- cleanse encoded_pubkey 0 BTC_COMPRESSED_PUBLIC_KEY_SIZE ;;
       Ok (ret, out)
     else
       out <- h_btc_bip32_hash h chain32 child 0 key32 ;;
       Ok (true, out)) ;;
  if negb ret then Ok (ret, out_key32, out_chain32)
  else
    k <- slice key32 0 32 ;;
    out_key32 <- store out_key32 0 k ;;
    c <- slice out 32 32 ;;
    out_chain32 <- store out_chain32 0 c ;;
    '(ret, k) <- secp_privkey_tweak_add (g_sign g) out_key32 out ;;
    out_key32 <- store out_key32 0 k ;;
    Ok (ret, out_key32, out_chain32).
(** key.c:463-481 *)
Definition h_pubkey_derive (h : host) (E : secp) (g : globals) (encoded_pubkey33 chain32 out_pubkey33 out_chain32 : list Z) (child : Z)
  : res (bool * list Z * list Z) :=
  _ <- c_assert (Z.shiftr child 31 =? 0) ;;
  header <- rd encoded_pubkey33 0 ;;
  _ <- c_assert ((header =? 2) || (header =? 3)) ;;
  p <- pubkey_decode E g encoded_pubkey33 33 ;;
  match p with
  | None => Ok (false, out_pubkey33, out_chain32)
  | Some _ =>
      out <- h_btc_bip32_hash h chain32 child header (skipn 1 encoded_pubkey33) ;;
      c <- slice out 32 32 ;;
      out_chain32 <- store out_chain32 0 c ;;
      p <- secp_pubkey_parse E (g_verify g) encoded_pubkey33 33 ;;
      match p with
      | None => Ok (false, out_pubkey33, out_chain32)
      | Some P =>
          q <- secp_pubkey_tweak_add E (g_verify g) P out ;;
          match q with
          | None => Ok (false, out_pubkey33, out_chain32)
          | Some Q =>
              '(r, out_pubkey33) <- pubkey_encode E g Q out_pubkey33 33 ;;
              Ok (r, out_pubkey33, out_chain32)
          end
      end
  end.
(** key.c:546-552 *)
Fixpoint h_grind (h : host) (fuel : nat) (E : secp) (g : globals) (hash32 key32 : list Z) (sig : option (Z * Z)) (extra_entropy : list Z) (counter : Z)
  : res (outcome (option (Z * Z))) :=
  match sig with
  | None => Ok (Returned None)
  | Some s =>
      low <- SigHasLowR g s ;;
      if low : bool then Ok (Returned (Some s))
      else
        match fuel with
        | O => Ok Running
        | S fuel' =>
            let counter := u32 (counter + 1) in
            extra_entropy <- h_write_little_32 h extra_entropy counter ;;
            sig <- secp_ecdsa_sign E (g_sign g) hash32 key32 (Some extra_entropy) ;;
            h_grind h fuel' E g hash32 key32 sig extra_entropy counter
        end
  end.
(** key.c:534-554 *)
Definition h_key_sign (h : host) (fuel : nat) (E : secp) (g : globals) (key32 hash32 : list Z) : res (outcome (Z * Z)) :=
  sig <- secp_ecdsa_sign E (g_sign g) hash32 key32 None ;;
  r <- h_grind h fuel E g hash32 key32 sig (repeat 0 32) 0 ;;
  match r with
  | Returned (Some s) => Ok (Returned s)
  | Returned None => Abort
  | Fatal => Ok Fatal
  | Running => Ok Running
  end.
(** key.c:609-617 *)
Definition h_pubkey_keyid (h : host) (E : secp) (g : globals) (P : pt E) (compress : bool) : res (list Z) :=
  let encoded_len := if compress then BTC_COMPRESSED_PUBLIC_KEY_SIZE else BTC_PUBLIC_KEY_SIZE in
  '(r, encoded_pubkey) <- pubkey_encode E g P (uninit BTC_PUBLIC_KEY_SIZE) encoded_len ;;
  _ <- c_assert r ;;
  window <- slice encoded_pubkey 0 encoded_len ;;
  h_btc_hash160 h window encoded_len.
(** key.c:619-623 (the identifier is that of lines 603-607) *)
Definition h_key_fingerprint (h : host) (E : secp) (g : globals) (key32 : list Z) (compress : bool) : res Z :=
  P <- key_get_pub E g key32 ;;
  keyid <- h_pubkey_keyid h E g P compress ;; h_read_little h 4 keyid.
(** key.c:624-628 *)
Definition h_pubkey_fingerprint (h : host) (pubkey33 : list Z) : res Z :=
  window <- slice pubkey33 0 33 ;;
  keyid <- h_btc_hash160 h window 33 ;; h_read_little h 4 keyid.

(** exkey.c:10-22 *)
Definition h_exkey_init (h : host) (key : ex_key) (seed : list Z) (len : nat) : res ex_key :=
  out <- h_hmac_sha512 h hashkey 12 seed len ;;
  k <- slice out 0 32 ;;
  nk <- store (xk_key key) 0 k ;;
  c <- slice out 32 32 ;;
  nc <- store (x_chain_code (xk_ext key)) 0 c ;;
  _ <- cleanse out 0 64 ;;
  Ok (mkExKey (mkExt 0 0 0 nc) nk).
(** exkey.c:59-66 *)
Definition h_write_key_extension (h : host) (ext : ex_extension) (code : list Z) : res (list Z) :=
  code <- store code 0 [u8 (x_depth ext)] ;;
  code <- write_at code 1 (fun m => h_write_little_32 h m (x_fingerprint ext)) ;;
  code <- write_at code 5 (fun m => h_write_big_32 h m (x_child ext)) ;;
  c <- slice (x_chain_code ext) 0 32 ;;
  store code 9 c.
(** exkey.c:68-75 *)
Definition h_read_key_extension (h : host) (code : list Z) (ext : ex_extension) : res ex_extension :=
  d <- rd code 0 ;;
  f <- h_read_little h 4 (skipn 1 code) ;;
  c <- h_read_big h 4 (skipn 5 code) ;;
  cc <- slice code 9 32 ;;
  cc <- store (x_chain_code ext) 0 cc ;;
  Ok (mkExt d f c cc).
(** exkey.c:77-82 *)
Definition h_exkey_encode (h : host) (key : ex_key) (extkey74 : list Z) : res (list Z) :=
  code <- h_write_key_extension h (xk_ext key) extkey74 ;;
  code <- store code 41 [0] ;;
  k <- slice (xk_key key) 0 32 ;;
  store code 42 k.
(** exkey.c:84-88 *)
Definition h_exkey_decode (h : host) (extkey74 : list Z) (key : ex_key) : res ex_key :=
  ext <- h_read_key_extension h extkey74 (xk_ext key) ;;
  k <- slice extkey74 42 32 ;;
  k <- store (xk_key key) 0 k ;;
  Ok (mkExKey ext k).
(** exkey.c:118-122 *)
Definition h_expubkey_encode (h : host) (pubkey : ex_pubkey) (extkey74 : list Z) : res (list Z) :=
  code <- h_write_key_extension h (xp_ext pubkey) extkey74 ;;
  p <- slice (xp_c_pubkey pubkey) 0 33 ;;
  store code 41 p.
(** exkey.c:124-128 *)
Definition h_expubkey_decode (h : host) (extkey74 : list Z) (pubkey : ex_pubkey) : res ex_pubkey :=
  ext <- h_read_key_extension h extkey74 (xp_ext pubkey) ;;
  p <- slice extkey74 41 33 ;;
  p <- store (xp_c_pubkey pubkey) 0 p ;;
  Ok (mkExPub ext p).
(** exkey.c:90-99 *)
Definition h_exkey_to_string (h : host) (key : ex_key) (param : chain_parameters) : res (nat * list Z) :=
  extkey <- h_exkey_encode h key (uninit BIP32_EXTKEY_SIZE) ;;
  r <- h_to_base58_check h extkey (cp_ext_sec param) ;;
  _ <- cleanse extkey 0 BIP32_EXTKEY_SIZE ;;
  Ok r.
(** exkey.c:101-116 *)
Definition h_exkey_from_string (h : host) (str : list Z) (str_len : nat) (key : ex_key) (param : chain_parameters) : res (Z * ex_key) :=
  let extkey := uninit (BIP32_EXTKEY_SIZE + 8) in
  _ <- c_assert (length (cp_ext_sec param) <=? 8)%nat ;;
  '(size, out) <- h_from_base58_check h str str_len ;;
  extkey <- store extkey 0 out ;;
  _ <- c_assert (size <=? BIP32_EXTKEY_SIZE + 8)%nat ;;
  if (size <=? BIP32_EXTKEY_SIZE)%nat || (BIP32_EXTKEY_SIZE + 8 <? size)%nat then Ok (0, key) else
  let prefix_size := (size - BIP32_EXTKEY_SIZE)%nat in
  if negb (prefix_size =? length (cp_ext_sec param))%nat then Ok (0, key) else
  p <- slice extkey 0 prefix_size ;;
  if negb (bytes_eqb p (cp_ext_sec param)) then Ok (0, key) else
  key <- h_exkey_decode h (skipn prefix_size extkey) key ;;
  _ <- cleanse extkey 0 (BIP32_EXTKEY_SIZE + 8) ;;
  Ok (1, key).
(** exkey.c:130-138 *)
Definition h_expubkey_to_string (h : host) (pubkey : ex_pubkey) (param : chain_parameters) : res (nat * list Z) :=
  extkey <- h_expubkey_encode h pubkey (uninit BIP32_EXTKEY_SIZE) ;;
  h_to_base58_check h extkey (cp_ext_pub param).
(** exkey.c:139-153 *)
Definition h_expubkey_from_string (h : host) (str : list Z) (str_len : nat) (pub : ex_pubkey) (param : chain_parameters) : res (Z * ex_pubkey) :=
  let extkey := uninit (BIP32_EXTKEY_SIZE + 8) in
  _ <- c_assert (length (cp_ext_pub param) <=? 8)%nat ;;
  '(size, out) <- h_from_base58_check h str str_len ;;
  extkey <- store extkey 0 out ;;
  _ <- c_assert (size <=? BIP32_EXTKEY_SIZE + 8)%nat ;;
  if (size <=? BIP32_EXTKEY_SIZE)%nat || (BIP32_EXTKEY_SIZE + 8 <? size)%nat then Ok (0, pub) else
  let prefix_size := (size - BIP32_EXTKEY_SIZE)%nat in
  if negb (prefix_size =? length (cp_ext_pub param))%nat then Ok (0, pub) else
  p <- slice extkey 0 prefix_size ;;
  if negb (bytes_eqb p (cp_ext_pub param)) then Ok (0, pub) else
  pub <- h_expubkey_decode h (skipn prefix_size extkey) pub ;;
  Ok (1, pub).
