(** The writers of src/btc/key.c, src/btc/exkey.c, src/btc/hash.c and src/hash/*.c on one shared
    memory, so that their arguments may overlap: pointers are addresses in [mem]. *)
From Verif Require Import Base M_Endian M_Sha2 M_Sha1 M_Ripemd M_Hash M_Random M_Secp M_Key M_Exkey.

(* ---------------------------------------------------------------- *)
(** ** memcpy *)

(** What memcpy does when its two regions are the same region: the C standard
    leaves it undefined ([Standard]); every compiler relies on it doing nothing
    for the copies it generates itself ([Tolerant]).  Regions that overlap in part
    are undefined under both. *)
(** the memcpy calls of key.c:419,420,473 and exkey.c:51 *)
Inductive copy_rule := Standard | Tolerant.

(** memcpy(dst, src, n), 0 < n (key.c:419,420,473, exkey.c:51) *)
Definition memcpy_at (rule : copy_rule) (mem : list Z) (dst src n : nat) : res (list Z) :=
  let apart := ((dst + n <=? src) || (src + n <=? dst))%nat in
  let same := match rule with Standard => false | Tolerant => (dst =? src)%nat end in
  _ <- c_defined (apart || same) ;;
  bs <- slice mem src n ;;
  store mem dst bs.

(* ---------------------------------------------------------------- *)
(** ** Derivation *)

(** key.c:401-426: return value and memory afterwards; [key], [chain], [outk], [outc] are the four pointers. *)
Definition key_derive_at (rule : copy_rule) (E : secp) (g : globals) (mem : list Z) (key chain outk outc : nat) (child : Z)
  : res (bool * list Z) :=
  '(ret, out) <- (if Z.shiftr child 31 =? 0 then
       pubkey64 <- key_get_pub E g (skipn key mem) ;;
       '(ret, encoded_pubkey) <- pubkey_encode E g pubkey64 (uninit BTC_COMPRESSED_PUBLIC_KEY_SIZE) BTC_COMPRESSED_PUBLIC_KEY_SIZE ;;
       header <- rd encoded_pubkey 0 ;;
       out <- btc_bip32_hash (skipn chain mem) child header (skipn 1 encoded_pubkey) ;;
       _ <- cleanse encoded_pubkey 0 BTC_COMPRESSED_PUBLIC_KEY_SIZE ;;
       Ok (ret, out)
     else
       out <- btc_bip32_hash (skipn chain mem) child 0 (skipn key mem) ;;
       Ok (true, out)) ;;
  if negb ret then Ok (ret, mem)
  else
    mem <- memcpy_at rule mem outk key 32 ;;
    c <- slice out 32 32 ;;
    mem <- store mem outc c ;;
    '(ret, k) <- secp_privkey_tweak_add (g_sign g) (skipn outk mem) out ;;
    mem <- store mem outk k ;;
    Ok (ret, mem).

(** key.c:483-501 with the output at address [out] *)
Definition pubkey_encode_at (E : secp) (g : globals) (mem : list Z) (P : pt E) (out len : nat) : res (bool * list Z) :=
  _ <- c_assert ((len =? BTC_PUBLIC_KEY_SIZE) || (len =? BTC_COMPRESSED_PUBLIC_KEY_SIZE))%nat ;;
  bs <- secp_pubkey_serialize E (g_sign g) P len (len =? 33)%nat ;;
  mem <- store mem out bs ;;
  let out_len := length bs in
  let r := (out_len =? len)%nat in
  _ <- c_assert (out_len =? len)%nat ;;
  Ok (r, mem).

(** key.c:463-481 *)
Definition pubkey_derive_at (E : secp) (g : globals) (mem : list Z) (pub chain outp outc : nat) (child : Z)
  : res (bool * list Z) :=
  _ <- c_assert (Z.shiftr child 31 =? 0) ;;
  header <- rd mem pub ;;
  _ <- c_assert ((header =? 2) || (header =? 3)) ;;
  p <- pubkey_decode E g (skipn pub mem) 33 ;;
  match p with
  | None => Ok (false, mem)
  | Some _ =>
      out <- btc_bip32_hash (skipn chain mem) child header (skipn (pub + 1) mem) ;;
      c <- slice out 32 32 ;;
      mem <- store mem outc c ;;
      p <- secp_pubkey_parse E (g_verify g) (skipn pub mem) 33 ;;
      match p with
      | None => Ok (false, mem)
      | Some P =>
          q <- secp_pubkey_tweak_add E (g_verify g) P out ;;
          match q with
          | None => Ok (false, mem)
          | Some Q => pubkey_encode_at E g mem Q outp 33
          end
      end
  end.

(* ---------------------------------------------------------------- *)
(** ** Extended keys as structures in memory *)

(** Offsets of the members of fingera_ex_extension, fingera_ex_key and
    fingera_ex_pubkey where uint32_t has size and alignment 4 (exkey.h:22-37):
    depth 0, three bytes of padding, fingerprint 4, child 8, chain_code 12, and behind
    the 44 bytes of the extension the key or the compressed public key. *)
Definition o_depth : nat := 0.
(** exkey.h:24 *)
Definition o_fingerprint : nat := 4.
(** exkey.h:25 *)
Definition o_child : nat := 8.
(** exkey.h:26 *)
Definition o_chain : nat := 12.
(** sizeof(fingera_ex_extension) (exkey.h:27) *)
Definition ext_size : nat := 44.
(** exkey.h:31,36 *)
Definition o_key : nat := 44.

(** A uint32_t member holds its value in the host's byte order (little endian, as elsewhere; M_Host has the other one). *)
(** exkey.c:29-31,43-45 *)
Definition put32 (mem : list Z) (a : nat) (v : Z) : res (list Z) := store mem a (host_bytes 4 (u32 v)).

(** exkey.c:24-34 *)
Definition exkey_derive_at (rule : copy_rule) (E : secp) (g : globals) (mem : list Z) (key derived : nat) (child fingerprint : Z)
  : res (bool * list Z) :=
  '(r, mem) <- key_derive_at rule E g mem (key + o_key) (key + o_chain) (derived + o_key) (derived + o_chain) child ;;
  if r : bool then
    mem <- put32 mem (derived + o_fingerprint) fingerprint ;;
    d <- rd mem (key + o_depth) ;;
    mem <- store mem (derived + o_depth) [u8 (d + 1)] ;;
    mem <- put32 mem (derived + o_child) child ;;
    Ok (r, mem)
  else Ok (r, mem).

(** exkey.c:36-47 *)
Definition expubkey_derive_at (E : secp) (g : globals) (mem : list Z) (pubkey derived : nat) (child fingerprint : Z)
  : res (bool * list Z) :=
  '(r, mem) <- pubkey_derive_at E g mem (pubkey + o_key) (pubkey + o_chain) (derived + o_key) (derived + o_chain) child ;;
  if negb r then Ok (false, mem)
  else
    d <- rd mem (pubkey + o_depth) ;;
    mem <- store mem (derived + o_depth) [u8 (d + 1)] ;;
    mem <- put32 mem (derived + o_child) child ;;
    mem <- put32 mem (derived + o_fingerprint) fingerprint ;;
    Ok (true, mem).

(** exkey.c:49-57 *)
Definition exkey_get_pub_at (rule : copy_rule) (E : secp) (g : globals) (mem : list Z) (key pubkey : nat) : res (list Z) :=
  mem <- memcpy_at rule mem pubkey key ext_size ;;
  pub <- key_get_pub E g (skipn (key + o_key) mem) ;;
  '(r, mem) <- pubkey_encode_at E g mem pub (pubkey + o_key) 33 ;;
  _ <- c_assert r ;;
  Ok mem.

(* ---------------------------------------------------------------- *)
(** ** Hash functions *)

(** Access to a word at an address that is not a multiple of its size: undefined
    in C ([Strict]), an ordinary access on x86 ([AnyAddress]). *)
(** the casts to uint32_t* and uint64_t* of sha1.c:125,141, sha2.c:50,690,697,734,745,773,820, ripemd160.c:291,307 *)
Inductive align_rule := Strict | AnyAddress.
(** the same casts *)
Definition word_access (rule : align_rule) (a size : nat) : res unit :=
  c_defined (match rule with Strict => (a mod size =? 0)%nat | AnyAddress => true end).

(** Where the compiler put the local byte arrays that are accessed as words: [last_chunk]
    (sha1.c:121, sha2.c:673,717, ripemd160.c:287) and [sha2_digest] (btc/hash.c:9,15). *)
Record frame := mkFrame { f_last_chunk : nat; f_sha2_digest : nat }.

(** out[i] = v for the listed (i, v) in this order, words of [w] bytes (sha1.c:144-148,
    sha2.c:703-710,748-755,796-798,843-845, ripemd160.c:310-314) *)
Fixpoint store_words (w : nat) (mem : list Z) (out : nat) (vs : list (nat * Z)) : res (list Z) :=
  match vs with
  | [] => Ok mem
  | (i, v) :: vs => mem <- store mem (out + w * i) (host_bytes w v) ;; store_words w mem out vs
  end.

(** the digest words [d] with their indices: out[0], out[1], ... (sha2.c:703-710,796-798,843-845, sha1.c:144-148, ripemd160.c:310-314) *)
Definition in_order (d : list Z) : list (nat * Z) := combine (seq 0 (length d)) d.
(** out[1], out[0], out[2], ... (sha2.c:748-755) *)
Definition second_first (l : list (nat * Z)) : list (nat * Z) :=
  match l with a :: b :: t => b :: a :: t | _ => l end.

(** sha2.c:696-713; the message is read through memcpy (endian.h:147-151, sha2.c:682), the output through a uint32_t pointer *)
Definition sha2_256_at (rule : align_rule) (f : frame) (mem : list Z) (msg len hash : nat) : res (list Z) :=
  _ <- word_access rule hash 4 ;;
  _ <- word_access rule (f_last_chunk f + 56) 8 ;;
  digest <- sha256_final IV256 (skipn msg mem) len 0 ;;
  store_words 4 mem hash (in_order (map htobe32 digest)).

(** sha2.c:740-758 *)
Definition sha2_512_at (rule : align_rule) (f : frame) (mem : list Z) (msg len hash : nat) : res (list Z) :=
  _ <- word_access rule hash 8 ;;
  _ <- word_access rule (f_last_chunk f + 120) 8 ;;
  digest <- sha512_final IV512 (skipn msg mem) len 0 ;;
  store_words 8 mem hash (second_first (in_order (map htobe64 digest))).

(** sha1.c:120-152 *)
Definition sha1_at (rule : align_rule) (f : frame) (mem : list Z) (msg len hash : nat) : res (list Z) :=
  _ <- word_access rule hash 4 ;;
  let chunk_end := htobe64 (u64 (Z.shiftl (u64 (Z.of_nat len)) 3)) in
  '(digest, msg_buf, len) <- block_loop len 64 sha1_transform IV1 (skipn msg mem) len ;;
  let last_chunk := repeat 0 64 in
  tail <- slice msg_buf 0 len ;;
  last_chunk <- store last_chunk 0 tail ;;
  last_chunk <- store last_chunk len [0x80] ;;
  '(digest, last_chunk) <-
     (if (55 <? len)%nat
      then digest <- sha1_transform digest last_chunk ;; Ok (digest, repeat 0 64)
      else Ok (digest, last_chunk)) ;;
  _ <- word_access rule (f_last_chunk f + 56) 8 ;;
  last_chunk <- store last_chunk 56 (host_bytes 8 chunk_end) ;;
  digest <- sha1_transform digest last_chunk ;;
  store_words 4 mem hash (in_order (map htobe32 digest)).

(** ripemd160.c:286-318 *)
Definition ripemd160_at (rule : align_rule) (f : frame) (mem : list Z) (msg len hash : nat) : res (list Z) :=
  _ <- word_access rule hash 4 ;;
  let chunk_end := htole64 (u64 (Z.shiftl (u64 (Z.of_nat len)) 3)) in
  '(digest, msg_buf, len) <- block_loop len 64 ripemd160_transform IVr (skipn msg mem) len ;;
  let last_chunk := repeat 0 64 in
  tail <- slice msg_buf 0 len ;;
  last_chunk <- store last_chunk 0 tail ;;
  last_chunk <- store last_chunk len [0x80] ;;
  '(digest, last_chunk) <-
     (if (55 <? len)%nat
      then digest <- ripemd160_transform digest last_chunk ;; Ok (digest, repeat 0 64)
      else Ok (digest, last_chunk)) ;;
  _ <- word_access rule (f_last_chunk f + 56) 8 ;;
  last_chunk <- store last_chunk 56 (host_bytes 8 chunk_end) ;;
  digest <- ripemd160_transform digest last_chunk ;;
  store_words 4 mem hash (in_order (map htole32 digest)).

(** sha2.c:760-803; [buffer], [key_inner], [digest_inner], ... are arrays of words, so always aligned *)
Definition hmac_sha256_at (rule : align_rule) (f : frame) (mem : list Z) (key key_len msg msg_len out : nat) : res (list Z) :=
  _ <- word_access rule out 4 ;;
  buffer <-
    (if (key_len <=? 64)%nat
     then k <- slice mem key key_len ;; Ok (k ++ repeat 0 (64 - key_len))
     else k <- sha2_256 (skipn key mem) key_len ;; Ok (k ++ repeat 0 32)) ;;
  let key_inner := xor_words 0x3636363636363636 buffer in
  let key_outter := xor_words 0x5C5C5C5C5C5C5C5C buffer in
  digest_inner <- sha256_transform IV256 key_inner ;;
  _ <- word_access rule (f_last_chunk f + 56) 8 ;;
  digest_inner <- sha256_final digest_inner (skipn msg mem) msg_len 64 ;;
  let digest_inner := out32 digest_inner in
  digest_outter <- sha256_transform IV256 key_outter ;;
  digest_outter <- sha256_final digest_outter digest_inner 32 64 ;;
  store_words 4 mem out (in_order (map htobe32 digest_outter)).

(** sha2.c:805-849 *)
Definition hmac_sha512_at (rule : align_rule) (f : frame) (mem : list Z) (key key_len msg msg_len out : nat) : res (list Z) :=
  _ <- word_access rule out 8 ;;
  buffer <-
    (if (key_len <=? 128)%nat
     then k <- slice mem key key_len ;; Ok (k ++ repeat 0 (128 - key_len))
     else k <- sha2_512 (skipn key mem) key_len ;; Ok (k ++ repeat 0 64)) ;;
  let key_inner := xor_words 0x3636363636363636 buffer in
  let key_outter := xor_words 0x5C5C5C5C5C5C5C5C buffer in
  digest_inner <- sha512_transform IV512 key_inner ;;
  _ <- word_access rule (f_last_chunk f + 120) 8 ;;
  digest_inner <- sha512_final digest_inner (skipn msg mem) msg_len 128 ;;
  let digest_inner := out64 digest_inner in
  digest_outter <- sha512_transform IV512 key_outter ;;
  digest_outter <- sha512_final digest_outter digest_inner 64 128 ;;
  store_words 8 mem out (in_order (map htobe64 digest_outter)).

(** btc/hash.c:8-12: the inner call writes the local [sha2_digest], modelled as a fresh memory of 32 bytes appended at the end *)
Definition btc_hash160_at (rule : align_rule) (f : frame) (mem : list Z) (msg len hash : nat) : res (list Z) :=
  _ <- word_access rule (f_sha2_digest f) 4 ;;
  _ <- word_access rule (f_last_chunk f + 56) 8 ;;
  let l := length mem in
  digest <- sha256_final IV256 (skipn msg mem) len 0 ;;
  ext <- store_words 4 (mem ++ uninit 32) l (in_order (map htobe32 digest)) ;;
  ext <- ripemd160_at rule f ext l 32 hash ;;
  Ok (firstn l ext).

(** btc/hash.c:14-18 *)
Definition btc_hash256_at (rule : align_rule) (f : frame) (mem : list Z) (msg len hash : nat) : res (list Z) :=
  _ <- word_access rule (f_sha2_digest f) 4 ;;
  _ <- word_access rule (f_last_chunk f + 56) 8 ;;
  let l := length mem in
  digest <- sha256_final IV256 (skipn msg mem) len 0 ;;
  ext <- store_words 4 (mem ++ uninit 32) l (in_order (map htobe32 digest)) ;;
  ext <- sha2_256_at rule f ext l 32 hash ;;
  Ok (firstn l ext).

(** btc/hash.c:42-53: [buffer] is a fresh memory of 37 bytes at the end *)
Definition btc_bip32_hash_at (rule : align_rule) (f : frame) (mem : list Z) (chain : nat) (child header : Z) (data out : nat) : res (list Z) :=
  let l := length mem in
  d <- slice mem data 32 ;;
  ext <- store (mem ++ uninit 37) l [u8 header] ;;
  ext <- store ext (l + 1) d ;;
  tl <- write_big_32 (skipn (l + 33) ext) child ;;
  ext <- hmac_sha512_at rule f (firstn (l + 33) ext ++ tl) chain 32 l 37 out ;;
  Ok (firstn l ext).
