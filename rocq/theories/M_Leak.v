(** The hash functions once more, this time with what an observer of the machine
    sees: the outcome of every [if] and loop test and the position and size of
    every access to memory (not the values that are read or written).
    Each function below is the function of M_Sha1, M_Sha2, M_Ripemd, M_Hash with
    these observations added; L_Leak proves that dropping them gives that model back.
    Simplifications: scalar locals (a..h, w0..w15, X0..X15, i, chunk_end, the
    [const static] constants) are taken to be registers or fixed places and make no observation;
    memset, memcpy and [fingera_cleanse] (cleanse.c:8-15) are one access of their
    whole range; the macros of sha1.c:10-18, sha2.c:8-35 and ripemd160.c:9-80 contain no
    test and no access besides be32/be64/le32, so one macro call is one step.  This is
    a model of the C text: what a compiler makes of it is not covered. *)
From Verif Require Import Base M_Endian M_Sha2 M_Sha1 M_Ripemd M_Hash.

(** The objects the functions access: those the caller passes (const void *msg,
    *key / *chain_code, *data32, void *hash / *hmac / *out) and the local arrays, sha1.c:121-122,
    sha2.c:673,698,764-774,809-820, ripemd160.c:287-288, btc/hash.c:9,15,44.
    For M_LeakText: the text buffer [str] and the prefix the caller passes, the encoding tables hex.c:4-9
    and base58.c:10-11, the locals base58.c:40, btc/base58_check.c:13,18 and btc/key.c:364.
    For M_LeakKey: the hash to sign, signature, public key, structures, 74 and 214/279 byte forms and identifier the caller
    passes, the locals btc/key.c:257,403,406-407,519,542,605,613,620, btc/exkey.c:13,52 and the constants btc/key.c:266-275,295-312,
    btc/exkey.c:11. *)
Inductive object :=
| Msg | Key | Data32 | Out
| LastChunk | Digest | DigestInner | DigestOutter | Buffer | KeyInner | KeyOutter
| Sha2Digest | Bip32Buffer
| Str | Prefix | HexTable | Base58Table | B58 | CheckBuffer | CheckHash | Buf33
| Hash32 | Signature64 | PubKey | ExKey | Derived | ExPub | ExtKey74 | KeyDer | KeyId
| DeriveOut | Pubkey64 | EncodedPubkey | CompactSig | ExtraEntropy | LocalKeyId | InitOut | LocalPub | SeedKey | DerBegin | DerMiddle.

(** The functions of libsecp256k1 that M_LeakKey calls: secp256k1_ec_pubkey_create (btc/key.c:259,457), _ec_pubkey_serialize
    (btc/key.c:288,321,494), _ec_privkey_tweak_add (btc/key.c:421), _ecdsa_sign (btc/key.c:538,548),
    _ecdsa_signature_serialize_compact (btc/key.c:520) *)
Inductive libcall := PubkeyCreate | PubkeySerialize | PrivkeyTweakAdd | EcdsaSign | SerializeCompact.

(** One observation: a test came out [b]; [n] bytes at offset [off] of [o] were read or
    written; libsecp256k1 was called with these pointers and returned [ret] (what it does inside is not covered).
    (every if, while, for, access and library call of sha1.c, sha2.c, ripemd160.c, btc/hash.c and the functions of M_LeakText, M_LeakKey) *)
Inductive obs :=
| Test (b : bool)
| Read (o : object) (off n : nat)
| Write (o : object) (off n : nat)
| Lib (f : libcall) (args : list (object * nat)) (ret : bool).

(** A run: the observations it makes and its outcome.  (any function body below) *)
Definition lk (A : Type) : Type := (list obs * res A)%type.
(** sequencing, e.g. sha2.c:671-694 *)
Definition bindl {A B} (x : lk A) (f : A -> lk B) : lk B :=
  match snd x with
  | Ok a => (fst x ++ fst (f a), snd (f a))
  | UB => (fst x, UB)
  | Abort => (fst x, Abort)
  end.
(** a statement that makes the observations [t], e.g. sha2.c:681 *)
Definition tell (t : list obs) : lk unit := (t, Ok tt).
(** a statement that makes none, e.g. sha2.c:675 *)
Definition pure {A} (r : res A) : lk A := ([], r).
Notation "x <~ e1 ;; e2" := (bindl e1 (fun x => e2))
  (at level 61, e1 at next level, right associativity).
Notation "' p <~ e1 ;; e2" := (bindl e1 (fun p => e2))
  (at level 61, p pattern, e1 at next level, right associativity).

(** A pointer: an object and an offset in it.  (the pointer arguments of the functions below) *)
Definition ptr : Type := (object * nat)%type.
(** [p + n], e.g. sha2.c:679 *)
Definition padd (p : ptr) (n : nat) : ptr := (fst p, (snd p + n)%nat).
(** reading resp. writing [n] bytes at [p], e.g. endian.h:126-135 *)
Definition read (p : ptr) (n : nat) : obs := Read (fst p) (snd p) n.
(** e.g. endian.h:137-145 *)
Definition write (p : ptr) (n : nat) : obs := Write (fst p) (snd p) n.

(** [a = s[0], b = s[1], ..]: [n] words of [sz] bytes are read.  sha1.c:24, sha2.c:381-382,
    509-510, ripemd160.c:85-86 *)
Definition read_words (p : ptr) (n sz : nat) : list obs := map (fun i => read (padd p (i * sz)) sz) (seq 0 n).
(** [s[0] += a; s[1] += b; ..]  sha1.c:113-117, sha2.c:498-505, 661-668 *)
Definition add_words (p : ptr) (n sz : nat) : list obs :=
  flat_map (fun i => [read (padd p (i * sz)) sz; write (padd p (i * sz)) sz]) (seq 0 n).
(** [out[i] = f(digest[i])] for each [i] of [is].  sha1.c:144-148, sha2.c:703-710, 748-755,
    ripemd160.c:310-314 *)
Definition copy_words (dst src : ptr) (is : list nat) (sz : nat) : list obs :=
  flat_map (fun i => [read (padd src (i * sz)) sz; write (padd dst (i * sz)) sz]) is.
(** [for (i = 0; i < n; i++) body(i)] with a body that makes the observations [body i].
    sha2.c:782-785, 790-792, 797-799, 829-832, 837-839, 844-846 *)
Definition for_loop (n : nat) (body : nat -> list obs) : list obs :=
  flat_map (fun i => Test true :: body i) (seq 0 n) ++ [Test false].

(** One ROUND32 / ROUND64 call: a load, if its word expression has one (sha2.c:22-35). *)
Definition exec_line_l (o : ops) (sz : nat) (p : ptr) (chunk : list Z) (st : list Z * list (option Z)) (l : line)
  : lk (list Z * list (option Z)) :=
  let '(R _ _ e) := l in
  _ <~ tell (match e with WLoad _ off => [read (padd p off) sz] | _ => [] end) ;;
  pure (exec_line o chunk st l).
(** sha2.c:54-376, 387-496, 515-659, in order *)
Fixpoint exec_lines_l (o : ops) (sz : nat) (p : ptr) (chunk : list Z) (st : list Z * list (option Z)) (ls : list line)
  : lk (list Z * list (option Z)) :=
  match ls with
  | [] => pure (Ok st)
  | l :: ls' => st' <~ exec_line_l o sz p chunk st l ;; exec_lines_l o sz p chunk st' ls'
  end.

(** sha2.c:380-506 *)
Definition sha256_transform_l (d p : ptr) (s chunk : list Z) : lk (list Z) :=
  _ <~ tell (read_words d 8 4) ;;
  '(rs, _) <~ exec_lines_l ops32 4 p chunk (s, w_uninit) sha256_lines ;;
  _ <~ tell (add_words d 8 4) ;;
  pure (Ok (add_regs u32 s rs)).
(** sha2.c:508-669 *)
Definition sha512_transform_l (d p : ptr) (s chunk : list Z) : lk (list Z) :=
  _ <~ tell (read_words d 8 8) ;;
  '(rs, _) <~ exec_lines_l ops64 8 p chunk (s, w_uninit) sha512_lines ;;
  _ <~ tell (add_words d 8 8) ;;
  pure (Ok (add_regs u64 s rs)).

(** sha2.c:39-378 *)
Definition hash256_d64_transform_l (out p : ptr) (inp : list Z) : lk (list Z) :=
  '(rs, w) <~ exec_lines_l ops32 4 p inp (IV256, w_uninit) d64_transform1 ;;
  let t := add_regs u32 IV256 rs in
  '(rs, w) <~ exec_lines_l ops32 4 p inp (t, w) d64_transform2 ;;
  let w := map Some (add_regs u32 t rs) ++ skipn 8 w in
  '(rs, _) <~ exec_lines_l ops32 4 p inp (IV256, w) d64_transform3 ;;
  _ <~ tell (map (fun i => write (padd out (i * 4)) 4) (seq 0 8)) ;;
  pure (Ok (out32 (add_regs u32 IV256 rs))).

(** One ROUND call of sha1.c:16-18. *)
Definition exec_line1_l (p : ptr) (chunk : list Z) (st : list Z * list (option Z)) (l : line1)
  : lk (list Z * list (option Z)) :=
  let '(R1 _ _ _ e) := l in
  _ <~ tell (match e with WLoad1 _ off => [read (padd p off) 4] | _ => [] end) ;;
  pure (exec_line1 chunk st l).
(** sha1.c:32-111, in order *)
Fixpoint exec_lines1_l (p : ptr) (chunk : list Z) (st : list Z * list (option Z)) (ls : list line1)
  : lk (list Z * list (option Z)) :=
  match ls with
  | [] => pure (Ok st)
  | l :: ls' => st' <~ exec_line1_l p chunk st l ;; exec_lines1_l p chunk st' ls'
  end.
(** sha1.c:23-118 *)
Definition sha1_transform_l (d p : ptr) (s chunk : list Z) : lk (list Z) :=
  _ <~ tell (read_words d 5 4) ;;
  '(rs, _) <~ exec_lines1_l p chunk (s, w_uninit) sha1_lines ;;
  _ <~ tell (add_words d 5 4) ;;
  pure (Ok (add_regs u32 s rs)).

(** ripemd160.c:88-95 *)
Fixpoint load_X_l (p : ptr) (chunk : list Z) (is : list nat) : lk (list Z) :=
  match is with
  | [] => pure (Ok [])
  | i :: is' =>
      _ <~ tell [read (padd p (i * 4)) 4] ;;
      x <~ pure (le32 chunk (i * 4)) ;;
      xs <~ load_X_l p chunk is' ;; pure (Ok (x :: xs))
  end.
(** ripemd160.c:84-284; lines 277-283 read and write the words of [s] in this order:
    s[1]; s[2], s[1]; s[3], s[2]; s[4], s[3]; s[0], s[4]; s[0]. *)
Definition ripemd160_transform_l (d p : ptr) (s chunk : list Z) : lk (list Z) :=
  _ <~ tell (read_words d 5 4 ++ read_words d 5 4) ;;
  X <~ load_X_l p chunk (seq 0 16) ;;
  rs <~ pure (exec_rlines X (s ++ s) rmd_lines) ;;
  _ <~ tell [read (padd d 4) 4;
             read (padd d 8) 4; write (padd d 4) 4; read (padd d 12) 4; write (padd d 8) 4;
             read (padd d 16) 4; write (padd d 12) 4; read (padd d 0) 4; write (padd d 16) 4;
             write (padd d 0) 4] ;;
  pure (match s, rs with
        | [s0; s1; s2; s3; s4], [aa; bb; cc; dd; ee; aaa; bbb; ccc; ddd; eee] =>
            let ddd := u32 (ddd + (cc + s1)) in
            let s1 := u32 (s2 + dd + eee) in
            let s2 := u32 (s3 + ee + aaa) in
            let s3 := u32 (s4 + aa + bbb) in
            let s4 := u32 (s0 + bb + ccc) in
            let s0 := ddd in
            Ok [s0; s1; s2; s3; s4]
        | _, _ => UB
        end).

(** The loop of sha1.c:127-131, sha2.c:676-680, 720-724, ripemd160.c:293-297. *)
Fixpoint block_loop_l (fuel blk : nat) (transform : ptr -> list Z -> list Z -> lk (list Z))
  (p : ptr) (digest msg_buf : list Z) (msg_len : nat) : lk (list Z * list Z * nat) :=
  _ <~ tell [Test (blk <=? msg_len)%nat] ;;
  if (blk <=? msg_len)%nat then
    match fuel with
    | O => pure UB
    | S f =>
        _ <~ pure (slice msg_buf 0 blk) ;;
        digest <~ transform p digest msg_buf ;;
        block_loop_l f blk transform (padd p blk) digest (skipn blk msg_buf) (msg_len - blk)
    end
  else pure (Ok (digest, msg_buf, msg_len)).

(** The padding code, which is the same text in sha1.c:126-142, sha2.c:675-691,
    719-735 and ripemd160.c:292-308: [blk] is the block size, the length goes to the
    last 8 bytes of [last_chunk], [thr] is 55 or 111 and [chunk_end] is the 64-bit length word. *)
Definition pad_l (blk thr : nat) (transform : ptr -> list Z -> list Z -> lk (list Z))
  (p : ptr) (chunk_end : Z) (digest msg : list Z) (msg_len : nat) : lk (list Z) :=
  '(digest, msg_buf, rest_len) <~ block_loop_l msg_len blk transform p digest msg msg_len ;;
  (* memset, memcpy, last_chunk[msg_len] = 0x80 *)
  _ <~ tell [Write LastChunk 0 blk] ;;
  let last_chunk := repeat 0 blk in
  _ <~ tell [read (padd p (msg_len - rest_len)) rest_len; Write LastChunk 0 rest_len] ;;
  tail <~ pure (slice msg_buf 0 rest_len) ;;
  last_chunk <~ pure (store last_chunk 0 tail) ;;
  _ <~ tell [Write LastChunk rest_len 1] ;;
  last_chunk <~ pure (store last_chunk rest_len [0x80]) ;;
  (* if (msg_len > thr) *)
  _ <~ tell [Test (thr <? rest_len)%nat] ;;
  '(digest, last_chunk) <~
     (if (thr <? rest_len)%nat
      then digest <~ transform (LastChunk, 0%nat) digest last_chunk ;;
           _ <~ tell [Write LastChunk 0 blk] ;;
           pure (Ok (digest, repeat 0 blk))
      else pure (Ok (digest, last_chunk))) ;;
  _ <~ tell [Write LastChunk (blk - 8) 8] ;;
  last_chunk <~ pure (store last_chunk (blk - 8) (host_bytes 8 chunk_end)) ;;
  transform (LastChunk, 0%nat) digest last_chunk.

(** sha2.c:671-694 *)
Definition sha256_final_l (d p : ptr) (digest msg : list Z) (msg_len append_size : nat) : lk (list Z) :=
  let chunk_end := htobe64 (u64 (Z.shiftl (u64 (Z.of_nat msg_len + Z.of_nat append_size)) 3)) in
  digest <~ pad_l 64 55 (sha256_transform_l d) p chunk_end digest msg msg_len ;;
  _ <~ tell [Write LastChunk 0 64] ;;
  pure (Ok digest).
(** sha2.c:715-738 *)
Definition sha512_final_l (d p : ptr) (digest msg : list Z) (msg_len append_size : nat) : lk (list Z) :=
  let chunk_end := htobe64 (u64 (Z.shiftl (u64 (Z.of_nat msg_len + Z.of_nat append_size)) 3)) in
  digest <~ pad_l 128 111 (sha512_transform_l d) p chunk_end digest msg msg_len ;;
  _ <~ tell [Write LastChunk 0 128] ;;
  pure (Ok digest).

(** sha1.c:120-152 *)
Definition sha1_l (p out : ptr) (msg : list Z) (msg_len : nat) : lk (list Z) :=
  _ <~ tell [Write Digest 0 20] ;;
  let chunk_end := htobe64 (u64 (Z.shiftl (u64 (Z.of_nat msg_len)) 3)) in
  digest <~ pad_l 64 55 (sha1_transform_l (Digest, 0%nat)) p chunk_end IV1 msg msg_len ;;
  _ <~ tell (copy_words out (Digest, 0%nat) (seq 0 5) 4 ++ [Write Digest 0 20; Write LastChunk 0 64]) ;;
  pure (Ok (out32 digest)).
(** ripemd160.c:286-317 *)
Definition ripemd160_l (p out : ptr) (msg : list Z) (msg_len : nat) : lk (list Z) :=
  _ <~ tell [Write Digest 0 20] ;;
  let chunk_end := htole64 (u64 (Z.shiftl (u64 (Z.of_nat msg_len)) 3)) in
  digest <~ pad_l 64 55 (ripemd160_transform_l (Digest, 0%nat)) p chunk_end IVr msg msg_len ;;
  _ <~ tell (copy_words out (Digest, 0%nat) (seq 0 5) 4 ++ [Write Digest 0 20; Write LastChunk 0 64]) ;;
  pure (Ok (out32le digest)).
(** sha2.c:696-713 *)
Definition sha2_256_l (p out : ptr) (msg : list Z) (msg_len : nat) : lk (list Z) :=
  _ <~ tell [Write Digest 0 32] ;;
  digest <~ sha256_final_l (Digest, 0%nat) p IV256 msg msg_len 0 ;;
  _ <~ tell (copy_words out (Digest, 0%nat) (seq 0 8) 4 ++ [Write Digest 0 32]) ;;
  pure (Ok (out32 digest)).
(** sha2.c:740-758 (out[1] before out[0]) *)
Definition sha2_512_l (p out : ptr) (msg : list Z) (msg_len : nat) : lk (list Z) :=
  _ <~ tell [Write Digest 0 64] ;;
  digest <~ sha512_final_l (Digest, 0%nat) p IV512 msg msg_len 0 ;;
  _ <~ tell (copy_words out (Digest, 0%nat) [1; 0; 2; 3; 4; 5; 6; 7]%nat 8 ++ [Write Digest 0 64]) ;;
  pure (Ok (out64 digest)).

(** The key loop of sha2.c:782-785 and 829-832 over [n] 64-bit words. *)
Definition key_loop (n : nat) : list obs :=
  for_loop n (fun i => [Read Buffer (i * 8) 8; Write KeyInner (i * 8) 8;
                        Read Buffer (i * 8) 8; Write KeyOutter (i * 8) 8]).

(** sha2.c:760-803 *)
Definition hmac_sha256_l (pk p out : ptr) (key : list Z) (key_len : nat) (msg : list Z) (msg_len : nat) : lk (list Z) :=
  _ <~ tell [Write DigestInner 0 32; Write DigestOutter 0 32; Test (key_len <=? 64)%nat] ;;
  buffer <~
    (if (key_len <=? 64)%nat
     then _ <~ tell [read pk key_len; Write Buffer 0 key_len; Write Buffer key_len (64 - key_len)] ;;
          k <~ pure (slice key 0 key_len) ;; pure (Ok (k ++ repeat 0 (64 - key_len)))
     else k <~ sha2_256_l pk (Buffer, 0%nat) key key_len ;;
          _ <~ tell [Write Buffer 32 32] ;;
          pure (Ok (k ++ repeat 0 32))) ;;
  _ <~ tell (key_loop 8) ;;
  let key_inner := xor_words 0x3636363636363636 buffer in
  let key_outter := xor_words 0x5C5C5C5C5C5C5C5C buffer in
  digest_inner <~ sha256_transform_l (DigestInner, 0%nat) (KeyInner, 0%nat) IV256 key_inner ;;
  digest_inner <~ sha256_final_l (DigestInner, 0%nat) p digest_inner msg msg_len 64 ;;
  _ <~ tell (for_loop 8 (fun i => [Read DigestInner (i * 4) 4; Write DigestInner (i * 4) 4])) ;;
  let digest_inner := out32 digest_inner in
  digest_outter <~ sha256_transform_l (DigestOutter, 0%nat) (KeyOutter, 0%nat) IV256 key_outter ;;
  digest_outter <~ sha256_final_l (DigestOutter, 0%nat) (DigestInner, 0%nat) digest_outter digest_inner 32 64 ;;
  _ <~ tell (for_loop 8 (fun i => [Read DigestOutter (i * 4) 4; write (padd out (i * 4)) 4])
             ++ [Write DigestOutter 0 32; Write DigestInner 0 32]) ;;
  pure (Ok (out32 digest_outter)).

(** sha2.c:805-849 *)
Definition hmac_sha512_l (pk p out : ptr) (key : list Z) (key_len : nat) (msg : list Z) (msg_len : nat) : lk (list Z) :=
  _ <~ tell [Write DigestInner 0 64; Write DigestOutter 0 64; Test (key_len <=? 128)%nat] ;;
  buffer <~
    (if (key_len <=? 128)%nat
     then _ <~ tell [read pk key_len; Write Buffer 0 key_len; Write Buffer key_len (128 - key_len)] ;;
          k <~ pure (slice key 0 key_len) ;; pure (Ok (k ++ repeat 0 (128 - key_len)))
     else k <~ sha2_512_l pk (Buffer, 0%nat) key key_len ;;
          _ <~ tell [Write Buffer 64 64] ;;
          pure (Ok (k ++ repeat 0 64))) ;;
  _ <~ tell (key_loop 16) ;;
  let key_inner := xor_words 0x3636363636363636 buffer in
  let key_outter := xor_words 0x5C5C5C5C5C5C5C5C buffer in
  digest_inner <~ sha512_transform_l (DigestInner, 0%nat) (KeyInner, 0%nat) IV512 key_inner ;;
  digest_inner <~ sha512_final_l (DigestInner, 0%nat) p digest_inner msg msg_len 128 ;;
  _ <~ tell (for_loop 8 (fun i => [Read DigestInner (i * 8) 8; Write DigestInner (i * 8) 8])) ;;
  let digest_inner := out64 digest_inner in
  digest_outter <~ sha512_transform_l (DigestOutter, 0%nat) (KeyOutter, 0%nat) IV512 key_outter ;;
  digest_outter <~ sha512_final_l (DigestOutter, 0%nat) (DigestInner, 0%nat) digest_outter digest_inner 64 128 ;;
  _ <~ tell (for_loop 8 (fun i => [Read DigestOutter (i * 8) 8; write (padd out (i * 8)) 8])
             ++ [Write DigestOutter 0 64; Write DigestInner 0 64]) ;;
  pure (Ok (out64 digest_outter)).

(** btc/hash.c:8-12 *)
Definition btc_hash160_l (p out : ptr) (msg : list Z) (msg_len : nat) : lk (list Z) :=
  sha2_digest <~ sha2_256_l p (Sha2Digest, 0%nat) msg msg_len ;;
  ripemd160_l (Sha2Digest, 0%nat) out sha2_digest 32.
(** btc/hash.c:14-18 *)
Definition btc_hash256_l (p out : ptr) (msg : list Z) (msg_len : nat) : lk (list Z) :=
  sha2_digest <~ sha2_256_l p (Sha2Digest, 0%nat) msg msg_len ;;
  sha2_256_l (Sha2Digest, 0%nat) out sha2_digest 32.
(** btc/hash.c:23-31; both pointers lie in one memory, as in M_Hash. *)
Fixpoint btc_hash256_d64_l (o : object) (mem : list Z) (out inp blocks : nat) : lk (list Z) :=
  match blocks with
  | O => _ <~ tell [Test false] ;; pure (Ok mem)
  | S blocks' =>
      _ <~ tell [Test true] ;;
      d <~ hash256_d64_transform_l (o, out) (o, inp) (skipn inp mem) ;;
      mem <~ pure (store mem out d) ;;
      btc_hash256_d64_l o mem (out + 32) (inp + 64) blocks'
  end.
(** btc/hash.c:42-53 *)
Definition btc_bip32_hash_l (pc pd out : ptr) (chain_code : list Z) (child header : Z) (data32 : list Z)
  : lk (list Z) :=
  let buffer := uninit (1 + 32 + 4) in
  _ <~ tell [Write Bip32Buffer 0 1] ;;
  buffer <~ pure (store buffer 0 [u8 header]) ;;
  _ <~ tell [read pd 32; Write Bip32Buffer 1 32] ;;
  d <~ pure (slice data32 0 32) ;;
  buffer <~ pure (store buffer 1 d) ;;
  _ <~ tell [Write Bip32Buffer 33 4] ;;
  tl <~ pure (write_big_32 (skipn 33 buffer) child) ;;
  let buffer := firstn 33 buffer ++ tl in
  h <~ hmac_sha512_l pc (Bip32Buffer, 0%nat) out chain_code 32 buffer 37 ;;
  _ <~ tell [Write Bip32Buffer 0 37] ;;
  pure (Ok h).
