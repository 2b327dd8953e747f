(** Key derivation, public keys, signing, identifiers and extended keys once more, with what an observer of
    the machine sees (M_Leak): tests, positions of accesses, and which function of libsecp256k1 is called with
    which pointers and with which result.  Simplifications as in M_Leak; in addition what libsecp256k1 does
    inside a call is not observed (except that serializing a public key fills the announced output length), an access to a field of a structure is an access to the structure at the field's
    offset (M_Overlap), and the tests of an assertion or condition with || or && stop at the operand that decides it. *)
From Verif Require Import Base M_Endian M_Sha2 M_Hash M_Random M_Secp M_Key M_Exkey M_Overlap M_Leak.

(** the return value of a library call, e.g. btc/key.c:457 *)
Definition is_some {A} (o : option A) : bool := match o with Some _ => true | None => false end.
(** [a || b]: e.g. btc/key.c:486-487 *)
Definition or_tests (a b : bool) : list obs := if a then [Test true] else [Test false; Test b].
(** [a && b]: e.g. btc/key.c:488-489 *)
Definition and_tests (a b : bool) : list obs := if a then [Test true; Test b] else [Test false].

(** btc/key.c:454-461 *)
Definition key_get_pub_l (E : secp) (g : globals) (pk pp : ptr) (key32 : list Z) : lk (pt E) :=
  p <~ pure (secp_pubkey_create E (g_sign g) key32) ;;
  _ <~ tell [Lib PubkeyCreate [pp; pk] (is_some p); Test (is_some p)] ;;
  pure (match p with Some P => Ok P | None => Abort end).

(** btc/key.c:483-501 *)
Definition pubkey_encode_l (E : secp) (g : globals) (pp po : ptr) (P : pt E) (out : list Z) (len : nat) : lk (bool * list Z) :=
  let a := (len =? BTC_PUBLIC_KEY_SIZE)%nat in
  let b := (len =? BTC_COMPRESSED_PUBLIC_KEY_SIZE)%nat in
  _ <~ tell (or_tests a b) ;;
  _ <~ pure (c_assert (a || b)) ;;
  _ <~ tell (and_tests (negb a) (negb b) ++ [Test (len =? 33)%nat]) ;;
  bs <~ pure (secp_pubkey_serialize E (g_sign g) P len (len =? 33)%nat) ;;
  _ <~ tell [Lib PubkeySerialize [po; pp] true; write po len] ;;
  out <~ pure (store out 0 bs) ;;
  let out_len := length bs in
  let r := (out_len =? len)%nat in
  _ <~ tell [Test r; Test r] ;;
  _ <~ pure (c_assert (out_len =? len)%nat) ;;
  pure (Ok (r, out)).

(** btc/key.c:401-426 *)
Definition key_derive_l (E : secp) (g : globals) (pk pc pok poc : ptr) (key32 chain32 out_key32 out_chain32 : list Z) (child : Z)
  : lk (bool * list Z * list Z) :=
  _ <~ tell [Test (Z.shiftr child 31 =? 0)] ;;
  '(ret, out) <~ (if Z.shiftr child 31 =? 0 then
       pubkey64 <~ key_get_pub_l E g pk (Pubkey64, 0%nat) key32 ;;
       '(ret, encoded_pubkey) <~ pubkey_encode_l E g (Pubkey64, 0%nat) (EncodedPubkey, 0%nat) pubkey64
                                   (uninit BTC_COMPRESSED_PUBLIC_KEY_SIZE) BTC_COMPRESSED_PUBLIC_KEY_SIZE ;;
       _ <~ tell [Read EncodedPubkey 0 1] ;;
       header <~ pure (rd encoded_pubkey 0) ;;
       out <~ btc_bip32_hash_l pc (EncodedPubkey, 1%nat) (DeriveOut, 0%nat) chain32 child header (skipn 1 encoded_pubkey) ;;
       _ <~ tell [Write Pubkey64 0 64; Write EncodedPubkey 0 BTC_COMPRESSED_PUBLIC_KEY_SIZE] ;;
       _ <~ pure (cleanse encoded_pubkey 0 BTC_COMPRESSED_PUBLIC_KEY_SIZE) ;;
       pure (Ok (ret, out))
     else
       out <~ btc_bip32_hash_l pc pk (DeriveOut, 0%nat) chain32 child 0 key32 ;;
       pure (Ok (true, out))) ;;
  _ <~ tell [Test ret] ;;
  if negb ret then _ <~ tell [Write DeriveOut 0 64] ;; pure (Ok (ret, out_key32, out_chain32))
  else
    _ <~ tell [read pk 32; write pok 32] ;;
    k <~ pure (slice key32 0 32) ;;
    out_key32 <~ pure (store out_key32 0 k) ;;
    _ <~ tell [Read DeriveOut 32 32; write poc 32] ;;
    c <~ pure (slice out 32 32) ;;
    out_chain32 <~ pure (store out_chain32 0 c) ;;
    '(ret, k) <~ pure (secp_privkey_tweak_add (g_sign g) out_key32 out) ;;
    _ <~ tell [Lib PrivkeyTweakAdd [pok; (DeriveOut, 0%nat)] ret] ;;
    out_key32 <~ pure (store out_key32 0 k) ;;
    _ <~ tell [Write DeriveOut 0 64] ;;
    pure (Ok (ret, out_key32, out_chain32)).

(** btc/exkey.c:10-22 *)
Definition exkey_init_l (px ps : ptr) (key : ex_key) (seed : list Z) (len : nat) : lk ex_key :=
  out <~ hmac_sha512_l (SeedKey, 0%nat) ps (InitOut, 0%nat) hashkey 12 seed len ;;
  _ <~ tell [write (padd px o_depth) 1; write (padd px o_child) 4; write (padd px o_fingerprint) 4;
             Read InitOut 0 32; write (padd px o_key) 32] ;;
  k <~ pure (slice out 0 32) ;;
  nk <~ pure (store (xk_key key) 0 k) ;;
  _ <~ tell [Read InitOut 32 32; write (padd px o_chain) 32] ;;
  c <~ pure (slice out 32 32) ;;
  nc <~ pure (store (x_chain_code (xk_ext key)) 0 c) ;;
  _ <~ tell [Write InitOut 0 64] ;;
  _ <~ pure (cleanse out 0 64) ;;
  pure (Ok (mkExKey (mkExt 0 0 0 nc) nk)).

(** btc/exkey.c:24-34 *)
Definition exkey_derive_l (E : secp) (g : globals) (px pd : ptr) (key derived : ex_key) (child fingerprint : Z) : lk (bool * ex_key) :=
  '(r, k, c) <~ key_derive_l E g (padd px o_key) (padd px o_chain) (padd pd o_key) (padd pd o_chain)
                  (xk_key key) (x_chain_code (xk_ext key)) (xk_key derived) (x_chain_code (xk_ext derived)) child ;;
  _ <~ tell [Test r] ;;
  if r : bool then
    _ <~ tell [write (padd pd o_fingerprint) 4; read (padd px o_depth) 1; write (padd pd o_depth) 1; write (padd pd o_child) 4] ;;
    pure (Ok (r, mkExKey (mkExt (u8 (x_depth (xk_ext key) + 1)) fingerprint child c) k))
  else
    let e := xk_ext derived in pure (Ok (r, mkExKey (mkExt (x_depth e) (x_fingerprint e) (x_child e) c) k)).

(** btc/exkey.c:49-57 *)
Definition exkey_get_pub_l (E : secp) (g : globals) (px pp : ptr) (key : ex_key) (pubkey : ex_pubkey) : lk ex_pubkey :=
  _ <~ tell [read px ext_size; write pp ext_size] ;;
  pub <~ key_get_pub_l E g (padd px o_key) (LocalPub, 0%nat) (xk_key key) ;;
  '(r, c) <~ pubkey_encode_l E g (LocalPub, 0%nat) (padd pp o_key) pub (xp_c_pubkey pubkey) (length (xp_c_pubkey pubkey)) ;;
  _ <~ tell [Test r] ;;
  _ <~ pure (c_assert r) ;;
  pure (Ok (mkExPub (xk_ext key) c)).

(** btc/exkey.c:59-66, 77-82 *)
Definition exkey_encode_l (px pc : ptr) (key : ex_key) (extkey74 : list Z) : lk (list Z) :=
  _ <~ tell [read (padd px o_depth) 1; write pc 1; read (padd px o_fingerprint) 4; write (padd pc 1) 4;
             read (padd px o_child) 4; write (padd pc 5) 4; read (padd px o_chain) 32; write (padd pc 9) 32] ;;
  code <~ pure (write_key_extension (xk_ext key) extkey74) ;;
  _ <~ tell [write (padd pc 41) 1; read (padd px o_key) 32; write (padd pc 42) 32] ;;
  code <~ pure (store code 41 [0]) ;;
  k <~ pure (slice (xk_key key) 0 32) ;;
  pure (store code 42 k).

(** btc/exkey.c:68-75, 84-88 *)
Definition exkey_decode_l (pc px : ptr) (extkey74 : list Z) (key : ex_key) : lk ex_key :=
  _ <~ tell [read pc 1; write (padd px o_depth) 1; read (padd pc 1) 4; write (padd px o_fingerprint) 4;
             read (padd pc 5) 4; write (padd px o_child) 4; read (padd pc 9) 32; write (padd px o_chain) 32] ;;
  ext <~ pure (read_key_extension extkey74 (xk_ext key)) ;;
  _ <~ tell [read (padd pc 42) 32; write (padd px o_key) 32] ;;
  k <~ pure (slice extkey74 42 32) ;;
  k <~ pure (store (xk_key key) 0 k) ;;
  pure (Ok (mkExKey ext k)).

(** btc/key.c:253-327 *)
Definition export_der_l (E : secp) (c : option context) (pk po : ptr) (privkey : list Z) (privkeylen : nat) (key32 : list Z) (compressed : bool)
  : lk (bool * nat * list Z) :=
  p <~ pure (secp_pubkey_create E c key32) ;;
  _ <~ tell [Lib PubkeyCreate [(Pubkey64, 0%nat); pk] (is_some p); Test (negb (is_some p))] ;;
  match p with
  | None => pure (Ok (false, O, privkey))
  | Some pubkey =>
      let '(begin, middle, publen, total) :=
        if compressed then (der_begin_c, der_middle_c, BTC_COMPRESSED_PUBLIC_KEY_SIZE, BTC_COMPRESSED_PRIVATE_KEY_SIZE)
        else (der_begin_u, der_middle_u, BTC_PUBLIC_KEY_SIZE, BTC_PRIVATE_KEY_SIZE) in
      _ <~ tell ([Test compressed] ++ (if compressed then [] else [Test true]) ++ [Test (total <=? privkeylen)%nat]) ;;
      _ <~ pure (c_assert (total <=? privkeylen)%nat) ;;
      _ <~ tell [Read DerBegin 0 (length begin); write po (length begin)] ;;
      privkey <~ pure (store privkey 0 begin) ;;
      let ptr := length begin in
      _ <~ tell [read pk 32; write (padd po ptr) 32] ;;
      k <~ pure (slice key32 0 32) ;;
      privkey <~ pure (store privkey ptr k) ;;
      let ptr := (ptr + 32)%nat in
      _ <~ tell [Read DerMiddle 0 (length middle); write (padd po ptr) (length middle)] ;;
      privkey <~ pure (store privkey ptr middle) ;;
      let ptr := (ptr + length middle)%nat in
      pub <~ pure (secp_pubkey_serialize E c pubkey publen compressed) ;;
      _ <~ tell [Lib PubkeySerialize [padd po ptr; (Pubkey64, 0%nat)] true; write (padd po ptr) publen] ;;
      privkey <~ pure (store privkey ptr pub) ;;
      let ptr := (ptr + length pub)%nat in
      _ <~ tell [Test (ptr =? total)%nat] ;;
      _ <~ pure (c_assert (ptr =? total)%nat) ;;
      pure (Ok (true, ptr, privkey))
  end.

(** btc/key.c:428-446 *)
Definition key_encode_l (E : secp) (g : globals) (pk po : ptr) (key32 encoded_key : list Z) (len : nat) : lk (bool * list Z) :=
  let a := (len =? BTC_PRIVATE_KEY_SIZE)%nat in
  let b := (len =? BTC_COMPRESSED_PRIVATE_KEY_SIZE)%nat in
  _ <~ tell (or_tests a b) ;;
  _ <~ pure (c_assert (a || b)) ;;
  _ <~ tell (and_tests (negb a) (negb b) ++ [Test b]) ;;
  '(r, encoded_len, out) <~ export_der_l E (g_sign g) pk po encoded_key len key32 b ;;
  _ <~ tell [Test (encoded_len =? len)%nat; Test (encoded_len =? len)%nat] ;;
  let r := if (encoded_len =? len)%nat then r else false in
  _ <~ pure (c_assert (encoded_len =? len)%nat) ;;
  pure (Ok (r, out)).

(** btc/key.c:609-617 *)
Definition pubkey_keyid_l (E : secp) (g : globals) (pp po : ptr) (P : pt E) (compress : bool) : lk (list Z) :=
  let encoded_len := if compress then BTC_COMPRESSED_PUBLIC_KEY_SIZE else BTC_PUBLIC_KEY_SIZE in
  _ <~ tell [Test compress] ;;
  '(r, encoded_pubkey) <~ pubkey_encode_l E g pp (EncodedPubkey, 0%nat) P (uninit BTC_PUBLIC_KEY_SIZE) encoded_len ;;
  _ <~ tell [Test r] ;;
  _ <~ pure (c_assert r) ;;
  window <~ pure (slice encoded_pubkey 0 encoded_len) ;;
  btc_hash160_l (EncodedPubkey, 0%nat) po window encoded_len.

(** btc/key.c:603-607 *)
Definition key_keyid_l (E : secp) (g : globals) (pk po : ptr) (key32 : list Z) (compress : bool) : lk (list Z) :=
  P <~ key_get_pub_l E g pk (Pubkey64, 0%nat) key32 ;; pubkey_keyid_l E g (Pubkey64, 0%nat) po P compress.

(** btc/key.c:619-623 *)
Definition key_fingerprint_l (E : secp) (g : globals) (pk : ptr) (key32 : list Z) (compress : bool) : lk Z :=
  keyid <~ key_keyid_l E g pk (LocalKeyId, 0%nat) key32 compress ;;
  _ <~ tell [Read LocalKeyId 0 4] ;;
  pure (read_little_32 keyid).

(** btc/key.c:518-532 *)
Definition SigHasLowR_l (g : globals) (psig : ptr) (sig : Z * Z) : lk bool :=
  compact_sig <~ pure (secp_serialize_compact (g_sign g) sig) ;;
  _ <~ tell [Lib SerializeCompact [(CompactSig, 0%nat); psig] true; Read CompactSig 0 1] ;;
  b <~ pure (rd compact_sig 0) ;;
  pure (Ok (b <? 0x80)).

(** btc/key.c:546-552 *)
Fixpoint grind_l (fuel : nat) (E : secp) (g : globals) (ph pk psig : ptr) (hash32 key32 : list Z) (sig : option (Z * Z))
  (extra_entropy : list Z) (counter : Z) : lk (outcome (option (Z * Z))) :=
  match sig with
  | None => _ <~ tell [Test false] ;; pure (Ok (Returned None))
  | Some s =>
      _ <~ tell [Test true] ;;
      low <~ SigHasLowR_l g psig s ;;
      _ <~ tell [Test (negb low)] ;;
      if low : bool then pure (Ok (Returned (Some s)))
      else
        match fuel with
        | O => pure (Ok Running)
        | S fuel' =>
            let counter := u32 (counter + 1) in
            _ <~ tell [Write ExtraEntropy 0 4] ;;
            extra_entropy <~ pure (write_little_32 extra_entropy counter) ;;
            sig <~ pure (secp_ecdsa_sign E (g_sign g) hash32 key32 (Some extra_entropy)) ;;
            _ <~ tell [Lib EcdsaSign [psig; ph; pk; (ExtraEntropy, 0%nat)] (is_some sig)] ;;
            grind_l fuel' E g ph pk psig hash32 key32 sig extra_entropy counter
        end
  end.

(** btc/key.c:534-554 *)
Definition key_sign_l (fuel : nat) (E : secp) (g : globals) (pk ph psig : ptr) (key32 hash32 : list Z) : lk (outcome (Z * Z)) :=
  sig <~ pure (secp_ecdsa_sign E (g_sign g) hash32 key32 None) ;;
  _ <~ tell [Lib EcdsaSign [psig; ph; pk] (is_some sig); Write ExtraEntropy 0 32] ;;
  r <~ grind_l fuel E g ph pk psig hash32 key32 sig (repeat 0 32) 0 ;;
  match r with
  | Returned (Some s) => _ <~ tell [Test true] ;; pure (Ok (Returned s))
  | Returned None => _ <~ tell [Test false] ;; pure Abort
  | Fatal => pure (Ok Fatal)
  | Running => pure (Ok Running)
  end.

(** A client (not in the repository) that turns a seed into a key and follows a path, back and forth
    between two structures; it calls btc/exkey.c:10-22 once and btc/exkey.c:24-34 for each step. *)
Fixpoint walk_l (E : secp) (g : globals) (px py : ptr) (cur other : ex_key) (path : list (Z * Z)) : lk (option (ptr * ex_key)) :=
  match path with
  | [] => _ <~ tell [Test false] ;; pure (Ok (Some (px, cur)))
  | (child, fp) :: rest =>
      _ <~ tell [Test true] ;;
      '(r, d) <~ exkey_derive_l E g px py cur other child fp ;;
      _ <~ tell [Test r] ;;
      if r : bool then walk_l E g py px d cur rest else pure (Ok None)
  end.
(** The same client signs a hash with the key it arrives at: btc/exkey.c:10-34, btc/key.c:534-554. *)
Definition wallet_sign_l (fuel : nat) (E : secp) (g : globals) (px py ps ph psig : ptr) (b1 b2 : ex_key)
  (seed : list Z) (len : nat) (path : list (Z * Z)) (hash : list Z) : lk (option (outcome (Z * Z))) :=
  k <~ exkey_init_l px ps b1 seed len ;;
  r <~ walk_l E g px py k b2 path ;;
  match r with
  | None => _ <~ tell [Test false] ;; pure (Ok None)
  | Some (p, k) =>
      _ <~ tell [Test true] ;;
      s <~ key_sign_l fuel E g (padd p o_key) ph psig (xk_key k) hash ;;
      pure (Ok (Some s))
  end.
