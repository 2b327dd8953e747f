(** The library compiled with NDEBUG (a CMake Release or RelWithDebInfo build; .travis.yml:20,41 and .travis.sh:19 build it that
    way): [assert] does nothing.  Each function here is the function of the same name (without [_rel]) in M_Base58,
    M_Base58Check, M_Bech32, M_Address, M_Key, M_Exkey without its assertions, and with the tests that come after an
    assertion of the same condition.  The argument checks inside libsecp256k1 do not depend on NDEBUG. *)
From Verif Require Import Base M_Endian M_Base32 M_Base58 M_Hash M_Base58Check M_Bech32 M_Address M_Random M_Secp M_Key M_Exkey.

(* ---------------------------------------------------------------- *)
(** ** Base58 *)

(** src/base58.c:45-57 *)
Fixpoint to_base58_loop_rel (buf : list Z) (len : nat) (b58 : list Z) : res (nat * list Z) :=
  match buf with
  | [] => Ok (len, b58)
  | x :: r =>
      let '(carry, i, b58') := carry_loop 256 58 x 0 len b58 in
      to_base58_loop_rel r i b58'
  end.
(** src/base58.c:29-71 (the simplifications of [M_Base58.to_base58]) *)
Definition to_base58_rel (buf : list Z) : res (nat * list Z) :=
  let '(zeroes, rest) := skip_zeroes buf in
  let size := (length rest * 138 / 100 + 1)%nat in
  _ <- c_defined (Z.of_nat size <=? INT_MAX) ;;
  '(len, b58) <- to_base58_loop_rel rest 0 (repeat 0 size) ;;
  let iter := result_digits len b58 in
  let out := repeat 49 zeroes ++ map (tget BASE58_ENCODE) iter in
  Ok (length out, out).

(** src/base58.c:90-108 *)
Fixpoint from_base58_loop_rel (str : list Z) (len : nat) (b256 : list Z) : res (option (nat * list Z * list Z)) :=
  match str with
  | [] => UB
  | c :: r =>
      if c =? 0 then Ok (Some (len, b256, str))
      else
        s <- isspace c ;;
        if s then Ok (Some (len, b256, str))
        else
          let carry := tget BASE58_DECODE c in
          if carry =? -1 then Ok None
          else
            let '(carry', i, b256') := carry_loop 58 256 carry 0 len b256 in
            from_base58_loop_rel r i b256'
  end.
(** src/base58.c:73-126 *)
Definition from_base58_rel (str : list Z) (str_len : nat) : res (nat * list Z) :=
  '(spaces, s1) <- skip_leading_spaces str ;;
  '(zeroes, s2) <- skip_ones s1 ;;
  let product := to_int (Z.of_nat str_len - Z.of_nat spaces - Z.of_nat zeroes) * 733 in
  _ <- c_defined ((- 2 ^ 31 <=? product) && (product <=? INT_MAX)) ;;
  let size := Z.quot product 1000 + 1 in
  _ <- c_defined (0 <=? size) ;;
  o <- from_base58_loop_rel s2 0 (repeat 0 (Z.to_nat size)) ;;
  match o with
  | None => Ok (O, [])
  | Some (len, b256, s3) =>
      s4 <- skip_trailing_spaces s3 ;;
      c <- rd s4 0 ;;
      if negb (c =? 0) then Ok (O, [])
      else
        let out := repeat 0 zeroes ++ result_digits len b256 in
        Ok (length out, out)
  end.

(** src/btc/base58_check.c:10-31 *)
Definition to_base58_check_rel (buf prefix : list Z) : res (nat * list Z) :=
  let size_of_data := (length buf + length prefix)%nat in
  let size_of_all := (size_of_data + 4)%nat in
  let buffer := uninit size_of_all in
  buffer <- store buffer 0 prefix ;;
  buffer <- store buffer (length prefix) buf ;;
  window <- slice buffer 0 size_of_data ;;
  hash <- btc_hash256 window size_of_data ;;
  h4 <- slice hash 0 4 ;;
  buffer <- store buffer size_of_data h4 ;;
  to_base58_rel buffer.
(** src/btc/base58_check.c:33-40 *)
Definition from_base58_check_rel (str : list Z) (str_len : nat) : res (nat * list Z) :=
  '(buf_size, buf) <- from_base58_rel str str_len ;;
  if (buf_size <? 4)%nat then Ok (O, buf)
  else
    window <- slice buf 0 (buf_size - 4) ;;
    hash <- btc_hash256 window (buf_size - 4) ;;
    h4 <- slice hash 0 4 ;;
    c4 <- slice buf (buf_size - 4) 4 ;;
    if negb (bytes_eqb h4 c4) then Ok (O, buf)
    else Ok ((buf_size - 4)%nat, buf).

(* ---------------------------------------------------------------- *)
(** ** Bech32 and addresses *)

(** src/btc/bech32.c:8,90-93: the table is a string literal, so the character after the 32 is a NUL *)
Fixpoint encode_chars_rel (b32 : list Z) : res (list Z) :=
  match b32 with
  | [] => Ok []
  | v :: r => c <- tget_ub (BECH32_ENCODE ++ [0]) v ;; cs <- encode_chars_rel r ;; Ok (c :: cs)
  end.
(** src/btc/bech32.c:82-97 *)
Definition bech32_encode_rel (hrp b32 : list Z) : res (list Z) :=
  checksum <- create_checksum hrp b32 ;;
  d <- encode_chars_rel b32 ;;
  c <- encode_checksum checksum ;;
  Ok (hrp ++ [49] ++ d ++ c).

(** src/btc/address.c:10-20 *)
Definition to_address_pubkey_rel (key_id : list Z) (out_size : nat) (param : chain_parameters) : res (nat * list Z) :=
  if (out_size <? to_base58_check_length (length key_id) (length (cp_pubkey param)))%nat then Ok (O, [])
  else to_base58_check_rel key_id (cp_pubkey param).
(** src/btc/address.c:22-32 *)
Definition to_address_script_rel (script_id : list Z) (out_size : nat) (param : chain_parameters) : res (nat * list Z) :=
  if (out_size <? to_base58_check_length (length script_id) (length (cp_script param)))%nat then Ok (O, [])
  else to_base58_check_rel script_id (cp_script param).
(** src/btc/address.c:41-50, 60-69, 80-92 *)
Definition encode_witness_rel (buf_cap : nat) (version : Z) (program : list Z) (out_size : nat) (param : chain_parameters)
  : res (nat * list Z) :=
  let buffer := uninit buf_cap in
  buffer <- store buffer 0 [version] ;;
  let '(n, vals) := to_base32_raw program in
  buffer <- store buffer 1 vals ;;
  let buf_size := (n + 1)%nat in
  let result_size := bech32_encode_length (length (cp_hrp param)) buf_size in
  if (out_size <? result_size)%nat then Ok (O, [])
  else
    window <- slice buffer 0 buf_size ;;
    text <- bech32_encode_rel (cp_hrp param) window ;;
    Ok (result_size, text).
(** src/btc/address.c:34-51 *)
Definition to_address_witnessv0_keyhash_rel (key_hash : list Z) (out_size : nat) (param : chain_parameters) : res (nat * list Z) :=
  if negb (length key_hash =? WITNESSV0_KEYID_SIZE)%nat then Ok (O, [])
  else encode_witness_rel 64 0 key_hash out_size param.
(** src/btc/address.c:53-70 *)
Definition to_address_witnessv0_scripthash_rel (script_hash : list Z) (out_size : nat) (param : chain_parameters) : res (nat * list Z) :=
  if negb (length script_hash =? WITNESSV0_SCRIPTID_SIZE)%nat then Ok (O, [])
  else encode_witness_rel 64 0 script_hash out_size param.
(** src/btc/address.c:72-93 *)
Definition to_address_witness_unknown_rel (version_and_program : list Z) (out_size : nat) (param : chain_parameters) : res (nat * list Z) :=
  if (length version_and_program <? 3)%nat || (41 <? length version_and_program)%nat then Ok (O, [])
  else
    version <- rd version_and_program 0 ;;
    if (version <? 1) || (16 <? version) then Ok (O, [])
    else encode_witness_rel 128 version (skipn 1 version_and_program) out_size param.
(** src/btc/address.c:142-165; [decode_bech32] (lines 95-140) and what it calls have no assertion *)
Definition address_decode_rel (str : list Z) (str_len : nat) (out_size : nat) (param : chain_parameters)
    (stack : list Z) : res address_result :=
  if (out_size <? from_base58_check_length str_len)%nat then Ok (mkAddr BAD_ADDRESS out_size [])
  else
    '(size, out) <- from_base58_check_rel str str_len ;;
    let np := length (cp_pubkey param) in
    let ns := length (cp_script param) in
    if negb (size =? 0)%nat && (np <=? size)%nat && bytes_eqb (firstn np out) (cp_pubkey param)
    then Ok (mkAddr PUBKEY_ADDRESS (size - np) (overlay (firstn (size - np) (skipn np out)) out))
    else if negb (size =? 0)%nat && (ns <=? size)%nat && bytes_eqb (firstn ns out) (cp_script param)
    then Ok (mkAddr SCRIPT_ADDRESS (size - ns) (overlay (firstn (size - ns) (skipn ns out)) out))
    else decode_bech32 str str_len out out_size param stack.

(* ---------------------------------------------------------------- *)
(** ** Keys *)

(** src/btc/key.c:253-327 *)
Definition export_der_rel (E : secp) (c : option context) (privkey : list Z) (key32 : list Z) (compressed : bool)
  : res (bool * nat * list Z) :=
  p <- secp_pubkey_create E c key32 ;;
  match p with
  | None => Ok (false, O, privkey)
  | Some pubkey =>
      let '(begin, middle, publen) :=
        if compressed then (der_begin_c, der_middle_c, BTC_COMPRESSED_PUBLIC_KEY_SIZE)
        else (der_begin_u, der_middle_u, BTC_PUBLIC_KEY_SIZE) in
      privkey <- store privkey 0 begin ;;
      let ptr := length begin in
      k <- slice key32 0 32 ;;
      privkey <- store privkey ptr k ;;
      let ptr := (ptr + 32)%nat in
      privkey <- store privkey ptr middle ;;
      let ptr := (ptr + length middle)%nat in
      pub <- secp_pubkey_serialize E c pubkey publen compressed ;;
      privkey <- store privkey ptr pub ;;
      Ok (true, (ptr + length pub)%nat, privkey)
  end.
(** src/btc/key.c:428-446 *)
Definition key_encode_rel (E : secp) (g : globals) (key32 encoded_key : list Z) (encoded_key_len : nat) : res (bool * list Z) :=
  if negb (encoded_key_len =? BTC_PRIVATE_KEY_SIZE)%nat && negb (encoded_key_len =? BTC_COMPRESSED_PRIVATE_KEY_SIZE)%nat
  then Ok (false, encoded_key)
  else
    '(r, encoded_len, out) <- export_der_rel E (g_sign g) encoded_key key32 (encoded_key_len =? BTC_COMPRESSED_PRIVATE_KEY_SIZE)%nat ;;
    Ok (if (encoded_len =? encoded_key_len)%nat then r else false, out).

(** src/btc/key.c:332-343 *)
Definition key_init_rel (fuel : nat) (o : os) (st : globals * ctx_heap) : res (outcome (globals * ctx_heap)) :=
  let '(g, h) := st in
  let rand_buffer := uninit 32 in
  let '(cv, h) := context_create h false true in
  let g := mkGlobals (g_sign g) (Some cv) in
  let '(cs, h) := context_create h true false in
  let g := mkGlobals (Some cs) (g_verify g) in
  r <- os_rand_bytes fuel o rand_buffer 32 ;;
  match r with
  | Returned rand_buffer =>
      _ <- sign_ctx (g_sign g) ;;
      _ <- cleanse rand_buffer 0 32 ;;
      Ok (Returned (g, h))
  | Fatal => Ok Fatal
  | Running => Ok Running
  end.
(** secp256k1_context_destroy does nothing with a null pointer. *)
(** called at src/btc/key.c:347,350 *)
Definition context_destroy_rel (h : ctx_heap) (c : option context) : res ctx_heap :=
  match c with None => Ok h | Some c => context_destroy h c end.
(** src/btc/key.c:345-352 *)
Definition key_uninit_rel (st : globals * ctx_heap) : res (globals * ctx_heap) :=
  let '(g, h) := st in
  h <- context_destroy_rel h (g_sign g) ;;
  let g := mkGlobals None (g_verify g) in
  h <- context_destroy_rel h (g_verify g) ;;
  Ok (mkGlobals (g_sign g) None, h).

(** src/btc/key.c:360-375 *)
Definition key_to_string_rel (key32 : list Z) (is_compressed : bool) (param : chain_parameters) : res (nat * list Z) :=
  if is_compressed then
    let buf33 := uninit 33 in
    k <- slice key32 0 32 ;;
    buf33 <- store buf33 0 k ;;
    buf33 <- store buf33 32 [1] ;;
    r <- to_base58_check_rel buf33 (cp_secret param) ;;
    _ <- cleanse buf33 0 33 ;;
    Ok r
  else
    k <- slice key32 0 32 ;;
    to_base58_check_rel k (cp_secret param).
(** src/btc/key.c:376-399 *)
Definition key_from_string_rel (key_str : list Z) (str_len : nat) (key32 : list Z) (is_compressed : Z) (param : chain_parameters)
  : res (Z * list Z * Z) :=
  let buf := uninit (32 + 8) in
  let psize := length (cp_secret param) in
  '(size, out) <- from_base58_check_rel key_str str_len ;;
  buf <- store buf 0 out ;;
  if (size <=? 32)%nat then Ok (0, key32, is_compressed) else
  let pre_size := (size - 32)%nat in
  c <- (if negb (psize =? pre_size)%nat then
          if negb (psize =? pre_size - 1)%nat then Ok None
          else
            b <- rd buf (size - 1) ;;
            if negb (b =? 1) then Ok None else Ok (Some 1)
        else Ok (Some 0)) ;;
  match c with
  | None => Ok (0, key32, is_compressed)
  | Some is_compressed =>
      p <- slice buf 0 psize ;;
      if negb (bytes_eqb p (cp_secret param)) then Ok (0, key32, is_compressed) else
      k <- slice buf psize 32 ;;
      key32 <- store key32 0 k ;;
      Ok (1, key32, is_compressed)
  end.

(** src/btc/key.c:454-461: [None] is the object of 64 zero bytes libsecp256k1 leaves when it fails; using it as a point is an
    illegal argument. *)
Definition key_get_pub_rel (E : secp) (g : globals) (key32 : list Z) : res (option (pt E)) :=
  secp_pubkey_create E (g_sign g) key32.
(** src/btc/key.c:483-501 *)
Definition pubkey_encode_rel (E : secp) (g : globals) (P : option (pt E)) (out : list Z) (len : nat) : res (bool * list Z) :=
  if negb (len =? BTC_PUBLIC_KEY_SIZE)%nat && negb (len =? BTC_COMPRESSED_PUBLIC_KEY_SIZE)%nat then Ok (false, out)
  else
    bs <- match P with
          | Some P => secp_pubkey_serialize E (g_sign g) P len (len =? 33)%nat
          | None => _ <- any_ctx (g_sign g) ;; Abort
          end ;;
    out <- store out 0 bs ;;
    Ok ((length bs =? len)%nat, out).
(** src/btc/key.c:503-515 *)
Definition pubkey_decode_rel (E : secp) (g : globals) (encoded_pubkey : list Z) (len : nat) : res (option (pt E)) :=
  if negb (len =? BTC_PUBLIC_KEY_SIZE)%nat && negb (len =? BTC_COMPRESSED_PUBLIC_KEY_SIZE)%nat then Ok None
  else secp_pubkey_parse E (g_verify g) encoded_pubkey len.

(** src/btc/key.c:401-426 *)
Definition key_derive_rel (E : secp) (g : globals) (key32 chain32 out_key32 out_chain32 : list Z) (child : Z)
  : res (bool * list Z * list Z) :=
  '(ret, out) <- (if Z.shiftr child 31 =? 0 then
       pubkey64 <- key_get_pub_rel E g key32 ;;
       '(ret, encoded_pubkey) <- pubkey_encode_rel E g pubkey64 (uninit BTC_COMPRESSED_PUBLIC_KEY_SIZE) BTC_COMPRESSED_PUBLIC_KEY_SIZE ;;
       header <- rd encoded_pubkey 0 ;;
       out <- btc_bip32_hash chain32 child header (skipn 1 encoded_pubkey) ;;
       _ <- cleanse encoded_pubkey 0 BTC_COMPRESSED_PUBLIC_KEY_SIZE ;;
       Ok (ret, out)
     else
       out <- btc_bip32_hash chain32 child 0 key32 ;;
       Ok (true, out)) ;;
  if negb ret then Ok (ret, out_key32, out_chain32)
  else
    k <- slice key32 0 32 ;;
    out_key32 <- store out_key32 0 k ;;
    c <- slice out 32 32 ;;
    out_chain32 <- store out_chain32 0 c ;;
    '(ret, k) <- secp_privkey_tweak_add (g_sign g) out_key32 out ;;
    out_key32 <- store out_key32 0 k ;;
    Ok (ret, out_key32, out_chain32).

(** src/btc/key.c:463-481 *)
Definition pubkey_derive_rel (E : secp) (g : globals) (encoded_pubkey33 chain32 out_pubkey33 out_chain32 : list Z) (child : Z)
  : res (bool * list Z * list Z) :=
  p <- pubkey_decode_rel E g encoded_pubkey33 33 ;;
  match p with
  | None => Ok (false, out_pubkey33, out_chain32)
  | Some _ =>
      header <- rd encoded_pubkey33 0 ;;
      out <- btc_bip32_hash chain32 child header (skipn 1 encoded_pubkey33) ;;
      c <- slice out 32 32 ;;
      out_chain32 <- store out_chain32 0 c ;;
      p <- secp_pubkey_parse E (g_verify g) encoded_pubkey33 33 ;;
      match p with
      | None => Ok (false, out_pubkey33, out_chain32)
      | Some P =>
          q <- secp_pubkey_tweak_add E (g_verify g) P out ;;
          match q with
          | None => Ok (false, out_pubkey33, out_chain32)
          | Some Q =>
              '(r, out_pubkey33) <- pubkey_encode_rel E g (Some Q) out_pubkey33 33 ;;
              Ok (r, out_pubkey33, out_chain32)
          end
      end
  end.

(** src/btc/key.c:534-554: the signature written; libsecp256k1 clears it when it fails *)
Definition key_sign_rel (fuel : nat) (E : secp) (g : globals) (key32 hash32 : list Z) : res (outcome (Z * Z)) :=
  sig <- secp_ecdsa_sign E (g_sign g) hash32 key32 None ;;
  r <- grind fuel E g hash32 key32 sig (repeat 0 32) 0 ;;
  match r with
  | Returned (Some s) => Ok (Returned s)
  | Returned None => Ok (Returned (0, 0))
  | Fatal => Ok Fatal
  | Running => Ok Running
  end.

(** src/btc/key.c:609-617 *)
Definition pubkey_keyid_rel (E : secp) (g : globals) (P : option (pt E)) (compress : bool) : res (list Z) :=
  let encoded_len := if compress then BTC_COMPRESSED_PUBLIC_KEY_SIZE else BTC_PUBLIC_KEY_SIZE in
  '(r, encoded_pubkey) <- pubkey_encode_rel E g P (uninit BTC_PUBLIC_KEY_SIZE) encoded_len ;;
  window <- slice encoded_pubkey 0 encoded_len ;;
  btc_hash160 window encoded_len.
(** src/btc/key.c:603-607 *)
Definition key_keyid_rel (E : secp) (g : globals) (key32 : list Z) (compress : bool) : res (list Z) :=
  P <- key_get_pub_rel E g key32 ;; pubkey_keyid_rel E g P compress.
(** src/btc/key.c:619-623 *)
Definition key_fingerprint_rel (E : secp) (g : globals) (key32 : list Z) (compress : bool) : res Z :=
  keyid <- key_keyid_rel E g key32 compress ;; read_little_32 keyid.

(* ---------------------------------------------------------------- *)
(** ** Extended keys *)

(** src/btc/exkey.c:24-34 *)
Definition exkey_derive_rel (E : secp) (g : globals) (key derived : ex_key) (child fingerprint : Z) : res (bool * ex_key) :=
  '(r, k, c) <- key_derive_rel E g (xk_key key) (x_chain_code (xk_ext key)) (xk_key derived) (x_chain_code (xk_ext derived)) child ;;
  if r : bool then
    Ok (r, mkExKey (mkExt (u8 (x_depth (xk_ext key) + 1)) fingerprint child c) k)
  else
    let e := xk_ext derived in Ok (r, mkExKey (mkExt (x_depth e) (x_fingerprint e) (x_child e) c) k).
(** src/btc/exkey.c:36-47 *)
Definition expubkey_derive_rel (E : secp) (g : globals) (pubkey derived : ex_pubkey) (child fingerprint : Z) : res (bool * ex_pubkey) :=
  '(r, p, c) <- pubkey_derive_rel E g (xp_c_pubkey pubkey) (x_chain_code (xp_ext pubkey)) (xp_c_pubkey derived) (x_chain_code (xp_ext derived)) child ;;
  if negb r then
    let e := xp_ext derived in Ok (false, mkExPub (mkExt (x_depth e) (x_fingerprint e) (x_child e) c) p)
  else Ok (true, mkExPub (mkExt (u8 (x_depth (xp_ext pubkey) + 1)) fingerprint child c) p).
(** src/btc/exkey.c:49-57 *)
Definition exkey_get_pub_rel (E : secp) (g : globals) (key : ex_key) (pubkey : ex_pubkey) : res ex_pubkey :=
  pub <- key_get_pub_rel E g (xk_key key) ;;
  '(r, c) <- pubkey_encode_rel E g pub (xp_c_pubkey pubkey) (length (xp_c_pubkey pubkey)) ;;
  Ok (mkExPub (xk_ext key) c).
(** src/btc/exkey.c:90-99 *)
Definition exkey_to_string_rel (key : ex_key) (param : chain_parameters) : res (nat * list Z) :=
  extkey <- exkey_encode key (uninit BIP32_EXTKEY_SIZE) ;;
  r <- to_base58_check_rel extkey (cp_ext_sec param) ;;
  _ <- cleanse extkey 0 BIP32_EXTKEY_SIZE ;;
  Ok r.
(** src/btc/exkey.c:101-116 *)
Definition exkey_from_string_rel (str : list Z) (str_len : nat) (key : ex_key) (param : chain_parameters) : res (Z * ex_key) :=
  let extkey := uninit (BIP32_EXTKEY_SIZE + 8) in
  '(size, out) <- from_base58_check_rel str str_len ;;
  extkey <- store extkey 0 out ;;
  if (size <=? BIP32_EXTKEY_SIZE)%nat || (BIP32_EXTKEY_SIZE + 8 <? size)%nat then Ok (0, key) else
  let prefix_size := (size - BIP32_EXTKEY_SIZE)%nat in
  if negb (prefix_size =? length (cp_ext_sec param))%nat then Ok (0, key) else
  p <- slice extkey 0 prefix_size ;;
  if negb (bytes_eqb p (cp_ext_sec param)) then Ok (0, key) else
  key <- exkey_decode (skipn prefix_size extkey) key ;;
  _ <- cleanse extkey 0 (BIP32_EXTKEY_SIZE + 8) ;;
  Ok (1, key).
(** src/btc/exkey.c:130-138 *)
Definition expubkey_to_string_rel (pubkey : ex_pubkey) (param : chain_parameters) : res (nat * list Z) :=
  extkey <- expubkey_encode pubkey (uninit BIP32_EXTKEY_SIZE) ;;
  to_base58_check_rel extkey (cp_ext_pub param).
(** src/btc/exkey.c:139-153 *)
Definition expubkey_from_string_rel (str : list Z) (str_len : nat) (pub : ex_pubkey) (param : chain_parameters) : res (Z * ex_pubkey) :=
  let extkey := uninit (BIP32_EXTKEY_SIZE + 8) in
  '(size, out) <- from_base58_check_rel str str_len ;;
  extkey <- store extkey 0 out ;;
  if (size <=? BIP32_EXTKEY_SIZE)%nat || (BIP32_EXTKEY_SIZE + 8 <? size)%nat then Ok (0, pub) else
  let prefix_size := (size - BIP32_EXTKEY_SIZE)%nat in
  if negb (prefix_size =? length (cp_ext_pub param))%nat then Ok (0, pub) else
  p <- slice extkey 0 prefix_size ;;
  if negb (bytes_eqb p (cp_ext_pub param)) then Ok (0, pub) else
  pub <- expubkey_decode (skipn prefix_size extkey) pub ;;
  Ok (1, pub).
