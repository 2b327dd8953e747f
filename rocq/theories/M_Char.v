(** The text decoders with the signedness of plain char as a parameter: char is signed with gcc on x86, unsigned on ARM and PowerPC
    and with -funsigned-char.  The other models of this development take it as signed. *)
From Verif Require Import Base M_Endian M_Base32 M_Base58 M_Base58Check M_Bech32 M_Address M_Key M_Exkey M_Hash M_Random.

(** The two choices a compiler has (no line of /repo decides; the casts to unsigned char in hex.c:53-54, base58.c:92 and bech32.c:102,128,134
    make those places independent of it). *)
(** src/base32.c:213-249, src/base58.c:76,90,110, src/btc/bech32.c:123, src/btc/address.c:113 *)
Inductive char_kind := SignedChar | UnsignedChar.
(** The value of a char that holds byte [b]. *)
(** src/base32.c:213-249, src/base58.c:76,90,110, src/btc/bech32.c:123, src/btc/address.c:113 *)
Definition char_value (k : char_kind) (b : Z) : Z := match k with SignedChar => as_char b | UnsignedChar => b end.

(** [decode_string[p[i]]]: [p] points to char; when that is signed, a byte of 128 or more is a negative
    index: undefined. *)
(** src/base32.c:213-220, 235-249 *)
Definition dec_char_c (k : char_kind) (dec mem : list Z) (i : nat) : res Z :=
  c <- rd mem i ;; tget_ub dec (char_value k c).

(** src/base32.c:233-252, the tail; [tail_str] is the readable memory from [tail_str] on. *)
Definition from_base32_tail_c (k : char_kind) (tail : nat) (tail_str dec : list Z) : res (list Z) :=
  let tail_bytes := u8 (tget TAIL_TO_BYTES (Z.of_nat tail)) in
  if 0 <? tail_bytes then
    byte1 <- dec_char_c k dec tail_str 0 ;;
    byte2 <- dec_char_c k dec tail_str 1 ;;
    let o0 := b32_o0 byte1 byte2 in
    if 1 <? tail_bytes then
      byte3 <- dec_char_c k dec tail_str 2 ;;
      byte4 <- dec_char_c k dec tail_str 3 ;;
      let o1 := b32_o1 byte2 byte3 byte4 in
      if 2 <? tail_bytes then
        byte5 <- dec_char_c k dec tail_str 4 ;;
        let o2 := b32_o2 byte4 byte5 in
        if 3 <? tail_bytes then
          byte6 <- dec_char_c k dec tail_str 5 ;;
          byte7 <- dec_char_c k dec tail_str 6 ;;
          let o3 := b32_o3 byte5 byte6 byte7 in
          Ok [o0; o1; o2; o3]
        else Ok [o0; o1; o2]
      else Ok [o0; o1]
    else Ok [o0]
  else Ok [].

(** src/base32.c:212-253, the loop ([blocks] blocks remain, [str] is the readable memory from the
    current block on) followed by the tail: the bytes written from [out] on. *)
Fixpoint from_base32_blocks_c (k : char_kind) (blocks tail : nat) (str dec : list Z) : res (list Z) :=
  match blocks with
  | O => from_base32_tail_c k tail str dec
  | S blocks' =>
      byte1 <- dec_char_c k dec str 0 ;;
      byte2 <- dec_char_c k dec str 1 ;;
      byte3 <- dec_char_c k dec str 2 ;;
      byte4 <- dec_char_c k dec str 3 ;;
      byte5 <- dec_char_c k dec str 4 ;;
      byte6 <- dec_char_c k dec str 5 ;;
      byte7 <- dec_char_c k dec str 6 ;;
      byte8 <- dec_char_c k dec str 7 ;;
      if (byte1 =? 255) || (byte2 =? 255) || (byte3 =? 255) || (byte4 =? 255)
         || (byte5 =? 255) || (byte6 =? 255) || (byte7 =? 255) || (byte8 =? 255)
      then Ok []
      else
        out <- from_base32_blocks_c k blocks' tail (skipn 8 str) dec ;;
        Ok (b32_o0 byte1 byte2 :: b32_o1 byte2 byte3 byte4 :: b32_o2 byte4 byte5
            :: b32_o3 byte5 byte6 byte7 :: b32_o4 byte7 byte8 :: out)
  end.

(** src/base32.c:204-254 [_fingera_from_base32]: return value and bytes written. *)
Definition from_base32_any_c (k : char_kind) (str : list Z) (str_len : nat) (is_raw : bool) : res (nat * list Z) :=
  new_len <- base32_strlen str str_len ;;
  out <- from_base32_blocks_c k (new_len / 8) (new_len mod 8) str (b32_decode_str is_raw) ;;
  Ok (length out, out).

(** src/base32.c:256-258 [fingera_from_base32] *)
Definition from_base32_c (k : char_kind) (str : list Z) (str_len : nat) : res (nat * list Z) := from_base32_any_c k str str_len false.

(** src/base32.c:260-262 [fingera_from_base32_raw] *)
Definition from_base32_raw_c (k : char_kind) (str : list Z) (str_len : nat) : res (nat * list Z) := from_base32_any_c k str str_len true.

(** [isspace(c)], C locale: a negative argument is undefined, 128 to 255 are not white space. *)
(** src/base58.c:76,90,110 (the C library function) *)
Definition isspace_c (k : char_kind) (c : Z) : res bool :=
  if char_value k c <? 0 then UB else Ok ((c =? 32) || ((9 <=? c) && (c <=? 13))).

(** src/base58.c:76-78: skip leading spaces; the count and the memory from there on. *)
Fixpoint skip_leading_spaces_c (k : char_kind) (str : list Z) : res (nat * list Z) :=
  match str with
  | [] => UB
  | c :: r =>
      if c =? 0 then Ok (O, str)
      else
        s <- isspace_c k c ;;
        if s then '(n, m) <- skip_leading_spaces_c k r ;; Ok (S n, m) else Ok (O, str)
  end.

(** src/base58.c:90-108: the decoding loop; [None]: an invalid character (return 0 at line 96);
    otherwise [length], the scratch area and the memory from the stopping point on. *)
Fixpoint from_base58_loop_c (k : char_kind) (str : list Z) (len : nat) (b256 : list Z) : res (option (nat * list Z * list Z)) :=
  match str with
  | [] => UB
  | c :: r =>
      if c =? 0 then Ok (Some (len, b256, str))
      else
        s <- isspace_c k c ;;
        if s then Ok (Some (len, b256, str))
        else
          let carry := tget BASE58_DECODE c in
          if carry =? -1 then Ok None
          else
            let '(carry', i, b256') := carry_loop 58 256 carry 0 len b256 in
            _ <- c_assert (carry' =? 0) ;;
            from_base58_loop_c k r i b256'
  end.

(** src/base58.c:110: skip trailing spaces. *)
Fixpoint skip_trailing_spaces_c (k : char_kind) (str : list Z) : res (list Z) :=
  match str with
  | [] => UB
  | c :: r => s <- isspace_c k c ;; if s then skip_trailing_spaces_c k r else Ok str
  end.

(** src/base58.c:73-126 [fingera_from_base58]: return value and bytes written.
    [str] is the readable memory from the pointer on.  A negative [size] (line 86) makes
    the stack-or-heap test of DECLARE_BUFFER (include/fingera_libc/sl/buffer.h:12-23) ask malloc for an
    absurd size and the memset of line 88 write to the null result: undefined. *)
Definition from_base58_c (k : char_kind) (str : list Z) (str_len : nat) : res (nat * list Z) :=
  '(spaces, s1) <- skip_leading_spaces_c k str ;;
  '(zeroes, s2) <- skip_ones s1 ;;
  let product := to_int (Z.of_nat str_len - Z.of_nat spaces - Z.of_nat zeroes) * 733 in
  _ <- c_defined ((- 2 ^ 31 <=? product) && (product <=? INT_MAX)) ;;
  let size := Z.quot product 1000 + 1 in
  _ <- c_defined (0 <=? size) ;;
  o <- from_base58_loop_c k s2 0 (repeat 0 (Z.to_nat size)) ;;
  match o with
  | None => Ok (O, [])
  | Some (len, b256, s3) =>
      s4 <- skip_trailing_spaces_c k s3 ;;
      c <- rd s4 0 ;;
      if negb (c =? 0) then Ok (O, [])
      else
        let out := repeat 0 zeroes ++ result_digits len b256 in
        Ok (length out, out)
  end.

(** btc/base58_check.c:33-40: return value and the bytes written to [buf]
    (which, as in [from_base58], are written whatever the capacity of [buf]). *)
Definition from_base58_check_c (k : char_kind) (str : list Z) (str_len : nat) : res (nat * list Z) :=
  '(buf_size, buf) <- from_base58_c k str str_len ;;
  if (buf_size <? 4)%nat then Ok (O, buf)
  else
    window <- slice buf 0 (buf_size - 4) ;;
    hash <- btc_hash256 window (buf_size - 4) ;;
    h4 <- slice hash 0 4 ;;
    c4 <- slice buf (buf_size - 4) 4 ;;
    if negb (bytes_eqb h4 c4) then Ok (O, buf)
    else Ok ((buf_size - 4)%nat, buf).

(** [isupper(c) ? tolower(c) : c] (bech32.c:123), C locale, for a char that is not negative *)
Definition lower_char_c (k : char_kind) (c : Z) : res Z :=
  if char_value k c <? 0 then UB else Ok (if (65 <=? c) && (c <=? 90) then c + 32 else c).

(** src/btc/bech32.c:122-124 *)
Fixpoint lower_chars_c (k : char_kind) (str : list Z) (n : nat) : res (list Z) :=
  match n with
  | O => Ok []
  | S n' => match str with [] => UB | c :: r => x <- lower_char_c k c ;; xs <- lower_chars_c k r n' ;; Ok (x :: xs) end
  end.

(** src/btc/bech32.c:111-141.  [str] is the readable memory from the pointer on. *)
Definition bech32_decode_c (k : char_kind) (str : list Z) (str_len hrp_size : nat) : res bech32_result :=
  bad <- is_illegal str str_len ;;
  if bad then Ok (mkB32 (-1) hrp_size [] [])
  else
    o <- strrchr str 49 ;;
    match o with
    | None => Ok (mkB32 (-2) hrp_size [] [])
    | Some pos =>
        if (90 <? str_len)%nat || (pos =? 0)%nat || (str_len <? pos + 7)%nat || (str_len <=? 7)%nat
        then Ok (mkB32 (-2) hrp_size [] [])
        else if (hrp_size <? pos)%nat then Ok (mkB32 (-3) hrp_size [] [])
        else
          hrp <- lower_chars_c k str pos ;;
          (* pos++ ; while (pos != str + (str_len - 6)) *)
          let n := (str_len - 6 - (pos + 1))%nat in
          '(data, ok) <- decode_chars (skipn (pos + 1) str) n ;;
          if negb ok then Ok (mkB32 (-4) pos hrp data)
          else
            '(checksum, ok) <- decode_chars (skipn (str_len - 6) str) 6 ;;
            if negb ok then Ok (mkB32 (-4) pos hrp data)
            else
              v <- verify_checksum hrp data checksum ;;
              if negb v then Ok (mkB32 (-5) pos hrp data)
              else Ok (mkB32 (Z.of_nat (length data)) pos hrp data)
    end.

(** src/btc/address.c:95-140.  [stack] is the 128 bytes of [buffer_stack_buffer_] before the call
    (DECLARE_BUFFER, sl/buffer.h:12-23; uninitialised, so any contents).  When str_len - 7 is above 128 or wraps
    around, the buffer is the result of malloc, but then bech32 decoding fails (str_len above 90 or below 8)
    without writing to it: the model uses [stack] there too.  [out] is what [out] contains so far. *)
Definition decode_bech32_c (k : char_kind) (str : list Z) (str_len : nat) (out : list Z) (out_size : nat) (param : chain_parameters)
    (stack : list Z) : res address_result :=
  r <- bech32_decode_c k str str_len 16 ;;
  let bech32_size := b_ret r in
  if (bech32_size <? 1) || negb (b_hrp_size r =? length (cp_hrp param))%nat || negb (bytes_eqb (b_hrp r) (cp_hrp param))
  then Ok (mkAddr BAD_ADDRESS out_size out)
  else
    buffer <- store stack 0 (b_data r) ;;
    let n := Z.to_nat (bech32_size - 1) in
    if (from_base32_raw_length n <=? out_size)%nat then
      v <- rd buffer 0 ;;
      let version := char_value k v in
      if version =? 0 then
        '(size, prog) <- from_base32_raw_c k (skipn 1 buffer) n ;;
        let out := overlay prog out in
        if (size =? WITNESSV0_KEYID_SIZE)%nat then Ok (mkAddr WITNESSV0_KEYHASH_ADDRESS size out)
        else if (size =? WITNESSV0_SCRIPTID_SIZE)%nat then Ok (mkAddr WITNESSV0_SCRIPTHASH_ADDRESS size out)
        else Ok (mkAddr BAD_ADDRESS size out)
      else
        '(size, prog) <- from_base32_raw_c k (skipn 1 buffer) n ;;
        let out := overlay (u8 version :: prog) out in
        let size := (size + 1)%nat in
        if (16 <? version) || (size <? 3)%nat || (41 <? size)%nat then Ok (mkAddr BAD_ADDRESS size out)
        else Ok (mkAddr WITNESS_UNKNOWN_ADDRESS size out)
    else Ok (mkAddr BAD_ADDRESS out_size out).

(** src/btc/address.c:142-165. *)
Definition address_decode_c (k : char_kind) (str : list Z) (str_len : nat) (out_size : nat) (param : chain_parameters)
    (stack : list Z) : res address_result :=
  if (out_size <? from_base58_check_length str_len)%nat then Ok (mkAddr BAD_ADDRESS out_size [])
  else
    '(size, out) <- from_base58_check_c k str str_len ;;
    let np := length (cp_pubkey param) in
    let ns := length (cp_script param) in
    if negb (size =? 0)%nat && (np <=? size)%nat && bytes_eqb (firstn np out) (cp_pubkey param)
    then Ok (mkAddr PUBKEY_ADDRESS (size - np) (overlay (firstn (size - np) (skipn np out)) out))
    else if negb (size =? 0)%nat && (ns <=? size)%nat && bytes_eqb (firstn ns out) (cp_script param)
    then Ok (mkAddr SCRIPT_ADDRESS (size - ns) (overlay (firstn (size - ns) (skipn ns out)) out))
    else decode_bech32_c k str str_len out out_size param stack.

(** key.c:376-399: return value, *key32 and *is_compressed afterwards; [key32] is the output
    buffer and [is_compressed] the variable before the call. *)
Definition key_from_string_c (k : char_kind) (key_str : list Z) (str_len : nat) (key32 : list Z) (is_compressed : Z) (param : chain_parameters)
  : res (Z * list Z * Z) :=
  let buf := uninit (32 + 8) in
  let psize := length (cp_secret param) in
  _ <- c_assert (psize <=? 8)%nat ;;
  '(size, out) <- from_base58_check_c k key_str str_len ;;
  buf <- store buf 0 out ;;
  if (size <=? 32)%nat then Ok (0, key32, is_compressed) else
  let pre_size := (size - 32)%nat in
  c <- (if negb (psize =? pre_size)%nat then
          if negb (psize =? pre_size - 1)%nat then Ok None
          else
            b <- rd buf (size - 1) ;;
            if negb (b =? 1) then Ok None else Ok (Some 1)
        else Ok (Some 0)) ;;
  match c with
  | None => Ok (0, key32, is_compressed)
  | Some is_compressed =>
      p <- slice buf 0 psize ;;
      if negb (bytes_eqb p (cp_secret param)) then Ok (0, key32, is_compressed) else
      k <- slice buf psize 32 ;;
      key32 <- store key32 0 k ;;
      Ok (1, key32, is_compressed)
  end.

(** exkey.c:101-116: return value and *key afterwards *)
Definition exkey_from_string_c (k : char_kind) (str : list Z) (str_len : nat) (key : ex_key) (param : chain_parameters) : res (Z * ex_key) :=
  let extkey := uninit (BIP32_EXTKEY_SIZE + 8) in
  _ <- c_assert (length (cp_ext_sec param) <=? 8)%nat ;;
  '(size, out) <- from_base58_check_c k str str_len ;;
  extkey <- store extkey 0 out ;;
  _ <- c_assert (size <=? BIP32_EXTKEY_SIZE + 8)%nat ;;
  if (size <=? BIP32_EXTKEY_SIZE)%nat || (BIP32_EXTKEY_SIZE + 8 <? size)%nat then Ok (0, key) else
  let prefix_size := (size - BIP32_EXTKEY_SIZE)%nat in
  if negb (prefix_size =? length (cp_ext_sec param))%nat then Ok (0, key) else
  p <- slice extkey 0 prefix_size ;;
  if negb (bytes_eqb p (cp_ext_sec param)) then Ok (0, key) else
  key <- exkey_decode (skipn prefix_size extkey) key ;;
  _ <- cleanse extkey 0 (BIP32_EXTKEY_SIZE + 8) ;;
  Ok (1, key).

(** exkey.c:139-153 *)
Definition expubkey_from_string_c (k : char_kind) (str : list Z) (str_len : nat) (pub : ex_pubkey) (param : chain_parameters) : res (Z * ex_pubkey) :=
  let extkey := uninit (BIP32_EXTKEY_SIZE + 8) in
  _ <- c_assert (length (cp_ext_pub param) <=? 8)%nat ;;
  '(size, out) <- from_base58_check_c k str str_len ;;
  extkey <- store extkey 0 out ;;
  _ <- c_assert (size <=? BIP32_EXTKEY_SIZE + 8)%nat ;;
  if (size <=? BIP32_EXTKEY_SIZE)%nat || (BIP32_EXTKEY_SIZE + 8 <? size)%nat then Ok (0, pub) else
  let prefix_size := (size - BIP32_EXTKEY_SIZE)%nat in
  if negb (prefix_size =? length (cp_ext_pub param))%nat then Ok (0, pub) else
  p <- slice extkey 0 prefix_size ;;
  if negb (bytes_eqb p (cp_ext_pub param)) then Ok (0, pub) else
  pub <- expubkey_decode (skipn prefix_size extkey) pub ;;
  Ok (1, pub).
