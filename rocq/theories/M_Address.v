(** Model of src/btc/address.c, src/btc/chain_parameters.c and their headers. *)
From Verif Require Import Base M_Endian M_Hash M_Base32 M_Base58 M_Base58Check M_Bech32.

(** include/fingera_libc/btc/chain_parameters.h:16-34.  Simplification: a prefix pointer and its
    size are one list of bytes (so the size is the number of bytes the pointer gives access to). *)
Record chain_parameters := mkParams {
  cp_pubkey : list Z; cp_script : list Z; cp_secret : list Z;
  cp_ext_pub : list Z; cp_ext_sec : list Z; cp_hrp : list Z }.

(** src/btc/chain_parameters.c:3-21 *)
Definition mainnet : chain_parameters :=
  mkParams [0x00] [0x05] [0x80] [0x04; 0x88; 0xB2; 0x1E] [0x04; 0x88; 0xAD; 0xE4] [98; 99].
(** src/btc/chain_parameters.c:23-41 *)
Definition testnet : chain_parameters :=
  mkParams [0x6F] [0xC4] [0xEF] [0x04; 0x35; 0x87; 0xCF] [0x04; 0x35; 0x83; 0x94] [116; 98].
(** src/btc/chain_parameters.c:43-61 *)
Definition regnet : chain_parameters :=
  mkParams [0x6F] [0xC4] [0xEF] [0x04; 0x35; 0x87; 0xCF] [0x04; 0x35; 0x83; 0x94] [98; 99; 114; 116].

(** include/fingera_libc/btc/address.h:18-25 *)
Inductive address_kind :=
| BAD_ADDRESS | PUBKEY_ADDRESS | SCRIPT_ADDRESS
| WITNESSV0_KEYHASH_ADDRESS | WITNESSV0_SCRIPTHASH_ADDRESS | WITNESS_UNKNOWN_ADDRESS.

(** include/fingera_libc/btc/address.h:27-28 *)
Definition WITNESSV0_KEYID_SIZE : nat := 20.
(** include/fingera_libc/btc/address.h:28 *)
Definition WITNESSV0_SCRIPTID_SIZE : nat := 32.

(** src/btc/address.c:10-20: return value and characters written to [out]. [key_id] is exactly the
    buffer passed (key_id_size is its length). *)
Definition to_address_pubkey (key_id : list Z) (out_size : nat) (param : chain_parameters) : res (nat * list Z) :=
  if (out_size <? to_base58_check_length (length key_id) (length (cp_pubkey param)))%nat then Ok (O, [])
  else to_base58_check key_id (cp_pubkey param).

(** src/btc/address.c:22-32 *)
Definition to_address_script (script_id : list Z) (out_size : nat) (param : chain_parameters) : res (nat * list Z) :=
  if (out_size <? to_base58_check_length (length script_id) (length (cp_script param)))%nat then Ok (O, [])
  else to_base58_check script_id (cp_script param).

(** The common tail of the three witness encoders (address.c:41-50, 60-69, 80-92): [buf_cap] is the
    size of the local [buffer] (writing past it is undefined), [version] goes to buffer[0]. *)
Definition encode_witness (buf_cap : nat) (version : Z) (program : list Z) (out_size : nat) (param : chain_parameters)
  : res (nat * list Z) :=
  let buffer := uninit buf_cap in
  buffer <- store buffer 0 [version] ;;
  let '(n, vals) := to_base32_raw program in
  buffer <- store buffer 1 vals ;;
  let buf_size := (n + 1)%nat in
  let result_size := bech32_encode_length (length (cp_hrp param)) buf_size in
  if (out_size <? result_size)%nat then Ok (O, [])
  else
    window <- slice buffer 0 buf_size ;;
    text <- bech32_encode (cp_hrp param) window ;;
    Ok (result_size, text).

(** src/btc/address.c:34-51 (the second test of the size, line 40, never fires after the assertion) *)
Definition to_address_witnessv0_keyhash (key_hash : list Z) (out_size : nat) (param : chain_parameters) : res (nat * list Z) :=
  _ <- c_assert (length key_hash =? WITNESSV0_KEYID_SIZE)%nat ;;
  encode_witness 64 0 key_hash out_size param.

(** src/btc/address.c:53-70 *)
Definition to_address_witnessv0_scripthash (script_hash : list Z) (out_size : nat) (param : chain_parameters) : res (nat * list Z) :=
  _ <- c_assert (length script_hash =? WITNESSV0_SCRIPTID_SIZE)%nat ;;
  encode_witness 64 0 script_hash out_size param.

(** src/btc/address.c:72-93 *)
Definition to_address_witness_unknown (version_and_program : list Z) (out_size : nat) (param : chain_parameters) : res (nat * list Z) :=
  if (length version_and_program <? 3)%nat || (41 <? length version_and_program)%nat then Ok (O, [])
  else
    version <- rd version_and_program 0 ;;
    if (version <? 1) || (16 <? version) then Ok (O, [])
    else encode_witness 128 version (skipn 1 version_and_program) out_size param.

(** Result of address decoding: classification, value left in [*out_size], and the bytes of [out] that have
    been written at some time (from [out] on, with their final values): its length is the extent of the writes. *)
(** src/btc/address.c:142-143 (the outputs of [fingera_btc_address_decode]) *)
Record address_result := mkAddr { a_kind : address_kind; a_size : nat; a_out : list Z }.

(** Writing [new] at [out] when [old] had been written there before. *)
(** src/btc/address.c:113,125-127,154,160 (stores over what line 148 left in [out]) *)
Definition overlay (new old : list Z) : list Z := new ++ skipn (length new) old.

(** src/btc/address.c:95-140.  [stack] is the 128 bytes of [buffer_stack_buffer_] before the call
    (DECLARE_BUFFER, sl/buffer.h:12-23; uninitialised, so any contents).  When str_len - 7 is above 128 or wraps
    around, the buffer is the result of malloc, but then bech32 decoding fails (str_len above 90 or below 8)
    without writing to it: the model uses [stack] there too.  [out] is what [out] contains so far. *)
Definition decode_bech32 (str : list Z) (str_len : nat) (out : list Z) (out_size : nat) (param : chain_parameters)
    (stack : list Z) : res address_result :=
  r <- bech32_decode str str_len 16 ;;
  let bech32_size := b_ret r in
  if (bech32_size <? 1) || negb (b_hrp_size r =? length (cp_hrp param))%nat || negb (bytes_eqb (b_hrp r) (cp_hrp param))
  then Ok (mkAddr BAD_ADDRESS out_size out)
  else
    buffer <- store stack 0 (b_data r) ;;
    let n := Z.to_nat (bech32_size - 1) in
    if (from_base32_raw_length n <=? out_size)%nat then
      v <- rd buffer 0 ;;
      let version := as_char v in
      if version =? 0 then
        '(size, prog) <- from_base32_raw (skipn 1 buffer) n ;;
        let out := overlay prog out in
        if (size =? WITNESSV0_KEYID_SIZE)%nat then Ok (mkAddr WITNESSV0_KEYHASH_ADDRESS size out)
        else if (size =? WITNESSV0_SCRIPTID_SIZE)%nat then Ok (mkAddr WITNESSV0_SCRIPTHASH_ADDRESS size out)
        else Ok (mkAddr BAD_ADDRESS size out)
      else
        '(size, prog) <- from_base32_raw (skipn 1 buffer) n ;;
        let out := overlay (u8 version :: prog) out in
        let size := (size + 1)%nat in
        if (16 <? version) || (size <? 3)%nat || (41 <? size)%nat then Ok (mkAddr BAD_ADDRESS size out)
        else Ok (mkAddr WITNESS_UNKNOWN_ADDRESS size out)
    else Ok (mkAddr BAD_ADDRESS out_size out).

(** src/btc/address.c:142-165. *)
Definition address_decode (str : list Z) (str_len : nat) (out_size : nat) (param : chain_parameters)
    (stack : list Z) : res address_result :=
  if (out_size <? from_base58_check_length str_len)%nat then Ok (mkAddr BAD_ADDRESS out_size [])
  else
    '(size, out) <- from_base58_check str str_len ;;
    let np := length (cp_pubkey param) in
    let ns := length (cp_script param) in
    if negb (size =? 0)%nat && (np <=? size)%nat && bytes_eqb (firstn np out) (cp_pubkey param)
    then Ok (mkAddr PUBKEY_ADDRESS (size - np) (overlay (firstn (size - np) (skipn np out)) out))
    else if negb (size =? 0)%nat && (ns <=? size)%nat && bytes_eqb (firstn ns out) (cp_script param)
    then Ok (mkAddr SCRIPT_ADDRESS (size - ns) (overlay (firstn (size - ns) (skipn ns out)) out))
    else decode_bech32 str str_len out out_size param stack.
