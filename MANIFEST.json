{
 "claims": [
  {
   "property": "C01",
   "status": "proved",
   "theorems": [
    "C01_to_hex_exact"
   ],
   "note": ""
  },
  {
   "property": "C02",
   "status": "proved",
   "theorems": [
    "C02_hex_roundtrip"
   ],
   "note": ""
  },
  {
   "property": "C03",
   "status": "proved",
   "theorems": [
    "C03_from_hex_total",
    "C03_leading_pairs_unique"
   ],
   "note": ""
  },
  {
   "property": "C04",
   "status": "proved",
   "theorems": [
    "C04_hex_dump_layout"
   ],
   "note": ""
  },
  {
   "property": "C05",
   "status": "proved",
   "theorems": [
    "C05_encode_varint_size",
    "C05_encode_varint_meaning"
   ],
   "note": ""
  },
  {
   "property": "C06",
   "status": "proved",
   "theorems": [
    "C06_varint_roundtrip"
   ],
   "note": ""
  },
  {
   "property": "C07",
   "status": "proved",
   "theorems": [
    "C07_decode_varint_total"
   ],
   "note": ""
  },
  {
   "property": "C08",
   "status": "proved",
   "theorems": [
    "C08_varint_canonical",
    "C08_varint_alias"
   ],
   "note": "Canonicity below 2^64 proved; aliases above 2^64 proved to exist, as the property states."
  },
  {
   "property": "C09",
   "status": "proved",
   "theorems": [
    "C09_varint_prefix_free",
    "C09_varint_stream"
   ],
   "note": ""
  },
  {
   "property": "C10",
   "status": "partial",
   "theorems": [
    "C10_zigzag_roundtrip_partial",
    "C10_encode_zigzag_meaning_partial",
    "C10_zigzag_min_refuted"
   ],
   "note": "False of the code at INT64_MIN (llabs overflow, undefined behaviour): refuted there, proved for every other int64."
  },
  {
   "property": "C11",
   "status": "proved",
   "theorems": [
    "C11_decode_zigzag_safe",
    "C11_decode_zigzag_meaning"
   ],
   "note": ""
  },
  {
   "property": "C12",
   "status": "proved",
   "theorems": [
    "C12_to_base64_rfc4648"
   ],
   "note": ""
  },
  {
   "property": "C13",
   "status": "proved",
   "theorems": [
    "C13_to_base64_urlsafe_rfc4648"
   ],
   "note": ""
  },
  {
   "property": "C14",
   "status": "proved",
   "theorems": [
    "C14_base64_roundtrip"
   ],
   "note": ""
  },
  {
   "property": "C15",
   "status": "proved",
   "theorems": [
    "C15_base64_urlsafe_roundtrip"
   ],
   "note": ""
  },
  {
   "property": "C16",
   "status": "proved",
   "theorems": [
    "C16_from_base64_urlsafe_total",
    "C16_from_base64_total"
   ],
   "note": ""
  },
  {
   "property": "C17",
   "status": "partial",
   "theorems": [
    "C17_base64_urlsafe_strict_partial",
    "C17_base64_strict_partial",
    "C17_base64_strict_refuted",
    "C17_base64_urlsafe_exact",
    "C17_base64_exact"
   ],
   "note": "Full strictness is false of the code ('=' inside, non-zero spare bits, dangling character): refuted by witnesses; the strictness that holds is proved. C17_base64_exact and C17_base64_urlsafe_exact: the announced length is returned just when every character except a dangling one counts as a digit, and the result encodes back to the text just when the characters are all in the alphabet, none dangles, the spare bits are zero and (standard) the padding is right."
  },
  {
   "property": "C18",
   "status": "proved",
   "theorems": [
    "C18_to_base32_rfc4648"
   ],
   "note": ""
  },
  {
   "property": "C19",
   "status": "proved",
   "theorems": [
    "C19_to_base32_raw"
   ],
   "note": ""
  },
  {
   "property": "C20",
   "status": "proved",
   "theorems": [
    "C20_base32_roundtrip"
   ],
   "note": ""
  },
  {
   "property": "C21",
   "status": "partial",
   "theorems": [
    "C21_base32_raw_roundtrip_partial",
    "C21_base32_raw_roundtrip_refuted"
   ],
   "note": "False of the code: the decoder scans past the buffer for '=' or NUL (refuted by witnesses); proved whenever memory has a NUL before any '='. The result for every memory whatever is characterised exactly (C22_decoders_exact)."
  },
  {
   "property": "C22",
   "status": "partial",
   "theorems": [
    "C22_from_base32_partial",
    "C22_from_base32_refuted",
    "C22_decoders_exact",
    "C22_decoded_bytes"
   ],
   "note": "False of the code: adjacent '=' changes the result, bytes >= 128 are undefined, tail characters are not validated (refuted by witnesses); the rest is proved, and what both decoders give is characterised exactly for every memory, valid text or not (C22_decoders_exact, C22_decoded_bytes)."
  },
  {
   "property": "C23",
   "status": "proved",
   "theorems": [
    "C23_to_base58_numeral"
   ],
   "note": ""
  },
  {
   "property": "C24",
   "status": "proved",
   "theorems": [
    "C24_to_base58_bounds"
   ],
   "note": ""
  },
  {
   "property": "C25",
   "status": "proved",
   "theorems": [
    "C25_from_base58_language",
    "C25_from_base58_long_undefined",
    "C25_from_base58_4gib_aborts"
   ],
   "note": "For strings up to INT_MAX/733 characters, as the quantifier now says; for longer ones undefined behaviour is proved."
  },
  {
   "property": "C26",
   "status": "proved",
   "theorems": [
    "C26_base58_roundtrip"
   ],
   "note": ""
  },
  {
   "property": "C27",
   "status": "proved",
   "theorems": [
    "C27_base58_canonical",
    "C27_base58_injective"
   ],
   "note": ""
  },
  {
   "property": "C28",
   "status": "partial",
   "theorems": [
    "C28_from_base58_size_partial",
    "C28_from_base58_size_refuted",
    "C28_four_ones_refuted"
   ],
   "note": "False of the code (8 leading '1' already overflow the announced size): refuted; proved with at most three leading '1', and never more bytes than characters. Three is sharp: for every number of ones from four on some text overflows (C28_four_ones_refuted)."
  },
  {
   "property": "C29",
   "status": "partial",
   "theorems": [
    "C29_from_base58_nul_partial",
    "C29_from_base58_str_len_refuted",
    "C29_str_len_exact",
    "C29_longer_length"
   ],
   "note": "False of the code (str_len is only used for the scratch size): refuted; what holds is proved: independence of memory after the NUL, and of the length from the number of characters on (C29_longer_length). C29_str_len_exact gives the outcome for every length: undefined, failed assertion, or the right result."
  },
  {
   "property": "C30",
   "status": "proved",
   "theorems": [
    "C30_base58check_roundtrip"
   ],
   "note": ""
  },
  {
   "property": "C31",
   "status": "proved",
   "theorems": [
    "C31_base58check_language"
   ],
   "note": ""
  },
  {
   "property": "C32",
   "status": "proved",
   "theorems": [
    "C32_base58check_encode"
   ],
   "note": ""
  },
  {
   "property": "C33",
   "status": "proved",
   "theorems": [
    "C33_bech32_poly_mod"
   ],
   "note": ""
  },
  {
   "property": "C34",
   "status": "proved",
   "theorems": [
    "C34_bech32_encode",
    "C34_bech32_encode_assert"
   ],
   "note": ""
  },
  {
   "property": "C35",
   "status": "proved",
   "theorems": [
    "C35_bech32_roundtrip"
   ],
   "note": ""
  },
  {
   "property": "C36",
   "status": "proved",
   "theorems": [
    "C36_bech32_language",
    "C36_bech32_valid_unique"
   ],
   "note": ""
  },
  {
   "property": "C37",
   "status": "proved",
   "theorems": [
    "C37_bech32_distance"
   ],
   "note": ""
  },
  {
   "property": "C38",
   "status": "proved",
   "theorems": [
    "C38_bech32_case",
    "C38_bech32_uppercase",
    "C38_bech32_mixed_rejected"
   ],
   "note": ""
  },
  {
   "property": "C39",
   "status": "proved",
   "theorems": [
    "C39_bech32_memory"
   ],
   "note": ""
  },
  {
   "property": "C40",
   "status": "proved",
   "theorems": [
    "C40_pubkey_address_roundtrip"
   ],
   "note": "For the three built-in networks, any stack contents. The decoder writes 25 bytes into out (see C46)."
  },
  {
   "property": "C41",
   "status": "proved",
   "theorems": [
    "C41_script_address_roundtrip"
   ],
   "note": "As C40."
  },
  {
   "property": "C42",
   "status": "partial",
   "theorems": [
    "C42_witness_keyhash_exact",
    "C42_witness_keyhash_roundtrip_partial",
    "C42_witness_keyhash_refuted"
   ],
   "note": "Proved when the '='-scan of the uninitialised buffer ends at a NUL (always so if the hash has a zero 5-bit group); refuted in general: all-0xFF hash gives UB or a wrong rejection depending on stack contents. C42_witness_keyhash_exact: for every hash and scratch buffer, the address comes back as the hash just when the search for '=' or NUL in the scratch buffer lets it (program_read); a Base58 clash is impossible here."
  },
  {
   "property": "C43",
   "status": "partial",
   "theorems": [
    "C43_witness_scripthash_exact",
    "C43_witness_scripthash_roundtrip_partial",
    "C43_witness_scripthash_refuted"
   ],
   "note": "Proved when the '='-scan ends at a NUL and (mainnet only) the text is not also a Base58Check text; refuted by a concrete mainnet P2WSH address that is also a valid Base58Check text. C43_witness_scripthash_exact: the round trip succeeds just when the text is not also a Base58Check address and program_read gives the hash."
  },
  {
   "property": "C44",
   "status": "partial",
   "theorems": [
    "C44_witness_unknown_exact",
    "C44_witness_unknown_roundtrip_partial",
    "C44_witness_unknown_refuted"
   ],
   "note": "As C43, clash possible only for mainnet programs of 23 or 32 bytes; refuted by a concrete version 1 address. C44_witness_unknown_exact: the same characterisation for versions 1 to 16."
  },
  {
   "property": "C45",
   "status": "proved",
   "theorems": [
    "C45_pubkey_capacity",
    "C45_script_capacity",
    "C45_witness_keyhash_capacity",
    "C45_witness_scripthash_capacity",
    "C45_witness_unknown_capacity"
   ],
   "note": "All five encoders."
  },
  {
   "property": "C46",
   "status": "partial",
   "theorems": [
    "C46_overrun_exact",
    "C46_stack_overrun_refuted",
    "C46_decode_capacity_partial",
    "C46_decode_capacity_refuted"
   ],
   "note": "Proved for texts not starting with 1111 (after white space) and NUL-terminated stack scan, together with definedness; refuted by the burn address, and, for every witness address whose program has no zero five-bit value, by a scratch buffer content that makes the call write 78 bytes or more (C46_stack_overrun_refuted). C46_overrun_exact says exactly when the capacity is exceeded."
  },
  {
   "property": "C47",
   "status": "partial",
   "theorems": [
    "C47_witness_separation_exact",
    "C47_base58_network_separation",
    "C47_witness_v0_network_separation",
    "C47_witness_unknown_network_separation_partial",
    "C47_network_separation_refuted"
   ],
   "note": "Base58 and v0 witness separation proved for all stacks; versions 1-16 proved except program lengths 35 (tb under mainnet) and 31 (bcrt under mainnet); refuted by a concrete bcrt address accepted as mainnet script address. C47_witness_separation_exact: refused exactly when the text is not also a Base58 address of the other network."
  },
  {
   "property": "C48",
   "status": "partial",
   "theorems": [
    "C48_witness_strict_partial",
    "C48_witness_injective_partial",
    "C48_witness_strict_refuted"
   ],
   "note": "Canonically padded texts decode injectively (up to case); refuted: the decoder accepts BIP-173 invalid vectors with non-zero or over-long padding."
  },
  {
   "property": "C49",
   "status": "partial",
   "theorems": [
    "C49_base58_payload_partial",
    "C49_base58_payload_refuted"
   ],
   "note": "A base58 classification means Base58Check(prefix||payload), returned payload exact; refuted: payload size is not checked (empty payload accepted)."
  },
  {
   "property": "C50",
   "status": "partial",
   "theorems": [
    "C50_uninitialised_exact",
    "C50_uninitialised_partial",
    "C50_uninitialised_refuted"
   ],
   "note": "Independent of the buffer for non-witness texts, programs with a zero 5-bit group, and buffers on which the scan ends at a NUL; refuted in general. C50_uninitialised_exact: that is exactly when the outcome does not depend on the buffer."
  },
  {
   "property": "C51",
   "status": "proved",
   "theorems": [
    "C51_wif_roundtrip",
    "C51_wif_roundtrip_builtin"
   ],
   "note": ""
  },
  {
   "property": "C52",
   "status": "proved",
   "theorems": [
    "C52_wif_language"
   ],
   "note": ""
  },
  {
   "property": "C53",
   "status": "partial",
   "theorems": [
    "C53_wif_buffer_partial",
    "C53_wif_buffer_overflow_refuted",
    "C53_wif_overrun_exact",
    "C53_wif_buffer_ones_refuted",
    "C53_wif_own_strings_refuted"
   ],
   "note": "Full statement is false. Proved: no overrun when the text has at most 40 characters or decodes to at most 40 bytes. Refuted: every text that decodes to more than 40 bytes overruns (so 41 characters '1' do, for every network), and for secret prefixes of 5 to 8 bytes even the library's own WIF strings do. C53_wif_overrun_exact: the call is undefined exactly when the text is the Base58 text of more than 40 bytes; every other call returns."
  },
  {
   "property": "C54",
   "status": "proved",
   "theorems": [
    "C54_key_encode_layout",
    "C54_key_roundtrip",
    "C54_key_encode_invalid"
   ],
   "note": ""
  },
  {
   "property": "C55",
   "status": "proved",
   "theorems": [
    "C55_key_decode_language",
    "C55_key_decode_safe"
   ],
   "note": ""
  },
  {
   "property": "C56",
   "status": "proved",
   "theorems": [
    "C56_signature_decode_safe"
   ],
   "note": ""
  },
  {
   "property": "C57",
   "status": "proved",
   "theorems": [
    "C57_signature_encode_strict",
    "C57_strict_der_unique",
    "C57_signature_roundtrip",
    "C57_signature_padding"
   ],
   "note": ""
  },
  {
   "property": "C58",
   "status": "proved",
   "theorems": [
    "C58_signature_decode_language",
    "C58_lax_der_unambiguous",
    "C58_signature_decode_meaning"
   ],
   "note": ""
  },
  {
   "property": "C59",
   "status": "proved",
   "theorems": [
    "C59_sign_low_r_and_verifies",
    "C59_sign_first_low_r",
    "C59_sign_invalid_key"
   ],
   "note": ""
  },
  {
   "property": "C60",
   "status": "proved",
   "theorems": [
    "C60_verify_sign_of_s",
    "C60_verify_meaning"
   ],
   "note": ""
  },
  {
   "property": "C61",
   "status": "proved",
   "theorems": [
    "C61_key_new_valid",
    "C61_key_new_safe",
    "C61_key_new_first_valid",
    "C61_key_new_without_randomness"
   ],
   "note": ""
  },
  {
   "property": "C62",
   "status": "proved",
   "theorems": [
    "C62_init",
    "C62_init_without_randomness",
    "C62_init_twice",
    "C62_uninit",
    "C62_uninit_twice",
    "C62_history"
   ],
   "note": ""
  },
  {
   "property": "C63",
   "status": "proved",
   "theorems": [
    "C63_key_derive",
    "C63_key_derive_invalid",
    "C63_pubkey_derive"
   ],
   "note": ""
  },
  {
   "property": "C64",
   "status": "proved",
   "theorems": [
    "C64_ckd_commutes",
    "C64_public_derivation_commutes",
    "C64_hardened_public_aborts"
   ],
   "note": ""
  },
  {
   "property": "C65",
   "status": "proved",
   "theorems": [
    "C65_key_fingerprint",
    "C65_pubkey_fingerprint",
    "C65_fingerprints_agree"
   ],
   "note": ""
  },
  {
   "property": "C66",
   "status": "proved",
   "theorems": [
    "C66_exkey_encode",
    "C66_exkey_decode_encode",
    "C66_exkey_encode_decode",
    "C66_fingerprint_bytes"
   ],
   "note": "decode(encode k) = k for all keys; encode(decode code) = code exactly when the byte at offset 41 is zero (that byte is not checked by decode)."
  },
  {
   "property": "C67",
   "status": "proved",
   "theorems": [
    "C67_expubkey_encode",
    "C67_expubkey_decode_encode",
    "C67_expubkey_encode_decode"
   ],
   "note": ""
  },
  {
   "property": "C68",
   "status": "proved",
   "theorems": [
    "C68_exkey_string_roundtrip",
    "C68_expubkey_string_roundtrip",
    "C68_builtin_roundtrip"
   ],
   "note": "Proved for version prefixes of one to four bytes, which covers every built-in network; longer ones: see C70."
  },
  {
   "property": "C69",
   "status": "proved",
   "theorems": [
    "C69_private_text",
    "C69_public_text",
    "C69_testnet_is_regtest"
   ],
   "note": "Any text accepted as private/public is refused as the other kind and across mainnet / not mainnet. Testnet and regtest share version bytes and are therefore interchangeable (C69_testnet_is_regtest)."
  },
  {
   "property": "C70",
   "status": "partial",
   "theorems": [
    "C70_buffer_partial",
    "C70_buffer_overflow_refuted",
    "C70_overrun_exact",
    "C70_buffer_ones_refuted",
    "C70_own_strings_refuted"
   ],
   "note": "False of the code: any string decoding to more than 82 bytes overruns the buffer (e.g. 83 times '1'), and so do the library's own strings for version prefixes of 5 to 8 bytes. Proved: texts of at most 82 characters, or decoding to at most 82 bytes, are handled without undefined behaviour. C70_overrun_exact: the call is undefined exactly when the text is the Base58 text of more than 82 bytes; every other call returns."
  },
  {
   "property": "C71",
   "status": "partial",
   "theorems": [
    "C71_exkey_derive_partial",
    "C71_expubkey_derive_partial",
    "C71_path_depth_partial",
    "C71_depth_wraps_refuted"
   ],
   "note": "Depth + 1, child number and fingerprint proved below depth 255 and along any path; false at depth 255, where the code returns success with depth 0 instead of failing (C71_depth_wraps_refuted)."
  },
  {
   "property": "C72",
   "status": "proved",
   "theorems": [
    "C72_sha1"
   ],
   "note": ""
  },
  {
   "property": "C73",
   "status": "proved",
   "theorems": [
    "C73_sha256"
   ],
   "note": ""
  },
  {
   "property": "C74",
   "status": "proved",
   "theorems": [
    "C74_sha512"
   ],
   "note": ""
  },
  {
   "property": "C75",
   "status": "proved",
   "theorems": [
    "C75_ripemd160"
   ],
   "note": ""
  },
  {
   "property": "C76",
   "status": "proved",
   "theorems": [
    "C76_hmac_sha256"
   ],
   "note": ""
  },
  {
   "property": "C77",
   "status": "proved",
   "theorems": [
    "C77_hmac_sha512"
   ],
   "note": ""
  },
  {
   "property": "C78",
   "status": "proved",
   "theorems": [
    "C78_hash256",
    "C78_hash160"
   ],
   "note": ""
  },
  {
   "property": "C79",
   "status": "proved",
   "theorems": [
    "C79_hash256_d64",
    "C79_d64_is_hash256"
   ],
   "note": ""
  },
  {
   "property": "C80",
   "status": "partial",
   "theorems": [
    "C80_os_rand_fills_partial",
    "C80_os_rand_bytes_partial",
    "C80_os_rand_short_read_refuted",
    "C80_os_rand_fills_refuted"
   ],
   "note": "Full statement is false. Proved: if the first read delivers everything, the buffer is exactly that data; in general each byte of the result is characterised (every read is written at offset 0). Refuted: after any short first read the last byte is left as it was; a concrete half-reader leaves the upper half untouched."
  },
  {
   "property": "C81",
   "status": "proved",
   "theorems": [
    "C81_os_rand_terminates",
    "C81_os_rand_fuel_irrelevant",
    "C81_oversized_read"
   ],
   "note": ""
  },
  {
   "property": "C82",
   "status": "proved",
   "theorems": [
    "C82_cleanse"
   ],
   "note": ""
  },
  {
   "property": "C83",
   "status": "proved",
   "theorems": [
    "C83_read",
    "C83_read_offset",
    "C83_write",
    "C83_read_write"
   ],
   "note": ""
  },
  {
   "property": "C84",
   "status": "proved",
   "theorems": [
    "C84_bip32_hash"
   ],
   "note": ""
  },
  {
   "property": "C85",
   "status": "proved",
   "theorems": [
    "C85_master_key"
   ],
   "note": "Exact HMAC-SHA512 master key; validity of the left half as a scalar is not checked by the code (nor claimed)."
  },
  {
   "property": "C86",
   "status": "partial",
   "theorems": [
    "C86_exkey_strings",
    "C86_expubkey_strings",
    "C86_malformed_accepted_refuted"
   ],
   "note": "Acceptance is exactly Base58Check of the version bytes and 74 bytes (among texts decoding to at most 82 bytes, see C70), and refusal leaves the structure alone. Refuted part: the pad byte of a private key and key validity are not checked."
  },
  {
   "property": "C87",
   "status": "proved",
   "theorems": [
    "C87_to_hex_memory",
    "C87_from_hex_memory",
    "C87_hex_roundtrip_memory"
   ],
   "note": "Memory-level model (M_Mem.v): byte-by-byte loads and stores in the code's order."
  },
  {
   "property": "C88",
   "status": "proved",
   "theorems": [
    "C88_to_base64_memory",
    "C88_to_base64_urlsafe_memory",
    "C88_from_base64_urlsafe_memory",
    "C88_from_base64_memory",
    "C88_base64_roundtrip_memory"
   ],
   "note": "Memory-level model in the code's load/store order; in-place decoding included."
  },
  {
   "property": "C89",
   "status": "proved",
   "theorems": [
    "C89_to_base32_memory",
    "C89_to_base32_raw_memory",
    "C89_from_base32_memory",
    "C89_from_base32_raw_memory",
    "C89_base32_roundtrip_memory"
   ],
   "note": "Memory-level model in the code's load/store order; in-place decoding included."
  },
  {
   "property": "C90",
   "status": "proved",
   "theorems": [
    "C90_encode_varint_memory",
    "C90_encode_varint_tight",
    "C90_encode_zigzag_memory"
   ],
   "note": "Memory-level model; encode_zigzag for every value except INT64_MIN (undefined there, see C10)."
  },
  {
   "property": "C91",
   "status": "proved",
   "theorems": [
    "C91_to_base58_memory",
    "C91_from_base58_memory",
    "C91_to_base58_check_memory",
    "C91_from_base58_check_memory",
    "C91_base58_roundtrip_in_place"
   ],
   "note": "Model with explicit scratch blocks (M_Scratch.v), malloc and free; the 32-byte local hash array of the checksum functions is not scratch memory in this sense."
  },
  {
   "property": "C92",
   "status": "proved",
   "theorems": [
    "C92_address_decode_memory",
    "C92_address_decode_no_malloc"
   ],
   "note": "Refines the byte-level address model (C40-C50), so those results carry over to memory. The scratch buffer of decode_bech32 is not wiped by the code (nor claimed)."
  },
  {
   "property": "C93",
   "status": "partial",
   "theorems": [
    "C93_to_base58_no_malloc_partial",
    "C93_to_base58_check_no_malloc_partial",
    "C93_from_base58_no_malloc_partial",
    "C93_out_of_memory_refuted"
   ],
   "note": "Holds (no malloc at all) up to 92 bytes to encode, 88 with checksum, 174 characters to decode; refuted beyond: DECLARE_BUFFER does not check malloc, the memset through NULL is undefined."
  },
  {
   "property": "C94",
   "status": "proved",
   "theorems": [
    "C94_hashes_wipe"
   ],
   "note": "M_Residue.v: local arrays with their contents at return. Scalar locals and registers are not modelled."
  },
  {
   "property": "C95",
   "status": "proved",
   "theorems": [
    "C95_double_hashes"
   ],
   "note": "Exact contents; the intermediate digest is not wiped by the code."
  },
  {
   "property": "C96",
   "status": "partial",
   "theorems": [
    "C96_hmac_message_partial",
    "C96_hmac_key_refuted"
   ],
   "note": "Holds for the message; refuted for the key: the padded key stays in `buffer` (and xored with constants in key_inner, key_outter) for every key."
  },
  {
   "property": "C97",
   "status": "proved",
   "theorems": [
    "C97_master_key",
    "C97_key_derive",
    "C97_key_init"
   ],
   "note": "Non-interference: the left-over arrays are one fixed list (master key) or a function of the chain code and of hardened/normal only (derivation). libsecp256k1's own memory is not modelled; a point object is 64 opaque bytes."
  },
  {
   "property": "C98",
   "status": "partial",
   "theorems": [
    "C98_derive_wipes_partial",
    "C98_chain_code_refuted",
    "C98_public_derivation_refuted"
   ],
   "note": "Arrays of fingera_btc_key_derive itself are wiped; refuted: HMAC keeps the parent's chain code, and fingera_btc_pubkey_derive never wipes `out`."
  },
  {
   "property": "C99",
   "status": "partial",
   "theorems": [
    "C99_key_to_string_partial",
    "C99_exkey_to_string_partial",
    "C99_exkey_from_string_partial",
    "C99_exkey_refused_refuted",
    "C99_key_from_string_refuted"
   ],
   "note": "Holds for writing strings and for accepted extended keys; refuted: fingera_btc_key_from_string never wipes its buffer (every accepted key is left), fingera_exkey_from_string wipes only on success. Scratch blocks are C91."
  },
  {
   "property": "C100",
   "status": "proved",
   "theorems": [
    "C100_base58",
    "C100_addresses",
    "C100_keys",
    "C100_extended_keys",
    "C100_life_cycle"
   ],
   "note": "Per function: if the call returns in a debug build, it returns the same with NDEBUG."
  },
  {
   "property": "C101",
   "status": "partial",
   "theorems": [
    "C101_wrong_sizes_partial",
    "C101_invalid_key_partial",
    "C101_sign_refuted",
    "C101_hardened_refuted",
    "C101_bech32_value_refuted",
    "C101_init_twice_refuted",
    "C101_base58_short_length_refuted"
   ],
   "note": "Proved: wrong sizes refused, invalid keys give no encoding, identifier or child. Refuted: signing with an invalid key (all-zero signature), hardened public derivation (success), base32 value 32 (NUL in text), double init (leak), short Base58 length (lost digits)."
  },
  {
   "property": "C102",
   "status": "proved",
   "theorems": [
    "C102_byte_order",
    "C102_hashes",
    "C102_big_endian_standards",
    "C102_keys",
    "C102_extended_keys"
   ],
   "note": "Host byte order is a parameter of the model; equality with the little-endian models for all byte inputs (including those that are refused or undefined)."
  },
  {
   "property": "C103",
   "status": "partial",
   "theorems": [
    "C103_key_derive",
    "C103_key_derive_same_buffer_refuted",
    "C103_pubkey_derive",
    "C103_exkey_derive",
    "C103_exkey_in_place_refuted",
    "C103_expubkey_derive",
    "C103_exkey_get_pub",
    "C103_path_in_place"
   ],
   "note": "Every allowed overlap is proved equal to separate buffers; private derivation into the same buffer is proved undefined under the letter of the standard (_refuted) and right where memcpy(p,p,n) does nothing."
  },
  {
   "property": "C104",
   "status": "proved",
   "theorems": [
    "C104_sha1",
    "C104_ripemd160",
    "C104_sha256",
    "C104_sha512",
    "C104_hmac_sha256",
    "C104_hmac_sha512",
    "C104_hash160",
    "C104_hash256",
    "C104_bip32_hash"
   ],
   "note": ""
  },
  {
   "property": "C105",
   "status": "partial",
   "theorems": [
    "C105_inputs_at_any_address",
    "C105_output_at_any_address_refuted",
    "C105_local_array_refuted"
   ],
   "note": "Inputs proved for every address; outputs refuted under the strict rule for misaligned addresses, proved for aligned ones and for machines without alignment rule (C104)."
  },
  {
   "property": "C106",
   "status": "proved",
   "theorems": [
    "C106_unix_descriptors",
    "C106_windows_handles",
    "C106_no_leak"
   ],
   "note": "Relative to the Unix read contract of C80/C81 and the generator contract stated in the theorem."
  },
  {
   "property": "C107",
   "status": "partial",
   "theorems": [
    "C107_windows_fills_partial",
    "C107_windows_large_refuted",
    "C107_cleanse_msvc"
   ],
   "note": "Proved below 4 GiB; refuted from 4 GiB on (size truncated to 32 bits)."
  },
  {
   "property": "C108",
   "status": "partial",
   "theorems": [
    "C108_signed_is_the_model",
    "C108_unsigned",
    "C108_ascii_base58",
    "C108_ascii_base32",
    "C108_bech32",
    "C108_unsigned_base58",
    "C108_unsigned_base58check",
    "C108_unsigned_base32",
    "C108_signed_base58_refuted",
    "C108_signed_base32_refuted",
    "C108_unsigned_address"
   ],
   "note": "Equality proved for ASCII texts and, for unsigned char, for all texts; for signed char non-ASCII texts are proved undefined (_refuted)."
  },
  {
   "property": "C109",
   "status": "partial",
   "theorems": [
    "C109_hex_lengths",
    "C109_base64_lengths",
    "C109_base32_lengths",
    "C109_base58_lengths_partial",
    "C109_base58_lengths_64",
    "C109_bech32_length",
    "C109_to_base58_width",
    "C109_to_base58_32_undefined",
    "C109_to_base58_length_32_refuted",
    "C109_from_base58_length_32_refuted",
    "C109_address_decode_width",
    "C109_address_decode_32_refuted",
    "C109_sha2_width",
    "C109_hmac_width"
   ],
   "note": "Proved for all widths except the Base58 helpers, which need the intermediate product to fit (_partial); refuted for 32-bit size_t beyond that (_refuted)."
  },
  {
   "property": "C110",
   "status": "proved",
   "theorems": [
    "C110_concurrent_calls"
   ],
   "note": "Sequentially consistent interleavings of the shared accesses; data race freedom is proved too, so the C11 model gives no other behaviours. libsecp256k1 calls with a const context are taken to be reads of the context, as it documents."
  },
  {
   "property": "C111",
   "status": "partial",
   "theorems": [
    "C111_init_alone",
    "C111_uninit_alone",
    "C111_init_same",
    "C111_uninit_same",
    "C111_phases_partial",
    "C111_two_inits_refuted",
    "C111_uninit_during_call_refuted",
    "C111_sign_during_uninit_refuted",
    "C111_verify_during_uninit_refuted",
    "C111_uninit_races_refuted",
    "C111_call_before_init_refuted",
    "C111_call_during_init_refuted"
   ],
   "note": "Proved for the phase order init / calls / uninit (_partial); the rest is refuted by explicit schedules."
  },
  {
   "property": "C112",
   "status": "partial",
   "theorems": [
    "C112_fatal",
    "C112_fatal_defined",
    "C112_random_same",
    "C112_random_last_words",
    "C112_reason_refuted",
    "C112_windows_refuted"
   ],
   "note": "Everything but the reason after an end of file and the two Windows messages, which are refuted. Writes to stderr are taken to succeed. Windows: C123."
  },
  {
   "property": "C113",
   "status": "proved",
   "theorems": [
    "C113_mistyped_witness_address",
    "C113_mistyped_encoded_address",
    "C113_exchanged_characters"
   ],
   "note": ""
  },
  {
   "property": "C114",
   "status": "partial",
   "theorems": [
    "C114_q_before_p_refuted",
    "C114_q_before_p",
    "C114_address_q_before_p_refuted",
    "C114_version0_length_partial",
    "C114_examples_refuted"
   ],
   "note": "Refuted for all accepted texts that end in p, at the Bech32 level and, for programs of 2 or 4 bytes modulo 5, at the address level; the lengths of version 0 addresses are the part that holds."
  },
  {
   "property": "C115",
   "status": "proved",
   "theorems": [
    "C115_pubkey_encode",
    "C115_roundtrip",
    "C115_injective",
    "C115_decode",
    "C115_wrong_length",
    "C115_identifier"
   ],
   "note": ""
  },
  {
   "property": "C116",
   "status": "proved",
   "theorems": [
    "C116_watch_only",
    "C116_accounts_of_a_seed",
    "C116_hardened_step_stops"
   ],
   "note": ""
  },
  {
   "property": "C117",
   "status": "proved",
   "theorems": [
    "C117_texts_unambiguous",
    "C117_always_written",
    "C117_test_networks_share"
   ],
   "note": ""
  },
  {
   "property": "C118",
   "status": "partial",
   "theorems": [
    "C118_key_as_address",
    "C118_read_as_extended_key",
    "C118_read_as_extended_pubkey",
    "C118_read_as_private_key_partial",
    "C118_extended_key_as_private_key_refuted",
    "C118_long_witness_as_private_key_refuted"
   ],
   "note": "Address and extended key readers: full. Private key reader: proved for Base58 addresses, private keys and witness addresses up to 54 characters; refuted for all extended keys and for long witness addresses without 0 and l (buffer overrun)."
  },
  {
   "property": "C119",
   "status": "proved",
   "theorems": [
    "C119_encode",
    "C119_decode",
    "C119_zigzag_stream"
   ],
   "note": ""
  },
  {
   "property": "C120",
   "status": "proved",
   "theorems": [
    "C120_zeros",
    "C120_long_keys"
   ],
   "note": ""
  },
  {
   "property": "C121",
   "status": "proved",
   "theorems": [
    "C121_hash256",
    "C121_hash160",
    "C121_hmac_sha256",
    "C121_hmac_sha512",
    "C121_same_key_block",
    "C121_addresses_exist",
    "C121_addresses"
   ],
   "note": ""
  },
  {
   "property": "C122",
   "status": "proved",
   "theorems": [
    "C122_children_differ",
    "C122_public_children_differ",
    "C122_equal_keys",
    "C122_child_gives_parent"
   ],
   "note": ""
  },
  {
   "property": "C123",
   "status": "partial",
   "theorems": [
    "C123_fatal",
    "C123_no_message_refuted",
    "C123_wincrypt",
    "C123_bcrypt_refuted",
    "C123_bcrypt_alike"
   ],
   "note": "C123_no_message_refuted and C123_bcrypt_refuted show the undefined behaviours; C123_fatal and C123_wincrypt cover everything else; C123_bcrypt_alike gives the text printed when ULONG and %d agree."
  },
  {
   "property": "C124",
   "status": "proved",
   "theorems": [
    "C124_chain_codes",
    "C124_strings"
   ],
   "note": ""
  },
  {
   "property": "C125",
   "status": "proved",
   "theorems": [
    "C125_address_decode_exact"
   ],
   "note": ""
  },
  {
   "property": "C126",
   "status": "proved",
   "theorems": [
    "C126_primes",
    "C126_group",
    "C126_order",
    "C126_laws",
    "C126_pubkey_language",
    "C126_verify_exact",
    "C126_sign_verifies",
    "C126_derivation_commutes"
   ],
   "note": "C126_laws discharges the hypothesis secp_laws of C54-C65, C71, C115, C116, C121, C122, C124 for the real curve. That libsecp256k1 computes this curve is still trusted."
  },
  {
   "property": "C127",
   "status": "proved",
   "theorems": [
    "C127_every_point",
    "C127_one_secret",
    "C127_keys",
    "C127_hashes",
    "C127_same_residue",
    "C127_s"
   ],
   "note": ""
  },
  {
   "property": "C128",
   "status": "proved",
   "theorems": [
    "C128_outputs",
    "C128_nonce",
    "C128_no_reuse",
    "C128_same_r_reveals_the_key"
   ],
   "note": "The model of libsecp256k1 gives up after a thousand unusable generator outputs (the library would go on); the theorems name that case (`spent`). The number of attempts is taken to be below 2^32."
  },
  {
   "property": "C129",
   "status": "proved",
   "theorems": [
    "C129_root",
    "C129_one_root",
    "C129_binding",
    "C129_repeated_last",
    "C129_branch_sound",
    "C129_branch_complete"
   ],
   "note": "The tree builder and the branch checker are clients of the library (the library itself only has the level function); they are written out in S_Merkle."
  },
  {
   "property": "C130",
   "status": "proved",
   "theorems": [
    "C130_bech32_encode_memory",
    "C130_bech32_decode_memory",
    "C130_bech32_in_place",
    "C130_bech32_encode_bad_value"
   ],
   "note": "Loads and stores in program order; the overlaps allowed are those for which no value is overwritten before it is read."
  },
  {
   "property": "C131",
   "status": "proved",
   "theorems": [
    "C131_witness_keyhash_memory",
    "C131_witness_scripthash_memory",
    "C131_witness_unknown_memory",
    "C131_base58_address_memory",
    "C131_key_to_string_memory",
    "C131_key_from_string_memory",
    "C131_wif_memory",
    "C131_exkey_to_string_memory",
    "C131_expubkey_to_string_memory"
   ],
   "note": "All encoders and the private key reader; the structures of extended keys are values, which overlap no buffer."
  },
  {
   "property": "C132",
   "status": "partial",
   "theorems": [
    "C132_init_memory",
    "C132_exkey_encode_memory",
    "C132_expubkey_encode_memory",
    "C132_exkey_decode_memory",
    "C132_expubkey_decode_memory",
    "C132_in_place_refuted",
    "C132_exkey_to_string_memory",
    "C132_expubkey_to_string_memory",
    "C132_exkey_from_string_memory",
    "C132_expubkey_from_string_memory"
   ],
   "note": "False only for its last sentence: encoding or decoding in place is undefined for every content (C132_in_place_refuted). All other sentences are proved."
  },
  {
   "property": "C133",
   "status": "proved",
   "theorems": [
    "C133_get_pub",
    "C133_pubkey_encode",
    "C133_pubkey_decode",
    "C133_key_encode",
    "C133_key_decode",
    "C133_sign",
    "C133_signature_encode",
    "C133_signature_decode",
    "C133_verify",
    "C133_keyid",
    "C133_session",
    "C133_session_secp256k1"
   ],
   "note": "For every curve that obeys secp_laws and every layout of the 64-byte structures that obeys layout_laws; C133_session_secp256k1 instantiates both."
  },
  {
   "property": "C134",
   "status": "partial",
   "theorems": [
    "C134_key_decode_in_place_refuted",
    "C134_key_encode_in_place_refuted",
    "C134_get_pub_over_secret_refuted",
    "C134_pubkey_encode_in_place_refuted",
    "C134_pubkey_decode_in_place_refuted",
    "C134_pubkey_decode_in_place_secp256k1_refuted",
    "C134_signature_decode_in_place_refuted",
    "C134_sign_overlap_partial",
    "C134_sign_second_attempt",
    "C134_key_encode_at_its_place",
    "C134_sign_over_hash_refuted"
   ],
   "note": "False of the code in general: each overlap is proved to abort, to refuse, to be undefined or (sign) to yield a signature for other data; the overlaps that work are C133_signature_encode, C133_keyid, C133_verify, C134_sign_overlap_partial and C134_key_encode_at_its_place."
  },
  {
   "property": "C135",
   "status": "proved",
   "theorems": [
    "C135_wallet_session",
    "C135_wallet_session_secp256k1"
   ],
   "note": "C135_wallet_session holds for every curve that obeys secp_laws; C135_wallet_session_secp256k1 is the instance."
  },
  {
   "property": "C136",
   "status": "proved",
   "theorems": [
    "C136_observed_runs",
    "C136_hash_secret_independent",
    "C136_hmac_secret_independent",
    "C136_bip32_secret_independent",
    "C136_d64_secret_independent"
   ],
   "note": "Source-level statement: compiler, caches and libsecp256k1 are not modelled (the trusted base of DESIGN.md)."
  },
  {
   "property": "C137",
   "status": "proved",
   "theorems": [
    "C137_observed_runs",
    "C137_hex_revealed",
    "C137_base58_revealed",
    "C137_wif_revealed",
    "C137_wif_trace_injective"
   ],
   "note": "A limit of the library, proved as such: the table lookups determine the exported text."
  },
  {
   "property": "C138",
   "status": "proved",
   "theorems": [
    "C138_observed_runs",
    "C138_master",
    "C138_constant",
    "C138_derive",
    "C138_derive_raw",
    "C138_derive_reveals_kind",
    "C138_sign",
    "C138_sign_reveals_attempts",
    "C138_wallet"
   ],
   "note": "Observations stop at the calls of libsecp256k1 (opaque: name, pointers, return value). C138_derive_reveals_kind and C138_sign_reveals_attempts show that the listed facts are indeed revealed."
  },
  {
   "property": "C139",
   "status": "proved",
   "theorems": [
    "C139_hashes",
    "C139_hmac",
    "C139_bip32",
    "C139_d64",
    "C139_hash160_hash256",
    "C139_hex",
    "C139_base58",
    "C139_base58_check",
    "C139_key_to_string"
   ],
   "note": "Scalar locals (the words of the message schedule are scalars w0..w15 in the C text) produce no event; the same for X0..X15 in RIPEMD-160."
  },
  {
   "property": "C140",
   "status": "proved",
   "theorems": [
    "C140_public",
    "C140_derive",
    "C140_exkey",
    "C140_exkey_get_pub",
    "C140_exkey_74",
    "C140_key_encode",
    "C140_keyid",
    "C140_sign"
   ],
   "note": "Serializing a public key is observed as a write of the announced output length (33 or 65). What libsecp256k1 does inside a call is assumed to stay within the sizes its header asks for. C140_exkey_get_pub assumes the 33 bytes of c_pubkey, which the C type fixes."
  },
  {
   "property": "C141",
   "status": "proved",
   "theorems": [
    "C141_hashes",
    "C141_hmac",
    "C141_d64",
    "C141_hex",
    "C141_base58",
    "C141_succeeds",
    "C141_base58_succeeds"
   ],
   "note": "Message, key and result in different objects (except for the 64-byte block hash, which may work in place)."
  }
 ]
}