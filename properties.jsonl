{"id": "C01", "title": "hex encoding is exact", "statement": "fingera_to_hex writes exactly 2*n characters: for each input byte, in order, the character of its high nibble then of its low nibble, lower-case digits when upper==0 and upper-case otherwise.", "quantifier": "all byte buffers of every length, both case flags", "why_tests_cant": "unbounded set of buffers", "anchors": ["src/hex.c:fingera_to_hex", "include/fingera_libc/hex.h:fingera_to_hex_length"]}
{"id": "C02", "title": "hex round trip", "statement": "fingera_from_hex applied to the output of fingera_to_hex returns n and reproduces the buffer, for either case flag.", "quantifier": "all byte buffers of every length, both case flags", "why_tests_cant": "unbounded set of buffers", "anchors": ["src/hex.c:fingera_to_hex", "src/hex.c:fingera_from_hex"]}
{"id": "C03", "title": "hex decoding of arbitrary text", "statement": "For any character string, fingera_from_hex returns the number k of leading well-formed digit pairs, writes exactly the k corresponding bytes (k <= fingera_from_hex_length), ignores an odd last character, accepts both cases and never reads outside the first str_len characters.", "quantifier": "all character strings, valid or not", "why_tests_cant": "malformed inputs are unbounded", "anchors": ["src/hex.c:fingera_from_hex"]}
{"id": "C04", "title": "hex dump layout and cache safety", "statement": "fingera_hex_dump emits exactly the bytes of the documented layout (two digits per byte, a space before byte 4k, another before 8k, another before 16k, a newline before 32k, final newline) whatever the buffer size, i.e. independently of the internal cache flushing, and the 1024-byte cache is never overrun.", "quantifier": "all byte buffers of every length", "why_tests_cant": "the cache flush point moves with the size; a test sees only a few sizes", "anchors": ["src/hex.c:fingera_hex_dump"]}
{"id": "C05", "title": "varint encoding size", "statement": "fingera_encode_varint is total on uint64, writes between 1 and 10 bytes, exactly the returned number, and the size is the minimal one: k bytes iff value lies in the k-th band of the bijective base-128 numeration.", "quantifier": "all 2^64 values", "why_tests_cant": "2^64 values", "anchors": ["src/compress_integer.c:fingera_encode_varint"]}
{"id": "C06", "title": "varint round trip", "statement": "Decoding a buffer that starts with the encoding of v (any bytes may follow, size >= encoded length) returns the encoded length and v.", "quantifier": "all uint64 values, all trailing data, all sizes", "why_tests_cant": "2^64 values x arbitrary trailing data", "anchors": ["src/compress_integer.c:fingera_encode_varint", "src/compress_integer.c:fingera_decode_varint"]}
{"id": "C07", "title": "varint decoding of arbitrary bytes", "statement": "fingera_decode_varint on any buffer reads at most min(size,10) bytes, returns 0 iff none of these has its top bit clear, and otherwise returns the position just after the first such byte; the value is the bijective base-128 value of the consumed bytes modulo 2^64.", "quantifier": "all byte buffers and sizes", "why_tests_cant": "all malformed inputs", "anchors": ["src/compress_integer.c:fingera_decode_varint"]}
{"id": "C08", "title": "varint canonicity", "statement": "A successfully decoded encoding whose mathematical value fits 64 bits is the encoding of that value (so there is one encoding per value); encodings whose value exceeds 64 bits are not rejected and alias smaller values.", "quantifier": "all byte strings accepted by the decoder", "why_tests_cant": "uniqueness is a statement about all pairs of byte strings", "anchors": ["src/compress_integer.c"]}
{"id": "C09", "title": "varint prefix freedom", "statement": "No encoding is a proper prefix of another, so any concatenation of encoded integers decodes back to the same sequence.", "quantifier": "all sequences of uint64 values", "why_tests_cant": "unbounded sequences", "anchors": ["src/compress_integer.c"]}
{"id": "C10", "title": "zigzag round trip", "statement": "fingera_decode_zigzag(fingera_encode_zigzag(v)) = v for every int64.", "quantifier": "all int64 values", "why_tests_cant": "2^64 values; the only bad one is INT64_MIN", "anchors": ["src/compress_integer.c:fingera_encode_zigzag", "src/compress_integer.c:fingera_decode_zigzag"]}
{"id": "C11", "title": "zigzag decoding never overflows", "statement": "fingera_decode_zigzag on any bytes performs no signed overflow, stores a value strictly greater than INT64_MIN and leaves *out untouched when it returns 0.", "quantifier": "all byte buffers", "why_tests_cant": "arbitrary inputs", "anchors": ["src/compress_integer.c:fingera_decode_zigzag"]}
{"id": "C12", "title": "base64 encoding conforms to RFC 4648", "statement": "fingera_to_base64 writes exactly fingera_to_base64_length(n) characters, the RFC 4648 section 4 encoding with padding.", "quantifier": "all byte buffers of every length", "why_tests_cant": "unbounded buffers", "anchors": ["src/base64.c:_fingera_to_base64", "include/fingera_libc/base64.h"]}
{"id": "C13", "title": "url-safe base64 encoding conforms to RFC 4648", "statement": "fingera_to_base64_urlsafe writes exactly fingera_to_base64_urlsafe_length(n) characters, the RFC 4648 section 5 encoding without padding.", "quantifier": "all byte buffers of every length", "why_tests_cant": "unbounded buffers", "anchors": ["src/base64.c:_fingera_to_base64"]}
{"id": "C14", "title": "base64 round trip", "statement": "fingera_from_base64 of fingera_to_base64(b) returns n, writes b, and fingera_from_base64_length of the string is n.", "quantifier": "all byte buffers of every length", "why_tests_cant": "unbounded buffers", "anchors": ["src/base64.c:fingera_from_base64"]}
{"id": "C15", "title": "url-safe base64 round trip", "statement": "fingera_from_base64_urlsafe of fingera_to_base64_urlsafe(b) returns n, writes b, and fingera_from_base64_urlsafe_length of its length is n.", "quantifier": "all byte buffers of every length", "why_tests_cant": "unbounded buffers", "anchors": ["src/base64.c:fingera_from_base64_urlsafe"]}
{"id": "C16", "title": "base64 decoding of arbitrary text is bounded and prefix-correct", "statement": "On any text the decoders read only the given characters, write exactly the returned number of bytes, never more than the *_length functions announce, and the bytes are those of the longest prefix of valid 4-character groups (plus the final partial group if reached and valid).", "quantifier": "all character strings", "why_tests_cant": "malformed inputs are unbounded", "anchors": ["src/base64.c:_fingera_from_base64", "include/fingera_libc/base64.h"]}
{"id": "C17", "title": "base64 decoding is strict", "statement": "The decoders return the announced length only for texts that some buffer encodes to (no stray '=' inside, no non-zero trailing bits, no dangling character).", "quantifier": "all character strings", "why_tests_cant": "strictness is a statement about every non-codeword", "anchors": ["src/base64.c:BASE64_STANDARD_DECODE", "src/base64.c:_fingera_from_base64"]}
{"id": "C18", "title": "base32 encoding conforms to RFC 4648", "statement": "fingera_to_base32 writes exactly fingera_to_base32_length(n) characters, the RFC 4648 section 6 encoding with padding, in lower case.", "quantifier": "all byte buffers of every length", "why_tests_cant": "unbounded buffers", "anchors": ["src/base32.c:_fingera_to_base32"]}
{"id": "C19", "title": "raw base32 regroups bits", "statement": "fingera_to_base32_raw writes and returns ceil(8n/5) values below 32: the big-endian 5-bit groups of the buffer's bit string, the last one zero-padded.", "quantifier": "all byte buffers of every length", "why_tests_cant": "unbounded buffers", "anchors": ["src/base32.c:fingera_to_base32_raw"]}
{"id": "C20", "title": "base32 round trip", "statement": "fingera_from_base32 of the (padded or NUL-terminated) output of fingera_to_base32 returns n and the buffer, and fingera_from_base32_length announces n.", "quantifier": "all byte buffers of every length", "why_tests_cant": "unbounded buffers", "anchors": ["src/base32.c:fingera_from_base32"]}
{"id": "C21", "title": "raw base32 round trip", "statement": "fingera_from_base32_raw of the output of fingera_to_base32_raw returns n and the buffer, whatever lies in memory after the buffer.", "quantifier": "all byte buffers of every length and all contents of adjacent memory", "why_tests_cant": "depends on the bytes that follow the buffer in memory", "anchors": ["src/base32.c:base32_strlen", "src/base32.c:_fingera_from_base32"]}
{"id": "C22", "title": "base32 decoding validates its input and honours str_len", "statement": "fingera_from_base32 depends only on the str_len given characters, never touches memory outside its buffers, and returns the announced length only when all characters are in the alphabet.", "quantifier": "all texts and all contents of adjacent memory", "why_tests_cant": "adjacent memory and all invalid characters", "anchors": ["src/base32.c:_fingera_from_base32", "src/base32.c:base32_strlen"]}
{"id": "C23", "title": "base58 encoding is the big-endian numeral", "statement": "fingera_to_base58 writes one '1' per leading zero byte followed by the base-58 numeral, without leading zero digit, of the remaining bytes read as a big-endian integer.", "quantifier": "all byte buffers whose scratch size n*138/100+1 fits an int (beyond, to_base58 is undefined)", "why_tests_cant": "unbounded buffers, big integers", "anchors": ["src/base58.c:fingera_to_base58"]}
{"id": "C24", "title": "base58 encoding scratch and output bounds", "statement": "The scratch area n*138/100+1 always suffices (the overflow assertion never fires) and at most fingera_to_base58_length(n) characters are written.", "quantifier": "all byte buffers whose scratch size n*138/100+1 fits an int", "why_tests_cant": "the bound 138/100 must hold for every length", "anchors": ["src/base58.c:fingera_to_base58", "include/fingera_libc/base58.h:fingera_to_base58_length"]}
{"id": "C25", "title": "base58 decoding language and value", "statement": "On a NUL-terminated string with str_len = strlen, fingera_from_base58 returns 0 without success unless the text is optional white space, alphabet characters, optional white space; otherwise it writes one zero byte per leading '1' followed by the minimal big-endian bytes of the numeral.", "quantifier": "all NUL-terminated ASCII strings of at most INT_MAX/733 characters (beyond, the size computation overflows int)", "why_tests_cant": "unbounded strings", "anchors": ["src/base58.c:fingera_from_base58"]}
{"id": "C26", "title": "base58 round trip", "statement": "fingera_from_base58(fingera_to_base58(b)) = b.", "quantifier": "all byte buffers whose text has at most INT_MAX/733 characters, about 2.9 million (beyond, decoding overflows int: C25)", "why_tests_cant": "unbounded buffers", "anchors": ["src/base58.c"]}
{"id": "C27", "title": "base58 canonicity", "statement": "If fingera_from_base58 accepts a text then encoding the result gives back the text without surrounding white space; distinct trimmed texts decode to distinct buffers.", "quantifier": "all accepted strings", "why_tests_cant": "a statement about all pairs of strings", "anchors": ["src/base58.c"]}
{"id": "C28", "title": "base58 decoding stays inside the announced output size", "statement": "fingera_from_base58 writes at most fingera_from_base58_length(str_len) bytes.", "quantifier": "all NUL-terminated strings", "why_tests_cant": "depends on the number of leading '1' characters", "anchors": ["include/fingera_libc/base58.h:fingera_from_base58_length", "src/base58.c:fingera_from_base58"]}
{"id": "C29", "title": "base58 decoding honours str_len", "statement": "fingera_from_base58 depends only on the first str_len characters and does not read beyond them.", "quantifier": "all strings, lengths and adjacent memory", "why_tests_cant": "adjacent memory", "anchors": ["src/base58.c:fingera_from_base58"]}
{"id": "C30", "title": "base58check round trip", "statement": "fingera_from_base58_check(fingera_to_base58_check(buf,prefix)) returns prefix followed by buf.", "quantifier": "all buffers and prefixes whose text has at most INT_MAX/733 characters, about 2.9 million (beyond, decoding overflows int: C25)", "why_tests_cant": "unbounded buffers and a cryptographic hash", "anchors": ["src/btc/base58_check.c"]}
{"id": "C31", "title": "base58check accepts exactly checksummed texts", "statement": "fingera_from_base58_check returns a non-zero size only when the text is the base58 of data followed by the first four bytes of the double SHA-256 of that data, and returns exactly that data; otherwise 0.", "quantifier": "all NUL-terminated ASCII strings of at most INT_MAX/733 characters (beyond, the size computation overflows int)", "why_tests_cant": "all strings", "anchors": ["src/btc/base58_check.c:fingera_from_base58_check"]}
{"id": "C32", "title": "base58check encoding output bound", "statement": "fingera_to_base58_check writes at most fingera_to_base58_check_length(buf_size,prefix_size) characters.", "quantifier": "all buffers and prefixes whose text length fits an int", "why_tests_cant": "every length", "anchors": ["include/fingera_libc/btc/base58_check.h"]}
{"id": "C33", "title": "bech32 checksum polynomial", "statement": "The table-driven checksum step equals the BIP-173 generator step for every 30-bit state and every 5-bit value.", "quantifier": "all checksum states and values", "why_tests_cant": "2^30 states", "anchors": ["src/btc/bech32.c:poly_mod", "src/btc/bech32.c:BECH32_POLY_TABLE"]}
{"id": "C34", "title": "bech32 encoding conforms to BIP-173", "statement": "fingera_bech32_encode writes exactly hrp_len+b32_size+7 characters: hrp, '1', the data characters and the six BIP-173 checksum characters.", "quantifier": "all hrps and 5-bit data", "why_tests_cant": "unbounded inputs", "anchors": ["src/btc/bech32.c:fingera_bech32_encode"]}
{"id": "C35", "title": "bech32 round trip", "statement": "Decoding the encoding of (hrp,data) gives back hrp and data, for every hrp of printable characters without upper-case letters with total length <= 90 and data of 5-bit values.", "quantifier": "all legal hrps and data", "why_tests_cant": "all inputs", "anchors": ["src/btc/bech32.c:fingera_bech32_decode"]}
{"id": "C36", "title": "bech32 decoding accepts exactly the valid strings", "statement": "fingera_bech32_decode returns >= 0 exactly for strings that BIP-173 calls valid (length, character range, no mixed case, separator position, data characters, checksum) whose hrp fits the caller's buffer, and then yields the lower-cased hrp and the data values.", "quantifier": "all NUL-terminated strings", "why_tests_cant": "all strings", "anchors": ["src/btc/bech32.c:fingera_bech32_decode"]}
{"id": "C37", "title": "bech32 detects up to four substitution errors", "statement": "Two different accepted strings with the same hrp and length differ in at least five data characters (up to case).", "quantifier": "all pairs of valid strings of at most 90 characters", "why_tests_cant": "about 10^90 pairs; the code distance is a global property", "anchors": ["src/btc/bech32.c:verify_checksum"]}
{"id": "C38", "title": "bech32 decoding is case-insensitive", "statement": "Upper-casing a valid lower-case string leaves acceptance, hrp and data unchanged; a string containing both cases is rejected.", "quantifier": "all strings", "why_tests_cant": "all strings", "anchors": ["src/btc/bech32.c:is_illegal", "src/btc/bech32.c:BECH32_DECODE"]}
{"id": "C39", "title": "bech32 decoding memory bounds", "statement": "fingera_bech32_decode writes at most *hrp_size hrp characters and at most str_len-8 data bytes, whatever the input, and only reads the NUL-terminated string.", "quantifier": "all NUL-terminated strings, all hrp capacities", "why_tests_cant": "all inputs", "anchors": ["src/btc/bech32.c:fingera_bech32_decode"]}
{"id": "C40", "title": "public-key address round trip", "statement": "For every 20-byte key id and each built-in network, decoding fingera_to_address_pubkey's output yields BTC_PUBKEY_ADDRESS and the key id.", "quantifier": "all 2^160 key ids, the three networks", "why_tests_cant": "2^160 ids", "anchors": ["src/btc/address.c", "src/btc/chain_parameters.c"]}
{"id": "C41", "title": "script address round trip", "statement": "For every 20-byte script id and each built-in network, decoding fingera_to_address_script's output yields BTC_SCRIPT_ADDRESS and the script id.", "quantifier": "all 2^160 ids, the three networks", "why_tests_cant": "2^160 ids", "anchors": ["src/btc/address.c", "src/btc/chain_parameters.c"]}
{"id": "C42", "title": "witness v0 key-hash address round trip", "statement": "For every 20-byte hash and each built-in network, decoding fingera_to_address_witnessv0_keyhash's output yields BTC_WITNESSV0_KEYHASH_ADDRESS and the hash.", "quantifier": "all hashes, the three networks, all stack contents", "why_tests_cant": "2^160 hashes and uninitialised memory", "anchors": ["src/btc/address.c:decode_bech32"]}
{"id": "C43", "title": "witness v0 script-hash address round trip", "statement": "For every 32-byte hash and each built-in network, decoding fingera_to_address_witnessv0_scripthash's output yields BTC_WITNESSV0_SCRIPTHASH_ADDRESS and the hash.", "quantifier": "all hashes, the three networks, all stack contents", "why_tests_cant": "2^256 hashes", "anchors": ["src/btc/address.c:decode_bech32"]}
{"id": "C44", "title": "future witness address round trip", "statement": "For every version 1..16 and program of 2..40 bytes, decoding fingera_to_address_witness_unknown's output yields BTC_WITNESS_UNKNOWN_ADDRESS and version||program.", "quantifier": "all versions and programs", "why_tests_cant": "all programs", "anchors": ["src/btc/address.c"]}
{"id": "C45", "title": "address encoders respect the output capacity", "statement": "Every fingera_to_address_* function either returns 0 (writing nothing) or writes exactly the returned number of characters, at most out_size.", "quantifier": "all inputs and capacities", "why_tests_cant": "all capacities", "anchors": ["src/btc/address.c"]}
{"id": "C46", "title": "address decoding respects the output capacity", "statement": "fingera_btc_address_decode never writes more than *out_size bytes into out.", "quantifier": "all strings and capacities", "why_tests_cant": "all strings; the worst case is many leading '1's", "anchors": ["src/btc/address.c:fingera_btc_address_decode", "include/fingera_libc/base58.h:fingera_from_base58_length"]}
{"id": "C47", "title": "address network separation", "statement": "A base58 address produced for mainnet never decodes as a base58 address of testnet or regtest, and conversely; a bech32 address never decodes with the parameters of a network with another hrp.", "quantifier": "all ids, all pairs of networks", "why_tests_cant": "2^160 ids", "anchors": ["src/btc/chain_parameters.c", "src/btc/address.c"]}
{"id": "C48", "title": "witness address decoding is strict (BIP-173)", "statement": "Two different accepted (lower-case) witness addresses never decode to the same version and program; over-long or non-zero padding is rejected.", "quantifier": "all strings", "why_tests_cant": "all non-canonical paddings", "anchors": ["src/btc/address.c:decode_bech32", "src/base32.c:_fingera_from_base32"]}
{"id": "C49", "title": "base58 address payload size", "statement": "A text classified as public-key or script address carries a 20-byte payload.", "quantifier": "all strings", "why_tests_cant": "all strings", "anchors": ["src/btc/address.c:fingera_btc_address_decode"]}
{"id": "C50", "title": "witness address decoding reads only initialised data", "statement": "fingera_btc_address_decode's result does not depend on uninitialised stack memory.", "quantifier": "all witness addresses, all stack contents", "why_tests_cant": "stack contents are not controllable from a test", "anchors": ["src/btc/address.c:decode_bech32", "src/base32.c:base32_strlen"]}
{"id": "C51", "title": "WIF round trip", "statement": "fingera_btc_key_from_string(fingera_btc_key_to_string(key,c)) returns success, the key and the compression flag c.", "quantifier": "all 32-byte keys, both flags, all built-in networks", "why_tests_cant": "2^256 keys", "anchors": ["src/btc/key.c:fingera_btc_key_to_string", "src/btc/key.c:fingera_btc_key_from_string"]}
{"id": "C52", "title": "WIF decoding soundness", "statement": "fingera_btc_key_from_string succeeds only for texts that are the base58check of prefix||key (uncompressed) or prefix||key||01 (compressed), and reports that key and flag.", "quantifier": "all strings", "why_tests_cant": "all strings", "anchors": ["src/btc/key.c:fingera_btc_key_from_string"]}
{"id": "C53", "title": "WIF decoding stays inside its internal buffer", "statement": "fingera_btc_key_from_string never writes past its internal buffer.", "quantifier": "all strings and prefix sizes up to 8", "why_tests_cant": "attacker-chosen strings", "anchors": ["src/btc/key.c:fingera_btc_key_from_string"]}
{"id": "C54", "title": "private key DER round trip", "statement": "For every valid secret key, fingera_btc_key_encode to 214 or 279 bytes succeeds and fingera_btc_key_decode of the result (with any trailing bytes) returns the key.", "quantifier": "all valid keys, both formats", "why_tests_cant": "2^256 keys", "anchors": ["src/btc/key.c:ec_privkey_export_der", "src/btc/key.c:ec_privkey_import_der"]}
{"id": "C55", "title": "private key DER decoding is memory safe and fails clean", "statement": "fingera_btc_key_decode on any bytes reads only inside the input, writes exactly 32 bytes, succeeds only with a valid secret key, and the output is all zero on failure.", "quantifier": "all byte strings", "why_tests_cant": "all malformed inputs", "anchors": ["src/btc/key.c:ec_privkey_import_der"]}
{"id": "C56", "title": "lax DER signature decoding is memory safe", "statement": "fingera_btc_signature_decode on any bytes reads only inside the input and always leaves a well-formed signature object.", "quantifier": "all byte strings", "why_tests_cant": "all malformed inputs", "anchors": ["src/btc/key.c:ecdsa_signature_parse_der_lax"]}
{"id": "C57", "title": "signature DER round trip", "statement": "For every signature (r,s) with r,s below the group order, decoding the strict DER encoding returns the same signature, also with excess leading zeros or trailing garbage.", "quantifier": "all signatures, all paddings", "why_tests_cant": "2^512 signatures", "anchors": ["src/btc/key.c:ecdsa_signature_parse_der_lax"]}
{"id": "C58", "title": "lax DER signature meaning", "statement": "When fingera_btc_signature_decode returns 1, the signature is the pair of integers encoded in the two INTEGER fields, or the all-zero signature if one of them is not below the group order.", "quantifier": "all byte strings", "why_tests_cant": "all inputs", "anchors": ["src/btc/key.c:ecdsa_signature_parse_der_lax"]}
{"id": "C59", "title": "signing grinds to low R and verifies", "statement": "Whenever fingera_btc_key_sign returns, the signature has R below 2^255, verifies under the matching public key, and its DER encoding is at most 71 bytes.", "quantifier": "all keys, hashes and nonce outcomes", "why_tests_cant": "probabilistic retry loop", "anchors": ["src/btc/key.c:fingera_btc_key_sign", "src/btc/key.c:SigHasLowR"]}
{"id": "C60", "title": "verification ignores the sign of S", "statement": "fingera_btc_key_verify gives the same answer for (r,s) and (r,n-s).", "quantifier": "all public keys, hashes, signatures", "why_tests_cant": "all signatures", "anchors": ["src/btc/key.c:fingera_btc_key_verify"]}
{"id": "C61", "title": "generated keys are valid", "statement": "Whenever fingera_btc_key_new returns, the 32 bytes are a valid secret key. If a draw cannot be made, the program is stopped rather than a key returned.", "quantifier": "all outcomes of the OS generator", "why_tests_cant": "random rejection loop", "anchors": ["src/btc/key.c:fingera_btc_key_new"]}
{"id": "C62", "title": "library life cycle", "statement": "Starting uninitialised, any alternation of fingera_btc_key_init and fingera_btc_key_uninit succeeds and leaves no context alive after uninit; init twice or uninit twice aborts; key operations between init and uninit never see a null context. Initialisation never returns when the operating system cannot supply randomness: the program is stopped.", "quantifier": "all call sequences", "why_tests_cant": "all histories", "anchors": ["src/btc/key.c:fingera_btc_key_init", "src/btc/key.c:fingera_btc_key_uninit"]}
{"id": "C63", "title": "BIP-32 private derivation", "statement": "fingera_btc_key_derive computes BIP-32 CKDpriv: HMAC-SHA512(chain, 00||key||index or pub||index), child key = left half + key mod n, child chain = right half, failing exactly when BIP-32 says so.", "quantifier": "all keys, chain codes and indices", "why_tests_cant": "2^544 inputs", "anchors": ["src/btc/key.c:fingera_btc_key_derive", "src/btc/hash.c:fingera_btc_bip32_hash"]}
{"id": "C64", "title": "BIP-32 public derivation commutes", "statement": "For non-hardened indices, deriving privately then taking the public key equals taking the extended public key then deriving publicly, along any path.", "quantifier": "all extended keys and all paths of non-hardened indices", "why_tests_cant": "all paths", "anchors": ["src/btc/key.c:fingera_btc_pubkey_derive", "src/btc/exkey.c"]}
{"id": "C65", "title": "fingerprints agree", "statement": "fingera_btc_key_fingerprint(key, compressed) equals fingera_btc_pubkey_fingerprint of its compressed public key, both being the first four bytes of HASH160 read little-endian.", "quantifier": "all keys", "why_tests_cant": "all keys", "anchors": ["src/btc/key.c:fingera_btc_key_fingerprint", "src/btc/key.c:fingera_btc_pubkey_fingerprint"]}
{"id": "C66", "title": "extended private key serialisation", "statement": "fingera_exkey_encode produces the 74-byte BIP-32 layout and fingera_exkey_decode inverts it.", "quantifier": "all extended keys", "why_tests_cant": "all values", "anchors": ["src/btc/exkey.c:fingera_exkey_encode", "src/btc/exkey.c:fingera_exkey_decode"]}
{"id": "C67", "title": "extended public key serialisation", "statement": "fingera_expubkey_encode produces the 74-byte BIP-32 layout and fingera_expubkey_decode inverts it in both directions.", "quantifier": "all extended public keys and all 74-byte strings", "why_tests_cant": "all values", "anchors": ["src/btc/exkey.c:fingera_expubkey_encode"]}
{"id": "C68", "title": "extended key string round trip", "statement": "fingera_exkey_from_string(fingera_exkey_to_string(k)) = k and the same for public keys; the string fits fingera_exkey_string_max_length.", "quantifier": "all extended keys, all built-in networks", "why_tests_cant": "all values", "anchors": ["src/btc/exkey.c:fingera_exkey_to_string", "src/btc/exkey.c:fingera_exkey_from_string"]}
{"id": "C69", "title": "extended key strings are not confused", "statement": "A private extended-key string is never accepted as a public one nor across mainnet/testnet, and conversely.", "quantifier": "all extended keys, networks", "why_tests_cant": "all values", "anchors": ["src/btc/exkey.c", "src/btc/chain_parameters.c"]}
{"id": "C70", "title": "extended key parsing stays inside its internal buffer", "statement": "fingera_exkey_from_string and fingera_expubkey_from_string never write past their internal buffers.", "quantifier": "all strings and prefix sizes up to 8", "why_tests_cant": "attacker-chosen strings", "anchors": ["src/btc/exkey.c:fingera_exkey_from_string"]}
{"id": "C71", "title": "derivation depth", "statement": "fingera_exkey_derive / fingera_expubkey_derive yield depth parent+1, the given child number and fingerprint; derivation past depth 255 fails.", "quantifier": "all extended keys and derivation chains", "why_tests_cant": "needs chains of 256 derivations for every key", "anchors": ["src/btc/exkey.c:fingera_exkey_derive"]}
{"id": "C72", "title": "SHA-1 conformance", "statement": "fingera_sha1 computes FIPS 180-4 SHA-1.", "quantifier": "all messages shorter than 2^61 bytes", "why_tests_cant": "all messages", "anchors": ["src/hash/sha1.c"]}
{"id": "C73", "title": "SHA-256 conformance", "statement": "fingera_sha2_256 computes FIPS 180-4 SHA-256.", "quantifier": "all messages shorter than 2^61 bytes", "why_tests_cant": "all messages", "anchors": ["src/hash/sha2.c:sha256_transform", "src/hash/sha2.c:sha256_final"]}
{"id": "C74", "title": "SHA-512 conformance", "statement": "fingera_sha2_512 computes FIPS 180-4 SHA-512.", "quantifier": "all messages shorter than 2^61 bytes", "why_tests_cant": "all messages", "anchors": ["src/hash/sha2.c:sha512_transform", "src/hash/sha2.c:sha512_final"]}
{"id": "C75", "title": "RIPEMD-160 conformance", "statement": "fingera_ripemd160 computes RIPEMD-160.", "quantifier": "all messages shorter than 2^61 bytes", "why_tests_cant": "all messages", "anchors": ["src/hash/ripemd160.c"]}
{"id": "C76", "title": "HMAC-SHA256 conformance", "statement": "fingera_hmac_sha256 computes RFC 2104 HMAC with SHA-256 for keys of every length.", "quantifier": "all keys and messages whose length in bits fits the hash function's counter (2^61 bytes)", "why_tests_cant": "all keys and messages", "anchors": ["src/hash/sha2.c:fingera_hmac_sha256"]}
{"id": "C77", "title": "HMAC-SHA512 conformance", "statement": "fingera_hmac_sha512 computes RFC 2104 HMAC with SHA-512 for keys of every length.", "quantifier": "all keys and messages whose length in bits fits the hash function's counter (2^61 bytes)", "why_tests_cant": "all keys and messages", "anchors": ["src/hash/sha2.c:fingera_hmac_sha512"]}
{"id": "C78", "title": "hash160 and hash256", "statement": "fingera_btc_hash256 is SHA-256 of SHA-256 and fingera_btc_hash160 is RIPEMD-160 of SHA-256, with 32 and 20 output bytes.", "quantifier": "all messages shorter than 2^61 bytes", "why_tests_cant": "all messages", "anchors": ["src/btc/hash.c"]}
{"id": "C79", "title": "specialised Merkle hash equals the generic one", "statement": "fingera_btc_hash256_d64 writes, for each of the given number of 64-byte blocks, exactly fingera_btc_hash256 of that block.", "quantifier": "all block counts and contents", "why_tests_cant": "2^512 blocks; hand-folded constants", "anchors": ["src/hash/sha2.c:_hash256_d64_transform", "src/btc/hash.c:fingera_btc_hash256_d64"]}
{"id": "C80", "title": "OS random bytes fill the whole buffer", "statement": "When fingera_os_rand_bytes returns, every byte of the buffer has been produced by the generator, whatever the sizes of the individual reads.", "quantifier": "all read schedules and buffer sizes", "why_tests_cant": "short reads are not reproducible in tests", "anchors": ["src/random.c:fingera_os_rand_bytes"]}
{"id": "C81", "title": "OS random bytes fail loudly and terminate", "statement": "fingera_os_rand_bytes terminates for every schedule of positive reads and calls the fatal handler on an open failure or a read returning 0 or less.", "quantifier": "all read schedules", "why_tests_cant": "error injection", "anchors": ["src/random.c:fingera_os_rand_bytes"]}
{"id": "C82", "title": "cleanse erases exactly the region", "statement": "After fingera_cleanse(mem,size) every byte of the region holds the constant fill and no byte outside is changed.", "quantifier": "all memories, offsets and sizes", "why_tests_cant": "all memories", "anchors": ["src/cleanse.c:fingera_cleanse"]}
{"id": "C83", "title": "endian accessors", "statement": "read_little/big and write_little/big are inverse and denote the little/big-endian value of the bytes.", "quantifier": "all 32-bit (64-bit) words and buffers", "why_tests_cant": "2^64 words", "anchors": ["include/fingera_libc/endian.h"]}
{"id": "C84", "title": "BIP32 hash input layout", "statement": "fingera_btc_bip32_hash(chain, child, header, data) is HMAC-SHA512 keyed with the 32-byte chain code over header byte, the 32 data bytes and the child number as 4 big-endian bytes.", "quantifier": "all chain codes, child numbers, header bytes and data", "why_tests_cant": "all inputs", "anchors": ["src/btc/hash.c:fingera_btc_bip32_hash"]}
{"id": "C85", "title": "BIP-32 master key", "statement": "fingera_exkey_init(seed) sets key and chain code to the left and right halves of HMAC-SHA512(\"Bitcoin seed\", seed) and depth, fingerprint and child number to 0.", "quantifier": "all seeds of any length", "why_tests_cant": "all seeds", "anchors": ["src/btc/exkey.c:fingera_exkey_init"]}
{"id": "C86", "title": "extended key strings: what is accepted", "statement": "fingera_exkey_from_string / fingera_expubkey_from_string accept exactly the Base58Check strings of the network's version bytes followed by a well-formed 74-byte BIP-32 serialisation, return its fields, and on refusal return 0 and leave the caller's structure unchanged.", "quantifier": "all NUL-terminated ASCII strings, all prefixes of 1 to 8 bytes", "why_tests_cant": "all strings", "anchors": ["src/btc/exkey.c:fingera_exkey_from_string", "src/btc/exkey.c:fingera_expubkey_from_string"]}
{"id": "C87", "title": "hex functions: what memory they write", "statement": "fingera_to_hex writes exactly the 2n digits at the output pointer and fingera_from_hex exactly the announced number of decoded bytes; every other byte of memory keeps its value. fingera_from_hex gives the same bytes and return value when the output buffer is the input text itself.", "quantifier": "all memories, all positions and lengths of input and output, in place or disjoint", "why_tests_cant": "all memory layouts and contents", "anchors": ["src/hex.c:fingera_to_hex", "src/hex.c:fingera_from_hex"]}
{"id": "C88", "title": "Base64 functions: what memory they write", "statement": "The Base64 encoders and decoders (plain and url-safe) write exactly the bytes of their result at the output pointer, leave every other byte of memory alone, and the decoders may decode in place.", "quantifier": "all memories, positions, lengths; disjoint or in-place for decoding", "why_tests_cant": "all memory layouts and contents", "anchors": ["src/base64.c:fingera_to_base64", "src/base64.c:fingera_from_base64", "src/base64.c:fingera_to_base64_urlsafe", "src/base64.c:fingera_from_base64_urlsafe"]}
{"id": "C89", "title": "Base32 functions: what memory they write", "statement": "The Base32 encoders and decoders write exactly the bytes of their result at the output pointer, leave every other byte of memory alone, and the decoders may decode in place.", "quantifier": "all memories, positions, lengths; disjoint or in-place for decoding", "why_tests_cant": "all memory layouts and contents", "anchors": ["src/base32.c:fingera_to_base32", "src/base32.c:fingera_from_base32", "src/base32.c:fingera_to_base32_raw", "src/base32.c:fingera_from_base32_raw"]}
{"id": "C90", "title": "varint: what memory it writes", "statement": "fingera_encode_varint / fingera_encode_zigzag write exactly the returned number of bytes at the output pointer and leave every other byte of memory alone; a buffer of that exact size suffices.", "quantifier": "all memories, positions, all uint64 values and all int64 values except INT64_MIN (see C10)", "why_tests_cant": "all memory layouts and values", "anchors": ["src/compress_integer.c"]}
{"id": "C91", "title": "Base58 functions: memory and scratch buffers", "statement": "The Base58 and Base58Check encoders and decoders write exactly their result at the output pointer (which may overlap the input in any way), and on every return path release every scratch block exactly once, never use it afterwards, and overwrite what they stored in it with 0xCC before giving it up (heap block or stack array).", "quantifier": "all memories, positions, lengths, all previous contents of the scratch storage, all return paths, malloc succeeding", "why_tests_cant": "all layouts, sizes on both sides of the stack/heap limit, all error paths", "anchors": ["include/fingera_libc/sl/buffer.h", "src/base58.c:fingera_to_base58", "src/base58.c:fingera_from_base58", "src/btc/base58_check.c:fingera_to_base58_check", "src/btc/base58_check.c:fingera_from_base58_check"]}
{"id": "C92", "title": "address decoding: memory and scratch buffers", "statement": "fingera_btc_address_decode writes only at its output pointer (when that area does not overlap the text), leaves no scratch block allocated whatever the classification, and for texts of at most 174 characters its result does not depend on whether malloc succeeds.", "quantifier": "all memories, texts, network parameters, malloc outcomes", "why_tests_cant": "all return paths and layouts", "anchors": ["src/btc/address.c:fingera_btc_address_decode", "src/btc/address.c:decode_bech32", "include/fingera_libc/sl/buffer.h"]}
{"id": "C93", "title": "running out of memory", "statement": "The Base58 and Base58Check functions have defined behaviour for every input when malloc fails.", "quantifier": "all inputs, all malloc outcomes", "why_tests_cant": "allocation failure cannot be provoked by inputs", "anchors": ["include/fingera_libc/sl/buffer.h", "src/base58.c", "src/btc/base58_check.c"]}
{"id": "C94", "title": "hash functions leave no trace of the message", "statement": "When SHA-1, SHA-256, SHA-512 or RIPEMD-160 returns, every byte of its local arrays (digest words and last block) is 0xCC, whatever the message.", "quantifier": "all messages (up to 2^61 bytes)", "why_tests_cant": "every message length takes a different padding path; stack contents are not visible to a test", "anchors": ["src/hash/sha1.c:fingera_sha1", "src/hash/sha2.c:fingera_sha2_256", "src/hash/sha2.c:fingera_sha2_512", "src/hash/ripemd160.c:fingera_ripemd160"]}
{"id": "C95", "title": "hash160 and hash256 leave only the SHA-256 of the message", "statement": "When fingera_btc_hash160 or fingera_btc_hash256 returns, the local arrays hold the SHA-256 of the message and otherwise 0xCC.", "quantifier": "all messages", "why_tests_cant": "stack contents are not visible to a test", "anchors": ["src/btc/hash.c:fingera_btc_hash160", "src/btc/hash.c:fingera_btc_hash256"]}
{"id": "C96", "title": "HMAC leaves nothing of the message or key", "statement": "When HMAC-SHA256 or HMAC-SHA512 returns, its local arrays hold nothing of the message or of the key.", "quantifier": "all keys, all messages", "why_tests_cant": "stack contents are not visible to a test; must hold for every key length", "anchors": ["src/hash/sha2.c:fingera_hmac_sha256", "src/hash/sha2.c:fingera_hmac_sha512"]}
{"id": "C97", "title": "seed, private keys and drawn randomness leave no trace", "statement": "The local arrays of master key generation and of private child derivation (and of the hash functions they call) end with the same contents for every seed, parent key and child number of the same kind, whether or not derivation succeeds; initialisation wipes the random bytes it drew.", "quantifier": "all seeds, keys, child numbers, random sources", "why_tests_cant": "a relation between two executions on arbitrary secrets", "anchors": ["src/btc/exkey.c:fingera_exkey_init", "src/btc/key.c:fingera_btc_key_derive", "src/btc/key.c:fingera_btc_key_init", "src/btc/hash.c:fingera_btc_bip32_hash"]}
{"id": "C98", "title": "chain codes leave no trace", "statement": "When private or public child derivation returns, its local arrays hold nothing of the chain codes or of the number added to the key.", "quantifier": "all keys, chain codes, child numbers", "why_tests_cant": "stack contents are not visible to a test", "anchors": ["src/btc/key.c:fingera_btc_key_derive", "src/btc/key.c:fingera_btc_pubkey_derive", "src/hash/sha2.c:fingera_hmac_sha512"]}
{"id": "C99", "title": "key strings leave no trace of the key", "statement": "When a private key or extended private key string was written or read, successfully or not, the library's local arrays hold nothing of the key but SHA-256 hashes.", "quantifier": "all keys, texts, networks", "why_tests_cant": "stack contents are not visible to a test; every refusal path matters", "anchors": ["src/btc/key.c:fingera_btc_key_to_string", "src/btc/key.c:fingera_btc_key_from_string", "src/btc/exkey.c:fingera_exkey_to_string", "src/btc/exkey.c:fingera_exkey_from_string"]}
{"id": "C100", "title": "release builds agree with debug builds", "statement": "Every call that returns in a build with assertions returns the same result, outputs and library state in a build with NDEBUG.", "quantifier": "all functions containing or reaching an assertion, all inputs, library states and random sources", "why_tests_cant": "an assertion with a side effect, or a value computed only for one, shows only for particular inputs; tests compare one build with itself", "anchors": ["src/base58.c", "src/btc/base58_check.c", "src/btc/bech32.c", "src/btc/address.c", "src/btc/key.c", "src/btc/exkey.c", ".travis.yml"]}
{"id": "C101", "title": "misuse stopped by assertions is refused in release builds", "statement": "A call that a debug build stops at an assertion (wrong sizes, invalid private keys, hardened public derivation, bad base32 values, double initialisation, short length arguments) returns an error, or stops the program, in a build with NDEBUG; it never returns success with a meaningless result.", "quantifier": "all such calls", "why_tests_cant": "tests cannot pass through a failing assertion, and run in one kind of build; all invalid inputs matter", "anchors": ["src/btc/key.c:fingera_btc_key_sign", "src/btc/key.c:fingera_btc_pubkey_derive", "src/btc/key.c:fingera_btc_key_init", "src/btc/bech32.c:fingera_bech32_encode", "src/base58.c:fingera_from_base58", "src/btc/address.c"]}
{"id": "C102", "title": "results do not depend on the host's byte order", "statement": "Every hash, HMAC, identifier, fingerprint, derived key, signature nonce counter, checksum and serialised extended key is, byte for byte, the same on a big-endian host as on a little-endian one.", "quantifier": "both byte orders, all inputs", "why_tests_cant": "tests run on one host; a missing or doubled byte swap is invisible on the byte order it happens to fit", "anchors": ["include/fingera_libc/endian.h", "src/hash/sha1.c", "src/hash/sha2.c", "src/hash/ripemd160.c", "src/btc/hash.c", "src/btc/exkey.c", "src/btc/key.c"]}
{"id": "C103", "title": "Derivation in place and into overlapping buffers", "statement": "fingera_btc_key_derive, fingera_btc_pubkey_derive, fingera_exkey_derive and fingera_expubkey_derive may be given output buffers that overlap their inputs, in particular the very structure they derive from (derive(&k, &k, child, fp) in a loop over a path): the result is the one that separate buffers would give and nothing outside the output changes. Exactly which overlaps are allowed: for private derivation the output key must be apart from the input key or be the same buffer, and being the same buffer is undefined by the letter of the C standard (memcpy onto itself) although it works wherever memcpy(p, p, n) does nothing; for public derivation the output chain code must not overlap either public key.", "quantifier": "every memory, every placement of the four buffers or two structures in it, every key, chain code, child number, fingerprint, and path of any length", "why_tests_cant": "the tests derive into a second structure and swap; whether a placement is allowed depends on all possible overlaps and on the order of reads and writes for every input", "anchors": ["src/btc/key.c:fingera_btc_key_derive", "src/btc/key.c:fingera_btc_pubkey_derive", "src/btc/exkey.c:fingera_exkey_derive", "src/btc/exkey.c:fingera_expubkey_derive", "src/btc/exkey.c:fingera_exkey_get_pub"]}
{"id": "C104", "title": "Hash output may overlap the input", "statement": "SHA-1, SHA-256, SHA-512, RIPEMD-160, HMAC, hash160, hash256 and the BIP-32 hash may write their digest anywhere, also over the message or the key: the bytes written are the hash of what the message and key held when the call was made, and nothing else changes.", "quantifier": "every memory, every placement and length of message, key and output in it", "why_tests_cant": "tests use separate buffers; a function that wrote part of its output before it had read all of its input would only fail for some overlaps", "anchors": ["src/hash/sha1.c:fingera_sha1", "src/hash/sha2.c:fingera_sha2_256", "src/hash/sha2.c:fingera_sha2_512", "src/hash/sha2.c:fingera_hmac_sha256", "src/hash/sha2.c:fingera_hmac_sha512", "src/hash/ripemd160.c:fingera_ripemd160", "src/btc/hash.c:fingera_btc_hash160", "src/btc/hash.c:fingera_btc_hash256", "src/btc/hash.c:fingera_btc_bip32_hash"]}
{"id": "C105", "title": "Hash buffers at any address", "statement": "The hash functions accept void pointers: messages, keys and outputs may lie at any address. It holds for messages and keys on every machine, and for outputs on machines that allow words at any address; elsewhere an output that is not aligned for uint32_t (uint64_t for the 512-bit functions) is undefined behaviour, and so is every call unless the compiler happens to align a local byte array.", "quantifier": "every address of message, key, output and local array, every length, both alignment rules", "why_tests_cant": "test buffers are aligned by the allocator and x86 hides the difference", "anchors": ["src/hash/sha1.c:fingera_sha1", "src/hash/sha2.c:fingera_sha2_256", "src/hash/sha2.c:fingera_sha2_512", "src/hash/ripemd160.c:fingera_ripemd160"]}
{"id": "C106", "title": "The random source leaks no descriptor or handle", "statement": "Whenever fingera_os_rand_bytes returns, the process holds exactly the file descriptors (on Windows: provider handles) it held before the call; it never reads or closes one that is not open. Any number of calls therefore leaves the set of open descriptors unchanged, for every schedule of short reads, and size 0 included. When it fails it does not return.", "quantifier": "every schedule of open and read results, every descriptor or handle the system hands out, every buffer and size, every sequence of calls", "why_tests_cant": "a leak shows only after thousands of calls, and only on the path that leaks; the results of open and read are the kernel's choice", "anchors": ["src/random.c:fingera_os_rand_bytes"]}
{"id": "C107", "title": "Windows: the whole buffer is filled; MSVC: cleanse leaves zeros", "statement": "On Windows fingera_os_rand_bytes fills all buf_size bytes with what the system generator delivered and touches nothing behind them, or does not return. True for sizes below 4 GiB; from 4 GiB on the size is truncated to 32 bits and the call returns normally with the rest of the buffer never written. With MSVC fingera_cleanse leaves every byte of the region zero and nothing else changed.", "quantifier": "every behaviour of the system generator, every buffer, size, offset", "why_tests_cant": "the project's tests run with 32 byte buffers; the truncation needs a buffer of 4 GiB, and a bound on all sizes is not a test", "anchors": ["src/random.c:fingera_os_rand_bytes", "src/cleanse.c:fingera_cleanse"]}
{"id": "C108", "title": "Text decoders do not depend on the signedness of char", "statement": "Whether the compiler's plain char is signed (x86) or unsigned (ARM, PowerPC): every decoder of text (Base32, Base58, Base58Check, bech32, addresses, WIF and extended key strings) gives the same result for ASCII text; where char is unsigned it is defined for every byte string and treats a non-ASCII byte as an invalid character. Where char is signed, bech32 decoding is defined for every byte string too, but a non-ASCII byte that the Base58 or Base32 decoder reaches (valid characters before it) is undefined behaviour.", "quantifier": "both signednesses, every text, every byte after it, every length and parameter", "why_tests_cant": "tests run on one compiler; and the difference shows only for bytes of 128 and above, in every position", "anchors": ["src/base32.c:_fingera_from_base32", "src/base58.c:fingera_from_base58", "src/btc/base58_check.c:fingera_from_base58_check", "src/btc/bech32.c:fingera_bech32_decode", "src/btc/address.c:fingera_btc_address_decode", "src/btc/key.c:fingera_btc_key_from_string", "src/btc/exkey.c:fingera_exkey_from_string", "src/btc/exkey.c:fingera_expubkey_from_string"]}
{"id": "C109", "title": "Length helpers and length counts at every width of size_t", "statement": "On 32-bit and on 64-bit builds: each length helper returns the documented length whenever that length is representable, address decoding rejects exactly the capacities below the documented one, the Base58 encoder is defined, and SHA-2 and HMAC hash the right bit count. (Refuted on 32-bit builds for Base58: the intermediate product 138 n or 733 n wraps, so for every input of 31122952 bytes or more the encoding helper returns less than the number of characters written, for every text of 5859437 characters or more the decoding helper returns less than the number of bytes written, and address decoding lets a two-byte output buffer through.)", "quantifier": "every width of size_t from 8 bits on, every length, every text, key and message", "why_tests_cant": "the wrap-around needs inputs of megabytes on a 32-bit build, and holds or fails for all lengths, not for sampled ones", "anchors": ["include/fingera_libc/hex.h", "include/fingera_libc/base64.h", "include/fingera_libc/base32.h", "include/fingera_libc/base58.h:fingera_to_base58_length", "include/fingera_libc/base58.h:fingera_from_base58_length", "include/fingera_libc/btc/base58_check.h", "include/fingera_libc/btc/bech32.h", "src/base58.c:fingera_to_base58", "src/btc/address.c:fingera_btc_address_decode", "src/hash/sha2.c:sha256_final", "src/hash/sha2.c:sha512_final"]}
{"id": "C110", "title": "Key functions may be called from any number of threads", "statement": "Between initialisation and shutdown, any number of threads may make any sequences of key, signature, derivation and extended key calls at the same time, each on its own buffers: there is no data race, the library's state does not change, every thread gets the results it would get alone, and no thread has to wait for another one.", "quantifier": "all thread counts, call sequences, arguments and interleavings", "why_tests_cant": "a test observes a few of the interleavings; a race shows rarely or not at all", "anchors": ["src/btc/key.c:secp256k1_context_sign", "src/btc/key.c:secp256k1_context_verify", "src/btc/key.c", "src/btc/exkey.c"]}
{"id": "C111", "title": "Initialisation and shutdown under concurrency", "statement": "If initialisation has returned before other threads call and shutdown starts after they have finished, no interleaving of the calls in between matters and nothing is leaked. Initialisation and shutdown may themselves run concurrently with each other and with other calls. (The second sentence is refuted: two concurrent initialisations can both succeed and leak two contexts for good; a shutdown during a call makes the call use a destroyed context.)", "quantifier": "all schedules, thread counts, calls and random source behaviours", "why_tests_cant": "depends on the interleaving of a few instructions in different threads", "anchors": ["src/btc/key.c:fingera_btc_key_init", "src/btc/key.c:fingera_btc_key_uninit"]}
{"id": "C112", "title": "Last words of a fatal error", "statement": "A fatal error never returns to the caller: the process writes exactly one line with the message and the source position, followed by one line with the system's reason if errno is set, and exits with a nonzero status (255). A request for random bytes either returns, with no file descriptor left open, or ends like this, naming the open or read call that failed, its result and the reason of that failure. (Refuted: when read returns 0 the reason printed is a stale errno of an unrelated earlier failure; on Windows two of the messages are undefined behaviour, an unsigned int is passed for %lu.)", "quantifier": "all messages, arguments, source positions, errno values, buffer sizes and read schedules", "why_tests_cant": "needs every failure point of the operating system's calls, and the process is gone afterwards", "anchors": ["src/error.c:fingera_fatal", "include/fingera_libc/error.h:FINGERA_FATAL", "src/random.c:fingera_os_rand_bytes"]}
{"id": "C113", "title": "Mistyped witness addresses", "statement": "Take any text the address decoder accepts as a witness address of a network, in particular any the encoders write, and replace one to four of its characters, or exchange two of them (not just their case). Decoding the new text is always defined, independent of uninitialised memory, never yields a witness address, and yields BAD_ADDRESS unless the text has become a valid Base58Check text of the network.", "quantifier": "all networks, witness addresses, error positions and wrong characters, capacities and stack contents", "why_tests_cant": "a 42 character address has more than 10^12 such neighbours", "anchors": ["src/btc/address.c:fingera_btc_address_decode", "src/btc/bech32.c:fingera_bech32_decode"]}
{"id": "C114", "title": "Characters inserted into or dropped from witness addresses", "statement": "A witness address with characters added or dropped is not an address any more. (Refuted: q's inserted before or dropped from before a final p always leave the checksum valid; versions 1 to 16 then decode to a different program, and a key hash address with 1, 3 or 6 more characters may decode to the same hash. What holds: a version 0 script hash address has one length, a key hash address cannot be shortened.)", "quantifier": "all networks, addresses, numbers of inserted characters", "why_tests_cant": "depends on the last character of the address and on the checksum of every string", "anchors": ["src/btc/bech32.c:fingera_bech32_decode", "src/btc/address.c:fingera_btc_address_decode"]}
{"id": "C115", "title": "Public keys as bytes", "statement": "With the library started, encoding a public key in the 33 or 65 byte format succeeds, writes exactly those bytes and nothing else, and decoding them gives the same key back; no two keys or formats share an encoding. Decoding depends on the stated number of bytes only, and an accepted 33 byte encoding is the one the encoder writes. Any other length aborts in both directions. A secret key has a public key exactly when it lies between 1 and the order minus 1, otherwise the call aborts, and its key identifier is RIPEMD160(SHA256(.)) of the chosen encoding of its public key.", "quantifier": "all curves satisfying the secp256k1 laws, public and secret keys, formats, buffers and surrounding memory", "why_tests_cant": "2^256 keys; injectivity and canonical decoding are statements about all byte strings", "anchors": ["src/btc/key.c:fingera_btc_pubkey_encode", "src/btc/key.c:fingera_btc_pubkey_decode", "src/btc/key.c:fingera_btc_pubkey_keyid", "src/btc/key.c:fingera_btc_key_keyid", "src/btc/key.c:fingera_btc_key_get_pub"]}
{"id": "C116", "title": "A watch-only wallet follows the signing wallet", "statement": "Export a key as an extended private and as an extended public string and give the second to a watch-only machine. For every path of non-hardened steps, either both machines report that the path does not exist, or the watcher's key is the public key of the signer's, both compute the same two addresses, and everything the signer signs with its key the watcher verifies. Every account reachable from a seed, over hardened or normal steps, can be exported this way; a hardened step aborts at the watcher.", "quantifier": "all curves satisfying the secp256k1 laws, networks, keys, paths of any length, messages", "why_tests_cant": "quantifies over all keys, unbounded paths and messages, and composes string import, derivation, addresses and signatures", "anchors": ["src/btc/exkey.c:fingera_exkey_derive", "src/btc/exkey.c:fingera_expubkey_derive", "src/btc/exkey.c:fingera_exkey_to_string", "src/btc/exkey.c:fingera_expubkey_from_string", "src/btc/key.c:fingera_btc_key_sign", "src/btc/key.c:fingera_btc_key_verify", "src/btc/address.c:fingera_to_address_pubkey"]}
{"id": "C117", "title": "Every text says what it is", "statement": "The library writes texts for five kinds of addresses, private keys and two kinds of extended keys. Writing always succeeds and gives 1 to 128 printable characters. Two texts are equal only if they were written for the same thing (kind, hash, witness version, key, compression flag, depth, ...), and for the same network, except that testnet and regtest share their Base58 texts.", "quantifier": "all pairs of things of the proper sizes and all pairs of built-in networks", "why_tests_cant": "injectivity over all hashes, keys and programs, including that no Base58 text is a Bech32 text", "anchors": ["src/btc/address.c:fingera_to_address_pubkey", "src/btc/address.c:fingera_to_address_witness_unknown", "src/btc/key.c:fingera_btc_key_to_string", "src/btc/exkey.c:fingera_exkey_to_string", "src/btc/chain_parameters.c"]}
{"id": "C118", "title": "Texts given to the wrong reader", "statement": "Give any text the library writes to any of its readers. The address reader answers BAD_ADDRESS to every private or extended key, on every network. The extended key readers accept exactly the extended keys of their kind and network family and otherwise leave the caller's structure alone. The private key reader accepts exactly the private keys of its network family. (The last is refuted for extended keys, which all overrun its buffer, and for witness addresses of 56 or more characters without 0 and l; proved for everything else up to 54 characters.)", "quantifier": "all texts the library writes, pairs of networks, readers, caller memory", "why_tests_cant": "all keys and addresses; the failures are undefined behaviour that a test may not notice", "anchors": ["src/btc/key.c:fingera_btc_key_from_string", "src/btc/exkey.c:fingera_exkey_from_string", "src/btc/exkey.c:fingera_expubkey_from_string", "src/btc/address.c:fingera_btc_address_decode"]}
{"id": "C119", "title": "Working in pieces gives the same as all at once", "statement": "Encoding a long input in pieces and joining the texts gives the text of the whole when every piece but the last is a whole number of groups (any length for hex, 3 bytes for Base64, 5 for Base32). Decoding a text in such pieces (2, 4 or 8 characters), stopping after the first piece that decodes to less than its announced length, gives the same bytes (or the same undefined behaviour) as decoding it at once, for every text, valid or not; for Base64 provided no piece but the last ends in '=', for Base32 provided none contains '=' or NUL. Signed integers written one after another are read back as the same sequence.", "quantifier": "all inputs and texts, all ways to cut them into pieces", "why_tests_cant": "all inputs and all cuts; the behaviour on invalid pieces", "anchors": ["src/hex.c:fingera_to_hex", "src/hex.c:fingera_from_hex", "src/base64.c:_fingera_to_base64", "src/base64.c:_fingera_from_base64", "src/base32.c:_fingera_to_base32", "src/base32.c:_fingera_from_base32", "src/compress_integer.c:fingera_decode_zigzag"]}
{"id": "C120", "title": "Equivalent HMAC keys", "statement": "For HMAC-SHA256 and HMAC-SHA512, a key shorter than the block gives the same MACs as that key filled up with zero bytes to any length within the block, and a key longer than the block gives the same MACs as its digest.", "quantifier": "all keys, paddings and messages", "why_tests_cant": "all key lengths and messages", "anchors": ["src/hash/sha2.c:fingera_hmac_sha256", "src/hash/sha2.c:fingera_hmac_sha512"]}
{"id": "C121", "title": "Equal digests and addresses mean equal inputs, or a named collision", "statement": "If hash256, hash160, HMAC-SHA256 or HMAC-SHA512 give the same result for two inputs, the inputs are the same (for HMAC: up to C120), or two messages computed from them are a collision of SHA-256, SHA-512 or RIPEMD-160. Every valid private key and every script has an address of each kind on each network; if two of them have the same address, on whatever networks, they are the same key in the same format, or the same script, paid in the same way, or there is such a collision: the library never loses information except inside the hash functions.", "quantifier": "all pairs of inputs, keys, scripts, address kinds, networks", "why_tests_cant": "statement about all pairs of inputs", "anchors": ["src/btc/hash.c:fingera_btc_hash256", "src/btc/hash.c:fingera_btc_hash160", "src/hash/sha2.c:fingera_hmac_sha256", "src/btc/key.c:fingera_btc_key_keyid", "src/btc/address.c:fingera_to_address_pubkey"]}
{"id": "C122", "title": "Children of one parent differ; a non-hardened child gives away its parent", "statement": "Two children of an extended key with different child numbers (hardened or not), derived privately or publicly, differ in the key or in the chain code, unless named messages computed from the parent are a collision of SHA-512; children equal in the key alone need equal left halves of the two MACs. The private key of a parent equals the private key of any non-hardened child minus a number computed from the parent's extended public key, modulo the group order (so publishing xpub and one such child key publishes the parent).", "quantifier": "all parents, all pairs of child numbers", "why_tests_cant": "all keys and all 2^64 pairs of child numbers", "anchors": ["src/btc/exkey.c:fingera_exkey_derive", "src/btc/exkey.c:fingera_expubkey_derive", "src/btc/key.c:fingera_btc_key_derive", "src/btc/hash.c:fingera_btc_bip32_hash"]}
{"id": "C123", "title": "The last words on Windows", "statement": "On Windows a fatal error never returns: the process ends with exit code 4294967295 and has written to stderr what it writes elsewhere (C112) followed, exactly if the last error was set on entry, by a line with Windows' message and the code as eight lower-case hexadecimal digits; errno and the last error reported are those on entry, whatever the C library does to them while the text is written. A failing random source before Windows Vista says which of the two system calls failed. (Refuted parts: for an error code Windows has no message for, and for every failure of the random source from Windows Vista on, the call is undefined behaviour.)", "quantifier": "all messages, arguments, error codes, message tables, interleaved changes of errno and the last error, all system behaviours of the random source", "why_tests_cant": "all 2^32 error codes and all failures of the system; failures of the system's random source cannot be provoked", "anchors": ["src/error.c:fingera_fatal", "src/random.c:fingera_os_rand_bytes"]}
{"id": "C124", "title": "The tree of keys does not run into itself", "statement": "Take any two seeds and any two derivation paths, of whatever lengths, hardened or not. If the two extended keys have the same chain code, or the same xprv or xpub string on a network, then the seeds and the paths are the same, or two different inputs that the two derivations gave to HMAC-SHA512 (the seed, or a parent's data under its chain code) agree in the 32 bytes that become the chain code. So no bug of the library (dropped index, truncated path element, missing hardened bit, ignored parent) can make two accounts coincide.", "quantifier": "all pairs of seeds (not of 37 bytes) with valid master keys, all pairs of paths", "why_tests_cant": "statement about all pairs of seeds and paths", "anchors": ["src/btc/exkey.c:fingera_exkey_init", "src/btc/exkey.c:fingera_exkey_derive", "src/btc/key.c:fingera_btc_key_derive", "src/btc/hash.c:fingera_btc_bip32_hash", "src/btc/exkey.c:fingera_exkey_to_string"]}
{"id": "C125", "title": "Exactly what address decoding gives", "statement": "For every built-in network, every text of ASCII characters, whatever follows it in memory, every output capacity and every content of the 128 bytes of uninitialised scratch buffer, the outcome of fingera_btc_address_decode (undefined, or the classification, the size reported, the bytes at the start of the output buffer and how many of its bytes are written) is the one reading given by a small specification: capacity below the announced size; Base58Check of the public key prefix; of the script prefix; a valid Bech32 text with the network's prefix, whose program is what the raw Base32 rules read from the values and the rest of the scratch buffer; or none of these.", "quantifier": "all built-in networks, ASCII texts below 2^31/733 characters, memory after the text, capacities, scratch buffer contents", "why_tests_cant": "the outcome depends on uninitialised memory, and texts of several formats overlap", "anchors": ["src/btc/address.c:fingera_btc_address_decode", "src/btc/address.c:decode_bech32", "src/base32.c:fingera_from_base32_raw", "src/btc/bech32.c:fingera_bech32_decode", "src/btc/base58_check.c:fingera_from_base58_check"]}
{"id": "C126", "title": "On the real curve nothing is assumed", "statement": "secp256k1, as SEC 2, SEC 1 and RFC 6979 define it, has every property of the curve that the other statements about keys, signatures and derivation rely on: p and n are prime, the points with infinity are a commutative group, G has order exactly n, key formats round-trip, deterministic signatures verify and have a low s. On this curve, therefore, whatever fingera_btc_key_sign returns verifies under the key's public key, public derivation agrees with private derivation along every path, fingera_btc_pubkey_decode accepts exactly the compressed, uncompressed and hybrid texts of the points of the curve (and yields that point), and fingera_btc_key_verify accepts a pair (r, s) exactly when some nonce satisfies the ECDSA signing equation with it.", "quantifier": "all points, all scalars, all 33- and 65-byte texts, all keys, hashes, signatures and derivation paths", "why_tests_cant": "the group has about 2^256 elements; associativity, the order of G and the exact set of accepted texts and signatures are statements about all of them", "anchors": ["src/btc/key.c:fingera_btc_key_sign", "src/btc/key.c:fingera_btc_key_verify", "src/btc/key.c:fingera_btc_pubkey_decode", "src/btc/key.c:fingera_btc_key_get_pub", "src/btc/key.c:fingera_btc_pubkey_derive"]}
{"id": "C127", "title": "What a signature and a public key bind", "statement": "Every public key text fingera_btc_pubkey_decode accepts is the public key of exactly one 32-byte secret key. For one signature and one hash fingera_btc_key_verify accepts at most four public keys; for one signature and one key, hashes with at most four values modulo the group order, and it does not tell apart two hashes with the same value modulo the order; for one key, one hash and one r, at most four values of s.", "quantifier": "all points of the curve, all signatures, all sets of keys, of hashes and of values of s", "why_tests_cant": "it counts solutions among 2^256 keys and hashes, and rests on the number of points of the curve", "anchors": ["src/btc/key.c:fingera_btc_key_verify", "src/btc/key.c:fingera_btc_pubkey_decode", "src/btc/key.c:fingera_btc_key_get_pub"]}
{"id": "C128", "title": "No two signatures share a nonce", "statement": "Every signature fingera_btc_key_sign returns is made with a secret number that is an output of the RFC 6979 generator seeded with the key, the hash and the number of the attempt. Outputs of the generator for different seeds, or different outputs for one seed, are different unless two different messages hashed on the way have the same SHA-256; so signing with different keys or different hashes uses different secret numbers. It must: two signatures of one key with the same r on hashes that differ modulo the order give the key away, as one of two numbers anyone can compute from the hashes and the signatures.", "quantifier": "all pairs of keys and hashes, all numbers of rejected outputs and of attempts, all pairs of signatures that verify", "why_tests_cant": "a repeated secret number among 2^512 pairs of key and hash would never be met by tests; that there is none is an argument about SHA-256 collisions", "anchors": ["src/btc/key.c:fingera_btc_key_sign", "src/btc/key.c:SigHasLowR", "src/btc/key.c:fingera_btc_key_verify"]}
{"id": "C129", "title": "Merkle trees built and checked with the double hash", "statement": "Calling fingera_btc_hash256_d64 in place on n 32-byte hashes, then on the results, and so on (repeating the last one where their number is odd) leaves Bitcoin's Merkle root of the hashes at the start of the buffer and touches nothing behind the space for one more hash. Two lists of the same number of hashes with the same root are the same list, unless two named messages hashed for them collide; from three on, an odd number of hashes has the root of the list with the last one repeated. A branch of the height of the tree that fingera_btc_hash256 takes to its root starts with the hash at that position, unless two named messages collide, and every hash has such a branch.", "quantifier": "all numbers of hashes, all hashes, all contents of the rest of the buffer, all positions and branches", "why_tests_cant": "the statement ranges over all numbers and values of hashes, and over all forged branches", "anchors": ["src/btc/hash.c:fingera_btc_hash256_d64", "src/btc/hash.c:fingera_btc_hash256", "src/hash/sha2.c:_hash256_d64_transform"]}
{"id": "C130", "title": "Bech32 functions: what memory they write", "statement": "fingera_bech32_encode writes exactly the hrp_len + b32_size + 7 characters of the BIP-173 text at result and changes no other byte, even when the five-bit values lie where their characters will be written (or above), or below the text; a value above 31 stops the program. fingera_bech32_decode writes the lower-cased human-readable part at hrp and the decoded values at b32 and changes no other byte, on every return path, and returns what it returns with separate buffers, also when hrp and b32 lie over the text: a valid string can be decoded in place.", "quantifier": "all memories, all addresses of text, human-readable part, values and outputs with the stated overlaps, all texts (valid or not), all lengths", "why_tests_cant": "Stray writes and overlap effects depend on addresses, lengths and the order of loads and stores; tests use a few separate buffers.", "anchors": ["src/btc/bech32.c: fingera_bech32_encode, fingera_bech32_decode, create_checksum, verify_checksum", "include/fingera_libc/btc/bech32.h"]}
{"id": "C131", "title": "Address encoders and key strings: what memory they touch", "statement": "The five address encoders, fingera_btc_key_to_string, fingera_exkey_to_string and fingera_expubkey_to_string write exactly the characters they report at the output address and change no other byte of the caller's memory; a refused call writes nothing; the output may overlap the hash, program or key it encodes (the witness encoders only require that it does not overlap the network's human-readable part), the text being that of the original bytes. fingera_btc_key_from_string writes only the 32 key bytes, only when the string is accepted, and the key may be written over the text. No scratch block stays allocated, and what is left in given up blocks is wiped.", "quantifier": "all memories, addresses and overlaps, all keys, hashes, programs, prefixes up to 8 bytes, capacities, all texts that decode to at most 40 bytes (C53), any initial contents of stack arrays and any malloc", "why_tests_cant": "A function that reads its input after it began writing its output is wrong only for particular overlaps, and a stray write shows only where a test looks.", "anchors": ["src/btc/address.c: fingera_to_address_pubkey, fingera_to_address_script, fingera_to_address_witnessv0_keyhash, fingera_to_address_witnessv0_scripthash, fingera_to_address_witness_unknown", "src/btc/key.c: fingera_btc_key_to_string, fingera_btc_key_from_string", "src/btc/exkey.c: fingera_exkey_to_string, fingera_expubkey_to_string"]}
{"id": "C132", "title": "Extended key structures: what memory they touch", "statement": "fingera_exkey_init, the encoders and decoders of the 74-byte form and the string functions of extended keys write only their output: the structure (its four fields), the 74 bytes or the characters of the text; nothing else in memory changes. Encoding lays out exactly depth, parent fingerprint, child number (big endian), chain code and key; decoding yields the structure whose layout the 74 bytes are. The seed may overlap the structure it initialises, the text may overlap the structure it is written from and the structure may be written over the text it is read from (a refused text leaves memory as it was). Encoding and decoding may also be done in place.", "quantifier": "all memories, all addresses of structures, seeds, prefixes, 74-byte forms and texts with the stated overlaps, all contents, any seed length below 2^60, all texts that decode to at most 82 bytes (C70), any malloc and any initial contents of local arrays", "why_tests_cant": "Stray writes and overlap effects depend on addresses and contents; tests use a few separate structures.", "anchors": ["src/btc/exkey.c: fingera_exkey_init, fingera_exkey_encode, fingera_exkey_decode, fingera_expubkey_encode, fingera_expubkey_decode, write_key_extension, read_key_extension, fingera_exkey_to_string, fingera_exkey_from_string, fingera_expubkey_to_string, fingera_expubkey_from_string", "include/fingera_libc/btc/exkey.h"]}
{"id": "C133", "title": "Keys and signatures in the caller's buffers", "statement": "Called with buffers that do not overlap, the functions on keys and signatures write exactly their result and change no other byte of memory: the 64 bytes of a public key or of a signature, the 33 or 65 bytes of a public key's text, the 214 or 279 bytes of a private key's structure, the at most 72 bytes of a DER signature, the 32 bytes of a decoded key (zeros when the text is refused), the 20 bytes of a key identifier; verification writes nothing. What one function stored another one reads back: a client that derives the public key, sends it and reads it back, signs, sends the signature as DER, reads it back and verifies, gets four times yes, whatever the buffers held before. An invalid secret aborts in every function that needs its public key.", "quantifier": "all memories, all addresses of buffers, all contents, all keys and hashes, any representation the curve library gives its 64-byte structures", "why_tests_cant": "A stray write or a byte read from the wrong buffer shows only for some layouts and contents, and the opaque structures are implementation defined.", "anchors": ["src/btc/key.c: fingera_btc_key_get_pub, fingera_btc_pubkey_encode, fingera_btc_pubkey_decode, fingera_btc_key_encode, fingera_btc_key_decode, fingera_btc_key_sign, fingera_btc_signature_encode, fingera_btc_signature_decode, fingera_btc_key_verify, fingera_btc_key_keyid, fingera_btc_pubkey_keyid, ec_privkey_import_der, ec_privkey_export_der, ecdsa_signature_parse_der_lax, SigHasLowR", "include/fingera_libc/btc/key.h"]}
{"id": "C134", "title": "Keys and signatures in overlapping buffers", "statement": "The functions on keys and signatures may be called with output over input, as in key = f(key): the result is the one for separate buffers. (True for signature_encode, the key identifiers, verify and the first attempt of sign.)", "quantifier": "all memories, all overlapping addresses, all contents, any representation of the 64-byte structures", "why_tests_cant": "The effects depend on where buffers lie and, for signing, on whether the first attempt happens to have a low R: half of all tests pass.", "anchors": ["src/btc/key.c: fingera_btc_key_get_pub, fingera_btc_pubkey_encode, fingera_btc_pubkey_decode, fingera_btc_key_encode, fingera_btc_key_decode, fingera_btc_key_sign, fingera_btc_signature_encode, fingera_btc_signature_decode, fingera_btc_key_verify, fingera_btc_key_keyid, fingera_btc_pubkey_keyid, ec_privkey_import_der, ec_privkey_export_der, ecdsa_signature_parse_der_lax, SigHasLowR", "include/fingera_libc/btc/key.h"]}
{"id": "C135", "title": "A signing and a watching wallet in one memory", "statement": "A program keeps in one memory, in non-overlapping buffers in any order and with any contents otherwise, an extended private key, space for its derivations, the network's version bytes, a text buffer, and the watcher's structure. It derives the extended public key, writes it as text, reads the text into the watcher's structure, walks the private key down any path of non-hardened steps back and forth between two structures and the public key down the same path in place. The text is always accepted, and at the end both hold the same extended public key, that of the private key the path leads to, or both report that the path does not exist. No call aborts, overruns a buffer or disturbs another structure.", "quantifier": "all memories, all layouts of the buffers, all valid private keys, all built-in networks, all paths of non-hardened steps of any length, all sane allocators, any curve that obeys the laws and secp256k1 itself", "why_tests_cant": "A write that strays into a neighbouring structure, or a buffer read after it was reused, shows only for some layouts, contents and path lengths.", "anchors": ["src/btc/exkey.c: fingera_exkey_get_pub, fingera_exkey_derive, fingera_expubkey_derive, fingera_expubkey_to_string, fingera_expubkey_from_string", "src/btc/key.c: fingera_btc_key_fingerprint, fingera_btc_pubkey_fingerprint", "src/btc/base58_check.c"]}
{"id": "C136", "title": "Hashing, HMAC and the BIP-32 hash do not reveal their data through timing or memory accesses", "statement": "Two calls of SHA-1, SHA-256, SHA-512, RIPEMD-160, HASH160 or double SHA-256 on messages of the same length, two calls of HMAC-SHA-256 or HMAC-SHA-512 with keys of the same length and messages of the same length, two calls of the BIP-32 hash on any chain codes, indices, header bytes and keys, and two calls of the 64-byte-block Merkle hash on the same number of blocks take every branch and every loop the same way and touch the same positions of the same buffers in the same order. The bytes of messages, keys and chain codes have no influence on them (at the level of the C text).", "quantifier": "all pairs of messages, keys and chain codes, all lengths, all positions of the buffers, whatever lies in memory behind the data", "why_tests_cant": "Independence of the data is a statement about every pair of runs; a data-dependent branch or table access can hide behind one value of one byte and does not change any result.", "anchors": ["src/hash/sha1.c: fingera_sha1", "src/hash/sha2.c: fingera_sha2_256, fingera_sha2_512, fingera_hmac_sha256, fingera_hmac_sha512, _hash256_d64_transform", "src/hash/ripemd160.c: fingera_ripemd160", "src/btc/hash.c: fingera_btc_hash160, fingera_btc_hash256, fingera_btc_hash256_d64, fingera_btc_bip32_hash"]}
{"id": "C137", "title": "Writing a secret as text does reveal it through memory accesses", "statement": "Hex, Base58 and Base58Check encoding look characters up in a table at positions that are the data. Whoever sees which table entries a call reads can write down the half bytes of the data (hex) or the encoded text up to the '1's in front of it (Base58, Base58Check). For the export of a private key on a network whose key prefix does not start with a zero byte, as on all built-in networks, what the observer writes down is exactly the exported string, and two different keys never make the same accesses. A program that must hide a key from such an observer must not export it with these calls.", "quantifier": "all byte strings, all prefixes, all 32-byte keys, both compression flags, all built-in networks and any network with a non-zero first prefix byte of at most 8 bytes", "why_tests_cant": "Tests compare results; what an observer can compute from the access pattern is a statement about all inputs and is invisible in the result.", "anchors": ["src/hex.c: fingera_to_hex", "src/base58.c: fingera_to_base58", "src/btc/base58_check.c: fingera_to_base58_check", "src/btc/key.c: fingera_btc_key_to_string"]}
{"id": "C138", "title": "Deriving keys and signing reveal only public facts", "statement": "Seen from outside (the outcome of every test, the position of every memory access, and which libsecp256k1 function is called with which pointers and with which return value), making a master key reveals nothing about the seed but its length; public keys, identifiers, fingerprints, DER export and the 74-byte form of a valid key are produced with the same observations whatever the key; deriving a child reveals only whether the child is hardened and whether it succeeded; signing reveals exactly the number of attempts until R is low. So a whole wallet run from a seed over a path to a signature reveals only the length of the seed, where the path is hardened and that number.", "quantifier": "all seeds, all pairs of valid keys and chain codes, all child numbers and paths, all hashes, all curves satisfying the laws of libsecp256k1, all positions of the buffers", "why_tests_cant": "The claim compares the observations of every pair of secrets; a test sees single runs, and timing measurements see only averages on one machine.", "anchors": ["src/btc/key.c: fingera_btc_key_derive, fingera_btc_key_get_pub, fingera_btc_key_sign, fingera_btc_key_encode, fingera_btc_key_keyid, fingera_btc_key_fingerprint", "src/btc/exkey.c: fingera_exkey_init, fingera_exkey_derive, fingera_exkey_get_pub, fingera_exkey_encode, fingera_exkey_decode", "src/btc/hash.c: fingera_btc_bip32_hash"]}
{"id": "C139", "title": "Hash functions and text encoders touch nothing but the given buffers and their own local arrays", "statement": "Running SHA-1, RIPEMD-160, SHA-256, SHA-512, their HMACs, hash160, hash256, the BIP-32 hash or the hash of 64-byte blocks on a message at any address reads only the announced bytes of the message (and of the key, chain code, data), writes only the bytes of the result (20, 32, 64, or 32 per block), and makes every other access inside a local array of the called function, never past its end. The same holds for hexadecimal (two characters per byte), Base58, Base58Check and the text of a private key (at most n*138/100+1 characters for n bytes), whose look-ups also stay inside the character tables. In particular the input is never written, and no byte after the announced length is ever read, whatever the length is modulo the block size.", "quantifier": "all messages, keys, lengths, block counts and positions of the buffers (also overlapping ones)", "why_tests_cant": "A test or a sanitizer run sees the lengths it tries; an over-read of a byte at one length modulo the block size, or one that stays inside a larger allocation, goes unnoticed.", "anchors": ["src/hash/sha1.c: fingera_sha1", "src/hash/sha2.c: fingera_sha2_256, fingera_sha2_512, fingera_hmac_sha256, fingera_hmac_sha512, _hash256_d64_transform", "src/hash/ripemd160.c: fingera_ripemd160", "src/btc/hash.c: fingera_btc_hash160, fingera_btc_hash256, fingera_btc_hash256_d64, fingera_btc_bip32_hash", "src/hex.c: fingera_to_hex", "src/base58.c: fingera_to_base58", "src/btc/base58_check.c: fingera_to_base58_check", "src/btc/key.c: fingera_btc_key_to_string"]}
{"id": "C140", "title": "Key functions stay inside the given structures and hand the curve library only pointers with enough room", "statement": "Making a public key, serializing it, deriving a child, making an extended key from a seed, deriving and neutering extended keys, their 74-byte form both ways, the DER form, identifier, fingerprint and signing read only the announced bytes of their inputs and write only the announced bytes of their outputs (32 per key or chain code, 64 per public key or signature, 76 and 77 bytes per extended key, len bytes of DER); every other access is inside a local array. Every pointer handed to libsecp256k1 has the room that function needs: 64 bytes for a public key or signature, 32 for keys, hashes, tweaks and entropy, and 33 or 65 bytes for a serialized public key. Inputs are never written.", "quantifier": "all keys, chain codes, seeds, hashes, child numbers, curves, positions of the structures (also overlapping) and numbers of signing attempts, also runs that fail or abort", "why_tests_cant": "A test sees the inputs it tries; an overrun by a few bytes inside a stack frame or structure goes unnoticed, and failing derivations or a long search for a low R cannot be produced on demand.", "anchors": ["src/btc/key.c: fingera_btc_key_derive, fingera_btc_key_get_pub, fingera_btc_pubkey_encode, fingera_btc_key_encode, fingera_btc_key_sign, fingera_btc_key_keyid, fingera_btc_key_fingerprint", "src/btc/exkey.c: fingera_exkey_init, fingera_exkey_derive, fingera_exkey_get_pub, fingera_exkey_encode, fingera_exkey_decode"]}
{"id": "C141", "title": "Hash functions and text encoders read every announced byte and fill the whole result, and nothing else", "statement": "A successful run of SHA-1, RIPEMD-160, SHA-256, SHA-512 or their HMACs reads of the message's object (and the key's object) exactly the announced bytes, each at least once, and writes of the result's object exactly the 20, 32 or 64 bytes of the result, each at least once. The hash of 64-byte blocks reads exactly 64 bytes per block and writes exactly 32 per block. Hexadecimal reads exactly the bytes and writes exactly two characters per byte; Base58 reads exactly the bytes and writes exactly as many characters as the returned length says. Such runs succeed for every message and key in memory.", "quantifier": "all messages, keys, lengths, block counts and offsets", "why_tests_cant": "A test sees the bytes it looks at; a stale byte in a result or an ignored byte of the input shows only for some length modulo the block size.", "anchors": ["src/hash/sha1.c: fingera_sha1", "src/hash/sha2.c: fingera_sha2_256, fingera_sha2_512, fingera_hmac_sha256, fingera_hmac_sha512, _hash256_d64_transform", "src/hash/ripemd160.c: fingera_ripemd160", "src/btc/hash.c: fingera_btc_hash256_d64", "src/hex.c: fingera_to_hex", "src/base58.c: fingera_to_base58"]}
