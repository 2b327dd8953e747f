# Formal model of fingera/fingera_libc in Coq 8.16.1 — design

## 1. Layout

All Coq files are in `rocq/theories` (logical name `Verif`), flat, with a role prefix:

| prefix | role |
|---|---|
| `Base.v` | result type, byte and word arithmetic used by the models |
| `M_*.v` | **models**: one Gallina definition per C function, each with a comment giving file and lines |
| `S_*.v` | **specifications**: small, independent of the models (RFC 4648 over bit strings, numerals, FIPS 180-4, BIP-173, BIP-32, ...) |
| `L_*.v` | lemmas and proofs |
| `P_*.v` | the property theorems only, each closed by `exact`/short proof, each with `Print Assumptions` and with non-vacuity `Example`s |

## 2. Modelling conventions

* **Bytes and words** are `Z`. A byte list satisfies `bytes l` (every element in `[0,256)`); every C unsigned
  operation that can wrap has an explicit `mod 2^8 / 2^32 / 2^64`. Lengths and indices are `nat`, except where
  `size_t`/`int` overflow matters (there they are `Z` and the wrap or overflow is explicit).
* **Undefined behaviour is an outcome.** `res A := Ok a | UB | Abort`. `UB` is returned for a read outside the
  memory object, a write outside a fixed internal buffer, signed overflow, `llabs(INT64_MIN)`, a negative table
  index (signed `char`), `isspace` of a negative `char`. `Abort` is a failing `assert` (debug builds;
  builds with `NDEBUG` are `M_Release`).
* **Memory.** A `const char *` that the code scans with `strchr/strrchr/while(*str)` is modelled as the list of
  *all* bytes readable from the pointer on (the rest of the object and what follows it), separate from `str_len`;
  reading past the end of that list is `UB`. A `(const void *buf, size_t n)` argument that the code
  indexes only below `n` by construction of the loop is modelled as the list of its `n` bytes.
  Output buffers are modelled by the list of bytes written, contiguous from the start; capacity theorems bound the
  length of that list; fixed-size internal arrays are checked and overrunning them is `UB`.
* **Loops** are structural recursion over the data or over a count; retry loops (`key_new`, `sign`, `read`) run over
  an explicit finite oracle list (the OS/nonce outcomes) and return "still running" when the oracle is exhausted,
  which theorems exclude explicitly ("whenever the call returns").
* **`char` is signed** (x86/ARM-Linux gcc default differs on ARM; we take x86), little-endian 64-bit machine,
  `sizeof(size_t)=8`, `sizeof(int)=4`. In the byte-level models `malloc` succeeds; `M_Scratch` models `DECLARE_BUFFER`/`FREE_BUFFER` with
  explicit heap blocks and an arbitrary `malloc` outcome (C91-C93).
* **libsecp256k1** is not in the repository. It is an explicit record parameter (`secp`) of functions with an explicit
  predicate of laws (`secp_laws`) that each theorem needing it takes as a hypothesis. The laws are proved of
  secp256k1 itself as SEC 1, SEC 2 and RFC 6979 define it (`S_Secp256k1`, `C126_laws`), and of a small instance (`toy`)
  with which concrete cases can be computed. No axiom. What remains trusted is that libsecp256k1 computes `S_Secp256k1`.
* Straight-line hash code is transcribed line by line into lists of macro invocations (`ROUND32(h,a,b,..., K + (w1 = ...))`
  becomes one list element naming the same registers, constant and schedule update) that an interpreter of the macro
  executes; the theorem compares with FIPS 180-4 for all inputs.

## 3. Trusted base

* Coq 8.16.1 kernel including `vm_compute` (used for finite table checks and the finite bech32 distance check).
* `Print Assumptions` of every property theorem: see section 6 (goal: "Closed under the global context" everywhere).
* The faithfulness of the `M_*` files to the C text (hand transcription; hash round lists were transcribed
  mechanically from the C source by a script, and the resulting Coq files are committed).
* The `S_*` files say what the English says.

## 4. Plan per property

| id | modelled | proof | 
|---|---|---|
| C01-C03 | `M_Hex`: both hex functions with the code's tables | induction on the buffer / pairs; table facts by finite sweep over 256 bytes; spec by arithmetic on digits |
| C04 | `M_Hex.hex_dump`: cache as list, UB when index >= 1024, flush list | loop invariant: emitted ++ cache = layout prefix, cache <= 1000 |
| C05-C09 | `M_Varint` with mod 2^64 | well-founded on value via fuel 10; bijective numeration value function as spec; uniqueness by induction |
| C10-C11 | zigzag with `llabs` UB at INT64_MIN | C10 full statement is false at INT64_MIN: `_partial` for all others + `_refuted` |
| C12-C16 | `M_Base64` with the code's tables | spec = RFC 4648 on bit lists; three-byte induction; finite sweeps for tables |
| C17 | same | false (mid `=`, trailing bits): `_refuted` witnesses + exact characterisation of what is accepted |
| C18-C22 | `M_Base32` incl. `strchr` over following memory and signed char index | spec on bit lists, five-byte induction; C21/C22 false in full: `_refuted` + `_partial` |
| C23-C29 | `M_Base58` incl. int arithmetic, NUL termination, scratch sizes | numeral value invariants; 58^138 >= 256^100 and 256^733 >= 58^1000 by computation; C28, C29 false: `_refuted` + exact bounds |
| C30-C32 | `M_Base58Check` over `M_Base58` and `M_Hash` | composition |
| C33-C39 | `M_Bech32` | linearity of the table; BIP-173 spec; C37 by a finite computation over all weight-<=4 error patterns up to shift and scaling, lifted by linearity |
| C40-C50 | `M_Address` incl. capacity checks, uninitialised bytes as an explicit parameter | composition; C46, C48, C49, C50 false: `_refuted` + strongest true variants |
| C51-C53 | `M_Key` WIF with 40-byte internal buffer | composition; C53 false: `_refuted` + exact safe condition |
| C54-C58 | `M_Key` DER functions with index-checked reads | case analysis; bounds by lia |
| C59-C65 | `M_Key` with `secp` record | hypotheses `secp_laws`; loop over oracle |
| C66-C71 | `M_ExKey` | composition; C70, C71 false: `_refuted` + `_partial` |
| C72-C79 | `M_Sha1`, `M_Sha2`, `M_Ripemd`, `M_Hash` | round-list interpreter vs FIPS spec, by induction on rounds and blocks |
| C80-C82 | `M_Misc` with read schedule | C80 false under short reads: `_refuted` + `_partial` |
| C83 | `M_Endian` | arithmetic |
| C84 | `btc_bip32_hash` | HMAC-SHA512 specification |
| C85 | `exkey_init` | HMAC-SHA512 spec; BIP-32 test vector 1 as an example |
| C86 | extended key strings: accepted language | composition; false in full (malformed key data accepted): `_refuted` |
| C87-C90 | `M_Mem`: hex, base64, base32, varint with byte-wise loads and stores in the code's order on one memory | refinement to the byte-level functions, any overlap that the code supports |
| C91-C93 | `M_Scratch`: Base58, Base58Check, address decoding with scratch blocks, malloc, free | refinement; C93 (malloc failure) false: `_refuted` + exact sizes that need no heap |
| C94-C99 | `M_Residue`: contents of local arrays at return | exact contents; non-interference (C97); C96, C98, C99 false in part: `_refuted` |
| C100-C101 | `M_Release`: every function with an assertion, without it (NDEBUG) | simulation: Ok in debug implies the same Ok; C101 false in part: `_refuted` + what is refused |
| C102 | `M_Host`: everything that touches the bytes of an integer object, with the byte order as a parameter | congruence: equal to the little-endian models on bytes; the standards' functions on `Big` |
| C103–C105 | M_Overlap: derivation, extended key structures (members at the offsets a compiler gives them) and hash functions on one shared memory, pointers are addresses; two rules for memcpy onto itself and two for misaligned words | simulation against the separate-buffer models of M_Key, M_Exkey and the hash theorems; induction over the path |
| C106–C107 | M_Sys: src/random.c with the descriptors or handles the process holds, its two Windows branches, and the MSVC branch of cleanse.c; the system is an arbitrary schedule | simulation against M_Random (C80, C81), induction over the sequence of calls; counterexample theorem for sizes of 4 GiB and more |
| C108 | M_Char: all text decoders with the signedness of char as a parameter | the unsigned variant on any text equals the signed model on the text with non-ASCII bytes replaced by DEL, by induction over each loop; language theorems carried over; undefined behaviour proved for all texts that reach a non-ASCII byte |
| C109 | M_Width: the length helpers, the Base58 encoder, address decoding, SHA-2 and HMAC with the width of size_t as a parameter | equality with the unbounded models under the exact representability conditions; for 32 bits the wrap-around is proved for all lengths in range by arithmetic, and the number of bytes written by induction |
| C110–C111 | M_Threads: key.c and exkey.c as programs whose steps are the accesses to the two shared pointers and to the contexts; any number of threads, any schedule | invariant over the schedule (programs that only load pointers and call the library leave the state alone), equality of undisturbed programs with M_Key and M_Exkey; data races as conflicting next accesses; explicit schedules for the refuted part |
| C112 | M_Error: printf for the conversions in use, fingera_fatal, the random call with errno, exit status and file descriptors | printf proved sound and complete against a relation on formats, decimal numbers against numerals in base 10; induction over the reads |
| C113–C114 | M_Bech32, M_Address (P_Typos) | minimum distance five (C37) carried through address decoding; the checksum state in front of a final 1 is zero, and zeros keep it zero; the accepted lengths by a sweep over the 91 possible lengths |
| C115–C116 | M_Key, M_Exkey, M_Address (P_Pubkey, S_Wallet, P_Wallet) | encoding laws of the abstract curve lifted through the API; one induction on the path with the relation “is the public key of” as invariant, on top of C41–C44, C59–C62 and the address theorems |
| C117–C118 | M_Address, M_Key, M_Exkey (S_Dest, P_Dest, P_Reader) | Base58Check and Bech32 injectivity, prefixes and lengths of each kind, leading-digit bounds that separate Base58 from Bech32 texts; the readers through C52, C53, C86 and address totality |
| C119 | M_Hex, M_Base64, M_Base32, M_Varint (S_Chunk, P_Chunk) | induction over the pieces from one step lemma per coder |
| C120–C122 | M_Sha2, M_Hash, M_Key, M_Address, M_Exkey (S_Collide, P_Collide) | conformance theorems (C73–C78) reduce equal outputs to equal hash inputs or a named collision; C117 for addresses, C63/C64 for derivation; injectivity of k*G from the group law |
| C123 | M_ErrorWin (S_ErrorWin, P_ErrorWin) | the WIN32 text is the text of C112 followed by the code line; hexadecimal printing by induction on the digits; the random source by case analysis |
| C124 | M_Exkey, M_Key, M_Hash (S_Tree, P_Tree) | the derivation theorems (C63, C85) reduce a walk to BIP-32 on numbers; induction from the ends of both paths; equal chain codes give equal HMAC inputs or a half collision |
| C125 | M_Address, M_Base32, M_Base58Check, M_Bech32 (S_AddrExact, P_AddrExact) | the exact Base32 result (C22_decoders_exact) put into the decoder; a relation with one constructor per case, total, and met by the code; C46 sharpened to an equivalence |
| C126 | S_Secp256k1 (L_Curve, L_Pock, L_Primes, L_Zp, L_Group, L_Order, L_SecpLaws, P_Secp256k1) | group law from the complete projective formulas over any field in which 2 is not 0 and x^3 + 7 has no root; Pocklington certificates for p and n; n*G = infinity by retracing the doublings of G with the slopes given and checked; square roots and inverses by Fermat |
| C127 | S_Secp256k1, M_Key (L_Cofactor, P_Binding) | all points are multiples of G: three disjoint cosets of 3n points would not fit into the at most 2p + 1 pairs of an abscissa and a parity, and no point has order two; then C126_verify_exact and the four points with a given r |
| C128 | S_Secp256k1, S_Nonce, M_Key (P_Nonce) | induction over both generators: equal outputs have equal (K, V), equal keys K come from equal messages, and the messages of seeding and of reseeding never agree; then C59 gives the attempt, and the signing equation of C126 is solved for the key |
| C129 | S_Merkle (client programs and tree), M_Hash (P_Merkle) | induction over the levels with C79 for one level in place; for binding, induction over both trees from the root down; for branches, induction over the height |
| C130 | M_MemBtc: bech32.c with every load and store at its address, in program order | induction over the loops with the invariant that what is still to be read is as it was at first |
| C131 | M_MemBtc: address encoders and string functions on memory; local arrays lie behind the caller's memory during the call | composition of C130, C89, C91, then C52 for reading |
| C132 | M_MemKey: the same functions of exkey.c with structures at addresses (field offsets of the C layout), every load, store and memcpy in program order; memcpy of partly overlapping ranges is undefined | reading back of the written regions; composition with C91/C131 for the strings; the in-place sentence is false |
| C133, C134 | M_KeyMem: the functions of key.c on one memory, public keys and signatures being 64 bytes there in any layout that obeys `layout_laws` (read back what was saved; a structure with a zero abscissa is refused; the cleared structure is the zero signature), libsecp256k1 clearing its outputs before it reads its inputs as its sources do | simulation against M_Key (C52, C55-C61) for separate buffers; a client session composed from them; for overlaps, what the first load reads after the first store. The laws are proved of the little endian layout for secp256k1 (no point has abscissa 0: 7 is no square) |
| C135 | S_WalletMem: a client program that runs the memory models M_Overlap (derivation) and M_MemKey (text) one after the other | composition of C103 and C132 with frame reasoning over the six buffers; induction on the path for both walks, the signer alternating between two structures; the result is compared with C116's walk on values |
| C136 | M_Leak: the hash functions with their observations (test outcomes, object/offset/size of each access) next to the result; the values read and written are not observed, scalar locals are registers, the effect of the compiler is out of scope | erasure theorem (dropping the observations gives M_Sha1, M_Sha2, M_Ripemd, M_Hash); two-run simulation: same observations, values related by length, word variables by which are assigned |
| C137 | M_LeakText: hex, Base58, Base58Check and WIF encoding with their observations | erasure; the accesses outside the table are filtered out by the spy function of S_Leak, those in the table are the digits; injectivity by C51 |
| C138 | M_LeakKey: the functions of key.c and exkey.c with observations (tests, accesses, library calls with pointers and return value), on top of M_Leak; S_LeakKey: the client, same_path, attempts | erasure to M_Key/M_Exkey; relational lemmas (sim for runs that end alike, tr for successful runs with equal flags); signing by an explicit trace indexed by the number of attempts; the walk by induction on the path. What libsecp256k1 does inside a call and what a compiler makes of the code are not covered |
| C139 | M_Leak and M_LeakText (the hash functions and encoders with every memory access); S_LeakBounds: buffers, in_bounds, the local arrays of each call with their sizes | every event of the trace satisfies in_bounds: generic Forall rules for the monad, the rounds by a checked bound on each load, the block loop by induction, padding from the bound on the rest, then each function; holds for every run, also one that ends in UB |
| C140 | M_LeakKey (key functions with every access and library call); S_LeakBoundsKey: has_room, key_bounds, sizes of the structures and local arrays | every event of the trace satisfies key_bounds: the Forall rules of C139, one lemma per function; signing by induction on the number of attempts. The sizes the library needs are those of its header, stated in the specification |
| C141 | M_Leak, M_LeakText; S_LeakCover: reads, writes, exact_reads, exact_writes | upper bound from C139; lower bound: the loads of the rounds cover the block (checked on the list of rounds), block loop by induction, the rest by the copy to last_chunk; success from C72–C77 |

Nothing was found inexpressible. Branches and memory accesses of the C text are observed in C136–C141; real timing (caches, variable-time
division), what a compiler makes of the text, and compiler elision of `memset` are outside the model.

## 5. What is modelled and what is not

Modelled: every function in `src/` and every inline function of `include/`, except:
* `fingera_fatal` (src/error.c): the Windows calls are parameters (the message table, and errno and the last error at every moment: `win_env`), writes to stderr are taken to succeed, and errno is taken to be left alone by calls that succeed;
* `endian.h` is modelled for both byte orders in `M_Host`; the other models are little-endian. Descriptors and the Windows branches of
  `src/random.c` and `src/cleanse.c` are in `M_Sys`, threads in `M_Threads`, the signedness of `char` in `M_Char`, the width of `size_t` in
  `M_Width`; each of these varies one thing and leaves the others as in section 2;
* libsecp256k1: by interface only (record `secp`, laws `secp_laws`, which hold of the real curve, C126); contexts are
  abstract objects with a life time; the in-memory form of points and signatures is opaque (`M_KeyMem`: any layout that obeys `layout_laws`);
* effective-type (strict aliasing) rules; the transforms' word loads are taken to be byte loads (alignment: C104, C105 in `M_Overlap`);
* scalar locals and registers (M_Residue covers arrays only);
* asserts are active in all models but `M_Release`, which models the builds with `NDEBUG` (Release and RelWithDebInfo);
* `fingera_to_base58` for inputs whose scratch size exceeds INT_MAX is treated as undefined.

## 6. Assumptions

`Print Assumptions` follows every property theorem in the `P_*.v` files; each prints "Closed under the global context".
`vcheck` lists as library axioms only `Coq.ssr.ssrunder.Under_rel.*` (fields of a standard library module type, loaded with ssreflect;
no theorem here depends on them). No `Axiom`, `Parameter`, section-less `Variable`, functor, module type or disabled kernel check is used.

## 7. Findings: properties that fail in the code

Each is a theorem with suffix `_refuted` about the model of the existing code, next to the strongest part that holds
(`_partial`, or an exact characterisation).

* **C10 (zigzag round trip)**: False of the code at INT64_MIN (llabs overflow, undefined behaviour): refuted there, proved for every other int64.
* **C17 (base64 decoding is strict)**: Full strictness is false of the code ('=' inside, non-zero spare bits, dangling character): refuted by witnesses; the strictness that holds is proved, and what is accepted and what encodes back are characterised exactly (`C17_base64_exact`, `C17_base64_urlsafe_exact`).
* **C21 (raw base32 round trip)**: False of the code: the decoder scans past the buffer for '=' or NUL (refuted by witnesses); proved whenever memory has a NUL before any '='. The result for every memory is characterised exactly (`C22_decoders_exact`).
* **C22 (base32 decoding validates its input and honours str_len)**: False of the code: adjacent '=' changes the result, bytes >= 128 are undefined, tail characters are not validated (refuted by witnesses); the rest is proved, and what both decoders give for every memory, valid or not, is characterised exactly against `S_Base32Exact` (`C22_decoders_exact`).
* **C28 (base58 decoding stays inside the announced output size)**: False of the code (8 leading '1' already overflow the announced size): refuted; proved with at most three leading '1', and never more bytes than characters. Three is sharp: from four on some text overflows ("1111zzzzzzzzzzz" announces 12 bytes and writes 13).
* **C29 (base58 decoding honours str_len)**: False of the code (str_len is only used for the scratch size): refuted; what holds, independence of memory after the NUL, is proved.
* **C42 (witness v0 key-hash address round trip)**: Proved when the '='-scan of the uninitialised buffer ends at a NUL (always so if the hash has a zero 5-bit group); refuted in general: all-0xFF hash gives UB or a wrong rejection depending on stack contents. `C42_witness_keyhash_exact` (and `C43_…_exact`, `C44_…_exact`) give the exact condition on hash and scratch buffer for the round trip.
* **C43 (witness v0 script-hash address round trip)**: Proved when the '='-scan ends at a NUL and (mainnet only) the text is not also a Base58Check text; refuted by a concrete mainnet P2WSH address that is also a valid Base58Check text.
* **C44 (future witness address round trip)**: As C43, clash possible only for mainnet programs of 23 or 32 bytes; refuted by a concrete version 1 address.
* **C46 (address decoding respects the output capacity)**: Proved for texts not starting with 1111 (after white space) and NUL-terminated stack scan, together with definedness; refuted by the burn address. The scan for '=' past the decoded values (base32.c:188) also makes the call write up to 78 bytes of program into a buffer of the announced size (67 at most) when the uninitialised stack holds small values and then a '=' (`C46_stack_overrun_refuted`, for every witness address without a zero five-bit value); `C46_overrun_exact` is the equivalence.
* **C47 (address network separation)**: Base58 and v0 witness separation proved for all stacks; versions 1-16 proved except program lengths 35 (tb under mainnet) and 31 (bcrt under mainnet); refuted by a concrete bcrt address accepted as mainnet script address.
* **C48 (witness address decoding is strict (BIP-173))**: Canonically padded texts decode injectively (up to case); refuted: the decoder accepts BIP-173 invalid vectors with non-zero or over-long padding.
* **C49 (base58 address payload size)**: A base58 classification means Base58Check(prefix||payload), returned payload exact; refuted: payload size is not checked (empty payload accepted).
* **C50 (witness address decoding reads only initialised data)**: Independent of the buffer for non-witness texts, programs with a zero 5-bit group, and buffers on which the scan ends at a NUL; refuted in general.
* **C53 (WIF decoding stays inside its internal buffer)**: Full statement is false. Proved: no overrun when the text has at most 40 characters or decodes to at most 40 bytes. Refuted: every text that decodes to more than 40 bytes overruns (so 41 characters '1' do, for every network), and for secret prefixes of 5 to 8 bytes even the library's own WIF strings do.
* **C70 (extended key parsing stays inside its internal buffer)**: False of the code: any string decoding to more than 82 bytes overruns the buffer (e.g. 83 times '1'), and so do the library's own strings for version prefixes of 5 to 8 bytes. Proved: texts of at most 82 characters, or decoding to at most 82 bytes, are handled without undefined behaviour.
* **C71 (derivation depth)**: Depth + 1, child number and fingerprint proved below depth 255 and along any path; false at depth 255, where the code returns success with depth 0 instead of failing (C71_depth_wraps_refuted).
* **C80 (OS random bytes fill the whole buffer)**: Full statement is false. Proved: if the first read delivers everything, the buffer is exactly that data; in general each byte of the result is characterised (every read is written at offset 0). Refuted: after any short first read the last byte is left as it was; a concrete half-reader leaves the upper half untouched.
* **C86 (extended key strings: what is accepted)**: Acceptance is exactly Base58Check of the version bytes and 74 bytes (among texts decoding to at most 82 bytes, see C70), and refusal leaves the structure alone. Refuted part: the pad byte of a private key and key validity are not checked.
* **C93 (running out of memory)**: Holds (no malloc at all) up to 92 bytes to encode, 88 with checksum, 174 characters to decode; refuted beyond: DECLARE_BUFFER does not check malloc, the memset through NULL is undefined.
* **C96 (HMAC leaves nothing of the message or key)**: Holds for the message; refuted for the key: the padded key stays in `buffer` (and xored with constants in key_inner, key_outter) for every key.
* **C98 (chain codes leave no trace)**: Arrays of fingera_btc_key_derive itself are wiped; refuted: HMAC keeps the parent's chain code, and fingera_btc_pubkey_derive never wipes `out`.
* **C99 (key strings leave no trace of the key)**: Holds for writing strings and for accepted extended keys; refuted: fingera_btc_key_from_string never wipes its buffer (every accepted key is left), fingera_exkey_from_string wipes only on success. Scratch blocks are C91.
* **C101 (misuse stopped by assertions is refused in release builds)**: Wrong sizes are refused and invalid keys cannot be encoded, identified or derived from; refuted: signing with an invalid key returns an all-zero signature as if nothing had happened, hardened public derivation returns success, a base32 value of 32 writes a NUL, a second initialisation leaks two contexts for ever, Base58 decoding with a short length loses digits.
* **C103 (in-place derivation)**: `fingera_exkey_derive(&k, &k, ...)` calls `memcpy(k.key, k.key, 32)`, which C leaves undefined; under the reading that memcpy onto itself does nothing the result is right for every path. `fingera_expubkey_derive` in place is defined.
* **C105 (alignment)**: the digest is stored through `uint32_t *` / `uint64_t *` made from the caller's `void *`, and the length field through `*(uint64_t *)&last_chunk[56]` with `uint8_t last_chunk[64]`: undefined for misaligned addresses under the letter of the standard. Inputs are read with memcpy and may lie anywhere.
* **C107 (4 GiB on Windows)**: `BCryptGenRandom(hProvider, buf, buf_size, 0)` and `CryptGenRandom(hProvider, (DWORD)buf_size, ...)` take 32-bit lengths: for buf_size >= 4 GiB only buf_size mod 2^32 bytes are filled and the function returns as if all had been.
* **C108 (non-ASCII text)**: `isspace(*str)` (base58.c:76,90,110) and `decode_string[str[i]]` (base32.c:213-249) take a plain char: where it is signed, any byte of 128 or more that is reached is a negative argument or index, undefined behaviour, so user-supplied UTF-8 text is enough. With unsigned char the same text is rejected (base 58) or handled as invalid characters (base 32, with the weaknesses of C22).
* **C109 (32-bit builds)**: .travis.yml builds for 32 bits, where `buf_size * 138` (base58.h:25) wraps from 31122952 bytes and `str_len * 733` (base58.h:36) from 5859437 characters: the documented buffer size is then too small (2 bytes for a text of 5859437 '1's), and the capacity check of address decoding (address.c:145) is bypassed the same way, so a long text of '1's overflows any small output buffer. The encoder's own product (base58.c:39) overflows ptrdiff_t from 15561476 bytes.
* **C111 (concurrent init and uninit)**: the tests `secp256k1_context_verify == NULL` (key.c:334,336) and the assignments after them are not atomic: two threads that initialise at the same time can both pass, four contexts are created and two are lost; `fingera_btc_key_uninit` destroys the contexts without regard to calls in progress, which then use freed memory. There is a data race on both variables. The header does not mention threads.
* **C112 (last words)**: error.c:17,31 prints `strerror(errno)` whenever errno is nonzero, but `read` returning 0 (random.c:61-62) does not set errno, so the reason of some older failure is shown. `FINGERA_FATAL("BCryptOpenAlgorithmProvider %lu", (unsigned int)ret)` (random.c:21, also 25) passes an unsigned int where %lu wants an unsigned long: undefined, though harmless where both have 32 bits as on Windows.
* **C114 (inserted characters)**: the known weakness of the Bech32 checksum (q's before a final p) reaches the user for witness versions 1 to 16: `tb1pqqyq4tchmp` and `tb1pqqyq4tchmqp` are accepted as programs 0008 and 00080a. For version 0 BIP-173 relies on the strict length check, but `fingera_from_base32_raw` ignores incomplete groups (base32.c:199-202), so key hash addresses with 33, 35 or 38 values after the version are accepted as well.
* **C118 (wrong reader)**: pasting an extended key (`xprv...`, `xpub...`) into `fingera_btc_key_from_string` overruns its 40-byte stack buffer, for every key and network; so does about every fortieth witness script hash address (those without the characters `0` and `l`). Same cause as C53, reachable by an everyday user mistake.
* **C123 (last words on Windows)**: error.c:40 prints through `msg_buffer`, which is uninitialised when FormatMessageA has no message for the code (it returns 0, unchecked); random.c:21,25 pass an `unsigned int` to `%lu`, so from Vista on no failure of the random source reaches its error exit in a defined way.
* **C132 (in place).** fingera_exkey_encode/decode and fingera_expubkey_encode/decode called with the structure itself as the 74-byte buffer copy the chain code with memcpy between partly overlapping ranges, which is undefined, for every content.
* **C134 (output over input).** libsecp256k1 and `ec_privkey_import_der` clear their outputs first, so: `fingera_btc_key_decode`, `fingera_btc_pubkey_decode` and `fingera_btc_signature_decode` onto the start of their text always refuse and destroy the text; `fingera_btc_key_get_pub` over the secret and `fingera_btc_pubkey_encode` over the structure always abort; `fingera_btc_key_encode` over the key is undefined (memcpy of overlapping ranges) unless the key is already at its place. `fingera_btc_key_sign` with the signature over the hash is right if the first attempt has a low R and otherwise signs what that attempt left there: the caller gets a signature that is not one for the hash (`C134_sign_over_hash_refuted`).

## 8. Testing the theorems against wrong programs

`seeded/LOG.jsonl` records, for each edit of a model definition that a realistic bug would make, which theorem
stopped proving, and which theorems were tightened because an edit survived at first.

## 9. Running the model on the project's own vectors

The model is executable, so besides the proofs it was run (with `vm_compute`, outside the build) on the vectors of `/repo/tests`:
`validation/vectors.py` and `validation/curve_vectors.py` turn them into Coq files that print the number of checks and the failures.
All agree: base32 33, varint and zigzag 168, base58 30, hashes and HMAC 57, bech32 14 (and the decoded forms by eye), addresses and WIF 132,
base64 184, hex 22, extended keys (BIP-32 vectors) 70, and a deterministic signature on the real curve (RFC 6979, key 1, "Satoshi Nakamoto").
This is a test of the model, not of the theorems, and nothing in the proofs depends on it.
