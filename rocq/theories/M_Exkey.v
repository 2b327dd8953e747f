(** Model of src/btc/exkey.c and include/fingera_libc/btc/exkey.h. *)
From Verif Require Import Base M_Endian M_Sha2 M_Hash M_Base58Check M_Address M_Random M_Secp M_Key.

(** exkey.h:20 *)
Definition BIP32_EXTKEY_SIZE : nat := 74.
(** exkey.h:22-27 *)
Record ex_extension := mkExt { x_depth : Z; x_fingerprint : Z; x_child : Z; x_chain_code : list Z }.
(** exkey.h:29-32 *)
Record ex_pubkey := mkExPub { xp_ext : ex_extension; xp_c_pubkey : list Z }.
(** exkey.h:34-37 *)
Record ex_key := mkExKey { xk_ext : ex_extension; xk_key : list Z }.

(** exkey.c:11-12: "Bitcoin seed" *)
Definition hashkey : list Z := [66; 105; 116; 99; 111; 105; 110; 32; 115; 101; 101; 100].

(** exkey.c:10-22; [seed] is the readable memory; [key] the structure before the call *)
Definition exkey_init (key : ex_key) (seed : list Z) (len : nat) : res ex_key :=
  out <- hmac_sha512 hashkey 12 seed len ;;
  k <- slice out 0 32 ;;
  nk <- store (xk_key key) 0 k ;;
  c <- slice out 32 32 ;;
  nc <- store (x_chain_code (xk_ext key)) 0 c ;;
  _ <- cleanse out 0 64 ;;
  Ok (mkExKey (mkExt 0 0 0 nc) nk).

(** exkey.c:24-34: return value and *derived afterwards *)
Definition exkey_derive (E : secp) (g : globals) (key derived : ex_key) (child fingerprint : Z) : res (bool * ex_key) :=
  '(r, k, c) <- key_derive E g (xk_key key) (x_chain_code (xk_ext key)) (xk_key derived) (x_chain_code (xk_ext derived)) child ;;
  if r : bool then
    Ok (r, mkExKey (mkExt (u8 (x_depth (xk_ext key) + 1)) fingerprint child c) k)
  else
    let e := xk_ext derived in Ok (r, mkExKey (mkExt (x_depth e) (x_fingerprint e) (x_child e) c) k).

(** exkey.c:36-47 *)
Definition expubkey_derive (E : secp) (g : globals) (pubkey derived : ex_pubkey) (child fingerprint : Z) : res (bool * ex_pubkey) :=
  '(r, p, c) <- pubkey_derive E g (xp_c_pubkey pubkey) (x_chain_code (xp_ext pubkey)) (xp_c_pubkey derived) (x_chain_code (xp_ext derived)) child ;;
  if negb r then
    let e := xp_ext derived in Ok (false, mkExPub (mkExt (x_depth e) (x_fingerprint e) (x_child e) c) p)
  else Ok (true, mkExPub (mkExt (u8 (x_depth (xp_ext pubkey) + 1)) fingerprint child c) p).

(** exkey.c:49-57; [pubkey] is the structure before the call *)
Definition exkey_get_pub (E : secp) (g : globals) (key : ex_key) (pubkey : ex_pubkey) : res ex_pubkey :=
  pub <- key_get_pub E g (xk_key key) ;;
  '(r, c) <- pubkey_encode E g pub (xp_c_pubkey pubkey) (length (xp_c_pubkey pubkey)) ;;
  _ <- c_assert r ;;
  Ok (mkExPub (xk_ext key) c).

(** [code + off] as the argument of a writer: the memory from [off] on is replaced by what the writer leaves. *)
(** src/btc/exkey.c:62-63 *)
Definition write_at (mem : list Z) (off : nat) (w : list Z -> res (list Z)) : res (list Z) :=
  tl <- w (skipn off mem) ;; Ok (firstn off mem ++ tl).

(** exkey.c:59-66 *)
Definition write_key_extension (ext : ex_extension) (code : list Z) : res (list Z) :=
  code <- store code 0 [u8 (x_depth ext)] ;;
  code <- write_at code 1 (fun m => write_little_32 m (x_fingerprint ext)) ;;
  code <- write_at code 5 (fun m => write_big_32 m (x_child ext)) ;;
  c <- slice (x_chain_code ext) 0 32 ;;
  store code 9 c.

(** exkey.c:68-75; [ext] is the structure before the call *)
Definition read_key_extension (code : list Z) (ext : ex_extension) : res ex_extension :=
  d <- rd code 0 ;;
  f <- read_little_32 (skipn 1 code) ;;
  c <- read_big_32 (skipn 5 code) ;;
  cc <- slice code 9 32 ;;
  cc <- store (x_chain_code ext) 0 cc ;;
  Ok (mkExt d f c cc).

(** exkey.c:77-82 *)
Definition exkey_encode (key : ex_key) (extkey74 : list Z) : res (list Z) :=
  code <- write_key_extension (xk_ext key) extkey74 ;;
  code <- store code 41 [0] ;;
  k <- slice (xk_key key) 0 32 ;;
  store code 42 k.

(** exkey.c:84-88 *)
Definition exkey_decode (extkey74 : list Z) (key : ex_key) : res ex_key :=
  ext <- read_key_extension extkey74 (xk_ext key) ;;
  k <- slice extkey74 42 32 ;;
  k <- store (xk_key key) 0 k ;;
  Ok (mkExKey ext k).

(** exkey.h:54-56 *)
Definition exkey_string_max_length : nat := to_base58_check_length BIP32_EXTKEY_SIZE 8.

(** exkey.c:90-99: return value and characters written *)
Definition exkey_to_string (key : ex_key) (param : chain_parameters) : res (nat * list Z) :=
  extkey <- exkey_encode key (uninit BIP32_EXTKEY_SIZE) ;;
  r <- to_base58_check extkey (cp_ext_sec param) ;;
  _ <- cleanse extkey 0 BIP32_EXTKEY_SIZE ;;
  Ok r.

(** exkey.c:101-116: return value and *key afterwards *)
Definition exkey_from_string (str : list Z) (str_len : nat) (key : ex_key) (param : chain_parameters) : res (Z * ex_key) :=
  let extkey := uninit (BIP32_EXTKEY_SIZE + 8) in
  _ <- c_assert (length (cp_ext_sec param) <=? 8)%nat ;;
  '(size, out) <- from_base58_check str str_len ;;
  extkey <- store extkey 0 out ;;
  _ <- c_assert (size <=? BIP32_EXTKEY_SIZE + 8)%nat ;;
  if (size <=? BIP32_EXTKEY_SIZE)%nat || (BIP32_EXTKEY_SIZE + 8 <? size)%nat then Ok (0, key) else
  let prefix_size := (size - BIP32_EXTKEY_SIZE)%nat in
  if negb (prefix_size =? length (cp_ext_sec param))%nat then Ok (0, key) else
  p <- slice extkey 0 prefix_size ;;
  if negb (bytes_eqb p (cp_ext_sec param)) then Ok (0, key) else
  key <- exkey_decode (skipn prefix_size extkey) key ;;
  _ <- cleanse extkey 0 (BIP32_EXTKEY_SIZE + 8) ;;
  Ok (1, key).

(** exkey.c:118-122 *)
Definition expubkey_encode (pubkey : ex_pubkey) (extkey74 : list Z) : res (list Z) :=
  code <- write_key_extension (xp_ext pubkey) extkey74 ;;
  p <- slice (xp_c_pubkey pubkey) 0 33 ;;
  store code 41 p.

(** exkey.c:124-128 *)
Definition expubkey_decode (extkey74 : list Z) (pubkey : ex_pubkey) : res ex_pubkey :=
  ext <- read_key_extension extkey74 (xp_ext pubkey) ;;
  p <- slice extkey74 41 33 ;;
  p <- store (xp_c_pubkey pubkey) 0 p ;;
  Ok (mkExPub ext p).

(** exkey.c:130-138 *)
Definition expubkey_to_string (pubkey : ex_pubkey) (param : chain_parameters) : res (nat * list Z) :=
  extkey <- expubkey_encode pubkey (uninit BIP32_EXTKEY_SIZE) ;;
  to_base58_check extkey (cp_ext_pub param).

(** exkey.c:139-153 *)
Definition expubkey_from_string (str : list Z) (str_len : nat) (pub : ex_pubkey) (param : chain_parameters) : res (Z * ex_pubkey) :=
  let extkey := uninit (BIP32_EXTKEY_SIZE + 8) in
  _ <- c_assert (length (cp_ext_pub param) <=? 8)%nat ;;
  '(size, out) <- from_base58_check str str_len ;;
  extkey <- store extkey 0 out ;;
  _ <- c_assert (size <=? BIP32_EXTKEY_SIZE + 8)%nat ;;
  if (size <=? BIP32_EXTKEY_SIZE)%nat || (BIP32_EXTKEY_SIZE + 8 <? size)%nat then Ok (0, pub) else
  let prefix_size := (size - BIP32_EXTKEY_SIZE)%nat in
  if negb (prefix_size =? length (cp_ext_pub param))%nat then Ok (0, pub) else
  p <- slice extkey 0 prefix_size ;;
  if negb (bytes_eqb p (cp_ext_pub param)) then Ok (0, pub) else
  pub <- expubkey_decode (skipn prefix_size extkey) pub ;;
  Ok (1, pub).
