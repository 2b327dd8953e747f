(** C102: the library computes the same on hosts of either byte order. *)
From Verif Require Import Base S_Words S_Secp S_Life S_Sha2 S_Sha1 S_Ripemd M_Endian M_Sha2 M_Sha1 M_Ripemd M_Hash M_Base58 M_Base58Check M_Address M_Random M_Secp M_Key M_Exkey
  M_Host L_Endian L_Secp L_Sha2Top L_Hash L_Host L_Host2 P_Der.

(** The readers and writers: memory decides the value, whatever the host's byte order. *)
Theorem C102_byte_order : forall h n bs rest v, bytes bs -> length bs = n ->
  h_read_big h n (bs ++ rest) = Ok (be_val bs) /\ h_read_little h n (bs ++ rest) = Ok (le_val bs) /\
  (forall old, length old = 4%nat -> h_write_big_32 h (old ++ rest) v = Ok (be_bytes 4 v ++ rest) /\ h_write_little_32 h (old ++ rest) v = Ok (le_bytes 4 v ++ rest)).
Proof.
  intros h n bs rest v B L.
  assert (S : slice (bs ++ rest) 0 n = Ok bs).
  { rewrite slice_ok by (rewrite app_length; lia). rewrite skipn_O, <- L, firstn_app, firstn_all, Nat.sub_diag. cbn [firstn]. now rewrite app_nil_r. }
  split; [unfold h_read_big; rewrite S; cbn [bind]; rewrite <- L, h_val_htobe by exact B; reflexivity|].
  split; [unfold h_read_little; rewrite S; cbn [bind]; rewrite <- L, h_val_htole by exact B; reflexivity|].
  intros old Lo. unfold h_write_big_32, h_write_little_32. rewrite h_bytes_htobe, h_bytes_htole.
  rewrite !store_ok by (rewrite ?be_bytes_length, ?le_bytes_length, app_length; lia). rewrite be_bytes_length, le_bytes_length.
  cbn [firstn app]. rewrite skipn_app, skipn_all2 by lia. replace (0 + 4 - length old)%nat with 0%nat by lia. rewrite skipn_O. auto.
Qed.
Print Assumptions C102_byte_order.

(** Every hash function, on every message (and every length argument, including those that read too far), returns on either
    host what it returns on a little-endian one. *)
Theorem C102_hashes : forall h msg n key klen chain child header data, bytes msg -> bytes key -> bytes chain -> bytes data ->
  h_sha1 h msg n = sha1 msg n /\ h_sha2_256 h msg n = sha2_256 msg n /\ h_sha2_512 h msg n = sha2_512 msg n /\ h_ripemd160 h msg n = ripemd160 msg n /\
  h_hmac_sha256 h key klen msg n = hmac_sha256 key klen msg n /\ h_hmac_sha512 h key klen msg n = hmac_sha512 key klen msg n /\
  h_btc_hash160 h msg n = btc_hash160 msg n /\ h_btc_hash256 h msg n = btc_hash256 msg n /\
  h_btc_bip32_hash h chain child header data = btc_bip32_hash chain child header data /\
  (forall out inp blocks, h_btc_hash256_d64 h msg out inp blocks = btc_hash256_d64 msg out inp blocks).
Proof.
  intros. split; [now apply h_sha1_eq|]. split; [now apply h_sha256_eq|]. split; [now apply h_sha512_eq|]. split; [now apply h_rmd_eq|].
  split; [now apply h_hmac256_eq|]. split; [now apply h_hmac512_eq|]. split; [now apply h_hash160_eq|]. split; [now apply h_hash256_eq|].
  split; [now apply h_bip32_eq|]. intros. now apply h_hash256_d64_eq.
Qed.
Print Assumptions C102_hashes.

(** So a big-endian host computes the standards' functions too. *)
Theorem C102_big_endian_standards : forall msg, bytes msg -> byte_len_ok (length msg) ->
  h_sha1 Big msg (length msg) = Ok (SHA1 msg) /\ h_sha2_256 Big msg (length msg) = Ok (SHA256 msg) /\
  h_sha2_512 Big msg (length msg) = Ok (SHA512 msg) /\ h_ripemd160 Big msg (length msg) = Ok (RIPEMD160 msg).
Proof.
  intros msg B L. rewrite h_sha1_eq, h_sha256_eq, h_sha512_eq, h_rmd_eq by exact B.
  rewrite L_Sha1.sha1_ok, sha2_256_ok, sha2_512_ok, L_Ripemd.ripemd160_ok by auto. rewrite firstn_all. auto.
Qed.
Print Assumptions C102_big_endian_standards.

(** Base58Check, keys, signatures, identifiers. *)
Theorem C102_keys : forall h E g key chain outk outc pub child fuel hash cmp P, secp_laws E -> ready g -> bytes key -> bytes chain -> bytes pub ->
  (forall buf prefix, bytes buf -> bytes prefix -> h_to_base58_check h buf prefix = to_base58_check buf prefix) /\
  (forall str len, h_from_base58_check h str len = from_base58_check str len) /\
  h_key_derive h E g key chain outk outc child = key_derive E g key chain outk outc child /\
  h_pubkey_derive h E g pub chain outk outc child = pubkey_derive E g pub chain outk outc child /\
  h_key_sign h fuel E g key hash = key_sign fuel E g key hash /\
  h_pubkey_keyid h E g P cmp = pubkey_keyid E g P cmp /\
  h_key_fingerprint h E g key cmp = key_fingerprint E g key cmp /\
  h_pubkey_fingerprint h pub = pubkey_fingerprint pub.
Proof.
  intros. split; [intros; now apply h_to58c_eq|]. split; [intros; apply h_from58c_eq|]. split; [now apply h_derive_eq|]. split; [now apply h_pubderive_eq|].
  split; [apply h_sign_eq|]. split; [now apply h_keyid_eq|]. split; [now apply h_fp_eq|now apply h_pubfp_eq].
Qed.
Print Assumptions C102_keys.

(** Extended keys: master keys, the 74-byte form and the strings can be exchanged between hosts. *)
Theorem C102_extended_keys : forall h key pub seed len code param str str_len, bytes seed -> bytes code ->
  bytes (x_chain_code (xk_ext key)) -> bytes (xk_key key) -> bytes (x_chain_code (xp_ext pub)) -> bytes (xp_c_pubkey pub) ->
  bytes (cp_ext_sec param) -> bytes (cp_ext_pub param) ->
  h_exkey_init h key seed len = exkey_init key seed len /\
  h_exkey_encode h key code = exkey_encode key code /\ h_exkey_decode h code key = exkey_decode code key /\
  h_expubkey_encode h pub code = expubkey_encode pub code /\ h_expubkey_decode h code pub = expubkey_decode code pub /\
  h_exkey_to_string h key param = exkey_to_string key param /\ h_exkey_from_string h str str_len key param = exkey_from_string str str_len key param /\
  h_expubkey_to_string h pub param = expubkey_to_string pub param /\ h_expubkey_from_string h str str_len pub param = expubkey_from_string str str_len pub param.
Proof.
  intros h key pub seed len code param str str_len Bs Bc. intros.
  split; [now apply h_exinit_eq|]. split; [apply h_exenc_eq|]. split; [apply h_exdec_eq; unfold init_to; now apply bytes_firstn|].
  split; [apply h_expenc_eq|]. split; [apply h_expdec_eq; unfold init_to; now apply bytes_firstn|].
  split; [now apply h_exstr_eq|]. split; [apply h_exfrom_eq|]. split; [now apply h_expstr_eq|apply h_expfrom_eq].
Qed.
Print Assumptions C102_extended_keys.

(** Concrete cases: the two hosts keep the same integer differently, and read the same bytes alike. *)
Example host_memory : h_bytes Little 4 0x01020304 = [4; 3; 2; 1] /\ h_bytes Big 4 0x01020304 = [1; 2; 3; 4].
Proof. split; reflexivity. Qed.
Example host_read : h_read_big Little 4 [1; 2; 3; 4; 5] = Ok 0x01020304 /\ h_read_big Big 4 [1; 2; 3; 4; 5] = Ok 0x01020304 /\
  h_read_little Little 4 [1; 2; 3; 4; 5] = Ok 0x04030201 /\ h_read_little Big 4 [1; 2; 3; 4; 5] = Ok 0x04030201.
Proof. repeat split; reflexivity. Qed.
(** SHA-256 of "abc" and RIPEMD-160 of "" on a big-endian host *)
Example host_sha256 : h_sha2_256 Big [97; 98; 99] 3 = Ok (be_bytes 32 0xba7816bf8f01cfea414140de5dae2223b00361a396177a9cb410ff61f20015ad).
Proof. vm_compute. reflexivity. Qed.
Example host_rmd : h_ripemd160 Big [] 0 = Ok (be_bytes 20 0x9c1185a5c5e9fc54612808977ee8f548b2258d31).
Proof. vm_compute. reflexivity. Qed.
