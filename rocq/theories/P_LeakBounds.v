(** C139: the hash functions touch nothing but the buffers they are given and their own local arrays. *)
From Verif Require Import Base M_Endian M_Sha2 M_Sha1 M_Ripemd M_Hash M_Hex M_Base58 M_Address M_Random M_Key M_Leak M_LeakText S_Leak S_LeakBounds L_Leak L_LeakBounds L_LeakBoundsText.

Ltac rd_ := apply ib_read; cbn; tauto.
Ltac wr_ := apply ib_write; cbn; tauto.
Ltac loc := apply ib_rw; cbn; tauto.
Ltac any := first [exact (ib_test _ _ _) | rd_ | wr_ | loc].

(** Plain hashes: reads only the [n] bytes of the message, writes only the bytes of the digest; every other access is to a local
    array and inside it.  For every message, also one that is shorter in memory than announced. *)
Theorem C139_hashes : forall p out msg n,
  Forall (in_bounds [(p, n)] [(out, 20%nat)] locals_160) (trace (sha1_l p out msg n)) /\
  Forall (in_bounds [(p, n)] [(out, 20%nat)] locals_160) (trace (ripemd160_l p out msg n)) /\
  Forall (in_bounds [(p, n)] [(out, 32%nat)] locals_sha256) (trace (sha2_256_l p out msg n)) /\
  Forall (in_bounds [(p, n)] [(out, 64%nat)] locals_sha512) (trace (sha2_512_l p out msg n)).
Proof.
  intros. split; [|split; [|split]].
  - apply F_sha1_l; any.
  - apply F_ripemd160_l; any.
  - apply F_sha2_256; any.
  - apply F_sha2_512; any.
Qed.
Print Assumptions C139_hashes.

(** HMAC: in addition the bytes of the key are read. *)
Theorem C139_hmac : forall pk p out key kn msg n,
  Forall (in_bounds [(pk, kn); (p, n)] [(out, 32%nat)] locals_hmac256) (trace (hmac_sha256_l pk p out key kn msg n)) /\
  Forall (in_bounds [(pk, kn); (p, n)] [(out, 64%nat)] locals_hmac512) (trace (hmac_sha512_l pk p out key kn msg n)).
Proof. intros. split; [apply F_hmac256; any|apply F_hmac512; any]. Qed.
Print Assumptions C139_hmac.

(** The BIP-32 hash: 32 bytes of chain code, 32 bytes of data, 64 bytes of result. *)
Theorem C139_bip32 : forall pc pd out cc child header data,
  Forall (in_bounds [(pc, 32%nat); (pd, 32%nat)] [(out, 64%nat)] (local Bip32Buffer 37 :: locals_hmac512)) (trace (btc_bip32_hash_l pc pd out cc child header data)).
Proof. intros. apply F_bip32; any. Qed.
Print Assumptions C139_bip32.

(** The hash of 64-byte blocks: 64 bytes per block in, 32 bytes per block out, no local array at all. *)
Theorem C139_d64 : forall o mem out inp blocks,
  Forall (in_bounds [((o, inp), (64 * blocks)%nat)] [((o, out), (32 * blocks)%nat)] []) (trace (btc_hash256_d64_l o mem out inp blocks)).
Proof. intros. apply F_d64_loop; any. Qed.
Print Assumptions C139_d64.

(** hash160 and hash256: one more local array. *)
Theorem C139_hash160_hash256 : forall p out msg n,
  Forall (in_bounds [(p, n)] [(out, 20%nat)] (local Sha2Digest 32 :: [local Digest 32; local LastChunk 64])) (trace (btc_hash160_l p out msg n)) /\
  Forall (in_bounds [(p, n)] [(out, 32%nat)] (local Sha2Digest 32 :: locals_sha256)) (trace (btc_hash256_l p out msg n)).
Proof.
  intros. split.
  - apply F_bind; [apply F_sha2_256; any|]. intros d _.
    assert (R : can_read (in_bounds [(p, n)] [(out, 20%nat)] (local Sha2Digest 32 :: locals_sha256)) (Digest, 0%nat) 20) by (apply (can_read_le _ _ 32); [any|lia]).
    assert (W : can_write (in_bounds [(p, n)] [(out, 20%nat)] (local Sha2Digest 32 :: locals_sha256)) (Digest, 0%nat) 20) by (apply (can_write_le _ _ 32); [any|lia]).
    apply F_ripemd160_l; try assumption; any.
  - apply F_bind; [apply F_sha2_256; any|]. intros d _. apply F_sha2_256; any.
Qed.
Print Assumptions C139_hash160_hash256.

(** Text.  Hexadecimal: two characters per byte, and the 16 characters of the table. *)
Theorem C139_hex : forall p str buf upper, Forall is_byte buf ->
  Forall (in_bounds [(p, length buf); local HexTable 16] [(str, (2 * length buf)%nat)] []) (fst (to_hex_l p str buf upper)).
Proof. intros. apply F_to_hex; try assumption; any. Qed.
Print Assumptions C139_hex.

(** Base58: at most [n * 138 / 100 + 1] characters of text are written, and so many bytes of scratch area are used. *)
Definition b58_size (n : nat) : nat := (n * 138 / 100 + 1)%nat.
Theorem C139_base58 : forall p str buf,
  Forall (in_bounds [(p, length buf); local Base58Table 58] [(str, b58_size (length buf))] [local B58 (b58_size (length buf))]) (trace (to_base58_l p str buf)).
Proof. intros. apply F_b58; any. Qed.
Print Assumptions C139_base58.

(** Base58Check: prefix, data and four bytes of checksum in a local buffer. *)
Definition locals_check (all : nat) : list buffer :=
  [local CheckBuffer all; local CheckHash 32; local Sha2Digest 32; local B58 (b58_size all)] ++ locals_sha256.
Theorem C139_base58_check : forall pb pp str buf prefix,
  let all := (length buf + length prefix + 4)%nat in
  Forall (in_bounds [(pb, length buf); (pp, length prefix); local Base58Table 58] [(str, b58_size all)] (locals_check all)) (trace (to_base58_check_l pb pp str buf prefix)).
Proof. intros. apply (F_check _ (ib_test _ _ _) pb pp str buf prefix all); [reflexivity|any..]. Qed.
Print Assumptions C139_base58_check.

(** The text of a private key: 32 bytes of key and the prefix are read; 33 bytes more of local buffer if compressed. *)
Theorem C139_key_to_string : forall pk str key (compressed : bool) param,
  let all := ((if compressed then 33 else 32) + length (cp_secret param) + 4)%nat in
  Forall (in_bounds [(pk, 32%nat); local Prefix (length (cp_secret param)); local Base58Table 58] [(str, b58_size all)] (local Buf33 33 :: locals_check all))
    (trace (key_to_string_l pk str key compressed param)).
Proof.
  intros. assert (Ea : all = ((if compressed then 33 else 32) + length (cp_secret param) + 4)%nat) by reflexivity. clearbody all.
  unfold key_to_string_l, trace. apply F_step; [apply Forall_cons; [apply ib_test|constructor]|].
  assert (B : rw (in_bounds [(pk, 32%nat); local Prefix (length (cp_secret param)); local Base58Table 58] [(str, b58_size all)] (local Buf33 33 :: locals_check all)) Buf33 33) by any.
  destruct compressed.
  - cbv zeta. apply F_step; [apply Forall_cons; [apply (can_read0 _ pk 32); [any|lia]|apply Forall_cons; [apply (rw_write _ Buf33 33); [exact B|lia]|constructor]]|].
    apply F_pure. intros k _. apply F_pure. intros b1 E1. apply store_length in E1.
    apply F_step; [apply Forall_cons; [apply (rw_write _ Buf33 33); [exact B|lia]|constructor]|].
    apply F_pure. intros b2 E2. apply store_length in E2. assert (L : length b2 = 33%nat) by (rewrite E2, E1; apply repeat_length).
    apply F_bind; [apply (F_check _ (ib_test _ _ _) (Buf33, 0%nat) (Prefix, 0%nat) str b2 (cp_secret param) all); rewrite ?L; [exact Ea|exact (proj1 B)|any..]|].
    intros r _. apply F_step; [apply Forall_cons; [apply (rw_write _ Buf33 33); [exact B|lia]|constructor]|]. apply F_pure. intros _ _. constructor.
  - apply F_pure. intros k E. assert (L : length k = 32%nat).
    { unfold slice in E. destruct (Nat.leb_spec (0 + 32) (length key)); [|discriminate]. apply (f_equal (fun r => match r with Ok x => length x | _ => 32%nat end)) in E. cbv beta iota in E. rewrite firstn_length, skipn_length in E. lia. }
    apply (F_check _ (ib_test _ _ _) pk (Prefix, 0%nat) str k (cp_secret param) all); rewrite ?L; [exact Ea|any..].
Qed.
Print Assumptions C139_key_to_string.

(** The specification does reject: a read that crosses the end of the message, a write to the message, a write after the end of a local
    array. *)
Example C139_rejects :
  ~ in_bounds [((Msg, 8%nat), 3%nat)] [((Out, 0%nat), 20%nat)] locals_160 (Read Msg 10 2) /\
  ~ in_bounds [((Msg, 8%nat), 3%nat)] [((Out, 0%nat), 20%nat)] locals_160 (Write Msg 8 1) /\
  ~ in_bounds [((Msg, 8%nat), 3%nat)] [((Out, 0%nat), 20%nat)] locals_160 (Write LastChunk 60 8).
Proof.
  repeat split; cbn; intros H; repeat (apply Exists_cons in H; destruct H as [H|H]; [unfold within in H; cbn in H; destruct H as (? & ? & ?); (discriminate || lia)|]); inversion H.
Qed.
