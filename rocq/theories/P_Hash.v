(** Property theorems C72-C79, C84: hash functions. *)
From Verif Require Import Base M_Endian S_Words S_Sha2 S_Sha1 S_Ripemd M_Sha2 M_Sha1 M_Ripemd M_Hash
  L_Endian L_Sha2Top L_D64 L_Sha1 L_Ripemd L_Hash.

(** C72 *)
Theorem C72_sha1 : forall msg rest, bytes (msg ++ rest) -> Z.of_nat (length msg) < 2 ^ 61 ->
  sha1 (msg ++ rest) (length msg) = Ok (SHA1 msg) /\ length (SHA1 msg) = 20%nat.
Proof.
  intros msg rest Hb Hl. split; [|apply SHA1_length]. rewrite sha1_ok; auto; [|rewrite app_length; lia].
  now rewrite firstn_app_exact.
Qed.
Print Assumptions C72_sha1.

(** C73 *)
Theorem C73_sha256 : forall msg rest, bytes (msg ++ rest) -> Z.of_nat (length msg) < 2 ^ 61 ->
  sha2_256 (msg ++ rest) (length msg) = Ok (SHA256 msg) /\ length (SHA256 msg) = 32%nat.
Proof.
  intros msg rest Hb Hl. split; [|apply SHA256_length]. rewrite sha2_256_ok; auto; [|rewrite app_length; lia].
  now rewrite firstn_app_exact.
Qed.
Print Assumptions C73_sha256.

(** C74 *)
Theorem C74_sha512 : forall msg rest, bytes (msg ++ rest) -> Z.of_nat (length msg) < 2 ^ 61 ->
  sha2_512 (msg ++ rest) (length msg) = Ok (SHA512 msg) /\ length (SHA512 msg) = 64%nat.
Proof.
  intros msg rest Hb Hl. split; [|apply SHA512_length]. rewrite sha2_512_ok; auto; [|rewrite app_length; lia].
  now rewrite firstn_app_exact.
Qed.
Print Assumptions C74_sha512.

(** C75 *)
Theorem C75_ripemd160 : forall msg rest, bytes (msg ++ rest) -> Z.of_nat (length msg) < 2 ^ 61 ->
  ripemd160 (msg ++ rest) (length msg) = Ok (RIPEMD160 msg) /\ length (RIPEMD160 msg) = 20%nat.
Proof.
  intros msg rest Hb Hl. split; [|apply RIPEMD160_length]. rewrite ripemd160_ok; auto; [|rewrite app_length; lia].
  now rewrite firstn_app_exact.
Qed.
Print Assumptions C75_ripemd160.

(** C76: keys of every length. *)
Theorem C76_hmac_sha256 : forall key krest msg mrest, bytes (key ++ krest) -> bytes (msg ++ mrest) ->
  Z.of_nat (length key) < 2 ^ 61 -> Z.of_nat (length msg) + 64 < 2 ^ 61 ->
  hmac_sha256 (key ++ krest) (length key) (msg ++ mrest) (length msg) = Ok (hmac SHA256 64 key msg).
Proof.
  intros key kr msg mr Hk Hm Lk Lm. rewrite hmac_sha256_ok; auto; try (rewrite app_length; lia);
    try (unfold byte_len_ok; lia). now rewrite !firstn_app_exact.
Qed.
Print Assumptions C76_hmac_sha256.

(** C77 *)
Theorem C77_hmac_sha512 : forall key krest msg mrest, bytes (key ++ krest) -> bytes (msg ++ mrest) ->
  Z.of_nat (length key) < 2 ^ 61 -> Z.of_nat (length msg) + 128 < 2 ^ 61 ->
  hmac_sha512 (key ++ krest) (length key) (msg ++ mrest) (length msg) = Ok (hmac SHA512 128 key msg).
Proof.
  intros key kr msg mr Hk Hm Lk Lm. rewrite hmac_sha512_ok; auto; try (rewrite app_length; lia);
    try (unfold byte_len_ok; lia). now rewrite !firstn_app_exact.
Qed.
Print Assumptions C77_hmac_sha512.

(** C78 *)
Theorem C78_hash256 : forall msg rest, bytes (msg ++ rest) -> Z.of_nat (length msg) < 2 ^ 61 ->
  btc_hash256 (msg ++ rest) (length msg) = Ok (SHA256 (SHA256 msg)) /\ length (SHA256 (SHA256 msg)) = 32%nat.
Proof.
  intros msg rest Hb Hl. split; [|apply SHA256_length]. rewrite hash256_ok; auto; [|rewrite app_length; lia].
  now rewrite firstn_app_exact.
Qed.
Print Assumptions C78_hash256.
Theorem C78_hash160 : forall msg rest, bytes (msg ++ rest) -> Z.of_nat (length msg) < 2 ^ 61 ->
  btc_hash160 (msg ++ rest) (length msg) = Ok (RIPEMD160 (SHA256 msg)) /\ length (RIPEMD160 (SHA256 msg)) = 20%nat.
Proof.
  intros msg rest Hb Hl. split; [|apply RIPEMD160_length]. rewrite hash160_ok; auto; [|rewrite app_length; lia].
  now rewrite firstn_app_exact.
Qed.
Print Assumptions C78_hash160.

(** C79: [mem] contains the input blocks at address [inp] and the output area at
    address [out]; the two areas are disjoint, or the output starts at or below
    the input (in particular in-place use, out = inp).  The output area receives
    the double SHA-256 of each original input block and nothing else changes. *)
Theorem C79_hash256_d64 : forall mem out inp blocks, bytes mem ->
  (out + 32 * blocks <= length mem)%nat -> (inp + 64 * blocks <= length mem)%nat ->
  (out <= inp \/ inp + 64 * blocks <= out)%nat ->
  btc_hash256_d64 mem out inp blocks =
    Ok (firstn out mem
        ++ concat (map (fun block => SHA256 (SHA256 block)) (chunks 64 (firstn (64 * blocks) (skipn inp mem))))
        ++ skipn (out + 32 * blocks) mem).
Proof. intros. now apply d64_ok. Qed.
Print Assumptions C79_hash256_d64.

(** Against the library's own generic function: one block. *)
Theorem C79_d64_is_hash256 : forall block mem, bytes block -> bytes mem -> length block = 64%nat -> length mem = 32%nat ->
  exists d, btc_hash256 block 64 = Ok d /\ btc_hash256_d64 (mem ++ block) 0 32 1 = Ok (d ++ block).
Proof.
  intros block mem Hb Hm Lb Lm. exists (SHA256 (SHA256 block)). split.
  - rewrite hash256_ok by (auto; try lia; unfold byte_len_ok; lia). rewrite firstn_exact by exact Lb. reflexivity.
  - rewrite C79_hash256_d64; try (rewrite app_length; lia); [|now apply bytes_app|lia].
    replace (skipn (0 + 32 * 1) (mem ++ block)) with block by (change (0 + 32 * 1)%nat with 32%nat; rewrite <- Lm; now rewrite skipn_app_exact).
    replace (skipn 32 (mem ++ block)) with block by (rewrite <- Lm; now rewrite skipn_app_exact).
    change (64 * 1)%nat with 64%nat. rewrite (firstn_exact 64 block) by exact Lb. rewrite L_Md.chunks_one by lia.
    cbn [firstn app map concat]. rewrite app_nil_r. reflexivity.
Qed.
Print Assumptions C79_d64_is_hash256.

(** C84: the BIP32 hash. *)
Theorem C84_bip32_hash : forall chain crest child header data drest,
  bytes (chain ++ crest) -> bytes (data ++ drest) -> length chain = 32%nat -> length data = 32%nat ->
  0 <= header < 256 ->
  btc_bip32_hash (chain ++ crest) child header (data ++ drest) =
    Ok (hmac SHA512 128 chain ([header] ++ data ++ be_bytes 4 child)).
Proof.
  intros chain cr child header data dr Hc Hd Lc Ld Hh.
  rewrite bip32_hash_ok; auto; try (rewrite app_length; lia).
  replace (firstn 32 (chain ++ cr)) with chain by (rewrite <- Lc; now rewrite firstn_app_exact).
  replace (firstn 32 (data ++ dr)) with data by (rewrite <- Ld; now rewrite firstn_app_exact).
  now rewrite Z.mod_small by lia.
Qed.
Print Assumptions C84_bip32_hash.

(** Non-vacuity and sanity: published vectors. *)
Definition abc : list Z := [97; 98; 99].
Lemma bytes_abc : bytes (abc ++ [0]).
Proof. unfold bytes, is_byte, abc. cbn [app]. repeat (apply Forall_cons; [lia|]). apply Forall_nil. Qed.
Definition hexval (l : list Z) : Z := be_val l.
Example C72_ex : hexval (SHA1 abc) = 0xa9993e364706816aba3e25717850c26c9cd0d89d /\ sha1 (abc ++ [0]) 3 = Ok (SHA1 abc).
Proof. split; [vm_compute; reflexivity|]. apply (C72_sha1 abc [0] bytes_abc). vm_compute. reflexivity. Qed.
Example C73_ex : hexval (SHA256 abc) = 0xba7816bf8f01cfea414140de5dae2223b00361a396177a9cb410ff61f20015ad
  /\ sha2_256 (abc ++ [0]) 3 = Ok (SHA256 abc).
Proof. split; [vm_compute; reflexivity|]. apply (C73_sha256 abc [0] bytes_abc). vm_compute. reflexivity. Qed.
Example C74_ex : hexval (SHA512 abc) = 0xddaf35a193617abacc417349ae20413112e6fa4e89a97ea20a9eeee64b55d39a2192992a274fc1a836ba3c23a3feebbd454d4423643ce80e2a9ac94fa54ca49f.
Proof. vm_compute. reflexivity. Qed.
Example C75_ex : hexval (RIPEMD160 abc) = 0x8eb208f7e05d987a9b044a8e98c6b087f15a0bfc.
Proof. vm_compute. reflexivity. Qed.
(** RFC 4231 test case 2: key "Jefe", text "what do ya want for nothing?" *)
Definition jefe : list Z := [74; 101; 102; 101].
Definition what : list Z := [119;104;97;116;32;100;111;32;121;97;32;119;97;110;116;32;102;111;114;32;110;111;116;104;105;110;103;63].
Example C76_ex : hexval (hmac SHA256 64 jefe what) = 0x5bdcc146bf60754e6a042426089575c75a003f089d2739839dec58b964ec3843.
Proof. vm_compute. reflexivity. Qed.
Lemma bytes_seq k n : (k + n <= 256)%nat -> bytes (map Z.of_nat (seq k n)).
Proof.
  intros H. apply Forall_forall. intros x Hx. apply in_map_iff in Hx as (i & <- & Hi). apply in_seq in Hi.
  unfold is_byte. lia.
Qed.
Example C77_ex : hmac_sha512 (map Z.of_nat (seq 0 200) ++ []) 200 (map Z.of_nat (seq 9 5) ++ [1]) 5
  = Ok (hmac SHA512 128 (map Z.of_nat (seq 0 200)) (map Z.of_nat (seq 9 5))).
Proof.
  apply (C77_hmac_sha512 (map Z.of_nat (seq 0 200)) [] (map Z.of_nat (seq 9 5)) [1]).
  - apply bytes_app. split; [apply bytes_seq; lia|constructor].
  - apply bytes_app. split; [apply bytes_seq; lia|]. apply bytes_cons. split; [unfold is_byte; lia|constructor].
  - rewrite map_length, seq_length. reflexivity.
  - rewrite map_length, seq_length. reflexivity.
Qed.
(** Three blocks hashed in place in a 192-byte memory. *)
Example C79_ex : exists r, btc_hash256_d64 (map Z.of_nat (seq 0 192)) 0 0 3 = Ok r.
Proof.
  eexists. apply C79_hash256_d64; [apply bytes_seq; lia| | |left; lia]; rewrite map_length, seq_length; lia.
Qed.
Example C84_ex : btc_bip32_hash (map Z.of_nat (seq 0 32) ++ []) 0x80000001 0 (map Z.of_nat (seq 7 32) ++ [])
  = Ok (hmac SHA512 128 (map Z.of_nat (seq 0 32)) ([0] ++ map Z.of_nat (seq 7 32) ++ [128; 0; 0; 1])).
Proof.
  change [128; 0; 0; 1] with (be_bytes 4 0x80000001).
  apply C84_bip32_hash; try (rewrite map_length, seq_length; reflexivity); try lia; rewrite app_nil_r; apply bytes_seq; lia.
Qed.
