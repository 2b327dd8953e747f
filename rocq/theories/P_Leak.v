(** C136, C137: what the running time and the memory accesses of the code reveal. *)
From Verif Require Import Base M_Endian M_Sha2 M_Sha1 M_Ripemd M_Hash M_Hex M_Base58 M_Base58Check M_Address M_Random M_Key M_Leak M_LeakText
  S_Words S_Sha2 S_Base58 S_Base58Check S_Address S_Key S_Leak L_Endian L_Base58 L_Base58Check L_Address L_Leak L_LeakText P_Wif.

(** The observed runs are runs of the code: their outcome is that of the models the other theorems are about. *)
Theorem C136_observed_runs : forall p q out msg n key kn mem o i blocks obj cc child header data,
  outcome (sha1_l p out msg n) = sha1 msg n /\
  outcome (ripemd160_l p out msg n) = ripemd160 msg n /\
  outcome (sha2_256_l p out msg n) = sha2_256 msg n /\
  outcome (sha2_512_l p out msg n) = sha2_512 msg n /\
  outcome (hmac_sha256_l q p out key kn msg n) = hmac_sha256 key kn msg n /\
  outcome (hmac_sha512_l q p out key kn msg n) = hmac_sha512 key kn msg n /\
  outcome (btc_hash160_l p out msg n) = btc_hash160 msg n /\
  outcome (btc_hash256_l p out msg n) = btc_hash256 msg n /\
  outcome (btc_hash256_d64_l obj mem o i blocks) = btc_hash256_d64 mem o i blocks /\
  outcome (btc_bip32_hash_l q p out cc child header data) = btc_bip32_hash cc child header data.
Proof.
  intros. unfold outcome.
  split; [apply sha1_l_erase|]. split; [apply ripemd160_l_erase|]. split; [apply sha2_256_l_erase|]. split; [apply sha2_512_l_erase|].
  split; [apply hmac_sha256_l_erase|]. split; [apply hmac_sha512_l_erase|]. split; [apply btc_hash160_l_erase|].
  split; [apply btc_hash256_l_erase|]. split; [apply btc_hash256_d64_l_erase|]. apply btc_bip32_hash_l_erase.
Qed.
Print Assumptions C136_observed_runs.

(** C136: two messages of the same length (with whatever is behind them in memory) are hashed with the same
    tests and the same memory accesses, whatever their bytes. *)
Theorem C136_hash_secret_independent : forall p out msg1 msg2 n,
  (n <= length msg1)%nat -> (n <= length msg2)%nat ->
  trace (sha1_l p out msg1 n) = trace (sha1_l p out msg2 n) /\
  trace (ripemd160_l p out msg1 n) = trace (ripemd160_l p out msg2 n) /\
  trace (sha2_256_l p out msg1 n) = trace (sha2_256_l p out msg2 n) /\
  trace (sha2_512_l p out msg1 n) = trace (sha2_512_l p out msg2 n) /\
  trace (btc_hash160_l p out msg1 n) = trace (btc_hash160_l p out msg2 n) /\
  trace (btc_hash256_l p out msg1 n) = trace (btc_hash256_l p out msg2 n).
Proof.
  intros p out m1 m2 n H1 H2. assert (Hc : cov n m1 m2) by (split; assumption). unfold trace.
  split; [apply (sha1_sim p out _ _ _ Hc)|]. split; [apply (ripemd160_sim p out _ _ _ Hc)|].
  split; [apply (sha2_256_sim p out _ _ _ Hc)|]. split; [apply (sha2_512_sim p out _ _ _ Hc)|].
  split; [apply (btc_hash160_sim p out _ _ _ Hc)|]. apply (btc_hash256_sim p out _ _ _ Hc).
Qed.
Print Assumptions C136_hash_secret_independent.

(** The same for HMAC: neither the key nor the message can be seen, only their lengths. *)
Theorem C136_hmac_secret_independent : forall pk p out key1 key2 kn msg1 msg2 n,
  (kn <= length key1)%nat -> (kn <= length key2)%nat -> (n <= length msg1)%nat -> (n <= length msg2)%nat ->
  trace (hmac_sha256_l pk p out key1 kn msg1 n) = trace (hmac_sha256_l pk p out key2 kn msg2 n) /\
  trace (hmac_sha512_l pk p out key1 kn msg1 n) = trace (hmac_sha512_l pk p out key2 kn msg2 n).
Proof.
  intros pk p out k1 k2 kn m1 m2 n Hk1 Hk2 H1 H2.
  split; [apply (hmac_sha256_sim pk p out k1 k2 kn m1 m2 n)|apply (hmac_sha512_sim pk p out k1 k2 kn m1 m2 n)]; split; assumption.
Qed.
Print Assumptions C136_hmac_secret_independent.

(** The same for the BIP-32 hash: chain code, child number, header byte and the (private or public) key
    all stay unseen. *)
Theorem C136_bip32_secret_independent : forall pc pd out cc1 cc2 child1 child2 header1 header2 data1 data2,
  (32 <= length cc1)%nat -> (32 <= length cc2)%nat -> (32 <= length data1)%nat -> (32 <= length data2)%nat ->
  trace (btc_bip32_hash_l pc pd out cc1 child1 header1 data1) = trace (btc_bip32_hash_l pc pd out cc2 child2 header2 data2).
Proof. intros. apply (btc_bip32_hash_sim pc pd out); split; assumption. Qed.
Print Assumptions C136_bip32_secret_independent.

(** The same for the Merkle hash over 64-byte blocks, in place or not: [mem1] and [mem2] are two contents of one memory. *)
Theorem C136_d64_secret_independent : forall obj mem1 mem2 out inp blocks, length mem1 = length mem2 ->
  (inp + 64 * blocks <= length mem1)%nat -> (out + 32 * blocks <= length mem1)%nat ->
  trace (btc_hash256_d64_l obj mem1 out inp blocks) = trace (btc_hash256_d64_l obj mem2 out inp blocks).
Proof.
  intros obj m1 m2 out inp blocks L Hi Ho.
  apply (btc_hash256_d64_sim obj blocks (length m1)); [split; congruence|exact Hi|exact Ho].
Qed.
Print Assumptions C136_d64_secret_independent.

(** The observations are not empty and do show the length: 55 bytes fit one block of SHA-256, 56 do not. *)
Example C136_case : length (trace (sha2_256_l (Msg, 0%nat) (Out, 0%nat) (repeat 97 60) 55)) = 66%nat /\
  length (trace (sha2_256_l (Msg, 0%nat) (Out, 0%nat) (repeat 97 60) 56)) = 107%nat.
Proof. split; lazy; reflexivity. Qed.

(* ------------------------------------------------------------------ *)
(** C137: the text encoders do reveal what they encode. *)
Theorem C137_observed_runs : forall p q str buf upper prefix key flag param,
  snd (to_hex_l p str buf upper) = to_hex buf upper /\
  outcome (to_base58_l p str buf) = to_base58 buf /\
  outcome (to_base58_check_l p q str buf prefix) = to_base58_check buf prefix /\
  outcome (key_to_string_l p str key flag param) = key_to_string key flag param.
Proof.
  intros. split; [apply to_hex_l_erase|]. split; [apply to_base58_l_erase|]. split; [apply to_base58_check_l_erase|].
  apply key_to_string_l_erase.
Qed.
Print Assumptions C137_observed_runs.

(** Whoever sees which entries of the hex table are read knows the bytes. *)
Theorem C137_hex_revealed : forall p str buf upper, bytes buf -> fst p <> HexTable ->
  spy_hex (fst (to_hex_l p str buf upper)) = nibbles buf.
Proof.
  intros p str buf upper Hb Hp. unfold to_hex_l. pose proof (hex_spy p str (hex_str upper) buf Hp Hb 0) as H.
  destruct (to_hex_loop_l p str (hex_str upper) 0 buf) as [t o]. exact H.
Qed.
Print Assumptions C137_hex_revealed.

(** Whoever sees which entries of the Base58 table are read knows the text, up to the '1's in front
    (for Base58 and for Base58Check). *)
Theorem C137_base58_revealed : forall p q str buf prefix n text, fst p <> Base58Table -> fst q <> Base58Table ->
  (outcome (to_base58_l p str buf) = Ok (n, text) ->
    exists z, text = repeat 49 z ++ spy_base58 (trace (to_base58_l p str buf))) /\
  (outcome (to_base58_check_l p q str buf prefix) = Ok (n, text) ->
    exists z, text = repeat 49 z ++ spy_base58 (trace (to_base58_check_l p q str buf prefix))).
Proof.
  intros p q str buf prefix n text Hp Hq.
  assert (Op : other p) by (unfold other; destruct (fst p); auto). assert (Oq : other q) by (unfold other; destruct (fst q); auto).
  split; intros E.
  - destruct (to_base58_spy p str buf Op _ E) as [z Hz]. exists z. apply (f_equal snd) in Hz. exact Hz.
  - destruct (to_base58_check_spy p q str buf prefix Op Oq _ E) as [z Hz]. exists z. apply (f_equal snd) in Hz. exact Hz.
Qed.
Print Assumptions C137_base58_revealed.

(** Exporting a private key (prefix not starting with a zero byte: 128 and 239 for the built-in networks) shows the
    spy the exported string itself, which is the key. *)
Theorem C137_wif_revealed : forall pk str key krest flag param x r, bytes key -> length key = 32%nat ->
  cp_secret param = x :: r -> x <> 0 -> bytes (cp_secret param) -> (length (cp_secret param) <= 8)%nat -> fst pk <> Base58Table ->
  let run := key_to_string_l pk str (key ++ krest) flag param in
  outcome run = Ok (length (spy_base58 (trace run)), spy_base58 (trace run)) /\
  is_wif (cp_secret param) key flag (spy_base58 (trace run)).
Proof.
  intros pk str key krest flag param x r Bk Lk Ep Nx Bp Lp Hp run.
  destruct (key_to_string_ok key krest flag param Bk Lk Bp Lp) as (text & E & B & L).
  assert (Op : other pk) by (unfold other; destruct (fst pk); auto).
  assert (R : outcome run = Ok (length text, text)) by (unfold outcome, run; rewrite key_to_string_l_erase; exact E).
  destruct (key_to_string_spy pk str (key ++ krest) flag param Op _ R) as [z Hz]. fold run in Hz.
  apply (f_equal snd) in Hz. cbn [snd] in Hz.
  assert (Z0 : z = O).
  { destruct z as [|z]; [reflexivity|]. exfalso. unfold is_base58check in B. rewrite Ep in B. cbn [app] in B.
    apply (is_base58_head _ _ _ B Nx (repeat 49 z ++ spy_base58 (fst run))). rewrite Hz. reflexivity. }
  rewrite Z0 in Hz. cbn [repeat app] in Hz. unfold trace. rewrite <- Hz. split; [exact R|].
  split; [exact Lk|]. split; [exact Bk|]. exists text. split; [apply trims_self|exact B].
Qed.
Print Assumptions C137_wif_revealed.

(** So two different keys never give the same observations. *)
Theorem C137_wif_trace_injective : forall pk str key1 key2 krest1 krest2 flag param, builtin param ->
  bytes key1 -> length key1 = 32%nat -> bytes key2 -> length key2 = 32%nat -> fst pk <> Base58Table ->
  trace (key_to_string_l pk str (key1 ++ krest1) flag param) = trace (key_to_string_l pk str (key2 ++ krest2) flag param) ->
  key1 = key2.
Proof.
  intros pk str k1 k2 kr1 kr2 flag param Hb B1 L1 B2 L2 Hp E.
  destruct (builtin_secret param Hb) as [Bp Lp].
  assert (exists x r, cp_secret param = x :: r /\ x <> 0) as (x & r & Ep & Nx).
  { destruct Hb as [-> | [-> | ->]]; eexists; eexists; (split; [reflexivity|discriminate]). }
  destruct (C137_wif_revealed pk str k1 kr1 flag param x r B1 L1 Ep Nx Bp ltac:(lia) Hp) as [R1 _].
  destruct (C137_wif_revealed pk str k2 kr2 flag param x r B2 L2 Ep Nx Bp ltac:(lia) Hp) as [R2 _].
  rewrite <- E in R2. unfold outcome in R1, R2. rewrite key_to_string_l_erase in R1, R2.
  destruct (C51_wif_roundtrip_builtin param k1 kr1 flag (repeat 0 32) 0 [] Hb B1 L1 ltac:(rewrite repeat_length; lia)) as (t1 & T1 & D1).
  destruct (C51_wif_roundtrip_builtin param k2 kr2 flag (repeat 0 32) 0 [] Hb B2 L2 ltac:(rewrite repeat_length; lia)) as (t2 & T2 & D2).
  rewrite R1 in T1. rewrite R2 in T2. apply (f_equal (fun v => match v with Ok p => snd p | _ => [] end)) in T1, T2. cbn [snd] in T1, T2.
  rewrite <- T1 in D1. rewrite <- T2 in D2. rewrite D1 in D2.
  apply (f_equal (fun v => match v with Ok (_, k, _) => firstn 32 k | _ => [] end)) in D2. cbv beta iota in D2.
  rewrite <- L1 in D2 at 1. rewrite firstn_app_exact in D2. rewrite <- L2 in D2 at 1. rewrite firstn_app_exact in D2. exact D2.
Qed.
Print Assumptions C137_wif_trace_injective.

(** Encoding the two bytes 1, 2 (that is 258 = 4 * 58 + 26) reads entries 4 and 26 of the table: '5' and 'T'. *)
Example C137_case : spy_base58 (trace (to_base58_l (Msg, 0%nat) (Str, 0%nat) [1; 2])) = [53; 84] /\
  to_base58 [1; 2] = Ok (2%nat, [53; 84]) /\ spy_hex (fst (to_hex_l (Msg, 0%nat) (Str, 0%nat) [1; 254] 0)) = [0; 1; 15; 14].
Proof. repeat split; reflexivity. Qed.
