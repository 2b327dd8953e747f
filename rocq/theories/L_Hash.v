(** hash160, hash256, the specialised Merkle hash and the BIP32 hash. *)
From Verif Require Import Base M_Endian L_Endian S_Words M_Sha2 S_Sha2 L_Sha2 L_Md L_Sha2Top L_Sha1 L_D64 M_Ripemd S_Ripemd L_Ripemd M_Hash.

Lemma byte_len_small n : (n <= 4000)%nat -> byte_len_ok n.
Proof. unfold byte_len_ok. intros H. apply Z.lt_le_trans with 4001; lia. Qed.
Lemma firstn_exact {A} n (l : list A) : length l = n -> firstn n l = l.
Proof. intros <-. apply firstn_all. Qed.

Lemma hash256_ok msg n : bytes msg -> (n <= length msg)%nat -> byte_len_ok n ->
  btc_hash256 msg n = Ok (SHA256 (SHA256 (firstn n msg))).
Proof.
  intros Hb Hn Hl. unfold btc_hash256. rewrite sha2_256_ok by assumption. cbn [bind].
  rewrite sha2_256_ok; [|apply SHA256_bytes|now rewrite SHA256_length|apply byte_len_small; lia].
  rewrite firstn_exact by apply SHA256_length. reflexivity.
Qed.
Lemma hash160_ok msg n : bytes msg -> (n <= length msg)%nat -> byte_len_ok n ->
  btc_hash160 msg n = Ok (RIPEMD160 (SHA256 (firstn n msg))).
Proof.
  intros Hb Hn Hl. unfold btc_hash160. rewrite sha2_256_ok by assumption. cbn [bind].
  rewrite ripemd160_ok; [|apply SHA256_bytes|now rewrite SHA256_length|apply byte_len_small; lia].
  rewrite firstn_exact by apply SHA256_length. reflexivity.
Qed.

Lemma skipn_store mem o (d : list Z) j : (o + length d <= length mem)%nat -> (o + length d <= j)%nat ->
  skipn j (firstn o mem ++ d ++ skipn (o + length d) mem) = skipn j mem.
Proof.
  intros H Hj. rewrite skipn_app, (skipn_all2 (firstn o mem)) by (rewrite firstn_length; lia). cbn [app].
  rewrite firstn_length, Nat.min_l by lia. rewrite skipn_app, (skipn_all2 d) by lia. cbn [app].
  rewrite skipn_skipn. f_equal. lia.
Qed.
Lemma slice_store_before mem o (d : list Z) i n : (o + length d <= length mem)%nat -> (i + n <= o)%nat ->
  firstn n (skipn i (firstn o mem ++ d ++ skipn (o + length d) mem)) = firstn n (skipn i mem).
Proof.
  intros H Hi. rewrite skipn_app, firstn_app.
  replace (n - length (skipn i (firstn o mem)))%nat with 0%nat by (rewrite skipn_length, firstn_length; lia).
  rewrite firstn_O, app_nil_r. apply firstn_skipn_firstn. lia.
Qed.
Lemma bytes_store mem o d : bytes mem -> bytes d -> bytes (firstn o mem ++ d ++ skipn (o + length d) mem).
Proof. intros Hm Hd. apply bytes_app. split; [now apply bytes_firstn|]. apply bytes_app. split; [exact Hd|now apply bytes_skipn]. Qed.
Lemma firstn_add {A} n m (l : list A) : firstn (n + m) l = firstn n l ++ firstn m (skipn n l).
Proof. revert l. induction n as [|n IH]; intros l; [reflexivity|]. destruct l; cbn; [now rewrite firstn_nil|]. now rewrite IH. Qed.

Definition dsha (b : list Z) : list Z := SHA256 (SHA256 b).
Lemma dsha_length b : length (dsha b) = 32%nat. Proof. apply SHA256_length. Qed.
Lemma dsha_bytes b : bytes (dsha b). Proof. apply SHA256_bytes. Qed.

Lemma d64_ok blocks : forall mem o i, bytes mem ->
  (o + 32 * blocks <= length mem)%nat -> (i + 64 * blocks <= length mem)%nat ->
  (o <= i \/ i + 64 * blocks <= o)%nat ->
  btc_hash256_d64 mem o i blocks =
    Ok (firstn o mem ++ concat (map dsha (chunks 64 (firstn (64 * blocks) (skipn i mem)))) ++ skipn (o + 32 * blocks) mem).
Proof.
  induction blocks as [|b IH]; intros mem o i Hb Ho Hi Hd.
  - cbn [btc_hash256_d64]. rewrite !Nat.mul_0_r, firstn_O, Nat.add_0_r.
    change (@chunks Z 64 []) with (@nil (list Z)). cbn [map concat app]. now rewrite firstn_skipn.
  - cbn [btc_hash256_d64]. rewrite hash256_d64_transform_ok; [|now apply bytes_skipn|rewrite skipn_length; lia].
    cbn [bind]. fold (dsha (firstn 64 (skipn i mem))). set (d := dsha _).
    assert (Ld : length d = 32%nat) by apply dsha_length.
    rewrite store_ok by lia. cbn [bind].
    set (mem' := firstn o mem ++ d ++ skipn (o + length d) mem).
    assert (Lm : length mem' = length mem).
    { unfold mem'. rewrite !app_length, firstn_length, skipn_length. lia. }
    rewrite IH; [| apply bytes_store; [exact Hb|apply dsha_bytes] | lia | lia | lia].
    f_equal.
    assert (E1 : firstn (o + 32) mem' = firstn o mem ++ d).
    { unfold mem'. rewrite app_assoc. replace (o + 32)%nat with (length (firstn o mem ++ d)) at 1
        by (rewrite app_length, firstn_length; lia). apply firstn_app_exact. }
    assert (E2 : skipn (o + 32 + 32 * b) mem' = skipn (o + 32 * S b) mem).
    { unfold mem'. rewrite skipn_store by lia. f_equal. lia. }
    assert (E3 : firstn (64 * b) (skipn (i + 64) mem') = firstn (64 * b) (skipn (i + 64) mem)).
    { unfold mem'. destruct Hd as [Hd|Hd].
      - now rewrite skipn_store by lia.
      - apply slice_store_before; lia. }
    rewrite E1, E2, E3, <- app_assoc. f_equal.
    assert (E4 : firstn (64 * S b) (skipn i mem) = firstn 64 (skipn i mem) ++ firstn (64 * b) (skipn (i + 64) mem)).
    { replace (64 * S b)%nat with (64 + 64 * b)%nat by lia. rewrite firstn_add, skipn_skipn. reflexivity. }
    rewrite E4, chunks_cons; [|lia|rewrite firstn_length, skipn_length; lia].
    cbn [map concat]. rewrite <- app_assoc. reflexivity.
Qed.

Lemma bip32_hash_ok chain child header data32 :
  bytes chain -> (32 <= length chain)%nat -> bytes data32 -> (32 <= length data32)%nat ->
  btc_bip32_hash chain child header data32 =
    Ok (hmac SHA512 128 (firstn 32 chain) ([header mod 256] ++ firstn 32 data32 ++ be_bytes 4 child)).
Proof.
  intros Hc Lc Hd Ld. unfold btc_bip32_hash.
  change (uninit (1 + 32 + 4)) with ([-1000] ++ repeat (-1000) 36).
  rewrite store_ok by (cbn; lia). cbn [bind].
  change (firstn 0 ([-1000] ++ repeat (-1000) 36) ++ [u8 header] ++ skipn (0 + length [u8 header]) ([-1000] ++ repeat (-1000) 36))
    with (u8 header :: repeat (-1000) 36).
  rewrite slice_ok by lia. cbn [bind]. change (skipn 0 data32) with data32.
  assert (L32 : length (firstn 32 data32) = 32%nat) by (rewrite firstn_length; lia).
  set (d := firstn 32 data32) in *.
  assert (Hbd : bytes d) by now apply bytes_firstn.
  rewrite store_ok by (cbn [length]; rewrite repeat_length; lia). cbn [bind].
  rewrite L32. change (firstn 1 (u8 header :: repeat (-1000) 36)) with [u8 header].
  change (skipn (1 + 32) (u8 header :: repeat (-1000) 36)) with (repeat (-1000) 4).
  assert (F : firstn 33 ([u8 header] ++ d ++ repeat (-1000) 4) = [u8 header] ++ d).
  { rewrite app_assoc. replace 33%nat with (length ([u8 header] ++ d)) by (rewrite app_length, L32; reflexivity).
    apply firstn_app_exact. }
  assert (G : skipn 33 ([u8 header] ++ d ++ repeat (-1000) 4) = repeat (-1000) 4).
  { rewrite app_assoc. replace 33%nat with (length ([u8 header] ++ d)) by (rewrite app_length, L32; reflexivity).
    apply skipn_app_exact. }
  rewrite F, G. unfold write_big_32.
  rewrite store_ok by (unfold htobe32; rewrite htobe_bytes, be_bytes_length, repeat_length; lia). cbn [bind firstn app].
  unfold htobe32. rewrite htobe_bytes, be_bytes_length.
  change (skipn (0 + 4) (repeat (-1000) 4)) with (@nil Z). rewrite app_nil_r.
  assert (Lb : length (u8 header :: d ++ be_bytes 4 child) = 37%nat).
  { cbn [length]. rewrite app_length, L32, be_bytes_length. reflexivity. }
  rewrite hmac_sha512_ok; [|exact Hc|exact Lc| |lia|apply byte_len_small; lia|apply byte_len_small; lia].
  - rewrite (firstn_exact 37) by exact Lb. reflexivity.
  - apply bytes_cons. split; [apply u8_byte|]. apply bytes_app. split; [exact Hbd|apply be_bytes_bytes].
Qed.
