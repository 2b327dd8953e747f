(** C109: the width of size_t. *)
From Verif Require Import Base M_Endian M_Hex M_Base64 M_Base32 M_Base58 M_Base58Check M_Bech32 M_Sha2 M_Hash M_Address M_Width S_Sha2 L_Endian L_Md L_Sha2Top L_Hash S_Base58 L_Base58 L_Base58Check S_Bech32 S_Address L_Address L_Char.

(** A value of type size_t on a platform where it has [w] bits. *)
Definition size_value (w : Z) (n : nat) : Prop := Z.of_nat n < 2 ^ w.

Lemma sz_id w x : 0 <= x < 2 ^ w -> sz w x = x.
Proof. intros H. unfold sz. apply Z.mod_small. exact H. Qed.

Lemma wide w : 8 <= w -> 256 <= 2 ^ w.
Proof. intros H. change 256 with (2 ^ 8). apply Z.pow_le_mono_r; lia. Qed.

Ltac zn := repeat first [rewrite Nat2Z.inj_add | rewrite Nat2Z.inj_mul | rewrite Nat2Z.inj_div | rewrite Nat2Z.inj_mod];
           cbn [Z.of_nat Pos.of_succ_nat Pos.succ].

(** Hexadecimal. *)
Theorem C109_hex_lengths : forall w n, 8 <= w -> size_value w n ->
  (Z.of_nat (2 * n) < 2 ^ w -> to_hex_length_w w (Z.of_nat n) = Z.of_nat (to_hex_length n)) /\
  (Z.of_nat (n + 1) < 2 ^ w -> from_hex_length_w w (Z.of_nat n) = Z.of_nat (from_hex_length n)).
Proof.
  intros w n Hw Hn. unfold size_value, to_hex_length_w, from_hex_length_w, to_hex_length, from_hex_length in *.
  split; intros H; zn; rewrite sz_id; lia.
Qed.
Print Assumptions C109_hex_lengths.

(** Base64 and Base32: right as soon as the result itself fits. *)
Theorem C109_base64_lengths : forall w n, 8 <= w -> size_value w n ->
  (size_value w (to_base64_length n) -> to_base64_length_w w (Z.of_nat n) = Z.of_nat (to_base64_length n)) /\
  (size_value w (to_base64_urlsafe_length n) ->
     to_base64_urlsafe_length_w w (Z.of_nat n) = Z.of_nat (to_base64_urlsafe_length n)) /\
  from_base64_urlsafe_length_w w (Z.of_nat n) = Z.of_nat (from_base64_urlsafe_length n).
Proof.
  intros w n Hw Hn. pose proof (wide w Hw) as W. unfold size_value in *.
  repeat split.
  - unfold to_base64_length_w, to_base64_length. zn. intros H. rewrite (sz_id w (Z.of_nat n + 2)).
    + rewrite sz_id; [reflexivity|]. pose proof (Z.div_pos (Z.of_nat n + 2) 3). lia.
    + dlia.
  - unfold to_base64_urlsafe_length_w, to_base64_urlsafe_length. cbv zeta.
    destruct (Nat.eqb_spec (n mod 3) 1) as [E|E].
    { replace (Z.of_nat n mod 3 =? 1) with true by (symmetry; apply Z.eqb_eq; change 3 with (Z.of_nat 3); rewrite <- Nat2Z.inj_mod, E; reflexivity).
      zn. intros H. rewrite !sz_id; try reflexivity; try dlia. rewrite sz_id; dlia. }
    replace (Z.of_nat n mod 3 =? 1) with false by (symmetry; apply Z.eqb_neq; change 3 with (Z.of_nat 3); rewrite <- Nat2Z.inj_mod; lia).
    destruct (Nat.eqb_spec (n mod 3) 2) as [F|F].
    { replace (Z.of_nat n mod 3 =? 2) with true by (symmetry; apply Z.eqb_eq; change 3 with (Z.of_nat 3); rewrite <- Nat2Z.inj_mod, F; reflexivity).
      zn. intros H. rewrite !sz_id; try reflexivity; try dlia. rewrite sz_id; dlia. }
    replace (Z.of_nat n mod 3 =? 2) with false by (symmetry; apply Z.eqb_neq; change 3 with (Z.of_nat 3); rewrite <- Nat2Z.inj_mod; lia).
    zn. intros H. rewrite !sz_id; try reflexivity; dlia.
  - unfold from_base64_urlsafe_length_w, from_base64_urlsafe_length. cbv zeta.
    destruct (Nat.eqb_spec (n mod 4) 2) as [E|E].
    { replace (Z.of_nat n mod 4 =? 2) with true by (symmetry; apply Z.eqb_eq; change 4 with (Z.of_nat 4); rewrite <- Nat2Z.inj_mod, E; reflexivity).
      zn. rewrite (sz_id w (_ / 4 * 3)); [rewrite sz_id; [reflexivity|]|]; dlia. }
    replace (Z.of_nat n mod 4 =? 2) with false by (symmetry; apply Z.eqb_neq; change 4 with (Z.of_nat 4); rewrite <- Nat2Z.inj_mod; lia).
    destruct (Nat.eqb_spec (n mod 4) 3) as [F|F].
    { replace (Z.of_nat n mod 4 =? 3) with true by (symmetry; apply Z.eqb_eq; change 4 with (Z.of_nat 4); rewrite <- Nat2Z.inj_mod, F; reflexivity).
      zn. rewrite (sz_id w (_ / 4 * 3)); [rewrite sz_id; [reflexivity|]|]; dlia. }
    replace (Z.of_nat n mod 4 =? 3) with false by (symmetry; apply Z.eqb_neq; change 4 with (Z.of_nat 4); rewrite <- Nat2Z.inj_mod; lia).
    zn. rewrite sz_id; dlia.
Qed.
Print Assumptions C109_base64_lengths.

Lemma tail_bytes_bound m : (m < 8)%nat ->
  0 <= tget TAIL_TO_BYTES (Z.of_nat m) <= 5.
Proof. intros H. do 8 (destruct m as [|m]; [vm_compute; split; discriminate|]). lia. Qed.

Theorem C109_base32_lengths : forall w n, 8 <= w -> size_value w n ->
  (size_value w (to_base32_length n) -> to_base32_length_w w (Z.of_nat n) = Z.of_nat (to_base32_length n)) /\
  from_base32_raw_length_w w (Z.of_nat n) = Z.of_nat (from_base32_raw_length n).
Proof.
  intros w n Hw Hn. pose proof (wide w Hw) as W. unfold size_value in *. split.
  - unfold to_base32_length_w, to_base32_length. zn. intros H. rewrite (sz_id w (Z.of_nat n + 4)).
    + rewrite sz_id; [reflexivity|]. pose proof (Z.div_pos (Z.of_nat n + 4) 5). lia.
    + dlia.
  - unfold from_base32_raw_length_w, from_base32_raw_length. cbv zeta.
    change 8 with (Z.of_nat 8) at 2. rewrite <- Nat2Z.inj_mod.
    pose proof (tail_bytes_bound (n mod 8) ltac:(apply Nat.mod_upper_bound; lia)) as T.
    set (t := tget TAIL_TO_BYTES (Z.of_nat (n mod 8))) in *. zn. rewrite Z2Nat.id by lia.
    rewrite (sz_id w (_ / 8 * 5)) by dlia. rewrite sz_id; [reflexivity|]. split; [dlia|].
    destruct (Z.le_gt_cases 16 (Z.of_nat n)); dlia.
Qed.
Print Assumptions C109_base32_lengths.

(** Base58: the products 138 n and 733 n must fit, which is more than the result. *)
Theorem C109_base58_lengths_partial : forall w n m, 8 <= w ->
  (138 * Z.of_nat n < 2 ^ w -> to_base58_length_w w (Z.of_nat n) = Z.of_nat (to_base58_length n)) /\
  (733 * Z.of_nat n < 2 ^ w -> from_base58_length_w w (Z.of_nat n) = Z.of_nat (from_base58_length n)) /\
  (138 * Z.of_nat (n + 4 + m) < 2 ^ w ->
     to_base58_check_length_w w (Z.of_nat n) (Z.of_nat m) = Z.of_nat (to_base58_check_length n m)) /\
  (733 * Z.of_nat n < 2 ^ w -> from_base58_check_length_w w (Z.of_nat n) = Z.of_nat (from_base58_check_length n)).
Proof.
  intros w n m Hw. pose proof (wide w Hw) as W.
  assert (A : forall k, 138 * Z.of_nat k < 2 ^ w -> to_base58_length_w w (Z.of_nat k) = Z.of_nat (to_base58_length k)).
  { intros k H. unfold to_base58_length_w, to_base58_length. zn. rewrite (sz_id w (_ * 138)) by lia. rewrite sz_id; [reflexivity|].
    destruct (Z.le_gt_cases 16 (Z.of_nat k)); dlia. }
  assert (B : forall k, 733 * Z.of_nat k < 2 ^ w -> from_base58_length_w w (Z.of_nat k) = Z.of_nat (from_base58_length k)).
  { intros k H. unfold from_base58_length_w, from_base58_length. zn. rewrite (sz_id w (_ * 733)) by lia. rewrite sz_id; [reflexivity|].
    destruct (Z.le_gt_cases 16 (Z.of_nat k)); dlia. }
  repeat split; auto.
  intros H. unfold to_base58_check_length_w, to_base58_check_length. rewrite <- A by exact H.
  rewrite (sz_id w (Z.of_nat n + 4)) by lia. rewrite sz_id by lia. f_equal. lia.
Qed.
Print Assumptions C109_base58_lengths_partial.

(** With 64 bits the condition holds for every object that can exist (fewer than 2^54 bytes). *)
Corollary C109_base58_lengths_64 : forall n, Z.of_nat n < 2 ^ 54 ->
  to_base58_length_w 64 (Z.of_nat n) = Z.of_nat (to_base58_length n) /\
  from_base58_length_w 64 (Z.of_nat n) = Z.of_nat (from_base58_length n).
Proof.
  intros n H. destruct (C109_base58_lengths_partial 64 n 0 ltac:(lia)) as (A & B & _).
  split; [apply A|apply B]; change (2 ^ 64) with (1024 * 2 ^ 54); lia.
Qed.
Print Assumptions C109_base58_lengths_64.

Theorem C109_bech32_length : forall w h n, 8 <= w -> size_value w (bech32_encode_length h n) ->
  bech32_encode_length_w w (Z.of_nat h) (Z.of_nat n) = Z.of_nat (bech32_encode_length h n).
Proof.
  intros w h n Hw H. unfold size_value, bech32_encode_length_w, bech32_encode_length in *.
  rewrite (sz_id w (Z.of_nat h + Z.of_nat n)) by lia. rewrite sz_id by lia. lia.
Qed.
Print Assumptions C109_bech32_length.

(** The Base58 encoder itself: at 64 bits the same as [to_base58]; in general as long as the product is representable. *)
Theorem C109_to_base58_width : forall w buf, 8 <= w ->
  Z.of_nat (length buf) * 138 < 2 ^ (w - 1) -> to_base58_w w buf = to_base58 buf.
Proof.
  intros w buf Hw H. unfold to_base58_w, to_base58. pose proof (skip_zeroes_spec buf) as S.
  destruct (skip_zeroes buf) as [z rest]. destruct S as [E _].
  assert (Z.of_nat (length rest) <= Z.of_nat (length buf)) by (rewrite E, app_length; lia).
  replace (Z.of_nat (length rest) * 138 <? 2 ^ (w - 1)) with true by (symmetry; apply Z.ltb_lt; lia).
  reflexivity.
Qed.
Print Assumptions C109_to_base58_width.

(** On a 32-bit build the conversion of more than 15561475 bytes that start with a nonzero byte is undefined. *)
Theorem C109_to_base58_32_undefined : forall x buf, x <> 0 ->
  2 ^ 31 <= Z.of_nat (length (x :: buf)) * 138 -> to_base58_w 32 (x :: buf) = UB.
Proof.
  intros x buf Hx H. unfold to_base58_w. cbn [skip_zeroes]. destruct (Z.eqb_spec x 0); [contradiction|].
  replace (Z.of_nat (length (x :: buf)) * 138 <? 2 ^ (32 - 1)) with false by (symmetry; apply Z.ltb_ge; exact H).
  reflexivity.
Qed.
Print Assumptions C109_to_base58_32_undefined.

Lemma skip_zeroes_zeroes n : skip_zeroes (repeat 0 n) = (n, []).
Proof. induction n as [|n IH]; [reflexivity|]. cbn [repeat skip_zeroes]. rewrite IH. reflexivity. Qed.

(** Refuted at 32 bits: for every length from 31122952 on the helper returns less than the length itself, while the
    encoding of that many zero bytes has as many characters: a buffer allocated as documented overflows. *)
Theorem C109_to_base58_length_32_refuted : forall n, 2 ^ 32 <= 138 * Z.of_nat n -> size_value 32 n ->
  to_base58_length_w 32 (Z.of_nat n) < Z.of_nat n /\
  to_base58_w 32 (repeat 0 n) = Ok (n, repeat 49 n).
Proof.
  intros n Hlo Hhi. unfold size_value in *. split.
  - unfold to_base58_length_w, sz. rewrite (Z.mod_small (_ / 100 + 2)).
    + change (2 ^ 32) with 4294967296 in *. dlia.
    + change (2 ^ 32) with 4294967296 in *. dlia.
  - unfold to_base58_w. rewrite skip_zeroes_zeroes. cbn. rewrite app_nil_r, repeat_length. reflexivity.
Qed.
Print Assumptions C109_to_base58_length_32_refuted.

Example C109_to_base58_length_32_reachable : let n := Z.to_nat 31122952 in
  2 ^ 32 <= 138 * Z.of_nat n /\ size_value 32 n /\ to_base58_length_w 32 (Z.of_nat n) = 2.
Proof. cbv zeta. unfold size_value. rewrite Z2Nat.id by lia. repeat split; reflexivity || (now apply Z.leb_le) || (now apply Z.ltb_lt). Qed.

Lemma skip_ones_ones n rest : skip_ones (repeat 49 n ++ 0 :: rest) = Ok (n, 0 :: rest).
Proof. induction n as [|n IH]; [reflexivity|]. cbn [repeat app skip_ones]. cbn [Z.eqb Pos.eqb]. rewrite IH. reflexivity. Qed.

Lemma from_base58_ones n rest : from_base58 (repeat 49 n ++ 0 :: rest) n = Ok (n, repeat 0 n).
Proof.
  assert (S : skip_leading_spaces (repeat 49 n ++ 0 :: rest) = Ok (0%nat, repeat 49 n ++ 0 :: rest)) by (destruct n; reflexivity).
  unfold from_base58. rewrite S. cbn [bind]. rewrite skip_ones_ones. cbn [bind].
  replace (Z.of_nat n - Z.of_nat 0 - Z.of_nat n) with 0 by lia. cbn. rewrite app_nil_r, repeat_length. reflexivity.
Qed.

(** The same for decoding: from 5859437 characters on. *)
Theorem C109_from_base58_length_32_refuted : forall n rest, 2 ^ 32 <= 733 * Z.of_nat n -> size_value 32 n ->
  from_base58_length_w 32 (Z.of_nat n) < Z.of_nat n /\
  from_base58 (repeat 49 n ++ 0 :: rest) n = Ok (n, repeat 0 n).
Proof.
  intros n rest Hlo Hhi. unfold size_value in *. split; [|apply from_base58_ones].
  unfold from_base58_length_w, sz. rewrite (Z.mod_small (_ / 1000 + 2)); change (2 ^ 32) with 4294967296 in *; dlia.
Qed.
Print Assumptions C109_from_base58_length_32_refuted.

(** Address decoding is right about the capacity as long as the product fits ... *)
Theorem C109_address_decode_width : forall w str n out_size p stack, 8 <= w -> 733 * Z.of_nat n < 2 ^ w ->
  address_decode_w w str n out_size p stack = address_decode str n out_size p stack.
Proof.
  intros w str n out_size p stack Hw H. unfold address_decode_w, address_decode.
  rewrite (proj2 (proj2 (proj2 (C109_base58_lengths_partial w n 0 Hw)))) by exact H.
  destruct (Nat.ltb_spec out_size (from_base58_check_length n)) as [L|L].
  - replace (Z.of_nat out_size <? _) with true by (symmetry; apply Z.ltb_lt; lia). reflexivity.
  - replace (Z.of_nat out_size <? _) with false by (symmetry; apply Z.ltb_ge; lia). reflexivity.
Qed.
Print Assumptions C109_address_decode_width.

(** ... and not beyond: on a 32-bit build some capacity below the number of bytes written passes the test. *)
Theorem C109_address_decode_32_refuted : forall n rest p stack, 2 ^ 32 <= 733 * Z.of_nat n -> size_value 32 n ->
  (length (cp_hrp p) <= 16)%nat -> length stack = 128%nat -> good_stack stack ->
  exists capacity r, (capacity < n)%nat /\ Z.of_nat capacity = from_base58_check_length_w 32 (Z.of_nat n) /\
    address_decode_w 32 (repeat 49 n ++ 0 :: rest) n capacity p stack = Ok r /\ (n <= length (a_out r))%nat.
Proof.
  intros n rest p stack Hlo Hhi Hh Ls Gs.
  destruct (C109_from_base58_length_32_refuted n rest Hlo Hhi) as [C F].
  unfold size_value in *. set (cap := from_base58_length_w 32 (Z.of_nat n)) in *.
  assert (Hcap : 0 <= cap) by (apply Z.mod_pos_bound; lia).
  assert (Hn : (4 <= n)%nat) by lia.
  exists (Z.to_nat cap).
  unfold address_decode_w, from_base58_check_length_w. fold cap.
  replace (Z.of_nat (Z.to_nat cap) <? cap) with false by (symmetry; apply Z.ltb_ge; lia).
  assert (B : bytes (repeat 0 n)) by (apply Forall_forall; intros x Hx; apply repeat_spec in Hx; unfold is_byte; lia).
  assert (S : exists size, from_base58_check (repeat 49 n ++ 0 :: rest) n = Ok (size, repeat 0 n)).
  { unfold from_base58_check. rewrite F. cbn [bind]. destruct (Nat.ltb_spec n 4); [lia|].
    rewrite slice_ok by (rewrite repeat_length; lia). cbn [bind].
    rewrite hash256_ok; [|apply bytes_firstn, bytes_skipn, B|rewrite firstn_length, skipn_length, repeat_length; lia|unfold byte_len_ok; lia].
    cbn [bind]. rewrite checksum_slice. cbn [bind]. rewrite slice_ok by (rewrite repeat_length; lia). cbn [bind].
    destruct (negb _); eauto. }
  destruct S as [size ES]. rewrite ES. cbn [bind].
  assert (L : forall new, (n <= length (overlay new (repeat 0%Z n)))%nat) by (intros new; rewrite overlay_length, repeat_length; lia).
  destruct (negb (size =? 0)%nat && (length (cp_pubkey p) <=? size)%nat && bytes_eqb _ _);
    [eexists; split; [lia|]; split; [lia|]; split; [reflexivity|apply L]|].
  destruct (negb (size =? 0)%nat && (length (cp_script p) <=? size)%nat && bytes_eqb _ _);
    [eexists; split; [lia|]; split; [lia|]; split; [reflexivity|apply L]|].
  assert (NZ : Forall (fun c => 0 < c < 256) (repeat 49 n)) by (apply Forall_forall; intros x Hx; apply repeat_spec in Hx; lia).
  pose proof (decode_bech32_total (repeat 49 n) rest p stack (repeat 0 n) (Z.to_nat cap) NZ Hh Ls Gs) as D.
  rewrite repeat_length in D. destruct D as [D|(ver & vals & prog & _ & _ & _ & _ & D)].
  - rewrite D. eexists. split; [lia|]. split; [lia|]. split; [reflexivity|]. cbn [a_out]. rewrite repeat_length. lia.
  - rewrite D. eexists. split; [lia|]. split; [lia|]. split; [reflexivity|]. destruct (ver =? 0); cbn [a_out]; apply L.
Qed.
Print Assumptions C109_address_decode_32_refuted.

(** A capacity of two bytes is enough to be let through. *)
Example C109_address_decode_32_reachable : let n := Z.to_nat 5859437 in
  2 ^ 32 <= 733 * Z.of_nat n /\ size_value 32 n /\ from_base58_check_length_w 32 (Z.of_nat n) = 2.
Proof. cbv zeta. unfold size_value. rewrite Z2Nat.id by lia. repeat split; reflexivity || (now apply Z.leb_le) || (now apply Z.ltb_lt). Qed.

(** SHA-2 and HMAC: the counted length is a size_t; the digest is the same at every width that can hold it. *)
Lemma final256_w w d msg n a : 8 <= w -> Z.of_nat n + Z.of_nat a < 2 ^ w -> Z.of_nat n + Z.of_nat a < 2 ^ 64 ->
  sha256_final_w w d msg n a = sha256_final d msg n a.
Proof.
  intros Hw H H64. unfold sha256_final_w, sha256_final. rewrite (sz_id w (_ + _)) by lia.
  unfold u64 at 3. rewrite (Z.mod_small (_ + _)) by lia. reflexivity.
Qed.
Lemma final512_w w d msg n a : 8 <= w -> Z.of_nat n + Z.of_nat a < 2 ^ w -> Z.of_nat n + Z.of_nat a < 2 ^ 64 ->
  sha512_final_w w d msg n a = sha512_final d msg n a.
Proof.
  intros Hw H H64. unfold sha512_final_w, sha512_final. rewrite (sz_id w (_ + _)) by lia.
  unfold u64 at 3. rewrite (Z.mod_small (_ + _)) by lia. reflexivity.
Qed.

Theorem C109_sha2_width : forall w msg n, 8 <= w -> size_value w n -> Z.of_nat n < 2 ^ 64 ->
  sha2_256_w w msg n = sha2_256 msg n /\ sha2_512_w w msg n = sha2_512 msg n.
Proof.
  intros w msg n Hw Hn H64. unfold size_value, sha2_256_w, sha2_256, sha2_512_w, sha2_512 in *.
  rewrite final256_w, final512_w by lia. split; reflexivity.
Qed.
Print Assumptions C109_sha2_width.

Theorem C109_hmac_width : forall w key kl msg n, 8 <= w -> size_value w kl -> size_value w (n + 128) ->
  Z.of_nat kl < 2 ^ 64 -> Z.of_nat n + 128 < 2 ^ 64 ->
  hmac_sha256_w w key kl msg n = hmac_sha256 key kl msg n /\ hmac_sha512_w w key kl msg n = hmac_sha512 key kl msg n.
Proof.
  intros w key kl msg n Hw Hk Hn K64 N64. pose proof (wide w Hw) as W. unfold size_value in *.
  destruct (C109_sha2_width w key kl Hw Hk K64) as [E1 E2].
  split.
  - unfold hmac_sha256_w, hmac_sha256. rewrite E1. apply bind_same. intros b. cbv zeta. apply bind_same. intros d.
    rewrite final256_w by lia. apply bind_same. intros d2. apply bind_same. intros d3. rewrite final256_w by lia. reflexivity.
  - unfold hmac_sha512_w, hmac_sha512. rewrite E2. apply bind_same. intros b. cbv zeta. apply bind_same. intros d.
    rewrite final512_w by lia. apply bind_same. intros d2. apply bind_same. intros d3. rewrite final512_w by lia. reflexivity.
Qed.
Print Assumptions C109_hmac_width.

Example C109_hmac_width_example : size_value 32 10 /\ size_value 32 (1000 + 128) /\ Z.of_nat 10 < 2 ^ 64.
Proof. unfold size_value. repeat split. Qed.
Example C109_lengths_example : size_value 32 (to_base64_length 1000) /\ to_base64_length_w 32 1000 = 1336 /\
  to_base32_length_w 32 11 = 24 /\ from_base32_raw_length_w 32 18 = 11 /\ to_hex_length_w 32 7 = 14 /\ from_hex_length_w 32 7 = 4 /\
  to_base58_length_w 32 25 = 36 /\ from_base58_length_w 32 34 = 26 /\ bech32_encode_length_w 32 2 33 = 42.
Proof. unfold size_value. repeat split. Qed.
