(** Lemmas: the local arrays of the hash functions at return. *)
From Coq Require Import String.
From Verif Require Import Base M_Endian S_Words L_Endian M_Sha1 M_Sha2 M_Ripemd S_Sha1 S_Sha2 S_Ripemd L_Md L_Sha1 L_Sha2Top L_Ripemd M_Hash L_Hash.
From Verif Require Import M_Random M_Residue.
Open Scope Z_scope.
Open Scope list_scope.

Definition wiped (n : nat) : list Z := repeat 204 n.

Lemma cleanse_all mem n : length mem = n -> cleanse mem 0 n = Ok (wiped n).
Proof.
  intros L. unfold cleanse. rewrite store_ok by (rewrite repeat_length; lia). cbn [firstn app].
  rewrite repeat_length, skipn_all2 by lia. now rewrite app_nil_r.
Qed.
Lemma store_length mem o bs m : store mem o bs = Ok m -> length m = length mem.
Proof.
  unfold store. destruct (Nat.leb_spec (o + length bs) (length mem)) as [L|]; [|discriminate]. intros H. injection H as <-.
  rewrite !app_length, firstn_length, skipn_length. lia.
Qed.
Lemma words_mem_length n ws : length (words_mem n ws) = (n * length ws)%nat.
Proof.
  unfold words_mem. induction ws as [|x ws IH]; cbn [map concat length]; [lia|].
  rewrite app_length, IH, host_bytes_le, le_bytes_length. lia.
Qed.

Lemma final256_r d msg n app d' : sha256_final d msg n app = Ok d' ->
  sha256_final_r d msg n app = Ok (d', [("last_chunk"%string, wiped 64)]).
Proof.
  unfold sha256_final, sha256_final_r.
  destruct (block_loop n 64 sha256_transform d msg n) as [[[d0 b] r]| |]; cbn [bind]; try discriminate.
  destruct (slice b 0 r) as [t| |]; cbn [bind]; try discriminate.
  destruct (store (repeat 0 64) 0 t) as [c| |] eqn:E1; cbn [bind]; try discriminate.
  destruct (store c r [0x80]) as [c'| |] eqn:E2; cbn [bind]; try discriminate.
  apply store_length in E1, E2. rewrite repeat_length in E1.
  destruct (if (55 <? r)%nat then _ else _) as [[d2 c2]| |] eqn:E3; cbn [bind]; try discriminate.
  assert (L2 : length c2 = 64%nat).
  { destruct (55 <? r)%nat; [|now injection E3 as <- <-; lia].
    destruct (sha256_transform d0 c') as [d3| |]; cbn [bind] in E3; try discriminate. injection E3 as <- <-. reflexivity. }
  destruct (store c2 56 _) as [c3| |] eqn:E4; cbn [bind]; try discriminate. apply store_length in E4.
  intros H. rewrite H. cbn [bind]. rewrite cleanse_all by lia. reflexivity.
Qed.
Lemma final512_r d msg n app d' : sha512_final d msg n app = Ok d' ->
  sha512_final_r d msg n app = Ok (d', [("last_chunk"%string, wiped 128)]).
Proof.
  unfold sha512_final, sha512_final_r.
  destruct (block_loop n 128 sha512_transform d msg n) as [[[d0 b] r]| |]; cbn [bind]; try discriminate.
  destruct (slice b 0 r) as [t| |]; cbn [bind]; try discriminate.
  destruct (store (repeat 0 128) 0 t) as [c| |] eqn:E1; cbn [bind]; try discriminate.
  destruct (store c r [0x80]) as [c'| |] eqn:E2; cbn [bind]; try discriminate.
  apply store_length in E1, E2. rewrite repeat_length in E1.
  destruct (if (111 <? r)%nat then _ else _) as [[d2 c2]| |] eqn:E3; cbn [bind]; try discriminate.
  assert (L2 : length c2 = 128%nat).
  { destruct (111 <? r)%nat; [|now injection E3 as <- <-; lia].
    destruct (sha512_transform d0 c') as [d3| |]; cbn [bind] in E3; try discriminate. injection E3 as <- <-. reflexivity. }
  destruct (store c2 120 _) as [c3| |] eqn:E4; cbn [bind]; try discriminate. apply store_length in E4.
  intros H. rewrite H. cbn [bind]. rewrite cleanse_all by lia. reflexivity.
Qed.

Definition wiped_digest (n blk : nat) : arrays := [("digest"%string, wiped n); ("last_chunk"%string, wiped blk)].

Lemma sha2_256_r_ok msg n : bytes msg -> (n <= length msg)%nat -> byte_len_ok n ->
  sha2_256_r msg n = Ok (SHA256 (firstn n msg), wiped_digest 32 64).
Proof.
  intros Hb Hn Hl. pose proof (sha2_256_ok msg n Hb Hn Hl) as E. unfold sha2_256 in E. unfold sha2_256_r.
  destruct (sha256_final_ok IV256 msg n 0 good_IV256 Hb Hn) as (d' & G & F & _); [now rewrite Nat.add_0_r|].
  rewrite F in E. cbn [bind] in E. rewrite (final256_r _ _ _ _ _ F). cbn [bind].
  rewrite cleanse_all by (rewrite words_mem_length, G; reflexivity). cbn [bind].
  injection E as ->. reflexivity.
Qed.
Lemma sha2_512_r_ok msg n : bytes msg -> (n <= length msg)%nat -> byte_len_ok n ->
  sha2_512_r msg n = Ok (SHA512 (firstn n msg), wiped_digest 64 128).
Proof.
  intros Hb Hn Hl. pose proof (sha2_512_ok msg n Hb Hn Hl) as E. unfold sha2_512 in E. unfold sha2_512_r.
  destruct (sha512_final_ok IV512 msg n 0 good_IV512 Hb Hn) as (d' & G & F & _); [now rewrite Nat.add_0_r|].
  rewrite F in E. cbn [bind] in E. rewrite (final512_r _ _ _ _ _ F). cbn [bind].
  rewrite cleanse_all by (rewrite words_mem_length, G; reflexivity). cbn [bind].
  injection E as ->. reflexivity.
Qed.

(** SHA-1 and RIPEMD-160 have the final part inline: the digest has five words because the value theorem gives 20 bytes. *)
Lemma le5 d : length (out32 d) = 20%nat -> length (words_mem 4 d) = 20%nat.
Proof. rewrite out32_ok, concat_map_length, words_mem_length. lia. Qed.
Lemma sha1_r_ok msg n : bytes msg -> (n <= length msg)%nat -> byte_len_ok n ->
  sha1_r msg n = Ok (SHA1 (firstn n msg), wiped_digest 20 64).
Proof.
  intros Hb Hn Hl. pose proof (sha1_ok msg n Hb Hn Hl) as E. revert E. unfold sha1, sha1_r.
  destruct (block_loop n 64 sha1_transform IV1 msg n) as [[[d0 b] r]| |]; cbn [bind]; try discriminate.
  destruct (slice b 0 r) as [t| |]; cbn [bind]; try discriminate.
  destruct (store (repeat 0 64) 0 t) as [c| |] eqn:E1; cbn [bind]; try discriminate.
  destruct (store c r [0x80]) as [c'| |] eqn:E2; cbn [bind]; try discriminate.
  apply store_length in E1, E2. rewrite repeat_length in E1.
  destruct (if (55 <? r)%nat then _ else _) as [[d2 c2]| |] eqn:E3; cbn [bind]; try discriminate.
  assert (L2 : length c2 = 64%nat).
  { destruct (55 <? r)%nat; [|now injection E3 as <- <-; lia].
    destruct (sha1_transform d0 c') as [d3| |]; cbn [bind] in E3; try discriminate. injection E3 as <- <-. reflexivity. }
  destruct (store c2 56 _) as [c3| |] eqn:E4; cbn [bind]; try discriminate. apply store_length in E4.
  destruct (sha1_transform d2 c3) as [d3| |]; cbn [bind]; try discriminate.
  intros H. injection H as H.
  rewrite cleanse_all by (apply le5; rewrite H; apply SHA1_length). cbn [bind].
  rewrite cleanse_all by lia. cbn [bind]. rewrite H. reflexivity.
Qed.
Lemma le5' d : length (out32le d) = 20%nat -> length (words_mem 4 d) = 20%nat.
Proof.
  rewrite out32le_ok. intros H. rewrite <- H. unfold words_mem. f_equal. f_equal. apply map_ext. intros v. apply host_bytes_le.
Qed.
Lemma ripemd160_r_ok msg n : bytes msg -> (n <= length msg)%nat -> byte_len_ok n ->
  ripemd160_r msg n = Ok (RIPEMD160 (firstn n msg), wiped_digest 20 64).
Proof.
  intros Hb Hn Hl. pose proof (ripemd160_ok msg n Hb Hn Hl) as E. revert E. unfold ripemd160, ripemd160_r.
  destruct (block_loop n 64 ripemd160_transform IVr msg n) as [[[d0 b] r]| |]; cbn [bind]; try discriminate.
  destruct (slice b 0 r) as [t| |]; cbn [bind]; try discriminate.
  destruct (store (repeat 0 64) 0 t) as [c| |] eqn:E1; cbn [bind]; try discriminate.
  destruct (store c r [0x80]) as [c'| |] eqn:E2; cbn [bind]; try discriminate.
  apply store_length in E1, E2. rewrite repeat_length in E1.
  destruct (if (55 <? r)%nat then _ else _) as [[d2 c2]| |] eqn:E3; cbn [bind]; try discriminate.
  assert (L2 : length c2 = 64%nat).
  { destruct (55 <? r)%nat; [|now injection E3 as <- <-; lia].
    destruct (ripemd160_transform d0 c') as [d3| |]; cbn [bind] in E3; try discriminate. injection E3 as <- <-. reflexivity. }
  destruct (store c2 56 _) as [c3| |] eqn:E4; cbn [bind]; try discriminate. apply store_length in E4.
  destruct (ripemd160_transform d2 c3) as [d3| |]; cbn [bind]; try discriminate.
  intros H. injection H as H.
  rewrite cleanse_all by (apply le5'; rewrite H; apply RIPEMD160_length). cbn [bind].
  rewrite cleanse_all by lia. cbn [bind]. rewrite H. reflexivity.
Qed.

Lemma hash256_r_ok msg n : bytes msg -> (n <= length msg)%nat -> byte_len_ok n ->
  btc_hash256_r msg n = Ok (SHA256 (SHA256 (firstn n msg)),
    ("sha2_digest"%string, SHA256 (firstn n msg)) :: wiped_digest 32 64 ++ wiped_digest 32 64).
Proof.
  intros Hb Hn Hl. unfold btc_hash256_r. rewrite sha2_256_r_ok by assumption. cbn [bind].
  rewrite sha2_256_r_ok; [|apply SHA256_bytes|rewrite SHA256_length; lia|apply byte_len_small; lia]. cbn [bind].
  rewrite firstn_exact by apply SHA256_length. reflexivity.
Qed.
Lemma hash160_r_ok msg n : bytes msg -> (n <= length msg)%nat -> byte_len_ok n ->
  btc_hash160_r msg n = Ok (RIPEMD160 (SHA256 (firstn n msg)),
    ("sha2_digest"%string, SHA256 (firstn n msg)) :: wiped_digest 20 64 ++ wiped_digest 32 64).
Proof.
  intros Hb Hn Hl. unfold btc_hash160_r. rewrite sha2_256_r_ok by assumption. cbn [bind].
  rewrite ripemd160_r_ok; [|apply SHA256_bytes|rewrite SHA256_length; lia|apply byte_len_small; lia]. cbn [bind].
  rewrite firstn_exact by apply SHA256_length. reflexivity.
Qed.

(** The key as HMAC uses it: hashed when longer than a block, then padded with zeros (RFC 2104). *)
Definition padded_key (hash : list Z -> list Z) (blk : nat) (key : list Z) : list Z :=
  let k := if (length key <=? blk)%nat then key else hash key in k ++ repeat 0 (blk - length k).

Definition hmac_left (dn blk : nat) (long : bool) (k : list Z) : arrays :=
  [("digest_inner"%string, wiped dn); ("digest_outter"%string, wiped dn); ("buffer"%string, k);
   ("key_inner"%string, map (Z.lxor 0x36) k); ("key_outter"%string, map (Z.lxor 0x5c) k)] ++
  [("last_chunk"%string, wiped blk)] ++ [("last_chunk"%string, wiped blk)] ++ (if long then wiped_digest dn blk else []).

Lemma hmac_sha256_r_ok key kn msg mn : bytes key -> (kn <= length key)%nat -> bytes msg -> (mn <= length msg)%nat ->
  byte_len_ok kn -> byte_len_ok (mn + 64) ->
  hmac_sha256_r key kn msg mn = Ok (hmac SHA256 64 (firstn kn key) (firstn mn msg),
    hmac_left 32 64 (64 <? kn)%nat (padded_key SHA256 64 (firstn kn key))).
Proof.
  intros Hbk Hk Hbm Hm Hlk Hlm. pose proof (hmac_sha256_ok key kn msg mn Hbk Hk Hbm Hm Hlk Hlm) as E.
  revert E. unfold hmac_sha256, hmac_sha256_r.
  assert (Lk : length (firstn kn key) = kn) by (rewrite firstn_length; lia).
  set (k := padded_key SHA256 64 (firstn kn key)).
  assert (Lkk : length k = (8 * 8)%nat).
  { unfold k, padded_key. rewrite Lk. rewrite app_length, repeat_length.
    destruct (Nat.leb_spec kn 64); [lia|rewrite SHA256_length; lia]. }
  assert (Hbkk : bytes k).
  { unfold k, padded_key. rewrite Lk. apply bytes_app. split; [|apply bytes_repeat0].
    destruct (kn <=? 64)%nat; [now apply bytes_firstn|apply SHA256_bytes]. }
  match goal with |- bind ?x _ = _ -> _ => assert (Ek : x = Ok k) end.
  { unfold k, padded_key. rewrite Lk. destruct (Nat.leb_spec kn 64) as [Hle|Hgt].
    - rewrite slice_ok by lia. cbn [bind skipn]. now rewrite Lk.
    - rewrite sha2_256_ok by auto. cbn [bind]. rewrite SHA256_length. reflexivity. }
  rewrite Ek. clear Ek.
  match goal with |- _ -> bind ?x _ = _ => assert (Ek : x = Ok (k, if (64 <? kn)%nat then wiped_digest 32 64 else [])) end.
  { unfold k, padded_key. rewrite Lk. destruct (Nat.leb_spec kn 64) as [Hle|Hgt].
    - rewrite slice_ok by lia. cbn [bind skipn]. rewrite Lk. destruct (Nat.ltb_spec 64 kn); [lia|reflexivity].
    - rewrite sha2_256_r_ok by auto. cbn [bind]. rewrite SHA256_length. destruct (Nat.ltb_spec 64 kn); [reflexivity|lia]. }
  rewrite Ek. clear Ek. cbn [bind].
  change 0x3636363636363636 with (le_val (repeat 0x36 8)).
  change 0x5C5C5C5C5C5C5C5C with (le_val (repeat 0x5c 8)).
  rewrite !(fun c H => xor_words_ok c 8 k Hbkk H Lkk) by (apply byte_36 || apply byte_5c).
  set (ki := map (Z.lxor 0x36) k). set (ko := map (Z.lxor 0x5c) k).
  assert (Lki : length ki = 64%nat) by (unfold ki; now rewrite map_length).
  assert (Lko : length ko = 64%nat) by (unfold ko; now rewrite map_length).
  assert (Hki : bytes ki) by (apply map_lxor_bytes; [apply byte_36|exact Hbkk]).
  assert (Hko : bytes ko) by (apply map_lxor_bytes; [apply byte_5c|exact Hbkk]).
  rewrite (sha256_transform_ok IV256 ki good_IV256 Hki) by lia. cbn [bind]. rewrite (firstn_all2 ki) by lia.
  destruct (sha256_final_ok (comp256 IV256 ki) msg mn 64) as (di & Hgi & Fi & Hdi); auto; [apply comp256_good, good_IV256|].
  rewrite Fi, (final256_r _ _ _ _ _ Fi).
  cbn [bind]. rewrite (sha256_transform_ok IV256 ko good_IV256 Hko) by lia. cbn [bind]. rewrite (firstn_all2 ko) by lia.
  set (inner := out32 di).
  assert (Li : length inner = 32%nat) by (unfold inner; rewrite out32_ok, concat_map_length, Hgi; reflexivity).
  destruct (sha256_final_ok (comp256 IV256 ko) inner 32 64) as (dd & Hgd & Fo & Hdo);
    [apply comp256_good, good_IV256|unfold inner; rewrite out32_ok; apply concat_map_bytes|lia|unfold byte_len_ok; cbn; lia|].
  rewrite Fo, (final256_r _ _ _ _ _ Fo). cbn [bind].
  intros H. injection H as H. rewrite cleanse_all by (rewrite words_mem_length, Hgd; reflexivity). cbn [bind].
  rewrite cleanse_all by exact Li. cbn [bind]. rewrite H. reflexivity.
Qed.
Lemma hmac_sha512_r_ok key kn msg mn : bytes key -> (kn <= length key)%nat -> bytes msg -> (mn <= length msg)%nat ->
  byte_len_ok kn -> byte_len_ok (mn + 128) ->
  hmac_sha512_r key kn msg mn = Ok (hmac SHA512 128 (firstn kn key) (firstn mn msg),
    hmac_left 64 128 (128 <? kn)%nat (padded_key SHA512 128 (firstn kn key))).
Proof.
  intros Hbk Hk Hbm Hm Hlk Hlm. pose proof (hmac_sha512_ok key kn msg mn Hbk Hk Hbm Hm Hlk Hlm) as E.
  revert E. unfold hmac_sha512, hmac_sha512_r.
  assert (Lk : length (firstn kn key) = kn) by (rewrite firstn_length; lia).
  set (k := padded_key SHA512 128 (firstn kn key)).
  assert (Lkk : length k = (8 * 16)%nat).
  { unfold k, padded_key. rewrite Lk. rewrite app_length, repeat_length.
    destruct (Nat.leb_spec kn 128); [lia|rewrite SHA512_length; lia]. }
  assert (Hbkk : bytes k).
  { unfold k, padded_key. rewrite Lk. apply bytes_app. split; [|apply bytes_repeat0].
    destruct (kn <=? 128)%nat; [now apply bytes_firstn|apply SHA512_bytes]. }
  match goal with |- bind ?x _ = _ -> _ => assert (Ek : x = Ok k) end.
  { unfold k, padded_key. rewrite Lk. destruct (Nat.leb_spec kn 128) as [Hle|Hgt].
    - rewrite slice_ok by lia. cbn [bind skipn]. now rewrite Lk.
    - rewrite sha2_512_ok by auto. cbn [bind]. rewrite SHA512_length. reflexivity. }
  rewrite Ek. clear Ek.
  match goal with |- _ -> bind ?x _ = _ => assert (Ek : x = Ok (k, if (128 <? kn)%nat then wiped_digest 64 128 else [])) end.
  { unfold k, padded_key. rewrite Lk. destruct (Nat.leb_spec kn 128) as [Hle|Hgt].
    - rewrite slice_ok by lia. cbn [bind skipn]. rewrite Lk. destruct (Nat.ltb_spec 128 kn); [lia|reflexivity].
    - rewrite sha2_512_r_ok by auto. cbn [bind]. rewrite SHA512_length. destruct (Nat.ltb_spec 128 kn); [reflexivity|lia]. }
  rewrite Ek. clear Ek. cbn [bind].
  change 0x3636363636363636 with (le_val (repeat 0x36 8)).
  change 0x5C5C5C5C5C5C5C5C with (le_val (repeat 0x5c 8)).
  rewrite !(fun c H => xor_words_ok c 16 k Hbkk H Lkk) by (apply byte_36 || apply byte_5c).
  set (ki := map (Z.lxor 0x36) k). set (ko := map (Z.lxor 0x5c) k).
  assert (Lki : length ki = 128%nat) by (unfold ki; now rewrite map_length).
  assert (Lko : length ko = 128%nat) by (unfold ko; now rewrite map_length).
  assert (Hki : bytes ki) by (apply map_lxor_bytes; [apply byte_36|exact Hbkk]).
  assert (Hko : bytes ko) by (apply map_lxor_bytes; [apply byte_5c|exact Hbkk]).
  rewrite (sha512_transform_ok IV512 ki good_IV512 Hki) by lia. cbn [bind]. rewrite (firstn_all2 ki) by lia.
  destruct (sha512_final_ok (comp512 IV512 ki) msg mn 128) as (di & Hgi & Fi & Hdi); auto; [apply comp512_good, good_IV512|].
  rewrite Fi, (final512_r _ _ _ _ _ Fi).
  cbn [bind]. rewrite (sha512_transform_ok IV512 ko good_IV512 Hko) by lia. cbn [bind]. rewrite (firstn_all2 ko) by lia.
  set (inner := out64 di).
  assert (Li : length inner = 64%nat) by (unfold inner; rewrite out64_ok, concat_map_length, Hgi; reflexivity).
  destruct (sha512_final_ok (comp512 IV512 ko) inner 64 128) as (dd & Hgd & Fo & Hdo);
    [apply comp512_good, good_IV512|unfold inner; rewrite out64_ok; apply concat_map_bytes|lia|unfold byte_len_ok; cbn; lia|].
  rewrite Fo, (final512_r _ _ _ _ _ Fo). cbn [bind].
  intros H. injection H as H. rewrite cleanse_all by (rewrite words_mem_length, Hgd; reflexivity). cbn [bind].
  rewrite cleanse_all by exact Li. cbn [bind]. rewrite H. reflexivity.
Qed.
