(** Lemmas: the local arrays of key derivation at return. *)
From Coq Require Import String.
From Verif Require Import Base M_Endian S_Words L_Endian M_Sha2 S_Sha2 L_Md L_Sha2Top M_Hash L_Hash.
From Verif Require Import M_Random P_Random M_Secp M_Key S_Secp L_Secp S_Der S_Life S_Bip32 L_Der P_Der P_Sign L_Bip32 M_Exkey S_Exkey P_Bip32 M_Residue L_Residue.
Open Scope Z_scope.
Open Scope list_scope.

Definition bip32_left (chain : list Z) : arrays := ("buffer"%string, wiped 37) :: hmac_left 64 128 false (chain ++ repeat 0 96).

Lemma padded32 chain : length chain = 32%nat -> padded_key SHA512 128 chain = chain ++ repeat 0 96.
Proof. intros H. unfold padded_key. rewrite H. change (32 <=? 128)%nat with true. cbv iota zeta. rewrite H. reflexivity. Qed.

Lemma bip32_hash_r_ok chain child header data32 out :
  bytes chain -> (32 <= length chain)%nat -> bytes data32 -> (32 <= length data32)%nat ->
  btc_bip32_hash chain child header data32 = Ok out ->
  btc_bip32_hash_r chain child header data32 = Ok (out, bip32_left (firstn 32 chain)).
Proof.
  intros Hc Lc Hd Ld. rewrite bip32_hash_ok by assumption. intros H. injection H as <-. unfold btc_bip32_hash_r.
  change (uninit (1 + 32 + 4)) with ([-1000] ++ repeat (-1000) 36).
  rewrite store_ok by (cbn; lia). cbn [bind].
  change (firstn 0 ([-1000] ++ repeat (-1000) 36) ++ [u8 header] ++ skipn (0 + length [u8 header]) ([-1000] ++ repeat (-1000) 36))
    with (u8 header :: repeat (-1000) 36).
  rewrite slice_ok by lia. cbn [bind]. change (skipn 0 data32) with data32.
  assert (L32 : length (firstn 32 data32) = 32%nat) by (rewrite firstn_length; lia).
  set (d := firstn 32 data32) in *.
  assert (Hbd : bytes d) by now apply bytes_firstn.
  rewrite store_ok by (cbn [length]; rewrite repeat_length; lia). cbn [bind].
  rewrite L32. change (firstn 1 (u8 header :: repeat (-1000) 36)) with [u8 header].
  change (skipn (1 + 32) (u8 header :: repeat (-1000) 36)) with (repeat (-1000) 4).
  assert (F : firstn 33 ([u8 header] ++ d ++ repeat (-1000) 4) = [u8 header] ++ d).
  { rewrite app_assoc. replace 33%nat with (length ([u8 header] ++ d)) by (rewrite app_length, L32; reflexivity).
    apply firstn_app_exact. }
  assert (G : skipn 33 ([u8 header] ++ d ++ repeat (-1000) 4) = repeat (-1000) 4).
  { rewrite app_assoc. replace 33%nat with (length ([u8 header] ++ d)) by (rewrite app_length, L32; reflexivity).
    apply skipn_app_exact. }
  rewrite F, G. unfold write_big_32.
  rewrite store_ok by (unfold htobe32; rewrite htobe_bytes, be_bytes_length, repeat_length; lia). cbn [bind firstn app].
  unfold htobe32. rewrite htobe_bytes, be_bytes_length.
  change (skipn (0 + 4) (repeat (-1000) 4)) with (@nil Z). rewrite app_nil_r.
  assert (Lb : length (u8 header :: d ++ be_bytes 4 child) = 37%nat).
  { cbn [length]. rewrite app_length, L32, be_bytes_length. reflexivity. }
  assert (Lc32 : length (firstn 32 chain) = 32%nat) by (rewrite firstn_length; lia).
  rewrite hmac_sha512_r_ok; [|exact Hc|exact Lc| |lia|apply byte_len_small; lia|apply byte_len_small; lia].
  - cbn [bind]. rewrite cleanse_all by exact Lb. cbn [bind]. rewrite (firstn_exact 37) by exact Lb.
    rewrite padded32 by exact Lc32. reflexivity.
  - apply bytes_cons. split; [apply u8_byte|]. apply bytes_app. split; [exact Hbd|apply be_bytes_bytes].
Qed.

Definition derive_left (hardened : bool) (chain : list Z) : arrays :=
  ("out"%string, wiped 64) :: (if hardened then [] else [("encoded_pubkey"%string, wiped 33); ("pubkey64"%string, wiped 64)]) ++ bip32_left chain.

Lemma key_derive_r_ok E rep g key krest chain crest outk outc child r : secp_laws E -> ready g -> (forall P, length (rep P) = 64%nat) ->
  bytes key -> length key = 32%nat -> scalar (be_val key) -> bytes chain -> length chain = 32%nat ->
  bytes krest -> bytes crest ->
  (32 <= length outk)%nat -> (32 <= length outc)%nat -> 0 <= child < 2 ^ 32 ->
  key_derive E g (key ++ krest) (chain ++ crest) outk outc child = Ok r ->
  key_derive_r E rep g (key ++ krest) (chain ++ crest) outk outc child = Ok (r, derive_left (2 ^ 31 <=? child) chain).
Proof.
  intros Laws G Hrep Bk Lk Sk Bc Lc Bkr Bcr Lok Loc Hch.
  set (P := pub_of E (be_val key)).
  destruct (law_ser33 E Laws P) as (Ls & Bs & Hs).
  set (data := if 2 ^ 31 <=? child then 0 :: key ++ be_bytes 4 child else ser E true P ++ be_bytes 4 child).
  set (I := hmac_sha512_of chain data).
  assert (LI : length I = 64%nat) by apply hmac512_length. 
  unfold key_derive, key_derive_r. rewrite child_kind by assumption.
  assert (Pre : (if negb (2 ^ 31 <=? child) then
       pubkey64 <- key_get_pub E g (key ++ krest) ;;
       '(ret, encoded_pubkey) <- pubkey_encode E g pubkey64 (uninit BTC_COMPRESSED_PUBLIC_KEY_SIZE) BTC_COMPRESSED_PUBLIC_KEY_SIZE ;;
       header <- rd encoded_pubkey 0 ;;
       '(out, a) <- btc_bip32_hash_r (chain ++ crest) child header (skipn 1 encoded_pubkey) ;;
       pubkey64 <- cleanse (rep pubkey64) 0 64 ;;
       encoded_pubkey <- cleanse encoded_pubkey 0 BTC_COMPRESSED_PUBLIC_KEY_SIZE ;;
       Ok (ret, out, ("encoded_pubkey"%string, encoded_pubkey) :: ("pubkey64"%string, pubkey64) :: a)
     else
       '(out, a) <- btc_bip32_hash_r (chain ++ crest) child 0 (key ++ krest) ;;
       Ok (true, out, a)) =
       Ok (true, I, (if 2 ^ 31 <=? child then [] else [("encoded_pubkey"%string, wiped 33); ("pubkey64"%string, wiped 64)]) ++ bip32_left chain) /\
       (if negb (2 ^ 31 <=? child) then
       pubkey64 <- key_get_pub E g (key ++ krest) ;;
       '(ret, encoded_pubkey) <- pubkey_encode E g pubkey64 (uninit BTC_COMPRESSED_PUBLIC_KEY_SIZE) BTC_COMPRESSED_PUBLIC_KEY_SIZE ;;
       header <- rd encoded_pubkey 0 ;;
       out <- btc_bip32_hash (chain ++ crest) child header (skipn 1 encoded_pubkey) ;;
       _ <- cleanse encoded_pubkey 0 BTC_COMPRESSED_PUBLIC_KEY_SIZE ;;
       Ok (ret, out)
     else
       out <- btc_bip32_hash (chain ++ crest) child 0 (key ++ krest) ;;
       Ok (true, out)) = Ok (true, I)).
  { unfold I, data. destruct (2 ^ 31 <=? child); cbn [negb].
    - rewrite (bip32_hash_r_ok (chain ++ crest) child 0 (key ++ krest) (hmac_sha512_of chain (0 :: key ++ be_bytes 4 child)));
        [|apply bytes_app; auto|rewrite app_length; lia|apply bytes_app; auto|rewrite app_length; lia|].
      2:{ rewrite bip32_hash_ok; [|apply bytes_app; auto|rewrite app_length; lia|apply bytes_app; auto|rewrite app_length; lia].
          rewrite !firstn32 by assumption. reflexivity. }
      rewrite bip32_hash_ok; [|apply bytes_app; auto|rewrite app_length; lia|apply bytes_app; auto|rewrite app_length; lia].
      rewrite !firstn32 by assumption. split; reflexivity.
    - rewrite get_pub_ok by assumption. cbn [bind]. fold P.
      rewrite (pub_encode_ok E g true P) by (auto; unfold BTC_COMPRESSED_PUBLIC_KEY_SIZE; reflexivity). cbn [bind].
      change (skipn 33 (uninit BTC_COMPRESSED_PUBLIC_KEY_SIZE)) with (@nil Z). rewrite app_nil_r.
      destruct (ser E true P) as [|h t] eqn:Es; [discriminate|]. cbn [rd nth_error bind]. change (skipn 1 (h :: t)) with t.
      assert (Lht : length (h :: t) = 33%nat) by exact Ls.
      apply bytes_cons in Bs as [Bh Bt]. cbn [length] in Ls.
      assert (EH : btc_bip32_hash (chain ++ crest) child h t = Ok (hmac_sha512_of chain ((h :: t) ++ be_bytes 4 child))).
      { rewrite bip32_hash_ok; [|apply bytes_app; auto|rewrite app_length; lia|exact Bt|lia].
        rewrite firstn32 by assumption. rewrite (firstn_all2 t) by lia.
        unfold is_byte in Bh. rewrite Z.mod_small by lia. reflexivity. }
      rewrite EH. rewrite (bip32_hash_r_ok (chain ++ crest) child h t (hmac_sha512_of chain ((h :: t) ++ be_bytes 4 child)));
        [|apply bytes_app; auto|rewrite app_length; lia|exact Bt|lia|exact EH]. cbn [bind].
      rewrite cleanse_all by apply Hrep. cbn [bind]. rewrite (cleanse_all (h :: t) BTC_COMPRESSED_PUBLIC_KEY_SIZE) by exact Lht. cbn [bind].
      rewrite firstn32 by assumption. split; reflexivity. }
  destruct Pre as [Pr Pv]. rewrite Pv, Pr. cbn [bind negb].
  destruct (slice (key ++ krest) 0 32) as [k| |]; cbn [bind]; try discriminate.
  destruct (store outk 0 k) as [ok| |]; cbn [bind]; try discriminate.
  destruct (slice I 32 32) as [c| |]; cbn [bind]; try discriminate.
  destruct (store outc 0 c) as [oc| |]; cbn [bind]; try discriminate.
  destruct (secp_privkey_tweak_add (g_sign g) ok I) as [[b k']| |]; cbn [bind]; try discriminate.
  destruct (store ok 0 k') as [ok'| |]; cbn [bind]; try discriminate.
  rewrite !cleanse_all by exact LI. cbn [bind]. intros H. injection H as <-. reflexivity.
Qed.

Definition pub_derive_left (I chain : list Z) : arrays := ("out"%string, I) :: bip32_left chain.

Lemma pubkey_derive_r_ok E g K prest chain crest outp outc child r : secp_laws E -> ready g ->
  bytes chain -> length chain = 32%nat -> bytes prest -> bytes crest ->
  (33 <= length outp)%nat -> (32 <= length outc)%nat -> 0 <= child < 2 ^ 31 ->
  pubkey_derive E g (ser E true K ++ prest) (chain ++ crest) outp outc child = Ok r ->
  pubkey_derive_r E g (ser E true K ++ prest) (chain ++ crest) outp outc child =
    Ok (r, pub_derive_left (hmac_sha512_of chain (ser E true K ++ be_bytes 4 child)) chain).
Proof.
  intros Laws G Bc Lc Bpr Bcr Lop Loc Hch.
  destruct (law_ser33 E Laws K) as (Ls & Bs & Hs). set (I := hmac_sha512_of chain (ser E true K ++ be_bytes 4 child)).
  assert (LI : length I = 64%nat) by apply hmac512_length.
  unfold pubkey_derive, pubkey_derive_r. rewrite child_kind by lia. replace (2 ^ 31 <=? child) with false by lia. cbn [negb c_assert bind].
  assert (Par : secp_pubkey_parse E (g_verify g) (ser E true K ++ prest) 33 = Ok (Some K)).
  { unfold secp_pubkey_parse. destruct (ready_verify g G) as [x ->]. cbn [any_ctx bind].
    rewrite slice_ok by (rewrite app_length; lia). change (skipn 0 (ser E true K ++ prest)) with (ser E true K ++ prest).
    rewrite <- Ls at 1. rewrite firstn_app_exact. cbn [bind]. now rewrite (law_parse E Laws). }
  unfold pubkey_decode. rewrite Par.
  destruct (ser E true K) as [|h t] eqn:Es; [discriminate|]. cbn [hd] in Hs. cbn [app rd nth_error bind].
  replace ((h =? 2) || (h =? 3)) with true by lia. cbn [c_assert bind].
  change ((33 =? BTC_PUBLIC_KEY_SIZE) || (33 =? BTC_COMPRESSED_PUBLIC_KEY_SIZE))%nat with true. cbn [c_assert bind].
  change (skipn 1 (h :: t ++ prest)) with (t ++ prest). cbn [length] in Ls. apply bytes_cons in Bs as [Bh Bt].
  assert (EH : btc_bip32_hash (chain ++ crest) child h (t ++ prest) = Ok I).
  { rewrite bip32_hash_ok; [|apply bytes_app; auto|rewrite app_length; lia|apply bytes_app; auto|rewrite app_length; lia].
    rewrite !firstn32 by lia. unfold is_byte in Bh. rewrite Z.mod_small by lia. reflexivity. }
  rewrite EH. rewrite (bip32_hash_r_ok (chain ++ crest) child h (t ++ prest) I);
    [|apply bytes_app; auto|rewrite app_length; lia|apply bytes_app; auto|rewrite app_length; lia|exact EH].
  cbn [bind]. rewrite firstn32 by assumption.
  destruct (slice I 32 32) as [c| |]; cbn [bind]; try discriminate.
  destruct (store outc 0 c) as [oc| |]; cbn [bind]; try discriminate.
  destruct (secp_pubkey_tweak_add E (g_verify g) K I) as [[Q|]| |]; cbn [bind]; try discriminate.
  - destruct (pubkey_encode E g Q outp 33) as [[b o]| |]; cbn [bind]; try discriminate. intros H. injection H as <-. reflexivity.
  - intros H. injection H as <-. reflexivity.
Qed.

Definition master_left : arrays := ("out"%string, wiped 64) :: hmac_left 64 128 false (bitcoin_seed ++ repeat 0 116).

Lemma Ok_inj A (x y : A) : Ok x = Ok y -> x = y.
Proof. congruence. Qed.
Lemma exkey_init_r_step key seed len out a k : hmac_sha512 hashkey 12 seed len = Ok out -> length out = 64%nat ->
  hmac_sha512_r hashkey 12 seed len = Ok (out, a) -> exkey_init key seed len = Ok k ->
  exkey_init_r key seed len = Ok (k, ("out"%string, wiped 64) :: a).
Proof.
  intros E1 L E2. unfold exkey_init, exkey_init_r. rewrite E1, E2. clear E1 E2. cbn [bind].
  destruct (slice out 0 32) as [kk| |]; cbn [bind]; try discriminate.
  destruct (store (xk_key key) 0 kk) as [nk| |]; cbn [bind]; try discriminate.
  destruct (slice out 32 32) as [c| |]; cbn [bind]; try discriminate.
  destruct (store (x_chain_code (xk_ext key)) 0 c) as [nc| |]; cbn [bind]; try discriminate.
  rewrite !cleanse_all by exact L. cbn [bind]. intros H. apply Ok_inj in H. rewrite H. reflexivity.
Qed.
Lemma exkey_init_r_ok key seed rest k : bytes seed -> bytes rest -> Z.of_nat (length seed) < 2 ^ 60 ->
  exkey_init key (seed ++ rest) (length seed) = Ok k ->
  exkey_init_r key (seed ++ rest) (length seed) = Ok (k, master_left).
Proof.
  intros Bs Br L.
  assert (BB : bytes hashkey) by (unfold hashkey; repeat constructor; unfold is_byte; lia).
  assert (BL : byte_len_ok (length seed + 128)) by (unfold byte_len_ok; change (2 ^ 64) with (2 ^ 60 * 16); lia).
  apply exkey_init_r_step with (out := hmac SHA512 128 (firstn 12 hashkey) (firstn (length seed) (seed ++ rest))).
  - apply hmac_sha512_ok; [exact BB|unfold hashkey; cbn [length]; lia|apply bytes_app; auto|rewrite app_length; lia|apply byte_len_small; lia|exact BL].
  - apply hmac512_length.
  - rewrite hmac_sha512_r_ok; [|exact BB|unfold hashkey; cbn [length]; lia|apply bytes_app; auto|rewrite app_length; lia|apply byte_len_small; lia|exact BL].
    reflexivity.
Qed.

Lemma rand_loop_length fuel o : forall i mem n m, rand_loop fuel o i mem n = Ok (Returned m) -> length m = length mem.
Proof.
  induction fuel as [|fuel IH]; intros i mem n m; cbn [rand_loop]; destruct (n =? 0)%nat; try (intros H; now injection H as <-); try discriminate.
  destruct (os_read o i n) as [d|]; [|discriminate]. destruct (store mem 0 d) as [m'| |] eqn:Es; cbn [bind]; try discriminate.
  apply store_length in Es. destruct (_ <=? 0); [discriminate|]. intros H. apply IH in H. lia.
Qed.
Lemma key_init_r_ok fuel o st g h : key_init fuel o st = Ok (Returned (g, h)) ->
  key_init_r fuel o st = Ok (Returned (g, h, [("rand_buffer"%string, wiped 32)])).
Proof.
  destruct st as [g0 h0]. unfold key_init, key_init_r.
  destruct (c_assert (is_null (g_verify g0))); cbn [bind]; try discriminate.
  destruct (context_create h0 false true) as [cv h1].
  destruct (c_assert _); cbn [bind]; try discriminate.
  destruct (context_create h1 true false) as [cs h2].
  destruct (os_rand_bytes fuel o (uninit 32) 32) as [[b| |]| |] eqn:Er; cbn [bind]; try discriminate.
  destruct (sign_ctx _); cbn [bind]; try discriminate.
  unfold cleanse. destruct (store b 0 (repeat 204 32)) as [b'| |] eqn:Eb; cbn [bind]; try discriminate.
  intros H. injection H as <- <-. assert (Lb : length b = 32%nat) by (unfold os_rand_bytes in Er; destruct (os_open o); [|discriminate]; apply rand_loop_length in Er; exact Er).
  assert (Ew : b' = wiped 32); [|rewrite Ew; reflexivity].
  apply Ok_inj. rewrite <- Eb. exact (cleanse_all b 32 Lb).
Qed.
