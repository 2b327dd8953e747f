(** Lemmas about public key encoding and derivation. *)
From Verif Require Import Base S_Words L_Endian M_Endian S_Sha2 L_Sha2Top L_Hash M_Hash M_Random P_Random M_Secp M_Key S_Secp L_Secp S_Der S_Life S_Bip32 L_Der P_Der P_Sign.

Lemma get_pub_ok E g key krest : ready g -> length key = 32%nat -> scalar (be_val key) ->
  key_get_pub E g (key ++ krest) = Ok (pub_of E (be_val key)).
Proof.
  intros (cs & cv & Gs & _ & Cs & _) Lk Sk. unfold key_get_pub, secp_pubkey_create, sign_ctx. rewrite Gs, Cs. cbn [c_assert bind].
  rewrite slice32 by assumption. cbn [bind]. unfold scalar in Sk. replace ((0 <? be_val key) && (be_val key <? secp_n)) with true by lia. reflexivity.
Qed.

Lemma pub_encode_ok E g (c : bool) P out : secp_laws E -> ready g -> let len := if c then 33%nat else 65%nat in (len <= length out)%nat ->
  pubkey_encode E g P out len = Ok (true, ser E c P ++ skipn len out).
Proof.
  intros Laws (cs & cv & Gs & _) len Lo. unfold pubkey_encode.
  assert (Ls : length (ser E c P) = len) by (unfold len; destruct c; [apply (law_ser33 E Laws)|apply (law_ser65 E Laws)]).
  replace ((len =? BTC_PUBLIC_KEY_SIZE) || (len =? BTC_COMPRESSED_PUBLIC_KEY_SIZE))%nat with true by (unfold len; now destruct c).
  cbn [c_assert bind]. unfold secp_pubkey_serialize. rewrite Gs. cbn [any_ctx bind].
  replace (len =? 33)%nat with c by (unfold len; now destruct c). fold len. rewrite Nat.leb_refl. cbn [c_assert bind].
  rewrite store0 by lia. cbn [bind]. rewrite Ls, Nat.eqb_refl. reflexivity.
Qed.

Lemma hmac512_length k m : length (hmac SHA512 128 k m) = 64%nat.
Proof. unfold hmac. apply SHA512_length. Qed.
Lemma hmac512_bytes k m : bytes (hmac SHA512 128 k m).
Proof. unfold hmac. apply SHA512_bytes. Qed.

Lemma child_kind child : 0 <= child < 2 ^ 32 -> (Z.shiftr child 31 =? 0) = negb (2 ^ 31 <=? child).
Proof.
  intros H. rewrite Z.shiftr_div_pow2 by lia. destruct (Z.leb_spec (2 ^ 31) child) as [L|L]; cbn [negb].
  - apply Z.eqb_neq. intros E. assert (child / 2 ^ 31 >= 1) by (apply Z.le_ge, Z.div_le_lower_bound; lia). lia.
  - apply Z.eqb_eq. apply Z.div_small. lia.
Qed.

Lemma firstn32 (a rest : list Z) : length a = 32%nat -> firstn 32 (a ++ rest) = a.
Proof. intros <-. apply firstn_app_exact. Qed.

(** The whole of key_derive. *)
Lemma key_derive_ok E g key krest chain crest outk outc child : secp_laws E -> ready g ->
  bytes key -> length key = 32%nat -> scalar (be_val key) -> bytes chain -> length chain = 32%nat ->
  bytes krest -> bytes crest ->
  (32 <= length outk)%nat -> (32 <= length outc)%nat -> 0 <= child < 2 ^ 32 ->
  exists I, length I = 64%nat /\ bytes I /\
    I = hmac_sha512_of chain (if 2 ^ 31 <=? child then 0 :: key ++ be_bytes 4 child else ser E true (pub_of E (be_val key)) ++ be_bytes 4 child) /\
    key_derive E g (key ++ krest) (chain ++ crest) outk outc child =
      let sum := (be_val (firstn 32 I) + be_val key) mod secp_n in
      if (secp_n <=? be_val (firstn 32 I)) || (sum =? 0) then Ok (false, repeat 0 32 ++ skipn 32 outk, skipn 32 I ++ skipn 32 outc)
      else Ok (true, be_bytes 32 sum ++ skipn 32 outk, skipn 32 I ++ skipn 32 outc).
Proof.
  intros Laws G Bk Lk Sk Bc Lc Bkr Bcr Lok Loc Hch.
  set (P := pub_of E (be_val key)).
  destruct (law_ser33 E Laws P) as (Ls & Bs & Hs).
  set (data := if 2 ^ 31 <=? child then 0 :: key ++ be_bytes 4 child else ser E true P ++ be_bytes 4 child).
  set (I := hmac_sha512_of chain data). exists I.
  assert (LI : length I = 64%nat) by apply hmac512_length. assert (BI : bytes I) by apply hmac512_bytes.
  split; [exact LI|]. split; [exact BI|]. split; [reflexivity|].
  unfold key_derive. rewrite child_kind by assumption.
  assert (Pre : (if negb (2 ^ 31 <=? child) then
       pubkey64 <- key_get_pub E g (key ++ krest) ;;
       '(ret, encoded_pubkey) <- pubkey_encode E g pubkey64 (uninit BTC_COMPRESSED_PUBLIC_KEY_SIZE) BTC_COMPRESSED_PUBLIC_KEY_SIZE ;;
       header <- rd encoded_pubkey 0 ;;
       out <- btc_bip32_hash (chain ++ crest) child header (skipn 1 encoded_pubkey) ;;
       _ <- cleanse encoded_pubkey 0 BTC_COMPRESSED_PUBLIC_KEY_SIZE ;;
       Ok (ret, out)
     else
       out <- btc_bip32_hash (chain ++ crest) child 0 (key ++ krest) ;;
       Ok (true, out)) = Ok (true, I)).
  { unfold I, data. destruct (2 ^ 31 <=? child); cbn [negb].
    - rewrite bip32_hash_ok; [|apply bytes_app; auto|rewrite app_length; lia|apply bytes_app; auto|rewrite app_length; lia].
      rewrite !firstn32 by assumption. reflexivity.
    - rewrite get_pub_ok by assumption. cbn [bind]. fold P.
      rewrite (pub_encode_ok E g true P) by (auto; unfold BTC_COMPRESSED_PUBLIC_KEY_SIZE; reflexivity). cbn [bind].
      change (skipn 33 (uninit BTC_COMPRESSED_PUBLIC_KEY_SIZE)) with (@nil Z). rewrite app_nil_r.
      destruct (ser E true P) as [|h t] eqn:Es; [discriminate|]. cbn [rd nth_error bind]. change (skipn 1 (h :: t)) with t.
      apply bytes_cons in Bs as [Bh Bt]. cbn [length] in Ls.
      rewrite bip32_hash_ok; [|apply bytes_app; auto|rewrite app_length; lia|exact Bt|lia]. cbn [bind].
      unfold cleanse. rewrite store_ok by (rewrite repeat_length; unfold BTC_COMPRESSED_PUBLIC_KEY_SIZE; cbn [length]; lia). cbn [bind].
      rewrite firstn32 by assumption. rewrite (firstn_all2 t) by lia.
      unfold is_byte in Bh. rewrite Z.mod_small by lia. reflexivity. }
  rewrite Pre. cbn [bind negb].
  rewrite slice32 by assumption. cbn [bind]. rewrite store0 by lia. cbn [bind].
  rewrite (slice_ok I 32 32) by lia. cbn [bind].
  replace (firstn 32 (skipn 32 I)) with (skipn 32 I) by (symmetry; apply firstn_all2; rewrite skipn_length; lia).
  assert (LIr : length (skipn 32 I) = 32%nat) by (rewrite skipn_length; lia).
  rewrite store0 by lia. cbn [bind]. rewrite LIr, Lk.
  unfold secp_privkey_tweak_add. destruct (ready_sign g G) as [x ->]. cbn [any_ctx bind]. rewrite slice32 by assumption. cbn [bind].
  rewrite (slice_ok I 0 32) by lia. change (skipn 0 I) with I. cbn [bind].
  rewrite (Z.add_comm (be_val key)). cbv zeta. set (sum := (be_val (firstn 32 I) + be_val key) mod secp_n).
  assert (Sl : forall l, length l = 32%nat -> store (key ++ skipn 32 outk) 0 l = Ok (l ++ skipn 32 outk)).
  { intros l Ll. rewrite store0 by (rewrite app_length; lia). rewrite Ll, <- Lk at 1. now rewrite skipn_app_exact. }
  destruct (Z.leb_spec secp_n (be_val (firstn 32 I))) as [H|H]; cbn [orb].
  - replace (be_val (firstn 32 I) <? secp_n) with false by lia. cbn [andb bind]. rewrite Sl by apply repeat_length. reflexivity.
  - replace (be_val (firstn 32 I) <? secp_n) with true by lia. cbn [andb].
    destruct (sum =? 0); cbn [negb bind].
    + rewrite Sl by apply repeat_length. reflexivity.
    + rewrite Sl by apply be_bytes_length. reflexivity.
Qed.

(** The whole of pubkey_derive on a serialised point. *)
Lemma pubkey_derive_ok E g K prest chain crest outp outc child : secp_laws E -> ready g ->
  bytes chain -> length chain = 32%nat -> bytes prest -> bytes crest ->
  (33 <= length outp)%nat -> (32 <= length outc)%nat -> 0 <= child < 2 ^ 31 ->
  exists I, length I = 64%nat /\ bytes I /\ I = hmac_sha512_of chain (ser E true K ++ be_bytes 4 child) /\
    pubkey_derive E g (ser E true K ++ prest) (chain ++ crest) outp outc child =
      if secp_n <=? be_val (firstn 32 I) then Ok (false, outp, skipn 32 I ++ skipn 32 outc)
      else match add_gen E K (be_val (firstn 32 I)) with
           | None => Ok (false, outp, skipn 32 I ++ skipn 32 outc)
           | Some Ki => Ok (true, ser E true Ki ++ skipn 33 outp, skipn 32 I ++ skipn 32 outc)
           end.
Proof.
  intros Laws G Bc Lc Bpr Bcr Lop Loc Hch.
  destruct (law_ser33 E Laws K) as (Ls & Bs & Hs). set (I := hmac_sha512_of chain (ser E true K ++ be_bytes 4 child)).
  exists I. assert (LI : length I = 64%nat) by apply hmac512_length. assert (BI : bytes I) by apply hmac512_bytes.
  split; [exact LI|]. split; [exact BI|]. split; [reflexivity|].
  unfold pubkey_derive. rewrite child_kind by lia. replace (2 ^ 31 <=? child) with false by lia. cbn [negb c_assert bind].
  assert (Par : secp_pubkey_parse E (g_verify g) (ser E true K ++ prest) 33 = Ok (Some K)).
  { unfold secp_pubkey_parse. destruct (ready_verify g G) as [x ->]. cbn [any_ctx bind].
    rewrite slice_ok by (rewrite app_length; lia). change (skipn 0 (ser E true K ++ prest)) with (ser E true K ++ prest).
    rewrite <- Ls at 1. rewrite firstn_app_exact. cbn [bind]. now rewrite (law_parse E Laws). }
  unfold pubkey_decode. rewrite Par.
  destruct (ser E true K) as [|h t] eqn:Es; [discriminate|]. cbn [hd] in Hs. cbn [app rd nth_error bind].
  replace ((h =? 2) || (h =? 3)) with true by lia. cbn [c_assert bind].
  change ((33 =? BTC_PUBLIC_KEY_SIZE) || (33 =? BTC_COMPRESSED_PUBLIC_KEY_SIZE))%nat with true. cbn [c_assert bind].
  change (skipn 1 (h :: t ++ prest)) with (t ++ prest). cbn [length] in Ls. apply bytes_cons in Bs as [Bh Bt].
  rewrite bip32_hash_ok; [|apply bytes_app; auto|rewrite app_length; lia|apply bytes_app; auto|rewrite app_length; lia].
  rewrite !firstn32 by lia. unfold is_byte in Bh. rewrite Z.mod_small by lia.
  change (hmac SHA512 128 chain ([h] ++ t ++ be_bytes 4 child)) with I. cbn [bind].
  rewrite (slice_ok I 32 32) by lia. cbn [bind].
  replace (firstn 32 (skipn 32 I)) with (skipn 32 I) by (symmetry; apply firstn_all2; rewrite skipn_length; lia).
  assert (LIr : length (skipn 32 I) = 32%nat) by (rewrite skipn_length; lia).
  rewrite store0 by lia. cbn [bind]. rewrite LIr. 

  unfold secp_pubkey_tweak_add, verify_ctx. assert (G' := G). destruct G' as (cs & cv & _ & -> & _ & Cv). rewrite Cv. cbn [c_assert bind].
  rewrite (slice_ok I 0 32) by lia. change (skipn 0 I) with I. cbn [bind].
  destruct (Z.leb_spec secp_n (be_val (firstn 32 I))) as [H|H].
  - replace (be_val (firstn 32 I) <? secp_n) with false by lia. reflexivity.
  - replace (be_val (firstn 32 I) <? secp_n) with true by lia. destruct (add_gen E K (be_val (firstn 32 I))) as [Ki|]; [|reflexivity].
    rewrite (pub_encode_ok E g true Ki) by auto. reflexivity.
Qed.
