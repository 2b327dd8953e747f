(** C102: the functions of src/btc. *)
From Verif Require Import Base S_Words S_Secp S_Life M_Endian M_Sha2 M_Sha1 M_Ripemd M_Hash M_Base58 M_Base58Check M_Address M_Random M_Secp M_Key M_Exkey
  M_Host L_Endian L_Sha2Top L_Ripemd L_Hash L_Bip32 L_Host L_Base58Check L_Sha1.

(** The first [n] bytes are initialised. *)
Definition init_to (n : nat) (m : list Z) : Prop := bytes (firstn n m).
Lemma init_store m off bs m' : store m off bs = Ok m' -> bytes bs -> init_to off m -> init_to (off + length bs) m' /\ length m' = length m.
Proof.
  unfold store, init_to. destruct (_ <=? _)%nat eqn:E; [|discriminate]. intros [= <-] B I. apply Nat.leb_le in E. split.
  - rewrite app_assoc, firstn_app. assert (L : length (firstn off m ++ bs) = (off + length bs)%nat) by (rewrite app_length, firstn_length; lia).
    rewrite firstn_all2 by lia. rewrite L, Nat.sub_diag. cbn [firstn]. rewrite app_nil_r. apply bytes_app. auto.
  - rewrite !app_length, firstn_length, skipn_length. lia.
Qed.
Lemma init_sub n m a b : init_to n m -> (a + b <= n)%nat -> bytes (firstn b (skipn a m)).
Proof.
  intros I H. rewrite firstn_skipn_comm. apply bytes_skipn. replace (firstn (a + b) m) with (firstn (a + b) (firstn n m)); [apply bytes_firstn, I|].
  rewrite firstn_firstn. f_equal. lia.
Qed.
Lemma init_all n m : init_to n m -> (length m <= n)%nat -> bytes m.
Proof. unfold init_to. intros I L. rewrite firstn_all2 in I by lia. exact I. Qed.
Lemma init_0 m : init_to 0 m. Proof. constructor. Qed.
Lemma byte_u8 v : is_byte (u8 v). Proof. unfold is_byte, u8. lia. Qed.

Lemma slice_firstn buf n : slice buf 0 n = slice (firstn n buf) 0 n.
Proof.
  unfold slice. rewrite skipn_O, skipn_O, firstn_firstn, Nat.min_id, firstn_length. cbn [Nat.add].
  replace (n <=? Nat.min n (length buf))%nat with (n <=? length buf)%nat; [reflexivity|].
  destruct (Nat.leb_spec n (length buf)), (Nat.leb_spec n (Nat.min n (length buf))); lia.
Qed.
Lemma h_rl_part h buf : bytes (firstn 4 buf) -> h_read_little h 4 buf = read_little_32 buf.
Proof. intros B. unfold h_read_little, read_little_32. rewrite slice_firstn. exact (h_rl32_eq h _ B). Qed.
Lemma h_rb_part h buf : bytes (firstn 4 buf) -> h_read_big h 4 buf = read_big_32 buf.
Proof. intros B. unfold h_read_big, read_big_32. rewrite slice_firstn. exact (h_rb32_eq h _ B). Qed.

Lemma h_bip32_eq h chain child header data : bytes chain -> bytes data -> h_btc_bip32_hash h chain child header data = btc_bip32_hash chain child header data.
Proof.
  intros Bc Bd. unfold h_btc_bip32_hash, btc_bip32_hash. apply bind_ext; [reflexivity|]. intros b1 H1.
  destruct (init_store _ _ _ _ H1 (bytes_one _ (byte_u8 header)) (init_0 _)) as [I1 L1]. cbn [length Nat.add] in I1.
  apply bind_ext; [reflexivity|]. intros d Hd. destruct (slice_bytes _ _ _ _ Bd Hd) as [Bdd Ld].
  apply bind_ext; [reflexivity|]. intros b2 H2. destruct (init_store _ _ _ _ H2 Bdd I1) as [I2 L2]. rewrite Ld in I2. change (1 + 32)%nat with 33%nat in I2.
  rewrite h_wb32_eq. apply bind_ext; [reflexivity|]. intros tl Ht. apply h_hmac512_eq; [exact Bc|]. apply bytes_app. split; [exact I2|].
  unfold write_big_32, htobe32 in Ht. rewrite htobe_bytes in Ht. destruct (init_store _ _ _ _ Ht (be_bytes_bytes _ _) (init_0 _)) as [I3 L3].
  rewrite be_bytes_length in I3. apply (init_all _ _ I3). rewrite L3, skipn_length, L2, L1, uninit_length. lia.
Qed.

Lemma h_to58c_eq h buf prefix : bytes buf -> bytes prefix -> h_to_base58_check h buf prefix = to_base58_check buf prefix.
Proof.
  intros Bb Bp. unfold h_to_base58_check, to_base58_check. cbv zeta. apply bind_ext; [reflexivity|]. intros b1 H1.
  destruct (init_store _ _ _ _ H1 Bp (init_0 _)) as [I1 L1]. cbn [Nat.add] in I1. apply bind_ext; [reflexivity|]. intros b2 H2.
  destruct (init_store _ _ _ _ H2 Bb I1) as [I2 L2]. apply bind_ext; [reflexivity|]. intros w Hw.
  rewrite h_hash256_eq; [reflexivity|]. unfold slice in Hw. destruct (_ <=? _)%nat; [|discriminate]. injection Hw as <-.
  apply (init_sub _ _ 0 _ I2). lia.
Qed.

Lemma carry_bytes mul : forall b carry i len c i' b', bytes b -> carry_loop mul 256 carry i len b = (c, i', b') -> bytes b'.
Proof.
  induction b as [|x b IH]; intros carry i len c i' b' B; cbn [carry_loop].
  - intros [= _ _ <-]. constructor.
  - apply bytes_cons in B as [Bx B]. destruct (_ || _).
    + destruct (carry_loop _ _ _ _ _ b) as [[c2 i2] b2] eqn:E. intros [= _ _ <-]. apply bytes_cons. split; [unfold is_byte; lia|]. exact (IH _ _ _ _ _ _ B E).
    + intros [= _ _ <-]. apply bytes_cons. auto.
Qed.
Lemma from58_loop_bytes : forall str len b l b' s, bytes b -> from_base58_loop str len b = Ok (Some (l, b', s)) -> bytes b'.
Proof.
  induction str as [|c str IH]; intros len b l b' s B; cbn [from_base58_loop]; [discriminate|].
  destruct (c =? 0). { intros [= _ <- _]. exact B. }
  destruct (isspace c) as [[]| |]; cbn [bind]; try discriminate. { intros [= _ <- _]. exact B. }
  destruct (_ =? -1); [discriminate|]. destruct (carry_loop _ _ _ _ _ _) as [[c2 i2] b2] eqn:E.
  destruct (c_assert _); cbn [bind]; try discriminate. apply IH. exact (carry_bytes _ _ _ _ _ _ _ _ B E).
Qed.
Lemma skip_zeroes_bytes l : bytes l -> bytes (snd (skip_zeroes l)).
Proof.
  induction l as [|x l IH]; intros B; [constructor|]. cbn [skip_zeroes]. destruct (x =? 0); [|exact B].
  apply bytes_cons in B as [_ B]. specialize (IH B). destruct (skip_zeroes l). exact IH.
Qed.
Lemma from58_bytes str n k out : from_base58 str n = Ok (k, out) -> bytes out /\ k = length out.
Proof.
  unfold from_base58. intros H. apply bind_Ok in H as ([sp s1] & _ & H). apply bind_Ok in H as ([z s2] & _ & H).
  apply bind_Ok in H as (u1 & _ & H). apply bind_Ok in H as (u2 & _ & H). apply bind_Ok in H as ([[[l b] s3]|] & Hl & H).
  2:{ injection H as <- <-. split; [constructor|reflexivity]. }
  apply from58_loop_bytes in Hl; [|apply bytes_repeat0].
  apply bind_Ok in H as (s4 & _ & H). apply bind_Ok in H as (c & _ & H). destruct (negb _); injection H as <- <-; [split; [constructor|reflexivity]|].
  split; [|reflexivity]. apply bytes_app. split; [apply bytes_repeat0|]. apply skip_zeroes_bytes, bytes_rev, bytes_firstn, Hl.
Qed.
Lemma h_from58c_eq h str n : h_from_base58_check h str n = from_base58_check str n.
Proof.
  unfold h_from_base58_check, from_base58_check. apply bind_ext; [reflexivity|]. intros [k out] H. apply from58_bytes in H as [B _].
  destruct (_ <? _)%nat; [reflexivity|]. apply bind_ext; [reflexivity|]. intros w Hw. destruct (slice_bytes _ _ _ _ B Hw) as [Bw _].
  rewrite h_hash256_eq by exact Bw. reflexivity.
Qed.
Lemma from58c_bytes str n k out : from_base58_check str n = Ok (k, out) -> bytes out /\ (k <= length out)%nat.
Proof.
  unfold from_base58_check. intros H. apply bind_Ok in H as ([k' o'] & H1 & H). apply from58_bytes in H1 as [B ->].
  destruct (_ <? _)%nat. { injection H as <- <-. split; [exact B|lia]. }
  apply bind_Ok in H as (w & _ & H). apply bind_Ok in H as (hs & _ & H). apply bind_Ok in H as (h4 & _ & H). apply bind_Ok in H as (c4 & _ & H).
  destruct (negb _); injection H as <- <-; split; auto; lia.
Qed.

(** Keys *)
Lemma h_derive_eq h E g key chain outk outc child : secp_laws E -> ready g -> bytes key -> bytes chain ->
  h_key_derive h E g key chain outk outc child = key_derive E g key chain outk outc child.
Proof.
  intros Laws G Bk Bc. unfold h_key_derive, key_derive. apply bind_ext; [|reflexivity].
  destruct (_ =? 0); [|rewrite h_bip32_eq by assumption; reflexivity].
  apply bind_ext; [reflexivity|]. intros P _. unfold BTC_COMPRESSED_PUBLIC_KEY_SIZE.
  rewrite (pub_encode_ok E g true P) by (auto; rewrite uninit_length; lia). cbn [bind]. change (skipn 33 (uninit 33)) with (@nil Z). rewrite app_nil_r.
  destruct (law_ser33 E Laws P) as (_ & Bs & _). apply bind_ext; [reflexivity|]. intros hd _.
  rewrite h_bip32_eq by (auto using bytes_skipn). reflexivity.
Qed.
Lemma h_pubderive_eq h E g pub chain outp outc child : bytes pub -> bytes chain ->
  h_pubkey_derive h E g pub chain outp outc child = pubkey_derive E g pub chain outp outc child.
Proof.
  intros Bp Bc. unfold h_pubkey_derive, pubkey_derive. apply bind_ext; [reflexivity|]. intros _ _. apply bind_ext; [reflexivity|]. intros hd _.
  apply bind_ext; [reflexivity|]. intros _ _. apply bind_ext; [reflexivity|]. intros [P|] _; [|reflexivity].
  rewrite h_bip32_eq by (auto using bytes_skipn). reflexivity.
Qed.
Lemma h_grind_eq h E g hash key : forall fuel sig ee c, h_grind h fuel E g hash key sig ee c = grind fuel E g hash key sig ee c.
Proof.
  induction fuel as [|f IH]; intros [s|] ee c; cbn [h_grind grind]; try reflexivity.
  apply bind_ext; [reflexivity|]. intros [] _; [reflexivity|]. rewrite h_wl32_eq. apply bind_ext; [reflexivity|]. intros e' _.
  apply bind_ext; [reflexivity|]. intros s' _. apply IH.
Qed.
Lemma h_sign_eq h fuel E g key hash : h_key_sign h fuel E g key hash = key_sign fuel E g key hash.
Proof. unfold h_key_sign, key_sign. apply bind_ext; [reflexivity|]. intros s _. rewrite h_grind_eq. reflexivity. Qed.
Lemma h_keyid_eq h E g P c : secp_laws E -> ready g -> h_pubkey_keyid h E g P c = pubkey_keyid E g P c.
Proof.
  intros Laws G. unfold h_pubkey_keyid, pubkey_keyid. cbv zeta.
  set (len := if c then BTC_COMPRESSED_PUBLIC_KEY_SIZE else BTC_PUBLIC_KEY_SIZE).
  assert (E1 : pubkey_encode E g P (uninit BTC_PUBLIC_KEY_SIZE) len = Ok (true, ser E c P ++ skipn len (uninit BTC_PUBLIC_KEY_SIZE))).
  { destruct c; [apply (pub_encode_ok E g true P)|apply (pub_encode_ok E g false P)]; auto; unfold BTC_PUBLIC_KEY_SIZE; rewrite uninit_length; lia. }
  rewrite E1. cbn [bind c_assert]. apply bind_ext; [reflexivity|]. intros w Hw. apply h_hash160_eq.
  assert (Ls : length (ser E c P) = len /\ bytes (ser E c P)).
  { unfold len. destruct c; [destruct (law_ser33 E Laws P) as (A & B & _)|destruct (law_ser65 E Laws P) as (A & B & _)]; auto. }
  destruct Ls as [Ls Bs]. unfold slice in Hw. destruct (_ <=? _)%nat; [|discriminate]. rewrite skipn_O in Hw. injection Hw as <-.
  rewrite <- Ls at 1. rewrite firstn_app, firstn_all, Nat.sub_diag. cbn [firstn]. rewrite app_nil_r. exact Bs.
Qed.
Lemma keyid_bytes E g P c k : pubkey_keyid E g P c = Ok k -> bytes k.
Proof.
  unfold pubkey_keyid. cbv zeta. intros H. apply bind_Ok in H as ([r e] & _ & H). apply bind_Ok in H as (u & _ & H). apply bind_Ok in H as (w & _ & H).
  exact (hash160_res_bytes _ _ _ H).
Qed.
Lemma h_fp_eq h E g key c : secp_laws E -> ready g -> h_key_fingerprint h E g key c = key_fingerprint E g key c.
Proof.
  intros Laws G. unfold h_key_fingerprint, key_fingerprint, key_keyid. rewrite bind_assoc. apply bind_ext; [reflexivity|]. intros P _.
  rewrite h_keyid_eq by assumption. apply bind_ext; [reflexivity|]. intros k Hk. apply h_rl32_eq, (keyid_bytes _ _ _ _ _ Hk).
Qed.
Lemma h_pubfp_eq h pub : bytes pub -> h_pubkey_fingerprint h pub = pubkey_fingerprint pub.
Proof.
  intros B. unfold h_pubkey_fingerprint, pubkey_fingerprint. apply bind_ext; [reflexivity|]. intros w Hw.
  rewrite h_hash160_eq by exact (proj1 (slice_bytes _ _ _ _ B Hw)). apply bind_ext; [reflexivity|]. intros k Hk. apply h_rl32_eq, (hash160_res_bytes _ _ _ Hk).
Qed.

(** Extended keys *)
Lemma bytes_hashkey : bytes hashkey.
Proof. unfold hashkey. repeat constructor; unfold is_byte; lia. Qed.
Lemma h_exinit_eq h key seed len : bytes seed -> h_exkey_init h key seed len = exkey_init key seed len.
Proof. intros B. unfold h_exkey_init, exkey_init. rewrite h_hmac512_eq by (exact B || apply bytes_hashkey). reflexivity. Qed.
Lemma h_wext_eq h ext code : h_write_key_extension h ext code = write_key_extension ext code.
Proof.
  unfold h_write_key_extension, write_key_extension. apply bind_ext; [reflexivity|]. intros c _. apply bind_ext.
  - unfold write_at. rewrite h_wl32_eq. reflexivity.
  - intros c1 _. apply bind_ext; [|reflexivity]. unfold write_at. rewrite h_wb32_eq. reflexivity.
Qed.
Lemma h_exenc_eq h key code : h_exkey_encode h key code = exkey_encode key code.
Proof. unfold h_exkey_encode, exkey_encode. rewrite h_wext_eq. reflexivity. Qed.
Lemma h_expenc_eq h pub code : h_expubkey_encode h pub code = expubkey_encode pub code.
Proof. unfold h_expubkey_encode, expubkey_encode. rewrite h_wext_eq. reflexivity. Qed.
Lemma h_rext_eq h code ext : init_to 9 code -> h_read_key_extension h code ext = read_key_extension code ext.
Proof.
  intros I. unfold h_read_key_extension, read_key_extension. rewrite h_rl_part by (apply (init_sub _ _ 1 4 I); lia).
  rewrite h_rb_part by (apply (init_sub _ _ 5 4 I); lia). reflexivity.
Qed.
Lemma h_exdec_eq h code key : init_to 9 code -> h_exkey_decode h code key = exkey_decode code key.
Proof. intros I. unfold h_exkey_decode, exkey_decode. rewrite h_rext_eq by exact I. reflexivity. Qed.
Lemma h_expdec_eq h code pub : init_to 9 code -> h_expubkey_decode h code pub = expubkey_decode code pub.
Proof. intros I. unfold h_expubkey_decode, expubkey_decode. rewrite h_rext_eq by exact I. reflexivity. Qed.

Lemma wl_bytes m v m' : write_little_32 m v = Ok m' -> init_to 4 m' /\ length m' = length m.
Proof. unfold write_little_32, htole32. rewrite host_bytes_le. intros H. destruct (init_store _ _ _ _ H (le_bytes_bytes _ _) (init_0 _)) as [I L]. rewrite le_bytes_length in I. auto. Qed.
Lemma wb_bytes m v m' : write_big_32 m v = Ok m' -> init_to 4 m' /\ length m' = length m.
Proof. unfold write_big_32, htobe32. rewrite htobe_bytes. intros H. destruct (init_store _ _ _ _ H (be_bytes_bytes _ _) (init_0 _)) as [I L]. rewrite be_bytes_length in I. auto. Qed.
Lemma init_write_at n m (w : list Z -> res (list Z)) m' : init_to n m -> (n <= length m)%nat ->
  (forall t t', w t = Ok t' -> init_to 4 t' /\ length t' = length t) -> write_at m n w = Ok m' -> init_to (n + 4) m' /\ length m' = length m.
Proof.
  intros I L W H. unfold write_at in H. apply bind_Ok in H as (tl & Ht & H). injection H as <-. apply W in Ht as [It Lt]. rewrite skipn_length in Lt. split.
  - unfold init_to. rewrite firstn_app. apply bytes_app. split; [apply bytes_firstn, I|]. rewrite firstn_length. replace (n + 4 - Nat.min n (length m))%nat with 4%nat by lia. exact It.
  - rewrite app_length, firstn_length, Lt. lia.
Qed.
Lemma wext_init ext code m : bytes (x_chain_code ext) -> length code = 74%nat -> write_key_extension ext code = Ok m -> init_to 41 m /\ length m = 74%nat.
Proof.
  intros Bc L H. unfold write_key_extension in H. apply bind_Ok in H as (c1 & H1 & H). apply bind_Ok in H as (c2 & H2 & H). apply bind_Ok in H as (c3 & H3 & H).
  apply bind_Ok in H as (cc & Hc & H). destruct (init_store _ _ _ _ H1 (bytes_one _ (byte_u8 _)) (init_0 _)) as [I1 L1]. cbn [length Nat.add] in I1.
  apply (init_write_at 1) in H2 as [I2 L2]; [|exact I1|lia|intros t t'; apply wl_bytes].
  apply (init_write_at 5) in H3 as [I3 L3]; [|exact I2|lia|intros t t'; apply wb_bytes].
  destruct (slice_bytes _ _ _ _ Bc Hc) as [Bcc Lcc]. destruct (init_store _ _ _ _ H Bcc I3) as [I4 L4]. rewrite Lcc in I4. split; [exact I4|lia].
Qed.
Lemma exenc_bytes key m : bytes (x_chain_code (xk_ext key)) -> bytes (xk_key key) -> exkey_encode key (uninit 74) = Ok m -> bytes m.
Proof.
  intros Bc Bk H. unfold exkey_encode in H. apply bind_Ok in H as (c1 & H1 & H). apply bind_Ok in H as (c2 & H2 & H). apply bind_Ok in H as (k & Hk & H).
  apply wext_init in H1 as [I1 L1]; [|exact Bc|apply uninit_length]. destruct (init_store _ _ _ _ H2 (bytes_one 0 ltac:(unfold is_byte; lia)) I1) as [I2 L2].
  destruct (slice_bytes _ _ _ _ Bk Hk) as [Bkk Lk]. destruct (init_store _ _ _ _ H Bkk I2) as [I3 L3]. rewrite Lk in I3. apply (init_all _ _ I3). lia.
Qed.
Lemma expenc_bytes pub m : bytes (x_chain_code (xp_ext pub)) -> bytes (xp_c_pubkey pub) -> expubkey_encode pub (uninit 74) = Ok m -> bytes m.
Proof.
  intros Bc Bk H. unfold expubkey_encode in H. apply bind_Ok in H as (c1 & H1 & H). apply bind_Ok in H as (k & Hk & H).
  apply wext_init in H1 as [I1 L1]; [|exact Bc|apply uninit_length].
  destruct (slice_bytes _ _ _ _ Bk Hk) as [Bkk Lk]. destruct (init_store _ _ _ _ H Bkk I1) as [I3 L3]. rewrite Lk in I3. apply (init_all _ _ I3). lia.
Qed.
Lemma h_exstr_eq h key param : bytes (x_chain_code (xk_ext key)) -> bytes (xk_key key) -> bytes (cp_ext_sec param) ->
  h_exkey_to_string h key param = exkey_to_string key param.
Proof.
  intros Bc Bk Bp. unfold h_exkey_to_string, exkey_to_string. rewrite h_exenc_eq. apply bind_ext; [reflexivity|]. intros m Hm.
  rewrite h_to58c_eq by (exact Bp || exact (exenc_bytes _ _ Bc Bk Hm)). reflexivity.
Qed.
Lemma h_expstr_eq h pub param : bytes (x_chain_code (xp_ext pub)) -> bytes (xp_c_pubkey pub) -> bytes (cp_ext_pub param) ->
  h_expubkey_to_string h pub param = expubkey_to_string pub param.
Proof.
  intros Bc Bk Bp. unfold h_expubkey_to_string, expubkey_to_string. rewrite h_expenc_eq. apply bind_ext; [reflexivity|]. intros m Hm.
  apply h_to58c_eq; [exact (expenc_bytes _ _ Bc Bk Hm)|exact Bp].
Qed.
Lemma h_exfrom_eq h str n key param : h_exkey_from_string h str n key param = exkey_from_string str n key param.
Proof.
  unfold h_exkey_from_string, exkey_from_string. cbv zeta. apply bind_ext; [reflexivity|]. intros _ _. rewrite h_from58c_eq. apply bind_ext; [reflexivity|]. intros [size out] Ho.
  apply from58c_bytes in Ho as [Bo Lo]. apply bind_ext; [reflexivity|]. intros m Hm. destruct (init_store _ _ _ _ Hm Bo (init_0 _)) as [I Lm]. cbn [Nat.add] in I.
  apply bind_ext; [reflexivity|]. intros _ _. destruct (_ || _) eqn:S; [reflexivity|]. destruct (negb _); [reflexivity|].
  apply bind_ext; [reflexivity|]. intros p _. destruct (negb _); [reflexivity|]. rewrite h_exdec_eq; [reflexivity|].
  apply orb_false_iff in S as [S _]. apply Nat.leb_gt in S. unfold BIP32_EXTKEY_SIZE in *. unfold init_to. apply (init_sub _ _ _ _ I). lia.
Qed.
Lemma h_expfrom_eq h str n pub param : h_expubkey_from_string h str n pub param = expubkey_from_string str n pub param.
Proof.
  unfold h_expubkey_from_string, expubkey_from_string. cbv zeta. apply bind_ext; [reflexivity|]. intros _ _. rewrite h_from58c_eq. apply bind_ext; [reflexivity|]. intros [size out] Ho.
  apply from58c_bytes in Ho as [Bo Lo]. apply bind_ext; [reflexivity|]. intros m Hm. destruct (init_store _ _ _ _ Hm Bo (init_0 _)) as [I Lm]. cbn [Nat.add] in I.
  apply bind_ext; [reflexivity|]. intros _ _. destruct (_ || _) eqn:S; [reflexivity|]. destruct (negb _); [reflexivity|].
  apply bind_ext; [reflexivity|]. intros p _. destruct (negb _); [reflexivity|]. rewrite h_expdec_eq; [reflexivity|].
  apply orb_false_iff in S as [S _]. apply Nat.leb_gt in S. unfold BIP32_EXTKEY_SIZE in *. unfold init_to. apply (init_sub _ _ _ _ I). lia.
Qed.
