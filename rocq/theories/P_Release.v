(** C100, C101: builds with NDEBUG. *)
From Verif Require Import Base S_Words S_Secp S_Release S_Life S_Random M_Endian M_Base32 M_Base58 M_Hash M_Base58Check M_Bech32 M_Address M_Random
  M_Secp M_Key M_Exkey M_Release S_Sha2 L_Sha2Top S_Bip32 S_Der S_Sign L_Endian L_Secp L_Hash L_Bip32 L_Release P_Random P_Sign P_Der.

(* ---------------------------------------------------------------- *)
(** ** C100: a call that returns in a debug build returns the same in a release build *)

Theorem C100_base58 : forall buf prefix str str_len,
  same_as_debug (to_base58_rel buf) (to_base58 buf) /\
  same_as_debug (from_base58_rel str str_len) (from_base58 str str_len) /\
  same_as_debug (to_base58_check_rel buf prefix) (to_base58_check buf prefix) /\
  same_as_debug (from_base58_check_rel str str_len) (from_base58_check str str_len).
Proof. intros. split; [apply to58_rel|]. split; [apply from58_rel|]. split; [apply to58c_rel|apply from58c_rel]. Qed.
Print Assumptions C100_base58.

Theorem C100_addresses : forall hrp data id str str_len out_size param stack,
  same_as_debug (bech32_encode_rel hrp data) (bech32_encode hrp data) /\
  same_as_debug (to_address_pubkey_rel id out_size param) (to_address_pubkey id out_size param) /\
  same_as_debug (to_address_script_rel id out_size param) (to_address_script id out_size param) /\
  same_as_debug (to_address_witnessv0_keyhash_rel id out_size param) (to_address_witnessv0_keyhash id out_size param) /\
  same_as_debug (to_address_witnessv0_scripthash_rel id out_size param) (to_address_witnessv0_scripthash id out_size param) /\
  same_as_debug (to_address_witness_unknown_rel id out_size param) (to_address_witness_unknown id out_size param) /\
  same_as_debug (address_decode_rel str str_len out_size param stack) (address_decode str str_len out_size param stack).
Proof.
  intros. split; [apply bech32_encode_rel_ok|].
  split. { unfold to_address_pubkey_rel, to_address_pubkey. destruct (_ <? _)%nat; [apply same_refl|apply to58c_rel]. }
  split. { unfold to_address_script_rel, to_address_script. destruct (_ <? _)%nat; [apply same_refl|apply to58c_rel]. }
  split. { unfold to_address_witnessv0_keyhash_rel, to_address_witnessv0_keyhash. apply same_assert. intros ->. apply encode_witness_rel_ok. }
  split. { unfold to_address_witnessv0_scripthash_rel, to_address_witnessv0_scripthash. apply same_assert. intros ->. apply encode_witness_rel_ok. }
  split. { unfold to_address_witness_unknown_rel, to_address_witness_unknown. destruct (_ || _); [apply same_refl|].
           apply same_bind; [apply same_refl|intros v]. destruct (_ || _); [apply same_refl|apply encode_witness_rel_ok]. }
  unfold address_decode_rel, address_decode. destruct (_ <? _)%nat; [apply same_refl|].
  apply same_bind; [apply from58c_rel|intros [n o]]. apply same_refl.
Qed.
Print Assumptions C100_addresses.

Theorem C100_keys : forall E g key buf len P pub cmp hash fuel param str str_len flag,
  same_as_debug (key_encode_rel E g key buf len) (key_encode E g key buf len) /\
  same_as_debug (pubkey_encode_rel E g (Some P) buf len) (pubkey_encode E g P buf len) /\
  same_as_debug (pubkey_decode_rel E g pub len) (pubkey_decode E g pub len) /\
  same_as_debug (key_get_pub_rel E g key) (P <- key_get_pub E g key ;; Ok (Some P)) /\
  same_as_debug (pubkey_keyid_rel E g (Some P) cmp) (pubkey_keyid E g P cmp) /\
  same_as_debug (key_keyid_rel E g key cmp) (key_keyid E g key cmp) /\
  same_as_debug (key_fingerprint_rel E g key cmp) (key_fingerprint E g key cmp) /\
  same_as_debug (key_sign_rel fuel E g key hash) (key_sign fuel E g key hash) /\
  same_as_debug (key_to_string_rel key cmp param) (key_to_string key cmp param) /\
  same_as_debug (key_from_string_rel str str_len key flag param) (key_from_string str str_len key flag param).
Proof.
  intros.
  assert (Kid : forall P, same_as_debug (pubkey_keyid_rel E g (Some P) cmp) (pubkey_keyid E g P cmp)).
  { intros Q. unfold pubkey_keyid_rel, pubkey_keyid. cbv zeta. apply same_bind; [apply pub_encode_rel|intros [r b]].
    apply same_assert. intros _. apply same_refl. }
  assert (Kk : same_as_debug (key_keyid_rel E g key cmp) (key_keyid E g key cmp)).
  { unfold key_keyid_rel, key_keyid. apply same_get_pub. exact Kid. }
  split. { unfold key_encode_rel, key_encode. apply same_assert. intros S. rewrite (size_test _ _ _ S).
           apply same_bind; [apply export_rel|intros [[r n] o]]. cbv zeta. apply same_assert. intros _. apply same_refl. }
  split; [apply pub_encode_rel|]. split; [apply pub_decode_rel|].
  split. { intros r H. apply bind_Ok in H. destruct H as (Q & H & K). injection K as <-. now apply get_pub_rel. }
  split; [apply Kid|]. split; [exact Kk|].
  split. { unfold key_fingerprint_rel, key_fingerprint. apply same_bind; [exact Kk|intros ?; apply same_refl]. }
  split. { unfold key_sign_rel, key_sign. apply same_bind; [apply same_refl|intros s].
           apply same_bind; [apply same_refl|intros o]. destruct o as [[s'|]| |]; try apply same_refl. intros r H; discriminate. }
  split. { unfold key_to_string_rel, key_to_string. destruct cmp; cbv zeta.
           - do 3 (apply same_bind; [apply same_refl|intros ?]). apply same_bind; [apply to58c_rel|intros ?]. apply same_refl.
           - apply same_bind; [apply same_refl|intros ?]. apply to58c_rel. }
  unfold key_from_string_rel, key_from_string. cbv zeta. apply same_assert. intros _.
  apply same_bind; [apply from58c_rel|intros [n o]]. apply same_refl.
Qed.
Print Assumptions C100_keys.

Theorem C100_extended_keys : forall E g key chain outk outc pub child xk xk' xp xp' fp param str str_len,
  same_as_debug (key_derive_rel E g key chain outk outc child) (key_derive E g key chain outk outc child) /\
  same_as_debug (pubkey_derive_rel E g pub chain outk outc child) (pubkey_derive E g pub chain outk outc child) /\
  same_as_debug (exkey_derive_rel E g xk xk' child fp) (exkey_derive E g xk xk' child fp) /\
  same_as_debug (expubkey_derive_rel E g xp xp' child fp) (expubkey_derive E g xp xp' child fp) /\
  same_as_debug (exkey_get_pub_rel E g xk xp) (exkey_get_pub E g xk xp) /\
  same_as_debug (exkey_to_string_rel xk param) (exkey_to_string xk param) /\
  same_as_debug (exkey_from_string_rel str str_len xk param) (exkey_from_string str str_len xk param) /\
  same_as_debug (expubkey_to_string_rel xp param) (expubkey_to_string xp param) /\
  same_as_debug (expubkey_from_string_rel str str_len xp param) (expubkey_from_string str str_len xp param).
Proof.
  intros E g key0 chain0 outk0 outc0 pub0 child xk xk' xp xp' fp param str str_len.
  assert (Kd : forall key chain outk outc, same_as_debug (key_derive_rel E g key chain outk outc child) (key_derive E g key chain outk outc child)).
  { intros. unfold key_derive_rel, key_derive. apply same_bind; [|intros [r o]; apply same_refl].
    destruct (Z.shiftr child 31 =? 0); [|apply same_refl]. apply same_get_pub. intros P.
    apply same_bind; [apply pub_encode_rel|intros [r b]]. apply same_refl. }
  assert (Pd : forall pub chain outk outc, same_as_debug (pubkey_derive_rel E g pub chain outk outc child) (pubkey_derive E g pub chain outk outc child)).
  { intros. unfold pubkey_derive_rel, pubkey_derive. apply same_assert. intros _.
    intros res H. apply bind_Ok in H. destruct H as (h & Hh & H). revert res H. change (same_as_debug (p <- pubkey_decode_rel E g pub 33 ;;
      match p with None => Ok (false, outk, outc) | Some _ => header <- rd pub 0 ;;
      out <- btc_bip32_hash chain child header (skipn 1 pub) ;;
      c <- slice out 32 32 ;;
      out_chain32 <- store outc 0 c ;;
      p <- secp_pubkey_parse E (g_verify g) pub 33 ;;
      match p with
      | None => Ok (false, outk, out_chain32)
      | Some P =>
          q <- secp_pubkey_tweak_add E (g_verify g) P out ;;
          match q with
          | None => Ok (false, outk, out_chain32)
          | Some Q =>
              '(r, out_pubkey33) <- pubkey_encode_rel E g (Some Q) outk 33 ;;
              Ok (r, out_pubkey33, out_chain32)
          end
      end end) (_ <- c_assert ((h =? 2) || (h =? 3)) ;;
  p <- pubkey_decode E g pub 33 ;;
  match p with
  | None => Ok (false, outk, outc)
  | Some _ =>
      out <- btc_bip32_hash chain child h (skipn 1 pub) ;;
      c <- slice out 32 32 ;;
      out_chain32 <- store outc 0 c ;;
      p <- secp_pubkey_parse E (g_verify g) pub 33 ;;
      match p with
      | None => Ok (false, outk, out_chain32)
      | Some P =>
          q <- secp_pubkey_tweak_add E (g_verify g) P out ;;
          match q with
          | None => Ok (false, outk, out_chain32)
          | Some Q =>
              '(r, out_pubkey33) <- pubkey_encode E g Q outk 33 ;;
              Ok (r, out_pubkey33, out_chain32)
          end
      end
  end)). rewrite Hh. cbn [bind]. apply same_assert. intros _. apply same_bind; [apply pub_decode_rel|intros p].
    destruct p as [P|]; [|apply same_refl]. do 4 (apply same_bind; [apply same_refl|intros ?]).
    match goal with |- same_as_debug (match ?x with _ => _ end) _ => destruct x as [Q|]; [|apply same_refl] end.
    apply same_bind; [apply same_refl|intros q]. destruct q as [R|]; [|apply same_refl].
    apply same_bind; [apply pub_encode_rel|intros ?]. apply same_refl. }
  split; [apply Kd|]. split; [apply Pd|].
  split. { unfold exkey_derive_rel, exkey_derive. apply same_bind; [apply Kd|intros [[r k] c]]. apply same_refl. }
  split. { unfold expubkey_derive_rel, expubkey_derive. apply same_bind; [apply Pd|intros [[r k] c]]. apply same_refl. }
  split. { unfold exkey_get_pub_rel, exkey_get_pub. apply same_get_pub. intros P. apply same_bind; [apply pub_encode_rel|intros [r c]].
           apply same_assert. intros _. apply same_refl. }
  split. { unfold exkey_to_string_rel, exkey_to_string. apply same_bind; [apply same_refl|intros ?].
           apply same_bind; [apply to58c_rel|intros ?]. apply same_refl. }
  split. { unfold exkey_from_string_rel, exkey_from_string. cbv zeta. apply same_assert. intros _.
           apply same_bind; [apply from58c_rel|intros [n o]]. apply same_bind; [apply same_refl|intros ?]. apply same_assert. intros _. apply same_refl. }
  split. { unfold expubkey_to_string_rel, expubkey_to_string. apply same_bind; [apply same_refl|intros ?]. apply to58c_rel. }
  unfold expubkey_from_string_rel, expubkey_from_string. cbv zeta. apply same_assert. intros _.
  apply same_bind; [apply from58c_rel|intros [n o]]. apply same_bind; [apply same_refl|intros ?]. apply same_assert. intros _. apply same_refl.
Qed.
Print Assumptions C100_extended_keys.

Theorem C100_life_cycle : forall fuel o st,
  same_as_debug (key_init_rel fuel o st) (key_init fuel o st) /\ same_as_debug (key_uninit_rel st) (key_uninit st).
Proof.
  intros fuel o [g h]. split.
  - unfold key_init_rel, key_init. cbv zeta. apply same_assert. intros _. cbn [context_create g_sign g_verify].
    apply same_assert. intros _. apply same_refl.
  - unfold key_uninit_rel, key_uninit. destruct (g_sign g) as [cs|]; [|intros r H; discriminate].
    cbn [context_destroy_rel]. apply same_bind; [apply same_refl|intros h']. cbv zeta. cbn [g_sign g_verify].
    destruct (g_verify g) as [cv|]; [|intros r H; discriminate]. apply same_refl.
Qed.
Print Assumptions C100_life_cycle.

(* ---------------------------------------------------------------- *)
(** ** C101: misuse a debug build stops with an assertion *)

(** Wrong sizes are refused: 0 is returned and nothing is written. *)
Theorem C101_wrong_sizes_partial :
  (forall hash out_size param, length hash <> 20%nat -> to_address_witnessv0_keyhash_rel hash out_size param = Ok (O, [])) /\
  (forall hash out_size param, length hash <> 32%nat -> to_address_witnessv0_scripthash_rel hash out_size param = Ok (O, [])) /\
  (forall E g key buf len, len <> 214%nat -> len <> 279%nat -> key_encode_rel E g key buf len = Ok (false, buf)) /\
  (forall E g P buf len, len <> 33%nat -> len <> 65%nat -> pubkey_encode_rel E g P buf len = Ok (false, buf)) /\
  (forall E g pub len, len <> 33%nat -> len <> 65%nat -> pubkey_decode_rel E g pub len = Ok None).
Proof.
  split; [|split; [|split; [|split]]]; intros.
  - unfold to_address_witnessv0_keyhash_rel. apply Nat.eqb_neq in H. change WITNESSV0_KEYID_SIZE with 20%nat. now rewrite H.
  - unfold to_address_witnessv0_scripthash_rel. apply Nat.eqb_neq in H. change WITNESSV0_SCRIPTID_SIZE with 32%nat. now rewrite H.
  - unfold key_encode_rel. apply Nat.eqb_neq in H, H0. change BTC_PRIVATE_KEY_SIZE with 279%nat. change BTC_COMPRESSED_PRIVATE_KEY_SIZE with 214%nat.
    now rewrite H, H0.
  - unfold pubkey_encode_rel. apply Nat.eqb_neq in H, H0. change BTC_PUBLIC_KEY_SIZE with 65%nat. change BTC_COMPRESSED_PUBLIC_KEY_SIZE with 33%nat.
    now rewrite H, H0.
  - unfold pubkey_decode_rel. apply Nat.eqb_neq in H, H0. change BTC_PUBLIC_KEY_SIZE with 65%nat. change BTC_COMPRESSED_PUBLIC_KEY_SIZE with 33%nat.
    now rewrite H, H0.
Qed.
Print Assumptions C101_wrong_sizes_partial.

Lemma create_invalid E g key : ready g -> length key = 32%nat -> ~ 0 < be_val key < secp_order -> secp_pubkey_create E (g_sign g) key = Ok None.
Proof.
  intros (cs & cv & Gs & _ & Cs & _) Lk N. change secp_order with secp_n in N. unfold secp_pubkey_create, sign_ctx. rewrite Gs, Cs. cbn [c_assert bind].
  rewrite <- (app_nil_r key). rewrite slice32 by assumption. cbn [bind].
  replace ((0 <? be_val key) && (be_val key <? secp_n)) with false by lia. reflexivity.
Qed.

(** A private key out of range: encoding it as DER returns 0 and writes nothing; its public key, its identifiers and its
    non-hardened children cannot be had: libsecp256k1 stops the program. *)
Theorem C101_invalid_key_partial : forall E g key, ready g -> length key = 32%nat -> ~ 0 < be_val key < secp_order ->
  (forall buf len, key_encode_rel E g key buf len = Ok (false, buf)) /\
  (forall cmp, key_keyid_rel E g key cmp = Abort /\ key_fingerprint_rel E g key cmp = Abort) /\
  (forall chain outk outc child, 0 <= child < 2 ^ 31 -> key_derive_rel E g key chain outk outc child = Abort) /\
  (forall ext pub, length (xp_c_pubkey pub) = 33%nat -> exkey_get_pub_rel E g (mkExKey ext key) pub = Abort).
Proof.
  intros E g key G Lk N. pose proof (create_invalid E g key G Lk N) as C. destruct (ready_sign g G) as [x Ex].
  assert (Kk : forall cmp, key_keyid_rel E g key cmp = Abort).
  { intros cmp. unfold key_keyid_rel, key_get_pub_rel. rewrite C. cbn [bind]. unfold pubkey_keyid_rel, pubkey_encode_rel. rewrite Ex.
    destruct cmp; reflexivity. }
  split; [|split; [|split]].
  - intros buf len. unfold key_encode_rel. destruct (_ && _); [reflexivity|]. unfold export_der_rel. rewrite C. cbn [bind].
    destruct (0 =? len)%nat; reflexivity.
  - intros cmp. split; [apply Kk|]. unfold key_fingerprint_rel. rewrite Kk. reflexivity.
  - intros chain outk outc child Hc. unfold key_derive_rel. rewrite child_kind by lia. replace (2 ^ 31 <=? child) with false by lia. cbn [negb].
    unfold key_get_pub_rel. rewrite C. cbn [bind]. unfold pubkey_encode_rel. rewrite Ex. reflexivity.
  - intros ext pub Lp. unfold exkey_get_pub_rel, key_get_pub_rel. cbn [xk_key]. rewrite C. cbn [bind]. unfold pubkey_encode_rel. rewrite Lp, Ex. reflexivity.
Qed.
Print Assumptions C101_invalid_key_partial.

(** Signing with a private key out of range returns normally, and what it leaves is not a signature: zero, which verifies
    for no key. *)
Theorem C101_sign_refuted : forall E g key hash fuel, secp_laws E -> ready g -> bytes key -> length key = 32%nat -> bytes hash -> length hash = 32%nat ->
  ~ 0 < be_val key < secp_order ->
  key_sign_rel fuel E g key hash = Ok (Returned (0, 0)) /\ key_sign fuel E g key hash = Abort.
Proof.
  intros E g key hash fuel Laws G Bk Lk Bh Lh N. change secp_order with secp_n in N.
  assert (S : secp_ecdsa_sign E (g_sign g) hash key None = Ok None).
  { unfold secp_ecdsa_sign, sign_ctx. destruct G as (cs & cv & Gs & _ & Cs & _). rewrite Gs, Cs. cbn [c_assert bind].
    rewrite <- (app_nil_r hash), <- (app_nil_r key). rewrite !slice32 by assumption. cbn [bind].
    destruct (ecdsa E key hash None) as [[r s]|] eqn:Es; [|reflexivity]. exfalso. apply N.
    destruct (law_sign E Laws key hash None r s Bk Lk Bh Lh Es) as (H & _). exact H. }
  unfold key_sign_rel, key_sign. rewrite S. cbn [bind]. destruct fuel; split; reflexivity.
Qed.
Print Assumptions C101_sign_refuted.

Lemma lt_from_8 v : (v <? secp_n - 8) = true -> v < secp_n.
Proof. intros L. apply Z.ltb_lt in L. lia. Qed.
Lemma toy_add_7 v : 0 <= v -> (v <? secp_n - 8) = true -> exists Ki, add_gen toy (pub_of toy 7) v = Some Ki.
Proof.
  intros V L. apply Z.ltb_lt in L. rewrite (law_add toy toy_laws) by (split; [reflexivity|lia] || (split; reflexivity) || lia).
  rewrite Z.mod_small by lia. replace (7 + v =? 0) with false by lia. eauto.
Qed.

(** Public derivation of a hardened child is not refused: it goes through the same computation as for the other indices. *)
Lemma pubkey_derive_rel_ok E g K chain outp outc child : secp_laws E -> ready g -> bytes chain -> length chain = 32%nat ->
  (33 <= length outp)%nat -> (32 <= length outc)%nat -> 0 <= child < 2 ^ 32 ->
  let I := hmac_sha512_of chain (ser E true K ++ be_bytes 4 child) in
  forall Ki, be_val (firstn 32 I) < secp_n -> add_gen E K (be_val (firstn 32 I)) = Some Ki ->
  pubkey_derive_rel E g (ser E true K) chain outp outc child = Ok (true, ser E true Ki ++ skipn 33 outp, skipn 32 I ++ skipn 32 outc).
Proof.
  intros Laws G Bc Lc Lop Loc Hch I Ki HI HK.
  destruct (law_ser33 E Laws K) as (Ls & Bs & Hs).
  assert (LI : length I = 64%nat) by apply hmac512_length.
  assert (Par : secp_pubkey_parse E (g_verify g) (ser E true K) 33 = Ok (Some K)).
  { unfold secp_pubkey_parse. destruct (ready_verify g G) as [x ->]. cbn [any_ctx bind].
    rewrite slice_ok by lia. rewrite skipn_O. rewrite firstn_all2 by lia. cbn [bind]. now rewrite (law_parse E Laws). }
  unfold pubkey_derive_rel, pubkey_decode_rel. change (negb (33 =? BTC_PUBLIC_KEY_SIZE)%nat && negb (33 =? BTC_COMPRESSED_PUBLIC_KEY_SIZE)%nat)%bool with false.
  rewrite Par. cbn [bind].
  assert (Hash : (header <- rd (ser E true K) 0 ;; btc_bip32_hash chain child header (skipn 1 (ser E true K))) = Ok I).
  { unfold I. destruct (ser E true K) as [|h t]; [discriminate|]. cbn [rd nth_error bind]. change (skipn 1 (h :: t)) with t.
    cbn [length] in Ls. apply bytes_cons in Bs as [Bh Bt]. rewrite bip32_hash_ok by (auto; lia).
    rewrite !firstn_all2 by lia. unfold is_byte in Bh. rewrite Z.mod_small by lia. reflexivity. }
  destruct (rd (ser E true K) 0) as [h| |]; try discriminate. cbn [bind] in Hash |- *. rewrite Hash. cbn [bind]. clearbody I.
  rewrite (slice_ok I 32 32) by lia. cbn [bind].
  replace (firstn 32 (skipn 32 I)) with (skipn 32 I) by (symmetry; apply firstn_all2; rewrite skipn_length; lia).
  assert (LIr : length (skipn 32 I) = 32%nat) by (rewrite skipn_length; lia).
  rewrite store0 by lia. cbn [bind]. rewrite LIr.
  unfold secp_pubkey_tweak_add, verify_ctx. assert (G' := G). destruct G' as (cs & cv & _ & -> & _ & Cv). rewrite Cv. cbn [c_assert bind].
  rewrite (slice_ok I 0 32) by lia. rewrite skipn_O. cbn [bind].
  replace (be_val (firstn 32 I) <? secp_n) with true by lia. rewrite HK.
  rewrite (pub_encode_rel E g Ki outp 33 _ (pub_encode_ok E g true Ki outp Laws G Lop)). reflexivity.
Qed.

Definition demo_chain : list Z := repeat 1 32.
Lemma demo_hash : be_val (firstn 32 (hmac_sha512_of demo_chain (ser toy true (pub_of toy 7) ++ be_bytes 4 (2 ^ 31)))) <? secp_n - 8 = true.
Proof. vm_compute. reflexivity. Qed.

Theorem C101_hardened_refuted : exists K child outp' outc', 2 ^ 31 <= child < 2 ^ 32 /\
  pubkey_derive_rel toy ready_example (ser toy true K) demo_chain (repeat 0 33) (repeat 0 32) child = Ok (true, outp', outc') /\
  pubkey_derive toy ready_example (ser toy true K) demo_chain (repeat 0 33) (repeat 0 32) child = Abort.
Proof.
  pose proof demo_hash as D. exists (pub_of toy 7), (2 ^ 31).
  set (I := hmac_sha512_of demo_chain (ser toy true (pub_of toy 7) ++ be_bytes 4 (2 ^ 31))) in *.
  assert (B : 0 <= be_val (firstn 32 I)) by (apply be_val_bound, bytes_firstn, hmac512_bytes).
  assert (A : exists Ki, add_gen toy (pub_of toy 7) (be_val (firstn 32 I)) = Some Ki) by (apply toy_add_7; [exact B|exact D]).
  destruct A as [Ki A]. do 2 eexists. split; [lia|]. split.
  - apply (pubkey_derive_rel_ok toy ready_example (pub_of toy 7) demo_chain (repeat 0 33) (repeat 0 32) (2 ^ 31) toy_laws ready_example_ok).
    + apply Forall_forall. intros y Hy. apply repeat_spec in Hy. subst. unfold is_byte; lia.
    + reflexivity.
    + rewrite repeat_length; lia.
    + rewrite repeat_length; lia.
    + lia.
    + exact (lt_from_8 _ D).
    + exact A.
  - unfold pubkey_derive. rewrite child_kind by lia. reflexivity.
Qed.
Print Assumptions C101_hardened_refuted.

(** Encoding a value that is no base32 digit: 32 puts a NUL into the text and is not reported. *)
Theorem C101_bech32_value_refuted : exists hrp data text, bech32_encode_rel hrp data = Ok text /\ In 0 text /\ bech32_encode hrp data = Abort.
Proof.
  exists [98; 99], [0; 32]. eexists. split; [vm_compute; reflexivity|]. split; [do 4 right; left; reflexivity|vm_compute; reflexivity].
Qed.
Print Assumptions C101_bech32_value_refuted.

(** Initialising twice is not refused: the two contexts of the first initialisation stay alive, and after the matching
    number of calls of fingera_btc_key_uninit they still do. *)
Theorem C101_init_twice_refuted : forall others st o fuel, on others st -> healthy o -> (32 <= fuel)%nat ->
  exists st1 st2 st3 a b, key_init_rel fuel o st = Ok (Returned st1) /\ key_uninit_rel st1 = Ok st2 /\ key_uninit_rel st2 = Ok st3 /\
    off (a :: b :: others) st3 /\ key_init fuel o st = Abort.
Proof.
  intros others [g h] o fuel Hon (C & O & R) Hf.
  assert (Ab : key_init fuel o (g, h) = Abort) by (apply (C62_init_twice others), Hon).
  destruct Hon as (_ & (Nd & Fr) & cs & cv & Hs & Hv & Hl). cbn [fst snd] in *.
  unfold key_init_rel. cbn [context_create fresh live g_sign g_verify].
  destruct (C81_os_rand_terminates o (uninit 32) 32 fuel C ltac:(reflexivity) ltac:(lia) Hf) as (_ & Rt & _).
  destruct (Rt R O) as [m Hm]. rewrite Hm. cbn [bind sign_ctx can_sign c_assert].
  destruct (C80_os_rand_bytes_partial o (uninit 32) 32 fuel m C ltac:(reflexivity) ltac:(lia) Hf Hm) as (ds & _ & Lm & _).
  change (length (uninit 32)) with 32%nat in Lm.
  unfold cleanse. rewrite store_ok by (rewrite repeat_length; lia). cbn [bind].
  assert (N1 : ~ In (S (fresh h)) (live h)) by (intros H; rewrite Forall_forall in Fr; specialize (Fr _ H); lia).
  assert (N2 : ~ In (fresh h) (live h)) by (intros H; rewrite Forall_forall in Fr; specialize (Fr _ H); lia).
  do 3 eexists. exists (ctx_id cs), (ctx_id cv). split; [reflexivity|].
  split; [|split].
  - unfold key_uninit_rel. cbn [g_sign g_verify context_destroy_rel]. unfold context_destroy at 1. cbn [ctx_id live existsb fresh].
    rewrite Nat.eqb_refl. cbn [orb bind remove]. destruct (Nat.eq_dec (S (fresh h)) (S (fresh h))) as [_|X]; [|congruence].
    destruct (Nat.eq_dec (S (fresh h)) (fresh h)) as [X|_]; [lia|]. rewrite remove_head by exact N1.
    unfold context_destroy. cbn [ctx_id live existsb fresh]. rewrite Nat.eqb_refl. cbn [orb bind remove].
    destruct (Nat.eq_dec (fresh h) (fresh h)) as [_|X]; [|congruence]. rewrite remove_head by exact N2. reflexivity.
  - unfold key_uninit_rel. cbn [g_sign g_verify context_destroy_rel bind]. reflexivity.
  - split; [|exact Ab]. split; [reflexivity|]. split; [reflexivity|]. cbn [fst snd live]. split; [exact Hl|].
    split; cbn [live fresh]; [exact Nd|]. eapply Forall_impl; [|exact Fr]. cbv beta. lia.
Qed.
Print Assumptions C101_init_twice_refuted.

(** Decoding Base58 with a length argument that is too small: the scratch area is too small, and the leading digits of
    the value are lost without notice. *)
Theorem C101_base58_short_length_refuted : exists text str_len v, from_base58_rel (text ++ [0]) str_len = Ok (length v, v) /\ v <> [] /\
  from_base58 (text ++ [0]) (length text) <> Ok (length v, v) /\ from_base58 (text ++ [0]) str_len = Abort.
Proof.
  exists [122; 122; 122], 1%nat, [39]. split; [vm_compute; reflexivity|]. split; [discriminate|].
  split; [vm_compute; discriminate|vm_compute; reflexivity].
Qed.
Print Assumptions C101_base58_short_length_refuted.

(* ---------------------------------------------------------------- *)
(** ** Concrete cases *)

(** Debug calls that return (the hypothesis of C100), and the release calls. *)
Example release_base58 : to_base58 [0; 1; 2; 255] = to_base58_rel [0; 1; 2; 255] /\ to_base58_rel [0; 1; 2; 255] = Ok (4%nat, [49; 76; 105; 65]).
Proof. split; vm_compute; reflexivity. Qed.
Example release_key : exists P, key_get_pub toy ready_example (be_bytes 32 7) = Ok P /\ key_get_pub_rel toy ready_example (be_bytes 32 7) = Ok (Some P).
Proof.
  assert (H : key_get_pub toy ready_example (be_bytes 32 7 ++ []) = Ok (pub_of toy (be_val (be_bytes 32 7))))
    by (apply get_pub_ok; [apply ready_example_ok|reflexivity|split; reflexivity]).
  rewrite app_nil_r in H. eexists. split; [exact H|]. exact (get_pub_rel _ _ _ _ H).
Qed.
Example release_der : key_encode toy ready_example (be_bytes 32 77) (repeat 0 214) 214 = key_encode_rel toy ready_example (be_bytes 32 77) (repeat 0 214) 214 /\
  ('(r, _) <- key_encode toy ready_example (be_bytes 32 77) (repeat 0 214) 214 ;; Ok r) = Ok true.
Proof. split; vm_compute; reflexivity. Qed.
(** An invalid key. *)
Example release_invalid : ready ready_example /\ length (repeat 0 32) = 32%nat /\ ~ 0 < be_val (repeat 0 32) < secp_order /\
  key_encode_rel toy ready_example (repeat 0 32) [1; 2; 3] 214 = Ok (false, [1; 2; 3]).
Proof. split; [apply ready_example_ok|]. split; [reflexivity|]. split; [vm_compute; intros [X _]; discriminate|vm_compute; reflexivity]. Qed.
(** A state in which the library is initialised. *)
Example release_on : on [] (ready_example, mkHeap [1%nat; 0%nat] 2).
Proof.
  split; [apply ready_example_ok|]. split.
  - split; cbn; [repeat constructor; cbn; intuition congruence|repeat constructor].
  - do 2 eexists. split; [reflexivity|]. split; reflexivity.
Qed.
