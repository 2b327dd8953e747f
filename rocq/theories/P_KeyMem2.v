(** C134: src/btc/key.c with arguments that overlap, and examples for C133. *)
From Verif Require Import Base S_Words L_Endian M_Endian S_Mem L_Mem M_Hash M_Random M_Secp M_Key S_Secp L_Secp S_Der S_Life S_Sign S_Bip32 L_Der L_Der2 P_Der
  L_Bip32 P_Sign M_Overlap S_Overlap L_Overlap L_Host L_Host2 L_MemKey M_KeyMem S_KeyMem L_KeyMem S_Secp256k1 L_SecpLaws P_Secp256k1 L_KeyLayout P_KeyMem.

Lemma cleared mem a n p : (a + n <= length mem)%nat -> (a <= p < a + n)%nat -> rd (written mem a (repeat 0 n)) p = Ok 0.
Proof.
  intros H P. unfold rd. rewrite nth_error_written by (rewrite repeat_length; lia). rewrite repeat_length.
  replace (nth_error (repeat 0 n) (p - a)) with (Some 0) by (symmetry; apply nth_error_repeat; lia).
  replace ((a <=? p)%nat && (p <? a + n)%nat) with true by lia. reflexivity.
Qed.
Lemma cleared_region mem a n b m : (a + n <= length mem)%nat -> (a <= b)%nat -> (b + m <= a + n)%nat -> region (written mem a (repeat 0 n)) b m = repeat 0 m.
Proof.
  intros H B M. apply nth_error_ext. intros p. rewrite nth_error_region by (rewrite written_length; rewrite ?repeat_length; lia).
  destruct (Nat.ltb_spec p m) as [P|P].
  - pose proof (cleared mem a n (b + p) H ltac:(lia)) as Q. unfold rd in Q. destruct (nth_error _ (b + p)); [|discriminate]. apply Ok_inj in Q. subst z. symmetry. now apply nth_error_repeat.
  - symmetry. apply nth_error_None. rewrite repeat_length. lia.
Qed.

(** ** C134 *)

(** Decoding a private key to where its encoding starts always fails, and destroys the encoding. *)
Theorem C134_key_decode_in_place_refuted : forall rule g mem enc len key, (enc + len <= length mem)%nat -> (key + 32 <= length mem)%nat ->
  (key <= enc < key + 32)%nat -> key_decode_mem rule g mem enc len key = Ok (false, written mem key (repeat 0 32)).
Proof.
  intros rule g mem enc len key He Hk In. unfold key_decode_mem, import_der_mem. rewrite store_at by (rewrite repeat_length; lia). cbn [bind].
  destruct (enc + len - enc <? 1)%nat; [reflexivity|]. rewrite cleared by lia. reflexivity.
Qed.
Print Assumptions C134_key_decode_in_place_refuted.

(** Encoding a private key over itself: under the C standard the behaviour is undefined, wherever the key lies between 1 and 31
    bytes away from its place in the structure ... *)
Definition key_offset (compressed : bool) : nat := if compressed then 8%nat else 9%nat.
Theorem C134_key_encode_in_place_refuted : forall rule E g mem key out (compressed : bool), secp_laws E -> ready g ->
  let len := if compressed then 214%nat else 279%nat in
  (key + 32 <= length mem)%nat -> (out + len <= length mem)%nat -> 0 < be_val (region mem key 32) < secp_order ->
  (key < out + key_offset compressed + 32)%nat -> (out + key_offset compressed < key + 32)%nat -> (key <> (out + key_offset compressed)%nat \/ rule = Standard) ->
  key_encode_mem rule E g mem key out len = UB.
Proof.
  intros rule E g mem key out b SL R len Hk Ho Sk N1 N2 N3. change secp_order with secp_n in Sk. set (k := region mem key 32) in *.
  assert (Lk : length k = 32%nat) by (apply region_length; exact Hk).
  unfold key_encode_mem. destruct R as (cs & cv & Gs & Gv & Cs & Cv). rewrite Gs.
  replace ((len =? BTC_PRIVATE_KEY_SIZE) || (len =? BTC_COMPRESSED_PRIVATE_KEY_SIZE))%nat with true by (unfold len; now destruct b).
  cbn [c_assert bind]. replace (len =? BTC_COMPRESSED_PRIVATE_KEY_SIZE)%nat with b by (unfold len; now destruct b).
  unfold export_der_mem. rewrite create_at. fold k. unfold secp_pubkey_create, sign_ctx. rewrite Cs. cbn [c_assert bind].
  rewrite slice_ok by lia. cbn [bind]. rewrite skipn_O, (firstn_all2 k) by lia.
  replace ((0 <? be_val k) && (be_val k <? secp_n)) with true by lia.
  set (beg := if b then der_begin_c else der_begin_u). set (mid := if b then der_middle_c else der_middle_u).
  assert (Tup : (if b then (der_begin_c, der_middle_c, BTC_COMPRESSED_PUBLIC_KEY_SIZE, BTC_COMPRESSED_PRIVATE_KEY_SIZE)
        else (der_begin_u, der_middle_u, BTC_PUBLIC_KEY_SIZE, BTC_PRIVATE_KEY_SIZE)) = (beg, mid, if b then 33%nat else 65%nat, len)) by (unfold beg, mid, len; now destruct b).
  rewrite Tup. assert (Lb : length beg = key_offset b) by (unfold beg; now destruct b). assert (key_offset b <= len)%nat by (unfold len; destruct b; cbn [key_offset]; lia).
  clearbody beg mid len k. rewrite Nat.leb_refl. cbn [c_assert bind]. rewrite store_at by lia. cbn [bind]. rewrite Lb. clear Tup. unfold memcpy_at.
  replace ((out + key_offset b + 32 <=? key) || (key + 32 <=? out + key_offset b))%nat with false by (symmetry; apply orb_false_iff; split; apply Nat.leb_gt; lia).
  destruct N3 as [N3| ->]; [|reflexivity]. replace (match rule with Standard => false | Tolerant => (out + key_offset b =? key)%nat end) with false; [reflexivity|].
  destruct rule; [reflexivity|]. symmetry. apply Nat.eqb_neq. lia.
Qed.
Print Assumptions C134_key_encode_in_place_refuted.

(** The public key over the secret: aborts, whatever the secret. *)
Theorem C134_get_pub_over_secret_refuted : forall E L g mem key pub, ready g -> (key + 32 <= length mem)%nat -> (pub + 64 <= length mem)%nat ->
  (pub <= key)%nat -> (key + 32 <= pub + 64)%nat -> get_pub_mem E L g mem key pub = Abort.
Proof.
  intros E L g mem key pub R Hk Hp A B. unfold get_pub_mem, pubkey_create_at. rewrite store_at by (rewrite repeat_length; lia). cbn [bind].
  rewrite create_at. rewrite cleared_region by lia. destruct R as (cs & cv & Gs & _ & C & _).
  unfold secp_pubkey_create, sign_ctx. rewrite Gs, C. cbn [c_assert bind]. rewrite slice_ok by (rewrite repeat_length; lia). cbn [bind].
  change (be_val (firstn 32 (skipn 0 (repeat 0 32)))) with 0. reflexivity.
Qed.
Print Assumptions C134_get_pub_over_secret_refuted.

(** A public key's text over its structure: aborts. *)
Theorem C134_pubkey_encode_in_place_refuted : forall E L g mem pub out (compressed : bool), layout_laws E L -> ready g ->
  let len := if compressed then 33%nat else 65%nat in
  (out + len <= length mem)%nat -> (pub + 64 <= length mem)%nat -> (out <= pub)%nat -> (pub + 32 <= out + len)%nat ->
  pubkey_encode_mem E L g mem pub out len = Abort.
Proof.
  intros E L g mem pub out b LL R len Ho Hp A B. unfold pubkey_encode_mem.
  replace ((len =? BTC_PUBLIC_KEY_SIZE) || (len =? BTC_COMPRESSED_PUBLIC_KEY_SIZE))%nat with true by (unfold len; now destruct b). cbn [c_assert bind].
  replace (len =? 33)%nat with b by (unfold len; now destruct b). destruct R as (cs & cv & Gs & _). rewrite Gs. unfold pubkey_serialize_at. cbn [any_ctx bind].
  replace ((if b then 33 else 65) <=? len)%nat with true by (unfold len; now destruct b). cbn [c_assert bind].
  rewrite store_at by (rewrite repeat_length; lia). cbn [bind].
  assert (LW : length (written mem out (repeat 0 len)) = length mem) by (apply written_length; rewrite repeat_length; lia).
  rewrite slice_at by lia. cbn [bind]. rewrite (lay_pub_zero E L LL); [reflexivity|apply region_length; lia|].
  rewrite <- (cleared_region mem out len pub 32) by lia. unfold region. rewrite firstn_firstn. reflexivity.
Qed.
Print Assumptions C134_pubkey_encode_in_place_refuted.

(** The structure over the text: the text is read after it was cleared.  33 bytes, any curve; for secp256k1 also 65. *)
Theorem C134_pubkey_decode_in_place_refuted : forall E L g mem enc len pub, secp_laws E -> ready g -> (len = 33%nat \/ len = 65%nat /\ (forall r, parse E (0 :: r) = None)) ->
  bytes (region mem enc len) -> (enc + len <= length mem)%nat -> (pub + 64 <= length mem)%nat -> (pub <= enc < pub + 64)%nat ->
  pubkey_decode_mem E L g mem enc len pub = Ok (false, written mem pub (repeat 0 64)).
Proof.
  intros E L g mem enc len pub SL R Hl Bm He Hp In. unfold pubkey_decode_mem, pubkey_parse_at.
  replace ((len =? BTC_PUBLIC_KEY_SIZE) || (len =? BTC_COMPRESSED_PUBLIC_KEY_SIZE))%nat with true by (destruct Hl as [->|[-> _]]; reflexivity).
  cbn [c_assert bind]. rewrite store_at by (rewrite repeat_length; lia). cbn [bind].
  set (w := written mem pub (repeat 0 64)). assert (LW : length w = length mem) by (apply written_length; rewrite repeat_length; lia).
  rewrite parse_at. destruct R as (cs & cv & _ & Gv & _). rewrite Gv. unfold secp_pubkey_parse. cbn [any_ctx bind].
  rewrite slice_region by lia. cbn [bind].
  assert (Hd : exists t, region w enc len = 0 :: t).
  { pose proof (cleared mem pub 64 enc Hp In) as Q. fold w in Q. unfold rd in Q.
    pose proof (nth_error_region w enc len 0 ltac:(lia)) as N. replace (0 <? len)%nat with true in N by (symmetry; apply Nat.ltb_lt; lia).
    rewrite Nat.add_0_r in N. destruct (nth_error w enc) as [z|]; [|discriminate]. apply Ok_inj in Q. subst z.
    destruct (region w enc len) as [|z t]; [discriminate|]. exists t. cbn [nth_error] in N. now injection N as ->. }
  destruct Hd as (t & Hd). rewrite Hd.
  assert (Q : parse E (0 :: t) = None); [|now rewrite Q].
  destruct Hl as [->|[-> H65]]; [|apply H65]. destruct (parse E (0 :: t)) as [P|] eqn:Q; [|reflexivity]. exfalso.
  assert (Bw : bytes (region w enc 33)).
  { apply Forall_forall. intros x Hx. apply In_nth_error in Hx as (i & Hi). rewrite nth_error_region in Hi by lia.
    destruct (Nat.ltb_spec i 33) as [Li|]; [|discriminate]. unfold w in Hi. rewrite nth_error_written in Hi by (rewrite repeat_length; lia). rewrite repeat_length in Hi.
    destruct ((pub <=? enc + i)%nat && (enc + i <? pub + 64)%nat) eqn:C.
    - apply nth_error_In, repeat_spec in Hi. subst x. split; reflexivity || discriminate.
    - rewrite <- (Nat.add_0_r (enc + i)) in Hi. rewrite Nat.add_0_r in Hi.
      pose proof (nth_error_region mem enc 33 i ltac:(lia)) as N. replace (i <? 33)%nat with true in N by (symmetry; apply Nat.ltb_lt; lia).
      rewrite Hi in N. apply nth_error_In in N. unfold bytes in Bm. rewrite Forall_forall in Bm. now apply Bm. }
  rewrite Hd in Bw. assert (Lt : length (0 :: t) = 33%nat) by (rewrite <- Hd; apply region_length; lia).
  pose proof (law_parse33 E SL _ P Bw Lt Q) as S33. destruct (law_ser33 E SL P) as (_ & _ & [T|T]); rewrite S33 in T; discriminate.
Qed.
Print Assumptions C134_pubkey_decode_in_place_refuted.
Theorem C134_pubkey_decode_in_place_secp256k1_refuted : forall L g mem enc len pub, ready g -> (len = 33 \/ len = 65)%nat ->
  bytes (region mem enc len) -> (enc + len <= length mem)%nat -> (pub + 64 <= length mem)%nat -> (pub <= enc < pub + 64)%nat ->
  pubkey_decode_mem secp256k1 L g mem enc len pub = Ok (false, written mem pub (repeat 0 64)).
Proof.
  intros L g mem enc len pub R Hl. apply C134_pubkey_decode_in_place_refuted; [exact C126_laws|exact R|].
  destruct Hl as [->| ->]; [now left|right]. split; reflexivity.
Qed.
Print Assumptions C134_pubkey_decode_in_place_secp256k1_refuted.

(** A signature structure over its text: no signature is ever found. *)
Theorem C134_signature_decode_in_place_refuted : forall E L g mem enc len sig, layout_laws E L -> ready g ->
  (enc + len <= length mem)%nat -> (sig + 64 <= length mem)%nat -> (sig <= enc < sig + 64)%nat ->
  signature_decode_mem E L g mem enc len sig = Ok (0, written mem sig (repeat 0 64)).
Proof.
  intros E L g mem enc len sig LL R He Hs In. unfold signature_decode_mem, parse_der_lax_mem. cbv zeta.
  rewrite (parse_compact_mem E L LL) by exact Hs. rewrite (parse_compact_zero _ (ready_verify g R)). cbn [bind]. rewrite (lay_sig_zero E L LL).
  destruct (0 =? Z.of_nat len) eqn:Z0; [reflexivity|].
  assert (Q : rdz (skipn enc (written mem sig (repeat 0 64))) 0 = Ok 0).
  { change (rd (skipn enc (written mem sig (repeat 0 64))) 0 = Ok 0). pose proof (cleared mem sig 64 enc Hs In) as Q. unfold rd in *. rewrite nth_error_skipn, Nat.add_0_r. exact Q. }
  rewrite Q. reflexivity.
Qed.
Print Assumptions C134_signature_decode_in_place_refuted.

(** Signing reads everything before it writes the first attempt, so a hash (or a key) under the signature does no harm
    if that attempt has a low R ... *)
Theorem C134_sign_overlap_partial : forall E L g mem key hash sig fuel r s, secp_laws E -> layout_laws E L -> ready g ->
  (key + 32 <= length mem)%nat -> (hash + 32 <= length mem)%nat -> (sig + 64 <= length mem)%nat ->
  bytes (region mem key 32) -> bytes (region mem hash 32) -> attempt E (region mem key 32) (region mem hash 32) 0 = Some (r, s) -> r < 2 ^ 255 ->
  sign_mem fuel E L g mem key hash sig = Ok (Returned (written mem sig (sig_rep L (r, s)))).
Proof.
  intros E L g mem key hash sig fuel r s SL LL R Hk Hh Hs Bk Bh A Lr. unfold sign_mem. rewrite (sign_at_ok E L LL) by assumption.
  pose proof (region_length mem key 32 Hk) as Lk. pose proof (region_length mem hash 32 Hh) as Lh.
  pose proof (sign_none E g (region mem key 32) (region mem hash 32) [] [] R Lk Lh) as Q. rewrite !app_nil_r in Q. rewrite Q.
  unfold attempt in A. cbn [Nat.eqb] in A. rewrite A. cbn [bind is_some srep].
  destruct (law_sign E SL _ _ _ _ _ Bk Lk Bh Lh A) as (_ & Sr & Ss & _). unfold scalar in Sr. pose proof n2_lt as N2.
  assert (LR : low_r_mem E L g (written mem sig (sig_rep L (r, s))) sig = Ok true).
  { assert (RR : 0 <= r < secp_n) by (destruct Sr; split; [apply Z.lt_le_incl|]; assumption).
    assert (RS : 0 <= s < secp_n) by (split; [apply Z.lt_le_incl; apply Ss|eapply Z.le_lt_trans; [apply Ss|exact N2]]).
    rewrite (low_r_at E L g LL _ sig (r, s)); [|split; [apply region_same'; [apply (lay_sig_len E L LL)|exact Hs]|split; assumption]|rewrite written_length; rewrite ?(lay_sig_len E L LL); exact Hs].
    rewrite low_r_ok by assumption. now rewrite (proj2 (Z.ltb_lt r _) Lr). }
  destruct fuel; cbn [grind_mem negb]; rewrite LR; reflexivity.
Qed.
Print Assumptions C134_sign_overlap_partial.

(** ... and if it has not, the next attempt signs what the first one left there instead of the hash. *)
Theorem C134_sign_second_attempt : forall E L g mem key hash sig fuel r1 s1 r2 s2, secp_laws E -> layout_laws E L -> ready g ->
  (key + 32 <= length mem)%nat -> (sig + 64 <= length mem)%nat -> disjoint sig 64 key 32 -> (sig <= hash)%nat -> (hash + 32 <= sig + 64)%nat ->
  bytes (region mem key 32) -> bytes (region mem hash 32) ->
  attempt E (region mem key 32) (region mem hash 32) 0 = Some (r1, s1) -> 2 ^ 255 <= r1 ->
  attempt E (region mem key 32) (region (sig_rep L (r1, s1)) (hash - sig) 32) 1 = Some (r2, s2) -> r2 < 2 ^ 255 ->
  sign_mem (S fuel) E L g mem key hash sig = Ok (Returned (written mem sig (sig_rep L (r2, s2)))).
Proof.
  intros E L g mem key hash sig fuel r1 s1 r2 s2 SL LL R Hk Hs D I1 I2 Bk Bh A1 H1 A2 H2. unfold sign_mem. assert (Hh : (hash + 32 <= length mem)%nat) by lia.
  rewrite (sign_at_ok E L LL) by assumption.
  pose proof (region_length mem key 32 Hk) as Lk. pose proof (region_length mem hash 32 Hh) as Lh.
  pose proof (sign_none E g (region mem key 32) (region mem hash 32) [] [] R Lk Lh) as Q. rewrite !app_nil_r in Q. rewrite Q.
  unfold attempt in A1. cbn [Nat.eqb] in A1. rewrite A1. cbn [bind is_some srep].
  destruct (law_sign E SL _ _ _ _ _ Bk Lk Bh Lh A1) as (_ & Sr & Ss & _). unfold scalar in Sr. pose proof n2_lt as N2.
  set (h2 := region (sig_rep L (r1, s1)) (hash - sig) 32) in *.
  assert (LS : forall x, length (sig_rep L x) = 64%nat) by (apply (lay_sig_len E L LL)).
  assert (Lh2 : length h2 = 32%nat) by (apply region_length; rewrite LS; lia).
  assert (Bh2 : bytes h2) by (apply bytes_firstn, bytes_skipn, (lay_sig_bytes E L LL)).
  assert (low : forall m r s, 0 < r < secp_n -> 0 < s <= secp_n / 2 -> (sig + 64 <= length m)%nat -> low_r_mem E L g (written m sig (sig_rep L (r, s))) sig = Ok (r <? 2 ^ 255)).
  { intros m r s Hr Hv Hm. assert (RR : 0 <= r < secp_n) by (destruct Hr; split; [apply Z.lt_le_incl|]; assumption).
    assert (RS : 0 <= s < secp_n) by (split; [apply Z.lt_le_incl; apply Hv|eapply Z.le_lt_trans; [apply Hv|exact N2]]).
    rewrite (low_r_at E L g LL _ sig (r, s)); [|split; [apply region_same'; [apply LS|exact Hm]|split; assumption]|rewrite written_length; rewrite ?LS; exact Hm].
    now rewrite low_r_ok by assumption. }
  set (w1 := written mem sig (sig_rep L (r1, s1))).
  assert (W1 : length w1 = length mem) by (apply written_length; rewrite LS; exact Hs).
  assert (K1 : region w1 key 32 = region mem key 32) by (apply region_other; rewrite ?LS; try lia; unfold disjoint in *; lia).
  assert (H1' : region w1 hash 32 = h2) by (unfold w1; rewrite region_written_sub by (rewrite ?LS; lia); reflexivity).
  cbn [grind_mem negb]. unfold w1 at 1. rewrite low by assumption. fold w1. rewrite (proj2 (Z.ltb_ge r1 _) H1). cbn [bind].
  assert (Es : write_little_32 (repeat 0 32) (u32 (0 + 1)) = Ok (le_bytes 4 1 ++ repeat 0 28)) by (vm_compute; reflexivity).
  rewrite Es. cbn [bind]. rewrite (sign_at_ok E L LL) by lia. rewrite K1, H1'.
  pose proof (sign_extra E g (region mem key 32) h2 [] [] R Lk Lh2 (le_bytes 4 1 ++ repeat 0 28) eq_refl) as Q2. rewrite !app_nil_r in Q2. rewrite Q2.
  assert (A2' : ecdsa E (region mem key 32) h2 (Some (le_bytes 4 1 ++ repeat 0 28)) = Some (r2, s2)) by exact A2. rewrite A2'. cbn [bind is_some srep].
  destruct (law_sign E SL _ _ _ _ _ Bk Lk Bh2 Lh2 A2') as (_ & Sr2 & Ss2 & _).
  assert (LR : low_r_mem E L g (written w1 sig (sig_rep L (r2, s2))) sig = Ok true) by (rewrite low; [now rewrite (proj2 (Z.ltb_lt r2 _) H2)|exact Sr2|exact Ss2|lia]).
  assert (WW : written w1 sig (sig_rep L (r2, s2)) = written mem sig (sig_rep L (r2, s2))) by (unfold w1; apply written_twice; rewrite !LS; auto).
  destruct fuel; cbn [grind_mem negb]; rewrite LR; cbn [bind]; now rewrite WW.
Qed.
Print Assumptions C134_sign_second_attempt.

(** A key that already lies at its place in the structure: right where copying a block onto itself is (not by the standard). *)
Theorem C134_key_encode_at_its_place : forall E g mem out (compressed : bool), secp_laws E -> ready g ->
  let len := if compressed then 214%nat else 279%nat in let key := (out + key_offset compressed)%nat in
  (out + len <= length mem)%nat -> let k := region mem key 32 in 0 < be_val k < secp_order ->
  key_encode_mem Tolerant E g mem key out len = Ok (true, written mem out (ec_private_key k (ser E compressed (pub_of E (be_val k))) compressed)).
Proof.
  intros E g mem out b SL R len key Ho k Sk. change secp_order with secp_n in Sk.
  assert (Hk : (key + 32 <= length mem)%nat) by (unfold key, len in *; destruct b; cbn [key_offset]; lia).
  assert (Lk : length k = 32%nat) by (apply region_length; exact Hk). set (P := pub_of E (be_val k)).
  assert (Lp : length (ser E b P) = if b then 33%nat else 65%nat) by (destruct b; [apply (law_ser33 _ SL P)|apply (law_ser65 _ SL P)]).
  rewrite (tlv_middle b k _ Lk Lp). set (beg := if b then der_begin_c else der_begin_u). set (mid := if b then der_middle_c else der_middle_u).
  assert (Lall : (length beg + 32 + length mid + length (ser E b P))%nat = len) by (unfold beg, mid, len; rewrite Lp; destruct b; reflexivity).
  unfold key_encode_mem. destruct R as (cs & cv & Gs & Gv & Cs & Cv). rewrite Gs.
  replace ((len =? BTC_PRIVATE_KEY_SIZE) || (len =? BTC_COMPRESSED_PRIVATE_KEY_SIZE))%nat with true by (unfold len; now destruct b).
  cbn [c_assert bind]. replace (len =? BTC_COMPRESSED_PRIVATE_KEY_SIZE)%nat with b by (unfold len; now destruct b).
  unfold export_der_mem. rewrite create_at. fold k. unfold secp_pubkey_create, sign_ctx. rewrite Cs. cbn [c_assert bind].
  rewrite slice_ok by lia. cbn [bind]. rewrite skipn_O, (firstn_all2 k) by lia.
  replace ((0 <? be_val k) && (be_val k <? secp_n)) with true by lia. fold P.
  assert (Tup : (if b then (der_begin_c, der_middle_c, BTC_COMPRESSED_PUBLIC_KEY_SIZE, BTC_COMPRESSED_PRIVATE_KEY_SIZE)
        else (der_begin_u, der_middle_u, BTC_PUBLIC_KEY_SIZE, BTC_PRIVATE_KEY_SIZE)) = (beg, mid, length (ser E b P), len)).
  { unfold beg, mid, len. rewrite Lp. now destruct b. }
  rewrite Tup. rewrite Nat.leb_refl. cbn [c_assert bind]. assert (Kd : region mem key 32 = k) by reflexivity.
  assert (Kb : key = (out + length beg)%nat) by (unfold key, beg; now destruct b). clearbody beg mid len k P key.
  rewrite store_at by lia. cbn [bind].
  assert (Ek : region (written mem out beg) key 32 = region mem key 32) by (apply region_other; try lia; unfold disjoint in *; lia).
  unfold memcpy_at. rewrite <- Kb at 3. rewrite Nat.eqb_refl, orb_true_r. cbn [c_defined bind].
  rewrite slice_at by (rewrite ?written_length; lia). cbn [bind]. rewrite Ek, Kd. rewrite store_at by (rewrite written_length, ?Lk; lia). cbn [bind].
  rewrite store_at by (rewrite !written_length; rewrite ?Lk, ?written_length; lia). cbn [bind].
  unfold secp_pubkey_serialize. cbn [any_ctx bind]. replace ((if b then 33 else 65) <=? length (ser E b P))%nat with true by (rewrite Lp; symmetry; apply Nat.leb_refl).
  cbn [c_assert bind].
  rewrite store_at by (rewrite !written_length; rewrite ?Lk, ?written_length; rewrite ?Lk, ?written_length; lia). cbn [bind].
  replace (out + length beg + 32 + length mid + length (ser E b P) - out)%nat with len by lia. rewrite Nat.eqb_refl. cbn [c_assert bind]. rewrite Nat.eqb_refl. cbn [c_assert bind].
  do 2 f_equal. rewrite (w_app mem out (out + length beg)) by (rewrite ?Lk; lia).
  rewrite (w_app mem out (out + length beg + 32)) by (rewrite ?app_length, ?Lk; lia).
  rewrite (w_app mem out (out + length beg + 32 + length mid)) by (rewrite ?app_length, ?Lk; lia).
  now rewrite <- !app_assoc.
Qed.
Print Assumptions C134_key_encode_at_its_place.

(** With the signature written over the hash, a client can get a signature that is not one for its hash. *)
Definition big_hash : list Z := be_bytes 32 (2 ^ 255).
Definition over_mem : list Z := be_bytes 32 1 ++ big_hash ++ repeat 0 32.
Definition over_r : Z := 0x200000000000000000000000000000000000000000000000000000000000084.
Definition over_mem' : list Z := be_bytes 32 1 ++ le_bytes 32 over_r ++ le_bytes 32 3.
Lemma over_run : sign_mem 5 toy (std_layout toy) ready_example over_mem 0 32 32 = Ok (Returned over_mem'). Proof. vm_compute. reflexivity. Qed.
Lemma over_holds : region over_mem' 32 64 = sig_rep (std_layout toy) (over_r, 3). Proof. vm_compute. reflexivity. Qed.
Lemma over_bad : ecdsa_ok toy (over_r, 3) big_hash (pub_of toy 1) = false. Proof. vm_compute. reflexivity. Qed.
Theorem C134_sign_over_hash_refuted : exists mem mem' r s,
  region mem 0 32 = be_bytes 32 1 /\ region mem 32 32 = big_hash /\ sign_mem 5 toy (std_layout toy) ready_example mem 0 32 32 = Ok (Returned mem') /\
  holds_sig (std_layout toy) mem' 32 (r, s) /\ ecdsa_ok toy (r, s) big_hash (pub_of toy 1) = false.
Proof.
  exists over_mem, over_mem', over_r, 3. split; [vm_compute; reflexivity|]. split; [vm_compute; reflexivity|]. split; [exact over_run|].
  split; [|exact over_bad]. split; [exact over_holds|]. cbn [fst snd]. split; split; [intros H; discriminate H|reflexivity|intros H; discriminate H|reflexivity].
Qed.
Print Assumptions C134_sign_over_hash_refuted.

(** ** Examples *)

(** Both curves have a layout, so the theorems about key.c hold for them without further assumptions. *)
Theorem C133_session_secp256k1 : forall g mem key hash pub enc pub2 sig der sig2 fuel, ready g ->
  apart (length mem) [(key, 32); (hash, 32); (pub, 64); (enc, 33); (pub2, 64); (sig, 64); (der, 72); (sig2, 64)]%nat ->
  bytes (region mem key 32) -> bytes (region mem hash 32) -> 0 < be_val (region mem key 32) < secp_order -> Z.of_nat fuel < 2 ^ 32 ->
  session fuel secp256k1 (std_layout secp256k1) g mem key hash pub enc pub2 sig der sig2 = Ok (Returned (true, true, 1, true)) \/
  ((forall c, (c <= fuel)%nat -> ~ low_r (attempt secp256k1 (region mem key 32) (region mem hash 32) c)) /\
   session fuel secp256k1 (std_layout secp256k1) g mem key hash pub enc pub2 sig der sig2 = Ok Running).
Proof. intros. apply C133_session; auto; [exact C126_laws|exact (secp256k1_layout C126_laws)]. Qed.
Print Assumptions C133_session_secp256k1.

Definition session_mem : list Z := be_bytes 32 77 ++ be_bytes 32 5 ++ repeat 9 361.
Example session_example : session 5 toy (std_layout toy) ready_example session_mem 0 32 64 128 161 225 289 361 = Ok (Returned (true, true, 1, true)).
Proof. vm_compute. reflexivity. Qed.
Example session_buffers : apart (length session_mem) [(0, 32); (32, 32); (64, 64); (128, 33); (161, 64); (225, 64); (289, 72); (361, 64)]%nat /\
  bytes (region session_mem 0 32) /\ bytes (region session_mem 32 32) /\ be_val (region session_mem 0 32) = 77.
Proof.
  split; [|split; [|split]].
  - change (length session_mem) with 425%nat. split.
    + repeat (constructor; [cbn [fst snd]; lia|]). constructor.
    + repeat (constructor; [repeat (constructor; [cbn [fst snd]; unfold disjoint; lia|]); constructor|]). constructor.
  - change (region session_mem 0 32) with (be_bytes 32 77). apply be_bytes_bytes.
  - change (region session_mem 32 32) with (be_bytes 32 5). apply be_bytes_bytes.
  - vm_compute. reflexivity.
Qed.
(** Client code that reuses buffers: the DER text over the structure it was made from is fine, reading it back to the same place is not. *)
Example der_reuse : (r <- sign_mem 5 toy (std_layout toy) ready_example session_mem 0 32 64 ;;
  match r with
  | Returned m => '(n, m) <- signature_encode_mem toy (std_layout toy) ready_example m 64 64 ;;
      '(r1, _) <- signature_decode_mem toy (std_layout toy) ready_example m 64 n 200 ;;
      '(r2, _) <- signature_decode_mem toy (std_layout toy) ready_example m 64 n 64 ;; Ok (n, r1, r2)
  | _ => UB end) = Ok (8%nat, 1, 0).
Proof. vm_compute. reflexivity. Qed.
Example places_example : (exists m, key_encode_mem Tolerant toy ready_example (repeat 7 8 ++ be_bytes 32 77 ++ repeat 7 174) 8 0 214 = Ok (true, m)) /\
  key_encode_mem Tolerant toy ready_example (be_bytes 32 77 ++ repeat 7 182) 0 0 214 = UB /\
  get_pub_mem toy (std_layout toy) ready_example session_mem 0 0 = Abort.
Proof. split; [eexists; vm_compute; reflexivity|]. split; vm_compute; reflexivity. Qed.
