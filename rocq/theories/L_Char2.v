(** Lemmas for C108: bech32, addresses, key strings. *)
From Verif Require Import Base M_Endian M_Base32 M_Base58 M_Base58Check M_Bech32 M_Address M_Key M_Exkey M_Hash M_Random M_Char S_Char L_Char.

Lemma legal_prefix : forall n str lo up, illegal_loop str n lo up = Ok false ->
  exists p r, str = p ++ r /\ length p = n /\ Forall (fun c => 33 <= c <= 126) p.
Proof.
  induction n as [|n IH]; intros str lo up H.
  - exists [], str. repeat split. constructor.
  - destruct str as [|c str]; [discriminate|]. cbn [illegal_loop] in H.
    assert (G : 33 <= c <= 126 /\ exists lo up, illegal_loop str n lo up = Ok false).
    { destruct ((97 <=? c) && (c <=? 122)) eqn:E1; [split; [lia|eauto]|]. destruct ((65 <=? c) && (c <=? 90)) eqn:E2; [split; [lia|eauto]|].
      destruct ((c <? 33) || (126 <? c)) eqn:E3; [discriminate|]. split; [lia|eauto]. }
    destruct G as (Hc & lo' & up' & G). destruct (IH _ _ _ G) as (p & r & -> & Lp & F). exists (c :: p), r. cbn [length app]. repeat split; [lia|constructor; assumption].
Qed.
Lemma illegal_image : forall n str lo up, illegal_loop (ascii_image str) n lo up = illegal_loop str n lo up.
Proof.
  induction n as [|n IH]; intros str lo up; [destruct str; reflexivity|]. destruct str as [|c str]; [reflexivity|]. cbn [ascii_image map illegal_loop].
  change (map _ str) with (ascii_image str). rewrite !IH. destruct (Z.leb_spec 128 c); [|reflexivity].
  destruct (Z.leb_spec c 122); [lia|]. destruct (Z.leb_spec c 90); [lia|]. destruct (Z.ltb_spec 126 c); [|lia]. rewrite !andb_false_r, !orb_true_r. reflexivity.
Qed.
Lemma strrchr_image : forall str, strrchr (ascii_image str) 49 = strrchr str 49.
Proof.
  induction str as [|c str IH]; [reflexivity|]. cbn [ascii_image map strrchr]. change (map _ str) with (ascii_image str). rewrite IH.
  replace ((if 128 <=? c then 127 else c) =? 0) with (c =? 0) by (destruct (Z.leb_spec 128 c); lia).
  replace ((if 128 <=? c then 127 else c) =? 49) with (c =? 49) by (destruct (Z.leb_spec 128 c); lia). reflexivity.
Qed.
Lemma lower_cong k k' : forall p r r' m, Forall (fun c => 33 <= c <= 126) p -> (m <= length p)%nat ->
  lower_chars_c k (p ++ r) m = lower_chars_c k' (p ++ r') m.
Proof.
  induction p as [|c p IH]; intros r r' m F Hm; [replace m with 0%nat by (cbn in Hm; lia); destruct r, r'; reflexivity|].
  destruct m as [|m]; [reflexivity|]. cbn [app lower_chars_c]. apply Forall_cons_iff in F. destruct F as [Hc F]. cbn [length] in Hm.
  rewrite (IH r r' m F) by lia. f_equal. unfold lower_char_c, char_value, as_char. destruct (Z.ltb_spec c 128); [|lia]. destruct k, k'; reflexivity.
Qed.
Lemma lower_signed : forall str m, lower_chars_c SignedChar str m = lower_chars str m.
Proof. induction str as [|c str IH]; intros [|m]; try reflexivity. cbn [lower_chars_c lower_chars]. rewrite IH. reflexivity. Qed.
Lemma decode_cong : forall p r r' m, (m <= length p)%nat -> decode_chars (p ++ r) m = decode_chars (p ++ r') m.
Proof.
  induction p as [|c p IH]; intros r r' m Hm; [replace m with 0%nat by (cbn in Hm; lia); destruct r, r'; reflexivity|].
  destruct m as [|m]; [reflexivity|]. cbn [app decode_chars]. cbn [length] in Hm. rewrite (IH r r') by lia. reflexivity.
Qed.
Lemma bech32_image k k' str n cap : bech32_decode_c k (ascii_image str) n cap = bech32_decode_c k' str n cap.
Proof.
  unfold bech32_decode_c, is_illegal. rewrite illegal_image. destruct (illegal_loop str n false false) as [[]| |] eqn:E; cbn [bind]; try reflexivity.
  rewrite strrchr_image. apply bind_same. intros [pos|]; [|reflexivity].
  destruct ((90 <? n)%nat || (pos =? 0)%nat || (n <? pos + 7)%nat || (n <=? 7)%nat) eqn:G; [reflexivity|].
  destruct (cap <? pos)%nat; [reflexivity|]. destruct (legal_prefix _ _ _ _ E) as (p & r & -> & Lp & F).
  assert (A : ascii_image p = p) by (apply image_ascii; eapply Forall_impl; [|exact F]; cbv beta; intros; lia).
  rewrite image_app, A. rewrite (lower_cong k k' p (ascii_image r) r pos F) by lia. apply bind_same. intros hrp. cbv zeta.
  rewrite !skipn_app. replace (pos + 1 - length p)%nat with 0%nat by lia. replace (n - 6 - length p)%nat with 0%nat by lia. rewrite !skipn_O.
  rewrite (decode_cong (skipn (pos + 1) p) (ascii_image r) r) by (rewrite skipn_length; lia).
  rewrite (decode_cong (skipn (n - 6) p) (ascii_image r) r) by (rewrite skipn_length; lia). reflexivity.
Qed.
Lemma bech32_signed str n cap : bech32_decode_c SignedChar str n cap = bech32_decode str n cap.
Proof.
  unfold bech32_decode_c, bech32_decode. apply bind_same. intros []; [reflexivity|]. apply bind_same. intros [pos|]; [|reflexivity].
  destruct ((90 <? n)%nat || _ || _ || _); [reflexivity|]. destruct (cap <? pos)%nat; [reflexivity|]. rewrite lower_signed. reflexivity.
Qed.
Lemma bech32_kinds k str n cap : bech32_decode_c k str n cap = bech32_decode str n cap.
Proof. rewrite <- bech32_signed. rewrite <- (bech32_image SignedChar k). apply bech32_image. Qed.
Lemma bech32_same_image str n cap : bech32_decode (ascii_image str) n cap = bech32_decode str n cap.
Proof. rewrite <- !bech32_signed. apply bech32_image. Qed.

(** ** What bech32 decoding stores *)
Lemma bech32_value_small c : tget BECH32_DECODE c < 128.
Proof.
  unfold tget. destruct ((0 <=? c) && (c <? Z.of_nat (length BECH32_DECODE))) eqn:E; [|lia].
  assert (F : Forall (fun x => x < 128) BECH32_DECODE) by (unfold BECH32_DECODE; repeat constructor).
  rewrite Forall_forall in F. apply F. apply nth_In. lia.
Qed.
Lemma decode_small : forall m str vs ok, decode_chars str m = Ok (vs, ok) -> Forall (fun c => c < 128) vs.
Proof.
  induction m as [|m IH]; intros str vs ok H; [destruct str|]; cbn [decode_chars] in H; [injection H as <- _; constructor|injection H as <- _; constructor|].
  destruct str as [|c str]; [discriminate|]. cbn [decode_chars] in H. cbv zeta in H. destruct (tget BECH32_DECODE c =? -1); [injection H as <- _; constructor|].
  destruct (decode_chars str m) as [[vs' ok']| |] eqn:E; cbn [bind] in H; try discriminate. injection H as <- _.
  constructor; [apply bech32_value_small|eapply IH; eauto].
Qed.
Lemma bech32_data_small str n cap r : bech32_decode str n cap = Ok r -> Forall (fun c => c < 128) (b_data r) /\ (1 <= b_ret r -> b_data r <> []).
Proof.
  unfold bech32_decode. intros H. destruct (is_illegal str n) as [[]| |]; cbn [bind] in H; try discriminate; [injection H as <-; cbn; split; [constructor|lia]|].
  destruct (strrchr str 49) as [[pos|]| |]; cbn [bind] in H; try discriminate; [|injection H as <-; cbn; split; [constructor|lia]].
  destruct (_ || _); [injection H as <-; cbn; split; [constructor|lia]|]. destruct (cap <? pos)%nat; [injection H as <-; cbn; split; [constructor|lia]|].
  destruct (lower_chars str pos) as [hrp| |]; cbn [bind] in H; try discriminate. cbv zeta in H.
  destruct (decode_chars (skipn (pos + 1) str) _) as [[data ok]| |] eqn:E; cbn [bind] in H; try discriminate. apply decode_small in E.
  destruct ok; cbn [negb] in H; [|injection H as <-; cbn [b_data b_ret]; split; [exact E|lia]].
  destruct (decode_chars (skipn (n - 6) str) 6) as [[chk ok]| |]; cbn [bind] in H; try discriminate.
  destruct ok; cbn [negb] in H; [|injection H as <-; cbn [b_data b_ret]; split; [exact E|lia]].
  destruct (verify_checksum hrp data chk) as [[]| |]; cbn [bind negb] in H; try discriminate; injection H as <-; cbn [b_data b_ret]; (split; [exact E|]); [|lia].
  destruct data; [cbn; lia|discriminate].
Qed.
Lemma store_image mem d : Forall (fun c => c < 128) d -> store (ascii_image mem) 0 d = map2 ascii_image (store mem 0 d).
Proof.
  intros F. unfold store. rewrite image_length. destruct (_ <=? _)%nat; [|reflexivity]. cbn [map2]. f_equal. cbn [firstn app Nat.add].
  rewrite image_app, image_skipn, (image_ascii d F). reflexivity.
Qed.
Lemma store_below mem d m : below mem -> below d -> store mem 0 d = Ok m -> below m /\ (d <> [] -> nth_error m 0 = nth_error d 0).
Proof.
  intros Bm Bd H. unfold store in H. destruct (_ <=? _)%nat; [|discriminate]. cbn [firstn app Nat.add] in H. injection H as <-.
  split; [apply below_app; [exact Bd|apply below_skipn, Bm]|]. destruct d; [congruence|reflexivity].
Qed.

(** ** Addresses and key strings *)
Lemma decode_bech32_signed str n out cap p stack : decode_bech32_c SignedChar str n out cap p stack = decode_bech32 str n out cap p stack.
Proof.
  unfold decode_bech32_c, decode_bech32. rewrite bech32_signed. apply bind_same. intros r. cbv zeta. destruct (_ || _); [reflexivity|].
  apply bind_same. intros buffer. destruct (_ <=? _)%nat; [|reflexivity]. apply bind_same. intros v. unfold char_value.
  unfold from_base32_raw_c, from_base32_raw. rewrite base32_signed. reflexivity.
Qed.
Lemma decode_bech32_unsigned str n out cap p stack : below stack ->
  decode_bech32_c UnsignedChar str n out cap p stack = decode_bech32 (ascii_image str) n out cap p (ascii_image stack).
Proof.
  intros B. unfold decode_bech32_c, decode_bech32. rewrite bech32_kinds, bech32_same_image. destruct (bech32_decode str n 16) as [r| |] eqn:E; cbn [bind]; try reflexivity.
  destruct (bech32_data_small _ _ _ _ E) as [F N]. cbv zeta. destruct (b_ret r <? 1) eqn:E1; cbn [orb]; [reflexivity|].
  destruct (_ || _); [reflexivity|]. rewrite store_image by exact F. destruct (store stack 0 (b_data r)) as [buffer| |] eqn:Es; cbn [map2 bind]; try reflexivity.
  destruct (store_below _ _ _ B ltac:(eapply Forall_impl; [|exact F]; cbv beta; intros; lia) Es) as [Bb Hb]. specialize (Hb (N ltac:(lia))).
  destruct (from_base32_raw_length _ <=? cap)%nat; [|reflexivity].
  unfold rd, ascii_image at 1. rewrite nth_error_map, Hb. destruct (b_data r) as [|v d]; [destruct (N ltac:(lia)); reflexivity|]. cbn [nth_error option_map bind].
  apply Forall_cons_iff in F. destruct F as [Fv F]. destruct (Z.leb_spec 128 v); [lia|]. unfold char_value, as_char. destruct (Z.ltb_spec v 128); [|lia].
  unfold from_base32_raw_c, from_base32_raw. rewrite base32_unsigned by (apply below_skipn, Bb). rewrite image_skipn. reflexivity.
Qed.
Lemma address_signed str n cap p stack : address_decode_c SignedChar str n cap p stack = address_decode str n cap p stack.
Proof.
  unfold address_decode_c, address_decode. destruct (_ <? _)%nat; [reflexivity|]. rewrite check_signed. apply bind_same. intros [size out]. cbv zeta.
  rewrite decode_bech32_signed. reflexivity.
Qed.
Lemma address_unsigned str n cap p stack : below str -> below stack ->
  address_decode_c UnsignedChar str n cap p stack = address_decode (ascii_image str) n cap p (ascii_image stack).
Proof.
  intros Bs Bk. unfold address_decode_c, address_decode. destruct (_ <? _)%nat; [reflexivity|]. rewrite check_unsigned by exact Bs. apply bind_same. intros [size out]. cbv zeta.
  rewrite decode_bech32_unsigned by exact Bk. reflexivity.
Qed.
Lemma key_string_signed s n k c p : key_from_string_c SignedChar s n k c p = key_from_string s n k c p.
Proof. unfold key_from_string_c, key_from_string. rewrite check_signed. reflexivity. Qed.
Lemma key_string_unsigned s n k c p : below s -> key_from_string_c UnsignedChar s n k c p = key_from_string (ascii_image s) n k c p.
Proof. intros B. unfold key_from_string_c, key_from_string. rewrite check_unsigned by exact B. reflexivity. Qed.
Lemma exkey_string_signed s n k p : exkey_from_string_c SignedChar s n k p = exkey_from_string s n k p.
Proof. unfold exkey_from_string_c, exkey_from_string. rewrite check_signed. reflexivity. Qed.
Lemma exkey_string_unsigned s n k p : below s -> exkey_from_string_c UnsignedChar s n k p = exkey_from_string (ascii_image s) n k p.
Proof. intros B. unfold exkey_from_string_c, exkey_from_string. rewrite check_unsigned by exact B. reflexivity. Qed.
Lemma expubkey_string_signed s n k p : expubkey_from_string_c SignedChar s n k p = expubkey_from_string s n k p.
Proof. unfold expubkey_from_string_c, expubkey_from_string. rewrite check_signed. reflexivity. Qed.
Lemma expubkey_string_unsigned s n k p : below s -> expubkey_from_string_c UnsignedChar s n k p = expubkey_from_string (ascii_image s) n k p.
Proof. intros B. unfold expubkey_from_string_c, expubkey_from_string. rewrite check_unsigned by exact B. reflexivity. Qed.
