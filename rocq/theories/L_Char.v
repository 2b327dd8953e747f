(** Lemmas for C108. *)
From Verif Require Import Base M_Endian M_Base32 M_Base58 M_Base58Check M_Bech32 M_Address M_Key M_Exkey M_Hash M_Random M_Char S_Char L_Bech32.

Lemma bind_same {A B} (x : res A) (f f' : A -> res B) : (forall a, f a = f' a) -> bind x f = bind x f'.
Proof. intros H. destruct x; cbn [bind]; auto. Qed.

(** ** Tables *)
Lemma sweep_hi (f : Z -> bool) : forallb (fun n => f (Z.of_nat n)) (seq 128 128) = true -> forall c, 128 <= c < 256 -> f c = true.
Proof.
  intros H c Hc. rewrite forallb_forall in H. specialize (H (Z.to_nat c)). rewrite Z2Nat.id in H by lia. apply H. apply in_seq. lia.
Qed.
Lemma b32_high raw c : 128 <= c < 256 -> tget_ub (b32_decode_str raw) c = Ok 255.
Proof.
  intros H. assert (G : match tget_ub (b32_decode_str raw) c with Ok x => x =? 255 | _ => false end = true).
  { destruct raw.
    - refine (sweep_hi (fun c => match tget_ub (b32_decode_str true) c with Ok x => x =? 255 | _ => false end) _ c H). vm_compute. reflexivity.
    - refine (sweep_hi (fun c => match tget_ub (b32_decode_str false) c with Ok x => x =? 255 | _ => false end) _ c H). vm_compute. reflexivity. }
  destruct (tget_ub _ _); try discriminate. apply Z.eqb_eq in G. congruence.
Qed.
Lemma b32_del raw : tget_ub (b32_decode_str raw) (as_char 127) = Ok 255.
Proof. destruct raw; vm_compute; reflexivity. Qed.
Lemma b58_high c : 128 <= c < 256 -> (tget BASE58_DECODE c =? -1) = true.
Proof. intros H. refine (sweep_hi (fun c => tget BASE58_DECODE c =? -1) _ c H). vm_compute. reflexivity. Qed.

(** ** Memory: nothing above a byte *)
Definition below (l : list Z) : Prop := Forall (fun c => c < 256) l.
Lemma image_length l : length (ascii_image l) = length l.
Proof. apply map_length. Qed.
Lemma image_app a b : ascii_image (a ++ b) = ascii_image a ++ ascii_image b.
Proof. apply map_app. Qed.
Lemma image_skipn n l : ascii_image (skipn n l) = skipn n (ascii_image l).
Proof. unfold ascii_image. symmetry. apply skipn_map. Qed.
Lemma image_ascii l : Forall (fun c => c < 128) l -> ascii_image l = l.
Proof. unfold ascii_image. induction 1 as [|c l Hc F IH]; [reflexivity|]. cbn [map]. rewrite IH. destruct (Z.leb_spec 128 c); [lia|reflexivity]. Qed.
Lemma image_is_ascii l : Forall (fun c => 0 < c < 256) l -> Forall (fun c => 0 < c < 128) (ascii_image l).
Proof. unfold ascii_image. induction 1 as [|c l Hc F IH]; [constructor|]. cbn [map]. constructor; [destruct (Z.leb_spec 128 c); lia|exact IH]. Qed.
Lemma below_skipn n l : below l -> below (skipn n l).
Proof. unfold below. rewrite !Forall_forall. intros H c Hc. apply H. rewrite <- (firstn_skipn n l). apply in_or_app. auto. Qed.
Lemma below_app a b : below a -> below b -> below (a ++ b).
Proof. unfold below. intros; apply Forall_app; auto. Qed.
Lemma below_firstn n l : below l -> below (firstn n l).
Proof. unfold below. rewrite !Forall_forall. intros H c Hc. apply H. rewrite <- (firstn_skipn n l). apply in_or_app. auto. Qed.

(** ** Base 32 *)
Lemma tail_cong k k' dec tail str str' : (tail < 8)%nat -> (forall i, (i < tail)%nat -> dec_char_c k dec str i = dec_char_c k' dec str' i) ->
  from_base32_tail_c k tail str dec = from_base32_tail_c k' tail str' dec.
Proof.
  intros Ht H. destruct tail as [|[|[|[|[|[|[|[|]]]]]]]]; try lia; unfold from_base32_tail_c; cbn; rewrite ?H by lia; reflexivity.
Qed.
Lemma dec_char_skip k dec str i n : dec_char_c k dec (skipn n str) i = dec_char_c k dec str (n + i).
Proof. unfold dec_char_c, rd. f_equal. revert str. induction n as [|n IH]; intros str; [reflexivity|]. destruct str as [|x str]; [destruct i; reflexivity|]. apply IH. Qed.
Lemma blocks_cong k k' dec : forall blocks tail str str', (tail < 8)%nat ->
  (forall i, (i < 8 * blocks + tail)%nat -> dec_char_c k dec str i = dec_char_c k' dec str' i) ->
  from_base32_blocks_c k blocks tail str dec = from_base32_blocks_c k' blocks tail str' dec.
Proof.
  induction blocks as [|blocks IH]; intros tail str str' Ht H; cbn [from_base32_blocks_c].
  - apply tail_cong; [exact Ht|]. intros i Hi. apply H. lia.
  - rewrite !(H 0%nat), (H 1%nat), (H 2%nat), (H 3%nat), (H 4%nat), (H 5%nat), (H 6%nat), (H 7%nat) by lia.
    assert (E : from_base32_blocks_c k blocks tail (skipn 8 str) dec = from_base32_blocks_c k' blocks tail (skipn 8 str') dec).
    { apply IH; [exact Ht|]. intros i Hi. rewrite !dec_char_skip. apply H. lia. }
    rewrite E. reflexivity.
Qed.
Lemma dec_char_signed dec str i : dec_char_c SignedChar dec str i = dec_char dec str i.
Proof. reflexivity. Qed.
Lemma tail_signed tail str dec : from_base32_tail_c SignedChar tail str dec = from_base32_tail tail str dec.
Proof. reflexivity. Qed.
Lemma blocks_signed dec tail : forall blocks str, from_base32_blocks_c SignedChar blocks tail str dec = from_base32_blocks blocks tail str dec.
Proof. induction blocks as [|blocks IH]; intros str; cbn [from_base32_blocks_c from_base32_blocks]; [reflexivity|]. rewrite IH. reflexivity. Qed.
Lemma base32_signed str n raw : from_base32_any_c SignedChar str n raw = from_base32_ str n raw.
Proof. unfold from_base32_any_c, from_base32_. apply bind_same. intros l. rewrite blocks_signed. reflexivity. Qed.

Lemma dec_char_unsigned raw str i : below str ->
  dec_char_c UnsignedChar (b32_decode_str raw) str i = dec_char_c SignedChar (b32_decode_str raw) (ascii_image str) i.
Proof.
  intros B. unfold dec_char_c, rd, ascii_image. rewrite nth_error_map. destruct (nth_error str i) as [c|] eqn:E; [|reflexivity]. cbn [option_map bind char_value].
  apply nth_error_In in E. assert (Hc : c < 256) by (exact (proj1 (Forall_forall _ _) B c E)). destruct (Z.leb_spec 128 c).
  - rewrite b32_high by lia. symmetry. apply b32_del.
  - unfold as_char. destruct (Z.ltb_spec c 128); [reflexivity|lia].
Qed.
Lemma strchr_image : forall str, strchr 61 (ascii_image str) = strchr 61 str.
Proof.
  induction str as [|c str IH]; [reflexivity|]. cbn [ascii_image map strchr]. change (map _ str) with (ascii_image str). rewrite IH.
  destruct (Z.leb_spec 128 c); [|reflexivity]. destruct (Z.eqb_spec c 61); [lia|]. destruct (Z.eqb_spec c 0); [lia|]. reflexivity.
Qed.
Lemma base32_unsigned str n raw : below str -> from_base32_any_c UnsignedChar str n raw = from_base32_ (ascii_image str) n raw.
Proof.
  intros B. rewrite <- base32_signed. unfold from_base32_any_c, base32_strlen. rewrite strchr_image. apply bind_same. intros l.
  f_equal. apply blocks_cong; [apply Nat.mod_upper_bound; lia|]. intros i _. apply dec_char_unsigned, B.
Qed.

(** ** Base 58 *)
Lemma isspace_unsigned c : c < 256 -> isspace_c UnsignedChar c = isspace_c SignedChar (if 128 <=? c then 127 else c).
Proof.
  intros H. unfold isspace_c, char_value, as_char. destruct (Z.leb_spec 128 c); [|destruct (Z.ltb_spec c 128); [reflexivity|lia]].
  destruct (Z.ltb_spec c 0); [lia|]. destruct (Z.eqb_spec c 32); [lia|]. destruct (Z.leb_spec c 13); [lia|]. rewrite andb_false_r. reflexivity.
Qed.
Lemma lead_signed : forall str, skip_leading_spaces_c SignedChar str = skip_leading_spaces str.
Proof. induction str as [|c str IH]; [reflexivity|]. cbn [skip_leading_spaces_c skip_leading_spaces]. rewrite IH. reflexivity. Qed.
Lemma loop_signed : forall str len b, from_base58_loop_c SignedChar str len b = from_base58_loop str len b.
Proof.
  induction str as [|c str IH]; intros len b; [reflexivity|]. cbn [from_base58_loop_c from_base58_loop]. destruct (c =? 0); [reflexivity|].
  apply bind_same. intros []; [reflexivity|]. cbv zeta. destruct (_ =? -1); [reflexivity|]. destruct (carry_loop _ _ _ _ _ _) as [[c' i] b']. apply bind_same. intros _. apply IH.
Qed.
Lemma trail_signed : forall str, skip_trailing_spaces_c SignedChar str = skip_trailing_spaces str.
Proof. induction str as [|c str IH]; [reflexivity|]. cbn [skip_trailing_spaces_c skip_trailing_spaces]. rewrite IH. reflexivity. Qed.
Lemma base58_signed str n : from_base58_c SignedChar str n = from_base58 str n.
Proof.
  unfold from_base58_c, from_base58. rewrite lead_signed. apply bind_same. intros [spaces s1]. apply bind_same. intros [zeroes s2]. cbv zeta.
  apply bind_same. intros _. apply bind_same. intros _. rewrite loop_signed. apply bind_same. intros [[[len b] s3]|]; [|reflexivity]. rewrite trail_signed. reflexivity.
Qed.
Definition map2 {A B} (f : A -> B) (r : res A) : res B := match r with Ok a => Ok (f a) | UB => UB | Abort => Abort end.
Lemma lead_unsigned : forall str, below str ->
  skip_leading_spaces (ascii_image str) = map2 (fun '(n, m) => (n, ascii_image m)) (skip_leading_spaces_c UnsignedChar str) /\
  (forall n m, skip_leading_spaces_c UnsignedChar str = Ok (n, m) -> below m).
Proof.
  induction str as [|c str IH]; intros B; [split; [reflexivity|discriminate]|].
  apply Forall_cons_iff in B. destruct B as [Hc B]. destruct (IH B) as [E1 E2]. cbn [ascii_image map skip_leading_spaces skip_leading_spaces_c].
  change (map _ str) with (ascii_image str). rewrite E1. rewrite isspace_unsigned by exact Hc. change isspace with (isspace_c SignedChar).
  replace ((if 128 <=? c then 127 else c) =? 0) with (c =? 0) by (destruct (Z.leb_spec 128 c); lia).
  destruct (c =? 0) eqn:E0.
  - cbn [map2]. split; [reflexivity|]. intros n m [= <- <-]. constructor; assumption.
  - destruct (isspace_c SignedChar (if 128 <=? c then 127 else c)) as [[]| |]; cbn [bind map2]; try (split; [reflexivity|discriminate]).
    + destruct (skip_leading_spaces_c UnsignedChar str) as [[n m]| |]; cbn [bind map2]; try (split; [reflexivity|discriminate]).
      split; [reflexivity|]. intros n' m' [= <- <-]. eapply E2. reflexivity.
    + split; [reflexivity|]. intros n m [= <- <-]. constructor; assumption.
Qed.
Lemma ones_image : forall str, skip_ones (ascii_image str) = map2 (fun '(n, m) => (n, ascii_image m)) (skip_ones str).
Proof.
  induction str as [|c str IH]; [reflexivity|]. cbn [ascii_image map skip_ones]. change (map _ str) with (ascii_image str). rewrite IH.
  replace ((if 128 <=? c then 127 else c) =? 49) with (c =? 49) by (destruct (Z.leb_spec 128 c); lia).
  destruct (c =? 49); [|reflexivity]. destruct (skip_ones str) as [[n m]| |]; reflexivity.
Qed.
Lemma ones_below : forall str n m, below str -> skip_ones str = Ok (n, m) -> below m.
Proof.
  induction str as [|c str IH]; intros n m B H; [discriminate|]. cbn [skip_ones] in H. apply Forall_cons_iff in B as B'. destruct B' as [Hc B'].
  destruct (c =? 49); [|injection H as <- <-; exact B]. destruct (skip_ones str) as [[n' m']| |] eqn:E; cbn [bind] in H; try discriminate.
  injection H as <- <-. eapply IH; eauto.
Qed.
Lemma loop_unsigned : forall str, below str -> forall len b,
  from_base58_loop (ascii_image str) len b = map2 (option_map (fun '(l, b, m) => (l, b, ascii_image m))) (from_base58_loop_c UnsignedChar str len b) /\
  (forall l b' m, from_base58_loop_c UnsignedChar str len b = Ok (Some (l, b', m)) -> below m).
Proof.
  induction str as [|c str IH]; intros B len b; [split; [reflexivity|discriminate]|].
  apply Forall_cons_iff in B as B'. destruct B' as [Hc B']. cbn [ascii_image map from_base58_loop from_base58_loop_c].
  change (map _ str) with (ascii_image str). rewrite (isspace_unsigned c) by exact Hc. change isspace with (isspace_c SignedChar).
  replace ((if 128 <=? c then 127 else c) =? 0) with (c =? 0) by (destruct (Z.leb_spec 128 c); lia).
  destruct (c =? 0); [split; [reflexivity|]; intros l b' m [= <- <- <-]; exact B|].
  destruct (isspace_c SignedChar (if 128 <=? c then 127 else c)) as [[]| |]; cbn [bind map2]; try (split; [reflexivity|discriminate]).
  - split; [reflexivity|]. intros l b' m [= <- <- <-]; exact B.
  - cbv zeta. destruct (Z.leb_spec 128 c).
    + rewrite (b58_high c) by lia. split; [reflexivity|discriminate].
    + destruct (tget BASE58_DECODE c =? -1); [split; [reflexivity|discriminate]|].
      destruct (carry_loop 58 256 (tget BASE58_DECODE c) 0 len b) as [[c' i] b']. destruct (c_assert (c' =? 0)) as [[]| |]; cbn [bind map2]; try (split; [reflexivity|discriminate]).
      apply IH, B'.
Qed.
Lemma trail_unsigned : forall str, below str ->
  skip_trailing_spaces (ascii_image str) = map2 ascii_image (skip_trailing_spaces_c UnsignedChar str).
Proof.
  induction str as [|c str IH]; intros B; [reflexivity|]. apply Forall_cons_iff in B as B'. destruct B' as [Hc B'].
  cbn [ascii_image map skip_trailing_spaces skip_trailing_spaces_c]. change (map _ str) with (ascii_image str). rewrite (isspace_unsigned c) by exact Hc.
  change isspace with (isspace_c SignedChar). rewrite IH by exact B'.
  destruct (isspace_c SignedChar (if 128 <=? c then 127 else c)) as [[]| |]; reflexivity.
Qed.
Lemma base58_unsigned str n : below str -> from_base58_c UnsignedChar str n = from_base58 (ascii_image str) n.
Proof.
  intros B. unfold from_base58_c, from_base58. destruct (lead_unsigned str B) as [-> B1].
  destruct (skip_leading_spaces_c UnsignedChar str) as [[spaces s1]| |]; cbn [map2 bind]; try reflexivity.
  specialize (B1 _ _ eq_refl). rewrite ones_image. pose proof (fun z m => ones_below s1 z m B1) as B2.
  destruct (skip_ones s1) as [[zeroes s2]| |]; cbn [map2 bind]; try reflexivity. specialize (B2 _ _ eq_refl). cbv zeta.
  apply bind_same. intros _. apply bind_same. intros _.
  destruct (loop_unsigned s2 B2 0 (repeat 0 (Z.to_nat (Z.quot (to_int (Z.of_nat n - Z.of_nat spaces - Z.of_nat zeroes) * 733) 1000 + 1)))) as [-> B3].
  destruct (from_base58_loop_c UnsignedChar s2 0 _) as [[[[len b] s3]|]| |]; cbn [map2 option_map bind]; try reflexivity.
  specialize (B3 _ _ _ eq_refl). rewrite trail_unsigned by exact B3. destruct (skip_trailing_spaces_c UnsignedChar s3) as [s4| |]; cbn [map2 bind]; try reflexivity.
  unfold rd, ascii_image. rewrite nth_error_map. destruct (nth_error s4 0) as [c|]; [|reflexivity]. cbn [option_map bind].
  replace ((if 128 <=? c then 127 else c) =? 0) with (c =? 0) by (destruct (Z.leb_spec 128 c); lia). reflexivity.
Qed.
Lemma check_signed str n : from_base58_check_c SignedChar str n = from_base58_check str n.
Proof. unfold from_base58_check_c, from_base58_check. rewrite base58_signed. reflexivity. Qed.
Lemma check_unsigned str n : below str -> from_base58_check_c UnsignedChar str n = from_base58_check (ascii_image str) n.
Proof. intros B. unfold from_base58_check_c, from_base58_check. rewrite base58_unsigned by exact B. reflexivity. Qed.
