(** Lemmas for C102: every host-parametric function equals the little-endian one on bytes. *)
From Verif Require Import Base S_Words S_Secp S_Life M_Endian M_Sha2 M_Sha1 M_Ripemd M_Hash M_Base58 M_Base58Check M_Address M_Random M_Secp M_Key M_Exkey
  M_Host L_Endian L_Sha2Top L_Ripemd L_Hash L_Bip32.

Lemma bind_ext {A B} (x x' : res A) (f f' : A -> res B) : x = x' -> (forall a, x' = Ok a -> f a = f' a) -> bind x f = bind x' f'.
Proof. intros -> H. destruct x' as [a| |]; cbn [bind]; auto. Qed.

Lemma h_bytes_htobe h n v : h_bytes h n (h_htobe h n v) = be_bytes n v.
Proof. destruct h; cbn [h_bytes h_htobe]; [apply htobe_bytes|]. rewrite host_bytes_le. reflexivity. Qed.
Lemma h_bytes_htole h n v : h_bytes h n (h_htole h n v) = le_bytes n v.
Proof.
  destruct h; cbn [h_bytes h_htole]; [apply host_bytes_le|]. unfold bswap. rewrite htobe_bytes. unfold be_bytes. apply rev_involutive.
Qed.
Lemma h_val_htobe h bs : bytes bs -> h_htobe h (length bs) (h_val h bs) = be_val bs.
Proof.
  intros B. destruct h; cbn [h_htobe h_val]; [apply htobe_val, B|]. rewrite host_val_le by (apply bytes_rev, B).
  unfold le_val. rewrite rev_involutive. reflexivity.
Qed.
Lemma h_val_htole h bs : bytes bs -> h_htole h (length bs) (h_val h bs) = le_val bs.
Proof.
  intros B. destruct h; cbn [h_htole h_val]; [apply host_val_le, B|]. unfold bswap.
  rewrite <- (rev_length bs). rewrite htobe_val by (apply bytes_rev, B). reflexivity.
Qed.

Lemma slice_bytes mem off n bs : bytes mem -> slice mem off n = Ok bs -> bytes bs /\ length bs = n.
Proof.
  intros B. unfold slice. destruct (_ <=? _)%nat eqn:E; [|discriminate]. intros [= <-]. apply Nat.leb_le in E.
  split; [apply bytes_firstn, bytes_skipn, B|]. rewrite firstn_length, skipn_length. lia.
Qed.
Lemma store_bytes mem off bs m : bytes mem -> bytes bs -> store mem off bs = Ok m -> bytes m /\ length m = length mem.
Proof.
  intros B B'. unfold store. destruct (_ <=? _)%nat eqn:E; [|discriminate]. intros [= <-]. apply Nat.leb_le in E.
  split; [apply bytes_app; split; [apply bytes_firstn, B|apply bytes_app; split; [exact B'|apply bytes_skipn, B]]|].
  rewrite !app_length, firstn_length, skipn_length. lia.
Qed.

Lemma h_read_big_val h n buf : bytes buf -> h_read_big h n buf = (bs <- slice buf 0 n ;; Ok (be_val bs)).
Proof.
  intros B. unfold h_read_big. apply bind_ext; [reflexivity|]. intros bs S. destruct (slice_bytes _ _ _ _ B S) as [Bb <-].
  rewrite h_val_htobe by exact Bb. reflexivity.
Qed.
Lemma h_read_little_val h n buf : bytes buf -> h_read_little h n buf = (bs <- slice buf 0 n ;; Ok (le_val bs)).
Proof.
  intros B. unfold h_read_little. apply bind_ext; [reflexivity|]. intros bs S. destruct (slice_bytes _ _ _ _ B S) as [Bb <-].
  rewrite h_val_htole by exact Bb. reflexivity.
Qed.
Lemma h_be32_eq h mem off : bytes mem -> h_be32 h mem off = be32 mem off.
Proof.
  intros B. unfold h_be32, be32, at_off. rewrite h_read_big_val by (apply bytes_skipn, B).
  change (read_big_32 (skipn off mem)) with (h_read_big Little 4 (skipn off mem)). rewrite h_read_big_val by (apply bytes_skipn, B). reflexivity.
Qed.
Lemma h_be64_eq h mem off : bytes mem -> h_be64 h mem off = be64 mem off.
Proof.
  intros B. unfold h_be64, be64, at_off. rewrite h_read_big_val by (apply bytes_skipn, B).
  change (read_big_64 (skipn off mem)) with (h_read_big Little 8 (skipn off mem)). rewrite h_read_big_val by (apply bytes_skipn, B). reflexivity.
Qed.
Lemma h_le32_eq h mem off : bytes mem -> h_le32 h mem off = le32 mem off.
Proof.
  intros B. unfold h_le32, le32, at_off. rewrite h_read_little_val by (apply bytes_skipn, B).
  change (read_little_32 (skipn off mem)) with (h_read_little Little 4 (skipn off mem)). rewrite h_read_little_val by (apply bytes_skipn, B). reflexivity.
Qed.
Lemma h_le64_eq h mem off : bytes mem -> h_le64 h mem off = le64 mem off.
Proof.
  intros B. unfold h_le64, le64, at_off. rewrite h_read_little_val by (apply bytes_skipn, B).
  change (read_little_64 (skipn off mem)) with (h_read_little Little 8 (skipn off mem)). rewrite h_read_little_val by (apply bytes_skipn, B). reflexivity.
Qed.
Lemma h_rl32_eq h buf : bytes buf -> h_read_little h 4 buf = read_little_32 buf.
Proof. intros B. change (read_little_32 buf) with (h_read_little Little 4 buf). now rewrite !h_read_little_val. Qed.
Lemma h_rb32_eq h buf : bytes buf -> h_read_big h 4 buf = read_big_32 buf.
Proof. intros B. change (read_big_32 buf) with (h_read_big Little 4 buf). now rewrite !h_read_big_val. Qed.
Lemma h_rl64_eq h buf : bytes buf -> h_read_little h 8 buf = read_little_64 buf.
Proof. intros B. change (read_little_64 buf) with (h_read_little Little 8 buf). now rewrite !h_read_little_val. Qed.
Lemma h_rb64_eq h buf : bytes buf -> h_read_big h 8 buf = read_big_64 buf.
Proof. intros B. change (read_big_64 buf) with (h_read_big Little 8 buf). now rewrite !h_read_big_val. Qed.
Lemma h_wl32_eq h buf v : h_write_little_32 h buf v = write_little_32 buf v.
Proof.
  unfold h_write_little_32. rewrite h_bytes_htole. change (write_little_32 buf v) with (h_write_little_32 Little buf v).
  unfold h_write_little_32. rewrite h_bytes_htole. reflexivity.
Qed.
Lemma h_wb32_eq h buf v : h_write_big_32 h buf v = write_big_32 buf v.
Proof.
  unfold h_write_big_32. rewrite h_bytes_htobe. change (write_big_32 buf v) with (h_write_big_32 Little buf v).
  unfold h_write_big_32. rewrite h_bytes_htobe. reflexivity.
Qed.

Lemma h_out32_eq h d : h_out32 h d = out32 d.
Proof. rewrite out32_ok. unfold h_out32. f_equal. apply map_ext. intros v. apply h_bytes_htobe. Qed.
Lemma h_out64_eq h d : h_out64 h d = out64 d.
Proof. rewrite out64_ok. unfold h_out64. f_equal. apply map_ext. intros v. apply h_bytes_htobe. Qed.
Lemma h_out32le_eq h d : h_out32le h d = out32le d.
Proof. rewrite out32le_ok. unfold h_out32le. f_equal. apply map_ext. intros v. apply h_bytes_htole. Qed.
Lemma concat_bytes (ls : list (list Z)) : Forall bytes ls -> bytes (concat ls).
Proof. induction 1; cbn; [constructor|]. apply bytes_app. auto. Qed.
Lemma out32_bytes d : bytes (out32 d).
Proof. rewrite out32_ok. apply concat_bytes, Forall_forall. intros x H. apply in_map_iff in H as (v & <- & _). apply be_bytes_bytes. Qed.
Lemma out64_bytes d : bytes (out64 d).
Proof. rewrite out64_ok. apply concat_bytes, Forall_forall. intros x H. apply in_map_iff in H as (v & <- & _). apply be_bytes_bytes. Qed.
Lemma out32le_bytes d : bytes (out32le d).
Proof. rewrite out32le_ok. apply concat_bytes, Forall_forall. intros x H. apply in_map_iff in H as (v & <- & _). apply le_bytes_bytes. Qed.

(** The transforms *)
Lemma eval_term_ext o o' w t : o_s0 o = o_s0 o' -> o_s1 o = o_s1 o' -> eval_term o w t = eval_term o' w t.
Proof. intros A B. destruct t; cbn [eval_term]; rewrite ?A, ?B; reflexivity. Qed.
Lemma eval_terms_ext o o' w ts : o_s0 o = o_s0 o' -> o_s1 o = o_s1 o' -> eval_terms o w ts = eval_terms o' w ts.
Proof. intros A B. induction ts as [|t ts IH]; cbn [eval_terms]; [reflexivity|]. rewrite IH, (eval_term_ext o o') by auto. reflexivity. Qed.
Lemma exec_line_ext o o' chunk st l : o_wrap o = o_wrap o' -> o_S0 o = o_S0 o' -> o_S1 o = o_S1 o' -> o_s0 o = o_s0 o' -> o_s1 o = o_s1 o' ->
  (forall off, o_load o chunk off = o_load o' chunk off) -> exec_line o chunk st l = exec_line o' chunk st l.
Proof.
  intros W A B C D L. destruct st as [rs w], l as [regs k e]. unfold exec_line.
  apply bind_ext.
  - destruct e; cbn [eval_wexp]; rewrite ?L, ?W; try reflexivity; rewrite (eval_terms_ext o o') by auto; reflexivity.
  - intros [wv w'] _. rewrite W, A, B. reflexivity.
Qed.
Lemma exec_lines_ext o o' chunk ls : o_wrap o = o_wrap o' -> o_S0 o = o_S0 o' -> o_S1 o = o_S1 o' -> o_s0 o = o_s0 o' -> o_s1 o = o_s1 o' ->
  (forall off, o_load o chunk off = o_load o' chunk off) -> forall st, exec_lines o chunk st ls = exec_lines o' chunk st ls.
Proof.
  intros W A B C D L. induction ls as [|l ls IH]; intros st; cbn [exec_lines]; [reflexivity|].
  apply bind_ext; [apply exec_line_ext; assumption|auto].
Qed.
Lemma lines32_eq h chunk st ls : bytes chunk -> exec_lines (h_ops32 h) chunk st ls = exec_lines ops32 chunk st ls.
Proof. intros B. apply exec_lines_ext; try reflexivity. intros off. apply h_be32_eq, B. Qed.
Lemma lines64_eq h chunk st ls : bytes chunk -> exec_lines (h_ops64 h) chunk st ls = exec_lines ops64 chunk st ls.
Proof. intros B. apply exec_lines_ext; try reflexivity. intros off. apply h_be64_eq, B. Qed.
Lemma h_t256 h s chunk : bytes chunk -> h_sha256_transform h s chunk = sha256_transform s chunk.
Proof. intros B. unfold h_sha256_transform. rewrite lines32_eq by exact B. reflexivity. Qed.
Lemma h_t512 h s chunk : bytes chunk -> h_sha512_transform h s chunk = sha512_transform s chunk.
Proof. intros B. unfold h_sha512_transform. rewrite lines64_eq by exact B. reflexivity. Qed.
Lemma h_d64 h inp : bytes inp -> h_d64_transform h inp = hash256_d64_transform inp.
Proof.
  intros B. unfold h_d64_transform, hash256_d64_transform. apply bind_ext; [apply lines32_eq, B|]. intros [rs w] _.
  apply bind_ext; [apply lines32_eq, B|]. intros [rs' w'] _. apply bind_ext; [apply lines32_eq, B|]. intros [rs'' w''] _.
  rewrite h_out32_eq. reflexivity.
Qed.
Lemma lines1_eq h chunk ls : bytes chunk -> forall st, h_exec_lines1 h chunk st ls = exec_lines1 chunk st ls.
Proof.
  intros B. induction ls as [|l ls IH]; intros st; cbn [h_exec_lines1 exec_lines1]; [reflexivity|]. apply bind_ext; [|auto].
  destruct st as [rs w], l as [regs f k e]. unfold h_exec_line1, exec_line1. apply bind_ext; [|reflexivity].
  destruct e; cbn [h_eval_wexp1 eval_wexp1]; try reflexivity. rewrite h_be32_eq by exact B. reflexivity.
Qed.
Lemma h_t1 h s chunk : bytes chunk -> h_sha1_transform h s chunk = sha1_transform s chunk.
Proof. intros B. unfold h_sha1_transform. rewrite lines1_eq by exact B. reflexivity. Qed.
Lemma load_X_eq h chunk is : bytes chunk -> h_load_X h chunk is = load_X chunk is.
Proof. intros B. induction is as [|i is IH]; cbn [h_load_X load_X]; [reflexivity|]. rewrite h_le32_eq, IH by exact B. reflexivity. Qed.
Lemma h_trmd h s chunk : bytes chunk -> h_ripemd160_transform h s chunk = ripemd160_transform s chunk.
Proof. intros B. unfold h_ripemd160_transform. rewrite load_X_eq by exact B. reflexivity. Qed.

Lemma block_loop_ext blk t t' : (forall s c, bytes c -> t s c = t' s c) -> forall fuel d m n, bytes m -> block_loop fuel blk t d m n = block_loop fuel blk t' d m n.
Proof.
  intros T. induction fuel as [|f IH]; intros d m n B; cbn [block_loop]; destruct (_ <=? _)%nat; try reflexivity.
  apply bind_ext; [reflexivity|]. intros _ _. rewrite T by exact B. apply bind_ext; [reflexivity|]. intros d' _. apply IH, bytes_skipn, B.
Qed.
Lemma block_loop_bytes blk t : forall fuel d m n d' m' n', bytes m -> block_loop fuel blk t d m n = Ok (d', m', n') -> bytes m'.
Proof.
  induction fuel as [|f IH]; intros d m n d' m' n' B; cbn [block_loop]; destruct (_ <=? _)%nat; try discriminate; try (intros [= _ <- _]; exact B).
  destruct (slice _ _ _); cbn [bind]; try discriminate. destruct (t d m); cbn [bind]; try discriminate. apply IH, bytes_skipn, B.
Qed.
Lemma bytes_repeat0 n : bytes (repeat 0 n).
Proof. apply Forall_forall. intros x H. apply repeat_spec in H. subst. unfold is_byte; lia. Qed.
Lemma bytes_one x : is_byte x -> bytes [x].
Proof. repeat constructor; apply H. Qed.

Ltac tail_bytes :=
  repeat match goal with
  | H : slice _ _ _ = Ok _, B : bytes _ |- _ => first [apply (slice_bytes _ _ _ _ B) in H as [? ?]]
  | H : store ?m _ ?b = Ok _, B : bytes ?m, B' : bytes ?b |- _ => apply (store_bytes _ _ _ _ B B') in H as [? ?]
  end.

Section Finals.
  Variables (blk lim pos : nat) (t t' : list Z -> list Z -> res (list Z)).
  Hypothesis T : forall s c, bytes c -> t s c = t' s c.
  Lemma final_ext fuel d m n e e' : bytes m -> bytes e -> e = e' ->
    ('(digest, msg_buf, msg_len) <- block_loop fuel blk t d m n ;;
     let last_chunk := repeat 0 blk in
     tail <- slice msg_buf 0 msg_len ;;
     last_chunk <- store last_chunk 0 tail ;;
     last_chunk <- store last_chunk msg_len [0x80] ;;
     '(digest, last_chunk) <-
        (if (lim <? msg_len)%nat then digest <- t digest last_chunk ;; Ok (digest, repeat 0 blk) else Ok (digest, last_chunk)) ;;
     last_chunk <- store last_chunk pos e ;;
     t digest last_chunk) =
    ('(digest, msg_buf, msg_len) <- block_loop fuel blk t' d m n ;;
     let last_chunk := repeat 0 blk in
     tail <- slice msg_buf 0 msg_len ;;
     last_chunk <- store last_chunk 0 tail ;;
     last_chunk <- store last_chunk msg_len [0x80] ;;
     '(digest, last_chunk) <-
        (if (lim <? msg_len)%nat then digest <- t' digest last_chunk ;; Ok (digest, repeat 0 blk) else Ok (digest, last_chunk)) ;;
     last_chunk <- store last_chunk pos e' ;;
     t' digest last_chunk).
  Proof.
    intros B Be <-. apply bind_ext; [apply block_loop_ext; assumption|]. intros [[d1 m1] n1] H1.
    apply block_loop_bytes in H1; [|exact B]. cbv zeta. apply bind_ext; [reflexivity|]. intros tl Htl.
    apply (slice_bytes _ _ _ _ H1) in Htl as [Btl _]. apply bind_ext; [reflexivity|]. intros c1 Hc1.
    apply (store_bytes _ _ _ _ (bytes_repeat0 blk) Btl) in Hc1 as [Bc1 _]. apply bind_ext; [reflexivity|]. intros c2 Hc2.
    apply (store_bytes _ _ _ _ Bc1 (bytes_one 128 ltac:(unfold is_byte; lia))) in Hc2 as [Bc2 _].
    rewrite T by exact Bc2. apply bind_ext; [reflexivity|]. intros [d2 c3] Hc3.
    assert (Bc3 : bytes c3).
    { destruct (_ <? _)%nat; [destruct (t' d1 c2); cbn [bind] in Hc3; try discriminate; injection Hc3 as _ <-; apply bytes_repeat0|injection Hc3 as _ <-; exact Bc2]. }
    apply bind_ext; [reflexivity|]. intros c4 Hc4. apply T. exact (proj1 (store_bytes _ _ _ _ Bc3 Be Hc4)).
  Qed.
  Lemma final_ext2 fuel d m n e e' (k k' : list Z -> res (list Z)) : bytes m -> bytes e -> e = e' -> (forall r, k r = k' r) ->
    ('(digest, msg_buf, msg_len) <- block_loop fuel blk t d m n ;;
     let last_chunk := repeat 0 blk in
     tail <- slice msg_buf 0 msg_len ;;
     last_chunk <- store last_chunk 0 tail ;;
     last_chunk <- store last_chunk msg_len [0x80] ;;
     '(digest, last_chunk) <-
        (if (lim <? msg_len)%nat then digest <- t digest last_chunk ;; Ok (digest, repeat 0 blk) else Ok (digest, last_chunk)) ;;
     last_chunk <- store last_chunk pos e ;;
     r <- t digest last_chunk ;; k r) =
    ('(digest, msg_buf, msg_len) <- block_loop fuel blk t' d m n ;;
     let last_chunk := repeat 0 blk in
     tail <- slice msg_buf 0 msg_len ;;
     last_chunk <- store last_chunk 0 tail ;;
     last_chunk <- store last_chunk msg_len [0x80] ;;
     '(digest, last_chunk) <-
        (if (lim <? msg_len)%nat then digest <- t' digest last_chunk ;; Ok (digest, repeat 0 blk) else Ok (digest, last_chunk)) ;;
     last_chunk <- store last_chunk pos e' ;;
     r <- t' digest last_chunk ;; k' r).
  Proof.
    intros B Be <- K. apply bind_ext; [apply block_loop_ext; assumption|]. intros [[d1 m1] n1] H1.
    apply block_loop_bytes in H1; [|exact B]. cbv zeta. apply bind_ext; [reflexivity|]. intros tl Htl.
    apply (slice_bytes _ _ _ _ H1) in Htl as [Btl _]. apply bind_ext; [reflexivity|]. intros c1 Hc1.
    apply (store_bytes _ _ _ _ (bytes_repeat0 blk) Btl) in Hc1 as [Bc1 _]. apply bind_ext; [reflexivity|]. intros c2 Hc2.
    apply (store_bytes _ _ _ _ Bc1 (bytes_one 128 ltac:(unfold is_byte; lia))) in Hc2 as [Bc2 _].
    rewrite T by exact Bc2. apply bind_ext; [reflexivity|]. intros [d2 c3] Hc3.
    assert (Bc3 : bytes c3).
    { destruct (_ <? _)%nat; [destruct (t' d1 c2); cbn [bind] in Hc3; try discriminate; injection Hc3 as _ <-; apply bytes_repeat0|injection Hc3 as _ <-; exact Bc2]. }
    apply bind_ext; [reflexivity|]. intros c4 Hc4. rewrite T by exact (proj1 (store_bytes _ _ _ _ Bc3 Be Hc4)).
    apply bind_ext; [reflexivity|]. intros r _. apply K.
  Qed.
End Finals.

Lemma h_f256 h d msg n a : bytes msg -> h_sha256_final h d msg n a = sha256_final d msg n a.
Proof.
  intros B. unfold h_sha256_final, sha256_final. cbv zeta. rewrite h_bytes_htobe.
  apply (final_ext 64 55 56 _ _ (h_t256 h)); [exact B|apply be_bytes_bytes|]. unfold htobe64. rewrite htobe_bytes. reflexivity.
Qed.
Lemma h_f512 h d msg n a : bytes msg -> h_sha512_final h d msg n a = sha512_final d msg n a.
Proof.
  intros B. unfold h_sha512_final, sha512_final. cbv zeta. rewrite h_bytes_htobe.
  apply (final_ext 128 111 120 _ _ (h_t512 h)); [exact B|apply be_bytes_bytes|]. unfold htobe64. rewrite htobe_bytes. reflexivity.
Qed.
Lemma h_sha256_eq h msg n : bytes msg -> h_sha2_256 h msg n = sha2_256 msg n.
Proof. intros B. unfold h_sha2_256, sha2_256. rewrite h_f256 by exact B. apply bind_ext; [reflexivity|]. intros d _. rewrite h_out32_eq. reflexivity. Qed.
Lemma h_sha512_eq h msg n : bytes msg -> h_sha2_512 h msg n = sha2_512 msg n.
Proof. intros B. unfold h_sha2_512, sha2_512. rewrite h_f512 by exact B. apply bind_ext; [reflexivity|]. intros d _. rewrite h_out64_eq. reflexivity. Qed.
Lemma h_sha1_eq h msg n : bytes msg -> h_sha1 h msg n = sha1 msg n.
Proof.
  intros B. unfold h_sha1, sha1. cbv zeta. rewrite h_bytes_htobe.
  apply (final_ext2 64 55 56 _ _ (h_t1 h)); [exact B|apply be_bytes_bytes| |]; [unfold htobe64; rewrite htobe_bytes; reflexivity|].
  intros r. rewrite h_out32_eq. reflexivity.
Qed.
Lemma h_rmd_eq h msg n : bytes msg -> h_ripemd160 h msg n = ripemd160 msg n.
Proof.
  intros B. unfold h_ripemd160, ripemd160. cbv zeta. rewrite h_bytes_htole.
  apply (final_ext2 64 55 56 _ _ (h_trmd h)); [exact B|apply le_bytes_bytes| |]; [unfold htole64; rewrite host_bytes_le; reflexivity|].
  intros r. rewrite h_out32le_eq. reflexivity.
Qed.
Lemma sha2_256_bytes msg n d : sha2_256 msg n = Ok d -> bytes d.
Proof. unfold sha2_256. destruct (sha256_final _ _ _ _); cbn [bind]; try discriminate. intros [= <-]. apply out32_bytes. Qed.
Lemma sha2_512_bytes msg n d : sha2_512 msg n = Ok d -> bytes d.
Proof. unfold sha2_512. destruct (sha512_final _ _ _ _); cbn [bind]; try discriminate. intros [= <-]. apply out64_bytes. Qed.

Lemma host_xor c : is_byte c -> forall b, bytes b -> length b = 8%nat -> host_bytes 8 (Z.lxor (host_val b) (le_val (repeat c 8))) = map (Z.lxor c) b.
Proof.
  intros C b B L. pose proof (xor_words_ok c 1 b B C L) as H. unfold xor_words in H. rewrite L in H.
  change (8 / 8)%nat with 1%nat in H. cbv iota beta in H. rewrite app_nil_r in H. rewrite firstn_all2 in H by lia. exact H.
Qed.
Lemma h_xor_eq h c buffer : is_byte c -> bytes buffer -> h_xor_words h (le_val (repeat c 8)) buffer = xor_words (le_val (repeat c 8)) buffer.
Proof.
  intros C B. unfold h_xor_words, xor_words.
  assert (N : (8 * (length buffer / 8) <= length buffer)%nat) by (apply Nat.mul_div_le; lia).
  revert N. generalize (length buffer / 8)%nat as n. intros n. revert buffer B. induction n as [|n IH]; intros b B N; [reflexivity|].
  rewrite IH; [|apply bytes_skipn, B|rewrite skipn_length; lia]. f_equal.
  assert (L : length (firstn 8 b) = 8%nat) by (rewrite firstn_length; lia). assert (B8 := bytes_firstn 8 b B).
  destruct h; cbn [h_bytes h_val]; [reflexivity|].
  rewrite host_xor by (auto using bytes_rev; rewrite rev_length; exact L). rewrite host_xor by auto.
  rewrite map_rev, rev_involutive. reflexivity.
Qed.
Lemma xor_bytes c buffer : is_byte c -> bytes buffer -> bytes (xor_words (le_val (repeat c 8)) buffer).
Proof.
  intros C B. unfold xor_words. generalize (length buffer / 8)%nat as n. intros n. revert buffer B.
  induction n as [|n IH]; intros b B; [constructor|]. apply bytes_app. split; [rewrite host_bytes_le; apply le_bytes_bytes|apply IH, bytes_skipn, B].
Qed.

Lemma h_hmac256_eq h key klen msg n : bytes key -> bytes msg -> h_hmac_sha256 h key klen msg n = hmac_sha256 key klen msg n.
Proof.
  intros Bk Bm. unfold h_hmac_sha256, hmac_sha256. rewrite h_sha256_eq by exact Bk. apply bind_ext; [reflexivity|]. intros buf Hb.
  assert (Bb : bytes buf).
  { destruct (_ <=? _)%nat.
    - destruct (slice key 0 klen) as [k| |] eqn:S; cbn [bind] in Hb; try discriminate. injection Hb as <-. apply bytes_app.
      split; [exact (proj1 (slice_bytes _ _ _ _ Bk S))|apply bytes_repeat0].
    - destruct (sha2_256 key klen) as [k| |] eqn:S; cbn [bind] in Hb; try discriminate. injection Hb as <-. apply bytes_app.
      split; [exact (sha2_256_bytes _ _ _ S)|apply (bytes_repeat0 32)]. }
  cbv zeta. change 0x3636363636363636 with (le_val (repeat 54 8)). change 0x5C5C5C5C5C5C5C5C with (le_val (repeat 92 8)).
  rewrite !h_xor_eq by (exact Bb || (unfold is_byte; lia)).
  pose proof (xor_bytes 54 buf ltac:(unfold is_byte; lia) Bb) as B1. pose proof (xor_bytes 92 buf ltac:(unfold is_byte; lia) Bb) as B2.
  rewrite h_t256 by exact B1. apply bind_ext; [reflexivity|]. intros d1 _. rewrite h_f256 by exact Bm. apply bind_ext; [reflexivity|]. intros d2 _.
  rewrite h_t256 by exact B2. apply bind_ext; [reflexivity|]. intros d3 _. rewrite h_out32_eq, h_f256 by apply out32_bytes.
  apply bind_ext; [reflexivity|]. intros d4 _. rewrite h_out32_eq. reflexivity.
Qed.
Lemma h_hmac512_eq h key klen msg n : bytes key -> bytes msg -> h_hmac_sha512 h key klen msg n = hmac_sha512 key klen msg n.
Proof.
  intros Bk Bm. unfold h_hmac_sha512, hmac_sha512. rewrite h_sha512_eq by exact Bk. apply bind_ext; [reflexivity|]. intros buf Hb.
  assert (Bb : bytes buf).
  { destruct (_ <=? _)%nat.
    - destruct (slice key 0 klen) as [k| |] eqn:S; cbn [bind] in Hb; try discriminate. injection Hb as <-. apply bytes_app.
      split; [exact (proj1 (slice_bytes _ _ _ _ Bk S))|apply bytes_repeat0].
    - destruct (sha2_512 key klen) as [k| |] eqn:S; cbn [bind] in Hb; try discriminate. injection Hb as <-. apply bytes_app.
      split; [exact (sha2_512_bytes _ _ _ S)|apply (bytes_repeat0 64)]. }
  cbv zeta. change 0x3636363636363636 with (le_val (repeat 54 8)). change 0x5C5C5C5C5C5C5C5C with (le_val (repeat 92 8)).
  rewrite !h_xor_eq by (exact Bb || (unfold is_byte; lia)).
  pose proof (xor_bytes 54 buf ltac:(unfold is_byte; lia) Bb) as B1. pose proof (xor_bytes 92 buf ltac:(unfold is_byte; lia) Bb) as B2.
  rewrite h_t512 by exact B1. apply bind_ext; [reflexivity|]. intros d1 _. rewrite h_f512 by exact Bm. apply bind_ext; [reflexivity|]. intros d2 _.
  rewrite h_t512 by exact B2. apply bind_ext; [reflexivity|]. intros d3 _. rewrite h_out64_eq, h_f512 by apply out64_bytes.
  apply bind_ext; [reflexivity|]. intros d4 _. rewrite h_out64_eq. reflexivity.
Qed.
Lemma hmac512_res_bytes key klen msg n d : hmac_sha512 key klen msg n = Ok d -> bytes d.
Proof.
  unfold hmac_sha512. intros H. repeat (apply bind_Ok in H as (? & _ & H)). injection H as <-. apply out64_bytes.
Qed.

(** src/btc *)
Lemma h_hash160_eq h msg n : bytes msg -> h_btc_hash160 h msg n = btc_hash160 msg n.
Proof. intros B. unfold h_btc_hash160, btc_hash160. rewrite h_sha256_eq by exact B. apply bind_ext; [reflexivity|]. intros d H. apply h_rmd_eq, (sha2_256_bytes _ _ _ H). Qed.
Lemma h_hash256_eq h msg n : bytes msg -> h_btc_hash256 h msg n = btc_hash256 msg n.
Proof. intros B. unfold h_btc_hash256, btc_hash256. rewrite h_sha256_eq by exact B. apply bind_ext; [reflexivity|]. intros d H. apply h_sha256_eq, (sha2_256_bytes _ _ _ H). Qed.
Lemma hash160_res_bytes msg n d : btc_hash160 msg n = Ok d -> bytes d.
Proof.
  unfold btc_hash160, ripemd160. intros H. apply bind_Ok in H as (s & _ & H). cbv zeta in H.
  apply bind_Ok in H as ([[d1 m1] n1] & _ & H). apply bind_Ok in H as (tl & _ & H). apply bind_Ok in H as (c1 & _ & H). apply bind_Ok in H as (c2 & _ & H).
  apply bind_Ok in H as ([d2 c3] & _ & H). apply bind_Ok in H as (c4 & _ & H). apply bind_Ok in H as (d3 & _ & H).
  injection H as <-. apply out32le_bytes.
Qed.
Lemma d64_bytes inp d : hash256_d64_transform inp = Ok d -> bytes d.
Proof.
  unfold hash256_d64_transform. intros H. apply bind_Ok in H as ([] & _ & H). apply bind_Ok in H as ([] & _ & H). apply bind_Ok in H as ([] & _ & H).
  injection H as <-. apply out32_bytes.
Qed.
Lemma h_hash256_d64_eq h : forall blocks mem out inp, bytes mem -> h_btc_hash256_d64 h mem out inp blocks = btc_hash256_d64 mem out inp blocks.
Proof.
  induction blocks as [|n IH]; intros mem out inp B; cbn [h_btc_hash256_d64 btc_hash256_d64]; [reflexivity|].
  rewrite h_d64 by (apply bytes_skipn, B). apply bind_ext; [reflexivity|]. intros d Hd. apply bind_ext; [reflexivity|]. intros m Hm.
  apply IH. exact (proj1 (store_bytes _ _ _ _ B (d64_bytes _ _ Hd) Hm)).
Qed.
