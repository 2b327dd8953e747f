(** Lemmas about scratch buffers: Base58Check and address decoding. *)
From Verif Require Import Base M_Endian L_Endian S_Mem L_Mem M_Base58 M_Base58Check S_Base58 L_Base58 M_Hash M_Base32 M_Bech32 M_Address S_Scratch M_Scratch P_Mem L_Scratch.

Lemma illegal_ext l r1 r2 : forall n a b, (n <= length l)%nat -> illegal_loop (l ++ r1) n a b = illegal_loop (l ++ r2) n a b.
Proof.
  induction l as [|c l IH]; intros n a b H; cbn [length] in H.
  - replace n with O by lia. destruct r1, r2; reflexivity.
  - destruct n as [|n]; [reflexivity|]. cbn [app illegal_loop].
    repeat match goal with |- context [if ?x then _ else _] => destruct x end; try reflexivity; apply IH; lia.
Qed.
Lemma strrchr_ext ch l r1 r2 : strrchr (l ++ 0 :: r1) ch = strrchr (l ++ 0 :: r2) ch.
Proof. induction l as [|c l IH]; [reflexivity|]. cbn [app strrchr]. rewrite IH. reflexivity. Qed.
Lemma strrchr_bound ch l r : forall i, strrchr (l ++ 0 :: r) ch = Ok (Some i) -> (i < length l)%nat.
Proof.
  induction l as [|c l IH]; intros i H; cbn [app strrchr] in H; [discriminate|].
  destruct (c =? 0); [discriminate|]. destruct (strrchr (l ++ 0 :: r) ch) as [[j|]| |]; try discriminate; cbn [bind] in H.
  - injection H as <-. specialize (IH j eq_refl). cbn [length]. lia.
  - destruct (c =? ch); [|discriminate]. injection H as <-. cbn [length]. lia.
Qed.
Lemma lower_ext l r1 r2 : forall n, (n <= length l)%nat -> lower_chars (l ++ r1) n = lower_chars (l ++ r2) n.
Proof.
  induction l as [|c l IH]; intros n H; cbn [length] in H.
  - replace n with O by lia. destruct r1, r2; reflexivity.
  - destruct n as [|n]; [reflexivity|]. cbn [app lower_chars]. rewrite (IH n) by lia. reflexivity.
Qed.
Lemma decode_chars_ext l r1 r2 : forall n, (n <= length l)%nat -> decode_chars (l ++ r1) n = decode_chars (l ++ r2) n.
Proof.
  induction l as [|c l IH]; intros n H; cbn [length] in H.
  - replace n with O by lia. destruct r1, r2; reflexivity.
  - destruct n as [|n]; [reflexivity|]. cbn [app decode_chars]. rewrite (IH n) by lia. reflexivity.
Qed.
Lemma skipn_app_le {A} (l r : list A) n : (n <= length l)%nat -> skipn n (l ++ r) = skipn n l ++ r.
Proof. intros H. rewrite skipn_app. replace (n - length l)%nat with O by lia. reflexivity. Qed.

(** Decoding depends on the text up to its NUL only. *)
Lemma bech32_decode_ext text r1 r2 n cap : (n <= length text)%nat ->
  bech32_decode (text ++ 0 :: r1) n cap = bech32_decode (text ++ 0 :: r2) n cap.
Proof.
  intros H. unfold bech32_decode, is_illegal. rewrite (illegal_ext text (0 :: r1) (0 :: r2)) by exact H.
  rewrite (strrchr_ext 49 text r1 r2).
  destruct (illegal_loop (text ++ 0 :: r2) n false false) as [[]| |]; cbn [bind]; try reflexivity.
  destruct (strrchr (text ++ 0 :: r2) 49) as [[pos|]| |] eqn:E; cbn [bind]; try reflexivity. apply strrchr_bound in E.
  destruct ((90 <? n)%nat || (pos =? 0)%nat || (n <? pos + 7)%nat || (n <=? 7)%nat) eqn:Et; [reflexivity|].
  destruct (cap <? pos)%nat; [reflexivity|].
  rewrite (lower_ext text (0 :: r1) (0 :: r2)) by lia.
  rewrite !orb_false_iff in Et. destruct Et as [[[_ _] Et] _]. apply Nat.ltb_ge in Et.
  rewrite !(skipn_app_le text) by lia.
  rewrite (decode_chars_ext (skipn (pos + 1) text) (0 :: r1) (0 :: r2)) by (rewrite skipn_length; lia).
  rewrite (decode_chars_ext (skipn (n - 6) text) (0 :: r1) (0 :: r2)) by (rewrite skipn_length; lia).
  reflexivity.
Qed.

(** Outside 8 to 90 characters nothing is stored. *)
Lemma bech32_decode_long str n cap r : bech32_decode str n cap = Ok r -> (n <= 7)%nat \/ (90 < n)%nat -> b_ret r < 1 /\ b_data r = [].
Proof.
  unfold bech32_decode. intros H Hn. destruct (is_illegal str n) as [[]| |]; try discriminate; cbn [bind] in H.
  { injection H as <-. split; [reflexivity|reflexivity]. }
  destruct (strrchr str 49) as [[pos|]| |]; try discriminate; cbn [bind] in H.
  2:{ injection H as <-. split; reflexivity. }
  replace ((90 <? n)%nat || (pos =? 0)%nat || (n <? pos + 7)%nat || (n <=? 7)%nat) with true in H.
  { injection H as <-. split; reflexivity. }
  symmetry. rewrite !orb_true_iff. destruct Hn; [right|left; left; left]; [apply Nat.leb_le|apply Nat.ltb_lt]; lia.
Qed.
Lemma decode_chars_len : forall s n vs ok, decode_chars s n = Ok (vs, ok) -> (length vs <= n)%nat.
Proof.
  induction s as [|c r IH]; intros [|n] vs ok H; cbn [decode_chars] in H; try discriminate; try (injection H as <- <-; cbn; lia).
  destruct (tget BECH32_DECODE c =? -1); [injection H as <- <-; cbn; lia|].
  destruct (decode_chars r n) as [[v o]| |] eqn:E; try discriminate. cbn [bind] in H. injection H as <- <-.
  apply IH in E. cbn [length]. lia.
Qed.
Lemma bech32_decode_data str n cap r : bech32_decode str n cap = Ok r -> (length (b_data r) <= n)%nat /\ (b_ret r = Z.of_nat (length (b_data r)) \/ b_ret r < 0).
Proof.
  unfold bech32_decode. intros H. destruct (is_illegal str n) as [[]| |]; try discriminate; cbn [bind] in H.
  { injection H as <-. cbn. lia. }
  destruct (strrchr str 49) as [[pos|]| |]; try discriminate; cbn [bind] in H.
  2:{ injection H as <-. cbn. lia. }
  destruct ((90 <? n)%nat || (pos =? 0)%nat || (n <? pos + 7)%nat || (n <=? 7)%nat); [injection H as <-; cbn; lia|].
  destruct (cap <? pos)%nat; [injection H as <-; cbn; lia|].
  destruct (lower_chars str pos) as [hrp| |]; try discriminate; cbn [bind] in H.
  destruct (decode_chars (skipn (pos + 1) str) (n - 6 - (pos + 1))) as [[data ok]| |] eqn:E; try discriminate; cbn [bind] in H.
  apply decode_chars_len in E. destruct ok; cbn [negb] in H; [|injection H as <-; cbn; lia].
  destruct (decode_chars (skipn (n - 6) str) 6) as [[ck ok]| |]; try discriminate; cbn [bind] in H.
  destruct ok; cbn [negb] in H; [|injection H as <-; cbn; lia].
  destruct (verify_checksum hrp data ck) as [[]| |]; try discriminate; cbn [bind negb] in H; injection H as <-; cbn; lia.
Qed.

Lemma from_base58_size s n m out : from_base58 s n = Ok (m, out) -> m = length out.
Proof.
  unfold from_base58. intros H.
  destruct (skip_leading_spaces s) as [[? ?]| |]; try discriminate; cbn [bind] in H.
  destruct (skip_ones _) as [[? ?]| |]; try discriminate; cbn [bind] in H.
  destruct (c_defined _) as [[]| |]; try discriminate; cbn [bind] in H.
  destruct (c_defined _) as [[]| |]; try discriminate; cbn [bind] in H.
  destruct (from_base58_loop _ _ _) as [[[[? ?] ?]|]| |]; try discriminate; cbn [bind] in H; [|injection H as <- <-; reflexivity].
  destruct (skip_trailing_spaces _) as [?| |]; try discriminate; cbn [bind] in H.
  destruct (rd _ _) as [?| |]; try discriminate; cbn [bind] in H.
  destruct (negb _); injection H as <- <-; reflexivity.
Qed.

Lemma from_base58_check_w_ok N e str str_len buf w n out : sane e -> mallocs e N -> scratch_size (skipn str (w_mem w)) str_len N ->
  from_base58_check (skipn str (w_mem w)) str_len = Ok (n, out) -> (buf + length out <= length (w_mem w))%nat ->
  exists d, from_base58_check_w e str str_len buf w =
      Ok (n, mkWorld (written (w_mem w) buf out) (w_blocks w) (S (w_next w)) ((w_next w, d) :: w_dead w)) /\
    clean e (w_next w, d).
Proof.
  intros Se Ma HN H Hs. unfold from_base58_check_w. unfold from_base58_check in H.
  destruct (from_base58 (skipn str (w_mem w)) str_len) as [[m o]| |] eqn:E; try discriminate. cbn [bind] in H.
  assert (Eo : o = out).
  { destruct (m <? 4)%nat; [injection H as _ <-; reflexivity|].
    destruct (slice o 0 (m - 4)) as [x| |]; try discriminate. cbn [bind] in H.
    destruct (btc_hash256 x (m - 4)) as [y| |]; try discriminate. cbn [bind] in H.
    destruct (slice y 0 4) as [y4| |]; try discriminate. cbn [bind] in H.
    destruct (slice o (m - 4) 4) as [z4| |]; try discriminate. cbn [bind] in H.
    destruct (bytes_eqb y4 z4); injection H as _ <-; reflexivity. }
  subst o. pose proof (from_base58_size _ _ _ _ E) as Lm.
  destruct (from_base58_w_ok N e str str_len buf w m out Se Ma HN E Hs) as (d & -> & C). cbn [bind].
  exists d. split; [|exact C]. destruct (Nat.ltb_spec m 4) as [L4|L4]; [injection H as <-; reflexivity|].
  unfold p_read. cbn [w_mem].
  rewrite (slice_ok (written (w_mem w) buf out)) by (rewrite written_length; lia).
  rewrite slice_ok in H by lia. cbn [bind] in *.
  replace (firstn (m - 4) (skipn buf (written (w_mem w) buf out))) with (firstn (m - 4) out).
  2:{ rewrite skipn_written by lia. rewrite firstn_app. replace (m - 4 - length out)%nat with O by lia. rewrite firstn_O, app_nil_r. reflexivity. }
  change (skipn 0 out) with out in H.
  destruct (btc_hash256 (firstn (m - 4) out) (m - 4)) as [y| |]; try discriminate. cbn [bind] in *.
  destruct (slice y 0 4) as [y4| |]; try discriminate. cbn [bind] in *.
  rewrite slice_ok by (rewrite written_length; lia). rewrite slice_ok in H by lia. cbn [bind] in *.
  replace (skipn (buf + (m - 4)) (written (w_mem w) buf out)) with (skipn (m - 4) out ++ skipn (buf + length out) (w_mem w)).
  2:{ rewrite <- (skipn_plus _ (m - 4) buf). rewrite skipn_written by lia. rewrite skipn_app. replace (m - 4 - length out)%nat with O by lia. reflexivity. }
  rewrite firstn_app. replace (4 - length (skipn (m - 4) out))%nat with O by (rewrite skipn_length; lia). rewrite firstn_O, app_nil_r.
  destruct (bytes_eqb y4 _); cbn [negb] in *; injection H as <-; reflexivity.
Qed.

Lemma overlay_length new old : length (overlay new old) = Nat.max (length new) (length old).
Proof. unfold overlay. rewrite app_length, skipn_length. lia. Qed.
Lemma written_overlay mem a old new : (a + length (overlay new old) <= length mem)%nat ->
  written (written mem a old) a new = written mem a (overlay new old).
Proof.
  rewrite overlay_length. intros H. apply nth_error_ext. intros p.
  rewrite !nth_error_written; try rewrite overlay_length; try rewrite written_length; try lia.
  unfold overlay. destruct (Nat.leb_spec a p); cbn [andb]; [|reflexivity].
  destruct (Nat.ltb_spec p (a + length new)); destruct (Nat.ltb_spec p (a + Nat.max (length new) (length old))); try lia.
  - rewrite nth_error_app1 by lia. reflexivity.
  - destruct (Nat.ltb_spec p (a + length old)); [|lia]. rewrite nth_error_app2 by lia.
    rewrite nth_error_skipn. f_equal. lia.
  - destruct (Nat.ltb_spec p (a + length old)); [lia|reflexivity].
Qed.

Ltac wl := cbn [length]; first [lia | rewrite written_length; wl].

Lemma nth_region0 (d : list Z) : (1 <= length d)%nat -> rd d 0 = Ok (nth 0 (region d 0 1) 0).
Proof. destruct d as [|x d]; cbn [length]; [lia|]. reflexivity. Qed.

Lemma decode_bech32_w_ok e str str_len out out_size p w mem0 old r : sane e ->
  w_mem w = written mem0 out old -> (out + length (a_out r) <= length mem0)%nat -> (length old <= length (a_out r))%nat ->
  decode_bech32 (skipn str (w_mem w)) str_len old out_size p (e_stack e (w_next w)) = Ok r ->
  exists w', decode_bech32_w e str str_len out out_size p w = Ok (a_kind r, a_size r, w') /\
    w_mem w' = written mem0 out (a_out r) /\ w_blocks w' = w_blocks w.
Proof.
  intros Se Hm Ho Hold H. unfold decode_bech32_w. unfold decode_bech32 in H.
  destruct (declare_buffer e ((Z.of_nat str_len - 7) mod 2 ^ 64) w) as [b w1] eqn:Ed.
  assert (Wm : w_mem w1 = w_mem w).
  { unfold declare_buffer in Ed. destruct (_ <=? 128); [injection Ed as <- <-; reflexivity|].
    destruct (e_malloc _ _ _); injection Ed as <- <-; reflexivity. }
  rewrite Wm. destruct (bech32_decode (skipn str (w_mem w)) str_len 16) as [br| |] eqn:Eb; try discriminate. cbn [bind] in *.
  destruct ((7 <? str_len)%nat && (str_len <=? 90)%nat) eqn:El.
  - (* the stack array *)
    apply andb_prop in El. destruct El as [E1 E2]. apply Nat.ltb_lt in E1. apply Nat.leb_le in E2.
    unfold declare_buffer in Ed. rewrite Z.mod_small in Ed by lia.
    destruct (Z.leb_spec (Z.of_nat str_len - 7) 128) as [_|]; [|lia]. injection Ed as <- <-. clear Wm.
    destruct Se as [S1 _]. specialize (S1 (w_next w)). set (st := e_stack e (w_next w)) in *.
    change (mkWorld (w_mem w) ((w_next w, (false, st)) :: w_blocks w) (S (w_next w)) (w_dead w))
      with (top (w_mem w) (w_next w) false st (w_blocks w) (S (w_next w)) (w_dead w)).
    destruct (bech32_decode_data _ _ _ _ Eb) as [Ld _].
    assert (Ew : (match b_data br with [] => Ok (top (w_mem w) (w_next w) false st (w_blocks w) (S (w_next w)) (w_dead w))
      | d => buffer_write (mkBuffer (Some (w_next w)) false) 0 d (top (w_mem w) (w_next w) false st (w_blocks w) (S (w_next w)) (w_dead w)) end) =
      Ok (top (w_mem w) (w_next w) false (written st 0 (b_data br)) (w_blocks w) (S (w_next w)) (w_dead w))).
    { destruct (b_data br) as [|x l] eqn:Ex; [rewrite written_nil; reflexivity|]. apply write_top. lia. }
    rewrite Ew. cbn [bind]. clear Ew.
    rewrite store_ok in H by lia. cbn [bind] in H.
    change (firstn 0 st ++ b_data br ++ skipn (0 + length (b_data br)) st) with (written st 0 (b_data br)) in H.
    assert (Lw : length (written st 0 (b_data br)) = 128%nat) by (rewrite written_length; lia).
    set (d := written st 0 (b_data br)) in *.
    assert (Fin : forall (mem1 : list Z) (k : address_kind) (s : nat),
      (w0 <- free_buffer (mkBuffer (Some (w_next w)) false) (top mem1 (w_next w) false d (w_blocks w) (S (w_next w)) (w_dead w)) ;;
       w2 <- leave_buffer (mkBuffer (Some (w_next w)) false) w0 ;; Ok (k, s, w2)) =
      Ok (k, s, mkWorld mem1 (w_blocks w) (S (w_next w)) ((w_next w, d) :: w_dead w))).
    { intros mem1 k s. pose proof (release_top (w_next w) false mem1 d (w_blocks w) (S (w_next w)) (w_dead w)) as R.
      destruct (free_buffer _ _) as [w0| |]; try discriminate. cbn [bind] in *. rewrite R. reflexivity. }
    destruct (_ || _ || _).
    { injection H as <-. cbn [a_kind a_size a_out] in *. rewrite Fin. eexists. split; [reflexivity|]. cbn [w_mem w_blocks]. auto. }
    destruct (_ <=? out_size)%nat.
    2:{ injection H as <-. cbn [a_kind a_size a_out] in *. rewrite Fin. eexists. split; [reflexivity|]. cbn [w_mem w_blocks]. auto. }
    rewrite nth_region0 in H by lia. cbn [bind] in H. rewrite !read_top by lia. cbn [bind].
    replace (region d 1 127) with (skipn 1 d).
    2:{ unfold region. symmetry. apply firstn_all2. rewrite skipn_length. lia. }
    destruct (as_char (nth 0 (region d 0 1) 0) =? 0).
    + destruct (from_base32_raw (skipn 1 d) _) as [[size prog]| |]; try discriminate. cbn [bind] in *.
      assert (Lo : (out + length (overlay prog old) <= length mem0)%nat) by (repeat destruct (_ =? _)%nat in H; injection H as <-; exact Ho).
      rewrite Hm. rewrite pwrite_top.
      2:{ rewrite overlay_length in Lo. rewrite written_length; lia. }
      cbn [bind]. rewrite written_overlay by exact Lo. rewrite Fin.
      destruct (size =? WITNESSV0_KEYID_SIZE)%nat; [|destruct (size =? WITNESSV0_SCRIPTID_SIZE)%nat];
        injection H as <-; (eexists; split; [reflexivity|]); cbn [w_mem w_blocks a_out]; split; reflexivity.
    + destruct (from_base32_raw (skipn 1 d) _) as [[size prog]| |]; try (rewrite Hm; discriminate). cbn [bind] in *.
      set (v := u8 (as_char (nth 0 (region d 0 1) 0))) in *.
      assert (Lo : (out + length (overlay (v :: prog) old) <= length mem0)%nat) by (destruct (_ || _ || _) in H; injection H as <-; exact Ho).
      pose proof Lo as Lo'. rewrite overlay_length in Lo'. cbn [length] in Lo'.
      rewrite Hm. rewrite pwrite_top by (rewrite written_length; cbn [length]; lia). cbn [bind].
      rewrite pwrite_top by wl. cbn [bind].
      replace (written (written (written mem0 out old) out [v]) (out + 1) prog) with (written mem0 out (overlay (v :: prog) old)).
      2:{ rewrite <- written_overlay by exact Lo. symmetry. apply (written_app _ out [v] prog). wl. }
      rewrite Fin. cbn [length] in H.
      destruct (_ || _ || _) in *; injection H as <-; (eexists; split; [reflexivity|]); cbn [w_mem w_blocks a_out]; split; reflexivity.
  - (* refused *)
    destruct (bech32_decode_long _ _ _ _ Eb) as [Hr Hd].
    { apply andb_false_iff in El. destruct El as [E|E]; [apply Nat.ltb_ge in E|apply Nat.leb_gt in E]; lia. }
    rewrite Hd in *. cbn [bind]. replace (b_ret br <? 1) with true in * by (symmetry; apply Z.ltb_lt; exact Hr). cbn [orb] in *.
    injection H as <-. cbn [a_kind a_size a_out] in *.
    unfold declare_buffer in Ed. destruct (_ <=? 128).
    + injection Ed as <- <-. cbn [free_buffer leave_buffer b_in_heap b_block bind w_mem w_blocks w_next w_dead].
      rewrite find_head. cbn [bind]. rewrite drop_head. eexists. split; [reflexivity|]. cbn [w_mem w_blocks]. auto.
    + destruct (e_malloc e (w_next w) _); injection Ed as <- <-; cbn [free_buffer leave_buffer b_in_heap b_block bind w_mem w_blocks w_next w_dead].
      * rewrite find_head. cbn [bind c_defined]. rewrite drop_head. eexists. split; [reflexivity|]. cbn [w_mem w_blocks]. auto.
      * eexists. split; [reflexivity|]. cbn [w_mem w_blocks]. auto.
Qed.

Lemma decode_bech32_len s l old cap p st r : decode_bech32 s l old cap p st = Ok r -> (length old <= length (a_out r))%nat.
Proof.
  unfold decode_bech32. intros H. destruct (bech32_decode s l 16) as [br| |]; try discriminate. cbn [bind] in H.
  destruct (_ || _ || _) in H; [injection H as <-; apply Nat.le_refl|].
  destruct (store st 0 (b_data br)) as [b| |]; try discriminate. cbn [bind] in H.
  destruct (_ <=? cap)%nat; [|injection H as <-; apply Nat.le_refl].
  destruct (rd b 0) as [v| |]; try discriminate. cbn [bind] in H.
  destruct (as_char v =? 0); destruct (from_base32_raw (skipn 1 b) _) as [[size prog]| |]; try discriminate; cbn [bind] in H.
  - destruct (size =? WITNESSV0_KEYID_SIZE)%nat; [|destruct (size =? WITNESSV0_SCRIPTID_SIZE)%nat]; injection H as <-; cbn [a_out]; rewrite overlay_length; lia.
  - destruct (_ || _ || _) in H; injection H as <-; cbn [a_out]; rewrite overlay_length; lia.
Qed.

Lemma from_base58_check_size s l n out : from_base58_check s l = Ok (n, out) -> n = O \/ (n + 4 = length out)%nat.
Proof.
  unfold from_base58_check. intros H. destruct (from_base58 s l) as [[m o]| |] eqn:E; try discriminate. cbn [bind] in H.
  apply from_base58_size in E. destruct (Nat.ltb_spec m 4); [injection H as <- <-; auto|].
  destruct (slice o 0 (m - 4)) as [x| |]; try discriminate. cbn [bind] in H.
  destruct (btc_hash256 x (m - 4)) as [y| |]; try discriminate. cbn [bind] in H.
  destruct (slice y 0 4) as [y4| |]; try discriminate. cbn [bind] in H.
  destruct (slice o (m - 4) 4) as [z4| |]; try discriminate. cbn [bind] in H.
  destruct (bytes_eqb y4 z4); injection H as <- <-; [right; lia|left; reflexivity].
Qed.

Lemma firstn_skipn_written mem a bs i n : (a + length bs <= length mem)%nat -> (i + n <= length bs)%nat ->
  firstn n (skipn (a + i) (written mem a bs)) = firstn n (skipn i bs).
Proof.
  intros H Hn. rewrite <- (skipn_plus _ i a), skipn_written by exact H. rewrite skipn_app_le by lia.
  rewrite firstn_app. replace (n - length (skipn i bs))%nat with O by (rewrite skipn_length; lia).
  rewrite firstn_O, app_nil_r. reflexivity.
Qed.

Lemma decode_bech32_ext text r1 r2 old cap p st :
  decode_bech32 (text ++ 0 :: r1) (length text) old cap p st = decode_bech32 (text ++ 0 :: r2) (length text) old cap p st.
Proof. unfold decode_bech32. rewrite (bech32_decode_ext text r1 r2) by lia. reflexivity. Qed.

Lemma text_after_write mem out bs str text rest : skipn str mem = text ++ 0 :: rest -> (out + length bs <= length mem)%nat ->
  (out + length bs <= str \/ str + length text + 1 <= out)%nat -> exists rest', skipn str (written mem out bs) = text ++ 0 :: rest'.
Proof.
  intros Ht Hb [Hd|Hd].
  - exists rest. rewrite <- Ht. unfold written. rewrite app_assoc, skipn_app.
    rewrite skipn_all2 by (rewrite app_length, firstn_length; lia). cbn [app]. rewrite app_length, firstn_length, Nat.min_l by lia.
    rewrite skipn_plus. f_equal. lia.
  - exists (skipn (str + length text + 1) (written mem out bs)).
    rewrite <- (firstn_skipn (length text + 1) (skipn str (written mem out bs))). rewrite skipn_plus.
    replace (str + (length text + 1))%nat with (str + length text + 1)%nat by lia.
    replace (firstn (length text + 1) (skipn str (written mem out bs))) with (text ++ [0]); [rewrite <- app_assoc; reflexivity|].
    unfold written. rewrite skipn_app. rewrite firstn_app.
    assert (L : (str + (length text + 1) <= length mem)%nat).
    { apply (f_equal (@length Z)) in Ht. rewrite skipn_length, app_length in Ht. cbn [length] in Ht. lia. }
    replace (length text + 1 - length (skipn str (firstn out mem)))%nat with O by (rewrite skipn_length, firstn_length; lia).
    rewrite firstn_O, app_nil_r. rewrite skipn_firstn_comm, firstn_firstn, Nat.min_l by lia. rewrite Ht.
    replace (length text + 1)%nat with (length (text ++ [0])) by (rewrite app_length; reflexivity).
    change (text ++ 0 :: rest) with (text ++ [0] ++ rest). rewrite app_assoc. rewrite firstn_app_exact. reflexivity.
Qed.

Lemma address_decode_w_ok N e str text rest out out_size p w r : sane e -> mallocs e N -> scratch_size (text ++ 0 :: rest) (length text) N ->
  skipn str (w_mem w) = text ++ 0 :: rest -> (out + length (a_out r) <= length (w_mem w))%nat ->
  (out + length (a_out r) <= str \/ str + length text + 1 <= out)%nat ->
  address_decode (text ++ 0 :: rest) (length text) out_size p (e_stack e (S (w_next w))) = Ok r ->
  exists w', address_decode_w e str (length text) out out_size p w = Ok (a_kind r, a_size r, w') /\
    w_mem w' = written (w_mem w) out (a_out r) /\ w_blocks w' = w_blocks w.
Proof.
  intros Se Ma HN Ht Hb Hd H. unfold address_decode_w. unfold address_decode in H.
  destruct (out_size <? from_base58_check_length (length text))%nat.
  { injection H as <-. exists w. rewrite written_nil. auto. }
  destruct (from_base58_check (text ++ 0 :: rest) (length text)) as [[size o]| |] eqn:Ec; try discriminate. cbn [bind] in H.
  set (np := length (cp_pubkey p)) in *. set (ns := length (cp_script p)) in *.
  pose proof (from_base58_check_size _ _ _ _ Ec) as Hsz.
  assert (Lo : (length o <= length (a_out r))%nat).
  { destruct (_ && _ && _) in H; [injection H as <-; cbn [a_out]; rewrite overlay_length; lia|].
    destruct (_ && _ && _) in H; [injection H as <-; cbn [a_out]; rewrite overlay_length; lia|].
    eapply decode_bech32_len, H. }
  rewrite <- Ht in Ec, HN. destruct (from_base58_check_w_ok N e str (length text) out w size o Se Ma HN Ec) as (d & -> & _); [lia|].
  cbn [bind]. set (w1 := mkWorld (written (w_mem w) out o) (w_blocks w) (S (w_next w)) ((w_next w, d) :: w_dead w)).
  assert (Rd : forall i n, (i + n <= length o)%nat -> p_read (Caller (out + i)) n w1 = Ok (firstn n (skipn i o))).
  { intros i n Hi. unfold p_read, w1. cbn [w_mem]. rewrite slice_ok by (rewrite written_length; lia). f_equal.
    apply firstn_skipn_written; lia. }
  assert (Rd0 : forall n, (n <= length o)%nat -> p_read (Caller out) n w1 = Ok (firstn n o)).
  { intros n Hi. rewrite <- (Nat.add_0_r out). rewrite Rd by lia. reflexivity. }
  assert (Wr : forall new, (length new <= length o)%nat -> a_out r = overlay new o ->
    exists w2, p_write out new w1 = Ok w2 /\ w_mem w2 = written (w_mem w) out (a_out r) /\ w_blocks w2 = w_blocks w).
  { intros new Hn Ea. unfold p_write, w1. cbn [w_mem w_blocks w_next w_dead]. rewrite store_ok by (rewrite written_length; lia).
    cbn [bind]. eexists. split; [reflexivity|]. cbn [w_mem w_blocks]. split; [|reflexivity].
    rewrite Ea. apply written_overlay. rewrite <- Ea. lia. }
  assert (Case1 : forall n pref, (if negb (size =? 0)%nat && (n <=? size)%nat then q <- p_read (Caller out) n w1 ;; Ok (bytes_eqb q pref) else Ok false)
    = Ok (negb (size =? 0)%nat && (n <=? size)%nat && bytes_eqb (firstn n o) pref)).
  { intros n pref. destruct (size =? 0)%nat; cbn [negb andb]; [reflexivity|]. destruct (Nat.leb_spec n size); cbn [andb]; [|reflexivity].
    rewrite Rd0 by lia. reflexivity. }
  rewrite Case1. cbn [bind].
  destruct (negb (size =? 0)%nat && (np <=? size)%nat && bytes_eqb (firstn np o) (cp_pubkey p)) eqn:E1.
  { apply andb_prop in E1. destruct E1 as [E1 _]. apply andb_prop in E1. destruct E1 as [_ E1]. apply Nat.leb_le in E1.
    rewrite Rd by lia. cbn [bind]. injection H as <-.
    destruct (Wr (firstn (size - np) (skipn np o))) as (w2 & -> & Hw); [rewrite firstn_length, skipn_length; lia|reflexivity|].
    cbn [bind]. exists w2. split; [reflexivity|exact Hw]. }
  rewrite Case1. cbn [bind].
  destruct (negb (size =? 0)%nat && (ns <=? size)%nat && bytes_eqb (firstn ns o) (cp_script p)) eqn:E2.
  { apply andb_prop in E2. destruct E2 as [E2 _]. apply andb_prop in E2. destruct E2 as [_ E2]. apply Nat.leb_le in E2.
    rewrite Rd by lia. cbn [bind]. injection H as <-.
    destruct (Wr (firstn (size - ns) (skipn ns o))) as (w2 & -> & Hw); [rewrite firstn_length, skipn_length; lia|reflexivity|].
    cbn [bind]. exists w2. split; [reflexivity|exact Hw]. }
  destruct (text_after_write (w_mem w) out o str text rest Ht) as [rest' Hr']; [lia|lia|].
  destruct (decode_bech32_w_ok e str (length text) out out_size p w1 (w_mem w) o r Se) as (w2 & E & M2 & B2); try assumption; try reflexivity.
  { unfold w1. cbn [w_mem w_next]. rewrite Hr'. rewrite (decode_bech32_ext text rest' rest). exact H. }
  exists w2. split; [exact E|]. split; [exact M2|]. rewrite B2. reflexivity.
Qed.

Lemma skip_spaces_text text rest : forall n m, skip_leading_spaces (text ++ 0 :: rest) = Ok (n, m) ->
  exists t, m = t ++ 0 :: rest /\ (n + length t <= length text)%nat.
Proof.
  induction text as [|c text IH]; intros n m H; cbn [app skip_leading_spaces] in H.
  - injection H as <- <-. exists []. cbn. auto.
  - destruct (c =? 0); [injection H as <- <-; exists (c :: text); cbn; auto|].
    destruct (isspace c) as [[]| |]; try discriminate; cbn [bind] in H.
    + destruct (skip_leading_spaces (text ++ 0 :: rest)) as [[n' m']| |]; try discriminate. cbn [bind] in H. injection H as <- <-.
      destruct (IH _ _ eq_refl) as (t & -> & L). exists t. cbn [length]. split; [reflexivity|lia].
    + injection H as <- <-. exists (c :: text). cbn. auto.
Qed.
Lemma skip_ones_text text rest : forall n m, skip_ones (text ++ 0 :: rest) = Ok (n, m) -> (n <= length text)%nat.
Proof.
  induction text as [|c text IH]; intros n m H; cbn [app skip_ones] in H.
  - injection H as <- <-. cbn. lia.
  - destruct (c =? 49); [|injection H as <- <-; cbn; lia].
    destruct (skip_ones (text ++ 0 :: rest)) as [[n' m']| |]; try discriminate. cbn [bind] in H. injection H as <- <-.
    specialize (IH _ _ eq_refl). cbn [length]. lia.
Qed.
(** For a terminated text the scratch area has at most 733/1000 of its length, plus one. *)
Lemma scratch_size_text text rest N : Z.of_nat (length text) < 2 ^ 31 -> Z.of_nat (length text) * 733 / 1000 + 1 <= N ->
  scratch_size (text ++ 0 :: rest) (length text) N.
Proof.
  intros Hl HN sp s1 z s2 H1 H2. destruct (skip_spaces_text _ _ _ _ H1) as (t & -> & L). apply skip_ones_text in H2.
  rewrite to_int_small by lia. eapply Z.le_trans; [|exact HN].
  rewrite Z.quot_div_nonneg by lia. apply Z.add_le_mono_r, Z.div_le_mono; lia.
Qed.
