(** Merkle-Damgard iteration: the streaming loop plus the one or two final
    blocks equal the fold of the compression over the padded message. *)
From Verif Require Import Base M_Endian L_Endian S_Words M_Sha2.

Lemma skipn_skipn {A} (x y : nat) (l : list A) : skipn x (skipn y l) = skipn (y + x) l.
Proof. revert l. induction y as [|y IH]; intros l; [reflexivity|]. destruct l; cbn; [apply skipn_nil|apply IH]. Qed.

Lemma chunks_fuel_enough {A} k : (0 < k)%nat -> forall f1 f2 (l : list A),
  (length l <= f1)%nat -> (length l <= f2)%nat -> chunks_fuel f1 k l = chunks_fuel f2 k l.
Proof.
  intros Hk. induction f1 as [|f1 IH]; intros f2 l H1 H2.
  - destruct l; [|cbn in H1; lia]. now destruct f2.
  - destruct f2 as [|f2]; [destruct l; [reflexivity|cbn in H2; lia]|].
    cbn [chunks_fuel]. destruct l as [|x l]; [reflexivity|]. f_equal.
    apply IH; rewrite skipn_length; cbn [length] in *; lia.
Qed.
Lemma chunks_nil {A} k : @chunks A k [] = [].
Proof. reflexivity. Qed.
Lemma chunks_step {A} k (l : list A) : (0 < k)%nat -> l <> [] -> chunks k l = firstn k l :: chunks k (skipn k l).
Proof.
  intros Hk Hl. unfold chunks. destruct l as [|x l]; [congruence|]. cbn [length chunks_fuel].
  f_equal. apply chunks_fuel_enough; [exact Hk| |]; rewrite skipn_length; cbn [length]; lia.
Qed.
Lemma chunks_cons {A} k (b l : list A) : (0 < k)%nat -> length b = k -> chunks k (b ++ l) = b :: chunks k l.
Proof.
  intros Hk Hb. rewrite chunks_step; [|exact Hk|destruct b; cbn in *; [lia|discriminate]].
  rewrite <- Hb. now rewrite firstn_app_exact, skipn_app_exact.
Qed.
Lemma chunks_one {A} k (b : list A) : (0 < k)%nat -> length b = k -> chunks k b = [b].
Proof. intros Hk Hb. rewrite <- (app_nil_r b) at 1. now rewrite chunks_cons. Qed.

Lemma chunks_seq {A} k n : forall (l : list A), (0 < k)%nat -> length l = (k * n)%nat ->
  chunks k l = map (fun i => firstn k (skipn (k * i) l)) (seq 0 n).
Proof.
  induction n as [|n IH]; intros l Hk Hl.
  - rewrite Nat.mul_0_r in Hl. destruct l; [reflexivity|discriminate].
  - rewrite chunks_step; [|exact Hk|destruct l; cbn in *; [lia|discriminate]].
    cbn [seq map]. f_equal; [now rewrite Nat.mul_0_r|].
    rewrite (IH (skipn k l)) by (try rewrite skipn_length; lia).
    rewrite <- seq_shift, map_map. apply map_ext. intros i. rewrite skipn_skipn.
    do 2 f_equal. lia.
Qed.

Lemma be_words_nth wb block n t : (0 < wb)%nat -> length block = (wb * n)%nat -> (t < n)%nat ->
  nth t (map be_val (chunks wb block)) 0 = be_val (firstn wb (skipn (wb * t) block)).
Proof.
  intros Hw Hl Ht. rewrite (chunks_seq wb n block Hw Hl), map_map.
  rewrite nth_indep with (d' := (fun i => be_val (firstn wb (skipn (wb * i) block))) 0%nat) by (rewrite map_length, seq_length; lia).
  rewrite (map_nth (fun i => be_val (firstn wb (skipn (wb * i) block)))). rewrite seq_nth by lia. reflexivity.
Qed.
Lemma be_words_length wb block n : (0 < wb)%nat -> length block = (wb * n)%nat -> length (map be_val (chunks wb block)) = n.
Proof. intros Hw Hl. rewrite map_length, (chunks_seq wb n block Hw Hl), map_length, seq_length. reflexivity. Qed.

Lemma skipn_repeat {A} (x : A) n m : skipn n (repeat x m) = repeat x (m - n).
Proof. revert n. induction m as [|m IH]; intros [|n]; cbn; auto. Qed.
Lemma firstn_repeat {A} (x : A) n m : (n <= m)%nat -> firstn n (repeat x m) = repeat x n.
Proof. revert n. induction m as [|m IH]; intros [|n] H; cbn; auto; [lia|]. f_equal. apply IH. lia. Qed.
Lemma bytes_repeat0 n : bytes (repeat 0 n).
Proof. apply Forall_forall. intros x H. apply repeat_spec in H. subst. unfold is_byte. lia. Qed.

Section Md.
Context (transform : list Z -> list Z -> res (list Z)) (comp : list Z -> list Z -> list Z)
        (blk : nat) (good : list Z -> Prop).
Context (Hblk : (8 < blk)%nat).
Context (Htr : forall s chunk, good s -> bytes chunk -> (blk <= length chunk)%nat ->
           transform s chunk = Ok (comp s (firstn blk chunk))).
Context (Hgood : forall s b, good s -> bytes b -> length b = blk -> good (comp s b)).

Lemma block_loop_ok msg_len : forall fuel d msg,
  (msg_len <= length msg)%nat -> (msg_len <= fuel)%nat -> bytes msg -> good d ->
  exists q r d', msg_len = (blk * q + r)%nat /\ (r < blk)%nat /\ good d' /\
    block_loop fuel blk transform d msg msg_len = Ok (d', skipn (blk * q) msg, r) /\
    forall rest, fold_left comp (chunks blk (firstn (blk * q) msg ++ rest)) d
                 = fold_left comp (chunks blk rest) d'.
Proof.
  induction msg_len as [msg_len IH] using (well_founded_induction Wf_nat.lt_wf). intros fuel d msg Hm Hf Hb Hg.
  destruct (Nat.leb_spec blk msg_len) as [Hle|Hgt].
  - destruct fuel as [|f]; [lia|].
    assert (Hb' : bytes (firstn blk msg)) by now apply bytes_firstn.
    assert (Hl' : length (firstn blk msg) = blk) by (rewrite firstn_length; lia).
    destruct (IH (msg_len - blk)%nat ltac:(lia) f (comp d (firstn blk msg)) (skipn blk msg)
                ltac:(rewrite skipn_length; lia) ltac:(lia) ltac:(now apply bytes_skipn) ltac:(now apply Hgood))
      as (q & r & d' & Hq & Hr & Hg' & Hx & Hfold).
    exists (S q), r, d'. split; [lia|]. split; [exact Hr|]. split; [exact Hg'|]. split.
    + cbn [block_loop]. apply Nat.leb_le in Hle as Hle'. rewrite Hle'. rewrite slice_ok by lia. cbn [bind].
      rewrite (Htr d msg Hg Hb ltac:(lia)). cbn [bind]. rewrite Hx. rewrite skipn_skipn. do 3 f_equal. f_equal. lia.
    + intros rest. replace (blk * S q)%nat with (blk + blk * q)%nat by lia.
      assert (E : firstn (blk + blk * q) msg = firstn blk msg ++ firstn (blk * q) (skipn blk msg)).
      { rewrite <- (firstn_skipn blk msg) at 1. rewrite <- Hl' at 1. rewrite firstn_app_2. reflexivity. }
      rewrite E, <- app_assoc, chunks_cons by (try exact Hl'; lia). cbn [fold_left]. apply Hfold.
  - exists 0%nat, msg_len, d. rewrite Nat.mul_0_r. split; [lia|]. split; [lia|]. split; [exact Hg|]. split.
    + destruct fuel; cbn [block_loop]; apply Nat.leb_gt in Hgt as Hgt'; rewrite Hgt'; reflexivity.
    + intros rest. reflexivity.
Qed.

(** The code after the loop, common to the four hash functions. *)
Definition gen_final (thr pos : nat) (lf : list Z) (digest msg : list Z) (msg_len : nat) : res (list Z) :=
  '(digest, msg_buf, msg_len) <- block_loop msg_len blk transform digest msg msg_len ;;
  let last_chunk := repeat 0 blk in
  tail <- slice msg_buf 0 msg_len ;;
  last_chunk <- store last_chunk 0 tail ;;
  last_chunk <- store last_chunk msg_len [0x80] ;;
  '(digest, last_chunk) <-
     (if (thr <? msg_len)%nat
      then digest <- transform digest last_chunk ;; Ok (digest, repeat 0 blk)
      else Ok (digest, last_chunk)) ;;
  last_chunk <- store last_chunk pos lf ;;
  transform digest last_chunk.

Lemma gen_final_ok z lf d msg n :
  length lf = 8%nat -> bytes lf -> (z + 9 <= blk)%nat -> (n <= length msg)%nat -> bytes msg -> good d ->
  exists d', good d' /\ d' = fold_left comp (chunks blk (firstn n msg ++ md_pad blk (repeat 0 z ++ lf) n)) d /\
  gen_final (blk - z - 9) (blk - 8) lf d msg n = Ok d'.
Proof.
  intros Hlf Hblf Hz Hn Hb Hg.
  destruct (block_loop_ok n n d msg Hn (le_n _) Hb Hg) as (q & r & d1 & Hq & Hr & Hg1 & Hx & Hfold).
  unfold gen_final. rewrite Hx. cbn [bind].
  assert (Hlen : (blk * q <= length msg)%nat) by lia.
  rewrite slice_ok by (rewrite skipn_length; lia). cbn [bind skipn].
  set (tail := firstn r (skipn (blk * q) msg)).
  assert (Ht : length tail = r) by (unfold tail; rewrite firstn_length, skipn_length; lia).
  assert (Hbt : bytes tail) by (unfold tail; now apply bytes_firstn, bytes_skipn).
  assert (Hsplit : firstn n msg = firstn (blk * q) msg ++ tail).
  { rewrite Hq. unfold tail. rewrite <- (firstn_skipn (blk * q) msg) at 1.
    assert (L : length (firstn (blk * q) msg) = (blk * q)%nat) by (rewrite firstn_length; lia).
    rewrite <- L at 1. rewrite firstn_app_2. reflexivity. }
  rewrite Hsplit, <- app_assoc, Hfold.
  assert (S1 : store (repeat 0 blk) 0 tail = Ok (tail ++ repeat 0 (blk - r))).
  { rewrite store_ok by (rewrite repeat_length; lia). cbn [firstn app]. now rewrite Nat.add_0_l, Ht, skipn_repeat. }
  assert (S2 : store (tail ++ repeat 0 (blk - r)) r [0x80] = Ok (tail ++ 0x80 :: repeat 0 (blk - r - 1))).
  { rewrite store_ok by (rewrite app_length, repeat_length; cbn [length]; lia). f_equal.
    rewrite firstn_app, Ht, Nat.sub_diag, (firstn_all2 tail) by lia. cbn [firstn]. rewrite app_nil_r. f_equal.
    cbn [app length]. f_equal. rewrite skipn_app, (skipn_all2 tail) by lia. cbn [app].
    rewrite Ht, skipn_repeat. f_equal. lia. }
  rewrite S1. cbn [bind]. rewrite S2. cbn [bind]. clear S1 S2.
  set (blk1 := tail ++ [0x80] ++ repeat 0 (blk - r - 1)).
  change (tail ++ 0x80 :: repeat 0 (blk - r - 1)) with blk1.
  assert (Hl1 : length blk1 = blk) by (unfold blk1; rewrite !app_length, repeat_length; cbn [length]; lia).
  assert (Hb1 : bytes blk1).
  { unfold blk1. apply bytes_app. split; [exact Hbt|]. apply bytes_app. split; [|apply bytes_repeat0].
    apply bytes_cons. split; [unfold is_byte; lia|apply bytes_nil]. }
  assert (Hpad : md_pad blk (repeat 0 z ++ lf) n
     = [0x80] ++ repeat 0 (Z.to_nat ((- (Z.of_nat r + 1 + Z.of_nat z + 8)) mod Z.of_nat blk)) ++ repeat 0 z ++ lf).
  { unfold md_pad. rewrite app_length, repeat_length, Hlf. do 4 f_equal. rewrite Hq.
    replace (- (Z.of_nat (blk * q + r) + 1 + Z.of_nat (z + 8)))
      with (- (Z.of_nat r + 1 + Z.of_nat z + 8) + (- Z.of_nat q) * Z.of_nat blk) by lia.
    apply Z.mod_add. lia. }
  rewrite Hpad. clear Hpad.
  destruct (Nat.ltb_spec (blk - z - 9) r) as [Hlt|Hge].
  - (* two blocks *)
    rewrite (Htr d1 blk1 Hg1 Hb1) by lia. cbn [bind].
    rewrite (firstn_all2 blk1) by lia.
    rewrite store_ok by (rewrite repeat_length; lia). cbn [bind].
    rewrite firstn_repeat by lia. rewrite skipn_repeat, Hlf.
    replace (blk - (blk - 8 + 8))%nat with 0%nat by lia. cbn [repeat]. rewrite app_nil_r.
    set (blk2 := repeat 0 (blk - 8) ++ lf).
    assert (Hl2 : length blk2 = blk) by (unfold blk2; rewrite app_length, repeat_length; lia).
    assert (Hb2 : bytes blk2) by (unfold blk2; apply bytes_app; split; [apply bytes_repeat0|exact Hblf]).
    assert (Hg2 : good (comp d1 blk1)) by now apply Hgood.
    exists (comp (comp d1 blk1) blk2). split; [now apply Hgood|]. split.
    2:{ rewrite Htr by (auto; lia). now rewrite firstn_all2 by lia. }
    assert (E : tail ++ [0x80] ++ repeat 0 (Z.to_nat ((- (Z.of_nat r + 1 + Z.of_nat z + 8)) mod Z.of_nat blk)) ++ repeat 0 z ++ lf
                = blk1 ++ blk2).
    { unfold blk1, blk2. rewrite <- !app_assoc. do 2 f_equal.
      rewrite !app_assoc, <- !repeat_app. do 2 f_equal.
      replace (- (Z.of_nat r + 1 + Z.of_nat z + 8)) with (2 * Z.of_nat blk - Z.of_nat r - 1 - Z.of_nat z - 8 + (-2) * Z.of_nat blk) by lia.
      rewrite Z.mod_add by lia. rewrite Z.mod_small by lia. lia. }
    rewrite E, chunks_cons, chunks_one by (auto; lia). reflexivity.
  - (* one block *)
    cbn [bind].
    rewrite store_ok by lia. cbn [bind]. rewrite Hlf.
    replace (blk - 8 + 8)%nat with blk by lia. rewrite (skipn_all2 blk1) by lia. rewrite app_nil_r.
    set (blk2 := firstn (blk - 8) blk1 ++ lf).
    assert (Hl2 : length blk2 = blk) by (unfold blk2; rewrite app_length, firstn_length; lia).
    assert (Hb2 : bytes blk2) by (unfold blk2; apply bytes_app; split; [now apply bytes_firstn|exact Hblf]).
    exists (comp d1 blk2). split; [now apply Hgood|]. split.
    2:{ rewrite Htr by (auto; lia). now rewrite firstn_all2 by lia. }
    assert (E : tail ++ [0x80] ++ repeat 0 (Z.to_nat ((- (Z.of_nat r + 1 + Z.of_nat z + 8)) mod Z.of_nat blk)) ++ repeat 0 z ++ lf = blk2).
    { unfold blk2, blk1. rewrite !firstn_app, (firstn_all2 tail) by lia. rewrite Ht.
      rewrite (firstn_all2 [0x80]) by (cbn [length]; lia). rewrite firstn_repeat by (cbn [length]; lia).
      rewrite <- !app_assoc. do 2 f_equal. rewrite app_assoc, <- repeat_app. do 2 f_equal. cbn [length].
      replace (- (Z.of_nat r + 1 + Z.of_nat z + 8)) with (Z.of_nat blk - Z.of_nat r - 1 - Z.of_nat z - 8 + (-1) * Z.of_nat blk) by lia.
      rewrite Z.mod_add by lia. rewrite Z.mod_small by lia. lia. }
    rewrite E, chunks_one by (auto; lia). reflexivity.
Qed.
End Md.
