From Verif Require Import Base M_Endian S_Words.

Lemma be_val_app l1 l2 : be_val (l1 ++ l2) = be_val l1 * 256 ^ Z.of_nat (length l2) + be_val l2.
Proof.
  unfold be_val.
  assert (G : forall l a, fold_left (fun a b => a * 256 + b) l a
                          = a * 256 ^ Z.of_nat (length l) + fold_left (fun a b => a * 256 + b) l 0).
  { induction l as [|x l IH]; intros a; cbn [fold_left length]; [cbn; lia|].
    rewrite IH, (IH (0 * 256 + x)). rewrite Nat2Z.inj_succ, Z.pow_succ_r by lia. ring. }
  rewrite fold_left_app. apply G.
Qed.

Lemma be_val_cons x l : be_val (x :: l) = x * 256 ^ Z.of_nat (length l) + be_val l.
Proof. change (x :: l) with ([x] ++ l). rewrite be_val_app. unfold be_val at 1. cbn [fold_left]. lia. Qed.

Lemma be_val_snoc l x : be_val (l ++ [x]) = be_val l * 256 + x.
Proof. rewrite be_val_app. cbn [length]. change (256 ^ Z.of_nat 1) with 256. unfold be_val at 2. cbn [fold_left]. lia. Qed.

Lemma le_val_cons x l : le_val (x :: l) = x + 256 * le_val l.
Proof. unfold le_val. cbn [rev]. rewrite be_val_snoc. lia. Qed.

Lemma be_val_bound l : bytes l -> 0 <= be_val l < 256 ^ Z.of_nat (length l).
Proof.
  induction l as [|x l IH]; intros H; [cbn; lia|].
  apply bytes_cons in H. destruct H as [Hx Hl]. specialize (IH Hl). unfold is_byte in Hx.
  rewrite be_val_cons. cbn [length]. rewrite Nat2Z.inj_succ, Z.pow_succ_r by lia. nia.
Qed.

Lemma bytes_rev l : bytes l -> bytes (rev l).
Proof. unfold bytes. rewrite !Forall_forall. intros H x Hx. apply H. rewrite in_rev. exact Hx. Qed.

Lemma le_val_bound l : bytes l -> 0 <= le_val l < 256 ^ Z.of_nat (length l).
Proof. intros H. unfold le_val. rewrite <- rev_length. apply be_val_bound, bytes_rev, H. Qed.

Lemma le_bytes_length n v : length (le_bytes n v) = n.
Proof. revert v. induction n as [|n IH]; intros v; cbn [le_bytes length]; [reflexivity|]. now rewrite IH. Qed.
Lemma be_bytes_length n v : length (be_bytes n v) = n.
Proof. unfold be_bytes. rewrite rev_length. apply le_bytes_length. Qed.

Lemma le_bytes_bytes n v : bytes (le_bytes n v).
Proof.
  revert v. induction n as [|n IH]; intros v; cbn [le_bytes]; [constructor|].
  apply bytes_cons. split; [apply u8_byte|apply IH].
Qed.
Lemma be_bytes_bytes n v : bytes (be_bytes n v).
Proof. apply bytes_rev, le_bytes_bytes. Qed.

Lemma le_val_le_bytes n v : le_val (le_bytes n v) = v mod 256 ^ Z.of_nat n.
Proof.
  revert v. induction n as [|n IH]; intros v.
  - cbn. now rewrite Z.mod_1_r.
  - cbn [le_bytes]. rewrite le_val_cons, IH. rewrite Nat2Z.inj_succ, Z.pow_succ_r by lia.
    rewrite Z.rem_mul_r by lia. reflexivity.
Qed.
Lemma be_val_be_bytes n v : be_val (be_bytes n v) = v mod 256 ^ Z.of_nat n.
Proof. rewrite <- le_val_le_bytes. unfold le_val, be_bytes. reflexivity. Qed.

Lemma le_bytes_le_val l : bytes l -> le_bytes (length l) (le_val l) = l.
Proof.
  induction l as [|x l IH]; intros H; [reflexivity|].
  apply bytes_cons in H. destruct H as [Hx Hl]. unfold is_byte in Hx. cbn [length le_bytes].
  rewrite le_val_cons. f_equal.
  - rewrite Z.mul_comm, Z.mod_add by lia. apply Z.mod_small. lia.
  - rewrite Z.mul_comm, Z.div_add by lia. rewrite Z.div_small by lia. apply IH, Hl.
Qed.
Lemma be_bytes_be_val l : bytes l -> be_bytes (length l) (be_val l) = l.
Proof.
  intros H. unfold be_bytes. replace (be_val l) with (le_val (rev l)) by (unfold le_val; now rewrite rev_involutive).
  rewrite <- rev_length, le_bytes_le_val by now apply bytes_rev. apply rev_involutive.
Qed.

Lemma host_bytes_le n v : host_bytes n v = le_bytes n v.
Proof.
  revert v. induction n as [|n IH]; intros v; cbn [host_bytes le_bytes]; [reflexivity|].
  rewrite IH. f_equal.
  - change 255 with (2 ^ 8 - 1). rewrite land_ones' by lia. reflexivity.
  - rewrite Z.shiftr_div_pow2 by lia. reflexivity.
Qed.

Lemma host_val_le bs : bytes bs -> host_val bs = le_val bs.
Proof.
  induction bs as [|x l IH]; intros H; [reflexivity|].
  apply bytes_cons in H. destruct H as [Hx Hl]. cbn [host_val]. rewrite IH by exact Hl.
  rewrite le_val_cons, Z.shiftl_mul_pow2 by lia. rewrite Z.lor_comm, lor_disjoint; unfold is_byte in Hx; lia.
Qed.

Lemma slice_ok mem off n : (off + n <= length mem)%nat -> slice mem off n = Ok (firstn n (skipn off mem)).
Proof. intros H. unfold slice. apply Nat.leb_le in H. now rewrite H. Qed.

Lemma store_ok mem off bs : (off + length bs <= length mem)%nat ->
  store mem off bs = Ok (firstn off mem ++ bs ++ skipn (off + length bs) mem).
Proof. intros H. unfold store. apply Nat.leb_le in H. now rewrite H. Qed.

Lemma bytes_firstn n l : bytes l -> bytes (firstn n l).
Proof. intros H. rewrite <- (firstn_skipn n l) in H. apply bytes_app in H. apply H. Qed.
Lemma bytes_skipn n l : bytes l -> bytes (skipn n l).
Proof. intros H. rewrite <- (firstn_skipn n l) in H. apply bytes_app in H. apply H. Qed.

Lemma htobe_val bs : bytes bs -> host_val (rev (host_bytes (length bs) (host_val bs))) = be_val bs.
Proof.
  intros H. rewrite (host_val_le bs H), host_bytes_le, le_bytes_le_val by exact H.
  rewrite host_val_le by now apply bytes_rev. unfold le_val. now rewrite rev_involutive.
Qed.

Lemma htobe_bytes n v : host_bytes n (host_val (rev (host_bytes n v))) = be_bytes n v.
Proof.
  assert (Hb : bytes (rev (host_bytes n v))) by (rewrite host_bytes_le; apply bytes_rev, le_bytes_bytes).
  rewrite host_val_le by exact Hb. rewrite host_bytes_le.
  assert (Hl : length (rev (host_bytes n v)) = n) by (rewrite rev_length, host_bytes_le; apply le_bytes_length).
  rewrite <- Hl at 1. rewrite le_bytes_le_val by exact Hb. rewrite host_bytes_le. reflexivity.
Qed.

Lemma be32_ok mem off : bytes mem -> (off + 4 <= length mem)%nat ->
  be32 mem off = Ok (be_val (firstn 4 (skipn off mem))).
Proof.
  intros Hb H. unfold be32, read_big_32, at_off. rewrite slice_ok by (rewrite skipn_length; lia).
  cbn [bind skipn]. f_equal. unfold htobe32.
  assert (L : length (firstn 4 (skipn off mem)) = 4%nat) by (rewrite firstn_length, skipn_length; lia).
  rewrite <- L at 1. apply htobe_val. now apply bytes_firstn, bytes_skipn.
Qed.
Lemma be64_ok mem off : bytes mem -> (off + 8 <= length mem)%nat ->
  be64 mem off = Ok (be_val (firstn 8 (skipn off mem))).
Proof.
  intros Hb H. unfold be64, read_big_64, at_off. rewrite slice_ok by (rewrite skipn_length; lia).
  cbn [bind skipn]. f_equal. unfold htobe64.
  assert (L : length (firstn 8 (skipn off mem)) = 8%nat) by (rewrite firstn_length, skipn_length; lia).
  rewrite <- L at 1. apply htobe_val. now apply bytes_firstn, bytes_skipn.
Qed.
Lemma le32_ok mem off : bytes mem -> (off + 4 <= length mem)%nat ->
  le32 mem off = Ok (le_val (firstn 4 (skipn off mem))).
Proof.
  intros Hb H. unfold le32, read_little_32, at_off. rewrite slice_ok by (rewrite skipn_length; lia).
  cbn [bind skipn]. f_equal. unfold htole32. apply host_val_le. now apply bytes_firstn, bytes_skipn.
Qed.
Lemma le64_ok mem off : bytes mem -> (off + 8 <= length mem)%nat ->
  le64 mem off = Ok (le_val (firstn 8 (skipn off mem))).
Proof.
  intros Hb H. unfold le64, read_little_64, at_off. rewrite slice_ok by (rewrite skipn_length; lia).
  cbn [bind skipn]. f_equal. unfold htole64. apply host_val_le. now apply bytes_firstn, bytes_skipn.
Qed.

(** Variable banks. *)
Lemma upd_length {A} (l : list A) i v : (i < length l)%nat -> length (upd l i v) = length l.
Proof. intros H. unfold upd. rewrite app_length, firstn_length. cbn [length]. rewrite skipn_length. lia. Qed.

Lemma nth_error_upd_same {A} (l : list A) i v : (i < length l)%nat -> nth_error (upd l i v) i = Some v.
Proof.
  intros H. unfold upd. rewrite nth_error_app2; rewrite firstn_length, Nat.min_l by lia; [|lia].
  rewrite Nat.sub_diag. reflexivity.
Qed.
Lemma nth_error_firstn {A} (l : list A) n i : (i < n)%nat -> nth_error (firstn n l) i = nth_error l i.
Proof.
  revert n i. induction l as [|x l IH]; intros n i H; [rewrite firstn_nil; now destruct i|].
  destruct n as [|n]; [lia|]. destruct i as [|i]; [reflexivity|]. cbn. apply IH. lia.
Qed.
Lemma nth_error_skipn {A} (l : list A) n i : nth_error (skipn n l) i = nth_error l (n + i).
Proof.
  revert n. induction l as [|x l IH]; intros n; [rewrite skipn_nil; now destruct i, n|].
  destruct n as [|n]; [reflexivity|]. cbn. apply IH.
Qed.
Lemma nth_error_upd_other {A} (l : list A) i j v : (i < length l)%nat -> i <> j -> nth_error (upd l i v) j = nth_error l j.
Proof.
  intros H Hij. unfold upd. destruct (Nat.lt_ge_cases j i) as [Hj|Hj].
  - rewrite nth_error_app1 by (rewrite firstn_length; lia). apply nth_error_firstn. exact Hj.
  - rewrite nth_error_app2; rewrite firstn_length, Nat.min_l by lia; [|lia].
    destruct (j - i)%nat eqn:E; [lia|]. cbn [nth_error]. rewrite nth_error_skipn. f_equal. lia.
Qed.
