(** SHA-256, SHA-512, HMAC and the double-hash transform meet the specification. *)
From Verif Require Import Base M_Endian L_Endian S_Words M_Sha2 S_Sha2 L_Sha2 L_Md.

Definition K256 : list Z := Eval vm_compute in sf_K SHA256_fn.
Definition K512 : list Z := Eval vm_compute in sf_K SHA512_fn.
Lemma K256_eq : sf_K SHA256_fn = K256. Proof. vm_cast_no_check (eq_refl K256). Qed.
Lemma K512_eq : sf_K SHA512_fn = K512. Proof. vm_cast_no_check (eq_refl K512). Qed.
Lemma IV256_eq : sf_H0 SHA256_fn = IV256. Proof. vm_cast_no_check (eq_refl IV256). Qed.
Lemma IV512_eq : sf_H0 SHA512_fn = IV512. Proof. vm_cast_no_check (eq_refl IV512). Qed.

Definition none_known (j : nat) : option Z := None.
Definition env0 : list (option nat) := repeat None 16.

Lemma check256 : check_lines SHA256_fn ops32 K256 4 none_known true 0 env0 sha256_lines = true.
Proof. vm_cast_no_check (eq_refl true). Qed.
Lemma check512 : check_lines SHA512_fn ops64 K512 8 none_known true 0 env0 sha512_lines = true.
Proof. vm_cast_no_check (eq_refl true). Qed.

Lemma env0_ok Ws : env_ok Ws env0 w_uninit.
Proof.
  split; [reflexivity|]. split; [reflexivity|]. intros i j. unfold env_get, env0.
  destruct (nth_error (repeat None 16) i) as [o|] eqn:E; [|discriminate].
  apply nth_error_In, repeat_spec in E. now subst.
Qed.

Lemma round_length P st kw : length st = 8%nat -> length (sha2_round P st kw) = 8%nat.
Proof.
  intros H. destruct st as [|? [|? [|? [|? [|? [|? [|? [|? [|? ?]]]]]]]]]; try discriminate H. reflexivity.
Qed.
Lemma rounds_length P l : forall st, length st = 8%nat -> length (fold_left (sha2_round P) l st) = 8%nat.
Proof. induction l as [|x l IH]; intros st H; [exact H|]. cbn. apply IH, round_length, H. Qed.
Lemma compress_length P H M : length H = 8%nat -> length (sha2_compress P H M) = 8%nat.
Proof. intros E. unfold sha2_compress, add_words. rewrite map_length, combine_length, rounds_length by exact E. lia. Qed.

Section Comp.
Context (P : sha2_fn) (o : ops) (K : list Z) (Ag : agree o P) (HK : sf_K P = K) (HKl : length K = sf_rounds P).
Context (Hr8 : (sf_rounds P mod 8 = 0)%nat).

(** Executing checked lines from a digest = the rounds of the spec. *)
Lemma checked_rounds known loads lines env w s chunk M :
  check_lines P o K (sf_wb P) known loads 0 env lines = true -> length lines = sf_rounds P ->
  length M = 16%nat -> (forall t, (t < 16)%nat -> 0 <= nth t M 0 < 2 ^ sf_w P) ->
  (forall j c, known j = Some c -> nth j (sha2_schedule P M) 0 = c) ->
  (loads = true -> forall t, (t < 16)%nat -> o_load o chunk (sf_wb P * t) = Ok (nth t M 0)) ->
  env_ok (sha2_schedule P M) env w -> length s = 8%nat ->
  exists rs w', exec_lines o chunk (s, w) lines = Ok (rs, w') /\ length rs = 8%nat /\ length w' = 16%nat /\
    rs = fold_left (sha2_round P) (combine (sf_K P) (sha2_schedule P M)) s.
Proof.
  intros Hc Hll HM Hrng Hkn Hload He Hs.
  pose proof (ag_r _ _ Ag) as Hr16. pose proof (ag_w _ _ Ag) as Hw.
  assert (Hp : 0 < 2 ^ sf_w P) by lia.
  destruct (check_lines_ok P o K (sf_wb P) known loads Ag (sha2_schedule P M) chunk Hkn) with (ls := lines) (t := 0%nat) (env := env) (rs := s) (w := w)
    as (rs & w' & Hx & Hl & Hw' & Hv); auto.
  - intros t Ht. apply schedule_high; [exact HM|exact Ht].
  - intros t Ht. destruct (Nat.lt_ge_cases t 16) as [Hlt|Hge].
    + rewrite schedule_low by assumption. now apply Hrng.
    + rewrite schedule_high by (auto; lia). apply Z.mod_pos_bound. exact Hp.
  - intros El t Ht. rewrite schedule_low by assumption. now apply Hload.
  - exists rs, w'. split; [exact Hx|]. split; [exact Hl|]. split; [exact Hw'|].
    rewrite Hll in Hv. cbn [Nat.add] in Hv. rewrite !view0 in Hv by (auto; reflexivity). rewrite Hv.
    rewrite HK. f_equal. symmetry. apply combine_nth_seq; [exact HKl|]. apply schedule_length; assumption.
Qed.

Lemma add_regs_words s rs : add_regs (o_wrap o) s rs = add_words (sf_w P) s rs.
Proof. unfold add_regs, add_words. apply map_ext. intros [x y]. apply (ag_wrap _ _ Ag). Qed.
End Comp.

Definition comp256 (H block : list Z) : list Z := sha2_compress SHA256_fn H (be_words 4 block).
Definition comp512 (H block : list Z) : list Z := sha2_compress SHA512_fn H (be_words 8 block).
Definition good8 (s : list Z) : Prop := length s = 8%nat.

Lemma firstn_skipn_firstn {A} (l : list A) n k m : (n + k <= m)%nat ->
  firstn k (skipn n (firstn m l)) = firstn k (skipn n l).
Proof. intros H. rewrite skipn_firstn_comm, firstn_firstn. f_equal. lia. Qed.

Lemma words_facts wb block : (0 < wb)%nat -> bytes block -> length block = (wb * 16)%nat ->
  length (be_words wb block) = 16%nat /\
  forall t, (t < 16)%nat -> nth t (be_words wb block) 0 = be_val (firstn wb (skipn (wb * t) block)) /\
                            0 <= nth t (be_words wb block) 0 < 256 ^ Z.of_nat wb.
Proof.
  intros Hw Hb Hl. unfold be_words. split; [now apply be_words_length|]. intros t Ht.
  rewrite (be_words_nth wb block 16) by assumption. split; [reflexivity|].
  assert (L : length (firstn wb (skipn (wb * t) block)) = wb) by (rewrite firstn_length, skipn_length; nia).
  pose proof (be_val_bound (firstn wb (skipn (wb * t) block)) ltac:(now apply bytes_firstn, bytes_skipn)) as B.
  rewrite L in B. exact B.
Qed.

Lemma sha256_transform_ok s chunk : good8 s -> bytes chunk -> (64 <= length chunk)%nat ->
  sha256_transform s chunk = Ok (comp256 s (firstn 64 chunk)).
Proof.
  intros Hs Hb Hl. unfold sha256_transform.
  assert (Hb' : bytes (firstn 64 chunk)) by now apply bytes_firstn.
  assert (Hl' : length (firstn 64 chunk) = (4 * 16)%nat) by (rewrite firstn_length; lia).
  destruct (words_facts 4 (firstn 64 chunk) ltac:(lia) Hb' Hl') as [HM Hw].
  destruct (checked_rounds SHA256_fn ops32 K256 agree32 K256_eq eq_refl eq_refl none_known true sha256_lines env0 w_uninit
              s chunk (be_words 4 (firstn 64 chunk)) check256 eq_refl HM) as (rs & w' & Hx & Hlr & _ & Hrs); auto.
  - intros t Ht. apply (Hw t Ht).
  - intros j c [=].
  - intros _ t Ht. cbn [SHA256_fn sf_wb ops32 o_load]. rewrite be32_ok by (auto; lia).
    destruct (Hw t Ht) as [-> _]. rewrite firstn_skipn_firstn by lia. reflexivity.
  - apply env0_ok.
  - rewrite Hx. cbn [bind]. f_equal.
    change u32 with (o_wrap ops32). rewrite (add_regs_words SHA256_fn ops32 agree32), Hrs. reflexivity.
Qed.

Lemma sha512_transform_ok s chunk : good8 s -> bytes chunk -> (128 <= length chunk)%nat ->
  sha512_transform s chunk = Ok (comp512 s (firstn 128 chunk)).
Proof.
  intros Hs Hb Hl. unfold sha512_transform.
  assert (Hb' : bytes (firstn 128 chunk)) by now apply bytes_firstn.
  assert (Hl' : length (firstn 128 chunk) = (8 * 16)%nat) by (rewrite firstn_length; lia).
  destruct (words_facts 8 (firstn 128 chunk) ltac:(lia) Hb' Hl') as [HM Hw].
  destruct (checked_rounds SHA512_fn ops64 K512 agree64 K512_eq eq_refl eq_refl none_known true sha512_lines env0 w_uninit
              s chunk (be_words 8 (firstn 128 chunk)) check512 eq_refl HM) as (rs & w' & Hx & Hlr & _ & Hrs); auto.
  - intros t Ht. apply (Hw t Ht).
  - intros j c [=].
  - intros _ t Ht. cbn [SHA512_fn sf_wb ops64 o_load]. rewrite be64_ok by (auto; lia).
    destruct (Hw t Ht) as [-> _]. rewrite firstn_skipn_firstn by lia. reflexivity.
  - apply env0_ok.
  - rewrite Hx. cbn [bind]. f_equal.
    change u64 with (o_wrap ops64). rewrite (add_regs_words SHA512_fn ops64 agree64), Hrs. reflexivity.
Qed.

Lemma comp256_good s b : good8 s -> good8 (comp256 s b).
Proof. intros H. apply compress_length, H. Qed.
Lemma comp512_good s b : good8 s -> good8 (comp512 s b).
Proof. intros H. apply compress_length, H. Qed.

Lemma out32_ok d : out32 d = concat (map (be_bytes 4) d).
Proof. unfold out32. f_equal. apply map_ext. intros v. unfold htobe32. apply htobe_bytes. Qed.
Lemma out64_ok d : out64 d = concat (map (be_bytes 8) d).
Proof. unfold out64. f_equal. apply map_ext. intros v. unfold htobe64. apply htobe_bytes. Qed.

Definition byte_len_ok (n : nat) : Prop := Z.of_nat n < 2 ^ 61.

Lemma len_field n : byte_len_ok n ->
  host_bytes 8 (htobe64 (u64 (Z.shiftl (u64 (Z.of_nat n)) 3))) = be_bytes 8 (8 * Z.of_nat n).
Proof.
  unfold byte_len_ok. intros H. unfold htobe64. rewrite htobe_bytes. f_equal.
  unfold u64. rewrite Z.shiftl_mul_pow2 by lia. rewrite (Z.mod_small (Z.of_nat n)) by lia.
  rewrite Z.mod_small by lia. lia.
Qed.

Lemma le_bytes_app n m v : le_bytes (n + m) v = le_bytes n v ++ le_bytes m (v / 256 ^ Z.of_nat n).
Proof.
  revert v. induction n as [|n IH]; intros v.
  - cbn [Nat.add le_bytes app]. now rewrite Z.div_1_r.
  - cbn [Nat.add le_bytes app]. rewrite IH. do 3 f_equal.
    rewrite Z.div_div by lia. f_equal. rewrite Nat2Z.inj_succ, Z.pow_succ_r by lia. reflexivity.
Qed.
Lemma be16_small v : 0 <= v < 2 ^ 64 -> be_bytes 16 v = repeat 0 8 ++ be_bytes 8 v.
Proof.
  intros H. unfold be_bytes. change 16%nat with (8 + 8)%nat. rewrite le_bytes_app.
  rewrite (Z.div_small v) by exact H. rewrite rev_app_distr. reflexivity.
Qed.

Lemma sha256_final_ok d msg n app : good8 d -> bytes msg -> (n <= length msg)%nat -> byte_len_ok (n + app) ->
  exists d', good8 d' /\ sha256_final d msg n app = Ok d' /\
  d' = fold_left comp256 (chunks 64 (firstn n msg ++ md_pad 64 (be_bytes 8 (8 * Z.of_nat (n + app))) n)) d.
Proof.
  intros Hd Hb Hn Hlen.
  destruct (gen_final_ok sha256_transform comp256 64 good8 ltac:(lia) sha256_transform_ok
              (fun s b H _ _ => comp256_good s b H) 0 (be_bytes 8 (8 * Z.of_nat (n + app))) d msg n)
    as (d' & Hg & Hd' & Hx); try apply be_bytes_length; try apply be_bytes_bytes; auto; try lia.
  exists d'. split; [exact Hg|]. split; [|exact Hd'].
  rewrite <- Hx. unfold sha256_final, gen_final. rewrite <- (len_field (n + app)) by exact Hlen.
  rewrite Nat2Z.inj_add. reflexivity.
Qed.

Lemma sha512_final_ok d msg n app : good8 d -> bytes msg -> (n <= length msg)%nat -> byte_len_ok (n + app) ->
  exists d', good8 d' /\ sha512_final d msg n app = Ok d' /\
  d' = fold_left comp512 (chunks 128 (firstn n msg ++ md_pad 128 (be_bytes 16 (8 * Z.of_nat (n + app))) n)) d.
Proof.
  intros Hd Hb Hn Hlen.
  destruct (gen_final_ok sha512_transform comp512 128 good8 ltac:(lia) sha512_transform_ok
              (fun s b H _ _ => comp512_good s b H) 8 (be_bytes 8 (8 * Z.of_nat (n + app))) d msg n)
    as (d' & Hg & Hd' & Hx); try apply be_bytes_length; try apply be_bytes_bytes; auto; try lia.
  exists d'. split; [exact Hg|]. split.
  - rewrite <- Hx. unfold sha512_final, gen_final. rewrite <- (len_field (n + app)) by exact Hlen.
    rewrite Nat2Z.inj_add. reflexivity.
  - rewrite be16_small by (unfold byte_len_ok in Hlen; lia). exact Hd'.
Qed.

Lemma good_IV256 : good8 IV256. Proof. reflexivity. Qed.
Lemma good_IV512 : good8 IV512. Proof. reflexivity. Qed.

Lemma sha2_256_ok msg n : bytes msg -> (n <= length msg)%nat -> byte_len_ok n ->
  sha2_256 msg n = Ok (SHA256 (firstn n msg)).
Proof.
  intros Hb Hn Hlen. unfold sha2_256.
  destruct (sha256_final_ok IV256 msg n 0 good_IV256 Hb Hn) as (d' & _ & -> & Hd'); [now rewrite Nat.add_0_r|].
  cbn [bind]. rewrite out32_ok. unfold SHA256, sha2. cbn [SHA256_fn sf_wb].
  replace (length (firstn n msg)) with n by (rewrite firstn_length; lia).
  change (sf_H0 _) with (sf_H0 SHA256_fn). rewrite IV256_eq. rewrite Nat.add_0_r in Hd'. rewrite Hd'. reflexivity.
Qed.
Lemma sha2_512_ok msg n : bytes msg -> (n <= length msg)%nat -> byte_len_ok n ->
  sha2_512 msg n = Ok (SHA512 (firstn n msg)).
Proof.
  intros Hb Hn Hlen. unfold sha2_512.
  destruct (sha512_final_ok IV512 msg n 0 good_IV512 Hb Hn) as (d' & _ & -> & Hd'); [now rewrite Nat.add_0_r|].
  cbn [bind]. rewrite out64_ok. unfold SHA512, sha2. cbn [SHA512_fn sf_wb].
  replace (length (firstn n msg)) with n by (rewrite firstn_length; lia).
  change (sf_H0 _) with (sf_H0 SHA512_fn). rewrite IV512_eq. rewrite Nat.add_0_r in Hd'. rewrite Hd'. reflexivity.
Qed.

Lemma concat_map_length wb d : length (concat (map (be_bytes wb) d)) = (wb * length d)%nat.
Proof. induction d as [|x d IH]; cbn [map concat length]; [lia|]. rewrite app_length, be_bytes_length, IH. lia. Qed.
Lemma concat_map_bytes wb d : bytes (concat (map (be_bytes wb) d)).
Proof. induction d as [|x d IH]; cbn [map concat]; [constructor|]. apply bytes_app. split; [apply be_bytes_bytes|exact IH]. Qed.

Lemma fold_good (comp : list Z -> list Z -> list Z) : (forall s b, good8 s -> good8 (comp s b)) ->
  forall l s, good8 s -> good8 (fold_left comp l s).
Proof. intros H. induction l as [|b l IH]; intros s Hs; cbn; auto. Qed.

Lemma SHA256_length m : length (SHA256 m) = 32%nat.
Proof.
  unfold SHA256, sha2. rewrite concat_map_length.
  rewrite (fold_good comp256 comp256_good) by (rewrite IV256_eq; reflexivity). reflexivity.
Qed.
Lemma SHA512_length m : length (SHA512 m) = 64%nat.
Proof.
  unfold SHA512, sha2. rewrite concat_map_length.
  rewrite (fold_good comp512 comp512_good) by (rewrite IV512_eq; reflexivity). reflexivity.
Qed.
Lemma SHA256_bytes m : bytes (SHA256 m).
Proof. apply concat_map_bytes. Qed.
Lemma SHA512_bytes m : bytes (SHA512 m).
Proof. apply concat_map_bytes. Qed.

(** A pad depends on the length modulo the block size only. *)
Lemma md_pad_mod blk lenf n k : (0 < blk)%nat -> md_pad blk lenf (blk * k + n) = md_pad blk lenf n.
Proof.
  intros H. unfold md_pad. do 4 f_equal.
  replace (- (Z.of_nat (blk * k + n) + 1 + Z.of_nat (length lenf)))
    with (- (Z.of_nat n + 1 + Z.of_nat (length lenf)) + (- Z.of_nat k) * Z.of_nat blk) by lia.
  apply Z.mod_add. lia.
Qed.

(* ---------------------------------------------------------------- *)
(** HMAC. *)
Lemma lxor_byte_bound x c : is_byte x -> is_byte c -> is_byte (Z.lxor x c).
Proof.
  unfold is_byte. intros Hx Hc. split; [apply Z.lxor_nonneg; lia|].
  change 256 with (2 ^ 8).
  destruct (Z.eq_dec (Z.lxor x c) 0) as [->|Hn]; [lia|].
  assert (Hp : 0 < Z.lxor x c) by (assert (0 <= Z.lxor x c) by (apply Z.lxor_nonneg; lia); lia).
  apply Z.log2_lt_pow2; [exact Hp|].
  pose proof (Z.log2_lxor x c ltac:(lia) ltac:(lia)) as Hl.
  assert (Z.log2 x < 8) by (destruct (Z.eq_dec x 0) as [->|]; [cbn; lia|apply Z.log2_lt_pow2; lia]).
  assert (Z.log2 c < 8) by (destruct (Z.eq_dec c 0) as [->|]; [cbn; lia|apply Z.log2_lt_pow2; lia]).
  lia.
Qed.

Lemma le_val_lxor a b : bytes a -> bytes b -> length a = length b ->
  Z.lxor (le_val a) (le_val b) = le_val (map (fun p => Z.lxor (fst p) (snd p)) (combine a b)).
Proof.
  revert b. induction a as [|x a IH]; intros [|y b] Ha Hb Hl; try discriminate; [reflexivity|].
  apply bytes_cons in Ha, Hb. destruct Ha as [Hx Ha], Hb as [Hy Hb]. injection Hl as Hl.
  cbn [combine map fst snd]. rewrite !le_val_cons, <- (IH b Ha Hb Hl).
  assert (E : forall u v, is_byte u -> u + 256 * v = Z.lor (Z.shiftl v 8) u).
  { intros u v Hu. rewrite Z.shiftl_mul_pow2, lor_disjoint by (unfold is_byte in Hu; lia). lia. }
  pose proof (lxor_byte_bound _ _ Hx Hy) as Hxy.
  rewrite !E by assumption. apply Z.bits_inj'. intros n Hn.
  rewrite Z.lxor_spec, !Z.lor_spec.
  assert (Hhi : forall u, is_byte u -> 8 <= n -> Z.testbit u n = false).
  { intros u Hu H8. destruct (Z.eq_dec u 0) as [->|Hu0]; [apply Z.bits_0|].
    apply Z.bits_above_log2; [unfold is_byte in Hu; lia|].
    assert (Z.log2 u < 8) by (apply Z.log2_lt_pow2; unfold is_byte in Hu; lia). lia. }
  destruct (Z.lt_ge_cases n 8) as [Hlo|H8].
  - rewrite !Z.shiftl_spec_low by lia. cbn [orb]. now rewrite Z.lxor_spec.
  - rewrite (Hhi x Hx H8), (Hhi y Hy H8), (Hhi _ Hxy H8), !orb_false_r, !Z.shiftl_spec by lia. now rewrite Z.lxor_spec.
Qed.

Lemma combine_repeat (c : Z) a : map (fun p => Z.lxor (fst p) (snd p)) (combine a (repeat c (length a))) = map (Z.lxor c) a.
Proof. induction a as [|x a IH]; cbn; [reflexivity|]. rewrite IH. f_equal. apply Z.lxor_comm. Qed.

Lemma xor_words_ok c n buffer : bytes buffer -> is_byte c -> length buffer = (8 * n)%nat ->
  xor_words (le_val (repeat c 8)) buffer = map (Z.lxor c) buffer.
Proof.
  intros Hb Hc Hl. unfold xor_words. rewrite Hl, (Nat.mul_comm 8 n), Nat.div_mul by lia.
  revert buffer Hb Hl. induction n as [|n IH]; intros buffer Hb Hl.
  - destruct buffer; [reflexivity|discriminate].
  - assert (L : length (firstn 8 buffer) = 8%nat) by (rewrite firstn_length; lia).
    assert (Hb8 : bytes (firstn 8 buffer)) by now apply bytes_firstn.
    assert (Hbc : bytes (repeat c 8)) by (apply Forall_forall; intros x Hx; apply repeat_spec in Hx; now subst).
    rewrite IH by (try apply bytes_skipn; try rewrite skipn_length; auto; lia).
    rewrite host_val_le, le_val_lxor by (auto; rewrite repeat_length; lia).
    replace (repeat c 8) with (repeat c (length (firstn 8 buffer))) by now rewrite L.
    rewrite combine_repeat, host_bytes_le.
    assert (Hm : bytes (map (Z.lxor c) (firstn 8 buffer))).
    { apply Forall_forall. intros x Hx. apply in_map_iff in Hx as (y & <- & Hy).
      apply lxor_byte_bound; [exact Hc|]. unfold bytes in Hb8. rewrite Forall_forall in Hb8. now apply Hb8. }
    assert (Hlm : length (map (Z.lxor c) (firstn 8 buffer)) = 8%nat) by now rewrite map_length.
    rewrite <- Hlm at 1. rewrite le_bytes_le_val by exact Hm.
    rewrite <- map_app, firstn_skipn. reflexivity.
Qed.

Lemma map_lxor_bytes c l : is_byte c -> bytes l -> bytes (map (Z.lxor c) l).
Proof.
  intros Hc Hl. apply Forall_forall. intros x Hx. apply in_map_iff in Hx as (y & <- & Hy).
  apply lxor_byte_bound; [exact Hc|]. unfold bytes in Hl. rewrite Forall_forall in Hl. now apply Hl.
Qed.

Lemma byte_36 : is_byte 0x36. Proof. unfold is_byte; lia. Qed.
Lemma byte_5c : is_byte 0x5c. Proof. unfold is_byte; lia. Qed.

(** Hashing a message that starts with one block, from the state after that block. *)
Lemma fold_left_cons {A B} (f : A -> B -> A) x l a : fold_left f (x :: l) a = fold_left f l (f a x).
Proof. reflexivity. Qed.
Lemma SHA256_unfold m : SHA256 m = concat (map (be_bytes 4) (fold_left comp256 (chunks 64 (m ++ md_pad 64 (be_bytes 8 (8 * Z.of_nat (length m))) (length m))) IV256)).
Proof. rewrite <- IV256_eq. reflexivity. Qed.
Lemma sha256_prefix k m : length k = 64%nat ->
  SHA256 (k ++ m) = concat (map (be_bytes 4)
    (fold_left comp256 (chunks 64 (m ++ md_pad 64 (be_bytes 8 (8 * Z.of_nat (length m + 64))) (length m))) (comp256 IV256 k))).
Proof.
  intros Hk. rewrite SHA256_unfold. rewrite <- app_assoc, chunks_cons by (auto; lia). rewrite fold_left_cons.
  assert (E : length (k ++ m) = (64 * 1 + length m)%nat) by (rewrite app_length; lia).
  rewrite E, md_pad_mod by lia. replace (64 * 1 + length m)%nat with (length m + 64)%nat by lia. reflexivity.
Qed.
Lemma SHA512_unfold m : SHA512 m = concat (map (be_bytes 8) (fold_left comp512 (chunks 128 (m ++ md_pad 128 (be_bytes 16 (8 * Z.of_nat (length m))) (length m))) IV512)).
Proof. rewrite <- IV512_eq. reflexivity. Qed.
Lemma sha512_prefix k m : length k = 128%nat ->
  SHA512 (k ++ m) = concat (map (be_bytes 8)
    (fold_left comp512 (chunks 128 (m ++ md_pad 128 (be_bytes 16 (8 * Z.of_nat (length m + 128))) (length m))) (comp512 IV512 k))).
Proof.
  intros Hk. rewrite SHA512_unfold. rewrite <- app_assoc, chunks_cons by (auto; lia). rewrite fold_left_cons.
  assert (E : length (k ++ m) = (128 * 1 + length m)%nat) by (rewrite app_length; lia).
  rewrite E, md_pad_mod by lia. replace (128 * 1 + length m)%nat with (length m + 128)%nat by lia. reflexivity.
Qed.

Lemma hmac_sha256_ok key kn msg mn : bytes key -> (kn <= length key)%nat -> bytes msg -> (mn <= length msg)%nat ->
  byte_len_ok kn -> byte_len_ok (mn + 64) ->
  hmac_sha256 key kn msg mn = Ok (hmac SHA256 64 (firstn kn key) (firstn mn msg)).
Proof.
  intros Hbk Hk Hbm Hm Hlk Hlm. unfold hmac_sha256, hmac.
  assert (Lk : length (firstn kn key) = kn) by (rewrite firstn_length; lia). rewrite Lk.
  set (k0 := if (kn <=? 64)%nat then firstn kn key else SHA256 (firstn kn key)).
  assert (Hk0 : bytes k0).
  { unfold k0. destruct (kn <=? 64)%nat; [now apply bytes_firstn|apply SHA256_bytes]. }
  assert (Hk0l : (length k0 <= 64)%nat).
  { unfold k0. destruct (Nat.leb_spec kn 64); [lia|rewrite SHA256_length; lia]. }
  set (k := k0 ++ repeat 0 (64 - length k0)).
  assert (Lkk : length k = (8 * 8)%nat) by (unfold k; rewrite app_length, repeat_length; lia).
  assert (Hbkk : bytes k) by (unfold k; apply bytes_app; split; [exact Hk0|apply bytes_repeat0]).
  match goal with |- bind ?x _ = _ => assert (E : x = Ok k) end.
  { unfold k, k0. destruct (Nat.leb_spec kn 64) as [Hle|Hgt].
    - rewrite slice_ok by lia. cbn [bind skipn]. now rewrite Lk.
    - rewrite sha2_256_ok by auto. cbn [bind]. rewrite SHA256_length. reflexivity. }
  rewrite E. cbn [bind]. clear E.
  change 0x3636363636363636 with (le_val (repeat 0x36 8)).
  change 0x5C5C5C5C5C5C5C5C with (le_val (repeat 0x5c 8)).
  rewrite !(fun c H => xor_words_ok c 8 k Hbkk H Lkk) by (apply byte_36 || apply byte_5c).
  set (ki := map (Z.lxor 0x36) k). set (ko := map (Z.lxor 0x5c) k).
  assert (Lki : length ki = 64%nat) by (unfold ki; now rewrite map_length).
  assert (Lko : length ko = 64%nat) by (unfold ko; now rewrite map_length).
  assert (Hki : bytes ki) by (apply map_lxor_bytes; [apply byte_36|exact Hbkk]).
  assert (Hko : bytes ko) by (apply map_lxor_bytes; [apply byte_5c|exact Hbkk]).
  rewrite (sha256_transform_ok IV256 ki good_IV256 Hki) by lia. cbn [bind]. rewrite (firstn_all2 ki) by lia.
  destruct (sha256_final_ok (comp256 IV256 ki) msg mn 64) as (di & Hgi & -> & Hdi); auto; [apply comp256_good, good_IV256|].
  cbn [bind]. rewrite (sha256_transform_ok IV256 ko good_IV256 Hko) by lia. cbn [bind]. rewrite (firstn_all2 ko) by lia.
  set (inner := out32 di).
  assert (Li : length inner = 32%nat) by (unfold inner; rewrite out32_ok, concat_map_length, Hgi; reflexivity).
  destruct (sha256_final_ok (comp256 IV256 ko) inner 32 64) as (dd & _ & -> & Hdo);
    [apply comp256_good, good_IV256|unfold inner; rewrite out32_ok; apply concat_map_bytes|lia|unfold byte_len_ok; cbn; lia|].
  cbn [bind]. f_equal.
  rewrite sha256_prefix by exact Lko.
  assert (Ei : SHA256 (ki ++ firstn mn msg) = inner).
  { rewrite sha256_prefix by exact Lki. unfold inner. rewrite out32_ok, Hdi.
    replace (length (firstn mn msg)) with mn by (rewrite firstn_length; lia). reflexivity. }
  rewrite Ei, Li, out32_ok, Hdo. rewrite (firstn_all2 inner) by lia. reflexivity.
Qed.

Lemma hmac_sha512_ok key kn msg mn : bytes key -> (kn <= length key)%nat -> bytes msg -> (mn <= length msg)%nat ->
  byte_len_ok kn -> byte_len_ok (mn + 128) ->
  hmac_sha512 key kn msg mn = Ok (hmac SHA512 128 (firstn kn key) (firstn mn msg)).
Proof.
  intros Hbk Hk Hbm Hm Hlk Hlm. unfold hmac_sha512, hmac.
  assert (Lk : length (firstn kn key) = kn) by (rewrite firstn_length; lia). rewrite Lk.
  set (k0 := if (kn <=? 128)%nat then firstn kn key else SHA512 (firstn kn key)).
  assert (Hk0 : bytes k0).
  { unfold k0. destruct (kn <=? 128)%nat; [now apply bytes_firstn|apply SHA512_bytes]. }
  assert (Hk0l : (length k0 <= 128)%nat).
  { unfold k0. destruct (Nat.leb_spec kn 128); [lia|rewrite SHA512_length; lia]. }
  set (k := k0 ++ repeat 0 (128 - length k0)).
  assert (Lkk : length k = (8 * 16)%nat) by (unfold k; rewrite app_length, repeat_length; lia).
  assert (Hbkk : bytes k) by (unfold k; apply bytes_app; split; [exact Hk0|apply bytes_repeat0]).
  match goal with |- bind ?x _ = _ => assert (E : x = Ok k) end.
  { unfold k, k0. destruct (Nat.leb_spec kn 128) as [Hle|Hgt].
    - rewrite slice_ok by lia. cbn [bind skipn]. now rewrite Lk.
    - rewrite sha2_512_ok by auto. cbn [bind]. rewrite SHA512_length. reflexivity. }
  rewrite E. cbn [bind]. clear E.
  change 0x3636363636363636 with (le_val (repeat 0x36 8)).
  change 0x5C5C5C5C5C5C5C5C with (le_val (repeat 0x5c 8)).
  rewrite !(fun c H => xor_words_ok c 16 k Hbkk H Lkk) by (apply byte_36 || apply byte_5c).
  set (ki := map (Z.lxor 0x36) k). set (ko := map (Z.lxor 0x5c) k).
  assert (Lki : length ki = 128%nat) by (unfold ki; now rewrite map_length).
  assert (Lko : length ko = 128%nat) by (unfold ko; now rewrite map_length).
  assert (Hki : bytes ki) by (apply map_lxor_bytes; [apply byte_36|exact Hbkk]).
  assert (Hko : bytes ko) by (apply map_lxor_bytes; [apply byte_5c|exact Hbkk]).
  rewrite (sha512_transform_ok IV512 ki good_IV512 Hki) by lia. cbn [bind]. rewrite (firstn_all2 ki) by lia.
  destruct (sha512_final_ok (comp512 IV512 ki) msg mn 128) as (di & Hgi & -> & Hdi); auto; [apply comp512_good, good_IV512|].
  cbn [bind]. rewrite (sha512_transform_ok IV512 ko good_IV512 Hko) by lia. cbn [bind]. rewrite (firstn_all2 ko) by lia.
  set (inner := out64 di).
  assert (Li : length inner = 64%nat) by (unfold inner; rewrite out64_ok, concat_map_length, Hgi; reflexivity).
  destruct (sha512_final_ok (comp512 IV512 ko) inner 64 128) as (dd & _ & -> & Hdo);
    [apply comp512_good, good_IV512|unfold inner; rewrite out64_ok; apply concat_map_bytes|lia|unfold byte_len_ok; cbn; lia|].
  cbn [bind]. f_equal.
  rewrite sha512_prefix by exact Lko.
  assert (Ei : SHA512 (ki ++ firstn mn msg) = inner).
  { rewrite sha512_prefix by exact Lki. unfold inner. rewrite out64_ok, Hdi.
    replace (length (firstn mn msg)) with mn by (rewrite firstn_length; lia). reflexivity. }
  rewrite Ei, Li, out64_ok, Hdo. rewrite (firstn_all2 inner) by lia. reflexivity.
Qed.
