From Verif Require Import Base M_Varint S_Varint.

Definition contb (b : Z) : Z := if 128 <=? b then 1 else 0.
(** what the decoder computes, without wrapping *)
Definition horner_from (a : Z) (l : list Z) : Z :=
  fold_left (fun a b => 128 * a + b mod 128 + contb b) l a.
Definition horner := horner_from 0.

Lemma horner_from_app a l1 l2 : horner_from a (l1 ++ l2) = horner_from (horner_from a l1) l2.
Proof. apply fold_left_app. Qed.

Lemma strings_upto_rec k : strings_upto (S k) = 128 * strings_upto k + 128.
Proof.
  induction k as [|k IH]; [reflexivity|].
  change (strings_upto (S (S k))) with (strings_upto (S k) + 128 ^ Z.of_nat (S (S k))).
  rewrite IH. change (strings_upto (S k)) with (strings_upto k + 128 ^ Z.of_nat (S k)) in *.
  rewrite (Nat2Z.inj_succ (S k)), Z.pow_succ_r by lia. lia.
Qed.

Lemma strings_upto_pos k : 0 <= strings_upto k.
Proof. induction k; [simpl; lia|]. rewrite strings_upto_rec. lia. Qed.

Lemma digits_value_snoc l b : digits_value (l ++ [b]) = 128 * digits_value l + b mod 128.
Proof. unfold digits_value. rewrite fold_left_app. reflexivity. Qed.

Lemma horner_snoc l b : horner (l ++ [b]) = 128 * horner l + b mod 128 + contb b.
Proof. unfold horner. rewrite horner_from_app. reflexivity. Qed.

Lemma horner_cont p : Forall continues p ->
  128 * horner p = 128 * digits_value p + strings_upto (length p).
Proof.
  induction p as [|b p IH] using rev_ind; intros H; [reflexivity|].
  apply Forall_app in H; destruct H as [Hp Hb]. inversion Hb as [|? ? Hb0 _]; subst.
  rewrite horner_snoc, digits_value_snoc, app_length, Nat.add_comm. cbn [length Nat.add].
  rewrite strings_upto_rec. specialize (IH Hp).
  unfold contb. destruct Hb0. rewrite (proj2 (Z.leb_le _ _)) by assumption. lia.
Qed.

Lemma varint_value_horner l : varint_string l -> horner l = varint_value l.
Proof.
  intros (p & b & -> & Hp & Hb). unfold varint_value.
  rewrite horner_snoc, digits_value_snoc, app_length. cbn [length].
  replace (length p + 1 - 1)%nat with (length p) by lia.
  pose proof (horner_cont p Hp). unfold contb, ends in *.
  destruct (Z.leb_spec 128 b); lia.
Qed.

Lemma digits_bound l : 0 <= digits_value l < 128 ^ Z.of_nat (length l).
Proof.
  induction l as [|b l IH] using rev_ind; [simpl; unfold digits_value; simpl; lia|].
  rewrite digits_value_snoc, app_length, Nat.add_comm. cbn [length Nat.add].
  rewrite Nat2Z.inj_succ, Z.pow_succ_r by lia.
  pose proof (Z.mod_pos_bound b 128). nia.
Qed.

Lemma varint_value_band l : l <> [] ->
  strings_upto (length l - 1) <= varint_value l < strings_upto (length l).
Proof.
  intros Hl. unfold varint_value. pose proof (digits_bound l).
  destruct (length l) as [|k] eqn:E; [destruct l; [congruence|discriminate]|].
  replace (S k - 1)%nat with k by lia. cbn [strings_upto]. lia.
Qed.

Lemma horner_nonneg l : 0 <= horner l.
Proof.
  induction l as [|b l IH] using rev_ind; [unfold horner; simpl; lia|].
  rewrite horner_snoc. pose proof (Z.mod_pos_bound b 128). unfold contb. destruct (128 <=? b); lia.
Qed.

(* ---- bytes ---- *)
Lemma land127 v : 0 <= v -> Z.land v 127 = v mod 128.
Proof. intros. change 127 with (2 ^ 7 - 1). rewrite land_ones' by lia. reflexivity. Qed.

Lemma lor128 d : 0 <= d < 128 -> Z.lor d 128 = d + 128.
Proof.
  intros. rewrite Z.lor_comm. change 128 with (1 * 2 ^ 7) at 1. rewrite lor_disjoint by lia. lia.
Qed.

Lemma land128 b : is_byte b -> (Z.land b 128 =? 0) = (b <? 128).
Proof.
  intros Hb. apply eqb_prop.
  refine (sweep1 256 (fun b => Bool.eqb (Z.land b 128 =? 0) (b <? 128)) _ b _);
    [reflexivity|unfold is_byte in Hb; lia].
Qed.

(* ---- encoding an existing string ---- *)
Lemma shiftr7 v : 0 <= v -> Z.shiftr v 7 = v / 128.
Proof. intros. rewrite Z.shiftr_div_pow2 by lia. reflexivity. Qed.

Lemma u64_small x : 0 <= x < 2 ^ 64 -> u64 x = x.
Proof. intros. unfold u64. apply Z.mod_small. assumption. Qed.

Lemma enc_byte_cont c (acc : list Z) v : continues c -> 0 <= v -> v mod 128 = c mod 128 -> acc <> [] ->
  u8 (Z.lor (Z.land v 127) match acc with [] => 0 | _ => 128 end) = c.
Proof.
  intros Hc Hv E Hacc. destruct acc; [congruence|].
  rewrite land127, E, lor128 by (auto; dlia). unfold u8, continues in *. dlia.
Qed.

Lemma enc_cont : forall p slots acc, Forall continues p -> p <> [] -> acc <> [] ->
  (length p <= slots)%nat -> horner p - 1 < 2 ^ 64 ->
  encode_varint_loop slots (horner p - 1) acc = Ok (p ++ acc).
Proof.
  induction p as [|c p IH] using rev_ind; intros slots acc Hf Hp Hacc Hl Hb; [congruence|].
  rewrite app_length in Hl. cbn [length] in Hl.
  destruct slots as [|slots]; [lia|].
  apply Forall_app in Hf; destruct Hf as [Hfp Hc]. inversion Hc as [|? ? Hc0 _]; subst. clear Hc.
  rewrite horner_snoc in *. unfold contb in *. destruct Hc0 as [Hc1 Hc2].
  rewrite (proj2 (Z.leb_le _ _) Hc1) in *.
  replace (128 * horner p + c mod 128 + 1 - 1) with (128 * horner p + c mod 128) in * by lia.
  pose proof (horner_nonneg p) as Hn. pose proof (Z.mod_pos_bound c 128 ltac:(lia)) as Hm.
  cbn [encode_varint_loop].
  rewrite (enc_byte_cont c) by (try (unfold continues; lia); try assumption; dlia).
  destruct p as [|c0 p0].
  - rewrite (proj2 (Z.leb_le _ _)) by (unfold horner; simpl; dlia). reflexivity.
  - set (p := c0 :: p0) in *.
    assert (Hpos : 1 <= horner p).
    { pose proof (horner_cont p Hfp) as Hh. pose proof (digits_bound p).
      unfold p in Hh at 3. cbn [length] in Hh. rewrite strings_upto_rec in Hh.
      pose proof (strings_upto_pos (length p0)). lia. }
    rewrite (proj2 (Z.leb_gt _ _)) by lia.
    rewrite shiftr7 by lia.
    assert (Hd : (128 * horner p + c mod 128) / 128 = horner p) by dlia. rewrite Hd, u64_small by lia.
    rewrite IH; [rewrite <- app_assoc; reflexivity| | | | |]; try assumption; try discriminate; lia.
Qed.

Lemma encode_string l : varint_string l -> (length l <= 10)%nat -> varint_value l < 2 ^ 64 ->
  encode_varint (varint_value l) = Ok (length l, l).
Proof.
  intros Hs Hl Hv. rewrite <- varint_value_horner in * by assumption.
  destruct Hs as (p & b & -> & Hp & Hb). unfold ends in Hb.
  rewrite horner_snoc in *. unfold contb in *. rewrite (proj2 (Z.leb_gt 128 b)) in * by lia.
  rewrite (Z.mod_small b) in * by lia. rewrite app_length in Hl. cbn [length] in Hl.
  pose proof (horner_nonneg p) as Hn.
  replace (128 * horner p + b + 0) with (128 * horner p + b) in * by lia.
  unfold encode_varint. change 10%nat with (S 9). remember 9%nat as nine eqn:Hnine. cbn [encode_varint_loop].
  rewrite land127 by lia. replace ((128 * horner p + b) mod 128) with b by dlia.
  rewrite Z.lor_0_r, u8_id by (unfold is_byte; lia).
  destruct p as [|c0 p0].
  - rewrite (proj2 (Z.leb_le _ _)) by (unfold horner; simpl; lia). reflexivity.
  - set (p := c0 :: p0) in *.
    assert (Hpos : 1 <= horner p).
    { pose proof (horner_cont p Hp) as Hh. pose proof (digits_bound p).
      unfold p in Hh at 3. cbn [length] in Hh. rewrite strings_upto_rec in Hh.
      pose proof (strings_upto_pos (length p0)). lia. }
    rewrite (proj2 (Z.leb_gt _ _)) by lia. rewrite shiftr7 by lia.
    replace ((128 * horner p + b) / 128) with (horner p) by dlia. rewrite u64_small by lia.
    rewrite enc_cont by (try assumption; try discriminate; lia). reflexivity.
Qed.

(* ---- every number below strings_upto k has a string of length <= k ---- *)
Lemma cont_exists : forall k v, 0 <= v < strings_upto k ->
  exists p, Forall continues p /\ p <> [] /\ (length p <= k)%nat /\ horner p = v + 1.
Proof.
  induction k as [|k IH]; intros v Hv; [simpl in Hv; lia|].
  rewrite strings_upto_rec in Hv.
  destruct (Z.lt_ge_cases v 128) as [Hlt|Hge].
  - exists [v + 128]. split; [constructor; [unfold continues; lia|constructor]|].
    split; [discriminate|]. split; [cbn; lia|].
    unfold horner, horner_from, contb. cbn [fold_left].
    rewrite (proj2 (Z.leb_le _ _)) by lia. dlia.
  - destruct (IH (v / 128 - 1)) as (p & Hp & Hne & Hl & Hh); [dlia|].
    exists (p ++ [v mod 128 + 128]). split; [apply Forall_app; split; [assumption|constructor; [unfold continues; dlia|constructor]]|].
    split; [destruct p; discriminate|]. split; [rewrite app_length; cbn; lia|].
    rewrite horner_snoc, Hh. unfold contb. rewrite (proj2 (Z.leb_le _ _)) by dlia. dlia.
Qed.

Lemma string_exists v : 0 <= v < 2 ^ 64 ->
  exists l, varint_string l /\ (length l <= 10)%nat /\ varint_value l = v.
Proof.
  intros Hv. destruct (Z.lt_ge_cases v 128) as [Hlt|Hge].
  - exists [v]. split; [exists [], v; repeat split; auto; unfold ends; lia|].
    split; [cbn; lia|]. unfold varint_value, digits_value. cbn. dlia.
  - destruct (cont_exists 9 (v / 128 - 1)) as (p & Hp & Hne & Hl & Hh).
    { assert (2 ^ 64 < strings_upto 9 * 128) by reflexivity. dlia. }
    assert (Hs : varint_string (p ++ [v mod 128])).
    { exists p, (v mod 128). repeat split; auto; dlia. }
    exists (p ++ [v mod 128]). split; [exact Hs|].
    split; [rewrite app_length; cbn; lia|].
    rewrite <- varint_value_horner by exact Hs. rewrite horner_snoc, Hh. unfold contb.
    rewrite (proj2 (Z.leb_gt _ _)) by dlia. dlia.
Qed.

Lemma encode_total v : 0 <= v < 2 ^ 64 ->
  exists l, encode_varint v = Ok (length l, l) /\ varint_string l /\ varint_value l = v /\
            (1 <= length l <= 10)%nat.
Proof.
  intros Hv. destruct (string_exists v Hv) as (l & Hs & Hl & Hval).
  exists l. subst v. rewrite encode_string by (try assumption; lia).
  split; [reflexivity|]. split; [exact Hs|]. split; [reflexivity|]. split; [|exact Hl].
  destruct Hs as (p & b & -> & _). rewrite app_length. cbn. lia.
Qed.

Lemma string_unique l1 l2 : varint_string l1 -> varint_string l2 ->
  varint_value l1 = varint_value l2 -> l1 = l2.
Proof.
  intros H1 H2 E.
  assert (N1 : l1 <> []) by (destruct H1 as ([|] & b & -> & _); discriminate).
  assert (N2 : l2 <> []) by (destruct H2 as ([|] & b & -> & _); discriminate).
  pose proof (varint_value_band l1 N1) as B1. pose proof (varint_value_band l2 N2) as B2.
  assert (mono : forall a b, (a <= b)%nat -> strings_upto a <= strings_upto b).
  { intros a b H. induction H as [|b H IH]; [lia|]. rewrite strings_upto_rec.
    pose proof (strings_upto_pos b). lia. }
  assert (EL : length l1 = length l2).
  { destruct (Nat.lt_trichotomy (length l1) (length l2)) as [H|[H|H]]; [|exact H|].
    - pose proof (mono (length l1) (length l2 - 1)%nat ltac:(lia)). lia.
    - pose proof (mono (length l2) (length l1 - 1)%nat ltac:(lia)). lia. }
  assert (ED : digits_value l1 = digits_value l2) by (unfold varint_value in E; rewrite EL in E; lia).
  clear E B1 B2 N1 N2.
  destruct H1 as (p1 & b1 & -> & Hp1 & Hb1). destruct H2 as (p2 & b2 & -> & Hp2 & Hb2).
  rewrite !app_length in EL. cbn [length] in EL.
  rewrite !digits_value_snoc in ED. unfold ends in *.
  rewrite !Z.mod_small in ED by lia.
  assert (b1 = b2) by lia. assert (ED' : digits_value p1 = digits_value p2) by lia. subst b2.
  f_equal. assert (EL' : length p1 = length p2) by lia. clear - Hp1 Hp2 EL' ED'.
  revert p2 Hp2 EL' ED'. induction p1 as [|c1 p1 IH] using rev_ind; intros p2 Hp2 EL ED.
  - destruct p2; [reflexivity|discriminate].
  - destruct p2 as [|c2 p2 _] using rev_ind; [rewrite app_length in EL; cbn in EL; lia|].
    rewrite !app_length in EL. cbn [length] in EL.
    apply Forall_app in Hp1, Hp2. destruct Hp1 as [Hp1 Hc1], Hp2 as [Hp2 Hc2].
    inversion Hc1 as [|? ? G1 _]; inversion Hc2 as [|? ? G2 _]; subst. unfold continues in *.
    rewrite !digits_value_snoc in ED.
    assert (c1 mod 128 = c2 mod 128 /\ digits_value p1 = digits_value p2) as [M D] by dlia.
    assert (c1 = c2) by dlia. subst. f_equal. apply IH; auto. lia.
Qed.

(* ---- decoding ---- *)
Lemma dec_step out b : 0 <= out < 2 ^ 64 -> is_byte b ->
  Z.lor (u64 (Z.shiftl out 7)) (Z.land b 127) = u64 (128 * out + b mod 128).
Proof.
  intros Ho Hb. unfold is_byte in Hb. rewrite land127 by lia.
  rewrite Z.shiftl_mul_pow2 by lia. unfold u64.
  change (2 ^ 64) with (2 ^ 57 * 2 ^ 7). rewrite Z.mul_mod_distr_r by lia.
  rewrite lor_disjoint by (try lia; change (2 ^ 7) with 128; dlia).
  change (2 ^ 7) with 128. change (2 ^ 57) with 144115188075855872. dlia.
Qed.

Lemma u64_range x : 0 <= u64 x < 2 ^ 64.
Proof. unfold u64. apply Z.mod_pos_bound. lia. Qed.

Lemma u64_horner_step a b c : u64 (u64 (128 * u64 a + b) + c) = u64 (128 * a + b + c).
Proof. unfold u64. change (2^64) with 18446744073709551616. rewrite Z.add_mod_idemp_l by lia.
  rewrite <- Z.add_assoc. rewrite <- Z.add_mod_idemp_l by lia. rewrite Z.mul_mod_idemp_r by lia.
  rewrite Z.add_mod_idemp_l by lia. f_equal. lia. Qed.

Lemma decode_loop_cont : forall p n i rest a, Forall continues p -> (length p <= n)%nat ->
  decode_varint_loop n i (p ++ rest) (u64 a) =
  decode_varint_loop (n - length p) (i + length p) rest (u64 (horner_from a p)).
Proof.
  induction p as [|b p IH]; intros n i rest a Hf Hl.
  - cbn [length app horner_from fold_left]. rewrite Nat.sub_0_r, Nat.add_0_r. reflexivity.
  - inversion Hf as [|? ? Hb Hf']; subst. cbn [length] in *. destruct n as [|n]; [lia|].
    cbn [decode_varint_loop app]. unfold continues in Hb.
    rewrite dec_step by (try apply u64_range; unfold is_byte; lia).
    rewrite land128 by (unfold is_byte; lia). rewrite (proj2 (Z.ltb_ge b 128)) by lia. cbn [negb].
    rewrite u64_horner_step, IH by (auto; lia).
    replace (i + S (length p))%nat with (S i + length p)%nat by lia.
    cbn [Nat.sub horner_from fold_left]. unfold contb. rewrite (proj2 (Z.leb_le 128 b)) by lia. reflexivity.
Qed.

Definition capped (size : nat) : nat := Nat.min size 10.
Lemma capped_eq size : (if (10 <? size)%nat then 10%nat else size) = capped size.
Proof. unfold capped. destruct (Nat.ltb_spec 10 size); lia. Qed.

Lemma decode_found l rest size : varint_string l -> (length l <= capped size)%nat ->
  decode_varint (l ++ rest) size = Ok (length l, u64 (varint_value l)).
Proof.
  intros Hs Hl. rewrite <- varint_value_horner by assumption.
  destruct Hs as (p & b & -> & Hp & Hb). rewrite app_length in *. cbn [length] in *.
  unfold decode_varint. rewrite capped_eq. change 0 with (u64 0).
  rewrite <- app_assoc. rewrite decode_loop_cont by (auto; lia).
  destruct (capped size - length p)%nat as [|n] eqn:En; [lia|].
  cbn [decode_varint_loop app Nat.add]. unfold ends in Hb.
  rewrite dec_step by (try apply u64_range; unfold is_byte; lia).
  rewrite land128 by (unfold is_byte; lia). rewrite (proj2 (Z.ltb_lt b 128)) by lia. cbn [negb].
  f_equal. f_equal; [lia|]. rewrite horner_snoc. fold horner.
  pose proof (u64_horner_step (horner p) (b mod 128) (contb b)) as Hst.
  unfold contb in *. rewrite (proj2 (Z.leb_gt 128 b)) in * by lia.
  rewrite Z.add_0_r in Hst. unfold u64 in Hst at 1. rewrite Z.mod_small in Hst by apply u64_range.
  exact Hst.
Qed.

Lemma decode_notfound l rest size : Forall continues l -> length l = capped size ->
  exists v, decode_varint (l ++ rest) size = Ok (0%nat, v).
Proof.
  intros Hf Hl. unfold decode_varint. rewrite capped_eq. change 0 with (u64 0).
  rewrite decode_loop_cont by (auto; lia). rewrite Hl, Nat.sub_diag. eexists. reflexivity.
Qed.

(** Any byte list splits as continuation bytes, then possibly an end byte. *)
Lemma split_string l : bytes l ->
  Forall continues l \/ exists p b q, l = p ++ b :: q /\ Forall continues p /\ ends b.
Proof.
  induction l as [|b l IH]; intros Hb; [left; constructor|].
  apply bytes_cons in Hb; destruct Hb as [Hb Hl]. unfold is_byte in Hb.
  destruct (Z.lt_ge_cases b 128) as [H|H].
  - right. exists [], b, l. repeat split; auto; lia.
  - destruct (IH Hl) as [Hf|(p & b' & q & -> & Hp & He)].
    + left. constructor; [unfold continues; lia|assumption].
    + right. exists (b :: p), b', q. split; [reflexivity|]. split; [constructor; [unfold continues; lia|assumption]|assumption].
Qed.

Lemma string_bytes l : varint_string l -> bytes l.
Proof.
  intros (p & b & -> & Hp & Hb). apply bytes_app. split.
  - apply Forall_impl with (2 := Hp). unfold continues, is_byte. intros; lia.
  - constructor; [unfold ends, is_byte in *; lia|constructor].
Qed.

Lemma string_nonempty l : varint_string l -> l <> [].
Proof. intros ([|] & b & -> & _); discriminate. Qed.

Lemma strings_upto_mono a b : (a <= b)%nat -> strings_upto a <= strings_upto b.
Proof.
  intros H. induction H as [|b H IH]; [lia|]. rewrite strings_upto_rec.
  pose proof (strings_upto_pos b). lia.
Qed.

Lemma encode_size v : 0 <= v < 2 ^ 64 ->
  exists l, encode_varint v = Ok (length l, l) /\ bytes l /\ (1 <= length l <= 10)%nat /\
    forall k, length l = k <-> ((1 <= k)%nat /\ strings_upto (k - 1) <= v < strings_upto k).
Proof.
  intros Hv. destruct (encode_total v Hv) as (l & E & Hs & Hval & Hl).
  exists l. split; [exact E|]. split; [apply string_bytes, Hs|]. split; [exact Hl|].
  pose proof (varint_value_band l (string_nonempty l Hs)) as HB. rewrite Hval in HB.
  intros k. split.
  - intros <-. split; [lia|exact HB].
  - intros [Hk Hband].
    destruct (Nat.lt_trichotomy (length l) k) as [H|[H|H]]; [|exact H|].
    + pose proof (strings_upto_mono (length l) (k - 1) ltac:(lia)). lia.
    + pose proof (strings_upto_mono k (length l - 1) ltac:(lia)). lia.
Qed.

Lemma encode_meaning v n l : 0 <= v < 2 ^ 64 ->
  encode_varint v = Ok (n, l) -> varint_string l /\ varint_value l = v.
Proof.
  intros Hv E. destruct (encode_total v Hv) as (l' & E' & Hs & Hval & _).
  rewrite E in E'. injection E' as -> ->. auto.
Qed.

Lemma varint_roundtrip v n l rest size : 0 <= v < 2 ^ 64 ->
  encode_varint v = Ok (n, l) -> (length l <= size)%nat ->
  decode_varint (l ++ rest) size = Ok (n, v).
Proof.
  intros Hv E Hsz. destruct (encode_total v Hv) as (l' & E' & Hs & Hval & Hl).
  rewrite E in E'. injection E' as -> ->.
  rewrite decode_found; [|exact Hs|unfold capped; lia].
  rewrite Hval, u64_small by exact Hv. reflexivity.
Qed.

Lemma decode_total window rest size : bytes window -> length window = Nat.min size 10 ->
  (Forall continues window /\ exists v, decode_varint (window ++ rest) size = Ok (0%nat, v)) \/
  (exists p b q, window = p ++ b :: q /\ Forall continues p /\ ends b /\
     decode_varint (window ++ rest) size =
       Ok (S (length p), varint_value (p ++ [b]) mod 2 ^ 64)).
Proof.
  intros Hb Hl. destruct (split_string window Hb) as [Hf|(p & b & q & -> & Hp & He)].
  - left. split; [exact Hf|]. apply decode_notfound; assumption.
  - right. exists p, b, q. split; [reflexivity|]. split; [exact Hp|]. split; [exact He|].
    replace ((p ++ b :: q) ++ rest) with ((p ++ [b]) ++ q ++ rest) by (rewrite <- !app_assoc; reflexivity).
    rewrite decode_found; [|exists p, b; auto|rewrite app_length in *; cbn [length] in *; unfold capped; lia].
    rewrite app_length. cbn [length]. rewrite Nat.add_1_r. reflexivity.
Qed.

Lemma decode_canonical window rest size n v : bytes window ->
  length window = Nat.min size 10 ->
  decode_varint (window ++ rest) size = Ok (S n, v) ->
  varint_value (firstn (S n) window) < 2 ^ 64 ->
  encode_varint v = Ok (S n, firstn (S n) window).
Proof.
  intros Hb Hl E Hv. destruct (decode_total window rest size Hb Hl) as [[_ [v' E']]|(p & b & q & -> & Hp & He & E')].
  - rewrite E in E'. discriminate.
  - rewrite E in E'. injection E' as -> ->.
    assert (F : firstn (S (length p)) (p ++ b :: q) = p ++ [b]).
    { replace (p ++ b :: q) with ((p ++ [b]) ++ q) by (rewrite <- app_assoc; reflexivity).
      replace (S (length p)) with (length (p ++ [b])) by (rewrite app_length; cbn; lia).
      apply firstn_app_exact. }
    rewrite F in *. assert (Hs : varint_string (p ++ [b])) by (exists p, b; auto).
    assert (0 <= varint_value (p ++ [b])).
    { pose proof (varint_value_band _ (string_nonempty _ Hs)).
      pose proof (strings_upto_pos (length (p ++ [b]) - 1)). lia. }
    rewrite Z.mod_small by lia.
    rewrite encode_string; [|exact Hs|rewrite app_length in *; cbn [length] in *; lia|exact Hv].
    rewrite app_length. cbn [length]. rewrite Nat.add_1_r. reflexivity.
Qed.

Lemma string_exists_band v : strings_upto 9 <= v < strings_upto 10 ->
  exists l, varint_string l /\ length l = 10%nat /\ varint_value l = v.
Proof.
  intros Hv.
  destruct (cont_exists 9 (v / 128 - 1)) as (p & Hp & Hne & Hl & Hh).
  { rewrite (strings_upto_rec 9), (strings_upto_rec 8) in Hv. rewrite (strings_upto_rec 8).
    pose proof (strings_upto_pos 8). dlia. }
  assert (Hs : varint_string (p ++ [v mod 128])).
  { exists p, (v mod 128). repeat split; auto; dlia. }
  assert (Hval : varint_value (p ++ [v mod 128]) = v).
  { rewrite <- varint_value_horner by exact Hs. rewrite horner_snoc, Hh. unfold contb.
    rewrite (proj2 (Z.leb_gt _ _)) by dlia. dlia. }
  exists (p ++ [v mod 128]). split; [exact Hs|]. split; [|exact Hval].
  pose proof (varint_value_band _ (string_nonempty _ Hs)) as HB. rewrite Hval in HB.
  rewrite app_length in *. cbn [length] in *.
  assert (length p = 9%nat \/ (length p + 1 <= 9)%nat) as [->|H] by lia; [reflexivity|].
  pose proof (strings_upto_mono (length p + 1) 9 H). lia.
Qed.

Lemma varint_alias v : 0 <= v -> strings_upto 9 <= v + 2 ^ 64 < strings_upto 10 ->
  exists l, length l = 10%nat /\ bytes l /\ varint_value l = v + 2 ^ 64 /\
    decode_varint l 10 = Ok (10%nat, v mod 2 ^ 64) /\
    encode_varint (v mod 2 ^ 64) <> Ok (10%nat, l).
Proof.
  intros Hv Hband. destruct (string_exists_band _ Hband) as (l & Hs & Hl & Hval).
  exists l. split; [exact Hl|]. split; [apply string_bytes, Hs|]. split; [exact Hval|]. split.
  - rewrite <- (app_nil_r l), decode_found; [|exact Hs|unfold capped; rewrite Hl; cbn; lia].
    rewrite Hl, Hval. unfold u64. rewrite <- (Z.mod_add v 1) by lia. rewrite Z.mul_1_l. reflexivity.
  - intros E. apply encode_meaning in E; [|apply Z.mod_pos_bound; lia].
    destruct E as [_ E]. rewrite Hval in E. pose proof (Z.mod_pos_bound v (2 ^ 64)). lia.
Qed.

Lemma prefix_free v1 v2 n1 n2 l1 l2 t : 0 <= v1 < 2 ^ 64 -> 0 <= v2 < 2 ^ 64 ->
  encode_varint v1 = Ok (n1, l1) -> encode_varint v2 = Ok (n2, l2) ->
  l2 = l1 ++ t -> t = [] /\ v1 = v2.
Proof.
  intros H1 H2 E1 E2 ->.
  assert (D1 := varint_roundtrip v1 n1 l1 t (length (l1 ++ t)) H1 E1 ltac:(rewrite app_length; lia)).
  assert (D2 := varint_roundtrip v2 n2 (l1 ++ t) [] (length (l1 ++ t)) H2 E2 ltac:(lia)).
  rewrite app_nil_r in D2. rewrite D1 in D2. injection D2 as -> ->.
  rewrite E1 in E2. injection E2 as E2. split; [|reflexivity].
  assert (length l1 = length (l1 ++ t)) as HL by congruence. rewrite app_length in HL.
  destruct t; [reflexivity|cbn in HL; lia].
Qed.

Lemma zigzag_roundtrip v rest size out0 : INT64_MIN < v <= INT64_MAX ->
  exists l, encode_zigzag v = Ok (length l, l) /\ (length l <= 10)%nat /\
    ((length l <= size)%nat -> decode_zigzag (l ++ rest) size out0 = Ok (length l, v)).
Proof.
  unfold INT64_MIN, INT64_MAX. intros Hv. unfold encode_zigzag, llabs, INT64_MAX.
  rewrite (proj2 (Z.leb_le _ _)) by lia. cbn [bind].
  rewrite Z.shiftl_mul_pow2 by lia. rewrite u64_small by lia.
  set (s := if v <? 0 then 1 else 0).
  assert (Hs : 0 <= s < 2 /\ (s = 1 <-> v < 0)) by (unfold s; destruct (Z.ltb_spec v 0); lia).
  rewrite lor_disjoint by lia. change (2 ^ 1) with 2.
  destruct (encode_total (Z.abs v * 2 + s) ltac:(lia)) as (l & E & _ & _ & Hl).
  exists l. split; [exact E|]. split; [lia|]. intros Hsz.
  unfold decode_zigzag. rewrite (varint_roundtrip (Z.abs v * 2 + s) _ _ rest size ltac:(lia) E Hsz). cbn [bind].
  rewrite (proj2 (Nat.ltb_lt _ _)) by lia.
  change 1 with (2 ^ 1 - 1) at 1. rewrite land_ones' by lia. change (2 ^ 1) with 2.
  rewrite Z.shiftr_div_pow2 by lia. change (2 ^ 1) with 2.
  replace ((Z.abs v * 2 + s) mod 2) with s by dlia.
  replace ((Z.abs v * 2 + s) / 2) with (Z.abs v) by dlia.
  unfold to_int64, neg_int64, INT64_MIN, INT64_MAX. rewrite (proj2 (Z.leb_le _ _)) by lia.
  destruct (Z.eqb_spec s 0) as [H0|H0]; cbn [negb].
  - repeat f_equal. lia.
  - rewrite (proj2 (Z.eqb_neq _ _)) by lia. cbn [bind]. repeat f_equal. lia.
Qed.

Lemma zigzag_safe window rest size out0 : bytes window -> length window = Nat.min size 10 ->
  exists n v, decode_zigzag (window ++ rest) size out0 = Ok (n, v) /\
    (n = 0%nat -> v = out0) /\ (n <> 0%nat -> INT64_MIN < v <= INT64_MAX).
Proof.
  intros Hb Hl. unfold decode_zigzag.
  destruct (decode_total window rest size Hb Hl) as [[_ [v' E']]|(p & b & q & _ & _ & _ & E')]; rewrite E'; cbn [bind].
  - exists 0%nat, out0. cbn. auto. repeat split; auto; lia.
  - cbn [Nat.ltb Nat.leb]. set (u := _ mod 2 ^ 64).
    assert (Hu : 0 <= u < 2 ^ 64) by (apply Z.mod_pos_bound; lia).
    rewrite Z.shiftr_div_pow2 by lia. change (2 ^ 1) with 2.
    assert (Hd : 0 <= u / 2 <= INT64_MAX) by (unfold INT64_MAX; dlia).
    unfold to_int64. rewrite (proj2 (Z.leb_le _ _)) by lia.
    unfold neg_int64. rewrite (proj2 (Z.eqb_neq (u / 2) INT64_MIN)) by (unfold INT64_MIN; lia).
    cbn [bind]. unfold INT64_MIN, INT64_MAX in *.
    destruct (negb _); do 2 eexists; (split; [reflexivity|]); split; intros; try discriminate; lia.
Qed.
