(** Lemmas about the base 58 model. *)
From Verif Require Import Base S_Base58 M_Base58.

(* ---- numerals ---- *)
Lemma numeral_value_acc b ds acc : fold_left (fun a d => a * b + d) ds acc =
  acc * b ^ Z.of_nat (length ds) + numeral_value b ds.
Proof.
  revert acc. induction ds as [|d ds IH]; intros acc; cbn [fold_left length].
  - unfold numeral_value. cbn. lia.
  - unfold numeral_value. cbn [fold_left]. rewrite !IH. rewrite Nat2Z.inj_succ, Z.pow_succ_r by lia. ring.
Qed.

Lemma numeral_value_app b d1 d2 : numeral_value b (d1 ++ d2) =
  numeral_value b d1 * b ^ Z.of_nat (length d2) + numeral_value b d2.
Proof. unfold numeral_value at 1. rewrite fold_left_app, numeral_value_acc. reflexivity. Qed.

Lemma numeral_value_cons b d ds : numeral_value b (d :: ds) = d * b ^ Z.of_nat (length ds) + numeral_value b ds.
Proof. unfold numeral_value at 1. cbn [fold_left]. rewrite numeral_value_acc. f_equal. Qed.

Definition digits (b : Z) (l : list Z) : Prop := Forall (fun d => 0 <= d < b) l.

Lemma numeral_bound b ds : 0 < b -> digits b ds -> 0 <= numeral_value b ds < b ^ Z.of_nat (length ds).
Proof.
  intros Hb F. induction F as [|d ds Hd F IH]; [cbn; lia|]. rewrite numeral_value_cons. cbn [length].
  rewrite Nat2Z.inj_succ, Z.pow_succ_r by lia. nia.
Qed.

Lemma numeral_zeros b z ds : numeral_value b (repeat 0 z ++ ds) = numeral_value b ds.
Proof. induction z as [|z IH]; [reflexivity|]. cbn [repeat app]. rewrite numeral_value_cons, IH. lia. Qed.

(** Same length, same value: same digits. *)
Lemma numeral_inj b d1 d2 : 1 < b -> digits b d1 -> digits b d2 -> length d1 = length d2 ->
  numeral_value b d1 = numeral_value b d2 -> d1 = d2.
Proof.
  intros Hb F1. revert d2. induction F1 as [|x l Hx F IH]; intros d2 F2 Hl Hv.
  - destruct d2; [reflexivity|discriminate].
  - destruct d2 as [|y d2]; [discriminate|]. inversion F2 as [|? ? Hy F2']; subst. cbn [length] in Hl.
    rewrite !numeral_value_cons in Hv. injection Hl as Hl. rewrite <- Hl in Hv.
    pose proof (numeral_bound b l ltac:(lia) F). pose proof (numeral_bound b d2 ltac:(lia) F2') as H2. rewrite <- Hl in H2.
    assert (x = y) by nia. subst y. f_equal. apply IH; [assumption|assumption|lia].
Qed.

Lemma numeral_nonzero b d ds : 1 < b -> digits b (d :: ds) -> d <> 0 ->
  b ^ Z.of_nat (length ds) <= numeral_value b (d :: ds).
Proof.
  intros Hb F Hd. inversion F as [|? ? H1 F']; subst. rewrite numeral_value_cons.
  pose proof (numeral_bound b ds ltac:(lia) F'). assert (0 < b ^ Z.of_nat (length ds)) by lia. nia.
Qed.

Lemma numeral_len_le b n d1 d2 : 1 < b -> is_numeral b n d1 -> digits b d2 -> numeral_value b d2 = n ->
  (length d1 <= length d2)%nat.
Proof.
  intros Hb (F1 & V1 & L1) F2 V2. destruct d1 as [|x d1]; [cbn; lia|].
  assert (Hx : x <> 0) by (intros ->; exact (L1 _ eq_refl)).
  pose proof (numeral_nonzero b x d1 Hb F1 Hx). pose proof (numeral_bound b d2 ltac:(lia) F2). cbn [length].
  destruct (Nat.lt_ge_cases (length d1) (length d2)); [lia|exfalso].
  assert (b ^ Z.of_nat (length d2) <= b ^ Z.of_nat (length d1)) by (apply Z.pow_le_mono_r; lia). lia.
Qed.

Lemma is_numeral_unique b n d1 d2 : 1 < b -> is_numeral b n d1 -> is_numeral b n d2 -> d1 = d2.
Proof.
  intros Hb H1 H2. pose proof H1 as (F1 & V1 & L1). pose proof H2 as (F2 & V2 & L2).
  apply numeral_inj with b; try assumption; [|congruence].
  pose proof (numeral_len_le b n d1 d2 Hb H1 F2 V2). pose proof (numeral_len_le b n d2 d1 Hb H2 F1 V1). lia.
Qed.

(** least significant digit first *)
Fixpoint lval (b : Z) (l : list Z) : Z := match l with [] => 0 | d :: t => d + b * lval b t end.

Lemma lval_rev b l : numeral_value b (rev l) = lval b l.
Proof.
  induction l as [|d l IH]; [reflexivity|]. cbn [rev lval]. rewrite numeral_value_app, IH. cbn [length].
  rewrite numeral_value_cons. cbn [length]. unfold numeral_value. cbn. change (Z.pow_pos b 1) with (b * 1). lia.
Qed.

Lemma lval_zero b l : Forall (fun d => d = 0) l -> lval b l = 0.
Proof. intros F. induction F as [|x l -> F IH]; [reflexivity|]. cbn [lval]. rewrite IH. lia. Qed.

Lemma lval_firstn b n l : Forall (fun d => d = 0) (skipn n l) -> lval b (firstn n l) = lval b l.
Proof.
  revert l. induction n as [|n IH]; intros l F.
  - rewrite (lval_zero b l F). reflexivity.
  - destruct l as [|d l]; [reflexivity|]. cbn [firstn lval]. cbn [skipn] in F. rewrite IH by exact F. reflexivity.
Qed.

(* ---- the carry loop ---- *)
Lemma carry_loop_spec mul base : 1 < base -> 0 <= mul -> forall b carry i len c' i' b',
  0 <= carry -> digits base b -> Forall (fun d => d = 0) (skipn (len - i) b) ->
  carry_loop mul base carry i len b = (c', i', b') ->
  lval base b' + c' * base ^ Z.of_nat (length b) = carry + mul * lval base b /\
  length b' = length b /\ digits base b' /\ 0 <= c' /\ (i <= i')%nat /\ (i' <= i + length b)%nat /\
  Forall (fun d => d = 0) (skipn (i' - i) b').
Proof.
  intros Hb Hm. induction b as [|d b IH]; intros carry i len c' i' b' Hc Hd Hz H; cbn [carry_loop] in H.
  - injection H as <- <- <-. cbn [lval length]. repeat split; try lia; [constructor|].
    rewrite skipn_nil. constructor.
  - inversion Hd as [|? ? Hd0 Hd']; subst.
    destruct (negb (carry =? 0) || (i <? len)%nat) eqn:E.
    + destruct (carry_loop mul base ((carry + mul * d) / base) (S i) len b) as [[c1 i1] b1] eqn:E1.
      injection H as <- <- <-.
      assert (Hc1 : 0 <= (carry + mul * d) / base) by (apply Z.div_pos; nia).
      assert (Hz1 : Forall (fun d => d = 0) (skipn (len - S i) b)).
      { destruct (len - i)%nat as [|k] eqn:Ek.
        - replace (len - S i)%nat with 0%nat by lia. inversion Hz; assumption.
        - replace (len - S i)%nat with k by lia. exact Hz. }
      destruct (IH _ _ _ _ _ _ Hc1 Hd' Hz1 E1) as (V & L & D & C & I1 & I2 & Z1).
      cbn [lval length]. rewrite L, Nat2Z.inj_succ, Z.pow_succ_r by lia.
      pose proof (Z.div_mod (carry + mul * d) base ltac:(lia)).
      pose proof (Z.mod_pos_bound (carry + mul * d) base ltac:(lia)).
      split.
      { transitivity ((carry + mul * d) mod base + base * (lval base b1 + c1 * base ^ Z.of_nat (length b))); [ring|].
        rewrite V. lia. }
      repeat split; try lia.
      * constructor; assumption.
      * replace (i1 - i)%nat with (S (i1 - S i)) by lia. exact Z1.
    + injection H as <- <- <-. apply orb_false_iff in E. destruct E as [E1 E2].
      assert (carry = 0) by lia. subst carry. replace (len - i)%nat with 0%nat in Hz by lia. cbn [skipn] in Hz.
      assert (Hz' : lval base (d :: b) = 0) by (apply lval_zero; exact Hz). rewrite Hz'.
      repeat split; try lia; [exact Hd|]. rewrite Nat.sub_diag. exact Hz.
Qed.

(** One step: multiply the scratch value by [mul] and add [carry], if that fits. *)
Lemma carry_step mul base : 1 < base -> 0 <= mul -> forall b carry len,
  0 <= carry -> digits base b -> Forall (fun d => d = 0) (skipn len b) ->
  carry + mul * lval base b < base ^ Z.of_nat (length b) ->
  exists i' b', carry_loop mul base carry 0 len b = (0, i', b') /\
    lval base b' = carry + mul * lval base b /\ length b' = length b /\ digits base b' /\
    (i' <= length b)%nat /\ Forall (fun d => d = 0) (skipn i' b').
Proof.
  intros Hb Hm b carry len Hc Hd Hz Hlt.
  destruct (carry_loop mul base carry 0 len b) as [[c' i'] b'] eqn:E.
  destruct (carry_loop_spec mul base Hb Hm b carry 0 len c' i' b') as (V & L & D & C & I1 & I2 & Z1); try assumption.
  { rewrite Nat.sub_0_r. exact Hz. }
  rewrite Nat.sub_0_r in Z1.
  assert (0 <= lval base b').
  { rewrite <- lval_rev. apply numeral_bound; [lia|]. apply Forall_rev. exact D. }
  assert (c' = 0) by nia. subst c'. exists i', b'. repeat split; try assumption; lia.
Qed.

Lemma skip_zeroes_spec l : let '(z, r) := skip_zeroes l in l = repeat 0 z ++ r /\ forall t, r <> 0 :: t.
Proof.
  induction l as [|x l IH]; [split; [reflexivity|discriminate]|]. cbn [skip_zeroes].
  destruct (Z.eqb_spec x 0) as [->|Hx].
  - destruct (skip_zeroes l) as [z r]. destruct IH as [-> H]. split; [reflexivity|exact H].
  - split; [reflexivity|]. intros t E. congruence.
Qed.

Lemma result_digits_spec base len b : 1 < base -> digits base b -> Forall (fun d => d = 0) (skipn len b) ->
  is_numeral base (lval base b) (result_digits len b).
Proof.
  intros Hb Hd Hz. unfold result_digits. pose proof (skip_zeroes_spec (rev (firstn len b))) as S.
  destruct (skip_zeroes (rev (firstn len b))) as [z r]. destruct S as [E H]. cbn [snd].
  split; [|split; [|exact H]].
  - assert (F : digits base (rev (firstn len b))).
    { apply Forall_rev. rewrite <- (firstn_skipn len b) in Hd. apply Forall_app in Hd. tauto. }
    rewrite E in F. apply Forall_app in F. tauto.
  - rewrite <- (numeral_zeros base z), <- E, lval_rev, lval_firstn by exact Hz. reflexivity.
Qed.

(* ---- powers ---- *)
Lemma pow_lt_root a b k : 0 <= a -> 0 <= b -> (0 < k)%nat -> a ^ Z.of_nat k <= b ^ Z.of_nat k -> a <= b.
Proof.
  intros Ha Hb Hk H. destruct (Z.le_gt_cases a b) as [|Hlt]; [assumption|exfalso].
  pose proof (Z.pow_lt_mono_l b a (Z.of_nat k) ltac:(lia) ltac:(lia)). lia.
Qed.

Lemma enough_gen a b p q n s : 1 < a -> 1 < b -> (0 < q)%nat ->
  a ^ Z.of_nat q <= b ^ Z.of_nat p -> (n * p <= s * q)%nat -> a ^ Z.of_nat n <= b ^ Z.of_nat s.
Proof.
  intros Ha Hb Hq Hpq Hn. apply pow_lt_root with q; try lia.
  rewrite <- !Z.pow_mul_r by lia.
  replace (Z.of_nat n * Z.of_nat q) with (Z.of_nat q * Z.of_nat n) by lia. rewrite Z.pow_mul_r by lia.
  transitivity ((b ^ Z.of_nat p) ^ Z.of_nat n).
  - apply Z.pow_le_mono_l. split; [|exact Hpq]. lia.
  - rewrite <- Z.pow_mul_r by lia. apply Z.pow_le_mono_r; [lia|]. nia.
Qed.

Lemma enough58 n : 256 ^ Z.of_nat n <= 58 ^ Z.of_nat (n * 138 / 100 + 1).
Proof.
  apply enough_gen with 138%nat 100%nat; try lia.
Qed.

Lemma enough256 n : 58 ^ Z.of_nat n <= 256 ^ Z.of_nat (n * 733 / 1000 + 1).
Proof.
  apply enough_gen with 733%nat 1000%nat; try lia.
Qed.

(* ---- encoding ---- *)
Lemma to_loop_spec buf : bytes buf -> forall len b acc, digits 58 b -> Forall (fun d => d = 0) (skipn len b) ->
  (len <= length b)%nat -> lval 58 b = acc -> 0 <= acc ->
  acc * 256 ^ Z.of_nat (length buf) + numeral_value 256 buf < 58 ^ Z.of_nat (length b) ->
  exists len' b', to_base58_loop buf len b = Ok (len', b') /\ digits 58 b' /\
    Forall (fun d => d = 0) (skipn len' b') /\ (len' <= length b)%nat /\ length b' = length b /\
    lval 58 b' = acc * 256 ^ Z.of_nat (length buf) + numeral_value 256 buf.
Proof.
  intros Hb. induction Hb as [|x buf Hx Hb IH]; intros len b acc Hd Hz Hl Hv Ha Hlt.
  - exists len, b. cbn [to_base58_loop length] in *. repeat split; try assumption.
    unfold numeral_value. cbn. lia.
  - cbn [to_base58_loop length] in *. rewrite numeral_value_cons in *.
    rewrite Nat2Z.inj_succ, Z.pow_succ_r in * by lia.
    assert (0 < 256 ^ Z.of_nat (length buf)) by lia.
    pose proof (numeral_bound 256 buf ltac:(lia) Hb). unfold is_byte in Hx.
    destruct (carry_step 256 58 ltac:(lia) ltac:(lia) b x len ltac:(lia) Hd Hz) as (i' & b' & E & V & L & D & I & Z').
    { subst acc. nia. }
    rewrite E. cbn [Z.eqb c_assert bind].
    destruct (IH i' b' (acc * 256 + x)) as (len' & b'' & E' & D' & Z'' & I' & L' & V'); try assumption; try lia.
    + rewrite L. nia.
    + exists len', b''. split; [exact E'|]. repeat split; try assumption; try lia.
Qed.

Lemma enc_digit d : 0 <= d < 58 -> tget BASE58_ENCODE d = b58_char d.
Proof.
  intros Hd. apply Z.eqb_eq. refine (sweep1 58 (fun d => tget BASE58_ENCODE d =? b58_char d) _ d Hd).
  vm_compute. reflexivity.
Qed.

Lemma map_enc_digit ds : digits 58 ds -> map (tget BASE58_ENCODE) ds = map b58_char ds.
Proof. intros F. apply map_ext_in. intros d Hd. apply enc_digit. exact (proj1 (Forall_forall _ _) F d Hd). Qed.

Lemma to_base58_spec buf : bytes buf -> Z.of_nat (length buf * 138 / 100 + 1) <= INT_MAX ->
  exists text, to_base58 buf = Ok (length text, text) /\ is_base58 buf text /\
    (length text <= to_base58_length (length buf))%nat.
Proof.
  intros Hb Hs. unfold to_base58. pose proof (skip_zeroes_spec buf) as S.
  destruct (skip_zeroes buf) as [z rest]. destruct S as [E Hr].
  assert (Hbr : bytes rest) by (rewrite E in Hb; apply bytes_app in Hb; tauto).
  assert (Hlen : length buf = (z + length rest)%nat) by (rewrite E, app_length, repeat_length; reflexivity).
  set (size := (length rest * 138 / 100 + 1)%nat).
  assert (Hsz : (size <= length buf * 138 / 100 + 1)%nat).
  { unfold size. apply Nat.add_le_mono_r, Nat.div_le_mono; lia. }
  replace (Z.of_nat size <=? INT_MAX) with true by (symmetry; apply Z.leb_le; lia). cbn [c_defined bind].
  destruct (to_loop_spec rest Hbr 0 (repeat 0 size) 0) as (len & b & El & Hd & Hz & Hl & Hlb & Hv).
  - apply Forall_forall. intros d Hd. apply repeat_spec in Hd. lia.
  - apply Forall_forall. intros d Hd. apply repeat_spec in Hd. lia.
  - lia.
  - apply lval_zero. apply Forall_forall. intros d Hd. apply repeat_spec in Hd. exact Hd.
  - lia.
  - rewrite repeat_length. pose proof (enough58 (length rest)) as H. fold size in H.
    pose proof (numeral_bound 256 rest ltac:(lia) Hbr). lia.
  - rewrite El. cbn [bind]. pose proof (result_digits_spec 58 len b ltac:(lia) Hd Hz) as Hn.
    rewrite Hv in Hn. replace (0 * _ + _) with (numeral_value 256 rest) in Hn by lia.
    rewrite map_enc_digit by apply Hn.
    eexists. split; [reflexivity|]. split.
    + exists z, rest, (result_digits len b). repeat split; try assumption; apply Hn.
    + rewrite app_length, repeat_length, map_length.
      assert ((length (result_digits len b) <= size)%nat).
      { rewrite <- (repeat_length 0 size), <- Hlb.
        rewrite <- (firstn_skipn len b) at 2. rewrite app_length. unfold result_digits.
        pose proof (skip_zeroes_spec (rev (firstn len b))) as S. destruct (skip_zeroes _) as [z' r'].
        destruct S as [E' _]. cbn [snd]. apply (f_equal (@length Z)) in E'.
        rewrite rev_length, app_length in E'. lia. }
      unfold to_base58_length. rewrite Hlen.
      assert (z + length rest * 138 / 100 <= (z + length rest) * 138 / 100)%nat.
      { replace (z + length rest * 138 / 100)%nat with ((z * 100 + length rest * 138) / 100)%nat
          by (rewrite Nat.div_add_l by lia; reflexivity). apply Nat.div_le_mono; lia. }
      unfold size in *. lia.
Qed.

(* ---- decoding ---- *)
Definition is_ascii (c : Z) : Prop := 0 < c < 128.
Definition b58ok (c : Z) : bool := existsb (Z.eqb c) b58_alphabet.
Definition spaceb (c : Z) : bool := (c =? 32) || ((9 <=? c) && (c <=? 13)).

Lemma spaceb_spec c : spaceb c = true <-> is_space c.
Proof. unfold spaceb, is_space. lia. Qed.

Lemma b58ok_spec c : b58ok c = true <-> In c b58_alphabet.
Proof.
  unfold b58ok. rewrite existsb_exists. split.
  - intros (x & Hx & E). apply Z.eqb_eq in E. subst. exact Hx.
  - intros H. exists c. split; [exact H|apply Z.eqb_refl].
Qed.

Lemma dec_digit d : 0 <= d < 58 -> tget BASE58_DECODE (b58_char d) = d /\ is_ascii (b58_char d) /\
  spaceb (b58_char d) = false /\ b58ok (b58_char d) = true /\ (b58_char d = 49 <-> d = 0).
Proof.
  intros Hd. assert (G : (tget BASE58_DECODE (b58_char d) =? d) && ((0 <? b58_char d) && (b58_char d <? 128)) && negb (spaceb (b58_char d))
    && b58ok (b58_char d) && Bool.eqb (b58_char d =? 49) (d =? 0) = true).
  { refine (sweep1 58 (fun d => (tget BASE58_DECODE (b58_char d) =? d) && ((0 <? b58_char d) && (b58_char d <? 128)) && negb (spaceb (b58_char d))
    && b58ok (b58_char d) && Bool.eqb (b58_char d =? 49) (d =? 0)) _ d Hd). vm_compute. reflexivity. }
  apply andb_true_iff in G. destruct G as [G G5]. apply andb_true_iff in G. destruct G as [G G4].
  apply andb_true_iff in G. destruct G as [G G3]. apply andb_true_iff in G. destruct G as [G1 G2].
  unfold is_ascii. apply eqb_prop in G5. repeat split; lia.
Qed.

Lemma dec_bad c : 0 <= c < 256 -> (tget BASE58_DECODE c =? -1) = negb (b58ok c).
Proof.
  intros Hc. apply eqb_prop. refine (sweep1 256 (fun c => Bool.eqb (tget BASE58_DECODE c =? -1) (negb (b58ok c))) _ c Hc).
  vm_compute. reflexivity.
Qed.

Lemma b58ok_char c : b58ok c = true -> exists d, 0 <= d < 58 /\ c = b58_char d.
Proof.
  intros H. apply b58ok_spec in H. apply (In_nth _ _ (-1)) in H. destruct H as (n & Hn & E).
  exists (Z.of_nat n). change (length b58_alphabet) with 58%nat in Hn. split; [lia|].
  unfold b58_char. rewrite Nat2Z.id. auto.
Qed.

Lemma b58ok_chars l : Forall (fun c => b58ok c = true) l -> exists ds, digits 58 ds /\ l = map b58_char ds.
Proof.
  induction 1 as [|c l Hc F IH].
  - exists []. split; [constructor|reflexivity].
  - destruct IH as (ds & Hd & ->). destruct (b58ok_char c Hc) as (d & H & ->). exists (d :: ds).
    split; [constructor; assumption|reflexivity].
Qed.

Lemma isspace_ascii c : is_ascii c \/ c = 0 -> isspace c = Ok (spaceb c).
Proof. intros H. unfold isspace, as_char, spaceb. destruct (Z.ltb_spec c 128); [|unfold is_ascii in H; lia].
  destruct (Z.ltb_spec c 0); [unfold is_ascii in H; lia|reflexivity]. Qed.

Definition head_not (p : Z -> bool) (l : list Z) : Prop := match l with [] => True | x :: _ => p x = false end.

Lemma decompose (p : Z -> bool) l : exists a r, l = a ++ r /\ Forall (fun x => p x = true) a /\ head_not p r.
Proof.
  induction l as [|x l IH].
  - exists [], []. repeat split. constructor.
  - destruct (p x) eqn:E.
    + destruct IH as (a & r & -> & F & H). exists (x :: a), r. repeat split; [constructor; assumption|exact H].
    + exists [], (x :: l). repeat split; [constructor|exact E].
Qed.

Lemma decompose_unique (p : Z -> bool) a1 r1 a2 r2 : a1 ++ r1 = a2 ++ r2 ->
  Forall (fun x => p x = true) a1 -> Forall (fun x => p x = true) a2 -> head_not p r1 -> head_not p r2 ->
  a1 = a2 /\ r1 = r2.
Proof.
  intros E F1. revert a2 E. induction F1 as [|x a1 Hx F IH]; intros a2 E F2 H1 H2.
  - destruct a2 as [|y a2]; [split; [reflexivity|exact E]|]. cbn in E. subst r1. inversion F2; subst. cbn in H1. congruence.
  - destruct a2 as [|y a2].
    + cbn in E. subst r2. cbn in H2. congruence.
    + cbn in E. injection E as -> E. inversion F2; subst. destruct (IH a2 E ltac:(assumption) H1 H2). subst. split; reflexivity.
Qed.

Lemma skip_lead s1 r rest : Forall (fun c => spaceb c = true) s1 -> head_not spaceb r -> Forall is_ascii (s1 ++ r) ->
  skip_leading_spaces (s1 ++ r ++ 0 :: rest) = Ok (length s1, r ++ 0 :: rest).
Proof.
  intros F H A. induction F as [|c s1 Hc F IH].
  - cbn [app length] in *. destruct r as [|c r]; [reflexivity|]. cbn [app skip_leading_spaces] in *.
    inversion A as [|? ? Ac A']; subst. rewrite isspace_ascii by (left; exact Ac). cbn in H. rewrite H. cbn [bind].
    destruct (Z.eqb_spec c 0); [unfold is_ascii in Ac; lia|reflexivity].
  - cbn [app] in A. inversion A as [|? ? Ac A']; subst. cbn [app skip_leading_spaces length].
    destruct (Z.eqb_spec c 0); [unfold is_ascii in Ac; lia|].
    rewrite isspace_ascii by (left; exact Ac). rewrite Hc. cbn [bind]. rewrite IH by exact A'. reflexivity.
Qed.

Lemma skip_ones_spec z r rest : head_not (Z.eqb 49) r -> skip_ones (repeat 49 z ++ r ++ 0 :: rest) = Ok (z, r ++ 0 :: rest).
Proof.
  intros H. induction z as [|z IH].
  - cbn [repeat app]. destruct r as [|c r]; [reflexivity|]. cbn [app skip_ones]. cbn [head_not] in H.
    rewrite Z.eqb_sym, H. reflexivity.
  - cbn [repeat app skip_ones]. rewrite Z.eqb_refl, IH. reflexivity.
Qed.

Lemma skip_trail s2 r rest : Forall (fun c => spaceb c = true) s2 -> head_not spaceb r -> Forall is_ascii (s2 ++ r) ->
  skip_trailing_spaces (s2 ++ r ++ 0 :: rest) = Ok (r ++ 0 :: rest).
Proof.
  intros F H A. induction F as [|c s2 Hc F IH].
  - cbn [app] in *. destruct r as [|c r]; [reflexivity|]. cbn [app skip_trailing_spaces] in *.
    inversion A as [|? ? Ac A']; subst. rewrite isspace_ascii by (left; exact Ac). cbn in H. rewrite H. reflexivity.
  - cbn [app] in A. inversion A as [|? ? Ac A']; subst. cbn [app skip_trailing_spaces].
    rewrite isspace_ascii by (left; exact Ac). rewrite Hc. cbn [bind]. apply IH. exact A'.
Qed.

Lemma from_loop_spec ds : digits 58 ds -> forall len b acc tail, digits 256 b -> Forall (fun d => d = 0) (skipn len b) ->
  (len <= length b)%nat -> lval 256 b = acc -> 0 <= acc ->
  acc * 58 ^ Z.of_nat (length ds) + numeral_value 58 ds < 256 ^ Z.of_nat (length b) ->
  exists len' b', from_base58_loop (map b58_char ds ++ tail) len b = from_base58_loop tail len' b' /\ digits 256 b' /\
    Forall (fun d => d = 0) (skipn len' b') /\ (len' <= length b)%nat /\ length b' = length b /\
    lval 256 b' = acc * 58 ^ Z.of_nat (length ds) + numeral_value 58 ds.
Proof.
  intros Hb. induction Hb as [|x ds Hx Hb IH]; intros len b acc tail Hd Hz Hl Hv Ha Hlt.
  - exists len, b. cbn [map app length] in *. repeat split; try assumption.
    unfold numeral_value. cbn. lia.
  - cbn [map app from_base58_loop length] in *. rewrite numeral_value_cons in *.
    rewrite Nat2Z.inj_succ, Z.pow_succ_r in * by lia.
    destruct (dec_digit x Hx) as (D1 & D2 & D3 & D4 & _).
    destruct (Z.eqb_spec (b58_char x) 0) as [E0|_]; [unfold is_ascii in D2; lia|].
    rewrite isspace_ascii by (left; exact D2). rewrite D3. cbn [bind]. rewrite D1.
    destruct (Z.eqb_spec x (-1)); [lia|].
    assert (0 < 58 ^ Z.of_nat (length ds)) by lia.
    pose proof (numeral_bound 58 ds ltac:(lia) Hb).
    destruct (carry_step 58 256 ltac:(lia) ltac:(lia) b x len ltac:(lia) Hd Hz) as (i' & b' & E & V & L & D & I & Z').
    { subst acc. nia. }
    rewrite E. cbn [Z.eqb c_assert bind].
    destruct (IH i' b' (acc * 58 + x) tail) as (len' & b'' & E' & D' & Z'' & I' & L' & V'); try assumption; try lia.
    + rewrite L. nia.
    + exists len', b''. split; [exact E'|]. repeat split; try assumption; try lia.
Qed.

Lemma to_int_small x : - 2 ^ 31 <= x < 2 ^ 31 -> to_int x = x.
Proof. intros H. unfold to_int. rewrite Z.mod_small by lia. lia. Qed.

Lemma from_base58_dec s1 z ds r3 rest :
  let text := s1 ++ repeat 49 z ++ map b58_char ds ++ r3 in
  Forall (fun c => spaceb c = true) s1 -> digits 58 ds -> head_not (Z.eqb 0) ds -> head_not b58ok r3 ->
  Forall is_ascii text -> head_not spaceb (repeat 49 z ++ map b58_char ds ++ r3) ->
  Z.of_nat (length text) * 733 <= INT_MAX ->
  exists ob, is_numeral 256 (numeral_value 58 ds) ob /\ (length ob <= length ds * 733 / 1000 + 1)%nat /\
  from_base58 (text ++ 0 :: rest) (length text) =
    if forallb spaceb r3 then Ok (length (repeat 0 z ++ ob), repeat 0 z ++ ob) else Ok (O, []).
Proof.
  intros text F1 Hd Hh Hr3 A Hsp Hlen.
  set (r2 := map b58_char ds ++ r3) in *.
  assert (Hh49 : head_not (Z.eqb 49) r2).
  { unfold r2. destruct ds as [|d ds].
    - cbn [map app]. destruct r3 as [|c r3]; [exact I|]. cbn [head_not] in *. destruct (Z.eqb_spec 49 c); [subst; discriminate Hr3|reflexivity].
    - cbn [head_not map app] in *. inversion Hd; subst. destruct (dec_digit d) as (_ & _ & _ & _ & G); [assumption|]. lia. }
  assert (Hl : length text = (length s1 + z + length r2)%nat).
  { unfold text. rewrite !app_length, repeat_length. lia. }
  unfold from_base58. unfold text at 1. rewrite <- !app_assoc.
  replace (s1 ++ repeat 49 z ++ r2 ++ 0 :: rest) with (s1 ++ (repeat 49 z ++ r2) ++ 0 :: rest) by (rewrite <- app_assoc; reflexivity).
  rewrite skip_lead by assumption. cbn [bind]. rewrite <- app_assoc, skip_ones_spec by exact Hh49. cbn [bind].
  replace (Z.of_nat (length text) - Z.of_nat (length s1) - Z.of_nat z) with (Z.of_nat (length r2)) by lia.
  assert (HI : INT_MAX = 2147483647) by reflexivity.
  rewrite to_int_small by lia.
  replace ((- 2 ^ 31 <=? Z.of_nat (length r2) * 733) && (Z.of_nat (length r2) * 733 <=? INT_MAX)) with true by (symmetry; lia).
  cbn [c_defined bind]. rewrite Z.quot_div_nonneg by lia.
  replace (0 <=? Z.of_nat (length r2) * 733 / 1000 + 1) with true by (symmetry; dlia). cbn [c_defined bind].
  replace (Z.to_nat (Z.of_nat (length r2) * 733 / 1000 + 1)) with (length r2 * 733 / 1000 + 1)%nat by dlia.
  set (size := (length r2 * 733 / 1000 + 1)%nat).
  assert (Hfit : 58 ^ Z.of_nat (length ds) <= 256 ^ Z.of_nat size).
  { etransitivity; [apply enough256|]. apply Z.pow_le_mono_r; [lia|]. apply inj_le. unfold size, r2.
    rewrite app_length, map_length. apply Nat.add_le_mono_r, Nat.div_le_mono; lia. }
  unfold r2. rewrite <- app_assoc.
  destruct (from_loop_spec ds Hd 0 (repeat 0 size) 0 (r3 ++ 0 :: rest)) as (len & b & E & D & Z0 & Hle & Hlb & V).
  - apply Forall_forall. intros d Hd'. apply repeat_spec in Hd'. lia.
  - apply Forall_forall. intros d Hd'. apply repeat_spec in Hd'. lia.
  - lia.
  - apply lval_zero, Forall_forall. intros d Hd'. apply repeat_spec in Hd'. exact Hd'.
  - lia.
  - rewrite repeat_length. pose proof (numeral_bound 58 ds ltac:(lia) Hd). lia.
  - rewrite E. pose proof (result_digits_spec 256 len b ltac:(lia) D Z0) as N.
    rewrite V in N. replace (0 * _ + _) with (numeral_value 58 ds) in N by lia.
    exists (result_digits len b). split; [exact N|]. split.
    { destruct (Nat.lt_ge_cases (length ds * 733 / 1000 + 1) (length (result_digits len b))) as [Hlt|]; [exfalso|assumption].
      destruct (result_digits len b) as [|x od] eqn:Eo; [cbn in Hlt; lia|].
      destruct N as (NF & NV & NL). assert (x <> 0) by (intros ->; exact (NL _ eq_refl)).
      pose proof (numeral_nonzero 256 x od ltac:(lia) NF ltac:(assumption)) as Hge. rewrite NV in Hge.
      pose proof (numeral_bound 58 ds ltac:(lia) Hd). pose proof (enough256 (length ds)).
      cbn [length] in Hlt.
      assert (256 ^ Z.of_nat (length ds * 733 / 1000 + 1) <= 256 ^ Z.of_nat (length od)) by (apply Z.pow_le_mono_r; lia). lia. }
    assert (A3 : Forall is_ascii r3).
    { unfold text, r2 in A. rewrite !Forall_app in A. tauto. }
    destruct (decompose spaceb r3) as (s2 & r4 & E3 & F2 & Hr4).
    destruct s2 as [|y s2].
    + cbn [app] in E3. subst r4. destruct r3 as [|c r3].
      * cbn [app from_base58_loop Z.eqb bind skip_trailing_spaces isspace as_char]. reflexivity.
      * cbn [head_not] in Hr4, Hr3. cbn [app from_base58_loop forallb]. inversion A3 as [|? ? Ac A3']; subst.
        rewrite Hr4. cbn [andb]. rewrite isspace_ascii by (left; exact Ac). rewrite Hr4. cbn [bind].
        destruct (Z.eqb_spec c 0); [unfold is_ascii in Ac; lia|].
        rewrite dec_bad by (unfold is_ascii in Ac; lia). rewrite Hr3. reflexivity.
    + subst r3. cbn [app] in *. inversion A3 as [|? ? Ay A3']; subst. inversion F2 as [|? ? Hy F2']; subst.
      cbn [from_base58_loop]. destruct (Z.eqb_spec y 0); [unfold is_ascii in Ay; lia|].
      rewrite isspace_ascii by (left; exact Ay). rewrite Hy. cbn [bind].
      rewrite <- app_assoc, !app_comm_cons, skip_trail by (assumption || (constructor; assumption)). cbn [bind].
      cbn [app forallb]. rewrite Hy. cbn [andb]. rewrite forallb_app.
      replace (forallb spaceb s2) with true by (symmetry; apply forallb_forall; intros x Hx; exact (proj1 (Forall_forall _ _) F2' x Hx)).
      cbn [andb]. destruct r4 as [|c r4].
      * cbn. reflexivity.
      * cbn [head_not] in Hr4. cbn [forallb app rd nth_error bind]. rewrite Hr4. cbn [andb].
        apply Forall_app in A3'. destruct A3' as [_ A4]. inversion A4 as [|? ? Ac A4']; subst.
        destruct (Z.eqb_spec c 0); [unfold is_ascii in Ac; lia|reflexivity].
Qed.

(* ---- putting it together ---- *)
Lemma repeat_map_zero z : map b58_char (repeat 0 z) = repeat 49 z.
Proof. induction z as [|z IH]; [reflexivity|]. cbn [repeat map]. rewrite IH. reflexivity. Qed.

Lemma all_eq_repeat l : Forall (fun x => (0 =? x) = true) l -> l = repeat 0 (length l).
Proof. induction 1 as [|x l Hx F IH]; [reflexivity|]. cbn [length repeat]. rewrite <- IH. f_equal. lia. Qed.

Lemma alphabet_split body : Forall (fun c => b58ok c = true) body ->
  exists z ds, body = repeat 49 z ++ map b58_char ds /\ digits 58 ds /\ head_not (Z.eqb 0) ds.
Proof.
  intros F. destruct (b58ok_chars body F) as (ds & Hd & ->).
  destruct (decompose (Z.eqb 0) ds) as (a & r & -> & Fa & Hr). exists (length a), r.
  apply Forall_app in Hd. split; [|split; [tauto|exact Hr]].
  rewrite map_app. rewrite (all_eq_repeat a Fa) at 1. rewrite repeat_map_zero. reflexivity.
Qed.

Lemma b58_char_ok d : 0 <= d < 58 -> b58ok (b58_char d) = true /\ spaceb (b58_char d) = false.
Proof. intros H. destruct (dec_digit d H) as (_ & _ & ? & ? & _). auto. Qed.

Lemma ok_not_space c : b58ok c = true -> spaceb c = false.
Proof. intros H. destruct (b58ok_char c H) as (d & Hd & ->). apply b58_char_ok, Hd. Qed.

Lemma parse text : exists s1 body r3, text = s1 ++ body ++ r3 /\ Forall (fun c => spaceb c = true) s1 /\
  Forall (fun c => b58ok c = true) body /\ head_not b58ok r3 /\ head_not spaceb (body ++ r3).
Proof.
  destruct (decompose spaceb text) as (s1 & r1 & -> & F1 & H1).
  destruct (decompose b58ok r1) as (body & r3 & -> & F2 & H2).
  exists s1, body, r3. repeat split; assumption.
Qed.

Lemma trims_unique text s1 body r3 b' : text = s1 ++ body ++ r3 -> Forall (fun c => spaceb c = true) s1 ->
  Forall (fun c => b58ok c = true) body -> head_not b58ok r3 -> head_not spaceb (body ++ r3) ->
  trims_to text b' -> Forall (fun c => In c b58_alphabet) b' ->
  b' = body /\ forallb spaceb r3 = true.
Proof.
  intros E F1 Fb H3 H1 (t1 & t2 & E' & G1 & G2) Gb.
  assert (G1' : Forall (fun c => spaceb c = true) t1) by (eapply Forall_impl; [|exact G1]; intros; apply spaceb_spec; assumption).
  assert (G2' : forallb spaceb t2 = true) by (apply forallb_forall; intros x Hx; apply spaceb_spec; exact (proj1 (Forall_forall _ _) G2 x Hx)).
  assert (Gb' : Forall (fun c => b58ok c = true) b') by (eapply Forall_impl; [|exact Gb]; intros; apply b58ok_spec; assumption).
  rewrite E in E'. destruct b' as [|c b'].
  - cbn [app] in E'.
    assert (A : Forall (fun c => spaceb c = true) (s1 ++ body ++ r3)).
    { rewrite E'. apply Forall_app. split; [exact G1'|]. apply Forall_forall. intros x Hx. rewrite forallb_forall in G2'. auto. }
    apply Forall_app in A. destruct A as [_ A].
    destruct body as [|x body].
    + split; [reflexivity|]. apply forallb_forall. intros x Hx. exact (proj1 (Forall_forall _ _) A x Hx).
    + inversion A; subst. inversion Fb; subst. cbn in H1. congruence.
  - destruct (decompose_unique spaceb s1 (body ++ r3) t1 ((c :: b') ++ t2)) as [-> E2]; try assumption.
    { cbn. inversion Gb'; subst. apply ok_not_space. assumption. }
    destruct (decompose_unique b58ok body r3 (c :: b') t2) as [-> ->]; try assumption.
    { destruct t2 as [|y t2]; [exact I|]. cbn [head_not]. cbn [forallb] in G2'. apply andb_true_iff in G2'. destruct G2' as [G2' _].
      destruct (b58ok y) eqn:Ey; [apply ok_not_space in Ey; congruence|reflexivity]. }
    split; [reflexivity|exact G2'].
Qed.

Lemma from_base58_cases text rest : Forall is_ascii text -> Z.of_nat (length text) * 733 <= INT_MAX ->
  (exists body out, trims_to text body /\ Forall (fun c => In c b58_alphabet) body /\ is_base58 out body /\ bytes out /\
     (length out <= length text)%nat /\
     (exists z m, (z + m = length body)%nat /\ (body = repeat 49 z ++ skipn z body) /\ (forall t, skipn z body <> 49 :: t) /\
         (length out <= z + m * 733 / 1000 + 1)%nat) /\
     from_base58 (text ++ 0 :: rest) (length text) = Ok (length out, out)) \/
  ((~ exists body, trims_to text body /\ Forall (fun c => In c b58_alphabet) body) /\
     from_base58 (text ++ 0 :: rest) (length text) = Ok (O, [])).
Proof.
  intros A Hl. destruct (parse text) as (s1 & body & r3 & E & F1 & Fb & H3 & H1).
  destruct (alphabet_split body Fb) as (z & ds & Eb & Hd & Hh).
  destruct (from_base58_dec s1 z ds r3 rest F1 Hd Hh H3) as (ob & N & Hob & R).
  { rewrite (app_assoc (repeat 49 z)), <- Eb, <- E. exact A. }
  { rewrite app_assoc, <- Eb. exact H1. }
  { rewrite (app_assoc (repeat 49 z)), <- Eb, <- E. exact Hl. }
  rewrite (app_assoc (repeat 49 z)), <- Eb, <- E in R.
  assert (Lb : length body = (z + length ds)%nat) by (rewrite Eb, app_length, repeat_length, map_length; reflexivity).
  assert (Lt : length text = (length s1 + length body + length r3)%nat) by (rewrite E, !app_length; lia).
  destruct (forallb spaceb r3) eqn:Es.
  - left. exists body, (repeat 0 z ++ ob). split.
    { exists s1, r3. split; [exact E|]. split.
      - eapply Forall_impl; [|exact F1]. intros; apply spaceb_spec; assumption.
      - apply Forall_forall. intros x Hx. apply spaceb_spec. rewrite forallb_forall in Es. auto. }
    split; [eapply Forall_impl; [|exact Fb]; intros; apply b58ok_spec; assumption|].
    assert (Hn58 : is_numeral 58 (numeral_value 256 ob) ds).
    { split; [exact Hd|]. split; [symmetry; apply N|]. intros t Et. subst ds. cbn in Hh. discriminate. }
    split; [|split; [|split; [|split]]].
    + exists z, ob, ds. split; [reflexivity|]. split; [apply N|]. split; assumption.
    + apply Forall_app. split; [|apply N]. apply Forall_forall. intros x Hx. apply repeat_spec in Hx. subst. unfold is_byte. lia.
    + rewrite app_length, repeat_length.
      destruct (Nat.eq_dec (length ds) 0) as [E0|Hn0].
      * destruct ds; [|discriminate]. assert (ob = []) as ->; [|cbn; lia].
        apply (is_numeral_unique 256 0); [lia| |].
        -- exact N.
        -- split; [constructor|]. split; [reflexivity|discriminate].
      * assert (length ds * 733 / 1000 + 1 <= length ds)%nat; [|lia].
        assert (length ds * 733 / 1000 < length ds)%nat; [apply Nat.div_lt_upper_bound; lia|lia].
    + exists z, (length ds).
      assert (Esk : skipn z body = map b58_char ds).
      { rewrite Eb. rewrite <- (repeat_length 49 z) at 1. apply skipn_app_exact. }
      rewrite Esk. split; [lia|]. split; [exact Eb|]. split.
      * intros t Et. destruct ds as [|d ds]; [discriminate|]. cbn [map] in Et. injection Et as Et _.
        inversion Hd; subst. apply dec_digit in Et; [|assumption]. subst d. cbn in Hh. discriminate.
      * rewrite app_length, repeat_length. lia.
    + exact R.
  - right. split; [|exact R]. intros (b' & T & Ab).
    destruct (trims_unique text s1 body r3 b' E F1 Fb H3 H1 T Ab) as [_ C]. congruence.
Qed.

Lemma zeros_split (b : Z) z1 r1 z2 r2 : repeat b z1 ++ r1 = repeat b z2 ++ r2 ->
  (forall t, r1 <> b :: t) -> (forall t, r2 <> b :: t) -> z1 = z2 /\ r1 = r2.
Proof.
  intros E H1 H2. destruct (decompose_unique (Z.eqb b) (repeat b z1) r1 (repeat b z2) r2) as [Ez Er]; try assumption.
  - apply Forall_forall. intros x Hx. apply repeat_spec in Hx. subst. apply Z.eqb_refl.
  - apply Forall_forall. intros x Hx. apply repeat_spec in Hx. subst. apply Z.eqb_refl.
  - destruct r1 as [|x r1]; [exact I|]. cbn [head_not]. destruct (Z.eqb_spec b x); [subst; exfalso; exact (H1 _ eq_refl)|reflexivity].
  - destruct r2 as [|x r2]; [exact I|]. cbn [head_not]. destruct (Z.eqb_spec b x); [subst; exfalso; exact (H2 _ eq_refl)|reflexivity].
  - apply (f_equal (@length Z)) in Ez. rewrite !repeat_length in Ez. auto.
Qed.

Lemma map_char_inj d1 d2 : digits 58 d1 -> digits 58 d2 -> map b58_char d1 = map b58_char d2 -> d1 = d2.
Proof.
  intros F1. revert d2. induction F1 as [|x l Hx F IH]; intros d2 F2 E; destruct d2 as [|y d2]; try discriminate; [reflexivity|].
  inversion F2; subst. cbn [map] in E. injection E as E1 E2. f_equal; [|apply IH; assumption].
  destruct (dec_digit x Hx) as (G1 & _). destruct (dec_digit y) as (G2 & _); [assumption|]. congruence.
Qed.

Lemma no_one ds n : is_numeral 58 n ds -> forall t, map b58_char ds <> 49 :: t.
Proof.
  intros (F & _ & H) t E. destruct ds as [|d ds]; [discriminate|]. cbn [map] in E. injection E as E _.
  inversion F; subst. apply dec_digit in E; [|assumption]. subst. exact (H _ eq_refl).
Qed.

Lemma is_base58_fun buf t1 t2 : is_base58 buf t1 -> is_base58 buf t2 -> t1 = t2.
Proof.
  intros (z1 & r1 & d1 & E1 & H1 & N1 & ->) (z2 & r2 & d2 & E2 & H2 & N2 & ->).
  rewrite E1 in E2. destruct (zeros_split 0 _ _ _ _ E2 H1 H2) as [-> ->].
  rewrite (is_numeral_unique 58 _ _ _ ltac:(lia) N1 N2). reflexivity.
Qed.

Lemma is_base58_inj b1 b2 text : bytes b1 -> bytes b2 -> is_base58 b1 text -> is_base58 b2 text -> b1 = b2.
Proof.
  intros B1 B2 (z1 & r1 & d1 & -> & H1 & N1 & E1) (z2 & r2 & d2 & -> & H2 & N2 & E2).
  rewrite E1 in E2. destruct (zeros_split 49 _ _ _ _ E2 (no_one _ _ N1) (no_one _ _ N2)) as [-> Em].
  apply bytes_app in B1. apply bytes_app in B2.
  apply map_char_inj in Em; [|apply N1|apply N2]. subst d2. f_equal.
  apply (is_numeral_unique 256 (numeral_value 256 r1)); [lia| |].
  - split; [apply B1|]. split; [reflexivity|exact H1].
  - split; [apply B2|]. split; [|exact H2]. destruct N1 as (_ & V1 & _). destruct N2 as (_ & V2 & _). congruence.
Qed.

Lemma is_base58_alphabet buf text : is_base58 buf text -> Forall (fun c => In c b58_alphabet /\ is_ascii c) text.
Proof.
  intros (z & r & ds & _ & _ & (F & _) & ->). apply Forall_app. split.
  - apply Forall_forall. intros x Hx. apply repeat_spec in Hx. subst. split; [|unfold is_ascii; lia]. apply b58ok_spec. reflexivity.
  - apply Forall_map. eapply Forall_impl; [|exact F]. cbv beta. intros d Hd.
    destruct (dec_digit d Hd) as (_ & ? & _ & ? & _). split; [apply b58ok_spec|]; assumption.
Qed.

(** Nothing after the terminating NUL is looked at. *)
Lemma base58_no_overread text rest n : from_base58 (text ++ 0 :: rest) n = from_base58 (text ++ [0]) n.
Proof.
  assert (L : forall text, match skip_leading_spaces (text ++ [0]) with
     | Ok (k, m) => exists t, m = t ++ [0] /\ forall rest, skip_leading_spaces (text ++ 0 :: rest) = Ok (k, t ++ 0 :: rest)
     | x => forall rest, skip_leading_spaces (text ++ 0 :: rest) = x end).
  { clear. induction text as [|c text IH]; [exists []; split; reflexivity|]. cbn [app skip_leading_spaces].
    destruct (c =? 0); [exists (c :: text); split; reflexivity|]. destruct (isspace c) as [s| |]; cbn [bind]; try reflexivity.
    destruct s; [|exists (c :: text); split; reflexivity].
    destruct (skip_leading_spaces (text ++ [0])) as [[k m]| |]; cbn [bind].
    - destruct IH as (t & -> & IH). exists t. split; [reflexivity|]. intros rest. rewrite IH. reflexivity.
    - intros rest. rewrite IH. reflexivity.
    - intros rest. rewrite IH. reflexivity. }
  assert (O : forall text, match skip_ones (text ++ [0]) with
     | Ok (k, m) => exists t, m = t ++ [0] /\ forall rest, skip_ones (text ++ 0 :: rest) = Ok (k, t ++ 0 :: rest)
     | x => forall rest, skip_ones (text ++ 0 :: rest) = x end).
  { clear. induction text as [|c text IH]; [exists []; split; reflexivity|]. cbn [app skip_ones].
    destruct (c =? 49); [|exists (c :: text); split; reflexivity].
    destruct (skip_ones (text ++ [0])) as [[k m]| |]; cbn [bind].
    - destruct IH as (t & -> & IH). exists t. split; [reflexivity|]. intros rest. rewrite IH. reflexivity.
    - intros rest. rewrite IH. reflexivity.
    - intros rest. rewrite IH. reflexivity. }
  assert (P : forall text len b, match from_base58_loop (text ++ [0]) len b with
     | Ok (Some (k, b', m)) => exists t, m = t ++ [0] /\ forall rest, from_base58_loop (text ++ 0 :: rest) len b = Ok (Some (k, b', t ++ 0 :: rest))
     | x => forall rest, from_base58_loop (text ++ 0 :: rest) len b = x end).
  { clear. induction text as [|c text IH]; intros len b; [exists []; split; reflexivity|]. cbn [app from_base58_loop].
    destruct (c =? 0); [exists (c :: text); split; reflexivity|]. destruct (isspace c) as [s| |]; cbn [bind]; try reflexivity.
    destruct s; [exists (c :: text); split; reflexivity|]. destruct (tget BASE58_DECODE c =? -1); [reflexivity|].
    destruct (carry_loop 58 256 (tget BASE58_DECODE c) 0 len b) as [[c' i] b'].
    destruct (c_assert (c' =? 0)); cbn [bind]; try reflexivity. apply IH. }
  assert (T : forall text, match skip_trailing_spaces (text ++ [0]) with
     | Ok m => exists t, m = t ++ [0] /\ forall rest, skip_trailing_spaces (text ++ 0 :: rest) = Ok (t ++ 0 :: rest)
     | x => forall rest, skip_trailing_spaces (text ++ 0 :: rest) = x end).
  { clear. induction text as [|c text IH]; [exists []; split; reflexivity|]. cbn [app skip_trailing_spaces].
    destruct (isspace c) as [s| |]; cbn [bind]; try reflexivity.
    destruct s; [|exists (c :: text); split; reflexivity]. exact IH. }
  unfold from_base58. specialize (L text).
  destruct (skip_leading_spaces (text ++ [0])) as [[k m]| |]; [|rewrite L; reflexivity..].
  destruct L as (t & -> & L). rewrite L. cbn [bind]. specialize (O t).
  destruct (skip_ones (t ++ [0])) as [[z m]| |]; [|rewrite O; reflexivity..].
  destruct O as (t2 & -> & O). rewrite O. cbn [bind].
  destruct (c_defined _); cbn [bind]; try reflexivity. destruct (c_defined _); cbn [bind]; try reflexivity.
  set (b := repeat 0 _). specialize (P t2 0%nat b).
  match goal with |- context [from_base58_loop (t2 ++ [0]) ?a b] => set (aa := a) in * end.
  destruct (from_base58_loop (t2 ++ [0]) aa b) as [[[[len b'] m]|]| |]; [|rewrite P; reflexivity..].
  destruct P as (t3 & -> & P). rewrite P. cbn [bind]. specialize (T t3).
  destruct (skip_trailing_spaces (t3 ++ [0])) as [m| |]; [|rewrite T; reflexivity..].
  destruct T as (t4 & -> & T). rewrite T. cbn [bind]. destruct t4; reflexivity.
Qed.
