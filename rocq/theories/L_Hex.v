(** Proofs about M_Hex. *)
From Verif Require Import Base M_Hex S_Hex.

Definition ub (upper : Z) : bool := negb (upper =? 0).

Lemma hex_str_digit upper v : 0 <= v < 16 -> tget (hex_str upper) v = hex_digit (ub upper) v.
Proof.
  intros Hv. unfold hex_str, ub. destruct (upper =? 0); simpl negb; apply Z.eqb_eq.
  - refine (sweep1 16 (fun v => tget HEX_STRING_LOWER v =? hex_digit false v) _ v _); [reflexivity|lia].
  - refine (sweep1 16 (fun v => tget HEX_STRING_UPPER v =? hex_digit true v) _ v _); [reflexivity|lia].
Qed.

Lemma nibbles b : is_byte b ->
  Z.shiftr b 4 = b / 16 /\ Z.land b 15 = b mod 16 /\ 0 <= b / 16 < 16 /\ 0 <= b mod 16 < 16.
Proof.
  intros Hb. unfold is_byte in Hb.
  rewrite Z.shiftr_div_pow2 by lia. change 15 with (2 ^ 4 - 1). rewrite land_ones' by lia.
  change (2 ^ 4) with 16. repeat split; try reflexivity; dlia.
Qed.

Lemma to_hex_spec buf upper : bytes buf ->
  to_hex buf upper = concat (map (dump_byte (ub upper)) buf).
Proof.
  induction buf as [|b buf IH]; intros Hb; [reflexivity|].
  apply bytes_cons in Hb. destruct Hb as [Hb Hbs].
  destruct (nibbles b Hb) as (E1 & E2 & R1 & R2).
  simpl. rewrite E1, E2, !hex_str_digit, IH by assumption. reflexivity.
Qed.

Lemma hex_value_digit up v : 0 <= v < 16 -> hex_value (hex_digit up v) = Some v.
Proof.
  intros Hv.
  assert (H : (match hex_value (hex_digit up v) with Some x => x =? v | None => false end) = true).
  { destruct up.
    - refine (sweep1 16 (fun v => match hex_value (hex_digit true v) with Some x => x =? v | None => false end) _ v _); [reflexivity|lia].
    - refine (sweep1 16 (fun v => match hex_value (hex_digit false v) with Some x => x =? v | None => false end) _ v _); [reflexivity|lia]. }
  destruct (hex_value _); [|discriminate]. apply Z.eqb_eq in H. congruence.
Qed.

Lemma hex_digit_byte up v : 0 <= v < 16 -> is_byte (hex_digit up v).
Proof. unfold is_byte, hex_digit. intros. destruct up; destruct (v <? 10) eqn:?; lia. Qed.

Lemma HEX_MAP_spec c : is_byte c ->
  tget HEX_MAP c = match hex_value c with Some v => v | None => 255 end.
Proof.
  intros Hc. apply Z.eqb_eq.
  refine (sweep1 256 (fun c => tget HEX_MAP c =? match hex_value c with Some v => v | None => 255 end) _ c _);
    [reflexivity|unfold is_byte in Hc; lia].
Qed.

Lemma hex_value_range c v : hex_value c = Some v -> 0 <= v < 16.
Proof.
  unfold hex_value. intros H.
  destruct ((48 <=? c) && (c <=? 57)) eqn:?; [injection H; lia|].
  destruct ((65 <=? c) && (c <=? 70)) eqn:?; [injection H; lia|].
  destruct ((97 <=? c) && (c <=? 102)) eqn:?; [injection H; lia|]. discriminate.
Qed.

Lemma leading_pairs_fun t o1 o2 : leading_pairs t o1 -> leading_pairs t o2 -> o1 = o2.
Proof.
  intros H. revert o2. induction H as [|c|c d t Hn|c d x y t o Hc Hd H IH]; intros o2 H2; inversion H2; subst; try reflexivity.
  - destruct Hn; congruence.
  - match goal with HH : _ \/ _ |- _ => destruct HH; congruence end.
  - f_equal; [congruence|]. apply IH. assumption.
Qed.

Lemma ldiff_half n : (Z.to_nat (Z.ldiff (Z.of_nat n) 1 / 2) = n / 2)%nat.
Proof.
  assert (H : Z.ldiff (Z.of_nat n) 1 / 2 = Z.of_nat n / 2).
  { rewrite <- !Z.shiftr_div_pow2 with (n := 1) by lia.
    rewrite Z.shiftr_ldiff. simpl. rewrite Z.ldiff_0_r. reflexivity. }
  rewrite H. apply Nat2Z.inj. rewrite Z2Nat.id by dlia. rewrite Nat2Z.inj_div. reflexivity.
Qed.

Lemma half_SS n : (S (S n) / 2 = S (n / 2))%nat.
Proof. change (S (S n)) with (2 + n)%nat. rewrite <- !Nat.div2_div. reflexivity. Qed.

Lemma from_hex_loop_spec : forall text rest, bytes text ->
  exists out, from_hex_loop (length text / 2) (text ++ rest) = Ok out /\
    leading_pairs text out /\ (length out <= length text / 2)%nat /\ bytes out.
Proof.
  intros text. induction text as [text IH] using length_strong_ind. intros rest Hb.
  destruct text as [|c [|d text]].
  - exists []. repeat split; try constructor.
  - exists []. repeat split; try constructor.
  - apply bytes_cons in Hb; destruct Hb as [Hc Hb].
    apply bytes_cons in Hb; destruct Hb as [Hd Hb].
    destruct (IH text ltac:(simpl; lia) rest Hb) as (out & E & L & N & B).
    cbn [length]. rewrite half_SS. cbn [from_hex_loop app].
    rewrite !HEX_MAP_spec by assumption.
    destruct (hex_value c) as [x|] eqn:Ec.
    + pose proof (hex_value_range _ _ Ec) as Rx.
      destruct (hex_value d) as [y|] eqn:Ed.
      * pose proof (hex_value_range _ _ Ed) as Ry.
        assert (x =? 255 = false) as -> by lia. assert (y =? 255 = false) as -> by lia. cbn [orb].
        rewrite E. cbn [bind]. exists (16 * x + y :: out).
        rewrite Z.shiftl_mul_pow2, lor_disjoint by lia.
        rewrite u8_id by (unfold is_byte; lia).
        replace (x * 2 ^ 4 + y) with (16 * x + y) by lia.
        split; [reflexivity|]. split; [constructor; assumption|]. split; [cbn [length]; lia|].
        apply bytes_cons. split; [unfold is_byte; lia|assumption].
      * exists []. rewrite orb_comm. cbn [orb Z.eqb Pos.eqb]. split; [reflexivity|].
        split; [apply lp_stop; auto|]. split; [apply Nat.le_0_l|constructor].
    + exists []. cbn [orb Z.eqb Pos.eqb]. split; [reflexivity|]. split; [apply lp_stop; auto|]. split; [apply Nat.le_0_l|constructor].
Qed.

Lemma from_hex_spec text rest : bytes text ->
  exists out, from_hex (text ++ rest) (length text) = Ok (length out, out) /\
    leading_pairs text out /\ (length out <= length text / 2)%nat /\ bytes out.
Proof.
  intros Hb. destruct (from_hex_loop_spec text rest Hb) as (out & E & H).
  exists out. split; [|exact H]. unfold from_hex. rewrite ldiff_half, E. reflexivity.
Qed.

Lemma leading_pairs_encode up buf : bytes buf ->
  leading_pairs (concat (map (dump_byte up) buf)) buf.
Proof.
  induction buf as [|b buf IH]; intros Hb; [constructor|].
  apply bytes_cons in Hb; destruct Hb as [Hb Hbs].
  destruct (nibbles b Hb) as (_ & _ & R1 & R2).
  cbn [map concat dump_byte app].
  rewrite (Z.div_mod b 16) at 3 by lia.
  constructor; auto using hex_value_digit.
Qed.

Lemma bytes_encode up buf : bytes buf -> bytes (concat (map (dump_byte up) buf)).
Proof.
  induction buf as [|b buf IH]; intros Hb; [constructor|].
  apply bytes_cons in Hb; destruct Hb as [Hb Hbs].
  destruct (nibbles b Hb) as (_ & _ & R1 & R2).
  cbn [map concat dump_byte app]. repeat (apply bytes_cons; split; [apply hex_digit_byte; assumption|]). auto.
Qed.

Lemma length_encode up buf : length (concat (map (dump_byte up) buf)) = (2 * length buf)%nat.
Proof. induction buf; simpl in *; lia. Qed.

(* ---- hex dump ---- *)

Lemma write_cache_app cache c : (length cache < 1024)%nat -> write_cache cache c = Ok (cache ++ [c]).
Proof. intros H. unfold write_cache. apply Nat.ltb_lt in H. rewrite H. reflexivity. Qed.

Lemma write_cache_if_app b cache c : (length cache < 1024)%nat ->
  write_cache_if b cache c = Ok (cache ++ if b then [c] else []).
Proof.
  intros H. unfold write_cache_if. destruct b; [apply write_cache_app, H|].
  rewrite app_nil_r. reflexivity.
Qed.

Lemma separator_eq i : 0 <= i ->
  (if negb (i =? 0) && (i mod 4 =? 0) then [32] else []) ++
  (if negb (i =? 0) && (i mod 8 =? 0) then [32] else []) ++
  (if negb (i =? 0) && (i mod 16 =? 0) then [32] else []) ++
  (if negb (i =? 0) && (i mod 32 =? 0) then [10] else []) = dump_separator i.
Proof.
  intros Hi. unfold dump_separator. destruct (i =? 0) eqn:E0; [reflexivity|]. simpl negb. cbn [andb].
  assert (H32 : i mod 32 = 0 -> i mod 16 = 0) by dlia.
  assert (H16 : i mod 16 = 0 -> i mod 8 = 0) by dlia.
  assert (H8 : i mod 8 = 0 -> i mod 4 = 0) by dlia.
  destruct (Z.eqb_spec (i mod 32) 0), (Z.eqb_spec (i mod 16) 0), (Z.eqb_spec (i mod 8) 0), (Z.eqb_spec (i mod 4) 0);
    try reflexivity; exfalso; tauto.
Qed.

Lemma dump_separator_length i : (length (dump_separator i) <= 4)%nat.
Proof. unfold dump_separator. repeat destruct (_ =? _); simpl; lia. Qed.

Definition piece (up : bool) (p : nat * Z) : list Z :=
  dump_separator (Z.of_nat (fst p)) ++ dump_byte up (snd p).

Lemma hex_dump_loop_spec upper : forall buf i cache out, bytes buf ->
  (length cache <= 1000)%nat -> Forall (fun c => (length c <= 1024)%nat) out ->
  exists out' cache',
    hex_dump_loop buf (Z.of_nat i) (hex_str upper) cache out = Ok (out', cache') /\
    (length cache' <= 1000)%nat /\ Forall (fun c => (length c <= 1024)%nat) out' /\
    concat out' ++ cache' =
      concat out ++ cache ++ concat (map (piece (ub upper)) (combine (seq i (length buf)) buf)).
Proof.
  induction buf as [|b buf IH]; intros i cache out Hb Hc Hf.
  - exists out, cache. simpl. rewrite app_nil_r. auto.
  - apply bytes_cons in Hb; destruct Hb as [Hb Hbs].
    destruct (nibbles b Hb) as (E1 & E2 & R1 & R2).
    pose proof (separator_eq (Z.of_nat i) (Nat2Z.is_nonneg i)) as Hsep.
    pose proof (dump_separator_length (Z.of_nat i)) as Hsl. rewrite <- Hsep in Hsl.
    cbn [hex_dump_loop].
    set (z := Z.of_nat i) in *.
    set (s1 := if negb (z =? 0) && (z mod 4 =? 0) then [32] else []) in *.
    set (s2 := if negb (z =? 0) && (z mod 8 =? 0) then [32] else []) in *.
    set (s3 := if negb (z =? 0) && (z mod 16 =? 0) then [32] else []) in *.
    set (s4 := if negb (z =? 0) && (z mod 32 =? 0) then [10] else []) in *.
    rewrite !app_length in Hsl.
    rewrite write_cache_if_app by lia. cbn [bind]. fold s1.
    rewrite write_cache_if_app by (rewrite app_length; lia). cbn [bind]. fold s2.
    rewrite write_cache_if_app by (rewrite !app_length; lia). cbn [bind]. fold s3.
    rewrite write_cache_if_app by (rewrite !app_length; lia). cbn [bind]. fold s4.
    rewrite write_cache_app by (rewrite !app_length; lia). cbn [bind].
    rewrite write_cache_app by (rewrite !app_length; simpl length; lia). cbn [bind].
    rewrite E1, E2, !hex_str_digit by assumption.
    rewrite <- !app_assoc.
    replace (z + 1) with (Z.of_nat (S i)) by (unfold z; lia).
    assert (Hp : s1 ++ s2 ++ s3 ++ s4 ++ [hex_digit (ub upper) (b / 16)] ++ [hex_digit (ub upper) (b mod 16)]
                 = piece (ub upper) (i, b)).
    { unfold piece. cbn [fst snd]. fold z. rewrite <- Hsep, <- !app_assoc. reflexivity. }
    rewrite Hp. cbn [length seq combine map concat].
    assert (Hpl : (length (piece (ub upper) (i, b)) <= 6)%nat).
    { rewrite <- Hp, !app_length. simpl. lia. }
    destruct (Nat.ltb_spec 1000 (length (cache ++ piece (ub upper) (i, b)))) as [Hl|Hl].
    + edestruct (IH (S i) [] (out ++ [cache ++ piece (ub upper) (i, b)])) as (o' & c' & E & L & F & C);
        [assumption|simpl; lia| |].
      { apply Forall_app. split; [assumption|]. constructor; [|constructor]. rewrite app_length. lia. }
      exists o', c'. split; [exact E|]. split; [exact L|]. split; [exact F|].
      rewrite C, concat_app. simpl. rewrite app_nil_r, <- !app_assoc. reflexivity.
    + edestruct (IH (S i) (cache ++ piece (ub upper) (i, b)) out) as (o' & c' & E & L & F & C);
        [assumption|lia|assumption|].
      exists o', c'. split; [exact E|]. split; [exact L|]. split; [exact F|].
      rewrite C, <- !app_assoc. reflexivity.
Qed.

Lemma hex_dump_spec upper buf : bytes buf ->
  exists chunks, hex_dump buf upper = Ok chunks /\
    concat chunks = dump_text (ub upper) buf /\ Forall (fun c => (length c <= 1024)%nat) chunks.
Proof.
  intros Hb.
  destruct (hex_dump_loop_spec upper buf 0 [] [] Hb) as (o & c & E & L & F & C);
    [simpl; lia|constructor|].
  unfold hex_dump. change 0 with (Z.of_nat 0). rewrite E. cbn [bind].
  rewrite write_cache_app by lia. cbn [bind].
  assert (Nat.ltb 0 (length (c ++ [10])) = true) as ->.
  { apply Nat.ltb_lt. rewrite app_length. simpl. lia. }
  exists (o ++ [c ++ [10]]). split; [reflexivity|]. split.
  - rewrite concat_app. simpl. rewrite app_nil_r, app_assoc, C. reflexivity.
  - apply Forall_app. split; [assumption|]. constructor; [|constructor]. rewrite app_length. simpl. lia.
Qed.

Lemma nth_error_encode up : forall buf i b, nth_error buf i = Some b ->
  nth_error (concat (map (dump_byte up) buf)) (2 * i) = Some (hex_digit up (b / 16)) /\
  nth_error (concat (map (dump_byte up) buf)) (2 * i + 1) = Some (hex_digit up (b mod 16)).
Proof.
  induction buf as [|b0 buf IH]; intros [|i] b H; try discriminate.
  - injection H as ->. split; reflexivity.
  - destruct (IH i b H) as [H1 H2]. cbn [map concat dump_byte app].
    replace (2 * S i)%nat with (S (S (2 * i))) by lia.
    cbn [nth_error Nat.add]. split; assumption.
Qed.

Lemma hex_roundtrip buf upper rest : bytes buf ->
  from_hex (to_hex buf upper ++ rest) (length (to_hex buf upper)) = Ok (length buf, buf).
Proof.
  intros Hb. rewrite (to_hex_spec _ _ Hb).
  destruct (from_hex_spec (concat (map (dump_byte (ub upper)) buf)) rest) as (out & E & L & _);
    [apply bytes_encode, Hb|].
  rewrite E, (leading_pairs_fun _ _ _ L (leading_pairs_encode _ _ Hb)). reflexivity.
Qed.

Lemma from_hex_bound text rest : bytes text ->
  exists out, from_hex (text ++ rest) (length text) = Ok (length out, out) /\
    leading_pairs text out /\
    (length out <= from_hex_length (length text))%nat.
Proof.
  intros Hb. destruct (from_hex_spec text rest Hb) as (out & E & L & N & _).
  exists out. split; [exact E|]. split; [exact L|]. unfold from_hex_length.
  pose proof (Nat.div_le_mono (length text) (length text + 1) 2 ltac:(lia) ltac:(lia)). lia.
Qed.
