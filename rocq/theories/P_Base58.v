(** Properties C23-C29: base58. *)
From Verif Require Import Base S_Base58 M_Base58 L_Base58.

(** C23 *)
Theorem C23_to_base58_numeral : forall buf n text, bytes buf ->
  to_base58 buf = Ok (n, text) -> n = length text /\ is_base58 buf text.
Proof.
  intros buf n text Hb E.
  destruct (Z.le_gt_cases (Z.of_nat (length buf * 138 / 100 + 1)) INT_MAX) as [H|H].
  - destruct (to_base58_spec buf Hb H) as (t & Et & Hs & _). rewrite Et in E. injection E as <- <-. auto.
  - (* a longer buffer may still be accepted if it starts with enough zero bytes *)
    unfold to_base58 in E. pose proof (skip_zeroes_spec buf) as S. destruct (skip_zeroes buf) as [z rest] eqn:Ez.
    destruct S as [Eb Hr]. destruct (Z.leb_spec (Z.of_nat (length rest * 138 / 100 + 1)) INT_MAX) as [Hs|Hs]; [|discriminate].
    assert (Hbr : bytes rest) by (rewrite Eb in Hb; apply bytes_app in Hb; tauto).
    destruct (to_base58_spec rest Hbr Hs) as (t & Et & (z' & r' & ds & E1 & H1 & N1 & E2) & _).
    assert (z' = 0%nat) as -> by (destruct z'; [reflexivity|exfalso; exact (Hr _ E1)]).
    cbn [repeat app] in *. subst r' t. unfold to_base58 in Et.
    assert (Ezr : skip_zeroes rest = (0%nat, rest)).
    { pose proof (skip_zeroes_spec rest) as S. destruct (skip_zeroes rest) as [z2 r2]. destruct S as [S1 S2].
      destruct z2; [cbn in S1; congruence|exfalso; exact (Hr _ S1)]. }
    rewrite Ezr in Et. cbv zeta in *.
    replace (Z.of_nat (length rest * 138 / 100 + 1) <=? INT_MAX) with true in Et by (symmetry; apply Z.leb_le; exact Hs).
    cbn [c_defined bind] in *. destruct (to_base58_loop _ _ _) as [[len b]| |]; try discriminate. cbn [bind] in *.
    injection Et as _ Et. cbn [repeat app] in Et. injection E as <- <-. split; [reflexivity|].
    exists z, rest, ds. rewrite Et. repeat split; assumption || apply N1.
Qed.
Print Assumptions C23_to_base58_numeral.

(** C24: defined (the assertion does not fire) and within the announced size, for every buffer whose
    scratch size fits an int. *)
Theorem C24_to_base58_bounds : forall buf, bytes buf -> Z.of_nat (length buf * 138 / 100 + 1) <= INT_MAX ->
  exists text, to_base58 buf = Ok (length text, text) /\ (length text <= to_base58_length (length buf))%nat.
Proof. intros buf Hb H. destruct (to_base58_spec buf Hb H) as (t & E & _ & L). eauto. Qed.
Print Assumptions C24_to_base58_bounds.

(** C25: a NUL-terminated ASCII string, whatever follows it. *)
Theorem C25_from_base58_language : forall text rest,
  Forall (fun c => 0 < c < 128) text -> Z.of_nat (length text) * 733 <= INT_MAX ->
  (exists body out, trims_to text body /\ Forall (fun c => In c b58_alphabet) body /\ is_base58 out body /\ bytes out /\
     from_base58 (text ++ 0 :: rest) (length text) = Ok (length out, out)) \/
  ((~ exists body, trims_to text body /\ Forall (fun c => In c b58_alphabet) body) /\
     from_base58 (text ++ 0 :: rest) (length text) = Ok (O, [])).
Proof.
  intros text rest A H. destruct (from_base58_cases text rest A H) as [(b & o & T & F & B & Bo & _ & _ & E)|R]; [left; eauto 8|right; exact R].
Qed.
Print Assumptions C25_from_base58_language.

(** Beyond that length the int computation of the scratch size overflows. *)
Theorem C25_from_base58_long_undefined : forall text rest,
  Forall (fun c => In c b58_alphabet /\ c <> 49) text -> text <> [] ->
  INT_MAX < Z.of_nat (length text) * 733 -> Z.of_nat (length text) < 2 ^ 31 ->
  from_base58 (text ++ 0 :: rest) (length text) = UB.
Proof.
  intros text rest F Hn Hlo Hhi. destruct text as [|c t]; [congruence|].
  inversion F as [|? ? [Hc Hc1] F']; subst. apply b58ok_spec in Hc. destruct (b58ok_char c Hc) as (d & Hd & ->).
  destruct (dec_digit d Hd) as (_ & Ha & Hs & _ & _). set (c := b58_char d) in *. unfold from_base58.
  cbn [app skip_leading_spaces]. destruct (Z.eqb_spec c 0); [unfold is_ascii in Ha; lia|].
  rewrite isspace_ascii by (left; exact Ha). rewrite Hs. cbn [bind skip_ones].
  destruct (Z.eqb_spec c 49); [congruence|]. cbn [bind].
  replace (Z.of_nat (length (c :: t)) - Z.of_nat 0 - Z.of_nat 0) with (Z.of_nat (length (c :: t))) by lia.
  rewrite to_int_small by lia.
  replace (Z.of_nat (length (c :: t)) * 733 <=? INT_MAX) with false by (symmetry; apply Z.leb_gt; exact Hlo).
  rewrite andb_false_r. reflexivity.
Qed.
Print Assumptions C25_from_base58_long_undefined.

(** At 2^32 characters the cast to int makes the scratch area one byte long: the assertion fires. *)
Theorem C25_from_base58_4gib_aborts : forall text rest,
  Forall (fun c => In c b58_alphabet /\ c <> 49) text -> Z.of_nat (length text) = 2 ^ 32 ->
  from_base58 (text ++ 0 :: rest) (length text) = Abort.
Proof.
  intros text rest F L. unfold from_base58. rewrite L.
  assert (L3 : (3 <= length text)%nat) by lia.
  destruct text as [|c1 [|c2 [|c3 t]]]; cbn [length] in L3; try lia. clear L L3.
  inversion F as [|? ? [H1 N1] F1]; subst. inversion F1 as [|? ? [H2 N2] F2]; subst. inversion F2 as [|? ? [H3 N3] F3]; subst.
  apply b58ok_spec in H1, H2, H3.
  destruct (b58ok_char _ H1) as (d1 & D1 & ->), (b58ok_char _ H2) as (d2 & D2 & ->), (b58ok_char _ H3) as (d3 & D3 & ->).
  destruct (dec_digit d1 D1) as (T1 & A1 & S1 & _), (dec_digit d2 D2) as (T2 & A2 & S2 & _), (dec_digit d3 D3) as (T3 & A3 & S3 & _).
  assert (Z1 : d1 <> 0) by (intros ->; apply N1; reflexivity).
  cbn [app skip_leading_spaces].
  destruct (Z.eqb_spec (b58_char d1) 0) as [E|_]; [unfold is_ascii in A1; lia|].
  rewrite isspace_ascii by (left; exact A1). rewrite S1. cbn [bind skip_ones].
  destruct (Z.eqb_spec (b58_char d1) 49) as [E|_]; [congruence|]. cbn [bind].
  change (to_int (2 ^ 32 - Z.of_nat 0 - Z.of_nat 0) * 733) with 0.
  change (c_defined ((- 2 ^ 31 <=? 0) && (0 <=? INT_MAX))) with (Ok tt).
  change (Z.quot 0 1000 + 1) with 1. change (c_defined (0 <=? 1)) with (Ok tt).
  change (repeat 0 (Z.to_nat 1)) with [0]. cbn [bind from_base58_loop].
  destruct (Z.eqb_spec (b58_char d1) 0) as [E|_]; [unfold is_ascii in A1; lia|].
  rewrite isspace_ascii by (left; exact A1). rewrite S1, T1. cbn [bind].
  destruct (Z.eqb_spec d1 (-1)) as [E|_]; [lia|].
  cbn [carry_loop]. destruct (Z.eqb_spec d1 0) as [E|_]; [lia|]. cbn [negb orb].
  replace (d1 + 58 * 0) with d1 by lia. rewrite (Z.div_small d1 256), (Z.mod_small d1 256) by lia.
  change (c_assert (0 =? 0)) with (Ok tt). cbn [bind from_base58_loop].
  destruct (Z.eqb_spec (b58_char d2) 0) as [E|_]; [unfold is_ascii in A2; lia|].
  rewrite isspace_ascii by (left; exact A2). rewrite S2, T2. cbn [bind].
  destruct (Z.eqb_spec d2 (-1)) as [E|_]; [lia|].
  cbn [carry_loop]. change (0 <? 1)%nat with true. rewrite orb_true_r.
  destruct (Z.eqb_spec ((d2 + 58 * d1) / 256) 0) as [E|E]; [|reflexivity].
  change (c_assert true) with (Ok tt). cbn [bind from_base58_loop].
  assert (V : d2 + 58 * d1 < 256) by (apply Z.div_small_iff in E; lia).
  rewrite (Z.mod_small (d2 + 58 * d1)) by (clear - V D1 D2; lia).
  destruct (Z.eqb_spec (b58_char d3) 0) as [E'|_]; [unfold is_ascii in A3; lia|].
  rewrite isspace_ascii by (left; exact A3). rewrite S3, T3. cbn [bind].
  destruct (Z.eqb_spec d3 (-1)) as [E'|_]; [lia|].
  cbn [carry_loop]. change (0 <? 1)%nat with true. rewrite orb_true_r.
  destruct (Z.eqb_spec ((d3 + 58 * (d2 + 58 * d1)) / 256) 0) as [E'|E']; [|reflexivity].
  exfalso. apply Z.div_small_iff in E'; clear - E' D1 D2 D3 Z1; lia.
Qed.
Print Assumptions C25_from_base58_4gib_aborts.

(** C26 *)
Theorem C26_base58_roundtrip : forall buf rest, bytes buf ->
  Z.of_nat (to_base58_length (length buf)) * 733 <= INT_MAX ->
  exists text, to_base58 buf = Ok (length text, text) /\
    from_base58 (text ++ 0 :: rest) (length text) = Ok (length buf, buf).
Proof.
  intros buf rest Hb H.
  destruct (to_base58_spec buf Hb) as (t & E & Hs & L).
  { unfold to_base58_length in H. change INT_MAX with 2147483647 in *. dlia. }
  exists t. split; [exact E|]. pose proof (is_base58_alphabet _ _ Hs) as A.
  destruct (from_base58_cases t rest) as [(b & o & T & Fb & B & Bo & _ & _ & R)|[N _]].
  - eapply Forall_impl; [|exact A]. cbv beta; tauto.
  - lia.
  - assert (b = t).
    { destruct (trims_unique t [] t [] b) as [Eb _]; try assumption; try reflexivity.
      - rewrite app_nil_r. reflexivity.
      - constructor.
      - eapply Forall_impl; [|exact A]. cbv beta. intros a [Ha _]. apply b58ok_spec, Ha.
      - rewrite app_nil_r. destruct t as [|c t']; [exact I|]. cbn [head_not]. inversion A as [|? ? [Hc _] _]; subst.
        apply ok_not_space, b58ok_spec, Hc. }
    subst b. rewrite (is_base58_inj _ _ _ Bo Hb B Hs) in R. exact R.
  - exfalso. apply N. exists t. split.
    + exists [], []. rewrite app_nil_r. repeat split; constructor.
    + eapply Forall_impl; [|exact A]. cbv beta; tauto.
Qed.
Print Assumptions C26_base58_roundtrip.

(** C27: what decodes (to a non-empty buffer; 0 is also the error value) is the encoding of the
    result, surrounded by white space. *)
Theorem C27_base58_canonical : forall text rest n out,
  Forall (fun c => 0 < c < 128) text -> Z.of_nat (length text) * 733 <= INT_MAX ->
  from_base58 (text ++ 0 :: rest) (length text) = Ok (n, out) -> (0 < n)%nat ->
  exists body, trims_to text body /\ to_base58 out = Ok (length body, body).
Proof.
  intros text rest n out A H E Hn.
  destruct (from_base58_cases text rest A H) as [(b & o & T & Fb & B & Bo & Hlo & _ & R)|[_ R]]; rewrite R in E; injection E as <- <-; [|lia].
  exists b. split; [exact T|]. destruct (to_base58_spec o Bo) as (t & Et & Hs & _).
  - change INT_MAX with 2147483647 in *. dlia.
  - rewrite (is_base58_fun _ _ _ Hs B) in Et. exact Et.
Qed.
Print Assumptions C27_base58_canonical.

Theorem C27_base58_injective : forall t1 t2 r1 r2 n out,
  Forall (fun c => 0 < c < 128) t1 -> Z.of_nat (length t1) * 733 <= INT_MAX ->
  Forall (fun c => 0 < c < 128) t2 -> Z.of_nat (length t2) * 733 <= INT_MAX ->
  from_base58 (t1 ++ 0 :: r1) (length t1) = Ok (n, out) ->
  from_base58 (t2 ++ 0 :: r2) (length t2) = Ok (n, out) -> (0 < n)%nat ->
  exists body, trims_to t1 body /\ trims_to t2 body.
Proof.
  intros t1 t2 r1 r2 n out A1 L1 A2 L2 E1 E2 Hn.
  destruct (C27_base58_canonical t1 r1 n out A1 L1 E1 Hn) as (b1 & T1 & G1).
  destruct (C27_base58_canonical t2 r2 n out A2 L2 E2 Hn) as (b2 & T2 & G2).
  exists b1. split; [exact T1|]. rewrite G1 in G2. injection G2 as _ <-. exact T2.
Qed.
Print Assumptions C27_base58_injective.

(** C28, the part that holds: never more bytes than characters; and within the announced size when the
    text (after white space) starts with at most three '1'. *)
Theorem C28_from_base58_size_partial : forall text rest n out,
  Forall (fun c => 0 < c < 128) text -> Z.of_nat (length text) * 733 <= INT_MAX ->
  from_base58 (text ++ 0 :: rest) (length text) = Ok (n, out) ->
  n = length out /\ (n <= length text)%nat /\
  ((forall s t, Forall is_space s -> text <> s ++ [49; 49; 49; 49] ++ t) -> (n <= from_base58_length (length text))%nat).
Proof.
  intros text rest n out A H E.
  destruct (from_base58_cases text rest A H) as [(b & o & T & Fb & B & Bo & Hlo & (z & m & Hzm & Eb & _ & Hsz) & R)|[_ R]];
    rewrite R in E; injection E as <- <-.
  - split; [reflexivity|]. split; [exact Hlo|]. intros Hz. destruct T as (s1 & s2 & Et & F1 & F2).
    assert (z <= 3)%nat.
    { destruct (Nat.le_gt_cases z 3); [assumption|exfalso]. destruct z as [|[|[|[|z]]]]; try lia.
      apply (Hz s1 ((repeat 49 z ++ skipn (S (S (S (S z)))) b) ++ s2) F1). rewrite Et. rewrite Eb at 1. reflexivity. }
    assert (length b <= length text)%nat by (rewrite Et, !app_length; lia).
    unfold from_base58_length.
    assert ((z + m) * 733 / 1000 <= length text * 733 / 1000)%nat by (apply Nat.div_le_mono; lia).
    assert (z + m * 733 / 1000 + 1 <= (z + m) * 733 / 1000 + 2)%nat by dlia. lia.
  - cbn. unfold from_base58_length. repeat split; lia.
Qed.
Print Assumptions C28_from_base58_size_partial.

(** The full claim is false: "11111111" announces 7 bytes and writes 8. *)
Theorem C28_from_base58_size_refuted : forall rest,
  from_base58 (repeat 49 8 ++ 0 :: rest) 8 = Ok (8%nat, repeat 0 8) /\ from_base58_length 8 = 7%nat.
Proof. intros rest. rewrite base58_no_overread. split; vm_compute; reflexivity. Qed.
Print Assumptions C28_from_base58_size_refuted.

(** C29, the part that holds: nothing after the terminating NUL matters, whatever str_len.
    Missing: independence of the characters between str_len and the NUL. *)
Theorem C29_from_base58_nul_partial : forall text rest1 rest2 str_len,
  from_base58 (text ++ 0 :: rest1) str_len = from_base58 (text ++ 0 :: rest2) str_len.
Proof. intros. rewrite base58_no_overread. symmetry. apply base58_no_overread. Qed.
Print Assumptions C29_from_base58_nul_partial.

(** The full claim is false: with str_len 1, the character after the first matters, and with no NUL in
    readable memory the behaviour is undefined. *)
Theorem C29_from_base58_str_len_refuted :
  from_base58 ([50] ++ [0]) 1 = Ok (1%nat, [1]) /\ from_base58 ([50] ++ [50; 0]) 1 = Ok (1%nat, [59]) /\
  from_base58 [50] 1 = UB /\ from_base58 ([49] ++ [122; 122; 0]) 1 = Abort.
Proof. repeat split; vm_compute; reflexivity. Qed.
Print Assumptions C29_from_base58_str_len_refuted.

Example base58_ex : bytes [0; 0; 1; 2; 3] /\ to_base58 [0; 0; 1; 2; 3] = Ok (5%nat, [49; 49; 76; 100; 112])
  /\ from_base58 ([32; 49; 49; 76; 100; 112; 10] ++ 0 :: [7]) 7 = Ok (5%nat, [0; 0; 1; 2; 3]).
Proof. split; [unfold bytes, is_byte; repeat (apply Forall_cons; [lia|]); apply Forall_nil|split; vm_compute; reflexivity]. Qed.
Example C25_long_ex : let text := repeat 50 (Z.to_nat 3000000) in
  Forall (fun c => In c b58_alphabet /\ c <> 49) text /\ text <> [] /\ INT_MAX < Z.of_nat (length text) * 733 /\ Z.of_nat (length text) < 2 ^ 31.
Proof.
  cbv zeta. set (k := Z.to_nat 3000000). assert (Hk : Z.of_nat k = 3000000) by (unfold k; rewrite Z2Nat.id; lia). clearbody k.
  rewrite repeat_length. change INT_MAX with 2147483647. split; [|split; [destruct k; [lia|discriminate]|split; lia]].
  apply Forall_forall. intros x Hx. apply repeat_spec in Hx. subst. split; [vm_compute; tauto|lia].
Qed.
