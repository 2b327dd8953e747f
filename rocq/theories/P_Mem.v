(** Properties C87-C90: what the codecs do to memory.  Input and output are regions of one memory [mem];
    [written mem a bs] is [mem] with [bs] at address [a] and everything else unchanged, [region mem a n] its bytes
    [a, a+n).  A decoder may decode in place, or to any lower address. *)
From Verif Require Import Base M_Endian L_Endian S_Mem M_Hex M_Base64 M_Base32 M_Varint M_Mem L_Mem.
From Verif Require Import S_Varint L_Varint S_Hex S_Bits S_Rfc4648 P_Hex P_Base64 P_Base32 P_Varint.

(** [written] means what it says. *)
Lemma written_meaning : forall mem a bs, (a + length bs <= length mem)%nat ->
  length (written mem a bs) = length mem /\
  (forall i, (i < length bs)%nat -> nth_error (written mem a bs) (a + i) = nth_error bs i) /\
  (forall p, (p < a \/ a + length bs <= p)%nat -> nth_error (written mem a bs) p = nth_error mem p).
Proof.
  intros mem a bs H. split; [apply written_length, H|]. split.
  - intros i Hi. rewrite nth_error_written by exact H.
    rewrite (proj2 (Nat.leb_le a (a + i))), (proj2 (Nat.ltb_lt (a + i) _)) by lia. cbn [andb]. f_equal. lia.
  - intros p Hp. rewrite nth_error_written by exact H.
    destruct (Nat.leb_spec a p); destruct (Nat.ltb_spec p (a + length bs)); cbn [andb]; try reflexivity; lia.
Qed.

Lemma region_length mem a n : (a + n <= length mem)%nat -> length (region mem a n) = n.
Proof. intros. unfold region. rewrite firstn_length, skipn_length. lia. Qed.
Lemma region_bytes mem a n : bytes mem -> bytes (region mem a n).
Proof. intros. apply bytes_firstn, bytes_skipn, H. Qed.
Lemma region_split mem a n : (a + n <= length mem)%nat -> skipn a mem = region mem a n ++ skipn (a + n) mem.
Proof. intros. unfold region. rewrite <- skipn_plus. symmetry. apply firstn_skipn. Qed.
Lemma region_written mem a bs : (a + length bs <= length mem)%nat -> region (written mem a bs) a (length bs) = bs.
Proof.
  intros H. unfold region, written. rewrite skipn_app, firstn_length, Nat.min_l by lia. rewrite Nat.sub_diag.
  rewrite (skipn_all2 (firstn a mem)) by (rewrite firstn_length; lia). cbn [app skipn]. apply firstn_app_exact.
Qed.
Lemma skipn_written mem a bs : (a + length bs <= length mem)%nat -> skipn a (written mem a bs) = bs ++ skipn (a + length bs) mem.
Proof.
  intros H. unfold written. rewrite skipn_app, firstn_length, Nat.min_l by lia. rewrite Nat.sub_diag.
  rewrite (skipn_all2 (firstn a mem)) by (rewrite firstn_length; lia). reflexivity.
Qed.
Lemma written_bytes mem a bs : bytes mem -> bytes bs -> bytes (written mem a bs).
Proof. intros. unfold written. rewrite !bytes_app. auto using bytes_firstn, bytes_skipn. Qed.

(** ** C87: hex.  The input may also lie at the upper end of the output area, as for encoding a buffer within itself. *)
Theorem C87_to_hex_memory : forall mem buf n str upper, bytes mem ->
  (buf + n <= length mem)%nat -> (str + to_hex_length n <= length mem)%nat -> (buf + n <= str \/ str + n <= buf)%nat ->
  exists text, to_hex_mem n mem buf str upper = Ok (written mem str text) /\ length text = to_hex_length n /\
    text = to_hex (region mem buf n) upper.
Proof.
  intros mem buf n str upper Hb H1 H2 H3. unfold to_hex_length in *. eexists. split; [|split; [|reflexivity]].
  - apply to_hex_mem_ok; [apply agree_refl|reflexivity|lia..].
  - destruct (C01_to_hex_exact (region mem buf n) upper (region_bytes _ _ _ Hb)) as [E _]. rewrite E, region_length by lia. reflexivity.
Qed.
Print Assumptions C87_to_hex_memory.

Theorem C87_from_hex_memory : forall mem str str_len buf, bytes mem ->
  (str + str_len <= length mem)%nat -> (buf + from_hex_length str_len <= length mem)%nat -> (buf <= str \/ str + str_len <= buf)%nat ->
  exists out, from_hex_mem mem str str_len buf = Ok (length out, written mem buf out) /\
    leading_pairs (region mem str str_len) out /\ (length out <= from_hex_length str_len)%nat.
Proof.
  intros mem str len buf Hb H1 H2 H3.
  destruct (C03_from_hex_total (region mem str len) (skipn (str + len) mem) (region_bytes _ _ _ Hb)) as (out & E & Hp & Hl).
  rewrite region_length in E, Hl by lia. rewrite <- region_split in E by lia.
  exists out. split; [|split; [exact Hp|exact Hl]].
  unfold from_hex in E. unfold from_hex_mem. cbv zeta in *. apply bind_Ok in E. destruct E as (o & E & E'). injection E' as _ <-.
  assert (Hn : (2 * Z.to_nat (Z.ldiff (Z.of_nat len) 1 / 2) <= len)%nat).
  { assert (Z.ldiff (Z.of_nat len) 1 <= Z.of_nat len) by (change 1 with (Z.ones 1); rewrite Z.ldiff_ones_r, Z.shiftl_mul_pow2, Z.shiftr_div_pow2 by lia; change (2 ^ 1) with 2; dlia).
    assert (0 <= Z.ldiff (Z.of_nat len) 1) by (apply Z.ldiff_nonneg; lia). dlia. }
  rewrite (from_hex_loop_mem _ mem mem str buf o (agree_refl _ _ _) eq_refl); [|lia|lia|exact E|lia]. cbn [bind].
  f_equal. f_equal. lia.
Qed.
Print Assumptions C87_from_hex_memory.

(** Encode somewhere, decode in place: the bytes are back. *)
Theorem C87_hex_roundtrip_memory : forall mem buf n str upper, bytes mem ->
  (buf + n <= length mem)%nat -> (str + to_hex_length n <= length mem)%nat -> (buf + n <= str \/ str + n <= buf)%nat ->
  exists mem1, to_hex_mem n mem buf str upper = Ok mem1 /\
    from_hex_mem mem1 str (to_hex_length n) str = Ok (n, written mem1 str (region mem buf n)).
Proof.
  intros mem buf n str upper Hb H1 H2 H3.
  destruct (C87_to_hex_memory mem buf n str upper Hb H1 H2 H3) as (text & E & Hl & Et). exists (written mem str text). split; [exact E|].
  assert (Hbr := region_bytes mem buf n Hb).
  assert (Hlw : length (written mem str text) = length mem) by (apply written_length; lia).
  assert (Ef := C02_hex_roundtrip (region mem buf n) upper (skipn (str + length text) mem) Hbr).
  rewrite <- Et, region_length in Ef by lia. rewrite <- skipn_written in Ef by lia. rewrite Hl in Ef.
  unfold from_hex in Ef. unfold from_hex_mem. cbv zeta in *. apply bind_Ok in Ef. destruct Ef as (o & Ef & E'). injection E' as E1 ->.
  rewrite (from_hex_loop_mem _ _ (written mem str text) str str (region mem buf n) (agree_refl _ _ _) eq_refl); [|unfold to_hex_length in *..|exact Ef|rewrite region_length; unfold to_hex_length in *; lia].
  - cbn [bind]. rewrite region_length by lia. f_equal. f_equal. lia.
  - change 1 with (Z.ones 1). rewrite Z.ldiff_ones_r, Z.shiftl_mul_pow2, Z.shiftr_div_pow2 by lia. change (2 ^ 1) with 2. dlia.
  - lia.
Qed.
Print Assumptions C87_hex_roundtrip_memory.

(** ** C88: base64 *)
Theorem C88_to_base64_memory : forall mem buf n str, bytes mem ->
  (buf + n <= length mem)%nat -> (str + to_base64_length n <= length mem)%nat -> disjoint buf n str (to_base64_length n) ->
  to_base64_mem mem buf n str = Ok (written mem str (rfc4648_base64 (region mem buf n))) /\
  length (rfc4648_base64 (region mem buf n)) = to_base64_length n.
Proof.
  intros mem buf n str Hb H1 H2 H3. destruct (C12_to_base64_rfc4648 (region mem buf n) (region_bytes _ _ _ Hb)) as [E Hl].
  rewrite region_length in Hl by lia. rewrite <- E. split; [|exact Hl]. unfold disjoint in H3.
  unfold to_base64_mem, to_base64_mem_, to_base64 in *. cbv zeta.
  assert (Hn : (3 * ((n - n mod 3) / 3) + n mod 3 = n)%nat).
  { pose proof (Nat.div_mod n 3 ltac:(lia)). replace (n - n mod 3)%nat with (n / 3 * 3)%nat by lia. rewrite Nat.div_mul by lia. lia. }
  apply to_base64_mem_ok with (mem0 := mem); [apply Nat.mod_upper_bound; lia|apply agree_refl|reflexivity|lia|rewrite Hn; reflexivity|lia|lia].
Qed.
Print Assumptions C88_to_base64_memory.

Theorem C88_to_base64_urlsafe_memory : forall mem buf n str, bytes mem ->
  (buf + n <= length mem)%nat -> (str + to_base64_urlsafe_length n <= length mem)%nat -> disjoint buf n str (to_base64_urlsafe_length n) ->
  to_base64_urlsafe_mem mem buf n str = Ok (written mem str (rfc4648_base64url_nopad (region mem buf n))) /\
  length (rfc4648_base64url_nopad (region mem buf n)) = to_base64_urlsafe_length n.
Proof.
  intros mem buf n str Hb H1 H2 H3. destruct (C13_to_base64_urlsafe_rfc4648 (region mem buf n) (region_bytes _ _ _ Hb)) as [E Hl].
  rewrite region_length in Hl by lia. rewrite <- E. split; [|exact Hl]. unfold disjoint in H3.
  unfold to_base64_urlsafe_mem, to_base64_mem_, to_base64_urlsafe in *. cbv zeta.
  assert (Hn : (3 * ((n - n mod 3) / 3) + n mod 3 = n)%nat).
  { pose proof (Nat.div_mod n 3 ltac:(lia)). replace (n - n mod 3)%nat with (n / 3 * 3)%nat by lia. rewrite Nat.div_mul by lia. lia. }
  apply to_base64_mem_ok with (mem0 := mem); [apply Nat.mod_upper_bound; lia|apply agree_refl|reflexivity|lia|rewrite Hn; reflexivity|lia|lia].
Qed.
Print Assumptions C88_to_base64_urlsafe_memory.

Lemma from_base64__mem mem mem0 str len buf u n out : mem = mem0 ->
  (str + len <= length mem)%nat -> (buf <= str \/ str + len <= buf)%nat ->
  from_base64_ (skipn str mem0) len u = Ok (n, out) -> (buf + length out <= length mem)%nat ->
  from_base64_mem_ mem str len buf u = Ok (n, written mem buf out).
Proof.
  intros -> H1 H2 E H3. unfold from_base64_ in E. unfold from_base64_mem_. cbv zeta in *.
  apply bind_Ok in E. destruct E as (o & E & E'). injection E' as <- <-.
  assert (Hn : (4 * ((len - len mod 4) / 4) + len mod 4 = len)%nat).
  { pose proof (Nat.div_mod len 4 ltac:(lia)). replace (len - len mod 4)%nat with (len / 4 * 4)%nat by lia. rewrite Nat.div_mul by lia. lia. }
  rewrite (from_base64_loop_mem _ _ mem0 mem0 str buf _ o); [| |apply agree_refl|reflexivity|lia|lia|exact E|lia].
  - cbn [bind]. f_equal. f_equal. lia.
  - apply Nat.mod_upper_bound. lia.
Qed.

(** What is returned and written is determined by the original text as in C16, also in place. *)
Theorem C88_from_base64_urlsafe_memory : forall mem str len buf, bytes mem ->
  (str + len <= length mem)%nat -> (buf + from_base64_urlsafe_length len <= length mem)%nat -> (buf <= str \/ str + len <= buf)%nat ->
  exists vals, valid_blocks (b64_value true) 4 (region mem str len) vals /\
    from_base64_urlsafe_mem mem str len buf = Ok (length (regroup_bytes 6 vals), written mem buf (regroup_bytes 6 vals)) /\
    (length (regroup_bytes 6 vals) <= from_base64_urlsafe_length len)%nat.
Proof.
  intros mem str len buf Hb H1 H2 H3.
  destruct (C16_from_base64_urlsafe_total (region mem str len) (skipn (str + len) mem) (region_bytes _ _ _ Hb)) as (v & V & E & Hl).
  rewrite region_length in E, Hl by lia. rewrite <- region_split in E by lia.
  exists v. split; [exact V|]. split; [|exact Hl].
  unfold from_base64_urlsafe_mem. eapply from_base64__mem; [reflexivity|lia|lia|exact E|lia].
Qed.
Print Assumptions C88_from_base64_urlsafe_memory.

Theorem C88_from_base64_memory : forall mem str len buf cap, bytes mem ->
  (str + len <= length mem)%nat -> from_base64_length (region mem str len) len = Ok cap -> (buf + cap <= length mem)%nat ->
  (buf <= str \/ str + len <= buf)%nat ->
  exists body pad vals, region mem str len = body ++ repeat 61 pad /\ (pad <= 2)%nat /\
    (pad = 2%nat \/ forall b0, body <> b0 ++ [61]) /\
    valid_blocks (b64_lax_value false) 4 body vals /\
    from_base64_mem mem str len buf = Ok (length (regroup_bytes 6 vals), written mem buf (regroup_bytes 6 vals)) /\
    (length (regroup_bytes 6 vals) <= cap)%nat.
Proof.
  intros mem str len buf cap Hb H1 Hc H2 H3.
  destruct (C16_from_base64_total (region mem str len) (skipn (str + len) mem) (region_bytes _ _ _ Hb)) as (body & pad & v & Er & Hp & Hp' & V & E & El & Hl).
  rewrite region_length in E, El by lia. rewrite <- region_split in E, El by lia.
  assert (Hsp : forall l r, strip_pad (l ++ r) (length l) = strip_pad l (length l)).
  { intros l r. unfold strip_pad. destruct (Nat.ltb_spec 0 (length l)); [|reflexivity].
    assert (Hr : forall j, (j < length l)%nat -> rd (l ++ r) j = rd l j) by (intros j Hj; unfold rd; rewrite nth_error_app1 by lia; reflexivity).
    rewrite (Hr (length l - 1)%nat) by lia. destruct (rd l (length l - 1)) as [c| |]; cbn [bind]; try reflexivity.
    destruct (c =? 61); [|reflexivity]. destruct (Nat.ltb_spec 0 (length l - 1)); [|reflexivity]. rewrite Hr by lia. reflexivity. }
  assert (Hcap : cap = from_base64_urlsafe_length (length body)).
  { unfold from_base64_length in *. pose proof (Hsp (region mem str len) (skipn (str + len) mem)) as Hs.
    rewrite region_length, <- region_split in Hs by lia. rewrite Hs in El. rewrite Hc in El. congruence. }
  exists body, pad, v. repeat (split; [assumption|]). split; [|lia].
  unfold from_base64 in E. unfold from_base64_mem. apply bind_Ok in E. destruct E as (sl & Es & E). rewrite Es. cbn [bind].
  assert (Hsl : (sl <= len)%nat).
  { clear - Es. unfold strip_pad in Es. destruct (0 <? len)%nat; [|injection Es; lia].
    apply bind_Ok in Es. destruct Es as (c & _ & Es). destruct (c =? 61); [|injection Es; lia].
    destruct (0 <? len - 1)%nat; [|injection Es; lia]. apply bind_Ok in Es. destruct Es as (c' & _ & Es). destruct (c' =? 61); injection Es; lia. }
  eapply from_base64__mem; [reflexivity|lia|lia|exact E|lia].
Qed.
Print Assumptions C88_from_base64_memory.

Theorem C88_base64_roundtrip_memory : forall mem buf n str, bytes mem ->
  (buf + n <= length mem)%nat -> (str + to_base64_length n <= length mem)%nat -> disjoint buf n str (to_base64_length n) ->
  exists mem1, to_base64_mem mem buf n str = Ok mem1 /\
    from_base64_mem mem1 str (to_base64_length n) str = Ok (n, written mem1 str (region mem buf n)).
Proof.
  intros mem buf n str Hb H1 H2 H3. destruct (C88_to_base64_memory mem buf n str Hb H1 H2 H3) as [E Hl].
  eexists. split; [exact E|]. pose proof (region_bytes mem buf n Hb) as Hbr.
  destruct (C12_to_base64_rfc4648 (region mem buf n) Hbr) as [Er _]. rewrite <- Er in *. clear Er.
  set (text := to_base64 (region mem buf n)) in *.
  assert (Hlw : length (written mem str text) = length mem) by (apply written_length; lia).
  destruct (C14_base64_roundtrip (region mem buf n) (skipn (str + length text) mem) Hbr) as [Ef _]. fold text in Ef.
  rewrite <- skipn_written in Ef by lia. rewrite Hl, region_length in Ef by lia.
  unfold from_base64 in Ef. unfold from_base64_mem. apply bind_Ok in Ef. destruct Ef as (sl & Es & Ef). rewrite Es. cbn [bind].
  assert (Hsl : (sl <= to_base64_length n)%nat).
  { clear - Es. unfold strip_pad in Es. destruct (0 <? _)%nat; [|injection Es; lia].
    apply bind_Ok in Es. destruct Es as (c & _ & Es). destruct (c =? 61); [|injection Es; lia].
    destruct (0 <? _)%nat; [|injection Es; lia]. apply bind_Ok in Es. destruct Es as (c' & _ & Es). destruct (c' =? 61); injection Es; lia. }
  eapply from_base64__mem; [reflexivity|lia|lia|exact Ef|].
  rewrite region_length by lia. unfold to_base64_length in *. pose proof (Nat.div_mod (n + 2) 3 ltac:(lia)). pose proof (Nat.mod_upper_bound (n + 2) 3 ltac:(lia)). lia.
Qed.
Print Assumptions C88_base64_roundtrip_memory.

(** ** C89: base32 *)
Theorem C89_to_base32_memory : forall mem buf n out, bytes mem ->
  (buf + n <= length mem)%nat -> (out + to_base32_length n <= length mem)%nat -> disjoint buf n out (to_base32_length n) ->
  to_base32_mem mem buf n out = Ok (written mem out (rfc4648_base32_lower (region mem buf n))) /\
  length (rfc4648_base32_lower (region mem buf n)) = to_base32_length n.
Proof.
  intros mem buf n out Hb H1 H2 H3. destruct (C18_to_base32_rfc4648 (region mem buf n) (region_bytes _ _ _ Hb)) as [E Hl].
  rewrite region_length in Hl by lia. rewrite <- E. split; [|exact Hl]. unfold disjoint in H3.
  unfold to_base32_mem, to_base32_mem_, to_base32 in *. cbv zeta.
  assert (Hn : (5 * ((n - n mod 5) / 5) + n mod 5 = n)%nat).
  { pose proof (Nat.div_mod n 5 ltac:(lia)). replace (n - n mod 5)%nat with (n / 5 * 5)%nat by lia. rewrite Nat.div_mul by lia. lia. }
  rewrite (to_base32_mem_ok _ _ mem mem buf out false (to_base32_chars (region mem buf n) false)); [reflexivity|apply Nat.mod_upper_bound; lia|apply agree_refl|reflexivity|lia|rewrite Hn; reflexivity|lia|lia].
Qed.
Print Assumptions C89_to_base32_memory.

Theorem C89_to_base32_raw_memory : forall mem buf n out, bytes mem ->
  let size := ((8 * n + 4) / 5)%nat in
  (buf + n <= length mem)%nat -> (out + size <= length mem)%nat -> disjoint buf n out size ->
  to_base32_raw_mem mem buf n out = Ok (size, written mem out (regroup_pad 5 (region mem buf n))) /\
  length (regroup_pad 5 (region mem buf n)) = size.
Proof.
  intros mem buf n out Hb size H1 H2 H3. pose proof (C19_to_base32_raw (region mem buf n) (region_bytes _ _ _ Hb)) as Hr.
  unfold to_base32_raw in Hr. rewrite region_length in Hr by lia. destruct Hr as (E & Hs & Hs' & _). rewrite <- E.
  assert (Hl : length (to_base32_chars (region mem buf n) true) = size) by (unfold size; rewrite <- Hs', Hs; reflexivity).
  split; [|exact Hl]. unfold disjoint in H3.
  unfold to_base32_raw_mem, to_base32_mem_. cbv zeta.
  assert (Hn : (5 * ((n - n mod 5) / 5) + n mod 5 = n)%nat).
  { pose proof (Nat.div_mod n 5 ltac:(lia)). replace (n - n mod 5)%nat with (n / 5 * 5)%nat by lia. rewrite Nat.div_mul by lia. lia. }
  rewrite (to_base32_mem_ok _ _ mem mem buf out true (to_base32_chars (region mem buf n) true)); [|apply Nat.mod_upper_bound; lia|apply agree_refl|reflexivity|lia|rewrite Hn; reflexivity|lia|lia].
  cbn [bind]. rewrite Hs'. reflexivity.
Qed.
Print Assumptions C89_to_base32_raw_memory.

(** A '=' that the decoder would find behind the text (C21, C22): after [len] characters, before any NUL. *)
Definition late_pad (mem : list Z) (str len : nat) : Prop :=
  exists p q, skipn str mem = p ++ 61 :: q /\ ~ In 61 p /\ ~ In 0 p /\ (len < length p)%nat.

Lemma strchr_found : forall l i, strchr 61 l = Ok (Some i) -> exists p q, l = p ++ 61 :: q /\ ~ In 61 p /\ ~ In 0 p /\ length p = i.
Proof.
  induction l as [|x l IH]; intros i E; cbn [strchr] in E; [discriminate|].
  destruct (Z.eqb_spec x 61) as [->|N1].
  - injection E as <-. exists [], l. repeat split; auto.
  - destruct (Z.eqb_spec x 0) as [->|N2]; [discriminate|]. apply bind_Ok in E. destruct E as ([j|] & E & E'); [|discriminate].
    cbn in E'. injection E' as <-. destruct (IH j E) as (p & q & -> & G1 & G2 & G3). exists (x :: p), q.
    repeat split; [intros [H|H]; [congruence|contradiction]|intros [H|H]; [congruence|contradiction]|cbn [length]; lia].
Qed.

Lemma from_base32__mem mem str len buf raw n out :
  (buf <= str \/ str + len <= buf /\ ~ late_pad mem str len)%nat ->
  from_base32_ (skipn str mem) len raw = Ok (n, out) -> (buf + length out <= length mem)%nat ->
  from_base32_mem_ mem str len buf raw = Ok (n, written mem buf out).
Proof.
  intros Hov E Hd. unfold from_base32_ in E. unfold from_base32_mem_. apply bind_Ok in E. destruct E as (nl & En & E). rewrite En. cbn [bind].
  apply bind_Ok in E. destruct E as (o & E & E'). injection E' as <- <-.
  assert (Hn : (8 * (nl / 8) + nl mod 8 = nl)%nat) by (symmetry; apply Nat.div_mod; lia).
  assert (Hnl : (buf <= str \/ str + nl <= buf)%nat).
  { destruct Hov as [H|[H Hp]]; [left; exact H|]. right. unfold base32_strlen in En. apply bind_Ok in En. destruct En as ([i|] & Es & En); injection En as <-; [|exact H].
    destruct (strchr_found _ _ Es) as (p & q & E1 & E2 & E3 & E4).
    destruct (Nat.ltb_spec len i); [|lia]. exfalso. apply Hp. exists p, q. repeat split; try assumption. lia. }
  rewrite (from_base32_loop_mem _ _ mem mem str buf _ o); [|apply Nat.mod_upper_bound; lia|apply agree_refl|reflexivity|lia|exact E|exact Hd].
  cbn [bind]. f_equal. f_equal. lia.
Qed.

(** The result is the one for the original text (C20-C22 say which), also in place: no byte is overwritten before it is read. *)
Theorem C89_from_base32_memory : forall mem str len buf n out,
  from_base32 (skipn str mem) len = Ok (n, out) -> (buf + length out <= length mem)%nat ->
  (buf <= str \/ str + len <= buf /\ ~ late_pad mem str len)%nat ->
  from_base32_mem mem str len buf = Ok (n, written mem buf out).
Proof. intros mem str len buf n out E Hd Hov. apply from_base32__mem; assumption. Qed.
Print Assumptions C89_from_base32_memory.

Theorem C89_from_base32_raw_memory : forall mem str len buf n out,
  from_base32_raw (skipn str mem) len = Ok (n, out) -> (buf + length out <= length mem)%nat ->
  (buf <= str \/ str + len <= buf /\ ~ late_pad mem str len)%nat ->
  from_base32_raw_mem mem str len buf = Ok (n, written mem buf out).
Proof. intros mem str len buf n out E Hd Hov. apply from_base32__mem; assumption. Qed.
Print Assumptions C89_from_base32_raw_memory.

(** Encode, terminate with a NUL, decode in place. *)
Theorem C89_base32_roundtrip_memory : forall mem buf n out, bytes mem ->
  (buf + n <= length mem)%nat -> (out + to_base32_length n < length mem)%nat -> disjoint buf n out (to_base32_length n) ->
  nth_error mem (out + to_base32_length n) = Some 0 ->
  exists mem1, to_base32_mem mem buf n out = Ok mem1 /\
    from_base32_mem mem1 out (to_base32_length n) out = Ok (n, written mem1 out (region mem buf n)).
Proof.
  intros mem buf n out Hb H1 H2 H3 H0. destruct (C89_to_base32_memory mem buf n out Hb H1 ltac:(lia) H3) as [E Hl].
  eexists. split; [exact E|]. pose proof (region_bytes mem buf n Hb) as Hbr.
  destruct (C18_to_base32_rfc4648 (region mem buf n) Hbr) as [Er _]. rewrite <- Er in *. clear Er.
  set (text := to_base32 (region mem buf n)) in *.
  assert (Hlw : length (written mem out text) = length mem) by (apply written_length; lia).
  destruct (C20_base32_roundtrip (region mem buf n) (skipn (out + length text) mem) Hbr) as [Ef _].
  { left. rewrite Hl. rewrite (skipn_nth mem _ 0 H0). eexists. reflexivity. }
  fold text in Ef. rewrite <- skipn_written in Ef by lia. rewrite Hl, region_length in Ef by lia.
  apply C89_from_base32_memory; [exact Ef| |left; lia].
  rewrite region_length, Hlw by lia. unfold to_base32_length in *. pose proof (Nat.div_mod (n + 4) 5 ltac:(lia)). pose proof (Nat.mod_upper_bound (n + 4) 5 ltac:(lia)). lia.
Qed.
Print Assumptions C89_base32_roundtrip_memory.

(** ** C90: variable length integers: exactly the returned number of bytes is written. *)
Theorem C90_encode_varint_memory : forall v mem buf, 0 <= v < 2 ^ 64 -> (buf + 10 <= length mem)%nat ->
  exists out, encode_varint_mem v mem buf = Ok (length out, written mem buf out) /\ (1 <= length out <= 10)%nat /\
    varint_string out /\ varint_value out = v.
Proof.
  intros v mem buf Hv H. destruct (encode_total v Hv) as (l & E & Hs & Hval & Hl). exists l.
  split; [apply encode_varint_mem_ok; [exact E|lia]|]. auto.
Qed.
Print Assumptions C90_encode_varint_memory.

(** Buffers shorter than 10 bytes are enough when the encoding is shorter. *)
Theorem C90_encode_varint_tight : forall v mem buf out, 0 <= v < 2 ^ 64 -> varint_string out -> varint_value out = v ->
  ((buf + length out <= length mem)%nat -> encode_varint_mem v mem buf = Ok (length out, written mem buf out)) /\
  ((length mem < buf + length out)%nat -> encode_varint_mem v mem buf = UB).
Proof.
  intros v mem buf out Hv Hs Hval. destruct (encode_total v Hv) as (l & E & Hs' & Hval' & Hl).
  assert (l = out) by (apply string_unique; [assumption..|congruence]). subst l. split; intros H.
  - apply encode_varint_mem_ok; assumption.
  - unfold encode_varint in E. unfold encode_varint_mem. apply bind_Ok in E. destruct E as (o & E & E'). injection E' as _ ->. rewrite E. cbn [bind].
    assert (U : forall vs m a, (length m < a + length vs)%nat -> puts m a vs = UB \/ vs = []).
    { induction vs as [|x vs IH]; intros m a Hm; [right; reflexivity|]. left. cbn [puts length] in *. unfold put, store. cbn [length].
      destruct (Nat.leb_spec (a + 1) (length m)); [|reflexivity]. cbn [bind].
      destruct (IH (firstn a m ++ [x] ++ skipn (a + 1) m) (S a)) as [->| ->]; [|reflexivity|].
      - rewrite !app_length, firstn_length, skipn_length. cbn [length]. lia.
      - cbn [length] in *. lia. }
    destruct (U out mem buf H) as [->| ->]; [reflexivity|]. cbn [length] in Hl. lia.
Qed.
Print Assumptions C90_encode_varint_tight.

Theorem C90_encode_zigzag_memory : forall v mem buf, INT64_MIN < v <= INT64_MAX -> (buf + 10 <= length mem)%nat ->
  exists out, encode_zigzag_mem v mem buf = Ok (length out, written mem buf out) /\ (1 <= length out <= 10)%nat /\
    varint_string out /\ varint_value out = 2 * Z.abs v + (if v <? 0 then 1 else 0).
Proof.
  intros v mem buf Hv H. destruct (C10_encode_zigzag_meaning_partial v Hv) as (l & E & Hb & Hl & Hs & Hval). exists l.
  split; [|auto]. unfold encode_zigzag in E. unfold encode_zigzag_mem. apply bind_Ok in E. destruct E as (o & E & E'). rewrite E. cbn [bind]. cbv zeta in *.
  apply encode_varint_mem_ok; [exact E'|lia].
Qed.
Print Assumptions C90_encode_zigzag_memory.

(** ** Non-vacuity *)
Example C87_ex_inplace : from_hex_mem [9; 52; 49; 52; 50; 52; 122; 7] 1 6 1 = Ok (2%nat, [9; 65; 66; 52; 50; 52; 122; 7]).
Proof. vm_compute. reflexivity. Qed.
Example C87_ex_self : to_hex_mem 2 [0; 0; 255; 1] 2 0 0 = Ok [102; 102; 48; 49].
Proof. vm_compute. reflexivity. Qed.
(** outside the hypotheses (the output starts inside the input) the encoder does destroy its input *)
Example C87_ex_overlap : to_hex_mem 2 [255; 1; 0; 0; 0] 0 1 0 = Ok [255; 102; 102; 54; 54].
Proof. vm_compute. reflexivity. Qed.
Example C88_ex_inplace : from_base64_mem [81; 85; 74; 68; 81; 81; 61; 61; 5] 0 8 0 = Ok (4%nat, [65; 66; 67; 65; 81; 81; 61; 61; 5]).
Proof. vm_compute. reflexivity. Qed.
Example C89_ex_inplace : to_base32_mem [0; 0; 0; 0; 0; 0; 0; 0; 0; 0; 104; 105] 10 2 1 = Ok [0; 110; 98; 117; 113; 61; 61; 61; 61; 0; 104; 105] /\
  from_base32_mem [0; 110; 98; 117; 113; 61; 61; 61; 61; 0; 104; 105] 1 8 1 = Ok (2%nat, [0; 104; 105; 117; 113; 61; 61; 61; 61; 0; 104; 105]).
Proof. split; vm_compute; reflexivity. Qed.
Example C90_ex : encode_varint_mem 16512 [7; 7; 7; 7; 7] 1 = Ok (3%nat, [7; 128; 128; 0; 7]) /\ encode_varint_mem 16512 [7; 7; 7] 1 = UB.
Proof. split; vm_compute; reflexivity. Qed.
