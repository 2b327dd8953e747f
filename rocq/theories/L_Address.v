(** Addresses. *)
From Verif Require Import Base M_Endian L_Endian S_Bits L_Bits S_Rfc4648 L_Rfc M_Base32 L_Base32 P_Base32 S_Base58 M_Base58 L_Base58 P_Base58
  S_Sha2 L_Sha2Top M_Hash L_Hash S_Base58Check M_Base58Check L_Base58Check P_Base58Check M_Bech32 S_Bech32 L_Bch L_Bech32 M_Address S_Address.

(** * Witness encoders *)
Lemma raw_facts prog : bytes prog -> to_base32_raw prog = (length (regroup_pad 5 prog), regroup_pad 5 prog) /\
  Forall sym (regroup_pad 5 prog) /\ length (regroup_pad 5 prog) = ((8 * length prog + 4) / 5)%nat.
Proof.
  intros Hb. pose proof (C19_to_base32_raw prog Hb) as H. destruct (to_base32_raw prog) as [n v].
  destruct H as (-> & -> & E & F). split; [reflexivity|]. split; [exact F|exact E].
Qed.
Lemma encode_witness_ok cap ver prog out_size p : bytes prog -> sym ver -> bytes (cp_hrp p) ->
  (1 + length (regroup_pad 5 prog) <= cap)%nat ->
  let text := witness_text (cp_hrp p) ver prog in
  length text = (length (cp_hrp p) + length (regroup_pad 5 prog) + 8)%nat /\
  encode_witness cap ver prog out_size p =
    if (out_size <? length text)%nat then Ok (0%nat, []) else Ok (length text, text).
Proof.
  intros Hb Hv Hh Hc text. destruct (raw_facts prog Hb) as (R & F & _).
  assert (Fd : Forall sym (ver :: regroup_pad 5 prog)) by now constructor.
  assert (Lt : length text = (length (cp_hrp p) + length (regroup_pad 5 prog) + 8)%nat).
  { unfold text, witness_text. destruct (checksum_verifies (cp_hrp p) (ver :: regroup_pad 5 prog) Hh Fd) as (_ & L6 & _).
    rewrite !app_length, map_length, app_length, L6. cbn [length]. lia. }
  split; [exact Lt|]. unfold encode_witness. rewrite R. set (vals := regroup_pad 5 prog) in *.
  destruct cap as [|cap]; [lia|].
  change (store (uninit (S cap)) 0 [ver]) with (store ([] ++ uninit (S cap)) (length (@nil Z)) [ver]).
  rewrite store_uninit by (cbn [length]; lia). cbn [bind app length]. replace (S cap - 1)%nat with cap by lia.
  change (ver :: uninit cap) with ([ver] ++ uninit cap). change (store ([ver] ++ uninit cap) 1 vals) with (store ([ver] ++ uninit cap) (length [ver]) vals).
  rewrite store_uninit by lia. cbn [bind].
  unfold bech32_encode_length. replace (length (cp_hrp p) + (length vals + 1) + 7)%nat with (length text) by lia.
  destruct (out_size <? length text)%nat; [reflexivity|].
  rewrite slice_ok by (rewrite !app_length, uninit_length; cbn [length]; lia). cbn [bind].
  assert (Ew : firstn (length vals + 1) (skipn 0 ([ver] ++ vals ++ uninit (cap - length vals))) = ver :: vals).
  { change (skipn 0 ([ver] ++ vals ++ uninit (cap - length vals))) with ((ver :: vals) ++ uninit (cap - length vals)).
    replace (length vals + 1)%nat with (length (ver :: vals)) by (cbn [length]; lia). apply firstn_app_exact. }
  rewrite Ew. rewrite bech32_encode_ok by assumption. reflexivity.
Qed.

Lemma Forall_firstn {A} (P : A -> Prop) n l : Forall P l -> Forall P (firstn n l).
Proof. intros F. rewrite <- (firstn_skipn n l) in F. apply Forall_app in F. tauto. Qed.
Lemma Forall_skipn {A} (P : A -> Prop) n l : Forall P l -> Forall P (skipn n l).
Proof. intros F. rewrite <- (firstn_skipn n l) in F. apply Forall_app in F. tauto. Qed.

(** * Raw base 32 decoding of 5-bit values *)
Lemma all_values_raw vals : Forall sym vals -> all_values (b32_val true) vals = Some vals.
Proof.
  induction 1 as [|v l Hv F IH]; [reflexivity|]. cbn [all_values]. rewrite IH. destruct (char_val true v Hv) as (E & _). cbn [b32_enc] in E. now rewrite E.
Qed.
Lemma raw_decode vals rest : Forall sym vals -> nul_first (vals ++ rest) ->
  exists prog, from_base32_raw (vals ++ rest) (length vals) = Ok (length prog, prog) /\
    length prog = from_base32_raw_length (length vals) /\
    (b32_good_length (length vals) -> prog = regroup_bytes 5 vals).
Proof.
  intros F (a & b & E & N). unfold from_base32_raw, from_base32_, base32_strlen.
  assert (SN : strchr 61 (vals ++ rest) = Ok None) by (rewrite E; now apply strchr_none). rewrite SN. cbn [bind].
  assert (A : Forall L_Base32.is_ascii vals) by (eapply Forall_impl; [|exact F]; unfold sym, L_Base32.is_ascii; intros; lia).
  destruct (blocks_gen true vals rest A) as (out & -> & vs & tl & VB & Eo & M). cbn [bind]. exists out. split; [reflexivity|].
  assert (AV : forall l, Forall sym l -> all_values (b32_val true) l = Some l) by (intros; now apply all_values_raw).
  set (full := firstn (8 * (length vals / 8)) vals) in *.
  assert (Ff : Forall sym full) by (now apply Forall_firstn).
  rewrite (AV full Ff) in M. destruct M as [M1 M2]. split; [|intros G; now apply M2, AV].
  assert (Evs : vs = full).
  { clear Eo M1 M2. revert Ff VB. generalize full. intros l Fl VB. induction VB as [|text Hn Hb|text v0 r Hn Hs HB IH]; [reflexivity| |].
    - exfalso. rewrite AV in Hb; [discriminate|]. now apply Forall_firstn.
    - rewrite AV in Hs by (now apply Forall_firstn).
      assert (Hs' : firstn 8 text = v0) by (revert Hs; generalize (firstn 8 text); intros w Hw; congruence). rewrite <- Hs'.
      rewrite IH by (now apply Forall_skipn). apply firstn_skipn. }
  subst vs. rewrite Eo, app_length, M1, raw_len_eq. f_equal.
  rewrite regroup_bytes_length. unfold full. rewrite firstn_length.
  pose proof (Nat.div_mod (length vals) 8 ltac:(lia)).
  rewrite Nat.min_l by lia. replace (5 * (8 * (length vals / 8)))%nat with (length vals / 8 * 5 * 8)%nat by lia. apply Nat.div_mul. lia.
Qed.

Lemma blocks_local raw text rest1 rest2 : Forall L_Base32.is_ascii text ->
  from_base32_blocks (length text / 8) (length text mod 8) (text ++ rest1) (b32_decode_str raw) =
  from_base32_blocks (length text / 8) (length text mod 8) (text ++ rest2) (b32_decode_str raw).
Proof.
  intros F.
  assert (D : forall i t r1 r2, (i < length t)%nat -> dec_char (b32_decode_str raw) (t ++ r1) i = dec_char (b32_decode_str raw) (t ++ r2) i).
  { intros i t r1 r2 Hi. unfold dec_char, rd. now rewrite !nth_error_app1 by exact Hi. }
  pose proof (Nat.div_mod (length text) 8 ltac:(lia)) as DM. pose proof (Nat.mod_upper_bound (length text) 8 ltac:(lia)) as MB.
  set (q := (length text / 8)%nat) in *. set (m := (length text mod 8)%nat) in *. clearbody q m. clear F. revert text DM.
  induction q as [|q IH]; intros text DM; cbn [from_base32_blocks].
  - unfold from_base32_tail. destruct m as [|[|[|[|[|[|[|[|]]]]]]]]; try reflexivity; try lia; cbn -[dec_char b32_o0 b32_o1 b32_o2 b32_o3 b32_o4 b32_decode_str app];
    rewrite ?(D 0%nat text rest1 rest2), ?(D 1%nat text rest1 rest2), ?(D 2%nat text rest1 rest2), ?(D 3%nat text rest1 rest2), ?(D 4%nat text rest1 rest2), ?(D 5%nat text rest1 rest2), ?(D 6%nat text rest1 rest2) by lia; reflexivity.
  - rewrite (D 0%nat text rest1 rest2), (D 1%nat text rest1 rest2), (D 2%nat text rest1 rest2), (D 3%nat text rest1 rest2), (D 4%nat text rest1 rest2), (D 5%nat text rest1 rest2), (D 6%nat text rest1 rest2), (D 7%nat text rest1 rest2) by lia.
    rewrite !skipn_app. replace (8 - length text)%nat with 0%nat by lia. change (skipn 0 rest1) with rest1. change (skipn 0 rest2) with rest2.
    assert (L8 : length (skipn 8 text) = (8 * q + m)%nat) by (rewrite skipn_length; lia).
    rewrite (IH (skipn 8 text)) by lia. reflexivity.
Qed.

(** * Witness decoding *)
Lemma overlay_length a b : length (overlay a b) = Nat.max (length a) (length b).
Proof. unfold overlay. rewrite app_length, skipn_length. lia. Qed.
Lemma overlay_firstn a b : firstn (length a) (overlay a b) = a.
Proof. apply firstn_app_exact. Qed.

Lemma decode_bech32_ok s rest p ver vals stack out out_size :
  bech32_valid s (cp_hrp p) (ver :: vals) -> (length (cp_hrp p) <= 16)%nat -> length stack = 128%nat ->
  nul_first (vals ++ skipn (S (length vals)) stack) ->
  (from_base32_raw_length (length vals) <= out_size)%nat ->
  exists prog, length prog = from_base32_raw_length (length vals) /\
    (b32_good_length (length vals) -> prog = regroup_bytes 5 vals) /\
    decode_bech32 (s ++ 0 :: rest) (length s) out out_size p stack =
      Ok (if ver =? 0 then
            mkAddr (if (length prog =? 20)%nat then WITNESSV0_KEYHASH_ADDRESS
                    else if (length prog =? 32)%nat then WITNESSV0_SCRIPTHASH_ADDRESS else BAD_ADDRESS)
                   (length prog) (overlay prog out)
          else
            mkAddr (if (16 <? ver) || (length prog <? 2)%nat || (40 <? length prog)%nat then BAD_ADDRESS else WITNESS_UNKNOWN_ADDRESS)
                   (length prog + 1) (overlay (ver :: prog) out)).
Proof.
  intros V Hh Hs Hn Ho. pose proof V as (L90 & _ & _ & h & d & chk & Es & Hne & _ & Eh & F & Lc & M & _).
  apply Forall_app in F as [F _]. inversion F as [|? ? Hv Fv]; subst x l.
  assert (Ld : length d = (S (length vals) + 6)%nat).
  { apply (f_equal (@length Z)) in M. rewrite !map_length, app_length in M. cbn [length] in M. rewrite Lc in M. lia. }
  assert (Lv : (length vals <= 90)%nat) by (rewrite Es, !app_length in L90; lia).
  destruct (raw_decode vals _ Fv Hn) as (prog & R & Lp & G). exists prog. split; [exact Lp|]. split; [exact G|].
  unfold decode_bech32. rewrite (bech32_decode_accepts s rest (cp_hrp p) (ver :: vals) 16 V Hh). cbn [bind b_ret b_hrp_size b_hrp b_data].
  rewrite Nat.eqb_refl. rewrite (proj2 (bytes_eqb_eq (cp_hrp p) (cp_hrp p)) eq_refl). cbn [length].
  replace (Z.of_nat (S (length vals)) <? 1) with false by lia. cbn [negb orb].
  rewrite store_ok by (cbn [length]; lia). cbn [bind length firstn app].
  replace (Z.to_nat (Z.of_nat (S (length vals)) - 1)) with (length vals) by lia.
  replace (from_base32_raw_length (length vals) <=? out_size)%nat with true by lia.
  cbn [rd nth_error bind skipn]. cbn [Nat.add]. rewrite R. unfold as_char. unfold five_bit in Hv.
  replace (ver <? 128) with true by lia. destruct (Z.eqb_spec ver 0) as [->|Hnz]; cbn [bind].
  - unfold WITNESSV0_KEYID_SIZE, WITNESSV0_SCRIPTID_SIZE. destruct (length prog =? 20)%nat; [reflexivity|]. destruct (length prog =? 32)%nat; reflexivity.
  - rewrite u8_id by (unfold is_byte; lia).
    replace ((16 <? ver) || (length prog + 1 <? 3)%nat || (41 <? length prog + 1)%nat) with ((16 <? ver) || (length prog <? 2)%nat || (40 <? length prog)%nat) by lia.
    destruct ((16 <? ver) || (length prog <? 2)%nat || (40 <? length prog)%nat); reflexivity.
Qed.
(** * The Base58Check attempt *)
Lemma bytes_eqb_firstn n l x : length x = n -> bytes_eqb (firstn n l) x = true <-> exists t, l = x ++ t.
Proof.
  intros <-. rewrite bytes_eqb_eq. split.
  - intros E. exists (skipn (length x) l). rewrite <- E at 1. symmetry. apply firstn_skipn.
  - intros (t & ->). apply firstn_app_exact.
Qed.
Lemma no_space_trim text body : Forall printable text -> trims_to text body -> body = text.
Proof.
  intros P (s1 & s2 & -> & F1 & F2). apply Forall_app in P as [P1 P]. apply Forall_app in P as [_ P2].
  assert (N : forall s, Forall is_space s -> Forall printable s -> s = []).
  { intros [|c s] F Q; [reflexivity|]. inversion F; inversion Q; subst. unfold is_space, printable in *. lia. }
  rewrite (N s1), (N s2) by assumption. now rewrite app_nil_r.
Qed.
(** * Numerals of up to [k] further digits that start with digit [c], against the numbers from [lo] up to [hi] *)
Fixpoint digit_walk (k : nat) (p lo hi c : Z) : bool :=
  match k with O => true | S k => (((c + 1) * p <=? lo) || (hi <=? c * p)) && digit_walk k (58 * p) lo hi c end.
Lemma digit_walk_ok k : forall p lo hi c n, digit_walk k p lo hi c = true -> (n < k)%nat ->
  ((c + 1) * (p * 58 ^ Z.of_nat n) <=? lo) || (hi <=? c * (p * 58 ^ Z.of_nat n)) = true.
Proof.
  induction k as [|k IH]; intros p lo hi c n H L; [lia|]. cbn [digit_walk] in H. apply andb_prop in H. destruct H as [H1 H2].
  destruct n as [|n]; [cbn; rewrite Z.mul_1_r; exact H1|]. specialize (IH _ _ _ _ n H2 ltac:(lia)).
  replace (p * 58 ^ Z.of_nat (S n)) with (58 * p * 58 ^ Z.of_nat n); [exact IH|].
  rewrite Nat2Z.inj_succ, Z.pow_succ_r by lia. ring.
Qed.
(** * First byte of the base 58 value of a text with a known beginning *)
Definition first_byte_excluded (v n x : Z) : bool :=
  let lo := v * 58 ^ n in let hi := (v + 1) * 58 ^ n - 1 in
  let b := Z.log2 lo / 8 in
  let q := 256 ^ b in
  (Z.log2 hi / 8 =? b) && (((x + 1) * q <=? lo) || (hi <? x * q)).
Lemma log2_byte x k V : 0 <= k -> 1 <= x < 256 -> x * 256 ^ k <= V < (x + 1) * 256 ^ k -> Z.log2 V / 8 = k.
Proof.
  intros Hk Hx HV. assert (P : 0 < 256 ^ k) by lia. change 256 with (2 ^ 8) in HV, P. rewrite <- Z.pow_mul_r in HV, P by lia.
  assert (L : 8 * k <= Z.log2 V < 8 * k + 8).
  { split.
    - apply Z.log2_le_pow2; nia.
    - apply Z.log2_lt_pow2; [nia|]. rewrite Z.pow_add_r by lia. change (2 ^ 8) with 256. nia. }
  symmetry. apply Z.div_unique with (Z.log2 V - 8 * k); lia.
Qed.
Lemma first_byte_ok v n x k V : 0 < v -> 0 <= n -> 0 <= k -> 1 <= x < 256 ->
  v * 58 ^ n <= V < (v + 1) * 58 ^ n -> x * 256 ^ k <= V < (x + 1) * 256 ^ k -> first_byte_excluded v n x = false.
Proof.
  intros Hv Hn Hk Hx HV HX. destruct (first_byte_excluded v n x) eqn:E; [|reflexivity]. exfalso.
  unfold first_byte_excluded in E. cbv zeta in E. apply andb_true_iff in E as [E1 E2]. apply Z.eqb_eq in E1.
  set (lo := v * 58 ^ n) in *. set (hi := (v + 1) * 58 ^ n - 1) in *.
  assert (P58 : 0 < 58 ^ n) by lia. assert (0 < lo) by (unfold lo; nia).
  pose proof (log2_byte x k V Hk Hx HX) as LV.
  assert (B : Z.log2 lo / 8 = k).
  { pose proof (Z.log2_le_mono lo V ltac:(lia)). pose proof (Z.log2_le_mono V hi ltac:(lia)).
    pose proof (Z.div_le_mono (Z.log2 lo) (Z.log2 V) 8 ltac:(lia) ltac:(lia)).
    pose proof (Z.div_le_mono (Z.log2 V) (Z.log2 hi) 8 ltac:(lia) ltac:(lia)). lia. }
  rewrite B in E2. lia.
Qed.
Lemma base58_first_byte pd t x d : digits 58 pd -> (forall r, pd <> 0 :: r) -> pd <> [] -> bytes (x :: d) ->
  is_base58 (x :: d) (map b58_char pd ++ t) ->
  first_byte_excluded (numeral_value 58 pd) (Z.of_nat (length t)) x = false.
Proof.
  intros Dp Hp Np Bx (z & r & ds & E & Hr & (Fd & Vd & Ld) & Et).
  destruct pd as [|p0 pd]; [congruence|]. inversion Dp as [|? ? H0 Dp']; subst x0 l.
  destruct (dec_digit p0 H0) as (_ & _ & _ & _ & H49).
  destruct z as [|z]; [|exfalso; cbn [repeat app map] in Et; injection Et as Et _; apply H49 in Et; subst; exact (Hp _ eq_refl)].
  cbn [repeat app] in E, Et. subst r.
  (* t is made of digits too *)
  assert (Ex : exists td, ds = (p0 :: pd) ++ td /\ t = map b58_char td /\ digits 58 td).
  { exists (skipn (length (p0 :: pd)) ds).
    assert (Lp : (length (p0 :: pd) <= length ds)%nat) by (apply (f_equal (@length Z)) in Et; rewrite app_length, !map_length in Et; lia).
    assert (E1 : firstn (length (p0 :: pd)) ds = p0 :: pd).
    { apply (f_equal (firstn (length (p0 :: pd)))) in Et. rewrite <- (map_length b58_char (p0 :: pd)) in Et at 1. rewrite firstn_app_exact in Et.
      rewrite firstn_map in Et.
      assert (I : forall a b, digits 58 a -> digits 58 b -> map b58_char a = map b58_char b -> a = b).
      { induction a as [|y a IH]; intros [|w b] Fa Fb Em; try discriminate; [reflexivity|]. inversion Fa; inversion Fb; subst. cbn [map] in Em.
        injection Em as Em1 Em2. destruct (dec_digit y) as (Q1 & _); [assumption|]. destruct (dec_digit w) as (Q2 & _); [assumption|].
        f_equal; [rewrite <- Q1, <- Q2; now rewrite Em1|now apply IH]. }
      symmetry. apply I; [exact Dp| |exact Et]. now apply Forall_firstn. }
    split; [rewrite <- E1 at 1; symmetry; apply firstn_skipn|]. split.
    - apply (f_equal (skipn (length (p0 :: pd)))) in Et. rewrite <- (map_length b58_char (p0 :: pd)) in Et at 1. rewrite skipn_app_exact in Et.
      now rewrite skipn_map in Et.
    - now apply Forall_skipn. }
  destruct Ex as (td & -> & -> & Ft). rewrite map_length.
  assert (Hx : x <> 0) by (intros ->; exact (Hr _ eq_refl)). apply bytes_cons in Bx as [Bx Bd].
  pose proof (numeral_bound 58 td ltac:(lia) Ft) as B58. pose proof (numeral_bound 256 d ltac:(lia) Bd) as B256.
  apply (first_byte_ok _ _ x (Z.of_nat (length d)) (numeral_value 256 (x :: d))).
  - assert (p0 <> 0) by (intros ->; exact (Hp _ eq_refl)). pose proof (numeral_nonzero 58 p0 pd ltac:(lia) Dp ltac:(assumption)).
    assert (0 < 58 ^ Z.of_nat (length pd)) by lia. lia.
  - lia.
  - lia.
  - unfold is_byte in Bx. lia.
  - rewrite <- Vd, numeral_value_app. lia.
  - rewrite numeral_value_cons. lia.
Qed.

(** * Everything the address decoder can do *)
Lemma good_stack_nul vals stack : Forall sym vals -> (length vals <= 90)%nat -> length stack = 128%nat -> good_stack stack ->
  nul_first (vals ++ skipn (S (length vals)) stack).
Proof.
  intros F L Ls [N (a & E)]. exists (vals ++ skipn (S (length vals)) a), [].
  assert (La : length a = 127%nat) by (apply (f_equal (@length Z)) in E; rewrite app_length in E; cbn [length] in E; lia).
  split.
  - rewrite E, skipn_app. replace (S (length vals) - length a)%nat with 0%nat by lia. now rewrite <- app_assoc.
  - intros I. apply in_app_or in I as [I|I].
    + rewrite Forall_forall in F. specialize (F _ I). unfold sym in F. lia.
    + apply N. rewrite E. apply in_or_app. left. rewrite <- (firstn_skipn (S (length vals)) a). apply in_or_app. now right.
Qed.
Lemma decode_bech32_bad s rest p stack out out_size : Forall (fun c => 0 < c < 256) s ->
  (~ exists ver vals, bech32_valid s (cp_hrp p) (ver :: vals)) ->
  decode_bech32 (s ++ 0 :: rest) (length s) out out_size p stack = Ok (mkAddr BAD_ADDRESS out_size out).
Proof.
  intros NZ N. destruct (bech32_decode_total s rest (length s) 16 NZ) as (r & E & Lh & _ & _ & R).
  unfold decode_bech32. rewrite E. cbn [bind].
  destruct ((b_ret r <? 1) || negb (b_hrp_size r =? length (cp_hrp p))%nat || negb (bytes_eqb (b_hrp r) (cp_hrp p))) eqn:C; [reflexivity|].
  exfalso. apply N. apply orb_false_iff in C as [C C3]. apply orb_false_iff in C as [C1 C2]. destruct R as [R|(R1 & R2 & _ & V)]; [lia|].
  rewrite firstn_all in V. apply negb_false_iff in C3. apply bytes_eqb_eq in C3. rewrite C3 in V.
  destruct (b_data r) as [|ver vals] eqn:Ed; [cbn [length] in R1; lia|]. eauto.
Qed.
Lemma decode_bech32_total s rest p stack out out_size : Forall (fun c => 0 < c < 256) s ->
  (length (cp_hrp p) <= 16)%nat -> length stack = 128%nat -> good_stack stack ->
  (decode_bech32 (s ++ 0 :: rest) (length s) out out_size p stack = Ok (mkAddr BAD_ADDRESS out_size out)) \/
  (exists ver vals prog, bech32_valid s (cp_hrp p) (ver :: vals) /\
    (from_base32_raw_length (length vals) <= out_size)%nat /\
    length prog = from_base32_raw_length (length vals) /\
    (b32_good_length (length vals) -> prog = regroup_bytes 5 vals) /\
    decode_bech32 (s ++ 0 :: rest) (length s) out out_size p stack =
      Ok (if ver =? 0 then
            mkAddr (if (length prog =? 20)%nat then WITNESSV0_KEYHASH_ADDRESS
                    else if (length prog =? 32)%nat then WITNESSV0_SCRIPTHASH_ADDRESS else BAD_ADDRESS)
                   (length prog) (overlay prog out)
          else
            mkAddr (if (16 <? ver) || (length prog <? 2)%nat || (40 <? length prog)%nat then BAD_ADDRESS else WITNESS_UNKNOWN_ADDRESS)
                   (length prog + 1) (overlay (ver :: prog) out))).
Proof.
  intros NZ Hh Ls Gs. destruct (bech32_decode_total s rest (length s) 16 NZ) as (r & E & Lh & _ & _ & R).
  assert (Bad : (b_ret r <? 1) || negb (b_hrp_size r =? length (cp_hrp p))%nat || negb (bytes_eqb (b_hrp r) (cp_hrp p)) = true ->
    decode_bech32 (s ++ 0 :: rest) (length s) out out_size p stack = Ok (mkAddr BAD_ADDRESS out_size out)).
  { intros C. unfold decode_bech32. rewrite E. cbn [bind]. now rewrite C. }
  destruct ((b_ret r <? 1) || negb (b_hrp_size r =? length (cp_hrp p))%nat || negb (bytes_eqb (b_hrp r) (cp_hrp p))) eqn:C; [left; auto|].
  apply orb_false_iff in C as [C C3]. apply orb_false_iff in C as [C1 C2]. destruct R as [R|(R1 & R2 & _ & V)]; [lia|].
  rewrite firstn_all in V. apply negb_false_iff in C3. apply bytes_eqb_eq in C3. rewrite C3 in V.
  destruct (b_data r) as [|ver vals] eqn:Ed; [cbn [length] in R1; lia|]. cbn [length] in R1.
  assert (Vv := V). destruct Vv as (L90 & _ & _ & h & d & chk & Es & _ & _ & _ & F & Lc & M & _).
  apply Forall_app in F as [F _]. apply Forall_cons_iff in F as [Hv Fv].
  assert (Lv : (length vals <= 90)%nat).
  { apply (f_equal (@length Z)) in M. rewrite !map_length, app_length in M. cbn [length] in M. rewrite Es, !app_length in L90. lia. }
  destruct (from_base32_raw_length (length vals) <=? out_size)%nat eqn:Ho.
  - right. apply Nat.leb_le in Ho.
    destruct (decode_bech32_ok s rest p ver vals stack out out_size V Hh Ls (good_stack_nul vals stack Fv Lv Ls Gs) Ho) as (prog & Lp & G & D).
    exists ver, vals, prog. auto 6.
  - left. unfold decode_bech32. rewrite E. cbn [bind]. rewrite C1, C2, C3, (proj2 (bytes_eqb_eq _ _) eq_refl). cbn [negb orb].
    rewrite Ed. rewrite store_ok by (cbn [length]; lia). cbn [bind]. rewrite R1.
    replace (Z.to_nat (Z.of_nat (S (length vals)) - 1)) with (length vals) by lia. now rewrite Ho.
Qed.

Lemma base58check_fun text d1 b1 d2 b2 : bytes d1 -> bytes d2 -> trims_to text b1 -> trims_to text b2 ->
  is_base58check d1 b1 -> is_base58check d2 b2 -> d1 = d2.
Proof.
  intros B1 B2 T1 T2 I1 I2. rewrite (trims_fun text b1 b2 T1 (alpha_of _ _ I1) T2 (alpha_of _ _ I2)) in I1.
  assert (Q : d1 ++ checksum4 d1 = d2 ++ checksum4 d2) by (eapply is_base58_inj; try eassumption; apply bytes_app; split; auto using checksum4_bytes).
  assert (L : length d1 = length d2) by (apply (f_equal (@length Z)) in Q; rewrite !app_length, !checksum4_length in Q; lia).
  apply (f_equal (firstn (length d1))) in Q. rewrite firstn_app_exact in Q. rewrite Q, L. apply firstn_app_exact.
Qed.
Lemma base58_address_fun x a y b text : bytes (x ++ a) -> bytes (y ++ b) ->
  base58_address x a text -> base58_address y b text -> x ++ a = y ++ b.
Proof. intros B1 B2 (b1 & T1 & I1) (b2 & T2 & I2). exact (base58check_fun text _ b1 _ b2 B1 B2 T1 T2 I1 I2). Qed.
Lemma address_total text rest out_size p stack :
  Forall (fun c => 0 < c < 128) text -> Z.of_nat (length text) * 733 <= INT_MAX ->
  cp_pubkey p <> [] -> cp_script p <> [] -> bytes (cp_pubkey p) -> bytes (cp_script p) ->
  let decoded := address_decode (text ++ 0 :: rest) (length text) out_size p stack in
  ((out_size < from_base58_check_length (length text))%nat /\ decoded = Ok (mkAddr BAD_ADDRESS out_size [])) \/
  ((from_base58_check_length (length text) <= out_size)%nat /\ exists payload out, bytes payload /\ bytes out /\ firstn (length payload) out = payload /\
     (length out <= length text)%nat /\
     ((forall s t, Forall is_space s -> text <> s ++ [49; 49; 49; 49] ++ t) -> (length out <= from_base58_length (length text))%nat) /\
     ((base58_address (cp_pubkey p) payload text /\ length out = (length (cp_pubkey p) + length payload + 4)%nat /\
       decoded = Ok (mkAddr PUBKEY_ADDRESS (length payload) out)) \/
      (base58_address (cp_script p) payload text /\ length out = (length (cp_script p) + length payload + 4)%nat /\
       (~ exists pl, bytes pl /\ base58_address (cp_pubkey p) pl text) /\
       decoded = Ok (mkAddr SCRIPT_ADDRESS (length payload) out)))) \/
  ((from_base58_check_length (length text) <= out_size)%nat /\
   ~ also_base58 (cp_pubkey p) (cp_script p) text /\
   exists out, bytes out /\ (length out <= length text)%nat /\
     ((forall s t, Forall is_space s -> text <> s ++ [49; 49; 49; 49] ++ t) -> (length out <= from_base58_length (length text))%nat) /\
     decoded = decode_bech32 (text ++ 0 :: rest) (length text) out out_size p stack).
Proof.
  intros A Hl Np Ns Bp Bs decoded. unfold decoded, address_decode. clear decoded.
  destruct (Nat.ltb_spec out_size (from_base58_check_length (length text))) as [Hlt|Hge]; [left; auto|right].
  destruct (from_base58_check_cases text rest A Hl) as (n & out & E & En & Bo & Ec).
  destruct (C28_from_base58_size_partial text rest n out A Hl E) as (_ & Hn & Hb). rewrite En in Hn, Hb.
  pose proof (base58check_fun text) as U.
  destruct (from_base58_check_ok text rest A Hl) as [(data & body & T & B & Bd & R)|[Nx (o & R)]].
  - assert (Eo : data ++ checksum4 data = out) by (rewrite R in Ec; injection Ec; auto). rewrite R. cbn [bind].
    assert (C : forall x, x <> [] -> bytes x ->
      (negb (length data =? 0)%nat && (length x <=? length data)%nat && bytes_eqb (firstn (length x) (data ++ checksum4 data)) x = true /\
         exists pl, bytes pl /\ data = x ++ pl) \/
      (negb (length data =? 0)%nat && (length x <=? length data)%nat && bytes_eqb (firstn (length x) (data ++ checksum4 data)) x = false /\
         ~ exists pl, bytes pl /\ base58_address x pl text)).
    { intros x Hx Bx.
      destruct (negb (length data =? 0)%nat && (length x <=? length data)%nat && bytes_eqb (firstn (length x) (data ++ checksum4 data)) x) eqn:Eb;
        [left|right]; (split; [reflexivity|]).
      - apply andb_true_iff in Eb as [Eb E3]. apply andb_true_iff in Eb as [_ E2]. apply Nat.leb_le in E2. apply bytes_eqb_eq in E3.
        rewrite firstn_app in E3. replace (length x - length data)%nat with 0%nat in E3 by lia. cbn [firstn] in E3. rewrite app_nil_r in E3.
        exists (skipn (length x) data). split; [now apply bytes_skipn|]. rewrite <- E3 at 1. symmetry. apply firstn_skipn.
      - intros (pl & Bpl & b & T2 & B2).
        assert (Q : data = x ++ pl) by (eapply (U data body _ b); eauto; now apply bytes_app).
        rewrite Q in Eb. rewrite <- app_assoc, firstn_app_exact, (proj2 (bytes_eqb_eq x x) eq_refl) in Eb.
        assert (length x <> 0)%nat by (destruct x; cbn; congruence). rewrite app_length in Eb.
        replace (length x + length pl =? 0)%nat with false in Eb by lia. replace (length x <=? length x + length pl)%nat with true in Eb by lia.
        discriminate. }
    assert (O : forall x pl, data = x ++ pl -> let o := overlay (firstn (length data - length x) (skipn (length x) (data ++ checksum4 data))) (data ++ checksum4 data) in
      length pl = (length data - length x)%nat /\ bytes o /\ firstn (length pl) o = pl /\ length o = length out /\ length out = (length x + length pl + 4)%nat).
    { intros x pl Ed o. assert (Lp : length pl = (length data - length x)%nat) by (rewrite Ed, app_length; lia).
      assert (Eq : firstn (length data - length x) (skipn (length x) (data ++ checksum4 data)) = pl).
      { rewrite <- Lp, Ed, <- app_assoc, skipn_app_exact. apply firstn_app_exact. }
      assert (Lo : length out = (length x + length pl + 4)%nat) by (rewrite <- Eo, app_length, checksum4_length, Ed, app_length; lia).
      assert (Bpl : bytes pl) by (rewrite Ed in Bd; apply bytes_app in Bd; tauto).
      unfold o. rewrite Eq. split; [exact Lp|]. rewrite overlay_firstn, overlay_length, Eo. split; [|split; [reflexivity|split; [lia|exact Lo]]].
      apply bytes_app. split; [exact Bpl|]. now apply bytes_skipn. }
    destruct (C (cp_pubkey p) Np Bp) as [[-> (pl & Bpl & Ed)]|[-> N1]].
    + left. split; [exact Hge|]. destruct (O _ _ Ed) as (Lp & O1 & O2 & O3 & O4).
      rewrite <- Lp in O1, O2, O3 |- *. eexists pl, _. split; [exact Bpl|]. split; [exact O1|]. split; [exact O2|]. rewrite O3.
      split; [exact Hn|]. split; [exact Hb|]. left. split; [exists body; rewrite <- Ed; auto|]. split; [exact O4|]. reflexivity.
    + destruct (C (cp_script p) Ns Bs) as [[-> (pl & Bpl & Ed)]|[-> N2]].
      * left. split; [exact Hge|]. destruct (O _ _ Ed) as (Lp & O1 & O2 & O3 & O4).
        rewrite <- Lp in O1, O2, O3 |- *. eexists pl, _. split; [exact Bpl|]. split; [exact O1|]. split; [exact O2|]. rewrite O3.
        split; [exact Hn|]. split; [exact Hb|]. right. split; [exists body; rewrite <- Ed; auto|]. split; [exact O4|]. split; [exact N1|]. reflexivity.
      * right. split; [exact Hge|]. split; [intros (pl & Bpl & [H|H]); [apply N1|apply N2]; eauto|].
        rewrite Eo. exists out. auto 6.
  - assert (Eo : o = out) by (rewrite R in Ec; injection Ec; auto). subst o. rewrite R. cbn [bind].
    replace (0 =? 0)%nat with true by reflexivity. cbn [negb andb]. right. split; [exact Hge|]. split.
    + intros (pl & Bpl & [H|H]); destruct H as (b & T & B); apply Nx; eexists; exists b; (split; [|split; [exact T|exact B]]); now apply bytes_app.
    + exists out. auto 6.
Qed.

(** * Built-in networks *)
Definition builtin (p : chain_parameters) : Prop := p = mainnet \/ p = testnet \/ p = regnet.
Lemma builtin_facts p : builtin p ->
  cp_hrp p <> [] /\ Forall (fun c => 33 <= c <= 126 /\ ~ is_upper c) (cp_hrp p) /\ (length (cp_hrp p) <= 4)%nat /\ bytes (cp_hrp p) /\
  (exists a b, cp_pubkey p = [a] /\ cp_script p = [b] /\ is_byte a /\ is_byte b /\ a <> b).
Proof.
  unfold is_upper. intros [-> | [-> | ->]]; cbn [cp_hrp cp_pubkey cp_script mainnet testnet regnet length];
  (split; [discriminate|]); (split; [repeat (constructor; [lia|]); constructor|]); (split; [lia|]);
  (split; [repeat (constructor; [unfold is_byte; lia|]); constructor|]); eexists; eexists;
  (split; [reflexivity|]); (split; [reflexivity|]); unfold is_byte; lia.
Qed.

Fixpoint index_of (c : Z) (l : list Z) : Z := match l with [] => 0 | x :: t => if x =? c then 0 else 1 + index_of c t end.
Definition hrp_digits (p : chain_parameters) : list Z := map (fun c => index_of c b58_alphabet) (cp_hrp p ++ [49]).
Definition clash_free (p q : chain_parameters) (n : nat) : bool :=
  forallb (fun x => (x =? 0) || first_byte_excluded (numeral_value 58 (hrp_digits p)) (Z.of_nat (7 + (8 * n + 4) / 5)) x) (cp_pubkey q ++ cp_script q).
Lemma hrp_digits_ok p : builtin p -> map b58_char (hrp_digits p) = cp_hrp p ++ [49] /\ digits 58 (hrp_digits p) /\
  (forall r, hrp_digits p <> 0 :: r) /\ hrp_digits p <> [].
Proof.
  intros [-> | [-> | ->]]; (split; [reflexivity|]); (split; [repeat (constructor; [vm_compute; split; [discriminate|reflexivity]|]); constructor|]);
  split; try discriminate; intros r E; vm_compute in E; discriminate.
Qed.
Lemma base58_zero d text : is_base58 (0 :: d) text -> exists t, text = 49 :: t.
Proof.
  intros (z & r & ds & E & Hr & _ & ->). destruct z as [|z]; [cbn in E; symmetry in E; exfalso; exact (Hr _ E)|]. cbn [repeat app]. eauto.
Qed.
Lemma witness_text_length p ver prog : builtin p -> bytes prog -> sym ver ->
  length (witness_text (cp_hrp p) ver prog) = (length (cp_hrp p) + (8 + (8 * length prog + 4) / 5))%nat.
Proof.
  intros Hp Hb Hv. destruct (builtin_facts p Hp) as (_ & _ & _ & Bh & _). destruct (raw_facts prog Hb) as (_ & F & L).
  assert (Fd : Forall sym (ver :: regroup_pad 5 prog)) by now constructor.
  destruct (checksum_verifies (cp_hrp p) (ver :: regroup_pad 5 prog) Bh Fd) as (_ & L6 & _).
  unfold witness_text. rewrite !app_length, map_length, app_length, L6. cbn [length]. rewrite L. lia.
Qed.
Lemma witness_valid p ver prog : builtin p -> bytes prog -> sym ver -> (length prog <= 40)%nat ->
  bech32_valid (witness_text (cp_hrp p) ver prog) (cp_hrp p) (ver :: regroup_pad 5 prog).
Proof.
  intros Hp Hb Hv Hl. destruct (builtin_facts p Hp) as (Nh & Ph & Lh & Bh & _). destruct (raw_facts prog Hb) as (_ & F & L).
  apply encoded_valid; [exact Nh|exact Ph|now constructor|]. cbn [length]. rewrite L.
  assert ((8 * length prog + 4) / 5 < 65)%nat by (apply Nat.div_lt_upper_bound; lia). lia.
Qed.
Lemma clash_free_ok p q ver prog : builtin p -> builtin q -> bytes prog -> sym ver -> (length prog <= 40)%nat ->
  clash_free p q (length prog) = true -> ~ also_base58 (cp_pubkey q) (cp_script q) (witness_text (cp_hrp p) ver prog).
Proof.
  intros Hp Hq Hb Hv Hl C (pl & Bp & HC).
  destruct (witness_valid p ver prog Hp Hb Hv Hl) as (_ & P & _).
  assert (HC' : is_base58check (cp_pubkey q ++ pl) (witness_text (cp_hrp p) ver prog) \/ is_base58check (cp_script q ++ pl) (witness_text (cp_hrp p) ver prog)).
  { destruct HC as [(b & T & B)|(b & T & B)]; apply no_space_trim in T; try exact P; subst b; auto. }
  destruct (builtin_facts q Hq) as (_ & _ & _ & _ & a & b & Ea & Eb & Ha & Hbb & _).
  destruct (hrp_digits_ok p Hp) as (D1 & D2 & D3 & D4). pose proof (witness_text_length p ver prog Hp Hb Hv) as Lw.
  assert (K : forall x, is_byte x -> In x (cp_pubkey q ++ cp_script q) -> ~ is_base58check ([x] ++ pl) (witness_text (cp_hrp p) ver prog)).
  { intros x Bx Ix I. unfold clash_free in C. rewrite forallb_forall in C. specialize (C x Ix). apply orb_true_iff in C as [C|C].
    - apply Z.eqb_eq in C. subst x. destruct (base58_zero _ _ I) as (t & Et).
      unfold witness_text in Et. destruct Hp as [-> | [-> | ->]]; apply (f_equal (hd 0)) in Et; cbn [cp_hrp mainnet testnet regnet app hd] in Et; discriminate Et.
    - unfold is_base58check in I.
      assert (Ew : exists t, witness_text (cp_hrp p) ver prog = map b58_char (hrp_digits p) ++ t /\ length t = (7 + (8 * length prog + 4) / 5)%nat).
      { eexists. split; [rewrite D1; unfold witness_text; cbv zeta; rewrite app_assoc; reflexivity|].
        unfold witness_text in Lw. cbv zeta in Lw. rewrite !app_length in Lw. cbn [length] in Lw. lia. }
      destruct Ew as (t & Et & Lt). rewrite Et in I.
      pose proof (base58_first_byte (hrp_digits p) t x (pl ++ checksum4 ([x] ++ pl)) D2 D3 D4) as FB.
      rewrite Lt in FB. rewrite C in FB. discriminate FB; [|exact I].
      apply bytes_cons. split; [exact Bx|]. apply bytes_app. split; [exact Bp|apply checksum4_bytes]. }
  rewrite Ea, Eb in *. destruct HC' as [I|I]; (eapply K; [| |exact I]); try assumption; cbn; auto.
Qed.

(** * Uniqueness of the checksum *)
Lemma checksum_unique hrp data chk : bytes hrp -> Forall sym data -> Forall sym chk -> length chk = 6%nat ->
  bech32_checksum_valid hrp (data ++ chk) -> chk = bech32_checksum hrp data.
Proof.
  intros Hh Hd Fc Lc V. destruct (checksum_verifies hrp data Hh Hd) as (F & L & V2).
  unfold bech32_checksum_valid in V. rewrite app_assoc, polymod_app in V, V2.
  destruct (checksum_syms hrp data Hh Hd) as [_ B]. set (m := polymod (hrp_expand hrp ++ data)) in *.
  assert (V6 : vec 6 (symsof m)) by (apply symsof_vec; lia). set (c2 := bech32_checksum hrp data) in *.
  assert (E : fold_left st_step (vadd chk c2) (vzero 6) = vzero 6).
  { rewrite <- (vadd_self 6 (symsof m) V6). rewrite <- fold_st_add by (assumption || congruence).
    rewrite <- !symsof_fold by assumption. rewrite V, V2. rewrite !(vadd_self 6) by (apply symsof_vec; lia). reflexivity. }
  assert (W1 : vec 6 chk) by (split; assumption). assert (W2 : vec 6 c2) by (split; assumption).
  rewrite fold_st_six in E by now apply vadd_vec. now apply (vadd_eq0 6).
Qed.
Lemma bech32_text s hrp data : bytes hrp -> bech32_valid s hrp data ->
  map tolower s = hrp ++ [49] ++ map bech32_char (data ++ bech32_checksum hrp data).
Proof.
  intros Hh (_ & _ & _ & h & d & chk & -> & _ & _ & Eh & F & Lc & M & V).
  apply Forall_app in F as [Fd Fc]. rewrite <- (checksum_unique hrp data chk Hh Fd Fc Lc V).
  rewrite !map_app. rewrite <- Eh. f_equal. rewrite M. now rewrite map_app.
Qed.
