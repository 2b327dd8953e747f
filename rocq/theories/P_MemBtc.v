(** Properties C130 and C131: what the Bech32 functions, the address encoders and the string functions of keys do to memory.
    Input and output are regions of one memory; [written mem a bs] is [mem] with [bs] at address [a] and everything else unchanged,
    [region mem a n] its bytes [a, a+n) (S_Mem). *)
From Verif Require Import Base M_Endian L_Endian S_Mem L_Mem S_Bits M_Base32 P_Base32 M_Bech32 S_Bech32 L_Bech32 P_Bech32 M_Mem P_Mem M_MemBtc L_MemBtc.
From Verif Require Import M_Hash M_Base58 M_Base58Check S_Base58 S_Base58Check L_Base58 L_Base58Check P_Base58 P_Base58Check M_Address S_Address L_Address P_Address.
From Verif Require Import S_Scratch M_Scratch L_Scratch L_Scratch2 P_Scratch M_Secp M_Key S_Key P_Wif M_Exkey S_Exkey P_Exkey.

(** ** C130
    Encoding: the text is written, and nothing else.  The data may lie where the data characters will be, or above; the human readable part must
    not overlap the place where it is copied to. *)
Theorem C130_bech32_encode_memory : forall mem hrp hl b32 n result, bytes (region mem hrp hl) -> Forall five_bit (region mem b32 n) ->
  (hrp + hl <= length mem)%nat -> (b32 + n <= length mem)%nat -> (result + bech32_encode_length hl n <= length mem)%nat ->
  disjoint hrp hl result hl -> (b32 + n <= result \/ result + hl + 1 <= b32)%nat ->
  let h := region mem hrp hl in let d := region mem b32 n in
  let text := h ++ [49] ++ map bech32_char d ++ map bech32_char (bech32_checksum h d) in
  bech32_encode_mem mem hrp hl b32 n result = Ok (written mem result text) /\ length text = bech32_encode_length hl n.
Proof.
  intros mem hrp hl b32 n result B F H1 H2 H3 H4 H5 h d text. unfold bech32_encode_length in *.
  assert (Lh : length h = hl) by (apply region_length, H1). assert (Ld : length d = n) by (apply region_length, H2).
  split; [apply bech32_encode_mem_ok; try assumption; lia|].
  unfold text. rewrite !app_length, !map_length, Lh, Ld. change (length (bech32_checksum h d)) with 6%nat. cbn [length]. lia.
Qed.
Print Assumptions C130_bech32_encode_memory.

(** Decoding: whatever the text, what is returned is the same as with separate buffers (C35 to C39 say what), the human readable part goes to [hrp] and
    the values to [b32], and nothing else is written, also when the text is refused.  Both may lie over the text. *)
Theorem C130_bech32_decode_memory : forall mem str n hrp cap b32 r, bech32_decode (skipn str mem) n cap = Ok r ->
  (hrp + length (b_hrp r) <= length mem)%nat -> (b32 + length (b_data r) <= length mem)%nat ->
  (hrp <= str \/ str + n <= hrp)%nat -> (b32 <= str + length (b_hrp r) + 1 \/ str + n <= b32)%nat ->
  disjoint hrp (length (b_hrp r)) b32 (length (b_data r)) ->
  bech32_decode_mem mem str n hrp cap b32 = Ok (b_ret r, b_hrp_size r, written (written mem hrp (b_hrp r)) b32 (b_data r)).
Proof. exact bech32_decode_mem_ok. Qed.
Print Assumptions C130_bech32_decode_memory.

(** So a valid string is decoded in place: the human readable part in lower case where it was, the values behind it, from any address
    up to the one of the first data character. *)
Theorem C130_bech32_in_place : forall mem str s rest hrp data cap gap, skipn str mem = s ++ 0 :: rest -> bech32_valid s hrp data ->
  (length hrp <= cap)%nat -> (gap <= 1)%nat ->
  bech32_decode_mem mem str (length s) str cap (str + length hrp + gap) =
    Ok (Z.of_nat (length data), length hrp, written (written mem str hrp) (str + length hrp + gap) data).
Proof.
  intros mem str s rest hrp data cap gap Es V Hc Hg.
  assert (Ns : Forall (fun c => 0 < c < 256) s).
  { destruct V as (_ & P & _). eapply Forall_impl; [|exact P]. cbn. lia. }
  pose proof (proj1 (C36_bech32_language s rest cap Ns) hrp data V Hc) as E. rewrite <- Es in E.
  assert (L : (length s = length hrp + 1 + length data + 6)%nat).
  { destruct V as (_ & _ & _ & h & d & chk & Ed & _ & _ & Eh & _ & Lc & Em & _). subst s hrp. rewrite map_length. apply (f_equal (@length Z)) in Em. rewrite !map_length, app_length in Em.
    rewrite !app_length. cbn [length]. lia. }
  assert (Lm : (str + length s < length mem)%nat).
  { apply (f_equal (@length Z)) in Es. rewrite skipn_length, app_length in Es. cbn [length] in Es. lia. }
  rewrite (bech32_decode_mem_ok mem str (length s) str cap (str + length hrp + gap) _ E); cbn [b_ret b_hrp_size b_hrp b_data]; unfold disjoint; try lia. reflexivity.
Qed.
Print Assumptions C130_bech32_in_place.

(** Values above 31 stop the program, whatever the overlap allowed above. *)
Theorem C130_bech32_encode_bad_value : forall mem hrp hl b32 n result, bytes (region mem hrp hl) -> bytes (region mem b32 n) -> ~ Forall five_bit (region mem b32 n) ->
  (hrp + hl <= length mem)%nat -> (b32 + n <= length mem)%nat -> (result + bech32_encode_length hl n <= length mem)%nat ->
  disjoint hrp hl result hl -> (b32 + n <= result \/ result + hl + 1 <= b32)%nat ->
  bech32_encode_mem mem hrp hl b32 n result = Abort.
Proof.
  intros mem hrp hl b32 n result B Bd F H1 H2 H3 H4 H5. unfold bech32_encode_length, disjoint in *. unfold bech32_encode_mem.
  assert (Lh : length (region mem hrp hl) = hl) by (apply region_length, H1).
  rewrite slice_region by lia. cbn [bind]. rewrite slice_region by lia. cbn [bind].
  rewrite create_checksum_ok by assumption. cbn [bind]. rewrite memcpy_ok by lia. cbn [bind].
  rewrite put_ok by (rewrite written_length; lia). cbn [bind]. rewrite w_app by (cbn [length]; lia).
  assert (L1 : length (written mem result (region mem hrp hl ++ [49])) = length mem) by (apply written_length; rewrite app_length; cbn [length]; lia).
  rewrite (encode_chars_mem_abort n _ mem b32 (result + hl + 1)); try (rewrite ?L1; lia); try assumption; [reflexivity|].
  apply agree_written; [apply agree_refl| |]; rewrite ?app_length; cbn [length]; lia.
Qed.
Print Assumptions C130_bech32_encode_bad_value.

(** "abc" and the values 1, 2, 3, encoded with the data in place, then decoded in place. *)
Example C130_case : match bech32_encode_mem ([97; 98; 99] ++ repeat 7 4 ++ [1; 2; 3] ++ repeat 7 6 ++ [0]) 0 3 7 3 3 with
  | Ok mem1 => match bech32_decode_mem mem1 3 13 3 16 6 with Ok (r, n, mem2) => r = 3 /\ n = 3%nat /\ region mem2 3 6 = [97; 98; 99; 1; 2; 3] | _ => False end
  | _ => False end.
Proof. vm_compute. repeat split. Qed.

(** ** C131 *)
Lemma written_behind mem l k bs : written (mem ++ l) (length mem + k) bs = mem ++ written l k bs.
Proof.
  unfold written. rewrite firstn_app, firstn_all2 by lia. rewrite skipn_app, skipn_all2 by lia. cbn [app].
  replace (length mem + k - length mem)%nat with k by lia. replace (length mem + k + length bs - length mem)%nat with (k + length bs)%nat by lia.
  rewrite <- app_assoc. reflexivity.
Qed.
Lemma written_before mem l a bs : (a + length bs <= length mem)%nat -> written (mem ++ l) a bs = written mem a bs ++ l.
Proof.
  intros H. unfold written. rewrite firstn_app, skipn_app. replace (a - length mem)%nat with O by lia. replace (a + length bs - length mem)%nat with O by lia.
  cbn [firstn skipn]. rewrite app_nil_r, <- !app_assoc. reflexivity.
Qed.
Lemma region_before mem l a n : (a + n <= length mem)%nat -> region (mem ++ l) a n = region mem a n.
Proof.
  intros H. unfold region. rewrite skipn_app. replace (a - length mem)%nat with O by lia. cbn [skipn].
  rewrite firstn_app, skipn_length. replace (n - (length mem - a))%nat with O by lia. cbn [firstn]. apply app_nil_r.
Qed.
Lemma region_behind mem l k n : region (mem ++ l) (length mem + k) n = region l k n.
Proof. unfold region. rewrite skipn_app, skipn_all2 by lia. cbn [app]. replace (length mem + k - length mem)%nat with k by lia. reflexivity. Qed.

Lemma encode_witness_mem_ok mem cap version prog n out out_size hrp hl : bytes (region mem hrp hl) -> bytes (region mem prog n) -> five_bit version ->
  (hrp + hl <= length mem)%nat -> (prog + n <= length mem)%nat -> ((8 * n + 4) / 5 + 1 <= cap)%nat ->
  let text := witness_text (region mem hrp hl) version (region mem prog n) in
  length text = bech32_encode_length hl ((8 * n + 4) / 5 + 1) /\
  ((out_size < length text)%nat -> encode_witness_mem mem cap version prog n out out_size hrp hl = Ok (O, mem)) /\
  ((length text <= out_size)%nat -> (out + length text <= length mem)%nat -> disjoint hrp hl out hl ->
   encode_witness_mem mem cap version prog n out out_size hrp hl = Ok (length text, written mem out text)).
Proof.
  intros Bh Bp V H1 H2 Hc text. set (h := region mem hrp hl) in *. set (p := region mem prog n) in *. set (m := ((8 * n + 4) / 5)%nat) in *.
  assert (Lh : length h = hl) by (apply region_length, H1).
  pose proof (C19_to_base32_raw p Bp) as Hr. unfold to_base32_raw in Hr.
  assert (Lp : length p = n) by (apply region_length, H2). rewrite !Lp in Hr.
  destruct Hr as (E & Hs & Hs' & Fr). fold m in Hs'. rewrite E in Fr.
  assert (Lr : length (regroup_pad 5 p) = m) by (rewrite <- E, <- Hs', Hs; reflexivity).
  assert (Lt : length text = bech32_encode_length hl (m + 1)).
  { unfold text, witness_text. cbv zeta. rewrite !app_length, map_length, app_length, Lh. cbn [length]. rewrite Lr. change (length (bech32_checksum h (version :: regroup_pad 5 p))) with 6%nat. unfold bech32_encode_length. lia. }
  split; [exact Lt|].
  assert (K : exists l, length l = cap /\ firstn (m + 1) l = version :: regroup_pad 5 p /\ put (mem ++ uninit cap) (length mem) version = Ok (written (mem ++ uninit cap) (length mem) [version]) /\
    to_base32_raw_mem (written (mem ++ uninit cap) (length mem) [version]) prog n (length mem + 1) = Ok (m, mem ++ l)).
  { exists (written (written (uninit cap) 0 [version]) 1 (regroup_pad 5 p)).
    assert (Lu : length (uninit cap) = cap) by apply uninit_length.
    assert (L1 : length (written (uninit cap) 0 [version]) = cap) by (rewrite written_length; cbn [length]; lia).
    split; [rewrite written_length; lia|].
    split.
    { rewrite w_app by (cbn [length]; lia). unfold written. cbn [firstn app Nat.add length]. rewrite Lr.
      replace (m + 1)%nat with (S m) by lia. cbn [firstn]. f_equal. rewrite <- Lr. apply firstn_app_exact. }
    split; [apply put_ok; rewrite app_length; lia|].
    unfold to_base32_raw_mem, to_base32_mem_. cbv zeta.
    assert (Hn : (5 * ((n - n mod 5) / 5) + n mod 5 = n)%nat).
    { pose proof (Nat.div_mod n 5 ltac:(lia)). replace (n - n mod 5)%nat with (n / 5 * 5)%nat by lia. rewrite Nat.div_mul by lia. lia. }
    pose proof (written_behind mem (uninit cap) 0 [version]) as W0. rewrite Nat.add_0_r in W0. rewrite W0.
    rewrite (to_base32_mem_ok _ _ (mem ++ written (uninit cap) 0 [version]) (mem ++ written (uninit cap) 0 [version]) prog (length mem + 1) true (regroup_pad 5 p));
      [|apply Nat.mod_upper_bound; lia|apply agree_refl|reflexivity|rewrite app_length; lia|rewrite Hn, region_before by lia; symmetry; exact E|rewrite app_length; lia|lia].
    cbn [bind]. rewrite Hs'. rewrite written_behind. reflexivity. }
  destruct K as (l & Ll & Fl & E1 & E2).
  unfold encode_witness_mem. cbv zeta. rewrite E1. cbn [bind]. rewrite E2. cbn [bind]. rewrite <- Lt.
  split; intros Ho.
  - destruct (Nat.ltb_spec out_size (length text)); [|lia]. rewrite firstn_app_exact. reflexivity.
  - intros Hm D. destruct (Nat.ltb_spec out_size (length text)); [lia|].
    destruct (Nat.leb_spec (out + length text) (length mem)); [|lia]. cbn [c_defined bind].
    assert (Rh : region (mem ++ l) hrp hl = h) by (apply region_before, H1).
    pose proof (region_behind mem l 0 (m + 1)) as Rb. rewrite Nat.add_0_r in Rb. unfold region at 2 in Rb. cbn [skipn] in Rb. rewrite Fl in Rb.
    unfold bech32_encode_length in Lt.
    rewrite (bech32_encode_mem_ok (mem ++ l) hrp hl (length mem) (m + 1) out); rewrite ?Rh, ?Rb, ?app_length; try assumption; try lia; [|constructor; [exact V|exact Fr]].
    cbn [bind]. rewrite <- map_app.
    change (written (mem ++ l) out (h ++ [49] ++ map bech32_char ((version :: regroup_pad 5 p) ++ bech32_checksum h (version :: regroup_pad 5 p)))) with (written (mem ++ l) out text).
    rewrite written_before by lia. rewrite <- (written_length mem out text) at 1 by lia. rewrite firstn_app_exact. reflexivity.
Qed.

(** The witness encoders: [out] may lie over the hash or program, but not over the network's human readable part.  A refused call writes nothing. *)
Theorem C131_witness_keyhash_memory : forall mem hash out cap hrp hl, bytes (region mem hrp hl) -> bytes (region mem hash 20) ->
  (hrp + hl <= length mem)%nat -> (hash + 20 <= length mem)%nat ->
  let text := witness_text (region mem hrp hl) 0 (region mem hash 20) in
  ((cap < length text)%nat -> to_address_witnessv0_keyhash_mem mem hash 20 out cap hrp hl = Ok (O, mem)) /\
  ((length text <= cap)%nat -> (out + length text <= length mem)%nat -> disjoint hrp hl out hl ->
   to_address_witnessv0_keyhash_mem mem hash 20 out cap hrp hl = Ok (length text, written mem out text)).
Proof.
  intros mem hash out cap hrp hl B1 B2 H1 H2 text.
  destruct (encode_witness_mem_ok mem 64 0 hash 20 out cap hrp hl B1 B2 ltac:(unfold five_bit; lia) H1 H2) as (_ & R); [cbv; lia|exact R].
Qed.
Print Assumptions C131_witness_keyhash_memory.

Theorem C131_witness_scripthash_memory : forall mem hash out cap hrp hl, bytes (region mem hrp hl) -> bytes (region mem hash 32) ->
  (hrp + hl <= length mem)%nat -> (hash + 32 <= length mem)%nat ->
  let text := witness_text (region mem hrp hl) 0 (region mem hash 32) in
  ((cap < length text)%nat -> to_address_witnessv0_scripthash_mem mem hash 32 out cap hrp hl = Ok (O, mem)) /\
  ((length text <= cap)%nat -> (out + length text <= length mem)%nat -> disjoint hrp hl out hl ->
   to_address_witnessv0_scripthash_mem mem hash 32 out cap hrp hl = Ok (length text, written mem out text)).
Proof.
  intros mem hash out cap hrp hl B1 B2 H1 H2 text.
  destruct (encode_witness_mem_ok mem 64 0 hash 32 out cap hrp hl B1 B2 ltac:(unfold five_bit; lia) H1 H2) as (_ & R); [cbv; lia|exact R].
Qed.
Print Assumptions C131_witness_scripthash_memory.

(** The argument of the third encoder is a version byte followed by the program. *)
Theorem C131_witness_unknown_memory : forall mem arg n ver out cap hrp hl, bytes (region mem hrp hl) -> bytes (region mem arg n) ->
  (hrp + hl <= length mem)%nat -> (arg + n <= length mem)%nat -> nth_error mem arg = Some ver ->
  let text := witness_text (region mem hrp hl) ver (region mem (arg + 1) (n - 1)) in
  (~ (1 <= ver <= 16 /\ (3 <= n <= 41)%nat) \/ (cap < length text)%nat -> to_address_witness_unknown_mem mem arg n out cap hrp hl = Ok (O, mem)) /\
  (1 <= ver <= 16 -> (3 <= n <= 41)%nat -> (length text <= cap)%nat -> (out + length text <= length mem)%nat -> disjoint hrp hl out hl ->
   to_address_witness_unknown_mem mem arg n out cap hrp hl = Ok (length text, written mem out text)).
Proof.
  intros mem arg n ver out cap hrp hl B1 B2 H1 H2 Ev text. unfold to_address_witness_unknown_mem.
  destruct (Nat.ltb_spec n 3); cbn [orb]; [split; [reflexivity|lia]|]. destruct (Nat.ltb_spec 41 n); [split; [reflexivity|lia]|].
  rewrite (rd_some mem arg ver Ev). cbn [bind].
  destruct (Z.ltb_spec ver 1); cbn [orb]; [split; [reflexivity|lia]|]. destruct (Z.ltb_spec 16 ver); [split; [reflexivity|lia]|].
  assert (B3 : bytes (region mem (arg + 1) (n - 1))).
  { destruct n as [|k]; [lia|]. rewrite (region_cons mem arg k ver Ev) in B2. replace (S k - 1)%nat with k by lia. inversion B2; assumption. }
  destruct (encode_witness_mem_ok mem 128 ver (arg + 1) (n - 1) out cap hrp hl B1 B3 ltac:(unfold five_bit; lia) H1 ltac:(lia)) as (_ & R1 & R2); [dlia|].
  fold text in R1, R2. split; [intros [X|X]; [lia|apply R1, X]|intros _ _; exact R2].
Qed.
Print Assumptions C131_witness_unknown_memory.

Lemma check_w e w id n prefix pn out : sane e -> bytes (w_mem w) -> (n + pn <= 88)%nat ->
  (id + n <= length (w_mem w))%nat -> (prefix + pn <= length (w_mem w))%nat -> (out + to_base58_check_length n pn <= length (w_mem w))%nat ->
  exists text w', to_base58_check_w e id n prefix pn out w = Ok (length text, w') /\
    is_base58check (region (w_mem w) prefix pn ++ region (w_mem w) id n) text /\ (length text <= to_base58_check_length n pn)%nat /\
    w_mem w' = written (w_mem w) out text /\ scratch_ok e w w' /\ w_blocks w' = w_blocks w.
Proof.
  intros Se Hb Hn H1 H2 Hs. set (B := region (w_mem w) id n). set (P := region (w_mem w) prefix pn).
  assert (LB : length B = n) by (apply region_length, H1). assert (LP : length P = pn) by (apply region_length, H2).
  destruct (C32_base58check_encode B P) as (text & E & V & L); try (apply region_bytes, Hb).
  { rewrite LB, LP. unfold to_base58_check_length, to_base58_length. change INT_MAX with 2147483647. dlia. }
  rewrite LB, LP in L.
  destruct (to_base58_check_w_ok 128 e id n prefix pn out w text (length text) Se (mallocs_small e 128 ltac:(lia))) as (d1 & d2 & E' & C1 & C2); try assumption; try lia; try (change INT_MAX with 2147483647; clear - Hn; dlia).
  exists text. eexists. split; [exact E'|]. split; [exact V|]. split; [exact L|]. split; [reflexivity|]. split; [|reflexivity]. split; [reflexivity|].
  exists [(w_next w, d1); (S (w_next w), d2)]. split; [reflexivity|].
  constructor; [exact C1|constructor; [exact C2|constructor]].
Qed.

(** The two Base58 encoders, which differ in the prefix: nothing is written if the announced length is above the capacity; [out] may overlap everything. *)
Theorem C131_base58_address_memory : forall e w id n prefix pn out cap, sane e -> bytes (w_mem w) -> (n + pn <= 88)%nat ->
  (id + n <= length (w_mem w))%nat -> (prefix + pn <= length (w_mem w))%nat ->
  ((cap < to_base58_check_length n pn)%nat -> to_address_base58_w e id n prefix pn out cap w = Ok (O, w)) /\
  ((to_base58_check_length n pn <= cap)%nat -> (out + to_base58_check_length n pn <= length (w_mem w))%nat ->
   exists text w', to_address_base58_w e id n prefix pn out cap w = Ok (length text, w') /\
     is_base58check (region (w_mem w) prefix pn ++ region (w_mem w) id n) text /\ (length text <= cap)%nat /\
     w_mem w' = written (w_mem w) out text /\ scratch_ok e w w').
Proof.
  intros e w id n prefix pn out cap Se B Hn H1 H2. unfold to_address_base58_w. split; intros Hc.
  - destruct (Nat.ltb_spec cap (to_base58_check_length n pn)); [reflexivity|lia].
  - intros Ho. destruct (Nat.ltb_spec cap (to_base58_check_length n pn)); [lia|].
    destruct (check_w e w id n prefix pn out Se B Hn H1 H2 Ho) as (text & w' & E & V & L & M & K & _).
    exists text, w'. split; [exact E|]. split; [exact V|]. split; [lia|]. split; assumption.
Qed.
Print Assumptions C131_base58_address_memory.

(** Private key strings: the text may be written over the key (and over the prefix); that the copy with the flag byte is wiped is C99. *)
Theorem C131_key_to_string_memory : forall e w key str flag prefix pn, sane e -> bytes (w_mem w) -> (pn <= 8)%nat ->
  (key + 32 <= length (w_mem w))%nat -> (prefix + pn <= length (w_mem w))%nat -> (str + to_base58_check_length 33 pn <= length (w_mem w))%nat ->
  exists text w', key_to_string_w e key str flag prefix pn w = Ok (length text, w') /\
    is_base58check (region (w_mem w) prefix pn ++ region (w_mem w) key 32 ++ (if flag then [1] else [])) text /\ (length text <= to_base58_check_length 33 pn)%nat /\
    w_mem w' = written (w_mem w) str text /\ scratch_ok e w w'.
Proof.
  intros e w key str flag prefix pn Se B Hp H1 H2 H3. unfold key_to_string_w. destruct flag.
  - set (mem := w_mem w) in *. set (k := region mem key 32) in *. set (n := length mem) in *.
    assert (Lk : length k = 32%nat) by (apply region_length; exact H1). assert (Bk : bytes k) by (apply region_bytes, B).
    cbv zeta. unfold push_local. cbn [w_mem w_blocks w_next w_dead]. fold mem. fold n.
    rewrite memcpy_ok; [|rewrite app_length, uninit_length; fold n; lia|rewrite app_length, uninit_length; fold n; lia|lia]. cbn [bind].
    rewrite region_before by exact H1. fold k.
    pose proof (written_behind mem (uninit 33) 0 k) as W0. rewrite Nat.add_0_r in W0. fold n in W0. rewrite W0.
    assert (W1 : written (uninit 33) 0 k = k ++ uninit 1) by (unfold written; rewrite Lk; reflexivity). rewrite W1.
    rewrite put_ok by (rewrite !app_length, uninit_length; fold n; lia). cbn [bind].
    pose proof (written_behind mem (k ++ uninit 1) 32 [1]) as W2. fold n in W2. rewrite W2.
    assert (W3 : written (k ++ uninit 1) 32 [1] = k ++ [1]).
    { unfold written. rewrite firstn_app, Lk. rewrite firstn_all2 by lia. rewrite skipn_all2 by (rewrite app_length, uninit_length; cbn [length]; lia). cbn [Nat.sub firstn]. rewrite app_nil_r. reflexivity. }
    rewrite W3. set (w1 := mkWorld (mem ++ k ++ [1]) (w_blocks w) (w_next w) (w_dead w)).
    assert (L1 : length (w_mem w1) = (n + 33)%nat) by (unfold w1; cbn [w_mem]; rewrite !app_length, Lk; cbn [length]; fold n; lia).
    assert (B1 : bytes (w_mem w1)).
    { unfold w1. cbn [w_mem]. apply Forall_app; split; [exact B|apply Forall_app; split; [exact Bk|constructor; [unfold is_byte; lia|constructor]]]. }
    destruct (check_w e w1 n 33 prefix pn str Se B1 ltac:(lia) ltac:(lia) ltac:(lia) ltac:(lia)) as (text & w2 & E & V & L & M & K & _).
    rewrite E. cbn [bind]. destruct (Nat.leb_spec (str + length text) n); [|lia]. cbn [c_defined bind].
    unfold w1 in M at 1. cbn [w_mem] in M. rewrite written_before in M by (fold n; lia).
    assert (Ln : length (written mem str text) = n) by (apply written_length; fold n; lia).
    assert (L2 : length (w_mem w2) = (n + 33)%nat) by (rewrite M, app_length, Ln, app_length, Lk; reflexivity).
    unfold p_write. rewrite store_written by (rewrite repeat_length; lia). cbn [bind].
    exists text. eexists. split; [reflexivity|]. split.
    { unfold w1 in V. cbn [w_mem] in V. rewrite region_before in V by (fold n; lia).
      pose proof (region_behind mem (k ++ [1]) 0 33) as R. rewrite Nat.add_0_r in R. fold n in R. rewrite R in V. unfold region at 2 in V. cbn [skipn] in V.
      rewrite firstn_all2 in V by (rewrite app_length, Lk; cbn [length]; lia). exact V. }
    split; [exact L|]. unfold pop_local. cbn [w_mem w_blocks w_next w_dead]. split.
    { rewrite M. pose proof (written_behind (written mem str text) (k ++ [1]) 0 (repeat 204 33)) as W4. rewrite Nat.add_0_r, Ln in W4. rewrite W4.
      rewrite <- Ln at 1. apply firstn_app_exact. }
    destruct K as [K1 K2]. split; [exact K1|exact K2].
  - destruct (check_w e w key 32 prefix pn str Se B ltac:(lia) H1 H2) as (text & w2 & E & V & L & M & K & _).
    { clear - H3. unfold to_base58_check_length, to_base58_length in *. dlia. }
    exists text, w2. split; [exact E|]. split; [rewrite app_nil_r; exact V|]. split; [|split; assumption].
    eapply Nat.le_trans; [exact L|]. clear. unfold to_base58_check_length, to_base58_length in *. dlia.
Qed.
Print Assumptions C131_key_to_string_memory.

Lemma check_nul text rest1 rest2 n : from_base58_check (text ++ 0 :: rest1) n = from_base58_check (text ++ 0 :: rest2) n.
Proof. unfold from_base58_check. rewrite (C29_from_base58_nul_partial text rest1 rest2 n). reflexivity. Qed.

(** Reading one: the key may be written over the text. *)
Theorem C131_key_from_string_memory : forall e w str text rest key c p r k c', sane e -> mallocs e INT_MAX ->
  skipn str (w_mem w) = text ++ 0 :: rest -> Forall (fun c => 0 < c < 128) text -> Z.of_nat (length text) * 733 <= INT_MAX ->
  (key + 32 <= length (w_mem w))%nat ->
  key_from_string (text ++ 0 :: rest) (length text) (region (w_mem w) key 32) c p = Ok (r, k, c') ->
  exists w', key_from_string_w e str (length text) key c p w = Ok (r, c', w') /\ w_mem w' = written (w_mem w) key k /\ scratch_ok e w w'.
Proof.
  intros e w str text rest key c p r k c' Se Ma Ht Ha Hl Hk H. set (mem := w_mem w) in *. set (n := length mem) in *.
  assert (Same : written mem key (region mem key 32) = mem).
  { unfold written, region. rewrite firstn_length, skipn_length. fold n. replace (Nat.min 32 (n - key)) with 32%nat by lia.
    rewrite <- (firstn_skipn key mem) at 4. f_equal. rewrite <- skipn_plus. apply firstn_skipn. }
  unfold key_from_string in H. unfold key_from_string_w. cbv zeta in H |- *.
  destruct (length (cp_secret p) <=? 8)%nat eqn:P8; cbn [c_assert bind] in H |- *; [|discriminate].
  fold mem. fold n. set (w1 := push_local (uninit (32 + 8)) w).
  assert (Lm1 : length (w_mem w1) = (n + 40)%nat) by (unfold w1, push_local; cbn [w_mem]; fold mem; rewrite app_length, uninit_length; reflexivity).
  assert (S1 : skipn str (w_mem w1) = text ++ 0 :: (rest ++ uninit 40)).
  { unfold w1, push_local. cbn [w_mem]. fold mem. rewrite skipn_app, Ht. replace (str - length mem)%nat with O; [cbn [skipn]; rewrite <- app_assoc; reflexivity|].
    apply (f_equal (@length Z)) in Ht. rewrite skipn_length, app_length in Ht. cbn [length] in Ht. lia. }
  apply bind_Ok in H. destruct H as ((size & out) & E & H). apply bind_Ok in H. destruct H as (buf & Eb & H).
  rewrite (check_nul text rest (rest ++ uninit 40)), <- S1 in E.
  assert (Lo : (length out <= 40)%nat).
  { unfold store in Eb. rewrite uninit_length in Eb. destruct (0 + length out <=? 32 + 8)%nat eqn:Q; [apply Nat.leb_le in Q; lia|discriminate]. }
  destruct (from_base58_check_w_ok INT_MAX e str (length text) n w1 size out Se Ma) as (d & Ew & C); try assumption; try lia.
  { rewrite S1. apply scratch_size_text; change INT_MAX with 2147483647 in *; dlia. }
  rewrite Ew. cbn [bind].
  assert (K : forall m, scratch_ok e w (mkWorld m (w_blocks w1) (S (w_next w1)) ((w_next w1, d) :: w_dead w1))).
  { intros m. split; [reflexivity|]. exists [(w_next w1, d)]. split; [reflexivity|]. constructor; [exact C|constructor]. }
  assert (M1 : written (w_mem w1) n out = mem ++ buf).
  { unfold w1, push_local. cbn [w_mem]. fold mem. pose proof (written_behind mem (uninit (32 + 8)) 0 out) as W. rewrite Nat.add_0_r in W. fold n in W. rewrite W. f_equal.
    rewrite store_written in Eb by (rewrite uninit_length; lia). congruence. }
  assert (Lb : length buf = 40%nat).
  { rewrite store_written in Eb by (rewrite uninit_length; lia). injection Eb as <-. rewrite written_length; rewrite uninit_length; lia. }
  cbn [w_mem]. rewrite M1.
  assert (Pop : pop_local n (mkWorld (mem ++ buf) (w_blocks w1) (S (w_next w1)) ((w_next w1, d) :: w_dead w1)) =
                mkWorld mem (w_blocks w1) (S (w_next w1)) ((w_next w1, d) :: w_dead w1)).
  { unfold pop_local. cbn [w_mem w_blocks w_next w_dead]. unfold n. rewrite firstn_app_exact. reflexivity. }
  destruct (size <=? 32)%nat.
  { injection H as <- <- <-. eexists. split; [reflexivity|]. rewrite Pop. cbn [w_mem]. split; [symmetry; exact Same|apply K]. }
  pose proof (region_behind mem buf) as RB. fold n in RB.
  assert (Rd : forall i x, rd buf i = Ok x -> rd (mem ++ buf) (n + i) = Ok x).
  { intros i x. unfold rd. rewrite nth_error_app2 by (unfold n; lia). replace (n + i - length mem)%nat with i by (unfold n; lia). exact (fun x => x). }
  apply bind_Ok in H. destruct H as (o & Eo & H).
  assert (Eo' : (if negb (length (cp_secret p) =? size - 32)%nat then
          if negb (length (cp_secret p) =? size - 32 - 1)%nat then Ok None
          else
            b <- rd (mem ++ buf) (n + (size - 1)) ;;
            if negb (b =? 1) then Ok None else Ok (Some 1)
        else Ok (Some 0)) = Ok o).
  { destruct (negb (length (cp_secret p) =? size - 32)%nat); [|exact Eo]. destruct (negb (length (cp_secret p) =? size - 32 - 1)%nat); [exact Eo|].
    apply bind_Ok in Eo. destruct Eo as (b & Er & Eo). rewrite (Rd _ _ Er). cbn [bind]. exact Eo. }
  rewrite Eo'. cbn [bind]. destruct o as [x|].
  2:{ injection H as <- <- <-. eexists. split; [reflexivity|]. rewrite Pop. cbn [w_mem]. split; [symmetry; exact Same|apply K]. }
  apply bind_Ok in H. destruct H as (pre & Ep & H).
  assert (P8' : (length (cp_secret p) <= 8)%nat) by (apply Nat.leb_le, P8).
  rewrite slice_region in Ep by lia.
  rewrite slice_region by (rewrite app_length; fold n; lia). pose proof (RB 0%nat (length (cp_secret p))) as R0. rewrite Nat.add_0_r in R0. rewrite R0.
  cbn [bind]. injection Ep as ->. destruct (bytes_eqb pre (cp_secret p)); cbn [negb] in H |- *.
  2:{ injection H as <- <- <-. eexists. split; [reflexivity|]. rewrite Pop. cbn [w_mem]. split; [symmetry; exact Same|apply K]. }
  apply bind_Ok in H. destruct H as (k0 & Ek & H). rewrite slice_region in Ek by lia. injection Ek as Ek.
  assert (L0 : length k0 = 32%nat) by (rewrite <- Ek; apply region_length; lia).
  rewrite store_written in H by (rewrite region_length; fold n; lia). cbn [bind] in H.
  assert (W0 : written (region mem key 32) 0 k0 = k0).
  { unfold written. cbn [firstn app Nat.add]. rewrite skipn_all2 by (rewrite region_length; fold n; lia). apply app_nil_r. }
  rewrite W0 in H. injection H as <- <- <-.
  destruct (Nat.leb_spec (key + 32) n); [|lia]. cbn [c_defined bind].
  rewrite memcpy_ok; [|rewrite app_length; fold n; lia|rewrite app_length; fold n; lia|left; lia]. cbn [bind]. rewrite RB, Ek.
  eexists. split; [reflexivity|]. unfold pop_local. cbn [w_mem w_blocks w_next w_dead].
  rewrite written_before by (fold n; lia). split; [|apply K].
  assert (Lw : length (written mem key k0) = n) by (apply written_length; fold n; lia). rewrite <- Lw at 1. apply firstn_app_exact.
Qed.
Print Assumptions C131_key_from_string_memory.

(** So: a string of the network puts its key at [key], wherever that is, and tells the flag; any other string leaves memory as it is. *)
Theorem C131_wif_memory : forall e w str text rest key c p, sane e -> mallocs e INT_MAX -> bytes (cp_secret p) -> (1 <= length (cp_secret p) <= 8)%nat ->
  skipn str (w_mem w) = text ++ 0 :: rest -> Forall (fun c => 0 < c < 128) text -> Z.of_nat (length text) * 733 <= INT_MAX ->
  (key + 32 <= length (w_mem w))%nat -> (forall d, bytes d -> b58_decodes text d -> (length d <= 40)%nat) ->
  (exists k flag w', is_wif (cp_secret p) k flag text /\ key_from_string_w e str (length text) key c p w = Ok (1, if flag then 1 else 0, w') /\
     w_mem w' = written (w_mem w) key k /\ scratch_ok e w w') \/
  ((forall k flag, ~ is_wif (cp_secret p) k flag text) /\
   exists c' w', key_from_string_w e str (length text) key c p w = Ok (0, c', w') /\ w_mem w' = w_mem w /\ scratch_ok e w w').
Proof.
  intros e w str text rest key c p Se Ma B P Ht Ha Hl Hk Hd.
  assert (Lr : length (region (w_mem w) key 32) = 32%nat) by (apply region_length, Hk).
  destruct (C52_wif_language p text rest (region (w_mem w) key 32) c B P Ha Hl ltac:(lia) Hd) as [(k & flag & V & E)|(N & c' & E)].
  - left. rewrite skipn_all2 in E by lia. rewrite app_nil_r in E.
    destruct (C131_key_from_string_memory e w str text rest key c p _ _ _ Se Ma Ht Ha Hl Hk E) as (w' & E' & M & K).
    exists k, flag, w'. repeat split; try assumption; try apply V; apply K.
  - right. split; [exact N|]. destruct (C131_key_from_string_memory e w str text rest key c p _ _ _ Se Ma Ht Ha Hl Hk E) as (w' & E' & M & K).
    exists c', w'. split; [exact E'|]. split; [|exact K]. rewrite M. unfold written, region. rewrite firstn_length, skipn_length.
    replace (Nat.min 32 (length (w_mem w) - key)) with 32%nat by lia.
    rewrite <- skipn_plus. rewrite (firstn_skipn 32). apply firstn_skipn.
Qed.
Print Assumptions C131_wif_memory.

(** Extended keys: the text is written, and nothing else; the prefix may be overwritten. *)
Lemma ext_w e w ext wipe prefix pn str : sane e -> bytes (w_mem w) -> bytes ext -> length ext = 74%nat -> (pn <= 8)%nat ->
  (prefix + pn <= length (w_mem w))%nat -> (str + to_base58_check_length 74 pn <= length (w_mem w))%nat ->
  exists text w', ext_to_string_w e ext wipe prefix pn str w = Ok (length text, w') /\
    is_base58check (region (w_mem w) prefix pn ++ ext) text /\ (length text <= to_base58_check_length 74 pn)%nat /\
    w_mem w' = written (w_mem w) str text /\ scratch_ok e w w'.
Proof.
  intros Se B Bx Lx Hp H2 H3. unfold ext_to_string_w. cbv zeta. set (mem := w_mem w) in *. set (n := length mem) in *.
  unfold push_local. fold mem. set (w1 := mkWorld (mem ++ ext) (w_blocks w) (w_next w) (w_dead w)).
  assert (L1 : length (w_mem w1) = (n + 74)%nat) by (unfold w1; cbn [w_mem]; rewrite app_length, Lx; fold n; lia).
  assert (B1 : bytes (w_mem w1)) by (unfold w1; cbn [w_mem]; apply Forall_app; split; assumption).
  change BIP32_EXTKEY_SIZE with 74%nat.
  destruct (check_w e w1 n 74 prefix pn str Se B1 ltac:(lia) ltac:(lia) ltac:(lia) ltac:(lia)) as (text & w2 & E & V & L & M & K & _).
  rewrite E. cbn [bind]. destruct (Nat.leb_spec (str + length text) n); [|lia]. cbn [c_defined bind].
  unfold w1 in M at 1. cbn [w_mem] in M. rewrite written_before in M by (fold n; lia).
  assert (Ln : length (written mem str text) = n) by (apply written_length; fold n; lia).
  assert (L2 : length (w_mem w2) = (n + 74)%nat) by (rewrite M, app_length, Ln, Lx; reflexivity).
  assert (V' : is_base58check (region mem prefix pn ++ ext) text).
  { unfold w1 in V. cbn [w_mem] in V. rewrite region_before in V by (fold n; lia).
    pose proof (region_behind mem ext 0 74) as R. rewrite Nat.add_0_r in R. fold n in R. rewrite R in V. unfold region at 2 in V. cbn [skipn] in V.
    rewrite firstn_all2 in V by lia. exact V. }
  destruct K as [K1 K2]. exists text. destruct wipe.
  - unfold p_write. rewrite store_written by (rewrite repeat_length; lia). cbn [bind].
    eexists. split; [reflexivity|]. split; [exact V'|]. split; [exact L|]. unfold pop_local. cbn [w_mem w_blocks w_next w_dead]. split; [|split; [exact K1|exact K2]].
    rewrite M. pose proof (written_behind (written mem str text) ext 0 (repeat 204 74)) as W4. rewrite Nat.add_0_r, Ln in W4. rewrite W4.
    rewrite <- Ln at 1. apply firstn_app_exact.
  - cbn [bind]. eexists. split; [reflexivity|]. split; [exact V'|]. split; [exact L|]. unfold pop_local. cbn [w_mem w_blocks w_next w_dead]. split; [|split; [exact K1|exact K2]].
    rewrite M. rewrite <- Ln at 1. apply firstn_app_exact.
Qed.

Theorem C131_exkey_to_string_memory : forall e w k prefix pn str, sane e -> bytes (w_mem w) -> wf_key k -> (pn <= 8)%nat ->
  (prefix + pn <= length (w_mem w))%nat -> (str + to_base58_check_length 74 pn <= length (w_mem w))%nat ->
  exists text w', exkey_to_string_w e k prefix pn str w = Ok (length text, w') /\
    is_base58check (region (w_mem w) prefix pn ++ key_layout k) text /\ (length text <= to_base58_check_length 74 pn)%nat /\
    w_mem w' = written (w_mem w) str text /\ scratch_ok e w w'.
Proof.
  intros e w k prefix pn str Se B W Hp H2 H3.
  destruct (C66_exkey_encode k (uninit 74) [] W (uninit_length 74)) as (L & Bx & E). rewrite !app_nil_r in E.
  unfold exkey_to_string_w. change BIP32_EXTKEY_SIZE with 74%nat. rewrite E. cbn [bind]. now apply ext_w.
Qed.
Print Assumptions C131_exkey_to_string_memory.

Theorem C131_expubkey_to_string_memory : forall e w k prefix pn str, sane e -> bytes (w_mem w) -> wf_pub k -> (pn <= 8)%nat ->
  (prefix + pn <= length (w_mem w))%nat -> (str + to_base58_check_length 74 pn <= length (w_mem w))%nat ->
  exists text w', expubkey_to_string_w e k prefix pn str w = Ok (length text, w') /\
    is_base58check (region (w_mem w) prefix pn ++ pub_layout k) text /\ (length text <= to_base58_check_length 74 pn)%nat /\
    w_mem w' = written (w_mem w) str text /\ scratch_ok e w w'.
Proof.
  intros e w k prefix pn str Se B W Hp H2 H3.
  destruct (C67_expubkey_encode k (uninit 74) [] W (uninit_length 74)) as (L & Bx & E). rewrite !app_nil_r in E.
  unfold expubkey_to_string_w. change BIP32_EXTKEY_SIZE with 74%nat. rewrite E. cbn [bind]. now apply ext_w.
Qed.
Print Assumptions C131_expubkey_to_string_memory.

(** The hypotheses are met: a memory of 200 bytes, the prefix at its start, the key in the middle of the place of the text; and a witness address written over its own hash. *)
Example C131_case : let mem := [128] ++ repeat 7 199 in bytes mem /\ (10 + 32 <= length mem)%nat /\ (0 + 1 <= length mem)%nat /\ (4 + to_base58_check_length 33 1 <= length mem)%nat /\
  let wit := [98; 99] ++ repeat 9 98 in bytes (region wit 0 2) /\ bytes (region wit 10 20) /\ disjoint 0 2 5 2 /\
  to_address_witnessv0_keyhash_mem wit 10 20 5 40 0 2 = Ok (O, wit) /\
  match to_address_witnessv0_keyhash_mem wit 10 20 5 42 0 2 with Ok (n, m) => n = 42%nat /\ firstn 5 (skipn 5 m) = [98; 99; 49; 113; 112] | _ => False end.
Proof.
  cbv zeta. split; [apply Forall_app; split; [constructor; [unfold is_byte; lia|constructor]|apply Forall_forall; intros b Hb; apply repeat_spec in Hb; subst; unfold is_byte; lia]|].
  split; [cbn; lia|]. split; [cbn; lia|]. split; [cbn; lia|]. split; [cbn; repeat constructor; unfold is_byte; lia|]. split; [cbn; repeat constructor; unfold is_byte; lia|].
  split; [unfold disjoint; lia|]. split; [vm_compute; reflexivity|vm_compute; repeat split].
Qed.
