(** Lemmas about the memory level models of M_MemBtc. *)
From Verif Require Import Base M_Endian L_Endian S_Mem M_Base32 M_Bech32 S_Bech32 M_Mem L_Mem M_MemBtc L_Bech32.

Lemma region_agree mem mem0 a n : agree mem mem0 a (a + n) -> length mem = length mem0 -> region mem a n = region mem0 a n.
Proof.
  intros H L. apply nth_error_ext. intros p. unfold region.
  destruct (Nat.ltb_spec p n) as [Hp|Hp].
  - rewrite !nth_error_firstn by exact Hp. rewrite !nth_error_skipn. apply H. lia.
  - rewrite !(proj2 (nth_error_None _ _)); [reflexivity| |]; rewrite firstn_length, skipn_length; lia.
Qed.

Lemma region_cons mem a n x : nth_error mem a = Some x -> region mem a (S n) = x :: region mem (a + 1) n.
Proof. intros H. unfold region. rewrite (skipn_nth mem a x H). reflexivity. Qed.

Lemma slice_region mem a n : (a + n <= length mem)%nat -> slice mem a n = Ok (region mem a n).
Proof. intros H. apply slice_ok, H. Qed.

Lemma store_written mem a bs : (a + length bs <= length mem)%nat -> store mem a bs = Ok (written mem a bs).
Proof. intros H. apply store_ok, H. Qed.

Lemma memcpy_ok mem dst src n : (src + n <= length mem)%nat -> (dst + n <= length mem)%nat -> (dst + n <= src \/ src + n <= dst \/ n = 0)%nat ->
  memcpy_mem mem dst src n = Ok (written mem dst (region mem src n)).
Proof.
  intros H1 H2 H3. unfold memcpy_mem.
  assert (Z : ((n =? 0) || (dst + n <=? src) || (src + n <=? dst))%nat = true).
  { apply orb_true_iff. rewrite orb_true_iff. rewrite Nat.eqb_eq, !Nat.leb_le. lia. }
  rewrite Z. cbn [c_defined bind]. rewrite slice_region by exact H1. cbn [bind].
  apply store_written. unfold region. rewrite firstn_length, skipn_length. lia.
Qed.

Lemma encode_chars_mem_ok : forall n mem mem0 src dst, agree mem mem0 src (src + n) -> length mem = length mem0 ->
  (src + n <= length mem)%nat -> (dst + n <= length mem)%nat -> (src + n <= dst \/ dst <= src)%nat -> Forall five_bit (region mem0 src n) ->
  encode_chars_mem n mem src dst = Ok (written mem dst (map bech32_char (region mem0 src n))).
Proof.
  induction n as [|n IH]; intros mem mem0 src dst Ha L H1 H2 H3 F; cbn [encode_chars_mem].
  - unfold region. cbn [firstn map]. rewrite written_nil. reflexivity.
  - destruct (nth_some mem0 src ltac:(lia)) as [x Ex]. rewrite (region_cons mem0 src n x Ex) in *.
    rewrite (rd_some mem src x) by (rewrite Ha by lia; exact Ex). cbn [bind].
    assert (Fx : five_bit x) by (inversion F; assumption). assert (F' : Forall five_bit (region mem0 (src + 1) n)) by (inversion F; assumption).
    assert (x <? 32 = true) as -> by (apply Z.ltb_lt, Fx). cbn [c_assert bind].
    rewrite (bech32_encode_get x Fx). cbn [bind]. rewrite put_ok by lia. cbn [bind].
    rewrite (IH _ mem0 (src + 1)%nat (dst + 1)%nat); try (rewrite written_length); try (cbn [length]; lia); try assumption.
    + cbn [map]. rewrite w_app; [reflexivity|reflexivity|]. rewrite map_length. unfold region. rewrite firstn_length, skipn_length. cbn [length]. lia.
    + apply agree_written; [eapply agree_sub; [exact Ha|lia|lia]|cbn [length]; lia|cbn [length]; lia].
Qed.

Lemma encode_chars_mem_abort : forall n mem mem0 src dst, agree mem mem0 src (src + n) -> length mem = length mem0 ->
  (src + n <= length mem)%nat -> (dst + n <= length mem)%nat -> (src + n <= dst \/ dst <= src)%nat -> bytes (region mem0 src n) -> ~ Forall five_bit (region mem0 src n) ->
  encode_chars_mem n mem src dst = Abort.
Proof.
  induction n as [|n IH]; intros mem mem0 src dst Ha L H1 H2 H3 B F; cbn [encode_chars_mem].
  - unfold region in F. cbn [firstn] in F. exfalso. apply F. constructor.
  - destruct (nth_some mem0 src ltac:(lia)) as [x Ex]. rewrite (region_cons mem0 src n x Ex) in *.
    rewrite (rd_some mem src x) by (rewrite Ha by lia; exact Ex). cbn [bind].
    assert (Bx : is_byte x) by (inversion B; assumption). assert (B' : bytes (region mem0 (src + 1) n)) by (inversion B; assumption).
    destruct (Z.ltb_spec x 32) as [Hx|Hx]; [|reflexivity]. cbn [c_assert bind].
    assert (Fx : five_bit x) by (unfold is_byte, five_bit in *; lia).
    rewrite (bech32_encode_get x Fx). cbn [bind]. rewrite put_ok by lia. cbn [bind].
    apply (IH _ mem0); try (rewrite written_length); try (cbn [length]; lia); try assumption.
    + apply agree_written; [eapply agree_sub; [exact Ha|lia|lia]|cbn [length]; lia|cbn [length]; lia].
    + intros F'. apply F. constructor; assumption.
Qed.

Lemma lower_chars_O l : lower_chars l 0 = Ok [].
Proof. destruct l; reflexivity. Qed.
Lemma lower_chars_S l n : lower_chars l (S n) = match l with [] => UB | c :: r => x <- lower_char c ;; xs <- lower_chars r n ;; Ok (x :: xs) end.
Proof. destruct l; reflexivity. Qed.
Lemma decode_chars_O l : decode_chars l 0 = Ok ([], true).
Proof. destruct l; reflexivity. Qed.
Lemma decode_chars_S l n : decode_chars l (S n) = match l with [] => UB | c :: r =>
  if tget BECH32_DECODE c =? -1 then Ok ([], false) else '(vs, ok) <- decode_chars r n ;; Ok (tget BECH32_DECODE c :: vs, ok) end.
Proof. destruct l; reflexivity. Qed.

Lemma lower_chars_mem_ok : forall n mem mem0 src dst h, agree mem mem0 src (src + n) -> length mem = length mem0 ->
  lower_chars (skipn src mem0) n = Ok h -> (dst + n <= length mem)%nat -> (src + n <= dst \/ dst <= src)%nat ->
  length h = n /\ lower_chars_mem n mem src dst = Ok (written mem dst h).
Proof.
  induction n as [|n IH]; intros mem mem0 src dst h Ha L E H2 H3; cbn [lower_chars_mem]; [rewrite lower_chars_O in E|rewrite lower_chars_S in E].
  - injection E as <-. rewrite written_nil. split; reflexivity.
  - destruct (nth_error mem0 src) as [x|] eqn:Ex.
    2:{ apply nth_error_None in Ex. rewrite skipn_all2 in E by lia. discriminate. }
    rewrite (skipn_nth mem0 src x Ex) in E.
    rewrite (rd_some mem src x) by (rewrite Ha by lia; exact Ex). cbn [bind].
    apply bind_Ok in E. destruct E as (y & Ey & E). apply bind_Ok in E. destruct E as (ys & Eys & E). injection E as <-.
    rewrite Ey. cbn [bind]. rewrite put_ok by lia. cbn [bind].
    destruct (IH (written mem dst [y]) mem0 (src + 1)%nat (dst + 1)%nat ys) as [Ln ->]; try (rewrite written_length); try (cbn [length]; lia); try assumption.
    + apply agree_written; [eapply agree_sub; [exact Ha|lia|lia]|cbn [length]; lia|cbn [length]; lia].
    + split; [cbn [length]; lia|]. rewrite w_app; [reflexivity|reflexivity|cbn [length]; lia].
Qed.

Lemma decode_chars_mem_ok : forall n mem mem0 src dst d ok, agree mem mem0 src (src + n) -> length mem = length mem0 ->
  decode_chars (skipn src mem0) n = Ok (d, ok) -> (dst + length d <= length mem)%nat -> (src + n <= dst \/ dst <= src)%nat ->
  (length d <= n)%nat /\ decode_chars_mem n mem src dst = Ok (ok, (dst + length d)%nat, written mem dst d).
Proof.
  induction n as [|n IH]; intros mem mem0 src dst d ok Ha L E H2 H3; cbn [decode_chars_mem]; [rewrite decode_chars_O in E|rewrite decode_chars_S in E].
  - injection E as <- <-. rewrite written_nil. cbn [length]. rewrite Nat.add_0_r. split; [lia|reflexivity].
  - destruct (nth_error mem0 src) as [x|] eqn:Ex.
    2:{ apply nth_error_None in Ex. rewrite skipn_all2 in E by lia. discriminate. }
    rewrite (skipn_nth mem0 src x Ex) in E. cbv zeta in E.
    rewrite (rd_some mem src x) by (rewrite Ha by lia; exact Ex). cbn [bind]. cbv zeta.
    destruct (tget BECH32_DECODE x =? -1).
    + injection E as <- <-. rewrite written_nil. cbn [length]. rewrite Nat.add_0_r. split; [lia|reflexivity].
    + apply bind_Ok in E. destruct E as ((vs & k) & Ey & E). injection E as <- <-. cbn [length] in H2.
      rewrite put_ok by lia. cbn [bind].
      destruct (IH (written mem dst [tget BECH32_DECODE x]) mem0 (src + 1)%nat (dst + 1)%nat vs k) as [Ln ->]; try (rewrite written_length); try (cbn [length]; lia); try assumption.
      * apply agree_written; [eapply agree_sub; [exact Ha|lia|lia]|cbn [length]; lia|cbn [length]; lia].
      * split; [cbn [length]; lia|]. rewrite w_app; [|reflexivity|cbn [length]; lia].
        cbn [length app]. f_equal. f_equal. f_equal. lia.
Qed.

Lemma decode_chars_firstn : forall n l l', firstn n l = firstn n l' -> decode_chars l n = decode_chars l' n.
Proof.
  induction n as [|n IH]; intros l l' E; [rewrite !decode_chars_O; reflexivity|]. rewrite !decode_chars_S.
  destruct l as [|x l], l' as [|x' l']; cbn [firstn] in E; try discriminate; [reflexivity|]. injection E as <- E.
  rewrite (IH l l' E). reflexivity.
Qed.

(** All of [bech32_decode]. *)
Lemma bech32_decode_mem_ok mem str n hrp hs b32 r : bech32_decode (skipn str mem) n hs = Ok r ->
  (hrp + length (b_hrp r) <= length mem)%nat -> (b32 + length (b_data r) <= length mem)%nat ->
  (hrp <= str \/ str + n <= hrp)%nat -> (b32 <= str + length (b_hrp r) + 1 \/ str + n <= b32)%nat ->
  disjoint hrp (length (b_hrp r)) b32 (length (b_data r)) ->
  bech32_decode_mem mem str n hrp hs b32 = Ok (b_ret r, b_hrp_size r, written (written mem hrp (b_hrp r)) b32 (b_data r)).
Proof.
  unfold bech32_decode, bech32_decode_mem. intros E H1 H2 H3 H4 H5.
  apply bind_Ok in E. destruct E as (bad & Eb & E). rewrite Eb. cbn [bind]. destruct bad.
  { injection E as <-. cbn [b_ret b_hrp_size b_hrp b_data]. rewrite !written_nil. reflexivity. }
  apply bind_Ok in E. destruct E as (o & Eo & E). rewrite Eo. cbn [bind]. destruct o as [pos|].
  2:{ injection E as <-. cbn [b_ret b_hrp_size b_hrp b_data]. rewrite !written_nil. reflexivity. }
  destruct ((90 <? n)%nat || (pos =? 0)%nat || (n <? pos + 7)%nat || (n <=? 7)%nat) eqn:T.
  { injection E as <-. cbn [b_ret b_hrp_size b_hrp b_data]. rewrite !written_nil. reflexivity. }
  destruct (hs <? pos)%nat.
  { injection E as <-. cbn [b_ret b_hrp_size b_hrp b_data]. rewrite !written_nil. reflexivity. }
  assert (P : (7 < n /\ pos + 7 <= n)%nat).
  { apply orb_false_iff in T. destruct T as [T T1]. apply orb_false_iff in T. destruct T as [T T2]. apply Nat.leb_gt in T1. apply Nat.ltb_ge in T2. lia. }
  apply bind_Ok in E. destruct E as (h & Eh & E). cbv zeta in E.
  apply bind_Ok in E. destruct E as ((d & ok) & Ed & E).
  assert (Lh : length h = pos).
  { clear - Eh. revert Eh. generalize (skipn str mem). revert h. induction pos as [|pos IH]; intros h l Eh; [rewrite lower_chars_O in Eh; injection Eh as <-; reflexivity|]. rewrite lower_chars_S in Eh.
    destruct l; [discriminate|]. apply bind_Ok in Eh. destruct Eh as (y & _ & Eh). apply bind_Ok in Eh. destruct Eh as (ys & Eys & Eh). injection Eh as <-. cbn [length]. f_equal. eapply IH, Eys. }
  assert (Q : b_hrp r = h /\ b_data r = d).
  { destruct ok; cbn [negb] in E; [|injection E as <-; split; reflexivity].
    apply bind_Ok in E. destruct E as ((c & ok) & _ & E). destruct ok; cbn [negb] in E; [|injection E as <-; split; reflexivity].
    apply bind_Ok in E. destruct E as (v & _ & E). destruct v; injection E as <-; split; reflexivity. }
  destruct Q as [Qh Qd]. rewrite Qh, Qd in *. 
  destruct (lower_chars_mem_ok pos mem mem str hrp h) as [_ ->]; [apply agree_refl|reflexivity|exact Eh|lia|lia|]. cbn [bind].
  set (mem1 := written mem hrp h). assert (L1 : length mem1 = length mem) by (apply written_length; lia).
  assert (A1 : agree mem1 mem (str + pos + 1) (str + n)) by (apply agree_written; [apply agree_refl|lia|lia]).
  rewrite skipn_plus in Ed. replace (str + (pos + 1))%nat with (str + pos + 1)%nat in Ed by lia.
  destruct (decode_chars_mem_ok (n - 6 - (pos + 1)) mem1 mem (str + pos + 1) b32 d ok) as [Ld ->]; [eapply agree_sub; [exact A1|lia|lia]|exact L1|exact Ed|lia|lia|]. cbn [bind].
  destruct ok; cbn [negb] in E |- *; [|injection E as <-; reflexivity].
  set (mem2 := written mem1 b32 d). assert (L2 : length mem2 = length mem) by (unfold mem2; rewrite written_length; lia).
  assert (A2 : agree mem2 mem (str + (n - 6)) (str + n)) by (apply agree_written; [eapply agree_sub; [exact A1|lia|lia]|lia|lia]).
  assert (Ec : decode_chars (skipn (str + (n - 6)) mem2) 6 = decode_chars (skipn (n - 6) (skipn str mem)) 6).
  { apply decode_chars_firstn. rewrite skipn_plus. apply (region_agree mem2 mem (str + (n - 6)) 6); [eapply agree_sub; [exact A2|lia|lia]|exact L2]. }
  rewrite Ec. apply bind_Ok in E. destruct E as ((c & ok) & Ek & E). rewrite Ek. cbn [bind].
  destruct ok; cbn [negb] in E |- *; [|injection E as <-; reflexivity]. cbv zeta.
  replace (b32 + length d - b32)%nat with (length d) by lia.
  assert (Rh : slice mem2 hrp pos = Ok h).
  { rewrite slice_region by lia. f_equal. rewrite (region_agree mem2 mem1 hrp pos); [|apply agree_written; [apply agree_refl|lia|unfold disjoint in H5; lia]|lia].
    rewrite <- Lh. unfold mem1, region, written. rewrite skipn_app, firstn_length, Nat.min_l by lia. rewrite Nat.sub_diag.
    rewrite (skipn_all2 (firstn hrp mem)) by (rewrite firstn_length; lia). cbn [app skipn]. apply firstn_app_exact. }
  assert (Rd : slice mem2 b32 (length d) = Ok d).
  { rewrite slice_region by lia. f_equal. unfold mem2, region, written. rewrite skipn_app, firstn_length, Nat.min_l by lia. rewrite Nat.sub_diag.
    rewrite (skipn_all2 (firstn b32 mem1)) by (rewrite firstn_length; lia). cbn [app skipn]. apply firstn_app_exact. }
  rewrite Rh. cbn [bind]. rewrite Rd. cbn [bind].
  apply bind_Ok in E. destruct E as (v & Ev & E). rewrite Ev. cbn [bind]. destruct v; cbn [negb] in E |- *; injection E as <-; reflexivity.
Qed.

Lemma bech32_encode_mem_ok mem hrp hl b32 n result : bytes (region mem hrp hl) -> Forall five_bit (region mem b32 n) ->
  (hrp + hl <= length mem)%nat -> (b32 + n <= length mem)%nat -> (result + hl + n + 7 <= length mem)%nat ->
  disjoint hrp hl result hl -> (b32 + n <= result \/ result + hl + 1 <= b32)%nat ->
  bech32_encode_mem mem hrp hl b32 n result =
  Ok (written mem result (region mem hrp hl ++ [49] ++ map bech32_char (region mem b32 n) ++ map bech32_char (bech32_checksum (region mem hrp hl) (region mem b32 n)))).
Proof.
  intros B F H1 H2 H3 H4 H5. unfold bech32_encode_mem. set (h := region mem hrp hl) in *. set (d := region mem b32 n) in *.
  assert (Lh : length h = hl) by (unfold h, region; rewrite firstn_length, skipn_length; lia).
  assert (Ld : length d = n) by (unfold d, region; rewrite firstn_length, skipn_length; lia).
  rewrite slice_region by lia. cbn [bind]. rewrite slice_region by lia. cbn [bind]. fold h. fold d.
  rewrite create_checksum_ok; [|exact B|apply sym_bytes; exact F]. cbn [bind].
  set (chk := bech32_checksum h d). assert (Lc : length chk = 6%nat) by reflexivity.
  assert (Fc : Forall five_bit chk).
  { unfold chk, bech32_checksum. cbv zeta. apply Forall_forall. intros x Hx. apply in_map_iff in Hx. destruct Hx as (i & <- & _).
    unfold five_bit. change 31 with (Z.ones 5). rewrite Z.land_ones by lia. change (2 ^ 5) with 32. apply Z.mod_pos_bound. lia. }
  rewrite memcpy_ok by (unfold disjoint in H4; lia). cbn [bind]. fold h.
  rewrite put_ok by (rewrite written_length; lia). cbn [bind]. rewrite w_app by (cbn [length]; lia).
  assert (L1 : length (written mem result (h ++ [49])) = length mem) by (apply written_length; rewrite app_length; cbn [length]; lia).
  rewrite (encode_chars_mem_ok n _ mem b32 (result + hl + 1)); try (rewrite ?L1; lia); [|apply agree_written; [apply agree_refl| |]; rewrite ?app_length; cbn [length]; lia|exact F].
  fold d. cbn [bind]. rewrite encode_checksum_ok by exact Fc. cbn [bind].
  rewrite w_app; [|rewrite app_length; cbn [length]; lia|rewrite app_length, map_length; cbn [length]; lia].
  rewrite puts_ok by (rewrite written_length; rewrite ?app_length, ?map_length; cbn [length]; lia).
  rewrite w_app; [|rewrite !app_length, map_length; cbn [length]; lia|rewrite !app_length, !map_length; cbn [length]; lia].
  rewrite <- !app_assoc. reflexivity.
Qed.
