(** Bech32: the table-driven checksum, encoding, decoding. *)
From Verif Require Import Base M_Endian L_Endian M_Bech32 S_Bech32 L_Bch.

(** * States as six symbols *)
Definition sy (i c : Z) : Z := Z.land (Z.shiftr c (5 * i)) 31.
Definition symsof (c : Z) : list Z := map (fun i => sy i c) [5; 4; 3; 2; 1; 0].

Lemma land31 x : 0 <= x -> Z.land x 31 = x mod 32.
Proof. intros H. change 31 with (Z.ones 5). rewrite Z.land_ones by lia. reflexivity. Qed.
Lemma sy_sym i c : 0 <= i -> 0 <= c -> sym (sy i c).
Proof.
  intros Hi Hc. unfold sy, sym. rewrite land31 by (apply Z.shiftr_nonneg; lia). apply Z.mod_pos_bound. lia.
Qed.
Lemma symsof_vec c : 0 <= c -> vec 6 (symsof c).
Proof. intros H. unfold symsof. cbn [map]. apply vec6_intro; apply sy_sym; lia. Qed.
Lemma land_lxor a b m : Z.land (Z.lxor a b) m = Z.lxor (Z.land a m) (Z.land b m).
Proof. apply Z.bits_inj'. intros n Hn. rewrite ?Z.land_spec, ?Z.lxor_spec, ?Z.land_spec. destruct (Z.testbit a n), (Z.testbit b n), (Z.testbit m n); reflexivity. Qed.
Lemma sy_lxor i a b : sy i (Z.lxor a b) = Z.lxor (sy i a) (sy i b).
Proof. unfold sy. now rewrite Z.shiftr_lxor, land_lxor. Qed.
Lemma symsof_lxor a b : symsof (Z.lxor a b) = vadd (symsof a) (symsof b).
Proof. unfold symsof. cbn [map vadd]. now rewrite !sy_lxor. Qed.
Lemma sy_shift i c : 0 <= i < 5 -> sy (i + 1) (Z.shiftl (Z.land c 0x1ffffff) 5) = sy i c.
Proof.
  intros Hi. apply Z.bits_inj'. intros n Hn. unfold sy. rewrite !Z.land_spec.
  destruct (Z.lt_ge_cases n 5) as [Hlt|Hge].
  - f_equal. rewrite !Z.shiftr_spec by lia. rewrite Z.shiftl_spec by lia. rewrite Z.land_spec.
    replace (n + 5 * (i + 1) - 5) with (n + 5 * i) by lia.
    change 0x1ffffff with (Z.ones 25). rewrite Z.ones_spec_low by lia. apply andb_true_r.
  - change 31 with (Z.ones 5). rewrite Z.ones_spec_high by lia. now rewrite !andb_false_r.
Qed.
Lemma sy_shift0 x : sy 0 (Z.shiftl x 5) = 0.
Proof.
  apply Z.bits_inj'. intros n Hn. unfold sy. rewrite Z.land_spec, Z.bits_0.
  destruct (Z.lt_ge_cases n 5) as [Hlt|Hge].
  - change (5 * 0) with 0. rewrite Z.shiftr_0_r. rewrite Z.shiftl_spec_low by lia. reflexivity.
  - change 31 with (Z.ones 5). rewrite Z.ones_spec_high by lia. now rewrite !andb_false_r.
Qed.
Lemma symsof_small v : sym v -> symsof v = [0; 0; 0; 0; 0; v].
Proof.
  unfold sym. intros H. unfold symsof, sy. cbn [map].
  rewrite !Z.shiftr_div_pow2 by lia. change (5 * 0) with 0. rewrite Z.pow_0_r, Z.div_1_r.
  rewrite !(Z.div_small v) by (cbn; lia). replace (Z.land v 31) with v by (rewrite land31, Z.mod_small by lia; reflexivity). reflexivity.
Qed.
Lemma symsof_inj a b : 0 <= a < 2 ^ 30 -> 0 <= b < 2 ^ 30 -> symsof a = symsof b -> a = b.
Proof.
  assert (E : forall c, 0 <= c < 2 ^ 30 -> c = (((((sy 5 c) * 32 + sy 4 c) * 32 + sy 3 c) * 32 + sy 2 c) * 32 + sy 1 c) * 32 + sy 0 c).
  { intros c Hc. unfold sy. rewrite !land31 by (apply Z.shiftr_nonneg; lia). rewrite !Z.shiftr_div_pow2 by lia.
    change (2 ^ (5 * 0)) with 1. change (2 ^ (5 * 1)) with 32. change (2 ^ (5 * 2)) with 1024. change (2 ^ (5 * 3)) with 32768.
    change (2 ^ (5 * 4)) with 1048576. change (2 ^ (5 * 5)) with 33554432. change (2 ^ 30) with 1073741824 in Hc.
    replace (c / 1024) with (c / 32 / 32) by (rewrite Z.div_div by lia; reflexivity).
    replace (c / 32768) with (c / 32 / 32 / 32) by (rewrite !Z.div_div by lia; reflexivity).
    replace (c / 1048576) with (c / 32 / 32 / 32 / 32) by (rewrite !Z.div_div by lia; reflexivity).
    replace (c / 33554432) with (c / 32 / 32 / 32 / 32 / 32) by (rewrite !Z.div_div by lia; reflexivity).
    dlia. }
  intros Ha Hb H. unfold symsof in H. cbn [map] in H. injection H as H5 H4 H3 H2 H1 H0.
  rewrite (E a Ha), (E b Hb). congruence.
Qed.

(** * The table-driven step is the generator step (C33) *)
Definition gen_of (b : Z) : Z :=
  fold_left (fun acc i => if Z.testbit b i then Z.lxor acc (nth (Z.to_nat i) GEN 0) else acc) [0; 1; 2; 3; 4] 0.
Lemma fold_gen b l : forall acc,
  fold_left (fun acc i => if Z.testbit b i then Z.lxor acc (nth (Z.to_nat i) GEN 0) else acc) l acc
  = Z.lxor acc (fold_left (fun acc i => if Z.testbit b i then Z.lxor acc (nth (Z.to_nat i) GEN 0) else acc) l 0).
Proof.
  induction l as [|i l IH]; intros acc; cbn [fold_left]; [now rewrite Z.lxor_0_r|].
  rewrite IH. rewrite (IH (if Z.testbit b i then _ else 0)). destruct (Z.testbit b i).
  - rewrite Z.lxor_0_l. now rewrite Z.lxor_assoc.
  - now rewrite Z.lxor_0_l.
Qed.
Lemma polymod_step_gen c v : polymod_step c v = Z.lxor (Z.lxor (Z.shiftl (Z.land c 0x1ffffff) 5) v) (gen_of (Z.shiftr c 25)).
Proof. unfold polymod_step, gen_of. apply fold_gen. Qed.

Fixpoint zlist_eqb (a b : list Z) : bool :=
  match a, b with [], [] => true | x :: a', y :: b' => (x =? y) && zlist_eqb a' b' | _, _ => false end.
Lemma zlist_eqb_eq a : forall b, zlist_eqb a b = true -> a = b.
Proof.
  induction a as [|x a IH]; intros [|y b]; cbn [zlist_eqb]; try discriminate; try reflexivity.
  intros H. apply andb_true_iff in H as [H1 H2]. apply Z.eqb_eq in H1. apply IH in H2. congruence.
Qed.
Lemma table_facts b : sym b -> tget_ub BECH32_POLY_TABLE b = Ok (gen_of b) /\ symsof (gen_of b) = vscale b gsyms /\ 0 <= gen_of b < 2 ^ 30.
Proof.
  intros Hb.
  assert (C : (nth (Z.to_nat b) BECH32_POLY_TABLE (-1000) =? gen_of b) && zlist_eqb (symsof (gen_of b)) (vscale b gsyms)
              && (0 <=? gen_of b) && (gen_of b <? 2 ^ 30) = true).
  { apply (sweep1 32 (fun b => (nth (Z.to_nat b) BECH32_POLY_TABLE (-1000) =? gen_of b) && zlist_eqb (symsof (gen_of b)) (vscale b gsyms)
              && (0 <=? gen_of b) && (gen_of b <? 2 ^ 30))); [vm_cast_no_check (eq_refl true)|exact Hb]. }
  apply andb_true_iff in C as [C C4]. apply andb_true_iff in C as [C C3]. apply andb_true_iff in C as [C1 C2].
  apply Z.eqb_eq in C1. apply zlist_eqb_eq in C2. apply Z.leb_le in C3. apply Z.ltb_lt in C4.
  unfold tget_ub. change (Z.of_nat (length BECH32_POLY_TABLE)) with 32. unfold sym in Hb.
  replace ((0 <=? b) && (b <? 32)) with true by lia. rewrite C1. auto.
Qed.
Lemma lxor_lt a b k : 0 <= k -> 0 <= a < 2 ^ k -> 0 <= b < 2 ^ k -> 0 <= Z.lxor a b < 2 ^ k.
Proof.
  intros Hk Ha Hb. assert (N : 0 <= Z.lxor a b) by (apply Z.lxor_nonneg; lia). split; [exact N|].
  destruct (Z.eq_dec (Z.lxor a b) 0) as [->|H0]; [lia|].
  apply Z.log2_lt_pow2; [lia|]. pose proof (Z.log2_lxor a b ltac:(lia) ltac:(lia)).
  destruct (Z.eq_dec k 0) as [->|Hk0].
  - assert (a = 0) by lia. assert (b = 0) by lia. subst. now rewrite Z.lxor_0_l in H0.
  - assert (Z.log2 a < k) by (destruct (Z.eq_dec a 0) as [->|]; [cbn; lia|apply Z.log2_lt_pow2; lia]).
    assert (Z.log2 b < k) by (destruct (Z.eq_dec b 0) as [->|]; [cbn; lia|apply Z.log2_lt_pow2; lia]). lia.
Qed.
Lemma shl_bound c : 0 <= c -> 0 <= Z.shiftl (Z.land c 0x1ffffff) 5 < 2 ^ 30.
Proof.
  intros Hc. change 0x1ffffff with (Z.ones 25). rewrite Z.land_ones by lia. rewrite Z.shiftl_mul_pow2 by lia.
  pose proof (Z.mod_pos_bound c (2 ^ 25) ltac:(lia)). change (2 ^ 30) with (2 ^ 25 * 2 ^ 5). lia.
Qed.
Lemma top_sym c : 0 <= c < 2 ^ 30 -> sym (Z.shiftr c 25).
Proof.
  intros H. unfold sym. rewrite Z.shiftr_div_pow2 by lia. split; [apply Z.div_pos; lia|]. apply Z.div_lt_upper_bound; [lia|].
  change (2 ^ 25 * 32) with (2 ^ 30). lia.
Qed.
Lemma step_bound c v : 0 <= c < 2 ^ 30 -> 0 <= v < 2 ^ 30 -> 0 <= polymod_step c v < 2 ^ 30.
Proof.
  intros Hc Hv. rewrite polymod_step_gen. destruct (table_facts _ (top_sym c Hc)) as (_ & _ & B).
  apply lxor_lt; [lia| |exact B]. apply lxor_lt; [lia|apply shl_bound; lia|lia].
Qed.
Lemma poly_mod_ok c v : 0 <= c < 2 ^ 30 -> poly_mod v c = Ok (polymod_step c v).
Proof.
  intros Hc. unfold poly_mod. destruct (table_facts _ (top_sym c Hc)) as (-> & _ & B). cbn [bind].
  pose proof (shl_bound c ltac:(lia)) as Hs. unfold u32. rewrite Z.mod_small.
  - rewrite polymod_step_gen. f_equal. rewrite !Z.lxor_assoc. f_equal. apply Z.lxor_comm.
  - split; [lia|]. apply Z.lt_trans with (2 ^ 30); [lia|reflexivity].
Qed.
Lemma symsof_shl c : symsof (Z.shiftl (Z.land c 0x1ffffff) 5) = [sy 4 c; sy 3 c; sy 2 c; sy 1 c; sy 0 c; 0].
Proof.
  unfold symsof. cbn [map].
  pose proof (sy_shift 4 c ltac:(lia)) as H4. pose proof (sy_shift 3 c ltac:(lia)) as H3. pose proof (sy_shift 2 c ltac:(lia)) as H2.
  pose proof (sy_shift 1 c ltac:(lia)) as H1. pose proof (sy_shift 0 c ltac:(lia)) as H0.
  cbn [Z.add Pos.add Pos.succ] in *. rewrite H4, H3, H2, H1, H0, sy_shift0. reflexivity.
Qed.
Lemma symsof_step c v : 0 <= c < 2 ^ 30 -> sym v -> symsof (polymod_step c v) = st_step (symsof c) v.
Proof.
  intros Hc Hv. rewrite polymod_step_gen. destruct (table_facts _ (top_sym c Hc)) as (_ & E & _).
  rewrite !symsof_lxor, E.
  assert (T : Z.shiftr c 25 = sy 5 c).
  { unfold sy. change (5 * 5) with 25. rewrite land31 by (apply Z.shiftr_nonneg; lia). pose proof (top_sym c Hc) as S. unfold sym in S.
    rewrite Z.mod_small; lia. }
  rewrite T, (symsof_small v Hv), symsof_shl. cbn [vadd]. rewrite !Z.lxor_0_r, Z.lxor_0_l. reflexivity.
Qed.

(** * The checksum functions *)
Lemma poly_loop_ok f xs : forall m, 0 <= m < 2 ^ 30 -> Forall (fun x => 0 <= f x < 256) xs ->
  poly_loop f xs m = Ok (fold_left polymod_step (map f xs) m) /\ 0 <= fold_left polymod_step (map f xs) m < 2 ^ 30.
Proof.
  induction xs as [|x xs IH]; intros m Hm F; [split; [reflexivity|exact Hm]|].
  inversion F; subst. cbn [poly_loop map fold_left]. rewrite poly_mod_ok by exact Hm. cbn [bind].
  apply IH; [|assumption]. apply step_bound; [exact Hm|]. split; [lia|]. apply Z.lt_trans with 256; [lia|reflexivity].
Qed.
Lemma hrp_hi c : is_byte c -> 0 <= Z.shiftr c 5 < 32.
Proof.
  unfold is_byte. intros H. rewrite Z.shiftr_div_pow2 by lia. split; [apply Z.div_pos; lia|apply Z.div_lt_upper_bound; lia].
Qed.
Lemma hrp_lo c : is_byte c -> 0 <= Z.land c 31 < 32.
Proof. unfold is_byte. intros H. rewrite land31 by lia. apply Z.mod_pos_bound. lia. Qed.
Lemma poly_common_ok hrp b32 : bytes hrp -> bytes b32 ->
  poly_common hrp b32 = Ok (polymod (hrp_expand hrp ++ b32)) /\ 0 <= polymod (hrp_expand hrp ++ b32) < 2 ^ 30.
Proof.
  intros Hh Hb. unfold poly_common, polymod, hrp_expand. rewrite !fold_left_app.
  destruct (poly_loop_ok (fun c => Z.shiftr c 5) hrp 1) as [-> B1]; [lia| |].
  { eapply Forall_impl; [|exact Hh]. cbv beta. intros c Hc. pose proof (hrp_hi c Hc). lia. }
  cbn [bind fold_left]. rewrite poly_mod_ok by exact B1. cbn [bind].
  assert (B2 := step_bound _ 0 B1 ltac:(lia)).
  destruct (poly_loop_ok (fun c => Z.land c 31) hrp _ B2) as [-> B3].
  { eapply Forall_impl; [|exact Hh]. cbv beta. intros c Hc. pose proof (hrp_lo c Hc). lia. }
  cbn [bind]. destruct (poly_loop_ok (fun v => v) b32 _ B3) as [-> B4]; [exact Hb|].
  rewrite map_id in *. auto.
Qed.
Lemma polymod_app a b : polymod (a ++ b) = fold_left polymod_step b (polymod a).
Proof. apply fold_left_app. Qed.

Lemma create_checksum_ok hrp b32 : bytes hrp -> bytes b32 -> create_checksum hrp b32 = Ok (bech32_checksum hrp b32).
Proof.
  intros Hh Hb. unfold create_checksum. destruct (poly_common_ok hrp b32 Hh Hb) as [-> B]. cbn [bind].
  destruct (poly_loop_ok (fun v => v) (repeat 0 6) _ B) as [-> _].
  { apply Forall_forall. intros x Hx. apply repeat_spec in Hx. lia. }
  cbn [bind]. rewrite map_id. unfold bech32_checksum. rewrite app_assoc, (polymod_app (_ ++ b32)). reflexivity.
Qed.
Lemma verify_checksum_ok hrp b32 chk : bytes hrp -> bytes b32 -> bytes chk ->
  verify_checksum hrp b32 chk = Ok (polymod (hrp_expand hrp ++ b32 ++ chk) =? 1).
Proof.
  intros Hh Hb Hc. unfold verify_checksum. destruct (poly_common_ok hrp b32 Hh Hb) as [-> B]. cbn [bind].
  destruct (poly_loop_ok (fun v => v) chk _ B) as [-> _]; [exact Hc|].
  cbn [bind]. rewrite map_id, app_assoc, (polymod_app (_ ++ b32)). reflexivity.
Qed.

(** * The checksum makes the polynomial 1 *)
Lemma fold_bound l : forall m, 0 <= m < 2 ^ 30 -> Forall sym l -> 0 <= fold_left polymod_step l m < 2 ^ 30.
Proof.
  induction l as [|v l IH]; intros m Hm F; [exact Hm|]. inversion F; subst. cbn [fold_left]. apply IH; [|assumption].
  unfold sym in *. apply step_bound; [exact Hm|lia].
Qed.
Lemma symsof_fold l : forall m, 0 <= m < 2 ^ 30 -> Forall sym l ->
  symsof (fold_left polymod_step l m) = fold_left st_step l (symsof m).
Proof.
  induction l as [|v l IH]; intros m Hm F; [reflexivity|]. inversion F; subst. cbn [fold_left].
  rewrite IH; [|apply step_bound; [exact Hm|unfold sym in *; lia]|assumption]. now rewrite symsof_step.
Qed.
Lemma fold_st_vec l : forall s, vec 6 s -> Forall sym l -> vec 6 (fold_left st_step l s).
Proof. induction l as [|v l IH]; intros s Hs F; [exact Hs|]. inversion F; subst. cbn [fold_left]. apply IH; [now apply st_step_vec|assumption]. Qed.
Lemma fold_st_add l1 : forall l2 s t, length l1 = length l2 -> vec 6 s -> vec 6 t -> Forall sym l1 -> Forall sym l2 ->
  vadd (fold_left st_step l1 s) (fold_left st_step l2 t) = fold_left st_step (vadd l1 l2) (vadd s t).
Proof.
  induction l1 as [|x l1 IH]; intros [|y l2] s t Hl Hs Ht F1 F2; try discriminate; [reflexivity|].
  inversion F1; inversion F2; subst. cbn [vadd fold_left]. rewrite IH by (auto using st_step_vec).
  now rewrite st_step_add.
Qed.
Lemma fold_st_six v : vec 6 v -> fold_left st_step v (vzero 6) = v.
Proof.
  intros H. destruct (vec6 v H) as (a & b & c & d & e & f & -> & ? & ? & ? & ? & ? & ?).
  assert (S : forall c4 c3 c2 c1 c0 x, sym c4 -> sym c3 -> sym c2 -> sym c1 -> sym c0 -> sym x ->
    st_step [0; c4; c3; c2; c1; c0] x = [c4; c3; c2; c1; c0; x]).
  { intros. unfold st_step. rewrite (vscale_0 6), (vadd_0_r 6) by auto using gsyms_vec, vec6_intro. reflexivity. }
  unfold vzero. cbn [repeat fold_left]. rewrite !S by auto using sym0. reflexivity.
Qed.
Lemma checksum_syms hrp data : Forall is_byte hrp -> Forall sym data ->
  bech32_checksum hrp data = symsof (Z.lxor (polymod (hrp_expand hrp ++ data ++ [0; 0; 0; 0; 0; 0])) 1) /\ 0 <= polymod (hrp_expand hrp ++ data) < 2 ^ 30.
Proof.
  intros Hh Hd. split; [reflexivity|]. apply poly_common_ok; [exact Hh|].
  eapply Forall_impl; [|exact Hd]. unfold sym, is_byte. intros; lia.
Qed.
Lemma checksum_verifies hrp data : bytes hrp -> Forall sym data ->
  Forall sym (bech32_checksum hrp data) /\ length (bech32_checksum hrp data) = 6%nat /\ polymod (hrp_expand hrp ++ data ++ bech32_checksum hrp data) = 1.
Proof.
  intros Hh Hd. destruct (checksum_syms hrp data Hh Hd) as [E B].
  set (m := polymod (hrp_expand hrp ++ data)) in *.
  assert (Z6 : Forall sym [0; 0; 0; 0; 0; 0]) by (repeat (constructor; [apply sym0|]); constructor).
  rewrite app_assoc, polymod_app in E. fold m in E.
  pose proof (fold_bound [0; 0; 0; 0; 0; 0] m B Z6) as B6.
  set (q := fold_left polymod_step [0; 0; 0; 0; 0; 0] m) in *.
  assert (V : vec 6 (bech32_checksum hrp data)).
  { rewrite E. apply symsof_vec. apply Z.lxor_nonneg. lia. }
  split; [apply V|]. split; [apply V|].
  rewrite app_assoc, polymod_app. fold m.
  apply symsof_inj; [apply fold_bound; [exact B|apply V]|lia|].
  rewrite symsof_fold by (auto; apply V).
  assert (Vm : vec 6 (symsof m)) by (apply symsof_vec; lia).
  assert (Q : fold_left st_step [0; 0; 0; 0; 0; 0] (symsof m) = symsof q) by (unfold q; now rewrite symsof_fold).
  assert (A : vadd (fold_left st_step (bech32_checksum hrp data) (symsof m)) (fold_left st_step [0; 0; 0; 0; 0; 0] (symsof m)) = bech32_checksum hrp data).
  { rewrite fold_st_add by (auto; apply V). rewrite (vadd_self 6) by exact Vm.
    change [0; 0; 0; 0; 0; 0] with (vzero 6). rewrite (vadd_0_r 6) by exact V. apply fold_st_six, V. }
  rewrite Q in A. rewrite E in A at 2. rewrite symsof_lxor in A.
  set (F := fold_left st_step (bech32_checksum hrp data) _) in *. assert (VF : vec 6 F) by (apply fold_st_vec; [exact Vm|apply V]).
  assert (Vq : vec 6 (symsof q)) by (apply symsof_vec; lia). assert (V1 : vec 6 (symsof 1)) by (apply symsof_vec; lia).
  apply (f_equal (fun u => vadd u (symsof q))) in A.
  rewrite <- (vadd_assoc 6 F) in A by auto. rewrite (vadd_self 6), (vadd_0_r 6) in A by auto.
  rewrite (vadd_comm 6 (symsof q)) in A by auto. rewrite <- (vadd_assoc 6) in A by auto. rewrite (vadd_self 6), (vadd_0_r 6) in A by auto.
  exact A.
Qed.

(** * Characters *)
Lemma bech32_encode_get v : sym v -> tget_ub BECH32_ENCODE v = Ok (bech32_char v).
Proof.
  intros H. unfold tget_ub. change (Z.of_nat (length BECH32_ENCODE)) with 32. unfold sym in H.
  replace ((0 <=? v) && (v <? 32)) with true by lia. f_equal. unfold bech32_char. apply nth_indep.
  apply Nat.lt_le_trans with 32%nat; [lia|apply le_n].
Qed.
Lemma char_props v : sym v ->
  33 <= bech32_char v <= 126 /\ bech32_char v <> 49 /\ tolower (bech32_char v) = bech32_char v /\
  ~ is_upper (bech32_char v) /\ tget BECH32_DECODE (bech32_char v) = v.
Proof.
  intros Hv.
  assert (C : (33 <=? bech32_char v) && (bech32_char v <=? 126) && negb (bech32_char v =? 49) && (tolower (bech32_char v) =? bech32_char v)
     && negb ((65 <=? bech32_char v) && (bech32_char v <=? 90)) && (tget BECH32_DECODE (bech32_char v) =? v) = true).
  { apply (sweep1 32 (fun v => (33 <=? bech32_char v) && (bech32_char v <=? 126) && negb (bech32_char v =? 49) && (tolower (bech32_char v) =? bech32_char v)
     && negb ((65 <=? bech32_char v) && (bech32_char v <=? 90)) && (tget BECH32_DECODE (bech32_char v) =? v))); [vm_cast_no_check (eq_refl true)|exact Hv]. }
  unfold is_upper. lia.
Qed.
Lemma decode_get c : is_byte c ->
  let r := tget BECH32_DECODE c in
  (r = -1 \/ sym r /\ tolower c = bech32_char r) /\ r = tget BECH32_DECODE (tolower c).
Proof.
  intros Hc r. unfold r. clear r.
  assert (C : let r := tget BECH32_DECODE c in ((r =? -1) || ((0 <=? r) && (r <? 32) && (tolower c =? bech32_char r))) && (r =? tget BECH32_DECODE (tolower c)) = true).
  { apply (sweep1 256 (fun c => let r := tget BECH32_DECODE c in ((r =? -1) || ((0 <=? r) && (r <? 32) && (tolower c =? bech32_char r))) && (r =? tget BECH32_DECODE (tolower c))));
      [vm_cast_no_check (eq_refl true)|exact Hc]. }
  cbv zeta in C. unfold sym. lia.
Qed.
Lemma bech32_char_inj v w : sym v -> sym w -> bech32_char v = bech32_char w -> v = w.
Proof. intros Hv Hw E. destruct (char_props v Hv) as (_ & _ & _ & _ & <-). destruct (char_props w Hw) as (_ & _ & _ & _ & <-). now rewrite E. Qed.
Lemma map_char_inj a : forall b, Forall sym a -> Forall sym b -> map bech32_char a = map bech32_char b -> a = b.
Proof.
  induction a as [|x a IH]; intros [|y b] Ha Hb E; try discriminate; [reflexivity|]. inversion Ha; inversion Hb; subst.
  injection E as E1 E2. f_equal; [now apply bech32_char_inj|now apply IH].
Qed.

(** * Encoding *)
Lemma encode_chars_ok b : Forall sym b -> encode_chars b = Ok (map bech32_char b).
Proof.
  induction 1 as [|v b Hv Hb IH]; [reflexivity|]. cbn [encode_chars map]. rewrite (bech32_encode_get v Hv), IH.
  unfold sym in Hv. replace (v <? 32) with true by lia. reflexivity.
Qed.
Lemma encode_checksum_ok b : Forall sym b -> encode_checksum b = Ok (map bech32_char b).
Proof. induction 1 as [|v b Hv Hb IH]; [reflexivity|]. cbn [encode_checksum map]. now rewrite (bech32_encode_get v Hv), IH. Qed.
Lemma sym_bytes l : Forall sym l -> bytes l.
Proof. apply Forall_impl. unfold sym, is_byte. intros; lia. Qed.
Lemma bech32_encode_ok hrp data : bytes hrp -> Forall sym data ->
  bech32_encode hrp data = Ok (hrp ++ [49] ++ map bech32_char (data ++ bech32_checksum hrp data)).
Proof.
  intros Hh Hd. unfold bech32_encode. rewrite create_checksum_ok by auto using sym_bytes. cbn [bind].
  rewrite encode_chars_ok by exact Hd. cbn [bind]. rewrite encode_checksum_ok by (apply checksum_verifies; auto).
  cbn [bind]. now rewrite map_app.
Qed.
Lemma encode_chars_abort b : bytes b -> ~ Forall sym b -> encode_chars b = Abort.
Proof.
  induction b as [|v b IH]; intros Hb N; [exfalso; apply N; constructor|]. apply bytes_cons in Hb as [Hv Hb].
  cbn [encode_chars]. destruct (Z.ltb_spec v 32) as [Hlt|Hge]; [|reflexivity].
  cbn [c_assert bind]. assert (sym v) by (unfold sym, is_byte in *; lia). rewrite bech32_encode_get by assumption. cbn [bind].
  rewrite IH; [reflexivity|exact Hb|]. intros F. apply N. now constructor.
Qed.

(** * Decoding *)
Definition printable (c : Z) : Prop := 33 <= c <= 126.
Definition nonzero (c : Z) : Prop := 0 < c < 256.
Lemma illegal_loop_ok s rest : forall n lo up, Forall nonzero s -> (n <= length s)%nat ->
  exists b, illegal_loop (s ++ 0 :: rest) n lo up = Ok b /\
    (b = false <-> Forall printable (firstn n s) /\
       ~ ((lo = true \/ Exists is_lower (firstn n s)) /\ (up = true \/ Exists is_upper (firstn n s)))).
Proof.
  induction s as [|c s IH]; intros n lo up Hs Hn.
  - assert (n = 0%nat) by (cbn [length] in Hn; lia). subst n. cbn [illegal_loop firstn]. exists (lo && up). split; [reflexivity|].
    rewrite !Exists_nil. destruct lo, up; cbn [andb]; intuition (try discriminate; try constructor).
  - inversion Hs; subst. destruct n as [|n].
    + cbn [illegal_loop firstn]. exists (lo && up). split; [reflexivity|].
      rewrite !Exists_nil. destruct lo, up; cbn [andb]; intuition (try discriminate; try constructor).
    + cbn [length] in Hn. cbn [app illegal_loop firstn]. unfold nonzero in *.
      destruct ((97 <=? c) && (c <=? 122)) eqn:E1; [|destruct ((65 <=? c) && (c <=? 90)) eqn:E2; [|destruct ((c <? 33) || (126 <? c)) eqn:E3]].
      * destruct (IH n true up H2 ltac:(lia)) as (b & Hb & Hiff). exists b. split; [exact Hb|]. rewrite !Exists_cons, Forall_cons_iff.
        rewrite Hiff. assert (printable c /\ is_lower c /\ ~ is_upper c) by (unfold printable, is_lower, is_upper; lia). tauto.
      * destruct (IH n lo true H2 ltac:(lia)) as (b & Hb & Hiff). exists b. split; [exact Hb|]. rewrite !Exists_cons, Forall_cons_iff.
        rewrite Hiff. assert (printable c /\ ~ is_lower c /\ is_upper c) by (unfold printable, is_lower, is_upper; lia). tauto.
      * exists true. split; [reflexivity|]. split; [discriminate|]. rewrite Forall_cons_iff. intros [[P _] _]. unfold printable in P. lia.
      * destruct (IH n lo up H2 ltac:(lia)) as (b & Hb & Hiff). exists b. split; [exact Hb|]. rewrite !Exists_cons, Forall_cons_iff.
        rewrite Hiff. assert (printable c /\ ~ is_lower c /\ ~ is_upper c) by (unfold printable, is_lower, is_upper; lia). tauto.
Qed.
Lemma illegal_loop_long s rest : forall n lo up, Forall nonzero s -> (length s < n)%nat ->
  illegal_loop (s ++ 0 :: rest) n lo up = Ok true.
Proof.
  induction s as [|c s IH]; intros [|n] lo up Hs Hn; cbn [length] in Hn; try lia; [reflexivity|].
  inversion Hs; subst. cbn [app illegal_loop]. rewrite !IH by (auto; lia).
  destruct ((97 <=? c) && (c <=? 122)), ((65 <=? c) && (c <=? 90)), ((c <? 33) || (126 <? c)); reflexivity.
Qed.
Lemma is_illegal_ok s rest : Forall nonzero s -> exists b, is_illegal (s ++ 0 :: rest) (length s) = Ok b /\
  (b = false <-> Forall printable s /\ ~ mixed_case s).
Proof.
  intros Hs. destruct (illegal_loop_ok s rest (length s) false false Hs ltac:(lia)) as (b & Hb & Hiff).
  exists b. split; [exact Hb|]. rewrite firstn_all in Hiff. rewrite Hiff. unfold mixed_case. intuition discriminate.
Qed.
Lemma strrchr_ok s rest : Forall nonzero s -> exists o, strrchr (s ++ 0 :: rest) 49 = Ok o /\
  match o with None => ~ In 49 s | Some i => exists h d, s = h ++ 49 :: d /\ length h = i /\ ~ In 49 d end.
Proof.
  induction s as [|c s IH]; intros Hs; [exists None; split; [reflexivity|now intros []]|].
  inversion Hs; subst. destruct (IH H2) as (o & E & P). cbn [app strrchr]. unfold nonzero in *.
  replace (c =? 0) with false by lia. rewrite E. cbn [bind]. destruct o as [i|].
  - exists (Some (S i)). split; [reflexivity|]. destruct P as (h & d & -> & <- & N). exists (c :: h), d. auto.
  - destruct (Z.eqb_spec c 49) as [->|N].
    + exists (Some O). split; [reflexivity|]. exists [], s. auto.
    + exists None. split; [reflexivity|]. intros [H|H]; [lia|auto].
Qed.
Lemma last_sep_unique (h d h' d' : list Z) : h ++ 49 :: d = h' ++ 49 :: d' -> ~ In 49 d -> ~ In 49 d' -> h = h' /\ d = d'.
Proof.
  revert h'. induction h as [|x h IH]; intros [|y h'] E N N'; cbn [app] in E.
  - injection E as ->. auto.
  - injection E as E1 E2. exfalso. apply N. rewrite E2. apply in_or_app. right. now left.
  - injection E as E1 E2. exfalso. apply N'. rewrite <- E2. apply in_or_app. right. now left.
  - injection E as E1 E2. destruct (IH h' E2 N N') as [-> ->]. subst. auto.
Qed.
Lemma lower_chars_ok h more : Forall printable h -> lower_chars (h ++ more) (length h) = Ok (map tolower h).
Proof.
  induction 1 as [|c h Hc Hh IH]; [destruct more; reflexivity|]. cbn [app length lower_chars map]. unfold lower_char, as_char, printable in *.
  replace (c <? 128) with true by lia. replace (c <? 0) with false by lia. cbn [bind]. rewrite IH. reflexivity.
Qed.
Lemma decode_chars_ok d more : bytes d -> exists vs ok, decode_chars (d ++ more) (length d) = Ok (vs, ok) /\
  Forall sym vs /\ (length vs <= length d)%nat /\
  (if ok then map tolower d = map bech32_char vs else ~ exists vs', Forall sym vs' /\ map tolower d = map bech32_char vs').
Proof.
  induction d as [|c d IH]; intros Hd; [exists [], true; cbn [app length map]; destruct more; cbn [decode_chars]; auto|].
  apply bytes_cons in Hd as [Hc Hd]. cbn [app length decode_chars]. cbv zeta.
  destruct (decode_get c Hc) as [[E|[S E]] L]; cbv zeta in *.
  - rewrite E. replace (-1 =? -1) with true by lia. exists [], false. split; [reflexivity|]. split; [constructor|]. split; [cbn [length]; lia|].
    intros (vs & F & M). destruct vs as [|v vs]; [discriminate|]. inversion F; subst. cbn [map] in M. injection M as M1 M2.
    rewrite M1 in L. destruct (char_props v H1) as (_ & _ & _ & _ & Q). rewrite Q in L. unfold sym in *. lia.
  - set (r := tget BECH32_DECODE c) in *. replace (r =? -1) with false by (unfold sym in S; lia).
    destruct (IH Hd) as (vs & ok & -> & F & Hl & K). cbn [bind]. exists (r :: vs), ok. split; [reflexivity|]. split; [now constructor|].
    split; [cbn [length]; lia|]. destruct ok.
    + cbn [map]. congruence.
    + intros (vs' & F' & M). apply K. destruct vs' as [|v vs']; [discriminate|]. inversion F'; subst. injection M as M1 M2. eauto.
Qed.
Lemma printable_lower h : Forall printable h -> Forall printable (map tolower h).
Proof.
  intros H. apply Forall_map. eapply Forall_impl; [|exact H]. unfold printable, tolower. intros c Hc. cbv beta in *. destruct ((65 <=? c) && (c <=? 90)) eqn:E; lia.
Qed.
Lemma printable_bytes h : Forall printable h -> bytes h.
Proof. apply Forall_impl. unfold printable, is_byte. intros; lia. Qed.

Lemma skipn_len_app {A} (a b : list A) n : length a = n -> skipn n (a ++ b) = b.
Proof. intros <-. apply skipn_app_exact. Qed.
Lemma split_tail (d : list Z) : (6 <= length d)%nat -> exists d1 d2, d = d1 ++ d2 /\ length d2 = 6%nat.
Proof.
  intros H. exists (firstn (length d - 6) d), (skipn (length d - 6) d). split; [now rewrite firstn_skipn|]. rewrite skipn_length. lia.
Qed.

(** The decoder on a string without NUL: both directions of the language statement. *)
Lemma bech32_decode_accepts s rest hrp data hs : bech32_valid s hrp data -> (length hrp <= hs)%nat ->
  bech32_decode (s ++ 0 :: rest) (length s) hs = Ok (mkB32 (Z.of_nat (length data)) (length hrp) hrp data).
Proof.
  intros (L90 & P & NM & h & d & chk & Es & Hn & N49 & -> & F & Lc & M & V) Hhs.
  rewrite map_length in *.
  assert (NZ : Forall nonzero s) by (eapply Forall_impl; [|exact P]; unfold nonzero; intros; lia).
  assert (Ld : length d = (length data + 6)%nat).
  { apply (f_equal (@length Z)) in M. rewrite !map_length, app_length in M. lia. }
  unfold bech32_decode.
  destruct (is_illegal_ok s rest NZ) as (b & -> & Hb). rewrite (proj2 Hb (conj P NM)). cbn [bind].
  destruct (strrchr_ok s rest NZ) as (o & -> & Ho). cbn [bind].
  destruct o as [i|]; [|exfalso; apply Ho; rewrite Es; apply in_or_app; right; now left].
  destruct Ho as (h' & d' & Es' & <- & N'). cbn [app] in Es. rewrite Es in Es'.
  destruct (last_sep_unique _ _ _ _ Es' N49 N') as [<- <-]. clear Es' N'.
  assert (Ls : length s = (length h + length data + 7)%nat) by (rewrite Es, app_length; cbn [length]; lia).
  assert (Lh : (0 < length h)%nat) by (destruct h; [congruence|cbn [length]; lia]).
  replace ((90 <? length s)%nat || (length h =? 0)%nat || (length s <? length h + 7)%nat || (length s <=? 7)%nat) with false by lia.
  replace (hs <? length h)%nat with false by lia.
  destruct (split_tail d ltac:(lia)) as (d1 & d2 & -> & L2). rewrite app_length in Ld.
  rewrite map_app, map_app in M.
  assert (M1 : map tolower d1 = map bech32_char data /\ map tolower d2 = map bech32_char chk).
  { assert (L1 : length (map tolower d1) = length (map bech32_char data)) by (rewrite !map_length; lia).
    split; [apply (f_equal (firstn (length (map tolower d1)))) in M; rewrite firstn_app_exact in M; rewrite M, L1; apply firstn_app_exact|].
    apply (f_equal (skipn (length (map tolower d1)))) in M. rewrite skipn_app_exact in M. rewrite M, L1. apply skipn_app_exact. }
  destruct M1 as [M1 M2]. subst s. rewrite Forall_app, Forall_cons_iff, Forall_app in P. destruct P as (Ph & _ & P1 & P2).
  rewrite <- app_assoc. rewrite (lower_chars_ok h _ Ph). cbn [bind].
  assert (K1 : skipn (length h + 1) (h ++ (49 :: d1 ++ d2) ++ 0 :: rest) = d1 ++ d2 ++ 0 :: rest).
  { cbn [app]. change (h ++ 49 :: (d1 ++ d2) ++ 0 :: rest) with (h ++ [49] ++ (d1 ++ d2) ++ 0 :: rest). rewrite app_assoc.
    rewrite skipn_len_app by (rewrite app_length; cbn [length]; lia). now rewrite app_assoc. }
  rewrite K1.
  assert (Nn : (length (h ++ 49%Z :: d1 ++ d2) - 6 - (length h + 1))%nat = length d1) by (rewrite app_length in *; cbn [length] in *; rewrite app_length in *; lia).
  rewrite Nn.
  assert (K2 : skipn (length (h ++ 49%Z :: d1 ++ d2) - 6) (h ++ (49 :: d1 ++ d2) ++ 0 :: rest) = d2 ++ 0 :: rest).
  { replace (h ++ (49 :: d1 ++ d2) ++ 0 :: rest) with ((h ++ 49 :: d1) ++ d2 ++ 0 :: rest).
    - apply skipn_len_app. rewrite !app_length in *. cbn [length] in *. rewrite !app_length in *. lia.
    - rewrite <- !app_assoc. cbn [app]. now rewrite <- app_assoc. }
  rewrite K2.
  apply Forall_app in F as [Fd Fc].
  destruct (decode_chars_ok d1 (d2 ++ 0 :: rest) (printable_bytes _ P1)) as (v1 & ok1 & -> & F1 & _ & Q1).
  cbn [bind]. destruct ok1; [|exfalso; apply Q1; exists data; auto].
  rewrite M1 in Q1. apply map_char_inj in Q1; auto. subst v1. cbn [negb].
  destruct (decode_chars_ok d2 (0 :: rest) (printable_bytes _ P2)) as (v2 & ok2 & E2 & F2 & _ & Q2).
  rewrite L2 in E2. rewrite E2. cbn [bind]. destruct ok2; [|exfalso; apply Q2; exists chk; auto].
  rewrite M2 in Q2. apply map_char_inj in Q2; auto. subst v2. cbn [negb].
  rewrite verify_checksum_ok by (auto using sym_bytes, printable_bytes, printable_lower). cbn [bind].
  unfold bech32_checksum_valid in V. rewrite V. reflexivity.
Qed.

Lemma bech32_decode_total s rest n hs : Forall nonzero s ->
  exists r, bech32_decode (s ++ 0 :: rest) n hs = Ok r /\
    (length (b_hrp r) <= hs)%nat /\ (length (b_data r) <= n - 8)%nat /\
    ((b_hrp r = [] /\ b_hrp_size r = hs) \/ b_hrp_size r = length (b_hrp r)) /\
    (b_ret r < 0 \/
     (b_ret r = Z.of_nat (length (b_data r)) /\ b_hrp_size r = length (b_hrp r) /\ (n <= length s)%nat /\ bech32_valid (firstn n s) (b_hrp r) (b_data r))).
Proof.
  intros NZ. unfold bech32_decode.
  assert (R0 : forall k, k < 0 -> exists r, Ok (mkB32 k hs [] []) = Ok r /\
    (length (b_hrp r) <= hs)%nat /\ (length (b_data r) <= n - 8)%nat /\
    ((b_hrp r = [] /\ b_hrp_size r = hs) \/ b_hrp_size r = length (b_hrp r)) /\
    (b_ret r < 0 \/
     (b_ret r = Z.of_nat (length (b_data r)) /\ b_hrp_size r = length (b_hrp r) /\ (n <= length s)%nat /\ bech32_valid (firstn n s) (b_hrp r) (b_data r)))).
  { intros k Hk. eexists. split; [reflexivity|]. cbn [b_hrp b_data b_ret b_hrp_size length]. split; [lia|]. split; [lia|]. split; [left; auto|]. now left. }
  destruct (Nat.lt_ge_cases (length s) n) as [Hlong|Hn].
  { unfold is_illegal. rewrite illegal_loop_long by auto. cbn [bind]. apply R0. lia. }
  destruct (illegal_loop_ok s rest n false false NZ Hn) as (b & Eb & Hb). unfold is_illegal. rewrite Eb. cbn [bind].
  destruct b; [apply R0; lia|]. destruct (proj1 Hb eq_refl) as [P NM]. clear Eb Hb.
  destruct (strrchr_ok s rest NZ) as (o & -> & Ho). cbn [bind]. destruct o as [i|]; [|apply R0; lia].
  destruct Ho as (h & d & Es & <- & N49).
  destruct ((90 <? n)%nat || (length h =? 0)%nat || (n <? length h + 7)%nat || (n <=? 7)%nat) eqn:C; [apply R0; lia|].
  destruct (Nat.ltb_spec hs (length h)) as [Hc|Hc]; [apply R0; lia|].
  assert (Ls : length s = (length h + 1 + length d)%nat) by (rewrite Es, app_length; cbn [length]; lia).
  (* the first n characters *)
  set (k := (n - 7 - length h)%nat).
  set (d1 := firstn k d). set (d2 := firstn 6 (skipn k d)). set (d3 := skipn 6 (skipn k d)).
  assert (Ed : d = d1 ++ d2 ++ d3) by (unfold d1, d2, d3; rewrite firstn_skipn, firstn_skipn; reflexivity).
  assert (L1 : length d1 = k) by (unfold d1; rewrite firstn_length; lia).
  assert (L2 : length d2 = 6%nat) by (unfold d2; rewrite firstn_length, skipn_length; lia).
  assert (Ef : firstn n s = h ++ 49 :: d1 ++ d2).
  { rewrite Es, Ed. replace (h ++ 49 :: d1 ++ d2 ++ d3) with ((h ++ 49 :: d1 ++ d2) ++ d3) by (rewrite <- app_assoc; cbn [app]; now rewrite <- app_assoc).
    replace n with (length (h ++ 49 :: d1 ++ d2)) by (rewrite app_length; cbn [length]; rewrite app_length; lia). apply firstn_app_exact. }
  clearbody d1 d2 d3. rewrite Ef in *. rewrite Ed in N49, Es. clear Ed d Ls.
  assert (N12 : ~ In 49 (d1 ++ d2)) by (intros I; apply N49; rewrite app_assoc; apply in_or_app; now left).
  assert (P' := P). rewrite Forall_app, Forall_cons_iff, Forall_app in P. destruct P as (Ph & _ & P1 & P2).
  assert (EM : s ++ 0 :: rest = h ++ 49 :: d1 ++ d2 ++ d3 ++ 0 :: rest).
  { rewrite Es, <- app_assoc. cbn [app]. now rewrite <- !app_assoc. }
  rewrite EM. rewrite (lower_chars_ok h _ Ph). cbn [bind].
  assert (K1 : skipn (length h + 1) (h ++ 49 :: d1 ++ d2 ++ d3 ++ 0 :: rest) = d1 ++ d2 ++ d3 ++ 0 :: rest).
  { change (49 :: d1 ++ d2 ++ d3 ++ 0 :: rest) with ([49] ++ d1 ++ d2 ++ d3 ++ 0 :: rest). rewrite app_assoc. apply skipn_len_app. rewrite app_length. reflexivity. }
  assert (K2 : skipn (n - 6) (h ++ 49 :: d1 ++ d2 ++ d3 ++ 0 :: rest) = d2 ++ d3 ++ 0 :: rest).
  { replace (h ++ 49 :: d1 ++ d2 ++ d3 ++ 0 :: rest) with ((h ++ 49 :: d1) ++ d2 ++ d3 ++ 0 :: rest) by (rewrite <- app_assoc; reflexivity).
    apply skipn_len_app. rewrite app_length. cbn [length]. lia. }
  rewrite K1, K2. replace (n - 6 - (length h + 1))%nat with (length d1) by lia.
  destruct (decode_chars_ok d1 (d2 ++ d3 ++ 0 :: rest) (printable_bytes _ P1)) as (v1 & ok1 & -> & F1 & Lv1 & Q1). cbn [bind].
  assert (RN : forall ret, ret < 0 -> exists r, Ok (mkB32 ret (length h) (map tolower h) v1) = Ok r /\
    (length (b_hrp r) <= hs)%nat /\ (length (b_data r) <= n - 8)%nat /\
    ((b_hrp r = [] /\ b_hrp_size r = hs) \/ b_hrp_size r = length (b_hrp r)) /\
    (b_ret r < 0 \/
     (b_ret r = Z.of_nat (length (b_data r)) /\ b_hrp_size r = length (b_hrp r) /\ (n <= length s)%nat /\ bech32_valid (h ++ 49 :: d1 ++ d2) (b_hrp r) (b_data r)))).
  { intros ret Hr. eexists. split; [reflexivity|]. cbn [b_hrp b_data b_ret b_hrp_size]. rewrite map_length. split; [lia|]. split; [lia|]. split; [now right|]. now left. }
  destruct ok1; cbn [negb]; [|apply RN; lia].
  destruct (decode_chars_ok d2 (d3 ++ 0 :: rest) (printable_bytes _ P2)) as (v2 & ok2 & E2 & F2 & Lv2 & Q2).
  rewrite L2 in E2. rewrite E2. cbn [bind]. destruct ok2; cbn [negb]; [|apply RN; lia].
  rewrite verify_checksum_ok by (auto using sym_bytes, printable_bytes, printable_lower). cbn [bind].
  destruct (Z.eqb_spec (polymod (hrp_expand (map tolower h) ++ v1 ++ v2)) 1) as [V|V]; cbn [negb]; [|apply RN; lia].
  eexists. split; [reflexivity|]. cbn [b_hrp b_data b_ret b_hrp_size]. rewrite map_length. split; [lia|]. split; [lia|]. split; [now right|].
  right. split; [reflexivity|]. split; [reflexivity|]. split; [exact Hn|].
  assert (M12 : map tolower (d1 ++ d2) = map bech32_char (v1 ++ v2)) by (rewrite !map_app; congruence).
  split. { rewrite app_length. cbn [length]. rewrite app_length. lia. }
  split; [exact P'|]. split; [unfold mixed_case; intuition|].
  exists h, (d1 ++ d2), v2. split; [reflexivity|]. split; [intros ->; cbn [length] in C; lia|]. split; [exact N12|]. split; [reflexivity|].
  split; [apply Forall_app; split; assumption|]. split.
  { apply (f_equal (@length Z)) in Q2. rewrite !map_length in Q2. lia. }
  split; [exact M12|exact V].
Qed.

(** Memory after what was read does not matter. *)
Lemma illegal_loop_mono l m : forall n lo up b, illegal_loop l n lo up = Ok b -> illegal_loop (l ++ m) n lo up = Ok b.
Proof.
  induction l as [|c l IH]; intros [|n] lo up b H; cbn [app illegal_loop] in *; try discriminate; try exact H.
  - destruct m; exact H.
  - destruct ((97 <=? c) && (c <=? 122)); [now apply IH|]. destruct ((65 <=? c) && (c <=? 90)); [now apply IH|].
    destruct ((c <? 33) || (126 <? c)); [exact H|now apply IH].
Qed.
Lemma strrchr_mono l m ch : forall o, strrchr l ch = Ok o -> strrchr (l ++ m) ch = Ok o.
Proof.
  induction l as [|c l IH]; intros o H; cbn [app strrchr] in *; try discriminate.
  destruct (c =? 0); [exact H|]. apply bind_Ok in H as (o' & H1 & H2). rewrite (IH _ H1). exact H2.
Qed.
Lemma lower_chars_mono l m : forall n r, lower_chars l n = Ok r -> lower_chars (l ++ m) n = Ok r.
Proof.
  induction l as [|c l IH]; intros [|n] r H; cbn [app lower_chars] in *; try discriminate; try exact H; [destruct m; exact H|].
  destruct (lower_char c); cbn [bind] in *; try discriminate. apply bind_Ok in H as (o' & H1 & H2). rewrite (IH _ _ H1). exact H2.
Qed.
Lemma decode_chars_mono l m : forall n r, decode_chars l n = Ok r -> decode_chars (l ++ m) n = Ok r.
Proof.
  induction l as [|c l IH]; intros [|n] r H; cbn [app decode_chars] in *; cbv zeta in *; try discriminate; try exact H; [destruct m; exact H|].
  destruct (tget BECH32_DECODE c =? -1); [exact H|]. apply bind_Ok in H as ([vs ok] & H1 & H2). rewrite (IH _ _ H1). exact H2.
Qed.
Lemma bech32_decode_mono l m n hs r : bech32_decode l n hs = Ok r -> bech32_decode (l ++ m) n hs = Ok r.
Proof.
  unfold bech32_decode, is_illegal. intros H. apply bind_Ok in H as (b & H1 & H). rewrite (illegal_loop_mono _ _ _ _ _ _ H1). cbn [bind].
  destruct b; [exact H|]. apply bind_Ok in H as (o & H2 & H). rewrite (strrchr_mono _ _ _ _ H2). cbn [bind]. destruct o as [i|]; [|exact H].
  destruct (_ || _); [exact H|]. destruct (hs <? i)%nat; [exact H|].
  apply bind_Ok in H as (h & H3 & H). rewrite (lower_chars_mono _ _ _ _ H3). cbn [bind].
  apply bind_Ok in H as ([d ok] & H4 & H). rewrite skipn_app. rewrite (decode_chars_mono _ _ _ _ H4). cbn [bind].
  destruct (negb ok); [exact H|]. apply bind_Ok in H as ([d2 ok2] & H5 & H). rewrite skipn_app. rewrite (decode_chars_mono _ _ _ _ H5). cbn [bind].
  exact H.
Qed.

(** * Minimum distance *)
Lemma synr_fold l : synr l = fold_left st_step (rev l) (vzero 6).
Proof. induction l as [|x l IH]; [reflexivity|]. cbn [synr rev]. rewrite fold_left_app. cbn [fold_left]. now rewrite IH. Qed.
Lemma weight_app a b : weight (a ++ b) = (weight a + weight b)%nat.
Proof. induction a as [|x a IH]; [reflexivity|]. cbn [app weight]. rewrite IH. lia. Qed.
Lemma weight_rev a : weight (rev a) = weight a.
Proof. induction a as [|x a IH]; [reflexivity|]. cbn [rev]. rewrite weight_app, IH. cbn [weight]. lia. Qed.
Lemma weight_hamming a : forall b, length a = length b -> weight (vadd a b) = hamming a b.
Proof.
  induction a as [|x a IH]; intros [|y b] E; try discriminate; [reflexivity|]. cbn [vadd weight hamming]. rewrite IH by (cbn [length] in E; lia).
  f_equal. destruct (Z.eqb_spec x y) as [->|N]; [now rewrite Z.lxor_nilpotent|].
  destruct (Z.eqb_spec (Z.lxor x y) 0) as [E0|]; [|reflexivity]. apply Z.lxor_eq in E0. contradiction.
Qed.
Lemma hamming_0 a : forall b, length a = length b -> hamming a b = 0%nat -> a = b.
Proof.
  induction a as [|x a IH]; intros [|y b] E H; try discriminate; [reflexivity|]. cbn [hamming length] in *.
  destruct (Z.eqb_spec x y); [|lia]. subst. f_equal. apply IH; lia.
Qed.
Lemma hamming_chars a : forall b, Forall sym a -> Forall sym b -> hamming (map bech32_char a) (map bech32_char b) = hamming a b.
Proof.
  induction a as [|x a IH]; intros [|y b] Ha Hb; try reflexivity. inversion Ha; inversion Hb; subst. cbn [map hamming]. rewrite IH by assumption. f_equal.
  destruct (Z.eqb_spec x y) as [->|N]; [now rewrite Z.eqb_refl|]. destruct (Z.eqb_spec (bech32_char x) (bech32_char y)) as [E|]; [|reflexivity].
  apply bech32_char_inj in E; auto. contradiction.
Qed.
Lemma checksum_distance hrp v w : bytes hrp -> Forall sym v -> Forall sym w -> length v = length w -> (length v <= 88)%nat ->
  bech32_checksum_valid hrp v -> bech32_checksum_valid hrp w -> v <> w -> (5 <= hamming v w)%nat.
Proof.
  intros Hh Fv Fw L L88 Vv Vw N. destruct (Nat.le_gt_cases 5 (hamming v w)) as [G|G]; [exact G|]. exfalso. apply N. apply hamming_0; [exact L|].
  unfold bech32_checksum_valid in *. rewrite polymod_app in Vv, Vw.
  destruct (poly_common_ok hrp [] Hh bytes_nil) as [_ B]. rewrite app_nil_r in B. set (m := polymod (hrp_expand hrp)) in *.
  assert (V6 : vec 6 (symsof m)) by (apply symsof_vec; lia).
  assert (E : fold_left st_step (vadd v w) (vzero 6) = vzero 6).
  { rewrite <- (vadd_self 6 (symsof m) V6). rewrite <- fold_st_add by assumption. rewrite <- !symsof_fold by assumption. rewrite Vv, Vw. rewrite !(vadd_self 6) by (apply symsof_vec; lia). reflexivity. }
  assert (Lva : forall a b, length a = length b -> length (vadd a b) = length a).
  { induction a as [|x a IH]; intros [|y b] E0; try discriminate; [reflexivity|]. cbn [vadd length] in *. rewrite IH; lia. }
  assert (Fva : forall a b, Forall sym a -> Forall sym b -> Forall sym (vadd a b)).
  { induction a as [|x a IH]; intros [|y b] Fa Fb; try constructor; inversion Fa; inversion Fb; subst; [now apply lxor_sym|now apply IH]. }
  rewrite <- weight_hamming in * by exact L. rewrite <- weight_rev. apply bch_distance.
  - apply Forall_rev. now apply Fva.
  - rewrite rev_length, Lva; [exact L88|exact L].
  - rewrite weight_rev. lia.
  - rewrite synr_fold, rev_involutive. exact E.
Qed.

(** Encoder outputs are valid strings. *)
Lemma encoded_valid hrp data : hrp <> [] -> Forall (fun c => 33 <= c <= 126 /\ ~ is_upper c) hrp -> Forall sym data ->
  (length hrp + length data + 7 <= 90)%nat ->
  bech32_valid (hrp ++ [49] ++ map bech32_char (data ++ bech32_checksum hrp data)) hrp data.
Proof.
  intros Hn Hh Hd L.
  assert (Hp : Forall printable hrp) by (eapply Forall_impl; [|exact Hh]; cbv beta; unfold printable; tauto).
  pose proof (printable_bytes hrp Hp) as Hb. destruct (checksum_verifies hrp data Hb Hd) as (F & Lc & V).
  assert (Fa : Forall sym (data ++ bech32_checksum hrp data)) by (apply Forall_app; auto).
  assert (CP : Forall (fun c => printable c /\ c <> 49 /\ tolower c = c /\ ~ is_upper c) (map bech32_char (data ++ bech32_checksum hrp data))).
  { apply Forall_map. eapply Forall_impl; [|exact Fa]. cbv beta. intros v Hv. destruct (char_props v Hv) as (A & B & C & D & _). auto. }
  assert (El : forall l, Forall (fun c => tolower c = c) l -> map tolower l = l).
  { induction 1; cbn [map]; congruence. }
  split.
  { rewrite !app_length, map_length, app_length, Lc. cbn [length]. lia. }
  assert (P49 : Forall (fun c => printable c /\ ~ is_upper c) [49]) by (constructor; [unfold printable, is_upper; lia|constructor]).
  assert (PA : Forall (fun c => printable c /\ ~ is_upper c) (hrp ++ [49] ++ map bech32_char (data ++ bech32_checksum hrp data))).
  { apply Forall_app. split; [exact Hh|]. apply Forall_app. split; [exact P49|]. eapply Forall_impl; [|exact CP]. cbv beta; unfold printable; tauto. }
  split; [eapply Forall_impl; [|exact PA]; cbv beta; unfold printable; tauto|].
  split. { intros [_ U]. apply Exists_exists in U as (c & I & U). rewrite Forall_forall in PA. destruct (PA c I). contradiction. }
  exists hrp, (map bech32_char (data ++ bech32_checksum hrp data)), (bech32_checksum hrp data).
  split; [reflexivity|]. split; [exact Hn|]. split.
  { intros I. rewrite Forall_forall in CP. destruct (CP 49 I) as (_ & N & _). now apply N. }
  split. { symmetry. apply El. eapply Forall_impl; [|exact Hh]. cbv beta. intros c [_ U]. unfold tolower, is_upper in *. destruct ((65 <=? c) && (c <=? 90)) eqn:E; lia. }
  split; [exact Fa|]. split; [exact Lc|]. split; [|exact V].
  apply El. eapply Forall_impl; [|exact CP]. cbv beta; unfold printable; tauto.
Qed.
