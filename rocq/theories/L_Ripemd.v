(** RIPEMD-160 meets the specification. *)
From Verif Require Import Base M_Endian L_Endian S_Words M_Sha2 S_Sha2 L_Sha2 L_Md L_Sha2Top L_Sha1 M_Ripemd S_Ripemd.

Definition mac_eqb (a b : rmac) : bool :=
  match a, b with
  | FF, FF | GG, GG | HH, HH | II, II | JJ, JJ | FFF, FFF | GGG, GGG | HHH, HHH | III, III | JJJ, JJJ => true
  | _, _ => false
  end.
Lemma mac_eqb_eq a b : mac_eqb a b = true -> a = b.
Proof. destruct a, b; cbn; congruence. Qed.
Definition macL (i : nat) : rmac := nth i [FF; GG; HH; II; JJ] JJ.
Definition macR (i : nat) : rmac := nth i [JJJ; III; HHH; GGG; FFF] FFF.
Definition canon10 (t : nat) : list nat := map (fun i => (5 + i)%nat) (canon5 t).

Definition check_L (t : nat) (l : rline) : bool :=
  let '(RL m regs x s) := l in
  mac_eqb m (macL (t / 16)) && natlist_eqb regs (canon5 t) && Nat.eqb x (rmd_r t) &&
  (s =? rmd_shift (t / 16) (rmd_r t)) && (mac_const m =? rmd_K (t / 16)) && (t <? 80)%nat.
Definition check_R (t : nat) (l : rline) : bool :=
  let '(RL m regs x s) := l in
  mac_eqb m (macR (t / 16)) && natlist_eqb regs (canon10 t) && Nat.eqb x (rmd_r' t) &&
  (s =? rmd_shift (t / 16) (rmd_r' t)) && (mac_const m =? rmd_K' (t / 16)) && (t <? 80)%nat.
Fixpoint check_all (chk : nat -> rline -> bool) (t : nat) (ls : list rline) : bool :=
  match ls with [] => true | l :: ls' => chk t l && check_all chk (S t) ls' end.

Lemma rmd_check : check_all check_L 0 (firstn 80 rmd_lines) && check_all check_R 0 (skipn 80 rmd_lines)
                  && Nat.eqb (length rmd_lines) 160 = true.
Proof. vm_cast_no_check (eq_refl true). Qed.

Lemma macL_fun i x y z : (i < 5)%nat -> mac_fun (macL i) x y z = rmd_f i x y z.
Proof. intros H. do 5 (destruct i as [|i]; [reflexivity|]). lia. Qed.
Lemma macR_fun i x y z : (i < 5)%nat -> mac_fun (macR i) x y z = rmd_f (4 - i) x y z.
Proof. intros H. do 5 (destruct i as [|i]; [reflexivity|]). lia. Qed.
Lemma canon5_S n t : (t mod 5 = n)%nat -> canon5 (S t) = map (fun j => ((j + (5 - (n + 1) mod 5)) mod 5)%nat) (seq 0 5).
Proof.
  intros H. unfold canon5. replace (S t mod 5)%nat with ((n + 1) mod 5)%nat; [reflexivity|].
  subst n. rewrite Nat.add_mod_idemp_l by lia. f_equal. lia.
Qed.
Lemma u32_step (f : Z -> Z -> Z -> Z) k x s a b c d e :
  u32 (ROL (u32 (a + (f b c d + x + k))) s + e) = (rotl 32 s ((a + f b c d + x + k) mod 2 ^ 32) + e) mod 2 ^ 32.
Proof.
  change (ROL ?y s) with (rotl 32 s y). unfold u32. do 4 f_equal. ring.
Qed.

Lemma stepL_ok X t L R l : length L = 5%nat -> check_L t l = true ->
  (forall i, (i < 16)%nat -> nth i X (-1000) = nth i X 0) -> (rmd_r t < 16)%nat ->
  exists L', exec_rline X (L ++ R) l = Ok (L' ++ R) /\ length L' = 5%nat /\
    view5 (S t) L' = rmd_left X (view5 t L) t.
Proof.
  destruct l as [m regs x s]. intros HL H HX Hr. unfold check_L in H.
  repeat (apply andb_true_iff in H as [H ?]).
  apply mac_eqb_eq in H. subst m.
  repeat match goal with
  | [ h : natlist_eqb _ _ = true |- _ ] => apply natlist_eqb_eq in h
  | [ h : Nat.eqb _ _ = true |- _ ] => apply Nat.eqb_eq in h
  | [ h : (_ =? _) = true |- _ ] => apply Z.eqb_eq in h
  | [ h : (_ <? _)%nat = true |- _ ] => apply Nat.ltb_lt in h
  end.
  subst regs x s. unfold rmd_left.
  assert (Hi : (t / 16 < 5)%nat) by (apply Nat.div_lt_upper_bound; lia).
  unfold exec_rline.
  match goal with [ h : mac_const _ = _ |- _ ] => rewrite h end.
  rewrite (HX _ Hr).
  pose proof (fun x y z => macL_fun (t / 16) x y z Hi) as HF.
  set (f := mac_fun (macL (t / 16))) in *. set (g := rmd_f (t / 16)) in *. clearbody f g.
  set (s := rmd_shift _ _). set (W := nth (rmd_r t) X 0). set (K := rmd_K _) in *. clearbody s W K.
  destruct L as [|r0 [|r1 [|r2 [|r3 [|r4 [|? ?]]]]]]; try discriminate HL. clear HL.
  assert (Hn : (t mod 5 < 5)%nat) by (apply Nat.mod_upper_bound; lia).
  remember (t mod 5)%nat as n eqn:En. symmetry in En. unfold view5. rewrite (canon5_S n t En). unfold canon5. rewrite En.
  clear - HF Hn.
  do 5 (destruct n as [|n]; [
    cbn [seq map Nat.modulo Nat.add Nat.sub Nat.divmod fst snd nth upd firstn skipn app];
    rewrite u32_step; eexists [_; _; _; _; _]; split; [cbn [app]; reflexivity|]; split; [reflexivity|];
    cbn [nth]; unfold rmd_step; rewrite HF; reflexivity|]).
  lia.
Qed.

Lemma stepR_ok X t L R l : length L = 5%nat -> length R = 5%nat -> check_R t l = true ->
  (forall i, (i < 16)%nat -> nth i X (-1000) = nth i X 0) -> (rmd_r' t < 16)%nat ->
  exists R', exec_rline X (L ++ R) l = Ok (L ++ R') /\ length R' = 5%nat /\
    view5 (S t) R' = rmd_right X (view5 t R) t.
Proof.
  destruct l as [m regs x s]. intros HL HR H HX Hr. unfold check_R in H.
  repeat (apply andb_true_iff in H as [H ?]).
  apply mac_eqb_eq in H. subst m.
  repeat match goal with
  | [ h : natlist_eqb _ _ = true |- _ ] => apply natlist_eqb_eq in h
  | [ h : Nat.eqb _ _ = true |- _ ] => apply Nat.eqb_eq in h
  | [ h : (_ =? _) = true |- _ ] => apply Z.eqb_eq in h
  | [ h : (_ <? _)%nat = true |- _ ] => apply Nat.ltb_lt in h
  end.
  subst regs x s. unfold rmd_right.
  assert (Hi : (t / 16 < 5)%nat) by (apply Nat.div_lt_upper_bound; lia).
  unfold exec_rline.
  match goal with [ h : mac_const _ = _ |- _ ] => rewrite h end.
  rewrite (HX _ Hr).
  pose proof (fun x y z => macR_fun (t / 16) x y z Hi) as HF.
  set (f := mac_fun (macR (t / 16))) in *. set (g := rmd_f (4 - t / 16)) in *. clearbody f g.
  set (s := rmd_shift _ _). set (W := nth (rmd_r' t) X 0). set (K := rmd_K' _) in *. clearbody s W K.
  destruct L as [|l0 [|l1 [|l2 [|l3 [|l4 [|? ?]]]]]]; try discriminate HL. clear HL.
  destruct R as [|r0 [|r1 [|r2 [|r3 [|r4 [|? ?]]]]]]; try discriminate HR. clear HR.
  assert (Hn : (t mod 5 < 5)%nat) by (apply Nat.mod_upper_bound; lia).
  remember (t mod 5)%nat as n eqn:En. symmetry in En. unfold view5, canon10. rewrite (canon5_S n t En). unfold canon5. rewrite En.
  clear - HF Hn.
  do 5 (destruct n as [|n]; [
    cbn [seq map Nat.modulo Nat.add Nat.sub Nat.divmod fst snd nth upd firstn skipn app];
    rewrite u32_step; eexists [_; _; _; _; _]; split; [cbn [app]; reflexivity|]; split; [reflexivity|];
    cbn [nth]; unfold rmd_step; rewrite HF; reflexivity|]).
  lia.
Qed.

Lemma rmd_r_bound : forallb (fun t => (rmd_r t <? 16)%nat && (rmd_r' t <? 16)%nat) (seq 0 80) = true.
Proof. vm_cast_no_check (eq_refl true). Qed.
Lemma rmd_r_lt t : (t < 80)%nat -> (rmd_r t < 16)%nat /\ (rmd_r' t < 16)%nat.
Proof.
  intros H. pose proof (proj1 (forallb_forall _ _) rmd_r_bound t) as B.
  rewrite in_seq in B. specialize (B ltac:(lia)). apply andb_true_iff in B as [B1 B2].
  split; now apply Nat.ltb_lt.
Qed.

Lemma linesL_ok X R : (forall i, (i < 16)%nat -> nth i X (-1000) = nth i X 0) ->
  forall ls t L, (t + length ls <= 80)%nat -> length L = 5%nat -> check_all check_L t ls = true ->
  exists L', exec_rlines X (L ++ R) ls = Ok (L' ++ R) /\ length L' = 5%nat /\
    view5 (t + length ls) L' = fold_left (rmd_left X) (seq t (length ls)) (view5 t L).
Proof.
  intros HX. induction ls as [|l ls IH]; intros t L Ht HL Hc.
  - exists L. cbn [length seq fold_left exec_rlines]. rewrite Nat.add_0_r. auto.
  - cbn [check_all] in Hc. apply andb_true_iff in Hc as [Hl Hc]. cbn [length] in Ht.
    destruct (stepL_ok X t L R l HL Hl HX (proj1 (rmd_r_lt t ltac:(lia)))) as (L1 & E1 & H1 & V1).
    destruct (IH (S t) L1 ltac:(lia) H1 Hc) as (L2 & E2 & H2 & V2).
    exists L2. cbn [exec_rlines]. rewrite E1. cbn [bind]. split; [exact E2|]. split; [exact H2|].
    cbn [length seq fold_left]. rewrite <- V1, <- V2. f_equal. lia.
Qed.
Lemma linesR_ok X L : (forall i, (i < 16)%nat -> nth i X (-1000) = nth i X 0) -> length L = 5%nat ->
  forall ls t R, (t + length ls <= 80)%nat -> length R = 5%nat -> check_all check_R t ls = true ->
  exists R', exec_rlines X (L ++ R) ls = Ok (L ++ R') /\ length R' = 5%nat /\
    view5 (t + length ls) R' = fold_left (rmd_right X) (seq t (length ls)) (view5 t R).
Proof.
  intros HX HL. induction ls as [|l ls IH]; intros t R Ht HR Hc.
  - exists R. cbn [length seq fold_left exec_rlines]. rewrite Nat.add_0_r. auto.
  - cbn [check_all] in Hc. apply andb_true_iff in Hc as [Hl Hc]. cbn [length] in Ht.
    destruct (stepR_ok X t L R l HL HR Hl HX (proj2 (rmd_r_lt t ltac:(lia)))) as (L1 & E1 & H1 & V1).
    destruct (IH (S t) L1 ltac:(lia) H1 Hc) as (L2 & E2 & H2 & V2).
    exists L2. cbn [exec_rlines]. rewrite E1. cbn [bind]. split; [exact E2|]. split; [exact H2|].
    cbn [length seq fold_left]. rewrite <- V1, <- V2. f_equal. lia.
Qed.
Lemma exec_rlines_app X l1 : forall l2 rs, exec_rlines X rs (l1 ++ l2) = bind (exec_rlines X rs l1) (fun rs' => exec_rlines X rs' l2).
Proof.
  induction l1 as [|l l1 IH]; intros l2 rs; [reflexivity|]. cbn [app exec_rlines].
  destruct (exec_rline X rs l); cbn [bind]; auto.
Qed.

Lemma load_X_ok chunk n : forall k, bytes chunk -> (4 * (k + n) <= length chunk)%nat ->
  load_X chunk (seq k n) = Ok (map (fun i => le_val (firstn 4 (skipn (4 * i) chunk))) (seq k n)).
Proof.
  induction n as [|n IH]; intros k Hb Hl; [reflexivity|].
  cbn [seq load_X map]. rewrite le32_ok by (auto; lia). cbn [bind]. rewrite IH by (auto; lia). cbn [bind].
  do 5 f_equal. lia.
Qed.
Lemma load_words chunk : bytes chunk -> (64 <= length chunk)%nat ->
  load_X chunk (seq 0 16) = Ok (le_words (firstn 64 chunk)) /\ length (le_words (firstn 64 chunk)) = 16%nat.
Proof.
  intros Hb Hl. assert (Hl' : length (firstn 64 chunk) = (4 * 16)%nat) by (rewrite firstn_length; lia).
  unfold le_words. rewrite (chunks_seq 4 16) by (auto; lia). rewrite !map_map, map_length, seq_length. split; [|reflexivity].
  rewrite load_X_ok by (auto; lia). f_equal. apply map_ext_in. intros i Hi. apply in_seq in Hi.
  now rewrite firstn_skipn_firstn by lia.
Qed.

Definition compr (H block : list Z) : list Z := rmd_compress H (le_words block).

Lemma rmd_left_length X l : forall st, length st = 5%nat -> length (fold_left (rmd_left X) l st) = 5%nat.
Proof.
  induction l as [|t l IH]; intros st H; [exact H|]. rewrite fold_left_cons. apply IH.
  destruct st as [|? [|? [|? [|? [|? [|? ?]]]]]]; try discriminate H. reflexivity.
Qed.
Lemma rmd_right_length X l : forall st, length st = 5%nat -> length (fold_left (rmd_right X) l st) = 5%nat.
Proof.
  induction l as [|t l IH]; intros st H; [exact H|]. rewrite fold_left_cons. apply IH.
  destruct st as [|? [|? [|? [|? [|? [|? ?]]]]]]; try discriminate H. reflexivity.
Qed.
Lemma compr_good s b : good5 s -> good5 (compr s b).
Proof.
  unfold good5, compr, rmd_compress. intros H.
  pose proof (rmd_left_length (le_words b) (seq 0 80) s H) as H1.
  pose proof (rmd_right_length (le_words b) (seq 0 80) s H) as H2.
  destruct s as [|? [|? [|? [|? [|? [|? ?]]]]]]; try discriminate H.
  destruct (fold_left (rmd_left _) _ _) as [|? [|? [|? [|? [|? [|? ?]]]]]]; try discriminate H1.
  destruct (fold_left (rmd_right _) _ _) as [|? [|? [|? [|? [|? [|? ?]]]]]]; try discriminate H2. reflexivity.
Qed.

Lemma rmd_lines_len80 : length (firstn 80 rmd_lines) = 80%nat /\ length (skipn 80 rmd_lines) = 80%nat.
Proof. split; reflexivity. Qed.

Lemma ripemd160_transform_ok s chunk : good5 s -> bytes chunk -> (64 <= length chunk)%nat ->
  ripemd160_transform s chunk = Ok (compr s (firstn 64 chunk)).
Proof.
  intros Hs Hb Hl. unfold ripemd160_transform, compr.
  destruct (load_words chunk Hb Hl) as [-> HW]. cbn [bind].
  set (X := le_words (firstn 64 chunk)) in *. clearbody X.
  assert (HX : forall i, (i < 16)%nat -> nth i X (-1000) = nth i X 0) by (intros i Hi; apply nth_indep; lia).
  pose proof rmd_check as C. apply andb_true_iff in C as [C _]. apply andb_true_iff in C as [CL CR].
  destruct rmd_lines_len80 as [L1 L2].
  rewrite <- (firstn_skipn 80 rmd_lines). rewrite exec_rlines_app.
  destruct (linesL_ok X s HX (firstn 80 rmd_lines) 0 s ltac:(lia) Hs CL) as (L' & EL & HL & VL).
  rewrite EL. cbn [bind].
  destruct (linesR_ok X L' HX HL (skipn 80 rmd_lines) 0 s ltac:(lia) Hs CR) as (R' & ER & HR & VR).
  rewrite ER. cbn [bind]. rewrite L1 in VL. rewrite L2 in VR. cbn [Nat.add] in VL, VR.
  rewrite !view5_0 in VL, VR by (auto; reflexivity). clear - Hs HL HR VL VR.
  destruct s as [|s0 [|s1 [|s2 [|s3 [|s4 [|? ?]]]]]]; try discriminate Hs.
  unfold rmd_compress. rewrite <- VL, <- VR. clear VL VR.
  destruct L' as [|l0 [|l1 [|l2 [|l3 [|l4 [|? ?]]]]]]; try discriminate HL.
  destruct R' as [|r0 [|r1 [|r2 [|r3 [|r4 [|? ?]]]]]]; try discriminate HR.
  cbn [app]. unfold u32. replace (r3 + (l2 + s1)) with (s1 + l2 + r3) by lia. reflexivity.
Qed.

Lemma IVr_eq : rmd_H0 = IVr. Proof. reflexivity. Qed.
Lemma RIPEMD_unfold m : RIPEMD160 m = concat (map (le_bytes 4) (fold_left compr (chunks 64 (m ++ md_pad 64 (le_bytes 8 (8 * Z.of_nat (length m))) (length m))) IVr)).
Proof. reflexivity. Qed.
Lemma out32le_ok d : out32le d = concat (map (le_bytes 4) d).
Proof. unfold out32le. f_equal. apply map_ext. intros v. unfold htole32. rewrite ?host_bytes_le. reflexivity. Qed.
Lemma len_field_le n : byte_len_ok n ->
  host_bytes 8 (htole64 (u64 (Z.shiftl (u64 (Z.of_nat n)) 3))) = le_bytes 8 (8 * Z.of_nat n).
Proof.
  unfold byte_len_ok. intros H. unfold htole64. rewrite host_bytes_le. f_equal.
  unfold u64. rewrite Z.shiftl_mul_pow2 by lia. rewrite (Z.mod_small (Z.of_nat n)) by lia.
  rewrite Z.mod_small by lia. lia.
Qed.

Lemma ripemd160_ok msg n : bytes msg -> (n <= length msg)%nat -> byte_len_ok n -> ripemd160 msg n = Ok (RIPEMD160 (firstn n msg)).
Proof.
  intros Hb Hn Hlen.
  destruct (gen_final_ok ripemd160_transform compr 64 good5 ltac:(lia) ripemd160_transform_ok
              (fun s b H _ _ => compr_good s b H) 0 (le_bytes 8 (8 * Z.of_nat n)) IVr msg n)
    as (d' & Hg & Hd' & Hx); try apply le_bytes_length; try apply le_bytes_bytes; auto; try lia; [reflexivity|].
  assert (E : ripemd160 msg n = bind (gen_final ripemd160_transform 64 55 56 (le_bytes 8 (8 * Z.of_nat n)) IVr msg n) (fun d => Ok (out32le d))).
  { unfold ripemd160, gen_final. rewrite <- (len_field_le n Hlen).
    destruct (block_loop n 64 ripemd160_transform IVr msg n) as [[[d b] r]| |]; cbn [bind]; [|reflexivity|reflexivity].
    destruct (slice b 0 r) as [t| |]; cbn [bind]; [|reflexivity|reflexivity].
    destruct (store (repeat 0 64) 0 t) as [c| |]; cbn [bind]; [|reflexivity|reflexivity].
    destruct (store c r [0x80]) as [c'| |]; cbn [bind]; [|reflexivity|reflexivity].
    destruct (if (55 <? r)%nat then _ else _) as [[d2 c2]| |]; cbn [bind]; [|reflexivity|reflexivity].
    rewrite bind_assoc. reflexivity. }
  rewrite E. change (64 - 0 - 9)%nat with 55%nat in Hx. change (64 - 8)%nat with 56%nat in Hx. rewrite Hx. cbn [bind].
  rewrite out32le_ok, RIPEMD_unfold. replace (length (firstn n msg)) with n by (rewrite firstn_length; lia).
  rewrite Hd'. reflexivity.
Qed.
Lemma RIPEMD160_length m : length (RIPEMD160 m) = 20%nat.
Proof.
  rewrite RIPEMD_unfold.
  assert (G : forall l, length (concat (map (le_bytes 4) l)) = (4 * length l)%nat).
  { induction l as [|x l IH]; [reflexivity|]. cbn [map concat length]. rewrite app_length, IH, le_bytes_length. lia. }
  rewrite G, (fold_good_p good5 compr compr_good) by reflexivity. reflexivity.
Qed.
Lemma bytes_concat_le l : bytes (concat (map (le_bytes 4) l)).
Proof. induction l as [|x l IH]; [constructor|]. cbn [map concat]. apply bytes_app. split; [apply le_bytes_bytes|exact IH]. Qed.
Lemma RIPEMD160_bytes m : bytes (RIPEMD160 m).
Proof. rewrite RIPEMD_unfold. apply bytes_concat_le. Qed.
