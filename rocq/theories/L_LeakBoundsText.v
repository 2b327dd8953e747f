(** Lemmas for C139, text encoders: accesses stay inside the buffers. *)
From Verif Require Import Base M_Endian M_Hex M_Base58 M_Base58Check M_Hash M_Address M_Random M_Key M_Leak M_LeakText L_LeakBounds.

Section Gen.
Variable P : obs -> Prop.
Hypothesis PT : forall b, P (Test b).
Notation can_read := (can_read P).
Notation can_write := (can_write P).
Notation rw := (rw P).

Lemma F_to_hex_loop p str hs buf i n : can_read p n -> can_write str (2 * n) -> can_read (HexTable, 0%nat) 16 ->
  Forall is_byte buf -> (i + length buf = n)%nat -> Forall P (fst (to_hex_loop_l p str hs i buf)).
Proof.
  intros R W T. revert i. induction buf as [|b buf IH]; intros i Hb Hi; cbn [to_hex_loop_l]; [repeat constructor; apply PT|].
  specialize (IH (S i)). destruct (to_hex_loop_l p str hs (S i) buf) as [t out]. cbn [fst length] in *. inversion_clear Hb as [|? ? B Bs].
  unfold is_byte in B.
  assert (H1 : (Z.to_nat (Z.shiftr b 4) < 16)%nat). { rewrite Z.shiftr_div_pow2 by lia. change (2 ^ 4) with 16. assert (b / 16 < 16) by (apply Z.div_lt_upper_bound; lia). lia. }
  assert (H2 : (Z.to_nat (Z.land b 15) < 16)%nat). { change 15 with (Z.ones 4). rewrite Z.land_ones by lia. change (2 ^ 4) with 16. pose proof (Z.mod_pos_bound b 16). lia. }
  repeat (apply Forall_cons); try apply PT.
  - apply R. lia.
  - apply (T (Z.to_nat (Z.shiftr b 4)) 1%nat). lia.
  - apply W. lia.
  - apply (T (Z.to_nat (Z.land b 15)) 1%nat). lia.
  - apply W. lia.
  - apply IH; [exact Bs|lia].
Qed.
Lemma F_to_hex p str buf u : can_read p (length buf) -> can_write str (2 * length buf) -> can_read (HexTable, 0%nat) 16 -> Forall is_byte buf ->
  Forall P (fst (to_hex_l p str buf u)).
Proof.
  intros R W T B. unfold to_hex_l. pose proof (F_to_hex_loop p str (hex_str u) buf 0 (length buf) R W T B eq_refl) as H.
  destruct (to_hex_loop_l p str (hex_str u) 0 buf) as [t out]. cbn [fst] in *. constructor; [apply PT|exact H].
Qed.

Lemma F_skip p buf i n : can_read p n -> (i + length buf <= n)%nat -> Forall P (fst (skip_zeroes_l p i buf)).
Proof.
  intros R. revert i. induction buf as [|x r IH]; intros i Hi; cbn [skip_zeroes_l]; [repeat constructor; apply PT|].
  specialize (IH (S i)). cbn [length] in Hi. destruct (skip_zeroes_l p (S i) r) as [t' [z b]]. cbn [fst] in *.
  assert (H0 : P (read (padd p i) 1)) by (apply R; lia).
  destruct (x =? 0); cbn [fst app]; repeat (apply Forall_cons; [first [apply PT|exact H0]|]); [apply IH; lia|constructor].
Qed.
Lemma skip_post p buf i : (fst (snd (skip_zeroes_l p i buf)) + length (snd (snd (skip_zeroes_l p i buf))) = length buf)%nat /\
  exists z, buf = z ++ snd (snd (skip_zeroes_l p i buf)).
Proof.
  revert i. induction buf as [|x r IH]; intros i; cbn [skip_zeroes_l]; [split; [reflexivity|exists []; reflexivity]|].
  destruct (IH (S i)) as [E [z Ez]]. destruct (skip_zeroes_l p (S i) r) as [t' [k b]]. cbn [fst snd length] in *.
  destruct (x =? 0); cbn [fst snd length]; split; try lia.
  - exists (x :: z). cbn. f_equal. exact Ez.
  - exists []. reflexivity.
Qed.
Definition digits (b : list Z) : Prop := Forall (fun d => 0 <= d < 58) b.
Lemma F_carry mul carry size len b i : rw B58 size -> (i + length b <= size)%nat ->
  Forall P (fst (carry_loop_l mul 58 carry size i len b)).
Proof.
  intros [R W]. revert carry i. induction b as [|d b IH]; intros carry i Hi; cbn [carry_loop_l].
  - destruct (carry =? 0), (i <? len)%nat; cbn; repeat constructor; apply PT.
  - cbn [length] in Hi. specialize (IH ((carry + mul * d) / 58) (S i)). destruct (carry_loop_l mul 58 ((carry + mul * d) / 58) size (S i) len b) as [t' [[c' i'] b'']].
    cbn [fst] in IH. assert (H : Forall P t') by (apply IH; lia).
    assert (Hr : P (Read B58 (size - 1 - i) 1)) by (apply (R (size - 1 - i)%nat 1%nat); lia).
    assert (Hw : P (Write B58 (size - 1 - i) 1)) by (apply (W (size - 1 - i)%nat 1%nat); lia).
    destruct (carry =? 0), (i <? len)%nat; cbn; repeat (apply Forall_cons; [first [apply PT|assumption]|]); first [exact H|constructor].
Qed.
Lemma carry_post mul carry size len b i : digits b ->
  let '(_, i', b') := snd (carry_loop_l mul 58 carry size i len b) in (i' <= i + length b)%nat /\ length b' = length b /\ digits b'.
Proof.
  revert carry i. induction b as [|d b IH]; intros carry i D; cbn [carry_loop_l].
  - cbn. split; [lia|split; [reflexivity|exact D]].
  - inversion_clear D as [|? ? D1 D2]. specialize (IH ((carry + mul * d) / 58) (S i) D2).
    destruct (carry_loop_l mul 58 ((carry + mul * d) / 58) size (S i) len b) as [t' [[c' i'] b'']]. cbn [snd] in IH. destruct IH as (A & B & C).
    destruct (negb (carry =? 0) || (i <? len)%nat); cbn [snd length]; (split; [lia|split; [lia|]]).
    + constructor; [apply Z.mod_pos_bound; lia|exact C].
    + constructor; assumption.
Qed.
Lemma F_b58_loop p size buf k n len b : can_read p n -> rw B58 size -> (k + length buf <= n)%nat -> length b = size -> digits b ->
  Forall P (fst (to_base58_loop_l p k size buf len b)).
Proof.
  intros R RW. revert k len b. induction buf as [|x r IH]; intros k len b Hk Hl D; cbn [to_base58_loop_l]; [apply F_step; [repeat constructor; apply PT|constructor]|].
  cbn [length] in Hk. apply F_step; [apply Forall_cons; [apply PT|apply Forall_cons; [apply R; lia|constructor]]|].
  pose proof (F_carry 256 x size len b 0 RW ltac:(lia)) as H. pose proof (carry_post 256 x size len b 0 D) as Q.
  destruct (carry_loop_l 256 58 x size 0 len b) as [t [[c i] b']]. cbn [fst snd] in *. destruct Q as (Q1 & Q2 & Q3).
  apply F_step; [apply Forall_app; split; [exact H|repeat constructor; apply PT]|]. apply F_pure. intros _ _. apply IH; [lia|congruence|exact Q3].
Qed.
Lemma b58_loop_post p size buf : forall k len b len' b', length b = size -> digits b -> (len <= size)%nat ->
  snd (to_base58_loop_l p k size buf len b) = Ok (len', b') -> (len' <= size)%nat /\ length b' = size /\ digits b'.
Proof.
  induction buf as [|x r IH]; intros k len b len' b' Hl D L; cbn [to_base58_loop_l].
  - cbn. intros H. injection H as <- <-. auto.
  - pose proof (carry_post 256 x size len b 0 D) as Q. destruct (carry_loop_l 256 58 x size 0 len b) as [t [[c i] b1]]. cbn [snd] in Q. destruct Q as (Q1 & Q2 & Q3).
    cbn. destruct (c =? 0); cbn; [|discriminate]. apply IH; [congruence|exact Q3|lia].
Qed.
Lemma F_translate str size iter k n : can_write str n -> can_read (B58, 0%nat) size -> can_read (Base58Table, 0%nat) 58 -> digits iter ->
  (length iter <= size)%nat -> (k + length iter <= n)%nat -> Forall P (fst (translate_l str size k iter)).
Proof.
  intros W R T. revert k. induction iter as [|d r IH]; intros k D L Hk; cbn [translate_l]; [repeat constructor; apply PT|].
  inversion_clear D as [|? ? D1 D2]. cbn [length] in L, Hk. specialize (IH (S k) D2 ltac:(lia) ltac:(lia)).
  destruct (translate_l str size (S k) r) as [t out]. cbn [fst] in *.
  apply Forall_cons; [apply PT|]. apply Forall_cons; [apply (R (size - length (d :: r))%nat 1%nat); cbn [length]; lia|].
  apply Forall_cons; [apply (T (Z.to_nat d) 1%nat); lia|]. apply Forall_cons; [apply W; lia|exact IH].
Qed.
Lemma div_mono z l : (z + (l * 138 / 100 + 1) <= (z + l) * 138 / 100 + 1)%nat.
Proof.
  assert (z + l * 138 / 100 <= (z + l) * 138 / 100)%nat; [|lia]. apply Nat.div_le_lower_bound; [lia|].
  pose proof (Nat.mul_div_le (l * 138) 100 ltac:(lia)). lia.
Qed.
Lemma F_b58 p str buf : can_read p (length buf) -> can_write str (length buf * 138 / 100 + 1) -> rw B58 (length buf * 138 / 100 + 1) ->
  can_read (Base58Table, 0%nat) 58 -> Forall P (fst (to_base58_l p str buf)).
Proof.
  intros R W RW T. unfold to_base58_l. pose proof (F_skip p buf 0 (length buf) R ltac:(lia)) as H0. destruct (skip_post p buf 0) as [S1 _].
  destruct (skip_zeroes_l p 0 buf) as [t0 [z rest]]. cbn [fst snd] in *. apply F_step; [exact H0|]. cbv zeta.
  pose proof (div_mono z (length rest)) as M. rewrite S1 in M. set (size := (length rest * 138 / 100 + 1)%nat) in *. set (N := (length buf * 138 / 100 + 1)%nat) in *.
  assert (RW' : rw B58 size). { destruct RW as [Ra Wa]. split; [apply (can_read_le _ _ N)|apply (can_write_le _ _ N)]; try assumption; lia. }
  clearbody size N. apply F_pure. intros _ _.
  assert (WB : P (Write B58 0 size)) by (apply (rw_write _ B58 size); [exact RW'|lia]).
  apply F_step; [apply Forall_cons; [apply PT|apply Forall_cons; [exact WB|constructor]]|].
  assert (D0 : digits (repeat 0 size)). { apply Forall_forall. intros x Hx. apply repeat_spec in Hx. lia. }
  apply F_bind; [apply (F_b58_loop _ _ _ _ (length buf)); [exact R|exact RW'|lia|apply repeat_length|exact D0]|].
  intros [len b58] E. apply b58_loop_post in E; [|apply repeat_length|exact D0|lia]. destruct E as (E1 & E2 & E3).
  assert (Hl : length (rev (firstn len b58)) = len) by (rewrite rev_length, firstn_length; lia).
  assert (Hd : digits (rev (firstn len b58))).
  { unfold digits in *. rewrite Forall_forall in *. intros x Hx. apply E3. rewrite <- in_rev in Hx. rewrite <- (firstn_skipn len b58). apply in_or_app. left. exact Hx. }
  pose proof (F_skip (B58, (size - len)%nat) (rev (firstn len b58)) 0 len) as H1. destruct (skip_post (B58, (size - len)%nat) (rev (firstn len b58)) 0) as [S2 [zz S3]].
  destruct (skip_zeroes_l (B58, (size - len)%nat) 0 (rev (firstn len b58))) as [t1 [z1 iter]]. cbn [fst snd] in *.
  rewrite Hl in *.
  apply F_step. { apply Forall_app. split; [apply H1; [|lia]|].
    - intros off k Hk. apply (rw_read _ B58 size); [exact RW'|cbn; lia].
    - apply Forall_cons; [|constructor]. apply (can_write0 _ str N); [exact W|lia]. }
  assert (Di : digits iter). { rewrite S3 in Hd. apply Forall_app in Hd. apply Hd. }
  pose proof (F_translate str size iter z N W (proj1 RW') T Di ltac:(lia) ltac:(lia)) as H2.
  destruct (translate_l str size z iter) as [t2 chars]. cbn [fst] in H2. apply F_step; [|constructor].
  apply Forall_app. split; [exact H2|]. apply Forall_cons; [exact WB|apply Forall_cons; [apply PT|constructor]].
Qed.
Lemma store_length mem off bs m : store mem off bs = Ok m -> length m = length mem.
Proof.
  unfold store. destruct (Nat.leb_spec (off + length bs) (length mem)); [|discriminate]. intros E. injection E as <-.
  rewrite !app_length, firstn_length, skipn_length. lia.
Qed.
Lemma F_check pb pp str buf prefix all : all = (length buf + length prefix + 4)%nat ->
  can_read pb (length buf) -> can_read pp (length prefix) -> can_write str (all * 138 / 100 + 1) ->
  rw B58 (all * 138 / 100 + 1) -> can_read (Base58Table, 0%nat) 58 -> rw CheckBuffer all -> rw CheckHash 32 -> rw Sha2Digest 32 -> rw Digest 32 -> rw LastChunk 64 ->
  Forall P (fst (to_base58_check_l pb pp str buf prefix)).
Proof.
  intros A Rb Rp Ws RB T CB CH SD Dg Lc. unfold to_base58_check_l. cbv zeta. rewrite <- A.
  pose proof (proj2 CB) as WCB. pose proof (proj1 CB) as RCB.
  assert (W1 : forall off k, (off + k <= all)%nat -> P (Write CheckBuffer off k)) by (intros off k H; exact (WCB off k H)).
  apply F_step; [apply Forall_cons; [apply PT|constructor]|].
  apply F_step; [apply Forall_cons; [apply (can_read0 _ pp (length prefix)); [exact Rp|lia]|apply Forall_cons; [apply W1; lia|constructor]]|].
  apply F_pure. intros b1 E1. apply store_length in E1. unfold uninit in E1. rewrite repeat_length in E1.
  apply F_step; [apply Forall_cons; [apply (can_read0 _ pb (length buf)); [exact Rb|lia]|apply Forall_cons; [apply W1; lia|constructor]]|].
  apply F_pure. intros b2 E2. apply store_length in E2. apply F_pure. intros win _.
  apply F_bind.
  - unfold btc_hash256_l. destruct SD as [SR SW], Dg, Lc, CH.
    apply F_bind; [apply F_sha2_256; try assumption; apply (can_read_le _ _ all); [exact RCB|lia]|]. intros d _. apply F_sha2_256; assumption.
  - intros h _. apply F_step; [apply Forall_cons; [apply (rw_read _ CheckHash 32); [exact CH|lia]|apply Forall_cons; [apply W1; lia|constructor]]|].
    apply F_pure. intros h4 _. apply F_pure. intros b3 E3. apply store_length in E3.
    assert (L3 : length b3 = all) by congruence.
    apply F_bind; [apply F_b58; rewrite ?L3; assumption|]. intros r _.
    apply F_step; [apply Forall_cons; [apply W1; lia|apply Forall_cons; [apply PT|constructor]]|constructor].
Qed.
End Gen.
