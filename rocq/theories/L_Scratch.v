(** Lemmas about scratch buffers. *)
From Verif Require Import Base M_Endian L_Endian S_Mem L_Mem M_Base58 M_Base58Check S_Base58 L_Base58 M_Hash M_Base32 M_Bech32 M_Address S_Scratch M_Scratch P_Mem L_Hash S_Base58Check L_Base58Check L_Sha2Top.

(** The environment keeps the sizes. *)
Definition sane (e : env) : Prop :=
  (forall k, length (e_stack e k) = 128%nat) /\ (forall k n d, e_malloc e k n = Some d -> length d = Z.to_nat n).
(** malloc succeeds for requests up to [n] bytes (requests up to 128 bytes are not made). *)
Definition mallocs (e : env) (n : Z) : Prop := forall k m, 128 < m <= n -> e_malloc e k m <> None.
Lemma mallocs_small e n : n <= 128 -> mallocs e n.
Proof. intros H k m Hm. lia. Qed.
(** What is left in block [k]. *)
Definition clean (e : env) (b : nat * list Z) : Prop :=
  all_wiped (snd b) \/ wiped_or_untouched (e_stack e (fst b)) (snd b).

Lemma find_head k b r : find_block k ((k, b) :: r) = Ok b.
Proof. cbn [find_block]. rewrite Nat.eqb_refl. reflexivity. Qed.
Lemma change_head k h d d' r : change_block k d ((k, (h, d')) :: r) = (k, (h, d)) :: r.
Proof. cbn [change_block]. rewrite Nat.eqb_refl. reflexivity. Qed.
Lemma drop_head k b r : drop_block k ((k, b) :: r) = r.
Proof. cbn [drop_block]. rewrite Nat.eqb_refl. reflexivity. Qed.

(** A world in which block [k] is the newest. *)
Definition top (mem : list Z) k h d bl nx dead := mkWorld mem ((k, (h, d)) :: bl) nx dead.

Lemma declare_ok e size w : sane e -> mallocs e size ->
  exists h d, declare_buffer e size w = (mkBuffer (Some (w_next w)) h, top (w_mem w) (w_next w) h d (w_blocks w) (S (w_next w)) (w_dead w)) /\
    (Z.to_nat size <= length d)%nat /\ (h = true -> length d = Z.to_nat size) /\ (h = false -> d = e_stack e (w_next w)).
Proof.
  intros [S1 S2] M. unfold declare_buffer. destruct (Z.leb_spec size 128).
  - exists false, (e_stack e (w_next w)). split; [reflexivity|]. rewrite S1. repeat split; [lia|discriminate].
  - destruct (e_malloc e (w_next w) size) as [d|] eqn:E; [|exfalso; refine (M _ _ _ E); lia].
    exists true, d. split; [reflexivity|]. rewrite (S2 _ _ _ E). repeat split; [lia|discriminate].
Qed.

Lemma write_top k h mem d bl nx dead a bs : (a + length bs <= length d)%nat ->
  buffer_write (mkBuffer (Some k) h) a bs (top mem k h d bl nx dead) = Ok (top mem k h (written d a bs) bl nx dead).
Proof.
  intros H. unfold buffer_write, top. cbn [b_block w_blocks w_mem w_next w_dead]. rewrite find_head. cbn [bind].
  rewrite store_ok by exact H. cbn [bind]. rewrite change_head. reflexivity.
Qed.
Lemma read_top k h mem d bl nx dead a n : (a + n <= length d)%nat ->
  buffer_read (mkBuffer (Some k) h) a n (top mem k h d bl nx dead) = Ok (region d a n).
Proof.
  intros H. unfold buffer_read, top. cbn [b_block w_blocks]. rewrite find_head. cbn [bind]. apply slice_ok, H.
Qed.
Lemma pwrite_top k h mem d bl nx dead a bs : (a + length bs <= length mem)%nat ->
  p_write a bs (top mem k h d bl nx dead) = Ok (top (written mem a bs) k h d bl nx dead).
Proof. intros H. unfold p_write, top. cbn [w_mem w_blocks w_next w_dead]. rewrite store_ok by exact H. reflexivity. Qed.

(** Leaving: both free and return. *)
Lemma release_top k h mem d bl nx dead :
  (w <- free_buffer (mkBuffer (Some k) h) (top mem k h d bl nx dead) ;; leave_buffer (mkBuffer (Some k) h) w) =
  Ok (mkWorld mem bl nx ((k, d) :: dead)).
Proof.
  unfold free_buffer, leave_buffer, top. cbn [b_block b_in_heap w_mem w_blocks w_next w_dead].
  destruct h; cbn [bind w_mem w_blocks w_next w_dead]; rewrite find_head; cbn [bind c_defined]; rewrite drop_head; reflexivity.
Qed.

Lemma written_wipe e k h d0 d size : (h = true -> length d0 = size) -> (h = false -> d0 = e_stack e k) ->
  length d = length d0 -> (size <= length d0)%nat -> skipn size d = skipn size d0 ->
  clean e (k, written d 0 (repeat 204 size)).
Proof.
  intros Ht Hf L Hs Hk. unfold clean, written. cbn [fst snd firstn app]. rewrite repeat_length. cbn [Nat.add].
  destruct h.
  - left. rewrite skipn_all2 by (rewrite L, Ht by reflexivity; lia). rewrite app_nil_r.
    apply Forall_forall. intros x Hx. apply repeat_spec in Hx. exact Hx.
  - right. rewrite <- Hf by reflexivity. rewrite Hk. unfold wiped_or_untouched.
    rewrite <- (firstn_skipn size d0) at 1. apply Forall2_app.
    + assert (L1 : length (firstn size d0) = size) by (rewrite firstn_length; lia).
      rewrite <- L1 at 2. clear. induction (firstn size d0); cbn [length repeat]; constructor; auto.
    + clear. induction (skipn size d0); constructor; auto.
Qed.

Lemma skipn_written0 d bs size : length bs = size -> skipn size (written d 0 bs) = skipn size d.
Proof. intros <-. unfold written. cbn [firstn app Nat.add]. apply skipn_app_exact. Qed.
Lemma region_written0 d bs n : length bs = n -> (n <= length d)%nat -> region (written d 0 bs) 0 n = bs.
Proof. intros <- H. apply region_written. lia. Qed.

Lemma carry_loop_length mul base : forall b carry i len c' i' b', carry_loop mul base carry i len b = (c', i', b') -> length b' = length b.
Proof.
  induction b as [|d b IH]; intros carry i len c' i' b' H; cbn [carry_loop] in H; [injection H as <- <- <-; reflexivity|].
  destruct (negb (carry =? 0) || (i <? len)%nat); [|injection H as <- <- <-; reflexivity].
  destruct (carry_loop mul base ((carry + mul * d) / base) (S i) len b) as [[c i2] b2] eqn:E.
  injection H as <- <- <-. cbn [length]. f_equal. eapply IH, E.
Qed.
Lemma to_loop_length : forall buf len b len' b', to_base58_loop buf len b = Ok (len', b') -> length b' = length b.
Proof.
  induction buf as [|x r IH]; intros len b len' b' H; cbn [to_base58_loop] in H; [injection H as <- <-; reflexivity|].
  destruct (carry_loop 256 58 x 0 len b) as [[c i] b2] eqn:E. apply carry_loop_length in E.
  unfold c_assert in H. destruct (c =? 0); [|discriminate]. cbn [bind] in H. rewrite (IH _ _ _ _ H). exact E.
Qed.

Lemma to_base58_w_ok N e p n str w input text c : sane e -> mallocs e N -> Z.of_nat (length input * 138 / 100 + 1) <= N ->
  p_read p n w = Ok input -> to_base58 input = Ok (c, text) -> (str + length text <= length (w_mem w))%nat ->
  exists d, to_base58_w e p n str w =
      Ok (c, mkWorld (written (w_mem w) str text) (w_blocks w) (S (w_next w)) ((w_next w, d) :: w_dead w)) /\
    clean e (w_next w, d).
Proof.
  intros Se Ma HN Hr H Hs. unfold to_base58_w. rewrite Hr. cbn [bind].
  unfold to_base58 in H. pose proof (skip_zeroes_spec input) as Hz. destruct (skip_zeroes input) as [z rest].
  assert (HN' : Z.of_nat (length rest * 138 / 100 + 1) <= N).
  { destruct Hz as [-> _]. rewrite app_length in HN. eapply Z.le_trans; [|exact HN]. apply Nat2Z.inj_le.
    apply Nat.add_le_mono_r, Nat.div_le_mono; lia. }
  clear HN Hz.
  set (size := (length rest * 138 / 100 + 1)%nat) in *.
  destruct (Z.leb_spec (Z.of_nat size) INT_MAX) as [Hi|Hi]; [|discriminate]. cbn [c_defined bind] in *.
  destruct (declare_ok e (Z.of_nat size) w Se) as (h & d & -> & Ld & Hht & Hhf).
  { intros k m Hm. apply Ma. lia. }
  rewrite Nat2Z.id in *.
  rewrite write_top by (rewrite repeat_length; lia). cbn [bind].
  rewrite read_top by (rewrite written_length; rewrite ?repeat_length; lia). cbn [bind].
  rewrite region_written0 by (rewrite ?repeat_length; lia).
  replace (rev (repeat 0 size)) with (repeat 0 size).
  2:{ clear. induction size as [|s IH]; [reflexivity|]. cbn [repeat rev]. rewrite <- IH. rewrite (repeat_cons s 0). reflexivity. }
  destruct (to_base58_loop rest 0 (repeat 0 size)) as [[len b58]| |] eqn:El; try discriminate. cbn [bind] in *.
  injection H as <- <-. pose proof (to_loop_length _ _ _ _ _ El) as Lb. rewrite repeat_length in Lb.
  assert (Lr : length (rev b58) = size) by (rewrite rev_length; exact Lb).
  rewrite write_top by (rewrite written_length; rewrite ?repeat_length; lia). cbn [bind].
  rewrite read_top by (rewrite !written_length; rewrite ?repeat_length, ?written_length; rewrite ?repeat_length; lia). cbn [bind].
  rewrite region_written0 by (rewrite ?written_length; rewrite ?repeat_length; lia). rewrite rev_involutive.
  rewrite app_length, repeat_length, map_length in Hs.
  rewrite pwrite_top by (rewrite repeat_length; lia). cbn [bind].
  rewrite pwrite_top by (rewrite written_length; rewrite ?repeat_length, ?map_length; lia). cbn [bind].
  unfold buffer_cleanse. rewrite write_top by (rewrite repeat_length, !written_length; rewrite ?repeat_length, ?written_length; rewrite ?repeat_length; lia).
  cbn [bind].
  match goal with |- context [free_buffer _ (top ?m ?k ?h ?d ?bl ?nx ?dead)] =>
    pose proof (release_top k h m d bl nx dead) as R; exists d end.
  destruct (free_buffer _ _) as [w1| |]; try discriminate. cbn [bind] in *. rewrite R. cbn [bind].
  rewrite app_length, repeat_length, map_length. split.
  - do 3 f_equal. rewrite <- written_app by (rewrite repeat_length, map_length; lia). rewrite repeat_length. reflexivity.
  - apply (written_wipe e _ h d); try assumption.
    + rewrite !written_length; rewrite ?repeat_length, ?written_length; rewrite ?repeat_length; lia.
    + rewrite skipn_written0 by exact Lr. apply skipn_written0, repeat_length.
Qed.

Lemma from_loop_w s : forall len b, match from_base58_loop_w s len b with
  | Ok (true, l, b', s3) => from_base58_loop s len b = Ok (Some (l, b', s3)) /\ length b' = length b
  | Ok (false, l, b', s3) => from_base58_loop s len b = Ok None /\ length b' = length b
  | UB => from_base58_loop s len b = UB
  | Abort => from_base58_loop s len b = Abort
  end.
Proof.
  induction s as [|c r IH]; intros len b; cbn [from_base58_loop_w from_base58_loop]; [reflexivity|].
  destruct (c =? 0); [auto|]. destruct (isspace c) as [[]| |]; cbn [bind]; auto.
  destruct (tget BASE58_DECODE c =? -1); [auto|].
  destruct (carry_loop 58 256 (tget BASE58_DECODE c) 0 len b) as [[c' i] b'] eqn:E. apply carry_loop_length in E.
  unfold c_assert. destruct (c' =? 0); cbn [bind]; [|reflexivity].
  specialize (IH i b'). destruct (from_base58_loop_w r i b') as [[[[[] l] b2] s3]| |]; rewrite <- ?E; exact IH.
Qed.

Lemma rev_repeat {A} (x : A) n : rev (repeat x n) = repeat x n.
Proof. induction n as [|n IH]; [reflexivity|]. cbn [repeat rev]. rewrite IH. symmetry. apply (repeat_cons n x). Qed.

(** The scratch size of [fingera_from_base58] is at most [N]. *)
Definition scratch_size (mem : list Z) (str_len : nat) (N : Z) : Prop := forall sp s1 z s2,
  skip_leading_spaces mem = Ok (sp, s1) -> skip_ones s1 = Ok (z, s2) ->
  Z.quot (to_int (Z.of_nat str_len - Z.of_nat sp - Z.of_nat z) * 733) 1000 + 1 <= N.

Lemma from_base58_w_ok N e str str_len buf w n out : sane e -> mallocs e N -> scratch_size (skipn str (w_mem w)) str_len N ->
  from_base58 (skipn str (w_mem w)) str_len = Ok (n, out) -> (buf + length out <= length (w_mem w))%nat ->
  exists d, from_base58_w e str str_len buf w =
      Ok (n, mkWorld (written (w_mem w) buf out) (w_blocks w) (S (w_next w)) ((w_next w, d) :: w_dead w)) /\
    clean e (w_next w, d).
Proof.
  intros Se Ma HN H Hs. unfold from_base58_w. unfold from_base58 in H.
  destruct (skip_leading_spaces (skipn str (w_mem w))) as [[sp s1]| |] eqn:K1; try discriminate. cbn [bind] in *.
  destruct (skip_ones s1) as [[z s2]| |] eqn:K2; try discriminate. cbn [bind] in *. specialize (HN _ _ _ _ K1 K2).
  set (product := to_int (Z.of_nat str_len - Z.of_nat sp - Z.of_nat z) * 733) in *.
  destruct ((- 2 ^ 31 <=? product) && (product <=? INT_MAX)) eqn:Ep; try discriminate. cbn [bind c_defined] in *.
  destruct (0 <=? Z.quot product 1000 + 1) eqn:Es; try discriminate. cbn [bind c_defined] in *.
  apply andb_prop in Ep. destruct Ep as [E1 E2]. apply Z.leb_le in E1, E2, Es.
  set (size := Z.to_nat (Z.quot product 1000 + 1)) in *.
  assert (Hi : Z.of_nat size <= N) by (subst size; rewrite Z2Nat.id by exact Es; exact HN).
  destruct (declare_ok e (Z.of_nat size) w Se) as (h & d & -> & Ld & Hht & Hhf).
  { intros k m Hm. apply Ma. lia. }
  rewrite Nat2Z.id in *.
  rewrite write_top by (rewrite repeat_length; lia). cbn [bind].
  rewrite read_top by (rewrite written_length; rewrite ?repeat_length; lia). cbn [bind].
  rewrite region_written0 by (rewrite ?repeat_length; lia). rewrite rev_repeat.
  pose proof (from_loop_w s2 0 (repeat 0 size)) as Lw.
  destruct (from_base58_loop_w s2 0 (repeat 0 size)) as [[[[valid len] b256] s3]| |]; [|rewrite Lw in H; discriminate..].
  cbn [bind].
  assert (Lb : length b256 = size) by (destruct valid; destruct Lw as [_ ->]; apply repeat_length).
  assert (Lr : length (rev b256) = size) by (rewrite rev_length; exact Lb).
  rewrite write_top by (rewrite written_length; rewrite ?repeat_length; lia). cbn [bind].
  assert (Fin : forall mem1 dd, length dd = length d -> skipn size dd = skipn size d -> forall r,
    (w0 <- buffer_cleanse (mkBuffer (Some (w_next w)) h) size (top mem1 (w_next w) h dd (w_blocks w) (S (w_next w)) (w_dead w)) ;;
     w1 <- free_buffer (mkBuffer (Some (w_next w)) h) w0 ;;
     w2 <- leave_buffer (mkBuffer (Some (w_next w)) h) w1 ;; Ok (r : nat, w2)) =
    Ok (r, mkWorld mem1 (w_blocks w) (S (w_next w)) ((w_next w, written dd 0 (repeat 204 size)) :: w_dead w)) /\
    clean e (w_next w, written dd 0 (repeat 204 size))).
  { intros mem1 dd L1 L2 r. unfold buffer_cleanse. rewrite write_top by (rewrite repeat_length; lia). cbn [bind].
    pose proof (release_top (w_next w) h mem1 (written dd 0 (repeat 204 size)) (w_blocks w) (S (w_next w)) (w_dead w)) as R.
    destruct (free_buffer _ _) as [w1| |]; try discriminate. cbn [bind] in *. rewrite R. cbn [bind].
    split; [reflexivity|]. apply (written_wipe e _ h d); assumption. }
  set (dd := written (written d 0 (repeat 0 size)) 0 (rev b256)) in *.
  assert (L1 : length dd = length d).
  { unfold dd. rewrite !written_length; rewrite ?repeat_length, ?written_length; rewrite ?repeat_length; lia. }
  assert (L2 : skipn size dd = skipn size d).
  { unfold dd. rewrite skipn_written0 by exact Lr. apply skipn_written0, repeat_length. }
  destruct valid; destruct Lw as [Lw _]; rewrite Lw in H; cbn [bind negb] in *.
  - destruct (skip_trailing_spaces s3) as [s4| |]; try discriminate. cbn [bind] in *.
    destruct (rd s4 0) as [c| |]; try discriminate. cbn [bind] in *. destruct (c =? 0); cbn [negb] in *.
    + rewrite read_top by lia. cbn [bind]. unfold dd at 1 2 3.
      rewrite region_written0 by (rewrite ?written_length; rewrite ?repeat_length; lia). rewrite rev_involutive.
      injection H as <- <-. rewrite app_length, repeat_length in *.
      rewrite pwrite_top by (rewrite repeat_length; lia). cbn [bind].
      rewrite pwrite_top by (rewrite written_length; rewrite ?repeat_length; lia). cbn [bind].
      fold dd. exists (written dd 0 (repeat 204 size)).
      destruct (Fin (written (written (w_mem w) buf (repeat 0 z)) (buf + z) (result_digits len b256)) dd L1 L2 (z + length (result_digits len b256))%nat) as [-> C].
      split; [|exact C]. do 3 f_equal. rewrite <- written_app by (rewrite repeat_length; lia). rewrite repeat_length. reflexivity.
    + injection H as <- <-. exists (written dd 0 (repeat 204 size)). rewrite written_nil. apply Fin; assumption.
  - injection H as <- <-. exists (written dd 0 (repeat 204 size)). rewrite written_nil. apply Fin; assumption.
Qed.

Lemma to_base58_check_w_ok N e buf n prefix pn str w text c : sane e -> mallocs e N -> Z.of_nat ((n + pn + 4) * 138 / 100 + 1) <= N -> bytes (w_mem w) ->
  (buf + n <= length (w_mem w))%nat -> (prefix + pn <= length (w_mem w))%nat -> Z.of_nat (n + pn + 4) <= INT_MAX ->
  to_base58_check (region (w_mem w) buf n) (region (w_mem w) prefix pn) = Ok (c, text) -> (str + length text <= length (w_mem w))%nat ->
  exists d1 d2, to_base58_check_w e buf n prefix pn str w =
      Ok (c, mkWorld (written (w_mem w) str text) (w_blocks w) (S (S (w_next w))) ((w_next w, d1) :: (S (w_next w), d2) :: w_dead w)) /\
    clean e (w_next w, d1) /\ clean e (S (w_next w), d2).
Proof.
  intros Se Ma HN Hb H1 H2 Hi H Hs. unfold to_base58_check_w.
  destruct (declare_ok e (Z.of_nat (n + pn + 4)) w Se) as (h & d & -> & Ld & Hht & Hhf).
  { intros k m Hm. apply Ma. split; [lia|]. eapply Z.le_trans; [apply Hm|]. eapply Z.le_trans; [|exact HN].
    apply Nat2Z.inj_le. clear. dlia. }
  rewrite Nat2Z.id in *. set (B := region (w_mem w) buf n) in *. set (P := region (w_mem w) prefix pn) in *.
  assert (LB : length B = n) by (apply region_length, H1). assert (LP : length P = pn) by (apply region_length, H2).
  assert (BB : bytes B) by (apply region_bytes, Hb). assert (BP : bytes P) by (apply region_bytes, Hb).
  unfold p_read at 1. cbn [top w_mem]. rewrite slice_ok by exact H2. cbn [bind]. change (firstn pn (skipn prefix (w_mem w))) with P.
  rewrite write_top by lia. cbn [bind].
  unfold p_read at 1. cbn [top w_mem]. rewrite slice_ok by exact H1. cbn [bind]. change (firstn n (skipn buf (w_mem w))) with B.
  rewrite write_top by (rewrite written_length; lia). cbn [bind].
  replace (written (written d 0 P) pn B) with (written d 0 (P ++ B)).
  2:{ rewrite <- LP. change (length P) with (0 + length P)%nat. symmetry. apply written_app. lia. }
  assert (LPB : length (P ++ B) = (n + pn)%nat) by (rewrite app_length; lia).
  rewrite read_top by (rewrite written_length; lia). cbn [bind].
  rewrite region_written0 by lia.
  rewrite <- LPB. rewrite hash256_self.
  2:{ apply bytes_app; auto. }
  2:{ unfold byte_len_ok. change INT_MAX with 2147483647 in *. lia. }
  cbn [bind]. rewrite checksum_slice. cbn [bind].
  pose proof (checksum4_length (P ++ B)) as LC.
  rewrite write_top by (rewrite written_length; lia). cbn [bind b_block].
  replace (written (written d 0 (P ++ B)) (length (P ++ B)) (checksum4 (P ++ B))) with (written d 0 ((P ++ B) ++ checksum4 (P ++ B))).
  2:{ change (length (P ++ B)) with (0 + length (P ++ B))%nat. symmetry. apply written_app. lia. }
  rewrite to_base58_check_buffer in H; auto. 2:{ rewrite LB, LP. change INT_MAX with 2147483647 in *. lia. }
  set (data := (P ++ B) ++ checksum4 (P ++ B)) in *.
  assert (LD : length data = (n + pn + 4)%nat) by (unfold data; rewrite app_length; lia).
  rewrite LPB.
  match goal with |- context [to_base58_w e (Scratch (w_next w) 0) _ str ?wx] => set (w1 := wx) in * end.
  destruct (to_base58_w_ok N e (Scratch (w_next w) 0) (n + pn + 4) str w1 data text c Se Ma) as (d2 & -> & C2).
  { rewrite LD. exact HN. }
  { unfold p_read, w1, top. cbn [w_blocks]. rewrite find_head. cbn [bind]. rewrite slice_ok by (rewrite written_length; lia).
    f_equal. apply region_written0; lia. }
  { exact H. }
  { exact Hs. }
  cbn [bind]. unfold w1, top. cbn [w_mem w_blocks w_next w_dead].
  change (mkWorld ?m ((w_next w, (h, ?dd)) :: ?bl) ?nx ?de) with (top m (w_next w) h dd bl nx de).
  unfold buffer_cleanse. rewrite write_top by (rewrite repeat_length, written_length; lia). cbn [bind].
  match goal with |- context [free_buffer _ (top ?m ?k ?h ?d ?bl ?nx ?dead)] =>
    pose proof (release_top k h m d bl nx dead) as R; exists d end.
  exists d2. destruct (free_buffer _ _) as [wf| |]; try discriminate. cbn [bind] in *. rewrite R. cbn [bind].
  split; [reflexivity|]. split; [|exact C2].
  apply (written_wipe e _ h d); try assumption.
  - rewrite written_length; lia.
  - apply skipn_written0, LD.
Qed.
