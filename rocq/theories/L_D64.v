(** The specialised double hash of a 64-byte block. *)
From Verif Require Import Base M_Endian L_Endian S_Words M_Sha2 S_Sha2 L_Sha2 L_Md L_Sha2Top.

Definition pad64 : list Z := 0x80 :: repeat 0 55 ++ be_bytes 8 512.
Definition pad32 : list Z := 0x80 :: repeat 0 23 ++ be_bytes 8 256.
Definition W64 : list Z := Eval vm_compute in sha2_schedule SHA256_fn (be_words 4 pad64).
Lemma W64_eq : sha2_schedule SHA256_fn (be_words 4 pad64) = W64.
Proof. vm_cast_no_check (eq_refl W64). Qed.

Definition known2 (j : nat) : option Z := nth_error W64 j.
Definition known3 (j : nat) : option Z :=
  if (8 <=? j)%nat && (j <? 16)%nat then nth_error (be_words 4 pad32) (j - 8) else None.
Definition env3 : list (option nat) := map Some (seq 0 8) ++ repeat None 8.

Lemma check_t1 : check_lines SHA256_fn ops32 K256 4 none_known true 0 env0 d64_transform1 = true.
Proof. vm_cast_no_check (eq_refl true). Qed.
Lemma check_t2 : check_lines SHA256_fn ops32 K256 4 known2 false 0 env0 d64_transform2 = true.
Proof. vm_cast_no_check (eq_refl true). Qed.
Lemma check_t3 : check_lines SHA256_fn ops32 K256 4 known3 false 0 env3 d64_transform3 = true.
Proof. vm_cast_no_check (eq_refl true). Qed.

Lemma SHA256_64 m : length m = 64%nat -> SHA256 m = concat (map (be_bytes 4) (comp256 (comp256 IV256 m) pad64)).
Proof.
  intros H. rewrite SHA256_unfold, chunks_cons by (auto; lia). rewrite fold_left_cons, H.
  assert (E : chunks 64 (md_pad 64 (be_bytes 8 (8 * Z.of_nat 64)) 64) = [pad64]) by (vm_compute; reflexivity).
  rewrite E. reflexivity.
Qed.
Lemma SHA256_32 m : length m = 32%nat -> SHA256 m = concat (map (be_bytes 4) (comp256 IV256 (m ++ pad32))).
Proof.
  intros H. rewrite SHA256_unfold, H.
  assert (E : md_pad 64 (be_bytes 8 (8 * Z.of_nat 32)) 32 = pad32) by (vm_compute; reflexivity).
  rewrite E, chunks_one by (try rewrite app_length, H; try reflexivity; lia). reflexivity.
Qed.

Definition words32 (l : list Z) : Prop := Forall (fun x => 0 <= x < 2 ^ 32) l.
Lemma add_words_range a b : words32 (add_words 32 a b).
Proof. apply Forall_forall. intros x H. unfold add_words in H. apply in_map_iff in H as (p & <- & _). apply Z.mod_pos_bound. lia. Qed.

Lemma be_words_out d tail : words32 d -> be_words 4 (concat (map (be_bytes 4) d) ++ tail) = d ++ be_words 4 tail.
Proof.
  induction d as [|x d IH]; intros H; [reflexivity|]. cbn [map concat app].
  apply Forall_cons_iff in H. destruct H as [Hx Hd]. unfold be_words in *.
  rewrite <- app_assoc, chunks_cons by (try apply be_bytes_length; lia). cbn [map]. rewrite IH by exact Hd.
  f_equal. rewrite be_val_be_bytes. apply Z.mod_small. exact Hx.
Qed.

Lemma comp_regs s M rs : rs = fold_left (sha2_round SHA256_fn) (combine (sf_K SHA256_fn) (sha2_schedule SHA256_fn M)) s ->
  add_regs u32 s rs = sha2_compress SHA256_fn s M.
Proof.
  intros ->. change u32 with (o_wrap ops32). rewrite (add_regs_words SHA256_fn ops32 agree32). reflexivity.
Qed.

Lemma nth_In' {A} (l : list A) n d : nth n l d = d \/ In (nth n l d) l.
Proof. destruct (Nat.lt_ge_cases n (length l)); [right; now apply nth_In|left; now apply nth_overflow]. Qed.

Lemma hash256_d64_transform_ok inp : bytes inp -> (64 <= length inp)%nat ->
  hash256_d64_transform inp = Ok (SHA256 (SHA256 (firstn 64 inp))).
Proof.
  intros Hb Hl. unfold hash256_d64_transform.
  assert (Hb' : bytes (firstn 64 inp)) by now apply bytes_firstn.
  assert (Hl' : length (firstn 64 inp) = (4 * 16)%nat) by (rewrite firstn_length; lia).
  set (m := firstn 64 inp) in *.
  destruct (words_facts 4 m ltac:(lia) Hb' Hl') as [HM Hw].
  destruct (checked_rounds SHA256_fn ops32 K256 agree32 K256_eq eq_refl eq_refl none_known true d64_transform1 env0 w_uninit
              IV256 inp (be_words 4 m) check_t1 eq_refl HM) as (rs1 & w1 & Hx1 & Hl1 & Hw1 & Hrs1); auto.
  { intros t Ht. apply (Hw t Ht). }
  { intros j c [=]. }
  { intros _ t Ht. cbn [SHA256_fn sf_wb ops32 o_load]. rewrite be32_ok by (auto; lia).
    destruct (Hw t Ht) as [-> _]. unfold m. rewrite firstn_skipn_firstn by lia. reflexivity. }
  { apply env0_ok. }
  rewrite Hx1. cbn [bind].
  assert (Et : add_regs u32 IV256 rs1 = comp256 IV256 m).
  { unfold comp256. now apply comp_regs. }
  rewrite Et. set (t := comp256 IV256 m).
  assert (Hgt : good8 t) by apply comp256_good, good_IV256.
  (* transform 2 *)
  assert (Hpb : bytes pad64).
  { unfold pad64. apply bytes_cons. split; [unfold is_byte; lia|]. apply bytes_app. split; [apply bytes_repeat0|apply be_bytes_bytes]. }
  destruct (words_facts 4 pad64 ltac:(lia) Hpb eq_refl) as [HM2 Hw2].
  destruct (checked_rounds SHA256_fn ops32 K256 agree32 K256_eq eq_refl eq_refl known2 false d64_transform2 env0 w1
              t inp (be_words 4 pad64) check_t2 eq_refl HM2) as (rs2 & w2 & Hx2 & Hl2 & Hlw2 & Hrs2); auto.
  { intros i Hi. apply (Hw2 i Hi). }
  { intros j c Hj. rewrite W64_eq. unfold known2 in Hj. now apply nth_error_nth with (d := 0) in Hj. }
  { intros [=]. }
  { split; [reflexivity|]. split; [exact Hw1|]. intros i j. unfold env_get, env0.
    destruct (nth_error (repeat None 16) i) as [o|] eqn:E; [|discriminate].
    apply nth_error_In, repeat_spec in E. rewrite E. intros [=]. }
  rewrite Hx2. cbn [bind].
  assert (Et2 : add_regs u32 t rs2 = comp256 t pad64).
  { unfold comp256. now apply comp_regs. }
  rewrite Et2. set (d := comp256 t pad64).
  assert (Hgd : good8 d) by apply comp256_good, Hgt.
  assert (Hwd : words32 d) by apply add_words_range.
  (* transform 3 *)
  assert (HM3 : be_words 4 (SHA256 m ++ pad32) = d ++ be_words 4 pad32).
  { rewrite SHA256_64 by exact Hl'. apply be_words_out. exact Hwd. }
  assert (Hb3 : bytes (SHA256 m ++ pad32)).
  { apply bytes_app. split; [apply SHA256_bytes|]. unfold pad32. apply bytes_cons. split; [unfold is_byte; lia|].
    apply bytes_app. split; [apply bytes_repeat0|apply be_bytes_bytes]. }
  assert (Hl3 : length (SHA256 m ++ pad32) = (4 * 16)%nat) by (rewrite app_length, SHA256_length; reflexivity).
  destruct (words_facts 4 _ ltac:(lia) Hb3 Hl3) as [HMl3 Hw3].
  rewrite SHA256_32 by apply SHA256_length. unfold comp256 at 1.
  rewrite HM3 in *. set (M3 := d ++ be_words 4 pad32) in *.
  assert (Hlow : forall i, (i < 16)%nat -> nth i (sha2_schedule SHA256_fn M3) 0 = nth i M3 0).
  { intros i Hi. apply schedule_low; assumption. }
  destruct (checked_rounds SHA256_fn ops32 K256 agree32 K256_eq eq_refl eq_refl known3 false d64_transform3 env3
              (map Some d ++ skipn 8 w2) IV256 inp M3 check_t3 eq_refl HMl3) as (rs3 & w3 & Hx3 & Hl3' & _ & Hrs3); auto.
  { intros i Hi. apply (Hw3 i Hi). }
  { intros j c Hj. unfold known3 in Hj. destruct (_ && _) eqn:E; [|discriminate].
    apply andb_true_iff in E as [E1 E2]. apply Nat.leb_le in E1. apply Nat.ltb_lt in E2.
    rewrite Hlow by exact E2. unfold M3. rewrite app_nth2 by (rewrite Hgd; exact E1). rewrite Hgd.
    now apply nth_error_nth with (d := 0) in Hj. }
  { intros [=]. }
  { split; [reflexivity|]. split; [rewrite app_length, map_length, skipn_length, Hgd, Hlw2; reflexivity|].
    intros i j. unfold env_get, env3.
    destruct (Nat.lt_ge_cases i 8) as [Hi|Hi].
    - rewrite nth_error_app1 by (rewrite map_length, seq_length; exact Hi).
      rewrite nth_error_map. destruct (nth_error (seq 0 8) i) as [j'|] eqn:E; [|discriminate]. cbn [option_map]. intros [= <-].
      apply nth_error_nth with (d := 0%nat) in E as E'. rewrite seq_nth in E' by exact Hi. cbn in E'. subst j'.
      rewrite nth_error_app1 by (rewrite map_length, Hgd; exact Hi). rewrite nth_error_map.
      rewrite Hlow by lia. unfold M3. rewrite app_nth1 by (rewrite Hgd; exact Hi).
      rewrite (nth_error_nth' d 0) by (rewrite Hgd; exact Hi). reflexivity.
    - rewrite nth_error_app2 by (rewrite map_length, seq_length; exact Hi).
      destruct (nth_error (repeat None 8) _) as [o|] eqn:E; [|discriminate].
      apply nth_error_In, repeat_spec in E. rewrite E. intros [=]. }
  rewrite Hx3. cbn [bind]. f_equal. rewrite out32_ok.
  rewrite (comp_regs IV256 M3 rs3) by exact Hrs3. reflexivity.
Qed.
