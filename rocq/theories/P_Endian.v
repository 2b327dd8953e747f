(** Property theorem C83: endian accessors (endian.h). *)
From Verif Require Import Base M_Endian S_Words L_Endian.

(** Reading denotes the little/big-endian value of the first bytes. *)
Theorem C83_read : forall mem, bytes mem ->
  ((4 <= length mem)%nat -> read_little_32 mem = Ok (le_val (firstn 4 mem)) /\ read_big_32 mem = Ok (be_val (firstn 4 mem))) /\
  ((8 <= length mem)%nat -> read_little_64 mem = Ok (le_val (firstn 8 mem)) /\ read_big_64 mem = Ok (be_val (firstn 8 mem))).
Proof.
  intros mem Hb. split; intros Hl.
  - split; [exact (le32_ok mem 0 Hb Hl)|exact (be32_ok mem 0 Hb Hl)].
  - split; [exact (le64_ok mem 0 Hb Hl)|exact (be64_ok mem 0 Hb Hl)].
Qed.
Print Assumptions C83_read.

(** The same at an offset. *)
Theorem C83_read_offset : forall mem off, bytes mem ->
  ((off + 4 <= length mem)%nat -> le32 mem off = Ok (le_val (firstn 4 (skipn off mem))) /\ be32 mem off = Ok (be_val (firstn 4 (skipn off mem)))) /\
  ((off + 8 <= length mem)%nat -> le64 mem off = Ok (le_val (firstn 8 (skipn off mem))) /\ be64 mem off = Ok (be_val (firstn 8 (skipn off mem)))).
Proof.
  intros mem off Hb. split; intros Hl.
  - split; [now apply le32_ok|now apply be32_ok].
  - split; [now apply le64_ok|now apply be64_ok].
Qed.
Print Assumptions C83_read_offset.

(** Writing stores the digits and changes nothing else; reading back returns the word. *)
Theorem C83_write : forall mem v, bytes mem -> (4 <= length mem)%nat -> 0 <= v < 2 ^ 32 ->
  write_little_32 mem v = Ok (le_bytes 4 v ++ skipn 4 mem) /\
  write_big_32 mem v = Ok (be_bytes 4 v ++ skipn 4 mem) /\
  read_little_32 (le_bytes 4 v ++ skipn 4 mem) = Ok v /\
  read_big_32 (be_bytes 4 v ++ skipn 4 mem) = Ok v.
Proof.
  intros mem v Hb Hl Hv.
  assert (B1 : bytes (le_bytes 4 v ++ skipn 4 mem)) by (apply bytes_app; split; [apply le_bytes_bytes|now apply bytes_skipn]).
  assert (B2 : bytes (be_bytes 4 v ++ skipn 4 mem)) by (apply bytes_app; split; [apply be_bytes_bytes|now apply bytes_skipn]).
  assert (F1 : firstn 4 (le_bytes 4 v ++ skipn 4 mem) = le_bytes 4 v).
  { rewrite <- (le_bytes_length 4 v) at 1. apply firstn_app_exact. }
  assert (F2 : firstn 4 (be_bytes 4 v ++ skipn 4 mem) = be_bytes 4 v).
  { rewrite <- (be_bytes_length 4 v) at 1. apply firstn_app_exact. }
  split; [|split; [|split]].
  - unfold write_little_32, htole32. rewrite host_bytes_le, store_ok by (rewrite le_bytes_length; lia). now rewrite le_bytes_length.
  - unfold write_big_32, htobe32. rewrite htobe_bytes, store_ok by (rewrite be_bytes_length; lia). now rewrite be_bytes_length.
  - rewrite (proj1 (proj1 (C83_read _ B1) ltac:(rewrite app_length, le_bytes_length; lia))).
    rewrite F1, le_val_le_bytes. f_equal. apply Z.mod_small. lia.
  - rewrite (proj2 (proj1 (C83_read _ B2) ltac:(rewrite app_length, be_bytes_length; lia))).
    rewrite F2, be_val_be_bytes. f_equal. apply Z.mod_small. lia.
Qed.
Print Assumptions C83_write.

(** Reading then writing back restores the bytes. *)
Theorem C83_read_write : forall mem, bytes mem -> (4 <= length mem)%nat ->
  (exists v, read_little_32 mem = Ok v /\ 0 <= v < 2 ^ 32 /\ write_little_32 mem v = Ok mem) /\
  (exists v, read_big_32 mem = Ok v /\ 0 <= v < 2 ^ 32 /\ write_big_32 mem v = Ok mem).
Proof.
  intros mem Hb Hl.
  assert (Hf : bytes (firstn 4 mem)) by now apply bytes_firstn.
  assert (Lf : length (firstn 4 mem) = 4%nat) by (rewrite firstn_length; lia).
  pose proof (le_val_bound _ Hf) as B1. pose proof (be_val_bound _ Hf) as B2. rewrite Lf in B1, B2.
  change (256 ^ Z.of_nat 4) with (2 ^ 32) in B1, B2.
  destruct (proj1 (C83_read mem Hb) Hl) as [R1 R2]. split.
  - exists (le_val (firstn 4 mem)). split; [exact R1|]. split; [exact B1|].
    rewrite (proj1 (C83_write mem _ Hb Hl B1)). rewrite <- Lf at 1. rewrite le_bytes_le_val by exact Hf. now rewrite firstn_skipn.
  - exists (be_val (firstn 4 mem)). split; [exact R2|]. split; [exact B2|].
    rewrite (proj1 (proj2 (C83_write mem _ Hb Hl B2))). rewrite <- Lf at 1. rewrite be_bytes_be_val by exact Hf. now rewrite firstn_skipn.
Qed.
Print Assumptions C83_read_write.

Example C83_ex : read_big_32 [1; 2; 3; 4; 5] = Ok 0x01020304 /\ read_little_64 [1; 2; 3; 4; 5; 6; 7; 8] = Ok 0x0807060504030201
  /\ write_big_32 [9; 9; 9; 9; 9] 0x80000001 = Ok [128; 0; 0; 1; 9].
Proof. repeat split; vm_compute; reflexivity. Qed.
