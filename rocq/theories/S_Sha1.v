(** Specification: SHA-1 as in FIPS 180-4. No reference to the models. *)
From Verif Require Import Base S_Words S_Sha2.

(** Section 4.1.1: f_t; section 4.2.1: K_t = floor(2^30 sqrt(2,3,5,10)). *)
Definition sha_Parity (x y z : Z) : Z := xor3 x y z.
Definition sha1_f (t : nat) : Z -> Z -> Z -> Z :=
  if (t <? 20)%nat then sha_Ch else if (t <? 40)%nat then sha_Parity
  else if (t <? 60)%nat then sha_Maj else sha_Parity.
Definition sha1_K (t : nat) : Z :=
  let r := if (t <? 20)%nat then 2 else if (t <? 40)%nat then 3 else if (t <? 60)%nat then 5 else 10 in
  iroot 2 (r * 2 ^ 60).

(** Section 5.3.1 *)
Definition sha1_H0 : list Z := [0x67452301; 0xefcdab89; 0x98badcfe; 0x10325476; 0xc3d2e1f0].

(** Section 6.1.2 *)
Definition sha1_schedule_next (W : list Z) : Z :=
  let t := length W in
  rotl 32 1 (Z.lxor (xor3 (nth (t - 3) W 0) (nth (t - 8) W 0) (nth (t - 14) W 0)) (nth (t - 16) W 0)).
Definition sha1_schedule (M : list Z) : list Z := Nat.iter 64 (fun W => W ++ [sha1_schedule_next W]) M.

Definition sha1_round (st : list Z) (tw : nat * Z) : list Z :=
  match st with
  | [a; b; c; d; e] =>
      let T := (rotl 32 5 a + sha1_f (fst tw) b c d + e + sha1_K (fst tw) + snd tw) mod 2 ^ 32 in
      [T; a; rotl 32 30 b; c; d]
  | _ => []
  end.
Definition sha1_compress (H M : list Z) : list Z :=
  add_words 32 H (fold_left sha1_round (combine (seq 0 80) (sha1_schedule M)) H).

Definition SHA1 (msg : list Z) : list Z :=
  let padded := msg ++ md_pad 64 (be_bytes 8 (8 * Z.of_nat (length msg))) (length msg) in
  let H := fold_left (fun H B => sha1_compress H (be_words 4 B)) (chunks 64 padded) sha1_H0 in
  concat (map (be_bytes 4) H).
