(** Specification: SHA-256 and SHA-512 as in FIPS 180-4, HMAC as in RFC 2104.
    No reference to the models. *)
From Verif Require Import Base S_Words.

(** FIPS 180-4 section 4.1.2/4.1.3: the functions on words. *)
Definition sha_Ch (x y z : Z) : Z := Z.lxor (Z.land x y) (Z.land (Z.lnot x) z).
Definition sha_Maj (x y z : Z) : Z := Z.lxor (Z.lxor (Z.land x y) (Z.land x z)) (Z.land y z).

Record sha2_fn := {
  sf_w : Z;              (* word size in bits *)
  sf_wb : nat;           (* word size in bytes *)
  sf_rounds : nat;
  sf_S0 : Z -> Z;        (* capital Sigma 0 *)
  sf_S1 : Z -> Z;        (* capital Sigma 1 *)
  sf_s0 : Z -> Z;        (* small sigma 0 *)
  sf_s1 : Z -> Z;        (* small sigma 1 *)
  sf_K : list Z;
  sf_H0 : list Z
}.

Definition xor3 (x y z : Z) : Z := Z.lxor (Z.lxor x y) z.

Definition SHA256_fn : sha2_fn := {|
  sf_w := 32; sf_wb := 4; sf_rounds := 64;
  sf_S0 := fun x => xor3 (rotr 32 2 x) (rotr 32 13 x) (rotr 32 22 x);
  sf_S1 := fun x => xor3 (rotr 32 6 x) (rotr 32 11 x) (rotr 32 25 x);
  sf_s0 := fun x => xor3 (rotr 32 7 x) (rotr 32 18 x) (shr 3 x);
  sf_s1 := fun x => xor3 (rotr 32 17 x) (rotr 32 19 x) (shr 10 x);
  sf_K := map (frac_root 32 3) (first_primes 64);
  sf_H0 := map (frac_root 32 2) (first_primes 8) |}.

Definition SHA512_fn : sha2_fn := {|
  sf_w := 64; sf_wb := 8; sf_rounds := 80;
  sf_S0 := fun x => xor3 (rotr 64 28 x) (rotr 64 34 x) (rotr 64 39 x);
  sf_S1 := fun x => xor3 (rotr 64 14 x) (rotr 64 18 x) (rotr 64 41 x);
  sf_s0 := fun x => xor3 (rotr 64 1 x) (rotr 64 8 x) (shr 7 x);
  sf_s1 := fun x => xor3 (rotr 64 19 x) (rotr 64 61 x) (shr 6 x);
  sf_K := map (frac_root 64 3) (first_primes 80);
  sf_H0 := map (frac_root 64 2) (first_primes 8) |}.

(** Section 6.2.2 / 6.4.2 step 1: the message schedule, from the 16 words of the block. *)
Definition schedule_next (P : sha2_fn) (W : list Z) : Z :=
  let t := length W in
  (sf_s1 P (nth (t - 2) W 0) + nth (t - 7) W 0 + sf_s0 P (nth (t - 15) W 0) + nth (t - 16) W 0)
  mod 2 ^ sf_w P.
Definition sha2_schedule (P : sha2_fn) (M : list Z) : list Z :=
  Nat.iter (sf_rounds P - 16) (fun W => W ++ [schedule_next P W]) M.

(** Step 3: one round. *)
Definition sha2_round (P : sha2_fn) (st : list Z) (kw : Z * Z) : list Z :=
  match st with
  | [a; b; c; d; e; f; g; h] =>
      let T1 := (h + sf_S1 P e + sha_Ch e f g + fst kw + snd kw) mod 2 ^ sf_w P in
      let T2 := (sf_S0 P a + sha_Maj a b c) mod 2 ^ sf_w P in
      [(T1 + T2) mod 2 ^ sf_w P; a; b; c; (d + T1) mod 2 ^ sf_w P; e; f; g]
  | _ => []
  end.

(** Steps 2 to 4: the compression of one block, given as 16 words. *)
Definition add_words (w : Z) (x y : list Z) : list Z :=
  map (fun p => (fst p + snd p) mod 2 ^ w) (combine x y).
Definition sha2_compress (P : sha2_fn) (H M : list Z) : list Z :=
  add_words (sf_w P) H (fold_left (sha2_round P) (combine (sf_K P) (sha2_schedule P M)) H).

(** A block of bytes as big-endian words. *)
Definition be_words (wb : nat) (block : list Z) : list Z := map be_val (chunks wb block).

(** Section 6.2 / 6.4: the hash of a message; the length field has twice the word size. *)
Definition sha2 (P : sha2_fn) (msg : list Z) : list Z :=
  let blk := (16 * sf_wb P)%nat in
  let lenf := be_bytes (2 * sf_wb P) (8 * Z.of_nat (length msg)) in
  let padded := msg ++ md_pad blk lenf (length msg) in
  let H := fold_left (fun H B => sha2_compress P H (be_words (sf_wb P) B)) (chunks blk padded) (sf_H0 P) in
  concat (map (be_bytes (sf_wb P)) H).

Definition SHA256 : list Z -> list Z := sha2 SHA256_fn.
Definition SHA512 : list Z -> list Z := sha2 SHA512_fn.

(** RFC 2104: HMAC with a hash of block size [blk]. *)
Definition hmac (hash : list Z -> list Z) (blk : nat) (key text : list Z) : list Z :=
  let k0 := if (length key <=? blk)%nat then key else hash key in
  let k := k0 ++ repeat 0 (blk - length k0) in
  hash (map (Z.lxor 0x5c) k ++ hash (map (Z.lxor 0x36) k ++ text)).
