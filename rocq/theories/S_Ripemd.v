(** Specification: RIPEMD-160 (Dobbertin, Bosselaers, Preneel 1996). No reference to the models. *)
From Verif Require Import Base S_Words S_Sha2.

(** Nonlinear functions at bit level, f_1 .. f_5. *)
Definition rmd_f (i : nat) (x y z : Z) : Z :=
  match i with
  | 0 => xor3 x y z
  | 1 => Z.lor (Z.land x y) (Z.land (compl 32 x) z)
  | 2 => Z.lxor (Z.lor x (compl 32 y)) z
  | 3 => Z.lor (Z.land x z) (Z.land y (compl 32 z))
  | _ => Z.lxor x (Z.lor y (compl 32 z))
  end%nat.

(** Added constants: integer parts of 2^30 times square roots / cube roots of 2, 3, 5, 7. *)
Definition rmd_K (i : nat) : Z := match i with O => 0 | _ => iroot 2 (nth (i - 1) [2; 3; 5; 7] 0 * 2 ^ 60) end.
Definition rmd_K' (i : nat) : Z := match i with 4%nat => 0 | _ => iroot 3 (nth i [2; 3; 5; 7] 0 * 2 ^ 90) end.

(** Selection of message word: the permutations rho and pi. *)
Definition rmd_rho (i : nat) : nat := nth i [7; 4; 13; 1; 10; 6; 15; 3; 12; 0; 9; 5; 2; 14; 11; 8]%nat 0%nat.
Definition rmd_pi (i : nat) : nat := ((9 * i + 5) mod 16)%nat.
Definition rmd_r (j : nat) : nat := Nat.iter (j / 16)%nat rmd_rho (j mod 16)%nat.
Definition rmd_r' (j : nat) : nat := Nat.iter (j / 16)%nat rmd_rho (rmd_pi (j mod 16)%nat).

(** Amount of the rotation, by round and by message word (both lines). *)
Definition rmd_shift (round word : nat) : Z :=
  nth word (nth round
    [ [11; 14; 15; 12; 5; 8; 7; 9; 11; 13; 14; 15; 6; 7; 9; 8];
      [12; 13; 11; 15; 6; 9; 9; 7; 12; 15; 11; 13; 7; 8; 7; 7];
      [13; 15; 14; 11; 7; 7; 6; 8; 13; 14; 13; 12; 5; 5; 6; 9];
      [14; 11; 12; 14; 8; 6; 5; 5; 15; 12; 15; 14; 9; 9; 8; 6];
      [15; 12; 13; 13; 9; 5; 8; 6; 14; 11; 12; 11; 8; 6; 5; 5] ] []) 0.

Definition rmd_H0 : list Z := [0x67452301; 0xefcdab89; 0x98badcfe; 0x10325476; 0xc3d2e1f0].

(** One step of a line: T := rol_s(A + f(B,C,D) + X + K) + E; A := E; E := D; D := rol_10(C); C := B; B := T. *)
Definition rmd_step (f : Z -> Z -> Z -> Z) (k x s : Z) (st : list Z) : list Z :=
  match st with
  | [A; B; C; D; E] =>
      let T := (rotl 32 s ((A + f B C D + x + k) mod 2 ^ 32) + E) mod 2 ^ 32 in
      [E; T; B; rotl 32 10 C; D]
  | _ => []
  end.
Definition rmd_left (X : list Z) (st : list Z) (j : nat) : list Z :=
  rmd_step (rmd_f (j / 16)%nat) (rmd_K (j / 16)%nat) (nth (rmd_r j) X 0) (rmd_shift (j / 16)%nat (rmd_r j)) st.
Definition rmd_right (X : list Z) (st : list Z) (j : nat) : list Z :=
  rmd_step (rmd_f (4 - j / 16)%nat) (rmd_K' (j / 16)%nat) (nth (rmd_r' j) X 0) (rmd_shift (j / 16)%nat (rmd_r' j)) st.

Definition rmd_compress (H X : list Z) : list Z :=
  match H, fold_left (rmd_left X) (seq 0 80) H, fold_left (rmd_right X) (seq 0 80) H with
  | [h0; h1; h2; h3; h4], [A; B; C; D; E], [A'; B'; C'; D'; E'] =>
      [(h1 + C + D') mod 2 ^ 32; (h2 + D + E') mod 2 ^ 32; (h3 + E + A') mod 2 ^ 32;
       (h4 + A + B') mod 2 ^ 32; (h0 + B + C') mod 2 ^ 32]
  | _, _, _ => []
  end.

Definition le_words (block : list Z) : list Z := map le_val (chunks 4 block).

Definition RIPEMD160 (msg : list Z) : list Z :=
  let padded := msg ++ md_pad 64 (le_bytes 8 (8 * Z.of_nat (length msg))) (length msg) in
  let H := fold_left (fun H B => rmd_compress H (le_words B)) (chunks 64 padded) rmd_H0 in
  concat (map (le_bytes 4) H).
