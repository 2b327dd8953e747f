(** Model of src/hash/ripemd160.c.  As in M_Sha2, each macro call is a datum
    generated from the C text and [exec_rline] is the meaning of the macros. *)
From Verif Require Import Base M_Endian M_Sha2.

(** The ten macros, ripemd160.c:21-80 *)
Inductive rmac := FF | GG | HH | II | JJ | FFF | GGG | HHH | III | JJJ.
(** A call [mac(a, b, c, d, e, Xi, s)]; registers 0-4 are aa..ee, 5-9 are aaa..eee. *)
(** ripemd160.c:98-275 *)
Inductive rline := RL (m : rmac) (regs : list nat) (x : nat) (s : Z).

(** the C expression ~x on a uint32_t, as used in ripemd160.c:15-18 *)
Definition not32 (x : Z) : Z := Z.lxor x (2 ^ 32 - 1).
(** ripemd160.c:14-18 *)
Definition rF (x y z : Z) : Z := Z.lxor (Z.lxor x y) z.
(** ripemd160.c:15 *)
Definition rG (x y z : Z) : Z := Z.lor (Z.land x y) (Z.land (not32 x) z).
(** ripemd160.c:16 *)
Definition rH (x y z : Z) : Z := Z.lxor (Z.lor x (not32 y)) z.
(** ripemd160.c:17 *)
Definition rI (x y z : Z) : Z := Z.lor (Z.land x z) (Z.land y (not32 z)).
(** ripemd160.c:18 *)
Definition rJ (x y z : Z) : Z := Z.lxor x (Z.lor y (not32 z)).

(** Function and constant of each macro, ripemd160.c:21-80 *)
Definition mac_fun (m : rmac) : Z -> Z -> Z -> Z :=
  match m with
  | FF | FFF => rF | GG | GGG => rG | HH | HHH => rH | II | III => rI | JJ | JJJ => rJ
  end.
(** ripemd160.c:21-80 *)
Definition mac_const (m : rmac) : Z :=
  match m with
  | FF => 0 | GG => 0x5a827999 | HH => 0x6ed9eba1 | II => 0x8f1bbcdc | JJ => 0xa953fd4e
  | FFF => 0 | GGG => 0x7a6d76e9 | HHH => 0x6d703ef3 | III => 0x5c4dd124 | JJJ => 0x50a28be6
  end.

(** ripemd160.c:21-80: a += f(b,c,d) + x + const; a = ROL(a, s) + e; c = ROL(c, 10) *)
Definition exec_rline (X rs : list Z) (l : rline) : res (list Z) :=
  let '(RL m regs x s) := l in
  match regs with
  | [a; b; c; d; e] =>
      let r i := nth i rs (-1000) in
      let rs1 := upd rs a (u32 (r a + (mac_fun m (r b) (r c) (r d) + nth x X (-1000) + mac_const m))) in
      let rs2 := upd rs1 a (u32 (ROL (nth a rs1 (-1000)) s + nth e rs1 (-1000))) in
      Ok (upd rs2 c (ROL (nth c rs2 (-1000)) 10))
  | _ => UB
  end.
(** ripemd160.c:98-275, in order *)
Fixpoint exec_rlines (X rs : list Z) (ls : list rline) : res (list Z) :=
  match ls with
  | [] => Ok rs
  | l :: ls' => rs' <- exec_rline X rs l ;; exec_rlines X rs' ls'
  end.

(** src/hash/ripemd160.c:98-275, the macro invocations of [ripemd160_transform] *)
Definition rmd_lines : list rline :=
  [ RL FF [0; 1; 2; 3; 4]%nat 0 11;
    RL FF [4; 0; 1; 2; 3]%nat 1 14;
    RL FF [3; 4; 0; 1; 2]%nat 2 15;
    RL FF [2; 3; 4; 0; 1]%nat 3 12;
    RL FF [1; 2; 3; 4; 0]%nat 4 5;
    RL FF [0; 1; 2; 3; 4]%nat 5 8;
    RL FF [4; 0; 1; 2; 3]%nat 6 7;
    RL FF [3; 4; 0; 1; 2]%nat 7 9;
    RL FF [2; 3; 4; 0; 1]%nat 8 11;
    RL FF [1; 2; 3; 4; 0]%nat 9 13;
    RL FF [0; 1; 2; 3; 4]%nat 10 14;
    RL FF [4; 0; 1; 2; 3]%nat 11 15;
    RL FF [3; 4; 0; 1; 2]%nat 12 6;
    RL FF [2; 3; 4; 0; 1]%nat 13 7;
    RL FF [1; 2; 3; 4; 0]%nat 14 9;
    RL FF [0; 1; 2; 3; 4]%nat 15 8;
    RL GG [4; 0; 1; 2; 3]%nat 7 7;
    RL GG [3; 4; 0; 1; 2]%nat 4 6;
    RL GG [2; 3; 4; 0; 1]%nat 13 8;
    RL GG [1; 2; 3; 4; 0]%nat 1 13;
    RL GG [0; 1; 2; 3; 4]%nat 10 11;
    RL GG [4; 0; 1; 2; 3]%nat 6 9;
    RL GG [3; 4; 0; 1; 2]%nat 15 7;
    RL GG [2; 3; 4; 0; 1]%nat 3 15;
    RL GG [1; 2; 3; 4; 0]%nat 12 7;
    RL GG [0; 1; 2; 3; 4]%nat 0 12;
    RL GG [4; 0; 1; 2; 3]%nat 9 15;
    RL GG [3; 4; 0; 1; 2]%nat 5 9;
    RL GG [2; 3; 4; 0; 1]%nat 2 11;
    RL GG [1; 2; 3; 4; 0]%nat 14 7;
    RL GG [0; 1; 2; 3; 4]%nat 11 13;
    RL GG [4; 0; 1; 2; 3]%nat 8 12;
    RL HH [3; 4; 0; 1; 2]%nat 3 11;
    RL HH [2; 3; 4; 0; 1]%nat 10 13;
    RL HH [1; 2; 3; 4; 0]%nat 14 6;
    RL HH [0; 1; 2; 3; 4]%nat 4 7;
    RL HH [4; 0; 1; 2; 3]%nat 9 14;
    RL HH [3; 4; 0; 1; 2]%nat 15 9;
    RL HH [2; 3; 4; 0; 1]%nat 8 13;
    RL HH [1; 2; 3; 4; 0]%nat 1 15;
    RL HH [0; 1; 2; 3; 4]%nat 2 14;
    RL HH [4; 0; 1; 2; 3]%nat 7 8;
    RL HH [3; 4; 0; 1; 2]%nat 0 13;
    RL HH [2; 3; 4; 0; 1]%nat 6 6;
    RL HH [1; 2; 3; 4; 0]%nat 13 5;
    RL HH [0; 1; 2; 3; 4]%nat 11 12;
    RL HH [4; 0; 1; 2; 3]%nat 5 7;
    RL HH [3; 4; 0; 1; 2]%nat 12 5;
    RL II [2; 3; 4; 0; 1]%nat 1 11;
    RL II [1; 2; 3; 4; 0]%nat 9 12;
    RL II [0; 1; 2; 3; 4]%nat 11 14;
    RL II [4; 0; 1; 2; 3]%nat 10 15;
    RL II [3; 4; 0; 1; 2]%nat 0 14;
    RL II [2; 3; 4; 0; 1]%nat 8 15;
    RL II [1; 2; 3; 4; 0]%nat 12 9;
    RL II [0; 1; 2; 3; 4]%nat 4 8;
    RL II [4; 0; 1; 2; 3]%nat 13 9;
    RL II [3; 4; 0; 1; 2]%nat 3 14;
    RL II [2; 3; 4; 0; 1]%nat 7 5;
    RL II [1; 2; 3; 4; 0]%nat 15 6;
    RL II [0; 1; 2; 3; 4]%nat 14 8;
    RL II [4; 0; 1; 2; 3]%nat 5 6;
    RL II [3; 4; 0; 1; 2]%nat 6 5;
    RL II [2; 3; 4; 0; 1]%nat 2 12;
    RL JJ [1; 2; 3; 4; 0]%nat 4 9;
    RL JJ [0; 1; 2; 3; 4]%nat 0 15;
    RL JJ [4; 0; 1; 2; 3]%nat 5 5;
    RL JJ [3; 4; 0; 1; 2]%nat 9 11;
    RL JJ [2; 3; 4; 0; 1]%nat 7 6;
    RL JJ [1; 2; 3; 4; 0]%nat 12 8;
    RL JJ [0; 1; 2; 3; 4]%nat 2 13;
    RL JJ [4; 0; 1; 2; 3]%nat 10 12;
    RL JJ [3; 4; 0; 1; 2]%nat 14 5;
    RL JJ [2; 3; 4; 0; 1]%nat 1 12;
    RL JJ [1; 2; 3; 4; 0]%nat 3 13;
    RL JJ [0; 1; 2; 3; 4]%nat 8 14;
    RL JJ [4; 0; 1; 2; 3]%nat 11 11;
    RL JJ [3; 4; 0; 1; 2]%nat 6 8;
    RL JJ [2; 3; 4; 0; 1]%nat 15 5;
    RL JJ [1; 2; 3; 4; 0]%nat 13 6;
    RL JJJ [5; 6; 7; 8; 9]%nat 5 8;
    RL JJJ [9; 5; 6; 7; 8]%nat 14 9;
    RL JJJ [8; 9; 5; 6; 7]%nat 7 9;
    RL JJJ [7; 8; 9; 5; 6]%nat 0 11;
    RL JJJ [6; 7; 8; 9; 5]%nat 9 13;
    RL JJJ [5; 6; 7; 8; 9]%nat 2 15;
    RL JJJ [9; 5; 6; 7; 8]%nat 11 15;
    RL JJJ [8; 9; 5; 6; 7]%nat 4 5;
    RL JJJ [7; 8; 9; 5; 6]%nat 13 7;
    RL JJJ [6; 7; 8; 9; 5]%nat 6 7;
    RL JJJ [5; 6; 7; 8; 9]%nat 15 8;
    RL JJJ [9; 5; 6; 7; 8]%nat 8 11;
    RL JJJ [8; 9; 5; 6; 7]%nat 1 14;
    RL JJJ [7; 8; 9; 5; 6]%nat 10 14;
    RL JJJ [6; 7; 8; 9; 5]%nat 3 12;
    RL JJJ [5; 6; 7; 8; 9]%nat 12 6;
    RL III [9; 5; 6; 7; 8]%nat 6 9;
    RL III [8; 9; 5; 6; 7]%nat 11 13;
    RL III [7; 8; 9; 5; 6]%nat 3 15;
    RL III [6; 7; 8; 9; 5]%nat 7 7;
    RL III [5; 6; 7; 8; 9]%nat 0 12;
    RL III [9; 5; 6; 7; 8]%nat 13 8;
    RL III [8; 9; 5; 6; 7]%nat 5 9;
    RL III [7; 8; 9; 5; 6]%nat 10 11;
    RL III [6; 7; 8; 9; 5]%nat 14 7;
    RL III [5; 6; 7; 8; 9]%nat 15 7;
    RL III [9; 5; 6; 7; 8]%nat 8 12;
    RL III [8; 9; 5; 6; 7]%nat 12 7;
    RL III [7; 8; 9; 5; 6]%nat 4 6;
    RL III [6; 7; 8; 9; 5]%nat 9 15;
    RL III [5; 6; 7; 8; 9]%nat 1 13;
    RL III [9; 5; 6; 7; 8]%nat 2 11;
    RL HHH [8; 9; 5; 6; 7]%nat 15 9;
    RL HHH [7; 8; 9; 5; 6]%nat 5 7;
    RL HHH [6; 7; 8; 9; 5]%nat 1 15;
    RL HHH [5; 6; 7; 8; 9]%nat 3 11;
    RL HHH [9; 5; 6; 7; 8]%nat 7 8;
    RL HHH [8; 9; 5; 6; 7]%nat 14 6;
    RL HHH [7; 8; 9; 5; 6]%nat 6 6;
    RL HHH [6; 7; 8; 9; 5]%nat 9 14;
    RL HHH [5; 6; 7; 8; 9]%nat 11 12;
    RL HHH [9; 5; 6; 7; 8]%nat 8 13;
    RL HHH [8; 9; 5; 6; 7]%nat 12 5;
    RL HHH [7; 8; 9; 5; 6]%nat 2 14;
    RL HHH [6; 7; 8; 9; 5]%nat 10 13;
    RL HHH [5; 6; 7; 8; 9]%nat 0 13;
    RL HHH [9; 5; 6; 7; 8]%nat 4 7;
    RL HHH [8; 9; 5; 6; 7]%nat 13 5;
    RL GGG [7; 8; 9; 5; 6]%nat 8 15;
    RL GGG [6; 7; 8; 9; 5]%nat 6 5;
    RL GGG [5; 6; 7; 8; 9]%nat 4 8;
    RL GGG [9; 5; 6; 7; 8]%nat 1 11;
    RL GGG [8; 9; 5; 6; 7]%nat 3 14;
    RL GGG [7; 8; 9; 5; 6]%nat 11 14;
    RL GGG [6; 7; 8; 9; 5]%nat 15 6;
    RL GGG [5; 6; 7; 8; 9]%nat 0 14;
    RL GGG [9; 5; 6; 7; 8]%nat 5 6;
    RL GGG [8; 9; 5; 6; 7]%nat 12 9;
    RL GGG [7; 8; 9; 5; 6]%nat 2 12;
    RL GGG [6; 7; 8; 9; 5]%nat 13 9;
    RL GGG [5; 6; 7; 8; 9]%nat 9 12;
    RL GGG [9; 5; 6; 7; 8]%nat 7 5;
    RL GGG [8; 9; 5; 6; 7]%nat 10 15;
    RL GGG [7; 8; 9; 5; 6]%nat 14 8;
    RL FFF [6; 7; 8; 9; 5]%nat 12 8;
    RL FFF [5; 6; 7; 8; 9]%nat 15 5;
    RL FFF [9; 5; 6; 7; 8]%nat 10 12;
    RL FFF [8; 9; 5; 6; 7]%nat 4 9;
    RL FFF [7; 8; 9; 5; 6]%nat 1 12;
    RL FFF [6; 7; 8; 9; 5]%nat 5 5;
    RL FFF [5; 6; 7; 8; 9]%nat 8 14;
    RL FFF [9; 5; 6; 7; 8]%nat 7 6;
    RL FFF [8; 9; 5; 6; 7]%nat 6 8;
    RL FFF [7; 8; 9; 5; 6]%nat 2 13;
    RL FFF [6; 7; 8; 9; 5]%nat 13 6;
    RL FFF [5; 6; 7; 8; 9]%nat 14 5;
    RL FFF [9; 5; 6; 7; 8]%nat 0 15;
    RL FFF [8; 9; 5; 6; 7]%nat 3 13;
    RL FFF [7; 8; 9; 5; 6]%nat 9 11;
    RL FFF [6; 7; 8; 9; 5]%nat 11 11 ].


(** ripemd160.c:88-95: X0 .. X15 *)
Fixpoint load_X (chunk : list Z) (is : list nat) : res (list Z) :=
  match is with
  | [] => Ok []
  | i :: is' => x <- le32 chunk (i * 4) ;; xs <- load_X chunk is' ;; Ok (x :: xs)
  end.

(** ripemd160.c:84-284 *)
Definition ripemd160_transform (s chunk : list Z) : res (list Z) :=
  X <- load_X chunk (seq 0 16) ;;
  rs <- exec_rlines X (s ++ s) rmd_lines ;;
  match s, rs with
  | [s0; s1; s2; s3; s4], [aa; bb; cc; dd; ee; aaa; bbb; ccc; ddd; eee] =>
      (* 277-283 *)
      let ddd := u32 (ddd + (cc + s1)) in
      let s1 := u32 (s2 + dd + eee) in
      let s2 := u32 (s3 + ee + aaa) in
      let s3 := u32 (s4 + aa + bbb) in
      let s4 := u32 (s0 + bb + ccc) in
      let s0 := ddd in
      Ok [s0; s1; s2; s3; s4]
  | _, _ => UB
  end.

(** ripemd160.c:288-289 *)
Definition IVr : list Z := [0x67452301; 0xEFCDAB89; 0x98BADCFE; 0x10325476; 0xC3D2E1F0].

(** ripemd160.c:310-314 *)
Definition out32le (d : list Z) : list Z := concat (map (fun v => host_bytes 4 (htole32 v)) d).

(** ripemd160.c:286-317; the result is the 20 bytes stored through [hash] *)
Definition ripemd160 (msg : list Z) (msg_len : nat) : res (list Z) :=
  let chunk_end := htole64 (u64 (Z.shiftl (u64 (Z.of_nat msg_len)) 3)) in
  '(digest, msg_buf, msg_len) <- block_loop msg_len 64 ripemd160_transform IVr msg msg_len ;;
  let last_chunk := repeat 0 64 in
  tail <- slice msg_buf 0 msg_len ;;
  last_chunk <- store last_chunk 0 tail ;;
  last_chunk <- store last_chunk msg_len [0x80] ;;
  '(digest, last_chunk) <-
     (if (55 <? msg_len)%nat
      then digest <- ripemd160_transform digest last_chunk ;; Ok (digest, repeat 0 64)
      else Ok (digest, last_chunk)) ;;
  last_chunk <- store last_chunk 56 (host_bytes 8 chunk_end) ;;
  digest <- ripemd160_transform digest last_chunk ;;
  Ok (out32le digest).
