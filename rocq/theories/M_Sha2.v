(** Model of src/hash/sha2.c.
    The transforms are straight-line code: one ROUND32/ROUND64 macro call per
    round.  Each call is recorded as a [line] of data (generated from the C text)
    and [exec_line] is the meaning of the macro. [uint32_t]/[uint64_t] arithmetic
    is written with an explicit wrap; the word variables w0..w15 start
    uninitialised and reading one that was not written is undefined.
    Simplifications: [fingera_cleanse] of locals at the end of each function has
    no effect on the result and is dropped here; M_Residue has the same functions with the
    contents of their local arrays at return. *)
From Verif Require Import Base M_Endian.

(** sha2.c:8 *)
Definition ROL (x n : Z) : Z := Z.lor (u32 (Z.shiftl x n)) (Z.shiftr x (32 - n)).
(** sha2.c:9 *)
Definition ROL64 (x n : Z) : Z := Z.lor (u64 (Z.shiftl x n)) (Z.shiftr x (64 - n)).
(** sha2.c:11 *)
Definition Ch (x y z : Z) : Z := Z.lxor z (Z.land x (Z.lxor y z)).
(** sha2.c:12 *)
Definition Maj (x y z : Z) : Z := Z.lor (Z.land x y) (Z.land z (Z.lor x y)).
(** sha2.c:13-20 *)
Definition Sigma032 (x : Z) : Z := Z.lxor (Z.lxor (ROL x 30) (ROL x 19)) (ROL x 10).
(** sha2.c:14 *)
Definition Sigma132 (x : Z) : Z := Z.lxor (Z.lxor (ROL x 26) (ROL x 21)) (ROL x 7).
(** sha2.c:15 *)
Definition sigma032 (x : Z) : Z := Z.lxor (Z.lxor (ROL x 25) (ROL x 14)) (Z.shiftr x 3).
(** sha2.c:16 *)
Definition sigma132 (x : Z) : Z := Z.lxor (Z.lxor (ROL x 15) (ROL x 13)) (Z.shiftr x 10).
(** sha2.c:17 *)
Definition Sigma064 (x : Z) : Z := Z.lxor (Z.lxor (ROL64 x 36) (ROL64 x 30)) (ROL64 x 25).
(** sha2.c:18 *)
Definition Sigma164 (x : Z) : Z := Z.lxor (Z.lxor (ROL64 x 50) (ROL64 x 46)) (ROL64 x 23).
(** sha2.c:19 *)
Definition sigma064 (x : Z) : Z := Z.lxor (Z.lxor (ROL64 x 63) (ROL64 x 56)) (Z.shiftr x 7).
(** sha2.c:20 *)
Definition sigma164 (x : Z) : Z := Z.lxor (Z.lxor (ROL64 x 45) (ROL64 x 3)) (Z.shiftr x 6).

(** The word operations a macro uses: ROUND32 and sigma*32 with be32, or
    ROUND64 and sigma*64 with be64. *)
(** sha2.c:13-35 *)
Record ops := { o_wrap : Z -> Z; o_S0 : Z -> Z; o_S1 : Z -> Z; o_s0 : Z -> Z; o_s1 : Z -> Z;
                o_load : list Z -> nat -> res Z }.
(** sha2.c:13-16,22-28 *)
Definition ops32 : ops := {| o_wrap := u32; o_S0 := Sigma032; o_S1 := Sigma132; o_s0 := sigma032;
                             o_s1 := sigma132; o_load := be32 |}.
(** sha2.c:17-20,29-35 *)
Definition ops64 : ops := {| o_wrap := u64; o_S0 := Sigma064; o_S1 := Sigma164; o_s0 := sigma064;
                             o_s1 := sigma164; o_load := be64 |}.

(** Data form of a macro call ROUND(regs, k + w) (sha2.c:22-35): [regs] are the
    eight register arguments in order (0 = a .. 7 = h), [k] the literal and the
    word expression is one of: none; [wi = beNN(chunk, off)]; [wi += terms];
    [wi = terms]; [terms].  A term is a word variable, sigma0 or sigma1 of one, or a literal. *)
Inductive term := V (i : nat) | S0 (i : nat) | S1 (i : nat) | C (z : Z).
(** the last macro argument, sha2.c:54-376, 387-496, 515-659 *)
Inductive wexp := WNone | WLoad (i off : nat) | WAdd (i : nat) (ts : list term)
                | WSet (i : nat) (ts : list term) | WVal (ts : list term).
(** one macro call, sha2.c:54-376, 387-496, 515-659 *)
Inductive line := R (regs : list nat) (k : Z) (w : wexp).

(** Reading word variable [wi]. *)
(** sha2.c:52,383,511 *)
Definition getw (w : list (option Z)) (i : nat) : res Z :=
  match nth_error w i with Some (Some v) => Ok v | _ => UB end.

(** the summands, sha2.c:54-376, 387-496, 515-659 *)
Definition eval_term (o : ops) (w : list (option Z)) (t : term) : res Z :=
  match t with
  | V i => getw w i
  | S0 i => x <- getw w i ;; Ok (o_s0 o x)
  | S1 i => x <- getw w i ;; Ok (o_s1 o x)
  | C z => Ok z
  end.
(** the summands, sha2.c:54-376, 387-496, 515-659 *)
Fixpoint eval_terms (o : ops) (w : list (option Z)) (ts : list term) : res Z :=
  match ts with
  | [] => Ok 0
  | t :: ts' => x <- eval_term o w t ;; y <- eval_terms o w ts' ;; Ok (x + y)
  end.

(** Value of the word expression and the word variables after it. *)
(** sha2.c:54-376, 387-496, 515-659 *)
Definition eval_wexp (o : ops) (chunk : list Z) (w : list (option Z)) (e : wexp)
  : res (Z * list (option Z)) :=
  match e with
  | WNone => Ok (0, w)
  | WLoad i off => v <- o_load o chunk off ;; Ok (v, upd w i (Some v))
  | WAdd i ts => x <- getw w i ;; s <- eval_terms o w ts ;;
                 let v := o_wrap o (x + s) in Ok (v, upd w i (Some v))
  | WSet i ts => s <- eval_terms o w ts ;; let v := o_wrap o s in Ok (v, upd w i (Some v))
  | WVal ts => s <- eval_terms o w ts ;; Ok (o_wrap o s, w)
  end.

(** sha2.c:22-28 (ROUND32) and 29-35 (ROUND64); [rs] is the bank of registers a..h. *)
Definition exec_line (o : ops) (chunk : list Z) (st : list Z * list (option Z)) (l : line)
  : res (list Z * list (option Z)) :=
  let '(rs, w) := st in
  let '(R regs k e) := l in
  '(wv, w') <- eval_wexp o chunk w e ;;
  match regs with
  | [a; b; c; d; e'; f; g; h] =>
      let r i := nth i rs (-1000) in
      let t1 := o_wrap o (r h + o_S1 o (r e') + Ch (r e') (r f) (r g) + (k + wv)) in
      let t2 := o_wrap o (o_S0 o (r a) + Maj (r a) (r b) (r c)) in
      let rs1 := upd rs d (o_wrap o (r d + t1)) in
      Ok (upd rs1 h (o_wrap o (t1 + t2)), w')
  | _ => UB
  end.
(** sha2.c:54-376, 387-496, 515-659, in order *)
Fixpoint exec_lines (o : ops) (chunk : list Z) (st : list Z * list (option Z)) (ls : list line)
  : res (list Z * list (option Z)) :=
  match ls with
  | [] => Ok st
  | l :: ls' => st' <- exec_line o chunk st l ;; exec_lines o chunk st' ls'
  end.

(** src/hash/sha2.c:54-166, the ROUND32 invocations of "Transform 1" *)
Definition d64_transform1 : list line :=
  [ R [0; 1; 2; 3; 4; 5; 6; 7]%nat 0x428a2f98 (WLoad 0 0);
    R [7; 0; 1; 2; 3; 4; 5; 6]%nat 0x71374491 (WLoad 1 4);
    R [6; 7; 0; 1; 2; 3; 4; 5]%nat 0xb5c0fbcf (WLoad 2 8);
    R [5; 6; 7; 0; 1; 2; 3; 4]%nat 0xe9b5dba5 (WLoad 3 12);
    R [4; 5; 6; 7; 0; 1; 2; 3]%nat 0x3956c25b (WLoad 4 16);
    R [3; 4; 5; 6; 7; 0; 1; 2]%nat 0x59f111f1 (WLoad 5 20);
    R [2; 3; 4; 5; 6; 7; 0; 1]%nat 0x923f82a4 (WLoad 6 24);
    R [1; 2; 3; 4; 5; 6; 7; 0]%nat 0xab1c5ed5 (WLoad 7 28);
    R [0; 1; 2; 3; 4; 5; 6; 7]%nat 0xd807aa98 (WLoad 8 32);
    R [7; 0; 1; 2; 3; 4; 5; 6]%nat 0x12835b01 (WLoad 9 36);
    R [6; 7; 0; 1; 2; 3; 4; 5]%nat 0x243185be (WLoad 10 40);
    R [5; 6; 7; 0; 1; 2; 3; 4]%nat 0x550c7dc3 (WLoad 11 44);
    R [4; 5; 6; 7; 0; 1; 2; 3]%nat 0x72be5d74 (WLoad 12 48);
    R [3; 4; 5; 6; 7; 0; 1; 2]%nat 0x80deb1fe (WLoad 13 52);
    R [2; 3; 4; 5; 6; 7; 0; 1]%nat 0x9bdc06a7 (WLoad 14 56);
    R [1; 2; 3; 4; 5; 6; 7; 0]%nat 0xc19bf174 (WLoad 15 60);
    R [0; 1; 2; 3; 4; 5; 6; 7]%nat 0xe49b69c1 (WAdd 0 [S1 14; V 9; S0 1]);
    R [7; 0; 1; 2; 3; 4; 5; 6]%nat 0xefbe4786 (WAdd 1 [S1 15; V 10; S0 2]);
    R [6; 7; 0; 1; 2; 3; 4; 5]%nat 0x0fc19dc6 (WAdd 2 [S1 0; V 11; S0 3]);
    R [5; 6; 7; 0; 1; 2; 3; 4]%nat 0x240ca1cc (WAdd 3 [S1 1; V 12; S0 4]);
    R [4; 5; 6; 7; 0; 1; 2; 3]%nat 0x2de92c6f (WAdd 4 [S1 2; V 13; S0 5]);
    R [3; 4; 5; 6; 7; 0; 1; 2]%nat 0x4a7484aa (WAdd 5 [S1 3; V 14; S0 6]);
    R [2; 3; 4; 5; 6; 7; 0; 1]%nat 0x5cb0a9dc (WAdd 6 [S1 4; V 15; S0 7]);
    R [1; 2; 3; 4; 5; 6; 7; 0]%nat 0x76f988da (WAdd 7 [S1 5; V 0; S0 8]);
    R [0; 1; 2; 3; 4; 5; 6; 7]%nat 0x983e5152 (WAdd 8 [S1 6; V 1; S0 9]);
    R [7; 0; 1; 2; 3; 4; 5; 6]%nat 0xa831c66d (WAdd 9 [S1 7; V 2; S0 10]);
    R [6; 7; 0; 1; 2; 3; 4; 5]%nat 0xb00327c8 (WAdd 10 [S1 8; V 3; S0 11]);
    R [5; 6; 7; 0; 1; 2; 3; 4]%nat 0xbf597fc7 (WAdd 11 [S1 9; V 4; S0 12]);
    R [4; 5; 6; 7; 0; 1; 2; 3]%nat 0xc6e00bf3 (WAdd 12 [S1 10; V 5; S0 13]);
    R [3; 4; 5; 6; 7; 0; 1; 2]%nat 0xd5a79147 (WAdd 13 [S1 11; V 6; S0 14]);
    R [2; 3; 4; 5; 6; 7; 0; 1]%nat 0x06ca6351 (WAdd 14 [S1 12; V 7; S0 15]);
    R [1; 2; 3; 4; 5; 6; 7; 0]%nat 0x14292967 (WAdd 15 [S1 13; V 8; S0 0]);
    R [0; 1; 2; 3; 4; 5; 6; 7]%nat 0x27b70a85 (WAdd 0 [S1 14; V 9; S0 1]);
    R [7; 0; 1; 2; 3; 4; 5; 6]%nat 0x2e1b2138 (WAdd 1 [S1 15; V 10; S0 2]);
    R [6; 7; 0; 1; 2; 3; 4; 5]%nat 0x4d2c6dfc (WAdd 2 [S1 0; V 11; S0 3]);
    R [5; 6; 7; 0; 1; 2; 3; 4]%nat 0x53380d13 (WAdd 3 [S1 1; V 12; S0 4]);
    R [4; 5; 6; 7; 0; 1; 2; 3]%nat 0x650a7354 (WAdd 4 [S1 2; V 13; S0 5]);
    R [3; 4; 5; 6; 7; 0; 1; 2]%nat 0x766a0abb (WAdd 5 [S1 3; V 14; S0 6]);
    R [2; 3; 4; 5; 6; 7; 0; 1]%nat 0x81c2c92e (WAdd 6 [S1 4; V 15; S0 7]);
    R [1; 2; 3; 4; 5; 6; 7; 0]%nat 0x92722c85 (WAdd 7 [S1 5; V 0; S0 8]);
    R [0; 1; 2; 3; 4; 5; 6; 7]%nat 0xa2bfe8a1 (WAdd 8 [S1 6; V 1; S0 9]);
    R [7; 0; 1; 2; 3; 4; 5; 6]%nat 0xa81a664b (WAdd 9 [S1 7; V 2; S0 10]);
    R [6; 7; 0; 1; 2; 3; 4; 5]%nat 0xc24b8b70 (WAdd 10 [S1 8; V 3; S0 11]);
    R [5; 6; 7; 0; 1; 2; 3; 4]%nat 0xc76c51a3 (WAdd 11 [S1 9; V 4; S0 12]);
    R [4; 5; 6; 7; 0; 1; 2; 3]%nat 0xd192e819 (WAdd 12 [S1 10; V 5; S0 13]);
    R [3; 4; 5; 6; 7; 0; 1; 2]%nat 0xd6990624 (WAdd 13 [S1 11; V 6; S0 14]);
    R [2; 3; 4; 5; 6; 7; 0; 1]%nat 0xf40e3585 (WAdd 14 [S1 12; V 7; S0 15]);
    R [1; 2; 3; 4; 5; 6; 7; 0]%nat 0x106aa070 (WAdd 15 [S1 13; V 8; S0 0]);
    R [0; 1; 2; 3; 4; 5; 6; 7]%nat 0x19a4c116 (WAdd 0 [S1 14; V 9; S0 1]);
    R [7; 0; 1; 2; 3; 4; 5; 6]%nat 0x1e376c08 (WAdd 1 [S1 15; V 10; S0 2]);
    R [6; 7; 0; 1; 2; 3; 4; 5]%nat 0x2748774c (WAdd 2 [S1 0; V 11; S0 3]);
    R [5; 6; 7; 0; 1; 2; 3; 4]%nat 0x34b0bcb5 (WAdd 3 [S1 1; V 12; S0 4]);
    R [4; 5; 6; 7; 0; 1; 2; 3]%nat 0x391c0cb3 (WAdd 4 [S1 2; V 13; S0 5]);
    R [3; 4; 5; 6; 7; 0; 1; 2]%nat 0x4ed8aa4a (WAdd 5 [S1 3; V 14; S0 6]);
    R [2; 3; 4; 5; 6; 7; 0; 1]%nat 0x5b9cca4f (WAdd 6 [S1 4; V 15; S0 7]);
    R [1; 2; 3; 4; 5; 6; 7; 0]%nat 0x682e6ff3 (WAdd 7 [S1 5; V 0; S0 8]);
    R [0; 1; 2; 3; 4; 5; 6; 7]%nat 0x748f82ee (WAdd 8 [S1 6; V 1; S0 9]);
    R [7; 0; 1; 2; 3; 4; 5; 6]%nat 0x78a5636f (WAdd 9 [S1 7; V 2; S0 10]);
    R [6; 7; 0; 1; 2; 3; 4; 5]%nat 0x84c87814 (WAdd 10 [S1 8; V 3; S0 11]);
    R [5; 6; 7; 0; 1; 2; 3; 4]%nat 0x8cc70208 (WAdd 11 [S1 9; V 4; S0 12]);
    R [4; 5; 6; 7; 0; 1; 2; 3]%nat 0x90befffa (WAdd 12 [S1 10; V 5; S0 13]);
    R [3; 4; 5; 6; 7; 0; 1; 2]%nat 0xa4506ceb (WAdd 13 [S1 11; V 6; S0 14]);
    R [2; 3; 4; 5; 6; 7; 0; 1]%nat 0xbef9a3f7 (WVal [V 14; S1 12; V 7; S0 15]);
    R [1; 2; 3; 4; 5; 6; 7; 0]%nat 0xc67178f2 (WVal [V 15; S1 13; V 8; S0 0]) ].

(** src/hash/sha2.c:178-243, the ROUND32 invocations of "Transform 2" *)
Definition d64_transform2 : list line :=
  [ R [0; 1; 2; 3; 4; 5; 6; 7]%nat 0xc28a2f98 WNone;
    R [7; 0; 1; 2; 3; 4; 5; 6]%nat 0x71374491 WNone;
    R [6; 7; 0; 1; 2; 3; 4; 5]%nat 0xb5c0fbcf WNone;
    R [5; 6; 7; 0; 1; 2; 3; 4]%nat 0xe9b5dba5 WNone;
    R [4; 5; 6; 7; 0; 1; 2; 3]%nat 0x3956c25b WNone;
    R [3; 4; 5; 6; 7; 0; 1; 2]%nat 0x59f111f1 WNone;
    R [2; 3; 4; 5; 6; 7; 0; 1]%nat 0x923f82a4 WNone;
    R [1; 2; 3; 4; 5; 6; 7; 0]%nat 0xab1c5ed5 WNone;
    R [0; 1; 2; 3; 4; 5; 6; 7]%nat 0xd807aa98 WNone;
    R [7; 0; 1; 2; 3; 4; 5; 6]%nat 0x12835b01 WNone;
    R [6; 7; 0; 1; 2; 3; 4; 5]%nat 0x243185be WNone;
    R [5; 6; 7; 0; 1; 2; 3; 4]%nat 0x550c7dc3 WNone;
    R [4; 5; 6; 7; 0; 1; 2; 3]%nat 0x72be5d74 WNone;
    R [3; 4; 5; 6; 7; 0; 1; 2]%nat 0x80deb1fe WNone;
    R [2; 3; 4; 5; 6; 7; 0; 1]%nat 0x9bdc06a7 WNone;
    R [1; 2; 3; 4; 5; 6; 7; 0]%nat 0xc19bf374 WNone;
    R [0; 1; 2; 3; 4; 5; 6; 7]%nat 0x649b69c1 WNone;
    R [7; 0; 1; 2; 3; 4; 5; 6]%nat 0xf0fe4786 WNone;
    R [6; 7; 0; 1; 2; 3; 4; 5]%nat 0x0fe1edc6 WNone;
    R [5; 6; 7; 0; 1; 2; 3; 4]%nat 0x240cf254 WNone;
    R [4; 5; 6; 7; 0; 1; 2; 3]%nat 0x4fe9346f WNone;
    R [3; 4; 5; 6; 7; 0; 1; 2]%nat 0x6cc984be WNone;
    R [2; 3; 4; 5; 6; 7; 0; 1]%nat 0x61b9411e WNone;
    R [1; 2; 3; 4; 5; 6; 7; 0]%nat 0x16f988fa WNone;
    R [0; 1; 2; 3; 4; 5; 6; 7]%nat 0xf2c65152 WNone;
    R [7; 0; 1; 2; 3; 4; 5; 6]%nat 0xa88e5a6d WNone;
    R [6; 7; 0; 1; 2; 3; 4; 5]%nat 0xb019fc65 WNone;
    R [5; 6; 7; 0; 1; 2; 3; 4]%nat 0xb9d99ec7 WNone;
    R [4; 5; 6; 7; 0; 1; 2; 3]%nat 0x9a1231c3 WNone;
    R [3; 4; 5; 6; 7; 0; 1; 2]%nat 0xe70eeaa0 WNone;
    R [2; 3; 4; 5; 6; 7; 0; 1]%nat 0xfdb1232b WNone;
    R [1; 2; 3; 4; 5; 6; 7; 0]%nat 0xc7353eb0 WNone;
    R [0; 1; 2; 3; 4; 5; 6; 7]%nat 0x3069bad5 WNone;
    R [7; 0; 1; 2; 3; 4; 5; 6]%nat 0xcb976d5f WNone;
    R [6; 7; 0; 1; 2; 3; 4; 5]%nat 0x5a0f118f WNone;
    R [5; 6; 7; 0; 1; 2; 3; 4]%nat 0xdc1eeefd WNone;
    R [4; 5; 6; 7; 0; 1; 2; 3]%nat 0x0a35b689 WNone;
    R [3; 4; 5; 6; 7; 0; 1; 2]%nat 0xde0b7a04 WNone;
    R [2; 3; 4; 5; 6; 7; 0; 1]%nat 0x58f4ca9d WNone;
    R [1; 2; 3; 4; 5; 6; 7; 0]%nat 0xe15d5b16 WNone;
    R [0; 1; 2; 3; 4; 5; 6; 7]%nat 0x007f3e86 WNone;
    R [7; 0; 1; 2; 3; 4; 5; 6]%nat 0x37088980 WNone;
    R [6; 7; 0; 1; 2; 3; 4; 5]%nat 0xa507ea32 WNone;
    R [5; 6; 7; 0; 1; 2; 3; 4]%nat 0x6fab9537 WNone;
    R [4; 5; 6; 7; 0; 1; 2; 3]%nat 0x17406110 WNone;
    R [3; 4; 5; 6; 7; 0; 1; 2]%nat 0x0d8cd6f1 WNone;
    R [2; 3; 4; 5; 6; 7; 0; 1]%nat 0xcdaa3b6d WNone;
    R [1; 2; 3; 4; 5; 6; 7; 0]%nat 0xc0bbbe37 WNone;
    R [0; 1; 2; 3; 4; 5; 6; 7]%nat 0x83613bda WNone;
    R [7; 0; 1; 2; 3; 4; 5; 6]%nat 0xdb48a363 WNone;
    R [6; 7; 0; 1; 2; 3; 4; 5]%nat 0x0b02e931 WNone;
    R [5; 6; 7; 0; 1; 2; 3; 4]%nat 0x6fd15ca7 WNone;
    R [4; 5; 6; 7; 0; 1; 2; 3]%nat 0x521afaca WNone;
    R [3; 4; 5; 6; 7; 0; 1; 2]%nat 0x31338431 WNone;
    R [2; 3; 4; 5; 6; 7; 0; 1]%nat 0x6ed41a95 WNone;
    R [1; 2; 3; 4; 5; 6; 7; 0]%nat 0x6d437890 WNone;
    R [0; 1; 2; 3; 4; 5; 6; 7]%nat 0xc39c91f2 WNone;
    R [7; 0; 1; 2; 3; 4; 5; 6]%nat 0x9eccabbd WNone;
    R [6; 7; 0; 1; 2; 3; 4; 5]%nat 0xb5c9a0e6 WNone;
    R [5; 6; 7; 0; 1; 2; 3; 4]%nat 0x532fb63c WNone;
    R [4; 5; 6; 7; 0; 1; 2; 3]%nat 0xd2c741c6 WNone;
    R [3; 4; 5; 6; 7; 0; 1; 2]%nat 0x07237ea3 WNone;
    R [2; 3; 4; 5; 6; 7; 0; 1]%nat 0xa4954b68 WNone;
    R [1; 2; 3; 4; 5; 6; 7; 0]%nat 0x4c191d76 WNone ].

(** src/hash/sha2.c:253-369, the ROUND32 invocations of "Transform 3" *)
Definition d64_transform3 : list line :=
  [ R [0; 1; 2; 3; 4; 5; 6; 7]%nat 0x428a2f98 (WVal [V 0]);
    R [7; 0; 1; 2; 3; 4; 5; 6]%nat 0x71374491 (WVal [V 1]);
    R [6; 7; 0; 1; 2; 3; 4; 5]%nat 0xb5c0fbcf (WVal [V 2]);
    R [5; 6; 7; 0; 1; 2; 3; 4]%nat 0xe9b5dba5 (WVal [V 3]);
    R [4; 5; 6; 7; 0; 1; 2; 3]%nat 0x3956c25b (WVal [V 4]);
    R [3; 4; 5; 6; 7; 0; 1; 2]%nat 0x59f111f1 (WVal [V 5]);
    R [2; 3; 4; 5; 6; 7; 0; 1]%nat 0x923f82a4 (WVal [V 6]);
    R [1; 2; 3; 4; 5; 6; 7; 0]%nat 0xab1c5ed5 (WVal [V 7]);
    R [0; 1; 2; 3; 4; 5; 6; 7]%nat 0x5807aa98 WNone;
    R [7; 0; 1; 2; 3; 4; 5; 6]%nat 0x12835b01 WNone;
    R [6; 7; 0; 1; 2; 3; 4; 5]%nat 0x243185be WNone;
    R [5; 6; 7; 0; 1; 2; 3; 4]%nat 0x550c7dc3 WNone;
    R [4; 5; 6; 7; 0; 1; 2; 3]%nat 0x72be5d74 WNone;
    R [3; 4; 5; 6; 7; 0; 1; 2]%nat 0x80deb1fe WNone;
    R [2; 3; 4; 5; 6; 7; 0; 1]%nat 0x9bdc06a7 WNone;
    R [1; 2; 3; 4; 5; 6; 7; 0]%nat 0xc19bf274 WNone;
    R [0; 1; 2; 3; 4; 5; 6; 7]%nat 0xe49b69c1 (WAdd 0 [S0 1]);
    R [7; 0; 1; 2; 3; 4; 5; 6]%nat 0xefbe4786 (WAdd 1 [C 0xa00000; S0 2]);
    R [6; 7; 0; 1; 2; 3; 4; 5]%nat 0x0fc19dc6 (WAdd 2 [S1 0; S0 3]);
    R [5; 6; 7; 0; 1; 2; 3; 4]%nat 0x240ca1cc (WAdd 3 [S1 1; S0 4]);
    R [4; 5; 6; 7; 0; 1; 2; 3]%nat 0x2de92c6f (WAdd 4 [S1 2; S0 5]);
    R [3; 4; 5; 6; 7; 0; 1; 2]%nat 0x4a7484aa (WAdd 5 [S1 3; S0 6]);
    R [2; 3; 4; 5; 6; 7; 0; 1]%nat 0x5cb0a9dc (WAdd 6 [S1 4; C 0x100; S0 7]);
    R [1; 2; 3; 4; 5; 6; 7; 0]%nat 0x76f988da (WAdd 7 [S1 5; V 0; C 0x11002000]);
    R [0; 1; 2; 3; 4; 5; 6; 7]%nat 0x983e5152 (WSet 8 [C 0x80000000; S1 6; V 1]);
    R [7; 0; 1; 2; 3; 4; 5; 6]%nat 0xa831c66d (WSet 9 [S1 7; V 2]);
    R [6; 7; 0; 1; 2; 3; 4; 5]%nat 0xb00327c8 (WSet 10 [S1 8; V 3]);
    R [5; 6; 7; 0; 1; 2; 3; 4]%nat 0xbf597fc7 (WSet 11 [S1 9; V 4]);
    R [4; 5; 6; 7; 0; 1; 2; 3]%nat 0xc6e00bf3 (WSet 12 [S1 10; V 5]);
    R [3; 4; 5; 6; 7; 0; 1; 2]%nat 0xd5a79147 (WSet 13 [S1 11; V 6]);
    R [2; 3; 4; 5; 6; 7; 0; 1]%nat 0x06ca6351 (WSet 14 [S1 12; V 7; C 0x400022]);
    R [1; 2; 3; 4; 5; 6; 7; 0]%nat 0x14292967 (WSet 15 [C 0x100; S1 13; V 8; S0 0]);
    R [0; 1; 2; 3; 4; 5; 6; 7]%nat 0x27b70a85 (WAdd 0 [S1 14; V 9; S0 1]);
    R [7; 0; 1; 2; 3; 4; 5; 6]%nat 0x2e1b2138 (WAdd 1 [S1 15; V 10; S0 2]);
    R [6; 7; 0; 1; 2; 3; 4; 5]%nat 0x4d2c6dfc (WAdd 2 [S1 0; V 11; S0 3]);
    R [5; 6; 7; 0; 1; 2; 3; 4]%nat 0x53380d13 (WAdd 3 [S1 1; V 12; S0 4]);
    R [4; 5; 6; 7; 0; 1; 2; 3]%nat 0x650a7354 (WAdd 4 [S1 2; V 13; S0 5]);
    R [3; 4; 5; 6; 7; 0; 1; 2]%nat 0x766a0abb (WAdd 5 [S1 3; V 14; S0 6]);
    R [2; 3; 4; 5; 6; 7; 0; 1]%nat 0x81c2c92e (WAdd 6 [S1 4; V 15; S0 7]);
    R [1; 2; 3; 4; 5; 6; 7; 0]%nat 0x92722c85 (WAdd 7 [S1 5; V 0; S0 8]);
    R [0; 1; 2; 3; 4; 5; 6; 7]%nat 0xa2bfe8a1 (WAdd 8 [S1 6; V 1; S0 9]);
    R [7; 0; 1; 2; 3; 4; 5; 6]%nat 0xa81a664b (WAdd 9 [S1 7; V 2; S0 10]);
    R [6; 7; 0; 1; 2; 3; 4; 5]%nat 0xc24b8b70 (WAdd 10 [S1 8; V 3; S0 11]);
    R [5; 6; 7; 0; 1; 2; 3; 4]%nat 0xc76c51a3 (WAdd 11 [S1 9; V 4; S0 12]);
    R [4; 5; 6; 7; 0; 1; 2; 3]%nat 0xd192e819 (WAdd 12 [S1 10; V 5; S0 13]);
    R [3; 4; 5; 6; 7; 0; 1; 2]%nat 0xd6990624 (WAdd 13 [S1 11; V 6; S0 14]);
    R [2; 3; 4; 5; 6; 7; 0; 1]%nat 0xf40e3585 (WAdd 14 [S1 12; V 7; S0 15]);
    R [1; 2; 3; 4; 5; 6; 7; 0]%nat 0x106aa070 (WAdd 15 [S1 13; V 8; S0 0]);
    R [0; 1; 2; 3; 4; 5; 6; 7]%nat 0x19a4c116 (WAdd 0 [S1 14; V 9; S0 1]);
    R [7; 0; 1; 2; 3; 4; 5; 6]%nat 0x1e376c08 (WAdd 1 [S1 15; V 10; S0 2]);
    R [6; 7; 0; 1; 2; 3; 4; 5]%nat 0x2748774c (WAdd 2 [S1 0; V 11; S0 3]);
    R [5; 6; 7; 0; 1; 2; 3; 4]%nat 0x34b0bcb5 (WAdd 3 [S1 1; V 12; S0 4]);
    R [4; 5; 6; 7; 0; 1; 2; 3]%nat 0x391c0cb3 (WAdd 4 [S1 2; V 13; S0 5]);
    R [3; 4; 5; 6; 7; 0; 1; 2]%nat 0x4ed8aa4a (WAdd 5 [S1 3; V 14; S0 6]);
    R [2; 3; 4; 5; 6; 7; 0; 1]%nat 0x5b9cca4f (WAdd 6 [S1 4; V 15; S0 7]);
    R [1; 2; 3; 4; 5; 6; 7; 0]%nat 0x682e6ff3 (WAdd 7 [S1 5; V 0; S0 8]);
    R [0; 1; 2; 3; 4; 5; 6; 7]%nat 0x748f82ee (WAdd 8 [S1 6; V 1; S0 9]);
    R [7; 0; 1; 2; 3; 4; 5; 6]%nat 0x78a5636f (WAdd 9 [S1 7; V 2; S0 10]);
    R [6; 7; 0; 1; 2; 3; 4; 5]%nat 0x84c87814 (WAdd 10 [S1 8; V 3; S0 11]);
    R [5; 6; 7; 0; 1; 2; 3; 4]%nat 0x8cc70208 (WAdd 11 [S1 9; V 4; S0 12]);
    R [4; 5; 6; 7; 0; 1; 2; 3]%nat 0x90befffa (WAdd 12 [S1 10; V 5; S0 13]);
    R [3; 4; 5; 6; 7; 0; 1; 2]%nat 0xa4506ceb (WAdd 13 [S1 11; V 6; S0 14]);
    R [2; 3; 4; 5; 6; 7; 0; 1]%nat 0xbef9a3f7 (WVal [V 14; S1 12; V 7; S0 15]);
    R [1; 2; 3; 4; 5; 6; 7; 0]%nat 0xc67178f2 (WVal [V 15; S1 13; V 8; S0 0]) ].

(** src/hash/sha2.c:380-507, the ROUND32 invocations of [sha256_transform] *)
Definition sha256_lines : list line :=
  [ R [0; 1; 2; 3; 4; 5; 6; 7]%nat 0x428a2f98 (WLoad 0 0);
    R [7; 0; 1; 2; 3; 4; 5; 6]%nat 0x71374491 (WLoad 1 4);
    R [6; 7; 0; 1; 2; 3; 4; 5]%nat 0xb5c0fbcf (WLoad 2 8);
    R [5; 6; 7; 0; 1; 2; 3; 4]%nat 0xe9b5dba5 (WLoad 3 12);
    R [4; 5; 6; 7; 0; 1; 2; 3]%nat 0x3956c25b (WLoad 4 16);
    R [3; 4; 5; 6; 7; 0; 1; 2]%nat 0x59f111f1 (WLoad 5 20);
    R [2; 3; 4; 5; 6; 7; 0; 1]%nat 0x923f82a4 (WLoad 6 24);
    R [1; 2; 3; 4; 5; 6; 7; 0]%nat 0xab1c5ed5 (WLoad 7 28);
    R [0; 1; 2; 3; 4; 5; 6; 7]%nat 0xd807aa98 (WLoad 8 32);
    R [7; 0; 1; 2; 3; 4; 5; 6]%nat 0x12835b01 (WLoad 9 36);
    R [6; 7; 0; 1; 2; 3; 4; 5]%nat 0x243185be (WLoad 10 40);
    R [5; 6; 7; 0; 1; 2; 3; 4]%nat 0x550c7dc3 (WLoad 11 44);
    R [4; 5; 6; 7; 0; 1; 2; 3]%nat 0x72be5d74 (WLoad 12 48);
    R [3; 4; 5; 6; 7; 0; 1; 2]%nat 0x80deb1fe (WLoad 13 52);
    R [2; 3; 4; 5; 6; 7; 0; 1]%nat 0x9bdc06a7 (WLoad 14 56);
    R [1; 2; 3; 4; 5; 6; 7; 0]%nat 0xc19bf174 (WLoad 15 60);
    R [0; 1; 2; 3; 4; 5; 6; 7]%nat 0xe49b69c1 (WAdd 0 [S1 14; V 9; S0 1]);
    R [7; 0; 1; 2; 3; 4; 5; 6]%nat 0xefbe4786 (WAdd 1 [S1 15; V 10; S0 2]);
    R [6; 7; 0; 1; 2; 3; 4; 5]%nat 0x0fc19dc6 (WAdd 2 [S1 0; V 11; S0 3]);
    R [5; 6; 7; 0; 1; 2; 3; 4]%nat 0x240ca1cc (WAdd 3 [S1 1; V 12; S0 4]);
    R [4; 5; 6; 7; 0; 1; 2; 3]%nat 0x2de92c6f (WAdd 4 [S1 2; V 13; S0 5]);
    R [3; 4; 5; 6; 7; 0; 1; 2]%nat 0x4a7484aa (WAdd 5 [S1 3; V 14; S0 6]);
    R [2; 3; 4; 5; 6; 7; 0; 1]%nat 0x5cb0a9dc (WAdd 6 [S1 4; V 15; S0 7]);
    R [1; 2; 3; 4; 5; 6; 7; 0]%nat 0x76f988da (WAdd 7 [S1 5; V 0; S0 8]);
    R [0; 1; 2; 3; 4; 5; 6; 7]%nat 0x983e5152 (WAdd 8 [S1 6; V 1; S0 9]);
    R [7; 0; 1; 2; 3; 4; 5; 6]%nat 0xa831c66d (WAdd 9 [S1 7; V 2; S0 10]);
    R [6; 7; 0; 1; 2; 3; 4; 5]%nat 0xb00327c8 (WAdd 10 [S1 8; V 3; S0 11]);
    R [5; 6; 7; 0; 1; 2; 3; 4]%nat 0xbf597fc7 (WAdd 11 [S1 9; V 4; S0 12]);
    R [4; 5; 6; 7; 0; 1; 2; 3]%nat 0xc6e00bf3 (WAdd 12 [S1 10; V 5; S0 13]);
    R [3; 4; 5; 6; 7; 0; 1; 2]%nat 0xd5a79147 (WAdd 13 [S1 11; V 6; S0 14]);
    R [2; 3; 4; 5; 6; 7; 0; 1]%nat 0x06ca6351 (WAdd 14 [S1 12; V 7; S0 15]);
    R [1; 2; 3; 4; 5; 6; 7; 0]%nat 0x14292967 (WAdd 15 [S1 13; V 8; S0 0]);
    R [0; 1; 2; 3; 4; 5; 6; 7]%nat 0x27b70a85 (WAdd 0 [S1 14; V 9; S0 1]);
    R [7; 0; 1; 2; 3; 4; 5; 6]%nat 0x2e1b2138 (WAdd 1 [S1 15; V 10; S0 2]);
    R [6; 7; 0; 1; 2; 3; 4; 5]%nat 0x4d2c6dfc (WAdd 2 [S1 0; V 11; S0 3]);
    R [5; 6; 7; 0; 1; 2; 3; 4]%nat 0x53380d13 (WAdd 3 [S1 1; V 12; S0 4]);
    R [4; 5; 6; 7; 0; 1; 2; 3]%nat 0x650a7354 (WAdd 4 [S1 2; V 13; S0 5]);
    R [3; 4; 5; 6; 7; 0; 1; 2]%nat 0x766a0abb (WAdd 5 [S1 3; V 14; S0 6]);
    R [2; 3; 4; 5; 6; 7; 0; 1]%nat 0x81c2c92e (WAdd 6 [S1 4; V 15; S0 7]);
    R [1; 2; 3; 4; 5; 6; 7; 0]%nat 0x92722c85 (WAdd 7 [S1 5; V 0; S0 8]);
    R [0; 1; 2; 3; 4; 5; 6; 7]%nat 0xa2bfe8a1 (WAdd 8 [S1 6; V 1; S0 9]);
    R [7; 0; 1; 2; 3; 4; 5; 6]%nat 0xa81a664b (WAdd 9 [S1 7; V 2; S0 10]);
    R [6; 7; 0; 1; 2; 3; 4; 5]%nat 0xc24b8b70 (WAdd 10 [S1 8; V 3; S0 11]);
    R [5; 6; 7; 0; 1; 2; 3; 4]%nat 0xc76c51a3 (WAdd 11 [S1 9; V 4; S0 12]);
    R [4; 5; 6; 7; 0; 1; 2; 3]%nat 0xd192e819 (WAdd 12 [S1 10; V 5; S0 13]);
    R [3; 4; 5; 6; 7; 0; 1; 2]%nat 0xd6990624 (WAdd 13 [S1 11; V 6; S0 14]);
    R [2; 3; 4; 5; 6; 7; 0; 1]%nat 0xf40e3585 (WAdd 14 [S1 12; V 7; S0 15]);
    R [1; 2; 3; 4; 5; 6; 7; 0]%nat 0x106aa070 (WAdd 15 [S1 13; V 8; S0 0]);
    R [0; 1; 2; 3; 4; 5; 6; 7]%nat 0x19a4c116 (WAdd 0 [S1 14; V 9; S0 1]);
    R [7; 0; 1; 2; 3; 4; 5; 6]%nat 0x1e376c08 (WAdd 1 [S1 15; V 10; S0 2]);
    R [6; 7; 0; 1; 2; 3; 4; 5]%nat 0x2748774c (WAdd 2 [S1 0; V 11; S0 3]);
    R [5; 6; 7; 0; 1; 2; 3; 4]%nat 0x34b0bcb5 (WAdd 3 [S1 1; V 12; S0 4]);
    R [4; 5; 6; 7; 0; 1; 2; 3]%nat 0x391c0cb3 (WAdd 4 [S1 2; V 13; S0 5]);
    R [3; 4; 5; 6; 7; 0; 1; 2]%nat 0x4ed8aa4a (WAdd 5 [S1 3; V 14; S0 6]);
    R [2; 3; 4; 5; 6; 7; 0; 1]%nat 0x5b9cca4f (WAdd 6 [S1 4; V 15; S0 7]);
    R [1; 2; 3; 4; 5; 6; 7; 0]%nat 0x682e6ff3 (WAdd 7 [S1 5; V 0; S0 8]);
    R [0; 1; 2; 3; 4; 5; 6; 7]%nat 0x748f82ee (WAdd 8 [S1 6; V 1; S0 9]);
    R [7; 0; 1; 2; 3; 4; 5; 6]%nat 0x78a5636f (WAdd 9 [S1 7; V 2; S0 10]);
    R [6; 7; 0; 1; 2; 3; 4; 5]%nat 0x84c87814 (WAdd 10 [S1 8; V 3; S0 11]);
    R [5; 6; 7; 0; 1; 2; 3; 4]%nat 0x8cc70208 (WAdd 11 [S1 9; V 4; S0 12]);
    R [4; 5; 6; 7; 0; 1; 2; 3]%nat 0x90befffa (WAdd 12 [S1 10; V 5; S0 13]);
    R [3; 4; 5; 6; 7; 0; 1; 2]%nat 0xa4506ceb (WAdd 13 [S1 11; V 6; S0 14]);
    R [2; 3; 4; 5; 6; 7; 0; 1]%nat 0xbef9a3f7 (WVal [V 14; S1 12; V 7; S0 15]);
    R [1; 2; 3; 4; 5; 6; 7; 0]%nat 0xc67178f2 (WVal [V 15; S1 13; V 8; S0 0]) ].

(** src/hash/sha2.c:508-670, the ROUND64 invocations of [sha512_transform] *)
Definition sha512_lines : list line :=
  [ R [0; 1; 2; 3; 4; 5; 6; 7]%nat 0x428a2f98d728ae22 (WLoad 0 0);
    R [7; 0; 1; 2; 3; 4; 5; 6]%nat 0x7137449123ef65cd (WLoad 1 8);
    R [6; 7; 0; 1; 2; 3; 4; 5]%nat 0xb5c0fbcfec4d3b2f (WLoad 2 16);
    R [5; 6; 7; 0; 1; 2; 3; 4]%nat 0xe9b5dba58189dbbc (WLoad 3 24);
    R [4; 5; 6; 7; 0; 1; 2; 3]%nat 0x3956c25bf348b538 (WLoad 4 32);
    R [3; 4; 5; 6; 7; 0; 1; 2]%nat 0x59f111f1b605d019 (WLoad 5 40);
    R [2; 3; 4; 5; 6; 7; 0; 1]%nat 0x923f82a4af194f9b (WLoad 6 48);
    R [1; 2; 3; 4; 5; 6; 7; 0]%nat 0xab1c5ed5da6d8118 (WLoad 7 56);
    R [0; 1; 2; 3; 4; 5; 6; 7]%nat 0xd807aa98a3030242 (WLoad 8 64);
    R [7; 0; 1; 2; 3; 4; 5; 6]%nat 0x12835b0145706fbe (WLoad 9 72);
    R [6; 7; 0; 1; 2; 3; 4; 5]%nat 0x243185be4ee4b28c (WLoad 10 80);
    R [5; 6; 7; 0; 1; 2; 3; 4]%nat 0x550c7dc3d5ffb4e2 (WLoad 11 88);
    R [4; 5; 6; 7; 0; 1; 2; 3]%nat 0x72be5d74f27b896f (WLoad 12 96);
    R [3; 4; 5; 6; 7; 0; 1; 2]%nat 0x80deb1fe3b1696b1 (WLoad 13 104);
    R [2; 3; 4; 5; 6; 7; 0; 1]%nat 0x9bdc06a725c71235 (WLoad 14 112);
    R [1; 2; 3; 4; 5; 6; 7; 0]%nat 0xc19bf174cf692694 (WLoad 15 120);
    R [0; 1; 2; 3; 4; 5; 6; 7]%nat 0xe49b69c19ef14ad2 (WAdd 0 [S1 14; V 9; S0 1]);
    R [7; 0; 1; 2; 3; 4; 5; 6]%nat 0xefbe4786384f25e3 (WAdd 1 [S1 15; V 10; S0 2]);
    R [6; 7; 0; 1; 2; 3; 4; 5]%nat 0x0fc19dc68b8cd5b5 (WAdd 2 [S1 0; V 11; S0 3]);
    R [5; 6; 7; 0; 1; 2; 3; 4]%nat 0x240ca1cc77ac9c65 (WAdd 3 [S1 1; V 12; S0 4]);
    R [4; 5; 6; 7; 0; 1; 2; 3]%nat 0x2de92c6f592b0275 (WAdd 4 [S1 2; V 13; S0 5]);
    R [3; 4; 5; 6; 7; 0; 1; 2]%nat 0x4a7484aa6ea6e483 (WAdd 5 [S1 3; V 14; S0 6]);
    R [2; 3; 4; 5; 6; 7; 0; 1]%nat 0x5cb0a9dcbd41fbd4 (WAdd 6 [S1 4; V 15; S0 7]);
    R [1; 2; 3; 4; 5; 6; 7; 0]%nat 0x76f988da831153b5 (WAdd 7 [S1 5; V 0; S0 8]);
    R [0; 1; 2; 3; 4; 5; 6; 7]%nat 0x983e5152ee66dfab (WAdd 8 [S1 6; V 1; S0 9]);
    R [7; 0; 1; 2; 3; 4; 5; 6]%nat 0xa831c66d2db43210 (WAdd 9 [S1 7; V 2; S0 10]);
    R [6; 7; 0; 1; 2; 3; 4; 5]%nat 0xb00327c898fb213f (WAdd 10 [S1 8; V 3; S0 11]);
    R [5; 6; 7; 0; 1; 2; 3; 4]%nat 0xbf597fc7beef0ee4 (WAdd 11 [S1 9; V 4; S0 12]);
    R [4; 5; 6; 7; 0; 1; 2; 3]%nat 0xc6e00bf33da88fc2 (WAdd 12 [S1 10; V 5; S0 13]);
    R [3; 4; 5; 6; 7; 0; 1; 2]%nat 0xd5a79147930aa725 (WAdd 13 [S1 11; V 6; S0 14]);
    R [2; 3; 4; 5; 6; 7; 0; 1]%nat 0x06ca6351e003826f (WAdd 14 [S1 12; V 7; S0 15]);
    R [1; 2; 3; 4; 5; 6; 7; 0]%nat 0x142929670a0e6e70 (WAdd 15 [S1 13; V 8; S0 0]);
    R [0; 1; 2; 3; 4; 5; 6; 7]%nat 0x27b70a8546d22ffc (WAdd 0 [S1 14; V 9; S0 1]);
    R [7; 0; 1; 2; 3; 4; 5; 6]%nat 0x2e1b21385c26c926 (WAdd 1 [S1 15; V 10; S0 2]);
    R [6; 7; 0; 1; 2; 3; 4; 5]%nat 0x4d2c6dfc5ac42aed (WAdd 2 [S1 0; V 11; S0 3]);
    R [5; 6; 7; 0; 1; 2; 3; 4]%nat 0x53380d139d95b3df (WAdd 3 [S1 1; V 12; S0 4]);
    R [4; 5; 6; 7; 0; 1; 2; 3]%nat 0x650a73548baf63de (WAdd 4 [S1 2; V 13; S0 5]);
    R [3; 4; 5; 6; 7; 0; 1; 2]%nat 0x766a0abb3c77b2a8 (WAdd 5 [S1 3; V 14; S0 6]);
    R [2; 3; 4; 5; 6; 7; 0; 1]%nat 0x81c2c92e47edaee6 (WAdd 6 [S1 4; V 15; S0 7]);
    R [1; 2; 3; 4; 5; 6; 7; 0]%nat 0x92722c851482353b (WAdd 7 [S1 5; V 0; S0 8]);
    R [0; 1; 2; 3; 4; 5; 6; 7]%nat 0xa2bfe8a14cf10364 (WAdd 8 [S1 6; V 1; S0 9]);
    R [7; 0; 1; 2; 3; 4; 5; 6]%nat 0xa81a664bbc423001 (WAdd 9 [S1 7; V 2; S0 10]);
    R [6; 7; 0; 1; 2; 3; 4; 5]%nat 0xc24b8b70d0f89791 (WAdd 10 [S1 8; V 3; S0 11]);
    R [5; 6; 7; 0; 1; 2; 3; 4]%nat 0xc76c51a30654be30 (WAdd 11 [S1 9; V 4; S0 12]);
    R [4; 5; 6; 7; 0; 1; 2; 3]%nat 0xd192e819d6ef5218 (WAdd 12 [S1 10; V 5; S0 13]);
    R [3; 4; 5; 6; 7; 0; 1; 2]%nat 0xd69906245565a910 (WAdd 13 [S1 11; V 6; S0 14]);
    R [2; 3; 4; 5; 6; 7; 0; 1]%nat 0xf40e35855771202a (WAdd 14 [S1 12; V 7; S0 15]);
    R [1; 2; 3; 4; 5; 6; 7; 0]%nat 0x106aa07032bbd1b8 (WAdd 15 [S1 13; V 8; S0 0]);
    R [0; 1; 2; 3; 4; 5; 6; 7]%nat 0x19a4c116b8d2d0c8 (WAdd 0 [S1 14; V 9; S0 1]);
    R [7; 0; 1; 2; 3; 4; 5; 6]%nat 0x1e376c085141ab53 (WAdd 1 [S1 15; V 10; S0 2]);
    R [6; 7; 0; 1; 2; 3; 4; 5]%nat 0x2748774cdf8eeb99 (WAdd 2 [S1 0; V 11; S0 3]);
    R [5; 6; 7; 0; 1; 2; 3; 4]%nat 0x34b0bcb5e19b48a8 (WAdd 3 [S1 1; V 12; S0 4]);
    R [4; 5; 6; 7; 0; 1; 2; 3]%nat 0x391c0cb3c5c95a63 (WAdd 4 [S1 2; V 13; S0 5]);
    R [3; 4; 5; 6; 7; 0; 1; 2]%nat 0x4ed8aa4ae3418acb (WAdd 5 [S1 3; V 14; S0 6]);
    R [2; 3; 4; 5; 6; 7; 0; 1]%nat 0x5b9cca4f7763e373 (WAdd 6 [S1 4; V 15; S0 7]);
    R [1; 2; 3; 4; 5; 6; 7; 0]%nat 0x682e6ff3d6b2b8a3 (WAdd 7 [S1 5; V 0; S0 8]);
    R [0; 1; 2; 3; 4; 5; 6; 7]%nat 0x748f82ee5defb2fc (WAdd 8 [S1 6; V 1; S0 9]);
    R [7; 0; 1; 2; 3; 4; 5; 6]%nat 0x78a5636f43172f60 (WAdd 9 [S1 7; V 2; S0 10]);
    R [6; 7; 0; 1; 2; 3; 4; 5]%nat 0x84c87814a1f0ab72 (WAdd 10 [S1 8; V 3; S0 11]);
    R [5; 6; 7; 0; 1; 2; 3; 4]%nat 0x8cc702081a6439ec (WAdd 11 [S1 9; V 4; S0 12]);
    R [4; 5; 6; 7; 0; 1; 2; 3]%nat 0x90befffa23631e28 (WAdd 12 [S1 10; V 5; S0 13]);
    R [3; 4; 5; 6; 7; 0; 1; 2]%nat 0xa4506cebde82bde9 (WAdd 13 [S1 11; V 6; S0 14]);
    R [2; 3; 4; 5; 6; 7; 0; 1]%nat 0xbef9a3f7b2c67915 (WAdd 14 [S1 12; V 7; S0 15]);
    R [1; 2; 3; 4; 5; 6; 7; 0]%nat 0xc67178f2e372532b (WAdd 15 [S1 13; V 8; S0 0]);
    R [0; 1; 2; 3; 4; 5; 6; 7]%nat 0xca273eceea26619c (WAdd 0 [S1 14; V 9; S0 1]);
    R [7; 0; 1; 2; 3; 4; 5; 6]%nat 0xd186b8c721c0c207 (WAdd 1 [S1 15; V 10; S0 2]);
    R [6; 7; 0; 1; 2; 3; 4; 5]%nat 0xeada7dd6cde0eb1e (WAdd 2 [S1 0; V 11; S0 3]);
    R [5; 6; 7; 0; 1; 2; 3; 4]%nat 0xf57d4f7fee6ed178 (WAdd 3 [S1 1; V 12; S0 4]);
    R [4; 5; 6; 7; 0; 1; 2; 3]%nat 0x06f067aa72176fba (WAdd 4 [S1 2; V 13; S0 5]);
    R [3; 4; 5; 6; 7; 0; 1; 2]%nat 0x0a637dc5a2c898a6 (WAdd 5 [S1 3; V 14; S0 6]);
    R [2; 3; 4; 5; 6; 7; 0; 1]%nat 0x113f9804bef90dae (WAdd 6 [S1 4; V 15; S0 7]);
    R [1; 2; 3; 4; 5; 6; 7; 0]%nat 0x1b710b35131c471b (WAdd 7 [S1 5; V 0; S0 8]);
    R [0; 1; 2; 3; 4; 5; 6; 7]%nat 0x28db77f523047d84 (WAdd 8 [S1 6; V 1; S0 9]);
    R [7; 0; 1; 2; 3; 4; 5; 6]%nat 0x32caab7b40c72493 (WAdd 9 [S1 7; V 2; S0 10]);
    R [6; 7; 0; 1; 2; 3; 4; 5]%nat 0x3c9ebe0a15c9bebc (WAdd 10 [S1 8; V 3; S0 11]);
    R [5; 6; 7; 0; 1; 2; 3; 4]%nat 0x431d67c49c100d4c (WAdd 11 [S1 9; V 4; S0 12]);
    R [4; 5; 6; 7; 0; 1; 2; 3]%nat 0x4cc5d4becb3e42b6 (WAdd 12 [S1 10; V 5; S0 13]);
    R [3; 4; 5; 6; 7; 0; 1; 2]%nat 0x597f299cfc657e2a (WAdd 13 [S1 11; V 6; S0 14]);
    R [2; 3; 4; 5; 6; 7; 0; 1]%nat 0x5fcb6fab3ad6faec (WVal [V 14; S1 12; V 7; S0 15]);
    R [1; 2; 3; 4; 5; 6; 7; 0]%nat 0x6c44198c4a475817 (WVal [V 15; S1 13; V 8; S0 0]) ].


(** sha2.c:52, 383, 511: w0..w15 before their first assignment. *)
Definition w_uninit : list (option Z) := repeat None 16.
(** s[i] += r_i for every register *)
(** sha2.c:167-174, 498-505, 661-668 *)
Definition add_regs (wrap : Z -> Z) (s rs : list Z) : list Z :=
  map (fun p => wrap (fst p + snd p)) (combine s rs).

(** sha2.c:698-699, 764-769 and 41-48: the initial digest of SHA-256. *)
Definition IV256 : list Z :=
  [0x6a09e667; 0xbb67ae85; 0x3c6ef372; 0xa54ff53a; 0x510e527f; 0x9b05688c; 0x1f83d9ab; 0x5be0cd19].
(** sha2.c:741-744, 809-816: the initial digest of SHA-512. *)
Definition IV512 : list Z :=
  [0x6a09e667f3bcc908; 0xbb67ae8584caa73b; 0x3c6ef372fe94f82b; 0xa54ff53a5f1d36f1;
   0x510e527fade682d1; 0x9b05688c2b3e6c1f; 0x1f83d9abfb41bd6b; 0x5be0cd19137e2179].

(** sha2.c:380-506 *)
Definition sha256_transform (s chunk : list Z) : res (list Z) :=
  '(rs, _) <- exec_lines ops32 chunk (s, w_uninit) sha256_lines ;; Ok (add_regs u32 s rs).
(** sha2.c:508-669 *)
Definition sha512_transform (s chunk : list Z) : res (list Z) :=
  '(rs, _) <- exec_lines ops64 chunk (s, w_uninit) sha512_lines ;; Ok (add_regs u64 s rs).

(** Storing the words of a digest into an output buffer, [out[i] = htobe32(d[i])]
    (sha2.c:703-710) resp. htobe64 (748-755; out[1] before out[0] there). *)
Definition out32 (d : list Z) : list Z := concat (map (fun v => host_bytes 4 (htobe32 v)) d).
(** sha2.c:748-755 *)
Definition out64 (d : list Z) : list Z := concat (map (fun v => host_bytes 8 (htobe64 v)) d).

(** sha2.c:39-378, [_hash256_d64_transform]; the result is the 32 bytes stored in [out]. *)
Definition hash256_d64_transform (inp : list Z) : res (list Z) :=
  '(rs, w) <- exec_lines ops32 inp (IV256, w_uninit) d64_transform1 ;;
  (* 167-176 *)
  let t := add_regs u32 IV256 rs in
  '(rs, w) <- exec_lines ops32 inp (t, w) d64_transform2 ;;
  (* 244-251: only w0..w7 are assigned *)
  let w := map Some (add_regs u32 t rs) ++ skipn 8 w in
  '(rs, _) <- exec_lines ops32 inp (IV256, w) d64_transform3 ;;
  (* 370-377 *)
  Ok (out32 (add_regs u32 IV256 rs)).

(** The [while (msg_len >= blk)] loop of sha2.c:676-680, 720-724 (also sha1.c:127-131
    and ripemd160.c:293-297): compress whole blocks, advance the pointer. [fuel] bounds
    the number of iterations; running out of it is reported as undefined behaviour. *)
Fixpoint block_loop (fuel blk : nat) (transform : list Z -> list Z -> res (list Z))
  (digest msg_buf : list Z) (msg_len : nat) : res (list Z * list Z * nat) :=
  if (blk <=? msg_len)%nat then
    match fuel with
    | O => UB
    | S f =>
        _ <- slice msg_buf 0 blk ;;
        digest <- transform digest msg_buf ;;
        block_loop f blk transform digest (skipn blk msg_buf) (msg_len - blk)
    end
  else Ok (digest, msg_buf, msg_len).

(** sha2.c:671-694 *)
Definition sha256_final (digest msg : list Z) (msg_len append_size : nat) : res (list Z) :=
  let chunk_end := htobe64 (u64 (Z.shiftl (u64 (Z.of_nat msg_len + Z.of_nat append_size)) 3)) in
  '(digest, msg_buf, msg_len) <- block_loop msg_len 64 sha256_transform digest msg msg_len ;;
  let last_chunk := repeat 0 64 in
  tail <- slice msg_buf 0 msg_len ;;
  last_chunk <- store last_chunk 0 tail ;;
  last_chunk <- store last_chunk msg_len [0x80] ;;
  '(digest, last_chunk) <-
     (if (55 <? msg_len)%nat
      then digest <- sha256_transform digest last_chunk ;; Ok (digest, repeat 0 64)
      else Ok (digest, last_chunk)) ;;
  last_chunk <- store last_chunk 56 (host_bytes 8 chunk_end) ;;
  sha256_transform digest last_chunk.

(** sha2.c:696-713 *)
Definition sha2_256 (msg : list Z) (msg_len : nat) : res (list Z) :=
  digest <- sha256_final IV256 msg msg_len 0 ;; Ok (out32 digest).

(** sha2.c:715-738 *)
Definition sha512_final (digest msg : list Z) (msg_len append_size : nat) : res (list Z) :=
  let chunk_end := htobe64 (u64 (Z.shiftl (u64 (Z.of_nat msg_len + Z.of_nat append_size)) 3)) in
  '(digest, msg_buf, msg_len) <- block_loop msg_len 128 sha512_transform digest msg msg_len ;;
  let last_chunk := repeat 0 128 in
  tail <- slice msg_buf 0 msg_len ;;
  last_chunk <- store last_chunk 0 tail ;;
  last_chunk <- store last_chunk msg_len [0x80] ;;
  '(digest, last_chunk) <-
     (if (111 <? msg_len)%nat
      then digest <- sha512_transform digest last_chunk ;; Ok (digest, repeat 0 128)
      else Ok (digest, last_chunk)) ;;
  last_chunk <- store last_chunk 120 (host_bytes 8 chunk_end) ;;
  sha512_transform digest last_chunk.

(** sha2.c:740-758 *)
Definition sha2_512 (msg : list Z) (msg_len : nat) : res (list Z) :=
  digest <- sha512_final IV512 msg msg_len 0 ;; Ok (out64 digest).

(** [buffer[i] ^ c] over an array of 64-bit words (sha2.c:782-785, 829-832) *)
Definition xor_words (c : Z) (buffer : list Z) : list Z :=
  (fix go (n : nat) (b : list Z) : list Z :=
     match n with
     | O => []
     | S n' => host_bytes 8 (Z.lxor (host_val (firstn 8 b)) c) ++ go n' (skipn 8 b)
     end) (length buffer / 8)%nat buffer.

(** sha2.c:760-803 *)
Definition hmac_sha256 (key : list Z) (key_len : nat) (msg : list Z) (msg_len : nat) : res (list Z) :=
  buffer <-
    (if (key_len <=? 64)%nat
     then k <- slice key 0 key_len ;; Ok (k ++ repeat 0 (64 - key_len))
     else k <- sha2_256 key key_len ;; Ok (k ++ repeat 0 32)) ;;
  let key_inner := xor_words 0x3636363636363636 buffer in
  let key_outter := xor_words 0x5C5C5C5C5C5C5C5C buffer in
  digest_inner <- sha256_transform IV256 key_inner ;;
  digest_inner <- sha256_final digest_inner msg msg_len 64 ;;
  let digest_inner := out32 digest_inner in
  digest_outter <- sha256_transform IV256 key_outter ;;
  digest_outter <- sha256_final digest_outter digest_inner 32 64 ;;
  Ok (out32 digest_outter).

(** sha2.c:805-849 *)
Definition hmac_sha512 (key : list Z) (key_len : nat) (msg : list Z) (msg_len : nat) : res (list Z) :=
  buffer <-
    (if (key_len <=? 128)%nat
     then k <- slice key 0 key_len ;; Ok (k ++ repeat 0 (128 - key_len))
     else k <- sha2_512 key key_len ;; Ok (k ++ repeat 0 64)) ;;
  let key_inner := xor_words 0x3636363636363636 buffer in
  let key_outter := xor_words 0x5C5C5C5C5C5C5C5C buffer in
  digest_inner <- sha512_transform IV512 key_inner ;;
  digest_inner <- sha512_final digest_inner msg msg_len 128 ;;
  let digest_inner := out64 digest_inner in
  digest_outter <- sha512_transform IV512 key_outter ;;
  digest_outter <- sha512_final digest_outter digest_inner 64 128 ;;
  Ok (out64 digest_outter).
