(** Model of src/hash/sha1.c.  As in M_Sha2, each ROUND macro call is a datum
    generated from the C text and [exec_line1] is the meaning of the macro. *)
From Verif Require Import Base M_Endian M_Sha2.

(** sha1.c:12-14 (the function-like macros used as the [f] argument), on register indices *)
Inductive fexp := F1 (b c d : nat) | F2 (b c d : nat) | F3 (b c d : nat).
(** sha1.c:12-14 *)
Definition eval_f (rs : list Z) (f : fexp) : Z :=
  let r i := nth i rs (-1000) in
  match f with
  | F1 b c d => Z.lxor (r d) (Z.land (r b) (Z.lxor (r c) (r d)))
  | F2 b c d => Z.lxor (Z.lxor (r b) (r c)) (r d)
  | F3 b c d => Z.lor (Z.land (r b) (r c)) (Z.land (r d) (Z.lor (r b) (r c)))
  end.

(** The [w] argument: [wi = be32(chunk, off)], [wi = left(x ^ y ^ ..)] or [left(x ^ y ^ ..)]. *)
(** sha1.c:32-111 *)
Inductive wexp1 := WLoad1 (i off : nat) | WSet1 (i : nat) (vs : list nat) | WVal1 (vs : list nat).
(** sha1.c:16-18, one call of ROUND *)
Inductive line1 := R1 (regs : list nat) (f : fexp) (k : Z) (w : wexp1).

(** sha1.c:21, [left] *)
Definition left1 (x : Z) : Z := ROL x 1.
(** sha1.c:48-111, the argument of [left] *)
Fixpoint xor_vars (w : list (option Z)) (vs : list nat) : res Z :=
  match vs with
  | [] => Ok 0
  | i :: vs' => x <- getw w i ;; y <- xor_vars w vs' ;; Ok (Z.lxor x y)
  end.
(** sha1.c:32-111 *)
Definition eval_wexp1 (chunk : list Z) (w : list (option Z)) (e : wexp1) : res (Z * list (option Z)) :=
  match e with
  | WLoad1 i off => v <- be32 chunk off ;; Ok (v, upd w i (Some v))
  | WSet1 i vs => x <- xor_vars w vs ;; let v := left1 x in Ok (v, upd w i (Some v))
  | WVal1 vs => x <- xor_vars w vs ;; Ok (left1 x, w)
  end.

(** sha1.c:16-18 *)
Definition exec_line1 (chunk : list Z) (st : list Z * list (option Z)) (l : line1)
  : res (list Z * list (option Z)) :=
  let '(rs, w) := st in
  let '(R1 regs f k e) := l in
  '(wv, w') <- eval_wexp1 chunk w e ;;
  match regs with
  | [a; b; c; d; e'] =>
      let r i := nth i rs (-1000) in
      let rs1 := upd rs e' (u32 (r e' + (ROL (r a) 5 + eval_f rs f + k + wv))) in
      Ok (upd rs1 b (ROL (nth b rs1 (-1000)) 30), w')
  | _ => UB
  end.
(** sha1.c:32-111, in order *)
Fixpoint exec_lines1 (chunk : list Z) (st : list Z * list (option Z)) (ls : list line1)
  : res (list Z * list (option Z)) :=
  match ls with
  | [] => Ok st
  | l :: ls' => st' <- exec_line1 chunk st l ;; exec_lines1 chunk st' ls'
  end.

(** src/hash/sha1.c:32-111, the ROUND invocations of [sha1_transform] *)
Definition sha1_lines : list line1 :=
  [ R1 [0; 1; 2; 3; 4]%nat (F1 1 2 3) 0x5A827999 (WLoad1 0 0);
    R1 [4; 0; 1; 2; 3]%nat (F1 0 1 2) 0x5A827999 (WLoad1 1 4);
    R1 [3; 4; 0; 1; 2]%nat (F1 4 0 1) 0x5A827999 (WLoad1 2 8);
    R1 [2; 3; 4; 0; 1]%nat (F1 3 4 0) 0x5A827999 (WLoad1 3 12);
    R1 [1; 2; 3; 4; 0]%nat (F1 2 3 4) 0x5A827999 (WLoad1 4 16);
    R1 [0; 1; 2; 3; 4]%nat (F1 1 2 3) 0x5A827999 (WLoad1 5 20);
    R1 [4; 0; 1; 2; 3]%nat (F1 0 1 2) 0x5A827999 (WLoad1 6 24);
    R1 [3; 4; 0; 1; 2]%nat (F1 4 0 1) 0x5A827999 (WLoad1 7 28);
    R1 [2; 3; 4; 0; 1]%nat (F1 3 4 0) 0x5A827999 (WLoad1 8 32);
    R1 [1; 2; 3; 4; 0]%nat (F1 2 3 4) 0x5A827999 (WLoad1 9 36);
    R1 [0; 1; 2; 3; 4]%nat (F1 1 2 3) 0x5A827999 (WLoad1 10 40);
    R1 [4; 0; 1; 2; 3]%nat (F1 0 1 2) 0x5A827999 (WLoad1 11 44);
    R1 [3; 4; 0; 1; 2]%nat (F1 4 0 1) 0x5A827999 (WLoad1 12 48);
    R1 [2; 3; 4; 0; 1]%nat (F1 3 4 0) 0x5A827999 (WLoad1 13 52);
    R1 [1; 2; 3; 4; 0]%nat (F1 2 3 4) 0x5A827999 (WLoad1 14 56);
    R1 [0; 1; 2; 3; 4]%nat (F1 1 2 3) 0x5A827999 (WLoad1 15 60);
    R1 [4; 0; 1; 2; 3]%nat (F1 0 1 2) 0x5A827999 (WSet1 0 [0; 13; 8; 2]%nat);
    R1 [3; 4; 0; 1; 2]%nat (F1 4 0 1) 0x5A827999 (WSet1 1 [1; 14; 9; 3]%nat);
    R1 [2; 3; 4; 0; 1]%nat (F1 3 4 0) 0x5A827999 (WSet1 2 [2; 15; 10; 4]%nat);
    R1 [1; 2; 3; 4; 0]%nat (F1 2 3 4) 0x5A827999 (WSet1 3 [3; 0; 11; 5]%nat);
    R1 [0; 1; 2; 3; 4]%nat (F2 1 2 3) 0x6ED9EBA1 (WSet1 4 [4; 1; 12; 6]%nat);
    R1 [4; 0; 1; 2; 3]%nat (F2 0 1 2) 0x6ED9EBA1 (WSet1 5 [5; 2; 13; 7]%nat);
    R1 [3; 4; 0; 1; 2]%nat (F2 4 0 1) 0x6ED9EBA1 (WSet1 6 [6; 3; 14; 8]%nat);
    R1 [2; 3; 4; 0; 1]%nat (F2 3 4 0) 0x6ED9EBA1 (WSet1 7 [7; 4; 15; 9]%nat);
    R1 [1; 2; 3; 4; 0]%nat (F2 2 3 4) 0x6ED9EBA1 (WSet1 8 [8; 5; 0; 10]%nat);
    R1 [0; 1; 2; 3; 4]%nat (F2 1 2 3) 0x6ED9EBA1 (WSet1 9 [9; 6; 1; 11]%nat);
    R1 [4; 0; 1; 2; 3]%nat (F2 0 1 2) 0x6ED9EBA1 (WSet1 10 [10; 7; 2; 12]%nat);
    R1 [3; 4; 0; 1; 2]%nat (F2 4 0 1) 0x6ED9EBA1 (WSet1 11 [11; 8; 3; 13]%nat);
    R1 [2; 3; 4; 0; 1]%nat (F2 3 4 0) 0x6ED9EBA1 (WSet1 12 [12; 9; 4; 14]%nat);
    R1 [1; 2; 3; 4; 0]%nat (F2 2 3 4) 0x6ED9EBA1 (WSet1 13 [13; 10; 5; 15]%nat);
    R1 [0; 1; 2; 3; 4]%nat (F2 1 2 3) 0x6ED9EBA1 (WSet1 14 [14; 11; 6; 0]%nat);
    R1 [4; 0; 1; 2; 3]%nat (F2 0 1 2) 0x6ED9EBA1 (WSet1 15 [15; 12; 7; 1]%nat);
    R1 [3; 4; 0; 1; 2]%nat (F2 4 0 1) 0x6ED9EBA1 (WSet1 0 [0; 13; 8; 2]%nat);
    R1 [2; 3; 4; 0; 1]%nat (F2 3 4 0) 0x6ED9EBA1 (WSet1 1 [1; 14; 9; 3]%nat);
    R1 [1; 2; 3; 4; 0]%nat (F2 2 3 4) 0x6ED9EBA1 (WSet1 2 [2; 15; 10; 4]%nat);
    R1 [0; 1; 2; 3; 4]%nat (F2 1 2 3) 0x6ED9EBA1 (WSet1 3 [3; 0; 11; 5]%nat);
    R1 [4; 0; 1; 2; 3]%nat (F2 0 1 2) 0x6ED9EBA1 (WSet1 4 [4; 1; 12; 6]%nat);
    R1 [3; 4; 0; 1; 2]%nat (F2 4 0 1) 0x6ED9EBA1 (WSet1 5 [5; 2; 13; 7]%nat);
    R1 [2; 3; 4; 0; 1]%nat (F2 3 4 0) 0x6ED9EBA1 (WSet1 6 [6; 3; 14; 8]%nat);
    R1 [1; 2; 3; 4; 0]%nat (F2 2 3 4) 0x6ED9EBA1 (WSet1 7 [7; 4; 15; 9]%nat);
    R1 [0; 1; 2; 3; 4]%nat (F3 1 2 3) 0x8F1BBCDC (WSet1 8 [8; 5; 0; 10]%nat);
    R1 [4; 0; 1; 2; 3]%nat (F3 0 1 2) 0x8F1BBCDC (WSet1 9 [9; 6; 1; 11]%nat);
    R1 [3; 4; 0; 1; 2]%nat (F3 4 0 1) 0x8F1BBCDC (WSet1 10 [10; 7; 2; 12]%nat);
    R1 [2; 3; 4; 0; 1]%nat (F3 3 4 0) 0x8F1BBCDC (WSet1 11 [11; 8; 3; 13]%nat);
    R1 [1; 2; 3; 4; 0]%nat (F3 2 3 4) 0x8F1BBCDC (WSet1 12 [12; 9; 4; 14]%nat);
    R1 [0; 1; 2; 3; 4]%nat (F3 1 2 3) 0x8F1BBCDC (WSet1 13 [13; 10; 5; 15]%nat);
    R1 [4; 0; 1; 2; 3]%nat (F3 0 1 2) 0x8F1BBCDC (WSet1 14 [14; 11; 6; 0]%nat);
    R1 [3; 4; 0; 1; 2]%nat (F3 4 0 1) 0x8F1BBCDC (WSet1 15 [15; 12; 7; 1]%nat);
    R1 [2; 3; 4; 0; 1]%nat (F3 3 4 0) 0x8F1BBCDC (WSet1 0 [0; 13; 8; 2]%nat);
    R1 [1; 2; 3; 4; 0]%nat (F3 2 3 4) 0x8F1BBCDC (WSet1 1 [1; 14; 9; 3]%nat);
    R1 [0; 1; 2; 3; 4]%nat (F3 1 2 3) 0x8F1BBCDC (WSet1 2 [2; 15; 10; 4]%nat);
    R1 [4; 0; 1; 2; 3]%nat (F3 0 1 2) 0x8F1BBCDC (WSet1 3 [3; 0; 11; 5]%nat);
    R1 [3; 4; 0; 1; 2]%nat (F3 4 0 1) 0x8F1BBCDC (WSet1 4 [4; 1; 12; 6]%nat);
    R1 [2; 3; 4; 0; 1]%nat (F3 3 4 0) 0x8F1BBCDC (WSet1 5 [5; 2; 13; 7]%nat);
    R1 [1; 2; 3; 4; 0]%nat (F3 2 3 4) 0x8F1BBCDC (WSet1 6 [6; 3; 14; 8]%nat);
    R1 [0; 1; 2; 3; 4]%nat (F3 1 2 3) 0x8F1BBCDC (WSet1 7 [7; 4; 15; 9]%nat);
    R1 [4; 0; 1; 2; 3]%nat (F3 0 1 2) 0x8F1BBCDC (WSet1 8 [8; 5; 0; 10]%nat);
    R1 [3; 4; 0; 1; 2]%nat (F3 4 0 1) 0x8F1BBCDC (WSet1 9 [9; 6; 1; 11]%nat);
    R1 [2; 3; 4; 0; 1]%nat (F3 3 4 0) 0x8F1BBCDC (WSet1 10 [10; 7; 2; 12]%nat);
    R1 [1; 2; 3; 4; 0]%nat (F3 2 3 4) 0x8F1BBCDC (WSet1 11 [11; 8; 3; 13]%nat);
    R1 [0; 1; 2; 3; 4]%nat (F2 1 2 3) 0xCA62C1D6 (WSet1 12 [12; 9; 4; 14]%nat);
    R1 [4; 0; 1; 2; 3]%nat (F2 0 1 2) 0xCA62C1D6 (WSet1 13 [13; 10; 5; 15]%nat);
    R1 [3; 4; 0; 1; 2]%nat (F2 4 0 1) 0xCA62C1D6 (WSet1 14 [14; 11; 6; 0]%nat);
    R1 [2; 3; 4; 0; 1]%nat (F2 3 4 0) 0xCA62C1D6 (WSet1 15 [15; 12; 7; 1]%nat);
    R1 [1; 2; 3; 4; 0]%nat (F2 2 3 4) 0xCA62C1D6 (WSet1 0 [0; 13; 8; 2]%nat);
    R1 [0; 1; 2; 3; 4]%nat (F2 1 2 3) 0xCA62C1D6 (WSet1 1 [1; 14; 9; 3]%nat);
    R1 [4; 0; 1; 2; 3]%nat (F2 0 1 2) 0xCA62C1D6 (WSet1 2 [2; 15; 10; 4]%nat);
    R1 [3; 4; 0; 1; 2]%nat (F2 4 0 1) 0xCA62C1D6 (WSet1 3 [3; 0; 11; 5]%nat);
    R1 [2; 3; 4; 0; 1]%nat (F2 3 4 0) 0xCA62C1D6 (WSet1 4 [4; 1; 12; 6]%nat);
    R1 [1; 2; 3; 4; 0]%nat (F2 2 3 4) 0xCA62C1D6 (WSet1 5 [5; 2; 13; 7]%nat);
    R1 [0; 1; 2; 3; 4]%nat (F2 1 2 3) 0xCA62C1D6 (WSet1 6 [6; 3; 14; 8]%nat);
    R1 [4; 0; 1; 2; 3]%nat (F2 0 1 2) 0xCA62C1D6 (WSet1 7 [7; 4; 15; 9]%nat);
    R1 [3; 4; 0; 1; 2]%nat (F2 4 0 1) 0xCA62C1D6 (WSet1 8 [8; 5; 0; 10]%nat);
    R1 [2; 3; 4; 0; 1]%nat (F2 3 4 0) 0xCA62C1D6 (WSet1 9 [9; 6; 1; 11]%nat);
    R1 [1; 2; 3; 4; 0]%nat (F2 2 3 4) 0xCA62C1D6 (WSet1 10 [10; 7; 2; 12]%nat);
    R1 [0; 1; 2; 3; 4]%nat (F2 1 2 3) 0xCA62C1D6 (WSet1 11 [11; 8; 3; 13]%nat);
    R1 [4; 0; 1; 2; 3]%nat (F2 0 1 2) 0xCA62C1D6 (WSet1 12 [12; 9; 4; 14]%nat);
    R1 [3; 4; 0; 1; 2]%nat (F2 4 0 1) 0xCA62C1D6 (WVal1 [13; 10; 5; 15]%nat);
    R1 [2; 3; 4; 0; 1]%nat (F2 3 4 0) 0xCA62C1D6 (WVal1 [14; 11; 6; 0]%nat);
    R1 [1; 2; 3; 4; 0]%nat (F2 2 3 4) 0xCA62C1D6 (WVal1 [15; 12; 7; 1]%nat) ].


(** sha1.c:23-118 *)
Definition sha1_transform (s chunk : list Z) : res (list Z) :=
  '(rs, _) <- exec_lines1 chunk (s, w_uninit) sha1_lines ;; Ok (add_regs u32 s rs).

(** sha1.c:122-123 *)
Definition IV1 : list Z := [0x67452301; 0xEFCDAB89; 0x98BADCFE; 0x10325476; 0xC3D2E1F0].

(** sha1.c:120-152; the result is the 20 bytes stored through [hash] *)
Definition sha1 (msg : list Z) (msg_len : nat) : res (list Z) :=
  let chunk_end := htobe64 (u64 (Z.shiftl (u64 (Z.of_nat msg_len)) 3)) in
  '(digest, msg_buf, msg_len) <- block_loop msg_len 64 sha1_transform IV1 msg msg_len ;;
  let last_chunk := repeat 0 64 in
  tail <- slice msg_buf 0 msg_len ;;
  last_chunk <- store last_chunk 0 tail ;;
  last_chunk <- store last_chunk msg_len [0x80] ;;
  '(digest, last_chunk) <-
     (if (55 <? msg_len)%nat
      then digest <- sha1_transform digest last_chunk ;; Ok (digest, repeat 0 64)
      else Ok (digest, last_chunk)) ;;
  last_chunk <- store last_chunk 56 (host_bytes 8 chunk_end) ;;
  digest <- sha1_transform digest last_chunk ;;
  Ok (out32 digest).
