(** Model of src/base58.c and include/fingera_libc/base58.h. *)
From Verif Require Import Base.

(** src/base58.c:10-11 (terminating NUL omitted) *)
Definition BASE58_ENCODE : list Z :=
[ 49; 50; 51; 52; 53; 54; 55; 56; 57; 65; 66; 67; 68; 69; 70; 71;
    72; 74; 75; 76; 77; 78; 80; 81; 82; 83; 84; 85; 86; 87; 88; 89;
    90; 97; 98; 99; 100; 101; 102; 103; 104; 105; 106; 107; 109; 110; 111; 112;
    113; 114; 115; 116; 117; 118; 119; 120; 121; 122 ].
(** src/base58.c:12-27 *)
Definition BASE58_DECODE : list Z :=
[ (-1); (-1); (-1); (-1); (-1); (-1); (-1); (-1); (-1); (-1); (-1); (-1); (-1); (-1); (-1); (-1);
    -1; (-1); (-1); (-1); (-1); (-1); (-1); (-1); (-1); (-1); (-1); (-1); (-1); (-1); (-1); (-1);
    -1; (-1); (-1); (-1); (-1); (-1); (-1); (-1); (-1); (-1); (-1); (-1); (-1); (-1); (-1); (-1);
    -1; 0; 1; 2; 3; 4; 5; 6; 7; 8; (-1); (-1); (-1); (-1); (-1); (-1);
    -1; 9; 10; 11; 12; 13; 14; 15; 16; (-1); 17; 18; 19; 20; 21; (-1);
    22; 23; 24; 25; 26; 27; 28; 29; 30; 31; 32; (-1); (-1); (-1); (-1); (-1);
    -1; 33; 34; 35; 36; 37; 38; 39; 40; 41; 42; 43; (-1); 44; 45; 46;
    47; 48; 49; 50; 51; 52; 53; 54; 55; 56; 57; (-1); (-1); (-1); (-1); (-1);
    -1; (-1); (-1); (-1); (-1); (-1); (-1); (-1); (-1); (-1); (-1); (-1); (-1); (-1); (-1); (-1);
    -1; (-1); (-1); (-1); (-1); (-1); (-1); (-1); (-1); (-1); (-1); (-1); (-1); (-1); (-1); (-1);
    -1; (-1); (-1); (-1); (-1); (-1); (-1); (-1); (-1); (-1); (-1); (-1); (-1); (-1); (-1); (-1);
    -1; (-1); (-1); (-1); (-1); (-1); (-1); (-1); (-1); (-1); (-1); (-1); (-1); (-1); (-1); (-1);
    -1; (-1); (-1); (-1); (-1); (-1); (-1); (-1); (-1); (-1); (-1); (-1); (-1); (-1); (-1); (-1);
    -1; (-1); (-1); (-1); (-1); (-1); (-1); (-1); (-1); (-1); (-1); (-1); (-1); (-1); (-1); (-1);
    -1; (-1); (-1); (-1); (-1); (-1); (-1); (-1); (-1); (-1); (-1); (-1); (-1); (-1); (-1); (-1);
    -1; (-1); (-1); (-1); (-1); (-1); (-1); (-1); (-1); (-1); (-1); (-1); (-1); (-1); (-1); (-1) ].

(** src/base58.c:48-53 (with [mul] 256, [base] 58) and 99-104 (with [mul] 58, [base] 256): the
    inner loop.  The list is the scratch area from its last byte down ([it] counts down), so the
    least significant digit comes first; [i] and [length] as in the code.  Result: carry, [i],
    scratch area. Carries stay below 65536, so int arithmetic is exact. *)
Fixpoint carry_loop (mul base carry : Z) (i len : nat) (b : list Z) : Z * nat * list Z :=
  match b with
  | [] => (carry, i, [])
  | d :: b' =>
      if negb (carry =? 0) || (i <? len)%nat then
        let c := carry + mul * d in
        let '(carry', i', b'') := carry_loop mul base (c / base) (S i) len b' in
        (carry', i', c mod base :: b'')
      else (carry, i, b)
  end.

(** src/base58.c:34-37: skip and count leading zero bytes. *)
Fixpoint skip_zeroes (buf : list Z) : nat * list Z :=
  match buf with
  | [] => (O, [])
  | x :: r => if x =? 0 then let '(z, b) := skip_zeroes r in (S z, b) else (O, buf)
  end.

(** src/base58.c:45-57: the loop over the remaining bytes. *)
Fixpoint to_base58_loop (buf : list Z) (len : nat) (b58 : list Z) : res (nat * list Z) :=
  match buf with
  | [] => Ok (len, b58)
  | x :: r =>
      let '(carry, i, b58') := carry_loop 256 58 x 0 len b58 in
      _ <- c_assert (carry =? 0) ;;
      to_base58_loop r i b58'
  end.

(** src/base58.c:60-61 and 116-117: drop leading zero digits of the [length] last digits of the
    scratch area. *)
Definition result_digits (len : nat) (b : list Z) : list Z := snd (skip_zeroes (rev (firstn len b))).

(** src/base58.c:29-71 [fingera_to_base58]: return value and characters written.
    Simplification: [(int)size] for a size above INT_MAX is treated as undefined (it is a
    negative number, after which the loop of line 48 does nothing); malloc is assumed to succeed. *)
Definition to_base58 (buf : list Z) : res (nat * list Z) :=
  let '(zeroes, rest) := skip_zeroes buf in
  let size := (length rest * 138 / 100 + 1)%nat in
  _ <- c_defined (Z.of_nat size <=? INT_MAX) ;;
  '(len, b58) <- to_base58_loop rest 0 (repeat 0 size) ;;
  let iter := result_digits len b58 in
  let out := repeat 49 zeroes ++ map (tget BASE58_ENCODE) iter in
  Ok (length out, out).

(** [isspace(c)], C locale, for a (signed) char: a negative argument is undefined. *)
(** src/base58.c:76,90,110 (the C library function) *)
Definition isspace (c : Z) : res bool :=
  if as_char c <? 0 then UB else Ok ((c =? 32) || ((9 <=? c) && (c <=? 13))).

(** src/base58.c:76-78: skip leading spaces; the count and the memory from there on. *)
Fixpoint skip_leading_spaces (str : list Z) : res (nat * list Z) :=
  match str with
  | [] => UB
  | c :: r =>
      if c =? 0 then Ok (O, str)
      else
        s <- isspace c ;;
        if s then '(n, m) <- skip_leading_spaces r ;; Ok (S n, m) else Ok (O, str)
  end.

(** src/base58.c:81-84: skip and count leading '1's. *)
Fixpoint skip_ones (str : list Z) : res (nat * list Z) :=
  match str with
  | [] => UB
  | c :: r => if c =? 49 then '(n, m) <- skip_ones r ;; Ok (S n, m) else Ok (O, str)
  end.

(** [(int)x] for a ptrdiff_t [x] (gcc: modulo 2^32). *)
(** src/base58.c:86 *)
Definition to_int (x : Z) : Z := (x + 2 ^ 31) mod 2 ^ 32 - 2 ^ 31.

(** src/base58.c:90-108: the decoding loop; [None]: an invalid character (return 0 at line 96);
    otherwise [length], the scratch area and the memory from the stopping point on. *)
Fixpoint from_base58_loop (str : list Z) (len : nat) (b256 : list Z) : res (option (nat * list Z * list Z)) :=
  match str with
  | [] => UB
  | c :: r =>
      if c =? 0 then Ok (Some (len, b256, str))
      else
        s <- isspace c ;;
        if s then Ok (Some (len, b256, str))
        else
          let carry := tget BASE58_DECODE c in
          if carry =? -1 then Ok None
          else
            let '(carry', i, b256') := carry_loop 58 256 carry 0 len b256 in
            _ <- c_assert (carry' =? 0) ;;
            from_base58_loop r i b256'
  end.

(** src/base58.c:110: skip trailing spaces. *)
Fixpoint skip_trailing_spaces (str : list Z) : res (list Z) :=
  match str with
  | [] => UB
  | c :: r => s <- isspace c ;; if s then skip_trailing_spaces r else Ok str
  end.

(** src/base58.c:73-126 [fingera_from_base58]: return value and bytes written.
    [str] is the readable memory from the pointer on.  A negative [size] (line 86) makes
    the stack-or-heap test of DECLARE_BUFFER (include/fingera_libc/sl/buffer.h:12-23) ask malloc for an
    absurd size and the memset of line 88 write to the null result: undefined. *)
Definition from_base58 (str : list Z) (str_len : nat) : res (nat * list Z) :=
  '(spaces, s1) <- skip_leading_spaces str ;;
  '(zeroes, s2) <- skip_ones s1 ;;
  let product := to_int (Z.of_nat str_len - Z.of_nat spaces - Z.of_nat zeroes) * 733 in
  _ <- c_defined ((- 2 ^ 31 <=? product) && (product <=? INT_MAX)) ;;
  let size := Z.quot product 1000 + 1 in
  _ <- c_defined (0 <=? size) ;;
  o <- from_base58_loop s2 0 (repeat 0 (Z.to_nat size)) ;;
  match o with
  | None => Ok (O, [])
  | Some (len, b256, s3) =>
      s4 <- skip_trailing_spaces s3 ;;
      c <- rd s4 0 ;;
      if negb (c =? 0) then Ok (O, [])
      else
        let out := repeat 0 zeroes ++ result_digits len b256 in
        Ok (length out, out)
  end.

(** include/fingera_libc/base58.h:24-26 [fingera_to_base58_length] *)
Definition to_base58_length (buf_size : nat) : nat := (buf_size * 138 / 100 + 2)%nat.
(** include/fingera_libc/base58.h:35-37 [fingera_from_base58_length] *)
Definition from_base58_length (str_len : nat) : nat := (str_len * 733 / 1000 + 2)%nat.
