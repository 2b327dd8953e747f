(** Model of src/base32.c and include/fingera_libc/base32.h. *)
From Verif Require Import Base.

(** src/base32.c:5 (terminating NUL omitted) *)
Definition BASE32_ENCODE : list Z :=
  [ 97; 98; 99; 100; 101; 102; 103; 104; 105; 106; 107; 108; 109; 110; 111; 112;
    113; 114; 115; 116; 117; 118; 119; 120; 121; 122; 50; 51; 52; 53; 54; 55 ].
(** src/base32.c:6-8 *)
Definition BASE32_ENCODE_RAW : list Z :=
  [ 0; 1; 2; 3; 4; 5; 6; 7; 8; 9; 10; 11; 12; 13; 14; 15;
    16; 17; 18; 19; 20; 21; 22; 23; 24; 25; 26; 27; 28; 29; 30; 31 ].
(** src/base32.c:9-31 *)
Definition BASE32_DECODE : list Z :=
  [ 255; 255; 255; 255; 255; 255; 255; 255; 255; 255; 255; 255; 255; 255; 255; 255;
    255; 255; 255; 255; 255; 255; 255; 255; 255; 255; 255; 255; 255; 255; 255; 255;
    255; 255; 255; 255; 255; 255; 255; 255; 255; 255; 255; 255; 255; 255; 255; 255;
    255; 255; 26; 27; 28; 29; 30; 31; 255; 255; 255; 255; 255; 255; 255; 255;
    255; 0; 1; 2; 3; 4; 5; 6; 7; 8; 9; 10; 11; 12; 13; 14;
    15; 16; 17; 18; 19; 20; 21; 22; 23; 24; 25; 255; 255; 255; 255; 255;
    255; 0; 1; 2; 3; 4; 5; 6; 7; 8; 9; 10; 11; 12; 13; 14;
    15; 16; 17; 18; 19; 20; 21; 22; 23; 24; 25; 255; 255; 255; 255; 255;
    255; 255; 255; 255; 255; 255; 255; 255; 255; 255; 255; 255; 255; 255; 255; 255;
    255; 255; 255; 255; 255; 255; 255; 255; 255; 255; 255; 255; 255; 255; 255; 255;
    255; 255; 255; 255; 255; 255; 255; 255; 255; 255; 255; 255; 255; 255; 255; 255;
    255; 255; 255; 255; 255; 255; 255; 255; 255; 255; 255; 255; 255; 255; 255; 255;
    255; 255; 255; 255; 255; 255; 255; 255; 255; 255; 255; 255; 255; 255; 255; 255;
    255; 255; 255; 255; 255; 255; 255; 255; 255; 255; 255; 255; 255; 255; 255; 255;
    255; 255; 255; 255; 255; 255; 255; 255; 255; 255; 255; 255; 255; 255; 255; 255;
    255; 255; 255; 255; 255; 255; 255; 255; 255; 255; 255; 255; 255; 255; 255; 255 ].
(** src/base32.c:33-55 *)
Definition BASE32_DECODE_RAW : list Z :=
  [ 0; 1; 2; 3; 4; 5; 6; 7; 8; 9; 10; 11; 12; 13; 14; 15;
    16; 17; 18; 19; 20; 21; 22; 23; 24; 25; 26; 27; 28; 29; 30; 31;
    255; 255; 255; 255; 255; 255; 255; 255; 255; 255; 255; 255; 255; 255; 255; 255;
    255; 255; 255; 255; 255; 255; 255; 255; 255; 255; 255; 255; 255; 255; 255; 255;
    255; 255; 255; 255; 255; 255; 255; 255; 255; 255; 255; 255; 255; 255; 255; 255;
    255; 255; 255; 255; 255; 255; 255; 255; 255; 255; 255; 255; 255; 255; 255; 255;
    255; 255; 255; 255; 255; 255; 255; 255; 255; 255; 255; 255; 255; 255; 255; 255;
    255; 255; 255; 255; 255; 255; 255; 255; 255; 255; 255; 255; 255; 255; 255; 255;
    255; 255; 255; 255; 255; 255; 255; 255; 255; 255; 255; 255; 255; 255; 255; 255;
    255; 255; 255; 255; 255; 255; 255; 255; 255; 255; 255; 255; 255; 255; 255; 255;
    255; 255; 255; 255; 255; 255; 255; 255; 255; 255; 255; 255; 255; 255; 255; 255;
    255; 255; 255; 255; 255; 255; 255; 255; 255; 255; 255; 255; 255; 255; 255; 255;
    255; 255; 255; 255; 255; 255; 255; 255; 255; 255; 255; 255; 255; 255; 255; 255;
    255; 255; 255; 255; 255; 255; 255; 255; 255; 255; 255; 255; 255; 255; 255; 255;
    255; 255; 255; 255; 255; 255; 255; 255; 255; 255; 255; 255; 255; 255; 255; 255;
    255; 255; 255; 255; 255; 255; 255; 255; 255; 255; 255; 255; 255; 255; 255; 255 ].
(** src/base32.c:63 *)
Definition TAIL_TO_BYTES : list Z := [ 0; 0; 1; 0; 2; 3; 0; 4 ].

(** src/base32.c:70 and 211 *)
Definition b32_encode_str (is_raw : bool) : list Z := if is_raw then BASE32_ENCODE_RAW else BASE32_ENCODE.
(** src/base32.c:211 *)
Definition b32_decode_str (is_raw : bool) : list Z := if is_raw then BASE32_DECODE_RAW else BASE32_DECODE.

(** src/base32.c:73-92 (loop over whole 5-byte groups: the recursion) and 94-175 (the
    switch on [tail_len = buf_size % 5]: the other patterns), characters written from [out] on. *)
Fixpoint to_base32_chars (buf : list Z) (is_raw : bool) : list Z :=
  match buf with
  | i0 :: i1 :: i2 :: i3 :: i4 :: rest =>
      let byte1 := u8 (Z.shiftr i0 3) in
      let byte2 := u8 (Z.lor (Z.shiftl (Z.land i0 7) 2) (Z.shiftr i1 6)) in
      let byte3 := u8 (Z.land (Z.shiftr i1 1) 31) in
      let byte4 := u8 (Z.lor (Z.shiftl (Z.land i1 1) 4) (Z.shiftr i2 4)) in
      let byte5 := u8 (Z.lor (Z.shiftl (Z.land i2 15) 1) (Z.shiftr i3 7)) in
      let byte6 := u8 (Z.land (Z.shiftr i3 2) 31) in
      let byte7 := u8 (Z.lor (Z.shiftl (Z.land i3 3) 3) (Z.land (Z.shiftr i4 5) 7)) in
      let byte8 := u8 (Z.land i4 31) in
      tget (b32_encode_str is_raw) byte1
      :: tget (b32_encode_str is_raw) byte2
      :: tget (b32_encode_str is_raw) byte3
      :: tget (b32_encode_str is_raw) byte4
      :: tget (b32_encode_str is_raw) byte5
      :: tget (b32_encode_str is_raw) byte6
      :: tget (b32_encode_str is_raw) byte7
      :: tget (b32_encode_str is_raw) byte8
      :: to_base32_chars rest is_raw
  | [i0; i1; i2; i3] =>
      let byte1 := u8 (Z.shiftr i0 3) in
      let byte2 := u8 (Z.lor (Z.shiftl (Z.land i0 7) 2) (Z.shiftr i1 6)) in
      let byte3 := u8 (Z.land (Z.shiftr i1 1) 31) in
      let byte4 := u8 (Z.lor (Z.shiftl (Z.land i1 1) 4) (Z.shiftr i2 4)) in
      let byte5 := u8 (Z.lor (Z.shiftl (Z.land i2 15) 1) (Z.shiftr i3 7)) in
      let byte6 := u8 (Z.land (Z.shiftr i3 2) 31) in
      let byte7 := u8 (Z.shiftl (Z.land i3 3) 3) in
      tget (b32_encode_str is_raw) byte1
      :: tget (b32_encode_str is_raw) byte2
      :: tget (b32_encode_str is_raw) byte3
      :: tget (b32_encode_str is_raw) byte4
      :: tget (b32_encode_str is_raw) byte5
      :: tget (b32_encode_str is_raw) byte6
      :: tget (b32_encode_str is_raw) byte7
      :: (if negb is_raw then [61] else [])
  | [i0; i1; i2] =>
      let byte1 := u8 (Z.shiftr i0 3) in
      let byte2 := u8 (Z.lor (Z.shiftl (Z.land i0 7) 2) (Z.shiftr i1 6)) in
      let byte3 := u8 (Z.land (Z.shiftr i1 1) 31) in
      let byte4 := u8 (Z.lor (Z.shiftl (Z.land i1 1) 4) (Z.shiftr i2 4)) in
      let byte5 := u8 (Z.shiftl (Z.land i2 15) 1) in
      tget (b32_encode_str is_raw) byte1
      :: tget (b32_encode_str is_raw) byte2
      :: tget (b32_encode_str is_raw) byte3
      :: tget (b32_encode_str is_raw) byte4
      :: tget (b32_encode_str is_raw) byte5
      :: (if negb is_raw then [61; 61; 61] else [])
  | [i0; i1] =>
      let byte1 := u8 (Z.shiftr i0 3) in
      let byte2 := u8 (Z.lor (Z.shiftl (Z.land i0 7) 2) (Z.shiftr i1 6)) in
      let byte3 := u8 (Z.land (Z.shiftr i1 1) 31) in
      let byte4 := u8 (Z.shiftl (Z.land i1 1) 4) in
      tget (b32_encode_str is_raw) byte1
      :: tget (b32_encode_str is_raw) byte2
      :: tget (b32_encode_str is_raw) byte3
      :: tget (b32_encode_str is_raw) byte4
      :: (if negb is_raw then [61; 61; 61; 61] else [])
  | [i0] =>
      let byte1 := u8 (Z.shiftr i0 3) in
      let byte2 := u8 (Z.shiftl (Z.land i0 7) 2) in
      tget (b32_encode_str is_raw) byte1
      :: tget (b32_encode_str is_raw) byte2
      :: (if negb is_raw then [61; 61; 61; 61; 61; 61] else [])
  | [] => []
  end.

(** src/base32.c:93-176, the returned [size]. *)
Definition to_base32_size (buf_size : nat) (is_raw : bool) : nat :=
  let tail_len := (buf_size mod 5)%nat in
  let loop_size := (buf_size - tail_len)%nat in
  let size := (loop_size / 5 * 8)%nat in
  match tail_len with
  | 1%nat => if negb is_raw then (size + 8)%nat else (size + 2)%nat
  | 2%nat => if negb is_raw then (size + 8)%nat else (size + 4)%nat
  | 3%nat => if negb is_raw then (size + 8)%nat else (size + 5)%nat
  | 4%nat => if negb is_raw then (size + 8)%nat else (size + 7)%nat
  | _ => size
  end.

(** src/base32.c:179-181 [fingera_to_base32] *)
Definition to_base32 (buf : list Z) : list Z := to_base32_chars buf false.
(** src/base32.c:183-185 [fingera_to_base32_raw]: returned size and bytes written *)
Definition to_base32_raw (buf : list Z) : nat * list Z :=
  (to_base32_size (length buf) true, to_base32_chars buf true).

(** [strchr(str, c)] for c <> 0 on the memory readable from [str] on: the index of the first [c]
    before the first NUL; running off the readable memory is undefined. *)
(** src/base32.c:188 (the C library function) *)
Fixpoint strchr (c : Z) (mem : list Z) : res (option nat) :=
  match mem with
  | [] => UB
  | x :: r =>
      if x =? c then Ok (Some 0%nat)
      else if x =? 0 then Ok None
      else o <- strchr c r ;; Ok (option_map S o)
  end.

(** src/base32.c:187-191 [base32_strlen] *)
Definition base32_strlen (str : list Z) (str_len : nat) : res nat :=
  str_end <- strchr 61 str ;;
  match str_end with None => Ok str_len | Some i => Ok i end.

(** src/base32.c:199-202 [fingera_from_base32_raw_length] *)
Definition from_base32_raw_length (new_len : nat) : nat :=
  let size := (new_len / 8 * 5)%nat in
  (size + Z.to_nat (tget TAIL_TO_BYTES (Z.of_nat (new_len mod 8))))%nat.

(** src/base32.c:193-197 [fingera_from_base32_length] *)
Definition from_base32_length (str : list Z) (str_len : nat) : res nat :=
  new_len <- base32_strlen str str_len ;;
  let size := (new_len / 8 * 5)%nat in
  Ok (size + Z.to_nat (tget TAIL_TO_BYTES (Z.of_nat (new_len mod 8))))%nat.

(** [decode_string[p[i]]]: [p] points to (signed) char, so a byte of 128 or more is a negative
    index: undefined. *)
(** src/base32.c:213-220, 235-249 *)
Definition dec_char (dec mem : list Z) (i : nat) : res Z :=
  c <- rd mem i ;; tget_ub dec (as_char c).

(** src/base32.c:226-230: the five bytes of a block *)
Definition b32_o0 (byte1 byte2 : Z) : Z := u8 (Z.lor (Z.shiftl byte1 3) (Z.shiftr byte2 2)).
(** src/base32.c:227 *)
Definition b32_o1 (byte2 byte3 byte4 : Z) : Z :=
  u8 (Z.lor (Z.lor (Z.shiftl byte2 6) (Z.shiftl byte3 1)) (Z.shiftr byte4 4)).
(** src/base32.c:228 *)
Definition b32_o2 (byte4 byte5 : Z) : Z := u8 (Z.lor (Z.shiftl byte4 4) (Z.shiftr byte5 1)).
(** src/base32.c:229 *)
Definition b32_o3 (byte5 byte6 byte7 : Z) : Z :=
  u8 (Z.lor (Z.lor (Z.shiftl byte5 7) (Z.shiftl byte6 2)) (Z.shiftr byte7 3)).
(** src/base32.c:230 *)
Definition b32_o4 (byte7 byte8 : Z) : Z := u8 (Z.lor (Z.shiftl byte7 5) byte8).

(** src/base32.c:233-252, the tail; [tail_str] is the readable memory from [tail_str] on. *)
Definition from_base32_tail (tail : nat) (tail_str dec : list Z) : res (list Z) :=
  let tail_bytes := u8 (tget TAIL_TO_BYTES (Z.of_nat tail)) in
  if 0 <? tail_bytes then
    byte1 <- dec_char dec tail_str 0 ;;
    byte2 <- dec_char dec tail_str 1 ;;
    let o0 := b32_o0 byte1 byte2 in
    if 1 <? tail_bytes then
      byte3 <- dec_char dec tail_str 2 ;;
      byte4 <- dec_char dec tail_str 3 ;;
      let o1 := b32_o1 byte2 byte3 byte4 in
      if 2 <? tail_bytes then
        byte5 <- dec_char dec tail_str 4 ;;
        let o2 := b32_o2 byte4 byte5 in
        if 3 <? tail_bytes then
          byte6 <- dec_char dec tail_str 5 ;;
          byte7 <- dec_char dec tail_str 6 ;;
          let o3 := b32_o3 byte5 byte6 byte7 in
          Ok [o0; o1; o2; o3]
        else Ok [o0; o1; o2]
      else Ok [o0; o1]
    else Ok [o0]
  else Ok [].

(** src/base32.c:212-253, the loop ([blocks] blocks remain, [str] is the readable memory from the
    current block on) followed by the tail: the bytes written from [out] on. *)
Fixpoint from_base32_blocks (blocks tail : nat) (str dec : list Z) : res (list Z) :=
  match blocks with
  | O => from_base32_tail tail str dec
  | S blocks' =>
      byte1 <- dec_char dec str 0 ;;
      byte2 <- dec_char dec str 1 ;;
      byte3 <- dec_char dec str 2 ;;
      byte4 <- dec_char dec str 3 ;;
      byte5 <- dec_char dec str 4 ;;
      byte6 <- dec_char dec str 5 ;;
      byte7 <- dec_char dec str 6 ;;
      byte8 <- dec_char dec str 7 ;;
      if (byte1 =? 255) || (byte2 =? 255) || (byte3 =? 255) || (byte4 =? 255)
         || (byte5 =? 255) || (byte6 =? 255) || (byte7 =? 255) || (byte8 =? 255)
      then Ok []
      else
        out <- from_base32_blocks blocks' tail (skipn 8 str) dec ;;
        Ok (b32_o0 byte1 byte2 :: b32_o1 byte2 byte3 byte4 :: b32_o2 byte4 byte5
            :: b32_o3 byte5 byte6 byte7 :: b32_o4 byte7 byte8 :: out)
  end.

(** src/base32.c:204-254 [_fingera_from_base32]: return value and bytes written. *)
Definition from_base32_ (str : list Z) (str_len : nat) (is_raw : bool) : res (nat * list Z) :=
  new_len <- base32_strlen str str_len ;;
  out <- from_base32_blocks (new_len / 8) (new_len mod 8) str (b32_decode_str is_raw) ;;
  Ok (length out, out).

(** src/base32.c:256-258 [fingera_from_base32] *)
Definition from_base32 (str : list Z) (str_len : nat) : res (nat * list Z) := from_base32_ str str_len false.
(** src/base32.c:260-262 [fingera_from_base32_raw] *)
Definition from_base32_raw (str : list Z) (str_len : nat) : res (nat * list Z) := from_base32_ str str_len true.

(** include/fingera_libc/base32.h:23-25 [fingera_to_base32_length] *)
Definition to_base32_length (buf_size : nat) : nat := ((buf_size + 4) / 5 * 8)%nat.
