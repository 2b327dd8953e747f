(** Model of src/base64.c and include/fingera_libc/base64.h. *)
From Verif Require Import Base.

(** src/base64.c:4-5 (the terminating NUL of the string literal omitted) *)
Definition BASE64_STANDARD_ENCODE : list Z :=
  [ 65; 66; 67; 68; 69; 70; 71; 72; 73; 74; 75; 76; 77; 78; 79; 80;
    81; 82; 83; 84; 85; 86; 87; 88; 89; 90; 97; 98; 99; 100; 101; 102;
    103; 104; 105; 106; 107; 108; 109; 110; 111; 112; 113; 114; 115; 116; 117; 118;
    119; 120; 121; 122; 48; 49; 50; 51; 52; 53; 54; 55; 56; 57; 43; 47 ].
(** src/base64.c:6-7 *)
Definition BASE64_URLSAFE_ENCODE : list Z :=
  [ 65; 66; 67; 68; 69; 70; 71; 72; 73; 74; 75; 76; 77; 78; 79; 80;
    81; 82; 83; 84; 85; 86; 87; 88; 89; 90; 97; 98; 99; 100; 101; 102;
    103; 104; 105; 106; 107; 108; 109; 110; 111; 112; 113; 114; 115; 116; 117; 118;
    119; 120; 121; 122; 48; 49; 50; 51; 52; 53; 54; 55; 56; 57; 45; 95 ].
(** src/base64.c:8-36 *)
Definition BASE64_STANDARD_DECODE : list Z :=
  [ 255; 255; 255; 255; 255; 255; 255; 255; 255; 255; 255; 255; 255; 255; 255; 255;
    255; 255; 255; 255; 255; 255; 255; 255; 255; 255; 255; 255; 255; 255; 255; 255;
    255; 255; 255; 255; 255; 255; 255; 255; 255; 255; 255; 62; 255; 255; 255; 63;
    52; 53; 54; 55; 56; 57; 58; 59; 60; 61; 255; 255; 255; 0; 255; 255;
    255; 0; 1; 2; 3; 4; 5; 6; 7; 8; 9; 10; 11; 12; 13; 14;
    15; 16; 17; 18; 19; 20; 21; 22; 23; 24; 25; 255; 255; 255; 255; 255;
    255; 26; 27; 28; 29; 30; 31; 32; 33; 34; 35; 36; 37; 38; 39; 40;
    41; 42; 43; 44; 45; 46; 47; 48; 49; 50; 51; 255; 255; 255; 255; 255;
    255; 255; 255; 255; 255; 255; 255; 255; 255; 255; 255; 255; 255; 255; 255; 255;
    255; 255; 255; 255; 255; 255; 255; 255; 255; 255; 255; 255; 255; 255; 255; 255;
    255; 255; 255; 255; 255; 255; 255; 255; 255; 255; 255; 255; 255; 255; 255; 255;
    255; 255; 255; 255; 255; 255; 255; 255; 255; 255; 255; 255; 255; 255; 255; 255;
    255; 255; 255; 255; 255; 255; 255; 255; 255; 255; 255; 255; 255; 255; 255; 255;
    255; 255; 255; 255; 255; 255; 255; 255; 255; 255; 255; 255; 255; 255; 255; 255;
    255; 255; 255; 255; 255; 255; 255; 255; 255; 255; 255; 255; 255; 255; 255; 255;
    255; 255; 255; 255; 255; 255; 255; 255; 255; 255; 255; 255; 255; 255; 255; 255 ].
(** src/base64.c:37-65 *)
Definition BASE64_URLSAFE_DECODE : list Z :=
  [ 255; 255; 255; 255; 255; 255; 255; 255; 255; 255; 255; 255; 255; 255; 255; 255;
    255; 255; 255; 255; 255; 255; 255; 255; 255; 255; 255; 255; 255; 255; 255; 255;
    255; 255; 255; 255; 255; 255; 255; 255; 255; 255; 255; 255; 255; 62; 255; 255;
    52; 53; 54; 55; 56; 57; 58; 59; 60; 61; 255; 255; 255; 255; 255; 255;
    255; 0; 1; 2; 3; 4; 5; 6; 7; 8; 9; 10; 11; 12; 13; 14;
    15; 16; 17; 18; 19; 20; 21; 22; 23; 24; 25; 255; 255; 255; 255; 63;
    255; 26; 27; 28; 29; 30; 31; 32; 33; 34; 35; 36; 37; 38; 39; 40;
    41; 42; 43; 44; 45; 46; 47; 48; 49; 50; 51; 255; 255; 255; 255; 255;
    255; 255; 255; 255; 255; 255; 255; 255; 255; 255; 255; 255; 255; 255; 255; 255;
    255; 255; 255; 255; 255; 255; 255; 255; 255; 255; 255; 255; 255; 255; 255; 255;
    255; 255; 255; 255; 255; 255; 255; 255; 255; 255; 255; 255; 255; 255; 255; 255;
    255; 255; 255; 255; 255; 255; 255; 255; 255; 255; 255; 255; 255; 255; 255; 255;
    255; 255; 255; 255; 255; 255; 255; 255; 255; 255; 255; 255; 255; 255; 255; 255;
    255; 255; 255; 255; 255; 255; 255; 255; 255; 255; 255; 255; 255; 255; 255; 255;
    255; 255; 255; 255; 255; 255; 255; 255; 255; 255; 255; 255; 255; 255; 255; 255;
    255; 255; 255; 255; 255; 255; 255; 255; 255; 255; 255; 255; 255; 255; 255; 255 ].

(** src/base64.c:72-73 and 125-126 *)
Definition b64_encode_str (url_safe : bool) : list Z :=
  if url_safe then BASE64_URLSAFE_ENCODE else BASE64_STANDARD_ENCODE.
(** src/base64.c:125-126 *)
Definition b64_decode_str (url_safe : bool) : list Z :=
  if url_safe then BASE64_URLSAFE_DECODE else BASE64_STANDARD_DECODE.

(** src/base64.c:67-108 [_fingera_to_base64].  The loop over whole 3-byte groups
    (75-88) is the recursion; the tail cases (90-107, [tail_len = buf_size % 3])
    are the last two patterns.  The result is the characters written from [out] on. *)
Fixpoint to_base64_ (buf : list Z) (url_safe : bool) : list Z :=
  match buf with
  | i0 :: i1 :: i2 :: rest =>
      let byte1 := u8 (Z.shiftr i0 2) in
      let byte2 := u8 (Z.lor (Z.shiftl (Z.land i0 3) 4) (Z.shiftr i1 4)) in
      let byte3 := u8 (Z.lor (Z.shiftl (Z.land i1 15) 2) (Z.shiftr i2 6)) in
      let byte4 := u8 (Z.land i2 63) in
      tget (b64_encode_str url_safe) byte1 :: tget (b64_encode_str url_safe) byte2
      :: tget (b64_encode_str url_safe) byte3 :: tget (b64_encode_str url_safe) byte4
      :: to_base64_ rest url_safe
  | [i0; i1] =>
      let byte1 := u8 (Z.shiftr i0 2) in
      let byte2 := u8 (Z.shiftl (Z.land i0 3) 4) in
      let byte2 := u8 (Z.lor byte2 (Z.shiftr i1 4)) in
      let byte3 := u8 (Z.shiftl (Z.land i1 15) 2) in
      tget (b64_encode_str url_safe) byte1 :: tget (b64_encode_str url_safe) byte2
      :: tget (b64_encode_str url_safe) byte3
      :: (if negb url_safe then [61] else [])
  | [i0] =>
      let byte1 := u8 (Z.shiftr i0 2) in
      let byte2 := u8 (Z.shiftl (Z.land i0 3) 4) in
      tget (b64_encode_str url_safe) byte1 :: tget (b64_encode_str url_safe) byte2
      :: (if negb url_safe then [61; 61] else [])
  | [] => []
  end.

(** src/base64.c:110-112 [fingera_to_base64] *)
Definition to_base64 (buf : list Z) : list Z := to_base64_ buf false.
(** src/base64.c:114-116 [fingera_to_base64_urlsafe] *)
Definition to_base64_urlsafe (buf : list Z) : list Z := to_base64_ buf true.

(** src/base64.c:128-169, the loop ([n] groups remain) and the tail of
    [_fingera_from_base64]; [input] is the readable memory from [input] on, the result the bytes
    written from [output] on. *)
Fixpoint from_base64_loop (n tail_len : nat) (input : list Z) (dec : list Z) : res (list Z) :=
  match n with
  | S n' =>
      match input with
      | c0 :: c1 :: c2 :: c3 :: rest =>
          let byte1 := tget dec c0 in
          let byte2 := tget dec c1 in
          let byte3 := tget dec c2 in
          let byte4 := tget dec c3 in
          if (byte1 =? 255) || (byte2 =? 255) || (byte3 =? 255) || (byte4 =? 255) then Ok []
          else
            let o0 := u8 (Z.lor (Z.shiftl byte1 2) (Z.shiftr byte2 4)) in
            let o1 := u8 (Z.lor (Z.shiftl byte2 4) (Z.shiftr byte3 2)) in
            let o2 := u8 (Z.lor (Z.shiftl byte3 6) byte4) in
            out <- from_base64_loop n' tail_len rest dec ;;
            Ok (o0 :: o1 :: o2 :: out)
      | _ => UB
      end
  | O =>
      match tail_len with
      | 2%nat =>
          match input with
          | c0 :: c1 :: _ =>
              let byte1 := tget dec c0 in
              let byte2 := tget dec c1 in
              if (byte1 =? 255) || (byte2 =? 255) then Ok []
              else Ok [u8 (Z.lor (Z.shiftl byte1 2) (Z.land (Z.shiftr byte2 4) 3))]
          | _ => UB
          end
      | 3%nat =>
          match input with
          | c0 :: c1 :: c2 :: _ =>
              let byte1 := tget dec c0 in
              let byte2 := tget dec c1 in
              let byte3 := tget dec c2 in
              if (byte1 =? 255) || (byte2 =? 255) || (byte3 =? 255) then Ok []
              else Ok [u8 (Z.lor (Z.shiftl byte1 2) (Z.land (Z.shiftr byte2 4) 3));
                       u8 (Z.lor (Z.shiftl byte2 4) (Z.land (Z.shiftr byte3 2) 15))]
          | _ => UB
          end
      | _ => Ok []
      end
  end.

(** src/base64.c:118-169 [_fingera_from_base64]: return value and bytes written. *)
Definition from_base64_ (str : list Z) (str_len : nat) (url_safe : bool) : res (nat * list Z) :=
  let tail_len := (str_len mod 4)%nat in
  let loop_size := (str_len - tail_len)%nat in
  out <- from_base64_loop (loop_size / 4) tail_len str (b64_decode_str url_safe) ;;
  Ok (length out, out).

(** src/base64.c:172-175 and include/fingera_libc/base64.h:93-96: up to two trailing '=' are
    not counted. *)
Definition strip_pad (str : list Z) (str_len : nat) : res nat :=
  if (0 <? str_len)%nat then
    c <- rd str (str_len - 1) ;;
    if c =? 61 then
      let str_len := (str_len - 1)%nat in
      if (0 <? str_len)%nat then
        c <- rd str (str_len - 1) ;;
        if c =? 61 then Ok (str_len - 1)%nat else Ok str_len
      else Ok str_len
    else Ok str_len
  else Ok str_len.

(** src/base64.c:171-177 [fingera_from_base64] *)
Definition from_base64 (str : list Z) (str_len : nat) : res (nat * list Z) :=
  str_len <- strip_pad str str_len ;;
  from_base64_ str str_len false.

(** src/base64.c:179-181 [fingera_from_base64_urlsafe] *)
Definition from_base64_urlsafe (str : list Z) (str_len : nat) : res (nat * list Z) :=
  from_base64_ str str_len true.

(** include/fingera_libc/base64.h:24-26 [fingera_to_base64_length] *)
Definition to_base64_length (buf_size : nat) : nat := ((buf_size + 2) / 3 * 4)%nat.

(** include/fingera_libc/base64.h:35-43 [fingera_to_base64_urlsafe_length] *)
Definition to_base64_urlsafe_length (buf_size : nat) : nat :=
  let tail := (buf_size mod 3)%nat in
  let len := (buf_size / 3 * 4)%nat in
  if (tail =? 1)%nat then (len + 2)%nat else if (tail =? 2)%nat then (len + 3)%nat else len.

(** include/fingera_libc/base64.h:75-83 [fingera_from_base64_urlsafe_length] *)
Definition from_base64_urlsafe_length (str_len : nat) : nat :=
  let tail := (str_len mod 4)%nat in
  let len := (str_len / 4 * 3)%nat in
  if (tail =? 2)%nat then (len + 1)%nat else if (tail =? 3)%nat then (len + 2)%nat else len.

(** include/fingera_libc/base64.h:91-98 [fingera_from_base64_length] *)
Definition from_base64_length (str : list Z) (str_len : nat) : res nat :=
  str_len <- strip_pad str str_len ;;
  Ok (from_base64_urlsafe_length str_len).

