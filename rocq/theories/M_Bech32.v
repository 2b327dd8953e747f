(** Model of src/btc/bech32.c and include/fingera_libc/btc/bech32.h. *)
From Verif Require Import Base M_Endian.

(** src/btc/bech32.c:8, "qpzry9x8gf2tvdw0s3jn54khce6mua7l" *)
Definition BECH32_ENCODE : list Z :=
  [ 113; 112; 122; 114; 121; 57; 120; 56; 103; 102; 50; 116; 118; 100; 119; 48;
    115; 51; 106; 110; 53; 52; 107; 104; 99; 101; 54; 109; 117; 97; 55; 108 ].
(** src/btc/bech32.c:9-24 *)
Definition BECH32_DECODE : list Z :=
  [ -1; -1; -1; -1; -1; -1; -1; -1; -1; -1; -1; -1; -1; -1; -1; -1; -1; -1; -1; -1; -1; -1; -1; -1; -1; -1; -1; -1; -1; -1; -1; -1;
    -1; -1; -1; -1; -1; -1; -1; -1; -1; -1; -1; -1; -1; -1; -1; -1; 15; -1; 10; 17; 21; 20; 26; 30; 7; 5; -1; -1; -1; -1; -1; -1;
    -1; 29; -1; 24; 13; 25; 9; 8; 23; -1; 18; 22; 31; 27; 19; -1; 1; 0; 3; 16; 11; 28; 12; 14; 6; 4; 2; -1; -1; -1; -1; -1;
    -1; 29; -1; 24; 13; 25; 9; 8; 23; -1; 18; 22; 31; 27; 19; -1; 1; 0; 3; 16; 11; 28; 12; 14; 6; 4; 2; -1; -1; -1; -1; -1;
    -1; -1; -1; -1; -1; -1; -1; -1; -1; -1; -1; -1; -1; -1; -1; -1; -1; -1; -1; -1; -1; -1; -1; -1; -1; -1; -1; -1; -1; -1; -1; -1;
    -1; -1; -1; -1; -1; -1; -1; -1; -1; -1; -1; -1; -1; -1; -1; -1; -1; -1; -1; -1; -1; -1; -1; -1; -1; -1; -1; -1; -1; -1; -1; -1;
    -1; -1; -1; -1; -1; -1; -1; -1; -1; -1; -1; -1; -1; -1; -1; -1; -1; -1; -1; -1; -1; -1; -1; -1; -1; -1; -1; -1; -1; -1; -1; -1;
    -1; -1; -1; -1; -1; -1; -1; -1; -1; -1; -1; -1; -1; -1; -1; -1; -1; -1; -1; -1; -1; -1; -1; -1; -1; -1; -1; -1; -1; -1; -1; -1 ].
(** src/btc/bech32.c:25-32 *)
Definition BECH32_POLY_TABLE : list Z :=
  [ 0x00000000; 0x3b6a57b2; 0x26508e6d; 0x1d3ad9df; 0x1ea119fa; 0x25cb4e48; 0x38f19797; 0x039bc025;
    0x3d4233dd; 0x0628646f; 0x1b12bdb0; 0x2078ea02; 0x23e32a27; 0x18897d95; 0x05b3a44a; 0x3ed9f3f8;
    0x2a1462b3; 0x117e3501; 0x0c44ecde; 0x372ebb6c; 0x34b57b49; 0x0fdf2cfb; 0x12e5f524; 0x298fa296;
    0x1756516e; 0x2c3c06dc; 0x3106df03; 0x0a6c88b1; 0x09f74894; 0x329d1f26; 0x2fa7c6f9; 0x14cd914b ].

(** src/btc/bech32.c:34-36; an index outside the table is undefined *)
Definition poly_mod (value c : Z) : res Z :=
  t <- tget_ub BECH32_POLY_TABLE (Z.shiftr c 25) ;;
  Ok (Z.lxor (Z.lxor (u32 (Z.shiftl (Z.land c 0x1ffffff) 5)) t) value).

(** The loops [for (i...) mod = poly_mod(f(x[i]), mod)] of bech32.c:41-55 and 65-78 *)
Fixpoint poly_loop (f : Z -> Z) (xs : list Z) (mod_ : Z) : res Z :=
  match xs with
  | [] => Ok mod_
  | x :: xs' => m <- poly_mod (f x) mod_ ;; poly_loop f xs' m
  end.

(** src/btc/bech32.c:40-51 and 64-75: the common part of the two checksum functions *)
Definition poly_common (hrp b32 : list Z) : res Z :=
  m <- poly_loop (fun c => Z.shiftr c 5) hrp 1 ;;
  m <- poly_mod 0 m ;;
  m <- poly_loop (fun c => Z.land c 0x1F) hrp m ;;
  poly_loop (fun v => v) b32 m.

(** src/btc/bech32.c:38-60: the six checksum values *)
Definition create_checksum (hrp b32 : list Z) : res (list Z) :=
  m <- poly_common hrp b32 ;;
  m <- poly_loop (fun v => v) (repeat 0 6) m ;;
  let m := Z.lxor m 1 in
  Ok (map (fun i => Z.land (Z.shiftr m (5 * (5 - i))) 31) (zrange 6)).

(** src/btc/bech32.c:62-80 *)
Definition verify_checksum (hrp b32 checksum : list Z) : res bool :=
  m <- poly_common hrp b32 ;;
  m <- poly_loop (fun v => v) checksum m ;;
  Ok (m =? 1).

(** src/btc/bech32.c:90-93: the data characters, with the assertion of line 91 *)
Fixpoint encode_chars (b32 : list Z) : res (list Z) :=
  match b32 with
  | [] => Ok []
  | v :: r => _ <- c_assert (v <? 32) ;; c <- tget_ub BECH32_ENCODE v ;; cs <- encode_chars r ;; Ok (c :: cs)
  end.

(** src/btc/bech32.c:94-96: the checksum characters *)
Fixpoint encode_checksum (cs : list Z) : res (list Z) :=
  match cs with
  | [] => Ok []
  | v :: r => c <- tget_ub BECH32_ENCODE v ;; t <- encode_checksum r ;; Ok (c :: t)
  end.

(** src/btc/bech32.c:82-97: the characters written to [result].  [hrp] and [b32]
    are exactly the bytes passed (hrp_len, b32_size are their lengths). *)
Definition bech32_encode (hrp b32 : list Z) : res (list Z) :=
  checksum <- create_checksum hrp b32 ;;
  d <- encode_chars b32 ;;
  c <- encode_checksum checksum ;;
  Ok (hrp ++ [49] ++ d ++ c).

(** btc/bech32.h:25-28 *)
Definition bech32_encode_length (hrp_len b32_size : nat) : nat := (hrp_len + b32_size + 7)%nat.

(** src/btc/bech32.c:99-109; [n] counts the characters still to read *)
Fixpoint illegal_loop (str : list Z) (n : nat) (lower upper : bool) : res bool :=
  match n with
  | O => Ok (lower && upper)
  | S n' =>
      match str with
      | [] => UB
      | c :: r =>
          if (97 <=? c) && (c <=? 122) then illegal_loop r n' true upper
          else if (65 <=? c) && (c <=? 90) then illegal_loop r n' lower true
          else if (c <? 33) || (126 <? c) then Ok true
          else illegal_loop r n' lower upper
      end
  end.
(** src/btc/bech32.c:99-109, from the initial values of lower and upper *)
Definition is_illegal (str : list Z) (size : nat) : res bool := illegal_loop str size false false.

(** [strrchr(str, ch)]: the index of the last [ch] before the terminating NUL. *)
(** src/btc/bech32.c:115 (the C library function) *)
Fixpoint strrchr (str : list Z) (ch : Z) : res (option nat) :=
  match str with
  | [] => UB
  | c :: r =>
      if c =? 0 then Ok None
      else
        o <- strrchr r ch ;;
        match o with
        | Some i => Ok (Some (S i))
        | None => if c =? ch then Ok (Some O) else Ok None
        end
  end.

(** [isupper(c) ? tolower(c) : c] (bech32.c:123), C locale, for a char that is not negative *)
Definition lower_char (c : Z) : res Z :=
  if as_char c <? 0 then UB else Ok (if (65 <=? c) && (c <=? 90) then c + 32 else c).
(** src/btc/bech32.c:122-124 *)
Fixpoint lower_chars (str : list Z) (n : nat) : res (list Z) :=
  match n with
  | O => Ok []
  | S n' => match str with [] => UB | c :: r => x <- lower_char c ;; xs <- lower_chars r n' ;; Ok (x :: xs) end
  end.

(** The decoding loops of bech32.c:127-131 and 133-137: [n] characters; the values
    decoded before the first bad character, and whether there was one. *)
Fixpoint decode_chars (str : list Z) (n : nat) : res (list Z * bool) :=
  match n with
  | O => Ok ([], true)
  | S n' =>
      match str with
      | [] => UB
      | c :: r =>
          let rev := tget BECH32_DECODE c in
          if rev =? -1 then Ok ([], false)
          else '(vs, ok) <- decode_chars r n' ;; Ok (rev :: vs, ok)
      end
  end.

(** Result of [fingera_bech32_decode]: return value, value left in [*hrp_size],
    characters written to [hrp], bytes written to [b32]. *)
(** src/btc/bech32.c:111-113 (the outputs) *)
Record bech32_result := mkB32 { b_ret : Z; b_hrp_size : nat; b_hrp : list Z; b_data : list Z }.

(** src/btc/bech32.c:111-141.  [str] is the readable memory from the pointer on. *)
Definition bech32_decode (str : list Z) (str_len hrp_size : nat) : res bech32_result :=
  bad <- is_illegal str str_len ;;
  if bad then Ok (mkB32 (-1) hrp_size [] [])
  else
    o <- strrchr str 49 ;;
    match o with
    | None => Ok (mkB32 (-2) hrp_size [] [])
    | Some pos =>
        if (90 <? str_len)%nat || (pos =? 0)%nat || (str_len <? pos + 7)%nat || (str_len <=? 7)%nat
        then Ok (mkB32 (-2) hrp_size [] [])
        else if (hrp_size <? pos)%nat then Ok (mkB32 (-3) hrp_size [] [])
        else
          hrp <- lower_chars str pos ;;
          (* pos++ ; while (pos != str + (str_len - 6)) *)
          let n := (str_len - 6 - (pos + 1))%nat in
          '(data, ok) <- decode_chars (skipn (pos + 1) str) n ;;
          if negb ok then Ok (mkB32 (-4) pos hrp data)
          else
            '(checksum, ok) <- decode_chars (skipn (str_len - 6) str) 6 ;;
            if negb ok then Ok (mkB32 (-4) pos hrp data)
            else
              v <- verify_checksum hrp data checksum ;;
              if negb v then Ok (mkB32 (-5) pos hrp data)
              else Ok (mkB32 (Z.of_nat (length data)) pos hrp data)
    end.
