(** Model of src/hex.c. *)
From Verif Require Import Base.

(** src/hex.c:4-6 [HEX_STRING_LOWER] *)
Definition HEX_STRING_LOWER : list Z :=
  [ 48; 49; 50; 51; 52; 53; 54; 55; 56; 57; 97; 98; 99; 100; 101; 102 ].

(** src/hex.c:7-9 [HEX_STRING_UPPER] *)
Definition HEX_STRING_UPPER : list Z :=
  [ 48; 49; 50; 51; 52; 53; 54; 55; 56; 57; 65; 66; 67; 68; 69; 70 ].

(** src/hex.c:23-46 [HEX_MAP] *)
Definition HEX_MAP : list Z :=
  [ 255; 255; 255; 255; 255; 255; 255; 255; 255; 255; 255; 255; 255; 255; 255; 255;
    255; 255; 255; 255; 255; 255; 255; 255; 255; 255; 255; 255; 255; 255; 255; 255;
    255; 255; 255; 255; 255; 255; 255; 255; 255; 255; 255; 255; 255; 255; 255; 255;
    0; 1; 2; 3; 4; 5; 6; 7; 8; 9; 255; 255; 255; 255; 255; 255;
    255; 10; 11; 12; 13; 14; 15; 255; 255; 255; 255; 255; 255; 255; 255; 255;
    255; 255; 255; 255; 255; 255; 255; 255; 255; 255; 255; 255; 255; 255; 255; 255;
    255; 10; 11; 12; 13; 14; 15; 255; 255; 255; 255; 255; 255; 255; 255; 255;
    255; 255; 255; 255; 255; 255; 255; 255; 255; 255; 255; 255; 255; 255; 255; 255;
    255; 255; 255; 255; 255; 255; 255; 255; 255; 255; 255; 255; 255; 255; 255; 255;
    255; 255; 255; 255; 255; 255; 255; 255; 255; 255; 255; 255; 255; 255; 255; 255;
    255; 255; 255; 255; 255; 255; 255; 255; 255; 255; 255; 255; 255; 255; 255; 255;
    255; 255; 255; 255; 255; 255; 255; 255; 255; 255; 255; 255; 255; 255; 255; 255;
    255; 255; 255; 255; 255; 255; 255; 255; 255; 255; 255; 255; 255; 255; 255; 255;
    255; 255; 255; 255; 255; 255; 255; 255; 255; 255; 255; 255; 255; 255; 255; 255;
    255; 255; 255; 255; 255; 255; 255; 255; 255; 255; 255; 255; 255; 255; 255; 255;
    255; 255; 255; 255; 255; 255; 255; 255; 255; 255; 255; 255; 255; 255; 255; 255 ].

(** src/hex.c:14,64 [upper ? HEX_STRING_UPPER : HEX_STRING_LOWER] *)
Definition hex_str (upper : Z) : list Z :=
  if upper =? 0 then HEX_STRING_LOWER else HEX_STRING_UPPER.

(** src/hex.c:11-21 [fingera_to_hex].  The loop walks [buf] byte by byte and
    appends two characters to [str]; the result is the list of characters
    written from [str] on. *)
Fixpoint to_hex (buf : list Z) (upper : Z) : list Z :=
  match buf with
  | [] => []
  | byte :: rest =>
      tget (hex_str upper) (Z.shiftr byte 4)
      :: tget (hex_str upper) (Z.land byte 15)
      :: to_hex rest upper
  end.

(** src/hex.c:52-57, the loop of [fingera_from_hex]: [n] iterations remain and
    [str] is the readable memory from [&str[i]] on.  The result is the list of
    bytes stored through [out]. *)
Fixpoint from_hex_loop (n : nat) (str : list Z) : res (list Z) :=
  match n with
  | O => Ok []
  | S n' =>
      match str with
      | c0 :: c1 :: rest =>
          let high := tget HEX_MAP c0 in
          let low := tget HEX_MAP c1 in
          if (high =? 255) || (low =? 255) then Ok []
          else
            out <- from_hex_loop n' rest ;;
            Ok (u8 (Z.lor (Z.shiftl high 4) low) :: out)
      | _ => UB
      end
  end.

(** src/hex.c:48-59 [fingera_from_hex]: returns the number of bytes written and
    the bytes written.  [str] is all memory readable from the pointer on.
    [str_len &= ~(size_t)1] is [Z.ldiff str_len 1]; the loop stepping [i] by 2
    runs [str_len / 2] times. *)
Definition from_hex (str : list Z) (str_len : nat) : res (nat * list Z) :=
  let str_len := Z.ldiff (Z.of_nat str_len) 1 in
  out <- from_hex_loop (Z.to_nat (str_len / 2)) str ;;
  Ok (length out, out).

(** include/fingera_libc/hex.h:23-25 [fingera_to_hex_length] *)
Definition to_hex_length (buf_size : nat) : nat := (buf_size * 2)%nat.
(** include/fingera_libc/hex.h:44-46 [fingera_from_hex_length] *)
Definition from_hex_length (str_len : nat) : nat := ((str_len + 1) / 2)%nat.

(** src/hex.c:68 [WRITE_CACHE__(c)] on [char str_cache[1024]] with
    [str_cache_len = length cache]: storing at index 1024 or more is undefined. *)
Definition write_cache (cache : list Z) (c : Z) : res (list Z) :=
  if (length cache <? 1024)%nat then Ok (cache ++ [c]) else UB.

(** a conditional [WRITE_CACHE__] (src/hex.c:74-77) *)
Definition write_cache_if (cond : bool) (cache : list Z) (c : Z) : res (list Z) :=
  if cond then write_cache cache c else Ok cache.

(** src/hex.c:70-87, the loop of [fingera_hex_dump]: [i] is the loop index, [cache]
    the current cache contents; the result is the list of [fwrite] calls made
    and the final cache. *)
Fixpoint hex_dump_loop (bytes : list Z) (i : Z) (hs cache : list Z) (out : list (list Z))
  : res (list (list Z) * list Z) :=
  match bytes with
  | [] => Ok (out, cache)
  | byte :: rest =>
      cache <- write_cache_if (negb (i =? 0) && (i mod 4 =? 0)) cache 32 ;;
      cache <- write_cache_if (negb (i =? 0) && (i mod 8 =? 0)) cache 32 ;;
      cache <- write_cache_if (negb (i =? 0) && (i mod 16 =? 0)) cache 32 ;;
      cache <- write_cache_if (negb (i =? 0) && (i mod 32 =? 0)) cache 10 ;;
      cache <- write_cache cache (tget hs (Z.shiftr byte 4)) ;;
      cache <- write_cache cache (tget hs (Z.land byte 15)) ;;
      if (1000 <? length cache)%nat
      then hex_dump_loop rest (i + 1) hs [] (out ++ [cache])
      else hex_dump_loop rest (i + 1) hs cache out
  end.

(** src/hex.c:61-94 [fingera_hex_dump]: the sequence of blocks passed to
    [fwrite(.., stdout)]. *)
Definition hex_dump (buf : list Z) (upper : Z) : res (list (list Z)) :=
  ' (out, cache) <- hex_dump_loop buf 0 (hex_str upper) [] [] ;;
  cache <- write_cache cache 10 ;;
  if (0 <? length cache)%nat then Ok (out ++ [cache]) else Ok out.
