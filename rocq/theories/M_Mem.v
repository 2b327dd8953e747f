(** Memory level models of the codecs: input and output live in one memory, every load and every
    store happens at its address and in program order, so that overlapping buffers are covered.
    (M_Hex, M_Base64, M_Base32, M_Varint describe the same functions by the list of bytes written.)
    Addresses are offsets into [mem]; an access outside [mem] is undefined. *)
From Verif Require Import Base M_Endian M_Hex M_Base64 M_Base32 M_Varint.

(** One byte store [*a = v], e.g. src/hex.c:17 *)
Definition put (mem : list Z) (a : nat) (v : Z) : res (list Z) := store mem a [v].
(** Consecutive stores [a[0] = v0; a[1] = v1; ...] of values computed before, e.g. src/base64.c:82-85 *)
Fixpoint puts (mem : list Z) (a : nat) (vs : list Z) : res (list Z) :=
  match vs with [] => Ok mem | v :: r => mem <- put mem a v ;; puts mem (S a) r end.

(** src/hex.c:15-20, the loop of [fingera_to_hex] *)
Fixpoint to_hex_mem (n : nat) (mem : list Z) (buf str : nat) (upper : Z) : res (list Z) :=
  match n with
  | O => Ok mem
  | S n' =>
      byte <- rd mem buf ;;
      mem <- put mem str (tget (hex_str upper) (Z.shiftr byte 4)) ;;
      mem <- put mem (str + 1) (tget (hex_str upper) (Z.land byte 15)) ;;
      to_hex_mem n' mem (buf + 1) (str + 2) upper
  end.

(** src/hex.c:52-57, the loop of [fingera_from_hex]; the result is the final [out] and the memory *)
Fixpoint from_hex_mem_loop (n : nat) (mem : list Z) (str out : nat) : res (nat * list Z) :=
  match n with
  | O => Ok (out, mem)
  | S n' =>
      c0 <- rd mem str ;;
      c1 <- rd mem (str + 1) ;;
      let high := tget HEX_MAP c0 in
      let low := tget HEX_MAP c1 in
      if (high =? 255) || (low =? 255) then Ok (out, mem)
      else
        mem <- put mem out (u8 (Z.lor (Z.shiftl high 4) low)) ;;
        from_hex_mem_loop n' mem (str + 2) (out + 1)
  end.
(** src/hex.c:48-59 [fingera_from_hex] *)
Definition from_hex_mem (mem : list Z) (str str_len buf : nat) : res (nat * list Z) :=
  let len := Z.ldiff (Z.of_nat str_len) 1 in
  '(out, mem) <- from_hex_mem_loop (Z.to_nat (len / 2)) mem str buf ;;
  Ok ((out - buf)%nat, mem).

(** src/base64.c:75-107, the loop ([n] groups remain) and the tail of [_fingera_to_base64] *)
Fixpoint to_base64_mem_loop (n tail_len : nat) (mem : list Z) (input out : nat) (url_safe : bool) : res (list Z) :=
  let enc := tget (b64_encode_str url_safe) in
  match n with
  | S n' =>
      i0 <- rd mem input ;;
      i1 <- rd mem (input + 1) ;;
      i2 <- rd mem (input + 2) ;;
      let byte1 := u8 (Z.shiftr i0 2) in
      let byte2 := u8 (Z.lor (Z.shiftl (Z.land i0 3) 4) (Z.shiftr i1 4)) in
      let byte3 := u8 (Z.lor (Z.shiftl (Z.land i1 15) 2) (Z.shiftr i2 6)) in
      let byte4 := u8 (Z.land i2 63) in
      mem <- puts mem out [enc byte1; enc byte2; enc byte3; enc byte4] ;;
      to_base64_mem_loop n' tail_len mem (input + 3) (out + 4) url_safe
  | O =>
      if (tail_len =? 0)%nat then Ok mem
      else
        i0 <- rd mem input ;;
        let byte1 := u8 (Z.shiftr i0 2) in
        let byte2 := u8 (Z.shiftl (Z.land i0 3) 4) in
        mem <- put mem out (enc byte1) ;;
        if (tail_len =? 2)%nat then
          i1 <- rd mem (input + 1) ;;
          let byte2 := u8 (Z.lor byte2 (Z.shiftr i1 4)) in
          let byte3 := u8 (Z.shiftl (Z.land i1 15) 2) in
          mem <- puts mem (out + 1) [enc byte2; enc byte3] ;;
          if negb url_safe then put mem (out + 3) 61 else Ok mem
        else
          mem <- put mem (out + 1) (enc byte2) ;;
          if negb url_safe then puts mem (out + 2) [61; 61] else Ok mem
  end.
(** src/base64.c:67-108 [_fingera_to_base64] *)
Definition to_base64_mem_ (mem : list Z) (buf buf_size out : nat) (url_safe : bool) : res (list Z) :=
  let tail_len := (buf_size mod 3)%nat in
  let loop_size := (buf_size - tail_len)%nat in
  to_base64_mem_loop (loop_size / 3) tail_len mem buf out url_safe.
(** src/base64.c:110-112 *)
Definition to_base64_mem (mem : list Z) (buf buf_size str : nat) : res (list Z) := to_base64_mem_ mem buf buf_size str false.
(** src/base64.c:114-116 *)
Definition to_base64_urlsafe_mem (mem : list Z) (buf buf_size str : nat) : res (list Z) := to_base64_mem_ mem buf buf_size str true.

(** src/base64.c:128-168, the loop ([n] groups remain) and the switch of [_fingera_from_base64]: final [output] and memory *)
Fixpoint from_base64_mem_loop (n tail_len : nat) (mem : list Z) (input output : nat) (dec : list Z) : res (nat * list Z) :=
  match n with
  | S n' =>
      c0 <- rd mem input ;;
      c1 <- rd mem (input + 1) ;;
      c2 <- rd mem (input + 2) ;;
      c3 <- rd mem (input + 3) ;;
      let byte1 := tget dec c0 in
      let byte2 := tget dec c1 in
      let byte3 := tget dec c2 in
      let byte4 := tget dec c3 in
      if (byte1 =? 255) || (byte2 =? 255) || (byte3 =? 255) || (byte4 =? 255) then Ok (output, mem)
      else
        mem <- puts mem output
          [u8 (Z.lor (Z.shiftl byte1 2) (Z.shiftr byte2 4));
           u8 (Z.lor (Z.shiftl byte2 4) (Z.shiftr byte3 2));
           u8 (Z.lor (Z.shiftl byte3 6) byte4)] ;;
        from_base64_mem_loop n' tail_len mem (input + 4) (output + 3) dec
  | O =>
      match tail_len with
      | 2%nat =>
          c0 <- rd mem input ;;
          c1 <- rd mem (input + 1) ;;
          let byte1 := tget dec c0 in
          let byte2 := tget dec c1 in
          if (byte1 =? 255) || (byte2 =? 255) then Ok (output, mem)
          else
            mem <- put mem output (u8 (Z.lor (Z.shiftl byte1 2) (Z.land (Z.shiftr byte2 4) 3))) ;;
            Ok ((output + 1)%nat, mem)
      | 3%nat =>
          c0 <- rd mem input ;;
          c1 <- rd mem (input + 1) ;;
          c2 <- rd mem (input + 2) ;;
          let byte1 := tget dec c0 in
          let byte2 := tget dec c1 in
          let byte3 := tget dec c2 in
          if (byte1 =? 255) || (byte2 =? 255) || (byte3 =? 255) then Ok (output, mem)
          else
            mem <- puts mem output
              [u8 (Z.lor (Z.shiftl byte1 2) (Z.land (Z.shiftr byte2 4) 3));
               u8 (Z.lor (Z.shiftl byte2 4) (Z.land (Z.shiftr byte3 2) 15))] ;;
            Ok ((output + 2)%nat, mem)
      | _ => Ok (output, mem)
      end
  end.
(** src/base64.c:118-169 [_fingera_from_base64] *)
Definition from_base64_mem_ (mem : list Z) (str str_len buf : nat) (url_safe : bool) : res (nat * list Z) :=
  let tail_len := (str_len mod 4)%nat in
  let loop_size := (str_len - tail_len)%nat in
  '(output, mem) <- from_base64_mem_loop (loop_size / 4) tail_len mem str buf (b64_decode_str url_safe) ;;
  Ok ((output - buf)%nat, mem).
(** src/base64.c:171-177 [fingera_from_base64] *)
Definition from_base64_mem (mem : list Z) (str str_len buf : nat) : res (nat * list Z) :=
  str_len <- strip_pad (skipn str mem) str_len ;;
  from_base64_mem_ mem str str_len buf false.
(** src/base64.c:179-181 [fingera_from_base64_urlsafe] *)
Definition from_base64_urlsafe_mem (mem : list Z) (str str_len buf : nat) : res (nat * list Z) :=
  from_base64_mem_ mem str str_len buf true.

(** src/base32.c:73-175, the loop ([n] groups remain) and the switch of [_fingera_to_base32] *)
Fixpoint to_base32_mem_loop (n tail_len : nat) (mem : list Z) (input out : nat) (is_raw : bool) : res (list Z) :=
  let enc := tget (b32_encode_str is_raw) in
  match n with
  | S n' =>
      i0 <- rd mem input ;;
      i1 <- rd mem (input + 1) ;;
      i2 <- rd mem (input + 2) ;;
      i3 <- rd mem (input + 3) ;;
      i4 <- rd mem (input + 4) ;;
      let byte1 := u8 (Z.shiftr i0 3) in
      let byte2 := u8 (Z.lor (Z.shiftl (Z.land i0 7) 2) (Z.shiftr i1 6)) in
      let byte3 := u8 (Z.land (Z.shiftr i1 1) 31) in
      let byte4 := u8 (Z.lor (Z.shiftl (Z.land i1 1) 4) (Z.shiftr i2 4)) in
      let byte5 := u8 (Z.lor (Z.shiftl (Z.land i2 15) 1) (Z.shiftr i3 7)) in
      let byte6 := u8 (Z.land (Z.shiftr i3 2) 31) in
      let byte7 := u8 (Z.lor (Z.shiftl (Z.land i3 3) 3) (Z.land (Z.shiftr i4 5) 7)) in
      let byte8 := u8 (Z.land i4 31) in
      mem <- puts mem out [enc byte1; enc byte2; enc byte3; enc byte4; enc byte5; enc byte6; enc byte7; enc byte8] ;;
      to_base32_mem_loop n' tail_len mem (input + 5) (out + 8) is_raw
  | O =>
      match tail_len with
      | 1%nat =>
          i0 <- rd mem input ;;
          mem <- puts mem out [enc (u8 (Z.shiftr i0 3)); enc (u8 (Z.shiftl (Z.land i0 7) 2))] ;;
          if negb is_raw then puts mem (out + 2) [61; 61; 61; 61; 61; 61] else Ok mem
      | 2%nat =>
          i0 <- rd mem input ;;
          i1 <- rd mem (input + 1) ;;
          mem <- puts mem out
            [enc (u8 (Z.shiftr i0 3)); enc (u8 (Z.lor (Z.shiftl (Z.land i0 7) 2) (Z.shiftr i1 6)));
             enc (u8 (Z.land (Z.shiftr i1 1) 31)); enc (u8 (Z.shiftl (Z.land i1 1) 4))] ;;
          if negb is_raw then puts mem (out + 4) [61; 61; 61; 61] else Ok mem
      | 3%nat =>
          i0 <- rd mem input ;;
          i1 <- rd mem (input + 1) ;;
          i2 <- rd mem (input + 2) ;;
          mem <- puts mem out
            [enc (u8 (Z.shiftr i0 3)); enc (u8 (Z.lor (Z.shiftl (Z.land i0 7) 2) (Z.shiftr i1 6)));
             enc (u8 (Z.land (Z.shiftr i1 1) 31)); enc (u8 (Z.lor (Z.shiftl (Z.land i1 1) 4) (Z.shiftr i2 4)));
             enc (u8 (Z.shiftl (Z.land i2 15) 1))] ;;
          if negb is_raw then puts mem (out + 5) [61; 61; 61] else Ok mem
      | 4%nat =>
          i0 <- rd mem input ;;
          i1 <- rd mem (input + 1) ;;
          i2 <- rd mem (input + 2) ;;
          i3 <- rd mem (input + 3) ;;
          mem <- puts mem out
            [enc (u8 (Z.shiftr i0 3)); enc (u8 (Z.lor (Z.shiftl (Z.land i0 7) 2) (Z.shiftr i1 6)));
             enc (u8 (Z.land (Z.shiftr i1 1) 31)); enc (u8 (Z.lor (Z.shiftl (Z.land i1 1) 4) (Z.shiftr i2 4)));
             enc (u8 (Z.lor (Z.shiftl (Z.land i2 15) 1) (Z.shiftr i3 7))); enc (u8 (Z.land (Z.shiftr i3 2) 31));
             enc (u8 (Z.shiftl (Z.land i3 3) 3))] ;;
          if negb is_raw then put mem (out + 7) 61 else Ok mem
      | _ => Ok mem
      end
  end.
(** src/base32.c:65-177 [_fingera_to_base32]: returned size and memory *)
Definition to_base32_mem_ (mem : list Z) (buf buf_size out : nat) (is_raw : bool) : res (nat * list Z) :=
  let tail_len := (buf_size mod 5)%nat in
  let loop_size := (buf_size - tail_len)%nat in
  mem <- to_base32_mem_loop (loop_size / 5) tail_len mem buf out is_raw ;;
  Ok (to_base32_size buf_size is_raw, mem).
(** src/base32.c:179-181 [fingera_to_base32] *)
Definition to_base32_mem (mem : list Z) (buf buf_size out : nat) : res (list Z) :=
  '(_, mem) <- to_base32_mem_ mem buf buf_size out false ;; Ok mem.
(** src/base32.c:183-185 [fingera_to_base32_raw] *)
Definition to_base32_raw_mem (mem : list Z) (buf buf_size out : nat) : res (nat * list Z) := to_base32_mem_ mem buf buf_size out true.

(** src/base32.c:233-253, the tail: final [out] and memory.  Loads and stores alternate. *)
Definition from_base32_mem_tail (tail : nat) (mem : list Z) (tail_str out : nat) (dec : list Z) : res (nat * list Z) :=
  let tail_bytes := u8 (tget TAIL_TO_BYTES (Z.of_nat tail)) in
  if 0 <? tail_bytes then
    byte1 <- dec_char dec mem tail_str ;;
    byte2 <- dec_char dec mem (tail_str + 1) ;;
    mem <- put mem out (b32_o0 byte1 byte2) ;;
    if 1 <? tail_bytes then
      byte3 <- dec_char dec mem (tail_str + 2) ;;
      byte4 <- dec_char dec mem (tail_str + 3) ;;
      mem <- put mem (out + 1) (b32_o1 byte2 byte3 byte4) ;;
      if 2 <? tail_bytes then
        byte5 <- dec_char dec mem (tail_str + 4) ;;
        mem <- put mem (out + 2) (b32_o2 byte4 byte5) ;;
        if 3 <? tail_bytes then
          byte6 <- dec_char dec mem (tail_str + 5) ;;
          byte7 <- dec_char dec mem (tail_str + 6) ;;
          mem <- put mem (out + 3) (b32_o3 byte5 byte6 byte7) ;;
          Ok ((out + 4)%nat, mem)
        else Ok ((out + 3)%nat, mem)
      else Ok ((out + 2)%nat, mem)
    else Ok ((out + 1)%nat, mem)
  else Ok (out, mem).
(** src/base32.c:212-253, the loop ([blocks] remain, [str] is the address of the current one), then the tail *)
Fixpoint from_base32_mem_loop (blocks tail : nat) (mem : list Z) (str out : nat) (dec : list Z) : res (nat * list Z) :=
  match blocks with
  | O => from_base32_mem_tail tail mem str out dec
  | S blocks' =>
      byte1 <- dec_char dec mem str ;;
      byte2 <- dec_char dec mem (str + 1) ;;
      byte3 <- dec_char dec mem (str + 2) ;;
      byte4 <- dec_char dec mem (str + 3) ;;
      byte5 <- dec_char dec mem (str + 4) ;;
      byte6 <- dec_char dec mem (str + 5) ;;
      byte7 <- dec_char dec mem (str + 6) ;;
      byte8 <- dec_char dec mem (str + 7) ;;
      if (byte1 =? 255) || (byte2 =? 255) || (byte3 =? 255) || (byte4 =? 255)
         || (byte5 =? 255) || (byte6 =? 255) || (byte7 =? 255) || (byte8 =? 255)
      then Ok (out, mem)
      else
        mem <- puts mem out [b32_o0 byte1 byte2; b32_o1 byte2 byte3 byte4; b32_o2 byte4 byte5;
                             b32_o3 byte5 byte6 byte7; b32_o4 byte7 byte8] ;;
        from_base32_mem_loop blocks' tail mem (str + 8) (out + 5) dec
  end.
(** src/base32.c:204-254 [_fingera_from_base32] *)
Definition from_base32_mem_ (mem : list Z) (str str_len buf : nat) (is_raw : bool) : res (nat * list Z) :=
  new_len <- base32_strlen (skipn str mem) str_len ;;
  '(out, mem) <- from_base32_mem_loop (new_len / 8) (new_len mod 8) mem str buf (b32_decode_str is_raw) ;;
  Ok ((out - buf)%nat, mem).
(** src/base32.c:256-258 [fingera_from_base32] *)
Definition from_base32_mem (mem : list Z) (str str_len buf : nat) : res (nat * list Z) := from_base32_mem_ mem str str_len buf false.
(** src/base32.c:260-262 [fingera_from_base32_raw] *)
Definition from_base32_raw_mem (mem : list Z) (buf buf_size out : nat) : res (nat * list Z) := from_base32_mem_ mem buf buf_size out true.

(** src/compress_integer.c:17-21, the copy of [tmp[len]], ..., [tmp[0]] to [out], on the memory *)
Definition encode_varint_mem (value : Z) (mem : list Z) (buf : nat) : res (nat * list Z) :=
  tmp <- encode_varint_loop 10 value [] ;;
  mem <- puts mem buf tmp ;;
  Ok (length tmp, mem).
(** src/compress_integer.c:40-46 *)
Definition encode_zigzag_mem (value : Z) (mem : list Z) (buf : nat) : res (nat * list Z) :=
  uvalue <- llabs value ;;
  let sign := if value <? 0 then 1 else 0 in
  encode_varint_mem (Z.lor (u64 (Z.shiftl uvalue 1)) sign) mem buf.
