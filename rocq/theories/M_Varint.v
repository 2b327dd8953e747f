(** Model of src/compress_integer.c. *)
From Verif Require Import Base.

(** src/compress_integer.c:10-15, the loop filling [uint8_t tmp[10]].  [slots] is
    [10 - len], [acc] holds [tmp[len-1], ..., tmp[0]]; storing at [tmp[10]] is
    undefined.  [len ? 0x80 : 0x00] is 0 exactly while [acc] is empty. *)
Fixpoint encode_varint_loop (slots : nat) (value : Z) (acc : list Z) : res (list Z) :=
  match slots with
  | O => UB
  | S slots' =>
      let flag := match acc with [] => 0 | _ => 128 end in
      let byte := u8 (Z.lor (Z.land value 127) flag) in
      if value <=? 127 then Ok (byte :: acc)
      else encode_varint_loop slots' (u64 (Z.shiftr value 7 - 1)) (byte :: acc)
  end.

(** src/compress_integer.c:5-22 [fingera_encode_varint] for a [uint64_t value]: returned
    size and bytes written.  Lines 17-19 copy [tmp[len]] down to [tmp[0]], which
    is the order of [acc]. *)
Definition encode_varint (value : Z) : res (nat * list Z) :=
  out <- encode_varint_loop 10 value [] ;;
  Ok (length out, out).

(** src/compress_integer.c:28-36, the loop of [fingera_decode_varint]: [n] iterations
    remain, [i] bytes were consumed, [inp] is the readable memory from [in] on, [out] is [*out]. *)
Fixpoint decode_varint_loop (n : nat) (i : nat) (inp : list Z) (out : Z) : res (nat * Z) :=
  match n with
  | O => Ok (0%nat, out)
  | S n' =>
      match inp with
      | [] => UB
      | byte :: rest =>
          let out := Z.lor (u64 (Z.shiftl out 7)) (Z.land byte 127) in
          if negb (Z.land byte 128 =? 0)
          then decode_varint_loop n' (S i) rest (u64 (out + 1))
          else Ok (S i, out)
      end
  end.

(** src/compress_integer.c:24-38 [fingera_decode_varint]: return value and [*out].
    [buf] is the memory readable from the pointer on. *)
Definition decode_varint (buf : list Z) (size : nat) : res (nat * Z) :=
  let size := if (10 <? size)%nat then 10%nat else size in
  decode_varint_loop size 0 buf 0.

(** [llabs], undefined when the result is not representable. *)
(** src/compress_integer.c:41 (the C library function) *)
Definition llabs (v : Z) : res Z :=
  if Z.abs v <=? INT64_MAX then Ok (Z.abs v) else UB.

(** src/compress_integer.c:40-46 [fingera_encode_zigzag] for an [int64_t value]. *)
Definition encode_zigzag (value : Z) : res (nat * list Z) :=
  uvalue <- llabs value ;;
  let sign := if value <? 0 then 1 else 0 in
  let uvalue := u64 (Z.shiftl uvalue 1) in
  let uvalue := Z.lor uvalue sign in
  encode_varint uvalue.

(** conversion [(int64_t)u] of a [uint64_t] (two's complement, as gcc defines it) *)
(** src/compress_integer.c:56,58 *)
Definition to_int64 (u : Z) : Z := if u <=? INT64_MAX then u else u - 2 ^ 64.

(** negation of an [int64_t], undefined at the minimum *)
(** src/compress_integer.c:56 *)
Definition neg_int64 (v : Z) : res Z := if v =? INT64_MIN then UB else Ok (- v).

(** src/compress_integer.c:48-62 [fingera_decode_zigzag]: return value and the
    contents of [*out] afterwards, which holds [out0] before the call. *)
Definition decode_zigzag (buf : list Z) (size : nat) (out0 : Z) : res (nat * Z) :=
  ' (len, uvalue) <- decode_varint buf size ;;
  if (0 <? len)%nat then
    let sign := Z.land uvalue 1 in
    let uvalue := Z.shiftr uvalue 1 in
    if negb (sign =? 0) then
      out <- neg_int64 (to_int64 uvalue) ;;
      Ok (len, out)
    else Ok (len, to_int64 uvalue)
  else Ok (len, out0).
