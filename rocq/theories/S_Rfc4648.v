(** Specification of RFC 4648 base64, base64url and base32, on top of bit strings (S_Bits). *)
From Verif Require Import Base S_Bits.

(** RFC 4648 table 1 (base64) and table 2 (base64url): the character of a 6-bit value. *)
Definition b64_char (url : bool) (v : Z) : Z :=
  if v <? 26 then 65 + v                   (* 'A'.. *)
  else if v <? 52 then 97 + (v - 26)       (* 'a'.. *)
  else if v <? 62 then 48 + (v - 52)       (* '0'.. *)
  else if v =? 62 then (if url then 45 else 43)   (* '-' or '+' *)
  else (if url then 95 else 47).           (* '_' or '/' *)

(** RFC 4648 table 3 (base32), in the lower case the library uses. *)
Definition b32_char (v : Z) : Z :=
  if v <? 26 then 97 + v else 50 + (v - 26).     (* 'a'..'z' '2'..'7' *)

(** The characters of the 6-bit (5-bit) groups of the buffer, the last zero padded. *)
Definition b64_body (url : bool) (buf : list Z) : list Z := map (b64_char url) (regroup_pad 6 buf).
Definition b32_body (buf : list Z) : list Z := map b32_char (regroup_pad 5 buf).

(** Section 4: padded with '=' to a multiple of 4; section 5 as used here: no padding. *)
Definition rfc4648_base64 (buf : list Z) : list Z :=
  let body := b64_body false buf in
  body ++ repeat 61 ((4 - length body mod 4) mod 4).
Definition rfc4648_base64url_nopad (buf : list Z) : list Z := b64_body true buf.
(** Section 6: padded with '=' to a multiple of 8. *)
Definition rfc4648_base32_lower (buf : list Z) : list Z :=
  let body := b32_body buf in
  body ++ repeat 61 ((8 - length body mod 8) mod 8).

(** The value of a character, as an inverse of the tables. *)
Definition b64_value (url : bool) (c : Z) : option Z :=
  if (65 <=? c) && (c <=? 90) then Some (c - 65)
  else if (97 <=? c) && (c <=? 122) then Some (c - 97 + 26)
  else if (48 <=? c) && (c <=? 57) then Some (c - 48 + 52)
  else if c =? (if url then 45 else 43) then Some 62
  else if c =? (if url then 95 else 47) then Some 63
  else None.

(** What the library's standard (not url-safe) decoding table accepts: additionally the
    padding character '=' as if it were a digit 0, anywhere. *)
Definition b64_lax_value (url : bool) (c : Z) : option Z :=
  if negb url && (c =? 61) then Some 0 else b64_value url c.

(** Base 32, both cases accepted. *)
Definition b32_value (c : Z) : option Z :=
  if (65 <=? c) && (c <=? 90) then Some (c - 65)
  else if (97 <=? c) && (c <=? 122) then Some (c - 97)
  else if (50 <=? c) && (c <=? 55) then Some (c - 50 + 26)
  else None.

Fixpoint all_values (val : Z -> option Z) (l : list Z) : option (list Z) :=
  match l with
  | [] => Some []
  | c :: t =>
      match val c, all_values val t with
      | Some v, Some vs => Some (v :: vs)
      | _, _ => None
      end
  end.

(** [valid_blocks val n text vals]: cut [text] into blocks of [n] characters (the last may be
    shorter); [vals] are the values of the characters of the longest sequence of
    leading blocks without an invalid character. *)
Inductive valid_blocks (val : Z -> option Z) (n : nat) : list Z -> list Z -> Prop :=
| vb_end : valid_blocks val n [] []
| vb_bad text : text <> [] -> all_values val (firstn n text) = None ->
    valid_blocks val n text []
| vb_block text vs rest : text <> [] -> all_values val (firstn n text) = Some vs ->
    valid_blocks val n (skipn n text) rest ->
    valid_blocks val n text (vs ++ rest).

(** Raw base 32: the values 0..31 themselves. *)
Definition b32_raw_value (c : Z) : option Z := if (0 <=? c) && (c <? 32) then Some c else None.

(** A number of base 32 characters that a whole number of bytes encodes to, modulo 8. *)
Definition b32_good_length (n : nat) : Prop := In (n mod 8)%nat [0; 2; 4; 5; 7]%nat.
