(** Specification: hexadecimal text, by arithmetic on ASCII codes. *)
From Verif Require Import Base.

(** ASCII character of the digit [v] in 0..15: '0'..'9' then 'a'..'f' or 'A'..'F'. *)
Definition hex_digit (upper : bool) (v : Z) : Z :=
  if v <? 10 then 48 + v else (if upper then 65 else 97) + (v - 10).

(** Value of an ASCII character as a hexadecimal digit. *)
Definition hex_value (c : Z) : option Z :=
  if (48 <=? c) && (c <=? 57) then Some (c - 48)
  else if (65 <=? c) && (c <=? 70) then Some (c - 55)
  else if (97 <=? c) && (c <=? 102) then Some (c - 87)
  else None.

(** [leading_pairs text out]: [out] is the list of bytes denoted by the leading well-formed
    pairs of digits of [text]: the pairs stop at the first pair with a
    non-digit, or when fewer than two characters are left. *)
Inductive leading_pairs : list Z -> list Z -> Prop :=
| lp_nil : leading_pairs [] []
| lp_odd c : leading_pairs [c] []
| lp_stop c d text : hex_value c = None \/ hex_value d = None ->
    leading_pairs (c :: d :: text) []
| lp_pair c d x y text out : hex_value c = Some x -> hex_value d = Some y ->
    leading_pairs text out ->
    leading_pairs (c :: d :: text) (16 * x + y :: out).

(** The text of a hex dump.  Bytes are written as two digits; between consecutive bytes
    at positions i-1 and i comes a separator that depends on i only: one space when 4
    divides i, two when 8 does, three when 16 does, and three spaces and a newline
    when 32 does.  The dump ends with a newline. *)
Definition dump_separator (i : Z) : list Z :=
  if i =? 0 then []
  else if i mod 32 =? 0 then [32; 32; 32; 10]
  else if i mod 16 =? 0 then [32; 32; 32]
  else if i mod 8 =? 0 then [32; 32]
  else if i mod 4 =? 0 then [32]
  else [].

Definition dump_byte (upper : bool) (b : Z) : list Z :=
  [hex_digit upper (b / 16); hex_digit upper (b mod 16)].

Definition dump_text (upper : bool) (buf : list Z) : list Z :=
  concat (map (fun p => dump_separator (Z.of_nat (fst p)) ++ dump_byte upper (snd p))
              (combine (seq 0 (length buf)) buf))
  ++ [10].
