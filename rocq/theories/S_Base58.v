(** Specification of base 58: positional numerals. *)
From Verif Require Import Base.

(** The integer denoted by a list of base-[b] digits, most significant first. *)
Definition numeral_value (b : Z) (ds : list Z) : Z := fold_left (fun acc d => acc * b + d) ds 0.

(** [ds] is the base-[b] numeral of [n] without leading zero digit. *)
Definition is_numeral (b n : Z) (ds : list Z) : Prop :=
  Forall (fun d => 0 <= d < b) ds /\ numeral_value b ds = n /\ (forall t, ds <> 0 :: t).

(** The Bitcoin alphabet "123456789ABCDEFGHJKLMNPQRSTUVWXYZabcdefghijkmnopqrstuvwxyz": digits
    without 0, letters without I, O and l. *)
Definition b58_alphabet : list Z :=
  map (fun i => 49 + i) (zrange 9)                                  (* 1-9 *)
  ++ map (fun i => 65 + i) (zrange 8) ++ map (fun i => 74 + i) (zrange 5) ++ map (fun i => 80 + i) (zrange 11) (* A-H J-N P-Z *)
  ++ map (fun i => 97 + i) (zrange 11) ++ map (fun i => 109 + i) (zrange 14).  (* a-k m-z *)
Definition b58_char (d : Z) : Z := nth (Z.to_nat d) b58_alphabet (-1).

(** [is_base58 buf text]: [text] is the base 58 encoding of [buf]: a '1' per leading zero byte, then
    the numeral, with the same value, of the other bytes. *)
Definition is_base58 (buf text : list Z) : Prop :=
  exists z rest ds, buf = repeat 0 z ++ rest /\ (forall t, rest <> 0 :: t) /\
    is_numeral 58 (numeral_value 256 rest) ds /\ text = repeat 49 z ++ map b58_char ds.

(** White space of the C locale. *)
Definition is_space (c : Z) : Prop := c = 32 \/ 9 <= c <= 13.
(** [trims_to text body]: [text] is [body] with white space around it. *)
Definition trims_to (text body : list Z) : Prop :=
  exists s1 s2, text = s1 ++ body ++ s2 /\ Forall is_space s1 /\ Forall is_space s2.
