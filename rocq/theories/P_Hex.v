(** Properties C01-C04: hex encoding, decoding and dump. *)
From Verif Require Import Base M_Hex S_Hex L_Hex.

(** C01: exactly two characters per byte, high nibble first, lower case iff upper = 0. *)
Theorem C01_to_hex_exact : forall buf upper, bytes buf ->
  length (to_hex buf upper) = to_hex_length (length buf) /\
  forall i b, nth_error buf i = Some b ->
    nth_error (to_hex buf upper) (2 * i) = Some (hex_digit (negb (upper =? 0)) (b / 16)) /\
    nth_error (to_hex buf upper) (2 * i + 1) = Some (hex_digit (negb (upper =? 0)) (b mod 16)).
Proof.
  intros buf upper Hb. rewrite (to_hex_spec _ _ Hb). split.
  - rewrite length_encode. unfold to_hex_length. lia.
  - exact (nth_error_encode (ub upper) buf).
Qed.
Print Assumptions C01_to_hex_exact.

(** C02: round trip, whatever follows the text in memory. *)
Theorem C02_hex_roundtrip : forall buf upper rest, bytes buf ->
  from_hex (to_hex buf upper ++ rest) (length (to_hex buf upper)) = Ok (length buf, buf).
Proof. exact hex_roundtrip. Qed.
Print Assumptions C02_hex_roundtrip.

(** C03: arbitrary text.  [text] is the [str_len] characters given; [rest] is whatever
    follows them in memory (possibly nothing: then any further read would be UB). *)
Theorem C03_from_hex_total : forall text rest, bytes text ->
  exists out, from_hex (text ++ rest) (length text) = Ok (length out, out) /\
    leading_pairs text out /\
    (length out <= from_hex_length (length text))%nat.
Proof. exact from_hex_bound. Qed.
Print Assumptions C03_from_hex_total.

(** ... and [leading_pairs] determines the output. *)
Theorem C03_leading_pairs_unique : forall text o1 o2,
  leading_pairs text o1 -> leading_pairs text o2 -> o1 = o2.
Proof. exact leading_pairs_fun. Qed.

(** C04: the dump is the documented text, the cache never overflows. *)
Theorem C04_hex_dump_layout : forall buf upper, bytes buf ->
  exists chunks, hex_dump buf upper = Ok chunks /\
    concat chunks = dump_text (negb (upper =? 0)) buf /\
    Forall (fun c => (length c <= 1024)%nat) chunks.
Proof. exact (fun buf upper => hex_dump_spec upper buf). Qed.
Print Assumptions C04_hex_dump_layout.

(** Non-vacuity and sanity. *)
Example C01_ex : bytes [222; 173; 0] /\ to_hex [222; 173; 0] 0 = [100; 101; 97; 100; 48; 48].
Proof. split; [repeat constructor; unfold is_byte; lia|reflexivity]. Qed.
Example C03_ex : from_hex [65; 98; 48; 120; 49] 5 = Ok (1%nat, [171]).
Proof. reflexivity. Qed.
(** 700 bytes: the cache is flushed once in the middle. *)
Example C04_ex : exists a b, hex_dump (repeat 171 700) 1 = Ok [a; b] /\ (1000 < length a)%nat.
Proof. do 2 eexists. split; vm_compute; [reflexivity|repeat constructor]. Qed.
