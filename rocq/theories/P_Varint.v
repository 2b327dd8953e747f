(** Properties C05-C11: variable length integers. *)
From Verif Require Import Base M_Varint S_Varint L_Varint.

(** C05: total; 1..10 bytes; k bytes iff the value lies in the k-th band, i.e. it is at least the
    number of strings shorter than k and less than the number of strings of length <= k. *)
Theorem C05_encode_varint_size : forall v, 0 <= v < 2 ^ 64 ->
  exists l, encode_varint v = Ok (length l, l) /\ bytes l /\ (1 <= length l <= 10)%nat /\
    forall k, length l = k <->
      ((1 <= k)%nat /\ strings_upto (k - 1) <= v < strings_upto k).
Proof. exact encode_size. Qed.
Print Assumptions C05_encode_varint_size.

(** ... and what is written is a complete encoding denoting the value. *)
Theorem C05_encode_varint_meaning : forall v n l, 0 <= v < 2 ^ 64 ->
  encode_varint v = Ok (n, l) -> varint_string l /\ varint_value l = v.
Proof. exact encode_meaning. Qed.
Print Assumptions C05_encode_varint_meaning.

(** C06: round trip; [rest] is whatever follows, [size] any size covering the encoding. *)
Theorem C06_varint_roundtrip : forall v n l rest size, 0 <= v < 2 ^ 64 ->
  encode_varint v = Ok (n, l) -> (length l <= size)%nat ->
  decode_varint (l ++ rest) size = Ok (n, v).
Proof. exact varint_roundtrip. Qed.
Print Assumptions C06_varint_roundtrip.

(** C07: decoding arbitrary bytes.  [window] is the first min(size,10) bytes; nothing else
    need be readable. *)
Theorem C07_decode_varint_total : forall window rest size, bytes window ->
  length window = Nat.min size 10 ->
  (Forall continues window /\ exists v, decode_varint (window ++ rest) size = Ok (0%nat, v)) \/
  (exists p b q, window = p ++ b :: q /\ Forall continues p /\ ends b /\
     decode_varint (window ++ rest) size =
       Ok (S (length p), varint_value (p ++ [b]) mod 2 ^ 64)).
Proof. exact decode_total. Qed.
Print Assumptions C07_decode_varint_total.

(** C08: canonicity among values below 2^64 ... *)
Theorem C08_varint_canonical : forall window rest size n v, bytes window ->
  length window = Nat.min size 10 ->
  decode_varint (window ++ rest) size = Ok (S n, v) ->
  varint_value (firstn (S n) window) < 2 ^ 64 ->
  encode_varint v = Ok (S n, firstn (S n) window).
Proof. exact decode_canonical. Qed.
Print Assumptions C08_varint_canonical.

(** ... and aliases above: for every value below 2^64 whose 10-byte alias exists (all values
    up to strings_upto 10 - 2^64) a different byte string decodes to the same value. *)
Theorem C08_varint_alias : forall v, 0 <= v -> strings_upto 9 <= v + 2 ^ 64 < strings_upto 10 ->
  exists l, length l = 10%nat /\ bytes l /\ varint_value l = v + 2 ^ 64 /\
    decode_varint l 10 = Ok (10%nat, v mod 2 ^ 64) /\
    encode_varint (v mod 2 ^ 64) <> Ok (10%nat, l).
Proof. exact varint_alias. Qed.
Print Assumptions C08_varint_alias.

(** C09: prefix freedom ... *)
Theorem C09_varint_prefix_free : forall v1 v2 n1 n2 l1 l2 t,
  0 <= v1 < 2 ^ 64 -> 0 <= v2 < 2 ^ 64 ->
  encode_varint v1 = Ok (n1, l1) -> encode_varint v2 = Ok (n2, l2) ->
  l2 = l1 ++ t -> t = [] /\ v1 = v2.
Proof. exact prefix_free. Qed.
Print Assumptions C09_varint_prefix_free.

(** ... so a stream of encodings decodes to the same sequence: a reader that calls the decoder
    on the remaining bytes and advances by the returned size. *)
Fixpoint read_stream (fuel : nat) (buf : list Z) : option (list Z) :=
  match fuel, buf with
  | _, [] => Some []
  | O, _ => None
  | S f, _ =>
      match decode_varint buf (length buf) with
      | Ok (S n, v) => option_map (cons v) (read_stream f (skipn (S n) buf))
      | _ => None
      end
  end.

Theorem C09_varint_stream : forall vs encs,
  Forall2 (fun v e => 0 <= v < 2 ^ 64 /\ encode_varint v = Ok (length e, e)) vs encs ->
  read_stream (length vs) (concat encs) = Some vs.
Proof.
  intros vs encs H. induction H as [|v e vs encs [Hv He] H IH]; [reflexivity|].
  destruct (encode_total v Hv) as (l & El & Hs & _ & Hlen).
  rewrite He in El. injection El as E1 E2. subst l.
  cbn [length concat read_stream].
  assert (D : decode_varint (e ++ concat encs) (length (e ++ concat encs)) = Ok (length e, v)).
  { apply varint_roundtrip; [exact Hv|exact He|rewrite app_length; lia]. }
  destruct e as [|b e]; [cbn in Hlen; lia|].
  cbn [app]. cbn [app] in D. rewrite D. cbn [length].
  change (skipn (S (length e)) (b :: e ++ concat encs)) with (skipn (length (b :: e)) ((b :: e) ++ concat encs)).
  rewrite skipn_app_exact, IH. reflexivity.
Qed.
Print Assumptions C09_varint_stream.

(** C10: zigzag round trip for every int64 except the minimum. *)
Theorem C10_zigzag_roundtrip_partial : forall v rest size out0, INT64_MIN < v <= INT64_MAX ->
  exists l, encode_zigzag v = Ok (length l, l) /\ (length l <= 10)%nat /\
    ((length l <= size)%nat -> decode_zigzag (l ++ rest) size out0 = Ok (length l, v)).
Proof. exact zigzag_roundtrip. Qed.
Print Assumptions C10_zigzag_roundtrip_partial.

(** What is written for v: the varint whose value is twice the magnitude, plus one for negative numbers. *)
Theorem C10_encode_zigzag_meaning_partial : forall v, INT64_MIN < v <= INT64_MAX ->
  exists l, encode_zigzag v = Ok (length l, l) /\ bytes l /\ (1 <= length l <= 10)%nat /\ varint_string l /\
    varint_value l = 2 * Z.abs v + (if v <? 0 then 1 else 0).
Proof.
  unfold INT64_MIN, INT64_MAX. intros v Hv. unfold encode_zigzag, llabs, INT64_MAX.
  rewrite (proj2 (Z.leb_le _ _)) by lia. cbn [bind].
  assert (Es : Z.lor (u64 (Z.shiftl (Z.abs v) 1)) (if v <? 0 then 1 else 0) = 2 * Z.abs v + (if v <? 0 then 1 else 0)).
  { rewrite Z.shiftl_mul_pow2 by lia. change (2 ^ 1) with 2. rewrite u64_small by lia.
    change 2 with (2 ^ 1) at 1. rewrite lor_disjoint by (destruct (v <? 0); lia). change (2 ^ 1) with 2. lia. }
  rewrite Es.
  destruct (encode_total (2 * Z.abs v + (if v <? 0 then 1 else 0))) as (l & E & Hs & Hval & Hl).
  { destruct (v <? 0); lia. }
  exists l. repeat split; try assumption; try lia. apply string_bytes, Hs.
Qed.
Print Assumptions C10_encode_zigzag_meaning_partial.

(** The full claim (including INT64_MIN) is false of the code: llabs(INT64_MIN) is undefined. *)
Theorem C10_zigzag_min_refuted :
  ~ (forall v, INT64_MIN <= v <= INT64_MAX -> exists l, encode_zigzag v = Ok (length l, l)).
Proof.
  intros H. destruct (H INT64_MIN) as [l Hl]; [unfold INT64_MIN, INT64_MAX; lia|].
  vm_compute in Hl. discriminate.
Qed.
Print Assumptions C10_zigzag_min_refuted.

(** C11: decoding any bytes: no overflow, result above INT64_MIN, untouched on failure. *)
Theorem C11_decode_zigzag_safe : forall window rest size out0, bytes window ->
  length window = Nat.min size 10 ->
  exists n v, decode_zigzag (window ++ rest) size out0 = Ok (n, v) /\
    (n = 0%nat -> v = out0) /\ (n <> 0%nat -> INT64_MIN < v <= INT64_MAX).
Proof. exact zigzag_safe. Qed.
Print Assumptions C11_decode_zigzag_safe.

(** ... and the value: the varint (modulo 2^64) read as magnitude and sign bit. *)
Theorem C11_decode_zigzag_meaning : forall window rest size out0, bytes window ->
  length window = Nat.min size 10 ->
  (Forall continues window /\ decode_zigzag (window ++ rest) size out0 = Ok (0%nat, out0)) \/
  (exists p b q, window = p ++ b :: q /\ Forall continues p /\ ends b /\
     let u := varint_value (p ++ [b]) mod 2 ^ 64 in
     decode_zigzag (window ++ rest) size out0 =
       Ok (S (length p), if u mod 2 =? 0 then u / 2 else - (u / 2))).
Proof.
  intros window rest size out0 Hb Hl.
  destruct (decode_total window rest size Hb Hl) as [[Hc [v E]]|(p & b & q & -> & Hp & He & E)].
  - left. split; [exact Hc|]. unfold decode_zigzag. rewrite E. reflexivity.
  - right. exists p, b, q. repeat (split; [assumption || reflexivity|]). intros u.
    unfold decode_zigzag. rewrite E. fold u. cbn [bind].
    assert (Hu : 0 <= u < 2 ^ 64) by (apply Z.mod_pos_bound; lia).
    change (0 <? S (length p))%nat with true. cbv iota.
    change 1 with (2 ^ 1 - 1) at 1. rewrite land_ones' by lia. rewrite Z.shiftr_div_pow2 by lia. change (2 ^ 1) with 2.
    unfold to_int64, neg_int64, INT64_MAX, INT64_MIN. rewrite (proj2 (Z.leb_le (u / 2) _)) by dlia.
    destruct (u mod 2 =? 0); cbn [negb]; [reflexivity|].
    rewrite (proj2 (Z.eqb_neq (u / 2) _)) by dlia. reflexivity.
Qed.
Print Assumptions C11_decode_zigzag_meaning.

Example C11_ex : decode_zigzag [128; 3; 9] 3 0 = Ok (2%nat, -65) /\ Nat.min 3 10 = length [128; 3; 9].
Proof. split; vm_compute; reflexivity. Qed.

Example varint_ex1 : encode_varint 16512 = Ok (3%nat, [128; 128; 0]) /\ decode_varint [128; 128; 0; 7] 4 = Ok (3%nat, 16512).
Proof. split; vm_compute; reflexivity. Qed.
Example varint_ex2 : exists l, encode_varint (2 ^ 64 - 1) = Ok (10%nat, l) /\ decode_varint l 10 = Ok (10%nat, 2 ^ 64 - 1).
Proof. eexists. split; [vm_compute; reflexivity|]. vm_compute. reflexivity. Qed.
Example C08_alias_ex : 0 <= 5 /\ strings_upto 9 <= 5 + 2 ^ 64 < strings_upto 10.
Proof. split; [lia|]. split; [apply Z.leb_le|apply Z.ltb_lt]; vm_compute; reflexivity. Qed.
Example C10_ex : INT64_MIN < -42 <= INT64_MAX /\ encode_zigzag (-42) = Ok (1%nat, [85]).
Proof. split; [unfold INT64_MIN, INT64_MAX; lia|vm_compute; reflexivity]. Qed.
