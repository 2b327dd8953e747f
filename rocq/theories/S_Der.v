(** Specification vocabulary for DER: strict signatures, the lenient language of
    the signature decoder, the lenient language of the private key decoder, and the
    ECPrivateKey structure of SEC 1. *)
From Verif Require Import Base S_Words.

(** ** Signatures *)

(** Contents of a DER INTEGER for [v >= 0]: big-endian, top bit clear, no superfluous leading zero byte. *)
Definition is_der_int (v : Z) (bs : list Z) : Prop :=
  bytes bs /\ bs <> [] /\ be_val bs = v /\ hd 0 bs < 128 /\ (forall b t, bs = 0 :: b :: t -> 128 <= b).

(** Strict DER (BIP 66, without the hash type byte): SEQUENCE of two INTEGERs with one-byte lengths. *)
Definition strict_der (r s : Z) (enc : list Z) : Prop :=
  exists R S, is_der_int r R /\ is_der_int s S /\
    enc = [48; Z.of_nat (4 + length R + length S); 2; Z.of_nat (length R)] ++ R ++ [2; Z.of_nat (length S)] ++ S.

(** A length field that is skipped: one byte below 128, or a count and that many bytes. *)
Definition lax_skip (f : list Z) : Prop :=
  (exists b, f = [b] /\ 0 <= b < 128) \/ (exists l, f = (128 + Z.of_nat (length l)) :: l /\ (length l < 128)%nat).
(** A length field that denotes [n]: one byte below 128, or a count and that many bytes, any number of leading zeros, value below 2^24. *)
Definition lax_len (n : nat) (f : list Z) : Prop :=
  (f = [Z.of_nat n] /\ (n < 128)%nat) \/
  (exists l, f = (128 + Z.of_nat (length l)) :: l /\ (length l < 128)%nat /\ be_val l = Z.of_nat n /\ Z.of_nat n < 2 ^ 24).

(** The lenient signature language: sequence tag, ignored length, two INTEGERs with contents [R] and [S] (any padding), anything. *)
Definition lax_der (input R S : list Z) : Prop :=
  exists f fR fS rest, lax_skip f /\ lax_len (length R) fR /\ lax_len (length S) fS /\
    input = 48 :: f ++ (2 :: fR ++ R) ++ (2 :: fS ++ S) ++ rest.

(** ** Private keys *)

(** The lenient private key language: sequence of one- or two-byte length (not larger than what follows), version 1,
    OCTET STRING of at most 32 bytes, anything; the key is that string padded on the left. *)
Definition lax_privkey (input key : list Z) : Prop :=
  exists f body os rest, ((exists a, f = [0x81; a] /\ a <= Z.of_nat (length body)) \/
                     (exists a b, f = [0x82; a; b] /\ a * 256 + b <= Z.of_nat (length body))) /\
    body = [2; 1; 1; 4; Z.of_nat (length os)] ++ os ++ rest /\ (length os <= 32)%nat /\
    input = 0x30 :: f ++ body /\ key = repeat 0 (32 - length os) ++ os.

(** DER tag-length-value with definite, shortest length (contents below 65536 bytes). *)
Definition der_length (n : nat) : list Z :=
  if (n <? 128)%nat then [Z.of_nat n]
  else if (n <? 256)%nat then [0x81; Z.of_nat n] else [0x82; Z.of_nat n / 256; Z.of_nat n mod 256].
Definition tlv (tag : Z) (contents : list Z) : list Z := tag :: der_length (length contents) ++ contents.

(** secp256k1 domain parameters (SEC 2). *)
Definition secp_p : Z := 2 ^ 256 - 2 ^ 32 - 977.
Definition secp_Gx : Z := 0x79BE667EF9DCBBAC55A06295CE870B07029BFCDB2DCE28D959F2815B16F81798.
Definition secp_Gy : Z := 0x483ADA7726A3C4655DA4FBFC0E1108A8FD17B448A68554199C47D08FFB10D4B8.
Definition secp_order : Z := 0xFFFFFFFFFFFFFFFFFFFFFFFFFFFFFFFEBAAEDCE6AF48A03BBFD25E8CD0364141.

(** SEC 1 C.4 ECPrivateKey with explicit domain parameters and the public key. *)
Definition ec_private_key (key pub : list Z) (compressed : bool) : list Z :=
  tlv 0x30 (tlv 0x02 [1] ++ tlv 0x04 key ++
    tlv 0xA0 (tlv 0x30 (tlv 0x02 [1] ++
      tlv 0x30 (tlv 0x06 [0x2A; 0x86; 0x48; 0xCE; 0x3D; 0x01; 0x01] ++ tlv 0x02 (0 :: be_bytes 32 secp_p)) ++
      tlv 0x30 (tlv 0x04 [0] ++ tlv 0x04 [7]) ++
      tlv 0x04 (if compressed then 2 :: be_bytes 32 secp_Gx else 4 :: be_bytes 32 secp_Gx ++ be_bytes 32 secp_Gy) ++
      tlv 0x02 (0 :: be_bytes 32 secp_order) ++ tlv 0x02 [1])) ++
    tlv 0xA1 (tlv 0x03 (0 :: pub))).
