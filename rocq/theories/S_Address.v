(** Specification vocabulary for addresses. *)
From Verif Require Import Base S_Base58 S_Base58Check S_Bits S_Rfc4648 S_Bech32.

(** Scanning [mem] for a '=' or a NUL finds a NUL first. *)
Definition nul_first (mem : list Z) : Prop := exists a b, mem = a ++ 0 :: b /\ ~ In 61 a.

(** The last of the stack bytes is a NUL and none is a '='. *)
Definition good_stack (stack : list Z) : Prop := ~ In 61 stack /\ exists a, stack = a ++ [0].

(** BIP-173 witness address text of a version and a program. *)
Definition witness_text (hrp : list Z) (version : Z) (program : list Z) : list Z :=
  let data := version :: regroup_pad 5 program in
  hrp ++ [49] ++ map bech32_char (data ++ bech32_checksum hrp data).

(** The bits beyond the last whole byte of 5-bit values are fewer than five, all zero (BIP-173). *)
Definition canonical_padding (vals : list Z) : Prop :=
  (length (spare_bits 5 vals) < 5)%nat /\ Forall (fun b => b = false) (spare_bits 5 vals).

(** [text], without surrounding white space, is the Base58Check text of [prefix ++ payload]. *)
Definition base58_address (prefix payload text : list Z) : Prop :=
  exists body, trims_to text body /\ is_base58check (prefix ++ payload) body.

(** [text] is also a Base58Check text starting with one of two given prefixes. *)
Definition also_base58 (prefix1 prefix2 text : list Z) : Prop :=
  exists payload, bytes payload /\ (base58_address prefix1 payload text \/ base58_address prefix2 payload text).
