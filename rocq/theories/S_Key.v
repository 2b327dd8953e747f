(** Specification vocabulary for key strings. *)
From Verif Require Import Base S_Base58 S_Base58Check S_Address.

(** [text], without surrounding white space, is the base 58 text of [d]. *)
Definition b58_decodes (text d : list Z) : Prop := exists body, trims_to text body /\ is_base58 d body.

(** Wallet import format: Base58Check of the network prefix, the 32-byte key, and 01 for a compressed public key. *)
Definition is_wif (prefix key : list Z) (compressed : bool) (text : list Z) : Prop :=
  length key = 32%nat /\ bytes key /\ base58_address prefix (key ++ if compressed then [1] else []) text.
