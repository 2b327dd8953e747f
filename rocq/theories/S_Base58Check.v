(** Specification of Base58Check: payload followed by four bytes of double SHA-256. *)
From Verif Require Import Base S_Sha2 S_Base58.

Definition checksum4 (data : list Z) : list Z := firstn 4 (SHA256 (SHA256 data)).

(** [is_base58check data text]: [text] is the Base58Check encoding of [data]
    (version prefix included in [data]). *)
Definition is_base58check (data text : list Z) : Prop := is_base58 (data ++ checksum4 data) text.
