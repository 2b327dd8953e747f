(** Vocabulary for C120-C122: what a hash collision is, the pieces RFC 2104 makes an HMAC of, and the client programs that turn keys and
    scripts into addresses. *)
From Verif Require Import Base S_Words S_Sha2 M_Sha2 M_Hash M_Address M_Random M_Secp M_Key.

(** A collision of [H]: two given, different messages with the same digest.  (Every hash function has collisions; the point is that the
    two messages are named.) *)
Definition collision (H : list Z -> list Z) (x y : list Z) : Prop := x <> y /\ H x = H y.

(** RFC 2104: the key block, and the two messages that are hashed. *)
Definition key_block (H : list Z -> list Z) (blk : nat) (key : list Z) : list Z :=
  let k := if (length key <=? blk)%nat then key else H key in k ++ repeat 0 (blk - length k).
Definition inner_message (H : list Z -> list Z) (blk : nat) (key msg : list Z) : list Z := map (Z.lxor 0x36) (key_block H blk key) ++ msg.
Definition outer_message (H : list Z -> list Z) (blk : nat) (key msg : list Z) : list Z :=
  map (Z.lxor 0x5c) (key_block H blk key) ++ H (inner_message H blk key msg).

(** Who is paid: the holder of a private key (by its public key in either format), or whoever satisfies a script. *)
Inductive payee := PayKey (key : list Z) (compressed : bool) | PayScript (script : list Z)
 | PayWitnessKey (key : list Z) | PayWitnessScript (script : list Z).

(** The API calls that give the address. *)
Definition pay_text (E : secp) (g : globals) (net : chain_parameters) (x : payee) : res (nat * list Z) :=
  match x with
  | PayKey key c => id <- key_keyid E g key c ;; to_address_pubkey id 128 net
  | PayScript s => id <- btc_hash160 s (length s) ;; to_address_script id 128 net
  | PayWitnessKey key => id <- key_keyid E g key true ;; to_address_witnessv0_keyhash id 128 net
  | PayWitnessScript s => id <- sha2_256 s (length s) ;; to_address_witnessv0_scripthash id 128 net
  end.

(** What is hashed to get the address. *)
Definition pay_data (E : secp) (x : payee) : list Z :=
  match x with
  | PayKey key c => ser E c (pub_of E (be_val key))
  | PayWitnessKey key => ser E true (pub_of E (be_val key))
  | PayScript s | PayWitnessScript s => s
  end.
Definition good_payee (x : payee) : Prop :=
  match x with
  | PayKey key _ | PayWitnessKey key => bytes key /\ length key = 32%nat /\ 0 < be_val key < secp_n
  | PayScript s | PayWitnessScript s => bytes s /\ Z.of_nat (length s) < 2 ^ 61
  end.
