(** Specification for C140: the key functions and the pointers they hand to libsecp256k1. *)
From Verif Require Import Base M_Leak S_LeakBounds.

(** One of the buffers has [n] bytes at [p]. *)
Definition has_room (bs : list buffer) (p : ptr) (n : nat) : Prop := Exists (within (fst p) (snd p) n) bs.

(** Accesses as in [in_bounds].  A library call gets pointers with enough room, as the header of libsecp256k1 asks: a public key and a
    signature have 64 bytes, keys, hashes, tweaks and entropy 32; how much of
    the output a serialization may fill is observed as a write of its own.
    What is filled in must be writable, the rest readable. *)
Definition key_bounds (ins outs locals : list buffer) (e : obs) : Prop :=
  let r := has_room (ins ++ locals) in
  let w := has_room (outs ++ locals) in
  match e with
  | Lib PubkeyCreate [pubkey; seckey] _ => w pubkey 64%nat /\ r seckey 32%nat
  | Lib PubkeySerialize [output; pubkey] _ => w output 33%nat /\ r pubkey 64%nat
  | Lib PrivkeyTweakAdd [seckey; tweak] _ => w seckey 32%nat /\ r tweak 32%nat
  | Lib EcdsaSign (sig :: hash :: seckey :: ndata) _ => w sig 64%nat /\ r hash 32%nat /\ r seckey 32%nat /\ Forall (fun p => r p 32%nat) ndata
  | Lib SerializeCompact [output; sig] _ => w output 64%nat /\ r sig 64%nat
  | Lib _ _ _ => False
  | _ => in_bounds ins outs locals e
  end.

(** The structures of exkey.h: 44 bytes of depth, fingerprint, child number and chain code, then 32 or 33 bytes of key. *)
Definition ex_key_size : nat := 76.
Definition ex_pubkey_size : nat := 77.
Definition locals_derive : list buffer :=
  [local Pubkey64 64; local EncodedPubkey 33; local DeriveOut 64; local Bip32Buffer 37] ++ locals_hmac512.
Definition locals_keyid : list buffer := [local Pubkey64 64; local EncodedPubkey 65; local Sha2Digest 32] ++ locals_sha256.
