(** Specification vocabulary for extended keys. *)
From Verif Require Import Base S_Words S_Base58Check S_Address M_Random M_Secp M_Key M_Exkey.

(** The C structures hold a byte, two 32-bit words and arrays of 32 or 33 bytes. *)
Definition wf_ext (e : ex_extension) : Prop :=
  0 <= x_depth e < 256 /\ 0 <= x_fingerprint e < 2 ^ 32 /\ 0 <= x_child e < 2 ^ 32 /\ bytes (x_chain_code e) /\ length (x_chain_code e) = 32%nat.
Definition wf_key (k : ex_key) : Prop := wf_ext (xk_ext k) /\ bytes (xk_key k) /\ length (xk_key k) = 32%nat.
Definition wf_pub (p : ex_pubkey) : Prop := wf_ext (xp_ext p) /\ bytes (xp_c_pubkey p) /\ length (xp_c_pubkey p) = 33%nat.

(** The 74-byte serialisation of BIP-32 (without the version bytes): depth, parent fingerprint (its four
    bytes in the order of the hash, which the library keeps in a little-endian word), child number, chain code, key data. *)
Definition ext_layout (e : ex_extension) : list Z :=
  [x_depth e] ++ le_bytes 4 (x_fingerprint e) ++ be_bytes 4 (x_child e) ++ x_chain_code e.
Definition key_layout (k : ex_key) : list Z := ext_layout (xk_ext k) ++ [0] ++ xk_key k.
Definition pub_layout (p : ex_pubkey) : list Z := ext_layout (xp_ext p) ++ xp_c_pubkey p.

(** Deriving along a path of (child number, fingerprint) pairs, stopping at the first failure; [blank] is the
    structure handed in for the result. *)
Fixpoint derive_path (E : secp) (g : globals) (blank : ex_key) (path : list (Z * Z)) (k : ex_key) : res (option ex_key) :=
  match path with
  | [] => Ok (Some k)
  | (i, fp) :: path =>
      '(ok, k') <- exkey_derive E g k blank i fp ;;
      if ok : bool then derive_path E g blank path k' else Ok None
  end.
Fixpoint derive_pub_path (E : secp) (g : globals) (blank : ex_pubkey) (path : list (Z * Z)) (p : ex_pubkey) : res (option ex_pubkey) :=
  match path with
  | [] => Ok (Some p)
  | (i, fp) :: path =>
      '(ok, p') <- expubkey_derive E g p blank i fp ;;
      if ok : bool then derive_pub_path E g blank path p' else Ok None
  end.

(** The string forms: Base58Check of the version bytes and the serialisation. *)
Definition is_xprv (version : list Z) (k : ex_key) (text : list Z) : Prop := base58_address version (key_layout k) text.
Definition is_xpub (version : list Z) (p : ex_pubkey) (text : list Z) : Prop := base58_address version (pub_layout p) text.
