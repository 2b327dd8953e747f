(** Client programs for C116: a signing machine that holds an extended private key, and a watch-only machine that holds the
    extended public key.  They use the API only: strings are NUL-terminated, fingerprints are computed from the parent key. *)
From Verif Require Import Base M_Address M_Random M_Secp M_Key M_Exkey.

(** Walk down a path, one fingera_exkey_derive per step; [None] when a step reports failure. *)
Fixpoint walk_private (E : secp) (g : globals) (scratch : ex_key) (path : list Z) (k : ex_key) : res (option ex_key) :=
  match path with
  | [] => Ok (Some k)
  | child :: path =>
      fp <- key_fingerprint E g (xk_key k) true ;;
      '(ok, k') <- exkey_derive E g k scratch child fp ;;
      if ok : bool then walk_private E g scratch path k' else Ok None
  end.
Fixpoint walk_public (E : secp) (g : globals) (scratch : ex_pubkey) (path : list Z) (p : ex_pubkey) : res (option ex_pubkey) :=
  match path with
  | [] => Ok (Some p)
  | child :: path =>
      fp <- pubkey_fingerprint (xp_c_pubkey p) ;;
      '(ok, p') <- expubkey_derive E g p scratch child fp ;;
      if ok : bool then walk_public E g scratch path p' else Ok None
  end.

(** Import a string and walk from there; [None] when the string is refused or a step fails. *)
Definition signer (E : secp) (g : globals) (scratch : ex_key) (net : chain_parameters) (xprv : list Z) (path : list Z) : res (option ex_key) :=
  '(ok, k) <- exkey_from_string (xprv ++ [0]) (length xprv) scratch net ;;
  if ok =? 1 then walk_private E g scratch path k else Ok None.
Definition watcher (E : secp) (g : globals) (scratch : ex_pubkey) (net : chain_parameters) (xpub : list Z) (path : list Z) : res (option ex_pubkey) :=
  '(ok, p) <- expubkey_from_string (xpub ++ [0]) (length xpub) scratch net ;;
  if ok =? 1 then walk_public E g scratch path p else Ok None.

(** The addresses of a key, as each machine computes them (pay-to-public-key-hash, and witness version 0). *)
Definition signer_addresses (E : secp) (g : globals) (net : chain_parameters) (k : ex_key) : res ((nat * list Z) * (nat * list Z)) :=
  id <- key_keyid E g (xk_key k) true ;;
  a <- to_address_pubkey id 64 net ;;
  b <- to_address_witnessv0_keyhash id 64 net ;;
  Ok (a, b).
Definition watcher_addresses (E : secp) (g : globals) (net : chain_parameters) (p : ex_pubkey) : res (option ((nat * list Z) * (nat * list Z))) :=
  P <- pubkey_decode E g (xp_c_pubkey p) 33 ;;
  match P with
  | None => Ok None
  | Some P =>
      id <- pubkey_keyid E g P true ;;
      a <- to_address_pubkey id 64 net ;;
      b <- to_address_witnessv0_keyhash id 64 net ;;
      Ok (Some (a, b))
  end.
