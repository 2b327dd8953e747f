(** Client programs for C135: the signer and the watcher of C116 with everything in one memory.  Structures are at addresses; the signer
    steps back and forth between two structures, the watcher derives in place. *)
From Verif Require Import Base S_Mem M_Address M_Scratch M_Random M_Secp M_Key M_Exkey M_Overlap M_MemBtc M_MemKey S_Overlap.

(** success, memory, and the structure that holds the result *)
Fixpoint walk_private_mem (E : secp) (g : globals) (mem : list Z) (a b : nat) (path : list Z) : res (bool * list Z * nat) :=
  match path with
  | [] => Ok (true, mem, a)
  | child :: path =>
      fp <- key_fingerprint E g (skipn (a + 44) mem) true ;;
      '(ok, mem) <- exkey_derive_at Standard E g mem a b child fp ;;
      if ok : bool then walk_private_mem E g mem b a path else Ok (false, mem, b)
  end.
Fixpoint walk_public_mem (E : secp) (g : globals) (mem : list Z) (a : nat) (path : list Z) : res (bool * list Z) :=
  match path with
  | [] => Ok (true, mem)
  | child :: path =>
      fp <- pubkey_fingerprint (skipn (a + 44) mem) ;;
      '(ok, mem) <- expubkey_derive_at E g mem a a child fp ;;
      if ok : bool then walk_public_mem E g mem a path else Ok (false, mem)
  end.

(** The owner of the extended private key at [xk] writes the extended public key to [xp] and its text, NUL-terminated, to [str]; the watcher reads the
    text to [xw]; then both walk down the path.  Reported: whether the text was accepted, whether each walk succeeded, and the two extended
    public keys at the end: the signer's (computed from its private key) and the watcher's. *)
Definition wallet_session (e : env) (E : secp) (g : globals) (net : chain_parameters) (w : world) (xk xb xp prefix str xw : nat) (path : list Z)
  : res (Z * option (ex_pubkey) * option ex_pubkey) :=
  mem <- exkey_get_pub_at Standard E g (w_mem w) xk xp ;;
  '(n, w) <- expubkey_to_string_at e xp prefix (length (cp_ext_pub net)) str (with_mem w mem) ;;
  w <- p_write (str + n) [0] w ;;
  '(r, w) <- expubkey_from_string_at e str n xw net w ;;
  '(ok, mem, a) <- walk_private_mem E g (w_mem w) xk xb path ;;
  '(okw, mem) <- walk_public_mem E g mem xw path ;;
  if ok : bool then
    mem <- exkey_get_pub_at Standard E g mem a xp ;;
    Ok (r, Some (ex_pubkey_at mem xp), if okw : bool then Some (ex_pubkey_at mem xw) else None)
  else Ok (r, None, if okw : bool then Some (ex_pubkey_at mem xw) else None).
