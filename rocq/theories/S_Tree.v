(** Vocabulary for C124: the HMAC-SHA512 inputs a wallet computes on its way from the seed down a path (BIP-32), and what it means that two
    of them collide in the half that becomes the chain code. *)
From Verif Require Import Base S_Words S_Sha2 M_Random M_Secp M_Key M_Exkey S_Der S_Bip32 S_Collide S_Wallet.

(** What is authenticated for child [i] of the private key [k] (BIP-32): 0x00 || ser256(k) || ser32(i) for hardened children,
    serP(point(k)) || ser32(i) for the others. *)
Definition child_data (E : secp) (k i : Z) : list Z :=
  if 2 ^ 31 <=? i then 0 :: be_bytes 32 k ++ be_bytes 4 i else ser E true (pub_of E k) ++ be_bytes 4 i.

(** The (HMAC key, message) pairs along a path, starting from private key [k] and chain code [c]. *)
Fixpoint path_inputs (E : secp) (k : Z) (c : list Z) (path : list Z) : list (list Z * list Z) :=
  match path with
  | [] => []
  | i :: path =>
      (c, child_data E k i) :: match ckd_priv E k c i with Some (k', c') => path_inputs E k' c' path | None => [] end
  end.

(** The same from the seed: first ("Bitcoin seed", seed). *)
Definition Bitcoin_seed : list Z := [66; 105; 116; 99; 111; 105; 110; 32; 115; 101; 101; 100].
Definition wallet_inputs (E : secp) (seed path : list Z) : list (list Z * list Z) :=
  let I := hmac_sha512_of Bitcoin_seed seed in
  (Bitcoin_seed, seed) :: path_inputs E (be_val (firstn 32 I)) (skipn 32 I) path.

(** Two different inputs (not just two spellings of one key, C120) with the same right half of the MAC. *)
Definition half_collision (x y : list Z * list Z) : Prop :=
  inner_message SHA512 128 (fst x) (snd x) <> inner_message SHA512 128 (fst y) (snd y) /\
  skipn 32 (hmac_sha512_of (fst x) (snd x)) = skipn 32 (hmac_sha512_of (fst y) (snd y)).

(** A wallet (API calls only): fingera_exkey_init on the seed, then fingera_exkey_derive along a path. *)
Definition wallet (E : secp) (g : globals) (blank : ex_key) (seed path : list Z) : res (option ex_key) :=
  master <- exkey_init blank seed (length seed) ;; walk_private E g blank path master.

(** A seed whose master key BIP-32 accepts.  37 bytes are excluded: that is the length of [child_data]. *)
Definition good_seed (seed : list Z) : Prop :=
  bytes seed /\ Z.of_nat (length seed) < 2 ^ 60 /\ length seed <> 37%nat /\ 0 < be_val (firstn 32 (hmac_sha512_of Bitcoin_seed seed)) < secp_order.
