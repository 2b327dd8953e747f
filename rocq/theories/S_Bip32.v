(** BIP-32 child key derivation, as written in the document: the private and the public
    parent-to-child functions, on scalars and points. *)
From Verif Require Import Base S_Words S_Sha2 S_Ripemd S_Der M_Secp.

Definition hmac_sha512_of (key msg : list Z) : list Z := hmac SHA512 128 key msg.

(** CKDpriv((k, c), i): hardened children use 0x00 || ser256(k) || ser32(i), the others serP(point(k)) || ser32(i);
    failure when parse256(IL) >= n or the child key is 0. *)
Definition ckd_priv (E : secp) (k : Z) (chain : list Z) (i : Z) : option (Z * list Z) :=
  let I := hmac_sha512_of chain (if 2 ^ 31 <=? i then 0 :: be_bytes 32 k ++ be_bytes 4 i
                                 else ser E true (pub_of E k) ++ be_bytes 4 i) in
  let IL := be_val (firstn 32 I) in
  let ki := (IL + k) mod secp_order in
  if (secp_order <=? IL) || (ki =? 0) then None else Some (ki, skipn 32 I).

(** CKDpub((K, c), i) for non-hardened i: failure when parse256(IL) >= n or the child is the point at infinity. *)
Definition ckd_pub (E : secp) (K : pt E) (chain : list Z) (i : Z) : option (pt E * list Z) :=
  let I := hmac_sha512_of chain (ser E true K ++ be_bytes 4 i) in
  let IL := be_val (firstn 32 I) in
  if secp_order <=? IL then None
  else match add_gen E K IL with None => None | Some Ki => Some (Ki, skipn 32 I) end.

(** The identifier of a key: HASH160 of the serialised public key. *)
Definition hash160_of (data : list Z) : list Z := RIPEMD160 (SHA256 data).
