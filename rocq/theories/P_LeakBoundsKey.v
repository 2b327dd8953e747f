(** C140: the key functions touch nothing but the structures they are given and their own local arrays, and hand libsecp256k1 only
    pointers with enough room behind them. *)
From Verif Require Import Base M_Endian M_Sha2 M_Hash M_Random M_Secp M_Key M_Exkey M_Overlap M_Leak M_LeakKey S_Leak S_LeakBounds S_LeakBoundsKey L_LeakBounds L_LeakBoundsKey.

Ltac kany := first [apply kb_read; cbn; tauto | apply kb_write; cbn; tauto | apply kb_rw; cbn; tauto | apply incl_refl].

(** Public key of a private key; serialization to [len] bytes. *)
Theorem C140_public : forall E g pk pp po key P out len,
  Forall (key_bounds [(pk, 32%nat)] [(pp, 64%nat)] []) (trace (key_get_pub_l E g pk pp key)) /\
  Forall (key_bounds [(pp, 64%nat)] [(po, len)] []) (trace (pubkey_encode_l E g pp po P out len)).
Proof. intros. split; [apply K_get_pub; kany|apply K_pub_encode; kany]. Qed.
Print Assumptions C140_public.

(** Child keys, hardened or not: 32 bytes each of key and chain code are read and written; the public key of the parent is
    serialized to exactly the 33 bytes of the local array. *)
Theorem C140_derive : forall E g pk pc pok poc key chain okey ochain child,
  Forall (key_bounds [(pk, 32%nat); (pc, 32%nat)] [(pok, 32%nat); (poc, 32%nat)] locals_derive) (trace (key_derive_l E g pk pc pok poc key chain okey ochain child)).
Proof. intros. apply K_derive; kany. Qed.
Print Assumptions C140_derive.

(** Extended keys, in place of any two structures: making one from a seed, deriving, neutering. *)
Theorem C140_exkey : forall E g px pd ps key derived seed len child fp,
  Forall (key_bounds [(ps, len); local SeedKey 12] [(px, ex_key_size)] (local InitOut 64 :: locals_hmac512)) (trace (exkey_init_l px ps key seed len)) /\
  Forall (key_bounds [(px, ex_key_size)] [(pd, ex_key_size)] locals_derive) (trace (exkey_derive_l E g px pd key derived child fp)).
Proof. intros. split; [apply K_init; kany|apply K_exderive; kany]. Qed.
Print Assumptions C140_exkey.
Theorem C140_exkey_get_pub : forall E g px pp key pubkey, length (xp_c_pubkey pubkey) = 33%nat ->
  Forall (key_bounds [(px, ex_key_size)] [(pp, ex_pubkey_size)] [local LocalPub 64]) (trace (exkey_get_pub_l E g px pp key pubkey)).
Proof. intros. apply K_exget_pub; try kany; [cbn; tauto|assumption]. Qed.
Print Assumptions C140_exkey_get_pub.

(** The 74-byte form, both ways. *)
Theorem C140_exkey_74 : forall px pc key m,
  Forall (in_bounds [(px, ex_key_size)] [(pc, 74%nat)] []) (trace (exkey_encode_l px pc key m)) /\
  Forall (in_bounds [(pc, 74%nat)] [(px, ex_key_size)] []) (trace (exkey_decode_l pc px m key)).
Proof.
  assert (X : forall ins outs t, Forall (key_bounds ins outs []) t -> Forall (fun e => match e with Lib _ _ _ => False | _ => True end) t -> Forall (in_bounds ins outs []) t).
  { intros ins outs t H N. rewrite Forall_forall in *. intros e He. specialize (H e He). specialize (N e He). destruct e; try exact H. contradiction. }
  intros. split; apply X; try (apply K_exencode; kany); try (apply K_exdecode; kany).
  - unfold exkey_encode_l, trace. apply F_step; [repeat constructor|]. apply F_pure. intros c _. apply F_step; [repeat constructor|]. apply F_pure. intros c1 _. apply F_pure. intros k _. constructor.
  - unfold exkey_decode_l, trace. apply F_step; [repeat constructor|]. apply F_pure. intros c _. apply F_step; [repeat constructor|]. apply F_pure. intros c1 _. apply F_pure. intros k _. constructor.
Qed.
Print Assumptions C140_exkey_74.

(** DER form: never past the [len] bytes given, also for a [len] that is rejected. *)
Theorem C140_key_encode : forall E g pk po key m len,
  let c := (len =? BTC_COMPRESSED_PRIVATE_KEY_SIZE)%nat in
  Forall (key_bounds [(pk, 32%nat); local DerBegin (if c then 8 else 9); local DerMiddle (if c then 141 else 173)] [(po, len)] [local Pubkey64 64])
    (trace (key_encode_l E g pk po key m len)).
Proof.
  intros. subst c. unfold BTC_COMPRESSED_PRIVATE_KEY_SIZE. apply K_encode; kany.
Qed.
Print Assumptions C140_key_encode.

(** Identifiers and fingerprints. *)
Theorem C140_keyid : forall E g pk po key compress,
  Forall (key_bounds [(pk, 32%nat)] [(po, 20%nat)] locals_keyid) (trace (key_keyid_l E g pk po key compress)) /\
  Forall (key_bounds [(pk, 32%nat)] [] (local LocalKeyId 20 :: locals_keyid)) (trace (key_fingerprint_l E g pk key compress)).
Proof.
  intros. split; [apply K_keyid; kany|]. apply K_fingerprint; try kany. apply incl_tl, incl_refl.
Qed.
Print Assumptions C140_keyid.

(** Signing, however many attempts it takes: the signature is written and read back, key and hash are only read. *)
Theorem C140_sign : forall fuel E g pk ph psig key hash,
  Forall (key_bounds [(pk, 32%nat); (ph, 32%nat); (psig, 64%nat)] [(psig, 64%nat)] [local ExtraEntropy 32; local CompactSig 64])
    (trace (key_sign_l fuel E g pk ph psig key hash)).
Proof. intros. apply K_sign; kany. Qed.
Print Assumptions C140_sign.

(** The specification does reject: 65 bytes written to the 33-byte local array, a public key where 32 bytes are left, a tweak in place, a
    signature over the hash. *)
Example C140_rejects :
  ~ key_bounds [((Key, 0%nat), 32%nat)] [] [local Pubkey64 64; local EncodedPubkey 33] (Write EncodedPubkey 0 65) /\
  ~ key_bounds [((Key, 0%nat), 32%nat)] [] [local Pubkey64 64; local EncodedPubkey 33] (Lib PubkeyCreate [(Pubkey64, 32%nat); (Key, 0%nat)] true) /\
  ~ key_bounds [((Key, 0%nat), 32%nat)] [((Out, 0%nat), 32%nat)] [] (Lib PrivkeyTweakAdd [(Key, 0%nat); (Key, 0%nat)] true) /\
  ~ key_bounds [((Key, 0%nat), 32%nat); ((Hash32, 0%nat), 32%nat)] [((Signature64, 0%nat), 64%nat)] [] (Lib EcdsaSign [(Hash32, 0%nat); (Hash32, 0%nat); (Key, 0%nat)] true).
Proof.
  repeat split; cbn; intros H; try (destruct H as [H _]); unfold has_room in H;
    repeat (apply Exists_cons in H; destruct H as [H|H]; [unfold within in H; cbn in H; destruct H as (? & ? & ?); (discriminate || lia)|]); inversion H.
Qed.
