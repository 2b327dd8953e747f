(** C115: public key serialisation (src/btc/key.c:454-461, 483-515, 602-630). *)
From Verif Require Import Base S_Words L_Endian M_Endian M_Sha2 S_Sha2 S_Ripemd L_Hash M_Hash M_Random M_Secp M_Key
  S_Secp L_Secp S_Der S_Life S_Bip32 L_Der P_Der L_Bip32 L_Base58Check P_Bip32.

(** Either format: the encoder reports success, writes exactly that many bytes and leaves the rest of the buffer alone. *)
Theorem C115_pubkey_encode : forall E g P (compressed : bool) out rest, secp_laws E -> ready g ->
  let len := if compressed then 33%nat else 65%nat in length out = len ->
  length (ser E compressed P) = len /\ bytes (ser E compressed P) /\
  pubkey_encode E g P (out ++ rest) len = Ok (true, ser E compressed P ++ rest).
Proof.
  intros E g P c out rest Laws G len L.
  assert (Ls : length (ser E c P) = len) by (destruct c; [apply (law_ser33 E Laws)|apply (law_ser65 E Laws)]).
  assert (Bs : bytes (ser E c P)) by (destruct c; [apply (law_ser33 E Laws)|apply (law_ser65 E Laws)]).
  split; [exact Ls|]. split; [exact Bs|]. unfold len in *. rewrite (pub_encode_ok E g c) by (auto; rewrite app_length; lia).
  f_equal. f_equal. f_equal. rewrite <- L. apply skipn_app_exact.
Qed.
Print Assumptions C115_pubkey_encode.

(** What was encoded, in either format, decodes to the same key, whatever follows it in memory. *)
Theorem C115_roundtrip : forall E g P (compressed : bool) out rest, secp_laws E -> ready g ->
  let len := if compressed then 33%nat else 65%nat in length out = len ->
  exists enc, pubkey_encode E g P out len = Ok (true, enc) /\ length enc = len /\ pubkey_decode E g (enc ++ rest) len = Ok (Some P).
Proof.
  intros E g P c out rest Laws G len L. destruct (C115_pubkey_encode E g P c out [] Laws G L) as (Ls & Bs & Q).
  rewrite !app_nil_r in Q. exists (ser E c P). split; [exact Q|]. split; [exact Ls|].
  unfold pubkey_decode. destruct G as (cs & cv & _ & Gv & _ & _).
  replace ((len =? BTC_PUBLIC_KEY_SIZE) || (len =? BTC_COMPRESSED_PUBLIC_KEY_SIZE))%nat with true by (unfold len; destruct c; reflexivity).
  cbn [c_assert bind]. unfold secp_pubkey_parse. rewrite Gv. cbn [any_ctx bind].
  rewrite slice_ok by (rewrite app_length; unfold len in *; lia). rewrite skipn_O. cbn [bind].
  fold len in Ls. rewrite <- Ls, firstn_app_exact. now rewrite (law_parse E Laws).
Qed.
Print Assumptions C115_roundtrip.

(** Hence the two formats of different keys differ: an encoding names one key. *)
Theorem C115_injective : forall E g P Q (cP cQ : bool) outP outQ enc, secp_laws E -> ready g ->
  length outP = (if cP then 33 else 65)%nat -> length outQ = (if cQ then 33 else 65)%nat ->
  pubkey_encode E g P outP (if cP then 33 else 65)%nat = Ok (true, enc) ->
  pubkey_encode E g Q outQ (if cQ then 33 else 65)%nat = Ok (true, enc) -> P = Q /\ cP = cQ.
Proof.
  intros E g P Q cP cQ oP oQ enc Laws G LP LQ EP EQ.
  destruct (C115_roundtrip E g P cP oP [] Laws G LP) as (e1 & E1 & L1 & D1).
  destruct (C115_roundtrip E g Q cQ oQ [] Laws G LQ) as (e2 & E2 & L2 & D2).
  rewrite E1 in EP. injection EP as ->. rewrite E2 in EQ. injection EQ as ->.
  assert (cP = cQ) by (destruct cP, cQ; auto; exfalso; lia). subst cQ. split; [|reflexivity].
  rewrite D1 in D2. now injection D2.
Qed.
Print Assumptions C115_injective.

(** Decoding looks at the stated number of bytes and at nothing else, and never fails in any other way than by refusing;
    an accepted compressed text is the canonical one: encoding the key again gives the same 33 bytes. *)
Theorem C115_decode : forall E g enc rest out, secp_laws E -> ready g -> bytes enc -> (length enc = 33 \/ length enc = 65)%nat -> length out = 33%nat ->
  pubkey_decode E g (enc ++ rest) (length enc) = Ok (parse E enc) /\
  (forall P, length enc = 33%nat -> pubkey_decode E g (enc ++ rest) (length enc) = Ok (Some P) -> pubkey_encode E g P out 33 = Ok (true, enc)).
Proof.
  intros E g enc rest out Laws G B L Lo.
  assert (D : pubkey_decode E g (enc ++ rest) (length enc) = Ok (parse E enc)).
  { unfold pubkey_decode. destruct G as (cs & cv & _ & Gv & _ & _).
    replace ((length enc =? BTC_PUBLIC_KEY_SIZE) || (length enc =? BTC_COMPRESSED_PUBLIC_KEY_SIZE))%nat with true
      by (unfold BTC_PUBLIC_KEY_SIZE, BTC_COMPRESSED_PUBLIC_KEY_SIZE; destruct L as [-> | ->]; reflexivity).
    cbn [c_assert bind]. unfold secp_pubkey_parse. rewrite Gv. cbn [any_ctx bind].
    rewrite slice_ok by (rewrite app_length; lia). rewrite skipn_O, firstn_app_exact. reflexivity. }
  split; [exact D|]. intros P L33 Q. rewrite D in Q. injection Q as Q.
  destruct (C115_pubkey_encode E g P true out [] Laws G Lo) as (_ & _ & X). rewrite !app_nil_r in X.
  rewrite (law_parse33 E Laws enc P B L33 Q) in X. exact X.
Qed.
Print Assumptions C115_decode.

(** Any other length is stopped by an assertion before anything is read or written. *)
Theorem C115_wrong_length : forall E g P mem len, (len <> 33 -> len <> 65 ->
  pubkey_encode E g P mem len = Abort /\ pubkey_decode E g mem len = Abort)%nat.
Proof.
  intros E g P mem len H1 H2. unfold pubkey_encode, pubkey_decode, BTC_PUBLIC_KEY_SIZE, BTC_COMPRESSED_PUBLIC_KEY_SIZE.
  replace (len =? 65)%nat with false by lia. replace (len =? 33)%nat with false by lia. auto.
Qed.
Print Assumptions C115_wrong_length.

(** A secret key has a public key exactly when it is between 1 and the order minus 1; the key identifier of a secret key is the
    one of its public key: RIPEMD-160 of SHA-256 of the chosen format. *)
Theorem C115_identifier : forall E g key krest (compressed : bool) out, secp_laws E -> ready g -> length key = 32%nat -> length out = (if compressed then 33 else 65)%nat ->
  (0 < be_val key < secp_order /\ exists P enc, key_get_pub E g (key ++ krest) = Ok P /\
     pubkey_encode E g P out (if compressed then 33 else 65)%nat = Ok (true, enc) /\
     key_keyid E g (key ++ krest) compressed = Ok (hash160_of enc) /\ pubkey_keyid E g P compressed = Ok (hash160_of enc)) \/
  (~ 0 < be_val key < secp_order /\ key_get_pub E g (key ++ krest) = Abort /\ key_keyid E g (key ++ krest) compressed = Abort).
Proof.
  intros E g key krest c out Laws G L Lo. change secp_order with secp_n.
  destruct (Z_lt_dec 0 (be_val key)) as [H0|H0]; [destruct (Z_lt_dec (be_val key) secp_n) as [H1|H1]|].
  - left. split; [lia|]. assert (S : scalar (be_val key)) by (split; lia).
    exists (pub_of E (be_val key)), (ser E c (pub_of E (be_val key))).
    pose proof (get_pub_ok E g key krest G L S) as GP.
    pose proof (keyid_ok E g key krest c Laws G L S) as KI. split; [exact GP|].
    destruct (C115_pubkey_encode E g (pub_of E (be_val key)) c out [] Laws G Lo) as (_ & _ & X). rewrite !app_nil_r in X. split; [exact X|].
    split; [exact KI|]. unfold key_keyid in KI. rewrite GP in KI. exact KI.
  - right. split; [lia|]. assert (A : key_get_pub E g (key ++ krest) = Abort).
    { unfold key_get_pub, secp_pubkey_create. destruct G as (cs & cv & Gs & _ & C & _). rewrite Gs. cbn [sign_ctx]. rewrite C. cbn [c_assert bind].
      rewrite slice_ok by (rewrite app_length; lia). rewrite skipn_O. cbn [bind]. rewrite <- L, firstn_app_exact.
      replace (be_val key <? secp_n) with false by lia. rewrite andb_false_r. reflexivity. }
    split; [exact A|]. unfold key_keyid. now rewrite A.
  - right. split; [lia|]. assert (A : key_get_pub E g (key ++ krest) = Abort).
    { unfold key_get_pub, secp_pubkey_create. destruct G as (cs & cv & Gs & _ & C & _). rewrite Gs. cbn [sign_ctx]. rewrite C. cbn [c_assert bind].
      rewrite slice_ok by (rewrite app_length; lia). rewrite skipn_O. cbn [bind]. rewrite <- L, firstn_app_exact.
      replace (0 <? be_val key) with false by lia. reflexivity. }
    split; [exact A|]. unfold key_keyid. now rewrite A.
Qed.
Print Assumptions C115_identifier.

(* ---------------------------------------------------------------- *)
(** ** Concrete cases, on the toy curve *)
Example C115_witness : secp_laws toy /\ ready ready_example /\
  match key_get_pub toy ready_example (be_bytes 32 77) with
  | Ok P => match pubkey_encode toy ready_example P (repeat 9 33) 33 with Ok (true, enc) => hd 0 enc =? 3 | _ => false end
  | _ => false
  end = true.
Proof. split; [exact toy_laws|]. split; [exact ready_example_ok|]. vm_compute. reflexivity. Qed.
