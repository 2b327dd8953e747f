(** Lemmas: the local arrays of the key string functions at return. *)
From Coq Require Import String.
From Verif Require Import Base M_Endian S_Words L_Endian S_Sha2 L_Sha2Top M_Hash L_Hash M_Base58 S_Base58 L_Base58 M_Base58Check S_Base58Check L_Base58Check.
From Verif Require Import S_Address M_Address L_Address M_Random P_Random M_Key M_Exkey S_Key S_Exkey L_KeyStr L_Exkey P_Wif P_Exkey M_Residue L_Residue L_Residue2 L_Scratch2.
Open Scope Z_scope.
Open Scope list_scope.

Definition check_left (data : list Z) : arrays :=
  ("hash"%string, SHA256 (SHA256 data)) :: ("sha2_digest"%string, SHA256 data) :: wiped_digest 32 64 ++ wiped_digest 32 64.

Lemma to_check_r buf prefix n t : bytes buf -> bytes prefix -> byte_len_ok (length buf + length prefix) ->
  to_base58_check buf prefix = Ok (n, t) -> to_base58_check_r buf prefix = Ok (n, t, check_left (prefix ++ buf)).
Proof.
  intros Bb Bp Hl. unfold to_base58_check, to_base58_check_r.
  set (sd := (length buf + length prefix)%nat) in *.
  assert (E1 : store (uninit (sd + 4)) 0 prefix = Ok (prefix ++ uninit (sd + 4 - length prefix))) by (apply store_into_small; lia).
  rewrite E1. cbn [bind].
  rewrite store_app by (rewrite uninit_length; lia). cbn [bind].
  rewrite slice_ok by (rewrite !app_length, skipn_length, uninit_length; lia). rewrite skipn_O.
  assert (Ew : firstn sd (prefix ++ buf ++ skipn (length buf) (uninit (sd + 4 - length prefix))) = prefix ++ buf).
  { rewrite app_assoc. replace sd with (length (prefix ++ buf)) by (rewrite app_length; lia). apply firstn_app_exact. }
  rewrite Ew. cbn [bind].
  assert (Lw : length (prefix ++ buf) = sd) by (rewrite app_length; lia).
  rewrite hash256_ok, hash256_r_ok; try (apply bytes_app; auto); try lia; try assumption. cbn [bind].
  rewrite (firstn_exact sd) by exact Lw.
  destruct (slice (SHA256 _) 0 4) as [h| |]; cbn [bind]; try discriminate.
  destruct (store _ sd h) as [b| |]; cbn [bind]; try discriminate.
  intros H. rewrite H. reflexivity.
Qed.

Lemma from_check_r str n0 n out : bytes out -> byte_len_ok (length out) -> from_base58_check str n0 = Ok (n, out) ->
  from_base58_check_r str n0 = Ok (n, out, if (length out <? 4)%nat then [("hash"%string, uninit 32)] else check_left (firstn (length out - 4) out)).
Proof.
  intros Bo Hl. unfold from_base58_check, from_base58_check_r.
  destruct (from_base58 str n0) as [[m o]| |] eqn:E; cbn [bind]; try discriminate.
  assert (Lm : m = length o) by (eapply from_base58_size, E).
  destruct (Nat.ltb_spec m 4) as [H4|H4].
  - intros H. injection H as <- <-. rewrite <- Lm. apply Nat.ltb_lt in H4. rewrite H4. reflexivity.
  - rewrite slice_ok by lia. rewrite skipn_O. cbn [bind].
    intros H.
    assert (Eo : o = out).
    { destruct (btc_hash256 _ _) as [h| |]; cbn [bind] in H; try discriminate. destruct (slice h 0 4) as [h4| |]; cbn [bind] in H; try discriminate.
      destruct (slice o (m - 4) 4) as [c4| |]; cbn [bind] in H; try discriminate. destruct (negb _); injection H as _ H; exact H. }
    subst o. rewrite Lm in *. destruct (Nat.ltb_spec (length out) 4); [lia|]. revert H.
    assert (L4 : length (firstn (length out - 4) out) = (length out - 4)%nat) by (rewrite firstn_length; lia).
    assert (B4 : byte_len_ok (length out - 4)) by (unfold byte_len_ok in *; lia).
    rewrite hash256_ok, hash256_r_ok; [|apply bytes_firstn, Bo|lia|exact B4|apply bytes_firstn, Bo|lia|exact B4]. cbn [bind].
    rewrite (firstn_exact _ _ L4).
    destruct (slice (SHA256 _) 0 4) as [h| |]; cbn [bind]; try discriminate.
    destruct (slice out (length out - 4) 4) as [c| |]; cbn [bind]; try discriminate.
    destruct (negb _); intros H'; injection H' as <-; reflexivity.
Qed.

Definition from_left (out : list Z) : arrays :=
  if (length out <? 4)%nat then [("hash"%string, uninit 32)] else check_left (firstn (length out - 4) out).

Lemma key_from_r str n0 key32 c p size out r : bytes out -> byte_len_ok (length out) -> from_base58_check str n0 = Ok (size, out) ->
  key_from_string str n0 key32 c p = Ok r ->
  key_from_string_r str n0 key32 c p = Ok (r, ("buf"%string, out ++ uninit (40 - length out)) :: from_left out).
Proof.
  intros Bo Hl E. unfold key_from_string, key_from_string_r. rewrite (from_check_r _ _ _ _ Bo Hl E), E.
  destruct (c_assert _); cbn [bind]; try discriminate. fold (from_left out).
  rewrite store_into. change (32 + 8)%nat with 40%nat. destruct (length out <=? 40)%nat; cbn [bind]; try discriminate.
  set (b := out ++ uninit (40 - length out)).
  destruct (size <=? 32)%nat; [intros H; injection H as <-; reflexivity|].
  destruct (if negb (length (cp_secret p) =? size - 32)%nat then _ else _) as [[c'|]| |]; cbn [bind]; try discriminate;
    [|intros H; injection H as <-; reflexivity].
  destruct (slice b 0 _) as [pp| |]; cbn [bind]; try discriminate.
  destruct (negb _); [intros H; injection H as <-; reflexivity|].
  destruct (slice b _ 32) as [k| |]; cbn [bind]; try discriminate.
  destruct (store key32 0 k) as [k'| |]; cbn [bind]; try discriminate. intros H. injection H as <-. reflexivity.
Qed.

Lemma exkey_from_r str n0 key p size out r key' : bytes out -> byte_len_ok (length out) -> from_base58_check str n0 = Ok (size, out) ->
  exkey_from_string str n0 key p = Ok (r, key') ->
  exkey_from_string_r str n0 key p =
    Ok (r, key', ("extkey"%string, if r =? 1 then wiped 82 else out ++ uninit (82 - length out)) :: from_left out).
Proof.
  intros Bo Hl E. unfold exkey_from_string, exkey_from_string_r. rewrite (from_check_r _ _ _ _ Bo Hl E), E.
  destruct (c_assert (length (cp_ext_sec p) <=? 8)%nat); cbn [bind]; try discriminate. fold (from_left out).
  rewrite store_into. change (BIP32_EXTKEY_SIZE + 8)%nat with 82%nat. destruct (length out <=? 82)%nat eqn:L82; cbn [bind]; try discriminate.
  set (b := out ++ uninit (82 - length out)).
  assert (Lb : length b = 82%nat) by (apply Nat.leb_le in L82; unfold b; rewrite app_length, uninit_length; lia).
  destruct (c_assert _); cbn [bind]; try discriminate.
  destruct (_ || _); [intros H; injection H as <- <-; reflexivity|].
  destruct (negb _); [intros H; injection H as <- <-; reflexivity|].
  destruct (slice b 0 _) as [pp| |]; cbn [bind]; try discriminate.
  destruct (negb _); [intros H; injection H as <- <-; reflexivity|].
  destruct (exkey_decode _ key) as [k| |]; cbn [bind]; try discriminate.
  rewrite cleanse_all by exact Lb. cbn [bind]. intros H. injection H as <- <-. reflexivity.
Qed.
