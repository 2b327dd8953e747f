(** Properties C30-C32: Base58Check. *)
From Verif Require Import Base M_Endian L_Endian S_Sha2 M_Sha2 L_Sha2Top S_Base58 M_Base58 L_Base58 P_Base58 M_Hash L_Hash
  S_Base58Check M_Base58Check L_Base58Check.

(** C30: decoding the encoding gives prefix and payload (followed, in the output buffer, by the checksum).
    The length bound keeps the int computations of the decoder in range. *)
Theorem C30_base58check_roundtrip : forall buf prefix rest, bytes buf -> bytes prefix ->
  Z.of_nat (to_base58_check_length (length buf) (length prefix)) * 733 <= INT_MAX ->
  exists text tail, to_base58_check buf prefix = Ok (length text, text) /\ length tail = 4%nat /\
    from_base58_check (text ++ 0 :: rest) (length text) =
      Ok ((length prefix + length buf)%nat, prefix ++ buf ++ tail).
Proof.
  intros buf prefix rest Hb Hp H. set (data := prefix ++ buf).
  assert (Hd : bytes data) by now apply bytes_app.
  assert (Ld : length data = (length prefix + length buf)%nat) by (unfold data; apply app_length).
  unfold to_base58_check_length, to_base58_length in H.
  change INT_MAX with 2147483647 in H.
  rewrite (to_base58_check_buffer buf prefix Hb Hp) by dlia. fold data.
  assert (Hdc : bytes (data ++ checksum4 data)) by (apply bytes_app; split; [exact Hd|apply checksum4_bytes]).
  assert (Ldc : length (data ++ checksum4 data) = (length buf + 4 + length prefix)%nat) by (rewrite app_length, checksum4_length; lia).
  destruct (to_base58_spec (data ++ checksum4 data) Hdc) as (text & E & B & L).
  { rewrite Ldc. change INT_MAX with 2147483647. dlia. }
  exists text, (checksum4 data). split; [exact E|]. split; [apply checksum4_length|].
  assert (Hl : Z.of_nat (length text) * 733 <= INT_MAX).
  { rewrite Ldc in L. unfold to_base58_length in L. change INT_MAX with 2147483647. lia. }
  assert (A : Forall is_ascii text) by (eapply Forall_impl; [|exact (is_base58_alphabet _ _ B)]; cbv beta; tauto).
  destruct (from_base58_check_ok text rest A Hl) as [(d & b & T & B' & Bd & R)|[N _]].
  - rewrite R. rewrite (trims_fun text b text T (alpha_of _ _ B') (trims_self text) (alpha_of _ _ B)) in B'.
    assert (Hd2 : bytes (d ++ checksum4 d)) by (apply bytes_app; split; [exact Bd|apply checksum4_bytes]).
    pose proof (is_base58_inj _ _ _ Hd2 Hdc B' B) as E2.
    assert (Edd : d = data).
    { assert (length d = length data) by (apply (f_equal (@length Z)) in E2; rewrite !app_length, !checksum4_length in E2; lia).
      apply (f_equal (firstn (length d))) in E2. rewrite firstn_app_exact in E2. rewrite E2. rewrite H0. now rewrite firstn_app_exact. }
    subst d. rewrite Ld. unfold data at 1. now rewrite <- app_assoc.
  - exfalso. apply N. exists data, text. split; [exact Hd|]. split; [apply trims_self|exact B].
Qed.
Print Assumptions C30_base58check_roundtrip.

(** C31: exactly the checksummed texts (up to surrounding white space), and exactly that data. *)
Theorem C31_base58check_language : forall text rest,
  Forall (fun c => 0 < c < 128) text -> Z.of_nat (length text) * 733 <= INT_MAX ->
  (exists data body, trims_to text body /\ is_base58 (data ++ firstn 4 (SHA256 (SHA256 data))) body /\ bytes data /\
     from_base58_check (text ++ 0 :: rest) (length text) = Ok (length data, data ++ firstn 4 (SHA256 (SHA256 data)))) \/
  ((~ exists data body, bytes data /\ trims_to text body /\ is_base58 (data ++ firstn 4 (SHA256 (SHA256 data))) body) /\
     exists out, from_base58_check (text ++ 0 :: rest) (length text) = Ok (0%nat, out)).
Proof. exact from_base58_check_ok. Qed.
Print Assumptions C31_base58check_language.

(** C32: the encoder is defined, writes the Base58Check text of prefix and payload, within the announced length. *)
Theorem C32_base58check_encode : forall buf prefix, bytes buf -> bytes prefix ->
  Z.of_nat (to_base58_check_length (length buf) (length prefix)) <= INT_MAX ->
  exists text, to_base58_check buf prefix = Ok (length text, text) /\
    is_base58 ((prefix ++ buf) ++ firstn 4 (SHA256 (SHA256 (prefix ++ buf)))) text /\
    (length text <= to_base58_check_length (length buf) (length prefix))%nat.
Proof.
  intros buf prefix Hb Hp H. unfold to_base58_check_length, to_base58_length in H. change INT_MAX with 2147483647 in H.
  rewrite (to_base58_check_buffer buf prefix Hb Hp) by dlia.
  assert (Ldc : length ((prefix ++ buf) ++ checksum4 (prefix ++ buf)) = (length buf + 4 + length prefix)%nat) by (rewrite !app_length, checksum4_length; lia).
  destruct (to_base58_spec ((prefix ++ buf) ++ checksum4 (prefix ++ buf))) as (text & E & B & L).
  - apply bytes_app; split; [now apply bytes_app|apply checksum4_bytes].
  - rewrite Ldc. change INT_MAX with 2147483647. dlia.
  - exists text. split; [exact E|]. split; [exact B|]. rewrite Ldc in L. exact L.
Qed.
Print Assumptions C32_base58check_encode.

(** The all-zero hash160 with prefix 0 is the well known burn address. *)
Example base58check_ex : to_base58_check (repeat 0 20) [0] =
  Ok (27%nat, [49;49;49;49;49;49;49;49;49;49;49;49;49;49;49;49;49;49;49;49;49;52;111;76;118;84;50])
  /\ Z.of_nat (to_base58_check_length 20 1) * 733 <= INT_MAX /\ bytes (repeat 0 20) /\ bytes [0].
Proof.
  split; [vm_compute; reflexivity|]. split; [vm_compute; discriminate|].
  split; apply Forall_forall; intros x Hx; cbn in Hx; unfold is_byte; intuition lia.
Qed.
(** Both outcomes of C31 occur. *)
Example C31_ex : (exists out, from_base58_check ([49;49;49;49;49;49;49;49;49;49;49;49;49;49;49;49;49;49;49;49;49;52;111;76;118;84;50] ++ [0]) 27 = Ok (21%nat, out))
  /\ exists out, from_base58_check ([49;49;49;49;49;49;49;49;49;49;49;49;49;49;49;49;49;49;49;49;49;52;111;76;118;84;51] ++ [0]) 27 = Ok (0%nat, out).
Proof. split; eexists; vm_compute; reflexivity. Qed.
