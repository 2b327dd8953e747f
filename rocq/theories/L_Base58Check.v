(** Base58Check. *)
From Verif Require Import Base M_Endian L_Endian S_Sha2 M_Sha2 L_Sha2Top S_Base58 M_Base58 L_Base58 P_Base58 M_Hash L_Hash
  S_Base58Check M_Base58Check.

Lemma bytes_eqb_eq a : forall b, bytes_eqb a b = true <-> a = b.
Proof.
  induction a as [|x a IH]; intros [|y b]; cbn [bytes_eqb]; split; intros H; try discriminate; try reflexivity.
  - apply andb_true_iff in H as [H1 H2]. apply Z.eqb_eq in H1. apply IH in H2. congruence.
  - injection H as -> ->. rewrite Z.eqb_refl. now apply IH.
Qed.
Lemma checksum4_length d : length (checksum4 d) = 4%nat.
Proof. unfold checksum4. rewrite firstn_length, SHA256_length. reflexivity. Qed.
Lemma checksum4_bytes d : bytes (checksum4 d).
Proof. apply bytes_firstn, SHA256_bytes. Qed.

Lemma uninit_length n : length (uninit n) = n. Proof. apply repeat_length. Qed.
Lemma skipn_uninit k n : skipn k (uninit n) = uninit (n - k).
Proof. apply L_Md.skipn_repeat. Qed.
Lemma store_uninit a (b : list Z) n : (length b <= n)%nat -> store (a ++ uninit n) (length a) b = Ok (a ++ b ++ uninit (n - length b)).
Proof.
  intros H. rewrite store_ok by (rewrite app_length, uninit_length; lia). f_equal.
  rewrite firstn_app_exact. f_equal. f_equal.
  rewrite skipn_app, skipn_all2 by lia. cbn [app]. rewrite skipn_uninit. f_equal. lia.
Qed.

Lemma hash256_self d : bytes d -> byte_len_ok (length d) -> btc_hash256 d (length d) = Ok (SHA256 (SHA256 d)).
Proof. intros Hb Hl. rewrite hash256_ok by auto. now rewrite firstn_all. Qed.
Lemma checksum_slice d : slice (SHA256 (SHA256 d)) 0 4 = Ok (checksum4 d).
Proof. rewrite slice_ok by (rewrite SHA256_length; lia). reflexivity. Qed.

Lemma to_base58_check_buffer buf prefix : bytes buf -> bytes prefix ->
  Z.of_nat (length buf + length prefix) < 2 ^ 61 ->
  to_base58_check buf prefix = to_base58 ((prefix ++ buf) ++ checksum4 (prefix ++ buf)).
Proof.
  intros Hb Hp Hl. unfold to_base58_check.
  set (n := (length buf + length prefix + 4)%nat).
  change (uninit n) with ([] ++ uninit n). change (store ([] ++ uninit n) 0 prefix) with (store ([] ++ uninit n) (length (@nil Z)) prefix).
  rewrite store_uninit by (unfold n; lia). cbn [app bind].
  rewrite store_uninit by (unfold n; lia). cbn [bind].
  rewrite app_assoc. replace (n - length prefix - length buf)%nat with 4%nat by (unfold n; lia).
  set (d := prefix ++ buf).
  assert (Ld : length d = (length buf + length prefix)%nat) by (unfold d; rewrite app_length; lia).
  assert (Hd : bytes d) by now apply bytes_app.
  rewrite <- Ld. rewrite slice_ok by (rewrite app_length; lia). cbn [bind skipn]. rewrite firstn_app_exact.
  rewrite hash256_self by (auto; unfold byte_len_ok; lia). cbn [bind]. rewrite checksum_slice. cbn [bind].
  rewrite store_uninit by (rewrite checksum4_length; lia). cbn [bind].
  rewrite checksum4_length. cbn [Nat.sub uninit repeat]. now rewrite app_nil_r.
Qed.

(** The three outcomes of decoding. *)
Lemma from_base58_check_cases text rest : Forall is_ascii text -> Z.of_nat (length text) * 733 <= INT_MAX ->
  exists (n : nat) (out : list Z), from_base58 (text ++ 0 :: rest) (length text) = Ok (n, out) /\ n = length out /\ bytes out /\
    from_base58_check (text ++ 0 :: rest) (length text) =
      Ok (if (4 <=? n)%nat && bytes_eqb (checksum4 (firstn (n - 4) out)) (skipn (n - 4) out) then (n - 4)%nat else 0%nat, out).
Proof.
  intros A H.
  assert (C : exists out, from_base58 (text ++ 0 :: rest) (length text) = Ok (length out, out) /\ bytes out /\ (length out <= length text)%nat).
  { destruct (from_base58_cases text rest A H) as [(b & o & _ & _ & _ & Bo & Lo & _ & E)|[_ E]].
    - exists o. auto.
    - exists []. split; [exact E|]. split; [constructor|cbn; lia]. }
  destruct C as (out & E & Bo & Lo). exists (length out), out. split; [exact E|]. split; [reflexivity|]. split; [exact Bo|].
  unfold from_base58_check. rewrite E. cbn [bind].
  destruct (Nat.ltb_spec (length out) 4) as [Hlt|Hge].
  - replace (4 <=? length out)%nat with false by (symmetry; apply Nat.leb_gt; lia). reflexivity.
  - replace (4 <=? length out)%nat with true by (symmetry; apply Nat.leb_le; lia). cbn [andb].
    rewrite !slice_ok by lia. cbn [bind skipn].
    assert (Lw : length (firstn (length out - 4) out) = (length out - 4)%nat) by (rewrite firstn_length; lia).
    rewrite <- Lw at 2. rewrite hash256_self; [|now apply bytes_firstn|].
    + cbn [bind]. rewrite checksum_slice. cbn [bind].
      rewrite (firstn_all2 (n := 4) (skipn _ _)) by (rewrite skipn_length; lia).
      destruct (bytes_eqb _ _); reflexivity.
    + unfold byte_len_ok. rewrite Lw. change INT_MAX with 2147483647 in H. lia.
Qed.

Lemma trims_fun text b1 b2 : trims_to text b1 -> Forall (fun c => In c b58_alphabet) b1 ->
  trims_to text b2 -> Forall (fun c => In c b58_alphabet) b2 -> b1 = b2.
Proof.
  intros T1 F1 T2 F2. destruct (parse text) as (s1 & body & r3 & E & P1 & P2 & P3 & P4).
  destruct (trims_unique text s1 body r3 b1) as [-> _]; auto.
  destruct (trims_unique text s1 body r3 b2) as [-> _]; auto.
Qed.
Lemma alpha_of buf text : is_base58 buf text -> Forall (fun c => In c b58_alphabet) text.
Proof. intros B. eapply Forall_impl; [|exact (is_base58_alphabet _ _ B)]. cbv beta; tauto. Qed.
Lemma trims_self body : trims_to body body.
Proof. exists [], []. rewrite app_nil_r. repeat split; constructor. Qed.

Lemma from_base58_check_ok text rest : Forall is_ascii text -> Z.of_nat (length text) * 733 <= INT_MAX ->
  (exists data body, trims_to text body /\ is_base58check data body /\ bytes data /\
     from_base58_check (text ++ 0 :: rest) (length text) = Ok (length data, data ++ checksum4 data)) \/
  ((~ exists data body, bytes data /\ trims_to text body /\ is_base58check data body) /\
     exists out, from_base58_check (text ++ 0 :: rest) (length text) = Ok (0%nat, out)).
Proof.
  intros A H.
  destruct (from_base58_check_cases text rest A H) as (n & out & E & En & Bo & R).
  assert (U : forall data body, bytes data -> trims_to text body -> is_base58check data body -> out = data ++ checksum4 data).
  { intros data body Hd T B. assert (Hdc : bytes (data ++ checksum4 data)) by (apply bytes_app; split; [exact Hd|apply checksum4_bytes]).
    destruct (from_base58_cases text rest A H) as [(b & o & T' & F & B' & Bo' & _ & _ & E')|[N _]].
    - rewrite E' in E. injection E as <- <-. rewrite (trims_fun text b body) in B' by eauto using alpha_of.
      apply (is_base58_inj _ _ _ Bo' Hdc B' B).
    - exfalso. apply N. exists body. split; [exact T|]. eauto using alpha_of. }
  rewrite R. destruct ((4 <=? n)%nat && bytes_eqb _ _) eqn:Ec.
  - left. apply andb_true_iff in Ec as [E4 Ec]. apply Nat.leb_le in E4. apply bytes_eqb_eq in Ec.
    set (data := firstn (n - 4) out) in *.
    assert (Eo : out = data ++ checksum4 data) by (rewrite Ec; unfold data; now rewrite firstn_skipn).
    destruct (from_base58_cases text rest A H) as [(b & o & T' & F & B' & Bo' & _ & _ & E')|[N E']].
    + rewrite E' in E. injection E as En' ->. exists data, b. split; [exact T'|].
      split; [unfold is_base58check; now rewrite <- Eo|]. split; [now apply bytes_firstn|].
      rewrite <- Eo. f_equal. f_equal. unfold data. rewrite firstn_length. lia.
    + rewrite E' in E. injection E as <- <-. lia.
  - right. split; [|eauto]. intros (data & body & Hd & T & B). pose proof (U data body Hd T B) as Eo.
    assert (L : length out = (length data + 4)%nat) by (rewrite Eo, app_length, checksum4_length; lia).
    replace (n - 4)%nat with (length data) in Ec by lia. rewrite Eo in Ec.
    rewrite firstn_app_exact, skipn_app_exact in Ec. apply andb_false_iff in Ec as [Ec|Ec].
    + apply Nat.leb_gt in Ec. lia.
    + rewrite (proj2 (bytes_eqb_eq _ _) eq_refl) in Ec. discriminate.
Qed.
