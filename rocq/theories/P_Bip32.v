(** C63-C65, C71, C85: BIP-32 derivation (src/btc/key.c, src/btc/exkey.c). *)
From Verif Require Import Base S_Words L_Endian M_Endian M_Sha2 S_Sha2 L_Sha2Top S_Ripemd L_Ripemd L_Hash M_Hash M_Random P_Random M_Secp M_Key M_Exkey
  S_Secp L_Secp S_Der S_Life S_Bip32 S_Exkey L_Der P_Der P_Sign L_Bip32 L_Base58Check.

(* ---------------------------------------------------------------- *)
(** ** C63: fingera_btc_key_derive is CKDpriv. On failure it returns 0 and leaves a zero key. *)
Theorem C63_key_derive : forall E g key chain outk outc child, secp_laws E -> ready g ->
  bytes key -> length key = 32%nat -> 0 < be_val key < secp_order -> bytes chain -> length chain = 32%nat ->
  length outk = 32%nat -> length outc = 32%nat -> 0 <= child < 2 ^ 32 ->
  match ckd_priv E (be_val key) chain child with
  | Some (k, c) => key_derive E g key chain outk outc child = Ok (true, be_bytes 32 k, c) /\ 0 < k < secp_order /\ length c = 32%nat /\ bytes c
  | None => exists c, key_derive E g key chain outk outc child = Ok (false, repeat 0 32, c)
  end.
Proof.
  intros E g key chain outk outc child Laws G Bk Lk Sk Bc Lc Lok Loc Hch. change secp_order with secp_n in *.
  destruct (key_derive_ok E g key [] chain [] outk outc child Laws G Bk Lk Sk Bc Lc) as (I & LI & BI & EI & D); auto; try lia; try constructor.
  rewrite (skipn_all2 (n := 32) outk), (skipn_all2 (n := 32) outc), !app_nil_r in D by lia. rewrite D. clear D.
  unfold ckd_priv. change secp_order with secp_n.
  rewrite <- (be_bytes_be_val key Bk) in EI at 1. rewrite Lk in EI. rewrite <- EI. cbv zeta.
  destruct ((secp_n <=? be_val (firstn 32 I)) || ((be_val (firstn 32 I) + be_val key) mod secp_n =? 0)) eqn:F; [eauto|].
  split; [reflexivity|]. assert (P : 0 < secp_n) by reflexivity. pose proof (Z.mod_pos_bound (be_val (firstn 32 I) + be_val key) secp_n P).
  split; [lia|]. split; [rewrite skipn_length; lia|now apply bytes_skipn].
Qed.
Print Assumptions C63_key_derive.

(** An invalid parent key: a non-hardened derivation aborts. *)
Theorem C63_key_derive_invalid : forall E g key chain outk outc child, ready g -> length key = 32%nat -> ~ 0 < be_val key < secp_order ->
  0 <= child < 2 ^ 31 -> key_derive E g key chain outk outc child = Abort.
Proof.
  intros E g key chain outk outc child (cs & cv & Gs & _ & Cs & _) Lk N Hch. change secp_order with secp_n in N. unfold key_derive. rewrite child_kind by lia.
  replace (2 ^ 31 <=? child) with false by lia. cbn [negb]. unfold key_get_pub, secp_pubkey_create, sign_ctx. rewrite Gs, Cs. cbn [c_assert bind].
  rewrite <- (app_nil_r key). rewrite slice32 by assumption. cbn [bind].
  replace ((0 <? be_val key) && (be_val key <? secp_n)) with false by lia. reflexivity.
Qed.
Print Assumptions C63_key_derive_invalid.

(** The public counterpart, fingera_btc_pubkey_derive, is CKDpub on serialised points. *)
Theorem C63_pubkey_derive : forall E g K chain outp outc child, secp_laws E -> ready g -> bytes chain -> length chain = 32%nat ->
  length outp = 33%nat -> length outc = 32%nat -> 0 <= child < 2 ^ 31 ->
  match ckd_pub E K chain child with
  | Some (K', c) => pubkey_derive E g (ser E true K) chain outp outc child = Ok (true, ser E true K', c) /\ length c = 32%nat /\ bytes c
  | None => exists c, pubkey_derive E g (ser E true K) chain outp outc child = Ok (false, outp, c)
  end.
Proof.
  intros E g K chain outp outc child Laws G Bc Lc Lop Loc Hch.
  destruct (pubkey_derive_ok E g K [] chain [] outp outc child Laws G Bc Lc) as (I & LI & BI & EI & D); auto; try lia; try constructor.
  rewrite !app_nil_r in D. rewrite D. clear D.
  unfold ckd_pub. change secp_order with secp_n. rewrite <- EI. cbv zeta.
  destruct (secp_n <=? be_val (firstn 32 I)); [eauto|]. destruct (add_gen E K (be_val (firstn 32 I))) as [Ki|]; [|eauto].
  rewrite (skipn_all2 (n := 33) outp), (skipn_all2 (n := 32) outc), !app_nil_r by lia.
  split; [reflexivity|]. split; [rewrite skipn_length; lia|now apply bytes_skipn].
Qed.
Print Assumptions C63_pubkey_derive.

(* ---------------------------------------------------------------- *)
(** ** C64 *)

(** In BIP-32's own terms: N(CKDpriv((k,c),i)) = CKDpub(N(k,c),i). *)
Theorem C64_ckd_commutes : forall E k chain i, secp_laws E -> 0 < k < secp_order -> 0 <= i < 2 ^ 31 ->
  ckd_pub E (pub_of E k) chain i = match ckd_priv E k chain i with Some (k', c) => Some (pub_of E k', c) | None => None end.
Proof.
  intros E k chain i Laws Sk Hi. unfold ckd_pub, ckd_priv. replace (2 ^ 31 <=? i) with false by lia. change secp_order with secp_n in *.
  set (I := hmac_sha512_of chain (ser E true (pub_of E k) ++ be_bytes 4 i)).
  destruct (Z.leb_spec secp_n (be_val (firstn 32 I))) as [H|H]; cbn [orb]; [reflexivity|].
  assert (B : 0 <= be_val (firstn 32 I)) by (apply be_val_bound, bytes_firstn, hmac512_bytes).
  rewrite (law_add E Laws) by (unfold scalar; lia). rewrite (Z.add_comm k).
  destruct ((be_val (firstn 32 I) + k) mod secp_n =? 0); reflexivity.
Qed.
Print Assumptions C64_ckd_commutes.

(** Exact effect of the two derivation functions. *)
Lemma exkey_derive_ok E g xk d child fp : secp_laws E -> ready g -> wf_key xk -> scalar (be_val (xk_key xk)) -> wf_key d -> 0 <= child < 2 ^ 32 ->
  match ckd_priv E (be_val (xk_key xk)) (x_chain_code (xk_ext xk)) child with
  | Some (k, c) => exkey_derive E g xk d child fp = Ok (true, mkExKey (mkExt ((x_depth (xk_ext xk) + 1) mod 256) fp child c) (be_bytes 32 k)) /\
      scalar k /\ length c = 32%nat /\ bytes c
  | None => exists d', exkey_derive E g xk d child fp = Ok (false, d')
  end.
Proof.
  intros Laws G ((_ & _ & _ & Bc & Lc) & Bk & Lk) Sk ((_ & _ & _ & _ & Lcd) & _ & Lkd) Hch.
  pose proof (C63_key_derive E g (xk_key xk) (x_chain_code (xk_ext xk)) (xk_key d) (x_chain_code (xk_ext d)) child Laws G Bk Lk Sk Bc Lc Lkd Lcd Hch) as D.
  unfold exkey_derive. destruct (ckd_priv E (be_val (xk_key xk)) (x_chain_code (xk_ext xk)) child) as [[k c]|].
  - destruct D as (-> & S & L & B). cbn [bind]. auto.
  - destruct D as [c ->]. cbn [bind]. eauto.
Qed.

Lemma expubkey_derive_ok E g xp K d child fp : secp_laws E -> ready g -> wf_pub xp -> xp_c_pubkey xp = ser E true K -> wf_pub d -> 0 <= child < 2 ^ 31 ->
  match ckd_pub E K (x_chain_code (xp_ext xp)) child with
  | Some (K', c) => expubkey_derive E g xp d child fp = Ok (true, mkExPub (mkExt ((x_depth (xp_ext xp) + 1) mod 256) fp child c) (ser E true K')) /\
      length c = 32%nat /\ bytes c
  | None => exists d', expubkey_derive E g xp d child fp = Ok (false, d')
  end.
Proof.
  intros Laws G ((_ & _ & _ & Bc & Lc) & _ & _) EK ((_ & _ & _ & _ & Lcd) & _ & Lkd) Hch.
  pose proof (C63_pubkey_derive E g K (x_chain_code (xp_ext xp)) (xp_c_pubkey d) (x_chain_code (xp_ext d)) child Laws G Bc Lc Lkd Lcd Hch) as D.
  unfold expubkey_derive. rewrite EK. destruct (ckd_pub E K (x_chain_code (xp_ext xp)) child) as [[k c]|].
  - destruct D as (-> & L & B). cbn [bind negb]. auto.
  - destruct D as [c ->]. cbn [bind negb]. eauto.
Qed.

Lemma exkey_get_pub_ok E g xk blank : secp_laws E -> ready g -> wf_key xk -> scalar (be_val (xk_key xk)) -> wf_pub blank ->
  exkey_get_pub E g xk blank = Ok (mkExPub (xk_ext xk) (ser E true (pub_of E (be_val (xk_key xk))))).
Proof.
  intros Laws G (_ & Bk & Lk) Sk (_ & _ & Lb). unfold exkey_get_pub. rewrite <- (app_nil_r (xk_key xk)) at 1. rewrite get_pub_ok by assumption. cbn [bind].
  rewrite Lb. rewrite (pub_encode_ok E g true) by (auto; lia). cbn [bind c_assert]. rewrite skipn_all2, app_nil_r by lia. reflexivity.
Qed.

(** Along any path of non-hardened steps: both derivations succeed and give matching keys, or both fail. *)
Theorem C64_public_derivation_commutes : forall E g blank blankp, secp_laws E -> ready g -> wf_key blank -> wf_pub blankp ->
  forall path xk, wf_key xk -> 0 < be_val (xk_key xk) < secp_order ->
  Forall (fun s => 0 <= fst s < 2 ^ 31 /\ 0 <= snd s < 2 ^ 32) path ->
  exists xp, exkey_get_pub E g xk blankp = Ok xp /\
   ((exists xk' xp', derive_path E g blank path xk = Ok (Some xk') /\ exkey_get_pub E g xk' blankp = Ok xp' /\
       derive_pub_path E g blankp path xp = Ok (Some xp')) \/
    (derive_path E g blank path xk = Ok None /\ derive_pub_path E g blankp path xp = Ok None)).
Proof.
  intros E g blank blankp Laws G Wb Wp. change secp_order with secp_n. induction path as [|[i fp] path IH]; intros xk W S F.
  - exists (mkExPub (xk_ext xk) (ser E true (pub_of E (be_val (xk_key xk))))). rewrite exkey_get_pub_ok by assumption. split; [reflexivity|].
    left. exists xk, (mkExPub (xk_ext xk) (ser E true (pub_of E (be_val (xk_key xk))))). cbn [derive_path derive_pub_path].
    rewrite exkey_get_pub_ok by assumption. auto.
  - inversion F as [|? ? [Hi Hf] F']; subst. cbn [fst snd] in Hi, Hf.
    set (xp := mkExPub (xk_ext xk) (ser E true (pub_of E (be_val (xk_key xk))))).
    exists xp. rewrite exkey_get_pub_ok by assumption. split; [reflexivity|]. cbn [derive_path derive_pub_path].
    assert (Wxp : wf_pub xp).
    { destruct (law_ser33 E Laws (pub_of E (be_val (xk_key xk)))) as (L & B & _). destruct W as (We & _). split; [exact We|]. auto. }
    pose proof (exkey_derive_ok E g xk blank i fp Laws G W S Wb ltac:(lia)) as D1.
    pose proof (expubkey_derive_ok E g xp (pub_of E (be_val (xk_key xk))) blankp i fp Laws G Wxp eq_refl Wp Hi) as D2.
    change (x_chain_code (xp_ext xp)) with (x_chain_code (xk_ext xk)) in D2. change (x_depth (xp_ext xp)) with (x_depth (xk_ext xk)) in D2.
    rewrite (C64_ckd_commutes E _ _ i Laws S Hi) in D2.
    destruct (ckd_priv E (be_val (xk_key xk)) (x_chain_code (xk_ext xk)) i) as [[k c]|].
    + destruct D1 as (-> & Sk & Lc & Bc). destruct D2 as (-> & _ & _). cbn [bind].
      set (xk1 := mkExKey (mkExt ((x_depth (xk_ext xk) + 1) mod 256) fp i c) (be_bytes 32 k)).
      assert (V : be_val (be_bytes 32 k) = k) by (apply be32_small; unfold scalar in Sk; lia).
      assert (W1 : wf_key xk1).
      { split; [|split; [apply be_bytes_bytes|apply be_bytes_length]].
        split; [apply Z.mod_pos_bound; lia|]. cbn [xk1 xk_ext x_fingerprint x_child x_chain_code]. split; [lia|]. split; [lia|]. auto. }
      assert (S1 : scalar (be_val (xk_key xk1))) by (cbn [xk1 xk_key]; now rewrite V).
      destruct (IH xk1 W1 S1 F') as (xp1 & E1 & R). rewrite exkey_get_pub_ok in E1 by assumption. injection E1 as <-.
      cbn [xk1 xk_key xk_ext] in R. rewrite V in R. exact R.
    + destruct D1 as (d1 & ->). destruct D2 as (d2 & ->). cbn [bind]. right. auto.
Qed.
Print Assumptions C64_public_derivation_commutes.

(** Public derivation of a hardened child is refused: the program aborts. *)
Theorem C64_hardened_public_aborts : forall E g xp d child fp, 2 ^ 31 <= child < 2 ^ 32 -> expubkey_derive E g xp d child fp = Abort.
Proof.
  intros E g xp d child fp H. unfold expubkey_derive, pubkey_derive. rewrite child_kind by lia. replace (2 ^ 31 <=? child) with true by lia. reflexivity.
Qed.
Print Assumptions C64_hardened_public_aborts.

(* ---------------------------------------------------------------- *)
(** ** C65 *)
Lemma read_le4 l : bytes l -> (4 <= length l)%nat -> read_little_32 l = Ok (le_val (firstn 4 l)).
Proof.
  intros B L. unfold read_little_32, htole32. rewrite slice_ok by lia. change (skipn 0 l) with l. cbn [bind]. rewrite host_val_le by now apply bytes_firstn. reflexivity.
Qed.

Lemma keyid_ok E g key krest (c : bool) : secp_laws E -> ready g -> length key = 32%nat -> scalar (be_val key) ->
  key_keyid E g (key ++ krest) c = Ok (hash160_of (ser E c (pub_of E (be_val key)))).
Proof.
  intros Laws G Lk Sk. unfold key_keyid. rewrite get_pub_ok by assumption. cbn [bind]. unfold pubkey_keyid. set (P := pub_of E (be_val key)).
  assert (Ls : length (ser E c P) = (if c then BTC_COMPRESSED_PUBLIC_KEY_SIZE else BTC_PUBLIC_KEY_SIZE)) by (destruct c; [apply (law_ser33 E Laws)|apply (law_ser65 E Laws)]).
  assert (Bs : bytes (ser E c P)) by (destruct c; [apply (law_ser33 E Laws)|apply (law_ser65 E Laws)]).
  replace (pubkey_encode E g P (uninit BTC_PUBLIC_KEY_SIZE) (if c then BTC_COMPRESSED_PUBLIC_KEY_SIZE else BTC_PUBLIC_KEY_SIZE))
    with (Ok (true, ser E c P ++ skipn (if c then 33 else 65) (uninit BTC_PUBLIC_KEY_SIZE))).
  2:{ symmetry. destruct c; [apply (pub_encode_ok E g true P)|apply (pub_encode_ok E g false P)]; auto; unfold BTC_PUBLIC_KEY_SIZE; rewrite L_Base58Check.uninit_length; lia. }
  cbn [bind c_assert]. rewrite slice_ok by (rewrite app_length; lia). rewrite skipn_O. cbn [bind]. rewrite <- Ls. rewrite firstn_app_exact.
  rewrite hash160_ok; [|exact Bs|lia|apply byte_len_small; rewrite Ls; destruct c; unfold BTC_COMPRESSED_PUBLIC_KEY_SIZE, BTC_PUBLIC_KEY_SIZE; lia].
  now rewrite firstn_all.
Qed.

Theorem C65_key_fingerprint : forall E g key krest (compressed : bool), secp_laws E -> ready g -> length key = 32%nat -> 0 < be_val key < secp_order ->
  key_fingerprint E g (key ++ krest) compressed = Ok (le_val (firstn 4 (hash160_of (ser E compressed (pub_of E (be_val key)))))).
Proof.
  intros E g key krest c Laws G Lk Sk. change secp_order with secp_n in Sk. unfold key_fingerprint. rewrite keyid_ok by assumption. cbn [bind].
  apply read_le4; [apply RIPEMD160_bytes|]. unfold hash160_of. rewrite RIPEMD160_length. lia.
Qed.
Print Assumptions C65_key_fingerprint.

Theorem C65_pubkey_fingerprint : forall pub rest, bytes pub -> length pub = 33%nat ->
  pubkey_fingerprint (pub ++ rest) = Ok (le_val (firstn 4 (hash160_of pub))).
Proof.
  intros pub rest B L. unfold pubkey_fingerprint. rewrite slice_ok by (rewrite app_length; lia). change (skipn 0 (pub ++ rest)) with (pub ++ rest). cbn [bind].
  rewrite <- L. rewrite firstn_app_exact. rewrite hash160_ok; [|exact B|lia|apply byte_len_small; lia]. cbn [bind]. rewrite firstn_all.
  apply read_le4; [apply RIPEMD160_bytes|]. unfold hash160_of; rewrite RIPEMD160_length. lia.
Qed.
Print Assumptions C65_pubkey_fingerprint.

Theorem C65_fingerprints_agree : forall E g key krest, secp_laws E -> ready g -> length key = 32%nat -> 0 < be_val key < secp_order ->
  exists P enc fp, key_get_pub E g (key ++ krest) = Ok P /\ pubkey_encode E g P (repeat 0 33) 33 = Ok (true, enc) /\
    key_fingerprint E g (key ++ krest) true = Ok fp /\ pubkey_fingerprint enc = Ok fp.
Proof.
  intros E g key krest Laws G Lk Sk. exists (pub_of E (be_val key)), (ser E true (pub_of E (be_val key))). eexists.
  destruct (law_ser33 E Laws (pub_of E (be_val key))) as (L & B & _).
  split; [apply get_pub_ok; auto|]. split; [rewrite (pub_encode_ok E g true) by (auto; rewrite repeat_length; lia); rewrite skipn_all2, app_nil_r by (rewrite repeat_length; lia); reflexivity|].
  split; [apply C65_key_fingerprint; assumption|]. pose proof (C65_pubkey_fingerprint _ [] B L) as X. rewrite app_nil_r in X. exact X.
Qed.
Print Assumptions C65_fingerprints_agree.

(* ---------------------------------------------------------------- *)
(** ** C71 *)

(** Below depth 255 a derived key has depth + 1, the child number and the fingerprint given. *)
Theorem C71_exkey_derive_partial : forall E g xk d child fp k', secp_laws E -> ready g -> wf_key xk -> 0 < be_val (xk_key xk) < secp_order -> wf_key d ->
  0 <= child < 2 ^ 32 -> x_depth (xk_ext xk) < 255 ->
  exkey_derive E g xk d child fp = Ok (true, k') ->
  x_depth (xk_ext k') = x_depth (xk_ext xk) + 1 /\ x_child (xk_ext k') = child /\ x_fingerprint (xk_ext k') = fp /\
  ckd_priv E (be_val (xk_key xk)) (x_chain_code (xk_ext xk)) child = Some (be_val (xk_key k'), x_chain_code (xk_ext k')).
Proof.
  intros E g xk d child fp k' Laws G W S Wd Hc Hd D. pose proof (exkey_derive_ok E g xk d child fp Laws G W S Wd Hc) as X.
  destruct (ckd_priv E (be_val (xk_key xk)) (x_chain_code (xk_ext xk)) child) as [[k c]|]; [|destruct X as [d' X]; rewrite D in X; discriminate].
  destruct X as (X & Sk & _). rewrite D in X. injection X as ->. cbn [xk_ext xk_key x_depth x_child x_fingerprint x_chain_code].
  destruct W as ((Wd0 & _) & _). rewrite Z.mod_small by lia. rewrite be32_small by (unfold scalar in Sk; lia). auto.
Qed.
Print Assumptions C71_exkey_derive_partial.

Theorem C71_expubkey_derive_partial : forall E g xp K d child fp p', secp_laws E -> ready g -> wf_pub xp -> xp_c_pubkey xp = ser E true K -> wf_pub d ->
  0 <= child < 2 ^ 31 -> x_depth (xp_ext xp) < 255 ->
  expubkey_derive E g xp d child fp = Ok (true, p') ->
  x_depth (xp_ext p') = x_depth (xp_ext xp) + 1 /\ x_child (xp_ext p') = child /\ x_fingerprint (xp_ext p') = fp /\
  exists K', ckd_pub E K (x_chain_code (xp_ext xp)) child = Some (K', x_chain_code (xp_ext p')) /\ xp_c_pubkey p' = ser E true K'.
Proof.
  intros E g xp K d child fp p' Laws G W EK Wd Hc Hd D. pose proof (expubkey_derive_ok E g xp K d child fp Laws G W EK Wd Hc) as X.
  destruct (ckd_pub E K (x_chain_code (xp_ext xp)) child) as [[k c]|]; [|destruct X as [d' X]; rewrite D in X; discriminate].
  destruct X as (X & _). rewrite D in X. injection X as ->. cbn [xp_ext xp_c_pubkey x_depth x_child x_fingerprint x_chain_code].
  destruct W as ((Wd0 & _) & _). rewrite Z.mod_small by lia. eauto 6.
Qed.
Print Assumptions C71_expubkey_derive_partial.

(** Along a path of at most 255 - depth steps. *)
Theorem C71_path_depth_partial : forall E g blank, secp_laws E -> ready g -> wf_key blank ->
  forall path xk k', wf_key xk -> 0 < be_val (xk_key xk) < secp_order ->
  Forall (fun s => 0 <= fst s < 2 ^ 32 /\ 0 <= snd s < 2 ^ 32) path ->
  x_depth (xk_ext xk) + Z.of_nat (length path) <= 255 ->
  derive_path E g blank path xk = Ok (Some k') ->
  x_depth (xk_ext k') = x_depth (xk_ext xk) + Z.of_nat (length path).
Proof.
  intros E g blank Laws G Wb. change secp_order with secp_n. induction path as [|[i fp] path IH]; intros xk k' W S F Hd D.
  - cbn [derive_path] in D. injection D as <-. cbn [length]. lia.
  - inversion F as [|? ? [Hi Hf] F']; subst. cbn [fst snd] in Hi, Hf. cbn [derive_path] in D. cbn [length] in *.
    pose proof (exkey_derive_ok E g xk blank i fp Laws G W S Wb Hi) as D1.
    destruct (ckd_priv E (be_val (xk_key xk)) (x_chain_code (xk_ext xk)) i) as [[k c]|].
    + destruct D1 as (D1 & Sk & Lc & Bc). rewrite D1 in D. cbn [bind] in D.
      assert (Wd0 : 0 <= x_depth (xk_ext xk) < 256) by apply W.
      assert (V : be_val (be_bytes 32 k) = k) by (apply be32_small; unfold scalar in Sk; lia).
      apply IH in D.
      * rewrite D. cbn [xk_ext x_depth]. rewrite Z.mod_small by lia. lia.
      * split; [|split; [apply be_bytes_bytes|apply be_bytes_length]].
        split; [apply Z.mod_pos_bound; lia|]. cbn [xk_ext x_fingerprint x_child x_chain_code]. auto.
      * cbn [xk_key]. rewrite V. exact Sk.
      * exact F'.
      * cbn [xk_ext x_depth]. rewrite Z.mod_small by lia. lia.
    + destruct D1 as (d1 & D1). rewrite D1 in D. discriminate.
Qed.
Print Assumptions C71_path_depth_partial.

(** The full claim is false: at depth 255 derivation does not fail; whenever CKDpriv gives a
    child, it is returned with depth 0 (the same depth as a master key). *)
Theorem C71_depth_wraps_refuted : forall E g xk d child fp k c, secp_laws E -> ready g -> wf_key xk -> 0 < be_val (xk_key xk) < secp_order -> wf_key d ->
  0 <= child < 2 ^ 32 -> x_depth (xk_ext xk) = 255 ->
  ckd_priv E (be_val (xk_key xk)) (x_chain_code (xk_ext xk)) child = Some (k, c) ->
  exists k', exkey_derive E g xk d child fp = Ok (true, k') /\ x_depth (xk_ext k') = 0.
Proof.
  intros E g xk d child fp k c Laws G W S Wd Hc Hd HD. pose proof (exkey_derive_ok E g xk d child fp Laws G W S Wd Hc) as X. rewrite HD in X.
  destruct X as (X & _). rewrite X. eexists. split; [reflexivity|]. cbn [xk_ext x_depth]. rewrite Hd. reflexivity.
Qed.
Print Assumptions C71_depth_wraps_refuted.

(* ---------------------------------------------------------------- *)
(** ** C85: the master key.  "Bitcoin seed" in ASCII. *)
Definition bitcoin_seed : list Z := [66; 105; 116; 99; 111; 105; 110; 32; 115; 101; 101; 100].
Theorem C85_master_key : forall key seed rest, wf_key key -> bytes seed -> bytes rest -> Z.of_nat (length seed) < 2 ^ 60 ->
  let I := hmac_sha512_of bitcoin_seed seed in
  length I = 64%nat /\
  exkey_init key (seed ++ rest) (length seed) = Ok (mkExKey (mkExt 0 0 0 (skipn 32 I)) (firstn 32 I)).
Proof.
  intros key seed rest ((_ & _ & _ & _ & Lc) & _ & Lk) Bs Br Hl. cbv zeta.
  assert (LI : length (hmac_sha512_of bitcoin_seed seed) = 64%nat) by apply hmac512_length. split; [exact LI|].
  unfold exkey_init. rewrite hmac_sha512_ok.
  2:{ unfold hashkey. repeat apply Forall_cons; try apply Forall_nil; unfold is_byte; lia. }
  2:{ cbn [hashkey length]. lia. }
  2:{ apply bytes_app; auto. }
  2:{ rewrite app_length. lia. }
  2:{ apply byte_len_small; lia. }
  2:{ unfold byte_len_ok. lia. }
  rewrite firstn_app_exact. assert (HK : firstn 12 hashkey = bitcoin_seed) by reflexivity. rewrite HK. assert (HE : forall k m, hmac SHA512 128 k m = hmac_sha512_of k m) by reflexivity. rewrite HE.
  generalize dependent (hmac_sha512_of bitcoin_seed seed). intros I LI. cbn [bind].
  rewrite (slice_ok I 0 32), (slice_ok I 32 32) by lia. rewrite skipn_O. cbn [bind].
  replace (firstn 32 (skipn 32 I)) with (skipn 32 I) by (symmetry; apply firstn_all2; rewrite skipn_length; lia).
  rewrite store0 by (rewrite firstn_length; lia). cbn [bind]. rewrite store0 by (rewrite skipn_length; lia). cbn [bind].
  unfold cleanse. rewrite store_ok by (rewrite repeat_length; lia). cbn [bind].
  rewrite (skipn_all2 (n := length (firstn 32 I)) (xk_key key)) by (rewrite firstn_length; lia).
  rewrite (skipn_all2 (n := length (skipn 32 I)) (x_chain_code (xk_ext key))) by (rewrite skipn_length; lia).
  now rewrite !app_nil_r.
Qed.
Print Assumptions C85_master_key.

(* ---------------------------------------------------------------- *)
(** ** Concrete cases: BIP-32 test vector 1 (chain m), and a key at depth 255 on the toy curve. *)
Definition tv1_seed : list Z := be_bytes 16 0x000102030405060708090a0b0c0d0e0f.
Definition blank_key : ex_key := mkExKey (mkExt 0 0 0 (repeat 0 32)) (repeat 0 32).
Definition blank_pub : ex_pubkey := mkExPub (mkExt 0 0 0 (repeat 0 32)) (repeat 0 33).
Example blank_key_wf : wf_key blank_key /\ wf_pub blank_pub.
Proof. repeat split; cbn; try lia; repeat constructor; unfold is_byte; lia. Qed.
Example tv1_master : exkey_init blank_key tv1_seed 16 = Ok (mkExKey
  (mkExt 0 0 0 (be_bytes 32 0x873dff81c02f525623fd1fe5167eac3a55a049de3d314bb42ee227ffed37d508))
  (be_bytes 32 0xe8f32e723decf4051aefac8e2c93c9c5b214313817cdb01a1494b917c8436b35)).
Proof. vm_compute. reflexivity. Qed.
Definition deep_key : ex_key := mkExKey (mkExt 255 7 9 (repeat 1 32)) (be_bytes 32 77).
Example deep_key_wf : wf_key deep_key /\ 0 < be_val (xk_key deep_key) < secp_order.
Proof. split; [|vm_compute; split; reflexivity]. repeat split; cbn; try lia; repeat constructor; unfold is_byte; lia. Qed.
Example deep_key_derives : match ckd_priv toy (be_val (xk_key deep_key)) (x_chain_code (xk_ext deep_key)) 5 with Some _ => true | None => false end = true.
Proof. vm_compute. reflexivity. Qed.
