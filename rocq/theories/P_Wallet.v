(** C116: a watch-only wallet follows the signing wallet (src/btc/exkey.c, src/btc/key.c, src/btc/address.c together). *)
From Verif Require Import Base S_Words L_Endian M_Endian M_Sha2 S_Sha2 L_Sha2Top S_Ripemd L_Ripemd L_Hash M_Hash M_Random M_Address M_Base58Check M_Secp M_Key M_Exkey
  S_Secp L_Secp S_Der S_Life S_Bip32 S_Exkey S_Address L_Address P_Address L_Der P_Der P_Sign L_Bip32 L_Exkey L_Base58Check P_Bip32 P_Exkey P_Pubkey S_Wallet.

Definition public_of (E : secp) (k : ex_key) : ex_pubkey := mkExPub (xk_ext k) (ser E true (pub_of E (be_val (xk_key k)))).
Lemma public_of_wf E k : secp_laws E -> wf_key k -> wf_pub (public_of E k).
Proof. intros Laws W. destruct (law_ser33 E Laws (pub_of E (be_val (xk_key k)))) as (L & B & _). destruct W as (We & _). split; [exact We|]. split; assumption. Qed.

Lemma fp_range l : bytes l -> (4 <= length l)%nat -> 0 <= le_val (firstn 4 l) < 2 ^ 32.
Proof. intros B L. pose proof (le_val_bound (firstn 4 l) (bytes_firstn 4 l B)) as H. rewrite firstn_length in H. replace (Nat.min 4 (length l)) with 4%nat in H by lia. exact H. Qed.

Lemma step_private E g blank xk i : secp_laws E -> ready g -> wf_key blank -> wf_key xk -> scalar (be_val (xk_key xk)) -> 0 <= i < 2 ^ 32 ->
  let fp := le_val (firstn 4 (hash160_of (ser E true (pub_of E (be_val (xk_key xk)))))) in
  key_fingerprint E g (xk_key xk) true = Ok fp /\
  ((exists k c, ckd_priv E (be_val (xk_key xk)) (x_chain_code (xk_ext xk)) i = Some (k, c) /\
      let xk' := mkExKey (mkExt ((x_depth (xk_ext xk) + 1) mod 256) fp i c) (be_bytes 32 k) in
      exkey_derive E g xk blank i fp = Ok (true, xk') /\ wf_key xk' /\ be_val (xk_key xk') = k /\ scalar k) \/
   (ckd_priv E (be_val (xk_key xk)) (x_chain_code (xk_ext xk)) i = None /\ exists d, exkey_derive E g xk blank i fp = Ok (false, d))).
Proof.
  intros Laws G Wb W S Hi fp.
  assert (F : key_fingerprint E g (xk_key xk) true = Ok fp).
  { pose proof (C65_key_fingerprint E g (xk_key xk) [] true Laws G (proj2 (proj2 W)) S) as H. rewrite app_nil_r in H. exact H. }
  split; [exact F|].
  assert (R : 0 <= fp < 2 ^ 32). { apply fp_range; [apply RIPEMD160_bytes|unfold hash160_of; rewrite RIPEMD160_length; lia]. }
  pose proof (exkey_derive_ok E g xk blank i fp Laws G W S Wb Hi) as D.
  clearbody fp.
  destruct (ckd_priv E (be_val (xk_key xk)) (x_chain_code (xk_ext xk)) i) as [[k c]|].
  - left. exists k, c. split; [reflexivity|]. destruct D as (D & Sk & Lc & Bc). cbv zeta. split; [exact D|].
    assert (V : be_val (be_bytes 32 k) = k) by (apply be32_small; unfold scalar in Sk; lia).
    split; [|split; [exact V|exact Sk]].
    split; [|split; [apply be_bytes_bytes|apply be_bytes_length]]. split; [apply Z.mod_pos_bound; lia|]. cbn. auto.
  - right. auto.
Qed.

(** The two machines walk in step. *)
Lemma walk_together E g blank blankp : secp_laws E -> ready g -> wf_key blank -> wf_pub blankp ->
  forall path xk, wf_key xk -> scalar (be_val (xk_key xk)) -> Forall (fun i => 0 <= i < 2 ^ 31) path ->
  (exists xk', walk_private E g blank path xk = Ok (Some xk') /\ walk_public E g blankp path (public_of E xk) = Ok (Some (public_of E xk')) /\
     wf_key xk' /\ scalar (be_val (xk_key xk'))) \/
  (walk_private E g blank path xk = Ok None /\ walk_public E g blankp path (public_of E xk) = Ok None).
Proof.
  intros Laws G Wb Wp. induction path as [|i path IH]; intros xk W S F.
  - left. exists xk. cbn [walk_private walk_public]. auto.
  - inversion F as [|? ? Hi F']; subst. destruct (step_private E g blank xk i Laws G Wb W S ltac:(lia)) as (K & D). cbn [walk_private walk_public].
    rewrite K. cbn [bind].
    pose proof (public_of_wf E xk Laws W) as Wx.
    assert (FP : pubkey_fingerprint (xp_c_pubkey (public_of E xk)) = Ok (le_val (firstn 4 (hash160_of (ser E true (pub_of E (be_val (xk_key xk)))))))).
    { pose proof (C65_pubkey_fingerprint (xp_c_pubkey (public_of E xk)) [] (proj1 (proj2 Wx)) (proj2 (proj2 Wx))) as H. rewrite app_nil_r in H. exact H. }
    rewrite FP. cbn [bind]. set (fp := le_val (firstn 4 (hash160_of (ser E true (pub_of E (be_val (xk_key xk))))))) in *. clearbody fp.
    pose proof (expubkey_derive_ok E g (public_of E xk) (pub_of E (be_val (xk_key xk))) blankp i fp Laws G Wx eq_refl Wp Hi) as D2.
    change (x_chain_code (xp_ext (public_of E xk))) with (x_chain_code (xk_ext xk)) in D2. change (x_depth (xp_ext (public_of E xk))) with (x_depth (xk_ext xk)) in D2.
    rewrite (C64_ckd_commutes E _ _ i Laws S Hi) in D2.
    destruct D as [(k & c & C & D & W' & V & Sk)|(C & d & D)]; rewrite C in D2; rewrite D; cbn [bind].
    + destruct D2 as (D2 & _ & _). rewrite D2. cbn [bind].
      replace (mkExPub (mkExt ((x_depth (xk_ext xk) + 1) mod 256) fp i c) (ser E true (pub_of E k)))
        with (public_of E (mkExKey (mkExt ((x_depth (xk_ext xk) + 1) mod 256) fp i c) (be_bytes 32 k))) by (unfold public_of; rewrite V; reflexivity).
      apply IH; auto. rewrite V. exact Sk.
    + destruct D2 as (d2 & D2). rewrite D2. cbn [bind]. right. auto.
Qed.

Lemma walk_private_valid E g blank : secp_laws E -> ready g -> wf_key blank ->
  forall path xk xk', wf_key xk -> scalar (be_val (xk_key xk)) -> Forall (fun i => 0 <= i < 2 ^ 32) path ->
  walk_private E g blank path xk = Ok (Some xk') -> wf_key xk' /\ scalar (be_val (xk_key xk')).
Proof.
  intros Laws G Wb. induction path as [|i path IH]; intros xk xk' W S F H; cbn [walk_private] in H.
  - injection H as <-. auto.
  - inversion F as [|? ? Hi F']; subst. destruct (step_private E g blank xk i Laws G Wb W S Hi) as (K & D). rewrite K in H. cbn [bind] in H.
    destruct D as [(k & c & C & D & W' & V & Sk)|(C & d & D)]; rewrite D in H; cbn [bind] in H; [|discriminate].
    apply (IH _ _ W') in H; auto. rewrite V. exact Sk.
Qed.

(** ** C116
    Hand the extended public key of any key to a watch-only machine, as a string, and keep the extended private key, as a string.
    For every path of non-hardened steps, either both machines report that the path does not exist, or both get a key, and then: the
    watcher's key is the public key of the signer's; both compute the same two addresses; what the signer signs, the watcher verifies. *)
Theorem C116_watch_only : forall E g net blank blankp xk path,
  secp_laws E -> ready g -> builtin net -> wf_key blank -> wf_pub blankp -> wf_key xk -> 0 < be_val (xk_key xk) < secp_order ->
  Forall (fun i => 0 <= i < 2 ^ 31) path ->
  exists xp xprv xpub,
    exkey_get_pub E g xk blankp = Ok xp /\ exkey_to_string xk net = Ok (length xprv, xprv) /\ expubkey_to_string xp net = Ok (length xpub, xpub) /\
    ((exists xk' xp' P base58_addr witness_addr,
        signer E g blank net xprv path = Ok (Some xk') /\ watcher E g blankp net xpub path = Ok (Some xp') /\
        exkey_get_pub E g xk' blankp = Ok xp' /\
        signer_addresses E g net xk' = Ok ((length base58_addr, base58_addr), (length witness_addr, witness_addr)) /\
        watcher_addresses E g net xp' = Ok (Some ((length base58_addr, base58_addr), (length witness_addr, witness_addr))) /\
        (0 < length base58_addr)%nat /\ (0 < length witness_addr)%nat /\
        pubkey_decode E g (xp_c_pubkey xp') 33 = Ok (Some P) /\
        (forall fuel hash sig, bytes hash -> length hash = 32%nat ->
           key_sign fuel E g (xk_key xk') hash = Ok (Returned sig) -> key_verify E g P hash sig = Ok true)) \/
     (signer E g blank net xprv path = Ok None /\ watcher E g blankp net xpub path = Ok None)).
Proof.
  intros E g net blank blankp xk path Laws G Hn Wb Wp W S F. change secp_order with secp_n in S.
  pose proof (public_of_wf E xk Laws W) as Wx.
  destruct (C68_builtin_roundtrip net xk blank (public_of E xk) blankp [] Hn W Wb Wx Wp) as ((tk & Ek & _ & Rk) & (tp & Ep & _ & Rp)).
  exists (public_of E xk), tk, tp. rewrite exkey_get_pub_ok by assumption. split; [reflexivity|]. split; [exact Ek|]. split; [exact Ep|].
  unfold signer, watcher. rewrite Rk, Rp. cbn [bind]. change (1 =? 1) with true. cbv iota.
  destruct (walk_together E g blank blankp Laws G Wb Wp path xk W S F) as [(xk' & A & B & W' & S')|(A & B)]; [left|right; auto].
  set (P := pub_of E (be_val (xk_key xk'))). set (id := hash160_of (ser E true P)).
  assert (Lid : length id = 20%nat) by apply RIPEMD160_length. assert (Bid : bytes id) by apply RIPEMD160_bytes.
  assert (KI : key_keyid E g (xk_key xk') true = Ok id).
  { pose proof (keyid_ok E g (xk_key xk') [] true Laws G (proj2 (proj2 W')) S') as H. rewrite app_nil_r in H. exact H. }
  assert (GP : key_get_pub E g (xk_key xk') = Ok P).
  { pose proof (get_pub_ok E g (xk_key xk') [] G (proj2 (proj2 W')) S') as H. rewrite app_nil_r in H. exact H. }
  assert (PI : pubkey_keyid E g P true = Ok id) by (unfold key_keyid in KI; rewrite GP in KI; exact KI).
  clearbody id.
  destruct (C40_pubkey_address_roundtrip net id 64 [] (repeat 0 128) Hn Bid Lid ltac:(vm_compute; lia)) as (a1 & E1 & _ & R1).
  assert (N1 : (0 < length a1)%nat).
  { destruct a1 as [|x a1]; [|cbn [length]; lia]. exfalso. destruct (R1 64%nat ltac:(vm_compute; lia)) as (o & D & _). cbn [app length] in D.
    destruct Hn as [->|[->| ->]]; vm_compute in D; discriminate D. }
  assert (HW : exists a2, to_address_witnessv0_keyhash id 64 net = Ok (length a2, a2) /\ (0 < length a2)%nat).
  { destruct (proj2 (C45_witness_keyhash_capacity net 64 id (proj1 (proj2 (proj2 (proj2 (builtin_facts net Hn))))) Bid) Lid) as (a2 & E2 & _ & C).
    exists a2. split; [exact E2|]. pose proof (witness_text_length net 0 id Hn Bid ltac:(split; lia)) as LW. rewrite Lid in LW.
    pose proof (proj1 (proj2 (proj2 (builtin_facts net Hn)))) as LH. change ((8 * 20 + 4) / 5)%nat with 32%nat in LW.
    destruct C as [[C _]|C]; [lia|]. rewrite C. lia. }
  destruct HW as (a2 & E2 & N2).
  exists xk', (public_of E xk'), P, a1, a2. split; [exact A|]. split; [exact B|]. split; [now apply exkey_get_pub_ok|].
  assert (DP : pubkey_decode E g (xp_c_pubkey (public_of E xk')) 33 = Ok (Some P)).
  { destruct (C115_roundtrip E g P true (repeat 0 33) [] Laws G ltac:(reflexivity)) as (enc & X & _ & Y). rewrite app_nil_r in Y.
    destruct (C115_pubkey_encode E g P true (repeat 0 33) [] Laws G ltac:(reflexivity)) as (_ & _ & Z). rewrite !app_nil_r in Z. rewrite X in Z.
    injection Z as ->. exact Y. }
  split. { unfold signer_addresses. rewrite KI. cbn [bind]. rewrite E1. cbn [bind]. rewrite E2. reflexivity. }
  split. { unfold watcher_addresses. rewrite DP. cbn [bind]. rewrite PI. cbn [bind]. rewrite E1. cbn [bind]. rewrite E2. reflexivity. }
  split; [exact N1|]. split; [exact N2|]. split; [exact DP|].
  intros fuel hash [r s] Bh Lh Sg.
  pose proof (C59_sign_low_r_and_verifies E g (xk_key xk') [] hash [] fuel r s Laws G (proj1 (proj2 W')) (proj2 (proj2 W')) Bh Lh) as C.
  rewrite !app_nil_r in C. destruct (C Sg) as (_ & _ & _ & (P' & GP' & V) & _). rewrite GP in GP'. injection GP' as <-. exact V.
Qed.
Print Assumptions C116_watch_only.

(** From the seed on: whatever account a signer reaches from its seed, over any path, hardened or not, C116_watch_only applies to it. *)
Theorem C116_accounts_of_a_seed : forall E g blank seed account master xk, secp_laws E -> ready g -> wf_key blank ->
  bytes seed -> Z.of_nat (length seed) < 2 ^ 60 -> Forall (fun i => 0 <= i < 2 ^ 32) account ->
  exkey_init blank seed (length seed) = Ok master -> 0 < be_val (xk_key master) < secp_order ->
  walk_private E g blank account master = Ok (Some xk) -> wf_key xk /\ 0 < be_val (xk_key xk) < secp_order.
Proof.
  intros E g blank seed account master xk Laws G Wb Bs Ls F M S Wk. change secp_order with secp_n in *.
  pose proof (C85_master_key blank seed [] Wb Bs ltac:(constructor) Ls) as H. rewrite app_nil_r, M in H. cbv zeta in H.
  assert (BI : bytes (hmac_sha512_of bitcoin_seed seed)) by apply hmac512_bytes. clear M.
  assert (W : wf_key master).
  { clear - H BI. revert H BI. generalize (hmac_sha512_of bitcoin_seed seed). intros J (LJ & I) BJ.
    apply (f_equal (fun r => match r with Ok k => k | _ => master end)) in I. cbv beta iota in I. rewrite I. clear I.
    split; [|split; [cbn [xk_key]; now apply bytes_firstn|cbn [xk_key]; rewrite firstn_length; lia]].
    cbn [xk_ext]. split; [cbn [x_depth]; lia|]. split; [cbn [x_fingerprint]; lia|]. split; [cbn [x_child]; lia|].
    split; [cbn [x_chain_code]; now apply bytes_skipn|cbn [x_chain_code]; rewrite skipn_length; lia]. }
  clear H BI. exact (walk_private_valid E g blank Laws G Wb account master xk W S F Wk).
Qed.
Print Assumptions C116_accounts_of_a_seed.

(** A hardened step is where the watcher has to stop. *)
Theorem C116_hardened_step_stops : forall E g blankp p i path, secp_laws E -> wf_pub p -> 2 ^ 31 <= i < 2 ^ 32 -> walk_public E g blankp (i :: path) p = Abort.
Proof.
  intros E g blankp p i path Laws W Hi. cbn [walk_public].
  pose proof (C65_pubkey_fingerprint (xp_c_pubkey p) [] (proj1 (proj2 W)) (proj2 (proj2 W))) as H. rewrite app_nil_r in H. rewrite H. cbn [bind].
  rewrite C64_hardened_public_aborts by assumption. reflexivity.
Qed.
Print Assumptions C116_hardened_step_stops.

(** *** The hypotheses are met: the toy curve, the running library, the public-derivation path 0/5 of a real master key. *)
Definition tv1_master_key : ex_key := mkExKey
  (mkExt 0 0 0 (be_bytes 32 0x873dff81c02f525623fd1fe5167eac3a55a049de3d314bb42ee227ffed37d508))
  (be_bytes 32 0xe8f32e723decf4051aefac8e2c93c9c5b214313817cdb01a1494b917c8436b35).
Example C116_witness : secp_laws toy /\ ready ready_example /\ builtin mainnet /\ wf_key blank_key /\ wf_pub blank_pub /\
  wf_key tv1_master_key /\ 0 < be_val (xk_key tv1_master_key) < secp_order /\ Forall (fun i => 0 <= i < 2 ^ 31) [0; 5].
Proof.
  split; [exact toy_laws|]. split; [exact ready_example_ok|]. split; [unfold builtin; tauto|]. split; [exact (proj1 blank_key_wf)|]. split; [exact (proj2 blank_key_wf)|].
  split; [|split; [vm_compute; split; reflexivity|repeat constructor; lia]].
  assert (B : forall b, (0 <=? b) && (b <? 256) = true -> is_byte b) by (unfold is_byte; intros; lia).
  assert (B1 : forallb (fun b => (0 <=? b) && (b <? 256)) (xk_key tv1_master_key) = true) by (vm_compute; reflexivity).
  assert (B2 : forallb (fun b => (0 <=? b) && (b <? 256)) (x_chain_code (xk_ext tv1_master_key)) = true) by (vm_compute; reflexivity).
  rewrite forallb_forall in B1, B2.
  split; [|split; [apply Forall_forall; auto|vm_compute; reflexivity]].
  unfold wf_ext. cbn [xk_ext tv1_master_key x_depth x_fingerprint x_child].
  repeat (split; [lia|]). split; [apply Forall_forall; auto|vm_compute; reflexivity].
Qed.
