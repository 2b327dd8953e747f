(** C135: the wallet of C116 with everything in one memory. *)
From Verif Require Import Base S_Words M_Endian L_Endian S_Mem L_Mem M_Sha2 S_Sha2 M_Hash M_Base58 M_Base58Check S_Base58 S_Base58Check L_Base58 L_Base58Check P_Base58 P_Base58Check.
From Verif Require Import M_Address S_Address L_Address P_Address M_Mem P_Mem S_Scratch M_Scratch L_Scratch L_Scratch2 P_Scratch M_Random M_Secp S_Secp L_Secp S_Life M_Key S_Key L_KeyStr M_Exkey S_Exkey L_Exkey P_Exkey.
From Verif Require Import M_Overlap S_Overlap L_Overlap P_Overlap M_MemBtc L_MemBtc P_MemBtc M_MemKey L_MemKey P_MemKey L_Host2 S_Bip32 L_Bip32 P_Bip32 P_Dest P_Collide S_Der S_KeyMem S_Wallet P_Wallet S_WalletMem P_Der L_Host S_Secp256k1 P_Secp256k1.

(** Structures that are not touched. *)
Lemma only_region m m' a n b k : only_inside m m' a n -> (b + k <= length m)%nat -> disjoint b k a n -> region m' b k = region m b k.
Proof.
  intros (L & H) B D. apply nth_error_ext. intros p. rewrite !nth_error_region by lia. destruct (Nat.ltb_spec p k) as [P|P]; [|reflexivity].
  apply H. unfold disjoint in D. lia.
Qed.
Lemma region_part m m' a n b k : region m' a n = region m a n -> (a + n <= length m)%nat -> (a + n <= length m')%nat -> (a <= b)%nat -> (b + k <= a + n)%nat -> region m' b k = region m b k.
Proof.
  intros H L L' A B. replace b with (a + (b - a))%nat by lia. rewrite <- !(region_region _ a n) by lia. now rewrite H.
Qed.
Lemma nth_part (m m' : list Z) a : region m' a 1 = region m a 1 -> (a + 1 <= length m)%nat -> (a + 1 <= length m')%nat -> nth a m' 0 = nth a m 0.
Proof.
  intros H L L'. pose proof (nth_error_region m a 1 0 L) as A. pose proof (nth_error_region m' a 1 0 L') as B. rewrite H in B. rewrite A in B. cbn [Nat.ltb Nat.leb] in B.
  rewrite Nat.add_0_r in B.
  rewrite (nth_error_nth' m 0) in B by lia. rewrite (nth_error_nth' m' 0) in B by lia. now injection B.
Qed.
Lemma key_at_same m m' a : region m' a 76 = region m a 76 -> (a + 76 <= length m)%nat -> length m' = length m -> ex_key_at m' a = ex_key_at m a.
Proof.
  intros H B L. assert (P : forall b k, (a <= b)%nat -> (b + k <= a + 76)%nat -> region m' b k = region m b k) by (intros; apply (region_part m m' a 76); lia || assumption).
  unfold ex_key_at, ext_at. rewrite (nth_part m m' a) by (try apply P; lia). rewrite !P by lia. reflexivity.
Qed.
Lemma pub_at_same m m' a : region m' a 77 = region m a 77 -> (a + 77 <= length m)%nat -> length m' = length m -> ex_pubkey_at m' a = ex_pubkey_at m a.
Proof.
  intros H B L. assert (P : forall b k, (a <= b)%nat -> (b + k <= a + 77)%nat -> region m' b k = region m b k) by (intros; apply (region_part m m' a 77); lia || assumption).
  unfold ex_pubkey_at, ext_at. rewrite (nth_part m m' a) by (try apply P; lia). rewrite !P by lia. reflexivity.
Qed.

Lemma dsym a n b m : disjoint a n b m -> disjoint b m a n. Proof. unfold disjoint. lia. Qed.

Section Walk.
Variables (E : secp) (g : globals).
Hypothesis SL : secp_laws E.
Hypothesis R : ready g.

Lemma fp_at mem a : key_fingerprint E g (skipn a mem) true = key_fingerprint E g (region mem a 32) true.
Proof. unfold key_fingerprint, key_keyid. now rewrite get_pub_at. Qed.
Lemma pfp_at mem a : pubkey_fingerprint (skipn a mem) = pubkey_fingerprint (region mem a 33).
Proof. unfold pubkey_fingerprint. rewrite (slice_firstn (skipn a mem)). reflexivity. Qed.

(** The signer in memory reaches what the signer of C116 reaches. *)
Lemma private_walks blank : wf_key blank -> forall path mem a b, (a + 76 <= length mem)%nat -> (b + 76 <= length mem)%nat -> disjoint a 76 b 76 ->
  wf_key (ex_key_at mem a) -> wf_key (ex_key_at mem b) -> scalar (be_val (xk_key (ex_key_at mem a))) -> Forall (fun i => 0 <= i < 2 ^ 32) path ->
  exists ok mem' c, walk_private_mem E g mem a b path = Ok (ok, mem', c) /\ (c = a \/ c = b) /\ length mem' = length mem /\
    (forall p n, (p + n <= length mem)%nat -> disjoint p n a 76 -> disjoint p n b 76 -> region mem' p n = region mem p n) /\
    walk_private E g blank path (ex_key_at mem a) = Ok (if ok then Some (ex_key_at mem' c) else None).
Proof.
  intros Wb path. induction path as [|i path IH]; intros mem a b Ha Hb D Wa Wbb Sa F.
  - exists true, mem, a. repeat split; auto.
  - inversion F as [|? ? Hi F']; subst. cbn [walk_private_mem walk_private].
    destruct (step_private E g blank (ex_key_at mem a) i SL R Wb Wa Sa Hi) as (Kf & Db).
    destruct (step_private E g (ex_key_at mem b) (ex_key_at mem a) i SL R Wbb Wa Sa Hi) as (_ & Dm).
    rewrite fp_at. change (region mem (a + 44) 32) with (xk_key (ex_key_at mem a)). rewrite Kf. cbn [bind].
    set (fp := le_val (firstn 4 (hash160_of (ser E true (pub_of E (be_val (xk_key (ex_key_at mem a)))))))) in *.
    assert (Rf : 0 <= fp < 2 ^ 32) by (apply fp_range; [apply (proj1 (h160_facts _))|rewrite (proj2 (h160_facts _)); lia]).
    clearbody fp.
    pose proof (C103_exkey_derive Standard E g mem a b i fp Ha Hb Hi Rf (or_introl (dsym _ _ _ _ D))) as C.
    destruct Dm as [(k & c & Ck & Dm & W' & V & Sk)|(Ck & d & Dm)]; rewrite Dm in C; destruct C as (mem' & C & Cd & Oi); rewrite C; cbn [bind].
    + destruct Db as [(k2 & c2 & Ck2 & Db & _)|(Ck2 & _)]; rewrite Ck in Ck2; [|discriminate]. injection Ck2 as <- <-. cbv zeta in Db. rewrite Db. cbn [bind].
      cbv zeta in Cd, W', V. pose proof (proj1 Oi) as L'.
      assert (Ka : ex_key_at mem' a = ex_key_at mem a) by (apply key_at_same; [apply (only_region mem mem' b 76); auto|exact Ha|exact L']).
      destruct (IH mem' b a) as (ok & m2 & e & Q & Ce & L2 & Fr & Wk); auto.
      * now rewrite L'.
      * now rewrite L'.
      * now apply dsym.
      * rewrite Cd. exact W'.
      * rewrite Ka. exact Wa.
      * rewrite Cd, V. exact Sk.
      * exists ok, m2, e. split; [exact Q|]. split; [destruct Ce; auto|]. split; [now rewrite L2, L'|]. split; [|rewrite <- Wk, Cd; reflexivity].
        intros p n P D1 D2. rewrite Fr by (auto; now rewrite L'). now apply (only_region mem mem' b 76).
    + destruct Db as [(k2 & c2 & Ck2 & _)|(_ & d2 & Db)]; [rewrite Ck in Ck2; discriminate|]. rewrite Db. cbn [bind].
      exists false, mem', b. split; [reflexivity|]. split; [now right|]. split; [apply Oi|]. split; [|reflexivity].
      intros p n P _ D2. now apply (only_region mem mem' b 76).
Qed.

(** And the watcher in memory reaches what belongs to it. *)
Lemma public_walks blank : wf_key blank -> forall path mem a xk, (a + 80 <= length mem)%nat -> wf_key xk -> scalar (be_val (xk_key xk)) ->
  ex_pubkey_at mem a = public_of E xk -> Forall (fun i => 0 <= i < 2 ^ 31) path ->
  exists ok mem', walk_public_mem E g mem a path = Ok (ok, mem') /\ only_inside mem mem' a 80 /\
    exists r, walk_private E g blank path xk = Ok r /\ match r with Some k => ok = true /\ ex_pubkey_at mem' a = public_of E k | None => ok = false end.
Proof.
  intros Wb path. induction path as [|i path IH]; intros mem a xk Ha W S Hx F.
  - exists true, mem. split; [reflexivity|]. split; [apply only_refl|]. exists (Some xk). auto.
  - inversion F as [|? ? Hi F']; subst. destruct (step_private E g blank xk i SL R Wb W S ltac:(lia)) as (K & D). cbn [walk_private walk_public_mem].
    rewrite K. cbn [bind]. pose proof (public_of_wf E xk SL W) as Wx.
    assert (FP : pubkey_fingerprint (skipn (a + 44) mem) = Ok (le_val (firstn 4 (hash160_of (ser E true (pub_of E (be_val (xk_key xk)))))))).
    { rewrite pfp_at. change (region mem (a + 44) 33) with (xp_c_pubkey (ex_pubkey_at mem a)). rewrite Hx.
      pose proof (C65_pubkey_fingerprint (xp_c_pubkey (public_of E xk)) [] (proj1 (proj2 Wx)) (proj2 (proj2 Wx))) as H. rewrite app_nil_r in H. exact H. }
    rewrite FP. cbn [bind].
    set (fp := le_val (firstn 4 (hash160_of (ser E true (pub_of E (be_val (xk_key xk))))))) in *.
    assert (Rf : 0 <= fp < 2 ^ 32) by (apply fp_range; [apply (proj1 (h160_facts _))|rewrite (proj2 (h160_facts _)); lia]).
    clearbody fp.
    pose proof (expubkey_derive_ok E g (public_of E xk) (pub_of E (be_val (xk_key xk))) (public_of E xk) i fp SL R Wx eq_refl Wx Hi) as D2.
    change (x_chain_code (xp_ext (public_of E xk))) with (x_chain_code (xk_ext xk)) in D2. change (x_depth (xp_ext (public_of E xk))) with (x_depth (xk_ext xk)) in D2.
    rewrite (C64_ckd_commutes E _ _ i SL S Hi) in D2.
    pose proof (C103_expubkey_derive E g mem a a i fp SL Ha Ha ltac:(lia) Rf (or_intror eq_refl)) as C. rewrite Hx in C.
    destruct D as [(k & c & Ck & D & W' & V & Sk)|(Ck & d & D)]; rewrite Ck in D2; rewrite D; cbn [bind].
    + destruct D2 as (D2 & _ & _). rewrite D2 in C. destruct C as (mem' & C & Cd & Oi). rewrite C. cbn [bind].
      replace (mkExPub (mkExt ((x_depth (xk_ext xk) + 1) mod 256) fp i c) (ser E true (pub_of E k)))
        with (public_of E (mkExKey (mkExt ((x_depth (xk_ext xk) + 1) mod 256) fp i c) (be_bytes 32 k))) in Cd by (unfold public_of; rewrite V; reflexivity).
      pose proof (proj1 Oi) as L'.
      destruct (IH mem' a (mkExKey (mkExt ((x_depth (xk_ext xk) + 1) mod 256) fp i c) (be_bytes 32 k))) as (ok & m2 & Q & Oi2 & Rs); auto.
      * now rewrite L'.
      * rewrite V. exact Sk.
      * exists ok, m2. split; [exact Q|]. split; [|exact Rs]. destruct Oi as [_ Oi], Oi2 as [L2 Oi2]. split; [now rewrite L2|]. intros p P. now rewrite Oi2, Oi.
    + destruct D2 as (d2 & D2). rewrite D2 in C. destruct C as (mem' & C & Cd & Oi). rewrite C. cbn [bind].
      exists false, mem'. split; [reflexivity|]. split; [exact Oi|]. exists None. auto.
Qed.
End Walk.

(** ** C135 *)
Lemma get_pub_wr E g mem key pub : secp_laws E -> ready g -> bytes mem -> (key + 76 <= length mem)%nat -> (pub + 80 <= length mem)%nat -> disjoint pub 80 key 76 ->
  wf_key (ex_key_at mem key) -> scalar (be_val (xk_key (ex_key_at mem key))) ->
  exists mem', exkey_get_pub_at Standard E g mem key pub = Ok mem' /\ ex_pubkey_at mem' pub = public_of E (ex_key_at mem key) /\
    only_inside mem mem' pub 80 /\ bytes mem'.
Proof.
  intros LE R B H1 H2 D W Sk.
  pose proof (C103_exkey_get_pub Standard E g mem key pub LE H1 H2 D) as C.
  assert (Wp : wf_pub (ex_pubkey_at mem pub)) by (apply wf_pub_at; [now apply bytes_firstn, bytes_skipn|lia]).
  rewrite (exkey_get_pub_ok E g _ _ LE R W Sk Wp) in C. destruct C as (mem' & C & P & O). exists mem'. split; [exact C|]. split; [exact P|]. split; [exact O|].
  unfold exkey_get_pub_at, ext_size, o_key in C. rewrite memcpy_apart in C by (unfold disjoint in *; lia). cbn [bind] in C.
  destruct (key_get_pub _ _ _) as [Q| |]; cbn [bind] in C; [|discriminate|discriminate].
  unfold pubkey_encode_at in C. cbn [Nat.eqb orb BTC_PUBLIC_KEY_SIZE BTC_COMPRESSED_PUBLIC_KEY_SIZE c_assert bind] in C. unfold secp_pubkey_serialize in C.
  destruct (any_ctx _) as [u| |]; cbn [bind] in C; [|discriminate|discriminate].
  cbn [Nat.leb c_assert bind] in C. destruct (law_ser33 E LE Q) as (L & Bs & _).
  assert (L1 : length (region mem key 44) = 44%nat) by (apply region_length; lia).
  assert (E1 : length (S_Mem.written mem pub (region mem key 44)) = length mem) by (apply written_length; lia).
  rewrite L_Overlap.store_at in C by lia. cbn [bind] in C. rewrite L in C. cbn [Nat.eqb c_assert bind] in C. injection C as <-.
  apply written_bytes; [|exact Bs]. apply written_bytes; [exact B|]. now apply bytes_firstn, bytes_skipn.
Qed.

Lemma djs a n b m b' m' : disjoint a n b m -> (b <= b')%nat -> (b' + m' <= b + m)%nat -> disjoint a n b' m'.
Proof. unfold disjoint. lia. Qed.
Lemma apart_cons n a s l : apart n ((a, s) :: l) -> (a + s <= n)%nat /\ Forall (fun b => disjoint a s (fst b) (snd b)) l /\ apart n l.
Proof. intros (F & O). inversion F; inversion O; subst. cbn [fst snd] in *. unfold apart. auto. Qed.

(** One memory holds the private structure of the signer, the space for its derivations, the extended public key, the version bytes of the
    network, the space for the text and the structure of the watcher, in any order.  The text is accepted, and both end with the same public key, that of
    the private key that the path leads to, or with none. *)
Theorem C135_wallet_session : forall e E g net w xk xb xp prefix str xw path blank blankp,
  secp_laws E -> ready g -> builtin net -> sane e -> mallocs e INT_MAX -> bytes (w_mem w) ->
  apart (length (w_mem w)) [(xk, 76); (xb, 76); (xp, 80); (prefix, 4); (str, to_base58_check_length 74 4 + 1); (xw, 80)]%nat ->
  region (w_mem w) prefix 4 = cp_ext_pub net ->
  0 < be_val (xk_key (ex_key_at (w_mem w) xk)) < secp_order -> Forall (fun i => 0 <= i < 2 ^ 31) path -> wf_key blank -> wf_pub blankp ->
  exists r, wallet_session e E g net w xk xb xp prefix str xw path = Ok (1, r, r) /\
    exists end_key, walk_private E g blank path (ex_key_at (w_mem w) xk) = Ok end_key /\
      match end_key with Some k => exists p, exkey_get_pub E g k blankp = Ok p /\ r = Some p | None => r = None end.
Proof.
  intros e E g net w xk xb xp prefix str xw path blank blankp LE R Hn Se Me B A Hp Sk F Wb Wp. change secp_order with secp_n in Sk.
  destruct (builtin_ext net Hn) as (_ & _ & Bn & Ln).
  apply apart_cons in A as (Hk & Ak & A). apply apart_cons in A as (Hb & Ab & A). apply apart_cons in A as (Hx & Ax & A).
  apply apart_cons in A as (Hpr & Ap & A). apply apart_cons in A as (Hs & As & A). apply apart_cons in A as (Hw & _ & _).
  repeat match goal with H : Forall _ (_ :: _) |- _ => let a := fresh "D" in apply Forall_cons_iff in H as (a & H); cbn [fst snd] in a end.
  unfold wallet_session.
  assert (Wk : wf_key (ex_key_at (w_mem w) xk)) by (apply wf_key_at; [now apply bytes_firstn, bytes_skipn|lia]).
  destruct (get_pub_wr E g (w_mem w) xk xp LE R B Hk Hx (dsym _ _ _ _ D10) Wk Sk) as (m1 & Q1 & P1 & O1 & B1). rewrite Q1. cbn [bind]. clear Q1.
  pose proof (proj1 O1) as L1.
  assert (Rp : region m1 prefix 4 = cp_ext_pub net) by (rewrite <- Hp; apply (only_region _ _ xp 80); [exact O1|lia|apply dsym; assumption]).
  destruct (C132_expubkey_to_string_memory e (with_mem w m1) xp prefix 4 str Se B1 ltac:(cbn [with_mem w_mem]; lia) ltac:(lia) ltac:(cbn [with_mem w_mem]; lia) ltac:(cbn [with_mem w_mem]; lia))
    as (text & w2 & Q2 & V & Lt & M2 & K2). cbn [with_mem w_mem] in V, M2, Q2. rewrite Ln, Q2. cbn [bind]. clear Q2.
  rewrite Rp, P1 in V.
  pose proof (public_of_wf E _ LE Wk) as Wpub.
  destruct (own_string (cp_ext_pub net) (pub_layout (public_of E (ex_key_at (w_mem w) xk))) text Bn ltac:(lia) (pub_layout_bytes _ Wpub) (pub_layout_length _ Wpub) V) as (As' & Hl & Ad & Hd).
  { etransitivity; [exact Lt|]. vm_compute. lia. }
  assert (Lm2 : length (w_mem w2) = length (w_mem w)) by (rewrite M2, written_length; lia).
  unfold p_write at 1. rewrite L_Overlap.store_at by (cbn [length]; lia). cbn [bind].
  set (m3 := S_Mem.written (w_mem w2) (str + length text) [0]).
  assert (Lm3 : length m3 = length (w_mem w)) by (unfold m3; rewrite written_length; cbn [length]; lia).
  assert (T3 : skipn str m3 = text ++ 0 :: skipn (str + length text + 1) m1).
  { unfold m3. rewrite M2. rewrite written_app by (cbn [length]; lia). rewrite skipn_written by (rewrite app_length; cbn [length]; lia). rewrite <- app_assoc, app_length. cbn [length app]. now rewrite Nat.add_assoc. }
  assert (S3 : forall p n, (p + n <= length (w_mem w))%nat -> disjoint p n str (to_base58_check_length 74 4 + 1) -> region m3 p n = region m1 p n).
  { intros p n Hpn Db. unfold m3. rewrite region_other by (cbn [length]; unfold disjoint in Db |- *; lia). rewrite M2. apply region_other; unfold disjoint in Db |- *; lia. }
  assert (S3' : forall p n, (p + n <= length (w_mem w))%nat -> disjoint p n xp 80 -> disjoint p n str (to_base58_check_length 74 4 + 1) -> region m3 p n = region (w_mem w) p n).
  { intros p n Hpn Da Db. rewrite S3 by auto. apply (only_region _ _ xp 80); auto. }
  destruct (C132_expubkey_from_string_memory e (mkWorld m3 (w_blocks w2) (w_next w2) (w_dead w2)) str text _ xw net Se Me Bn ltac:(lia) T3 As' Hl Hd)
    as [(k & w4 & Wx & Ix & Q4 & X4 & O4 & K4)|(No & _)]; [cbn [w_mem]; unfold ex_pubkey_size; lia| |exfalso; eapply No; [apply pub_layout_bytes; exact Wpub|now apply pub_layout_length|exact Ad]].
  rewrite Q4. cbn [bind]. clear Q4. cbn [w_mem] in O4. pose proof (proj1 O4) as L4.
  assert (Ek : k = public_of E (ex_key_at (w_mem w) xk)).
  { apply pub_layout_inj; auto. apply (app_inv_head (cp_ext_pub net)). apply (base58_address_fun _ _ _ _ text); [apply bytes_app; auto using pub_layout_bytes|apply bytes_app; auto using pub_layout_bytes|exact Ix|exact Ad]. }
  rewrite Ek in X4. clear Ek Wx Ix k.
  assert (Kk : ex_key_at (w_mem w4) xk = ex_key_at (w_mem w) xk).
  { apply key_at_same; [|lia|lia]. rewrite (only_region m3 (w_mem w4) xw 77); [apply S3'; auto|exact O4|lia|apply (djs _ _ _ _ _ _ D13); lia]. }
  assert (Kb : wf_key (ex_key_at (w_mem w4) xb)). 
  { replace (ex_key_at (w_mem w4) xb) with (ex_key_at (w_mem w) xb); [apply wf_key_at; [now apply bytes_firstn, bytes_skipn|lia]|].
    symmetry. apply key_at_same; [|lia|lia]. rewrite (only_region m3 (w_mem w4) xw 77); [apply S3'; auto|exact O4|lia|apply (djs _ _ _ _ _ _ D8); lia]. }
  destruct (private_walks E g LE R blank Wb path (w_mem w4) xk xb) as (ok & m5 & c & Q5 & Hc & L5 & Fr & Wk5); try rewrite Kk; auto; try lia.
  { eapply Forall_impl; [|exact F]. cbn. lia. }
  rewrite Q5. cbn [bind]. clear Q5.
  rewrite Kk in Wk5.
  destruct (public_walks E g LE R blank Wb path m5 xw (ex_key_at (w_mem w) xk)) as (okw & m6 & Q6 & O6 & r & Wr & Hr); auto; try lia.
  { rewrite <- X4. apply pub_at_same; [|lia|lia]. apply Fr; [lia|apply dsym, (djs _ _ _ _ _ _ D13); lia|apply dsym, (djs _ _ _ _ _ _ D8); lia]. }
  rewrite Q6. cbn [bind]. clear Q6. rewrite Wk5 in Wr. injection Wr as <-. rewrite Wk5.
  destruct ok; cbn iota in Hr |- *; [|subst okw; exists None; split; [reflexivity|]; exists None; auto].
  destruct Hr as (-> & X6).
  destruct (walk_private_valid E g blank LE R Wb path _ _ Wk Sk ltac:(eapply Forall_impl; [|exact F]; cbn; lia) Wk5) as (We & Se').
  pose proof (proj1 O6) as L6.
  assert (Hc' : (c + 76 <= length (w_mem w))%nat /\ disjoint c 76 xw 80 /\ disjoint c 76 xp 80) by (destruct Hc; subst c; auto).
  destruct Hc' as (Hcl & Dcw & Dcx).
  assert (E6 : ex_key_at m6 c = ex_key_at m5 c) by (apply key_at_same; [apply (only_region _ _ xw 80); auto; lia|lia|lia]).
  assert (X6' : ex_pubkey_at m6 xp = ex_pubkey_at m1 xp).
  { apply pub_at_same; [|lia|lia]. rewrite (only_region m5 m6 xw 80); [|exact O6|lia|apply dsym, (djs _ _ _ _ _ _ (dsym _ _ _ _ D4)); lia].
    rewrite Fr; [|lia|apply dsym, (djs _ _ _ _ _ _ D10); lia|apply dsym, (djs _ _ _ _ _ _ D5); lia].
    rewrite (only_region m3 (w_mem w4) xw 77); [|exact O4|lia|apply (djs _ _ xw 80); [apply dsym, (djs _ _ _ _ _ _ (dsym _ _ _ _ D4)); lia|lia|lia]].
    apply S3; [lia|apply dsym, (djs _ _ _ _ _ _ (dsym _ _ _ _ D3)); lia]. }
  pose proof (C103_exkey_get_pub Standard E g m6 c xp LE ltac:(unfold ex_key_size; lia) ltac:(unfold ex_pubkey_size; lia) (dsym _ _ _ _ Dcx)) as C.
  rewrite E6, X6', P1 in C. rewrite (exkey_get_pub_ok E g _ _ LE R We Se' Wpub) in C. destruct C as (m7 & -> & P7 & O7). cbn [bind].
  rewrite (pub_at_same m6 m7 xw); [|apply (only_region _ _ xp 80); [exact O7|lia|apply dsym, (djs _ _ _ _ _ _ D4); lia]|lia|exact (proj1 O7)].
  rewrite X6, P7. exists (Some (public_of E (ex_key_at m5 c))). split; [reflexivity|]. eexists. split; [reflexivity|].
  cbv beta iota. eexists. split; [apply exkey_get_pub_ok; assumption|reflexivity].
Qed.
Print Assumptions C135_wallet_session.

(** On secp256k1 itself. *)
Theorem C135_wallet_session_secp256k1 : forall e g net w xk xb xp prefix str xw path,
  ready g -> builtin net -> sane e -> mallocs e INT_MAX -> bytes (w_mem w) ->
  apart (length (w_mem w)) [(xk, 76); (xb, 76); (xp, 80); (prefix, 4); (str, to_base58_check_length 74 4 + 1); (xw, 80)]%nat ->
  region (w_mem w) prefix 4 = cp_ext_pub net ->
  0 < be_val (xk_key (ex_key_at (w_mem w) xk)) < secp_order -> Forall (fun i => 0 <= i < 2 ^ 31) path ->
  exists r, wallet_session e secp256k1 g net w xk xb xp prefix str xw path = Ok (1, r, r).
Proof.
  intros e g net w xk xb xp prefix str xw path R Hn Se Me B A Hp Sk F.
  destruct (C135_wallet_session e secp256k1 g net w xk xb xp prefix str xw path blank_key blank_pub C126_laws R Hn Se Me B A Hp Sk F (proj1 blank_key_wf) (proj2 blank_key_wf)) as (r & H & _).
  exists r. exact H.
Qed.
Print Assumptions C135_wallet_session_secp256k1.

(** *** The hypotheses are met: the private key 1 at the start of a memory that is otherwise cleared but for the version bytes. *)
Definition C135_memory : list Z := repeat 0 75 ++ [1] ++ repeat 0 164 ++ [4; 136; 178; 30] ++ repeat 0 212.
Example C135_case : let mem := C135_memory in
  bytes mem /\ builtin mainnet /\ apart (length mem) [(0, 76); (80, 76); (160, 80); (240, 4); (244, to_base58_check_length 74 4 + 1); (370, 80)]%nat /\
  region mem 240 4 = cp_ext_pub mainnet /\ 0 < be_val (xk_key (ex_key_at mem 0)) < secp_order /\ ready ready_example /\ sane plain_env /\ mallocs plain_env INT_MAX.
Proof.
  cbv zeta. split; [|split; [unfold builtin; tauto|split; [|split; [reflexivity|split; [vm_compute; split; reflexivity|split; [exact ready_example_ok|split; apply plain_env_ok]]]]]].
  - unfold C135_memory. rewrite !bytes_app. split; [apply bytes_repeat0|]. split; [repeat constructor; unfold is_byte; lia|]. split; [apply bytes_repeat0|]. split; [repeat constructor; unfold is_byte; lia|apply bytes_repeat0].
  - replace (length C135_memory) with 456%nat by reflexivity. replace (to_base58_check_length 74 4 + 1)%nat with 116%nat by (vm_compute; reflexivity).
    unfold apart. split; repeat first [apply Forall_nil | apply Forall_cons | apply FOP_nil | apply FOP_cons]; cbn [fst snd]; unfold disjoint; lia.
Qed.
