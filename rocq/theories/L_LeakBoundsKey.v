(** Lemmas for C140. *)
From Verif Require Import Base M_Endian M_Sha2 M_Hash M_Random M_Secp M_Key M_Exkey M_Overlap M_Leak M_LeakKey S_Leak S_LeakBounds S_LeakBoundsKey L_LeakBounds.

Ltac sz := unfold o_depth, o_fingerprint, o_child, o_chain, o_key, ext_size in *; cbn in *; lia.
Section Gen.
Variables (ins outs locals : list buffer).
Notation P := (key_bounds ins outs locals).
Lemma PT b : P (Test b).
Proof. exact I. Qed.
Lemma kb_read p n : In (p, n) (ins ++ locals) -> can_read P p n.
Proof. intros H off k L. exact (ib_read ins outs locals p n H off k L). Qed.
Lemma kb_write p n : In (p, n) (outs ++ locals) -> can_write P p n.
Proof. intros H off k L. exact (ib_write ins outs locals p n H off k L). Qed.
Lemma kb_rw o n : In (local o n) locals -> rw P o n.
Proof. intros H. split; [apply kb_read|apply kb_write]; apply in_or_app; right; exact H. Qed.

Lemma can_read_at p n off k : can_read P p n -> (off + k <= n)%nat -> can_read P (padd p off) k.
Proof. intros H L a j Hj. rewrite padd_padd. apply H. lia. Qed.
Lemma can_write_at p n off k : can_write P p n -> (off + k <= n)%nat -> can_write P (padd p off) k.
Proof. intros H L a j Hj. rewrite padd_padd. apply H. lia. Qed.

Lemma K_get_pub E g pk pp key : can_read P pk 32 -> can_write P pp 64 -> Forall P (fst (key_get_pub_l E g pk pp key)).
Proof.
  intros R W. unfold key_get_pub_l. apply F_pure. intros p _. apply F_step; [|constructor].
  apply Forall_cons; [|apply Forall_cons; [exact I|constructor]]. split; [exact (can_write0 _ pp 64 64 W (le_n _))|exact (can_read0 _ pk 32 32 R (le_n _))].
Qed.
Lemma F_or a b : Forall P (or_tests a b).
Proof. destruct a; repeat constructor. Qed.
Lemma F_and a b : Forall P (and_tests a b).
Proof. destruct a; repeat constructor. Qed.
Lemma K_pub_encode E g pp po Q out len : can_read P pp 64 -> can_write P po len -> Forall P (fst (pubkey_encode_l E g pp po Q out len)).
Proof.
  intros R W. unfold pubkey_encode_l. cbv zeta. apply F_step; [apply F_or|]. apply F_pure. intros u Hl.
  assert (L : (33 <= len)%nat). { unfold BTC_PUBLIC_KEY_SIZE, BTC_COMPRESSED_PUBLIC_KEY_SIZE in Hl. destruct (Nat.eqb_spec len 65); [lia|]. destruct (Nat.eqb_spec len 33); [lia|discriminate Hl]. }
  apply F_step; [apply Forall_app; split; [apply F_and|repeat constructor]|].
  apply F_pure. intros bs _. apply F_step.
  - apply Forall_cons; [|apply Forall_cons; [exact (can_write0 _ po len len W (le_n _))|constructor]].
    split; [exact (can_write0 _ po len 33 W L)|exact (can_read0 _ pp 64 64 R (le_n _))].
  - apply F_pure. intros o _. apply F_step; [repeat constructor|]. apply F_pure. intros _ _. constructor.
Qed.
Lemma K_bip32 pc pd out cc i h d : can_read P pc 32 -> can_read P pd 32 -> can_write P out 64 -> incl (local Bip32Buffer 37 :: locals_hmac512) locals ->
  Forall P (fst (btc_bip32_hash_l pc pd out cc i h d)).
Proof. intros Rc Rd Wo H. apply F_bip32; try assumption; try exact PT; apply kb_rw; apply H; cbn; tauto. Qed.
Lemma K_derive E g pk pc pok poc k c ok oc child : can_read P pk 32 -> can_read P pc 32 -> can_write P pok 32 -> can_write P poc 32 -> incl locals_derive locals ->
  Forall P (fst (key_derive_l E g pk pc pok poc k c ok oc child)).
Proof.
  intros Rk Rc Wk Wc H. unfold key_derive_l.
  assert (Pu : rw P Pubkey64 64) by (apply kb_rw, H; cbn; tauto). assert (En : rw P EncodedPubkey 33) by (apply kb_rw, H; cbn; tauto).
  assert (Do : rw P DeriveOut 64) by (apply kb_rw, H; cbn; tauto). assert (Hb : incl (local Bip32Buffer 37 :: locals_hmac512) locals) by (intros x Hx; apply H; cbn in *; tauto).
  apply F_step; [repeat constructor|]. apply F_bind.
  - destruct (Z.shiftr child 31 =? 0).
    + apply F_bind; [apply K_get_pub; [exact Rk|exact (proj2 Pu)]|]. intros q _.
      apply F_bind; [apply K_pub_encode; [exact (proj1 Pu)|exact (proj2 En)]|]. intros [r e] _.
      apply F_step; [apply Forall_cons; [apply (rw_read _ EncodedPubkey 33); [exact En|lia]|constructor]|]. apply F_pure. intros h _.
      apply F_bind; [apply K_bip32; [exact Rc|exact (can_read_at (EncodedPubkey, 0%nat) 33 1 32 (proj1 En) (le_n _))|exact (proj2 Do)|exact Hb]|]. intros o _.
      apply F_step; [apply Forall_cons; [apply (rw_write _ Pubkey64 64); [exact Pu|lia]|apply Forall_cons; [apply (rw_write _ EncodedPubkey 33); [exact En|reflexivity]|constructor]]|].
      apply F_pure. intros _ _. constructor.
    + apply F_bind; [apply K_bip32; [exact Rc|exact Rk|exact (proj2 Do)|exact Hb]|]. intros o _. constructor.
  - intros [r o] _. assert (WD : P (Write DeriveOut 0 64)) by (apply (rw_write _ DeriveOut 64); [exact Do|lia]).
    apply F_step; [repeat constructor|]. destruct (negb r); [apply F_step; [apply Forall_cons; [exact WD|constructor]|constructor]|].
    assert (Wk0 : P (write pok 32)) by exact (can_write0 _ pok 32 32 Wk (le_n _)).
    apply F_step; [apply Forall_cons; [exact (can_read0 _ pk 32 32 Rk (le_n _))|apply Forall_cons; [exact Wk0|constructor]]|].
    apply F_pure. intros k1 _. apply F_pure. intros o1 _.
    apply F_step; [apply Forall_cons; [apply (rw_read _ DeriveOut 64); [exact Do|lia]|apply Forall_cons; [exact (can_write0 _ poc 32 32 Wc (le_n _))|constructor]]|].
    apply F_pure. intros c1 _. apply F_pure. intros o2 _. apply F_pure. intros [r2 k2] _.
    apply F_step; [apply Forall_cons; [|constructor]|].
    + split; [exact Wk0|]. exact (rw_read P DeriveOut 64 0 32 Do ltac:(lia)).
    + apply F_pure. intros o3 _. apply F_step; [apply Forall_cons; [exact WD|constructor]|constructor].
Qed.

Lemma K_init px ps key seed len : can_write P px ex_key_size -> can_read P ps len -> can_read P (SeedKey, 0%nat) 12 -> incl (local InitOut 64 :: locals_hmac512) locals ->
  Forall P (fst (exkey_init_l px ps key seed len)).
Proof.
  intros W R S H. unfold exkey_init_l. assert (Io : rw P InitOut 64) by (apply kb_rw, H; cbn; tauto).
  apply F_bind. { apply F_hmac512; try assumption; try exact PT; try exact (proj2 Io); apply kb_rw, H; cbn; tauto. }
  intros o _. unfold ex_key_size in W.
  apply F_step. { repeat (apply Forall_cons; [first [apply W; sz|apply (rw_read _ InitOut 64); [exact Io|lia]]|]). constructor. }
  apply F_pure. intros k _. apply F_pure. intros nk _.
  apply F_step. { repeat (apply Forall_cons; [first [apply W; sz|apply (rw_read _ InitOut 64); [exact Io|lia]]|]). constructor. }
  apply F_pure. intros c _. apply F_pure. intros nc _.
  apply F_step; [apply Forall_cons; [apply (rw_write _ InitOut 64); [exact Io|lia]|constructor]|]. apply F_pure. intros _ _. constructor.
Qed.
Lemma K_exderive E g px pd key d child fp : can_read P px ex_key_size -> can_write P pd ex_key_size -> incl locals_derive locals ->
  Forall P (fst (exkey_derive_l E g px pd key d child fp)).
Proof.
  intros R W H. unfold ex_key_size in *. unfold exkey_derive_l. apply F_bind.
  - apply K_derive; try assumption; first [apply (can_read_at px 76); [exact R|sz]|apply (can_write_at pd 76); [exact W|sz]].
  - intros [[r k] c] _. apply F_step; [repeat constructor|]. destruct r; [|constructor].
    apply F_step; [|constructor]. repeat (apply Forall_cons; [first [apply W; sz|apply R; sz]|]). constructor.
Qed.
Lemma K_exget_pub E g px pp key d : can_read P px ex_key_size -> can_write P pp ex_pubkey_size -> In (local LocalPub 64) locals -> length (xp_c_pubkey d) = 33%nat ->
  Forall P (fst (exkey_get_pub_l E g px pp key d)).
Proof.
  intros R W H H33. unfold ex_key_size, ex_pubkey_size in *. unfold exkey_get_pub_l. assert (L : rw P LocalPub 64) by (apply kb_rw, H).
  apply F_step; [apply Forall_cons; [apply (can_read0 _ px 76); [exact R|sz]|apply Forall_cons; [apply (can_write0 _ pp 77); [exact W|sz]|constructor]]|].
  apply F_bind; [apply K_get_pub; [apply (can_read_at px 76); [exact R|sz]|exact (proj2 L)]|]. intros q _.
  apply F_bind; [apply K_pub_encode; [exact (proj1 L)|rewrite H33; apply (can_write_at pp 77); [exact W|sz]]|]. intros [r c] _.
  apply F_step; [repeat constructor|]. apply F_pure. intros _ _. constructor.
Qed.
Lemma K_exencode px pc key m : can_read P px ex_key_size -> can_write P pc 74 -> Forall P (fst (exkey_encode_l px pc key m)).
Proof.
  intros R W. unfold ex_key_size in *. unfold exkey_encode_l. assert (W0 : P (write pc 1)) by (apply (can_write0 _ pc 74); [exact W|lia]).
  apply F_step. { repeat (apply Forall_cons; [first [exact W0|apply W; sz|apply R; sz]|]). constructor. }
  apply F_pure. intros c _. apply F_step. { repeat (apply Forall_cons; [first [apply W; sz|apply R; sz]|]). constructor. }
  apply F_pure. intros c1 _. apply F_pure. intros k _. constructor.
Qed.
Lemma K_exdecode px pc key m : can_write P px ex_key_size -> can_read P pc 74 -> Forall P (fst (exkey_decode_l pc px m key)).
Proof.
  intros W R. unfold ex_key_size in *. unfold exkey_decode_l. assert (R0 : P (read pc 1)) by (apply (can_read0 _ pc 74); [exact R|lia]).
  apply F_step. { repeat (apply Forall_cons; [first [exact R0|apply W; sz|apply R; sz]|]). constructor. }
  apply F_pure. intros c _. apply F_step. { repeat (apply Forall_cons; [first [apply W; sz|apply R; sz]|]). constructor. }
  apply F_pure. intros c1 _. apply F_pure. intros k _. constructor.
Qed.

Lemma K_der E c pk po m len key (b : bool) : can_read P pk 32 -> can_write P po len -> rw P Pubkey64 64 -> can_read P (DerBegin, 0%nat) (if b then 8 else 9) ->
  can_read P (DerMiddle, 0%nat) (if b then 141 else 173) -> Forall P (fst (export_der_l E c pk po m len key b)).
Proof.
  intros R W Pu B M. unfold export_der_l. apply F_pure. intros p _.
  apply F_step. { apply Forall_cons; [|apply Forall_cons; [exact I|constructor]]. split; [exact (rw_write P Pubkey64 64 0 64 Pu (le_n _))|exact (can_read0 _ pk 32 32 R (le_n _))]. }
  destruct p as [q|]; [|constructor].
  destruct b; (apply F_step; [repeat constructor|]); apply F_pure; intros u Hl; match type of Hl with c_assert ?x = _ => destruct x eqn:Ex; [|discriminate Hl] end; apply Nat.leb_le in Ex; unfold BTC_COMPRESSED_PRIVATE_KEY_SIZE, BTC_PRIVATE_KEY_SIZE in Ex;
    change (length der_begin_c) with 8%nat; change (length der_middle_c) with 141%nat; change (length der_begin_u) with 9%nat; change (length der_middle_u) with 173%nat; cbv zeta;
    (apply F_step; [apply Forall_cons; [apply (B 0%nat); sz|apply Forall_cons; [apply (can_write0 _ po len); [exact W|lia]|constructor]]|]);
    apply F_pure; intros m1 _;
    (apply F_step; [apply Forall_cons; [exact (can_read0 _ pk 32 32 R (le_n _))|apply Forall_cons; [apply W; lia|constructor]]|]);
    apply F_pure; intros k1 _; apply F_pure; intros m2 _;
    (apply F_step; [apply Forall_cons; [apply (M 0%nat); sz|apply Forall_cons; [apply W; lia|constructor]]|]);
    apply F_pure; intros m3 _; apply F_pure; intros pb _;
    (apply F_step; [apply Forall_cons; [split; [refine (W _ 33%nat _); lia|exact (rw_read P Pubkey64 64 0 64 Pu (le_n _))]|apply Forall_cons; [apply W; unfold BTC_COMPRESSED_PUBLIC_KEY_SIZE, BTC_PUBLIC_KEY_SIZE; lia|constructor]]|]);
    apply F_pure; intros m4 _; (apply F_step; [repeat constructor|]); apply F_pure; intros _ _; constructor.
Qed.
Lemma K_encode E g pk po key m len : can_read P pk 32 -> can_write P po len -> rw P Pubkey64 64 -> can_read P (DerBegin, 0%nat) (if (len =? 214)%nat then 8 else 9) ->
  can_read P (DerMiddle, 0%nat) (if (len =? 214)%nat then 141 else 173) -> Forall P (fst (key_encode_l E g pk po key m len)).
Proof.
  intros R W Pu B M. unfold key_encode_l. cbv zeta. apply F_step; [apply F_or|]. apply F_pure. intros _ _. apply F_step; [apply Forall_app; split; [apply F_and|repeat constructor]|].
  apply F_bind; [apply K_der; assumption|]. intros [[r l] o] _. apply F_step; [repeat constructor|]. apply F_pure. intros _ _. constructor.
Qed.

Lemma K_keyid E g pk po key compress : can_read P pk 32 -> can_write P po 20 -> incl locals_keyid locals ->
  Forall P (fst (key_keyid_l E g pk po key compress)).
Proof.
  intros R W H. unfold key_keyid_l. assert (Pu : rw P Pubkey64 64) by (apply kb_rw, H; cbn; tauto). assert (En : rw P EncodedPubkey 65) by (apply kb_rw, H; cbn; tauto).
  apply F_bind; [apply K_get_pub; [exact R|exact (proj2 Pu)]|]. intros q _. unfold pubkey_keyid_l. cbv zeta. apply F_step; [repeat constructor|].
  apply F_bind; [apply K_pub_encode; [exact (proj1 Pu)|apply (can_write_le _ _ 65); [exact (proj2 En)|unfold BTC_COMPRESSED_PUBLIC_KEY_SIZE, BTC_PUBLIC_KEY_SIZE; destruct compress; lia]]|]. intros [r e] _.
  apply F_step; [repeat constructor|]. apply F_pure. intros _ _. apply F_pure. intros win _.
  assert (Dg : rw P Digest 32) by (apply kb_rw, H; cbn; tauto). assert (Lc : rw P LastChunk 64) by (apply kb_rw, H; cbn; tauto). assert (Sd : rw P Sha2Digest 32) by (apply kb_rw, H; cbn; tauto).
  destruct Dg as [Dr Dw], Lc as [Lr Lw], Sd as [Sr Sw]. unfold btc_hash160_l. apply F_bind.
  - apply F_sha2_256; try assumption; try exact PT. apply (can_read_le _ _ 65); [exact (proj1 En)|]. unfold BTC_COMPRESSED_PUBLIC_KEY_SIZE, BTC_PUBLIC_KEY_SIZE; destruct compress; lia.
  - intros d _. assert (Dr' : can_read P (Digest, 0%nat) 20) by (apply (can_read_le _ _ 32); [exact Dr|lia]).
    assert (Dw' : can_write P (Digest, 0%nat) 20) by (apply (can_write_le _ _ 32); [exact Dw|lia]). apply F_ripemd160_l; try assumption; exact PT.
Qed.
Lemma K_fingerprint E g pk key compress : can_read P pk 32 -> rw P LocalKeyId 20 -> incl locals_keyid locals ->
  Forall P (fst (key_fingerprint_l E g pk key compress)).
Proof.
  intros R K H. unfold key_fingerprint_l. apply F_bind; [apply K_keyid; [exact R|exact (proj2 K)|exact H]|]. intros k _.
  apply F_step; [apply Forall_cons; [apply (rw_read _ LocalKeyId 20); [exact K|lia]|constructor]|constructor].
Qed.

Lemma K_grind fuel E g ph pk psig h k : can_read P ph 32 -> can_read P pk 32 -> can_read P psig 64 -> can_write P psig 64 -> rw P ExtraEntropy 32 -> rw P CompactSig 64 ->
  forall sig ee n, Forall P (fst (grind_l fuel E g ph pk psig h k sig ee n)).
Proof.
  intros Rh Rk Rs Ws Ee Cs. induction fuel as [|fuel IH]; intros sig ee n; cbn [grind_l]; (destruct sig as [s|]; [|apply F_step; repeat constructor]);
    (apply F_step; [repeat constructor|]); (apply F_bind; [unfold SigHasLowR_l; apply F_pure; intros cs _;
      (apply F_step; [apply Forall_cons; [split; [exact (rw_write P CompactSig 64 0 64 Cs (le_n _))|exact (can_read0 _ psig 64 64 Rs (le_n _))]
                     |apply Forall_cons; [apply (rw_read _ CompactSig 64); [exact Cs|lia]|constructor]]|]); apply F_pure; intros b _; constructor|]);
    intros low _; (apply F_step; [repeat constructor|]); (destruct low; [constructor|]); [constructor|].
  cbv zeta. apply F_step; [apply Forall_cons; [apply (rw_write _ ExtraEntropy 32); [exact Ee|lia]|constructor]|].
  apply F_pure. intros ee' _. apply F_pure. intros sig' _. apply F_step; [|apply IH].
  apply Forall_cons; [|constructor]. split; [exact (can_write0 _ psig 64 64 Ws (le_n _))|]. split; [exact (can_read0 _ ph 32 32 Rh (le_n _))|].
  split; [exact (can_read0 _ pk 32 32 Rk (le_n _))|]. apply Forall_cons; [exact (rw_read P ExtraEntropy 32 0 32 Ee (le_n _))|constructor].
Qed.
Lemma K_sign fuel E g ph pk psig h k : can_read P ph 32 -> can_read P pk 32 -> can_read P psig 64 -> can_write P psig 64 -> rw P ExtraEntropy 32 -> rw P CompactSig 64 ->
  Forall P (fst (key_sign_l fuel E g pk ph psig k h)).
Proof.
  intros Rh Rk Rs Ws Ee Cs. unfold key_sign_l. apply F_pure. intros sig _. apply F_step.
  - apply Forall_cons; [|apply Forall_cons; [apply (rw_write _ ExtraEntropy 32); [exact Ee|lia]|constructor]]. split; [exact (can_write0 _ psig 64 64 Ws (le_n _))|].
    split; [exact (can_read0 _ ph 32 32 Rh (le_n _))|]. split; [exact (can_read0 _ pk 32 32 Rk (le_n _))|constructor].
  - apply F_bind; [apply K_grind; assumption|]. intros r _. destruct r as [[s|]| |]; first [apply F_step; [apply Forall_cons; [exact I|constructor]|constructor]|constructor].
Qed.
End Gen.
