(** Properties C94-C99: what the library leaves of messages, keys and seeds in its own local arrays (the [_r] functions of
    M_Residue return, besides the result, the contents of those arrays when the call returns). *)
From Coq Require Import String.
From Verif Require Import Base M_Endian S_Words L_Endian S_Sha1 S_Sha2 S_Ripemd L_Sha1 L_Sha2Top L_Ripemd M_Hash L_Hash M_Base58 S_Base58 L_Base58 M_Base58Check S_Base58Check L_Base58Check.
From Verif Require Import S_Address M_Address L_Address M_Random P_Random M_Secp M_Key M_Exkey S_Secp L_Secp S_Der S_Life S_Bip32 L_Der P_Der P_Sign L_Bip32 S_Key S_Exkey L_KeyStr L_Exkey P_Wif P_Exkey P_Bip32.
From Verif Require Import S_Residue M_Residue L_Residue L_Residue2 L_Residue3.
Open Scope Z_scope.
Open Scope list_scope.

Lemma wiped_cleansed n : cleansed (wiped n).
Proof. unfold cleansed, wiped. induction n; cbn [repeat]; constructor; auto. Qed.
Lemma wiped_length n : length (wiped n) = n.
Proof. apply repeat_length. Qed.
Ltac wipes := repeat (constructor; cbn [snd]; [apply wiped_cleansed|]); try constructor.
Lemma digest_cleansed a b : all_cleansed (wiped_digest a b).
Proof. unfold all_cleansed, wiped_digest. wipes. Qed.

(** ** C94: the hash functions return the digest and leave only 0xCC in their arrays. *)
Theorem C94_hashes_wipe : forall msg rest, bytes msg -> bytes rest -> Z.of_nat (length msg) < 2 ^ 61 ->
  let m := msg ++ rest in let n := length msg in
  (exists left, sha1_r m n = Ok (SHA1 msg, left) /\ sizes left = [("digest"%string, 20%nat); ("last_chunk"%string, 64%nat)] /\ all_cleansed left) /\
  (exists left, sha2_256_r m n = Ok (SHA256 msg, left) /\ sizes left = [("digest"%string, 32%nat); ("last_chunk"%string, 64%nat)] /\ all_cleansed left) /\
  (exists left, sha2_512_r m n = Ok (SHA512 msg, left) /\ sizes left = [("digest"%string, 64%nat); ("last_chunk"%string, 128%nat)] /\ all_cleansed left) /\
  (exists left, ripemd160_r m n = Ok (RIPEMD160 msg, left) /\ sizes left = [("digest"%string, 20%nat); ("last_chunk"%string, 64%nat)] /\ all_cleansed left).
Proof.
  intros msg rest Bm Br Hl m n. assert (Bmr : bytes m) by (apply bytes_app; auto).
  assert (Hn : (n <= length m)%nat) by (unfold m, n; rewrite app_length; lia). assert (HL : byte_len_ok n) by exact Hl.
  assert (F : firstn n m = msg) by (unfold m, n; apply firstn_app_exact).
  repeat split; eexists; (split; [|split; [|apply digest_cleansed]]).
  - rewrite sha1_r_ok, F by assumption. reflexivity.
  - reflexivity.
  - rewrite sha2_256_r_ok, F by assumption. reflexivity.
  - reflexivity.
  - rewrite sha2_512_r_ok, F by assumption. reflexivity.
  - reflexivity.
  - rewrite ripemd160_r_ok, F by assumption. reflexivity.
  - reflexivity.
Qed.
Print Assumptions C94_hashes_wipe.

(** ** C95: hash160 and hash256 leave one trace, the SHA-256 of the message: two messages with that hash leave the same arrays. *)
Theorem C95_double_hashes : forall msg rest, bytes msg -> bytes rest -> Z.of_nat (length msg) < 2 ^ 61 ->
  let m := msg ++ rest in let n := length msg in
  (exists left, btc_hash160_r m n = Ok (RIPEMD160 (SHA256 msg), ("sha2_digest"%string, SHA256 msg) :: left) /\ all_cleansed left /\ length left = 4%nat) /\
  (exists left, btc_hash256_r m n = Ok (SHA256 (SHA256 msg), ("sha2_digest"%string, SHA256 msg) :: left) /\ all_cleansed left /\ length left = 4%nat).
Proof.
  intros msg rest Bm Br Hl m n. assert (Bmr : bytes m) by (apply bytes_app; auto).
  assert (Hn : (n <= length m)%nat) by (unfold m, n; rewrite app_length; lia). assert (HL : byte_len_ok n) by exact Hl.
  assert (F : firstn n m = msg) by (unfold m, n; apply firstn_app_exact).
  split; eexists; (split; [|split]).
  - rewrite hash160_r_ok, F by assumption. reflexivity.
  - apply Forall_app. split; apply digest_cleansed.
  - reflexivity.
  - rewrite hash256_r_ok, F by assumption. reflexivity.
  - apply Forall_app. split; apply digest_cleansed.
  - reflexivity.
Qed.
Print Assumptions C95_double_hashes.

(** ** C96: HMAC. What holds: what is left does not depend on the message, and is 0xCC except in the three arrays that hold the key. *)
Definition key_array (name : string) : Prop := name = "buffer"%string \/ name = "key_inner"%string \/ name = "key_outter"%string.

Theorem C96_hmac_message_partial : forall key krest, bytes key -> bytes krest -> Z.of_nat (length key) < 2 ^ 60 ->
  (exists left, Forall (fun a => cleansed (snd a) \/ key_array (fst a)) left /\
     forall msg rest, bytes msg -> bytes rest -> Z.of_nat (length msg) < 2 ^ 60 ->
       hmac_sha256_r (key ++ krest) (length key) (msg ++ rest) (length msg) = Ok (hmac SHA256 64 key msg, left)) /\
  (exists left, Forall (fun a => cleansed (snd a) \/ key_array (fst a)) left /\
     forall msg rest, bytes msg -> bytes rest -> Z.of_nat (length msg) < 2 ^ 60 ->
       hmac_sha512_r (key ++ krest) (length key) (msg ++ rest) (length msg) = Ok (hmac SHA512 128 key msg, left)).
Proof.
  intros key krest Bk Bkr Hk.
  assert (Hkk : byte_len_ok (length key)) by (unfold byte_len_ok; change (2 ^ 61) with (2 ^ 60 * 2); lia).
  assert (W : forall d b l k, Forall (fun a => cleansed (snd a) \/ key_array (fst a)) (hmac_left d b l k)).
  { intros d b l k. unfold hmac_left.
    repeat (apply Forall_cons; [cbn [fst snd]; unfold key_array; first [now (right; left)|now (right; right; left)|now (right; right; right)|left; apply wiped_cleansed]|]).
    destruct l; [|apply Forall_nil]. unfold wiped_digest. repeat (apply Forall_cons; [left; apply wiped_cleansed|]). apply Forall_nil. }
  split; (eexists; split; [apply W|]); intros m r B1 B2 HL.
  - rewrite hmac_sha256_r_ok; try (apply bytes_app; auto); try (rewrite app_length; lia); try assumption.
    + rewrite !firstn_app_exact. reflexivity.
    + unfold byte_len_ok. change (2 ^ 61) with (2 ^ 60 * 2). lia.
  - rewrite hmac_sha512_r_ok; try (apply bytes_app; auto); try (rewrite app_length; lia); try assumption.
    + rewrite !firstn_app_exact. reflexivity.
    + unfold byte_len_ok. change (2 ^ 61) with (2 ^ 60 * 2). lia.
Qed.
Print Assumptions C96_hmac_message_partial.

(** The claim about the key is false: whatever the key, HMAC leaves it (its digest, when it is longer than a block) in an array, in clear. *)
Theorem C96_hmac_key_refuted : forall key krest msg rest, bytes key -> bytes krest -> bytes msg -> bytes rest ->
  Z.of_nat (length key) < 2 ^ 60 -> Z.of_nat (length msg) < 2 ^ 60 ->
  (exists left, hmac_sha256_r (key ++ krest) (length key) (msg ++ rest) (length msg) = Ok (hmac SHA256 64 key msg, left) /\
     exposes left (if (length key <=? 64)%nat then key else SHA256 key)) /\
  (exists left, hmac_sha512_r (key ++ krest) (length key) (msg ++ rest) (length msg) = Ok (hmac SHA512 128 key msg, left) /\
     exposes left (if (length key <=? 128)%nat then key else SHA512 key)).
Proof.
  intros key krest m r Bk Bkr B1 B2 Hk HL.
  assert (Hkk : byte_len_ok (length key)) by (unfold byte_len_ok; change (2 ^ 61) with (2 ^ 60 * 2); lia).
  split; eexists; split.
  - rewrite hmac_sha256_r_ok; try (apply bytes_app; auto); try (rewrite app_length; lia); try assumption.
    + rewrite !firstn_app_exact. reflexivity.
    + unfold byte_len_ok. change (2 ^ 61) with (2 ^ 60 * 2). lia.
  - exists "buffer"%string, [], (repeat 0 (64 - length (if (length key <=? 64)%nat then key else SHA256 key))). right. right. left. reflexivity.
  - rewrite hmac_sha512_r_ok; try (apply bytes_app; auto); try (rewrite app_length; lia); try assumption.
    + rewrite !firstn_app_exact. reflexivity.
    + unfold byte_len_ok. change (2 ^ 61) with (2 ^ 60 * 2). lia.
  - exists "buffer"%string, [], (repeat 0 (128 - length (if (length key <=? 128)%nat then key else SHA512 key))). right. right. left. reflexivity.
Qed.
Print Assumptions C96_hmac_key_refuted.

(** ** C97: nothing depends on the seed, the parent key or the derived key.  [rep] is how libsecp256k1 stores a point (64 bytes). *)
Theorem C97_master_key : exists left, forall key seed rest k, bytes seed -> bytes rest -> Z.of_nat (length seed) < 2 ^ 60 ->
  exkey_init key (seed ++ rest) (length seed) = Ok k -> exkey_init_r key (seed ++ rest) (length seed) = Ok (k, left).
Proof. exists master_left. intros. now apply exkey_init_r_ok. Qed.
Print Assumptions C97_master_key.

Theorem C97_key_derive : forall E g rep, secp_laws E -> ready g -> (forall P, length (rep P) = 64%nat) ->
  forall chain, bytes chain -> length chain = 32%nat ->
  forall hardened : bool, exists left, forall key outk outc child r,
  bytes key -> length key = 32%nat -> 0 < be_val key < secp_order -> length outk = 32%nat -> length outc = 32%nat ->
  0 <= child < 2 ^ 32 -> hardened = (2 ^ 31 <=? child) ->
  key_derive E g key chain outk outc child = Ok r -> key_derive_r E rep g key chain outk outc child = Ok (r, left).
Proof.
  intros E g rep Laws G Hr chain Bc Lc hardened. exists (derive_left hardened chain).
  intros key outk outc child r Bk Lk Sk Lo1 Lo2 Hc -> H.
  pose proof (key_derive_r_ok E rep g key [] chain [] outk outc child r Laws G Hr Bk Lk) as K. rewrite !app_nil_r in K.
  apply K; auto; try lia; constructor.
Qed.
Print Assumptions C97_key_derive.

(** Initialisation wipes the random bytes it drew. *)
Theorem C97_key_init : forall fuel o st g h, key_init fuel o st = Ok (Returned (g, h)) ->
  exists left, key_init_r fuel o st = Ok (Returned (g, h, left)) /\ sizes left = [("rand_buffer"%string, 32%nat)] /\ all_cleansed left.
Proof.
  intros fuel o st g h H. eexists. split; [apply key_init_r_ok, H|]. split; [reflexivity|]. unfold all_cleansed. wipes.
Qed.
Print Assumptions C97_key_init.

(** ** C98: chain codes.  The arrays of derivation itself are wiped ... *)
Theorem C98_derive_wipes_partial : forall E g rep key chain outk outc child r, secp_laws E -> ready g -> (forall P, length (rep P) = 64%nat) ->
  bytes chain -> length chain = 32%nat ->
  bytes key -> length key = 32%nat -> 0 < be_val key < secp_order -> length outk = 32%nat -> length outc = 32%nat -> 0 <= child < 2 ^ 32 ->
  key_derive E g key chain outk outc child = Ok r ->
  exists left, key_derive_r E rep g key chain outk outc child = Ok (r, left) /\
    forall name content, In (name, content) left -> cleansed content \/ key_array name.
Proof.
  intros E g rep key chain outk outc child r Laws G Hr Bc Lc Bk Lk Sk Lo1 Lo2 Hc H.
  exists (derive_left (2 ^ 31 <=? child) chain).
  pose proof (key_derive_r_ok E rep g key [] chain [] outk outc child r Laws G Hr Bk Lk) as K. rewrite !app_nil_r in K.
  split; [apply K; auto; try lia; constructor|].
  intros name content Hin. unfold derive_left, bip32_left, hmac_left in Hin.
  assert (D : (name = "buffer"%string \/ name = "key_inner"%string \/ name = "key_outter"%string) \/ exists n, content = wiped n).
  { destruct (2 ^ 31 <=? child); cbn [In app] in Hin;
      repeat (destruct Hin as [Hin|Hin]; [injection Hin as <- <-; first [right; eexists; reflexivity|left; tauto]|]); destruct Hin. }
  destruct D as [D|[n ->]]; [right; exact D|left; apply wiped_cleansed].
Qed.
Print Assumptions C98_derive_wipes_partial.

(** ... but the parent's chain code is left in clear by the HMAC inside, by private and by public derivation alike; public derivation also
    leaves the child's chain code and the number that was added to the key. *)
Theorem C98_chain_code_refuted : forall E g rep key chain outk outc child r, secp_laws E -> ready g -> (forall P, length (rep P) = 64%nat) ->
  bytes chain -> length chain = 32%nat ->
  bytes key -> length key = 32%nat -> 0 < be_val key < secp_order -> length outk = 32%nat -> length outc = 32%nat -> 0 <= child < 2 ^ 32 ->
  key_derive E g key chain outk outc child = Ok r ->
  exists left, key_derive_r E rep g key chain outk outc child = Ok (r, left) /\ exposes left chain.
Proof.
  intros E g rep key chain outk outc child r Laws G Hr Bc Lc Bk Lk Sk Lo1 Lo2 Hc H.
  exists (derive_left (2 ^ 31 <=? child) chain).
  pose proof (key_derive_r_ok E rep g key [] chain [] outk outc child r Laws G Hr Bk Lk) as K. rewrite !app_nil_r in K.
  split; [apply K; auto; try lia; constructor|].
  exists "buffer"%string, [], (repeat 0 96). unfold derive_left, bip32_left, hmac_left. cbn [app].
  destruct (2 ^ 31 <=? child); cbn [app In]; tauto.
Qed.
Print Assumptions C98_chain_code_refuted.

Theorem C98_public_derivation_refuted : forall E g K chain outp outc child r, secp_laws E -> ready g -> bytes chain -> length chain = 32%nat ->
  length outp = 33%nat -> length outc = 32%nat -> 0 <= child < 2 ^ 31 ->
  pubkey_derive E g (ser E true K) chain outp outc child = Ok r ->
  exists left, pubkey_derive_r E g (ser E true K) chain outp outc child = Ok (r, left) /\
    exposes left chain /\ In ("out"%string, hmac_sha512_of chain (ser E true K ++ be_bytes 4 child)) left.
Proof.
  intros E g K chain outp outc child r Laws G Bc Lc Lp Lo Hc H.
  eexists. pose proof (pubkey_derive_r_ok E g K [] chain [] outp outc child r Laws G Bc Lc) as X. rewrite !app_nil_r in X.
  split; [apply X; auto; try lia; constructor|]. split; [|left; reflexivity].
  exists "buffer"%string, [], (repeat 0 96). unfold pub_derive_left, bip32_left, hmac_left. cbn [app In]. tauto.
Qed.
Print Assumptions C98_public_derivation_refuted.

(** ** C99: key strings.  Writing a key string leaves 0xCC and SHA-256 hashes of the (version and key) data only. *)
Definition hash_or_cleansed (data : list Z) (a : string * list Z) : Prop :=
  cleansed (snd a) \/ snd a = SHA256 data \/ snd a = SHA256 (SHA256 data).

Lemma check_left_ok data : Forall (hash_or_cleansed data) (check_left data).
Proof.
  unfold check_left. apply Forall_cons; [now (right; right)|]. apply Forall_cons; [now (right; left)|].
  unfold wiped_digest. cbn [app]. repeat (apply Forall_cons; [left; apply wiped_cleansed|]). apply Forall_nil.
Qed.

Theorem C99_key_to_string_partial : forall p key krest (compressed : bool), bytes (cp_secret p) -> (length (cp_secret p) <= 8)%nat -> bytes key -> length key = 32%nat ->
  exists text left, key_to_string (key ++ krest) compressed p = Ok (length text, text) /\
    key_to_string_r (key ++ krest) compressed p = Ok (length text, text, left) /\
    Forall (hash_or_cleansed (cp_secret p ++ key ++ if compressed then [1] else [])) left.
Proof.
  intros p key krest compressed Bp Lp Bk Lk.
  destruct (key_to_string_ok key krest compressed p Bk Lk Bp Lp) as (text & E & _). exists text.
  revert E. unfold key_to_string, key_to_string_r. rewrite slice32 by assumption.
  destruct compressed; cbn [bind].
  - rewrite store_into_small by lia. cbn [bind]. rewrite (store_appn 32 key) by (rewrite ?uninit_length; cbn [length]; lia). cbn [bind].
    rewrite Lk. change (skipn (length [1]) (uninit (33 - 32))) with (@nil Z). rewrite app_nil_r.
    destruct (to_base58_check (key ++ [1]) (cp_secret p)) as [[n t]| |] eqn:Et; cbn [bind]; try discriminate.
    assert (B33 : bytes (key ++ [1])) by (apply bytes_app; split; [exact Bk|repeat constructor; unfold is_byte; lia]).
    rewrite (to_check_r _ _ n t B33 Bp); [|apply byte_len_small; rewrite app_length; cbn [length]; lia|exact Et].
    cbn [bind]. rewrite !cleanse_all by (rewrite app_length; cbn [length]; lia). cbn [bind]. intros H. injection H as -> ->.
    eexists. split; [reflexivity|]. split; [reflexivity|]. apply Forall_cons; [left; apply wiped_cleansed|]. apply check_left_ok.
  - intros Et. rewrite (to_check_r _ _ _ _ Bk Bp ltac:(apply byte_len_small; lia) Et). eexists. split; [exact Et|]. split; [reflexivity|].
    rewrite app_nil_r. apply check_left_ok.
Qed.
Print Assumptions C99_key_to_string_partial.

Theorem C99_exkey_to_string_partial : forall p k, bytes (cp_ext_sec p) -> (length (cp_ext_sec p) <= 8)%nat -> wf_key k ->
  exists text left, exkey_to_string k p = Ok (length text, text) /\ exkey_to_string_r k p = Ok (length text, text, left) /\
    Forall (hash_or_cleansed (cp_ext_sec p ++ key_layout k)) left.
Proof.
  intros p k Bp Lp W. destruct (exkey_to_string_ok k p W Bp Lp) as (text & E & _). exists text.
  revert E. unfold exkey_to_string, exkey_to_string_r. rewrite exkey_encode_ok by (auto; now rewrite uninit_length).
  cbn [bind]. change (skipn 74 (uninit BIP32_EXTKEY_SIZE)) with (@nil Z). rewrite app_nil_r.
  pose proof (key_layout_length k W) as Lk. pose proof (key_layout_bytes k W) as Bk.
  destruct (to_base58_check (key_layout k) (cp_ext_sec p)) as [[n t]| |] eqn:Et; cbn [bind]; try discriminate.
  rewrite (to_check_r _ _ _ _ Bk Bp ltac:(apply byte_len_small; lia) Et). cbn [bind].
  rewrite !cleanse_all by exact Lk. cbn [bind]. intros H. injection H as -> ->.
  eexists. split; [reflexivity|]. split; [reflexivity|]. apply Forall_cons; [left; apply wiped_cleansed|]. apply check_left_ok.
Qed.
Print Assumptions C99_exkey_to_string_partial.

(** What decoding writes into the local buffer: everything the text decodes to. *)
Lemma decoded_into text rest d : Forall (fun c => 0 < c < 128) text -> Z.of_nat (length text) * 733 <= INT_MAX -> bytes d -> b58_decodes text d ->
  exists n, from_base58_check (text ++ 0 :: rest) (length text) = Ok (n, d).
Proof.
  intros A H Bd D. destruct (string_decoding text rest A H) as [(data & B & D' & E)|[(out & B & D' & _ & E)|[N _]]].
  - rewrite (b58_decodes_fun text d (data ++ checksum4 data) Bd); eauto. apply bytes_app. split; [exact B|apply checksum4_bytes].
  - rewrite (b58_decodes_fun text d out Bd B D D'). eauto.
  - exfalso. exact (N d D).
Qed.

(** Reading an extended private key: when it is accepted, nothing of it is left but hashes ... *)
Theorem C99_exkey_from_string_partial : forall p text rest old k, bytes (cp_ext_sec p) -> (1 <= length (cp_ext_sec p) <= 8)%nat -> wf_key k ->
  Forall (fun c => 0 < c < 128) text -> Z.of_nat (length text) * 733 <= INT_MAX -> is_xprv (cp_ext_sec p) k text ->
  exkey_from_string (text ++ 0 :: rest) (length text) old p = Ok (1, k) ->
  exists left, exkey_from_string_r (text ++ 0 :: rest) (length text) old p = Ok (1, k, left) /\
    Forall (hash_or_cleansed (cp_ext_sec p ++ key_layout k)) left.
Proof.
  intros p text rest old k Bp Lp W A H X E.
  set (data := cp_ext_sec p ++ key_layout k).
  assert (Bd : bytes data) by (apply bytes_app; split; [exact Bp|apply key_layout_bytes, W]).
  assert (Bdc : bytes (data ++ checksum4 data)) by (apply bytes_app; split; [exact Bd|apply checksum4_bytes]).
  destruct (decoded_into text rest (data ++ checksum4 data) A H Bdc) as (n & En).
  { apply b58_decodes_address. exact X. }
  pose proof (key_layout_length k W) as Lk.
  assert (Ld : length (data ++ checksum4 data) = (length (cp_ext_sec p) + 78)%nat) by (unfold data; rewrite !app_length, checksum4_length, Lk; lia).
  eexists. split; [apply (exkey_from_r _ _ _ _ _ _ _ _ Bdc ltac:(rewrite Ld; apply byte_len_small; lia) En E)|].
  rewrite Z.eqb_refl. apply Forall_cons; [left; apply wiped_cleansed|]. unfold from_left. rewrite Ld.
  destruct (Nat.ltb_spec (length (cp_ext_sec p) + 78) 4); [lia|].
  replace (firstn (length (cp_ext_sec p) + 78 - 4) (data ++ checksum4 data)) with data; [apply check_left_ok|].
  symmetry. apply firstn_at. unfold data. rewrite app_length, Lk. lia.
Qed.
Print Assumptions C99_exkey_from_string_partial.

(** ... but when it is refused, for instance because it belongs to another network, the whole key is left in clear ... *)
Theorem C99_exkey_refused_refuted : forall p q k old rest, builtin p -> builtin q -> cp_ext_sec p <> cp_ext_sec q -> wf_key k -> wf_key old ->
  exists text left, exkey_to_string k p = Ok (length text, text) /\
    exkey_from_string_r (text ++ 0 :: rest) (length text) old q = Ok (0, old, left) /\ exposes left (key_layout k) /\ exposes left (xk_key k).
Proof.
  intros p q k old rest Hp Hq Hne W Wo.
  assert (X : forall c, builtin c -> bytes (cp_ext_sec c) /\ length (cp_ext_sec c) = 4%nat).
  { intros c [-> | [-> | ->]]; split; try reflexivity; repeat constructor; unfold is_byte; cbn; lia. }
  destruct (X p Hp) as [Bp Lp]. destruct (X q Hq) as [Bq Lq].
  pose proof (key_layout_bytes k W) as Bk. pose proof (key_layout_length k W) as Lk.
  destruct (exkey_to_string_ok k p W Bp ltac:(lia)) as (text & E & B & L).
  destruct (own_string _ _ text Bp ltac:(lia) Bk Lk B L) as (A & H & Ad & Hd).
  exists text. set (data := cp_ext_sec p ++ key_layout k) in *.
  assert (Bd : bytes data) by (apply bytes_app; split; assumption).
  assert (Bdc : bytes (data ++ checksum4 data)) by (apply bytes_app; split; [exact Bd|apply checksum4_bytes]).
  assert (Ld : length (data ++ checksum4 data) = 82%nat) by (unfold data; rewrite !app_length, checksum4_length, Lk, Lp; lia).
  destruct (decoded_into text rest (data ++ checksum4 data) A H Bdc) as (n & En); [apply b58_decodes_address; exact Ad|].
  assert (R : exkey_from_string (text ++ 0 :: rest) (length text) old q = Ok (0, old)).
  { destruct (C86_exkey_strings q text rest old Bq ltac:(lia) A H Wo Hd) as [(k' & x & W' & Bx & Ad' & _)|[_ R]]; [exfalso|exact R].
    assert (Eq : cp_ext_sec q ++ (ext_layout (xk_ext k') ++ [x] ++ xk_key k') = cp_ext_sec p ++ key_layout k).
    { apply (base58_address_fun _ _ _ _ text); [| |exact Ad'|exact Ad]; apply bytes_app; split; auto.
      apply bytes_app; split; [apply ext_layout_bytes, W'|]. apply byte_cons; [assumption|apply W']. }
    apply (f_equal (firstn 4)) in Eq. rewrite !firstn_at in Eq by assumption. congruence. }
  eexists. split; [exact E|]. split; [apply (exkey_from_r _ _ _ _ _ _ _ _ Bdc ltac:(apply byte_len_small; lia) En R)|].
  change (0 =? 1) with false. cbv iota. rewrite Ld. split.
  - exists "extkey"%string, (cp_ext_sec p), (checksum4 data). left. f_equal. change (uninit (82 - 82)) with (@nil Z). rewrite app_nil_r.
    unfold data at 1. rewrite <- app_assoc. reflexivity.
  - exists "extkey"%string, (cp_ext_sec p ++ ext_layout (xk_ext k) ++ [0]), (checksum4 data). left. f_equal. change (uninit (82 - 82)) with (@nil Z). rewrite app_nil_r.
    unfold data at 1. unfold key_layout. rewrite <- !app_assoc. reflexivity.
Qed.
Print Assumptions C99_exkey_refused_refuted.

(** ... and reading a WIF string never wipes: every accepted key is left in clear. *)
Theorem C99_key_from_string_refuted : forall p key krest (compressed : bool) old oldc rest,
  builtin p -> bytes key -> length key = 32%nat -> length old = 32%nat ->
  exists text left, key_to_string (key ++ krest) compressed p = Ok (length text, text) /\
    key_from_string_r (text ++ 0 :: rest) (length text) old oldc p = Ok (1, key, if compressed then 1 else 0, left) /\ exposes left key.
Proof.
  intros p key krest compressed old oldc rest Bp Bk Lk Lo. destruct (builtin_secret p Bp) as [Bs Ls].
  destruct (C51_wif_roundtrip p key krest compressed old oldc rest Bs ltac:(lia) Bk Lk ltac:(lia)) as (text & E & (_ & _ & W) & L & R).
  exists text. set (data := cp_secret p ++ key ++ if compressed then [1] else []) in *.
  assert (Bd : bytes data).
  { apply bytes_app; split; [exact Bs|]. apply bytes_app; split; [exact Bk|]. destruct compressed; repeat constructor; unfold is_byte; lia. }
  assert (Bdc : bytes (data ++ checksum4 data)) by (apply bytes_app; split; [exact Bd|apply checksum4_bytes]).
  assert (Ld : (length (data ++ checksum4 data) <= 40)%nat) by (unfold data; rewrite !app_length, checksum4_length, Ls, Lk; destruct compressed; cbn [length]; lia).
  destruct (decoded_into text rest (data ++ checksum4 data)) as (n & En); [| |exact Bdc|apply b58_decodes_address; exact W|].
  { destruct (key_to_string_ok key krest compressed p Bk Lk Bs ltac:(lia)) as (t2 & E2 & B2 & _). rewrite E in E2. injection E2 as _ <-. eapply ascii_base58, B2. }
  { assert (L60 : (length text <= 62)%nat); [|change INT_MAX with 2147483647; lia].
    destruct (key_to_string_ok key krest compressed p Bk Lk Bs ltac:(lia)) as (t2 & E2 & _ & L2). rewrite E in E2. injection E2 as _ <-. exact L2. }
  rewrite skipn_all2, app_nil_r in R by lia.
  eexists. split; [exact E|]. split; [apply (key_from_r _ _ _ _ _ _ _ _ Bdc ltac:(apply byte_len_small; lia) En R)|].
  exists "buf"%string, (cp_secret p), ((if compressed then [1] else []) ++ checksum4 data ++ uninit (40 - length (data ++ checksum4 data))).
  left. f_equal. unfold data at 1. rewrite <- !app_assoc. reflexivity.
Qed.
Print Assumptions C99_key_from_string_refuted.

(** ** The hypotheses can be met. *)
Definition toy_rep (P : pt toy) : list Z := repeat 1 64.
Definition ready_globals : globals := mkGlobals (Some (mkCtx true false 0)) (Some (mkCtx false true 1)).
Example C97_ex : secp_laws toy /\ ready ready_globals /\ (forall P, length (toy_rep P) = 64%nat).
Proof. split; [exact toy_laws|]. split; [|intros P; reflexivity]. exists (mkCtx true false 0), (mkCtx false true 1). repeat split. Qed.
Example C99_ex : builtin mainnet /\ builtin testnet /\ cp_ext_sec mainnet <> cp_ext_sec testnet.
Proof. split; [now left|]. split; [right; now left|]. discriminate. Qed.
(** HMAC-SHA256 with the key "key" leaves it. *)
Example C96_ex : match hmac_sha256_r [107; 101; 121] 3 [1; 2] 2 with
  | Ok (_, arrs) => existsb (fun a => bytes_eqb (firstn 3 (snd a)) [107; 101; 121]) arrs | _ => false end = true.
Proof. vm_compute. reflexivity. Qed.
(** SHA-1 of three bytes leaves 84 times 0xCC. *)
Example C94_ex : match sha1_r [97; 98; 99] 3 with
  | Ok (_, arrs) => forallb (fun a => forallb (Z.eqb 204) (snd a)) arrs && (length (concat (map snd arrs)) =? 84)%nat | _ => false end = true.
Proof. vm_compute. reflexivity. Qed.
