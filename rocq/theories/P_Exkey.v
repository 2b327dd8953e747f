(** C66-C70, C86: serialisation and string forms of extended keys (src/btc/exkey.c). *)
From Verif Require Import Base S_Words L_Endian M_Endian M_Hash M_Base58 S_Base58 L_Base58 M_Base58Check S_Base58Check L_Base58Check P_Base58Check
  S_Address M_Address L_Address M_Random M_Secp M_Key M_Exkey S_Key S_Exkey L_KeyStr P_Random P_Wif L_Der S_Ripemd L_Ripemd
  S_Secp L_Secp S_Der S_Life S_Bip32 P_Der L_Bip32 P_Bip32 L_Exkey.

(* ---------------------------------------------------------------- *)
(** ** C66 *)
(** Encoding writes the BIP-32 layout into the first 74 bytes of the buffer and nothing else. *)
Theorem C66_exkey_encode : forall k buf rest, wf_key k -> length buf = 74%nat ->
  length (key_layout k) = 74%nat /\ bytes (key_layout k) /\ exkey_encode k (buf ++ rest) = Ok (key_layout k ++ rest).
Proof.
  intros k buf rest W L. split; [now apply key_layout_length|]. split; [now apply key_layout_bytes|].
  rewrite exkey_encode_ok by (auto; rewrite app_length; lia). now rewrite skipn_at by assumption.
Qed.
Print Assumptions C66_exkey_encode.

Theorem C66_exkey_decode_encode : forall k buf rest old tail, wf_key k -> wf_key old -> length buf = 74%nat ->
  exists code, exkey_encode k (buf ++ rest) = Ok (code ++ rest) /\ exkey_decode (code ++ tail) old = Ok k.
Proof.
  intros k buf rest old tail W Wo L. exists (key_layout k). split; [now apply C66_exkey_encode|].
  destruct (exkey_decode_ok (key_layout k) tail old) as (k' & x & D & W' & E); auto using key_layout_bytes, key_layout_length.
  rewrite D. f_equal. symmetry. now apply (key_layout_inj 0 x).
Qed.
Print Assumptions C66_exkey_decode_encode.

(** Decoding accepts any 74 bytes and ignores the byte at offset 41 (zero in BIP-32): re-encoding gives the same bytes
    exactly when that byte is zero. *)
Theorem C66_exkey_encode_decode : forall code tail old buf rest, bytes code -> length code = 74%nat -> wf_key old -> length buf = 74%nat ->
  exists k, exkey_decode (code ++ tail) old = Ok k /\ wf_key k /\
    exkey_encode k (buf ++ rest) = Ok ((firstn 41 code ++ [0] ++ skipn 42 code) ++ rest) /\
    (exkey_encode k (buf ++ rest) = Ok (code ++ rest) <-> nth_error code 41 = Some 0).
Proof.
  intros code tail old buf rest B L Wo Lb. destruct (exkey_decode_ok code tail old B L Wo) as (k & x & D & W & E). exists k. split; [exact D|]. split; [exact W|].
  assert (Le : length (ext_layout (xk_ext k)) = 41%nat) by (apply ext_layout_length, W).
  destruct (C66_exkey_encode k buf rest W Lb) as (_ & _ & ->). unfold key_layout.
  assert (E1 : firstn 41 code = ext_layout (xk_ext k)) by (rewrite E; now apply firstn_at).
  assert (E2 : skipn 42 code = xk_key k).
  { rewrite E. rewrite app_assoc. apply skipn_at. rewrite app_length, Le. reflexivity. }
  assert (E3 : nth_error code 41 = Some x).
  { rewrite E. rewrite nth_error_app2 by lia. rewrite Le. reflexivity. }
  rewrite E1, E2, E3. split; [reflexivity|]. rewrite E. split.
  - intros H. injection H as H. apply app_inv_tail in H. apply app_inv_head in H. injection H as <-. reflexivity.
  - intros H. injection H as ->. reflexivity.
Qed.
Print Assumptions C66_exkey_encode_decode.

(** The fingerprint bytes written for a child are the first four bytes of the parent's identifier, in the order of the hash. *)
Theorem C66_fingerprint_bytes : forall E g parent prest fp k buf code, secp_laws E -> ready g -> length parent = 32%nat -> 0 < be_val parent < secp_order ->
  key_fingerprint E g (parent ++ prest) true = Ok fp -> wf_key k -> x_fingerprint (xk_ext k) = fp -> length buf = 74%nat ->
  exkey_encode k buf = Ok code -> firstn 4 (skipn 1 code) = firstn 4 (hash160_of (ser E true (pub_of E (be_val parent)))).
Proof.
  intros E g parent prest fp k buf code Laws G Lp Sp F W Ef Lb En. rewrite (C65_key_fingerprint E g parent prest true Laws G Lp Sp) in F. injection F as F.
  destruct (C66_exkey_encode k buf [] W Lb) as (_ & _ & X). rewrite !app_nil_r in X. rewrite X in En. injection En as <-.
  unfold key_layout, ext_layout. rewrite <- !app_assoc. rewrite skipn_at by reflexivity. rewrite firstn_at by apply le_bytes_length. rewrite Ef, <- F.
  set (h := hash160_of _). assert (Lh : length h = 20%nat) by apply RIPEMD160_length. assert (Bh : bytes h) by apply RIPEMD160_bytes.
  replace 4%nat with (length (firstn 4 h)) at 1 by (rewrite firstn_length, Lh; reflexivity). apply le_bytes_le_val. now apply bytes_firstn.
Qed.
Print Assumptions C66_fingerprint_bytes.

(* ---------------------------------------------------------------- *)
(** ** C67 *)
Theorem C67_expubkey_encode : forall k buf rest, wf_pub k -> length buf = 74%nat ->
  length (pub_layout k) = 74%nat /\ bytes (pub_layout k) /\ expubkey_encode k (buf ++ rest) = Ok (pub_layout k ++ rest).
Proof.
  intros k buf rest W L. split; [now apply pub_layout_length|]. split; [now apply pub_layout_bytes|].
  rewrite expubkey_encode_ok by (auto; rewrite app_length; lia). now rewrite skipn_at by assumption.
Qed.
Print Assumptions C67_expubkey_encode.

Theorem C67_expubkey_decode_encode : forall k buf rest old tail, wf_pub k -> wf_pub old -> length buf = 74%nat ->
  exists code, expubkey_encode k (buf ++ rest) = Ok (code ++ rest) /\ expubkey_decode (code ++ tail) old = Ok k.
Proof.
  intros k buf rest old tail W Wo L. exists (pub_layout k). split; [now apply C67_expubkey_encode|].
  destruct (expubkey_decode_ok (pub_layout k) tail old) as (k' & D & W' & E); auto using pub_layout_bytes, pub_layout_length.
  rewrite D. f_equal. symmetry. now apply pub_layout_inj.
Qed.
Print Assumptions C67_expubkey_decode_encode.

Theorem C67_expubkey_encode_decode : forall code tail old buf rest, bytes code -> length code = 74%nat -> wf_pub old -> length buf = 74%nat ->
  exists k, expubkey_decode (code ++ tail) old = Ok k /\ wf_pub k /\ expubkey_encode k (buf ++ rest) = Ok (code ++ rest).
Proof.
  intros code tail old buf rest B L Wo Lb. destruct (expubkey_decode_ok code tail old B L Wo) as (k & D & W & E). exists k. split; [exact D|]. split; [exact W|].
  rewrite E. now apply C67_expubkey_encode.
Qed.
Print Assumptions C67_expubkey_encode_decode.

(* ---------------------------------------------------------------- *)
(** ** C86: what the string parsers accept *)
Lemma byte_cons x (l : list Z) : is_byte x -> bytes l -> bytes ([x] ++ l).
Proof. intros H B. apply Forall_cons; assumption. Qed.
Lemma cs_bytes data : bytes data -> bytes (data ++ checksum4 data).
Proof. intros; apply bytes_app; split; [assumption|apply checksum4_bytes]. Qed.
Lemma address_of prefix code text d : bytes prefix -> bytes code -> bytes d -> b58_decodes text d -> base58_address prefix code text ->
  d = (prefix ++ code) ++ checksum4 (prefix ++ code).
Proof. intros Bp Bc Bd D A. apply (b58_decodes_fun text); auto. apply cs_bytes. now apply bytes_app. Qed.

(** A private extended key string is accepted exactly when it is Base58Check for the network's version bytes and any 74 bytes;
    the byte before the key (which BIP-32 requires to be zero) and the validity of the key are not checked. *)
Theorem C86_exkey_strings : forall p text rest old,
  bytes (cp_ext_sec p) -> (1 <= length (cp_ext_sec p) <= 8)%nat -> Forall (fun c => 0 < c < 128) text -> Z.of_nat (length text) * 733 <= INT_MAX ->
  wf_key old -> (forall d, bytes d -> b58_decodes text d -> (length d <= 82)%nat) ->
  (exists k x, wf_key k /\ is_byte x /\ base58_address (cp_ext_sec p) (ext_layout (xk_ext k) ++ [x] ++ xk_key k) text /\
     exkey_from_string (text ++ 0 :: rest) (length text) old p = Ok (1, k)) \/
  ((forall code, bytes code -> length code = 74%nat -> ~ base58_address (cp_ext_sec p) code text) /\
     exkey_from_string (text ++ 0 :: rest) (length text) old p = Ok (0, old)).
Proof.
  intros p text rest old Bp Lp A H Wo Hd.
  destruct (string_decoding text rest A H) as [(data & Bd & D & E)|[(out & Bo & D & N & E)|[N E]]].
  - assert (Hl := Hd _ (cs_bytes data Bd) D). rewrite app_length in Hl.
    destruct (xprv_fits (text ++ 0 :: rest) (length text) old p data (checksum4 data) Lp Hl E) as [(code & Lc & Ed & R)|[N R]].
    + left. assert (Bc : bytes code) by (rewrite Ed in Bd; now apply bytes_app in Bd).
      destruct (exkey_decode_ok code (checksum4 data ++ uninit (82 - length (data ++ checksum4 data))) old Bc Lc Wo) as (k & x & X & W & Ek).
      exists k, x. split; [exact W|]. rewrite R, X. split; [|split; [|reflexivity]].
      * rewrite Ek in Bc. apply bytes_app in Bc as [_ Bc]. now inversion Bc.
      * rewrite <- Ek. apply b58_decodes_address. now rewrite <- Ed.
    + right. split; [|exact R]. intros code Bc Lc Ad. apply (N code Lc), checksum_split. now apply (address_of _ _ text); auto using cs_bytes.
  - right. split; [|apply (xprv_reject _ _ _ _ out); auto; lia].
    intros code Bc Lc Ad. exact (N _ (address_of _ _ text out Bp Bc Bo D Ad)).
  - right. split; [|apply (xprv_reject _ _ _ _ []); auto; cbn; lia].
    intros code Bc Lc Ad. apply b58_decodes_address in Ad. exact (N _ Ad).
Qed.
Print Assumptions C86_exkey_strings.

Theorem C86_expubkey_strings : forall p text rest old,
  bytes (cp_ext_pub p) -> (1 <= length (cp_ext_pub p) <= 8)%nat -> Forall (fun c => 0 < c < 128) text -> Z.of_nat (length text) * 733 <= INT_MAX ->
  wf_pub old -> (forall d, bytes d -> b58_decodes text d -> (length d <= 82)%nat) ->
  (exists k, wf_pub k /\ is_xpub (cp_ext_pub p) k text /\ expubkey_from_string (text ++ 0 :: rest) (length text) old p = Ok (1, k)) \/
  ((forall code, bytes code -> length code = 74%nat -> ~ base58_address (cp_ext_pub p) code text) /\
     expubkey_from_string (text ++ 0 :: rest) (length text) old p = Ok (0, old)).
Proof.
  intros p text rest old Bp Lp A H Wo Hd.
  destruct (string_decoding text rest A H) as [(data & Bd & D & E)|[(out & Bo & D & N & E)|[N E]]].
  - assert (Hl := Hd _ (cs_bytes data Bd) D). rewrite app_length in Hl.
    destruct (xpub_fits (text ++ 0 :: rest) (length text) old p data (checksum4 data) Lp Hl E) as [(code & Lc & Ed & R)|[N R]].
    + left. assert (Bc : bytes code) by (rewrite Ed in Bd; now apply bytes_app in Bd).
      destruct (expubkey_decode_ok code (checksum4 data ++ uninit (82 - length (data ++ checksum4 data))) old Bc Lc Wo) as (k & X & W & Ek).
      exists k. split; [exact W|]. rewrite R, X. split; [|reflexivity].
      unfold is_xpub. rewrite <- Ek. apply b58_decodes_address. now rewrite <- Ed.
    + right. split; [|exact R]. intros code Bc Lc Ad. apply (N code Lc), checksum_split. now apply (address_of _ _ text); auto using cs_bytes.
  - right. split; [|apply (xpub_reject _ _ _ _ out); auto; lia].
    intros code Bc Lc Ad. exact (N _ (address_of _ _ text out Bp Bc Bo D Ad)).
  - right. split; [|apply (xpub_reject _ _ _ _ []); auto; cbn; lia].
    intros code Bc Lc Ad. apply b58_decodes_address in Ad. exact (N _ Ad).
Qed.
Print Assumptions C86_expubkey_strings.

(* ---------------------------------------------------------------- *)
(** ** C68 *)
Lemma layout_string prefix code : bytes prefix -> (length prefix <= 8)%nat -> bytes code -> length code = 74%nat ->
  exists text, to_base58_check code prefix = Ok (length text, text) /\ is_base58check (prefix ++ code) text /\ (length text <= exkey_string_max_length)%nat.
Proof.
  intros Bp Lp Bc Lc. destruct (C32_base58check_encode code prefix Bc Bp) as (text & E & B & L).
  - unfold to_base58_check_length, to_base58_length. change INT_MAX with 2147483647. rewrite Lc. dlia.
  - exists text. split; [exact E|]. split; [exact B|]. rewrite Lc in L. unfold exkey_string_max_length, to_base58_check_length, to_base58_length, BIP32_EXTKEY_SIZE in *. dlia.
Qed.

Lemma own_string prefix code text : bytes prefix -> (length prefix <= 4)%nat -> bytes code -> length code = 74%nat -> is_base58check (prefix ++ code) text ->
  (length text <= exkey_string_max_length)%nat ->
  Forall (fun c => 0 < c < 128) text /\ Z.of_nat (length text) * 733 <= INT_MAX /\ base58_address prefix code text /\
  (forall d, bytes d -> b58_decodes text d -> (length d <= 82)%nat).
Proof.
  intros Bp Lp Bc Lc B L. split; [eapply ascii_base58, B|]. split; [change INT_MAX with 2147483647; change exkey_string_max_length with 120%nat in L; lia|].
  assert (Ad : base58_address prefix code text) by (exists text; split; [apply trims_self|exact B]). split; [exact Ad|].
  intros d Bd D. rewrite (address_of prefix code text d Bp Bc Bd D Ad). rewrite !app_length, checksum4_length. lia.
Qed.

Lemma exkey_to_string_ok k p : wf_key k -> bytes (cp_ext_sec p) -> (length (cp_ext_sec p) <= 8)%nat ->
  exists text, exkey_to_string k p = Ok (length text, text) /\ is_base58check (cp_ext_sec p ++ key_layout k) text /\ (length text <= exkey_string_max_length)%nat.
Proof.
  intros W Bp Lp. destruct (layout_string (cp_ext_sec p) (key_layout k) Bp Lp (key_layout_bytes k W) (key_layout_length k W)) as (text & E & B & L).
  exists text. split; [|auto]. unfold exkey_to_string. rewrite exkey_encode_ok by (auto; now rewrite uninit_length).
  rewrite skipn_uninit. change (uninit (BIP32_EXTKEY_SIZE - 74)) with (@nil Z). rewrite app_nil_r. cbn [bind]. rewrite E. cbn [bind].
  unfold cleanse. rewrite store_ok; [reflexivity|]. rewrite repeat_length, key_layout_length by assumption. reflexivity.
Qed.
Lemma expubkey_to_string_ok k p : wf_pub k -> bytes (cp_ext_pub p) -> (length (cp_ext_pub p) <= 8)%nat ->
  exists text, expubkey_to_string k p = Ok (length text, text) /\ is_base58check (cp_ext_pub p ++ pub_layout k) text /\ (length text <= exkey_string_max_length)%nat.
Proof.
  intros W Bp Lp. destruct (layout_string (cp_ext_pub p) (pub_layout k) Bp Lp (pub_layout_bytes k W) (pub_layout_length k W)) as (text & E & B & L).
  exists text. split; [|auto]. unfold expubkey_to_string. rewrite expubkey_encode_ok by (auto; now rewrite uninit_length).
  rewrite skipn_uninit. change (uninit (BIP32_EXTKEY_SIZE - 74)) with (@nil Z). rewrite app_nil_r. cbn [bind]. exact E.
Qed.

(** Prefixes of one to four bytes; every built-in network uses four. *)
Theorem C68_exkey_string_roundtrip : forall p k old rest, bytes (cp_ext_sec p) -> (1 <= length (cp_ext_sec p) <= 4)%nat -> wf_key k -> wf_key old ->
  exists text, exkey_to_string k p = Ok (length text, text) /\ is_xprv (cp_ext_sec p) k text /\ (length text <= exkey_string_max_length)%nat /\
    exkey_from_string (text ++ 0 :: rest) (length text) old p = Ok (1, k).
Proof.
  intros p k old rest Bp Lp W Wo. destruct (exkey_to_string_ok k p W Bp ltac:(lia)) as (text & E & B & L).
  destruct (own_string _ _ text Bp ltac:(lia) (key_layout_bytes k W) (key_layout_length k W) B L) as (A & H & Ad & Hd).
  exists text. split; [exact E|]. split; [exact Ad|]. split; [exact L|].
  destruct (C86_exkey_strings p text rest old Bp ltac:(lia) A H Wo Hd) as [(k' & x & W' & Bx & Ad' & R)|[N _]].
  - rewrite R. do 2 f_equal. assert (Eq : cp_ext_sec p ++ (ext_layout (xk_ext k') ++ [x] ++ xk_key k') = cp_ext_sec p ++ key_layout k).
    { apply (base58_address_fun _ _ _ _ text); [| |exact Ad'|exact Ad]; apply bytes_app; split; auto using key_layout_bytes.
      apply bytes_app; split; [apply ext_layout_bytes, W'|]. apply byte_cons; [assumption|apply W']. }
    apply app_inv_head in Eq. now apply (key_layout_inj x 0).
  - exfalso. exact (N _ (key_layout_bytes k W) (key_layout_length k W) Ad).
Qed.
Print Assumptions C68_exkey_string_roundtrip.

Theorem C68_expubkey_string_roundtrip : forall p k old rest, bytes (cp_ext_pub p) -> (1 <= length (cp_ext_pub p) <= 4)%nat -> wf_pub k -> wf_pub old ->
  exists text, expubkey_to_string k p = Ok (length text, text) /\ is_xpub (cp_ext_pub p) k text /\ (length text <= exkey_string_max_length)%nat /\
    expubkey_from_string (text ++ 0 :: rest) (length text) old p = Ok (1, k).
Proof.
  intros p k old rest Bp Lp W Wo. destruct (expubkey_to_string_ok k p W Bp ltac:(lia)) as (text & E & B & L).
  destruct (own_string _ _ text Bp ltac:(lia) (pub_layout_bytes k W) (pub_layout_length k W) B L) as (A & H & Ad & Hd).
  exists text. split; [exact E|]. split; [exact Ad|]. split; [exact L|].
  destruct (C86_expubkey_strings p text rest old Bp ltac:(lia) A H Wo Hd) as [(k' & W' & Ad' & R)|[N _]].
  - rewrite R. do 2 f_equal. assert (Eq : cp_ext_pub p ++ pub_layout k' = cp_ext_pub p ++ pub_layout k).
    { apply (base58_address_fun _ _ _ _ text); [| |exact Ad'|exact Ad]; apply bytes_app; split; auto using pub_layout_bytes. }
    apply app_inv_head in Eq. now apply pub_layout_inj.
  - exfalso. exact (N _ (pub_layout_bytes k W) (pub_layout_length k W) Ad).
Qed.
Print Assumptions C68_expubkey_string_roundtrip.

Lemma builtin_ext p : builtin p -> bytes (cp_ext_sec p) /\ length (cp_ext_sec p) = 4%nat /\ bytes (cp_ext_pub p) /\ length (cp_ext_pub p) = 4%nat.
Proof. intros [-> | [-> | ->]]; repeat split; repeat constructor; unfold is_byte; cbn; lia. Qed.

Theorem C68_builtin_roundtrip : forall p k kold u uold rest, builtin p -> wf_key k -> wf_key kold -> wf_pub u -> wf_pub uold ->
  (exists text, exkey_to_string k p = Ok (length text, text) /\ (length text <= exkey_string_max_length)%nat /\
     exkey_from_string (text ++ 0 :: rest) (length text) kold p = Ok (1, k)) /\
  (exists text, expubkey_to_string u p = Ok (length text, text) /\ (length text <= exkey_string_max_length)%nat /\
     expubkey_from_string (text ++ 0 :: rest) (length text) uold p = Ok (1, u)).
Proof.
  intros p k kold u uold rest Hp Wk Wko Wu Wuo. destruct (builtin_ext p Hp) as (B1 & L1 & B2 & L2). split.
  - destruct (C68_exkey_string_roundtrip p k kold rest B1 ltac:(lia) Wk Wko) as (t & ? & _ & ? & ?). eauto.
  - destruct (C68_expubkey_string_roundtrip p u uold rest B2 ltac:(lia) Wu Wuo) as (t & ? & _ & ? & ?). eauto.
Qed.
Print Assumptions C68_builtin_roundtrip.

(* ---------------------------------------------------------------- *)
(** ** C70: the internal buffers (82 bytes) *)
Lemma big_or_fits text rest : Forall (fun c => 0 < c < 128) text -> Z.of_nat (length text) * 733 <= INT_MAX ->
  (forall d, bytes d -> b58_decodes text d -> (length d <= 82)%nat) \/
  exists n out, from_base58_check (text ++ 0 :: rest) (length text) = Ok (n, out) /\ (82 < length out)%nat.
Proof.
  intros A H. destruct (string_decoding text rest A H) as [(data & Bd & D & E)|[(out & Bo & D & N & E)|[N E]]].
  - destruct (Nat.le_gt_cases (length (data ++ checksum4 data)) 82) as [L|L]; [left|right; eauto].
    intros d Bd' D'. now rewrite (b58_decodes_fun text d _ Bd' (cs_bytes data Bd) D' D).
  - destruct (Nat.le_gt_cases (length out) 82) as [L|L]; [left|right; eauto]. intros d Bd' D'. now rewrite (b58_decodes_fun text d _ Bd' Bo D' D).
  - left. intros d _ D. destruct (N _ D).
Qed.

(** The part that holds: strings of at most 82 characters, or decoding to at most 82 bytes, are handled without undefined behaviour. *)
Theorem C70_buffer_partial : forall p text rest oldk oldp,
  bytes (cp_ext_sec p) -> (1 <= length (cp_ext_sec p) <= 8)%nat -> bytes (cp_ext_pub p) -> (1 <= length (cp_ext_pub p) <= 8)%nat ->
  Forall (fun c => 0 < c < 128) text -> Z.of_nat (length text) * 733 <= INT_MAX -> wf_key oldk -> wf_pub oldp ->
  ((length text <= 82)%nat \/ forall d, bytes d -> b58_decodes text d -> (length d <= 82)%nat) ->
  (exists r, exkey_from_string (text ++ 0 :: rest) (length text) oldk p = Ok r) /\ (exists r, expubkey_from_string (text ++ 0 :: rest) (length text) oldp p = Ok r).
Proof.
  intros p text rest oldk oldp B1 L1 B2 L2 A H Wk Wp S.
  assert (Hd : forall d, bytes d -> b58_decodes text d -> (length d <= 82)%nat).
  { destruct S as [S|S]; [|exact S]. intros d Bd D. pose proof (b58_decodes_length text d A H Bd D). lia. }
  split.
  - destruct (C86_exkey_strings p text rest oldk B1 L1 A H Wk Hd) as [(k & x & _ & _ & _ & R)|[_ R]]; eauto.
  - destruct (C86_expubkey_strings p text rest oldp B2 L2 A H Wp Hd) as [(k & _ & _ & R)|[_ R]]; eauto.
Qed.
Print Assumptions C70_buffer_partial.

(** C70 as stated is false: every string that decodes to more than 82 bytes overruns both buffers ... *)
Theorem C70_buffer_overflow_refuted : forall p text rest oldk oldp d,
  (length (cp_ext_sec p) <= 8)%nat -> (length (cp_ext_pub p) <= 8)%nat ->
  Forall (fun c => 0 < c < 128) text -> Z.of_nat (length text) * 733 <= INT_MAX -> bytes d -> b58_decodes text d -> (82 < length d)%nat ->
  exkey_from_string (text ++ 0 :: rest) (length text) oldk p = UB /\ expubkey_from_string (text ++ 0 :: rest) (length text) oldp p = UB.
Proof.
  intros p text rest oldk oldp d L1 L2 A H Bd D L.
  destruct (big_or_fits text rest A H) as [F|(n & out & E & Lo)]; [specialize (F d Bd D); lia|].
  split; [eapply xprv_overflow|eapply xpub_overflow]; eauto.
Qed.
Print Assumptions C70_buffer_overflow_refuted.

(** Together: a call overruns its internal array exactly when the string is the Base58 text of more than 82 bytes; every other call returns. *)
Theorem C70_overrun_exact : forall p text rest oldk oldp,
  bytes (cp_ext_sec p) -> (1 <= length (cp_ext_sec p) <= 8)%nat -> bytes (cp_ext_pub p) -> (1 <= length (cp_ext_pub p) <= 8)%nat ->
  Forall (fun c => 0 < c < 128) text -> Z.of_nat (length text) * 733 <= INT_MAX -> wf_key oldk -> wf_pub oldp ->
  (exkey_from_string (text ++ 0 :: rest) (length text) oldk p = UB <-> exists d, bytes d /\ b58_decodes text d /\ (82 < length d)%nat) /\
  (expubkey_from_string (text ++ 0 :: rest) (length text) oldp p = UB <-> exists d, bytes d /\ b58_decodes text d /\ (82 < length d)%nat) /\
  ((exists r, exkey_from_string (text ++ 0 :: rest) (length text) oldk p = Ok r) <-> forall d, bytes d -> b58_decodes text d -> (length d <= 82)%nat) /\
  ((exists r, expubkey_from_string (text ++ 0 :: rest) (length text) oldp p = Ok r) <-> forall d, bytes d -> b58_decodes text d -> (length d <= 82)%nat).
Proof.
  intros p text rest oldk oldp B1 L1 B2 L2 A H Wk Wp.
  assert (V : forall d, bytes d -> b58_decodes text d -> (82 < length d)%nat ->
    exkey_from_string (text ++ 0 :: rest) (length text) oldk p = UB /\ expubkey_from_string (text ++ 0 :: rest) (length text) oldp p = UB)
    by (intros d Bd D L; apply (C70_buffer_overflow_refuted p text rest oldk oldp d); auto; lia).
  assert (W : (forall d, bytes d -> b58_decodes text d -> (length d <= 82)%nat) ->
    (exists r, exkey_from_string (text ++ 0 :: rest) (length text) oldk p = Ok r) /\ (exists r, expubkey_from_string (text ++ 0 :: rest) (length text) oldp p = Ok r))
    by (intros F; apply C70_buffer_partial; auto).
  assert (D : (forall d, bytes d -> b58_decodes text d -> (length d <= 82)%nat) \/ exists d, bytes d /\ b58_decodes text d /\ (82 < length d)%nat).
  { assert (X : forall o, bytes o -> b58_decodes text o -> (forall d, bytes d -> b58_decodes text d -> (length d <= 82)%nat) \/ exists d, bytes d /\ b58_decodes text d /\ (82 < length d)%nat).
    { intros o Bo Do. destruct (Nat.le_gt_cases (length o) 82) as [L|L]; [left|right; eauto]. intros d Bd' D'. now rewrite (b58_decodes_fun text d o Bd' Bo D' Do). }
    destruct (string_decoding text rest A H) as [(data & Bd & Dd & _)|[(out & Bo & Do & _)|[N _]]]; [exact (X _ (cs_bytes _ Bd) Dd)|exact (X _ Bo Do)|].
    left. intros d _ Dd. destruct (N _ Dd). }
  split; [|split; [|split]]; split.
  - intros U. destruct D as [F|E]; [|exact E]. destruct (W F) as [[r R] _]. rewrite R in U. discriminate.
  - intros (d & Bd & Dd & L). apply (V d Bd Dd L).
  - intros U. destruct D as [F|E]; [|exact E]. destruct (W F) as [_ [r R]]. rewrite R in U. discriminate.
  - intros (d & Bd & Dd & L). apply (V d Bd Dd L).
  - intros [r R] d Bd Dd. destruct (Nat.le_gt_cases (length d) 82) as [L|L]; [exact L|]. destruct (V d Bd Dd L) as [V1 _]. rewrite V1 in R. discriminate.
  - intros F. apply (W F).
  - intros [r R] d Bd Dd. destruct (Nat.le_gt_cases (length d) 82) as [L|L]; [exact L|]. destruct (V d Bd Dd L) as [_ V2]. rewrite V2 in R. discriminate.
  - intros F. apply (W F).
Qed.
Print Assumptions C70_overrun_exact.

(** ... among them 83 times the character '1' on any network ... *)
Theorem C70_buffer_ones_refuted : forall p rest oldk oldp, builtin p ->
  exkey_from_string (repeat 49 83 ++ 0 :: rest) 83 oldk p = UB /\ expubkey_from_string (repeat 49 83 ++ 0 :: rest) 83 oldp p = UB.
Proof.
  intros p rest oldk oldp Hp. destruct (builtin_ext p Hp) as (_ & L1 & _ & L2).
  apply (C70_buffer_overflow_refuted p (repeat 49 83) rest oldk oldp (repeat 0 83) ltac:(lia) ltac:(lia)).
  - apply Forall_forall. intros x Hx. apply repeat_spec in Hx. lia.
  - change INT_MAX with 2147483647. rewrite repeat_length. lia.
  - apply Forall_forall. intros x Hx. apply repeat_spec in Hx. unfold is_byte. lia.
  - exists (repeat 49 83). split; [apply trims_self|]. exists 83%nat, [], []. rewrite !app_nil_r.
    split; [reflexivity|]. split; [discriminate|]. split; [|reflexivity]. split; [constructor|]. split; [reflexivity|discriminate].
  - rewrite repeat_length. lia.
Qed.
Print Assumptions C70_buffer_ones_refuted.

(** ... and, for prefixes of five to eight bytes (which the code allows), the library's own strings. *)
Theorem C70_own_strings_refuted : forall p k u oldk oldp rest, bytes (cp_ext_sec p) -> (5 <= length (cp_ext_sec p) <= 8)%nat ->
  bytes (cp_ext_pub p) -> (5 <= length (cp_ext_pub p) <= 8)%nat -> wf_key k -> wf_pub u ->
  (exists text, exkey_to_string k p = Ok (length text, text) /\ exkey_from_string (text ++ 0 :: rest) (length text) oldk p = UB) /\
  (exists text, expubkey_to_string u p = Ok (length text, text) /\ expubkey_from_string (text ++ 0 :: rest) (length text) oldp p = UB).
Proof.
  intros p k u oldk oldp rest B1 L1 B2 L2 Wk Wu.
  assert (X : forall prefix code text, bytes prefix -> (5 <= length prefix <= 8)%nat -> bytes code -> length code = 74%nat ->
     is_base58check (prefix ++ code) text -> (length text <= exkey_string_max_length)%nat ->
     exkey_from_string (text ++ 0 :: rest) (length text) oldk p = UB /\ expubkey_from_string (text ++ 0 :: rest) (length text) oldp p = UB).
  { intros prefix code text Bp Lp Bc Lc B L. change exkey_string_max_length with 120%nat in L.
    eapply C70_buffer_overflow_refuted; [lia|lia|eapply ascii_base58, B|change INT_MAX with 2147483647; lia| |exists text; split; [apply trims_self|exact B]|].
    - apply cs_bytes. now apply bytes_app.
    - rewrite !app_length, checksum4_length. lia. }
  split.
  - destruct (exkey_to_string_ok k p Wk B1 ltac:(lia)) as (text & E & B & L). exists text. split; [exact E|].
    now destruct (X _ _ text B1 L1 (key_layout_bytes k Wk) (key_layout_length k Wk) B L).
  - destruct (expubkey_to_string_ok u p Wu B2 ltac:(lia)) as (text & E & B & L). exists text. split; [exact E|].
    now destruct (X _ _ text B2 L2 (pub_layout_bytes u Wu) (pub_layout_length u Wu) B L).
Qed.
Print Assumptions C70_own_strings_refuted.

(* ---------------------------------------------------------------- *)
(** ** C69: a text accepted under one version prefix is refused under every other of the same length. *)
Lemma prv_accepted p text rest old k : builtin p -> Forall (fun c => 0 < c < 128) text -> Z.of_nat (length text) * 733 <= INT_MAX -> wf_key old ->
  exkey_from_string (text ++ 0 :: rest) (length text) old p = Ok (1, k) ->
  (forall d, bytes d -> b58_decodes text d -> (length d <= 82)%nat) /\ exists code, bytes code /\ base58_address (cp_ext_sec p) code text.
Proof.
  intros Hp A H W R. destruct (builtin_ext p Hp) as (B1 & L1 & _).
  destruct (big_or_fits text rest A H) as [F|(n & out & E & Lo)]; [|rewrite (xprv_overflow _ _ old p n out) in R by (auto; lia); discriminate].
  split; [exact F|]. destruct (C86_exkey_strings p text rest old B1 ltac:(lia) A H W F) as [(k' & x & W' & Bx & Ad & _)|[_ R']].
  - exists (ext_layout (xk_ext k') ++ [x] ++ xk_key k'). split; [|exact Ad].
    apply bytes_app; split; [apply ext_layout_bytes, W'|]. apply byte_cons; [assumption|apply W'].
  - rewrite R' in R. discriminate.
Qed.
Lemma pub_accepted p text rest old k : builtin p -> Forall (fun c => 0 < c < 128) text -> Z.of_nat (length text) * 733 <= INT_MAX -> wf_pub old ->
  expubkey_from_string (text ++ 0 :: rest) (length text) old p = Ok (1, k) ->
  (forall d, bytes d -> b58_decodes text d -> (length d <= 82)%nat) /\ exists code, bytes code /\ base58_address (cp_ext_pub p) code text.
Proof.
  intros Hp A H W R. destruct (builtin_ext p Hp) as (_ & _ & B1 & L1).
  destruct (big_or_fits text rest A H) as [F|(n & out & E & Lo)]; [|rewrite (xpub_overflow _ _ old p n out) in R by (auto; lia); discriminate].
  split; [exact F|]. destruct (C86_expubkey_strings p text rest old B1 ltac:(lia) A H W F) as [(k' & W' & Ad & _)|[_ R']].
  - exists (pub_layout k'). split; [now apply pub_layout_bytes|exact Ad].
  - rewrite R' in R. discriminate.
Qed.
Lemma other_prefix v code text w code' : bytes v -> bytes code -> bytes w -> bytes code' -> length v = length w -> v <> w ->
  base58_address v code text -> ~ base58_address w code' text.
Proof.
  intros Bv Bc Bw Bc' L N A A'. assert (E : v ++ code = w ++ code') by (apply (base58_address_fun _ _ _ _ text); auto; now apply bytes_app).
  now apply app_split_fun in E as [E _].
Qed.
Lemma prv_refused q v code text rest old : builtin q -> Forall (fun c => 0 < c < 128) text -> Z.of_nat (length text) * 733 <= INT_MAX -> wf_key old ->
  (forall d, bytes d -> b58_decodes text d -> (length d <= 82)%nat) -> bytes v -> length v = 4%nat -> bytes code -> base58_address v code text -> v <> cp_ext_sec q ->
  exkey_from_string (text ++ 0 :: rest) (length text) old q = Ok (0, old).
Proof.
  intros Hq A H W F Bv Lv Bc Ad N. destruct (builtin_ext q Hq) as (B1 & L1 & _).
  destruct (C86_exkey_strings q text rest old B1 ltac:(lia) A H W F) as [(k' & x & W' & Bx & Ad' & _)|[_ R']]; [exfalso|exact R'].
  refine (other_prefix v code text _ _ Bv Bc B1 _ ltac:(lia) N Ad Ad'). 
  apply bytes_app; split; [apply ext_layout_bytes, W'|]. apply byte_cons; [assumption|apply W'].
Qed.
Lemma pub_refused q v code text rest old : builtin q -> Forall (fun c => 0 < c < 128) text -> Z.of_nat (length text) * 733 <= INT_MAX -> wf_pub old ->
  (forall d, bytes d -> b58_decodes text d -> (length d <= 82)%nat) -> bytes v -> length v = 4%nat -> bytes code -> base58_address v code text -> v <> cp_ext_pub q ->
  expubkey_from_string (text ++ 0 :: rest) (length text) old q = Ok (0, old).
Proof.
  intros Hq A H W F Bv Lv Bc Ad N. destruct (builtin_ext q Hq) as (_ & _ & B1 & L1).
  destruct (C86_expubkey_strings q text rest old B1 ltac:(lia) A H W F) as [(k' & W' & Ad' & _)|[_ R']]; [exfalso|exact R'].
  exact (other_prefix v code text _ _ Bv Bc B1 (pub_layout_bytes k' W') ltac:(lia) N Ad Ad').
Qed.

(** Whatever text is accepted as a private extended key on one built-in network is refused as a public one on every network,
    and as a private one on the other side of mainnet / not mainnet. *)
Theorem C69_private_text : forall p q text rest old oldk oldp k, builtin p -> builtin q ->
  Forall (fun c => 0 < c < 128) text -> Z.of_nat (length text) * 733 <= INT_MAX -> wf_key old -> wf_key oldk -> wf_pub oldp ->
  exkey_from_string (text ++ 0 :: rest) (length text) old p = Ok (1, k) ->
  expubkey_from_string (text ++ 0 :: rest) (length text) oldp q = Ok (0, oldp) /\
  ((p = mainnet /\ q <> mainnet) \/ (p <> mainnet /\ q = mainnet) -> exkey_from_string (text ++ 0 :: rest) (length text) oldk q = Ok (0, oldk)).
Proof.
  intros p q text rest old oldk oldp k Hp Hq A H Wo Wk Wp R. destruct (prv_accepted p text rest old k Hp A H Wo R) as (F & code & Bc & Ad).
  destruct (builtin_ext p Hp) as (B1 & L1 & _). split.
  - apply (pub_refused q (cp_ext_sec p) code); auto. destruct Hp as [-> | [-> | ->]], Hq as [-> | [-> | ->]]; discriminate.
  - intros Hn. apply (prv_refused q (cp_ext_sec p) code); auto.
    destruct Hp as [-> | [-> | ->]], Hq as [-> | [-> | ->]]; try discriminate; destruct Hn as [[X Y]|[X Y]]; try discriminate; now destruct X || now destruct Y.
Qed.
Print Assumptions C69_private_text.

Theorem C69_public_text : forall p q text rest old oldk oldp k, builtin p -> builtin q ->
  Forall (fun c => 0 < c < 128) text -> Z.of_nat (length text) * 733 <= INT_MAX -> wf_pub old -> wf_key oldk -> wf_pub oldp ->
  expubkey_from_string (text ++ 0 :: rest) (length text) old p = Ok (1, k) ->
  exkey_from_string (text ++ 0 :: rest) (length text) oldk q = Ok (0, oldk) /\
  ((p = mainnet /\ q <> mainnet) \/ (p <> mainnet /\ q = mainnet) -> expubkey_from_string (text ++ 0 :: rest) (length text) oldp q = Ok (0, oldp)).
Proof.
  intros p q text rest old oldk oldp k Hp Hq A H Wo Wk Wp R. destruct (pub_accepted p text rest old k Hp A H Wo R) as (F & code & Bc & Ad).
  destruct (builtin_ext p Hp) as (_ & _ & B1 & L1). split.
  - apply (prv_refused q (cp_ext_pub p) code); auto. destruct Hp as [-> | [-> | ->]], Hq as [-> | [-> | ->]]; discriminate.
  - intros Hn. apply (pub_refused q (cp_ext_pub p) code); auto.
    destruct Hp as [-> | [-> | ->]], Hq as [-> | [-> | ->]]; try discriminate; destruct Hn as [[X Y]|[X Y]]; try discriminate; now destruct X || now destruct Y.
Qed.
Print Assumptions C69_public_text.

(** Testnet and regtest share their version bytes, so their strings are interchangeable (also in Bitcoin Core). *)
Theorem C69_testnet_is_regtest : forall text n oldk oldp,
  exkey_from_string text n oldk testnet = exkey_from_string text n oldk regnet /\ expubkey_from_string text n oldp testnet = expubkey_from_string text n oldp regnet.
Proof. split; reflexivity. Qed.
Print Assumptions C69_testnet_is_regtest.

(* ---------------------------------------------------------------- *)
(** ** C86, the part of the claim that fails: a string whose key data does not start with a zero byte, or holds an invalid key, is accepted. *)
Theorem C86_malformed_accepted_refuted : forall p k x old rest, builtin p -> wf_key k -> wf_key old -> is_byte x ->
  exists text, base58_address (cp_ext_sec p) (ext_layout (xk_ext k) ++ [x] ++ xk_key k) text /\
    exkey_from_string (text ++ 0 :: rest) (length text) old p = Ok (1, k).
Proof.
  intros p k x old rest Hp W Wo Bx. destruct (builtin_ext p Hp) as (B1 & L1 & _). set (code := ext_layout (xk_ext k) ++ [x] ++ xk_key k).
  assert (Bc : bytes code) by (apply bytes_app; split; [apply ext_layout_bytes, W|]; apply byte_cons; [assumption|apply W]).
  assert (Lc : length code = 74%nat).
  { unfold code. rewrite !app_length. rewrite ext_layout_length by apply W. destruct W as (_ & _ & ->). reflexivity. }
  destruct (layout_string (cp_ext_sec p) code B1 ltac:(lia) Bc Lc) as (text & _ & B & L).
  destruct (own_string _ _ text B1 ltac:(lia) Bc Lc B L) as (A & H & Ad & Hd). exists text. split; [exact Ad|].
  destruct (C86_exkey_strings p text rest old B1 ltac:(lia) A H Wo Hd) as [(k' & y & W' & By & Ad' & R)|[N _]].
  - rewrite R. do 2 f_equal. assert (Eq : cp_ext_sec p ++ (ext_layout (xk_ext k') ++ [y] ++ xk_key k') = cp_ext_sec p ++ code).
    { apply (base58_address_fun _ _ _ _ text); [| |exact Ad'|exact Ad]; apply bytes_app; split; auto.
      apply bytes_app; split; [apply ext_layout_bytes, W'|]. apply byte_cons; [assumption|apply W']. }
    apply app_inv_head in Eq. now apply (key_layout_inj y x).
  - exfalso. exact (N _ Bc Lc Ad).
Qed.
Print Assumptions C86_malformed_accepted_refuted.

(* ---------------------------------------------------------------- *)
(** ** A concrete case: BIP-32 test vector 1, chain m. *)
Definition tv1_key : ex_key := mkExKey (mkExt 0 0 0 (be_bytes 32 0x873dff81c02f525623fd1fe5167eac3a55a049de3d314bb42ee227ffed37d508))
  (be_bytes 32 0xe8f32e723decf4051aefac8e2c93c9c5b214313817cdb01a1494b917c8436b35).
Definition tv1_pub : ex_pubkey := mkExPub (xk_ext tv1_key) (be_bytes 33 0x0339a36013301597daef41fbe593a02cc513d0b55527ec2df1050e2e8ff49c85c2).
Example tv1_wf : wf_key tv1_key /\ wf_pub tv1_pub.
Proof. repeat split; try apply be_bytes_bytes; try apply be_bytes_length; cbn; lia. Qed.
(** xprv9s21ZrQH143K3QTDL4LXw2F7HEK3wJUD2nW2nRk4stbPy6cq3jPPqjiChkVvvNKmPGJxWUtg6LnF5kejMRNNU3TGtRBeJgk33yuGBxrMPHi *)
Definition tv1_xprv : list Z :=
  [120; 112; 114; 118; 57; 115; 50; 49; 90; 114; 81; 72; 49; 52; 51; 75; 51; 81; 84; 68; 76; 52; 76; 88; 119; 50; 70; 55; 72; 69; 75; 51; 119; 74; 85; 68; 50; 110; 87; 50; 110; 82; 107; 52; 115; 116; 98; 80; 121; 54; 99; 113; 51; 106; 80; 80; 113; 106; 105; 67; 104; 107; 86; 118; 118; 78; 75; 109; 80; 71; 74; 120; 87; 85; 116; 103; 54; 76; 110; 70; 53; 107; 101; 106; 77; 82; 78; 78; 85; 51; 84; 71; 116; 82; 66; 101; 74; 103; 107; 51; 51; 121; 117; 71; 66; 120; 114; 77; 80; 72; 105].
Example tv1_string : exkey_to_string tv1_key mainnet = Ok (111%nat, tv1_xprv).
Proof. vm_compute. reflexivity. Qed.
