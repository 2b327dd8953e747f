(** C54-C58: DER encodings of private keys and signatures (src/btc/key.c). *)
From Verif Require Import Base S_Words L_Endian M_Endian M_Random M_Secp M_Key S_Secp L_Secp S_Der S_Life L_Der L_Der2.

Lemma ready_sign g : ready g -> has_ctx (g_sign g).
Proof. intros (cs & cv & -> & _). eexists; reflexivity. Qed.
Lemma ready_verify g : ready g -> has_ctx (g_verify g).
Proof. intros (cs & cv & _ & -> & _). eexists; reflexivity. Qed.

(* ---------------------------------------------------------------- *)
(** ** C56: decoding any byte string is defined (every access is inside the [length input] bytes that
    exist) and leaves a signature with both components below the group order. *)
Theorem C56_signature_decode_safe : forall g input, ready g -> bytes input -> Z.of_nat (length input) < 2 ^ 64 ->
  exists ret r s, signature_decode g input (length input) = Ok (ret, (r, s)) /\ (ret = 0 \/ ret = 1) /\
    0 <= r < secp_order /\ 0 <= s < secp_order.
Proof.
  intros g input G B H. unfold signature_decode. change secp_order with secp_n. pose proof n_bound as N.
  destruct (parse_der_lax_ok (g_verify g) input (ready_verify g G) B H) as [(R & S & L & ->)|[_ ->]].
  - assert (BR : bytes R /\ bytes S).
    { destruct L as (f & fR & fS & rest & _ & _ & _ & E). rewrite E in B. apply bytes_cons in B as [_ B]. apply bytes_app in B as [_ B].
      apply bytes_app in B as [B1 B]. apply bytes_app in B as [B2 _]. apply bytes_cons in B1 as [_ B1]. apply bytes_cons in B2 as [_ B2].
      apply bytes_app in B1. apply bytes_app in B2. tauto. }
    destruct BR as [BR BS]. pose proof (be_val_bound R BR). pose proof (be_val_bound S BS).
    unfold sig_of. destruct (Z.ltb_spec (be_val R) secp_n); destruct (Z.ltb_spec (be_val S) secp_n); cbn [andb];
      repeat eexists; auto; lia.
  - repeat eexists; auto; lia.
Qed.
Print Assumptions C56_signature_decode_safe.

(** ** C58: the result 1 is returned exactly on the lenient DER language, and the
    signature is then the pair of integers written there, or zero if one is out of range. *)
Theorem C58_signature_decode_language : forall g input, ready g -> bytes input -> Z.of_nat (length input) < 2 ^ 64 ->
  (exists R S, lax_der input R S /\
     signature_decode g input (length input) =
       Ok (1, if (be_val R <? secp_order) && (be_val S <? secp_order) then (be_val R, be_val S) else (0, 0))) \/
  ((forall R S, ~ lax_der input R S) /\ signature_decode g input (length input) = Ok (0, (0, 0))).
Proof.
  intros g input G B H. change secp_order with secp_n. unfold signature_decode.
  destruct (parse_der_lax_ok (g_verify g) input (ready_verify g G) B H) as [(R & S & L & E)|[N E]]; [left; exists R, S|right]; auto.
Qed.
Print Assumptions C58_signature_decode_language.

(** The two fields are determined by the input, so the meaning above is unambiguous. *)
Theorem C58_lax_der_unambiguous : forall input R S R' S', lax_der input R S -> lax_der input R' S' -> R = R' /\ S = S'.
Proof.
  intros input R S R' S' (f & fR & fS & rest & Hf & HR & HS & E) (f' & fR' & fS' & rest' & Hf' & HR' & HS' & E').
  rewrite E in E'. apply cons_inj in E' as [_ E'].
  destruct (lax_skip_fun _ _ _ _ Hf Hf' E') as [_ E1]. cbn [app] in E1. rewrite <- !app_assoc in E1.
  destruct (integer_fun _ _ _ _ _ _ HR HR' E1) as (_ & -> & E2). cbn [app] in E2. rewrite <- ?app_assoc in E2.
  destruct (integer_fun _ _ _ _ _ _ HS HS' E2) as (_ & -> & _). auto.
Qed.
Print Assumptions C58_lax_der_unambiguous.

Corollary C58_signature_decode_meaning : forall g input R S, ready g -> bytes input -> Z.of_nat (length input) < 2 ^ 64 ->
  lax_der input R S ->
  signature_decode g input (length input) =
    Ok (1, if (be_val R <? secp_order) && (be_val S <? secp_order) then (be_val R, be_val S) else (0, 0)).
Proof.
  intros g input R S G B H L. destruct (C58_signature_decode_language g input G B H) as [(R' & S' & L' & E)|[N _]].
  - destruct (C58_lax_der_unambiguous _ _ _ _ _ L L') as [-> ->]. exact E.
  - exfalso. exact (N _ _ L).
Qed.
Print Assumptions C58_signature_decode_meaning.

(* ---------------------------------------------------------------- *)
(** ** C57: signature round trip *)

Lemma der_of_scalar v : 0 <= v < secp_n -> is_der_int v (der_strip (0 :: be_bytes 32 v)) /\ (length (der_strip (0%Z :: be_bytes 32 v)) <= 33)%nat.
Proof.
  intros H. split.
  - replace v with (be_val (0 :: be_bytes 32 v)) at 1.
    2:{ rewrite be_val_cons, Z.mul_0_l, Z.add_0_l. now apply be32_small. }
    apply der_strip_ok; [constructor; [unfold is_byte; lia|apply be_bytes_bytes]|discriminate|cbn [hd]; lia].
  - pose proof (der_strip_length (0 :: be_bytes 32 v)) as L. cbn [length] in L. rewrite be_bytes_length in L. exact L.
Qed.

(** The encoder writes strict DER of at most 72 bytes, *)
Theorem C57_signature_encode_strict : forall g r s, ready g -> 0 <= r < secp_order -> 0 <= s < secp_order ->
  exists enc, signature_encode g (r, s) = Ok (length enc, enc) /\ strict_der r s enc /\ (length enc <= 72)%nat /\ bytes enc.
Proof.
  intros g r s G Hr Hs. change secp_order with secp_n in *.
  destruct (der_of_scalar r Hr) as [DR LR]. destruct (der_of_scalar s Hs) as [DS LS].
  unfold signature_encode, secp_serialize_der. destruct (ready_sign g G) as [x ->]. cbn [any_ctx bind fst snd].
  set (R := der_strip (0 :: be_bytes 32 r)) in *. set (S := der_strip (0 :: be_bytes 32 s)) in *.
  unfold BTC_SIGNATURE_SIZE. replace (72 <? 6 + length R + length S)%nat with false by (symmetry; apply Nat.ltb_ge; lia).
  eexists. split; [reflexivity|]. split; [exists R, S; auto|].
  split; [rewrite !app_length; cbn [length]; lia|].
  destruct DR as [BR _]. destruct DS as [BS _].
  rewrite !bytes_app. repeat split; auto; repeat constructor; unfold is_byte; lia.
Qed.
Print Assumptions C57_signature_encode_strict.

(** which is unique, *)
Theorem C57_strict_der_unique : forall r s a b, strict_der r s a -> strict_der r s b -> a = b.
Proof.
  intros r s a b (R & S & HR & HS & ->) (R' & S' & HR' & HS' & ->).
  rewrite (der_int_unique _ _ _ HR HR'), (der_int_unique _ _ _ HS HS'). reflexivity.
Qed.
Print Assumptions C57_strict_der_unique.

(** and decoding it, with any garbage behind it, gives the signature back; so does every lenient
    encoding whose fields have the values r and s: superfluous zeros, long length fields, trailing bytes. *)
Theorem C57_signature_roundtrip : forall g r s enc garbage, ready g -> 0 <= r < secp_order -> 0 <= s < secp_order ->
  signature_encode g (r, s) = Ok (length enc, enc) -> bytes garbage -> Z.of_nat (length garbage) < 2 ^ 63 ->
  signature_decode g (enc ++ garbage) (length (enc ++ garbage)) = Ok (1, (r, s)).
Proof.
  intros g r s enc garbage G Hr Hs E Bg Lg.
  destruct (C57_signature_encode_strict g r s G Hr Hs) as (enc' & E' & D & L & B). rewrite E in E'. injection E' as _ <-.
  destruct (strict_lax r s enc garbage D ltac:(lia)) as (R & S & HL & <- & <-).
  rewrite (C58_signature_decode_meaning g (enc ++ garbage) R S G); [|apply bytes_app; auto|rewrite app_length; lia|exact HL].
  replace (be_val R <? secp_order) with true by lia. replace (be_val S <? secp_order) with true by lia. reflexivity.
Qed.
Print Assumptions C57_signature_roundtrip.

Theorem C57_signature_padding : forall g r s f fR fS zR zS R S garbage,
  ready g -> 0 <= r < secp_order -> 0 <= s < secp_order -> be_val R = r -> be_val S = s ->
  lax_skip f -> lax_len (zR + length R) fR -> lax_len (zS + length S) fS ->
  let input := 48 :: f ++ (2 :: fR ++ repeat 0 zR ++ R) ++ (2 :: fS ++ repeat 0 zS ++ S) ++ garbage in
  bytes input -> Z.of_nat (length input) < 2 ^ 64 ->
  signature_decode g input (length input) = Ok (1, (r, s)).
Proof.
  intros g r s f fR fS zR zS R S garbage G Hr Hs VR VS Hf HR HS input B H.
  rewrite (C58_signature_decode_meaning g input (repeat 0 zR ++ R) (repeat 0 zS ++ S) G B H).
  - rewrite !be_val_zeros, VR, VS. replace (r <? secp_order) with true by lia. replace (s <? secp_order) with true by lia. reflexivity.
  - exists f, fR, fS, garbage. rewrite !app_length, !repeat_length. auto.
Qed.
Print Assumptions C57_signature_padding.

(* ---------------------------------------------------------------- *)
(** ** C55: private key decoding *)
Theorem C55_key_decode_language : forall g input, ready g -> bytes input ->
  (exists key, lax_privkey input key /\ scalar (be_val key) /\ key_decode g input = Ok (true, key)) \/
  ((forall key, lax_privkey input key -> ~ scalar (be_val key)) /\ key_decode g input = Ok (false, repeat 0 32)).
Proof. intros g input G B. exact (import_der_ok (g_sign g) input (ready_sign g G) B). Qed.
Print Assumptions C55_key_decode_language.

Theorem C55_key_decode_safe : forall g input, ready g -> bytes input ->
  exists ok out, key_decode g input = Ok (ok, out) /\ length out = 32%nat /\ bytes out /\
    (ok = true -> 0 < be_val out < secp_order) /\ (ok = false -> out = repeat 0 32).
Proof.
  intros g input G B. change secp_order with secp_n. destruct (C55_key_decode_language g input G B) as [(key & L & S & ->)|[_ ->]].
  - exists true, key. destruct L as (f & body & os & rest & _ & Hb & Ho & E & ->).
    split; [reflexivity|]. split; [rewrite app_length, repeat_length; lia|]. split; [|split; [intros _; exact S|discriminate]].
    apply bytes_app. split; [apply bytes_repeat; unfold is_byte; lia|]. rewrite E, Hb in B.
    apply bytes_cons in B as [_ B]. apply bytes_app in B as [_ B]. apply bytes_app in B as [_ B]. apply bytes_app in B. tauto.
  - exists false, (repeat 0 32). split; [reflexivity|]. split; [reflexivity|]. split; [apply bytes_repeat; unfold is_byte; lia|].
    split; [discriminate|reflexivity].
Qed.
Print Assumptions C55_key_decode_safe.

(* ---------------------------------------------------------------- *)
(** ** C54: private key encoding *)

Lemma tlv_middle (c : bool) key pub : length key = 32%nat -> length pub = (if c then 33%nat else 65%nat) ->
  ec_private_key key pub c = (if c then der_begin_c else der_begin_u) ++ key ++ (if c then der_middle_c else der_middle_u) ++ pub.
Proof.
  intros Lk Lp.
  do 32 (destruct key as [|? key]; [discriminate|]). destruct key; [|discriminate]. clear Lk.
  destruct c; cbn [length] in Lp.
  - do 33 (destruct pub as [|? pub]; [discriminate|]). destruct pub; [|discriminate]. vm_compute. reflexivity.
  - do 65 (destruct pub as [|? pub]; [discriminate|]). destruct pub; [|discriminate]. vm_compute. reflexivity.
Qed.

Lemma store_at pre old post bs : length bs = length old -> store (pre ++ old ++ post) (length pre) bs = Ok (pre ++ bs ++ post).
Proof.
  intros L. rewrite store_ok by (rewrite !app_length; lia).
  rewrite firstn_app_exact. do 3 f_equal. rewrite L, <- app_length, app_assoc. apply skipn_app_exact.
Qed.

(** Both formats are the SEC 1 ECPrivateKey structure with the explicit parameters of
    secp256k1 and the public key; exactly the announced number of bytes is written. *)
Theorem C54_key_encode_layout : forall E g compressed key krest out, secp_laws E -> ready g ->
  bytes key -> length key = 32%nat -> 0 < be_val key < secp_order ->
  let len := if compressed : bool then 214%nat else 279%nat in (len <= length out)%nat ->
  exists enc, enc = ec_private_key key (ser E compressed (pub_of E (be_val key))) compressed /\ length enc = len /\ bytes enc /\
    key_encode E g (key ++ krest) out len = Ok (true, enc ++ skipn len out).
Proof.
  intros E g c key krest out Laws G Bk Lk Sk len Lo. set (P := pub_of E (be_val key)).
  set (pub := ser E c P).
  assert (Lp : length pub = if c then 33%nat else 65%nat) by (unfold pub; destruct c; [apply (law_ser33 E Laws)|apply (law_ser65 E Laws)]).
  assert (Bp : bytes pub) by (unfold pub; destruct c; [apply (law_ser33 E Laws)|apply (law_ser65 E Laws)]).
  exists (ec_private_key key pub c). split; [reflexivity|].
  rewrite (tlv_middle c key pub Lk Lp).
  set (beg := if c then der_begin_c else der_begin_u). set (mid := if c then der_middle_c else der_middle_u).
  assert (Lall : (length beg + 32 + length mid + length pub)%nat = len) by (unfold beg, mid, len; rewrite Lp; destruct c; reflexivity).
  split; [rewrite !app_length, Lk; lia|].
  split.
  { assert (bytes beg /\ bytes mid).
    { unfold beg, mid, bytes. split; apply Forall_forall; intros x Hx;
      [assert (Fb : forallb is_byteb (if c then der_begin_c else der_begin_u) = true) by (destruct c; reflexivity)
      |assert (Fb : forallb is_byteb (if c then der_middle_c else der_middle_u) = true) by (destruct c; reflexivity)];
      rewrite forallb_forall in Fb; specialize (Fb x Hx); unfold is_byteb in Fb; unfold is_byte; lia. }
    rewrite !bytes_app. tauto. }
  unfold key_encode. destruct G as (cs & cv & Gs & Gv & Cs & Cv). rewrite Gs.
  replace ((len =? BTC_PRIVATE_KEY_SIZE) || (len =? BTC_COMPRESSED_PRIVATE_KEY_SIZE))%nat with true by (unfold len; now destruct c).
  cbn [c_assert bind]. replace (len =? BTC_COMPRESSED_PRIVATE_KEY_SIZE)%nat with c by (unfold len; now destruct c).
  unfold export_der, secp_pubkey_create, sign_ctx. rewrite Cs. cbn [c_assert bind].
  rewrite slice_ok by (rewrite app_length; lia). cbn [skipn]. rewrite <- Lk at 1. rewrite firstn_app_exact. cbn [bind].
  change secp_order with secp_n in Sk. replace ((0 <? be_val key) && (be_val key <? secp_n)) with true by lia.
  assert (Tup : (if c then (der_begin_c, der_middle_c, BTC_COMPRESSED_PUBLIC_KEY_SIZE, BTC_COMPRESSED_PRIVATE_KEY_SIZE)
        else (der_begin_u, der_middle_u, BTC_PUBLIC_KEY_SIZE, BTC_PRIVATE_KEY_SIZE)) = (beg, mid, length pub, len)).
  { unfold beg, mid, len. rewrite Lp. now destruct c. }
  rewrite Tup. rewrite Nat.leb_refl. cbn [c_assert bind].
  destruct (firstn_skipn_len len out Lo) as (o & post & -> & Lo'). rewrite <- Lo'. rewrite skipn_app_exact.
  destruct (firstn_skipn_len (length beg) o) as (o1 & o' & -> & L1); [lia|]. rewrite app_length in Lo'.
  destruct (firstn_skipn_len 32 o') as (o2 & o'' & -> & L2); [lia|]. rewrite app_length in Lo'.
  destruct (firstn_skipn_len (length mid) o'') as (o3 & o4 & -> & L3); [lia|]. rewrite app_length in Lo'.
  rewrite <- !app_assoc.
  assert (St0 : store (o1 ++ o2 ++ o3 ++ o4 ++ post) 0 beg = Ok (beg ++ o2 ++ o3 ++ o4 ++ post)) by (apply (store_at [] o1 (o2 ++ o3 ++ o4 ++ post) beg); lia).
  rewrite St0. cbn [bind].
  replace (firstn 32 (key ++ krest)) with key by (rewrite <- Lk; now rewrite firstn_app_exact). cbn [bind].
  rewrite store_at by lia. cbn [bind].
  replace (length beg + 32)%nat with (length (beg ++ key)) by (rewrite app_length; lia).
  replace (beg ++ key ++ o3 ++ o4 ++ post) with ((beg ++ key) ++ o3 ++ o4 ++ post) by (now rewrite <- app_assoc).
  rewrite store_at by lia. cbn [bind].
  unfold secp_pubkey_serialize. cbn [any_ctx bind]. rewrite Lp. replace ((if c then 33 else 65) <=? (if c then 33 else 65))%nat with true by (symmetry; apply Nat.leb_refl).
  cbn [c_assert bind]. fold P. fold pub.
  replace ((beg ++ key) ++ mid ++ o4 ++ post) with (((beg ++ key) ++ mid) ++ o4 ++ post) by (now rewrite <- !app_assoc).
  rewrite <- app_length. rewrite store_at by lia. cbn [bind].
  assert (Lfin : (length ((beg ++ key) ++ mid) + length pub)%nat = len) by (rewrite !app_length; lia).
  rewrite Lfin. replace (length (o1 ++ o2 ++ o3 ++ o4)) with len by (rewrite !app_length; lia).
  rewrite Nat.eqb_refl. cbn [c_assert bind]. rewrite Nat.eqb_refl. cbn [c_assert bind]. now rewrite <- !app_assoc.
Qed.
Print Assumptions C54_key_encode_layout.

(** decoding it, with anything behind it, gives the key back. *)
Theorem C54_key_roundtrip : forall E g (compressed : bool) key krest out trailing, secp_laws E -> ready g ->
  bytes key -> length key = 32%nat -> 0 < be_val key < secp_order -> bytes trailing ->
  let len := if compressed then 214%nat else 279%nat in length out = len ->
  exists enc, key_encode E g (key ++ krest) out len = Ok (true, enc) /\ length enc = len /\
    key_decode g (enc ++ trailing) = Ok (true, key).
Proof.
  intros E g c key krest out trailing Laws G Bk Lk Sk Bt len Lo.
  destruct (C54_key_encode_layout E g c key krest out Laws G Bk Lk Sk) as (enc & Hl & L & Be & En); [unfold len in Lo; lia|]. fold len in L, En.
  exists enc. rewrite <- Lo in En at 2. rewrite skipn_all, app_nil_r in En. split; [exact En|]. split; [exact L|].
  assert (Hx : lax_privkey (enc ++ trailing) key).
  { assert (Lp : length (ser E c (pub_of E (be_val key))) = if c then 33%nat else 65%nat) by (destruct c; [apply (law_ser33 E Laws)|apply (law_ser65 E Laws)]).
    rewrite tlv_middle in Hl by assumption. set (pub := ser E c (pub_of E (be_val key))) in *.
    destruct c.
    - exists [0x81; 0xD3], ([2; 1; 1; 4; 32] ++ key ++ (der_middle_c ++ pub ++ trailing)), key, (der_middle_c ++ pub ++ trailing).
      rewrite Lk. split; [left; exists 0xD3; split; [reflexivity|]|].
      { rewrite !app_length. rewrite Lk, Lp. change (length der_middle_c) with 141%nat. cbn [length]. lia. }
      split; [reflexivity|]. split; [lia|]. split; [|reflexivity].
      rewrite Hl. rewrite <- !app_assoc. reflexivity.
    - exists [0x82; 0x01; 0x13], ([2; 1; 1; 4; 32] ++ key ++ (der_middle_u ++ pub ++ trailing)), key, (der_middle_u ++ pub ++ trailing).
      rewrite Lk. split; [right; exists 1, 0x13; split; [reflexivity|]|].
      { rewrite !app_length. rewrite Lk, Lp. change (length der_middle_u) with 173%nat. cbn [length]. lia. }
      split; [reflexivity|]. split; [lia|]. split; [|reflexivity].
      rewrite Hl. rewrite <- !app_assoc. reflexivity. }
  destruct (C55_key_decode_language g (enc ++ trailing) G) as [(k & Hk & _ & ->)|[N _]]; [apply bytes_app; auto| |].
  - (* the key is determined *)
    destruct Hx as (f & b & os & r & F & Hb & Lo1 & E1 & ->). destruct Hk as (f' & b' & os' & r' & F' & Hb' & Lo2 & E2 & ->).
    rewrite E1 in E2. apply cons_inj in E2 as [_ E2].
    assert (f = f').
    { destruct F as [(x & -> & _)|(x & y & -> & _)], F' as [(x' & -> & _)|(x' & y' & -> & _)]; cbn [app] in E2;
        apply cons_inj in E2 as [? E2]; try discriminate; apply cons_inj in E2 as [-> E2]; [reflexivity|apply cons_inj in E2 as [-> E2]; reflexivity]. }
    subst f'. apply app_inv_head in E2. rewrite Hb, Hb' in E2. cbn [app] in E2. do 4 apply cons_inj in E2 as [_ E2]. apply cons_inj in E2 as [Eo E2].
    apply Nat2Z.inj in Eo. apply app_split_fun in E2 as [-> _]; auto.
  - exfalso. change secp_order with secp_n in Sk. apply (N key Hx Sk).
Qed.
Print Assumptions C54_key_roundtrip.

(** An invalid secret key is not encoded: the program aborts. *)
Theorem C54_key_encode_invalid : forall E g key out (compressed : bool), ready g -> (32 <= length key)%nat ->
  ~ 0 < be_val (firstn 32 key) < secp_order ->
  key_encode E g key out (if compressed then 214%nat else 279%nat) = Abort.
Proof.
  intros E g key out c (cs & cv & Gs & Gv & Cs & Cv) Lk N. change secp_order with secp_n in N. unfold key_encode. rewrite Gs.
  replace (_ || _)%bool with true by now destruct c. cbn [c_assert bind]. unfold export_der, secp_pubkey_create, sign_ctx. rewrite Cs. cbn [c_assert bind].
  rewrite slice_ok by lia. cbn [skipn bind]. replace ((0 <? be_val (firstn 32 key)) && (be_val (firstn 32 key) <? secp_n)) with false by lia.
  cbn [bind]. now destruct c.
Qed.
Print Assumptions C54_key_encode_invalid.

(* ---------------------------------------------------------------- *)
(** ** Concrete cases *)
Definition ready_example : globals := mkGlobals (Some (mkCtx true false 1)) (Some (mkCtx false true 0)).
Example ready_example_ok : ready ready_example.
Proof. exists (mkCtx true false 1), (mkCtx false true 0). repeat split; reflexivity. Qed.
Example sig_example : signature_encode ready_example (255, 5) = Ok (9%nat, [48; 7; 2; 2; 0; 255; 2; 1; 5]).
Proof. vm_compute. reflexivity. Qed.
(** long-form sequence length, padded R with long-form length, S over the order, garbage *)
Example lax_example : signature_decode ready_example ([48; 130; 9; 9] ++ [2; 129; 3; 0; 0; 7] ++ [2; 1; 5] ++ [1; 2; 3]) 16 = Ok (1, (7, 5)).
Proof. vm_compute. reflexivity. Qed.
Example lax_overflow_example : signature_decode ready_example ([48; 0; 2; 1; 7; 2; 32] ++ repeat 255 32) 39 = Ok (1, (0, 0)).
Proof. vm_compute. reflexivity. Qed.
Example privkey_example : ('(_, out) <- key_encode toy ready_example (be_bytes 32 77) (repeat 0 214) 214 ;; key_decode ready_example out)
  = Ok (true, be_bytes 32 77).
Proof. vm_compute. reflexivity. Qed.
Example privkey_short_example : key_decode ready_example ([48; 129; 6] ++ [2; 1; 1; 4; 1; 77]) = Ok (true, be_bytes 32 77).
Proof. vm_compute. reflexivity. Qed.
