(** Lemmas about the model of src/btc/exkey.c: serialisation and strings. *)
From Verif Require Import Base S_Words L_Endian M_Endian M_Hash M_Base58 S_Base58 L_Base58 M_Base58Check S_Base58Check L_Base58Check P_Base58Check
  S_Address M_Address L_Address M_Random M_Secp M_Key M_Exkey S_Key S_Exkey L_KeyStr P_Random P_Wif L_Der.

Lemma ext_layout_length e : length (x_chain_code e) = 32%nat -> length (ext_layout e) = 41%nat.
Proof. intros H. unfold ext_layout. rewrite !app_length, le_bytes_length, be_bytes_length, H. reflexivity. Qed.
Lemma ext_layout_bytes e : wf_ext e -> bytes (ext_layout e).
Proof.
  intros (D & _ & _ & B & _). unfold ext_layout. apply bytes_app; split; [repeat constructor; unfold is_byte; lia|].
  apply bytes_app; split; [apply le_bytes_bytes|]. apply bytes_app; split; [apply be_bytes_bytes|exact B].
Qed.

Lemma write_at_app a m w : write_at (a ++ m) (length a) w = (tl <- w m ;; Ok (a ++ tl)).
Proof. unfold write_at. now rewrite skipn_app_exact, firstn_app_exact. Qed.
Lemma store_app a m bs : (length bs <= length m)%nat -> store (a ++ m) (length a) bs = Ok (a ++ bs ++ skipn (length bs) m).
Proof.
  intros H. rewrite store_ok by (rewrite app_length; lia). rewrite firstn_app_exact. rewrite skipn_app. rewrite skipn_all2 by lia.
  cbn [app]. do 4 f_equal. lia.
Qed.

Lemma store_appn n a m bs : length a = n -> (length bs <= length m)%nat -> store (a ++ m) n bs = Ok (a ++ bs ++ skipn (length bs) m).
Proof. intros <-. apply store_app. Qed.

Lemma host_le4 v : host_bytes 4 (htole32 v) = le_bytes 4 v.
Proof. apply host_bytes_le. Qed.
Lemma host_be4 v : host_bytes 4 (htobe32 v) = be_bytes 4 v.
Proof. unfold htobe32. apply htobe_bytes. Qed.

Lemma skipn_skipn' {A} a b (l : list A) : skipn a (skipn b l) = skipn (b + a) l.
Proof. apply L_Md.skipn_skipn. Qed.

Lemma write_ext_ok e code : wf_ext e -> (41 <= length code)%nat -> write_key_extension e code = Ok (ext_layout e ++ skipn 41 code).
Proof.
  intros (D & F & C & B & L) H. unfold write_key_extension, u8. rewrite Z.mod_small by lia.
  rewrite store0 by (cbn [length]; lia). cbn [bind]. change (length [x_depth e]) with 1%nat.
  rewrite (write_at_app [x_depth e] (skipn 1 code) : forall w, write_at ([x_depth e] ++ skipn 1 code) 1 w = _). unfold write_little_32. rewrite host_le4.
  rewrite store0 by (rewrite le_bytes_length, skipn_length; lia). cbn [bind]. rewrite le_bytes_length, skipn_skipn'. change (1 + 4)%nat with 5%nat.
  rewrite app_assoc. set (a := [x_depth e] ++ le_bytes 4 (x_fingerprint e)).
  assert (La : length a = 5%nat) by reflexivity.
  rewrite <- La at 1. rewrite write_at_app. unfold write_big_32. rewrite host_be4.
  rewrite store0 by (rewrite be_bytes_length, skipn_length; lia). cbn [bind]. rewrite be_bytes_length, skipn_skipn'. change (5 + 4)%nat with 9%nat.
  rewrite slice_ok by lia. rewrite skipn_O, firstn_all2 by lia. cbn [bind].
  rewrite app_assoc. set (b := a ++ be_bytes 4 (x_child e)).
  assert (Lb : length b = 9%nat) by (unfold b; rewrite app_length, be_bytes_length; lia).
  rewrite <- Lb at 1. rewrite store_app by (rewrite skipn_length; lia). rewrite L, skipn_skipn'. change (9 + 32)%nat with 41%nat.
  unfold ext_layout, b, a. now rewrite <- !app_assoc.
Qed.

(** Reading: any 41 bytes are the layout of exactly one extension. *)
Lemma split_at {A} n (l : list A) : (n <= length l)%nat -> exists a b, l = a ++ b /\ length a = n.
Proof. intros H. exists (firstn n l), (skipn n l). split; [now rewrite firstn_skipn|]. rewrite firstn_length. lia. Qed.

Lemma skipn_at {A} n (a b : list A) : length a = n -> skipn n (a ++ b) = b.
Proof. intros <-. apply skipn_app_exact. Qed.
Lemma firstn_at {A} n (a b : list A) : length a = n -> firstn n (a ++ b) = a.
Proof. intros <-. apply firstn_app_exact. Qed.

Lemma read_ext_ok code old : bytes (firstn 41 code) -> (41 <= length code)%nat -> length (x_chain_code old) = 32%nat ->
  exists e, read_key_extension code old = Ok e /\ wf_ext e /\ code = ext_layout e ++ skipn 41 code.
Proof.
  intros B H Lo. destruct code as [|d code]; [cbn in H; lia|]. cbn [length] in H.
  destruct (split_at 4 code ltac:(lia)) as (f & t & -> & Lf). rewrite app_length in H.
  destruct (split_at 4 t ltac:(lia)) as (c & t2 & -> & Lc). rewrite app_length in H.
  destruct (split_at 32 t2 ltac:(lia)) as (cc & rest & -> & Lcc). rewrite app_length in H.
  assert (B0 : bytes (d :: f ++ c ++ cc)).
  { replace (firstn 41 (d :: f ++ c ++ cc ++ rest)) with (d :: f ++ c ++ cc) in B; [exact B|].
    replace (d :: f ++ c ++ cc ++ rest) with ((d :: f ++ c ++ cc) ++ rest) by (cbn [app]; now rewrite <- !app_assoc).
    replace 41%nat with (length (d :: f ++ c ++ cc)) by (cbn [length]; rewrite !app_length; lia). now rewrite firstn_app_exact. }
  inversion B0 as [|? ? Bd B']; subst. apply bytes_app in B' as [Bf B']. apply bytes_app in B' as [Bc Bcc].
  unfold read_key_extension. cbn [rd nth_error bind]. 
  replace (skipn 1 (d :: f ++ c ++ cc ++ rest)) with (f ++ c ++ cc ++ rest) by reflexivity.
  replace (skipn 5 (d :: f ++ c ++ cc ++ rest)) with (c ++ cc ++ rest).
  2:{ symmetry. apply (skipn_at 5 (d :: f) (c ++ cc ++ rest)). cbn [length]. lia. }
  unfold read_little_32, read_big_32. rewrite (slice_ok (f ++ _)) by (rewrite app_length; lia). rewrite (slice_ok (c ++ _)) by (rewrite app_length; lia).
  rewrite !skipn_O. cbn [bind].
  replace (firstn 4 (f ++ c ++ cc ++ rest)) with f by (symmetry; now apply firstn_at).
  replace (firstn 4 (c ++ cc ++ rest)) with c by (symmetry; now apply firstn_at).
  rewrite slice_ok by (cbn [length]; rewrite !app_length; lia). cbn [bind].
  replace (firstn 32 (skipn 9 (d :: f ++ c ++ cc ++ rest))) with cc.
  2:{ rewrite (app_assoc f c). change (d :: (f ++ c) ++ cc ++ rest) with ((d :: f ++ c) ++ cc ++ rest). rewrite skipn_at by (cbn [length]; rewrite app_length; lia).
      symmetry. now apply firstn_at. }
  rewrite store0 by lia. cbn [bind]. rewrite (skipn_all2 (n := length cc)) by lia. rewrite app_nil_r.
  unfold htole32, htobe32. rewrite (host_val_le f Bf).
  replace (host_val (rev (host_bytes 4 (host_val c)))) with (be_val c) by (rewrite <- Lc at 1; symmetry; now apply htobe_val).
  eexists. split; [reflexivity|].
  pose proof (le_val_bound f Bf) as Vf. pose proof (be_val_bound c Bc) as Vc. rewrite Lf in Vf. rewrite Lc in Vc.
  split; [repeat split; cbn [x_depth x_fingerprint x_child x_chain_code]; auto; try lia; apply Bd|].
  unfold ext_layout. cbn [x_depth x_fingerprint x_child x_chain_code].
  rewrite <- Lf at 1. rewrite le_bytes_le_val by assumption. rewrite <- Lc at 1. rewrite be_bytes_be_val by assumption.
  rewrite <- !app_assoc. cbn [app]. f_equal. f_equal. f_equal. f_equal.
  rewrite (app_assoc c cc), (app_assoc f (c ++ cc)). symmetry. apply (skipn_at 41 (d :: f ++ c ++ cc) rest). cbn [length]. rewrite !app_length. lia.
Qed.

Lemma ext_layout_inj e e' r r' : wf_ext e -> wf_ext e' -> ext_layout e ++ r = ext_layout e' ++ r' -> e = e' /\ r = r'.
Proof.
  destruct e as [d f c cc], e' as [d' f' c' cc']. intros (D & F & C & B & L) (D' & F' & C' & B' & L') H. cbn [x_depth x_fingerprint x_child x_chain_code] in *.
  unfold ext_layout in H. cbn [x_depth x_fingerprint x_child x_chain_code] in H. rewrite <- !app_assoc in H. apply app_split_fun in H as [Hd H]; [|reflexivity]. injection Hd as ->.
  apply app_split_fun in H as [Hf H]; [|now rewrite !le_bytes_length]. apply app_split_fun in H as [Hc H]; [|now rewrite !be_bytes_length].
  apply app_split_fun in H as [-> ->]; [|lia].
  apply (f_equal le_val) in Hf. apply (f_equal be_val) in Hc. rewrite !le_val_le_bytes, !Z.mod_small in Hf by lia. rewrite !be_val_be_bytes, !Z.mod_small in Hc by lia.
  now subst.
Qed.

(* ---- the four codecs ---- *)
Lemma exkey_encode_ok k code : wf_key k -> (74 <= length code)%nat -> exkey_encode k code = Ok (key_layout k ++ skipn 74 code).
Proof.
  intros (We & Bk & Lk) H. pose proof (ext_layout_length _ (proj2 (proj2 (proj2 (proj2 We))))) as Le. unfold exkey_encode. rewrite write_ext_ok by (auto; lia). cbn [bind].
  rewrite (store_appn 41 _ _ _ Le) by (rewrite skipn_length; cbn [length]; lia). cbn [bind].
  rewrite slice_ok by lia. rewrite skipn_O, firstn_all2 by lia. cbn [bind]. change (length [0]) with 1%nat. rewrite skipn_skipn'.
  rewrite app_assoc.
  rewrite store_appn by (rewrite ?app_length, ?Le, ?skipn_length; cbn [length]; lia). rewrite Lk, skipn_skipn'.
  unfold key_layout. now rewrite <- !app_assoc.
Qed.
Lemma expubkey_encode_ok k code : wf_pub k -> (74 <= length code)%nat -> expubkey_encode k code = Ok (pub_layout k ++ skipn 74 code).
Proof.
  intros (We & Bk & Lk) H. pose proof (ext_layout_length _ (proj2 (proj2 (proj2 (proj2 We))))) as Le. unfold expubkey_encode. rewrite write_ext_ok by (auto; lia). cbn [bind].
  rewrite slice_ok by lia. rewrite skipn_O, firstn_all2 by lia. cbn [bind].
  rewrite (store_appn 41 _ _ _ Le) by (rewrite skipn_length; lia). rewrite Lk, skipn_skipn'.
  unfold pub_layout. now rewrite <- !app_assoc.
Qed.

Lemma exkey_decode_ok code rest old : bytes code -> length code = 74%nat -> wf_key old ->
  exists k x, exkey_decode (code ++ rest) old = Ok k /\ wf_key k /\ code = ext_layout (xk_ext k) ++ [x] ++ xk_key k.
Proof.
  intros B L ((_ & _ & _ & _ & Lo) & _ & Lk). unfold exkey_decode.
  destruct (read_ext_ok (code ++ rest) (xk_ext old)) as (e & E & We & Ec); [rewrite firstn_app_le by lia; now apply bytes_firstn|rewrite app_length; lia|exact Lo|].
  rewrite E. cbn [bind]. rewrite slice_app by lia. cbn [bind].
  rewrite skipn_app_le in Ec by lia. rewrite app_assoc in Ec. apply app_inv_tail in Ec.
  pose proof (ext_layout_length _ (proj2 (proj2 (proj2 (proj2 We))))) as Le.
  assert (Lt : length (skipn 41 code) = 33%nat) by (rewrite skipn_length; lia).
  replace (skipn 42 code) with (skipn 1 (skipn 41 code)) by (rewrite skipn_skipn'; reflexivity).
  assert (Bt : bytes (skipn 41 code)) by now apply bytes_skipn.
  destruct (skipn 41 code) as [|x t] eqn:Et; [discriminate|]. injection Lt as Lt. cbn [skipn]. rewrite firstn_all2 by lia.
  rewrite store0 by lia. cbn [bind]. rewrite skipn_all2, app_nil_r by lia.
  exists (mkExKey e t), x. split; [reflexivity|]. assert (Bt' : bytes t) by (inversion Bt; assumption). split; [split; [exact We|]; auto|exact Ec].
Qed.
Lemma expubkey_decode_ok code rest old : bytes code -> length code = 74%nat -> wf_pub old ->
  exists k, expubkey_decode (code ++ rest) old = Ok k /\ wf_pub k /\ code = pub_layout k.
Proof.
  intros B L ((_ & _ & _ & _ & Lo) & _ & Lk). unfold expubkey_decode.
  destruct (read_ext_ok (code ++ rest) (xp_ext old)) as (e & E & We & Ec); [rewrite firstn_app_le by lia; now apply bytes_firstn|rewrite app_length; lia|exact Lo|].
  rewrite E. cbn [bind]. rewrite slice_app by lia. cbn [bind].
  rewrite skipn_app_le in Ec by lia. rewrite app_assoc in Ec. apply app_inv_tail in Ec.
  assert (Lt : length (skipn 41 code) = 33%nat) by (rewrite skipn_length; lia).
  rewrite firstn_all2 by lia. rewrite store0 by lia. cbn [bind]. rewrite (skipn_all2 (n := length (skipn 41 code))) by lia. rewrite app_nil_r.
  exists (mkExPub e (skipn 41 code)). split; [reflexivity|]. split; [split; [exact We|]; split; [now apply bytes_skipn|exact Lt]|exact Ec].
Qed.

Lemma key_layout_inj x y k k' : wf_key k -> wf_key k' -> ext_layout (xk_ext k) ++ [x] ++ xk_key k = ext_layout (xk_ext k') ++ [y] ++ xk_key k' -> k = k' /\ x = y.
Proof.
  destruct k as [e t], k' as [e' t']. cbn [xk_ext xk_key]. intros (W & _) (W' & _) H. cbn [xk_ext] in W, W'. apply ext_layout_inj in H as [-> H]; auto.
  injection H as -> ->. auto.
Qed.
Lemma pub_layout_inj k k' : wf_pub k -> wf_pub k' -> pub_layout k = pub_layout k' -> k = k'.
Proof.
  destruct k as [e t], k' as [e' t']. unfold pub_layout. cbn [xp_ext xp_c_pubkey]. intros (W & _) (W' & _) H. cbn [xp_ext] in W, W'. apply ext_layout_inj in H as [-> ->]; auto.
Qed.
Lemma key_layout_length k : wf_key k -> length (key_layout k) = 74%nat.
Proof. intros ((_ & _ & _ & _ & L) & _ & Lk). unfold key_layout. rewrite !app_length, ext_layout_length, Lk by assumption. reflexivity. Qed.
Lemma pub_layout_length k : wf_pub k -> length (pub_layout k) = 74%nat.
Proof. intros ((_ & _ & _ & _ & L) & _ & Lk). unfold pub_layout. rewrite !app_length, ext_layout_length, Lk by assumption. reflexivity. Qed.
Lemma key_layout_bytes k : wf_key k -> bytes (key_layout k).
Proof. intros (W & B & _). unfold key_layout. apply bytes_app; split; [now apply ext_layout_bytes|]. apply bytes_app; split; [repeat constructor; unfold is_byte; lia|exact B]. Qed.
Lemma pub_layout_bytes k : wf_pub k -> bytes (pub_layout k).
Proof. intros (W & B & _). unfold pub_layout. apply bytes_app; split; [now apply ext_layout_bytes|exact B]. Qed.

(* ---- strings: what from_string does with decoded data that fits ---- *)
Lemma prefix_cases (prefix data : list Z) : (length prefix <= length data)%nat -> bytes_eqb (firstn (length prefix) data) prefix = true ->
  data = prefix ++ skipn (length prefix) data.
Proof. intros L H. apply bytes_eqb_eq in H. rewrite <- H at 1. now rewrite firstn_skipn. Qed.


Lemma xprv_fits text n old param data tail :
  let prefix := cp_ext_sec param in
  (1 <= length prefix <= 8)%nat -> (length data + length tail <= 82)%nat ->
  from_base58_check text n = Ok (length data, data ++ tail) ->
  (exists code, length code = 74%nat /\ data = prefix ++ code /\
     exkey_from_string text n old param = (k <- exkey_decode (code ++ tail ++ uninit (82 - length (data ++ tail))) old ;; Ok (1, k))) \/
  ((forall code, length code = 74%nat -> data <> prefix ++ code) /\ exkey_from_string text n old param = Ok (0, old)).
Proof.
  intros prefix Lp Hd E. unfold exkey_from_string. fold prefix. replace (length prefix <=? 8)%nat with true by lia. cbn [c_assert bind]. rewrite E. cbn [bind].
  unfold BIP32_EXTKEY_SIZE. change (74 + 8)%nat with 82%nat. rewrite store_into_small by (rewrite app_length; exact Hd). cbn [bind].
  replace (length data <=? 82)%nat with true by lia. cbn [c_assert bind].
  destruct (Nat.leb_spec (length data) 74) as [H74|H74]; cbn [orb].
  { right. split; [|reflexivity]. intros code Lc ->. rewrite app_length in H74. lia. }
  replace (82 <? length data)%nat with false by lia.
  destruct (Nat.eqb_spec (length data - 74) (length prefix)) as [EL|EL]; cbn [negb].
  2:{ right. split; [|reflexivity]. intros code Lc ->. rewrite app_length in EL. lia. }
  rewrite EL. rewrite <- app_assoc. rewrite slice_app by lia. rewrite skipn_O. cbn [bind].
  destruct (bytes_eqb (firstn (length prefix) data) prefix) eqn:Eb; cbn [negb].
  - left. exists (skipn (length prefix) data). assert (Ed := prefix_cases prefix data ltac:(lia) Eb).
    split; [rewrite skipn_length; lia|]. split; [exact Ed|]. rewrite skipn_app_le by lia.
    destruct (exkey_decode _ old); cbn [bind]; try reflexivity.
    unfold cleanse. rewrite store_ok; [reflexivity|]. rewrite repeat_length, !app_length, uninit_length. lia.
  - right. split; [|reflexivity]. intros code Lc ->. rewrite firstn_app_exact, (proj2 (bytes_eqb_eq _ _) eq_refl) in Eb. discriminate.
Qed.
Lemma xprv_reject text n old param out : (length (cp_ext_sec param) <= 8)%nat -> (length out <= 82)%nat ->
  from_base58_check text n = Ok (0%nat, out) -> exkey_from_string text n old param = Ok (0, old).
Proof.
  intros Lp Lo E. unfold exkey_from_string. replace (length (cp_ext_sec param) <=? 8)%nat with true by lia. cbn [c_assert bind]. rewrite E. cbn [bind].
  unfold BIP32_EXTKEY_SIZE. change (74 + 8)%nat with 82%nat. rewrite store_into_small by exact Lo. reflexivity.
Qed.
Lemma xprv_overflow text n old param m out : (length (cp_ext_sec param) <= 8)%nat -> (82 < length out)%nat ->
  from_base58_check text n = Ok (m, out) -> exkey_from_string text n old param = UB.
Proof.
  intros Lp Lo E. unfold exkey_from_string. replace (length (cp_ext_sec param) <=? 8)%nat with true by lia. cbn [c_assert bind]. rewrite E. cbn [bind].
  unfold BIP32_EXTKEY_SIZE. change (74 + 8)%nat with 82%nat. rewrite store_into_big by exact Lo. reflexivity.
Qed.

Lemma xpub_fits text n old param data tail :
  let prefix := cp_ext_pub param in
  (1 <= length prefix <= 8)%nat -> (length data + length tail <= 82)%nat ->
  from_base58_check text n = Ok (length data, data ++ tail) ->
  (exists code, length code = 74%nat /\ data = prefix ++ code /\
     expubkey_from_string text n old param = (k <- expubkey_decode (code ++ tail ++ uninit (82 - length (data ++ tail))) old ;; Ok (1, k))) \/
  ((forall code, length code = 74%nat -> data <> prefix ++ code) /\ expubkey_from_string text n old param = Ok (0, old)).
Proof.
  intros prefix Lp Hd E. unfold expubkey_from_string. fold prefix. replace (length prefix <=? 8)%nat with true by lia. cbn [c_assert bind]. rewrite E. cbn [bind].
  unfold BIP32_EXTKEY_SIZE. change (74 + 8)%nat with 82%nat. rewrite store_into_small by (rewrite app_length; exact Hd). cbn [bind].
  replace (length data <=? 82)%nat with true by lia. cbn [c_assert bind].
  destruct (Nat.leb_spec (length data) 74) as [H74|H74]; cbn [orb].
  { right. split; [|reflexivity]. intros code Lc ->. rewrite app_length in H74. lia. }
  replace (82 <? length data)%nat with false by lia.
  destruct (Nat.eqb_spec (length data - 74) (length prefix)) as [EL|EL]; cbn [negb].
  2:{ right. split; [|reflexivity]. intros code Lc ->. rewrite app_length in EL. lia. }
  rewrite EL. rewrite <- app_assoc. rewrite slice_app by lia. rewrite skipn_O. cbn [bind].
  destruct (bytes_eqb (firstn (length prefix) data) prefix) eqn:Eb; cbn [negb].
  - left. exists (skipn (length prefix) data). assert (Ed := prefix_cases prefix data ltac:(lia) Eb).
    split; [rewrite skipn_length; lia|]. split; [exact Ed|]. rewrite skipn_app_le by lia. reflexivity.
  - right. split; [|reflexivity]. intros code Lc ->. rewrite firstn_app_exact, (proj2 (bytes_eqb_eq _ _) eq_refl) in Eb. discriminate.
Qed.
Lemma xpub_reject text n old param out : (length (cp_ext_pub param) <= 8)%nat -> (length out <= 82)%nat ->
  from_base58_check text n = Ok (0%nat, out) -> expubkey_from_string text n old param = Ok (0, old).
Proof.
  intros Lp Lo E. unfold expubkey_from_string. replace (length (cp_ext_pub param) <=? 8)%nat with true by lia. cbn [c_assert bind]. rewrite E. cbn [bind].
  unfold BIP32_EXTKEY_SIZE. change (74 + 8)%nat with 82%nat. rewrite store_into_small by exact Lo. reflexivity.
Qed.
Lemma xpub_overflow text n old param m out : (length (cp_ext_pub param) <= 8)%nat -> (82 < length out)%nat ->
  from_base58_check text n = Ok (m, out) -> expubkey_from_string text n old param = UB.
Proof.
  intros Lp Lo E. unfold expubkey_from_string. replace (length (cp_ext_pub param) <=? 8)%nat with true by lia. cbn [c_assert bind]. rewrite E. cbn [bind].
  unfold BIP32_EXTKEY_SIZE. change (74 + 8)%nat with 82%nat. rewrite store_into_big by exact Lo. reflexivity.
Qed.
