(** C132: extended keys as structures in memory (layout of S_Overlap: [ex_key_at mem a] is the structure at address [a], 76 bytes,
    [ex_pubkey_at mem a] the public one, 80 bytes of which the last three are padding).  Input and output are regions of one memory. *)
From Verif Require Import Base S_Words M_Endian L_Endian S_Mem L_Mem M_Sha2 S_Sha2 M_Hash M_Base58 M_Base58Check S_Base58 S_Base58Check L_Base58 L_Base58Check P_Base58 P_Base58Check.
From Verif Require Import M_Address S_Address M_Mem S_Scratch M_Scratch L_Scratch L_Scratch2 P_Scratch M_Random M_Secp M_Key S_Key L_KeyStr M_Exkey S_Exkey L_Exkey P_Exkey.
From Verif Require Import M_Overlap S_Overlap L_Overlap M_MemBtc L_MemBtc P_MemBtc M_MemKey L_MemKey S_Bip32 L_Bip32 P_Bip32 L_Sha2Top L_Hash L_Der.

(** The master key: the seed may lie anywhere, also inside or across the structure. *)
Theorem C132_init_memory : forall mem key seed len, bytes mem -> (key + ex_key_size <= length mem)%nat -> (seed + len <= length mem)%nat -> Z.of_nat len < 2 ^ 60 ->
  let I := hmac_sha512_of bitcoin_seed (region mem seed len) in
  exists mem', exkey_init_at mem key seed len = Ok mem' /\
    ex_key_at mem' key = mkExKey (mkExt 0 0 0 (skipn 32 I)) (firstn 32 I) /\ only_inside mem mem' key ex_key_size.
Proof.
  intros mem key seed len B H1 H2 H3 I. unfold ex_key_size in *.
  assert (LI : length I = 64%nat) by apply hmac512_length.
  assert (HE : hmac_sha512 hashkey 12 (skipn seed mem) len = Ok I).
  { rewrite hmac_sha512_ok.
    2:{ unfold hashkey. repeat apply Forall_cons; try apply Forall_nil; unfold is_byte; lia. }
    2:{ cbn [hashkey length]. lia. }
    2:{ now apply bytes_skipn. }
    2:{ rewrite skipn_length. lia. }
    2:{ apply byte_len_small; lia. }
    2:{ unfold byte_len_ok. lia. }
    assert (HK : firstn 12 hashkey = bitcoin_seed) by reflexivity. rewrite HK. assert (HF : forall k m, hmac SHA512 128 k m = hmac_sha512_of k m) by reflexivity. rewrite HF.
    unfold I, region. exact eq_refl. }
  clearbody I. exact (exkey_init_at_ok mem key seed len I H1 LI HE).
Qed.
Print Assumptions C132_init_memory.

(** Encoding and decoding with the 74 bytes apart from the structure: exactly the BIP-32 layout, and nothing else changes. *)
Theorem C132_exkey_encode_memory : forall rule mem key code, bytes (region mem key ex_key_size) -> (key + ex_key_size <= length mem)%nat ->
  (code + 74 <= length mem)%nat -> disjoint code 74 key ex_key_size ->
  exkey_encode_at rule mem key code = Ok (written mem code (key_layout (ex_key_at mem key))) /\ length (key_layout (ex_key_at mem key)) = 74%nat.
Proof.
  intros. split; [now apply exkey_encode_at_ok|]. apply key_layout_length, wf_key_at; assumption.
Qed.
Print Assumptions C132_exkey_encode_memory.
Theorem C132_expubkey_encode_memory : forall rule mem pub code, bytes (region mem pub 77) -> (pub + 77 <= length mem)%nat ->
  (code + 74 <= length mem)%nat -> disjoint code 74 pub 77 ->
  expubkey_encode_at rule mem pub code = Ok (written mem code (pub_layout (ex_pubkey_at mem pub))) /\ length (pub_layout (ex_pubkey_at mem pub)) = 74%nat.
Proof.
  intros. split; [now apply expubkey_encode_at_ok|]. apply pub_layout_length, wf_pub_at; assumption.
Qed.
Print Assumptions C132_expubkey_encode_memory.
Theorem C132_exkey_decode_memory : forall rule mem code key, bytes (region mem code 74) -> (code + 74 <= length mem)%nat ->
  (key + ex_key_size <= length mem)%nat -> disjoint key ex_key_size code 74 ->
  exists mem' k x, exkey_decode_at rule mem code key = Ok mem' /\ ex_key_at mem' key = k /\ wf_key k /\
    region mem code 74 = ext_layout (xk_ext k) ++ [x] ++ xk_key k /\ only_inside mem mem' key ex_key_size.
Proof.
  intros rule mem code key B H1 H2 D. unfold ex_key_size in *. destruct (exkey_decode_at_ok rule mem code key B H1 H2 D) as (mem' & E & K & O).
  assert (Wb : wf_key (mkExKey (mkExt 0 0 0 (repeat 0 32)) (repeat 0 32))).
  { assert (Z0 : bytes (repeat 0 32)) by (apply Forall_forall; intros b Hb; apply repeat_spec in Hb; subst; unfold is_byte; lia). unfold wf_key, wf_ext. cbn [xk_ext xk_key x_depth x_fingerprint x_child x_chain_code]. rewrite repeat_length. repeat split; try lia; exact Z0. }
  destruct (exkey_decode_ok (region mem code 74) [] _ B (region_length _ _ _ H1) Wb) as (k & x & Dk & Wk & Ek). rewrite app_nil_r in Dk.
  rewrite (exkey_decode_value mem code _ B H1 Wb) in Dk. injection Dk as Dk.
  exists mem', k, x. rewrite K, Dk. auto.
Qed.
Print Assumptions C132_exkey_decode_memory.
Theorem C132_expubkey_decode_memory : forall rule mem code pub, bytes (region mem code 74) -> (code + 74 <= length mem)%nat ->
  (pub + 77 <= length mem)%nat -> disjoint pub 77 code 74 ->
  exists mem' k, expubkey_decode_at rule mem code pub = Ok mem' /\ ex_pubkey_at mem' pub = k /\ wf_pub k /\
    region mem code 74 = pub_layout k /\ only_inside mem mem' pub 77.
Proof.
  intros rule mem code pub B H1 H2 D. destruct (expubkey_decode_at_ok rule mem code pub B H1 H2 D) as (mem' & E & K & O).
  assert (Wb : wf_pub (mkExPub (mkExt 0 0 0 (repeat 0 32)) (repeat 0 33))).
  { assert (Z0 : forall n, bytes (repeat 0 n)) by (intros n; apply Forall_forall; intros b Hb; apply repeat_spec in Hb; subst; unfold is_byte; lia). unfold wf_pub, wf_ext. cbn [xp_ext xp_c_pubkey x_depth x_fingerprint x_child x_chain_code]. rewrite !repeat_length. repeat split; try lia; apply Z0. }
  destruct (expubkey_decode_ok (region mem code 74) [] _ B (region_length _ _ _ H1) Wb) as (k & Dk & Wk & Ek). rewrite app_nil_r in Dk.
  rewrite (expubkey_decode_value mem code _ B H1 Wb) in Dk. injection Dk as Dk.
  exists mem', k. rewrite K, Dk. auto.
Qed.
Print Assumptions C132_expubkey_decode_memory.

(** In place (the 74 bytes start where the structure starts) both directions are undefined behaviour, whatever memcpy onto itself does. *)
Lemma memcpy_partial rule mem d s n : (d < s < d + n \/ s < d < s + n)%nat -> memcpy_at rule mem d s n = UB.
Proof.
  intros H. unfold memcpy_at. cbv zeta.
  assert (A : ((d + n <=? s) || (s + n <=? d))%nat = false) by (apply orb_false_iff; rewrite !Nat.leb_gt; lia).
  assert (N : (d =? s)%nat = false) by (apply Nat.eqb_neq; lia). rewrite A. destruct rule; rewrite ?N; reflexivity.
Qed.
Theorem C132_in_place_refuted : forall rule mem a, bytes mem -> (a + ex_pubkey_size <= length mem)%nat ->
  exkey_encode_at rule mem a a = UB /\ exkey_decode_at rule mem a a = UB /\ expubkey_encode_at rule mem a a = UB /\ expubkey_decode_at rule mem a a = UB.
Proof.
  intros rule mem a B H. unfold ex_pubkey_size in H.
  assert (Wx : write_key_extension_at rule mem a a = UB).
  { unfold write_key_extension_at, o_depth, o_fingerprint, o_child, o_chain. rewrite Nat.add_0_r. rewrite rd_at by lia. cbn [bind].
    rewrite store_at by (cbn [length]; lia). cbn [bind]. unfold get32 at 1. rewrite slice_at by (rewrite written_length; cbn [length]; lia). cbn [bind].
    rewrite store_at by (rewrite host4_len, written_length; cbn [length]; lia). cbn [bind].
    unfold get32. rewrite slice_at by (rewrite !written_length; rewrite ?host4_len; cbn [length]; rewrite ?written_length; cbn [length]; lia). cbn [bind].
    rewrite store_at by (rewrite host4_len, !written_length; rewrite ?host4_len; cbn [length]; rewrite ?written_length; cbn [length]; lia). cbn [bind].
    apply memcpy_partial. lia. }
  assert (Rx : read_key_extension_at rule mem a a = UB).
  { unfold read_key_extension_at, o_depth, o_fingerprint, o_child, o_chain. rewrite Nat.add_0_r. rewrite rd_at by lia. cbn [bind].
    rewrite store_at by (cbn [length]; lia). cbn [bind]. unfold read_little_32. rewrite slice_skip by (rewrite written_length; cbn [length]; lia). cbn [bind].
    rewrite put32_at by (rewrite written_length; cbn [length]; lia). cbn [bind].
    unfold read_big_32. rewrite slice_skip by (rewrite !written_length; rewrite ?host4_len; cbn [length]; rewrite ?written_length; cbn [length]; lia). cbn [bind].
    rewrite put32_at by (rewrite !written_length; rewrite ?host4_len; cbn [length]; rewrite ?written_length; cbn [length]; lia). cbn [bind].
    apply memcpy_partial. lia. }
  unfold exkey_encode_at, exkey_decode_at, expubkey_encode_at, expubkey_decode_at. rewrite Wx, Rx. auto.
Qed.
Print Assumptions C132_in_place_refuted.

(** Strings: the text may be written over the structure it was made from, the prefix may be overwritten, and a structure may be filled over the text it is read from. *)
Lemma nth_before (l1 l2 : list Z) a : (a < length l1)%nat -> nth a (l1 ++ l2) 0 = nth a l1 0.
Proof. intros H. now apply app_nth1. Qed.
Lemma ext_at_before mem l a : (a + 44 <= length mem)%nat -> ext_at (mem ++ l) a = ext_at mem a.
Proof. intros H. unfold ext_at. rewrite nth_before by lia. now rewrite !region_before by lia. Qed.
Lemma key_at_before mem l a : (a + 76 <= length mem)%nat -> ex_key_at (mem ++ l) a = ex_key_at mem a.
Proof. intros H. unfold ex_key_at. rewrite ext_at_before by lia. now rewrite region_before by lia. Qed.
Lemma pub_at_before mem l a : (a + 77 <= length mem)%nat -> ex_pubkey_at (mem ++ l) a = ex_pubkey_at mem a.
Proof. intros H. unfold ex_pubkey_at. rewrite ext_at_before by lia. now rewrite region_before by lia. Qed.
Lemma written_local mem local l : length l = length local -> written (mem ++ local) (length mem) l = mem ++ l.
Proof.
  intros H. pose proof (written_behind mem local 0 l) as W. rewrite Nat.add_0_r in W. rewrite W. f_equal. unfold written. cbn [firstn app Nat.add].
  rewrite skipn_all2 by lia. apply app_nil_r.
Qed.
Lemma to_string_at encode wipe e w key prefix pn str code : length code = 74%nat ->
  encode Standard (w_mem w ++ uninit 74) key (length (w_mem w)) = Ok (written (w_mem w ++ uninit 74) (length (w_mem w)) code) ->
  struct_to_string_at encode wipe e key prefix pn str w = ext_to_string_w e code wipe prefix pn str w.
Proof.
  intros L E. unfold struct_to_string_at, ext_to_string_w. cbv zeta. change BIP32_EXTKEY_SIZE with 74%nat. unfold push_local at 1. cbn [w_mem]. rewrite E. cbn [bind].
  rewrite written_local by (rewrite uninit_length; exact L). reflexivity.
Qed.
Theorem C132_exkey_to_string_memory : forall e w key prefix pn str, sane e -> bytes (w_mem w) -> (key + ex_key_size <= length (w_mem w))%nat -> (pn <= 8)%nat ->
  (prefix + pn <= length (w_mem w))%nat -> (str + to_base58_check_length 74 pn <= length (w_mem w))%nat ->
  exists text w', exkey_to_string_at e key prefix pn str w = Ok (length text, w') /\
    is_base58check (region (w_mem w) prefix pn ++ key_layout (ex_key_at (w_mem w) key)) text /\ (length text <= to_base58_check_length 74 pn)%nat /\
    w_mem w' = written (w_mem w) str text /\ scratch_ok e w w'.
Proof.
  intros e w key prefix pn str Se B H1 Hp H2 H3. unfold ex_key_size in H1.
  pose proof (wf_key_at (w_mem w) key (bytes_firstn _ _ (bytes_skipn _ _ B)) H1) as W.
  pose proof (key_layout_length _ W) as L. pose proof (key_layout_bytes _ W) as Bl.
  unfold exkey_to_string_at. rewrite (to_string_at _ _ e w key prefix pn str (key_layout (ex_key_at (w_mem w) key)) L).
  - destruct (ext_w e w _ true prefix pn str Se B Bl L Hp H2 H3) as (text & w' & E & V & Lt & M & K). exists text, w'. auto.
  - rewrite exkey_encode_at_ok.
    + now rewrite key_at_before by exact H1.
    + rewrite region_before by exact H1. now apply bytes_firstn, bytes_skipn.
    + rewrite app_length. lia.
    + rewrite app_length, uninit_length. lia.
    + unfold disjoint. lia.
Qed.
Print Assumptions C132_exkey_to_string_memory.
Theorem C132_expubkey_to_string_memory : forall e w pub prefix pn str, sane e -> bytes (w_mem w) -> (pub + 77 <= length (w_mem w))%nat -> (pn <= 8)%nat ->
  (prefix + pn <= length (w_mem w))%nat -> (str + to_base58_check_length 74 pn <= length (w_mem w))%nat ->
  exists text w', expubkey_to_string_at e pub prefix pn str w = Ok (length text, w') /\
    is_base58check (region (w_mem w) prefix pn ++ pub_layout (ex_pubkey_at (w_mem w) pub)) text /\ (length text <= to_base58_check_length 74 pn)%nat /\
    w_mem w' = written (w_mem w) str text /\ scratch_ok e w w'.
Proof.
  intros e w pub prefix pn str Se B H1 Hp H2 H3.
  pose proof (wf_pub_at (w_mem w) pub (bytes_firstn _ _ (bytes_skipn _ _ B)) H1) as W.
  pose proof (pub_layout_length _ W) as L. pose proof (pub_layout_bytes _ W) as Bl.
  unfold expubkey_to_string_at. rewrite (to_string_at _ _ e w pub prefix pn str (pub_layout (ex_pubkey_at (w_mem w) pub)) L).
  - destruct (ext_w e w _ false prefix pn str Se B Bl L Hp H2 H3) as (text & w' & E & V & Lt & M & K). exists text, w'. auto.
  - rewrite expubkey_encode_at_ok.
    + now rewrite pub_at_before by exact H1.
    + rewrite region_before by exact H1. now apply bytes_firstn, bytes_skipn.
    + rewrite app_length. lia.
    + rewrite app_length, uninit_length. lia.
    + unfold disjoint. lia.
Qed.
Print Assumptions C132_expubkey_to_string_memory.

(** What the local array contains after a string was decoded into it, and what the reader makes of it *)
Lemma from_string_at decode wipe e w str text rest key prefix ssz : sane e -> mallocs e INT_MAX ->
  skipn str (w_mem w) = text ++ 0 :: rest -> Forall (fun c => 0 < c < 128) text -> Z.of_nat (length text) * 733 <= INT_MAX ->
  (forall d, bytes d -> b58_decodes text d -> (length d <= 82)%nat) -> (1 <= length prefix <= 8)%nat -> (key + ssz <= length (w_mem w))%nat ->
  (forall mem code, bytes (region mem code 74) -> (code + 74 <= length mem)%nat -> (key + ssz <= length mem)%nat -> disjoint key ssz code 74 ->
     exists mem', decode Standard mem code key = Ok mem' /\ only_inside mem mem' key ssz) ->
  (exists code buf w' mem', bytes code /\ length code = 74%nat /\ b58_decodes text ((prefix ++ code) ++ checksum4 (prefix ++ code)) /\
     length buf = 82%nat /\ region (w_mem w ++ buf) (length (w_mem w) + length prefix) 74 = code /\
     decode Standard (w_mem w ++ buf) (length (w_mem w) + length prefix)%nat key = Ok mem' /\
     struct_from_string_at decode wipe e str (length text) key prefix ssz w = Ok (1, w') /\
     w_mem w' = firstn (length (w_mem w)) mem' /\ scratch_ok e w w') \/
  ((forall code, bytes code -> length code = 74%nat -> bytes prefix -> ~ b58_decodes text ((prefix ++ code) ++ checksum4 (prefix ++ code))) /\
   exists w', struct_from_string_at decode wipe e str (length text) key prefix ssz w = Ok (0, w') /\ w_mem w' = w_mem w /\ scratch_ok e w w').
Proof.
  intros Se Ma Ht Ha Hl Hd Hp Hk Dec. set (mem := w_mem w) in *. set (n := length mem) in *.
  unfold struct_from_string_at. cbv zeta. destruct (Nat.leb_spec (length prefix) 8); [|lia]. cbn [c_assert bind]. change (BIP32_EXTKEY_SIZE + 8)%nat with 82%nat. change BIP32_EXTKEY_SIZE with 74%nat.
  fold mem. fold n. set (w1 := push_local (uninit 82) w).
  assert (Lm1 : length (w_mem w1) = (n + 82)%nat) by (unfold w1, push_local; cbn [w_mem]; fold mem; rewrite app_length, uninit_length; reflexivity).
  assert (S1 : skipn str (w_mem w1) = text ++ 0 :: (rest ++ uninit 82)).
  { unfold w1, push_local. cbn [w_mem]. fold mem. rewrite skipn_app, Ht. replace (str - length mem)%nat with O; [cbn [skipn]; rewrite <- app_assoc; reflexivity|].
    apply (f_equal (@length Z)) in Ht. rewrite skipn_length, app_length in Ht. cbn [length] in Ht. lia. }
  assert (Go : forall size out, (length out <= 82)%nat -> from_base58_check (text ++ 0 :: (rest ++ uninit 82)) (length text) = Ok (size, out) ->
    exists d, from_base58_check_w e str (length text) n w1 = Ok (size, mkWorld (mem ++ (out ++ skipn (length out) (uninit 82))) (w_blocks w) (S (w_next w)) ((w_next w, d) :: w_dead w)) /\ clean e (w_next w, d)).
  { intros size out Lo E. rewrite <- S1 in E. destruct (from_base58_check_w_ok INT_MAX e str (length text) n w1 size out Se Ma) as (d & Ew & C); try assumption; try lia.
    { rewrite S1. apply scratch_size_text; change INT_MAX with 2147483647 in *; dlia. }
    exists d. split; [|exact C]. rewrite Ew. unfold w1, push_local. cbn [w_mem w_blocks w_next w_dead]. fold mem. do 3 f_equal.
    pose proof (written_behind mem (uninit 82) 0 out) as W. rewrite Nat.add_0_r in W. fold n in W. rewrite W. reflexivity. }
  assert (K : forall m d, clean e (w_next w, d) -> scratch_ok e w (mkWorld m (w_blocks w) (S (w_next w)) ((w_next w, d) :: w_dead w))).
  { intros m d C. split; [reflexivity|]. exists [(w_next w, d)]. split; [reflexivity|]. constructor; [exact C|constructor]. }
  assert (Pop : forall buf d, pop_local n (mkWorld (mem ++ buf) (w_blocks w) (S (w_next w)) ((w_next w, d) :: w_dead w)) = mkWorld mem (w_blocks w) (S (w_next w)) ((w_next w, d) :: w_dead w)).
  { intros buf d. unfold pop_local. cbn [w_mem w_blocks w_next w_dead]. unfold n. rewrite firstn_app_exact. reflexivity. }
  assert (Hcs : forall data, bytes data -> bytes (data ++ checksum4 data)) by (intros; apply bytes_app; split; [assumption|apply checksum4_bytes]).
  assert (Zero : forall out, (length out <= 82)%nat -> from_base58_check (text ++ 0 :: (rest ++ uninit 82)) (length text) = Ok (0%nat, out) ->
    exists w', ('(size, w) <- from_base58_check_w e str (length text) n w1 ;;
      _ <- c_assert (size <=? 82)%nat ;;
      if (size <=? 74)%nat || (82 <? size)%nat then Ok (0, pop_local n w) else
      if negb ((size - 74) =? length prefix)%nat then Ok (0, pop_local n w) else
      p <- slice (w_mem w) n (size - 74) ;;
      if negb (bytes_eqb p prefix) then Ok (0, pop_local n w) else
      _ <- c_defined (key + ssz <=? n)%nat ;;
      m <- decode Standard (w_mem w) (n + (size - 74))%nat key ;;
      w <- (if wipe then p_write n (repeat 204 82) (with_mem w m) else Ok (with_mem w m)) ;;
      Ok (1, pop_local n w)) = Ok (0, w') /\ w_mem w' = mem /\ scratch_ok e w w').
  { intros out Lo E. destruct (Go 0%nat out Lo E) as (d & Ew & C). rewrite Ew. cbn [bind]. destruct (Nat.leb_spec 0 82); [|lia]. cbn [c_assert bind].
    destruct (Nat.leb_spec 0 74); [|lia]. cbn [orb]. eexists. split; [reflexivity|]. rewrite Pop. split; [reflexivity|now apply K]. }
  destruct (string_decoding text (rest ++ uninit 82) Ha Hl) as [(data & Bd & Dd & E)|[(out & Bo & Do & No & E)|[No E]]].
  2:{ right. split; [|apply (Zero out); [apply (Hd out Bo Do)|exact E]]. intros code Bc Lc Bp D. apply (No (prefix ++ code)).
      apply (b58_decodes_fun text); auto. apply Hcs, bytes_app; auto. }
  2:{ right. split; [|apply (Zero []); [cbn [length]; lia|exact E]]. intros code Bc Lc Bp D. exact (No _ D). }
  pose proof (Hd _ (Hcs _ Bd) Dd) as L82. assert (L4 : length (checksum4 data) = 4%nat) by apply checksum4_length.
  destruct (Go (length data) (data ++ checksum4 data) L82 E) as (d & Ew & C). rewrite Ew. cbn [bind]. rewrite app_length, L4 in L82.
  destruct (Nat.leb_spec (length data) 82); [|lia]. cbn [c_assert bind].
  assert (Other : (forall code, length code = 74%nat -> data <> prefix ++ code) -> forall code, bytes code -> length code = 74%nat -> bytes prefix ->
     ~ b58_decodes text ((prefix ++ code) ++ checksum4 (prefix ++ code))).
  { intros N code Bc Lc Bp D. apply (N code Lc). pose proof (b58_decodes_fun text _ _ (Hcs _ Bd) (Hcs (prefix ++ code) ltac:(apply bytes_app; auto)) Dd D) as Q.
    apply app_split_fun in Q; [apply Q|]. apply (f_equal (@length Z)) in Q. rewrite !app_length, !checksum4_length in Q. rewrite app_length. lia. }
  destruct (Nat.leb_spec (length data) 74).
  { right. cbn [orb]. split; [|eexists; split; [reflexivity|]; rewrite Pop; split; [reflexivity|now apply K]]. apply Other. intros code Lc Q.
    apply (f_equal (@length Z)) in Q. rewrite app_length in Q. lia. }
  destruct (Nat.ltb_spec 82 (length data)); [lia|]. cbn [orb].
  destruct (Nat.eqb_spec (length data - 74) (length prefix)) as [Hn|Hn]; cbn [negb].
  2:{ right. split; [|eexists; split; [reflexivity|]; rewrite Pop; split; [reflexivity|now apply K]]. apply Other. intros code Lc Q.
      apply (f_equal (@length Z)) in Q. rewrite app_length in Q. lia. }
  cbn [w_mem]. rewrite Hn. set (buf := (data ++ checksum4 data) ++ skipn (length (data ++ checksum4 data)) (uninit 82)).
  assert (Lb : length buf = 82%nat) by (unfold buf; rewrite app_length, skipn_length, uninit_length, app_length; lia).
  assert (RB : forall k m, region (mem ++ buf) (n + k) m = region buf k m) by (intros; apply region_behind).
  rewrite slice_at by (rewrite app_length; fold n; lia). pose proof (RB 0%nat (length prefix)) as R0. rewrite Nat.add_0_r in R0. rewrite R0. cbn [bind].
  assert (R1 : region buf 0 (length prefix) = firstn (length prefix) data).
  { unfold region, buf. cbn [skipn]. rewrite <- app_assoc, firstn_app. replace (length prefix - length data)%nat with O by lia. cbn [firstn]. apply app_nil_r. }
  rewrite R1. destruct (bytes_eqb (firstn (length prefix) data) prefix) eqn:Eq; cbn [negb].
  2:{ right. split; [|eexists; split; [reflexivity|]; rewrite Pop; split; [reflexivity|now apply K]]. apply Other. intros code Lc Q.
      rewrite Q, firstn_app_exact in Eq. assert (T : bytes_eqb prefix prefix = true) by (now apply bytes_eqb_eq). congruence. }
  apply bytes_eqb_eq in Eq. left.
  assert (Rc : region buf (length prefix) 74 = skipn (length prefix) data).
  { unfold region, buf. rewrite <- app_assoc, skipn_app, firstn_app. replace (length prefix - length data)%nat with O by lia.
    rewrite skipn_length. replace (74 - (length data - length prefix))%nat with O by lia. rewrite (firstn_O (skipn 0 _)), app_nil_r. apply firstn_all2. rewrite skipn_length. lia. }
  assert (Sp : prefix ++ skipn (length prefix) data = data) by (rewrite <- Eq at 1; apply firstn_skipn).
  destruct (Dec (mem ++ buf) (n + length prefix)%nat) as (m' & Em & Oi).
  { rewrite RB, Rc. now apply bytes_skipn. } { rewrite app_length. fold n. lia. } { rewrite app_length. fold n. lia. } { unfold disjoint. fold n. lia. }
  destruct (Nat.leb_spec (key + ssz) n); [|lia]. cbn [c_defined bind]. rewrite Em. cbn [bind].
  destruct Oi as [Lm' _]. rewrite app_length, Lb in Lm'. fold n in Lm'.
  assert (Fin : exists w2, (if wipe then p_write n (repeat 204 82) (with_mem (mkWorld (mem ++ buf) (w_blocks w) (S (w_next w)) ((w_next w, d) :: w_dead w)) m')
      else Ok (with_mem (mkWorld (mem ++ buf) (w_blocks w) (S (w_next w)) ((w_next w, d) :: w_dead w)) m')) =
      Ok (mkWorld w2 (w_blocks w) (S (w_next w)) ((w_next w, d) :: w_dead w)) /\ firstn n w2 = firstn n m').
  { unfold with_mem. cbn [w_mem w_blocks w_next w_dead]. destruct wipe.
    - unfold p_write. cbn [w_mem w_blocks w_next w_dead]. rewrite store_at by (rewrite repeat_length; lia). cbn [bind]. eexists. split; [reflexivity|].
      unfold written. rewrite firstn_app, firstn_firstn, firstn_length. replace (Nat.min n n) with n by lia. replace (n - Nat.min n (length m'))%nat with O by lia.
      cbn [firstn]. apply app_nil_r.
    - eexists. split; reflexivity. }
  destruct Fin as (w2 & F1 & F2). rewrite F1. cbn [bind].
  exists (skipn (length prefix) data), buf. eexists. exists m'. split; [now apply bytes_skipn|]. split; [rewrite skipn_length; lia|]. split; [rewrite Sp; exact Dd|].
  split; [exact Lb|]. split; [rewrite RB; exact Rc|]. split; [exact Em|]. split; [reflexivity|]. unfold pop_local. cbn [w_mem w_blocks w_next w_dead]. split; [exact F2|now apply K].
Qed.

Lemma only_inside_pop mem buf m' a n : only_inside (mem ++ buf) m' a n -> (a + n <= length mem)%nat -> only_inside mem (firstn (length mem) m') a n /\
  (forall b k, (b + k <= length mem)%nat -> region (firstn (length mem) m') b k = region m' b k) /\ (forall b, (b < length mem)%nat -> nth b (firstn (length mem) m') 0 = nth b m' 0).
Proof.
  intros [L H] Ha. rewrite app_length in L. assert (Lf : length (firstn (length mem) m') = length mem) by (rewrite firstn_length; lia).
  split; [split; [exact Lf|]|split].
  - intros p Hp. destruct (Nat.lt_ge_cases p (length mem)) as [Hq|Hq].
    + rewrite nth_error_firstn by exact Hq. rewrite H by exact Hp. apply nth_error_app1, Hq.
    + transitivity (@None Z); [|symmetry]; apply nth_error_None; lia.
  - intros b k Hb. apply nth_error_ext. intros p. rewrite !nth_error_region by lia. destruct (Nat.ltb_spec p k); [|reflexivity]. apply nth_error_firstn. lia.
  - intros b Hb. rewrite <- !nth_default_eq. unfold nth_default. now rewrite nth_error_firstn by exact Hb.
Qed.

(** Reading an extended key: a string of the network puts the structure at [key], wherever that is; any other string leaves memory as it is. *)
Theorem C132_exkey_from_string_memory : forall e w str text rest key p, sane e -> mallocs e INT_MAX ->
  bytes (cp_ext_sec p) -> (1 <= length (cp_ext_sec p) <= 8)%nat ->
  skipn str (w_mem w) = text ++ 0 :: rest -> Forall (fun c => 0 < c < 128) text -> Z.of_nat (length text) * 733 <= INT_MAX ->
  (forall d, bytes d -> b58_decodes text d -> (length d <= 82)%nat) -> (key + ex_key_size <= length (w_mem w))%nat ->
  (exists k x w', wf_key k /\ is_byte x /\ base58_address (cp_ext_sec p) (ext_layout (xk_ext k) ++ [x] ++ xk_key k) text /\
     exkey_from_string_at e str (length text) key p w = Ok (1, w') /\ ex_key_at (w_mem w') key = k /\
     only_inside (w_mem w) (w_mem w') key ex_key_size /\ scratch_ok e w w') \/
  ((forall code, bytes code -> length code = 74%nat -> ~ base58_address (cp_ext_sec p) code text) /\
   exists w', exkey_from_string_at e str (length text) key p w = Ok (0, w') /\ w_mem w' = w_mem w /\ scratch_ok e w w').
Proof.
  intros e w str text rest key p Se Ma Bp Lp Ht Ha Hl Hd Hk. unfold ex_key_size in *.
  destruct (from_string_at exkey_decode_at true e w str text rest key (cp_ext_sec p) 76 Se Ma Ht Ha Hl Hd Lp Hk) as [(code & buf & w' & m' & Bc & Lc & D & Lb & Rc & Em & Ew & Mw & K)|[N (w' & Ew & Mw & K)]].
  - intros mem code B H1 H2 D. destruct (exkey_decode_at_ok Standard mem code key B H1 H2 D) as (m' & E & _ & O). eauto.
  - left. assert (Hc : (length (w_mem w) + length (cp_ext_sec p) + 74 <= length (w_mem w ++ buf))%nat) by (rewrite app_length; lia).
    destruct (C132_exkey_decode_memory Standard (w_mem w ++ buf) (length (w_mem w) + length (cp_ext_sec p)) key) as (m2 & k & x & E2 & K2 & W2 & L2 & O2).
    { rewrite Rc. exact Bc. } { exact Hc. } { rewrite app_length. unfold ex_key_size. lia. } { unfold disjoint, ex_key_size. lia. }
    rewrite Em in E2. injection E2 as <-. rewrite Rc in L2. clear Rc. subst code.
    destruct (only_inside_pop _ _ _ _ _ O2 Hk) as (O3 & R3 & N3).
    exists k, x, w'. split; [exact W2|]. split; [apply bytes_app in Bc; destruct Bc as [_ Bc]; now inversion Bc|].
    split; [exact D|].
    split; [exact Ew|]. rewrite Mw. split; [|split; [exact O3|exact K]]. rewrite <- K2. unfold ex_key_at, ext_at. rewrite N3 by lia. now rewrite !R3 by lia.
  - right. split; [|eauto]. intros code Bc Lc. exact (N code Bc Lc Bp).
Qed.
Print Assumptions C132_exkey_from_string_memory.
Theorem C132_expubkey_from_string_memory : forall e w str text rest key p, sane e -> mallocs e INT_MAX ->
  bytes (cp_ext_pub p) -> (1 <= length (cp_ext_pub p) <= 8)%nat ->
  skipn str (w_mem w) = text ++ 0 :: rest -> Forall (fun c => 0 < c < 128) text -> Z.of_nat (length text) * 733 <= INT_MAX ->
  (forall d, bytes d -> b58_decodes text d -> (length d <= 82)%nat) -> (key + ex_pubkey_size <= length (w_mem w))%nat ->
  (exists k w', wf_pub k /\ is_xpub (cp_ext_pub p) k text /\
     expubkey_from_string_at e str (length text) key p w = Ok (1, w') /\ ex_pubkey_at (w_mem w') key = k /\
     only_inside (w_mem w) (w_mem w') key 77 /\ scratch_ok e w w') \/
  ((forall code, bytes code -> length code = 74%nat -> ~ base58_address (cp_ext_pub p) code text) /\
   exists w', expubkey_from_string_at e str (length text) key p w = Ok (0, w') /\ w_mem w' = w_mem w /\ scratch_ok e w w').
Proof.
  intros e w str text rest key p Se Ma Bp Lp Ht Ha Hl Hd Hk. unfold ex_pubkey_size in *.
  destruct (from_string_at expubkey_decode_at false e w str text rest key (cp_ext_pub p) 80 Se Ma Ht Ha Hl Hd Lp Hk) as [(code & buf & w' & m' & Bc & Lc & D & Lb & Rc & Em & Ew & Mw & K)|[N (w' & Ew & Mw & K)]].
  - intros mem code B H1 H2 D. destruct (expubkey_decode_at_ok Standard mem code key B H1 ltac:(lia) ltac:(unfold disjoint in *; lia)) as (m' & E & _ & OL & O). exists m'. split; [exact E|]. split; [exact OL|]. intros q Hq. apply O. lia.
  - left. assert (Hc : (length (w_mem w) + length (cp_ext_pub p) + 74 <= length (w_mem w ++ buf))%nat) by (rewrite app_length; lia).
    destruct (C132_expubkey_decode_memory Standard (w_mem w ++ buf) (length (w_mem w) + length (cp_ext_pub p)) key) as (m2 & k & E2 & K2 & W2 & L2 & O2).
    { rewrite Rc. exact Bc. } { exact Hc. } { rewrite app_length. lia. } { unfold disjoint. lia. }
    rewrite Em in E2. injection E2 as <-. rewrite Rc in L2. clear Rc. subst code.
    destruct (only_inside_pop _ _ _ _ _ O2 ltac:(lia)) as (O3 & R3 & N3).
    exists k, w'. split; [exact W2|].
    split; [exact D|].
    split; [exact Ew|]. rewrite Mw. split; [|split; [exact O3|exact K]]. rewrite <- K2. unfold ex_pubkey_at, ext_at. rewrite N3 by lia. now rewrite !R3 by lia.
  - right. split; [|eauto]. intros code Bc Lc. exact (N code Bc Lc Bp).
Qed.
Print Assumptions C132_expubkey_from_string_memory.

(** The hypotheses are met: a structure at 20, the text over it and over the prefix; the 74 bytes right behind the structure. *)
Example C132_case : let mem := [4; 136; 173; 228] ++ repeat 7 196 in
  bytes mem /\ (20 + ex_key_size <= length mem)%nat /\ (0 + 4 <= length mem)%nat /\ (2 + to_base58_check_length 74 4 <= length mem)%nat /\
  key_layout (ex_key_at mem 20) = repeat 7 41 ++ [0] ++ repeat 7 32 /\
  match exkey_encode_at Standard mem 20 96 with Ok m => region m 96 74 = repeat 7 41 ++ [0] ++ repeat 7 32 /\ only_inside mem m 96 74 | _ => False end.
Proof.
  cbv zeta. set (mem := [4; 136; 173; 228] ++ repeat 7 196). assert (B : bytes mem).
  { apply bytes_app; split; [repeat constructor; unfold is_byte; lia|apply Forall_forall; intros b Hb; apply repeat_spec in Hb; subst; unfold is_byte; lia]. }
  split; [exact B|]. split; [cbv; lia|]. split; [cbv; lia|]. split; [cbv; lia|].
  assert (V : key_layout (ex_key_at mem 20) = repeat 7 41 ++ [0] ++ repeat 7 32) by (vm_compute; reflexivity). split; [exact V|].
  rewrite exkey_encode_at_ok; [|now apply bytes_firstn, bytes_skipn|cbv; lia|cbv; lia|unfold disjoint; lia]. rewrite V.
  split; [apply region_same'; [reflexivity|cbv; lia]|]. apply only_written; [apply only_refl|cbv; lia|cbv; lia|cbv; lia].
Qed.
