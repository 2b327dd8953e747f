(** Lemmas for C132: extended keys as structures in memory. *)
From Verif Require Import Base S_Words M_Endian L_Endian S_Mem L_Mem M_Sha2 M_Hash M_Base58 M_Base58Check M_Address M_Mem M_Scratch M_Random M_Secp M_Key M_Exkey S_Exkey L_Exkey.
From Verif Require Import M_Overlap S_Overlap L_Overlap M_MemBtc M_MemKey.

Lemma rd_at mem a : (a < length mem)%nat -> rd mem a = Ok (nth a mem 0).
Proof. intros H. unfold rd. destruct (nth_error mem a) eqn:E; [now rewrite (nth_error_nth _ _ _ E)|]. apply nth_error_None in E. lia. Qed.
Lemma bytes_region_sub mem a n b k : bytes (region mem a n) -> (a + n <= length mem)%nat -> (a <= b)%nat -> (b + k <= a + n)%nat -> bytes (region mem b k).
Proof.
  intros B H H1 H2. replace b with (a + (b - a))%nat by lia. rewrite <- (region_region mem a n (b - a) k H ltac:(lia)). now apply bytes_firstn, bytes_skipn.
Qed.
Lemma byte_nth mem a n b : bytes (region mem a n) -> (a + n <= length mem)%nat -> (a <= b < a + n)%nat -> 0 <= nth b mem 0 < 256.
Proof.
  intros B H H1. pose proof (bytes_region_sub mem a n b 1 B H ltac:(lia) ltac:(lia)) as C.
  destruct (nth_error mem b) as [x|] eqn:E; [|apply nth_error_None in E; lia].
  unfold region in C. rewrite (skipn_nth mem b x E) in C. cbn [firstn] in C. inversion C; subst. rewrite (nth_error_nth _ _ 0 E). exact H3.
Qed.
Lemma get32_at mem a : (a + 4 <= length mem)%nat -> bytes (region mem a 4) -> get32 mem a = Ok (le_val (region mem a 4)).
Proof. intros H B. unfold get32. rewrite slice_at by exact H. cbn [bind]. now rewrite host_val_le. Qed.
Lemma put32_at mem a v : (a + 4 <= length mem)%nat -> put32 mem a v = Ok (written mem a (host_bytes 4 (u32 v))).
Proof. intros H. unfold put32. apply store_at. rewrite host4_len. exact H. Qed.
Lemma le_val4 bs : bytes bs -> length bs = 4%nat -> 0 <= le_val bs < 2 ^ 32.
Proof. intros B L. pose proof (le_val_bound bs B) as H. rewrite L in H. exact H. Qed.
Lemma be_val4 bs : bytes bs -> length bs = 4%nat -> 0 <= be_val bs < 2 ^ 32.
Proof. intros B L. pose proof (be_val_bound bs B) as H. rewrite L in H. exact H. Qed.
Lemma read_le_at mem a : (a + 4 <= length mem)%nat -> bytes (region mem a 4) -> read_little_32 (skipn a mem) = Ok (le_val (region mem a 4)).
Proof. intros H B. unfold read_little_32. rewrite slice_skip by exact H. cbn [bind]. unfold htole32. now rewrite host_val_le. Qed.
Lemma read_be_at mem a : (a + 4 <= length mem)%nat -> bytes (region mem a 4) -> read_big_32 (skipn a mem) = Ok (be_val (region mem a 4)).
Proof.
  intros H B. unfold read_big_32. rewrite slice_skip by exact H. cbn [bind]. unfold htobe32. f_equal.
  pose proof (htobe_val _ B) as V. rewrite region_length in V by exact H. exact V.
Qed.

(** ** The structure written member by member *)
Definition struct_written (mem : list Z) (a : nat) (d f c : Z) (cc k : list Z) : list Z :=
  written (written (written (written (written mem a [d]) (a + 4) (host_bytes 4 (u32 f))) (a + 8) (host_bytes 4 (u32 c))) (a + 12) cc) (a + 44) k.
Lemma struct_written_spec mem a d f c cc k n : (a + n <= length mem)%nat -> (44 + length k <= n)%nat -> length cc = 32%nat ->
  0 <= f < 2 ^ 32 -> 0 <= c < 2 ^ 32 ->
  let m := struct_written mem a d f c cc k in
  ext_at m a = mkExt d f c cc /\ region m (a + 44) (length k) = k /\ only_inside mem m a n.
Proof.
  intros H Hk Hc Hf Hv. cbv zeta. unfold struct_written.
  pose proof (host4_len (u32 f)) as L1. pose proof (host4_len (u32 c)) as L2.
  pose proof (le32_stored f Hf) as V1. pose proof (le32_stored c Hv) as V2.
  set (bf := host_bytes 4 (u32 f)) in *. set (bc := host_bytes 4 (u32 c)) in *. clearbody bf bc.
  set (m1 := written mem a [d]). assert (E1 : length m1 = length mem) by (unfold m1; apply written_length; cbn [length]; lia).
  set (m2 := written m1 (a + 4) bf). assert (E2 : length m2 = length mem) by (unfold m2; rewrite written_length; lia).
  set (m3 := written m2 (a + 8) bc). assert (E3 : length m3 = length mem) by (unfold m3; rewrite written_length; lia).
  set (m4 := written m3 (a + 12) cc). assert (E4 : length m4 = length mem) by (unfold m4; rewrite written_length; lia).
  split; [|split].
  - unfold ext_at. f_equal.
    + rewrite nth_written by lia. wsolve. unfold m4. rewrite nth_written by lia. wsolve. unfold m3. rewrite nth_written by lia. wsolve.
      unfold m2. rewrite nth_written by lia. wsolve. unfold m1. rewrite nth_written by (cbn [length]; lia). cbn [length]. wsolve. now rewrite Nat.sub_diag.
    + rewrite region_other by (unfold disjoint; lia). unfold m4. rewrite region_other by (unfold disjoint; lia). unfold m3. rewrite region_other by (unfold disjoint; lia).
      unfold m2. rewrite region_same' by lia. exact V1.
    + rewrite region_other by (unfold disjoint; lia). unfold m4. rewrite region_other by (unfold disjoint; lia). unfold m3. rewrite region_same' by lia. exact V2.
    + rewrite region_other by (unfold disjoint; lia). unfold m4. now rewrite region_same' by lia.
  - now rewrite region_same by lia.
  - assert (O1 : only_inside mem m1 a n) by (apply only_written; [apply only_refl|cbn [length]; lia..]).
    assert (O2 : only_inside mem m2 a n) by (apply only_written; auto; lia).
    assert (O3 : only_inside mem m3 a n) by (apply only_written; auto; lia).
    assert (O4 : only_inside mem m4 a n) by (apply only_written; auto; lia).
    apply only_written; auto; lia.
Qed.

(** ** Encoding *)
Lemma write_ext_at rule mem ext code : bytes (region mem ext 44) -> (ext + 44 <= length mem)%nat -> (code + 41 <= length mem)%nat ->
  disjoint code 41 ext 44 -> write_key_extension_at rule mem ext code = Ok (written mem code (ext_layout (ext_at mem ext))).
Proof.
  intros B H1 H2 D. unfold disjoint in D. unfold write_key_extension_at, o_depth, o_fingerprint, o_child, o_chain. rewrite Nat.add_0_r.
  rewrite rd_at by lia. cbn [bind]. pose proof (byte_nth mem ext 44 ext B H1 ltac:(lia)) as Bd.
  assert (U : u8 (nth ext mem 0) = nth ext mem 0) by (unfold u8; apply Z.mod_small; exact Bd). rewrite U. set (d := nth ext mem 0) in *.
  rewrite store_at by (cbn [length]; lia). cbn [bind].
  set (m1 := written mem code [d]). assert (E1 : length m1 = length mem) by (unfold m1; apply written_length; cbn [length]; lia).
  assert (R1 : forall b k, (ext <= b)%nat -> (b + k <= ext + 44)%nat -> region m1 b k = region mem b k).
  { intros b k Hb Hk. unfold m1. apply region_other; cbn [length]; unfold disjoint; cbn [length]; lia. }
  rewrite get32_at by (try lia; rewrite R1 by lia; apply (bytes_region_sub mem ext 44); auto; lia). rewrite R1 by lia. cbn [bind].
  set (f := le_val (region mem (ext + 4) 4)). unfold htole32. rewrite host_bytes_le. rewrite store_at by (rewrite le_bytes_length; lia). cbn [bind].
  assert (M2 : written m1 (code + 1) (le_bytes 4 f) = written mem code ([d] ++ le_bytes 4 f)).
  { unfold m1. apply w_app; [reflexivity|]. rewrite le_bytes_length. cbn [length]. lia. }
  rewrite M2. clear M2. set (x2 := [d] ++ le_bytes 4 f). assert (X2 : length x2 = 5%nat) by (unfold x2; rewrite app_length, le_bytes_length; reflexivity).
  set (m2 := written mem code x2). assert (E2 : length m2 = length mem) by (unfold m2; apply written_length; lia).
  assert (R2 : forall b k, (ext <= b)%nat -> (b + k <= ext + 44)%nat -> region m2 b k = region mem b k).
  { intros b k Hb Hk. unfold m2. apply region_other; try lia. unfold disjoint. lia. }
  rewrite get32_at by (try lia; rewrite R2 by lia; apply (bytes_region_sub mem ext 44); auto; lia). rewrite R2 by lia. cbn [bind].
  set (c := le_val (region mem (ext + 8) 4)). unfold htobe32. rewrite htobe_bytes. rewrite store_at by (rewrite be_bytes_length; lia). cbn [bind].
  assert (M3 : written m2 (code + 5) (be_bytes 4 c) = written mem code (x2 ++ be_bytes 4 c)).
  { unfold m2. apply w_app; [lia|]. rewrite be_bytes_length. lia. }
  rewrite M3. clear M3. set (x3 := x2 ++ be_bytes 4 c). assert (X3 : length x3 = 9%nat) by (unfold x3; rewrite app_length, be_bytes_length; lia).
  set (m3 := written mem code x3). assert (E3 : length m3 = length mem) by (unfold m3; apply written_length; lia).
  rewrite memcpy_apart by (try lia; left; unfold disjoint; lia).
  assert (R3 : region m3 (ext + 12) 32 = region mem (ext + 12) 32) by (unfold m3; apply region_other; try lia; unfold disjoint; lia).
  rewrite R3. f_equal. unfold m3. rewrite w_app; [|lia|rewrite region_length; lia]. unfold x3, x2, ext_layout, ext_at. cbn [x_depth x_fingerprint x_child x_chain_code].
  rewrite <- !app_assoc. reflexivity.
Qed.
Lemma ext_at_layout_length mem a : (a + 44 <= length mem)%nat -> length (ext_layout (ext_at mem a)) = 41%nat.
Proof. intros H. apply ext_layout_length. cbn [ext_at x_chain_code]. apply region_length. lia. Qed.
Lemma exkey_encode_at_ok rule mem key code : bytes (region mem key 76) -> (key + 76 <= length mem)%nat -> (code + 74 <= length mem)%nat ->
  disjoint code 74 key 76 -> exkey_encode_at rule mem key code = Ok (written mem code (key_layout (ex_key_at mem key))).
Proof.
  intros B H1 H2 D. unfold disjoint in D. unfold exkey_encode_at, o_key.
  rewrite write_ext_at by (first [lia|solve [apply (bytes_region_sub mem key 76); auto; lia]|unfold disjoint; lia]). cbn [bind].
  pose proof (ext_at_layout_length mem key ltac:(lia)) as Le. set (x := ext_layout (ext_at mem key)) in *.
  assert (L1 : length (written mem code x) = length mem) by (apply written_length; lia).
  rewrite store_at by (cbn [length]; lia). cbn [bind]. rewrite w_app by (cbn [length]; lia).
  assert (L2 : length (x ++ [0]) = 42%nat) by (rewrite app_length, Le; reflexivity).
  assert (L3 : length (written mem code (x ++ [0])) = length mem) by (apply written_length; lia).
  rewrite memcpy_apart by (try lia; left; unfold disjoint; lia). rewrite region_other by (try lia; unfold disjoint; lia).
  f_equal. rewrite w_app by (try lia; rewrite region_length; lia). unfold key_layout, ex_key_at. cbn [xk_ext xk_key]. fold x. now rewrite <- app_assoc.
Qed.
Lemma expubkey_encode_at_ok rule mem pub code : bytes (region mem pub 77) -> (pub + 77 <= length mem)%nat -> (code + 74 <= length mem)%nat ->
  disjoint code 74 pub 77 -> expubkey_encode_at rule mem pub code = Ok (written mem code (pub_layout (ex_pubkey_at mem pub))).
Proof.
  intros B H1 H2 D. unfold disjoint in D. unfold expubkey_encode_at, o_key.
  rewrite write_ext_at by (first [lia|solve [apply (bytes_region_sub mem pub 77); auto; lia]|unfold disjoint; lia]). cbn [bind].
  pose proof (ext_at_layout_length mem pub ltac:(lia)) as Le. set (x := ext_layout (ext_at mem pub)) in *.
  assert (L1 : length (written mem code x) = length mem) by (apply written_length; lia).
  rewrite memcpy_apart by (try lia; left; unfold disjoint; lia). rewrite region_other by (try lia; unfold disjoint; lia).
  f_equal. rewrite w_app by (try lia; rewrite region_length; lia). unfold pub_layout, ex_pubkey_at. cbn [xp_ext xp_c_pubkey]. reflexivity.
Qed.

(** ** Decoding *)
Lemma read_ext_at rule mem code ext : bytes (region mem code 41) -> (code + 41 <= length mem)%nat -> (ext + 44 <= length mem)%nat -> disjoint ext 44 code 41 ->
  read_key_extension_at rule mem code ext = Ok (written (written (written (written mem ext [nth code mem 0])
    (ext + 4) (host_bytes 4 (u32 (le_val (region mem (code + 1) 4))))) (ext + 8) (host_bytes 4 (u32 (be_val (region mem (code + 5) 4))))) (ext + 12) (region mem (code + 9) 32)).
Proof.
  intros B H1 H2 D. unfold disjoint in D. unfold read_key_extension_at, o_depth, o_fingerprint, o_child, o_chain. rewrite Nat.add_0_r.
  rewrite rd_at by lia. cbn [bind]. rewrite store_at by (cbn [length]; lia). cbn [bind].
  set (m1 := written mem ext [nth code mem 0]). assert (E1 : length m1 = length mem) by (unfold m1; apply written_length; cbn [length]; lia).
  assert (R1 : region m1 (code + 1) 4 = region mem (code + 1) 4) by (unfold m1; apply region_other; cbn [length]; try lia; unfold disjoint; lia).
  rewrite read_le_at by (try lia; rewrite R1; apply (bytes_region_sub mem code 41); auto; lia). rewrite R1. cbn [bind].
  rewrite put32_at by lia. cbn [bind]. pose proof (host4_len (u32 (le_val (region mem (code + 1) 4)))) as L1. set (bf := host_bytes 4 _) in *. clearbody bf.
  set (m2 := written m1 (ext + 4) bf). assert (E2 : length m2 = length mem) by (unfold m2; rewrite written_length; lia).
  assert (R2 : region m2 (code + 5) 4 = region mem (code + 5) 4).
  { unfold m2. rewrite region_other by (try lia; unfold disjoint; lia). unfold m1; apply region_other; cbn [length]; try lia; unfold disjoint; lia. }
  rewrite read_be_at by (try lia; rewrite R2; apply (bytes_region_sub mem code 41); auto; lia). rewrite R2. cbn [bind].
  rewrite put32_at by lia. cbn [bind]. pose proof (host4_len (u32 (be_val (region mem (code + 5) 4)))) as L2. set (bc := host_bytes 4 _) in *. clearbody bc.
  set (m3 := written m2 (ext + 8) bc). assert (E3 : length m3 = length mem) by (unfold m3; rewrite written_length; lia).
  rewrite memcpy_apart by (try lia; left; unfold disjoint; lia).
  assert (R3 : region m3 (code + 9) 32 = region mem (code + 9) 32).
  { unfold m3. rewrite region_other by (try lia; unfold disjoint; lia). unfold m2. rewrite region_other by (try lia; unfold disjoint; lia).
    unfold m1; apply region_other; cbn [length]; try lia; unfold disjoint; lia. }
  rewrite R3. reflexivity.
Qed.
Definition decoded_ext (mem : list Z) (code : nat) : ex_extension :=
  mkExt (nth code mem 0) (le_val (region mem (code + 1) 4)) (be_val (region mem (code + 5) 4)) (region mem (code + 9) 32).
Lemma struct_prefix mem ext d f c cc b k : length cc = 32%nat -> (ext + 44 <= length mem)%nat -> (b + k <= length mem)%nat -> disjoint ext 44 b k ->
  let m := written (written (written (written mem ext [d]) (ext + 4) (host_bytes 4 (u32 f))) (ext + 8) (host_bytes 4 (u32 c))) (ext + 12) cc in
  length m = length mem /\ region m b k = region mem b k.
Proof.
  intros L H1 H2 D. unfold disjoint in D. cbv zeta.
  pose proof (host4_len (u32 f)) as L1. pose proof (host4_len (u32 c)) as L2. set (bf := host_bytes 4 _) in *. set (bc := host_bytes 4 (u32 c)) in *. clearbody bf bc.
  set (m1 := written mem ext [d]). assert (E1 : length m1 = length mem) by (unfold m1; apply written_length; cbn [length]; lia).
  set (m2 := written m1 (ext + 4) bf). assert (E2 : length m2 = length mem) by (unfold m2; rewrite written_length; lia).
  set (m3 := written m2 (ext + 8) bc). assert (E3 : length m3 = length mem) by (unfold m3; rewrite written_length; lia).
  split; [rewrite written_length; lia|]. rewrite region_other by (try lia; unfold disjoint; lia). unfold m3. rewrite region_other by (try lia; unfold disjoint; lia).
  unfold m2. rewrite region_other by (try lia; unfold disjoint; lia). unfold m1. apply region_other; cbn [length]; try lia; unfold disjoint; lia.
Qed.
Lemma exkey_decode_at_ok rule mem code key : bytes (region mem code 74) -> (code + 74 <= length mem)%nat -> (key + 76 <= length mem)%nat ->
  disjoint key 76 code 74 -> exists mem', exkey_decode_at rule mem code key = Ok mem' /\
    ex_key_at mem' key = mkExKey (decoded_ext mem code) (region mem (code + 42) 32) /\ only_inside mem mem' key 76.
Proof.
  intros B H1 H2 D. unfold disjoint in D. unfold exkey_decode_at, o_key.
  rewrite read_ext_at by (first [lia|solve [apply (bytes_region_sub mem code 74); auto; lia]|unfold disjoint; lia]). cbn [bind].
  assert (Lc : length (region mem (code + 9) 32) = 32%nat) by (apply region_length; lia).
  pose proof (le_val4 _ (bytes_region_sub mem code 74 (code + 1) 4 B H1 ltac:(lia) ltac:(lia)) ltac:(apply region_length; lia)) as Hf.
  pose proof (be_val4 _ (bytes_region_sub mem code 74 (code + 5) 4 B H1 ltac:(lia) ltac:(lia)) ltac:(apply region_length; lia)) as Hv.
  unfold decoded_ext. set (f := le_val (region mem (code + 1) 4)) in *. set (v := be_val (region mem (code + 5) 4)) in *. set (cc := region mem (code + 9) 32) in *.
  destruct (struct_prefix mem key (nth code mem 0) f v cc (code + 42) 32 Lc ltac:(lia) ltac:(lia) ltac:(unfold disjoint; lia)) as [Lm Rk].
  rewrite memcpy_apart by (try lia; left; unfold disjoint; lia). rewrite Rk.
  destruct (struct_written_spec mem key (nth code mem 0) f v cc (region mem (code + 42) 32) 76 H2 ltac:(rewrite region_length; lia) Lc Hf Hv) as (S1 & S2 & S3).
  eexists. split; [reflexivity|]. split; [|exact S3]. unfold ex_key_at. unfold struct_written in S1, S2. rewrite S1. rewrite region_length in S2 by lia. now rewrite S2.
Qed.
Lemma expubkey_decode_at_ok rule mem code pub : bytes (region mem code 74) -> (code + 74 <= length mem)%nat -> (pub + 77 <= length mem)%nat ->
  disjoint pub 77 code 74 -> exists mem', expubkey_decode_at rule mem code pub = Ok mem' /\
    ex_pubkey_at mem' pub = mkExPub (decoded_ext mem code) (region mem (code + 41) 33) /\ only_inside mem mem' pub 77.
Proof.
  intros B H1 H2 D. unfold disjoint in D. unfold expubkey_decode_at, o_key.
  rewrite read_ext_at by (first [lia|solve [apply (bytes_region_sub mem code 74); auto; lia]|unfold disjoint; lia]). cbn [bind].
  assert (Lc : length (region mem (code + 9) 32) = 32%nat) by (apply region_length; lia).
  pose proof (le_val4 _ (bytes_region_sub mem code 74 (code + 1) 4 B H1 ltac:(lia) ltac:(lia)) ltac:(apply region_length; lia)) as Hf.
  pose proof (be_val4 _ (bytes_region_sub mem code 74 (code + 5) 4 B H1 ltac:(lia) ltac:(lia)) ltac:(apply region_length; lia)) as Hv.
  unfold decoded_ext. set (f := le_val (region mem (code + 1) 4)) in *. set (v := be_val (region mem (code + 5) 4)) in *. set (cc := region mem (code + 9) 32) in *.
  destruct (struct_prefix mem pub (nth code mem 0) f v cc (code + 41) 33 Lc ltac:(lia) ltac:(lia) ltac:(unfold disjoint; lia)) as [Lm Rk].
  rewrite memcpy_apart by (try lia; left; unfold disjoint; lia). rewrite Rk.
  destruct (struct_written_spec mem pub (nth code mem 0) f v cc (region mem (code + 41) 33) 77 H2 ltac:(rewrite region_length; lia) Lc Hf Hv) as (S1 & S2 & S3).
  eexists. split; [reflexivity|]. split; [|exact S3]. unfold ex_pubkey_at. unfold struct_written in S1, S2. rewrite S1. rewrite region_length in S2 by lia. now rewrite S2.
Qed.

(** The value level decoders read the same members. *)
Lemma decode_ext_value mem code old : bytes (region mem code 74) -> (code + 74 <= length mem)%nat -> length (x_chain_code old) = 32%nat ->
  read_key_extension (region mem code 74) old = Ok (decoded_ext mem code).
Proof.
  intros B H L. unfold read_key_extension. set (r := region mem code 74) in *. assert (Lr : length r = 74%nat) by (apply region_length; lia).
  assert (Sub : forall b k, (b + k <= 74)%nat -> region r b k = region mem (code + b) k) by (intros b k Hb; apply region_region; lia).
  rewrite rd_at by lia. cbn [bind].
  assert (Br : forall b k, (b + k <= 74)%nat -> bytes (region r b k)) by (intros; now apply bytes_firstn, bytes_skipn).
  rewrite read_le_at by (try lia; apply Br; lia). cbn [bind]. rewrite read_be_at by (try lia; apply Br; lia). cbn [bind].
  rewrite slice_at by lia. cbn [bind]. rewrite !Sub by lia. rewrite store_full by (rewrite region_length; lia). cbn [bind].
  unfold decoded_ext. do 2 f_equal. rewrite <- !nth_default_eq. unfold nth_default, r. rewrite nth_error_region by lia. rewrite Nat.add_0_r. reflexivity.
Qed.

Lemma exkey_decode_value mem code old : bytes (region mem code 74) -> (code + 74 <= length mem)%nat -> wf_key old ->
  exkey_decode (region mem code 74) old = Ok (mkExKey (decoded_ext mem code) (region mem (code + 42) 32)).
Proof.
  intros B H ((_ & _ & _ & _ & Lo) & _ & Lk). unfold exkey_decode. rewrite decode_ext_value by assumption. cbn [bind].
  rewrite slice_at by (rewrite region_length; lia). cbn [bind]. rewrite region_region by lia. rewrite store_full by (rewrite region_length; lia). reflexivity.
Qed.
Lemma expubkey_decode_value mem code old : bytes (region mem code 74) -> (code + 74 <= length mem)%nat -> wf_pub old ->
  expubkey_decode (region mem code 74) old = Ok (mkExPub (decoded_ext mem code) (region mem (code + 41) 33)).
Proof.
  intros B H ((_ & _ & _ & _ & Lo) & _ & Lk). unfold expubkey_decode. rewrite decode_ext_value by assumption. cbn [bind].
  rewrite slice_at by (rewrite region_length; lia). cbn [bind]. rewrite region_region by lia. rewrite store_full by (rewrite region_length; lia). reflexivity.
Qed.
Lemma wf_ext_at mem a : bytes (region mem a 44) -> (a + 44 <= length mem)%nat -> wf_ext (ext_at mem a).
Proof.
  intros B H. unfold wf_ext, ext_at. cbn [x_depth x_fingerprint x_child x_chain_code].
  assert (S : forall b k, (a <= b)%nat -> (b + k <= a + 44)%nat -> bytes (region mem b k)) by (intros; apply (bytes_region_sub mem a 44); auto).
  split; [apply (byte_nth mem a 44); auto; lia|]. split; [apply le_val4; [apply S; lia|apply region_length; lia]|]. split; [apply le_val4; [apply S; lia|apply region_length; lia]|].
  split; [apply S; lia|apply region_length; lia].
Qed.
Lemma wf_key_at mem a : bytes (region mem a 76) -> (a + 76 <= length mem)%nat -> wf_key (ex_key_at mem a).
Proof.
  intros B H. split; [apply wf_ext_at; [apply (bytes_region_sub mem a 76); auto; lia|lia]|]. cbn [ex_key_at xk_key].
  split; [apply (bytes_region_sub mem a 76); auto; lia|apply region_length; lia].
Qed.
Lemma wf_pub_at mem a : bytes (region mem a 77) -> (a + 77 <= length mem)%nat -> wf_pub (ex_pubkey_at mem a).
Proof.
  intros B H. split; [apply wf_ext_at; [apply (bytes_region_sub mem a 77); auto; lia|lia]|]. cbn [ex_pubkey_at xp_c_pubkey].
  split; [apply (bytes_region_sub mem a 77); auto; lia|apply region_length; lia].
Qed.

(** The master key, for whatever 64 bytes the hash gives *)
Lemma exkey_init_at_ok mem key seed len I : (key + 76 <= length mem)%nat -> length I = 64%nat -> hmac_sha512 hashkey 12 (skipn seed mem) len = Ok I ->
  exists mem', exkey_init_at mem key seed len = Ok mem' /\
    ex_key_at mem' key = mkExKey (mkExt 0 0 0 (skipn 32 I)) (firstn 32 I) /\ only_inside mem mem' key 76.
Proof.
  intros H1 LI Eo. unfold exkey_init_at, o_depth, o_child, o_fingerprint, o_key, o_chain. rewrite Nat.add_0_r. rewrite Eo. clear Eo. cbn [bind].
  assert (Lk : length (firstn 32 I) = 32%nat) by (rewrite firstn_length; lia). assert (Lc : length (skipn 32 I) = 32%nat) by (rewrite skipn_length; lia).
  rewrite (slice_ok I 0 32), (slice_ok I 32 32) by lia. rewrite skipn_O.
  replace (firstn 32 (skipn 32 I)) with (skipn 32 I) by (symmetry; apply firstn_all2; lia).
  set (k := firstn 32 I) in *. set (c := skipn 32 I) in *. clearbody k c.
  rewrite store_at by (cbn [length]; lia). cbn [bind]. set (m1 := written mem key [0]). assert (E1 : length m1 = length mem) by (unfold m1; apply written_length; cbn [length]; lia).
  rewrite put32_at by lia. cbn [bind]. pose proof (host4_len (u32 0)) as L4. pose proof (struct_written_spec mem key 0 0 0 c k 76 H1 ltac:(lia) Lc ltac:(lia) ltac:(lia)) as SW.
  unfold struct_written in SW. fold m1 in SW. set (z := host_bytes 4 (u32 0)) in *.
  rewrite put32_at by (rewrite written_length; lia). fold z. cbn [bind]. clearbody z.
  rewrite (written_swap m1 (key + 8) z (key + 4) z) by (try lia; unfold disjoint; lia).
  set (m3 := written (written m1 (key + 4) z) (key + 8) z) in *. assert (E3 : length m3 = length mem) by (unfold m3; rewrite !written_length; rewrite ?written_length; lia).
  rewrite store_at by lia. cbn [bind].
  rewrite store_at by (rewrite written_length; lia). rewrite (written_swap m3 (key + 44) k (key + 12) c) by (try lia; unfold disjoint; lia).
  destruct SW as (S1 & S2 & S3). eexists. split; [reflexivity|]. split; [|exact S3]. unfold ex_key_at. rewrite S1. rewrite Lk in S2. now rewrite S2.
Qed.
