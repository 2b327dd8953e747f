(** C120-C122: keys of HMAC, and what equal digests, addresses and derived keys mean. *)
From Verif Require Import Base S_Words L_Endian M_Endian M_Sha1 S_Sha1 M_Sha2 S_Sha2 L_Sha2Top M_Ripemd S_Ripemd L_Ripemd M_Hash L_Hash M_Random M_Address M_Secp M_Key M_Exkey
  S_Secp L_Secp S_Der S_Life S_Bip32 S_Exkey S_Address L_Address P_Address P_Hash P_Sign L_Bip32 P_Bip32 P_Pubkey S_Dest P_Dest S_Wallet P_Wallet P_Typos P_Der S_Collide.

Lemma hmac_split H blk key msg : hmac H blk key msg = H (outer_message H blk key msg).
Proof. reflexivity. Qed.

Lemma mac256 key msg : bytes key -> bytes msg -> Z.of_nat (length key) < 2 ^ 61 -> Z.of_nat (length msg) + 64 < 2 ^ 61 ->
  hmac_sha256 key (length key) msg (length msg) = Ok (hmac SHA256 64 key msg).
Proof. intros. pose proof (C76_hmac_sha256 key [] msg []) as A. rewrite (app_nil_r key), (app_nil_r msg) in A. auto. Qed.
Lemma mac512 key msg : bytes key -> bytes msg -> Z.of_nat (length key) < 2 ^ 61 -> Z.of_nat (length msg) + 128 < 2 ^ 61 ->
  hmac_sha512 key (length key) msg (length msg) = Ok (hmac SHA512 128 key msg).
Proof. intros. pose proof (C77_hmac_sha512 key [] msg []) as A. rewrite (app_nil_r key), (app_nil_r msg) in A. auto. Qed.
Lemma dig256 msg : bytes msg -> Z.of_nat (length msg) < 2 ^ 61 -> sha2_256 msg (length msg) = Ok (SHA256 msg).
Proof. intros. pose proof (C73_sha256 msg []) as A. rewrite (app_nil_r msg) in A. now apply A. Qed.
Lemma dig512 msg : bytes msg -> Z.of_nat (length msg) < 2 ^ 61 -> sha2_512 msg (length msg) = Ok (SHA512 msg).
Proof. intros. pose proof (C74_sha512 msg []) as A. rewrite (app_nil_r msg) in A. now apply A. Qed.

(* ---- C120 ---- *)
Lemma zeros_block H blk key n : (length key + n <= blk)%nat -> key_block H blk (key ++ repeat 0 n) = key_block H blk key.
Proof.
  intros L. unfold key_block. cbv zeta. rewrite app_length, repeat_length. destruct (Nat.leb_spec (length key + n) blk); [|lia].
  destruct (Nat.leb_spec (length key) blk); [|lia]. rewrite app_length, repeat_length, <- app_assoc, <- repeat_app. f_equal. f_equal. lia.
Qed.
Lemma long_block H blk key : (blk < length key)%nat -> (length (H key) <= blk)%nat -> key_block H blk (H key) = key_block H blk key.
Proof.
  intros L L2. unfold key_block. cbv zeta. destruct (Nat.leb_spec (length key) blk); [lia|]. destruct (Nat.leb_spec (length (H key)) blk); [reflexivity|lia].
Qed.
Lemma hmac_block H blk k1 k2 msg : key_block H blk k1 = key_block H blk k2 -> hmac H blk k1 msg = hmac H blk k2 msg.
Proof. intros E. rewrite !hmac_split. unfold outer_message, inner_message. now rewrite E. Qed.

(** ** C120
    A key shorter than the block is the same key as the one filled up with zero bytes. *)
Theorem C120_zeros : forall key n msg, bytes key -> bytes msg -> Z.of_nat (length msg) < 2 ^ 60 ->
  ((length key + n <= 64)%nat -> hmac_sha256 (key ++ repeat 0 n) (length key + n) msg (length msg) = hmac_sha256 key (length key) msg (length msg)) /\
  ((length key + n <= 128)%nat -> hmac_sha512 (key ++ repeat 0 n) (length key + n) msg (length msg) = hmac_sha512 key (length key) msg (length msg)).
Proof.
  intros key n msg Bk Bm Lm. assert (Bz : bytes (key ++ repeat 0 n)) by (apply bytes_app; split; [exact Bk|apply Forall_forall; intros x Hx; apply repeat_spec in Hx; subst; unfold is_byte; lia]).
  assert (Lz : length (key ++ repeat 0 n) = (length key + n)%nat) by now rewrite app_length, repeat_length.
  split; intros L; rewrite <- Lz.
  - rewrite !mac256 by (assumption || lia). f_equal. apply hmac_block, zeros_block. exact L.
  - rewrite !mac512 by (assumption || lia). f_equal. apply hmac_block, zeros_block. exact L.
Qed.
Print Assumptions C120_zeros.

(** A key longer than the block is the same key as its digest. *)
Theorem C120_long_keys : forall key msg digest, bytes key -> Z.of_nat (length key) < 2 ^ 61 -> bytes msg -> Z.of_nat (length msg) < 2 ^ 60 ->
  ((64 < length key)%nat -> sha2_256 key (length key) = Ok digest ->
     hmac_sha256 key (length key) msg (length msg) = hmac_sha256 digest (length digest) msg (length msg)) /\
  ((128 < length key)%nat -> sha2_512 key (length key) = Ok digest ->
     hmac_sha512 key (length key) msg (length msg) = hmac_sha512 digest (length digest) msg (length msg)).
Proof.
  intros key msg digest Bk Lk Bm Lm.
  split; intros L E.
  - rewrite dig256 in E by assumption. injection E as <-. pose proof (SHA256_length key) as Ld.
    rewrite (mac256 key msg) by (assumption || lia). rewrite (mac256 (SHA256 key) msg) by (assumption || apply SHA256_bytes || lia).
    f_equal. symmetry. apply hmac_block, long_block; [exact L|lia].
  - rewrite dig512 in E by assumption. injection E as <-. pose proof (SHA512_length key) as Ld.
    rewrite (mac512 key msg) by (assumption || lia). rewrite (mac512 (SHA512 key) msg) by (assumption || apply SHA512_bytes || lia).
    f_equal. symmetry. apply hmac_block, long_block; [exact L|lia].
Qed.
Print Assumptions C120_long_keys.

(* ---- C121 ---- *)
Lemma list_dec (x y : list Z) : x = y \/ x <> y.
Proof. destruct (list_eq_dec Z.eq_dec x y); auto. Qed.
Lemma collide_or H x y : H x = H y -> x = y \/ collision H x y.
Proof. intros E. destruct (list_dec x y); [auto|right; split; assumption]. Qed.
Lemma map_lxor_inj c a b : map (Z.lxor c) a = map (Z.lxor c) b -> a = b.
Proof.
  revert b. induction a as [|x a IH]; intros [|y b] E; try discriminate; [reflexivity|]. cbn [map] in E. injection E as E1 E2. f_equal; [|auto].
  apply (f_equal (Z.lxor c)) in E1. now rewrite <- !Z.lxor_assoc, Z.lxor_nilpotent, !Z.lxor_0_l in E1.
Qed.
Lemma key_block_length H blk key : (forall m, length (H m) <= blk)%nat -> length (key_block H blk key) = blk.
Proof.
  intros L. unfold key_block. cbv zeta. rewrite app_length, repeat_length. specialize (L key). destruct (Nat.leb_spec (length key) blk); lia.
Qed.
Lemma hmac_collide H blk k1 m1 k2 m2 : (forall m, length (H m) <= blk)%nat -> hmac H blk k1 m1 = hmac H blk k2 m2 ->
  (key_block H blk k1 = key_block H blk k2 /\ m1 = m2) \/
  collision H (inner_message H blk k1 m1) (inner_message H blk k2 m2) \/
  collision H (outer_message H blk k1 m1) (outer_message H blk k2 m2).
Proof.
  intros L E. rewrite !hmac_split in E. destruct (collide_or _ _ _ E) as [O|C]; [|auto].
  unfold outer_message in O. apply app_inj_len in O; [|rewrite !map_length, !key_block_length by exact L; reflexivity].
  destruct O as [O1 O2]. apply map_lxor_inj in O1. destruct (collide_or _ _ _ O2) as [I|C]; [|auto].
  left. split; [exact O1|]. unfold inner_message in I. rewrite O1 in I. now apply app_inv_head in I.
Qed.

(** ** C121
    Equal digests: the messages are equal, or the two messages (or the two inner digests) are a collision of the underlying hash function. *)
Theorem C121_hash256 : forall a b ra rb d, bytes (a ++ ra) -> bytes (b ++ rb) -> Z.of_nat (length a) < 2 ^ 61 -> Z.of_nat (length b) < 2 ^ 61 ->
  btc_hash256 (a ++ ra) (length a) = Ok d -> btc_hash256 (b ++ rb) (length b) = Ok d ->
  a = b \/ collision SHA256 a b \/ collision SHA256 (SHA256 a) (SHA256 b).
Proof.
  intros a b ra rb d Ba Bb La Lb Ea Eb.
  rewrite (proj1 (C78_hash256 a ra Ba La)) in Ea. rewrite (proj1 (C78_hash256 b rb Bb Lb)) in Eb.
  assert (E : SHA256 (SHA256 a) = SHA256 (SHA256 b)) by congruence.
  destruct (collide_or _ _ _ E) as [I|C]; [|auto]. destruct (collide_or _ _ _ I); auto.
Qed.
Print Assumptions C121_hash256.

Lemma hash160_collide a b : hash160_of a = hash160_of b -> a = b \/ collision SHA256 a b \/ collision RIPEMD160 (SHA256 a) (SHA256 b).
Proof. intros E. destruct (collide_or RIPEMD160 (SHA256 a) (SHA256 b) E) as [I|C]; [|auto]. destruct (collide_or SHA256 a b I); auto. Qed.
Theorem C121_hash160 : forall a b ra rb d, bytes (a ++ ra) -> bytes (b ++ rb) -> Z.of_nat (length a) < 2 ^ 61 -> Z.of_nat (length b) < 2 ^ 61 ->
  btc_hash160 (a ++ ra) (length a) = Ok d -> btc_hash160 (b ++ rb) (length b) = Ok d ->
  a = b \/ collision SHA256 a b \/ collision RIPEMD160 (SHA256 a) (SHA256 b).
Proof.
  intros a b ra rb d Ba Bb La Lb Ea Eb.
  rewrite (proj1 (C78_hash160 a ra Ba La)) in Ea. rewrite (proj1 (C78_hash160 b rb Bb Lb)) in Eb.
  apply hash160_collide. unfold hash160_of. congruence.
Qed.
Print Assumptions C121_hash160.

(** Equal MACs: the same key (up to C120) and the same message, or a collision. *)
Theorem C121_hmac_sha256 : forall k1 m1 k2 m2 d, bytes k1 -> bytes m1 -> bytes k2 -> bytes m2 ->
  Z.of_nat (length k1) < 2 ^ 60 -> Z.of_nat (length m1) < 2 ^ 60 -> Z.of_nat (length k2) < 2 ^ 60 -> Z.of_nat (length m2) < 2 ^ 60 ->
  hmac_sha256 k1 (length k1) m1 (length m1) = Ok d -> hmac_sha256 k2 (length k2) m2 (length m2) = Ok d ->
  (key_block SHA256 64 k1 = key_block SHA256 64 k2 /\ m1 = m2) \/
  collision SHA256 (inner_message SHA256 64 k1 m1) (inner_message SHA256 64 k2 m2) \/
  collision SHA256 (outer_message SHA256 64 k1 m1) (outer_message SHA256 64 k2 m2).
Proof.
  intros k1 m1 k2 m2 d B1 B2 B3 B4 L1 L2 L3 L4 E1 E2.
  rewrite mac256 in E1, E2 by (assumption || lia).
  apply hmac_collide; [intros m; rewrite SHA256_length; lia|congruence].
Qed.
Print Assumptions C121_hmac_sha256.
Theorem C121_hmac_sha512 : forall k1 m1 k2 m2 d, bytes k1 -> bytes m1 -> bytes k2 -> bytes m2 ->
  Z.of_nat (length k1) < 2 ^ 60 -> Z.of_nat (length m1) < 2 ^ 60 -> Z.of_nat (length k2) < 2 ^ 60 -> Z.of_nat (length m2) < 2 ^ 60 ->
  hmac_sha512 k1 (length k1) m1 (length m1) = Ok d -> hmac_sha512 k2 (length k2) m2 (length m2) = Ok d ->
  (key_block SHA512 128 k1 = key_block SHA512 128 k2 /\ m1 = m2) \/
  collision SHA512 (inner_message SHA512 128 k1 m1) (inner_message SHA512 128 k2 m2) \/
  collision SHA512 (outer_message SHA512 128 k1 m1) (outer_message SHA512 128 k2 m2).
Proof.
  intros k1 m1 k2 m2 d B1 B2 B3 B4 L1 L2 L3 L4 E1 E2.
  rewrite mac512 in E1, E2 by (assumption || lia).
  apply hmac_collide; [intros m; rewrite SHA512_length; lia|congruence].
Qed.
Print Assumptions C121_hmac_sha512.

(** Two keys of the same length up to the block size that have the same key block are the same key. *)
Theorem C121_same_key_block : forall H blk k1 k2, length k1 = length k2 -> (length k1 <= blk)%nat -> key_block H blk k1 = key_block H blk k2 -> k1 = k2.
Proof.
  intros H blk k1 k2 L Lb E. unfold key_block in E. cbv zeta in E. rewrite <- L in E. destruct (Nat.leb_spec (length k1) blk); [|lia].
  rewrite <- L in E. now apply app_inv_tail in E.
Qed.
Print Assumptions C121_same_key_block.

(* ---- addresses ---- *)
Lemma pub_of_inj E a b : secp_laws E -> scalar a -> scalar b -> pub_of E a = pub_of E b -> a = b.
Proof.
  intros Laws Ha Hb H. unfold scalar in *.
  pose proof (law_add E Laws a (secp_n - b) Ha ltac:(lia)) as A. pose proof (law_add E Laws b (secp_n - b) Hb ltac:(lia)) as B.
  replace (b + (secp_n - b)) with secp_n in B by lia. rewrite Z.mod_same in B by (unfold secp_n; lia). cbn [Z.eqb] in B.
  rewrite H, B in A. destruct ((a + (secp_n - b)) mod secp_n =? 0) eqn:Q; [|discriminate].
  apply Z.eqb_eq in Q. destruct (Z_le_gt_dec b a) as [L|L].
  - replace (a + (secp_n - b)) with ((a - b) + 1 * secp_n) in Q by lia. rewrite Z.mod_add in Q by (unfold secp_n; lia). rewrite Z.mod_small in Q by lia. lia.
  - rewrite Z.mod_small in Q by lia. lia.
Qed.
Lemma ser_inj E c d P Q : secp_laws E -> ser E c P = ser E d Q -> c = d /\ P = Q.
Proof.
  intros Laws H. split.
  - pose proof (law_ser33 E Laws P) as (A & _). pose proof (law_ser65 E Laws P) as (B & _). pose proof (law_ser33 E Laws Q) as (C & _). pose proof (law_ser65 E Laws Q) as (D & _).
    destruct c, d; try reflexivity; rewrite H in *; lia.
  - pose proof (law_parse E Laws c P) as A. pose proof (law_parse E Laws d Q) as B. rewrite H in A. congruence.
Qed.
Lemma key_val_inj a b : bytes a -> bytes b -> length a = 32%nat -> length b = 32%nat -> be_val a = be_val b -> a = b.
Proof. intros Ba Bb La Lb E. rewrite <- (be_bytes_be_val a Ba), <- (be_bytes_be_val b Bb), La, Lb, E. reflexivity. Qed.
Lemma ser_key_inj E c d a b : secp_laws E -> bytes a -> length a = 32%nat -> scalar (be_val a) -> bytes b -> length b = 32%nat -> scalar (be_val b) ->
  ser E c (pub_of E (be_val a)) = ser E d (pub_of E (be_val b)) -> c = d /\ a = b.
Proof.
  intros Laws Ba La Sa Bb Lb Sb H. destruct (ser_inj E c d _ _ Laws H) as [-> P]. split; [reflexivity|].
  apply key_val_inj; auto. exact (pub_of_inj E _ _ Laws Sa Sb P).
Qed.

Definition thing_of (E : secp) (x : payee) : thing :=
  match x with
  | PayKey _ _ => KeyHash (hash160_of (pay_data E x))
  | PayScript _ => ScriptHash (hash160_of (pay_data E x))
  | PayWitnessKey _ => WitnessKeyHash (hash160_of (pay_data E x))
  | PayWitnessScript _ => WitnessScriptHash (SHA256 (pay_data E x))
  end.
Lemma h160_facts d : bytes (hash160_of d) /\ length (hash160_of d) = 20%nat.
Proof. unfold hash160_of. split; [apply RIPEMD160_bytes|apply RIPEMD160_length]. Qed.
Lemma thing_proper E x : proper (thing_of E x).
Proof. destruct x; cbn [thing_of proper]; try apply h160_facts. split; [apply SHA256_bytes|apply SHA256_length]. Qed.
Lemma pay_ok E g net x : secp_laws E -> ready g -> good_payee x -> pay_text E g net x = write_text (thing_of E x) net.
Proof.
  intros Laws G Gx.
  assert (K : forall key c, bytes key /\ length key = 32%nat /\ 0 < be_val key < secp_n -> key_keyid E g key c = Ok (hash160_of (ser E c (pub_of E (be_val key))))).
  { intros key c (B & L & S). pose proof (keyid_ok E g key [] c Laws G L S) as Q. rewrite app_nil_r in Q. exact Q. }
  assert (H : forall s, bytes s -> Z.of_nat (length s) < 2 ^ 61 -> btc_hash160 s (length s) = Ok (hash160_of s)).
  { intros s B L. pose proof (proj1 (C78_hash160 s [] ltac:(rewrite app_nil_r; exact B) L)) as Q. rewrite app_nil_r in Q. exact Q. }
  destruct x as [key c|s|key|s]; cbn [good_payee] in Gx; cbn [pay_text thing_of pay_data write_text].
  - rewrite K by exact Gx. reflexivity.
  - rewrite H by tauto. reflexivity.
  - rewrite K by exact Gx. reflexivity.
  - rewrite dig256 by tauto. reflexivity.
Qed.

(** Every valid key and every script has an address of each kind on each network. *)
Theorem C121_addresses_exist : forall E g net x, secp_laws E -> ready g -> builtin net -> good_payee x ->
  exists text, pay_text E g net x = Ok (length text, text) /\ (0 < length text <= 128)%nat /\ Forall (fun c => 33 <= c <= 126) text.
Proof.
  intros E g net x Laws G Hn Gx. rewrite (pay_ok E g net x Laws G Gx). exact (C117_always_written (thing_of E x) net Hn (thing_proper E x)).
Qed.
Print Assumptions C121_addresses_exist.

(** Two keys or scripts with the same address are the same (same kind of address, same key in the same format, same script), or what
    they are hashed from is a collision of SHA-256, or the two SHA-256 digests are one of RIPEMD-160. *)
Theorem C121_addresses : forall E g p q x y n m text, secp_laws E -> ready g -> builtin p -> builtin q -> good_payee x -> good_payee y ->
  pay_text E g p x = Ok (n, text) -> pay_text E g q y = Ok (m, text) ->
  x = y \/ collision SHA256 (pay_data E x) (pay_data E y) \/ collision RIPEMD160 (SHA256 (pay_data E x)) (SHA256 (pay_data E y)).
Proof.
  intros E g p q x y n m text Laws G Hp Hq Gx Gy Ex Ey. rewrite pay_ok in Ex, Ey by assumption.
  destruct (C117_texts_unambiguous _ _ _ _ _ _ _ Hp Hq (thing_proper E x) (thing_proper E y) Ex Ey) as [T _]. clear Ex Ey.
  assert (D : pay_data E x = pay_data E y \/ collision SHA256 (pay_data E x) (pay_data E y) \/ collision RIPEMD160 (SHA256 (pay_data E x)) (SHA256 (pay_data E y))).
  { destruct x, y; cbn [thing_of] in T; try discriminate; injection T as T;
      first [exact (hash160_collide _ _ T) | destruct (collide_or _ _ _ T); auto]. }
  destruct D as [D|D]; [left|right; exact D].
  destruct x, y; cbn [thing_of] in T; try discriminate; clear T; cbn [pay_data good_payee] in *.
  - assert (compressed = compressed0 /\ key = key0) as [Q1 Q2] by (apply (ser_key_inj E); unfold scalar; tauto). now subst.
  - now subst.
  - assert (true = true /\ key = key0) as [_ Q2] by (apply (ser_key_inj E); unfold scalar; tauto). now subst.
  - now subst.
Qed.
Print Assumptions C121_addresses.

(* ---- C122 ---- *)
(** What BIP-32 hashes (under the chain code) for the child with number [i]. *)
Definition child_message (E : secp) (k i : Z) : list Z :=
  if 2 ^ 31 <=? i then 0 :: be_bytes 32 k ++ be_bytes 4 i else ser E true (pub_of E k) ++ be_bytes 4 i.
Lemma child_message_shape E k i : secp_laws E -> exists h, child_message E k i = h ++ be_bytes 4 i /\ length h = 33%nat.
Proof.
  intros Laws. unfold child_message. destruct (2 ^ 31 <=? i).
  - exists (0 :: be_bytes 32 k). split; [reflexivity|]. cbn [length]. now rewrite be_bytes_length.
  - exists (ser E true (pub_of E k)). split; [reflexivity|]. apply (law_ser33 E Laws).
Qed.
Lemma child_message_inj E k i j : secp_laws E -> 0 <= i < 2 ^ 32 -> 0 <= j < 2 ^ 32 -> child_message E k i = child_message E k j -> i = j.
Proof.
  intros Laws Hi Hj H. destruct (child_message_shape E k i Laws) as (h & Ei & Lh). rewrite Ei in H. destruct (child_message_shape E k j Laws) as (h' & E' & Lh'). rewrite E' in H.
  apply app_inj_len in H; [|congruence]. destruct H as [_ H]. apply (f_equal be_val) in H. rewrite !be_val_be_bytes in H.
  change (256 ^ Z.of_nat 4) with (2 ^ 32) in H. rewrite !Z.mod_small in H by assumption. exact H.
Qed.
Lemma ckd_priv_message E k chain i : ckd_priv E k chain i =
  (let I := hmac_sha512_of chain (child_message E k i) in
   let IL := be_val (firstn 32 I) in
   if (secp_order <=? IL) || ((IL + k) mod secp_order =? 0) then None else Some ((IL + k) mod secp_order, skipn 32 I)).
Proof. reflexivity. Qed.
Lemma sum_inj a b k : 0 <= a < secp_n -> 0 <= b < secp_n -> (a + k) mod secp_n = (b + k) mod secp_n -> a = b.
Proof.
  intros Ha Hb H. assert (N : secp_n <> 0) by (unfold secp_n; lia). generalize dependent secp_n. intros N. intros. 
  assert (E : (a - b) mod N = 0).
  { replace (a - b) with ((a + k) - (b + k)) by lia. rewrite Zminus_mod, H, Z.sub_diag. apply Z.mod_0_l. assumption. }
  apply Z.mod_divide in E; [|assumption]. destruct E as [q E]. destruct (Z.lt_trichotomy q 0) as [Q|[Q|Q]]; [|subst; lia|]; exfalso; clear H; nia.
Qed.
Lemma ckd_left E k chain i j ki ci kj cj : ckd_priv E k chain i = Some (ki, ci) -> ckd_priv E k chain j = Some (kj, cj) ->
  ki = kj -> firstn 32 (hmac_sha512_of chain (child_message E k i)) = firstn 32 (hmac_sha512_of chain (child_message E k j)).
Proof.
  rewrite !ckd_priv_message. cbv zeta. unfold hmac_sha512_of.
  pose proof (hmac512_bytes chain (child_message E k i)) as B1. pose proof (hmac512_bytes chain (child_message E k j)) as B2.
  pose proof (hmac512_length chain (child_message E k i)) as L1. pose proof (hmac512_length chain (child_message E k j)) as L2.
  generalize dependent (hmac SHA512 128 chain (child_message E k i)). intros I B1 L1.
  generalize dependent (hmac SHA512 128 chain (child_message E k j)). intros J B2 L2.
  pose proof (be_val_bound _ (bytes_firstn 32 I B1)) as V1. pose proof (be_val_bound _ (bytes_firstn 32 J B2)) as V2.
  assert (F1 : length (firstn 32 I) = 32%nat) by (rewrite firstn_length; lia). assert (F2 : length (firstn 32 J) = 32%nat) by (rewrite firstn_length; lia).
  pose proof (bytes_firstn 32 I B1) as C1. pose proof (bytes_firstn 32 J B2) as C2.
  generalize dependent (firstn 32 I). intros x F1 C1. generalize dependent (firstn 32 J). intros y F2 C2.
  change secp_order with secp_n in *.
  destruct (Z.leb_spec secp_n (be_val x)); cbn [orb]; [discriminate|]. destruct ((be_val x + k) mod secp_n =? 0); [discriminate|].
  destruct (Z.leb_spec secp_n (be_val y)); cbn [orb]; [discriminate|]. destruct ((be_val y + k) mod secp_n =? 0); [discriminate|].
  intros By Bx Q1 Q2 Ek. injection Q1 as Q1 _. injection Q2 as Q2 _. apply key_val_inj; auto. apply (sum_inj _ _ k); [lia|lia|congruence].
Qed.
Lemma ckd_right E k chain i ki ci : ckd_priv E k chain i = Some (ki, ci) -> ci = skipn 32 (hmac_sha512_of chain (child_message E k i)).
Proof. rewrite ckd_priv_message. cbv zeta. destruct (_ || _); [discriminate|]. intros H. now injection H as _ <-. Qed.
Lemma ckd_collide E k chain i j ki ci : secp_laws E -> 0 <= i < 2 ^ 32 -> 0 <= j < 2 ^ 32 -> i <> j ->
  ckd_priv E k chain i = Some (ki, ci) -> ckd_priv E k chain j = Some (ki, ci) ->
  collision SHA512 (inner_message SHA512 128 chain (child_message E k i)) (inner_message SHA512 128 chain (child_message E k j)) \/
  collision SHA512 (outer_message SHA512 128 chain (child_message E k i)) (outer_message SHA512 128 chain (child_message E k j)).
Proof.
  intros Laws Hi Hj N Di Dj. pose proof (ckd_left _ _ _ _ _ _ _ _ _ Di Dj eq_refl) as L. pose proof (ckd_right _ _ _ _ _ _ Di) as R1. pose proof (ckd_right _ _ _ _ _ _ Dj) as R2.
  rewrite R2 in R1. clear R2 Di Dj.
  assert (Q : hmac_sha512_of chain (child_message E k i) = hmac_sha512_of chain (child_message E k j)).
  { rewrite <- (firstn_skipn 32 (hmac_sha512_of chain (child_message E k i))), <- (firstn_skipn 32 (hmac_sha512_of chain (child_message E k j))). congruence. }
  apply hmac_collide in Q; [|intros m; rewrite SHA512_length; lia]. destruct Q as [[_ Q]|Q]; [|exact Q].
  exfalso. exact (N (child_message_inj E k i j Laws Hi Hj Q)).
Qed.

(** ** C122
    Two children of the same parent with different numbers (hardened or not) differ in the key or in the chain code, unless the four
    named messages contain a collision of SHA-512. *)
Theorem C122_children_differ : forall E g xk d1 d2 i j fp1 fp2 a b, secp_laws E -> ready g -> wf_key xk -> 0 < be_val (xk_key xk) < secp_order -> wf_key d1 -> wf_key d2 ->
  0 <= i < 2 ^ 32 -> 0 <= j < 2 ^ 32 -> i <> j ->
  exkey_derive E g xk d1 i fp1 = Ok (true, a) -> exkey_derive E g xk d2 j fp2 = Ok (true, b) ->
  xk_key a = xk_key b -> x_chain_code (xk_ext a) = x_chain_code (xk_ext b) ->
  let chain := x_chain_code (xk_ext xk) in
  let mi := child_message E (be_val (xk_key xk)) i in
  let mj := child_message E (be_val (xk_key xk)) j in
  collision SHA512 (inner_message SHA512 128 chain mi) (inner_message SHA512 128 chain mj) \/
  collision SHA512 (outer_message SHA512 128 chain mi) (outer_message SHA512 128 chain mj).
Proof.
  intros E g xk d1 d2 i j fp1 fp2 a b Laws G W S W1 W2 Hi Hj N Da Db Ek Ec. cbv zeta.
  pose proof (exkey_derive_ok E g xk d1 i fp1 Laws G W S W1 Hi) as P1. pose proof (exkey_derive_ok E g xk d2 j fp2 Laws G W S W2 Hj) as P2.
  destruct (ckd_priv E (be_val (xk_key xk)) (x_chain_code (xk_ext xk)) i) as [[ki ci]|] eqn:C1; [|destruct P1 as [d P1]; congruence].
  destruct (ckd_priv E (be_val (xk_key xk)) (x_chain_code (xk_ext xk)) j) as [[kj cj]|] eqn:C2; [|destruct P2 as [d P2]; congruence].
  destruct P1 as (P1 & S1 & _). destruct P2 as (P2 & S2 & _). rewrite P1 in Da. rewrite P2 in Db.
  injection Da as <-. injection Db as <-. cbn [xk_key xk_ext x_chain_code] in Ek, Ec. clear P1 P2.
  apply (f_equal be_val) in Ek. rewrite !be32_small in Ek by (unfold scalar in *; lia). subst kj cj.
  exact (ckd_collide E _ _ i j ki ci Laws Hi Hj N C1 C2).
Qed.
Print Assumptions C122_children_differ.

(** The same for the keys a watch-only machine derives from the extended public key. *)
Theorem C122_public_children_differ : forall E g xk d1 d2 i j fp1 fp2 a b, secp_laws E -> ready g -> wf_key xk -> 0 < be_val (xk_key xk) < secp_order -> wf_pub d1 -> wf_pub d2 ->
  0 <= i < 2 ^ 31 -> 0 <= j < 2 ^ 31 -> i <> j ->
  expubkey_derive E g (public_of E xk) d1 i fp1 = Ok (true, a) -> expubkey_derive E g (public_of E xk) d2 j fp2 = Ok (true, b) ->
  xp_c_pubkey a = xp_c_pubkey b -> x_chain_code (xp_ext a) = x_chain_code (xp_ext b) ->
  let chain := x_chain_code (xk_ext xk) in
  let mi := child_message E (be_val (xk_key xk)) i in
  let mj := child_message E (be_val (xk_key xk)) j in
  collision SHA512 (inner_message SHA512 128 chain mi) (inner_message SHA512 128 chain mj) \/
  collision SHA512 (outer_message SHA512 128 chain mi) (outer_message SHA512 128 chain mj).
Proof.
  intros E g xk d1 d2 i j fp1 fp2 a b Laws G W S W1 W2 Hi Hj N Da Db Ek Ec. cbv zeta.
  pose proof (public_of_wf E xk Laws W) as Wp.
  pose proof (expubkey_derive_ok E g (public_of E xk) _ d1 i fp1 Laws G Wp eq_refl W1 Hi) as P1. pose proof (expubkey_derive_ok E g (public_of E xk) _ d2 j fp2 Laws G Wp eq_refl W2 Hj) as P2.
  cbn [public_of xp_ext] in P1, P2. rewrite (C64_ckd_commutes E _ _ _ Laws S Hi) in P1. rewrite (C64_ckd_commutes E _ _ _ Laws S Hj) in P2.
  pose proof (exkey_derive_ok E g xk xk i fp1 Laws G W S W ltac:(lia)) as Q1. pose proof (exkey_derive_ok E g xk xk j fp2 Laws G W S W ltac:(lia)) as Q2.
  destruct (ckd_priv E (be_val (xk_key xk)) (x_chain_code (xk_ext xk)) i) as [[ki ci]|] eqn:C1; [|destruct P1 as [d P1]; unfold public_of in Da, P1; rewrite P1 in Da; discriminate].
  destruct (ckd_priv E (be_val (xk_key xk)) (x_chain_code (xk_ext xk)) j) as [[kj cj]|] eqn:C2; [|destruct P2 as [d P2]; unfold public_of in Db, P2; rewrite P2 in Db; discriminate].
  destruct P1 as (P1 & _). destruct P2 as (P2 & _). destruct Q1 as (_ & S1 & _). destruct Q2 as (_ & S2 & _).
  unfold public_of in Da, Db, P1, P2. rewrite P1 in Da. rewrite P2 in Db.
  injection Da as <-. injection Db as <-. cbn [xp_c_pubkey xp_ext x_chain_code] in Ek, Ec. clear P1 P2.
  apply ser_inj in Ek; [|exact Laws]. destruct Ek as [_ Ek]. apply pub_of_inj in Ek; auto. subst kj cj.
  exact (ckd_collide E _ _ i j ki ci Laws ltac:(lia) ltac:(lia) N C1 C2).
Qed.
Print Assumptions C122_public_children_differ.

(** Children alike in the key alone still need 32 bytes of the two MACs to agree. *)
Theorem C122_equal_keys : forall E g xk d1 d2 i j fp1 fp2 a b, secp_laws E -> ready g -> wf_key xk -> 0 < be_val (xk_key xk) < secp_order -> wf_key d1 -> wf_key d2 ->
  0 <= i < 2 ^ 32 -> 0 <= j < 2 ^ 32 ->
  exkey_derive E g xk d1 i fp1 = Ok (true, a) -> exkey_derive E g xk d2 j fp2 = Ok (true, b) -> xk_key a = xk_key b ->
  firstn 32 (hmac_sha512_of (x_chain_code (xk_ext xk)) (child_message E (be_val (xk_key xk)) i)) =
  firstn 32 (hmac_sha512_of (x_chain_code (xk_ext xk)) (child_message E (be_val (xk_key xk)) j)).
Proof.
  intros E g xk d1 d2 i j fp1 fp2 a b Laws G W S W1 W2 Hi Hj Da Db Ek.
  pose proof (exkey_derive_ok E g xk d1 i fp1 Laws G W S W1 Hi) as P1. pose proof (exkey_derive_ok E g xk d2 j fp2 Laws G W S W2 Hj) as P2.
  destruct (ckd_priv E (be_val (xk_key xk)) (x_chain_code (xk_ext xk)) i) as [[ki ci]|] eqn:C1; [|destruct P1 as [d P1]; congruence].
  destruct (ckd_priv E (be_val (xk_key xk)) (x_chain_code (xk_ext xk)) j) as [[kj cj]|] eqn:C2; [|destruct P2 as [d P2]; congruence].
  destruct P1 as (P1 & S1 & _). destruct P2 as (P2 & S2 & _). rewrite P1 in Da. rewrite P2 in Db.
  injection Da as <-. injection Db as <-. cbn [xk_key] in Ek. clear P1 P2.
  apply (f_equal be_val) in Ek. rewrite !be32_small in Ek by (unfold scalar in *; lia).
  exact (ckd_left _ _ _ _ _ _ _ _ _ C1 C2 Ek).
Qed.
Print Assumptions C122_equal_keys.

(** Why a non-hardened child must be kept as secret as its parent: the parent's private key is the child's minus a number that can be
    computed from the parent's extended public key alone. *)
Theorem C122_child_gives_parent : forall E g xk d i fp a, secp_laws E -> ready g -> wf_key xk -> 0 < be_val (xk_key xk) < secp_order -> wf_key d ->
  0 <= i < 2 ^ 31 -> exkey_derive E g xk d i fp = Ok (true, a) ->
  let xpub := public_of E xk in
  be_val (xk_key xk) = (be_val (xk_key a) - be_val (firstn 32 (hmac_sha512_of (x_chain_code (xp_ext xpub)) (xp_c_pubkey xpub ++ be_bytes 4 i)))) mod secp_order.
Proof.
  intros E g xk d i fp a Laws G W S Wd Hi Da. cbv zeta. cbn [public_of xp_ext xp_c_pubkey].
  pose proof (exkey_derive_ok E g xk d i fp Laws G W S Wd ltac:(lia)) as P1.
  destruct (ckd_priv E (be_val (xk_key xk)) (x_chain_code (xk_ext xk)) i) as [[ki ci]|] eqn:C1; [|destruct P1 as [d' P1]; congruence].
  destruct P1 as (P1 & S1 & _). rewrite P1 in Da. injection Da as <-. cbn [xk_key]. rewrite be32_small by (unfold scalar in *; lia). clear P1 S1.
  unfold ckd_priv in C1. replace (2 ^ 31 <=? i) with false in C1 by lia. cbv zeta in C1.
  generalize dependent (be_val (firstn 32 (hmac_sha512_of (x_chain_code (xk_ext xk)) (ser E true (pub_of E (be_val (xk_key xk))) ++ be_bytes 4 i)))). intros IL C1.
  destruct (_ || _); [discriminate|]. assert (E1 : (IL + be_val (xk_key xk)) mod secp_order = ki) by congruence. clear C1. subst ki.
  rewrite Zminus_mod_idemp_l. replace (IL + be_val (xk_key xk) - IL) with (be_val (xk_key xk)) by lia. symmetry. apply Z.mod_small. lia.
Qed.
Print Assumptions C122_child_gives_parent.

(* ---- the hypotheses are met ---- *)
Example C120_case : bytes [1; 2; 3] /\ (length [1; 2; 3] + 61 <= 64)%nat /\
  hmac_sha256 ([1; 2; 3] ++ repeat 0 61) 64 [9] 1 = hmac_sha256 [1; 2; 3] 3 [9] 1 /\
  hmac_sha256 ([1; 2; 3] ++ repeat 0 62) 65 [9] 1 <> hmac_sha256 [1; 2; 3] 3 [9] 1.
Proof.
  split; [repeat constructor; lia|]. split; [cbn; lia|]. split; [vm_compute; reflexivity|].
  intros H. assert (Q : match hmac_sha256 ([1; 2; 3] ++ repeat 0 62) 65 [9] 1, hmac_sha256 [1; 2; 3] 3 [9] 1 with Ok x, Ok y => hd 0 x =? hd 0 y | _, _ => true end = false) by (vm_compute; reflexivity).
  rewrite H in Q. destruct (hmac_sha256 [1; 2; 3] 3 [9] 1); [|discriminate|discriminate]. now rewrite Z.eqb_refl in Q.
Qed.

Example C121_case : let x := PayKey (repeat 7 32) true in let y := PayScript [81; 82] in
  secp_laws toy /\ ready ready_example /\ builtin mainnet /\ good_payee x /\ good_payee y /\
  (exists n m t u, pay_text toy ready_example mainnet x = Ok (n, t) /\ pay_text toy ready_example mainnet y = Ok (m, u) /\ t <> u).
Proof.
  cbv zeta. assert (Gx : good_payee (PayKey (repeat 7 32) true)).
  { split; [apply Forall_forall; intros b Hb; apply repeat_spec in Hb; subst; unfold is_byte; lia|]. split; [reflexivity|]. vm_compute. split; reflexivity. }
  assert (Gy : good_payee (PayScript [81; 82])) by (split; [repeat constructor; lia|cbn; lia]).
  split; [exact toy_laws|]. split; [exact ready_example_ok|]. split; [unfold builtin; tauto|]. split; [exact Gx|]. split; [exact Gy|].
  assert (B : builtin mainnet) by (unfold builtin; tauto).
  destruct (C121_addresses_exist toy ready_example mainnet _ toy_laws ready_example_ok B Gx) as (t & Et & _).
  destruct (C121_addresses_exist toy ready_example mainnet _ toy_laws ready_example_ok B Gy) as (u & Eu & _).
  exists (length t), (length u), t, u. split; [exact Et|]. split; [exact Eu|]. intros <-.
  rewrite pay_ok in Et, Eu by (exact toy_laws || exact ready_example_ok || assumption).
  destruct (C117_texts_unambiguous _ _ _ _ _ _ _ B B (thing_proper toy _) (thing_proper toy _) Et Eu) as [T _]. discriminate T.
Qed.
Example C122_case : secp_laws toy /\ ready ready_example /\ wf_key blank_key /\ wf_pub blank_pub /\ wf_key tv1_master_key /\ 0 < be_val (xk_key tv1_master_key) < secp_order /\
  (exists a, exkey_derive toy ready_example tv1_master_key blank_key 3 0 = Ok (true, a)).
Proof.
  destruct C116_witness as (L & G & _ & W & Wp & W2 & S & _). repeat (split; [assumption|]).
  pose proof (exkey_derive_ok toy ready_example tv1_master_key blank_key 3 0 L G W2 S W ltac:(lia)) as P.
  assert (Q : match ckd_priv toy (be_val (xk_key tv1_master_key)) (x_chain_code (xk_ext tv1_master_key)) 3 with Some _ => true | None => false end = true) by (vm_compute; reflexivity).
  destruct (ckd_priv toy _ _ 3) as [[k c]|]; [|discriminate]. destruct P as [P _]. eexists. exact P.
Qed.
