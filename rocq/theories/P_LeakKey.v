(** C138: what deriving keys, signing and encoding extended keys reveal to an observer of the machine. *)
From Verif Require Import Base S_Words L_Endian M_Endian M_Sha2 M_Hash M_Random M_Secp M_Key M_Exkey M_Overlap M_Leak M_LeakKey
  S_Secp S_Der S_Life S_Sign S_Exkey S_Bip32 S_LeakKey S_Leak L_Secp L_Der P_Der P_Sign L_Bip32 P_Bip32 P_Wallet S_Tree P_Tree L_Leak L_LeakKey.

Lemma sim_trace {A} (Rel : A -> A -> Prop) (x y : lk A) : sim Rel x y -> trace x = trace y.
Proof. intros [H _]. exact H. Qed.

Lemma hd_bindl {A B} (x : lk A) (f : A -> lk B) o : hd_error (trace x) = Some o -> hd_error (trace (bindl x f)) = Some o.
Proof. unfold bindl, trace. destruct x as [[|o' t] [a| |]]; cbn; intros H; try discriminate; exact H. Qed.

Lemma hd_exkey_derive E g px pd x d i f : hd_error (trace (exkey_derive_l E g px pd x d i f)) = Some (Test (Z.shiftr i 31 =? 0)).
Proof. unfold exkey_derive_l. apply hd_bindl. unfold key_derive_l. apply hd_bindl. reflexivity. Qed.

(** The observed runs are runs of the code. *)
Theorem C138_observed_runs : forall fuel E g p q r s t key chain ok oc child fp x d seed len pub P cmp code out hash b path,
  outcome (key_get_pub_l E g p q key) = key_get_pub E g key /\
  outcome (pubkey_encode_l E g p q P out len) = pubkey_encode E g P out len /\
  outcome (key_derive_l E g p q r s key chain ok oc child) = key_derive E g key chain ok oc child /\
  outcome (exkey_init_l p q x seed len) = exkey_init x seed len /\
  outcome (exkey_derive_l E g p q x d child fp) = exkey_derive E g x d child fp /\
  outcome (exkey_get_pub_l E g p q x pub) = exkey_get_pub E g x pub /\
  outcome (exkey_encode_l p q x code) = exkey_encode x code /\
  outcome (exkey_decode_l p q code x) = exkey_decode code x /\
  outcome (key_encode_l E g p q key out len) = key_encode E g key out len /\
  outcome (key_keyid_l E g p q key cmp) = key_keyid E g key cmp /\
  outcome (key_fingerprint_l E g p key cmp) = key_fingerprint E g key cmp /\
  outcome (key_sign_l fuel E g p q r key hash) = key_sign fuel E g key hash /\
  outcome (wallet_sign_l fuel E g p q r s t x b seed len path hash) = wallet_sign fuel E g x b seed len path hash.
Proof.
  intros. unfold outcome.
  split; [apply key_get_pub_l_erase|]. split; [apply pubkey_encode_l_erase|]. split; [apply key_derive_l_erase|]. split; [apply exkey_init_l_erase|].
  split; [apply exkey_derive_l_erase|]. split; [apply exkey_get_pub_l_erase|]. split; [apply exkey_encode_l_erase|]. split; [apply exkey_decode_l_erase|].
  split; [apply key_encode_l_erase|]. split; [apply key_keyid_l_erase|]. split; [apply key_fingerprint_l_erase|]. split; [apply key_sign_l_erase|].
  apply wallet_sign_l_erase.
Qed.
Print Assumptions C138_observed_runs.

(** Making a master key: two seeds of the same length cannot be told apart. *)
Theorem C138_master : forall px ps b1 b2 seed1 seed2 rest1 rest2, wf_key b1 -> wf_key b2 -> length seed1 = length seed2 ->
  trace (exkey_init_l px ps b1 (seed1 ++ rest1) (length seed1)) = trace (exkey_init_l px ps b2 (seed2 ++ rest2) (length seed2)).
Proof.
  intros px ps b1 b2 s1 s2 r1 r2 W1 W2 L. rewrite <- L. eapply sim_trace. apply exkey_init_sim; [exact W1|exact W2|]. split; rewrite app_length; lia.
Qed.
Print Assumptions C138_master.

(** Everything that only takes a valid secret key: the observations are the same for every two keys. *)
Theorem C138_constant : forall E g p q k1 k2 r1 r2 x1 x2 b1 b2 out1 out2 code1 code2 pub1 pub2 cmp n,
  secp_laws E -> ready g -> bytes k1 -> bytes k2 -> length k1 = 32%nat -> length k2 = 32%nat ->
  0 < be_val k1 < secp_order -> 0 < be_val k2 < secp_order ->
  wf_key x1 -> wf_key x2 -> 0 < be_val (xk_key x1) < secp_order -> 0 < be_val (xk_key x2) < secp_order -> wf_key b1 -> wf_key b2 -> wf_pub pub1 -> wf_pub pub2 ->
  (n = 214 \/ n = 279)%nat -> length out1 = length out2 -> (n <= length out1)%nat -> length code1 = length code2 -> (74 <= length code1)%nat ->
  trace (key_get_pub_l E g p q (k1 ++ r1)) = trace (key_get_pub_l E g p q (k2 ++ r2)) /\
  trace (key_keyid_l E g p q (k1 ++ r1) cmp) = trace (key_keyid_l E g p q (k2 ++ r2) cmp) /\
  trace (key_fingerprint_l E g p (k1 ++ r1) cmp) = trace (key_fingerprint_l E g p (k2 ++ r2) cmp) /\
  trace (key_encode_l E g p q (k1 ++ r1) out1 n) = trace (key_encode_l E g p q (k2 ++ r2) out2 n) /\
  trace (exkey_get_pub_l E g p q x1 pub1) = trace (exkey_get_pub_l E g p q x2 pub2) /\
  trace (exkey_encode_l p q x1 code1) = trace (exkey_encode_l p q x2 code2) /\
  trace (exkey_decode_l p q code1 b1) = trace (exkey_decode_l p q code2 b2).
Proof.
  intros E g p q k1 k2 r1 r2 x1 x2 b1 b2 out1 out2 code1 code2 pub1 pub2 cmp n Laws G B1 B2 L1 L2 S1 S2 W1 W2 V1 V2 Y1 Y2 P1 P2 Hn Ho Hno Hc Hnc.
  change secp_order with secp_n in *.
  assert (K1 : vkey (k1 ++ r1)) by (exists k1, r1; auto). assert (K2 : vkey (k2 ++ r2)) by (exists k2, r2; auto).
  split; [eapply sim_trace; apply get_pub_sim; assumption|]. split; [eapply sim_trace; apply keyid_sim; assumption|]. split; [eapply sim_trace; apply fingerprint_sim; assumption|].
  split; [eapply sim_trace; apply (key_encode_sim E g p q _ _ out1 out2 (length out1)); auto; split; congruence|].
  split; [eapply sim_trace; apply exkey_get_pub_sim; assumption|]. split; [eapply sim_trace; apply (exkey_encode_sim p q x1 x2 code1 code2 (length code1)); auto; split; congruence|].
  eapply sim_trace. apply exkey_decode_sim; [assumption|assumption|]. split; lia.
Qed.
Print Assumptions C138_constant.

(** Deriving a child: two derivations of the same kind (hardened or not) that end alike cannot be told apart, whatever
    the parents, the chain codes, the child numbers and the memory of the results. *)
Theorem C138_derive : forall E g px pd x1 x2 d1 d2 i1 i2 f1 f2 r y1 y2, secp_laws E -> ready g ->
  wf_key x1 -> wf_key x2 -> 0 < be_val (xk_key x1) < secp_order -> 0 < be_val (xk_key x2) < secp_order -> wf_key d1 -> wf_key d2 ->
  0 <= i1 < 2 ^ 32 -> 0 <= i2 < 2 ^ 32 -> same_kind i1 i2 ->
  exkey_derive E g x1 d1 i1 f1 = Ok (r, y1) -> exkey_derive E g x2 d2 i2 f2 = Ok (r, y2) ->
  trace (exkey_derive_l E g px pd x1 d1 i1 f1) = trace (exkey_derive_l E g px pd x2 d2 i2 f2).
Proof.
  intros E g px pd x1 x2 d1 d2 i1 i2 f1 f2 r y1 y2 Laws G W1 W2 S1 S2 D1 D2 H1 H2 SK R1 R2. change secp_order with secp_n in *.
  apply (exkey_derive_tr E g px pd x1 x2 d1 d2 i1 i2 f1 f2 Laws G W1 W2 S1 S2 D1 D2 SK H1 H2 (r, y1) (r, y2)); [| |reflexivity].
  - rewrite exkey_derive_l_erase. exact R1.
  - rewrite exkey_derive_l_erase. exact R2.
Qed.
Print Assumptions C138_derive.
(** The same for raw keys and chain codes. *)
Theorem C138_derive_raw : forall E g pk pc pok poc k1 k2 kr1 kr2 c1 c2 cr1 cr2 ok1 ok2 oc1 oc2 i1 i2 r y1 y2 z1 z2, secp_laws E -> ready g ->
  bytes k1 -> bytes k2 -> length k1 = 32%nat -> length k2 = 32%nat -> 0 < be_val k1 < secp_order -> 0 < be_val k2 < secp_order ->
  length c1 = 32%nat -> length c2 = 32%nat -> length ok1 = 32%nat -> length ok2 = 32%nat -> length oc1 = 32%nat -> length oc2 = 32%nat ->
  0 <= i1 < 2 ^ 32 -> 0 <= i2 < 2 ^ 32 -> same_kind i1 i2 ->
  key_derive E g (k1 ++ kr1) (c1 ++ cr1) ok1 oc1 i1 = Ok (r, y1, z1) -> key_derive E g (k2 ++ kr2) (c2 ++ cr2) ok2 oc2 i2 = Ok (r, y2, z2) ->
  trace (key_derive_l E g pk pc pok poc (k1 ++ kr1) (c1 ++ cr1) ok1 oc1 i1) = trace (key_derive_l E g pk pc pok poc (k2 ++ kr2) (c2 ++ cr2) ok2 oc2 i2).
Proof.
  intros E g pk pc pok poc k1 k2 kr1 kr2 c1 c2 cr1 cr2 ok1 ok2 oc1 oc2 i1 i2 r y1 y2 z1 z2 Laws G B1 B2 L1 L2 S1 S2 C1 C2 K1 K2 O1 O2 H1 H2 SK R1 R2.
  change secp_order with secp_n in *.
  apply (key_derive_tr E g pk pc pok poc (k1 ++ kr1) (k2 ++ kr2) (c1 ++ cr1) (c2 ++ cr2) ok1 ok2 oc1 oc2 i1 i2 32 32 Laws G) with (a := (r, y1, z1)) (b := (r, y2, z2)).
  - exists k1, kr1. auto.
  - exists k2, kr2. auto.
  - split; rewrite app_length; lia.
  - split; assumption.
  - split; assumption.
  - lia.
  - lia.
  - exact SK.
  - exact H1.
  - exact H2.
  - rewrite key_derive_l_erase. exact R1.
  - rewrite key_derive_l_erase. exact R2.
  - reflexivity.
Qed.
Print Assumptions C138_derive_raw.
(** That a derivation is hardened, on the other hand, shows at once. *)
Theorem C138_derive_reveals_kind : forall E g px pd x1 x2 d1 d2 i1 i2 f1 f2, 0 <= i1 < 2 ^ 32 -> 0 <= i2 < 2 ^ 32 -> ~ same_kind i1 i2 ->
  trace (exkey_derive_l E g px pd x1 d1 i1 f1) <> trace (exkey_derive_l E g px pd x2 d2 i2 f2).
Proof.
  intros E g px pd x1 x2 d1 d2 i1 i2 f1 f2 H1 H2 NK.
  pose proof (hd_exkey_derive E g px pd) as H.
  pose proof (H x1 d1 i1 f1) as H1'. pose proof (H x2 d2 i2 f2) as H2'. clear H.
  generalize dependent (exkey_derive_l E g px pd x1 d1 i1 f1). intros e1 H1'. generalize dependent (exkey_derive_l E g px pd x2 d2 i2 f2). intros e2 H2'.
  intros T. rewrite T, H2' in H1'. apply (f_equal (fun o => match o with Some (Test b) => b | _ => false end)) in H1'. cbv beta iota in H1'. rename H1' into T'. apply NK. rewrite !child_kind in T' by assumption.
  unfold same_kind. destruct (Z.leb_spec (2 ^ 31) i1), (Z.leb_spec (2 ^ 31) i2); cbn in T'; try discriminate; lia.
Qed.
Print Assumptions C138_derive_reveals_kind.

(** Signing: two signatures that need the same number of attempts cannot be told apart ... *)
Theorem C138_sign : forall fuel E g pk ph psig k1 k2 kr1 kr2 h1 h2 hr1 hr2 c, secp_laws E -> ready g ->
  bytes k1 -> bytes k2 -> length k1 = 32%nat -> length k2 = 32%nat -> 0 < be_val k1 < secp_order -> 0 < be_val k2 < secp_order ->
  bytes h1 -> bytes h2 -> length h1 = 32%nat -> length h2 = 32%nat ->
  attempts E k1 h1 c -> attempts E k2 h2 c -> (c <= fuel)%nat -> Z.of_nat c < 2 ^ 32 ->
  trace (key_sign_l fuel E g pk ph psig (k1 ++ kr1) (h1 ++ hr1)) = trace (key_sign_l fuel E g pk ph psig (k2 ++ kr2) (h2 ++ hr2)).
Proof.
  intros fuel E g pk ph psig k1 k2 kr1 kr2 h1 h2 hr1 hr2 c Laws G B1 B2 L1 L2 S1 S2 Bh1 Bh2 Lh1 Lh2 A1 A2 Hf Hc. change secp_order with secp_n in *.
  destruct (key_sign_l_trace E g k1 kr1 h1 hr1 ph pk psig fuel c) as [s1 ->]; auto.
  destruct (key_sign_l_trace E g k2 kr2 h2 hr2 ph pk psig fuel c) as [s2 ->]; auto.
Qed.
Print Assumptions C138_sign.
(** ... and that number is revealed. *)
Theorem C138_sign_reveals_attempts : forall fuel E g pk ph psig k1 k2 kr1 kr2 h1 h2 hr1 hr2 c1 c2, secp_laws E -> ready g ->
  bytes k1 -> bytes k2 -> length k1 = 32%nat -> length k2 = 32%nat -> 0 < be_val k1 < secp_order -> 0 < be_val k2 < secp_order ->
  bytes h1 -> bytes h2 -> length h1 = 32%nat -> length h2 = 32%nat ->
  attempts E k1 h1 c1 -> attempts E k2 h2 c2 -> (c1 <= fuel)%nat -> (c2 <= fuel)%nat -> Z.of_nat fuel < 2 ^ 32 ->
  trace (key_sign_l fuel E g pk ph psig (k1 ++ kr1) (h1 ++ hr1)) = trace (key_sign_l fuel E g pk ph psig (k2 ++ kr2) (h2 ++ hr2)) -> c1 = c2.
Proof.
  intros fuel E g pk ph psig k1 k2 kr1 kr2 h1 h2 hr1 hr2 c1 c2 Laws G B1 B2 L1 L2 S1 S2 Bh1 Bh2 Lh1 Lh2 A1 A2 Hf1 Hf2 Hf. change secp_order with secp_n in *.
  destruct (key_sign_l_trace E g k1 kr1 h1 hr1 ph pk psig fuel c1) as [s1 ->]; auto; try lia.
  destruct (key_sign_l_trace E g k2 kr2 h2 hr2 ph pk psig fuel c2) as [s2 ->]; auto; try lia.
  unfold trace. cbn [fst]. intros T. apply (f_equal (@length obs)) in T. rewrite !app_length, !grind_trace_length in T. lia.
Qed.
Print Assumptions C138_sign_reveals_attempts.

(** From a seed to a signature: two wallets whose seeds have the same length, which follow paths that are hardened at
    the same places and need the same number of attempts cannot be told apart. *)
Theorem C138_wallet : forall fuel E g px py ps ph psig b1 b2 b1' b2' seed1 seed2 path1 path2 hash1 hash2 m1 m2 k1 k2 c, secp_laws E -> ready g ->
  wf_key b1 -> wf_key b2 -> wf_key b1' -> wf_key b2' ->
  bytes seed1 -> bytes seed2 -> length seed1 = length seed2 -> Z.of_nat (length seed1) < 2 ^ 60 ->
  Forall valid_step path1 -> Forall valid_step path2 -> same_path path1 path2 ->
  exkey_init b1 seed1 (length seed1) = Ok m1 -> exkey_init b2 seed2 (length seed2) = Ok m2 ->
  0 < be_val (xk_key m1) < secp_order -> 0 < be_val (xk_key m2) < secp_order ->
  walk_two E g m1 b1' path1 = Ok (Some k1) -> walk_two E g m2 b2' path2 = Ok (Some k2) ->
  bytes hash1 -> bytes hash2 -> length hash1 = 32%nat -> length hash2 = 32%nat ->
  attempts E (xk_key k1) hash1 c -> attempts E (xk_key k2) hash2 c -> (c <= fuel)%nat -> Z.of_nat c < 2 ^ 32 ->
  trace (wallet_sign_l fuel E g px py ps ph psig b1 b1' seed1 (length seed1) path1 hash1) =
  trace (wallet_sign_l fuel E g px py ps ph psig b2 b2' seed2 (length seed2) path2 hash2).
Proof.
  intros fuel E g px py ps ph psig b1 b2 b1' b2' seed1 seed2 path1 path2 hash1 hash2 m1 m2 k1 k2 c Laws G W1 W2 W1' W2' Bs1 Bs2 Ls Hs F1 F2 SP M1 M2 V1 V2
    K1 K2 Bh1 Bh2 Lh1 Lh2 A1 A2 Hf Hc.
  destruct (C116_accounts_of_a_seed E g b1 seed1 [] m1 m1 Laws G W1 Bs1 Hs ltac:(constructor) M1 V1 eq_refl) as [X1 _].
  destruct (C116_accounts_of_a_seed E g b2 seed2 [] m2 m2 Laws G W2 Bs2 ltac:(lia) ltac:(constructor) M2 V2 eq_refl) as [X2 _].
  change secp_order with secp_n in *.
  destruct (exkey_init_sim px ps b1 b2 seed1 seed2 (length seed1) W1 W2 ltac:(split; lia)) as [TI _].
  rewrite Ls in TI at 2. rewrite <- (exkey_init_l_erase px ps) in M1, M2. unfold wallet_sign_l. apply (sim_trace (fun _ _ => True)).
  apply (sim_bind (fun a b => a = m1 /\ b = m2)); [split; [exact TI|rewrite M1, M2; split; reflexivity]|]. clear TI M1 M2. intros ? ? [-> ->].
  assert (W : forall m b path k, walk_two E g m b path = Ok (Some k) -> exists q, snd (walk_l E g px py m b path) = Ok (Some (q, k))).
  { intros m b path k H. rewrite <- (walk_l_erase E g path px py) in H.
    destruct (snd (walk_l E g px py m b path)) as [[[q k']|]| |]; cbn in H; try discriminate. injection H as ->. eauto. }
  destruct (W _ _ _ _ K1) as [q1 Q1]. destruct (W _ _ _ _ K2) as [q2 Q2].
  destruct (walk_tr E g path1 path2 Laws G SP F1 F2 px py m1 m2 b1' b2' q1 q2 k1 k2 X1 X2 V1 V2 W1' W2' Q1 Q2) as (TW & <- & Y1 & Y2 & Z1 & Z2).
  apply (sim_bind (fun a b => a = Some (q1, k1) /\ b = Some (q1, k2))); [split; [exact TW|rewrite Q1, Q2; split; reflexivity]|]. clear TW Q1 Q2. intros ? ? [-> ->].
  destruct Y1 as (_ & Bk1 & Lk1), Y2 as (_ & Bk2 & Lk2).
  pose proof (key_sign_l_trace E g (xk_key k1) [] hash1 [] ph (padd q1 o_key) psig fuel c Laws G Bk1 Lk1 Bh1 Lh1 Z1 A1 Hf Hc) as [s1 T1].
  pose proof (key_sign_l_trace E g (xk_key k2) [] hash2 [] ph (padd q1 o_key) psig fuel c Laws G Bk2 Lk2 Bh2 Lh2 Z2 A2 Hf Hc) as [s2 T2].
  rewrite !app_nil_r in T1, T2. apply sim_step. apply (sim_bind (fun _ _ => True)); [rewrite T1, T2; split; [reflexivity|exact I]|].
  intros a b _. apply sim_pure. exact I.
Qed.
Print Assumptions C138_wallet.

(** *** The hypotheses are met on the toy curve. *)
(** Two different keys whose signatures take one attempt after the first; one whose signature takes none. *)
Example C138_ex_sign : ready ready_example /\ secp_laws toy /\
  attempts toy (be_bytes 32 (secp_n - 3)) small_hash 1 /\ attempts toy (be_bytes 32 (secp_n - 2)) small_hash 1 /\ attempts toy (be_bytes 32 77) small_hash 0.
Proof.
  split; [exact ready_example_ok|]. split; [exact toy_laws|].
  assert (H : forall k r s r' s', attempt toy k small_hash 0 = Some (r, s) -> 2 ^ 255 <= r -> attempt toy k small_hash 1 = Some (r', s') -> r' < 2 ^ 255 ->
    attempts toy k small_hash 1).
  { intros k r s r' s' E0 H0 E1 H1. split; [exists r', s'; auto|]. intros j Hj (u & v & E & Hu). replace j with 0%nat in E by lia. rewrite E0 in E. injection E as <- <-. lia. }
  split; [|split].
  - apply (H _ (secp_n - 2) 1 1 4); [vm_compute; reflexivity|vm_compute; discriminate|vm_compute; reflexivity|lia].
  - apply (H _ (secp_n - 1) 1 1 3); [vm_compute; reflexivity|vm_compute; discriminate|vm_compute; reflexivity|lia].
  - split; [|intros; lia]. exists 78, 1. split; [vm_compute; reflexivity|lia].
Qed.
(** One seed, the path m/3 with two fingerprints, two hashes. *)
Example C138_ex_wallet : exists m k1 k2 h1 h2,
  wf_key blank_key /\ exkey_init blank_key tv1_seed (length tv1_seed) = Ok m /\ 0 < be_val (xk_key m) < secp_order /\
  same_path [(3, 7)] [(3, 9)] /\ Forall valid_step [(3, 7)] /\ Forall valid_step [(3, 9)] /\
  walk_two toy ready_example m blank_key [(3, 7)] = Ok (Some k1) /\ walk_two toy ready_example m blank_key [(3, 9)] = Ok (Some k2) /\ k1 <> k2 /\
  bytes h1 /\ bytes h2 /\ length h1 = 32%nat /\ length h2 = 32%nat /\ h1 <> h2 /\ attempts toy (xk_key k1) h1 0 /\ attempts toy (xk_key k2) h2 0.
Proof.
  destruct C124_case as (GS & a & _ & Ha & _). assert (Wb := proj1 blank_key_wf).
  destruct (wallet_reached toy ready_example blank_key tv1_seed [3] a toy_laws ready_example_ok Wb GS ltac:(constructor; [lia|constructor]) Ha) as [R _]. clear Ha.
  destruct (master_all blank_key tv1_seed Wb GS) as (M & TM & Wm & K & C & Vm). rewrite <- K in Vm. rewrite <- K, <- C in R. clear K C GS.
  change secp_order with secp_n in *. cbn [reached] in R.
  pose proof (exkey_derive_ok toy ready_example M blank_key 3 7 toy_laws ready_example_ok Wm Vm Wb ltac:(lia)) as D1.
  pose proof (exkey_derive_ok toy ready_example M blank_key 3 9 toy_laws ready_example_ok Wm Vm Wb ltac:(lia)) as D2.
  assert (Q : exists k c, ckd_priv toy (be_val (xk_key M)) (x_chain_code (xk_ext M)) 3 = Some (k, c)).
  { clear - R. destruct (ckd_priv toy (be_val (xk_key M)) (x_chain_code (xk_ext M)) 3) as [[k c]|]; [eauto|discriminate R]. }
  clear R. destruct Q as (k & c & Q). rewrite Q in D1, D2. clear Q.
  destruct D1 as (D1 & Sk & _), D2 as (D2 & _). unfold scalar in Sk.
  assert (A : forall d, 0 <= d <= 1 -> attempts toy (be_bytes 32 k) (be_bytes 32 ((secp_n - k + d) mod secp_n)) 0).
  { intros d Hd. split; [|intros; lia]. exists (1 + d), 1. split; [|lia]. unfold attempt. cbn [Nat.eqb toy ecdsa]. unfold toy_sign.
    rewrite !be32_small by (first [lia|apply Z.mod_pos_bound; reflexivity]). replace (scalarb k) with true by (symmetry; apply scalarb_ok; exact Sk). cbn [negb].
    replace ((1 + (secp_n - k + d) mod secp_n + k) mod secp_n) with (1 + d).
    2:{ rewrite <- (Z.add_mod_idemp_l (1 + _)), Z.add_mod_idemp_r, Z.add_mod_idemp_l by discriminate.
        replace (1 + (secp_n - k + d) + k) with (1 + d + 1 * secp_n) by lia. rewrite Z.mod_add by discriminate. symmetry. apply Z.mod_small. unfold secp_n. lia. }
    replace (1 + d =? 0) with false by lia. reflexivity. }
  assert (T : forall fp d, exkey_derive toy ready_example M blank_key 3 fp = Ok (true, d) -> walk_two toy ready_example M blank_key [(3, fp)] = Ok (Some d)).
  { clear. intros fp d H. cbn [walk_two]. rewrite H. reflexivity. }
  apply T in D1. apply T in D2. exists M.
  do 2 eexists. exists (be_bytes 32 ((secp_n - k + 0) mod secp_n)), (be_bytes 32 ((secp_n - k + 1) mod secp_n)).
  split; [exact Wb|]. split; [exact TM|]. split; [exact Vm|].
  split; [constructor; [unfold same_kind; cbn [fst]; lia|constructor]|].
  split; [constructor; [unfold valid_step; cbn [fst snd]; lia|constructor]|]. split; [constructor; [unfold valid_step; cbn [fst snd]; lia|constructor]|].
  split; [exact D1|]. split; [exact D2|]. split.
  { intros H. apply (f_equal (fun k => x_fingerprint (xk_ext k))) in H. cbn [xk_ext x_fingerprint] in H. lia. }
  split; [apply be_bytes_bytes|]. split; [apply be_bytes_bytes|].
  split; [apply be_bytes_length|]. split; [apply be_bytes_length|]. split.
  { intros H. apply (f_equal be_val) in H. rewrite !be32_small in H by (apply Z.mod_pos_bound; reflexivity).
    rewrite (Z.mod_small (secp_n - k + 0)) in H by lia. destruct (Z.eq_dec k 1) as [-> |].
    - replace (secp_n - 1 + 1) with (0 + 1 * secp_n) in H by lia. rewrite Z.mod_add in H by discriminate. vm_compute in H. discriminate.
    - rewrite Z.mod_small in H by lia. lia. }
  cbn [xk_key]. split; apply A; lia.
Qed.
