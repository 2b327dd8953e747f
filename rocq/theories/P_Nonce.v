(** C128: nonces are not reused (src/btc/key.c:534-554 with the nonces of RFC 6979). *)
From Coq Require Import Znumtheory.
From Verif Require Import Base S_Words L_Endian M_Endian M_Sha2 S_Sha2 L_Sha2 S_Ripemd L_Hash M_Hash M_Random M_Secp M_Key
  S_Secp L_Secp S_Der S_Life S_Sign S_Bip32 M_Exkey L_Der P_Der L_Bip32 P_Bip32 P_Pubkey P_Sign S_Collide P_Collide
  S_Secp256k1 L_Pock L_Primes L_Group L_Order L_SecpLaws P_Secp256k1 L_Cofactor P_Binding S_Nonce P_Typos.

Lemma mac_len k m : length (hmac256 k m) = 32%nat.
Proof. unfold hmac256. rewrite hmac_split. apply L_Sha2Top.SHA256_length. Qed.

Definition msgs (l : list (list Z * list Z)) : list (list Z) :=
  flat_map (fun c => [inner_message SHA256 64 (fst c) (snd c); outer_message SHA256 64 (fst c) (snd c)]) l.
Definition found (l1 l2 : list (list Z * list Z)) : Prop := exists x y, In x (msgs l1) /\ In y (msgs l2) /\ collision SHA256 x y.
Lemma found_incl a b c d : incl a b -> incl c d -> found a c -> found b d.
Proof.
  assert (X : forall a b, incl a b -> incl (msgs a) (msgs b)).
  { intros l1 l2 I x H. unfold msgs in *. apply in_flat_map in H. destruct H as (p & Hp & Hx). apply in_flat_map. eauto. }
  intros I J (x & y & Hx & Hy & C). exists x, y. split; [exact (X _ _ I _ Hx)|]. split; [exact (X _ _ J _ Hy)|exact C].
Qed.
Lemma mac_eq k1 m1 k2 m2 : length k1 = 32%nat -> length k2 = 32%nat -> hmac256 k1 m1 = hmac256 k2 m2 ->
  (k1 = k2 /\ m1 = m2) \/ found [(k1, m1)] [(k2, m2)].
Proof.
  intros L1 L2 E. unfold hmac256 in E. apply hmac_collide in E; [|intros m; rewrite L_Sha2Top.SHA256_length; lia].
  destruct E as [[K M]|[C|C]].
  - left. split; [|exact M]. apply (C121_same_key_block SHA256 64); [congruence|lia|exact K].
  - right. eexists. eexists. split; [left; reflexivity|]. split; [left; reflexivity|exact C].
  - right. eexists. eexists. split; [right; left; reflexivity|]. split; [right; left; reflexivity|exact C].
Qed.

Lemma seeded_same d : drbg_init d = seeded d.
Proof. unfold drbg_init, seeded. cbv zeta. match goal with |- ?a = ?b => constr_eq a b end. reflexivity. Qed.
Lemma gen_len j d : length (fst (gen j d)) = 32%nat.
Proof. destruct j as [|j]; [apply mac_len|]. cbn [gen]. destruct (gen j d) as [K V]. apply mac_len. Qed.

Lemma seed_eq d1 d2 : fst (seeded d1) = fst (seeded d2) -> d1 = d2 \/ found (seed_macs d1) (seed_macs d2).
Proof.
  unfold seeded, seed_macs. cbv zeta. cbn [fst]. 
  generalize (mac_len (repeat 0 32) (repeat 1 32 ++ [0] ++ d1)) (mac_len (repeat 0 32) (repeat 1 32 ++ [0] ++ d2)).
  generalize (hmac256 (repeat 0 32) (repeat 1 32 ++ [0] ++ d1)) (hmac256 (repeat 0 32) (repeat 1 32 ++ [0] ++ d2)). intros K K' L L'.
  generalize (mac_len K (repeat 1 32)) (mac_len K' (repeat 1 32)). generalize (hmac256 K (repeat 1 32)) (hmac256 K' (repeat 1 32)). intros V V' LV LV' H.
  destruct (mac_eq _ _ _ _ L L' H) as [[_ M]|F].
  - left. apply app_inj_len in M; [|congruence]. destruct M as [_ M]. cbn [app] in M. congruence.
  - right. revert F. apply found_incl; intros x [<-|[]]; right; right; left; reflexivity.
Qed.

(** Equal keys of the generator's state mean equal seeds and equally many rejections, or a collision. *)
Lemma gen_eq d1 d2 : forall j1 j2, fst (gen j1 d1) = fst (gen j2 d2) -> snd (gen j1 d1) = snd (gen j2 d2) ->
  (j1 = j2 /\ d1 = d2) \/ found (gen_macs j1 d1) (gen_macs j2 d2).
Proof.
  assert (Z : forall da db j, fst (seeded da) = fst (gen (S j) db) -> found (seed_macs da) (gen_macs (S j) db)).
  { intros da db j. cbn [gen gen_macs]. pose proof (gen_len j db) as LK. destruct (gen j db) as [K V]. cbn [fst] in *. generalize (gen_macs j db). intros l.
    unfold seeded, seed_macs. cbv zeta. cbn [fst].
    generalize (mac_len (repeat 0 32) (repeat 1 32 ++ [0] ++ da)). generalize (hmac256 (repeat 0 32) (repeat 1 32 ++ [0] ++ da)). intros Ka La.
    generalize (mac_len Ka (repeat 1 32)). generalize (hmac256 Ka (repeat 1 32)). intros Va LVa.
    generalize (mac_len K V). generalize (hmac256 K V). intros V1 LV1 H.
    destruct (mac_eq _ _ _ _ La LK H) as [[_ M]|F].
    - exfalso. apply app_inj_len in M; [|congruence]. destruct M as [_ M]. cbn [app] in M. congruence.
    - revert F. apply found_incl; intros x [<-|[]]; [right; right; left; reflexivity|]. apply in_or_app. right. right. left. reflexivity. }
  induction j1 as [|j1 IH]; intros [|j2] E1 E2.
  - destruct (seed_eq d1 d2 E1) as [->|F]; auto.
  - right. exact (Z d1 d2 j2 E1).
  - right. destruct (Z d2 d1 j1 (eq_sym E1)) as (x & y & Hx & Hy & C1 & C2). exists y, x. split; [exact Hy|]. split; [exact Hx|]. split; congruence.
  - specialize (IH j2). pose proof (gen_len j1 d1) as L1. pose proof (gen_len j2 d2) as L2. cbn [gen gen_macs] in *.
    destruct (gen j1 d1) as [K V], (gen j2 d2) as [K' V']. cbn [fst snd] in *. clear E2.
    generalize dependent (gen_macs j1 d1). generalize dependent (gen_macs j2 d2). intros l2 l1 IH.
    destruct (mac_eq _ _ _ _ L1 L2 E1) as [[EK M]|F].
    2: { right. revert F. apply found_incl; intros x [<-|[]]; apply in_or_app; right; right; left; reflexivity. }
    apply app_inj_len in M; [|now rewrite !mac_len]. destruct M as [M _].
    destruct (mac_eq _ _ _ _ L1 L2 M) as [[_ EV]|F].
    2: { right. revert F. apply found_incl; intros x [<-|[]]; apply in_or_app; right; left; reflexivity. }
    destruct (IH EK EV) as [[-> ->]|F]; [left; auto|]. right. revert F. apply found_incl; intros x H; apply in_or_app; left; exact H.
Qed.

(** ** The generator never repeats itself, whatever it is seeded with: equal outputs are the same output of the same seed, or a collision
    of SHA-256 has been met on the way. *)
Theorem C128_outputs : forall j1 d1 j2 d2, output j1 d1 = output j2 d2 -> (j1 = j2 /\ d1 = d2) \/ collide j1 d1 j2 d2.
Proof.
  intros j1 d1 j2 d2 E. pose proof (gen_eq d1 d2 j1 j2) as GE. pose proof (gen_len j1 d1) as L1. pose proof (gen_len j2 d2) as L2.
  change (collide j1 d1 j2 d2) with (found (gen_macs j1 d1 ++ [gen j1 d1]) (gen_macs j2 d2 ++ [gen j2 d2])). unfold output in E.
  destruct (gen j1 d1) as [K V], (gen j2 d2) as [K' V']. cbn [fst snd] in *.
  destruct (mac_eq _ _ _ _ L1 L2 E) as [[EK EV]|F].
  - destruct (GE EK EV) as [H|F]; [left; exact H|]. right. revert F. apply found_incl; intros x H; apply in_or_app; left; exact H.
  - right. revert F. apply found_incl; intros x H; apply in_or_app; right; exact H.
Qed.
Print Assumptions C128_outputs.

(** ** Which nonce a signature was made with *)
Lemma with_made d z k r s : sign_with d z k = Some (r, s) -> made_with d z k r s.
Proof.
  unfold sign_with, made_with. fold cG. cbv zeta. pose proof n_pos as N. destruct (in_order k) eqn:K; [|discriminate]. cbn [negb].
  assert (Sk : scalar k) by (unfold in_order in K; split; lia). destruct Sk as [K1 K2].
  destruct (cmul k cG) as [[x y]|] eqn:C; [|discriminate].
  assert (W : (k * minv secp_n k) mod secp_n = 1) by (apply minv_mul; [exact n_prime|rewrite Z.mod_small; lia]).
  revert W. generalize (minv secp_n k). intros w W.
  pose proof (nonce_eq secp_n k w (z + x mod secp_n * d) ltac:(lia) W) as Q.
  pose proof (Z.mod_pos_bound (w * (z + x mod secp_n * d)) secp_n ltac:(lia)) as SB.
  revert Q SB. generalize ((w * (z + x mod secp_n * d)) mod secp_n). intros s0 Q SB.
  destruct ((x mod secp_n =? 0) || (s0 =? 0)) eqn:Z0; [discriminate|]. intros H.
  assert (Hr : x mod secp_n = r) by congruence. assert (Hs : (if secp_n / 2 <? s0 then secp_n - s0 else s0) = s) by congruence. clear H.
  pose proof (half_low secp_n s0 n_odd ltac:(lia)) as L. rewrite Hs in L. split; [lia|]. split; [pose proof (Z.mod_pos_bound x secp_n ltac:(lia)); lia|]. split; [exact L|].
  exists x, y. split; [reflexivity|]. split; [congruence|]. rewrite Hr in Q. destruct (secp_n / 2 <? s0); [right|left]; rewrite <- Hs; [|exact Q].
  replace ((secp_n - s0) * k) with (- (s0 * k) + k * secp_n) by ring. rewrite Z_mod_plus_full.
  assert (D : forall a b, a mod secp_n = b mod secp_n -> (- a) mod secp_n = (- b) mod secp_n).
  { intros a b E. apply mod_eq; [lia|]. replace (- a - - b) with (- (a - b)) by ring. apply Z.divide_opp_r. exact (mod_div _ _ _ E). }
  apply D. exact Q.
Qed.
Lemma attempts_gen d z data : forall fuel j, 
  attempts fuel d z (fst (gen j data)) (snd (gen j data)) = None /\ (forall i, (j <= i < j + fuel)%nat -> sign_with d z (be_val (output i data)) = None) \/
  exists i sig, (j <= i < j + fuel)%nat /\ attempts fuel d z (fst (gen j data)) (snd (gen j data)) = Some sig /\ sign_with d z (be_val (output i data)) = Some sig.
Proof.
  induction fuel as [|fuel IH]; intros j; [left; split; [reflexivity|intros; lia]|]. cbn [attempts]. cbv zeta. specialize (IH (S j)).
  assert (O : output j data = hmac256 (fst (gen j data)) (snd (gen j data))) by (unfold output; destruct (gen j data); reflexivity).
  rewrite <- O. cbn [gen] in IH. unfold output in O. destruct (gen j data) as [K V] eqn:G. cbn [fst snd] in *.
  assert (O' : output j data = hmac256 K V) by (unfold output; now rewrite G). rewrite O' in *. clear O G.
  destruct (sign_with d z (be_val (hmac256 K V))) as [sg|] eqn:Sw.
  - right. exists j, sg. split; [lia|]. split; [reflexivity|]. rewrite O'. exact Sw.
  - destruct IH as [[A F]|(i & sg & Hi & A & F)]; [left|right].
    + split; [exact A|]. intros i Hi. destruct (Nat.eq_dec i j) as [->|]; [rewrite O'; exact Sw|]. apply F. lia.
    + exists i, sg. split; [lia|]. split; [exact A|exact F].
Qed.

Lemma none_made d z k r s : sign_with d z k = None -> ~ made_with d z k r s.
Proof.
  intros H (K & R & S & x & y & C & Er & Q). fold cG in C. pose proof n_pos as N.
  assert (X : x mod secp_n <> 0) by (rewrite <- Er; lia). pose proof (sign_with_none d z k x y K C X H) as E0. rewrite <- Er in E0.
  assert (E1 : (s * k) mod secp_n = 0).
  { destruct Q as [Q|Q]; rewrite Q; [exact E0|]. apply Z.mod_opp_l_z; [lia|exact E0]. }
  apply Zmod_divide in E1; [|lia]. assert (HL : secp_n / 2 < secp_n) by reflexivity. apply (prime_mult _ n_prime) in E1. destruct E1 as [E1|E1]; apply Z.divide_pos_le in E1; lia.
Qed.
Lemma attempt_nonce key hash c r s : bytes key -> length key = 32%nat -> attempt secp256k1 key hash c = Some (r, s) ->
  (exists j, (j < 1000)%nat /\ made_with (be_val key) (be_val hash) (be_val (output j (seed key hash c))) r s) \/ spent (be_val key) (be_val hash) (seed key hash c).
Proof.
  intros B L H. unfold attempt in H. change (ecdsa secp256k1) with k_sign in H. rewrite k_sign_shape in H.
  destruct (negb (in_order (be_val key))); [discriminate|].
  assert (Es : key ++ hash ++ match (if (c =? 0)%nat then None else Some (le_bytes 4 (Z.of_nat c) ++ repeat 0 28)) with None => [] | Some e => e end = seed key hash c).
  { unfold seed. destruct (c =? 0)%nat; reflexivity. }
  rewrite Es in H. clear Es. generalize dependent (seed key hash c). intros data H.
  destruct (attempts_gen (be_val key) (be_val hash) data 1000 0) as [[A F]|(i & sg & Hi & A & F)]; change (gen 0 data) with (seeded data) in A; rewrite <- seeded_same in A.
  - right. intros j r' s' Hj. apply none_made. apply F. lia.
  - left. rewrite A in H. unfold finish in H. exists i. split; [lia|]. apply with_made. congruence.
Qed.

(** Every signature the library returns was made with an output of the generator seeded with the key, the hash and the number of the attempt. *)
Theorem C128_nonce : forall g key krest hash hrest fuel r s, ready g ->
  bytes key -> length key = 32%nat -> bytes hash -> length hash = 32%nat -> Z.of_nat fuel < 2 ^ 32 ->
  key_sign fuel secp256k1 g (key ++ krest) (hash ++ hrest) = Ok (Returned (r, s)) ->
  exists c, (c <= fuel)%nat /\
   ((exists j, (j < 1000)%nat /\ made_with (be_val key) (be_val hash) (be_val (output j (seed key hash c))) r s) \/
    spent (be_val key) (be_val hash) (seed key hash c)).
Proof.
  intros g key krest hash hrest fuel r s G Bk Lk Bh Lh Hf H.
  destruct (C126_sign_verifies g key krest hash hrest fuel r s G Bk Lk Bh Lh H) as (D & _).
  destruct (C59_sign_first_low_r secp256k1 g key krest hash hrest fuel C126_laws G Bk Lk Bh Lh D Hf) as [(c & sig & Hc & A & _ & _ & E)|[_ E]]; [|congruence].
  assert (sig = (r, s)) by congruence. subst sig. exists c. split; [exact Hc|]. exact (attempt_nonce key hash c r s Bk Lk A).
Qed.
Print Assumptions C128_nonce.

Lemma output_32 j d : bytes (output j d) /\ length (output j d) = 32%nat.
Proof. unfold output. destruct (gen j d) as [K V]. unfold hmac256. rewrite hmac_split. split; [apply L_Sha2Top.SHA256_bytes|apply L_Sha2Top.SHA256_length]. Qed.
(** No two signatures share a nonce: signing with different keys or different hashes uses different nonces, short of a collision of SHA-256 met
    by the generator (or a thousand unusable outputs in a row). *)
Theorem C128_no_reuse : forall g key1 krest1 hash1 hrest1 fuel1 r1 s1 key2 krest2 hash2 hrest2 fuel2 r2 s2, ready g ->
  bytes key1 -> length key1 = 32%nat -> bytes hash1 -> length hash1 = 32%nat -> Z.of_nat fuel1 < 2 ^ 32 ->
  bytes key2 -> length key2 = 32%nat -> bytes hash2 -> length hash2 = 32%nat -> Z.of_nat fuel2 < 2 ^ 32 ->
  key_sign fuel1 secp256k1 g (key1 ++ krest1) (hash1 ++ hrest1) = Ok (Returned (r1, s1)) ->
  key_sign fuel2 secp256k1 g (key2 ++ krest2) (hash2 ++ hrest2) = Ok (Returned (r2, s2)) ->
  (key1, hash1) <> (key2, hash2) ->
  exists c1 c2, let seed1 := seed key1 hash1 c1 in let seed2 := seed key2 hash2 c2 in
  spent (be_val key1) (be_val hash1) seed1 \/ spent (be_val key2) (be_val hash2) seed2 \/
  exists j1 j2, let k1 := be_val (output j1 seed1) in let k2 := be_val (output j2 seed2) in
    made_with (be_val key1) (be_val hash1) k1 r1 s1 /\ made_with (be_val key2) (be_val hash2) k2 r2 s2 /\
    (k1 <> k2 \/ collide j1 seed1 j2 seed2).
Proof.
  intros g key1 krest1 hash1 hrest1 fuel1 r1 s1 key2 krest2 hash2 hrest2 fuel2 r2 s2 G Bk1 Lk1 Bh1 Lh1 Hf1 Bk2 Lk2 Bh2 Lh2 Hf2 H1 H2 Ne.
  destruct (C128_nonce g key1 krest1 hash1 hrest1 fuel1 r1 s1 G Bk1 Lk1 Bh1 Lh1 Hf1 H1) as (c1 & _ & N1).
  destruct (C128_nonce g key2 krest2 hash2 hrest2 fuel2 r2 s2 G Bk2 Lk2 Bh2 Lh2 Hf2 H2) as (c2 & _ & N2). clear H1 H2.
  exists c1, c2. cbv zeta. destruct N1 as [(j1 & _ & M1)|N1]; [|left; exact N1]. destruct N2 as [(j2 & _ & M2)|N2]; [|right; left; exact N2].
  right. right. exists j1, j2. split; [exact M1|]. split; [exact M2|].
  assert (Nd : seed key1 hash1 c1 <> seed key2 hash2 c2).
  { unfold seed. intros E. apply app_inj_len in E; [|congruence]. destruct E as [E1 E]. apply app_inj_len in E; [|congruence]. destruct E as [E2 _]. congruence. }
  clear M1 M2. generalize dependent (seed key1 hash1 c1). generalize dependent (seed key2 hash2 c2). intros d2 d1 Nd.
  pose proof (output_32 j1 d1) as [B1 L1]. pose proof (output_32 j2 d2) as [B2 L2]. pose proof (C128_outputs j1 d1 j2 d2) as O.
  generalize dependent (output j1 d1). generalize dependent (output j2 d2). intros o2 B2 L2 o1 B1 L1 O.
  destruct (Z.eq_dec (be_val o1) (be_val o2)) as [E|E]; [|left; exact E]. apply key_val_inj in E; try assumption.
  destruct (O E) as [[_ X]|X]; [contradiction|right; exact X].
Qed.
Print Assumptions C128_no_reuse.

(** ** Why it matters *)
Lemma same_abscissa k1 k2 x y1 y2 : scalar k1 -> scalar k2 -> cmul k1 cG = Some (x, y1) -> cmul k2 cG = Some (x, y2) -> k1 = k2 \/ k1 = secp_n - k2.
Proof.
  intros [A1 A2] [B1 B2] C1 C2. pose proof n_pos as N. pose proof (cmul_valid k1) as V1. pose proof (cmul_valid k2) as V2. rewrite C1 in V1. rewrite C2 in V2. cbn [valid] in *.
  destruct (Z.eq_dec y1 y2) as [->|Ny]; [left; apply cmul_inj; [lia|lia|congruence]|right].
  assert (Z0 : cadd (cmul k1 cG) (cmul k2 cG) = None).
  { rewrite C1, C2. unfold cadd. rewrite Z.eqb_refl. pose proof V1 as W1. pose proof V2 as W2. apply on_curve_spec in W1. apply on_curve_spec in W2.
    destruct W1 as (_ & Y1 & Q1). destruct W2 as (_ & Y2 & Q2).
    assert (E : (y1 + y2) mod secp_p = 0); [|rewrite E; reflexivity].
    assert (D : (secp_p | (y1 - y2) * (y1 + y2))).
    { replace ((y1 - y2) * (y1 + y2)) with (y1 * y1 - y2 * y2) by ring. apply mod_div. congruence. }
    apply (prime_mult _ p_prime) in D. pose proof p_pos as P. destruct D as [D|D]; [|now apply Zdivide_mod].
    exfalso. apply Zdivide_mod in D. apply Ny. clear - D Y1 Y2 P. revert D Y1 Y2 P. generalize secp_p. intros p D Y1 Y2 P.
    apply Zmod_divide in D; [|lia]. destruct D as [q D]. assert (q = 0) by nia. subst q. lia. }
  rewrite cadd_cmul in Z0 by lia. apply cmul_none in Z0; [|apply Z.mod_pos_bound; lia]. rewrite Zmod_mod in Z0. apply Zmod_divide in Z0; [|lia].
  destruct Z0 as [q Z0]. assert (q = 1) by (clear - Z0 A1 A2 B1 B2; nia). subst q. lia.
Qed.
Lemma solve n e z1 z2 r s1 s2 k d w : 0 < n -> (n | s1 * k - (z1 + r * d)) -> (n | e * s2 * k - (z2 + r * d)) ->
  (n | r * (s1 - e * s2) * w - 1) -> (n | d - (e * s2 * z1 - s1 * z2) * w).
Proof.
  intros N [a A] [b B] [c C]. exists (- d * c - w * (s1 * b - e * s2 * a)).
  assert (E1 : s1 * k = a * n + z1 + r * d) by lia. assert (E2 : e * s2 * k = b * n + z2 + r * d) by lia.
  assert (E3 : e * s2 * z1 - s1 * z2 = r * d * (s1 - e * s2) + (s1 * b - e * s2 * a) * n).
  { assert (X : s1 * (e * s2 * k) = e * s2 * (s1 * k)) by ring. rewrite E1, E2 in X. lia. }
  rewrite E3. replace (r * d * (s1 - e * s2)) with (d * (r * (s1 - e * s2))) by ring.
  assert (C' : r * (s1 - e * s2) * w = c * n + 1) by lia.
  replace ((d * (r * (s1 - e * s2)) + (s1 * b - e * s2 * a) * n) * w) with (d * (r * (s1 - e * s2) * w) + (s1 * b - e * s2 * a) * n * w) by ring.
  rewrite C'. ring.
Qed.
(** Two signatures of one key with the same r on hashes that differ give the key away: it is one of two numbers computed from the hashes and
    the signatures alone.  (For r below p - n, a fraction of about 2^-127 of all r, the points may differ although the r agree.) *)
Theorem C128_same_r_reveals_the_key : forall g key krest P hash1 hrest1 hash2 hrest2 r s1 s2, ready g ->
  bytes key -> length key = 32%nat -> key_get_pub secp256k1 g (key ++ krest) = Ok P -> 
  bytes hash1 -> length hash1 = 32%nat -> bytes hash2 -> length hash2 = 32%nat ->
  0 <= s1 < secp_n -> 0 <= s2 < secp_n -> secp_p - secp_n <= r ->
  be_val hash1 mod secp_n <> be_val hash2 mod secp_n ->
  key_verify secp256k1 g P (hash1 ++ hrest1) (r, s1) = Ok true -> key_verify secp256k1 g P (hash2 ++ hrest2) (r, s2) = Ok true ->
  be_val key = revealed 1 (be_val hash1) (be_val hash2) r s1 s2 \/ be_val key = revealed (-1) (be_val hash1) (be_val hash2) r s1 s2.
Proof.
  intros g key krest P hash1 hrest1 hash2 hrest2 r s1 s2 G Bk Lk HP B1 L1 B2 L2 S1 S2 Hr Nz V1 V2. pose proof n_pos as N.
  assert (D : 0 < be_val key < secp_order).
  { destruct (C115_identifier secp256k1 g key krest true (repeat 0 33) C126_laws G Lk eq_refl) as [(X & _)|(_ & A & _)]; [exact X|]. congruence. }
  destruct (C126_verify_exact g key krest hash1 hrest1 r s1 P G Bk Lk D B1 L1 S1 HP) as (b1 & E1 & I1).
  destruct (C126_verify_exact g key krest hash2 hrest2 r s2 P G Bk Lk D B2 L2 S2 HP) as (b2 & E2 & I2).
  assert (b1 = true) by congruence. assert (b2 = true) by congruence. subst b1 b2. clear E1 E2 V1 V2 HP.
  destruct (proj1 I1 eq_refl) as (R & S1' & k1 & x1 & y1 & K1 & C1 & X1 & Q1). destruct (proj1 I2 eq_refl) as (_ & S2' & k2 & x2 & y2 & K2 & C2 & X2 & Q2).
  clear I1 I2. fold cG in C1, C2. change secp_order with secp_n in D.
  assert (Small : forall k x y, cmul k cG = Some (x, y) -> r = x mod secp_n -> x = r).
  { intros k x y C X. pose proof (cmul_valid k) as V. rewrite C in V. cbn [valid] in V. apply on_curve_spec in V. destruct V as (Xb & _). pose proof p_2n as PN.
    clear - X Xb PN Hr N. pose proof (Z.div_mod x secp_n ltac:(lia)) as M. rewrite <- X in M.
    assert (Q : 0 <= x / secp_n < 2) by (split; [apply Z.div_pos; lia|apply Z.div_lt_upper_bound; lia]).
    revert M Q. generalize (x / secp_n). intros q M Q. assert (q = 0 \/ q = 1) as [->| ->] by lia; lia. }
  pose proof (Small _ _ _ C1 X1) as Y1. pose proof (Small _ _ _ C2 X2) as Y2. subst x1 x2. clear X1 X2 Small.
  revert Q1 Q2 Nz D. generalize (be_val hash1) (be_val hash2) (be_val key). intros z1 z2 d Q1 Q2 Nz D.
  apply mod_div in Q1. apply mod_div in Q2.
  assert (Fin : forall e, (secp_n | e * s2 * k1 - (z2 + r * d)) -> d = revealed e z1 z2 r s1 s2).
  { intros e Q2'. unfold revealed.
    assert (NZ : (r * (s1 - e * s2)) mod secp_n <> 0).
    { intros E. apply Zmod_divide in E; [|lia]. apply (prime_mult _ n_prime) in E. destruct E as [E|E].
      - apply Z.divide_pos_le in E; lia.
      - apply Nz. apply mod_eq; [lia|]. assert (F : (secp_n | (s1 - e * s2) * k1)) by (now apply Z.divide_mul_l).
        replace (z1 - z2) with ((s1 - e * s2) * k1 - (s1 * k1 - (z1 + r * d)) + (e * s2 * k1 - (z2 + r * d))) by ring.
        apply Z.divide_add_r; [apply Z.divide_sub_r|]; assumption. }
    assert (W : (r * (s1 - e * s2) * minv secp_n ((r * (s1 - e * s2)) mod secp_n)) mod secp_n = 1).
    { rewrite <- Zmult_mod_idemp_l. apply minv_mul; [exact n_prime|]. now rewrite Zmod_mod. }
    revert W. generalize (minv secp_n ((r * (s1 - e * s2)) mod secp_n)). intros w W.
    assert (W' : (secp_n | r * (s1 - e * s2) * w - 1)) by (apply mod_div; rewrite W; symmetry; apply Z.mod_small; lia).
    pose proof (solve secp_n e z1 z2 r s1 s2 k1 d w ltac:(lia) Q1 Q2' W') as X. apply (mod_eq secp_n _ _ ltac:(lia)) in X.
    rewrite (Z.mod_small d) in X by lia. exact X. }
  destruct (same_abscissa k1 k2 r y1 y2 K1 K2 C1 C2) as [E|E]; [left|right]; apply Fin.
  - subst k2. rewrite Z.mul_1_l. exact Q2.
  - rewrite E. replace (-1 * s2 * (secp_n - k2) - (z2 + r * d)) with ((s2 * k2 - (z2 + r * d)) - s2 * secp_n) by ring.
    apply Z.divide_sub_r; [exact Q2|]. exists s2. reflexivity.
Qed.
Print Assumptions C128_same_r_reveals_the_key.

(* ---------------------------------------------------------------- *)
(** ** Concrete cases: the key 1 signs two hashes with the nonce 2, and anyone finds the key.  (Running the generator itself takes too long here;
    the model was checked against a published signature outside this development, see DESIGN.md.) *)
Definition reuse_hash (t : Z) : list Z := be_bytes 32 ((2 * t - G2x) mod secp_n).
Lemma n_256 : secp_n < 256 ^ Z.of_nat 32. Proof. reflexivity. Qed.
Lemma reuse_val t : be_val (reuse_hash t) = (2 * t - G2x) mod secp_n.
Proof. unfold reuse_hash. rewrite be_val_be_bytes. apply Z.mod_small. pose proof n_pos. pose proof n_256. pose proof (Z.mod_pos_bound (2 * t - G2x) secp_n ltac:(lia)). lia. Qed.
Lemma reuse_verifies t : 0 < t < secp_n -> key_verify secp256k1 ready_example (k_pub 1) (reuse_hash t ++ []) (G2x, t) = Ok true.
Proof.
  intros T. pose proof n_pos as N. assert (S1 : scalar 1) by (split; lia). pose proof (small_key_pub ready_example 1 ready_example_ok S1) as GP.
  pose proof case_key_val as KV. pose proof (be_bytes_length 32 1) as KL. pose proof (be_bytes_bytes 32 1) as KB.
  pose proof (reuse_val t) as HV. assert (HL : length (reuse_hash t) = 32%nat) by apply be_bytes_length. assert (HB : bytes (reuse_hash t)) by apply be_bytes_bytes.
  revert GP KV KL KB HV HL HB. generalize (be_bytes 32 1) (reuse_hash t). intros key hash GP KV KL KB HV HL HB.
  destruct (C126_verify_exact ready_example key [] hash [] G2x t (k_pub 1) ready_example_ok KB KL) as (b & V & I); [rewrite KV; exact S1|exact HB|exact HL|change secp_order with secp_n; lia|rewrite app_nil_r; exact GP|].
  rewrite V. f_equal. apply I. split; [exact G2x_small|]. split; [exact T|]. exists 2, G2x, G2y.
  split; [split; [reflexivity|exact N]|]. split; [exact mul_2|]. split; [symmetry; apply Z.mod_small; pose proof G2x_small; lia|].
  rewrite HV, KV, Zplus_mod_idemp_l. f_equal. generalize G2x. intros x. ring.
Qed.
Lemma reuse_small : secp_p - secp_n <= G2x. Proof. intros H. vm_compute in H. discriminate H. Qed.
Lemma reuse_differ : (2 * 1 - G2x) mod secp_n <> (2 * 3 - G2x) mod secp_n. Proof. vm_compute. discriminate. Qed.
Lemma reuse_denominator : (G2x * (1 - 1 * 3)) mod secp_n <> 0. Proof. vm_compute. discriminate. Qed.
Lemma reuse_formula : revealed 1 ((2 * 1 - G2x) mod secp_n) ((2 * 3 - G2x) mod secp_n) G2x 1 3 = 1.
Proof.
  unfold revealed. pose proof n_pos as N. pose proof reuse_denominator as D.
  assert (W : ((G2x * (1 - 1 * 3)) * minv secp_n ((G2x * (1 - 1 * 3)) mod secp_n)) mod secp_n = 1).
  { rewrite <- Zmult_mod_idemp_l. apply minv_mul; [exact n_prime|]. now rewrite Zmod_mod. }
  revert W. clear D. generalize (minv secp_n ((G2x * (1 - 1 * 3)) mod secp_n)). generalize G2x. intros x w W. etransitivity; [|exact W]. apply mod_eq; [lia|].
  pose proof (Z.div_mod (2 * 1 - x) secp_n ltac:(lia)) as A. pose proof (Z.div_mod (2 * 3 - x) secp_n ltac:(lia)) as B.
  revert A B. generalize ((2 * 1 - x) mod secp_n) ((2 * 3 - x) mod secp_n) ((2 * 1 - x) / secp_n) ((2 * 3 - x) / secp_n). intros a b qa qb A B.
  replace a with (2 * 1 - x - secp_n * qa) by lia. replace b with (2 * 3 - x - secp_n * qb) by lia. exists ((- 3 * qa + qb) * w). ring.
Qed.
Example C128_case : key_get_pub secp256k1 ready_example (be_bytes 32 1) = Ok (k_pub 1) /\ secp_p - secp_n <= G2x /\
  be_val (reuse_hash 1) mod secp_n <> be_val (reuse_hash 3) mod secp_n /\
  key_verify secp256k1 ready_example (k_pub 1) (reuse_hash 1 ++ []) (G2x, 1) = Ok true /\
  key_verify secp256k1 ready_example (k_pub 1) (reuse_hash 3 ++ []) (G2x, 3) = Ok true /\
  revealed 1 (be_val (reuse_hash 1)) (be_val (reuse_hash 3)) G2x 1 3 = 1.
Proof.
  pose proof n_pos as N. assert (N3 : 3 < secp_n) by reflexivity. assert (S1 : scalar 1) by (split; lia).
  split; [exact (small_key_pub ready_example 1 ready_example_ok S1)|]. split; [exact reuse_small|]. rewrite !reuse_val.
  split; [rewrite !Zmod_mod; exact reuse_differ|]. split; [apply reuse_verifies; lia|]. split; [apply reuse_verifies; lia|exact reuse_formula].
Qed.
