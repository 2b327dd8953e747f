(** C126: the curve itself.  What the other theorems assume about libsecp256k1 ([secp_laws]) is proved of secp256k1 as the published
    documents define it (S_Secp256k1), so that on this curve they hold without that assumption. *)
From Coq Require Import Znumtheory.
From Verif Require Import Base S_Words L_Endian M_Endian M_Sha2 S_Sha2 S_Ripemd L_Hash M_Hash M_Random M_Secp M_Key
  S_Secp L_Secp S_Der S_Life S_Sign S_Bip32 M_Exkey L_Der P_Der L_Bip32 P_Bip32 P_Pubkey P_Sign S_Exkey
  S_Secp256k1 L_Group L_Order L_SecpLaws.

(** ** The group *)
Theorem C126_primes : prime secp_p /\ prime secp_n.
Proof. exact (conj L_Primes.p_prime L_Primes.n_prime). Qed.
Print Assumptions C126_primes.

(** The points of y^2 = x^3 + 7 with infinity are a commutative group under the chord and tangent rules; (x, -y) is the inverse of (x, y). *)
Definition point (P : option (Z * Z)) : Prop :=
  match P with None => True | Some (x, y) => 0 <= x < secp_p /\ 0 <= y < secp_p /\ (y * y) mod secp_p = (x * x * x + 7) mod secp_p end.
Lemma point_valid P : point P <-> valid P.
Proof. destruct P as [[x y]|]; [|reflexivity]. cbn [point valid]. symmetry. apply on_curve_spec. Qed.
Theorem C126_group : forall P Q R, point P -> point Q -> point R ->
  point (cadd P Q) /\ cadd P Q = cadd Q P /\ cadd (cadd P Q) R = cadd P (cadd Q R) /\ cadd P None = P /\
  (match P with None => True | Some (x, y) => point (Some (x, (- y) mod secp_p)) /\ cadd P (Some (x, (- y) mod secp_p)) = None end).
Proof.
  intros P Q R HP HQ HR. apply point_valid in HP. apply point_valid in HQ. apply point_valid in HR.
  pose proof (up_on P HP) as UP. pose proof (up_on Q HQ) as UQ. pose proof (up_on R HR) as UR.
  split; [apply point_valid, cadd_valid; assumption|].
  split. { apply up_inj; [apply cadd_valid; assumption..|]. rewrite !up_add by assumption. exact (gadd_comm _ _ UP UQ). }
  split. { apply up_inj; [repeat apply cadd_valid; assumption..|]. rewrite !up_add by (try apply cadd_valid; assumption). exact (gadd_assoc _ _ _ UP UQ UR). }
  split; [now destruct P as [[x y]|]|]. destruct P as [[x y]|]; [|exact I]. cbn [valid] in HP. pose proof (curve_nz x y HP) as N. apply on_curve_spec in HP.
  destruct HP as (X & Y & E). pose proof p_pos as P. split.
  - cbn [point]. split; [exact X|]. split; [apply Z.mod_pos_bound; lia|]. rewrite <- Zmult_mod. rewrite <- E. f_equal. ring.
  - unfold cadd. rewrite Z.eqb_refl. rewrite Zplus_mod_idemp_r, Z.add_opp_diag_r, Zmod_0_l. reflexivity.
Qed.
Print Assumptions C126_group.

(** G has order n: k*G is infinity exactly for the multiples of n, and k*G depends on k modulo n only. *)
Theorem C126_order : forall k, 0 <= k -> let kG := cmul k (Some (Gx, Gy)) in
  point kG /\ (kG = None <-> (secp_n | k)) /\ kG = cmul (k mod secp_n) (Some (Gx, Gy)) /\
  forall j, 0 <= j -> cadd kG (cmul j (Some (Gx, Gy))) = cmul (k + j) (Some (Gx, Gy)).
Proof.
  intros k Hk kG. unfold kG. fold cG. pose proof n_pos as N. split; [apply point_valid, cmul_valid|].
  assert (M : forall a, 0 <= a -> cmul (a mod secp_n) cG = cmul a cG).
  { intros a Ha. apply up_inj; [apply cmul_valid..|]. rewrite !up_cmul. exact (gmul_mod secp_n a gG gG_on ltac:(lia) Ha order_G). }
  split. { rewrite cmul_none by exact Hk. split; [apply Zmod_divide; lia|apply Zdivide_mod]. }
  split; [symmetry; now apply M|]. intros j Hj. rewrite cadd_cmul by assumption. apply M. lia.
Qed.
Print Assumptions C126_order.

(** ** The assumptions of the other theorems *)
Theorem C126_laws : secp_laws secp256k1.
Proof. exact secp256k1_laws. Qed.
Print Assumptions C126_laws.

(** ** Public keys *)
(** The text [enc] names the point (x, y). *)
Definition names (enc : list Z) (x y : Z) : Prop :=
  point (Some (x, y)) /\
  (enc = (2 + y mod 2) :: be_bytes 32 x \/ enc = 4 :: be_bytes 32 x ++ be_bytes 32 y \/ enc = (6 + y mod 2) :: be_bytes 32 x ++ be_bytes 32 y).
Lemma firstn_skipn_be r : bytes r -> length r = 64%nat -> be_bytes 32 (be_val (firstn 32 r)) ++ be_bytes 32 (be_val (skipn 32 r)) = r.
Proof.
  intros B L. assert (B1 : bytes (firstn 32 r) /\ bytes (skipn 32 r)) by (apply bytes_app; now rewrite firstn_skipn). destruct B1 as [B1 B2].
  assert (L1 : length (firstn 32 r) = 32%nat) by (rewrite firstn_length; lia). assert (L2 : length (skipn 32 r) = 32%nat) by (rewrite skipn_length; lia).
  pose proof (be_bytes_be_val _ B1) as X1. rewrite L1 in X1. pose proof (be_bytes_be_val _ B2) as X2. rewrite L2 in X2. rewrite X1, X2. apply firstn_skipn.
Qed.
Lemma parse_names enc P : bytes enc -> k_parse enc = Some P <-> names enc (fst (proj1_sig P)) (snd (proj1_sig P)).
Proof.
  intros B. pose proof (proj2_sig P) as C. cbv beta in C. pose proof (as_pt_self P) as A. split.
  - intros H. destruct enc as [|t r]; [discriminate|]. unfold names. rewrite point_valid. split; [cbn [valid]; destruct (proj1_sig P); exact C|].
    destruct (Nat.eq_dec (length r) 32) as [L|L].
    + left. assert (H33 : length (t :: r) = 33%nat) by (cbn [length]; lia). pose proof (k_law_parse33 _ P B H33 H) as S. unfold k_ser in S. destruct (proj1_sig P) as [x y].
      symmetry. exact S.
    + right. unfold k_parse in H. cbv zeta in H. assert (L32 : (length r =? 32)%nat = false) by lia. rewrite L32, andb_false_r in H.
      destruct ((t =? 4) || (t =? 6) || (t =? 7)) eqn:T; [|discriminate]. destruct (Nat.eqb_spec (length r) 64) as [L64|]; [|discriminate]. cbn [andb] in H.
      apply bytes_cons in B. destruct B as [_ B]. pose proof (firstn_skipn_be r B L64) as R.
      destruct (Z.eqb_spec t 4) as [->|N4]; cbn [orb] in H.
      * left. apply as_pt_some in H. destruct H as [H _]. rewrite H. cbn [fst snd]. now rewrite R.
      * right. destruct (Z.eqb_spec (be_val (skipn 32 r) mod 2) (t - 6)) as [E|]; [|discriminate]. apply as_pt_some in H. destruct H as [H _]. rewrite H. cbn [fst snd].
        rewrite R. f_equal. lia.
  - intros [_ [E|[E|E]]].
    + rewrite <- (k_law_parse true P). f_equal. unfold k_ser. destruct (proj1_sig P) as [x y]. exact E.
    + rewrite <- (k_law_parse false P). f_equal. unfold k_ser. destruct (proj1_sig P) as [x y]. exact E.
    + destruct (proj1_sig P) as [x y]. cbn [fst snd] in *. pose proof C as C'. apply on_curve_spec in C'. destruct C' as (X & Y & _). rewrite E.
      unfold k_parse. cbv zeta. rewrite app_length, !be_bytes_length.
      rewrite firstn_app, skipn_app, be_bytes_length, Nat.sub_diag, firstn_all2, skipn_all2 by (rewrite be_bytes_length; lia).
      change (firstn 0 (be_bytes 32 y)) with (@nil Z). change (skipn 0 (be_bytes 32 y)) with (be_bytes 32 y). rewrite app_nil_r, app_nil_l, !be32 by assumption.
      change (32 + 32 =? 32)%nat with false. change (32 + 32 =? 64)%nat with true. rewrite andb_false_r, andb_true_r.
      assert (T : (6 + y mod 2 =? 4) || (6 + y mod 2 =? 6) || (6 + y mod 2 =? 7) = true) by (clear; dlia). rewrite T.
      assert (T' : (6 + y mod 2 =? 4) || (y mod 2 =? 6 + y mod 2 - 6) = true) by (clear; lia). rewrite T'. exact A.
Qed.
(** The texts the decoder accepts are exactly the compressed, the uncompressed and the hybrid texts of the points of the curve, of the
    length asked for; the key it yields is that point.  Everything else is refused. *)
Theorem C126_pubkey_language : forall g enc rest, ready g -> bytes enc -> (length enc = 33 \/ length enc = 65)%nat ->
  exists K : option curve_pt, pubkey_decode secp256k1 g (enc ++ rest) (length enc) = Ok K /\
  match K with
  | Some P => names enc (fst (proj1_sig P)) (snd (proj1_sig P))
  | None => forall x y, ~ names enc x y
  end.
Proof.
  intros g enc rest G B L. destruct (C115_decode secp256k1 g enc rest (repeat 0 33) C126_laws G B L eq_refl) as [D _].
  exists (k_parse enc). split; [exact D|]. destruct (k_parse enc) as [P|] eqn:E; [now apply parse_names|].
  intros x y H. assert (C : on_curve (x, y) = true) by (destruct H as [H _]; now apply point_valid in H).
  apply (proj2 (parse_names enc (exist _ (x, y) C) B)) in H. congruence.
Qed.
Print Assumptions C126_pubkey_language.

(** ** Signatures *)
Definition abscissa (P : option (Z * Z)) : Z := match P with Some (x, _) => x | None => -1 end.
Lemma verify_exact d hash r s : 0 <= be_val hash -> scalar d ->
  k_verify (r, s) hash (k_pub d) = true <->
  scalar r /\ scalar s /\ exists k, scalar k /\ (s * k) mod secp_n = (be_val hash + r * d) mod secp_n /\ abscissa (cmul k cG) mod secp_n = r.
Proof.
  intros Hz D. pose proof n_pos as N. split.
  - unfold k_verify. fold cG. cbv zeta. rewrite !andb_true_iff. intros ((Ir & Is) & H).
    assert (R : scalar r) by (unfold in_order in Ir; split; lia). assert (S : scalar s) by (unfold in_order in Is; split; lia).
    split; [exact R|]. split; [exact S|].
    assert (W : (s * minv secp_n s) mod secp_n = 1) by (apply minv_mul; [exact L_Primes.n_prime|destruct S; rewrite Z.mod_small; lia]).
    revert W H. generalize (minv secp_n s). intros w W H. destruct D as [D1 D2]. rewrite <- (k_pub_val d) in H by (split; assumption).
    rewrite cmul_cmul in H by (try (apply Z.mod_pos_bound; lia); lia). rewrite cadd_cmul in H by (apply Z.mod_pos_bound; lia).
    rewrite Zmult_mod_idemp_l, <- Zplus_mod in H. exists ((be_val hash * w + r * w * d) mod secp_n).
    assert (Q : (s * ((be_val hash * w + r * w * d) mod secp_n)) mod secp_n = (be_val hash + r * d) mod secp_n).
    { rewrite Zmult_mod_idemp_r. replace (s * (be_val hash * w + r * w * d)) with (s * w * (be_val hash + r * d)) by ring.
      rewrite Zmult_mod, W, Z.mul_1_l. apply Zmod_mod. }
    revert H Q. pose proof (Z.mod_pos_bound (be_val hash * w + r * w * d) secp_n ltac:(lia)) as KB. generalize dependent ((be_val hash * w + r * w * d) mod secp_n).
    intros k KB H Q. destruct (cmul k cG) as [[x y]|] eqn:C; [|discriminate]. apply Z.eqb_eq in H.
    split; [|split; [exact Q|exact H]]. destruct (Z.eq_dec k 0) as [->|]; [discriminate|split; lia].
  - intros (R & S & k & K & Q & X). destruct (cmul k cG) as [[x y]|] eqn:C.
    + exact (verify_core d hash r s k x y Hz D R S K Q C X).
    + exfalso. destruct K as [K1 K2]. apply cmul_none in C; [|lia]. rewrite Z.mod_small in C; lia.
Qed.
(** Verification accepts exactly the pairs that the signing equation gives with some nonce: (r, s) is good for the public key of d and the
    hash when there is k with s * k = z + r * d modulo n and r the abscissa of k*G modulo n. *)
Theorem C126_verify_exact : forall g key krest hash hrest r s P, ready g -> bytes key -> length key = 32%nat -> 0 < be_val key < secp_order ->
  bytes hash -> length hash = 32%nat -> 0 <= s < secp_order -> key_get_pub secp256k1 g (key ++ krest) = Ok P ->
  exists b, key_verify secp256k1 g P (hash ++ hrest) (r, s) = Ok b /\
  (b = true <-> 0 < r < secp_n /\ 0 < s < secp_n /\ exists k x y, 0 < k < secp_n /\ cmul k (Some (Gx, Gy)) = Some (x, y) /\
     r = x mod secp_n /\ (s * k) mod secp_n = (be_val hash + r * be_val key) mod secp_n).
Proof.
  intros g key krest hash hrest r s P G Bk Lk D Bh Lh S HP. change secp_order with secp_n in *.
  rewrite (get_pub_ok secp256k1 g key krest G Lk D) in HP. assert (EP : P = k_pub (be_val key)) by (injection HP as <-; reflexivity). subst P. clear HP.
  exists (k_verify (r, if s <=? secp_n / 2 then s else secp_n - s) hash (k_pub (be_val key))).
  split; [exact (C60_verify_meaning secp256k1 g (k_pub (be_val key)) hash hrest r s G Lh S)|].
  pose proof (be_val_bound hash Bh) as Hz. pose proof n_pos as N. rewrite verify_exact by (lia || exact D). fold cG.
  assert (Shape : forall s', (exists k, scalar k /\ (s' * k) mod secp_n = (be_val hash + r * be_val key) mod secp_n /\ abscissa (cmul k cG) mod secp_n = r) <->
    exists k x y, 0 < k < secp_n /\ cmul k cG = Some (x, y) /\ r = x mod secp_n /\ (s' * k) mod secp_n = (be_val hash + r * be_val key) mod secp_n).
  { intros s'. split.
    - intros (k & K & Q & X). destruct (cmul k cG) as [[x y]|] eqn:C.
      + exists k, x, y. split; [exact K|]. split; [exact C|]. split; [symmetry; exact X|exact Q].
      + exfalso. destruct K as [K1 K2]. apply cmul_none in C; [|lia]. rewrite Z.mod_small in C; lia.
    - intros (k & x & y & K & C & X & Q). exists k. split; [exact K|]. split; [exact Q|]. rewrite C. symmetry. exact X. }
  destruct (Z.leb_spec s (secp_n / 2)) as [Low|High].
  - rewrite Shape. reflexivity.
  - assert (NS : 0 < s) by (assert (0 <= secp_n / 2) by (apply Z.div_pos; lia); lia).
    assert (Flip : forall s', 0 < s' < secp_n -> (exists k x y, 0 < k < secp_n /\ cmul k cG = Some (x, y) /\ r = x mod secp_n /\ (s' * k) mod secp_n = (be_val hash + r * be_val key) mod secp_n) ->
       exists k x y, 0 < k < secp_n /\ cmul k cG = Some (x, y) /\ r = x mod secp_n /\ ((secp_n - s') * k) mod secp_n = (be_val hash + r * be_val key) mod secp_n).
    { intros s' S' (k & x & y & K & C & X & Q). destruct (cmul_opp k x y K C) as [y' C']. exists (secp_n - k), x, y'. split; [lia|]. split; [exact C'|]. split; [exact X|].
      apply nonce_neg; [lia|exact Q]. }
    rewrite Shape. split.
    + intros (R & _ & F). split; [exact R|]. split; [lia|]. apply (Flip (secp_n - s)) in F; [|lia]. replace (secp_n - (secp_n - s)) with s in F by lia. exact F.
    + intros (R & _ & F). split; [exact R|]. split; [split; lia|]. exact (Flip s ltac:(lia) F).
Qed.
Print Assumptions C126_verify_exact.

(** ** Headline theorems on this curve *)
(** C59 *)
Theorem C126_sign_verifies : forall g key krest hash hrest fuel r s, ready g ->
  bytes key -> length key = 32%nat -> bytes hash -> length hash = 32%nat ->
  key_sign fuel secp256k1 g (key ++ krest) (hash ++ hrest) = Ok (Returned (r, s)) ->
  0 < be_val key < secp_order /\ 0 < r < 2 ^ 255 /\ 0 < s <= secp_order / 2 /\
  (exists P, key_get_pub secp256k1 g (key ++ krest) = Ok P /\ key_verify secp256k1 g P (hash ++ hrest) (r, s) = Ok true) /\
  (exists enc, signature_encode g (r, s) = Ok (length enc, enc) /\ strict_der r s enc /\ (length enc <= 70)%nat).
Proof. intros. apply (C59_sign_low_r_and_verifies secp256k1 g key krest hash hrest fuel r s C126_laws); assumption. Qed.
Print Assumptions C126_sign_verifies.
(** C64 *)
Theorem C126_derivation_commutes : forall g blank blankp, ready g -> wf_key blank -> wf_pub blankp ->
  forall path xk, wf_key xk -> 0 < be_val (xk_key xk) < secp_order ->
  Forall (fun s => 0 <= fst s < 2 ^ 31 /\ 0 <= snd s < 2 ^ 32) path ->
  exists xp, exkey_get_pub secp256k1 g xk blankp = Ok xp /\
   ((exists xk' xp', derive_path secp256k1 g blank path xk = Ok (Some xk') /\ exkey_get_pub secp256k1 g xk' blankp = Ok xp' /\
       derive_pub_path secp256k1 g blankp path xp = Ok (Some xp')) \/
    (derive_path secp256k1 g blank path xk = Ok None /\ derive_pub_path secp256k1 g blankp path xp = Ok None)).
Proof. intros g blank blankp. exact (C64_public_derivation_commutes secp256k1 g blank blankp C126_laws). Qed.
Print Assumptions C126_derivation_commutes.

(* ---------------------------------------------------------------- *)
(** ** Concrete cases *)
Lemma small_key_pub g k : ready g -> scalar k -> key_get_pub secp256k1 g (be_bytes 32 k) = Ok (k_pub k).
Proof.
  intros G S. pose proof (get_pub_ok secp256k1 g (be_bytes 32 k) [] G (be_bytes_length 32 k)) as H. destruct S as [S1 S2].
  rewrite app_nil_r, be32_small in H by lia. exact (H (conj S1 S2)).
Qed.
Lemma pub_text g (P : curve_pt) enc : ready g -> k_ser true P = enc ->
  pubkey_encode secp256k1 g P (repeat 0 33) 33 = Ok (true, enc) /\ pubkey_decode secp256k1 g enc 33 = Ok (Some P).
Proof.
  intros G <-. destruct (C115_pubkey_encode secp256k1 g P true (repeat 0 33) [] C126_laws G eq_refl) as (_ & _ & E). cbv zeta iota in E. rewrite !app_nil_r in E.
  split; [exact E|]. destruct (C115_roundtrip secp256k1 g P true (repeat 0 33) [] C126_laws G eq_refl) as (enc & E' & _ & D). cbv iota in *. rewrite app_nil_r in D.
  assert (X : enc = k_ser true P). { rewrite E in E'. change (ser secp256k1) with k_ser in E'. congruence. } now rewrite X in D.
Qed.
Lemma pub_2 : proj1_sig (k_pub 2) = (G2x, G2y).
Proof.
  assert (S : scalar 2) by (split; [lia|exact n_pos]). pose proof (k_pub_val 2 S) as V. rewrite mul_2 in V. symmetry. revert V.
  generalize (proj1_sig (k_pub 2)) (G2x, G2y). intros a b V. congruence.
Qed.
Lemma ser_xy (P : curve_pt) x y : proj1_sig P = (x, y) -> k_ser true P = (2 + y mod 2) :: be_bytes 32 x.
Proof. unfold k_ser. now intros ->. Qed.
Lemma G2_text : (2 + G2y mod 2) :: be_bytes 32 G2x = 2 :: be_bytes 32 G2x. Proof. vm_compute. reflexivity. Qed.
(** The public key of 2 is 2*G; its compressed text is 02 C6047F94...5C709EE5. *)
Example C126_two : ready ready_example /\
  exists P, key_get_pub secp256k1 ready_example (be_bytes 32 2) = Ok P /\ proj1_sig P = (G2x, G2y) /\
  pubkey_encode secp256k1 ready_example P (repeat 0 33) 33 = Ok (true, 2 :: be_bytes 32 G2x) /\
  pubkey_decode secp256k1 ready_example (2 :: be_bytes 32 G2x) 33 = Ok (Some P).
Proof.
  split; [exact ready_example_ok|]. exists (k_pub 2).
  split; [exact (small_key_pub ready_example 2 ready_example_ok (conj eq_refl n_pos))|]. split; [exact pub_2|].
  exact (pub_text ready_example (k_pub 2) _ ready_example_ok (eq_trans (ser_xy _ _ _ pub_2) G2_text)).
Qed.

(** A signature of the key 1 with the nonce 2: r is the abscissa of 2*G and the hash is 2 - r, so that s = 1. *)
Definition case_hash : list Z := be_bytes 32 ((2 - G2x) mod secp_n).
Lemma case_hash_val : be_val case_hash = (2 - G2x) mod secp_n. Proof. vm_compute. reflexivity. Qed.
Lemma case_key_val : be_val (be_bytes 32 1) = 1. Proof. vm_compute. reflexivity. Qed.
Lemma case_equation z d : z = (2 - G2x) mod secp_n -> d = 1 -> (1 * 2) mod secp_n = (z + G2x * d) mod secp_n.
Proof. intros -> ->. rewrite Zplus_mod_idemp_l. generalize G2x secp_n. intros x n. replace (2 - x + x * 1) with (1 * 2) by ring. reflexivity. Qed.
Lemma G2x_small : 0 < G2x < secp_n. Proof. split; reflexivity. Qed.
Example C126_verify_case : exists P, key_get_pub secp256k1 ready_example (be_bytes 32 1) = Ok P /\
  key_verify secp256k1 ready_example P case_hash (G2x, 1) = Ok true.
Proof.
  pose proof n_pos as N. assert (S1 : scalar 1) by (split; lia). pose proof (small_key_pub ready_example 1 ready_example_ok S1) as GP. exists (k_pub 1). split; [exact GP|].
  pose proof case_key_val as KV. pose proof (be_bytes_length 32 1) as KL. pose proof (be_bytes_bytes 32 1) as KB.
  pose proof case_hash_val as HV. assert (HL : length case_hash = 32%nat) by apply be_bytes_length. assert (HB : bytes case_hash) by apply be_bytes_bytes.
  revert GP KV KL KB HV HL HB. generalize (be_bytes 32 1) case_hash. intros key hash GP KV KL KB HV HL HB.
  destruct (C126_verify_exact ready_example key [] hash [] G2x 1 (k_pub 1) ready_example_ok KB KL) as (b & V & I); [rewrite KV; exact S1|exact HB|exact HL|split; [discriminate|exact (proj2 S1)]|rewrite app_nil_r; exact GP|].
  rewrite app_nil_r in V. rewrite V. f_equal. apply I. split; [exact G2x_small|]. split; [exact S1|]. exists 2, G2x, G2y.
  split; [split; [reflexivity|exact N]|]. split; [exact mul_2|]. split; [symmetry; apply Z.mod_small; pose proof G2x_small; lia|].
  exact (case_equation _ _ HV KV).
Qed.
