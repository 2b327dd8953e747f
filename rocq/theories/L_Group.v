(** The points of secp256k1 (S_Secp256k1) form a group: the abstract group of L_Curve over the field of L_Zp.
    No code of the library is modelled here. *)
From Coq Require Import Zpow_facts Znumtheory.
From Verif Require Import Base L_Pock M_Secp S_Secp256k1 L_Primes L_Zp L_Curve.

Definition K := fp secp_p.
Notation mk := (fmk secp_p).
Definition seven : K := mk 7.
Lemma p_big : 100 < secp_p. Proof. reflexivity. Qed.
Definition KF := fp_field secp_p p_prime.

Lemma k_two : fadd secp_p (f1 secp_p) (f1 secp_p) <> f0 secp_p.
Proof.
  unfold f1, f0. rewrite <- mk_add. intros E. apply fmk_eq in E. pose proof p_big.
  rewrite !Z.mod_small in E by lia. discriminate.
Qed.

(** -7 is not a cube. *)
Definition red_p (x : Z) : Z := reduce secp_p 256 4294968273 2 x.
Lemma red_p_mod x : red_p x mod secp_p = x mod secp_p.
Proof. apply reduce_mod; [lia|]. right. reflexivity. Qed.
Lemma not_cube_check : (powz red_p 7 ((secp_p - 1) / 3) mod secp_p =? 1) = false.
Proof. vm_compute. reflexivity. Qed.
Lemma third_p : (secp_p - 1) = 3 * ((secp_p - 1) / 3). Proof. reflexivity. Qed.
Lemma no_cube x : (x * x * x + 7) mod secp_p <> 0.
Proof.
  pose proof not_cube_check as C. apply Z.eqb_neq in C. pose proof third_p as T. pose proof p_big as B. pose proof p_prime as PP. pose proof red_p_mod as R.
  revert T C B PP R. generalize red_p. generalize ((secp_p - 1) / 3). generalize secp_p. intros p e rd T C B PP R.
  rewrite (powz_mod p rd) in C by (lia || exact R).
  intros E. apply C.
  assert (X : 7 mod p = ((- x) ^ 3) mod p).
  { replace ((- x) ^ 3) with (7 - (x * x * x + 7)) by ring. rewrite Zminus_mod, E, Z.sub_0_r, Zmod_mod. reflexivity. }
  assert (N : (- x) mod p <> 0).
  { intros Z. rewrite Zpower_mod, Z, Z.mod_small in X by lia. change (0 ^ 3) with 0 in X. rewrite Zmod_0_l in X. discriminate. }
  rewrite Zpower_mod, X, <- Zpower_mod by lia.
  assert (E0 : 0 <= e) by (clear - T B; lia). clear E C X. rewrite <- Z.pow_mul_r by (exact E0 || discriminate). rewrite <- T. exact (fermat p (- x) PP N).
Qed.
Lemma k_no_root x : fadd secp_p (fmul secp_p (fmul secp_p x x) x) seven <> f0 secp_p.
Proof.
  rewrite <- (fmk_val secp_p x). generalize (fval secp_p x). intros z. unfold seven, f0. rewrite <- !mk_mul, <- mk_add.
  intros E. apply fmk_eq in E. rewrite Zmod_0_l in E. exact (no_cube z E).
Qed.

(** The group. *)
Definition gpt := point K.
Definition gadd : gpt -> gpt -> gpt := padd K (f0 secp_p) (f1 secp_p) (fadd secp_p) (fmul secp_p) (fsub secp_p) (fdiv secp_p) (fp_dec secp_p).
Definition gmul : Z -> gpt -> gpt := zmul K (f0 secp_p) (f1 secp_p) (fadd secp_p) (fmul secp_p) (fsub secp_p) (fdiv secp_p) (fp_dec secp_p).
Definition gneg : gpt -> gpt := pneg K (fopp secp_p).
Definition gon : gpt -> Prop := on K (fadd secp_p) (fmul secp_p) seven.
Lemma gadd_on P Q : gon P -> gon Q -> gon (gadd P Q). Proof. exact (add_on K _ _ _ _ _ _ _ _ KF (fp_dec secp_p) seven k_two k_no_root P Q). Qed.
Lemma gadd_comm P Q : gon P -> gon Q -> gadd P Q = gadd Q P. Proof. exact (add_comm K _ _ _ _ _ _ _ _ KF (fp_dec secp_p) seven P Q). Qed.
Lemma gadd_assoc P Q R : gon P -> gon Q -> gon R -> gadd (gadd P Q) R = gadd P (gadd Q R).
Proof. exact (add_assoc K _ _ _ _ _ _ _ _ KF (fp_dec secp_p) seven k_two k_no_root P Q R). Qed.
Lemma gadd_0 P : gadd P None = P. Proof. exact (add_zero_r K _ _ _ _ _ _ (fp_dec secp_p) P). Qed.
Lemma gmul_on k P : gon P -> gon (gmul k P). Proof. exact (zmul_on K _ _ _ _ _ _ _ _ KF (fp_dec secp_p) seven k_two k_no_root k P). Qed.
Lemma gneg_on P : gon P -> gon (gneg P). Proof. exact (neg_on K _ _ _ _ _ _ _ _ KF seven P). Qed.
Lemma gmul_add a c P : gon P -> 0 <= a -> 0 <= c -> gmul (a + c) P = gadd (gmul a P) (gmul c P).
Proof. exact (zmul_add K _ _ _ _ _ _ _ _ KF (fp_dec secp_p) seven k_two k_no_root a c P). Qed.
Lemma gmul_mul a c P : gon P -> 0 <= a -> 0 <= c -> gmul a (gmul c P) = gmul (a * c) P.
Proof. exact (zmul_mul K _ _ _ _ _ _ _ _ KF (fp_dec secp_p) seven k_two k_no_root a c P). Qed.
Lemma gmul_mod n k P : gon P -> 0 < n -> 0 <= k -> gmul n P = None -> gmul (k mod n) P = gmul k P.
Proof. exact (zmul_mod K _ _ _ _ _ _ _ _ KF (fp_dec secp_p) seven k_two k_no_root n k P). Qed.
Lemma gmul_order n k P : gon P -> P <> None -> prime n -> 0 <= k -> gmul n P = None -> gmul k P = None -> (n | k).
Proof. exact (zmul_order K _ _ _ _ _ _ _ _ KF (fp_dec secp_p) seven k_two k_no_root n k P). Qed.
Lemma ginverse P Q : gon P -> gon Q -> gadd P Q = None -> Q = gneg P.
Proof. exact (inverse_unique K _ _ _ _ _ _ _ _ KF (fp_dec secp_p) seven k_two k_no_root P Q). Qed.
Lemma gcancel P Q R : gon P -> gon Q -> gon R -> gadd P Q = gadd P R -> Q = R.
Proof. exact (cancel_l K _ _ _ _ _ _ _ _ KF (fp_dec secp_p) seven k_two k_no_root P Q R). Qed.

(** The functions of S_Secp256k1 are those of the group. *)
Definition up1 (P : Z * Z) : K * K := (mk (fst P), mk (snd P)).
Definition up (P : option (Z * Z)) : gpt := option_map up1 P.
Definition valid (P : option (Z * Z)) : Prop := match P with None => True | Some P => on_curve P = true end.

Lemma on_curve_spec x y : on_curve (x, y) = true <-> 0 <= x < secp_p /\ 0 <= y < secp_p /\ (y * y) mod secp_p = (x * x * x + 7) mod secp_p.
Proof. unfold on_curve. rewrite !andb_true_iff, !Z.leb_le, !Z.ltb_lt, Z.eqb_eq. tauto. Qed.
Lemma up_on P : valid P -> gon (up P).
Proof.
  destruct P as [[x y]|]; [|intros _; exact I]. cbn [valid]. rewrite on_curve_spec. intros (_ & _ & E).
  unfold up, up1, gon, seven. cbn [option_map fst snd on]. rewrite <- !mk_mul, <- mk_add. now apply fmk_eq.
Qed.
Lemma valid_intro x y : 0 <= x < secp_p -> 0 <= y < secp_p -> gon (Some (mk x, mk y)) -> on_curve (x, y) = true.
Proof.
  intros Hx Hy H. rewrite on_curve_spec. split; [exact Hx|]. split; [exact Hy|].
  unfold gon, seven in H. cbn [on] in H. rewrite <- !mk_mul, <- mk_add in H. now apply fmk_eq in H.
Qed.
Lemma up_inj P Q : valid P -> valid Q -> up P = up Q -> P = Q.
Proof.
  destruct P as [[x1 y1]|], Q as [[x2 y2]|]; cbn [valid up option_map up1 fst snd]; try discriminate; [|reflexivity].
  rewrite !on_curve_spec. intros (X1 & Y1 & _) (X2 & Y2 & _) E. injection E as Ex Ey.
  rewrite !Z.mod_small in Ex, Ey by lia. now subst.
Qed.

Lemma mk_inv x : mk (minv secp_p x) = finv secp_p (mk x).
Proof.
  apply fp_eq. unfold finv, minv. rewrite !fval_mk. pose proof p_big. rewrite Zpow_mod_correct by lia.
  rewrite Zmod_mod. rewrite (Zpower_mod x) by lia. reflexivity.
Qed.
Lemma mk_third l x1 y1 x2 : up1 (cthird l x1 y1 x2) = third K (fmul secp_p) (fsub secp_p) (mk l) (mk x1) (mk y1) (mk x2).
Proof.
  unfold cthird, third, up1. cbv zeta. cbn [fst snd].
  assert (E : mk ((l * l - x1 - x2) mod secp_p) = fsub secp_p (fsub secp_p (fmul secp_p (mk l) (mk l)) (mk x1)) (mk x2)) by now rewrite mk_mod, !mk_sub, mk_mul.
  rewrite <- E. rewrite (mk_mod secp_p (_ * _ - y1)), mk_sub, mk_mul, mk_sub. reflexivity.
Qed.
Lemma up_add P Q : valid P -> valid Q -> up (cadd P Q) = gadd (up P) (up Q).
Proof.
  destruct P as [[x1 y1]|], Q as [[x2 y2]|]; intros HP HQ; try reflexivity.
  cbn [valid] in HP, HQ. rewrite on_curve_spec in HP, HQ. destruct HP as (X1 & Y1 & C1), HQ as (X2 & Y2 & C2). pose proof p_big.
  unfold cadd, gadd, padd, up, up1. cbn [option_map fst snd].
  destruct (Z.eqb_spec x1 x2) as [->|N].
  - destruct (fp_dec secp_p (mk x2) (mk x2)) as [_|X]; [|congruence].
    destruct (Z.eqb_spec ((y1 + y2) mod secp_p) 0) as [E|E].
    + destruct (fp_dec secp_p _ _) as [_|X]; [reflexivity|]. exfalso. apply X. unfold f0. rewrite <- mk_add. apply fmk_eq. now rewrite Zmod_0_l.
    + destruct (fp_dec secp_p _ _) as [X|_]; [exfalso; apply E; unfold f0 in X; rewrite <- mk_add in X; apply fmk_eq in X; now rewrite Zmod_0_l in X|].
      cbn [option_map]. f_equal. change (mk (fst ?a), mk (snd ?a)) with (up1 a). rewrite mk_third. f_equal.
      rewrite mk_mod, !mk_mul, mk_inv. unfold fdiv, f1. rewrite mk_mul, <- !mk_add, <- !mk_mul. reflexivity.
  - destruct (fp_dec secp_p (mk x1) (mk x2)) as [X|_]; [apply fmk_eq in X; rewrite !Z.mod_small in X by lia; contradiction|].
    cbn [option_map]. f_equal. change (mk (fst ?a), mk (snd ?a)) with (up1 a). rewrite mk_third. f_equal.
    rewrite mk_mod, mk_mul, mk_inv. unfold fdiv. now rewrite !mk_sub.
Qed.
Lemma cadd_valid P Q : valid P -> valid Q -> valid (cadd P Q).
Proof.
  intros HP HQ. pose proof (gadd_on _ _ (up_on P HP) (up_on Q HQ)) as H. rewrite <- up_add in H by assumption. pose proof p_big.
  assert (T : forall l x y z, gon (up (Some (cthird l x y z))) -> valid (Some (cthird l x y z))).
  { intros l x y z O. apply valid_intro; [apply Z.mod_pos_bound; lia|apply Z.mod_pos_bound; lia|exact O]. }
  destruct P as [[x1 y1]|]; [|exact HQ]. destruct Q as [[x2 y2]|]; [|exact HP]. unfold cadd in *.
  destruct (x1 =? x2); [|exact (T _ _ _ _ H)]. destruct (_ =? 0); [exact I|exact (T _ _ _ _ H)].
Qed.
Lemma up_mul k P : valid P -> valid (cmul k P) /\ up (cmul k P) = gmul k (up P).
Proof.
  intros HP. destruct k as [|k|k]; [split; [exact I|reflexivity]| |split; [exact I|reflexivity]]. cbn [cmul]. unfold gmul. cbn [zmul].
  induction k as [k [V IH]|k [V IH]|]; cbn [cmulp pmul]; cbv zeta; [| |split; [exact HP|reflexivity]].
  - split; [repeat apply cadd_valid; assumption|]. rewrite up_add, up_add, IH by (try apply cadd_valid; assumption). reflexivity.
  - split; [repeat apply cadd_valid; assumption|]. rewrite up_add, IH by assumption. reflexivity.
Qed.
