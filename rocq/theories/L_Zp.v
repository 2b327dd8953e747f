(** The integers modulo a prime as a field; no code of the library is modelled here. *)
From Coq Require Import ZArith Bool Lia Znumtheory Zpow_facts Eqdep_dec Field Field_theory.
From Verif Require Import L_Pock.
Open Scope Z_scope.

Section Zp.
Variable m : Z.
Hypothesis Pm : prime m.
Definition fp : Type := { x : Z | (x mod m =? x) = true }.
Definition fval (x : fp) : Z := proj1_sig x.
Lemma mk_ok x : ((x mod m) mod m =? x mod m) = true.
Proof. apply Z.eqb_eq, Zmod_mod. Qed.
Definition fmk (x : Z) : fp := exist _ (x mod m) (mk_ok x).
Lemma m2 : 2 <= m. Proof. exact (prime_ge_2 m Pm). Qed.
Lemma fp_eq (a b : fp) : fval a = fval b -> a = b.
Proof. destruct a as [a Ha], b as [b Hb]. cbn [fval proj1_sig]. intros ->. f_equal. apply UIP_dec, bool_dec. Qed.
Lemma fval_mod (a : fp) : fval a mod m = fval a.
Proof. destruct a as [a Ha]. cbn. now apply Z.eqb_eq. Qed.
Lemma fval_bound (a : fp) : 0 <= fval a < m.
Proof. rewrite <- fval_mod. apply Z.mod_pos_bound. pose proof m2. lia. Qed.
Lemma fmk_val (a : fp) : fmk (fval a) = a.
Proof. apply fp_eq. exact (fval_mod a). Qed.
Lemma fval_mk x : fval (fmk x) = x mod m. Proof. reflexivity. Qed.
Lemma fmk_eq x y : fmk x = fmk y <-> x mod m = y mod m.
Proof. split; [intros H; exact (f_equal fval H)|intros H; apply fp_eq; exact H]. Qed.

Definition fadd (a b : fp) : fp := fmk (fval a + fval b).
Definition fmul (a b : fp) : fp := fmk (fval a * fval b).
Definition fsub (a b : fp) : fp := fmk (fval a - fval b).
Definition fopp (a : fp) : fp := fmk (- fval a).
Definition finv (a : fp) : fp := fmk (fval a ^ (m - 2)).
Definition fdiv (a b : fp) : fp := fmul a (finv b).
Definition f0 : fp := fmk 0.
Definition f1 : fp := fmk 1.
Lemma fp_dec (a b : fp) : {a = b} + {a <> b}.
Proof. destruct (Z.eq_dec (fval a) (fval b)) as [E|N]; [left; now apply fp_eq|right; congruence]. Defined.

Lemma mk_add x y : fmk (x + y) = fadd (fmk x) (fmk y).
Proof. apply fp_eq. unfold fadd. rewrite !fval_mk. now rewrite <- Zplus_mod. Qed.
Lemma mk_mul x y : fmk (x * y) = fmul (fmk x) (fmk y).
Proof. apply fp_eq. unfold fmul. rewrite !fval_mk. now rewrite <- Zmult_mod. Qed.
Lemma mk_sub x y : fmk (x - y) = fsub (fmk x) (fmk y).
Proof. apply fp_eq. unfold fsub. rewrite !fval_mk. now rewrite <- Zminus_mod. Qed.
Lemma mk_opp x : fmk (- x) = fopp (fmk x).
Proof. apply fp_eq. unfold fopp. rewrite !fval_mk. symmetry. change (- (x mod m)) with (0 - x mod m). change (- x) with (0 - x). apply Zminus_mod_idemp_r. Qed.
Lemma mk_mod x : fmk (x mod m) = fmk x.
Proof. apply fp_eq. rewrite !fval_mk. apply Zmod_mod. Qed.

Ltac up a := rewrite <- (fmk_val a); generalize (fval a); clear a.
Lemma fp_ring : ring_theory f0 f1 fadd fmul fsub fopp eq.
Proof.
  split; intros; repeat match goal with a : fp |- _ => up a; intros ? end; unfold f0, f1; rewrite <- ?mk_opp, <- ?mk_add, <- ?mk_mul, <- ?mk_sub, <- ?mk_add, <- ?mk_mul, <- ?mk_add; f_equal; ring.
Qed.
Lemma f1_0 : f1 <> f0.
Proof. intros H. apply fmk_eq in H. pose proof m2. rewrite Z.mod_1_l, Zmod_0_l in H by lia. discriminate. Qed.
Lemma finv_l a : a <> f0 -> fmul (finv a) a = f1.
Proof.
  intros H. apply fp_eq. unfold fmul, finv, f1. rewrite !fval_mk, Zmult_mod_idemp_l. pose proof m2.
  assert (A : fval a mod m <> 0). { intros E. apply H, fp_eq. unfold f0. rewrite fval_mk, Zmod_0_l. now rewrite <- fval_mod. }
  rewrite <- (Z.pow_1_r (fval a)) at 2. rewrite <- Z.pow_add_r by lia. replace (m - 2 + 1) with (m - 1) by lia.
  rewrite (fermat m _ Pm A). symmetry. apply Z.mod_1_l. lia.
Qed.
Theorem fp_field : field_theory f0 f1 fadd fmul fsub fopp fdiv finv eq.
Proof. constructor; [exact fp_ring|exact f1_0|reflexivity|exact finv_l]. Qed.
End Zp.
