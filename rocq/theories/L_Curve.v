(** The chord and tangent group on y^2 = x^3 + b over any field in which 2 is not 0 and x^3 + b has no root (no point
    of order 2).  No code of the library is modelled here.  Associativity goes through the complete addition
    formulas of Renes, Costello and Batina, which need no case distinction. *)
From Coq Require Import Setoid Ring Field Field_theory PArith ZArith Znumtheory Lia.

Section Curve.
Variables (K : Type) (k0 k1 : K) (kadd kmul ksub : K -> K -> K) (kopp kinv : K -> K) (kdiv : K -> K -> K).
Hypothesis KF : field_theory k0 k1 kadd kmul ksub kopp kdiv kinv eq.
Hypothesis Kdec : forall x y : K, {x = y} + {x <> y}.
Add Field KK : KF.
Notation "0" := k0.
Notation "1" := k1.
Infix "+" := kadd.
Infix "*" := kmul.
Infix "-" := ksub.
Infix "/" := kdiv.
Notation "- x" := (kopp x).
Variable b : K.
Hypothesis two : 1 + 1 <> 0.
Hypothesis no_root : forall x, x * x * x + b <> 0.

Lemma one_zero : 1 <> 0. Proof. exact (F_1_neq_0 KF). Qed.
Lemma mul_zero a c : a * c = 0 -> a = 0 \/ c = 0.
Proof.
  intros H. destruct (Kdec a 0) as [E|N]; [now left|right].
  transitivity ((a * c) / a); [field; exact N|]. rewrite H. field. exact N.
Qed.
Lemma mul_nz a c : a <> 0 -> c <> 0 -> a * c <> 0.
Proof. intros A C H. destruct (mul_zero a c H); contradiction. Qed.
Lemma sub_zero a c : a - c = 0 -> a = c.
Proof. intros H. transitivity (a - c + c); [ring|]. rewrite H. ring. Qed.
Lemma cancel a c d : a <> 0 -> a * c = a * d -> c = d.
Proof.
  intros A H. apply sub_zero. destruct (mul_zero a (c - d)) as [E|E]; [|contradiction|exact E].
  transitivity (a * c - a * d); [ring|]. rewrite H. ring.
Qed.

Definition point := option (K * K).
Definition on (P : point) : Prop := match P with None => True | Some (x, y) => y * y = x * x * x + b end.
(** The third point on the line of slope [l] through (x1, y1) and a point with abscissa x2, reflected. *)
Definition third (l x1 y1 x2 : K) : K * K := let x3 := l * l - x1 - x2 in (x3, l * (x1 - x3) - y1).
Definition padd (P Q : point) : point :=
  match P, Q with
  | None, _ => Q
  | _, None => P
  | Some (x1, y1), Some (x2, y2) =>
      if Kdec x1 x2 then
        if Kdec (y1 + y2) 0 then None
        else Some (third (((1 + 1 + 1) * (x1 * x1)) / ((1 + 1) * y1)) x1 y1 x1)
      else Some (third ((y2 - y1) / (x2 - x1)) x1 y1 x2)
  end.
Definition pneg (P : point) : point := match P with None => None | Some (x, y) => Some (x, - y) end.

Lemma y_nz x y : on (Some (x, y)) -> y <> 0.
Proof. cbn [on]. intros H E. apply (no_root x). rewrite <- H, E. ring. Qed.
Lemma neg_on P : on P -> on (pneg P).
Proof. destruct P as [[x y]|]; [|trivial]. cbn [on pneg]. intros H. rewrite <- H. ring. Qed.
Lemma neg_neg P : pneg (pneg P) = P.
Proof. destruct P as [[x y]|]; [|reflexivity]. cbn [pneg]. do 2 f_equal. ring. Qed.

Lemma same_x x y1 y2 : on (Some (x, y1)) -> on (Some (x, y2)) -> y1 + y2 <> 0 -> y1 = y2.
Proof.
  cbn [on]. intros H1 H2 N. apply sub_zero. destruct (mul_zero (y1 + y2) (y1 - y2)) as [E|E]; [|contradiction|exact E].
  transitivity (y1 * y1 - y2 * y2); [ring|]. rewrite H1, H2. ring.
Qed.

(** Clearing a denominator. *)
Lemma div_eq a c d : d <> 0 -> a = c * d -> a / d = c.
Proof. intros D ->. field. exact D. Qed.

Lemma chord_on x1 y1 x2 y2 : on (Some (x1, y1)) -> on (Some (x2, y2)) -> x1 <> x2 -> on (Some (third ((y2 - y1) / (x2 - x1)) x1 y1 x2)).
Proof.
  cbn [on third]. intros H1 H2 N. assert (D : x2 - x1 <> 0) by (intros E; apply N; symmetry; now apply sub_zero).
  set (l := (y2 - y1) / (x2 - x1)). assert (L : l * (x2 - x1) = y2 - y1) by (unfold l; field; exact D). clearbody l.
  assert (E2 : y2 = y1 + l * (x2 - x1)) by (rewrite L; ring).
  (* the cubic through the three points *)
  assert (C : (x2 - x1) * ((l * (x1 - (l * l - x1 - x2)) - y1) * (l * (x1 - (l * l - x1 - x2)) - y1) -
     ((l * l - x1 - x2) * (l * l - x1 - x2) * (l * l - x1 - x2) + b)) = 0).
  { rewrite E2 in H2.
    assert (B1 : b = y1 * y1 - x1 * x1 * x1) by (rewrite H1; ring).
    rewrite B1 in H2. rewrite B1.
    transitivity (((l * l - x1 - x2) - x1) * (((y1 + l * (x2 - x1)) * (y1 + l * (x2 - x1))) - (x2 * x2 * x2 + (y1 * y1 - x1 * x1 * x1)))); [ring|rewrite H2; ring]. }
  apply sub_zero. destruct (mul_zero _ _ C) as [E|E]; [contradiction|exact E].
Qed.

Lemma tangent_on x y : on (Some (x, y)) -> on (Some (third (((1 + 1 + 1) * (x * x)) / ((1 + 1) * y)) x y x)).
Proof.
  intros H. pose proof (y_nz x y H) as Y. cbn [on third] in *.
  set (l := ((1 + 1 + 1) * (x * x)) / ((1 + 1) * y)).
  assert (L : l * ((1 + 1) * y) = (1 + 1 + 1) * (x * x)) by (unfold l; field; split; assumption). clearbody l.
  apply sub_zero. assert (B1 : b = y * y - x * x * x) by (rewrite H; ring). rewrite B1.
  transitivity (((l * l - x - x) - x) * (l * ((1 + 1) * y) - (1 + 1 + 1) * (x * x))); [ring|rewrite L; ring].
Qed.

Lemma add_on P Q : on P -> on Q -> on (padd P Q).
Proof.
  destruct P as [[x1 y1]|], Q as [[x2 y2]|]; intros HP HQ; try assumption; try exact I. unfold padd.
  destruct (Kdec x1 x2) as [->|N]; [|now apply chord_on].
  destruct (Kdec (y1 + y2) 0) as [E|E]; [exact I|now apply tangent_on].
Qed.

Lemma add_comm P Q : on P -> on Q -> padd P Q = padd Q P.
Proof.
  destruct P as [[x1 y1]|], Q as [[x2 y2]|]; intros HP HQ; try reflexivity. unfold padd.
  destruct (Kdec x1 x2) as [->|N].
  - destruct (Kdec x2 x2) as [_|]; [|congruence].
    destruct (Kdec (y1 + y2) 0) as [E|E], (Kdec (y2 + y1) 0) as [E'|E']; try reflexivity.
    + exfalso. apply E'. rewrite <- E. ring.
    + exfalso. apply E. rewrite <- E'. ring.
    + now rewrite (same_x x2 y1 y2 HP HQ E).
  - destruct (Kdec x2 x1) as [->|M]; [congruence|]. unfold third.
    assert (D : x2 - x1 <> 0) by (intros E; apply N; symmetry; now apply sub_zero).
    assert (D' : x1 - x2 <> 0) by (intros E; apply N; now apply sub_zero).
    do 2 f_equal; field; auto.
Qed.

Lemma add_zero_r P : padd P None = P. Proof. now destruct P as [[]|]. Qed.
Lemma add_neg P : padd P (pneg P) = None.
Proof.
  destruct P as [[x y]|]; [|reflexivity]. unfold padd, pneg. destruct (Kdec x x) as [_|]; [|congruence].
  destruct (Kdec (y + - y) 0) as [|N]; [reflexivity|]. exfalso. apply N. ring.
Qed.

(** The complete formulas, for b3 = 3b. *)
Definition b3 := b + b + b.
Definition rX x1 y1 z1 x2 y2 z2 := (x1 * y2 + x2 * y1) * (y1 * y2 - b3 * (z1 * z2)) - b3 * ((y1 * z2 + y2 * z1) * (x1 * z2 + x2 * z1)).
Definition rY x1 y1 z1 x2 y2 z2 := (y1 * y2 + b3 * (z1 * z2)) * (y1 * y2 - b3 * (z1 * z2)) + (b3 + b3 + b3) * ((x1 * x2) * (x1 * z2 + x2 * z1)).
Definition rZ x1 y1 z1 x2 y2 z2 := (y1 * z2 + y2 * z1) * (y1 * y2 + b3 * (z1 * z2)) + (1 + 1 + 1) * ((x1 * x2) * (x1 * y2 + x2 * y1)).

Definition rep (P : point) (X Y Z : K) : Prop :=
  match P with None => X = 0 /\ Z = 0 /\ Y <> 0 | Some (x, y) => Z <> 0 /\ X = x * Z /\ Y = y * Z end.

Lemma opp_nz a : a <> 0 -> - a <> 0.
Proof. intros N E. apply N. transitivity (- - a); [ring|]. rewrite E. ring. Qed.

(** Two affine points, all denominators 1. *)
Lemma rcb_affine x1 y1 x2 y2 : on (Some (x1, y1)) -> on (Some (x2, y2)) ->
  rep (padd (Some (x1, y1)) (Some (x2, y2))) (rX x1 y1 1 x2 y2 1) (rY x1 y1 1 x2 y2 1) (rZ x1 y1 1 x2 y2 1).
Proof.
  intros HP HQ. pose proof (y_nz _ _ HP) as Y1. pose proof (y_nz _ _ HQ) as Y2. unfold padd. destruct (Kdec x1 x2) as [->|N].
  - destruct (Kdec (y1 + y2) 0) as [E|E].
    + assert (E2 : y2 = - y1) by (transitivity (y1 + y2 - y1); [ring|rewrite E; ring]). subst y2. clear HQ Y2 E.
      pose proof (y_nz _ _ (tangent_on _ _ HP)) as T. cbn [rep]. unfold rX, rY, rZ. repeat split; [ring|ring|].
      cbn [on] in HP. assert (B1 : b = y1 * y1 - x2 * x2 * x2) by (rewrite HP; ring).
      set (l := ((1 + 1 + 1) * (x2 * x2)) / ((1 + 1) * y1)) in *.
      assert (L : l * ((1 + 1) * y1) = (1 + 1 + 1) * (x2 * x2)) by (unfold l; field; split; assumption). clearbody l.
      assert (Y3 : (1 + 1) * ((1 + 1) * (1 + 1)) * (y1 * (y1 * y1)) <> 0) by (repeat apply mul_nz; assumption).
      intros Z. apply (mul_nz _ _ Y3 T). rewrite <- Z. unfold b3. rewrite B1.
      set (t := (1 + 1) * y1) in *.
      transitivity ((l * t) * ((1 + 1 + 1) * x2 * (t * t) - (l * t) * (l * t)) - (1 + 1) * ((1 + 1) * (1 + 1)) * (y1 * (y1 * y1)) * y1); [unfold t; ring|].
      rewrite L. unfold t. ring.
    + pose proof (same_x _ _ _ HP HQ E). subst y2. cbn [rep third] in *.
      set (l := ((1 + 1 + 1) * (x2 * x2)) / ((1 + 1) * y1)).
      assert (L : l * ((1 + 1) * y1) = (1 + 1 + 1) * (x2 * x2)) by (unfold l; field; split; assumption). clearbody l.
      cbn [on] in HP. assert (B1 : b = y1 * y1 - x2 * x2 * x2) by (rewrite HP; ring).
      assert (Z3 : rZ x2 y1 1 x2 y1 1 = (1 + 1) * ((1 + 1) * (1 + 1)) * (y1 * (y1 * y1))) by (unfold rZ, b3; rewrite B1; ring).
      rewrite Z3. split; [repeat apply mul_nz; assumption|]. unfold rX, rY, b3. rewrite B1. set (t := (1 + 1) * y1) in *. split.
      * transitivity (((l * t) * (l * t) - (1 + 1) * x2 * (t * t)) * t); [rewrite L; unfold t; ring|unfold t; ring].
      * transitivity ((l * t) * ((1 + 1 + 1) * x2 * (t * t) - (l * t) * (l * t)) - y1 * (t * t * t)); [rewrite L; unfold t; ring|unfold t; ring].
  - assert (D : x2 - x1 <> 0) by (intros E; apply N; symmetry; now apply sub_zero).
    pose proof (y_nz _ _ (chord_on x1 y1 x2 (- y2) HP (neg_on _ HQ) N)) as T.
    cbn [rep third] in *. cbn [on] in HP, HQ.
    assert (Z3 : rZ x1 y1 1 x2 y2 1 <> 0).
    { set (m := (- y2 - y1) / (x2 - x1)) in *. assert (L : m * (x2 - x1) = - y2 - y1) by (unfold m; field; exact D). clearbody m.
      intros Z. apply (mul_nz _ _ (mul_nz _ _ D (mul_nz _ _ D D)) T).
      transitivity ((m * (x2 - x1)) * ((x1 + x1 + x2) * ((x2 - x1) * (x2 - x1)) - (m * (x2 - x1)) * (m * (x2 - x1))) - y1 * ((x2 - x1) * ((x2 - x1) * (x2 - x1)))); [ring|].
      rewrite L. transitivity (rZ x1 y1 1 x2 y2 1); [|exact Z]. unfold rZ, b3. ring [HP HQ]. }
    split; [exact Z3|].
    set (l := (y2 - y1) / (x2 - x1)). assert (L : l * (x2 - x1) = y2 - y1) by (unfold l; field; exact D). clearbody l.
    split.
    + apply (cancel ((x2 - x1) * (x2 - x1))); [apply mul_nz; exact D|].
      transitivity (((l * (x2 - x1)) * (l * (x2 - x1)) - (x1 + x2) * ((x2 - x1) * (x2 - x1))) * rZ x1 y1 1 x2 y2 1); [|ring].
      rewrite L. unfold rX, rZ, b3. ring [HP HQ].
    + apply (cancel ((x2 - x1) * ((x2 - x1) * (x2 - x1)))); [repeat apply mul_nz; exact D|].
      transitivity (((l * (x2 - x1)) * ((x1 + x1 + x2) * ((x2 - x1) * (x2 - x1)) - (l * (x2 - x1)) * (l * (x2 - x1))) - y1 * ((x2 - x1) * ((x2 - x1) * (x2 - x1)))) * rZ x1 y1 1 x2 y2 1); [|ring].
      rewrite L. unfold rY, rZ, b3. ring [HP HQ].
Qed.

Lemma rX_hom s t x1 y1 z1 x2 y2 z2 : rX (s * x1) (s * y1) (s * z1) (t * x2) (t * y2) (t * z2) = (s * s * (t * t)) * rX x1 y1 z1 x2 y2 z2.
Proof. unfold rX. ring. Qed.
Lemma rY_hom s t x1 y1 z1 x2 y2 z2 : rY (s * x1) (s * y1) (s * z1) (t * x2) (t * y2) (t * z2) = (s * s * (t * t)) * rY x1 y1 z1 x2 y2 z2.
Proof. unfold rY. ring. Qed.
Lemma rZ_hom s t x1 y1 z1 x2 y2 z2 : rZ (s * x1) (s * y1) (s * z1) (t * x2) (t * y2) (t * z2) = (s * s * (t * t)) * rZ x1 y1 z1 x2 y2 z2.
Proof. unfold rZ. ring. Qed.
Lemma rep_scale P s X Y Z : s <> 0 -> rep P X Y Z -> rep P (s * X) (s * Y) (s * Z).
Proof.
  intros S. destruct P as [[x y]|]; cbn [rep]; intros (A & B & C).
  - split; [now apply mul_nz|]. rewrite B, C. split; ring.
  - rewrite A, B. split; [ring|split; [ring|now apply mul_nz]].
Qed.
(** Coordinates of a point whose common denominator is 1. *)
Definition cX (P : point) := match P with None => 0 | Some (x, _) => x end.
Definition cY (P : point) := match P with None => 1 | Some (_, y) => y end.
Definition cZ (P : point) := match P with None => 0 | Some _ => 1 end.
Lemma rep_coords P X Y Z : rep P X Y Z -> exists s, s <> 0 /\ X = s * cX P /\ Y = s * cY P /\ Z = s * cZ P.
Proof.
  destruct P as [[x y]|]; cbn [rep cX cY cZ]; intros (A & B & C).
  - exists Z. repeat split; [exact A|rewrite B; ring|rewrite C; ring|ring].
  - exists Y. repeat split; [exact C|rewrite A; ring|ring|rewrite B; ring].
Qed.
Lemma rep_self P : rep P (cX P) (cY P) (cZ P).
Proof. destruct P as [[x y]|]; cbn [rep cX cY cZ]; [split; [exact one_zero|split; ring]|split; [reflexivity|split; [reflexivity|exact one_zero]]]. Qed.

Lemma rcb_coords P Q : on P -> on Q ->
  rep (padd P Q) (rX (cX P) (cY P) (cZ P) (cX Q) (cY Q) (cZ Q)) (rY (cX P) (cY P) (cZ P) (cX Q) (cY Q) (cZ Q)) (rZ (cX P) (cY P) (cZ P) (cX Q) (cY Q) (cZ Q)).
Proof.
  destruct P as [[x1 y1]|]; intros HP HQ.
  - destruct Q as [[x2 y2]|]; [now apply rcb_affine|].
    rewrite add_zero_r. pose proof (y_nz _ _ HP) as Y. cbn [cX cY cZ rep]. unfold rX, rY, rZ.
    split; [|split; ring]. intros E. apply Y. rewrite <- E. ring.
  - destruct Q as [[x2 y2]|]; cbn [padd].
    + pose proof (y_nz _ _ HQ) as Y. cbn [cX cY cZ rep]. unfold rX, rY, rZ.
      split; [|split; ring]. intros E. apply Y. rewrite <- E. ring.
    + cbn [cX cY cZ rep]. unfold rX, rY, rZ. split; [ring|split; [ring|]]. intros E. apply one_zero. rewrite <- E. ring.
Qed.

(** The complete formulas compute the chord and tangent addition. *)
Lemma rcb_rep P Q X1 Y1 Z1 X2 Y2 Z2 : on P -> on Q -> rep P X1 Y1 Z1 -> rep Q X2 Y2 Z2 ->
  rep (padd P Q) (rX X1 Y1 Z1 X2 Y2 Z2) (rY X1 Y1 Z1 X2 Y2 Z2) (rZ X1 Y1 Z1 X2 Y2 Z2).
Proof.
  intros HP HQ RP RQ. destruct (rep_coords _ _ _ _ RP) as (s & S & -> & -> & ->). destruct (rep_coords _ _ _ _ RQ) as (t & T & -> & -> & ->).
  rewrite rX_hom, rY_hom, rZ_hom. apply rep_scale; [repeat apply mul_nz; assumption|]. now apply rcb_coords.
Qed.

Lemma rep_unique P Q X Y Z X' Y' Z' : rep P X Y Z -> rep Q X' Y' Z' -> X * Z' = Z * X' -> Y * Z' = Z * Y' -> P = Q.
Proof.
  destruct P as [[x1 y1]|], Q as [[x2 y2]|]; cbn [rep]; intros (A & B & C) (A' & B' & C') E1 E2.
  - subst. pose proof (mul_nz _ _ A A') as N. do 2 f_equal; apply (cancel (Z * Z')); try exact N.
    + transitivity (x1 * Z * Z'); [ring|]. rewrite E1. ring.
    + transitivity (y1 * Z * Z'); [ring|]. rewrite E2. ring.
  - exfalso. subst. destruct (mul_zero Z Y') as [F|F]; [|contradiction|contradiction]. rewrite <- E2. ring.
  - exfalso. subst. destruct (mul_zero Y Z') as [F|F]; [|contradiction|contradiction]. rewrite E2. ring.
  - reflexivity.
Qed.

Lemma assoc_xz x1 y1 x2 y2 x3 y3 : y1 * y1 = x1 * x1 * x1 + b -> y2 * y2 = x2 * x2 * x2 + b -> y3 * y3 = x3 * x3 * x3 + b ->
  rX (rX x1 y1 1 x2 y2 1) (rY x1 y1 1 x2 y2 1) (rZ x1 y1 1 x2 y2 1) x3 y3 1 * rZ x1 y1 1 (rX x2 y2 1 x3 y3 1) (rY x2 y2 1 x3 y3 1) (rZ x2 y2 1 x3 y3 1) =
  rZ (rX x1 y1 1 x2 y2 1) (rY x1 y1 1 x2 y2 1) (rZ x1 y1 1 x2 y2 1) x3 y3 1 * rX x1 y1 1 (rX x2 y2 1 x3 y3 1) (rY x2 y2 1 x3 y3 1) (rZ x2 y2 1 x3 y3 1).
Proof. intros H1 H2 H3. unfold rX, rY, rZ, b3. ring [H1 H2 H3]. Qed.
Lemma assoc_yz x1 y1 x2 y2 x3 y3 : y1 * y1 = x1 * x1 * x1 + b -> y2 * y2 = x2 * x2 * x2 + b -> y3 * y3 = x3 * x3 * x3 + b ->
  rY (rX x1 y1 1 x2 y2 1) (rY x1 y1 1 x2 y2 1) (rZ x1 y1 1 x2 y2 1) x3 y3 1 * rZ x1 y1 1 (rX x2 y2 1 x3 y3 1) (rY x2 y2 1 x3 y3 1) (rZ x2 y2 1 x3 y3 1) =
  rZ (rX x1 y1 1 x2 y2 1) (rY x1 y1 1 x2 y2 1) (rZ x1 y1 1 x2 y2 1) x3 y3 1 * rY x1 y1 1 (rX x2 y2 1 x3 y3 1) (rY x2 y2 1 x3 y3 1) (rZ x2 y2 1 x3 y3 1).
Proof. intros H1 H2 H3. unfold rX, rY, rZ, b3. ring [H1 H2 H3]. Qed.

Theorem add_assoc P Q R : on P -> on Q -> on R -> padd (padd P Q) R = padd P (padd Q R).
Proof.
  intros HP HQ HR. destruct P as [[x1 y1]|]; [|reflexivity]. destruct Q as [[x2 y2]|]; [|now rewrite add_zero_r].
  destruct R as [[x3 y3]|]; [|now rewrite !add_zero_r].
  pose proof (rcb_rep _ _ _ _ _ _ _ _ (add_on _ _ HP HQ) HR (rcb_affine _ _ _ _ HP HQ) (rep_self _)) as L.
  pose proof (rcb_rep _ _ _ _ _ _ _ _ HP (add_on _ _ HQ HR) (rep_self _) (rcb_affine _ _ _ _ HQ HR)) as M.
  refine (rep_unique _ _ _ _ _ _ _ _ L M _ _); cbn [cX cY cZ]; [now apply assoc_xz|now apply assoc_yz].
Qed.

(** Multiples: double and add. *)
Fixpoint pmul (k : positive) (P : point) : point :=
  match k with
  | xH => P
  | xO k => let Q := pmul k P in padd Q Q
  | xI k => let Q := pmul k P in padd P (padd Q Q)
  end.
Lemma pmul_on k P : on P -> on (pmul k P).
Proof. intros H. induction k as [k IH|k IH|]; cbn [pmul]; [| |exact H]; repeat apply add_on; assumption. Qed.
Lemma pmul_succ k P : on P -> pmul (Pos.succ k) P = padd P (pmul k P).
Proof.
  intros H. induction k as [k IH|k IH|]; cbn [pmul Pos.succ]; [|reflexivity|reflexivity].
  pose proof (pmul_on k P H) as O. rewrite IH. cbv zeta. rewrite <- !add_assoc by (repeat apply add_on; assumption).
  f_equal. rewrite !add_assoc by (repeat apply add_on; assumption). f_equal. apply add_comm; assumption.
Qed.
Lemma pmul_add a c P : on P -> pmul (a + c) P = padd (pmul a P) (pmul c P).
Proof.
  intros H. revert c. induction a as [|a IH] using Pos.peano_ind; intros c.
  - rewrite Pos.add_1_l. now apply pmul_succ.
  - rewrite Pos.add_succ_l, !pmul_succ, IH by exact H. symmetry. apply add_assoc; auto using pmul_on.
Qed.
Lemma pmul_mul a c P : on P -> pmul a (pmul c P) = pmul (a * c) P.
Proof.
  intros H. induction a as [|a IH] using Pos.peano_ind; [reflexivity|].
  rewrite pmul_succ by auto using pmul_on. now rewrite Pos.mul_succ_l, pmul_add, IH by exact H.
Qed.
Lemma inverse_unique P Q : on P -> on Q -> padd P Q = None -> Q = pneg P.
Proof.
  intros HP HQ E. transitivity (padd (padd (pneg P) P) Q).
  - rewrite (add_comm (pneg P) P), add_neg by auto using neg_on. reflexivity.
  - rewrite add_assoc, E, add_zero_r by auto using neg_on. reflexivity.
Qed.
Lemma cancel_l P Q R : on P -> on Q -> on R -> padd P Q = padd P R -> Q = R.
Proof.
  intros HP HQ HR E. assert (X : forall S, on S -> padd (pneg P) (padd P S) = S).
  { intros S HS. rewrite <- add_assoc, (add_comm (pneg P) P), add_neg by auto using neg_on. reflexivity. }
  rewrite <- (X Q HQ), <- (X R HR). now rewrite E.
Qed.

(** Multiples by a number that is not negative. *)
Definition zmul (k : Z) (P : point) : point := match k with Zpos k => pmul k P | _ => None end.
Open Scope Z_scope.
Lemma zmul_on k P : on P -> on (zmul k P).
Proof. destruct k; [intros _; exact I|now apply pmul_on|intros _; exact I]. Qed.
Lemma zmul_zero_pt k : zmul k None = None.
Proof. destruct k as [|k|k]; [reflexivity| |reflexivity]. cbn [zmul]. induction k as [k IH|k IH|]; cbn [pmul]; rewrite ?IH; reflexivity. Qed.
Lemma zmul_1 P : zmul 1 P = P. Proof. reflexivity. Qed.
Lemma zmul_add a c P : on P -> 0 <= a -> 0 <= c -> zmul (Z.add a c) P = padd (zmul a P) (zmul c P).
Proof.
  intros H A C. destruct a as [|a|a]; [reflexivity| |lia]. destruct c as [|c|c]; [|now apply pmul_add|lia].
  rewrite Z.add_0_r. symmetry. apply add_zero_r.
Qed.
Lemma zmul_mul a c P : on P -> 0 <= a -> 0 <= c -> zmul a (zmul c P) = zmul (Z.mul a c) P.
Proof.
  intros H A C. destruct a as [|a|a]; [reflexivity| |lia]. destruct c as [|c|c]; [|now apply pmul_mul|lia].
  rewrite Z.mul_0_r. apply zmul_zero_pt.
Qed.
Lemma zmul_mod n k P : on P -> 0 < n -> 0 <= k -> zmul n P = None -> zmul (k mod n)%Z P = zmul k P.
Proof.
  intros H N C E. pose proof (Z.div_mod k n ltac:(lia)) as D. pose proof (Z.mod_pos_bound k n ltac:(lia)). pose proof (Z.div_pos k n ltac:(lia) ltac:(lia)).
  rewrite D at 2. rewrite zmul_add by (assumption || lia || (apply Z.mul_nonneg_nonneg; lia)).
  rewrite Z.mul_comm, <- zmul_mul, E, zmul_zero_pt by (assumption || lia). reflexivity.
Qed.
(** A point other than zero whose n-th multiple is zero has order n, if n is prime. *)
Lemma zmul_order n k P : on P -> P <> None -> prime n -> 0 <= k -> zmul n P = None -> zmul k P = None -> (n | k).
Proof.
  intros H P0 N C E F. pose proof (prime_ge_2 n N). destruct (Zdivide_dec n k) as [Y|ND]; [exact Y|exfalso].
  assert (k <> 0) by (intros ->; apply ND, Z.divide_0_r).
  destruct (rel_prime_bezout k n) as [u v B]; [apply rel_prime_sym, prime_rel_prime; assumption|].
  set (u' := (u mod n)%Z). pose proof (Z.mod_pos_bound u n ltac:(lia)) as Bu. fold u' in Bu.
  assert (Eu : u = (n * (u / n) + u')%Z) by (apply Z.div_mod; lia). set (w := Z.opp (v + (u / n) * k)%Z).
  assert (W : Z.mul u' k = Z.add 1 (Z.mul n w)) by (unfold w; nia). assert (0 <= w) by nia. assert (0 <= Z.mul n w) by (apply Z.mul_nonneg_nonneg; lia).
  apply P0. assert (X : zmul u' (zmul k P) = P).
  { rewrite zmul_mul, W, zmul_add, Z.mul_comm, <- zmul_mul, E, zmul_zero_pt, add_zero_r by (assumption || lia). reflexivity. }
  rewrite F, zmul_zero_pt in X. now symmetry.
Qed.
Close Scope Z_scope.
End Curve.
