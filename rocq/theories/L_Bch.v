(** The code underlying Bech32 has minimum distance at least 5 up to length 88
    (linear algebra over GF(32); the finite part is a computation over 87 vectors). *)
From Verif Require Import Base.

Definition sym (x : Z) : Prop := 0 <= x < 32.
(** Multiplication by the polynomial generator of GF(32) = GF(2)[a]/(a^5+a^3+1). *)
Definition xtime (x : Z) : Z := if x <? 16 then 2 * x else Z.lxor (2 * x) 41.
Definition gmul_def (a b : Z) : Z :=
  let a1 := xtime a in let a2 := xtime a1 in let a3 := xtime a2 in let a4 := xtime a3 in
  let pick i v := if Z.testbit b i then v else 0 in
  Z.lxor (pick 0 a) (Z.lxor (pick 1 a1) (Z.lxor (pick 2 a2) (Z.lxor (pick 3 a3) (pick 4 a4)))).
Definition gmul_table : list (list Z) := Eval vm_compute in
  map (fun a => map (fun b => gmul_def a b) (zrange 32)) (zrange 32).
Definition gmul (a b : Z) : Z := nth (Z.to_nat b) (nth (Z.to_nat a) gmul_table []) 0.
Definition ginv_table : list Z := Eval vm_compute in
  map (fun a => hd 0 (filter (fun b => gmul_def a b =? 1) (zrange 32))) (zrange 32).
Definition ginv (a : Z) : Z := nth (Z.to_nat a) ginv_table 0.

Lemma sweep3' (P : Z -> Z -> Z -> bool) :
  forallb (fun x => forallb (fun y => forallb (P x y) (zrange 32)) (zrange 32)) (zrange 32) = true ->
  forall x y z, sym x -> sym y -> sym z -> P x y z = true.
Proof.
  intros H x y z Hx Hy Hz. pose proof (sweep1 32 _ H x Hx) as H1. cbv beta in H1.
  pose proof (sweep1 32 _ H1 y Hy) as H2. cbv beta in H2. exact (sweep1 32 _ H2 z Hz).
Qed.

Lemma gmul_sym a b : sym a -> sym b -> sym (gmul a b).
Proof.
  intros Ha Hb. assert (C : (0 <=? gmul a b) && (gmul a b <? 32) = true).
  { apply (sweep2 32 32 (fun a b => (0 <=? gmul a b) && (gmul a b <? 32))); [vm_cast_no_check (eq_refl true)|exact Ha|exact Hb]. }
  unfold sym. lia.
Qed.
Lemma gmul_comm a b : sym a -> sym b -> gmul a b = gmul b a.
Proof.
  intros Ha Hb. apply Z.eqb_eq. apply (sweep2 32 32 (fun a b => gmul a b =? gmul b a)); [vm_cast_no_check (eq_refl true)|exact Ha|exact Hb].
Qed.
Lemma gmul_assoc a b c : sym a -> sym b -> sym c -> gmul a (gmul b c) = gmul (gmul a b) c.
Proof.
  intros Ha Hb Hc. apply Z.eqb_eq. apply (sweep3' (fun a b c => gmul a (gmul b c) =? gmul (gmul a b) c)); [vm_cast_no_check (eq_refl true)|exact Ha|exact Hb|exact Hc].
Qed.
Lemma gmul_add a b c : sym a -> sym b -> sym c -> gmul a (Z.lxor b c) = Z.lxor (gmul a b) (gmul a c).
Proof.
  intros Ha Hb Hc. apply Z.eqb_eq. apply (sweep3' (fun a b c => gmul a (Z.lxor b c) =? Z.lxor (gmul a b) (gmul a c))); [vm_cast_no_check (eq_refl true)|exact Ha|exact Hb|exact Hc].
Qed.
Lemma gmul_0_l a : sym a -> gmul 0 a = 0.
Proof. intros Ha. apply Z.eqb_eq. apply (sweep1 32 (fun a => gmul 0 a =? 0)); [vm_cast_no_check (eq_refl true)|exact Ha]. Qed.
Lemma gmul_1_l a : sym a -> gmul 1 a = a.
Proof. intros Ha. apply Z.eqb_eq. apply (sweep1 32 (fun a => gmul 1 a =? a)); [vm_cast_no_check (eq_refl true)|exact Ha]. Qed.
Lemma ginv_ok a : sym a -> a <> 0 -> sym (ginv a) /\ gmul (ginv a) a = 1.
Proof.
  intros Ha H0. assert (C : (a =? 0) || ((0 <=? ginv a) && (ginv a <? 32) && (gmul (ginv a) a =? 1)) = true).
  { apply (sweep1 32 (fun a => (a =? 0) || ((0 <=? ginv a) && (ginv a <? 32) && (gmul (ginv a) a =? 1)))); [vm_cast_no_check (eq_refl true)|exact Ha]. }
  unfold sym. lia.
Qed.
Lemma lxor_sym a b : sym a -> sym b -> sym (Z.lxor a b).
Proof.
  intros Ha Hb. assert (C : (0 <=? Z.lxor a b) && (Z.lxor a b <? 32) = true).
  { apply (sweep2 32 32 (fun a b => (0 <=? Z.lxor a b) && (Z.lxor a b <? 32))); [vm_cast_no_check (eq_refl true)|exact Ha|exact Hb]. }
  unfold sym. lia.
Qed.
Lemma sym0 : sym 0. Proof. unfold sym. lia. Qed.
Lemma gmul_0_r a : sym a -> gmul a 0 = 0.
Proof. intros H. rewrite gmul_comm by (auto using sym0). now apply gmul_0_l. Qed.
Lemma gmul_add_l a b c : sym a -> sym b -> sym c -> gmul (Z.lxor a b) c = Z.lxor (gmul a c) (gmul b c).
Proof.
  intros Ha Hb Hc. rewrite gmul_comm by auto using lxor_sym. rewrite gmul_add by auto.
  now rewrite (gmul_comm c a), (gmul_comm c b) by auto.
Qed.
Lemma gmul_eq0 a b : sym a -> sym b -> a <> 0 -> gmul a b = 0 -> b = 0.
Proof.
  intros Ha Hb H0 H. destruct (ginv_ok a Ha H0) as [Hi E].
  rewrite <- (gmul_1_l b Hb), <- E, <- gmul_assoc, H, gmul_0_r; auto.
Qed.

(** Vectors. *)
Definition vec (n : nat) (v : list Z) : Prop := length v = n /\ Forall sym v.
Fixpoint vadd (u v : list Z) : list Z :=
  match u, v with x :: u', y :: v' => Z.lxor x y :: vadd u' v' | _, _ => [] end.
Definition vscale (s : Z) (v : list Z) : list Z := map (gmul s) v.
Definition vzero (n : nat) : list Z := repeat 0 n.

Lemma vec_nil : vec 0 []. Proof. split; [reflexivity|constructor]. Qed.
Lemma vec_cons n x v : vec (S n) (x :: v) <-> sym x /\ vec n v.
Proof.
  unfold vec. cbn [length]. split.
  - intros [H F]. inversion F; subst. auto.
  - intros (Hx & H & F). split; [lia|constructor; auto].
Qed.
Lemma vec_inv n v : vec (S n) v -> exists x v', v = x :: v' /\ sym x /\ vec n v'.
Proof. intros H. destruct v as [|x v']; [destruct H; discriminate|]. apply vec_cons in H. eauto. Qed.
Lemma vec_0_inv v : vec 0 v -> v = [].
Proof. intros [H _]. now destruct v. Qed.

Ltac vind n := induction n as [|n IH];
  [ intros; repeat match goal with [ h : vec 0 ?v |- _ ] => apply vec_0_inv in h; subst v end
  | intros; repeat match goal with [ h : vec (S n) ?v |- _ ] => destruct (vec_inv _ _ h) as (? & ? & -> & ? & ?); clear h end].

Lemma vadd_vec n : forall u v, vec n u -> vec n v -> vec n (vadd u v).
Proof. vind n; [apply vec_nil|]. cbn [vadd]. apply vec_cons. split; [now apply lxor_sym|auto]. Qed.
Lemma vscale_vec n s : sym s -> forall v, vec n v -> vec n (vscale s v).
Proof. intros Hs. vind n; [apply vec_nil|]. cbn [vscale map]. apply vec_cons. split; [now apply gmul_sym|now apply IH]. Qed.
Lemma vzero_vec n : vec n (vzero n).
Proof. induction n; [apply vec_nil|]. cbn. apply vec_cons. split; [apply sym0|exact IHn]. Qed.
Lemma vadd_0_r n : forall u, vec n u -> vadd u (vzero n) = u.
Proof. vind n; [reflexivity|]. cbn. rewrite Z.lxor_0_r. f_equal. now apply IH. Qed.
Lemma vadd_0_l n : forall u, vec n u -> vadd (vzero n) u = u.
Proof. vind n; [reflexivity|]. cbn [vadd vzero repeat]. rewrite Z.lxor_0_l. f_equal. now apply IH. Qed.
Lemma vadd_assoc n : forall u v w, vec n u -> vec n v -> vec n w -> vadd u (vadd v w) = vadd (vadd u v) w.
Proof. vind n; [reflexivity|]. cbn [vadd]. rewrite Z.lxor_assoc. f_equal. now apply IH. Qed.
Lemma vadd_comm n : forall u v, vec n u -> vec n v -> vadd u v = vadd v u.
Proof. vind n; [reflexivity|]. cbn [vadd]. rewrite Z.lxor_comm. f_equal. now apply IH. Qed.
Lemma vadd_self n : forall u, vec n u -> vadd u u = vzero n.
Proof. vind n; [reflexivity|]. cbn [vadd vzero repeat]. rewrite Z.lxor_nilpotent. f_equal. now apply IH. Qed.
Lemma vadd_eq0 n : forall u v, vec n u -> vec n v -> vadd u v = vzero n -> u = v.
Proof.
  vind n; [reflexivity|]. cbn [vadd vzero repeat] in *. match goal with [ h : _ :: _ = _ :: _ |- _ ] => injection h as ? ? end. f_equal; [now apply Z.lxor_eq|auto].
Qed.
Lemma vscale_add n s : sym s -> forall u v, vec n u -> vec n v -> vscale s (vadd u v) = vadd (vscale s u) (vscale s v).
Proof. intros Hs. vind n; [reflexivity|]. cbn [vadd vscale map]. rewrite gmul_add by auto. f_equal. now apply IH. Qed.
Lemma vscale_scale n a b : sym a -> sym b -> forall v, vec n v -> vscale a (vscale b v) = vscale (gmul a b) v.
Proof. intros Ha Hb. vind n; [reflexivity|]. cbn [vscale map]. rewrite gmul_assoc by auto. f_equal. now apply IH. Qed.
Lemma vscale_0 n : forall v, vec n v -> vscale 0 v = vzero n.
Proof. vind n; [reflexivity|]. cbn [vscale map vzero repeat]. rewrite gmul_0_l by auto. f_equal. now apply IH. Qed.
Lemma vscale_1 n : forall v, vec n v -> vscale 1 v = v.
Proof. vind n; [reflexivity|]. cbn [vscale map]. rewrite gmul_1_l by auto. f_equal. now apply IH. Qed.
Lemma vscale_zero n s : sym s -> vscale s (vzero n) = vzero n.
Proof. intros Hs. induction n as [|n IH]; [reflexivity|]. cbn [vscale map vzero repeat]. rewrite gmul_0_r by auto. f_equal. exact IH. Qed.
Lemma vscale_eq0 n s : sym s -> s <> 0 -> forall v, vec n v -> vscale s v = vzero n -> v = vzero n.
Proof.
  intros Hs H0 v Hv E. destruct (ginv_ok s Hs H0) as [Hi Ei].
  rewrite <- (vscale_1 n v Hv), <- Ei, <- (vscale_scale n), E, vscale_zero by auto. reflexivity.
Qed.
Lemma vec_nth n v i : vec n v -> sym (nth i v 0).
Proof.
  intros [_ F]. destruct (Nat.lt_ge_cases i (length v)); [|rewrite nth_overflow by lia; apply sym0].
  rewrite Forall_forall in F. apply F, nth_In, H.
Qed.
Lemma vadd_nth n i : forall u v, vec n u -> vec n v -> nth i (vadd u v) 0 = Z.lxor (nth i u 0) (nth i v 0).
Proof.
  revert i. induction n as [|n IH]; intros i u v Hu Hv.
  - apply vec_0_inv in Hu, Hv. subst. now destruct i.
  - destruct (vec_inv _ _ Hu) as (? & ? & -> & ? & ?). destruct (vec_inv _ _ Hv) as (? & ? & -> & ? & ?).
    destruct i; [reflexivity|]. cbn [vadd nth]. now apply IH.
Qed.
Lemma vscale_nth n s i : sym s -> forall v, vec n v -> nth i (vscale s v) 0 = gmul s (nth i v 0).
Proof. intros Hs v _. unfold vscale. rewrite <- (gmul_0_r s Hs) at 1. apply map_nth. Qed.

(** Elimination of [u] through coordinate [p]: linear, and it kills [u]. *)
Definition elim (p : nat) (u y : list Z) : list Z := vadd (vscale (nth p u 0) y) (vscale (nth p y 0) u).
Lemma elim_vec n p u y : vec n u -> vec n y -> vec n (elim p u y).
Proof. intros. unfold elim. apply vadd_vec; apply vscale_vec; eauto using vec_nth. Qed.
Lemma elim_self n p u : vec n u -> elim p u u = vzero n.
Proof. intros H. apply vadd_self. apply vscale_vec; eauto using vec_nth. Qed.
Lemma vscale_add_l n a b : sym a -> sym b -> forall v, vec n v -> vscale (Z.lxor a b) v = vadd (vscale a v) (vscale b v).
Proof. intros Ha Hb. vind n; [reflexivity|]. cbn [vscale map vadd]. rewrite gmul_add_l by auto. f_equal. now apply IH. Qed.
Lemma elim_add n p u y z : vec n u -> vec n y -> vec n z -> elim p u (vadd y z) = vadd (elim p u y) (elim p u z).
Proof.
  intros Hu Hy Hz. unfold elim. pose proof (vec_nth n u p Hu). pose proof (vec_nth n y p Hy). pose proof (vec_nth n z p Hz).
  rewrite (vadd_nth n) by auto. rewrite (vscale_add n), (vscale_add_l n) by auto.
  set (a := vscale _ y). set (b := vscale _ z). set (c := vscale (nth p y 0) u). set (d := vscale (nth p z 0) u).
  assert (vec n a) by (apply vscale_vec; auto). assert (vec n b) by (apply vscale_vec; auto).
  assert (vec n c) by (apply vscale_vec; auto). assert (vec n d) by (apply vscale_vec; auto).
  rewrite <- (vadd_assoc n a b (vadd c d)) by auto using vadd_vec. rewrite <- (vadd_assoc n a c (vadd b d)) by auto using vadd_vec.
  f_equal. rewrite (vadd_assoc n b c d), (vadd_assoc n c b d) by auto. f_equal. now apply (vadd_comm n).
Qed.
Lemma elim_scale n p u s y : sym s -> vec n u -> vec n y -> elim p u (vscale s y) = vscale s (elim p u y).
Proof.
  intros Hs Hu Hy. unfold elim. pose proof (vec_nth n u p Hu). pose proof (vec_nth n y p Hy).
  rewrite (vscale_nth n) by auto. rewrite (vscale_add n) by auto using vscale_vec. rewrite !(vscale_scale n) by auto.
  now rewrite (gmul_comm s (nth p u 0)) by auto.
Qed.
Lemma elim_zero n p u : vec n u -> elim p u (vzero n) = vzero n.
Proof.
  intros Hu. unfold elim. pose proof (vec_nth n u p Hu).
  rewrite vscale_zero by auto. replace (nth p (vzero n) 0) with 0 by (unfold vzero; now rewrite nth_repeat).
  rewrite (vscale_0 n) by auto. apply vadd_0_r, vzero_vec.
Qed.

(** Normalisation: divide by the first non-zero coordinate. *)
Fixpoint lead (v : list Z) : Z := match v with [] => 0 | x :: v' => if x =? 0 then lead v' else x end.
Definition norm (v : list Z) : list Z := vscale (ginv (lead v)) v.
Lemma lead_sym n : forall v, vec n v -> sym (lead v).
Proof. vind n; [apply sym0|]. cbn [lead]. destruct (_ =? 0); auto. Qed.
Lemma lead_0 n : forall v, vec n v -> lead v = 0 -> v = vzero n.
Proof.
  vind n; [reflexivity|]. cbn [lead vzero repeat] in *. destruct (Z.eqb_spec x 0); [subst; f_equal; now apply IH|congruence].
Qed.
Lemma lead_scale n s : sym s -> s <> 0 -> forall v, vec n v -> lead (vscale s v) = gmul s (lead v).
Proof.
  intros Hs H0. vind n; [cbn [vscale map lead]; now rewrite gmul_0_r|]. cbn [vscale map lead].
  destruct (Z.eqb_spec x 0) as [->|Hx].
  - rewrite gmul_0_r by auto. change (0 =? 0) with true; cbv iota; apply IH; auto.
  - destruct (Z.eqb_spec (gmul s x) 0) as [E|E]; [apply gmul_eq0 in E; auto; congruence|reflexivity].
Qed.
Lemma norm_scale n s v : sym s -> s <> 0 -> vec n v -> v <> vzero n -> norm (vscale s v) = norm v.
Proof.
  intros Hs H0 Hv Hn. unfold norm. rewrite (lead_scale n) by auto. set (l := lead v).
  assert (Hl : sym l) by (eapply lead_sym; eauto).
  assert (Hl0 : l <> 0) by (intros E; apply Hn; eapply lead_0; eauto).
  assert (Hsl : gmul s l <> 0) by (intros E; apply gmul_eq0 in E; auto).
  destruct (ginv_ok l Hl Hl0) as [Hi Ei]. destruct (ginv_ok (gmul s l) ltac:(now apply gmul_sym) Hsl) as [Hj Ej].
  rewrite (vscale_scale n) by auto. f_equal.
  (* ginv (s l) * s = ginv l *)
  rewrite <- (gmul_1_l (ginv l)) by auto. rewrite <- Ej.
  rewrite <- (gmul_assoc (ginv (gmul s l)) (gmul s l) (ginv l)) by auto using gmul_sym. f_equal.
  rewrite <- gmul_assoc by auto. rewrite (gmul_comm l (ginv l)) by auto. rewrite Ei.
  rewrite gmul_comm by (auto; unfold sym; lia). now rewrite gmul_1_l.
Qed.

(** Linear combinations. *)
Fixpoint comb (n : nat) (es : list Z) (T : list (list Z)) : list Z :=
  match es, T with e :: es', t :: T' => vadd (vscale e t) (comb n es' T') | _, _ => vzero n end.
Fixpoint weight (es : list Z) : nat := match es with [] => 0%nat | e :: es' => ((if (e =? 0)%Z then 0 else 1) + weight es')%nat end.

Lemma comb_vec n es : forall T, Forall sym es -> Forall (vec n) T -> vec n (comb n es T).
Proof.
  induction es as [|e es IH]; intros [|t T] He HT; cbn [comb]; try apply vzero_vec.
  inversion He; inversion HT; subst. apply vadd_vec; [now apply vscale_vec|auto].
Qed.
Lemma elim_comb n p u es : vec n u -> forall T, Forall sym es -> Forall (vec n) T ->
  elim p u (comb n es T) = comb n es (map (elim p u) T).
Proof.
  intros Hu. induction es as [|e es IH]; intros [|t T] He HT; cbn [comb map]; try now apply elim_zero.
  inversion He; inversion HT; subst. rewrite (elim_add n), (elim_scale n) by auto using vscale_vec, comb_vec. now rewrite IH.
Qed.
Lemma weight_0 es : weight es = 0%nat -> Forall (fun e => e = 0) es.
Proof.
  induction es as [|e es IH]; cbn [weight]; intros H; constructor.
  - destruct (Z.eqb_spec e 0); [assumption|cbn in H; lia].
  - apply IH. destruct (e =? 0); cbn in H; lia.
Qed.
Lemma comb_0 n es : forall T, Forall (vec n) T -> weight es = 0%nat -> comb n es T = vzero n.
Proof.
  induction es as [|e es IH]; intros [|t T] HT H; cbn [comb]; try reflexivity.
  pose proof (weight_0 _ H) as F. inversion F; inversion HT; subst. cbn [weight] in H. change (0 =? 0) with true in H. cbv iota in H.
  rewrite IH by auto. rewrite (vscale_0 n) by auto. apply vadd_0_l, vzero_vec.
Qed.

(** The checks. *)
Definition is_zero (v : list Z) : bool := forallb (Z.eqb 0) v.
Definition key (v : list Z) : Z := fold_left (fun a x => 32 * a + x) (norm v) 0.
Fixpoint distinct (ks : list Z) : bool :=
  match ks with [] => true | k :: ks' => forallb (fun k' => negb (k =? k')) ks' && distinct ks' end.
Definition check2 (V : list (list Z)) : bool := forallb (fun v => negb (is_zero v)) V && distinct (map key V).
Fixpoint pivot (v : list Z) : nat := match v with [] => 0%nat | x :: v' => if x =? 0 then S (pivot v') else 0%nat end.
Fixpoint check3 (T : list (list Z)) : bool :=
  match T with
  | [] => true
  | t :: T' => negb (is_zero t) && check2 (map (elim (pivot t) t) T') && check3 T'
  end.

Lemma is_zero_vzero n : is_zero (vzero n) = true.
Proof. induction n; [reflexivity|]. cbn. exact IHn. Qed.

Lemma indep1 n v b : vec n v -> is_zero v = false -> sym b -> vscale b v = vzero n -> b = 0.
Proof.
  intros Hv Hz Hb E. destruct (Z.eq_dec b 0) as [|H0]; [assumption|exfalso].
  apply (vscale_eq0 n) in E; auto. subst v. rewrite is_zero_vzero in Hz. discriminate.
Qed.

Lemma comb_w1 n v b : forall V es, vec n v -> sym b -> b <> 0 -> Forall (vec n) V -> Forall sym es ->
  is_zero v = false -> forallb (fun v => negb (is_zero v)) V = true ->
  forallb (fun k' => negb (key v =? k')) (map key V) = true ->
  (weight es <= 1)%nat -> (length es <= length V)%nat -> vscale b v <> comb n es V.
Proof.
  induction V as [|w V IH]; intros es Hv Hb H0 HV He Hz HzV HkV Hw Hlen E.
  - assert (es = []) by (destruct es; [reflexivity|cbn in Hlen; lia]). subst. cbn in E. apply H0. now apply (indep1 n v).
  - destruct es as [|c es]; [cbn in E; apply H0; now apply (indep1 n v)|].
    inversion HV; inversion He; subst. cbn [forallb map] in HzV, HkV.
    apply andb_true_iff in HzV as [Hzw HzV]. apply andb_true_iff in HkV as [Hkw HkV].
    cbn [weight comb length] in *. destruct (Z.eqb_spec c 0) as [->|Hc].
    + rewrite (vscale_0 n), vadd_0_l in E by auto using comb_vec. apply (IH es); auto; lia.
    + rewrite comb_0 in E by (auto; lia). rewrite (vadd_0_r n) in E by auto using vscale_vec.
      assert (Hzw' : is_zero w = false) by (destruct (is_zero w); [discriminate|reflexivity]).
      assert (Nv : norm v = norm w).
      { rewrite <- (norm_scale n b v) by (auto; intros ->; rewrite is_zero_vzero in Hz; discriminate).
        rewrite E. apply (norm_scale n); auto. intros ->; rewrite is_zero_vzero in Hzw'; discriminate. }
      unfold key in Hkw. rewrite Nv, Z.eqb_refl in Hkw. discriminate.
Qed.

Lemma indep2 n : forall V es, Forall (vec n) V -> Forall sym es -> check2 V = true ->
  (weight es <= 2)%nat -> (length es <= length V)%nat -> comb n es V = vzero n -> weight es = 0%nat.
Proof.
  induction V as [|v V IH]; intros es HV He Hc Hw Hlen E.
  - assert (es = []) by (destruct es; [reflexivity|cbn in Hlen; lia]). subst. reflexivity.
  - destruct es as [|b es]; [reflexivity|]. inversion HV; inversion He; subst.
    unfold check2 in Hc. cbn [forallb map distinct] in Hc. apply andb_true_iff in Hc as [Hc1 Hc2].
    apply andb_true_iff in Hc1 as [Hz HzV]. apply andb_true_iff in Hc2 as [Hk Hd].
    assert (Hz' : is_zero v = false) by (destruct (is_zero v); [discriminate|reflexivity]).
    cbn [comb weight length] in *. destruct (Z.eqb_spec b 0) as [->|Hb].
    + rewrite (vscale_0 n), vadd_0_l in E by auto using comb_vec. cbn. apply IH; auto; try lia.
      unfold check2. rewrite HzV. exact Hd.
    + exfalso. apply (vadd_eq0 n) in E; auto using vscale_vec, comb_vec.
      apply (comb_w1 n v b V es); auto; lia.
Qed.

Lemma indep3 n : forall T es, Forall (vec n) T -> Forall sym es -> check3 T = true ->
  (weight es <= 3)%nat -> (length es <= length T)%nat -> comb n es T = vzero n -> weight es = 0%nat.
Proof.
  induction T as [|t T IH]; intros es HT He Hc Hw Hlen E.
  - assert (es = []) by (destruct es; [reflexivity|cbn in Hlen; lia]). subst. reflexivity.
  - destruct es as [|a es]; [reflexivity|]. inversion HT; inversion He; subst.
    cbn [check3] in Hc. apply andb_true_iff in Hc as [Hc Hc3]. apply andb_true_iff in Hc as [Hz Hc2].
    assert (Hz' : is_zero t = false) by (destruct (is_zero t); [discriminate|reflexivity]).
    cbn [comb weight length] in *. destruct (Z.eqb_spec a 0) as [->|Ha].
    + rewrite (vscale_0 n), vadd_0_l in E by auto using comb_vec. cbn. apply IH; auto; lia.
    + exfalso.
      assert (E2 : comb n es (map (elim (pivot t) t) T) = vzero n).
      { rewrite <- (elim_comb n) by auto. apply (f_equal (elim (pivot t) t)) in E.
        rewrite (elim_add n), (elim_scale n), (elim_self n), vscale_zero, vadd_0_l, (elim_zero n) in E by auto using vscale_vec, comb_vec, elim_vec.
        exact E. }
      assert (W : weight es = 0%nat).
      { apply (indep2 n (map (elim (pivot t) t) T)); auto; try (rewrite ?map_length; lia).
        apply Forall_map. eapply Forall_impl; [|eassumption]. intros. now apply elim_vec. }
      rewrite comb_0 in E by auto. rewrite (vadd_0_r n) in E by auto using vscale_vec.
      apply Ha. now apply (indep1 n t).
Qed.

(** The shift register of the code, on the six symbols of a state (most significant first). *)
Definition gsyms : list Z := [29; 22; 20; 21; 29; 18].
Definition st_step (s : list Z) (v : Z) : list Z :=
  match s with
  | [c5; c4; c3; c2; c1; c0] => vadd [c4; c3; c2; c1; c0; v] (vscale c5 gsyms)
  | _ => []
  end.
Lemma gsyms_vec : vec 6 gsyms.
Proof. unfold gsyms. repeat (apply vec_cons; split; [unfold sym; lia|]). apply vec_nil. Qed.
Lemma vec6 s : vec 6 s -> exists c5 c4 c3 c2 c1 c0, s = [c5; c4; c3; c2; c1; c0] /\ sym c5 /\ sym c4 /\ sym c3 /\ sym c2 /\ sym c1 /\ sym c0.
Proof.
  intros H. destruct (vec_inv _ _ H) as (a & ? & -> & P1 & H1). destruct (vec_inv _ _ H1) as (b & ? & -> & P2 & H2).
  destruct (vec_inv _ _ H2) as (c & ? & -> & P3 & H3). destruct (vec_inv _ _ H3) as (d & ? & -> & P4 & H4).
  destruct (vec_inv _ _ H4) as (e & ? & -> & P5 & H5). destruct (vec_inv _ _ H5) as (f & ? & -> & P6 & H6).
  apply vec_0_inv in H6. subst. exists a, b, c, d, e, f. auto 10.
Qed.
Lemma vec6_intro a b c d e f : sym a -> sym b -> sym c -> sym d -> sym e -> sym f -> vec 6 [a; b; c; d; e; f].
Proof. intros. repeat (apply vec_cons; split; [assumption|]). apply vec_nil. Qed.
Lemma st_step_vec s v : vec 6 s -> sym v -> vec 6 (st_step s v).
Proof.
  intros Hs Hv. destruct (vec6 s Hs) as (c5 & c4 & c3 & c2 & c1 & c0 & -> & ? & ? & ? & ? & ? & ?). cbn [st_step].
  apply vadd_vec; [now apply vec6_intro|apply vscale_vec; [assumption|apply gsyms_vec]].
Qed.
Lemma st_step_add s t v w : vec 6 s -> vec 6 t -> sym v -> sym w ->
  st_step (vadd s t) (Z.lxor v w) = vadd (st_step s v) (st_step t w).
Proof.
  intros Hs Ht Hv Hw. destruct (vec6 s Hs) as (c5 & c4 & c3 & c2 & c1 & c0 & -> & ? & ? & ? & ? & ? & ?).
  destruct (vec6 t Ht) as (d5 & d4 & d3 & d2 & d1 & d0 & -> & ? & ? & ? & ? & ? & ?).
  change (vadd [c5; c4; c3; c2; c1; c0] [d5; d4; d3; d2; d1; d0])
    with [Z.lxor c5 d5; Z.lxor c4 d4; Z.lxor c3 d3; Z.lxor c2 d2; Z.lxor c1 d1; Z.lxor c0 d0].
  unfold st_step. rewrite (vscale_add_l 6) by (auto using gsyms_vec).
  set (A := [c4; c3; c2; c1; c0; v]). set (B := [d4; d3; d2; d1; d0; w]).
  change [Z.lxor c4 d4; Z.lxor c3 d3; Z.lxor c2 d2; Z.lxor c1 d1; Z.lxor c0 d0; Z.lxor v w] with (vadd A B).
  assert (vec 6 A) by now apply vec6_intro. assert (vec 6 B) by now apply vec6_intro.
  set (C := vscale c5 gsyms). set (D := vscale d5 gsyms).
  assert (vec 6 C) by (apply vscale_vec; auto using gsyms_vec). assert (vec 6 D) by (apply vscale_vec; auto using gsyms_vec).
  rewrite <- (vadd_assoc 6 A B (vadd C D)), <- (vadd_assoc 6 A C (vadd B D)) by auto using vadd_vec. f_equal.
  rewrite (vadd_assoc 6 B C D), (vadd_assoc 6 C B D) by auto. f_equal. now apply (vadd_comm 6).
Qed.
Lemma st_step_scale a s : sym a -> vec 6 s -> st_step (vscale a s) 0 = vscale a (st_step s 0).
Proof.
  intros Ha Hs. destruct (vec6 s Hs) as (c5 & c4 & c3 & c2 & c1 & c0 & -> & ? & ? & ? & ? & ? & ?).
  unfold st_step at 2. rewrite (vscale_add 6), (vscale_scale 6) by (auto using vscale_vec, gsyms_vec, vec6_intro, sym0).
  cbn [vscale map st_step]. now rewrite (gmul_0_r a Ha).
Qed.
Lemma st_step_0 : st_step (vzero 6) 0 = vzero 6.
Proof. reflexivity. Qed.
Lemma st_step_kernel s : vec 6 s -> st_step s 0 = vzero 6 -> s = vzero 6.
Proof.
  intros Hs E. destruct (vec6 s Hs) as (c5 & c4 & c3 & c2 & c1 & c0 & -> & H5 & ? & ? & ? & ? & ?).
  cbn [st_step] in E.
  assert (E0 : gmul c5 18 = 0).
  { apply (f_equal (fun l => nth 5 l 0)) in E. cbn [vadd vscale map gsyms nth vzero repeat] in E. rewrite Z.lxor_0_l in E. exact E. }
  assert (c5 = 0).
  { rewrite gmul_comm in E0 by (auto; unfold sym; lia). apply gmul_eq0 in E0; auto; unfold sym; lia. }
  subst c5. rewrite (vscale_0 6), (vadd_0_r 6) in E by auto using gsyms_vec, vec6_intro, sym0.
  cbn in E. injection E as -> -> -> -> ->. reflexivity.
Qed.

(** Syndrome of a list given in reverse order. *)
Fixpoint synr (es : list Z) : list Z := match es with [] => vzero 6 | e :: r => st_step (synr r) e end.
Definition h0 : list Z := [0; 0; 0; 0; 0; 1].
Fixpoint hs (n : nat) : list (list Z) := match n with O => [] | S n' => h0 :: map (fun s => st_step s 0) (hs n') end.
Lemma h0_vec : vec 6 h0.
Proof. unfold h0. apply vec6_intro; unfold sym; lia. Qed.
Lemma hs_vec n : Forall (vec 6) (hs n).
Proof.
  induction n as [|n IH]; cbn [hs]; constructor; [apply h0_vec|]. apply Forall_map. eapply Forall_impl; [|exact IH].
  intros. apply st_step_vec; auto using sym0.
Qed.
Lemma synr_vec es : Forall sym es -> vec 6 (synr es).
Proof. induction es as [|e es IH]; intros H; [apply vzero_vec|]. inversion H; subst. cbn [synr]. apply st_step_vec; auto. Qed.
Lemma step_comb es : forall T, Forall sym es -> Forall (vec 6) T ->
  st_step (comb 6 es T) 0 = comb 6 es (map (fun s => st_step s 0) T).
Proof.
  induction es as [|e es IH]; intros [|t T] He HT; cbn [comb map]; try apply st_step_0.
  inversion He; inversion HT; subst. rewrite <- IH, <- st_step_scale by auto.
  rewrite <- st_step_add by auto using vscale_vec, comb_vec, sym0. reflexivity.
Qed.
Lemma st_step_split s v : vec 6 s -> sym v -> st_step s v = vadd (vscale v h0) (st_step s 0).
Proof.
  intros Hs Hv. rewrite <- (vadd_0_l 6 s Hs) at 1. rewrite <- (Z.lxor_0_r v) at 1.
  rewrite st_step_add by auto using vzero_vec, sym0. f_equal.
  change (st_step (vzero 6) v) with (vadd [0; 0; 0; 0; 0; v] (vscale 0 gsyms)).
  rewrite (vscale_0 6), (vadd_0_r 6) by auto using gsyms_vec, vec6_intro, sym0.
  unfold h0, vscale. cbn [map]. rewrite !gmul_0_r by auto. rewrite gmul_comm, gmul_1_l by (auto; unfold sym; lia). reflexivity.
Qed.
Lemma synr_comb es : Forall sym es -> forall n, (length es <= n)%nat -> synr es = comb 6 es (hs n).
Proof.
  induction es as [|e es IH]; intros He n Hn; [destruct n; reflexivity|].
  inversion He; subst. destruct n as [|n]; [cbn in Hn; lia|]. cbn [synr hs comb].
  rewrite (IH ltac:(auto) n ltac:(cbn in Hn; lia)), st_step_split by auto using comb_vec, hs_vec.
  f_equal. apply step_comb; auto using hs_vec.
Qed.

Lemma firstn_vadd k : forall u v, firstn k (vadd u v) = vadd (firstn k u) (firstn k v).
Proof. induction k as [|k IH]; intros [|x u] [|y v]; cbn [vadd firstn]; try reflexivity. f_equal. apply IH. Qed.
Lemma firstn_comb es : forall T, firstn 5 (comb 6 es T) = comb 5 es (map (firstn 5) T).
Proof.
  induction es as [|e es IH]; intros [|t T]; cbn [comb map]; try reflexivity.
  rewrite firstn_vadd, IH. f_equal. unfold vscale. now rewrite firstn_map.
Qed.
Lemma firstn_vec s : vec 6 s -> vec 5 (firstn 5 s).
Proof.
  intros H. destruct (vec6 s H) as (a & b & c & d & e & f & -> & ? & ? & ? & ? & ? & ?). cbn [firstn].
  repeat (apply vec_cons; split; [assumption|]). apply vec_nil.
Qed.

Definition T87 : list (list Z) := map (firstn 5) (map (fun s => st_step s 0) (hs 87)).
Lemma check_T87 : check3 T87 = true.
Proof. vm_cast_no_check (eq_refl true). Qed.

Theorem bch_distance es : Forall sym es -> (length es <= 88)%nat -> (weight es <= 4)%nat ->
  synr es = vzero 6 -> weight es = 0%nat.
Proof.
  induction es as [|a es IH]; intros He Hl Hw E; [reflexivity|].
  inversion He; subst. cbn [length] in Hl. cbn [weight] in *. destruct (Z.eqb_spec a 0) as [->|Ha].
  - cbn [synr] in E. apply st_step_kernel in E; auto using synr_vec. cbn. apply IH; auto; lia.
  - exfalso. cbn [synr] in E. rewrite st_step_split in E by auto using synr_vec.
    rewrite (synr_comb es) with (n := 87%nat) in E by (auto; lia).
    rewrite step_comb in E by auto using hs_vec.
    assert (W : weight es = 0%nat).
    { apply (indep3 5 T87); auto using check_T87; try lia.
      - unfold T87. apply Forall_map, Forall_map. eapply Forall_impl; [|apply hs_vec]. cbv beta. intros s Hs. apply firstn_vec, st_step_vec; auto using sym0.
      - assert (L : length (hs 87) = 87%nat) by reflexivity. unfold T87. rewrite !map_length. rewrite L. lia.
      - unfold T87. rewrite <- firstn_comb. apply (f_equal (firstn 5)) in E. rewrite firstn_vadd in E.
        assert (F0 : firstn 5 (vscale a h0) = vzero 5).
        { unfold h0, vscale. cbn [map firstn]. rewrite !gmul_0_r by auto. reflexivity. }
        rewrite F0 in E. change (firstn 5 (vzero 6)) with (vzero 5) in E.
        set (r := firstn 5 (comb 6 es _)) in *.
        assert (vec 5 r). { apply firstn_vec, comb_vec; auto. apply Forall_map. eapply Forall_impl; [|apply hs_vec]. cbv beta. intros s Hs. apply st_step_vec; auto using sym0. }
        rewrite vadd_0_l in E by assumption. exact E. }
    rewrite comb_0 in E; [|apply Forall_map; eapply Forall_impl; [|apply hs_vec]; cbv beta; intros s Hs; apply st_step_vec; auto using sym0|exact W].
    rewrite (vadd_0_r 6) in E by auto using vscale_vec, h0_vec.
    apply (vscale_eq0 6) in E; auto using h0_vec. discriminate.
Qed.
