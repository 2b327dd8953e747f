(** Facts about bit strings (S_Bits). *)
From Verif Require Import Base S_Bits.

Lemma bits_length k x : length (bits k x) = k.
Proof. induction k; simpl; congruence. Qed.

Lemma bits_val_nonneg l : 0 <= bits_val l < 2 ^ Z.of_nat (length l).
Proof.
  induction l as [|b l IH]; [simpl; lia|]. cbn [bits_val length].
  rewrite Nat2Z.inj_succ, Z.pow_succ_r by lia. destruct b; simpl Z.b2z; lia.
Qed.

Lemma bits_of_val l : bits (length l) (bits_val l) = l.
Proof.
  assert (G : forall l x, bits (length l) (x * 2 ^ Z.of_nat (length l) + bits_val l) = l).
  { clear l. induction l as [|b l IH]; intros x; [reflexivity|]. cbn [length bits bits_val].
    rewrite Nat2Z.inj_succ, Z.pow_succ_r by lia.
    replace (x * (2 * 2 ^ Z.of_nat (length l)) + (Z.b2z b * 2 ^ Z.of_nat (length l) + bits_val l))
      with ((Z.b2z b + 2 * x) * 2 ^ Z.of_nat (length l) + bits_val l) by lia.
    f_equal; [|apply IH].
    pose proof (bits_val_nonneg l) as Hb.
    rewrite <- lor_disjoint by lia. rewrite Z.lor_spec.
    rewrite Z.mul_pow2_bits by lia. rewrite Z.sub_diag.
    rewrite Z.add_b2z_double_bit0.
    replace (Z.testbit (bits_val l) (Z.of_nat (length l))) with false; [apply orb_false_r|].
    symmetry. destruct (Z.eq_dec (bits_val l) 0) as [->|N]; [apply Z.bits_0|].
    apply Z.bits_above_log2; [lia|]. apply Z.log2_lt_pow2; lia. }
  pose proof (G l 0) as H. rewrite Z.mul_0_l in H. exact H.
Qed.

Lemma bits_val_of k x : bits_val (bits k x) = x mod 2 ^ Z.of_nat k.
Proof.
  induction k as [|k IH]; [simpl; rewrite Z.mod_1_r; reflexivity|].
  cbn [bits bits_val]. rewrite IH, bits_length.
  rewrite Nat2Z.inj_succ, Z.pow_succ_r by lia.
  set (p := 2 ^ Z.of_nat k). assert (0 < p) by (unfold p; lia).
  rewrite (Z.mul_comm 2 p), Z.rem_mul_r by lia.
  replace (Z.b2z (Z.testbit x (Z.of_nat k))) with ((x / p) mod 2); [lia|].
  symmetry. unfold p. rewrite Z.testbit_spec' by lia. reflexivity.
Qed.

Lemma bits_val_small k x : 0 <= x < 2 ^ Z.of_nat k -> bits_val (bits k x) = x.
Proof. intros. rewrite bits_val_of. apply Z.mod_small. assumption. Qed.

Lemma bit_string_length k l : length (bit_string k l) = (k * length l)%nat.
Proof.
  unfold bit_string. induction l as [|x l IH]; [simpl; lia|].
  cbn [map concat length]. rewrite app_length, bits_length, IH. lia.
Qed.

Lemma bit_string_app k l1 l2 : bit_string k (l1 ++ l2) = bit_string k l1 ++ bit_string k l2.
Proof. unfold bit_string. rewrite map_app, concat_app. reflexivity. Qed.

(* ---- groups_pad ---- *)
Lemma groups_pad_step f k g l : (0 < k)%nat -> length g = k ->
  groups_pad (S f) k (g ++ l) = g :: groups_pad f k l.
Proof.
  intros Hk Hg.
  assert (E : groups_pad (S f) k (g ++ l) =
              firstn k ((g ++ l) ++ repeat false k) :: groups_pad f k (skipn k (g ++ l)))
    by (destruct g; [simpl in Hg; lia|reflexivity]).
  rewrite E, <- app_assoc, <- Hg, firstn_app_exact, skipn_app_exact. reflexivity.
Qed.

Lemma groups_pad_fuel k : (0 < k)%nat -> forall f1 f2 l, (length l <= f1)%nat -> (length l <= f2)%nat ->
  groups_pad f1 k l = groups_pad f2 k l.
Proof.
  intros Hk. induction f1 as [|f1 IH]; intros f2 l H1 H2.
  - destruct l; [|simpl in H1; lia]. destruct f2; reflexivity.
  - destruct f2 as [|f2].
    + destruct l; [reflexivity|simpl in H2; lia].
    + destruct l as [|x l]; [reflexivity|]. cbn [groups_pad]. f_equal. apply IH.
      * rewrite skipn_length. simpl length in *. lia.
      * rewrite skipn_length. simpl length in *. lia.
Qed.

Lemma groups_pad_app k : (0 < k)%nat -> forall m l1 l2, length l1 = (m * k)%nat ->
  groups_pad (length (l1 ++ l2)) k (l1 ++ l2) =
  groups_pad (length l1) k l1 ++ groups_pad (length l2) k l2.
Proof.
  intros Hk. induction m as [|m IH]; intros l1 l2 Hl.
  - destruct l1; [reflexivity|simpl in Hl; lia].
  - assert (Hg : length (firstn k l1) = k) by (rewrite firstn_length; lia).
    assert (Hr : length (skipn k l1) = (m * k)%nat) by (rewrite skipn_length; lia).
    rewrite <- (firstn_skipn k l1). clear Hl.
    revert Hg Hr. generalize (firstn k l1) as g, (skipn k l1) as r. intros g r Hg Hr.
    rewrite <- app_assoc.
    rewrite (groups_pad_fuel k Hk (length (g ++ r ++ l2)) (S (length (g ++ r ++ l2)))) by lia.
    rewrite groups_pad_step by assumption.
    rewrite (groups_pad_fuel k Hk (length (g ++ r)) (S (length (g ++ r)))) by lia.
    rewrite groups_pad_step by assumption.
    rewrite (groups_pad_fuel k Hk (length (g ++ r ++ l2)) (length (r ++ l2))) by (rewrite ?app_length; lia).
    rewrite (groups_pad_fuel k Hk (length (g ++ r)) (length r)) by (rewrite ?app_length; lia).
    rewrite IH by exact Hr. reflexivity.
Qed.

Lemma regroup_pad_app k m b1 b2 : (0 < k)%nat -> (8 * length b1 = m * k)%nat ->
  regroup_pad k (b1 ++ b2) = regroup_pad k b1 ++ regroup_pad k b2.
Proof.
  intros Hk H. unfold regroup_pad. cbv zeta. rewrite bit_string_app.
  rewrite (groups_pad_app k Hk m) by (rewrite bit_string_length; lia).
  apply map_app.
Qed.

Lemma groups_pad_forall k : (0 < k)%nat -> forall f l, Forall (fun g => length g = k) (groups_pad f k l).
Proof.
  intros Hk. induction f as [|f IH]; intros l; [constructor|].
  destruct l as [|x l]; [constructor|]. cbn [groups_pad]. constructor; [|apply IH].
  rewrite firstn_length, app_length, repeat_length. lia.
Qed.

Lemma groups_pad_length k : (0 < k)%nat -> forall f l, (length l <= f)%nat ->
  length (groups_pad f k l) = ((length l + (k - 1)) / k)%nat.
Proof.
  intros Hk. induction f as [|f IH]; intros l Hl.
  - destruct l; [|simpl in Hl; lia]. cbn [groups_pad length Nat.add]. rewrite Nat.div_small; lia.
  - destruct l as [|x l]; [cbn [groups_pad length Nat.add]; rewrite Nat.div_small; lia|].
    cbn [groups_pad]. cbn [length]. rewrite IH by (rewrite skipn_length; simpl length in *; lia).
    rewrite skipn_length. cbn [length].
    destruct (le_lt_dec k (S (length l))) as [H|H].
    + replace (S (length l) + (k - 1))%nat with (1 * k + (S (length l) - k + (k - 1)))%nat by lia.
      rewrite Nat.div_add_l by lia. reflexivity.
    + replace (S (length l) - k)%nat with 0%nat by lia. rewrite Nat.div_small by lia.
      apply Nat.div_unique with (r := length l); lia.
Qed.

Lemma regroup_pad_length k buf : (0 < k)%nat ->
  length (regroup_pad k buf) = ((8 * length buf + (k - 1)) / k)%nat.
Proof.
  intros Hk. unfold regroup_pad. rewrite map_length, groups_pad_length, bit_string_length by lia.
  reflexivity.
Qed.

Lemma regroup_pad_range k buf : (0 < k)%nat ->
  Forall (fun v => 0 <= v < 2 ^ Z.of_nat k) (regroup_pad k buf).
Proof.
  intros Hk. unfold regroup_pad. apply Forall_map.
  apply Forall_impl with (2 := groups_pad_forall k Hk _ _).
  intros g Hg. rewrite <- Hg. apply bits_val_nonneg.
Qed.

Lemma groups_pad_concat k : (0 < k)%nat -> forall f l, (length l <= f)%nat ->
  exists z, concat (groups_pad f k l) = l ++ repeat false z /\ (z < k)%nat.
Proof.
  intros Hk. induction f as [|f IH]; intros l Hl.
  - destruct l; [|simpl in Hl; lia]. exists 0%nat. split; [reflexivity|lia].
  - destruct l as [|x l]; [exists 0%nat; split; [reflexivity|lia]|].
    cbn [groups_pad]. cbn [concat]. set (L := x :: l) in *.
    assert (HL : (0 < length L)%nat) by (unfold L; simpl; lia).
    destruct (IH (skipn k L)) as (z & E & Hz); [rewrite skipn_length; lia|].
    rewrite E. destruct (le_lt_dec k (length L)) as [H|H].
    + exists z. split; [|exact Hz]. rewrite firstn_app.
      replace (k - length L)%nat with 0%nat by lia. rewrite firstn_O, app_nil_r.
      rewrite app_assoc, firstn_skipn. reflexivity.
    + rewrite skipn_all2 in * by lia. exists (k - length L)%nat. split; [|lia].
      destruct f as [|f].
      * cbn [groups_pad concat app] in E. destruct z; [|discriminate]. cbn [repeat].
        rewrite app_nil_r, firstn_app, firstn_all2 by lia. f_equal.
        rewrite <- (Nat.add_0_r (k - length L)) at 1.
        replace k with ((k - length L) + length L)%nat at 2 by lia. rewrite repeat_app.
        rewrite <- (repeat_length false (k - length L)) at 1. rewrite Nat.add_0_r. apply firstn_app_exact.
      * cbn [groups_pad concat app] in E. destruct z; [|discriminate]. cbn [repeat].
        rewrite app_nil_r, firstn_app, firstn_all2 by lia. f_equal.
        replace k with ((k - length L) + length L)%nat at 2 by lia. rewrite repeat_app.
        rewrite <- (repeat_length false (k - length L)) at 1. apply firstn_app_exact.
Qed.

(** The bits of the regrouped values are the bits of the buffer followed by zeros. *)
Lemma bit_string_regroup_pad k buf : (0 < k)%nat ->
  exists z, bit_string k (regroup_pad k buf) = bit_string 8 buf ++ repeat false z /\ (z < k)%nat.
Proof.
  intros Hk. unfold regroup_pad. cbv zeta. set (b := bit_string 8 buf).
  destruct (groups_pad_concat k Hk (length b) b) as (z & E & Hz); [lia|].
  exists z. split; [|exact Hz]. rewrite <- E. unfold bit_string.
  pose proof (groups_pad_forall k Hk (length b) b) as F.
  revert F. generalize (groups_pad (length b) k b) as gs. clear E.
  induction gs as [|g gs IH]; intros F; [reflexivity|].
  inversion F as [|? ? Hg F']; subst. cbn [map concat]. rewrite IH by exact F'. f_equal. apply bits_of_val.
Qed.

(* ---- groups_full ---- *)
Lemma groups_full_fuel k : (0 < k)%nat -> forall f1 f2 l, (length l <= f1)%nat -> (length l <= f2)%nat ->
  groups_full f1 k l = groups_full f2 k l.
Proof.
  intros Hk. induction f1 as [|f1 IH]; intros f2 l H1 H2.
  - destruct l; [|simpl in H1; lia]. destruct f2; [reflexivity|]. cbn [groups_full length].
    destruct (Nat.leb_spec k 0); [lia|reflexivity].
  - destruct f2 as [|f2].
    + destruct l; [|simpl in H2; lia]. cbn [groups_full length].
      destruct (Nat.leb_spec k 0); [lia|reflexivity].
    + cbn [groups_full]. destruct (Nat.leb_spec k (length l)); [|reflexivity].
      f_equal. apply IH; rewrite skipn_length; lia.
Qed.

Lemma groups_full_step f k g l : length g = k -> groups_full (S f) k (g ++ l) = g :: groups_full f k l.
Proof.
  intros Hg. cbn [groups_full]. destruct (Nat.leb_spec k (length (g ++ l))) as [H|H].
  - rewrite <- Hg, firstn_app_exact, skipn_app_exact. reflexivity.
  - rewrite app_length in H. lia.
Qed.

Lemma groups_full_short f k l : (length l < k)%nat -> groups_full f k l = [].
Proof. intros H. destruct f; [reflexivity|]. cbn [groups_full]. destruct (Nat.leb_spec k (length l)); [lia|reflexivity]. Qed.

Lemma groups_full_app k : (0 < k)%nat -> forall m l1 l2, length l1 = (m * k)%nat ->
  groups_full (length (l1 ++ l2)) k (l1 ++ l2) =
  groups_full (length l1) k l1 ++ groups_full (length l2) k l2.
Proof.
  intros Hk. induction m as [|m IH]; intros l1 l2 Hl.
  - destruct l1; [reflexivity|simpl in Hl; lia].
  - assert (Hg : length (firstn k l1) = k) by (rewrite firstn_length; lia).
    assert (Hr : length (skipn k l1) = (m * k)%nat) by (rewrite skipn_length; lia).
    rewrite <- (firstn_skipn k l1). clear Hl.
    revert Hg Hr. generalize (firstn k l1) as g, (skipn k l1) as r. intros g r Hg Hr.
    rewrite <- app_assoc.
    rewrite (groups_full_fuel k Hk (length (g ++ r ++ l2)) (S (length (g ++ r ++ l2)))) by lia.
    rewrite groups_full_step by assumption.
    rewrite (groups_full_fuel k Hk (length (g ++ r)) (S (length (g ++ r)))) by lia.
    rewrite groups_full_step by assumption.
    rewrite (groups_full_fuel k Hk (length (g ++ r ++ l2)) (length (r ++ l2))) by (rewrite ?app_length; lia).
    rewrite (groups_full_fuel k Hk (length (g ++ r)) (length r)) by (rewrite ?app_length; lia).
    rewrite IH by exact Hr. reflexivity.
Qed.

Lemma groups_full_length k : (0 < k)%nat -> forall f l, (length l <= f)%nat ->
  length (groups_full f k l) = (length l / k)%nat.
Proof.
  intros Hk. induction f as [|f IH]; intros l Hl.
  - destruct l; [|simpl in Hl; lia]. cbn [groups_full length]. rewrite Nat.div_small; lia.
  - cbn [groups_full]. destruct (Nat.leb_spec k (length l)) as [H|H].
    + cbn [length]. rewrite IH by (rewrite skipn_length; lia). rewrite skipn_length.
      replace (length l) with (1 * k + (length l - k))%nat at 2 by lia.
      rewrite Nat.div_add_l by lia. reflexivity.
    + rewrite Nat.div_small by lia. reflexivity.
Qed.

Lemma groups_full_forall k f l : Forall (fun g => length g = k) (groups_full f k l).
Proof.
  revert l. induction f as [|f IH]; intros l; [constructor|]. cbn [groups_full].
  destruct (Nat.leb_spec k (length l)); [|constructor]. constructor; [|apply IH].
  rewrite firstn_length. lia.
Qed.

Lemma regroup_bytes_length k vals : length (regroup_bytes k vals) = (k * length vals / 8)%nat.
Proof.
  unfold regroup_bytes. rewrite map_length, groups_full_length, bit_string_length by lia. reflexivity.
Qed.

Lemma regroup_bytes_bytes k vals : bytes (regroup_bytes k vals).
Proof.
  unfold regroup_bytes, bytes. apply Forall_map.
  apply Forall_impl with (2 := groups_full_forall 8 _ _).
  intros g Hg. pose proof (bits_val_nonneg g) as H. rewrite Hg in H. exact H.
Qed.

Lemma regroup_bytes_app k m v1 v2 : (k * length v1 = m * 8)%nat ->
  regroup_bytes k (v1 ++ v2) = regroup_bytes k v1 ++ regroup_bytes k v2.
Proof.
  intros H. unfold regroup_bytes. cbv zeta. rewrite bit_string_app.
  rewrite (groups_full_app 8 ltac:(lia) m) by (rewrite bit_string_length; lia).
  apply map_app.
Qed.

Lemma groups_full_bit_string buf t : (length t < 8)%nat -> forall f, (length (bit_string 8 buf ++ t) <= f)%nat ->
  groups_full f 8 (bit_string 8 buf ++ t) = map (bits 8) buf.
Proof.
  intros Ht. induction buf as [|x buf IH]; intros f Hf.
  - apply groups_full_short. exact Ht.
  - change (bit_string 8 (x :: buf)) with (bits 8 x ++ bit_string 8 buf) in *.
    rewrite <- app_assoc in *. rewrite app_length, bits_length in Hf.
    destruct f as [|f]; [lia|]. rewrite groups_full_step by apply bits_length.
    cbn [map]. f_equal. apply IH. lia.
Qed.

(** Regrouping there and back gives the buffer, for any group size up to 8. *)
Lemma regroup_roundtrip k buf : (0 < k <= 8)%nat -> bytes buf ->
  regroup_bytes k (regroup_pad k buf) = buf.
Proof.
  intros Hk Hb. unfold regroup_bytes. cbv zeta.
  destruct (bit_string_regroup_pad k buf ltac:(lia)) as (z & -> & Hz).
  rewrite groups_full_bit_string by (rewrite ?repeat_length; lia).
  rewrite map_map. rewrite <- (map_id buf) at 2. apply map_ext_in.
  intros x Hx. apply bits_val_small. exact (proj1 (Forall_forall _ _) Hb x Hx).
Qed.

Lemma sweep3 (n m p : nat) (P : Z -> Z -> Z -> bool) :
  forallb (fun x => forallb (fun y => forallb (P x y) (zrange p)) (zrange m)) (zrange n) = true ->
  forall x y z, 0 <= x < Z.of_nat n -> 0 <= y < Z.of_nat m -> 0 <= z < Z.of_nat p -> P x y z = true.
Proof.
  intros H x y z Hx Hy Hz. pose proof (sweep1 n _ H x Hx) as H1. cbv beta in H1.
  exact (sweep2 m p _ H1 y z Hy Hz).
Qed.

Lemma bits_val_app a b : bits_val (a ++ b) = bits_val a * 2 ^ Z.of_nat (length b) + bits_val b.
Proof.
  induction a as [|x a IH]; [reflexivity|]. cbn [app bits_val]. rewrite IH, app_length, Nat2Z.inj_add, Z.pow_add_r by lia. ring.
Qed.
(** Two bit strings side by side, each checked by itself, and what joins them checked on the values. *)
Lemma sweep_join n m nA nB (h1 h2 : Z -> list bool) (w : nat) (l r : Z -> Z) (c : Z -> Z -> Z) :
  forallb (fun x => (bits_val (h1 x) =? l x) && (0 <=? l x) && (l x <? Z.of_nat nA)) (zrange n) = true ->
  forallb (fun y => (bits_val (h2 y) =? r y) && (0 <=? r y) && (r y <? Z.of_nat nB) && (length (h2 y) =? w)%nat) (zrange m) = true ->
  forallb (fun a => forallb (fun b => a * 2 ^ Z.of_nat w + b =? c a b) (zrange nB)) (zrange nA) = true ->
  forall x y, 0 <= x < Z.of_nat n -> 0 <= y < Z.of_nat m -> bits_val (h1 x ++ h2 y) = c (l x) (r y).
Proof.
  intros H1 H2 H3 x y Hx Hy. pose proof (sweep1 n _ H1 x Hx) as A. pose proof (sweep1 m _ H2 y Hy) as B. cbv beta in A, B.
  apply andb_prop in B. destruct B as [B L]. apply Nat.eqb_eq in L. rewrite bits_val_app, L.
  replace (bits_val (h1 x)) with (l x) by lia. replace (bits_val (h2 y)) with (r y) by lia.
  apply Z.eqb_eq. refine (sweep2 nA nB (fun a b => a * 2 ^ Z.of_nat w + b =? c a b) H3 (l x) (r y) _ _); lia.
Qed.
