(** Generic facts about RFC 4648 style texts. *)
From Verif Require Import Base S_Bits S_Rfc4648 L_Bits.

Lemma all_values_length val l vs : all_values val l = Some vs -> length vs = length l.
Proof.
  revert vs. induction l as [|c l IH]; intros vs H; cbn in H; [injection H as <-; reflexivity|].
  destruct (val c); [|discriminate]. destruct (all_values val l); [|discriminate].
  injection H as <-. cbn. f_equal. apply IH. reflexivity.
Qed.

Lemma all_values_app val l1 l2 : all_values val (l1 ++ l2) =
  match all_values val l1, all_values val l2 with Some a, Some b => Some (a ++ b) | _, _ => None end.
Proof.
  induction l1 as [|c l1 IH]; cbn.
  - destruct (all_values val l2); reflexivity.
  - rewrite IH. destruct (val c); [|reflexivity].
    destruct (all_values val l1); [|reflexivity]. destruct (all_values val l2); reflexivity.
Qed.

Lemma all_values_In val l vs v : all_values val l = Some vs -> In v vs -> exists c, In c l /\ val c = Some v.
Proof.
  revert vs. induction l as [|c l IH]; intros vs H Hv; cbn in H; [injection H as <-; destruct Hv|].
  destruct (val c) as [x|] eqn:E; [|discriminate]. destruct (all_values val l) as [ys|] eqn:E2; [|discriminate].
  injection H as <-. destruct Hv as [->|Hv].
  - exists c. split; [left; reflexivity|exact E].
  - destruct (IH ys eq_refl Hv) as (c' & Hc & Ev). exists c'. split; [right; exact Hc|exact Ev].
Qed.

Lemma valid_blocks_fun val n t v1 v2 : valid_blocks val n t v1 -> valid_blocks val n t v2 -> v1 = v2.
Proof.
  intros H. revert v2. induction H as [|t Ht Hb|t vs r Ht Hv Hr IH]; intros v2 H2; inversion H2; subst; try congruence.
  replace vs0 with vs by congruence. f_equal. apply IH. assumption.
Qed.

Lemma valid_blocks_all val n t vs : (0 < n)%nat -> all_values val t = Some vs -> valid_blocks val n t vs.
Proof.
  intros Hn. revert vs. induction t as [t IH] using length_strong_ind. intros vs H.
  destruct t as [|c t]; [injection H as <-; constructor|].
  rewrite <- (firstn_skipn n (c :: t)), all_values_app in H.
  destruct (all_values val (firstn n (c :: t))) as [a|] eqn:Ea; [|discriminate].
  destruct (all_values val (skipn n (c :: t))) as [b|] eqn:Eb; [|discriminate].
  injection H as <-. apply vb_block; [discriminate|exact Ea|].
  apply IH; [rewrite skipn_length; cbn [length]; lia|exact Eb].
Qed.

Lemma valid_blocks_length val n t vs : valid_blocks val n t vs -> (length vs <= length t)%nat.
Proof.
  intros H. induction H as [|t Ht Hb|t vs r Ht Hv Hr IH]; cbn; try lia.
  rewrite app_length. apply all_values_length in Hv. rewrite skipn_length in IH.
  rewrite firstn_length in Hv. lia.
Qed.

(** If not everything is valid, the valid part misses at least the last non-empty block. *)
Lemma valid_blocks_miss val n t vs : (0 < n)%nat -> valid_blocks val n t vs ->
  all_values val t = Some vs \/ exists q, length vs = (q * n)%nat /\ (q * n < length t)%nat.
Proof.
  intros Hn H. induction H as [|t Ht Hb|t vs r Ht Hv Hr IH].
  - left. reflexivity.
  - right. exists 0%nat. split; [reflexivity|]. destruct t; [congruence|cbn; lia].
  - destruct IH as [IH|(q & E & Hq)].
    + left. rewrite <- (firstn_skipn n t), all_values_app, Hv, IH. reflexivity.
    + right. exists (S q). rewrite app_length, E. apply all_values_length in Hv.
      rewrite firstn_length in Hv. rewrite skipn_length in Hq. lia.
Qed.

(* ---- regrouping back ---- *)
Lemma groups_pad_zeros k : (0 < k)%nat -> forall f l z m, (z < k)%nat -> (length l <= f)%nat ->
  (length l + z = m * k)%nat ->
  groups_pad f k l = groups_pad (length (l ++ repeat false z)) k (l ++ repeat false z).
Proof.
  intros Hk. induction f as [|f IH]; intros l z m Hz Hf Hl.
  - destruct l; [|cbn in Hf; lia]. cbn [length] in Hl. assert (z = 0)%nat by (destruct m; nia). subst z. reflexivity.
  - destruct l as [|x l0].
    + cbn [length] in Hl. assert (z = 0)%nat by (destruct m; nia). subst z. reflexivity.
    + set (l := x :: l0) in *. destruct (le_lt_dec k (length l)) as [H|H].
      * assert (E : l = firstn k l ++ skipn k l) by (symmetry; apply firstn_skipn).
        assert (Hg : length (firstn k l) = k) by (rewrite firstn_length; lia).
        rewrite E. rewrite groups_pad_step by assumption.
        rewrite <- app_assoc.
        rewrite (groups_pad_fuel k Hk (length (firstn k l ++ skipn k l ++ repeat false z)) (S (length (firstn k l ++ skipn k l ++ repeat false z)))) by lia.
        rewrite groups_pad_step by assumption. f_equal.
        rewrite (groups_pad_fuel k Hk (length (firstn k l ++ skipn k l ++ repeat false z)) (length (skipn k l ++ repeat false z))) by (rewrite ?app_length; lia).
        apply IH with (m := (m - 1)%nat); [exact Hz|rewrite skipn_length; lia|].
        rewrite skipn_length. nia.
      * assert (Hm : m = 1%nat) by (assert (0 < length l)%nat by (cbn; lia); destruct m as [|[|m]]; nia). subst m.
        assert (Hlen : length (l ++ repeat false z) = k) by (rewrite app_length, repeat_length; lia).
        assert (E1 : groups_pad (S f) k l = [l ++ repeat false z]).
        { unfold l at 1. cbn [groups_pad]. fold l. rewrite (skipn_all2 l) by lia.
          replace (groups_pad f k []) with (@nil (list bool)) by (destruct f; reflexivity).
          f_equal. rewrite firstn_app, firstn_all2 by lia. f_equal.
          replace k with (z + (k - z))%nat at 2 by lia. rewrite repeat_app.
          replace (k - length l)%nat with z by lia.
          rewrite <- (repeat_length false z) at 1. apply firstn_app_exact. }
        rewrite E1. rewrite <- (app_nil_r (l ++ repeat false z)).
        rewrite (groups_pad_fuel k Hk _ (S (length ((l ++ repeat false z) ++ [])))) by lia.
        rewrite groups_pad_step by assumption. 
        replace (groups_pad (length ((l ++ repeat false z) ++ [])) k []) with (@nil (list bool)); [rewrite app_nil_r; reflexivity|].
        destruct (length ((l ++ repeat false z) ++ [])); reflexivity.
Qed.

Lemma groups_pad_bit_string k vs : (0 < k)%nat ->
  groups_pad (length (bit_string k vs)) k (bit_string k vs) = map (bits k) vs.
Proof.
  intros Hk. induction vs as [|v vs IH]; [reflexivity|].
  change (bit_string k (v :: vs)) with (bits k v ++ bit_string k vs).
  rewrite (groups_pad_fuel k Hk _ (S (length (bits k v ++ bit_string k vs)))) by lia.
  rewrite groups_pad_step by (auto; apply bits_length).
  cbn [map]. f_equal. rewrite <- IH. apply groups_pad_fuel; [lia|rewrite app_length; lia|lia].
Qed.

Lemma firstn_add {A} n m (l : list A) : firstn (n + m) l = firstn n l ++ firstn m (skipn n l).
Proof.
  revert l. induction n as [|n IH]; intros l; [reflexivity|].
  destruct l as [|x l]; [cbn; rewrite firstn_nil; reflexivity|]. cbn. f_equal. apply IH.
Qed.

Lemma concat_groups_full f k l : (length l <= f)%nat -> (0 < k)%nat ->
  concat (groups_full f k l) = firstn (k * (length l / k)) l.
Proof.
  intros Hf Hk. revert l Hf. induction f as [|f IH]; intros l Hf.
  - destruct l; [|cbn in Hf; lia]. rewrite firstn_nil. reflexivity.
  - cbn [groups_full]. destruct (Nat.leb_spec k (length l)) as [H|H].
    + cbn [concat]. rewrite IH by (rewrite skipn_length; lia). rewrite skipn_length.
      assert (E : (length l / k = S ((length l - k) / k))%nat).
      { replace (length l) with (1 * k + (length l - k))%nat at 1 by lia. rewrite Nat.div_add_l by lia. reflexivity. }
      rewrite E. rewrite Nat.mul_succ_r, Nat.add_comm.
      rewrite firstn_add. reflexivity.
    + rewrite Nat.div_small by lia. rewrite Nat.mul_0_r. reflexivity.
Qed.

Lemma bit_string_regroup_bytes k vs :
  bit_string 8 (regroup_bytes k vs) =
  firstn (8 * (k * length vs / 8)) (bit_string k vs).
Proof.
  rewrite <- bit_string_length. rewrite <- (concat_groups_full (length (bit_string k vs))) by lia.
  unfold regroup_bytes. cbv zeta. unfold bit_string at 1.
  pose proof (groups_full_forall 8 (length (bit_string k vs)) (bit_string k vs)) as F. revert F.
  generalize (groups_full (length (bit_string k vs)) 8 (bit_string k vs)) as gs.
  induction gs as [|g gs IH]; intros F; [reflexivity|]. inversion F as [|? ? Hg F']; subst.
  cbn [map concat]. rewrite IH by exact F'. f_equal. rewrite <- Hg at 1. apply bits_of_val.
Qed.

(** Regrouping bytes obtained from values gives the values back when fewer than [k] spare bits
    remain and they are zero. *)
Lemma regroup_back k vs : (0 < k)%nat -> Forall (fun v => 0 <= v < 2 ^ Z.of_nat k) vs ->
  (length (spare_bits k vs) < k)%nat -> Forall (fun b => b = false) (spare_bits k vs) ->
  regroup_pad k (regroup_bytes k vs) = vs.
Proof.
  intros Hk Hr Hl Hz. unfold regroup_pad. cbv zeta. rewrite bit_string_regroup_bytes.
  set (B := bit_string k vs). set (n := (8 * (k * length vs / 8))%nat).
  assert (EB : firstn n B ++ repeat false (length (spare_bits k vs)) = B).
  { rewrite <- (firstn_skipn n B) at 2. f_equal. fold (spare_bits k vs).
    unfold n, B. fold (spare_bits k vs). clear Hl. induction (spare_bits k vs) as [|b l IH]; [reflexivity|].
    inversion Hz; subst. cbn. f_equal. auto. }
  rewrite (groups_pad_zeros k Hk _ _ (length (spare_bits k vs)) (length vs)); [|exact Hl|lia|].
  - rewrite EB. unfold B. rewrite groups_pad_bit_string by exact Hk. rewrite map_map.
    rewrite <- (map_id vs) at 2. apply map_ext_in. intros v Hv. apply bits_val_small.
    exact (proj1 (Forall_forall _ _) Hr v Hv).
  - rewrite <- (repeat_length false (length (spare_bits k vs))). rewrite <- app_length, EB.
    unfold B. rewrite bit_string_length. lia.
Qed.
