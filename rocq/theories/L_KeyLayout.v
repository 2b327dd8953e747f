(** The little endian layout obeys [layout_laws] for the small curve and for secp256k1. *)
From Verif Require Import Base S_Words L_Endian S_Mem L_Mem L_Overlap M_Secp S_Secp L_Secp S_Secp256k1 L_Group L_SecpLaws M_Random M_Key M_KeyMem S_KeyMem.

Lemma std_ok E : secp_laws E -> (forall P, firstn 32 (tl (ser E false P)) <> repeat 0 32) -> layout_laws E (std_layout E).
Proof.
  intros SL NZ.
  assert (F : forall P, length (tl (ser E false P)) = 64%nat /\ bytes (tl (ser E false P)) /\ ser E false P = 4 :: tl (ser E false P)).
  { intros P. destruct (law_ser65 E SL P) as (Ln & Bs & Hd). destruct (ser E false P) as [|a l]; [discriminate|]. cbn [tl hd length] in *.
    split; [lia|]. split; [now apply Forall_inv_tail in Bs|now subst a]. }
  constructor; cbn [std_layout pub_rep pub_load sig_rep sig_load].
  - intros P. destruct (F P) as (Ln & _ & _). rewrite app_length, !rev_length, firstn_length, skipn_length, Ln. reflexivity.
  - intros P. destruct (F P) as (_ & Bs & _). apply Forall_app. split; apply Forall_rev; [now apply bytes_firstn|now apply bytes_skipn].
  - intros P. destruct (F P) as (Ln & _ & Es). pose proof (NZ P) as N. revert Ln N Es. generalize (tl (ser E false P)). intros xy Ln N Es.
    assert (L1 : length (rev (firstn 32 xy)) = 32%nat) by (rewrite rev_length, firstn_length; lia).
    assert (A1 : forall (a b : list Z), length a = 32%nat -> firstn 32 (a ++ b) = a /\ skipn 32 (a ++ b) = b).
    { clear. intros a b H. rewrite firstn_app, skipn_app, H, Nat.sub_diag, firstn_O, app_nil_r, skipn_O, firstn_all2, skipn_all2 by lia. now split. }
    destruct (A1 _ (rev (skipn 32 xy)) L1) as [-> ->].
    rewrite !rev_involutive, firstn_skipn, <- Es, (law_parse E SL).
    destruct (forallb _ _) eqn:Q; [|reflexivity]. exfalso. apply N. rewrite forallb_forall in Q.
    assert (A : forall l, (forall x, In x l -> (0 =? x) = true) -> l = repeat 0 (length l)).
    { clear. induction l as [|a l IH]; intros H; [reflexivity|]. cbn [length repeat]. rewrite <- IH by (intros; apply H; now right). f_equal. specialize (H a (or_introl eq_refl)). lia. }
    specialize (A (firstn 32 xy)). rewrite firstn_length in A. replace (Nat.min 32 (length xy)) with 32%nat in A by lia. apply A.
    intros x Hx. apply Q. now apply in_rev in Hx.
  - intros l _ Z0. rewrite Z0. reflexivity.
  - intros s. rewrite app_length, !le_bytes_length. reflexivity.
  - intros s. apply Forall_app. split; apply le_bytes_bytes.
  - intros r s Hr Hs. pose proof n_bound as B.
    rewrite firstn_app, skipn_app, le_bytes_length, Nat.sub_diag, firstn_O, app_nil_r, skipn_O, firstn_all2, skipn_all2 by (rewrite le_bytes_length; lia). cbn [app].
    cbn [fst snd]. rewrite !le_val_le_bytes, !Z.mod_small by lia. reflexivity.
  - reflexivity.
Qed.

Theorem toy_layout : layout_laws toy (std_layout toy).
Proof.
  apply std_ok; [exact toy_laws|]. intros P H. pose proof (toy_ser_val false P) as V. change (ser toy) with toy_ser in H.
  change (firstn 32 (tl (toy_ser false P))) with (firstn 32 (skipn 1 (toy_ser false P))) in H. rewrite H in V. 
  pose proof (proj2_sig P) as S. apply scalarb_ok in S. unfold scalar in S. change (be_val (repeat 0 32)) with 0 in V. lia.
Qed.

(** No point of secp256k1 has abscissa zero: 7 is not a square. *)
Lemma seven_no_square : (msqrt 7 * msqrt 7) mod secp_p =? 7 = false. Proof. vm_compute. reflexivity. Qed.
Lemma x_nonzero x y : on_curve (x, y) = true -> x <> 0.
Proof.
  intros C ->. pose proof (msqrt_ok 0 y C) as M. apply on_curve_spec in C. destruct C as (_ & Y & Q).
  change (0 * 0 * 0 + 7) with 7 in *. change (7 mod secp_p) with 7 in Q. pose proof seven_no_square as N. apply Z.eqb_neq in N.
  revert M N. generalize (msqrt 7). intros z M N. apply N. rewrite <- Q. destruct M as [->| ->]; [reflexivity|].
  replace ((secp_p - y) * (secp_p - y)) with (y * y + (secp_p - 2 * y) * secp_p) by ring. apply Z_mod_plus_full.
Qed.
Theorem secp256k1_layout : secp_laws secp256k1 -> layout_laws secp256k1 (std_layout secp256k1).
Proof.
  intros SL. apply std_ok; [exact SL|]. intros P H. change (ser secp256k1) with k_ser in H. unfold k_ser in H.
  destruct (proj1_sig P) as [x y] eqn:Q. pose proof (proj2_sig P) as C. rewrite Q in C. apply (x_nonzero x y C).
  apply on_curve_spec in C. destruct C as (X & _). cbn [tl] in H.
  rewrite firstn_app, be_bytes_length, Nat.sub_diag, firstn_O, app_nil_r, firstn_all2 in H by (rewrite be_bytes_length; lia).
  apply (f_equal be_val) in H. rewrite be32 in H by exact X. rewrite H. reflexivity.
Qed.
