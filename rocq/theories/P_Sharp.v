(** The limit in C28 cannot be raised. *)
From Verif Require Import Base L_Endian M_Base58 S_Base58 L_Base58 P_Base58.

(** C28: three leading '1' are the most that always fit.  For every number of ones from four on there is a text with exactly so many that
    is longer decoded than announced; from eight on, the ones alone are. *)
Theorem C28_four_ones_refuted : forall z rest, (4 <= z)%nat -> Z.of_nat (z + 11) * 733 <= INT_MAX ->
  exists (t : list Z) n out, (forall u, t <> 49 :: u) /\ (length t <= 11)%nat /\ ((8 <= z)%nat -> t = []) /\
    from_base58 ((repeat 49 z ++ t) ++ 0 :: rest) (length (repeat 49 z ++ t)) = Ok (n, out) /\ n = length out /\
    (from_base58_length (length (repeat 49%Z z ++ t)) < n)%nat.
Proof.
  intros z rest Hz HI. destruct (le_lt_dec 8 z) as [L|L].
  - exists [], z, (repeat 0 z). split; [discriminate|]. split; [cbn; lia|]. split; [reflexivity|]. rewrite app_nil_r, !repeat_length.
    split; [|split; [reflexivity|unfold from_base58_length; dlia]].
    destruct (from_base58_dec [] z [] [] rest) as (ob & N & _ & R); cbn [app map]; rewrite ?app_nil_r; try solve [constructor].
    + apply Forall_forall. intros c Hc. apply repeat_spec in Hc. subst. unfold is_ascii. lia.
    + destruct z; [lia|]. reflexivity.
    + rewrite repeat_length. lia.
    + cbn [app map forallb] in R. rewrite !app_nil_r, repeat_length in R.
      assert (ob = []) as ->.
      { apply (is_numeral_unique 256 0); [lia|exact N|]. split; [constructor|]. split; [reflexivity|discriminate]. }
      rewrite app_nil_r, repeat_length in R. exact R.
  - assert (C : z = 4%nat \/ z = 5%nat \/ z = 6%nat \/ z = 7%nat) by lia.
    set (k := match z with 4 => 11 | 5 => 3 | 6 => 2 | _ => 1 end%nat).
    exists (repeat 122 k). destruct (from_base58 ((repeat 49 z ++ repeat 122 k) ++ [0]) (length (repeat 49 z ++ repeat 122 k))) as [[n out]| |] eqn:E;
      [|exfalso; destruct C as [->|[->|[->| ->]]]; vm_compute in E; discriminate E..].
    exists n, out. rewrite base58_no_overread, E. split; [intros u; destruct C as [->|[->|[->| ->]]]; discriminate|].
    split; [rewrite repeat_length; destruct C as [->|[->|[->| ->]]]; cbn; lia|]. split; [lia|]. split; [reflexivity|].
    destruct C as [->|[->|[->| ->]]]; vm_compute in E; injection E as <- <-; (split; [reflexivity|vm_compute; lia]).
Qed.
Print Assumptions C28_four_ones_refuted.

(** "1111zzzzzzzzzzz" announces 12 bytes and writes 13. *)
Example C28_four_ones_case : (4 <= 4)%nat /\ Z.of_nat (4 + 11) * 733 <= INT_MAX /\
  from_base58 (repeat 49 4 ++ repeat 122 11 ++ [0]) 15 = Ok (13%nat, [0; 0; 0; 0; 1; 90; 194; 100; 85; 79; 3; 39; 255]) /\ from_base58_length 15 = 12%nat.
Proof. split; [lia|]. split; [vm_compute; discriminate|]. split; vm_compute; reflexivity. Qed.
