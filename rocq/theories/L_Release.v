(** Removing assertions does not change the calls that return. *)
From Verif Require Import Base S_Release M_Endian M_Base32 M_Base58 M_Hash M_Base58Check M_Bech32 M_Address M_Random M_Secp M_Key M_Exkey M_Release.

Lemma same_refl {A} (x : res A) : same_as_debug x x.
Proof. intros r H; exact H. Qed.
Lemma same_bind {A B} (x y : res A) (f g : A -> res B) :
  same_as_debug x y -> (forall a, same_as_debug (f a) (g a)) -> same_as_debug (bind x f) (bind y g).
Proof.
  intros H K r E. apply bind_Ok in E. destruct E as (a & Ey & Eg). rewrite (H _ Ey). simpl. apply K, Eg.
Qed.
Lemma same_assert {A} (b : bool) (x : res A) (k : unit -> res A) :
  (b = true -> same_as_debug x (k tt)) -> same_as_debug x (bind (c_assert b) k).
Proof. intros H r E. destruct b; simpl in E; [exact (H eq_refl _ E)|discriminate]. Qed.

Lemma to58_loop_rel : forall buf len b, same_as_debug (to_base58_loop_rel buf len b) (to_base58_loop buf len b).
Proof.
  induction buf as [|x r IH]; intros len b; simpl; [apply same_refl|].
  destruct (carry_loop 256 58 x 0 len b) as [[c i] b']. apply same_assert. intros _. apply IH.
Qed.
Lemma from58_loop_rel : forall s len b, same_as_debug (from_base58_loop_rel s len b) (from_base58_loop s len b).
Proof.
  induction s as [|x r IH]; intros len b; simpl; [apply same_refl|].
  destruct (x =? 0); [apply same_refl|]. apply same_bind; [apply same_refl|]. intros sp.
  destruct sp; [apply same_refl|]. destruct (tget BASE58_DECODE x =? -1); [apply same_refl|].
  destruct (carry_loop 58 256 (tget BASE58_DECODE x) 0 len b) as [[c i] b']. apply same_assert. intros _. apply IH.
Qed.

Ltac same1 :=
  first [ apply same_refl | apply same_assert; intros ?
        | apply same_bind; [try apply same_refl | intros ?]
        | progress cbv zeta
        | match goal with |- same_as_debug (match ?x with _ => _ end) (match ?x with _ => _ end) => destruct x end ].
Ltac same := repeat same1.

Lemma to58_rel b : same_as_debug (to_base58_rel b) (to_base58 b).
Proof.
  unfold to_base58_rel, to_base58. destruct (skip_zeroes b) as [z rest]. cbv zeta.
  apply same_bind; [apply same_refl|intros _]. apply same_bind; [apply to58_loop_rel|]. intros [l d]. apply same_refl.
Qed.
Lemma from58_rel s n : same_as_debug (from_base58_rel s n) (from_base58 s n).
Proof.
  unfold from_base58_rel, from_base58. apply same_bind; [apply same_refl|intros [sp s1]].
  apply same_bind; [apply same_refl|intros [z s2]]. cbv zeta. apply same_bind; [apply same_refl|intros _].
  apply same_bind; [apply same_refl|intros _]. apply same_bind; [apply from58_loop_rel|intros o]. apply same_refl.
Qed.
Lemma to58c_rel b p : same_as_debug (to_base58_check_rel b p) (to_base58_check b p).
Proof. unfold to_base58_check_rel, to_base58_check. cbv zeta. repeat (apply same_bind; [apply same_refl|intros ?]). apply to58_rel. Qed.
Lemma from58c_rel s n : same_as_debug (from_base58_check_rel s n) (from_base58_check s n).
Proof. unfold from_base58_check_rel, from_base58_check. apply same_bind; [apply from58_rel|intros [k b]]. apply same_refl. Qed.

Lemma encode_chars_rel_ok : forall l, same_as_debug (encode_chars_rel l) (encode_chars l).
Proof.
  induction l as [|v r IH]; [apply same_refl|]. cbn [encode_chars encode_chars_rel]. apply same_assert. intros V.
  apply same_bind.
  - intros c H. unfold tget_ub in H |- *. change (length BECH32_ENCODE) with 32%nat in H. change (length (BECH32_ENCODE ++ [0])) with 33%nat.
    destruct (0 <=? v) eqn:V0; [|discriminate]. rewrite app_nth1 by (change (length BECH32_ENCODE) with 32%nat; lia).
    change (Z.of_nat 32) with 32 in H. change (Z.of_nat 33) with 33. replace (v <? 33) with true by lia.
    rewrite V in H. exact H.
  - intros c. apply same_bind; [apply IH|]. intros cs. apply same_refl.
Qed.
Lemma bech32_encode_rel_ok h d : same_as_debug (bech32_encode_rel h d) (bech32_encode h d).
Proof.
  unfold bech32_encode_rel, bech32_encode. apply same_bind; [apply same_refl|intros c].
  apply same_bind; [apply encode_chars_rel_ok|intros ds]. apply same_refl.
Qed.
Lemma encode_witness_rel_ok cap v p n c : same_as_debug (encode_witness_rel cap v p n c) (encode_witness cap v p n c).
Proof.
  unfold encode_witness_rel, encode_witness. cbv zeta. apply same_bind; [apply same_refl|intros b1].
  destruct (to_base32_raw p) as [k vals]. apply same_bind; [apply same_refl|intros b2].
  destruct (n <? bech32_encode_length (length (cp_hrp c)) (k + 1))%nat; [apply same_refl|].
  apply same_bind; [apply same_refl|intros w]. apply same_bind; [apply bech32_encode_rel_ok|intros t]. apply same_refl.
Qed.

Lemma export_rel E c buf len k (cmp : bool) :
  same_as_debug (export_der_rel E c buf k cmp) (export_der E c buf len k cmp).
Proof.
  unfold export_der_rel, export_der. apply same_bind; [apply same_refl|intros p]. destruct p as [P|]; [|apply same_refl].
  destruct cmp; cbv zeta; apply same_assert; intros _;
    repeat (apply same_bind; [apply same_refl|intros ?]); apply same_assert; intros _; apply same_refl.
Qed.

Lemma get_pub_rel E g k P : key_get_pub E g k = Ok P -> key_get_pub_rel E g k = Ok (Some P).
Proof.
  unfold key_get_pub, key_get_pub_rel. intros H. apply bind_Ok in H. destruct H as ([Q|] & H & K); [|discriminate].
  injection K as ->. exact H.
Qed.
Lemma size_test a b n : ((n =? a) || (n =? b))%nat = true -> (negb (n =? a)%nat && negb (n =? b)%nat)%bool = false.
Proof. destruct (n =? a)%nat, (n =? b)%nat; simpl; congruence. Qed.
Lemma pub_encode_rel E g P out n : same_as_debug (pubkey_encode_rel E g (Some P) out n) (pubkey_encode E g P out n).
Proof.
  unfold pubkey_encode_rel, pubkey_encode. apply same_assert. intros S. rewrite (size_test _ _ _ S).
  apply same_bind; [apply same_refl|intros bs]. apply same_bind; [apply same_refl|intros o]. cbv zeta.
  apply same_assert. intros _. apply same_refl.
Qed.
Lemma pub_decode_rel E g b n : same_as_debug (pubkey_decode_rel E g b n) (pubkey_decode E g b n).
Proof. unfold pubkey_decode_rel, pubkey_decode. apply same_assert. intros S. rewrite (size_test _ _ _ S). apply same_refl. Qed.

(** [pub <- get_pub ;; …] *)
Lemma same_get_pub {A} E g k (f : option (pt E) -> res A) (h : pt E -> res A) :
  (forall P, same_as_debug (f (Some P)) (h P)) -> same_as_debug (bind (key_get_pub_rel E g k) f) (bind (key_get_pub E g k) h).
Proof.
  intros H r K. apply bind_Ok in K. destruct K as (P & K1 & K2). rewrite (get_pub_rel _ _ _ _ K1). simpl. apply H, K2.
Qed.
