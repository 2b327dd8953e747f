(** C59-C62: signing, verification, key generation and the life cycle (src/btc/key.c). *)
From Verif Require Import Base S_Words L_Endian M_Endian M_Random S_Random P_Random M_Hash M_Secp M_Key S_Secp L_Secp S_Der S_Life S_Sign L_Der L_Der2 P_Der.

Lemma slice32 a rest : length a = 32%nat -> slice (a ++ rest) 0 32 = Ok a.
Proof. intros L. rewrite slice_ok by (rewrite app_length; lia). cbn [skipn]. rewrite <- L. now rewrite firstn_app_exact. Qed.

Lemma low_r_ok g r s : ready g -> 0 <= r < secp_n -> SigHasLowR g (r, s) = Ok (r <? 2 ^ 255).
Proof.
  intros G Hr. unfold SigHasLowR, secp_serialize_compact. destruct (ready_sign g G) as [x ->]. cbn [any_ctx bind fst snd].
  assert (L : length (be_bytes 32 r) = 32%nat) by apply be_bytes_length.
  assert (B : bytes (be_bytes 32 r)) by apply be_bytes_bytes.
  assert (V : be_val (be_bytes 32 r) = r) by now apply be32_small.
  destruct (be_bytes 32 r) as [|b t]; [discriminate|]. cbn [app rd nth_error bind]. f_equal.
  rewrite be_val_cons in V. cbn [length] in L. replace (length t) with 31%nat in V by lia.
  apply bytes_cons in B as [Bb Bt]. pose proof (be_val_bound t Bt) as H. replace (length t) with 31%nat in H by lia. unfold is_byte in Bb.
  change (256 ^ Z.of_nat 31) with (2 ^ 248) in *. change (2 ^ 255) with (128 * 2 ^ 248).
  destruct (Z.ltb_spec b 128), (Z.ltb_spec r (128 * 2 ^ 248)); auto; nia.
Qed.

(* ---------------------------------------------------------------- *)
(** ** C59 *)

Section Grind.
Variables (E : secp) (g : globals) (key hash krest hrest : list Z).
Hypothesis Laws : secp_laws E.
Hypothesis G : ready g.
Hypothesis Bk : bytes key.
Hypothesis Lk : length key = 32%nat.
Hypothesis Bh : bytes hash.
Hypothesis Lh : length hash = 32%nat.

Lemma sign_none : secp_ecdsa_sign E (g_sign g) (hash ++ hrest) (key ++ krest) None = Ok (ecdsa E key hash None).
Proof.
  unfold secp_ecdsa_sign, sign_ctx. destruct G as (cs & cv & -> & _ & Cs & _). rewrite Cs. cbn [c_assert bind].
  rewrite !slice32 by assumption. reflexivity.
Qed.
Lemma sign_extra e : length e = 32%nat -> secp_ecdsa_sign E (g_sign g) (hash ++ hrest) (key ++ krest) (Some e) = Ok (ecdsa E key hash (Some e)).
Proof.
  intros Le. unfold secp_ecdsa_sign, sign_ctx. destruct G as (cs & cv & -> & _ & Cs & _). rewrite Cs. cbn [c_assert bind].
  rewrite !slice32 by assumption. cbn [bind]. pose proof (slice32 e [] Le) as Hs. rewrite app_nil_r in Hs. rewrite Hs. reflexivity.
Qed.

Lemma entropy_step e c : length e = 32%nat -> (skipn 4 e = repeat 0 28) -> 0 <= c < 2 ^ 32 ->
  write_little_32 e c = Ok (le_bytes 4 c ++ repeat 0 28).
Proof.
  intros Le Se Hc. unfold write_little_32, htole32. rewrite host_bytes_le. rewrite store0 by (rewrite le_bytes_length; lia).
  rewrite le_bytes_length, Se. reflexivity.
Qed.

(** Every run of the loop that starts from a good signature ends in a good low-R one. *)
Definition good (s : Z * Z) : Prop := scalar (be_val key) /\ scalar (fst s) /\ 0 < snd s <= secp_n / 2 /\ ecdsa_ok E s hash (pub_of E (be_val key)) = true.
Lemma good_sign x s : ecdsa E key hash x = Some s -> good s.
Proof. intros H. destruct s as [r s]. apply (law_sign E Laws) in H; auto. Qed.

Lemma grind_good : forall fuel s e c, good s -> length e = 32%nat -> skipn 4 e = repeat 0 28 ->
  (exists s', grind fuel E g (hash ++ hrest) (key ++ krest) (Some s) e c = Ok (Returned (Some s')) /\ good s' /\ fst s' < 2 ^ 255) \/
  grind fuel E g (hash ++ hrest) (key ++ krest) (Some s) e c = Ok Running.
Proof.
  induction fuel as [|fuel IH]; intros [r s] e c Gs Le Se; cbn [grind];
    (rewrite low_r_ok; [|exact G|destruct Gs as (_ & S & _); unfold scalar in S; cbn [fst] in S; lia]); cbn [bind];
    destruct (Z.ltb_spec r (2 ^ 255)) as [H|H].
  - left. eauto.
  - now right.
  - left. eauto.
  - rewrite entropy_step; [|assumption|assumption|apply Z.mod_pos_bound; lia]. cbn [bind].
    set (e' := le_bytes 4 (u32 (c + 1)) ++ repeat 0 28).
    assert (Le' : length e' = 32%nat) by (unfold e'; rewrite app_length, le_bytes_length, repeat_length; reflexivity).
    rewrite sign_extra by assumption. cbn [bind].
    destruct (ecdsa E key hash (Some e')) as [s'|] eqn:Es.
    + apply IH; [eapply good_sign; eauto|assumption|]. unfold e'. rewrite <- (le_bytes_length 4 (u32 (c + 1))) at 1. apply skipn_app_exact.
    + exfalso. destruct Gs as (Sk & _). apply (law_signs E Laws key hash (Some e')) in Es; auto.
Qed.

(** The loop finds the first low-R attempt. *)
Lemma grind_first : forall fuel c e s, attempt E key hash c = Some s -> good s -> length e = 32%nat -> skipn 4 e = repeat 0 28 ->
  Z.of_nat (c + fuel) < 2 ^ 32 ->
  (exists d, (c <= d <= c + fuel)%nat /\ low_r (attempt E key hash d) /\ (forall j, (c <= j < d)%nat -> ~ low_r (attempt E key hash j)) /\
     grind fuel E g (hash ++ hrest) (key ++ krest) (Some s) e (Z.of_nat c) = Ok (Returned (attempt E key hash d))) \/
  ((forall j, (c <= j <= c + fuel)%nat -> ~ low_r (attempt E key hash j)) /\
     grind fuel E g (hash ++ hrest) (key ++ krest) (Some s) e (Z.of_nat c) = Ok Running).
Proof.
  induction fuel as [|fuel IH]; intros c e [r s] At Gs Le Se Hc; cbn [grind];
    (rewrite low_r_ok; [|exact G|destruct Gs as (_ & S & _); unfold scalar in S; cbn [fst] in S; lia]); cbn [bind];
    destruct (Z.ltb_spec r (2 ^ 255)) as [H|H].
  - left. exists c. split; [lia|]. split; [exists r, s; auto|]. split; [intros; lia|]. now rewrite At.
  - right. split; [|reflexivity]. intros j Hj (r' & s' & Ej & Hr). replace j with c in Ej by lia. rewrite At in Ej. injection Ej as <- <-. lia.
  - left. exists c. split; [lia|]. split; [exists r, s; auto|]. split; [intros; lia|]. now rewrite At.
  - assert (N : ~ low_r (attempt E key hash c)) by (intros (r' & s' & Ej & Hr); rewrite At in Ej; injection Ej as <- <-; lia).
    replace (u32 (Z.of_nat c + 1)) with (Z.of_nat (S c)) by (unfold u32; rewrite Z.mod_small; lia).
    rewrite entropy_step; [|assumption|assumption|lia]. cbn [bind].
    set (e' := le_bytes 4 (Z.of_nat (S c)) ++ repeat 0 28).
    assert (Le' : length e' = 32%nat) by (unfold e'; rewrite app_length, le_bytes_length, repeat_length; reflexivity).
    rewrite sign_extra by assumption. cbn [bind].
    assert (At' : ecdsa E key hash (Some e') = attempt E key hash (S c)) by reflexivity.
    destruct (ecdsa E key hash (Some e')) as [s'|] eqn:Es.
    2:{ exfalso. destruct Gs as (Sk & _). apply (law_signs E Laws key hash (Some e')) in Es; auto. }
    destruct (IH (S c) e' s') as [(d & Hd & Ld & Md & Ed)|[M Ed]].
    + now rewrite At'.
    + eapply good_sign; eauto.
    + assumption.
    + unfold e'. rewrite <- (le_bytes_length 4 (Z.of_nat (S c))) at 1. apply skipn_app_exact.
    + lia.
    + left. exists d. split; [lia|]. split; [exact Ld|]. split; [|exact Ed].
      intros j Hj. destruct (Nat.eq_dec j c) as [-> |]; [exact N|]. apply Md. lia.
    + right. split; [|exact Ed]. intros j Hj. destruct (Nat.eq_dec j c) as [-> |]; [exact N|]. apply M. lia.
Qed.
End Grind.

(** Whenever signing returns, the secret was valid, R is below 2^255, S is in the lower half, the signature
    verifies under the public key of the secret, and its DER encoding has at most 70 bytes. *)
Theorem C59_sign_low_r_and_verifies : forall E g key krest hash hrest fuel r s, secp_laws E -> ready g ->
  bytes key -> length key = 32%nat -> bytes hash -> length hash = 32%nat ->
  key_sign fuel E g (key ++ krest) (hash ++ hrest) = Ok (Returned (r, s)) ->
  0 < be_val key < secp_order /\ 0 < r < 2 ^ 255 /\ 0 < s <= secp_order / 2 /\
  (exists P, key_get_pub E g (key ++ krest) = Ok P /\ key_verify E g P (hash ++ hrest) (r, s) = Ok true) /\
  (exists enc, signature_encode g (r, s) = Ok (length enc, enc) /\ strict_der r s enc /\ (length enc <= 70)%nat).
Proof.
  intros E g key krest hash hrest fuel r s Laws G Bk Lk Bh Lh. change secp_order with secp_n. unfold key_sign. rewrite sign_none by assumption. cbn [bind].
  destruct (ecdsa E key hash None) as [s0|] eqn:E0.
  2:{ destruct fuel; cbn [grind bind]; discriminate. }
  assert (G0 : good E key hash s0) by (eapply good_sign; eauto).
  destruct (grind_good E g key hash krest hrest Laws G Bk Lk Bh Lh fuel s0 (repeat 0 32) 0 G0 eq_refl eq_refl) as [(s' & -> & (Sk & Sr & Ss & V) & Lr)| ->];
    cbn [bind]; [|discriminate].
  intros H. injection H as ->. cbn [fst snd] in *. unfold scalar in Sk, Sr.
  assert (Hhalf : secp_n / 2 < 2 ^ 255 /\ secp_n / 2 < secp_n) by (split; reflexivity).
  split; [exact Sk|]. split; [lia|]. split; [exact Ss|]. split.
  - exists (pub_of E (be_val key)). destruct G as (cs & cv & Gs & Gv & Cs & Cv). split.
    + unfold key_get_pub, secp_pubkey_create, sign_ctx. rewrite Gs, Cs. cbn [c_assert bind]. rewrite slice32 by assumption. cbn [bind].
      replace ((0 <? be_val key) && (be_val key <? secp_n)) with true by lia. reflexivity.
    + unfold key_verify, secp_normalize, secp_ecdsa_verify, verify_ctx. rewrite Gv. cbn [any_ctx bind snd fst].
      replace (secp_n / 2 <? s) with false by lia. rewrite Cv. cbn [c_assert bind]. rewrite slice32 by assumption. cbn [bind snd].
      replace (secp_n / 2 <? s) with false by lia. cbn [negb andb]. now rewrite V.
  - destruct (C57_signature_encode_strict g r s G) as (enc & E1 & D & L & B); [change secp_order with secp_n; lia|change secp_order with secp_n; lia|].
    exists enc. split; [exact E1|]. split; [exact D|].
    destruct D as (R & S & HR & HS & ->).
    assert (length R <= 32)%nat by (apply (der_int_length r R 32 HR); [change (8 * Z.of_nat 32 - 1) with 255; lia|lia]).
    assert (length S <= 32)%nat by (apply (der_int_length s S 32 HS); [change (8 * Z.of_nat 32 - 1) with 255; lia|lia]).
    rewrite !app_length. cbn [length]. lia.
Qed.
Print Assumptions C59_sign_low_r_and_verifies.

(** It returns the first attempt with a low R, and keeps trying until there is one. *)
Theorem C59_sign_first_low_r : forall E g key krest hash hrest fuel, secp_laws E -> ready g ->
  bytes key -> length key = 32%nat -> bytes hash -> length hash = 32%nat -> 0 < be_val key < secp_order ->
  Z.of_nat fuel < 2 ^ 32 ->
  (exists c sig, (c <= fuel)%nat /\ attempt E key hash c = Some sig /\ low_r (attempt E key hash c) /\
     (forall j, (j < c)%nat -> ~ low_r (attempt E key hash j)) /\
     key_sign fuel E g (key ++ krest) (hash ++ hrest) = Ok (Returned sig)) \/
  ((forall c, (c <= fuel)%nat -> ~ low_r (attempt E key hash c)) /\
     key_sign fuel E g (key ++ krest) (hash ++ hrest) = Ok Running).
Proof.
  intros E g key krest hash hrest fuel Laws G Bk Lk Bh Lh Sk Hf. change secp_order with secp_n in Sk. unfold key_sign. rewrite sign_none by assumption. cbn [bind].
  destruct (ecdsa E key hash None) as [s0|] eqn:E0.
  2:{ exfalso. apply (law_signs E Laws key hash None) in E0; auto. }
  assert (G0 : good E key hash s0) by (eapply good_sign; eauto).
  destruct (grind_first E g key hash krest hrest Laws G Bk Lk Bh Lh fuel 0 (repeat 0 32) s0 E0 G0 eq_refl eq_refl Hf) as [(d & Hd & Ld & Md & Ed)|[M Ed]];
    change (Z.of_nat 0) with 0 in Ed; rewrite Ed; cbn [bind].
  - left. destruct (attempt E key hash d) as [sig|] eqn:Ea; [|destruct Ld as (r & s & Hx & _); discriminate].
    exists d, sig. split; [lia|]. split; [exact Ea|]. rewrite Ea. split; [exact Ld|]. split; [|reflexivity]. intros j Hj. apply Md. lia.
  - right. split; [|reflexivity]. intros c Hc. apply M. lia.
Qed.
Print Assumptions C59_sign_first_low_r.

(** An invalid secret key makes signing abort rather than return. *)
Theorem C59_sign_invalid_key : forall E g key krest hash hrest fuel, secp_laws E -> ready g ->
  bytes key -> length key = 32%nat -> bytes hash -> length hash = 32%nat -> ~ 0 < be_val key < secp_order ->
  key_sign fuel E g (key ++ krest) (hash ++ hrest) = Abort.
Proof.
  intros E g key krest hash hrest fuel Laws G Bk Lk Bh Lh N. change secp_order with secp_n in N. unfold key_sign. rewrite sign_none by assumption. cbn [bind].
  destruct (ecdsa E key hash None) as [[r s]|] eqn:E0; [exfalso; apply (law_sign E Laws) in E0 as [S _]; auto|].
  destruct fuel; reflexivity.
Qed.
Print Assumptions C59_sign_invalid_key.

(* ---------------------------------------------------------------- *)
(** ** C60 *)
Theorem C60_verify_sign_of_s : forall E g P hash r s, ready g -> (32 <= length hash)%nat -> 0 < s < secp_order ->
  exists b, key_verify E g P hash (r, s) = Ok b /\ key_verify E g P hash (r, secp_order - s) = Ok b.
Proof.
  intros E g P hash r s G Lh Hs. change secp_order with secp_n in *. destruct G as (cs & cv & Gs & Gv & Cs & Cv).
  assert (Odd : 2 * (secp_n / 2) + 1 = secp_n) by reflexivity. assert (Pos : 0 < secp_n) by reflexivity.
  unfold key_verify, secp_normalize, secp_ecdsa_verify, verify_ctx. rewrite Gv. cbn [any_ctx bind snd fst]. rewrite Cv.
  rewrite slice_ok by lia. cbn [bind c_assert].
  destruct (Z.ltb_spec (secp_n / 2) s) as [H|H].
  - replace (secp_n / 2 <? secp_n - s) with false by lia. rewrite Z.mod_small by lia. eexists. split; reflexivity.
  - replace (secp_n / 2 <? secp_n - s) with true by lia. replace ((secp_n - (secp_n - s)) mod secp_n) with s by (rewrite Z.mod_small; lia). eexists. split; reflexivity.
Qed.
Print Assumptions C60_verify_sign_of_s.

(** The answer is that of ECDSA on whichever of the two has the low s. *)
Theorem C60_verify_meaning : forall E g P hash hrest r s, ready g -> length hash = 32%nat -> 0 <= s < secp_order ->
  key_verify E g P (hash ++ hrest) (r, s) =
    Ok (ecdsa_ok E (r, if s <=? secp_order / 2 then s else secp_order - s) hash P).
Proof.
  intros E g P hash hrest r s G Lh Hs. change secp_order with secp_n in *. destruct G as (cs & cv & Gs & Gv & Cs & Cv).
  assert (Odd : 2 * (secp_n / 2) + 1 = secp_n) by reflexivity. assert (Pos : 0 < secp_n) by reflexivity.
  unfold key_verify, secp_normalize, secp_ecdsa_verify, verify_ctx. rewrite Gv. cbn [any_ctx bind snd fst]. rewrite Cv.
  rewrite slice32 by assumption. cbn [bind c_assert].
  destruct (Z.ltb_spec (secp_n / 2) s) as [H|H].
  - replace (s <=? secp_n / 2) with false by lia. rewrite Z.mod_small by lia. cbn [snd]. replace (secp_n / 2 <? secp_n - s) with false by lia. reflexivity.
  - replace (s <=? secp_n / 2) with true by lia. cbn [snd]. replace (secp_n / 2 <? s) with false by lia. reflexivity.
Qed.
Print Assumptions C60_verify_meaning.

Lemma nth_error_ext_eq {A} (l : list A) : forall m, (forall i, nth_error l i = nth_error m i) -> l = m.
Proof.
  induction l as [|a l IH]; intros [|b m] H; [reflexivity|specialize (H 0%nat); discriminate|specialize (H 0%nat); discriminate|].
  f_equal; [specialize (H 0%nat); cbn in H; congruence|]. apply IH. intros i. exact (H (S i)).
Qed.

(* ---------------------------------------------------------------- *)
(** ** C61 *)
Theorem C61_key_new_valid : forall fuel rand_fuel draw j g mem mem', ready g ->
  key_new fuel rand_fuel draw j g mem = Ok (Returned mem') -> 0 < be_val (firstn 32 mem') < secp_order.
Proof.
  induction fuel as [|fuel IH]; intros rf draw j g mem mem' G H; [discriminate|]. cbn [key_new] in H.
  destruct (os_rand_bytes rf (draw j) mem 32) as [[m| |]| |]; try discriminate; cbn [bind] in H.
  unfold secp_seckey_verify in H. destruct (ready_sign g G) as [x Ex]. rewrite Ex in H. cbn [any_ctx bind] in H.
  unfold slice in H at 1. destruct (0 + 32 <=? length m)%nat; [|discriminate]. cbn [bind skipn] in H.
  destruct ((0 <? be_val (firstn 32 m)) && (be_val (firstn 32 m) <? secp_n)) eqn:V.
  - injection H as <-. change secp_order with secp_n. lia.
  - eapply IH; eauto.
Qed.
Print Assumptions C61_key_new_valid.

(** With a well-behaved operating system it is memory safe, touches only the 32 bytes, and either
    returns, or stops the program, or is still drawing. *)
Theorem C61_key_new_safe : forall draw, (forall j, read_contract (draw j)) -> forall fuel rand_fuel j g mem, ready g ->
  (32 <= length mem)%nat -> (32 <= rand_fuel)%nat ->
  (exists mem', key_new fuel rand_fuel draw j g mem = Ok (Returned mem') /\ length mem' = length mem /\ skipn 32 mem' = skipn 32 mem) \/
  key_new fuel rand_fuel draw j g mem = Ok Fatal \/ key_new fuel rand_fuel draw j g mem = Ok Running.
Proof.
  intros draw C. induction fuel as [|fuel IH]; intros rf j g mem G Lm Lf; [right; right; reflexivity|]. cbn [key_new].
  destruct (C81_os_rand_terminates (draw j) mem 32 rf (C j) Lm ltac:(lia) Lf) as (F & R & D).
  destruct (os_open (draw j)) eqn:O; [|rewrite F by auto; cbn [bind]; auto].
  destruct D as [D|D]; [rewrite F by auto; cbn [bind]; auto|].
  destruct (R D eq_refl) as [m Hm]. rewrite Hm. cbn [bind].
  destruct (C80_os_rand_bytes_partial (draw j) mem 32 rf m (C j) Lm ltac:(lia) Lf Hm) as (ds & Rd & Lm' & Bm).
  assert (Sm : skipn 32 m = skipn 32 mem).
  { apply nth_error_ext_eq. intros i. rewrite !nth_error_skipn.
    destruct (le_lt_dec (length mem) (32 + i)) as [L|L].
    - rewrite (proj2 (nth_error_None m (32 + i))), (proj2 (nth_error_None mem (32 + i))); auto; lia.
    - destruct (Bm (32 + i)%nat L) as [[_ E]|(before & d & after & Hds & Hd & _)]; [exact E|exfalso].
      pose proof (reads_le (draw j) (C j) _ _ _ Rd) as Fl. rewrite Forall_forall in Fl. specialize (Fl d). rewrite Hds in Fl.
      assert (length d <= 32)%nat by (apply Fl; apply in_or_app; right; left; reflexivity). lia. }
  unfold secp_seckey_verify. destruct (ready_sign g G) as [x Ex]. rewrite Ex. cbn [any_ctx bind]. rewrite slice_ok by lia. change (skipn 0 m) with m. cbn [bind].
  destruct ((0 <? be_val (firstn 32 m)) && (be_val (firstn 32 m) <? secp_n)).
  - left. exists m. auto.
  - destruct (IH rf (S j) g m G ltac:(lia) Lf) as [(m' & E & L' & S')|H]; [left; exists m'; split; [exact E|split; [now rewrite L'|now rewrite S']]|right; exact H].
Qed.
Print Assumptions C61_key_new_safe.

(** When every draw is delivered in one piece, the key is the first draw that is a valid secret. *)
Theorem C61_key_new_first_valid : forall draw d g mem k rand_fuel fuel, ready g -> (32 <= length mem)%nat -> (32 <= rand_fuel)%nat ->
  (forall j, (j <= k)%nat -> read_contract (draw j) /\ delivers (draw j) (d j)) ->
  (forall j, (j < k)%nat -> ~ 0 < be_val (d j) < secp_order) -> 0 < be_val (d k) < secp_order -> (k < fuel)%nat ->
  key_new fuel rand_fuel draw 0 g mem = Ok (Returned (d k ++ skipn 32 mem)).
Proof.
  intros draw d g mem k rf fuel G Lm Lf D V Vk Hf. change secp_order with secp_n in *.
  assert (Gen : forall n j fuel mem, (j + n = k)%nat -> (n < fuel)%nat -> (32 <= length mem)%nat ->
     key_new fuel rf draw j g mem = Ok (Returned (d k ++ skipn 32 mem))).
  { clear Hf fuel mem Lm. induction n as [|n IH]; intros j fuel mem Hj Hf Lm; (destruct fuel as [|fuel]; [lia|]); cbn [key_new];
      destruct (D j ltac:(lia)) as (Cj & Oj & Lj & Rj);
      rewrite (C80_os_rand_fills_partial (draw j) mem 32 rf (d j) Cj Oj Lm ltac:(lia) Lf ltac:(lia) Rj Lj); cbn [bind];
      unfold secp_seckey_verify; destruct (ready_sign g G) as [x Ex]; rewrite Ex; cbn [any_ctx bind];
      rewrite slice32 by assumption; cbn [bind].
    - replace j with k in * by lia. replace ((0 <? be_val (d k)) && (be_val (d k) <? secp_n)) with true by lia. reflexivity.
    - specialize (V j ltac:(lia)). replace ((0 <? be_val (d j)) && (be_val (d j) <? secp_n)) with false by lia.
      rewrite IH; [|lia|lia|rewrite app_length, skipn_length; lia]. do 3 f_equal.
      rewrite <- Lj. now rewrite skipn_app_exact. }
  apply (Gen k 0%nat); lia.
Qed.
Print Assumptions C61_key_new_first_valid.

(** No key without randomness: when the draws so far were unusable and the next one cannot be made, the program is stopped. *)
Theorem C61_key_new_without_randomness : forall draw d g mem k rand_fuel fuel, ready g -> (32 <= length mem)%nat -> (32 <= rand_fuel)%nat ->
  (forall j, (j < k)%nat -> read_contract (draw j) /\ delivers (draw j) (d j)) ->
  (forall j, (j < k)%nat -> ~ 0 < be_val (d j) < secp_order) ->
  read_contract (draw k) -> os_open (draw k) = false \/ read_fails (draw k) 0 32 -> (k < fuel)%nat ->
  key_new fuel rand_fuel draw 0 g mem = Ok Fatal.
Proof.
  intros draw d g mem k rf fuel G Lm Lf D V Ck Bk Hf. change secp_order with secp_n in *.
  assert (Gen : forall n j fuel mem, (j + n = k)%nat -> (n < fuel)%nat -> (32 <= length mem)%nat ->
     key_new fuel rf draw j g mem = Ok Fatal).
  { clear Hf fuel mem Lm. induction n as [|n IH]; intros j fuel mem Hj Hf Lm; (destruct fuel as [|fuel]; [lia|]); cbn [key_new].
    - replace j with k by lia. destruct (C81_os_rand_terminates (draw k) mem 32 rf Ck Lm ltac:(lia) Lf) as (F & _ & _).
      rewrite F by exact Bk. reflexivity.
    - destruct (D j ltac:(lia)) as (Cj & Oj & Lj & Rj).
      rewrite (C80_os_rand_fills_partial (draw j) mem 32 rf (d j) Cj Oj Lm ltac:(lia) Lf ltac:(lia) Rj Lj); cbn [bind];
      unfold secp_seckey_verify; destruct (ready_sign g G) as [x Ex]; rewrite Ex; cbn [any_ctx bind];
      rewrite slice32 by assumption; cbn [bind].
      specialize (V j ltac:(lia)). replace ((0 <? be_val (d j)) && (be_val (d j) <? secp_n)) with false by lia.
      apply IH; [lia|lia|rewrite app_length, skipn_length; lia]. }
  apply (Gen k 0%nat); lia.
Qed.
Print Assumptions C61_key_new_without_randomness.

(* ---------------------------------------------------------------- *)
(** ** C62 *)

Theorem C62_init : forall others st o fuel, off others st -> healthy o -> (32 <= fuel)%nat ->
  exists st', key_init fuel o st = Ok (Returned st') /\ on others st'.
Proof.
  intros others [g h] o fuel (Hs & Hv & Hl & Nd & Fr) (C & O & R) Hf. cbn [fst snd] in *.
  unfold key_init. rewrite Hv. cbn [is_null c_assert bind context_create g_sign g_verify]. rewrite Hs. cbn [is_null c_assert bind fresh live g_sign g_verify].
  destruct (C81_os_rand_terminates o (uninit 32) 32 fuel C ltac:(reflexivity) ltac:(lia) Hf) as (_ & Rt & _).
  destruct (Rt R O) as [m Hm]. rewrite Hm. cbn [bind sign_ctx can_sign c_assert].
  destruct (C80_os_rand_bytes_partial o (uninit 32) 32 fuel m C ltac:(reflexivity) ltac:(lia) Hf Hm) as (ds & _ & Lm & _).
  change (length (uninit 32)) with 32%nat in Lm.
  unfold cleanse. rewrite store_ok by (rewrite repeat_length; lia). cbn [bind].
  eexists. split; [reflexivity|]. split; [|split].
  - exists (mkCtx true false (S (fresh h))), (mkCtx false true (fresh h)). repeat split; reflexivity.
  - cbn [snd]. split; cbn [live fresh].
    + rewrite Forall_forall in Fr. constructor; [|constructor; [|exact Nd]].
      * intros [H|H]; [lia|]. specialize (Fr _ H). lia.
      * intros H. specialize (Fr _ H). lia.
    + constructor; [lia|constructor; [lia|]]. eapply Forall_impl; [|exact Fr]. cbv beta. lia.
  - cbn [fst snd g_sign g_verify]. exists (mkCtx true false (S (fresh h))), (mkCtx false true (fresh h)). repeat split. cbn [live ctx_id app]. now rewrite Hl.
Qed.
Print Assumptions C62_init.

(** Initialising never succeeds without randomness: if the random device cannot be opened or a read fails, the program
    is stopped, whatever contexts the rest of the program holds. *)
Theorem C62_init_without_randomness : forall others st o fuel, off others st -> read_contract o -> (32 <= fuel)%nat ->
  os_open o = false \/ read_fails o 0 32 -> key_init fuel o st = Ok Fatal.
Proof.
  intros others [g h] o fuel (Hs & Hv & Hl & Nd & Fr) C Hf B. cbn [fst snd] in *.
  unfold key_init. rewrite Hv. cbn [is_null c_assert bind context_create g_sign g_verify]. rewrite Hs. cbn [is_null c_assert bind fresh live g_sign g_verify].
  destruct (C81_os_rand_terminates o (uninit 32) 32 fuel C ltac:(reflexivity) ltac:(lia) Hf) as (F & _ & _).
  rewrite F by exact B. reflexivity.
Qed.
Print Assumptions C62_init_without_randomness.

Theorem C62_init_twice : forall others st o fuel, on others st -> key_init fuel o st = Abort.
Proof.
  intros others [g h] o fuel (_ & _ & cs & cv & _ & Hv & _). cbn [fst snd] in *. unfold key_init. rewrite Hv. reflexivity.
Qed.
Print Assumptions C62_init_twice.

Lemma remove_head x l : ~ In x l -> remove Nat.eq_dec x l = l.
Proof. apply notin_remove. Qed.

Theorem C62_uninit : forall others st, on others st -> exists st', key_uninit st = Ok st' /\ off others st'.
Proof.
  intros others [g h] (_ & (Nd & Fr) & cs & cv & Hs & Hv & Hl). cbn [fst snd] in *. unfold key_uninit. rewrite Hs.
  rewrite Hl in Nd, Fr. cbn [app] in Nd, Fr, Hl.
  unfold context_destroy at 1. rewrite Hl. cbn [existsb]. rewrite Nat.eqb_refl. cbn [orb bind g_verify g_sign]. rewrite Hv.
  inversion Nd as [|a l N1 Nd1 E1]; subst a l. inversion Nd1 as [|a l N2 Nd2 E2]; subst a l.
  assert (R1 : remove Nat.eq_dec (ctx_id cs) (ctx_id cs :: ctx_id cv :: others) = ctx_id cv :: others).
  { cbn [remove]. destruct (Nat.eq_dec (ctx_id cs) (ctx_id cs)) as [_|]; [|congruence].
    change (remove Nat.eq_dec (ctx_id cs) (ctx_id cv :: others) = ctx_id cv :: others). now apply notin_remove. }
  rewrite R1. unfold context_destroy. cbn [live existsb fresh]. rewrite Nat.eqb_refl. cbn [orb bind].
  assert (R2 : remove Nat.eq_dec (ctx_id cv) (ctx_id cv :: others) = others).
  { cbn [remove]. destruct (Nat.eq_dec (ctx_id cv) (ctx_id cv)) as [_|]; [|congruence]. now apply notin_remove. }
  rewrite R2. eexists. split; [reflexivity|]. repeat split; cbn [snd live fresh]; auto.
  inversion Fr as [|a l _ F1]; subst. now inversion F1.
Qed.
Print Assumptions C62_uninit.

Theorem C62_uninit_twice : forall others st, off others st -> key_uninit st = Abort.
Proof. intros others [g h] (Hs & _). cbn [fst] in Hs. unfold key_uninit. now rewrite Hs. Qed.
Print Assumptions C62_uninit_twice.

(** Any history: the legal ones (init and uninit alternate, starting with init) run to the end, and the library then
    owns two live contexts or none; every other one aborts. *)
Theorem C62_history : forall others ops st, off others st -> Forall (fun op => match op with OpInit o => healthy o | OpUninit => True end) ops ->
  match legal false ops with
  | Some true => exists st', run ops st = Ok (Returned st') /\ on others st'
  | Some false => exists st', run ops st = Ok (Returned st') /\ off others st'
  | None => run ops st = Abort
  end.
Proof.
  intros others ops.
  assert (Gen : Forall (fun op => match op with OpInit o => healthy o | OpUninit => True end) ops ->
    forall (b : bool) st, (if b then on others st else off others st) ->
    match legal b ops with
    | Some true => exists st', run ops st = Ok (Returned st') /\ on others st'
    | Some false => exists st', run ops st = Ok (Returned st') /\ off others st'
    | None => run ops st = Abort
    end).
  { induction ops as [|op ops IH]; intros F b st H.
    - cbn [legal run]. destruct b; eauto.
    - inversion F as [|? ? Ho F']; subst. specialize (IH F'). destruct op as [o|]; cbn [legal run]; destruct b.
      + now rewrite (C62_init_twice others st o 32 H).
      + destruct (C62_init others st o 32 H Ho) as (st' & E & H'); [lia|]. rewrite E. cbn [bind]. exact (IH true st' H').
      + destruct (C62_uninit others st H) as (st' & E & H'). rewrite E. cbn [bind]. exact (IH false st' H').
      + now rewrite (C62_uninit_twice others st H). }
  intros st H F. exact (Gen F false st H).
Qed.
Print Assumptions C62_history.

(* ---------------------------------------------------------------- *)
(** ** Concrete cases *)
(** A toy signature whose first attempt has a high R, so the loop runs. *)
Definition high_key : list Z := be_bytes 32 (2 ^ 255 - 1).
Definition small_hash : list Z := be_bytes 32 0.
Example attempt_high : attempt toy high_key small_hash 0 = Some (2 ^ 255, 1).
Proof. vm_compute. reflexivity. Qed.
Example sign_example : key_sign 5 toy ready_example (be_bytes 32 77) small_hash = Ok (Returned (78, 1)).
Proof. vm_compute. reflexivity. Qed.
(** Attempt 0 has a high R; attempt 1 wraps around to a low one. *)
Definition wrap_key : list Z := be_bytes 32 (secp_n - 3).
Example sign_grinds : key_sign 5 toy ready_example wrap_key small_hash = Ok (Returned (1, 4)) /\ attempt toy wrap_key small_hash 0 = Some (secp_n - 2, 1) /\
  attempt toy wrap_key small_hash 1 = Some (1, 4).
Proof. vm_compute. repeat split. Qed.
Definition full_reader (d : list Z) : os := {| os_open := true; os_read := fun _ n => if (n =? 32)%nat then Some d else None |}.
Example full_reader_ok : read_contract (full_reader (be_bytes 32 5)) /\ delivers (full_reader (be_bytes 32 5)) (be_bytes 32 5) /\ healthy (full_reader (be_bytes 32 5)).
Proof.
  assert (C : read_contract (full_reader (be_bytes 32 5))).
  { intros i n data. cbn [full_reader os_read]. destruct (Nat.eqb_spec n 32) as [-> |]; [|discriminate]. intros H. injection H as <-.
    rewrite be_bytes_length. change INT_MAX with 2147483647. lia. }
  split; [exact C|]. split; [repeat split|]. split; [exact C|]. split; [reflexivity|]. exists [be_bytes 32 5].
  apply (reads_step _ 0 32 (be_bytes 32 5) []); [lia|reflexivity|]. rewrite be_bytes_length. constructor.
Qed.
Definition null_state : globals * ctx_heap := (mkGlobals None None, mkHeap [] 0).
Example null_state_off : off [] null_state.
Proof. repeat split; constructor. Qed.
Example history_example : run [OpInit (full_reader (be_bytes 32 5)); OpUninit; OpInit (full_reader (be_bytes 32 5)); OpUninit] null_state
  = Ok (Returned (mkGlobals None None, mkHeap [] 4)).
Proof. vm_compute. reflexivity. Qed.

(** An operating system without a random device, and one whose reads fail. *)
Definition no_device : os := {| os_open := false; os_read := fun _ _ => None |}.
Definition broken_device : os := {| os_open := true; os_read := fun _ _ => None |}.
Example broken_device_ok : read_contract no_device /\ read_contract broken_device /\ os_open no_device = false /\ read_fails broken_device 0 32.
Proof. repeat split; try (intros; discriminate); try discriminate. apply fails_now; [lia|reflexivity]. Qed.
Example init_no_device : key_init 32 no_device null_state = Ok Fatal /\ key_init 32 broken_device null_state = Ok Fatal.
Proof. split; reflexivity. Qed.
