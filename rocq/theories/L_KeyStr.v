(** Decoding of a Base58Check string into a fixed buffer, as key.c and exkey.c do it. *)
From Verif Require Import Base S_Words S_Sha2 L_Endian M_Endian M_Hash M_Base58 S_Base58 L_Base58 M_Base58Check S_Base58Check L_Base58Check S_Address L_Address S_Key.

Lemma b58_decodes_fun text d e : bytes d -> bytes e -> b58_decodes text d -> b58_decodes text e -> d = e.
Proof.
  intros Hd He (b1 & T1 & B1) (b2 & T2 & B2). rewrite (trims_fun text b1 b2) in B1 by eauto using alpha_of.
  exact (is_base58_inj _ _ _ Hd He B1 B2).
Qed.

Lemma b58_decodes_address prefix payload text : base58_address prefix payload text <->
  b58_decodes text ((prefix ++ payload) ++ checksum4 (prefix ++ payload)).
Proof. reflexivity. Qed.

Lemma app_tail_inj (a b c d : list Z) : length c = length d -> a ++ c = b ++ d -> a = b /\ c = d.
Proof.
  intros L H. assert (La : length a = length b) by (apply (f_equal (@length Z)) in H; rewrite !app_length in H; lia).
  revert b La H. induction a as [|x a IH]; intros [|y b] La H; try discriminate; [auto|].
  injection H as -> H. injection La as La. destruct (IH b La H) as [-> ->]. auto.
Qed.

Lemma checksum_split x y : x ++ checksum4 x = y ++ checksum4 y -> x = y.
Proof. intros H. apply app_tail_inj in H as [H _]; [exact H|]. now rewrite !checksum4_length. Qed.

(** The three outcomes of decoding, with what is written to the output. *)
Lemma string_decoding text rest : Forall (fun c => 0 < c < 128) text -> Z.of_nat (length text) * 733 <= INT_MAX ->
  (exists data, bytes data /\ b58_decodes text (data ++ checksum4 data) /\
     from_base58_check (text ++ 0 :: rest) (length text) = Ok (length data, data ++ checksum4 data)) \/
  (exists out, bytes out /\ b58_decodes text out /\ (forall data, out <> data ++ checksum4 data) /\
     from_base58_check (text ++ 0 :: rest) (length text) = Ok (0%nat, out)) \/
  ((forall d, ~ b58_decodes text d) /\ from_base58_check (text ++ 0 :: rest) (length text) = Ok (0%nat, [])).
Proof.
  intros A H. destruct (from_base58_check_cases text rest A H) as (n & out & E & En & Bo & R).
  destruct (from_base58_cases text rest A H) as [(b & o & T & F & B & Bo' & _ & _ & E')|[N E']].
  - rewrite E' in E. injection E as _ <-. assert (D : b58_decodes text o) by (exists b; auto).
    rewrite R. destruct ((4 <=? n)%nat && bytes_eqb _ _) eqn:Ec.
    + left. apply andb_true_iff in Ec as [E4 Ec]. apply Nat.leb_le in E4. apply bytes_eqb_eq in Ec.
      exists (firstn (n - 4) o). rewrite Ec, firstn_skipn. split; [now apply bytes_firstn|]. split; [exact D|].
      f_equal. f_equal. rewrite firstn_length. lia.
    + right. left. exists o. split; [exact Bo|]. split; [exact D|]. split; [|reflexivity].
      intros data ->. rewrite app_length, checksum4_length in En. replace (n - 4)%nat with (length data) in Ec by lia.
      rewrite firstn_app_exact, skipn_app_exact, (proj2 (bytes_eqb_eq _ _) eq_refl) in Ec. lia.
  - right. right. split.
    + intros d (body & T & B). apply N. exists body. split; [exact T|]. eauto using alpha_of.
    + rewrite R. rewrite E' in E. injection E as <- <-. reflexivity.
Qed.

Lemma b58_decodes_length text d : Forall (fun c => 0 < c < 128) text -> Z.of_nat (length text) * 733 <= INT_MAX ->
  bytes d -> b58_decodes text d -> (length d <= length text)%nat.
Proof.
  intros A H Hd D. destruct (from_base58_cases text [] A H) as [(b & o & T & F & B & Bo & L & _)|[N _]].
  - rewrite (b58_decodes_fun text d o Hd Bo D); [exact L|]. exists b. auto.
  - exfalso. destruct D as (body & T & B). apply N. exists body. split; [exact T|]. eauto using alpha_of.
Qed.

Lemma store_into (cap : nat) (out : list Z) : store (uninit cap) 0 out =
  if (length out <=? cap)%nat then Ok (out ++ uninit (cap - length out)) else UB.
Proof.
  unfold store. rewrite uninit_length. cbn [Nat.add firstn app]. rewrite skipn_uninit. reflexivity.
Qed.
Lemma store_into_small cap out : (length out <= cap)%nat -> store (uninit cap) 0 out = Ok (out ++ uninit (cap - length out)).
Proof. intros H. rewrite store_into. apply Nat.leb_le in H. now rewrite H. Qed.
Lemma store_into_big cap out : (cap < length out)%nat -> store (uninit cap) 0 out = UB.
Proof. intros H. rewrite store_into. apply Nat.leb_gt in H. now rewrite H. Qed.

(** A bound on the length of a base 58 text. *)
Lemma b58_text_length (N M : nat) d text : (N <= M)%nat ->
  forallb (fun z => 256 ^ (Z.of_nat N - z) <=? 58 ^ (Z.of_nat M - z)) (zrange (S N)) = true ->
  bytes d -> (length d <= N)%nat -> is_base58 d text -> (length text <= M)%nat.
Proof.
  intros NM F Bd Ld (z & r & ds & Ed & Hr & (Fd & V & Z0) & ->). rewrite app_length, repeat_length, map_length.
  rewrite Ed, app_length, repeat_length in Ld. rewrite Ed in Bd. apply bytes_app in Bd as [_ Br].
  destruct (Nat.le_gt_cases (z + length ds) M) as [|Hgt]; [assumption|exfalso].
  destruct ds as [|x ds]; [cbn [length] in Hgt; lia|]. cbn [length] in Hgt.
  assert (Hx : x <> 0) by (intros ->; now apply (Z0 ds)).
  pose proof (numeral_nonzero 58 x ds ltac:(lia) Fd Hx) as B1.
  pose proof (numeral_bound 256 r ltac:(lia) Br) as B2. rewrite V in B1.
  assert (Hz : 0 <= Z.of_nat z < Z.of_nat (S N)) by lia.
  pose proof (sweep1 (S N) _ F (Z.of_nat z) Hz) as B3. cbv beta in B3. apply Z.leb_le in B3.
  assert (B4 : 256 ^ Z.of_nat (length r) <= 256 ^ (Z.of_nat N - Z.of_nat z)) by (apply Z.pow_le_mono_r; lia).
  assert (B5 : 58 ^ (Z.of_nat M - Z.of_nat z) <= 58 ^ Z.of_nat (length ds)) by (apply Z.pow_le_mono_r; lia).
  lia.
Qed.
