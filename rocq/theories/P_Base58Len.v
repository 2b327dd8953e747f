(** C29: exactly what the length given to fingera_from_base58 does. *)
From Verif Require Import Base L_Endian M_Base58 S_Base58 L_Base58 P_Base58.

Lemma carry_over b carry len : 0 <= carry -> digits 256 b -> Forall (fun d => d = 0) (skipn len b) ->
  256 ^ Z.of_nat (length b) <= carry + 58 * lval 256 b ->
  exists c i b', carry_loop 58 256 carry 0 len b = (c, i, b') /\ c <> 0.
Proof.
  intros Hc Hd Hz Hge. destruct (carry_loop 58 256 carry 0 len b) as [[c' i'] b'] eqn:E.
  destruct (carry_loop_spec 58 256 ltac:(lia) ltac:(lia) b carry 0 len c' i' b') as (V & L & D & C & _); try assumption.
  { rewrite Nat.sub_0_r. exact Hz. }
  exists c', i', b'. split; [reflexivity|]. intros ->.
  assert (lval 256 b' < 256 ^ Z.of_nat (length b')) by (rewrite <- lval_rev, <- rev_length; apply numeral_bound; [lia|apply Forall_rev; exact D]).
  rewrite L in H. lia.
Qed.

Lemma from_loop_over ds : digits 58 ds -> forall len b acc tail, digits 256 b -> Forall (fun d => d = 0) (skipn len b) ->
  (len <= length b)%nat -> lval 256 b = acc -> 0 <= acc < 256 ^ Z.of_nat (length b) ->
  256 ^ Z.of_nat (length b) <= acc * 58 ^ Z.of_nat (length ds) + numeral_value 58 ds ->
  from_base58_loop (map b58_char ds ++ tail) len b = Abort.
Proof.
  intros Hb. induction Hb as [|x ds Hx Hb IH]; intros len b acc tail Hd Hz Hl Hv Ha Hge.
  - exfalso. unfold numeral_value in Hge. cbn in Hge. lia.
  - cbn [map app from_base58_loop length] in *. rewrite numeral_value_cons in *.
    rewrite Nat2Z.inj_succ, Z.pow_succ_r in * by lia.
    destruct (dec_digit x Hx) as (D1 & D2 & D3 & D4 & _).
    destruct (Z.eqb_spec (b58_char x) 0) as [E0|_]; [unfold is_ascii in D2; lia|].
    rewrite isspace_ascii by (left; exact D2). rewrite D3. cbn [bind]. rewrite D1.
    destruct (Z.eqb_spec x (-1)); [lia|].
    destruct (Z.lt_ge_cases (x + 58 * acc) (256 ^ Z.of_nat (length b))) as [Hlt|Hov].
    + destruct (carry_step 58 256 ltac:(lia) ltac:(lia) b x len ltac:(lia) Hd Hz) as (i' & b' & E & V & L & D & I & Z'); [subst acc; exact Hlt|].
      rewrite E. cbn [Z.eqb c_assert bind]. apply (IH i' b' (acc * 58 + x)); rewrite ?L; try assumption; try lia.
    + destruct (carry_over b x len ltac:(lia) Hd Hz) as (c & i' & b' & E & Hc); [subst acc; exact Hov|].
      rewrite E. destruct (Z.eqb_spec c 0); [contradiction|]. reflexivity.
Qed.

(** The parts of a text: white space, leading '1's, the other Base58 characters (as digits), and what follows them. *)
Definition parts (text s : list Z) (z : nat) (ds tail : list Z) : Prop :=
  text = s ++ repeat 49 z ++ map b58_char ds ++ tail /\ Forall is_space s /\ Forall (fun d => 0 <= d < 58) ds /\ (forall t, ds <> 0 :: t) /\
  (forall c t, tail = c :: t -> ~ In c b58_alphabet) /\ (z = 0%nat -> ds = [] -> forall c t, tail = c :: t -> ~ is_space c).

(** Every text has such parts. *)
Lemma has_parts text : exists s z ds tail, parts text s z ds tail.
Proof.
  destruct (parse text) as (s1 & body & r3 & E & F1 & Fb & H3 & H1). destruct (alphabet_split body Fb) as (z & ds & Eb & Hd & Hh).
  exists s1, z, ds, r3. split; [rewrite (app_assoc (repeat 49 z)), <- Eb; exact E|].
  split; [eapply Forall_impl; [|exact F1]; intros; apply spaceb_spec; assumption|]. split; [exact Hd|].
  split; [intros t ->; cbn in Hh; discriminate|]. split.
  - intros c t -> I. apply b58ok_spec in I. cbn [head_not] in H3. congruence.
  - intros -> -> c t -> I. apply spaceb_spec in I. rewrite Eb in H1. cbn [head_not repeat map app] in H1. congruence.
Qed.

(** C29, exactly: what the announced length does.  It fixes the room for the number, [room] bytes.  If the digits denote a number that does not
    fit, the assertion fails; if it fits the result is the same as for the right length; and a difference between the length and the white space
    and '1's in front that is too large or too negative is undefined behaviour. *)
Theorem C29_str_len_exact : forall text s z ds tail rest str_len, parts text s z ds tail -> Forall (fun c => 0 < c < 128) text ->
  let n := Z.of_nat str_len - Z.of_nat (length s) - Z.of_nat z in - 2 ^ 31 <= n < 2 ^ 31 ->
  let room := Z.quot (n * 733) 1000 + 1 in
  (n * 733 < - 2 ^ 31 \/ INT_MAX < n * 733 \/ room < 0 -> from_base58 (text ++ 0 :: rest) str_len = UB) /\
  (- 2 ^ 31 <= n * 733 <= INT_MAX -> 0 <= room -> 256 ^ room <= numeral_value 58 ds -> from_base58 (text ++ 0 :: rest) str_len = Abort) /\
  (- 2 ^ 31 <= n * 733 <= INT_MAX -> 0 <= room -> numeral_value 58 ds < 256 ^ room ->
     (Forall is_space tail -> exists ob, is_numeral 256 (numeral_value 58 ds) ob /\
        from_base58 (text ++ 0 :: rest) str_len = Ok ((z + length ob)%nat, repeat 0 z ++ ob)) /\
     (~ Forall is_space tail -> from_base58 (text ++ 0 :: rest) str_len = Ok (0%nat, []))).
Proof.
  intros text s z ds tail rest str_len (Et & F1 & Hd & Hh & H3 & H4) A n Hn room.
  assert (F1' : Forall (fun c => spaceb c = true) s) by (eapply Forall_impl; [|exact F1]; intros; apply spaceb_spec; assumption).
  assert (Hr3 : head_not b58ok tail).
  { destruct tail as [|c t]; [exact I|]. cbn [head_not]. destruct (b58ok c) eqn:E; [|reflexivity]. apply b58ok_spec in E. exfalso. exact (H3 c t eq_refl E). }
  set (r2 := map b58_char ds ++ tail) in *.
  assert (Hsp : head_not spaceb (repeat 49 z ++ r2)).
  { destruct z as [|z]; [|reflexivity]. cbn [repeat app]. unfold r2. destruct ds as [|d ds].
    - cbn [map app]. destruct tail as [|c t]; [exact I|]. cbn [head_not]. destruct (spaceb c) eqn:E; [|reflexivity]. apply spaceb_spec in E. exfalso. exact (H4 eq_refl eq_refl c t eq_refl E).
    - cbn [map app head_not]. inversion Hd; subst. apply b58_char_ok. assumption. }
  assert (Hh49 : head_not (Z.eqb 49) r2).
  { unfold r2. destruct ds as [|d ds].
    - cbn [map app]. destruct tail as [|c r3]; [exact I|]. cbn [head_not] in *. destruct (Z.eqb_spec 49 c); [subst; discriminate Hr3|reflexivity].
    - cbn [head_not map app] in *. inversion Hd; subst. destruct (dec_digit d) as (_ & _ & _ & _ & G); [assumption|].
      assert (d <> 0) by (intros ->; exact (Hh _ eq_refl)). lia. }
  assert (St : from_base58 (text ++ 0 :: rest) str_len =
    (_ <- c_defined ((- 2 ^ 31 <=? n * 733) && (n * 733 <=? INT_MAX)) ;;
     _ <- c_defined (0 <=? room) ;;
     o <- from_base58_loop (r2 ++ 0 :: rest) 0 (repeat 0 (Z.to_nat room)) ;;
     match o with
     | None => Ok (O, [])
     | Some (len, b256, s3) => s4 <- skip_trailing_spaces s3 ;; c <- rd s4 0 ;;
        if negb (c =? 0) then Ok (O, []) else let out := repeat 0 z ++ result_digits len b256 in Ok (length out, out)
     end)).
  { unfold from_base58. rewrite Et, <- !app_assoc.
    replace (s ++ repeat 49 z ++ r2 ++ 0 :: rest) with (s ++ (repeat 49 z ++ r2) ++ 0 :: rest) by (rewrite <- app_assoc; reflexivity).
    rewrite skip_lead; [|exact F1'|exact Hsp|rewrite <- Et; exact A]. cbn [bind]. rewrite <- app_assoc, skip_ones_spec by exact Hh49. cbn [bind].
    rewrite to_int_small by exact Hn. reflexivity. }
  rewrite St. clear St. split; [|split].
  - intros H. destruct ((- 2 ^ 31 <=? n * 733) && (n * 733 <=? INT_MAX)) eqn:E; [|reflexivity]. cbn [c_defined bind].
    replace (0 <=? room) with false by lia. reflexivity.
  - intros H1 H2 H. replace ((- 2 ^ 31 <=? n * 733) && (n * 733 <=? INT_MAX)) with true by lia. replace (0 <=? room) with true by lia. cbn [c_defined bind].
    unfold r2. rewrite <- app_assoc. rewrite (from_loop_over ds Hd 0 (repeat 0 (Z.to_nat room)) 0); [reflexivity|..].
    + apply Forall_forall. intros d Hd'. apply repeat_spec in Hd'. lia.
    + apply Forall_forall. intros d Hd'. apply repeat_spec in Hd'. lia.
    + lia.
    + apply lval_zero, Forall_forall. intros d Hd'. apply repeat_spec in Hd'. exact Hd'.
    + rewrite repeat_length. lia.
    + rewrite repeat_length, Z2Nat.id by exact H2. lia.
  - intros H1 H2 H. replace ((- 2 ^ 31 <=? n * 733) && (n * 733 <=? INT_MAX)) with true by lia. replace (0 <=? room) with true by lia. cbn [c_defined bind].
    unfold r2. rewrite <- app_assoc.
    destruct (from_loop_spec ds Hd 0 (repeat 0 (Z.to_nat room)) 0 (tail ++ 0 :: rest)) as (len & b & E & D & Z0 & Hle & Hlb & V).
    + apply Forall_forall. intros d Hd'. apply repeat_spec in Hd'. lia.
    + apply Forall_forall. intros d Hd'. apply repeat_spec in Hd'. lia.
    + lia.
    + apply lval_zero, Forall_forall. intros d Hd'. apply repeat_spec in Hd'. exact Hd'.
    + lia.
    + rewrite repeat_length, Z2Nat.id by exact H2. lia.
    + rewrite E. pose proof (result_digits_spec 256 len b ltac:(lia) D Z0) as N.
      rewrite V in N. replace (0 * _ + _) with (numeral_value 58 ds) in N by lia.
      assert (A3 : Forall is_ascii tail) by (rewrite Et in A; unfold r2 in A; rewrite !Forall_app in A; tauto).
      assert (X : (o <- from_base58_loop (tail ++ 0 :: rest) len b;; match o with
        | None => Ok (O, [])
        | Some (len, b256, s3) => s4 <- skip_trailing_spaces s3 ;; c <- rd s4 0 ;;
           if negb (c =? 0) then Ok (O, []) else let out := repeat 0 z ++ result_digits len b256 in Ok (length out, out) end) =
        if forallb spaceb tail then Ok (length (repeat 0 z ++ result_digits len b), repeat 0 z ++ result_digits len b) else Ok (0%nat, [])).
      { destruct (decompose spaceb tail) as (s2 & r4 & E3 & F2 & Hr4).
        destruct s2 as [|y s2].
        - cbn [app] in E3. subst r4. destruct tail as [|c r3].
          + cbn [app from_base58_loop Z.eqb bind skip_trailing_spaces isspace as_char]. reflexivity.
          + cbn [head_not] in Hr4, Hr3. cbn [app from_base58_loop forallb]. inversion A3 as [|? ? Ac A3']; subst.
            rewrite Hr4. cbn [andb]. rewrite isspace_ascii by (left; exact Ac). rewrite Hr4. cbn [bind].
            destruct (Z.eqb_spec c 0); [unfold is_ascii in Ac; lia|].
            rewrite dec_bad by (unfold is_ascii in Ac; lia). rewrite Hr3. reflexivity.
        - rewrite E3 in A3 |- *. clear E3 Hr3. cbn [app] in *. inversion A3 as [|? ? Ay A3']; subst. inversion F2 as [|? ? Hy F2']; subst.
          cbn [from_base58_loop]. destruct (Z.eqb_spec y 0); [unfold is_ascii in Ay; lia|].
          rewrite isspace_ascii by (left; exact Ay). rewrite Hy. cbn [bind].
          rewrite <- app_assoc, !app_comm_cons, skip_trail by (assumption || (constructor; assumption)). cbn [bind].
          cbn [app forallb]. rewrite Hy. cbn [andb]. rewrite forallb_app.
          replace (forallb spaceb s2) with true by (symmetry; apply forallb_forall; intros x Hx; exact (proj1 (Forall_forall _ _) F2' x Hx)).
          cbn [andb]. destruct r4 as [|c r4].
          + cbn. reflexivity.
          + cbn [head_not] in Hr4. cbn [forallb app rd nth_error bind]. rewrite Hr4. cbn [andb].
            apply Forall_app in A3'. destruct A3' as [_ A4]. inversion A4 as [|? ? Ac A4']; subst.
            destruct (Z.eqb_spec c 0); [unfold is_ascii in Ac; lia|reflexivity]. }
      split.
      * intros Sp. replace (forallb spaceb tail) with true in X by (symmetry; apply forallb_forall; intros x Hx; apply spaceb_spec; exact (proj1 (Forall_forall _ _) Sp x Hx)).
        exists (result_digits len b). split; [exact N|]. etransitivity; [exact X|]. now rewrite app_length, repeat_length.
      * intros Sp. etransitivity; [exact X|]. destruct (forallb spaceb tail) eqn:Eb; [|reflexivity]. exfalso. apply Sp. apply Forall_forall. intros x Hx. apply spaceb_spec. rewrite forallb_forall in Eb. auto.
Qed.
Print Assumptions C29_str_len_exact.

(** C29 holds for lengths that are too large: from the number of characters on (as far as int goes) the length given makes no difference. *)
Theorem C29_longer_length : forall text rest str_len, Forall (fun c => 0 < c < 128) text -> (length text <= str_len)%nat -> Z.of_nat str_len * 733 <= INT_MAX ->
  from_base58 (text ++ 0 :: rest) str_len = from_base58 (text ++ 0 :: rest) (length text).
Proof.
  intros text rest str_len A L HI. destruct (has_parts text) as (s & z & ds & tail & P). pose proof P as (Et & _ & Hd & _).
  assert (Lt : length text = (length s + z + length ds + length tail)%nat) by (rewrite Et, !app_length, repeat_length, map_length; lia).
  unfold INT_MAX in HI.
  assert (G : forall m, (length text <= m)%nat -> Z.of_nat m * 733 <= 2147483647 -> let n := Z.of_nat m - Z.of_nat (length s) - Z.of_nat z in
     - 2 ^ 31 <= n < 2 ^ 31 /\ - 2 ^ 31 <= n * 733 <= INT_MAX /\ 0 <= Z.quot (n * 733) 1000 + 1 /\ numeral_value 58 ds < 256 ^ (Z.quot (n * 733) 1000 + 1)).
  { intros m Hm HIm n. unfold INT_MAX. split; [lia|]. split; [lia|]. rewrite Z.quot_div_nonneg by lia.
    assert (0 <= n * 733 / 1000) by (apply Z.div_pos; lia). split; [lia|].
    pose proof (numeral_bound 58 ds ltac:(lia) Hd). pose proof (enough256 (length ds)).
    assert (256 ^ Z.of_nat (length ds * 733 / 1000 + 1) <= 256 ^ (n * 733 / 1000 + 1)); [|lia].
    apply Z.pow_le_mono_r; [lia|]. rewrite Nat2Z.inj_add, Nat2Z.inj_div, Nat2Z.inj_mul. change (Z.of_nat 733) with 733. change (Z.of_nat 1000) with 1000. change (Z.of_nat 1) with 1.
    assert (Z.of_nat (length ds) * 733 / 1000 <= n * 733 / 1000) by (apply Z.div_le_mono; lia). lia. }
  destruct (G str_len L HI) as (G1 & G2 & G3 & G4). destruct (G (length text) (le_n _) ltac:(lia)) as (K1 & K2 & K3 & K4).
  destruct (C29_str_len_exact text s z ds tail rest str_len P A G1) as (_ & _ & X). specialize (X G2 G3 G4).
  destruct (C29_str_len_exact text s z ds tail rest (length text) P A K1) as (_ & _ & Y). specialize (Y K2 K3 K4).
  destruct (forallb spaceb tail) eqn:Sp.
  - assert (F : Forall is_space tail) by (apply Forall_forall; intros x Hx; apply spaceb_spec; rewrite forallb_forall in Sp; auto).
    destruct X as [X _]. destruct Y as [Y _]. destruct (X F) as (o1 & N1 & ->). destruct (Y F) as (o2 & N2 & ->).
    rewrite (is_numeral_unique 256 (numeral_value 58 ds) o1 o2) by (lia || assumption). reflexivity.
  - assert (F : ~ Forall is_space tail).
    { intros F. assert (forallb spaceb tail = true); [|congruence]. apply forallb_forall. intros x Hx. apply spaceb_spec. exact (proj1 (Forall_forall _ _) F x Hx). }
    destruct X as [_ X]. destruct Y as [_ Y]. rewrite (X F), (Y F). reflexivity.
Qed.
Print Assumptions C29_longer_length.

(** " 1zz" with length 2 (room for one byte: the assertion fails), 4 and 100. *)
Example C29_exact_cases : parts [32; 49; 122; 122] [32] 1 [57; 57] [] /\ from_base58 [32; 49; 122; 122; 0] 2 = Abort /\
  from_base58 [32; 49; 122; 122; 0] 4 = Ok (3%nat, [0; 13; 35]) /\ from_base58 [32; 49; 122; 122; 0] 100 = Ok (3%nat, [0; 13; 35]).
Proof.
  split; [|split; [|split]; vm_compute; reflexivity]. split; [reflexivity|]. split; [constructor; [left; reflexivity|constructor]|].
  split; [repeat constructor; lia|]. split; [discriminate|]. split; discriminate.
Qed.
