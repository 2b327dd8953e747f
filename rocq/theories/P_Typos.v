(** Properties C113 (mistyped witness addresses) and C114 (characters inserted or dropped). *)
From Verif Require Import Base M_Endian L_Endian S_Bits L_Bits S_Rfc4648 L_Rfc M_Base32 L_Base32 P_Base32 S_Base58 M_Base58 L_Base58 P_Base58
  M_Hash L_Hash S_Base58Check M_Base58Check L_Base58Check P_Base58Check M_Bech32 S_Bech32 L_Bch L_Bech32 P_Bech32 M_Address S_Address L_Address P_Address.

(** Whatever the uninitialised buffer contains, a witness classification means a valid Bech32 text of the network. *)
Lemma witness_is_bech32 p text rest out_size stack r : builtin p -> Forall (fun c => 0 < c < 128) text -> Z.of_nat (length text) * 733 <= INT_MAX ->
  address_decode (text ++ 0 :: rest) (length text) out_size p stack = Ok r -> is_witness (a_kind r) ->
  exists ver vals, bech32_valid text (cp_hrp p) (ver :: vals).
Proof.
  intros Hp A Hl E W. destruct (builtin_facts p Hp) as (_ & _ & _ & _ & a & b & Ea & Eb & Ba & Bb & _).
  assert (NW : ~ is_witness BAD_ADDRESS /\ ~ is_witness PUBKEY_ADDRESS /\ ~ is_witness SCRIPT_ADDRESS) by (unfold is_witness; repeat split; intuition discriminate).
  destruct (address_total text rest out_size p stack A Hl ltac:(rewrite Ea; discriminate) ltac:(rewrite Eb; discriminate)
    ltac:(rewrite Ea; repeat constructor; apply Ba) ltac:(rewrite Eb; repeat constructor; apply Bb)) as [(_ & D)|[(_ & pl & out & _ & _ & _ & _ & _ & [(_ & _ & D)|(_ & _ & _ & D)])|(_ & _ & out & _ & _ & _ & D)]].
  - rewrite D in E. injection E as <-. cbn [a_kind] in W. tauto.
  - rewrite D in E. injection E as <-. cbn [a_kind] in W. tauto.
  - rewrite D in E. injection E as <-. cbn [a_kind] in W. tauto.
  - rewrite D in E. unfold decode_bech32 in E. apply bind_Ok in E as (x & E1 & E2).
    destruct ((b_ret x <? 1) || negb (b_hrp_size x =? length (cp_hrp p))%nat || negb (bytes_eqb (b_hrp x) (cp_hrp p))) eqn:C.
    + injection E2 as <-. cbn [a_kind] in W. tauto.
    + apply orb_false_iff in C as [C C3]. apply orb_false_iff in C as [C1 C2]. apply negb_false_iff in C3. apply bytes_eqb_eq in C3.
      assert (A' : Forall (fun c => 0 < c < 256) text) by (eapply Forall_impl; [|exact A]; cbv beta; intros; lia).
      destruct (C36_bech32_language text rest 16 A') as (_ & r' & R & V). rewrite R in E1. injection E1 as ->.
      destruct (V ltac:(lia)) as (V1 & _ & V2 & _). rewrite C3 in V1. destruct (b_data x) as [|ver vals] eqn:Ed; [cbn [length] in V2; lia|].
      exists ver, vals. exact V1.
Qed.

Lemma hamming_zero (a : list Z) : hamming a a = 0%nat.
Proof. induction a as [|x a IH]; [reflexivity|]. cbn [hamming]. now rewrite Z.eqb_refl, IH. Qed.

Lemma bech32_valid_chars s hrp data : bech32_valid s hrp data -> Forall (fun c => 0 < c < 256) s /\ (length s <= 90)%nat.
Proof. intros (L & P & _). split; [|exact L]. eapply Forall_impl; [|exact P]. cbv beta. intros. lia. Qed.

(** Two valid texts of one network and one length are equal up to case or differ in five places. *)
Lemma valid_distance s1 s2 hrp d1 d2 : bech32_valid s1 hrp d1 -> bech32_valid s2 hrp d2 -> length s1 = length s2 ->
  map tolower s1 = map tolower s2 \/ (5 <= hamming (map tolower s1) (map tolower s2))%nat.
Proof.
  intros V1 V2 L. destruct (list_eq_dec Z.eq_dec (map tolower s1) (map tolower s2)) as [E|N]; [left; exact E|right].
  destruct (bech32_valid_chars _ _ _ V1) as [A1 L1]. destruct (bech32_valid_chars _ _ _ V2) as [A2 L2].
  assert (Hh : (length hrp <= 90)%nat).
  { destruct V1 as (_ & _ & _ & h & d & chk & Es & _ & _ & -> & _). rewrite map_length. rewrite Es, app_length in L1. lia. }
  destruct (C36_bech32_language s1 [] 90 A1) as (G1 & _). destruct (C36_bech32_language s2 [] 90 A2) as (G2 & _).
  pose proof (G1 _ _ V1 Hh) as E1. pose proof (G2 _ _ V2 Hh) as E2.
  eapply (C37_bech32_distance s1 s2 [] [] 90); [exact A1|exact A2|exact L|exact E1|cbn; lia|exact E2|cbn; lia|reflexivity|exact N].
Qed.

Lemma mistyped p text ver vals text' rest' out_size' stack' : builtin p -> bech32_valid text (cp_hrp p) (ver :: vals) ->
  Forall (fun c => 0 < c < 128) text' -> length text' = length text -> (1 <= hamming (map tolower text) (map tolower text') <= 4)%nat ->
  exists r', address_decode (text' ++ 0 :: rest') (length text') out_size' p stack' = Ok r' /\ ~ is_witness (a_kind r') /\
    (~ also_base58 (cp_pubkey p) (cp_script p) text' -> a_kind r' = BAD_ADDRESS).
Proof.
  intros Hp V A' L' H.
  assert (N : ~ exists ver vals, bech32_valid text' (cp_hrp p) (ver :: vals)).
  { intros (ver' & vals' & V'). destruct (valid_distance _ _ _ _ _ V V' ltac:(congruence)) as [Q|Q]; [|lia].
    rewrite Q, hamming_zero in H. lia. }
  assert (Hl : Z.of_nat (length text') * 733 <= INT_MAX).
  { destruct (bech32_valid_chars _ _ _ V) as [_ L90]. rewrite L'. change INT_MAX with 2147483647. lia. }
  destruct (builtin_facts p Hp) as (_ & _ & _ & _ & a & b & Ea & Eb & Ba & Bb & _).
  destruct (address_total text' rest' out_size' p stack' A' Hl ltac:(rewrite Ea; discriminate) ltac:(rewrite Eb; discriminate)
    ltac:(rewrite Ea; repeat constructor; apply Ba) ltac:(rewrite Eb; repeat constructor; apply Bb)) as [(_ & D)|[(_ & pl & out & Bpl & _ & _ & _ & _ & [(B & _ & D)|(B & _ & _ & D)])|(_ & _ & out & _ & _ & _ & D)]];
    rewrite D.
  - eexists. split; [reflexivity|]. cbn [a_kind]. split; [unfold is_witness; intuition discriminate|reflexivity].
  - eexists. split; [reflexivity|]. cbn [a_kind]. split; [unfold is_witness; intuition discriminate|]. intros NA. destruct NA. exists pl. auto.
  - eexists. split; [reflexivity|]. cbn [a_kind]. split; [unfold is_witness; intuition discriminate|]. intros NA. destruct NA. exists pl. auto.
  - assert (A2 : Forall (fun c => 0 < c < 256) text') by (eapply Forall_impl; [|exact A']; cbv beta; intros; lia).
    rewrite (decode_bech32_bad text' rest' p stack' out out_size' A2 N). eexists. split; [reflexivity|]. cbn [a_kind].
    split; [unfold is_witness; intuition discriminate|reflexivity].
Qed.

(** C113: [text] is a text the decoder takes for a witness address of network [p].  Change one to four of its characters (anywhere, not
    just their case).  Then the decoder is defined, whatever the uninitialised memory contains, and says bad address, unless the new text
    has become a Base58Check text of the network; it never takes it for a witness address. *)
Theorem C113_mistyped_witness_address : forall p text rest out_size stack r, builtin p ->
  Forall (fun c => 0 < c < 128) text -> Z.of_nat (length text) * 733 <= INT_MAX ->
  address_decode (text ++ 0 :: rest) (length text) out_size p stack = Ok r -> is_witness (a_kind r) ->
  forall text' rest' out_size' stack', Forall (fun c => 0 < c < 128) text' -> length text' = length text ->
  (1 <= hamming (map tolower text) (map tolower text') <= 4)%nat ->
  exists r', address_decode (text' ++ 0 :: rest') (length text') out_size' p stack' = Ok r' /\ ~ is_witness (a_kind r') /\
    (~ also_base58 (cp_pubkey p) (cp_script p) text' -> a_kind r' = BAD_ADDRESS).
Proof.
  intros p text rest out_size stack r Hp A Hl E W text' rest' out_size' stack' A' L' H.
  destruct (witness_is_bech32 p text rest out_size stack r Hp A Hl E W) as (ver & vals & V).
  exact (mistyped p text ver vals text' rest' out_size' stack' Hp V A' L' H).
Qed.
Print Assumptions C113_mistyped_witness_address.

(** In particular for what the three encoders write (C45). *)
Theorem C113_mistyped_encoded_address : forall p ver prog, builtin p -> bytes prog ->
  (ver = 0 /\ (length prog = 20 \/ length prog = 32)%nat) \/ (1 <= ver <= 16 /\ (2 <= length prog <= 40)%nat) ->
  forall text rest out_size stack, Forall (fun c => 0 < c < 128) text -> length text = length (witness_text (cp_hrp p) ver prog) ->
  (1 <= hamming (witness_text (cp_hrp p) ver prog) (map tolower text) <= 4)%nat ->
  exists r, address_decode (text ++ 0 :: rest) (length text) out_size p stack = Ok r /\ ~ is_witness (a_kind r) /\
    (~ also_base58 (cp_pubkey p) (cp_script p) text -> a_kind r = BAD_ADDRESS).
Proof.
  intros p ver prog Hp Bp Hv text' rest' out_size' stack' A' L' H.
  assert (V : bech32_valid (witness_text (cp_hrp p) ver prog) (cp_hrp p) (ver :: regroup_pad 5 prog)).
  { apply witness_valid; [exact Hp|exact Bp|unfold sym; lia|lia]. }
  destruct (builtin_facts p Hp) as (_ & _ & _ & Bh & _).
  apply (mistyped p _ ver (regroup_pad 5 prog) text' rest' out_size' stack' Hp V A' L'). rewrite (bech32_text _ _ _ Bh V). exact H.
Qed.
Print Assumptions C113_mistyped_encoded_address.

(** Two different characters exchanged, adjacent or not, count as two errors. *)
Lemma hamming_app (a b c d : list Z) : length a = length b -> hamming (a ++ c) (b ++ d) = (hamming a b + hamming c d)%nat.
Proof. revert b. induction a as [|x a IH]; intros [|y b] L; cbn in L; try lia; [reflexivity|]. cbn [app hamming]. rewrite IH by lia. lia. Qed.
Lemma app_inj_len {A} (a b c d : list A) : a ++ c = b ++ d -> length a = length b -> a = b /\ c = d.
Proof. revert b. induction a as [|x a IH]; intros [|y b] E L; cbn in *; try lia; [auto|]. injection E as -> E. destruct (IH b E ltac:(lia)) as [-> ->]. auto. Qed.
Theorem C113_exchanged_characters : forall p ver prog, builtin p -> bytes prog ->
  (ver = 0 /\ (length prog = 20 \/ length prog = 32)%nat) \/ (1 <= ver <= 16 /\ (2 <= length prog <= 40)%nat) ->
  forall a x b y c rest out_size stack, witness_text (cp_hrp p) ver prog = a ++ [x] ++ b ++ [y] ++ c -> x <> y ->
  exists r, address_decode ((a ++ [y] ++ b ++ [x] ++ c) ++ 0 :: rest) (length (a ++ [y] ++ b ++ [x] ++ c)) out_size p stack = Ok r /\ ~ is_witness (a_kind r) /\
    (~ also_base58 (cp_pubkey p) (cp_script p) (a ++ [y] ++ b ++ [x] ++ c) -> a_kind r = BAD_ADDRESS).
Proof.
  intros p ver prog Hp Bp Hv a x b y c rest out_size stack E N.
  assert (V : bech32_valid (witness_text (cp_hrp p) ver prog) (cp_hrp p) (ver :: regroup_pad 5 prog)).
  { apply witness_valid; [exact Hp|exact Bp|unfold sym; lia|lia]. }
  destruct (builtin_facts p Hp) as (_ & _ & _ & Bh & _).
  assert (T : map tolower (a ++ [x] ++ b ++ [y] ++ c) = a ++ [x] ++ b ++ [y] ++ c) by (rewrite <- E; exact (bech32_text _ _ _ Bh V)).
  destruct V as (_ & P & _). rewrite E in P.
  apply C113_mistyped_encoded_address with (ver := ver) (prog := prog); try assumption.
  - assert (P' : Forall printable (a ++ [y] ++ b ++ [x] ++ c)).
    { rewrite !Forall_app in *. tauto. }
    eapply Forall_impl; [|exact P']. unfold printable. cbv beta. intros. lia.
  - rewrite E, !app_length. cbn [length]. lia.
  - rewrite E. rewrite !map_app in *.
    apply app_inj_len in T as [Ta T]; [|now rewrite map_length]. apply app_inj_len in T as [Tx T]; [|reflexivity].
    apply app_inj_len in T as [Tb T]; [|now rewrite map_length]. apply app_inj_len in T as [Ty Tc]; [|reflexivity].
    rewrite Ta, Tx, Tb, Ty, Tc. rewrite !hamming_app by reflexivity. rewrite !hamming_zero. cbn [hamming].
    replace (x =? y) with false by lia. replace (y =? x) with false by lia. lia.
Qed.
Print Assumptions C113_exchanged_characters.

(** * C114: characters inserted or dropped *)
Lemma step_zero_v c v : polymod_step c v = Z.lxor (polymod_step c 0) v.
Proof. rewrite !polymod_step_gen. rewrite Z.lxor_0_r. rewrite !Z.lxor_assoc. f_equal. apply Z.lxor_comm. Qed.

Lemma gen_low : forall b, 0 <= b < 32 -> b = 0 \/ Z.land (gen_of b) 31 <> 0.
Proof.
  intros b H. assert (G : (b =? 0) || negb (Z.land (gen_of b) 31 =? 0) = true).
  { apply (sweep1 32 (fun b => (b =? 0) || negb (Z.land (gen_of b) 31 =? 0))); [vm_compute; reflexivity|exact H]. }
  lia.
Qed.

(** The checksum state in front of a final value 1 is 0. *)
Lemma step_one c : 0 <= c < 2 ^ 30 -> polymod_step c 1 = 1 -> c = 0.
Proof.
  intros H E. rewrite step_zero_v in E.
  assert (E0 : polymod_step c 0 = 0).
  { apply (f_equal (fun x => Z.lxor x 1)) in E. rewrite Z.lxor_assoc, Z.lxor_nilpotent, Z.lxor_0_r in E. exact E. }
  rewrite polymod_step_gen, Z.lxor_0_r in E0. pose proof (top_sym c H) as T. unfold sym in T.
  assert (L : Z.land (gen_of (Z.shiftr c 25)) 31 = 0).
  { apply (f_equal (fun x => Z.land x 31)) in E0. rewrite land_lxor in E0.
    assert (Q : Z.land (Z.shiftl (Z.land c 33554431) 5) 31 = 0).
    { rewrite land31 by (apply Z.shiftl_nonneg, Z.land_nonneg; lia). rewrite Z.shiftl_mul_pow2 by lia. change (2 ^ 5) with 32. apply Z.mod_mul. lia. }
    rewrite Q in E0. exact E0. }
  destruct (gen_low _ T) as [B|B]; [|congruence]. rewrite B in E0. change (gen_of 0) with 0 in E0. rewrite Z.lxor_0_r in E0.
  rewrite Z.shiftl_mul_pow2 in E0 by lia. change (Z.land c 33554431) with (Z.land c (2 ^ 25 - 1)) in E0. rewrite land_ones' in E0 by lia.
  rewrite Z.shiftr_div_pow2 in B by lia. change (2 ^ 5) with 32 in *. change (2 ^ 25) with 33554432 in *. dlia.
Qed.

Lemma zeros_stay k : fold_left polymod_step (repeat 0 k) 0 = 0.
Proof. induction k as [|k IH]; [reflexivity|]. cbn [repeat fold_left]. change (polymod_step 0 0) with 0. exact IH. Qed.

(** Any number of zero values in front of a final 1 leave the checksum valid, and only with them it was valid before. *)
Lemma checksum_zeros hrp vals k : bytes hrp -> Forall sym vals ->
  (bech32_checksum_valid hrp (vals ++ [1]) <-> bech32_checksum_valid hrp (vals ++ repeat 0 k ++ [1])).
Proof.
  intros Bh F. unfold bech32_checksum_valid. rewrite !app_assoc. rewrite (polymod_app ((hrp_expand hrp ++ vals) ++ repeat 0 k)), (polymod_app (hrp_expand hrp ++ vals) [1]).
  rewrite (polymod_app (hrp_expand hrp ++ vals) (repeat 0 k)). cbn [fold_left].
  destruct (checksum_syms hrp vals Bh F) as [_ B]. set (m := polymod (hrp_expand hrp ++ vals)) in *.
  assert (Z0 : Forall sym (repeat 0 k)) by (apply Forall_forall; intros x Hx; apply repeat_spec in Hx; subst; unfold sym; lia).
  split; intros E.
  - apply step_one in E; [|exact B]. rewrite E, zeros_stay. reflexivity.
  - apply step_one in E; [|apply fold_bound; assumption].
    assert (G : forall k m, 0 <= m < 2 ^ 30 -> fold_left polymod_step (repeat 0 k) m = 0 -> m = 0).
    { clear. induction k as [|k IH]; intros m H E; [exact E|]. cbn [repeat fold_left] in E. apply IH in E; [|apply step_bound; lia].
      apply step_one; [exact H|]. rewrite step_zero_v, E. reflexivity. }
    apply G in E; [|exact B]. rewrite E. reflexivity.
Qed.

Lemma last_split (A : Type) (l : list A) : l <> [] -> exists a x, l = a ++ [x].
Proof. intros H. destruct (exists_last H) as (a & x & ->). eauto. Qed.

Lemma upper_ins s k : Exists is_upper (s ++ repeat 113 k ++ [112]) -> Exists is_upper s.
Proof.
  rewrite !Exists_app. intros [H|[H|H]]; [exact H|exfalso|exfalso].
  - apply Exists_exists in H as (x & I & U). apply repeat_spec in I. subst. unfold is_upper in U. lia.
  - inversion H as [? ? U|? ? U]; [unfold is_upper in U; lia|inversion U].
Qed.

(** What valid texts that end in q...qp look like: the values are [vals], zeros, 1. *)
Lemma q_before_p_shape s k hrp : (length s + k + 1 <= 90)%nat ->
  forall data, bech32_valid (s ++ repeat 113 k ++ [112]) hrp data -> (k <= length data)%nat ->
  forall j, (length s + j + 1 <= 90)%nat ->
  exists data', bech32_valid (s ++ repeat 113 j ++ [112]) hrp data' /\ (length data' + k = length data + j)%nat /\
    firstn (length data - k) data' = firstn (length data - k) data.
Proof.
  intros L data (_ & P & NM & h & d & chk & Es & Nh & N1 & Eh & F & L6 & M & V) Hk j Lj.
  assert (Ld : length d = (length data + 6)%nat).
  { apply (f_equal (@length Z)) in M. rewrite !map_length, app_length in M. lia. }
  (* the q's and the p lie in d *)
  assert (Sp : exists d0, d = d0 ++ repeat 113 k ++ [112] /\ s = h ++ [49] ++ d0).
  { assert (Ls : (length s + k + 1 = length h + 1 + length d)%nat).
    { apply (f_equal (@length Z)) in Es. rewrite !app_length, repeat_length in Es. cbn [length] in Es. lia. }
    exists (firstn (length d - (k + 1)) d).
    assert (E2 : s ++ (repeat 113 k ++ [112]) = (h ++ [49] ++ firstn (length d - (k + 1)) d) ++ skipn (length d - (k + 1)) d).
    { rewrite Es. rewrite <- !app_assoc. now rewrite firstn_skipn. }
    apply app_inj_len in E2 as [E2 E3].
    - split; [|exact E2]. rewrite E3. symmetry. apply firstn_skipn.
    - rewrite !app_length, firstn_length. cbn [length]. lia. }
  destruct Sp as (d0 & -> & ->).
  (* the values *)
  assert (Sv : exists vals, data ++ chk = vals ++ repeat 0 k ++ [1] /\ map tolower d0 = map bech32_char vals).
  { assert (Ld0 : length (data ++ chk) = (length d0 + (k + 1))%nat).
    { rewrite app_length. rewrite !app_length, repeat_length in Ld. cbn [length] in Ld. lia. }
    exists (firstn (length d0) (data ++ chk)). rewrite !map_app in M.
    assert (M2 : map tolower d0 ++ (map tolower (repeat 113 k) ++ map tolower [112]) =
       map bech32_char (firstn (length d0) (data ++ chk)) ++ map bech32_char (skipn (length d0) (data ++ chk))).
    { rewrite <- (map_app bech32_char), firstn_skipn, (map_app bech32_char). exact M. }
    apply app_inj_len in M2 as [M2 M3]; [|rewrite !map_length, firstn_length; lia]. split; [|exact M2].
    rewrite <- (firstn_skipn (length d0) (data ++ chk)) at 1. f_equal.
    apply map_char_inj; [apply Forall_skipn; exact F| |].
    - apply Forall_app. split; [|repeat constructor; unfold sym; lia]. apply Forall_forall. intros x Hx. apply repeat_spec in Hx. subst. unfold sym. lia.
    - rewrite <- M3, map_app. f_equal. clear. induction k as [|k IH]; [reflexivity|]. cbn [repeat map]. rewrite IH. reflexivity. }
  destruct Sv as (vals & Ev & Mv).
  assert (Lv : length vals = length d0) by (apply (f_equal (@length Z)) in Mv; rewrite !map_length in Mv; lia).
  assert (Fv : Forall sym vals) by (rewrite Ev in F; apply Forall_app in F as [F _]; exact F).
  set (all := vals ++ repeat 0 j ++ [1]).
  assert (La : length all = (length vals + j + 1)%nat) by (unfold all; rewrite !app_length, repeat_length; cbn [length]; lia).
  assert (Fa : Forall sym all).
  { unfold all. rewrite !Forall_app. split; [exact Fv|]. split; [|repeat constructor; unfold sym; lia].
    apply Forall_forall. intros x Hx. apply repeat_spec in Hx. subst. unfold sym. lia. }
  rewrite !app_length, repeat_length in Ld. cbn [length] in Ld.
  exists (firstn (length all - 6) all). assert (Ld' : length (firstn (length all - 6) all) = (length all - 6)%nat) by (rewrite firstn_length; lia).
  split; [|split].
  - split; [|split; [|split]].
    + rewrite !app_length, repeat_length in *. cbn [length] in *. lia.
    + rewrite !Forall_app in *. destruct P as ((P1 & P2 & P3) & _ & P5). repeat split; try assumption.
      apply Forall_forall. intros x Hx. apply repeat_spec in Hx. subst. lia.
    + intros [_ U]. apply upper_ins in U. apply NM. split.
      * rewrite !Exists_app. right. right. constructor. unfold is_lower. lia.
      * rewrite Exists_app. left. exact U.
    + exists h, (d0 ++ repeat 113 j ++ [112]), (skipn (length all - 6) all). rewrite firstn_skipn.
      split; [now rewrite <- !app_assoc|]. split; [exact Nh|]. split.
      * intros I. rewrite !in_app_iff in I. destruct I as [I|[I|[I|[]]]]; [|apply repeat_spec in I; discriminate|discriminate].
        apply N1. rewrite !in_app_iff. left. exact I.
      * split; [exact Eh|]. split; [exact Fa|]. split; [rewrite skipn_length; lia|]. split.
        -- unfold all. rewrite !map_app, Mv. do 2 f_equal. clear. induction j as [|j IH]; [reflexivity|]. cbn [repeat map]. rewrite IH. reflexivity.
        -- unfold all. assert (Bh : bytes hrp).
           { rewrite Eh. apply printable_bytes, printable_lower. rewrite !Forall_app in P. destruct P as ((P1 & _) & _). exact P1. }
           apply (checksum_zeros hrp vals j Bh Fv). rewrite Ev in V. apply (checksum_zeros hrp vals k Bh Fv) in V. exact V.
  - rewrite Ld'. lia.
  - rewrite firstn_firstn. replace (Nat.min (length data - k) (length all - 6)) with (length data - k)%nat by lia.
    assert (E1 : firstn (length data - k) (data ++ chk) = firstn (length data - k) data).
    { rewrite firstn_app. replace (length data - k - length data)%nat with 0%nat by lia. cbn [firstn]. apply app_nil_r. }
    rewrite <- E1, Ev. unfold all. rewrite !firstn_app. replace (length data - k - length vals)%nat with 0%nat by lia. cbn [firstn]. reflexivity.
Qed.

(** C114, refuted: any number of q's can be inserted before a final p without the checksum noticing.  For every accepted Bech32 text that
    ends in p, and every number [k] of q's that keeps the text within 90 characters. *)
Theorem C114_q_before_p_refuted : forall s k rest rest' cap r, Forall (fun c => 0 < c < 256) s ->
  bech32_decode ((s ++ [112]) ++ 0 :: rest) (length (s ++ [112])) cap = Ok r -> 0 <= b_ret r -> (length s + k + 1 <= 90)%nat ->
  exists r', bech32_decode ((s ++ repeat 113 k ++ [112]) ++ 0 :: rest') (length (s ++ repeat 113 k ++ [112])) cap = Ok r' /\
    b_hrp r' = b_hrp r /\ length (b_data r') = (length (b_data r) + k)%nat /\ b_ret r' = Z.of_nat (length (b_data r')) /\
    firstn (length (b_data r)) (b_data r') = b_data r.
Proof.
  intros s k rest rest' cap r A E R L.
  assert (A1 : Forall (fun c => 0 < c < 256) (s ++ [112])) by (apply Forall_app; split; [exact A|repeat constructor; lia]).
  destruct (C36_bech32_language (s ++ [112]) rest cap A1) as (_ & r0 & E0 & V). rewrite E in E0. injection E0 as <-.
  destruct (V R) as (V1 & Hc & _). 
  destruct (q_before_p_shape s 0 (b_hrp r) ltac:(lia) (b_data r) V1 ltac:(lia) k L) as (data' & V' & L' & P').
  assert (A2 : Forall (fun c => 0 < c < 256) (s ++ repeat 113 k ++ [112])) by (destruct (bech32_valid_chars _ _ _ V'); assumption).
  destruct (C36_bech32_language _ rest' cap A2) as (G & _). rewrite (G _ _ V' Hc).
  eexists. split; [reflexivity|]. cbn [b_hrp b_data b_ret]. split; [reflexivity|]. split; [lia|]. split; [reflexivity|].
  rewrite Nat.sub_0_r in P'. rewrite P'. apply firstn_all.
Qed.
Print Assumptions C114_q_before_p_refuted.

(** Likewise dropped: the texts with [k] and [j] q's before the final p are valid for the same human readable part together, as long as
    the text does not get too short or too long. *)
Theorem C114_q_before_p : forall s k j hrp, (length s + k + 1 <= 90)%nat -> (length s + j + 1 <= 90)%nat ->
  forall data, bech32_valid (s ++ repeat 113 k ++ [112]) hrp data -> (k <= length data)%nat ->
  exists data', bech32_valid (s ++ repeat 113 j ++ [112]) hrp data' /\ (length data' + k = length data + j)%nat.
Proof.
  intros s k j hrp L1 L2 data V Hk. destruct (q_before_p_shape s k hrp L1 data V Hk j L2) as (data' & V' & L' & _). eauto.
Qed.
Print Assumptions C114_q_before_p.

Lemma groups_full_prefix k : (0 < k)%nat -> forall f f' l m, (length l <= f')%nat -> (length (l ++ m) <= f)%nat ->
  exists t, groups_full f k (l ++ m) = groups_full f' k l ++ t.
Proof.
  intros Hk. induction f as [|f IH]; intros f' l m L1 L2.
  - rewrite app_length in L2. destruct l; [|cbn in L2; lia]. exists []. destruct f'; [reflexivity|]. cbn [groups_full length]. replace (k <=? 0)%nat with false by lia. reflexivity.
  - destruct f' as [|f']; [eexists; reflexivity|]. cbn [groups_full]. destruct (k <=? length l)%nat eqn:E.
    + apply Nat.leb_le in E. replace (k <=? length (l ++ m))%nat with true by (rewrite app_length; lia).
      destruct (IH f' (skipn k l) m) as (t & Et); [rewrite skipn_length; lia|rewrite app_length, skipn_length; rewrite app_length in L2; lia|].
      exists t. rewrite firstn_app, skipn_app. replace (k - length l)%nat with 0%nat by lia. cbn [firstn skipn]. rewrite app_nil_r, Et. reflexivity.
    + eexists. reflexivity.
Qed.
Lemma regroup_bytes_prefix k a b : exists t, regroup_bytes k (a ++ b) = regroup_bytes k a ++ t.
Proof.
  unfold regroup_bytes, bit_string. rewrite map_app, concat_app.
  destruct (groups_full_prefix 8 ltac:(lia) (length (concat (map (bits k) a) ++ concat (map (bits k) b))) (length (concat (map (bits k) a)))
    (concat (map (bits k) a)) (concat (map (bits k) b)) (le_n _) (le_n _)) as (t & ->). rewrite map_app. eauto.
Qed.

(** The addresses concerned: versions 1 to 16, programs of 2, 4, 7, 9, 12, ... bytes.  If the text of such an address ends in p, the text
    with a q inserted before the p is the address of another program, one byte longer (with a stack on which the scan for '=' ends, and
    unless the text has become a Base58Check text). *)
Theorem C114_address_q_before_p_refuted : forall p ver prog s rest out_size stack, builtin p -> bytes prog -> 1 <= ver <= 16 -> (2 <= length prog <= 39)%nat ->
  (length prog mod 5 = 2 \/ length prog mod 5 = 4)%nat ->
  witness_text (cp_hrp p) ver prog = s ++ [112] -> length stack = 128%nat -> good_stack stack ->
  ~ also_base58 (cp_pubkey p) (cp_script p) (s ++ [113; 112]) ->
  (from_base58_check_length (length (s ++ [113; 112]%Z)) <= out_size)%nat -> (41 <= out_size)%nat ->
  exists r, address_decode ((s ++ [113; 112]) ++ 0 :: rest) (length (s ++ [113; 112])) out_size p stack = Ok r /\
    a_kind r = WITNESS_UNKNOWN_ADDRESS /\ a_size r = S (length prog + 1) /\ firstn (S (length prog)) (a_out r) = ver :: prog.
Proof.
  intros p ver prog s rest out_size stack Hp Bp Hv Lp M5 E Ls Gs NA Ho H41.
  destruct (builtin_facts p Hp) as (_ & _ & Lh & Bh & a & b & Ea & Eb & Ba & Bb & _).
  assert (V : bech32_valid (s ++ repeat 113 0 ++ [112]) (cp_hrp p) (ver :: regroup_pad 5 prog)).
  { cbn [repeat app]. rewrite <- E. apply witness_valid; [exact Hp|exact Bp|unfold sym; lia|lia]. }
  pose proof (witness_text_length p ver prog Hp Bp ltac:(unfold sym; lia)) as Lw. rewrite E, app_length in Lw. cbn [length] in Lw.
  destruct (raw_facts prog Bp) as (_ & Fr & Lr).
  assert (N8 : ((8 * length prog + 4) / 5 < 64)%nat) by (apply Nat.div_lt_upper_bound; lia).
  destruct (q_before_p_shape s 0 (cp_hrp p) ltac:(lia) _ V ltac:(cbn [length]; lia) 1 ltac:(lia)) as (data' & V' & L' & P').
  change (repeat 113 1 ++ [112]) with [113; 112] in V'. rewrite Nat.sub_0_r, firstn_all in P'.
  cbn [length] in L', P'. destruct data' as [|ver' vals']; [cbn [length] in L'; lia|]. cbn [firstn] in P'. injection P' as -> P'. cbn [length] in L'.
  set (t := s ++ [113; 112]) in *.
  destruct (bech32_valid_chars _ _ _ V') as (A & L90).
  assert (A' : Forall (fun c => 0 < c < 128) t) by (destruct V' as (_ & P & _); eapply Forall_impl; [|exact P]; cbv beta; intros; lia).
  destruct (address_total t rest out_size p stack A' ltac:(change INT_MAX with 2147483647; lia) ltac:(rewrite Ea; discriminate) ltac:(rewrite Eb; discriminate)
    ltac:(rewrite Ea; repeat constructor; apply Ba) ltac:(rewrite Eb; repeat constructor; apply Bb)) as [(Hlt & _)|[(_ & pl & out & Bpl & _ & _ & _ & _ & [(B & _ & D)|(B & _ & _ & D)])|(_ & _ & out & _ & _ & _ & D)]].
  - lia.
  - destruct NA. exists pl. auto.
  - destruct NA. exists pl. auto.
  - rewrite D.
    assert (Lf : from_base32_raw_length (length vals') = (length prog + 1)%nat /\ b32_good_length (length vals')).
    { replace (length vals') with (S ((8 * length prog + 4) / 5))%nat by (rewrite <- Lr; lia). clear - Lp M5.
      assert (G : forallb (fun n => negb ((n mod 5 =? 2)%nat || (n mod 5 =? 4)%nat) ||
         ((from_base32_raw_length (S ((8 * n + 4) / 5)) =? n + 1)%nat && existsb (Nat.eqb (S ((8 * n + 4) / 5) mod 8)) [0; 2; 4; 5; 7]%nat)) (seq 2 38) = true)
        by (vm_compute; reflexivity).
      rewrite forallb_forall in G. specialize (G (length prog) ltac:(apply in_seq; lia)). cbv beta in G. apply orb_true_iff in G as [G|G].
      - apply negb_true_iff, orb_false_iff in G as [G1 G2]. apply Nat.eqb_neq in G1, G2. destruct M5; congruence.
      - apply andb_true_iff in G as [G1 G2]. apply Nat.eqb_eq in G1. split; [exact G1|]. apply existsb_exists in G2 as (x & I & X). apply Nat.eqb_eq in X. unfold b32_good_length. rewrite X. exact I. }
    destruct Lf as [Lf Gl].
    destruct V' as (v1 & v2 & v3 & h & d & chk & v4 & v5 & v6 & v7 & F & v8). assert (V2 : bech32_valid t (cp_hrp p) (ver :: vals')) by (repeat split; eauto 20).
    clear v1 v2 v3 v4 v5 v6 v7 v8. apply Forall_app in F as [F _]. apply Forall_cons_iff in F as [_ Fv].
    destruct (decode_bech32_ok t rest p ver vals' stack out out_size V2 ltac:(lia) Ls (good_stack_nul vals' stack Fv ltac:(lia) Ls Gs) ltac:(lia)) as (prog' & Lp' & R2 & D2).
    rewrite D2. replace (ver =? 0) with false by lia. replace (16 <? ver) with false by lia.
    replace (length prog' <? 2)%nat with false by lia. replace (40 <? length prog')%nat with false by lia. cbn [orb].
    eexists. split; [reflexivity|]. cbn [a_kind a_size a_out]. split; [reflexivity|]. split; [lia|].
    specialize (R2 Gl). assert (Ev : vals' = regroup_pad 5 prog ++ skipn (length (regroup_pad 5 prog)) vals') by (rewrite <- P' at 1; symmetry; apply firstn_skipn).
    destruct (regroup_bytes_prefix 5 (regroup_pad 5 prog) (skipn (length (regroup_pad 5 prog)) vals')) as (u & Eu). rewrite <- Ev, <- R2, regroup_roundtrip in Eu by (lia || assumption).
    unfold overlay. cbn [firstn app]. f_equal. rewrite Eu, <- app_assoc. apply firstn_app_exact.
Qed.
Print Assumptions C114_address_q_before_p_refuted.

(** C114, what holds: the number of characters.  A text accepted as a version 0 key hash is 40, 41, 43 or 46 characters longer than the human
    readable part, one accepted as a version 0 script hash 60: adding or dropping characters makes no script hash address out of another
    one, and dropping characters from what the encoder writes (40) no key hash address. *)
Theorem C114_version0_length_partial : forall p text rest out_size stack r, builtin p ->
  Forall (fun c => 0 < c < 128) text -> Z.of_nat (length text) * 733 <= INT_MAX -> length stack = 128%nat -> good_stack stack ->
  address_decode (text ++ 0 :: rest) (length text) out_size p stack = Ok r ->
  (a_kind r = WITNESSV0_KEYHASH_ADDRESS -> In (length text - length (cp_hrp p))%nat [40; 41; 43; 46]%nat) /\
  (a_kind r = WITNESSV0_SCRIPTHASH_ADDRESS -> length text = (length (cp_hrp p) + 60)%nat).
Proof.
  intros p text rest out_size stack r Hp A Hl Ls Gs E.
  destruct (builtin_facts p Hp) as (_ & _ & Lh & Bh & a & b & Ea & Eb & Ba & Bb & _).
  destruct (address_total text rest out_size p stack A Hl ltac:(rewrite Ea; discriminate) ltac:(rewrite Eb; discriminate)
    ltac:(rewrite Ea; repeat constructor; apply Ba) ltac:(rewrite Eb; repeat constructor; apply Bb)) as [(_ & D)|[(_ & pl & out & _ & _ & _ & _ & _ & [(_ & _ & D)|(_ & _ & _ & D)])|(_ & _ & out & _ & _ & _ & D)]];
    rewrite D in E; try (injection E as <-; cbn [a_kind]; split; discriminate).
  assert (A2 : Forall (fun c => 0 < c < 256) text) by (eapply Forall_impl; [|exact A]; cbv beta; intros; lia).
  destruct (decode_bech32_total text rest p stack out out_size A2 ltac:(lia) Ls Gs) as [D2|(ver & vals & prog & V & _ & Lp & _ & D2)]; rewrite D2 in E.
  - injection E as <-. cbn [a_kind]. split; discriminate.
  - destruct V as (L90 & _ & _ & h & d & chk & Es & _ & _ & Eh & _ & L6 & M & _).
    assert (Lt : length text = (length (cp_hrp p) + 8 + length vals)%nat).
    { apply (f_equal (@length Z)) in M. rewrite !map_length, app_length in M. cbn [length] in M. rewrite Es, Eh, map_length, !app_length. cbn [length]. lia. }
    assert (G : forall n, (n <= 90)%nat -> (from_base32_raw_length n = 20%nat -> n = 32%nat \/ n = 33%nat \/ n = 35%nat \/ n = 38%nat) /\ (from_base32_raw_length n = 32%nat -> n = 52%nat)).
    { intros n Hn. assert (G : forallb (fun n => (negb (from_base32_raw_length n =? 20)%nat || (n =? 32)%nat || (n =? 33)%nat || (n =? 35)%nat || (n =? 38)%nat) && (negb (from_base32_raw_length n =? 32)%nat || (n =? 52)%nat)) (seq 0 91) = true)
        by (vm_compute; reflexivity).
      rewrite forallb_forall in G. specialize (G n ltac:(apply in_seq; lia)). lia. }
    destruct (G (length vals) ltac:(lia)) as [G1 G2].
    destruct (ver =? 0).
    + injection E as <-. cbn [a_kind]. destruct (Nat.eqb_spec (length prog) 20) as [E1|N1]; [split; [|discriminate]; intros _; rewrite Lt; cbn [In]; lia|].
      destruct (Nat.eqb_spec (length prog) 32) as [E2|N2]; [split; [discriminate|]; intros _; lia|split; discriminate].
    + injection E as <-. cbn [a_kind]. destruct (_ || _); split; discriminate.
Qed.
Print Assumptions C114_version0_length_partial.

(** "tb1pqqyq4tchmp" is the version 1 address of the program 00 08; "tb1pqqyq4tchmqp" is accepted as the address of 00 08 0a. And
    a q inserted into the key hash address "tb1qqhqs...aejusp" gives another text for the same key hash. *)
Definition p_text : list Z := [116;98;49;112;113;113;121;113;52;116;99;104;109].
Definition p_v0_text : list Z := [116;98;49;113;113;104;113;115] ++ repeat 113 28 ++ [97;101;106;117;115].
Theorem C114_examples_refuted :
  (exists o, address_decode ((p_text ++ [112]) ++ [0]) 14 64 testnet (repeat 0 128) = Ok (mkAddr WITNESS_UNKNOWN_ADDRESS 3 o) /\ firstn 3 o = [1; 0; 8]) /\
  (exists o, address_decode ((p_text ++ [113; 112]) ++ [0]) 15 64 testnet (repeat 0 128) = Ok (mkAddr WITNESS_UNKNOWN_ADDRESS 4 o) /\ firstn 4 o = [1; 0; 8; 10]) /\
  (exists o1 o2, address_decode ((p_v0_text ++ [112]) ++ [0]) 42 64 testnet (repeat 0 128) = Ok (mkAddr WITNESSV0_KEYHASH_ADDRESS 20 o1) /\
     address_decode ((p_v0_text ++ [113; 112]) ++ [0]) 43 64 testnet (repeat 0 128) = Ok (mkAddr WITNESSV0_KEYHASH_ADDRESS 20 o2) /\ firstn 20 o1 = firstn 20 o2).
Proof.
  assert (C : forall x n k (P : list Z -> bool), match x with Ok r => match a_kind r, k with WITNESS_UNKNOWN_ADDRESS, true => true | WITNESSV0_KEYHASH_ADDRESS, false => true | _, _ => false end && (a_size r =? n)%nat && P (a_out r) | _ => false end = true ->
    exists o, x = Ok (mkAddr (if k then WITNESS_UNKNOWN_ADDRESS else WITNESSV0_KEYHASH_ADDRESS) n o) /\ P o = true).
  { intros [[kd sz o]| |] n k P H; try discriminate. cbn [a_kind a_size a_out] in H. exists o. apply andb_true_iff in H as [H H3]. apply andb_true_iff in H as [H1 H2].
    apply Nat.eqb_eq in H2. subst. split; [|exact H3]. destruct kd, k; try discriminate; reflexivity. }
  split; [|split].
  - destruct (C (address_decode ((p_text ++ [112]) ++ [0]) 14 64 testnet (repeat 0 128)) 3%nat true (fun o => bytes_eqb (firstn 3 o) [1; 0; 8]) ltac:(vm_compute; reflexivity)) as (o & E & Q).
    exists o. split; [exact E|]. now apply bytes_eqb_eq.
  - destruct (C (address_decode ((p_text ++ [113; 112]) ++ [0]) 15 64 testnet (repeat 0 128)) 4%nat true (fun o => bytes_eqb (firstn 4 o) [1; 0; 8; 10]) ltac:(vm_compute; reflexivity)) as (o & E & Q).
    exists o. split; [exact E|]. now apply bytes_eqb_eq.
  - destruct (C (address_decode ((p_v0_text ++ [112]) ++ [0]) 42 64 testnet (repeat 0 128)) 20%nat false (fun o => bytes_eqb (firstn 20 o) ([5; 193] ++ repeat 0 18)) ltac:(vm_compute; reflexivity)) as (o1 & E1 & Q1).
    destruct (C (address_decode ((p_v0_text ++ [113; 112]) ++ [0]) 43 64 testnet (repeat 0 128)) 20%nat false (fun o => bytes_eqb (firstn 20 o) ([5; 193] ++ repeat 0 18)) ltac:(vm_compute; reflexivity)) as (o2 & E2 & Q2).
    exists o1, o2. split; [exact E1|]. split; [exact E2|]. apply bytes_eqb_eq in Q1, Q2. congruence.
Qed.
Print Assumptions C114_examples_refuted.

(** A concrete case of C113: two wrong characters in the address "BC1QW508D6QEJXTDG4Y5R3ZARVARY0C5XW7KV8F3T4" of BIP-173, in lower case. *)
Example C113_case : let text := witness_text (cp_hrp mainnet) 0 bip173_hash in
  let wrong := firstn 10 text ++ [112; 112] ++ skipn 12 text in
  builtin mainnet /\ length wrong = length text /\ hamming text (map tolower wrong) = 2%nat /\ Forall (fun c => 0 < c < 128) wrong /\
  match address_decode (wrong ++ [0]) (length wrong) 64 mainnet (repeat 61 128) with Ok r => a_kind r = BAD_ADDRESS | _ => False end.
Proof.
  cbv zeta. split; [left; reflexivity|]. split; [vm_compute; reflexivity|]. split; [vm_compute; reflexivity|]. split.
  - apply Forall_forall. intros x Hx. assert (G : forallb (fun c => (0 <? c) && (c <? 128)) (firstn 10 (witness_text (cp_hrp mainnet) 0 bip173_hash) ++ [112; 112] ++ skipn 12 (witness_text (cp_hrp mainnet) 0 bip173_hash)) = true) by (vm_compute; reflexivity).
    rewrite forallb_forall in G. specialize (G x Hx). lia.
  - vm_compute. reflexivity.
Qed.

