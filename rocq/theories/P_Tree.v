(** C124: different seeds and paths lead to different extended keys. *)
From Verif Require Import Base S_Words L_Endian M_Endian M_Sha2 S_Sha2 L_Sha2Top S_Ripemd L_Ripemd M_Hash L_Hash M_Random M_Address M_Secp M_Key M_Exkey
  S_Secp L_Secp S_Der S_Life S_Bip32 S_Exkey S_Address L_Address P_Address P_Sign L_Bip32 P_Bip32 L_Exkey P_Exkey S_Wallet P_Wallet P_Typos P_Der S_Collide P_Collide S_Tree.

Lemma child_data_shape E k i : secp_laws E -> exists h, child_data E k i = h ++ be_bytes 4 i /\ length h = 33%nat.
Proof. exact (child_message_shape E k i). Qed.
Lemma child_data_inj E k k' i j : secp_laws E -> 0 <= i < 2 ^ 32 -> 0 <= j < 2 ^ 32 -> child_data E k i = child_data E k' j -> i = j.
Proof.
  intros Laws Hi Hj H. destruct (child_data_shape E k i Laws) as (h & Ei & Lh). rewrite Ei in H. destruct (child_data_shape E k' j Laws) as (h' & E' & Lh'). rewrite E' in H.
  apply app_inj_len in H; [|congruence]. destruct H as [_ H]. apply (f_equal be_val) in H. rewrite !be_val_be_bytes in H.
  change (256 ^ Z.of_nat 4) with (2 ^ 32) in H. rewrite !Z.mod_small in H by assumption. exact H.
Qed.
Lemma child_data_length E k i : secp_laws E -> length (child_data E k i) = 37%nat.
Proof. intros Laws. destruct (child_data_shape E k i Laws) as (h & -> & L). rewrite app_length, be_bytes_length. lia. Qed.

(** Where a path leads (BIP-32, on numbers). *)
Fixpoint reached (E : secp) (k : Z) (c : list Z) (path : list Z) : option (Z * list Z) :=
  match path with
  | [] => Some (k, c)
  | i :: path => match ckd_priv E k c i with Some (k', c') => reached E k' c' path | None => None end
  end.
Lemma reached_snoc E i : forall path k c, reached E k c (path ++ [i]) =
  match reached E k c path with Some (k', c') => ckd_priv E k' c' i | None => None end.
Proof.
  induction path as [|j path IH]; intros k c; cbn [reached app].
  - destruct (ckd_priv E k c i) as [[k' c']|]; reflexivity.
  - destruct (ckd_priv E k c j) as [[k' c']|]; [apply IH|reflexivity].
Qed.
Lemma inputs_snoc E i : forall path k c k' c', reached E k c path = Some (k', c') ->
  path_inputs E k c (path ++ [i]) = path_inputs E k c path ++ [(c', child_data E k' i)].
Proof.
  induction path as [|j path IH]; intros k c k' c' R; cbn [reached path_inputs app] in *.
  - injection R as <- <-. destruct (ckd_priv E k c i) as [[k' c']|]; reflexivity.
  - destruct (ckd_priv E k c j) as [[k1 c1]|]; [|discriminate]. now rewrite (IH _ _ _ _ R).
Qed.
Lemma mac_length key msg : length (hmac_sha512_of key msg) = 64%nat.
Proof. apply hmac512_length. Qed.
Lemma ckd_chain E k c i k' c' : ckd_priv E k c i = Some (k', c') -> c' = skipn 32 (hmac_sha512_of c (child_data E k i)) /\ length c' = 32%nat.
Proof.
  intros H. apply ckd_right in H. change (child_message E k i) with (child_data E k i) in H. split; [exact H|].
  pose proof (mac_length c (child_data E k i)) as L. rewrite H, skipn_length. lia.
Qed.
Lemma inner_same k1 k2 m1 m2 : inner_message SHA512 128 k1 m1 = inner_message SHA512 128 k2 m2 -> key_block SHA512 128 k1 = key_block SHA512 128 k2 /\ m1 = m2.
Proof.
  intros H. unfold inner_message in H. apply app_inj_len in H.
  2:{ rewrite !map_length, !key_block_length; [reflexivity| |]; intros m; rewrite SHA512_length; lia. }
  destruct H as [H1 H2]. split; [exact (map_lxor_inj _ _ _ H1)|exact H2].
Qed.
Lemma inner_dec k1 k2 m1 m2 : inner_message SHA512 128 k1 m1 = inner_message SHA512 128 k2 m2 \/ inner_message SHA512 128 k1 m1 <> inner_message SHA512 128 k2 m2.
Proof. apply list_dec. Qed.

(** The right half of what a seed gives. *)
Definition start_k (seed : list Z) : Z := be_val (firstn 32 (hmac_sha512_of Bitcoin_seed seed)).
Definition start_c (seed : list Z) : list Z := skipn 32 (hmac_sha512_of Bitcoin_seed seed).
Lemma start_c_length seed : length (start_c seed) = 32%nat.
Proof. pose proof (mac_length Bitcoin_seed seed) as L. unfold start_c. rewrite skipn_length. lia. Qed.
Lemma wallet_inputs_eq E seed path : wallet_inputs E seed path = (Bitcoin_seed, seed) :: path_inputs E (start_k seed) (start_c seed) path.
Proof. unfold wallet_inputs, start_k, start_c. cbv zeta. reflexivity. Qed.
Lemma start_c_eq seed : start_c seed = skipn 32 (hmac_sha512_of Bitcoin_seed seed).
Proof. reflexivity. Qed.
Lemma start_k_eq seed : start_k seed = be_val (firstn 32 (hmac_sha512_of Bitcoin_seed seed)).
Proof. reflexivity. Qed.
Lemma some_pair {A B} (a a' : A) (b b' : B) : Some (a, b) = Some (a', b') -> b = b'.
Proof. intros H. now injection H. Qed.
Lemma half_intro k1 m1 k2 m2 : inner_message SHA512 128 k1 m1 <> inner_message SHA512 128 k2 m2 ->
  forall c, c = skipn 32 (hmac_sha512_of k1 m1) -> c = skipn 32 (hmac_sha512_of k2 m2) -> half_collision (k1, m1) (k2, m2).
Proof. intros H c -> H2. split; [exact H|exact H2]. Qed.
Lemma reached_chain_length E path : forall k c k' c', length c = 32%nat -> reached E k c path = Some (k', c') -> length c' = 32%nat.
Proof.
  induction path as [|i path IH]; intros k c k' c' L R; cbn [reached] in R; [injection R as _ <-; exact L|].
  destruct (ckd_priv E k c i) as [[k1 c1]|] eqn:C; [|discriminate]. destruct (ckd_chain _ _ _ _ _ _ C) as [_ L1]. exact (IH _ _ _ _ L1 R).
Qed.

Lemma seed_vs_child E s k c i : secp_laws E -> length s <> 37%nat ->
  inner_message SHA512 128 Bitcoin_seed s <> inner_message SHA512 128 c (child_data E k i).
Proof. intros Laws Ls H. apply inner_same in H. destruct H as [_ H]. apply Ls. rewrite H. now apply child_data_length. Qed.

Lemma tree E s1 s2 : secp_laws E -> length s1 <> 37%nat -> length s2 <> 37%nat ->
  forall p1 p2 k1 k2 c, Forall (fun i => 0 <= i < 2 ^ 32) p1 -> Forall (fun i => 0 <= i < 2 ^ 32) p2 ->
  reached E (start_k s1) (start_c s1) p1 = Some (k1, c) -> reached E (start_k s2) (start_c s2) p2 = Some (k2, c) ->
  (s1 = s2 /\ p1 = p2) \/ exists x y, In x (wallet_inputs E s1 p1) /\ In y (wallet_inputs E s2 p2) /\ half_collision x y.
Proof.
  intros Laws L1 L2. induction p1 as [|i p1 IH] using rev_ind; intros p2 k1 k2 c F1 F2 R1 R2.
  - cbn [reached] in R1. assert (C1 : start_c s1 = c) by (exact (some_pair _ _ _ _ R1)). clear R1.
    destruct p2 as [|j p2 _] using rev_ind.
    + cbn [reached] in R2. assert (C2 : start_c s2 = c) by (exact (some_pair _ _ _ _ R2)). clear R2.
      destruct (inner_dec Bitcoin_seed Bitcoin_seed s1 s2) as [Q|Q].
      * left. apply inner_same in Q. tauto.
      * right. exists (Bitcoin_seed, s1), (Bitcoin_seed, s2). split; [now left|]. split; [now left|]. apply (half_intro _ _ _ _ Q c); [rewrite <- C1|rewrite <- C2]; apply start_c_eq.
    + right. rewrite reached_snoc in R2. destruct (reached E (start_k s2) (start_c s2) p2) as [[k' c']|] eqn:R; [|discriminate].
      destruct (ckd_chain _ _ _ _ _ _ R2) as [C2 _].
      exists (Bitcoin_seed, s1), (c', child_data E k' j). split; [now left|]. split.
      * rewrite wallet_inputs_eq, (inputs_snoc E j p2 _ _ _ _ R). right. apply in_app_iff. right. now left.
      * apply (half_intro _ _ _ _ (seed_vs_child E s1 k' c' j Laws L1) c); [rewrite <- C1; apply start_c_eq|exact C2].
  - rewrite reached_snoc in R1. destruct (reached E (start_k s1) (start_c s1) p1) as [[k1' c1']|] eqn:Q1; [|discriminate].
    destruct (ckd_chain _ _ _ _ _ _ R1) as [C1 _]. apply Forall_app in F1. destruct F1 as [F1 Fi]. inversion Fi as [|? ? Hi _]; subst x l.
    assert (In1 : In (c1', child_data E k1' i) (wallet_inputs E s1 (p1 ++ [i]))).
    { rewrite wallet_inputs_eq, (inputs_snoc E i p1 _ _ _ _ Q1). right. apply in_app_iff. right. now left. }
    destruct p2 as [|j p2 _] using rev_ind.
    + cbn [reached] in R2. assert (C2 : start_c s2 = c) by (exact (some_pair _ _ _ _ R2)). clear R2.
      right. exists (c1', child_data E k1' i), (Bitcoin_seed, s2). split; [exact In1|]. split; [now left|].
      apply (half_intro _ _ _ _ (not_eq_sym (seed_vs_child E s2 k1' c1' i Laws L2)) c); [exact C1|rewrite <- C2; apply start_c_eq].
    + rewrite reached_snoc in R2. destruct (reached E (start_k s2) (start_c s2) p2) as [[k2' c2']|] eqn:Q2; [|discriminate].
      destruct (ckd_chain _ _ _ _ _ _ R2) as [C2 _]. apply Forall_app in F2. destruct F2 as [F2 Fj]. inversion Fj as [|? ? Hj _]; subst x l.
      assert (In2 : In (c2', child_data E k2' j) (wallet_inputs E s2 (p2 ++ [j]))).
      { rewrite wallet_inputs_eq, (inputs_snoc E j p2 _ _ _ _ Q2). right. apply in_app_iff. right. now left. }
      destruct (inner_dec c1' c2' (child_data E k1' i) (child_data E k2' j)) as [Q|Q].
      * apply inner_same in Q. destruct Q as [Qk Qm]. assert (i = j) by (exact (child_data_inj E _ _ i j Laws Hi Hj Qm)). subst j.
        assert (c1' = c2').
        { pose proof (reached_chain_length E _ _ _ _ _ (start_c_length s1) Q1). pose proof (reached_chain_length E _ _ _ _ _ (start_c_length s2) Q2).
          apply (C121_same_key_block SHA512 128); [congruence|lia|exact Qk]. }
        subst c2'. destruct (IH p2 k1' k2' c1' F1 F2 eq_refl Q2) as [[-> ->]|(x & y & Ix & Iy & H)]; [now left|right].
        exists x, y. split; [|split; [|exact H]].
        -- rewrite wallet_inputs_eq, (inputs_snoc E i p1 _ _ _ _ Q1). rewrite wallet_inputs_eq in Ix. destruct Ix as [Ix|Ix]; [now left|right; apply in_app_iff; now left].
        -- rewrite wallet_inputs_eq, (inputs_snoc E i p2 _ _ _ _ Q2). rewrite wallet_inputs_eq in Iy. destruct Iy as [Iy|Iy]; [now left|right; apply in_app_iff; now left].
      * right. exists (c1', child_data E k1' i), (c2', child_data E k2' j). split; [exact In1|]. split; [exact In2|]. exact (half_intro _ _ _ _ Q c C1 C2).
Qed.

Lemma scalar_of x : 0 < x < secp_order -> scalar x.
Proof. intros H. exact H. Qed.
(** The API walk follows BIP-32's numbers. *)
Lemma walk_reached E g blank : secp_laws E -> ready g -> wf_key blank ->
  forall path xk xk', wf_key xk -> scalar (be_val (xk_key xk)) -> Forall (fun i => 0 <= i < 2 ^ 32) path ->
  walk_private E g blank path xk = Ok (Some xk') ->
  reached E (be_val (xk_key xk)) (x_chain_code (xk_ext xk)) path = Some (be_val (xk_key xk'), x_chain_code (xk_ext xk')).
Proof.
  intros Laws G Wb. induction path as [|i path IH]; intros xk xk' W S F H; cbn [walk_private reached] in *.
  - injection H as <-. reflexivity.
  - inversion F as [|? ? Hi F']; subst. destruct (step_private E g blank xk i Laws G Wb W S Hi) as (K & D). rewrite K in H. cbn [bind] in H.
    destruct D as [(k & c & C & D & W' & V & Sk)|(C & d & D)]; rewrite D in H; cbn [bind] in H; [|discriminate].
    rewrite C. apply (IH _ _ W') in H; auto; [|rewrite V; exact Sk]. rewrite V in H. exact H.
Qed.

Definition master_of (J : list Z) : ex_key := mkExKey (mkExt 0 0 0 (skipn 32 J)) (firstn 32 J).
Lemma master_wf J : bytes J -> length J = 64%nat -> wf_key (master_of J).
Proof.
  intros BJ LJ. split; [|split; [cbn [xk_key master_of]; now apply bytes_firstn|cbn [xk_key master_of]; rewrite firstn_length; lia]].
  cbn [xk_ext master_of]. split; [cbn [x_depth]; lia|]. split; [cbn [x_fingerprint]; lia|]. split; [cbn [x_child]; lia|].
  split; [cbn [x_chain_code]; now apply bytes_skipn|cbn [x_chain_code]; rewrite skipn_length; lia].
Qed.
Lemma master_key J : be_val (xk_key (master_of J)) = be_val (firstn 32 J).
Proof. reflexivity. Qed.
Lemma master_chain J : x_chain_code (xk_ext (master_of J)) = skipn 32 J.
Proof. reflexivity. Qed.
Lemma mac_bytes key msg : bytes (hmac_sha512_of key msg).
Proof. apply hmac512_bytes. Qed.
Lemma master_init blank seed : wf_key blank -> bytes seed -> Z.of_nat (length seed) < 2 ^ 60 ->
  exkey_init blank seed (length seed) = Ok (master_of (hmac_sha512_of Bitcoin_seed seed)).
Proof.
  intros Wb Bs Ls. pose proof (proj2 (C85_master_key blank seed [] Wb Bs ltac:(constructor) Ls)) as M. rewrite app_nil_r in M. exact M.
Qed.
Lemma good_key seed : good_seed seed -> scalar (start_k seed).
Proof. intros (_ & _ & _ & S). exact S. Qed.

Lemma bind_ok {A B} (x : res A) (a : A) (f : A -> res B) : x = Ok a -> bind x f = f a.
Proof. intros ->. reflexivity. Qed.
Lemma wallet_eq E g blank seed path M : exkey_init blank seed (length seed) = Ok M -> wallet E g blank seed path = walk_private E g blank path M.
Proof. intros H. exact (bind_ok _ M (walk_private E g blank path) H). Qed.
Lemma master_all blank seed : wf_key blank -> good_seed seed -> exists M, exkey_init blank seed (length seed) = Ok M /\ wf_key M /\
  be_val (xk_key M) = start_k seed /\ x_chain_code (xk_ext M) = start_c seed /\ scalar (start_k seed).
Proof.
  intros Wb GS. exists (master_of (hmac_sha512_of Bitcoin_seed seed)). split; [apply master_init; [exact Wb|apply GS|apply GS]|].
  split; [exact (master_wf _ (mac_bytes Bitcoin_seed seed) (mac_length Bitcoin_seed seed))|].
  split; [rewrite start_k_eq; apply master_key|]. split; [rewrite start_c_eq; apply master_chain|]. now apply good_key.
Qed.

Lemma wallet_reached E g blank seed path xk : secp_laws E -> ready g -> wf_key blank -> good_seed seed -> Forall (fun i => 0 <= i < 2 ^ 32) path ->
  wallet E g blank seed path = Ok (Some xk) ->
  reached E (start_k seed) (start_c seed) path = Some (be_val (xk_key xk), x_chain_code (xk_ext xk)) /\ wf_key xk /\ scalar (be_val (xk_key xk)).
Proof.
  intros Laws G Wb GS F H. destruct (master_all blank seed Wb GS) as (M & I & W & K & C & S). rewrite (wallet_eq E g blank seed path M I) in H.
  rewrite <- K in S. rewrite <- C, <- K.
  split; [exact (walk_reached E g blank Laws G Wb path _ xk W S F H)|exact (walk_private_valid E g blank Laws G Wb path _ xk W S F H)].
Qed.

(** ** C124
    Two wallets: any seeds, any paths, of whatever lengths, hardened or not.  If they arrive at extended keys with the same chain code,
    they have the same seed and took the same path, or two different inputs the two walks gave to HMAC-SHA512 agree in 32 bytes of the MAC. *)
Theorem C124_chain_codes : forall E g blank s1 s2 p1 p2 a b, secp_laws E -> ready g -> wf_key blank -> good_seed s1 -> good_seed s2 ->
  Forall (fun i => 0 <= i < 2 ^ 32) p1 -> Forall (fun i => 0 <= i < 2 ^ 32) p2 ->
  wallet E g blank s1 p1 = Ok (Some a) -> wallet E g blank s2 p2 = Ok (Some b) ->
  x_chain_code (xk_ext a) = x_chain_code (xk_ext b) ->
  (s1 = s2 /\ p1 = p2) \/ exists x y, In x (wallet_inputs E s1 p1) /\ In y (wallet_inputs E s2 p2) /\ half_collision x y.
Proof.
  intros E g blank s1 s2 p1 p2 a b Laws G Wb G1 G2 F1 F2 A B Ec.
  destruct (wallet_reached E g blank s1 p1 a Laws G Wb G1 F1 A) as (RA & _). destruct (wallet_reached E g blank s2 p2 b Laws G Wb G2 F2 B) as (RB & _).
  rewrite <- Ec in RB. exact (tree E s1 s2 Laws (proj1 (proj2 (proj2 G1))) (proj1 (proj2 (proj2 G2))) p1 p2 _ _ _ F1 F2 RA RB).
Qed.
Print Assumptions C124_chain_codes.

(** So the strings of two wallets, private or public, on one network, are different, or the same under the same conditions. *)
Theorem C124_strings : forall E g blank blankp net s1 s2 p1 p2 a b pa pb n m text, secp_laws E -> ready g -> wf_key blank -> wf_pub blankp -> builtin net ->
  good_seed s1 -> good_seed s2 -> Forall (fun i => 0 <= i < 2 ^ 32) p1 -> Forall (fun i => 0 <= i < 2 ^ 32) p2 ->
  wallet E g blank s1 p1 = Ok (Some a) -> wallet E g blank s2 p2 = Ok (Some b) ->
  exkey_get_pub E g a blankp = Ok pa -> exkey_get_pub E g b blankp = Ok pb ->
  (exkey_to_string a net = Ok (n, text) /\ exkey_to_string b net = Ok (m, text)) \/ (expubkey_to_string pa net = Ok (n, text) /\ expubkey_to_string pb net = Ok (m, text)) ->
  (s1 = s2 /\ p1 = p2) \/ exists x y, In x (wallet_inputs E s1 p1) /\ In y (wallet_inputs E s2 p2) /\ half_collision x y.
Proof.
  intros E g blank blankp net s1 s2 p1 p2 a b pa pb n m text Laws G Wb Wp Hn G1 G2 F1 F2 A B Pa Pb T.
  destruct (wallet_reached E g blank s1 p1 a Laws G Wb G1 F1 A) as (_ & Wa & Sa). destruct (wallet_reached E g blank s2 p2 b Laws G Wb G2 F2 B) as (_ & Wb' & Sb).
  rewrite exkey_get_pub_ok in Pa, Pb by assumption. 
  apply (C124_chain_codes E g blank s1 s2 p1 p2 a b Laws G Wb G1 G2 F1 F2 A B).
  assert (Pa' : pa = public_of E a) by (unfold public_of; congruence). assert (Pb' : pb = public_of E b) by (unfold public_of; congruence). clear Pa Pb. subst pa pb.
  destruct (C68_builtin_roundtrip net a blank (public_of E a) blankp [] Hn Wa Wb (public_of_wf E a Laws Wa) Wp) as ((ta & Ea & _ & Ra) & (ua & Fa & _ & Qa)).
  destruct (C68_builtin_roundtrip net b blank (public_of E b) blankp [] Hn Wb' Wb (public_of_wf E b Laws Wb') Wp) as ((tb & Eb & _ & Rb) & (ub & Fb & _ & Qb)).
  destruct T as [[T1 T2]|[T1 T2]].
  - rewrite Ea in T1. rewrite Eb in T2. assert (ta = tb) by congruence. subst tb. rewrite Ra in Rb. congruence.
  - rewrite Fa in T1. rewrite Fb in T2. assert (ua = ub) by congruence. subst ub. rewrite Qa in Qb.
    assert (public_of E a = public_of E b) as P by congruence. apply (f_equal (fun p => x_chain_code (xp_ext p))) in P. exact P.
Qed.
Print Assumptions C124_strings.

(** The hypotheses are met, and the conclusion is not just the first case: one seed, the paths m/3 and m/3h. *)
Example C124_case : good_seed tv1_seed /\ exists a b, wallet toy ready_example blank_key tv1_seed [3] = Ok (Some a) /\
  wallet toy ready_example blank_key tv1_seed [2 ^ 31 + 3] = Ok (Some b) /\ x_chain_code (xk_ext a) <> x_chain_code (xk_ext b).
Proof.
  assert (GS : good_seed tv1_seed).
  { split; [apply be_bytes_bytes|]. split; [unfold tv1_seed; rewrite be_bytes_length; lia|]. split; [unfold tv1_seed; rewrite be_bytes_length; lia|]. vm_compute. split; reflexivity. }
  split; [exact GS|]. destruct (master_all blank_key tv1_seed (proj1 blank_key_wf) GS) as (M & I & W & K & C & S).
  rewrite (wallet_eq toy ready_example blank_key tv1_seed [3] M I), (wallet_eq toy ready_example blank_key tv1_seed [2 ^ 31 + 3] M I).
  assert (Q : match ckd_priv toy (start_k tv1_seed) (start_c tv1_seed) 3, ckd_priv toy (start_k tv1_seed) (start_c tv1_seed) (2 ^ 31 + 3) with
              | Some (_, c), Some (_, d) => negb (hd 0 c =? hd 0 d) | _, _ => false end = true) by (vm_compute; reflexivity).
  rewrite <- C, <- K in Q. rewrite <- K in S. clear C K I GS.
  cbn [walk_private].
  destruct (step_private toy ready_example blank_key _ 3 toy_laws ready_example_ok (proj1 blank_key_wf) W S ltac:(lia)) as (K1 & D1).
  destruct (step_private toy ready_example blank_key _ (2 ^ 31 + 3) toy_laws ready_example_ok (proj1 blank_key_wf) W S ltac:(lia)) as (K2 & D2).
  rewrite K1. cbn [bind]. 
  destruct (ckd_priv toy (be_val (xk_key M)) (x_chain_code (xk_ext M)) 3) as [[k c]|]; [|discriminate].
  destruct (ckd_priv toy (be_val (xk_key M)) (x_chain_code (xk_ext M)) (2 ^ 31 + 3)) as [[k2 c2]|]; [|discriminate].
  destruct D1 as [(k' & c' & E1 & D1 & _)|(E1 & _)]; [|discriminate]. destruct D2 as [(k2' & c2' & E2 & D2 & _)|(E2 & _)]; [|discriminate].
  injection E1 as <- <-. injection E2 as <- <-. rewrite D1, D2. cbn [bind]. eexists. eexists. split; [reflexivity|]. split; [reflexivity|].
  cbn [xk_ext x_chain_code]. intros ->. rewrite Z.eqb_refl in Q. discriminate.
Qed.
