(** Lemmas about the observations of key derivation, signing and extended keys. *)
From Verif Require Import Base S_Words L_Endian M_Endian M_Sha2 M_Hash M_Random M_Secp M_Key M_Exkey M_Overlap M_Leak M_LeakKey
  S_Secp S_Life S_Sign S_Exkey S_LeakKey L_Secp L_Der P_Der S_Bip32 P_Sign L_Bip32 P_Bip32 L_Leak.

(* ------------------------------------------------------------------ *)
(** Erasure. *)
Ltac er := rewrite snd_bindl; cbn [snd tell pure bind].
Ltac be := er; apply bind_ext; intros.
Lemma key_get_pub_l_erase E g pk pp key : snd (key_get_pub_l E g pk pp key) = key_get_pub E g key.
Proof. unfold key_get_pub_l, key_get_pub. be. er. reflexivity. Qed.
Lemma pubkey_encode_l_erase E g pp po P out len : snd (pubkey_encode_l E g pp po P out len) = pubkey_encode E g P out len.
Proof. unfold pubkey_encode_l, pubkey_encode. cbv zeta. er. be. er. be. er. be. er. be. reflexivity. Qed.
Lemma key_derive_l_erase E g pk pc pok poc key chain ok oc child :
  snd (key_derive_l E g pk pc pok poc key chain ok oc child) = key_derive E g key chain ok oc child.
Proof.
  unfold key_derive_l, key_derive. er. er. apply bind_ext2.
  - destruct (Z.shiftr child 31 =? 0).
    + rewrite snd_bindl, key_get_pub_l_erase. apply bind_ext. intros P. rewrite snd_bindl, pubkey_encode_l_erase. apply bind_ext. intros [r e].
      er. be. rewrite snd_bindl, btc_bip32_hash_l_erase. apply bind_ext. intros o. er. be. reflexivity.
    + rewrite snd_bindl, btc_bip32_hash_l_erase. apply bind_ext. reflexivity.
  - intros [r o]. er. destruct (negb r); [er; reflexivity|]. er. be. be. er. be. be. er. apply bind_ext. intros [r2 k2]. er. be. er. reflexivity.
Qed.
Lemma exkey_init_l_erase px ps key seed len : snd (exkey_init_l px ps key seed len) = exkey_init key seed len.
Proof.
  unfold exkey_init_l, exkey_init. rewrite snd_bindl, hmac_sha512_l_erase. apply bind_ext. intros o. er. be. be. er. be. be. er. be. reflexivity.
Qed.
Lemma exkey_derive_l_erase E g px pd key d child fp : snd (exkey_derive_l E g px pd key d child fp) = exkey_derive E g key d child fp.
Proof.
  unfold exkey_derive_l, exkey_derive. rewrite snd_bindl, key_derive_l_erase. apply bind_ext. intros [[r k] c]. er. destruct r; [er|]; reflexivity.
Qed.
Lemma exkey_get_pub_l_erase E g px pp key p : snd (exkey_get_pub_l E g px pp key p) = exkey_get_pub E g key p.
Proof.
  unfold exkey_get_pub_l, exkey_get_pub. er. rewrite snd_bindl, key_get_pub_l_erase. apply bind_ext. intros P.
  rewrite snd_bindl, pubkey_encode_l_erase. apply bind_ext. intros [r c]. er. be. reflexivity.
Qed.
Lemma exkey_encode_l_erase px pc key code : snd (exkey_encode_l px pc key code) = exkey_encode key code.
Proof. unfold exkey_encode_l, exkey_encode. er. be. er. be. be. reflexivity. Qed.
Lemma exkey_decode_l_erase pc px code key : snd (exkey_decode_l pc px code key) = exkey_decode code key.
Proof. unfold exkey_decode_l, exkey_decode. er. be. er. be. be. reflexivity. Qed.
Lemma export_der_l_erase E c pk po out len key cmp : snd (export_der_l E c pk po out len key cmp) = export_der E c out len key cmp.
Proof.
  unfold export_der_l, export_der. be. er. destruct a as [P|]; [|reflexivity].
  destruct cmp; cbv zeta; er; be; er; be; er; be; be; er; be; be; er; be; er; be; reflexivity.
Qed.
Lemma key_encode_l_erase E g pk po key out len : snd (key_encode_l E g pk po key out len) = key_encode E g key out len.
Proof.
  unfold key_encode_l, key_encode. cbv zeta. er. be. er. rewrite snd_bindl, export_der_l_erase. apply bind_ext. intros [[r n] o].
  er. be. reflexivity.
Qed.
Lemma pubkey_keyid_l_erase E g pp po P c : snd (pubkey_keyid_l E g pp po P c) = pubkey_keyid E g P c.
Proof.
  unfold pubkey_keyid_l, pubkey_keyid. cbv zeta. er. rewrite snd_bindl, pubkey_encode_l_erase. apply bind_ext. intros [r e].
  er. be. be. apply btc_hash160_l_erase.
Qed.
Lemma key_keyid_l_erase E g pk po key c : snd (key_keyid_l E g pk po key c) = key_keyid E g key c.
Proof. unfold key_keyid_l, key_keyid. rewrite snd_bindl, key_get_pub_l_erase. apply bind_ext. intros P. apply pubkey_keyid_l_erase. Qed.
Lemma key_fingerprint_l_erase E g pk key c : snd (key_fingerprint_l E g pk key c) = key_fingerprint E g key c.
Proof. unfold key_fingerprint_l, key_fingerprint. rewrite snd_bindl, key_keyid_l_erase. apply bind_ext. intros i. er. reflexivity. Qed.
Lemma SigHasLowR_l_erase g p sig : snd (SigHasLowR_l g p sig) = SigHasLowR g sig.
Proof. unfold SigHasLowR_l, SigHasLowR. be. er. be. reflexivity. Qed.
Lemma grind_l_erase fuel E g ph pk ps hash key : forall sig e c,
  snd (grind_l fuel E g ph pk ps hash key sig e c) = grind fuel E g hash key sig e c.
Proof.
  induction fuel as [|fuel IH]; intros [s|] e c; cbn [grind_l grind]; er; try reflexivity;
    rewrite snd_bindl, SigHasLowR_l_erase; apply bind_ext; intros low; er; destruct low; try reflexivity.
  cbv zeta. er. be. be. er. apply IH.
Qed.
Lemma key_sign_l_erase fuel E g pk ph ps key hash : snd (key_sign_l fuel E g pk ph ps key hash) = key_sign fuel E g key hash.
Proof.
  unfold key_sign_l, key_sign. be. er. rewrite snd_bindl, grind_l_erase. apply bind_ext. intros [[s|]| |]; try er; reflexivity.
Qed.
Lemma walk_l_erase E g path : forall px py cur other,
  bind (snd (walk_l E g px py cur other path)) (fun r => Ok (option_map snd r)) = walk_two E g cur other path.
Proof.
  induction path as [|[i fp] path IH]; intros px py cur other; cbn [walk_l walk_two]; er; [reflexivity|].
  rewrite snd_bindl, exkey_derive_l_erase, bind_assoc. apply bind_ext. intros [r d]. er. destruct r; [apply IH|reflexivity].
Qed.
Lemma wallet_sign_l_erase fuel E g px py ps ph psig b1 b2 seed len path hash :
  snd (wallet_sign_l fuel E g px py ps ph psig b1 b2 seed len path hash) = wallet_sign fuel E g b1 b2 seed len path hash.
Proof.
  unfold wallet_sign_l, wallet_sign. rewrite snd_bindl, exkey_init_l_erase. apply bind_ext. intros k.
  rewrite snd_bindl. rewrite <- (walk_l_erase E g path px py k b2), bind_assoc. apply bind_ext. intros [[p k']|]; cbn [bind option_map snd].
  - er. rewrite snd_bindl, key_sign_l_erase. reflexivity.
  - er. reflexivity.
Qed.

(* ------------------------------------------------------------------ *)
(** Two successful runs make the same observations if their results agree in what [Rel] says. *)
Definition tr {A} (Rel : A -> A -> Prop) (x y : lk A) : Prop :=
  forall a b, snd x = Ok a -> snd y = Ok b -> Rel a b -> fst x = fst y.
Lemma tr_bind {A B} (R1 : A -> A -> Prop) (R2 : B -> B -> Prop) x y f g :
  sim R1 x y -> (forall a b, R1 a b -> tr R2 (f a) (g b)) -> tr R2 (bindl x f) (bindl y g).
Proof.
  intros [E S] H a b. destruct x as [tx [u| |]], y as [ty [v| |]]; cbn in *; try contradiction; unfold bindl; cbn; try discriminate.
  intros Ha Hb HR. rewrite E, (H u v S a b Ha Hb HR). reflexivity.
Qed.
Lemma tr_step {B} (R2 : B -> B -> Prop) t (f g : unit -> lk B) : tr R2 (f tt) (g tt) -> tr R2 (bindl (tell t) f) (bindl (tell t) g).
Proof. intros H. eapply tr_bind; [apply sim_tell|]. intros [] [] _. exact H. Qed.
Lemma tr_sim {A} (R1 R2 : A -> A -> Prop) x y : sim R1 x y -> tr R2 x y.
Proof. intros [E _] a b _ _ _. exact E. Qed.

(** what a valid key is here: 32 bytes, a scalar, whatever lies behind *)
Definition vkey (key : list Z) : Prop := exists k r, key = k ++ r /\ bytes k /\ length k = 32%nat /\ scalar (be_val k).
Lemma vkey_self k : bytes k -> length k = 32%nat -> scalar (be_val k) -> vkey k.
Proof. intros. exists k, []. rewrite app_nil_r. auto. Qed.
Lemma vkey_cov a b : vkey a -> vkey b -> cov 32 a b.
Proof. intros (k & r & -> & _ & L & _) (k' & r' & -> & _ & L' & _). split; rewrite app_length; lia. Qed.

Lemma get_pub_l_val E g pk pp key : ready g -> vkey key ->
  exists P, key_get_pub_l E g pk pp key = ([Lib PubkeyCreate [pp; pk] true; Test true], Ok P).
Proof.
  intros G (k & r & -> & _ & L & S). exists (pub_of E (be_val k)). unfold key_get_pub_l, secp_pubkey_create, sign_ctx.
  destruct G as (cs & cv & Gs & _ & Cs & _). rewrite Gs, Cs. cbn [c_assert bind]. rewrite slice32 by assumption. cbn [bind].
  unfold scalar in S. replace ((0 <? be_val k) && (be_val k <? secp_n)) with true by lia. reflexivity.
Qed.
Lemma get_pub_sim E g pk pp k1 k2 : ready g -> vkey k1 -> vkey k2 ->
  sim (fun _ _ => True) (key_get_pub_l E g pk pp k1) (key_get_pub_l E g pk pp k2).
Proof.
  intros G V1 V2. destruct (get_pub_l_val E g pk pp k1 G V1) as [P1 ->]. destruct (get_pub_l_val E g pk pp k2 G V2) as [P2 ->].
  split; [reflexivity|exact I].
Qed.
Definition encrel (n : nat) (a b : bool * list Z) : Prop := fst a = true /\ fst b = true /\ len2 n (snd a) (snd b).
Lemma pubkey_encode_sim E g pp po P1 P2 o1 o2 n len : secp_laws E -> ready g -> len2 n o1 o2 -> (len <= n)%nat -> (len = 33 \/ len = 65)%nat ->
  sim (encrel n) (pubkey_encode_l E g pp po P1 o1 len) (pubkey_encode_l E g pp po P2 o2 len).
Proof.
  intros Laws G Ho Hn Hl. unfold pubkey_encode_l. cbv zeta. apply sim_step.
  eapply sim_bind; [apply sim_pure; instantiate (1 := fun _ _ => True); destruct Hl; subst len; exact I|]. intros _ _ _. apply sim_step.
  assert (LS : forall P, length (ser E (len =? 33)%nat P) = len).
  { intros P. destruct Hl as [-> | ->]; [apply (law_ser33 E Laws)|apply (law_ser65 E Laws)]. }
  eapply sim_bind.
  { apply sim_pure. instantiate (1 := len2 len). unfold secp_pubkey_serialize. destruct (ready_sign g G) as [x ->]. cbn [any_ctx bind].
    replace ((if (len =? 33)%nat then 33%nat else 65%nat) <=? len)%nat with true by (destruct Hl; subst len; reflexivity).
    cbn [c_assert bind rsim]. split; apply LS. }
  intros b1 b2 [L1 L2]. apply sim_step. eapply sim_bind; [apply sim_pure; apply (store_len _ _ n 0 _ _ len); [exact Ho|split; assumption|lia]|].
  intros q1 q2 Hq. rewrite L1, L2, Nat.eqb_refl. apply sim_step. eapply sim_bind; [apply sim_pure; instantiate (1 := fun _ _ => True); exact I|].
  intros _ _ _. apply sim_pure. split; [reflexivity|]. split; [reflexivity|exact Hq].
Qed.

Definition kdrel (a b : bool * list Z * list Z) : Prop := fst (fst a) = fst (fst b).
Lemma tweak_sim g k1 k2 t1 t2 : ready g -> cov 32 k1 k2 -> cov 32 t1 t2 ->
  exists r1 x1 r2 x2, secp_privkey_tweak_add (g_sign g) k1 t1 = Ok (r1, x1) /\ secp_privkey_tweak_add (g_sign g) k2 t2 = Ok (r2, x2) /\ len2 32 x1 x2.
Proof.
  intros G [K1 K2] [T1 T2]. unfold secp_privkey_tweak_add. destruct (ready_sign g G) as [x ->]. cbn [any_ctx bind].
  rewrite !slice_ok by lia. cbn [bind].
  do 2 match goal with |- context [if ?b then Ok (true, ?u) else Ok (false, ?v)] =>
    replace (if b then Ok (true, u) else Ok (false, v)) with (Ok (b, if b then u else v)) by (destruct b; reflexivity) end.
  do 4 eexists. split; [reflexivity|]. split; [reflexivity|].
  split; match goal with |- length (if ?b then _ else _) = _ => destruct b end; first [apply be_bytes_length|apply repeat_length].
Qed.
Lemma kind_eq i j : same_kind i j -> 0 <= i < 2 ^ 32 -> 0 <= j < 2 ^ 32 -> (Z.shiftr i 31 =? 0) = (Z.shiftr j 31 =? 0).
Proof. intros H Hi Hj. rewrite !child_kind by assumption. unfold same_kind in H. destruct (Z.leb_spec (2 ^ 31) i), (Z.leb_spec (2 ^ 31) j); cbn; try reflexivity; lia. Qed.

Lemma key_derive_tr E g pk pc pok poc k1 k2 c1 c2 ok1 ok2 oc1 oc2 i j n m : secp_laws E -> ready g -> vkey k1 -> vkey k2 -> cov 32 c1 c2 ->
  len2 n ok1 ok2 -> len2 m oc1 oc2 -> (32 <= n)%nat -> (32 <= m)%nat -> same_kind i j -> 0 <= i < 2 ^ 32 -> 0 <= j < 2 ^ 32 ->
  tr kdrel (key_derive_l E g pk pc pok poc k1 c1 ok1 oc1 i) (key_derive_l E g pk pc pok poc k2 c2 ok2 oc2 j).
Proof.
  intros Laws G V1 V2 Hc Hok Hoc Hn Hm SK Hi Hj. unfold key_derive_l. rewrite <- (kind_eq i j SK Hi Hj). apply tr_step.
  eapply tr_bind with (R1 := encrel 64).
  - destruct (Z.shiftr i 31 =? 0).
    + eapply sim_bind; [apply get_pub_sim; assumption|]. intros P1 P2 _.
      eapply sim_bind; [apply (pubkey_encode_sim E g _ _ P1 P2 _ _ 33 33 Laws G); [apply len2_repeat|lia|lia]|].
      intros [r1 e1] [r2 e2] (R1 & R2 & He). cbn [fst snd] in *. subst r1 r2. apply sim_step.
      eapply sim_bind.
      { apply sim_pure. instantiate (1 := fun _ _ => True). destruct He as [L1 L2]. destruct e1, e2; try discriminate. exact I. }
      intros h1 h2 _. eapply sim_bind; [apply btc_bip32_hash_sim; [exact Hc|apply cov_skipn; apply (cov_of_len2 33); [exact He|lia]]|].
      intros q1 q2 Hq. apply sim_step. eapply sim_bind.
      { apply sim_pure. apply (store_len _ _ 33 0 _ _ 33); [exact He|apply len2_repeat|lia]. }
      intros _ _ _. apply sim_pure. split; [reflexivity|]. split; [reflexivity|exact Hq].
    + eapply sim_bind; [apply btc_bip32_hash_sim; [exact Hc|apply vkey_cov; assumption]|].
      intros q1 q2 Hq. apply sim_pure. split; [reflexivity|]. split; [reflexivity|exact Hq].
  - intros [r1 q1] [r2 q2] (R1 & R2 & Hq). cbn [fst snd] in *. subst r1 r2. apply tr_step. cbn [negb]. apply tr_step.
    eapply tr_bind; [apply sim_pure; apply slice_cov; apply vkey_cov; assumption|]. intros x1 x2 Hx.
    eapply tr_bind; [apply sim_pure; apply (store_len _ _ n 0 _ _ 32); [exact Hok|exact Hx|lia]|]. intros o1 o2 Ho. apply tr_step.
    eapply tr_bind; [apply sim_pure; apply slice_cov; apply (cov_of_len2 64); [exact Hq|lia]|]. intros y1 y2 Hy.
    eapply tr_bind; [apply sim_pure; apply (store_len _ _ m 0 _ _ 32); [exact Hoc|exact Hy|lia]|]. intros s1 s2 Hs.
    destruct (tweak_sim g o1 o2 q1 q2 G) as (b1 & z1 & b2 & z2 & E1 & E2 & Hz);
      [apply (cov_of_len2 n); [exact Ho|lia]|apply (cov_of_len2 64); [exact Hq|lia]|].
    assert (S3 : rsim (len2 n) (store o1 0 z1) (store o2 0 z2)) by (apply (store_len _ _ n 0 _ _ 32); [exact Ho|exact Hz|lia]).
    intros a b Ha Hb HR. rewrite snd_bindl in Ha, Hb. cbn [snd pure] in Ha, Hb. rewrite E1 in Ha. rewrite E2 in Hb. rewrite E1, E2.
    cbn [bind] in Ha, Hb. rewrite snd_bindl in Ha, Hb. cbn [snd tell pure bind] in Ha, Hb.
    rewrite snd_bindl in Ha, Hb. cbn [snd tell pure bind] in Ha, Hb.
    destruct (store o1 0 z1) as [w1| |] eqn:W1, (store o2 0 z2) as [w2| |] eqn:W2; cbn in S3; try contradiction; try discriminate.
    cbn [bind] in Ha, Hb. rewrite snd_bindl in Ha, Hb. cbn [snd tell pure bind] in Ha, Hb.
    injection Ha as <-. injection Hb as <-. unfold kdrel in HR. cbn [fst] in HR. subst b2.
    unfold bindl, pure, tell. cbn [fst snd app]. rewrite W1, W2. reflexivity.
Qed.

Definition xdrel (a b : bool * ex_key) : Prop := fst a = fst b.
Lemma exkey_derive_tr E g px pd x1 x2 d1 d2 i j f1 f2 : secp_laws E -> ready g -> wf_key x1 -> wf_key x2 ->
  scalar (be_val (xk_key x1)) -> scalar (be_val (xk_key x2)) -> wf_key d1 -> wf_key d2 -> same_kind i j -> 0 <= i < 2 ^ 32 -> 0 <= j < 2 ^ 32 ->
  tr xdrel (exkey_derive_l E g px pd x1 d1 i f1) (exkey_derive_l E g px pd x2 d2 j f2).
Proof.
  intros Laws G W1 W2 S1 S2 D1 D2 SK Hi Hj. unfold exkey_derive_l.
  assert (T := key_derive_tr E g (padd px o_key) (padd px o_chain) (padd pd o_key) (padd pd o_chain)
    (xk_key x1) (xk_key x2) (x_chain_code (xk_ext x1)) (x_chain_code (xk_ext x2)) (xk_key d1) (xk_key d2)
    (x_chain_code (xk_ext d1)) (x_chain_code (xk_ext d2)) i j 32 32 Laws G).
  destruct W1 as ((_ & _ & _ & _ & Lc1) & Bk1 & Lk1), W2 as ((_ & _ & _ & _ & Lc2) & Bk2 & Lk2).
  destruct D1 as ((_ & _ & _ & _ & Ld1) & _ & Le1), D2 as ((_ & _ & _ & _ & Ld2) & _ & Le2).
  specialize (T (vkey_self _ Bk1 Lk1 S1) (vkey_self _ Bk2 Lk2 S2) ltac:(split; lia) ltac:(split; assumption) ltac:(split; assumption)
    (le_n _) (le_n _) SK Hi Hj).
  intros a b Ha Hb HR. rewrite snd_bindl in Ha, Hb.
  destruct (key_derive_l E g _ _ _ _ (xk_key x1) _ _ _ i) as [t1 [[[r1 k1] c1]| |]]; cbn [snd bind] in Ha; try discriminate.
  destruct (key_derive_l E g _ _ _ _ (xk_key x2) _ _ _ j) as [t2 [[[r2 k2] c2]| |]]; cbn [snd bind] in Hb; try discriminate.
  assert (r1 = r2).
  { rewrite snd_bindl in Ha, Hb. cbn [snd tell bind] in Ha, Hb. unfold xdrel in HR. destruct r1, r2; try reflexivity;
    try (rewrite snd_bindl in Ha); try (rewrite snd_bindl in Hb); cbn [snd tell pure bind] in Ha, Hb;
    injection Ha as <-; injection Hb as <-; discriminate. }
  subst r2. specialize (T (r1, k1, c1) (r1, k2, c2) eq_refl eq_refl eq_refl). cbn [fst] in T. subst t2.
  unfold bindl at 1. cbn [fst snd]. unfold bindl at 3. cbn [fst snd]. destruct r1; reflexivity.
Qed.

Lemma exkey_init_sim px ps b1 b2 s1 s2 len : wf_key b1 -> wf_key b2 -> cov len s1 s2 ->
  sim (fun _ _ => True) (exkey_init_l px ps b1 s1 len) (exkey_init_l px ps b2 s2 len).
Proof.
  intros ((_ & _ & _ & _ & Lc1) & _ & Lk1) ((_ & _ & _ & _ & Lc2) & _ & Lk2) Hs. unfold exkey_init_l.
  eapply sim_bind; [apply hmac_sha512_sim; [split; apply le_n|exact Hs]|]. intros o1 o2 Ho. apply sim_step.
  eapply sim_bind; [apply sim_pure; apply slice_cov; apply (cov_of_len2 64); [exact Ho|lia]|]. intros x1 x2 Hx.
  eapply sim_bind; [apply sim_pure; apply (store_len _ _ 32 0 _ _ 32); [split; assumption|exact Hx|lia]|]. intros y1 y2 Hy. apply sim_step.
  eapply sim_bind; [apply sim_pure; apply slice_cov; apply (cov_of_len2 64); [exact Ho|lia]|]. intros z1 z2 Hz.
  eapply sim_bind; [apply sim_pure; apply (store_len _ _ 32 0 _ _ 32); [split; assumption|exact Hz|lia]|]. intros w1 w2 Hw. apply sim_step.
  eapply sim_bind; [apply sim_pure; apply (store_len _ _ 64 0 _ _ 64); [exact Ho|apply len2_repeat|lia]|]. intros _ _ _. apply sim_pure. exact I.
Qed.

Lemma exkey_get_pub_sim E g px pp x1 x2 p1 p2 : secp_laws E -> ready g -> wf_key x1 -> wf_key x2 ->
  scalar (be_val (xk_key x1)) -> scalar (be_val (xk_key x2)) -> wf_pub p1 -> wf_pub p2 ->
  sim (fun _ _ => True) (exkey_get_pub_l E g px pp x1 p1) (exkey_get_pub_l E g px pp x2 p2).
Proof.
  intros Laws G (_ & Bk1 & Lk1) (_ & Bk2 & Lk2) S1 S2 (_ & _ & L1) (_ & _ & L2). unfold exkey_get_pub_l. apply sim_step.
  eapply sim_bind; [apply get_pub_sim; [exact G|apply vkey_self; assumption|apply vkey_self; assumption]|]. intros P1 P2 _.
  rewrite L1, L2. eapply sim_bind; [apply (pubkey_encode_sim E g _ _ P1 P2 _ _ 33 33 Laws G); [split; assumption|lia|lia]|].
  intros [r1 e1] [r2 e2] (R1 & R2 & _). cbn [fst snd] in *. subst r1 r2. apply sim_step.
  eapply sim_bind; [apply sim_pure; instantiate (1 := fun _ _ => True); exact I|]. intros _ _ _. apply sim_pure. exact I.
Qed.

Lemma write_at_len a b n off k (w1 w2 : list Z -> res (list Z)) : len2 n a b -> (off + k <= n)%nat ->
  (forall x y, len2 (n - off) x y -> rsim (len2 (n - off)) (w1 x) (w2 y)) -> rsim (len2 n) (write_at a off w1) (write_at b off w2).
Proof.
  intros [La Lb] H Hw. unfold write_at. eapply rsim_bind; [apply Hw; split; rewrite skipn_length; lia|].
  intros x y [Lx Ly]. cbn. split; rewrite app_length, firstn_length; lia.
Qed.
Lemma write_ext_sim e1 e2 c1 c2 n : len2 n c1 c2 -> (41 <= n)%nat -> wf_ext e1 -> wf_ext e2 ->
  rsim (len2 n) (write_key_extension e1 c1) (write_key_extension e2 c2).
Proof.
  intros Hc Hn (_ & _ & _ & _ & L1) (_ & _ & _ & _ & L2). unfold write_key_extension.
  eapply rsim_bind; [apply (store_len _ _ n 0 _ _ 1); [exact Hc|split; reflexivity|lia]|]. intros a1 a2 Ha.
  eapply rsim_bind.
  { apply (write_at_len _ _ n 1 4); [exact Ha|lia|]. intros x y Hxy. unfold write_little_32. apply (store_len _ _ (n - 1) 0 _ _ 4); [exact Hxy|split; reflexivity|lia]. }
  intros b1 b2 Hb. eapply rsim_bind.
  { apply (write_at_len _ _ n 5 4); [exact Hb|lia|]. intros x y Hxy. unfold write_big_32. apply (store_len _ _ (n - 5) 0 _ _ 4); [exact Hxy|split; reflexivity|lia]. }
  intros d1 d2 Hd. eapply rsim_bind; [apply (slice_cov _ _ 0 32); split; lia|]. intros f1 f2 Hf.
  apply (store_len _ _ n 9 _ _ 32); [exact Hd|exact Hf|lia].
Qed.
Lemma exkey_encode_sim px pc x1 x2 c1 c2 n : wf_key x1 -> wf_key x2 -> len2 n c1 c2 -> (74 <= n)%nat ->
  sim (len2 n) (exkey_encode_l px pc x1 c1) (exkey_encode_l px pc x2 c2).
Proof.
  intros (W1 & _ & L1) (W2 & _ & L2) Hc Hn. unfold exkey_encode_l. apply sim_step.
  eapply sim_bind; [apply sim_pure; apply (write_ext_sim _ _ _ _ n); [exact Hc|lia|exact W1|exact W2]|]. intros a1 a2 Ha. apply sim_step.
  eapply sim_bind; [apply sim_pure; apply (store_len _ _ n 41 _ _ 1); [exact Ha|split; reflexivity|lia]|]. intros b1 b2 Hb.
  eapply sim_bind; [apply sim_pure; apply (slice_cov _ _ 0 32); split; lia|]. intros d1 d2 Hd. apply sim_pure.
  apply (store_len _ _ n 42 _ _ 32); [exact Hb|exact Hd|lia].
Qed.
Lemma rsim_ok {A B} (Rel : B -> B -> Prop) (x y : res A) (f h : A -> res B) :
  (exists a, x = Ok a) -> (exists b, y = Ok b) -> (forall a b, rsim Rel (f a) (h b)) -> rsim Rel (bind x f) (bind y h).
Proof. intros [a ->] [b ->] H. apply H. Qed.
Lemma rd_any (m : list Z) i : (i < length m)%nat -> exists v, rd m i = Ok v.
Proof. intros H. unfold rd. destruct (nth_error m i) eqn:E; [eauto|]. apply nth_error_None in E. lia. Qed.
Lemma slice_any (m : list Z) off n : (off + n <= length m)%nat -> exists v, slice m off n = Ok v.
Proof. intros H. rewrite slice_ok by lia. eauto. Qed.
Lemma read_ext_sim c1 c2 e1 e2 : cov 74 c1 c2 -> wf_ext e1 -> wf_ext e2 ->
  rsim (fun _ _ => True) (read_key_extension c1 e1) (read_key_extension c2 e2).
Proof.
  intros [H1 H2] (_ & _ & _ & _ & L1) (_ & _ & _ & _ & L2). unfold read_key_extension.
  apply rsim_ok; [apply rd_any; lia|apply rd_any; lia|]. intros d1 d2.
  assert (R : forall c : list Z, (74 <= length c)%nat -> (exists v, read_little_32 (skipn 1 c) = Ok v) /\ (exists v, read_big_32 (skipn 5 c) = Ok v)).
  { intros c Hc. unfold read_little_32, read_big_32. destruct (slice_any (skipn 1 c) 0 4) as [u ->]; [rewrite skipn_length; lia|].
    destruct (slice_any (skipn 5 c) 0 4) as [v ->]; [rewrite skipn_length; lia|]. cbn [bind]. eauto. }
  apply rsim_ok; [apply R; lia|apply R; lia|]. intros f1 f2. apply rsim_ok; [apply R; lia|apply R; lia|]. intros g1 g2.
  eapply rsim_bind; [apply (slice_cov c1 c2 9 32); split; lia|]. intros x1 x2 Hx.
  eapply rsim_bind; [apply (store_len _ _ 32 0 _ _ 32); [split; assumption|exact Hx|lia]|]. intros y1 y2 _. exact I.
Qed.
Lemma exkey_decode_sim pc px c1 c2 x1 x2 : wf_key x1 -> wf_key x2 -> cov 74 c1 c2 ->
  sim (fun _ _ => True) (exkey_decode_l pc px c1 x1) (exkey_decode_l pc px c2 x2).
Proof.
  intros (W1 & _ & L1) (W2 & _ & L2) Hc. unfold exkey_decode_l. apply sim_step.
  eapply sim_bind; [apply sim_pure; apply read_ext_sim; assumption|]. intros e1 e2 _. apply sim_step.
  eapply sim_bind; [apply sim_pure; apply (slice_cov c1 c2 42 32); exact Hc|]. intros k1 k2 Hk.
  eapply sim_bind; [apply sim_pure; apply (store_len _ _ 32 0 _ _ 32); [split; assumption|exact Hk|lia]|]. intros y1 y2 _. apply sim_pure. exact I.
Qed.

Lemma keyid_sim E g pk po k1 k2 c : secp_laws E -> ready g -> vkey k1 -> vkey k2 ->
  sim (len2 20) (key_keyid_l E g pk po k1 c) (key_keyid_l E g pk po k2 c).
Proof.
  intros Laws G V1 V2. unfold key_keyid_l. eapply sim_bind; [apply get_pub_sim; assumption|]. intros P1 P2 _.
  unfold pubkey_keyid_l. cbv zeta. apply sim_step.
  eapply sim_bind; [apply (pubkey_encode_sim E g _ _ P1 P2 _ _ 65); [exact Laws|exact G|apply len2_repeat|destruct c; unfold BTC_COMPRESSED_PUBLIC_KEY_SIZE, BTC_PUBLIC_KEY_SIZE; lia|
    destruct c; unfold BTC_COMPRESSED_PUBLIC_KEY_SIZE, BTC_PUBLIC_KEY_SIZE; auto]|].
  intros [r1 e1] [r2 e2] (R1 & R2 & He). cbn [fst snd] in *. subst r1 r2. apply sim_step.
  eapply sim_bind; [apply sim_pure; instantiate (1 := fun _ _ => True); exact I|]. intros _ _ _.
  eapply sim_bind; [apply sim_pure; apply slice_cov; apply (cov_of_len2 65); [exact He|destruct c; unfold BTC_COMPRESSED_PUBLIC_KEY_SIZE, BTC_PUBLIC_KEY_SIZE; lia]|].
  intros w1 w2 Hw. apply btc_hash160_sim. eapply cov_of_len2; [exact Hw|lia].
Qed.
Lemma fingerprint_sim E g pk k1 k2 c : secp_laws E -> ready g -> vkey k1 -> vkey k2 ->
  sim (fun _ _ => True) (key_fingerprint_l E g pk k1 c) (key_fingerprint_l E g pk k2 c).
Proof.
  intros Laws G V1 V2. unfold key_fingerprint_l. eapply sim_bind; [apply keyid_sim; assumption|]. intros i1 i2 [L1 L2]. apply sim_step.
  apply sim_pure. unfold read_little_32. apply rsim_ok; [apply slice_any; lia|apply slice_any; lia|]. intros a b. exact I.
Qed.

Lemma key_encode_sim E g pk po k1 k2 o1 o2 n len : secp_laws E -> ready g -> vkey k1 -> vkey k2 -> len2 n o1 o2 -> (len <= n)%nat ->
  (len = 214 \/ len = 279)%nat -> sim (fun _ _ => True) (key_encode_l E g pk po k1 o1 len) (key_encode_l E g pk po k2 o2 len).
Proof.
  intros Laws G V1 V2 Ho Hn Hl. unfold key_encode_l. cbv zeta. apply sim_step.
  eapply sim_bind; [apply sim_pure; instantiate (1 := fun _ _ => True); destruct Hl; subst len; exact I|]. intros _ _ _. apply sim_step.
  set (cmp := (len =? BTC_COMPRESSED_PRIVATE_KEY_SIZE)%nat).
  assert (Hlen : len = if cmp then BTC_COMPRESSED_PRIVATE_KEY_SIZE else BTC_PRIVATE_KEY_SIZE) by (unfold cmp; destruct Hl; subst len; reflexivity).
  clearbody cmp.
  eapply sim_bind with (R1 := fun a b => fst a = (true, len) /\ fst b = (true, len)).
  - unfold export_der_l.
    assert (PC : forall k, vkey k -> exists P, secp_pubkey_create E (g_sign g) k = Ok (Some P)).
    { intros k (kk & r & -> & _ & L & S). unfold secp_pubkey_create, sign_ctx. destruct G as (cs & cv & Gs & _ & Cs & _). rewrite Gs, Cs.
      cbn [c_assert bind]. rewrite slice32 by assumption. cbn [bind]. unfold scalar in S.
      replace ((0 <? be_val kk) && (be_val kk <? secp_n)) with true by lia. eauto. }
    destruct (PC k1 V1) as [P1 ->], (PC k2 V2) as [P2 ->].
    eapply sim_bind; [apply sim_pure; instantiate (1 := fun a b => a = Some P1 /\ b = Some P2); split; reflexivity|].
    intros q1 q2 [-> ->]. cbn [is_some negb]. apply sim_step.
    assert (PS : forall P, exists bs, secp_pubkey_serialize E (g_sign g) P (if cmp then BTC_COMPRESSED_PUBLIC_KEY_SIZE else BTC_PUBLIC_KEY_SIZE) cmp = Ok bs /\
      length bs = if cmp then 33%nat else 65%nat).
    { intros P. unfold secp_pubkey_serialize. destruct (ready_sign g G) as [x ->]. exists (ser E cmp P).
      destruct cmp; (split; [reflexivity|]); [apply (law_ser33 E Laws)|apply (law_ser65 E Laws)]. }
    destruct (PS P1) as (s1 & E1 & L1), (PS P2) as (s2 & E2 & L2).
    assert (K := vkey_cov k1 k2 V1 V2).
    destruct cmp; subst len; cbv beta iota zeta; apply sim_step;
    (eapply sim_bind; [apply sim_pure; instantiate (1 := fun _ _ => True); exact I|]); intros _ _ _; apply sim_step;
    (eapply sim_bind; [apply sim_pure; eapply (store_len _ _ n 0); [exact Ho|split; reflexivity|unfold BTC_COMPRESSED_PRIVATE_KEY_SIZE, BTC_PRIVATE_KEY_SIZE in *; cbn [length der_begin_c der_begin_u]; lia]|]);
    intros a1 a2 Ha; apply sim_step;
    (eapply sim_bind; [apply sim_pure; apply (slice_cov k1 k2 0 32); exact K|]); intros b1 b2 Hb;
    (eapply sim_bind; [apply sim_pure; eapply (store_len _ _ n); [exact Ha|exact Hb|unfold BTC_COMPRESSED_PRIVATE_KEY_SIZE, BTC_PRIVATE_KEY_SIZE in *; cbn [length der_begin_c der_begin_u]; lia]|]);
    intros d1 d2 Hd; apply sim_step;
    (eapply sim_bind; [apply sim_pure; eapply (store_len _ _ n); [exact Hd|split; reflexivity|unfold BTC_COMPRESSED_PRIVATE_KEY_SIZE, BTC_PRIVATE_KEY_SIZE in *; cbn [length der_begin_c der_begin_u der_middle_c der_middle_u Nat.add]; lia]|]);
    intros f1 f2 Hf; cbv iota in E1, E2; rewrite E1, E2;
    (eapply sim_bind; [apply sim_pure; instantiate (1 := fun a b => a = s1 /\ b = s2); split; reflexivity|]); intros ? ? [-> ->]; apply sim_step;
    (eapply sim_bind; [apply sim_pure; eapply (store_len _ _ n); [exact Hf|split; eassumption|unfold BTC_COMPRESSED_PRIVATE_KEY_SIZE, BTC_PRIVATE_KEY_SIZE in *; cbn [length der_begin_c der_begin_u der_middle_c der_middle_u Nat.add]; lia]|]);
    intros h1 h2 Hh; rewrite L1, L2; apply sim_step;
    (eapply sim_bind; [apply sim_pure; instantiate (1 := fun _ _ => True); exact I|]); intros _ _ _; apply sim_pure; split; reflexivity.
  - intros [[r1 n1] x1] [[r2 n2] x2] [H1 H2]. cbn [fst] in H1, H2. injection H1 as -> ->. injection H2 as -> ->. apply sim_step.
    rewrite Nat.eqb_refl. eapply sim_bind; [apply sim_pure; instantiate (1 := fun _ _ => True); exact I|]. intros _ _ _. apply sim_pure. exact I.
Qed.

(* ------------------------------------------------------------------ *)
(** Signing: the observations as a function of the number of attempts. *)
Fixpoint grind_trace (ph pk psig : ptr) (c : nat) : list obs :=
  [Test true; Lib SerializeCompact [(CompactSig, 0%nat); psig] true; Read CompactSig 0 1] ++
  match c with
  | O => [Test false]
  | S c' => [Test true; Write ExtraEntropy 0 4; Lib EcdsaSign [psig; ph; pk; (ExtraEntropy, 0%nat)] true] ++ grind_trace ph pk psig c'
  end.
Lemma low_r_l g p r s : ready g -> 0 <= r < secp_n ->
  SigHasLowR_l g p (r, s) = ([Lib SerializeCompact [(CompactSig, 0%nat); p] true; Read CompactSig 0 1], Ok (r <? 2 ^ 255)).
Proof.
  intros G Hr. pose proof (low_r_ok g r s G Hr) as H. revert H. unfold SigHasLowR_l, SigHasLowR, bindl, pure, tell. cbn [fst snd].
  unfold secp_serialize_compact. destruct (ready_sign g G) as [x ->]. cbn [any_ctx bind fst snd app].
  destruct (rd _ 0) as [b| |]; cbn [bind fst snd app]; [|discriminate|discriminate]. intros ->. reflexivity.
Qed.
Lemma grind_l_trace E g key krest hash hrest ph pk psig : secp_laws E -> ready g -> bytes key -> length key = 32%nat -> bytes hash -> length hash = 32%nat ->
  forall d fuel c e s, attempt E key hash c = Some s -> good E key hash s -> length e = 32%nat -> skipn 4 e = repeat 0 28 ->
  attempts E key hash (c + d) -> (d <= fuel)%nat -> Z.of_nat (c + d) < 2 ^ 32 ->
  exists s', grind_l fuel E g ph pk psig (hash ++ hrest) (key ++ krest) (Some s) e (Z.of_nat c) = (grind_trace ph pk psig d, Ok (Returned (Some s'))).
Proof.
  intros Laws G Bk Lk Bh Lh. induction d as [|d IH]; intros fuel c e [r s] At Gs Le Se [A1 A2] Hf Hc.
  - rewrite Nat.add_0_r in A1. destruct A1 as (r' & s' & Ar & Hr). rewrite At in Ar. injection Ar as <- <-. exists (r, s).
    assert (LR := low_r_l g psig r s G ltac:(destruct Gs as (_ & S & _); unfold scalar in S; cbn [fst] in S; lia)).
    replace (r <? 2 ^ 255) with true in LR by lia.
    destruct fuel; cbn [grind_l grind_trace]; rewrite LR; reflexivity.
  - destruct fuel as [|fuel]; [lia|]. cbn [grind_l grind_trace].
    assert (LR := low_r_l g psig r s G ltac:(destruct Gs as (_ & S & _); unfold scalar in S; cbn [fst] in S; lia)).
    assert (Hr : ~ r < 2 ^ 255). { intros H. apply (A2 c ltac:(lia)). exists r, s. auto. }
    replace (r <? 2 ^ 255) with false in LR by lia.
    rewrite LR. replace (u32 (Z.of_nat c + 1)) with (Z.of_nat (S c)) by (unfold u32; rewrite Z.mod_small; lia).
    rewrite (entropy_step key hash Lk Lh) by first [assumption|lia].
    set (e' := le_bytes 4 (Z.of_nat (S c)) ++ repeat 0 28).
    assert (Le' : length e' = 32%nat) by (unfold e'; rewrite app_length, le_bytes_length, repeat_length; reflexivity).
    assert (SE := sign_extra E g key hash krest hrest G Lk Lh e' Le').
    assert (At' : ecdsa E key hash (Some e') = attempt E key hash (S c)) by reflexivity.
    destruct (ecdsa E key hash (Some e')) as [s'|] eqn:Es.
    2:{ exfalso. destruct Gs as (Sk & _). apply (law_signs E Laws key hash (Some e')) in Es; auto. }
    destruct (IH fuel (S c) e' s') as [s2 Hs2].
    + now rewrite At'.
    + exact (good_sign E key hash Laws Bk Lk Bh Lh _ s' Es).
    + assumption.
    + unfold e'. rewrite <- (le_bytes_length 4 (Z.of_nat (S c))) at 1. apply skipn_app_exact.
    + replace (S c + d)%nat with (c + S d)%nat by lia. split; assumption.
    + lia.
    + lia.
    + exists s2. unfold bindl, pure, tell. cbn [fst snd app negb]. rewrite SE. cbn [fst snd app]. rewrite Hs2. reflexivity.
Qed.
Lemma key_sign_l_trace E g key krest hash hrest ph pk psig fuel c : secp_laws E -> ready g -> bytes key -> length key = 32%nat -> bytes hash -> length hash = 32%nat ->
  scalar (be_val key) -> attempts E key hash c -> (c <= fuel)%nat -> Z.of_nat c < 2 ^ 32 ->
  exists s, key_sign_l fuel E g pk ph psig (key ++ krest) (hash ++ hrest) =
    ([Lib EcdsaSign [psig; ph; pk] true; Write ExtraEntropy 0 32] ++ grind_trace ph pk psig c ++ [Test true], Ok (Returned s)).
Proof.
  intros Laws G Bk Lk Bh Lh Sk A Hf Hc. unfold key_sign_l. assert (SN := sign_none E g key hash krest hrest G Lk Lh). rewrite SN.
  destruct (ecdsa E key hash None) as [s0|] eqn:E0. 2:{ exfalso. apply (law_signs E Laws key hash None) in E0; auto. }
  destruct (grind_l_trace E g key krest hash hrest ph pk psig Laws G Bk Lk Bh Lh c fuel 0 (repeat 0 32) s0) as [s' Hs'];
    [exact E0|exact (good_sign E key hash Laws Bk Lk Bh Lh None s0 E0)|reflexivity|reflexivity|exact A|exact Hf|exact Hc|].
  change (Z.of_nat 0) with 0 in Hs'. exists s'. unfold bindl, pure, tell. cbn [fst snd app is_some]. rewrite Hs'. reflexivity.
Qed.
Lemma grind_trace_length ph pk psig c : length (grind_trace ph pk psig c) = (4 + 6 * c)%nat.
Proof. induction c as [|c IH]; [reflexivity|]. cbn [grind_trace app length]. rewrite IH. lia. Qed.

(** A successful walk: the same observations, and where it ends the structures are valid. *)
Lemma derived_valid E g xk d child fp k : secp_laws E -> ready g -> wf_key xk -> scalar (be_val (xk_key xk)) -> wf_key d ->
  0 <= child < 2 ^ 32 -> 0 <= fp < 2 ^ 32 -> exkey_derive E g xk d child fp = Ok (true, k) -> wf_key k /\ scalar (be_val (xk_key k)).
Proof.
  intros Laws G W S Wd Hc Hf D. pose proof (exkey_derive_ok E g xk d child fp Laws G W S Wd Hc) as X.
  destruct (ckd_priv E (be_val (xk_key xk)) (x_chain_code (xk_ext xk)) child) as [[k' c]|]; [|destruct X as [d' X]; rewrite D in X; discriminate].
  destruct X as (X & Sk & Lc & Bc). rewrite D in X. injection X as ->. split.
  - split; [|split; [apply be_bytes_bytes|apply be_bytes_length]]. split; [apply Z.mod_pos_bound; lia|]. cbn [xk_ext x_fingerprint x_child x_chain_code]. auto.
  - cbn [xk_key]. rewrite be32_small by (unfold scalar in Sk; lia). exact Sk.
Qed.
Lemma walk_tr E g p1 p2 : secp_laws E -> ready g -> same_path p1 p2 -> Forall valid_step p1 -> Forall valid_step p2 ->
  forall px py x1 x2 o1 o2 q1 q2 k1 k2, wf_key x1 -> wf_key x2 -> scalar (be_val (xk_key x1)) -> scalar (be_val (xk_key x2)) -> wf_key o1 -> wf_key o2 ->
  snd (walk_l E g px py x1 o1 p1) = Ok (Some (q1, k1)) -> snd (walk_l E g px py x2 o2 p2) = Ok (Some (q2, k2)) ->
  fst (walk_l E g px py x1 o1 p1) = fst (walk_l E g px py x2 o2 p2) /\ q1 = q2 /\ wf_key k1 /\ wf_key k2 /\ scalar (be_val (xk_key k1)) /\ scalar (be_val (xk_key k2)).
Proof.
  intros Laws G SP. induction SP as [|[i f1] [j f2] p1 p2 SK SP IH]; intros F1 F2 px py x1 x2 o1 o2 q1 q2 k1 k2 W1 W2 S1 S2 O1 O2 H1 H2.
  - cbn [walk_l] in *. rewrite snd_bindl in H1, H2. cbn [snd tell pure bind] in H1, H2. injection H1 as <- <-. injection H2 as <- <-.
    split; [reflexivity|]. auto.
  - cbn [walk_l] in *. apply Forall_inv in F1 as V1. apply Forall_inv in F2 as V2. apply Forall_inv_tail in F1, F2.
    destruct V1 as [Vi Vf1], V2 as [Vj Vf2]. cbn [fst snd] in *.
    pose proof (exkey_derive_tr E g px py x1 x2 o1 o2 i j f1 f2 Laws G W1 W2 S1 S2 O1 O2 SK Vi Vj) as T.
    pose proof (exkey_derive_l_erase E g px py x1 o1 i f1) as E1. pose proof (exkey_derive_l_erase E g px py x2 o2 j f2) as E2.
    rewrite snd_bindl in H1, H2. cbn [snd tell bind] in H1, H2. rewrite snd_bindl in H1, H2.
    destruct (exkey_derive_l E g px py x1 o1 i f1) as [t1 [[r1 d1]| |]]; cbn [snd bind] in H1; try discriminate.
    destruct (exkey_derive_l E g px py x2 o2 j f2) as [t2 [[r2 d2]| |]]; cbn [snd bind] in H2; try discriminate.
    cbn [snd] in E1, E2. rewrite snd_bindl in H1, H2. cbn [snd tell bind] in H1, H2.
    destruct r1; [|discriminate]. destruct r2; [|discriminate].
    specialize (T (true, d1) (true, d2) eq_refl eq_refl eq_refl). cbn [fst] in T. subst t2. symmetry in E1, E2.
    apply derived_valid in E1 as [WD1 SD1]; auto. apply derived_valid in E2 as [WD2 SD2]; auto.
    destruct (IH F1 F2 py px d1 d2 x1 x2 q1 q2 k1 k2 WD1 WD2 SD1 SD2 W1 W2 H1 H2) as (T & R). split; [|exact R].
    unfold bindl, tell. cbn [fst snd app]. rewrite T. reflexivity.
Qed.
