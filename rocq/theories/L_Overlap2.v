(** C103: what the standard leaves undefined; walking a path in place. *)
From Verif Require Import Base S_Words S_Secp S_Life M_Endian M_Sha2 M_Hash M_Random M_Secp M_Key M_Exkey
  M_Overlap S_Mem S_Overlap L_Endian L_Mem L_Sha1 L_Host L_Host2 L_Hash L_Bip32 L_Overlap L_Base58Check.

Lemma memcpy_overlap mem d s n : ~ disjoint d n s n -> memcpy_at Standard mem d s n = UB.
Proof.
  intros H. unfold memcpy_at. cbv zeta.
  replace ((d + n <=? s) || (s + n <=? d))%nat with false; [reflexivity|].
  symmetry. apply orb_false_iff. rewrite !Nat.leb_gt. unfold disjoint in H. lia.
Qed.
Lemma bytes_region mem a n : bytes mem -> bytes (region mem a n).
Proof. intros. unfold region. apply bytes_firstn, bytes_skipn. assumption. Qed.

Lemma key_derive_undefined E g mem key chain outk outc child : secp_laws E -> ready g -> bytes mem ->
  (key + 32 <= length mem)%nat -> (chain + 32 <= length mem)%nat -> scalar (be_val (region mem key 32)) ->
  ~ disjoint outk 32 key 32 -> key_derive_at Standard E g mem key chain outk outc child = UB.
Proof.
  intros LE G B Hk Hc Sk D. unfold key_derive_at.
  match goal with |- bind ?x _ = _ => assert (X : exists out, x = Ok (true, out)) end.
  2: { destruct X as [out ->]. cbn [bind negb]. rewrite memcpy_overlap by exact D. reflexivity. }
  destruct (Z.shiftr child 31 =? 0).
  - rewrite get_pub_at. rewrite <- (app_nil_r (region mem key 32)). rewrite get_pub_ok by (try rewrite region_length; auto). cbn [bind].
    change BTC_COMPRESSED_PUBLIC_KEY_SIZE with (if true then 33 else 65)%nat.
    rewrite (pub_encode_ok E g true) by (auto; rewrite uninit_length; lia). cbn [bind].
    destruct (law_ser33 E LE (pub_of E (be_val (region mem key 32)))) as (Ls & Bs & _).
    rewrite skipn_all2 by (rewrite uninit_length; lia). rewrite app_nil_r.
    set (s := ser E true _) in *. clearbody s. destruct s as [|h s]; [discriminate|]. cbn [length] in Ls. apply bytes_cons in Bs.
    cbn [rd nth_error bind skipn]. change (rd (h :: s) 0) with (Ok h). cbn [bind].
    rewrite bip32_hash_ok by (try apply bytes_skipn; try rewrite skipn_length; auto; try lia; tauto). cbn [bind].
    unfold cleanse. rewrite store_ok by (rewrite repeat_length; cbn [length]; lia). cbn [bind]. eexists. reflexivity.
  - rewrite bip32_hash_ok by (try apply bytes_skipn; try rewrite skipn_length; auto; lia). cbn [bind]. eexists. reflexivity.
Qed.

Lemma exkey_derive_indep E g k d d' child fp k' : length (xk_key d) = 32%nat -> length (x_chain_code (xk_ext d)) = 32%nat ->
  length (xk_key d') = 32%nat -> length (x_chain_code (xk_ext d')) = 32%nat ->
  exkey_derive E g k d child fp = Ok (true, k') -> exkey_derive E g k d' child fp = Ok (true, k').
Proof.
  intros L1 L2 L3 L4. unfold exkey_derive. destruct (key_derive E g _ _ (xk_key d) _ child) as [[[r kk] c]| |] eqn:Ek; cbn [bind]; [|discriminate..].
  destruct r; [|discriminate]. rewrite (key_derive_indep _ _ _ _ _ _ _ _ _ _ _ L1 L2 L3 L4 Ek). cbn [bind]. auto.
Qed.

Lemma only_trans m m1 m2 a n : only_inside m m1 a n -> only_inside m1 m2 a n -> only_inside m m2 a n.
Proof. intros [L1 H1] [L2 H2]. split; [lia|]. intros p Hp. rewrite H2 by exact Hp. apply H1, Hp. Qed.

Lemma walk_at_ok E g fresh a : length (xk_key fresh) = 32%nat -> length (x_chain_code (xk_ext fresh)) = 32%nat ->
  forall path mem k, Forall (fun s => 0 <= fst s < 2 ^ 32 /\ 0 <= snd s < 2 ^ 32) path -> (a + 76 <= length mem)%nat ->
  walk E g fresh (ex_key_at mem a) path = Ok (true, k) ->
  exists mem', walk_at Tolerant E g mem a path = Ok (true, mem') /\ ex_key_at mem' a = k /\ only_inside mem mem' a 76.
Proof.
  intros L1 L2. induction path as [|[child fp] path IH]; intros mem k F Hm H; cbn [walk walk_at] in *.
  - injection H as <-. exists mem. split; [reflexivity|]. split; [reflexivity|apply only_refl].
  - apply Forall_cons_iff in F. destruct F as [[F1 F2] F]. cbn [fst snd] in F1, F2.
    apply bind_Ok in H. destruct H as ([r k1] & E1 & H). destruct r; [|discriminate].
    apply (exkey_derive_indep _ _ _ fresh (ex_key_at mem a)) in E1; auto; try (cbn [ex_key_at xk_key xk_ext ext_at x_chain_code]; apply region_length; lia).
    pose proof (exkey_derive_at_ok Tolerant E g mem a a child fp Hm Hm F1 F2 (or_intror (conj eq_refl eq_refl))) as P. rewrite E1 in P.
    destruct P as (m1 & P1 & P2 & P3). rewrite P1. cbn [bind]. rewrite <- P2 in H.
    destruct (IH m1 k F ltac:(destruct P3; lia) H) as (m2 & Q1 & Q2 & Q3). exists m2. split; [exact Q1|]. split; [exact Q2|].
    eapply only_trans; eassumption.
Qed.
