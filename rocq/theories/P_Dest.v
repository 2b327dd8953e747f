(** C117: the texts the library writes are not confused with each other. *)
From Verif Require Import Base S_Words L_Endian M_Endian M_Hash S_Bits L_Bits M_Base32 L_Base32 M_Base58 S_Base58 L_Base58 P_Base58 M_Base58Check S_Base58Check L_Base58Check P_Base58Check
  M_Bech32 S_Bech32 L_Bch L_Bech32 S_Address M_Address L_Address P_Address M_Random M_Secp M_Key M_Exkey S_Key S_Exkey L_KeyStr P_Wif L_Exkey P_Bip32 P_Exkey P_Typos S_Dest.

(** What a Base58 text stands for: the prefix of its network and the bytes after it. *)
Definition prefix_of (x : thing) (net : chain_parameters) : list Z :=
  match x with
  | KeyHash _ => cp_pubkey net | ScriptHash _ => cp_script net | SecretKey _ _ => cp_secret net
  | ExtendedKey _ => cp_ext_sec net | ExtendedPub _ => cp_ext_pub net | _ => []
  end.
Definition body_of (x : thing) : list Z :=
  match x with
  | KeyHash h | ScriptHash h => h | SecretKey k c => k ++ (if c : bool then [1] else [])
  | ExtendedKey k => key_layout k | ExtendedPub k => pub_layout k | _ => []
  end.
(** What a witness address stands for. *)
Definition witness_of (x : thing) : Z * list Z :=
  match x with WitnessKeyHash h | WitnessScriptHash h => (0, h) | WitnessProgram v prog => (v, prog) | _ => (0, []) end.

Lemma old_key : wf_key blank_key /\ wf_pub blank_pub. Proof. exact blank_key_wf. Qed.
Lemma builtin_prefixes p : builtin p -> bytes (cp_secret p) /\ length (cp_secret p) = 1%nat /\ bytes (cp_ext_sec p) /\ length (cp_ext_sec p) = 4%nat /\
  bytes (cp_ext_pub p) /\ length (cp_ext_pub p) = 4%nat.
Proof.
  intros [-> | [-> | ->]]; cbn [cp_secret cp_ext_sec cp_ext_pub mainnet testnet regnet]; repeat (split; [first [reflexivity | repeat (constructor; [unfold is_byte; lia|]); constructor]|]); reflexivity.
Qed.
Lemma body_bytes x p : builtin p -> proper x -> bytes (prefix_of x p ++ body_of x).
Proof.
  intros Hp Hx. destruct (b58_args p Hp) as (_ & _ & B1 & B2 & _). destruct (builtin_prefixes p Hp) as (B3 & _ & B4 & _ & B5 & _).
  apply bytes_app. destruct x; cbn [prefix_of body_of proper] in *; (split; [first [assumption | constructor]|]); try tauto; try solve [constructor].
  - apply bytes_app. split; [tauto|]. destruct compressed; repeat constructor; unfold is_byte; lia.
  - exact (proj1 (proj2 (C66_exkey_encode key (repeat 0 74) [] Hx (repeat_length 0 74)))).
  - exact (proj1 (proj2 (C67_expubkey_encode key (repeat 0 74) [] Hx (repeat_length 0 74)))).
Qed.
Lemma written x p : builtin p -> proper x -> exists text, write_text x p = Ok (length text, text) /\ text <> [] /\
  (length text <= 128)%nat /\ Forall (fun c => 33 <= c <= 126) text /\
  if is_segwit x then text = witness_text (cp_hrp p) (fst (witness_of x)) (snd (witness_of x)) /\ sym (fst (witness_of x)) /\ bytes (snd (witness_of x)) /\ (length (snd (witness_of x)) <= 40)%nat
  else is_base58check (prefix_of x p ++ body_of x) text.
Proof.
  intros Hp Hx. destruct (b58_args p Hp) as (_ & _ & B1 & B2 & L1 & L2). destruct (builtin_prefixes p Hp) as (B3 & L3 & B4 & L4 & B5 & L5).
  assert (NE : forall d text, bytes d -> is_base58check d text -> text <> [] /\ Forall (fun c => 33 <= c <= 126) text).
  { intros d text By I. split.
    - intros ->. unfold is_base58check in I.
      assert (Q : d ++ checksum4 d = []).
      { apply (is_base58_inj _ [] []); [apply bytes_app; split; [exact By|apply checksum4_bytes]|constructor|exact I|].
        exists 0%nat, [], []. split; [reflexivity|]. split; [discriminate|]. split; [|reflexivity]. split; [constructor|]. split; [reflexivity|discriminate]. }
      apply (f_equal (@length Z)) in Q. rewrite app_length, checksum4_length in Q. cbn [length] in Q. lia.
    - destruct I as (z & r & ds & _ & _ & (Fd & _) & ->). apply Forall_app. split.
      + apply Forall_forall. intros c Hc. apply repeat_spec in Hc. lia.
      + apply Forall_forall. intros c Hc. apply in_map_iff in Hc as (dg & <- & Hd). rewrite Forall_forall in Fd. specialize (Fd dg Hd).
        clear -Fd. assert (Fb : forallb (fun i => let c := b58_char (Z.of_nat i) in (33 <=? c) && (c <=? 126)) (seq 0 58) = true) by (vm_compute; reflexivity).
        rewrite forallb_forall in Fb. specialize (Fb (Z.to_nat dg) ltac:(apply in_seq; lia)). rewrite Z2Nat.id in Fb by lia. cbv zeta in Fb. lia. }
  pose proof (body_bytes x p Hp Hx) as BB.
  assert (NW : forall ver prog, witness_text (cp_hrp p) ver prog <> []).
  { intros ver prog. unfold witness_text. cbv zeta. destruct (cp_hrp p); discriminate. }
  destruct (builtin_facts p Hp) as (_ & _ & Lh & Bh & _).
  assert (LW : forall ver prog, sym ver -> bytes prog -> (length prog <= 40)%nat -> (length (witness_text (cp_hrp p) ver prog) < 128)%nat /\ Forall (fun c => 33 <= c <= 126) (witness_text (cp_hrp p) ver prog)).
  { intros ver prog Sv Bp Lp. split.
    - rewrite witness_text_length by assumption. assert ((8 * length prog + 4) / 5 < 65)%nat by (apply Nat.div_lt_upper_bound; lia). lia.
    - destruct (witness_valid p ver prog Hp Bp Sv Lp) as (_ & P & _). eapply Forall_impl; [|exact P]. unfold printable. intros; lia. }
  destruct x; cbn [write_text is_segwit prefix_of body_of witness_of fst snd proper] in *.
  - destruct Hx as [Bx Lx]. destruct (C45_pubkey_capacity p 128 hash B1 Bx) as (t & E & Lt & R); [rewrite Lx, L1; vm_compute; discriminate|].
    exists t. split; [exact E|]. destruct R as [[R _]|[_ R]]; [rewrite Lx, L1 in R; vm_compute in R; lia|]. destruct (NE _ _ BB R). auto.
  - destruct Hx as [Bx Lx]. destruct (C45_script_capacity p 128 hash B2 Bx) as (t & E & Lt & R); [rewrite Lx, L2; vm_compute; discriminate|].
    exists t. split; [exact E|]. destruct R as [[R _]|[_ R]]; [rewrite Lx, L2 in R; vm_compute in R; lia|]. destruct (NE _ _ BB R). auto.
  - destruct Hx as [Bx Lx]. destruct (C45_witness_keyhash_capacity p 128 hash Bh Bx) as [_ W]. destruct (W Lx) as (t & E & Lt & R). exists t.
    destruct (LW 0 hash sym0 Bx ltac:(lia)) as [LL LP].
    destruct R as [[R _]|R]; [lia|]. subst t. repeat split; auto; try (unfold sym; lia); lia.
  - destruct Hx as [Bx Lx]. destruct (C45_witness_scripthash_capacity p 128 hash Bh Bx) as [_ W]. destruct (W Lx) as (t & E & Lt & R). exists t.
    destruct (LW 0 hash sym0 Bx ltac:(lia)) as [LL LP].
    destruct R as [[R _]|R]; [lia|]. subst t. repeat split; auto; try (unfold sym; lia); lia.
  - destruct Hx as (Hv & Bx & Lx). destruct (C45_witness_unknown_capacity p 128 (version :: program) Bh) as (t & E & Lt & R & K).
    { apply bytes_cons; split; [unfold is_byte; lia|exact Bx]. }
    exists t. split; [exact E|]. assert (Sv : sym version) by (unfold sym; lia). destruct (LW version program Sv Bx ltac:(lia)) as [LL LP].
    destruct R as [R|(v & pr & Q & R)]; [specialize (K R version program eq_refl Hv Lx); lia|].
    injection Q as <- <-. subst t. repeat split; auto; try apply Sv; lia.
  - destruct Hx as [Bx Lx]. destruct (key_to_string_ok key [] compressed p Bx Lx B3 ltac:(lia)) as (t & E & W & Lt).
    rewrite app_nil_r in E. exists t. destruct (NE _ _ BB W). repeat (split; [auto; lia|]). exact W.
  - destruct (exkey_to_string_ok key p Hx B4 ltac:(lia)) as (t & E & W & Lt). exists t. destruct (NE _ _ BB W).
    change exkey_string_max_length with 120%nat in Lt. repeat (split; [auto; lia|]). exact W.
  - destruct (expubkey_to_string_ok key p Hx B5 ltac:(lia)) as (t & E & W & Lt). exists t. destruct (NE _ _ BB W).
    change exkey_string_max_length with 120%nat in Lt. repeat (split; [auto; lia|]). exact W.
Qed.
Lemma as_address pre pl text : is_base58check (pre ++ pl) text -> base58_address pre pl text.
Proof. intros I. exists text. split; [apply trims_self|exact I]. Qed.

(** *** Base58 texts against witness texts: the first digit, or the length, gives it away *)
Definition digit_excluded (x c : Z) (m N : nat) : bool :=
  let q := 256 ^ Z.of_nat m in digit_walk N 1 (x * q) ((x + 1) * q) c.
Lemma leading_digit x d c t N : is_byte x -> bytes d -> 0 <= c < 58 -> (length t < N)%nat ->
  is_base58 (x :: d) (b58_char c :: t) -> x <> 0 -> digit_excluded x c (length d) N = false.
Proof.
  intros Hx Hd Hc Lt (z & r & ds & E & Hr & (Fd & Vd & Nz) & Et) Hx0.
  destruct z as [|z]; [|exfalso; cbn [repeat app] in E; congruence]. cbn [repeat app] in E, Et. subst r.
  destruct ds as [|d0 ds]; [discriminate|]. cbn [map] in Et. injection Et as E1 E2. apply Forall_cons_iff in Fd as [H0 Fd].
  assert (d0 = c) by (destruct (dec_digit d0 H0) as (Q1 & _); destruct (dec_digit c Hc) as (Q2 & _); rewrite <- Q1, <- Q2; now rewrite E1). subst d0.
  destruct (digit_excluded x c (length d) N) eqn:Ex; [|reflexivity]. exfalso. unfold digit_excluded in Ex. cbv zeta in Ex.
  assert (Ld0 : length ds = length t) by (rewrite E2; now rewrite map_length).
  apply (digit_walk_ok _ _ _ _ _ (length ds)) in Ex; [|lia]. rewrite Z.mul_1_l in Ex.
  pose proof (numeral_bound 58 ds ltac:(lia) Fd) as B58. pose proof (numeral_bound 256 d ltac:(lia) Hd) as B256.
  rewrite !numeral_value_cons in Vd.
  set (P := 58 ^ Z.of_nat (length ds)) in *. set (Q := 256 ^ Z.of_nat (length d)) in *. lia.
Qed.
Lemma starts_with p ver prog : builtin p -> exists c t, In c [34; 51] /\ witness_text (cp_hrp p) ver prog = b58_char c :: t.
Proof.
  intros [-> | [-> | ->]]; unfold witness_text; cbn [cp_hrp mainnet testnet regnet app]; [exists 34|exists 51|exists 34]; eexists; (split; [cbn [In]; auto|]); reflexivity.
Qed.
Definition first_byte_ok (x : Z) (m : nat) : bool := (x =? 0) || (digit_excluded x 34 m 90 && digit_excluded x 51 m 90).
Lemma not_witness pre pl text p ver prog : builtin p -> sym ver -> bytes prog -> (length prog <= 40)%nat ->
  bytes (pre ++ pl) -> base58_address pre pl text -> text = witness_text (cp_hrp p) ver prog ->
  match pre ++ pl with x :: d => first_byte_ok x (length d + 4) = false | [] => True end.
Proof.
  intros Hp Sv Bp Lp By (b & T & I) Et. pose proof (witness_valid p ver prog Hp Bp Sv Lp) as (L90 & P & _). rewrite <- Et in P, L90.
  apply no_space_trim in T; [|exact P]. subst b. destruct (pre ++ pl) as [|x d] eqn:Ed; [exact Logic.I|].
  apply bytes_cons in By as [Hx Hd]. destruct (first_byte_ok x (length d + 4)) eqn:C; [|reflexivity]. exfalso.
  unfold is_base58check in I. cbn [app] in I. set (d' := d ++ checksum4 (x :: d)) in *.
  assert (Ld : length d' = (length d + 4)%nat) by (unfold d'; rewrite app_length, checksum4_length; lia).
  assert (Hd' : bytes d') by (apply bytes_app; split; [exact Hd|apply checksum4_bytes]). clearbody d'. rewrite <- Ld in C.
  destruct (starts_with p ver prog Hp) as (c & t & Ic & Ew). rewrite <- Et in Ew. rewrite Ew in I, L90. cbn [length] in L90.
  unfold first_byte_ok in C. apply orb_true_iff in C as [C|C].
  - apply Z.eqb_eq in C. subst x. destruct (base58_zero _ _ I) as (u & Eu). apply (f_equal (hd 0)) in Eu. cbn [hd] in Eu.
    destruct Ic as [<-|[<-|[]]]; vm_compute in Eu; discriminate Eu.
  - apply andb_true_iff in C as [C1 C2]. assert (Hc : 0 <= c < 58) by (destruct Ic as [<-|[<-|[]]]; lia).
    destruct (Z.eq_dec x 0) as [->|N0].
    { destruct (base58_zero _ _ I) as (u & Eu). apply (f_equal (hd 0)) in Eu. cbn [hd] in Eu. destruct Ic as [<-|[<-|[]]]; vm_compute in Eu; discriminate Eu. }
    pose proof (leading_digit x d' c t 90 Hx Hd' Hc ltac:(lia) I N0) as F. destruct Ic as [<-|[<-|[]]]; congruence.
Qed.
Lemma body_length x : proper x -> length (body_of x) = match x with KeyHash _ | ScriptHash _ => 20 | SecretKey _ c => if c : bool then 33 else 32 | ExtendedKey _ | ExtendedPub _ => 74 | _ => 0 end%nat.
Proof.
  intros Hx. destruct x; cbn [proper body_of] in *; try tauto; try reflexivity.
  - rewrite app_length, (proj2 Hx). destruct compressed; reflexivity.
  - exact (proj1 (C66_exkey_encode key (repeat 0 74) [] Hx (repeat_length 0 74))).
  - exact (proj1 (C67_expubkey_encode key (repeat 0 74) [] Hx (repeat_length 0 74))).
Qed.
Lemma base58_first x p : builtin p -> proper x -> is_segwit x = false ->
  match prefix_of x p ++ body_of x with b :: d => first_byte_ok b (length d + 4) = true | [] => False end.
Proof.
  intros Hp Hx Nx. pose proof (body_length x Hx) as L.
  destruct x; try discriminate Nx; cbn [prefix_of] in *; set (body := body_of _) in *; clearbody body.
  - destruct Hp as [-> | [-> | ->]]; cbn [cp_pubkey mainnet testnet regnet app]; rewrite L; vm_compute; reflexivity.
  - destruct Hp as [-> | [-> | ->]]; cbn [cp_script mainnet testnet regnet app]; rewrite L; vm_compute; reflexivity.
  - destruct compressed; destruct Hp as [-> | [-> | ->]]; cbn [cp_secret mainnet testnet regnet app]; rewrite L; vm_compute; reflexivity.
  - destruct Hp as [-> | [-> | ->]]; cbn [cp_ext_sec mainnet testnet regnet app length]; rewrite L; vm_compute; reflexivity.
  - destruct Hp as [-> | [-> | ->]]; cbn [cp_ext_pub mainnet testnet regnet app length]; rewrite L; vm_compute; reflexivity.
Qed.
Lemma witness_text_inj p q v1 v2 a b : builtin p -> builtin q -> sym v1 -> sym v2 -> bytes a -> bytes b ->
  witness_text (cp_hrp p) v1 a = witness_text (cp_hrp q) v2 b -> p = q /\ v1 = v2 /\ a = b.
Proof.
  intros Hp Hq S1 S2 Ba Bb E.
  assert (H : p = q).
  { destruct Hp as [-> | [-> | ->]], Hq as [-> | [-> | ->]]; try reflexivity; exfalso; unfold witness_text in E; cbn [cp_hrp mainnet testnet regnet app] in E;
      (pose proof (f_equal (fun l => nth 0 l 0) E) as E0); (pose proof (f_equal (fun l => nth 2 l 0) E) as E2); cbn [nth] in E0, E2; lia. }
  split; [exact H|]. subst q. destruct (builtin_facts p Hp) as (_ & _ & _ & Bh & _).
  destruct (raw_facts a Ba) as (_ & Fa & La). destruct (raw_facts b Bb) as (_ & Fb & Lb).
  assert (F1 : Forall sym (v1 :: regroup_pad 5 a)) by now constructor. assert (F2 : Forall sym (v2 :: regroup_pad 5 b)) by now constructor.
  destruct (checksum_verifies (cp_hrp p) _ Bh F1) as (C1 & L1 & _). destruct (checksum_verifies (cp_hrp p) _ Bh F2) as (C2 & L2 & _).
  unfold witness_text in E. cbv zeta in E. apply app_inv_head in E. apply app_inv_head in E.
  apply map_char_inj in E; [|apply Forall_app; auto|apply Forall_app; auto].
  set (c1 := bech32_checksum (cp_hrp p) (v1 :: regroup_pad 5 a)) in *. set (c2 := bech32_checksum (cp_hrp p) (v2 :: regroup_pad 5 b)) in *. clearbody c1 c2.
  apply app_inj_len in E as [E _].
  - assert (v1 = v2) by (apply (f_equal (hd 0)) in E; exact E). split; [assumption|]. apply (f_equal (@tl Z)) in E. cbn [tl] in E.
    rewrite <- (regroup_roundtrip 5 a), <- (regroup_roundtrip 5 b) by (lia || assumption). now rewrite E.
  - apply (f_equal (@length Z)) in E. rewrite !app_length, L1, L2 in E. lia.
Qed.

(** ** C117
    Two texts the library writes are the same only if they were written for the same thing, and for the same network, except that
    testnet and regtest share their Base58 texts. *)
Theorem C117_texts_unambiguous : forall x y p q n m text, builtin p -> builtin q -> proper x -> proper y ->
  write_text x p = Ok (n, text) -> write_text y q = Ok (m, text) ->
  x = y /\ (p = q \/ (is_segwit x = false /\ p <> mainnet /\ q <> mainnet)).
Proof.
  intros x y p q n m text Hp Hq Hx Hy E1 E2.
  destruct (written x p Hp Hx) as (t1 & W1 & _ & _ & _ & K1). destruct (written y q Hq Hy) as (t2 & W2 & _ & _ & _ & K2).
  rewrite W1 in E1. rewrite W2 in E2. injection E1 as _ ->. injection E2 as _ ->. clear W1 W2 n m.
  destruct (is_segwit x) eqn:Sx, (is_segwit y) eqn:Sy.
  - destruct K1 as (T1 & V1 & B1 & _), K2 as (T2 & V2 & B2 & _). rewrite T1 in T2. destruct (witness_text_inj p q _ _ _ _ Hp Hq V1 V2 B1 B2 T2) as (-> & Ev & Eb).
    split; [|left; reflexivity]. destruct x, y; try discriminate Sx; try discriminate Sy; cbn [witness_of fst snd proper] in *; subst; try reflexivity; exfalso; destruct Hx, Hy; lia.
  - exfalso. destruct K1 as (T1 & V1 & B1 & L1). pose proof (not_witness _ _ text p _ _ Hp V1 B1 L1 (body_bytes y q Hq Hy) (as_address _ _ _ K2) T1) as N.
    pose proof (base58_first y q Hq Hy Sy) as F. destruct (prefix_of y q ++ body_of y); [exact F|congruence].
  - exfalso. destruct K2 as (T1 & V1 & B1 & L1). pose proof (not_witness _ _ text q _ _ Hq V1 B1 L1 (body_bytes x p Hp Hx) (as_address _ _ _ K1) T1) as N.
    pose proof (base58_first x p Hp Hx Sx) as F. destruct (prefix_of x p ++ body_of x); [exact F|congruence].
  - pose proof (base58_address_fun _ _ _ _ text (body_bytes x p Hp Hx) (body_bytes y q Hq Hy) (as_address _ _ _ K1) (as_address _ _ _ K2)) as Q.
    pose proof (body_length x Hx) as Lx. pose proof (body_length y Hy) as Ly.
    assert (P1 : length (prefix_of x p) = match x with ExtendedKey _ | ExtendedPub _ => 4 | WitnessKeyHash _ | WitnessScriptHash _ | WitnessProgram _ _ => 0 | _ => 1 end%nat).
    { destruct (b58_args p Hp) as (_ & _ & _ & _ & ? & ?). destruct (builtin_prefixes p Hp) as (_ & ? & _ & ? & _ & ?). destruct x; cbn [prefix_of]; assumption || reflexivity. }
    assert (P2 : length (prefix_of y q) = match y with ExtendedKey _ | ExtendedPub _ => 4 | WitnessKeyHash _ | WitnessScriptHash _ | WitnessProgram _ _ => 0 | _ => 1 end%nat).
    { destruct (b58_args q Hq) as (_ & _ & _ & _ & ? & ?). destruct (builtin_prefixes q Hq) as (_ & ? & _ & ? & _ & ?). destruct y; cbn [prefix_of]; assumption || reflexivity. }
    assert (LL : (length (prefix_of x p) + length (body_of x) = length (prefix_of y q) + length (body_of y))%nat) by (rewrite <- !app_length; now rewrite Q).
    assert (PP : length (prefix_of x p) = length (prefix_of y q)).
    { rewrite P1, P2, Lx, Ly in *. clear -LL Sx Sy. destruct x, y; try discriminate Sx; try discriminate Sy; repeat match goal with c : bool |- _ => destruct c end; lia. }
    apply app_inj_len in Q as [Q1 Q2]; [|exact PP].
    assert (R : (p = q \/ (p <> mainnet /\ q <> mainnet)) /\ match x, y with KeyHash _, KeyHash _ | ScriptHash _, ScriptHash _ | SecretKey _ _, SecretKey _ _ | ExtendedKey _, ExtendedKey _ | ExtendedPub _, ExtendedPub _ => True | _, _ => False end).
    { clear -Q1 Hp Hq Sx Sy. destruct x, y; try discriminate Sx; try discriminate Sy; cbn [prefix_of] in Q1;
        destruct Hp as [-> | [-> | ->]], Hq as [-> | [-> | ->]]; cbn in Q1; try discriminate Q1; (split; [|exact I]); try (left; reflexivity); right; split; discriminate. }
    destruct R as [R M]. split; [|destruct R; auto].
    destruct x, y; try contradiction; cbn [body_of proper] in *; try congruence.
    + rewrite !app_length in LL. destruct Hx as [_ Hx], Hy as [_ Hy].
      destruct compressed, compressed0; cbn [length] in *; try (exfalso; rewrite Hx, Hy, P1, P2 in LL; lia); apply app_inj_len in Q2 as [-> _]; congruence.
    + destruct (C66_exkey_decode_encode key (repeat 0 74) [] blank_key [] Hx (proj1 old_key) (repeat_length 0 74)) as (c1 & A1 & D1).
      destruct (C66_exkey_decode_encode key0 (repeat 0 74) [] blank_key [] Hy (proj1 old_key) (repeat_length 0 74)) as (c2 & A2 & D2).
      rewrite (proj2 (proj2 (C66_exkey_encode key (repeat 0 74) [] Hx (repeat_length 0 74)))) in A1.
      rewrite (proj2 (proj2 (C66_exkey_encode key0 (repeat 0 74) [] Hy (repeat_length 0 74)))) in A2.
      rewrite !app_nil_r in *. assert (c1 = c2) by congruence. congruence.
    + destruct (C67_expubkey_decode_encode key (repeat 0 74) [] blank_pub [] Hx (proj2 old_key) (repeat_length 0 74)) as (c1 & A1 & D1).
      destruct (C67_expubkey_decode_encode key0 (repeat 0 74) [] blank_pub [] Hy (proj2 old_key) (repeat_length 0 74)) as (c2 & A2 & D2).
      rewrite (proj2 (proj2 (C67_expubkey_encode key (repeat 0 74) [] Hx (repeat_length 0 74)))) in A1.
      rewrite (proj2 (proj2 (C67_expubkey_encode key0 (repeat 0 74) [] Hy (repeat_length 0 74)))) in A2.
      rewrite !app_nil_r in *. assert (c1 = c2) by congruence. congruence.
Qed.
Print Assumptions C117_texts_unambiguous.
(** Writing always works: everything has a text, and it is made of printable characters other than space. *)
Theorem C117_always_written : forall x p, builtin p -> proper x ->
  exists text, write_text x p = Ok (length text, text) /\ (0 < length text <= 128)%nat /\ Forall (fun c => 33 <= c <= 126) text.
Proof.
  intros x p Hp Hx. destruct (written x p Hp Hx) as (t & E & N & L & F & _). exists t. split; [exact E|]. split; [|exact F].
  destruct t; [contradiction|]. cbn [length] in *. lia.
Qed.
Print Assumptions C117_always_written.
(** The exception is real. *)
Theorem C117_test_networks_share : forall x, is_segwit x = false -> write_text x testnet = write_text x regnet.
Proof. intros x H. destruct x; try discriminate H; reflexivity. Qed.
Print Assumptions C117_test_networks_share.
Example C117_witness : proper (KeyHash (repeat 7 20)) /\ proper (WitnessProgram 16 [117; 30]) /\ proper (SecretKey (be_bytes 32 77) true) /\
  write_text (WitnessProgram 16 [117; 30]) mainnet = Ok (14%nat, [98;99;49;115;119;53;48;113;97;51;106;120;51;115]) /\
  match write_text (SecretKey (be_bytes 32 1) true) mainnet with Ok (n, c :: _) => n = 52%nat /\ c = 75 | _ => False end.
Proof.
  assert (B : forall l, forallb (fun b => (0 <=? b) && (b <? 256)) l = true -> bytes l).
  { intros l H. rewrite forallb_forall in H. apply Forall_forall. intros b Hb. specialize (H b Hb). unfold is_byte. lia. }
  split; [split; [apply B|]; vm_compute; reflexivity|]. split; [split; [lia|split; [apply B; vm_compute; reflexivity|cbn [length]; lia]]|].
  split; [split; [apply B|]; vm_compute; reflexivity|]. split; [vm_compute; reflexivity|vm_compute; split; reflexivity].
Qed.
