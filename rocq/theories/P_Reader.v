(** C118: what happens when a text is given to the wrong reader. *)
From Verif Require Import Base S_Words L_Endian M_Endian M_Hash S_Bits L_Bits M_Base32 L_Base32 M_Base58 S_Base58 L_Base58 P_Base58 M_Base58Check S_Base58Check L_Base58Check P_Base58Check
  M_Bech32 S_Bech32 L_Bch L_Bech32 S_Address M_Address L_Address P_Address M_Random M_Secp M_Key M_Exkey S_Key S_Exkey L_KeyStr P_Wif L_Exkey P_Bip32 P_Exkey P_Typos S_Dest P_Dest.

(** ** C118: a text given to the wrong reader *)
Lemma text_ok (text : list Z) : (length text <= 128)%nat -> Forall (fun c => 33 <= c <= 126) text ->
  Forall (fun c => 0 < c < 128) text /\ Z.of_nat (length text) * 733 <= INT_MAX.
Proof. intros L F. split; [eapply Forall_impl; [|exact F]; cbv beta; lia|]. change INT_MAX with 2147483647. lia. Qed.

Definition first_byte_ok4 (x : Z) (m : nat) : bool := first_byte_ok x m && ((x =? 0) || (digit_excluded x 10 m 90 && digit_excluded x 26 m 90)).
Lemma not_bech32 x d text q ver vals : bytes (x :: d) -> is_base58check (x :: d) text -> first_byte_ok4 x (length d + 4) = true -> builtin q ->
  ~ bech32_valid text (cp_hrp q) (ver :: vals).
Proof.
  intros By I C Hq (L90 & _ & _ & h & ds & chk & Es & Nh & _ & Eh & _). apply bytes_cons in By as [Hx Hd].
  unfold is_base58check in I. cbn [app] in I. set (d' := d ++ checksum4 (x :: d)) in *.
  assert (Ld : length d' = (length d + 4)%nat) by (unfold d'; rewrite app_length, checksum4_length; lia).
  assert (Hd' : bytes d') by (apply bytes_app; split; [exact Hd|apply checksum4_bytes]). clearbody d'. rewrite <- Ld in C.
  destruct h as [|c h]; [congruence|]. cbn [map app] in *.
  assert (Tc : tolower c = 98 \/ tolower c = 116) by (destruct Hq as [-> | [-> | ->]]; cbn [cp_hrp mainnet testnet regnet] in Eh; injection Eh; auto).
  assert (Cc : exists g, In g [34; 10; 51; 26] /\ c = b58_char g).
  { assert (Q : c = 98 \/ c = 66 \/ c = 116 \/ c = 84) by (unfold tolower in Tc; destruct ((65 <=? c) && (c <=? 90)) eqn:U; lia).
    destruct Q as [-> | [-> | [-> | ->]]]; [exists 34|exists 10|exists 51|exists 26]; (split; [cbn [In]; auto 10|reflexivity]). }
  destruct Cc as (g & Ig & ->). unfold first_byte_ok4, first_byte_ok in C. rewrite Es in I, L90. cbn [length] in L90.
  destruct (Z.eq_dec x 0) as [->|N0].
  { destruct (base58_zero _ _ I) as (u & Eu). apply (f_equal (hd 0)) in Eu. cbn [hd] in Eu.
    destruct Ig as [<-|[<-|[<-|[<-|[]]]]]; vm_compute in Eu; discriminate Eu. }
  assert (Hg : 0 <= g < 58) by (destruct Ig as [<-|[<-|[<-|[<-|[]]]]]; lia).
  pose proof (fun LL => leading_digit x d' g _ 90 Hx Hd' Hg LL I N0) as F. specialize (F ltac:(lia)).
  replace (x =? 0) with false in C by lia. cbn [orb] in C. apply andb_true_iff in C as [C1 C2]. apply andb_true_iff in C1 as [C3 C4]. apply andb_true_iff in C2 as [C5 C6].
  destruct Ig as [<-|[<-|[<-|[<-|[]]]]]; congruence.
Qed.
Lemma base58_first4 x p : builtin p -> proper x -> is_segwit x = false ->
  match prefix_of x p ++ body_of x with b :: d => first_byte_ok4 b (length d + 4) = true | [] => False end.
Proof.
  intros Hp Hx Nx. pose proof (body_length x Hx) as L.
  destruct x; try discriminate Nx; cbn [prefix_of] in *; set (body := body_of _) in *; clearbody body.
  - destruct Hp as [-> | [-> | ->]]; cbn [cp_pubkey mainnet testnet regnet app]; rewrite L; vm_compute; reflexivity.
  - destruct Hp as [-> | [-> | ->]]; cbn [cp_script mainnet testnet regnet app]; rewrite L; vm_compute; reflexivity.
  - destruct compressed; destruct Hp as [-> | [-> | ->]]; cbn [cp_secret mainnet testnet regnet app]; rewrite L; vm_compute; reflexivity.
  - destruct Hp as [-> | [-> | ->]]; cbn [cp_ext_sec mainnet testnet regnet app length]; rewrite L; vm_compute; reflexivity.
  - destruct Hp as [-> | [-> | ->]]; cbn [cp_ext_pub mainnet testnet regnet app length]; rewrite L; vm_compute; reflexivity.
Qed.

(** Keys in an address field: whatever network and output capacity, whatever lies in memory, the answer is BAD_ADDRESS. *)
Theorem C118_key_as_address : forall x p q n text rest out_size stack, builtin p -> builtin q -> proper x -> is_address x = false ->
  write_text x p = Ok (n, text) ->
  match address_decode (text ++ 0 :: rest) (length text) out_size q stack with Ok r => a_kind r = BAD_ADDRESS | _ => False end.
Proof.
  intros x p q n text rest out_size stack Hp Hq Hx Ax E. destruct (written x p Hp Hx) as (t & W & _ & L & F & K).
  rewrite W in E. injection E as _ ->. clear W n. assert (Sx : is_segwit x = false) by (destruct x; try discriminate Ax; reflexivity). rewrite Sx in K.
  destruct (text_ok text L F) as [A Hl]. destruct (b58_args q Hq) as (Np & Ns & Bp & Bs & Lp & Ls).
  assert (Nx : forall y pl, bytes pl -> y = cp_pubkey q \/ y = cp_script q -> ~ base58_address y pl text).
  { intros y pl Bpl Hy BA. assert (By : bytes y) by (destruct Hy; subst; assumption).
    pose proof (base58_address_fun _ _ _ _ text (body_bytes x p Hp Hx) ltac:(apply bytes_app; split; [exact By|exact Bpl]) (as_address _ _ _ K) BA) as Q.
    clear -Q Hp Hq Ax Hy. destruct x; try discriminate Ax; cbn [prefix_of] in Q; destruct Hp as [-> | [-> | ->]], Hq as [-> | [-> | ->]], Hy as [-> | ->]; discriminate Q. }
  destruct (address_total text rest out_size q stack A Hl Np Ns Bp Bs) as [[H D]|[(_ & pl & o & Bpl & _ & _ & _ & _ & [(BA2 & _)|(BA2 & _)])|(_ & _ & out & Bo & Lo & Lo2 & D)]].
  - now rewrite D.
  - exfalso. exact (Nx _ pl Bpl (or_introl eq_refl) BA2).
  - exfalso. exact (Nx _ pl Bpl (or_intror eq_refl) BA2).
  - rewrite D, decode_bech32_bad; [reflexivity| |].
    + eapply Forall_impl; [|exact A]. cbv beta. intros; lia.
    + intros (ver & vals & V). pose proof (base58_first4 x p Hp Hx Sx) as F4. pose proof (body_bytes x p Hp Hx) as BB.
      destruct (prefix_of x p ++ body_of x) as [|b d]; [exact F4|]. exact (not_bech32 b d text q ver vals BB K F4 Hq V).
Qed.
Print Assumptions C118_key_as_address.

(** Extended key readers: exactly the extended keys of their own kind and network family are accepted, everything else is refused
    and leaves the structure alone. *)
Definition same_family (p q : chain_parameters) : Prop := p = mainnet <-> q = mainnet.
Lemma family p q : builtin p -> builtin q -> {same_family p q} + {~ same_family p q}.
Proof.
  intros Hp Hq. assert (D : forall r, builtin r -> {cp_pubkey r = [0]} + {cp_pubkey r <> [0]}) by (intros; apply list_eq_dec, Z.eq_dec).
  assert (M : forall r, builtin r -> (r = mainnet <-> cp_pubkey r = [0])) by (intros r [-> | [-> | ->]]; split; intros H; try reflexivity; discriminate H).
  unfold same_family. pose proof (M p Hp) as Mp. pose proof (M q Hq) as Mq. destruct (D p Hp), (D q Hq); [left|right|right|left]; tauto.
Qed.
Lemma family_prefix p q : builtin p -> builtin q -> same_family p q -> cp_ext_sec p = cp_ext_sec q /\ cp_ext_pub p = cp_ext_pub q /\ cp_secret p = cp_secret q.
Proof.
  unfold same_family. intros [-> | [-> | ->]] [-> | [-> | ->]] [F1 F2]; try (repeat split; reflexivity); exfalso;
    first [discriminate (F1 eq_refl) | discriminate (F2 eq_refl)].
Qed.
Lemma decoded_bytes x p text d : builtin p -> proper x -> is_segwit x = false -> is_base58check (prefix_of x p ++ body_of x) text -> bytes d -> b58_decodes text d ->
  d = (prefix_of x p ++ body_of x) ++ checksum4 (prefix_of x p ++ body_of x).
Proof.
  intros Hp Hx Sx K Bd D. apply (b58_decodes_fun text); [exact Bd| |exact D|exists text; split; [apply trims_self|exact K]].
  apply bytes_app. split; [now apply body_bytes|apply checksum4_bytes].
Qed.
Lemma prefix_length x p : builtin p -> length (prefix_of x p) = match x with ExtendedKey _ | ExtendedPub _ => 4 | WitnessKeyHash _ | WitnessScriptHash _ | WitnessProgram _ _ => 0 | _ => 1 end%nat.
Proof.
  intros Hp. destruct (b58_args p Hp) as (_ & _ & _ & _ & ? & ?). destruct (builtin_prefixes p Hp) as (_ & ? & _ & ? & _ & ?). destruct x; cbn [prefix_of]; assumption || reflexivity.
Qed.
Lemma fits_82 x p text : builtin p -> proper x -> (length text <= 128)%nat -> Forall (fun c => 33 <= c <= 126) text ->
  (if is_segwit x then text = witness_text (cp_hrp p) (fst (witness_of x)) (snd (witness_of x)) /\ sym (fst (witness_of x)) /\ bytes (snd (witness_of x)) /\ (length (snd (witness_of x)) <= 40)%nat
   else is_base58check (prefix_of x p ++ body_of x) text) ->
  forall d, bytes d -> b58_decodes text d -> (length d <= 82)%nat.
Proof.
  intros Hp Hx L F K d Bd D. destruct (text_ok text L F) as [A Hl]. destruct (is_segwit x) eqn:Sx.
  - pose proof (b58_decodes_length text d A Hl Bd D) as Ld. destruct K as (Et & Sv & Bw & Lw). pose proof (witness_valid p _ _ Hp Bw Sv Lw) as (L90 & _).
    assert (length text <= 76)%nat; [|lia]. rewrite Et, witness_text_length by assumption. destruct (builtin_facts p Hp) as (_ & _ & Lh & _).
    assert ((8 * length (snd (witness_of x)) + 4) / 5 < 65)%nat by (apply Nat.div_lt_upper_bound; lia). lia.
  - rewrite (decoded_bytes x p text d Hp Hx Sx K Bd D), !app_length, checksum4_length, (prefix_length x p Hp), (body_length x Hx).
    destruct x; try discriminate Sx; try destruct compressed; cbn; lia.
Qed.
Lemma other_base58 x p text pre code : builtin p -> proper x ->
  (if is_segwit x then text = witness_text (cp_hrp p) (fst (witness_of x)) (snd (witness_of x)) /\ sym (fst (witness_of x)) /\ bytes (snd (witness_of x)) /\ (length (snd (witness_of x)) <= 40)%nat
   else is_base58check (prefix_of x p ++ body_of x) text) ->
  bytes (pre ++ code) -> base58_address pre code text ->
  match pre ++ code with b :: d => first_byte_ok b (length d + 4) = true | [] => False end ->
  is_segwit x = false /\ prefix_of x p ++ body_of x = pre ++ code.
Proof.
  intros Hp Hx K Bc BA FB. destruct (is_segwit x) eqn:Sx.
  - exfalso. destruct K as (Et & Sv & Bw & Lw). pose proof (not_witness pre code text p _ _ Hp Sv Bw Lw Bc BA Et) as N.
    destruct (pre ++ code); [exact FB|congruence].
  - split; [reflexivity|]. exact (base58_address_fun _ _ _ _ text (body_bytes x p Hp Hx) Bc (as_address _ _ _ K) BA).
Qed.

Theorem C118_read_as_extended_key : forall x p q n text rest old, builtin p -> builtin q -> proper x -> wf_key old ->
  write_text x p = Ok (n, text) ->
  (exists k, x = ExtendedKey k /\ same_family p q /\ exkey_from_string (text ++ 0 :: rest) (length text) old q = Ok (1, k)) \/
  (~ (exists k, x = ExtendedKey k /\ same_family p q) /\ exkey_from_string (text ++ 0 :: rest) (length text) old q = Ok (0, old)).
Proof.
  intros x p q n text rest old Hp Hq Hx Wo E. destruct (written x p Hp Hx) as (t & W & _ & L & F & K).
  pose proof W as W0. rewrite W in E. injection E as _ ->. destruct (text_ok text L F) as [A Hl].
  destruct (builtin_prefixes q Hq) as (_ & _ & Bq & Lq & _).
  destruct (C86_exkey_strings q text rest old Bq ltac:(lia) A Hl Wo (fits_82 x p text Hp Hx L F K)) as [(k & b & Wk & Bb & BA & R)|[N R]].
  - left. assert (Bc : bytes (ext_layout (xk_ext k) ++ [b] ++ xk_key k)) by (apply bytes_app; split; [apply ext_layout_bytes, Wk|apply byte_cons; [assumption|apply Wk]]).
    assert (Lc : length (ext_layout (xk_ext k) ++ [b] ++ xk_key k) = 74%nat).
    { pose proof (key_layout_length k Wk) as Lk. unfold key_layout in Lk. rewrite !app_length in *. exact Lk. }
    destruct (other_base58 x p text _ _ Hp Hx K ltac:(apply bytes_app; split; [exact Bq|exact Bc]) BA) as [Sx Q].
    { set (code := ext_layout _ ++ _) in *. clearbody code. destruct Hq as [-> | [-> | ->]]; cbn [cp_ext_sec mainnet testnet regnet app length]; rewrite Lc; vm_compute; reflexivity. }
    pose proof (prefix_length x p Hp) as Lp. pose proof (body_length x Hx) as Lb.
    assert (LL : (length (prefix_of x p) + length (body_of x) = 78)%nat) by (rewrite <- app_length, Q, app_length; lia).
    assert (X : (exists k, x = ExtendedKey k) \/ (exists k, x = ExtendedPub k)).
    { rewrite Lp, Lb in LL. destruct x; try discriminate Sx; try destruct compressed; try lia; eauto. }
    destruct X as [(k' & ->)|(k' & ->)]; cbn [prefix_of body_of] in *.
    + apply app_inj_len in Q as [Q1 Q2]; [|lia]. exists k'. split; [reflexivity|].
      assert (Sf : same_family p q) by (clear -Q1 Hp Hq; unfold same_family; destruct Hp as [-> | [-> | ->]], Hq as [-> | [-> | ->]]; split; intros H; try discriminate H; try discriminate Q1; reflexivity).
      split; [exact Sf|]. rewrite R. do 2 f_equal. symmetry. apply (key_layout_inj 0 b); auto.
    + exfalso. apply app_inj_len in Q as [Q1 _]; [|lia]. clear -Q1 Hp Hq. destruct Hp as [-> | [-> | ->]], Hq as [-> | [-> | ->]]; discriminate Q1.
  - right. split; [|exact R]. intros (k & -> & Sf). destruct (family_prefix p q Hp Hq Sf) as (E1 & _).
    apply (N (key_layout k)); [now apply key_layout_bytes|now apply key_layout_length|]. rewrite <- E1. exact (as_address _ _ _ K).
Qed.
Print Assumptions C118_read_as_extended_key.
Theorem C118_read_as_extended_pubkey : forall x p q n text rest old, builtin p -> builtin q -> proper x -> wf_pub old ->
  write_text x p = Ok (n, text) ->
  (exists k, x = ExtendedPub k /\ same_family p q /\ expubkey_from_string (text ++ 0 :: rest) (length text) old q = Ok (1, k)) \/
  (~ (exists k, x = ExtendedPub k /\ same_family p q) /\ expubkey_from_string (text ++ 0 :: rest) (length text) old q = Ok (0, old)).
Proof.
  intros x p q n text rest old Hp Hq Hx Wo E. destruct (written x p Hp Hx) as (t & W & _ & L & F & K).
  pose proof W as W0. rewrite W in E. injection E as _ ->. destruct (text_ok text L F) as [A Hl].
  destruct (builtin_prefixes q Hq) as (_ & _ & _ & _ & Bq & Lq).
  destruct (C86_expubkey_strings q text rest old Bq ltac:(lia) A Hl Wo (fits_82 x p text Hp Hx L F K)) as [(k & Wk & BA & R)|[N R]].
  - left. unfold is_xpub in BA. pose proof (pub_layout_bytes k Wk) as Bc. pose proof (pub_layout_length k Wk) as Lc.
    destruct (other_base58 x p text _ _ Hp Hx K ltac:(apply bytes_app; split; [exact Bq|exact Bc]) BA) as [Sx Q].
    { set (code := pub_layout _) in *. clearbody code. destruct Hq as [-> | [-> | ->]]; cbn [cp_ext_pub mainnet testnet regnet app length]; rewrite Lc; vm_compute; reflexivity. }
    pose proof (prefix_length x p Hp) as Lp. pose proof (body_length x Hx) as Lb.
    assert (LL : (length (prefix_of x p) + length (body_of x) = 78)%nat) by (rewrite <- app_length, Q, app_length; lia).
    assert (X : (exists k, x = ExtendedKey k) \/ (exists k, x = ExtendedPub k)).
    { rewrite Lp, Lb in LL. destruct x; try discriminate Sx; try destruct compressed; try lia; eauto. }
    destruct X as [(k' & ->)|(k' & ->)]; cbn [prefix_of body_of] in *.
    + exfalso. apply app_inj_len in Q as [Q1 _]; [|lia]. clear -Q1 Hp Hq. destruct Hp as [-> | [-> | ->]], Hq as [-> | [-> | ->]]; discriminate Q1.
    + apply app_inj_len in Q as [Q1 Q2]; [|lia]. exists k'. split; [reflexivity|].
      assert (Sf : same_family p q) by (clear -Q1 Hp Hq; unfold same_family; destruct Hp as [-> | [-> | ->]], Hq as [-> | [-> | ->]]; split; intros H; try discriminate H; try discriminate Q1; reflexivity).
      split; [exact Sf|]. rewrite R. do 2 f_equal. symmetry. apply pub_layout_inj; auto.
  - right. split; [|exact R]. intros (k & -> & Sf). destruct (family_prefix p q Hp Hq Sf) as (_ & E1 & _).
    apply (N (pub_layout k)); [now apply pub_layout_bytes|now apply pub_layout_length|]. rewrite <- E1. exact (as_address _ _ _ K).
Qed.
Print Assumptions C118_read_as_extended_pubkey.

(** *** The private key reader *)
Lemma value_low b d ds : 1 < b -> 1 <= d -> Forall (fun x => 0 <= x < b) ds -> b ^ Z.of_nat (length ds) <= numeral_value b (d :: ds).
Proof.
  intros Hb Hd F. rewrite numeral_value_cons. pose proof (numeral_bound b ds ltac:(lia) F) as B.
  assert (0 < b ^ Z.of_nat (length ds)) by (apply Z.pow_pos_nonneg; lia). nia.
Qed.
(** A text that does not start with '1', and the bytes it decodes to: sizes. *)
Lemma sizes d text c t : bytes d -> is_base58 d text -> text = c :: t -> c <> 49 ->
  exists m, length d = S m /\ 256 ^ Z.of_nat m < 58 ^ Z.of_nat (length text) /\ 58 ^ Z.of_nat (length t) < 256 ^ Z.of_nat (length d).
Proof.
  intros Bd (z & r & ds & Ed & Hr & (Fd & V & Nz) & Et) Ec Nc. destruct z as [|z]; [|cbn [repeat app] in Et; rewrite Ec in Et; injection Et as ? _; contradiction].
  cbn [repeat app] in Ed, Et. subst r. rewrite Ec in Et. destruct ds as [|g ds]; [discriminate|]. cbn [map] in Et. injection Et as E1 E2.
  apply Forall_cons_iff in Fd as [Hg Fd]. assert (1 <= g) by (destruct (Z.eq_dec g 0) as [->|]; [exfalso; exact (Nz ds eq_refl)|lia]).
  assert (Lt : length t = length ds) by (rewrite E2; apply map_length).
  pose proof (value_low 58 g ds ltac:(lia) H Fd) as V1. pose proof (numeral_bound 58 (g :: ds) ltac:(lia) ltac:(constructor; assumption)) as V2.
  pose proof (numeral_bound 256 d ltac:(lia) Bd) as V3. destruct d as [|b d].
  { exfalso. cbn [length] in V3. change (256 ^ Z.of_nat 0) with 1 in V3. assert (0 < 58 ^ Z.of_nat (length ds)) by (apply Z.pow_pos_nonneg; lia). lia. }
  apply bytes_cons in Bd as [Hb Bd']. assert (1 <= b) by (destruct (Z.eq_dec b 0) as [->|]; [exfalso; exact (Hr d eq_refl)|unfold is_byte in Hb; lia]).
  pose proof (value_low 256 b d ltac:(lia) H0 Bd') as V4. exists (length d). split; [reflexivity|].
  rewrite Ec. cbn [length] in *. rewrite Lt. split; lia.
Qed.
Lemma pow58 n m : (n <= 54)%nat -> 256 ^ Z.of_nat m < 58 ^ Z.of_nat n -> (m < 40)%nat.
Proof.
  intros Hn H. destruct (Nat.lt_ge_cases m 40) as [|G]; [assumption|exfalso].
  assert (256 ^ 40 <= 256 ^ Z.of_nat m) by (apply Z.pow_le_mono_r; lia). assert (58 ^ Z.of_nat n <= 58 ^ 54) by (apply Z.pow_le_mono_r; lia).
  assert (58 ^ 54 < 256 ^ 40) by (vm_compute; reflexivity). lia.
Qed.
Lemma pow256 n m : (55 <= n)%nat -> 58 ^ Z.of_nat n < 256 ^ Z.of_nat m -> (40 < m)%nat.
Proof.
  intros Hn H. destruct (Nat.lt_ge_cases 40 m) as [|G]; [assumption|exfalso].
  assert (256 ^ Z.of_nat m <= 256 ^ 40) by (apply Z.pow_le_mono_r; lia). assert (58 ^ 55 <= 58 ^ Z.of_nat n) by (apply Z.pow_le_mono_r; lia).
  assert (256 ^ 40 < 58 ^ 55) by (vm_compute; reflexivity). lia.
Qed.
Lemma segwit_start x p text : builtin p -> text = witness_text (cp_hrp p) (fst (witness_of x)) (snd (witness_of x)) -> exists c t, text = c :: t /\ c <> 49.
Proof.
  intros Hp ->. destruct (starts_with p (fst (witness_of x)) (snd (witness_of x)) Hp) as (c & t & Ic & ->). exists (b58_char c), t. split; [reflexivity|].
  destruct Ic as [<-|[<-|[]]]; vm_compute; discriminate.
Qed.

(** Base58 addresses, private keys and witness addresses of up to 54 characters (so all key hash addresses): exactly the private keys of the
    network family are accepted. *)
Theorem C118_read_as_private_key_partial : forall x p q n text rest old oldc, builtin p -> builtin q -> proper x -> (32 <= length old)%nat ->
  write_text x p = Ok (n, text) ->
  match x with ExtendedKey _ | ExtendedPub _ => False | WitnessScriptHash _ | WitnessProgram _ _ => (length text <= 54)%nat | _ => True end ->
  (exists k c, x = SecretKey k c /\ same_family p q /\ key_from_string (text ++ 0 :: rest) (length text) old oldc q = Ok (1, k ++ skipn 32 old, if c : bool then 1 else 0)) \/
  (~ (exists k c, x = SecretKey k c /\ same_family p q) /\ exists c, key_from_string (text ++ 0 :: rest) (length text) old oldc q = Ok (0, old, c)).
Proof.
  intros x p q n text rest old oldc Hp Hq Hx Lo E Sz. destruct (written x p Hp Hx) as (t & W & _ & L & F & K).
  rewrite W in E. injection E as _ ->. destruct (text_ok text L F) as [A Hl].
  destruct (builtin_prefixes q Hq) as (Bq & Lq & _).
  assert (Fit : forall d, bytes d -> b58_decodes text d -> (length d <= 40)%nat).
  { intros d Bd D. destruct (is_segwit x) eqn:Sx.
    - destruct K as (Et & Sv & Bw & Lw). destruct D as (b & T & I). apply no_space_trim in T; [|eapply Forall_impl; [|exact F]; unfold printable; cbv beta; lia]. subst b.
      destruct (segwit_start x p text Hp Et) as (c & u & Ec & Nc). destruct (sizes d text c u Bd I Ec Nc) as (m & Lm & S1 & _).
      assert (LT : (length text <= 54)%nat).
      { destruct x; try discriminate Sx; try exact Sz. cbn [witness_of fst snd proper] in *. rewrite Et, witness_text_length by assumption.
        destruct (builtin_facts p Hp) as (_ & _ & Lh & _). rewrite (proj2 Hx). change ((8 * 20 + 4) / 5)%nat with 32%nat. lia. }
      pose proof (pow58 _ _ LT S1). lia.
    - rewrite (decoded_bytes x p text d Hp Hx Sx K Bd D), !app_length, checksum4_length, (prefix_length x p Hp), (body_length x Hx).
      destruct x; try discriminate Sx; try contradiction; try destruct compressed; cbn; lia. }
  destruct (C52_wif_language q text rest old oldc Bq ltac:(lia) A Hl Lo Fit) as [(k & c & (Lk & Bk & BA) & R)|[N R]].
  - left. assert (Bc : bytes (k ++ if c then [1] else [])) by (apply bytes_app; split; [exact Bk|destruct c; repeat constructor; unfold is_byte; lia]).
    assert (Lc : length (k ++ if c then [1] else []) = if c then 33%nat else 32%nat) by (rewrite app_length, Lk; destruct c; reflexivity).
    destruct (other_base58 x p text _ _ Hp Hx K ltac:(apply bytes_app; split; [exact Bq|exact Bc]) BA) as [Sx Q].
    { set (code := k ++ _) in *. clearbody code. destruct c; destruct Hq as [-> | [-> | ->]]; cbn [cp_secret mainnet testnet regnet app length]; rewrite Lc; vm_compute; reflexivity. }
    pose proof (prefix_length x p Hp) as Lp. pose proof (body_length x Hx) as Lb.
    assert (LL : (length (prefix_of x p) + length (body_of x) = 1 + length (k ++ (if c then [1] else [])%Z))%nat) by (rewrite <- app_length, Q, app_length; lia).
    rewrite Lc, Lp, Lb in LL. destruct x; try discriminate Sx; try contradiction; try (destruct c; lia). cbn [prefix_of body_of proper] in *.
    assert (compressed = c) by (destruct compressed, c; try lia; reflexivity). subst c. apply app_inj_len in Q as [Q1 Q2]; [|lia].
    apply app_inv_tail in Q2. subst k. exists key, compressed. split; [reflexivity|].
    split; [|exact R]. clear -Q1 Hp Hq. unfold same_family. destruct Hp as [-> | [-> | ->]], Hq as [-> | [-> | ->]]; split; intros H; try discriminate H; try discriminate Q1; reflexivity.
  - right. split; [|exact R]. intros (k & c & -> & Sf). destruct (family_prefix p q Hp Hq Sf) as (_ & _ & E1). apply (N k c). cbn [proper] in Hx.
    split; [apply Hx|]. split; [apply Hx|]. rewrite <- E1. exact (as_address _ _ _ K).
Qed.
Print Assumptions C118_read_as_private_key_partial.

(** The rest is false: an extended key, private or public, given to the private key reader overruns its buffer, for every key and network ... *)
Theorem C118_extended_key_as_private_key_refuted : forall x p q n text rest old oldc, builtin p -> builtin q -> proper x ->
  (exists k, x = ExtendedKey k) \/ (exists k, x = ExtendedPub k) -> write_text x p = Ok (n, text) ->
  key_from_string (text ++ 0 :: rest) (length text) old oldc q = UB.
Proof.
  intros x p q n text rest old oldc Hp Hq Hx X E. destruct (written x p Hp Hx) as (t & W & _ & L & F & K).
  rewrite W in E. injection E as _ ->. destruct (text_ok text L F) as [A Hl]. destruct (builtin_prefixes q Hq) as (Bq & Lq & _).
  assert (Sx : is_segwit x = false) by (destruct X as [(k & ->)|(k & ->)]; reflexivity). rewrite Sx in K.
  apply (C53_wif_buffer_overflow_refuted q text rest old oldc ((prefix_of x p ++ body_of x) ++ checksum4 (prefix_of x p ++ body_of x))); auto; try lia.
  - apply bytes_app. split; [now apply body_bytes|apply checksum4_bytes].
  - exists text. split; [apply trims_self|exact K].
  - rewrite !app_length, checksum4_length, (prefix_length x p Hp), (body_length x Hx). destruct X as [(k & ->)|(k & ->)]; cbn; lia.
Qed.
Print Assumptions C118_extended_key_as_private_key_refuted.

(** ... and so does every witness address of 56 or more characters that happens to be free of the characters 0 and l. *)
Theorem C118_long_witness_as_private_key_refuted : forall x p q n text rest old oldc, builtin p -> builtin q -> proper x -> is_segwit x = true ->
  write_text x p = Ok (n, text) -> (56 <= length text)%nat -> ~ In 48 text -> ~ In 108 text ->
  key_from_string (text ++ 0 :: rest) (length text) old oldc q = UB.
Proof.
  intros x p q n text rest old oldc Hp Hq Hx Sx E Lt N0 Nl. destruct (written x p Hp Hx) as (t & W & _ & L & F & K).
  rewrite W in E. injection E as _ ->. destruct (text_ok text L F) as [A Hl]. destruct (builtin_prefixes q Hq) as (Bq & Lq & _).
  rewrite Sx in K. destruct K as (Et & Sv & Bw & Lw). assert (Pr : Forall printable text) by (eapply Forall_impl; [|exact F]; unfold printable; cbv beta; lia).
  assert (Al : Forall (fun c => In c b58_alphabet) text).
  { destruct (raw_facts _ Bw) as (_ & Fr & _). destruct (builtin_facts p Hp) as (_ & _ & _ & Bh & _).
    destruct (checksum_verifies (cp_hrp p) (fst (witness_of x) :: regroup_pad 5 (snd (witness_of x))) Bh ltac:(now constructor)) as (Fc & _).
    assert (Fs : Forall sym ((fst (witness_of x) :: regroup_pad 5 (snd (witness_of x))) ++ bech32_checksum (cp_hrp p) (fst (witness_of x) :: regroup_pad 5 (snd (witness_of x))))).
    { apply Forall_app. split; [now constructor|exact Fc]. }
    unfold witness_text in Et. cbv zeta in Et. set (vals := (fst (witness_of x) :: regroup_pad 5 (snd (witness_of x))) ++ _) in *. clearbody vals. rewrite Et in N0, Nl |- *.
    apply Forall_app. split; [|apply Forall_app; split].
    - assert (Hh : forallb (fun c => existsb (Z.eqb c) b58_alphabet) (cp_hrp p) = true) by (destruct Hp as [-> | [-> | ->]]; vm_compute; reflexivity).
      rewrite forallb_forall in Hh. apply Forall_forall. intros c Hc. specialize (Hh c Hc). apply existsb_exists in Hh as (y & Hy & Ey). apply Z.eqb_eq in Ey. now subst y.
    - constructor; [|constructor]. vm_compute. auto.
    - apply Forall_forall. intros c Hc. pose proof Hc as Hc0. apply in_map_iff in Hc as (v & <- & Hv). rewrite Forall_forall in Fs. specialize (Fs v Hv). unfold sym in Fs.
      assert (T : forallb (fun i => let c := bech32_char (Z.of_nat i) in (c =? 48) || (c =? 108) || existsb (Z.eqb c) b58_alphabet) (seq 0 32) = true) by (vm_compute; reflexivity).
      rewrite forallb_forall in T. specialize (T (Z.to_nat v) ltac:(apply in_seq; lia)). rewrite Z2Nat.id in T by lia. cbv zeta in T.
      apply orb_true_iff in T as [T|T].
      + exfalso. apply orb_true_iff in T as [T|T]; apply Z.eqb_eq in T; [apply N0|apply Nl]; rewrite <- T; apply in_or_app; right; apply in_or_app; right; exact Hc0.
      + apply existsb_exists in T as (y & Hy & Ey). apply Z.eqb_eq in Ey. now rewrite Ey. }
  destruct (C25_from_base58_language text [] A Hl) as [(b & d & T & _ & I & Bd & _)|[N _]].
  - apply no_space_trim in T; [|exact Pr]. subst b. destruct (segwit_start x p text Hp Et) as (c & u & Ec & Nc).
    destruct (sizes d text c u Bd I Ec Nc) as (m & Lm & _ & S2).
    apply (C53_wif_buffer_overflow_refuted q text rest old oldc d); auto; try lia; [exists text; split; [apply trims_self|exact I]|].
    apply (pow256 (length u)); [rewrite Ec in Lt; cbn [length] in Lt; lia|exact S2].
  - exfalso. apply N. exists text. split; [apply trims_self|exact Al].
Qed.
Print Assumptions C118_long_witness_as_private_key_refuted.

(** Such script hash addresses exist; this one is on the main network, and the reader is given it for any network. *)
Example C118_witness : exists text, write_text (WitnessScriptHash (repeat 1 32)) mainnet = Ok (62%nat, text) /\
  forall q rest old oldc, builtin q -> key_from_string (text ++ 0 :: rest) 62 old oldc q = UB.
Proof.
  assert (P : proper (WitnessScriptHash (repeat 1 32))) by (split; [apply Forall_forall; intros b Hb; apply repeat_spec in Hb; subst; unfold is_byte; lia|apply repeat_length]).
  assert (M : builtin mainnet) by (unfold builtin; auto).
  destruct (C117_always_written _ _ M P) as (text & E & _). assert (L : length text = 62%nat).
  { assert (Q : match write_text (WitnessScriptHash (repeat 1 32)) mainnet with Ok (n, _) => n | _ => 0%nat end = 62%nat) by (vm_compute; reflexivity). rewrite E in Q. exact Q. }
  exists text. rewrite L in E. split; [exact E|]. intros q rest old oldc Hq. rewrite <- L.
  apply (C118_long_witness_as_private_key_refuted (WitnessScriptHash (repeat 1 32)) mainnet q 62); auto; try lia;
    (assert (Q : match write_text (WitnessScriptHash (repeat 1 32)) mainnet with Ok (_, t) => existsb (fun c => (c =? 48) || (c =? 108)) t | _ => true end = false) by (vm_compute; reflexivity));
    rewrite E in Q; intros I; assert (X : existsb (fun c => (c =? 48) || (c =? 108)) text = true) by (apply existsb_exists; eexists; split; [exact I|reflexivity]); congruence.
Qed.
