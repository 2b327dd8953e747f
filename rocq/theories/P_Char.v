(** Property theorems C108: the text decoders on compilers where plain char is unsigned. *)
From Verif Require Import Base M_Endian M_Base32 M_Base58 M_Base58Check M_Bech32 M_Address M_Key M_Exkey M_Hash M_Random M_Char S_Char L_Char L_Char2.
From Verif Require Import S_Rfc4648 S_Base58 S_Address S_Sha2 L_Base32 L_Base58 P_Base32 P_Base58 P_Base58Check L_Address P_Address.

(** ** With signed char the parametric model is the one all other theorems are about. *)
Theorem C108_signed_is_the_model :
  (forall s n, from_base32_c SignedChar s n = from_base32 s n) /\ (forall s n, from_base32_raw_c SignedChar s n = from_base32_raw s n) /\
  (forall s n, from_base58_c SignedChar s n = from_base58 s n) /\ (forall s n, from_base58_check_c SignedChar s n = from_base58_check s n) /\
  (forall s n cap, bech32_decode_c SignedChar s n cap = bech32_decode s n cap) /\
  (forall s n cap p stack, address_decode_c SignedChar s n cap p stack = address_decode s n cap p stack) /\
  (forall s n k c p, key_from_string_c SignedChar s n k c p = key_from_string s n k c p) /\
  (forall s n k p, exkey_from_string_c SignedChar s n k p = exkey_from_string s n k p) /\
  (forall s n k p, expubkey_from_string_c SignedChar s n k p = expubkey_from_string s n k p).
Proof.
  repeat split; intros.
  - apply base32_signed.
  - apply base32_signed.
  - apply base58_signed.
  - apply check_signed.
  - apply bech32_signed.
  - apply address_signed.
  - apply key_string_signed.
  - apply exkey_string_signed.
  - apply expubkey_string_signed.
Qed.
Print Assumptions C108_signed_is_the_model.

(** ** With unsigned char every decoder treats any bytes as it would treat, with signed char, the text whose non-ASCII bytes are replaced
    by a control character: so everything proved about ASCII texts holds, and other texts are handled like texts with an invalid
    character.  (Of the uninitialised stack buffer the address decoder scans, the same holds.) *)
Theorem C108_unsigned : forall s, Forall (fun c => c < 256) s ->
  (forall n, from_base32_c UnsignedChar s n = from_base32 (ascii_image s) n) /\
  (forall n, from_base32_raw_c UnsignedChar s n = from_base32_raw (ascii_image s) n) /\
  (forall n, from_base58_c UnsignedChar s n = from_base58 (ascii_image s) n) /\
  (forall n, from_base58_check_c UnsignedChar s n = from_base58_check (ascii_image s) n) /\
  (forall n cap, bech32_decode_c UnsignedChar s n cap = bech32_decode s n cap) /\
  (forall n cap p stack, Forall (fun c => c < 256) stack ->
     address_decode_c UnsignedChar s n cap p stack = address_decode (ascii_image s) n cap p (ascii_image stack)) /\
  (forall n k c p, key_from_string_c UnsignedChar s n k c p = key_from_string (ascii_image s) n k c p) /\
  (forall n k p, exkey_from_string_c UnsignedChar s n k p = exkey_from_string (ascii_image s) n k p) /\
  (forall n k p, expubkey_from_string_c UnsignedChar s n k p = expubkey_from_string (ascii_image s) n k p).
Proof.
  intros s B. repeat split; intros.
  - apply base32_unsigned, B.
  - apply base32_unsigned, B.
  - apply base58_unsigned, B.
  - apply check_unsigned, B.
  - apply bech32_kinds.
  - apply address_unsigned; assumption.
  - apply key_string_unsigned, B.
  - apply exkey_string_unsigned, B.
  - apply expubkey_string_unsigned, B.
Qed.
Print Assumptions C108_unsigned.

(** ** ASCII texts: the result does not depend on the compiler, whatever follows the terminating NUL. *)
Lemma image_text text rest : Forall (fun c => 0 < c < 128) text -> ascii_image (text ++ 0 :: rest) = text ++ 0 :: ascii_image rest.
Proof. intros F. rewrite image_app. rewrite image_ascii by (eapply Forall_impl; [|exact F]; cbv beta; intros; lia). reflexivity. Qed.
Lemma below_text text rest : Forall (fun c => 0 < c < 256) text -> Forall (fun c => c < 256) rest -> below (text ++ 0 :: rest).
Proof. intros F B. apply below_app; [eapply Forall_impl; [|exact F]; cbv beta; intros; lia|]. constructor; [lia|exact B]. Qed.
Lemma ascii_below text : Forall (fun c => 0 < c < 128) text -> Forall (fun c => 0 < c < 256) text.
Proof. apply Forall_impl. intros; lia. Qed.

Theorem C108_ascii_base58 : forall k text rest n, Forall (fun c => 0 < c < 128) text -> Forall (fun c => c < 256) rest ->
  from_base58_c k (text ++ 0 :: rest) n = from_base58 (text ++ 0 :: rest) n /\
  from_base58_check_c k (text ++ 0 :: rest) n = from_base58_check (text ++ 0 :: rest) n /\
  (forall key c p, key_from_string_c k (text ++ 0 :: rest) n key c p = key_from_string (text ++ 0 :: rest) n key c p) /\
  (forall key p, exkey_from_string_c k (text ++ 0 :: rest) n key p = exkey_from_string (text ++ 0 :: rest) n key p) /\
  (forall key p, expubkey_from_string_c k (text ++ 0 :: rest) n key p = expubkey_from_string (text ++ 0 :: rest) n key p).
Proof.
  intros k text rest n F B.
  assert (H : from_base58_c k (text ++ 0 :: rest) n = from_base58 (text ++ 0 :: rest) n).
  { destruct k; [apply base58_signed|]. rewrite base58_unsigned by (apply below_text; [apply ascii_below, F|exact B]). rewrite image_text by exact F.
    apply C29_from_base58_nul_partial. }
  assert (H2 : from_base58_check_c k (text ++ 0 :: rest) n = from_base58_check (text ++ 0 :: rest) n) by (unfold from_base58_check_c, from_base58_check; rewrite H; reflexivity).
  split; [exact H|]. split; [exact H2|]. unfold key_from_string_c, exkey_from_string_c, expubkey_from_string_c, key_from_string, exkey_from_string, expubkey_from_string.
  rewrite H2. repeat split; reflexivity.
Qed.
Print Assumptions C108_ascii_base58.

Theorem C108_ascii_base32 : forall k text t rest, Forall (fun c => 0 < c < 128 /\ c <> 61) text -> t = 0 \/ t = 61 ->
  from_base32_c k (text ++ t :: rest) (length text) = from_base32 (text ++ t :: rest) (length text).
Proof.
  intros k text t rest F Ht. unfold from_base32, from_base32_c. rewrite <- base32_signed. unfold from_base32_any_c.
  assert (E : base32_strlen (text ++ t :: rest) (length text) = Ok (length text)).
  { unfold base32_strlen. destruct Ht as [-> | ->].
    - rewrite strchr_none; [reflexivity|]. intros H. rewrite Forall_forall in F. apply F in H. lia.
    - rewrite strchr_some; [reflexivity| |]; intros H; rewrite Forall_forall in F; apply F in H; lia. }
  rewrite E. cbn [bind]. f_equal. apply blocks_cong; [apply Nat.mod_upper_bound; lia|]. intros i Hi.
  pose proof (Nat.div_mod (length text) 8 ltac:(lia)) as D. assert (Hl : (i < length text)%nat) by lia. unfold dec_char_c, rd. rewrite nth_error_app1 by exact Hl.
  destruct (nth_error text i) as [c|] eqn:En; [|reflexivity]. apply nth_error_In in En. rewrite Forall_forall in F. apply F in En. cbn [bind].
  unfold char_value, as_char. destruct k; [reflexivity|]. destruct (Z.ltb_spec c 128); [reflexivity|lia].
Qed.
Print Assumptions C108_ascii_base32.

Theorem C108_bech32 : forall k s n cap, bech32_decode_c k s n cap = bech32_decode s n cap.
Proof. exact bech32_kinds. Qed.
Print Assumptions C108_bech32.

(** ** With unsigned char the decoders are defined for every text, and reject those with a byte outside the alphabet. *)
Lemma image_fixed c : In c b58_alphabet \/ is_space c -> forall x, (if 128 <=? x then 127 else x) = c -> x = c.
Proof.
  intros H x E. destruct (Z.leb_spec 128 x); [|exact E]. exfalso. subst c. destruct H as [H|[H|H]]; [|lia|lia].
  cbv in H. repeat (destruct H as [H|H]; [discriminate H|]). exact H.
Qed.
Lemma image_inv (p : Z -> Prop) : (forall c, p c -> forall x, (if 128 <=? x then 127 else x) = c -> x = c) ->
  forall l text, Forall p l -> ascii_image text = l -> text = l.
Proof.
  intros H. induction l as [|c l IH]; intros text F E; [destruct text; [reflexivity|discriminate]|].
  destruct text as [|x text]; [discriminate|]. cbn [ascii_image map] in E. injection E as E1 E2. apply Forall_cons_iff in F. destruct F as [Fc F].
  f_equal; [apply H; assumption|apply IH; assumption].
Qed.
Lemma image_trims text body : Forall (fun c => In c b58_alphabet) body -> (trims_to (ascii_image text) body <-> trims_to text body).
Proof.
  intros Fb. split; intros (s1 & s2 & E & F1 & F2).
  - assert (T : text = s1 ++ body ++ s2).
    { apply (image_inv (fun c => In c b58_alphabet \/ is_space c)); [exact image_fixed| |exact E].
      apply Forall_app. split; [eapply Forall_impl; [|exact F1]; cbv beta; auto|]. apply Forall_app. split; [eapply Forall_impl; [|exact Fb]|eapply Forall_impl; [|exact F2]]; cbv beta; auto. }
    exists s1, s2. auto.
  - exists s1, s2. repeat split; try assumption. rewrite <- E. apply image_ascii. subst text. apply Forall_app. split; [|apply Forall_app; split].
    + eapply Forall_impl; [|exact F1]. unfold is_space. intros; lia.
    + eapply Forall_impl; [|exact Fb]. cbv beta. intros c Hc. cbv in Hc. repeat (destruct Hc as [<-|Hc]; [lia|]). destruct Hc.
    + eapply Forall_impl; [|exact F2]. unfold is_space. intros; lia.
Qed.

Theorem C108_unsigned_base58 : forall text rest, Forall (fun c => 0 < c < 256) text -> Forall (fun c => c < 256) rest ->
  Z.of_nat (length text) * 733 <= INT_MAX ->
  (exists body out, trims_to text body /\ Forall (fun c => In c b58_alphabet) body /\ is_base58 out body /\ bytes out /\
     from_base58_c UnsignedChar (text ++ 0 :: rest) (length text) = Ok (length out, out)) \/
  ((~ exists body, trims_to text body /\ Forall (fun c => In c b58_alphabet) body) /\
     from_base58_c UnsignedChar (text ++ 0 :: rest) (length text) = Ok (O, [])).
Proof.
  intros text rest F B L. rewrite base58_unsigned by (apply below_text; assumption). rewrite image_app. change (ascii_image (0 :: rest)) with (0 :: ascii_image rest).
  destruct (C25_from_base58_language (ascii_image text) (ascii_image rest) (image_is_ascii text F) ltac:(rewrite image_length; exact L)) as [(body & out & T & A & I & O & E)|[N E]]; rewrite image_length in E.
  - left. exists body, out. split; [apply image_trims; assumption|]. repeat split; assumption.
  - right. split; [|exact E]. intros (body & T & A). apply N. exists body. split; [apply image_trims; assumption|exact A].
Qed.
Print Assumptions C108_unsigned_base58.

Theorem C108_unsigned_base58check : forall text rest, Forall (fun c => 0 < c < 256) text -> Forall (fun c => c < 256) rest ->
  Z.of_nat (length text) * 733 <= INT_MAX ->
  (exists data body, trims_to text body /\ is_base58 (data ++ firstn 4 (SHA256 (SHA256 data))) body /\ bytes data /\
     from_base58_check_c UnsignedChar (text ++ 0 :: rest) (length text) = Ok (length data, data ++ firstn 4 (SHA256 (SHA256 data)))) \/
  ((~ exists data body, bytes data /\ trims_to text body /\ is_base58 (data ++ firstn 4 (SHA256 (SHA256 data))) body) /\
     exists out, from_base58_check_c UnsignedChar (text ++ 0 :: rest) (length text) = Ok (0%nat, out)).
Proof.
  intros text rest F B L. rewrite check_unsigned by (apply below_text; assumption). rewrite image_app. change (ascii_image (0 :: rest)) with (0 :: ascii_image rest).
  assert (G : forall b body, is_base58 b body -> (trims_to (ascii_image text) body <-> trims_to text body)).
  { intros b body Hb. apply image_trims. apply is_base58_alphabet in Hb. eapply Forall_impl; [|exact Hb]. cbv beta. tauto. }
  destruct (C31_base58check_language (ascii_image text) (ascii_image rest) (image_is_ascii text F) ltac:(rewrite image_length; exact L)) as [(data & body & T & I & O & E)|[N [out E]]];
    rewrite image_length in E.
  - left. exists data, body. split; [apply (G _ _ I), T|]. repeat split; assumption.
  - right. split; [|exists out; exact E]. intros (data & body & Bd & T & I). apply N. exists data, body. split; [exact Bd|]. split; [apply (G _ _ I), T|exact I].
Qed.
Print Assumptions C108_unsigned_base58check.

Theorem C108_unsigned_base32 : forall text t rest, Forall (fun c => 0 < c < 256 /\ c <> 61) text -> Forall (fun c => c < 256) rest -> t = 0 \/ t = 61 ->
  exists out, from_base32_c UnsignedChar (text ++ t :: rest) (length text) = Ok (length out, out) /\
    (length out <= from_base32_raw_length (length text))%nat /\
    (length out = from_base32_raw_length (length text) ->
       Forall (fun c => b32_value c <> None) (firstn (8 * (length text / 8)) text)).
Proof.
  intros text t rest F B Ht. unfold from_base32_c. rewrite base32_unsigned.
  2:{ apply below_app; [eapply Forall_impl; [|exact F]; cbv beta; intros; lia|]. constructor; [lia|exact B]. }
  rewrite image_app. assert (Et : ascii_image (t :: rest) = t :: ascii_image rest) by (destruct Ht; subst t; reflexivity). rewrite Et.
  assert (F' : Forall (fun c => 0 < c < 128 /\ c <> 61) (ascii_image text)).
  { unfold ascii_image. apply Forall_map. eapply Forall_impl; [|exact F]. cbv beta. intros c Hc. destruct (Z.leb_spec 128 c); lia. }
  destruct (C22_from_base32_partial (ascii_image text) t (ascii_image rest) F' Ht) as (out & E & _ & L & V & _). rewrite image_length in *.
  exists out. split; [exact E|]. split; [exact L|]. intros H. specialize (V H). clear - V. revert V. generalize (8 * (length text / 8))%nat. intros n.
  unfold ascii_image. rewrite firstn_map. rewrite Forall_map. apply Forall_impl. intros c Hc. destruct (Z.leb_spec 128 c); [|exact Hc].
  exfalso. apply Hc. reflexivity.
Qed.
Print Assumptions C108_unsigned_base32.

(** ** With signed char a non-ASCII byte that is reached is undefined behaviour: base 58 texts in which only alphabet characters precede
    it, base 32 texts in which only valid characters precede it and which have no unread tail. *)
Theorem C108_signed_base58_refuted : forall pre c rest n, Forall (fun x => In x b58_alphabet) pre -> 128 <= c < 256 ->
  Z.of_nat n * 733 <= INT_MAX -> (length pre < n)%nat ->
  from_base58_c SignedChar (pre ++ c :: rest) n = UB.
Proof.
  intros pre c rest n F Hc L Hn. rewrite base58_signed.
  assert (U : isspace c = UB) by (unfold isspace, as_char; destruct (Z.ltb_spec c 128); [lia|]; destruct (Z.ltb_spec (c - 256) 0); [reflexivity|lia]).
  assert (A : Forall (fun x => b58ok x = true) pre) by (eapply Forall_impl; [|exact F]; cbv beta; intros x; apply b58ok_spec).
  destruct pre as [|x pre'].
  - unfold from_base58. cbn [app skip_leading_spaces]. destruct (Z.eqb_spec c 0); [lia|]. rewrite U. reflexivity.
  - set (pre := x :: pre') in *.
    assert (S1 : skip_leading_spaces (pre ++ c :: rest) = Ok (0%nat, pre ++ c :: rest)).
    { unfold pre. cbn [app skip_leading_spaces]. apply Forall_cons_iff in A. destruct A as [Ax _]. destruct (b58ok_char x Ax) as (d & Hd & Ed).
      destruct (dec_digit d Hd) as (_ & D2 & D3 & _). rewrite <- Ed in D2, D3. destruct (Z.eqb_spec x 0); [unfold is_ascii in D2; lia|].
      rewrite isspace_ascii by (left; exact D2). rewrite D3. reflexivity. }
    unfold from_base58. rewrite S1. cbn [bind]. destruct (alphabet_split pre A) as (z & ds & E & Hd & Hh). rewrite E, <- app_assoc.
    assert (S2 : skip_ones (repeat 49 z ++ map b58_char ds ++ c :: rest) = Ok (z, map b58_char ds ++ c :: rest)).
    { clear - Hd Hh Hc. induction z as [|z IH]; [|cbn [repeat app skip_ones]; rewrite Z.eqb_refl, IH; reflexivity]. cbn [repeat app].
      destruct ds as [|d ds]; cbn [map app skip_ones]; [destruct (Z.eqb_spec c 49); [lia|reflexivity]|].
      inversion Hd; subst. cbn [head_not] in Hh. destruct (dec_digit d) as (_ & _ & _ & _ & G); [assumption|]. replace (b58_char d =? 49) with false by lia. reflexivity. }
    rewrite S2. cbn [bind]. assert (Lp : length pre = (z + length ds)%nat) by (rewrite E, app_length, repeat_length, map_length; reflexivity).
    set (m := Z.of_nat n - Z.of_nat 0 - Z.of_nat z). assert (Hm : Z.of_nat (length ds) <= m <= Z.of_nat n) by (unfold m; lia).
    assert (HI : INT_MAX = 2147483647) by reflexivity. rewrite to_int_small by lia. cbv zeta.
    replace ((- 2 ^ 31 <=? m * 733) && (m * 733 <=? INT_MAX)) with true by (symmetry; lia). cbn [c_defined bind]. rewrite Z.quot_div_nonneg by lia.
    replace (0 <=? m * 733 / 1000 + 1) with true by (symmetry; dlia). cbn [c_defined bind].
    set (size := Z.to_nat (m * 733 / 1000 + 1)).
    assert (Hfit : 58 ^ Z.of_nat (length ds) <= 256 ^ Z.of_nat size).
    { etransitivity; [apply enough256|]. apply Z.pow_le_mono_r; [lia|]. unfold size. dlia. }
    destruct (from_loop_spec ds Hd 0 (repeat 0 size) 0 (c :: rest)) as (len & b & El & _).
    + apply Forall_forall. intros d Hd'. apply repeat_spec in Hd'. lia.
    + apply Forall_forall. intros d Hd'. apply repeat_spec in Hd'. lia.
    + lia.
    + apply lval_zero, Forall_forall. intros d Hd'. apply repeat_spec in Hd'. exact Hd'.
    + lia.
    + rewrite repeat_length. pose proof (numeral_bound 58 ds ltac:(lia) Hd). lia.
    + rewrite El. cbn [from_base58_loop]. destruct (Z.eqb_spec c 0); [lia|]. rewrite U. reflexivity.
Qed.
Print Assumptions C108_signed_base58_refuted.

Lemma dec_char_high dec l i c : nth_error l i = Some c -> 128 <= c < 256 -> dec_char dec l i = UB.
Proof.
  intros E Hc. unfold dec_char, rd. rewrite E. cbn [bind]. unfold as_char, tget_ub. destruct (Z.ltb_spec c 128); [lia|].
  replace (0 <=? c - 256) with false by lia. reflexivity.
Qed.
Ltac reads H := repeat match goal with
  | |- bind (dec_char ?d ?s ?i) _ = UB => first [destruct (H i ltac:(lia)) as [? ->] | fail 1]; cbn [bind] end.
Lemma block_ub dec b t str j : (j < 8)%nat -> (forall i, (i < j)%nat -> exists v, dec_char dec str i = Ok v) -> dec_char dec str j = UB ->
  from_base32_blocks (S b) t str dec = UB.
Proof.
  intros Hj H U. destruct j as [|[|[|[|[|[|[|[|]]]]]]]]; try lia; cbn [from_base32_blocks]; reads H; rewrite U; reflexivity.
Qed.
Lemma tail_ub dec tail str j : In tail [2; 4; 5; 7]%nat -> (j < tail)%nat -> (forall i, (i < j)%nat -> exists v, dec_char dec str i = Ok v) ->
  dec_char dec str j = UB -> from_base32_tail tail str dec = UB.
Proof.
  intros Ht Hj H U. cbn [In] in Ht. destruct Ht as [<-|[<-|[<-|[<-|[]]]]];
    destruct j as [|[|[|[|[|[|[|]]]]]]]; try lia; unfold from_base32_tail;
    match goal with |- context [u8 (tget TAIL_TO_BYTES ?x)] => let v := eval vm_compute in (u8 (tget TAIL_TO_BYTES x)) in change (u8 (tget TAIL_TO_BYTES x)) with v end;
    cbv zeta; cbn [Z.ltb Z.compare Pos.compare Pos.compare_cont]; reads H; rewrite U; reflexivity.
Qed.
Lemma blocks_high : forall k pre c post rest, (length pre <= k)%nat -> Forall (fun c => 0 < c < 128 /\ b32_value c <> None) pre -> 128 <= c < 256 ->
  b32_good_length (length (pre ++ c :: post)) ->
  from_base32_blocks (length (pre ++ c :: post) / 8) (length (pre ++ c :: post) mod 8) ((pre ++ c :: post) ++ rest) (b32_decode_str false) = UB.
Proof.
  induction k as [k IH] using lt_wf_ind. intros pre c post rest Hk F Hc G.
  assert (V : forall l i x, nth_error l i = Some x -> 0 < x < 128 /\ b32_value x <> None -> exists v, dec_char (b32_decode_str false) l i = Ok v /\ (v =? 255) = false).
  { intros l i x E [Ha Hv]. assert (L_Base32.is_ascii x) by (unfold L_Base32.is_ascii; lia). exists (vof false x). split; [apply dec_char_nth; assumption|].
    rewrite vof_invalid by assumption. change (b32_val false x) with (b32_value x). destruct (b32_value x); [reflexivity|congruence]. }
  set (l := (pre ++ c :: post) ++ rest).
  assert (N : forall i, (i < length pre)%nat -> exists v, dec_char (b32_decode_str false) l i = Ok v).
  { intros i Hi. assert (E : nth_error l i = nth_error pre i) by (unfold l; rewrite <- app_assoc; apply nth_error_app1, Hi).
    destruct (nth_error pre i) as [x|] eqn:Ex; [|apply nth_error_None in Ex; lia]. pose proof (nth_error_In _ _ Ex) as Hin. rewrite Forall_forall in F.
    destruct (V l i x E (F x Hin)) as (v & Ev & _). eauto. }
  assert (U : dec_char (b32_decode_str false) l (length pre) = UB).
  { apply dec_char_high with (c := c); [|exact Hc]. unfold l. rewrite <- app_assoc. rewrite nth_error_app2 by lia. rewrite Nat.sub_diag. reflexivity. }
  assert (Lt : length (pre ++ c :: post) = (length pre + S (length post))%nat) by (rewrite app_length; reflexivity).
  destruct (Nat.lt_ge_cases (length pre) 8) as [Hs|Hs].
  - destruct (length (pre ++ c :: post) / 8)%nat as [|b] eqn:Eb.
    + assert (Hl : (length (pre ++ c :: post) < 8)%nat) by (apply Nat.div_small_iff in Eb; lia). rewrite Nat.mod_small by exact Hl. cbn [from_base32_blocks].
      apply tail_ub with (j := length pre); [|lia|exact N|exact U]. unfold b32_good_length in G. rewrite Nat.mod_small in G by exact Hl. cbn [In] in *. lia.
    + apply block_ub with (j := length pre); assumption.
  - clear N U. destruct pre as [|c0 [|c1 [|c2 [|c3 [|c4 [|c5 [|c6 [|c7 t]]]]]]]]; try (cbn in Hs; lia).
    assert (E8 : length ((c0 :: c1 :: c2 :: c3 :: c4 :: c5 :: c6 :: c7 :: t) ++ c :: post) = (1 * 8 + length (t ++ c :: post))%nat) by reflexivity.
    unfold b32_good_length in G. rewrite E8 in *. rewrite Nat.div_add_l by lia. rewrite Nat.add_comm in G. rewrite (Nat.add_comm (1 * 8)), Nat.mod_add in * by lia.
    change (1 + length (t ++ c :: post) / 8)%nat with (S (length (t ++ c :: post) / 8)). cbn [from_base32_blocks].
    assert (N : forall i, (i < 8)%nat -> exists v, dec_char (b32_decode_str false) l i = Ok v /\ (v =? 255) = false).
    { intros i Hi. unfold l. rewrite Forall_forall in F. do 8 (destruct i as [|i]; [eapply V; [reflexivity|apply F; cbn [In]; tauto]|]). lia. }
    destruct (N 0%nat) as (v0 & -> & E0); [lia|]. destruct (N 1%nat) as (v1 & -> & E1); [lia|]. destruct (N 2%nat) as (v2 & -> & E2); [lia|]. destruct (N 3%nat) as (v3 & -> & E3); [lia|].
    destruct (N 4%nat) as (v4 & -> & E4); [lia|]. destruct (N 5%nat) as (v5 & -> & E5); [lia|]. destruct (N 6%nat) as (v6 & -> & E6); [lia|]. destruct (N 7%nat) as (v7 & -> & E7); [lia|].
    cbn [bind]. rewrite E0, E1, E2, E3, E4, E5, E6, E7. cbn [orb]. unfold l. cbn [app skipn]. cbn [length] in Hk.
    rewrite (IH (length t)); [reflexivity|lia|lia| |exact Hc|exact G].
    rewrite !Forall_cons_iff in F. tauto.
Qed.

Theorem C108_signed_base32_refuted : forall pre c post t rest, Forall (fun c => 0 < c < 128 /\ b32_value c <> None) pre -> 128 <= c < 256 ->
  Forall (fun c => 0 < c < 256 /\ c <> 61) post -> t = 0 \/ t = 61 -> b32_good_length (length (pre ++ c :: post)) ->
  from_base32_c SignedChar ((pre ++ c :: post) ++ t :: rest) (length (pre ++ c :: post)) = UB.
Proof.
  intros pre c post t rest F Hc Fp Ht G. unfold from_base32_c. rewrite base32_signed. unfold from_base32_.
  assert (A : forall x, In x (pre ++ c :: post) -> x <> 0 /\ x <> 61).
  { intros x Hx. rewrite Forall_forall in F, Fp. apply in_app_or in Hx. destruct Hx as [Hx|[<-|Hx]]; [|lia|apply Fp in Hx; lia].
    apply F in Hx. split; [lia|]. intros ->. destruct Hx as [_ Hx]. apply Hx. reflexivity. }
  assert (E : base32_strlen ((pre ++ c :: post) ++ t :: rest) (length (pre ++ c :: post)) = Ok (length (pre ++ c :: post))).
  { unfold base32_strlen. destruct Ht as [-> | ->].
    - rewrite strchr_none; [reflexivity|]. intros H. apply A in H. tauto.
    - rewrite strchr_some; [reflexivity| |]; intros H; apply A in H; tauto. }
  rewrite E. cbn [bind]. change (b32_decode_str false) with (b32_decode_str false). rewrite (blocks_high (length pre)); [reflexivity|lia|exact F|exact Hc|exact G].
Qed.
Print Assumptions C108_signed_base32_refuted.

(** With unsigned char an address decoder given any text is defined and stays within the capacity (compare C46). *)
Theorem C108_unsigned_address : forall p text rest out_size stack, builtin p ->
  Forall (fun c => 0 < c < 256) text -> Forall (fun c => c < 256) rest -> Z.of_nat (length text) * 733 <= INT_MAX ->
  length stack = 128%nat -> good_stack stack -> Forall (fun c => c < 256) stack ->
  (forall s t, Forall is_space s -> text <> s ++ [49; 49; 49; 49] ++ t) ->
  exists r, address_decode_c UnsignedChar (text ++ 0 :: rest) (length text) out_size p stack = Ok r /\
    (length (a_out r) <= out_size)%nat /\ (a_size r <= out_size)%nat.
Proof.
  intros p text rest out_size stack Hp F B L Ls [Gs [a Ga]] Bs N. rewrite address_unsigned; [|apply below_text; assumption|exact Bs].
  rewrite image_app. change (ascii_image (0 :: rest)) with (0 :: ascii_image rest). rewrite <- (image_length text).
  apply C46_decode_capacity_partial; try assumption.
  - apply image_is_ascii, F.
  - rewrite image_length. exact L.
  - rewrite image_length. exact Ls.
  - split.
    + intros H. apply Gs. unfold ascii_image in H. apply in_map_iff in H. destruct H as (x & E & H). destruct (Z.leb_spec 128 x); [discriminate|]. congruence.
    + exists (ascii_image a). rewrite Ga, image_app. reflexivity.
  - intros s t Fs E. 
    assert (exists u v, text = u ++ v /\ ascii_image u = s ++ [49; 49; 49; 49] /\ ascii_image v = t) as (u & v & -> & Eu & _).
    { exists (firstn (length (s ++ [49; 49; 49; 49])) text), (skipn (length (s ++ [49; 49; 49; 49])) text). split; [symmetry; apply firstn_skipn|].
      rewrite app_assoc in E. split; [unfold ascii_image; rewrite <- firstn_map; fold (ascii_image text); rewrite E; rewrite firstn_app, firstn_all, Nat.sub_diag; cbn [firstn]; apply app_nil_r|].
      rewrite image_skipn, E, skipn_app, skipn_all, Nat.sub_diag. reflexivity. }
    apply (N s v Fs). rewrite app_assoc. f_equal. apply (image_inv (fun c => In c b58_alphabet \/ is_space c)); [exact image_fixed| |exact Eu].
    apply Forall_app. split; [eapply Forall_impl; [|exact Fs]; cbv beta; auto|]. repeat constructor; left; cbv; auto.
Qed.
Print Assumptions C108_unsigned_address.

(** ** Concrete cases: "\xc3\xa9" (an e with acute accent in UTF-8) *)
Example C108_ex : from_base58_c UnsignedChar [50; 195; 169; 0] 3 = Ok (0%nat, []) /\ from_base58_c SignedChar [50; 195; 169; 0] 3 = UB /\
  from_base32_c UnsignedChar [97; 195; 169; 97; 0] 4 = Ok (2%nat, [63; 254]) /\ from_base32_c SignedChar [97; 195; 169; 97; 0] 4 = UB.
Proof. repeat split. Qed.
Example C108_ex_good : from_base58_c UnsignedChar [50; 103; 0; 200] 2 = Ok (1%nat, [97]) /\ from_base58 [50; 103; 0; 200] 2 = Ok (1%nat, [97]).
Proof. split; reflexivity. Qed.
