(** Lemmas about the DER code of key.c. *)
From Verif Require Import Base S_Words L_Endian M_Endian M_Hash M_Random M_Secp S_Secp L_Secp M_Key S_Der.

Definition has_ctx (c : option context) : Prop := exists x, c = Some x.

Lemma rdz_at pre b t : rdz (pre ++ b :: t) (Z.of_nat (length pre)) = Ok b.
Proof.
  unfold rdz. replace (Z.of_nat (length pre) <? 0) with false by lia. unfold rd. rewrite Nat2Z.id.
  now rewrite nth_error_app_exact.
Qed.
Lemma land80 b : is_byte b -> (Z.land b 0x80 =? 0) = (b <? 128).
Proof.
  intros H. apply eqb_prop. apply (sweep1 256 (fun b => Bool.eqb (Z.land b 0x80 =? 0) (b <? 128))); [|exact H].
  vm_cast_no_check (eq_refl true).
Qed.
Lemma land7f b : is_byte b -> 128 <= b -> Z.land b 0xFFFFFF7F = b - 128.
Proof.
  intros H H1. assert (E : (b <? 128) || (Z.land b 0xFFFFFF7F =? b - 128) = true).
  { apply (sweep1 256 (fun b => (b <? 128) || (Z.land b 0xFFFFFF7F =? b - 128))); [|exact H]. vm_cast_no_check (eq_refl true). }
  lia.
Qed.

(** Leading zeros of a byte string. *)
Lemma split_zeros l : exists z t, l = repeat 0 z ++ t /\ (forall t', t <> 0 :: t').
Proof.
  induction l as [|x l (z & t & E & H)]; [exists 0%nat, []; split; [reflexivity|discriminate]|].
  destruct (Z.eq_dec x 0) as [-> |Hx]; [exists (S z), t; split; [now rewrite E|exact H]|].
  exists 0%nat, (x :: l). split; [reflexivity|]. intros t' Ht. injection Ht as -> _. contradiction.
Qed.
Lemma be_val_zeros z t : be_val (repeat 0 z ++ t) = be_val t.
Proof. induction z as [|z IH]; [reflexivity|]. cbn [repeat app]. rewrite be_val_cons, IH. lia. Qed.

Lemma skip_zeros_at pre z : forall t rest, (forall t', t <> 0 :: t') ->
  skip_zeros (pre ++ (repeat 0 z ++ t) ++ rest) (Z.of_nat (length pre)) (z + length t) =
    Ok (Z.of_nat (length pre) + Z.of_nat z, length t).
Proof.
  revert pre. induction z as [|z IH]; intros pre t rest Ht.
  - cbn [repeat app Nat.add]. rewrite Z.add_0_r. destruct t as [|x t]; [reflexivity|].
    cbn [length skip_zeros app]. rewrite rdz_at. cbn [bind]. destruct (Z.eqb_spec x 0) as [-> |]; [now destruct (Ht t)|reflexivity].
  - cbn [repeat Nat.add skip_zeros]. rewrite <- app_assoc. cbn [app]. rewrite rdz_at. cbn [bind]. change (0 =? 0) with true. cbn iota.
    specialize (IH (pre ++ [0]) t rest Ht). rewrite <- !app_assoc in IH. cbn [app] in IH.
    replace (Z.of_nat (length pre) + 1) with (Z.of_nat (length (pre ++ [0]))) by (rewrite app_length; cbn [length]; lia).
    rewrite IH. f_equal. f_equal. rewrite app_length. cbn [length]. lia.
Qed.

Lemma read_len_at : forall l pre rest len, bytes l -> 0 <= len -> len * 256 ^ Z.of_nat (length l) + be_val l < 2 ^ 64 ->
  read_len (pre ++ l ++ rest) (Z.of_nat (length pre)) (length l) len =
    Ok (len * 256 ^ Z.of_nat (length l) + be_val l, Z.of_nat (length pre + length l)).
Proof.
  induction l as [|x l IH]; intros pre rest len Bl Hl H.
  - cbn [length read_len]. change (be_val []) with 0. rewrite Nat.add_0_r. f_equal. f_equal. cbn [Z.of_nat]. lia.
  - cbn [length read_len app]. apply bytes_cons in Bl as [Bx Bl]. rewrite rdz_at. cbn [bind].
    rewrite be_val_cons in *. cbn [length] in H. rewrite Nat2Z.inj_succ, Z.pow_succ_r in * by lia.
    pose proof (be_val_bound l Bl) as Bv. assert (P : 0 < 256 ^ Z.of_nat (length l)) by lia. unfold is_byte in Bx.
    assert (Hs : 0 <= len * 256 + x < 2 ^ 64) by nia.
    unfold u64. change (2 ^ 8) with 256. rewrite (Z.mod_small (len * 256)) by nia. rewrite Z.mod_small by lia.
    specialize (IH (pre ++ [x]) rest (len * 256 + x) Bl ltac:(lia) ltac:(nia)). rewrite <- app_assoc in IH. cbn [app] in IH.
    replace (Z.of_nat (length pre) + 1) with (Z.of_nat (length (pre ++ [x]))) by (rewrite app_length; cbn [length]; lia).
    rewrite IH. f_equal. f_equal; [nia|]. rewrite app_length. cbn [length]. lia.
Qed.

(** Stripped big-endian strings: the value decides the length. *)
Lemma stripped_length t k : bytes t -> (forall t', t <> 0 :: t') -> (be_val t < 256 ^ Z.of_nat k <-> (length t <= k)%nat).
Proof.
  intros Bt Ht. split; intros H.
  - destruct t as [|x t]; [cbn; lia|]. destruct (Nat.le_gt_cases (length (x :: t)) k) as [|G]; [assumption|exfalso].
    apply bytes_cons in Bt as [Bx Bt]. rewrite be_val_cons in H. pose proof (be_val_bound t Bt).
    assert (Hx : 1 <= x) by (unfold is_byte in Bx; destruct (Z.eq_dec x 0) as [-> |]; [now destruct (Ht t)|lia]).
    cbn [length] in G. assert (256 ^ Z.of_nat k <= 256 ^ Z.of_nat (length t)) by (apply Z.pow_le_mono_r; lia).
    assert (0 < 256 ^ Z.of_nat (length t)) by lia. nia.
  - pose proof (be_val_bound t Bt). assert (256 ^ Z.of_nat (length t) <= 256 ^ Z.of_nat k) by (apply Z.pow_le_mono_r; lia). lia.
Qed.

Lemma firstn_skipn_len {A} n (l : list A) : (n <= length l)%nat -> exists a b, l = a ++ b /\ length a = n.
Proof. intros H. exists (firstn n l), (skipn n l). split; [now rewrite firstn_skipn|]. rewrite firstn_length. lia. Qed.

Lemma app_split_fun {A} (a b c d : list A) : a ++ b = c ++ d -> length a = length c -> a = c /\ b = d.
Proof.
  revert c. induction a as [|x a IH]; intros [|y c] H L; try discriminate; [auto|].
  injection H as -> H. injection L as L. destruct (IH c H L) as [-> ->]. auto.
Qed.

Lemma cons_inj {A} (x y : A) a b : x :: a = y :: b -> x = y /\ a = b.
Proof. intros H. injection H as -> ->. auto. Qed.

(** The INTEGER parser, at a position that splits the input into [pre] and [post]. *)
Lemma parse_integer_at pre post : bytes post -> Z.of_nat (length (pre ++ post)) < 2 ^ 64 ->
  (exists f content rest, post = 2 :: f ++ content ++ rest /\ lax_len (length content) f /\
     parse_integer (pre ++ post) (Z.of_nat (length (pre ++ post))) (Z.of_nat (length pre)) =
       Ok (Some (Z.of_nat (length content), Z.of_nat (length pre + 1 + length f)))) \/
  ((forall f content rest, post = 2 :: f ++ content ++ rest -> ~ lax_len (length content) f) /\
     parse_integer (pre ++ post) (Z.of_nat (length (pre ++ post))) (Z.of_nat (length pre)) = Ok None).
Proof.
  intros Bp HL. set (N := Z.of_nat (length (pre ++ post))) in *.
  assert (EN : N = Z.of_nat (length pre) + Z.of_nat (length post)) by (unfold N; rewrite app_length; lia).
  unfold parse_integer.
  destruct post as [|tag post]; [right; split; [discriminate|]; cbn [length] in EN; replace (_ =? N) with true by lia; reflexivity|].
  cbn [length] in EN. replace (Z.of_nat (length pre) =? N) with false by lia. rewrite rdz_at. cbn [bind].
  apply bytes_cons in Bp as [Btag Bp].
  destruct (Z.eqb_spec tag 2) as [-> |Ht]; [|right; split; [|reflexivity]; intros f c r H; injection H as Ht' _; contradiction]. cbn [negb].
  destruct post as [|lb post].
  { right. cbn [length] in EN. replace (Z.of_nat (length pre) + 1 =? N) with true by lia. split; [|reflexivity].
    intros f c r H Hl. injection H as H. symmetry in H. apply app_eq_nil in H as [-> _]. destruct Hl as [[H _]|(l & H & _)]; discriminate. }
  cbn [length] in EN. replace (Z.of_nat (length pre) + 1 =? N) with false by lia.
  apply bytes_cons in Bp as [Blb Bp].
  assert (R1 : forall t, rdz (pre ++ 2 :: lb :: t) (Z.of_nat (length pre) + 1) = Ok lb).
  { intros t. replace (Z.of_nat (length pre) + 1) with (Z.of_nat (length (pre ++ [2]))) by (rewrite app_length; cbn [length]; lia).
    replace (pre ++ 2 :: lb :: t) with ((pre ++ [2]) ++ lb :: t) by (now rewrite <- app_assoc). apply rdz_at. }
  rewrite R1. cbn [bind]. rewrite land80 by assumption.
  assert (EP : Z.of_nat (length pre) + 1 + 1 = Z.of_nat (length (pre ++ [2; lb]))) by (rewrite app_length; cbn [length]; lia).
  rewrite EP. assert (EQ : pre ++ 2 :: lb :: post = (pre ++ [2; lb]) ++ post) by (now rewrite <- app_assoc).
  assert (EL : Z.of_nat (length (pre ++ [2; lb])) = Z.of_nat (length pre) + 2) by lia.
  destruct (Z.ltb_spec lb 128) as [Hs|Hs]; cbn [negb bind].
  - (* short form *)
    unfold u64. rewrite Z.mod_small by lia.
    destruct (Z.ltb_spec (N - Z.of_nat (length (pre ++ [2; lb]))) lb) as [Hc|Hc].
    + right. split; [|reflexivity]. intros f c r H Hl. injection H as H. destruct Hl as [[-> Hn]|(l & -> & _)].
      * rewrite <- ?app_comm_cons in H; apply cons_inj in H as [E1 E2]; cbn [app] in E2. subst post. rewrite app_length in EN. lia.
      * rewrite <- ?app_comm_cons in H; apply cons_inj in H as [E1 E2]; cbn [app] in E2. unfold is_byte in Blb. lia.
    + unfold is_byte in Blb. destruct (firstn_skipn_len (Z.to_nat lb) post) as (c & r & -> & Lc); [lia|].
      left. exists [lb], c, r. split; [reflexivity|]. split.
      * left. split; [f_equal; lia|lia].
      * f_equal. f_equal. f_equal; [lia|]. cbn [length]. rewrite EL. lia.
  - (* long form *)
    unfold u64. rewrite Z.mod_small by lia. change 0x80 with 128 in *. unfold is_byte in Blb.
    destruct (Z.ltb_spec (N - Z.of_nat (length (pre ++ [2; lb]))) (lb - 128)) as [Hc|Hc]; cbn [bind].
    { right. split; [|reflexivity]. intros f c r H Hl. injection H as H. destruct Hl as [[-> Hn]|(l & -> & _)].
      - rewrite <- ?app_comm_cons in H; apply cons_inj in H as [E1 E2]; cbn [app] in E2. lia.
      - rewrite <- ?app_comm_cons in H; apply cons_inj in H as [E1 E2]; cbn [app] in E2. subst post. rewrite !app_length in EN. lia. }
    destruct (firstn_skipn_len (Z.to_nat (lb - 128)) post) as (l & post' & -> & Ll); [lia|].
    destruct (split_zeros l) as (z & t & -> & Ht). apply bytes_app in Bp as [Bl Bp']. apply bytes_app in Bl as [_ Bt].
    rewrite app_length, repeat_length in Ll. rewrite EQ. rewrite <- Ll. rewrite skip_zeros_at by assumption. cbn [bind].
    destruct (Nat.leb_spec 4 (length t)) as [H4|H4]; cbn [bind].
    { right. split; [|reflexivity]. intros f c r H Hl. injection H as H. destruct Hl as [[-> Hn]|(l & -> & L1 & V & L2)].
      - rewrite <- ?app_comm_cons in H; apply cons_inj in H as [E1 E2]; cbn [app] in E2. lia.
      - rewrite <- ?app_comm_cons in H; apply cons_inj in H as [E1 E2]; cbn [app] in E2. apply app_split_fun in E2 as [E2 _]; [|rewrite app_length, repeat_length; lia].
        subst l. rewrite be_val_zeros in V. assert (L3 : be_val t < 256 ^ Z.of_nat 3) by (rewrite V; exact L2).
        apply stripped_length in L3; [lia|assumption|assumption]. }
    replace (Z.of_nat (length (pre ++ [2; lb])) + Z.of_nat z) with (Z.of_nat (length ((pre ++ [2; lb]) ++ repeat 0 z))) by (rewrite app_length, repeat_length; lia).
    replace ((pre ++ [2; lb]) ++ (repeat 0 z ++ t) ++ post') with (((pre ++ [2; lb]) ++ repeat 0 z) ++ t ++ post') by (now rewrite <- !app_assoc).
    pose proof (be_val_bound t Bt) as Bv.
    assert (Bv' : be_val t < 256 ^ Z.of_nat 3) by (apply stripped_length; [assumption|assumption|lia]).
    change (256 ^ Z.of_nat 3) with 16777216 in Bv'.
    rewrite read_len_at by (try assumption; lia). cbn [bind]. rewrite Z.mul_0_l, Z.add_0_l.
    set (len := be_val t) in *. rewrite !app_length, repeat_length in EN.
    rewrite Z.mod_small by (rewrite !app_length, repeat_length; cbn [length]; lia).
    destruct (Z.ltb_spec (N - Z.of_nat (length ((pre ++ [2; lb]) ++ repeat 0 z) + length t)) len) as [Hd|Hd].
    + right. split; [|reflexivity]. intros f c r H Hl. injection H as H. destruct Hl as [[-> Hn]|(l & -> & L1 & V & L2)].
      * rewrite <- ?app_comm_cons in H; apply cons_inj in H as [E1 E2]; cbn [app] in E2. lia.
      * rewrite <- ?app_comm_cons in H; apply cons_inj in H as [E1 E2]; cbn [app] in E2. apply app_split_fun in E2 as [E2 E3]; [|rewrite app_length, repeat_length; lia].
        subst l. rewrite be_val_zeros in V. fold len in V. subst post'. rewrite ?app_length, ?repeat_length in EN. rewrite ?app_length, ?repeat_length in Hd. cbn [length] in Hd. lia.
    + rewrite !app_length, repeat_length in Hd. cbn [length] in Hd.
      destruct (firstn_skipn_len (Z.to_nat len) post') as (c & r & -> & Lc); [lia|].
      left. exists (lb :: repeat 0 z ++ t), c, r. split; [cbn [app]; now rewrite <- !app_assoc|]. split.
      * right. exists (repeat 0 z ++ t). rewrite be_val_zeros. fold len. rewrite app_length, repeat_length.
        split; [f_equal; lia|]. split; [lia|]. split; [lia|]. change (2 ^ 24) with 16777216. lia.
      * f_equal. f_equal. f_equal; [lia|]. cbn [length]. rewrite !app_length, repeat_length. cbn [length]. lia.
Qed.

(** Prefix codes: a field is determined by what it starts. *)
Lemma lax_skip_fun f g a b : lax_skip f -> lax_skip g -> f ++ a = g ++ b -> f = g /\ a = b.
Proof.
  intros [(x & -> & Hx)|(l & -> & Hl)] [(y & -> & Hy)|(m & -> & Hm)] H; rewrite <- ?app_comm_cons in H; apply cons_inj in H as [E H].
  - cbn [app] in H. subst. auto.
  - lia.
  - lia.
  - apply app_split_fun in H as [-> ->]; [auto|lia].
Qed.
Lemma lax_len_fun f g n m a b : lax_len n f -> lax_len m g -> f ++ a = g ++ b -> f = g /\ n = m /\ a = b.
Proof.
  intros [(-> & Hn)|(l & -> & Hl & V & _)] [(-> & Hm)|(k & -> & Hk & W & _)] H; rewrite <- ?app_comm_cons in H; apply cons_inj in H as [E H].
  - cbn [app] in H. assert (n = m) by lia. subst. auto.
  - lia.
  - lia.
  - apply app_split_fun in H as [-> ->]; [|lia]. split; [reflexivity|]. split; [lia|reflexivity].
Qed.
Lemma integer_fun f g c d a b : lax_len (length c) f -> lax_len (length d) g -> 2 :: f ++ c ++ a = 2 :: g ++ d ++ b -> f = g /\ c = d /\ a = b.
Proof.
  intros Hf Hg H. apply cons_inj in H as [_ H]. destruct (lax_len_fun _ _ _ _ _ _ Hf Hg H) as (-> & L & H').
  apply app_split_fun in H' as [-> ->]; auto.
Qed.

Lemma seq_length_at post : bytes post -> Z.of_nat (length (48 :: post)) < 2 ^ 64 ->
  let input := 48 :: post in let inputlen := Z.of_nat (length input) in
  let field (k : option Z -> res (Z * (Z * Z))) (sig : Z * Z) :=
    if 1 =? inputlen then Ok (0, sig) else
    lenbyte <- rdz input 1 ;;
    opos <- (if negb (Z.land lenbyte 0x80 =? 0) then
             let lenbyte := lenbyte - 0x80 in
             if u64 (inputlen - (1 + 1)) <? lenbyte then Ok None else Ok (Some (1 + 1 + lenbyte))
           else Ok (Some (1 + 1))) ;; k opos in
  forall k sig, k None = Ok (0, sig) ->
  (exists f post', post = f ++ post' /\ lax_skip f /\ field k sig = k (Some (Z.of_nat (length (48 :: f))))) \/
  ((forall f post', post = f ++ post' -> ~ lax_skip f) /\ field k sig = Ok (0, sig)).
Proof.
  intros Bp HL input N field k sig Hk. unfold field.
  destruct post as [|lb post].
  { right. split; [|reflexivity]. intros f p H. symmetry in H. apply app_eq_nil in H as [-> _].
    intros [(b & H & _)|(l & H & _)]; discriminate. }
  apply bytes_cons in Bp as [Blb Bp].
  assert (EN : N = 2 + Z.of_nat (length post)) by (unfold N, input; cbn [length]; lia).
  assert (HN : N < 2 ^ 64) by exact HL.
  replace (1 =? N) with false by lia.
  replace (rdz input 1) with (Ok lb) by (symmetry; exact (rdz_at [48] lb post)). cbn [bind]. rewrite land80 by assumption.
  unfold is_byte in Blb. destruct (Z.ltb_spec lb 128) as [Hs|Hs]; cbn [negb bind].
  - left. exists [lb], post. split; [reflexivity|]. split; [left; exists lb; split; [reflexivity|lia]|reflexivity].
  - unfold u64. rewrite Z.mod_small by lia. destruct (Z.ltb_spec (N - (1 + 1)) (lb - 0x80)) as [Hc|Hc]; cbn [bind].
    + right. split; [|exact Hk]. intros f p H [(b & -> & Hb)|(l & -> & Hl)]; rewrite <- ?app_comm_cons in H; apply cons_inj in H as [E H]; [lia|].
      subst post. rewrite app_length in EN. lia.
    + destruct (firstn_skipn_len (Z.to_nat (lb - 128)) post) as (l & p & -> & Ll); [lia|].
      left. exists (lb :: l), p. split; [reflexivity|]. split; [right; exists l; split; [f_equal; lia|lia]|].
      f_equal. f_equal. cbn [length]. lia.
Qed.

Lemma bytes_repeat z n : is_byte z -> bytes (repeat z n).
Proof. intros H. apply Forall_forall. intros x Hx. apply repeat_spec in Hx. now subst. Qed.

(** Copying the stripped contents of an INTEGER into the 64-byte scratch buffer. *)
Lemma copy_integer_at pre z t rest tmp top : (32 <= top <= length tmp)%nat -> 
  copy_integer (pre ++ (repeat 0 z ++ t) ++ rest) tmp (Z.of_nat (length pre) + Z.of_nat z) (length t) top =
   Ok (if (32 <? length t)%nat then None else Some (firstn (top - length t) tmp ++ t ++ skipn top tmp)).
Proof.
  intros Ht. unfold copy_integer. destruct (Nat.ltb_spec 32 (length t)) as [H|H]; [reflexivity|].
  replace (Z.to_nat (Z.of_nat (length pre) + Z.of_nat z)) with (length (pre ++ repeat 0 z)) by (rewrite app_length, repeat_length; lia).
  replace (pre ++ (repeat 0 z ++ t) ++ rest) with ((pre ++ repeat 0 z) ++ t ++ rest) by (now rewrite <- !app_assoc).
  rewrite skipn_app_exact. rewrite slice_ok by (rewrite app_length; lia). cbn [skipn]. rewrite firstn_app_exact. cbn [bind].
  rewrite store_ok by lia. cbn [bind]. replace (top - length t + length t)%nat with top by lia. reflexivity.
Qed.

Lemma parse_compact_zero c : has_ctx c -> secp_parse_compact c (repeat 0 64) = Ok (true, (0, 0)).
Proof. intros (x & ->). reflexivity. Qed.
Lemma parse_compact_ok c a b : has_ctx c -> length a = 32%nat -> length b = 32%nat ->
  secp_parse_compact c (a ++ b) = if (be_val a <? secp_n) && (be_val b <? secp_n) then Ok (true, (be_val a, be_val b)) else Ok (false, (0, 0)).
Proof.
  intros (x & ->) La Lb. unfold secp_parse_compact. cbn [any_ctx bind].
  assert (S1 : slice (a ++ b) 0 32 = Ok a) by (rewrite slice_ok by (rewrite app_length; lia); cbn [skipn]; rewrite <- La; now rewrite firstn_app_exact).
  assert (S2 : slice (a ++ b) 32 32 = Ok b).
  { rewrite slice_ok by (rewrite app_length; lia). replace (skipn 32 (a ++ b)) with b by (rewrite <- La; now rewrite skipn_app_exact). rewrite <- Lb. now rewrite firstn_all. }
  rewrite S1, S2. reflexivity.
Qed.

Definition sig_of (R S : list Z) : Z * Z :=
  if (be_val R <? secp_n) && (be_val S <? secp_n) then (be_val R, be_val S) else (0, 0).

Lemma too_long z t : bytes t -> (forall t', t <> 0 :: t') -> (32 < length t)%nat -> (be_val (repeat 0 z ++ t) <? secp_n) = false.
Proof.
  intros Bt Ht H. rewrite be_val_zeros. pose proof (stripped_length t 32 Bt Ht) as E. pose proof n_bound.
  apply Z.ltb_ge. destruct (Z.lt_ge_cases (be_val t) (256 ^ Z.of_nat 32)) as [G|G]; [apply E in G; lia|lia].
Qed.
Lemma app_firstn_repeat (n m : nat) : (n <= m)%nat -> firstn n (repeat 0 m) = repeat 0 n.
Proof. intros. replace m with (n + (m - n))%nat by lia. rewrite repeat_app. rewrite <- (repeat_length 0 n) at 1. apply firstn_app_exact. Qed.
Lemma app_skipn_repeat (n m : nat) : (n <= m)%nat -> skipn n (repeat 0 m) = repeat 0 (m - n).
Proof. intros. replace m with (n + (m - n))%nat at 1 by lia. rewrite repeat_app. rewrite <- (repeat_length 0 n) at 1. apply skipn_app_exact. Qed.

(** The tail of the parser, once both INTEGERs are located. *)
Lemma finish_ok c preR R mid S rest : has_ctx c -> bytes R -> bytes S ->
  let input := preR ++ R ++ mid ++ S ++ rest in
  let preS := preR ++ R ++ mid in
  finish_sig c input (Z.of_nat (length R)) (Z.of_nat (length preR)) (Z.of_nat (length S)) (Z.of_nat (length preS)) = Ok (1, sig_of R S).
Proof.
  intros Hc BR BS input preS. unfold finish_sig. rewrite !Nat2Z.id. set (tmpsig := repeat 0 64).
  destruct (split_zeros R) as (zr & tr & ER & Hr). destruct (split_zeros S) as (zs & ts & ES & Hs).
  assert (BR' := BR). assert (BS' := BS). rewrite ER in BR'. rewrite ES in BS'. apply bytes_app in BR' as [_ Btr]. apply bytes_app in BS' as [_ Bts].
  assert (I1 : input = preR ++ (repeat 0 zr ++ tr) ++ (mid ++ S ++ rest)) by (unfold input; now rewrite ER).
  assert (I2 : input = preS ++ (repeat 0 zs ++ ts) ++ rest) by (unfold input, preS; rewrite ES, <- !app_assoc; reflexivity).
  assert (LR : length R = (zr + length tr)%nat) by (rewrite ER, app_length, repeat_length; reflexivity).
  assert (LS : length S = (zs + length ts)%nat) by (rewrite ES, app_length, repeat_length; reflexivity).
  rewrite LR, LS. rewrite I1 at 1. rewrite skip_zeros_at by assumption. cbn [bind].
  rewrite I1 at 1. rewrite copy_integer_at by (unfold tmpsig; rewrite repeat_length; lia). cbn [bind].
  rewrite I2 at 1. rewrite skip_zeros_at by assumption. cbn [bind].
  set (t1 := if (32 <? length tr)%nat then _ else _).
  assert (Lt : length (match t1 with Some t => t | None => tmpsig end) = 64%nat).
  { unfold t1. destruct (Nat.ltb_spec 32 (length tr)) as [|H]; [apply repeat_length|].
    unfold tmpsig. rewrite !app_length, firstn_length, skipn_length, repeat_length. lia. }
  rewrite I2 at 1. rewrite copy_integer_at by lia. cbn [bind].
  unfold t1. destruct (Nat.ltb_spec 32 (length tr)) as [H1|H1].
  { rewrite parse_compact_zero by assumption. cbn [bind]. unfold sig_of. rewrite ER, too_long by assumption. reflexivity. }
  destruct (Nat.ltb_spec 32 (length ts)) as [H2|H2].
  { rewrite parse_compact_zero by assumption. cbn [bind]. unfold sig_of. rewrite ES, (too_long zs) by assumption. now rewrite andb_false_r. }
  unfold tmpsig. rewrite app_firstn_repeat by lia. rewrite app_skipn_repeat by lia. change (64 - 32)%nat with 32%nat.
  set (A := repeat 0 (32 - length tr) ++ tr).
  assert (LA : length A = 32%nat) by (unfold A; rewrite app_length, repeat_length; lia).
  replace (repeat 0 (32 - length tr) ++ tr ++ repeat 0 32) with (A ++ repeat 0 32) by (unfold A; now rewrite <- app_assoc).
  rewrite skipn_all2 by (rewrite app_length, repeat_length; lia). rewrite app_nil_r.
  replace (firstn (64 - length ts) (A ++ repeat 0 32)) with (A ++ repeat 0 (32 - length ts)).
  2:{ replace (64 - length ts)%nat with (length A + (32 - length ts))%nat by lia. rewrite firstn_app_2, app_firstn_repeat by lia. reflexivity. }
  rewrite <- app_assoc. rewrite parse_compact_ok; [|assumption|exact LA|rewrite app_length, repeat_length; lia].
  unfold sig_of. unfold A. rewrite ER, ES, !be_val_zeros.
  destruct ((be_val tr <? secp_n) && (be_val ts <? secp_n)); cbn [bind]; [reflexivity|].
  now rewrite parse_compact_zero.
Qed.

Theorem parse_der_lax_ok c input : has_ctx c -> bytes input -> Z.of_nat (length input) < 2 ^ 64 ->
  (exists R S, lax_der input R S /\ parse_der_lax c input (Z.of_nat (length input)) = Ok (1, sig_of R S)) \/
  ((forall R S, ~ lax_der input R S) /\ parse_der_lax c input (Z.of_nat (length input)) = Ok (0, (0, 0))).
Proof.
  intros Hc Bi HL. unfold parse_der_lax. rewrite parse_compact_zero by assumption. cbn [bind].
  destruct input as [|tag post].
  { right. split; [|reflexivity]. intros R S (f & fR & fS & r & _ & _ & _ & E). discriminate. }
  replace (0 =? Z.of_nat (length (tag :: post))) with false by (cbn [length]; lia).
  replace (rdz (tag :: post) 0) with (Ok tag) by reflexivity. cbn [bind].
  destruct (Z.eqb_spec tag 48) as [-> |Ht]; cbn [negb].
  2:{ right. split; [|reflexivity]. intros R S (f & fR & fS & r & _ & _ & _ & E). apply cons_inj in E as [E _]. contradiction. }
  apply bytes_cons in Bi as [_ Bp]. change (0 + 1) with 1.
  destruct (seq_length_at post Bp HL
     (fun opos => match opos with None => Ok (0, (0, 0)) | Some pos => parse_integers c (48 :: post) (Z.of_nat (length (48 :: post))) (0, 0) pos end) (0, 0) eq_refl) as [(f & p1 & Ep & Hf & E)|[N E]].
  2:{ right. split; [|exact E]. intros R S (f & fR & fS & r & Hf & _ & _ & Ei). apply cons_inj in Ei as [_ Ei]. exact (N _ _ Ei Hf). }
  refine (let E' := E in _). clearbody E'. cbv zeta in E'. rewrite E'. clear E E'. cbv beta iota. unfold parse_integers.
  set (input := 48 :: post) in *.
  assert (I1 : input = (48 :: f) ++ p1) by (unfold input; now rewrite Ep).
  assert (B1 : bytes p1) by (rewrite Ep in Bp; apply bytes_app in Bp; tauto).
  destruct (parse_integer_at (48 :: f) p1 B1) as [(fR & R & p2 & E1 & LR & P1)|[N P1]]; rewrite <- I1 in *; [exact HL| |].
  2:{ right. rewrite P1. split; [|reflexivity]. intros R S (f' & fR & fS & r & Hf' & HR & _ & Ei). apply cons_inj in Ei as [_ Ei].
      rewrite Ep in Ei. destruct (lax_skip_fun _ _ _ _ Hf Hf' Ei) as [_ Ei']. cbn [app] in Ei'. rewrite <- !app_assoc in Ei'. cbn [app] in Ei'. rewrite <- ?app_assoc in Ei'. exact (N _ _ _ Ei' HR). }
  rewrite P1. cbn [bind].
  set (pre2 := (48 :: f) ++ 2 :: fR ++ R).
  assert (I2 : input = pre2 ++ p2) by (unfold pre2; rewrite I1, E1; rewrite <- !app_assoc; cbn [app]; rewrite <- !app_assoc; reflexivity).
  replace (Z.of_nat (length (48 :: f) + 1 + length fR) + Z.of_nat (length R)) with (Z.of_nat (length pre2))
    by (unfold pre2; rewrite !app_length; cbn [length]; rewrite app_length; lia).
  assert (B2 : bytes p2) by (rewrite E1 in B1; apply bytes_cons in B1 as [_ B1]; apply bytes_app in B1 as [_ B1]; apply bytes_app in B1; tauto).
  assert (BR : bytes R) by (rewrite E1 in B1; apply bytes_cons in B1 as [_ B1]; apply bytes_app in B1 as [_ B1]; apply bytes_app in B1; tauto).
  destruct (parse_integer_at pre2 p2 B2) as [(fS & S & p3 & E2 & LS & P2)|[N P2]]; rewrite <- I2 in *; [exact HL| |].
  2:{ right. rewrite P2. split; [|reflexivity]. intros R' S (f' & fR' & fS & r & Hf' & HR & HS & Ei). apply cons_inj in Ei as [_ Ei].
      rewrite Ep in Ei. destruct (lax_skip_fun _ _ _ _ Hf Hf' Ei) as [_ Ei']. cbn [app] in Ei'. rewrite <- !app_assoc in Ei'. cbn [app] in Ei'. rewrite <- ?app_assoc in Ei'.
      rewrite E1 in Ei'. destruct (integer_fun _ _ _ _ _ _ LR HR Ei') as (_ & _ & Ei2). cbn [app] in Ei2. rewrite <- ?app_assoc in Ei2. exact (N _ _ _ Ei2 HS). }
  rewrite P2. cbn [bind]. left. exists R, S. split.
  - exists f, fR, fS, p3. split; [exact Hf|]. split; [exact LR|]. split; [exact LS|]. unfold input. rewrite Ep, E1, E2. cbn [app]. rewrite <- ?app_assoc. cbn [app]. rewrite <- ?app_assoc. reflexivity.
  - set (preR := (48 :: f) ++ 2 :: fR).
    assert (I3 : input = preR ++ R ++ (2 :: fS) ++ S ++ p3).
    { rewrite I1, E1, E2. unfold preR. rewrite <- !app_assoc. cbn [app]. rewrite <- ?app_assoc. reflexivity. }
    replace (Z.of_nat (length (48 :: f) + 1 + length fR)) with (Z.of_nat (length preR)) by (unfold preR; rewrite app_length; cbn [length]; lia).
    replace (Z.of_nat (length pre2 + 1 + length fS)) with (Z.of_nat (length (preR ++ R ++ 2 :: fS)))
      by (unfold pre2, preR; rewrite !app_length; cbn [length]; rewrite !app_length; cbn [length]; lia).
    rewrite I3. apply (finish_ok c preR R (2 :: fS) S p3); [assumption|assumption|].
    rewrite E2 in B2. apply bytes_cons in B2 as [_ B2]. apply bytes_app in B2 as [_ B2]. apply bytes_app in B2. tauto.
Qed.
