(** Lemmas about DER integers and private keys. *)
From Verif Require Import Base S_Words L_Endian M_Endian M_Random M_Secp M_Key S_Secp L_Secp S_Der L_Der.

Lemma der_strip_ok l : bytes l -> l <> [] -> hd 0 l < 128 -> is_der_int (be_val l) (der_strip l).
Proof.
  induction l as [|a t IH]; [contradiction|]. intros B _ H. cbn [der_strip]. destruct t as [|b t].
  - repeat split; auto; discriminate.
  - destruct (Z.eqb_spec a 0) as [-> |Ha]; cbn [andb].
    + destruct (Z.ltb_spec b 128) as [Hb|Hb].
      * apply bytes_cons in B as [_ B]. rewrite be_val_cons, Z.mul_0_l, Z.add_0_l. apply IH; [assumption|discriminate|exact Hb].
      * repeat split; auto; try discriminate. intros b' t' E. apply cons_inj in E as [_ E]. apply cons_inj in E as [E _]. lia.
    + repeat split; auto; try discriminate. intros b' t' E. apply cons_inj in E as [E _]. lia.
Qed.

Lemma der_strip_length l : (length (der_strip l) <= length l)%nat.
Proof.
  induction l as [|a t IH]; [auto|]. cbn [der_strip]. destruct t as [|b t]; [auto|].
  destruct ((a =? 0) && (b <? 128)); [cbn [length] in *; lia|auto].
Qed.

(** DER integers are unique. *)
Lemma der_int_length v bs n : is_der_int v bs -> 0 <= v < 2 ^ (8 * Z.of_nat n - 1) -> (1 <= n)%nat -> (length bs <= n)%nat.
Proof.
  intros (B & NE & V & H & M) Hv Hn. destruct bs as [|a t]; [contradiction|]. cbn [hd] in H.
  destruct (le_lt_dec (length (a :: t)) n) as [|L]; [assumption|exfalso].
  assert (Ba := B). apply bytes_cons in Ba as [Ba Bt]. unfold is_byte in Ba.
  rewrite be_val_cons in V. pose proof (be_val_bound t Bt) as Ht. cbn [length] in L.
  assert (P : 2 ^ (8 * Z.of_nat n - 1) < 256 ^ Z.of_nat n).
  { replace (256 ^ Z.of_nat n) with (2 ^ (8 * Z.of_nat n)) by (rewrite Z.pow_mul_r by lia; reflexivity). apply Z.pow_lt_mono_r; lia. }
  destruct (Z.eq_dec a 0) as [-> |Na].
  - destruct t as [|b t]; [cbn [length] in L; lia|]. pose proof (M b t eq_refl) as Mb. cbn [length] in *.
    apply bytes_cons in Bt as [_ Bt]. rewrite be_val_cons in V. pose proof (be_val_bound t Bt) as Ht2.
    assert (2 ^ (8 * Z.of_nat n - 1) <= 128 * 256 ^ Z.of_nat (length t)).
    { replace (128 * 256 ^ Z.of_nat (length t)) with (2 ^ (7 + 8 * Z.of_nat (length t))).
      2:{ rewrite Z.pow_add_r, Z.pow_mul_r by lia. reflexivity. }
      apply Z.pow_le_mono_r; lia. }
    nia.
  - assert (256 ^ Z.of_nat n <= 256 ^ Z.of_nat (length t)) by (apply Z.pow_le_mono_r; lia). nia.
Qed.

Lemma der_int_unique v a b : is_der_int v a -> is_der_int v b -> a = b.
Proof.
  intros Ha Hb.
  assert (L : length a = length b).
  { assert (Aux : forall x y, is_der_int v x -> is_der_int v y -> (length x <= length y)%nat).
    { intros x y Hx Hy. apply (der_int_length v x (length y) Hx).
      - destruct Hy as (B & NE & V & H & _). rewrite <- V. split; [apply be_val_bound, B|].
        destruct y as [|c t]; [contradiction|]. cbn [hd] in H. apply bytes_cons in B as [Bc Bt]. unfold is_byte in Bc.
        rewrite be_val_cons. pose proof (be_val_bound t Bt). cbn [length].
        replace (8 * Z.of_nat (S (length t)) - 1) with (7 + 8 * Z.of_nat (length t)) by lia.
        rewrite Z.pow_add_r, Z.pow_mul_r by lia. change (2 ^ 7) with 128. change (2 ^ 8) with 256. nia.
      - destruct Hy as (_ & NE & _). destruct y; [contradiction|cbn [length]; lia]. }
    apply Nat.le_antisymm; auto. }
  destruct Ha as (Ba & _ & Va & _). destruct Hb as (Bb & _ & Vb & _).
  rewrite <- (be_bytes_be_val a Ba), <- (be_bytes_be_val b Bb), L, Va, Vb. reflexivity.
Qed.

Lemma strict_lax r s enc garbage : strict_der r s enc -> (length enc < 130)%nat ->
  exists R S, lax_der (enc ++ garbage) R S /\ be_val R = r /\ be_val S = s.
Proof.
  intros (R & S & HR & HS & E) L. exists R, S.
  assert (LL : (6 + length R + length S < 130)%nat) by (rewrite E, !app_length in L; cbn [length] in L; lia).
  split; [|split; [apply HR|apply HS]].
  exists [Z.of_nat (4 + length R + length S)], [Z.of_nat (length R)], [Z.of_nat (length S)], garbage.
  split; [left; eexists; split; [reflexivity|lia]|]. split; [left; split; [reflexivity|lia]|]. split; [left; split; [reflexivity|lia]|].
  rewrite E. cbn [app]. rewrite <- !app_assoc. cbn [app]. rewrite <- ?app_assoc. reflexivity.
Qed.

(** ** Private keys *)

Lemma shift_or lo h : is_byte lo -> is_byte h -> Z.lor lo (Z.shiftl h 8) = h * 256 + lo.
Proof.
  intros Hl Hh. rewrite Z.shiftl_mul_pow2 by lia. rewrite Z.lor_comm, lor_disjoint; unfold is_byte in *; lia.
Qed.

(** The part of [import_der] after the sequence length. *)
Lemma import_der_ok c input : has_ctx c -> bytes input ->
  (exists key, lax_privkey input key /\ scalar (be_val key) /\ import_der c input = Ok (true, key)) \/
  ((forall key, lax_privkey input key -> ~ scalar (be_val key)) /\ import_der c input = Ok (false, repeat 0 32)).
Proof.
  intros (x & ->) B. unfold import_der.
  destruct input as [|t0 p0].
  { right. split; [|reflexivity]. intros k (f & bd & os & r & _ & _ & _ & E & _). discriminate. }
  apply bytes_cons in B as [Bt B]. cbn [length Nat.ltb Nat.leb]. cbn [rd nth_error bind].
  destruct (Z.eqb_spec t0 0x30) as [-> |Ht]; cbn [negb].
  2:{ right. split; [|reflexivity]. intros k (f & bd & os & r & _ & _ & _ & E & _). apply cons_inj in E as [E _]. contradiction. }
  cbn [skipn]. destruct p0 as [|lb p1].
  { right. split; [|reflexivity]. intros k (f & bd & os & r & [(a & -> & _)|(a & b & -> & _)] & _ & _ & E & _); discriminate. }
  apply bytes_cons in B as [Bl B]. cbn [length Nat.ltb Nat.leb rd nth_error bind]. rewrite land80 by assumption.
  assert (Hfail : lb <> 129 -> lb <> 130 -> forall k, ~ lax_privkey (48 :: lb :: p1) k).
  { intros N1 N2 k (f & bd & os & r & [(a & -> & _)|(a & b & -> & _)] & _ & _ & E & _); apply cons_inj in E as [_ E]; apply cons_inj in E as [E _]; contradiction. }
  destruct (Z.ltb_spec lb 128) as [Hs|Hs].
  { right. split; [|reflexivity]. intros k Hk. exfalso. apply (Hfail ltac:(lia) ltac:(lia) k Hk). }
  rewrite land7f by assumption. cbn [skipn].
  destruct (Z.ltb_spec (lb - 128) 1) as [H1|H1]; cbn [orb].
  { right. split; [|reflexivity]. intros k Hk. exfalso. apply (Hfail ltac:(lia) ltac:(lia) k Hk). }
  destruct (Z.ltb_spec 2 (lb - 128)) as [H2|H2].
  { right. split; [|reflexivity]. intros k Hk. exfalso. apply (Hfail ltac:(lia) ltac:(lia) k Hk). }
  clear Hfail.
  (* common tail *)
  assert (Tail : forall f len body, bytes body -> 0 <= len -> p1 = skipn 1 f ++ body -> f <> [] -> hd 0 f = lb ->
     (forall f' bd, ((exists a, f' = [0x81; a] /\ a <= Z.of_nat (length bd)) \/
                (exists a b, f' = [0x82; a; b] /\ a * 256 + b <= Z.of_nat (length bd))) -> f' ++ bd = f ++ body ->
                f' = f /\ bd = body /\ len <= Z.of_nat (length body)) ->
     (len <= Z.of_nat (length body) -> ((exists a, f = [0x81; a] /\ a <= Z.of_nat (length body)) \/
                (exists a b, f = [0x82; a; b] /\ a * 256 + b <= Z.of_nat (length body)))) ->
     let no := Ok (false, repeat 0 32) in
     let res := if Z.of_nat (length body) <? len then no else
       if (length body <? 3)%nat then no else
       b0 <- rd body 0 ;; b1 <- rd body 1 ;; b2 <- rd body 2 ;;
       if negb (b0 =? 0x02) || negb (b1 =? 0x01) || negb (b2 =? 0x01) then no else
       let privkey := skipn 3 body in
       if (length privkey <? 2)%nat then no else
       b0 <- rd privkey 0 ;;
       if negb (b0 =? 0x04) then no else
       oslen <- rd privkey 1 ;;
       let privkey := skipn 2 privkey in
       if (32 <? oslen) || (Z.of_nat (length privkey) <? oslen) then no else
       bs <- slice privkey 0 (Z.to_nat oslen) ;;
       out32 <- store (repeat 0 32) (32 - Z.to_nat oslen) bs ;;
       ok <- secp_seckey_verify (Some x) out32 ;;
       if ok : bool then Ok (true, out32) else Ok (false, repeat 0 32) in
     (exists key, lax_privkey (48 :: lb :: p1) key /\ scalar (be_val key) /\ res = Ok (true, key)) \/
     ((forall key, lax_privkey (48 :: lb :: p1) key -> ~ scalar (be_val key)) /\ res = Ok (false, repeat 0 32))).
  { intros f len body Bb Hlen Ep Nf Hf Huniq Hlax no res.
    assert (EI : 48 :: lb :: p1 = 48 :: f ++ body).
    { destruct f as [|f0 f]; [contradiction|]. cbn [hd] in Hf. subst f0. cbn [skipn] in Ep. now rewrite Ep. }
    assert (Inv : forall key, lax_privkey (48 :: lb :: p1) key -> exists os rest, len <= Z.of_nat (length body) /\
              body = [2; 1; 1; 4; Z.of_nat (length os)] ++ os ++ rest /\ (length os <= 32)%nat /\ key = repeat 0 (32 - length os) ++ os).
    { intros key (f' & bd & os & rest & Hf' & Hbd & Hos & E & Hk). rewrite EI in E. apply cons_inj in E as [_ E]. symmetry in E.
      destruct (Huniq f' bd Hf' E) as (-> & <- & Hl). exists os, rest. auto. }
    unfold res, no. destruct (Z.ltb_spec (Z.of_nat (length body)) len) as [L0|L0].
    { right. split; [|reflexivity]. intros key Hk. destruct (Inv key Hk) as (os & rest & L & _). lia. }
    destruct body as [|b0 [|b1 [|b2 body]]];
      try (right; split; [|reflexivity]; intros key Hk; destruct (Inv key Hk) as (os & rest & _ & E & _); discriminate).
    cbn [length Nat.ltb Nat.leb rd nth_error bind].
    destruct (Z.eqb_spec b0 2) as [-> |N0]; cbn [negb orb];
      [|right; split; [|reflexivity]; intros key Hk; destruct (Inv key Hk) as (os & rest & _ & E & _); cbn [app] in E; apply cons_inj in E as [E _]; lia].
    destruct (Z.eqb_spec b1 1) as [-> |N1]; cbn [negb orb];
      [|right; split; [|reflexivity]; intros key Hk; destruct (Inv key Hk) as (os & rest & _ & E & _); cbn [app] in E; apply cons_inj in E as [_ E]; apply cons_inj in E as [E _]; lia].
    destruct (Z.eqb_spec b2 1) as [-> |N2]; cbn [negb orb];
      [|right; split; [|reflexivity]; intros key Hk; destruct (Inv key Hk) as (os & rest & _ & E & _); cbn [app] in E; do 2 apply cons_inj in E as [_ E]; apply cons_inj in E as [E _]; lia].
    cbn [skipn]. destruct body as [|b3 [|ol body]];
      try (right; split; [|reflexivity]; intros key Hk; destruct (Inv key Hk) as (os & rest & _ & E & _); discriminate).
    cbn [length Nat.ltb Nat.leb rd nth_error bind].
    destruct (Z.eqb_spec b3 4) as [-> |N3]; cbn [negb];
      [|right; split; [|reflexivity]; intros key Hk; destruct (Inv key Hk) as (os & rest & _ & E & _); cbn [app] in E; do 3 apply cons_inj in E as [_ E]; apply cons_inj in E as [E _]; lia].
    cbn [skipn].
    assert (Inv2 : forall key, lax_privkey (48 :: lb :: p1) key -> exists os rest, body = os ++ rest /\ ol = Z.of_nat (length os) /\ (length os <= 32)%nat /\ key = repeat 0 (32 - length os) ++ os).
    { intros key Hk. destruct (Inv key Hk) as (os & rest & _ & E & L & K). cbn [app] in E. do 4 apply cons_inj in E as [_ E]. apply cons_inj in E as [E1 E].
      exists os, rest. auto. }
    do 5 apply bytes_cons in Bb as [? Bb].
    destruct (Z.ltb_spec 32 ol) as [Lo|Lo]; cbn [orb];
      [right; split; [|reflexivity]; intros key Hk; destruct (Inv2 key Hk) as (os & rest & _ & E & L & _); lia|].
    destruct (Z.ltb_spec (Z.of_nat (length body)) ol) as [Lb|Lb];
      [right; split; [|reflexivity]; intros key Hk; destruct (Inv2 key Hk) as (os & rest & E & E' & L & _); rewrite E, app_length in Lb; lia|].
    unfold is_byte in *.
    set (n := Z.to_nat ol). rewrite slice_ok by lia. cbn [skipn bind].
    set (os := firstn n body). assert (Los : length os = n) by (unfold os; rewrite firstn_length; lia).
    rewrite store_ok by (rewrite repeat_length; lia). cbn [bind]. rewrite Los.
    rewrite app_firstn_repeat by lia. rewrite app_skipn_repeat by lia. replace (32 - (32 - n + n))%nat with 0%nat by lia. cbn [repeat]. rewrite app_nil_r.
    set (key := repeat 0 (32 - n) ++ os).
    assert (Lk : length key = 32%nat) by (unfold key; rewrite app_length, repeat_length; lia).
    assert (Hk : lax_privkey (48 :: lb :: p1) key).
    { exists f. exists (2 :: 1 :: 1 :: 4 :: ol :: body), os, (skipn n body). split; [apply Hlax; exact L0|].
      split; [|split; [lia|split; [exact EI|unfold key; now rewrite Los]]].
      cbn [app]. rewrite Los. unfold n at 1. rewrite Z2Nat.id by lia. unfold os. now rewrite firstn_skipn. }
    assert (Uk : forall key', lax_privkey (48 :: lb :: p1) key' -> key' = key).
    { intros key' Hk'. destruct (Inv2 key' Hk') as (os' & rest & E & E' & L & ->).
      assert (Ln : length os' = n) by lia. unfold key. f_equal; [now f_equal; lia|]. unfold os. rewrite E, <- Ln. now rewrite firstn_app_exact. }
    unfold secp_seckey_verify. cbn [any_ctx bind]. rewrite slice_ok by lia. cbn [skipn]. rewrite firstn_all2 by lia. cbn [bind].
    destruct (Z.ltb_spec 0 (be_val key)); cbn [andb].
    - destruct (Z.ltb_spec (be_val key) secp_n).
      + left. exists key. split; [exact Hk|]. split; [split; assumption|reflexivity].
      + right. split; [|reflexivity]. intros k' Hk'. rewrite (Uk k' Hk'). unfold scalar. lia.
    - right. split; [|reflexivity]. intros k' Hk'. rewrite (Uk k' Hk'). unfold scalar. lia. }
  assert (Hlb : lb = 129 \/ lb = 130) by lia. destruct Hlb as [-> | ->].
  - change (129 - 128) with 1. destruct p1 as [|a body].
    { right. split; [|reflexivity]. intros k (f & bd & os & r & [(a & -> & _)|(a & b & -> & _)] & _ & _ & E & _); apply cons_inj in E as [_ E]; apply cons_inj in E as [E' E]; discriminate. }
    apply bytes_cons in B as [Ba B]. unfold is_byte in Ba.
    replace (Z.of_nat (length (a :: body)) <? 1) with false by (cbn [length]; lia).
    change (Z.to_nat (1 - 1)) with 0%nat. change (Z.to_nat 1) with 1%nat. change (1 <? 1) with false; cbn [rd nth_error bind skipn]. rewrite Z.lor_0_r.
    apply (Tail [129; a] a body); auto; try lia; try discriminate; try reflexivity.
    + intros f' bd [(a' & -> & La)|(a' & b' & -> & La)] E; [|cbn [app] in E; apply cons_inj in E as [E _]; lia].
      cbn [app] in E. apply cons_inj in E as [_ E]. apply cons_inj in E as [-> ->]. auto.
    + intros L. left. eauto.
  - change (130 - 128) with 2. destruct p1 as [|a [|b body]];
      try (right; split; [|reflexivity]; intros k (f & bd & os & r & [(a' & -> & _)|(a' & b' & -> & _)] & _ & _ & E & _); apply cons_inj in E as [_ E]; apply cons_inj in E as [E' E]; discriminate).
    apply bytes_cons in B as [Ba B]. apply bytes_cons in B as [Bb B].
    replace (Z.of_nat (length (a :: b :: body)) <? 2) with false by (cbn [length]; lia).
    change (Z.to_nat (2 - 1)) with 1%nat. change (Z.to_nat (2 - 2)) with 0%nat. change (Z.to_nat 2) with 2%nat. change (1 <? 2) with true. cbn [rd nth_error bind skipn].
    rewrite shift_or by assumption. unfold is_byte in *.
    apply (Tail [130; a; b] (a * 256 + b) body); auto; try lia; try discriminate; try reflexivity.
    + intros f' bd [(a' & -> & La)|(a' & b' & -> & La)] E; [cbn [app] in E; apply cons_inj in E as [E _]; lia|].
      cbn [app] in E. apply cons_inj in E as [_ E]. apply cons_inj in E as [-> E]. apply cons_inj in E as [-> ->]. auto.
    + intros L. right. eauto.
Qed.
