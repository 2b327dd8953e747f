(** SHA-1 meets the specification. *)
From Verif Require Import Base M_Endian L_Endian S_Words M_Sha2 S_Sha2 L_Sha2 L_Md L_Sha2Top M_Sha1 S_Sha1.

(** The schedule. *)
Definition sched1 (M : list Z) (n : nat) := Nat.iter n (fun W => W ++ [sha1_schedule_next W]) M.
Lemma sched1_eq M : sha1_schedule M = sched1 M 64.
Proof. unfold sha1_schedule, sched1. reflexivity. Qed.
Lemma sched1_S M n : sched1 M (S n) = sched1 M n ++ [sha1_schedule_next (sched1 M n)].
Proof. reflexivity. Qed.
Lemma sched1_length M n : length (sched1 M n) = (length M + n)%nat.
Proof. induction n as [|n IH]; [rewrite Nat.add_0_r; reflexivity|]. rewrite sched1_S, app_length. cbn [length]. lia. Qed.
Lemma sched1_stable M m n t : (t < length M + m)%nat -> (m <= n)%nat -> nth t (sched1 M n) 0 = nth t (sched1 M m) 0.
Proof.
  intros H Hmn. induction n as [|n IH]; [replace m with 0%nat by lia; reflexivity|].
  destruct (Nat.eq_dec m (S n)) as [->|Hne]; [reflexivity|].
  rewrite sched1_S, app_nth1 by (rewrite sched1_length; lia). apply IH. lia.
Qed.
Lemma schedule1_length M : length M = 16%nat -> length (sha1_schedule M) = 80%nat.
Proof. intros H. rewrite sched1_eq, sched1_length. lia. Qed.
Lemma schedule1_low M t : length M = 16%nat -> (t < 16)%nat -> nth t (sha1_schedule M) 0 = nth t M 0.
Proof. intros H Ht. rewrite sched1_eq. rewrite (sched1_stable M 0) by lia. reflexivity. Qed.
Lemma schedule1_high M t : length M = 16%nat -> (16 <= t < 80)%nat ->
  nth t (sha1_schedule M) 0 =
  rotl 32 1 (Z.lxor (xor3 (nth (t - 3) (sha1_schedule M) 0) (nth (t - 8) (sha1_schedule M) 0) (nth (t - 14) (sha1_schedule M) 0))
                    (nth (t - 16) (sha1_schedule M) 0)).
Proof.
  intros H Ht. rewrite sched1_eq.
  assert (E : forall j, (j < t)%nat -> nth j (sched1 M 64) 0 = nth j (sched1 M (t - 16)) 0).
  { intros j Hj. apply sched1_stable; lia. }
  rewrite (E (t - 3)%nat), (E (t - 8)%nat), (E (t - 14)%nat), (E (t - 16)%nat) by lia.
  rewrite (sched1_stable M (S (t - 16))) by lia.
  rewrite sched1_S, app_nth2; rewrite sched1_length; [|lia].
  replace (t - (length M + (t - 16)))%nat with 0%nat by lia. cbn [nth].
  unfold sha1_schedule_next. rewrite sched1_length. replace (length M + (t - 16))%nat with t by lia. reflexivity.
Qed.

(** The checker. *)
Definition canon5 (t : nat) : list nat := map (fun j => ((j + (5 - t mod 5)) mod 5)%nat) (seq 0 5).
Fixpoint nremove1 (x : nat) (l : list nat) : option (list nat) :=
  match l with
  | [] => None
  | y :: t => if Nat.eqb x y then Some t
              else match nremove1 x t with Some t' => Some (y :: t') | None => None end
  end.
Fixpoint npermb (a b : list nat) : bool :=
  match a with
  | [] => match b with [] => true | _ => false end
  | x :: a' => match nremove1 x b with Some b' => npermb a' b' | None => false end
  end.
Fixpoint env_gets (env : list (option nat)) (vs : list nat) : option (list nat) :=
  match vs with
  | [] => Some []
  | i :: vs' => match env_get env i, env_gets env vs' with Some j, Some js => Some (j :: js) | _, _ => None end
  end.
Definition mkf (t b c d : nat) : fexp :=
  if (t <? 20)%nat then F1 b c d else if (t <? 40)%nat then F2 b c d else if (t <? 60)%nat then F3 b c d else F2 b c d.
Definition fexp_eqb (f g : fexp) : bool :=
  match f, g with
  | F1 b c d, F1 b' c' d' => natlist_eqb [b; c; d] [b'; c'; d']
  | F2 b c d, F2 b' c' d' => natlist_eqb [b; c; d] [b'; c'; d']
  | F3 b c d, F3 b' c' d' => natlist_eqb [b; c; d] [b'; c'; d']
  | _, _ => false
  end.
Lemma fexp_eqb_eq f g : fexp_eqb f g = true -> f = g.
Proof. destruct f, g; cbn [fexp_eqb]; try discriminate; intros H; apply natlist_eqb_eq in H; congruence. Qed.
Definition canon_f (n t : nat) : fexp :=
  mkf t ((1 + (5 - n)) mod 5) ((2 + (5 - n)) mod 5) ((3 + (5 - n)) mod 5).
Definition fexp_ok (t : nat) (f : fexp) : bool := fexp_eqb f (canon_f (t mod 5) t).
Lemma eval_mkf rs t b c d : eval_f rs (mkf t b c d) = sha1_f t (nth b rs (-1000)) (nth c rs (-1000)) (nth d rs (-1000)).
Proof.
  unfold mkf, sha1_f. destruct (t <? 20)%nat; [apply Ch_ok|]. destruct (t <? 40)%nat; [reflexivity|].
  destruct (t <? 60)%nat; [apply Maj_ok|reflexivity].
Qed.
Definition xor_ok (t : nat) (env : list (option nat)) (vs : list nat) : bool :=
  (16 <=? t)%nat &&
  match env_gets env vs with Some js => npermb js [t - 3; t - 8; t - 14; t - 16]%nat | None => false end.
Definition check_line1 (t : nat) (env : list (option nat)) (l : line1) : option (list (option nat)) :=
  let '(R1 regs f k e) := l in
  if natlist_eqb regs (canon5 t) && (t <? 80)%nat && fexp_ok t f && (k =? sha1_K t) then
    match e with
    | WLoad1 i off => if (t <? 16)%nat && Nat.eqb off (4 * t) && (i <? 16)%nat then Some (upd env i (Some t)) else None
    | WSet1 i vs => if xor_ok t env vs && (i <? 16)%nat then Some (upd env i (Some t)) else None
    | WVal1 vs => if xor_ok t env vs then Some env else None
    end
  else None.
Fixpoint check_lines1 (t : nat) (env : list (option nat)) (ls : list line1) : bool :=
  match ls with
  | [] => true
  | l :: ls' => match check_line1 t env l with Some env' => check_lines1 (S t) env' ls' | None => false end
  end.

Lemma check1 : check_lines1 0 env0 sha1_lines = true.
Proof. vm_cast_no_check (eq_refl true). Qed.

Local Opaque sha1_K sha1_f.
Section Sound.
Context (Ws chunk : list Z).
Context (Hrec : forall t, (16 <= t < 80)%nat -> nth t Ws 0 =
  rotl 32 1 (Z.lxor (xor3 (nth (t - 3) Ws 0) (nth (t - 8) Ws 0) (nth (t - 14) Ws 0)) (nth (t - 16) Ws 0))).
Context (Hload : forall t, (t < 16)%nat -> be32 chunk (4 * t) = Ok (nth t Ws 0)).

Definition xors (js : list nat) : Z := fold_right (fun j a => Z.lxor (nth j Ws 0) a) 0 js.

Lemma nremove1_xors x l l' : nremove1 x l = Some l' -> xors l = Z.lxor (nth x Ws 0) (xors l').
Proof.
  revert l'. induction l as [|y l IH]; cbn; intros l'; [discriminate|].
  destruct (Nat.eqb_spec x y) as [->|E].
  - intros [= <-]. reflexivity.
  - destruct (nremove1 x l) as [t'|]; [|discriminate]. intros [= <-]. cbn. specialize (IH _ eq_refl).
    fold (xors l) (xors t'). rewrite IH. rewrite <- !Z.lxor_assoc. f_equal. apply Z.lxor_comm.
Qed.
Lemma npermb_xors a : forall b, npermb a b = true -> xors a = xors b.
Proof.
  induction a as [|x a IH]; intros b; cbn [npermb].
  - destruct b; [reflexivity|discriminate].
  - destruct (nremove1 x b) as [b'|] eqn:E; [|discriminate]. intros H.
    rewrite (nremove1_xors _ _ _ E). cbn. fold (xors a). now rewrite (IH _ H).
Qed.
Lemma xor_vars_ok env w vs js : env_ok Ws env w -> env_gets env vs = Some js -> xor_vars w vs = Ok (xors js).
Proof.
  intros He. revert js. induction vs as [|i vs IH]; intros js; cbn [env_gets xor_vars].
  - intros [= <-]. reflexivity.
  - destruct (env_get env i) as [j|] eqn:E; [|discriminate].
    destruct (env_gets env vs) as [js'|]; [|discriminate]. intros [= <-].
    rewrite (getw_ok Ws env w i j He E). cbn [bind]. rewrite (IH _ eq_refl). reflexivity.
Qed.
Lemma xor_ok_val t env w vs : env_ok Ws env w -> (t < 80)%nat -> xor_ok t env vs = true ->
  exists x, xor_vars w vs = Ok x /\ left1 x = nth t Ws 0.
Proof.
  intros He Ht. unfold xor_ok. intros H. apply andb_true_iff in H as [H1 H2]. apply Nat.leb_le in H1.
  destruct (env_gets env vs) as [js|] eqn:E; [|discriminate].
  exists (xors js). split; [apply (xor_vars_ok env w vs js He E)|].
  rewrite (npermb_xors _ _ H2), (Hrec t) by lia. unfold left1. change (ROL ?a 1) with (rotl 32 1 a). f_equal.
  cbn [xors fold_right]. unfold xor3. rewrite Z.lxor_0_r. now rewrite <- !Z.lxor_assoc.
Qed.

Lemma env_upd1 env w i t : env_ok Ws env w -> (i < 16)%nat -> env_ok Ws (upd env i (Some t)) (upd w i (Some (nth t Ws 0))).
Proof.
  intros (H1 & H2 & H3) Hi. split; [rewrite upd_length; lia|]. split; [rewrite upd_length; lia|].
  intros i' j. unfold env_get. destruct (Nat.eq_dec i i') as [<-|Hne].
  - rewrite !nth_error_upd_same by lia. now intros [= <-].
  - rewrite !nth_error_upd_other by lia. apply H3.
Qed.

Definition view5 (t : nat) (rs : list Z) : list Z := map (fun i => nth i rs 0) (canon5 t).

Lemma check_line1_ok t env w rs l env' :
  env_ok Ws env w -> length rs = 5%nat -> check_line1 t env l = Some env' ->
  exists rs' w', exec_line1 chunk (rs, w) l = Ok (rs', w') /\ env_ok Ws env' w' /\ length rs' = 5%nat /\
    view5 (S t) rs' = sha1_round (view5 t rs) (t, nth t Ws 0).
Proof.
  destruct l as [regs f k e]. intros He Hl. unfold check_line1.
  destruct (natlist_eqb regs (canon5 t) && (t <? 80)%nat && fexp_ok t f && (k =? sha1_K t)) eqn:E0; [|discriminate].
  apply andb_true_iff in E0 as [E0 Ek]. apply andb_true_iff in E0 as [E0 Ef]. apply andb_true_iff in E0 as [E0 Et].
  apply natlist_eqb_eq in E0. apply Nat.ltb_lt in Et. apply Z.eqb_eq in Ek. subst regs k.
  intros H.
  assert (Hw : exists w', eval_wexp1 chunk w e = Ok (nth t Ws 0, w') /\ env_ok Ws env' w').
  { destruct e as [i off|i vs|vs]; cbn [eval_wexp1].
    - destruct (_ && _) eqn:E in H; [|discriminate]. injection H as <-.
      apply andb_true_iff in E as [E Ei]. apply andb_true_iff in E as [E Eo].
      apply Nat.ltb_lt in E, Ei. apply Nat.eqb_eq in Eo. subst off. rewrite (Hload t E). cbn [bind].
      eexists. split; [reflexivity|]. now apply env_upd1.
    - destruct (_ && _) eqn:E in H; [|discriminate]. injection H as <-.
      apply andb_true_iff in E as [E Ei]. apply Nat.ltb_lt in Ei.
      destruct (xor_ok_val t env w vs He Et E) as (x & -> & Hx). cbn [bind]. rewrite Hx.
      eexists. split; [reflexivity|]. now apply env_upd1.
    - destruct (xor_ok t env vs) eqn:E; [|discriminate]. injection H as <-.
      destruct (xor_ok_val t env w vs He Et E) as (x & -> & Hx). cbn [bind]. rewrite Hx.
      eexists. split; [reflexivity|]. exact He. }
  destruct Hw as (w' & Hw & He'). apply fexp_eqb_eq in Ef. subst f.
  unfold exec_line1. rewrite Hw. cbn [bind].
  destruct rs as [|r0 [|r1 [|r2 [|r3 [|r4 [|? ?]]]]]]; try discriminate Hl. clear Hl.
  assert (T : forall a e f, u32 (e + (ROL a 5 + f + sha1_K t + nth t Ws 0))
              = (rotl 32 5 a + f + e + sha1_K t + nth t Ws 0) mod 2 ^ 32).
  { intros a e0 f0. unfold u32. f_equal. change (ROL a 5) with (rotl 32 5 a). generalize (rotl 32 5 a), (sha1_K t), (nth t Ws 0). intros. lia. }
  assert (Hround : forall a b c d e0, sha1_round [a; b; c; d; e0] (t, nth t Ws 0)
     = [(rotl 32 5 a + sha1_f t b c d + e0 + sha1_K t + nth t Ws 0) mod 2 ^ 32; a; rotl 32 30 b; c; d]) by reflexivity.
  set (KT := sha1_K t) in *. set (W := nth t Ws 0) in *. clearbody KT W.
  assert (Hn : (t mod 5 < 5)%nat) by (apply Nat.mod_upper_bound; lia).
  assert (HS : (S t mod 5 = (t mod 5 + 1) mod 5)%nat) by (rewrite Nat.add_mod_idemp_l by lia; f_equal; lia).
  unfold canon_f. rewrite eval_mkf.
  set (ft := sha1_f t) in *. clearbody ft.
  unfold view5, canon5. rewrite HS. clear HS Hw.
  generalize dependent (t mod 5)%nat. intros n Hn.
  do 5 (destruct n as [|n]; [
    cbn [seq map Nat.modulo Nat.add Nat.sub Nat.divmod fst snd nth upd firstn skipn app];
    eexists _, _; split; [reflexivity|]; split; [exact He'|]; split; [reflexivity|];
    cbn [seq map Nat.modulo Nat.add Nat.sub Nat.divmod fst snd nth upd firstn skipn app];
    rewrite Hround, T; reflexivity |]).
  lia.
Qed.

Lemma check_lines1_ok ls : forall t env rs w,
  check_lines1 t env ls = true -> env_ok Ws env w -> length rs = 5%nat ->
  exists rs' w', exec_lines1 chunk (rs, w) ls = Ok (rs', w') /\ length rs' = 5%nat /\
    view5 (t + length ls) rs'
    = fold_left sha1_round (map (fun i => (i, nth i Ws 0)) (seq t (length ls))) (view5 t rs).
Proof.
  induction ls as [|l ls IH]; intros t env rs w Hc He Hl.
  - exists rs, w. cbn. rewrite Nat.add_0_r. auto.
  - cbn [check_lines1] in Hc. destruct (check_line1 t env l) as [env'|] eqn:E; [|discriminate].
    destruct (check_line1_ok t env w rs l env' He Hl E) as (rs1 & w1 & Hx & He1 & Hl1 & Hv).
    destruct (IH (S t) env' rs1 w1 Hc He1 Hl1) as (rs2 & w2 & Hx2 & Hl2 & Hv2).
    exists rs2, w2. cbn [exec_lines1]. rewrite Hx. cbn [bind]. split; [exact Hx2|]. split; [exact Hl2|].
    cbn [length seq map fold_left]. rewrite <- Hv, <- Hv2. f_equal. lia.
Qed.
End Sound.

Lemma view5_0 t rs : (t mod 5 = 0)%nat -> length rs = 5%nat -> view5 t rs = rs.
Proof.
  intros Ht Hl. unfold view5, canon5. rewrite Ht.
  destruct rs as [|r0 [|r1 [|r2 [|r3 [|r4 [|? ?]]]]]]; try discriminate Hl. reflexivity.
Qed.
Lemma combine_seq_nth (B : list Z) n : length B = n ->
  combine (seq 0 n) B = map (fun i => (i, nth i B 0)) (seq 0 n).
Proof.
  intros H. assert (G : forall k (B : list Z), combine (seq k (length B)) B = map (fun i => (i, nth (i - k) B 0)) (seq k (length B))).
  { clear. intros k B. revert k. induction B as [|b B IH]; intros k; [reflexivity|].
    cbn [length seq combine map]. rewrite Nat.sub_diag. cbn [nth]. f_equal. rewrite IH.
    apply map_ext_in. intros i Hi. apply in_seq in Hi. f_equal.
    replace (i - k)%nat with (S (i - S k)) by lia. reflexivity. }
  rewrite <- H, G. apply map_ext. intros i. now rewrite Nat.sub_0_r.
Qed.

Definition good5 (s : list Z) : Prop := length s = 5%nat.
Definition comp1 (H block : list Z) : list Z := sha1_compress H (be_words 4 block).

Lemma round1_length st kw : length st = 5%nat -> length (sha1_round st kw) = 5%nat.
Proof. intros H. destruct st as [|? [|? [|? [|? [|? [|? ?]]]]]]; try discriminate H. reflexivity. Qed.
Lemma rounds1_length l : forall st, length st = 5%nat -> length (fold_left sha1_round l st) = 5%nat.
Proof. induction l as [|x l IH]; intros st H; [exact H|]. cbn. apply IH, round1_length, H. Qed.
Lemma comp1_good s b : good5 s -> good5 (comp1 s b).
Proof. intros E. unfold good5, comp1, sha1_compress, add_words. rewrite map_length, combine_length, rounds1_length by exact E. rewrite E. reflexivity. Qed.

Lemma sha1_transform_ok s chunk : good5 s -> bytes chunk -> (64 <= length chunk)%nat ->
  sha1_transform s chunk = Ok (comp1 s (firstn 64 chunk)).
Proof.
  intros Hs Hb Hl. unfold sha1_transform.
  assert (Hb' : bytes (firstn 64 chunk)) by now apply bytes_firstn.
  assert (Hl' : length (firstn 64 chunk) = (4 * 16)%nat) by (rewrite firstn_length; lia).
  destruct (words_facts 4 (firstn 64 chunk) ltac:(lia) Hb' Hl') as [HM Hw].
  unfold comp1, sha1_compress. set (M := be_words 4 (firstn 64 chunk)) in *.
  destruct (check_lines1_ok (sha1_schedule M) chunk) with (ls := sha1_lines) (t := 0%nat) (env := env0) (rs := s) (w := w_uninit)
    as (rs & w' & Hx & Hlr & Hv); auto.
  - intros t Ht. now apply schedule1_high.
  - intros t Ht. rewrite be32_ok by (auto; lia). rewrite schedule1_low by assumption.
    destruct (Hw t Ht) as [-> _]. rewrite firstn_skipn_firstn by lia. reflexivity.
  - apply env0_ok.
  - rewrite Hx. cbn [bind]. f_equal. change (length sha1_lines) with 80%nat in Hv. cbn [Nat.add] in Hv.
    rewrite !view5_0 in Hv by (auto; reflexivity). rewrite Hv.
    rewrite combine_seq_nth by now apply schedule1_length. reflexivity.
Qed.

Lemma IV1_eq : sha1_H0 = IV1. Proof. reflexivity. Qed.

Lemma SHA1_unfold m : SHA1 m = concat (map (be_bytes 4) (fold_left comp1 (chunks 64 (m ++ md_pad 64 (be_bytes 8 (8 * Z.of_nat (length m))) (length m))) IV1)).
Proof. reflexivity. Qed.

Lemma bind_assoc {A B C} (x : res A) (f : A -> res B) (g : B -> res C) :
  bind (bind x f) g = bind x (fun a => bind (f a) g).
Proof. now destruct x. Qed.

Lemma sha1_ok msg n : bytes msg -> (n <= length msg)%nat -> byte_len_ok n -> sha1 msg n = Ok (SHA1 (firstn n msg)).
Proof.
  intros Hb Hn Hlen.
  destruct (gen_final_ok sha1_transform comp1 64 good5 ltac:(lia) sha1_transform_ok
              (fun s b H _ _ => comp1_good s b H) 0 (be_bytes 8 (8 * Z.of_nat n)) IV1 msg n)
    as (d' & Hg & Hd' & Hx); try apply be_bytes_length; try apply be_bytes_bytes; auto; try lia; [reflexivity|].
  assert (E : sha1 msg n = bind (gen_final sha1_transform 64 55 56 (be_bytes 8 (8 * Z.of_nat n)) IV1 msg n) (fun d => Ok (out32 d))).
  { unfold sha1, gen_final. rewrite <- (len_field n Hlen).
    destruct (block_loop n 64 sha1_transform IV1 msg n) as [[[d b] r]| |]; cbn [bind]; [|reflexivity|reflexivity].
    destruct (slice b 0 r) as [t| |]; cbn [bind]; [|reflexivity|reflexivity].
    destruct (store (repeat 0 64) 0 t) as [c| |]; cbn [bind]; [|reflexivity|reflexivity].
    destruct (store c r [0x80]) as [c'| |]; cbn [bind]; [|reflexivity|reflexivity].
    destruct (if (55 <? r)%nat then _ else _) as [[d2 c2]| |]; cbn [bind]; [|reflexivity|reflexivity].
    rewrite bind_assoc. reflexivity. }
  rewrite E. change (64 - 0 - 9)%nat with 55%nat in Hx. change (64 - 8)%nat with 56%nat in Hx. rewrite Hx. cbn [bind].
  rewrite out32_ok, SHA1_unfold. replace (length (firstn n msg)) with n by (rewrite firstn_length; lia).
  rewrite Hd'. reflexivity.
Qed.
Lemma fold_good_p (good : list Z -> Prop) (comp : list Z -> list Z -> list Z) : (forall s b, good s -> good (comp s b)) ->
  forall l s, good s -> good (fold_left comp l s).
Proof. intros H. induction l as [|b l IH]; intros s Hs; cbn; auto. Qed.
Lemma SHA1_length m : length (SHA1 m) = 20%nat.
Proof. rewrite SHA1_unfold, concat_map_length. rewrite (fold_good_p good5 comp1 comp1_good) by reflexivity. reflexivity. Qed.
