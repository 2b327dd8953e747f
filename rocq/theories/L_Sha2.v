(** The straight-line transforms compute the FIPS compression function: a
    checker interprets the lines symbolically, its soundness is proved once. *)
From Verif Require Import Base M_Endian L_Endian S_Words M_Sha2 S_Sha2.

(* ---------------------------------------------------------------- *)
(** Word functions. *)
Lemma Ch_ok x y z : Ch x y z = sha_Ch x y z.
Proof.
  apply Z.bits_inj'. intros n Hn. unfold Ch, sha_Ch.
  rewrite !Z.lxor_spec, !Z.land_spec, Z.lxor_spec, Z.lnot_spec by lia.
  now destruct (Z.testbit x n), (Z.testbit y n), (Z.testbit z n).
Qed.
Lemma Maj_ok x y z : Maj x y z = sha_Maj x y z.
Proof.
  apply Z.bits_inj'. intros n Hn. unfold Maj, sha_Maj.
  rewrite !Z.lor_spec, !Z.lxor_spec, !Z.land_spec, Z.lor_spec.
  now destruct (Z.testbit x n), (Z.testbit y n), (Z.testbit z n).
Qed.
Lemma ROL_rotr x n : ROL x n = rotr 32 (32 - n) x.
Proof. unfold ROL, rotr, u32. rewrite Z.lor_comm. do 3 f_equal. lia. Qed.
Lemma ROL64_rotr x n : ROL64 x n = rotr 64 (64 - n) x.
Proof. unfold ROL64, rotr, u64. rewrite Z.lor_comm. do 3 f_equal. lia. Qed.

Record agree (o : ops) (P : sha2_fn) : Prop := {
  ag_wrap : forall x, o_wrap o x = x mod 2 ^ sf_w P;
  ag_S0 : forall x, o_S0 o x = sf_S0 P x;
  ag_S1 : forall x, o_S1 o x = sf_S1 P x;
  ag_s0 : forall x, o_s0 o x = sf_s0 P x;
  ag_s1 : forall x, o_s1 o x = sf_s1 P x;
  ag_w : 0 < sf_w P;
  ag_r : (16 <= sf_rounds P)%nat
}.

Lemma agree32 : agree ops32 SHA256_fn.
Proof.
  split; intros; try reflexivity; try (cbn; lia); cbn [ops32 SHA256_fn o_S0 o_S1 o_s0 o_s1 sf_S0 sf_S1 sf_s0 sf_s1];
    unfold Sigma032, Sigma132, sigma032, sigma132; rewrite !ROL_rotr; reflexivity.
Qed.
Lemma agree64 : agree ops64 SHA512_fn.
Proof.
  split; intros; try reflexivity; try (cbn; lia); cbn [ops64 SHA512_fn o_S0 o_S1 o_s0 o_s1 sf_S0 sf_S1 sf_s0 sf_s1];
    unfold Sigma064, Sigma164, sigma064, sigma164; rewrite !ROL64_rotr; reflexivity.
Qed.

(* ---------------------------------------------------------------- *)
(** The schedule. *)
Section Schedule.
Context (P : sha2_fn).
Let sched (M : list Z) (n : nat) := Nat.iter n (fun W => W ++ [schedule_next P W]) M.
Lemma sched_S M n : sched M (S n) = sched M n ++ [schedule_next P (sched M n)].
Proof. reflexivity. Qed.

Lemma sched_length M n : length (sched M n) = (length M + n)%nat.
Proof. induction n as [|n IH]; [rewrite Nat.add_0_r; reflexivity|]. rewrite sched_S, app_length. cbn [length]. lia. Qed.

Lemma sched_prefix M n t : (t < length M + n)%nat -> nth t (sched M (S n)) 0 = nth t (sched M n) 0.
Proof. intros H. rewrite sched_S. rewrite app_nth1; [reflexivity|]. rewrite sched_length. exact H. Qed.

Lemma sched_stable M m n t : (t < length M + m)%nat -> (m <= n)%nat -> nth t (sched M n) 0 = nth t (sched M m) 0.
Proof.
  intros H Hmn. induction n as [|n IH]; [replace m with 0%nat by lia; reflexivity|].
  destruct (Nat.eq_dec m (S n)) as [->|Hne]; [reflexivity|].
  rewrite sched_prefix by lia. apply IH. lia.
Qed.

Lemma schedule_length M : length M = 16%nat -> (16 <= sf_rounds P)%nat -> length (sha2_schedule P M) = sf_rounds P.
Proof. intros H Hr. unfold sha2_schedule. change (length (sched M (sf_rounds P - 16)) = sf_rounds P). rewrite sched_length. lia. Qed.

Lemma schedule_low M t : length M = 16%nat -> (t < 16)%nat -> nth t (sha2_schedule P M) 0 = nth t M 0.
Proof.
  intros H Ht. unfold sha2_schedule. change (nth t (sched M (sf_rounds P - 16)) 0 = nth t M 0).
  rewrite (sched_stable M 0) by lia. reflexivity.
Qed.

Lemma schedule_high M t : length M = 16%nat -> (16 <= t < sf_rounds P)%nat ->
  nth t (sha2_schedule P M) 0
  = (sf_s1 P (nth (t - 2) (sha2_schedule P M) 0) + nth (t - 7) (sha2_schedule P M) 0
     + sf_s0 P (nth (t - 15) (sha2_schedule P M) 0) + nth (t - 16) (sha2_schedule P M) 0) mod 2 ^ sf_w P.
Proof.
  intros H Ht. unfold sha2_schedule.
  change (Nat.iter (sf_rounds P - 16) (fun W => W ++ [schedule_next P W]) M) with (sched M (sf_rounds P - 16)).
  assert (E : forall j, (j < t)%nat -> nth j (sched M (sf_rounds P - 16)) 0 = nth j (sched M (t - 16)) 0).
  { intros j Hj. apply sched_stable; lia. }
  rewrite (E (t - 2)%nat), (E (t - 7)%nat), (E (t - 15)%nat), (E (t - 16)%nat) by lia. rewrite (sched_stable M (S (t - 16))) by lia.
  rewrite sched_S. rewrite app_nth2; rewrite sched_length; [|lia].
  replace (t - (length M + (t - 16)))%nat with 0%nat by lia. cbn [nth].
  unfold schedule_next. rewrite sched_length. replace (length M + (t - 16))%nat with t by lia. reflexivity.
Qed.
End Schedule.

(* ---------------------------------------------------------------- *)
(** Symbolic words. *)
Inductive sterm := XV (j : nat) | X0 (j : nat) | X1 (j : nat).
Definition sterm_eqb (x y : sterm) : bool :=
  match x, y with
  | XV i, XV j => Nat.eqb i j | X0 i, X0 j => Nat.eqb i j | X1 i, X1 j => Nat.eqb i j
  | _, _ => false
  end.
Lemma sterm_eqb_eq x y : sterm_eqb x y = true -> x = y.
Proof. destruct x, y; cbn; try discriminate; intros H; apply Nat.eqb_eq in H; now subst. Qed.

Definition nf := (Z * list sterm)%type.
Definition nf_add (a b : nf) : nf := (fst a + fst b, snd a ++ snd b).

Fixpoint remove1 (x : sterm) (l : list sterm) : option (list sterm) :=
  match l with
  | [] => None
  | y :: t => if sterm_eqb x y then Some t
              else match remove1 x t with Some t' => Some (y :: t') | None => None end
  end.
Fixpoint permb (a b : list sterm) : bool :=
  match a with
  | [] => match b with [] => true | _ => false end
  | x :: a' => match remove1 x b with Some b' => permb a' b' | None => false end
  end.
Definition nf_eqb (m : Z) (a b : nf) : bool := ((fst a - fst b) mod m =? 0) && permb (snd a) (snd b).

Definition canon (t : nat) : list nat := map (fun j => ((j + (8 - t mod 8)) mod 8)%nat) (seq 0 8).

Definition natlist_eqb (a b : list nat) : bool :=
  Nat.eqb (length a) (length b) && forallb (fun p => Nat.eqb (fst p) (snd p)) (combine a b).
Lemma natlist_eqb_eq a b : natlist_eqb a b = true -> a = b.
Proof.
  unfold natlist_eqb. revert b. induction a as [|x a IH]; intros [|y b]; cbn; try discriminate; [reflexivity|].
  intros H. apply andb_true_iff in H as [Hl H]. apply andb_true_iff in H as [Hx H].
  apply Nat.eqb_eq in Hx. subst. f_equal. apply IH. now rewrite Hl, H.
Qed.

Section Check.
Context (P : sha2_fn) (o : ops) (K : list Z) (wb : nat) (known : nat -> option Z) (loads : bool).

Definition norm_st (x : sterm) : nf :=
  match x with
  | XV j => match known j with Some c => (c, []) | None => (0, [x]) end
  | X0 j => match known j with Some c => (o_s0 o c, []) | None => (0, [x]) end
  | X1 j => match known j with Some c => (o_s1 o c, []) | None => (0, [x]) end
  end.

Definition env_get (env : list (option nat)) (i : nat) : option nat :=
  match nth_error env i with Some (Some j) => Some j | _ => None end.

Definition sym_term (env : list (option nat)) (t : term) : option nf :=
  match t with
  | V i => match env_get env i with Some j => Some (norm_st (XV j)) | None => None end
  | S0 i => match env_get env i with Some j => Some (norm_st (X0 j)) | None => None end
  | S1 i => match env_get env i with Some j => Some (norm_st (X1 j)) | None => None end
  | C z => Some (z, [])
  end.
Fixpoint sym_terms (env : list (option nat)) (ts : list term) : option nf :=
  match ts with
  | [] => Some (0, [])
  | t :: ts' => match sym_term env t, sym_terms env ts' with
                | Some a, Some b => Some (nf_add a b) | _, _ => None end
  end.

Definition spec_w (t : nat) : nf :=
  match known t with
  | Some c => (c, [])
  | None => if (t <? 16)%nat then (0, [XV t])
            else nf_add (norm_st (X1 (t - 2))) (nf_add (norm_st (XV (t - 7)))
                 (nf_add (norm_st (X0 (t - 15))) (norm_st (XV (t - 16)))))
  end.

Definition check_line (t : nat) (env : list (option nat)) (l : line) : option (list (option nat)) :=
  let '(R regs k e) := l in
  let m := 2 ^ sf_w P in
  let kt := nth t K 0 in
  if natlist_eqb regs (canon t) && (t <? sf_rounds P)%nat then
    match e with
    | WNone => if nf_eqb m (k, []) (nf_add (kt, []) (spec_w t)) then Some env else None
    | WLoad i off => if loads && (t <? 16)%nat && Nat.eqb off (wb * t) && (i <? 16)%nat && (k =? kt)
                     then Some (upd env i (Some t)) else None
    | WAdd i ts => match sym_terms env (V i :: ts) with
                   | Some n => if nf_eqb m n (spec_w t) && (i <? 16)%nat && (k =? kt)
                               then Some (upd env i (Some t)) else None
                   | None => None end
    | WSet i ts => match sym_terms env ts with
                   | Some n => if nf_eqb m n (spec_w t) && (i <? 16)%nat && (k =? kt)
                               then Some (upd env i (Some t)) else None
                   | None => None end
    | WVal ts => match sym_terms env ts with
                 | Some n => if nf_eqb m (nf_add (k, []) n) (nf_add (kt, []) (spec_w t)) then Some env else None
                 | None => None end
    end
  else None.
Fixpoint check_lines (t : nat) (env : list (option nat)) (ls : list line) : bool :=
  match ls with
  | [] => true
  | l :: ls' => match check_line t env l with Some env' => check_lines (S t) env' ls' | None => false end
  end.

(** Soundness. *)
Context (Ag : agree o P) (Ws : list Z) (chunk : list Z).
Context (Hknown : forall j c, known j = Some c -> nth j Ws 0 = c).
Context (Hrec : forall t, (16 <= t < sf_rounds P)%nat -> nth t Ws 0
   = (sf_s1 P (nth (t - 2) Ws 0) + nth (t - 7) Ws 0 + sf_s0 P (nth (t - 15) Ws 0) + nth (t - 16) Ws 0) mod 2 ^ sf_w P).
Context (Hrng : forall t, (t < sf_rounds P)%nat -> 0 <= nth t Ws 0 < 2 ^ sf_w P).
Context (Hload : loads = true -> forall t, (t < 16)%nat -> o_load o chunk (wb * t) = Ok (nth t Ws 0)).

Definition ev_st (x : sterm) : Z :=
  match x with
  | XV j => nth j Ws 0
  | X0 j => o_s0 o (nth j Ws 0)
  | X1 j => o_s1 o (nth j Ws 0)
  end.
Definition ev_list (l : list sterm) : Z := fold_right (fun x a => ev_st x + a) 0 l.
Definition ev (n : nf) : Z := fst n + ev_list (snd n).

Lemma ev_list_app a b : ev_list (a ++ b) = ev_list a + ev_list b.
Proof. induction a as [|x a IH]; cbn; [reflexivity|]. fold (ev_list (a ++ b)) (ev_list a). lia. Qed.
Lemma ev_add a b : ev (nf_add a b) = ev a + ev b.
Proof. unfold ev, nf_add. cbn [fst snd]. rewrite ev_list_app. lia. Qed.

Lemma remove1_ev x l l' : remove1 x l = Some l' -> ev_list l = ev_st x + ev_list l'.
Proof.
  revert l'. induction l as [|y l IH]; cbn; intros l'; [discriminate|].
  destruct (sterm_eqb x y) eqn:E.
  - intros [= <-]. apply sterm_eqb_eq in E. now subst.
  - destruct (remove1 x l) as [t'|] eqn:E2; [|discriminate]. intros [= <-]. cbn.
    specialize (IH _ eq_refl). fold (ev_list l) (ev_list t'). lia.
Qed.
Lemma permb_ev a : forall b, permb a b = true -> ev_list a = ev_list b.
Proof.
  induction a as [|x a IH]; intros b; cbn [permb].
  - destruct b; [reflexivity|discriminate].
  - destruct (remove1 x b) as [b'|] eqn:E; [|discriminate]. intros H.
    rewrite (remove1_ev _ _ _ E). cbn. fold (ev_list a). now rewrite (IH _ H).
Qed.
Lemma pow_w_pos : 0 < 2 ^ sf_w P.
Proof. pose proof (ag_w _ _ Ag). lia. Qed.
Lemma nf_eqb_ev a b : nf_eqb (2 ^ sf_w P) a b = true -> ev a mod 2 ^ sf_w P = ev b mod 2 ^ sf_w P.
Proof.
  pose proof pow_w_pos as Hp.
  unfold nf_eqb, ev. intros H. apply andb_true_iff in H as [H1 H2]. apply Z.eqb_eq in H1.
  rewrite (permb_ev _ _ H2).
  apply Z.mod_divide in H1; [|lia]. destruct H1 as [q Hq].
  replace (fst a) with (fst b + q * 2 ^ sf_w P) by lia.
  replace (fst b + q * 2 ^ sf_w P + ev_list (snd b)) with (fst b + ev_list (snd b) + q * 2 ^ sf_w P) by ring.
  rewrite Z.mod_add by lia. reflexivity.
Qed.

Lemma norm_ev x : ev (norm_st x) = ev_st x.
Proof.
  destruct x as [j|j|j]; cbn [norm_st]; destruct (known j) as [c|] eqn:E; unfold ev; cbn;
    try (rewrite (Hknown _ _ E)); lia.
Qed.

Lemma spec_w_ev t : (t < sf_rounds P)%nat -> ev (spec_w t) mod 2 ^ sf_w P = nth t Ws 0.
Proof.
  intros Ht. pose proof (Hrng t Ht) as Hr. unfold spec_w. destruct (known t) as [c|] eqn:E.
  - unfold ev; cbn. rewrite <- (Hknown _ _ E). rewrite Z.add_0_r. apply Z.mod_small, Hr.
  - destruct (Nat.ltb_spec t 16) as [H16|H16].
    + unfold ev; cbn. rewrite Z.add_0_r. apply Z.mod_small, Hr.
    + rewrite !ev_add, !norm_ev. cbn [ev_st]. rewrite (ag_s1 _ _ Ag), (ag_s0 _ _ Ag).
      rewrite (Hrec t) by lia. f_equal. ring.
Qed.

Definition env_ok (env : list (option nat)) (w : list (option Z)) : Prop :=
  length env = 16%nat /\ length w = 16%nat /\
  forall i j, env_get env i = Some j -> nth_error w i = Some (Some (nth j Ws 0)).

Lemma getw_ok env w i j : env_ok env w -> env_get env i = Some j -> getw w i = Ok (nth j Ws 0).
Proof. intros (_ & _ & H) E. unfold getw. now rewrite (H _ _ E). Qed.

Lemma sym_terms_ok env w ts n : env_ok env w -> sym_terms env ts = Some n -> eval_terms o w ts = Ok (ev n).
Proof.
  intros He. revert n. induction ts as [|t ts IH]; intros n; cbn [sym_terms eval_terms].
  - intros [= <-]. reflexivity.
  - destruct (sym_term env t) as [a|] eqn:Ea; [|discriminate].
    destruct (sym_terms env ts) as [b|]; [|discriminate]. intros [= <-].
    rewrite (IH _ eq_refl).
    assert (Et : eval_term o w t = Ok (ev a)).
    { destruct t as [i|i|i|z]; cbn [sym_term eval_term] in *.
      - destruct (env_get env i) as [j|] eqn:E; [|discriminate]. assert (a = norm_st (XV j)) by congruence. subst a.
        rewrite norm_ev. cbn [ev_st]. apply (getw_ok _ _ _ _ He E).
      - destruct (env_get env i) as [j|] eqn:E; [|discriminate]. assert (a = norm_st (X0 j)) by congruence. subst a.
        rewrite norm_ev, (getw_ok _ _ _ _ He E). reflexivity.
      - destruct (env_get env i) as [j|] eqn:E; [|discriminate]. assert (a = norm_st (X1 j)) by congruence. subst a.
        rewrite norm_ev, (getw_ok _ _ _ _ He E). reflexivity.
      - injection Ea as <-. unfold ev. cbn. now rewrite Z.add_0_r. }
    rewrite Et. cbn [bind]. now rewrite ev_add.
Qed.

Lemma env_upd env w i t : env_ok env w -> (i < 16)%nat -> env_ok (upd env i (Some t)) (upd w i (Some (nth t Ws 0))).
Proof.
  intros (H1 & H2 & H3) Hi. split; [rewrite upd_length; lia|]. split; [rewrite upd_length; lia|].
  intros i' j. unfold env_get. destruct (Nat.eq_dec i i') as [<-|Hne].
  - rewrite !nth_error_upd_same by lia. now intros [= <-].
  - rewrite !nth_error_upd_other by lia. apply H3.
Qed.

(** One word expression. *)
Lemma check_wexp_ok t env w regs k e env' :
  env_ok env w -> check_line t env (R regs k e) = Some env' ->
  regs = canon t /\ (t < sf_rounds P)%nat /\ exists wv w', eval_wexp o chunk w e = Ok (wv, w') /\ env_ok env' w' /\
    (k + wv) mod 2 ^ sf_w P = (nth t K 0 + nth t Ws 0) mod 2 ^ sf_w P.
Proof.
  pose proof pow_w_pos as Hp.
  intros He. unfold check_line.
  destruct (natlist_eqb regs (canon t) && (t <? sf_rounds P)%nat) eqn:E0; [|discriminate].
  apply andb_true_iff in E0 as [E0 Et]. apply natlist_eqb_eq in E0. apply Nat.ltb_lt in Et.
  intros H. split; [exact E0|]. split; [exact Et|].
  destruct e as [|i off|i ts|i ts|ts].
  - destruct (nf_eqb _ _ _) eqn:E in H; [|discriminate]. injection H as <-.
    apply nf_eqb_ev in E. rewrite ev_add in E. exists 0, w. split; [reflexivity|]. split; [exact He|].
    unfold ev at 1 2 in E. cbn in E. rewrite E. rewrite <- (spec_w_ev t Et).
    rewrite Z.add_mod_idemp_r by lia. f_equal. ring.
  - destruct (_ && _) eqn:E in H; [|discriminate]. injection H as <-.
    apply andb_true_iff in E as [E Ek]. apply andb_true_iff in E as [E Ei].
    apply andb_true_iff in E as [E Eo]. apply andb_true_iff in E as [El E]. apply Nat.ltb_lt in E, Ei. apply Nat.eqb_eq in Eo. apply Z.eqb_eq in Ek.
    subst off k. cbn [eval_wexp]. rewrite (Hload El t E). cbn [bind].
    eexists _, _. split; [reflexivity|]. split; [apply env_upd; assumption|reflexivity].
  - destruct (sym_terms env (V i :: ts)) as [n|] eqn:Es; [|discriminate].
    destruct (_ && _) eqn:E in H; [|discriminate]. injection H as <-.
    apply andb_true_iff in E as [E Ek]. apply andb_true_iff in E as [E Ei].
    apply Nat.ltb_lt in Ei. apply Z.eqb_eq in Ek. subst k.
    apply nf_eqb_ev in E. rewrite (spec_w_ev t Et) in E.
    pose proof (sym_terms_ok _ _ _ _ He Es) as Hev. cbn [eval_terms eval_term] in Hev.
    cbn [eval_wexp]. destruct (getw w i) as [x| |]; cbn [bind] in *; try discriminate.
    destruct (eval_terms o w ts) as [s| |]; cbn [bind] in *; try discriminate.
    injection Hev as Hev. rewrite Hev, (ag_wrap _ _ Ag), E.
    eexists _, _. split; [reflexivity|]. split; [apply env_upd; assumption|reflexivity].
  - destruct (sym_terms env ts) as [n|] eqn:Es; [|discriminate].
    destruct (_ && _) eqn:E in H; [|discriminate]. injection H as <-.
    apply andb_true_iff in E as [E Ek]. apply andb_true_iff in E as [E Ei].
    apply Nat.ltb_lt in Ei. apply Z.eqb_eq in Ek. subst k.
    apply nf_eqb_ev in E. rewrite (spec_w_ev t Et) in E.
    cbn [eval_wexp]. rewrite (sym_terms_ok _ _ _ _ He Es). cbn [bind]. rewrite (ag_wrap _ _ Ag), E.
    eexists _, _. split; [reflexivity|]. split; [apply env_upd; assumption|reflexivity].
  - destruct (sym_terms env ts) as [n|] eqn:Es; [|discriminate].
    destruct (nf_eqb _ _ _) eqn:E in H; [|discriminate]. injection H as <-.
    apply nf_eqb_ev in E. rewrite !ev_add in E.
    cbn [eval_wexp]. rewrite (sym_terms_ok _ _ _ _ He Es). cbn [bind]. rewrite (ag_wrap _ _ Ag).
    eexists _, _. split; [reflexivity|]. split; [exact He|].
    rewrite Z.add_mod_idemp_r by lia. unfold ev at 1 3 in E. cbn in E. rewrite !Z.add_0_r in E. rewrite E.
    rewrite <- (spec_w_ev t Et). rewrite Z.add_mod_idemp_r by lia. reflexivity.
Qed.

(** Registers: the spec state at round [t] is a rotation of the bank. *)
Definition view (t : nat) (rs : list Z) : list Z := map (fun i => nth i rs 0) (canon t).

Lemma exec_step t rs w w' k e wv :
  length rs = 8%nat -> eval_wexp o chunk w e = Ok (wv, w') ->
  (k + wv) mod 2 ^ sf_w P = (nth t K 0 + nth t Ws 0) mod 2 ^ sf_w P ->
  exists rs', exec_line o chunk (rs, w) (R (canon t) k e) = Ok (rs', w') /\ length rs' = 8%nat /\
    view (S t) rs' = sha2_round P (view t rs) (nth t K 0, nth t Ws 0).
Proof.
  pose proof pow_w_pos as Hp.
  intros Hl Hw Hk.
  destruct rs as [|r0 [|r1 [|r2 [|r3 [|r4 [|r5 [|r6 [|r7 [|? ?]]]]]]]]]; try discriminate Hl. clear Hl.
  assert (T : forall h s c, o_wrap o (h + s + c + (k + wv)) = (h + s + c + nth t K 0 + nth t Ws 0) mod 2 ^ sf_w P).
  { intros h s c. rewrite (ag_wrap _ _ Ag). rewrite <- Z.add_mod_idemp_r, Hk, Z.add_mod_idemp_r by lia. f_equal. ring. }
  set (KW := nth t K 0) in *. set (W := nth t Ws 0) in *. clearbody KW W.
  assert (Ht : (t mod 8 < 8)%nat) by (apply Nat.mod_upper_bound; lia).
  assert (HS : (S t mod 8 = (t mod 8 + 1) mod 8)%nat).
  { rewrite Nat.add_mod_idemp_l by lia. f_equal. lia. }
  unfold exec_line. rewrite Hw. cbn [bind]. unfold view, canon. rewrite HS.
  generalize dependent (t mod 8)%nat. intros r Hr _.
  do 8 (destruct r as [|r]; [
    cbn [seq map Nat.modulo Nat.add Nat.sub Nat.divmod fst snd nth upd firstn skipn app];
    eexists; split; [reflexivity|]; split; [reflexivity|];
    cbn [seq map Nat.modulo Nat.add Nat.sub Nat.divmod fst snd nth upd firstn skipn app sha2_round];
    rewrite ?T, ?(ag_wrap _ _ Ag), ?(ag_S0 _ _ Ag), ?(ag_S1 _ _ Ag), ?Ch_ok, ?Maj_ok;
    reflexivity |]).
  lia.
Qed.

Lemma check_lines_ok ls : forall t env rs w,
  check_lines t env ls = true -> env_ok env w -> length rs = 8%nat ->
  exists rs' w', exec_lines o chunk (rs, w) ls = Ok (rs', w') /\ length rs' = 8%nat /\ length w' = 16%nat /\
    view (t + length ls) rs'
    = fold_left (sha2_round P) (map (fun i => (nth i K 0, nth i Ws 0)) (seq t (length ls))) (view t rs).
Proof.
  induction ls as [|l ls IH]; intros t env rs w Hc He Hl.
  - exists rs, w. cbn. rewrite Nat.add_0_r. destruct He as (_ & Hw & _). auto.
  - cbn [check_lines] in Hc. destruct (check_line t env l) as [env'|] eqn:E; [|discriminate].
    destruct l as [regs k e]. destruct (check_wexp_ok _ _ _ _ _ _ _ He E) as (Hreg & Ht & wv & w1 & Hw & He1 & Hk).
    subst regs. destruct (exec_step t rs w w1 k e wv Hl Hw Hk) as (rs1 & Hx & Hl1 & Hv).
    destruct (IH (S t) env' rs1 w1 Hc He1 Hl1) as (rs2 & w2 & Hx2 & Hl2 & Hw2 & Hv2).
    exists rs2, w2. cbn [exec_lines]. rewrite Hx. cbn [bind]. split; [exact Hx2|]. split; [exact Hl2|]. split; [exact Hw2|].
    cbn [length seq map fold_left]. rewrite <- Hv, <- Hv2. f_equal. lia.
Qed.
End Check.

Lemma view0 t rs : (t mod 8 = 0)%nat -> length rs = 8%nat -> view t rs = rs.
Proof.
  intros Ht Hl. unfold view, canon. rewrite Ht.
  destruct rs as [|r0 [|r1 [|r2 [|r3 [|r4 [|r5 [|r6 [|r7 [|? ?]]]]]]]]]; try discriminate Hl. reflexivity.
Qed.

Lemma combine_nth_seq (A B : list Z) n : length A = n -> length B = n ->
  combine A B = map (fun i => (nth i A 0, nth i B 0)) (seq 0 n).
Proof.
  revert B n. induction A as [|a A IH]; intros [|b B] n Ha Hb; cbn in *; subst; try discriminate; [reflexivity|].
  injection Hb as Hb. cbn. f_equal. rewrite (IH B (length A) eq_refl Hb).
  rewrite <- seq_shift, map_map. reflexivity.
Qed.
