(** Lemmas for C141, text encoders. *)
From Verif Require Import Base M_Endian M_Hex M_Base58 M_Leak M_LeakText S_LeakCover L_LeakBounds L_LeakBoundsText L_LeakCover.

Lemma to_hex_reads p str hs buf : forall i k, (k < length buf)%nat -> reads (fst (to_hex_loop_l p str hs i buf)) p (i + k) /\
  writes (fst (to_hex_loop_l p str hs i buf)) str (2 * (i + k)) /\ writes (fst (to_hex_loop_l p str hs i buf)) str (2 * (i + k) + 1).
Proof.
  induction buf as [|b buf IH]; intros i k L; cbn [length] in L; [lia|]. cbn [to_hex_loop_l]. specialize (IH (S i)).
  destruct (to_hex_loop_l p str hs (S i) buf) as [t out]. cbn [fst] in *. destruct k as [|k].
  - rewrite Nat.add_0_r. split; [|split].
    + apply (reads_here p i 1); [right; left; reflexivity|lia].
    + apply (writes_here str (2 * i) 1); [do 3 right; left; reflexivity|lia].
    + apply (writes_here str (2 * i + 1) 1); [do 5 right; left; reflexivity|lia].
  - specialize (IH k ltac:(lia)). replace (S i + k)%nat with (i + S k)%nat in IH by lia. destruct IH as (A & B & C).
    split; [|split]; do 6 apply Exists_cons_tl; assumption.
Qed.
Lemma C_to_hex p str buf u : (forall i, (i < length buf)%nat -> reads (fst (to_hex_l p str buf u)) p i) /\
  (forall i, (i < 2 * length buf)%nat -> writes (fst (to_hex_l p str buf u)) str i).
Proof.
  unfold to_hex_l. pose proof (to_hex_reads p str (hex_str u) buf 0) as H. destruct (to_hex_loop_l p str (hex_str u) 0 buf) as [t out]. cbn [fst] in *.
  split; intros i L; apply Exists_cons_tl.
  - destruct (H i L) as [A _]. exact A.
  - assert (D : (i / 2 < length buf)%nat) by (apply Nat.div_lt_upper_bound; lia). destruct (H (i / 2)%nat D) as (_ & B & C). cbn [Nat.add] in B, C.
    pose proof (Nat.div_mod i 2 ltac:(lia)) as E. pose proof (Nat.mod_upper_bound i 2 ltac:(lia)) as F.
    assert (X : (i = 2 * (i / 2) \/ i = 2 * (i / 2) + 1)%nat) by lia. destruct X as [X|X]; rewrite X; assumption.
Qed.

(** Base58: what is written is the text that is returned. *)
Lemma skip_reads p buf : forall i k, (k < fst (snd (skip_zeroes_l p i buf)))%nat -> reads (fst (skip_zeroes_l p i buf)) p (i + k).
Proof.
  induction buf as [|x r IH]; intros i k; cbn [skip_zeroes_l]; [cbn; lia|]. specialize (IH (S i)). destruct (skip_zeroes_l p (S i) r) as [t' [z b]]. cbn [fst snd] in *.
  destruct (x =? 0); cbn [fst snd app]; [|lia]. intros L. destruct k as [|k].
  - apply (reads_here p i 1); [right; left; reflexivity|lia].
  - do 3 apply Exists_cons_tl. replace (i + S k)%nat with (S i + k)%nat by lia. apply IH. lia.
Qed.
Lemma b58_loop_reads p size buf : forall k len b r, snd (to_base58_loop_l p k size buf len b) = Ok r -> forall i, (i < length buf)%nat ->
  reads (fst (to_base58_loop_l p k size buf len b)) p (k + i).
Proof.
  induction buf as [|x buf IH]; intros k len b r H i L; cbn [length] in L; [lia|]. cbn [to_base58_loop_l] in *. apply tell_ok in H.
  destruct (carry_loop_l 256 58 x size 0 len b) as [t [[c j] b']]. apply tell_ok in H. apply bind_ok in H. destruct H as (u & H1 & H).
  destruct i as [|i].
  - apply X_l. cbn [tell fst]. apply (reads_here p k 1); [right; left; reflexivity|lia].
  - apply X_t. apply X_t. eapply X_r; [exact H1|]. replace (k + S i)%nat with (S k + i)%nat by lia. apply (IH _ _ _ r H). lia.
Qed.
Lemma translate_writes str size iter : forall k i, (i < length iter)%nat -> writes (fst (translate_l str size k iter)) str (k + i) .
Proof.
  induction iter as [|d r IH]; intros k i L; cbn [length] in L; [lia|]. cbn [translate_l]. specialize (IH (S k)). destruct (translate_l str size (S k) r) as [t out]. cbn [fst] in *.
  destruct i as [|i].
  - apply (writes_here str k 1); [do 3 right; left; reflexivity|lia].
  - do 4 apply Exists_cons_tl. replace (k + S i)%nat with (S k + i)%nat by lia. apply IH. lia.
Qed.
Lemma translate_len str size iter : forall k, length (snd (translate_l str size k iter)) = length iter.
Proof. induction iter as [|d r IH]; intros k; cbn [translate_l]; [reflexivity|]. specialize (IH (S k)). destruct (translate_l str size (S k) r). cbn in *. lia. Qed.
Lemma C_b58 p str buf l txt : snd (to_base58_l p str buf) = Ok (l, txt) ->
  l = length txt /\ (forall i, (i < length buf)%nat -> reads (fst (to_base58_l p str buf)) p i) /\ (forall i, (i < l)%nat -> writes (fst (to_base58_l p str buf)) str i).
Proof.
  intros H. unfold to_base58_l in *. pose proof (skip_reads p buf 0) as S0. destruct (skip_post p buf 0) as [S1 _].
  destruct (skip_zeroes_l p 0 buf) as [t0 [z rest]]. cbn [fst snd] in *. apply tell_ok in H. cbv zeta in *. set (size := (length rest * 138 / 100 + 1)%nat) in *. clearbody size.
  apply bind_ok in H. destruct H as (u & Hu & H). apply tell_ok in H. apply bind_ok in H. destruct H as ([len b58] & Hb & H).
  destruct (skip_zeroes_l (B58, (size - len)%nat) 0 (rev (firstn len b58))) as [t1 [z1 iter]] eqn:Esk. apply tell_ok in H.
  pose proof (translate_writes str size iter z) as W. pose proof (translate_len str size iter z) as TL. destruct (translate_l str size z iter) as [t2 chars] eqn:Etr. cbn [fst snd] in *.
  apply tell_ok in H. cbn [pure snd] in H.
  assert (E : l = length (repeat 49 z ++ chars) /\ txt = repeat 49 z ++ chars).
  { split; [apply (f_equal (fun r => match r with Ok (x, _) => x | _ => l end)) in H|apply (f_equal (fun r => match r with Ok (_, x) => x | _ => txt end)) in H]; cbv beta iota in H; symmetry; exact H. }
  clear H. destruct E as [E1 E2]. split; [rewrite E2; exact E1|]. rewrite app_length, repeat_length, TL in E1. split; intros i Hi.
  - destruct (Nat.lt_ge_cases i z) as [L|L]; [apply X_l; exact (S0 i L)|]. apply X_t. eapply X_r; [exact Hu|]. apply X_t. apply X_l.
    replace i with (z + (i - z))%nat by lia. apply (b58_loop_reads _ _ _ _ _ _ _ Hb). lia.
  - apply X_t. eapply X_r; [exact Hu|]. apply X_t. eapply X_r; [exact Hb|]. cbv beta iota. rewrite Esk. destruct (Nat.lt_ge_cases i z) as [L|L].
    + apply X_l. cbn [tell fst]. apply Exists_app. right. apply Exists_cons_hd. cbn. split; [reflexivity|lia].
    + apply X_t. rewrite Etr. apply X_l. cbn [tell fst]. apply Exists_app. left. replace i with (z + (i - z))%nat by lia. apply W. lia.
Qed.

Section Gen.
Variable P : obs -> Prop.
Hypothesis PT : forall b, P (Test b).
Lemma F_b58_exact p str buf l txt : snd (to_base58_l p str buf) = Ok (l, txt) -> can_read P p (length buf) -> can_write P str l -> rw P B58 (length buf * 138 / 100 + 1) ->
  can_read P (Base58Table, 0%nat) 58 -> Forall P (fst (to_base58_l p str buf)).
Proof.
  intros HO R W RW T. unfold to_base58_l in *. pose proof (F_skip P PT p buf 0 (length buf) R ltac:(lia)) as H0. destruct (skip_post p buf 0) as [S1 _].
  destruct (skip_zeroes_l p 0 buf) as [t0 [z rest]]. cbn [fst snd] in *. apply tell_ok in HO. apply F_step; [exact H0|]. cbv zeta in *.
  pose proof (div_mono z (length rest)) as M. rewrite S1 in M. set (size := (length rest * 138 / 100 + 1)%nat) in *. set (N := (length buf * 138 / 100 + 1)%nat) in *.
  assert (RW' : rw P B58 size). { destruct RW as [Ra Wa]. split; [apply (can_read_le _ _ N)|apply (can_write_le _ _ N)]; try assumption; lia. }
  clearbody size N. apply bind_ok in HO. destruct HO as (u & _ & HO). apply tell_ok in HO. apply F_pure. intros _ _.
  assert (WB : P (Write B58 0 size)) by (apply (rw_write _ B58 size); [exact RW'|lia]).
  apply F_step; [apply Forall_cons; [apply PT|apply Forall_cons; [exact WB|constructor]]|].
  assert (D0 : digits (repeat 0 size)). { apply Forall_forall. intros x Hx. apply repeat_spec in Hx. lia. }
  apply F_bind; [apply (F_b58_loop _ PT _ _ _ _ (length buf)); [exact R|exact RW'|lia|apply repeat_length|exact D0]|].
  intros [len b58] E. apply bind_ok in HO. destruct HO as ([len' b58'] & E' & HO). assert (EE : (len', b58') = (len, b58)) by congruence.
  apply (f_equal fst) in EE as E_len. apply (f_equal snd) in EE as E_b. cbn [fst snd] in E_len, E_b. subst len' b58'. clear EE E'.
  apply b58_loop_post in E; [|apply repeat_length|exact D0|lia]. destruct E as (E1 & E2 & E3).
  assert (Hl : length (rev (firstn len b58)) = len) by (rewrite rev_length, firstn_length; lia).
  assert (Hd : digits (rev (firstn len b58))).
  { unfold digits in *. rewrite Forall_forall in *. intros x Hx. apply E3. rewrite <- in_rev in Hx. rewrite <- (firstn_skipn len b58). apply in_or_app. left. exact Hx. }
  pose proof (F_skip P PT (B58, (size - len)%nat) (rev (firstn len b58)) 0 len) as H1. destruct (skip_post (B58, (size - len)%nat) (rev (firstn len b58)) 0) as [S2 [zz S3]].
  destruct (skip_zeroes_l (B58, (size - len)%nat) 0 (rev (firstn len b58))) as [t1 [z1 iter]]. cbn [fst snd] in *. apply tell_ok in HO. rewrite Hl in *.
  pose proof (translate_len str size iter z) as TL.
  assert (LE : l = (z + length iter)%nat).
  { destruct (translate_l str size z iter) as [t2 chars]. apply tell_ok in HO. cbn [pure snd] in HO, TL.
    apply (f_equal (fun r => match r with Ok (x, _) => x | _ => l end)) in HO. cbv beta iota in HO. rewrite app_length, repeat_length in HO. lia. }
  clear HO. apply F_step. { apply Forall_app. split; [apply H1; [|lia]|].
    - intros off k Hk. apply (rw_read _ B58 size); [exact RW'|cbn; lia].
    - apply Forall_cons; [|constructor]. apply (can_write0 _ str l); [exact W|lia]. }
  assert (Di : digits iter). { rewrite S3 in Hd. apply Forall_app in Hd. apply Hd. }
  pose proof (F_translate P PT str size iter z l W (proj1 RW') T Di ltac:(lia) ltac:(lia)) as H2.
  destruct (translate_l str size z iter) as [t2 chars]. cbn [fst] in H2. apply F_step; [|constructor].
  apply Forall_app. split; [exact H2|]. apply Forall_cons; [exact WB|apply Forall_cons; [apply PT|constructor]].
Qed.
End Gen.
