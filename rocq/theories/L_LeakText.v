(** Lemmas about the observations of the text encoders. *)
From Verif Require Import Base M_Endian M_Hex M_Base58 M_Base58Check M_Hash M_Address M_Random M_Key M_Leak M_LeakText
  M_Sha2 M_Sha1 M_Ripemd S_Base58 S_Leak L_Base58 L_Base58Check L_Leak.

(* ------------------------------------------------------------------ *)
(** Erasure. *)
Lemma to_hex_loop_l_erase p str upper buf : forall i, snd (to_hex_loop_l p str (hex_str upper) i buf) = to_hex buf upper.
Proof.
  induction buf as [|b r IH]; intros i; [reflexivity|]. cbn [to_hex_loop_l to_hex]. specialize (IH (S i)).
  destruct (to_hex_loop_l p str (hex_str upper) (S i) r) as [t o]. cbn [snd] in *. now rewrite IH.
Qed.
Lemma to_hex_l_erase p str buf upper : snd (to_hex_l p str buf upper) = to_hex buf upper.
Proof.
  unfold to_hex_l. pose proof (to_hex_loop_l_erase p str upper buf 0) as H.
  destruct (to_hex_loop_l p str (hex_str upper) 0 buf). exact H.
Qed.
Lemma skip_zeroes_l_erase p buf : forall i, snd (skip_zeroes_l p i buf) = skip_zeroes buf.
Proof.
  induction buf as [|b r IH]; intros i; [reflexivity|]. cbn [skip_zeroes_l skip_zeroes]. specialize (IH (S i)).
  destruct (b =? 0); [|reflexivity]. destruct (skip_zeroes_l p (S i) r) as [t [z x]]. cbn [snd] in *. now rewrite <- IH.
Qed.
Lemma carry_loop_l_erase mul base size len b : forall carry i,
  snd (carry_loop_l mul base carry size i len b) = carry_loop mul base carry i len b.
Proof.
  induction b as [|d b IH]; intros carry i; cbn [carry_loop_l carry_loop]; cbv zeta; [reflexivity|].
  destruct (negb (carry =? 0) || (i <? len)%nat); [|reflexivity]. specialize (IH ((carry + mul * d) / base) (S i)).
  destruct (carry_loop_l mul base ((carry + mul * d) / base) size (S i) len b) as [t [[c' i'] b']]. cbn [snd] in *. now rewrite <- IH.
Qed.
Lemma to_base58_loop_l_erase p size buf : forall k len b, snd (to_base58_loop_l p k size buf len b) = to_base58_loop buf len b.
Proof.
  induction buf as [|x r IH]; intros k len b; cbn [to_base58_loop_l to_base58_loop]; rewrite snd_bindl; [reflexivity|].
  cbn [snd tell bind]. pose proof (carry_loop_l_erase 256 58 size len b x 0) as H.
  destruct (carry_loop_l 256 58 x size 0 len b) as [t [[c i] b']]. cbn [snd] in H. rewrite <- H.
  rewrite snd_bindl. cbn [snd tell bind]. rewrite snd_bindl. cbn [snd pure]. apply bind_ext. intros _. apply IH.
Qed.
Lemma translate_l_erase str size iter : forall k, snd (translate_l str size k iter) = map (tget BASE58_ENCODE) iter.
Proof.
  induction iter as [|d r IH]; intros k; [reflexivity|]. cbn [translate_l map]. specialize (IH (S k)).
  destruct (translate_l str size (S k) r) as [t o]. cbn [snd] in *. now rewrite IH.
Qed.
Lemma to_base58_l_erase p str buf : snd (to_base58_l p str buf) = to_base58 buf.
Proof.
  unfold to_base58_l, to_base58. pose proof (skip_zeroes_l_erase p buf 0) as H.
  destruct (skip_zeroes_l p 0 buf) as [t0 [z rest]]. cbn [snd] in H. rewrite <- H.
  rewrite snd_bindl. cbn [snd tell bind]. cbv zeta. rewrite snd_bindl. cbn [snd pure]. apply bind_ext. intros _.
  rewrite snd_bindl. cbn [snd tell bind]. rewrite snd_bindl, to_base58_loop_l_erase. apply bind_ext. intros [len b].
  unfold result_digits.
  pose proof (skip_zeroes_l_erase (B58, (length rest * 138 / 100 + 1 - len)%nat) (rev (firstn len b)) 0) as H1.
  destruct (skip_zeroes_l (B58, (length rest * 138 / 100 + 1 - len)%nat) 0 (rev (firstn len b))) as [t1 [z1 it]]. cbn [snd] in H1. rewrite <- H1.
  cbn [snd]. rewrite snd_bindl. cbn [snd tell bind].
  pose proof (translate_l_erase str (length rest * 138 / 100 + 1) it z) as H2.
  destruct (translate_l str (length rest * 138 / 100 + 1) z it) as [t2 ch]. cbn [snd] in H2. subst ch.
  rewrite snd_bindl. reflexivity.
Qed.
Lemma to_base58_check_l_erase pb pp str buf prefix : snd (to_base58_check_l pb pp str buf prefix) = to_base58_check buf prefix.
Proof.
  unfold to_base58_check_l, to_base58_check. cbv zeta.
  rewrite snd_bindl. cbn [snd tell bind]. rewrite snd_bindl. cbn [snd tell bind].
  rewrite snd_bindl. cbn [snd pure]. apply bind_ext. intros b1.
  rewrite snd_bindl. cbn [snd tell bind]. rewrite snd_bindl. cbn [snd pure]. apply bind_ext. intros b2.
  rewrite snd_bindl. cbn [snd pure]. apply bind_ext. intros w.
  rewrite snd_bindl, btc_hash256_l_erase. apply bind_ext. intros h.
  rewrite snd_bindl. cbn [snd tell bind]. rewrite snd_bindl. cbn [snd pure]. apply bind_ext. intros h4.
  rewrite snd_bindl. cbn [snd pure]. apply bind_ext. intros b3.
  rewrite snd_bindl, to_base58_l_erase.
  etransitivity; [apply bind_ext; intros x; rewrite snd_bindl; reflexivity|]. apply bind_ret.
Qed.
Lemma key_to_string_l_erase pk str key c param : snd (key_to_string_l pk str key c param) = key_to_string key c param.
Proof.
  unfold key_to_string_l, key_to_string. rewrite snd_bindl. cbn [snd tell bind]. destruct c; cbv zeta.
  - rewrite snd_bindl. cbn [snd tell bind]. rewrite snd_bindl. cbn [snd pure]. apply bind_ext. intros k.
    rewrite snd_bindl. cbn [snd pure]. apply bind_ext. intros b.
    rewrite snd_bindl. cbn [snd tell bind]. rewrite snd_bindl. cbn [snd pure]. apply bind_ext. intros b2.
    rewrite snd_bindl, to_base58_check_l_erase. apply bind_ext. intros r.
    rewrite snd_bindl. cbn [snd tell bind]. rewrite snd_bindl. reflexivity.
  - rewrite snd_bindl. cbn [snd pure]. apply bind_ext. intros k. apply to_base58_check_l_erase.
Qed.

(* ------------------------------------------------------------------ *)
(** What the spy sees. *)
Lemma spy_app a b : spy_base58 (a ++ b) = spy_base58 a ++ spy_base58 b.
Proof. apply flat_map_app. Qed.
Definition quiet {A} (x : lk A) : Prop := spy_base58 (fst x) = [].
Lemma fst_bindl {A B} (x : lk A) (f : A -> lk B) a : snd x = Ok a -> fst (bindl x f) = fst x ++ fst (f a).
Proof. intros H. unfold bindl. rewrite H. reflexivity. Qed.
Lemma quiet_bind {A B} (x : lk A) (f : A -> lk B) : quiet x -> (forall a, quiet (f a)) -> quiet (bindl x f).
Proof.
  intros Hx Hf. unfold quiet, bindl in *. destruct x as [t [a| |]]; cbn [fst snd] in *; try assumption.
  rewrite spy_app, Hx. apply (Hf a).
Qed.
Lemma quiet_tell t : spy_base58 t = [] -> quiet (tell t). Proof. exact (fun H => H). Qed.
Lemma quiet_pure {A} (r : res A) : quiet (pure r). Proof. reflexivity. Qed.
Lemma spy_flat_map {X} (f : X -> list obs) l : (forall x, spy_base58 (f x) = []) -> spy_base58 (flat_map f l) = [].
Proof. intros H. induction l as [|x l IH]; [reflexivity|]. cbn [flat_map]. rewrite spy_app, H, IH. reflexivity. Qed.
Lemma spy_map {X} (f : X -> obs) l : (forall x, spy_base58 [f x] = []) -> spy_base58 (map f l) = [].
Proof. intros H. induction l as [|x l IH]; [reflexivity|]. cbn [map]. change (f x :: map f l) with ([f x] ++ map f l). rewrite spy_app, H, IH. reflexivity. Qed.
(** a pointer to something else than the table *)
Definition other (p : ptr) : Prop := match fst p with Base58Table => False | _ => True end.
Lemma spy_read p n t : other p -> spy_base58 (read p n :: t) = spy_base58 t.
Proof. destruct p as [[] off]; cbn; try contradiction; reflexivity. Qed.
Lemma spy_write p n t : spy_base58 (write p n :: t) = spy_base58 t.
Proof. reflexivity. Qed.
Lemma other_padd p n : other p -> other (padd p n). Proof. exact (fun H => H). Qed.

Lemma exec_lines_quiet o sz p chunk ls : other p -> forall st, quiet (exec_lines_l o sz p chunk st ls).
Proof.
  intros Hp. induction ls as [|l ls IH]; intros st; cbn [exec_lines_l]; [apply quiet_pure|].
  apply quiet_bind; [|intros a; apply IH]. destruct l as [regs k e]. unfold exec_line_l.
  apply quiet_bind; [apply quiet_tell; destruct e; try reflexivity; rewrite spy_read; [reflexivity|now apply other_padd]|intros; apply quiet_pure].
Qed.
Lemma sha256_transform_quiet d p s c : other d -> other p -> quiet (sha256_transform_l d p s c).
Proof.
  intros Hd Hp. apply quiet_bind; [apply quiet_tell; apply spy_map; intros x; rewrite spy_read; [reflexivity|now apply other_padd]|]. intros _.
  apply quiet_bind; [now apply exec_lines_quiet|]. intros [rs w].
  apply quiet_bind; [apply quiet_tell; apply spy_flat_map; intros x; rewrite spy_read; [reflexivity|now apply other_padd]|]. intros _. apply quiet_pure.
Qed.
Lemma block_loop_quiet fuel blk tl : (forall p s c, other p -> quiet (tl p s c)) -> forall p d m n, other p ->
  quiet (block_loop_l fuel blk tl p d m n).
Proof.
  intros Ht. induction fuel as [|f IH]; intros p d m n Hp; cbn [block_loop_l]; (apply quiet_bind; [reflexivity|]); intros _;
    destruct (blk <=? n)%nat; try apply quiet_pure.
  apply quiet_bind; [apply quiet_pure|]. intros _. apply quiet_bind; [now apply Ht|]. intros a. apply IH. now apply other_padd.
Qed.
Lemma pad_quiet blk thr tl p ce d m n : (forall p s c, other p -> quiet (tl p s c)) -> other p -> quiet (pad_l blk thr tl p ce d m n).
Proof.
  intros Ht Hp. apply quiet_bind; [now apply block_loop_quiet|]. intros [[dg b] r].
  apply quiet_bind; [reflexivity|]. intros _. cbv zeta. apply quiet_bind; [apply quiet_tell; rewrite spy_read; [reflexivity|now apply other_padd]|]. intros _.
  apply quiet_bind; [apply quiet_pure|]. intros t. apply quiet_bind; [apply quiet_pure|]. intros l.
  apply quiet_bind; [reflexivity|]. intros _. apply quiet_bind; [apply quiet_pure|]. intros l2.
  apply quiet_bind; [reflexivity|]. intros _.
  apply quiet_bind.
  - destruct (thr <? r)%nat; [|apply quiet_pure]. apply quiet_bind; [apply Ht; exact I|]. intros a.
    apply quiet_bind; [reflexivity|]. intros _. apply quiet_pure.
  - intros [d2 l3]. apply quiet_bind; [reflexivity|]. intros _. apply quiet_bind; [apply quiet_pure|]. intros l4. apply Ht. exact I.
Qed.
Lemma sha2_256_quiet p out m n : other p -> quiet (sha2_256_l p out m n).
Proof.
  intros Hp. apply quiet_bind; [reflexivity|]. intros _. apply quiet_bind.
  - apply quiet_bind; [apply pad_quiet; [intros; apply sha256_transform_quiet; [exact I|assumption]|exact Hp]|]. intros a.
    apply quiet_bind; [reflexivity|]. intros _. apply quiet_pure.
  - intros a. apply quiet_bind; [|intros _; apply quiet_pure]. apply quiet_tell. rewrite spy_app.
    unfold copy_words. rewrite spy_flat_map; [reflexivity|]. intros x. rewrite spy_read; [reflexivity|exact I].
Qed.
Lemma btc_hash256_quiet p out m n : other p -> quiet (btc_hash256_l p out m n).
Proof. intros Hp. apply quiet_bind; [now apply sha2_256_quiet|]. intros a. apply sha2_256_quiet. exact I. Qed.

Lemma skip_zeroes_quiet p buf : other p -> forall i, spy_base58 (fst (skip_zeroes_l p i buf)) = [].
Proof.
  intros Hp. induction buf as [|b r IH]; intros i; [reflexivity|]. cbn [skip_zeroes_l]. cbv zeta. specialize (IH (S i)).
  assert (E : spy_base58 [Test true; read (padd p i) 1; Test (b =? 0)] = []).
  { change [Test true; read (padd p i) 1; Test (b =? 0)] with ([Test true] ++ (read (padd p i) 1 :: [Test (b =? 0)])).
    rewrite spy_app, spy_read; [reflexivity|now apply other_padd]. }
  destruct (b =? 0); [|exact E]. destruct (skip_zeroes_l p (S i) r) as [t [z x]]. cbn [fst] in *. rewrite spy_app, IH, app_nil_r. exact E.
Qed.
Lemma carry_loop_quiet mul base size len b : forall carry i, spy_base58 (fst (carry_loop_l mul base carry size i len b)) = [].
Proof.
  induction b as [|d b IH]; intros carry i; cbn [carry_loop_l]; cbv zeta.
  - cbn [fst]. rewrite spy_app. destruct (carry =? 0), (i <? len)%nat; reflexivity.
  - destruct (negb (carry =? 0) || (i <? len)%nat); [|cbn [fst]; destruct (carry =? 0); reflexivity].
    specialize (IH ((carry + mul * d) / base) (S i)).
    destruct (carry_loop_l mul base ((carry + mul * d) / base) size (S i) len b) as [t [[c' i'] b']]. cbn [fst] in *.
    rewrite !spy_app, IH. destruct (carry =? 0); reflexivity.
Qed.
Lemma to_base58_loop_quiet p size buf : other p -> forall k len b, quiet (to_base58_loop_l p k size buf len b).
Proof.
  intros Hp. induction buf as [|x r IH]; intros k len b; cbn [to_base58_loop_l].
  - apply quiet_bind; [reflexivity|]. intros _. apply quiet_pure.
  - apply quiet_bind.
    { apply quiet_tell. change [Test true; read (padd p k) 1] with ([Test true] ++ [read (padd p k) 1]). rewrite spy_app, spy_read; [reflexivity|now apply other_padd]. }
    intros _. pose proof (carry_loop_quiet 256 58 size len b x 0) as H.
    destruct (carry_loop_l 256 58 x size 0 len b) as [t [[c i] b']]. cbn [fst] in H.
    apply quiet_bind; [apply quiet_tell; rewrite spy_app, H; reflexivity|]. intros _.
    apply quiet_bind; [apply quiet_pure|]. intros _. apply IH.
Qed.
Lemma translate_spy str size iter : digits 58 iter -> forall k, spy_base58 (fst (translate_l str size k iter)) = map b58_char iter.
Proof.
  intros Hd. induction Hd as [|d r H Hd IH]; intros k; [reflexivity|]. cbn [translate_l]. specialize (IH (S k)).
  destruct (translate_l str size (S k) r) as [t o]. cbn [fst] in *.
  change (Test true :: Read B58 (size - length (d :: r)) 1 :: Read Base58Table (Z.to_nat d) 1 :: write (padd str k) 1 :: t)
    with ([Test true; Read B58 (size - length (d :: r)) 1; Read Base58Table (Z.to_nat d) 1; write (padd str k) 1] ++ t).
  rewrite spy_app, IH. transitivity ([b58_char (Z.of_nat (Z.to_nat d))] ++ map b58_char r); [reflexivity|].
  rewrite Z2Nat.id by lia. reflexivity.
Qed.
Lemma carry_loop_digits mul base len b : 0 < base -> digits base b -> forall carry i, digits base (snd (carry_loop mul base carry i len b)).
Proof.
  intros Hb Hd. induction Hd as [|d b H Hd IH]; intros carry i; cbn [carry_loop]; [constructor|].
  destruct (negb (carry =? 0) || (i <? len)%nat); [|constructor; assumption].
  specialize (IH ((carry + mul * d) / base) (S i)). destruct (carry_loop mul base ((carry + mul * d) / base) (S i) len b) as [[c' i'] b'].
  cbn [snd] in *. constructor; [apply Z.mod_pos_bound; exact Hb|exact IH].
Qed.
Lemma to_base58_loop_digits buf : forall len b v, digits 58 b -> to_base58_loop buf len b = Ok v -> digits 58 (snd v).
Proof.
  induction buf as [|x r IH]; intros len b v Hd E; cbn [to_base58_loop] in E; [injection E as <-; exact Hd|].
  pose proof (carry_loop_digits 256 58 len b ltac:(lia) Hd x 0) as H. destruct (carry_loop 256 58 x 0 len b) as [[c i] b']. cbn [snd] in H.
  destruct (c =? 0); cbn [c_assert bind] in E; [|discriminate]. exact (IH _ _ _ H E).
Qed.
(** After a quiet beginning the spy has the text, up to leading '1's. *)
Definition shows (x : lk (nat * list Z)) : Prop := forall v, snd x = Ok v ->
  exists z, v = (length (repeat 49 z ++ spy_base58 (fst x)), repeat 49 z ++ spy_base58 (fst x)).
Lemma shows_before {A} (x : lk A) (f : A -> lk (nat * list Z)) : quiet x -> (forall a, snd x = Ok a -> shows (f a)) -> shows (bindl x f).
Proof.
  intros Q H v V. unfold bindl in *. destruct x as [t [a| |]]; cbn [fst snd] in *; try discriminate.
  unfold quiet in Q. cbn [fst] in Q. rewrite spy_app, Q. exact (H a eq_refl v V).
Qed.
Lemma shows_after {A} (x : lk (nat * list Z)) (y : lk A) : shows x -> quiet y -> shows (r <~ x ;; _ <~ y ;; pure (Ok r)).
Proof.
  intros H Q v V. destruct x as [t [a| |]]; [|discriminate|discriminate]. destruct y as [ty [b| |]]; [|discriminate|discriminate].
  unfold bindl, pure in *. cbn [fst snd] in *. unfold quiet in Q. cbn [fst] in Q. rewrite !spy_app, Q, !app_nil_r. exact (H v V).
Qed.
Lemma to_base58_spy p str buf : other p -> shows (to_base58_l p str buf).
Proof.
  intros Hp. unfold to_base58_l. pose proof (skip_zeroes_quiet p buf Hp 0) as Q0.
  destruct (skip_zeroes_l p 0 buf) as [t0 [z rest]]. cbn [fst] in Q0.
  apply shows_before; [exact Q0|]. intros _ _. cbv zeta. set (size := (length rest * 138 / 100 + 1)%nat).
  apply shows_before; [apply quiet_pure|]. intros _ _. apply shows_before; [reflexivity|]. intros _ _.
  apply shows_before; [now apply to_base58_loop_quiet|]. intros [len b] El. rewrite to_base58_loop_l_erase in El.
  apply to_base58_loop_digits in El; [|apply Forall_forall; intros d Hd; apply repeat_spec in Hd; lia]. cbn [snd] in El.
  pose proof (skip_zeroes_l_erase (B58, (size - len)%nat) (rev (firstn len b)) 0) as Hz1.
  pose proof (skip_zeroes_quiet (B58, (size - len)%nat) (rev (firstn len b)) I 0) as Q1.
  destruct (skip_zeroes_l (B58, (size - len)%nat) 0 (rev (firstn len b))) as [t1 [z1 it]]. cbn [fst snd] in Hz1, Q1.
  assert (Dit : digits 58 it).
  { pose proof (skip_zeroes_spec (rev (firstn len b))) as S. rewrite <- Hz1 in S. destruct S as [E _].
    assert (D : digits 58 (rev (firstn len b))).
    { apply Forall_forall. intros d Hd. apply in_rev in Hd. apply (proj1 (Forall_forall _ _) El).
      rewrite <- (firstn_skipn len b). apply in_or_app. now left. }
    rewrite E in D. apply Forall_app in D. apply D. }
  apply shows_before; [apply quiet_tell; rewrite spy_app, Q1; reflexivity|]. intros _ _.
  pose proof (translate_l_erase str size it z) as Ht. pose proof (translate_spy str size it Dit z) as St.
  destruct (translate_l str size z it) as [t2 ch]. cbn [fst snd] in *. subst ch.
  intros v V. exists z. cbn in V. injection V as <-. cbn [fst bindl snd tell pure]. rewrite !spy_app, St, map_enc_digit by exact Dit.
  change (spy_base58 [Write B58 0 size; Test (negb (size <=? 128)%nat)]) with (@nil Z). change (spy_base58 []) with (@nil Z).
  rewrite !app_nil_r. reflexivity.
Qed.
Lemma to_base58_check_spy pb pp str buf prefix : other pb -> other pp -> shows (to_base58_check_l pb pp str buf prefix).
Proof.
  intros Hb Hp. unfold to_base58_check_l. cbv zeta. apply shows_before; [reflexivity|]. intros _ _.
  apply shows_before; [apply quiet_tell; now rewrite spy_read|]. intros _ _. apply shows_before; [apply quiet_pure|]. intros b1 _.
  apply shows_before; [apply quiet_tell; now rewrite spy_read|]. intros _ _. apply shows_before; [apply quiet_pure|]. intros b2 _.
  apply shows_before; [apply quiet_pure|]. intros w _.
  apply shows_before; [apply btc_hash256_quiet; exact I|]. intros h _.
  apply shows_before; [reflexivity|]. intros _ _. apply shows_before; [apply quiet_pure|]. intros h4 _.
  apply shows_before; [apply quiet_pure|]. intros b3 _.
  apply (shows_after (to_base58_l (CheckBuffer, 0%nat) str b3)); [apply to_base58_spy; exact I|reflexivity].
Qed.
Lemma key_to_string_spy pk str key c param : other pk -> shows (key_to_string_l pk str key c param).
Proof.
  intros Hp. unfold key_to_string_l. apply shows_before; [reflexivity|]. intros _ _. destruct c; cbv zeta.
  - apply shows_before; [apply quiet_tell; now rewrite spy_read|]. intros _ _. apply shows_before; [apply quiet_pure|]. intros k _.
    apply shows_before; [apply quiet_pure|]. intros b _. apply shows_before; [reflexivity|]. intros _ _.
    apply shows_before; [apply quiet_pure|]. intros b2 _.
    intros v V.
    assert (X : shows (r <~ to_base58_check_l (Buf33, 0%nat) (Prefix, 0%nat) str b2 (cp_secret param) ;;
                       _ <~ (_ <~ tell [Write Buf33 0 33] ;; pure (cleanse b2 0 33)) ;; pure (Ok r))).
    { apply shows_after; [apply to_base58_check_spy; exact I|]. apply quiet_bind; [reflexivity|]. intros _. apply quiet_pure. }
    destruct (to_base58_check_l (Buf33, 0%nat) (Prefix, 0%nat) str b2 (cp_secret param)) as [t [a| |]]; try discriminate.
    specialize (X v). unfold bindl, tell, pure in X, V |- *. cbn [fst snd] in X, V |- *.
    destruct (cleanse b2 0 33); cbn [fst snd] in X, V |- *; try discriminate. exact (X V).
  - apply shows_before; [apply quiet_pure|]. intros k _. apply to_base58_check_spy; [exact Hp|exact I].
Qed.
(** no leading '1' if the encoded bytes do not start with a zero *)
Lemma is_base58_head x r text : is_base58 (x :: r) text -> x <> 0 -> forall t, text <> 49 :: t.
Proof.
  intros (z & rest & ds & E & Hr & Hn & ->) Nx t. destruct z as [|z].
  - cbn [repeat app]. exact (no_one ds _ Hn t).
  - cbn in E. injection E as E _. contradiction.
Qed.

(** hex *)
Lemma hex_spy p str hs buf : fst p <> HexTable -> bytes buf -> forall i, spy_hex (fst (to_hex_loop_l p str hs i buf)) = nibbles buf.
Proof.
  intros Hp Hb. induction Hb as [|b r H Hb IH]; intros i; [reflexivity|]. cbn [to_hex_loop_l]. specialize (IH (S i)).
  destruct (to_hex_loop_l p str hs (S i) r) as [t o]. cbn [fst] in *. unfold is_byte in H.
  assert (E : forall t', spy_hex (read (padd p i) 1 :: t') = spy_hex t').
  { intros t'. destruct p as [[] off]; cbn in *; try reflexivity. contradiction. }
  transitivity (spy_hex (read (padd p i) 1 :: Read HexTable (Z.to_nat (Z.shiftr b 4)) 1 :: write (padd str (2 * i)) 1
       :: Read HexTable (Z.to_nat (Z.land b 15)) 1 :: write (padd str (2 * i + 1)) 1 :: t)); [reflexivity|]. rewrite E.
  transitivity (Z.of_nat (Z.to_nat (Z.shiftr b 4)) :: Z.of_nat (Z.to_nat (Z.land b 15)) :: spy_hex t); [reflexivity|].
  rewrite IH. cbn [nibbles]. change 15 with (Z.ones 4). rewrite Z.shiftr_div_pow2, Z.land_ones by lia. change (2 ^ 4) with 16.
  rewrite !Z2Nat.id; [reflexivity| |]; dlia.
Qed.
