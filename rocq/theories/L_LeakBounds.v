(** Lemmas for C139. *)
From Verif Require Import Base M_Endian M_Sha2 M_Sha1 M_Ripemd M_Hash M_Leak S_Leak S_LeakBounds L_Leak.

Section Gen.
Variable P : obs -> Prop.
Hypothesis PT : forall b, P (Test b).

Lemma F_bind {A B} (x : lk A) (f : A -> lk B) : Forall P (fst x) -> (forall a, snd x = Ok a -> Forall P (fst (f a))) -> Forall P (fst (bindl x f)).
Proof. intros H1 H2. destruct x as [t [a| |]]; unfold bindl; cbn [fst snd] in *; auto. apply Forall_app. auto. Qed.
Lemma F_step {B} t (f : unit -> lk B) : Forall P t -> Forall P (fst (f tt)) -> Forall P (fst (bindl (tell t) f)).
Proof. intros H1 H2. apply F_bind; [exact H1|]. intros [] _. exact H2. Qed.
Lemma F_pure {A B} (r : res A) (f : A -> lk B) : (forall a, r = Ok a -> Forall P (fst (f a))) -> Forall P (fst (bindl (pure r) f)).
Proof. intros H. apply F_bind; [constructor|exact H]. Qed.

Definition can_read (p : ptr) (n : nat) : Prop := forall off k, (off + k <= n)%nat -> P (read (padd p off) k).
Definition can_write (p : ptr) (n : nat) : Prop := forall off k, (off + k <= n)%nat -> P (write (padd p off) k).
Lemma padd_padd p a b : padd (padd p a) b = padd p (a + b).
Proof. unfold padd. cbn. f_equal. lia. Qed.
Lemma padd_0 p : padd p 0 = p.
Proof. destruct p. unfold padd. cbn. f_equal. lia. Qed.
Lemma can_read_add p n k : can_read p (k + n) -> can_read (padd p k) n.
Proof. intros H off j Hj. rewrite padd_padd. apply H. lia. Qed.
Lemma can_read_le p n m : can_read p n -> (m <= n)%nat -> can_read p m.
Proof. intros H L off j Hj. apply H. lia. Qed.
Lemma can_write_le p n m : can_write p n -> (m <= n)%nat -> can_write p m.
Proof. intros H L off j Hj. apply H. lia. Qed.
Lemma can_read0 p n k : can_read p n -> (k <= n)%nat -> P (read p k).
Proof. intros H L. rewrite <- (padd_0 p). apply H. lia. Qed.
Lemma can_write0 p n k : can_write p n -> (k <= n)%nat -> P (write p k).
Proof. intros H L. rewrite <- (padd_0 p). apply H. lia. Qed.

Lemma F_exec o sz n p c ls : forallb (fun l => match l with R _ _ e => wexp_fits sz n e end) ls = true -> can_read p n ->
  forall st, Forall P (fst (exec_lines_l o sz p c st ls)).
Proof.
  intros Hf Hp. induction ls as [|l ls IH]; intros st; cbn [exec_lines_l]; [constructor|].
  cbn [forallb] in Hf. apply andb_true_iff in Hf as [Hl Hf]. apply F_bind; [|intros; apply IH; exact Hf].
  destruct l as [regs k e]. unfold exec_line_l. apply F_step; [|constructor]. destruct e; constructor; [|constructor].
  cbn [wexp_fits] in Hl. apply Nat.leb_le in Hl. apply Hp. exact Hl.
Qed.
Lemma F_exec1 n p c ls : forallb (fun l => match l with R1 _ _ _ e => match e with WLoad1 _ off => (off + 4 <=? n)%nat | _ => true end end) ls = true -> can_read p n ->
  forall st, Forall P (fst (exec_lines1_l p c st ls)).
Proof.
  intros Hf Hp. induction ls as [|l ls IH]; intros st; cbn [exec_lines1_l]; [constructor|].
  cbn [forallb] in Hf. apply andb_true_iff in Hf as [Hl Hf]. apply F_bind; [|intros; apply IH; exact Hf].
  destruct l as [a b k e]. unfold exec_line1_l. apply F_step; [|constructor]. destruct e; constructor; [|constructor].
  apply Nat.leb_le in Hl. apply Hp. exact Hl.
Qed.
Lemma F_seq {A} (f : nat -> A) (Q : A -> Prop) k n : (forall i, (i < k + n)%nat -> Q (f i)) -> Forall Q (map f (seq k n)).
Proof. intros H. apply Forall_forall. intros x Hx. apply in_map_iff in Hx as (i & <- & Hi). apply in_seq in Hi. apply H. lia. Qed.
Lemma F_flat (f : nat -> list obs) is : (forall i, In i is -> Forall P (f i)) -> Forall P (flat_map f is).
Proof. intros H. induction is as [|i is IH]; [constructor|]. cbn [flat_map]. apply Forall_app. split; [apply H; left; reflexivity|apply IH; intros; apply H; right; assumption]. Qed.
Lemma F_for n body : (forall i, (i < n)%nat -> Forall P (body i)) -> Forall P (for_loop n body).
Proof.
  intros H. unfold for_loop. apply Forall_app. split; [|constructor; [apply PT|constructor]]. apply F_flat. intros i Hi. apply in_seq in Hi.
  constructor; [apply PT|apply H; lia].
Qed.
Lemma F_read_words p n sz : can_read p (n * sz) -> Forall P (read_words p n sz).
Proof. intros H. apply F_seq. intros i Hi. apply H. nia. Qed.
Lemma F_add_words p n sz : can_read p (n * sz) -> can_write p (n * sz) -> Forall P (add_words p n sz).
Proof.
  intros H H'. apply F_flat. intros i Hi. apply in_seq in Hi. constructor; [apply H; nia|]. constructor; [apply H'; nia|constructor].
Qed.
Lemma F_copy_words dst src is n sz : can_write dst (n * sz) -> can_read src (n * sz) -> (forall i, In i is -> (i < n)%nat) -> Forall P (copy_words dst src is sz).
Proof.
  intros H H' Hi. apply F_flat. intros i Hin. specialize (Hi i Hin). constructor; [apply H'; nia|]. constructor; [apply H; nia|constructor].
Qed.

Definition tr_ok (blk : nat) (transform : ptr -> list Z -> list Z -> lk (list Z)) : Prop :=
  forall p s c, can_read p blk -> Forall P (fst (transform p s c)).
Lemma F_sha256 d : can_read d 32 -> can_write d 32 -> tr_ok 64 (sha256_transform_l d).
Proof.
  intros R W p s c Hp. unfold sha256_transform_l. apply F_step; [apply F_read_words; exact R|].
  apply F_bind; [apply (F_exec _ 4 64); [reflexivity|exact Hp]|]. intros [r w] _. apply F_step; [apply F_add_words; assumption|constructor].
Qed.
Lemma F_sha512 d : can_read d 64 -> can_write d 64 -> tr_ok 128 (sha512_transform_l d).
Proof.
  intros R W p s c Hp. unfold sha512_transform_l. apply F_step; [apply F_read_words; exact R|].
  apply F_bind; [apply (F_exec _ 8 128); [reflexivity|exact Hp]|]. intros [r w] _. apply F_step; [apply F_add_words; assumption|constructor].
Qed.
Lemma F_sha1 d : can_read d 20 -> can_write d 20 -> tr_ok 64 (sha1_transform_l d).
Proof.
  intros R W p s c Hp. unfold sha1_transform_l. apply F_step; [apply F_read_words; exact R|].
  apply F_bind; [apply (F_exec1 64); [reflexivity|exact Hp]|]. intros [r w] _. apply F_step; [apply F_add_words; assumption|constructor].
Qed.
Lemma F_load_X p c is : can_read p 64 -> (forall i, In i is -> (i < 16)%nat) -> Forall P (fst (load_X_l p c is)).
Proof.
  intros H. induction is as [|i is IH]; intros Hi; cbn [load_X_l]; [constructor|].
  apply F_step; [constructor; [apply H; specialize (Hi i (or_introl eq_refl)); lia|constructor]|].
  apply F_pure. intros x _. apply F_bind; [apply IH; intros; apply Hi; right; assumption|]. intros; constructor.
Qed.
Lemma F_ripemd d : can_read d 20 -> can_write d 20 -> tr_ok 64 (ripemd160_transform_l d).
Proof.
  intros R W p s c Hp. unfold ripemd160_transform_l. apply F_step; [apply Forall_app; split; apply F_read_words; exact R|].
  apply F_bind; [apply F_load_X; [exact Hp|]|]. { intros i Hi. apply in_seq in Hi. lia. }
  intros X _. apply F_pure. intros rs _. apply F_step; [|constructor].
  repeat apply Forall_cons; try apply Forall_nil; first [apply R; lia|apply W; lia].
Qed.
Lemma F_d64 out p c : can_read p 64 -> can_write out 32 -> Forall P (fst (hash256_d64_transform_l out p c)).
Proof.
  intros R W. unfold hash256_d64_transform_l. apply F_bind; [apply (F_exec _ 4 64); [reflexivity|exact R]|]. intros [r w] _. cbv zeta.
  apply F_bind; [apply (F_exec _ 4 64); [reflexivity|exact R]|]. intros [r2 w2] _.
  apply F_bind; [apply (F_exec _ 4 64); [reflexivity|exact R]|]. intros [r3 w3] _.
  apply F_step; [|constructor]. apply F_seq. intros i Hi. apply W. lia.
Qed.

Lemma block_loop_post blk tr fuel : (0 < blk)%nat -> forall p d m n d' m' n', snd (block_loop_l fuel blk tr p d m n) = Ok (d', m', n') -> (n' <= n)%nat /\ (n' < blk)%nat.
Proof.
  intros Hb. induction fuel as [|fuel IH]; intros p d m n d' m' n'; cbn [block_loop_l]; rewrite snd_bindl; cbn [snd tell bind];
    destruct (Nat.leb_spec blk n) as [L|L]; try discriminate; try (cbn [snd pure]; intros H; injection H as <- <- <-; lia).
  rewrite snd_bindl. cbn [snd pure]. destruct (slice m 0 blk); cbn [bind]; try discriminate. rewrite snd_bindl.
  destruct (snd (tr p d m)); cbn [bind]; try discriminate. intros H. apply IH in H. lia.
Qed.
Lemma F_block_loop blk tr fuel : tr_ok blk tr -> forall p d m n, can_read p n -> Forall P (fst (block_loop_l fuel blk tr p d m n)).
Proof.
  intros Ht. induction fuel as [|fuel IH]; intros p d m n Hp; cbn [block_loop_l]; (apply F_step; [constructor; [apply PT|constructor]|]);
    destruct (Nat.leb_spec blk n) as [L|L]; try constructor.
  apply F_pure. intros x _. apply F_bind; [apply Ht; apply (can_read_le p n); [exact Hp|exact L]|]. intros d' _. apply IH.
  apply can_read_add. replace (blk + (n - blk))%nat with n by lia. exact Hp.
Qed.
Lemma F_pad blk thr tr p ce d m n : (8 <= blk)%nat -> tr_ok blk tr -> can_read p n -> can_read (LastChunk, 0%nat) blk -> can_write (LastChunk, 0%nat) blk ->
  Forall P (fst (pad_l blk thr tr p ce d m n)).
Proof.
  intros Hb Ht Hp Rl Wl. unfold pad_l. apply F_bind; [apply F_block_loop; assumption|]. intros [[d' m'] n'] E.
  apply block_loop_post in E; [|lia]. destruct E as [E1 E2].
  assert (W : forall off k, (off + k <= blk)%nat -> P (Write LastChunk off k)) by (intros off k H; exact (Wl off k H)).
  apply F_step; [constructor; [apply W; lia|constructor]|]. cbv zeta.
  apply F_step; [constructor; [apply Hp; lia|constructor; [apply W; lia|constructor]]|].
  apply F_pure. intros tl _. apply F_pure. intros l1 _. apply F_step; [constructor; [apply W; lia|constructor]|].
  apply F_pure. intros l2 _. apply F_step; [constructor; [apply PT|constructor]|].
  apply F_bind.
  - destruct (thr <? n')%nat; [|constructor]. apply F_bind; [apply Ht; exact Rl|]. intros d2 _. apply F_step; [constructor; [apply W; lia|constructor]|constructor].
  - intros [d3 l3] _. apply F_step; [constructor; [apply W; lia|constructor]|]. apply F_pure. intros l4 _. apply Ht. exact Rl.
Qed.
Lemma F_sha256_final d p s m n a : can_read d 32 -> can_write d 32 -> can_read p n -> can_read (LastChunk, 0%nat) 64 -> can_write (LastChunk, 0%nat) 64 ->
  Forall P (fst (sha256_final_l d p s m n a)).
Proof.
  intros Rd Wd Rp Rl Wl. unfold sha256_final_l. cbv zeta. apply F_bind; [apply F_pad; [lia|apply F_sha256; assumption|assumption|assumption|assumption]|].
  intros x _. apply F_step; [|constructor]. constructor; [apply (can_write0 (LastChunk, 0%nat) 64); [exact Wl|lia]|constructor].
Qed.
Lemma F_sha512_final d p s m n a : can_read d 64 -> can_write d 64 -> can_read p n -> can_read (LastChunk, 0%nat) 128 -> can_write (LastChunk, 0%nat) 128 ->
  Forall P (fst (sha512_final_l d p s m n a)).
Proof.
  intros Rd Wd Rp Rl Wl. unfold sha512_final_l. cbv zeta. apply F_bind; [apply F_pad; [lia|apply F_sha512; assumption|assumption|assumption|assumption]|].
  intros x _. apply F_step; [|constructor]. constructor; [apply (can_write0 (LastChunk, 0%nat) 128); [exact Wl|lia]|constructor].
Qed.
Lemma F_sha2_256 p out m n : can_read p n -> can_write out 32 -> can_read (Digest, 0%nat) 32 -> can_write (Digest, 0%nat) 32 ->
  can_read (LastChunk, 0%nat) 64 -> can_write (LastChunk, 0%nat) 64 -> Forall P (fst (sha2_256_l p out m n)).
Proof.
  intros Rp Wo Rd Wd Rl Wl. unfold sha2_256_l. assert (D : P (Write Digest 0 32)) by (apply (Wd 0%nat 32%nat); lia).
  apply F_step; [constructor; [exact D|constructor]|].
  apply F_bind; [apply F_sha256_final; assumption|]. intros x _. apply F_step; [|constructor]. apply Forall_app. split.
  - apply (F_copy_words _ _ _ 8); [exact Wo|exact Rd|]. intros i Hi. apply in_seq in Hi. lia.
  - constructor; [exact D|constructor].
Qed.
Lemma F_sha2_512 p out m n : can_read p n -> can_write out 64 -> can_read (Digest, 0%nat) 64 -> can_write (Digest, 0%nat) 64 ->
  can_read (LastChunk, 0%nat) 128 -> can_write (LastChunk, 0%nat) 128 -> Forall P (fst (sha2_512_l p out m n)).
Proof.
  intros Rp Wo Rd Wd Rl Wl. unfold sha2_512_l. assert (D : P (Write Digest 0 64)) by (apply (Wd 0%nat 64%nat); lia).
  apply F_step; [constructor; [exact D|constructor]|].
  apply F_bind; [apply F_sha512_final; assumption|]. intros x _. apply F_step; [|constructor]. apply Forall_app. split.
  - apply (F_copy_words _ _ _ 8); [exact Wo|exact Rd|]. intros i Hi. cbn [In] in Hi. lia.
  - constructor; [exact D|constructor].
Qed.
Lemma F_160_tail out : can_write out 20 -> can_read (Digest, 0%nat) 20 -> can_write (Digest, 0%nat) 20 -> can_write (LastChunk, 0%nat) 64 ->
  Forall P (copy_words out (Digest, 0%nat) (seq 0 5) 4 ++ [Write Digest 0 20; Write LastChunk 0 64]).
Proof.
  intros Wo Rd Wd Wl. apply Forall_app. split.
  - apply (F_copy_words _ _ _ 5); [exact Wo|exact Rd|]. intros i Hi. apply in_seq in Hi. lia.
  - apply Forall_cons; [apply (Wd 0%nat 20%nat); lia|apply Forall_cons; [apply (Wl 0%nat 64%nat); lia|constructor]].
Qed.
Lemma F_160 tr p ce iv m n tail (f : list Z -> list Z) : tr_ok 64 tr -> can_read p n -> can_write (Digest, 0%nat) 20 ->
  can_read (LastChunk, 0%nat) 64 -> can_write (LastChunk, 0%nat) 64 -> Forall P tail ->
  Forall P (fst (_ <~ tell [Write Digest 0 20] ;; digest <~ pad_l 64 55 tr p ce iv m n ;; _ <~ tell tail ;; pure (Ok (f digest)))).
Proof.
  intros Ht Rp Wd Rl Wl T. assert (D : P (Write Digest 0 20)) by (apply (Wd 0%nat 20%nat); lia).
  apply F_step; [constructor; [exact D|constructor]|].
  apply F_bind; [apply F_pad; [lia|assumption|assumption|assumption|assumption]|]. intros x _. apply F_step; [exact T|constructor].
Qed.
Lemma F_sha1_l p out m n : can_read p n -> can_write out 20 -> can_read (Digest, 0%nat) 20 -> can_write (Digest, 0%nat) 20 ->
  can_read (LastChunk, 0%nat) 64 -> can_write (LastChunk, 0%nat) 64 -> Forall P (fst (sha1_l p out m n)).
Proof.
  intros Rp Wo Rd Wd Rl Wl. unfold sha1_l. cbv zeta. apply F_160; [apply F_sha1; assumption|assumption|assumption|assumption|assumption|exact (F_160_tail out Wo Rd Wd Wl)].
Qed.
Lemma F_ripemd160_l p out m n : can_read p n -> can_write out 20 -> can_read (Digest, 0%nat) 20 -> can_write (Digest, 0%nat) 20 ->
  can_read (LastChunk, 0%nat) 64 -> can_write (LastChunk, 0%nat) 64 -> Forall P (fst (ripemd160_l p out m n)).
Proof.
  intros Rp Wo Rd Wd Rl Wl. unfold ripemd160_l. cbv zeta. apply F_160; [apply F_ripemd; assumption|assumption|assumption|assumption|assumption|exact (F_160_tail out Wo Rd Wd Wl)].
Qed.

Lemma F_key_loop n : can_read (Buffer, 0%nat) (n * 8) -> can_write (KeyInner, 0%nat) (n * 8) -> can_write (KeyOutter, 0%nat) (n * 8) -> Forall P (key_loop n).
Proof.
  intros Rb Wi Wo. apply F_for. intros i Hi.
  assert (P (Read Buffer (i * 8) 8)) by (apply (Rb (i * 8)%nat 8%nat); lia). assert (P (Write KeyInner (i * 8) 8)) by (apply (Wi (i * 8)%nat 8%nat); lia).
  assert (P (Write KeyOutter (i * 8) 8)) by (apply (Wo (i * 8)%nat 8%nat); lia). repeat (constructor; [assumption|]). constructor.
Qed.
Definition rw (o : object) (n : nat) : Prop := can_read (o, 0%nat) n /\ can_write (o, 0%nat) n.
Lemma rw_read o n off k : rw o n -> (off + k <= n)%nat -> P (Read o off k).
Proof. intros [H _] L. exact (H off k L). Qed.
Lemma rw_write o n off k : rw o n -> (off + k <= n)%nat -> P (Write o off k).
Proof. intros [_ H] L. exact (H off k L). Qed.
Ltac one := first [apply PT | eapply rw_write; [eassumption|lia] | eapply rw_read; [eassumption|lia]].
Ltac few := repeat (apply Forall_cons; [one|]); apply Forall_nil.
Lemma F_hmac256 pk p out key kn m n : can_read pk kn -> can_read p n -> can_write out 32 -> rw DigestInner 32 -> rw DigestOutter 32 -> rw Buffer 64 ->
  rw KeyInner 64 -> rw KeyOutter 64 -> rw Digest 32 -> rw LastChunk 64 -> Forall P (fst (hmac_sha256_l pk p out key kn m n)).
Proof.
  intros Rk Rp Wo Di Do Bu Ki Ko Dg Lc. unfold hmac_sha256_l. apply F_step; [few|]. apply F_bind.
  - destruct (Nat.leb_spec kn 64).
    + apply F_step; [apply Forall_cons; [apply (can_read0 pk kn); [exact Rk|lia]|few]|]. apply F_pure. intros; constructor.
    + apply F_bind; [apply F_sha2_256; try assumption; try apply Dg; try apply Lc; apply (can_write_le _ 64); [apply Bu|lia]|].
      intros x _. apply F_step; [few|constructor].
  - intros b _. apply F_step; [apply F_key_loop; [apply Bu|apply Ki|apply Ko]|]. cbv zeta.
    apply F_bind; [apply F_sha256; [apply Di|apply Di|apply Ki]|]. intros x1 _.
    apply F_bind; [apply F_sha256_final; [apply Di|apply Di|exact Rp|apply Lc|apply Lc]|]. intros x2 _.
    apply F_step; [apply F_for; intros i Hi; few|].
    apply F_bind; [apply F_sha256; [apply Do|apply Do|apply Ko]|]. intros x3 _.
    apply F_bind; [apply F_sha256_final; [apply Do|apply Do|apply Di|apply Lc|apply Lc]|]. intros x4 _.
    apply F_step; [|constructor]. apply Forall_app. split; [|few]. apply F_for. intros i Hi. apply Forall_cons; [one|].
    apply Forall_cons; [apply Wo; lia|constructor].
Qed.
Lemma F_hmac512 pk p out key kn m n : can_read pk kn -> can_read p n -> can_write out 64 -> rw DigestInner 64 -> rw DigestOutter 64 -> rw Buffer 128 ->
  rw KeyInner 128 -> rw KeyOutter 128 -> rw Digest 64 -> rw LastChunk 128 -> Forall P (fst (hmac_sha512_l pk p out key kn m n)).
Proof.
  intros Rk Rp Wo Di Do Bu Ki Ko Dg Lc. unfold hmac_sha512_l. apply F_step; [few|]. apply F_bind.
  - destruct (Nat.leb_spec kn 128).
    + apply F_step; [apply Forall_cons; [apply (can_read0 pk kn); [exact Rk|lia]|few]|]. apply F_pure. intros; constructor.
    + apply F_bind; [apply F_sha2_512; try assumption; try apply Dg; try apply Lc; apply (can_write_le _ 128); [apply Bu|lia]|].
      intros x _. apply F_step; [few|constructor].
  - intros b _. apply F_step; [apply F_key_loop; [apply Bu|apply Ki|apply Ko]|]. cbv zeta.
    apply F_bind; [apply F_sha512; [apply Di|apply Di|apply Ki]|]. intros x1 _.
    apply F_bind; [apply F_sha512_final; [apply Di|apply Di|exact Rp|apply Lc|apply Lc]|]. intros x2 _.
    apply F_step; [apply F_for; intros i Hi; few|].
    apply F_bind; [apply F_sha512; [apply Do|apply Do|apply Ko]|]. intros x3 _.
    apply F_bind; [apply F_sha512_final; [apply Do|apply Do|apply Di|apply Lc|apply Lc]|]. intros x4 _.
    apply F_step; [|constructor]. apply Forall_app. split; [|few]. apply F_for. intros i Hi. apply Forall_cons; [one|].
    apply Forall_cons; [apply Wo; lia|constructor].
Qed.
Lemma F_bip32 pc pd out cc i h d : can_read pc 32 -> can_read pd 32 -> can_write out 64 -> rw DigestInner 64 -> rw DigestOutter 64 -> rw Buffer 128 ->
  rw KeyInner 128 -> rw KeyOutter 128 -> rw Digest 64 -> rw LastChunk 128 -> rw Bip32Buffer 37 -> Forall P (fst (btc_bip32_hash_l pc pd out cc i h d)).
Proof.
  intros Rc Rd Wo Di Do Bu Ki Ko Dg Lc Bb. unfold btc_bip32_hash_l. cbv zeta. apply F_step; [few|]. apply F_pure. intros b1 _.
  apply F_step; [apply Forall_cons; [apply (can_read0 pd 32); [exact Rd|lia]|few]|]. apply F_pure. intros b2 _. apply F_pure. intros b3 _.
  apply F_step; [few|]. apply F_pure. intros b4 _.
  apply F_bind; [apply F_hmac512; try assumption; apply Bb|]. intros x _. apply F_step; [few|constructor].
Qed.
Lemma F_d64_loop o mem out inp blocks : can_read (o, inp) (64 * blocks) -> can_write (o, out) (32 * blocks) -> Forall P (fst (btc_hash256_d64_l o mem out inp blocks)).
Proof.
  revert mem out inp. induction blocks as [|b IH]; intros mem out inp R W; cbn [btc_hash256_d64_l]; (apply F_step; [few|]); [constructor|].
  apply F_bind; [apply F_d64; [apply (can_read_le _ _ 64 R); lia|apply (can_write_le _ _ 32 W); lia]|]. intros d _. apply F_pure. intros m _. apply IH.
  - intros off k H. specialize (R (64 + off)%nat k). unfold padd in *. cbn [fst snd] in *. rewrite Nat.add_assoc in R. apply R. lia.
  - intros off k H. specialize (W (32 + off)%nat k). unfold padd in *. cbn [fst snd] in *. rewrite Nat.add_assoc in W. apply W. lia.
Qed.
End Gen.

(** The predicate of the specification. *)
Lemma ib_read ins outs locals p n : In (p, n) (ins ++ locals) -> can_read (in_bounds ins outs locals) p n.
Proof. intros H off k L. cbn. apply Exists_exists. exists (p, n). split; [exact H|]. unfold within, padd. destruct p as [o0 b0]. cbn in *. repeat split; try reflexivity; lia. Qed.
Lemma ib_write ins outs locals p n : In (p, n) (outs ++ locals) -> can_write (in_bounds ins outs locals) p n.
Proof. intros H off k L. cbn. apply Exists_exists. exists (p, n). split; [exact H|]. unfold within, padd. destruct p as [o0 b0]. cbn in *. repeat split; try reflexivity; lia. Qed.
Lemma ib_rw ins outs locals o n : In (local o n) locals -> rw (in_bounds ins outs locals) o n.
Proof. intros H. split; [apply ib_read|apply ib_write]; apply in_or_app; right; exact H. Qed.
Lemma ib_test ins outs locals b : in_bounds ins outs locals (Test b).
Proof. exact I. Qed.
