(** Lemmas for C141. *)
From Verif Require Import Base M_Endian M_Sha2 M_Sha1 M_Ripemd M_Hash M_Leak L_Leak S_LeakCover.

Section Gen.
Variable Q : obs -> Prop.
Lemma X_l {A B} (x : lk A) (f : A -> lk B) : Exists Q (fst x) -> Exists Q (fst (bindl x f)).
Proof. intros H. unfold bindl. destruct (snd x); cbn [fst]; [|exact H|exact H]. apply Exists_app. left. exact H. Qed.
Lemma X_r {A B} (x : lk A) (f : A -> lk B) a : snd x = Ok a -> Exists Q (fst (f a)) -> Exists Q (fst (bindl x f)).
Proof. intros E H. unfold bindl. rewrite E. cbn [fst]. apply Exists_app. right. exact H. Qed.
Lemma X_t {B} t (f : unit -> lk B) : Exists Q (fst (f tt)) -> Exists Q (fst (bindl (tell t) f)).
Proof. intros H. cbn [bindl snd tell fst]. apply Exists_app. right. exact H. Qed.
End Gen.
Lemma bind_ok {A B} (x : lk A) (f : A -> lk B) b : snd (bindl x f) = Ok b -> exists a, snd x = Ok a /\ snd (f a) = Ok b.
Proof. unfold bindl. destruct (snd x) as [a| |]; cbn [snd]; try discriminate. intros H. exists a. split; [reflexivity|exact H]. Qed.
Lemma tell_ok {B} t (f : unit -> lk B) b : snd (bindl (tell t) f) = Ok b -> snd (f tt) = Ok b.
Proof. intros H. exact H. Qed.

Lemma reads_here p off k i t : In (read (padd p off) k) t -> (off <= i < off + k)%nat -> reads t p i.
Proof. intros H L. apply Exists_exists. exists (read (padd p off) k). split; [exact H|]. cbn. split; [reflexivity|lia]. Qed.
Lemma writes_here p off k i t : In (write (padd p off) k) t -> (off <= i < off + k)%nat -> writes t p i.
Proof. intros H L. apply Exists_exists. exists (write (padd p off) k). split; [exact H|]. cbn. split; [reflexivity|lia]. Qed.
Lemma reads_padd t p a i : reads t (padd p a) i <-> reads t p (a + i).
Proof. unfold reads, padd. cbn [fst snd]. rewrite Nat.add_assoc. reflexivity. Qed.

Lemma exec_in o sz p c off ls : forall st st', snd (exec_lines_l o sz p c st ls) = Ok st' ->
  existsb (fun l => match l with R _ _ (WLoad _ a) => (a =? off)%nat | _ => false end) ls = true -> In (read (padd p off) sz) (fst (exec_lines_l o sz p c st ls)).
Proof.
  induction ls as [|l ls IH]; intros st st' H E; cbn [existsb] in E; [discriminate|]. cbn [exec_lines_l] in *. apply bind_ok in H. destruct H as (s1 & H1 & H2).
  unfold bindl at 1. rewrite H1. cbn [fst]. apply in_or_app. apply orb_prop in E. destruct E as [E|E]; [|right; exact (IH s1 st' H2 E)]. left.
  destruct l as [regs k [|i a|i ts|i ts|ts]]; try discriminate E. apply Nat.eqb_eq in E. subst a. unfold exec_line_l. cbn [bindl tell snd fst]. left. reflexivity.
Qed.
Lemma exec1_in p c off ls : forall st st', snd (exec_lines1_l p c st ls) = Ok st' ->
  existsb (fun l => match l with R1 _ _ _ (WLoad1 _ a) => (a =? off)%nat | _ => false end) ls = true -> In (read (padd p off) 4) (fst (exec_lines1_l p c st ls)).
Proof.
  induction ls as [|l ls IH]; intros st st' H E; cbn [existsb] in E; [discriminate|]. cbn [exec_lines1_l] in *. apply bind_ok in H. destruct H as (s1 & H1 & H2).
  unfold bindl at 1. rewrite H1. cbn [fst]. apply in_or_app. apply orb_prop in E. destruct E as [E|E]; [|right; exact (IH s1 st' H2 E)]. left.
  destruct l as [regs f k [i a|i ts|ts]]; try discriminate E. apply Nat.eqb_eq in E. subst a. unfold exec_line1_l. cbn [bindl tell snd fst]. left. reflexivity.
Qed.

Definition tr_cov (blk : nat) (tr : ptr -> list Z -> list Z -> lk (list Z)) : Prop :=
  forall p s c r j, snd (tr p s c) = Ok r -> (j < blk)%nat -> reads (fst (tr p s c)) p j.
Lemma all_words (f : nat -> bool) n : forallb f (seq 0 n) = true -> forall k, (k < n)%nat -> f k = true.
Proof. intros H k L. rewrite forallb_forall in H. apply H. apply in_seq. lia. Qed.
Definition loads (sz n : nat) (ls : list line) : bool :=
  forallb (fun k => existsb (fun l => match l with R _ _ (WLoad _ a) => (a =? k * sz)%nat | _ => false end) ls) (seq 0 n).
Lemma exec_reads o sz p c ls n : loads sz n ls = true -> (0 < sz)%nat -> forall st st' j, snd (exec_lines_l o sz p c st ls) = Ok st' -> (j < n * sz)%nat ->
  reads (fst (exec_lines_l o sz p c st ls)) p j.
Proof.
  intros L S st st' j H J. assert (K : (j / sz < n)%nat) by (apply Nat.div_lt_upper_bound; lia).
  pose proof (all_words _ _ L (j / sz)%nat K) as E. cbv beta in E. apply (reads_here p (j / sz * sz) sz).
  - exact (exec_in o sz p c _ ls st st' H E).
  - pose proof (Nat.div_mod j sz ltac:(lia)). pose proof (Nat.mod_upper_bound j sz ltac:(lia)). lia.
Qed.
Lemma C_sha256 d : tr_cov 64 (sha256_transform_l d).
Proof.
  intros p s c r j H J. unfold sha256_transform_l in *. apply tell_ok in H. apply bind_ok in H. destruct H as ([rs w] & H & _).
  apply X_t. apply X_l. exact (exec_reads _ 4 p c sha256_lines 16 eq_refl ltac:(lia) _ _ j H J).
Qed.
Lemma C_sha512 d : tr_cov 128 (sha512_transform_l d).
Proof.
  intros p s c r j H J. unfold sha512_transform_l in *. apply tell_ok in H. apply bind_ok in H. destruct H as ([rs w] & H & _).
  apply X_t. apply X_l. exact (exec_reads _ 8 p c sha512_lines 16 eq_refl ltac:(lia) _ _ j H J).
Qed.
Lemma C_sha1 d : tr_cov 64 (sha1_transform_l d).
Proof.
  intros p s c r j H J. unfold sha1_transform_l in *. apply tell_ok in H. apply bind_ok in H. destruct H as ([rs w] & H & _).
  apply X_t. apply X_l.
  assert (L : forallb (fun k => existsb (fun l => match l with R1 _ _ _ (WLoad1 _ a) => (a =? k * 4)%nat | _ => false end) sha1_lines) (seq 0 16) = true) by reflexivity.
  assert (K : (j / 4 < 16)%nat) by (apply Nat.div_lt_upper_bound; lia).
  pose proof (all_words _ _ L (j / 4)%nat K) as E. cbv beta in E. apply (reads_here p (j / 4 * 4) 4).
  - exact (exec1_in p c _ sha1_lines _ _ H E).
  - pose proof (Nat.div_mod j 4 ltac:(lia)). pose proof (Nat.mod_upper_bound j 4 ltac:(lia)). lia.
Qed.
Lemma load_in p c is : forall xs i, snd (load_X_l p c is) = Ok xs -> In i is -> In (read (padd p (i * 4)) 4) (fst (load_X_l p c is)).
Proof.
  induction is as [|i0 is IH]; intros xs i H Hi; [destruct Hi|]. cbn [load_X_l] in *. apply tell_ok in H. apply bind_ok in H. destruct H as (x & H1 & H2).
  apply bind_ok in H2. destruct H2 as (xs' & H2 & _). cbn [bindl tell snd fst] in *. apply in_or_app.
  destruct Hi as [->|Hi]; [left; left; reflexivity|]. right. unfold bindl at 1. rewrite H1. cbn [fst pure app]. unfold bindl. rewrite H2. cbn [fst]. apply in_or_app. left.
  exact (IH xs' i H2 Hi).
Qed.
Lemma C_ripemd d : tr_cov 64 (ripemd160_transform_l d).
Proof.
  intros p s c r j H J. unfold ripemd160_transform_l in *. apply tell_ok in H. apply bind_ok in H. destruct H as (X & H & _).
  apply X_t. apply X_l. assert (K : (j / 4 < 16)%nat) by (apply Nat.div_lt_upper_bound; lia). apply (reads_here p (j / 4 * 4) 4).
  - apply (load_in _ _ _ X); [exact H|]. apply in_seq. lia.
  - pose proof (Nat.div_mod j 4 ltac:(lia)). pose proof (Nat.mod_upper_bound j 4 ltac:(lia)). lia.
Qed.

Lemma C_block_loop blk tr fuel : tr_cov blk tr -> forall p d m n d' m' n', snd (block_loop_l fuel blk tr p d m n) = Ok (d', m', n') ->
  forall i, (i < n - n')%nat -> reads (fst (block_loop_l fuel blk tr p d m n)) p i.
Proof.
  intros Ht. induction fuel as [|fuel IH]; intros p d m n d' m' n' H i Hi; cbn [block_loop_l] in *; apply tell_ok in H; apply X_t; cbv beta in *.
  - destruct (blk <=? n)%nat; [discriminate H|]. apply (f_equal (fun r => match r with Ok (_, _, x) => x | _ => n' end)) in H. cbn in H. lia.
  - destruct (Nat.leb_spec blk n) as [L|L]; [|apply (f_equal (fun r => match r with Ok (_, _, x) => x | _ => n' end)) in H; cbn in H; lia].
    apply bind_ok in H. destruct H as (x & Hx & H). apply bind_ok in H. destruct H as (d1 & Hd & H).
    eapply X_r; [exact Hx|]. destruct (Nat.lt_ge_cases i blk) as [I|I]; [apply X_l; exact (Ht p d m d1 i Hd I)|].
    eapply X_r; [exact Hd|]. specialize (IH _ _ _ _ _ _ _ H (i - blk)%nat ltac:(lia)). apply reads_padd in IH. replace (blk + (i - blk))%nat with i in IH by lia. exact IH.
Qed.
Lemma C_pad blk thr tr p ce d m n r : tr_cov blk tr -> snd (pad_l blk thr tr p ce d m n) = Ok r -> forall i, (i < n)%nat -> reads (fst (pad_l blk thr tr p ce d m n)) p i.
Proof.
  intros Ht H i Hi. unfold pad_l in *. apply bind_ok in H. destruct H as ([[d' m'] n'] & H & _).
  destruct (Nat.lt_ge_cases i (n - n')) as [L|L].
  - apply X_l. exact (C_block_loop blk tr n Ht p d m n d' m' n' H i L).
  - eapply X_r; [exact H|]. cbv beta iota. apply X_t. cbv zeta beta. apply X_l. cbn [tell fst].
    apply (reads_here p (n - n') n'); [left; reflexivity|]. lia.
Qed.
Lemma copy_writes dst src is sz i k : In k is -> (k * sz <= i < k * sz + sz)%nat -> writes (copy_words dst src is sz) dst i.
Proof.
  intros Hk L. apply (writes_here dst (k * sz) sz); [|exact L]. apply in_flat_map. exists k. split; [exact Hk|]. right. left. reflexivity.
Qed.
Lemma C_sha256_final d p s m n a r : snd (sha256_final_l d p s m n a) = Ok r -> forall i, (i < n)%nat -> reads (fst (sha256_final_l d p s m n a)) p i.
Proof.
  intros H i Hi. unfold sha256_final_l in *. cbv zeta in *. apply bind_ok in H. destruct H as (x & H & _). apply X_l. exact (C_pad _ _ _ _ _ _ _ _ x (C_sha256 d) H i Hi).
Qed.
Lemma C_sha512_final d p s m n a r : snd (sha512_final_l d p s m n a) = Ok r -> forall i, (i < n)%nat -> reads (fst (sha512_final_l d p s m n a)) p i.
Proof.
  intros H i Hi. unfold sha512_final_l in *. cbv zeta in *. apply bind_ok in H. destruct H as (x & H & _). apply X_l. exact (C_pad _ _ _ _ _ _ _ _ x (C_sha512 d) H i Hi).
Qed.
Ltac word i sz := let D := fresh in let M := fresh in pose proof (Nat.div_mod i sz ltac:(lia)) as D; pose proof (Nat.mod_upper_bound i sz ltac:(lia)) as M; lia.
Lemma C_sha2_256 p out m n r : snd (sha2_256_l p out m n) = Ok r ->
  (forall i, (i < n)%nat -> reads (fst (sha2_256_l p out m n)) p i) /\ (forall i, (i < 32)%nat -> writes (fst (sha2_256_l p out m n)) out i).
Proof.
  intros H. unfold sha2_256_l in *. apply tell_ok in H. apply bind_ok in H. destruct H as (x & H & _). split; intros i Hi; apply X_t.
  - apply X_l. exact (C_sha256_final _ _ _ _ _ _ x H i Hi).
  - eapply X_r; [exact H|]. cbv beta. apply X_l. cbn [tell fst]. apply Exists_app. left. apply (copy_writes _ _ _ _ i (i / 4)); [apply in_seq|]; word i 4%nat.
Qed.
Lemma C_sha2_512 p out m n r : snd (sha2_512_l p out m n) = Ok r ->
  (forall i, (i < n)%nat -> reads (fst (sha2_512_l p out m n)) p i) /\ (forall i, (i < 64)%nat -> writes (fst (sha2_512_l p out m n)) out i).
Proof.
  intros H. unfold sha2_512_l in *. apply tell_ok in H. apply bind_ok in H. destruct H as (x & H & _). split; intros i Hi; apply X_t.
  - apply X_l. exact (C_sha512_final _ _ _ _ _ _ x H i Hi).
  - eapply X_r; [exact H|]. cbv beta. apply X_l. cbn [tell fst]. apply Exists_app. left. apply (copy_writes _ _ _ _ i (i / 8)); [|word i 8%nat].
    assert (K : (i / 8 < 8)%nat) by (apply Nat.div_lt_upper_bound; lia). cbn [In]. lia.
Qed.
Lemma C_160 tr p ce iv m n tail (f : list Z -> list Z) r : tr_cov 64 tr ->
  let run := _ <~ tell [Write Digest 0 20] ;; digest <~ pad_l 64 55 tr p ce iv m n ;; _ <~ tell tail ;; pure (Ok (f digest)) in
  snd run = Ok r -> (forall i, (i < n)%nat -> reads (fst run) p i) /\ (forall out i, writes tail out i -> writes (fst run) out i).
Proof.
  intros Ht run H. unfold run in *. apply tell_ok in H. apply bind_ok in H. destruct H as (x & H & _). split.
  - intros i Hi. apply X_t. apply X_l. exact (C_pad _ _ _ _ _ _ _ _ x Ht H i Hi).
  - intros out i W. apply X_t. eapply X_r; [exact H|]. cbv beta. apply X_l. exact W.
Qed.
Lemma C_160_tail out rest i : (i < 20)%nat -> writes (copy_words out (Digest, 0%nat) (seq 0 5) 4 ++ rest) out i.
Proof. intros Hi. apply Exists_app. left. apply (copy_writes _ _ _ _ i (i / 4)); [apply in_seq|]; word i 4%nat. Qed.
Lemma C_sha1_l p out m n r : snd (sha1_l p out m n) = Ok r ->
  (forall i, (i < n)%nat -> reads (fst (sha1_l p out m n)) p i) /\ (forall i, (i < 20)%nat -> writes (fst (sha1_l p out m n)) out i).
Proof.
  unfold sha1_l. cbv zeta. intros H. apply C_160 in H; [|apply C_sha1]. destruct H as [R W]. split; [exact R|]. intros i Hi. apply W. exact (C_160_tail out _ i Hi).
Qed.
Lemma C_ripemd160_l p out m n r : snd (ripemd160_l p out m n) = Ok r ->
  (forall i, (i < n)%nat -> reads (fst (ripemd160_l p out m n)) p i) /\ (forall i, (i < 20)%nat -> writes (fst (ripemd160_l p out m n)) out i).
Proof.
  unfold ripemd160_l. cbv zeta. intros H. apply C_160 in H; [|apply C_ripemd]. destruct H as [R W]. split; [exact R|]. intros i Hi. apply W. exact (C_160_tail out _ i Hi).
Qed.

Lemma for_writes out n sz (body : nat -> list obs) i : (forall k, (k < n)%nat -> In (write (padd out (k * sz)) sz) (body k)) -> (0 < sz)%nat -> (i < n * sz)%nat ->
  writes (for_loop n body) out i.
Proof.
  intros H S L. assert (K : (i / sz < n)%nat) by (apply Nat.div_lt_upper_bound; lia). apply (writes_here out (i / sz * sz) sz); [|word i sz].
  unfold for_loop. apply in_or_app. left. apply in_flat_map. exists (i / sz)%nat. split; [apply in_seq; split; [apply Nat.le_0_l|exact K]|]. right. apply H. exact K.
Qed.
Lemma C_hmac256 pk p out key kn m n r : snd (hmac_sha256_l pk p out key kn m n) = Ok r ->
  let t := fst (hmac_sha256_l pk p out key kn m n) in
  (forall i, (i < kn)%nat -> reads t pk i) /\ (forall i, (i < n)%nat -> reads t p i) /\ (forall i, (i < 32)%nat -> writes t out i).
Proof.
  intros H t. subst t. unfold hmac_sha256_l in *. apply tell_ok in H. apply bind_ok in H. destruct H as (b & Hb & H). apply tell_ok in H. cbv zeta beta in H.
  apply bind_ok in H. destruct H as (i1 & H1 & H). apply bind_ok in H. destruct H as (i2 & H2 & H). apply tell_ok in H. cbv zeta beta in H.
  apply bind_ok in H. destruct H as (o1 & H3 & H). apply bind_ok in H. destruct H as (o2 & H4 & H). split; [|split]; intros i Hi; apply X_t.
  - apply X_l. destruct (Nat.leb_spec kn 64) as [L|L].
    + apply X_l. cbn [tell fst]. apply (reads_here pk 0 kn); [rewrite (surjective_pairing pk); left; unfold padd, read; cbn; rewrite Nat.add_0_r; reflexivity|lia].
    + apply X_l. apply bind_ok in Hb. destruct Hb as (k & Hk & _). apply (C_sha2_256 _ _ _ _ k Hk). exact Hi.
  - eapply X_r; [exact Hb|]. apply X_t. cbv zeta beta. eapply X_r; [exact H1|]. apply X_l. exact (C_sha256_final _ _ _ _ _ _ i2 H2 i Hi).
  - eapply X_r; [exact Hb|]. apply X_t. cbv zeta beta. eapply X_r; [exact H1|]. eapply X_r; [exact H2|]. apply X_t. cbv zeta beta. eapply X_r; [exact H3|]. eapply X_r; [exact H4|].
    apply X_l. cbn [tell fst]. apply Exists_app. left. apply (for_writes out 8 4); [|lia|lia]. intros k _. right. left. reflexivity.
Qed.
Lemma C_hmac512 pk p out key kn m n r : snd (hmac_sha512_l pk p out key kn m n) = Ok r ->
  let t := fst (hmac_sha512_l pk p out key kn m n) in
  (forall i, (i < kn)%nat -> reads t pk i) /\ (forall i, (i < n)%nat -> reads t p i) /\ (forall i, (i < 64)%nat -> writes t out i).
Proof.
  intros H t. subst t. unfold hmac_sha512_l in *. apply tell_ok in H. apply bind_ok in H. destruct H as (b & Hb & H). apply tell_ok in H. cbv zeta beta in H.
  apply bind_ok in H. destruct H as (i1 & H1 & H). apply bind_ok in H. destruct H as (i2 & H2 & H). apply tell_ok in H. cbv zeta beta in H.
  apply bind_ok in H. destruct H as (o1 & H3 & H). apply bind_ok in H. destruct H as (o2 & H4 & H). split; [|split]; intros i Hi; apply X_t.
  - apply X_l. destruct (Nat.leb_spec kn 128) as [L|L].
    + apply X_l. cbn [tell fst]. apply (reads_here pk 0 kn); [rewrite (surjective_pairing pk); left; unfold padd, read; cbn; rewrite Nat.add_0_r; reflexivity|lia].
    + apply X_l. apply bind_ok in Hb. destruct Hb as (k & Hk & _). apply (C_sha2_512 _ _ _ _ k Hk). exact Hi.
  - eapply X_r; [exact Hb|]. apply X_t. cbv zeta beta. eapply X_r; [exact H1|]. apply X_l. exact (C_sha512_final _ _ _ _ _ _ i2 H2 i Hi).
  - eapply X_r; [exact Hb|]. apply X_t. cbv zeta beta. eapply X_r; [exact H1|]. eapply X_r; [exact H2|]. apply X_t. cbv zeta beta. eapply X_r; [exact H3|]. eapply X_r; [exact H4|].
    apply X_l. cbn [tell fst]. apply Exists_app. left. apply (for_writes out 8 8); [|lia|lia]. intros k _. right. left. reflexivity.
Qed.
Lemma C_d64 out p c r : snd (hash256_d64_transform_l out p c) = Ok r ->
  (forall i, (i < 64)%nat -> reads (fst (hash256_d64_transform_l out p c)) p i) /\ (forall i, (i < 32)%nat -> writes (fst (hash256_d64_transform_l out p c)) out i).
Proof.
  intros H. unfold hash256_d64_transform_l in *. apply bind_ok in H. destruct H as ([r1 w1] & H1 & H). cbv zeta in H.
  apply bind_ok in H. destruct H as ([r2 w2] & H2 & H). apply bind_ok in H. destruct H as ([r3 w3] & H3 & H). split; intros i Hi.
  - apply X_l. exact (exec_reads _ 4 p c d64_transform1 16 eq_refl ltac:(lia) _ _ i H1 Hi).
  - eapply X_r; [exact H1|]. cbv zeta beta iota. eapply X_r; [exact H2|]. cbv beta iota. eapply X_r; [exact H3|]. cbv beta iota. apply X_l. cbn [tell fst].
    apply (writes_here out (i / 4 * 4) 4); [|word i 4%nat]. apply in_map_iff. exists (i / 4)%nat. split; [reflexivity|]. apply in_seq. word i 4%nat.
Qed.
Lemma C_d64_loop o blocks : forall mem out inp r, snd (btc_hash256_d64_l o mem out inp blocks) = Ok r ->
  (forall i, (i < 64 * blocks)%nat -> reads (fst (btc_hash256_d64_l o mem out inp blocks)) (o, inp) i) /\
  (forall i, (i < 32 * blocks)%nat -> writes (fst (btc_hash256_d64_l o mem out inp blocks)) (o, out) i).
Proof.
  induction blocks as [|b IH]; intros mem out inp r H; [split; intros; lia|]. cbn [btc_hash256_d64_l] in *. apply tell_ok in H.
  apply bind_ok in H. destruct H as (d & H1 & H). apply bind_ok in H. destruct H as (m & H2 & H). destruct (IH _ _ _ _ H) as [IR IW]. destruct (C_d64 _ _ _ d H1) as [R W].
  split; intros i Hi; apply X_t.
  - destruct (Nat.lt_ge_cases i 64) as [L|L]; [apply X_l; exact (R i L)|]. eapply X_r; [exact H1|]. eapply X_r; [exact H2|].
    specialize (IR (i - 64)%nat ltac:(lia)). unfold reads in *. cbn [fst snd] in *. replace (inp + 64 + (i - 64))%nat with (inp + i)%nat in IR by lia. exact IR.
  - destruct (Nat.lt_ge_cases i 32) as [L|L]; [apply X_l; exact (W i L)|]. eapply X_r; [exact H1|]. eapply X_r; [exact H2|].
    specialize (IW (i - 32)%nat ltac:(lia)). unfold writes in *. cbn [fst snd] in *. replace (out + 32 + (i - 32))%nat with (out + i)%nat in IW by lia. exact IW.
Qed.
