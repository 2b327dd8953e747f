(** Lemmas about the observations of M_Leak: dropping them gives the plain model,
    and they depend only on lengths. *)
From Verif Require Import Base M_Endian M_Sha2 M_Sha1 M_Ripemd M_Hash M_Leak.

(* ------------------------------------------------------------------ *)
(** Erasure. *)
Lemma snd_bindl {A B} (x : lk A) (f : A -> lk B) : snd (bindl x f) = bind (snd x) (fun a => snd (f a)).
Proof. destruct x as [t [a| |]]; reflexivity. Qed.
Lemma bind_ext {A B} (x : res A) (f g : A -> res B) : (forall a, f a = g a) -> bind x f = bind x g.
Proof. intros H. destruct x; simpl; auto. Qed.
Lemma bind_ext2 {A B} (x y : res A) (f g : A -> res B) : x = y -> (forall a, f a = g a) -> bind x f = bind y g.
Proof. intros <-. apply bind_ext. Qed.
Lemma bind_ret {A} (x : res A) : bind x (fun a => Ok a) = x.
Proof. destruct x; reflexivity. Qed.
Lemma bind_assoc {A B D} (x : res A) (f : A -> res B) (g : B -> res D) :
  bind (bind x f) g = bind x (fun a => bind (f a) g).
Proof. destruct x; reflexivity. Qed.

Lemma exec_line_l_erase o sz p chunk st l : snd (exec_line_l o sz p chunk st l) = exec_line o chunk st l.
Proof. destruct l as [regs k e]. unfold exec_line_l. rewrite snd_bindl. reflexivity. Qed.
Lemma exec_lines_l_erase o sz p chunk ls : forall st, snd (exec_lines_l o sz p chunk st ls) = exec_lines o chunk st ls.
Proof.
  induction ls as [|l ls IH]; intros st; [reflexivity|].
  cbn [exec_lines_l exec_lines]. rewrite snd_bindl, exec_line_l_erase. apply bind_ext. apply IH.
Qed.
Lemma exec_line1_l_erase p chunk st l : snd (exec_line1_l p chunk st l) = exec_line1 chunk st l.
Proof. destruct l as [regs f k e]. unfold exec_line1_l. rewrite snd_bindl. reflexivity. Qed.
Lemma exec_lines1_l_erase p chunk ls : forall st, snd (exec_lines1_l p chunk st ls) = exec_lines1 chunk st ls.
Proof.
  induction ls as [|l ls IH]; intros st; [reflexivity|].
  cbn [exec_lines1_l exec_lines1]. rewrite snd_bindl, exec_line1_l_erase. apply bind_ext. apply IH.
Qed.
Lemma sha256_transform_l_erase d p s chunk : snd (sha256_transform_l d p s chunk) = sha256_transform s chunk.
Proof.
  unfold sha256_transform_l, sha256_transform. rewrite snd_bindl. cbn [snd tell bind].
  rewrite snd_bindl, exec_lines_l_erase. apply bind_ext. intros [rs w]. reflexivity.
Qed.
Lemma sha512_transform_l_erase d p s chunk : snd (sha512_transform_l d p s chunk) = sha512_transform s chunk.
Proof.
  unfold sha512_transform_l, sha512_transform. rewrite snd_bindl. cbn [snd tell bind].
  rewrite snd_bindl, exec_lines_l_erase. apply bind_ext. intros [rs w]. reflexivity.
Qed.
Lemma sha1_transform_l_erase d p s chunk : snd (sha1_transform_l d p s chunk) = sha1_transform s chunk.
Proof.
  unfold sha1_transform_l, sha1_transform. rewrite snd_bindl. cbn [snd tell bind].
  rewrite snd_bindl, exec_lines1_l_erase. apply bind_ext. intros [rs w]. reflexivity.
Qed.
Lemma load_X_l_erase p chunk is : snd (load_X_l p chunk is) = load_X chunk is.
Proof.
  induction is as [|i is IH]; [reflexivity|].
  cbn [load_X_l load_X]. rewrite snd_bindl. cbn [snd tell bind]. rewrite snd_bindl. cbn [snd pure].
  apply bind_ext. intros x. rewrite snd_bindl, IH. apply bind_ext. reflexivity.
Qed.
Lemma ripemd160_transform_l_erase d p s chunk : snd (ripemd160_transform_l d p s chunk) = ripemd160_transform s chunk.
Proof.
  unfold ripemd160_transform_l, ripemd160_transform. rewrite snd_bindl. cbn [snd tell bind].
  rewrite snd_bindl, load_X_l_erase. apply bind_ext. intros X. rewrite snd_bindl. cbn [snd pure].
  apply bind_ext. intros rs. rewrite snd_bindl. reflexivity.
Qed.
Lemma hash256_d64_transform_l_erase out p inp : snd (hash256_d64_transform_l out p inp) = hash256_d64_transform inp.
Proof.
  unfold hash256_d64_transform_l, hash256_d64_transform.
  rewrite snd_bindl, exec_lines_l_erase. apply bind_ext. intros [rs w]. cbv zeta.
  rewrite snd_bindl, exec_lines_l_erase. apply bind_ext. intros [rs2 w2].
  rewrite snd_bindl, exec_lines_l_erase. apply bind_ext. intros [rs3 w3]. rewrite snd_bindl. reflexivity.
Qed.
Lemma block_loop_l_erase fuel blk tl tr : (forall p s c, snd (tl p s c) = tr s c) ->
  forall p digest msg n, snd (block_loop_l fuel blk tl p digest msg n) = block_loop fuel blk tr digest msg n.
Proof.
  intros Ht. induction fuel as [|f IH]; intros p digest msg n; cbn [block_loop_l block_loop];
    rewrite snd_bindl; cbn [snd tell bind]; destruct (blk <=? n)%nat; try reflexivity.
  rewrite snd_bindl. cbn [snd pure]. apply bind_ext. intros _. rewrite snd_bindl, Ht. apply bind_ext. intros dg. apply IH.
Qed.
Lemma pad_l_erase blk thr tl tr : (forall p s c, snd (tl p s c) = tr s c) ->
  forall p ce digest msg n, snd (pad_l blk thr tl p ce digest msg n) =
  ('(digest, msg_buf, msg_len) <- block_loop n blk tr digest msg n ;;
   let last_chunk := repeat 0 blk in
   tail <- slice msg_buf 0 msg_len ;;
   last_chunk <- store last_chunk 0 tail ;;
   last_chunk <- store last_chunk msg_len [0x80] ;;
   '(digest, last_chunk) <-
     (if (thr <? msg_len)%nat
      then digest <- tr digest last_chunk ;; Ok (digest, repeat 0 blk)
      else Ok (digest, last_chunk)) ;;
   last_chunk <- store last_chunk (blk - 8) (host_bytes 8 ce) ;;
   tr digest last_chunk).
Proof.
  intros Ht p ce digest msg n. unfold pad_l. rewrite snd_bindl, (block_loop_l_erase _ _ _ _ Ht).
  apply bind_ext. intros [[dg mb] ml]. repeat (rewrite snd_bindl; cbn [snd tell pure bind]; cbv zeta).
  apply bind_ext. intros tail. rewrite snd_bindl. cbn [snd pure]. apply bind_ext. intros lc.
  repeat (rewrite snd_bindl; cbn [snd tell pure bind]). apply bind_ext. intros lc2.
  rewrite snd_bindl. cbn [snd tell bind]. rewrite snd_bindl.
  assert (E : snd (if (thr <? ml)%nat
      then digest <~ tl (LastChunk, 0%nat) dg lc2 ;;
           _ <~ tell [Write LastChunk 0 blk] ;; pure (Ok (digest, repeat 0 blk))
      else pure (Ok (dg, lc2))) =
      (if (thr <? ml)%nat then digest <- tr dg lc2 ;; Ok (digest, repeat 0 blk) else Ok (dg, lc2))).
  { destruct (thr <? ml)%nat; [|reflexivity]. rewrite snd_bindl, Ht. apply bind_ext. intros a. rewrite snd_bindl. reflexivity. }
  apply bind_ext2; [exact E|]. intros [d2 lc3].
  repeat (rewrite snd_bindl; cbn [snd tell pure bind]). apply bind_ext. intros lc4. apply Ht.
Qed.
Lemma sha256_final_l_erase d p digest msg n a : snd (sha256_final_l d p digest msg n a) = sha256_final digest msg n a.
Proof.
  unfold sha256_final_l. cbv zeta. rewrite snd_bindl.
  rewrite (pad_l_erase _ _ _ _ (sha256_transform_l_erase d)).
  etransitivity; [apply bind_ext; intros x; rewrite snd_bindl; reflexivity|]. cbn [snd tell pure bind].
  rewrite bind_ret. reflexivity.
Qed.
Lemma sha512_final_l_erase d p digest msg n a : snd (sha512_final_l d p digest msg n a) = sha512_final digest msg n a.
Proof.
  unfold sha512_final_l. cbv zeta. rewrite snd_bindl.
  rewrite (pad_l_erase _ _ _ _ (sha512_transform_l_erase d)).
  etransitivity; [apply bind_ext; intros x; rewrite snd_bindl; reflexivity|]. cbn [snd tell pure bind].
  rewrite bind_ret. reflexivity.
Qed.
Lemma sha2_256_l_erase p out msg n : snd (sha2_256_l p out msg n) = sha2_256 msg n.
Proof.
  unfold sha2_256_l, sha2_256. rewrite snd_bindl. cbn [snd tell bind]. rewrite snd_bindl, sha256_final_l_erase.
  apply bind_ext. intros x. rewrite snd_bindl. reflexivity.
Qed.
Lemma sha2_512_l_erase p out msg n : snd (sha2_512_l p out msg n) = sha2_512 msg n.
Proof.
  unfold sha2_512_l, sha2_512. rewrite snd_bindl. cbn [snd tell bind]. rewrite snd_bindl, sha512_final_l_erase.
  apply bind_ext. intros x. rewrite snd_bindl. reflexivity.
Qed.
Ltac bstep := repeat rewrite bind_assoc; apply bind_ext; intros.
Lemma sha1_l_erase p out msg n : snd (sha1_l p out msg n) = sha1 msg n.
Proof.
  unfold sha1_l, sha1. rewrite snd_bindl. cbn [snd tell bind]. cbv zeta.
  rewrite snd_bindl, (pad_l_erase _ _ _ _ (sha1_transform_l_erase (Digest, 0%nat))).
  repeat rewrite bind_assoc. apply bind_ext. intros [[dg mb] ml]. cbv zeta.
  bstep. bstep. bstep. bstep. destruct a2 as [d2 lc]. bstep. bstep. rewrite snd_bindl. reflexivity.
Qed.
Lemma ripemd160_l_erase p out msg n : snd (ripemd160_l p out msg n) = ripemd160 msg n.
Proof.
  unfold ripemd160_l, ripemd160. rewrite snd_bindl. cbn [snd tell bind]. cbv zeta.
  rewrite snd_bindl, (pad_l_erase _ _ _ _ (ripemd160_transform_l_erase (Digest, 0%nat))).
  repeat rewrite bind_assoc. apply bind_ext. intros [[dg mb] ml]. cbv zeta.
  bstep. bstep. bstep. bstep. destruct a2 as [d2 lc]. bstep. bstep. rewrite snd_bindl. reflexivity.
Qed.
Lemma hmac_sha256_l_erase pk p out key kn msg n : snd (hmac_sha256_l pk p out key kn msg n) = hmac_sha256 key kn msg n.
Proof.
  unfold hmac_sha256_l, hmac_sha256. rewrite snd_bindl. cbn [snd tell bind]. rewrite snd_bindl.
  assert (E : snd (if (kn <=? 64)%nat
     then _ <~ tell [read pk kn; Write Buffer 0 kn; Write Buffer kn (64 - kn)] ;;
          k <~ pure (slice key 0 kn) ;; pure (Ok (k ++ repeat 0 (64 - kn)))
     else k <~ sha2_256_l pk (Buffer, 0%nat) key kn ;;
          _ <~ tell [Write Buffer 32 32] ;;
          pure (Ok (k ++ repeat 0 32))) =
     (if (kn <=? 64)%nat
     then k <- slice key 0 kn ;; Ok (k ++ repeat 0 (64 - kn))
     else k <- sha2_256 key kn ;; Ok (k ++ repeat 0 32))).
  { destruct (kn <=? 64)%nat; rewrite snd_bindl; cbn [snd tell bind].
    - rewrite snd_bindl. reflexivity.
    - rewrite sha2_256_l_erase. apply bind_ext. intros k. rewrite snd_bindl. reflexivity. }
  apply bind_ext2; [exact E|]. intros b. cbv zeta.
  rewrite snd_bindl. cbn [snd tell bind]. rewrite snd_bindl, sha256_transform_l_erase. apply bind_ext. intros d1.
  rewrite snd_bindl, sha256_final_l_erase. apply bind_ext. intros d2.
  rewrite snd_bindl. cbn [snd tell bind]. rewrite snd_bindl, sha256_transform_l_erase. apply bind_ext. intros d3.
  rewrite snd_bindl, sha256_final_l_erase. apply bind_ext. intros d4. rewrite snd_bindl. reflexivity.
Qed.
Lemma hmac_sha512_l_erase pk p out key kn msg n : snd (hmac_sha512_l pk p out key kn msg n) = hmac_sha512 key kn msg n.
Proof.
  unfold hmac_sha512_l, hmac_sha512. rewrite snd_bindl. cbn [snd tell bind]. rewrite snd_bindl.
  assert (E : snd (if (kn <=? 128)%nat
     then _ <~ tell [read pk kn; Write Buffer 0 kn; Write Buffer kn (128 - kn)] ;;
          k <~ pure (slice key 0 kn) ;; pure (Ok (k ++ repeat 0 (128 - kn)))
     else k <~ sha2_512_l pk (Buffer, 0%nat) key kn ;;
          _ <~ tell [Write Buffer 64 64] ;;
          pure (Ok (k ++ repeat 0 64))) =
     (if (kn <=? 128)%nat
     then k <- slice key 0 kn ;; Ok (k ++ repeat 0 (128 - kn))
     else k <- sha2_512 key kn ;; Ok (k ++ repeat 0 64))).
  { destruct (kn <=? 128)%nat; rewrite snd_bindl; cbn [snd tell bind].
    - rewrite snd_bindl. reflexivity.
    - rewrite sha2_512_l_erase. apply bind_ext. intros k. rewrite snd_bindl. reflexivity. }
  apply bind_ext2; [exact E|]. intros b. cbv zeta.
  rewrite snd_bindl. cbn [snd tell bind]. rewrite snd_bindl, sha512_transform_l_erase. apply bind_ext. intros d1.
  rewrite snd_bindl, sha512_final_l_erase. apply bind_ext. intros d2.
  rewrite snd_bindl. cbn [snd tell bind]. rewrite snd_bindl, sha512_transform_l_erase. apply bind_ext. intros d3.
  rewrite snd_bindl, sha512_final_l_erase. apply bind_ext. intros d4. rewrite snd_bindl. reflexivity.
Qed.
Lemma btc_hash160_l_erase p out msg n : snd (btc_hash160_l p out msg n) = btc_hash160 msg n.
Proof. unfold btc_hash160_l. rewrite snd_bindl, sha2_256_l_erase. apply bind_ext. intros a. apply ripemd160_l_erase. Qed.
Lemma btc_hash256_l_erase p out msg n : snd (btc_hash256_l p out msg n) = btc_hash256 msg n.
Proof. unfold btc_hash256_l. rewrite snd_bindl, sha2_256_l_erase. apply bind_ext. intros a. apply sha2_256_l_erase. Qed.
Lemma btc_hash256_d64_l_erase o blocks : forall mem out inp,
  snd (btc_hash256_d64_l o mem out inp blocks) = btc_hash256_d64 mem out inp blocks.
Proof.
  induction blocks as [|b IH]; intros mem out inp; cbn [btc_hash256_d64_l btc_hash256_d64]; rewrite snd_bindl; [reflexivity|].
  cbn [snd tell bind]. rewrite snd_bindl, hash256_d64_transform_l_erase. apply bind_ext. intros d.
  rewrite snd_bindl. cbn [snd pure]. apply bind_ext. intros m. apply IH.
Qed.
Lemma btc_bip32_hash_l_erase pc pd out cc child header data :
  snd (btc_bip32_hash_l pc pd out cc child header data) = btc_bip32_hash cc child header data.
Proof.
  unfold btc_bip32_hash_l, btc_bip32_hash. cbv zeta.
  rewrite snd_bindl. cbn [snd tell bind]. rewrite snd_bindl. cbn [snd pure]. apply bind_ext. intros b1.
  rewrite snd_bindl. cbn [snd tell bind]. rewrite snd_bindl. cbn [snd pure]. apply bind_ext. intros d.
  rewrite snd_bindl. cbn [snd pure]. apply bind_ext. intros b2.
  rewrite snd_bindl. cbn [snd tell bind]. rewrite snd_bindl. cbn [snd pure]. apply bind_ext. intros tl.
  rewrite snd_bindl, hmac_sha512_l_erase.
  etransitivity; [apply bind_ext; intros x; rewrite snd_bindl; reflexivity|]. apply bind_ret.
Qed.

(* ------------------------------------------------------------------ *)
(** Two runs that make the same observations and end alike, with related values. *)
Definition rsim {A} (Rel : A -> A -> Prop) (x y : res A) : Prop :=
  match x, y with
  | Ok a, Ok b => Rel a b
  | UB, UB | Abort, Abort => True
  | _, _ => False
  end.
Definition sim {A} (Rel : A -> A -> Prop) (x y : lk A) : Prop := fst x = fst y /\ rsim Rel (snd x) (snd y).

Lemma sim_bind {A B} (R1 : A -> A -> Prop) (R2 : B -> B -> Prop) x y f g :
  sim R1 x y -> (forall a b, R1 a b -> sim R2 (f a) (g b)) -> sim R2 (bindl x f) (bindl y g).
Proof.
  intros [E S] H. destruct x as [tx [a| |]], y as [ty [b| |]]; cbn in *; try contradiction; unfold bindl, sim; cbn; auto.
  destruct (H a b S) as [E2 S2]. split; [congruence|exact S2].
Qed.
Lemma sim_tell (t : list obs) : sim (fun _ _ => True) (tell t) (tell t).
Proof. split; [reflexivity|exact I]. Qed.
Lemma sim_pure {A} (Rel : A -> A -> Prop) r1 r2 : rsim Rel r1 r2 -> sim Rel (pure r1) (pure r2).
Proof. intros H. split; [reflexivity|exact H]. Qed.
Lemma sim_step {B} (R2 : B -> B -> Prop) t (f g : unit -> lk B) :
  sim R2 (f tt) (g tt) -> sim R2 (bindl (tell t) f) (bindl (tell t) g).
Proof. intros H. eapply sim_bind; [apply sim_tell|]. intros [] [] _. exact H. Qed.
Lemma sim_weaken {A} (R1 R2 : A -> A -> Prop) x y : (forall a b, R1 a b -> R2 a b) -> sim R1 x y -> sim R2 x y.
Proof. intros H [E S]. split; [exact E|]. destruct (snd x), (snd y); cbn in *; auto. Qed.
Lemma rsim_bind {A B} (R1 : A -> A -> Prop) (R2 : B -> B -> Prop) x y f g :
  rsim R1 x y -> (forall a b, R1 a b -> rsim R2 (f a) (g b)) -> rsim R2 (bind x f) (bind y g).
Proof. intros S H. destruct x, y; cbn in *; try contradiction; auto. Qed.

(** both lists have exactly resp. at least [n] elements *)
Definition len2 {A} (n : nat) (a b : list A) : Prop := length a = n /\ length b = n.
Definition cov (n : nat) (a b : list Z) : Prop := (n <= length a)%nat /\ (n <= length b)%nat.

Lemma slice_cov a b off n : cov (off + n) a b -> rsim (len2 n) (slice a off n) (slice b off n).
Proof.
  intros [Ha Hb]. unfold slice. rewrite !leb_correct by lia. cbn. split; rewrite firstn_length, skipn_length; lia.
Qed.
Lemma store_len a b m off x y n : len2 m a b -> len2 n x y -> (off + n <= m)%nat ->
  rsim (len2 m) (store a off x) (store b off y).
Proof.
  intros [Ha Hb] [Hx Hy] H. unfold store. rewrite Ha, Hb, Hx, Hy, leb_correct by lia. cbn.
  split; rewrite !app_length, firstn_length, skipn_length; lia.
Qed.
Lemma cov_skipn k n a b : cov (k + n) a b -> cov n (skipn k a) (skipn k b).
Proof. intros [Ha Hb]. split; rewrite skipn_length; lia. Qed.
Lemma cov_of_len2 n m a b : len2 n a b -> (m <= n)%nat -> cov m a b.
Proof. intros [Ha Hb] H. split; lia. Qed.
Lemma len2_app {A} n m (a b x y : list A) : len2 n a b -> len2 m x y -> len2 (n + m) (a ++ x) (b ++ y).
Proof. intros [Ha Hb] [Hx Hy]. split; rewrite app_length; lia. Qed.
Lemma len2_repeat {A} (v : A) n : len2 n (repeat v n) (repeat v n).
Proof. split; apply repeat_length. Qed.

(* ------------------------------------------------------------------ *)
(** The rounds. *)
Lemma upd_len {A} (l : list A) i v n : length l = n -> (i < n)%nat -> length (upd l i v) = n.
Proof. intros <- H. unfold upd. rewrite app_length, firstn_length. cbn [length]. rewrite skipn_length. lia. Qed.
Definition shape (w : list (option Z)) : list bool := map (fun o => match o with Some _ => true | None => false end) w.
Lemma shape_upd w i v : shape (upd w i (Some v)) = upd (shape w) i true.
Proof. unfold shape, upd. rewrite map_app, firstn_map. cbn [map]. rewrite skipn_map. reflexivity. Qed.
Lemma getw_sim w1 w2 i : shape w1 = shape w2 -> rsim (fun _ _ => True) (getw w1 i) (getw w2 i).
Proof.
  intros H. unfold getw. apply (f_equal (fun l => nth_error l i)) in H. unfold shape in H. rewrite !nth_error_map in H.
  destruct (nth_error w1 i) as [[z1|]|], (nth_error w2 i) as [[z2|]|]; cbn in *; try discriminate; exact I.
Qed.
Lemma eval_term_sim o w1 w2 t : shape w1 = shape w2 -> rsim (fun _ _ => True) (eval_term o w1 t) (eval_term o w2 t).
Proof.
  intros H. destruct t; cbn [eval_term]; try exact I; try (apply getw_sim; exact H);
    (eapply rsim_bind; [apply getw_sim; exact H|intros; exact I]).
Qed.
Lemma eval_terms_sim o w1 w2 ts : shape w1 = shape w2 -> rsim (fun _ _ => True) (eval_terms o w1 ts) (eval_terms o w2 ts).
Proof.
  intros H. induction ts as [|t ts IH]; [exact I|]. cbn [eval_terms].
  eapply rsim_bind; [apply eval_term_sim; exact H|]. intros a b _. eapply rsim_bind; [exact IH|]. intros; exact I.
Qed.
Definition wrel (x y : Z * list (option Z)) : Prop := shape (snd x) = shape (snd y).
Definition load_ok (o : ops) (sz n : nat) : Prop := forall a b off, cov n a b -> (off + sz <= n)%nat ->
  rsim (fun _ _ => True) (o_load o a off) (o_load o b off).
Lemma read_cov (f : list Z -> Z) sz n a b off : cov n a b -> (off + sz <= n)%nat ->
  rsim (fun _ _ : Z => True) (bs <- slice (at_off a off) 0 sz ;; Ok (f bs)) (bs <- slice (at_off b off) 0 sz ;; Ok (f bs)).
Proof.
  intros H L. eapply rsim_bind.
  - apply slice_cov. unfold at_off. apply cov_skipn. destruct H. split; lia.
  - intros; exact I.
Qed.
Lemma load32 n : load_ok ops32 4 n.
Proof. intros a b off H L. apply (read_cov (fun bs => htobe32 (host_val bs)) 4 n a b off H L). Qed.
Lemma load64 n : load_ok ops64 8 n.
Proof. intros a b off H L. apply (read_cov (fun bs => htobe64 (host_val bs)) 8 n a b off H L). Qed.

Definition wexp_fits (sz n : nat) (e : wexp) : bool := match e with WLoad _ off => (off + sz <=? n)%nat | _ => true end.
Lemma eval_wexp_sim o sz n c1 c2 w1 w2 e : load_ok o sz n -> cov n c1 c2 -> wexp_fits sz n e = true -> shape w1 = shape w2 ->
  rsim wrel (eval_wexp o c1 w1 e) (eval_wexp o c2 w2 e).
Proof.
  intros L Hc He H. destruct e; cbn [eval_wexp wexp_fits] in *.
  - exact H.
  - apply Nat.leb_le in He. eapply rsim_bind; [apply L; assumption|]. intros a b _. cbn. unfold wrel. cbn. rewrite !shape_upd, H. reflexivity.
  - eapply rsim_bind; [apply getw_sim; exact H|]. intros a b _. eapply rsim_bind; [apply eval_terms_sim; exact H|].
    intros a' b' _. cbn. unfold wrel. cbn. rewrite !shape_upd, H. reflexivity.
  - eapply rsim_bind; [apply eval_terms_sim; exact H|].
    intros a' b' _. cbn. unfold wrel. cbn. rewrite !shape_upd, H. reflexivity.
  - eapply rsim_bind; [apply eval_terms_sim; exact H|]. intros a' b' _. exact H.
Qed.
Definition strel (n : nat) (x y : list Z * list (option Z)) : Prop :=
  len2 n (fst x) (fst y) /\ shape (snd x) = shape (snd y).
Definition line_fits (r sz n : nat) (l : line) : bool :=
  let '(R regs _ e) := l in forallb (fun i => (i <? r)%nat) regs && wexp_fits sz n e.
Lemma exec_line_sim o r sz n c1 c2 st1 st2 l : load_ok o sz n -> cov n c1 c2 -> line_fits r sz n l = true ->
  strel r st1 st2 -> rsim (strel r) (exec_line o c1 st1 l) (exec_line o c2 st2 l).
Proof.
  intros L Hc Hl [[Hr1 Hr2] Hw]. destruct st1 as [rs1 w1], st2 as [rs2 w2], l as [regs k e]. cbn [fst snd] in Hr1, Hr2, Hw.
  cbn [line_fits] in Hl. apply andb_true_iff in Hl. destruct Hl as [Hreg He]. cbn [exec_line].
  eapply rsim_bind; [apply (eval_wexp_sim o sz n); eassumption|]. intros [v1 w1'] [v2 w2'] Hw'. unfold wrel in Hw'. cbn in Hw'.
  destruct regs as [|a [|b [|c [|d [|e' [|f [|g [|h [|? ?]]]]]]]]]; try exact I.
  cbn [forallb] in Hreg. rewrite !andb_true_iff, !Nat.ltb_lt in Hreg.
  cbv zeta. cbn [rsim]. split; [|exact Hw']. cbn [fst]. split; (apply upd_len; [apply upd_len|]; try assumption; lia).
Qed.
Lemma exec_lines_sim o r sz n p c1 c2 ls : load_ok o sz n -> cov n c1 c2 -> forallb (line_fits r sz n) ls = true ->
  forall st1 st2, strel r st1 st2 ->
  sim (strel r) (exec_lines_l o sz p c1 st1 ls) (exec_lines_l o sz p c2 st2 ls).
Proof.
  intros L Hc. induction ls as [|l ls IH]; intros Hf st1 st2 Hs; cbn [exec_lines_l].
  - apply sim_pure. exact Hs.
  - cbn [forallb] in Hf. apply andb_true_iff in Hf. destruct Hf as [Hl Hf].
    eapply sim_bind; [|intros a b Hab; exact (IH Hf a b Hab)].
    unfold exec_line_l. pose proof (exec_line_sim o r sz n c1 c2 st1 st2 l L Hc Hl Hs) as X. destruct l as [regs k e].
    apply sim_step. apply sim_pure. exact X.
Qed.
Lemma add_regs_len wrap n a b x y : len2 n a b -> len2 n x y -> len2 n (add_regs wrap a x) (add_regs wrap b y).
Proof. intros [Ha Hb] [Hx Hy]. unfold add_regs. split; rewrite map_length, combine_length; lia. Qed.

Lemma sha256_transform_sim d p s1 s2 c1 c2 : len2 8 s1 s2 -> cov 64 c1 c2 ->
  sim (len2 8) (sha256_transform_l d p s1 c1) (sha256_transform_l d p s2 c2).
Proof.
  intros Hs Hc. unfold sha256_transform_l. apply sim_step.
  eapply sim_bind; [apply (exec_lines_sim ops32 8 4 64); [apply load32|exact Hc|reflexivity|split; [exact Hs|reflexivity]]|].
  intros [r1 w1] [r2 w2] [Hr _]. apply sim_step. apply sim_pure. apply add_regs_len; assumption.
Qed.
Lemma sha512_transform_sim d p s1 s2 c1 c2 : len2 8 s1 s2 -> cov 128 c1 c2 ->
  sim (len2 8) (sha512_transform_l d p s1 c1) (sha512_transform_l d p s2 c2).
Proof.
  intros Hs Hc. unfold sha512_transform_l. apply sim_step.
  eapply sim_bind; [apply (exec_lines_sim ops64 8 8 128); [apply load64|exact Hc|reflexivity|split; [exact Hs|reflexivity]]|].
  intros [r1 w1] [r2 w2] [Hr _]. apply sim_step. apply sim_pure. apply add_regs_len; assumption.
Qed.
Lemma out32_len n a b : len2 n a b -> len2 (n * 4) (out32 a) (out32 b).
Proof.
  assert (H : forall l, length (out32 l) = (length l * 4)%nat).
  { induction l as [|x l IH]; [reflexivity|]. unfold out32 in *. cbn [map concat]. rewrite app_length, IH. reflexivity. }
  intros [Ha Hb]. split; rewrite H; lia.
Qed.
Lemma out64_len n a b : len2 n a b -> len2 (n * 8) (out64 a) (out64 b).
Proof.
  assert (H : forall l, length (out64 l) = (length l * 8)%nat).
  { induction l as [|x l IH]; [reflexivity|]. unfold out64 in *. cbn [map concat]. rewrite app_length, IH. reflexivity. }
  intros [Ha Hb]. split; rewrite H; lia.
Qed.
Lemma out32le_len n a b : len2 n a b -> len2 (n * 4) (out32le a) (out32le b).
Proof.
  assert (H : forall l, length (out32le l) = (length l * 4)%nat).
  { induction l as [|x l IH]; [reflexivity|]. unfold out32le in *. cbn [map concat]. rewrite app_length, IH. reflexivity. }
  intros [Ha Hb]. split; rewrite H; lia.
Qed.
Lemma shape_app a b : shape (a ++ b) = shape a ++ shape b.
Proof. apply map_app. Qed.
Lemma shape_some n a b : len2 n a b -> shape (map Some a) = shape (map Some b).
Proof.
  assert (H : forall l, shape (map Some l) = repeat true (length l)).
  { induction l as [|x l IH]; [reflexivity|]. unfold shape in *. cbn. rewrite IH. reflexivity. }
  intros [Ha Hb]. rewrite !H, Ha, Hb. reflexivity.
Qed.
Lemma hash256_d64_transform_sim out p c1 c2 : cov 64 c1 c2 ->
  sim (len2 32) (hash256_d64_transform_l out p c1) (hash256_d64_transform_l out p c2).
Proof.
  intros Hc. unfold hash256_d64_transform_l.
  eapply sim_bind; [apply (exec_lines_sim ops32 8 4 64); [apply load32|exact Hc|reflexivity|split; [split; reflexivity|reflexivity]]|].
  intros [r1 w1] [r2 w2] [Hr Hw]. cbn [fst snd] in Hr, Hw. cbv zeta.
  assert (Ht : len2 8 (add_regs u32 IV256 r1) (add_regs u32 IV256 r2)) by (apply add_regs_len; [split; reflexivity|exact Hr]).
  eapply sim_bind; [apply (exec_lines_sim ops32 8 4 64); [apply load32|exact Hc|reflexivity|split; [exact Ht|exact Hw]]|].
  intros [r1' w1'] [r2' w2'] [Hr' Hw']. cbn [fst snd] in Hr', Hw'.
  eapply sim_bind; [apply (exec_lines_sim ops32 8 4 64); [apply load32|exact Hc|reflexivity|split; [split; reflexivity|]]|].
  - cbn [snd]. rewrite !shape_app. f_equal; [apply (shape_some 8); apply add_regs_len; assumption|].
    apply (f_equal (skipn 8)) in Hw'. unfold shape in *. rewrite !skipn_map in Hw'. exact Hw'.
  - intros [r1'' w1''] [r2'' w2''] [Hr'' _]. cbn [fst] in Hr''. apply sim_step. apply sim_pure. cbn [rsim].
    apply (out32_len 8). apply add_regs_len; [split; reflexivity|exact Hr''].
Qed.

(** SHA-1 *)
Lemma xor_vars_sim w1 w2 vs : shape w1 = shape w2 -> rsim (fun _ _ => True) (xor_vars w1 vs) (xor_vars w2 vs).
Proof.
  intros H. induction vs as [|v vs IH]; [exact I|]. cbn [xor_vars].
  eapply rsim_bind; [apply getw_sim; exact H|]. intros a b _. eapply rsim_bind; [exact IH|]. intros; exact I.
Qed.
Definition line1_fits (r n : nat) (l : line1) : bool :=
  let '(R1 regs _ _ e) := l in forallb (fun i => (i <? r)%nat) regs &&
    match e with WLoad1 _ off => (off + 4 <=? n)%nat | _ => true end.
Lemma exec_line1_sim r n c1 c2 st1 st2 l : cov n c1 c2 -> line1_fits r n l = true ->
  strel r st1 st2 -> rsim (strel r) (exec_line1 c1 st1 l) (exec_line1 c2 st2 l).
Proof.
  intros Hc Hl [[Hr1 Hr2] Hw]. destruct st1 as [rs1 w1], st2 as [rs2 w2], l as [regs f k e]. cbn [fst snd] in Hr1, Hr2, Hw.
  cbn [line1_fits] in Hl. apply andb_true_iff in Hl. destruct Hl as [Hreg He]. cbn [exec_line1].
  apply (rsim_bind wrel).
  - destruct e; cbn [eval_wexp1].
    + apply Nat.leb_le in He. apply (rsim_bind (fun _ _ => True)).
      * apply (read_cov (fun bs => htobe32 (host_val bs)) 4 n c1 c2 off Hc He).
      * intros a b _. cbn. unfold wrel. cbn. rewrite !shape_upd, Hw. reflexivity.
    + eapply rsim_bind; [apply xor_vars_sim; exact Hw|]. intros a b _. cbn. unfold wrel. cbn. rewrite !shape_upd, Hw. reflexivity.
    + eapply rsim_bind; [apply xor_vars_sim; exact Hw|]. intros a b _. exact Hw.
  - intros [v1 w1'] [v2 w2'] Hw'. unfold wrel in Hw'. cbn in Hw'.
    destruct regs as [|a [|b [|c [|d [|e' [|? ?]]]]]]; try exact I.
    cbn [forallb] in Hreg. rewrite !andb_true_iff, !Nat.ltb_lt in Hreg.
    cbv zeta. cbn [rsim]. split; [|exact Hw']. cbn [fst]. split; (apply upd_len; [apply upd_len|]; try assumption; lia).
Qed.
Lemma exec_lines1_sim r n p c1 c2 ls : cov n c1 c2 -> forallb (line1_fits r n) ls = true ->
  forall st1 st2, strel r st1 st2 ->
  sim (strel r) (exec_lines1_l p c1 st1 ls) (exec_lines1_l p c2 st2 ls).
Proof.
  intros Hc. induction ls as [|l ls IH]; intros Hf st1 st2 Hs; cbn [exec_lines1_l].
  - apply sim_pure. exact Hs.
  - cbn [forallb] in Hf. apply andb_true_iff in Hf. destruct Hf as [Hl Hf].
    eapply sim_bind; [|intros a b Hab; exact (IH Hf a b Hab)].
    unfold exec_line1_l. pose proof (exec_line1_sim r n c1 c2 st1 st2 l Hc Hl Hs) as X. destruct l as [regs f k e].
    apply sim_step. apply sim_pure. exact X.
Qed.
Lemma sha1_transform_sim d p s1 s2 c1 c2 : len2 5 s1 s2 -> cov 64 c1 c2 ->
  sim (len2 5) (sha1_transform_l d p s1 c1) (sha1_transform_l d p s2 c2).
Proof.
  intros Hs Hc. unfold sha1_transform_l. apply sim_step.
  eapply sim_bind; [apply (exec_lines1_sim 5 64); [exact Hc|reflexivity|split; [exact Hs|reflexivity]]|].
  intros [r1 w1] [r2 w2] [Hr _]. apply sim_step. apply sim_pure. apply add_regs_len; assumption.
Qed.

(** RIPEMD-160 *)
Lemma load_X_sim p c1 c2 is : cov 64 c1 c2 -> forallb (fun i => (i * 4 + 4 <=? 64)%nat) is = true ->
  sim (len2 (length is)) (load_X_l p c1 is) (load_X_l p c2 is).
Proof.
  intros Hc. induction is as [|i is IH]; intros Hf; cbn [load_X_l].
  - apply sim_pure. split; reflexivity.
  - cbn [forallb] in Hf. apply andb_true_iff in Hf. destruct Hf as [Hi Hf]. apply Nat.leb_le in Hi.
    apply sim_step. apply (sim_bind (fun _ _ => True)).
    + apply sim_pure. apply (read_cov (fun bs => htole32 (host_val bs)) 4 64 c1 c2 _ Hc Hi).
    + intros x y _. eapply sim_bind; [exact (IH Hf)|]. intros a b [Ha Hb]. apply sim_pure. split; cbn [length]; lia.
Qed.
Definition rline_fits (r : nat) (l : rline) : bool := let '(RL _ regs _ _) := l in forallb (fun i => (i <? r)%nat) regs.
Lemma exec_rlines_sim r X1 X2 ls : forallb (rline_fits r) ls = true -> forall rs1 rs2, len2 r rs1 rs2 ->
  rsim (len2 r) (exec_rlines X1 rs1 ls) (exec_rlines X2 rs2 ls).
Proof.
  induction ls as [|l ls IH]; intros Hf rs1 rs2 Hr; cbn [exec_rlines]; [exact Hr|].
  cbn [forallb] in Hf. apply andb_true_iff in Hf. destruct Hf as [Hl Hf].
  eapply rsim_bind; [|intros a b Hab; exact (IH Hf a b Hab)].
  destruct l as [m regs x s]. cbn [rline_fits] in Hl. cbn [exec_rline].
  destruct regs as [|a [|b [|c [|d [|e' [|? ?]]]]]]; try exact I.
  cbn [forallb] in Hl. rewrite !andb_true_iff, !Nat.ltb_lt in Hl. destruct Hr as [Hr1 Hr2].
  cbv zeta. cbn [rsim]. split; (apply upd_len; [apply upd_len; [apply upd_len|]|]; try assumption; lia).
Qed.
Lemma list5 (l : list Z) : length l = 5%nat -> exists a b c d e, l = [a; b; c; d; e].
Proof. intros H. destruct l as [|a [|b [|c [|d [|e [|? ?]]]]]]; try discriminate. eauto 10. Qed.
Lemma list10 (l : list Z) : length l = 10%nat -> exists a b c d e f g h i j, l = [a; b; c; d; e; f; g; h; i; j].
Proof. intros H. destruct l as [|a [|b [|c [|d [|e [|f [|g [|h [|i [|j [|? ?]]]]]]]]]]]; try discriminate. repeat eexists. Qed.
Lemma ripemd160_transform_sim d p s1 s2 c1 c2 : len2 5 s1 s2 -> cov 64 c1 c2 ->
  sim (len2 5) (ripemd160_transform_l d p s1 c1) (ripemd160_transform_l d p s2 c2).
Proof.
  intros Hs Hc. unfold ripemd160_transform_l. apply sim_step.
  eapply sim_bind; [apply load_X_sim; [exact Hc|reflexivity]|]. intros X1 X2 _.
  eapply sim_bind.
  - apply sim_pure. apply (exec_rlines_sim 10); [reflexivity|]. apply (len2_app 5 5); assumption.
  - intros r1 r2 [H1 H2]. apply sim_step. apply sim_pure. destruct Hs as [Hs1 Hs2].
    destruct (list5 _ Hs1) as (? & ? & ? & ? & ? & ->). destruct (list5 _ Hs2) as (? & ? & ? & ? & ? & ->).
    destruct (list10 _ H1) as (? & ? & ? & ? & ? & ? & ? & ? & ? & ? & ->).
    destruct (list10 _ H2) as (? & ? & ? & ? & ? & ? & ? & ? & ? & ? & ->). cbn. split; reflexivity.
Qed.

(* ------------------------------------------------------------------ *)
(** Padding and the hash functions. *)
Section Pad.
Variables (blk thr dn : nat) (tl : ptr -> list Z -> list Z -> lk (list Z)).
Hypothesis Hblk : (8 <= blk)%nat.
Hypothesis Htl : forall p s1 s2 c1 c2, len2 dn s1 s2 -> cov blk c1 c2 -> sim (len2 dn) (tl p s1 c1) (tl p s2 c2).

Definition looprel (x y : list Z * list Z * nat) : Prop :=
  len2 dn (fst (fst x)) (fst (fst y)) /\ snd x = snd y /\ (snd x < blk)%nat /\ cov (snd x) (snd (fst x)) (snd (fst y)).
Lemma block_loop_sim fuel : forall p d1 d2 m1 m2 n, len2 dn d1 d2 -> cov n m1 m2 ->
  sim looprel (block_loop_l fuel blk tl p d1 m1 n) (block_loop_l fuel blk tl p d2 m2 n).
Proof.
  induction fuel as [|f IH]; intros p d1 d2 m1 m2 n Hd Hm; cbn [block_loop_l]; apply sim_step;
    destruct (Nat.leb_spec blk n) as [L|L]; try (apply sim_pure; cbn [rsim]; repeat split; cbn [fst snd]; try apply Hd; try apply Hm; exact L).
  - eapply sim_bind; [apply sim_pure; apply slice_cov; destruct Hm; split; lia|]. intros _ _ _.
    eapply sim_bind; [apply Htl; [exact Hd|destruct Hm; split; lia]|]. intros a b Hab.
    apply IH; [exact Hab|]. apply cov_skipn. destruct Hm; split; lia.
Qed.
Lemma pad_sim p ce d1 d2 m1 m2 n : len2 dn d1 d2 -> cov n m1 m2 ->
  sim (len2 dn) (pad_l blk thr tl p ce d1 m1 n) (pad_l blk thr tl p ce d2 m2 n).
Proof.
  intros Hd Hm. unfold pad_l. eapply sim_bind; [apply block_loop_sim; eassumption|].
  intros [[dg1 b1] r] [[dg2 b2] r2] (Hdg & E & Hr & Hb). cbn [fst snd] in *. subst r2.
  apply sim_step. cbv zeta. apply sim_step.
  eapply sim_bind; [apply sim_pure; apply slice_cov; exact Hb|]. intros t1 t2 Ht.
  eapply sim_bind; [apply sim_pure; apply (store_len _ _ blk 0 _ _ r); [apply len2_repeat|exact Ht|lia]|]. intros l1 l2 Hl.
  apply sim_step. eapply sim_bind; [apply sim_pure; apply (store_len _ _ blk r _ _ 1); [exact Hl|split; reflexivity|lia]|].
  intros k1 k2 Hk. apply sim_step.
  apply (sim_bind (fun x y => len2 dn (fst x) (fst y) /\ len2 blk (snd x) (snd y))).
  - destruct (thr <? r)%nat.
    + eapply sim_bind; [apply Htl; [exact Hdg|apply (cov_of_len2 blk); [exact Hk|lia]]|]. intros a b Hab.
      apply sim_step. apply sim_pure. split; [exact Hab|apply len2_repeat].
    + apply sim_pure. split; [exact Hdg|exact Hk].
  - intros [e1 j1] [e2 j2] [He Hj]. cbn [fst snd] in *. apply sim_step.
    eapply sim_bind; [apply sim_pure; apply (store_len _ _ blk (blk - 8) _ _ 8); [exact Hj|split; reflexivity|lia]|].
    intros i1 i2 Hi. apply Htl; [exact He|apply (cov_of_len2 blk); [exact Hi|lia]].
Qed.
End Pad.

Lemma sha256_final_sim d p d1 d2 m1 m2 n a : len2 8 d1 d2 -> cov n m1 m2 ->
  sim (len2 8) (sha256_final_l d p d1 m1 n a) (sha256_final_l d p d2 m2 n a).
Proof.
  intros Hd Hm. unfold sha256_final_l. cbv zeta.
  eapply sim_bind; [apply (pad_sim 64 55 8); [lia|intros; apply sha256_transform_sim; assumption|exact Hd|exact Hm]|].
  intros x y H. apply sim_step. apply sim_pure. exact H.
Qed.
Lemma sha512_final_sim d p d1 d2 m1 m2 n a : len2 8 d1 d2 -> cov n m1 m2 ->
  sim (len2 8) (sha512_final_l d p d1 m1 n a) (sha512_final_l d p d2 m2 n a).
Proof.
  intros Hd Hm. unfold sha512_final_l. cbv zeta.
  eapply sim_bind; [apply (pad_sim 128 111 8); [lia|intros; apply sha512_transform_sim; assumption|exact Hd|exact Hm]|].
  intros x y H. apply sim_step. apply sim_pure. exact H.
Qed.
Lemma sha2_256_sim p out m1 m2 n : cov n m1 m2 -> sim (len2 32) (sha2_256_l p out m1 n) (sha2_256_l p out m2 n).
Proof.
  intros Hm. unfold sha2_256_l. apply sim_step. eapply sim_bind; [apply sha256_final_sim; [split; reflexivity|exact Hm]|].
  intros x y H. apply sim_step. apply sim_pure. apply (out32_len 8). exact H.
Qed.
Lemma sha2_512_sim p out m1 m2 n : cov n m1 m2 -> sim (len2 64) (sha2_512_l p out m1 n) (sha2_512_l p out m2 n).
Proof.
  intros Hm. unfold sha2_512_l. apply sim_step. eapply sim_bind; [apply sha512_final_sim; [split; reflexivity|exact Hm]|].
  intros x y H. apply sim_step. apply sim_pure. apply (out64_len 8). exact H.
Qed.
Lemma sha1_sim p out m1 m2 n : cov n m1 m2 -> sim (len2 20) (sha1_l p out m1 n) (sha1_l p out m2 n).
Proof.
  intros Hm. unfold sha1_l. apply sim_step. cbv zeta.
  eapply sim_bind; [apply (pad_sim 64 55 5); [lia|intros; apply sha1_transform_sim; assumption|split; reflexivity|exact Hm]|].
  intros x y H. apply sim_step. apply sim_pure. apply (out32_len 5). exact H.
Qed.
Lemma ripemd160_sim p out m1 m2 n : cov n m1 m2 -> sim (len2 20) (ripemd160_l p out m1 n) (ripemd160_l p out m2 n).
Proof.
  intros Hm. unfold ripemd160_l. apply sim_step. cbv zeta.
  eapply sim_bind; [apply (pad_sim 64 55 5); [lia|intros; apply ripemd160_transform_sim; assumption|split; reflexivity|exact Hm]|].
  intros x y H. apply sim_step. apply sim_pure. apply (out32le_len 5). exact H.
Qed.
Lemma xor_words_len c n a b : len2 (8 * n) a b -> len2 (8 * n) (xor_words c a) (xor_words c b).
Proof.
  assert (H : forall l, length l = (8 * n)%nat -> length (xor_words c l) = (8 * n)%nat).
  { intros l E. unfold xor_words. replace (length l / 8)%nat with n by (rewrite E, Nat.mul_comm, Nat.div_mul; lia).
    clear E. revert l. induction n as [|k IH]; intros l; [reflexivity|]. rewrite app_length.
    rewrite IH. cbn [host_bytes length]. lia. }
  intros [Ha Hb]. split; apply H; assumption.
Qed.
Lemma hmac_sha256_sim pk p out k1 k2 kn m1 m2 n : cov kn k1 k2 -> cov n m1 m2 ->
  sim (len2 32) (hmac_sha256_l pk p out k1 kn m1 n) (hmac_sha256_l pk p out k2 kn m2 n).
Proof.
  intros Hk Hm. unfold hmac_sha256_l. apply sim_step. apply (sim_bind (len2 64)).
  - destruct (Nat.leb_spec kn 64) as [L|L].
    + apply sim_step. eapply sim_bind; [apply sim_pure; apply slice_cov; exact Hk|]. intros a b Hab. apply sim_pure.
      cbn [rsim]. replace 64%nat with (kn + (64 - kn))%nat at 1 by lia. apply len2_app; [exact Hab|apply len2_repeat].
    + eapply sim_bind; [apply sha2_256_sim; exact Hk|]. intros a b Hab. apply sim_step. apply sim_pure.
      apply (len2_app 32 32); [exact Hab|apply len2_repeat].
  - intros b1 b2 Hb. apply sim_step. cbv zeta.
    eapply sim_bind; [apply sha256_transform_sim; [split; reflexivity|apply (cov_of_len2 64); [apply (xor_words_len _ 8); exact Hb|lia]]|].
    intros i1 i2 Hi. eapply sim_bind; [apply sha256_final_sim; [exact Hi|exact Hm]|]. intros j1 j2 Hj. apply sim_step.
    eapply sim_bind; [apply sha256_transform_sim; [split; reflexivity|apply (cov_of_len2 64); [apply (xor_words_len _ 8); exact Hb|lia]]|].
    intros o1 o2 Ho.
    eapply sim_bind; [apply sha256_final_sim; [exact Ho|apply (cov_of_len2 32); [apply (out32_len 8); exact Hj|lia]]|].
    intros q1 q2 Hq. apply sim_step. apply sim_pure. apply (out32_len 8). exact Hq.
Qed.
Lemma hmac_sha512_sim pk p out k1 k2 kn m1 m2 n : cov kn k1 k2 -> cov n m1 m2 ->
  sim (len2 64) (hmac_sha512_l pk p out k1 kn m1 n) (hmac_sha512_l pk p out k2 kn m2 n).
Proof.
  intros Hk Hm. unfold hmac_sha512_l. apply sim_step. apply (sim_bind (len2 128)).
  - destruct (Nat.leb_spec kn 128) as [L|L].
    + apply sim_step. eapply sim_bind; [apply sim_pure; apply slice_cov; exact Hk|]. intros a b Hab. apply sim_pure.
      cbn [rsim]. replace 128%nat with (kn + (128 - kn))%nat at 1 by lia. apply len2_app; [exact Hab|apply len2_repeat].
    + eapply sim_bind; [apply sha2_512_sim; exact Hk|]. intros a b Hab. apply sim_step. apply sim_pure.
      apply (len2_app 64 64); [exact Hab|apply len2_repeat].
  - intros b1 b2 Hb. apply sim_step. cbv zeta.
    eapply sim_bind; [apply sha512_transform_sim; [split; reflexivity|apply (cov_of_len2 128); [apply (xor_words_len _ 16); exact Hb|lia]]|].
    intros i1 i2 Hi. eapply sim_bind; [apply sha512_final_sim; [exact Hi|exact Hm]|]. intros j1 j2 Hj. apply sim_step.
    eapply sim_bind; [apply sha512_transform_sim; [split; reflexivity|apply (cov_of_len2 128); [apply (xor_words_len _ 16); exact Hb|lia]]|].
    intros o1 o2 Ho.
    eapply sim_bind; [apply sha512_final_sim; [exact Ho|apply (cov_of_len2 64); [apply (out64_len 8); exact Hj|lia]]|].
    intros q1 q2 Hq. apply sim_step. apply sim_pure. apply (out64_len 8). exact Hq.
Qed.
Lemma btc_hash160_sim p out m1 m2 n : cov n m1 m2 -> sim (len2 20) (btc_hash160_l p out m1 n) (btc_hash160_l p out m2 n).
Proof.
  intros Hm. eapply sim_bind; [apply sha2_256_sim; exact Hm|]. intros a b Hab. apply ripemd160_sim.
  apply (cov_of_len2 32); [exact Hab|lia].
Qed.
Lemma btc_hash256_sim p out m1 m2 n : cov n m1 m2 -> sim (len2 32) (btc_hash256_l p out m1 n) (btc_hash256_l p out m2 n).
Proof.
  intros Hm. eapply sim_bind; [apply sha2_256_sim; exact Hm|]. intros a b Hab. apply sha2_256_sim.
  apply (cov_of_len2 32); [exact Hab|lia].
Qed.
Lemma btc_hash256_d64_sim o blocks len : forall m1 m2 out inp, len2 len m1 m2 ->
  (inp + 64 * blocks <= len)%nat -> (out + 32 * blocks <= len)%nat ->
  sim (len2 len) (btc_hash256_d64_l o m1 out inp blocks) (btc_hash256_d64_l o m2 out inp blocks).
Proof.
  induction blocks as [|b IH]; intros m1 m2 out inp Hm Hi Ho; cbn [btc_hash256_d64_l]; apply sim_step.
  - apply sim_pure. exact Hm.
  - eapply sim_bind; [apply hash256_d64_transform_sim; apply cov_skipn; apply (cov_of_len2 len); [exact Hm|lia]|].
    intros d1 d2 Hd. eapply sim_bind; [apply sim_pure; apply (store_len _ _ len out _ _ 32); [exact Hm|exact Hd|lia]|].
    intros x y Hxy. apply IH; [exact Hxy|lia|lia].
Qed.
Lemma btc_bip32_hash_sim pc pd out c1 c2 i1 i2 h1 h2 d1 d2 : cov 32 c1 c2 -> cov 32 d1 d2 ->
  sim (len2 64) (btc_bip32_hash_l pc pd out c1 i1 h1 d1) (btc_bip32_hash_l pc pd out c2 i2 h2 d2).
Proof.
  intros Hc Hd. unfold btc_bip32_hash_l. cbv zeta. apply sim_step.
  eapply sim_bind; [apply sim_pure; apply (store_len _ _ 37 0 _ _ 1); [apply len2_repeat|split; reflexivity|lia]|].
  intros b1 b2 Hb. apply sim_step.
  eapply sim_bind; [apply sim_pure; apply slice_cov; exact Hd|]. intros e1 e2 He.
  eapply sim_bind; [apply sim_pure; apply (store_len _ _ 37 1 _ _ 32); [exact Hb|exact He|lia]|].
  intros f1 f2 Hf. apply sim_step.
  eapply sim_bind; [apply sim_pure; apply (store_len _ _ 4 0 _ _ 4); [|split; reflexivity|lia]|].
  { destruct Hf. split; rewrite skipn_length; lia. }
  intros t1 t2 Ht.
  eapply sim_bind; [apply hmac_sha512_sim; [exact Hc|]|].
  { apply (cov_of_len2 37); [|lia]. apply (len2_app 33 4); [|exact Ht]. destruct Hf. split; rewrite firstn_length; lia. }
  intros x y Hxy. apply sim_step. apply sim_pure. exact Hxy.
Qed.
