(** C129: Merkle trees built with fingera_btc_hash256_d64, and branches checked with fingera_btc_hash256. *)
From Verif Require Import Base S_Words S_Sha2 M_Endian M_Sha2 M_Hash L_Endian L_Md L_Sha2Top L_D64 L_Hash P_Hash S_Collide S_Merkle.

Lemma pair_ind {A} (P : list A -> Prop) : P [] -> (forall a, P [a]) -> (forall a b r, P r -> P (a :: b :: r)) -> forall l, P l.
Proof.
  intros H0 H1 H2' l. enough (P l /\ forall a, P (a :: l)) by tauto.
  induction l as [|x l [I1 I2]]; split; auto.
Qed.

Lemma pairs_length l : length (pairs l) = ((length l + 1) / 2)%nat.
Proof.
  induction l as [|a|a b r IH] using pair_ind; [reflexivity|reflexivity|].
  cbn [pairs length]. rewrite IH. replace (S (S (length r)) + 1)%nat with (length r + 1 + 1 * 2)%nat by lia.
  rewrite Nat.div_add by lia. lia.
Qed.
Lemma pairs_good l : Forall hash32 l -> Forall (fun m => bytes m /\ length m = 64%nat) (pairs l).
Proof.
  induction l as [|a|a b r IH] using pair_ind; intros G; [constructor| |].
  - inversion G as [|? ? [Ba La]]; subst. constructor; [|constructor]. split; [now apply bytes_app|]. rewrite app_length. lia.
  - inversion G as [|? ? [Ba La] G']; subst. inversion G' as [|? ? [Bb Lb] G'']; subst. cbn [pairs]. constructor; [|auto].
    split; [now apply bytes_app|]. rewrite app_length. lia.
Qed.
Lemma H2_hash32 m : hash32 (H2 m).
Proof. split; [apply SHA256_bytes|apply SHA256_length]. Qed.
Lemma up_good l : Forall hash32 (map H2 l).
Proof. apply Forall_forall. intros x Hx. apply in_map_iff in Hx. destruct Hx as (m & <- & _). apply H2_hash32. Qed.
Lemma concat_len (l : list (list Z)) n : Forall (fun m => bytes m /\ length m = n) l -> length (concat l) = (n * length l)%nat.
Proof. induction 1 as [|m l [_ L] _ IH]; [cbn; lia|]. cbn [concat length]. rewrite app_length, IH. lia. Qed.
Lemma concat_bytes (l : list (list Z)) n : Forall (fun m => bytes m /\ length m = n) l -> bytes (concat l).
Proof. induction 1 as [|m l [B _] _ IH]; [constructor|]. cbn [concat]. now apply bytes_app. Qed.
Lemma chunks_concat (l : list (list Z)) : Forall (fun m => bytes m /\ length m = 64%nat) l -> chunks 64 (concat l) = l.
Proof. induction 1 as [|m l [_ L] _ IH]; [reflexivity|]. cbn [concat]. rewrite chunks_cons by (assumption || lia). now rewrite IH. Qed.
Lemma pairs_even l : Nat.odd (length l) = false -> concat (pairs l) = concat l.
Proof.
  induction l as [|a|a b r IH] using pair_ind; intros E; [reflexivity|discriminate|].
  cbn [pairs concat]. rewrite IH by exact E. now rewrite <- app_assoc.
Qed.
Lemma pairs_odd l a : Nat.odd (length (l ++ [a])) = true -> concat (pairs (l ++ [a])) = concat (l ++ [a]) ++ a.
Proof.
  induction l as [|x|x y r IH] using pair_ind; intros E; [cbn; rewrite !app_nil_r; reflexivity|discriminate|].
  cbn [app pairs concat]. rewrite IH by exact E. now rewrite <- !app_assoc.
Qed.
Lemma pairs_dup l a : Nat.odd (length (l ++ [a])) = true -> pairs ((l ++ [a]) ++ [a]) = pairs (l ++ [a]).
Proof.
  induction l as [|x|x y r IH] using pair_ind; intros E; [reflexivity|discriminate|].
  cbn [app pairs]. f_equal. apply IH. exact E.
Qed.

Lemma half n : (2 <= n)%nat -> (1 <= (n + 1) / 2 < n)%nat /\ (n <= 2 * ((n + 1) / 2) <= n + 1)%nat.
Proof. intros. dlia. Qed.
Lemma half_even n : Nat.odd n = false -> (2 * ((n + 1) / 2) = n)%nat.
Proof.
  intros E. assert (Nat.even n = true) as E2 by (rewrite <- Nat.negb_odd, E; reflexivity).
  apply Nat.even_spec in E2. destruct E2 as (m & ->). replace (2 * m + 1)%nat with (1 + m * 2)%nat by lia. rewrite Nat.div_add by lia.
  change (1 / 2)%nat with 0%nat. lia.
Qed.
Lemma half_odd n : Nat.odd n = true -> (2 * ((n + 1) / 2) = n + 1)%nat.
Proof.
  intros E. apply Nat.odd_spec in E. destruct E as (m & ->). replace (2 * m + 1 + 1)%nat with ((m + 1) * 2)%nat by lia.
  rewrite Nat.div_mul by lia. lia.
Qed.

(** The tree over at least one hash has a root, and only one. *)
Lemma root_exists_n : forall n l, (1 <= length l <= n)%nat -> exists k r, merkle_root k l r.
Proof.
  induction n as [|n IH]; intros l L; [lia|].
  destruct (Nat.leb_spec (length l) 1).
  - destruct l as [|a [|b l]]; cbn in *; try lia. exists 0%nat, a. constructor.
  - pose proof (half (length l) ltac:(lia)) as [Hh _].
    destruct (IH (map H2 (pairs l))) as (k & r & R); [rewrite map_length, pairs_length; lia|].
    exists (S k), r. now constructor.
Qed.
Lemma root_unique k l r : merkle_root k l r -> forall k' r', merkle_root k' l r' -> k = k' /\ r = r'.
Proof.
  induction 1 as [a|k l r L R IH]; intros k' r' R'; inversion R'; subst; cbn in *; try lia; auto.
  edestruct IH; eauto.
Qed.
Lemma root_hash32 k l r : merkle_root k l r -> Forall hash32 l -> hash32 r.
Proof. induction 1; intros G; [now inversion G|]. apply IHmerkle_root, up_good. Qed.

Lemma last_split (l : list (list Z)) : (1 <= length l)%nat -> exists i a, l = i ++ [a].
Proof. intros L. destruct (exists_last (l := l)) as (i & a & ->); [intros ->; cbn in L; lia|]. eauto. Qed.

Definition spare (n : nat) : nat := if (Nat.odd n && (2 <=? n)%nat)%bool then 1%nat else 0%nat.

Lemma level_ok l mem : (2 <= length l)%nat -> Forall hash32 l -> bytes mem -> (32 * (length l + spare (length l)) <= length mem)%nat ->
  firstn (32 * length l) mem = concat l ->
  exists mem1, (if Nat.odd (length l) then (h <- slice mem (32 * (length l - 1)) 32 ;; store mem (32 * length l) h) else Ok mem) = Ok mem1 /\
    bytes mem1 /\ length mem1 = length mem /\ firstn (64 * ((length l + 1) / 2)) mem1 = concat (pairs l) /\
    skipn (32 * (length l + 1)) mem1 = skipn (32 * (length l + 1)) mem.
Proof.
  intros L2 G B L F. pose proof (concat_len l 32 G) as CL. unfold spare in L.
  destruct (Nat.odd (length l)) eqn:O.
  - pose proof (half_odd _ O) as HO. destruct (Nat.leb_spec 2 (length l)) as [_|]; [|lia]. cbn [andb] in L.
    destruct (last_split l ltac:(lia)) as (i & a & E).
    assert (Li : length l = (length i + 1)%nat) by (rewrite E, app_length; reflexivity).
    assert (Ga : hash32 a) by (rewrite E in G; apply Forall_app in G; destruct G as [_ Ga]; now inversion Ga).
    assert (Gi : Forall hash32 i) by (rewrite E in G; apply Forall_app in G; tauto). destruct Ga as [Ba La].
    pose proof (concat_len i 32 Gi) as CLi.
    assert (Em : mem = concat i ++ a ++ skipn (32 * length l) mem).
    { rewrite <- (firstn_skipn (32 * length l) mem) at 1. rewrite F.
      replace (concat l) with (concat i ++ a) by (rewrite E, concat_app; cbn [concat]; now rewrite app_nil_r). now rewrite <- app_assoc. }
    assert (Sl : slice mem (32 * (length l - 1)) 32 = Ok a).
    { unfold slice. destruct (Nat.leb_spec (32 * (length l - 1) + 32) (length mem)); [|lia]. f_equal. clear F. rewrite Em.
      replace (32 * (length l - 1))%nat with (length (concat i)) by lia. rewrite skipn_app_exact. rewrite <- La. now rewrite firstn_app_exact. }
    rewrite Sl. cbn [bind]. unfold store. rewrite La. destruct (Nat.leb_spec (32 * length l + 32) (length mem)); [|lia].
    eexists. split; [reflexivity|]. rewrite F. split; [|split; [|split]].
    + apply bytes_app. split; [exact (concat_bytes l 32 G)|]. apply bytes_app. split; [exact Ba|]. now apply bytes_skipn.
    + rewrite !app_length, skipn_length. lia.
    + replace (concat (pairs l)) with (concat l ++ a) by (rewrite E; symmetry; apply pairs_odd; rewrite <- E; exact O).
      replace (64 * ((length l + 1) / 2))%nat with (length (concat l ++ a)) by (rewrite app_length; lia).
      rewrite app_assoc. now rewrite firstn_app_exact.
    + rewrite app_assoc. rewrite skipn_app. rewrite skipn_all2 by (rewrite app_length; lia). rewrite app_length.
      replace (32 * (length l + 1) - (length (concat l) + length a))%nat with 0%nat by lia. cbn [skipn app]. f_equal. lia.
  - exists mem. pose proof (half_even _ O) as HE. repeat split; auto. rewrite pairs_even by exact O. rewrite <- F. f_equal. lia.
Qed.

Lemma run_ok : forall fuel l mem, (1 <= length l <= fuel)%nat -> Forall hash32 l -> bytes mem ->
  (32 * (length l + spare (length l)) <= length mem)%nat -> firstn (32 * length l) mem = concat l ->
  exists k r mem', merkle_root k l r /\ merkle_run fuel (length l) mem = Ok mem' /\ firstn 32 mem' = r /\
    length mem' = length mem /\ skipn (32 * (length l + 1)) mem' = skipn (32 * (length l + 1)) mem.
Proof.
  induction fuel as [|fuel IH]; intros l mem Ll G B L F; [lia|]. cbn [merkle_run].
  destruct (Nat.leb_spec (length l) 1) as [S1|S2].
  - destruct l as [|a [|b l]]; cbn [length] in *; try lia. exists 0%nat, a, mem. split; [constructor|]. split; [reflexivity|]. split; [|auto].
    cbn [concat] in F. rewrite app_nil_r in F. exact F.
  - destruct (level_ok l mem ltac:(lia) G B L F) as (mem1 & -> & B1 & L1 & F1 & K1). cbn [bind].
    pose proof (half (length l) ltac:(lia)) as [[H1 H1'] [H2l H2u]]. pose proof (pairs_length l) as PL. pose proof (pairs_good l G) as PG.
    set (m := ((length l + 1) / 2)%nat) in *. pose proof (concat_len _ _ PG) as CP.
    assert (Lm : (64 * m <= length mem1)%nat).
    { assert (T : length (firstn (64 * m) mem1) = (64 * m)%nat) by (rewrite F1, CP, PL; reflexivity). rewrite firstn_length in T. lia. }
    rewrite C79_hash256_d64 by (auto; lia). cbn [bind firstn skipn app]. rewrite F1, chunks_concat by exact PG.
    change (0 + 32 * m)%nat with (32 * m)%nat. set (u := map (fun block => SHA256 (SHA256 block)) (pairs l)).
    assert (Lu : length u = m) by (unfold u; rewrite map_length; exact PL).
    assert (Gu : Forall hash32 u) by exact (up_good (pairs l)). pose proof (concat_len u 32 Gu) as CU.
    destruct (IH u (concat u ++ skipn (32 * m) mem1)) as (k & r & mem' & R & Run & Fr & Lr & Sr); auto.
    + lia.
    + apply bytes_app. split; [exact (concat_bytes u 32 Gu)|now apply bytes_skipn].
    + rewrite app_length, skipn_length. unfold spare. destruct (Nat.odd (length u) && (2 <=? length u)%nat)%bool eqn:Eo; [|lia].
      apply andb_prop in Eo. destruct Eo as [Eo E2]. apply Nat.leb_le in E2. lia.
    + rewrite <- CU. now rewrite firstn_app_exact.
    + exists (S k), r, mem'. split; [constructor; [lia|exact R]|]. rewrite Lu in Run. split; [exact Run|]. split; [exact Fr|].
      rewrite app_length, skipn_length in Lr. split; [lia|].
      assert (A : (32 * (length l + 1) = 32 * (length u + 1) + 32 * (length l - m))%nat) by lia.
      transitivity (skipn (32 * (length l - m)) (skipn (32 * (length u + 1)) mem')); [rewrite L_Md.skipn_skipn; f_equal; exact A|].
      rewrite Sr, L_Md.skipn_skipn, <- A. rewrite skipn_app. rewrite skipn_all2 by lia. cbn [app]. rewrite L_Md.skipn_skipn.
      replace (32 * m + (32 * (length l + 1) - length (concat u)))%nat with (32 * (length l + 1))%nat by lia. exact K1.
Qed.

(** ** C129
    The root of any number of hashes, built in place: the first 32 bytes are the root of the tree (with an odd number of hashes, from three on,
    there must be room for one more), and what lies behind is left alone. *)
Theorem C129_root : forall leaves rest, (1 <= length leaves)%nat -> Forall hash32 leaves -> bytes rest ->
  (Nat.Odd (length leaves) -> (3 <= length leaves)%nat -> (32 <= length rest)%nat) ->
  exists levels root middle, merkle_root levels leaves root /\ hash32 root /\
    merkle_run (length leaves) (length leaves) (concat leaves ++ rest) = Ok (root ++ middle ++ skipn 32 rest) /\
    (length middle <= 32 * length leaves)%nat.
Proof.
  intros leaves rest L G B R. pose proof (concat_len leaves 32 G) as CL.
  destruct (run_ok (length leaves) leaves (concat leaves ++ rest)) as (k & r & mem' & Rt & Run & F & Lm & Sk); auto.
  - apply bytes_app. split; [exact (concat_bytes leaves 32 G)|exact B].
  - rewrite app_length, CL. unfold spare. destruct (Nat.odd (length leaves)) eqn:O; cbn [andb]; [|lia].
    destruct (Nat.leb_spec 2 (length leaves)); [|lia]. apply Nat.odd_spec in O.
    assert (3 <= length leaves)%nat by (destruct O as (z & Hz); lia). specialize (R O ltac:(assumption)). lia.
  - rewrite <- CL. now rewrite firstn_app_exact.
  - pose proof (root_hash32 _ _ _ Rt G) as Hr. exists k, r, (firstn (32 * length leaves) (skipn 32 mem')). split; [exact Rt|]. split; [exact Hr|].
    split; [|rewrite firstn_length; lia]. rewrite Run. f_equal. rewrite <- (firstn_skipn 32 mem') at 1. rewrite F. f_equal.
    rewrite <- (firstn_skipn (32 * length leaves) (skipn 32 mem')) at 1. f_equal. rewrite L_Md.skipn_skipn.
    replace (32 + 32 * length leaves)%nat with (32 * (length leaves + 1))%nat by lia. rewrite Sk.
    rewrite skipn_app, skipn_all2 by lia. cbn [app]. f_equal. lia.
Qed.
Print Assumptions C129_root.

(** The specification gives every list of hashes one root. *)
Theorem C129_one_root : forall leaves, (1 <= length leaves)%nat ->
  exists levels root, merkle_root levels leaves root /\ forall levels' root', merkle_root levels' leaves root' -> levels' = levels /\ root' = root.
Proof.
  intros leaves L. destruct (root_exists_n (length leaves) leaves ltac:(lia)) as (k & r & R). exists k, r. split; [exact R|].
  intros k' r' R'. destruct (root_unique _ _ _ R _ _ R'). auto.
Qed.
Print Assumptions C129_one_root.

(* ---- what a root says about the hashes under it ---- *)
Lemma H2_collide x y : H2 x = H2 y -> x = y \/ collide2 x y.
Proof.
  intros E. unfold collide2, collision. destruct (list_eq_dec Z.eq_dec x y) as [|N]; [auto|right].
  destruct (list_eq_dec Z.eq_dec (SHA256 x) (SHA256 y)) as [E1|N1]; [left; auto|right; split; [exact N1|exact E]].
Qed.
Lemma map_H2_collide p : forall q, length p = length q -> map H2 p = map H2 q -> p = q \/ exists x y, In x p /\ In y q /\ collide2 x y.
Proof.
  induction p as [|x p IH]; intros [|y q] L E; cbn [length map] in *; try lia; [auto|].
  assert (E1 : H2 x = H2 y) by congruence. assert (E2 : map H2 p = map H2 q) by congruence.
  destruct (H2_collide _ _ E1) as [<-|C]; [|right; exists x, y; cbn [In]; auto].
  destruct (IH q ltac:(lia) E2) as [<-|(a & b & Ia & Ib & C)]; [auto|right; exists a, b; cbn [In]; auto].
Qed.
Lemma app_same_len {A} (a b c d : list A) : length a = length c -> a ++ b = c ++ d -> a = c /\ b = d.
Proof.
  revert c. induction a as [|x a IH]; intros [|y c] L E; cbn [length app] in *; try lia; [auto|].
  injection E as -> E. destruct (IH c ltac:(lia) E) as [-> ->]. auto.
Qed.
Lemma pairs_inj l : forall l', Forall hash32 l -> Forall hash32 l' -> length l = length l' -> pairs l = pairs l' -> l = l'.
Proof.
  induction l as [|a|a b r IH] using pair_ind; intros l' G G' L E.
  - destruct l'; [reflexivity|discriminate].
  - destruct l' as [|a' [|b' r']]; try discriminate. cbn [pairs] in E. injection E as E.
    inversion G as [|? ? [_ La] _]; subst. inversion G' as [|? ? [_ La'] _]; subst. apply app_same_len in E; [|lia]. now destruct E as [-> _].
  - destruct l' as [|a' [|b' r']]; try discriminate. cbn [pairs] in E. injection E as E Er.
    inversion G as [|? ? [_ La] Gr]; subst. inversion G' as [|? ? [_ La'] Gr']; subst. apply app_same_len in E; [|lia]. destruct E as [-> ->].
    inversion Gr; subst. inversion Gr'; subst. f_equal. f_equal. apply IH; auto. cbn [length] in L. lia.
Qed.

(** Equal roots over equally many hashes: the same hashes in the same order, or two named messages that collide. *)
Theorem C129_binding : forall l1 l2 k1 k2 root, Forall hash32 l1 -> Forall hash32 l2 -> length l1 = length l2 ->
  merkle_root k1 l1 root -> merkle_root k2 l2 root ->
  l1 = l2 \/ exists x y, hashed_in l1 x /\ hashed_in l2 y /\ collide2 x y.
Proof.
  intros l1 l2 k1 k2 root G1 G2 L R1 R2. revert l2 k2 G2 L R2. induction R1 as [a|k l r Ll R IH]; intros l2 k2 G2 L R2.
  - inversion R2; subst; cbn [length] in *; [auto|lia].
  - inversion R2 as [a|k' l' r' Ll' R']; subst; cbn [length] in *; [lia|].
    destruct (IH (up_good _) (map H2 (pairs l2)) k') as [E|(x & y & Hx & Hy & C)]; auto using up_good.
    + rewrite !map_length, !pairs_length. now rewrite L.
    + apply map_H2_collide in E; [|rewrite !pairs_length; now rewrite L]. destruct E as [E|(x & y & Hx & Hy & C)].
      * left. apply pairs_inj; auto.
      * right. exists x, y. split; [now apply hashed_here|]. split; [now apply hashed_here|exact C].
    + right. exists x, y. split; [now apply hashed_up|]. split; [now apply hashed_up|exact C].
Qed.
Print Assumptions C129_binding.

(** The number matters: from three on, an odd number of hashes has the root of the list with the last one repeated (CVE-2012-2459). *)
Theorem C129_repeated_last : forall l a k root, Nat.Odd (length (l ++ [a])) -> (3 <= length (l ++ [a]))%nat ->
  (merkle_root k (l ++ [a]) root <-> merkle_root k (l ++ [a; a]) root).
Proof.
  intros l a k root O L. apply Nat.odd_spec in O. pose proof (pairs_dup l a O) as P. rewrite <- app_assoc in P. cbn [app] in P.
  split; intros R; inversion R as [b Eb|k' l' r' Ll' R']; subst.
  - exfalso. destruct l as [|? [|? ?]]; (discriminate || (cbn in L; lia)).
  - constructor; [rewrite !app_length in *; cbn [length] in *; lia|]. now rewrite P.
  - exfalso. destruct l as [|? [|? ?]]; discriminate.
  - constructor; [lia|]. now rewrite <- P.
Qed.
Print Assumptions C129_repeated_last.

(* ---- branches ---- *)
Lemma side_msg i a s : hash32 a -> hash32 s -> bytes (if Nat.even i then a ++ s else s ++ a) /\ length (if Nat.even i then a ++ s else s ++ a) = 64%nat.
Proof. intros [Ba La] [Bs Ls]. destruct (Nat.even i); (split; [now apply bytes_app|rewrite app_length; lia]). Qed.
Lemma hash64 m : bytes m -> length m = 64%nat -> btc_hash256 m 64 = Ok (H2 m).
Proof. intros B L. pose proof (C78_hash256 m []) as A. rewrite app_nil_r, L in A. apply A; [exact B|lia]. Qed.

(** Which message of a level a position goes into. *)
Lemma pairs_nth l : forall i m, Forall hash32 l -> (i < length l)%nat -> nth_error (pairs l) (i / 2) = Some m ->
  forall a s, hash32 a -> hash32 s -> m = (if Nat.even i then a ++ s else s ++ a) -> nth_error l i = Some a.
Proof.
  induction l as [|x|x y r IH] using pair_ind; intros i m G L E a s [Ba La] [Bs Ls] ->; cbn [length] in L; [lia| |].
  - assert (i = 0)%nat as -> by lia. cbn in E. injection E as E. inversion G as [|? ? [_ Lx] _]; subst.
    apply app_same_len in E; [|lia]. now destruct E as [-> _].
  - inversion G as [|? ? [_ Lx] G1]; subst. inversion G1 as [|? ? [_ Ly] G2]; subst. destruct i as [|[|i]].
    + cbn in E. injection E as E. apply app_same_len in E; [|lia]. now destruct E as [-> _].
    + cbn in E. injection E as E. apply app_same_len in E; [|lia]. now destruct E as [_ ->].
    + replace (S (S i) / 2)%nat with (S (i / 2)) in E by (replace (S (S i)) with (i + 1 * 2)%nat by lia; rewrite Nat.div_add by lia; lia).
      cbn [pairs nth_error] in E |- *. apply (IH i _ G2 ltac:(lia) E a s); try split; auto.
Qed.
Lemma pairs_neighbour l : forall i, Forall hash32 l -> (i < length l)%nat ->
  exists a s, nth_error l i = Some a /\ In s l /\ nth_error (pairs l) (i / 2) = Some (if Nat.even i then a ++ s else s ++ a).
Proof.
  induction l as [|x|x y r IH] using pair_ind; intros i G L; cbn [length] in L; [lia| |].
  - assert (i = 0)%nat as -> by lia. exists x, x. cbn. auto.
  - inversion G as [|? ? _ G1]; subst. inversion G1 as [|? ? _ G2]; subst. destruct i as [|[|i]].
    + exists x, y. cbn. auto.
    + exists y, x. cbn. auto.
    + destruct (IH i G2 ltac:(lia)) as (a & s & E & I & P). exists a, s. cbn [nth_error In]. split; [exact E|]. split; [auto|].
      replace (S (S i) / 2)%nat with (S (i / 2)) by (replace (S (S i)) with (i + 1 * 2)%nat by lia; rewrite Nat.div_add by lia; lia).
      exact P.
Qed.
Lemma half_lt i n : (i < n)%nat -> (i / 2 < (n + 1) / 2)%nat.
Proof. intros. dlia. Qed.

(** A branch of the height of the tree that leads to its root starts from the hash at that position, or two named messages collide. *)
Theorem C129_branch_sound : forall k leaves root i a path, merkle_root k leaves root -> Forall hash32 leaves -> (i < length leaves)%nat ->
  hash32 a -> Forall hash32 path -> length path = k -> branch_run i a path = Ok root ->
  nth_error leaves i = Some a \/ exists x y, In x (branch_hashed i a path) /\ hashed_in leaves y /\ collide2 x y.
Proof.
  intros k leaves root i a path R. revert i a path. induction R as [b|k l r Ll R IH]; intros i a path G Li Ga Gp Lp Run.
  - destruct path; [|discriminate]. cbn in Run, Li. injection Run as ->. assert (i = 0)%nat as -> by lia. auto.
  - destruct path as [|s path]; [discriminate|]. inversion Gp as [|? ? Gs Gp']; subst. cbn [branch_run branch_hashed] in *.
    destruct (side_msg i a s Ga Gs) as [Bm Lm]. set (m := if Nat.even i then a ++ s else s ++ a) in *.
    rewrite (hash64 m Bm Lm) in Run. cbn [bind] in Run.
    destruct (IH (i / 2)%nat (H2 m) path) as [E|(x & y & Hx & Hy & C)]; auto using up_good, H2_hash32.
    + rewrite map_length, pairs_length. now apply half_lt.
    + rewrite nth_error_map in E. destruct (nth_error (pairs l) (i / 2)) as [m'|] eqn:Em; [|discriminate]. cbn [option_map] in E.
      assert (E' : H2 m' = H2 m) by congruence. clear E. symmetry in E'. destruct (H2_collide _ _ E') as [Eq|C].
      * left. apply (pairs_nth l i m' G Li Em a s Ga Gs). now rewrite <- Eq.
      * right. exists m, m'. split; [now left|]. split; [|exact C]. apply hashed_here; [exact Ll|]. eapply nth_error_In; eauto.
    + right. exists x, y. split; [now right|]. split; [now apply hashed_up|exact C].
Qed.
Print Assumptions C129_branch_sound.

(** And every hash in the tree has such a branch. *)
Theorem C129_branch_complete : forall k leaves root i, merkle_root k leaves root -> Forall hash32 leaves -> (i < length leaves)%nat ->
  exists a path, nth_error leaves i = Some a /\ Forall hash32 path /\ length path = k /\ branch_run i a path = Ok root.
Proof.
  intros k leaves root i R. revert i. induction R as [b|k l r Ll R IH]; intros i G Li.
  - cbn in Li. assert (i = 0)%nat as -> by lia. exists b, []. repeat split; constructor.
  - destruct (pairs_neighbour l i G Li) as (a & s & Ea & Is & P).
    destruct (IH (i / 2)%nat (up_good _)) as (a' & path & Ea' & Gp & Lp & Run); [rewrite map_length, pairs_length; now apply half_lt|].
    rewrite nth_error_map, P in Ea'. cbn [option_map] in Ea'. set (m := if Nat.even i then a ++ s else s ++ a) in *.
    assert (H2 m = a') by congruence. subst a'.
    assert (Ga : hash32 a) by (eapply Forall_forall in G; [exact G|eapply nth_error_In; eauto]).
    assert (Gs : hash32 s) by (eapply Forall_forall in G; eauto).
    exists a, (s :: path). split; [exact Ea|]. split; [now constructor|]. split; [cbn; lia|]. cbn [branch_run]. fold m.
    destruct (side_msg i a s Ga Gs) as [Bm Lm]. fold m in Bm, Lm. rewrite (hash64 m Bm Lm). exact Run.
Qed.
Print Assumptions C129_branch_complete.

Local Opaque H2 SHA256 btc_hash256 btc_hash256_d64 merkle_run.
(** A case: three hashes, in memory for four. *)
Example C129_case : exists root middle,
  let a := repeat 1 32 in let b := repeat 2 32 in let c := repeat 3 32 in
  root = H2 (H2 (a ++ b) ++ H2 (c ++ c)) /\ merkle_root 2 [a; b; c] root /\
  merkle_run 3 3 (concat [a; b; c] ++ repeat 0 32) = Ok (root ++ middle ++ []) /\
  branch_run 2 c [c; H2 (a ++ b)] = Ok root.
Proof.
  cbv zeta. set (a := repeat 1 32). set (b := repeat 2 32). set (c := repeat 3 32).
  assert (P : forall x, 0 <= x < 256 -> hash32 (repeat x 32)).
  { intros x Hx. split; [|apply repeat_length]. apply Forall_forall. intros y Hy. apply repeat_spec in Hy. subst. exact Hx. }
  assert (Ga : hash32 a) by (apply P; lia). assert (Gb : hash32 b) by (apply P; lia). assert (Gc : hash32 c) by (apply P; lia).
  assert (R : merkle_root 2 [a; b; c] (H2 (H2 (a ++ b) ++ H2 (c ++ c)))).
  { constructor; [cbn; lia|]. constructor; [cbn; lia|]. constructor. }
  destruct (C129_root [a; b; c] (repeat 0 32)) as (k & r & mid & R' & Hr & Run & Lmid).
  - cbn. lia.
  - apply Forall_cons; [exact Ga|]. apply Forall_cons; [exact Gb|]. apply Forall_cons; [exact Gc|]. apply Forall_nil.
  - apply P. lia.
  - intros. rewrite repeat_length. lia.
  - destruct (root_unique _ _ _ R _ _ R') as [_ <-]. exists (H2 (H2 (a ++ b) ++ H2 (c ++ c))), mid. split; [reflexivity|]. split; [exact R|].
    split.
    + cbn [length] in Run. change (skipn 32 (repeat 0 32)) with (@nil Z) in Run. exact Run.
    + destruct (side_msg 2 c c Gc Gc) as [B1 L1].
      destruct (side_msg 1 (H2 (c ++ c)) (H2 (a ++ b)) (H2_hash32 _) (H2_hash32 _)) as [B2 L2].
      cbn [branch_run]. change (if Nat.even 2 then c ++ c else c ++ c) with (c ++ c) in *. rewrite (hash64 (c ++ c) B1 L1). cbn [bind].
      change (2 / 2)%nat with 1%nat.
      change (if Nat.even 1 then H2 (c ++ c) ++ H2 (a ++ b) else H2 (a ++ b) ++ H2 (c ++ c)) with (H2 (a ++ b) ++ H2 (c ++ c)) in *.
      rewrite (hash64 _ B2 L2). cbn [bind]. reflexivity.
Qed.
