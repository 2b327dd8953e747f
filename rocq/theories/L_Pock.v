(** Fermat's little theorem and Pocklington's primality test; no code of the library is modelled here. *)
From Coq Require Import ZArith List Bool Lia Znumtheory Zpow_facts Zdiv Permutation.
Import ListNotations.
Open Scope Z_scope.

Definition prod (l : list Z) : Z := fold_right Z.mul 1 l.

Lemma prod_perm a b : Permutation a b -> prod a = prod b.
Proof. induction 1; cbn [prod fold_right] in *; try lia; fold (prod l) in *; try fold (prod l') in *; lia. Qed.
Lemma NoDup_map_on {A B} (f : A -> B) l : (forall x y, In x l -> In y l -> f x = f y -> x = y) -> NoDup l -> NoDup (map f l).
Proof.
  intros H D. induction D as [|x l Hx D IH]; cbn; constructor.
  - intros I. apply in_map_iff in I. destruct I as (y & E & Iy). apply Hx. rewrite <- (H y x); auto; [now right|now left].
  - apply IH. intros a b Ia Ib. apply H; now right.
Qed.

Lemma mod_zero_divide r a : 0 < r -> (r | a) -> a mod r = 0.
Proof. intros H D. apply Zdivide_mod. exact D. Qed.
Lemma prime_cancel r a x y : prime r -> a mod r <> 0 -> (a * x) mod r = (a * y) mod r -> x mod r = y mod r.
Proof.
  intros P A E. pose proof (prime_ge_2 r P).
  assert (D : (r | a * (x - y))).
  { apply Zmod_divide; [lia|]. rewrite Z.mul_sub_distr_l, Zminus_mod, E, Z.sub_diag. apply Zmod_0_l. }
  destruct (prime_mult r P _ _ D) as [D'|D']; [exfalso; apply A; now apply mod_zero_divide; [lia|]|].
  apply mod_zero_divide in D'; [|lia]. rewrite Zminus_mod in D'.
  pose proof (Z.mod_pos_bound x r ltac:(lia)). pose proof (Z.mod_pos_bound y r ltac:(lia)).
  destruct (Z.lt_trichotomy (x mod r) (y mod r)) as [L|[L|L]]; [|exact L|].
  - replace (x mod r - y mod r) with (-(y mod r - x mod r)) in D' by lia. rewrite Z.mod_opp_l_nz in D' by (rewrite ?Z.mod_small by lia; lia).
    rewrite Z.mod_small in D' by lia. lia.
  - rewrite Z.mod_small in D' by lia. lia.
Qed.

Lemma prod_mul_mod r a l : 0 < r -> prod (map (fun x => (a * x) mod r) l) mod r = (a ^ Z.of_nat (length l) * prod l) mod r.
Proof.
  intros H. induction l as [|x l IH]; [reflexivity|]. cbn [map length]. change (prod (?c :: ?d)) with (c * prod d).
  rewrite Nat2Z.inj_succ, Z.pow_succ_r by lia. rewrite Zmult_mod, Z.mod_mod, IH by lia. rewrite <- Zmult_mod. f_equal. ring.
Qed.
Lemma prod_nonzero r l : prime r -> Forall (fun x => x mod r <> 0) l -> prod l mod r <> 0.
Proof.
  intros P. pose proof (prime_ge_2 r P). induction 1 as [|x l Hx F IH]; cbn [prod fold_right]; [rewrite Z.mod_1_l; lia|].
  intros E. apply Zmod_divide in E; [|lia]. destruct (prime_mult r P _ _ E) as [D|D]; apply mod_zero_divide in D; lia || contradiction.
Qed.

Theorem fermat r a : prime r -> a mod r <> 0 -> a ^ (r - 1) mod r = 1.
Proof.
  intros P A. pose proof (prime_ge_2 r P) as R2.
  set (L := map Z.of_nat (seq 1 (Z.to_nat (r - 1)))). set (f := fun x => (a * x) mod r).
  assert (IL : forall x, In x L <-> 1 <= x < r).
  { intros x. unfold L. rewrite in_map_iff. split.
    - intros (i & <- & I). apply in_seq in I. lia.
    - intros Hx. exists (Z.to_nat x). split; [lia|]. apply in_seq. lia. }
  assert (NL : NoDup L) by (apply NoDup_map_on; [intros; lia|apply seq_NoDup]).
  assert (LL : length L = Z.to_nat (r - 1)) by (unfold L; now rewrite map_length, seq_length).
  assert (NF : NoDup (map f L)).
  { apply NoDup_map_on; [|exact NL]. intros x y Ix Iy E. apply IL in Ix, Iy. unfold f in E. apply (prime_cancel r a) in E; [|exact P|exact A].
    now rewrite !Z.mod_small in E by lia. }
  assert (PM : Permutation (map f L) L).
  { apply NoDup_Permutation_bis; [exact NF|rewrite map_length; lia|]. intros y I. apply in_map_iff in I. destruct I as (x & <- & I). apply IL in I. apply IL.
    unfold f. pose proof (Z.mod_pos_bound (a * x) r ltac:(lia)). assert ((a * x) mod r <> 0); [|lia].
    intros E. replace 0 with ((a * 0) mod r) in E by (rewrite Z.mul_0_r; apply Zmod_0_l). apply (prime_cancel r a) in E; [|exact P|exact A].
    rewrite Z.mod_small, Zmod_0_l in E by lia. lia. }
  pose proof (prod_mul_mod r a L ltac:(lia)) as M. fold f in M. rewrite (prod_perm _ _ PM), LL, Z2Nat.id in M by lia.
  assert (NZ : prod L mod r <> 0). { apply prod_nonzero; [exact P|]. apply Forall_forall. intros x I. apply IL in I. rewrite Z.mod_small by lia. lia. }
  symmetry in M. rewrite Z.mul_comm in M. assert (M' : (prod L * a ^ (r - 1)) mod r = (prod L * 1) mod r) by (rewrite M; f_equal; lia).
  apply (prime_cancel r (prod L)) in M'; [|exact P|exact NZ]. rewrite M'. apply Z.mod_1_l. lia.
Qed.

Lemma pow_one r a e k : 1 < r -> 0 <= e -> 0 <= k -> a ^ e mod r = 1 -> a ^ (e * k) mod r = 1.
Proof. intros Hr He Hk E. rewrite Z.pow_mul_r by lia. rewrite Zpower_mod, E by lia. rewrite Z.pow_1_l by lia. apply Z.mod_small. lia. Qed.

Lemma pow_gcd r a e M : 1 < r -> 0 < e -> 0 < M -> a ^ e mod r = 1 -> a ^ M mod r = 1 -> a ^ Z.gcd e M mod r = 1.
Proof.
  intros Hr He HM E F. set (h := Z.gcd e M).
  assert (Dh : (h | M)) by apply Z.gcd_divide_r.
  assert (Hh : 0 < h). { assert (0 <= h) by apply Z.gcd_nonneg. assert (h <> 0); [|lia]. unfold h. rewrite Z.gcd_eq_0. lia. }
  assert (h <= M) by (apply Z.divide_pos_le; [lia|exact Dh]).
  destruct (Z.eq_dec h M) as [->|NM]; [exact F|].
  destruct (Z.gcd_bezout e M h eq_refl) as (u & v & B).
  set (u' := u mod M). pose proof (Z.mod_pos_bound u M ltac:(lia)) as Bu. fold u' in Bu.
  assert (Eu : u = M * (u / M) + u') by (apply Z.div_mod; lia).
  set (w := - (v + (u / M) * e)).
  assert (W : u' * e = h + M * w) by (unfold w; nia).
  assert (0 <= w) by nia. assert (0 <= M * w) by (apply Z.mul_nonneg_nonneg; lia).
  assert (X : a ^ (u' * e) mod r = 1) by (rewrite Z.mul_comm; apply pow_one; lia).
  rewrite W, Z.pow_add_r, Zmult_mod, (pow_one r a M w), Z.mul_1_r, Z.mod_mod in X by lia. exact X.
Qed.

Lemma prime_factor k : 1 < k -> exists r, prime r /\ (r | k).
Proof.
  intros H. assert (0 <= k) as H0 by lia. revert H. pattern k. apply Zlt_0_ind; [|exact H0]. clear k H0. intros k IH _ H.
  destruct (prime_dec k) as [P|N]; [exists k; split; [exact P|apply Z.divide_refl]|].
  destruct (not_prime_divide k H N) as (d & Hd & D). destruct (IH d ltac:(lia) ltac:(lia)) as (r & P & R).
  exists r. split; [exact P|]. exact (Z.divide_trans _ _ _ R D).
Qed.

Lemma distinct_primes qs m : Forall prime qs -> NoDup qs -> (forall q, In q qs -> (q | m)) -> (prod qs | m).
Proof.
  intros F N. revert m. induction N as [|q qs Hq N IH]; intros m D; cbn [prod fold_right]; [apply Z.divide_1_l|].
  inversion F as [|? ? Pq F']; subst. destruct (D q (or_introl eq_refl)) as [m' Em].
  assert (D' : (prod qs | m')).
  { apply IH; [exact F'|]. intros q' I. assert (P' : prime q') by (rewrite Forall_forall in F'; now apply F').
    destruct (prime_mult q' P' m' q) as [X|X]; [rewrite <- Em; apply D; now right|exact X|].
    exfalso. apply Hq. rewrite <- (prime_div_prime q' q P' Pq X). exact I. }
  destruct D' as [j Ej]. exists j. unfold prod in *. lia.
Qed.

(** Pocklington: the distinct primes [qs] divide N - 1, their product exceeds the root of N, and [a] shows it. *)
Theorem pocklington N a qs : 1 < N -> Forall prime qs -> NoDup qs -> N < prod qs * prod qs ->
  a ^ (N - 1) mod N = 1 ->
  (forall q, In q qs -> (q | N - 1) /\ Z.gcd (a ^ ((N - 1) / q) mod N - 1) N = 1) -> prime N.
Proof.
  intros HN F ND Big Ha Hq. destruct (prime_dec N) as [P|NP]; [exact P|exfalso].
  destruct (not_prime_divide N HN NP) as (d & Hd & [e Ee]).
  assert (K : exists k, 1 < k /\ k * k <= N /\ (k | N)).
  { destruct (Z.le_gt_cases d e) as [L|L].
    - exists d. split; [lia|]. split; [nia|]. exists e. lia.
    - exists e. split; [nia|]. split; [nia|]. exists d. lia. }
  destruct K as (k & Hk & Kk & DkN). destruct (prime_factor k Hk) as (r & Pr & Drk).
  pose proof (prime_ge_2 r Pr) as R2. assert (DrN : (r | N)) by exact (Z.divide_trans _ _ _ Drk DkN).
  assert (r <= k) by (apply Z.divide_pos_le; [lia|exact Drk]).
  assert (Ar : a ^ (N - 1) mod r = 1).
  { destruct DrN as [c Ec]. pose proof (Z.div_mod (a ^ (N - 1)) N ltac:(lia)) as DM. rewrite Ha in DM. set (t := a ^ (N - 1)) in *. set (u := t / N) in *. clearbody t u. rewrite DM.
    replace (N * u + 1) with (1 + (c * u) * r) by (rewrite Ec; ring).
    rewrite Z.mod_add by lia. apply Z.mod_1_l. lia. }
  assert (A0 : a mod r <> 0).
  { intros E. replace (N - 1) with (Z.succ (N - 2)) in Ar by lia. rewrite Z.pow_succ_r, Zmult_mod, E, Z.mul_0_l, Zmod_0_l in Ar by lia. lia. }
  assert (AF : forall q, In q qs -> (q | r - 1)).
  { intros q I. destruct (Hq q I) as [[M Em] G]. rewrite Forall_forall in F. pose proof (F q I) as Pq. pose proof (prime_ge_2 q Pq).
    destruct (Zdivide_dec q (r - 1)) as [Y|Nd]; [exact Y|exfalso].
    pose proof (pow_gcd r a (N - 1) (r - 1) ltac:(lia) ltac:(lia) ltac:(lia) Ar (fermat r a Pr A0)) as C.
    set (h := Z.gcd (N - 1) (r - 1)) in *.
    assert (Dh : (h | N - 1)) by apply Z.gcd_divide_l. assert (Dr : (h | r - 1)) by apply Z.gcd_divide_r.
    assert (Hh : 0 < h). { assert (0 <= h) by apply Z.gcd_nonneg. assert (h <> 0); [|lia]. unfold h. rewrite Z.gcd_eq_0. lia. }
    assert (Rp : rel_prime h q).
    { apply rel_prime_sym, prime_rel_prime; [exact Pq|]. intros X. apply Nd. exact (Z.divide_trans _ _ _ X Dr). }
    assert (DM : (h | M)). { apply (Gauss h q M); [|exact Rp]. rewrite Z.mul_comm, <- Em. exact Dh. }
    destruct DM as [j Ej].
    assert (Eq : (N - 1) / q = h * j) by (symmetry; apply Z.div_unique_exact; [lia|]; rewrite Em, Ej; ring).
    assert (0 <= j) by nia.
    pose proof (pow_one r a h j ltac:(lia) ltac:(lia) ltac:(lia) C) as X. rewrite <- Eq in X.
    set (t := a ^ ((N - 1) / q)) in *.
    assert (Dt : (r | t mod N - 1)).
    { destruct DrN as [c Ec]. apply Zmod_divide; [lia|]. pose proof (Z.div_mod t N ltac:(lia)) as DMt.
      set (u := t / N) in *. set (v := t mod N) in *. clearbody t u v. replace (v - 1) with (t - 1 + (- (c * u)) * r) by (rewrite DMt, Ec; ring).
      rewrite Z.mod_add by lia. rewrite Zminus_mod, X, Z.mod_1_l by lia. reflexivity. }
    assert (D1 : (r | 1)) by (rewrite <- G; apply Z.gcd_greatest; [exact Dt|exact DrN]).
    apply Z.divide_1_r_nonneg in D1; lia. }
  assert (PF : (prod qs | r - 1)) by (apply distinct_primes; assumption).
  assert (0 < prod qs).
  { clear -F. induction F as [|q qs P F IH]; cbn [prod fold_right]; [lia|]. pose proof (prime_ge_2 q P). unfold prod in IH. nia. }
  assert (prod qs <= r - 1) by (apply Z.divide_pos_le; [lia|exact PF]). nia.
Qed.
