(** Certificates for the two primes of secp256k1 (SEC 2): the size of the field and the order of the group. *)
From Coq Require Import ZArith List Bool Lia Znumtheory Zpow_facts.
From Verif Require Import L_Pock M_Secp S_Secp256k1.
Import ListNotations.
Open Scope Z_scope.

(** Reduction by a modulus 2^k - c, and powers with a given reduction. *)
Definition fold1 (k c x : Z) : Z := Z.land x (Z.ones k) + c * Z.shiftr x k.
Lemma fold1_mod k c x : 0 <= k -> fold1 k c x mod (2 ^ k - c) = x mod (2 ^ k - c).
Proof.
  intros Hk. unfold fold1. rewrite Z.land_ones, Z.shiftr_div_pow2 by lia.
  pose proof (Z.div_mod x (2 ^ k) ltac:(lia)) as D.
  replace (x mod 2 ^ k + c * (x / 2 ^ k)) with (x + (- (x / 2 ^ k)) * (2 ^ k - c)) by lia. apply Z_mod_plus_full.
Qed.
Definition reduce (N k c : Z) (f : nat) (x : Z) : Z := if c =? 0 then x mod N else Nat.iter f (fold1 k c) x.
Lemma reduce_mod N k c f x : 0 <= k -> (c = 0 \/ N = 2 ^ k - c) -> reduce N k c f x mod N = x mod N.
Proof.
  intros Hk H. unfold reduce. destruct (Z.eqb_spec c 0) as [->|C]; [apply Zmod_mod|].
  destruct H as [H|H]; [contradiction|]. induction f as [|f IH]; [reflexivity|]. cbn [Nat.iter nat_rect]. rewrite H, fold1_mod, <- H by exact Hk. exact IH.
Qed.
Fixpoint powr (red : Z -> Z) (a : Z) (e : positive) : Z :=
  match e with
  | xH => a
  | xO e => let z := powr red a e in red (z * z)
  | xI e => let z := powr red a e in red (a * (z * z))
  end.
Lemma powr_mod N red a e : (forall x, red x mod N = x mod N) -> powr red a e mod N = a ^ Zpos e mod N.
Proof.
  intros R. induction e as [e IH|e IH|]; cbn [powr]; [| |f_equal; lia].
  - rewrite R, Zmult_mod, (Zmult_mod (powr _ _ _)), IH, <- (Zmult_mod (a ^ _)), <- Zmult_mod. f_equal.
    rewrite Pos2Z.inj_xI, Z.add_comm, Z.pow_add_r, Z.pow_1_r by lia. replace (2 * Z.pos e) with (Z.pos e + Z.pos e) by lia. now rewrite Z.pow_add_r by lia.
  - rewrite R, Zmult_mod, IH, <- Zmult_mod. f_equal. rewrite Pos2Z.inj_xO. replace (2 * Z.pos e) with (Z.pos e + Z.pos e) by lia. now rewrite Z.pow_add_r by lia.
Qed.
Definition powz (red : Z -> Z) (a e : Z) : Z := match e with Zpos e => powr red a e | _ => 1 end.
Lemma powz_mod N red a e : 0 <= e -> (forall x, red x mod N = x mod N) -> powz red a e mod N = a ^ e mod N.
Proof. intros He R. destruct e as [|e|e]; [reflexivity|now apply powr_mod|lia]. Qed.

(** Trial division. *)
Definition trial (N : Z) (B : nat) : bool :=
  (1 <? N) && (N <? Z.of_nat B * Z.of_nat B) && forallb (fun d => negb (N mod Z.of_nat d =? 0)) (seq 2 (B - 2)).
Lemma trial_prime N B : trial N B = true -> prime N.
Proof.
  unfold trial. intros H. apply andb_prop in H. destruct H as [H F]. apply andb_prop in H. destruct H as [H1 H2]. apply Z.ltb_lt in H1, H2.
  rewrite forallb_forall in F. destruct (prime_dec N) as [P|NP]; [exact P|exfalso].
  destruct (not_prime_divide N H1 NP) as (d & Hd & [e Ee]).
  assert (K : exists k, 1 < k /\ k * k <= N /\ (k | N)).
  { destruct (Z.le_gt_cases d e) as [L|L].
    - exists d. split; [lia|]. split; [nia|]. exists e. lia.
    - exists e. split; [nia|]. split; [nia|]. exists d. lia. }
  destruct K as (k & Hk & Kk & D). assert (k < Z.of_nat B) by nia.
  specialize (F (Z.to_nat k)). rewrite in_seq, Z2Nat.id in F by lia. specialize (F ltac:(lia)).
  rewrite (Zdivide_mod _ _ D) in F. discriminate.
Qed.

(** A certificate of Pocklington's test, or of trial division when there are no factors; the factors are 2 or certified before. *)
Record pock := mkPock { c_N : Z; c_a : Z; c_qs : list Z; c_k : Z; c_c : Z; c_f : nat }.
Fixpoint nodupb (l : list Z) : bool := match l with [] => true | a :: t => negb (existsb (Z.eqb a) t) && nodupb t end.
Definition step_ok (known : list Z) (c : pock) : bool :=
  let N := c_N c in let red := reduce N (c_k c) (c_c c) (c_f c) in
  match c_qs c with [] => trial N (c_f c) | _ :: _ =>
  (1 <? N) && (0 <=? c_k c) && ((c_c c =? 0) || (N =? 2 ^ c_k c - c_c c)) && nodupb (c_qs c) && (N <? prod (c_qs c) * prod (c_qs c)) &&
  (powz red (c_a c) (N - 1) mod N =? 1) &&
  forallb (fun q => existsb (Z.eqb q) known && (1 <? q) && ((N - 1) mod q =? 0) && (Z.gcd (powz red (c_a c) ((N - 1) / q) mod N - 1) N =? 1)) (c_qs c)
  end.
Fixpoint chain_ok (known : list Z) (cs : list pock) : bool :=
  match cs with
  | [] => true
  | c :: cs => step_ok known c && chain_ok (c_N c :: known) cs
  end.
Lemma existsb_In q l : existsb (Z.eqb q) l = true -> In q l.
Proof. intros H. apply existsb_exists in H. destruct H as (x & I & E). apply Z.eqb_eq in E. now subst. Qed.
Lemma nodupb_ok l : nodupb l = true -> NoDup l.
Proof.
  induction l as [|a l IH]; cbn [nodupb]; intros H; constructor; apply andb_prop in H; destruct H as [H1 H2]; [|now apply IH].
  intros I. apply negb_true_iff in H1. assert (existsb (Z.eqb a) l = true); [|congruence]. apply existsb_exists. exists a. split; [exact I|apply Z.eqb_refl].
Qed.
Lemma step_good known c : (forall q, In q known -> prime q) -> step_ok known c = true -> prime (c_N c).
Proof.
  destruct c as [N a qs k cc f]. intros K H. unfold step_ok in H. cbn [c_N c_a c_qs c_k c_c c_f] in *.
  destruct qs as [|q0 qs0]; [exact (trial_prime N f H)|]. set (qs := q0 :: qs0) in *. clearbody qs.
  repeat (apply andb_prop in H; destruct H as [H ?]).
  match goal with X : forallb _ _ = true |- _ => rename X into HQ end.
  match goal with X : (_ mod N =? 1) = true |- _ => rename X into HA end.
  match goal with X : (_ || _) = true |- _ => rename X into HC end.
  match goal with X : (0 <=? k) = true |- _ => rename X into HK end.
  match goal with X : nodupb _ = true |- _ => rename X into HD end.
  match goal with X : (N <? _) = true |- _ => rename X into HB end.
  apply Z.ltb_lt in H, HB. apply Z.eqb_eq in HA. apply Z.leb_le in HK. rewrite forallb_forall in HQ.
  assert (C : cc = 0 \/ N = 2 ^ k - cc) by (apply orb_prop in HC; destruct HC as [X|X]; apply Z.eqb_eq in X; [now left|now right]).
  assert (R : forall x, reduce N k cc f x mod N = x mod N) by (intros x; now apply reduce_mod).
  rewrite (powz_mod N _ a) in HA by (lia || exact R).
  apply (pocklington N a qs H); [|now apply nodupb_ok|exact HB|exact HA|].
  - apply Forall_forall. intros q I. specialize (HQ q I). repeat (apply andb_prop in HQ; destruct HQ as [HQ _]). apply K. now apply existsb_In.
  - intros q I. specialize (HQ q I). apply andb_prop in HQ. destruct HQ as [HQ G]. apply andb_prop in HQ. destruct HQ as [HQ M].
    apply andb_prop in HQ. destruct HQ as [_ Q1]. apply Z.ltb_lt in Q1. apply Z.eqb_eq in G, M. rewrite (powz_mod N _ a) in G by (try exact R; apply Z.div_pos; lia).
    split; [apply Zmod_divide; [lia|exact M]|exact G].
Qed.
Lemma chain_good cs : forall known, (forall q, In q known -> prime q) -> chain_ok known cs = true ->
  forall c, In c cs -> prime (c_N c).
Proof.
  induction cs as [|c cs IH]; intros known K H c' I; [destruct I|].
  cbn [chain_ok] in H. apply andb_prop in H. destruct H as [H1 H2]. pose proof (step_good known c K H1) as G.
  destruct I as [<-|I]; [exact G|]. apply (IH (c_N c :: known)); [|exact H2|exact I].
  intros q [<-|J]; [exact G|now apply K].
Qed.

Definition secp_certs : list pock := [
  mkPock 53 0 [] 0 0 8%nat;
  mkPock 29 0 [] 0 0 6%nat;
  mkPock 7 0 [] 0 0 3%nat;
  mkPock 107590001 2 [53; 29; 7] 0 0 0%nat;
  mkPock 20113 0 [] 0 0 142%nat;
  mkPock 1206781 2 [20113] 0 0 0%nat;
  mkPock 7240687 2 [1206781] 0 0 0%nat;
  mkPock 96557 0 [] 0 0 311%nat;
  mkPock 255515944373312847190720520512484175977 2 [107590001; 7240687; 96557] 0 0 0%nat;
  mkPock 205115282021455665897114700593932402728804164701536103180137503955397371 2 [255515944373312847190720520512484175977] 0 0 0%nat;
  mkPock 115792089237316195423570985008687907853269984665640564039457584007908834671663 2 [205115282021455665897114700593932402728804164701536103180137503955397371] 256 4294968273 2%nat;
  mkPock 1871 0 [] 0 0 44%nat;
  mkPock 1627771 2 [1871] 0 0 0%nat;
  mkPock 297159362677 2 [1627771] 0 0 0%nat;
  mkPock 28181 0 [] 0 0 168%nat;
  mkPock 545358713 2 [28181] 0 0 0%nat;
  mkPock 29047611873442575647497758179 2 [297159362677; 545358713] 0 0 0%nat;
  mkPock 341948486974166000522343609283189 2 [29047611873442575647497758179] 0 0 0%nat;
  mkPock 9349 0 [] 0 0 97%nat;
  mkPock 44706919 2 [9349] 0 0 0%nat;
  mkPock 120233 0 [] 0 0 347%nat;
  mkPock 174723607534414371449 2 [44706919; 120233] 0 0 0%nat;
  mkPock 115792089237316195423570985008687907852837564279074904382605163141518161494337 2 [341948486974166000522343609283189; 174723607534414371449] 256 432420386565659656852420866394968145599 3%nat].
Lemma certs_ok : chain_ok [2] secp_certs = true.
Proof. vm_compute. reflexivity. Qed.
Lemma certified c : In c secp_certs -> prime (c_N c).
Proof. exact (chain_good secp_certs [2] ltac:(intros q [<-|[]]; exact prime_2) certs_ok c). Qed.



Lemma p_prime : prime secp_p.
Proof.
  assert (E : exists c, nth_error secp_certs 10 = Some c /\ c_N c = secp_p) by (eexists; split; reflexivity).
  destruct E as (c & I & <-). apply certified. exact (nth_error_In _ _ I).
Qed.
Lemma n_prime : prime secp_n.
Proof.
  assert (E : exists c, nth_error secp_certs 22 = Some c /\ c_N c = secp_n) by (eexists; split; reflexivity).
  destruct E as (c & I & <-). apply certified. exact (nth_error_In _ _ I).
Qed.
