(** Every point of secp256k1 is a multiple of G: there are at most 2p + 1 points, fewer than three times n, and none of order two. *)
From Coq Require Import ZArith List Bool Lia Znumtheory.
From Verif Require Import Base L_Pock M_Secp S_Secp S_Secp256k1 L_Primes L_Zp L_Curve L_Group L_Order L_SecpLaws.
Import ListNotations.
Open Scope Z_scope.

(** An injective map from [0, a) into [0, b) needs a <= b. *)
Definition upto (a : Z) : list Z := map Z.of_nat (seq 0 (Z.to_nat a)).
Lemma upto_in a x : In x (upto a) <-> 0 <= x < a.
Proof.
  unfold upto. rewrite in_map_iff. split.
  - intros (k & <- & H). apply in_seq in H. lia.
  - intros H. exists (Z.to_nat x). split; [lia|]. apply in_seq. lia.
Qed.
Lemma upto_nodup a : NoDup (upto a).
Proof. apply FinFun.Injective_map_NoDup; [|apply seq_NoDup]. intros x y. lia. Qed.
Lemma upto_length a : length (upto a) = Z.to_nat a.
Proof. unfold upto. now rewrite map_length, seq_length. Qed.
Lemma injection_le (f : Z -> Z) a b : 0 <= b -> (forall x, 0 <= x < a -> 0 <= f x < b) -> (forall x y, 0 <= x < a -> 0 <= y < a -> f x = f y -> x = y) -> a <= b.
Proof.
  intros B F I. assert (H : (length (map f (upto a)) <= length (upto b))%nat).
  { apply NoDup_incl_length.
    - apply NoDup_map_on; [|apply upto_nodup]. intros x y X Y. apply I; now apply upto_in.
    - intros y Y. apply in_map_iff in Y. destruct Y as (x & <- & X). apply upto_in, F. now apply upto_in. }
  rewrite map_length, !upto_length in H. lia.
Qed.

(** A number below 2p + 1 for every point. *)
Definition code (P : option (Z * Z)) : Z := match P with None => 2 * secp_p | Some (x, y) => 2 * x + y mod 2 end.
Lemma code_bound P : valid P -> 0 <= code P < 2 * secp_p + 1.
Proof.
  destruct P as [[x y]|]; cbn [valid code]; [|pose proof p_pos; lia]. rewrite on_curve_spec. intros (X & Y & _). pose proof (Z.mod_pos_bound y 2 eq_refl). lia.
Qed.
Lemma parity_gen p y1 y2 : p mod 2 = 1 -> 0 < y1 < p -> 0 < y2 < p -> y1 mod 2 = y2 mod 2 -> y1 + y2 <> p.
Proof. intros. dlia. Qed.
Lemma two_roots p y1 y2 : prime p -> p mod 2 = 1 -> 0 < y1 < p -> 0 < y2 < p -> (y1 * y1) mod p = (y2 * y2) mod p -> y1 mod 2 = y2 mod 2 -> y1 = y2.
Proof.
  intros P O Y1 Y2 E M. assert (D : (p | (y1 - y2) * (y1 + y2))).
  { replace ((y1 - y2) * (y1 + y2)) with (y1 * y1 - y2 * y2) by ring. now apply mod_div. }
  apply (prime_mult p P) in D. destruct D as [D|D].
  - apply (mod_eq p) in D; [|lia]. rewrite !Z.mod_small in D by lia. exact D.
  - exfalso. destruct D as [q D]. assert (Q1 : q = 1) by (clear - Y1 Y2 D; assert (0 < q) by nia; assert (q < 2) by nia; lia). subst q. pose proof (parity_gen p y1 y2 O Y1 Y2 M). lia.
Qed.
Lemma code_inj P Q : valid P -> valid Q -> code P = code Q -> P = Q.
Proof.
  destruct P as [[x1 y1]|], Q as [[x2 y2]|]; cbn [valid code]; [| | |reflexivity].
  - intros V1 V2 E. pose proof (curve_nz _ _ V1) as N1. pose proof (curve_nz _ _ V2) as N2. apply on_curve_spec in V1. apply on_curve_spec in V2.
    destruct V1 as (X1 & Y1 & C1), V2 as (X2 & Y2 & C2). pose proof (Z.mod_pos_bound y1 2 eq_refl) as M1. pose proof (Z.mod_pos_bound y2 2 eq_refl) as M2.
    assert (EX : x1 = x2) by (clear - E M1 M2; revert E M1 M2; generalize (y1 mod 2) (y2 mod 2); lia). subst x2. assert (EY : y1 mod 2 = y2 mod 2) by (clear - E; revert E; generalize (y1 mod 2) (y2 mod 2); lia).
    rewrite (two_roots secp_p y1 y2 p_prime p_odd); [reflexivity|lia|lia|congruence|exact EY].
  - rewrite on_curve_spec. intros (X & Y & _) _ E. pose proof (Z.mod_pos_bound y1 2 eq_refl). lia.
  - rewrite on_curve_spec. intros _ (X & Y & _) E. pose proof (Z.mod_pos_bound y2 2 eq_refl). lia.
Qed.

(** No point is its own inverse. *)
Lemma no_two_torsion P : valid P -> cadd P P = None -> P = None.
Proof.
  destruct P as [[x y]|]; [|reflexivity]. intros V. pose proof (curve_nz _ _ V) as N. apply on_curve_spec in V. destruct V as (X & Y & _).
  unfold cadd. rewrite Z.eqb_refl. destruct (Z.eqb_spec ((y + y) mod secp_p) 0) as [E|]; [|discriminate]. exfalso.
  pose proof p_odd as O. pose proof p_pos as B. revert O B E Y N. generalize secp_p. clear. intros p O B E Y N.
  destruct (Z_lt_le_dec (y + y) p) as [L|L]; [rewrite Z.mod_small in E; lia|].
  assert (Q : (y + y) mod p = y + y - p). { rewrite <- (Z.mod_small (y + y - p) p) by lia. rewrite <- (Z_mod_plus_full (y + y - p) 1 p). f_equal. lia. }
  assert (y + y = p) by lia. clear E Q. dlia.
Qed.
Lemma cneg_pt P : valid P -> exists Q, valid Q /\ cadd P Q = None.
Proof.
  destruct P as [[x y]|]; [|exists None; split; [exact I|reflexivity]]. cbn [valid]. intros V. pose proof V as V'. apply on_curve_spec in V. destruct V as (X & Y & E). pose proof p_pos as P.
  exists (Some (x, (- y) mod secp_p)). split.
  - cbn [valid]. apply on_curve_spec. split; [exact X|]. split; [apply Z.mod_pos_bound; lia|]. rewrite <- Z.mul_mod by lia. rewrite <- E. f_equal. ring.
  - unfold cadd. rewrite Z.eqb_refl. rewrite Zplus_mod_idemp_r, Z.add_opp_diag_r, Zmod_0_l. reflexivity.
Qed.
Lemma cadd_comm P Q : valid P -> valid Q -> cadd P Q = cadd Q P.
Proof. intros VP VQ. apply up_inj; [now apply cadd_valid..|]. rewrite !up_add by assumption. apply gadd_comm; now apply up_on. Qed.
Lemma cadd_assoc P Q R : valid P -> valid Q -> valid R -> cadd (cadd P Q) R = cadd P (cadd Q R).
Proof.
  intros VP VQ VR. apply up_inj; [repeat apply cadd_valid; assumption..|]. rewrite !up_add by (try apply cadd_valid; assumption).
  apply gadd_assoc; now apply up_on.
Qed.
Lemma cadd_none P : cadd P None = P. Proof. now destruct P as [[x y]|]. Qed.
Lemma cadd_cancel P Q R : valid P -> valid Q -> valid R -> cadd P Q = cadd P R -> Q = R.
Proof.
  intros VP VQ VR E. destruct (cneg_pt P VP) as (N & VN & EN). rewrite cadd_comm in EN by assumption.
  assert (X : cadd N (cadd P Q) = cadd N (cadd P R)) by now rewrite E. rewrite <- !cadd_assoc, EN in X by assumption. exact X.
Qed.

Definition multiple (P : option (Z * Z)) : Prop := exists k, 0 <= k < secp_n /\ cmul k cG = P.
Lemma multiple_add P Q : multiple P -> multiple Q -> multiple (cadd P Q).
Proof.
  intros (a & A & <-) (b & B & <-). exists ((a + b) mod secp_n). split; [apply Z.mod_pos_bound; lia|]. symmetry. apply cadd_cmul; lia.
Qed.
Lemma multiple_neg P Q : multiple P -> valid Q -> cadd P Q = None -> multiple Q.
Proof.
  intros (a & A & <-) VQ E. pose proof n_pos as N. exists ((secp_n - a) mod secp_n). split; [apply Z.mod_pos_bound; lia|].
  apply (cadd_cancel (cmul a cG)); [apply cmul_valid|apply cmul_valid|exact VQ|]. rewrite E, cadd_cmul by (try apply Z.mod_pos_bound; lia).
  rewrite Zplus_mod_idemp_r. replace (a + (secp_n - a)) with secp_n by lia. rewrite Z_mod_same_full. reflexivity.
Qed.
Lemma cmul_inj a b : 0 <= a < secp_n -> 0 <= b < secp_n -> cmul a cG = cmul b cG -> a = b.
Proof.
  assert (W : forall a b, 0 <= a <= b -> b < secp_n -> cmul a cG = cmul b cG -> a = b).
  { intros u v U V E. assert (X : cmul (v - u) cG = None).
    { apply (cadd_cancel (cmul u cG)); [apply cmul_valid|apply cmul_valid|exact I|]. rewrite cadd_none, cadd_cmul by lia. replace (u + (v - u)) with v by lia.
      rewrite Z.mod_small by lia. symmetry. exact E. }
    apply cmul_none in X; [|lia]. rewrite Z.mod_small in X; lia. }
  intros A B E. destruct (Z_le_dec a b) as [L|L]; [apply W; lia || exact E|symmetry; apply W; [lia|lia|symmetry; exact E]].
Qed.
Lemma half_multiple Q : valid Q -> multiple (cadd Q Q) -> multiple Q.
Proof.
  intros VQ (k & K & E). pose proof n_pos as N. pose proof n_odd as O.
  set (h := (k * ((secp_n + 1) / 2)) mod secp_n). assert (H : 0 <= h < secp_n) by (apply Z.mod_pos_bound; lia).
  assert (E2 : cadd (cmul h cG) (cmul h cG) = cmul k cG).
  { rewrite cadd_cmul by lia. f_equal. unfold h. rewrite <- Zplus_mod. rewrite <- (Z.mod_small k secp_n) at 3 by lia. apply mod_eq; [lia|]. exists k.
    revert O N. generalize secp_n. intros n O N. assert (F : (n + 1) / 2 * 2 = n + 1) by dlia. replace (k * ((n + 1) / 2) + k * ((n + 1) / 2)) with (k * ((n + 1) / 2 * 2)) by ring. rewrite F. ring. }
  destruct (cneg_pt (cmul h cG) (cmul_valid h)) as (M & VM & EM).
  (* Q + M doubles to infinity *)
  assert (T : cadd (cadd Q M) (cadd Q M) = None).
  { rewrite cadd_assoc by (try apply cadd_valid; assumption). rewrite (cadd_comm M) by (try apply cadd_valid; assumption).
    rewrite <- (cadd_assoc Q (cadd Q M) M) by (try apply cadd_valid; assumption). rewrite <- (cadd_assoc Q Q M) by assumption. rewrite <- E, <- E2.
    pose proof (cmul_valid h) as VH. rewrite (cadd_assoc (cmul h cG)), EM, cadd_none by assumption. exact EM. }
  apply no_two_torsion in T; [|now apply cadd_valid]. exists h. split; [exact H|].
  apply (cadd_cancel M); [exact VM|apply cmul_valid|exact VQ|]. rewrite cadd_comm, EM by (try apply cmul_valid; assumption). rewrite cadd_comm by assumption. symmetry. exact T.
Qed.
Lemma three_n : 2 * secp_p + 1 < 3 * secp_n. Proof. reflexivity. Qed.
Lemma triple_code n x : 0 < n -> 0 <= x < 3 * n -> 0 <= x / n < 3 /\ 0 <= x mod n < n.
Proof. intros N X. split; [split; [apply Z.div_pos; lia|apply Z.div_lt_upper_bound; lia]|apply Z.mod_pos_bound; lia]. Qed.
Lemma multiple_dec P : valid P -> multiple P \/ ~ multiple P.
Proof.
  intros V. destruct (in_dec Z.eq_dec (code P) (map (fun k => code (cmul k cG)) (upto secp_n))) as [H|H].
  - left. apply in_map_iff in H. destruct H as (k & E & K). apply upto_in in K. exists k. split; [exact K|]. apply code_inj; [apply cmul_valid|exact V|exact E].
  - right. intros (k & K & E). apply H, in_map_iff. exists k. split; [now rewrite E|]. now apply upto_in.
Qed.
Theorem all_multiples P : valid P -> multiple P.
Proof.
  intros VP. destruct (multiple_dec P VP) as [H|NP]; [exact H|]. exfalso. pose proof n_pos as N.
  destruct (cneg_pt P VP) as (M & VM & EM). assert (EM' : cadd M P = None) by (rewrite cadd_comm by assumption; exact EM).
  set (base := fun i : Z => if i =? 0 then None else if i =? 1 then P else M).
  assert (VB : forall i, valid (base i)) by (intros i; unfold base; destruct (i =? 0); [exact I|]; destruct (i =? 1); assumption).
  set (f := fun x : Z => code (cadd (base (x / secp_n)) (cmul (x mod secp_n) cG))).
  pose proof three_n as T. assert (L : 3 * secp_n <= 2 * secp_p + 1); [|lia].
  apply (injection_le f); [pose proof p_pos; lia| |].
  - intros x _. apply code_bound, cadd_valid; [apply VB|apply cmul_valid].
  - intros x y X Y E. apply code_inj in E; [|apply cadd_valid; [apply VB|apply cmul_valid]..].
    assert (S : x / secp_n = y / secp_n).
    { apply triple_code in X; [|lia]. apply triple_code in Y; [|lia]. destruct X as [X1 X2], Y as [Y1 Y2].
      revert E. generalize dependent (x / secp_n). generalize dependent (y / secp_n). generalize dependent (x mod secp_n). generalize dependent (y mod secp_n). clear x y f T.
      intros b B a A j J i I0 E.
      (* two different cosets meet: P is a multiple of G *)
      assert (Diff : forall U V W, valid U -> valid V -> valid W -> forall a b, 0 <= a < secp_n -> 0 <= b < secp_n -> cadd U V = None -> cadd U (cmul a cG) = cadd W (cmul b cG) -> multiple (cadd W V)).
      { intros U V W VU VV VW c d C D Z EE. assert (EE' : cadd (cadd W V) (cmul d cG) = cmul c cG).
        { pose proof (cmul_valid d) as Vd. pose proof (cmul_valid c) as Vc. rewrite (cadd_comm W V), cadd_assoc by assumption. rewrite <- EE, <- cadd_assoc by assumption.
          rewrite (cadd_comm V U), Z by assumption. reflexivity. }
        destruct (cneg_pt (cmul d cG) (cmul_valid d)) as (R & VR & ER). assert (MR : multiple R) by (apply (multiple_neg (cmul d cG)); [exists d; split; [exact D|reflexivity]|exact VR|exact ER]).
        replace (cadd W V) with (cadd (cmul c cG) R); [apply multiple_add; [exists c; split; [exact C|reflexivity]|exact MR]|].
        pose proof (cmul_valid d) as Vd. rewrite <- EE', cadd_assoc, ER by (try apply cadd_valid; assumption). apply cadd_none. }
      assert (NM : ~ multiple M). { intros HM. apply NP. exact (multiple_neg M P HM VP EM'). }
      assert (NPP : ~ multiple (cadd P P)) by (intros H; apply NP; now apply half_multiple).
      assert (NMM : ~ multiple (cadd M M)) by (intros H; apply NM; now apply half_multiple).
      unfold base in E. destruct (Z.eqb_spec i 0) as [Ei|Ei], (Z.eqb_spec j 0) as [Ej|Ej]; [lia| | |].
      - exfalso. destruct (Z.eqb_spec j 1) as [Ej1|Ej1].
        + pose proof (Diff None None P I I VP a b A B eq_refl E) as H. rewrite cadd_none in H. exact (NP H).
        + pose proof (Diff None None M I I VM a b A B eq_refl E) as H. rewrite cadd_none in H. exact (NM H).
      - exfalso. symmetry in E. destruct (Z.eqb_spec i 1) as [Ei1|Ei1].
        + pose proof (Diff None None P I I VP b a B A eq_refl E) as H. rewrite cadd_none in H. exact (NP H).
        + pose proof (Diff None None M I I VM b a B A eq_refl E) as H. rewrite cadd_none in H. exact (NM H).
      - destruct (Z.eqb_spec i 1) as [Ei1|Ei1], (Z.eqb_spec j 1) as [Ej1|Ej1]; [lia|exfalso|exfalso|lia].
        + exact (NMM (Diff P M M VP VM VM a b A B EM E)).
        + exact (NPP (Diff M P P VM VP VP a b A B EM' E)). }
    rewrite S in E. apply cadd_cancel in E; [|apply VB|apply cmul_valid|apply cmul_valid].
    apply cmul_inj in E; [|apply Z.mod_pos_bound; lia|apply Z.mod_pos_bound; lia].
    rewrite (Z.div_mod x secp_n), (Z.div_mod y secp_n), S, E by lia. reflexivity.
Qed.
Print Assumptions all_multiples.
