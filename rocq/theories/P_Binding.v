(** C127: what a signature binds (src/btc/key.c:585-600, on the curve itself). *)
From Coq Require Import Znumtheory.
From Verif Require Import Base S_Words L_Endian M_Endian M_Sha2 S_Sha2 S_Ripemd L_Hash M_Hash M_Random M_Secp M_Key
  S_Secp L_Secp S_Der S_Life S_Sign S_Bip32 M_Exkey L_Der P_Der L_Bip32 P_Bip32 P_Pubkey P_Sign
  S_Secp256k1 L_Pock L_Group L_Order L_SecpLaws P_Secp256k1 L_Cofactor.

(** ** Every public key has exactly one secret key *)
Theorem C127_every_point : forall x y, point (Some (x, y)) ->
  exists d, 0 < d < secp_n /\ cmul d (Some (Gx, Gy)) = Some (x, y) /\ forall e, 0 <= e < secp_n -> cmul e (Some (Gx, Gy)) = Some (x, y) -> e = d.
Proof.
  intros x y V. apply point_valid in V. destruct (all_multiples _ V) as (d & D & E). fold cG. exists d.
  assert (N : d <> 0) by (intros ->; discriminate E). split; [lia|]. split; [exact E|].
  intros e He E'. apply cmul_inj; [exact He|exact D|congruence].
Qed.
Print Assumptions C127_every_point.
Lemma has_secret (P : curve_pt) : exists d, scalar d /\ P = k_pub d.
Proof.
  pose proof (proj2_sig P) as V. cbv beta in V. destruct (all_multiples (Some (proj1_sig P)) V) as (d & D & E).
  assert (S : scalar d) by (assert (d <> 0) by (intros ->; discriminate E); split; lia). exists d. split; [exact S|].
  apply pt_eq. pose proof (k_pub_val d S) as K. rewrite E in K. congruence.
Qed.
(** Whatever key the decoder accepts is the public key of exactly one secret key. *)
Theorem C127_one_secret : forall g enc rest P, ready g -> bytes enc -> (length enc = 33 \/ length enc = 65)%nat ->
  pubkey_decode secp256k1 g (enc ++ rest) (length enc) = Ok (Some P) ->
  exists key, bytes key /\ length key = 32%nat /\ key_get_pub secp256k1 g key = Ok P /\
  forall key', bytes key' -> length key' = 32%nat -> key_get_pub secp256k1 g key' = Ok P -> key' = key.
Proof.
  intros g enc rest P G _ _ _. destruct (has_secret P) as (d & S & ->). exists (be_bytes 32 d). split; [apply be_bytes_bytes|]. split; [apply be_bytes_length|].
  split; [exact (small_key_pub g d G S)|]. intros key' B L H.
  assert (S' : scalar (be_val key')).
  { destruct (C115_identifier secp256k1 g key' [] true (repeat 0 33) C126_laws G L eq_refl) as [(X & _)|(_ & A & _)]; [exact X|]. rewrite app_nil_r, H in A. discriminate. }
  pose proof (get_pub_ok secp256k1 g key' [] G L S') as H'. rewrite app_nil_r, H in H'. change (pub_of secp256k1) with k_pub in H'.
  assert (E : k_pub d = k_pub (be_val key')) by congruence. clear H H'.
  assert (ED : be_val key' = d).
  { pose proof (k_pub_val _ S) as A. pose proof (k_pub_val _ S') as A'. rewrite <- E, <- A in A'. destruct S, S'. apply cmul_inj; [lia|lia|exact A']. }
  rewrite <- ED, <- L. symmetry. now apply be_bytes_be_val.
Qed.
Print Assumptions C127_one_secret.

(** ** Verification for any key *)
Lemma verify_any g P hash hrest r s : ready g -> bytes hash -> length hash = 32%nat -> 0 <= s < secp_n ->
  exists d b, scalar d /\ P = k_pub d /\ key_verify secp256k1 g P (hash ++ hrest) (r, s) = Ok b /\
  (b = true <-> 0 < r < secp_n /\ 0 < s < secp_n /\ exists k x y, 0 < k < secp_n /\ cmul k cG = Some (x, y) /\
     r = x mod secp_n /\ (s * k) mod secp_n = (be_val hash + r * d) mod secp_n).
Proof.
  intros G B L S. destruct (has_secret P) as (d & D & ->). pose proof (small_key_pub g d G D) as GP.
  destruct (C126_verify_exact g (be_bytes 32 d) [] hash hrest r s (k_pub d) G (be_bytes_bytes 32 d) (be_bytes_length 32 d)) as (b & V & I).
  - destruct D. rewrite be32_small by lia. split; assumption.
  - exact B.
  - exact L.
  - exact S.
  - rewrite app_nil_r. exact GP.
  - exists d, b. split; [exact D|]. split; [reflexivity|]. split; [exact V|]. destruct D. rewrite be32_small in I by lia. exact I.
Qed.

(** The nonces with abscissa r: at most four. *)
Definition four (r : Z) : list Z := [2 * r; 2 * r + 1; 2 * (r + secp_n); 2 * (r + secp_n) + 1].
Lemma p_2n : secp_p < 2 * secp_n. Proof. reflexivity. Qed.
Lemma code_four k x y r : cmul k cG = Some (x, y) -> r = x mod secp_n -> In (code (cmul k cG)) (four r).
Proof.
  intros C R. pose proof (cmul_valid k) as V. rewrite C in *. cbn [valid code] in *. apply on_curve_spec in V. destruct V as (X & _). pose proof p_2n as P. pose proof n_pos as N.
  pose proof (Z.mod_pos_bound y 2 eq_refl) as M. pose proof (Z.div_mod x secp_n ltac:(lia)) as D. rewrite <- R in D.
  assert (Q : 0 <= x / secp_n < 2) by (split; [apply Z.div_pos; lia|apply Z.div_lt_upper_bound; lia]).
  unfold four. cbn [In]. assert (QQ : x / secp_n = 0 \/ x / secp_n = 1) by lia. revert D QQ M. generalize (x / secp_n) (y mod 2). clear - N. intros q m D QQ M.
  destruct QQ as [->| ->]; lia.
Qed.
Lemma at_most_four {A} (rel : A -> Z -> Prop) r (l : list A) :
  (forall a, In a l -> exists k x y, 0 < k < secp_n /\ cmul k cG = Some (x, y) /\ r = x mod secp_n /\ rel a k) ->
  (forall a b k, In a l -> In b l -> rel a k -> rel b k -> a = b) -> NoDup l -> (length l <= 4)%nat.
Proof.
  intros Ex Un ND.
  assert (H : forall l', incl l' l -> NoDup l' -> exists cs, length cs = length l' /\ NoDup cs /\ incl cs (four r) /\ forall c, In c cs -> exists a k, In a l' /\ 0 < k < secp_n /\ rel a k /\ c = code (cmul k cG)).
  { induction l' as [|a l' IH]; intros I0 ND'.
    - exists []. split; [reflexivity|]. split; [constructor|]. split; [intros c []|intros c []].
    - inversion ND' as [|? ? Na ND'']; subst. destruct (IH (fun x h => I0 x (or_intror h)) ND'') as (cs & L & Nc & Ic & Wc).
      destruct (Ex a (I0 a (or_introl eq_refl))) as (k & x & y & K & C & R & Rel). exists (code (cmul k cG) :: cs). split; [cbn [length]; lia|]. split.
      + constructor; [|exact Nc]. intros H. destruct (Wc _ H) as (b & k' & Ib & K' & Rel' & E). apply code_inj in E; [|apply cmul_valid..]. apply cmul_inj in E; [|lia|lia]. subst k'.
        apply Na. rewrite (Un a b k (I0 a (or_introl eq_refl)) (I0 b (or_intror Ib)) Rel Rel'). exact Ib.
      + split; [intros c [<-|H]; [exact (code_four k x y r C R)|exact (Ic c H)]|].
        intros c [<-|H]; [exists a, k; split; [now left|]; split; [exact K|]; split; [exact Rel|reflexivity]|].
        destruct (Wc c H) as (b & k' & Ib & W). exists b, k'. split; [now right|exact W]. }
  destruct (H l (incl_refl l) ND) as (cs & L & Nc & Ic & _). rewrite <- L. exact (NoDup_incl_length Nc Ic).
Qed.

(** ** C127 *)
(** For one hash and one signature, at most four public keys. *)
Theorem C127_keys : forall g hash hrest r s keys, ready g -> bytes hash -> length hash = 32%nat -> 0 <= s < secp_n -> NoDup keys ->
  (forall P, In P keys -> key_verify secp256k1 g P (hash ++ hrest) (r, s) = Ok true) -> (length keys <= 4)%nat.
Proof.
  intros g hash hrest r s keys G B L S ND H.
  apply (at_most_four (fun P k => 0 < r < secp_n /\ exists d, scalar d /\ P = k_pub d /\ (s * k) mod secp_n = (be_val hash + r * d) mod secp_n) r keys); [| |exact ND].
  - intros P HP. destruct (verify_any g P hash hrest r s G B L S) as (d & b & D & EP & V & I). rewrite (H P HP) in V. injection V as <-.
    destruct (proj1 I eq_refl) as (R & _ & k & x & y & K & C & X & Q). exists k, x, y. split; [exact K|]. split; [exact C|]. split; [exact X|]. split; [exact R|]. exists d. now split.
  - intros P P' k _ _ (R & d & D & EP & Q) (_ & d' & D' & EP' & Q'). subst P P'. f_equal.
    assert (E : (r * d) mod secp_n = (r * d') mod secp_n).
    { assert (X : (be_val hash + r * d - be_val hash) mod secp_n = (be_val hash + r * d' - be_val hash) mod secp_n) by (rewrite Zminus_mod, <- Q, Q', <- Zminus_mod; reflexivity).
      replace (be_val hash + r * d - be_val hash) with (r * d) in X by lia. replace (be_val hash + r * d' - be_val hash) with (r * d') in X by lia. exact X. }
    apply (prime_cancel secp_n r d d' L_Primes.n_prime) in E; [|rewrite Z.mod_small; lia]. destruct D, D'. rewrite !Z.mod_small in E by lia. exact E.
Qed.
Print Assumptions C127_keys.
(** For one key and one signature, hashes with at most four values modulo the order; hashes with the same value are not told apart. *)
Theorem C127_hashes : forall g P r s (hashes : list (list Z)), ready g -> 0 <= s < secp_n ->
  (forall h, In h hashes -> bytes h /\ length h = 32%nat /\ key_verify secp256k1 g P h (r, s) = Ok true) ->
  NoDup (map (fun h => be_val h mod secp_n) hashes) -> (length hashes <= 4)%nat.
Proof.
  intros g P r s hashes G S H ND. destruct (has_secret P) as (d & D & EP). rewrite <- (map_length (fun h => be_val h mod secp_n)).
  apply (at_most_four (fun z k => z = z mod secp_n /\ (s * k) mod secp_n = (z + r * d) mod secp_n) r); [| |exact ND].
  - intros z Hz. apply in_map_iff in Hz. destruct Hz as (h & <- & Ih). destruct (H h Ih) as (B & L & V0). pose proof n_pos as N.
    destruct (verify_any g P h [] r s G B L S) as (d' & b & D' & EP' & V & I). rewrite app_nil_r, V0 in V. injection V as <-.
    assert (d' = d). { rewrite EP in EP'. pose proof (k_pub_val _ D) as A. pose proof (k_pub_val _ D') as A'. rewrite <- EP', <- A in A'. destruct D, D'. apply cmul_inj; [lia|lia|now symmetry]. } subst d'.
    destruct (proj1 I eq_refl) as (_ & _ & k & x & y & K & C & X & Q). exists k, x, y. split; [exact K|]. split; [exact C|]. split; [exact X|].
    split; [symmetry; apply Zmod_mod|]. rewrite Zplus_mod_idemp_l. exact Q.
  - intros z z' k _ _ (Z1 & Q) (Z2 & Q'). rewrite Z1, Z2.
    assert (X : (z + r * d - r * d) mod secp_n = (z' + r * d - r * d) mod secp_n) by (rewrite Zminus_mod, <- Q, Q', <- Zminus_mod; reflexivity).
    replace (z + r * d - r * d) with z in X by lia. replace (z' + r * d - r * d) with z' in X by lia. exact X.
Qed.
Print Assumptions C127_hashes.
Theorem C127_same_residue : forall g P r s h1 h2 rest1 rest2, ready g -> length h1 = 32%nat -> length h2 = 32%nat -> 0 <= s < secp_n ->
  be_val h1 mod secp_n = be_val h2 mod secp_n -> key_verify secp256k1 g P (h1 ++ rest1) (r, s) = key_verify secp256k1 g P (h2 ++ rest2) (r, s).
Proof.
  intros g P r s h1 h2 rest1 rest2 G L1 L2 S E. rewrite (C60_verify_meaning secp256k1 g P h1 rest1 r s G L1 S), (C60_verify_meaning secp256k1 g P h2 rest2 r s G L2 S).
  f_equal. change (ecdsa_ok secp256k1) with k_verify. unfold k_verify. cbv zeta. f_equal. generalize (minv secp_n (if s <=? secp_order / 2 then s else secp_order - s)). intros w.
  rewrite (Zmult_mod (be_val h1)), E, <- Zmult_mod. reflexivity.
Qed.
Print Assumptions C127_same_residue.
(** For one key, one hash and one r, at most four values of s. *)
Theorem C127_s : forall g P hash hrest r ss, ready g -> bytes hash -> length hash = 32%nat -> NoDup ss ->
  (forall s, In s ss -> 0 <= s < secp_n /\ key_verify secp256k1 g P (hash ++ hrest) (r, s) = Ok true) -> (length ss <= 4)%nat.
Proof.
  intros g P hash hrest r ss G B L ND H. destruct (has_secret P) as (d & D & EP).
  apply (at_most_four (fun s k => 0 <= s < secp_n /\ 0 < k < secp_n /\ (s * k) mod secp_n = (be_val hash + r * d) mod secp_n) r ss); [| |exact ND].
  - intros s Hs. destruct (H s Hs) as [S V0]. destruct (verify_any g P hash hrest r s G B L S) as (d' & b & D' & EP' & V & I). rewrite V0 in V. injection V as <-.
    assert (d' = d). { rewrite EP in EP'. pose proof (k_pub_val _ D) as A. pose proof (k_pub_val _ D') as A'. rewrite <- EP', <- A in A'. destruct D, D'. apply cmul_inj; [lia|lia|now symmetry]. } subst d'.
    destruct (proj1 I eq_refl) as (_ & _ & k & x & y & K & C & X & Q). exists k, x, y. split; [exact K|]. split; [exact C|]. split; [exact X|]. split; [exact S|]. now split.
  - intros s s' k _ _ (S & K & Q) (S' & _ & Q'). rewrite <- Q' in Q. rewrite (Z.mul_comm s), (Z.mul_comm s') in Q.
    apply (prime_cancel secp_n k s s' L_Primes.n_prime) in Q; [|rewrite Z.mod_small; lia]. rewrite !Z.mod_small in Q by lia. exact Q.
Qed.
Print Assumptions C127_s.

(* ---------------------------------------------------------------- *)
(** ** Concrete cases: the signature of C126_verify_case; s and n - s; the hashes 0 and n *)
Lemma minus_one : secp_order - 1 = secp_n - 1. Proof. reflexivity. Qed.
Example C127_case : exists P, (forall Q, In Q [P] -> key_verify secp256k1 ready_example Q (case_hash ++ []) (G2x, 1) = Ok true) /\
  (forall s, In s [1; secp_n - 1] -> 0 <= s < secp_n /\ key_verify secp256k1 ready_example P (case_hash ++ []) (G2x, s) = Ok true) /\ NoDup [1; secp_n - 1] /\
  (forall h, In h [case_hash] -> bytes h /\ length h = 32%nat /\ key_verify secp256k1 ready_example P h (G2x, 1) = Ok true) /\
  be_val (be_bytes 32 0) mod secp_n = be_val (be_bytes 32 secp_n) mod secp_n /\ be_bytes 32 0 <> be_bytes 32 secp_n.
Proof.
  destruct C126_verify_case as (P & _ & V). pose proof n_pos as N. exists P. rewrite app_nil_r.
  assert (HL : length case_hash = 32%nat) by apply be_bytes_length. assert (HB : bytes case_hash) by apply be_bytes_bytes.
  assert (V' : key_verify secp256k1 ready_example P case_hash (G2x, secp_n - 1) = Ok true).
  { destruct (C60_verify_sign_of_s secp256k1 ready_example P case_hash G2x 1 ready_example_ok) as (b & V1 & V2); [rewrite HL; constructor|change secp_order with secp_n; clear - N; lia|].
    rewrite minus_one in V2. rewrite V in V1. rewrite V2. symmetry. exact V1. }
  split; [intros Q [<-|[]]; exact V|]. split; [intros s [<-|[<-|[]]]; [split; [lia|exact V]|split; [lia|exact V']]|].
  split; [constructor; [intros [H|[]]; lia|constructor; [intros []|constructor]]|].
  split; [intros h [<-|[]]; split; [exact HB|]; split; [exact HL|exact V]|]. split; [vm_compute; reflexivity|vm_compute; discriminate].
Qed.
