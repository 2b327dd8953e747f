(** The curve of S_Secp256k1 obeys the laws of S_Secp. *)
From Coq Require Import Zpow_facts Znumtheory Eqdep_dec.
From Verif Require Import Base S_Words L_Endian M_Endian L_Pock M_Secp S_Secp S_Secp256k1 L_Primes L_Zp L_Curve L_Group L_Order.

Definition cG : option (Z * Z) := Some (Gx, Gy).
Lemma cG_valid : valid cG. Proof. exact G_on. Qed.
Lemma n_pos : 2 < secp_n. Proof. reflexivity. Qed.
Lemma p_pos : 2 < secp_p. Proof. reflexivity. Qed.
Lemma p_256 : secp_p < 256 ^ Z.of_nat 32. Proof. reflexivity. Qed.
Lemma n_odd : secp_n mod 2 = 1. Proof. reflexivity. Qed.
Lemma p_odd : secp_p mod 2 = 1. Proof. reflexivity. Qed.

Lemma up_cmul k : up (cmul k cG) = gmul k gG. Proof. exact (proj2 (up_mul k cG cG_valid)). Qed.
Lemma cmul_valid k : valid (cmul k cG). Proof. exact (proj1 (up_mul k cG cG_valid)). Qed.
Lemma up_none P : up P = None <-> P = None.
Proof. destruct P as [[x y]|]; [|tauto]. split; discriminate. Qed.
Lemma gG_some : gG <> None. Proof. discriminate. Qed.
Lemma gmul_none k : 0 <= k -> gmul k gG = None <-> k mod secp_n = 0.
Proof.
  intros Hk. pose proof n_pos as N. split.
  - intros H. apply Zdivide_mod. exact (gmul_order secp_n k gG gG_on gG_some n_prime Hk order_G H).
  - intros H. rewrite <- (gmul_mod secp_n k gG gG_on ltac:(lia) Hk order_G), H. reflexivity.
Qed.
Lemma cmul_none k : 0 <= k -> cmul k cG = None <-> k mod secp_n = 0.
Proof. intros Hk. rewrite <- up_none, up_cmul. now apply gmul_none. Qed.
Lemma cadd_cmul a b : 0 <= a -> 0 <= b -> cadd (cmul a cG) (cmul b cG) = cmul ((a + b) mod secp_n) cG.
Proof.
  intros A B. pose proof n_pos as N. apply up_inj; [apply cadd_valid; apply cmul_valid|apply cmul_valid|].
  rewrite up_add by apply cmul_valid. rewrite !up_cmul.
  rewrite (gmul_mod secp_n (a + b) gG gG_on ltac:(lia) ltac:(lia) order_G). symmetry. exact (gmul_add a b gG gG_on A B).
Qed.
Lemma cmul_cmul a b : 0 <= a -> 0 <= b -> cmul a (cmul b cG) = cmul ((a * b) mod secp_n) cG.
Proof.
  intros A B. pose proof n_pos as N. destruct (up_mul a (cmul b cG) (cmul_valid b)) as [V E].
  apply up_inj; [exact V|apply cmul_valid|]. rewrite E, !up_cmul.
  rewrite (gmul_mod secp_n (a * b) gG gG_on ltac:(lia) ltac:(lia) order_G). exact (gmul_mul a b gG gG_on A B).
Qed.

(** Points. *)
Lemma pt_eq (P Q : curve_pt) : proj1_sig P = proj1_sig Q -> P = Q.
Proof. destruct P as [p Hp], Q as [q Hq]. cbn [proj1_sig]. intros ->. f_equal. apply UIP_dec, bool_dec. Qed.
Lemma as_pt_some P Q : as_pt (Some P) = Some Q -> proj1_sig Q = P /\ on_curve P = true.
Proof. unfold as_pt. destruct (bool_dec _ _) as [H|]; [|discriminate]. intros E. injection E as <-. now split. Qed.
Lemma as_pt_self (P : curve_pt) : as_pt (Some (proj1_sig P)) = Some P.
Proof.
  unfold as_pt. destruct (bool_dec _ _) as [H|H]; [|destruct (H (proj2_sig P))]. apply (f_equal Some), pt_eq. reflexivity.
Qed.
Lemma as_pt_valid P : on_curve P = true -> exists Q, as_pt (Some P) = Some Q /\ proj1_sig Q = P.
Proof. intros H. exists (exist _ P H). split; [exact (as_pt_self (exist _ P H))|reflexivity]. Qed.
Lemma k_pub_val k : scalar k -> cmul k cG = Some (proj1_sig (k_pub k)).
Proof.
  intros [K1 K2]. pose proof (cmul_valid k) as V. unfold k_pub. fold cG.
  destruct (cmul k cG) as [P|] eqn:E.
  - destruct (as_pt_valid P V) as (Q & EQ & PQ). rewrite EQ, PQ. reflexivity.
  - exfalso. apply cmul_none in E; [|lia]. rewrite Z.mod_small in E; lia.
Qed.
Lemma as_cmul k : 0 <= k < secp_n -> as_pt (cmul k cG) = if k =? 0 then None else Some (k_pub k).
Proof.
  intros K. destruct (Z.eqb_spec k 0) as [->|N]; [reflexivity|].
  rewrite (k_pub_val k) by (split; lia). apply as_pt_self.
Qed.
Lemma k_law_add k t : scalar k -> 0 <= t < secp_n ->
  k_add (k_pub k) t = if (k + t) mod secp_n =? 0 then None else Some (k_pub ((k + t) mod secp_n)).
Proof.
  intros K T. unfold k_add. fold cG. rewrite <- (k_pub_val k K), cadd_cmul by (destruct K; lia).
  apply as_cmul. apply Z.mod_pos_bound. pose proof n_pos. lia.
Qed.

(** Octet strings. *)
Lemma be32 k : 0 <= k < secp_p -> be_val (be_bytes 32 k) = k.
Proof. intros H. rewrite be_val_be_bytes. apply Z.mod_small. pose proof p_256. lia. Qed.
Lemma curve_nz x y : on_curve (x, y) = true -> y <> 0.
Proof.
  rewrite on_curve_spec. intros (_ & _ & E) ->. pose proof (no_cube x) as N. apply N. rewrite <- E. apply Zmod_0_l.
Qed.
Lemma sqrt_gen p e y : prime p -> p + 1 = 4 * e -> 0 <= y < p -> let y0 := (y * y) ^ e mod p in y0 = y \/ y0 = (p - y) mod p.
Proof.
  intros P E Y y0. pose proof (prime_ge_2 p P) as P2. assert (E0 : 0 <= e) by lia.
  assert (Y0 : 0 <= y0 < p) by (apply Z.mod_pos_bound; lia).
  destruct (Z.eq_dec y 0) as [->|N].
  { left. unfold y0. change (0 * 0) with 0. rewrite Z.pow_0_l by lia. apply Zmod_0_l. }
  assert (Q : ((y0 - y) * (y0 + y)) mod p = 0).
  { replace ((y0 - y) * (y0 + y)) with (y0 * y0 - y * y) by ring. unfold y0. rewrite Zminus_mod, <- Zmult_mod.
    rewrite <- Z.pow_add_r by lia. replace (y * y) with (y ^ 2) at 1 by ring. rewrite <- Z.pow_mul_r by lia.
    replace (2 * (e + e)) with ((p - 1) + 2) by lia. rewrite Z.pow_add_r by lia. rewrite Zmult_mod, (fermat p y P) by (rewrite Z.mod_small; lia).
    rewrite Z.mul_1_l, Zmod_mod. replace (y ^ 2) with (y * y) by ring. rewrite Z.sub_diag. apply Zmod_0_l. }
  apply Zmod_divide in Q; [|lia]. apply (prime_mult p P) in Q. destruct Q as [D|D]; apply Zdivide_mod in D.
  - left. assert (A : (y0 - y + y) mod p = y mod p) by (rewrite Zplus_mod, D, Z.add_0_l; apply Zmod_mod).
    replace (y0 - y + y) with y0 in A by lia. rewrite !Z.mod_small in A by lia. exact A.
  - right. assert (A : (y0 + y - y + p) mod p = (p - y) mod p).
    { replace (y0 + y - y + p) with ((y0 + y) + (p - y)) by lia. rewrite Zplus_mod, D, Z.add_0_l. apply Zmod_mod. }
    replace (y0 + y - y + p) with (y0 + 1 * p) in A by lia. rewrite Z_mod_plus_full, Z.mod_small in A by lia. exact A.
Qed.
Lemma quarter_p : secp_p + 1 = 4 * ((secp_p + 1) / 4). Proof. reflexivity. Qed.
Lemma msqrt_ok x y : on_curve (x, y) = true -> msqrt (x * x * x + 7) = y \/ msqrt (x * x * x + 7) = secp_p - y.
Proof.
  intros C. pose proof (curve_nz x y C) as N. apply on_curve_spec in C. destruct C as (X & Y & E). unfold msqrt. pose proof p_pos as P.
  rewrite Zpow_mod_correct by lia. pose proof quarter_p as Q. revert Q. generalize ((secp_p + 1) / 4). intros e Q.
  rewrite Zpower_mod, <- E, <- Zpower_mod by lia.
  destruct (sqrt_gen secp_p e y p_prime Q Y) as [A|A]; [left; exact A|right]. rewrite A. apply Z.mod_small. lia.
Qed.
Lemma pick p y y0 : p mod 2 = 1 -> 0 < y < p -> y0 = y \/ y0 = p - y -> (if y0 mod 2 =? 2 + y mod 2 - 2 then y0 else p - y0) = y.
Proof. intros O Y [->| ->]; match goal with |- context [?a =? ?b] => destruct (Z.eqb_spec a b) end; dlia. Qed.
Lemma k_law_ser33 P : length (k_ser true P) = 33%nat /\ bytes (k_ser true P) /\ (hd 0 (k_ser true P) = 2 \/ hd 0 (k_ser true P) = 3).
Proof.
  unfold k_ser. destruct (proj1_sig P) as [x y]. split; [cbn [length]; now rewrite be_bytes_length|].
  split; [|cbn [hd]; dlia]. apply bytes_cons. split; [unfold is_byte; dlia|apply be_bytes_bytes].
Qed.
Lemma k_law_ser65 P : length (k_ser false P) = 65%nat /\ bytes (k_ser false P) /\ hd 0 (k_ser false P) = 4.
Proof.
  unfold k_ser. destruct (proj1_sig P) as [x y]. split; [cbn [length]; rewrite app_length, !be_bytes_length; reflexivity|].
  split; [|reflexivity]. apply bytes_cons. split; [unfold is_byte; lia|]. apply bytes_app. split; apply be_bytes_bytes.
Qed.
Lemma k_law_parse c P : k_parse (k_ser c P) = Some P.
Proof.
  pose proof (as_pt_self P) as A. pose proof (proj2_sig P) as C. cbv beta in C. unfold k_ser. destruct (proj1_sig P) as [x y].
  pose proof C as C'. apply on_curve_spec in C'. destruct C' as (X & Y & _). pose proof (curve_nz x y C) as N. destruct c.
  - unfold k_parse. cbv zeta. rewrite be_bytes_length. rewrite firstn_all2 by (rewrite be_bytes_length; lia). rewrite be32 by exact X.
    assert (T : (2 + y mod 2 =? 2) || (2 + y mod 2 =? 3) = true) by (clear; dlia). rewrite T. change (true && (32 =? 32)%nat) with true. cbv iota.
    rewrite (pick secp_p y _ p_odd ltac:(lia) (msqrt_ok x y C)). exact A.
  - unfold k_parse. cbv zeta. rewrite app_length, !be_bytes_length.
    rewrite firstn_app, skipn_app, be_bytes_length, Nat.sub_diag, firstn_all2, skipn_all2 by (rewrite be_bytes_length; lia).
    change (firstn 0 (be_bytes 32 y)) with (@nil Z). change (skipn 0 (be_bytes 32 y)) with (be_bytes 32 y). rewrite app_nil_r, app_nil_l, !be32 by assumption.
    exact A.
Qed.
Lemma pick_parity p t y : p mod 2 = 1 -> t = 2 \/ t = 3 -> 2 + (if y mod 2 =? t - 2 then y else p - y) mod 2 = t.
Proof. intros O [->| ->]; match goal with |- context [?a =? ?b] => destruct (Z.eqb_spec a b) end; dlia. Qed.
Lemma k_law_parse33 b P : bytes b -> length b = 33%nat -> k_parse b = Some P -> k_ser true P = b.
Proof.
  destruct b as [|t r]; [discriminate|]. intros B L. apply bytes_cons in B. destruct B as [_ B]. cbn [length] in L. injection L as L.
  unfold k_parse. cbv zeta. rewrite L, firstn_all2 by lia. change (32 =? 32)%nat with true. change (32 =? 64)%nat with false. rewrite andb_true_r, andb_false_r.
  destruct ((t =? 2) || (t =? 3)) eqn:T; [|discriminate]. assert (T' : t = 2 \/ t = 3) by lia.
  intros H. apply as_pt_some in H. destruct H as [H C]. unfold k_ser. rewrite H.
  rewrite (pick_parity secp_p t _ p_odd T'). f_equal. rewrite <- L. now apply be_bytes_be_val.
Qed.

(** ECDSA. *)
Lemma minv_mul m a : prime m -> a mod m <> 0 -> (a * minv m a) mod m = 1.
Proof.
  intros P A. pose proof (prime_ge_2 m P). unfold minv. rewrite Zpow_mod_correct, Zmult_mod_idemp_r by lia.
  rewrite <- (Z.pow_1_r a) at 1. rewrite <- Z.pow_add_r by lia. replace (1 + (m - 2)) with (m - 1) by lia. exact (fermat m a P A).
Qed.
Lemma mod_eq m a b : 0 < m -> (m | a - b) -> a mod m = b mod m.
Proof. intros M [q E]. replace a with (b + q * m) by lia. apply Z_mod_plus_full. Qed.
Lemma mod_div m a b : a mod m = b mod m -> (m | a - b).
Proof.
  intros E. destruct (Z.eq_dec m 0) as [->|N].
  - rewrite !Zmod_0_r in E. subst. rewrite Z.sub_diag. apply Z.divide_0_r.
  - apply Zmod_divide; [exact N|]. rewrite Zminus_mod, E, Z.sub_diag. apply Zmod_0_l.
Qed.
(** the two scalars of the verification add up to the nonce *)
Lemma nonce_back m s w j z r d : 0 < m -> (s * w) mod m = 1 mod m -> (s * j) mod m = (z + r * d) mod m ->
  ((z * w) mod m + (((r * w) mod m) * d) mod m) mod m = j mod m.
Proof.
  intros M W J. rewrite <- Zplus_mod, Zplus_mod_idemp_l || idtac.
  rewrite Zmult_mod_idemp_l. rewrite <- Zplus_mod. apply mod_div in W. apply mod_div in J. apply mod_eq; [exact M|].
  destruct W as [a A], J as [b B]. exists (- b * w + a * j).
  replace (z * w + r * w * d - j) with ((z + r * d - s * j) * w + (s * w - 1) * j) by ring.
  replace (z + r * d - s * j) with (- (b * m)) by lia. rewrite A. ring.
Qed.
Lemma verify_core d hash r s j x y : 0 <= be_val hash -> scalar d -> scalar r -> scalar s -> scalar j -> (s * j) mod secp_n = (be_val hash + r * d) mod secp_n ->
  cmul j cG = Some (x, y) -> x mod secp_n = r -> k_verify (r, s) hash (k_pub d) = true.
Proof.
  intros Hz [D1 D2] [R1 R2] [S1 S2] [J1 J2] J C X. pose proof n_pos as N. unfold k_verify. fold cG. cbv zeta.
  assert (Ir : in_order r = true) by (unfold in_order; lia). assert (Is : in_order s = true) by (unfold in_order; lia). rewrite Ir, Is. cbn [andb].
  assert (W : (s * minv secp_n s) mod secp_n = 1 mod secp_n).
  { rewrite minv_mul; [symmetry; apply Z.mod_1_l; lia|exact n_prime|rewrite Z.mod_small; lia]. }
  revert W. generalize (minv secp_n s). intros w W.
  rewrite <- (k_pub_val d) by (split; assumption).
  rewrite cmul_cmul by (try (apply Z.mod_pos_bound; lia); lia).
  rewrite cadd_cmul by (apply Z.mod_pos_bound; lia).
  rewrite (nonce_back secp_n s w j _ _ d ltac:(lia) W J), Z.mod_small by lia. rewrite C. apply Z.eqb_eq. exact X.
Qed.
Lemma cmul_opp k x y : scalar k -> cmul k cG = Some (x, y) -> exists y', cmul (secp_n - k) cG = Some (x, y').
Proof.
  intros [K1 K2] C. pose proof n_pos as N.
  assert (S : gadd (gmul k gG) (gmul (secp_n - k) gG) = None).
  { rewrite <- gmul_add by (exact gG_on || lia). replace (k + (secp_n - k)) with secp_n by lia. exact order_G. }
  apply ginverse in S; [|apply gmul_on, gG_on|apply gmul_on, gG_on]. rewrite <- !up_cmul, C in S.
  pose proof (cmul_valid (secp_n - k)) as V'. pose proof (cmul_valid k) as V. rewrite C in V.
  destruct (cmul (secp_n - k) cG) as [[x' y']|]; [|discriminate]. exists y'. f_equal. f_equal.
  change (Some (fmk secp_p x', fmk secp_p y') = Some (fmk secp_p x, fopp secp_p (fmk secp_p y))) in S.
  assert (E : fmk secp_p x' = fmk secp_p x) by (revert S; generalize (fmk secp_p x') (fmk secp_p x) (fmk secp_p y') (fopp secp_p (fmk secp_p y)); intros; congruence).
  cbn [valid] in V, V'. apply on_curve_spec in V. apply on_curve_spec in V'. apply fmk_eq in E. rewrite !Z.mod_small in E by tauto. exact E.
Qed.
Lemma half_low n s : n mod 2 = 1 -> 0 < s < n -> 0 < (if n / 2 <? s then n - s else s) <= n / 2.
Proof. intros O S. destruct (Z.ltb_spec (n / 2) s); dlia. Qed.
Lemma nonce_eq m k w e : 0 < m -> (k * w) mod m = 1 -> (((w * e) mod m) * k) mod m = e mod m.
Proof.
  intros M W. rewrite Zmult_mod_idemp_l. replace (w * e * k) with (k * w * e) by ring. rewrite Zmult_mod, W, Z.mul_1_l. apply Zmod_mod.
Qed.
Lemma nonce_neg m a s k : 0 < m -> (s * k) mod m = a mod m -> ((m - s) * (m - k)) mod m = a mod m.
Proof.
  intros M E. replace ((m - s) * (m - k)) with (s * k + (m - s - k) * m) by ring. rewrite Z_mod_plus_full. exact E.
Qed.
Lemma sign_with_ok d hash k r s : 0 <= be_val hash -> scalar d -> sign_with d (be_val hash) k = Some (r, s) ->
  scalar r /\ 0 < s <= secp_n / 2 /\ k_verify (r, s) hash (k_pub d) = true.
Proof.
  intros Hz D. unfold sign_with. fold cG. cbv zeta. pose proof n_pos as N. destruct (in_order k) eqn:K; [|discriminate]. cbn [negb].
  assert (Sk : scalar k) by (unfold in_order in K; split; lia). destruct Sk as [K1 K2].
  destruct (cmul k cG) as [[x y]|] eqn:C; [|discriminate].
  assert (W : (k * minv secp_n k) mod secp_n = 1) by (apply minv_mul; [exact n_prime|rewrite Z.mod_small; lia]).
  revert W. generalize (minv secp_n k). intros w W.
  pose proof (nonce_eq secp_n k w (be_val hash + x mod secp_n * d) ltac:(lia) W) as Q.
  pose proof (Z.mod_pos_bound (w * (be_val hash + x mod secp_n * d)) secp_n ltac:(lia)) as SB.
  pose proof (Z.mod_pos_bound x secp_n ltac:(lia)) as RB.
  revert Q SB. generalize ((w * (be_val hash + x mod secp_n * d)) mod secp_n). intros s0 Q SB.
  destruct ((x mod secp_n =? 0) || (s0 =? 0)) eqn:Z; [discriminate|]. intros H.
  assert (Hr : x mod secp_n = r) by congruence. assert (Hs : (if secp_n / 2 <? s0 then secp_n - s0 else s0) = s) by congruence. clear H.
  rewrite Hr in *. assert (R : scalar r) by (split; lia). split; [exact R|].
  pose proof (half_low secp_n s0 n_odd ltac:(lia)) as L. rewrite Hs in L. split; [exact L|].
  assert (S : scalar s) by (split; [lia|]; destruct (_ <? s0); lia).
  destruct (secp_n / 2 <? s0).
  - destruct (cmul_opp k x y (conj K1 K2) C) as [y' C']. apply (verify_core d hash r s (secp_n - k) x y'); try assumption; [split; lia|].
    rewrite <- Hs. apply nonce_neg; [lia|exact Q].
  - apply (verify_core d hash r s k x y); try assumption; [split; lia|]. rewrite <- Hs. exact Q.
Qed.
Lemma attempts_nonce d z sig : forall fuel K V, attempts fuel d z K V = Some sig -> exists k, sign_with d z k = Some sig.
Proof.
  induction fuel as [|fuel IH]; intros K V; [discriminate|]. cbn [attempts]. cbv zeta. generalize (hmac256 K V). intros V1.
  destruct (sign_with d z (be_val V1)) as [sg|] eqn:E; [intros H; injection H as ->; eauto|apply IH].
Qed.
Definition finish (a : option (Z * Z)) (d z : Z) : option (Z * Z) :=
  match a with Some sig => Some sig | None => match sign_with d z 1 with Some sig => Some sig | None => sign_with d z 2 end end.
Lemma k_sign_shape key hash extra : k_sign key hash extra = (if negb (in_order (be_val key)) then None else
  finish (attempts 1000 (be_val key) (be_val hash) (fst (drbg_init (key ++ hash ++ match extra with None => [] | Some e => e end)))
    (snd (drbg_init (key ++ hash ++ match extra with None => [] | Some e => e end)))) (be_val key) (be_val hash)).
Proof. unfold k_sign. cbv zeta. generalize (drbg_init (key ++ hash ++ match extra with None => [] | Some e => e end)). intros [K V]. cbn [fst snd]. unfold finish. reflexivity. Qed.
Lemma attempts_any fuel d z K V : attempts fuel d z K V = None \/ exists k sig, attempts fuel d z K V = Some sig /\ sign_with d z k = Some sig.
Proof. destruct (attempts fuel d z K V) as [sg|] eqn:E; [|now left]. right. destruct (attempts_nonce _ _ _ _ _ _ E) as [k H]. eauto. Qed.
Lemma k_law_sign key hash extra r s : bytes hash -> k_sign key hash extra = Some (r, s) ->
  scalar (be_val key) /\ scalar r /\ 0 < s <= secp_n / 2 /\ k_verify (r, s) hash (k_pub (be_val key)) = true.
Proof.
  intros B. rewrite k_sign_shape. destruct (in_order (be_val key)) eqn:O; [|discriminate]. cbn [negb].
  assert (D : scalar (be_val key)) by (unfold in_order in O; split; lia). pose proof (be_val_bound hash B) as Hz.
  assert (X : forall k, sign_with (be_val key) (be_val hash) k = Some (r, s) ->
    scalar (be_val key) /\ scalar r /\ 0 < s <= secp_n / 2 /\ k_verify (r, s) hash (k_pub (be_val key)) = true).
  { intros k H. split; [exact D|]. apply (sign_with_ok _ _ k); [lia|exact D|exact H]. }
  match goal with |- finish (attempts ?f ?d ?z ?K ?V) _ _ = _ -> _ => destruct (attempts_any f d z K V) as [E|(k & sig & E & H)] end; rewrite E; unfold finish.
  - destruct (sign_with (be_val key) (be_val hash) 1) eqn:E1; [intros F; injection F as ->; exact (X 1 E1)|]. exact (X 2).
  - intros F. injection F as ->. exact (X k H).
Qed.

(** 2G *)
Definition G2x : Z := 0xC6047F9441ED7D6D3045406E95C07CD85C778E4B8CEF3CA7ABAC09B95C709EE5.
Definition G2y : Z := 0x1AE168FEA63DC339A3C58419466CEAEEF7F632653266D0E1236431A950CFE52A.
Definition G2l : Z := 0xcb35b28428101a303eb9d1235992ac63f58857c2f631ee6936d3aebbeddcd1b1.
Lemma G2_line : zero_p (G2l * (2 * Gy) - 3 * (Gx * Gx)) = true. Proof. vm_compute. reflexivity. Qed.
Lemma G2_x : fst (third_p' G2l Gx Gy Gx) mod secp_p = G2x. Proof. vm_compute. reflexivity. Qed.
Lemma G2_y : snd (third_p' G2l Gx Gy Gx) mod secp_p = G2y. Proof. vm_compute. reflexivity. Qed.
Lemma mul_2 : cmul 2 cG = Some (G2x, G2y).
Proof.
  pose proof (cmul_valid 2) as V. pose proof (up_cmul 2) as U. destruct (cmul 2 cG) as [[x y]|]; [|exfalso; revert U].
  - assert (D : dbl G2l (Gx, Gy) = Some (third_p' G2l Gx Gy Gx)) by (unfold dbl; rewrite G2_line; reflexivity).
    apply (dbl_ok G2l (Gx, Gy) _ gG_on) in D. change (gadd (gp (Gx, Gy)) (gp (Gx, Gy))) with (gmul 2 gG) in D. rewrite <- D in U. clear D.
    pose proof G2_x as X. pose proof G2_y as Y. revert U X Y. generalize (third_p' G2l Gx Gy Gx). intros [x2 y2] U X Y. cbn [fst snd] in X, Y.
    change (Some (fmk secp_p x, fmk secp_p y) = Some (fmk secp_p x2, fmk secp_p y2)) in U.
    assert (E : fmk secp_p x = fmk secp_p x2 /\ fmk secp_p y = fmk secp_p y2).
    { revert U. generalize (fmk secp_p x) (fmk secp_p y) (fmk secp_p x2) (fmk secp_p y2). intros a b c d U. split; congruence. }
    destruct E as [E1 E2]. apply fmk_eq in E1. apply fmk_eq in E2. rewrite X in E1. rewrite Y in E2. cbn [valid] in V. apply on_curve_spec in V.
    rewrite !Z.mod_small in E1, E2 by tauto. now rewrite E1, E2.
  - intros U. symmetry in U. apply gmul_none in U; [|lia]. rewrite Z.mod_small in U; [discriminate|]. pose proof n_pos. lia.
Qed.

Lemma two_nonces n z d a b : prime n -> 2 < n -> 0 < d < n -> a mod n <> b mod n -> (z + a * d) mod n = 0 -> (z + b * d) mod n = 0 -> False.
Proof.
  intros P N D AB A B. assert (E : ((a - b) * d) mod n = 0).
  { replace ((a - b) * d) with ((z + a * d) - (z + b * d)) by ring. rewrite Zminus_mod, A, B. apply Zmod_0_l. }
  apply Zmod_divide in E; [|lia]. apply (prime_mult n P) in E. destruct E as [E|E].
  - apply AB. apply mod_eq; [lia|exact E].
  - apply Zdivide_mod in E. rewrite Z.mod_small in E by lia. lia.
Qed.
Lemma sign_with_none d z k x y : scalar k -> cmul k cG = Some (x, y) -> x mod secp_n <> 0 -> sign_with d z k = None ->
  (z + x mod secp_n * d) mod secp_n = 0.
Proof.
  intros K C X. pose proof n_pos as N. unfold sign_with. fold cG. cbv zeta. assert (O : in_order k = true) by (destruct K; unfold in_order; lia).
  rewrite O, C. cbn [negb]. destruct K as [K1 K2].
  assert (W : (k * minv secp_n k) mod secp_n = 1) by (apply minv_mul; [exact n_prime|rewrite Z.mod_small; lia]).
  revert W. generalize (minv secp_n k). intros w W. generalize dependent (x mod secp_n). intros r R.
  destruct (r =? 0) eqn:R0; [lia|]. cbn [orb]. destruct (Z.eqb_spec ((w * (z + r * d)) mod secp_n) 0) as [E|]; [|discriminate]. intros _.
  rewrite <- (nonce_eq secp_n k w _ ltac:(lia) W), E. apply Zmod_0_l.
Qed.
Lemma Gx_r : Gx mod secp_n <> 0. Proof. vm_compute. discriminate. Qed.
Lemma G2x_r : G2x mod secp_n <> 0. Proof. vm_compute. discriminate. Qed.
Lemma Gx_G2x : (Gx mod secp_n) mod secp_n <> (G2x mod secp_n) mod secp_n. Proof. vm_compute. discriminate. Qed.
Lemma k_law_signs key hash extra : scalar (be_val key) -> k_sign key hash extra <> None.
Proof.
  intros D. rewrite k_sign_shape. assert (O : in_order (be_val key) = true) by (destruct D; unfold in_order; lia). rewrite O. cbn [negb].
  match goal with |- finish ?a _ _ <> _ => generalize a end. intros [sg|]; [discriminate|]. unfold finish.
  destruct (sign_with (be_val key) (be_val hash) 1) eqn:E1; [discriminate|]. intros E2. pose proof n_pos as N.
  assert (S1 : scalar 1) by (split; lia). assert (S2 : scalar 2) by (split; lia). assert (C1 : cmul 1 cG = Some (Gx, Gy)) by reflexivity.
  pose proof (sign_with_none (be_val key) (be_val hash) 1 Gx Gy S1 C1 Gx_r E1) as F1.
  pose proof (sign_with_none (be_val key) (be_val hash) 2 G2x G2y S2 mul_2 G2x_r E2) as F2.
  exact (two_nonces secp_n (be_val hash) (be_val key) (Gx mod secp_n) (G2x mod secp_n) n_prime N D Gx_G2x F1 F2).
Qed.

Theorem secp256k1_laws : secp_laws secp256k1.
Proof.
  constructor.
  - exact k_law_add.
  - exact k_law_ser33.
  - exact k_law_ser65.
  - exact k_law_parse.
  - exact k_law_parse33.
  - intros key hash extra r s _ _ B _. exact (k_law_sign key hash extra r s B).
  - intros key hash extra _ _ _ _. exact (k_law_signs key hash extra).
Qed.
Print Assumptions secp256k1_laws.
