(** Properties C33-C39: Bech32. *)
From Verif Require Import Base M_Endian M_Bech32 S_Bech32 L_Bch L_Bech32.

(** C33: the table-driven checksum step is the BIP-173 generator step. *)
Theorem C33_bech32_poly_mod : forall c v, 0 <= c < 2 ^ 30 -> 0 <= v < 32 ->
  poly_mod v c = Ok (polymod_step c v) /\ 0 <= polymod_step c v < 2 ^ 30.
Proof. intros c v Hc Hv. split; [now apply poly_mod_ok|]. apply step_bound; lia. Qed.
Print Assumptions C33_bech32_poly_mod.
Example C33_witness : poly_mod 17 0x2abcdef1 = Ok (polymod_step 0x2abcdef1 17) /\ polymod_step 0x2abcdef1 17 <> 0.
Proof. split; vm_compute; [reflexivity|discriminate]. Qed.

(** C34: the text written is hrp, "1", data characters, checksum characters; its length is the announced one. *)
Theorem C34_bech32_encode : forall hrp data, bytes hrp -> Forall five_bit data ->
  exists text chk, bech32_encode hrp data = Ok text /\
    text = hrp ++ [49] ++ map bech32_char data ++ map bech32_char chk /\
    length text = bech32_encode_length (length hrp) (length data) /\
    length text = (length hrp + length data + 7)%nat /\
    length chk = 6%nat /\ Forall five_bit chk /\ chk = bech32_checksum hrp data /\ bech32_checksum_valid hrp (data ++ chk).
Proof.
  intros hrp data Hh Hd. destruct (checksum_verifies hrp data Hh Hd) as (F & L & V).
  eexists. exists (bech32_checksum hrp data). rewrite bech32_encode_ok by assumption. split; [reflexivity|].
  split; [now rewrite map_app|]. assert (Lt : length (hrp ++ [49] ++ map bech32_char (data ++ bech32_checksum hrp data)) = (length hrp + length data + 7)%nat).
  { rewrite !app_length, map_length, app_length, L. cbn [length]. lia. }
  split; [rewrite Lt; reflexivity|]. auto 6.
Qed.
Print Assumptions C34_bech32_encode.
(** a data value above 31 is caught by the assertion *)
Theorem C34_bech32_encode_assert : forall hrp data, bytes hrp -> bytes data -> ~ Forall five_bit data ->
  bech32_encode hrp data = Abort.
Proof.
  intros hrp data Hh Hd N. unfold bech32_encode. rewrite create_checksum_ok by assumption. cbn [bind].
  now rewrite encode_chars_abort.
Qed.
Print Assumptions C34_bech32_encode_assert.
(* BIP-173: "abcdef" with values 0..31 *)
Example C34_witness : bech32_encode [97;98;99;100;101;102] (zrange 32) =
  Ok [97;98;99;100;101;102;49;113;112;122;114;121;57;120;56;103;102;50;116;118;100;119;48;115;51;106;110;53;52;107;104;99;101;54;109;117;97;55;108;109;113;113;113;120;119].
Proof. vm_compute. reflexivity. Qed.

(** C35: round trip, for every printable hrp without upper-case letters. *)
Theorem C35_bech32_roundtrip : forall hrp data rest cap,
  hrp <> [] -> Forall (fun c => 33 <= c <= 126 /\ ~ is_upper c) hrp -> Forall five_bit data ->
  (length hrp + length data + 7 <= 90)%nat -> (length hrp <= cap)%nat ->
  exists text, bech32_encode hrp data = Ok text /\
    bech32_decode (text ++ 0 :: rest) (length text) cap = Ok (mkB32 (Z.of_nat (length data)) (length hrp) hrp data).
Proof.
  intros hrp data rest cap Hn Hh Hd L Hc. eexists. rewrite bech32_encode_ok; [split; [reflexivity|]| |exact Hd].
  - apply bech32_decode_accepts; [now apply encoded_valid|exact Hc].
  - eapply Forall_impl; [|exact Hh]. unfold is_byte. cbv beta. intros; lia.
Qed.
Print Assumptions C35_bech32_roundtrip.
Example C35_witness : match bech32_encode [98; 99] [0; 14; 20; 15; 7; 31] with
  | Ok text => bech32_decode (text ++ 0 :: [49]) (length text) 2 = Ok (mkB32 6 2 [98; 99] [0; 14; 20; 15; 7; 31])
  | _ => False end.
Proof. vm_compute. reflexivity. Qed.

(** C36: the decoder accepts exactly the valid strings whose hrp fits, and yields their hrp and data. *)
Theorem C36_bech32_language : forall s rest cap, Forall (fun c => 0 < c < 256) s ->
  (forall hrp data, bech32_valid s hrp data -> (length hrp <= cap)%nat ->
     bech32_decode (s ++ 0 :: rest) (length s) cap = Ok (mkB32 (Z.of_nat (length data)) (length hrp) hrp data)) /\
  (exists r, bech32_decode (s ++ 0 :: rest) (length s) cap = Ok r /\
     (0 <= b_ret r -> bech32_valid s (b_hrp r) (b_data r) /\ (length (b_hrp r) <= cap)%nat /\
        b_ret r = Z.of_nat (length (b_data r)) /\ b_hrp_size r = length (b_hrp r))).
Proof.
  intros s rest cap NZ. split; [intros; now apply bech32_decode_accepts|].
  destruct (bech32_decode_total s rest (length s) cap NZ) as (r & E & Lh & _ & _ & R). exists r. split; [exact E|].
  intros H. destruct R as [R|(R1 & R2 & _ & V)]; [lia|]. rewrite firstn_all in V. auto.
Qed.
Print Assumptions C36_bech32_language.
(** a string has at most one meaning *)
Theorem C36_bech32_valid_unique : forall s h1 d1 h2 d2, bech32_valid s h1 d1 -> bech32_valid s h2 d2 -> h1 = h2 /\ d1 = d2.
Proof.
  intros s h1 d1 h2 d2 V1 V2.
  pose proof (bech32_decode_accepts s [] h1 d1 (length h1 + length h2) V1 ltac:(lia)) as E1.
  pose proof (bech32_decode_accepts s [] h2 d2 (length h1 + length h2) V2 ltac:(lia)) as E2.
  rewrite E1 in E2. injection E2 as _ _ -> ->. auto.
Qed.
Print Assumptions C36_bech32_valid_unique.
(* BIP-173 valid: A12UEL5L; invalid: 10a06t8 (no hrp), A1G7SGD8 (checksum) *)
Example C36_witness :
  bech32_decode ([65;49;50;85;69;76;53;76] ++ [0]) 8 83 = Ok (mkB32 0 1 [97] []) /\
  bech32_decode ([49;48;97;48;54;116;56] ++ [0]) 7 83 = Ok (mkB32 (-2) 83 [] []) /\
  bech32_decode ([65;49;71;55;83;71;68;56] ++ [0]) 8 83 = Ok (mkB32 (-5) 1 [97] []).
Proof. repeat split; vm_compute; reflexivity. Qed.

(** C37: two accepted strings of the same length and the same hrp, that differ otherwise than in case,
    differ in at least five characters. *)
Theorem C37_bech32_distance : forall s1 s2 rest1 rest2 cap r1 r2,
  Forall (fun c => 0 < c < 256) s1 -> Forall (fun c => 0 < c < 256) s2 -> length s1 = length s2 ->
  bech32_decode (s1 ++ 0 :: rest1) (length s1) cap = Ok r1 -> 0 <= b_ret r1 ->
  bech32_decode (s2 ++ 0 :: rest2) (length s2) cap = Ok r2 -> 0 <= b_ret r2 ->
  b_hrp r1 = b_hrp r2 -> map tolower s1 <> map tolower s2 ->
  (5 <= hamming (map tolower s1) (map tolower s2))%nat.
Proof.
  intros s1 s2 rest1 rest2 cap r1 r2 N1 N2 L E1 G1 E2 G2 EH ND.
  destruct (C36_bech32_language s1 rest1 cap N1) as [_ (r1' & E1' & V1)]. rewrite E1 in E1'. injection E1' as <-.
  destruct (C36_bech32_language s2 rest2 cap N2) as [_ (r2' & E2' & V2)]. rewrite E2 in E2'. injection E2' as <-.
  destruct (V1 G1) as ((L90 & P1 & _ & h1 & d1 & c1 & S1 & Nh1 & _ & H1 & F1 & Lc1 & M1 & K1) & _). clear V1 E1 G1.
  destruct (V2 G2) as ((_ & P2 & _ & h2 & d2 & c2 & S2 & Nh2 & _ & H2 & F2 & Lc2 & M2 & K2) & _). clear V2 E2 G2.
  set (v1 := b_data r1 ++ c1) in *. set (v2 := b_data r2 ++ c2) in *. clearbody v1 v2.
  rewrite EH in *. set (h := b_hrp r2) in *. clearbody h.
  assert (Bh : bytes h) by (rewrite H1; apply printable_bytes, printable_lower; rewrite S1 in P1; apply Forall_app in P1; tauto).
  assert (Lh : length h1 = length h2) by (apply (f_equal (@length Z)) in H1, H2; rewrite map_length in *; lia).
  assert (Ld : length v1 = length d1 /\ length v2 = length d2) by (apply (f_equal (@length Z)) in M1, M2; rewrite !map_length in *; lia).
  subst s1 s2. rewrite !app_length in *. cbn [length] in *.
  rewrite !map_app, <- H1, <- H2, M1, M2 in *. clear H1 H2 M1 M2.
  assert (HA : forall p a b : list Z, hamming (p ++ a) (p ++ b) = hamming a b).
  { induction p as [|x p IH]; intros a b; [reflexivity|]. cbn [app hamming]. now rewrite Z.eqb_refl, IH. }
  rewrite !HA, hamming_chars by assumption.
  assert (Hl1 : (1 <= length h1)%nat) by (destruct h1; [congruence|cbn [length]; lia]).
  apply (checksum_distance h v1 v2); auto; try lia. intros ->. now apply ND.
Qed.
Print Assumptions C37_bech32_distance.
(* hypotheses met by two encodings; one changed character is rejected *)
Example C37_nonvacuous :
  match bech32_encode [98; 99] [1; 2; 3], bech32_encode [98; 99] [1; 2; 4] with
  | Ok t1, Ok t2 =>
      bech32_decode (t1 ++ [0]) (length t1) 83 = Ok (mkB32 3 2 [98; 99] [1; 2; 3]) /\
      bech32_decode (t2 ++ [0]) (length t2) 83 = Ok (mkB32 3 2 [98; 99] [1; 2; 4]) /\
      length t1 = length t2 /\ (5 <=? hamming (map tolower t1) (map tolower t2))%nat = true
  | _, _ => False end.
Proof. vm_compute. repeat split. Qed.
Example C37_rejected :
  bech32_decode ([97;49;50;117;101;108;53;108] ++ [0]) 8 83 = Ok (mkB32 0 1 [97] []) /\
  bech32_decode ([97;49;50;117;101;108;53;99] ++ [0]) 8 83 = Ok (mkB32 (-5) 1 [97] []).
Proof. split; vm_compute; reflexivity. Qed.

(** C38: strings equal up to case, neither of them mixing cases, decode alike. *)
Lemma valid_case s s' hrp data : map tolower s = map tolower s' -> ~ mixed_case s' -> bech32_valid s hrp data -> bech32_valid s' hrp data.
Proof.
  intros E NM (L & P & _ & h & d & chk & -> & Hn & N49 & -> & F & Lc & M & V).
  assert (Lx : length (h ++ [49] ++ d) = length s') by (apply (f_equal (@length Z)) in E; now rewrite !map_length in E).
  split; [now rewrite <- Lx|]. split.
  { apply Forall_forall. intros c I. assert (J : In (tolower c) (map tolower (h ++ [49] ++ d))) by (rewrite E; now apply in_map).
    apply in_map_iff in J as (c' & J1 & J2). rewrite Forall_forall in P. specialize (P c' J2). unfold tolower in J1.
    destruct ((65 <=? c') && (c' <=? 90)) eqn:X1, ((65 <=? c) && (c <=? 90)) eqn:X2; lia. }
  split; [exact NM|].
  rewrite !map_app in E. symmetry in E. apply map_eq_app in E as (h' & t & -> & Eh & Et). apply map_eq_app in Et as (o & d' & -> & Eo & Ed).
  destruct o as [|x [|y o]]; try discriminate. cbn [map] in Eo.
  assert (x = 49). { change (tolower 49) with 49 in Eo. injection Eo as Eo. unfold tolower in Eo. destruct ((65 <=? x) && (x <=? 90)) eqn:X; lia. }
  subst x. exists h', d', chk. split; [reflexivity|]. split.
  { intros ->. destruct h; [congruence|discriminate]. }
  split. { intros I. apply N49. assert (J : In (tolower 49) (map tolower d)) by (rewrite <- Ed; now apply in_map).
    apply in_map_iff in J as (c & J1 & J2). change (tolower 49) with 49 in J1. unfold tolower in J1. destruct ((65 <=? c) && (c <=? 90)) eqn:X; [lia|]. now subst c. }
  split; [congruence|]. split; [exact F|]. split; [exact Lc|]. split; [congruence|exact V].
Qed.
Theorem C38_bech32_case : forall s s' rest rest' cap r, Forall (fun c => 0 < c < 256) s ->
  map tolower s = map tolower s' -> ~ mixed_case s' ->
  bech32_decode (s ++ 0 :: rest) (length s) cap = Ok r -> 0 <= b_ret r ->
  bech32_decode (s' ++ 0 :: rest') (length s') cap = Ok r.
Proof.
  intros s s' rest rest' cap r NZ E NM D G. destruct (C36_bech32_language s rest cap NZ) as [_ (r' & D' & V)].
  rewrite D in D'. injection D' as <-. destruct (V G) as (V1 & L & R1 & R2).
  rewrite (bech32_decode_accepts s' rest' (b_hrp r) (b_data r) cap); [|now apply (valid_case s)|exact L].
  rewrite <- R1, <- R2. now destruct r.
Qed.
Print Assumptions C38_bech32_case.
(** in particular a lower-case string and its upper-case form: one is accepted exactly when the other is, with the same result *)
Theorem C38_bech32_uppercase : forall s rest cap r, Forall (fun c => 0 < c < 256) s -> ~ Exists is_upper s -> 0 <= b_ret r ->
  (bech32_decode (s ++ 0 :: rest) (length s) cap = Ok r <->
   bech32_decode (map toupper s ++ 0 :: rest) (length (map toupper s)) cap = Ok r).
Proof.
  intros s rest cap r NZ NU G.
  assert (E : map tolower s = map tolower (map toupper s)).
  { rewrite map_map. apply map_ext. intros c. unfold tolower, toupper.
    destruct ((97 <=? c) && (c <=? 122)) eqn:X1, ((65 <=? c) && (c <=? 90)) eqn:X2; try lia.
    replace ((65 <=? c - 32) && (c - 32 <=? 90)) with true by lia. lia. }
  assert (NZ' : Forall (fun c => 0 < c < 256) (map toupper s)).
  { apply Forall_map. eapply Forall_impl; [|exact NZ]. cbv beta. unfold toupper. intros c Hc. destruct ((97 <=? c) && (c <=? 122)) eqn:X; lia. }
  split; intros D.
  - apply (C38_bech32_case s _ rest rest cap r NZ E); [|exact D|exact G].
    intros [X _]. apply Exists_exists in X as (c & I & X). apply in_map_iff in I as (c' & <- & _). unfold toupper, is_lower in X.
    destruct ((97 <=? c') && (c' <=? 122)) eqn:Y; lia.
  - apply (C38_bech32_case (map toupper s) s rest rest cap r NZ'); [now symmetry| |exact D|exact G]. intros [_ X]. now apply NU.
Qed.
Print Assumptions C38_bech32_uppercase.
Theorem C38_bech32_mixed_rejected : forall s rest cap, Forall (fun c => 0 < c < 256) s -> mixed_case s ->
  bech32_decode (s ++ 0 :: rest) (length s) cap = Ok (mkB32 (-1) cap [] []).
Proof.
  intros s rest cap NZ M. unfold bech32_decode. destruct (is_illegal_ok s rest NZ) as (b & -> & H). cbn [bind].
  destruct b; [reflexivity|]. destruct (proj1 H eq_refl) as [_ N]. contradiction.
Qed.
Print Assumptions C38_bech32_mixed_rejected.
Example C38_witness : bech32_decode ([97;49;50;117;101;108;53;108] ++ [0]) 8 83 = Ok (mkB32 0 1 [97] []) /\
  map toupper [97;49;50;117;101;108;53;108] = [65;49;50;85;69;76;53;76] /\ mixed_case [65;49;50;117].
Proof. split; [vm_compute; reflexivity|]. split; [reflexivity|]. split; apply Exists_exists; [exists 117|exists 65]; unfold is_lower, is_upper; cbn [In]; lia. Qed.

(** C39: whatever the string and the lengths, the call is defined, stays within the caller's hrp capacity and
    str_len - 8 data bytes, and depends on no memory beyond the terminating NUL. *)
Theorem C39_bech32_memory : forall s n cap, Forall (fun c => 0 < c < 256) s ->
  exists r, (forall rest, bech32_decode (s ++ 0 :: rest) n cap = Ok r) /\
    (length (b_hrp r) <= cap)%nat /\ (length (b_data r) <= n - 8)%nat /\ (b_hrp_size r <= cap)%nat.
Proof.
  intros s n cap NZ. destruct (bech32_decode_total s [] n cap NZ) as (r & E & Lh & Ld & Hs & _). exists r. split.
  { intros rest. change (0 :: rest) with ([0] ++ rest). rewrite app_assoc. now apply bech32_decode_mono. }
  split; [exact Lh|]. split; [exact Ld|]. destruct Hs as [[_ ->]| ->]; lia.
Qed.
Print Assumptions C39_bech32_memory.
Example C39_witness : bech32_decode ([200; 49; 120] ++ [0]) 50 3 = Ok (mkB32 (-1) 3 [] []) /\
  bech32_decode ([97;98;99;100;49;50;117;101;108;53;108;108] ++ [0]) 12 3 = Ok (mkB32 (-3) 3 [] []).
Proof. split; vm_compute; reflexivity. Qed.
