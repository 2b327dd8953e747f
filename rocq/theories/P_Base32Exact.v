(** C21, C22: exactly what the Base32 decoders do, for every memory. *)
From Verif Require Import Base S_Bits S_Rfc4648 L_Bits L_Rfc M_Base32 L_Base32 S_Base32Exact.

Lemma dec_char_byte raw l i c : nth_error l i = Some c -> is_byte c ->
  dec_char (b32_decode_str raw) l i = if 128 <=? c then UB else Ok (wide (b32_val raw) c).
Proof.
  intros E Hc. destruct (128 <=? c) eqn:H.
  - unfold dec_char, rd. rewrite E. cbn [bind]. unfold as_char, is_byte in *. replace (c <? 128) with false by lia.
    unfold tget_ub. replace (0 <=? c - 256) with false by lia. reflexivity.
  - apply (dec_char_nth raw l i c E). unfold is_byte, is_ascii in *. lia.
Qed.

Lemma ov2 a b : overlap [a; b] 0 = b32_o0 a b.
Proof. unfold overlap, b32_o0, u8. cbn -[Z.modulo Z.shiftl Z.lor]. rewrite Z.lor_0_r. reflexivity. Qed.
Ltac ov := unfold overlap, b32_o0, b32_o1, b32_o2, b32_o3, u8; cbn -[Z.modulo Z.shiftl Z.lor]; rewrite ?Z.lor_0_r, ?Z.lor_assoc; reflexivity.
Lemma ov4 a b c d : overlap [a; b; c; d] 0 = b32_o0 a b /\ overlap [a; b; c; d] 1 = b32_o1 b c d.
Proof. split; ov. Qed.
Lemma ov5 a b c d e : overlap [a; b; c; d; e] 0 = b32_o0 a b /\ overlap [a; b; c; d; e] 1 = b32_o1 b c d /\ overlap [a; b; c; d; e] 2 = b32_o2 d e.
Proof. repeat split; ov. Qed.
Lemma ov7 a b c d e f g : overlap [a; b; c; d; e; f; g] 0 = b32_o0 a b /\ overlap [a; b; c; d; e; f; g] 1 = b32_o1 b c d /\
  overlap [a; b; c; d; e; f; g] 2 = b32_o2 d e /\ overlap [a; b; c; d; e; f; g] 3 = b32_o3 e f g.
Proof. repeat split; ov. Qed.

Local Opaque dec_char b32_o0 b32_o1 b32_o2 b32_o3 b32_o4 regroup_bytes b32_decode_str overlap wide b32_val.
Ltac step := erewrite dec_char_byte; [|reflexivity|assumption];
  match goal with |- context [128 <=? ?c] => let H := fresh "H" in destruct (128 <=? c) eqn:H; cbn [bind orb]; try reflexivity end.

Lemma tail_exact raw t rest : bytes t -> (length t < 8)%nat ->
  from_base32_tail (length t) (t ++ rest) (b32_decode_str raw) =
  match b32_meaning (b32_val raw) t with Some out => Ok out | None => UB end.
Proof.
  intros F Hl. unfold bytes in F. unfold from_base32_tail.
  destruct t as [|c0 [|c1 [|c2 [|c3 [|c4 [|c5 [|c6 [|c7 t]]]]]]]]; [..|cbn in Hl; lia]; [reflexivity|reflexivity| |reflexivity| | |reflexivity|].
  all: funpeel F; cbn; repeat step.
  - rewrite ov2. reflexivity.
  - destruct (ov4 (wide (b32_val raw) c0) (wide (b32_val raw) c1) (wide (b32_val raw) c2) (wide (b32_val raw) c3)) as [-> ->]. reflexivity.
  - destruct (ov5 (wide (b32_val raw) c0) (wide (b32_val raw) c1) (wide (b32_val raw) c2) (wide (b32_val raw) c3) (wide (b32_val raw) c4)) as (-> & -> & ->). reflexivity.
  - destruct (ov7 (wide (b32_val raw) c0) (wide (b32_val raw) c1) (wide (b32_val raw) c2) (wide (b32_val raw) c3) (wide (b32_val raw) c4) (wide (b32_val raw) c5)
      (wide (b32_val raw) c6)) as (-> & -> & -> & ->). reflexivity.
Qed.

Lemma group_valid raw g vs : Forall is_ascii g -> all_values (b32_val raw) g = Some vs -> existsb (fun c => wide (b32_val raw) c =? 255) g = false.
Proof.
  revert vs. induction g as [|c g IH]; intros vs F H; [reflexivity|]. inversion F as [|? ? A F']; subst. cbn [all_values] in H. cbn [existsb].
  Local Transparent wide.
  unfold wide at 1. destruct (b32_val raw c) as [v|] eqn:E; [|discriminate]. pose proof (val_range raw c v A E).
  destruct (all_values (b32_val raw) g) as [w|]; [|discriminate]. rewrite (IH w F' eq_refl). replace (v =? 255) with false by lia. reflexivity.
Qed.
Lemma group_bad raw g : all_values (b32_val raw) g = None -> existsb (fun c => wide (b32_val raw) c =? 255) g = true.
Proof.
  induction g as [|c g IH]; intros H; [discriminate|]. cbn [all_values] in H. cbn [existsb]. unfold wide at 1.
  destruct (b32_val raw c) as [v|]; [|reflexivity]. destruct (all_values (b32_val raw) g) as [w|]; [discriminate|]. rewrite IH by reflexivity. apply orb_true_r.
Qed.
Local Opaque wide.

Lemma blocks_exact raw text rest : bytes text ->
  from_base32_blocks (length text / 8) (length text mod 8) (text ++ rest) (b32_decode_str raw) =
  match b32_meaning (b32_val raw) text with Some out => Ok out | None => UB end.
Proof.
  induction text as [text IH] using length_strong_ind. intros F.
  destruct (Nat.lt_ge_cases (length text) 8) as [Hs|Hs].
  - rewrite Nat.div_small, Nat.mod_small by lia. cbn [from_base32_blocks]. now apply tail_exact.
  - destruct text as [|c0 [|c1 [|c2 [|c3 [|c4 [|c5 [|c6 [|c7 t]]]]]]]]; try (cbn in Hs; lia).
    assert (Ed : (length (c0 :: c1 :: c2 :: c3 :: c4 :: c5 :: c6 :: c7 :: t) / 8 = S (length t / 8))%nat).
    { cbn [length]. change (S (S (S (S (S (S (S (S (length t))))))))) with (1 * 8 + length t)%nat. rewrite Nat.div_add_l by lia. lia. }
    assert (Em : (length (c0 :: c1 :: c2 :: c3 :: c4 :: c5 :: c6 :: c7 :: t) mod 8 = length t mod 8)%nat).
    { cbn [length]. change (S (S (S (S (S (S (S (S (length t))))))))) with (1 * 8 + length t)%nat.
      rewrite Nat.add_comm, Nat.mod_add by lia. reflexivity. }
    rewrite Ed, Em. unfold bytes in F. funpeel F. specialize (IH t ltac:(cbn; lia) F).
    cbn [from_base32_blocks app b32_meaning existsb].
    step; step; step; step; step; step; step; step. cbn [skipn].
    assert (FA : Forall is_ascii [c0; c1; c2; c3; c4; c5; c6; c7]) by (repeat constructor; unfold is_ascii, is_byte in *; lia).
    assert (FB : (wide (b32_val raw) c0 =? 255) || (wide (b32_val raw) c1 =? 255) || (wide (b32_val raw) c2 =? 255) || (wide (b32_val raw) c3 =? 255)
       || (wide (b32_val raw) c4 =? 255) || (wide (b32_val raw) c5 =? 255) || (wide (b32_val raw) c6 =? 255) || (wide (b32_val raw) c7 =? 255) =
       existsb (fun c => wide (b32_val raw) c =? 255) [c0; c1; c2; c3; c4; c5; c6; c7]).
    { cbn [existsb]. rewrite orb_false_r, !orb_assoc. reflexivity. }
    rewrite FB. clear FB. destruct (all_values (b32_val raw) [c0; c1; c2; c3; c4; c5; c6; c7]) as [vs|] eqn:Ev.
    + rewrite (group_valid raw _ vs FA Ev), IH. destruct (b32_meaning (b32_val raw) t) as [out|]; cbn [bind option_map]; [|reflexivity].
      f_equal. pose proof Ev as Ev'. cbn [all_values] in Ev'.
      clear H H0 H1 H2 H3 H4 H5 H6 IH. funpeel FA.
      Local Transparent wide. unfold wide. Local Opaque wide.
      repeat match type of Ev' with
      | context [b32_val raw ?c] => let v := fresh "v" in let E := fresh "E" in destruct (b32_val raw c) as [v|] eqn:E; [|discriminate];
         match goal with A : is_ascii c |- _ => pose proof (val_range raw c v A E) end
      end.
      injection Ev' as <-. rewrite dchunk8, d0, d1, d2, d3, d4 by assumption. reflexivity.
    + rewrite (group_bad raw _ Ev). reflexivity.
Qed.

Definition result (o : option (list Z)) : res (nat * list Z) := match o with Some out => Ok (length out, out) | None => UB end.

Lemma exact_gen raw mem str_len n : bytes mem -> base32_strlen mem str_len = Ok n -> (n <= length mem)%nat ->
  from_base32_ mem str_len raw = result (b32_meaning (b32_val raw) (firstn n mem)).
Proof.
  intros B E L. unfold from_base32_. rewrite E. cbn [bind].
  pose proof (blocks_exact raw (firstn n mem) (skipn n mem)) as H. rewrite firstn_skipn in H. rewrite firstn_length, Nat.min_l in H by exact L.
  rewrite H. { destruct (b32_meaning _ _); reflexivity. }
  rewrite <- (firstn_skipn n mem) in B. apply Forall_app in B. apply B.
Qed.
Lemma strchr_ub l : ~ In 61 l -> ~ In 0 l -> strchr 61 l = UB.
Proof.
  induction l as [|x l IH]; intros H H0; [reflexivity|]. cbn [strchr].
  destruct (Z.eqb_spec x 61); [exfalso; apply H; left; auto|]. destruct (Z.eqb_spec x 0); [exfalso; apply H0; left; auto|].
  rewrite IH; [reflexivity| |]; intros HI; [apply H|apply H0]; right; exact HI.
Qed.

(** C21 and C22 without restriction: for every readable memory of bytes, valid or not.  If a '=' comes before any NUL, the text is everything
    before it, whatever length was announced; if a NUL comes first, it is the announced number of characters; if neither is found, the
    behaviour is undefined.  The result is the meaning of that text. *)
Theorem C22_decoders_exact : forall mem, bytes mem ->
  (forall p q str_len, mem = p ++ 61 :: q -> ~ In 61 p -> ~ In 0 p ->
     from_base32 mem str_len = result (b32_meaning b32_value p) /\ from_base32_raw mem str_len = result (b32_meaning b32_raw_value p)) /\
  (forall p q str_len, mem = p ++ 0 :: q -> ~ In 61 p -> ~ In 0 p -> (str_len <= length mem)%nat ->
     from_base32 mem str_len = result (b32_meaning b32_value (firstn str_len mem)) /\
     from_base32_raw mem str_len = result (b32_meaning b32_raw_value (firstn str_len mem))) /\
  (forall str_len, ~ In 61 mem -> ~ In 0 mem -> from_base32 mem str_len = UB /\ from_base32_raw mem str_len = UB).
Proof.
  intros mem B. split; [|split].
  - intros p q str_len E N N0. assert (S : base32_strlen mem str_len = Ok (length p)).
    { unfold base32_strlen. rewrite E, strchr_some by assumption. reflexivity. }
    assert (L : (length p <= length mem)%nat) by (rewrite E, app_length; lia).
    assert (P : firstn (length p) mem = p) by (rewrite E, firstn_app, Nat.sub_diag, firstn_all; cbn [firstn]; apply app_nil_r).
    unfold from_base32, from_base32_raw. rewrite !(exact_gen _ mem str_len _ B S L), P. split; reflexivity.
  - intros p q str_len E N N0 L. assert (S : base32_strlen mem str_len = Ok str_len).
    { unfold base32_strlen. rewrite E, strchr_none by assumption. reflexivity. }
    unfold from_base32, from_base32_raw. rewrite !(exact_gen _ mem str_len _ B S L). split; reflexivity.
  - intros str_len N N0. unfold from_base32, from_base32_raw, from_base32_, base32_strlen. rewrite strchr_ub by assumption. split; reflexivity.
Qed.
Print Assumptions C22_decoders_exact.

(** Whatever the text, what is written are bytes. *)
Theorem C22_decoded_bytes : forall mem str_len n out, bytes mem -> (str_len <= length mem)%nat ->
  from_base32 mem str_len = Ok (n, out) \/ from_base32_raw mem str_len = Ok (n, out) -> n = length out /\ bytes out.
Proof.
  assert (M : forall raw k text out, (length text <= k)%nat -> b32_meaning (b32_val raw) text = Some out -> bytes out).
  { intros raw. induction k as [|k IH]; intros text out L H.
    - destruct text; [|cbn in L; lia]. injection H as <-. constructor.
    - assert (T : (length text < 8)%nat -> bytes out).
      { intros Hl. assert (H' : (if existsb (fun x => 128 <=? x) (firstn (tail_uses (length text)) text) then None
            else Some (map (overlap (map (wide (b32_val raw)) text)) (seq 0 (tail_gives (length text))))) = Some out).
        { destruct text as [|c0 [|c1 [|c2 [|c3 [|c4 [|c5 [|c6 [|c7 t]]]]]]]]; [..|cbn in Hl; lia]; exact H. }
        destruct (existsb _ _); [discriminate|]. injection H' as <-. apply Forall_forall. intros b Hb. apply in_map_iff in Hb. destruct Hb as (j & <- & _).
        Local Transparent overlap. unfold overlap. apply Z.mod_pos_bound. lia. }
      destruct (Nat.lt_ge_cases (length text) 8) as [Hs|Hs]; [auto|]. clear T.
      destruct text as [|c0 [|c1 [|c2 [|c3 [|c4 [|c5 [|c6 [|c7 t]]]]]]]]; try (cbn in Hs; lia).
      cbn [b32_meaning] in H. destruct (existsb _ _); [discriminate|]. destruct (all_values _ _) as [vs|]; [|injection H as <-; constructor].
      destruct (b32_meaning (b32_val raw) t) as [o|] eqn:Eo; [|discriminate]. injection H as <-. apply Forall_app. split.
      + apply regroup_bytes_bytes.
      + apply (IH t); [cbn in L; lia|exact Eo]. }
  assert (G : forall raw mem str_len n out, bytes mem -> (str_len <= length mem)%nat -> from_base32_ mem str_len raw = Ok (n, out) -> n = length out /\ bytes out).
  { intros raw mem str_len n out B L H. unfold from_base32_ in H. apply bind_Ok in H as (k & E & H).
    assert (K : (k <= length mem)%nat).
    { unfold base32_strlen in E. apply bind_Ok in E as (o & Eo & E). destruct o as [i|]; injection E as <-; [|exact L].
      clear - Eo. revert i Eo. induction mem as [|x mem IH]; intros i Eo; [discriminate|]. cbn [strchr] in Eo. destruct (x =? 61); [injection Eo as <-; lia|].
      destruct (x =? 0); [discriminate|]. apply bind_Ok in Eo as (o & Eo & E). destruct o as [j|]; [|discriminate]. injection E as <-. specialize (IH j Eo). cbn [length]. lia. }
    pose proof (blocks_exact raw (firstn k mem) (skipn k mem)) as P. rewrite firstn_skipn in P. rewrite firstn_length, Nat.min_l in P by exact K.
    rewrite P in H by (rewrite <- (firstn_skipn k mem) in B; apply Forall_app in B; apply B).
    destruct (b32_meaning (b32_val raw) (firstn k mem)) as [o|] eqn:Eo; cbn [bind] in H; [|discriminate]. injection H as <- <-. split; [reflexivity|exact (M raw _ _ _ (le_n _) Eo)]. }
  intros mem str_len n out B L [H|H]; [exact (G false _ _ _ _ B L H)|exact (G true _ _ _ _ B L H)].
Qed.
Print Assumptions C22_decoded_bytes.

(** Concrete cases: "a!" and "aa=" followed by anything, an announced length that is ignored, a byte of 128. *)
Example C22_exact_cases : b32_meaning b32_value [97; 33] = Some [63] /\ from_base32 [97; 33; 0] 2 = Ok (1%nat, [63]) /\
  from_base32 [97; 98; 61; 9] 1 = Ok (1%nat, [0]) /\ b32_meaning b32_value [97; 98] = Some [0] /\
  b32_meaning b32_value [97; 98; 200] = Some [] /\ from_base32 [97; 98; 200; 0] 3 = Ok (0%nat, []) /\ b32_meaning b32_value [97; 200] = None.
Proof. repeat split; vm_compute; reflexivity. Qed.
