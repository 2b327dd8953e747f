(** C119: encoding and decoding in pieces gives the same as all at once. *)
From Verif Require Import Base M_Hex M_Base64 M_Base32 M_Varint S_Bits S_Rfc4648 S_Chunk
  L_Bits L_Hex L_Varint P_Varint.
From Verif Require L_Base64 L_Base32.

Section Pieces.
Variable dec : list Z -> nat -> res (nat * list Z).
Variable full : nat -> nat.
Variable ok : list Z -> Prop.
Hypothesis dec_len : forall t n m out, dec t n = Ok (m, out) -> m = length out.
Hypothesis dec_nil : dec [0] 0 = Ok (0%nat, []).
Hypothesis step : forall p q, ok p ->
  dec (p ++ q ++ [0]) (length p + length q) =
   ('(n, out) <- dec (p ++ [0]) (length p) ;;
    if (n <? full (length p))%nat then Ok (n, out)
    else '(_, more) <- dec (q ++ [0]) (length q) ;; Ok (length (out ++ more), out ++ more)).
Lemma pieces_gen ps : Forall ok (removelast ps) -> decode_pieces dec full ps = decode_once dec (concat ps).
Proof using dec_len dec_nil step.
  induction ps as [|p ps IH]; intros H.
  - unfold decode_once. cbn. rewrite dec_nil. reflexivity.
  - destruct ps as [|p2 ps].
    + unfold decode_once. cbn [concat decode_pieces]. rewrite app_nil_r.
      destruct (dec (p ++ [0]) (length p)) as [[n out]| |]; cbn [bind]; try reflexivity.
      destruct (n <? _)%nat; rewrite ?app_nil_r; reflexivity.
    + set (q := p2 :: ps) in *. change (decode_pieces dec full (p :: q)) with
        ('(n, out) <- dec (p ++ [0]) (length p) ;; if (n <? full (length p))%nat then Ok out
         else more <- decode_pieces dec full q ;; Ok (out ++ more)).
      assert (ok p /\ Forall ok (removelast q)) as [Hp Hq]. { subst q. cbn [removelast] in H. inversion H. auto. }
      rewrite (IH Hq). unfold decode_once. cbn [concat]. rewrite <- app_assoc, app_length, (step _ _ Hp).
      destruct (dec (p ++ [0]) (length p)) as [[n out]| |]; cbn [bind]; try reflexivity.
      destruct (n <? full (length p))%nat; cbn [bind]; [reflexivity|].
      destruct (dec (concat q ++ [0]) _) as [[m more]| |]; reflexivity.
Qed.
End Pieces.

(* ---- encoders ---- *)
Section Enc.
Variable enc : list Z -> list Z.
Variable k : nat.
Hypothesis enc_nil : enc [] = [].
Hypothesis enc_app : forall p q, bytes p -> bytes q -> (length p mod k = 0)%nat -> enc (p ++ q) = enc p ++ enc q.
Lemma enc_pieces ps : Forall bytes ps -> whole k ps -> concat (map enc ps) = enc (concat ps).
Proof using enc_nil enc_app.
  unfold whole. induction ps as [|p ps IH]; intros B H; [symmetry; exact enc_nil|]. apply Forall_cons_iff in B. destruct B as [Bp B].
  destruct ps as [|p2 ps].
  - cbn [map concat]. now rewrite !app_nil_r.
  - cbn [removelast] in H. apply Forall_cons_iff in H. destruct H as [Hp H]. specialize (IH B H).
    change (enc p ++ concat (map enc (p2 :: ps)) = enc (p ++ concat (p2 :: ps))). rewrite IH.
    rewrite enc_app; [reflexivity|exact Bp| |exact Hp]. clear - B. induction B; [constructor|]. cbn [concat]. apply Forall_app. auto.
Qed.
End Enc.

Lemma to_hex_app p q u : to_hex (p ++ q) u = to_hex p u ++ to_hex q u.
Proof. induction p as [|a p IH]; [reflexivity|]. cbn [app to_hex]. now rewrite IH. Qed.

Lemma b64_app url p q : bytes p -> bytes q -> (length p mod 3 = 0)%nat -> to_base64_ (p ++ q) url = to_base64_ p url ++ to_base64_ q url.
Proof.
  intros Bp Bq. induction p as [p IH] using length_strong_ind. intros H.
  destruct p as [|a [|b [|c p]]]; try discriminate; [reflexivity|].
  apply Forall_cons_iff in Bp. destruct Bp as [_ Bp]. apply Forall_cons_iff in Bp. destruct Bp as [_ Bp]. apply Forall_cons_iff in Bp. destruct Bp as [_ Bp].
  change ((a :: b :: c :: p) ++ q) with (a :: b :: c :: (p ++ q)). cbn [to_base64_]. rewrite IH; [reflexivity|cbn; lia|exact Bp|].
  cbn [length] in H. change (S (S (S (length p)))) with (3 + length p)%nat in H. dlia.
Qed.
Lemma b32_app p q : (length p mod 5 = 0)%nat -> to_base32_chars (p ++ q) false = to_base32_chars p false ++ to_base32_chars q false.
Proof.
  induction p as [p IH] using length_strong_ind. intros H.
  destruct p as [|a [|b [|c [|d [|e p]]]]]; try discriminate; [reflexivity|].
  change ((a :: b :: c :: d :: e :: p) ++ q) with (a :: b :: c :: d :: e :: (p ++ q)). cbn [to_base32_chars]. rewrite IH; [reflexivity|cbn; lia|].
  cbn [length] in H. change (S (S (S (S (S (length p)))))) with (5 + length p)%nat in H. dlia.
Qed.

(** ** C119
    Encoding a long input piece by piece and joining the texts gives the text of the whole, if each piece but the last is a whole
    number of groups: any length for hex, 3 bytes for Base64, 5 for Base32. *)
Theorem C119_encode : forall pieces, Forall bytes pieces ->
  (forall upper, concat (map (fun p => to_hex p upper) pieces) = to_hex (concat pieces) upper) /\
  (whole 3 pieces -> concat (map to_base64 pieces) = to_base64 (concat pieces) /\
                     concat (map to_base64_urlsafe pieces) = to_base64_urlsafe (concat pieces)) /\
  (whole 5 pieces -> concat (map to_base32 pieces) = to_base32 (concat pieces)).
Proof.
  intros ps B. repeat split.
  - intros u. clear B. induction ps as [|p ps IH]; [reflexivity|]. cbn [map concat]. now rewrite IH, to_hex_app.
  - apply (enc_pieces to_base64 3); auto. intros; apply b64_app; auto.
  - apply (enc_pieces to_base64_urlsafe 3); auto. intros; apply b64_app; auto.
  - intros W. apply (enc_pieces to_base32 5); auto. intros; apply b32_app; auto.
Qed.
Print Assumptions C119_encode.

(* ---- decoders ---- *)
Lemma hex_loop_app n1 : forall n2 p m r, length p = (2 * n1)%nat ->
  from_hex_loop (n1 + n2) (p ++ m) =
   (out <- from_hex_loop n1 (p ++ r) ;; if (length out <? n1)%nat then Ok out else more <- from_hex_loop n2 m ;; Ok (out ++ more)).
Proof.
  induction n1 as [|n1 IH]; intros n2 p m r H.
  - destruct p; [|discriminate]. cbn. destruct (from_hex_loop n2 m); reflexivity.
  - destruct p as [|c0 [|c1 p]]; try (cbn in H; lia). cbn [Nat.add from_hex_loop app].
    destruct ((tget HEX_MAP c0 =? 255) || (tget HEX_MAP c1 =? 255)); [reflexivity|].
    rewrite (IH n2 p m r) by (cbn in H; lia). destruct (from_hex_loop n1 (p ++ r)) as [out| |]; cbn [bind]; try reflexivity.
    cbn [length]. change (S (length out) <? S n1)%nat with (length out <? n1)%nat. destruct (length out <? n1)%nat; cbn [bind]; [reflexivity|].
    destruct (from_hex_loop n2 m); reflexivity.
Qed.
Lemma half_add (p q : list Z) : (length p mod 2 = 0 -> (length p + length q) / 2 = length p / 2 + length q / 2)%nat.
Proof. intros. dlia. Qed.
Lemma hex_step p q : (length p mod 2 = 0)%nat ->
  from_hex (p ++ q ++ [0]) (length p + length q) =
   ('(n, out) <- from_hex (p ++ [0]) (length p) ;;
    if (n <? from_hex_length (length p))%nat then Ok (n, out)
    else '(_, more) <- from_hex (q ++ [0]) (length q) ;; Ok (length (out ++ more), out ++ more)).
Proof.
  intros H. unfold from_hex. rewrite !ldiff_half, half_add by exact H.
  rewrite (hex_loop_app _ _ p (q ++ [0]) [0]) by dlia.
  destruct (from_hex_loop (length p / 2) (p ++ [0])) as [out| |]; cbn [bind]; try reflexivity.
  replace (from_hex_length (length p)) with (length p / 2)%nat by (unfold from_hex_length; dlia).
  destruct (length out <? length p / 2)%nat; cbn [bind]; [reflexivity|].
  destruct (from_hex_loop (length q / 2) (q ++ [0])); reflexivity.
Qed.

Lemma b64_loop_app dec n1 : forall n2 t p m r, length p = (4 * n1)%nat ->
  from_base64_loop (n1 + n2) t (p ++ m) dec =
   (out <- from_base64_loop n1 0 (p ++ r) dec ;; if (length out <? 3 * n1)%nat then Ok out
    else more <- from_base64_loop n2 t m dec ;; Ok (out ++ more)).
Proof.
  induction n1 as [|n1 IH]; intros n2 t p m r H.
  - destruct p; [|discriminate]. cbn [Nat.add from_base64_loop bind app length Nat.mul Nat.ltb Nat.leb].
    destruct (from_base64_loop n2 t m dec); reflexivity.
  - destruct p as [|c0 [|c1 [|c2 [|c3 p]]]]; try (cbn in H; lia). cbn [Nat.add from_base64_loop app].
    destruct ((tget dec c0 =? 255) || (tget dec c1 =? 255) || (tget dec c2 =? 255) || (tget dec c3 =? 255)).
    { cbn [bind length]. replace (0 <? 3 * S n1)%nat with true by (symmetry; apply Nat.ltb_lt; lia). reflexivity. }
    rewrite (IH n2 t p m r) by (cbn in H; lia). destruct (from_base64_loop n1 0 (p ++ r) dec) as [out| |]; cbn [bind]; try reflexivity.
    cbn [length]. replace (S (S (S (length out))) <? 3 * S n1)%nat with (length out <? 3 * n1)%nat
      by (destruct (Nat.ltb_spec (length out) (3 * n1)), (Nat.ltb_spec (S (S (S (length out)))) (3 * S n1)); lia || reflexivity).
    destruct (length out <? 3 * n1)%nat; cbn [bind]; [reflexivity|].
    destruct (from_base64_loop n2 t m dec); reflexivity.
Qed.
Lemma b64_step url p q nq rest : (length p mod 4 = 0)%nat ->
  from_base64_ (p ++ q ++ rest) (length p + nq) url =
   ('(n, out) <- from_base64_ (p ++ [0]) (length p) url ;;
    if (n <? from_base64_urlsafe_length (length p))%nat then Ok (n, out)
    else '(_, more) <- from_base64_ (q ++ rest) (nq) url ;; Ok (length (out ++ more), out ++ more)).
Proof.
  intros H. unfold from_base64_.
  replace ((length p + nq) mod 4)%nat with (nq mod 4)%nat by dlia.
  replace ((length p + nq - nq mod 4) / 4)%nat with (length p / 4 + (nq - nq mod 4) / 4)%nat by dlia.
  rewrite H, Nat.sub_0_r.
  rewrite (b64_loop_app _ (length p / 4) _ _ p (q ++ rest) [0]) by dlia.
  destruct (from_base64_loop (length p / 4) 0 (p ++ [0]) _) as [out| |]; cbn [bind]; try reflexivity.
  rewrite L_Base64.from_len_eq. replace (6 * length p / 8)%nat with (3 * (length p / 4))%nat by dlia.
  destruct (length out <? 3 * (length p / 4))%nat; cbn [bind]; [reflexivity|].
  destruct (from_base64_loop ((nq - _) / 4) _ (q ++ rest)); reflexivity.
Qed.

Lemma strip_app p q : (forall b, p <> b ++ [61]) ->
  strip_pad (p ++ q ++ [0]) (length p + length q) = (s <- strip_pad (q ++ [0]) (length q) ;; Ok (length p + s)%nat).
Proof.
  intros Hp. assert (Last : forall r, (0 < length p)%nat -> exists c, nth_error (p ++ r) (length p - 1) = Some c /\ c <> 61).
  { intros r L. destruct p as [|c p _] using rev_ind; [cbn in L; lia|]. exists c. rewrite app_length. cbn [length].
    replace (length p + 1 - 1)%nat with (length p) by lia. rewrite <- app_assoc, nth_error_app2, Nat.sub_diag by lia. split; [reflexivity|].
    intros ->. exact (Hp p eq_refl). }
  assert (P0 : forall r, strip_pad (p ++ r) (length p) = Ok (length p)).
  { intros r. unfold strip_pad, rd. destruct (Nat.ltb_spec 0 (length p)) as [L|L]; [|reflexivity].
    destruct (Last r L) as (c & -> & N). cbn [bind]. replace (c =? 61) with false by lia. reflexivity. }
  destruct q as [|y q _] using rev_ind.
  { cbn [app length]. rewrite Nat.add_0_r, P0. unfold strip_pad. cbn. rewrite Nat.add_0_r. reflexivity. }
  assert (R : forall i r, rd (p ++ r) (length p + i) = rd r i).
  { intros i r. unfold rd. rewrite nth_error_app2 by lia. replace (length p + i - length p)%nat with i by lia. reflexivity. }
  unfold strip_pad. rewrite app_length. cbn [length].
  replace (0 <? length p + (length q + 1))%nat with true by (symmetry; apply Nat.ltb_lt; lia).
  replace (0 <? length q + 1)%nat with true by (symmetry; apply Nat.ltb_lt; lia).
  replace (length p + (length q + 1) - 1)%nat with (length p + length q)%nat by lia.
  replace (length q + 1 - 1)%nat with (length q) by lia. rewrite R.
  unfold rd at 1 3. rewrite <- !app_assoc, nth_error_app2, Nat.sub_diag by lia. cbn [nth_error app bind].
  destruct (y =? 61); [|cbn [bind]; f_equal; lia].
  destruct (Nat.ltb_spec 0 (length q)) as [L|L].
  - replace (0 <? length p + length q)%nat with true by (symmetry; apply Nat.ltb_lt; lia).
    replace (length p + length q - 1)%nat with (length p + (length q - 1))%nat by lia. rewrite R.
    destruct (rd (q ++ [y; 0]) (length q - 1)) as [c| |]; cbn [bind]; try reflexivity. destruct (c =? 61); cbn [bind]; f_equal; lia.
  - assert (length q = 0)%nat as L0 by lia. rewrite L0. destruct q; [|discriminate]. rewrite Nat.add_0_r. cbn [bind].
    destruct (Nat.ltb_spec 0 (length p)) as [Lp|Lp].
    + unfold rd. destruct (Last ([] ++ [y; 0]) Lp) as (c & -> & N). cbn [bind]. replace (c =? 61) with false by lia. f_equal. lia.
    + f_equal. lia.
Qed.
Lemma b64_std_step p q : (length p mod 4 = 0)%nat /\ (forall b, p <> b ++ [61]) ->
  from_base64 (p ++ q ++ [0]) (length p + length q) =
   ('(n, out) <- from_base64 (p ++ [0]) (length p) ;;
    if (n <? from_base64_urlsafe_length (length p))%nat then Ok (n, out)
    else '(_, more) <- from_base64 (q ++ [0]) (length q) ;; Ok (length (out ++ more), out ++ more)).
Proof.
  intros [H N]. unfold from_base64. rewrite strip_app by exact N.
  assert (strip_pad (p ++ [0]) (length p) = Ok (length p)) as ->.
  { pose proof (strip_app p [] N) as S. cbn [app length] in S. rewrite Nat.add_0_r in S. rewrite S. unfold strip_pad. cbn. f_equal. lia. }
  destruct (L_Base64.strip_pad_spec q [0]) as (body & pad & _ & _ & E & _). rewrite E. cbn [bind].
  rewrite (b64_step false p q (length body) [0] H). reflexivity.
Qed.

Lemma dec_char_app dec p m r i : (i < length p)%nat -> dec_char dec (p ++ m) i = dec_char dec (p ++ r) i.
Proof. intros L. unfold dec_char, rd. now rewrite !nth_error_app1 by exact L. Qed.
Lemma tail_nothing m dec : from_base32_tail 0 m dec = Ok [].
Proof. reflexivity. Qed.
Lemma b32_blocks_app dec n1 : forall n2 t p m r, length p = (8 * n1)%nat ->
  from_base32_blocks (n1 + n2) t (p ++ m) dec =
   (out <- from_base32_blocks n1 0 (p ++ r) dec ;; if (length out <? 5 * n1)%nat then Ok out
    else more <- from_base32_blocks n2 t m dec ;; Ok (out ++ more)).
Proof.
  induction n1 as [|n1 IH]; intros n2 t p m r H.
  - destruct p; [|discriminate]. cbn [Nat.add from_base32_blocks app]. rewrite tail_nothing. cbn [bind app length Nat.mul Nat.ltb Nat.leb].
    destruct (from_base32_blocks n2 t m dec); reflexivity.
  - destruct p as [|c0 [|c1 [|c2 [|c3 [|c4 [|c5 [|c6 [|c7 p]]]]]]]]; try (cbn in H; lia).
    cbn [Nat.add from_base32_blocks]. set (P := c0 :: c1 :: c2 :: c3 :: c4 :: c5 :: c6 :: c7 :: p).
    rewrite !(dec_char_app dec P m r) by (subst P; cbn; lia).
    do 8 (match goal with |- bind ?x _ = _ => destruct x as [?b| |]; cbn [bind]; [|reflexivity|reflexivity] end).
    match goal with |- (if ?c then _ else _) = _ => destruct c end.
    { cbn [bind length]. replace (0 <? 5 * S n1)%nat with true by (symmetry; apply Nat.ltb_lt; lia). reflexivity. }
    subst P. cbn [app skipn].
    rewrite (IH n2 t p m r) by (cbn in H; lia). destruct (from_base32_blocks n1 0 (p ++ r) dec) as [out| |]; cbn [bind]; try reflexivity.
    cbn [length]. replace (S (S (S (S (S (length out))))) <? 5 * S n1)%nat with (length out <? 5 * n1)%nat
      by (destruct (Nat.ltb_spec (length out) (5 * n1)), (Nat.ltb_spec (S (S (S (S (S (length out)))))) (5 * S n1)); lia || reflexivity).
    destruct (length out <? 5 * n1)%nat; cbn [bind]; [reflexivity|].
    destruct (from_base32_blocks n2 t m dec); reflexivity.
Qed.
Lemma strchr_app p m : ~ In 61 p -> ~ In 0 p -> strchr 61 (p ++ m) = (o <- strchr 61 m ;; Ok (option_map (Nat.add (length p)) o)).
Proof.
  intros H61 H0. induction p as [|c p IH].
  - cbn [app length]. destruct (strchr 61 m) as [[i|]| |]; reflexivity.
  - cbn [app strchr]. cbn [In] in H61, H0. replace (c =? 61) with false by lia. replace (c =? 0) with false by lia.
    rewrite IH by tauto. destruct (strchr 61 m) as [[i|]| |]; reflexivity.
Qed.
Lemma strchr_ok m : exists o, strchr 61 (m ++ [0]) = Ok o.
Proof.
  induction m as [|c m [o E]]; cbn [app strchr]; [cbn; eauto|]. destruct (c =? 61); [eauto|]. destruct (c =? 0); [eauto|]. rewrite E. cbn. eauto.
Qed.
Lemma b32_step p q : (length p mod 8 = 0)%nat /\ ~ In 61 p /\ ~ In 0 p ->
  from_base32 (p ++ q ++ [0]) (length p + length q) =
   ('(n, out) <- from_base32 (p ++ [0]) (length p) ;;
    if (n <? from_base32_raw_length (length p))%nat then Ok (n, out)
    else '(_, more) <- from_base32 (q ++ [0]) (length q) ;; Ok (length (out ++ more), out ++ more)).
Proof.
  intros (H & H61 & H0). unfold from_base32, from_base32_, base32_strlen. rewrite (strchr_app p (q ++ [0])), (strchr_app p [0]) by assumption.
  change (strchr 61 [0]) with (Ok (@None nat)). cbn [bind option_map].
  destruct (strchr_ok q) as [o ->]. cbn [bind].
  assert (exists nq, match o with Some i => i | None => length q end = nq) as [nq E] by eauto.
  assert (match option_map (Nat.add (length p)) o with Some i => Ok i | None => Ok (length p + length q)%nat end = Ok (length p + nq)%nat) as ->.
  { destruct o; cbn; subst; reflexivity. }
  assert (match o with Some i => Ok i | None => Ok (length q) end = Ok nq) as -> by (destruct o; subst; reflexivity).
  cbn [bind]. replace ((length p + nq) mod 8)%nat with (nq mod 8)%nat by dlia.
  replace ((length p + nq) / 8)%nat with (length p / 8 + nq / 8)%nat by dlia. rewrite H.
  rewrite (b32_blocks_app _ (length p / 8) _ _ p (q ++ [0]) [0]) by dlia.
  destruct (from_base32_blocks (length p / 8) 0 (p ++ [0]) _) as [out| |]; cbn [bind]; try reflexivity.
  assert (from_base32_raw_length (length p) = 5 * (length p / 8))%nat as ->.
  { unfold from_base32_raw_length. rewrite H. change (Z.to_nat (tget TAIL_TO_BYTES (Z.of_nat 0))) with 0%nat. lia. }
  destruct (length out <? 5 * (length p / 8))%nat; cbn [bind]; [reflexivity|].
  destruct (from_base32_blocks (nq / 8) _ (q ++ [0])); reflexivity.
Qed.

(** Decoding a long text piece by piece, stopping at the first piece that does not decode completely, gives the same bytes as
    decoding it at once, whatever the text: if each piece but the last is a whole number of groups (2 characters for hex, 4 for
    Base64, 8 for Base32) and, where the decoder gives '=' or NUL a special meaning, those do not occur where a piece ends early:
    no piece but the last ends in '=' (Base64) or contains '=' or NUL (Base32). *)
Theorem C119_decode : forall pieces,
  (whole 2 pieces -> decode_pieces from_hex from_hex_length pieces = decode_once from_hex (concat pieces)) /\
  (whole 4 pieces -> decode_pieces from_base64_urlsafe from_base64_urlsafe_length pieces = decode_once from_base64_urlsafe (concat pieces)) /\
  (whole 4 pieces -> Forall (fun p => forall b, p <> b ++ [61]) (removelast pieces) ->
     decode_pieces from_base64 from_base64_urlsafe_length pieces = decode_once from_base64 (concat pieces)) /\
  (whole 8 pieces -> Forall (fun p => ~ In 61 p /\ ~ In 0 p) (removelast pieces) ->
     decode_pieces from_base32 from_base32_raw_length pieces = decode_once from_base32 (concat pieces)).
Proof.
  intros ps. unfold whole. repeat split.
  - intros H. eapply pieces_gen; [| |exact hex_step|exact H]; [|reflexivity].
    intros t n m out. unfold from_hex. destruct (from_hex_loop _ t); cbn; congruence.
  - intros H. eapply pieces_gen; [| |intros p q Hp; exact (b64_step true p q (length q) [0] Hp)|exact H]; [|reflexivity].
    intros t n m out. unfold from_base64_urlsafe, from_base64_. destruct (from_base64_loop _ _ t _); cbn; congruence.
  - intros H H2. eapply pieces_gen; [| |exact b64_std_step|]; [|reflexivity|].
    + intros t n m out. unfold from_base64, from_base64_. destruct (strip_pad t n) as [k| |]; cbn [bind]; try discriminate.
      destruct (from_base64_loop _ _ t _); cbn; congruence.
    + rewrite Forall_forall in *. auto.
  - intros H H2. eapply pieces_gen; [| |exact b32_step|]; [|reflexivity|].
    + intros t n m out. unfold from_base32, from_base32_. destruct (base32_strlen t n) as [k| |]; cbn [bind]; try discriminate.
      destruct (from_base32_blocks _ _ t _); cbn; congruence.
    + rewrite Forall_forall in *. auto.
Qed.
Print Assumptions C119_decode.

(** Numbers in a row: what was written, one after another, is read back. *)
Theorem C119_zigzag_stream : forall vs encs out0,
  Forall2 (fun v e => INT64_MIN < v <= INT64_MAX /\ encode_zigzag v = Ok (length e, e)) vs encs ->
  read_numbers (fun buf size => decode_zigzag buf size out0) (length vs) (concat encs) = Some vs.
Proof.
  intros vs encs out0 H. induction H as [|v e vs encs [Hv He] H IH]; [reflexivity|].
  destruct (C10_encode_zigzag_meaning_partial v Hv) as (l0 & E0 & _ & L0 & _).
  rewrite He in E0. injection E0 as _ <-.
  destruct (C10_zigzag_roundtrip_partial v (concat encs) (length (e ++ concat encs)) out0 Hv) as (l & El & _ & R).
  rewrite He in El. injection El as _ <-. specialize (R ltac:(rewrite app_length; lia)).
  cbn [length concat read_numbers]. destruct e as [|b e]; [cbn in L0; lia|]. cbn [app] in *. rewrite R. cbn [length].
  change (skipn (S (length e)) (b :: e ++ concat encs)) with (skipn (length (b :: e)) ((b :: e) ++ concat encs)).
  rewrite skipn_app_exact, IH. reflexivity.
Qed.
Print Assumptions C119_zigzag_stream.

(* non-vacuity *)
Example C119_encode_case : let pieces := [[1; 2; 3]; []; [4; 5; 6; 7; 8; 9]; [10]] in
  Forall bytes pieces /\ whole 3 pieces /\ ~ whole 5 pieces /\
  concat (map to_base64 [[1]; [2]]) <> to_base64 [1; 2].
Proof.
  cbv zeta. split; [repeat constructor; lia|]. split; [unfold whole; cbn; repeat constructor|]. split; [|discriminate].
  unfold whole. cbn [removelast]. intros H. inversion H. discriminate.
Qed.
Example C119_decode_case : let pieces := [[65; 66; 67; 68]; [69; 33; 70; 71]; [72; 73; 61; 61]] in
  whole 4 pieces /\ Forall (fun p => forall b, p <> b ++ [61]) (removelast pieces) /\
  decode_pieces from_base64 from_base64_urlsafe_length pieces = Ok [0; 16; 131].
Proof.
  cbv zeta. split; [unfold whole; cbn; repeat constructor|]. split; [|vm_compute; reflexivity].
  cbn [removelast]. repeat constructor; intros b E; assert (X := f_equal (fun l => last l 0) E); cbn in X; rewrite last_last in X; discriminate.
Qed.
Example C119_numbers_case : let encs := map (fun v => match encode_zigzag v with Ok (_, e) => e | _ => [] end) [24832; 0; -63; 2 ^ 62] in
  Forall2 (fun v e => INT64_MIN < v <= INT64_MAX /\ encode_zigzag v = Ok (length e, e)) [24832; 0; -63; 2 ^ 62] encs /\ length (concat encs) = 14%nat.
Proof. cbv zeta. split; [|vm_compute; reflexivity]. repeat (apply Forall2_cons || apply Forall2_nil); (split; [unfold INT64_MIN, INT64_MAX; lia|vm_compute; reflexivity]). Qed.
