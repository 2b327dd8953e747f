From Verif Require Import Base S_Bits S_Rfc4648 L_Bits L_Rfc M_Base64.

Lemma enc_table url v : 0 <= v < 64 -> tget (b64_encode_str url) v = b64_char url v.
Proof.
  intros Hv. apply Z.eqb_eq. destruct url.
  - refine (sweep1 64 (fun v => tget (b64_encode_str true) v =? b64_char true v) _ v _); [reflexivity|lia].
  - refine (sweep1 64 (fun v => tget (b64_encode_str false) v =? b64_char false v) _ v _); [reflexivity|lia].
Qed.

Section enc.
Local Notation B := (Z.of_nat 256).
Lemma e1 a : is_byte a -> bits_val (firstn 6 (bits 8 a)) = u8 (Z.shiftr a 2).
Proof. intros Ha. apply Z.eqb_eq.
  refine (sweep1 256 (fun a => bits_val (firstn 6 (bits 8 a)) =? u8 (Z.shiftr a 2)) _ a _); [vm_compute; reflexivity|exact Ha]. Qed.
Lemma e2 a b : is_byte a -> is_byte b -> bits_val (skipn 6 (bits 8 a) ++ firstn 4 (bits 8 b)) =
  u8 (Z.lor (Z.shiftl (Z.land a 3) 4) (Z.shiftr b 4)).
Proof. intros Ha Hb. exact (sweep_join 256 256 4 16 (fun i => skipn 6 (bits 8 i)) (fun i => firstn 4 (bits 8 i)) 4 (fun i => Z.land i 3) (fun i => Z.shiftr i 4) (fun a b => u8 (Z.lor (Z.shiftl a 4) b)) eq_refl eq_refl eq_refl a b Ha Hb). Qed.
Lemma e2' a b : is_byte a -> is_byte b ->
  u8 (Z.lor (u8 (Z.shiftl (Z.land a 3) 4)) (Z.shiftr b 4)) = u8 (Z.lor (Z.shiftl (Z.land a 3) 4) (Z.shiftr b 4)).
Proof. intros Ha Hb. replace (u8 (Z.shiftl (Z.land a 3) 4)) with (Z.shiftl (Z.land a 3) 4); [reflexivity|]. apply Z.eqb_eq. exact (sweep1 256 (fun a => Z.shiftl (Z.land a 3) 4 =? u8 (Z.shiftl (Z.land a 3) 4)) eq_refl a Ha). Qed.
Lemma e2t a : is_byte a -> bits_val (skipn 6 (bits 8 a) ++ repeat false 4) = u8 (Z.shiftl (Z.land a 3) 4).
Proof. intros Ha. apply Z.eqb_eq.
  refine (sweep1 256 (fun a => bits_val (skipn 6 (bits 8 a) ++ repeat false 4) =? u8 (Z.shiftl (Z.land a 3) 4)) _ a _);
  [vm_compute; reflexivity|exact Ha]. Qed.
Lemma e3 a b : is_byte a -> is_byte b -> bits_val (skipn 4 (bits 8 a) ++ firstn 2 (bits 8 b)) =
  u8 (Z.lor (Z.shiftl (Z.land a 15) 2) (Z.shiftr b 6)).
Proof. intros Ha Hb. exact (sweep_join 256 256 16 4 (fun i => skipn 4 (bits 8 i)) (fun i => firstn 2 (bits 8 i)) 2 (fun i => Z.land i 15) (fun i => Z.shiftr i 6) (fun a b => u8 (Z.lor (Z.shiftl a 2) b)) eq_refl eq_refl eq_refl a b Ha Hb). Qed.
Lemma e3t a : is_byte a -> bits_val (skipn 4 (bits 8 a) ++ repeat false 2) = u8 (Z.shiftl (Z.land a 15) 2).
Proof. intros Ha. apply Z.eqb_eq.
  refine (sweep1 256 (fun a => bits_val (skipn 4 (bits 8 a) ++ repeat false 2) =? u8 (Z.shiftl (Z.land a 15) 2)) _ a _);
  [vm_compute; reflexivity|exact Ha]. Qed.
Lemma e4 a : is_byte a -> bits_val (skipn 2 (bits 8 a)) = u8 (Z.land a 63).
Proof. intros Ha. apply Z.eqb_eq.
  refine (sweep1 256 (fun a => bits_val (skipn 2 (bits 8 a)) =? u8 (Z.land a 63)) _ a _); [vm_compute; reflexivity|exact Ha]. Qed.
End enc.

Lemma chunk3 a b c : regroup_pad 6 [a; b; c] =
  [bits_val (firstn 6 (bits 8 a)); bits_val (skipn 6 (bits 8 a) ++ firstn 4 (bits 8 b));
   bits_val (skipn 4 (bits 8 b) ++ firstn 2 (bits 8 c)); bits_val (skipn 2 (bits 8 c))].
Proof. reflexivity. Qed.
Lemma chunk2 a b : regroup_pad 6 [a; b] =
  [bits_val (firstn 6 (bits 8 a)); bits_val (skipn 6 (bits 8 a) ++ firstn 4 (bits 8 b));
   bits_val (skipn 4 (bits 8 b) ++ repeat false 2)].
Proof. reflexivity. Qed.
Lemma chunk1 a : regroup_pad 6 [a] =
  [bits_val (firstn 6 (bits 8 a)); bits_val (skipn 6 (bits 8 a) ++ repeat false 4)].
Proof. reflexivity. Qed.

Lemma rg6_range buf : Forall (fun v => 0 <= v < 64) (regroup_pad 6 buf).
Proof. exact (regroup_pad_range 6 buf ltac:(lia)). Qed.

Lemma to_base64_spec url buf : bytes buf ->
  to_base64_ buf url = b64_body url buf ++
    (if url then [] else repeat 61 ((4 - length (b64_body url buf) mod 4) mod 4)).
Proof.
  induction buf as [buf IH] using length_strong_ind. intros Hb.
  assert (Hr := rg6_range).
  destruct buf as [|a [|b [|c rest]]].
  - destruct url; reflexivity.
  - apply bytes_cons in Hb; destruct Hb as [Ha _]. specialize (Hr [a]).
    unfold b64_body. rewrite chunk1, e1, e2t in * by assumption.
    inversion Hr as [|? ? R1 Hr1]; subst. inversion Hr1 as [|? ? R2 _]; subst.
    cbn [to_base64_ map]. rewrite !enc_table by assumption. destruct url; reflexivity.
  - apply bytes_cons in Hb; destruct Hb as [Ha Hb]. apply bytes_cons in Hb; destruct Hb as [Hb _].
    specialize (Hr [a; b]). unfold b64_body. rewrite chunk2, e1, e2, e3t in * by assumption.
    inversion Hr as [|? ? R1 Hr1]; subst. inversion Hr1 as [|? ? R2 Hr2]; subst. inversion Hr2 as [|? ? R3 _]; subst.
    cbn [to_base64_ map]. cbv zeta. rewrite e2' by assumption. rewrite !enc_table by assumption. destruct url; reflexivity.
  - apply bytes_cons in Hb; destruct Hb as [Ha Hb]. apply bytes_cons in Hb; destruct Hb as [Hb Hc].
    apply bytes_cons in Hc; destruct Hc as [Hc Hrest].
    specialize (Hr [a; b; c]). rewrite chunk3, e1, e2, e3, e4 in Hr by assumption.
    inversion Hr as [|? ? R1 Hr1]; subst. inversion Hr1 as [|? ? R2 Hr2]; subst. inversion Hr2 as [|? ? R3 Hr3]; subst.
    inversion Hr3 as [|? ? R4 _]; subst.
    assert (E : b64_body url (a :: b :: c :: rest) = b64_body url [a; b; c] ++ b64_body url rest).
    { unfold b64_body. change (a :: b :: c :: rest) with ([a; b; c] ++ rest).
      rewrite (regroup_pad_app 6 4) by (cbn; lia). apply map_app. }
    rewrite E. cbn [to_base64_]. rewrite IH by (try exact Hrest; cbn; lia).
    rewrite !enc_table by assumption.
    unfold b64_body at 3 5. rewrite chunk3, e1, e2, e3, e4 by assumption. cbn [map app].
    repeat f_equal. cbn [length]. 
    replace (S (S (S (S (length (b64_body url rest)))))) with (length (b64_body url rest) + 1 * 4)%nat by lia.
    rewrite Nat.mod_add by lia. reflexivity.
Qed.

(* ---- decoding ---- *)
Lemma dec_table url c : is_byte c ->
  tget (b64_decode_str url) c = match b64_lax_value url c with Some v => v | None => 255 end.
Proof.
  intros Hc. apply Z.eqb_eq. destruct url.
  - refine (sweep1 256 (fun c => tget (b64_decode_str true) c =? match b64_lax_value true c with Some v => v | None => 255 end) _ c _); [vm_compute; reflexivity|exact Hc].
  - refine (sweep1 256 (fun c => tget (b64_decode_str false) c =? match b64_lax_value false c with Some v => v | None => 255 end) _ c _); [vm_compute; reflexivity|exact Hc].
Qed.

Lemma b64_lax_range url c v : is_byte c -> b64_lax_value url c = Some v -> 0 <= v < 64.
Proof.
  intros Hc H.
  assert (G : (match b64_lax_value url c with Some v => (0 <=? v) && (v <? 64) | None => true end) = true).
  { destruct url.
    - refine (sweep1 256 (fun c => match b64_lax_value true c with Some v => (0 <=? v) && (v <? 64) | None => true end) _ c _); [vm_compute; reflexivity|exact Hc].
    - refine (sweep1 256 (fun c => match b64_lax_value false c with Some v => (0 <=? v) && (v <? 64) | None => true end) _ c _); [vm_compute; reflexivity|exact Hc]. }
  rewrite H in G. lia.
Qed.

Definition D := 64%nat.
Lemma d1 a b : 0 <= a < 64 -> 0 <= b < 64 -> bits_val (bits 6 a ++ firstn 2 (bits 6 b)) = u8 (Z.lor (Z.shiftl a 2) (Z.shiftr b 4)).
Proof. intros Ha Hb. apply Z.eqb_eq.
  refine (sweep2 64 64 (fun a b => bits_val (bits 6 a ++ firstn 2 (bits 6 b)) =? u8 (Z.lor (Z.shiftl a 2) (Z.shiftr b 4))) _ a b _ _);
  [vm_compute; reflexivity|exact Ha|exact Hb]. Qed.
Lemma d1' b : 0 <= b < 64 -> Z.land (Z.shiftr b 4) 3 = Z.shiftr b 4.
Proof. intros Hb. apply Z.eqb_eq.
  refine (sweep1 64 (fun b => Z.land (Z.shiftr b 4) 3 =? Z.shiftr b 4) _ b _); [vm_compute; reflexivity|exact Hb]. Qed.
Lemma d2 a b : 0 <= a < 64 -> 0 <= b < 64 -> bits_val (skipn 2 (bits 6 a) ++ firstn 4 (bits 6 b)) = u8 (Z.lor (Z.shiftl a 4) (Z.shiftr b 2)).
Proof. intros Ha Hb. apply Z.eqb_eq.
  refine (sweep2 64 64 (fun a b => bits_val (skipn 2 (bits 6 a) ++ firstn 4 (bits 6 b)) =? u8 (Z.lor (Z.shiftl a 4) (Z.shiftr b 2))) _ a b _ _);
  [vm_compute; reflexivity|exact Ha|exact Hb]. Qed.
Lemma d2' b : 0 <= b < 64 -> Z.land (Z.shiftr b 2) 15 = Z.shiftr b 2.
Proof. intros Hb. apply Z.eqb_eq.
  refine (sweep1 64 (fun b => Z.land (Z.shiftr b 2) 15 =? Z.shiftr b 2) _ b _); [vm_compute; reflexivity|exact Hb]. Qed.
Lemma d3 a b : 0 <= a < 64 -> 0 <= b < 64 -> bits_val (skipn 4 (bits 6 a) ++ bits 6 b) = u8 (Z.lor (Z.shiftl a 6) b).
Proof. intros Ha Hb. apply Z.eqb_eq.
  refine (sweep2 64 64 (fun a b => bits_val (skipn 4 (bits 6 a) ++ bits 6 b) =? u8 (Z.lor (Z.shiftl a 6) b)) _ a b _ _);
  [vm_compute; reflexivity|exact Ha|exact Hb]. Qed.

Lemma dchunk4 a b c d : regroup_bytes 6 [a; b; c; d] =
  [bits_val (bits 6 a ++ firstn 2 (bits 6 b)); bits_val (skipn 2 (bits 6 b) ++ firstn 4 (bits 6 c));
   bits_val (skipn 4 (bits 6 c) ++ bits 6 d)].
Proof. reflexivity. Qed.
Lemma dchunk3 a b c : regroup_bytes 6 [a; b; c] =
  [bits_val (bits 6 a ++ firstn 2 (bits 6 b)); bits_val (skipn 2 (bits 6 b) ++ firstn 4 (bits 6 c))].
Proof. reflexivity. Qed.
Lemma dchunk2 a b : regroup_bytes 6 [a; b] = [bits_val (bits 6 a ++ firstn 2 (bits 6 b))].
Proof. reflexivity. Qed.
Lemma dchunk1 a : regroup_bytes 6 [a] = [].
Proof. reflexivity. Qed.

Lemma not255 v : 0 <= v < 64 -> (v =? 255) = false.
Proof. lia. Qed.

Ltac peel H x Hx := apply bytes_cons in H; destruct H as [Hx H].
Ltac val_case url c v E R Hc :=
  destruct (b64_lax_value url c) as [v|] eqn:E;
  [ pose proof (b64_lax_range url c v Hc E) as R; rewrite (not255 v R) in *
  | ].

Lemma from_base64_loop_spec url : forall text rest, bytes text ->
  exists vals, valid_blocks (b64_lax_value url) 4 text vals /\
    from_base64_loop (length text / 4) (length text mod 4) (text ++ rest) (b64_decode_str url)
      = Ok (regroup_bytes 6 vals).
Proof.
  intros text. induction text as [text IH] using length_strong_ind. intros rest Hb.
  destruct text as [|c0 [|c1 [|c2 [|c3 text]]]].
  - exists []. split; [constructor|reflexivity].
  - peel Hb c0 H0. cbn. destruct (b64_lax_value url c0) as [v|] eqn:E.
    + exists [v]. split; [|rewrite dchunk1; reflexivity]. apply valid_blocks_all; [lia|].
      cbn. rewrite E. reflexivity.
    + exists []. split; [|reflexivity]. apply vb_bad; [discriminate|]. cbn. rewrite E. reflexivity.
  - peel Hb c0 H0. peel Hb c1 H1. cbn -[regroup_bytes Z.shiftl Z.shiftr Z.lor]. rewrite !dec_table by assumption.
    val_case url c0 v0 E0 R0 H0; [val_case url c1 v1 E1 R1 H1|].
    + exists [v0; v1]. split; [apply valid_blocks_all; [lia|]; cbn; rewrite E0, E1; reflexivity|].
      cbn [orb]. rewrite dchunk2, d1, d1' by assumption. reflexivity.
    + exists []. split; [|reflexivity]. apply vb_bad; [discriminate|]. cbn. rewrite E0, E1. reflexivity.
    + exists []. split; [|reflexivity]. apply vb_bad; [discriminate|]. cbn. rewrite E0. reflexivity.
  - peel Hb c0 H0. peel Hb c1 H1. peel Hb c2 H2. cbn -[regroup_bytes Z.shiftl Z.shiftr Z.lor]. rewrite !dec_table by assumption.
    val_case url c0 v0 E0 R0 H0; [val_case url c1 v1 E1 R1 H1; [val_case url c2 v2 E2 R2 H2|]|].
    + exists [v0; v1; v2]. split; [apply valid_blocks_all; [lia|]; cbn; rewrite E0, E1, E2; reflexivity|].
      cbn [orb]. rewrite dchunk3, d1, d1', d2, d2' by assumption. reflexivity.
    + exists []. split; [|reflexivity]. apply vb_bad; [discriminate|]. cbn. rewrite E0, E1, E2. reflexivity.
    + exists []. split; [|reflexivity]. apply vb_bad; [discriminate|]. cbn. rewrite E0, E1. reflexivity.
    + exists []. split; [|reflexivity]. apply vb_bad; [discriminate|]. cbn. rewrite E0. reflexivity.
  - peel Hb c0 H0. peel Hb c1 H1. peel Hb c2 H2. peel Hb c3 H3.
    destruct (IH text ltac:(cbn; lia) rest Hb) as (vals & Hv & HE).
    assert (Hlen : length (c0 :: c1 :: c2 :: c3 :: text) = (length text + 1 * 4)%nat) by (cbn; lia).
    rewrite Hlen, Nat.div_add, Nat.mod_add, Nat.add_1_r by lia.
    cbn [from_base64_loop app]. rewrite !dec_table by assumption.
    val_case url c0 v0 E0 R0 H0; [val_case url c1 v1 E1 R1 H1; [val_case url c2 v2 E2 R2 H2; [val_case url c3 v3 E3 R3 H3|]|]|].
    + exists ([v0; v1; v2; v3] ++ vals). split.
      * apply vb_block; [discriminate| |exact Hv]. cbn. rewrite E0, E1, E2, E3. reflexivity.
      * cbn [orb]. rewrite HE. cbn [bind].
        rewrite (regroup_bytes_app 6 3) by (cbn; lia). rewrite dchunk4, d1, d2, d3 by assumption. reflexivity.
    + exists []. split; [apply vb_bad; [discriminate|]; cbn; rewrite E0, E1, E2, E3; reflexivity|].
      cbn [orb Z.eqb Pos.eqb]. reflexivity.
    + exists []. split; [apply vb_bad; [discriminate|]; cbn; rewrite E0, E1, E2; reflexivity|].
      cbn [orb Z.eqb Pos.eqb]. reflexivity.
    + exists []. split; [apply vb_bad; [discriminate|]; cbn; rewrite E0, E1; reflexivity|].
      cbn [orb Z.eqb Pos.eqb]. reflexivity.
    + exists []. split; [apply vb_bad; [discriminate|]; cbn; rewrite E0; reflexivity|].
      cbn [orb Z.eqb Pos.eqb]. reflexivity.
Qed.

Lemma from_base64_gen url text rest : bytes text ->
  exists vals, valid_blocks (b64_lax_value url) 4 text vals /\
    from_base64_ (text ++ rest) (length text) url =
      Ok (length (regroup_bytes 6 vals), regroup_bytes 6 vals).
Proof.
  intros Hb. destruct (from_base64_loop_spec url text rest Hb) as (vals & Hv & E).
  exists vals. split; [exact Hv|]. unfold from_base64_.
  assert (D4 : ((length text - length text mod 4) / 4 = length text / 4)%nat).
  { pose proof (Nat.div_mod (length text) 4 ltac:(lia)).
    replace (length text - length text mod 4)%nat with (length text / 4 * 4)%nat by lia.
    apply Nat.div_mul. lia. }
  rewrite D4, E. reflexivity.
Qed.

Lemma from_len_eq n : from_base64_urlsafe_length n = (6 * n / 8)%nat.
Proof.
  unfold from_base64_urlsafe_length. pose proof (Nat.div_mod n 4 ltac:(lia)) as H.
  pose proof (Nat.mod_upper_bound n 4 ltac:(lia)) as Hm.
  set (q := (n / 4)%nat) in *. set (r := (n mod 4)%nat) in *.
  destruct (Nat.eqb_spec r 2); [|destruct (Nat.eqb_spec r 3)].
  - apply Nat.div_unique with (r := 4%nat); lia.
  - apply Nat.div_unique with (r := 2%nat); lia.
  - assert (r = 0 \/ r = 1)%nat as [?|?] by lia.
    + apply Nat.div_unique with (r := 0%nat); lia.
    + apply Nat.div_unique with (r := 6%nat); lia.
Qed.

Lemma valid_blocks_out_len url text vals : valid_blocks (b64_lax_value url) 4 text vals ->
  (length (regroup_bytes 6 vals) <= from_base64_urlsafe_length (length text))%nat.
Proof.
  intros H. rewrite regroup_bytes_length, from_len_eq.
  apply Nat.div_le_mono; [lia|]. pose proof (valid_blocks_length _ _ _ _ H). lia.
Qed.

(** Number of trailing '=' removed by [strip_pad]. *)
Lemma strip_pad_spec text rest : exists body pad, text = body ++ repeat 61 pad /\ (pad <= 2)%nat /\
  strip_pad (text ++ rest) (length text) = Ok (length body) /\
  (pad = 2%nat \/ forall b0, body <> b0 ++ [61]).
Proof.
  destruct text as [|x t _] using rev_ind.
  - exists [], 0%nat. cbn. repeat split; auto. right. intros [|]; discriminate.
  - unfold strip_pad, rd. rewrite app_length. cbn [length].
    replace (length t + 1 - 1)%nat with (length t) by lia.
    rewrite (proj2 (Nat.ltb_lt _ _)) by lia. rewrite <- app_assoc. cbn [app].
    rewrite nth_error_app_exact. cbn [bind]. destruct (Z.eqb_spec x 61) as [->|Nx].
    + destruct t as [|y t _] using rev_ind.
      * exists [], 1%nat. cbn. repeat split; auto. right. intros [|]; discriminate.
      * rewrite app_length. cbn [length]. replace (length t + 1 - 1)%nat with (length t) by lia.
        rewrite (proj2 (Nat.ltb_lt _ _)) by lia.
        replace ((t ++ [y]) ++ 61 :: rest) with (t ++ y :: 61 :: rest) by (rewrite <- app_assoc; reflexivity).
        rewrite nth_error_app_exact. cbn [bind]. destruct (Z.eqb_spec y 61) as [->|Ny].
        -- exists t, 2%nat. rewrite <- app_assoc. repeat split; auto.
        -- exists (t ++ [y]), 1%nat. rewrite app_length. repeat split; auto.
           right. intros b0 E. apply app_inj_tail in E. destruct E; congruence.
    + exists (t ++ [x]), 0%nat. cbn [repeat]. rewrite app_nil_r, app_length. repeat split; auto.
      right. intros b0 E. apply app_inj_tail in E. destruct E; congruence.
Qed.

Lemma char_value url v : 0 <= v < 64 -> b64_value url (b64_char url v) = Some v.
Proof.
  intros Hv.
  assert (G : (match b64_value url (b64_char url v) with Some x => x =? v | None => false end) = true).
  { destruct url.
    - refine (sweep1 64 (fun v => match b64_value true (b64_char true v) with Some x => x =? v | None => false end) _ v _); [vm_compute; reflexivity|exact Hv].
    - refine (sweep1 64 (fun v => match b64_value false (b64_char false v) with Some x => x =? v | None => false end) _ v _); [vm_compute; reflexivity|exact Hv]. }
  destruct (b64_value _ _); [|discriminate]. apply Z.eqb_eq in G. congruence.
Qed.

Lemma char_facts url v : 0 <= v < 64 -> is_byte (b64_char url v) /\ b64_char url v <> 61.
Proof.
  intros Hv.
  assert (G : is_byteb (b64_char url v) && negb (b64_char url v =? 61) = true).
  { destruct url.
    - refine (sweep1 64 (fun v => is_byteb (b64_char true v) && negb (b64_char true v =? 61)) _ v _); [vm_compute; reflexivity|exact Hv].
    - refine (sweep1 64 (fun v => is_byteb (b64_char false v) && negb (b64_char false v =? 61)) _ v _); [vm_compute; reflexivity|exact Hv]. }
  unfold is_byteb, is_byte in *. lia.
Qed.

Lemma value_char url c v : is_byte c -> b64_value url c = Some v -> b64_char url v = c.
Proof.
  intros Hc H.
  assert (G : (match b64_value url c with Some x => b64_char url x =? c | None => true end) = true).
  { destruct url.
    - refine (sweep1 256 (fun c => match b64_value true c with Some x => b64_char true x =? c | None => true end) _ c _); [vm_compute; reflexivity|exact Hc].
    - refine (sweep1 256 (fun c => match b64_value false c with Some x => b64_char false x =? c | None => true end) _ c _); [vm_compute; reflexivity|exact Hc]. }
  rewrite H in G. lia.
Qed.

Lemma lax_of_value url c v : b64_value url c = Some v -> b64_lax_value url c = Some v.
Proof.
  intros H. unfold b64_lax_value. destruct (negb url && (c =? 61)) eqn:E; [|exact H].
  apply andb_prop in E. destruct E as [E1 E2]. apply Z.eqb_eq in E2. subst c.
  destruct url; [discriminate|]. cbn in H. discriminate.
Qed.

Lemma all_values_body url (f : Z -> option Z) vs : (forall v, 0 <= v < 64 -> f (b64_char url v) = Some v) ->
  Forall (fun v => 0 <= v < 64) vs -> all_values f (map (b64_char url) vs) = Some vs.
Proof.
  intros Hf. induction vs as [|v vs IH]; intros H; [reflexivity|].
  inversion H as [|? ? Hv Hvs]; subst. cbn. rewrite Hf, IH by assumption. reflexivity.
Qed.

Lemma body_bytes url buf : bytes (b64_body url buf) /\ Forall (fun c => c <> 61) (b64_body url buf).
Proof.
  unfold b64_body, bytes. rewrite !Forall_map. pose proof (rg6_range buf) as H.
  split; eapply Forall_impl; try exact H; intros v Hv; apply char_facts; exact Hv.
Qed.

Lemma decode_body url buf rest : bytes buf ->
  from_base64_ (b64_body url buf ++ rest) (length (b64_body url buf)) url = Ok (length buf, buf).
Proof.
  intros Hb. destruct (from_base64_gen url (b64_body url buf) rest) as (vals & Hv & E); [apply body_bytes|].
  rewrite E. assert (vals = regroup_pad 6 buf) as ->.
  { apply (valid_blocks_fun _ _ _ _ _ Hv). apply valid_blocks_all; [lia|].
    apply all_values_body; [|apply rg6_range]. intros v Hr. apply lax_of_value, char_value, Hr. }
  rewrite regroup_roundtrip by (try assumption; lia). reflexivity.
Qed.

Lemma body_length url buf : length (b64_body url buf) = to_base64_urlsafe_length (length buf).
Proof.
  unfold b64_body. rewrite map_length, regroup_pad_length by lia.
  unfold to_base64_urlsafe_length. set (n := length buf).
  pose proof (Nat.div_mod n 3 ltac:(lia)) as H. pose proof (Nat.mod_upper_bound n 3 ltac:(lia)) as Hm.
  set (q := (n / 3)%nat) in *. set (r := (n mod 3)%nat) in *. symmetry.
  destruct (Nat.eqb_spec r 1); [|destruct (Nat.eqb_spec r 2)].
  - apply Nat.div_unique with (r := 1%nat); lia.
  - apply Nat.div_unique with (r := 3%nat); lia.
  - apply Nat.div_unique with (r := 5%nat); lia.
Qed.

Lemma body_mod4 url buf : (length (b64_body url buf) mod 4 <> 1)%nat.
Proof.
  rewrite body_length. unfold to_base64_urlsafe_length. set (n := length buf).
  pose proof (Nat.mod_upper_bound n 3 ltac:(lia)) as Hm.
  destruct (Nat.eqb_spec (n mod 3) 1); [|destruct (Nat.eqb_spec (n mod 3) 2)];
    rewrite ?(Nat.add_comm (n / 3 * 4)), ?Nat.mod_add, ?Nat.mod_mul by lia; cbn; lia.
Qed.

Lemma to_base64_len buf : bytes buf -> length (to_base64 buf) = to_base64_length (length buf).
Proof.
  intros Hb. unfold to_base64. rewrite to_base64_spec by exact Hb. rewrite app_length, repeat_length.
  rewrite body_length. unfold to_base64_urlsafe_length, to_base64_length. set (n := length buf).
  pose proof (Nat.div_mod n 3 ltac:(lia)) as H. pose proof (Nat.mod_upper_bound n 3 ltac:(lia)) as Hm.
  set (q := (n / 3)%nat) in *. set (r := (n mod 3)%nat) in *.
  destruct (Nat.eqb_spec r 1) as [E|]; [|destruct (Nat.eqb_spec r 2)].
  - rewrite (Nat.add_comm (q * 4)), Nat.mod_add by lia. cbn [Nat.modulo Nat.divmod Nat.sub fst snd].
    replace ((n + 2) / 3)%nat with (q + 1)%nat by (apply Nat.div_unique with (r := 0%nat); lia). lia.
  - rewrite (Nat.add_comm (q * 4)), Nat.mod_add by lia. cbn [Nat.modulo Nat.divmod Nat.sub fst snd].
    replace ((n + 2) / 3)%nat with (q + 1)%nat by (apply Nat.div_unique with (r := 1%nat); lia). lia.
  - rewrite Nat.mod_mul by lia. cbn [Nat.modulo Nat.divmod Nat.sub fst snd].
    replace ((n + 2) / 3)%nat with q by (apply Nat.div_unique with (r := 2%nat); lia). lia.
Qed.

Lemma snoc_repeat (l : list Z) k : l ++ repeat 61 (S k) = (l ++ [61]) ++ repeat 61 k.
Proof. rewrite <- app_assoc. reflexivity. Qed.

Lemma repeat_snoc (l : list Z) k : l ++ repeat 61 (S k) = (l ++ repeat 61 k) ++ [61].
Proof. rewrite <- app_assoc. f_equal. apply repeat_cons. Qed.

Lemma pad_unique : forall p q body body', (p <= 2)%nat -> (q <= 2)%nat ->
  body ++ repeat 61 p = body' ++ repeat 61 q ->
  (forall b0, body <> b0 ++ [61]) -> (q = 2%nat \/ forall b0, body' <> b0 ++ [61]) ->
  body = body' /\ p = q.
Proof.
  induction p as [|p IH]; intros q body body' Hp Hq E Hb Hb'.
  - destruct q as [|q]; [rewrite !app_nil_r in E; auto|].
    rewrite repeat_snoc in E. cbn [repeat] in E. rewrite app_nil_r in E. exfalso. exact (Hb _ E).
  - destruct q as [|q].
    + destruct Hb' as [?|Hb']; [lia|]. rewrite repeat_snoc in E. cbn [repeat] in E. rewrite app_nil_r in E.
      exfalso. exact (Hb' _ (eq_sym E)).
    + rewrite !repeat_snoc in E. apply app_inj_tail in E. destruct E as [E _].
      destruct Hb' as [Hq2|Hb'].
      * assert (q = 1%nat) by lia. subst q. cbn [repeat] in E. destruct p as [|[|p]]; [|split; [|reflexivity]|lia].
        -- cbn [repeat] in E. rewrite app_nil_r in E. exfalso. exact (Hb _ E).
        -- cbn [repeat] in E. apply app_inj_tail in E. tauto.
      * destruct (IH q body body') as [A B]; auto; lia.
Qed.

Lemma strip_body buf rest : bytes buf ->
  strip_pad (to_base64 buf ++ rest) (length (to_base64 buf)) = Ok (length (b64_body false buf)).
Proof.
  intros Hb. destruct (strip_pad_spec (to_base64 buf) rest) as (body & pad & E & Hp & HE & Hmax).
  rewrite HE. unfold to_base64 in E. rewrite to_base64_spec in E by exact Hb.
  pose proof (body_mod4 false buf) as Hm. pose proof (Nat.mod_upper_bound (length (b64_body false buf)) 4 ltac:(lia)).
  assert (H2 : ((4 - length (b64_body false buf) mod 4) mod 4 <= 2)%nat).
  { assert (length (b64_body false buf) mod 4 = 0 \/ length (b64_body false buf) mod 4 = 2 \/ length (b64_body false buf) mod 4 = 3)%nat as [-> | [-> | ->]] by lia; cbn; lia. }
  destruct (pad_unique _ _ _ _ H2 Hp E) as [-> _].
  - intros b0 E0. pose proof (proj2 (body_bytes false buf)) as F. rewrite E0 in F.
    apply Forall_app in F. destruct F as [_ F]. inversion F; congruence.
  - exact Hmax.
  - reflexivity.
Qed.

Lemma base64_roundtrip buf rest : bytes buf ->
  from_base64 (to_base64 buf ++ rest) (length (to_base64 buf)) = Ok (length buf, buf) /\
  from_base64_length (to_base64 buf ++ rest) (length (to_base64 buf)) = Ok (length buf).
Proof.
  intros Hb. unfold from_base64, from_base64_length. rewrite strip_body by exact Hb. cbn [bind].
  split.
  - unfold to_base64. rewrite to_base64_spec by exact Hb. rewrite <- app_assoc. apply decode_body, Hb.
  - f_equal. rewrite from_len_eq. unfold b64_body. rewrite map_length.
    rewrite <- regroup_bytes_length, regroup_roundtrip by (try assumption; lia). reflexivity.
Qed.

Lemma base64_urlsafe_roundtrip buf rest : bytes buf ->
  from_base64_urlsafe (to_base64_urlsafe buf ++ rest) (length (to_base64_urlsafe buf)) = Ok (length buf, buf) /\
  from_base64_urlsafe_length (length (to_base64_urlsafe buf)) = length buf.
Proof.
  intros Hb. unfold from_base64_urlsafe, to_base64_urlsafe. rewrite to_base64_spec by exact Hb.
  rewrite app_nil_r. split; [apply decode_body, Hb|].
  rewrite from_len_eq. unfold b64_body. rewrite map_length.
  rewrite <- regroup_bytes_length, regroup_roundtrip by (try assumption; lia). reflexivity.
Qed.

(** Strictness, as far as it holds. *)
Lemma strict_gen url text rest n out : bytes text ->
  from_base64_ (text ++ rest) (length text) url = Ok (n, out) ->
  n = from_base64_urlsafe_length (length text) -> (length text mod 4 <> 1)%nat ->
  exists vals, all_values (b64_lax_value url) text = Some vals /\ out = regroup_bytes 6 vals.
Proof.
  intros Hb E Hn Hm. destruct (from_base64_gen url text rest Hb) as (vals & Hv & E').
  rewrite E in E'. injection E' as E1 E2. subst out. rewrite E1 in Hn. clear E1. exists vals. split; [|reflexivity].
  destruct (valid_blocks_miss _ 4 _ _ ltac:(lia) Hv) as [H|(q & Hq & Hlt)]; [exact H|exfalso].
  rewrite regroup_bytes_length, from_len_eq, Hq in Hn.
  replace (6 * (q * 4))%nat with (3 * q * 8)%nat in Hn by lia. rewrite Nat.div_mul in Hn by lia.
  pose proof (Nat.div_mod (6 * length text) 8 ltac:(lia)) as D.
  pose proof (Nat.mod_upper_bound (6 * length text) 8 ltac:(lia)).
  assert (length text = 4 * q + 1)%nat as EL by lia.
  rewrite EL in Hm. rewrite Nat.mul_comm, Nat.add_comm, Nat.mod_add in Hm by lia. apply Hm. reflexivity.
Qed.

Lemma spare6_len vs : (length vs mod 4 <> 1)%nat -> (length (spare_bits 6 vs) < 6)%nat.
Proof.
  intros H. unfold spare_bits. rewrite skipn_length, bit_string_length.
  pose proof (Nat.div_mod (6 * length vs) 8 ltac:(lia)) as D.
  pose proof (Nat.mod_upper_bound (6 * length vs) 8 ltac:(lia)).
  assert ((6 * length vs) mod 8 <> 6)%nat; [|lia].
  intros E. apply H. rewrite E in D.
  symmetry. apply Nat.mod_unique with (q := ((length vs - 1) / 4)%nat); [lia|].
  assert (exists j, length vs = 4 * j + 1)%nat as [j ->] by (exists (((6 * length vs / 8)) / 3)%nat; 
    pose proof (Nat.div_mod (6 * length vs / 8) 3 ltac:(lia)); pose proof (Nat.mod_upper_bound (6 * length vs / 8) 3 ltac:(lia)); lia).
  replace (4 * j + 1 - 1)%nat with (j * 4)%nat by lia. rewrite Nat.div_mul by lia. lia.
Qed.

Lemma reencode url vs text : bytes text -> all_values (b64_value url) text = Some vs ->
  (length text mod 4 <> 1)%nat -> Forall (fun b => b = false) (spare_bits 6 vs) ->
  b64_body url (regroup_bytes 6 vs) = text.
Proof.
  intros Hb Hv Hm Hz. pose proof (all_values_length _ _ _ Hv) as Hl.
  unfold b64_body. rewrite regroup_back; [|lia| |apply spare6_len; lia|exact Hz].
  - clear Hm Hz Hl. revert vs Hv. induction text as [|c text IH]; intros vs Hv; cbn in Hv.
    + injection Hv as <-. reflexivity.
    + apply bytes_cons in Hb; destruct Hb as [Hc Hb].
      destruct (b64_value url c) as [v|] eqn:E; [|discriminate].
      destruct (all_values (b64_value url) text) as [ws|]; [|discriminate]. injection Hv as <-.
      cbn [map]. rewrite (value_char url c v Hc E), (IH Hb ws eq_refl). reflexivity.
  - apply Forall_forall. intros v Hin. destruct (all_values_In _ _ _ _ Hv Hin) as (c & Hc & E).
    apply (b64_lax_range url c v); [exact (proj1 (Forall_forall _ _) Hb c Hc)|apply lax_of_value, E].
Qed.

Lemma all_values_lax_nopad url text vs : Forall (fun c => url = true \/ c <> 61) text ->
  all_values (b64_lax_value url) text = Some vs -> all_values (b64_value url) text = Some vs.
Proof.
  revert vs. induction text as [|c text IH]; intros vs F H; [exact H|].
  inversion F as [|? ? Hc F']; subst. cbn in *.
  assert (E : b64_lax_value url c = b64_value url c).
  { unfold b64_lax_value. destruct Hc as [->|Hc]; [reflexivity|].
    rewrite (proj2 (Z.eqb_neq _ _) Hc), andb_false_r. reflexivity. }
  rewrite E in H. destruct (b64_value url c); [|discriminate].
  destruct (all_values (b64_lax_value url) text) as [ws|]; [|discriminate].
  rewrite (IH ws F' eq_refl). exact H.
Qed.
