From Verif Require Import Base S_Bits S_Rfc4648 L_Bits L_Rfc M_Base32.

Lemma e1 i0 : is_byte i0 -> bits_val (firstn 5 (bits 8 i0)) = u8 (Z.shiftr i0 3).
Proof. intros Hi0. apply Z.eqb_eq.
  refine (sweep1 256 (fun i0 => bits_val (firstn 5 (bits 8 i0)) =? u8 (Z.shiftr i0 3)) _ i0 _); [vm_compute; reflexivity|exact Hi0]. Qed.
Lemma e2 i0 i1 : is_byte i0 -> is_byte i1 -> bits_val (skipn 5 (bits 8 i0) ++ firstn 2 (bits 8 i1)) = u8 (Z.lor (Z.shiftl (Z.land i0 7) 2) (Z.shiftr i1 6)).
Proof. intros Hi0 Hi1. exact (sweep_join 256 256 8 4 (fun i => skipn 5 (bits 8 i)) (fun i => firstn 2 (bits 8 i)) 2 (fun i => Z.land i 7) (fun i => Z.shiftr i 6) (fun a b => u8 (Z.lor (Z.shiftl a 2) b)) eq_refl eq_refl eq_refl i0 i1 Hi0 Hi1). Qed.
Lemma e3 i1 : is_byte i1 -> bits_val (firstn 5 (skipn 2 (bits 8 i1))) = u8 (Z.land (Z.shiftr i1 1) 31).
Proof. intros Hi1. apply Z.eqb_eq.
  refine (sweep1 256 (fun i1 => bits_val (firstn 5 (skipn 2 (bits 8 i1))) =? u8 (Z.land (Z.shiftr i1 1) 31)) _ i1 _); [vm_compute; reflexivity|exact Hi1]. Qed.
Lemma e4 i1 i2 : is_byte i1 -> is_byte i2 -> bits_val (skipn 7 (bits 8 i1) ++ firstn 4 (bits 8 i2)) = u8 (Z.lor (Z.shiftl (Z.land i1 1) 4) (Z.shiftr i2 4)).
Proof. intros Hi1 Hi2. exact (sweep_join 256 256 2 16 (fun i => skipn 7 (bits 8 i)) (fun i => firstn 4 (bits 8 i)) 4 (fun i => Z.land i 1) (fun i => Z.shiftr i 4) (fun a b => u8 (Z.lor (Z.shiftl a 4) b)) eq_refl eq_refl eq_refl i1 i2 Hi1 Hi2). Qed.
Lemma e5 i2 i3 : is_byte i2 -> is_byte i3 -> bits_val (skipn 4 (bits 8 i2) ++ firstn 1 (bits 8 i3)) = u8 (Z.lor (Z.shiftl (Z.land i2 15) 1) (Z.shiftr i3 7)).
Proof. intros Hi2 Hi3. exact (sweep_join 256 256 16 2 (fun i => skipn 4 (bits 8 i)) (fun i => firstn 1 (bits 8 i)) 1 (fun i => Z.land i 15) (fun i => Z.shiftr i 7) (fun a b => u8 (Z.lor (Z.shiftl a 1) b)) eq_refl eq_refl eq_refl i2 i3 Hi2 Hi3). Qed.
Lemma e6 i3 : is_byte i3 -> bits_val (firstn 5 (skipn 1 (bits 8 i3))) = u8 (Z.land (Z.shiftr i3 2) 31).
Proof. intros Hi3. apply Z.eqb_eq.
  refine (sweep1 256 (fun i3 => bits_val (firstn 5 (skipn 1 (bits 8 i3))) =? u8 (Z.land (Z.shiftr i3 2) 31)) _ i3 _); [vm_compute; reflexivity|exact Hi3]. Qed.
Lemma e7 i3 i4 : is_byte i3 -> is_byte i4 -> bits_val (skipn 6 (bits 8 i3) ++ firstn 3 (bits 8 i4)) = u8 (Z.lor (Z.shiftl (Z.land i3 3) 3) (Z.land (Z.shiftr i4 5) 7)).
Proof. intros Hi3 Hi4. exact (sweep_join 256 256 4 8 (fun i => skipn 6 (bits 8 i)) (fun i => firstn 3 (bits 8 i)) 3 (fun i => Z.land i 3) (fun i => Z.land (Z.shiftr i 5) 7) (fun a b => u8 (Z.lor (Z.shiftl a 3) b)) eq_refl eq_refl eq_refl i3 i4 Hi3 Hi4). Qed.
Lemma e8 i4 : is_byte i4 -> bits_val (skipn 3 (bits 8 i4)) = u8 (Z.land i4 31).
Proof. intros Hi4. apply Z.eqb_eq.
  refine (sweep1 256 (fun i4 => bits_val (skipn 3 (bits 8 i4)) =? u8 (Z.land i4 31)) _ i4 _); [vm_compute; reflexivity|exact Hi4]. Qed.
Lemma e2t i0 : is_byte i0 -> bits_val (skipn 5 (bits 8 i0) ++ repeat false 2) = u8 (Z.shiftl (Z.land i0 7) 2).
Proof. intros Hi0. apply Z.eqb_eq.
  refine (sweep1 256 (fun i0 => bits_val (skipn 5 (bits 8 i0) ++ repeat false 2) =? u8 (Z.shiftl (Z.land i0 7) 2)) _ i0 _); [vm_compute; reflexivity|exact Hi0]. Qed.
Lemma e4t i1 : is_byte i1 -> bits_val (skipn 7 (bits 8 i1) ++ repeat false 4) = u8 (Z.shiftl (Z.land i1 1) 4).
Proof. intros Hi1. apply Z.eqb_eq.
  refine (sweep1 256 (fun i1 => bits_val (skipn 7 (bits 8 i1) ++ repeat false 4) =? u8 (Z.shiftl (Z.land i1 1) 4)) _ i1 _); [vm_compute; reflexivity|exact Hi1]. Qed.
Lemma e5t i2 : is_byte i2 -> bits_val (skipn 4 (bits 8 i2) ++ repeat false 1) = u8 (Z.shiftl (Z.land i2 15) 1).
Proof. intros Hi2. apply Z.eqb_eq.
  refine (sweep1 256 (fun i2 => bits_val (skipn 4 (bits 8 i2) ++ repeat false 1) =? u8 (Z.shiftl (Z.land i2 15) 1)) _ i2 _); [vm_compute; reflexivity|exact Hi2]. Qed.
Lemma e7t i3 : is_byte i3 -> bits_val (skipn 6 (bits 8 i3) ++ repeat false 3) = u8 (Z.shiftl (Z.land i3 3) 3).
Proof. intros Hi3. apply Z.eqb_eq.
  refine (sweep1 256 (fun i3 => bits_val (skipn 6 (bits 8 i3) ++ repeat false 3) =? u8 (Z.shiftl (Z.land i3 3) 3)) _ i3 _); [vm_compute; reflexivity|exact Hi3]. Qed.
Lemma chunk5 i0 i1 i2 i3 i4 : regroup_pad 5 [i0; i1; i2; i3; i4] =
  [bits_val (firstn 5 (bits 8 i0));
   bits_val (skipn 5 (bits 8 i0) ++ firstn 2 (bits 8 i1));
   bits_val (firstn 5 (skipn 2 (bits 8 i1)));
   bits_val (skipn 7 (bits 8 i1) ++ firstn 4 (bits 8 i2));
   bits_val (skipn 4 (bits 8 i2) ++ firstn 1 (bits 8 i3));
   bits_val (firstn 5 (skipn 1 (bits 8 i3)));
   bits_val (skipn 6 (bits 8 i3) ++ firstn 3 (bits 8 i4));
   bits_val (skipn 3 (bits 8 i4))].
Proof. reflexivity. Qed.
Lemma chunk4 i0 i1 i2 i3 : regroup_pad 5 [i0; i1; i2; i3] =
  [bits_val (firstn 5 (bits 8 i0));
   bits_val (skipn 5 (bits 8 i0) ++ firstn 2 (bits 8 i1));
   bits_val (firstn 5 (skipn 2 (bits 8 i1)));
   bits_val (skipn 7 (bits 8 i1) ++ firstn 4 (bits 8 i2));
   bits_val (skipn 4 (bits 8 i2) ++ firstn 1 (bits 8 i3));
   bits_val (firstn 5 (skipn 1 (bits 8 i3)));
   bits_val (skipn 6 (bits 8 i3) ++ repeat false 3)].
Proof. reflexivity. Qed.
Lemma chunk3 i0 i1 i2 : regroup_pad 5 [i0; i1; i2] =
  [bits_val (firstn 5 (bits 8 i0));
   bits_val (skipn 5 (bits 8 i0) ++ firstn 2 (bits 8 i1));
   bits_val (firstn 5 (skipn 2 (bits 8 i1)));
   bits_val (skipn 7 (bits 8 i1) ++ firstn 4 (bits 8 i2));
   bits_val (skipn 4 (bits 8 i2) ++ repeat false 1)].
Proof. reflexivity. Qed.
Lemma chunk2 i0 i1 : regroup_pad 5 [i0; i1] =
  [bits_val (firstn 5 (bits 8 i0));
   bits_val (skipn 5 (bits 8 i0) ++ firstn 2 (bits 8 i1));
   bits_val (firstn 5 (skipn 2 (bits 8 i1)));
   bits_val (skipn 7 (bits 8 i1) ++ repeat false 4)].
Proof. reflexivity. Qed.
Lemma chunk1 i0 : regroup_pad 5 [i0] =
  [bits_val (firstn 5 (bits 8 i0));
   bits_val (skipn 5 (bits 8 i0) ++ repeat false 2)].
Proof. reflexivity. Qed.
Lemma d0 a b : 0 <= a < 32 -> 0 <= b < 32 -> bits_val (bits 5 a ++ firstn 3 (bits 5 b)) = b32_o0 a b.
Proof. intros Ha Hb. apply Z.eqb_eq.
  refine (sweep2 32 32 (fun a b => bits_val (bits 5 a ++ firstn 3 (bits 5 b)) =? b32_o0 a b) _ a b _ _); [vm_compute; reflexivity|exact Ha|exact Hb]. Qed.
Lemma d1 a b c : 0 <= a < 32 -> 0 <= b < 32 -> 0 <= c < 32 -> bits_val (skipn 3 (bits 5 a) ++ bits 5 b ++ firstn 1 (bits 5 c)) = b32_o1 a b c.
Proof. intros Ha Hb Hc. apply Z.eqb_eq.
  refine (sweep3 32 32 32 (fun a b c => bits_val (skipn 3 (bits 5 a) ++ bits 5 b ++ firstn 1 (bits 5 c)) =? b32_o1 a b c) _ a b c _ _ _); [vm_compute; reflexivity|exact Ha|exact Hb|exact Hc]. Qed.
Lemma d2 a b : 0 <= a < 32 -> 0 <= b < 32 -> bits_val (skipn 1 (bits 5 a) ++ firstn 4 (bits 5 b)) = b32_o2 a b.
Proof. intros Ha Hb. apply Z.eqb_eq.
  refine (sweep2 32 32 (fun a b => bits_val (skipn 1 (bits 5 a) ++ firstn 4 (bits 5 b)) =? b32_o2 a b) _ a b _ _); [vm_compute; reflexivity|exact Ha|exact Hb]. Qed.
Lemma d3 a b c : 0 <= a < 32 -> 0 <= b < 32 -> 0 <= c < 32 -> bits_val (skipn 4 (bits 5 a) ++ bits 5 b ++ firstn 2 (bits 5 c)) = b32_o3 a b c.
Proof. intros Ha Hb Hc. apply Z.eqb_eq.
  refine (sweep3 32 32 32 (fun a b c => bits_val (skipn 4 (bits 5 a) ++ bits 5 b ++ firstn 2 (bits 5 c)) =? b32_o3 a b c) _ a b c _ _ _); [vm_compute; reflexivity|exact Ha|exact Hb|exact Hc]. Qed.
Lemma d4 a b : 0 <= a < 32 -> 0 <= b < 32 -> bits_val (skipn 2 (bits 5 a) ++ bits 5 b) = b32_o4 a b.
Proof. intros Ha Hb. apply Z.eqb_eq.
  refine (sweep2 32 32 (fun a b => bits_val (skipn 2 (bits 5 a) ++ bits 5 b) =? b32_o4 a b) _ a b _ _); [vm_compute; reflexivity|exact Ha|exact Hb]. Qed.
Lemma dchunk8 v1 v2 v3 v4 v5 v6 v7 v8 : regroup_bytes 5 [v1; v2; v3; v4; v5; v6; v7; v8] =
  [bits_val (bits 5 v1 ++ firstn 3 (bits 5 v2));
   bits_val (skipn 3 (bits 5 v2) ++ bits 5 v3 ++ firstn 1 (bits 5 v4));
   bits_val (skipn 1 (bits 5 v4) ++ firstn 4 (bits 5 v5));
   bits_val (skipn 4 (bits 5 v5) ++ bits 5 v6 ++ firstn 2 (bits 5 v7));
   bits_val (skipn 2 (bits 5 v7) ++ bits 5 v8)].
Proof. reflexivity. Qed.
Lemma dchunk7 v1 v2 v3 v4 v5 v6 v7 : regroup_bytes 5 [v1; v2; v3; v4; v5; v6; v7] =
  [bits_val (bits 5 v1 ++ firstn 3 (bits 5 v2));
   bits_val (skipn 3 (bits 5 v2) ++ bits 5 v3 ++ firstn 1 (bits 5 v4));
   bits_val (skipn 1 (bits 5 v4) ++ firstn 4 (bits 5 v5));
   bits_val (skipn 4 (bits 5 v5) ++ bits 5 v6 ++ firstn 2 (bits 5 v7))].
Proof. reflexivity. Qed.
Lemma dchunk5 v1 v2 v3 v4 v5 : regroup_bytes 5 [v1; v2; v3; v4; v5] =
  [bits_val (bits 5 v1 ++ firstn 3 (bits 5 v2));
   bits_val (skipn 3 (bits 5 v2) ++ bits 5 v3 ++ firstn 1 (bits 5 v4));
   bits_val (skipn 1 (bits 5 v4) ++ firstn 4 (bits 5 v5))].
Proof. reflexivity. Qed.
Lemma dchunk4 v1 v2 v3 v4 : regroup_bytes 5 [v1; v2; v3; v4] =
  [bits_val (bits 5 v1 ++ firstn 3 (bits 5 v2));
   bits_val (skipn 3 (bits 5 v2) ++ bits 5 v3 ++ firstn 1 (bits 5 v4))].
Proof. reflexivity. Qed.
Lemma dchunk2 v1 v2 : regroup_bytes 5 [v1; v2] =
  [bits_val (bits 5 v1 ++ firstn 3 (bits 5 v2))].
Proof. reflexivity. Qed.

Definition b32_enc (raw : bool) (v : Z) : Z := if raw then v else b32_char v.
Definition b32_val (raw : bool) : Z -> option Z := if raw then b32_raw_value else b32_value.

Lemma enc_table raw v : 0 <= v < 32 -> tget (b32_encode_str raw) v = b32_enc raw v.
Proof.
  intros Hv. apply Z.eqb_eq. destruct raw.
  - refine (sweep1 32 (fun v => tget (b32_encode_str true) v =? b32_enc true v) _ v _); [vm_compute; reflexivity|exact Hv].
  - refine (sweep1 32 (fun v => tget (b32_encode_str false) v =? b32_enc false v) _ v _); [vm_compute; reflexivity|exact Hv].
Qed.

Lemma rg5_range buf : Forall (fun v => 0 <= v < 32) (regroup_pad 5 buf).
Proof. exact (regroup_pad_range 5 buf ltac:(lia)). Qed.

Definition enc_body (raw : bool) (buf : list Z) : list Z := map (b32_enc raw) (regroup_pad 5 buf).

Ltac peel H x Hx := apply bytes_cons in H; destruct H as [Hx H].
Ltac unforall H := repeat match type of H with Forall _ (_ :: _) => let H1 := fresh "R" in let H2 := fresh H in inversion H as [|? ? H1 H2]; subst; clear H; rename H2 into H end.

Lemma to_base32_spec raw buf : bytes buf ->
  to_base32_chars buf raw = enc_body raw buf ++
    (if raw then [] else repeat 61 ((8 - length (enc_body raw buf) mod 8) mod 8)).
Proof.
  induction buf as [buf IH] using length_strong_ind. intros Hb.
  assert (Hr := rg5_range).
  destruct buf as [|i0 [|i1 [|i2 [|i3 [|i4 rest]]]]].
  - destruct raw; reflexivity.
  - peel Hb i0 H0. specialize (Hr [i0]). unfold enc_body. rewrite chunk1, e1, e2t in * by assumption.
    unforall Hr. cbn [to_base32_chars map]. rewrite !enc_table by assumption. destruct raw; reflexivity.
  - peel Hb i0 H0. peel Hb i1 H1. specialize (Hr [i0; i1]). unfold enc_body. rewrite chunk2, e1, e2, e3, e4t in * by assumption.
    unforall Hr. cbn [to_base32_chars map]. rewrite !enc_table by assumption. destruct raw; reflexivity.
  - peel Hb i0 H0. peel Hb i1 H1. peel Hb i2 H2. specialize (Hr [i0; i1; i2]). unfold enc_body.
    rewrite chunk3, e1, e2, e3, e4, e5t in * by assumption.
    unforall Hr. cbn [to_base32_chars map]. rewrite !enc_table by assumption. destruct raw; reflexivity.
  - peel Hb i0 H0. peel Hb i1 H1. peel Hb i2 H2. peel Hb i3 H3. specialize (Hr [i0; i1; i2; i3]). unfold enc_body.
    rewrite chunk4, e1, e2, e3, e4, e5, e6, e7t in * by assumption.
    unforall Hr. cbn [to_base32_chars map]. rewrite !enc_table by assumption. destruct raw; reflexivity.
  - peel Hb i0 H0. peel Hb i1 H1. peel Hb i2 H2. peel Hb i3 H3. peel Hb i4 H4. specialize (Hr [i0; i1; i2; i3; i4]).
    assert (E : enc_body raw (i0 :: i1 :: i2 :: i3 :: i4 :: rest) = enc_body raw [i0; i1; i2; i3; i4] ++ enc_body raw rest).
    { unfold enc_body. change (i0 :: i1 :: i2 :: i3 :: i4 :: rest) with ([i0; i1; i2; i3; i4] ++ rest).
      rewrite (regroup_pad_app 5 8) by (cbn; lia). apply map_app. }
    rewrite E. cbn [to_base32_chars]. rewrite IH by (try exact Hb; cbn; lia).
    rewrite chunk5, e1, e2, e3, e4, e5, e6, e7, e8 in Hr by assumption. unforall Hr.
    rewrite !enc_table by assumption.
    unfold enc_body at 3 5. rewrite chunk5, e1, e2, e3, e4, e5, e6, e7, e8 by assumption. cbn [map app].
    repeat f_equal. cbn [length].
    replace (S (S (S (S (S (S (S (S (length (enc_body raw rest)))))))))) with (length (enc_body raw rest) + 1 * 8)%nat by lia.
    rewrite Nat.mod_add by lia. reflexivity.
Qed.

Lemma enc_body_length raw buf : length (enc_body raw buf) = ((8 * length buf + 4) / 5)%nat.
Proof. unfold enc_body. rewrite map_length, regroup_pad_length by lia. reflexivity. Qed.

Ltac five n q r :=
  pose proof (Nat.div_mod n 5 ltac:(lia)) as Hdm; pose proof (Nat.mod_upper_bound n 5 ltac:(lia)) as Hmb;
  set (q := (n / 5)%nat) in *; set (r := (n mod 5)%nat) in *;
  assert (Hr5 : (r = 0 \/ r = 1 \/ r = 2 \/ r = 3 \/ r = 4)%nat) by lia.

(** number of characters by number of bytes 5q+r *)
Lemma enc_len_cases n : let q := (n / 5)%nat in let r := (n mod 5)%nat in
  ((8 * n + 4) / 5 = 8 * q + nth r [0; 2; 4; 5; 7] 0)%nat /\ (r < 5)%nat.
Proof.
  cbv zeta. five n q r. split; [|exact Hmb].
  destruct Hr5 as [E|[E|[E|[E|E]]]]; rewrite E; cbn [nth]; symmetry;
    [apply Nat.div_unique with (r := 4%nat)|apply Nat.div_unique with (r := 2%nat)|apply Nat.div_unique with (r := 0%nat)
    |apply Nat.div_unique with (r := 3%nat)|apply Nat.div_unique with (r := 1%nat)]; lia.
Qed.

Lemma enc_body_good raw buf : b32_good_length (length (enc_body raw buf)).
Proof.
  rewrite enc_body_length. destruct (enc_len_cases (length buf)) as [E Hr]. rewrite E.
  unfold b32_good_length. rewrite Nat.add_comm, Nat.mul_comm, Nat.mod_add by lia.
  set (r := (length buf mod 5)%nat) in *.
  assert (r = 0 \/ r = 1 \/ r = 2 \/ r = 3 \/ r = 4)%nat as [H|[H|[H|[H|H]]]] by lia; rewrite H; cbn; tauto.
Qed.

Lemma to_size_spec n raw : to_base32_size n raw = if raw then ((8 * n + 4) / 5)%nat else to_base32_length n.
Proof.
  unfold to_base32_size, to_base32_length. destruct (enc_len_cases n) as [E Hr]. rewrite E. clear E.
  assert (D5 : ((n - n mod 5) / 5 = n / 5)%nat).
  { pose proof (Nat.div_mod n 5 ltac:(lia)).
    replace (n - n mod 5)%nat with (n / 5 * 5)%nat by lia. apply Nat.div_mul. lia. }
  rewrite D5. five n q r.
  assert (G : ((n + 4) / 5 = q + (if (r =? 0)%nat then 0 else 1))%nat).
  { symmetry. destruct (Nat.eqb_spec r 0); [apply Nat.div_unique with (r := 4%nat); lia|].
    apply Nat.div_unique with (r := (r - 1)%nat); lia. }
  rewrite G. destruct Hr5 as [E|[E|[E|[E|E]]]]; rewrite E; destruct raw; cbn; lia.
Qed.

Lemma to_base32_len buf : bytes buf -> length (to_base32 buf) = to_base32_length (length buf).
Proof.
  intros Hb. unfold to_base32. rewrite to_base32_spec by exact Hb.
  rewrite app_length, repeat_length, enc_body_length.
  destruct (enc_len_cases (length buf)) as [E Hr]. rewrite E. clear E. unfold to_base32_length.
  rewrite (Nat.add_comm (8 * _)), (Nat.mul_comm 8), Nat.mod_add by lia. five (length buf) q r.
  assert (G : ((length buf + 4) / 5 = q + (if (r =? 0)%nat then 0 else 1))%nat).
  { symmetry. destruct (Nat.eqb_spec r 0); [apply Nat.div_unique with (r := 4%nat); lia|].
    apply Nat.div_unique with (r := (r - 1)%nat); lia. }
  rewrite G. destruct Hr5 as [E|[E|[E|[E|E]]]]; rewrite E; cbn; lia.
Qed.

(* ---- decoding ---- *)
Definition is_ascii (c : Z) : Prop := 0 <= c < 128.

Lemma dec_table raw c : is_ascii c ->
  tget_ub (b32_decode_str raw) (as_char c) = Ok (match b32_val raw c with Some v => v | None => 255 end).
Proof.
  intros Hc.
  assert (G : (match tget_ub (b32_decode_str raw) (as_char c) with
               | Ok x => x =? match b32_val raw c with Some v => v | None => 255 end | _ => false end) = true).
  { destruct raw.
    - refine (sweep1 128 (fun c => match tget_ub (b32_decode_str true) (as_char c) with
               | Ok x => x =? match b32_val true c with Some v => v | None => 255 end | _ => false end) _ c _); [vm_compute; reflexivity|exact Hc].
    - refine (sweep1 128 (fun c => match tget_ub (b32_decode_str false) (as_char c) with
               | Ok x => x =? match b32_val false c with Some v => v | None => 255 end | _ => false end) _ c _); [vm_compute; reflexivity|exact Hc]. }
  destruct (tget_ub _ _) as [x| |]; try discriminate. apply Z.eqb_eq in G. congruence.
Qed.

Lemma val_range raw c v : is_ascii c -> b32_val raw c = Some v -> 0 <= v < 32.
Proof.
  intros Hc H.
  assert (G : (match b32_val raw c with Some v => (0 <=? v) && (v <? 32) | None => true end) = true).
  { destruct raw.
    - refine (sweep1 128 (fun c => match b32_val true c with Some v => (0 <=? v) && (v <? 32) | None => true end) _ c _); [vm_compute; reflexivity|exact Hc].
    - refine (sweep1 128 (fun c => match b32_val false c with Some v => (0 <=? v) && (v <? 32) | None => true end) _ c _); [vm_compute; reflexivity|exact Hc]. }
  rewrite H in G. lia.
Qed.

Definition vof (raw : bool) (c : Z) : Z := match b32_val raw c with Some v => v | None => 255 end.

Lemma dec_char_nth raw l i c : nth_error l i = Some c -> is_ascii c ->
  dec_char (b32_decode_str raw) l i = Ok (vof raw c).
Proof. intros E Hc. unfold dec_char, rd. rewrite E. cbn [bind]. apply dec_table, Hc. Qed.

Ltac dch := repeat (erewrite dec_char_nth; [cbn [bind]|reflexivity|assumption]).
Ltac funpeel H := repeat match type of H with Forall _ (_ :: _) => let A := fresh "A" in let H2 := fresh H in inversion H as [|? ? A H2]; subst; clear H; rename H2 into H end.

Local Opaque dec_char b32_o0 b32_o1 b32_o2 b32_o3 b32_o4 regroup_bytes b32_decode_str.

Definition tail_bytes (r : nat) : nat := nth r [0; 0; 1; 0; 2; 3; 0; 4]%nat 0%nat.

Lemma tail_total raw t rest : Forall is_ascii t -> (length t < 8)%nat ->
  exists o, from_base32_tail (length t) (t ++ rest) (b32_decode_str raw) = Ok o /\ length o = tail_bytes (length t).
Proof.
  intros F Hl. unfold from_base32_tail.
  destruct t as [|c0 [|c1 [|c2 [|c3 [|c4 [|c5 [|c6 [|c7 t]]]]]]]]; [..|cbn in Hl; lia]; funpeel F;
    cbn; dch; eexists; split; reflexivity.
Qed.

Lemma tail_valid raw t rest vs : Forall is_ascii t -> (length t < 8)%nat -> b32_good_length (length t) ->
  all_values (b32_val raw) t = Some vs ->
  from_base32_tail (length t) (t ++ rest) (b32_decode_str raw) = Ok (regroup_bytes 5 vs).
Proof.
  intros F Hl Hg Hv. unfold from_base32_tail, b32_good_length in *. rewrite Nat.mod_small in Hg by lia.
  destruct t as [|c0 [|c1 [|c2 [|c3 [|c4 [|c5 [|c6 [|c7 t]]]]]]]]; [..|cbn in Hl; lia];
    try (exfalso; cbn in Hg; lia); funpeel F; cbn in Hv;
    repeat match type of Hv with
    | context [b32_val raw ?c] => let v := fresh "v" in let E := fresh "E" in destruct (b32_val raw c) as [v|] eqn:E; [|discriminate];
         match goal with A : is_ascii c |- _ => pose proof (val_range raw c v A E) end
    end; injection Hv as <-.
  - reflexivity.
  - cbn [length app]. cbn -[regroup_bytes b32_o0 b32_o1 b32_o2 b32_o3 b32_o4]. dch. rewrite dchunk2, d0 by assumption.
    unfold vof. repeat match goal with E : b32_val raw _ = _ |- _ => rewrite E; clear E end. reflexivity.
  - cbn [length app]. cbn -[regroup_bytes b32_o0 b32_o1 b32_o2 b32_o3 b32_o4]. dch. rewrite dchunk4, d0, d1 by assumption.
    unfold vof. repeat match goal with E : b32_val raw _ = _ |- _ => rewrite E; clear E end. reflexivity.
  - cbn [length app]. cbn -[regroup_bytes b32_o0 b32_o1 b32_o2 b32_o3 b32_o4]. dch. rewrite dchunk5, d0, d1, d2 by assumption.
    unfold vof. repeat match goal with E : b32_val raw _ = _ |- _ => rewrite E; clear E end. reflexivity.
  - cbn [length app]. cbn -[regroup_bytes b32_o0 b32_o1 b32_o2 b32_o3 b32_o4]. dch. rewrite dchunk7, d0, d1, d2, d3 by assumption.
    unfold vof. repeat match goal with E : b32_val raw _ = _ |- _ => rewrite E; clear E end. reflexivity.
Qed.

(* ---- strchr ---- *)
Lemma strchr_none p q : ~ In 61 p -> strchr 61 (p ++ 0 :: q) = Ok None.
Proof.
  induction p as [|x p IH]; intros H; [reflexivity|]. cbn [app strchr].
  destruct (Z.eqb_spec x 61); [exfalso; apply H; left; auto|]. destruct (x =? 0); [reflexivity|].
  rewrite IH; [reflexivity|]. intros HI; apply H; right; exact HI.
Qed.

Lemma strchr_some p q : ~ In 61 p -> ~ In 0 p -> strchr 61 (p ++ 61 :: q) = Ok (Some (length p)).
Proof.
  induction p as [|x p IH]; intros H H0; [reflexivity|]. cbn [app strchr length].
  destruct (Z.eqb_spec x 61); [exfalso; apply H; left; auto|].
  destruct (Z.eqb_spec x 0); [exfalso; apply H0; left; auto|].
  rewrite IH; [reflexivity| |]; intros HI; [apply H|apply H0]; right; exact HI.
Qed.

(* ---- blocks ---- *)
Lemma vof_invalid raw c : is_ascii c -> (vof raw c =? 255) = match b32_val raw c with Some _ => false | None => true end.
Proof.
  intros Hc. unfold vof. destruct (b32_val raw c) as [v|] eqn:E; [|reflexivity].
  pose proof (val_range raw c v Hc E). lia.
Qed.

Definition dec_out_ok (raw : bool) (text out : list Z) : Prop :=
  let full := firstn (8 * (length text / 8)) text in
  exists vals tl, valid_blocks (b32_val raw) 8 full vals /\ out = regroup_bytes 5 vals ++ tl /\
    match all_values (b32_val raw) full with
    | None => tl = []
    | Some _ => length tl = tail_bytes (length text mod 8) /\
        (b32_good_length (length text) -> forall vs, all_values (b32_val raw) text = Some vs -> out = regroup_bytes 5 vs)
    end.

Lemma blocks_gen raw text rest : Forall is_ascii text ->
  exists out, from_base32_blocks (length text / 8) (length text mod 8) (text ++ rest) (b32_decode_str raw) = Ok out
    /\ dec_out_ok raw text out.
Proof.
  induction text as [text IH] using length_strong_ind. intros F.
  destruct (Nat.lt_ge_cases (length text) 8) as [Hs|Hs].
  - rewrite Nat.div_small, Nat.mod_small by lia. cbn [from_base32_blocks].
    destruct (tail_total raw text rest F Hs) as (o & E & Hl). exists o. split; [exact E|].
    unfold dec_out_ok. rewrite (Nat.div_small (length text)), Nat.mod_small by lia. cbn [Nat.mul firstn all_values].
    exists [], o. split; [constructor|]. split; [reflexivity|]. split; [exact Hl|].
    intros Hg vs Hv. rewrite (tail_valid raw text rest vs F Hs Hg Hv) in E. congruence.
  - destruct text as [|c0 [|c1 [|c2 [|c3 [|c4 [|c5 [|c6 [|c7 t]]]]]]]]; try (cbn in Hs; lia).
    assert (Ed : (length (c0 :: c1 :: c2 :: c3 :: c4 :: c5 :: c6 :: c7 :: t) / 8 = S (length t / 8))%nat).
    { cbn [length]. change (S (S (S (S (S (S (S (S (length t))))))))) with (1 * 8 + length t)%nat. rewrite Nat.div_add_l by lia. lia. }
    assert (Em : (length (c0 :: c1 :: c2 :: c3 :: c4 :: c5 :: c6 :: c7 :: t) mod 8 = length t mod 8)%nat).
    { cbn [length]. change (S (S (S (S (S (S (S (S (length t))))))))) with (1 * 8 + length t)%nat.
      rewrite Nat.add_comm, Nat.mod_add by lia. reflexivity. }
    unfold dec_out_ok. unfold b32_good_length. rewrite Ed, Em.
    replace (8 * S (length t / 8))%nat with (S (S (S (S (S (S (S (S (8 * (length t / 8)))))))))) by lia.
    cbn [firstn]. set (full := firstn (8 * (length t / 8)) t).
    funpeel F. cbn [from_base32_blocks app]. dch.
    rewrite !vof_invalid by assumption. cbn [skipn].
    assert (Fb : firstn 8 (c0 :: c1 :: c2 :: c3 :: c4 :: c5 :: c6 :: c7 :: full) = [c0;c1;c2;c3;c4;c5;c6;c7]) by reflexivity.
    destruct (all_values (b32_val raw) [c0;c1;c2;c3;c4;c5;c6;c7]) as [b|] eqn:Eb.
    + pose proof Eb as Eb'. cbn [all_values] in Eb'.
      repeat match type of Eb' with
      | context [b32_val raw ?c] => let v := fresh "v" in let E := fresh "E" in destruct (b32_val raw c) as [v|] eqn:E; [|discriminate];
         match goal with A : is_ascii c |- _ => pose proof (val_range raw c v A E) end
      end.
      cbn [orb]. destruct (IH t ltac:(cbn; lia) F) as (out & Eo & vals & tl & Hv & Eout & Hm).
      fold full in Hv, Hm. rewrite Eo. cbn [bind]. eexists. split; [reflexivity|].
      assert (Eblk : forall w, b32_o0 (vof raw c0) (vof raw c1)
         :: b32_o1 (vof raw c1) (vof raw c2) (vof raw c3)
         :: b32_o2 (vof raw c3) (vof raw c4)
         :: b32_o3 (vof raw c4) (vof raw c5) (vof raw c6) :: b32_o4 (vof raw c6) (vof raw c7) :: regroup_bytes 5 w
         = regroup_bytes 5 (b ++ w)).
      { intros w. injection Eb' as <-. rewrite (regroup_bytes_app 5 5) by reflexivity. rewrite dchunk8.
        rewrite d0, d1, d2, d3, d4 by assumption. cbn [app]. unfold vof.
        repeat match goal with E : b32_val raw _ = _ |- _ => rewrite E; clear E end. reflexivity. }
      exists (b ++ vals), tl. split; [|split].
      * apply vb_block; [discriminate|exact Eb|exact Hv].
      * rewrite Eout. rewrite <- Eblk. reflexivity.
      * change (c0 :: c1 :: c2 :: c3 :: c4 :: c5 :: c6 :: c7 :: full) with ([c0;c1;c2;c3;c4;c5;c6;c7] ++ full).
        change (c0 :: c1 :: c2 :: c3 :: c4 :: c5 :: c6 :: c7 :: t) with ([c0;c1;c2;c3;c4;c5;c6;c7] ++ t).
        rewrite all_values_app, Eb. destruct (all_values (b32_val raw) full); [|exact Hm].
        destruct Hm as [Hm1 Hm2]. split; [exact Hm1|]. intros Hg vs Hvs. rewrite all_values_app, Eb in Hvs.
        destruct (all_values (b32_val raw) t) as [w|] eqn:Ew; [|discriminate]. injection Hvs as <-.
        rewrite (Hm2 Hg w eq_refl). apply Eblk.
    + exists []. split.
      * cbn [all_values] in Eb.
        repeat match goal with |- context [b32_val raw ?c] => destruct (b32_val raw c); cbn [orb] end; try reflexivity; discriminate.
      * exists [], []. split; [apply vb_bad; [discriminate|exact Eb]|]. split; [reflexivity|].
        change (c0 :: c1 :: c2 :: c3 :: c4 :: c5 :: c6 :: c7 :: full) with ([c0;c1;c2;c3;c4;c5;c6;c7] ++ full).
        rewrite all_values_app, Eb. reflexivity.
Qed.

Lemma raw_len_eq n : from_base32_raw_length n = (n / 8 * 5 + tail_bytes (n mod 8))%nat.
Proof.
  unfold from_base32_raw_length. f_equal. pose proof (Nat.mod_upper_bound n 8 ltac:(lia)) as H.
  set (r := (n mod 8)%nat) in *. clearbody r.
  do 8 (destruct r as [|r]; [reflexivity|]). lia.
Qed.

Lemma good_len n : b32_good_length n -> from_base32_raw_length n = (5 * n / 8)%nat.
Proof.
  intros H. rewrite raw_len_eq. unfold b32_good_length in H. pose proof (Nat.div_mod n 8 ltac:(lia)) as D.
  set (q := (n / 8)%nat) in *. set (r := (n mod 8)%nat) in *. clearbody q r. subst n.
  replace (5 * (8 * q + r))%nat with (5 * q * 8 + 5 * r)%nat by lia. rewrite Nat.div_add_l by lia.
  replace (5 * r / 8)%nat with (tail_bytes r); [lia|].
  cbn in H. destruct H as [<-|[<-|[<-|[<-|[<-|[]]]]]]; reflexivity.
Qed.

Lemma char_val raw v : 0 <= v < 32 -> b32_val raw (b32_enc raw v) = Some v /\ is_ascii (b32_enc raw v)
  /\ (raw = false -> b32_enc raw v <> 61 /\ b32_enc raw v <> 0).
Proof.
  intros Hv. assert (G : (match b32_val raw (b32_enc raw v) with Some w => w =? v | None => false end)
     && (0 <=? b32_enc raw v) && (b32_enc raw v <? 128) && (raw || negb (b32_enc raw v =? 61)) && (raw || negb (b32_enc raw v =? 0)) = true).
  { destruct raw.
    - refine (sweep1 32 (fun v => (match b32_val true (b32_enc true v) with Some w => w =? v | None => false end)
     && (0 <=? b32_enc true v) && (b32_enc true v <? 128) && (true || negb (b32_enc true v =? 61)) && (true || negb (b32_enc true v =? 0))) _ v Hv). vm_compute. reflexivity.
    - refine (sweep1 32 (fun v => (match b32_val false (b32_enc false v) with Some w => w =? v | None => false end)
     && (0 <=? b32_enc false v) && (b32_enc false v <? 128) && (false || negb (b32_enc false v =? 61)) && (false || negb (b32_enc false v =? 0))) _ v Hv). vm_compute. reflexivity. }
  apply andb_true_iff in G. destruct G as [G G5]. apply andb_true_iff in G. destruct G as [G G4].
  apply andb_true_iff in G. destruct G as [G G3]. apply andb_true_iff in G. destruct G as [G1 G2].
  unfold is_ascii. repeat split; try lia.
  destruct (b32_val raw (b32_enc raw v)); [f_equal; lia|discriminate].
  all: intros E; rewrite H, E in *; discriminate.
Qed.

Lemma enc_body_vals raw buf : all_values (b32_val raw) (enc_body raw buf) = Some (regroup_pad 5 buf)
  /\ Forall is_ascii (enc_body raw buf) /\ (raw = false -> ~ In 61 (enc_body raw buf) /\ ~ In 0 (enc_body raw buf)).
Proof.
  unfold enc_body. pose proof (rg5_range buf) as F. induction F as [|v l Hv F IH].
  - repeat split; [constructor|intros []|intros []].
  - destruct IH as (I1 & I2 & I3). destruct (char_val raw v Hv) as (V1 & V2 & V3). cbn [map].
    split; [cbn [all_values]; rewrite V1, I1; reflexivity|]. split; [constructor; assumption|].
    intros Hr. destruct (I3 Hr), (V3 Hr). split; intros [?|?]; congruence || tauto.
Qed.

Lemma blocks_decode raw buf rest : bytes buf ->
  from_base32_blocks (length (enc_body raw buf) / 8) (length (enc_body raw buf) mod 8) (enc_body raw buf ++ rest) (b32_decode_str raw) = Ok buf.
Proof.
  intros Hb. destruct (enc_body_vals raw buf) as (V & A & _).
  destruct (blocks_gen raw (enc_body raw buf) rest A) as (out & E & vals & tl & Hv & Eo & Hm).
  rewrite E. f_equal. destruct (all_values (b32_val raw) (firstn _ _)) eqn:Ef.
  - destruct Hm as [_ Hm]. rewrite (Hm (enc_body_good raw buf) _ V). apply regroup_roundtrip; [lia|exact Hb].
  - exfalso. rewrite <- (firstn_skipn (8 * (length (enc_body raw buf) / 8)) (enc_body raw buf)), all_values_app, Ef in V. discriminate.
Qed.

Lemma enc_body_out_len raw buf : bytes buf -> from_base32_raw_length (length (enc_body raw buf)) = length buf.
Proof.
  intros Hb. rewrite good_len by apply enc_body_good. unfold enc_body. rewrite map_length, <- regroup_bytes_length.
  rewrite regroup_roundtrip by (lia || assumption). reflexivity.
Qed.

Lemma out_le raw text out : dec_out_ok raw text out -> (length out <= from_base32_raw_length (length text))%nat.
Proof.
  intros (vals & tl & Hv & -> & Hm). rewrite raw_len_eq, app_length, regroup_bytes_length.
  pose proof (valid_blocks_length _ _ _ _ Hv) as Hl. rewrite firstn_length in Hl.
  pose proof (Nat.div_mod (length text) 8 ltac:(lia)).
  assert (5 * length vals / 8 <= length text / 8 * 5)%nat.
  { apply Nat.div_le_upper_bound; lia. }
  destruct (all_values _ _); [destruct Hm as [-> _]; lia|subst tl; cbn [length]; lia].
Qed.

Lemma out_full raw text out : dec_out_ok raw text out -> length out = from_base32_raw_length (length text) ->
  exists vs, all_values (b32_val raw) (firstn (8 * (length text / 8)) text) = Some vs.
Proof.
  intros (vals & tl & Hv & -> & Hm). rewrite raw_len_eq, app_length, regroup_bytes_length. intros E.
  destruct (all_values _ (firstn _ _)) as [vs|] eqn:Ef; [eauto|exfalso]. subst tl. cbn [length] in E.
  destruct (valid_blocks_miss _ 8 _ _ ltac:(lia) Hv) as [H|(q & Hq & Hlt)]; [congruence|].
  rewrite firstn_length in Hlt. rewrite Hq in *. replace (5 * (q * 8))%nat with (5 * q * 8)%nat in E by lia.
  rewrite Nat.div_mul in E by lia. lia.
Qed.
