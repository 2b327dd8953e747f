(** Lemmas for C103-C105: derivation and hashing on one shared memory. *)
From Verif Require Import Base S_Words S_Secp S_Life M_Endian M_Sha2 M_Hash M_Random M_Secp M_Key M_Exkey
  M_Overlap S_Mem S_Overlap L_Endian L_Mem L_Sha1 L_Host L_Host2.

Lemma region_length mem a n : (a + n <= length mem)%nat -> length (region mem a n) = n.
Proof. intros. unfold region. rewrite firstn_length, skipn_length. lia. Qed.
Lemma nth_error_region mem a n p : (a + n <= length mem)%nat ->
  nth_error (region mem a n) p = if (p <? n)%nat then nth_error mem (a + p) else None.
Proof.
  intros H. destruct (Nat.ltb_spec p n).
  - unfold region. rewrite nth_error_firstn by lia. apply nth_error_skipn.
  - apply nth_error_None. rewrite region_length by exact H. lia.
Qed.

Ltac wsolve := repeat match goal with
  | |- context [(?a <=? ?b)%nat] => destruct (Nat.leb_spec a b)
  | |- context [(?a <? ?b)%nat] => destruct (Nat.ltb_spec a b)
  end; cbn [andb]; try lia; try reflexivity; try (f_equal; lia).

Lemma region_same mem a bs : (a + length bs <= length mem)%nat -> region (written mem a bs) a (length bs) = bs.
Proof.
  intros H. apply nth_error_ext. intros p. rewrite nth_error_region by (rewrite written_length; lia).
  rewrite nth_error_written by lia. wsolve. symmetry. apply nth_error_None. lia.
Qed.
Lemma region_same' mem a bs n : length bs = n -> (a + n <= length mem)%nat -> region (written mem a bs) a n = bs.
Proof. intros <- H. now apply region_same. Qed.
Lemma region_other mem a bs b n : (a + length bs <= length mem)%nat -> (b + n <= length mem)%nat -> disjoint b n a (length bs) ->
  region (written mem a bs) b n = region mem b n.
Proof.
  intros H1 H2 D. unfold disjoint in D. apply nth_error_ext. intros p. rewrite !nth_error_region by (rewrite ?written_length; lia).
  rewrite nth_error_written by lia. wsolve.
Qed.
Lemma written_swap mem a bs b cs : (a + length bs <= length mem)%nat -> (b + length cs <= length mem)%nat -> disjoint a (length bs) b (length cs) ->
  written (written mem a bs) b cs = written (written mem b cs) a bs.
Proof.
  intros H1 H2 D. unfold disjoint in D. apply nth_error_ext. intros p. rewrite !nth_error_written by (rewrite ?written_length; lia). wsolve.
Qed.
Lemma written_twice mem a bs cs : length bs = length cs -> (a + length bs <= length mem)%nat ->
  written (written mem a bs) a cs = written mem a cs.
Proof. intros L H. apply nth_error_ext. intros p. rewrite !nth_error_written by (rewrite ?written_length; lia). wsolve. Qed.
Lemma written_region mem a n : (a + n <= length mem)%nat -> written mem a (region mem a n) = mem.
Proof.
  intros H. apply nth_error_ext. intros p. rewrite nth_error_written by (rewrite region_length; lia). rewrite region_length by lia.
  rewrite nth_error_region by lia. wsolve.
Qed.

Lemma slice_at mem a n : (a + n <= length mem)%nat -> slice mem a n = Ok (region mem a n).
Proof. apply slice_ok. Qed.
Lemma slice_skip mem a n : (a + n <= length mem)%nat -> slice (skipn a mem) 0 n = Ok (region mem a n).
Proof. intros. rewrite slice_ok by (rewrite skipn_length; lia). reflexivity. Qed.
Lemma slice_region mem a n : (a + n <= length mem)%nat -> slice (region mem a n) 0 n = Ok (region mem a n).
Proof. intros. rewrite slice_ok by (rewrite region_length; lia). rewrite skipn_O. rewrite firstn_all2; [reflexivity|]. rewrite region_length; lia. Qed.
Lemma store_at mem a bs : (a + length bs <= length mem)%nat -> store mem a bs = Ok (written mem a bs).
Proof. apply store_ok. Qed.
Lemma store_region mem a n bs : (a + n <= length mem)%nat -> length bs = n -> store (region mem a n) 0 bs = Ok bs.
Proof.
  intros H L. rewrite store_ok by (rewrite region_length; lia). cbn [firstn app]. rewrite skipn_all2 by (rewrite region_length; lia).
  now rewrite app_nil_r.
Qed.
Lemma region_all (l : list Z) n : length l = n -> firstn n l = l.
Proof. intros <-. apply firstn_all. Qed.

(** ** The hash of derivation reads 32 bytes of each argument. *)
Lemma hmac512_32 k m n : hmac_sha512 k 32 m n = hmac_sha512 (firstn 32 k) 32 m n.
Proof. unfold hmac_sha512. change (32 <=? 128)%nat with true. cbv iota. rewrite (slice_firstn k). reflexivity. Qed.
Lemma bip32_reads chain child header data : btc_bip32_hash chain child header data = btc_bip32_hash (firstn 32 chain) child header (firstn 32 data).
Proof. unfold btc_bip32_hash. rewrite (slice_firstn data 32). 
  destruct (store _ 0 _) as [b| |]; cbn [bind]; [|reflexivity|reflexivity].
  destruct (slice (firstn 32 data) 0 32) as [d| |]; cbn [bind]; [|reflexivity|reflexivity].
  destruct (store b 1 d) as [b'| |]; cbn [bind]; [|reflexivity|reflexivity].
  destruct (write_big_32 _ child) as [tl| |]; cbn [bind]; [|reflexivity|reflexivity].
  apply hmac512_32.
Qed.
Lemma bip32_at mem chain child header data : btc_bip32_hash (skipn chain mem) child header data = btc_bip32_hash (region mem chain 32) child header data.
Proof. rewrite bip32_reads. symmetry. rewrite bip32_reads. unfold region. rewrite firstn_firstn. reflexivity. Qed.
Lemma bip32_at2 mem chain child header data : btc_bip32_hash chain child header (skipn data mem) = btc_bip32_hash chain child header (region mem data 32).
Proof. rewrite bip32_reads. symmetry. rewrite bip32_reads. unfold region. rewrite firstn_firstn. reflexivity. Qed.
Lemma get_pub_at E g mem key : key_get_pub E g (skipn key mem) = key_get_pub E g (region mem key 32).
Proof. unfold key_get_pub, secp_pubkey_create. rewrite (slice_firstn (skipn key mem)). reflexivity. Qed.
Lemma parse_at E c mem a n : secp_pubkey_parse E c (skipn a mem) n = secp_pubkey_parse E c (region mem a n) n.
Proof. unfold secp_pubkey_parse. rewrite (slice_firstn (skipn a mem)). reflexivity. Qed.
Lemma tweak_at c mem a t : secp_privkey_tweak_add c (skipn a mem) t = secp_privkey_tweak_add c (region mem a 32) t.
Proof. unfold secp_privkey_tweak_add. rewrite (slice_firstn (skipn a mem)). reflexivity. Qed.
Lemma tweak_len c k t r k' : secp_privkey_tweak_add c k t = Ok (r, k') -> length k' = 32%nat.
Proof.
  unfold secp_privkey_tweak_add. intros H. apply bind_Ok in H. destruct H as (u & _ & H). apply bind_Ok in H. destruct H as (a & _ & H).
  apply bind_Ok in H. destruct H as (b & _ & H). cbv zeta in H. destruct (_ && _).
  - apply (f_equal (fun x => match x with Ok (_, y) => length y | _ => 0%nat end)) in H. rewrite be_bytes_length in H. auto.
  - apply (f_equal (fun x => match x with Ok (_, y) => length y | _ => 0%nat end)) in H. rewrite repeat_length in H. auto.
Qed.
Lemma slice_len m a n b : slice m a n = Ok b -> length b = n.
Proof. unfold slice. destruct (Nat.leb_spec (a + n) (length m)); [|discriminate]. intros [= <-]. rewrite firstn_length, skipn_length. lia. Qed.

Lemma memcpy_apart rule mem d s n : (d + n <= length mem)%nat -> (s + n <= length mem)%nat ->
  disjoint d n s n \/ (rule = Tolerant /\ d = s) -> memcpy_at rule mem d s n = Ok (written mem d (region mem s n)).
Proof.
  intros H1 H2 H. unfold memcpy_at. cbv zeta.
  replace (((d + n <=? s) || (s + n <=? d))%nat || match rule with Standard => false | Tolerant => (d =? s)%nat end) with true.
  - cbn [c_defined bind]. rewrite slice_at by lia. cbn [bind]. apply store_at. rewrite region_length; lia.
  - symmetry. destruct H as [D|[-> ->]]; [unfold disjoint in D|]; [|rewrite Nat.eqb_refl, orb_true_r; reflexivity].
    apply orb_true_iff. left. apply orb_true_iff. rewrite !Nat.leb_le. lia.
Qed.

(** ** key.c:401-426 *)
Lemma key_derive_at_ok rule E g mem key chain outk outc child :
  (key + 32 <= length mem)%nat -> (chain + 32 <= length mem)%nat -> (outk + 32 <= length mem)%nat -> (outc + 32 <= length mem)%nat ->
  disjoint outk 32 outc 32 -> disjoint outk 32 key 32 \/ (rule = Tolerant /\ outk = key) ->
  key_derive_at rule E g mem key chain outk outc child =
    ('(r, k, c) <- key_derive E g (region mem key 32) (region mem chain 32) (region mem outk 32) (region mem outc 32) child ;;
     Ok (r, written (written mem outk k) outc c)).
Proof.
  intros Hk Hc Hok Hoc D1 D2. unfold key_derive_at, key_derive.
  rewrite get_pub_at. rewrite bind_assoc.
  match goal with |- bind ?x _ = bind ?y _ => replace y with x; [destruct x as [[ret out]| |]|] end; cbn [bind]; [|reflexivity|reflexivity|].
  2: { destruct (Z.shiftr child 31 =? 0).
       - apply bind_ext; [reflexivity|]. intros P _. apply bind_ext; [reflexivity|]. intros [r e] _. apply bind_ext; [reflexivity|]. intros h _. rewrite bip32_at. reflexivity.
       - rewrite bip32_at, bip32_at2. reflexivity. }
  destruct ret; cbn [negb bind].
  2: { rewrite !written_region by (try rewrite written_length; rewrite ?region_length; lia). reflexivity. }
  rewrite memcpy_apart by (auto; lia). rewrite slice_region by lia. cbn [bind].
  rewrite store_region by (rewrite ?region_length; lia). cbn [bind].
  destruct (slice out 32 32) as [c| |] eqn:Ec; cbn [bind]; [|reflexivity|reflexivity]. apply slice_len in Ec.
  assert (L1 : length (region mem key 32) = 32%nat) by (apply region_length; lia).
  assert (L2 : length (written mem outk (region mem key 32)) = length mem) by (apply written_length; lia).
  rewrite store_region by lia. rewrite store_at by lia. cbn [bind]. rewrite tweak_at.
  rewrite region_other by (rewrite ?Ec; lia || exact D1).
  rewrite region_same' by lia.
  destruct (secp_privkey_tweak_add _ _ _) as [[r k]| |] eqn:Et; cbn [bind]; [|reflexivity|reflexivity]. apply tweak_len in Et.
  assert (L3 : length (written (written mem outk (region mem key 32)) outc c) = length mem) by (rewrite written_length; lia).
  rewrite store_at by lia. cbn [bind].
  rewrite (store_ok (region mem key 32)) by lia. cbn [bind firstn app]. rewrite skipn_all2 by lia. rewrite app_nil_r.
  do 2 f_equal. rewrite (written_swap (written mem outk _)) by (rewrite ?L2, ?Et, ?Ec; try lia; unfold disjoint in *; lia).
  rewrite written_twice by lia. reflexivity.
Qed.

(** ** key.c:463-501 *)
Lemma encode_at E g mem P a n : secp_laws E -> (a + n <= length mem)%nat ->
  pubkey_encode_at E g mem P a n = ('(r, o) <- pubkey_encode E g P (region mem a n) n ;; Ok (r, written mem a o)) /\
  (forall r o, pubkey_encode E g P (region mem a n) n = Ok (r, o) -> r = true /\ length o = n).
Proof.
  intros LE H. unfold pubkey_encode_at, pubkey_encode, secp_pubkey_serialize.
  destruct ((n =? BTC_PUBLIC_KEY_SIZE) || (n =? BTC_COMPRESSED_PUBLIC_KEY_SIZE))%nat eqn:En; cbn [c_assert bind]; [|split; [reflexivity|discriminate]].
  destruct (any_ctx (g_sign g)) as [u| |]; cbn [bind]; [|split; [reflexivity|discriminate]|split; [reflexivity|discriminate]].
  destruct (c_assert _) as [u'| |]; cbn [bind]; [|split; [reflexivity|discriminate]|split; [reflexivity|discriminate]].
  assert (L : length (ser E (n =? 33)%nat P) = n).
  { unfold BTC_PUBLIC_KEY_SIZE, BTC_COMPRESSED_PUBLIC_KEY_SIZE in En. apply orb_true_iff in En. rewrite !Nat.eqb_eq in En.
    destruct En as [-> | ->]; [apply (law_ser65 E LE)|apply (law_ser33 E LE)]. }
  rewrite store_at by lia. rewrite store_region by lia. cbn [bind]. rewrite L, Nat.eqb_refl. cbn [c_assert bind].
  split; [reflexivity|]. intros r o H0. injection H0 as <- <-. auto.
Qed.

Lemma pubkey_derive_at_ok E g mem pub chain outp outc child : secp_laws E ->
  (pub + 33 <= length mem)%nat -> (chain + 32 <= length mem)%nat -> (outp + 33 <= length mem)%nat -> (outc + 32 <= length mem)%nat ->
  disjoint outp 33 outc 32 -> disjoint outc 32 pub 33 ->
  pubkey_derive_at E g mem pub chain outp outc child =
    ('(r, p, c) <- pubkey_derive E g (region mem pub 33) (region mem chain 32) (region mem outp 33) (region mem outc 32) child ;;
     Ok (r, written (written mem outp p) outc c)).
Proof.
  intros LE Hp Hc Hop Hoc D1 D2. unfold pubkey_derive_at, pubkey_derive, pubkey_decode.
  destruct (c_assert (Z.shiftr child 31 =? 0)) as [u| |]; cbn [bind]; [|reflexivity|reflexivity].
  assert (Er : rd mem pub = rd (region mem pub 33) 0).
  { unfold rd. rewrite nth_error_region by lia. change (0 <? 33)%nat with true. cbv iota. rewrite Nat.add_0_r. reflexivity. }
  rewrite Er. destruct (rd (region mem pub 33) 0) as [h| |]; cbn [bind]; [|reflexivity|reflexivity].
  destruct (c_assert ((h =? 2) || (h =? 3))) as [u'| |]; cbn [bind]; [|reflexivity|reflexivity].
  destruct (c_assert _) as [u''| |]; cbn [bind]; [|reflexivity|reflexivity].
  assert (WW : written (written mem outp (region mem outp 33)) outc (region mem outc 32) = mem).
  { rewrite written_region by lia. rewrite written_region by lia. reflexivity. }
  rewrite parse_at. destruct (secp_pubkey_parse E (g_verify g) (region mem pub 33) 33) as [[P|]| |] eqn:Ep; cbn [bind]; [|now rewrite WW|reflexivity|reflexivity].
  rewrite bip32_at. rewrite (bip32_reads (region mem chain 32) child h (skipn (pub + 1) mem)), (bip32_reads (region mem chain 32) child h (skipn 1 (region mem pub 33))).
  replace (firstn 32 (skipn 1 (region mem pub 33))) with (firstn 32 (skipn (pub + 1) mem)).
  2: { unfold region. rewrite skipn_firstn_comm. rewrite firstn_firstn, skipn_plus. reflexivity. }
  destruct (btc_bip32_hash _ _ _ _) as [out| |]; cbn [bind]; [|reflexivity|reflexivity].
  destruct (slice out 32 32) as [c| |] eqn:Ec; cbn [bind]; [|reflexivity|reflexivity]. apply slice_len in Ec.
  rewrite store_at by lia. rewrite store_region by lia. cbn [bind].
  assert (L1 : length (written mem outc c) = length mem) by (apply written_length; lia).
  rewrite parse_at. rewrite region_other by (rewrite ?Ec; try lia; unfold disjoint in *; lia).
  rewrite Ep. cbn [bind].
  assert (W1 : written (written mem outp (region mem outp 33)) outc c = written mem outc c) by (rewrite written_region by lia; reflexivity).
  destruct (secp_pubkey_tweak_add E (g_verify g) P out) as [[Q|]| |]; cbn [bind]; [|now rewrite W1|reflexivity|reflexivity].
  destruct (encode_at E g (written mem outc c) Q outp 33 LE ltac:(lia)) as [E1 E2]. rewrite E1.
  rewrite region_other in * by (rewrite ?Ec; try lia; unfold disjoint in *; lia).
  destruct (pubkey_encode E g Q (region mem outp 33) 33) as [[r o]| |]; cbn [bind]; [|reflexivity|reflexivity].
  destruct (E2 r o eq_refl) as [-> Lo]. do 2 f_equal.
  apply written_swap; rewrite ?Ec, ?Lo; try lia. unfold disjoint in *. lia.
Qed.

(** ** Structures *)
Lemma store_len m a b m' : store m a b = Ok m' -> length m' = length m.
Proof.
  unfold store. destruct (Nat.leb_spec (a + length b) (length m)); [|discriminate]. intros [= <-].
  rewrite !app_length, firstn_length, skipn_length. lia.
Qed.
Lemma key_derive_len E g key chain outk outc child r k c : key_derive E g key chain outk outc child = Ok (r, k, c) ->
  length k = length outk /\ length c = length outc.
Proof.
  unfold key_derive. intros H. apply bind_Ok in H. destruct H as ([ret out] & _ & H). destruct ret; cbn [negb] in H.
  - apply bind_Ok in H. destruct H as (k0 & _ & H). apply bind_Ok in H. destruct H as (k1 & H1 & H). apply store_len in H1.
    apply bind_Ok in H. destruct H as (c0 & _ & H). apply bind_Ok in H. destruct H as (c1 & H2 & H). apply store_len in H2.
    apply bind_Ok in H. destruct H as ([ret k2] & _ & H). apply bind_Ok in H. destruct H as (k3 & H3 & H). apply store_len in H3.
    assert (K : k = k3 /\ c = c1) by (split; congruence). destruct K as [-> ->]. lia.
  - assert (K : k = outk /\ c = outc) by (split; congruence). destruct K as [-> ->]. auto.
Qed.
Lemma pubkey_derive_len E g pub chain outp outc child r p c : pubkey_derive E g pub chain outp outc child = Ok (r, p, c) ->
  length p = length outp /\ length c = length outc.
Proof.
  unfold pubkey_derive. intros H. apply bind_Ok in H. destruct H as (u & _ & H). apply bind_Ok in H. destruct H as (h & _ & H).
  apply bind_Ok in H. destruct H as (u' & _ & H). apply bind_Ok in H. destruct H as ([P|] & _ & H).
  2: { assert (K : p = outp /\ c = outc) by (split; congruence). destruct K as [-> ->]. auto. }
  apply bind_Ok in H. destruct H as (out & _ & H). apply bind_Ok in H. destruct H as (c0 & _ & H).
  apply bind_Ok in H. destruct H as (c1 & H1 & H). apply store_len in H1.
  apply bind_Ok in H. destruct H as ([P'|] & _ & H).
  2: { assert (K : p = outp /\ c = c1) by (split; congruence). destruct K as [-> ->]. auto. }
  apply bind_Ok in H. destruct H as ([Q|] & _ & H).
  2: { assert (K : p = outp /\ c = c1) by (split; congruence). destruct K as [-> ->]. auto. }
  apply bind_Ok in H. destruct H as ([r' p'] & H2 & H).
  assert (K : p = p' /\ c = c1) by (split; congruence). destruct K as [-> ->]. split; [|exact H1].
  unfold pubkey_encode in H2. apply bind_Ok in H2. destruct H2 as (? & _ & H2). apply bind_Ok in H2. destruct H2 as (? & _ & H2).
  apply bind_Ok in H2. destruct H2 as (o & H3 & H2). apply store_len in H3. cbv zeta in H2. apply bind_Ok in H2. destruct H2 as (? & _ & H2).
  congruence.
Qed.

Lemma nth_written mem a bs p : (a + length bs <= length mem)%nat ->
  nth p (written mem a bs) 0 = if (a <=? p)%nat && (p <? a + length bs)%nat then nth (p - a) bs 0 else nth p mem 0.
Proof.
  intros H. pose proof (nth_error_written mem a bs p H) as N. rewrite <- !nth_default_eq. unfold nth_default. rewrite N.
  destruct (_ && _); reflexivity.
Qed.
Lemma only_refl m a n : only_inside m m a n.
Proof. split; [reflexivity|]. auto. Qed.
Lemma only_written m m' a n b bs : only_inside m m' a n -> (a <= b)%nat -> (b + length bs <= a + n)%nat -> (a + n <= length m)%nat ->
  only_inside m (written m' b bs) a n.
Proof.
  intros [L H] H1 H2 H3. split; [rewrite written_length; lia|]. intros p Hp. rewrite nth_error_written by lia. rewrite <- H by exact Hp. wsolve.
Qed.
Lemma le32_stored v : 0 <= v < 2 ^ 32 -> le_val (host_bytes 4 (u32 v)) = v.
Proof. intros H. rewrite host_bytes_le, le_val_le_bytes. unfold u32. rewrite Z.mod_mod by lia. apply Z.mod_small. exact H. Qed.
Lemma host4_len v : length (host_bytes 4 v) = 4%nat.
Proof. rewrite host_bytes_le. apply le_bytes_length. Qed.

Definition headed (mem : list Z) (d : nat) (dep fp child : Z) : list Z :=
  written (written (written mem (d + 4) (host_bytes 4 (u32 fp))) d [dep]) (d + 8) (host_bytes 4 (u32 child)).
Lemma headed_spec mem d dep fp child n : (44 <= n)%nat -> (d + n <= length mem)%nat -> 0 <= fp < 2 ^ 32 -> 0 <= child < 2 ^ 32 ->
  let m := headed mem d dep fp child in
  length m = length mem /\ nth d m 0 = dep /\ le_val (region m (d + 4) 4) = fp /\ le_val (region m (d + 8) 4) = child /\
  (forall b k, (d + 12 <= b)%nat -> (b + k <= length mem)%nat -> region m b k = region mem b k) /\ only_inside mem m d n.
Proof.
  intros Hn Hd Hf Hc. cbv zeta. unfold headed.
  pose proof (host4_len (u32 fp)) as L1. pose proof (host4_len (u32 child)) as L2.
  pose proof (le32_stored fp Hf) as V1. pose proof (le32_stored child Hc) as V2.
  set (bf := host_bytes 4 (u32 fp)) in *. set (bc := host_bytes 4 (u32 child)) in *. clearbody bf bc.
  set (m1 := written mem (d + 4) bf). assert (E1 : length m1 = length mem) by (apply written_length; lia).
  set (m2 := written m1 d [dep]). assert (E2 : length m2 = length mem) by (unfold m2; rewrite written_length; cbn [length]; lia).
  assert (O1 : only_inside mem m1 d n) by (apply only_written; [apply only_refl|lia..]).
  assert (O2 : only_inside mem m2 d n) by (apply only_written; cbn [length]; auto; lia).
  split; [rewrite written_length; lia|]. split; [|split; [|split; [|split]]].
  - rewrite nth_written by lia. wsolve. unfold m2. rewrite nth_written by (cbn [length]; lia). cbn [length]. wsolve. now rewrite Nat.sub_diag.
  - rewrite region_other by (unfold disjoint; lia). unfold m2. rewrite region_other by (cbn [length]; unfold disjoint; cbn [length]; lia).
    unfold m1. rewrite region_same' by lia. exact V1.
  - rewrite region_same' by lia. exact V2.
  - intros b k Hb Hk. rewrite region_other by (unfold disjoint; lia). unfold m2. rewrite region_other by (cbn [length]; unfold disjoint; cbn [length]; lia).
    unfold m1. rewrite region_other by (unfold disjoint; lia). reflexivity.
  - apply only_written; auto; lia.
Qed.

Lemma exkey_derive_at_ok rule E g mem key derived child fp :
  (key + 76 <= length mem)%nat -> (derived + 76 <= length mem)%nat -> 0 <= child < 2 ^ 32 -> 0 <= fp < 2 ^ 32 ->
  disjoint derived 76 key 76 \/ (rule = Tolerant /\ derived = key) ->
  match exkey_derive E g (ex_key_at mem key) (ex_key_at mem derived) child fp with
  | Ok (r, k) => exists mem', exkey_derive_at rule E g mem key derived child fp = Ok (r, mem') /\ ex_key_at mem' derived = k /\ only_inside mem mem' derived 76
  | UB => exkey_derive_at rule E g mem key derived child fp = UB
  | Abort => exkey_derive_at rule E g mem key derived child fp = Abort
  end.
Proof.
  intros Hk Hd Hc Hf D. unfold exkey_derive_at, exkey_derive. cbn [ex_key_at xk_key xk_ext ext_at x_chain_code x_depth x_fingerprint x_child].
  unfold o_key, o_chain, o_fingerprint, o_child, o_depth, put32.
  rewrite key_derive_at_ok; try lia; [|unfold disjoint; lia|].
  2: { destruct D as [D|[-> ->]]; [left; unfold disjoint in *; lia|right; auto]. }
  destruct (key_derive E g _ _ _ _ child) as [[[r k] c]| |] eqn:Ek; cbn [bind]; [|reflexivity|reflexivity].
  apply key_derive_len in Ek. destruct Ek as [Lk Lc]. rewrite region_length in Lk by lia. rewrite region_length in Lc by lia.
  set (m1 := written mem (derived + 44) k). assert (E1 : length m1 = length mem) by (apply written_length; lia).
  set (m2 := written m1 (derived + 12) c). assert (E2 : length m2 = length mem) by (unfold m2; rewrite written_length; lia).
  assert (O1 : only_inside mem m1 derived 76) by (apply only_written; [apply only_refl|lia..]).
  assert (O2 : only_inside mem m2 derived 76) by (apply only_written; auto; lia).
  assert (R1 : region m2 (derived + 44) 32 = k).
  { unfold m2. rewrite region_other by (rewrite ?Lc; unfold disjoint; lia). unfold m1. apply region_same'; lia. }
  assert (R2 : region m2 (derived + 12) 32 = c) by (apply region_same'; lia).
  assert (N : nth key m2 0 = nth key mem 0).
  { unfold m2. rewrite nth_written by lia. unfold m1. rewrite nth_written by lia. rewrite Lk, Lc.
    destruct D as [D|[-> ->]]; [unfold disjoint in D|]; wsolve. }
  destruct r.
  - rewrite store_at by (rewrite host4_len; lia). cbn [bind].
    set (m3 := written m2 (derived + 4) _). assert (E3 : length m3 = length mem) by (unfold m3; rewrite written_length; rewrite ?host4_len; lia).
    assert (Er : rd m3 (key + 0) = Ok (nth key mem 0)).
    { rewrite Nat.add_0_r. destruct (nth_some m3 key ltac:(lia)) as [x Ex]. rewrite (rd_some _ _ _ Ex). f_equal.
      rewrite <- N. rewrite <- (nth_error_nth m3 key 0 Ex). unfold m3. rewrite nth_written by (rewrite host4_len; lia). rewrite host4_len.
      destruct D as [D|[-> ->]]; [unfold disjoint in D|]; wsolve. }
    rewrite Er. cbn [bind]. rewrite Nat.add_0_r. rewrite store_at by (cbn [length]; lia). cbn [bind].
    rewrite store_at by (rewrite written_length; cbn [length]; rewrite ?host4_len; lia). cbn [bind].
    change (written (written m3 derived _) (derived + 8) _) with (headed m2 derived (u8 (nth key mem 0 + 1)) fp child).
    destruct (headed_spec m2 derived (u8 (nth key mem 0 + 1)) fp child 76 ltac:(lia) ltac:(lia) Hf Hc) as (H1 & H2 & H3 & H4 & H5 & H6).
    eexists. split; [reflexivity|]. split.
    + unfold ex_key_at, ext_at. rewrite H2, H3, H4, !H5 by lia. rewrite R1, R2. reflexivity.
    + destruct O2 as [_ O2], H6 as [_ H6]. split; [lia|]. intros p Hp. rewrite H6 by exact Hp. apply O2. exact Hp.
  - eexists. split; [reflexivity|]. split; [|exact O2].
    unfold ex_key_at, ext_at. rewrite R1, R2. unfold m2, m1. f_equal. f_equal.
    + rewrite !nth_written by (rewrite ?written_length; lia). wsolve.
    + f_equal. rewrite !region_other by (rewrite ?written_length; rewrite ?Lk, ?Lc; unfold disjoint; lia). reflexivity.
    + f_equal. rewrite !region_other by (rewrite ?written_length; rewrite ?Lk, ?Lc; unfold disjoint; lia). reflexivity.
Qed.

Lemma expubkey_derive_at_ok E g mem pub derived child fp : secp_laws E ->
  (pub + 80 <= length mem)%nat -> (derived + 80 <= length mem)%nat -> 0 <= child < 2 ^ 32 -> 0 <= fp < 2 ^ 32 ->
  disjoint derived 80 pub 80 \/ derived = pub ->
  match expubkey_derive E g (ex_pubkey_at mem pub) (ex_pubkey_at mem derived) child fp with
  | Ok (r, k) => exists mem', expubkey_derive_at E g mem pub derived child fp = Ok (r, mem') /\ ex_pubkey_at mem' derived = k /\ only_inside mem mem' derived 80
  | UB => expubkey_derive_at E g mem pub derived child fp = UB
  | Abort => expubkey_derive_at E g mem pub derived child fp = Abort
  end.
Proof.
  intros LE Hk Hd Hc Hf D. unfold expubkey_derive_at, expubkey_derive. cbn [ex_pubkey_at xp_c_pubkey xp_ext ext_at x_chain_code x_depth x_fingerprint x_child].
  unfold o_key, o_chain, o_fingerprint, o_child, o_depth, put32.
  rewrite pubkey_derive_at_ok; try lia; [|exact LE|unfold disjoint; lia|].
  2: { destruct D as [D| ->]; unfold disjoint in *; lia. }
  destruct (pubkey_derive E g _ _ _ _ child) as [[[r k] c]| |] eqn:Ek; cbn [bind]; [|reflexivity|reflexivity].
  apply pubkey_derive_len in Ek. destruct Ek as [Lk Lc]. rewrite region_length in Lk by lia. rewrite region_length in Lc by lia.
  set (m1 := written mem (derived + 44) k). assert (E1 : length m1 = length mem) by (apply written_length; lia).
  set (m2 := written m1 (derived + 12) c). assert (E2 : length m2 = length mem) by (unfold m2; rewrite written_length; lia).
  assert (O1 : only_inside mem m1 derived 80) by (apply only_written; [apply only_refl|lia..]).
  assert (O2 : only_inside mem m2 derived 80) by (apply only_written; auto; lia).
  assert (R1 : region m2 (derived + 44) 33 = k).
  { unfold m2. rewrite region_other by (rewrite ?Lc; unfold disjoint; lia). unfold m1. apply region_same'; lia. }
  assert (R2 : region m2 (derived + 12) 32 = c) by (apply region_same'; lia).
  assert (N : nth pub m2 0 = nth pub mem 0).
  { unfold m2. rewrite nth_written by lia. unfold m1. rewrite nth_written by lia. rewrite Lk, Lc.
    destruct D as [D| ->]; [unfold disjoint in D|]; wsolve. }
  destruct r; cbn [negb].
  - assert (Er : rd m2 (pub + 0) = Ok (nth pub mem 0)).
    { rewrite Nat.add_0_r. destruct (nth_some m2 pub ltac:(lia)) as [x Ex]. rewrite (rd_some _ _ _ Ex). f_equal.
      rewrite <- N. rewrite <- (nth_error_nth m2 pub 0 Ex). reflexivity. }
    rewrite Er. cbn [bind]. rewrite Nat.add_0_r. rewrite store_at by (cbn [length]; lia). cbn [bind].
    rewrite store_at by (rewrite written_length; cbn [length]; rewrite ?host4_len; lia). cbn [bind].
    rewrite store_at by (rewrite !written_length; cbn [length]; rewrite ?written_length; cbn [length]; rewrite ?host4_len; lia). cbn [bind].
    replace (written _ (derived + 4) _) with (headed m2 derived (u8 (nth pub mem 0 + 1)) fp child).
    2: { unfold headed. rewrite (written_swap m2 (derived + 4)) by (cbn [length]; rewrite ?host4_len; unfold disjoint; lia).
         apply written_swap; rewrite ?written_length; cbn [length]; rewrite ?host4_len; unfold disjoint; lia. }
    destruct (headed_spec m2 derived (u8 (nth pub mem 0 + 1)) fp child 80 ltac:(lia) ltac:(lia) Hf Hc) as (H1 & H2 & H3 & H4 & H5 & H6).
    eexists. split; [reflexivity|]. split.
    + unfold ex_pubkey_at, ext_at. rewrite H2, H3, H4, !H5 by lia. rewrite R1, R2. reflexivity.
    + destruct O2 as [_ O2], H6 as [_ H6]. split; [lia|]. intros p Hp. rewrite H6 by exact Hp. apply O2. exact Hp.
  - eexists. split; [reflexivity|]. split; [|exact O2].
    unfold ex_pubkey_at, ext_at. rewrite R1, R2. unfold m2, m1. f_equal. f_equal.
    + rewrite !nth_written by (rewrite ?written_length; lia). wsolve.
    + f_equal. rewrite !region_other by (rewrite ?written_length; rewrite ?Lk, ?Lc; unfold disjoint; lia). reflexivity.
    + f_equal. rewrite !region_other by (rewrite ?written_length; rewrite ?Lk, ?Lc; unfold disjoint; lia). reflexivity.
Qed.

Lemma region_written_sub mem a bs b n : (a + length bs <= length mem)%nat -> (a <= b)%nat -> (b + n <= a + length bs)%nat ->
  region (written mem a bs) b n = region bs (b - a) n.
Proof.
  intros H1 H2 H3. apply nth_error_ext. intros p. rewrite nth_error_region by (rewrite written_length; lia). rewrite nth_error_region by lia.
  destruct (Nat.ltb_spec p n); [|reflexivity]. rewrite nth_error_written by lia. wsolve.
Qed.
Lemma region_region mem a n b k : (a + n <= length mem)%nat -> (b + k <= n)%nat -> region (region mem a n) b k = region mem (a + b) k.
Proof.
  intros H1 H2. apply nth_error_ext. intros p. rewrite !nth_error_region by (rewrite ?region_length; lia).
  destruct (Nat.ltb_spec p k); [|reflexivity]. wsolve.
Qed.

Lemma get_pub_at_ok rule E g mem key pub : secp_laws E -> (key + 76 <= length mem)%nat -> (pub + 80 <= length mem)%nat -> disjoint pub 80 key 76 ->
  match exkey_get_pub E g (ex_key_at mem key) (ex_pubkey_at mem pub) with
  | Ok p => exists mem', exkey_get_pub_at rule E g mem key pub = Ok mem' /\ ex_pubkey_at mem' pub = p /\ only_inside mem mem' pub 80
  | UB => exkey_get_pub_at rule E g mem key pub = UB
  | Abort => exkey_get_pub_at rule E g mem key pub = Abort
  end.
Proof.
  intros LE Hk Hp D. unfold disjoint in D. unfold exkey_get_pub_at, exkey_get_pub, ext_size, o_key.
  cbn [ex_key_at ex_pubkey_at xp_c_pubkey xk_key xk_ext].
  rewrite memcpy_apart by (try lia; left; unfold disjoint; lia). cbn [bind].
  assert (L1 : length (region mem key 44) = 44%nat) by (apply region_length; lia).
  set (m1 := written mem pub (region mem key 44)). assert (E1 : length m1 = length mem) by (apply written_length; lia).
  rewrite get_pub_at. assert (R1 : region m1 (key + 44) 32 = region mem (key + 44) 32) by (apply region_other; rewrite ?L1; unfold disjoint; lia).
  rewrite R1. destruct (key_get_pub E g _) as [P| |]; cbn [bind]; [|reflexivity|reflexivity].
  rewrite (region_length mem (pub + 44) 33) by lia.
  assert (R2 : region m1 (pub + 44) 33 = region mem (pub + 44) 33) by (apply region_other; rewrite ?L1; unfold disjoint; lia).
  destruct (encode_at E g m1 P (pub + 44) 33 LE ltac:(lia)) as [A1 A2]. rewrite A1. rewrite R2 in *.
  destruct (pubkey_encode E g P _ 33) as [[r o]| |]; cbn [bind]; [|reflexivity|reflexivity].
  destruct (A2 r o eq_refl) as [-> Lo]. cbn [c_assert bind]. eexists. split; [reflexivity|]. split.
  - unfold ex_pubkey_at, ext_at. rewrite region_same' by lia.
    f_equal. f_equal.
    + rewrite nth_written by lia. wsolve. unfold m1. rewrite nth_written by lia. wsolve. rewrite Nat.sub_diag.
      rewrite <- !nth_default_eq. unfold nth_default. rewrite nth_error_region by lia. change (0 <? 44)%nat with true. cbv iota. now rewrite Nat.add_0_r.
    + f_equal. rewrite region_other by (rewrite ?Lo; unfold disjoint; lia). unfold m1. rewrite region_written_sub by lia. rewrite region_region by lia. f_equal. lia.
    + f_equal. rewrite region_other by (rewrite ?Lo; unfold disjoint; lia). unfold m1. rewrite region_written_sub by lia. rewrite region_region by lia. f_equal. lia.
    + rewrite region_other by (rewrite ?Lo; unfold disjoint; lia). unfold m1. rewrite region_written_sub by lia. rewrite region_region by lia. f_equal. lia.
  - apply only_written; try lia. apply only_written; try lia. apply only_refl.
Qed.

(** ** A successful derivation does not depend on what the output buffers held. *)
Lemma store_full m b : length b = length m -> store m 0 b = Ok b.
Proof. intros L. rewrite store_ok by lia. cbn [firstn app]. rewrite skipn_all2 by lia. now rewrite app_nil_r. Qed.
Lemma key_derive_indep E g key chain o1 o2 o1' o2' child k c : length o1 = 32%nat -> length o2 = 32%nat -> length o1' = 32%nat -> length o2' = 32%nat ->
  key_derive E g key chain o1 o2 child = Ok (true, k, c) -> key_derive E g key chain o1' o2' child = Ok (true, k, c).
Proof.
  intros L1 L2 L3 L4. unfold key_derive. match goal with |- bind ?x _ = _ -> _ => destruct x as [[ret out]| |] end; cbn [bind]; [|discriminate..].
  destruct ret; cbn [negb]; [|discriminate].
  destruct (slice key 0 32) as [kk| |] eqn:Ek; cbn [bind]; [|discriminate..]. apply slice_len in Ek.
  rewrite !store_full by lia. cbn [bind]. destruct (slice out 32 32) as [cc| |] eqn:Ec; cbn [bind]; [|discriminate..]. apply slice_len in Ec.
  rewrite !store_full by lia. cbn [bind]. auto.
Qed.
