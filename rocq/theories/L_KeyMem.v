(** Lemmas for C133 and C134: src/btc/key.c on memory. *)
From Verif Require Import Base S_Words M_Endian L_Endian S_Mem L_Mem M_Hash M_Random M_Secp S_Secp S_Life M_Key S_Der L_Der L_Der2 M_Overlap S_Overlap L_Overlap L_Host L_Host2 L_MemKey M_KeyMem S_KeyMem P_MemBtc.

Lemma skipn_region mem a n : (a + n <= length mem)%nat -> exists rest, skipn a mem = region mem a n ++ rest.
Proof. intros H. exists (skipn n (skipn a mem)). unfold region. now rewrite firstn_skipn. Qed.
Lemma written_twice' mem a bs cs : (length bs <= length cs)%nat -> (a + length cs <= length mem)%nat -> written (written mem a bs) a cs = written mem a cs.
Proof. intros L H. apply nth_error_ext. intros p. rewrite !nth_error_written by (rewrite ?written_length; lia). wsolve. Qed.

Lemma Ok_inj {A} (a b : A) : Ok a = Ok b -> a = b.
Proof. now intros [= ->]. Qed.

Section KeyMem.
Variables (E : secp) (L : layout E) (g : globals).
Hypothesis SL : secp_laws E.
Hypothesis LL : layout_laws E L.
Hypothesis R : ready g.

Lemma create_at c mem key : secp_pubkey_create E c (skipn key mem) = secp_pubkey_create E c (region mem key 32).
Proof. unfold secp_pubkey_create. rewrite (slice_firstn (skipn key mem)). reflexivity. Qed.
Lemma seckey_at c mem key : secp_seckey_verify c (skipn key mem) = secp_seckey_verify c (region mem key 32).
Proof. unfold secp_seckey_verify. rewrite (slice_firstn (skipn key mem)). reflexivity. Qed.
Lemma sign_at c mem hash key x : secp_ecdsa_sign E c (skipn hash mem) (skipn key mem) x = secp_ecdsa_sign E c (region mem hash 32) (region mem key 32) x.
Proof. unfold secp_ecdsa_sign. rewrite (slice_firstn (skipn key mem)), (slice_firstn (skipn hash mem)). reflexivity. Qed.

(** ** Public keys *)
Lemma get_pub_mem_ok mem key pub : (key + 32 <= length mem)%nat -> (pub + 64 <= length mem)%nat -> disjoint pub 64 key 32 ->
  get_pub_mem E L g mem key pub =
  match key_get_pub E g (region mem key 32) with Ok P => Ok (written mem pub (pub_rep L P)) | Abort => Abort | UB => UB end.
Proof.
  intros Hk Hp D. unfold get_pub_mem, pubkey_create_at, key_get_pub.
  rewrite store_at by (rewrite repeat_length; lia). cbn [bind]. rewrite create_at.
  rewrite region_other by (rewrite ?repeat_length; try lia; unfold disjoint in *; lia).
  destruct (secp_pubkey_create E (g_sign g) (region mem key 32)) as [[P|]| |]; cbn [bind]; try reflexivity.
  rewrite store_at by (rewrite (lay_pub_len _ _ LL), written_length; rewrite ?repeat_length; lia). cbn [bind c_assert].
  rewrite written_twice by (rewrite repeat_length; rewrite ?(lay_pub_len _ _ LL); lia). reflexivity.
Qed.

Lemma serialize_mem_ok c mem out pub (b : bool) P : c <> None -> let len := if b then 33%nat else 65%nat in (out + len <= length mem)%nat ->
  (pub + 64 <= length mem)%nat -> disjoint out len pub 64 -> holds_pub L mem pub P ->
  pubkey_serialize_at E L c mem out len pub b = Ok (len, written mem out (ser E b P)).
Proof.
  intros C len Ho Hp D HP. destruct c as [c|]; [|easy].
  assert (SLn : length (ser E b P) = len) by (destruct b; [apply (law_ser33 _ SL P)|apply (law_ser65 _ SL P)]).
  unfold pubkey_serialize_at. cbn [any_ctx bind]. replace ((if b then 33 else 65) <=? len)%nat with true by (unfold len; now destruct b).
  cbn [c_assert bind]. rewrite store_at by (rewrite repeat_length; exact Ho). cbn [bind].
  rewrite slice_at by (rewrite written_length; rewrite ?repeat_length; assumption). cbn [bind].
  rewrite region_other by (rewrite ?repeat_length; try assumption; unfold disjoint in *; lia).
  rewrite HP, (lay_pub _ _ LL). unfold secp_pubkey_serialize. cbn [any_ctx bind].
  replace ((if b then 33 else 65) <=? len)%nat with true by (unfold len; now destruct b). cbn [c_assert bind].
  rewrite store_at by (rewrite SLn, written_length; rewrite ?repeat_length; assumption). cbn [bind].
  rewrite written_twice by (rewrite repeat_length; lia). rewrite SLn. reflexivity.
Qed.
Lemma sign_some : g_sign g <> None. Proof. destruct R as (cs & cv & -> & _). discriminate. Qed.
Lemma verify_some : g_verify g <> None. Proof. destruct R as (cs & cv & _ & -> & _). discriminate. Qed.

Lemma pubkey_encode_mem_ok mem pub out (b : bool) P : let len := if b then 33%nat else 65%nat in (out + len <= length mem)%nat ->
  (pub + 64 <= length mem)%nat -> disjoint out len pub 64 -> holds_pub L mem pub P ->
  pubkey_encode_mem E L g mem pub out len = Ok (true, written mem out (ser E b P)).
Proof.
  intros len Ho Hp D HP. unfold pubkey_encode_mem.
  replace ((len =? BTC_PUBLIC_KEY_SIZE) || (len =? BTC_COMPRESSED_PUBLIC_KEY_SIZE))%nat with true by (unfold len; now destruct b). cbn [c_assert bind].
  replace (len =? 33)%nat with b by (unfold len; now destruct b).
  assert (Q := serialize_mem_ok (g_sign g) mem out pub b P sign_some Ho Hp D HP). fold len in Q. rewrite Q. cbn [bind].
  rewrite Nat.eqb_refl. reflexivity.
Qed.

Lemma pubkey_decode_mem_ok mem enc pub len : (len = 33 \/ len = 65)%nat -> (enc + len <= length mem)%nat -> (pub + 64 <= length mem)%nat -> disjoint pub 64 enc len ->
  pubkey_decode_mem E L g mem enc len pub =
  Ok (match parse E (region mem enc len) with Some P => (true, written mem pub (pub_rep L P)) | None => (false, written mem pub (repeat 0 64)) end).
Proof.
  intros Hl He Hp D. unfold pubkey_decode_mem, pubkey_parse_at.
  replace ((len =? BTC_PUBLIC_KEY_SIZE) || (len =? BTC_COMPRESSED_PUBLIC_KEY_SIZE))%nat with true by (destruct Hl; subst; reflexivity). cbn [c_assert bind].
  rewrite store_at by (rewrite repeat_length; lia). cbn [bind]. rewrite parse_at.
  rewrite region_other by (rewrite ?repeat_length; try assumption; unfold disjoint in *; lia).
  unfold secp_pubkey_parse. destruct (g_verify g) eqn:V; [|now destruct verify_some]. cbn [any_ctx bind].
  rewrite slice_region by exact He. cbn [bind]. destruct (parse E (region mem enc len)) as [P|]; [|reflexivity].
  rewrite store_at by (rewrite (lay_pub_len _ _ LL), written_length; rewrite ?repeat_length; lia). cbn [bind].
  rewrite written_twice by (rewrite repeat_length; rewrite ?(lay_pub_len _ _ LL); lia). reflexivity.
Qed.

(** ** Private keys *)
Lemma rd_region mem a n i v : (a + n <= length mem)%nat -> rd (region mem a n) i = Ok v -> (i < n)%nat /\ rd mem (a + i) = Ok v.
Proof.
  intros H. unfold rd. rewrite nth_error_region by exact H. destruct (Nat.ltb_spec i n); [|discriminate].
  intros Q. split; [assumption|exact Q].
Qed.
Lemma skip_region mem a n k : (k <= n)%nat -> skipn k (region mem a n) = region mem (a + k) (n - k).
Proof. intros H. unfold region. rewrite skipn_firstn_comm, skipn_plus. reflexivity. Qed.

Lemma import_sim rule c m out32 privkey len ok k : (privkey + len <= length m)%nat -> (out32 + 32 <= length m)%nat -> disjoint out32 32 privkey len ->
  import_der c (region (written m out32 (repeat 0 32)) privkey len) = Ok (ok, k) ->
  import_der_mem rule c m out32 privkey len = Ok (ok, written m out32 k).
Proof.
  intros Hp Ho D. unfold import_der_mem. rewrite store_at by (rewrite repeat_length; exact Ho). cbn [bind].
  assert (Hl : length (written m out32 (repeat 0 32)) = length m) by (apply written_length; rewrite repeat_length; exact Ho).
  set (m1 := written m out32 (repeat 0 32)) in *.
  assert (Hp1 : (privkey + len <= length m1)%nat) by lia.
  unfold import_der. cbv zeta.
  assert (RL : forall p n, (p + n <= length m1)%nat -> length (region m1 p n) = n) by (intros; now apply region_length).
  rewrite (RL _ _ Hp1). replace (privkey + len - privkey)%nat with len by lia.
  assert (NO : forall x, Ok (false, repeat 0 32) = Ok (ok, k) -> x = Ok (false, m1) -> x = Ok (ok, written m out32 k)).
  { intros x H ->. injection H as <- <-. reflexivity. }
  destruct (Nat.ltb_spec len 1) as [L1|L1]; [intros H; now apply (NO _ H)|].
  intros H. apply bind_Ok in H as (b & Hb & H). destruct (rd_region _ _ _ _ _ Hp1 Hb) as [_ Hb']. rewrite Nat.add_0_r in Hb'. rewrite Hb'. cbn [bind].
  destruct (negb (b =? 48)); [now apply (NO _ H)|].
  rewrite (skip_region m1 privkey len 1) in H by lia. rewrite RL in H by lia. replace (privkey + len - (privkey + 1))%nat with (len - 1)%nat by lia.
  destruct (Nat.ltb_spec (len - 1) 1) as [L2|L2]; [now apply (NO _ H)|].
  clear b Hb Hb'. apply bind_Ok in H as (b & Hb & H). destruct (rd_region m1 (privkey + 1) (len - 1) _ _ ltac:(lia) Hb) as [_ Hb']. rewrite Nat.add_0_r in Hb'. rewrite Hb'. cbn [bind].
  destruct (Z.land b 128 =? 0); [now apply (NO _ H)|]. set (lenb := Z.land b 0xFFFFFF7F) in *.
  destruct ((lenb <? 1) || (2 <? lenb)) eqn:Lb; [now apply (NO _ H)|]. apply orb_false_iff in Lb as [Lb1 Lb2]. apply Z.ltb_ge in Lb1, Lb2.
  rewrite (skip_region m1 (privkey + 1) (len - 1) 1) in H by lia. rewrite RL in H by lia.
  replace (privkey + 1 + 1)%nat with (privkey + 2)%nat in * by lia. replace (len - 1 - 1)%nat with (len - 2)%nat in * by lia.
  replace (privkey + len - (privkey + 2))%nat with (len - 2)%nat by lia.
  destruct (Z.ltb_spec (Z.of_nat (len - 2)) lenb) as [L3|L3]; [now apply (NO _ H)|].
  apply bind_Ok in H as (lo & Hlo & H). destruct (rd_region m1 (privkey + 2) (len - 2) _ _ ltac:(lia) Hlo) as [_ Hlo']. rewrite Hlo'. cbn [bind].
  apply bind_Ok in H as (hi & Hhi & H).
  assert (Hhi' : (if 1 <? lenb then h <- rd m1 (privkey + 2 + Z.to_nat (lenb - 2)) ;; Ok (Z.shiftl h 8) else Ok 0) = Ok hi).
  { destruct (1 <? lenb); [|exact Hhi]. apply bind_Ok in Hhi as (h & Hh & Q). destruct (rd_region m1 (privkey + 2) (len - 2) _ _ ltac:(lia) Hh) as [_ ->]. exact Q. }
  etransitivity; [exact (f_equal (fun x => bind x _) Hhi')|]. cbn [bind].
  rewrite (skip_region m1 (privkey + 2) (len - 2) (Z.to_nat lenb)) in H by lia. rewrite RL in H by lia.
  set (q := (privkey + 2 + Z.to_nat lenb)%nat) in *. set (n := (len - 2 - Z.to_nat lenb)%nat) in *.
  assert (Hq : (q + n = privkey + len)%nat) by (unfold q, n; lia).
  replace (privkey + len - q)%nat with n by lia.
  destruct (Z.of_nat n <? Z.lor lo hi); [now apply (NO _ H)|]. destruct (Nat.ltb_spec n 3) as [L4|L4]; [now apply (NO _ H)|].
  apply bind_Ok in H as (b0 & Hb0 & H). destruct (rd_region m1 q n _ _ ltac:(lia) Hb0) as [_ Hb0']. rewrite Nat.add_0_r in Hb0'. rewrite Hb0'. cbn [bind].
  apply bind_Ok in H as (b1 & Hb1 & H). destruct (rd_region m1 q n _ _ ltac:(lia) Hb1) as [_ ->]. cbn [bind].
  apply bind_Ok in H as (b2 & Hb2 & H). destruct (rd_region m1 q n _ _ ltac:(lia) Hb2) as [_ ->]. cbn [bind].
  destruct (negb (b0 =? 2) || negb (b1 =? 1) || negb (b2 =? 1)); [now apply (NO _ H)|].
  rewrite (skip_region m1 q n 3) in H by lia. rewrite RL in H by lia. replace (privkey + len - (q + 3))%nat with (n - 3)%nat by lia.
  destruct (Nat.ltb_spec (n - 3) 2) as [L5|L5]; [now apply (NO _ H)|].
  apply bind_Ok in H as (b3 & Hb3 & H). destruct (rd_region m1 (q + 3) (n - 3) _ _ ltac:(lia) Hb3) as [_ Hb3']. rewrite Nat.add_0_r in Hb3'. rewrite Hb3'. cbn [bind].
  destruct (negb (b3 =? 4)); [now apply (NO _ H)|].
  apply bind_Ok in H as (os & Hos & H). destruct (rd_region m1 (q + 3) (n - 3) _ _ ltac:(lia) Hos) as [_ Hos']. rewrite Hos'. cbn [bind].
  rewrite (skip_region m1 (q + 3) (n - 3) 2) in H by lia. rewrite RL in H by lia.
  replace (n - 3 - 2)%nat with (n - 5)%nat in * by lia. replace (q + 3 + 2)%nat with (q + 5)%nat in * by lia.
  replace (privkey + len - (q + 5))%nat with (n - 5)%nat by lia.
  destruct ((32 <? os) || (Z.of_nat (n - 5) <? os)) eqn:Lo; [now apply (NO _ H)|]. apply orb_false_iff in Lo as [Lo1 Lo2]. apply Z.ltb_ge in Lo1, Lo2.
  apply bind_Ok in H as (bs & Hbs & H). rewrite slice_ok in Hbs by (rewrite RL; lia). rewrite skipn_O in Hbs.
  assert (Ebs : bs = region m1 (q + 5) (Z.to_nat os)).
  { injection Hbs as <-. unfold region. rewrite firstn_firstn. f_equal. lia. }
  clear Hbs. assert (Lbs : length bs = Z.to_nat os) by (rewrite Ebs; apply RL; lia).
  rewrite memcpy_apart by (first [lia | left; unfold disjoint in *; lia]). cbn [bind]. rewrite <- Ebs.
  apply bind_Ok in H as (out & Hout & H). rewrite store_at in Hout by (rewrite repeat_length; lia). apply Ok_inj in Hout. symmetry in Hout.
  assert (Lout : length out = 32%nat) by (rewrite Hout, written_length; rewrite repeat_length; lia).
  assert (EM : written m1 (out32 + (32 - Z.to_nat os)) bs = written m out32 out).
  { unfold m1. clearbody m1. apply nth_error_ext. intros p.
    rewrite (nth_error_written (written m out32 (repeat 0 32))) by (rewrite written_length; rewrite ?repeat_length; lia).
    rewrite (nth_error_written m out32 (repeat 0 32)) by (rewrite repeat_length; lia).
    rewrite (nth_error_written m out32 out) by (rewrite Lout; lia). rewrite Lout, repeat_length, Hout.
    rewrite (nth_error_written (repeat 0 32)) by (rewrite repeat_length; lia). wsolve. }
  rewrite EM. rewrite (seckey_at c). rewrite region_same' by (assumption || lia).
  apply bind_Ok in H as (v & Hv & H). etransitivity; [exact (f_equal (fun x => bind x _) Hv)|]. cbn [bind].
  destruct v.
  - injection H as <- <-. reflexivity.
  - injection H as <- <-. rewrite store_at by (rewrite repeat_length, written_length; rewrite ?Lout; lia). cbn [bind].
    rewrite written_twice by (rewrite ?repeat_length; lia). reflexivity.
Qed.

Lemma export_mem_ok rule mem key out (b : bool) : let len := if b then 214%nat else 279%nat in (key + 32 <= length mem)%nat -> (out + len <= length mem)%nat ->
  disjoint out len key 32 -> 0 < be_val (region mem key 32) < secp_n ->
  key_encode_mem rule E g mem key out len =
  Ok (true, written mem out ((if b then der_begin_c else der_begin_u) ++ region mem key 32 ++ (if b then der_middle_c else der_middle_u) ++
    ser E b (pub_of E (be_val (region mem key 32))))).
Proof.
  intros len Hk Ho D Sk. set (k := region mem key 32) in *. set (P := pub_of E (be_val k)).
  assert (Lk : length k = 32%nat) by (apply region_length; exact Hk).
  set (beg := if b then der_begin_c else der_begin_u). set (mid := if b then der_middle_c else der_middle_u).
  assert (Lp : length (ser E b P) = if b then 33%nat else 65%nat) by (destruct b; [apply (law_ser33 _ SL P)|apply (law_ser65 _ SL P)]).
  assert (Lall : (length beg + 32 + length mid + length (ser E b P))%nat = len) by (unfold beg, mid, len; rewrite Lp; destruct b; reflexivity).
  unfold key_encode_mem. destruct R as (cs & cv & Gs & Gv & Cs & Cv). rewrite Gs.
  replace ((len =? BTC_PRIVATE_KEY_SIZE) || (len =? BTC_COMPRESSED_PRIVATE_KEY_SIZE))%nat with true by (unfold len; now destruct b).
  cbn [c_assert bind]. replace (len =? BTC_COMPRESSED_PRIVATE_KEY_SIZE)%nat with b by (unfold len; now destruct b).
  unfold export_der_mem. rewrite create_at. fold k. unfold secp_pubkey_create, sign_ctx. rewrite Cs. cbn [c_assert bind].
  rewrite slice_ok by lia. cbn [bind]. rewrite skipn_O, (firstn_all2 k) by lia.
  replace ((0 <? be_val k) && (be_val k <? secp_n)) with true by lia. fold P.
  assert (Tup : (if b then (der_begin_c, der_middle_c, BTC_COMPRESSED_PUBLIC_KEY_SIZE, BTC_COMPRESSED_PRIVATE_KEY_SIZE)
        else (der_begin_u, der_middle_u, BTC_PUBLIC_KEY_SIZE, BTC_PRIVATE_KEY_SIZE)) = (beg, mid, length (ser E b P), len)).
  { unfold beg, mid, len. rewrite Lp. now destruct b. }
  rewrite Tup. rewrite Nat.leb_refl. cbn [c_assert bind]. assert (Kd : region mem key 32 = k) by reflexivity. clearbody beg mid len k P.
  rewrite store_at by lia. cbn [bind].
  assert (Ek : region (written mem out beg) key 32 = region mem key 32) by (apply region_other; try lia; unfold disjoint in *; lia).
  rewrite memcpy_apart by (rewrite ?written_length; try lia; left; unfold disjoint in *; lia). cbn [bind]. rewrite Ek.
  assert (Lk' : length (region mem key 32) = 32%nat) by (apply region_length; exact Hk).
  rewrite store_at by (rewrite !written_length; rewrite ?Lk', ?written_length; lia). cbn [bind].
  unfold secp_pubkey_serialize. cbn [any_ctx bind]. replace ((if b then 33 else 65) <=? length (ser E b P))%nat with true by (rewrite Lp; symmetry; apply Nat.leb_refl).
  cbn [c_assert bind].
  rewrite store_at by (rewrite !written_length; rewrite ?Lk', ?written_length; rewrite ?Lk', ?written_length; lia). cbn [bind].
  replace (out + length beg + 32 + length mid + length (ser E b P) - out)%nat with len by lia. rewrite Nat.eqb_refl. cbn [c_assert bind]. rewrite Nat.eqb_refl. cbn [c_assert bind].
  do 2 f_equal. rewrite (w_app mem out (out + length beg)) by (rewrite ?Lk'; lia).
  rewrite (w_app mem out (out + length beg + 32)) by (rewrite ?app_length, ?Lk'; lia).
  rewrite (w_app mem out (out + length beg + 32 + length mid)) by (rewrite ?app_length, ?Lk'; lia).
  rewrite <- !app_assoc, Kd. reflexivity.
Qed.
Lemma export_mem_invalid rule mem key out (b : bool) : (key + 32 <= length mem)%nat -> ~ 0 < be_val (region mem key 32) < secp_n ->
  key_encode_mem rule E g mem key out (if b then 214%nat else 279%nat) = Abort.
Proof.
  intros Hk Sk. set (len := if b then 214%nat else 279%nat). unfold key_encode_mem. destruct R as (cs & cv & Gs & Gv & Cs & Cv). rewrite Gs.
  replace ((len =? BTC_PRIVATE_KEY_SIZE) || (len =? BTC_COMPRESSED_PRIVATE_KEY_SIZE))%nat with true by (unfold len; now destruct b).
  cbn [c_assert bind]. unfold export_der_mem. rewrite create_at. unfold secp_pubkey_create, sign_ctx. rewrite Cs. cbn [c_assert bind].
  rewrite slice_region by exact Hk. cbn [bind]. replace ((0 <? be_val (region mem key 32)) && (be_val (region mem key 32) <? secp_n)) with false by lia.
  cbn [bind]. replace (0 =? len)%nat with false by (unfold len; now destruct b). reflexivity.
Qed.

(** ** Signing *)
Definition is_some {A} (x : option A) : bool := match x with Some _ => true | None => false end.
Definition srep (x : option (Z * Z)) : list Z := match x with Some s => sig_rep L s | None => repeat 0 64 end.
Definition in_range (x : option (Z * Z)) : Prop := match x with Some (r, s) => 0 <= r < secp_n /\ 0 <= s < secp_n | None => True end.
Lemma srep_len x : length (srep x) = 64%nat.
Proof. destruct x; [apply (lay_sig_len _ _ LL)|apply repeat_length]. Qed.
Lemma n2_lt : secp_n / 2 < secp_n. Proof. reflexivity. Qed.
Lemma ecdsa_range k h x : bytes k -> length k = 32%nat -> bytes h -> length h = 32%nat -> in_range (ecdsa E k h x).
Proof.
  intros Bk Lk Bh Lh. destruct (ecdsa E k h x) as [[r s]|] eqn:Q; [|exact I].
  destruct (law_sign _ SL k h x r s Bk Lk Bh Lh Q) as (_ & Hr & Hs & _). unfold scalar in Hr. pose proof n2_lt. cbn. lia.
Qed.
Lemma secp_sign_range c mem hash key x y : bytes (region mem key 32) -> bytes (region mem hash 32) -> (key + 32 <= length mem)%nat -> (hash + 32 <= length mem)%nat ->
  secp_ecdsa_sign E c (region mem hash 32) (region mem key 32) x = Ok y -> in_range y.
Proof.
  intros Bk Bh Hk Hh H. unfold secp_ecdsa_sign in H. apply bind_Ok in H as (u & _ & H).
  rewrite slice_region in H by exact Hh. cbn [bind] in H. rewrite slice_region in H by exact Hk. cbn [bind] in H.
  destruct x as [e|]; [apply bind_Ok in H as (e' & _ & H)|]; apply Ok_inj in H; subst y; apply ecdsa_range; auto using region_length.
Qed.
Lemma sign_at_ok c mem hash key sig x : (key + 32 <= length mem)%nat -> (hash + 32 <= length mem)%nat -> (sig + 64 <= length mem)%nat ->
  ecdsa_sign_at E L c mem sig hash key x =
  match secp_ecdsa_sign E c (region mem hash 32) (region mem key 32) x with Ok y => Ok (is_some y, written mem sig (srep y)) | Abort => Abort | UB => UB end.
Proof.
  intros Hk Hh Hs. unfold ecdsa_sign_at. rewrite sign_at. destruct (secp_ecdsa_sign _ _ _ _ _) as [[y|]| |]; cbn [bind]; try reflexivity;
    rewrite store_at by (rewrite ?repeat_length, ?(lay_sig_len _ _ LL); exact Hs); reflexivity.
Qed.
Lemma low_r_at mem sig s : holds_sig L mem sig s -> (sig + 64 <= length mem)%nat -> low_r_mem E L g mem sig = SigHasLowR g s.
Proof.
  intros (H & Hr & Hs) B. unfold low_r_mem. rewrite slice_at by exact B. cbn [bind]. rewrite H. destruct s as [r s]. now rewrite (lay_sig _ _ LL).
Qed.

Lemma grind_mem_ok : forall fuel mem hash key sig cur extra counter, (key + 32 <= length mem)%nat -> (hash + 32 <= length mem)%nat -> (sig + 64 <= length mem)%nat ->
  disjoint sig 64 key 32 -> disjoint sig 64 hash 32 -> bytes (region mem key 32) -> bytes (region mem hash 32) -> in_range cur ->
  grind_mem fuel E L g (written mem sig (srep cur)) hash key sig (is_some cur) extra counter =
  match grind fuel E g (region mem hash 32) (region mem key 32) cur extra counter with
  | Ok (Returned c) => Ok (Returned (is_some c, written mem sig (srep c)))
  | Ok Fatal => Ok Fatal | Ok Running => Ok Running | Abort => Abort | UB => UB
  end.
Proof.
  intros fuel. induction fuel as [|fuel IH]; intros mem hash key sig cur extra counter Hk Hh Hs D1 D2 Bk Bh Rg;
    (destruct cur as [[r s]|]; [|reflexivity]); cbn [is_some grind_mem grind negb];
    rewrite (low_r_at _ sig (r, s)) by
      (first [ rewrite written_length; rewrite ?srep_len; exact Hs | split; [rewrite region_same' by (rewrite ?srep_len; auto); reflexivity|exact Rg]]);
    (destruct (SigHasLowR g (r, s)) as [[|]| |]; cbn [bind]; try reflexivity).
  destruct (write_little_32 extra (u32 (counter + 1))) as [extra'| |]; cbn [bind]; try reflexivity.
  rewrite sign_at_ok by (rewrite written_length; rewrite ?srep_len; assumption).
  rewrite !region_other by (rewrite ?srep_len; try assumption; unfold disjoint in *; lia).
  destruct (secp_ecdsa_sign E (g_sign g) (region mem hash 32) (region mem key 32) (Some extra')) as [y| |] eqn:Y; cbn [bind]; try reflexivity.
  rewrite written_twice by (rewrite !srep_len; auto). apply IH; auto. now apply (secp_sign_range _ mem hash key _ _ Bk Bh Hk Hh Y).
Qed.
Lemma sign_mem_ok fuel mem key hash sig : (key + 32 <= length mem)%nat -> (hash + 32 <= length mem)%nat -> (sig + 64 <= length mem)%nat ->
  disjoint sig 64 key 32 -> disjoint sig 64 hash 32 -> bytes (region mem key 32) -> bytes (region mem hash 32) ->
  sign_mem fuel E L g mem key hash sig =
  match key_sign fuel E g (region mem key 32) (region mem hash 32) with
  | Ok (Returned s) => Ok (Returned (written mem sig (sig_rep L s)))
  | Ok Fatal => Ok Fatal | Ok Running => Ok Running | Abort => Abort | UB => UB
  end.
Proof.
  intros Hk Hh Hs D1 D2 Bk Bh. unfold sign_mem, key_sign. rewrite sign_at_ok by assumption.
  destruct (secp_ecdsa_sign E (g_sign g) (region mem hash 32) (region mem key 32) None) as [y| |] eqn:Y; cbn [bind]; try reflexivity.
  rewrite grind_mem_ok; auto. 2:{ now apply (secp_sign_range _ mem hash key _ _ Bk Bh Hk Hh Y). }
  destruct (grind fuel E g _ _ y _ 0) as [[[c|]| |]| |]; reflexivity.
Qed.

(** ** Signatures *)
Lemma signature_encode_mem_ok mem sig out r s n enc : (sig + 64 <= length mem)%nat -> holds_sig L mem sig (r, s) ->
  signature_encode g (r, s) = Ok (n, enc) -> (out + length enc <= length mem)%nat ->
  signature_encode_mem E L g mem sig out = Ok (n, written mem out enc).
Proof.
  intros Hs (H & Hr & Hv) Q Ho. unfold signature_encode_mem, signature_encode in *. rewrite slice_at by exact Hs. cbn [bind]. rewrite H, (lay_sig _ _ LL) by assumption.
  apply bind_Ok in Q as (o & -> & Q). cbn [bind]. destruct o as [bs|].
  - apply Ok_inj in Q. injection Q as <- <-. rewrite store_at by exact Ho. reflexivity.
  - apply Ok_inj in Q. injection Q as <- <-. now rewrite written_nil.
Qed.

Lemma rdz_app i a r v : rdz a i = Ok v -> rdz (a ++ r) i = Ok v.
Proof.
  unfold rdz, rd. destruct (i <? 0); [easy|]. destruct (nth_error a (Z.to_nat i)) eqn:Q; [|easy].
  rewrite nth_error_app1 by (apply nth_error_Some; congruence). now rewrite Q.
Qed.
Lemma skip_zeros_app a r : forall n pos v, skip_zeros a pos n = Ok v -> skip_zeros (a ++ r) pos n = Ok v.
Proof.
  induction n as [|n IH]; intros pos v H; cbn [skip_zeros] in *; [exact H|]. apply bind_Ok in H as (b & Hb & H).
  rewrite (rdz_app _ _ r _ Hb). cbn [bind]. destruct (b =? 0); auto.
Qed.
Lemma read_len_app a r : forall n pos len v, read_len a pos n len = Ok v -> read_len (a ++ r) pos n len = Ok v.
Proof.
  induction n as [|n IH]; intros pos len v H; cbn [read_len] in *; [exact H|]. apply bind_Ok in H as (b & Hb & H).
  rewrite (rdz_app _ _ r _ Hb). cbn [bind]. auto.
Qed.
Lemma parse_integer_app a r n pos v : parse_integer a n pos = Ok v -> parse_integer (a ++ r) n pos = Ok v.
Proof.
  unfold parse_integer. cbv zeta. intros H. destruct (pos =? n); [exact H|]. apply bind_Ok in H as (t & Ht & H). rewrite (rdz_app _ _ r _ Ht). cbn [bind].
  destruct (negb (t =? 2)); [exact H|]. destruct (pos + 1 =? n); [exact H|]. apply bind_Ok in H as (b & Hb & H). rewrite (rdz_app _ _ r _ Hb). cbn [bind].
  apply bind_Ok in H as (lp & Hlp & H). 
  assert (Hlp' : (if negb (Z.land b 128 =? 0) then if u64 (n - (pos + 1 + 1)) <? b - 128 then Ok None
     else '(p, lb) <- skip_zeros (a ++ r) (pos + 1 + 1) (Z.to_nat (b - 128)) ;; if (4 <=? lb)%nat then Ok None else q <- read_len (a ++ r) p lb 0 ;; Ok (Some q)
     else Ok (Some (b, pos + 1 + 1))) = Ok lp).
  { destruct (negb (Z.land b 128 =? 0)); [|exact Hlp]. destruct (u64 (n - (pos + 1 + 1)) <? b - 128); [exact Hlp|].
    apply bind_Ok in Hlp as ([p lb] & Hz & Hlp). rewrite (skip_zeros_app _ r _ _ _ Hz). cbn [bind]. destruct (4 <=? lb)%nat; [exact Hlp|].
    apply bind_Ok in Hlp as (q & Hq & Hlp). rewrite (read_len_app _ r _ _ _ _ Hq). exact Hlp. }
  etransitivity; [exact (f_equal (fun x => bind x _) Hlp')|]. exact H.
Qed.
Lemma copy_integer_app a r t pos n top v : copy_integer a t pos n top = Ok v -> copy_integer (a ++ r) t pos n top = Ok v.
Proof.
  unfold copy_integer. destruct (32 <? n)%nat; [easy|]. intros H. apply bind_Ok in H as (bs & Hbs & H).
  assert (Q : slice (skipn (Z.to_nat pos) (a ++ r)) 0 n = Ok bs); [|now rewrite Q].
  unfold slice in *. destruct (Nat.leb_spec (0 + n) (length (skipn (Z.to_nat pos) a))) as [Hl|]; [|discriminate].
  rewrite skipn_app. rewrite app_length. replace (0 + n <=? _)%nat with true by (symmetry; apply Nat.leb_le; lia).
  apply Ok_inj in Hbs. subst bs. f_equal. rewrite !skipn_O. rewrite firstn_app. replace (n - length (skipn (Z.to_nat pos) a))%nat with 0%nat by lia. rewrite firstn_O, app_nil_r. reflexivity.
Qed.

Lemma parse_compact_mem c mem sig t : (sig + 64 <= length mem)%nat ->
  parse_compact_at E L c mem sig t = match secp_parse_compact c t with Ok (ok, s) => Ok (ok, written mem sig (if ok then sig_rep L s else repeat 0 64)) | Abort => Abort | UB => UB end.
Proof.
  intros H. unfold parse_compact_at. destruct (secp_parse_compact c t) as [[ok s]| |]; cbn [bind]; try reflexivity.
  rewrite store_at; [reflexivity|]. destruct ok; rewrite ?repeat_length, ?(lay_sig_len _ _ LL); exact H.
Qed.
Lemma decode_sim c mem enc sig len ret s : has_ctx c -> (sig + 64 <= length mem)%nat -> (enc + len <= length mem)%nat -> disjoint sig 64 enc len ->
  parse_der_lax c (region mem enc len) (Z.of_nat len) = Ok (ret, s) ->
  parse_der_lax_mem E L c mem sig enc (Z.of_nat len) = Ok (ret, written mem sig (sig_rep L s)).
Proof.
  intros C Hs He D H. unfold parse_der_lax_mem, parse_der_lax in *. cbv zeta in *. rewrite parse_compact_mem by exact Hs.
  rewrite (parse_compact_zero c C) in *. cbn [bind] in *.
  set (m1 := written mem sig (sig_rep L (0, 0))).
  assert (L1 : length m1 = length mem) by (apply written_length; rewrite (lay_sig_len _ _ LL); exact Hs).
  assert (W : region m1 enc len = region mem enc len) by (apply region_other; rewrite ?(lay_sig_len _ _ LL); try assumption; unfold disjoint in *; lia).
  destruct (skipn_region m1 enc len ltac:(lia)) as (rest & Er). rewrite W in Er.
  assert (NO : forall x, Ok (0, (0, 0)) = Ok (ret, s) -> x = Ok (0, m1) -> x = Ok (ret, written mem sig (sig_rep L s))).
  { intros x Q ->. apply Ok_inj in Q. injection Q as <- <-. reflexivity. }
  assert (T2 : forall x, written m1 sig (sig_rep L x) = written mem sig (sig_rep L x)).
  { intros x. apply written_twice; rewrite !(lay_sig_len _ _ LL); auto. }
  assert (T3 : forall x y, written (written m1 sig y) sig (sig_rep L x) = written mem sig (sig_rep L x) \/ length y <> 64%nat).
  { intros x y. destruct (Nat.eq_dec (length y) 64) as [Ly|]; [left|now right]. rewrite written_twice by (rewrite ?(lay_sig_len _ _ LL); lia). apply T2. }
  unfold finish_sig_mem, parse_integers, finish_sig in *. cbv zeta in *. rewrite Er. set (w := region mem enc len) in *. clearbody w.
  destruct (0 =? Z.of_nat len); [now apply (NO _ H)|]. apply bind_Ok in H as (t & Ht & H). rewrite (rdz_app _ _ rest _ Ht). cbn [bind].
  destruct (negb (t =? 48)); [now apply (NO _ H)|]. destruct (0 + 1 =? Z.of_nat len); [now apply (NO _ H)|].
  apply bind_Ok in H as (b & Hb & H). rewrite (rdz_app _ _ rest _ Hb). cbn [bind]. apply bind_Ok in H as (op & Hop & H).
  etransitivity; [exact (f_equal (fun x => bind x _) Hop)|]. cbn [bind].
  destruct op as [pos|]; [|now apply (NO _ H)]. apply bind_Ok in H as (ri & Hri & H). rewrite (parse_integer_app _ rest _ _ _ Hri). cbn [bind].
  destruct ri as [[rlen rpos]|]; [|now apply (NO _ H)]. apply bind_Ok in H as (si & Hsi & H). rewrite (parse_integer_app _ rest _ _ _ Hsi). cbn [bind].
  destruct si as [[slen spos]|]; [|now apply (NO _ H)].
  apply bind_Ok in H as ([rp rn] & Hz & H). rewrite (skip_zeros_app _ rest _ _ _ Hz). cbn [bind].
  apply bind_Ok in H as (t1 & Ht1 & H). rewrite (copy_integer_app _ rest _ _ _ _ _ Ht1). cbn [bind].
  apply bind_Ok in H as ([sp sn] & Hz2 & H). rewrite (skip_zeros_app _ rest _ _ _ Hz2). cbn [bind].
  apply bind_Ok in H as (t2 & Ht2 & H). rewrite (copy_integer_app _ rest _ _ _ _ _ Ht2). cbn [bind].
  assert (Z0 : Ok (1, (0, 0)) = Ok (ret, s) -> forall y, length y = 64%nat -> '(_, mem0) <- parse_compact_at E L c (written m1 sig y) sig (repeat 0 64);; Ok (1, mem0) = Ok (ret, written mem sig (sig_rep L s))).
  { intros Q y Ly. rewrite parse_compact_mem by (rewrite written_length; lia). rewrite (parse_compact_zero c C). cbn [bind]. apply Ok_inj in Q. injection Q as <- <-.
    destruct (T3 (0, 0) y) as [-> |Q]; [reflexivity|contradiction]. }
  assert (Z1 : Ok (1, (0, 0)) = Ok (ret, s) -> '(_, mem0) <- parse_compact_at E L c m1 sig (repeat 0 64);; Ok (1, mem0) = Ok (ret, written mem sig (sig_rep L s))).
  { intros Q. rewrite parse_compact_mem by lia. rewrite (parse_compact_zero c C). cbn [bind]. apply Ok_inj in Q. injection Q as <- <-. now rewrite T2. }
  destruct t1 as [u1|]; [destruct t2 as [u2|]|].
  - rewrite parse_compact_mem by lia. apply bind_Ok in H as ([ok s'] & Hok & H). rewrite Hok. cbn [bind]. destruct ok.
    + apply Ok_inj in H. injection H as <- <-. now rewrite T2.
    + rewrite (parse_compact_zero c C) in H. apply Z0; [exact H|apply repeat_length].
  - rewrite (parse_compact_zero c C) in H. cbn [bind] in *. now apply Z1.
  - rewrite (parse_compact_zero c C) in H. cbn [bind] in *. now apply Z1.
Qed.

(** ** Verification and key ids *)
Lemma verify_mem_ok mem pub hash sig P s : (pub + 64 <= length mem)%nat -> (hash + 32 <= length mem)%nat -> (sig + 64 <= length mem)%nat ->
  holds_pub L mem pub P -> holds_sig L mem sig s -> verify_mem E L g mem pub hash sig = key_verify E g P (region mem hash 32) s.
Proof.
  intros Hp Hh Hs HP (HS & H1 & H2). unfold verify_mem, key_verify. rewrite slice_at by exact Hs. cbn [bind]. rewrite HS. destruct s as [r s]. rewrite (lay_sig _ _ LL) by assumption.
  destruct (secp_normalize (g_verify g) (r, s)) as [n| |]; cbn [bind]; try reflexivity.
  rewrite slice_at by exact Hp. cbn [bind]. rewrite HP, (lay_pub _ _ LL). unfold secp_ecdsa_verify. rewrite (slice_firstn (skipn hash mem)). reflexivity.
Qed.

Lemma pubkey_keyid_mem_ok mem pub (b : bool) keyid P d : (pub + 64 <= length mem)%nat -> holds_pub L mem pub P -> (keyid + length d <= length mem)%nat ->
  btc_hash160 (ser E b P) (if b then 33%nat else 65%nat) = Ok d ->
  pubkey_keyid_mem E L g mem pub b keyid = Ok (written mem keyid d).
Proof.
  intros Hp HP Hk Hd. unfold pubkey_keyid_mem. cbv zeta. rewrite slice_at by exact Hp. cbn [bind].
  assert (Ls : length (ser E b P) = if b then 33%nat else 65%nat) by (destruct b; [apply (law_ser33 _ SL P)|apply (law_ser65 _ SL P)]).
  replace (if b then BTC_COMPRESSED_PUBLIC_KEY_SIZE else BTC_PUBLIC_KEY_SIZE) with (if b then 33%nat else 65%nat) by (now destruct b).
  assert (LU : length (mem ++ uninit BTC_PUBLIC_KEY_SIZE) = (length mem + 65)%nat) by (now rewrite app_length).
  rewrite (pubkey_encode_mem_ok _ pub (length mem) b P).
  2:{ rewrite LU. destruct b; lia. }
  2:{ rewrite LU. lia. }
  2:{ unfold disjoint. lia. }
  2:{ unfold holds_pub. rewrite region_before by exact Hp. exact HP. }
  cbn [c_assert bind].
  assert (LW : length (written (mem ++ uninit BTC_PUBLIC_KEY_SIZE) (length mem) (ser E b P)) = (length mem + 65)%nat)
    by (rewrite written_length; rewrite ?LU, ?Ls; destruct b; lia).
  rewrite slice_at by (rewrite LW; destruct b; lia). cbn [bind].
  rewrite region_same' by (first [exact Ls | rewrite LU; destruct b; lia]). rewrite Hd. cbn [bind]. now rewrite store_at.
Qed.
Lemma key_keyid_mem_ok mem key (b : bool) keyid P d : (key + 32 <= length mem)%nat -> key_get_pub E g (region mem key 32) = Ok P ->
  (keyid + 20 <= length mem)%nat -> length d = 20%nat -> btc_hash160 (ser E b P) (if b then 33%nat else 65%nat) = Ok d ->
  key_keyid_mem E L g mem key b keyid = Ok (written mem keyid d).
Proof.
  intros Hk HP Hi Ld Hd. unfold key_keyid_mem. cbv zeta. rewrite slice_at by exact Hk. cbn [bind].
  assert (LU : length (mem ++ uninit 64) = (length mem + 64)%nat) by (now rewrite app_length).
  rewrite get_pub_mem_ok by (rewrite ?LU; unfold disjoint; lia). rewrite region_before by exact Hk. rewrite HP. cbn [bind].
  replace (keyid + 20 <=? length mem)%nat with true by (symmetry; now apply Nat.leb_le). cbn [c_defined bind].
  replace (written (mem ++ uninit 64) (length mem) (pub_rep L P)) with (mem ++ pub_rep L P).
  2:{ replace (length mem) with (length mem + 0)%nat at 1 by lia. rewrite written_behind. unfold written. rewrite (lay_pub_len _ _ LL). rewrite firstn_O, skipn_all2 by (unfold uninit; now rewrite repeat_length). now rewrite app_nil_r. }
  rewrite (pubkey_keyid_mem_ok _ _ b keyid P d).
  - cbn [bind]. rewrite written_before by lia. f_equal. replace (length mem) with (length (written mem keyid d)) by (rewrite written_length; lia). apply firstn_app_exact.
  - rewrite app_length, (lay_pub_len _ _ LL). lia.
  - unfold holds_pub. replace (length mem) with (length mem + 0)%nat by lia. rewrite region_behind. unfold region. rewrite skipn_O. apply firstn_all2. now rewrite (lay_pub_len _ _ LL).
  - rewrite app_length. lia.
  - exact Hd.
Qed.
Lemma key_keyid_mem_abort mem key (b : bool) keyid : (key + 32 <= length mem)%nat -> key_get_pub E g (region mem key 32) = Abort ->
  key_keyid_mem E L g mem key b keyid = Abort.
Proof.
  intros Hk HP. unfold key_keyid_mem. cbv zeta. rewrite slice_at by exact Hk. cbn [bind].
  assert (LU : length (mem ++ uninit 64) = (length mem + 64)%nat) by (now rewrite app_length).
  rewrite get_pub_mem_ok by (rewrite ?LU; unfold disjoint; lia). rewrite region_before by exact Hk. now rewrite HP.
Qed.

End KeyMem.
