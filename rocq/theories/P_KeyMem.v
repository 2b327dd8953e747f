(** C133, C134: the functions of src/btc/key.c on memory. *)
From Coq Require Import Zpow_facts.
From Verif Require Import Base S_Words L_Endian M_Endian M_Sha2 S_Sha2 S_Ripemd L_Hash M_Hash M_Random M_Secp M_Key S_Secp L_Secp S_Der S_Life S_Sign S_Bip32 L_Der L_Der2 P_Der
  L_Bip32 L_Base58Check P_Bip32 P_Sign P_Collide M_Overlap S_Mem L_Mem S_Overlap L_Overlap L_MemKey M_KeyMem S_KeyMem L_KeyMem S_Secp256k1 L_SecpLaws P_Secp256k1.

(** ** C133 *)

(** The public key of a secret: 64 bytes are written at [pub], nothing else; an invalid secret aborts. *)
Theorem C133_get_pub : forall E L g mem key pub, secp_laws E -> layout_laws E L -> ready g ->
  (key + 32 <= length mem)%nat -> (pub + 64 <= length mem)%nat -> disjoint pub 64 key 32 ->
  let k := be_val (region mem key 32) in
  (0 < k < secp_order -> get_pub_mem E L g mem key pub = Ok (written mem pub (pub_rep L (pub_of E k)))) /\
  (~ 0 < k < secp_order -> get_pub_mem E L g mem key pub = Abort).
Proof.
  intros E L g mem key pub SL LL R Hk Hp D k. change secp_order with secp_n. rewrite get_pub_mem_ok by assumption.
  pose proof (region_length mem key 32 Hk) as Lk. split; intros Sk.
  - pose proof (get_pub_ok E g (region mem key 32) [] R Lk Sk) as Q. rewrite app_nil_r in Q. now rewrite Q.
  - destruct R as (cs & cv & Gs & _ & C & _). unfold key_get_pub, secp_pubkey_create. rewrite Gs. cbn [sign_ctx]. rewrite C. cbn [c_assert bind].
    rewrite slice_region by exact Hk. cbn [bind]. fold k. replace ((0 <? k) && (k <? secp_n)) with false by lia. reflexivity.
Qed.
Print Assumptions C133_get_pub.

(** Public keys out of and into the opaque structure. *)
Theorem C133_pubkey_encode : forall E L g mem pub out (compressed : bool) P, secp_laws E -> layout_laws E L -> ready g ->
  let len := if compressed then 33%nat else 65%nat in
  (out + len <= length mem)%nat -> (pub + 64 <= length mem)%nat -> disjoint out len pub 64 -> holds_pub L mem pub P ->
  pubkey_encode_mem E L g mem pub out len = Ok (true, written mem out (ser E compressed P)) /\ length (ser E compressed P) = len.
Proof.
  intros E L g mem pub out c P SL LL R len Ho Hp D HP. split; [now apply pubkey_encode_mem_ok|].
  unfold len. destruct c; [apply (law_ser33 E SL)|apply (law_ser65 E SL)].
Qed.
Print Assumptions C133_pubkey_encode.

Theorem C133_pubkey_decode : forall E L g mem enc len pub, secp_laws E -> layout_laws E L -> ready g ->
  (len = 33 \/ len = 65)%nat -> (enc + len <= length mem)%nat -> (pub + 64 <= length mem)%nat -> disjoint pub 64 enc len ->
  match parse E (region mem enc len) with
  | Some P => pubkey_decode_mem E L g mem enc len pub = Ok (true, written mem pub (pub_rep L P))
  | None => pubkey_decode_mem E L g mem enc len pub = Ok (false, written mem pub (repeat 0 64))
  end.
Proof.
  intros E L g mem enc len pub SL LL R Hl He Hp D. rewrite pubkey_decode_mem_ok by assumption. now destruct (parse E _).
Qed.
Print Assumptions C133_pubkey_decode.

(** Private keys in the SEC 1 structure. *)
Theorem C133_key_encode : forall rule E g mem key out (compressed : bool), secp_laws E -> ready g ->
  let len := if compressed then 214%nat else 279%nat in
  (key + 32 <= length mem)%nat -> (out + len <= length mem)%nat -> disjoint out len key 32 ->
  let k := region mem key 32 in
  (0 < be_val k < secp_order ->
     let der := ec_private_key k (ser E compressed (pub_of E (be_val k))) compressed in
     key_encode_mem rule E g mem key out len = Ok (true, written mem out der) /\ length der = len) /\
  (~ 0 < be_val k < secp_order -> key_encode_mem rule E g mem key out len = Abort).
Proof.
  intros rule E g mem key out c SL R len Hk Ho D k. change secp_order with secp_n. split.
  - intros Sk der. pose proof (region_length mem key 32 Hk) as Lk. fold k in Lk.
    assert (Lp : length (ser E c (pub_of E (be_val k))) = if c then 33%nat else 65%nat) by (destruct c; [apply (law_ser33 E SL)|apply (law_ser65 E SL)]).
    unfold der. rewrite (tlv_middle c k _ Lk Lp). split.
    + apply export_mem_ok; assumption.
    + rewrite !app_length, Lk, Lp. unfold len. now destruct c.
  - intros Sk. now apply export_mem_invalid.
Qed.
Print Assumptions C133_key_encode.

Theorem C133_key_decode : forall rule g mem enc len key, ready g -> bytes (region mem enc len) ->
  (enc + len <= length mem)%nat -> (key + 32 <= length mem)%nat -> disjoint key 32 enc len ->
  (exists k, lax_privkey (region mem enc len) k /\ 0 < be_val k < secp_order /\ length k = 32%nat /\
     key_decode_mem rule g mem enc len key = Ok (true, written mem key k)) \/
  ((forall k, lax_privkey (region mem enc len) k -> ~ 0 < be_val k < secp_order) /\
     key_decode_mem rule g mem enc len key = Ok (false, written mem key (repeat 0 32))).
Proof.
  intros rule g mem enc len key R B He Hk D. change secp_order with secp_n. unfold key_decode_mem.
  assert (W : region (written mem key (repeat 0 32)) enc len = region mem enc len)
    by (apply region_other; rewrite ?repeat_length; try assumption; unfold disjoint in *; lia).
  destruct (import_der_ok (g_sign g) (region mem enc len) (ready_sign g R) B) as [(k & Lx & Sk & Q)|[No Q]]; rewrite <- W in Q.
  - left. exists k. split; [exact Lx|]. split; [exact Sk|]. split.
    + destruct Lx as (f & bd & os & rest & _ & _ & Ho & _ & ->). rewrite app_length, repeat_length. lia.
    + apply import_sim; assumption.
  - right. split; [exact No|]. apply import_sim; assumption.
Qed.
Print Assumptions C133_key_decode.

(** Signing: the first attempt with a low R is written, and nothing else. *)
Theorem C133_sign : forall E L g mem key hash sig fuel, secp_laws E -> layout_laws E L -> ready g ->
  (key + 32 <= length mem)%nat -> (hash + 32 <= length mem)%nat -> (sig + 64 <= length mem)%nat ->
  disjoint sig 64 key 32 -> disjoint sig 64 hash 32 -> bytes (region mem key 32) -> bytes (region mem hash 32) -> Z.of_nat fuel < 2 ^ 32 ->
  let k := region mem key 32 in let h := region mem hash 32 in
  (0 < be_val k < secp_order ->
     (exists c r s, (c <= fuel)%nat /\ attempt E k h c = Some (r, s) /\ low_r (attempt E k h c) /\ (forall j, (j < c)%nat -> ~ low_r (attempt E k h j)) /\
        sign_mem fuel E L g mem key hash sig = Ok (Returned (written mem sig (sig_rep L (r, s)))) /\ 0 < r < secp_order /\ 0 < s <= secp_order / 2) \/
     ((forall c, (c <= fuel)%nat -> ~ low_r (attempt E k h c)) /\ sign_mem fuel E L g mem key hash sig = Ok Running)) /\
  (~ 0 < be_val k < secp_order -> sign_mem fuel E L g mem key hash sig = Abort).
Proof.
  intros E L g mem key hash sig fuel SL LL R Hk Hh Hs D1 D2 Bk Bh Hf k h. rewrite sign_mem_ok by assumption. fold k h.
  pose proof (region_length mem key 32 Hk) as Lk. pose proof (region_length mem hash 32 Hh) as Lh. fold k in Lk, Bk. fold h in Lh, Bh. split; intros Sk.
  - destruct (C59_sign_first_low_r E g k [] h [] fuel SL R Bk Lk Bh Lh Sk Hf) as [(c & [r s] & Hc & Ha & Hl & Hj & Hq)|[Hn Hq]]; rewrite !app_nil_r in Hq; rewrite Hq.
    + left. exists c, r, s. unfold attempt in Ha. destruct (law_sign E SL _ _ _ _ _ Bk Lk Bh Lh Ha) as (_ & Sr & Ss & _).
      split; [exact Hc|]. split; [exact Ha|]. split; [exact Hl|]. split; [exact Hj|]. split; [reflexivity|]. split; [exact Sr|exact Ss].
    + right. split; [exact Hn|reflexivity].
  - pose proof (C59_sign_invalid_key E g k [] h [] fuel SL R Bk Lk Bh Lh Sk) as Q. rewrite !app_nil_r in Q. now rewrite Q.
Qed.
Print Assumptions C133_sign.

(** Signatures in DER form; the 64 bytes may lie anywhere, also where the text is written. *)
Theorem C133_signature_encode : forall E L g mem sig out r s, secp_laws E -> layout_laws E L -> ready g ->
  (sig + 64 <= length mem)%nat -> (out + 72 <= length mem)%nat -> holds_sig L mem sig (r, s) ->
  exists enc, strict_der r s enc /\ (length enc <= 72)%nat /\ signature_encode_mem E L g mem sig out = Ok (length enc, written mem out enc).
Proof.
  intros E L g mem sig out r s SL LL R Hs Ho HS. pose proof HS as (_ & Hr & Hv). cbn [fst snd] in Hr, Hv.
  destruct (C57_signature_encode_strict g r s R Hr Hv) as (enc & Q & St & Ln & _). exists enc. split; [exact St|]. split; [exact Ln|].
  apply (signature_encode_mem_ok E L g LL mem sig out r s); auto. lia.
Qed.
Print Assumptions C133_signature_encode.

Theorem C133_signature_decode : forall E L g mem enc len sig, secp_laws E -> layout_laws E L -> ready g -> bytes (region mem enc len) ->
  (enc + len <= length mem)%nat -> (sig + 64 <= length mem)%nat -> disjoint sig 64 enc len -> Z.of_nat len < 2 ^ 64 ->
  (exists R S, lax_der (region mem enc len) R S /\
     signature_decode_mem E L g mem enc len sig =
       Ok (1, written mem sig (sig_rep L (if (be_val R <? secp_order) && (be_val S <? secp_order) then (be_val R, be_val S) else (0, 0))))) \/
  ((forall R S, ~ lax_der (region mem enc len) R S) /\
     signature_decode_mem E L g mem enc len sig = Ok (0, written mem sig (sig_rep L (0, 0)))).
Proof.
  intros E L g mem enc len sig SL LL Rg B He Hs D Hl. pose proof (region_length mem enc len He) as Ln.
  destruct (C58_signature_decode_language g (region mem enc len) Rg B ltac:(now rewrite Ln)) as [(R & S & Lx & Q)|[No Q]]; rewrite Ln in Q;
    unfold signature_decode in Q; unfold signature_decode_mem.
  - left. exists R, S. split; [exact Lx|]. apply decode_sim; auto. now apply ready_verify.
  - right. split; [exact No|]. apply decode_sim; auto. now apply ready_verify.
Qed.
Print Assumptions C133_signature_decode.

(** Verification reads the three arguments, which may overlap, and writes nothing. *)
Theorem C133_verify : forall E L g mem pub hash sig P r s, secp_laws E -> layout_laws E L -> ready g ->
  (pub + 64 <= length mem)%nat -> (hash + 32 <= length mem)%nat -> (sig + 64 <= length mem)%nat -> holds_pub L mem pub P -> holds_sig L mem sig (r, s) ->
  verify_mem E L g mem pub hash sig = Ok (ecdsa_ok E (r, if s <=? secp_order / 2 then s else secp_order - s) (region mem hash 32) P).
Proof.
  intros E L g mem pub hash sig P r s SL LL R Hp Hh Hs HP HS. rewrite (verify_mem_ok E L g LL mem pub hash sig P (r, s)) by assumption.
  destruct HS as (_ & _ & Hv). cbn [snd] in Hv.
  pose proof (C60_verify_meaning E g P (region mem hash 32) [] r s R (region_length mem hash 32 Hh) Hv) as Q. now rewrite app_nil_r in Q.
Qed.
Print Assumptions C133_verify.

(** Key identifiers: 20 bytes are written, anywhere, also over the key. *)
Lemma ser_hash E b P : secp_laws E -> btc_hash160 (ser E b P) (if b then 33%nat else 65%nat) = Ok (hash160_of (ser E b P)).
Proof.
  intros SL. assert (Ls : length (ser E b P) = if b then 33%nat else 65%nat) by (destruct b; [apply (law_ser33 E SL)|apply (law_ser65 E SL)]).
  assert (Bs : bytes (ser E b P)) by (destruct b; [apply (law_ser33 E SL)|apply (law_ser65 E SL)]).
  rewrite hash160_ok; [|exact Bs|lia|apply byte_len_small; destruct b; lia]. rewrite firstn_all2 by lia. reflexivity.
Qed.
Theorem C133_keyid : forall E L g mem key pub (compressed : bool) keyid, secp_laws E -> layout_laws E L -> ready g -> (keyid + 20 <= length mem)%nat ->
  (forall P, (pub + 64 <= length mem)%nat -> holds_pub L mem pub P ->
     pubkey_keyid_mem E L g mem pub compressed keyid = Ok (written mem keyid (hash160_of (ser E compressed P)))) /\
  ((key + 32 <= length mem)%nat -> 0 < be_val (region mem key 32) < secp_order ->
     key_keyid_mem E L g mem key compressed keyid = Ok (written mem keyid (hash160_of (ser E compressed (pub_of E (be_val (region mem key 32))))))) /\
  ((key + 32 <= length mem)%nat -> ~ 0 < be_val (region mem key 32) < secp_order -> key_keyid_mem E L g mem key compressed keyid = Abort).
Proof.
  intros E L g mem key pub c keyid SL LL R Hi. change secp_order with secp_n.
  assert (G : (key + 32 <= length mem)%nat -> length (region mem key 32) = 32%nat) by (apply region_length).
  split; [|split].
  - intros P Hp HP. apply (pubkey_keyid_mem_ok E L g SL LL R) with (P := P); auto; [rewrite (proj2 (h160_facts _)); exact Hi|now apply ser_hash].
  - intros Hk Sk. pose proof (get_pub_ok E g (region mem key 32) [] R (G Hk) Sk) as Q. rewrite app_nil_r in Q.
    apply (key_keyid_mem_ok E L g SL LL R) with (P := pub_of E (be_val (region mem key 32))); auto; [apply (proj2 (h160_facts _))|now apply ser_hash].
  - intros Hk Sk. apply key_keyid_mem_abort; auto.
    destruct R as (cs & cv & Gs & _ & C & _). unfold key_get_pub, secp_pubkey_create. rewrite Gs. cbn [sign_ctx]. rewrite C. cbn [c_assert bind].
    rewrite slice_region by exact Hk. cbn [bind]. replace ((0 <? be_val (region mem key 32)) && (be_val (region mem key 32) <? secp_n)) with false by lia. reflexivity.
Qed.
Print Assumptions C133_keyid.

(** Put together: whatever the eight buffers hold, the client that sends a public key and a signature and reads them back gets
    four times yes (or is still looking for a signature with a low R). *)
Ltac open_pairs := repeat match goal with
  | H : Forall _ (_ :: _) |- _ => apply Forall_cons_iff in H; destruct H
  | H : ForallOrdPairs _ (_ :: _) |- _ => inversion H; clear H; subst
  | H : Forall _ [] |- _ => clear H
  | H : ForallOrdPairs _ [] |- _ => clear H
  end; cbn [fst snd] in *.
Lemma disjoint_sym a n b m : disjoint a n b m -> disjoint b m a n. Proof. unfold disjoint. lia. Qed.
Lemma disjoint_shrink a n b m m' : disjoint a n b m -> (m' <= m)%nat -> disjoint a n b m'. Proof. unfold disjoint. lia. Qed.
Ltac dj := first [assumption | apply disjoint_sym; assumption].
Ltac oth := apply region_other; [lia|lia|first
  [ match goal with H : length _ = _ |- _ => rewrite H; dj end | apply (disjoint_shrink _ _ _ 72); [dj|lia]]].
Theorem C133_session : forall E L g mem key hash pub enc pub2 sig der sig2 fuel, secp_laws E -> layout_laws E L -> ready g ->
  apart (length mem) [(key, 32); (hash, 32); (pub, 64); (enc, 33); (pub2, 64); (sig, 64); (der, 72); (sig2, 64)]%nat ->
  bytes (region mem key 32) -> bytes (region mem hash 32) -> 0 < be_val (region mem key 32) < secp_order -> Z.of_nat fuel < 2 ^ 32 ->
  session fuel E L g mem key hash pub enc pub2 sig der sig2 = Ok (Returned (true, true, 1, true)) \/
  ((forall c, (c <= fuel)%nat -> ~ low_r (attempt E (region mem key 32) (region mem hash 32) c)) /\
   session fuel E L g mem key hash pub enc pub2 sig der sig2 = Ok Running).
Proof.
  intros E L g mem key hash pub enc pub2 sig der sig2 fuel SL LL R (Bd & Ds) Bk Bh Sk Hf. open_pairs.
  set (k := region mem key 32) in *. set (h := region mem hash 32) in *. set (P := pub_of E (be_val k)).
  pose proof (lay_pub_len E L LL P) as LP. pose proof (law_ser33 E SL P) as (L33 & B33 & _). pose proof (lay_sig_len E L LL) as LS.
  pose proof (proj1 (C133_get_pub E L g mem key pub SL LL R ltac:(lia) ltac:(lia) ltac:(dj)) Sk) as Q1. fold k in Q1. fold P in Q1.
  set (m1 := written mem pub (pub_rep L P)) in *.
  assert (N1 : length m1 = length mem) by (apply written_length; lia).
  assert (HP1 : holds_pub L m1 pub P) by (apply region_same'; lia).
  assert (K1 : region m1 key 32 = k) by (oth).
  assert (H1' : region m1 hash 32 = h) by (oth).
  clearbody m1.
  assert (Q2 : pubkey_encode_mem E L g m1 pub enc 33 = Ok (true, written m1 enc (ser E true P))).
  { apply (C133_pubkey_encode E L g m1 pub enc true P SL LL R); cbv beta iota zeta; first [exact HP1|lia|dj]. }
  set (m2 := written m1 enc (ser E true P)) in *.
  assert (N2 : length m2 = length mem) by (unfold m2; rewrite written_length; lia).
  assert (E2 : region m2 enc 33 = ser E true P) by (apply region_same'; lia).
  assert (K2 : region m2 key 32 = k) by (rewrite <- K1; oth).
  assert (H2' : region m2 hash 32 = h) by (rewrite <- H1'; oth).
  clearbody m2.
  pose proof (C133_pubkey_decode E L g m2 enc 33 pub2 SL LL R ltac:(lia) ltac:(lia) ltac:(lia) ltac:(dj)) as Q3. rewrite E2, (law_parse E SL) in Q3.
  set (m3 := written m2 pub2 (pub_rep L P)) in *.
  assert (N3 : length m3 = length mem) by (unfold m3; rewrite written_length; lia).
  assert (HP3 : holds_pub L m3 pub2 P) by (apply region_same'; lia).
  assert (K3 : region m3 key 32 = k) by (rewrite <- K2; oth).
  assert (H3' : region m3 hash 32 = h) by (rewrite <- H2'; oth).
  clearbody m3.
  pose proof (proj1 (C133_sign E L g m3 key hash sig fuel SL LL R ltac:(lia) ltac:(lia) ltac:(lia) ltac:(dj) ltac:(dj)
    ltac:(now rewrite K3) ltac:(now rewrite H3') Hf)) as Q4. rewrite K3, H3' in Q4. specialize (Q4 Sk).
  unfold session. rewrite Q1. cbn [bind]. rewrite Q2. cbn [bind]. rewrite Q3. cbn [bind]. clear Q1 Q2 Q3.
  destruct Q4 as [(c & r & s & Hc & Ha & Hl & Hj & Q4 & Sr & Ss)|[Hn Q4]]; rewrite Q4; cbn [bind]; [left|right; split; [exact Hn|reflexivity]].
  set (m4 := written m3 sig (sig_rep L (r, s))) in *.
  assert (L4 : length (sig_rep L (r, s)) = 64%nat) by apply LS.
  assert (N4 : length m4 = length mem) by (unfold m4; rewrite written_length; lia).
  assert (Ord : secp_order = secp_n) by reflexivity. assert (Hn2 : secp_n / 2 < secp_n) by reflexivity. rewrite Ord in *.
  assert (HS4 : holds_sig L m4 sig (r, s)) by (split; [apply region_same'; lia|cbn [fst snd]; lia]).
  assert (HP4 : holds_pub L m4 pub2 P) by (unfold holds_pub in *; rewrite <- HP3; oth).
  assert (H4' : region m4 hash 32 = h) by (rewrite <- H3'; oth).
  clearbody m4.
  destruct (C133_signature_encode E L g m4 sig der r s SL LL R ltac:(lia) ltac:(lia) HS4) as (txt & St & Lt & Q5). rewrite Q5. cbn [bind]. clear Q5.
  assert (Bt : bytes txt /\ signature_encode g (r, s) = Ok (length txt, txt)).
  { destruct (C57_signature_encode_strict g r s R ltac:(rewrite Ord; lia) ltac:(rewrite Ord; lia)) as (t' & Qt & St' & _ & Bt). rewrite (C57_strict_der_unique r s _ _ St St'). auto. }
  destruct Bt as [Bt Qt].
  set (m5 := written m4 der txt) in *.
  assert (N5 : length m5 = length mem) by (unfold m5; rewrite written_length; lia).
  assert (E5 : region m5 der (length txt) = txt) by (apply region_same'; lia).
  assert (HP5 : holds_pub L m5 pub2 P) by (unfold holds_pub in *; rewrite <- HP4; oth).
  assert (H5' : region m5 hash 32 = h) by (rewrite <- H4'; oth).
  clearbody m5.
  pose proof (C57_signature_roundtrip g r s txt [] R ltac:(rewrite Ord; lia) ltac:(rewrite Ord; lia) Qt ltac:(constructor) ltac:(cbn [length]; lia)) as Rt. rewrite app_nil_r in Rt.
  assert (Q6 : signature_decode_mem E L g m5 der (length txt) sig2 = Ok (1, written m5 sig2 (sig_rep L (r, s)))).
  { apply decode_sim; auto; try lia; [now apply ready_verify|apply (disjoint_shrink _ _ _ 72); [dj|lia]|]. rewrite E5. exact Rt. }
  rewrite Q6. cbn [bind]. clear Q6.
  set (m6 := written m5 sig2 (sig_rep L (r, s))) in *.
  assert (N6 : length m6 = length mem) by (unfold m6; rewrite written_length; lia).
  assert (HS6 : holds_sig L m6 sig2 (r, s)) by (split; [apply region_same'; lia|cbn [fst snd]; lia]).
  assert (HP6 : holds_pub L m6 pub2 P) by (unfold holds_pub in *; rewrite <- HP5; oth).
  assert (H6' : region m6 hash 32 = h) by (rewrite <- H5'; oth).
  clearbody m6.
  rewrite (C133_verify E L g m6 pub2 hash sig2 P r s SL LL R) by (first [assumption|lia]). rewrite H6'. cbn [bind].
  rewrite Ord. replace (s <=? secp_n / 2) with true by (symmetry; apply Z.leb_le; lia).
  unfold attempt in Ha. assert (Lk : length k = 32%nat) by (apply region_length; lia). assert (Lh : length h = 32%nat) by (apply region_length; lia). destruct (law_sign E SL k h _ r s Bk Lk Bh Lh Ha) as (_ & _ & _ & V). fold P in V. now rewrite V.
Qed.
Print Assumptions C133_session.
