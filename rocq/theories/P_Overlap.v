(** Property theorems C103-C105: derivation and hashing when the buffers the caller passes overlap, and at which addresses they may lie. *)
From Verif Require Import Base S_Words S_Secp S_Life S_Mem S_Bip32 S_Der S_Sha1 S_Sha2 S_Ripemd M_Endian M_Sha2 M_Sha1 M_Ripemd M_Hash M_Random M_Secp M_Key M_Exkey
  M_Overlap S_Overlap L_Endian L_Mem L_Secp L_Sha2Top L_Sha1 L_Ripemd L_Hash L_Bip32 P_Der L_Overlap L_Overlap2 L_Overlap3.

(** ** C103: derivation *)

(** A private derivation whose four buffers overlap in any way behaves as if each were a separate copy, provided only that the two
    outputs do not overlap each other, and that the output key is apart from the input key or, where memcpy onto itself is harmless,
    is the input key. *)
Theorem C103_key_derive : forall rule E g mem key chain outk outc child,
  (key + 32 <= length mem)%nat -> (chain + 32 <= length mem)%nat -> (outk + 32 <= length mem)%nat -> (outc + 32 <= length mem)%nat ->
  disjoint outk 32 outc 32 -> disjoint outk 32 key 32 \/ (rule = Tolerant /\ outk = key) ->
  key_derive_at rule E g mem key chain outk outc child =
    ('(r, k, c) <- key_derive E g (region mem key 32) (region mem chain 32) (region mem outk 32) (region mem outc 32) child ;;
     Ok (r, written (written mem outk k) outc c)).
Proof. exact key_derive_at_ok. Qed.
Print Assumptions C103_key_derive.

(** Deriving a valid key into its own buffer (or a buffer that overlaps it) is undefined behaviour by the letter of the standard. *)
Theorem C103_key_derive_same_buffer_refuted : forall E g mem key chain outk outc child, secp_laws E -> ready g -> bytes mem ->
  (key + 32 <= length mem)%nat -> (chain + 32 <= length mem)%nat -> 0 < be_val (region mem key 32) < secp_order ->
  ~ disjoint outk 32 key 32 -> key_derive_at Standard E g mem key chain outk outc child = UB.
Proof. intros. apply key_derive_undefined; auto. Qed.
Print Assumptions C103_key_derive_same_buffer_refuted.

(** A public derivation is defined for any overlap of the output key with the inputs, under the letter of the standard; the output
    chain code must be apart from both public key buffers, because the input is parsed again after it was written. *)
Theorem C103_pubkey_derive : forall E g mem pub chain outp outc child, secp_laws E ->
  (pub + 33 <= length mem)%nat -> (chain + 32 <= length mem)%nat -> (outp + 33 <= length mem)%nat -> (outc + 32 <= length mem)%nat ->
  disjoint outp 33 outc 32 -> disjoint outc 32 pub 33 ->
  pubkey_derive_at E g mem pub chain outp outc child =
    ('(r, p, c) <- pubkey_derive E g (region mem pub 33) (region mem chain 32) (region mem outp 33) (region mem outc 32) child ;;
     Ok (r, written (written mem outp p) outc c)).
Proof. exact pubkey_derive_at_ok. Qed.
Print Assumptions C103_pubkey_derive.

(** Structures: derivation from the extended key at [key] into the one at [derived], which is elsewhere or the same; nothing outside the
    structure [derived] changes. *)
Theorem C103_exkey_derive : forall rule E g mem key derived child fingerprint,
  (key + ex_key_size <= length mem)%nat -> (derived + ex_key_size <= length mem)%nat -> 0 <= child < 2 ^ 32 -> 0 <= fingerprint < 2 ^ 32 ->
  disjoint derived ex_key_size key ex_key_size \/ (rule = Tolerant /\ derived = key) ->
  match exkey_derive E g (ex_key_at mem key) (ex_key_at mem derived) child fingerprint with
  | Ok (r, k) => exists mem', exkey_derive_at rule E g mem key derived child fingerprint = Ok (r, mem') /\
      ex_key_at mem' derived = k /\ only_inside mem mem' derived ex_key_size
  | UB => exkey_derive_at rule E g mem key derived child fingerprint = UB
  | Abort => exkey_derive_at rule E g mem key derived child fingerprint = Abort
  end.
Proof. exact exkey_derive_at_ok. Qed.
Print Assumptions C103_exkey_derive.

Theorem C103_exkey_in_place_refuted : forall E g mem a child fingerprint, secp_laws E -> ready g -> bytes mem ->
  (a + ex_key_size <= length mem)%nat -> 0 < be_val (xk_key (ex_key_at mem a)) < secp_order ->
  exkey_derive_at Standard E g mem a a child fingerprint = UB.
Proof.
  intros E g mem a child fp LE G B Ha Sk. unfold exkey_derive_at, o_key, o_chain. unfold ex_key_size in Ha.
  rewrite key_derive_undefined; auto; try lia. unfold disjoint. lia.
Qed.
Print Assumptions C103_exkey_in_place_refuted.

Theorem C103_expubkey_derive : forall E g mem pub derived child fingerprint, secp_laws E ->
  (pub + ex_pubkey_size <= length mem)%nat -> (derived + ex_pubkey_size <= length mem)%nat -> 0 <= child < 2 ^ 32 -> 0 <= fingerprint < 2 ^ 32 ->
  disjoint derived ex_pubkey_size pub ex_pubkey_size \/ derived = pub ->
  match expubkey_derive E g (ex_pubkey_at mem pub) (ex_pubkey_at mem derived) child fingerprint with
  | Ok (r, k) => exists mem', expubkey_derive_at E g mem pub derived child fingerprint = Ok (r, mem') /\
      ex_pubkey_at mem' derived = k /\ only_inside mem mem' derived ex_pubkey_size
  | UB => expubkey_derive_at E g mem pub derived child fingerprint = UB
  | Abort => expubkey_derive_at E g mem pub derived child fingerprint = Abort
  end.
Proof. exact expubkey_derive_at_ok. Qed.
Print Assumptions C103_expubkey_derive.

Theorem C103_exkey_get_pub : forall rule E g mem key pub, secp_laws E ->
  (key + ex_key_size <= length mem)%nat -> (pub + ex_pubkey_size <= length mem)%nat -> disjoint pub ex_pubkey_size key ex_key_size ->
  match exkey_get_pub E g (ex_key_at mem key) (ex_pubkey_at mem pub) with
  | Ok p => exists mem', exkey_get_pub_at rule E g mem key pub = Ok mem' /\ ex_pubkey_at mem' pub = p /\ only_inside mem mem' pub ex_pubkey_size
  | UB => exkey_get_pub_at rule E g mem key pub = UB
  | Abort => exkey_get_pub_at rule E g mem key pub = Abort
  end.
Proof. exact get_pub_at_ok. Qed.
Print Assumptions C103_exkey_get_pub.

(** Walking a path of any length inside one structure gives the key that deriving every step into a fresh structure gives. *)
Theorem C103_path_in_place : forall E g fresh a path mem k,
  length (xk_key fresh) = 32%nat -> length (x_chain_code (xk_ext fresh)) = 32%nat ->
  Forall (fun s => 0 <= fst s < 2 ^ 32 /\ 0 <= snd s < 2 ^ 32) path -> (a + ex_key_size <= length mem)%nat ->
  walk E g fresh (ex_key_at mem a) path = Ok (true, k) ->
  exists mem', walk_at Tolerant E g mem a path = Ok (true, mem') /\ ex_key_at mem' a = k /\ only_inside mem mem' a ex_key_size.
Proof. intros. eapply walk_at_ok; eauto. Qed.
Print Assumptions C103_path_in_place.

(** ** C104: hash functions; the output may lie anywhere, also over the message or the key. *)
Theorem C104_sha1 : forall rule f mem msg len hash, aligned rule f hash 4 -> bytes mem ->
  (msg + len <= length mem)%nat -> Z.of_nat len < 2 ^ 61 -> (hash + 20 <= length mem)%nat ->
  sha1_at rule f mem msg len hash = Ok (written mem hash (SHA1 (region mem msg len))).
Proof.
  intros rule f mem msg len hash A B H HL Hh. apply sha1_at_ok; auto; [|rewrite SHA1_length; exact Hh].
  apply sha1_ok; [now apply bytes_skipn|rewrite skipn_length; lia|exact HL].
Qed.
Print Assumptions C104_sha1.

Theorem C104_ripemd160 : forall rule f mem msg len hash, aligned rule f hash 4 -> bytes mem ->
  (msg + len <= length mem)%nat -> Z.of_nat len < 2 ^ 61 -> (hash + 20 <= length mem)%nat ->
  ripemd160_at rule f mem msg len hash = Ok (written mem hash (RIPEMD160 (region mem msg len))).
Proof.
  intros rule f mem msg len hash A B H HL Hh. apply ripemd_at_ok; auto; [|rewrite RIPEMD160_length; exact Hh].
  apply ripemd160_ok; [now apply bytes_skipn|rewrite skipn_length; lia|exact HL].
Qed.
Print Assumptions C104_ripemd160.

Theorem C104_sha256 : forall rule f mem msg len hash, aligned rule f hash 4 -> bytes mem ->
  (msg + len <= length mem)%nat -> Z.of_nat len < 2 ^ 61 -> (hash + 32 <= length mem)%nat ->
  sha2_256_at rule f mem msg len hash = Ok (written mem hash (SHA256 (region mem msg len))).
Proof.
  intros rule f mem msg len hash A B H HL Hh. apply sha256_at_ok; auto; [|rewrite SHA256_length; exact Hh].
  apply sha2_256_ok; [now apply bytes_skipn|rewrite skipn_length; lia|exact HL].
Qed.
Print Assumptions C104_sha256.

Theorem C104_sha512 : forall rule f mem msg len hash, aligned rule f hash 8 -> bytes mem ->
  (msg + len <= length mem)%nat -> Z.of_nat len < 2 ^ 61 -> (hash + 64 <= length mem)%nat ->
  sha2_512_at rule f mem msg len hash = Ok (written mem hash (SHA512 (region mem msg len))).
Proof.
  intros rule f mem msg len hash A B H HL Hh. apply sha512_at_ok; auto; [|rewrite SHA512_length; exact Hh].
  apply sha2_512_ok; [now apply bytes_skipn|rewrite skipn_length; lia|exact HL].
Qed.
Print Assumptions C104_sha512.

Theorem C104_hmac_sha256 : forall rule f mem key klen msg len out, aligned rule f out 4 -> bytes mem ->
  (key + klen <= length mem)%nat -> (msg + len <= length mem)%nat -> Z.of_nat klen < 2 ^ 61 -> Z.of_nat len + 64 < 2 ^ 61 -> (out + 32 <= length mem)%nat ->
  hmac_sha256_at rule f mem key klen msg len out = Ok (written mem out (hmac SHA256 64 (region mem key klen) (region mem msg len))).
Proof.
  intros rule f mem key klen msg len out A B Hk H HK HL Hh. apply hmac256_at_ok; auto; [|unfold hmac; rewrite SHA256_length; exact Hh].
  apply hmac_sha256_ok; [now apply bytes_skipn|rewrite skipn_length; lia|now apply bytes_skipn|rewrite skipn_length; lia|exact HK|].
  unfold byte_len_ok. rewrite Nat2Z.inj_add. exact HL.
Qed.
Print Assumptions C104_hmac_sha256.

Theorem C104_hmac_sha512 : forall rule f mem key klen msg len out, aligned rule f out 8 -> bytes mem ->
  (key + klen <= length mem)%nat -> (msg + len <= length mem)%nat -> Z.of_nat klen < 2 ^ 61 -> Z.of_nat len + 128 < 2 ^ 61 -> (out + 64 <= length mem)%nat ->
  hmac_sha512_at rule f mem key klen msg len out = Ok (written mem out (hmac SHA512 128 (region mem key klen) (region mem msg len))).
Proof.
  intros rule f mem key klen msg len out A B Hk H HK HL Hh. apply hmac512_at_ok; auto; [|unfold hmac; rewrite SHA512_length; exact Hh].
  apply hmac_sha512_ok; [now apply bytes_skipn|rewrite skipn_length; lia|now apply bytes_skipn|rewrite skipn_length; lia|exact HK|].
  unfold byte_len_ok. rewrite Nat2Z.inj_add. exact HL.
Qed.
Print Assumptions C104_hmac_sha512.

(** The local array of btc/hash.c is word aligned under the strict rule. *)
Definition local_aligned (rule : align_rule) (f : frame) : Prop :=
  match rule with Strict => (f_sha2_digest f mod 4 = 0)%nat | AnyAddress => True end.

Theorem C104_hash160 : forall rule f mem msg len hash, aligned rule f hash 4 -> local_aligned rule f -> bytes mem ->
  (msg + len <= length mem)%nat -> Z.of_nat len < 2 ^ 61 -> (hash + 20 <= length mem)%nat ->
  btc_hash160_at rule f mem msg len hash = Ok (written mem hash (RIPEMD160 (SHA256 (region mem msg len)))).
Proof. exact hash160_at_ok. Qed.
Print Assumptions C104_hash160.

Theorem C104_hash256 : forall rule f mem msg len hash, aligned rule f hash 4 -> local_aligned rule f -> bytes mem ->
  (msg + len <= length mem)%nat -> Z.of_nat len < 2 ^ 61 -> (hash + 32 <= length mem)%nat ->
  btc_hash256_at rule f mem msg len hash = Ok (written mem hash (SHA256 (SHA256 (region mem msg len)))).
Proof. exact hash256_at_ok. Qed.
Print Assumptions C104_hash256.

Theorem C104_bip32_hash : forall rule f mem chain child header data out, aligned rule f out 8 -> 0 <= header < 256 -> bytes mem ->
  (chain + 32 <= length mem)%nat -> (data + 32 <= length mem)%nat -> (out + 64 <= length mem)%nat ->
  btc_bip32_hash_at rule f mem chain child header data out =
    Ok (written mem out (hmac SHA512 128 (region mem chain 32) ([header] ++ region mem data 32 ++ be_bytes 4 child))).
Proof. exact bip32_hash_at_ok. Qed.
Print Assumptions C104_bip32_hash.

(** ** C105: addresses *)

(** Under the strict rule messages and keys may lie at any address: only the output address matters. *)
Theorem C105_inputs_at_any_address : forall f mem msg len out, (out mod 8 = 0)%nat -> (f_last_chunk f mod 8 = 0)%nat -> (f_sha2_digest f mod 4 = 0)%nat ->
  bytes mem -> (msg + len <= length mem)%nat -> Z.of_nat len < 2 ^ 60 -> (out + 64 <= length mem)%nat ->
  sha1_at Strict f mem msg len out = Ok (written mem out (SHA1 (region mem msg len))) /\
  ripemd160_at Strict f mem msg len out = Ok (written mem out (RIPEMD160 (region mem msg len))) /\
  sha2_256_at Strict f mem msg len out = Ok (written mem out (SHA256 (region mem msg len))) /\
  sha2_512_at Strict f mem msg len out = Ok (written mem out (SHA512 (region mem msg len))) /\
  btc_hash160_at Strict f mem msg len out = Ok (written mem out (RIPEMD160 (SHA256 (region mem msg len)))) /\
  btc_hash256_at Strict f mem msg len out = Ok (written mem out (SHA256 (SHA256 (region mem msg len)))) /\
  forall key klen, (key + klen <= length mem)%nat -> Z.of_nat klen < 2 ^ 60 ->
    hmac_sha256_at Strict f mem key klen msg len out = Ok (written mem out (hmac SHA256 64 (region mem key klen) (region mem msg len))) /\
    hmac_sha512_at Strict f mem key klen msg len out = Ok (written mem out (hmac SHA512 128 (region mem key klen) (region mem msg len))).
Proof.
  intros f mem msg len out Ho Hf Hd B H HL Hh.
  assert (A8 : aligned Strict f out 8) by (split; assumption).
  assert (A4 : aligned Strict f out 4).
  { split; [|assumption]. apply Nat.mod_divides in Ho; [|lia]. destruct Ho as [c ->]. replace (8 * c)%nat with (2 * c * 4)%nat by lia. apply Nat.mod_mul. lia. }
  assert (AL : local_aligned Strict f) by exact Hd.
  repeat split; [apply C104_sha1|apply C104_ripemd160|apply C104_sha256|apply C104_sha512|apply C104_hash160|apply C104_hash256
    |apply C104_hmac_sha256|apply C104_hmac_sha512]; auto; lia.
Qed.
Print Assumptions C105_inputs_at_any_address.

(** An output that is not word aligned is undefined behaviour under the strict rule, whatever the other arguments are. *)
Theorem C105_output_at_any_address_refuted : forall f mem key klen msg len out,
  ((out mod 4 <> 0)%nat -> sha1_at Strict f mem msg len out = UB /\ ripemd160_at Strict f mem msg len out = UB /\
     sha2_256_at Strict f mem msg len out = UB /\ hmac_sha256_at Strict f mem key klen msg len out = UB) /\
  ((out mod 8 <> 0)%nat -> sha2_512_at Strict f mem msg len out = UB /\ hmac_sha512_at Strict f mem key klen msg len out = UB).
Proof.
  intros. split; intros H; apply Nat.eqb_neq in H;
    unfold sha1_at, ripemd160_at, sha2_256_at, sha2_512_at, hmac_sha256_at, hmac_sha512_at, word_access; rewrite H; repeat split; reflexivity.
Qed.
Print Assumptions C105_output_at_any_address_refuted.

(** Even with well placed arguments every call depends on where the compiler puts a local array of bytes. *)
Theorem C105_local_array_refuted : forall f mem msg len out,
  (f_last_chunk f mod 8 <> 0)%nat -> (out mod 8 = 0)%nat ->
  bytes mem -> (msg + len <= length mem)%nat -> Z.of_nat len < 2 ^ 60 -> (out + 64 <= length mem)%nat ->
  sha1_at Strict f mem msg len out = UB /\
  ripemd160_at Strict f mem msg len out = UB /\
  sha2_256_at Strict f mem msg len out = UB /\
  sha2_512_at Strict f mem msg len out = UB /\
  btc_hash160_at Strict f mem msg len out = UB /\
  btc_hash256_at Strict f mem msg len out = UB /\
  forall key klen, (key + klen <= length mem)%nat -> Z.of_nat klen < 2 ^ 60 ->
    hmac_sha256_at Strict f mem key klen msg len out = UB /\
    hmac_sha512_at Strict f mem key klen msg len out = UB.
Proof.
  intros f mem msg len out H Ho Hb Hm Hl Hout.
  assert (X : forall k, (k mod 8 = 0)%nat -> word_access Strict (f_last_chunk f + k) 8 = UB).
  { intros k Hk. unfold word_access. rewrite Nat.add_mod by lia. rewrite Hk, Nat.add_0_r, Nat.mod_mod by lia.
    apply Nat.eqb_neq in H. rewrite H. reflexivity. }
  assert (Y : forall k, (k = 4 \/ k = 8)%nat -> word_access Strict out k = Ok tt).
  { intros k Hk. unfold word_access, c_defined. destruct (Nat.eqb_spec (out mod k) 0) as [e|e]; [reflexivity|exfalso].
    destruct Hk; subst k; [|lia]. pose proof (Nat.div_mod out 8 ltac:(lia)).
    apply e. replace out with (2 * (out / 8) * 4)%nat by lia. apply Nat.mod_mul. lia. }
  assert (Z : forall a k, word_access AnyAddress a k = Ok tt) by reflexivity.
  assert (A1 : exists r, sha1_at AnyAddress f mem msg len out = Ok r) by (eexists; apply C104_sha1; [exact I|exact Hb|exact Hm|lia..]).
  assert (A2 : exists r, ripemd160_at AnyAddress f mem msg len out = Ok r) by (eexists; apply C104_ripemd160; [exact I|exact Hb|exact Hm|lia..]).
  destruct A1 as [r1 A1], A2 as [r2 A2].
  split; [|split; [|split; [|split; [|split; [|split]]]]].
  - clear A2. unfold sha1_at in *. rewrite Z in A1. rewrite (Y 4%nat), (X 56%nat eq_refl) by auto. cbn beta iota delta [bind] in *.
    destruct (block_loop _ _ _ _ _ _) as [[[d mb] l]| |]; cbn beta iota delta [bind] in *; try discriminate.
    destruct (slice _ _ _); cbn beta iota delta [bind] in *; try discriminate.
    destruct (store (repeat 0 64) _ _); cbn beta iota delta [bind] in *; try discriminate.
    destruct (store _ _ [128]); cbn beta iota delta [bind] in *; try discriminate.
    destruct (if (55 <? l)%nat then _ else _) as [[? ?]| |]; cbn beta iota delta [bind] in *; [reflexivity|discriminate..].
  - clear A1. unfold ripemd160_at in *. rewrite Z in A2. rewrite (Y 4%nat), (X 56%nat eq_refl) by auto. cbn beta iota delta [bind] in *.
    destruct (block_loop _ _ _ _ _ _) as [[[d mb] l]| |]; cbn beta iota delta [bind] in *; try discriminate.
    destruct (slice _ _ _); cbn beta iota delta [bind] in *; try discriminate.
    destruct (store (repeat 0 64) _ _); cbn beta iota delta [bind] in *; try discriminate.
    destruct (store _ _ [128]); cbn beta iota delta [bind] in *; try discriminate.
    destruct (if (55 <? l)%nat then _ else _) as [[? ?]| |]; cbn beta iota delta [bind] in *; [reflexivity|discriminate..].
  - unfold sha2_256_at. rewrite (Y 4%nat), (X 56%nat eq_refl) by auto. reflexivity.
  - unfold sha2_512_at. rewrite (Y 8%nat), (X 120%nat eq_refl) by auto. reflexivity.
  - unfold btc_hash160_at. rewrite (X 56%nat eq_refl). unfold word_access, c_defined. destruct (_ =? _)%nat; reflexivity.
  - unfold btc_hash256_at. rewrite (X 56%nat eq_refl). unfold word_access, c_defined. destruct (_ =? _)%nat; reflexivity.
  - intros key klen Hk Hkl. 
    clear A1 A2.
    assert (A3 : exists r, hmac_sha256_at AnyAddress f mem key klen msg len out = Ok r)
      by (eexists; apply C104_hmac_sha256; [exact I|exact Hb|exact Hk|exact Hm|lia..]).
    assert (A4 : exists r, hmac_sha512_at AnyAddress f mem key klen msg len out = Ok r)
      by (eexists; apply C104_hmac_sha512; [exact I|exact Hb|exact Hk|exact Hm|lia..]).
    destruct A3 as [r3 A3], A4 as [r4 A4].
    split.
    + clear A4. unfold hmac_sha256_at in *. rewrite Z in A3. rewrite (Y 4%nat), (X 56%nat eq_refl) by auto. cbn beta iota delta [bind] in *.
      destruct (if (klen <=? 64)%nat then _ else _); cbn beta iota delta [bind] in *; try discriminate.
      match type of A3 with bind ?e _ = _ => destruct e end; cbn beta iota delta [bind] in *; [reflexivity|discriminate..].
    + clear A3. unfold hmac_sha512_at in *. rewrite Z in A4. rewrite (Y 8%nat), (X 120%nat eq_refl) by auto. cbn beta iota delta [bind] in *.
      destruct (if (klen <=? 128)%nat then _ else _); cbn beta iota delta [bind] in *; try discriminate.
      match type of A4 with bind ?e _ = _ => destruct e end; cbn beta iota delta [bind] in *; [reflexivity|discriminate..].
Qed.
Print Assumptions C105_local_array_refuted.

(** ** Concrete cases *)
Definition ex_mem : list Z := repeat 1 200.
Lemma ex_mem_bytes : bytes ex_mem.
Proof. unfold ex_mem. apply Forall_forall. intros x H. apply repeat_spec in H. subst. unfold is_byte. lia. Qed.

Example C103_ex_standard : exkey_derive_at Standard toy ready_example ex_mem 4 4 0 7 = UB.
Proof.
  apply C103_exkey_in_place_refuted; [exact toy_laws|exact ready_example_ok|exact ex_mem_bytes|unfold ex_mem, ex_key_size; rewrite repeat_length; lia|].
  vm_compute. split; reflexivity.
Qed.
(** in place: output key and chain code over the inputs *)
Example C103_ex_tolerant : key_derive_at Tolerant toy ready_example ex_mem 48 16 48 16 (2 ^ 31) =
  ('(r, k, c) <- key_derive toy ready_example (region ex_mem 48 32) (region ex_mem 16 32) (region ex_mem 48 32) (region ex_mem 16 32) (2 ^ 31) ;;
     Ok (r, written (written ex_mem 48 k) 16 c)).
Proof. apply C103_key_derive; try (unfold ex_mem; rewrite repeat_length; lia); [unfold disjoint; lia|right; auto]. Qed.
(** the message is overwritten by its own digest *)
Example C104_ex : sha2_512_at Strict (mkFrame 8 4) ex_mem 3 150 16 = Ok (written ex_mem 16 (SHA512 (region ex_mem 3 150))).
Proof. apply C104_sha512; [split; reflexivity|exact ex_mem_bytes|unfold ex_mem; rewrite repeat_length; lia|reflexivity|unfold ex_mem; rewrite repeat_length; lia]. Qed.

(** a last_chunk at an address that is 4 modulo 8: every hash function is undefined by the letter of the standard *)
Example C105_ex_local : sha1_at Strict (mkFrame 4 4) ex_mem 3 150 16 = UB /\ hmac_sha512_at Strict (mkFrame 4 4) ex_mem 7 9 3 150 16 = UB.
Proof.
  destruct (C105_local_array_refuted (mkFrame 4 4) ex_mem 3 150 16) as (A & _ & _ & _ & _ & _ & B);
    [discriminate|reflexivity|exact ex_mem_bytes|unfold ex_mem; rewrite repeat_length; lia|reflexivity|unfold ex_mem; rewrite repeat_length; lia|].
  split; [exact A|]. apply B; [unfold ex_mem; rewrite repeat_length; lia|reflexivity].
Qed.
