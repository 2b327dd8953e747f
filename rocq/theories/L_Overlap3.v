(** C104, C105: hash functions on one shared memory. *)
From Verif Require Import Base S_Words M_Endian M_Sha2 M_Sha1 M_Ripemd M_Hash S_Sha2 S_Sha1 S_Ripemd
  M_Overlap S_Mem S_Overlap L_Endian L_Mem L_Md L_Sha2Top L_Sha1 L_Ripemd L_Hash L_Overlap L_Overlap2 L_Base58Check L_Host L_Host2.

Lemma host_bytes_len n v : length (host_bytes n v) = n.
Proof. rewrite host_bytes_le. apply le_bytes_length. Qed.

Lemma store_words_from w out : forall d mem s, (out + w * (s + length d) <= length mem)%nat ->
  store_words w mem out (combine (seq s (length d)) d) = Ok (written mem (out + w * s) (concat (map (host_bytes w) d))).
Proof.
  induction d as [|v d IH]; intros mem s H; cbn [length seq combine store_words map concat]; [now rewrite written_nil|].
  cbn [length] in H.
  rewrite store_at by (rewrite host_bytes_len; nia). cbn [bind].
  rewrite IH by (rewrite written_length; rewrite ?host_bytes_len; nia).
  f_equal. replace (out + w * S s)%nat with (out + w * s + length (host_bytes w v))%nat by (rewrite host_bytes_len; nia).
  apply written_app. rewrite host_bytes_len.
  assert (L : length (concat (map (host_bytes w) d)) = (w * length d)%nat).
  { clear. induction d as [|x d IH]; cbn [map concat length]; [lia|]. rewrite app_length, host_bytes_len, IH. nia. }
  rewrite L. nia.
Qed.
Lemma concat_host_len w d : length (concat (map (host_bytes w) d)) = (w * length d)%nat.
Proof. induction d as [|x d IH]; cbn [map concat length]; [lia|]. rewrite app_length, host_bytes_len, IH. nia. Qed.
Lemma store_words_ok w mem out d : (out + length (concat (map (host_bytes w) d)) <= length mem)%nat ->
  store_words w mem out (in_order d) = Ok (written mem out (concat (map (host_bytes w) d))).
Proof.
  intros H. rewrite concat_host_len in H. unfold in_order. rewrite store_words_from by (cbn [Nat.add]; lia).
  do 2 f_equal. lia.
Qed.
Lemma store_words_second w mem out d : (out + length (concat (map (host_bytes w) d)) <= length mem)%nat ->
  store_words w mem out (second_first (in_order d)) = Ok (written mem out (concat (map (host_bytes w) d))).
Proof.
  intros H. rewrite <- store_words_ok by exact H. rewrite concat_host_len in H.
  destruct d as [|a [|b d]]; [reflexivity|reflexivity|]. unfold in_order. cbn [length seq combine second_first store_words] in *.
  rewrite !(store_at mem) by (rewrite host_bytes_len; nia). cbn [bind].
  rewrite !store_at by (rewrite ?written_length; rewrite ?host_bytes_len; nia). cbn [bind].
  rewrite written_swap by (rewrite ?host_bytes_len; unfold disjoint; nia). reflexivity.
Qed.
Lemma out32_eq d : out32 d = concat (map (host_bytes 4) (map htobe32 d)).
Proof. unfold out32. rewrite map_map. reflexivity. Qed.
Lemma out64_eq d : out64 d = concat (map (host_bytes 8) (map htobe64 d)).
Proof. unfold out64. rewrite map_map. reflexivity. Qed.
Lemma out32le_eq d : out32le d = concat (map (host_bytes 4) (map htole32 d)).
Proof. unfold out32le. rewrite map_map. reflexivity. Qed.

Lemma access_ok rule f out w k : aligned rule f out w -> (k mod 8 = 0)%nat ->
  word_access rule out w = Ok tt /\ word_access rule (f_last_chunk f + k) 8 = Ok tt.
Proof.
  unfold word_access. destruct rule; cbn [aligned]; [|split; reflexivity]. intros [H1 H2] Hk. rewrite H1. cbn [Nat.eqb c_defined]. split; [reflexivity|].
  rewrite Nat.add_mod by lia. rewrite H2, Hk. reflexivity.
Qed.

Lemma sha256_at_ok rule f mem msg len hash d : aligned rule f hash 4 -> sha2_256 (skipn msg mem) len = Ok d -> (hash + length d <= length mem)%nat ->
  sha2_256_at rule f mem msg len hash = Ok (written mem hash d).
Proof.
  intros A H L. unfold sha2_256_at. destruct (access_ok rule f hash 4 56 A eq_refl) as [A1 A2]. rewrite A1, A2. cbn [bind].
  unfold sha2_256 in H. apply bind_Ok in H. destruct H as (dg & -> & H). cbn [bind].
  assert (Hd : d = concat (map (host_bytes 4) (map htobe32 dg))) by (rewrite <- out32_eq; congruence). rewrite Hd in *. apply store_words_ok, L.
Qed.
Lemma sha512_at_ok rule f mem msg len hash d : aligned rule f hash 8 -> sha2_512 (skipn msg mem) len = Ok d -> (hash + length d <= length mem)%nat ->
  sha2_512_at rule f mem msg len hash = Ok (written mem hash d).
Proof.
  intros A H L. unfold sha2_512_at. destruct (access_ok rule f hash 8 120 A eq_refl) as [A1 A2]. rewrite A1, A2. cbn [bind].
  unfold sha2_512 in H. apply bind_Ok in H. destruct H as (dg & -> & H). cbn [bind].
  assert (Hd : d = concat (map (host_bytes 8) (map htobe64 dg))) by (rewrite <- out64_eq; congruence). rewrite Hd in *. apply store_words_second, L.
Qed.
Lemma sha1_at_ok rule f mem msg len hash d : aligned rule f hash 4 -> sha1 (skipn msg mem) len = Ok d -> (hash + length d <= length mem)%nat ->
  sha1_at rule f mem msg len hash = Ok (written mem hash d).
Proof.
  intros A H L. unfold sha1_at. destruct (access_ok rule f hash 4 56 A eq_refl) as [A1 A2]. rewrite A1, A2. cbn [bind].
  unfold sha1 in H. apply bind_Ok in H. destruct H as ([[d1 mb] l1] & -> & H). cbn [bind].
  apply bind_Ok in H. destruct H as (tl & -> & H). cbn [bind]. apply bind_Ok in H. destruct H as (lc & -> & H). cbn [bind].
  apply bind_Ok in H. destruct H as (lc2 & -> & H). cbn [bind]. apply bind_Ok in H. destruct H as ([d2 lc3] & -> & H). cbn [bind].
  apply bind_Ok in H. destruct H as (lc4 & -> & H). cbn [bind]. apply bind_Ok in H. destruct H as (dg & -> & H). cbn [bind].
  assert (Hd : d = concat (map (host_bytes 4) (map htobe32 dg))) by (rewrite <- out32_eq; congruence). rewrite Hd in *. apply store_words_ok, L.
Qed.
Lemma ripemd_at_ok rule f mem msg len hash d : aligned rule f hash 4 -> ripemd160 (skipn msg mem) len = Ok d -> (hash + length d <= length mem)%nat ->
  ripemd160_at rule f mem msg len hash = Ok (written mem hash d).
Proof.
  intros A H L. unfold ripemd160_at. destruct (access_ok rule f hash 4 56 A eq_refl) as [A1 A2]. rewrite A1, A2. cbn [bind].
  unfold ripemd160 in H. apply bind_Ok in H. destruct H as ([[d1 mb] l1] & -> & H). cbn [bind].
  apply bind_Ok in H. destruct H as (tl & -> & H). cbn [bind]. apply bind_Ok in H. destruct H as (lc & -> & H). cbn [bind].
  apply bind_Ok in H. destruct H as (lc2 & -> & H). cbn [bind]. apply bind_Ok in H. destruct H as ([d2 lc3] & -> & H). cbn [bind].
  apply bind_Ok in H. destruct H as (lc4 & -> & H). cbn [bind]. apply bind_Ok in H. destruct H as (dg & -> & H). cbn [bind].
  assert (Hd : d = concat (map (host_bytes 4) (map htole32 dg))) by (rewrite <- out32le_eq; congruence). rewrite Hd in *. apply store_words_ok, L.
Qed.

Lemma slice_skip_eq mem a n : (a + n <= length mem)%nat -> slice (skipn a mem) 0 n = slice mem a n.
Proof. intros. rewrite slice_skip, slice_at by lia. reflexivity. Qed.
Lemma hmac256_at_ok rule f mem key klen msg len out d : aligned rule f out 4 -> (key + klen <= length mem)%nat ->
  hmac_sha256 (skipn key mem) klen (skipn msg mem) len = Ok d -> (out + length d <= length mem)%nat ->
  hmac_sha256_at rule f mem key klen msg len out = Ok (written mem out d).
Proof.
  intros A Hk H L. unfold hmac_sha256_at. destruct (access_ok rule f out 4 56 A eq_refl) as [A1 A2]. rewrite A1, A2. cbn [bind].
  unfold hmac_sha256 in H. rewrite slice_skip_eq in H by exact Hk. apply bind_Ok in H. destruct H as (buf & -> & H). cbn [bind]. cbv zeta in *.
  apply bind_Ok in H. destruct H as (d1 & -> & H). cbn [bind]. apply bind_Ok in H. destruct H as (d2 & -> & H). cbn [bind].
  apply bind_Ok in H. destruct H as (d3 & -> & H). cbn [bind]. apply bind_Ok in H. destruct H as (dg & -> & H). cbn [bind].
  assert (Hd : d = concat (map (host_bytes 4) (map htobe32 dg))) by (rewrite <- out32_eq; congruence). rewrite Hd in *. apply store_words_ok, L.
Qed.
Lemma hmac512_at_ok rule f mem key klen msg len out d : aligned rule f out 8 -> (key + klen <= length mem)%nat ->
  hmac_sha512 (skipn key mem) klen (skipn msg mem) len = Ok d -> (out + length d <= length mem)%nat ->
  hmac_sha512_at rule f mem key klen msg len out = Ok (written mem out d).
Proof.
  intros A Hk H L. unfold hmac_sha512_at. destruct (access_ok rule f out 8 120 A eq_refl) as [A1 A2]. rewrite A1, A2. cbn [bind].
  unfold hmac_sha512 in H. rewrite slice_skip_eq in H by exact Hk. apply bind_Ok in H. destruct H as (buf & -> & H). cbn [bind]. cbv zeta in *.
  apply bind_Ok in H. destruct H as (d1 & -> & H). cbn [bind]. apply bind_Ok in H. destruct H as (d2 & -> & H). cbn [bind].
  apply bind_Ok in H. destruct H as (d3 & -> & H). cbn [bind]. apply bind_Ok in H. destruct H as (dg & -> & H). cbn [bind].
  assert (Hd : d = concat (map (host_bytes 8) (map htobe64 dg))) by (rewrite <- out64_eq; congruence). rewrite Hd in *. apply store_words_ok, L.
Qed.

Lemma written_end mem u bs : length u = length bs -> written (mem ++ u) (length mem) bs = mem ++ bs.
Proof.
  intros L. unfold written. rewrite firstn_app_exact. rewrite skipn_all2 by (rewrite app_length; lia). now rewrite app_nil_r.
Qed.
Lemma written_prefix mem u a bs : (a + length bs <= length mem)%nat -> firstn (length mem) (written (mem ++ u) a bs) = written mem a bs.
Proof.
  intros H. unfold written. rewrite firstn_app. rewrite skipn_app. rewrite firstn_app.
  replace (a - length mem)%nat with 0%nat by lia. replace (a + length bs - length mem)%nat with 0%nat by lia. cbn [firstn skipn]. rewrite app_nil_r.
  rewrite firstn_all2 by (rewrite firstn_length; lia). f_equal. rewrite firstn_length, Nat.min_l by lia.
  rewrite firstn_app. rewrite firstn_all2 by lia. f_equal. rewrite firstn_app. rewrite skipn_length.
  replace (length mem - a - length bs - (length mem - (a + length bs)))%nat with 0%nat by lia. cbn [firstn]. rewrite app_nil_r.
  apply firstn_all2. rewrite skipn_length. lia.
Qed.

Lemma local_sha256 mem msg len : bytes mem -> (msg + len <= length mem)%nat -> Z.of_nat len < 2 ^ 61 ->
  exists dg, sha256_final IV256 (skipn msg mem) len 0 = Ok dg /\
    store_words 4 (mem ++ uninit 32) (length mem) (in_order (map htobe32 dg)) = Ok (mem ++ SHA256 (region mem msg len)).
Proof.
  intros B H HL. pose proof (sha2_256_ok (skipn msg mem) len (bytes_skipn _ _ B) ltac:(rewrite skipn_length; lia) HL) as S.
  unfold sha2_256 in S. apply bind_Ok in S. destruct S as (dg & E1 & S). exists dg. split; [exact E1|].
  assert (Hd : SHA256 (region mem msg len) = concat (map (host_bytes 4) (map htobe32 dg))) by (rewrite <- out32_eq; unfold region; congruence).
  pose proof (SHA256_length (region mem msg len)) as L. rewrite Hd in *.
  rewrite store_words_ok by (rewrite app_length, uninit_length; lia). f_equal. apply written_end. rewrite uninit_length. lia.
Qed.

Lemma access_digest rule f : (match rule with Strict => (f_sha2_digest f mod 4 = 0)%nat | AnyAddress => True end) -> word_access rule (f_sha2_digest f) 4 = Ok tt.
Proof. unfold word_access. destruct rule; intros H; [rewrite H|]; reflexivity. Qed.

Lemma hash160_at_ok rule f mem msg len hash : aligned rule f hash 4 ->
  (match rule with Strict => (f_sha2_digest f mod 4 = 0)%nat | AnyAddress => True end) ->
  bytes mem -> (msg + len <= length mem)%nat -> Z.of_nat len < 2 ^ 61 -> (hash + 20 <= length mem)%nat ->
  btc_hash160_at rule f mem msg len hash = Ok (written mem hash (RIPEMD160 (SHA256 (region mem msg len)))).
Proof.
  intros A Ad B H HL Hh. unfold btc_hash160_at. rewrite (access_digest rule f Ad). destruct (access_ok rule f hash 4 56 A eq_refl) as [_ A2]. rewrite A2. cbn [bind]. cbv zeta.
  destruct (local_sha256 mem msg len B H HL) as (dg & -> & E2). cbn [bind]. rewrite E2. cbn [bind].
  pose proof (SHA256_length (region mem msg len)) as L. pose proof (SHA256_bytes (region mem msg len)) as BS.
  set (S := SHA256 (region mem msg len)) in *. clearbody S.
  rewrite (ripemd_at_ok rule f _ _ _ _ (RIPEMD160 S)); auto.
  - cbn [bind]. rewrite written_prefix by (rewrite RIPEMD160_length; lia). reflexivity.
  - rewrite skipn_app_exact. rewrite ripemd160_ok; [|exact BS|lia|apply byte_len_small; lia]. rewrite firstn_exact by exact L. reflexivity.
  - rewrite RIPEMD160_length, app_length. lia.
Qed.

Lemma hash256_at_ok rule f mem msg len hash : aligned rule f hash 4 ->
  (match rule with Strict => (f_sha2_digest f mod 4 = 0)%nat | AnyAddress => True end) ->
  bytes mem -> (msg + len <= length mem)%nat -> Z.of_nat len < 2 ^ 61 -> (hash + 32 <= length mem)%nat ->
  btc_hash256_at rule f mem msg len hash = Ok (written mem hash (SHA256 (SHA256 (region mem msg len)))).
Proof.
  intros A Ad B H HL Hh. unfold btc_hash256_at. rewrite (access_digest rule f Ad). destruct (access_ok rule f hash 4 56 A eq_refl) as [_ A2]. rewrite A2. cbn [bind]. cbv zeta.
  destruct (local_sha256 mem msg len B H HL) as (dg & -> & E2). cbn [bind]. rewrite E2. cbn [bind].
  pose proof (SHA256_length (region mem msg len)) as L. pose proof (SHA256_bytes (region mem msg len)) as BS.
  set (S := SHA256 (region mem msg len)) in *. clearbody S. pose proof (SHA256_length S) as L2.
  rewrite (sha256_at_ok rule f _ _ _ _ (SHA256 S)); auto.
  - cbn [bind]. rewrite written_prefix by lia. reflexivity.
  - rewrite skipn_app_exact. rewrite sha2_256_ok; [|exact BS|lia|apply byte_len_small; lia]. rewrite firstn_exact by exact L. reflexivity.
  - rewrite app_length. lia.
Qed.

Lemma bip32_hash_at_ok rule f mem chain child header data out : aligned rule f out 8 -> 0 <= header < 256 ->
  bytes mem -> (chain + 32 <= length mem)%nat -> (data + 32 <= length mem)%nat -> (out + 64 <= length mem)%nat ->
  btc_bip32_hash_at rule f mem chain child header data out =
    Ok (written mem out (hmac SHA512 128 (region mem chain 32) ([header] ++ region mem data 32 ++ be_bytes 4 child))).
Proof.
  intros A Hh B Hc Hd Ho. unfold btc_bip32_hash_at. cbv zeta. rewrite slice_at by lia. cbn [bind].
  assert (Ld : length (region mem data 32) = 32%nat) by (apply region_length; lia).
  assert (Bd : bytes (region mem data 32)) by (apply bytes_region, B). set (dd := region mem data 32) in *. clearbody dd.
  rewrite (u8_id header) by exact Hh. rewrite store_at by (rewrite app_length, uninit_length; cbn [length]; lia). cbn [bind].
  assert (X1 : written (mem ++ uninit 37) (length mem) [header] = mem ++ [header] ++ uninit 36).
  { unfold written. rewrite firstn_app_exact. cbn [length]. rewrite skipn_app, skipn_all2 by lia. replace (length mem + 1 - length mem)%nat with 1%nat by lia. reflexivity. }
  rewrite X1. rewrite store_at by (rewrite !app_length, uninit_length; cbn [length]; lia). cbn [bind].
  assert (X2 : written (mem ++ [header] ++ uninit 36) (length mem + 1) dd = (mem ++ [header] ++ dd) ++ uninit 4).
  { rewrite (app_assoc mem [header] (uninit 36)). unfold written. replace (length mem + 1)%nat with (length (mem ++ [header])) by (rewrite app_length; reflexivity).
    rewrite firstn_app_exact. rewrite skipn_app, skipn_all2 by lia.
    replace (length (mem ++ [header]) + length dd - length (mem ++ [header]))%nat with 32%nat by lia.
    change ([] ++ skipn 32 (uninit 36)) with (uninit 4). rewrite <- !app_assoc. reflexivity. }
  rewrite X2. assert (L3 : length (mem ++ [header] ++ dd) = (length mem + 33)%nat) by (rewrite !app_length; cbn [length]; lia).
  rewrite <- L3. rewrite skipn_app_exact, firstn_app_exact. unfold write_big_32.
  rewrite store_ok by (rewrite host_bytes_len, uninit_length; lia). cbn [bind firstn app].
  rewrite skipn_all2 by (rewrite host_bytes_len, uninit_length; lia). rewrite app_nil_r. unfold htobe32. rewrite htobe_bytes.
  pose proof (be_bytes_length 4 child) as L4. pose proof (be_bytes_bytes 4 child) as B4. set (cc := be_bytes 4 child) in *. clearbody cc.
  match goal with |- context [hmac_sha512_at rule f ?mm _ _ _ _ _] => set (m := mm) end.
  assert (Em : m = mem ++ ([header] ++ dd ++ cc)) by (unfold m; cbn [app]; rewrite <- app_assoc; reflexivity).
  assert (Bm : bytes m). { rewrite Em. rewrite !bytes_app. repeat split; auto. constructor; [exact Hh|constructor]. }
  assert (Lm : length m = (length mem + 37)%nat) by (rewrite Em, !app_length; cbn [length]; lia).
  pose proof (L_Bip32.hmac512_length (region mem chain 32) ([header] ++ dd ++ cc)) as L5.
  rewrite (hmac512_at_ok rule f m chain 32 (length mem) 37 out (hmac SHA512 128 (region mem chain 32) ([header] ++ dd ++ cc))); auto; try lia.
  - cbn [bind]. rewrite Em. rewrite written_prefix by lia. reflexivity.
  - rewrite hmac_sha512_ok; [|now apply bytes_skipn|rewrite skipn_length; lia|now apply bytes_skipn|rewrite skipn_length; lia|apply byte_len_small; lia|apply byte_len_small; lia].
    f_equal. f_equal.
    + rewrite Em. rewrite skipn_app, firstn_app. replace (32 - length (skipn chain mem))%nat with 0%nat by (rewrite skipn_length; lia). cbn [firstn].
      rewrite app_nil_r. reflexivity.
    + rewrite Em, skipn_app_exact. apply firstn_all2. rewrite !app_length. cbn [length]. lia.
Qed.
