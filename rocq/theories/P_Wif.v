(** Properties C51-C53: wallet import format. *)
From Verif Require Import Base S_Words S_Sha2 L_Endian M_Endian M_Hash M_Base58 S_Base58 L_Base58 M_Base58Check S_Base58Check L_Base58Check P_Base58Check
  S_Address M_Address L_Address M_Random M_Secp M_Key S_Key L_KeyStr P_Random.

Lemma firstn_app_le {A} n (a b : list A) : (n <= length a)%nat -> firstn n (a ++ b) = firstn n a.
Proof. intros H. rewrite firstn_app. replace (n - length a)%nat with 0%nat by lia. cbn [firstn]. apply app_nil_r. Qed.
Lemma skipn_app_le {A} n (a b : list A) : (n <= length a)%nat -> skipn n (a ++ b) = skipn n a ++ b.
Proof. intros H. rewrite skipn_app. replace (n - length a)%nat with 0%nat by lia. reflexivity. Qed.
Lemma slice_app mem tail off n : (off + n <= length mem)%nat -> slice (mem ++ tail) off n = Ok (firstn n (skipn off mem)).
Proof.
  intros H. rewrite slice_ok by (rewrite app_length; lia). rewrite skipn_app_le by lia.
  rewrite firstn_app_le by (rewrite skipn_length; lia). reflexivity.
Qed.
Lemma rd_app mem tail i : (i < length mem)%nat -> rd (mem ++ tail) i = Ok (nth i mem 0).
Proof. intros H. unfold rd. rewrite nth_error_app1 by assumption. now rewrite (nth_error_nth' mem 0 H). Qed.


Lemma nth_skipn0 {A} k (l : list A) d : nth 0 (skipn k l) d = nth k l d.
Proof. revert l. induction k as [|k IH]; intros [|x l]; try reflexivity. cbn [skipn nth]. apply IH. Qed.

(** What from_string does with decoded data that fits the buffer. *)
Lemma wif_fits text str_len old oldc param data tail :
  let prefix := cp_secret param in
  (1 <= length prefix <= 8)%nat -> (32 <= length old)%nat -> (length data + length tail <= 40)%nat ->
  from_base58_check text str_len = Ok (length data, data ++ tail) ->
  (exists key flag, length key = 32%nat /\ data = prefix ++ key ++ (if flag : bool then [1] else []) /\
     key_from_string text str_len old oldc param = Ok (1, key ++ skipn 32 old, if flag then 1 else 0)) \/
  ((forall key (flag : bool), length key = 32%nat -> data <> prefix ++ key ++ (if flag then [1] else [])) /\
     exists c, key_from_string text str_len old oldc param = Ok (0, old, c)).
Proof.
  intros prefix Lp Lo Hd E. unfold key_from_string. fold prefix.
  replace (length prefix <=? 8)%nat with true by lia. cbn [c_assert bind]. rewrite E. cbn [bind].
  change (32 + 8)%nat with 40%nat. rewrite store_into_small by (rewrite app_length; exact Hd). cbn [bind].
  set (junk := uninit _). rewrite <- app_assoc. set (tl := tail ++ junk).
  assert (NO : length data <> (length prefix + 32)%nat -> length data <> (length prefix + 33)%nat ->
    forall key (flag : bool), length key = 32%nat -> data <> prefix ++ key ++ (if flag then [1] else [])).
  { intros N1 N2 key flag Lk ->. rewrite !app_length, Lk in N1, N2. destruct flag; cbn [length] in *; lia. }
  destruct (Nat.leb_spec (length data) 32) as [Hs|Hs]; [right; split; [apply NO; lia|eauto]|].
  assert (EX : forall d, (length prefix + 32 <= length d)%nat -> firstn (length prefix) d = prefix ->
     d = prefix ++ firstn 32 (skipn (length prefix) d) ++ skipn (length prefix + 32) d).
  { intros d Ld Hf. rewrite <- Hf at 1. rewrite <- L_Md.skipn_skipn. now rewrite !firstn_skipn. }
  assert (FN : forall key fl, data = prefix ++ key ++ fl -> firstn (length prefix) data = prefix) by (intros key fl ->; apply firstn_app_exact).
  destruct (Nat.eqb_spec (length prefix) (length data - 32)) as [E1|E1]; cbn [negb bind].
  - rewrite slice_app by lia. cbn [bind skipn].
    destruct (bytes_eqb (firstn (length prefix) data) prefix) eqn:Eb; cbn [negb].
    + apply bytes_eqb_eq in Eb. left. exists (firstn 32 (skipn (length prefix) data)), false.
      assert (Lk : length (firstn 32 (skipn (length prefix) data)) = 32%nat) by (rewrite firstn_length, skipn_length; lia).
      split; [exact Lk|]. split.
      * rewrite (EX data) at 1 by (lia || assumption). rewrite (skipn_all2 (n := (length prefix + 32)%nat) data) by lia. reflexivity.
      * rewrite slice_app by lia. cbn [bind]. rewrite store0 by lia. cbn [bind]. now rewrite Lk.
    + right. split; [|eauto]. intros key flag Lk Ed. rewrite (FN _ _ Ed), (proj2 (bytes_eqb_eq _ _) eq_refl) in Eb. discriminate.
  - destruct (Nat.eqb_spec (length prefix) (length data - 32 - 1)) as [E2|E2]; cbn [negb bind].
    2:{ right. split; [apply NO; lia|eauto]. }
    rewrite rd_app by lia. cbn [bind].
    destruct (Z.eqb_spec (nth (length data - 1) data 0) 1) as [E3|E3]; cbn [negb bind].
    2:{ right. split; [|eauto]. intros key flag Lk Ed. apply E3. rewrite Ed.
        assert (Lf : flag = true) by (destruct flag; [reflexivity|]; rewrite Ed, !app_length, Lk in E1; cbn [length] in E1; lia).
        rewrite Lf. rewrite !app_length, Lk. cbn [length]. rewrite app_nth2 by lia. rewrite app_nth2 by lia.
        rewrite Lk. replace (length prefix + (32 + 1) - 1 - length prefix - 32)%nat with 0%nat by lia. reflexivity. }
    rewrite slice_app by lia. cbn [bind skipn].
    destruct (bytes_eqb (firstn (length prefix) data) prefix) eqn:Eb; cbn [negb].
    + apply bytes_eqb_eq in Eb. left. exists (firstn 32 (skipn (length prefix) data)), true.
      assert (Lk : length (firstn 32 (skipn (length prefix) data)) = 32%nat) by (rewrite firstn_length, skipn_length; lia).
      split; [exact Lk|]. split.
      * rewrite (EX data) at 1 by (lia || assumption). f_equal. f_equal.
        assert (Lt : length (skipn (length prefix + 32) data) = 1%nat) by (rewrite skipn_length; lia).
        replace (length data - 1)%nat with (length prefix + 32)%nat in E3 by lia. rewrite <- nth_skipn0 in E3.
        destruct (skipn (length prefix + 32) data) as [|x [|y t]]; try discriminate Lt. cbn [nth] in E3. now rewrite E3.
      * rewrite slice_app by lia. cbn [bind]. rewrite store0 by lia. cbn [bind]. now rewrite Lk.
    + right. split; [|eauto]. intros key flag Lk Ed. rewrite (FN _ _ Ed), (proj2 (bytes_eqb_eq _ _) eq_refl) in Eb. discriminate.
Qed.

(** What it does with a failed decoding. *)
Lemma wif_reject text str_len old oldc param out : (length (cp_secret param) <= 8)%nat -> (length out <= 40)%nat ->
  from_base58_check text str_len = Ok (0%nat, out) -> key_from_string text str_len old oldc param = Ok (0, old, oldc).
Proof.
  intros Lp Lo E. unfold key_from_string. replace (length (cp_secret param) <=? 8)%nat with true by lia. cbn [c_assert bind].
  rewrite E. cbn [bind]. change (32 + 8)%nat with 40%nat. rewrite store_into_small by exact Lo. reflexivity.
Qed.
Lemma wif_overflow text str_len old oldc param n out : (length (cp_secret param) <= 8)%nat -> (40 < length out)%nat ->
  from_base58_check text str_len = Ok (n, out) -> key_from_string text str_len old oldc param = UB.
Proof.
  intros Lp Lo E. unfold key_from_string. replace (length (cp_secret param) <=? 8)%nat with true by lia. cbn [c_assert bind].
  rewrite E. cbn [bind]. change (32 + 8)%nat with 40%nat. rewrite store_into_big by exact Lo. reflexivity.
Qed.

(** C52: decoding accepts exactly the WIF strings of the network and returns their key and flag; anything else is refused and
    leaves the caller's key buffer alone.  ([old] is the caller's buffer, [text] any NUL-terminated ASCII string that
    does not decode to more than 40 bytes - C53.) *)
Theorem C52_wif_language : forall p text rest old oldc,
  bytes (cp_secret p) -> (1 <= length (cp_secret p) <= 8)%nat -> Forall (fun c => 0 < c < 128) text -> Z.of_nat (length text) * 733 <= INT_MAX ->
  (32 <= length old)%nat -> (forall d, bytes d -> b58_decodes text d -> (length d <= 40)%nat) ->
  (exists key flag, is_wif (cp_secret p) key flag text /\
     key_from_string (text ++ 0 :: rest) (length text) old oldc p = Ok (1, key ++ skipn 32 old, if flag then 1 else 0)) \/
  ((forall key flag, ~ is_wif (cp_secret p) key flag text) /\
     exists c, key_from_string (text ++ 0 :: rest) (length text) old oldc p = Ok (0, old, c)).
Proof.
  intros p text rest old oldc Bp Lp A H Lo Hd. unfold is_wif.
  assert (Hcs : forall data, bytes data -> bytes (data ++ checksum4 data)) by (intros; apply bytes_app; split; [assumption|apply checksum4_bytes]).
  assert (U : forall out, bytes out -> b58_decodes text out -> forall key flag, (length key = 32)%nat -> bytes key ->
     base58_address (cp_secret p) (key ++ (if flag : bool then [1] else [])) text ->
     out = (cp_secret p ++ key ++ if flag then [1] else []) ++ checksum4 (cp_secret p ++ key ++ if flag then [1] else [])).
  { intros out Bo D key flag Lk Bk W. apply b58_decodes_address in W. apply (b58_decodes_fun text); auto.
    apply Hcs. apply bytes_app; split; [exact Bp|]. apply bytes_app; split; [exact Bk|]. destruct flag; repeat constructor; unfold is_byte; lia. }
  destruct (string_decoding text rest A H) as [(data & Bd & D & E)|[(out & Bo & D & N & E)|[N E]]].
  - destruct (wif_fits (text ++ 0 :: rest) (length text) old oldc p data (checksum4 data)) as [(key & flag & Lk & Ed & R)|[N [c R]]]; auto.
    + specialize (Hd _ (Hcs data Bd) D). rewrite app_length in Hd. exact Hd.
    + left. exists key, flag. split; [|exact R]. split; [exact Lk|].
      assert (Bd' := Bd). rewrite Ed in Bd'. apply bytes_app in Bd' as [_ Bd']. apply bytes_app in Bd' as [Bk _].
      split; [exact Bk|]. apply b58_decodes_address. now rewrite <- Ed.
    + right. split; [|eauto]. intros key flag (Lk & Bk & W).
      apply (N key flag Lk). apply checksum_split. exact (U _ (Hcs data Bd) D key flag Lk Bk W).
  - right. split; [|exists oldc; apply (wif_reject _ _ _ _ _ out); auto; lia].
    intros key flag (Lk & Bk & W). exact (N _ (U out Bo D key flag Lk Bk W)).
  - right. split; [|exists oldc; apply (wif_reject _ _ _ _ _ []); auto; cbn; lia].
    intros key flag (Lk & Bk & W). apply b58_decodes_address in W. exact (N _ W).
Qed.
Print Assumptions C52_wif_language.

Lemma ascii_base58 d text : is_base58 d text -> Forall (fun c => 0 < c < 128) text.
Proof. intros B. eapply Forall_impl; [|exact (is_base58_alphabet _ _ B)]. cbv beta. intros c [_ H]. exact H. Qed.

(** The string to_string writes. *)
Lemma key_to_string_ok key krest flag p : bytes key -> length key = 32%nat -> bytes (cp_secret p) -> (length (cp_secret p) <= 8)%nat ->
  exists text, key_to_string (key ++ krest) flag p = Ok (length text, text) /\
    is_base58check (cp_secret p ++ key ++ if flag then [1] else []) text /\ (length text <= 62)%nat.
Proof.
  intros Bk Lk Bp Lp. unfold key_to_string. set (payload := key ++ if flag then [1] else []).
  assert (Bl : bytes payload) by (apply bytes_app; split; [exact Bk|destruct flag; repeat constructor; unfold is_byte; lia]).
  assert (Ll : (length payload <= 33)%nat) by (unfold payload; rewrite app_length, Lk; destruct flag; cbn [length]; lia).
  assert (X : exists text, to_base58_check payload (cp_secret p) = Ok (length text, text) /\
    is_base58check (cp_secret p ++ payload) text /\ (length text <= 62)%nat).
  { destruct (C32_base58check_encode payload (cp_secret p) Bl Bp) as (text & E & B & L).
    - unfold to_base58_check_length, to_base58_length. change INT_MAX with 2147483647. dlia.
    - exists text. split; [exact E|]. split; [exact B|].
      refine (b58_text_length 45 62 ((cp_secret p ++ payload) ++ checksum4 (cp_secret p ++ payload)) text _ _ _ _ B); [lia|vm_compute; reflexivity| |].
      + apply bytes_app; split; [|apply checksum4_bytes]. now apply bytes_app.
      + rewrite !app_length, checksum4_length. lia. }
  destruct X as (text & E & B & L). exists text.
  assert (Ek : slice (key ++ krest) 0 32 = Ok key).
  { rewrite slice_app by lia. cbn [skipn]. now rewrite <- Lk, firstn_all. }
  split; [|auto]. rewrite Ek. destruct flag; cbn [bind].
  - rewrite store_into_small by (rewrite Lk; lia). cbn [bind]. rewrite Lk. change (33 - 32)%nat with 1%nat.
    rewrite <- Lk at 1. rewrite store_uninit by (cbn; lia). cbn [bind uninit repeat length Nat.sub app]. fold payload.
    rewrite E. cbn [bind]. unfold cleanse. rewrite store_ok by (rewrite repeat_length; unfold payload; rewrite app_length, Lk; cbn; lia).
    reflexivity.
  - unfold payload in E. rewrite app_nil_r in E. exact E.
Qed.

(** C51: the string fits the announced length, and encoding then decoding returns the key and the flag (prefixes of one to three bytes; the built-in
    networks use one). *)
Theorem C51_wif_roundtrip : forall p key krest flag old oldc rest,
  bytes (cp_secret p) -> (1 <= length (cp_secret p) <= 3)%nat -> bytes key -> length key = 32%nat -> (32 <= length old)%nat ->
  exists text, key_to_string (key ++ krest) flag p = Ok (length text, text) /\ is_wif (cp_secret p) key flag text /\
    (length text <= key_string_max_length)%nat /\
    key_from_string (text ++ 0 :: rest) (length text) old oldc p = Ok (1, key ++ skipn 32 old, if flag then 1 else 0).
Proof.
  intros p key krest flag old oldc rest Bp Lp Bk Lk Lo.
  destruct (key_to_string_ok key krest flag p Bk Lk Bp ltac:(lia)) as (text & E & B & L).
  exists text. split; [exact E|].
  assert (W : is_wif (cp_secret p) key flag text).
  { split; [exact Lk|]. split; [exact Bk|]. exists text. split; [apply trims_self|exact B]. }
  split; [exact W|]. split; [exact L|].
  assert (Hb : bytes (cp_secret p ++ key ++ if flag then [1] else [])).
  { apply bytes_app; split; [exact Bp|]. apply bytes_app; split; [exact Bk|]. destruct flag; repeat constructor; unfold is_byte; lia. }
  assert (Hcs : forall data, bytes data -> bytes (data ++ checksum4 data)) by (intros; apply bytes_app; split; [assumption|apply checksum4_bytes]).
  assert (D : b58_decodes text ((cp_secret p ++ key ++ if flag then [1] else []) ++ checksum4 (cp_secret p ++ key ++ if flag then [1] else []))).
  { exists text. split; [apply trims_self|exact B]. }
  destruct (C52_wif_language p text rest old oldc) as [(key' & flag' & W' & R)|[N _]]; auto.
  - lia.
  - eapply ascii_base58, B.
  - change INT_MAX with 2147483647. lia.
  - intros d Bd Dd. rewrite (b58_decodes_fun text d _ Bd (Hcs _ Hb) Dd D).
    rewrite !app_length, Lk, checksum4_length. destruct flag; cbn [length]; lia.
  - rewrite R. destruct W' as (Lk' & Bk' & W').
    assert (Eq : cp_secret p ++ key' ++ (if flag' then [1] else []) = cp_secret p ++ key ++ (if flag then [1] else [])).
    { apply checksum_split. apply (b58_decodes_fun text); auto.
      - apply Hcs. apply bytes_app; split; [exact Bp|]. apply bytes_app; split; [exact Bk'|]. destruct flag'; repeat constructor; unfold is_byte; lia. }
    apply app_inv_head in Eq. assert (K : key' = key) by (apply (f_equal (firstn 32)) in Eq; rewrite <- Lk in Eq at 2; rewrite firstn_app_exact, <- Lk', firstn_app_exact in Eq; exact Eq).
    subst key'. apply app_inv_head in Eq. destruct flag', flag; try discriminate; reflexivity.
  - exfalso. exact (N key flag W).
Qed.
Print Assumptions C51_wif_roundtrip.

Lemma builtin_secret p : builtin p -> bytes (cp_secret p) /\ length (cp_secret p) = 1%nat.
Proof. intros [-> | [-> | ->]]; split; try reflexivity; repeat constructor; unfold is_byte; cbn; lia. Qed.

Theorem C51_wif_roundtrip_builtin : forall p key krest flag old oldc rest,
  builtin p -> bytes key -> length key = 32%nat -> (32 <= length old)%nat ->
  exists text, key_to_string (key ++ krest) flag p = Ok (length text, text) /\
    key_from_string (text ++ 0 :: rest) (length text) old oldc p = Ok (1, key ++ skipn 32 old, if flag then 1 else 0).
Proof.
  intros p key krest flag old oldc rest Hp Bk Lk Lo. destruct (builtin_secret p Hp) as [Bp Lp].
  destruct (C51_wif_roundtrip p key krest flag old oldc rest Bp ltac:(lia) Bk Lk Lo) as (text & E & _ & _ & R). eauto.
Qed.
Print Assumptions C51_wif_roundtrip_builtin.

(** C53, the part that holds: decoding is defined for every string that decodes to at most 40 bytes, in particular
    for every string of at most 40 characters. *)
Theorem C53_wif_buffer_partial : forall p text rest old oldc,
  bytes (cp_secret p) -> (1 <= length (cp_secret p) <= 8)%nat -> Forall (fun c => 0 < c < 128) text -> Z.of_nat (length text) * 733 <= INT_MAX ->
  (32 <= length old)%nat -> ((length text <= 40)%nat \/ forall d, bytes d -> b58_decodes text d -> (length d <= 40)%nat) ->
  exists r, key_from_string (text ++ 0 :: rest) (length text) old oldc p = Ok r.
Proof.
  intros p text rest old oldc Bp Lp A H Lo S.
  destruct (C52_wif_language p text rest old oldc Bp Lp A H Lo) as [(k & f & _ & R)|[_ [c R]]]; eauto.
  destruct S as [S|S]; [|exact S]. intros d Bd Dd. pose proof (b58_decodes_length text d A H Bd Dd). lia.
Qed.
Print Assumptions C53_wif_buffer_partial.

(** C53 as stated is false: every string that decodes to more than 40 bytes overruns the internal buffer ... *)
Theorem C53_wif_buffer_overflow_refuted : forall p text rest old oldc d,
  (length (cp_secret p) <= 8)%nat -> Forall (fun c => 0 < c < 128) text -> Z.of_nat (length text) * 733 <= INT_MAX ->
  bytes d -> b58_decodes text d -> (40 < length d)%nat ->
  key_from_string (text ++ 0 :: rest) (length text) old oldc p = UB.
Proof.
  intros p text rest old oldc d Lp A H Bd D L.
  assert (Hcs : forall data, bytes data -> bytes (data ++ checksum4 data)) by (intros; apply bytes_app; split; [assumption|apply checksum4_bytes]).
  destruct (string_decoding text rest A H) as [(data & Bda & Dda & E)|[(out & Bo & Do & N & E)|[N E]]].
  - eapply wif_overflow; [lia| |exact E]. now rewrite <- (b58_decodes_fun text d _ Bd (Hcs _ Bda) D Dda).
  - eapply wif_overflow; [lia| |exact E]. now rewrite <- (b58_decodes_fun text d _ Bd Bo D Do).
  - exfalso. exact (N _ D).
Qed.
Print Assumptions C53_wif_buffer_overflow_refuted.

(** Together: a call overruns its internal array exactly when the string is the Base58 text of more than 40 bytes; every other call returns. *)
Theorem C53_wif_overrun_exact : forall p text rest old oldc,
  bytes (cp_secret p) -> (1 <= length (cp_secret p) <= 8)%nat -> Forall (fun c => 0 < c < 128) text -> Z.of_nat (length text) * 733 <= INT_MAX ->
  (32 <= length old)%nat ->
  (key_from_string (text ++ 0 :: rest) (length text) old oldc p = UB <-> exists d, bytes d /\ b58_decodes text d /\ (40 < length d)%nat) /\
  ((exists r, key_from_string (text ++ 0 :: rest) (length text) old oldc p = Ok r) <-> forall d, bytes d -> b58_decodes text d -> (length d <= 40)%nat).
Proof.
  intros p text rest old oldc Bp Lp A H Lo.
  assert (V : forall d, bytes d -> b58_decodes text d -> (40 < length d)%nat -> key_from_string (text ++ 0 :: rest) (length text) old oldc p = UB)
    by (intros d Bd D L; apply (C53_wif_buffer_overflow_refuted p text rest old oldc d); auto; lia).
  assert (W : (forall d, bytes d -> b58_decodes text d -> (length d <= 40)%nat) -> exists r, key_from_string (text ++ 0 :: rest) (length text) old oldc p = Ok r)
    by (intros F; apply C53_wif_buffer_partial; auto).
  assert (Hcs : forall data, bytes data -> bytes (data ++ checksum4 data)) by (intros; apply bytes_app; split; [assumption|apply checksum4_bytes]).
  assert (D : (forall d, bytes d -> b58_decodes text d -> (length d <= 40)%nat) \/ exists d, bytes d /\ b58_decodes text d /\ (40 < length d)%nat).
  { assert (X : forall o, bytes o -> b58_decodes text o -> (forall d, bytes d -> b58_decodes text d -> (length d <= 40)%nat) \/ exists d, bytes d /\ b58_decodes text d /\ (40 < length d)%nat).
    { intros o Bo Do. destruct (Nat.le_gt_cases (length o) 40) as [L|L]; [left|right; eauto]. intros d Bd' D'. now rewrite (b58_decodes_fun text d o Bd' Bo D' Do). }
    destruct (string_decoding text rest A H) as [(data & Bd & Dd & _)|[(out & Bo & Do & _)|[N _]]]; [exact (X _ (Hcs _ Bd) Dd)|exact (X _ Bo Do)|].
    left. intros d _ Dd. destruct (N _ Dd). }
  split; split.
  - intros U. destruct D as [F|E]; [|exact E]. destruct (W F) as [r R]. rewrite R in U. discriminate.
  - intros (d & Bd & Dd & L). eauto.
  - intros [r R] d Bd Dd. destruct (Nat.le_gt_cases (length d) 40) as [L|L]; [exact L|]. rewrite (V d Bd Dd L) in R. discriminate.
  - exact W.
Qed.
Print Assumptions C53_wif_overrun_exact.

(** ... among them 41 times the character '1' on any network ... *)
Theorem C53_wif_buffer_ones_refuted : forall p rest old oldc, (length (cp_secret p) <= 8)%nat ->
  key_from_string (repeat 49 41 ++ 0 :: rest) 41 old oldc p = UB.
Proof.
  intros p rest old oldc Lp.
  apply (C53_wif_buffer_overflow_refuted p (repeat 49 41) rest old oldc (repeat 0 41) Lp).
  - apply Forall_forall. intros x Hx. apply repeat_spec in Hx. lia.
  - change INT_MAX with 2147483647. rewrite repeat_length. lia.
  - apply Forall_forall. intros x Hx. apply repeat_spec in Hx. unfold is_byte. lia.
  - exists (repeat 49 41). split; [apply trims_self|]. exists 41%nat, [], []. rewrite !app_nil_r.
    split; [reflexivity|]. split; [discriminate|]. split; [|reflexivity]. split; [constructor|]. split; [reflexivity|discriminate].
  - rewrite repeat_length. lia.
Qed.
Print Assumptions C53_wif_buffer_ones_refuted.

(** ... and, for prefixes of five to eight bytes (which the code allows), the library's own strings. *)
Theorem C53_wif_own_strings_refuted : forall p key krest flag old oldc rest,
  bytes (cp_secret p) -> (5 <= length (cp_secret p) <= 8)%nat -> bytes key -> length key = 32%nat ->
  exists text, key_to_string (key ++ krest) flag p = Ok (length text, text) /\
    key_from_string (text ++ 0 :: rest) (length text) old oldc p = UB.
Proof.
  intros p key krest flag old oldc rest Bp Lp Bk Lk.
  destruct (key_to_string_ok key krest flag p Bk Lk Bp ltac:(lia)) as (text & E & B & L).
  exists text. split; [exact E|].
  eapply C53_wif_buffer_overflow_refuted; [lia|eapply ascii_base58, B|change INT_MAX with 2147483647; lia| |exists text; split; [apply trims_self|exact B]|].
  - apply bytes_app; split; [|apply checksum4_bytes]. apply bytes_app; split; [exact Bp|]. apply bytes_app; split; [exact Bk|].
    destruct flag; repeat constructor; unfold is_byte; lia.
  - rewrite !app_length, Lk, checksum4_length. destruct flag; cbn [length]; lia.
Qed.
Print Assumptions C53_wif_own_strings_refuted.

(** The well known WIF example 5HueCGU8rMjxEXxiPuD5BDku4MkFqeZyd4dZ1jvhTVqvbTLvyTJ. *)
Definition wif_key : list Z := be_bytes 32 0x0C28FCA386C7A227600B2FE50B7CAE11EC86D3BF1FBE471BE89827E19D72AA1D.
Example wif_example : key_to_string wif_key false mainnet = Ok (51%nat,
  [53;72;117;101;67;71;85;56;114;77;106;120;69;88;120;105;80;117;68;53;66;68;107;117;52;77;107;70;113;101;90;121;100;52;100;90;49;106;118;104;84;86;113;118;98;84;76;118;121;84;74]).
Proof. vm_compute. reflexivity. Qed.
Example wif_key_ok : bytes wif_key /\ length wif_key = 32%nat.
Proof. split; [apply be_bytes_bytes|reflexivity]. Qed.
