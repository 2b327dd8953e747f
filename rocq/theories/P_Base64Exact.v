(** C17: exactly which texts the base64 decoders take whole, and exactly which of them are encodings. *)
From Verif Require Import Base S_Bits S_Rfc4648 L_Bits L_Rfc M_Base64 L_Base64.

(** A text without its dangling character: a last character alone in its block of four. *)
Definition no_dangling (text : list Z) : list Z := firstn (length text - (if (length text mod 4 =? 1)%nat then 1 else 0)) text.

Lemma vb_prefix val n t vs : valid_blocks val n t vs -> all_values val (firstn (length vs) t) = Some vs.
Proof.
  intros H. induction H as [|t Ht Hb|t vs r Ht Hv Hr IH]; [reflexivity|reflexivity|].
  rewrite app_length. assert (L : length vs = length (firstn n t)) by (eapply all_values_length; eauto).
  rewrite firstn_length in L. destruct (Nat.le_gt_cases n (length t)) as [G|G].
  - assert (length vs = n) as -> by lia. rewrite firstn_add, all_values_app, Hv, IH. reflexivity.
  - rewrite skipn_all2 in Hr by lia. inversion Hr; subst; try congruence. rewrite firstn_all2 in Hv by lia.
    rewrite firstn_all2 by (cbn [length]; lia). now rewrite Hv, app_nil_r.
Qed.
Lemma vb_next val n t vs : valid_blocks val n t vs -> all_values val t = Some vs \/
  (all_values val (firstn (length vs + n) t) = None /\ exists q, length vs = (q * n)%nat).
Proof.
  intros H. induction H as [|t Ht Hb|t vs r Ht Hv Hr IH]; [left; reflexivity|right; split; [exact Hb|exists 0%nat; reflexivity]|].
  assert (L : length vs = length (firstn n t)) by (eapply all_values_length; eauto). rewrite firstn_length in L.
  destruct IH as [IH|[IH (q & Hq)]].
  - left. rewrite <- (firstn_skipn n t), all_values_app, Hv, IH. reflexivity.
  - destruct (Nat.le_gt_cases n (length t)) as [G|G].
    + assert (E : length vs = n) by lia. right. rewrite app_length, E. split; [|exists (S q); lia].
      rewrite <- Nat.add_assoc, firstn_add, all_values_app, Hv, IH. reflexivity.
    + rewrite skipn_all2 in IH by lia. rewrite firstn_nil in IH. discriminate.
Qed.
Lemma all_prefix val t m vs : all_values val t = Some vs -> exists ws, all_values val (firstn m t) = Some ws.
Proof.
  intros H. rewrite <- (firstn_skipn m t), all_values_app in H. destruct (all_values val (firstn m t)); [eauto|discriminate].
Qed.

(** The announced length is reached just when all characters but a dangling one count. *)
Lemma accept_gen url text rest n out : bytes text -> from_base64_ (text ++ rest) (length text) url = Ok (n, out) ->
  (n = from_base64_urlsafe_length (length text) <-> exists vals, all_values (b64_lax_value url) (no_dangling text) = Some vals) /\
  (forall vals, all_values (b64_lax_value url) (no_dangling text) = Some vals -> out = regroup_bytes 6 vals).
Proof.
  intros Hb E. destruct (from_base64_gen url text rest Hb) as (vals & Hv & E'). rewrite E in E'. injection E' as E1 E2. subst n out.
  rewrite regroup_bytes_length, from_len_eq. pose proof (vb_prefix _ _ _ _ Hv) as P. pose proof (vb_next _ _ _ _ Hv) as N.
  pose proof (valid_blocks_length _ _ _ _ Hv) as LL. unfold no_dangling.
  assert (D : (length text = 4 * (length text / 4) + length text mod 4)%nat) by (apply Nat.div_mod; lia).
  assert (Dm : (length text mod 4 < 4)%nat) by (apply Nat.mod_upper_bound; lia).
  set (q := (length text / 4)%nat) in *. set (m := (length text mod 4)%nat) in *.
  assert (A : forall x y, (6 * x / 8 = y)%nat <-> (8 * y <= 6 * x < 8 * y + 8)%nat) by (intros; split; intros; dlia).
  destruct (Nat.eqb_spec m 1) as [M|M].
  - replace (length text - 1)%nat with (4 * q)%nat by lia.
    destruct N as [N|[N (j & J)]].
    + assert (L : length vals = length text) by (eapply all_values_length; eauto). split.
      * split; [|rewrite L; reflexivity]. intros _. eapply all_prefix; eauto.
      * intros ws W. rewrite <- (firstn_skipn (4 * q) text), all_values_app, W in N.
        destruct (all_values _ (skipn _ text)) as [us|] eqn:U; [|discriminate]. injection N as <-.
        assert (LW : length ws = (4 * q)%nat) by (rewrite (all_values_length _ _ _ W), firstn_length; lia).
        assert (LU : length us = 1%nat) by (rewrite (all_values_length _ _ _ U), skipn_length; lia).
        destruct us as [|u [|]]; cbn in LU; try lia. rewrite (regroup_bytes_app 6 (3 * q)) by lia. now rewrite dchunk1, app_nil_r.
    + assert (K : (j <= q)%nat) by lia.
      assert (F : (6 * length vals / 8 = 6 * length text / 8)%nat <-> j = q).
      { rewrite (proj2 (A (length text) (3 * q)%nat)) by lia. rewrite A. lia. }
      assert (Q : forall ws, all_values (b64_lax_value url) (firstn (4 * q) text) = Some ws -> j = q).
      { intros ws W. destruct (Nat.eq_dec j q) as [|Nq]; [assumption|exfalso].
        destruct (all_prefix _ _ (length vals + 4) _ W) as (us & U). rewrite firstn_firstn in U. rewrite Nat.min_l in U by lia. congruence. }
      split.
      * rewrite F. split; [intros ->; exists vals; rewrite <- P at 1; f_equal; f_equal; lia|intros (ws & W); eauto].
      * intros ws W. pose proof (Q _ W) as Ej. subst j. replace (4 * q)%nat with (length vals) in W by lia. congruence.
  - rewrite Nat.sub_0_r, firstn_all. destruct N as [N|[N (j & J)]].
    + assert (L : length vals = length text) by (eapply all_values_length; eauto). split; [|intros; congruence].
      split; [eauto|rewrite L; reflexivity].
    + assert (Q : forall ws, all_values (b64_lax_value url) text = Some ws -> False).
      { intros ws W. destruct (all_prefix _ _ (length vals + 4) _ W) as (us & U). congruence. }
      split; [|intros ws W; exfalso; eauto]. split; [|intros (ws & W); exfalso; eauto]. intros Eq. exfalso.
      assert (length vals < length text)%nat.
      { destruct (Nat.eq_dec (length vals) (length text)) as [El|]; [|lia]. exfalso. rewrite El, firstn_all in P. exact (Q _ P). }
      symmetry in Eq. apply A in Eq. assert (6 * length vals / 8 = 3 * j)%nat by (apply A; lia). lia.
Qed.

Lemma spare_pad buf : bytes buf -> Forall (fun b => b = false) (spare_bits 6 (regroup_pad 6 buf)).
Proof.
  intros B. unfold spare_bits. destruct (bit_string_regroup_pad 6 buf ltac:(lia)) as (z & E & Hz).
  assert (L : (6 * length (regroup_pad 6 buf) = 8 * length buf + z)%nat).
  { rewrite <- bit_string_length, E, app_length, bit_string_length, repeat_length. lia. }
  rewrite L, E. replace (8 * ((8 * length buf + z) / 8))%nat with (8 * length buf)%nat by dlia.
  rewrite <- bit_string_length, skipn_app_exact. apply Forall_forall. intros b Hin. apply repeat_spec in Hin. exact Hin.
Qed.
Lemma lax_all url text vs : all_values (b64_value url) text = Some vs -> all_values (b64_lax_value url) text = Some vs.
Proof.
  revert vs. induction text as [|c text IH]; intros vs H; [exact H|]. cbn in *.
  destruct (b64_value url c) as [v|] eqn:E; [|discriminate]. destruct (all_values (b64_value url) text) as [ws|]; [|discriminate].
  rewrite (lax_of_value _ _ _ E), (IH ws eq_refl). exact H.
Qed.
Lemma no_dangling_id text : (length text mod 4 <> 1)%nat -> no_dangling text = text.
Proof. intros H. unfold no_dangling. destruct (Nat.eqb_spec (length text mod 4) 1); [lia|]. rewrite Nat.sub_0_r. apply firstn_all. Qed.

(** ** C17, url-safe: the announced length comes back just when every character, except a dangling one, is in the alphabet; the bytes that come
    back encode to the text just when, besides, there is no dangling character and the unused bits are zero. *)
Theorem C17_base64_urlsafe_exact : forall text rest n out, bytes text ->
  from_base64_urlsafe (text ++ rest) (length text) = Ok (n, out) ->
  (n = from_base64_urlsafe_length (length text) <-> exists vals, all_values (b64_value true) (no_dangling text) = Some vals) /\
  (to_base64_urlsafe out = text <->
     exists vals, all_values (b64_value true) text = Some vals /\ (length text mod 4 <> 1)%nat /\ Forall (fun b => b = false) (spare_bits 6 vals)).
Proof.
  intros text rest n out Hb E. destruct (accept_gen true text rest n out Hb E) as [A O]. split; [exact A|].
  assert (Bo : bytes out).
  { destruct (from_base64_gen true text rest Hb) as (vals & Hv & E'). unfold from_base64_urlsafe in E. rewrite E in E'. injection E' as _ ->. apply regroup_bytes_bytes. }
  unfold to_base64_urlsafe. rewrite (to_base64_spec true out Bo). rewrite app_nil_r. split.
  - intros <-. exists (regroup_pad 6 out). split; [|split; [apply body_mod4|now apply spare_pad]].
    apply all_values_body; [apply char_value|apply rg6_range].
  - intros (vals & Hv & Hm & Hz). rewrite (no_dangling_id _ Hm) in O. rewrite (O vals Hv). now apply reencode.
Qed.
Print Assumptions C17_base64_urlsafe_exact.

(** Standard alphabet.  [body] is the text without its last '=' signs, two of them at most. *)
Theorem C17_base64_exact : forall body pad rest n out, bytes body -> (pad <= 2)%nat -> (pad = 2%nat \/ forall b0, body <> b0 ++ [61]) ->
  let text := body ++ repeat 61 pad in
  from_base64 (text ++ rest) (length text) = Ok (n, out) ->
  (from_base64_length (text ++ rest) (length text) = Ok n <->
     exists vals, all_values (b64_lax_value false) (no_dangling body) = Some vals) /\
  (to_base64 out = text <->
     exists vals, all_values (b64_value false) body = Some vals /\ (length body mod 4 <> 1)%nat /\ Forall (fun b => b = false) (spare_bits 6 vals) /\
       pad = ((4 - length body mod 4) mod 4)%nat).
Proof.
  intros body pad rest n out Hb Hp Hm text E.
  destruct (strip_pad_spec text rest) as (body' & pad' & Et & Hp' & HE & Hm').
  assert (U : body' = body /\ pad' = pad).
  { unfold text in Et. clear -Hp Hm Hp' Hm' Et. destruct Hm as [->|Hm]; [|destruct (pad_unique pad pad' body body'); auto].
    destruct Hm' as [->|Hm']; [|destruct (pad_unique pad' 2 body' body) as [-> ->]; auto]. apply app_inv_tail in Et. auto. }
  destruct U as [-> ->]. unfold from_base64, from_base64_length in *. rewrite HE in *. cbn [bind] in *.
  unfold text in E. rewrite <- app_assoc in E.
  destruct (accept_gen false body (repeat 61 pad ++ rest) n out Hb E) as [A O]. split.
  - rewrite <- A. split; [intros H; congruence|intros <-; reflexivity].
  - assert (Bo : bytes out).
    { destruct (from_base64_gen false body (repeat 61 pad ++ rest) Hb) as (vals & Hv & E'). rewrite E in E'. injection E' as _ ->. apply regroup_bytes_bytes. }
    unfold to_base64. rewrite (to_base64_spec false out Bo). split.
    + intros Eq. pose proof (body_mod4 false out) as M4. destruct (body_bytes false out) as [_ NP].
      assert (P2 : ((4 - length (b64_body false out) mod 4) mod 4 <= 2)%nat) by dlia.
      assert (NE : forall b0, b64_body false out <> b0 ++ [61]).
      { intros b0 E0. rewrite E0 in NP. apply Forall_app in NP. destruct NP as [_ NP]. inversion NP. congruence. }
      destruct (pad_unique _ pad _ body P2 Hp Eq NE Hm) as [<- <-].
      exists (regroup_pad 6 out). split; [apply all_values_body; [apply char_value|apply rg6_range]|]. split; [exact M4|]. split; [now apply spare_pad|reflexivity].
    + intros (vals & Hv & Hm4 & Hz & ->). rewrite (no_dangling_id _ Hm4) in O. rewrite (O vals (lax_all _ _ _ Hv)).
      rewrite (reencode false vals body Hb Hv Hm4 Hz). reflexivity.
Qed.
Print Assumptions C17_base64_exact.

(** Every text has such a body; cases: "Zm9vYg==" comes back, "AB==" has spare bits, "AA=A" a '=' inside, "AAAAB" a dangling character. *)
Example C17_exact_case :
  from_base64 [90; 109; 57; 118; 89; 103; 61; 61] 8 = Ok (4%nat, [102; 111; 111; 98]) /\
  all_values (b64_value false) [90; 109; 57; 118; 89; 103] = Some [25; 38; 61; 47; 24; 32] /\ spare_bits 6 [25; 38; 61; 47; 24; 32] = [false; false; false; false] /\
  spare_bits 6 [0; 1] = [false; false; false; true] /\
  all_values (b64_value false) [65; 65; 61; 65] = None /\ all_values (b64_lax_value false) [65; 65; 61; 65] = Some [0; 0; 0; 0] /\
  no_dangling [65; 65; 65; 65; 66] = [65; 65; 65; 65].
Proof. repeat split; vm_compute; reflexivity. Qed.
