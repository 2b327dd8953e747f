(** C141: a successful run reads every announced byte of its inputs and writes every byte of its result: together with C139, exactly
    those. *)
From Verif Require Import Base M_Endian M_Sha2 M_Sha1 M_Ripemd M_Hash M_Hex M_Base58 M_Leak M_LeakText S_Leak S_LeakBounds S_LeakCover L_Leak L_LeakBounds L_LeakCover L_LeakCoverText L_LeakText P_LeakBounds P_Hash P_Base58.

Lemma ex_reads ins outs locals t o a n : Forall (in_bounds ins outs locals) t -> (forall b, In b (ins ++ locals) -> fst (fst b) = o -> b = ((o, a), n)) ->
  (forall i, (i < n)%nat -> reads t (o, a) i) -> exact_reads t o a n.
Proof.
  intros F B C k. split.
  - intros H. apply Exists_exists in H. destruct H as (e & He & H). rewrite Forall_forall in F. specialize (F e He). destruct e as [?|o' off len|? ? ?|? ? ?]; try contradiction.
    cbn [fst snd] in H. destruct H as [-> H]. cbn in F. apply Exists_exists in F. destruct F as (b & Hb & W). unfold within in W. destruct W as (W1 & W2 & W3).
    rewrite (B b Hb (eq_sym W1)) in W2, W3. cbn [fst snd] in *. lia.
  - intros H. specialize (C (k - a)%nat ltac:(lia)). unfold reads in *. cbn [fst snd] in *. replace (a + (k - a))%nat with (0 + k)%nat in C by lia. exact C.
Qed.
Lemma ex_writes ins outs locals t o a n : Forall (in_bounds ins outs locals) t -> (forall b, In b (outs ++ locals) -> fst (fst b) = o -> b = ((o, a), n)) ->
  (forall i, (i < n)%nat -> writes t (o, a) i) -> exact_writes t o a n.
Proof.
  intros F B C k. split.
  - intros H. apply Exists_exists in H. destruct H as (e & He & H). rewrite Forall_forall in F. specialize (F e He). destruct e as [?|? ? ?|o' off len|? ? ?]; try contradiction.
    cbn [fst snd] in H. destruct H as [-> H]. cbn in F. apply Exists_exists in F. destruct F as (b & Hb & W). unfold within in W. destruct W as (W1 & W2 & W3).
    rewrite (B b Hb (eq_sym W1)) in W2, W3. cbn [fst snd] in *. lia.
  - intros H. specialize (C (k - a)%nat ltac:(lia)). unfold writes in *. cbn [fst snd] in *. replace (a + (k - a))%nat with (0 + k)%nat in C by lia. exact C.
Qed.
Ltac just_one := let b := fresh in let H := fresh in let E := fresh in intros b H E; cbn in H; repeat (destruct H as [<-|H]; [cbn in E; first [discriminate E|reflexivity]|]); destruct H.

(** Plain hashes of [n] bytes at offset [a] of one object, the result at offset [b] of another. *)
Theorem C141_hashes : forall a b msg n,
  (forall d, outcome (sha1_l (Msg, a) (Out, b) msg n) = Ok d ->
     exact_reads (trace (sha1_l (Msg, a) (Out, b) msg n)) Msg a n /\ exact_writes (trace (sha1_l (Msg, a) (Out, b) msg n)) Out b 20) /\
  (forall d, outcome (ripemd160_l (Msg, a) (Out, b) msg n) = Ok d ->
     exact_reads (trace (ripemd160_l (Msg, a) (Out, b) msg n)) Msg a n /\ exact_writes (trace (ripemd160_l (Msg, a) (Out, b) msg n)) Out b 20) /\
  (forall d, outcome (sha2_256_l (Msg, a) (Out, b) msg n) = Ok d ->
     exact_reads (trace (sha2_256_l (Msg, a) (Out, b) msg n)) Msg a n /\ exact_writes (trace (sha2_256_l (Msg, a) (Out, b) msg n)) Out b 32) /\
  (forall d, outcome (sha2_512_l (Msg, a) (Out, b) msg n) = Ok d ->
     exact_reads (trace (sha2_512_l (Msg, a) (Out, b) msg n)) Msg a n /\ exact_writes (trace (sha2_512_l (Msg, a) (Out, b) msg n)) Out b 64).
Proof.
  intros a b msg n. destruct (C139_hashes (Msg, a) (Out, b) msg n) as (B1 & B2 & B3 & B4). split; [|split; [|split]]; intros d H.
  - destruct (C_sha1_l (Msg, a) (Out, b) msg n d H) as [R W]. split; [eapply ex_reads; [exact B1|just_one|exact R]|eapply ex_writes; [exact B1|just_one|exact W]].
  - destruct (C_ripemd160_l (Msg, a) (Out, b) msg n d H) as [R W]. split; [eapply ex_reads; [exact B2|just_one|exact R]|eapply ex_writes; [exact B2|just_one|exact W]].
  - destruct (C_sha2_256 (Msg, a) (Out, b) msg n d H) as [R W]. split; [eapply ex_reads; [exact B3|just_one|exact R]|eapply ex_writes; [exact B3|just_one|exact W]].
  - destruct (C_sha2_512 (Msg, a) (Out, b) msg n d H) as [R W]. split; [eapply ex_reads; [exact B4|just_one|exact R]|eapply ex_writes; [exact B4|just_one|exact W]].
Qed.
Print Assumptions C141_hashes.

(** HMAC: all of the key, all of the message, all of the result. *)
Theorem C141_hmac : forall c a b key kn msg n,
  (forall d, outcome (hmac_sha256_l (Key, c) (Msg, a) (Out, b) key kn msg n) = Ok d ->
     let t := trace (hmac_sha256_l (Key, c) (Msg, a) (Out, b) key kn msg n) in
     exact_reads t Key c kn /\ exact_reads t Msg a n /\ exact_writes t Out b 32) /\
  (forall d, outcome (hmac_sha512_l (Key, c) (Msg, a) (Out, b) key kn msg n) = Ok d ->
     let t := trace (hmac_sha512_l (Key, c) (Msg, a) (Out, b) key kn msg n) in
     exact_reads t Key c kn /\ exact_reads t Msg a n /\ exact_writes t Out b 64).
Proof.
  intros c a b key kn msg n. destruct (C139_hmac (Key, c) (Msg, a) (Out, b) key kn msg n) as (B1 & B2). split; intros d H t; subst t.
  - destruct (C_hmac256 (Key, c) (Msg, a) (Out, b) key kn msg n d H) as (K & R & W).
    split; [eapply ex_reads; [exact B1|just_one|exact K]|]. split; [eapply ex_reads; [exact B1|just_one|exact R]|eapply ex_writes; [exact B1|just_one|exact W]].
  - destruct (C_hmac512 (Key, c) (Msg, a) (Out, b) key kn msg n d H) as (K & R & W).
    split; [eapply ex_reads; [exact B2|just_one|exact K]|]. split; [eapply ex_reads; [exact B2|just_one|exact R]|eapply ex_writes; [exact B2|just_one|exact W]].
Qed.
Print Assumptions C141_hmac.

(** The hash of 64-byte blocks, in place or not. *)
Theorem C141_d64 : forall o mem out inp blocks m, outcome (btc_hash256_d64_l o mem out inp blocks) = Ok m ->
  let t := trace (btc_hash256_d64_l o mem out inp blocks) in
  exact_reads t o inp (64 * blocks) /\ exact_writes t o out (32 * blocks).
Proof.
  intros o mem out inp blocks m H t. subst t. pose proof (C139_d64 o mem out inp blocks) as B. destruct (C_d64_loop o blocks mem out inp m H) as [R W].
  split; [eapply ex_reads; [exact B| |exact R]|eapply ex_writes; [exact B| |exact W]]; intros x Hx _; destruct Hx as [<-|[]]; reflexivity.
Qed.
Print Assumptions C141_d64.

(** Hexadecimal: exactly the bytes are read, exactly two characters per byte written. *)
Theorem C141_hex : forall a b buf upper, Forall is_byte buf ->
  let t := fst (to_hex_l (Msg, a) (Str, b) buf upper) in
  exact_reads t Msg a (length buf) /\ exact_writes t Str b (2 * length buf).
Proof.
  intros a b buf upper Hb t. subst t. pose proof (C139_hex (Msg, a) (Str, b) buf upper Hb) as B. destruct (C_to_hex (Msg, a) (Str, b) buf upper) as [R W].
  split; [eapply ex_reads; [exact B|just_one|exact R]|eapply ex_writes; [exact B|just_one|exact W]].
Qed.
Print Assumptions C141_hex.

(** Base58: exactly the bytes are read, and the characters written are exactly as many as the returned length says. *)
Theorem C141_base58 : forall a b buf len text, outcome (to_base58_l (Msg, a) (Str, b) buf) = Ok (len, text) ->
  let t := trace (to_base58_l (Msg, a) (Str, b) buf) in
  len = length text /\ exact_reads t Msg a (length buf) /\ exact_writes t Str b len.
Proof.
  intros a b buf len text H t. subst t. destruct (C_b58 (Msg, a) (Str, b) buf len text H) as (L & R & W). split; [exact L|].
  assert (B : Forall (in_bounds [((Msg, a), length buf); local Base58Table 58] [((Str, b), len)] [local B58 (length buf * 138 / 100 + 1)]) (trace (to_base58_l (Msg, a) (Str, b) buf))).
  { apply (F_b58_exact _ (ib_test _ _ _) (Msg, a) (Str, b) buf len text H); any. }
  split; [eapply ex_reads; [exact B|just_one|exact R]|eapply ex_writes; [exact B|just_one|exact W]].
Qed.
Print Assumptions C141_base58.

(** The runs above do succeed, for every message (and key) of bytes that is in memory. *)
Theorem C141_succeeds : forall key msg a b c, bytes key -> bytes msg -> Z.of_nat (length key) < 2 ^ 60 -> Z.of_nat (length msg) < 2 ^ 60 ->
  let n := length msg in
  (exists d, outcome (sha1_l (Msg, a) (Out, b) msg n) = Ok d) /\ (exists d, outcome (ripemd160_l (Msg, a) (Out, b) msg n) = Ok d) /\
  (exists d, outcome (sha2_256_l (Msg, a) (Out, b) msg n) = Ok d) /\ (exists d, outcome (sha2_512_l (Msg, a) (Out, b) msg n) = Ok d) /\
  (exists d, outcome (hmac_sha256_l (Key, c) (Msg, a) (Out, b) key (length key) msg n) = Ok d) /\
  (exists d, outcome (hmac_sha512_l (Key, c) (Msg, a) (Out, b) key (length key) msg n) = Ok d).
Proof.
  intros key msg a b c Hk Hm Lk Lm n. subst n. unfold outcome.
  rewrite sha1_l_erase, ripemd160_l_erase, sha2_256_l_erase, sha2_512_l_erase, hmac_sha256_l_erase, hmac_sha512_l_erase.
  pose proof (C72_sha1 msg []) as H1. pose proof (C75_ripemd160 msg []) as H2. pose proof (C73_sha256 msg []) as H3. pose proof (C74_sha512 msg []) as H4.
  pose proof (C76_hmac_sha256 key [] msg []) as H5. pose proof (C77_hmac_sha512 key [] msg []) as H6. rewrite !app_nil_r in *.
  split; [eexists; apply H1; [exact Hm|lia]|]. split; [eexists; apply H2; [exact Hm|lia]|]. split; [eexists; apply H3; [exact Hm|lia]|]. split; [eexists; apply H4; [exact Hm|lia]|].
  split; [eexists; apply H5; [exact Hk|exact Hm|lia|lia]|]. eexists; apply H6; [exact Hk|exact Hm|lia|lia].
Qed.
Print Assumptions C141_succeeds.
Theorem C141_base58_succeeds : forall a b buf, bytes buf -> Z.of_nat (length buf * 138 / 100 + 1) <= INT_MAX ->
  exists len text, outcome (to_base58_l (Msg, a) (Str, b) buf) = Ok (len, text).
Proof.
  intros a b buf Hb H. unfold outcome. rewrite to_base58_l_erase. destruct (C24_to_base58_bounds buf Hb H) as (t & E & _). exists (length t), t. exact E.
Qed.
Print Assumptions C141_base58_succeeds.
