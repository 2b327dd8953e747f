(** Properties C91-C93: memory and scratch buffers of Base58, Base58Check and address decoding.
    [w_mem] is the caller's memory, [w_blocks] the live scratch blocks (heap blocks and stack arrays), [w_dead] the scratch
    blocks given up so far with what they contained then.  [sane e]: stack arrays have 128 bytes and malloc returns
    blocks of the requested size; [mallocs e n]: it does return a block for requests of at most [n] bytes. *)
From Verif Require Import Base M_Endian L_Endian S_Mem L_Mem M_Base58 M_Base58Check S_Base58 S_Base58Check L_Base58 L_Base58Check M_Address L_Address.
From Verif Require Import S_Scratch M_Scratch P_Mem L_Scratch L_Scratch2 P_Base58 P_Base58Check P_Address.

(** A call gave up only clean scratch storage and left nothing allocated: [clean] storage is wiped, or was never written. *)
Definition scratch_ok (e : env) (w w' : world) : Prop :=
  w_blocks w' = w_blocks w /\ exists dead, w_dead w' = dead ++ w_dead w /\ Forall (clean e) dead.

(** [clean] means what it says: a byte of a given up block that differs from what the block contained at first is 0xCC. *)
Lemma clean_meaning : forall e k d, sane e -> clean e (k, d) -> forall i x, nth_error d i = Some x ->
  x = 204 \/ nth_error (e_stack e k) i = Some x.
Proof.
  intros e k d _ [H|H] i x Hi; cbn [fst snd] in H.
  - left. unfold all_wiped in H. rewrite Forall_forall in H. apply H. eapply nth_error_In, Hi.
  - unfold wiped_or_untouched in H. clear - H Hi. revert i Hi.
    induction H as [|b a lb la Hab H IH]; intros i Hi; [destruct i; discriminate|].
    destruct i as [|i]; cbn [nth_error] in *; [|apply IH, Hi].
    injection Hi as <-. destruct Hab as [->| ->]; auto.
Qed.

(** ** C91.  The output may overlap the input in any way. *)
Theorem C91_to_base58_memory : forall e w buf n str, sane e -> mallocs e INT_MAX -> bytes (w_mem w) ->
  (buf + n <= length (w_mem w))%nat -> (str + to_base58_length n <= length (w_mem w))%nat ->
  Z.of_nat (n * 138 / 100 + 1) <= INT_MAX ->
  exists text w', to_base58_w e (Caller buf) n str w = Ok (length text, w') /\
    is_base58 (region (w_mem w) buf n) text /\ w_mem w' = written (w_mem w) str text /\ scratch_ok e w w'.
Proof.
  intros e w buf n str Se Ma Hb Hn Hs Hi. set (input := region (w_mem w) buf n).
  assert (Li : length input = n) by (apply region_length, Hn). assert (Bi : bytes input) by (apply region_bytes, Hb).
  destruct (C24_to_base58_bounds input Bi) as (text & E & L); [rewrite Li; exact Hi|]. rewrite Li in L.
  destruct (C23_to_base58_numeral _ _ _ Bi E) as [_ V].
  destruct (to_base58_w_ok INT_MAX e (Caller buf) n str w input text (length text) Se Ma) as (d & E' & C); try assumption.
  { rewrite Li. exact Hi. }
  { unfold p_read. apply slice_ok, Hn. }
  { lia. }
  exists text. eexists. split; [exact E'|]. split; [exact V|]. split; [reflexivity|]. split; [reflexivity|].
  exists [(w_next w, d)]. split; [reflexivity|]. constructor; [exact C|constructor].
Qed.
Print Assumptions C91_to_base58_memory.

(** Decoding, wherever the output is (also over the text itself): the same result as [C25] says, at [buf], on
    every return path. *)
Theorem C91_from_base58_memory : forall e w str text rest buf n out, sane e -> mallocs e INT_MAX ->
  skipn str (w_mem w) = text ++ 0 :: rest -> Forall (fun c => 0 < c < 128) text -> Z.of_nat (length text) * 733 <= INT_MAX ->
  from_base58 (text ++ 0 :: rest) (length text) = Ok (n, out) -> (buf + n <= length (w_mem w))%nat ->
  exists w', from_base58_w e str (length text) buf w = Ok (n, w') /\
    w_mem w' = written (w_mem w) buf out /\ scratch_ok e w w'.
Proof.
  intros e w str text rest buf n out Se Ma Ht Ha Hl H Hb. pose proof (from_base58_size _ _ _ _ H) as ->.
  rewrite <- Ht in H.
  destruct (from_base58_w_ok INT_MAX e str (length text) buf w (length out) out Se Ma) as (d & E & C); try assumption.
  { rewrite Ht. apply scratch_size_text; change INT_MAX with 2147483647 in *; dlia. }
  eexists. split; [exact E|]. split; [reflexivity|]. split; [reflexivity|].
  exists [(w_next w, d)]. split; [reflexivity|]. constructor; [exact C|constructor].
Qed.
Print Assumptions C91_from_base58_memory.

Theorem C91_to_base58_check_memory : forall e w buf n prefix pn str, sane e -> mallocs e INT_MAX -> bytes (w_mem w) ->
  (buf + n <= length (w_mem w))%nat -> (prefix + pn <= length (w_mem w))%nat ->
  (str + to_base58_check_length n pn <= length (w_mem w))%nat -> Z.of_nat (to_base58_check_length n pn) <= INT_MAX ->
  exists text w', to_base58_check_w e buf n prefix pn str w = Ok (length text, w') /\
    is_base58check (region (w_mem w) prefix pn ++ region (w_mem w) buf n) text /\
    w_mem w' = written (w_mem w) str text /\ scratch_ok e w w'.
Proof.
  intros e w buf n prefix pn str Se Ma Hb H1 H2 Hs Hi.
  set (B := region (w_mem w) buf n). set (P := region (w_mem w) prefix pn).
  assert (LB : length B = n) by (apply region_length, H1). assert (LP : length P = pn) by (apply region_length, H2).
  destruct (C32_base58check_encode B P) as (text & E & V & L); try (apply region_bytes, Hb); [rewrite LB, LP; exact Hi|].
  rewrite LB, LP in L.
  assert (Hsz : (n + pn + 4 <= to_base58_check_length n pn)%nat /\ ((n + pn + 4) * 138 / 100 + 1 <= to_base58_check_length n pn)%nat).
  { unfold to_base58_check_length, to_base58_length. replace (n + 4 + pn)%nat with (n + pn + 4)%nat by lia. clear. split; dlia. }
  destruct (to_base58_check_w_ok INT_MAX e buf n prefix pn str w text (length text) Se Ma) as (d1 & d2 & E' & C1 & C2); try assumption; try lia.
  exists text. eexists. split; [exact E'|]. split; [exact V|]. split; [reflexivity|]. split; [reflexivity|].
  exists [(w_next w, d1); (S (w_next w), d2)]. split; [reflexivity|].
  constructor; [exact C1|constructor; [exact C2|constructor]].
Qed.
Print Assumptions C91_to_base58_check_memory.

(** Decoding with checksum: [out] includes the four checksum bytes, which are stored too; a wrong checksum is reported after storing. *)
Theorem C91_from_base58_check_memory : forall e w str text rest buf n out, sane e -> mallocs e INT_MAX ->
  skipn str (w_mem w) = text ++ 0 :: rest -> Forall (fun c => 0 < c < 128) text -> Z.of_nat (length text) * 733 <= INT_MAX ->
  from_base58_check (text ++ 0 :: rest) (length text) = Ok (n, out) -> (buf + length out <= length (w_mem w))%nat ->
  exists w', from_base58_check_w e str (length text) buf w = Ok (n, w') /\
    w_mem w' = written (w_mem w) buf out /\ scratch_ok e w w'.
Proof.
  intros e w str text rest buf n out Se Ma Ht Ha Hl H Hb. rewrite <- Ht in H.
  destruct (from_base58_check_w_ok INT_MAX e str (length text) buf w n out Se Ma) as (d & E & C); try assumption.
  { rewrite Ht. apply scratch_size_text; change INT_MAX with 2147483647 in *; dlia. }
  eexists. split; [exact E|]. split; [reflexivity|]. split; [reflexivity|].
  exists [(w_next w, d)]. split; [reflexivity|]. constructor; [exact C|constructor].
Qed.
Print Assumptions C91_from_base58_check_memory.

(** Encode, then decode over the text itself. *)
Theorem C91_base58_roundtrip_in_place : forall e w buf n str, sane e -> mallocs e INT_MAX -> bytes (w_mem w) ->
  (buf + n <= length (w_mem w))%nat -> (str + to_base58_length n <= length (w_mem w))%nat ->
  Z.of_nat (to_base58_length n) * 733 <= INT_MAX ->
  exists len w1, to_base58_w e (Caller buf) n str w = Ok (len, w1) /\
    forall w2, p_write (str + len) [0] w1 = Ok w2 ->
    exists w3, from_base58_w e str len str w2 = Ok (n, w3) /\
      region (w_mem w3) str n = region (w_mem w) buf n /\ scratch_ok e w w3.
Proof.
  intros e w buf n str Se Ma Hb Hn Hs Hi. set (input := region (w_mem w) buf n).
  assert (Li : length input = n) by (apply region_length, Hn). assert (Bi : bytes input) by (apply region_bytes, Hb).
  destruct (C91_to_base58_memory e w buf n str) as (text & w1 & E & V & M1 & B1 & dead1 & D1 & F1); try assumption.
  { unfold to_base58_length in Hi. change INT_MAX with 2147483647 in *. clear - Hi. dlia. }
  exists (length text), w1. split; [exact E|]. intros w2 Hw.
  destruct (C26_base58_roundtrip input [] Bi) as (text' & Et & _); [rewrite Li; exact Hi|].
  destruct (C23_to_base58_numeral _ _ _ Bi Et) as [_ V'].
  assert (text' = text) by (eapply is_base58_fun; eassumption). subst text'.
  destruct (C24_to_base58_bounds input Bi) as (t2 & E2 & L).
  { rewrite Li. unfold to_base58_length in Hi. change INT_MAX with 2147483647 in *. clear - Hi. dlia. }
  rewrite Et in E2. injection E2 as _ <-. rewrite Li in L.
  unfold p_write in Hw. rewrite M1 in Hw.
  destruct (store (written (w_mem w) str text) (str + length text) [0]) as [m2| |] eqn:Es; try discriminate. cbn [bind] in Hw.
  injection Hw as <-.
  unfold store in Es. destruct (_ <=? _)%nat eqn:Le in Es; [|discriminate]. apply Nat.leb_le in Le. cbn [length] in Le.
  rewrite written_length in Le by lia. injection Es as Es.
  assert (M2 : m2 = written (w_mem w) str (text ++ [0])).
  { rewrite <- written_app by (cbn [length]; lia). symmetry. exact Es. }
  clear Es. subst m2.
  pose proof (is_base58_alphabet _ _ V) as A.
  assert (Ltn : (n <= length text)%nat).
  { destruct (C26_base58_roundtrip input [] Bi) as (t3 & Et3 & Ef); [rewrite Li; exact Hi|].
    rewrite Et in Et3. injection Et3 as _ <-.
    destruct (C28_from_base58_size_partial text [] (length input) input) as (_ & Q & _); [| |exact Ef|lia].
    - eapply Forall_impl; [|exact A]. cbv beta. unfold is_ascii. tauto.
    - lia. }
  destruct (C26_base58_roundtrip input (skipn (str + length (text ++ [0])) (w_mem w)) Bi) as (t4 & Et4 & Ef4); [rewrite Li; exact Hi|].
  rewrite Et in Et4. injection Et4 as _ <-.
  assert (LT : (str + length (text ++ [0%Z]) <= length (w_mem w))%nat) by (rewrite app_length; cbn [length]; lia).
  set (w2 := mkWorld (written (w_mem w) str (text ++ [0])) (w_blocks w1) (w_next w1) (w_dead w1)).
  assert (Sk : skipn str (w_mem w2) = text ++ 0 :: skipn (str + length (text ++ [0])) (w_mem w)).
  { unfold w2. cbn [w_mem]. rewrite skipn_written by exact LT. rewrite <- app_assoc. reflexivity. }
  destruct (C91_from_base58_memory e w2 str text _ str (length input) input Se Ma Sk) as (w3 & E3 & M3 & B3 & dead3 & D3 & F3).
  - eapply Forall_impl; [|exact A]. cbv beta. unfold is_ascii. tauto.
  - lia.
  - exact Ef4.
  - unfold w2. cbn [w_mem]. rewrite written_length by exact LT. lia.
  - exists w3. rewrite Li in E3. split; [exact E3|]. split.
    + rewrite M3. rewrite <- Li at 1. apply region_written. unfold w2. cbn [w_mem]. rewrite written_length by exact LT. lia.
    + split; [rewrite B3; exact B1|]. exists (dead3 ++ dead1). rewrite D3. unfold w2. cbn [w_dead]. rewrite D1, app_assoc.
      split; [reflexivity|]. apply Forall_app; auto.
Qed.
Print Assumptions C91_base58_roundtrip_in_place.

(** ** C92.  Address decoding: what it does to memory is what the byte level theorems (C40-C50) say, at [out], provided the output
    does not overlap the text; whatever the classification, nothing stays allocated. *)
Theorem C92_address_decode_memory : forall e w str text rest out out_size p r, sane e -> mallocs e INT_MAX ->
  skipn str (w_mem w) = text ++ 0 :: rest -> Z.of_nat (length text) * 733 <= INT_MAX ->
  address_decode (text ++ 0 :: rest) (length text) out_size p (e_stack e (S (w_next w))) = Ok r ->
  (out + length (a_out r) <= length (w_mem w))%nat -> disjoint out (length (a_out r)) str (length text + 1) ->
  exists w', address_decode_w e str (length text) out out_size p w = Ok (a_kind r, a_size r, w') /\
    w_mem w' = written (w_mem w) out (a_out r) /\ w_blocks w' = w_blocks w.
Proof.
  intros e w str text rest out out_size p r Se Ma Ht Hl H Hb Hd.
  apply (address_decode_w_ok INT_MAX e str text rest); try assumption.
  - apply scratch_size_text; change INT_MAX with 2147483647 in *; dlia.
  - unfold disjoint in Hd. lia.
Qed.
Print Assumptions C92_address_decode_memory.

(** In particular a terminated text of at most 174 characters (every address) is decoded without asking malloc for memory
    that is used: the result does not depend on whether malloc succeeds. *)
Theorem C92_address_decode_no_malloc : forall e w str text rest out out_size p r, sane e -> (length text <= 174)%nat ->
  skipn str (w_mem w) = text ++ 0 :: rest ->
  address_decode (text ++ 0 :: rest) (length text) out_size p (e_stack e (S (w_next w))) = Ok r ->
  (out + length (a_out r) <= length (w_mem w))%nat -> disjoint out (length (a_out r)) str (length text + 1) ->
  exists w', address_decode_w e str (length text) out out_size p w = Ok (a_kind r, a_size r, w') /\
    w_mem w' = written (w_mem w) out (a_out r) /\ w_blocks w' = w_blocks w.
Proof.
  intros e w str text rest out out_size p r Se Hl Ht H Hb Hd.
  apply (address_decode_w_ok 128 e str text rest); try assumption.
  - apply mallocs_small. lia.
  - apply scratch_size_text; [lia|]. clear - Hl. dlia.
  - unfold disjoint in Hd. lia.
Qed.
Print Assumptions C92_address_decode_no_malloc.

(** ** C93.  Out of memory.  What holds: up to 92 bytes to encode, 88 with a checksum, or 174 characters to decode, no heap memory is needed. *)
Theorem C93_to_base58_no_malloc_partial : forall e w buf n str, sane e -> bytes (w_mem w) -> (n <= 92)%nat ->
  (buf + n <= length (w_mem w))%nat -> (str + to_base58_length n <= length (w_mem w))%nat ->
  exists text w', to_base58_w e (Caller buf) n str w = Ok (length text, w') /\
    is_base58 (region (w_mem w) buf n) text /\ w_mem w' = written (w_mem w) str text /\ scratch_ok e w w'.
Proof.
  intros e w buf n str Se Hb Hn92 Hn Hs. set (input := region (w_mem w) buf n).
  assert (Li : length input = n) by (apply region_length, Hn). assert (Bi : bytes input) by (apply region_bytes, Hb).
  assert (H128 : Z.of_nat (n * 138 / 100 + 1) <= 128) by (clear - Hn92; dlia).
  destruct (C24_to_base58_bounds input Bi) as (text & E & L); [rewrite Li; change INT_MAX with 2147483647; lia|]. rewrite Li in L.
  destruct (C23_to_base58_numeral _ _ _ Bi E) as [_ V].
  destruct (to_base58_w_ok 128 e (Caller buf) n str w input text (length text) Se) as (d & E' & C); try assumption.
  { apply mallocs_small. lia. }
  { rewrite Li. exact H128. }
  { unfold p_read. apply slice_ok, Hn. }
  { lia. }
  exists text. eexists. split; [exact E'|]. split; [exact V|]. split; [reflexivity|]. split; [reflexivity|].
  exists [(w_next w, d)]. split; [reflexivity|]. constructor; [exact C|constructor].
Qed.
Print Assumptions C93_to_base58_no_malloc_partial.

Theorem C93_to_base58_check_no_malloc_partial : forall e w buf n prefix pn str, sane e -> bytes (w_mem w) -> (n + pn <= 88)%nat ->
  (buf + n <= length (w_mem w))%nat -> (prefix + pn <= length (w_mem w))%nat ->
  (str + to_base58_check_length n pn <= length (w_mem w))%nat ->
  exists text w', to_base58_check_w e buf n prefix pn str w = Ok (length text, w') /\
    is_base58check (region (w_mem w) prefix pn ++ region (w_mem w) buf n) text /\
    w_mem w' = written (w_mem w) str text /\ scratch_ok e w w'.
Proof.
  intros e w buf n prefix pn str Se Hb H88 H1 H2 Hs.
  set (B := region (w_mem w) buf n). set (P := region (w_mem w) prefix pn).
  assert (LB : length B = n) by (apply region_length, H1). assert (LP : length P = pn) by (apply region_length, H2).
  destruct (C32_base58check_encode B P) as (text & E & V & L); try (apply region_bytes, Hb).
  { rewrite LB, LP. unfold to_base58_check_length, to_base58_length. change INT_MAX with 2147483647. clear - H88. dlia. }
  rewrite LB, LP in L.
  destruct (to_base58_check_w_ok 128 e buf n prefix pn str w text (length text) Se) as (d1 & d2 & E' & C1 & C2); try assumption; try lia;
    try (apply mallocs_small; lia); try (change INT_MAX with 2147483647; clear - H88; dlia).
  exists text. eexists. split; [exact E'|]. split; [exact V|]. split; [reflexivity|]. split; [reflexivity|].
  exists [(w_next w, d1); (S (w_next w), d2)]. split; [reflexivity|].
  constructor; [exact C1|constructor; [exact C2|constructor]].
Qed.
Print Assumptions C93_to_base58_check_no_malloc_partial.

Theorem C93_from_base58_no_malloc_partial : forall e w str text rest buf n out, sane e -> (length text <= 174)%nat ->
  skipn str (w_mem w) = text ++ 0 :: rest -> Forall (fun c => 0 < c < 128) text ->
  from_base58 (text ++ 0 :: rest) (length text) = Ok (n, out) -> (buf + n <= length (w_mem w))%nat ->
  exists w', from_base58_w e str (length text) buf w = Ok (n, w') /\
    w_mem w' = written (w_mem w) buf out /\ scratch_ok e w w'.
Proof.
  intros e w str text rest buf n out Se Hl Ht Ha H Hb. pose proof (from_base58_size _ _ _ _ H) as ->.
  rewrite <- Ht in H.
  destruct (from_base58_w_ok 128 e str (length text) buf w (length out) out Se) as (d & E & C); try assumption.
  { apply mallocs_small. lia. }
  { rewrite Ht. apply scratch_size_text; [lia|]. clear - Hl. dlia. }
  eexists. split; [exact E|]. split; [reflexivity|]. split; [reflexivity|].
  exists [(w_next w, d)]. split; [reflexivity|]. constructor; [exact C|constructor].
Qed.
Print Assumptions C93_from_base58_no_malloc_partial.

(** The claim is false beyond: when malloc returns NULL, encoding 93 or more bytes (the first one not 0), with or
    without a checksum, is undefined (memset through NULL) instead of being reported. *)
Theorem C93_out_of_memory_refuted : forall e w buf n str, (forall k m, e_malloc e k m = None) ->
  (buf + n <= length (w_mem w))%nat -> (93 <= n)%nat -> Z.of_nat (n * 138 / 100 + 1) <= INT_MAX -> nth_error (w_mem w) buf <> Some 0 ->
  to_base58_w e (Caller buf) n str w = UB.
Proof.
  intros e w buf n str M H Hn Hi Hz. unfold to_base58_w, p_read. rewrite slice_ok by exact H. cbn [bind].
  assert (E : exists x r, firstn n (skipn buf (w_mem w)) = x :: r /\ x <> 0 /\ length (x :: r) = n).
  { destruct (nth_error (w_mem w) buf) as [x|] eqn:E; [|apply nth_error_None in E; lia].
    rewrite (skipn_nth _ _ _ E). destruct n as [|n]; [lia|]. exists x, (firstn n (skipn (buf + 1) (w_mem w))). split; [reflexivity|].
    split; [congruence|]. cbn [length]. rewrite firstn_length, skipn_length. lia. }
  destruct E as (x & r & -> & Hx & L). cbn [skip_zeroes]. destruct (Z.eqb_spec x 0) as [|_]; [congruence|]. rewrite L.
  replace (Z.of_nat (n * 138 / 100 + 1) <=? INT_MAX) with true by (symmetry; apply Z.leb_le; exact Hi). cbn [c_defined bind].
  unfold declare_buffer. replace (Z.of_nat (n * 138 / 100 + 1) <=? 128) with false by (symmetry; apply Z.leb_gt; clear - Hn; dlia).
  rewrite M. reflexivity.
Qed.
Print Assumptions C93_out_of_memory_refuted.

(** ** The hypotheses can be met: a process whose malloc works, one whose malloc always fails. *)
Definition plain_env : env := mkEnv (fun k n => Some (repeat 7 (Z.to_nat n))) (fun k => repeat 9 128).
Definition broke_env : env := mkEnv (fun k n => None) (fun k => repeat 9 128).
Example plain_env_ok : sane plain_env /\ mallocs plain_env INT_MAX /\ sane broke_env.
Proof.
  split; [|split].
  - split; [reflexivity|]. intros k n d H. injection H as <-. apply repeat_length.
  - intros k m _ H. discriminate H.
  - split; [reflexivity|]. intros k n d H. discriminate H.
Qed.
(** Three bytes at 0 encoded to 10, then decoded over themselves; the stack arrays are wiped as far as they were used. *)
Definition small_world : world := mkWorld ([0; 255; 1] ++ repeat 5 20) [] 0 [].
Example C91_ex : match to_base58_w broke_env (Caller 0) 3 10 small_world with
  | Ok (n, w) => (n =? 4)%nat && bytes_eqb (region (w_mem w) 10 4) [49; 76; 81; 89] && (length (w_blocks w) =? 0)%nat &&
                 bytes_eqb (map (fun x => nth x (snd (hd (0%nat, []) (w_dead w))) 0) [0; 1; 2; 3; 4]%nat) [204; 204; 204; 9; 9]
  | _ => false end = true.
Proof. vm_compute. reflexivity. Qed.
(** A hundred bytes: a heap block, wiped and freed; and with a failing malloc, undefined. *)
Definition big_world : world := mkWorld (repeat 1 100 ++ repeat 5 140) [] 0 [].
Example C91_ex_heap : match to_base58_w plain_env (Caller 0) 100 100 big_world with
  | Ok (n, w) => (length (w_blocks w) =? 0)%nat && (length (w_dead w) =? 1)%nat && forallb (Z.eqb 204) (snd (hd (0%nat, []) (w_dead w)))
  | _ => false end = true /\ to_base58_w broke_env (Caller 0) 100 100 big_world = UB.
Proof. split; vm_compute; reflexivity. Qed.
Example C93_ex : (93 <= 100)%nat /\ nth_error (w_mem big_world) 0 <> Some 0 /\ (0 + 100 <= length (w_mem big_world))%nat.
Proof. repeat split; vm_compute; [lia|congruence|lia]. Qed.
(** "1Wh4bh" (C49) at 0, decoded to 10: an empty public key address. *)
Example C92_ex : match address_decode_w broke_env 0 6 10 20 mainnet (mkWorld ([49;87;104;52;98;104;0] ++ repeat 5 40) [] 0 []) with
  | Ok (PUBKEY_ADDRESS, n, w) => (n =? 0)%nat && (length (w_blocks w) =? 0)%nat
  | _ => false end = true.
Proof. vm_compute. reflexivity. Qed.
