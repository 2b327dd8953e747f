(** Properties C80, C81 (OS random bytes) and C82 (cleanse). *)
From Verif Require Import Base M_Endian L_Endian M_Random S_Random.

Lemma ssize_to_int_small x : 0 <= x <= INT_MAX -> ssize_to_int x = x.
Proof. unfold ssize_to_int. change INT_MAX with 2147483647. change (2 ^ 31) with 2147483648. change (2 ^ 32) with 4294967296. intros. rewrite Z.mod_small; lia. Qed.

Lemma store0 mem bs : (length bs <= length mem)%nat -> store mem 0 bs = Ok (bs ++ skipn (length bs) mem).
Proof. intros H. rewrite store_ok by (cbn [Nat.add]; exact H). reflexivity. Qed.

(** One iteration for a read that obeys the contract. *)
Lemma rand_step fuel o i mem n data : read_contract o -> (0 < n)%nat -> Z.of_nat n < 2 ^ 64 -> (n <= length mem)%nat ->
  os_read o i n = Some data ->
  rand_loop (S fuel) o i mem n = rand_loop fuel o (S i) (data ++ skipn (length data) mem) (n - length data).
Proof.
  intros C Hn H64 Hm E. destruct (C _ _ _ E) as [L I]. cbn [rand_loop].
  replace (n =? 0)%nat with false by lia. rewrite E. rewrite store0 by lia. cbn [bind].
  rewrite ssize_to_int_small by lia. replace (Z.of_nat (length data) <=? 0) with false by lia.
  f_equal. unfold u64. rewrite Z.mod_small by lia. lia.
Qed.

Lemma rand_fail fuel o i mem n : (0 < n)%nat -> os_read o i n = None -> rand_loop (S fuel) o i mem n = Ok Fatal.
Proof. intros Hn E. cbn [rand_loop]. replace (n =? 0)%nat with false by lia. now rewrite E. Qed.

Lemma rand_zero fuel o i mem : rand_loop fuel o i mem 0 = Ok (Returned mem).
Proof. destruct fuel; reflexivity. Qed.

Lemma merged_length (data mem : list Z) : (length data <= length mem)%nat ->
  length (data ++ skipn (length data) mem) = length mem.
Proof. intros. rewrite app_length, skipn_length. lia. Qed.

(** The buffer after the reads [ds]: every read overwrites from the start. *)
Definition overwrite (mem : list Z) (ds : list (list Z)) : list Z :=
  fold_left (fun m d => d ++ skipn (length d) m) ds mem.

Lemma rand_reads o : read_contract o -> forall n i ds, reads o i n ds -> Z.of_nat n < 2 ^ 64 ->
  forall fuel mem, (n <= fuel)%nat -> (n <= length mem)%nat ->
  rand_loop fuel o i mem n = Ok (Returned (overwrite mem ds)).
Proof.
  intros C n i ds R. induction R as [i|i n data more Hn E R IH]; intros H64 fuel mem Hf Hm.
  - apply rand_zero.
  - destruct fuel as [|fuel]; [lia|]. destruct (C _ _ _ E) as [L I].
    rewrite (rand_step fuel o i mem n data C Hn H64 Hm E).
    rewrite IH; [reflexivity|lia|lia|rewrite merged_length; lia].
Qed.

Lemma rand_fails o : read_contract o -> forall n i, read_fails o i n -> Z.of_nat n < 2 ^ 64 ->
  forall fuel mem, (n <= fuel)%nat -> (n <= length mem)%nat -> rand_loop fuel o i mem n = Ok Fatal.
Proof.
  intros C n i R. induction R as [i n Hn E|i n data Hn E R IH]; intros H64 fuel mem Hf Hm;
    (destruct fuel as [|fuel]; [lia|]).
  - now apply rand_fail.
  - destruct (C _ _ _ E) as [L I]. rewrite (rand_step fuel o i mem n data C Hn H64 Hm E).
    apply IH; [lia|lia|rewrite merged_length; lia].
Qed.

(** Every schedule either delivers everything or fails at some read. *)
Lemma reads_or_fails o : read_contract o -> forall n i, (exists ds, reads o i n ds) \/ read_fails o i n.
Proof.
  intros C n. induction n as [n IH] using lt_wf_ind. intros i. destruct n as [|n']; [left; exists []; constructor|].
  destruct (os_read o i (S n')) as [data|] eqn:E; [|right; constructor; [lia|exact E]].
  destruct (C _ _ _ E) as [L I]. destruct (IH (S n' - length data)%nat ltac:(lia) (S i)) as [[ds R]|F].
  - left. exists (data :: ds). econstructor; eauto. lia.
  - right. eapply fails_later; eauto. lia.
Qed.

Lemma not_both o : forall n i ds, reads o i n ds -> read_fails o i n -> False.
Proof.
  intros n i ds R. induction R as [i|i n data more Hn E R IH]; intros F; inversion F; subst; try lia; congruence.
Qed.

Lemma reads_fun o : forall n i ds, reads o i n ds -> forall ds', reads o i n ds' -> ds = ds'.
Proof.
  intros n i ds R. induction R as [i|i n data more Hn E R IH]; intros ds' R'; inversion R'; subst; try lia; auto.
  assert (data0 = data) by congruence. subst. f_equal. auto.
Qed.

Lemma reads_sum o : read_contract o -> forall n i ds, reads o i n ds -> length (concat ds) = n.
Proof.
  intros C n i ds R. induction R as [i|i n data more Hn E R IH]; [reflexivity|].
  cbn [concat]. rewrite app_length, IH. destruct (C _ _ _ E). lia.
Qed.

Lemma overwrite_length mem ds : Forall (fun d => (length d <= length mem)%nat) ds -> length (overwrite mem ds) = length mem.
Proof.
  unfold overwrite. revert mem. induction ds as [|d ds IH]; intros mem F; [reflexivity|]. inversion F; subst. cbn [fold_left].
  rewrite IH; [now apply merged_length|]. rewrite merged_length by assumption. assumption.
Qed.

Lemma reads_le o : read_contract o -> forall n i ds, reads o i n ds -> Forall (fun d => (length d <= n)%nat) ds.
Proof.
  intros C n i ds R. induction R as [i|i n data more Hn E R IH]; constructor.
  - destruct (C _ _ _ E). lia.
  - eapply Forall_impl; [|exact IH]. cbv beta. intros. lia.
Qed.

(** Byte [p] of the result: the one of the last read that reaches [p], else the old one. *)
Lemma overwrite_nth ds : forall mem p, Forall (fun d => (length d <= length mem)%nat) ds -> (p < length mem)%nat ->
  (Forall (fun d => (length d <= p)%nat) ds /\ nth_error (overwrite mem ds) p = nth_error mem p) \/
  (exists before d after, ds = before ++ d :: after /\ (p < length d)%nat /\ Forall (fun d => (length d <= p)%nat) after /\
     nth_error (overwrite mem ds) p = nth_error d p).
Proof.
  unfold overwrite. induction ds as [|d ds IH]; intros mem p F Hp; [left; split; [constructor|reflexivity]|].
  inversion F; subst. cbn [fold_left].
  destruct (IH (d ++ skipn (length d) mem) p) as [[A E]|(before & d' & after & -> & Hd & A & E)].
  - rewrite merged_length by assumption. assumption.
  - rewrite merged_length by assumption. assumption.
  - rewrite E. destruct (Nat.lt_ge_cases p (length d)) as [Hlt|Hge].
    + right. exists [], d, ds. rewrite nth_error_app1 by assumption. auto.
    + left. split; [constructor; assumption|]. rewrite nth_error_app2 by assumption.
      assert (G : forall k (l : list Z) q, nth_error (skipn k l) q = nth_error l (k + q)).
      { induction k as [|k IHk]; intros l q; [reflexivity|]. destruct l; [now destruct q|]. apply IHk. }
      rewrite G. f_equal. lia.
  - right. exists (d :: before), d', after. auto.
Qed.

(** C81: for every schedule the call ends within [buf_size] reads; it calls the
    fatal handler exactly when the open or one of the reads fails. *)
Theorem C81_os_rand_terminates : forall o mem buf_size fuel,
  read_contract o -> (buf_size <= length mem)%nat -> Z.of_nat buf_size < 2 ^ 64 -> (buf_size <= fuel)%nat ->
  ((os_open o = false \/ read_fails o 0 buf_size) -> os_rand_bytes fuel o mem buf_size = Ok Fatal) /\
  ((exists ds, reads o 0 buf_size ds) -> os_open o = true -> exists mem', os_rand_bytes fuel o mem buf_size = Ok (Returned mem')) /\
  (read_fails o 0 buf_size \/ exists ds, reads o 0 buf_size ds).
Proof.
  intros o mem n fuel C Hm H64 Hf. unfold os_rand_bytes. split; [|split].
  - intros [E|F]; [now rewrite E|]. destruct (os_open o); [|reflexivity]. cbn [negb]. eapply rand_fails; eauto.
  - intros [ds R] E. rewrite E. cbn [negb]. eexists. eapply rand_reads; eauto.
  - destruct (reads_or_fails o C n 0) as [H|H]; auto.
Qed.
Print Assumptions C81_os_rand_terminates.

(** More fuel never changes the answer: the outcome is the one of the unbounded loop. *)
Theorem C81_os_rand_fuel_irrelevant : forall o mem buf_size fuel fuel',
  read_contract o -> (buf_size <= length mem)%nat -> Z.of_nat buf_size < 2 ^ 64 ->
  (buf_size <= fuel)%nat -> (buf_size <= fuel')%nat -> os_rand_bytes fuel o mem buf_size = os_rand_bytes fuel' o mem buf_size.
Proof.
  intros o mem n f f' C Hm H64 Hf Hf'. unfold os_rand_bytes. destruct (os_open o); [|reflexivity]. cbn [negb].
  destruct (reads_or_fails o C n 0) as [[ds R]|F].
  - rewrite !(rand_reads o C n 0 ds R) by assumption. reflexivity.
  - rewrite !(rand_fails o C n 0 F) by assumption. reflexivity.
Qed.
Print Assumptions C81_os_rand_fuel_irrelevant.

(** Outside that contract: a system whose read() can deliver two gigabytes or more at once (up to four) gets the fatal handler
    although the read succeeded, because the count is converted to [int]; never a silent return. *)
Theorem C81_oversized_read : forall o mem buf_size fuel data,
  os_open o = true -> os_read o 0 buf_size = Some data -> (0 < buf_size <= fuel)%nat -> (length data <= length mem)%nat ->
  2 ^ 31 <= Z.of_nat (length data) <= 2 ^ 32 -> os_rand_bytes fuel o mem buf_size = Ok Fatal.
Proof.
  intros o mem n fuel data Ho Hr Hn Hm Hl. unfold os_rand_bytes. rewrite Ho. cbn [negb].
  destruct fuel as [|fuel]; [lia|]. cbn [rand_loop]. replace (n =? 0)%nat with false by lia. rewrite Hr, store_ok by lia. cbn [bind]. cbv zeta.
  replace (ssize_to_int (Z.of_nat (length data)) <=? 0) with true; [reflexivity|]. symmetry. apply Z.leb_le. unfold ssize_to_int. dlia.
Qed.
Print Assumptions C81_oversized_read.

(** C80, the part that holds: a first read that delivers everything fills the
    whole buffer with what the generator produced and touches nothing behind it. *)
Theorem C80_os_rand_fills_partial : forall o mem buf_size fuel data,
  read_contract o -> os_open o = true -> (buf_size <= length mem)%nat -> Z.of_nat buf_size < 2 ^ 64 -> (buf_size <= fuel)%nat ->
  (0 < buf_size)%nat -> os_read o 0 buf_size = Some data -> length data = buf_size ->
  os_rand_bytes fuel o mem buf_size = Ok (Returned (data ++ skipn buf_size mem)).
Proof.
  intros o mem n fuel data C O Hm H64 Hf Hn E L. unfold os_rand_bytes. rewrite O. cbn [negb].
  rewrite (rand_reads o C n 0 [data]); auto; [cbn [overwrite fold_left]; unfold overwrite; cbn [fold_left]; now rewrite L|].
  econstructor; eauto. rewrite L, Nat.sub_diag. constructor.
Qed.
Print Assumptions C80_os_rand_fills_partial.

(** What holds for every schedule: byte [p] is the byte [p] of the last read that
    was longer than [p]; if no read was, it is what the caller had there. *)
Theorem C80_os_rand_bytes_partial : forall o mem buf_size fuel mem',
  read_contract o -> (buf_size <= length mem)%nat -> Z.of_nat buf_size < 2 ^ 64 -> (buf_size <= fuel)%nat ->
  os_rand_bytes fuel o mem buf_size = Ok (Returned mem') ->
  exists ds, reads o 0 buf_size ds /\ length mem' = length mem /\
    forall p, (p < length mem)%nat ->
      (Forall (fun d => (length d <= p)%nat) ds /\ nth_error mem' p = nth_error mem p) \/
      (exists before d after, ds = before ++ d :: after /\ (p < length d)%nat /\
         Forall (fun d => (length d <= p)%nat) after /\ nth_error mem' p = nth_error d p).
Proof.
  intros o mem n fuel mem' C Hm H64 Hf E. unfold os_rand_bytes in E. destruct (os_open o); [|discriminate]. cbn [negb] in E.
  destruct (reads_or_fails o C n 0) as [[ds R]|F]; [|rewrite (rand_fails o C n 0 F) in E by assumption; discriminate].
  rewrite (rand_reads o C n 0 ds R) in E by assumption. injection E as <-. exists ds.
  assert (F : Forall (fun d => (length d <= length mem)%nat) ds).
  { eapply Forall_impl; [|eapply reads_le; eauto]. cbv beta. intros. lia. }
  split; [exact R|]. split; [now apply overwrite_length|]. intros p Hp. now apply overwrite_nth.
Qed.
Print Assumptions C80_os_rand_bytes_partial.

(** C80 as stated is false: whenever the first read is short, the call returns
    normally although the last byte of the buffer was never written. *)
Theorem C80_os_rand_short_read_refuted : forall o mem buf_size fuel mem' data,
  read_contract o -> (buf_size <= length mem)%nat -> Z.of_nat buf_size < 2 ^ 64 -> (buf_size <= fuel)%nat ->
  (0 < buf_size)%nat -> os_read o 0 buf_size = Some data -> (length data < buf_size)%nat ->
  os_rand_bytes fuel o mem buf_size = Ok (Returned mem') ->
  nth_error mem' (buf_size - 1) = nth_error mem (buf_size - 1).
Proof.
  intros o mem n fuel mem' data C Hm H64 Hf Hn E L H.
  destruct (C80_os_rand_bytes_partial o mem n fuel mem' C Hm H64 Hf H) as (ds & R & _ & B).
  destruct (B (n - 1)%nat ltac:(lia)) as [[_ G]|(before & d & after & Hds & Hd & _)]; [exact G|exfalso].
  subst ds. inversion R as [|i n' data' more Hn' E' R' A0 A1 A2]; [lia|]. assert (data' = data) by congruence. clear A0 A1. subst.
  pose proof (reads_le o C _ _ _ R') as F. destruct (C _ _ _ E) as [Ld _].
  destruct before as [|d0 before].
  - injection A2 as -> ->. lia.
  - injection A2 as -> ->. apply Forall_app in F as [_ F]. inversion F; subst. lia.
Qed.
Print Assumptions C80_os_rand_short_read_refuted.

(** A generator that delivers at most 16 bytes per read obeys the contract, the
    call for a 32-byte buffer returns, and the upper half is the caller's memory. *)
Definition half_reader : os := {| os_open := true; os_read i n := if (n =? 0)%nat then None else Some (repeat (Z.of_nat i) (min n 16)) |}.
Example half_reader_contract : read_contract half_reader.
Proof.
  intros i n data. cbn. destruct (n =? 0)%nat eqn:E; [discriminate|]. intros H. injection H as <-.
  rewrite repeat_length. change INT_MAX with 2147483647. lia.
Qed.
Theorem C80_os_rand_fills_refuted : exists o mem mem', read_contract o /\ length mem = 32%nat /\
  os_rand_bytes 32 o mem 32 = Ok (Returned mem') /\ skipn 16 mem' = skipn 16 mem.
Proof.
  exists half_reader, (repeat 119 32), (repeat 1 16 ++ repeat 119 16).
  split; [exact half_reader_contract|]. split; [reflexivity|]. split; vm_compute; reflexivity.
Qed.
Print Assumptions C80_os_rand_fills_refuted.

(** Concrete cases of the hypotheses of C80/C81. *)
Example half_reader_reads : reads half_reader 0 32 [repeat 0 16; repeat 1 16].
Proof.
  eapply reads_step; [lia|reflexivity|]. eapply reads_step; [cbn; lia|reflexivity|]. constructor.
Qed.
Definition full_reader : os := {| os_open := true; os_read _ n := if (0 <? n)%nat && (Z.of_nat n <=? INT_MAX) then Some (repeat 7 n) else None |}.
Example full_reader_contract : read_contract full_reader.
Proof.
  intros i n data. cbn [full_reader os_read]. destruct ((0 <? n)%nat && (Z.of_nat n <=? INT_MAX)) eqn:E; [|discriminate].
  intros H. injection H as <-. rewrite repeat_length. apply andb_prop in E as [E1 E2].
  apply Nat.ltb_lt in E1. apply Z.leb_le in E2. lia.
Qed.
Example full_reader_fills : os_rand_bytes 5 full_reader [1;2;3;4;5;6;9] 5 = Ok (Returned [7;7;7;7;7;6;9]).
Proof. reflexivity. Qed.
Example failing_reader : read_fails {| os_open := true; os_read i n := if (i =? 1)%nat then None else Some (repeat 1 16) |} 0 32.
Proof. eapply fails_later; [lia|reflexivity|]. apply fails_now; [cbn; lia|reflexivity]. Qed.

(** C82: after fingera_cleanse(mem + off, size) exactly the bytes of the region hold the fill. *)
Theorem C82_cleanse : forall mem off size, (off + size <= length mem)%nat ->
  exists mem', cleanse mem off size = Ok mem' /\ length mem' = length mem /\
    forall p, ((off <= p < off + size)%nat -> nth_error mem' p = Some 204) /\
              (~ (off <= p < off + size)%nat -> nth_error mem' p = nth_error mem p).
Proof.
  intros mem off size H. unfold cleanse. rewrite store_ok by (rewrite repeat_length; exact H).
  eexists. split; [reflexivity|]. rewrite repeat_length. split.
  - rewrite !app_length, repeat_length, skipn_length, firstn_length. lia.
  - intros p. assert (Lf : length (firstn off mem) = off) by (rewrite firstn_length; lia). split; intros Hp.
    + rewrite nth_error_app2 by lia. rewrite nth_error_app1 by (rewrite repeat_length; lia).
      rewrite Lf. apply nth_error_repeat. lia.
    + destruct (Nat.lt_ge_cases p off).
      * rewrite nth_error_app1 by lia. clear - H0. revert mem p H0. induction off as [|off IH]; intros mem p H; [lia|].
        destruct mem; [now rewrite firstn_nil|]. destruct p; [reflexivity|]. cbn. apply IH. lia.
      * rewrite nth_error_app2 by lia. rewrite nth_error_app2 by (rewrite repeat_length; lia). rewrite Lf, repeat_length.
        assert (G : forall k (l : list Z) q, nth_error (skipn k l) q = nth_error l (k + q)).
        { induction k as [|k IHk]; intros l q; [reflexivity|]. destruct l; [now destruct q|]. apply IHk. }
        rewrite G. f_equal. lia.
Qed.
Print Assumptions C82_cleanse.
Example cleanse_case : cleanse [1;2;3;4;5] 1 3 = Ok [1;204;204;204;5].
Proof. reflexivity. Qed.
