(** Property theorems C106, C107: the random source with the resources it takes from the system, on Unix and on Windows. *)
From Verif Require Import Base M_Endian L_Endian M_Random S_Random P_Random M_Sys L_Mem S_Mem L_Overlap.

(** A successful request for [n] bytes stores exactly [n] bytes. *)
Definition gen_contract (w : win) : Prop := forall h n data, win_gen w h n = Some data -> length data = n.

Lemma use_head h fd : use (fd :: h) fd = Ok tt.
Proof. unfold use. cbn [existsb]. rewrite Z.eqb_refl. reflexivity. Qed.
Lemma release_head h fd : ~ In fd h -> release (fd :: h) fd = Ok h.
Proof.
  intros H. unfold release. rewrite use_head. cbn [bind filter]. rewrite Z.eqb_refl. cbn [negb]. f_equal.
  induction h as [|x h IH]; [reflexivity|]. cbn [filter In] in *. destruct (Z.eqb_spec x fd); [tauto|]. cbn [negb]. f_equal. apply IH. tauto.
Qed.
Lemma loop_fd o h fd : forall fuel i mem n, rand_loop_fd fuel o (fd :: h) fd i mem n = rand_loop fuel o i mem n.
Proof.
  induction fuel as [|fuel IH]; intros i mem n; cbn [rand_loop_fd rand_loop]; destruct (n =? 0)%nat; try reflexivity.
  rewrite use_head. cbn [bind]. destruct (os_read o i n); [|reflexivity]. destruct (store mem 0 l) as [m| |]; cbn [bind]; [|reflexivity|reflexivity].
  cbv zeta. destruct (_ <=? _); [reflexivity|]. apply IH.
Qed.

(** ** C106 *)

(** On Unix a call behaves as described by C80 and C81, uses no descriptor that is not open, and when it returns the process holds exactly
    the descriptors it held before: for every schedule of the system, every size (also 0), and whatever descriptor open() delivers. *)
Theorem C106_unix_descriptors : forall fuel o fd h mem n, ~ In fd h ->
  os_rand_unix fuel o fd h mem n =
    match os_rand_bytes fuel o mem n with
    | Ok (Returned mem') => Ok (Returned (mem', h))
    | Ok Fatal => Ok Fatal
    | Ok Running => Ok Running
    | UB => UB
    | Abort => Abort
    end.
Proof.
  intros fuel o fd h mem n H. unfold os_rand_unix, os_rand_bytes. destruct (os_open o); cbn [negb]; [|reflexivity]. cbv zeta.
  rewrite loop_fd. destruct (rand_loop fuel o 0 mem n) as [[m| |]| |]; cbn [bind]; try reflexivity. rewrite release_head by exact H. reflexivity.
Qed.
Print Assumptions C106_unix_descriptors.

Theorem C106_windows_handles : forall w h mem n r, (forall hp, win_open w = Some hp -> ~ In hp h) -> gen_contract w ->
  (n <= length mem)%nat ->
  r = os_rand_bcrypt w h mem n \/ r = os_rand_wincrypt w h mem n ->
  (r = Ok Fatal /\ (win_open w = None \/ exists hp, win_open w = Some hp /\ win_gen w hp (to_ulong n) = None)) \/
  (exists mem', r = Ok (Returned (mem', h))).
Proof.
  intros w h mem n r Hh Hg Hn Hr.
  assert (E : os_rand_wincrypt w h mem n = os_rand_bcrypt w h mem n) by reflexivity. rewrite E in Hr. assert (R : r = os_rand_bcrypt w h mem n) by tauto. clear E Hr. subst r.
  unfold os_rand_bcrypt. destruct (win_open w) as [hp|] eqn:Eo; [|left; auto]. cbv zeta. rewrite use_head. cbn [bind].
  destruct (win_gen w hp (to_ulong n)) as [data|] eqn:Eg; [|left; split; [reflexivity|right; eauto]].
  apply Hg in Eg. assert (L : (length data <= n)%nat) by (rewrite Eg; unfold to_ulong; apply Nat2Z.inj_le; rewrite Z2Nat.id by (apply Z.mod_pos_bound; lia); apply Z.mod_le; lia).
  rewrite store_ok by lia. cbn [bind]. rewrite release_head by (now apply Hh). cbn [bind]. right. eauto.
Qed.
Print Assumptions C106_windows_handles.

(** A process that calls the random source any number of times: [steps] is what happens at each call (system behaviour, descriptor,
    buffer, size); [None]: a call did not return. *)
Fixpoint calls (h : held) (steps : list (os * Z * list Z * nat)) : res (option held) :=
  match steps with
  | [] => Ok (Some h)
  | (o, fd, mem, n) :: t =>
      r <- os_rand_unix n o fd h mem n ;;
      match r with Returned (_, h') => calls h' t | _ => Ok None end
  end.

(** Descriptors do not pile up: after any number of calls the process holds what it held at the start, or it was stopped. *)
Theorem C106_no_leak : forall steps h,
  Forall (fun s => let '(o, fd, mem, n) := s in read_contract o /\ ~ In fd h /\ (n <= length mem)%nat /\ Z.of_nat n < 2 ^ 64) steps ->
  calls h steps = Ok (Some h) \/ calls h steps = Ok None.
Proof.
  induction steps as [|[[[o fd] mem] n] t IH]; intros h F; cbn [calls]; [auto|].
  apply Forall_cons_iff in F. destruct F as [(RC & H & Hn & HZ) F]. rewrite C106_unix_descriptors by exact H.
  destruct (C81_os_rand_terminates o mem n n RC Hn HZ (le_n n)) as (A & B & C).
  destruct (os_open o) eqn:Eo.
  - destruct C as [C|C].
    + rewrite A by auto. cbn [bind]. auto.
    + destruct (B C eq_refl) as [mem' ->]. cbn [bind]. apply IH, F.
  - rewrite A by auto. cbn [bind]. auto.
Qed.
Print Assumptions C106_no_leak.

(** ** C107 *)

(** Below 4 GiB the Windows branches fill the whole buffer with what the generator delivered and touch nothing behind it. *)
Theorem C107_windows_fills_partial : forall w h mem n hp data, gen_contract w -> win_open w = Some hp -> ~ In hp h ->
  (n <= length mem)%nat -> Z.of_nat n < 2 ^ 32 -> win_gen w hp n = Some data ->
  os_rand_bcrypt w h mem n = Ok (Returned (data ++ skipn n mem, h)) /\ os_rand_wincrypt w h mem n = Ok (Returned (data ++ skipn n mem, h)).
Proof.
  intros w h mem n hp data Hg Eo Hh Hn HZ Eg. split; (unfold os_rand_bcrypt, os_rand_wincrypt; rewrite Eo; cbv zeta; rewrite use_head; cbn [bind];
  assert (T : to_ulong n = n) by (unfold to_ulong; rewrite Z.mod_small by lia; apply Nat2Z.id); rewrite T, Eg;
  apply Hg in Eg; rewrite store_ok by lia; cbn [bind firstn app]; rewrite release_head by exact Hh; cbn [bind]; rewrite Eg; reflexivity).
Qed.
Print Assumptions C107_windows_fills_partial.

(** From 4 GiB on they return normally although everything behind the first [n mod 2^32] bytes was never written. *)
Theorem C107_windows_large_refuted : forall w h mem n hp, gen_contract w -> win_open w = Some hp -> ~ In hp h ->
  (n <= length mem)%nat -> 2 ^ 32 <= Z.of_nat n -> (exists data, win_gen w hp (to_ulong n) = Some data) ->
  exists mem', os_rand_bcrypt w h mem n = Ok (Returned (mem', h)) /\ os_rand_wincrypt w h mem n = Ok (Returned (mem', h)) /\
    forall p, Z.of_nat n mod 2 ^ 32 <= Z.of_nat p -> nth_error mem' p = nth_error mem p.
Proof.
  intros w h mem n hp Hg Eo Hh Hn HZ [data Eg]. exists (written mem 0 data).
  assert (Ld : Z.of_nat (length data) = Z.of_nat n mod 2 ^ 32).
  { rewrite (Hg _ _ _ Eg). unfold to_ulong. rewrite Z2Nat.id; [reflexivity|]. apply Z.mod_pos_bound. lia. }
  assert (L : (length data <= n)%nat) by (assert (Z.of_nat n mod 2 ^ 32 <= Z.of_nat n) by (apply Z.mod_le; lia); lia).
  unfold os_rand_bcrypt, os_rand_wincrypt. rewrite Eo. cbv zeta. rewrite use_head. cbn [bind]. rewrite Eg.
  rewrite (store_at mem 0 data) by lia. cbn [bind]. rewrite release_head by exact Hh. cbn [bind]. split; [reflexivity|]. split; [reflexivity|].
  intros p Hp. rewrite nth_error_written by lia. rewrite <- Ld in Hp.
  destruct (Nat.leb_spec 0 p); destruct (Nat.ltb_spec p (0 + length data)); cbn [andb]; try reflexivity. lia.
Qed.
Print Assumptions C107_windows_large_refuted.

(** With MSVC the region is left zero, nothing else changes. *)
Theorem C107_cleanse_msvc : forall mem off size, (off + size <= length mem)%nat ->
  exists mem', cleanse_msvc mem off size = Ok mem' /\ length mem' = length mem /\
    forall p, ((off <= p < off + size)%nat -> nth_error mem' p = Some 0) /\
              (~ (off <= p < off + size)%nat -> nth_error mem' p = nth_error mem p).
Proof.
  intros mem off size H. unfold cleanse_msvc.
  rewrite store_at by (rewrite repeat_length; lia). cbn [bind]. rewrite store_at by (rewrite written_length; rewrite ?repeat_length; lia).
  rewrite written_twice by (rewrite ?repeat_length; lia). eexists. split; [reflexivity|]. split; [apply written_length; rewrite repeat_length; lia|].
  intros p. rewrite nth_error_written by (rewrite repeat_length; lia). rewrite repeat_length. split; intros Hp.
  - replace ((off <=? p)%nat && (p <? off + size)%nat) with true by lia. apply nth_error_repeat. lia.
  - replace ((off <=? p)%nat && (p <? off + size)%nat) with false by lia. reflexivity.
Qed.
Print Assumptions C107_cleanse_msvc.

(** ** Concrete cases *)
Definition demo_os : os := {| os_open := true; os_read := fun _ n => Some (repeat 7 (Nat.min n 20)) |}.
Example C106_ex : os_rand_unix 32 demo_os 5 [0; 1; 2] (repeat 0 32) 32 = Ok (Returned (repeat 7 20 ++ repeat 0 12, [0; 1; 2])).
Proof. reflexivity. Qed.
Example C106_ex_steps : calls [0; 1; 2] [(demo_os, 3, repeat 0 32, 32%nat); (demo_os, 3, repeat 0 8, 8%nat)] = Ok (Some [0; 1; 2]).
Proof. reflexivity. Qed.
Definition demo_win : win := {| win_open := Some 9; win_gen := fun _ n => Some (repeat 7 n) |}.
Example C107_ex : os_rand_bcrypt demo_win [4] (repeat 0 33) 32 = Ok (Returned (repeat 7 32 ++ [0], [4])).
Proof. reflexivity. Qed.
Lemma demo_gen n : win_gen demo_win 9 (to_ulong n) = Some (repeat 7 (to_ulong n)).
Proof. generalize (to_ulong n). intros k. reflexivity. Qed.
Example C107_ex_large : gen_contract demo_win /\ (forall n, exists data, win_gen demo_win 9 (to_ulong n) = Some data) /\ exists n, 2 ^ 32 <= Z.of_nat n.
Proof.
  split; [intros h n data [= <-]; apply repeat_length|]. split; [intros n; exists (repeat 7 (to_ulong n)); apply demo_gen|].
  exists (Z.to_nat (2 ^ 32)). rewrite Z2Nat.id; [apply Z.le_refl|apply Z.pow_nonneg; lia].
Qed.
