(** Property C112 (what a fatal error prints, and that the process ends). *)
From Verif Require Import Base M_Endian L_Endian M_Random S_Random P_Random M_Error S_Error S_Base58 L_Base58.
From Coq Require Import String.
Open Scope Z_scope.
Open Scope list_scope.

Lemma dec_digits_spec fuel : forall n acc, 0 < n < 10 ^ Z.of_nat fuel ->
  exists ds, is_numeral 10 n ds /\ dec_digits fuel n acc = map (fun d => 48 + d) ds ++ acc.
Proof.
  induction fuel as [|fuel IH]; intros n acc H; [cbn in H; lia|].
  rewrite Nat2Z.inj_succ, Z.pow_succ_r in H by lia. cbn [dec_digits]. cbv zeta.
  destruct (n / 10 =? 0) eqn:E.
  - exists [n]. assert (n < 10) by dlia. split.
    + split; [repeat constructor; lia|]. split; [unfold numeral_value; cbn; lia|]. intros t Ht. injection Ht as -> _. lia.
    + cbn. rewrite Z.mod_small by lia. reflexivity.
  - destruct (IH (n / 10) ((48 + n mod 10) :: acc) ltac:(dlia)) as (ds & (F & V & NZ) & ->).
    exists (ds ++ [n mod 10]). split.
    + split; [apply Forall_app; split; [exact F|repeat constructor; dlia]|]. split.
      * rewrite numeral_value_app, V. unfold numeral_value. cbn [fold_left List.length]. change (10 ^ Z.of_nat 1) with 10. dlia.
      * intros t Ht. destruct ds as [|d ds]; [unfold numeral_value in V; cbn in V; dlia|]. injection Ht as -> _. eapply NZ; reflexivity.
    + rewrite map_app, <- app_assoc. reflexivity.
Qed.

Lemma print_dec_spec n : - 10 ^ 20 < n < 10 ^ 20 -> decimal n (print_dec n).
Proof.
  intros H. unfold print_dec. destruct (n <? 0) eqn:E.
  - destruct (dec_digits_spec 20 (- n) [] ltac:(change (Z.of_nat 20) with 20; lia)) as (ds & N & ->). rewrite app_nil_r.
    apply decimal_neg; [lia|exact N].
  - destruct (Z.eq_dec n 0) as [->|Hn]; [exact decimal_zero|].
    destruct (dec_digits_spec 20 n [] ltac:(change (Z.of_nat 20) with 20; lia)) as (ds & N & ->). rewrite app_nil_r.
    apply decimal_pos; [lia|exact N].
Qed.

Lemma decimal_fun n t1 t2 : decimal n t1 -> decimal n t2 -> t1 = t2.
Proof.
  intros H1 H2. inversion H1; inversion H2; subst; try lia; try reflexivity;
    repeat f_equal; eapply (is_numeral_unique 10); eauto; lia.
Qed.

Lemma arg_small n : - 2 ^ 63 <= n < 2 ^ 64 -> - 10 ^ 20 < n < 10 ^ 20.
Proof.
  change (2 ^ 63) with 9223372036854775808. change (2 ^ 64) with 18446744073709551616. change (10 ^ 20) with 100000000000000000000. lia.
Qed.
Lemma arg_small32 n : - 2 ^ 31 <= n < 2 ^ 31 -> - 10 ^ 20 < n < 10 ^ 20.
Proof. change (2 ^ 31) with 2147483648. change (10 ^ 20) with 100000000000000000000. lia. Qed.
Lemma arg_smalls n : - 2 ^ 63 <= n < 2 ^ 63 -> - 10 ^ 20 < n < 10 ^ 20.
Proof. change (2 ^ 63) with 9223372036854775808. change (10 ^ 20) with 100000000000000000000. lia. Qed.
Lemma arg_smallu n : 0 <= n < 2 ^ 64 -> - 10 ^ 20 < n < 10 ^ 20.
Proof. change (2 ^ 64) with 18446744073709551616. change (10 ^ 20) with 100000000000000000000. lia. Qed.

(** printf gives exactly the text the format and the arguments stand for. *)
Lemma c_printf_renders fmt args t : Forall arg_ok args -> renders fmt args t -> c_printf fmt args = Ok t.
Proof.
  intros A R. induction R as [args|c fmt args t Hc R IH|fmt args t R IH|n d fmt args t D R IH|s fmt args t R IH|n d fmt args t D R IH|n d fmt args t D R IH].
  - reflexivity.
  - assert (G : c_printf (c :: fmt) args = (t <- c_printf fmt args ;; Ok (c :: t))).
    { destruct c as [|p|p]; try reflexivity. do 6 (destruct p; try reflexivity). now destruct Hc. }
    rewrite G, (IH A). reflexivity.
  - change (lit "%%" ++ fmt) with (37 :: 37 :: fmt). cbn [c_printf]. rewrite (IH A). reflexivity.
  - inversion A as [|? ? A1 A2]; subst. change (lit "%d" ++ fmt) with (37 :: 100 :: fmt). cbn [c_printf]. rewrite (IH A2). cbn [bind].
    rewrite (decimal_fun n d (print_dec n)); [reflexivity|exact D|]. apply print_dec_spec, arg_small32, A1.
  - inversion A as [|? ? A1 A2]; subst. change (lit "%s" ++ fmt) with (37 :: 115 :: fmt). cbn [c_printf]. rewrite (IH A2). reflexivity.
  - inversion A as [|? ? A1 A2]; subst. change (lit "%ld" ++ fmt) with (37 :: 108 :: 100 :: fmt). cbn [c_printf]. rewrite (IH A2). cbn [bind].
    rewrite (decimal_fun n d (print_dec n)); [reflexivity|exact D|]. apply print_dec_spec, arg_smalls, A1.
  - inversion A as [|? ? A1 A2]; subst. change (lit "%lu" ++ fmt) with (37 :: 108 :: 117 :: fmt). cbn [c_printf]. rewrite (IH A2). cbn [bind].
    rewrite (decimal_fun n d (print_dec n)); [reflexivity|exact D|]. apply print_dec_spec, arg_smallu, A1.
Qed.

(** The conversion back: a defined printf printed what the format stands for. *)
Lemma c_printf_sound n : forall fmt args t, (List.length fmt <= n)%nat -> Forall arg_ok args -> c_printf fmt args = Ok t -> renders fmt args t.
Proof.
  induction n as [|n IH]; intros fmt args t L A E.
  - destruct fmt; [|cbn in L; lia]. cbn in E. injection E as <-. constructor.
  - destruct fmt as [|c fmt]; [cbn in E; injection E as <-; constructor|]. cbn [List.length] in L.
    destruct (Z.eq_dec c 37) as [->|Hc].
    + assert (D : (exists r, fmt = 37 :: r) \/ (exists r, fmt = 100 :: r) \/ (exists r, fmt = 115 :: r) \/ (exists r, fmt = 108 :: 100 :: r) \/
                  (exists r, fmt = 108 :: 117 :: r)).
      { destruct fmt as [|x fmt]; [cbn in E; discriminate|].
        destruct (Z.eq_dec x 37) as [->|]; [eauto|]. destruct (Z.eq_dec x 100) as [->|]; [eauto|]. destruct (Z.eq_dec x 115) as [->|]; [eauto|].
        destruct (Z.eq_dec x 108) as [->|].
        - destruct fmt as [|y fmt]; [cbn in E; discriminate|].
          destruct (Z.eq_dec y 100) as [->|]; [eauto 8|]. destruct (Z.eq_dec y 117) as [->|]; [eauto 8|].
          exfalso. assert (G : c_printf (37 :: 108 :: y :: fmt) args = UB).
          { destruct y as [|p|p]; try reflexivity. do 7 (try (destruct p; try reflexivity)); now contradict n0 || now contradict n1 || now contradict n2 || now contradict n3 || now contradict n4. }
          rewrite G in E. discriminate.
        - exfalso. assert (G : c_printf (37 :: x :: fmt) args = UB).
          { destruct x as [|p|p]; try reflexivity. do 7 (try (destruct p; try reflexivity)); now contradict n0 || now contradict n1 || now contradict n2 || now contradict n3. }
          rewrite G in E. discriminate. }
      destruct D as [[r ->]|[[r ->]|[[r ->]|[[r ->]|[r ->]]]]]; cbn [c_printf] in E; cbn [List.length] in L.
      * apply bind_Ok in E as (t' & E1 & E2). injection E2 as <-. apply (renders_percent r). apply IH; [lia|exact A|exact E1].
      * destruct args as [|[k| | | |] args]; try discriminate. apply bind_Ok in E as (t' & E1 & E2). injection E2 as <-. inversion A as [|? ? A1 A2]; subst.
        apply (renders_d k (print_dec k) r). { apply print_dec_spec, arg_small32, A1. } apply IH; [lia|exact A2|exact E1].
      * destruct args as [|[ | | | |s] args]; try discriminate. apply bind_Ok in E as (t' & E1 & E2). injection E2 as <-. inversion A as [|? ? A1 A2]; subst.
        apply (renders_s s r). apply IH; [lia|exact A2|exact E1].
      * destruct args as [|[ | |k| |] args]; try discriminate. apply bind_Ok in E as (t' & E1 & E2). injection E2 as <-. inversion A as [|? ? A1 A2]; subst.
        apply (renders_ld k (print_dec k) r). { apply print_dec_spec, arg_smalls, A1. } apply IH; [lia|exact A2|exact E1].
      * destruct args as [|[ | | |k|] args]; try discriminate. apply bind_Ok in E as (t' & E1 & E2). injection E2 as <-. inversion A as [|? ? A1 A2]; subst.
        apply (renders_lu k (print_dec k) r). { apply print_dec_spec, arg_smallu, A1. } apply IH; [lia|exact A2|exact E1].
    + assert (G : c_printf (c :: fmt) args = (t <- c_printf fmt args ;; Ok (c :: t))).
      { destruct c as [|p|p]; try reflexivity. do 6 (destruct p; try reflexivity). now destruct Hc. }
      rewrite G in E. apply bind_Ok in E as (t' & E1 & E2). injection E2 as <-. apply renders_char; [exact Hc|]. apply IH; [lia|exact A|exact E1].
Qed.

(** The third and fourth printf of fingera_fatal. *)
Lemma place_text func file line : - 2 ^ 63 <= line < 2 ^ 63 ->
  c_printf (lit " (%s)(%s:%ld)" ++ [10]) [AStr func; AStr file; ALong line] =
  Ok (lit " (" ++ func ++ lit ")(" ++ file ++ lit ":" ++ print_dec line ++ lit ")" ++ [10]).
Proof. intros H. reflexivity. Qed.

(** C112: a fatal error never returns to its caller.  The process writes one line with the message and the
    place, a second one with the system's reason exactly if errno was set, and its exit status is 255. *)
Theorem C112_fatal : forall A strerror errno func file line msg args m,
  Forall arg_ok args -> - 2 ^ 63 <= line < 2 ^ 63 -> - 2 ^ 31 <= errno < 2 ^ 31 -> renders msg args m ->
  exists text, @fatal A strerror errno func file line msg args = Ok (Dead text 255) /\ last_words strerror errno func file line m text.
Proof.
  intros A strerror errno func file line msg args m HA HL HE R. unfold fatal. rewrite (c_printf_renders _ _ _ HA R). rewrite (place_text func file line HL).
  change (c_printf (lit "FATAL ") []) with (Ok (lit "FATAL ")). cbn [bind]. destruct (errno =? 0) eqn:E.
  - cbn [negb bind]. eexists. split; [reflexivity|]. exists (print_dec line), []. split; [apply print_dec_spec, arg_smalls, HL|].
    split; [left; split; [lia|reflexivity]|]. rewrite !app_nil_r. reflexivity.
  - cbn [negb].
    change (c_printf (9 :: lit "%s(%d)" ++ [10]) [AStr (strerror errno); AInt errno]) with
      (Ok (9 :: (strerror errno ++ 40 :: (print_dec errno ++ [41; 10])))). cbn [bind].
    eexists. split; [reflexivity|]. exists (print_dec line), (9 :: (strerror errno ++ 40 :: (print_dec errno ++ [41; 10]))).
    split; [apply print_dec_spec, arg_smalls, HL|]. split.
    + right. split; [lia|]. exists (print_dec errno). split; [apply print_dec_spec, arg_small32, HE|]. reflexivity.
    + now rewrite <- !app_assoc.
Qed.
Print Assumptions C112_fatal.

(** A format whose arguments do not fit is undefined behaviour, whatever else is right. *)
Theorem C112_fatal_defined : forall A strerror errno func file line msg args,
  Forall arg_ok args -> - 2 ^ 63 <= line < 2 ^ 63 -> - 2 ^ 31 <= errno < 2 ^ 31 ->
  (@fatal A strerror errno func file line msg args = UB <-> ~ exists m, renders msg args m).
Proof.
  intros A strerror errno func file line msg args HA HL HE. split.
  - intros U (m & R). destruct (C112_fatal A strerror errno func file line msg args m HA HL HE R) as (t & E & _). congruence.
  - intros N. unfold fatal. change (c_printf (lit "FATAL ") []) with (Ok (lit "FATAL ")). cbn [bind].
    destruct (c_printf msg args) as [m| |] eqn:E; [|reflexivity|].
    + destruct N. exists m. exact (c_printf_sound _ msg args m (le_n _) HA E).
    + exfalso. revert E. clear. revert args. pattern msg. apply length_strong_ind. clear msg. intros l IH args E.
      assert (G : forall B (f : list Z -> res B) l' args, (List.length l' < List.length l)%nat -> (forall t, f t <> Abort) -> (t <- c_printf l' args ;; f t) <> Abort).
      { intros B f l' a Hl Hf. destruct (c_printf l' a) eqn:E'; cbn [bind]; [apply Hf|discriminate|]. exfalso. exact (IH l' Hl a E'). }
      revert E.
      destruct l as [|c l]; [discriminate|].
      destruct (Z.eq_dec c 37) as [->|Hc].
      * destruct l as [|x l]; [discriminate|].
        destruct x as [|p|p]; try discriminate.
        do 7 (try (destruct p as [p|p|]; try discriminate)); cbn [c_printf];
        try (destruct args as [|[ | | | |] args]; try discriminate; apply G; [cbn; lia|discriminate]);
        try (apply G; [cbn; lia|discriminate]).
        destruct l as [|y l]; [discriminate|]. destruct y as [|p|p]; try discriminate.
        do 7 (try (destruct p as [p|p|]; try discriminate));
        try (destruct args as [|[ | | | |] args]; try discriminate; apply G; [cbn; lia|discriminate]).
      * assert (H : c_printf (c :: l) args = (t <- c_printf l args ;; Ok (c :: t))).
        { destruct c as [|p|p]; try reflexivity. do 6 (destruct p; try reflexivity). now destruct Hc. }
        rewrite H. apply G; [cbn; lia|discriminate].
Qed.
Print Assumptions C112_fatal_defined.

(** The same operating system without the reasons, as M_Random sees it. *)
Definition os_of (o : sys) : os :=
  {| os_open := match s_open o with None => true | Some _ => false end;
     os_read i n := match s_read o i n with RData d => Some d | _ => None end |}.

Lemma fatal_dead A strerror errno func file line msg args : c_printf msg args <> UB -> c_printf msg args <> Abort ->
  exists t s, @fatal A strerror errno func file line msg args = Ok (Dead t s).
Proof.
  intros H1 H2. unfold fatal. change (c_printf (lit "FATAL ") []) with (Ok (lit "FATAL ")). cbn [bind].
  destruct (c_printf msg args) as [m| |]; [|congruence|congruence]. cbn [bind].
  change (c_printf (lit " (%s)(%s:%ld)" ++ [10]) [AStr func; AStr file; ALong line]) with
    (Ok (lit " (" ++ func ++ lit ")(" ++ file ++ lit ":" ++ print_dec line ++ lit ")" ++ [10])). cbn [bind].
  destruct (errno =? 0); cbn [negb bind]; eauto.
  change (c_printf (9 :: lit "%s(%d)" ++ [10]) [AStr (strerror errno); AInt errno]) with
    (Ok (9 :: (strerror errno ++ 40 :: (print_dec errno ++ [41; 10])))). cbn [bind]. eauto.
Qed.

Lemma read_fatal A strerror errno file r : exists t s,
  @fatal A strerror errno (lit "fingera_os_rand_bytes") file 62 (lit "read /dev/urandom %d") [AInt r] = Ok (Dead t s).
Proof. apply fatal_dead; change (c_printf (lit "read /dev/urandom %d") [AInt r]) with (Ok (lit "read /dev/urandom " ++ print_dec r ++ [])); discriminate. Qed.
Lemma open_fatal A strerror errno file : exists t s,
  @fatal A strerror errno (lit "fingera_os_rand_bytes") file 57 (lit "open /dev/urandom") [] = Ok (Dead t s).
Proof. apply fatal_dead; change (c_printf (lit "open /dev/urandom") []) with (Ok (lit "open /dev/urandom")); discriminate. Qed.

(** The two models of one call agree. *)
Definition same_end {A B} (f : A -> B) (x : res (outcome A)) (y : res (ending B)) : Prop :=
  match x with
  | Ok (Returned a) => y = Ok (Back (f a))
  | Ok Fatal => exists t s, y = Ok (Dead t s)
  | Ok Running => y = Ok Goes_on
  | UB => y = UB
  | Abort => y = Abort
  end.

Lemma rand_loop_same strerror file o : forall fuel i errno mem n,
  same_end (fun m => m) (rand_loop fuel (os_of o) i mem n) (rand_loop_x strerror file fuel o i errno mem n).
Proof.
  induction fuel as [|fuel IH]; intros i errno mem n.
  - cbn [rand_loop rand_loop_x]. destruct (n =? 0)%nat; reflexivity.
  - cbn [rand_loop rand_loop_x]. destruct (n =? 0)%nat; [reflexivity|]. cbn [os_of os_read]. destruct (s_read o i n) as [data| |e].
    + destruct (store mem 0 data) as [mem'| |]; cbn [bind]; [|reflexivity|reflexivity].
      cbv zeta. destruct (ssize_to_int (Z.of_nat (List.length data)) <=? 0) eqn:E; [exact (read_fatal _ _ _ _ _)|]. apply IH.
    + cbn [bind]. change (ssize_to_int 0 <=? 0) with true. cbv iota. exact (read_fatal _ _ _ _ _).
    + cbn [bind]. change (ssize_to_int (-1) <=? 0) with true. cbv iota. exact (read_fatal _ _ _ _ _).
Qed.

(** C112: with the reasons of the operating system the random call does what it does without them, where a
    fatal error is the end of the process; a call that returns leaves no file descriptor open. *)
Theorem C112_random_same : forall strerror file fuel o errno fds mem n,
  same_end (fun m => (m, fds)) (os_rand_bytes fuel (os_of o) mem n) (os_rand_bytes_x strerror file fuel o errno fds mem n).
Proof.
  intros strerror file fuel o errno fds mem n. unfold os_rand_bytes, os_rand_bytes_x. cbn [os_of os_open].
  destruct (s_open o) as [e|]; cbn [negb]; [exact (open_fatal _ _ _ _)|].
  pose proof (rand_loop_same strerror file o fuel 0 errno mem n) as H. unfold same_end in *. fold (os_of o).
  destruct (rand_loop fuel (os_of o) 0 mem n) as [[m| |]| |].
  - rewrite H. reflexivity.
  - destruct H as (t & s & ->). cbn [bind]. eauto.
  - rewrite H. reflexivity.
  - rewrite H. reflexivity.
  - rewrite H. reflexivity.
Qed.
Print Assumptions C112_random_same.

Lemma s_deliv_step strerror file o : sys_contract o -> forall fuel i errno mem n data,
  (0 < n)%nat -> Z.of_nat n < 2 ^ 64 -> (n <= List.length mem)%nat -> s_read o i n = RData data ->
  rand_loop_x strerror file (S fuel) o i errno mem n =
  rand_loop_x strerror file fuel o (S i) errno (data ++ skipn (List.length data) mem) (n - List.length data).
Proof.
  intros (C & _) fuel i errno mem n data Hn H64 Hm E. destruct (C _ _ _ E) as [L I]. cbn [rand_loop_x].
  replace (n =? 0)%nat with false by lia. rewrite E. rewrite store0 by lia. cbn [bind].
  rewrite ssize_to_int_small by lia. replace (Z.of_nat (List.length data) <=? 0) with false by lia.
  f_equal. unfold u64. rewrite Z.mod_small by lia. lia.
Qed.

Lemma s_deliv strerror file o errno : sys_contract o -> forall n i ds, s_delivers o i n ds -> Z.of_nat n < 2 ^ 64 ->
  forall fuel mem, (n <= fuel)%nat -> (n <= List.length mem)%nat ->
  exists mem', rand_loop_x strerror file fuel o i errno mem n = Ok (Back mem').
Proof.
  intros C n i ds R. induction R as [i|i n data ds Hn E R IH]; intros H64 fuel mem Hf Hm.
  - exists mem. destruct fuel; reflexivity.
  - destruct fuel as [|fuel]; [lia|]. rewrite (s_deliv_step strerror file o C fuel i errno mem n data Hn H64 Hm E).
    destruct C as (C & C2). destruct (C _ _ _ E) as [L I]. apply IH; try lia. rewrite app_length, skipn_length. lia.
Qed.

Lemma decimal_renders r d : decimal r d -> renders (lit "read /dev/urandom %d") [AInt r] (lit "read /dev/urandom " ++ d).
Proof.
  intros D. change (lit "read /dev/urandom %d") with (lit "read /dev/urandom " ++ lit "%d" ++ []).
  assert (G : forall w, Forall (fun c => c <> 37) w -> renders (w ++ lit "%d" ++ []) [AInt r] (w ++ d)).
  { induction 1 as [|c w Hc F IH].
    - rewrite <- (app_nil_r d). apply (renders_d r d [] [] []); [exact D|constructor].
    - cbn [app]. apply renders_char; [exact Hc|exact IH]. }
  apply G. cbv [lit map list_ascii_of_string]. repeat constructor; discriminate.
Qed.

Lemma s_stop strerror file o errno : sys_contract o -> - 2 ^ 31 <= errno < 2 ^ 31 -> forall n i e r, s_stops o i n e r -> Z.of_nat n < 2 ^ 64 ->
  forall fuel mem, (n <= fuel)%nat -> (n <= List.length mem)%nat ->
  exists text d, rand_loop_x strerror file fuel o i errno mem n = Ok (Dead text 255) /\ decimal r d /\
    last_words strerror (match e with Some e => e | None => errno end) (lit "fingera_os_rand_bytes") file 62 (lit "read /dev/urandom " ++ d) text.
Proof.
  intros C HE n i e r R. assert (I0 : - 2 ^ 63 <= 62 < 2 ^ 63) by lia.
  induction R as [i n Hn E|i n e Hn E|i n data e r Hn E R IH]; intros H64 fuel mem Hf Hm;
    (destruct fuel as [|fuel]; [lia|]).
  - cbn [rand_loop_x]. replace (n =? 0)%nat with false by lia. rewrite E. cbn [bind]. change (ssize_to_int 0) with 0. change (0 <=? 0) with true. cbv iota.
    assert (D : decimal 0 (print_dec 0)) by (apply print_dec_spec; lia).
    destruct (C112_fatal (list Z) strerror errno (lit "fingera_os_rand_bytes") file 62 _ [AInt 0] _ ltac:(repeat constructor; cbn; lia) I0 HE (decimal_renders 0 _ D))
      as (text & T & W). exists text, (print_dec 0). auto.
  - cbn [rand_loop_x]. replace (n =? 0)%nat with false by lia. rewrite E. cbn [bind]. change (ssize_to_int (-1)) with (-1). change (-1 <=? 0) with true. cbv iota.
    assert (D : decimal (-1) (print_dec (-1))) by (apply print_dec_spec; lia).
    destruct C as (_ & C & _). pose proof (C _ _ _ E) as B. change INT_MAX with (2 ^ 31 - 1) in B.
    destruct (C112_fatal (list Z) strerror e (lit "fingera_os_rand_bytes") file 62 _ [AInt (-1)] _ ltac:(repeat constructor; cbn; lia) I0 ltac:(lia) (decimal_renders (-1) _ D))
      as (text & T & W). exists text, (print_dec (-1)). auto.
  - rewrite (s_deliv_step strerror file o C fuel i errno mem n data Hn H64 Hm E).
    pose proof C as (C1 & _). destruct (C1 _ _ _ E) as [L I]. apply IH; try lia. rewrite app_length, skipn_length. lia.
Qed.

(** C112: every schedule ends the call in one of three ways, and what the process says is exactly this. *)
Theorem C112_random_last_words : forall strerror file fuel o errno fds mem n,
  sys_contract o -> - 2 ^ 31 <= errno < 2 ^ 31 -> (n <= List.length mem)%nat -> Z.of_nat n < 2 ^ 64 -> (n <= fuel)%nat ->
  (forall e, s_open o = Some e ->
     exists text, os_rand_bytes_x strerror file fuel o errno fds mem n = Ok (Dead text 255) /\
       last_words strerror e (lit "fingera_os_rand_bytes") file 57 (lit "open /dev/urandom") text) /\
  (forall e r, s_open o = None -> s_stops o 0 n e r ->
     exists text d, os_rand_bytes_x strerror file fuel o errno fds mem n = Ok (Dead text 255) /\ decimal r d /\
       last_words strerror (match e with Some e => e | None => errno end) (lit "fingera_os_rand_bytes") file 62 (lit "read /dev/urandom " ++ d) text) /\
  (forall ds, s_open o = None -> s_delivers o 0 n ds ->
     exists mem', os_rand_bytes_x strerror file fuel o errno fds mem n = Ok (Back (mem', fds))) /\
  ((exists ds, s_delivers o 0 n ds) \/ (exists e r, s_stops o 0 n e r)).
Proof.
  intros strerror file fuel o errno fds mem n C HE Hm H64 Hf. unfold os_rand_bytes_x. split; [|split; [|split]].
  - intros e E. rewrite E. destruct C as (_ & _ & C). pose proof (C e E) as B. change INT_MAX with (2 ^ 31 - 1) in B.
    apply C112_fatal; [constructor|lia|lia|].
    cbv [lit map list_ascii_of_string]. repeat (apply renders_char; [discriminate|]). constructor.
  - intros e r -> R. destruct (s_stop strerror file o errno C HE n 0 e r R H64 fuel mem Hf Hm) as (text & d & T & D & W).
    rewrite T. cbn [bind]. exists text, d. auto.
  - intros ds -> R. destruct (s_deliv strerror file o errno C n 0 ds R H64 fuel mem Hf Hm) as (mem' & ->). exists mem'. reflexivity.
  - destruct C as (C & _). clear - C. generalize 0%nat. induction n as [n IH] using lt_wf_ind. intros i. destruct n as [|n']; [left; exists []; constructor|].
    destruct (s_read o i (S n')) as [data| |e] eqn:E.
    + destruct (C _ _ _ E) as [L I]. destruct (IH (S n' - List.length data)%nat ltac:(lia) (S i)) as [[ds R]|(e & r & F)].
      * left. exists (data :: ds). econstructor; eauto. lia.
      * right. exists e, r. eapply s_later; eauto. lia.
    + right. exists None, 0. apply s_eof; [lia|exact E].
    + right. exists (Some e), (-1). apply s_err; [lia|exact E].
Qed.
Print Assumptions C112_random_last_words.

(** The reason printed is the one of this failure: refuted.  When read() returns 0, errno is the one an earlier,
    unrelated failure in the program left behind; its message is printed. *)
Theorem C112_reason_refuted : forall strerror file errno fds, 0 < errno < 2 ^ 31 ->
  exists o text d, sys_contract o /\ s_open o = None /\ s_read o 0 32 = REof /\
    os_rand_bytes_x strerror file 32 o errno fds (repeat 0 32) 32 = Ok (Dead text 255) /\ decimal errno d /\
    exists before, text = before ++ [9] ++ strerror errno ++ lit "(" ++ d ++ lit ")" ++ [10].
Proof.
  intros strerror file errno fds H. set (o := {| s_open := None; s_read _ _ := REof |}).
  assert (C : sys_contract o) by (repeat split; cbn; intros; discriminate).
  destruct (C112_random_last_words strerror file 32 o errno fds (repeat 0 32) 32 C ltac:(lia) ltac:(cbn; lia) ltac:(lia) (le_n _)) as (_ & S & _).
  destruct (S None 0 eq_refl ltac:(apply s_eof; [lia|reflexivity])) as (text & d0 & T & _ & dl & r & DL & [[Z0 _]|[_ (d & D & ->)]] & W); [lia|].
  exists o, text, d. repeat (split; [first [exact C|reflexivity|exact T|exact D]|]).
  exists (lit "FATAL " ++ (lit "read /dev/urandom " ++ d0) ++ lit " (" ++ lit "fingera_os_rand_bytes" ++ lit ")(" ++ file ++ lit ":" ++ dl ++ lit ")" ++ [10]).
  rewrite W. now rewrite <- !app_assoc.
Qed.
Print Assumptions C112_reason_refuted.

(** Every fatal call of the library is defined: refuted for the two Windows messages, which pass an unsigned int
    to %lu. *)
Theorem C112_windows_refuted : forall strerror errno file ret,
  win_open_failed strerror errno file ret = UB /\ win_gen_failed strerror errno file ret = UB.
Proof. intros. split; reflexivity. Qed.
Print Assumptions C112_windows_refuted.

(** Concrete cases. *)
Example fatal_case : @fatal unit (fun _ => lit "No such file or directory") 2 (lit "f") (lit "a.c") 57 (lit "open %s %d") [AStr (lit "/x"); AInt (-1)] =
  Ok (Dead (lit "FATAL open /x -1 (f)(a.c:57)" ++ [10; 9] ++ lit "No such file or directory(2)" ++ [10]) 255).
Proof. vm_compute. reflexivity. Qed.
Example fatal_case_no_reason : @fatal unit (fun _ => lit "x") 0 (lit "f") (lit "a.c") 100 (lit "100%%") [] =
  Ok (Dead (lit "FATAL 100% (f)(a.c:100)" ++ [10]) 255).
Proof. vm_compute. reflexivity. Qed.
Example half_then_eio : let o := {| s_open := None; s_read i n := if (i =? 0)%nat then RData (repeat 7 (Nat.min n 16)) else RErr 5 |} in
  s_stops o 0 32 (Some 5) (-1) /\
  os_rand_bytes_x (fun _ => lit "Input/output error") (lit "random.c") 32 o 0 3 (repeat 0 32) 32 =
  Ok (Dead (lit "FATAL read /dev/urandom -1 (fingera_os_rand_bytes)(random.c:62)" ++ [10; 9] ++ lit "Input/output error(5)" ++ [10]) 255).
Proof.
  intros o. split; [|vm_compute; reflexivity].
  eapply s_later; [lia|reflexivity|]. apply s_err; [cbn; lia|reflexivity].
Qed.
Example decimal_cases : decimal 1070 [49; 48; 55; 48] /\ decimal (-1) [45; 49].
Proof. split; [apply (print_dec_spec 1070)|apply (print_dec_spec (-1))]; lia. Qed.
