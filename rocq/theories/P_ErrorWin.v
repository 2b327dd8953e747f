(** Property C123 (the last words on Windows). *)
From Verif Require Import Base M_Endian L_Endian M_Random S_Random P_Random M_Error S_Error P_Error S_Base58 L_Base58 M_Sys P_Sys M_ErrorWin S_ErrorWin.
From Coq Require Import String.
Open Scope Z_scope.
Open Scope list_scope.

Lemma hex_char_eq d : 0 <= d < 16 -> (if d <? 10 then 48 + d else 87 + d) = nth (Z.to_nat d) (lit "0123456789abcdef") 0.
Proof.
  intros H. assert (In (Z.to_nat d) (seq 0 16)) by (apply in_seq; lia).
  rewrite <- (Z2Nat.id d) by lia. generalize dependent (Z.to_nat d). intros n I. rewrite Nat2Z.id. cbn in I.
  repeat (destruct I as [<-|I]; [reflexivity|]). destruct I.
Qed.

Lemma hex_digits_spec fuel : forall n acc, 0 <= n < 16 ^ Z.of_nat (S fuel) ->
  exists ds, (List.length ds <= S fuel)%nat /\ Forall (fun d => 0 <= d < 16) ds /\ numeral_value 16 ds = n /\
    hex_digits (S fuel) n acc = map (fun d => nth (Z.to_nat d) (lit "0123456789abcdef") 0) ds ++ acc.
Proof.
  induction fuel as [|fuel IH]; intros n acc H.
  - exists [n]. change (16 ^ Z.of_nat 1) with 16 in H. split; [cbn; lia|]. split; [repeat constructor; lia|]. split; [unfold numeral_value; cbn; lia|].
    cbn [hex_digits]. cbv zeta. rewrite (hex_char_eq (n mod 16)) by dlia. rewrite Z.mod_small by lia. destruct (n / 16 =? 0); reflexivity.
  - rewrite Nat2Z.inj_succ, Z.pow_succ_r in H by lia. remember (S fuel) as f. cbn [hex_digits]. cbv zeta. rewrite (hex_char_eq (n mod 16)) by dlia.
    destruct (n / 16 =? 0) eqn:E.
    + exists [n]. assert (n < 16) by dlia. split; [cbn; lia|]. split; [repeat constructor; lia|]. split; [unfold numeral_value; cbn; lia|].
      rewrite Z.mod_small by lia. reflexivity.
    + destruct (IH (n / 16) (nth (Z.to_nat (n mod 16)) (lit "0123456789abcdef") 0 :: acc) ltac:(dlia)) as (ds & L & F & V & ->).
      exists (ds ++ [n mod 16]). split; [rewrite app_length; cbn; lia|]. split; [apply Forall_app; split; [exact F|repeat constructor; dlia]|]. split.
      * rewrite numeral_value_app, V. unfold numeral_value. cbn [fold_left List.length]. change (16 ^ Z.of_nat 1) with 16. dlia.
      * rewrite map_app, <- app_assoc. reflexivity.
Qed.

Lemma numeral_zeros b k ds : numeral_value b (repeat 0 k ++ ds) = numeral_value b ds.
Proof.
  assert (G : numeral_value b (repeat 0 k) = 0).
  { unfold numeral_value. induction k as [|k IH]; [reflexivity|]. exact IH. }
  rewrite numeral_value_app, G. lia.
Qed.

Lemma print_08lx_spec n : 0 <= n < 2 ^ 32 -> hex8 n (print_08lx n).
Proof.
  intros H. destruct (hex_digits_spec 7 n [] H) as (ds & L & F & V & E). unfold print_08lx. rewrite E, app_nil_r. cbv zeta. rewrite map_length.
  exists (repeat 0 (8 - List.length ds) ++ ds). split; [rewrite app_length, repeat_length; lia|].
  split; [apply Forall_app; split; [|exact F]; apply Forall_forall; intros x Hx; apply repeat_spec in Hx; lia|].
  split; [rewrite numeral_zeros; exact V|]. rewrite map_app. f_equal. generalize (8 - List.length ds)%nat. intros k.
  induction k as [|k IH]; [reflexivity|]. cbn [repeat map]. now rewrite IH.
Qed.

(** On Windows the text is that of the other systems, then the line with the code. *)
Lemma fatal_win_split A w func file line msg args :
  @fatal_win A w func file line msg args =
  match @fatal A (w_strerror w) (w_errno w 0) func file line msg args with
  | Ok (Dead t _) =>
      if w_last w 1 =? 0 then Ok (Dead t 4294967295) else
      match w_message w (w_last w 1) with
      | None => UB
      | Some m => Ok (Dead (t ++ 9 :: m ++ lit " ErrorCode(" ++ print_08lx (w_last w 1) ++ lit ")" ++ [10]) 4294967295)
      end
  | Ok r => Ok r
  | UB => UB
  | Abort => Abort
  end.
Proof.
  unfold fatal_win, fatal. cbv zeta. change (c_printf (lit "FATAL ") []) with (Ok (lit "FATAL ")). cbn [bind].
  destruct (c_printf msg args) as [t2| |]; cbn [bind]; [|reflexivity|reflexivity].
  destruct (c_printf _ [AStr func; AStr file; ALong line]) as [t3| |]; cbn [bind]; [|reflexivity|reflexivity].
  match goal with |- bind ?x _ = _ => destruct x as [t4| |] end; cbn [bind]; [|reflexivity|reflexivity].
  destruct (w_last w 1 =? 0); cbn [negb bind].
  - rewrite app_nil_r. reflexivity.
  - destruct (w_message w (w_last w 1)) as [m|]; cbn [bind]; [|reflexivity]. change (exit_code (-1)) with 4294967295. rewrite <- !app_assoc. reflexivity.
Qed.

(** C123: a fatal error on Windows ends the process with exit code 2^32 - 1.  It says what it says elsewhere, followed by
    Windows' message and the code of the last error exactly if there was one.  errno and the last error are those on
    entry, whatever the C library does to them while the text is written. *)
Theorem C123_fatal : forall A w func file line msg args m,
  Forall arg_ok args -> - 2 ^ 31 <= line < 2 ^ 31 -> - 2 ^ 31 <= w_errno w 0 < 2 ^ 31 -> 0 <= w_last w 1 < 2 ^ 32 -> renders msg args m ->
  (w_last w 1 = 0 \/ exists s, w_message w (w_last w 1) = Some s) ->
  exists text, @fatal_win A w func file line msg args = Ok (Dead text (2 ^ 32 - 1)) /\
    last_words_win (w_strerror w) (w_message w) (w_errno w 0) (w_last w 1) func file line m text.
Proof.
  intros A w func file line msg args m HA HL HE HW R HM. rewrite fatal_win_split.
  destruct (C112_fatal A (w_strerror w) (w_errno w 0) func file line msg args m HA ltac:(lia) HE R) as (t & -> & W).
  change (2 ^ 32 - 1) with 4294967295. destruct (w_last w 1 =? 0) eqn:E.
  - exists t. split; [reflexivity|]. exists t, []. split; [exact W|]. split; [left; split; [lia|reflexivity]|]. now rewrite app_nil_r.
  - destruct HM as [HM|[s HM]]; [lia|]. rewrite HM. eexists. split; [reflexivity|].
    exists t, (9 :: s ++ lit " ErrorCode(" ++ print_08lx (w_last w 1) ++ lit ")" ++ [10]). split; [exact W|]. split; [|reflexivity].
    right. split; [lia|]. exists s, (print_08lx (w_last w 1)). split; [exact HM|]. split; [apply print_08lx_spec, HW|]. reflexivity.
Qed.
Print Assumptions C123_fatal.

(** Every fatal call whose arguments fit its format is defined: refuted.  For each error code Windows has no message for
    (every application-defined one), the text is taken through a pointer nobody has set. *)
Theorem C123_no_message_refuted : forall A w func file line msg args m,
  Forall arg_ok args -> - 2 ^ 31 <= line < 2 ^ 31 -> - 2 ^ 31 <= w_errno w 0 < 2 ^ 31 -> renders msg args m ->
  w_last w 1 <> 0 -> w_message w (w_last w 1) = None ->
  @fatal_win A w func file line msg args = UB.
Proof.
  intros A w func file line msg args m HA HL HE R H0 HM. rewrite fatal_win_split.
  destruct (C112_fatal A (w_strerror w) (w_errno w 0) func file line msg args m HA ltac:(lia) HE R) as (t & -> & W).
  replace (w_last w 1 =? 0) with false by lia. rewrite HM. reflexivity.
Qed.
Print Assumptions C123_no_message_refuted.

(** The random source before Windows Vista: it returns what C106 and C107 say, or ends the process with one of two
    texts, which name the call that failed. *)
Theorem C123_wincrypt : forall file f w h mem n,
  (forall mem' h', os_rand_wincrypt w h mem n = Ok (Returned (mem', h')) <-> os_rand_wincrypt_x file f w h mem n = Ok (Back (mem', h'))) /\
  (win_open w = None -> - 2 ^ 31 <= w_errno (open_env f) 0 < 2 ^ 31 -> 0 < w_last (open_env f) 1 < 2 ^ 32 ->
   forall s, w_message (open_env f) (w_last (open_env f) 1) = Some s ->
   exists text, os_rand_wincrypt_x file f w h mem n = Ok (Dead text (2 ^ 32 - 1)) /\
     last_words_win (w_strerror (open_env f)) (w_message (open_env f)) (w_errno (open_env f) 0) (w_last (open_env f) 1)
       (lit "fingera_os_rand_bytes") file 39 (lit "CryptAcquireContextW") text) /\
  (forall hp, win_open w = Some hp -> win_gen w hp (to_ulong n) = None ->
   - 2 ^ 31 <= w_errno (gen_env f) 0 < 2 ^ 31 -> 0 < w_last (gen_env f) 1 < 2 ^ 32 ->
   forall s, w_message (gen_env f) (w_last (gen_env f) 1) = Some s ->
   exists text, os_rand_wincrypt_x file f w h mem n = Ok (Dead text (2 ^ 32 - 1)) /\
     last_words_win (w_strerror (gen_env f)) (w_message (gen_env f)) (w_errno (gen_env f) 0) (w_last (gen_env f) 1)
       (lit "fingera_os_rand_bytes") file 42 (lit "CryptGenRandom") text).
Proof.
  intros file f w h mem n. assert (NB : forall A e func line msg args (a : A), fatal_win e func file line msg args <> Ok (Back a)).
  { intros A e func line msg args a. rewrite fatal_win_split. unfold fatal.
    repeat (match goal with |- context [bind ?x _] => destruct x end; cbn [bind]; try discriminate).
    destruct (_ =? _); [discriminate|]. destruct (w_message _ _); discriminate. }
  split; [|split].
  - intros mem' h'. unfold os_rand_wincrypt, os_rand_wincrypt_x. destruct (win_open w) as [hp|].
    + cbv zeta. rewrite use_head. cbn [bind]. destruct (win_gen w hp (to_ulong n)) as [d|].
      * destruct (store mem 0 d) as [m| |]; cbn [bind]; [|split; discriminate|split; discriminate].
        destruct (release _ _); cbn [bind]; split; try discriminate; congruence.
      * split; [discriminate|]. intros H. exfalso. exact (NB _ _ _ _ _ _ _ H).
    + split; [discriminate|]. intros H. exfalso. exact (NB _ _ _ _ _ _ _ H).
  - intros E HE HW s HM. unfold os_rand_wincrypt_x. rewrite E. apply C123_fatal; try solve [constructor]; try lia; eauto.
    cbv [lit map list_ascii_of_string]. repeat (apply renders_char; [discriminate|]). constructor.
  - intros hp E G HE HW s HM. unfold os_rand_wincrypt_x. rewrite E. cbv zeta. rewrite use_head. cbn [bind]. rewrite G.
    apply C123_fatal; try solve [constructor]; try lia; eauto.
    cbv [lit map list_ascii_of_string]. repeat (apply renders_char; [discriminate|]). constructor.
Qed.
Print Assumptions C123_wincrypt.

(** From Windows Vista on it returns the same, and every failure is undefined behaviour instead of an error exit: the
    status is passed as an unsigned int where the format reads an unsigned long. *)
Theorem C123_bcrypt_refuted : forall file f w h mem n,
  (forall mem' h', os_rand_bcrypt w h mem n = Ok (Returned (mem', h')) <-> os_rand_bcrypt_x false file f w h mem n = Ok (Back (mem', h'))) /\
  (os_rand_bcrypt w h mem n = Ok Fatal -> os_rand_bcrypt_x false file f w h mem n = UB).
Proof.
  intros file f w h mem n. unfold os_rand_bcrypt, os_rand_bcrypt_x, ulong_arg.
  assert (U : forall A e func line r, @fatal_win A e func file line (lit "BCryptOpenAlgorithmProvider %lu") [AUInt r] = UB) by reflexivity.
  assert (V : forall A e func line r, @fatal_win A e func file line (lit "BCryptGenRandom %lu") [AUInt r] = UB) by reflexivity.
  rewrite U. destruct (win_open w) as [hp|]; [|split; [split; discriminate|reflexivity]].
  cbv zeta. rewrite use_head. cbn [bind]. rewrite V. destruct (win_gen w hp (to_ulong n)) as [d|]; [|split; [split; discriminate|reflexivity]].
  destruct (store mem 0 d) as [m| |]; cbn [bind]; [|split; [split|]; discriminate|split; [split|]; discriminate].
  destruct (release _ _); cbn [bind]; (split; [split|]); try discriminate; congruence.
Qed.
Print Assumptions C123_bcrypt_refuted.

(** Where an unsigned int is passed like an unsigned long, as Microsoft's compiler does, the text names the call that
    failed and the status it returned, as an unsigned number of 32 bits. *)
Theorem C123_bcrypt_alike : forall file f w h mem n,
  (forall mem' h', os_rand_bcrypt w h mem n = Ok (Returned (mem', h')) <-> os_rand_bcrypt_x true file f w h mem n = Ok (Back (mem', h'))) /\
  (win_open w = None -> - 2 ^ 31 <= w_errno (open_env f) 0 < 2 ^ 31 -> 0 <= w_last (open_env f) 1 < 2 ^ 32 ->
   (w_last (open_env f) 1 = 0 \/ exists s, w_message (open_env f) (w_last (open_env f) 1) = Some s) ->
   exists d text, decimal (open_ret f mod 2 ^ 32) d /\ os_rand_bcrypt_x true file f w h mem n = Ok (Dead text (2 ^ 32 - 1)) /\
     last_words_win (w_strerror (open_env f)) (w_message (open_env f)) (w_errno (open_env f) 0) (w_last (open_env f) 1)
       (lit "fingera_os_rand_bytes") file 21 (lit "BCryptOpenAlgorithmProvider " ++ d) text) /\
  (forall hp, win_open w = Some hp -> win_gen w hp (to_ulong n) = None ->
   - 2 ^ 31 <= w_errno (gen_env f) 0 < 2 ^ 31 -> 0 <= w_last (gen_env f) 1 < 2 ^ 32 ->
   (w_last (gen_env f) 1 = 0 \/ exists s, w_message (gen_env f) (w_last (gen_env f) 1) = Some s) ->
   exists d text, decimal (gen_ret f mod 2 ^ 32) d /\ os_rand_bcrypt_x true file f w h mem n = Ok (Dead text (2 ^ 32 - 1)) /\
     last_words_win (w_strerror (gen_env f)) (w_message (gen_env f)) (w_errno (gen_env f) 0) (w_last (gen_env f) 1)
       (lit "fingera_os_rand_bytes") file 25 (lit "BCryptGenRandom " ++ d) text).
Proof.
  intros file f w h mem n. unfold os_rand_bcrypt, os_rand_bcrypt_x, ulong_arg.
  assert (N : forall A e func line msg args b, @fatal_win A e func file line msg args <> Ok (Back b)).
  { intros A e func line msg args b. unfold fatal_win. cbv zeta.
    repeat (match goal with |- context [bind ?x _] => destruct x; cbn [bind]; try discriminate end). }
  assert (D : forall r, exists d, decimal (u32 r) d).
  { intros r. exists (print_dec (u32 r)). apply print_dec_spec. unfold u32. dlia. }
  assert (U : forall r, arg_ok (AULong (u32 r))) by (intros r; cbn [arg_ok]; unfold u32; dlia).
  assert (G : forall r d v, decimal r d -> Forall (fun c => c <> 37) v -> renders (v ++ lit "%lu" ++ []) [AULong r] (v ++ d)).
  { intros r d v Hd. induction 1 as [|c v Hc F IH].
    - rewrite <- (app_nil_r d). apply (renders_lu r d [] [] []); [exact Hd|constructor].
    - cbn [app]. apply renders_char; [exact Hc|exact IH]. }
  split; [|split].
  - intros mem' h'. destruct (win_open w) as [hp|]; [|split; [discriminate|intros E; now apply N in E]].
    cbv zeta. rewrite use_head. cbn [bind]. destruct (win_gen w hp (to_ulong n)) as [d|]; [|split; [discriminate|intros E; now apply N in E]].
    destruct (store mem 0 d) as [m| |]; cbn [bind]; [|split; discriminate|split; discriminate].
    destruct (release _ _); cbn [bind]; split; try discriminate; congruence.
  - intros Ho He Hl Hm. rewrite Ho. destruct (D (open_ret f)) as [d Hd]. exists d.
    destruct (C123_fatal (list Z * held) (open_env f) (lit "fingera_os_rand_bytes") file 21 (lit "BCryptOpenAlgorithmProvider %lu")
      [AULong (u32 (open_ret f))] (lit "BCryptOpenAlgorithmProvider " ++ d)) as [text [E L]].
    + repeat constructor; apply U.
    + lia.
    + exact He.
    + exact Hl.
    + change (lit "BCryptOpenAlgorithmProvider %lu") with (lit "BCryptOpenAlgorithmProvider " ++ lit "%lu" ++ []). apply (G _ _ _ Hd).
      cbv [lit map list_ascii_of_string]. repeat constructor; discriminate.
    + exact Hm.
    + exists text. split; [exact Hd|]. split; [exact E|exact L].
  - intros hp Ho Hg He Hl Hm. rewrite Ho. cbv zeta. rewrite use_head. cbn [bind]. rewrite Hg. destruct (D (gen_ret f)) as [d Hd]. exists d.
    destruct (C123_fatal (list Z * held) (gen_env f) (lit "fingera_os_rand_bytes") file 25 (lit "BCryptGenRandom %lu")
      [AULong (u32 (gen_ret f))] (lit "BCryptGenRandom " ++ d)) as [text [E L]].
    + repeat constructor; apply U.
    + lia.
    + exact He.
    + exact Hl.
    + change (lit "BCryptGenRandom %lu") with (lit "BCryptGenRandom " ++ lit "%lu" ++ []). apply (G _ _ _ Hd).
      cbv [lit map list_ascii_of_string]. repeat constructor; discriminate.
    + exact Hm.
    + exists text. split; [exact Hd|]. split; [exact E|exact L].
Qed.
Print Assumptions C123_bcrypt_alike.

(** Concrete cases: NTE_PROV_DLL_NOT_FOUND; an error code of an application. *)
Definition demo_env (code : Z) : win_env :=
  {| w_strerror _ := lit "Bad"; w_message e := if e =? 2148073502 then Some (lit "Provider DLL could not be found." ++ [13; 10]) else None;
     w_errno i := Z.of_nat i; w_last i := if (i =? 1)%nat then code else 6 |}.
Example win_case : os_rand_wincrypt_x (lit "random.c") {| open_env := demo_env 2148073502; gen_env := demo_env 5; open_ret := 0; gen_ret := 0 |}
    {| win_open := None; win_gen _ _ := None |} [] (repeat 0 32) 32 =
  Ok (Dead (lit "FATAL CryptAcquireContextW (fingera_os_rand_bytes)(random.c:39)" ++ [10; 9] ++
            lit "Provider DLL could not be found." ++ [13; 10] ++ lit " ErrorCode(8009001e)" ++ [10]) 4294967295).
Proof. vm_compute. reflexivity. Qed.
Example win_case_bcrypt : os_rand_bcrypt_x true (lit "random.c") {| open_env := demo_env 0; gen_env := demo_env 0; open_ret := -1073741275; gen_ret := 0 |}
    {| win_open := None; win_gen _ _ := None |} [] (repeat 0 32) 32 =
  Ok (Dead (lit "FATAL BCryptOpenAlgorithmProvider 3221226021 (fingera_os_rand_bytes)(random.c:21)" ++ [10]) 4294967295).
Proof. vm_compute. reflexivity. Qed.
Example win_case_ub : @fatal_win unit (demo_env (2 ^ 29 + 1)) (lit "f") (lit "a.c") 1 (lit "x") [] = UB.
Proof. vm_compute. reflexivity. Qed.
Example hex8_case : hex8 5 (lit "00000005").
Proof. apply (print_08lx_spec 5). lia. Qed.
