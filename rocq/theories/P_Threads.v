(** C110: calls from several threads between init and uninit.  C111: init and uninit from several threads. *)
From Verif Require Import Base M_Endian L_Endian M_Random S_Random M_Hash M_Base58Check M_Secp S_Secp M_Key M_Exkey S_Sign S_Life P_Random P_Sign L_Secp M_Threads S_Threads L_Threads.

(** While the library is initialised, whatever calls the threads make and however they are interleaved: the shared state does
    not change, there is never a data race, every thread that has finished has the results it would have got alone, and a
    thread needs only a number of turns of its own, which does not depend on the others, to get there. *)
Theorem C110_concurrent_calls : forall E others st (threads : nat -> list (call E)), on others st ->
  exists need : nat -> nat, forall sched, exists pool,
    exec sched st (fun i => thread_prog (threads i)) = (st, pool) /\
    ~ race pool /\
    (forall i r, pool i = Halt r -> r = thread_alone (fst st) (threads i)) /\
    (forall i, (need i <= turns i sched)%nat -> pool i = Halt (thread_alone (fst st) (threads i))).
Proof.
  intros E others st threads O. apply on_safe in O.
  exists (fun i => steps (thread_prog (threads i)) (fst st)). intros sched.
  destruct (exec_calm sched st (fun i => thread_prog (threads i)) O ltac:(intros; apply calm_thread)) as (pool & X & C & A & S).
  exists pool. split; [exact X|]. split; [exact (calm_no_race _ _ C)|]. split.
  - intros i r H. specialize (A i). rewrite H, alone_thread in A. exact A.
  - intros i H. specialize (A i). specialize (S i). rewrite alone_thread in A. rewrite <- A. apply (calm_done (snd st)); [apply C|].
    cbv beta in *. lia.
Qed.
Print Assumptions C110_concurrent_calls.

(** The steps of a single thread that initialises or shuts down are those of M_Key. *)
Definition pool1 {A} (p : prog A) : nat -> prog A := fun _ => p.

Theorem C111_init_alone : forall others st o fuel, off others st -> healthy o -> (32 <= fuel)%nat ->
  exists st' pool, key_init fuel o st = Ok (Returned st') /\ on others st' /\
    exec (repeat O 8) st (pool1 (key_init_t fuel o)) = (st', pool) /\ pool O = Halt (Ok (Returned tt)).
Proof.
  intros others st o fuel O H Hf. destruct (C62_init others st o fuel O H Hf) as (st' & I & On).
  exists st'. destruct st as [g h]. destruct O as (Hs & Hv & _). cbn [fst] in Hs, Hv. destruct g as [gs gv]. cbn in Hs, Hv. subst gs gv.
  unfold key_init in I. cbn [is_null c_assert bind context_create g_sign g_verify fresh live] in I.
  unfold pool1, key_init_t.
  cbn [repeat exec step get_ptr g_sign g_verify is_null c_assert bindp Nat.eqb context_create set_ptr fresh live].
  unfold key_init. cbn [is_null c_assert bind context_create g_sign g_verify fresh live].
  destruct (os_rand_bytes fuel o (uninit 32) 32) as [[b| |]| |]; cbn [bind] in I; try discriminate.
  cbn [sign_ctx can_sign c_assert bind] in *. destruct (cleanse b 0 32) as [b'| |] eqn:Cl; cbn [bind] in *; try discriminate.
  injection I as <-.
  cbn [bindp step get_ptr g_sign g_verify Nat.eqb usable existsb live ctx_id]. rewrite Nat.eqb_refl. cbn [orb].
  eexists. split; [reflexivity|]. split; [exact On|]. split; [reflexivity|]. cbn [Nat.eqb]. cbn [sign_ctx can_sign c_assert bindp]. reflexivity.
Qed.
Print Assumptions C111_init_alone.

Theorem C111_uninit_alone : forall others st, on others st ->
  exists st' pool, key_uninit st = Ok st' /\ off others st' /\
    exec (repeat O 8) st (pool1 key_uninit_t) = (st', pool) /\ pool O = Halt (Ok tt).
Proof.
  intros others st On. destruct (C62_uninit others st On) as (st' & U & Of). exists st'.
  destruct st as [[gs gv] h]. destruct On as (_ & _ & cs & cv & Hs & Hv & _). cbn [fst g_sign g_verify] in Hs, Hv. subst gs gv.
  unfold key_uninit in *. cbn [g_sign g_verify] in *.
  destruct (context_destroy h cs) as [h1| |] eqn:D1; cbn [bind] in *; try discriminate.
  destruct (context_destroy h1 cv) as [h2| |] eqn:D2; cbn [bind] in *; try discriminate. injection U as <-.
  unfold pool1, key_uninit_t.
  cbn [repeat exec step get_ptr g_sign g_verify is_null c_assert bindp Nat.eqb set_ptr negb]. rewrite D1.
  cbn [exec step get_ptr g_sign g_verify is_null c_assert bindp Nat.eqb set_ptr negb]. rewrite D2.
  cbn [exec step get_ptr g_sign g_verify is_null c_assert bindp Nat.eqb set_ptr negb].
  eexists. split; [reflexivity|]. split; [exact Of|]. split; reflexivity.
Qed.
Print Assumptions C111_uninit_alone.

(** In any state at all, also after a misuse, the two programs do what the functions of M_Key do. *)
Theorem C111_init_same : forall fuel o st,
  let '(st', pool) := exec (repeat O 8) st (pool1 (key_init_t fuel o)) in
  pool O = Halt (match key_init fuel o st with Ok (Returned _) => Ok (Returned tt) | Ok Fatal => Ok Fatal | Ok Running => Ok Running
                 | UB => UB | Abort => Abort end) /\
  (forall st2, key_init fuel o st = Ok (Returned st2) -> st' = st2).
Proof.
  intros fuel o [[gs gv] h]. unfold pool1, key_init_t, key_init.
  destruct gv as [cv|].
  { cbn. split; [reflexivity|discriminate]. }
  destruct gs as [cs|].
  { cbn. split; [reflexivity|discriminate]. }
  cbn [repeat exec step get_ptr g_sign g_verify is_null c_assert bindp bind Nat.eqb context_create set_ptr fresh live].
  destruct (os_rand_bytes fuel o (uninit 32) 32) as [[b| |]| |]; cbn [bind bindp]; try (cbn; split; [reflexivity|discriminate]).
  cbn [bindp step exec get_ptr g_sign g_verify Nat.eqb usable existsb live ctx_id]. rewrite Nat.eqb_refl. cbn [orb].
  cbn [sign_ctx can_sign c_assert bind bindp]. destruct (cleanse b 0 32) as [b'| |]; cbn; (split; [reflexivity|]); intros st2 X; [now injection X|discriminate|discriminate].
Qed.
Print Assumptions C111_init_same.

Theorem C111_uninit_same : forall st,
  let '(st', pool) := exec (repeat O 8) st (pool1 key_uninit_t) in
  pool O = Halt (match key_uninit st with Ok _ => Ok tt | UB => UB | Abort => Abort end) /\
  (forall st2, key_uninit st = Ok st2 -> st' = st2).
Proof.
  intros [[gs gv] h]. unfold pool1, key_uninit_t, key_uninit.
  destruct gs as [cs|]; [|cbn; split; [reflexivity|discriminate]].
  cbn [repeat exec step get_ptr g_sign g_verify is_null c_assert bindp Nat.eqb set_ptr negb].
  destruct (context_destroy h cs) as [h1| |] eqn:D1; cbn [bind]; try (unfold context_destroy in D1; destruct (existsb _ _); discriminate).
  2: cbn; split; [reflexivity|discriminate].
  cbn [repeat exec step get_ptr g_sign g_verify is_null c_assert bindp Nat.eqb set_ptr negb].
  destruct gv as [cv|]; [|cbn; split; [reflexivity|discriminate]].
  cbn [repeat exec step get_ptr g_sign g_verify is_null c_assert bindp Nat.eqb set_ptr negb].
  destruct (context_destroy h1 cv) as [h2| |] eqn:D2; cbn [bind]; try (unfold context_destroy in D2; destruct (existsb _ _); discriminate).
  - cbn. split; [reflexivity|]. intros st2 X. now injection X.
  - cbn. split; [reflexivity|discriminate].
Qed.
Print Assumptions C111_uninit_same.

(** Initialise, let any number of threads make any calls in any interleaving, shut down: nothing is left. *)
Theorem C111_phases_partial : forall E others st o fuel (threads : nat -> list (call E)) sched, off others st -> healthy o -> (32 <= fuel)%nat ->
  exists st1 p1 pool st2 p2,
    exec (repeat O 8) st (pool1 (key_init_t fuel o)) = (st1, p1) /\ p1 O = Halt (Ok (Returned tt)) /\ on others st1 /\
    exec sched st1 (fun i => thread_prog (threads i)) = (st1, pool) /\
    (forall i r, pool i = Halt r -> r = thread_alone (fst st1) (threads i)) /\
    exec (repeat O 8) st1 (pool1 key_uninit_t) = (st2, p2) /\ p2 O = Halt (Ok tt) /\
    off others st2 /\ live (snd st2) = live (snd st).
Proof.
  intros E others st o fuel threads sched O H Hf.
  destruct (C111_init_alone others st o fuel O H Hf) as (st1 & p1 & _ & On & X1 & P1).
  destruct (C110_concurrent_calls E others st1 threads On) as (need & K). destruct (K sched) as (pool & X & _ & R & _).
  destruct (C111_uninit_alone others st1 On) as (st2 & p2 & _ & Of & X2 & P2).
  exists st1, p1, pool, st2, p2. do 7 (split; [assumption|]). split; [assumption|].
  destruct O as (_ & _ & L & _). destruct Of as (_ & _ & L2 & _). congruence.
Qed.
Print Assumptions C111_phases_partial.

(** Refuted without that order.  Two threads that initialise at the same time: there is a schedule with a data race in which both
    calls succeed, four contexts exist and only two can ever be destroyed. *)
Definition alternate (n : nat) : list nat := concat (repeat [0; 1]%nat n).
Definition pool2 {A} (p q : prog A) : nat -> prog A := fun i => if (i =? 0)%nat then p else q.

Theorem C111_two_inits_refuted : forall others st o1 o2 f1 f2, off others st -> healthy o1 -> healthy o2 ->
  (32 <= f1)%nat -> (32 <= f2)%nat ->
  (exists sched, race (snd (exec sched st (pool2 (key_init_t f1 o1) (key_init_t f2 o2))))) /\
  exists sched st1 pool st2,
    exec sched st (pool2 (key_init_t f1 o1) (key_init_t f2 o2)) = (st1, pool) /\
    pool O = Halt (Ok (Returned tt)) /\ pool 1%nat = Halt (Ok (Returned tt)) /\
    length (live (snd st1)) = (4 + length (live (snd st)))%nat /\
    key_uninit st1 = Ok st2 /\ length (live (snd st2)) = (2 + length (live (snd st)))%nat /\ key_uninit st2 = Abort.
Proof.
  intros others st o1 o2 f1 f2 O H1 H2 F1 F2.
  destruct (C62_init others st o1 f1 O H1 F1) as (s1 & I1 & _). destruct (C62_init others st o2 f2 O H2 F2) as (s2 & I2 & _).
  destruct st as [[gs gv] [l n]]. destruct O as (Hs & Hv & Hl & Nd & Fr). cbn [fst snd g_sign g_verify live fresh] in *. subst gs gv.
  unfold key_init in I1, I2. cbn [is_null c_assert bind context_create g_sign g_verify fresh live] in I1, I2.
  destruct (os_rand_bytes f1 o1 (uninit 32) 32) as [[b1| |]| |] eqn:R1; cbn [bind] in I1; try discriminate.
  destruct (os_rand_bytes f2 o2 (uninit 32) 32) as [[b2| |]| |] eqn:R2; cbn [bind] in I2; try discriminate.
  cbn [sign_ctx can_sign c_assert bind] in I1, I2.
  destruct (cleanse b1 0 32) as [c1| |] eqn:C1; cbn [bind] in I1; try discriminate.
  destruct (cleanse b2 0 32) as [c2| |] eqn:C2; cbn [bind] in I2; try discriminate. clear I1 I2.
  rewrite Forall_forall in Fr.
  split.
  - exists [0; 0]%nat. unfold pool2, key_init_t.
    cbn [exec step get_ptr g_sign g_verify is_null c_assert bindp Nat.eqb context_create set_ptr fresh live snd].
    exists 0%nat, 1%nat, (LPtr PVerify), true, false. cbn [Nat.eqb access orb]. repeat split. discriminate.
  - exists (alternate 8). unfold pool2, key_init_t, alternate. cbn [repeat concat app].
    cbn [exec step get_ptr g_sign g_verify is_null c_assert bindp Nat.eqb context_create set_ptr fresh live snd].
    rewrite R1, R2.
    cbn [exec step get_ptr g_sign g_verify is_null c_assert bindp Nat.eqb context_create set_ptr fresh live snd usable existsb ctx_id].
    rewrite Nat.eqb_refl. cbn [orb].
    cbn [exec step get_ptr g_sign g_verify is_null c_assert bindp Nat.eqb context_create set_ptr fresh live snd usable existsb ctx_id].
    rewrite ?Nat.eqb_refl. cbn [orb sign_ctx can_sign c_assert bindp]. rewrite C1, C2. cbn [bindp].
    do 3 eexists. split; [reflexivity|]. cbn [Nat.eqb]. split; [reflexivity|]. split; [reflexivity|]. cbn [snd live length]. split; [lia|].
    unfold key_uninit. cbn [g_sign g_verify]. unfold context_destroy. cbn [live existsb ctx_id fresh]. rewrite Nat.eqb_refl. cbn [orb bind].
    assert (N : forall k, ~ In (k + n)%nat l) by (intros k Hk; specialize (Fr _ Hk); lia).
    assert (RS : remove Nat.eq_dec (S (S (S n))) (S (S (S n)) :: S (S n) :: S n :: n :: l) = S (S n) :: S n :: n :: l).
    { cbn [remove]. destruct (Nat.eq_dec (S (S (S n))) (S (S (S n)))); [|congruence].
      destruct (Nat.eq_dec (S (S (S n))) (S (S n))); [lia|]. destruct (Nat.eq_dec (S (S (S n))) (S n)); [lia|].
      destruct (Nat.eq_dec (S (S (S n))) n); [lia|]. rewrite notin_remove; [reflexivity|exact (N 3%nat)]. }
    rewrite RS. cbn [live existsb ctx_id fresh].
    replace (S n =? S (S n))%nat with false by (symmetry; apply Nat.eqb_neq; lia). rewrite Nat.eqb_refl. cbn [orb bind].
    assert (RV : remove Nat.eq_dec (S n) (S (S n) :: S n :: n :: l) = S (S n) :: n :: l).
    { cbn [remove]. destruct (Nat.eq_dec (S n) (S (S n))); [lia|]. destruct (Nat.eq_dec (S n) (S n)); [|congruence].
      destruct (Nat.eq_dec (S n) n); [lia|]. rewrite notin_remove; [reflexivity|exact (N 1%nat)]. }
    rewrite RV. split; [reflexivity|]. split; [reflexivity|reflexivity].
Qed.
Print Assumptions C111_two_inits_refuted.

(** A thread that shuts the library down while another one is in the middle of a call: the library gets a destroyed context.
    For any call that begins by reading pointer [p] and handing it to the library. *)
Theorem C111_uninit_during_call_refuted : forall p (k : option context -> prog unit) others st, on others st ->
  exists sched, snd (exec sched st (pool2 (Load p (fun c => Lib c (k c))) key_uninit_t)) O = Halt UB.
Proof.
  intros p k others st On. destruct (C62_uninit others st On) as (st' & U & Of).
  exists ([0] ++ repeat 1 8 ++ [0])%nat.
  destruct st as [[gs gv] h]. destruct On as (_ & (Nd & _) & cs & cv & Hs & Hv & L). cbn [fst snd g_sign g_verify] in *. subst gs gv.
  unfold key_uninit in U. cbn [g_sign g_verify] in U.
  destruct (context_destroy h cs) as [h1| |] eqn:D1; cbn [bind] in U; try discriminate.
  destruct (context_destroy h1 cv) as [h2| |] eqn:D2; cbn [bind] in U; try discriminate. injection U as <-.
  unfold pool2, key_uninit_t.
  cbn [repeat app exec step get_ptr g_sign g_verify is_null c_assert bindp Nat.eqb set_ptr negb]. rewrite D1.
  cbn [exec step get_ptr g_sign g_verify is_null c_assert bindp Nat.eqb set_ptr negb]. rewrite D2.
  cbn [exec step get_ptr g_sign g_verify is_null c_assert bindp Nat.eqb set_ptr negb].
  assert (G : forall c, In c [ctx_id cs; ctx_id cv] -> existsb (Nat.eqb c) (live h2) = false).
  { intros c Hc. destruct Of as (_ & _ & Lo & _). cbn [snd] in Lo. rewrite Lo. apply not_true_is_false. intros X. apply existsb_exists in X.
    destruct X as (y & Hy & Ey). apply Nat.eqb_eq in Ey. subst y. rewrite L in Nd. cbn [app] in Nd.
    inversion Nd as [|? ? N1 Nd1]; subst. inversion Nd1 as [|? ? N2 _]; subst.
    destruct Hc as [<-|[<-|[]]]; [apply N1; right; exact Hy|apply N2; exact Hy]. }
  destruct p; cbn [get_ptr g_sign g_verify usable]; rewrite G by (cbn; auto); reflexivity.
Qed.
Print Assumptions C111_uninit_during_call_refuted.

(** Such calls: making a public key, signing, verifying. *)
Corollary C111_sign_during_uninit_refuted : forall fuel E key32 hash32 others st, on others st ->
  exists sched, snd (exec sched st (pool2 (give (fun _ => tt) (key_sign_t fuel E key32 hash32)) key_uninit_t)) O = Halt UB.
Proof.
  intros. eapply C111_uninit_during_call_refuted. eassumption.
Qed.
Print Assumptions C111_sign_during_uninit_refuted.

Corollary C111_verify_during_uninit_refuted : forall E P hash32 sig others st, on others st ->
  exists sched, snd (exec sched st (pool2 (give (fun _ => tt) (key_verify_t E P hash32 sig)) key_uninit_t)) O = Halt UB.
Proof.
  intros. eapply C111_uninit_during_call_refuted. eassumption.
Qed.
Print Assumptions C111_verify_during_uninit_refuted.

(** The shut-down itself is a data race with such a call: one destroys the context the other uses. *)
Theorem C111_uninit_races_refuted : forall p (k : option context -> prog unit) others st, on others st ->
  exists sched, race (snd (exec sched st (pool2 (Load p (fun c => Lib c (k c))) key_uninit_t))).
Proof.
  intros p k others st On. destruct (C62_uninit others st On) as (st' & U & Of).
  destruct st as [[gs gv] h]. destruct On as (_ & _ & cs & cv & Hs & Hv & L). cbn [fst snd g_sign g_verify] in *. subst gs gv.
  unfold key_uninit in U. cbn [g_sign g_verify] in U.
  destruct (context_destroy h cs) as [h1| |] eqn:D1; cbn [bind] in U; try discriminate. clear U.
  exists ([0] ++ repeat 1 match p with PSign => 2 | PVerify => 6 end)%nat. unfold pool2, key_uninit_t. destruct p.
  - cbn [repeat app exec step get_ptr g_sign g_verify is_null c_assert bindp Nat.eqb set_ptr negb snd].
    exists 0%nat, 1%nat, (LCtx (ctx_id cs)), false, true. cbn [Nat.eqb access orb]. repeat split. discriminate.
  - cbn [repeat app exec step get_ptr g_sign g_verify is_null c_assert bindp Nat.eqb set_ptr negb]. rewrite D1.
    cbn [exec step get_ptr g_sign g_verify is_null c_assert bindp Nat.eqb set_ptr negb snd].
    exists 0%nat, 1%nat, (LCtx (ctx_id cv)), false, true. cbn [Nat.eqb access orb]. repeat split. discriminate.
Qed.
Print Assumptions C111_uninit_races_refuted.

(** A call before initialisation hands a null context to the library. *)
Theorem C111_call_before_init_refuted : forall p (k : option context -> prog unit) others st, off others st ->
  snd (exec [0; 0]%nat st (pool1 (Load p (fun c => Lib c (k c))))) O = Halt UB.
Proof.
  intros p k others [[gs gv] h] (Hs & Hv & _). cbn [fst snd g_sign g_verify] in *. subst gs gv. destruct p; reflexivity.
Qed.
Print Assumptions C111_call_before_init_refuted.

(** A call that finds the signing context while it is still being randomised: the pointer is published first, so this is a data race. *)
Theorem C111_call_during_init_refuted : forall (k : option context -> prog (outcome unit)) others st o fuel, off others st -> healthy o -> (32 <= fuel)%nat ->
  exists sched, race (snd (exec sched st (pool2 (key_init_t fuel o) (Load PSign (fun c => Lib c (k c)))))).
Proof.
  intros k others st o f O H F. destruct (C62_init others st o f O H F) as (s1 & I1 & _).
  destruct st as [[gs gv] [l n]]. destruct O as (Hs & Hv & _). cbn [fst snd g_sign g_verify live fresh] in *. subst gs gv.
  unfold key_init in I1. cbn [is_null c_assert bind context_create g_sign g_verify fresh live] in I1.
  destruct (os_rand_bytes f o (uninit 32) 32) as [[b1| |]| |] eqn:R1; cbn [bind] in I1; try discriminate. clear I1.
  exists [0; 0; 0; 0; 0; 0; 0; 1]%nat. unfold pool2, key_init_t.
  cbn [exec step get_ptr g_sign g_verify is_null c_assert bindp Nat.eqb context_create set_ptr fresh live snd]. rewrite R1.
  cbn [exec step get_ptr g_sign g_verify is_null c_assert bindp Nat.eqb context_create set_ptr fresh live snd].
  exists 0%nat, 1%nat, (LCtx (S n)), true, false. cbn [Nat.eqb access orb ctx_id]. repeat split. discriminate.
Qed.
Print Assumptions C111_call_during_init_refuted.

(** A state and threads the theorems apply to. *)
Definition st_on : globals * ctx_heap := (mkGlobals (Some (mkCtx true false 1)) (Some (mkCtx false true 0)), mkHeap [1; 0]%nat 2).
Example C110_on : on [] st_on.
Proof.
  split; [|split].
  - exists (mkCtx true false 1), (mkCtx false true 0). repeat split.
  - split; cbn [st_on snd live fresh].
    + repeat constructor; cbn; intuition discriminate.
    + repeat constructor.
  - exists (mkCtx true false 1), (mkCtx false true 0). repeat split.
Qed.
Example C110_concurrent_example : forall E : secp,
  let threads := fun i => if (i =? 0)%nat then [CDecode []; CSigEncode (1, 1)] else if (i =? 1)%nat then [CSigDecode [48; 0] 2] else [] in
  let pool := snd (exec [0; 1; 0; 0; 1; 0]%nat st_on (fun i => @thread_prog E (threads i))) in
  pool 0%nat = Halt (Ok [VFlag (false, repeat 0 32); VText (8%nat, [48; 6; 2; 1; 1; 2; 1; 1])]) /\
  pool 1%nat = Halt (Ok [VSig0 (0, (0, 0))]).
Proof. intros E. vm_compute. split; reflexivity. Qed.
Example C111_off : off [] (mkGlobals None None, mkHeap [] 0).
Proof. repeat split; constructor. Qed.
