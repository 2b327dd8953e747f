(** Threads that only use the contexts do not disturb each other. *)
From Verif Require Import Base M_Endian M_Hash M_Random M_Secp M_Key M_Exkey S_Sign S_Life M_Threads S_Threads L_Char.

(** Undisturbed execution of a program that only reads the shared objects. *)
Fixpoint alone {A} (p : prog A) (g : globals) : res A :=
  match p with
  | Halt r => r
  | Load p k => alone (k (get_ptr g p)) g
  | Store _ _ k | Lib _ k | Randomize _ k | Destroy _ k => alone k g
  | Create s v k => alone (k (mkCtx s v 0)) g
  end.
(** and its number of steps *)
Fixpoint steps {A} (p : prog A) (g : globals) : nat :=
  match p with
  | Halt r => O
  | Load p k => S (steps (k (get_ptr g p)) g)
  | Store _ _ k | Lib _ k | Randomize _ k | Destroy _ k => S (steps k g)
  | Create s v k => S (steps (k (mkCtx s v 0)) g)
  end.

(** Programs that only load pointers and hand usable ones to the library. *)
Inductive calm {A} (h : ctx_heap) : prog A -> Prop :=
| calm_halt r : calm h (Halt r)
| calm_load p k : (forall c, usable h c = true -> calm h (k c)) -> calm h (Load p k)
| calm_lib c k : usable h c = true -> calm h k -> calm h (Lib c k).

Lemma alone_bind {A B} (x : prog A) (f : A -> prog B) g : alone (bindp x f) g = bind (alone x g) (fun a => alone (f a) g).
Proof. induction x as [r| | | | | |]; cbn [bindp alone]; auto. destruct r; reflexivity. Qed.
Lemma calm_bind {A B} h (x : prog A) (f : A -> prog B) : calm h x -> (forall a, calm h (f a)) -> calm h (bindp x f).
Proof.
  intros C F. induction C as [r|p k _ IH|c k U _ IH]; cbn [bindp].
  - destruct r; auto; constructor.
  - constructor. exact IH.
  - constructor; auto.
Qed.
Lemma calm_uses {A} h p (f : option context -> res A) : calm h (lib p f).
Proof. unfold lib. constructor. intros c U. constructor; [exact U|constructor]. Qed.
Lemma alone_lib {A} p (f : option context -> res A) g : alone (lib p f) g = f (get_ptr g p).
Proof. reflexivity. Qed.
Lemma alone_halt {A} (r : res A) g : alone (Halt r) g = r. Proof. reflexivity. Qed.

Ltac calmt := repeat first
  [ apply calm_uses | apply calm_halt | apply calm_bind; [|intros ?]
  | match goal with |- calm _ (if ?b then _ else _) => destruct b end
  | match goal with |- calm _ (match ?x with _ => _ end) => destruct x end ].

Lemma calm_new h fuel : forall rf d j mem, calm h (key_new_t fuel rf d j mem).
Proof.
  induction fuel as [|fuel IH]; intros; cbn [key_new_t]; [constructor|]. apply calm_bind; [constructor|]. intros r.
  destruct r; [|constructor|constructor]. apply calm_bind; [apply calm_uses|]. intros b. destruct b; [constructor|apply IH].
Qed.
Lemma calm_encode h E k o l : calm h (key_encode_t E k o l). Proof. unfold key_encode_t. calmt. Qed.
Lemma calm_decode h e : calm h (key_decode_t e). Proof. apply calm_uses. Qed.
Lemma calm_get_pub h E k : calm h (key_get_pub_t E k). Proof. unfold key_get_pub_t. calmt. Qed.
Lemma calm_pub_encode h E P o l : calm h (pubkey_encode_t E P o l). Proof. unfold pubkey_encode_t. calmt. Qed.
Lemma calm_pub_decode h E e l : calm h (pubkey_decode_t E e l). Proof. unfold pubkey_decode_t. calmt. Qed.
Ltac calmt2 := repeat first
  [ apply calm_uses | apply calm_halt | apply calm_get_pub | apply calm_pub_encode | apply calm_pub_decode | apply calm_bind; [|intros ?]
  | match goal with |- calm _ (if ?b then _ else _) => destruct b end
  | match goal with |- calm _ (match ?x with _ => _ end) => destruct x end ].
Lemma calm_derive h E k c ok oc i : calm h (key_derive_t E k c ok oc i).
Proof. unfold key_derive_t. calmt2. Qed.
Lemma calm_pub_derive h E k c ok oc i : calm h (pubkey_derive_t E k c ok oc i).
Proof. unfold pubkey_derive_t. calmt2. Qed.
Lemma calm_low h s : calm h (SigHasLowR_t s). Proof. unfold SigHasLowR_t. calmt. Qed.
Lemma calm_grind h fuel E : forall hash key s e n, calm h (grind_t fuel E hash key s e n).
Proof.
  induction fuel as [|fuel IH]; intros; cbn [grind_t]; (destruct s; [|constructor]);
    (apply calm_bind; [apply calm_low|]; intros b; destruct b; [constructor|]); [constructor|].
  apply calm_bind; [constructor|]. intros e'. apply calm_bind; [apply calm_uses|]. intros s'. apply IH.
Qed.
Lemma calm_sign h fuel E k hash : calm h (key_sign_t fuel E k hash).
Proof. unfold key_sign_t. apply calm_bind; [apply calm_uses|]. intros s. apply calm_bind; [apply calm_grind|]. intros r. calmt. Qed.
Lemma calm_pub_keyid h E P b : calm h (pubkey_keyid_t E P b).
Proof. unfold pubkey_keyid_t. cbv zeta. calmt2. Qed.
Lemma calm_keyid h E k b : calm h (key_keyid_t E k b).
Proof. unfold key_keyid_t. apply calm_bind; [apply calm_get_pub|]. intros P. apply calm_pub_keyid. Qed.

Lemma calm_call h {E} (c : call E) : calm h (call_prog c).
Proof.
  destruct c; cbn [call_prog]; unfold give; (apply calm_bind; [|intros; constructor]).
  - apply calm_new.
  - apply calm_encode.
  - apply calm_decode.
  - apply calm_get_pub.
  - apply calm_pub_encode.
  - apply calm_pub_decode.
  - apply calm_derive.
  - apply calm_pub_derive.
  - apply calm_sign.
  - unfold signature_encode_t. calmt.
  - apply calm_uses.
  - unfold key_verify_t. calmt.
  - apply calm_pub_keyid.
  - apply calm_keyid.
  - unfold key_fingerprint_t. apply calm_bind; [apply calm_keyid|]. intros; constructor.
  - unfold exkey_derive_t. apply calm_bind; [apply calm_derive|]. intros. calmt.
  - unfold expubkey_derive_t. apply calm_bind; [apply calm_pub_derive|]. intros. calmt.
  - unfold exkey_get_pub_t. calmt2.
Qed.
Lemma calm_thread h {E} (cs : list (call E)) : calm h (thread_prog cs).
Proof.
  induction cs as [|c cs IH]; cbn [thread_prog]; [constructor|]. apply calm_bind; [apply calm_call|]. intros v.
  apply calm_bind; [exact IH|]. intros; constructor.
Qed.

(** Undisturbed calls are the calls of M_Key. *)
Ltac al := repeat first
  [ reflexivity
  | rewrite alone_bind
  | rewrite alone_lib
  | rewrite alone_halt
  | progress cbn [get_ptr]
  | apply bind_same; intros ?
  | match goal with |- alone (if ?b then _ else _) _ = _ => destruct b end
  | match goal with |- alone (match ?x with _ => _ end) _ = _ => destruct x end ].

Lemma alone_new g fuel : forall rf d j mem, alone (key_new_t fuel rf d j mem) g = key_new fuel rf d j g mem.
Proof.
  induction fuel as [|fuel IH]; intros; cbn [key_new_t key_new]; [reflexivity|]. rewrite alone_bind. apply bind_same. intros r.
  destruct r; try reflexivity. rewrite alone_bind, alone_lib. apply bind_same. intros b. destruct b; [reflexivity|apply IH].
Qed.
Lemma alone_encode E g k o l : alone (key_encode_t E k o l) g = key_encode E g k o l.
Proof. unfold key_encode_t, key_encode. al. Qed.
Lemma alone_get_pub E g k : alone (key_get_pub_t E k) g = key_get_pub E g k.
Proof. unfold key_get_pub_t, key_get_pub. al. Qed.
Lemma alone_pub_encode E g P o l : alone (pubkey_encode_t E P o l) g = pubkey_encode E g P o l.
Proof. unfold pubkey_encode_t, pubkey_encode. al. Qed.
Lemma alone_pub_decode E g e l : alone (pubkey_decode_t E e l) g = pubkey_decode E g e l.
Proof. unfold pubkey_decode_t, pubkey_decode. al. Qed.
Ltac al2 := repeat first
  [ reflexivity
  | rewrite alone_bind
  | rewrite alone_lib
  | rewrite alone_halt
  | rewrite alone_get_pub
  | rewrite alone_pub_encode
  | rewrite alone_pub_decode
  | progress cbn [get_ptr]
  | apply bind_same; intros ?
  | match goal with |- alone (if ?b then _ else _) _ = _ => destruct b end
  | match goal with |- alone (match ?x with _ => _ end) _ = _ => destruct x end ].
Lemma alone_derive E g k c ok oc i : alone (key_derive_t E k c ok oc i) g = key_derive E g k c ok oc i.
Proof.
  unfold key_derive_t, key_derive. rewrite alone_bind.
  match goal with |- bind ?x _ = bind ?y _ => replace x with y end.
  - apply bind_same. intros [ret out]. destruct (negb ret); al2.
  - symmetry. destruct (Z.shiftr i 31 =? 0); al2.
Qed.
Lemma alone_pub_derive E g k c ok oc i : alone (pubkey_derive_t E k c ok oc i) g = pubkey_derive E g k c ok oc i.
Proof. unfold pubkey_derive_t, pubkey_derive. al2. Qed.
Lemma alone_low g s : alone (SigHasLowR_t s) g = SigHasLowR g s.
Proof. unfold SigHasLowR_t, SigHasLowR. al. Qed.
Lemma alone_grind g fuel E : forall hash key s e n, alone (grind_t fuel E hash key s e n) g = grind fuel E g hash key s e n.
Proof.
  induction fuel as [|fuel IH]; intros; cbn [grind_t grind]; (destruct s; [|reflexivity]);
    rewrite alone_bind, alone_low; apply bind_same; intros b; destruct b; try reflexivity.
  cbv zeta. rewrite alone_bind. apply bind_same. intros e'. rewrite alone_bind, alone_lib. apply bind_same. intros s'. apply IH.
Qed.
Lemma alone_sign g fuel E k hash : alone (key_sign_t fuel E k hash) g = key_sign fuel E g k hash.
Proof.
  unfold key_sign_t, key_sign. rewrite alone_bind, alone_lib. apply bind_same. intros s. rewrite alone_bind, alone_grind. apply bind_same. intros r. al.
Qed.
Lemma alone_pub_keyid E g P b : alone (pubkey_keyid_t E P b) g = pubkey_keyid E g P b.
Proof. unfold pubkey_keyid_t, pubkey_keyid. cbv zeta. al2. Qed.
Lemma alone_keyid E g k b : alone (key_keyid_t E k b) g = key_keyid E g k b.
Proof. unfold key_keyid_t, key_keyid. rewrite alone_bind, alone_get_pub. apply bind_same. intros P. apply alone_pub_keyid. Qed.

Lemma alone_call g {E} (c : call E) : alone (call_prog c) g = call_alone g c.
Proof.
  destruct c; cbn [call_prog call_alone]; unfold give, given; rewrite alone_bind.
  - rewrite alone_new. reflexivity.
  - rewrite alone_encode. reflexivity.
  - reflexivity.
  - rewrite alone_get_pub. reflexivity.
  - rewrite alone_pub_encode. reflexivity.
  - rewrite alone_pub_decode. reflexivity.
  - rewrite alone_derive. reflexivity.
  - rewrite alone_pub_derive. reflexivity.
  - rewrite alone_sign. reflexivity.
  - unfold signature_encode_t, signature_encode. rewrite alone_bind, alone_lib. cbn [get_ptr].
    match goal with |- bind (bind ?x _) _ = bind (bind ?x _) _ => destruct x as [[bs|]| |]; reflexivity end.
  - reflexivity.
  - unfold key_verify_t, key_verify. rewrite alone_bind. reflexivity.
  - rewrite alone_pub_keyid. reflexivity.
  - rewrite alone_keyid. reflexivity.
  - unfold key_fingerprint_t, key_fingerprint. rewrite alone_bind, alone_keyid. reflexivity.
  - unfold exkey_derive_t, exkey_derive. rewrite alone_bind, alone_derive.
    match goal with |- bind (bind ?x _) _ = bind (bind ?x _) _ => destruct x as [[[r k] c]| |]; try reflexivity end.
    cbn [bind]. destruct r; reflexivity.
  - unfold expubkey_derive_t, expubkey_derive. rewrite alone_bind, alone_pub_derive.
    match goal with |- bind (bind ?x _) _ = bind (bind ?x _) _ => destruct x as [[[r k] c]| |]; try reflexivity end.
    cbn [bind]. destruct r; reflexivity.
  - unfold exkey_get_pub_t, exkey_get_pub. rewrite alone_bind, alone_get_pub.
    match goal with |- bind (bind ?x _) _ = bind (bind ?x _) _ => destruct x as [P| |]; try reflexivity end.
    cbn [bind]. rewrite alone_bind, alone_pub_encode.
    match goal with |- bind (bind ?x _) _ = bind (bind ?x _) _ => destruct x as [[r c]| |]; try reflexivity end.
    cbn [bind]. rewrite alone_bind. destruct r; reflexivity.
Qed.
Lemma alone_thread g {E} (cs : list (call E)) : alone (thread_prog cs) g = thread_alone g cs.
Proof.
  induction cs as [|c cs IH]; cbn [thread_prog thread_alone]; [reflexivity|]. rewrite alone_bind, alone_call.
  apply bind_same. intros v. rewrite alone_bind, IH. reflexivity.
Qed.

(** One step of a calm program. *)
Definition safe (st : globals * ctx_heap) : Prop :=
  usable (snd st) (g_sign (fst st)) = true /\ usable (snd st) (g_verify (fst st)) = true.
Lemma safe_ptr st p : safe st -> usable (snd st) (get_ptr (fst st) p) = true.
Proof. intros [A B]. destruct p; assumption. Qed.
Lemma calm_step {A} st (p : prog A) : safe st -> calm (snd st) p ->
  exists p', step st p = (st, p') /\ calm (snd st) p' /\ alone p' (fst st) = alone p (fst st) /\
    steps p' (fst st) = (steps p (fst st) - 1)%nat.
Proof.
  intros S C. destruct st as [g h]. cbn [fst snd] in *. destruct C as [r|p k K|c k U C]; cbn [step].
  - exists (Halt r). repeat split. constructor.
  - eexists. split; [reflexivity|]. split; [apply K; exact (safe_ptr (g, h) p S)|]. split; [reflexivity|]. cbn [steps]. lia.
  - rewrite U. eexists. split; [reflexivity|]. split; [exact C|]. split; [reflexivity|]. cbn [steps]. lia.
Qed.
Lemma calm_done {A} h (p : prog A) g : calm h p -> steps p g = 0%nat -> p = Halt (alone p g).
Proof. intros C H. destruct C; [reflexivity|discriminate H|discriminate H]. Qed.

Lemma exec_calm {A} sched : forall st (pool : nat -> prog A), safe st -> (forall i, calm (snd st) (pool i)) ->
  exists pool', exec sched st pool = (st, pool') /\ (forall i, calm (snd st) (pool' i)) /\
    (forall i, alone (pool' i) (fst st) = alone (pool i) (fst st)) /\
    (forall i, steps (pool' i) (fst st) = (steps (pool i) (fst st) - turns i sched)%nat).
Proof.
  induction sched as [|i sched IH]; intros st pool S C; cbn [exec].
  - exists pool. repeat split; auto. intros i. unfold turns. cbn. lia.
  - destruct (calm_step st (pool i) S (C i)) as (p' & E & C' & A' & S'). rewrite E.
    destruct (IH st (fun j => if (j =? i)%nat then p' else pool j) S) as (pool' & E2 & C2 & A2 & S2).
    + intros j. destruct (j =? i)%nat; auto.
    + exists pool'. split; [exact E2|]. split; [exact C2|]. split.
      * intros j. rewrite A2. destruct (Nat.eqb_spec j i) as [->|_]; auto.
      * intros j. rewrite S2. unfold turns. cbn [count_occ]. destruct (Nat.eqb_spec j i) as [->|N].
        -- destruct (Nat.eq_dec i i) as [_|N]; [|congruence]. rewrite S'. lia.
        -- destruct (Nat.eq_dec i j) as [H|_]; [congruence|]. reflexivity.
Qed.

Lemma calm_no_race {A} h (pool : nat -> prog A) : (forall i, calm h (pool i)) -> ~ race pool.
Proof.
  intros C (i & j & l & wi & wj & _ & Ai & Aj & W).
  assert (R : forall k w l, access (pool k) = Some (l, w) -> w = false).
  { intros k w l' H. destruct (C k) as [r|p k' _|c k' U _]; cbn [access] in H.
    - discriminate.
    - injection H as _ <-. reflexivity.
    - destruct c; [injection H as _ <-; reflexivity|discriminate]. }
  rewrite (R _ _ _ Ai), (R _ _ _ Aj) in W. discriminate.
Qed.

Lemma on_safe others st : on others st -> safe st.
Proof.
  intros (_ & _ & cs & cv & Es & Ev & L). unfold safe, usable. rewrite Es, Ev, L.
  split; apply existsb_exists; [exists (ctx_id cs)|exists (ctx_id cv)]; (split; [cbn; auto|apply Nat.eqb_refl]).
Qed.
