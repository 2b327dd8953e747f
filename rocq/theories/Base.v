(** Base definitions shared by the models: outcomes of a C call, bytes, fixed
    width words, tables.  Nothing here models a particular C function. *)
From Coq Require Export ZArith List Bool Lia.
From Coq Require Export ZifyBool ZifyNat.
Export ListNotations.
Global Open Scope Z_scope.
Global Open Scope bool_scope.

(** [lia] that also understands [/] and [mod]. *)
Ltac dlia := zify; Z.div_mod_to_equations; lia.

(** Outcome of a C call: normal return, undefined behaviour, failed [assert]. *)
Inductive res (A : Type) : Type :=
| Ok (a : A)
| UB
| Abort.
Arguments Ok {A} a.
Arguments UB {A}.
Arguments Abort {A}.

Definition bind {A B} (x : res A) (f : A -> res B) : res B :=
  match x with Ok a => f a | UB => UB | Abort => Abort end.
Notation "x <- e1 ;; e2" := (bind e1 (fun x => e2))
  (at level 61, e1 at next level, right associativity).
Notation "' p <- e1 ;; e2" := (bind e1 (fun p => e2))
  (at level 61, p pattern, e1 at next level, right associativity).

(** [assert(c)] *)
Definition c_assert (c : bool) : res unit := if c then Ok tt else Abort.
(** an operation that is undefined unless [c] *)
Definition c_defined (c : bool) : res unit := if c then Ok tt else UB.

(** Bytes. *)
Definition is_byte (x : Z) : Prop := 0 <= x < 256.
Definition bytes (l : list Z) : Prop := Forall is_byte l.
Definition is_byteb (x : Z) : bool := (0 <=? x) && (x <? 256).

(** Fixed width unsigned arithmetic. *)
Definition u8 (x : Z) : Z := x mod 256.
Definition u32 (x : Z) : Z := x mod 2 ^ 32.
Definition u64 (x : Z) : Z := x mod 2 ^ 64.
Definition SIZE_MAX : Z := 2 ^ 64 - 1.
Definition INT_MAX : Z := 2 ^ 31 - 1.
Definition INT64_MIN : Z := - 2 ^ 63.
Definition INT64_MAX : Z := 2 ^ 63 - 1.

(** A [char] is signed: the value a byte has when read through [char*]. *)
Definition as_char (b : Z) : Z := if b <? 128 then b else b - 256.

(** Table lookup with an index the C code guarantees to be in range; an out of
    range index gives -1000, a value no table contains, so that no theorem can
    hold by accident of a default. *)
Definition tget (t : list Z) (i : Z) : Z :=
  if (0 <=? i) && (i <? Z.of_nat (length t)) then nth (Z.to_nat i) t (-1000) else -1000.
(** Table lookup where an out of range index is undefined behaviour. *)
Definition tget_ub (t : list Z) (i : Z) : res Z :=
  if (0 <=? i) && (i <? Z.of_nat (length t)) then Ok (nth (Z.to_nat i) t (-1000)) else UB.

(** Reading memory: [mem] is the list of readable bytes from the pointer on. *)
Definition rd (mem : list Z) (i : nat) : res Z :=
  match nth_error mem i with Some b => Ok b | None => UB end.

(** [0;1;...;n-1] as integers. *)
Definition zrange (n : nat) : list Z := map Z.of_nat (seq 0 n).

(* ------------------------------------------------------------------ *)
(** Generic facts. *)

Lemma bind_Ok {A B} (x : res A) (f : A -> res B) b :
  bind x f = Ok b -> exists a, x = Ok a /\ f a = Ok b.
Proof. destruct x as [a| |]; simpl; intros H; try discriminate; eauto. Qed.

Lemma in_zrange n x : 0 <= x < Z.of_nat n -> In x (zrange n).
Proof.
  intros H. unfold zrange. apply in_map_iff. exists (Z.to_nat x).
  split; [lia|]. apply in_seq. lia.
Qed.

Lemma sweep1 (n : nat) (P : Z -> bool) :
  forallb P (zrange n) = true -> forall x, 0 <= x < Z.of_nat n -> P x = true.
Proof. intros H x Hx. rewrite forallb_forall in H. apply H, in_zrange, Hx. Qed.

Lemma sweep2 (n m : nat) (P : Z -> Z -> bool) :
  forallb (fun x => forallb (P x) (zrange m)) (zrange n) = true ->
  forall x y, 0 <= x < Z.of_nat n -> 0 <= y < Z.of_nat m -> P x y = true.
Proof.
  intros H x y Hx Hy. pose proof (sweep1 n _ H x Hx) as H1. cbv beta in H1.
  exact (sweep1 m _ H1 y Hy).
Qed.

Lemma bytes_app l1 l2 : bytes (l1 ++ l2) <-> bytes l1 /\ bytes l2.
Proof. apply Forall_app. Qed.

Lemma bytes_cons x l : bytes (x :: l) <-> is_byte x /\ bytes l.
Proof. unfold bytes. rewrite Forall_cons_iff. reflexivity. Qed.

Lemma bytes_nil : bytes [].
Proof. constructor. Qed.

Lemma u8_byte x : is_byte (u8 x).
Proof. unfold is_byte, u8. apply Z.mod_pos_bound. lia. Qed.

Lemma u8_id x : is_byte x -> u8 x = x.
Proof. unfold is_byte, u8. intros. apply Z.mod_small. lia. Qed.

Lemma lor_disjoint a b k : 0 <= k -> 0 <= b < 2 ^ k -> Z.lor (a * 2 ^ k) b = a * 2 ^ k + b.
Proof.
  intros Hk Hb. assert (Hp : 0 < 2 ^ k) by lia. symmetry. apply Z.bits_inj'. intros n Hn.
  rewrite Z.lor_spec. rewrite <- !Z.shiftl_mul_pow2 by lia.
  destruct (Z.lt_ge_cases n k) as [Hlt|Hge].
  - rewrite Z.shiftl_spec_low by lia. simpl.
    rewrite Z.shiftl_mul_pow2 by lia.
    rewrite <- (Z.mod_pow2_bits_low (a * 2 ^ k + b) k n) by lia.
    rewrite <- (Z.mod_pow2_bits_low b k n) by lia.
    f_equal. rewrite Z.add_comm, Z.mod_add by lia. reflexivity.
  - assert (Hbn : Z.testbit b n = false).
    { destruct (Z.eq_dec b 0) as [->|Hb0]; [apply Z.bits_0|].
      apply Z.bits_above_log2; [lia|].
      assert (Z.log2 b < k) by (apply Z.log2_lt_pow2; lia). lia. }
    rewrite Hbn, orb_false_r. rewrite Z.shiftl_spec by lia.
    rewrite Z.shiftl_mul_pow2 by lia.
    replace n with ((n - k) + k) at 1 by lia.
    rewrite <- Z.div_pow2_bits by lia.
    rewrite Z.div_add_l by lia. rewrite (Z.div_small b) by lia. f_equal. lia.
Qed.

Lemma land_ones' a k : 0 <= k -> Z.land a (2 ^ k - 1) = a mod 2 ^ k.
Proof. intros. rewrite <- Z.land_ones by lia. rewrite Z.ones_equiv. f_equal. Qed.

Lemma firstn_app_exact {A} (l1 l2 : list A) : firstn (length l1) (l1 ++ l2) = l1.
Proof. rewrite firstn_app, Nat.sub_diag, firstn_all. simpl. apply app_nil_r. Qed.

Lemma skipn_app_exact {A} (l1 l2 : list A) : skipn (length l1) (l1 ++ l2) = l2.
Proof. rewrite skipn_app, Nat.sub_diag, skipn_all. reflexivity. Qed.

Lemma nth_error_app_exact {A} (l1 : list A) x l2 : nth_error (l1 ++ x :: l2) (length l1) = Some x.
Proof. rewrite nth_error_app2 by lia. rewrite Nat.sub_diag. reflexivity. Qed.

Lemma length_strong_ind {A} (P : list A -> Prop) :
  (forall l, (forall l', (length l' < length l)%nat -> P l') -> P l) -> forall l, P l.
Proof.
  intros H l. assert (G : forall n l, (length l <= n)%nat -> P l).
  { induction n as [|n IH]; intros l0 Hl; apply H; intros l' Hl'; [lia|]. apply IH. lia. }
  apply (G (length l)). lia.
Qed.
