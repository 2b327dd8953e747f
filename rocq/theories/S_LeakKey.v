(** Specification for C138: the plain client, and what may be told apart. *)
From Verif Require Import Base M_Random M_Secp M_Key M_Exkey S_Sign.

(** Follow a path (child numbers with the fingerprints to store), back and forth between two structures. *)
Fixpoint walk_two (E : secp) (g : globals) (cur other : ex_key) (path : list (Z * Z)) : res (option ex_key) :=
  match path with
  | [] => Ok (Some cur)
  | (child, fp) :: rest =>
      '(r, d) <- exkey_derive E g cur other child fp ;;
      if r : bool then walk_two E g d cur rest else Ok None
  end.
(** From a seed to a signature. *)
Definition wallet_sign (fuel : nat) (E : secp) (g : globals) (b1 b2 : ex_key) (seed : list Z) (len : nat) (path : list (Z * Z)) (hash : list Z)
  : res (option (outcome (Z * Z))) :=
  k <- exkey_init b1 seed len ;;
  r <- walk_two E g k b2 path ;;
  match r with
  | None => Ok None
  | Some k => s <- key_sign fuel E g (xk_key k) hash ;; Ok (Some s)
  end.

(** Both hardened or both not. *)
Definition same_kind (i j : Z) : Prop := i < 2 ^ 31 <-> j < 2 ^ 31.
(** Signing takes [c] attempts after the first one. *)
Definition attempts (E : secp) (key hash : list Z) (c : nat) : Prop :=
  low_r (attempt E key hash c) /\ forall j, (j < c)%nat -> ~ low_r (attempt E key hash j).
(** One step of a path: a child number and a fingerprint, 32 bits each. *)
Definition valid_step (s : Z * Z) : Prop := 0 <= fst s < 2 ^ 32 /\ 0 <= snd s < 2 ^ 32.
(** Two paths of the same length that are hardened at the same places. *)
Definition same_path (p q : list (Z * Z)) : Prop := Forall2 (fun a b => same_kind (fst a) (fst b)) p q.
