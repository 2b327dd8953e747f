(** C129: Merkle trees.  The specification (Bitcoin's rule), and the client programs that build a tree and check a branch with the library. *)
From Verif Require Import Base S_Words S_Sha2 M_Endian M_Sha2 M_Hash S_Collide.

Definition H2 (x : list Z) : list Z := SHA256 (SHA256 x).
Definition hash32 (h : list Z) : Prop := bytes h /\ length h = 32%nat.

(** The 64-byte messages hashed on one level: neighbours together, a last one without a neighbour with itself. *)
Fixpoint pairs (l : list (list Z)) : list (list Z) :=
  match l with
  | a :: b :: r => (a ++ b) :: pairs r
  | [a] => [a ++ a]
  | [] => []
  end.
(** [merkle_root k l r]: the tree over the hashes [l] has [k] levels above [l], and [r] on top. *)
Inductive merkle_root : nat -> list (list Z) -> list Z -> Prop :=
| root_one a : merkle_root 0 [a] a
| root_up k l r : (2 <= length l)%nat -> merkle_root k (map H2 (pairs l)) r -> merkle_root (S k) l r.
(** The messages hashed for the tree over [l]. *)
Inductive hashed_in : list (list Z) -> list Z -> Prop :=
| hashed_here l m : (2 <= length l)%nat -> In m (pairs l) -> hashed_in l m
| hashed_up l m : (2 <= length l)%nat -> hashed_in (map H2 (pairs l)) m -> hashed_in l m.
(** Two named messages that collide under double SHA-256, and where. *)
Definition collide2 (x y : list Z) : Prop := collision SHA256 x y \/ collision SHA256 (SHA256 x) (SHA256 y).

(** The client that builds a tree in place over the [n] hashes at the start of [mem]: on each level it repeats the last hash if their number is
    odd, then calls fingera_btc_hash256_d64(mem, mem, (n + 1) / 2).  (A client of src/btc/hash.c:23-31, as in Bitcoin's ComputeMerkleRoot.)
    [fuel] bounds the number of levels. *)
Fixpoint merkle_run (fuel n : nat) (mem : list Z) : res (list Z) :=
  match fuel with
  | O => UB
  | S fuel =>
    if (n <=? 1)%nat then Ok mem else
    mem <- (if Nat.odd n then (h <- slice mem (32 * (n - 1)) 32 ;; store mem (32 * n) h) else Ok mem) ;;
    mem <- btc_hash256_d64 mem 0 0 ((n + 1) / 2) ;;
    merkle_run fuel ((n + 1) / 2) mem
  end.

(** The client that recomputes the root from the hash [a] at position [i] and the neighbours on the way up, with fingera_btc_hash256.
    (A client of src/btc/hash.c:14-18.) *)
Fixpoint branch_run (i : nat) (a : list Z) (path : list (list Z)) : res (list Z) :=
  match path with
  | [] => Ok a
  | s :: path => h <- btc_hash256 (if Nat.even i then a ++ s else s ++ a) 64 ;; branch_run (i / 2) h path
  end.
Fixpoint branch_hashed (i : nat) (a : list Z) (path : list (list Z)) : list (list Z) :=
  match path with
  | [] => []
  | s :: path => let m := if Nat.even i then a ++ s else s ++ a in m :: branch_hashed (i / 2) (H2 m) path
  end.
