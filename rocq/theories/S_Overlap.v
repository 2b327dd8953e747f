(** The structures fingera_ex_key and fingera_ex_pubkey read from memory, as a C compiler lays
    them out: depth at 0, fingerprint at 4, child at 8 (both little endian), chain code at 12, and
    the key (32 bytes) or compressed public key (33 bytes) at 44. *)
From Verif Require Import Base S_Words S_Mem M_Secp M_Key M_Exkey M_Overlap.

Definition ext_at (mem : list Z) (a : nat) : ex_extension :=
  mkExt (nth a mem 0) (le_val (region mem (a + 4) 4)) (le_val (region mem (a + 8) 4)) (region mem (a + 12) 32).
Definition ex_key_at (mem : list Z) (a : nat) : ex_key := mkExKey (ext_at mem a) (region mem (a + 44) 32).
Definition ex_pubkey_at (mem : list Z) (a : nat) : ex_pubkey := mkExPub (ext_at mem a) (region mem (a + 44) 33).

Definition ex_key_size : nat := 76.
Definition ex_pubkey_size : nat := 80.

(** Memories [m] and [m'] differ at most inside [a, a+n). *)
Definition only_inside (m m' : list Z) (a n : nat) : Prop :=
  length m' = length m /\ forall p, (p < a \/ a + n <= p)%nat -> nth_error m' p = nth_error m p.

(** Walking a path: derive from one structure into a fresh one at every step... *)
Fixpoint walk (E : secp) (g : globals) (fresh k : ex_key) (path : list (Z * Z)) : res (bool * ex_key) :=
  match path with
  | [] => Ok (true, k)
  | (child, fp) :: t => '(r, k') <- exkey_derive E g k fresh child fp ;; if r : bool then walk E g fresh k' t else Ok (false, k')
  end.
(** ... or always into the same one. *)
Fixpoint walk_at (rule : copy_rule) (E : secp) (g : globals) (mem : list Z) (a : nat) (path : list (Z * Z)) : res (bool * list Z) :=
  match path with
  | [] => Ok (true, mem)
  | (child, fp) :: t => '(r, mem') <- exkey_derive_at rule E g mem a a child fp ;; if r : bool then walk_at rule E g mem' a t else Ok (false, mem')
  end.

(** The addresses word stores need under the [Strict] rule: the output a multiple of [w], the local block buffer a multiple of 8. *)
Definition aligned (rule : align_rule) (f : frame) (out w : nat) : Prop :=
  match rule with Strict => (out mod w = 0 /\ f_last_chunk f mod 8 = 0)%nat | AnyAddress => True end.
